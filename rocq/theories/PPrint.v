(** * The buffer of get_str *)
From Coq Require Import ZArith NArith Reals Bool Ascii String List Lia Lra.
From Flocq Require Import Core.Core IEEE754.BinarySingleNaN.
From Verif Require Import Fmt Spec Exc Deco SpecApi MBase PBase MBool MNum MStream MDecoIo MText MMpfr MPrint PText PText2 FloatFacts.
Import ListNotations.
Local Open Scope R_scope.

(** ** Upward rounded MPFR calls *)
Lemma mp_call_up E p v e : (0 < p)%Z -> v <= bpow radix2 e -> (g_emin E - 1 <= e < g_emax E)%Z ->
  exists r, fst (mp_call E p mode_UP v) = VNum r /\ v <= r <= bpow radix2 e.
Proof.
intros Hp Hv He. unfold mp_call, mp_round. cbn [round_mode]. set (y := round radix2 (FLX_exp p) Zceil v).
assert (Hvp : Valid_exp (FLX_exp p)) by (apply FLX_exp_valid; exact Hp).
assert (A : v <= y) by (apply round_UP_pt; easy).
assert (B : y <= bpow radix2 e). { apply round_le_generic; try typeclasses eauto; [|easy]. apply generic_format_bpow. unfold FLX_exp. lia. }
assert (C := bpow_gt_0 radix2 e). unfold check_range.
destruct (Req_bool_spec y 0) as [Y|Y]; [exists 0; cbn; split; [easy|lra]|].
destruct (Rlt_bool_spec (Rabs y) (bpow radix2 (g_emin E - 1))) as [L|L].
{ destruct (Rlt_bool_spec y 0) as [N|N]; cbn [fst]; [exists 0; split; [easy|lra]|].
  unfold signed. rewrite Rlt_bool_false by easy. exists (bpow radix2 (g_emin E - 1)). split; [easy|].
  rewrite Rabs_pos_eq in L by easy. split; [lra|]. apply bpow_le. lia. }
destruct (Rle_bool_spec (bpow radix2 (g_emax E)) (Rabs y)) as [O|O].
{ assert (Ny : y < 0). { apply Rnot_le_lt. intros H. rewrite Rabs_pos_eq in O by easy. assert (bpow radix2 e < bpow radix2 (g_emax E)) by (apply bpow_lt; lia). lra. }
  rewrite Rlt_bool_true by easy. cbn [overflow_to_inf fst]. rewrite Rabs_left in O by easy. unfold signed. rewrite Rlt_bool_true by easy.
  eexists. split; [reflexivity|]. assert (bpow radix2 (- p) < 1) by (change 1 with (bpow radix2 0); apply bpow_lt; lia).
  assert (D := bpow_gt_0 radix2 (- p)). assert (G := bpow_gt_0 radix2 (g_emax E)). split; nra. }
exists y. split; [easy|lra].
Qed.

Lemma pow2_up n : (0 < n)%Z -> IZR n <= bpow radix2 (Z.log2_up n).
Proof. intros H. rewrite <- IZR_pow by apply Z.log2_up_nonneg. apply IZR_le. change (radix_val radix2) with 2%Z. now apply Z.log2_log2_up_spec. Qed.
Lemma log2_up_le n : (1 <= n)%Z -> (Z.log2_up n < n)%Z.
Proof. intros H. destruct (Z.eq_dec n 1) as [->|]; [easy|]. apply Z.log2_up_lt_lin. lia. Qed.

Lemma ln_10_pos : 0 < ln 10.
Proof. rewrite <- ln_1. apply ln_increasing; lra. Qed.
Lemma log10_le r e : 0 < r -> r <= bpow radix2 e -> (0 <= e)%Z -> log10 r <= IZR e.
Proof.
intros Hr H He. unfold log10. pose proof ln_10_pos as P. apply Rmult_le_reg_r with (ln 10); [easy|].
unfold Rdiv. rewrite Rmult_assoc, Rinv_l by lra. rewrite Rmult_1_r.
apply Rle_trans with (ln (bpow radix2 e)). { destruct H as [H|H]; [left; now apply ln_increasing|right; now rewrite H]. }
rewrite bpow_exp, ln_exp. apply Rmult_le_compat_l; [apply IZR_le; easy|]. left. apply ln_increasing; cbn; lra.
Qed.
Lemma log10_lt_inv r e : 0 < r -> (0 <= e)%Z -> log10 r < IZR e -> r < IZR (10 ^ e).
Proof.
intros Hr He H. unfold log10 in H. pose proof ln_10_pos as P. apply Rmult_lt_compat_r with (r := ln 10) in H; [|easy].
unfold Rdiv in H. rewrite Rmult_assoc, Rinv_l, Rmult_1_r in H by lra.
apply ln_lt_inv; [easy| |].
- apply IZR_lt. apply Z.pow_pos_nonneg; lia.
- change 10%Z with (radix_val (Build_radix 10 eq_refl)). rewrite IZR_Zpower by easy. rewrite bpow_exp, ln_exp. exact H.
Qed.

Section Buf.
Context (F : fmt).
Notation E := (setup_env (F := F)).
Definition big : Z := Z.max (- v_emin (var_of F)) (v_emax (var_of F)) + 1.
Lemma emax3 : (3 <= emax F)%Z. Proof. pose proof (fmt_prec1 F). pose proof (fmt_emax F). lia. Qed.
Lemma big_eq : big = (Z.max (emax F + prec F - 4) (emax F) + 1)%Z.
Proof. unfold big, var_of. cbn [v_emin v_emax]. f_equal. lia. Qed.
Lemma pow_lin n : (3 <= n)%Z -> (2 * n - 2 <= 2 ^ (n - 1))%Z.
Proof.
intros H. assert (G : (0 <= n - 3)%Z) by lia. replace n with (n - 3 + 3)%Z by lia. revert G. generalize (n - 3)%Z. clear.
apply natlike_ind; [cbn; lia|]. intros k Hk IH. replace (Z.succ k + 3 - 1)%Z with (Z.succ (k + 3 - 1)) by lia. rewrite Z.pow_succ_r by lia. lia.
Qed.
Lemma log2_up_big : (Z.log2_up big < emax F)%Z /\ (4 <= big)%Z.
Proof.
pose proof (fmt_prec1 F). pose proof (fmt_emax F). pose proof emax3. rewrite big_eq. split; [|lia].
apply Z.le_lt_trans with (emax F - 1)%Z; [|lia]. apply Z.log2_up_le_pow2; [lia|]. pose proof (pow_lin (emax F) H1). lia.
Qed.
Lemma Ebounds e : (0 <= e < emax F)%Z -> (g_emin E - 1 <= e < g_emax E)%Z.
Proof. pose proof (fmt_prec1 F). pose proof (fmt_emax F). unfold setup_env, setup, var_of. cbn [g_emin g_emax v_emin v_emax]. lia. Qed.

Lemma req_exp_spec : (emax F <= 2 ^ 62)%Z ->
  (Z.of_N (req_exp (F := F) E) <= 64)%Z /\ (big < 3 * 10 ^ (Z.of_N (req_exp (F := F) E) + 1))%Z.
Proof.
intros H62. destruct log2_up_big as [L B4]. pose proof (fmt_prec1 F) as P1. pose proof (fmt_emax F) as P2.
assert (L0 := Z.log2_up_nonneg big).
assert (L63 : (Z.log2_up big <= 63)%Z). { apply Z.log2_up_le_pow2; [lia|]. rewrite big_eq. lia. }
assert (B4' : 4 <= IZR big) by (apply IZR_le; easy).
unfold req_exp. fold big. cbv zeta.
destruct (mp_call_up E (prec F) (IZR big) (Z.log2_up big)) as (r1 & -> & A1 & C1); [lia|apply pow2_up; lia|apply Ebounds; lia|].
cbn [mp_div_up].
destruct (mp_call_up E (prec F) (r1 / 3) (Z.log2_up big)) as (r2 & -> & A2 & C2); [lia|lra|apply Ebounds; lia|].
cbn [mp_log10]. rewrite Req_bool_false by lra.
assert (L1 : log10 r2 <= bpow radix2 (Z.log2_up (Z.log2_up big))).
{ apply Rle_trans with (IZR (Z.log2_up big)); [apply log10_le; try lra; lia|]. apply pow2_up. apply Z.log2_up_pos. lia. }
destruct (mp_call_up E (prec F) (log10 r2) (Z.log2_up (Z.log2_up big))) as (r3 & -> & A3 & C3); [lia|exact L1| |].
{ apply Ebounds. split; [apply Z.log2_up_nonneg|]. assert (1 <= Z.log2_up big)%Z by (pose proof (Z.log2_up_pos big); lia). pose proof (log2_up_le _ H). lia. }
assert (C64 : r3 <= 64).
{ apply Rle_trans with (1 := C3). change 64 with (bpow radix2 6). apply bpow_le. apply Z.log2_up_le_pow2; [assert (1 <= Z.log2_up big)%Z by (pose proof (Z.log2_up_pos big); lia); lia|]. cbn. lia. }
cbn [get_ui round_mode].
assert (Hlog : log10 (IZR big / 3) <= r3).
{ apply Rle_trans with (2 := A3). unfold log10. apply Rmult_le_compat_r; [left; apply Rinv_0_lt_compat, ln_10_pos|].
  assert (G : IZR big / 3 <= r2) by lra. destruct G as [G|G]; [left; apply ln_increasing; lra|right; now rewrite G]. }
assert (H0 : 0 <= log10 (IZR big / 3)).
{ unfold log10. apply Rmult_le_pos; [|left; apply Rinv_0_lt_compat, ln_10_pos]. rewrite <- ln_1. left. apply ln_increasing; lra. }
assert (F0 : (0 <= Zfloor r3)%Z) by (apply Zfloor_lub; lra).
assert (F64 : (Zfloor r3 <= 64)%Z). { apply le_IZR. apply Rle_trans with (1 := Zfloor_lb r3). easy. }
rewrite Z.max_r by easy. rewrite Z.min_r by (apply Z.le_trans with (1 := F64); easy). rewrite Z2N.id by easy.
split; [easy|]. apply lt_IZR. rewrite mult_IZR.
assert (IZR big / 3 < IZR (10 ^ (Zfloor r3 + 1))).
{ apply log10_lt_inv; [lra|lia|]. rewrite plus_IZR. pose proof (Zfloor_ub r3). lra. }
lra.
Qed.
Lemma req_prec_spec : (emax F <= 2 ^ 62)%Z ->
  (prec F <= 4 * Z.of_N (req_prec (F := F) E) )%Z /\ (Z.of_N (req_prec (F := F) E) <= 2 * prec F)%Z.
Proof.
intros H62. pose proof (fmt_prec1 F) as P1. pose proof (fmt_emax F) as P2.
assert (L : (0 <= Z.log2_up (prec F) < emax F)%Z). { split; [apply Z.log2_up_nonneg|]. pose proof (log2_up_le (prec F)). lia. }
unfold req_prec.
assert (P1' := IZR_lt _ _ P1).
destruct (mp_call_up E (prec F) (IZR (prec F)) (Z.log2_up (prec F))) as (r1 & -> & A1 & C1); [lia|apply pow2_up; lia|apply Ebounds; lia|].
cbn [mp_div_up].
destruct (mp_call_up E (prec F) (r1 / 4) (Z.log2_up (prec F))) as (r2 & -> & A2 & C2); [lia|lra|apply Ebounds; lia|].
cbn [get_ui round_mode].
assert (U : bpow radix2 (Z.log2_up (prec F)) <= IZR (2 * prec F)).
{ rewrite <- IZR_pow by lia. apply IZR_le. change (radix_val radix2) with 2%Z. destruct (Z.log2_up_spec (prec F)) as [H _]; [lia|].
  assert (0 < Z.log2_up (prec F))%Z by (apply Z.log2_up_pos; lia). replace (Z.log2_up (prec F)) with (Z.succ (Z.pred (Z.log2_up (prec F)))) by lia. rewrite Z.pow_succ_r by lia. lia. }
assert (C0 : (0 <= Zceil r2)%Z). { apply le_IZR. apply Rle_trans with (2 := Zceil_ub r2). lra. }
assert (C2' : (Zceil r2 <= 2 * prec F)%Z). { apply Zceil_glb. lra. }
rewrite Z.max_r by easy. rewrite Z.min_r by lia. rewrite Z2N.id by easy. split; [|easy].
apply le_IZR. rewrite mult_IZR. pose proof (Zceil_ub r2). lra.
Qed.
Lemma hex_width p x : (emax F <= 2 ^ 62)%Z ->
  Z.of_N (req_width (F := F) E r_hex p x) = (Z.of_N (req_prec (F := F) E) + Z.of_N (req_exp (F := F) E) + 9)%Z.
Proof.
intros H. destruct (req_exp_spec H) as [A _]. destruct (req_prec_spec H) as [_ B]. pose proof (fmt_emax F). cbn [req_width]. unfold ulong.
rewrite N.mod_small; [lia|]. apply N2Z.inj_lt. rewrite N2Z.inj_pow. lia.
Qed.
Lemma req_digits_small x : (emax F <= 2 ^ 62)%Z -> is_finite x = true -> (Z.of_N (req_digits (F := F) E x) <= 2 ^ 63)%Z.
Proof.
intros H62 Hx. pose proof emax3 as E3. pose proof (fmt_prec1 F) as P1. pose proof (fmt_emax F) as P2.
assert (Hb : Rabs (B2R x) < bpow radix2 (emax F)) by (apply abs_B2R_lt_emax).
unfold req_digits. assert (Hm : mp_abs x = VNum (Rabs (B2R x))) by now destruct x. rewrite Hm. cbn [mp_log10].
destruct (Req_bool_spec (Rabs (B2R x)) 0) as [Z0|Z0]; [cbn; lia|]. assert (Hp := Rabs_pos (B2R x)).
destruct (mp_call_up E (prec F) (log10 (Rabs (B2R x))) (Z.log2_up (emax F))) as (r & -> & A & C); [lia| | |].
{ apply Rle_trans with (IZR (emax F)); [apply log10_le; try lra; lia|]. apply pow2_up. lia. }
{ apply Ebounds. split; [apply Z.log2_up_nonneg|]. pose proof (log2_up_le (emax F)). lia. }
cbn [get_ui round_mode].
assert (r <= IZR (2 ^ 63)).
{ apply Rle_trans with (1 := C). change (2 ^ 63)%Z with (radix2 ^ 63)%Z. rewrite IZR_pow by lia. apply bpow_le. apply Z.log2_up_le_pow2; lia. }
assert (Zfloor r <= 2 ^ 63)%Z. { apply le_IZR. apply Rle_trans with (1 := Zfloor_lb r). easy. }
rewrite Z2N.id; lia.
Qed.

(** ** Lengths of texts *)
Lemma padded_length w l : length (padded w l) = Nat.max w (length l).
Proof. unfold padded, spaces. rewrite app_length, repeat_length. lia. Qed.
Lemma sign_length s : (length (sign_text s) <= 1)%nat.
Proof. destruct s; cbn; lia. Qed.
Definition regular (ma e : Z) : Prop :=
  (ma = 0 /\ e = 0)%Z \/ (0 < ma /\ Z.log2 ma < prec F /\ emin F <= Z.log2 ma + e < emax F)%Z.
Lemma finite_cases (x : float F) : is_finite x = true ->
  exists s ma e, B2R x = sgn s (IZR ma * bpow radix2 e) /\ (0 <= ma)%Z /\
    (forall c up m p, number_text c up m p x = sign_text s ++ conv c up m p s ma e) /\
    regular ma e.
Proof.
destruct x as [s| | |s ma e Hb]; try easy; intros _.
- exists s, 0%Z, 0%Z. repeat split; [|lia|now left]. cbn. destruct s; cbn; ring.
- exists s, (Zpos ma), e. repeat split; [|lia|].
  { destruct s; cbn [B2R SpecFloat.cond_Zopp sgn]; unfold F2R; cbn [Fnum Fexp]; [change (Z.opp (Zpos ma)) with (- Zpos ma)%Z; rewrite opp_IZR|]; ring. }
  right. split; [lia|]. pose proof (bounded_lt_emax _ _ _ _ Hb) as H1. pose proof (bounded_ge_emin _ _ _ _ Hb) as H2.
  unfold F2R in H1, H2; cbn [Fnum Fexp] in H1, H2.
  assert (Hm := Z.log2_spec (Zpos ma) eq_refl). destruct Hm as [Hm1 Hm2].
  assert (L0 := Z.log2_nonneg (Zpos ma)).
  assert (M1 : bpow radix2 (Z.log2 (Zpos ma)) <= IZR (Zpos ma)). { rewrite <- IZR_pow by easy. now apply IZR_le. }
  assert (M2 : IZR (Zpos ma) < bpow radix2 (Z.log2 (Zpos ma) + 1)). { rewrite <- IZR_pow by lia. apply IZR_lt. rewrite Z.add_1_r. exact Hm2. }
  assert (Pe := bpow_gt_0 radix2 e).
  split.
  + unfold SpecFloat.bounded, SpecFloat.canonical_mantissa in Hb. apply andb_prop in Hb. destruct Hb as [Hb _]. apply Zeq_bool_eq in Hb.
    rewrite Zpos_digits2_pos in Hb. destruct (Zdigits_correct radix2 (Zpos ma)) as [D _]. change (Z.abs (Zpos ma)) with (Zpos ma) in D.
    assert (D2 : (Zdigits radix2 (Zpos ma) - 1 <= Z.log2 (Zpos ma))%Z).
    { apply Z.log2_le_pow2; [lia|]. exact D. }
    destruct (Zdigits_correct radix2 (Zpos ma)) as [_ D3]. change (Z.abs (Zpos ma)) with (Zpos ma) in D3.
    assert (D4 : (Z.log2 (Zpos ma) < Zdigits radix2 (Zpos ma))%Z). { apply Z.log2_lt_pow2; [lia|]. exact D3. }
    unfold SpecFloat.fexp in Hb. lia.
  + split.
    * assert (bpow radix2 (emin F) < bpow radix2 (Z.log2 (Zpos ma) + 1 + e)).
      { apply Rle_lt_trans with (1 := H2). rewrite bpow_plus. now apply Rmult_lt_compat_r. }
      apply lt_bpow in H. lia.
    * apply (lt_bpow radix2). apply Rle_lt_trans with (2 := H1). rewrite bpow_plus. apply Rmult_le_compat_r; [lra|easy].
Qed.

Definition radix10 : radix := Build_radix 10 eq_refl.
Definition radix16 : radix := Build_radix 16 eq_refl.
Lemma frac_spec ma e : (0 <= ma)%Z -> let '(n, d) := frac ma e in
  (0 <= n)%Z /\ (0 < d)%Z /\ ratio n d = IZR ma * bpow radix2 e /\ ((0 < ma)%Z -> (0 < n)%Z).
Proof.
intros H. unfold frac. pose proof (shift_spec radix2 e ma 1 H eq_refl) as S. change (radix_val radix2) with 2%Z in S.
destruct (shift 2 e ma 1) as [n d]. destruct S as (A & B & C & D). repeat split; try easy. rewrite C. unfold ratio. field.
Qed.
Lemma bpow16 k : bpow radix16 k = bpow radix2 (4 * k).
Proof.
rewrite !bpow_exp. f_equal. change (IZR (radix_val radix16)) with 16. change (IZR (radix_val radix2)) with 2.
replace 16 with (2 ^ 4) by ring. rewrite ln_pow by lra. rewrite mult_IZR. simpl INR. ring.
Qed.

(** Exponents: |4k| has at most req_exp + 2 digits. *)
Lemma exp_digits k : (emax F <= 2 ^ 62)%Z -> (emin F - 3 <= k <= emax F + 3)%Z ->
  (Z.of_nat (ndig 10 (Z.abs k)) <= Z.of_N (req_exp (F := F) E) + 2)%Z.
Proof.
intros H62 Hk. destruct (req_exp_spec H62) as [_ B]. pose proof (fmt_prec1 F). pose proof (fmt_emax F). rewrite big_eq in B.
apply ndig_le; [lia|lia|lia|]. replace (Z.of_N (req_exp (F := F) E) + 2)%Z with (Z.succ (Z.of_N (req_exp (F := F) E) + 1)) by lia. rewrite Z.pow_succ_r by lia.
unfold emin in Hk. lia.
Qed.
Lemma hex_length up k j z N : (emax F <= 2 ^ 62)%Z -> (forall l, length (z l) <= length l)%nat ->
  (emin F - 3 <= 4 * k <= emax F + 3)%Z -> (0 <= N < 16 ^ (j + 1))%Z -> (0 <= j)%Z -> (4 * j <= prec F + 3)%Z ->
  (Z.of_nat (length (body up 16 (Z.to_nat j) N z ++ exp2 up (4 * k))) <= Z.of_N (req_prec (F := F) E) + Z.of_N (req_exp (F := F) E) + 6)%Z.
Proof.
intros H62 Hz Hk HN Hj Hjp. destruct (req_prec_spec H62) as [RP _]. rewrite app_length, exp2_length. pose proof (exp_digits (4 * k) H62 Hk) as HE.
assert (HB : (length (body up 16 (Z.to_nat j) N z) <= ndig 16 (N / 16 ^ j) + 1 + Z.to_nat j)%nat).
{ unfold body. rewrite Z2Nat.id by easy. rewrite app_length, digs_length. pose proof (point_length_le (z (fixdigs up 16 (Z.to_nat j) N))) as H.
  specialize (Hz (fixdigs up 16 (Z.to_nat j) N)). rewrite fixdigs_length in Hz. lia. }
assert (Hd : (Z.of_nat (ndig 16 (N / 16 ^ j)) <= 1)%Z).
{ assert (0 < 16 ^ j)%Z by (apply Z.pow_pos_nonneg; lia).
  apply ndig_le; [lia|apply Z.div_pos; lia|lia|]. apply Z.div_lt_upper_bound; [easy|]. rewrite Z.pow_add_r in HN by lia. lia. }
lia.
Qed.
Lemma hex_exact_length up ma e : (emax F <= 2 ^ 62)%Z -> regular ma e ->
  (Z.of_nat (length (conv_a_exact up ma e)) <= Z.of_N (req_prec (F := F) E) + Z.of_N (req_exp (F := F) E) + 6)%Z.
Proof.
intros H62 Hc. pose proof (fmt_prec1 F) as P1. pose proof (fmt_emax F) as P2.
unfold conv_a_exact. set (k := if (ma =? 0)%Z then 0%Z else _). cbv zeta. set (j := Z.max 0 _).
assert (Hk : (4 * k <= Z.log2 ma + e < 4 * k + 4)%Z /\ (emin F - 3 <= 4 * k <= emax F + 3)%Z /\ (4 * k - e <= prec F - 1)%Z /\ (0 <= Z.log2 ma)%Z /\ (0 <= ma < 2 ^ (Z.log2 ma + 1))%Z).
{ destruct Hc as [[-> ->]|Hc]; unfold k.
  - rewrite Z.eqb_refl. cbn [Z.log2]. unfold emin. lia.
  - destruct (Z.eqb_spec ma 0) as [->|Nz]; [lia|].
    assert (D := Z.div_mod (Z.log2 ma + e) 4 ltac:(lia)). assert (D2 := Z.mod_pos_bound (Z.log2 ma + e) 4 ltac:(lia)). pose proof (Z.log2_nonneg ma).
    destruct (Z.log2_spec ma) as [_ Q]; [lia|]. rewrite Z.add_1_r. lia. }
destruct Hk as (K1 & K2 & K3 & K4 & K5).
assert (D := Z.div_mod (4 * k - e + 3) 4 ltac:(lia)). assert (D2 := Z.mod_pos_bound (4 * k - e + 3) 4 ltac:(lia)).
apply hex_length; try easy; try lia; [apply strip_length|].
assert (X : (0 <= e + 4 * (j - k))%Z) by lia.
assert (0 < 2 ^ (e + 4 * (j - k)))%Z by (apply Z.pow_pos_nonneg; lia). split; [nia|].
apply Z.lt_le_trans with (2 ^ (Z.log2 ma + 1) * 2 ^ (e + 4 * (j - k)))%Z; [nia|]. rewrite <- Z.pow_add_r by lia.
change 16%Z with (2 ^ 4)%Z. rewrite <- Z.pow_mul_r by lia. apply Z.pow_le_mono_r; lia.
Qed.
Lemma hex_prec_length up m s p ma e : (emax F <= 2 ^ 62)%Z -> regular ma e -> (4 * Z.of_nat p <= prec F + 3)%Z ->
  let '(n, d) := frac ma e in
  (Z.of_nat (length (conv_a up m s p n d)) <= Z.of_N (req_prec (F := F) E) + Z.of_N (req_exp (F := F) E) + 6)%Z.
Proof.
intros H62 Hc Hp. pose proof (fmt_prec1 F) as P1. pose proof (fmt_emax F) as P2.
assert (Hma : (0 <= ma)%Z) by (destruct Hc; lia).
pose proof (frac_spec ma e Hma) as H. destruct (frac ma e) as [n d]. destruct H as (A & B & C & D).
unfold conv_a.
assert (HN : let '(N, k) := sci 16 m s p n d in (0 <= N < 16 ^ (Z.of_nat p + 1))%Z /\ (emin F - 3 <= 4 * k <= emax F + 3)%Z).
{ destruct Hc as [[-> ->]|Hc].
  - assert (n = 0%Z). { unfold ratio in C. replace (IZR 0 * bpow radix2 0) with 0 in C by ring. apply eq_IZR. apply IZR_lt in B. apply Rmult_eq_reg_r with (/ IZR d); [|apply Rinv_neq_0_compat; lra]. unfold Rdiv in C. lra. }
    subst n. rewrite sci_zero. assert (0 < 16 ^ (Z.of_nat p + 1))%Z by (apply Z.pow_pos_nonneg; lia). unfold emin. lia.
  - assert (Hn : (0 < n)%Z) by (apply D; lia). pose proof (sci_spec radix16 m s p n d Hn B) as S. change (radix_val radix16) with 16%Z in S.
    destruct (sci 16 m s p n d) as [N k]. destruct S as (S1 & _ & S2). assert (0 < 16 ^ Z.of_nat p)%Z by (apply Z.pow_pos_nonneg; lia).
    split; [lia|]. destruct (ilog_mag radix16 n d Hn B) as [[I1 I2] _]. change (radix_val radix16) with 16%Z in I1, I2.
    rewrite C in I1, I2. rewrite bpow16 in I1, I2.
    assert (Hm := Z.log2_spec ma ltac:(lia)). destruct Hm as [Hm1 Hm2]. assert (L0 := Z.log2_nonneg ma). assert (Pe := bpow_gt_0 radix2 e).
    assert (M1 : bpow radix2 (Z.log2 ma + e) <= IZR ma * bpow radix2 e).
    { rewrite bpow_plus. apply Rmult_le_compat_r; [lra|]. rewrite <- IZR_pow by easy. now apply IZR_le. }
    assert (M2 : IZR ma * bpow radix2 e < bpow radix2 (Z.log2 ma + 1 + e)).
    { rewrite bpow_plus. apply Rmult_lt_compat_r; [lra|]. rewrite <- IZR_pow by lia. apply IZR_lt. rewrite Z.add_1_r. exact Hm2. }
    assert (4 * ilog 16 n d < Z.log2 ma + 1 + e)%Z by (apply (lt_bpow radix2); lra).
    assert (Z.log2 ma + e < 4 * (ilog 16 n d + 1))%Z by (apply (lt_bpow radix2); lra). lia. }
destruct (sci 16 m s p n d) as [N k]. destruct HN as [HN Hk]. rewrite <- (Nat2Z.id p) at 1. apply hex_length; try easy; lia.
Qed.
End Buf.
