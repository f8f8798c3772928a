(** * Proofs: the uncertain form, values *)
From Coq Require Import ZArith NArith Reals Bool Ascii String List Lia Lra.
From Flocq Require Import Core.Core IEEE754.BinarySingleNaN.
From Verif Require Import Fmt Spec FloatFacts Exc Deco SpecApi MBase MBool MNum PBase MStream MText PText PText2 PPrint PPrint2 MPrint MRead MUncertain SpecLiteral PTrip PTrip2 PUncert.
Import ListNotations.
Local Open Scope Z_scope.
Local Open Scope list_scope.
Local Open Scope m_scope.

Definition ex (e : option Z) : Z := match e with Some k => k | None => 0 end.
Definition unit10 (e : option Z) (p : nat) : R := bpow radix10 (ex e - Z.of_nat p).

Section Shape.
Variable F : fmt.
Hypothesis Hs : small_fmt F.

Lemma pow8_10 k : 0 <= k -> (bpow radix2 (3 * k) <= bpow radix10 k)%R.
Proof.
  intros H. rewrite <- !IZR_pow by lia. apply IZR_le. change (radix_val radix2) with 2. change (radix_val radix10) with 10. rewrite Z.pow_mul_r by lia. apply Z.pow_le_mono_l. lia.
Qed.
Lemma sci_exponent m s p n d ma e : 0 < n -> 0 < d -> ratio n d = (IZR ma * bpow radix2 e)%R -> 0 < ma -> regular F ma e ->
  3 * Z.abs (snd (sci 10 m s p n d)) <= emax F + prec F.
Proof.
  intros Hn Hd C Hm Hr. pose proof (sci_spec radix10 m s p n d Hn Hd) as S. change (radix_val radix10) with 10 in S. destruct (sci 10 m s p n d) as [N k]. destruct S as (_ & _ & S). cbn [snd].
  destruct (ilog_mag radix10 n d Hn Hd) as [[I1 I2] _]. rewrite C in I1, I2. change (radix_val radix10) with 10 in I1, I2. set (i := ilog 10 n d) in *.
  destruct (regular_range F ma e Hr Hm) as [G1 G2]. pose proof (fmt_prec1 F). pose proof (fmt_emax F).
  assert (U : 3 * i < emax F). { destruct (Z_lt_le_dec i 0); [lia|]. apply (lt_bpow radix2). pose proof (pow8_10 i ltac:(lia)). lra. }
  assert (L : emin F - 3 < 3 * i).
  { destruct (Z_lt_le_dec (i + 1) 0) as [L|L]; [|unfold emin; lia]. assert (emin F < 3 * (i + 1)); [|lia]. apply (lt_bpow radix2).
    apply Rle_lt_trans with (1 := G1). apply Rlt_le_trans with (1 := I2).
    set (j := - (i + 1)). replace (i + 1) with (- j) by lia. replace (3 * - j) with (- (3 * j)) by lia. rewrite !bpow_opp. apply Rinv_le; [apply bpow_gt_0|]. apply pow8_10. lia. }
  unfold emin in L. lia.
Qed.
(** What a written number is. *)
Record shaped (sci : bool) (m : mode) (p : nat) (x : float F) (s : bool) (N : Z) (e : option Z) : Prop := Shaped {
  sh_nonneg : 0 <= N;
  sh_exp : match e with Some k => sci = true /\ 3 * Z.abs k <= emax F + prec F /\ N < 10 ^ (Z.of_nat p + 1) | None => sci = false end;
  sh_val : sgn s (IZR N * unit10 e p) = round radix10 (if sci then FLX_exp (Z.of_nat p + 1) else FIX_exp (- Z.of_nat p)) (round_mode m) (B2R x);
  sh_neg : (B2R x < 0)%R -> s = true;
  sh_pos : (0 < B2R x)%R -> s = false;
  sh_zero : B2R x = 0%R -> N = 0 }.
Lemma body_keep up p N : (0 < p)%nat -> body up 10 p N keep = digs up 10 (N / 10 ^ Z.of_nat p) ++ txt "." ++ fixdigs up 10 p N.
Proof.
  intros Hp. unfold body, keep, point. pose proof (fixdigs_length up 10 p N) as L. destruct (fixdigs up 10 p N); [cbn in L; lia|easy].
Qed.
Lemma number_shape (sci : bool) up m p (x : float F) : is_finite x = true -> (0 < p)%nat ->
  exists s N e, number_text (if sci then c_e else c_f) up m (Some p) x = mant s p N ++ etext up e /\ shaped sci m p x s N e.
Proof.
  intros Hx Hp. destruct (finite_cases F x Hx) as (s & ma & e & Hv & Hma & Ht & Hr). rewrite Ht. unfold conv.
  pose proof (frac_spec ma e Hma) as HF. destruct (frac ma e) as [n d]. destruct HF as (A & B & C & D). rewrite <- C in Hv.
  assert (Hn : n = 0 <-> B2R x = 0%R).
  { split; [intros ->; rewrite Hv; unfold ratio, Rdiv; destruct s; cbn [sgn]; lra|]. intros E. destruct (Z.eq_dec n 0) as [|Nn]; [easy|]. exfalso.
    pose proof (ratio_gt0 n d ltac:(lia) B). rewrite Hv in E. destruct s; cbn [sgn] in E; lra. }
  assert (R0 : (0 <= ratio n d)%R) by now apply ratio_pos.
  assert (Neg : (B2R x < 0)%R -> s = true) by (rewrite Hv; destruct s; cbn [sgn]; [easy|lra]).
  assert (Pos : (0 < B2R x)%R -> s = false) by (rewrite Hv; destruct s; cbn [sgn]; [lra|easy]).
  destruct sci.
  - unfold conv_e. destruct (Z.eq_dec n 0) as [E0|Nn].
    + exists s, 0, (Some 0). rewrite E0, sci_zero. split; [unfold mant; rewrite body_keep by easy; cbn [etext]; now rewrite <- !app_assoc|].
      assert (0 < 10 ^ (Z.of_nat p + 1)) by (apply Z.pow_pos_nonneg; lia). pose proof (fmt_prec1 F). pose proof (fmt_emax F).
      constructor; try easy; [lia|]. rewrite (proj1 Hn E0), round_0 by apply valid_rnd_round_mode. destruct s; cbn [sgn]; ring.
    + pose proof (sci_spec radix10 m s p n d ltac:(lia) B) as S. change (radix_val radix10) with 10 in S.
      assert (Hm : 0 < ma). { destruct (Z.eq_dec ma 0) as [Em|]; [|lia]. exfalso. pose proof (ratio_gt0 n d ltac:(lia) B). rewrite C, Em, Rmult_0_l in H. lra. }
      pose proof (sci_exponent m s p n d ma e ltac:(lia) B C Hm Hr) as K. destruct (sci 10 m s p n d) as [N k]. cbn [snd] in K. destruct S as (S1 & S2 & S3).
      exists s, N, (Some k). split; [unfold mant; rewrite body_keep by easy; cbn [etext]; now rewrite <- !app_assoc|].
      assert (0 < 10 ^ Z.of_nat p) by (apply Z.pow_pos_nonneg; lia).
      constructor; try easy; [lia|now rewrite Hv|]. intros E. apply Hn in E. contradiction.
  - unfold conv_f. exists s, (rquo m s (n * 10 ^ Z.of_nat p) d), None. split; [unfold mant; rewrite body_keep by easy; cbn [etext]; now rewrite app_nil_r|].
    assert (P : 0 < 10 ^ Z.of_nat p) by (apply Z.pow_pos_nonneg; lia).
    constructor; try easy.
    + pose proof (rquo_floor (n * 10 ^ Z.of_nat p) d ltac:(nia) B m s). assert (0 <= n * 10 ^ Z.of_nat p / d) by (apply Z.div_pos; nia). lia.
    + pose proof (fix_spec radix10 m s p n d A B) as E. change (radix_val radix10) with 10 in E. unfold unit10, ex. rewrite Z.sub_0_l, E. now rewrite Hv.
    + intros E. apply Hn in E. rewrite E. rewrite rquo_exact; [now rewrite Z.mul_0_l, Z.div_0_l by lia|easy|now rewrite Z.mul_0_l, Z.mod_0_l by lia].
Qed.
Lemma shaped_low sci p x s N e : shaped sci mode_DN p x s N e -> (sgn s (IZR N * unit10 e p) <= B2R x)%R.
Proof.
  intros H. rewrite (sh_val _ _ _ _ _ _ _ H). destruct sci; apply round_DN_pt; [apply FLX_exp_valid; unfold Prec_gt_0; lia|apply FIX_exp_valid].
Qed.
Lemma shaped_upp sci p x s N e : shaped sci mode_UP p x s N e -> (B2R x <= sgn s (IZR N * unit10 e p))%R.
Proof.
  intros H. rewrite (sh_val _ _ _ _ _ _ _ H). destruct sci; apply round_UP_pt; [apply FLX_exp_valid; unfold Prec_gt_0; lia|apply FIX_exp_valid].
Qed.
Lemma shaped_kind sci m p x s N e : shaped sci m p x s N e -> (sci = true /\ exists k, e = Some k) \/ (sci = false /\ e = None).
Proof. intros H. pose proof (sh_exp _ _ _ _ _ _ _ H) as E. destruct e as [k|]; [left|right]; try easy. split; [easy|now exists k]. Qed.
Lemma shaped_int sci m p x s N e : shaped sci m p x s N e -> Z.abs (ex e) <= 2 ^ 26.
Proof. intros H. pose proof (sh_exp _ _ _ _ _ _ _ H) as E. unfold small_fmt in Hs. destruct e as [k|]; cbn [ex]; [|lia]. lia. Qed.
End Shape.

(** ** Aligned digits *)
Definition aligned (s : bool) (N e : Z) (away : bool) (v c : Z) : Prop :=
  (0 <= e -> v = sg s * (N * 10 ^ e) /\ c = 0) /\
  (e < 0 -> v = sg s * (N / 10 ^ (- e)) /\ c = if negb (N mod 10 ^ (- e) =? 0) && away then 1 else 0).
Lemma IZR_sg s n : IZR (sg s * n) = sgn s (IZR n). Proof. destruct s; cbn [sg sgn]; rewrite mult_IZR; ring. Qed.
Lemma aligned_pow s N e away v c : aligned s N e away v c -> 0 <= e -> IZR v = sgn s (IZR N * bpow radix10 e) /\ c = 0.
Proof.
  intros [H _] He. destruct (H He) as [-> ->]. split; [|easy]. rewrite IZR_sg, mult_IZR. change 10 with (radix_val radix10). now rewrite IZR_pow.
Qed.
Lemma aligned_cut s N e away v c : 0 <= N -> aligned s N e away v c -> e < 0 -> exists r, (0 <= r < 1)%R /\ (r = 0%R \/ negb (N mod 10 ^ (- e) =? 0) = true) /\ sgn s (IZR N * bpow radix10 e) = (IZR v + sgn s r)%R /\
  c = (if negb (N mod 10 ^ (- e) =? 0) && away then 1 else 0).
Proof.
  intros HN [_ H] He. destruct (H He) as [-> ->]. clear H. set (q := 10 ^ (- e)). assert (Q : 0 < q) by (apply Z.pow_pos_nonneg; lia). pose proof (IZR_lt _ _ Q) as Q'.
  assert (E : (IZR N * bpow radix10 e = IZR (N / q) + IZR (N mod q) / IZR q)%R).
  { rewrite (Z.div_mod N q) at 1 by lia. rewrite plus_IZR, mult_IZR. replace (bpow radix10 e) with (/ IZR q)%R; [field; lra|].
    unfold q. change 10 with (radix_val radix10). rewrite IZR_pow by lia. now rewrite <- bpow_opp, Z.opp_involutive. }
  pose proof (Z.mod_pos_bound N q Q) as [M1 M2]. apply IZR_le in M1. apply IZR_lt in M2.
  exists (IZR (N mod q) / IZR q)%R. split; [split|].
  - apply Rmult_le_pos; [easy|]. left. now apply Rinv_0_lt_compat.
  - apply Rmult_lt_reg_r with (IZR q); [easy|]. unfold Rdiv. rewrite Rmult_assoc, Rinv_l by lra. lra.
  - split; [|split; [|easy]].
    + destruct (Z.eqb_spec (N mod q) 0) as [->|]; [left; unfold Rdiv; ring|now right].
    + rewrite E, IZR_sg. destruct s; cbn [sgn]; ring.
Qed.
Lemma aligned_low s N e away v c : 0 <= N -> aligned s N e away v c -> (s = true -> away = true \/ N = 0) ->
  (IZR (v - c) <= sgn s (IZR N * bpow radix10 e))%R.
Proof.
  intros HN H Ha. destruct (Z_lt_le_dec e 0) as [L|L].
  - destruct (aligned_cut s N e away v c HN H L) as (r & R1 & R2 & -> & ->). rewrite minus_IZR.
    destruct R2 as [->|R2]; [destruct s, (_ && _); cbn [sgn]; lra|]. rewrite R2. destruct s; cbn [sgn]; [|destruct away; cbn; lra].
    destruct (Ha eq_refl) as [->|E]; [cbn; lra|]. rewrite E, Z.mod_0_l in R2 by (apply Z.pow_nonzero; lia). easy.
  - destruct (aligned_pow s N e away v c H L) as [E ->]. rewrite Z.sub_0_r, E. lra.
Qed.
Lemma aligned_upp s N e away v c : 0 <= N -> aligned s N e away v c -> (s = false -> away = true \/ N = 0) ->
  (sgn s (IZR N * bpow radix10 e) <= IZR (v + c))%R.
Proof.
  intros HN H Ha. destruct (Z_lt_le_dec e 0) as [L|L].
  - destruct (aligned_cut s N e away v c HN H L) as (r & R1 & R2 & -> & ->). rewrite plus_IZR.
    destruct R2 as [->|R2]; [destruct s, (_ && _); cbn [sgn]; lra|]. rewrite R2. destruct s; cbn [sgn]; [destruct away; cbn; lra|].
    destruct (Ha eq_refl) as [->|E]; [cbn; lra|]. rewrite E, Z.mod_0_l in R2 by (apply Z.pow_nonzero; lia). easy.
  - destruct (aligned_pow s N e away v c H L) as [E ->]. rewrite Z.add_0_r, E. lra.
Qed.
