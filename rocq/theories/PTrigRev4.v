(** * Proofs: reverse sine and tangent enclose when solutions lie near both ends of x *)
From Coq Require Import ZArith NArith Reals Bool Lia Lra Psatz List.
From Flocq Require Import Core.Core Core.FTZ IEEE754.BinarySingleNaN.
From Verif Require Import Fmt Spec FloatFacts Exc Deco SpecApi SpecElem SpecNum MBase PBase MBool MArith PArith PMul PUnary
  PConv PBool PSetop PElem MTrig PTrigR PTrig PTan PTrigT PDec PDecF PNum MRev SpecRev PRev PRevEven MTrigRev PTrigRev MMixed PMixed PRevW PTrigRev2 SpecNear.

Local Open Scope R_scope.

Section T.
Context {F : fmt}.
Implicit Types x y z b c : itv F.

(** ** Pi is rounded by less than an ulp *)
Lemma pi_mag : mag radix2 PI = 2%Z :> Z.
Proof. apply mag_unique_pos. pose proof pi34. simpl. lra. Qed.
Lemma pi_err p : @is_p F p -> Rabs (p - PI) <= bpow radix2 (2 - prec F).
Proof.
pose proof (fmt_prec1 F) as HP. pose proof (@emin_small F) as HE. pose proof pi34.
assert (V : Valid_exp (fexp F)) by (apply FLT_exp_valid; unfold Prec_gt_0; lia).
assert (U : ulp radix2 (fexp F) PI = bpow radix2 (2 - prec F)).
{ rewrite ulp_neq_0 by lra. unfold cexp. rewrite pi_mag. f_equal. change (fexp F 2) with (FLT_exp (emin F) (prec F) 2). unfold FLT_exp. lia. }
assert (A : forall m (f : float F), rnds m PI f -> Rabs (B2R f - PI) <= bpow radix2 (2 - prec F)).
{ intros m f R. unfold rnds in R. revert R. case Rlt_bool_spec; intros L R.
  - destruct R as [-> _]. rewrite <- U. left. apply error_lt_ulp; [exact V|apply valid_rnd_round_mode|lra].
  - exfalso. revert L. apply Rlt_not_le. apply Rle_lt_trans with (bpow radix2 2).
    + apply abs_round_le_generic; [exact V|apply valid_rnd_round_mode| |].
      * apply generic_format_bpow. change (fexp F (2 + 1)) with (FLT_exp (emin F) (prec F) 3). unfold FLT_exp. lia.
      * rewrite Rabs_pos_eq by lra. simpl. lra.
    + apply bpow_lt. pose proof (@emax3 F). lia. }
intros [->| ->]; [unfold pid; apply (A mode_DN)|unfold piu; apply (A mode_UP)]; apply rround_rnds.
Qed.

(** ** Two branches tried, one of them with a solution *)
Lemma try_left_near (B : Z -> R -> Prop) n b0 b1 x : wf b0 -> wf b1 -> wf x -> ordered B ->
  (forall t, B n t -> mem t b0) -> (forall t, B (n + 1)%Z t -> mem t b1) -> (exists s, B n s) ->
  exists z, try_two (ret b0) (ret b1) x = ret z /\ wf z /\
    ((exists k s, (n <= k <= n + 1)%Z /\ B k s /\ mem s x) -> forall m t, B m t -> (n <= m)%Z -> mem t x -> exists s, mem s z /\ s <= t).
Proof.
intros W0 W1 Wx O H0 H1 [s0 N0].
unfold try_two. mreds. destruct (intersection_exact b0 x W0 Wx) as (z0 & E0 & Wz0 & M0).
destruct (intersection_exact b1 x W1 Wx) as (z1 & E1 & Wz1 & M1). rewrite E0, E1. mreds. rewrite is_empty_wf by easy. mreds.
destruct (isnan (fst z0)) eqn:I; mreds.
- exists z1. split; [easy|]. split; [easy|]. intros (k & s & Hk & Bs & Ms) m t Bt L Mt.
  destruct (Z.eq_dec m n) as [->|Ne].
  { assert (mem t z0) by (apply M0; auto). exfalso. now apply (nan_no_mem z0 t). }
  destruct (Z.eq_dec m (n + 1)) as [->|Ne'].
  { exists t. split; [apply M1; auto|lra]. }
  destruct (Z.eq_dec k n) as [->|Nk]. { assert (mem s z0) by (apply M0; auto). exfalso. now apply (nan_no_mem z0 s). }
  assert (k = n + 1)%Z as -> by lia. exists s. split; [apply M1; auto|]. apply (O (n + 1)%Z m); [lia|easy|easy].
- exists z0. split; [easy|]. split; [easy|]. intros _ m t Bt L Mt.
  destruct (wf_nonnan z0 Wz0 I) as [s Hs]. apply M0 in Hs as [Hs1 Hs2].
  destruct (Z.eq_dec m n) as [->|Ne]. { exists t. split; [apply M0; auto|lra]. }
  assert (S : s0 <= t) by (apply (O n m); [lia|easy|easy]).
  exists (Rmin s t). split; [|apply Rmin_r]. apply M0.
  destruct Mt as [Mt1 Mt2], Hs1 as [A1 A2], Hs2 as [A3 A4]. split; split.
  + apply Rmin_case; [easy|]. apply lb_mono with s0; [apply (H0 _ N0)|easy].
  + apply ub_mono with s; [easy|apply Rmin_l].
  + now apply Rmin_case.
  + apply ub_mono with s; [easy|apply Rmin_l].
Qed.
Lemma try_right_near (B : Z -> R -> Prop) n b0 b1 x : wf b0 -> wf b1 -> wf x -> ordered B ->
  (forall t, B n t -> mem t b0) -> (forall t, B (n + -1)%Z t -> mem t b1) -> (exists s, B n s) ->
  exists z, try_two (ret b0) (ret b1) x = ret z /\ wf z /\
    ((exists k s, (n - 1 <= k <= n)%Z /\ B k s /\ mem s x) -> forall m t, B m t -> (m <= n)%Z -> mem t x -> exists s, mem s z /\ t <= s).
Proof.
intros W0 W1 Wx O H0 H1 [s0 N0].
unfold try_two. mreds. destruct (intersection_exact b0 x W0 Wx) as (z0 & E0 & Wz0 & M0).
destruct (intersection_exact b1 x W1 Wx) as (z1 & E1 & Wz1 & M1). rewrite E0, E1. mreds. rewrite is_empty_wf by easy. mreds.
destruct (isnan (fst z0)) eqn:I; mreds.
- exists z1. split; [easy|]. split; [easy|]. intros (k & s & Hk & Bs & Ms) m t Bt L Mt.
  destruct (Z.eq_dec m n) as [->|Ne].
  { assert (mem t z0) by (apply M0; auto). exfalso. now apply (nan_no_mem z0 t). }
  destruct (Z.eq_dec m (n + -1)) as [->|Ne'].
  { exists t. split; [apply M1; auto|lra]. }
  destruct (Z.eq_dec k n) as [->|Nk]. { assert (mem s z0) by (apply M0; auto). exfalso. now apply (nan_no_mem z0 s). }
  assert (k = n + -1)%Z as -> by lia. exists s. split; [apply M1; auto|]. apply (O m (n + -1)%Z); [lia|easy|easy].
- exists z0. split; [easy|]. split; [easy|]. intros _ m t Bt L Mt.
  destruct (wf_nonnan z0 Wz0 I) as [s Hs]. apply M0 in Hs as [Hs1 Hs2].
  destruct (Z.eq_dec m n) as [->|Ne]. { exists t. split; [apply M0; auto|lra]. }
  assert (S : t <= s0) by (apply (O m n); [lia|easy|easy]).
  exists (Rmax s t). split; [|apply Rmax_r]. apply M0.
  destruct Mt as [Mt1 Mt2], Hs1 as [A1 A2], Hs2 as [A3 A4]. split; split.
  + apply lb_mono with s; [easy|apply Rmax_l].
  + apply Rmax_case; [easy|]. apply ub_mono with s0; [apply (H0 _ N0)|easy].
  + apply lb_mono with s; [easy|apply Rmax_l].
  + now apply Rmax_case.
Qed.

(** ** The two ends *)
(** Sine and tangent. *)
Definition centred (kind : option Z) : Prop := kind = None \/ kind = Some 0%Z.
Lemma sol_centre kind a1 a2 cl cu m t : centred kind -> @base F kind a1 a2 cl cu -> sol kind a1 a2 m t -> IZR m * PI - PI / 2 <= t <= IZR m * PI + PI / 2.
Proof.
intros K (_ & _ & _ & B) (a & Ha & ->). pose proof PI_RGT_0. destruct K as [-> | ->]; destruct B as (_ & B1 & B2 & _); unfold eff, off; rewrite ?Z.add_0_r; [cbn [mirr]; lra|].
destruct mirr; lra.
Qed.
Lemma fits_near (r : R) : Rabs r <= bpow radix2 (Z.min (prec F - 6) 62) -> @fits F r.
Proof. intros H. unfold fits. apply Rle_trans with (1 := H). apply bpow_le. lia. Qed.
(** The deviation of [k] periods. *)
Lemma drift k p r : (8 <= prec F)%Z -> @is_p F p -> Rabs r <= bpow radix2 (Z.min (prec F - 6) 62) ->
  Rabs (IZR k * p) <= Rabs r + p -> Rabs (IZR k * p - IZR k * PI) <= 7 / 100.
Proof.
intros P8 Hp Hr Hk. pose proof (is_p_bounds _ Hp) as Bp. pose proof (pi_err _ Hp) as E.
assert (Hr' : Rabs r <= bpow radix2 (prec F - 6)). { apply Rle_trans with (1 := Hr). apply bpow_le. lia. }
replace (IZR k * p - IZR k * PI) with (IZR k * (p - PI)) by ring. rewrite Rabs_mult. rewrite Rabs_mult, (Rabs_pos_eq p) in Hk by lra.
assert (K : Rabs (IZR k) <= bpow radix2 (prec F - 6) / 3 + 1). { apply Rmult_le_reg_r with p; [lra|]. apply Rle_trans with (1 := Hk). pose proof (bpow_ge_0 radix2 (prec F - 6)). nra. }
apply Rle_trans with ((bpow radix2 (prec F - 6) / 3 + 1) * bpow radix2 (2 - prec F)).
{ apply Rmult_le_compat; auto using Rabs_pos. }
rewrite Rmult_plus_distr_r, Rmult_1_l. replace (bpow radix2 (prec F - 6) / 3 * bpow radix2 (2 - prec F)) with (bpow radix2 (prec F - 6) * bpow radix2 (2 - prec F) / 3) by field.
rewrite <- bpow_plus. replace (prec F - 6 + (2 - prec F))%Z with (-4)%Z by ring.
assert (bpow radix2 (2 - prec F) <= bpow radix2 (-6)) by (apply bpow_le; lia).
assert (bpow radix2 (-4) = / 16) by (simpl; lra). assert (bpow radix2 (-6) = / 64) by (simpl; lra). lra.
Qed.
Lemma left_near kind a1 a2 cl cu x : (8 <= prec F)%Z -> centred kind -> @base F kind a1 a2 cl cu -> wf x -> is_finite (fst x) = true ->
  Rabs (B2R (fst x)) <= bpow radix2 (Z.min (prec F - 6) 62) ->
  exists z, left_box kind cl cu x = ret z /\ wf z /\
    ((exists k s, sol kind a1 a2 k s /\ (forall n, IZR n * PI <= s -> (n <= k)%Z) /\ mem s x /\ s <= B2R (fst x) + 3 / 2) ->
     forall m t, sol kind a1 a2 m t -> (forall n, IZR n * PI <= t -> (n <= m)%Z) -> mem t x -> exists s, mem s z /\ s <= t).
Proof.
intros P8 Kc B Wx Fx Hf0. pose proof (fits_near _ Hf0) as Hf. unfold left_box.
assert (E1 : feq (fst x) fminf = false). { destruct (fst x) as [| | |]; easy. } rewrite E1.
set (neg := flt (fst x) f0). set (p := if neg then @pid F else @piu F). set (pl := if neg then @piu F else @pid F).
assert (Hp : @is_p F p) by (unfold p, is_p; destruct neg; tauto). assert (Hpl : @is_p F pl) by (unfold pl, is_p; destruct neg; tauto).
pose proof (is_p_bounds _ Hp) as Bp. pose proof (is_p_bounds _ Hpl) as Bpl. pose proof (@pid_ok F) as PD. pose proof (@piu_ok F) as PU.
pose proof (@quo_floor F (B2R (fst x)) p Hf (proj1 Bp)) as Q. cbn zeta in *.
set (rq := remquo (B2R (fst x)) p) in *. set (n := if Rlt_bool (fst rq) 0 then (snd rq - 1)%Z else snd rq) in *.
pose proof (@quo_cap_floor F _ _ _ Hf (proj1 Bp) Q) as [N1 N2]. pose proof (@cap_bounds F) as (C1 & C2 & C3).
assert (Of : (0 <= off kind <= 1)%Z). { destruct (base_cases _ _ _ _ _ B) as [->|[->| ->]]; cbn; lia. }
rewrite lchk_ok by lia.
(* the sign of the branch numbers *)
assert (S : (neg = true /\ (n <= -1)%Z) \/ (neg = false /\ (0 <= n)%Z)).
{ assert (N : neg = true <-> B2R (fst x) < 0).
  { unfold neg. rewrite flt_fin by easy. change (B2R f0) with 0. case Rlt_bool_spec; split; intros; try easy; lra. }
  rewrite plus_IZR in Q. destruct neg.
  - left. split; [easy|]. assert (n < 0)%Z; [|lia]. apply lt_IZR. assert (B2R (fst x) < 0) by now apply N. nra.
  - right. split; [easy|]. assert (0 < n + 1)%Z; [|lia]. apply lt_IZR. rewrite plus_IZR.
    assert (0 <= B2R (fst x)). { apply Rnot_lt_le. intros H. now apply N in H. } nra. }
assert (T : forall m, (n <= m <= n + 1)%Z -> IZR (eff kind m) * pl <= IZR (eff kind m) * PI <= IZR (eff kind m) * p).
{ intros m Hm. destruct S as [[S1 S2]|[S1 S2]]; unfold pl, p; rewrite S1.
  - assert (Z : (eff kind m <= 0)%Z).
    { unfold eff. destruct (mirr kind m) eqn:Em; [|lia]. assert (m <> 0)%Z by (intros ->; now destruct kind). lia. }
    apply IZR_le in Z. nra.
  - assert (Z : (0 <= eff kind m)%Z) by (unfold eff; destruct mirr; lia). apply IZR_le in Z. nra. }
destruct (branch_in kind a1 a2 pl p cl cu n 0 B) as (b0 & E0 & W0 & I0 & _); try easy; try lia.
{ apply T. lia. }
destruct (branch_in kind a1 a2 pl p cl cu n 1 B) as (b1 & E1' & W1 & I1 & _ & U1); try easy; try lia.
{ apply T. lia. }
rewrite E0, E1'. rewrite Z.add_0_r in *.
destruct (try_left_near (sol kind a1 a2) n b0 b1 x) as (z & Ez & Wz & Hz); try easy.
- now apply (@sol_ordered F) with cl cu.
- now apply (@sol_some F) with cl cu.
- assert (G : forall t, mem t x -> IZR n * PI <= t).
  { intros t [Mt _]. rewrite lb_fin in Mt by easy. apply Rle_trans with (2 := Mt). apply Rle_trans with (2 := proj1 Q).
    destruct S as [[S1 S2]|[S1 S2]]; unfold p; rewrite S1; apply IZR_le in S2; nra. }
  exists z. split; [easy|]. split; [easy|]. intros (k & s & Ss & Hk & Ms & Ls) m t St Hm Mt. apply Hz with m; try easy; [|apply Hm; now apply G].
  exists k, s. split; [|easy]. split; [apply Hk; now apply G|].
  pose proof (sol_centre _ _ _ _ _ _ _ Kc B Ss) as [Cs _]. pose proof pi34 as HPI.
  assert (D : Rabs (IZR (n + 1) * p - IZR (n + 1) * PI) <= 7 / 100).
  { apply drift with (B2R (fst x)); try easy. rewrite plus_IZR in *. apply Rabs_le. pose proof (Rle_abs (B2R (fst x))). pose proof (Rle_abs (- B2R (fst x))) as Z'. rewrite Rabs_Ropp in Z'. lra. }
  apply Rabs_le_inv in D. assert (k < n + 2)%Z; [|lia]. apply lt_IZR. apply Rmult_lt_reg_r with PI; [lra|].
  replace (n + 2)%Z with (n + 1 + 1)%Z by ring. rewrite (plus_IZR (n + 1)). lra.
Qed.
Lemma right_near kind a1 a2 cl cu x : (8 <= prec F)%Z -> centred kind -> @base F kind a1 a2 cl cu -> wf x -> is_finite (snd x) = true ->
  Rabs (B2R (snd x)) <= bpow radix2 (Z.min (prec F - 6) 62) ->
  exists z, right_box kind true cl cu x = ret z /\ wf z /\
    ((exists k s, sol kind a1 a2 k s /\ (forall n, s <= IZR n * PI -> (k <= n)%Z) /\ mem s x /\ B2R (snd x) - 3 / 2 <= s) ->
     forall m t, sol kind a1 a2 m t -> (forall n, t <= IZR n * PI -> (m <= n)%Z) -> mem t x -> exists s, mem s z /\ t <= s).
Proof.
intros P8 Kc B Wx Fx Hf0. pose proof (fits_near _ Hf0) as Hf. unfold right_box.
assert (E1 : feq (snd x) finf = false). { destruct (snd x) as [| | |]; easy. } rewrite E1.
set (pos := fgt (snd x) f0). set (p := if pos then @pid F else @piu F). set (pu := if pos then @piu F else @pid F).
assert (Hp : @is_p F p) by (unfold p, is_p; destruct pos; tauto). assert (Hpu : @is_p F pu) by (unfold pu, is_p; destruct pos; tauto).
pose proof (is_p_bounds _ Hp) as Bp. pose proof (is_p_bounds _ Hpu) as Bpu. pose proof (@pid_ok F) as PD. pose proof (@piu_ok F) as PU.
pose proof (@quo_ceil F (B2R (snd x)) p Hf (proj1 Bp)) as QC. cbn zeta in *.
set (rq := remquo (B2R (snd x)) p) in *.
set (n := if Rlt_bool 0 (fst rq) then _ else _).
assert (Q : IZR (n - 1) * p < B2R (snd x) <= IZR n * p) by exact QC.
clear QC. clearbody n rq. pose proof (@cap_bounds F) as (C1 & C2 & C3).
pose proof (@quo_cap_ceil F _ _ _ Hf (proj1 Bp) Q) as [N1 N2].
assert (Of : off kind = 0%Z) by (destruct Kc as [-> | ->]; easy).
rewrite lchk_ok by lia.
assert (S : (pos = true /\ (1 <= n)%Z) \/ (pos = false /\ (n <= 0)%Z)).
{ assert (P : pos = true <-> 0 < B2R (snd x)).
  { unfold pos. change (fgt (snd x) f0) with (flt f0 (snd x)). rewrite flt_fin by easy. change (B2R f0) with 0. case Rlt_bool_spec; split; intros; try easy; lra. }
  destruct pos.
  - left. split; [easy|]. assert (0 < B2R (snd x)) by now apply P. assert (0 < n)%Z; [|lia]. apply lt_IZR. nra.
  - right. split; [easy|]. assert (B2R (snd x) <= 0). { apply Rnot_lt_le. intros H. now apply P in H. }
    assert (n - 1 < 0)%Z; [|lia]. apply lt_IZR. nra. }
assert (T : forall m, (n + -1 <= m <= n)%Z -> IZR (eff kind m) * p <= IZR (eff kind m) * PI <= IZR (eff kind m) * pu).
{ intros m Hm. assert (E : eff kind m = m) by (unfold eff; rewrite Of; destruct mirr; lia). rewrite E.
  destruct S as [[S1 S2]|(S1 & S3)]; unfold pu, p; rewrite S1.
  - assert (Z : (0 <= m)%Z) by lia. apply IZR_le in Z. nra.
  - assert (Z : (m <= 0)%Z) by lia. apply IZR_le in Z. nra. }
destruct (branch_in kind a1 a2 p pu cl cu n 0 B) as (b0 & E0 & W0 & I0 & _); try easy; try lia.
{ apply T. lia. }
destruct (branch_in kind a1 a2 p pu cl cu n (-1) B) as (b1 & E1' & W1 & I1 & L1 & _); try easy; try lia.
{ apply T. lia. }
rewrite E0, E1'. rewrite Z.add_0_r in *.
destruct (try_right_near (sol kind a1 a2) n b0 b1 x) as (z & Ez & Wz & Hz); try easy.
- now apply (@sol_ordered F) with cl cu.
- now apply (@sol_some F) with cl cu.
- assert (G : forall t, mem t x -> t <= IZR n * PI).
  { intros t [_ Mt]. rewrite ub_fin in Mt by easy. apply Rle_trans with (1 := Mt). apply Rle_trans with (1 := proj2 Q).
    destruct S as [[S1 S2]|[S1 S2]]; unfold p; rewrite S1; apply IZR_le in S2; nra. }
  exists z. split; [easy|]. split; [easy|]. intros (k & s & Ss & Hk & Ms & Ls) m t St Hm Mt. apply Hz with m; try easy; [|apply Hm; now apply G].
  exists k, s. split; [|easy]. split; [|apply Hk; now apply G].
  pose proof (sol_centre _ _ _ _ _ _ _ Kc B Ss) as [_ Cs]. pose proof pi34 as HPI.
  assert (D : Rabs (IZR (n - 1) * p - IZR (n - 1) * PI) <= 7 / 100).
  { apply drift with (B2R (snd x)); try easy. rewrite minus_IZR in *. apply Rabs_le. pose proof (Rle_abs (B2R (snd x))). pose proof (Rle_abs (- B2R (snd x))) as Z'. rewrite Rabs_Ropp in Z'. lra. }
  apply Rabs_le_inv in D. assert (n - 2 < k)%Z; [|lia]. apply lt_IZR. apply Rmult_lt_reg_r with PI; [lra|].
  replace (n - 2)%Z with (n - 1 - 1)%Z by ring. rewrite (minus_IZR (n - 1)). lra.
Qed.

Lemma two_near kind a1 a2 cl cu x (S : R -> Prop) : (8 <= prec F)%Z -> centred kind -> @base F kind a1 a2 cl cu -> wf x -> isnan (fst x) = false ->
  modest (prec F - 6) x ->
  (forall s, S s -> mem s x /\ exists k, sol kind a1 a2 k s /\ (forall n, IZR n * PI <= s -> (n <= k)%Z) /\ (forall n, s <= IZR n * PI -> (k <= n)%Z)) ->
  ((exists s, S s) -> near_ends S x) ->
  exists z, two_boxes kind true cl cu x = ret z /\ wf z /\ forall t, S t -> mem t z.
Proof.
intros P8 Kc B Wx Nx [M1 M2] HS HN. destruct (wf_nonnan x Wx Nx) as [r0 Hr0].
assert (HL : exists z, left_box kind cl cu x = ret z /\ wf z /\ forall t, S t -> exists s, mem s z /\ s <= t).
{ destruct (is_finite (fst x)) eqn:Fx.
  - destruct (left_near kind a1 a2 cl cu x P8 Kc B Wx Fx (M1 eq_refl)) as (z & E & W & H). exists z. split; [easy|]. split; [easy|]. intros t St.
    destruct (HS t St) as (Mt & m & K1 & K2 & _). apply H with m; try easy.
    destruct (HN (ex_intro _ t St)) as [HN1 _]. destruct (HN1 Fx) as (s & Ss & Ls). destruct (HS s Ss) as (Ms & k & J1 & J2 & _). now exists k, s.
  - assert (E : fst x = fminf). { destruct Hr0 as [Hr0 _]. destruct (fst x) as [|[]| |]; easy. }
    exists (fminf, fneg fmaxv). unfold left_box. rewrite E. split; [easy|].
    assert (X : forall t, mem (Rmin t (- B2R (@fmaxv F))) (fminf, fneg (@fmaxv F))).
    { intros t. split; [easy|]. cbn [snd]. apply ub_fneg. rewrite lb_fin by apply is_finite_fmaxv. pose proof (Rmin_r t (- B2R (@fmaxv F))). lra. }
    split; [right; exists (Rmin 0 (- B2R (@fmaxv F))); apply X|]. intros t _. exists (Rmin t (- B2R (@fmaxv F))). split; [apply X|apply Rmin_l]. }
assert (HR : exists z, right_box kind true cl cu x = ret z /\ wf z /\ forall t, S t -> exists s, mem s z /\ t <= s).
{ destruct (is_finite (snd x)) eqn:Fx.
  - destruct (right_near kind a1 a2 cl cu x P8 Kc B Wx Fx (M2 eq_refl)) as (z & E & W & H). exists z. split; [easy|]. split; [easy|]. intros t St.
    destruct (HS t St) as (Mt & m & K1 & _ & K2). apply H with m; try easy.
    destruct (HN (ex_intro _ t St)) as [_ HN1]. destruct (HN1 Fx) as (s & Ss & Ls). destruct (HS s Ss) as (Ms & k & J1 & _ & J2). now exists k, s.
  - assert (E : snd x = finf). { destruct Hr0 as [_ Hr0]. destruct (snd x) as [|[]| |]; easy. }
    exists (fmaxv, finf). unfold right_box. rewrite E. split; [easy|].
    assert (X : forall t, mem (Rmax t (B2R (@fmaxv F))) (@fmaxv F, finf)).
    { intros t. split; [|easy]. cbn [fst]. rewrite lb_fin by apply is_finite_fmaxv. apply Rmax_r. }
    split; [right; exists (Rmax 0 (B2R (@fmaxv F))); apply X|]. intros t _. exists (Rmax t (B2R (@fmaxv F))). split; [apply X|apply Rmax_l]. }
destruct HL as (l & El & Wl & Hl), HR as (r & Er & Wr & Hr).
unfold two_boxes. rewrite El, Er. mreds.
destruct (hull_tightest l r Wl Wr) as (z & Ez & T). exists z. apply returns_eq in Ez. split; [easy|].
split; [now apply tightest_wf in T|]. intros t St. destruct (Hl t St) as (s & Ms & Ls). destruct (Hr t St) as (s' & Ms' & Ls').
assert (I : forall v, mem v l \/ mem v r -> mem v z) by (destruct T as (_ & T & _); exact T).
apply mem_between with s s'; auto.
Qed.

Lemma sin_rev_near c x : (8 <= prec F)%Z -> wf c -> wf x -> modest (prec F - 6) x ->
  ((exists t, preimage everywhere sin c x t) -> near_ends (preimage everywhere sin c x) x) ->
  computes_enclosure (sin_rev c x) (preimage everywhere sin c x).
Proof.
intros P8 Wc Wx M Z. unfold sin_rev. rewrite !is_valid_wf, !is_empty_wf by easy. mreds.
destruct (isnan (fst x)) eqn:Ex; mreds.
{ apply encl_ret with empty; [easy|now left|]. intros t (Mt & _). now apply (nan_no_mem x t) in Ex. }
destruct (intersection_exact c (fm1, f1) Wc unit_wf) as (cc & Ec & Wcc & Hcc). rewrite Ec. mreds. rewrite is_empty_wf by easy. mreds.
assert (In : forall t, mem (sin t) c -> mem (sin t) cc).
{ intros t Ht. apply Hcc. split; [easy|]. apply unit_mem. apply SIN_bound. }
destruct (isnan (fst cc)) eqn:En; mreds.
{ apply encl_ret with cc; [easy|easy|]. intros t (_ & _ & Mt). apply In in Mt. now apply (nan_no_mem cc (sin t)) in En. }
destruct (unit_part c cc Wcc En Hcc) as (F1 & F2 & B1 & B2 & B3).
destruct (equal_decides cc (fm1, f1) Wcc unit_wf) as (e & Ee & _). apply returns_eq in Ee. rewrite Ee. mreds. destruct e; mreds.
{ apply encl_ret with x; [easy|easy|]. now intros t (Mt & _). }
destruct (two_near _ _ _ _ _ x (preimage everywhere sin c x) P8 (or_intror eq_refl) (base_sin _ _ B1 B2 B3) Wx Ex M) as (z & Ez & Wz & Hz).
{ intros t (Mt & _ & Mc). split; [easy|]. apply In in Mc as [C1 C2]. rewrite lb_fin in C1 by easy. rewrite ub_fin in C2 by easy.
  exact (sin_branch (B2R (fst cc)) (B2R (snd cc)) t B1 B3 (conj C1 C2)). }
{ exact Z. }
now apply encl_ret with z.
Qed.
Lemma tan_rev_near c x : (8 <= prec F)%Z -> wf c -> wf x -> modest (prec F - 6) x ->
  ((exists t, preimage (fun t => cos t <> 0) tan c x t) -> near_ends (preimage (fun t => cos t <> 0) tan c x) x) ->
  computes_enclosure (tan_rev c x) (preimage (fun t => cos t <> 0) tan c x).
Proof.
intros P8 Wc Wx M Z. unfold tan_rev. rewrite !is_valid_wf, !is_empty_wf by easy. mreds.
destruct (isnan (fst c)) eqn:Ec; mreds.
{ apply encl_ret with empty; [easy|now left|]. intros t (_ & _ & Mt). now apply (nan_no_mem c (tan t)) in Ec. }
destruct (isnan (fst x)) eqn:Ex; mreds.
{ apply encl_ret with empty; [easy|now left|]. intros t (Mt & _). now apply (nan_no_mem x t) in Ex. }
destruct (wf_nonnan c Wc Ec) as [r [R1 R2]]. pose proof (atan_of_lb _ _ R1). pose proof (atan_of_ub _ _ R2).
assert (B : @base F None (atan_of (fst c)) (atan_of (snd c)) (@raw F mode_DN (atan_of (fst c))) (@raw F mode_UP (atan_of (snd c)))).
{ apply base_tan; try apply atan_of_bounds. lra. }
destruct (two_near _ _ _ _ _ x (preimage (fun t => cos t <> 0) tan c x) P8 (or_introl eq_refl) B Wx Ex M) as (z & Ez & Wz & Hz).
{ intros t (Mt & Dt & [C1 C2]). split; [easy|]. apply atan_of_lb in C1. apply atan_of_ub in C2. exact (tan_branch _ _ t Dt (conj C1 C2)). }
{ exact Z. }
now apply encl_ret with z.
Qed.
(** In a narrow interval every element is near both ends. *)
Lemma narrow_near (S : R -> Prop) x : (forall s, S s -> mem s x) -> narrow x -> (exists t, S t) -> near_ends S x.
Proof.
intros I (F1 & F2 & N) [t St]. destruct (I t St) as [L U]. rewrite lb_fin in L by easy. rewrite ub_fin in U by easy.
split; intros _; exists t; (split; [easy|lra]).
Qed.
Lemma sin_rev_narrow c x : (8 <= prec F)%Z -> wf c -> wf x -> modest (prec F - 6) x -> narrow x ->
  computes_enclosure (sin_rev c x) (preimage everywhere sin c x).
Proof. intros P8 Wc Wx M N. apply sin_rev_near; auto. apply narrow_near; [|easy]. now intros s [H _]. Qed.
Lemma tan_rev_narrow c x : (8 <= prec F)%Z -> wf c -> wf x -> modest (prec F - 6) x -> narrow x ->
  computes_enclosure (tan_rev c x) (preimage (fun t => cos t <> 0) tan c x).
Proof. intros P8 Wc Wx M N. apply tan_rev_near; auto. apply narrow_near; [|easy]. now intros s [H _]. Qed.
End T.

(** ** Mixed-type versions *)
Lemma same_bounds {F G} (x : itv F) (y : itv G) : (exists r, mem r x) -> (forall r, mem r x <-> mem r y) ->
  (is_finite (fst y) = true -> is_finite (fst x) = true /\ B2R (fst x) = B2R (fst y)) /\
  (is_finite (snd y) = true -> is_finite (snd x) = true /\ B2R (snd x) = B2R (snd y)).
Proof.
intros [r0 R0] H. pose proof (proj1 (H r0) R0) as R1. destruct x as [a b], y as [c d]. destruct R0 as [A1 A2], R1 as [B1 B2]. cbn [fst snd] in *. split; intros Fi.
- rewrite lb_fin in B1 by easy. assert (Mc : mem (B2R c) (a, b)). { apply H. split; cbn [fst snd]; [rewrite lb_fin by easy; lra|now apply ub_mono with r0]. }
  destruct Mc as [C1 _]. cbn [fst] in C1. destruct (fviewP a) as [ | | |a Fa]; try easy.
  + assert (K : mem (B2R c - 1) (c, d)). { apply H. split; [easy|]. cbn [snd]. apply ub_mono with r0; [easy|lra]. }
    destruct K as [K _]. cbn [fst] in K. rewrite lb_fin in K by easy. lra.
  + assert (K : mem (B2R a) (c, d)). { apply H. rewrite lb_fin in A1 by easy. split; cbn [fst snd]; [rewrite lb_fin by easy; lra|now apply ub_mono with r0]. }
    destruct K as [K _]. cbn [fst] in K. rewrite lb_fin in K by easy. rewrite lb_fin in C1 by easy. split; [easy|lra].
- rewrite ub_fin in B2 by easy. assert (Mc : mem (B2R d) (a, b)). { apply H. split; cbn [fst snd]; [now apply lb_mono with r0|rewrite ub_fin by easy; lra]. }
  destruct Mc as [_ C1]. cbn [snd] in C1. destruct (fviewP b) as [ | | |b Fb]; try easy.
  + assert (K : mem (B2R d + 1) (c, d)). { apply H. split; [|easy]. cbn [fst]. apply lb_mono with r0; [easy|lra]. }
    destruct K as [_ K]. cbn [snd] in K. rewrite ub_fin in K by easy. lra.
  + assert (K : mem (B2R b) (c, d)). { apply H. rewrite ub_fin in A2 by easy. split; cbn [fst snd]; [now apply lb_mono with r0|rewrite ub_fin by easy; lra]. }
    destruct K as [_ K]. cbn [snd] in K. rewrite ub_fin in K by easy. rewrite ub_fin in C1 by easy. split; [easy|lra].
Qed.
Lemma near_ext {F G} (S S' : R -> Prop) (x : itv F) (y : itv G) : (exists r, mem r x) -> (forall r, mem r x <-> mem r y) ->
  (forall s, S s -> S' s) -> near_ends S x -> near_ends S' y.
Proof.
intros R E I [H1 H2]. destruct (same_bounds x y R E) as [B1 B2]. split; intros Fi.
- destruct (B1 Fi) as [Fx <-]. destruct (H1 Fx) as (s & Ss & L). exists s. auto.
- destruct (B2 Fi) as [Fx <-]. destruct (H2 Fx) as (s & Ss & L). exists s. auto.
Qed.
Lemma trig_mixed_near {F G} T (op : forall W, itv W -> itv W -> M (itv W)) dom f (c : itv F) (x : itv G) : (8 <= prec G)%Z ->
  comparable T F -> comparable T G -> comparable F G -> wf c -> wf x -> modest (prec G - 6) x ->
  ((exists t, preimage dom f c x t) -> near_ends (preimage dom f c x) x) ->
  (forall W (c x : itv W), (8 <= prec W)%Z -> wf c -> wf x -> modest (prec W - 6) x ->
     ((exists t, preimage dom f c x t) -> near_ends (preimage dom f c x) x) ->
     computes_enclosure (op W c x) (preimage dom f c x)) ->
  gives (rev_mixed2 T op c x) (encl (preimage dom f c x)).
Proof.
intros P8 C1 C2 C3 Wc Wx Mx Nx Hop. destruct (within_pmax3 T F G C1 C2 C3) as (A & B & C).
unfold rev_mixed2. cbv zeta. set (W := pmax (pmax T F) G) in *. rewrite !is_valid_wf, !is_empty_wf by easy. mreds.
destruct (isnan (fst c)) eqn:Ec; mreds.
{ exists empty. split; [now intros s|]. split; [now left|]. intros t (_ & _ & H). now apply nan_no_mem in H. }
destruct (isnan (fst x)) eqn:Ex; mreds.
{ exists empty. split; [now intros s|]. split; [now left|]. intros t (H & _). now apply nan_no_mem in H. }
assert (Ex' : forall r, mem r (convert_hull W x) <-> mem r x) by exact (convert_hull_exact W x C Wx).
assert (Ec' : forall r, mem r (convert_hull W c) <-> mem r c) by exact (convert_hull_exact W c B Wc).
assert (Ep : forall t, preimage dom f (convert_hull W c) (convert_hull W x) t <-> preimage dom f c x t).
{ intros t. unfold preimage. now rewrite Ex', Ec'. }
assert (Ne : exists r, mem r x) by now apply wf_nonnan.
assert (Pw : (prec G <= prec W)%Z) by apply C.
assert (Mx' : modest (prec W - 6) (convert_hull W x)).
{ apply modest_mono with (prec G - 6)%Z; [lia|]. apply modest_ext with x; [easy| |easy]. intros r. now rewrite Ex'. }
destruct (Hop W (convert_hull W c) (convert_hull W x)) as (z & H1 & Wz & H2); try easy; try (now apply wf_convert_hull); [lia| |].
{ intros [t Ht]. apply near_ext with (preimage dom f c x) x; [easy|intros r; symmetry; apply Ex'|intros s; apply Ep|]. apply Nx. exists t. now apply Ep. }
apply returns_eq in H1. rewrite H1. mreds. exists (convert_hull T z). split; [now intros s|]. split; [now apply wf_convert_hull|].
apply encloses_narrow; [easy|]. intros t Ht. apply H2. now apply Ep.
Qed.
