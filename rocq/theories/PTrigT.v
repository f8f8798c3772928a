(** * Proofs: sine and cosine are tightest for every argument

    The code compares the width with pi and 2 pi rounded down, and answers
    [-1, 1] above.  For the widths between the rounded and the exact constant
    the range is so close to [-1, 1] that this is the tightest answer too. *)

From Coq Require Import ZArith NArith Reals Bool Lia Lra Psatz.
From Flocq Require Import Core.Core IEEE754.BinarySingleNaN.
From Verif Require Import Fmt Spec FloatFacts Exc Deco SpecApi SpecElem MBase PBase MBool MArith PArith
  PMul PFma PDiv PUnary PBool PSetop MElem PElem PElem2 MTrig PTrigR PTrig PNum PTan.

Local Open Scope R_scope.

Lemma cos_lower e : 0 <= e -> 1 - e * e / 2 <= cos e.
Proof.
intros H. replace e with (2 * (e / 2)) at 3 by lra. rewrite cos_2a_sin.
assert (A : 0 <= e / 2) by lra. set (h := e / 2) in *. replace e with (2 * h) by (unfold h; lra).
assert (B : Rabs (sin h) <= h).
{ destruct A as [A| <-]; [|rewrite sin_0, Rabs_R0; lra].
  pose proof (sin_lt_x h A). apply Rabs_le. split; [|lra].
  destruct (Rlt_or_le h PI) as [P|P].
  - pose proof (sin_gt_0 h A P). lra.
  - pose proof (SIN_bound h). pose proof PI2_3_2. lra. }
assert (C : sin h * sin h <= h * h).
{ apply Rsqr_le_abs_1. unfold Rsqr. rewrite (Rabs_pos_eq h) by lra. exact B. }
lra.
Qed.
Lemma cos_near u e : Rabs u <= e -> e <= 1 -> 1 - e * e / 2 <= cos u.
Proof.
intros H1 H2. pose proof (Rabs_pos u). pose proof PI2_3_2.
apply Rle_trans with (1 := cos_lower e ltac:(lra)).
assert (E : cos u = cos (Rabs u)) by (unfold Rabs; destruct Rcase_abs; [now rewrite cos_neg|easy]).
rewrite E. apply cos_decr_1; lra.
Qed.

(** Both extrema are nearly reached. *)
Definition nearly (a b X : R) : Prop :=
  (exists t, a <= t <= b /\ 1 - X <= sin t) /\ (exists t, a <= t <= b /\ sin t <= -1 + X).

Lemma nearly_wide a b e : a <= b -> 0 <= e <= 1 -> 2 * PI - 2 * e < b - a -> nearly a b (e * e / 2).
Proof.
intros Hab He Hw. destruct (full_period (a - e) (b + e)) as [(s & Hs & Es) (s' & Hs' & Es')]; [lra|].
assert (Cl : forall s, a - e <= s <= b + e -> exists t, a <= t <= b /\ Rabs (t - s) <= e).
{ intros r Hr. exists (Rmax a (Rmin r b)). unfold Rmax, Rmin. repeat destruct Rle_dec; try lra; split; try lra; apply Rabs_le; lra. }
assert (Cs : forall r, sin r * sin r = 1 -> cos r = 0).
{ intros r Hr. pose proof (sin2_cos2 r) as H. unfold Rsqr in H. assert (cos r * cos r = 0) by lra. nra. }
split.
- destruct (Cl s Hs) as (t & Ht & Dt). exists t. split; [easy|]. replace t with (s + (t - s)) by ring.
  rewrite sin_plus, Es, (Cs s) by (rewrite Es; lra). pose proof (cos_near _ _ Dt ltac:(lra)). lra.
- destruct (Cl s' Hs') as (t & Ht & Dt). exists t. split; [easy|]. replace t with (s' + (t - s')) by ring.
  rewrite sin_plus, Es', (Cs s') by (rewrite Es'; lra). pose proof (cos_near _ _ Dt ltac:(lra)). lra.
Qed.

Lemma nearly_shift k a b X : nearly (a - IZR k * (2 * PI)) (b - IZR k * (2 * PI)) X -> nearly a b X.
Proof.
intros [(t & Ht & Et) (t' & Ht' & Et')]. split.
- exists (t + IZR k * (2 * PI)). rewrite sin_shift. split; [lra|easy].
- exists (t' + IZR k * (2 * PI)). rewrite sin_shift. split; [lra|easy].
Qed.
Lemma nearly_half a b X : nearly (a + PI) (b + PI) X -> nearly a b X.
Proof.
assert (E : forall t, sin (t - PI) = - sin t).
{ intros t. rewrite <- (Ropp_involutive (sin (t - PI))), <- neg_sin. do 2 f_equal. lra. }
intros [(t & Ht & Et) (t' & Ht' & Et')]. split.
- exists (t' - PI). rewrite E. split; lra.
- exists (t - PI). rewrite E. split; lra.
Qed.
Lemma nearly_mirror a b X : nearly (- b) (- a) X -> nearly a b X.
Proof.
intros [(t & Ht & Et) (t' & Ht' & Et')]. split.
- exists (- t'). rewrite sin_neg. split; lra.
- exists (- t). rewrite sin_neg. split; lra.
Qed.

Lemma nearly_same_pos a b e : a <= b -> 0 <= e <= 1 -> PI - e < b - a -> 0 < cos a -> 0 < cos b -> nearly a b (e * e / 2).
Proof.
intros Hab He Hw Ca Cb. destruct (reduce a) as [k Hk]. apply nearly_shift with k.
assert (Ca' : 0 < cos (a - IZR k * (2 * PI))) by (rewrite <- (cos_shift k); now replace (a - _ + _) with a by ring).
assert (Cb' : 0 < cos (b - IZR k * (2 * PI))) by (rewrite <- (cos_shift k); now replace (b - _ + _) with b by ring).
assert (Hw' : PI - e < (b - IZR k * (2 * PI)) - (a - IZR k * (2 * PI))) by lra.
assert (Hab' : (a - IZR k * (2 * PI)) <= (b - IZR k * (2 * PI))) by lra.
set (a' := a - IZR k * (2 * PI)) in *. set (b' := b - IZR k * (2 * PI)) in *. clearbody a' b'.
pose proof PI2_3_2 as HP.
assert (Ha : a' < PI / 2).
{ apply Rnot_le_lt. intros H. pose proof (cos_le0 a' H ltac:(lra)). lra. }
assert (Q : 0 <= e * e / 2) by nra.
destruct (Rlt_or_le b' (3 * (PI / 2))) as [H|H].
- assert (Hb : b' < PI / 2).
  { apply Rnot_le_lt. intros H'. pose proof (cos_le0 b' H' ltac:(lra)). lra. }
  split.
  + exists b'. split; [lra|]. rewrite <- Rtrigo1.cos_shift. apply cos_near; [|lra]. apply Rabs_le. lra.
  + exists a'. split; [lra|].
    assert (E : sin a' = - cos (a' + PI / 2)) by (rewrite (Rplus_comm a'), <- sin_cos; easy).
    rewrite E. assert (1 - e * e / 2 <= cos (a' + PI / 2)); [|lra].
    apply cos_near; [|lra]. apply Rabs_le. lra.
- split.
  + exists (PI / 2). rewrite sin_half. split; lra.
  + exists (3 * (PI / 2)). rewrite sin_3half. split; lra.
Qed.
Lemma nearly_same a b e : a <= b -> 0 <= e <= 1 -> PI - e < b - a ->
  (0 < cos a /\ 0 < cos b) \/ (cos a < 0 /\ cos b < 0) -> nearly a b (e * e / 2).
Proof.
intros Hab He Hw [[Ca Cb]|[Ca Cb]]; [now apply nearly_same_pos|].
apply nearly_half. apply nearly_same_pos; try lra; rewrite neg_cos; lra.
Qed.

(** An extremum next to the left endpoint. *)
Lemma nearly_left a b e h : a <= b -> 0 <= e <= 1 -> 0 <= h <= 1 -> PI - e < b - a -> Rabs (cos a) <= h ->
  nearly a b (h * h + e * e / 2 + h * e).
Proof.
intros Hab He Hh Hw Ca.
assert (Main : forall a b, a <= b -> PI - e < b - a -> Rabs (cos a) <= h -> 0 <= sin a -> nearly a b (h * h + e * e / 2 + h * e)).
{ clear a b Hab Hw Ca. intros a b Hab Hw Ca Sa.
  assert (S1 : 1 - h * h <= sin a).
  { pose proof (sin2_cos2 a) as E. unfold Rsqr in E.
    assert (cos a * cos a <= h * h). { apply Rsqr_le_abs_1. unfold Rsqr. now rewrite (Rabs_pos_eq h). }
    assert (sin a <= 1) by apply SIN_bound. nra. }
  pose proof (SIN_bound a) as Sb. pose proof PI2_3_2.
  split.
  - exists a. split; [lra|]. nra.
  - set (t := Rmin b (a + PI)).
    assert (Ht : a <= t <= b /\ 0 <= a + PI - t <= e).
    { unfold t, Rmin. destruct Rle_dec; lra. }
    destruct Ht as [Ht Hth]. exists t. split; [easy|].
    set (th := a + PI - t) in *. replace t with (a - th + PI) by (unfold th; ring).
    rewrite neg_sin, sin_minus.
    assert (C : 1 - e * e / 2 <= cos th) by (apply cos_near; [apply Rabs_le|]; lra).
    assert (C1 : cos th <= 1) by apply COS_bound.
    assert (D : cos a * sin th <= h * e).
    { assert (Sth : 0 <= sin th <= e).
      { split; [apply sin_ge_0; lra|]. destruct (proj1 Hth) as [P|<-]; [pose proof (sin_lt_x th P); lra|rewrite sin_0; lra]. }
      assert (cos a <= h) by (apply Rle_trans with (2 := Ca), Rle_abs). nra. }
    assert (Q : e * e <= 1) by nra.
    assert (1 - h * h - e * e / 2 <= sin a * cos th) by nra. nra. }
destruct (Rle_or_lt 0 (sin a)) as [S|S]; [now apply Main|].
apply nearly_half. apply Main; try lra; rewrite ?neg_cos, ?neg_sin, ?Rabs_Ropp; lra.
Qed.
Lemma nearly_right a b e h : a <= b -> 0 <= e <= 1 -> 0 <= h <= 1 -> PI - e < b - a -> Rabs (cos b) <= h ->
  nearly a b (h * h + e * e / 2 + h * e).
Proof.
intros Hab He Hh Hw Ca. apply nearly_mirror. apply nearly_left; try lra. now rewrite cos_neg.
Qed.

Section N.
Context {F : fmt}.
#[local] Instance vexpt : Valid_exp (fexp F) := FLT_exp_valid (emin F) (prec F).
Notation eta := (bpow radix2 (emin F)).
Let e := PI - B2R (@mpfr_const_pi F mode_DN).

Lemma PI_315 : 3 < PI < 315 / 100.
Proof.
pose proof PI2_3_2 as HP. split; [lra|]. destruct (pi_q 1) as [_ H].
assert (E : Q2R (qpi4 (2 * 1)) <= 315 / 400 - / 1000); [|lra].
replace (315 / 400 - / 1000) with (Q2R (QArith_base.Qmake 3146 4000)) by (unfold Q2R; simpl; lra).
apply Qreals.Qle_Rle. vm_compute. easy.
Qed.

Lemma eta_le : eta <= bpow radix2 (2 - 2 * prec F).
Proof. apply bpow_le. unfold emin. pose proof (fmt_emax F). unfold SpecFloat.emin. lia. Qed.

Lemma e_bounds : 0 <= e /\ e <= 15 / 100 /\ e <= bpow radix2 (2 - prec F).
Proof.
destruct (@pi_fin F) as [P1 P2]. pose proof PI_315 as HP3. unfold e. split; [lra|].
assert (R : B2R (@mpfr_const_pi F mode_DN) = round radix2 (fexp F) Zfloor PI).
{ pose proof (rround_rnds mode_DN false PI : rnds mode_DN PI (@mpfr_const_pi F mode_DN)) as H. unfold rnds in H.
  rewrite Rlt_bool_true in H; [apply H|].
  assert (B : 0 <= round radix2 (fexp F) (round_mode mode_DN) PI <= PI).
  { split; [apply round_ge_generic; auto with typeclass_instances; [apply generic_format_0|lra]|].
    apply round_DN_pt. auto with typeclass_instances. }
  rewrite Rabs_pos_eq by apply B. apply Rle_lt_trans with (1 := proj2 B).
  apply Rlt_le_trans with 4; [lra|]. change 4 with (bpow radix2 2). apply bpow_le. pose proof (@emax3 F). lia. }
split.
- assert (3 <= B2R (@mpfr_const_pi F mode_DN)); [|lra]. rewrite R.
  apply round_ge_generic; auto with typeclass_instances; [|lra].
  replace 3 with (F2R (Defs.Float radix2 3 0)) by (unfold F2R; simpl; lra).
  apply generic_format_FLT. exists (Defs.Float radix2 3 0); simpl; [easy| |].
  + apply Z.lt_le_trans with (2 ^ 2)%Z; [easy|]. apply Z.pow_le_mono_r; [easy|]. pose proof (fmt_prec1 F). lia.
  + pose proof (fmt_prec1 F). pose proof (fmt_emax F). unfold emin, SpecFloat.emin. lia.
- rewrite R. pose proof (error_lt_ulp radix2 (fexp F) Zfloor PI ltac:(lra)) as H1.
  assert (U : ulp radix2 (fexp F) PI = bpow radix2 (2 - prec F)).
  { rewrite ulp_neq_0 by lra. unfold cexp. rewrite (mag_unique_pos radix2 PI 2).
    - f_equal. unfold fexp, FLT_exp. pose proof (fmt_prec1 F). pose proof (fmt_emax F).
      unfold SpecFloat.fexp, SpecFloat.emin. lia.
    - change (bpow radix2 (2 - 1)) with 2. change (bpow radix2 2) with 4. lra. }
  rewrite U in H1. apply Rabs_def2 in H1. lra.
Qed.

Lemma slack : eta * eta + e * e / 2 + eta * e < bpow radix2 (- prec F).
Proof.
destruct e_bounds as (E0 & E1 & E2). pose proof eta_le as H. pose proof (bpow_gt_0 radix2 (emin F)) as H0.
pose proof (fmt_prec1 F) as HP.
assert (C : (prec F = 2 \/ prec F = 3 \/ prec F = 4 \/ 5 <= prec F)%Z) by lia.
destruct C as [C|[C|[C|C]]].
- rewrite C in *. change (bpow radix2 (2 - 2 * 2)) with (/ 4) in H. change (bpow radix2 (- (2))) with (/ 4). nra.
- rewrite C in *. change (bpow radix2 (2 - 2 * 3)) with (/ 16) in H. change (bpow radix2 (- (3))) with (/ 8). nra.
- rewrite C in *. change (bpow radix2 (2 - 2 * 4)) with (/ 64) in H. change (bpow radix2 (- (4))) with (/ 16). nra.
- set (q := bpow radix2 (- prec F)).
  assert (Q : 0 < q <= / 32).
  { split; [apply bpow_gt_0|]. change (/ 32) with (bpow radix2 (-5)). apply bpow_le. lia. }
  assert (HE : e <= 4 * q).
  { apply Rle_trans with (1 := E2). unfold q. change 4 with (bpow radix2 2). rewrite <- bpow_plus. right. f_equal. }
  assert (HH : eta <= 4 * (q * q)).
  { apply Rle_trans with (1 := H). unfold q. change 4 with (bpow radix2 2). rewrite <- !bpow_plus. right. f_equal. lia. }
  assert (eta <= q / 8) by nra. assert (0 <= eta) by lra. nra.
Qed.

Lemma gupp_near (S : R -> Prop) t : S t -> 1 - bpow radix2 (- prec F) < t -> (forall t, S t -> t <= 1) -> gupp S (@f1 F).
Proof.
intros H1 H2 H3. split.
- intros r Hr. rewrite ub_fin by apply is_finite_f1. rewrite B2R_f1. now apply H3.
- intros u' Hu s Hs. rewrite ub_fin, B2R_f1 in Hs by apply is_finite_f1. specialize (Hu t H1).
  destruct (fviewP u') as [ | | |u' Fu]; try easy. rewrite ub_fin in * by easy.
  apply Rle_trans with (1 := Hs). apply Rnot_lt_le. intros H.
  assert (B2R u' <= pred radix2 (fexp F) 1).
  { apply pred_ge_gt; auto with typeclass_instances; [apply B2R_format|apply fmt_one]. }
  assert (E : pred radix2 (fexp F) 1 = 1 - bpow radix2 (- prec F)).
  { change 1 with (bpow radix2 0) at 1. rewrite pred_bpow. f_equal. f_equal. 
    pose proof (fmt_prec1 F). pose proof (fmt_emax F). unfold fexp, SpecFloat.fexp, SpecFloat.emin, FLT_exp. lia. }
  lra.
Qed.
Lemma glow_near (S : R -> Prop) t : S t -> t < -1 + bpow radix2 (- prec F) -> (forall t, S t -> -1 <= t) -> glow S (@fm1 F).
Proof.
intros H1 H2 H3.
destruct (gupp_near (fun r => S (- r)) (- t)) as [G1 G2]; [now rewrite Ropp_involutive|lra|intros r Hr; apply H3 in Hr; lra|].
split.
- intros r Hr. rewrite lb_fin by apply is_finite_fm1. rewrite B2R_fm1. now apply H3.
- intros l' Hl s Hs. rewrite lb_fin, B2R_fm1 in Hs by apply is_finite_fm1.
  assert (U : ub (Bopp l') (- s)).
  { apply G2; [|rewrite ub_fin, B2R_f1 by apply is_finite_f1; lra].
    intros r Hr. apply Hl in Hr. apply ub_opp. exact Hr. }
  apply ub_opp in U. now rewrite Ropp_involutive in U.
Qed.
End N.

Section Core.
Context {F : fmt}.
Variable phi : R.
Variable ev : mode -> float F -> float F.
Let g t := sin (t + phi).
Let d t := cos (t + phi).
Hypothesis Hev : forall m a, is_finite a = true -> rnds m (g (B2R a)) (ev m a).
Variables (a b : float F) (dl du : Z).
Hypothesis (Fa : is_finite a = true) (Fb : is_finite b = true) (Hab : B2R a <= B2R b).
Hypothesis (Hl : @sgn_of F dl (d (B2R a))) (Hu : @sgn_of F du (d (B2R b))).
Let S := image1 everywhere g (a, b).
Let z := trig_core ev dl du a b.
Let e := PI - B2R (@mpfr_const_pi F mode_DN).
Let h := bpow radix2 (emin F).

Lemma full_nearly X : nearly (B2R a + phi) (B2R b + phi) X -> X < bpow radix2 (- prec F) -> tightest S (@fm1 F, @f1 F).
Proof.
intros [(t & Ht & Et) (t' & Ht' & Et')] HX.
assert (St : S (sin t)). { apply S_iff; try easy. exists (t - phi). split; [lra|]. f_equal. lra. }
assert (St' : S (sin t')). { apply S_iff; try easy. exists (t' - phi). split; [lra|]. f_equal. lra. }
assert (Sb : forall r, S r -> -1 <= r <= 1). { intros r (q & _ & _ & ->). apply SIN_bound. }
apply tightest_intro; [now exists (sin t)| |].
- apply (glow_near S (sin t')); [easy|lra|]. intros r Hr. now apply Sb in Hr.
- apply (gupp_near S (sin t)); [easy|lra|]. intros r Hr. now apply Sb in Hr.
Qed.

Lemma core_tightest : tightest S z.
Proof.
unfold z, trig_core. destruct (@pi_fin F) as [P1 P2]. destruct (@twice_fin F) as [Q1 Q2].
destruct (@e_bounds F) as (E0 & E1 & _). pose proof (@slack F) as Sl. fold e h in E0, E1, Sl.
assert (Hh : 0 <= h <= 1).
{ split; [apply bpow_ge_0|]. change 1 with (bpow radix2 0). apply bpow_le. pose proof (fmt_prec1 F). pose proof (fmt_emax F).
  unfold emin, SpecFloat.emin. lia. }
assert (Sl' : e * e / 2 < bpow radix2 (- prec F)) by nra.
set (p := mpfr_const_pi mode_DN) in *. set (p2 := mpfr_twice mode_DN p) in *.
pose proof (width_le a b p Fa Fb P1) as W1. pose proof (width_le a b p2 Fa Fb Q1) as W2.
assert (T : dl = 0%Z \/ du = 0%Z \/ dl = du ->
  tightest S (if mpfr_greater (rsub mode_UP b a) p then (fm1, f1)
           else (fmin (ev mode_DN a) (ev mode_DN b), fmax (ev mode_UP a) (ev mode_UP b)))).
{ intros Hz. destruct (mpfr_greater (rsub mode_UP b a) p).
  - assert (Hw : B2R p < B2R b - B2R a). { apply Rnot_le_lt. intros H. now apply W1 in H. }
    assert (Hw' : PI - e < (B2R b + phi) - (B2R a + phi)) by (unfold e; lra).
    destruct Hl as [[L1 L2]|[[L1 L2]|[L1 L2]]]; destruct Hu as [[U1 U2]|[[U1 U2]|[U1 U2]]]; try lia;
    first [ apply full_nearly with (2 := Sl); apply nearly_left; try lra; apply Rlt_le; exact L2
          | apply full_nearly with (2 := Sl); apply nearly_right; try lra; apply Rlt_le; exact U2
          | apply full_nearly with (2 := Sl'); apply nearly_same; try lra; unfold d in *; tauto ].
  - assert (B2R b - B2R a <= B2R p) by now apply W1. unfold S. apply (tail_tightest phi ev Hev a b dl du); try easy. lra. }
cbv zeta. case (Z.eqb_spec dl du); intros E2; cbn [negb].
- apply T. tauto.
- case (Z.eqb_spec dl 0); intros E3; [apply T; tauto|].
  case (Z.eqb_spec du 0); intros E4; [apply T; tauto|].
  destruct (mpfr_greater (rsub mode_UP b a) p2).
  + assert (Hw : B2R p2 < B2R b - B2R a). { apply Rnot_le_lt. intros H. now apply W2 in H. }
    apply full_nearly with (2 := Sl'). apply nearly_wide; try lra.
    assert (2 * B2R p <= B2R p2); [|unfold e; lra].
    pose proof (rround_RD (Bsign p) (2 * B2R p) : is_RD (2 * B2R p) p2) as [_ H2].
    destruct (@fmt_float F (2 * B2R p)) as (f & F1 & F2).
    { destruct (FLT_format_generic radix2 (emin F) (prec F) (B2R p) (B2R_format p)) as [f0 G1 G2 G3].
      apply generic_format_FLT. exists (Defs.Float radix2 (Defs.Fnum f0) (Defs.Fexp f0 + 1)); simpl; [|easy|].
      - rewrite G1. unfold F2R. cbn [Defs.Fnum Defs.Fexp]. rewrite bpow_plus. change (bpow radix2 1) with 2. ring.
      - apply Z.le_trans with (1 := G3). lia. }
    { rewrite Rabs_pos_eq by lra. pose proof PI_4. apply Rlt_le_trans with 8; [|].
      - pose proof PI_315. lra.
      - change 8 with (bpow radix2 3). apply bpow_le, (@emax3 F). }
    assert (L : lb f (2 * B2R p)) by (rewrite lb_fin by easy; lra).
    specialize (H2 f L (B2R p2)). rewrite !lb_fin in H2 by easy. rewrite <- F2. apply H2. lra.
  + assert (B2R b - B2R a <= B2R p2) by now apply W2.
    destruct Hl as [[L1 L2]|[[L1 L2]|[L1 L2]]]; destruct Hu as [[U1 U2]|[[U1 U2]|[U1 U2]]]; try congruence; rewrite L1.
    * apply (peak_tightest phi ev Hev a b); try easy. lra.
    * apply (valley_tightest phi ev Hev a b); try easy. lra.
Qed.
End Core.

Section Out.
Context {F : fmt}.
Implicit Types x z : itv F.
Lemma trig_tight (phi : R) (g : R -> R) (ev : mode -> float F -> float F) (m : M (itv F)) (dl du : Z) x :
  (forall t, g t = sin (t + phi)) ->
  (forall m a, is_finite a = true -> rnds m (g (B2R a)) (ev m a)) ->
  (is_finite (fst x) = true -> @sgn_of F dl (cos (B2R (fst x) + phi))) ->
  (is_finite (snd x) = true -> @sgn_of F du (cos (B2R (snd x) + phi))) ->
  wf x -> isnan (fst x) = false -> returns m (trig_core ev dl du (fst x) (snd x)) -> trig_ok m g x ->
  computes_tightest m (image1 everywhere g x).
Proof.
intros Hg Hev Hl Hu W Ex Hm (z & H1 & H2 & H3 & H4 & _ & H5). exists z. split; [easy|].
destruct (wf_view _ W) as [ | |u Hf|l Hf|l u Fl Fu Hlu]; cbn [fst snd] in *.
- easy.
- apply H5. now left.
- apply H5. now left.
- apply H5. now right; left.
- assert (E : z = trig_core ev dl du l u).
  { specialize (H1 (Est 0 0)). specialize (Hm (Est 0 0)). congruence. }
  rewrite E. apply tightest_ext with (image1 everywhere (fun t => sin (t + phi)) (l, u)).
  + intros t. split; intros (r & A1 & A2 & ->); exists r; rewrite Hg; auto.
  + apply core_tightest; auto. intros m' a Fa. rewrite <- Hg. now apply Hev.
Qed.

Lemma sin_tightest x : wf x -> computes_tightest (sin_itv x) (image1 everywhere sin x).
Proof.
intros W. pose proof (sin_ok x W) as OK. destruct (isnan (fst x)) eqn:Ex.
{ apply wf_nan_l in Ex; [|easy]. subst x. exists empty. split; [now intros s|].
  apply tightest_empty. intros r (s & H & _). now apply (@mem_empty F s). }
eapply trig_tight with (phi := 0) (ev := mpfr_sin) (dl := mpfr_sgn (mpfr_cos mode_DN (fst x)))
  (du := mpfr_sgn (mpfr_cos mode_UP (snd x))); try easy.
- intros t. f_equal. lra.
- intros m a Fa. unfold mpfr_sin. rewrite Fa. apply rround_rnds.
- intros Fa. rewrite Rplus_0_r. eapply sgn_rnds; [apply COS_bound|].
  unfold mpfr_cos. rewrite Fa. apply rround_rnds.
- intros Fa. rewrite Rplus_0_r. eapply sgn_rnds; [apply COS_bound|].
  unfold mpfr_cos. rewrite Fa. apply rround_rnds.
- unfold sin_itv. vred. rewrite Ex. vred. now intros s.
Qed.
Lemma cos_tightest x : wf x -> computes_tightest (cos_itv x) (image1 everywhere cos x).
Proof.
intros W. pose proof (cos_ok x W) as OK. destruct (isnan (fst x)) eqn:Ex.
{ apply wf_nan_l in Ex; [|easy]. subst x. exists empty. split; [now intros s|].
  apply tightest_empty. intros r (s & H & _). now apply (@mem_empty F s). }
assert (D : forall m a, is_finite a = true -> @sgn_of F (mpfr_sgn (fneg (@mpfr_sin F m a))) (cos (B2R a + PI / 2))).
{ intros m a Fa. replace (cos (B2R a + PI / 2)) with (- sin (B2R a)) by (rewrite sin_cos, (Rplus_comm (PI / 2)); lra).
  unfold mpfr_sin. rewrite Fa.
  assert (R : rnds m (sin (B2R a)) (@rround F m (Bsign a) (sin (B2R a)))) by apply rround_rnds.
  rewrite mpfr_sgn_neg by apply (rnds_unit _ _ _ (SIN_bound (B2R a)) R).
  apply sgn_of_neg. eapply sgn_rnds; [apply SIN_bound|exact R]. }
eapply trig_tight with (phi := PI / 2) (ev := mpfr_cos) (dl := mpfr_sgn (fneg (mpfr_sin mode_DN (fst x))))
  (du := mpfr_sgn (fneg (mpfr_sin mode_UP (snd x)))); try easy.
- intros t. rewrite cos_sin. f_equal. lra.
- intros m a Fa. unfold mpfr_cos. rewrite Fa. apply rround_rnds.
- now apply D.
- now apply D.
- unfold cos_itv. vred. rewrite Ex. vred. now intros s.
Qed.
Lemma ok_range (m : M (itv F)) g x z : trig_ok m g x -> returns m z -> forall r, mem r z -> -1 <= r <= 1.
Proof.
intros (z' & H1 & _ & _ & H4 & _) H. replace z with z'; [easy|].
specialize (H (Est 0 0)). specialize (H1 (Est 0 0)). congruence.
Qed.
Lemma sin_range x z : wf x -> returns (sin_itv x) z -> forall r, mem r z -> -1 <= r <= 1.
Proof. intros W. apply ok_range with sin x. now apply sin_ok. Qed.
Lemma cos_range x z : wf x -> returns (cos_itv x) z -> forall r, mem r z -> -1 <= r <= 1.
Proof. intros W. apply ok_range with cos x. now apply cos_ok. Qed.
End Out.
