(** * Isotonicity from tightness; the tangent separately *)
From Coq Require Import ZArith NArith Reals Bool List Lra Lia.
From Flocq Require Import Core.Core IEEE754.BinarySingleNaN.
From Verif Require Import Fmt Spec FloatFacts Exc Deco SpecApi SpecDeco SpecMixed SpecIso MBase PBase MBool PBool MArith PArith PDec
  MElem MTrig PTrig MRev PRevEven PTan PTanF.
Local Open Scope R_scope.

Lemma iso1 {F T} (op : itv F -> M (itv T)) dom f :
  (forall x, wf x -> computes_tightest (op x) (image1 dom f x)) -> isotonic1 op.
Proof.
intros H x x' W W' I. destruct (H x W) as (z & Z1 & Z2 & Z3 & Z4). destruct (H x' W') as (z' & Y1 & Y2 & Y3 & Y4).
exists z, z'. split; [easy|]. split; [easy|]. apply Z4; [easy|]. intros t (r & Hr & D & ->). apply Y3. exists r. auto.
Qed.
Lemma iso2 {F G T} (op : itv F -> itv G -> M (itv T)) dom f :
  (forall x y, wf x -> wf y -> computes_tightest (op x y) (image2 dom f x y)) -> isotonic2 op.
Proof.
intros H x x' y y' W W' V V' I J. destruct (H x y W V) as (z & Z1 & Z2 & Z3 & Z4).
destruct (H x' y' W' V') as (z' & Y1 & Y2 & Y3 & Y4).
exists z, z'. split; [easy|]. split; [easy|]. apply Z4; [easy|]. intros t (r & s & Hr & Hs & D & ->).
apply Y3. exists r, s. auto.
Qed.
Lemma iso3 {F G H T} (op : itv F -> itv G -> itv H -> M (itv T)) f :
  (forall x y w, wf x -> wf y -> wf w -> computes_tightest (op x y w) (image3 f x y w)) -> isotonic3 op.
Proof.
intros E x x' y y' w w' W W' V V' U U' I J K. destruct (E x y w W V U) as (z & Z1 & Z2 & Z3 & Z4).
destruct (E x' y' w' W' V' U') as (z' & Y1 & Y2 & Y3 & Y4).
exists z, z'. split; [easy|]. split; [easy|]. apply Z4; [easy|]. intros t (r & s & v & Hr & Hs & Hv & ->).
apply Y3. exists r, s, v. auto.
Qed.
Lemma proper_wf {F} (x : ditv F) : proper x -> wf (fst x).
Proof. intros ([[E _]|[E _]] & _); [now left|now right]. Qed.

Lemma returns_same {A} (m : M A) a b : returns m a -> returns m b -> a = b.
Proof. intros H K. specialize (H (Est 0 0)). specialize (K (Est 0 0)). congruence. Qed.

Lemma iso_dec1 {F T} (opd : ditv F -> M (ditv T)) op dom f :
  mixed_decorates1 opd op dom f -> isotonic1 op -> isotonic_dec1 opd.
Proof.
intros H I x x' (P1 & P2 & P3) (Q1 & Q2 & Q3) L. destruct (H x P1 P2 P3) as (z & Z1 & _ & _ & _ & Z2 & _).
destruct (H x' Q1 Q2 Q3) as (z' & Y1 & _ & _ & _ & Y2 & _).
destruct (I (fst x) (fst x')) as (v & v' & V1 & V2 & V3); [now apply proper_wf|now apply proper_wf|easy|].
exists z, z'. split; [easy|]. split; [easy|].
now rewrite (returns_same _ _ _ Z2 V1), (returns_same _ _ _ Y2 V2).
Qed.
Lemma iso_dec2 {F G T} (opd : ditv F -> ditv G -> M (ditv T)) op dom f :
  mixed_decorates2 opd op dom f -> isotonic2 op -> isotonic_dec2 opd.
Proof.
intros H I x x' y y' P P' Q Q' L K.
destruct (H x y) as (z & Z1 & _ & _ & _ & Z2 & _); try apply P; try apply Q.
destruct (H x' y') as (z' & Y1 & _ & _ & _ & Y2 & _); try apply P'; try apply Q'.
destruct (I (fst x) (fst x') (fst y) (fst y')) as (v & v' & V1 & V2 & V3); try now apply proper_wf. easy. easy.
exists z, z'. split; [easy|]. split; [easy|].
now rewrite (returns_same _ _ _ Z2 V1), (returns_same _ _ _ Y2 V2).
Qed.
Lemma iso_dec3 {F G H T} (opd : ditv F -> ditv G -> ditv H -> M (ditv T)) op f :
  mixed_decorates3 opd op f -> isotonic3 op -> isotonic_dec3 opd.
Proof.
intros E I x x' y y' w w' P P' Q Q' S S' L K J.
destruct (E x y w) as (z & Z1 & _ & _ & _ & Z2 & _); try apply P; try apply Q; try apply S.
destruct (E x' y' w') as (z' & Y1 & _ & _ & _ & Y2 & _); try apply P'; try apply Q'; try apply S'.
destruct (I (fst x) (fst x') (fst y) (fst y') (fst w) (fst w')) as (v & v' & V1 & V2 & V3); try now apply proper_wf. easy. easy. easy.
exists z, z'. split; [easy|]. split; [easy|].
now rewrite (returns_same _ _ _ Z2 V1), (returns_same _ _ _ Y2 V2).
Qed.

(** ** The tangent *)
(** Around a pole the tangent takes values on both sides of any number. *)
Lemma pole_values a b p t : a < p < b -> cos p = 0 ->
  exists r s, a <= r <= b /\ a <= s <= b /\ cos r <> 0 /\ cos s <> 0 /\ tan r <= t <= tan s.
Proof.
intros Hp Cp. apply cos_eq_0_0 in Cp. destruct Cp as [k Hk].
assert (Pi := PI_RGT_0).
assert (Per : forall (j : Z) u, cos (atan u + IZR j * PI) <> 0 /\ tan (atan u + IZR j * PI) = u).
{ intros j u.
  assert (C : cos (atan u) <> 0) by (apply Rgt_not_eq, cos_gt_0; pose proof (atan_bound u); lra).
  assert (C2 : cos (atan u + IZR j * PI) <> 0).
  { intros E. apply cos_eq_0_0 in E. destruct E as [i Hi]. apply C.
    replace (atan u) with (IZR (i - j) * PI + PI / 2) by (rewrite minus_IZR; lra).
    apply cos_eq_0_1. now exists (i - j)%Z. }
  split; [easy|]. rewrite tan_plus; try easy.
  - rewrite tan_atan. replace (tan (IZR j * PI)) with 0; [rewrite Rmult_0_r, Rminus_0_r, Rplus_0_r; field|].
    unfold tan. replace (sin (IZR j * PI)) with 0; [unfold Rdiv; lra|]. symmetry. apply sin_eq_0_1. now exists j.
  - intros E. assert (S0 : sin (IZR j * PI) = 0) by (apply sin_eq_0_1; now exists j).
    pose proof (sin2_cos2 (IZR j * PI)) as E2. rewrite E, S0 in E2. unfold Rsqr in E2. lra.
  - replace (tan (IZR j * PI)) with 0; [lra|].
    unfold tan. replace (sin (IZR j * PI)) with 0; [unfold Rdiv; lra|]. symmetry. apply sin_eq_0_1. now exists j. }
set (u := Rmin b ((IZR k + 1) * PI) - (IZR k + 1) * PI).
set (v := Rmax a (IZR k * PI) - IZR k * PI).
assert (Hu : - (PI / 2) < u <= 0) by (unfold u, Rmin; destruct (Rle_dec b ((IZR k + 1) * PI)); lra).
assert (Hv : 0 <= v < PI / 2) by (unfold v, Rmax; destruct (Rle_dec a (IZR k * PI)); lra).
assert (Lu : u + (IZR k + 1) * PI <= b) by (unfold u; pose proof (Rmin_l b ((IZR k + 1) * PI)); lra).
assert (Lv : a <= v + IZR k * PI) by (unfold v; pose proof (Rmax_l a (IZR k * PI)); lra).
exists (atan (Rmin t (tan u)) + IZR (k + 1) * PI), (atan (Rmax t (tan v)) + IZR k * PI).
destruct (Per (k + 1)%Z (Rmin t (tan u))) as [A1 A2]. destruct (Per k (Rmax t (tan v))) as [B1 B2].
assert (Mu : atan (Rmin t (tan u)) <= u).
{ rewrite <- (atan_tan u) at 2 by lra. destruct (Rmin_r t (tan u)) as [L|E].
  - now apply Rlt_le, atan_increasing.
  - rewrite E. lra. }
assert (Mv : v <= atan (Rmax t (tan v))).
{ rewrite <- (atan_tan v) at 1 by lra. destruct (Rmax_r t (tan v)) as [L|E].
  - now apply Rlt_le, atan_increasing.
  - rewrite <- E. lra. }
pose proof (atan_bound (Rmin t (tan u))). pose proof (atan_bound (Rmax t (tan v))).
pose proof (Rmin_l t (tan u)). pose proof (Rmax_l t (tan v)).
rewrite A2, B2. rewrite plus_IZR in *. repeat split; try easy; lra.
Qed.
Section TanIso.
Context {F : fmt}.
Implicit Types x : itv F.
Lemma tan_wide x r0 : wf x -> mem r0 x ->
  (bounded_rep x -> B2R (snd x) - B2R (fst x) <= B2R (@mpfr_const_pi F mode_DN) -> False) ->
  returns (tan_itv x) entire.
Proof.
intros W Hr0 H. apply returns_eq. unfold tan_itv. vred. destruct (isnan (fst x)) eqn:Ex; vred.
{ now destruct (nan_no_mem x r0). }
pose proof (wf_view _ W) as V. destruct (@pi_fin F) as [P1 P2]. set (p := mpfr_const_pi mode_DN) in *.
destruct (is_finite (fst x) && is_finite (snd x)) eqn:Ef.
- apply andb_true_iff in Ef. destruct Ef as [F1 F2].
  pose proof (width_le (fst x) (snd x) p F1 F2 P1) as Hw.
  destruct (mpfr_greater (rsub mode_UP (snd x) (fst x)) p) eqn:Eg; [easy|].
  exfalso. apply H; [now split|now apply Hw].
- rewrite (width_inf (fst x) (snd x) p); [easy|easy|].
  destruct V; cbn [fst snd] in *; try easy.
  + left. now repeat split.
  + left. repeat split; [|now apply isnan_fin]. now intros ->.
  + right. repeat split; [|now apply isnan_fin]. now intros ->.
  + rewrite H0, H1 in Ef. easy.
Qed.
Lemma bounded_sub x x' r0 : wf x -> mem r0 x -> included x x' -> bounded_rep x' ->
  bounded_rep x /\ B2R (fst x') <= B2R (fst x) /\ B2R (fst x) <= B2R (snd x) /\ B2R (snd x) <= B2R (snd x').
Proof.
intros W Hr0 I [B1 B2].
assert (Hm : forall r, mem r x -> B2R (fst x') <= r <= B2R (snd x')).
{ intros r Hr. apply I in Hr. destruct Hr as [K1 K2]. rewrite lb_fin in K1 by easy. now rewrite ub_fin in K2. }
pose proof (wf_view _ W) as V. destruct V; cbn [fst snd] in *.
- now destruct Hr0.
- specialize (Hm (B2R (snd x') + 1)). assert (mem (B2R (snd x') + 1) (@fminf F, @finf F)) by easy. intuition lra.
- specialize (Hm (Rmin (B2R u) (B2R (fst x') - 1))).
  pose proof (Rmin_l (B2R u) (B2R (fst x') - 1)). pose proof (Rmin_r (B2R u) (B2R (fst x') - 1)).
  assert (mem (Rmin (B2R u) (B2R (fst x') - 1)) (@fminf F, u)) by (split; cbn [fst snd]; [easy|now rewrite ub_fin]). intuition lra.
- specialize (Hm (Rmax (B2R l) (B2R (snd x') + 1))).
  pose proof (Rmax_l (B2R l) (B2R (snd x') + 1)). pose proof (Rmax_r (B2R l) (B2R (snd x') + 1)).
  assert (mem (Rmax (B2R l) (B2R (snd x') + 1)) (l, @finf F)) by (split; cbn [fst snd]; [now rewrite lb_fin|easy]). intuition lra.
- destruct Hr0 as [K1 K2]. cbn [fst snd] in *. rewrite lb_fin in K1 by easy. rewrite ub_fin in K2 by easy.
  split; [now split|].
  assert (M1 : mem (B2R l) (l, u)) by (split; cbn [fst snd]; [rewrite lb_fin|rewrite ub_fin]; try easy; lra).
  assert (M2 : mem (B2R u) (l, u)) by (split; cbn [fst snd]; [rewrite lb_fin|rewrite ub_fin]; try easy; lra).
  apply Hm in M1. apply Hm in M2. lra.
Qed.
Lemma tan_isotonic : pi_far F -> isotonic1 (@tan_itv F).
Proof.
intros PF x x' W W' I.
destruct (tan_far x' PF W') as (z' & Y1 & Y2 & Y3).
destruct (isnan (fst x)) eqn:Ex.
{ destruct (tan_far x PF W) as (z & Z1 & Z2 & Z3). exists (@empty F), z'. split; [|split; [easy|now intros r []]].
  apply returns_eq. unfold tan_itv. vred. now rewrite Ex. }
destruct (wview_nonempty x (wf_view _ W) Ex) as [r0 Hr0].
assert (C : (bounded_rep x' /\ B2R (snd x') - B2R (fst x') <= B2R (@mpfr_const_pi F mode_DN)) \/
  returns (tan_itv x') entire).
{ destruct (is_finite (fst x') && is_finite (snd x')) eqn:Ef.
  - apply andb_true_iff in Ef.
    destruct (Rle_or_lt (B2R (snd x') - B2R (fst x')) (B2R (@mpfr_const_pi F mode_DN))) as [L|L]; [now left|].
    right. apply tan_wide with r0; auto. intros; lra.
  - right. apply tan_wide with r0; auto. intros [E1 E2]. now rewrite E1, E2 in Ef. }
destruct C as [[B L]|E].
2:{ destruct (tan_far x PF W) as (z & Z1 & Z2 & Z3). exists z, (@entire F). now repeat split. }
destruct (bounded_sub x x' r0 W Hr0 I B) as (Bx & L1 & L2 & L3).
assert (D : (exists p, mem p x /\ cos p = 0) \/ forall r, mem r x -> cos r <> 0).
{ destruct (Classical_Prop.classic (exists p, mem p x /\ cos p = 0)) as [?|N]; [now left|right].
  intros r Hr C. apply N. now exists r. }
destruct D as [(p & Hp & Cp)|N].
- destruct (tan_far x PF W) as (z & Z1 & Z2 & Z3). exists z, z'. split; [easy|]. split; [easy|]. intros t _.
  destruct Bx as [F1 F2]. assert (Hm : forall r, B2R (fst x) <= r <= B2R (snd x) -> mem r x).
  { intros r Hr. split; [rewrite lb_fin|rewrite ub_fin]; easy. }
  assert (Hp2 : B2R (fst x) < p < B2R (snd x)).
  { destruct Hp as [K1 K2]. rewrite lb_fin in K1 by easy. rewrite ub_fin in K2 by easy.
    assert (p <> B2R (fst x)) by (intros ->; now apply (cos_nz (B2R (fst x)) (rational_B2R _))).
    assert (p <> B2R (snd x)) by (intros ->; now apply (cos_nz (B2R (snd x)) (rational_B2R _))). lra. }
  destruct (pole_values _ _ p t Hp2 Cp) as (r & s & Hr & Hs & Cr & Cs & Ht).
  apply mem_between with (tan r) (tan s); [| |easy]; apply Y3; [exists r|exists s]; repeat split; auto; now apply I, Hm.
- destruct (tan_general x W) as (z & Z1 & Z2 & Z3 & Z4).
  { intros _ (r & Hr & Cr). now destruct (N r Hr). }
  destruct Z4 as (_ & _ & Z4); [easy|easy|lra|].
  exists z, z'. split; [easy|]. split; [easy|]. apply Z4; [easy|].
  intros t (r & Hr & D & ->). apply Y3. exists r. repeat split; auto; now apply I.
Qed.
End TanIso.

Lemma tan64_not_isotonic : exists (x x' z z' : itv binary64) r, wf x /\ wf x' /\ included x x' /\
  returns (tan_itv x) z /\ returns (tan_itv x') z' /\ mem r z /\ ~ mem r z'.
Proof.
destruct tan64_zero as (x' & z' & W' & R' & H0 & N).
assert (M0 : forall r, mem r (@f0 binary64, @f0 binary64) <-> r = 0).
{ intros r. unfold mem. cbn [fst snd]. rewrite lb_fin, ub_fin by reflexivity. unfold B2R, f0. cbv zeta. lra. }
assert (W0 : wf (@f0 binary64, @f0 binary64)) by (right; exists 0; now apply M0).
destruct (tan_no_pole (@f0 binary64, @f0 binary64) W0) as (z & Z1 & Z2 & Z3).
{ intros r Hr. apply M0 in Hr. subst. rewrite cos_0. lra. }
exists (@f0 binary64, @f0 binary64), x', z, z', 0. repeat split; try easy.
- apply M0 in H. now subst; apply H0.
- apply M0 in H. now subst; apply H0.
- apply Z3. exists 0. rewrite tan_0. unfold tan_dom. rewrite cos_0. split; [now apply M0|]. split; [lra|easy].
- apply Z3. exists 0. rewrite tan_0. unfold tan_dom. rewrite cos_0. split; [now apply M0|]. split; [lra|easy].
Qed.
