(** * Tangent of arguments off pi, in every format *)
From Coq Require Import ZArith NArith QArith Qreals Reals Bool List Lia Lra.
From Flocq Require Import Core.Core IEEE754.BinarySingleNaN.
From Verif Require Import Fmt Spec FloatFacts Exc Deco SpecApi SpecDeco SpecElem SpecMixed SpecIso SpecProg SpecTan MBase PBase PArith PElem PConv PDec MBool PBool MTrig PTrig PNum PTan PTrigT PTanF MDec PDecT PIso MMixed PMixed Ex PIsoMixed PValid2.
Import ListNotations.
Local Open Scope R_scope.

Section T.
Context {F : fmt}.
Implicit Types x : itv F.
Lemma off_pole_seen x : (prec F + 3 <= emax F)%Z -> wf x -> off_pi F x -> pole_seen x.
Proof.
intros H1 W Off BB (pole & Hp & Cp) Hle. specialize (Off BB). cbv zeta in Off. destruct BB as [B1 B2]. destruct (@pi_fin F) as [P1 P2].
assert (Hm : forall r, mem r x <-> B2R (fst x) <= r <= B2R (snd x)).
{ intros r. unfold mem. now rewrite lb_fin, ub_fin. }
assert (Hab : B2R (fst x) <= B2R (snd x)) by (apply Hm in Hp; lra).
destruct Off as [Off|Off]; [|specialize (Off _ P1 (proj2 P2)); lra]. 
destruct (tan_cases (B2R (fst x)) (B2R (snd x))) as [Hmono|(_ & s & t & S1 & S2 & S3 & S4 & S5 & S6)];
  [apply cos_nz, rational_B2R|apply cos_nz, rational_B2R|lra|lra| |].
- exfalso. apply (proj1 (Hmono pole (proj1 (Hm pole) Hp))). easy.
- rewrite <- S5, <- S6. apply gap with (PI - (B2R (snd x) - B2R (fst x))); try easy; try lra.
Qed.
Lemma tan_seen x : wf x -> pole_seen x -> computes_enclosure (tan_itv x) (image1 tan_dom tan x).
Proof. intros W O. destruct (tan_general x W O) as (z & Z1 & Z2 & Z3 & _). now exists z. Qed.
Lemma tan_off x : (prec F + 3 <= emax F)%Z -> wf x -> off_pi F x -> computes_enclosure (tan_itv x) (image1 tan_dom tan x).
Proof. intros H W O. now apply tan_seen, off_pole_seen. Qed.
Lemma tan_total x : wf x -> exists z, returns (tan_itv x) z.
Proof.
intros W. unfold tan_itv. rewrite is_valid_wf, is_empty_wf by easy. mreds. destruct (isnan (fst x)); mreds; [eexists; now intros s|].
cbv zeta. destruct mpfr_greater; [eexists; now intros s|]. destruct mpfr_greater; eexists; now intros s.
Qed.
Lemma tan_seen_iso x x' : wf x -> wf x' -> pole_seen x' -> included x x' ->
  exists z z', returns (tan_itv x) z /\ returns (tan_itv x') z' /\ included z z'.
Proof.
intros W W' O I.
destruct (tan_seen x' W' O) as (z' & Y1 & Y2 & Y3).
destruct (isnan (fst x)) eqn:Ex.
{ exists (@empty F), z'. split; [|split; [easy|now intros r []]].
  apply returns_eq. unfold tan_itv. vred. now rewrite Ex. }
destruct (wview_nonempty x (wf_view _ W) Ex) as [r0 Hr0]. destruct (tan_total x W) as [z Z1].
assert (C : (bounded_rep x' /\ B2R (snd x') - B2R (fst x') <= B2R (@mpfr_const_pi F mode_DN)) \/
  returns (tan_itv x') entire).
{ destruct (is_finite (fst x') && is_finite (snd x')) eqn:Ef.
  - apply andb_true_iff in Ef.
    destruct (Rle_or_lt (B2R (snd x') - B2R (fst x')) (B2R (@mpfr_const_pi F mode_DN))) as [L|L]; [now left|].
    right. apply tan_wide with r0; auto. intros; lra.
  - right. apply tan_wide with r0; auto. intros [E1 E2]. now rewrite E1, E2 in Ef. }
destruct C as [[B L]|E].
2:{ exists z, (@entire F). now repeat split. }
destruct (bounded_sub x x' r0 W Hr0 I B) as (Bx & L1 & L2 & L3).
assert (D : (exists p, mem p x /\ cos p = 0) \/ forall r, mem r x -> cos r <> 0).
{ destruct (Classical_Prop.classic (exists p, mem p x /\ cos p = 0)) as [?|N]; [now left|right].
  intros r Hr C. apply N. now exists r. }
destruct D as [(p & Hp & Cp)|N].
- exists z, z'. split; [easy|]. split; [easy|]. intros t _.
  destruct Bx as [F1 F2]. assert (Hm : forall r, B2R (fst x) <= r <= B2R (snd x) -> mem r x).
  { intros r Hr. split; [rewrite lb_fin|rewrite ub_fin]; easy. }
  assert (Hp2 : B2R (fst x) < p < B2R (snd x)).
  { destruct Hp as [K1 K2]. rewrite lb_fin in K1 by easy. rewrite ub_fin in K2 by easy.
    assert (p <> B2R (fst x)) by (intros ->; now apply (cos_nz (B2R (fst x)) (rational_B2R _))).
    assert (p <> B2R (snd x)) by (intros ->; now apply (cos_nz (B2R (snd x)) (rational_B2R _))). lra. }
  destruct (pole_values _ _ p t Hp2 Cp) as (r & s & Hr & Hs & Cr & Cs & Ht).
  apply mem_between with (tan r) (tan s); [| |easy]; apply Y3; [exists r|exists s]; repeat split; auto; now apply I, Hm.
- destruct (tan_general x W) as (y & X1 & X2 & X3 & X4).
  { intros _ (r & Hr & Cr). now destruct (N r Hr). }
  destruct X4 as (_ & _ & X4); [easy|easy|lra|].
  exists y, z'. split; [easy|]. split; [easy|]. apply X4; [easy|].
  intros t (r & Hr & D & ->). apply Y3. exists r. repeat split; auto; now apply I.
Qed.
Lemma tan_off_iso x x' : (prec F + 3 <= emax F)%Z -> wf x -> wf x' -> off_pi F x' -> included x x' ->
  exists z z', returns (tan_itv x) z /\ returns (tan_itv x') z' /\ included z z'.
Proof. intros HE W W' O. apply tan_seen_iso; try easy. now apply off_pole_seen. Qed.
Lemma tan_dec_off (x : ditv F) : (prec F + 3 <= emax F)%Z -> wf_dec x -> is_deco (snd x) -> snd x <> ill -> off_pi F (fst x) ->
  exists z, returns (tan_dec x) z /\ wf_dec z /\ is_deco (snd z) /\ snd z <> ill /\
    returns (tan_itv (fst x)) (fst z) /\ (snd z <= snd x)%N /\
    honest near1 (box1 (fst x)) tan_dom (bounded_rep (fst x)) tan (fst z) (snd z).
Proof. intros H W D N O. apply tan_dec_ok; try easy. apply off_pole_seen; try easy. now apply wf_dec_wf. Qed.
End T.

Lemma tan_dec_total {F} (x : ditv F) z : wf_dec x -> is_deco (snd x) -> snd x <> ill -> returns (tan_itv (fst x)) z ->
  exists y, returns (tan_dec x) y /\ z = fst y /\ snd y <> ill.
Proof.
intros Wx Dx Nx. pose proof (wf_dec_wf x Wx) as W. intros Z1. apply returns_eq in Z1. revert Z1. unfold tan_itv, tan_dec.
rewrite is_valid_dec_wf, is_nai_wf, is_empty_dec_wf, is_valid_wf, is_empty_wf by easy.
destruct (deq_spec (snd x) ill) as [C|_]; [easy|]. mreds.
destruct (isnan (fst (fst x))) eqn:Ex; mreds.
- intros Z1. apply (f_equal (fun m => m (Est 0 0))) in Z1. injection Z1 as <-. exists empty_dec. split; [easy|]. now split.
- cbv zeta. destruct mpfr_greater eqn:G1; [|destruct (mpfr_greater (mpfr_tan mode_DN (fst (fst x))) _) eqn:G2]; intros Z1; apply (f_equal (fun m => m (Est 0 0))) in Z1; injection Z1 as <-.
  + exists (@entire F, trv). split; [easy|]. now split.
  + exists (@entire F, trv). split; [easy|]. now split.
  + destruct (finite_of_width (fst x) W Ex G1) as [F1 F2]. destruct (tan_pair _ _ F1 F2 G2) as [_ Wb].
    rewrite (is_common_wf _ Wb). mreds.
    eexists. split; [now intros s|]. split; [reflexivity|]. cbn [snd].
    match goal with |- dmin _ ?d <> _ => assert (I : In (dmin (snd x) d) [trv; def; dac; com]) end.
    { apply dmin_in; [now apply deco_cases|]. destruct (_ && _)%bool; cbn; tauto. }
    apply deco_ge in I. apply I.
Qed.
Lemma tan_dec_seen_iso {F} (x x' : ditv F) : proper x -> proper x' -> pole_seen (fst x') -> included (fst x) (fst x') ->
  exists z z', returns (tan_dec x) z /\ returns (tan_dec x') z' /\ included (fst z) (fst z').
Proof.
intros (W & D & N) (W' & D' & N') O I. destruct (tan_seen_iso (fst x) (fst x') (wf_dec_wf x W) (wf_dec_wf x' W') O I) as (z & z' & R & R' & J).
destruct (tan_dec_ok x' W' D' N' O) as (y' & Y1 & _ & _ & _ & Y2 & _).
destruct (tan_dec_total x z W D N R) as (y & K1 & K2 & _). exists y, y'. split; [easy|]. split; [easy|].
rewrite <- K2, (returns_same _ _ _ Y2 R'). easy.
Qed.
Lemma tan_dec_off_iso {F} (x x' : ditv F) : (prec F + 3 <= emax F)%Z -> proper x -> proper x' -> off_pi F (fst x') -> included (fst x) (fst x') ->
  exists z z', returns (tan_dec x) z /\ returns (tan_dec x') z' /\ included (fst z) (fst z').
Proof. intros HE P P' O. apply tan_dec_seen_iso; try easy. apply off_pole_seen; try easy. apply wf_dec_wf, P'. Qed.

(** Mixed types. *)
Lemma bounds_of_set {F G} (x : itv F) (y : itv G) : wf x -> wf y -> (forall r, mem r y <-> mem r x) -> bounded_rep y -> (exists r, mem r x) ->
  bounded_rep x /\ B2R (fst y) = B2R (fst x) /\ B2R (snd y) = B2R (snd x).
Proof.
intros Wx Wy E By [r0 Hr0].
assert (My : forall r, mem r y <-> B2R (fst y) <= r <= B2R (snd y)). { destruct By. intros r. unfold mem. now rewrite lb_fin, ub_fin. }
assert (Bx : bounded_rep x).
{ pose proof (wf_view _ Wx) as V. destruct V; cbn [fst snd] in *.
  - now destruct Hr0.
  - assert (M : mem (B2R (snd y) + 1) (@fminf F, @finf F)) by easy. apply E, My in M. lra.
  - set (r := Rmin r0 (B2R (fst y) - 1)). pose proof (Rmin_l r0 (B2R (fst y) - 1)). pose proof (Rmin_r r0 (B2R (fst y) - 1)).
    assert (M : mem r (@fminf F, u)). { destruct Hr0 as [_ K]. split; [easy|]. cbn [snd] in *. rewrite ub_fin in * by easy. unfold r. lra. }
    apply E, My in M. unfold r in M. lra.
  - set (r := Rmax r0 (B2R (snd y) + 1)). pose proof (Rmax_l r0 (B2R (snd y) + 1)). pose proof (Rmax_r r0 (B2R (snd y) + 1)).
    assert (M : mem r (l, @finf F)). { destruct Hr0 as [K _]. split; [|easy]. cbn [fst] in *. rewrite lb_fin in * by easy. unfold r. lra. }
    apply E, My in M. unfold r in M. lra.
  - now split. }
assert (Mx : forall r, mem r x <-> B2R (fst x) <= r <= B2R (snd x)). { destruct Bx. intros r. unfold mem. now rewrite lb_fin, ub_fin. }
apply Mx in Hr0. split; [easy|].
assert (A1 := proj2 (Mx (B2R (fst x))) ltac:(lra)). assert (A2 := proj2 (Mx (B2R (snd x))) ltac:(lra)). apply E, My in A1, A2.
assert (A3 := proj2 (My (B2R (fst y))) ltac:(lra)). assert (A4 := proj2 (My (B2R (snd y))) ltac:(lra)). apply E, Mx in A3, A4. lra.
Qed.
Lemma off_hull G {F} (x : itv F) : within F G -> wf x -> off_pi G x -> (exists r, mem r x) -> off_pi G (convert_hull G x).
Proof.
intros WI W O N B. destruct (bounds_of_set x (convert_hull G x) W (wf_convert_hull G x W) (convert_hull_exact G x WI W) B N) as (Bx & E1 & E2).
rewrite E1, E2. now apply O.
Qed.
Lemma off_hull_seen G {F} (x : itv F) : (prec G + 3 <= emax G)%Z -> within F G -> wf x -> off_pi G x -> pole_seen (convert_hull G x).
Proof.
intros HE WI W O. destruct (Classical_Prop.classic (exists r, mem r x)) as [N|N].
- apply off_pole_seen; [easy|now apply wf_convert_hull|now apply off_hull].
- intros _ (p & Hp & _). exfalso. apply N. exists p. now apply (convert_hull_exact G x WI W).
Qed.
Lemma tan_mixed_seen T {F} (x : itv F) : comparable T F -> wf x -> pole_seen (convert_hull (pmax T F) x) ->
  computes_enclosure (tan_mixed T x) (image1 tan_dom tan x).
Proof.
intros HC Wx O. set (W := pmax T F) in *. destruct (within_pmax T F HC) as [A B]. fold W in A, B.
destruct (tan_general (convert_hull W x) (wf_convert_hull W x Wx) O) as (z & H1 & H2 & H3 & _).
exists (convert_hull T z). split.
- apply returns_eq. apply mixed1_ret; [easy|]. now apply returns_eq.
- apply encloses_narrow; [easy|]. intros t (r & Hr & Hd & ->). apply H3. exists r. split; [|easy].
  now apply convert_hull_exact.
Qed.
Lemma tan_mixed_off T {F} (x : itv F) : comparable T F -> (prec (pmax T F) + 3 <= emax (pmax T F))%Z -> wf x -> off_pi (pmax T F) x ->
  computes_enclosure (tan_mixed T x) (image1 tan_dom tan x).
Proof. intros HC HE Wx O. apply tan_mixed_seen; try easy. apply off_hull_seen; try easy. now apply within_pmax. Qed.
Lemma tan_dec_mixed_seen T {F} (x : ditv F) : comparable T F ->
  wf_dec x -> is_deco (snd x) -> snd x <> ill -> pole_seen (convert_hull (pmax T F) (fst x)) ->
  exists z, returns (tan_dec_mixed T x) z /\ wf_dec z /\ is_deco (snd z) /\ snd z <> ill /\
    returns (tan_mixed T (fst x)) (fst z) /\ (snd z <= snd x)%N /\
    honest near1 (box1 (fst x)) tan_dom (bounded_rep (fst x)) tan (fst z) (snd z).
Proof.
intros HC Wx Dx Nx O. set (W := pmax T F) in *. destruct (within_pmax T F HC) as [A B]. fold W in A, B.
destruct (widen_dec W x B Wx Nx) as (E1 & E2 & E3 & E4).
destruct (tan_dec_ok (convert_hull W (fst x), snd x) E2 Dx Nx O) as (z & R1 & R2 & R3 & R4 & R5 & R6 & R7).
apply returns_eq in R1. apply returns_eq in R5. cbn [fst snd] in *.
assert (H : honest near1 (box1 (fst x)) tan_dom (bounded_rep (fst x)) tan (fst z) (snd z)).
{ revert R7. apply honest_ext; [intros p; apply E3|apply E4]. }
destruct (narrow_dec T _ _ _ _ _ z R2 R3 R4 H) as (v & V1 & V2 & V3 & V4 & V5 & V6 & V7).
exists v. split; [|split; [easy|split; [easy|split; [easy|split; [|split; [lia|easy]]]]]].
- apply returns_eq. unfold tan_dec_mixed, mixed_dec1. cbv zeta. fold W. rewrite is_valid_dec_wf, is_nai_wf by easy. mreds.
  destruct (deq_spec (snd x) ill) as [E|_]; [easy|]. mreds. rewrite E1. mreds. rewrite R1. mreds. exact V1.
- apply returns_eq. rewrite V2. apply mixed1_ret; [now apply wf_dec_wf|]. fold W. exact R5.
Qed.
Lemma tan_dec_mixed_off T {F} (x : ditv F) : comparable T F -> (prec (pmax T F) + 3 <= emax (pmax T F))%Z ->
  wf_dec x -> is_deco (snd x) -> snd x <> ill -> off_pi (pmax T F) (fst x) ->
  exists z, returns (tan_dec_mixed T x) z /\ wf_dec z /\ is_deco (snd z) /\ snd z <> ill /\
    returns (tan_mixed T (fst x)) (fst z) /\ (snd z <= snd x)%N /\
    honest near1 (box1 (fst x)) tan_dom (bounded_rep (fst x)) tan (fst z) (snd z).
Proof.
intros HC HE Wx Dx Nx O. apply tan_dec_mixed_seen; try easy. apply off_hull_seen; try easy; [now apply within_pmax|now apply wf_dec_wf].
Qed.

Lemma tan_wf {F} (y : itv F) : wf y -> exists z, returns (tan_itv y) z /\ wf z.
Proof.
intros W. destruct (tan_total y W) as [z Z]. exists z. split; [easy|]. exact (tan_del y W (Est 0 0) z _ (Z (Est 0 0))).
Qed.
Lemma tan_mixed_seen_iso T {F} (x x' : itv F) : comparable T F ->
  wf x -> wf x' -> pole_seen (convert_hull (pmax T F) x') -> included x x' ->
  exists z z', returns (tan_mixed T x) z /\ returns (tan_mixed T x') z' /\ included z z'.
Proof.
intros HC Wx Wx' O I. set (W := pmax T F) in *. destruct (within_pmax T F HC) as [A B]. fold W in A, B.
destruct (tan_seen_iso (convert_hull W x) (convert_hull W x')) as (z & z' & Z & Z' & J).
{ now apply wf_convert_hull. } { now apply wf_convert_hull. } { easy. } { now apply hull_mono. }
destruct (tan_wf (convert_hull W x) (wf_convert_hull W x Wx)) as (y & Y & V). rewrite (returns_same _ _ _ Y Z) in V.
destruct (tan_wf (convert_hull W x') (wf_convert_hull W x' Wx')) as (y' & Y' & V'). rewrite (returns_same _ _ _ Y' Z') in V'.
exists (convert_hull T z), (convert_hull T z'). split; [|split].
- apply returns_eq, mixed1_ret; [easy|]. now apply returns_eq.
- apply returns_eq, mixed1_ret; [easy|]. now apply returns_eq.
- now apply hull_mono.
Qed.
Lemma tan_mixed_off_iso T {F} (x x' : itv F) : comparable T F -> (prec (pmax T F) + 3 <= emax (pmax T F))%Z ->
  wf x -> wf x' -> off_pi (pmax T F) x' -> included x x' ->
  exists z z', returns (tan_mixed T x) z /\ returns (tan_mixed T x') z' /\ included z z'.
Proof. intros HC HE Wx Wx' O. apply tan_mixed_seen_iso; try easy. apply off_hull_seen; try easy. now apply within_pmax. Qed.
Lemma tan_dec_mixed_seen_iso T {F} (x x' : ditv F) : comparable T F -> proper x -> proper x' ->
  pole_seen (convert_hull (pmax T F) (fst x')) -> included (fst x) (fst x') ->
  exists z z', returns (tan_dec_mixed T x) z /\ returns (tan_dec_mixed T x') z' /\ included (fst z) (fst z').
Proof.
intros HC (Wx & Dx & Nx) (Wx' & Dx' & Nx') O I.
destruct (tan_mixed_seen_iso T (fst x) (fst x') HC (wf_dec_wf x Wx) (wf_dec_wf x' Wx') O I) as (z & z' & R & R' & J).
destruct (tan_dec_mixed_seen T x' HC Wx' Dx' Nx' O) as (y' & Y1 & _ & _ & _ & Y2 & _).
assert (T1 : exists y, returns (tan_dec_mixed T x) y /\ returns (tan_mixed T (fst x)) (fst y)).
{ set (W := pmax T F) in *. destruct (within_pmax T F HC) as [A B]. fold W in A, B.
  destruct (widen_dec W x B Wx Nx) as (E1 & E2 & _ & _).
  destruct (tan_wf (convert_hull W (fst x)) (wf_dec_wf _ E2)) as (v & V1 & V2).
  destruct (tan_dec_total (convert_hull W (fst x), snd x) v E2 Dx Nx V1) as (y & K1 & K2 & K3).
  assert (V : wf_dec y). { apply (tan_dec_del (convert_hull W (fst x), snd x) (conj E2 Dx) (Est 0 0) y _ (K1 (Est 0 0))). }
  assert (C : exists c, convert_hull_dec T y = ret c /\ fst c = convert_hull T (fst y)).
  { unfold convert_hull_dec. rewrite is_nai_wf by easy. destruct (deq_spec (snd y) ill) as [E|_]; [easy|]. mreds. cbv zeta.
    destruct (_ && _)%bool; eexists; now split. }
  destruct C as (c & C1 & C2).
  exists c. split; [|rewrite C2].
  - apply returns_eq in K1. apply returns_eq. unfold tan_dec_mixed, mixed_dec1. cbv zeta. fold W. rewrite is_valid_dec_wf, is_nai_wf by easy. mreds.
    destruct (deq_spec (snd x) ill) as [E|_]; [easy|]. mreds. rewrite E1. mreds. rewrite K1. mreds. exact C1.
  - apply returns_eq. apply mixed1_ret; [now apply wf_dec_wf|]. fold W. apply returns_eq. now rewrite <- K2. }
destruct T1 as (y & X1 & X2). exists y, y'. split; [easy|]. split; [easy|].
rewrite (returns_same _ _ _ X2 R), (returns_same _ _ _ Y2 R'). easy.
Qed.

(** binary64: all but the widths between two neighbouring numbers below pi. *)
Lemma off64 (x : itv binary64) : B2R (snd x) - B2R (fst x) <= 7074237752028439 / 2251799813685248 \/
  7074237752028440 / 2251799813685248 < B2R (snd x) - B2R (fst x) -> off_pi binary64 x.
Proof.
intros K _. cbv zeta. revert K. pose proof pi_bounds as [Hlo Hhi]. pib. intros [H|H].
- left. set (w := B2R (snd x) - B2R (fst x)) in *. clearbody w. change (prec binary64) with 53%Z. simpl bpow. change (Z.pow_pos 2 52) with 4503599627370496%Z.
  set (d := / 4503599627370496). assert (E : d = 1 / 4503599627370496) by (unfold d; lra). clearbody d.
  assert (d * d <= d) by nra. lra.
- right. intros p Fp Hp. apply Rle_lt_trans with (2 := H).
  apply Rle_trans with (B2R (fl binary64 7074237752028440 (-51))).
  + apply below_pi with (fl binary64 7074237752028441 (-51)); try easy; try (vm_compute; reflexivity). litval. lra.
  + litval. lra.
Qed.
Lemma exp64 : (prec binary64 + 3 <= emax binary64)%Z.
Proof. easy. Qed.
