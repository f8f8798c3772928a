(** * The tangent: exactly which arguments are enclosed *)
From Coq Require Import ZArith NArith QArith Qreals Reals Bool List Lia Lra Classical.
From Flocq Require Import Core.Core IEEE754.BinarySingleNaN.
From Verif Require Import Fmt Spec FloatFacts Exc Deco SpecApi SpecDeco SpecElem SpecMixed SpecIso SpecTan SpecTan2 MBase PBase PArith PElem PDec MBool PBool MTrig PTrig PTan PTrigT PTanF MDec PDecT MMixed PConv PMixed PValid PValid2 PTanOff PTan64 PIso Ex.
Import ListNotations.
Local Open Scope R_scope.

Section T.
Context {F : fmt}.
Implicit Types x : itv F.

Lemma abs_lt_emax (f : float F) : Rabs (B2R f) < bpow radix2 (emax F).
Proof. apply abs_B2R_lt_emax. Qed.
Lemma two_floats (s t : R) : @two_between F s t <-> exists f g : float F, is_finite f = true /\ is_finite g = true /\
  s <= B2R f /\ B2R f < B2R g /\ B2R g <= t.
Proof.
split.
- intros (p & q & H1 & H2 & H3 & H4 & H5 & H6 & H7).
  destruct (fmt_float p H1 H6) as (pf & P1 & P2). destruct (fmt_float q H2 H7) as (qf & Q1 & Q2).
  exists pf, qf. rewrite P2, Q2. tauto.
- intros (f & g & H1 & H2 & H3 & H4 & H5). exists (B2R f), (B2R g).
  pose proof (generic_format_B2R (prec F) (emax F) f). pose proof (generic_format_B2R (prec F) (emax F) g).
  pose proof (abs_lt_emax f). pose proof (abs_lt_emax g). repeat split; easy.
Qed.
Lemma pi_max (p : float F) : is_finite p = true -> B2R p <= PI -> B2R p <= B2R (@mpfr_const_pi F mode_DN).
Proof.
intros H1 H2. destruct (rround_RD false PI : is_RD PI (@mpfr_const_pi F mode_DN)) as [_ D].
destruct (@pi_fin F) as [P1 _]. specialize (D p). rewrite lb_fin in D by easy. specialize (D H2 (B2R (@mpfr_const_pi F mode_DN))).
rewrite !lb_fin in D by easy. apply D. lra.
Qed.
Lemma hidden_iff x : pole_seen x <-> ~ pole_hidden F x.
Proof.
destruct (@pi_fin F) as [P1 P2]. unfold pole_seen, pole_hidden. split.
- intros S (B & P & (p & p1 & p2 & p3) & N). apply N, two_floats, S; [easy|easy|].
  apply Rle_trans with (1 := p3). now apply pi_max.
- intros H B P L. apply NNPP. intros N. apply H. split; [easy|split; [easy|split]].
  + exists (mpfr_const_pi mode_DN). split; [easy|split; [apply P2|easy]].
  + intros K. apply N. now apply two_floats.
Qed.
(** With a pole inside, the tangents are beyond every bound. *)
Lemma tan_large a b pole v : cos a <> 0 -> cos b <> 0 -> b - a <= PI -> a <= pole <= b -> cos pole = 0 ->
  (exists r, a <= r <= b /\ cos r <> 0 /\ v < tan r) /\ (exists r, a <= r <= b /\ cos r <> 0 /\ tan r < v).
Proof.
intros Ca Cb Hw Hp Cp. pose proof PI_RGT_0 as HP.
destruct (reduce_pi a Ca) as [k Hk]. destruct (reduce_pi b Cb) as [j Hj].
assert (Hkj : j = (k + 1)%Z).
{ assert (N : forall i, - PI / 2 < pole - IZR i * PI < PI / 2 -> False).
  { intros i Hi. assert (E : cos (pole - IZR i * PI) = 0).
    { rewrite <- (cos_pi_shift i). now replace (pole - IZR i * PI + IZR i * PI) with pole by lra. }
    pose proof (cos_gt_0 (pole - IZR i * PI)). lra. }
  assert (L : (k < j)%Z).
  { apply lt_IZR, Rnot_le_lt. intros L. apply (N k). split; [nra|]. nra. }
  assert (U : (j < k + 2)%Z).
  { apply lt_IZR. rewrite plus_IZR. nra. }
  lia. }
subst j. rewrite plus_IZR in Hj. replace ((IZR k + 1) * PI) with (IZR k * PI + PI) in Hj by ring. set (d := IZR k * PI) in *.
assert (T : forall i w, tan (atan w + IZR i * PI) = w /\ cos (atan w + IZR i * PI) <> 0).
{ intros i w. pose proof (atan_bound w) as Bw. assert (C : cos (atan w) <> 0) by (apply Rgt_not_eq, cos_gt_0; lra).
  split; [rewrite tan_pi_shift by easy; apply tan_atan|]. now rewrite cos_pi_shift. }
assert (A : forall (i : Z) (z : R), - PI / 2 < z - IZR i * PI < PI / 2 -> atan (tan z) = z - IZR i * PI).
{ intros i z Hz. replace (tan z) with (tan (z - IZR i * PI)).
  - apply atan_tan. lra.
  - rewrite <- (tan_pi_shift i (z - IZR i * PI)) by (apply Rgt_not_eq, cos_gt_0; lra). f_equal. lra. }
split.
- set (w := Rmax v (tan a) + 1). destruct (T k w) as [T1 T2]. exists (atan w + IZR k * PI).
  assert (W1 : v < w /\ tan a < w) by (unfold w; pose proof (Rmax_l v (tan a)); pose proof (Rmax_r v (tan a)); lra).
  rewrite T1. split; [|split; [easy|lra]]. pose proof (atan_increasing _ _ (proj2 W1)) as I.
  rewrite (A k a) in I by exact Hk. pose proof (atan_bound w). fold d in I |- *. lra.
- set (w := Rmin v (tan b) - 1). destruct (T (k + 1)%Z w) as [T1 T2]. exists (atan w + IZR (k + 1) * PI).
  assert (W1 : w < v /\ w < tan b) by (unfold w; pose proof (Rmin_l v (tan b)); pose proof (Rmin_r v (tan b)); lra).
  rewrite T1. split; [|split; [easy|lra]]. pose proof (atan_increasing _ _ (proj2 W1)) as I.
  rewrite (A (k + 1)%Z b) in I by (rewrite plus_IZR; replace ((IZR k + 1) * PI) with (d + PI) by (unfold d; ring); lra). pose proof (atan_bound w). rewrite plus_IZR in *.
  replace ((IZR k + 1) * PI) with (d + PI) in * by (unfold d; ring). lra.
Qed.
(** A hidden pole passes both tests of the code, ... *)
Lemma hidden_tests x : pole_hidden F x -> isnan (fst x) = false /\
  mpfr_greater (rsub mode_UP (snd x) (fst x)) (@mpfr_const_pi F mode_DN) = false /\
  mpfr_greater (mpfr_tan mode_DN (fst x)) (mpfr_tan mode_UP (snd x)) = false /\
  is_RD (tan (B2R (fst x))) (mpfr_tan mode_DN (fst x)) /\ is_RU (tan (B2R (snd x))) (mpfr_tan mode_UP (snd x)).
Proof.
intros ((F1 & F2) & _ & (p & p1 & p2 & p3) & N).
pose proof (@pi_fin F) as [P1 P2]. pose proof (pi_max p p1 p2) as PM.
assert (Ra : is_RD (tan (B2R (fst x))) (mpfr_tan mode_DN (fst x))) by (unfold mpfr_tan; rewrite F1; apply rround_RD).
assert (Rb : is_RU (tan (B2R (snd x))) (mpfr_tan mode_UP (snd x))) by (unfold mpfr_tan; rewrite F2; apply rround_RU).
split; [now apply isnan_fin|]. split; [apply (width_le (fst x) (snd x) _ F1 F2 P1); lra|]. split; [|easy].
destruct (mpfr_greater (mpfr_tan mode_DN (fst x)) (mpfr_tan mode_UP (snd x))) eqn:G2; [|easy]. exfalso. apply N.
revert G2 Ra Rb. generalize (mpfr_tan mode_DN (fst x)), (mpfr_tan mode_UP (snd x)). intros g f. unfold mpfr_greater.
intros G2 [D1 D2] [U1 U2].
destruct (fviewP g) as [ | | |g Fg]; try easy; destruct (fviewP f) as [ | | |f Ff]; try easy.
- revert G2. now destruct f as [| | |[]].
- revert G2. now destruct g as [| | |[]].
- exists f, g. rewrite fgt_fin in G2 by easy. revert G2. case Rlt_bool_spec; [|easy]. intros L _.
  rewrite lb_fin in D1 by easy. rewrite ub_fin in U1 by easy. tauto.
Qed.
(** ... so that the code returns the rounded tangents of the bounds, ... *)
Lemma hidden_result x : wf x -> pole_hidden F x -> tan_itv x = ret (mpfr_tan mode_DN (fst x), mpfr_tan mode_UP (snd x)).
Proof.
intros W H. destruct (hidden_tests x H) as (Ex & G1 & G2 & _). unfold tan_itv. vred. rewrite Ex. vred. cbv zeta. now rewrite G1, G2.
Qed.
Lemma hidden_wf x : pole_hidden F x -> wf (mpfr_tan mode_DN (fst x), mpfr_tan mode_UP (snd x)).
Proof. intros H. destruct (hidden_tests x H) as (_ & _ & G2 & Ra & Rb). exact (not_greater_wf _ _ _ _ (proj1 Ra) (proj1 Rb) G2). Qed.
(** ... and misses a tangent, also after rounding outward to a smaller type. *)
Lemma hidden_out T x : within T F -> wf x -> pole_hidden F x ->
  exists r, mem r x /\ cos r <> 0 /\ ~ mem (tan r) (convert_hull T (mpfr_tan mode_DN (fst x), mpfr_tan mode_UP (snd x))).
Proof.
intros HT W H. destruct (hidden_tests x H) as (Ex & G1 & G2 & Ra & Rb). destruct H as ((F1 & F2) & (pole & Hp & Cp) & (p & p1 & p2 & p3) & N).
assert (Hm : forall r, mem r x <-> B2R (fst x) <= r <= B2R (snd x)).
{ intros r. unfold mem. now rewrite lb_fin, ub_fin. }
apply Hm in Hp.
assert (Ca : cos (B2R (fst x)) <> 0) by apply cos_nz, rational_B2R.
assert (Cb : cos (B2R (snd x)) <> 0) by apply cos_nz, rational_B2R.
destruct (tan_cases (B2R (fst x)) (B2R (snd x)) Ca Cb ltac:(lra) ltac:(lra)) as [Hmono|(_ & s & t & S1 & S2 & S3 & S4 & S5 & S6)].
{ now destruct (proj1 (Hmono pole Hp)). }
assert (Ht : tan (B2R (snd x)) <= tan (B2R (fst x))) by (rewrite <- S5, <- S6; apply tan_le; lra).
assert (Hbig : forall v, (exists r, mem r x /\ cos r <> 0 /\ v < tan r) /\ (exists r, mem r x /\ cos r <> 0 /\ tan r < v)).
{ intros v. destruct (tan_large (B2R (fst x)) (B2R (snd x)) pole v Ca Cb ltac:(lra) Hp Cp) as [(r & A1 & A2) (r' & B1 & B2)].
  split; [exists r|exists r']; split; try easy; now apply Hm. }
unfold convert_hull. cbn [fst snd].
destruct (fconv_exact F mode_NE (@fmaxv T) HT eq_refl) as [M1 M2]. set (m := fconv F mode_NE (@fmaxv T)) in *.
assert (N1 : is_finite (fneg m) = true) by (unfold fneg; now rewrite is_finite_Bopp).
assert (N2 : B2R (fneg m) = - B2R (@fmaxv T)) by (unfold fneg; now rewrite B2R_Bopp, M2).
pose proof (@fmaxv_ge1 T) as MP.
destruct (Rle_or_lt (tan (B2R (snd x))) (B2R (@fmaxv T))) as [L|L].
- destruct (Hbig (B2R (@fmaxv T))) as [(r & A1 & A2 & A3) _]. exists r. split; [easy|split; [easy|]]. intros [_ U]. cbn [snd] in U.
  destruct Rb as [U1 U2]. assert (K : ub m (tan (B2R (snd x)))) by (rewrite ub_fin, M2 by easy; lra). specialize (U2 _ K). clear K.
  destruct (fviewP (mpfr_tan mode_UP (snd x))) as [ | | |u Fu]; try easy.
  + specialize (U2 (B2R (@fmaxv T) + 1) eq_refl). rewrite ub_fin, M2 in U2 by easy. lra.
  + specialize (U2 (B2R u)). rewrite !ub_fin, M2 in U2 by easy. specialize (U2 (Rle_refl _)).
    destruct (convert_rndu_fin T u Fu) as [_ C]. assert (K : ub (@fmaxv T) (B2R u)) by (rewrite ub_fin by easy; lra).
    specialize (C _ K _ U). rewrite ub_fin in C by easy. lra.
- destruct (Hbig (- B2R (@fmaxv T))) as [_ (r & A1 & A2 & A3)]. exists r. split; [easy|split; [easy|]]. intros [U _]. cbn [fst] in U.
  destruct Ra as [U1 U2]. assert (K : lb (fneg m) (tan (B2R (fst x)))) by (rewrite lb_fin, N2 by easy; lra). specialize (U2 _ K). clear K.
  destruct (fviewP (mpfr_tan mode_DN (fst x))) as [ | | |u Fu]; try easy.
  + specialize (U2 (- B2R (@fmaxv T) - 1) eq_refl). rewrite lb_fin, N2 in U2 by easy. lra.
  + specialize (U2 (B2R u)). rewrite !lb_fin, N2 in U2 by easy. specialize (U2 (Rle_refl _)).
    destruct (convert_rndd_fin T u Fu) as [_ C]. assert (K : lb (fneg (@fmaxv T)) (B2R u)) by (unfold fneg; rewrite lb_fin, B2R_Bopp by (now rewrite ?is_finite_Bopp); lra).
    specialize (C _ K _ U). unfold fneg in C. rewrite lb_fin, B2R_Bopp in C by (now rewrite ?is_finite_Bopp). lra.
Qed.
Lemma hidden_misses x : wf x -> pole_hidden F x ->
  exists z r, returns (tan_itv x) z /\ mem r x /\ cos r <> 0 /\ ~ mem (tan r) z.
Proof.
intros W H. destruct (hidden_out F x (within_refl F) W H) as (r & R1 & R2 & R3).
exists (mpfr_tan mode_DN (fst x), mpfr_tan mode_UP (snd x)), r. split; [apply returns_eq; now apply hidden_result|].
split; [easy|split; [easy|]]. intros K. apply R3. apply (convert_hull_exact F _ (within_refl F) (hidden_wf x H)). exact K.
Qed.
Theorem tan_iff x : wf x -> (computes_enclosure (tan_itv x) (image1 tan_dom tan x) <-> ~ pole_hidden F x).
Proof.
intros W. split.
- intros (z & Z1 & Z2 & Z3) H. destruct (hidden_misses x W H) as (z' & r & R1 & R2 & R3 & R4).
  rewrite (PIso.returns_same _ _ _ R1 Z1) in R4.
  apply R4, Z3. exists r. easy.
- intros H. apply tan_seen; [easy|]. now apply hidden_iff.
Qed.
Lemma tan_seen_dec (x : ditv F) : wf_dec x -> is_deco (snd x) -> snd x <> ill -> ~ pole_hidden F (fst x) ->
  exists z, returns (tan_dec x) z /\ wf_dec z /\ is_deco (snd z) /\ snd z <> ill /\
    returns (tan_itv (fst x)) (fst z) /\ (snd z <= snd x)%N /\
    honest near1 (box1 (fst x)) tan_dom (bounded_rep (fst x)) tan (fst z) (snd z).
Proof. intros W D N H. apply tan_dec_ok; try easy. now apply hidden_iff. Qed.
Lemma hidden_dec (x : ditv F) : wf_dec x -> is_deco (snd x) -> snd x <> ill -> snd x <> trv -> pole_hidden F (fst x) ->
  exists z r, returns (tan_dec x) z /\ (def <= snd z)%N /\ mem r (fst x) /\ cos r = 0.
Proof.
intros Wx Dx Nx Nt H. pose proof (wf_dec_wf x Wx) as W. pose proof (deco_cases _ Dx Nx) as Hd.
destruct (hidden_tests _ H) as (Ex & G1 & G2 & Ra & Rb). destruct H as (_ & (pole & Hp & Cp) & _).
pose proof (not_greater_wf _ _ _ _ (proj1 Ra) (proj1 Rb) G2) as Wz.
set (b := (mpfr_tan mode_DN (fst (fst x)), mpfr_tan mode_UP (snd (fst x))) : itv F) in *.
exists (b, dmin (snd x) (if is_finite (fst b) && is_finite (snd b) then com else dac)), pole. split; [|split; [|split; [exact Hp|exact Cp]]].
- apply returns_eq. unfold tan_dec. rewrite is_valid_dec_wf, is_nai_wf, is_empty_dec_wf by easy.
  destruct (deq_spec (snd x) ill) as [C|_]; [easy|]. mreds. rewrite Ex. mreds. rewrite G1, G2. fold b.
  rewrite is_common_wf by easy. mreds. reflexivity.
- cbn [snd]. assert (L : (def <= snd x)%N) by (destruct Hd as [E|[E|[E|[E|[]]]]]; rewrite <- E in *; easy).
  unfold dmin. destruct (_ && _); case N.ltb; easy.
Qed.
End T.

(** Mixed types: the poles of the argument hidden in the widest type. *)
Lemma hidden_widen W {F} (x : itv F) : within F W -> wf x -> (pole_hidden W (convert_hull W x) <-> pole_hidden W x).
Proof.
intros HW Wx. assert (M := convert_hull_exact W x HW Wx).
assert (K : (exists r, mem r x) -> bounded_rep (convert_hull W x) ->
  bounded_rep x /\ B2R (fst (convert_hull W x)) = B2R (fst x) /\ B2R (snd (convert_hull W x)) = B2R (snd x)).
{ intros N B. now apply bounds_of_set; [|apply wf_convert_hull| | |]. }
assert (B : bounded_rep x -> bounded_rep (convert_hull W x)).
{ intros [B1 B2]. destruct (fconv_exact W mode_DN _ HW B1) as [C1 _]. destruct (fconv_exact W mode_UP _ HW B2) as [C2 _].
  unfold bounded_rep, convert_hull, convert_rndd, convert_rndu. cbn [fst snd]. split; now destruct feq. }
unfold pole_hidden. split.
- intros (H1 & (p & P1 & P2) & H3). apply M in P1. destruct (K (ex_intro _ p P1) H1) as (K1 & K2 & K3).
  rewrite K2, K3 in H3. split; [easy|]. split; [now exists p|easy].
- intros (H1 & (p & P1 & P2) & H3). apply B in H1. destruct (K (ex_intro _ p P1) H1) as (K1 & K2 & K3).
  rewrite K2, K3. split; [easy|]. split; [exists p; split; [now apply M|easy]|easy].
Qed.
Theorem tan_mixed_iff (T F : fmt) (x : itv F) : comparable T F -> wf x ->
  (computes_enclosure (tan_mixed T x) (image1 tan_dom tan x) <-> ~ pole_hidden (pmax T F) x).
Proof.
intros HC Wx. destruct (within_pmax T F HC) as [A B]. set (W := pmax T F) in *. rewrite <- (hidden_widen W x B Wx). split.
- intros (z & Z1 & Z2 & Z3) H. pose proof (wf_convert_hull W x Wx) as Wy.
  destruct (hidden_out T _ A Wy H) as (r & R1 & R2 & R3). apply (convert_hull_exact W x B Wx) in R1.
  assert (E : returns (tan_mixed T x) (convert_hull T (mpfr_tan mode_DN (fst (convert_hull W x)), mpfr_tan mode_UP (snd (convert_hull W x))))).
  { apply returns_eq. apply mixed1_ret; [easy|]. now apply hidden_result. }
  rewrite (returns_same _ _ _ E Z1) in R3. apply R3, Z3. exists r. easy.
- intros H. apply tan_mixed_seen; try easy. now apply hidden_iff.
Qed.
Lemma tan_seen_dec_mixed (T F : fmt) (x : ditv F) : comparable T F -> wf_dec x -> is_deco (snd x) -> snd x <> ill -> ~ pole_hidden (pmax T F) (fst x) ->
  exists z, returns (tan_dec_mixed T x) z /\ wf_dec z /\ is_deco (snd z) /\ snd z <> ill /\
    returns (tan_mixed T (fst x)) (fst z) /\ (snd z <= snd x)%N /\
    honest near1 (box1 (fst x)) tan_dom (bounded_rep (fst x)) tan (fst z) (snd z).
Proof.
intros HC W D N H. apply tan_dec_mixed_seen; try easy. apply hidden_iff. intros K. apply H. revert K. apply hidden_widen.
- now apply within_pmax.
- now apply wf_dec_wf.
Qed.
Lemma hidden_dec_mixed (T F : fmt) (x : ditv F) : comparable T F -> wf_dec x -> is_deco (snd x) -> snd x <> ill -> snd x <> trv -> pole_hidden (pmax T F) (fst x) ->
  exists z r, returns (tan_dec_mixed T x) z /\ (def <= snd z)%N /\ mem r (fst x) /\ cos r = 0.
Proof.
intros HC Wx Dx Nx Nt H. destruct (within_pmax T F HC) as [A B]. set (W := pmax T F) in *.
destruct (widen_dec W x B Wx Nx) as (E1 & E2 & E3 & E4).
apply (hidden_widen W _ B (wf_dec_wf x Wx)) in H.
destruct (hidden_dec (convert_hull W (fst x), snd x) E2 Dx Nx Nt H) as (y & r & Y1 & Y2 & Y3 & Y4). apply E3 in Y3.
assert (V : wf_dec y). { apply (tan_dec_del (convert_hull W (fst x), snd x) (conj E2 Dx) (Est 0 0) y _ (Y1 (Est 0 0))). }
assert (C : exists c, convert_hull_dec T y = ret c /\ (def <= snd c)%N).
{ unfold convert_hull_dec. rewrite is_nai_wf by easy. destruct (deq_spec (snd y) ill) as [E|_].
  - rewrite E in Y2. now apply N.leb_le in Y2.
  - mreds. cbv zeta. destruct (_ && _)%bool; eexists; (split; [reflexivity|easy]). }
destruct C as (c & C1 & C2). exists c, r. split; [|easy].
apply returns_eq in Y1. apply returns_eq. unfold tan_dec_mixed, mixed_dec1. cbv zeta. fold W. rewrite is_valid_dec_wf, is_nai_wf by easy. mreds.
destruct (deq_spec (snd x) ill) as [E|_]; [easy|]. mreds. rewrite E1. mreds. rewrite Y1. mreds. exact C1.
Qed.

(** Formats and widths for which nothing is hidden. *)
Lemma no_hidden (T F : fmt) (x : itv F) : comparable T F -> wf x ->
  pmax T F = binary32 \/ pmax T F = binary80 \/ (pmax T F = binary64 /\ width_not_pi64 x) \/
  ((prec (pmax T F) + 3 <= emax (pmax T F))%Z /\ off_pi (pmax T F) x) \/ (forall r, mem r x -> cos r <> 0) -> ~ pole_hidden (pmax T F) x.
Proof.
intros HC W H. destruct (within_pmax T F HC) as [_ B].
assert (K : pole_seen (convert_hull (pmax T F) x)).
{ destruct H as [E|[E|[[E H]|[[H1 H2]|H]]]].
  - apply far_pole_seen; [rewrite E; exact far32|now apply wf_convert_hull].
  - apply far_pole_seen; [rewrite E; exact far80|now apply wf_convert_hull].
  - now apply hull_seen64.
  - now apply off_hull_seen.
  - apply free_pole_seen. intros r Hr. apply H. now apply (convert_hull_exact _ x B W). }
apply hidden_iff in K. intros N. apply K. now apply hidden_widen.
Qed.
Lemma no_hidden_self (F : fmt) (x : itv F) : wf x ->
  F = binary32 \/ F = binary80 \/ (F = binary64 /\ width_not_pi64 x) \/
  ((prec F + 3 <= emax F)%Z /\ off_pi F x) \/ (forall r, mem r x -> cos r <> 0) -> ~ pole_hidden F x.
Proof.
assert (E : pmax F F = F) by (destruct (pmax_cases F F); easy).
intros W H. pose proof (no_hidden F F x (comparable_refl F) W) as K. rewrite E in K. exact (K H).
Qed.
Lemma hidden_ex : exists x : itv binary64, wf x /\ pole_hidden binary64 x.
Proof.
destruct tan64_refuted as (x & z & r & H1 & H2 & H3 & H4 & H5). exists x. split; [easy|]. apply NNPP. intros N.
apply (tan_iff x H1) in N. destruct N as (y & Y1 & Y2 & Y3). rewrite (returns_same _ _ _ H2 Y1) in H5. apply H5, Y3. exists r. easy.
Qed.
Lemma tan_iso_unhidden {F} (x x' : itv F) : wf x -> wf x' -> ~ pole_hidden F x' -> included x x' ->
  exists z z', returns (tan_itv x) z /\ returns (tan_itv x') z' /\ included z z'.
Proof. intros W W' H. apply tan_seen_iso; try easy. now apply hidden_iff. Qed.
Lemma tan_dec_iso_unhidden {F} (x x' : ditv F) : proper x -> proper x' -> ~ pole_hidden F (fst x') -> included (fst x) (fst x') ->
  exists z z', returns (tan_dec x) z /\ returns (tan_dec x') z' /\ included (fst z) (fst z').
Proof. intros W W' H. apply tan_dec_seen_iso; try easy. now apply hidden_iff. Qed.
Lemma unhidden_widen (T F : fmt) (x : itv F) : comparable T F -> wf x -> ~ pole_hidden (pmax T F) x -> pole_seen (convert_hull (pmax T F) x).
Proof. intros HC W H. apply hidden_iff. intros K. apply H. revert K. apply hidden_widen; [|easy]. now apply within_pmax. Qed.
Lemma tan_mixed_iso_unhidden (T F : fmt) (x x' : itv F) : comparable T F -> wf x -> wf x' -> ~ pole_hidden (pmax T F) x' -> included x x' ->
  exists z z', returns (tan_mixed T x) z /\ returns (tan_mixed T x') z' /\ included z z'.
Proof. intros HC W W' H. apply tan_mixed_seen_iso; try easy. now apply unhidden_widen. Qed.
Lemma tan_dec_mixed_iso_unhidden (T F : fmt) (x x' : ditv F) : comparable T F -> proper x -> proper x' ->
  ~ pole_hidden (pmax T F) (fst x') -> included (fst x) (fst x') ->
  exists z z', returns (tan_dec_mixed T x) z /\ returns (tan_dec_mixed T x') z' /\ included (fst z) (fst z').
Proof. intros HC W W' H. apply tan_dec_mixed_seen_iso; try easy. apply unhidden_widen; try easy. apply wf_dec_wf, W'. Qed.
