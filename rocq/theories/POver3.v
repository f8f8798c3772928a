(** * Proofs: numeric and reverse functions depend on the sets, not on the overload *)
From Coq Require Import ZArith NArith Reals Bool Lra Lia List Setoid.
From Flocq Require Import Core.Core IEEE754.BinarySingleNaN.
From Verif Require Import Fmt Spec FloatFacts Exc Deco SpecApi SpecMixed SpecAlg SpecNum SpecRev SpecMulRev SpecOver MBase PBase PConv MArith MMixed MNum PNumF MRev SpecElem SpecPownRev PIso PPownRev Ex POver.
From Verif Require C21 C24 C25 C28.
Local Open Scope R_scope.

Section One.
Context {F : fmt}.
Lemma same_ub (v w : float F) z : isnan v = false -> isnan w = false -> (forall t, ub v t <-> ub w t) -> zero_is z v -> zero_is z w -> v = w.
Proof.
intros Nv Nw E Zv Zw.
assert (K : forall a : float F, is_finite a = true -> ub a (B2R a) /\ ~ ub a (B2R a + 1)).
{ intros a Ha. destruct a as [s|s| |s m e p]; try discriminate Ha; unfold ub; lra. }
assert (B : forall a b : float F, is_finite a = true -> is_finite b = true -> (forall t, ub a t -> ub b t) -> B2R a <= B2R b).
{ intros a b Ha Hb S. destruct (K a Ha) as [K1 _]. apply S in K1. destruct b as [s|s| |s m e p]; try discriminate Hb; exact K1. }
destruct (is_finite v) eqn:Fv, (is_finite w) eqn:Fw.
- assert (Q : B2R v = B2R w) by (apply Rle_antisym; apply B; try easy; intros t; apply E).
  destruct (Req_dec (B2R v) 0) as [Z|Z]; [rewrite (Zv Fv Z); symmetry; apply (Zw Fw); lra|].
  apply (B2R_inj (prec F) (emax F)); try easy.
  + destruct v; try easy; now destruct Z.
  + destruct w; try easy; destruct Z; now rewrite Q.
- exfalso. destruct (K v Fv) as [K1 K2]. destruct w as [s|s| |s m e p]; try easy. apply K2. apply E. apply E in K1. exact K1.
- exfalso. destruct (K w Fw) as [K1 K2]. destruct v as [s|s| |s m e p]; try easy. apply K2. apply E. apply E in K1. exact K1.
- destruct v as [s|s| |s m e p]; try easy; destruct w as [s'|s'| |s' m' e' p']; try easy. specialize (E 0). cbn in E. destruct E as [E1 E2]. destruct s, s'; try reflexivity; exfalso; first [discriminate (E1 eq_refl)|discriminate (E2 eq_refl)].
Qed.
Lemma same_lb (v w : float F) z : isnan v = false -> isnan w = false -> (forall t, lb v t <-> lb w t) -> zero_is z v -> zero_is z w -> v = w.
Proof.
intros Nv Nw E Zv Zw.
assert (K : forall a : float F, is_finite a = true -> lb a (B2R a) /\ ~ lb a (B2R a - 1)).
{ intros a Ha. destruct a as [s|s| |s m e p]; try discriminate Ha; unfold lb; lra. }
assert (B : forall a b : float F, is_finite a = true -> is_finite b = true -> (forall t, lb a t -> lb b t) -> B2R b <= B2R a).
{ intros a b Ha Hb S. destruct (K a Ha) as [K1 _]. apply S in K1. destruct b as [s|s| |s m e p]; try discriminate Hb; exact K1. }
destruct (is_finite v) eqn:Fv, (is_finite w) eqn:Fw.
- assert (Q : B2R v = B2R w) by (apply Rle_antisym; apply B; try easy; intros t; apply E).
  destruct (Req_dec (B2R v) 0) as [Z|Z]; [rewrite (Zv Fv Z); symmetry; apply (Zw Fw); lra|].
  apply (B2R_inj (prec F) (emax F)); try easy.
  + destruct v; try easy; now destruct Z.
  + destruct w; try easy; destruct Z; now rewrite Q.
- exfalso. destruct (K v Fv) as [K1 K2]. destruct w as [s|s| |s m e p]; try easy. apply K2. apply E. apply E in K1. exact K1.
- exfalso. destruct (K w Fw) as [K1 K2]. destruct v as [s|s| |s m e p]; try easy. apply K2. apply E. apply E in K1. exact K1.
- destruct v as [s|s| |s m e p]; try easy; destruct w as [s'|s'| |s' m' e' p']; try easy. specialize (E 0). cbn in E. destruct E as [E1 E2]. destruct s, s'; try reflexivity; exfalso; first [discriminate (E1 eq_refl)|discriminate (E2 eq_refl)].
Qed.
Lemma above_same S S' (v w z : float F) : (forall r, S r <-> S' r) -> least_above S v -> least_above S' w -> zero_is z v -> zero_is z w -> v = w.
Proof.
intros E (V1 & V2 & V3) (W1 & W2 & W3). apply same_ub; try easy. intros t. split.
- apply V3. intros r Hr. apply W2. now apply E.
- apply W3. intros r Hr. apply V2. now apply E.
Qed.
Lemma below_same S S' (v w z : float F) : (forall r, S r <-> S' r) -> greatest_below S v -> greatest_below S' w -> zero_is z v -> zero_is z w -> v = w.
Proof.
intros E (V1 & V2 & V3) (W1 & W2 & W3). apply same_lb; try easy. intros t. split.
- apply V3. intros r Hr. apply W2. now apply E.
- apply W3. intros r Hr. apply V2. now apply E.
Qed.
Lemma num_above m n S S' (z : float F) : (forall r, S r <-> S' r) -> gives m (fun v => least_above S v /\ zero_is z v) ->
  gives n (fun v => least_above S' v /\ zero_is z v) -> same_float m n.
Proof. intros E (v & V & V1 & V2) (w & W & W1 & W2). exists v. split; [easy|]. now rewrite (above_same _ _ _ _ _ E V1 W1 V2 W2). Qed.
Lemma num_below m n S S' (z : float F) : (forall r, S r <-> S' r) -> gives m (fun v => greatest_below S v /\ zero_is z v) ->
  gives n (fun v => greatest_below S' v /\ zero_is z v) -> same_float m n.
Proof. intros E (v & V & V1 & V2) (w & W & W1 & W2). exists v. split; [easy|]. now rewrite (below_same _ _ _ _ _ E V1 W1 V2 W2). Qed.
End One.
Lemma set_points {F G} (x : itv F) (y : itv G) : same_numbers x y -> forall r, points x r <-> points y r.
Proof. intros E. exact E. Qed.
Lemma set_differences {F G} (x : itv F) (y : itv G) : same_numbers x y -> forall r, differences x r <-> differences y r.
Proof. intros E r. split; intros (a & b & A & B & ->); exists a, b; (split; [now apply E|]); (split; [now apply E|easy]). Qed.
Lemma set_magnitudes {F G} (x : itv F) (y : itv G) : same_numbers x y -> forall r, magnitudes x r <-> magnitudes y r.
Proof. intros E r. split; intros (a & A & ->); exists a; (split; [now apply E|easy]). Qed.
Lemma set_distances m {F G} (x : itv F) (y : itv G) : same_numbers x y -> forall r, distances m x r <-> distances m y r.
Proof. intros E r. split; intros (a & A & ->); exists a; (split; [now apply E|easy]). Qed.
Lemma both_cases {F G} (x : itv F) (y : itv G) : wf x -> wf y -> same_numbers x y ->
  (x = empty_rep /\ y = empty_rep) \/ ((exists r, mem r x) /\ (exists r, mem r y)).
Proof.
intros [->|[r Hr]] [->|[s Hs]] E; [now left| | |right; split; [now exists r|now exists s]].
- apply E in Hs. now destruct Hs.
- apply E in Hr. now destruct Hr.
Qed.

(** ** Numbers *)
Section Num.
Context {F G : fmt} (x : itv F) (y : itv G) (C : comparable G F) (Wx : wf x) (Wy : wf y) (E : same_numbers x y).
Ltac cases := destruct (both_cases x y Wx Wy E) as [[-> ->]|[Hx Hy]].
Lemma inf_over : same_float (n_inf x) (n_inf_mixed F y).
Proof. exact (num_below _ _ _ _ _ (set_points x y E) (C21.C21_inf F x Wx) (C21.C21_inf_mixed G F C y Wy)). Qed.
Lemma sup_over : same_float (n_sup x) (n_sup_mixed F y).
Proof. exact (num_above _ _ _ _ _ (set_points x y E) (C21.C21_sup F x Wx) (C21.C21_sup_mixed G F C y Wy)). Qed.
Lemma wid_over : same_float (n_wid x) (n_wid_mixed F y).
Proof.
cases; [|exact (num_above _ _ _ _ _ (set_differences x y E) (C21.C21_wid F x Hx) (C21.C21_wid_mixed G F C y Hy))].
exists fnan. destruct (C21.C21_empty F) as (_ & A & _). destruct (C21.C21_empty_mixed G F) as (_ & B & _). rewrite A, B. now split.
Qed.
Lemma mag_over : same_float (n_mag x) (n_mag_mixed F y).
Proof.
cases; [|exact (num_above _ _ _ _ _ (set_magnitudes x y E) (C21.C21_mag F x Hx) (C21.C21_mag_mixed G F C y Hy))].
exists fnan. destruct (C21.C21_empty F) as (_ & _ & A & _). destruct (C21.C21_empty_mixed G F) as (_ & _ & B & _). rewrite A, B. now split.
Qed.
Lemma mig_over : same_float (n_mig x) (n_mig_mixed F y).
Proof.
cases; [|exact (num_below _ _ _ _ _ (set_magnitudes x y E) (C21.C21_mig F x Hx) (C21.C21_mig_mixed G F C y Hy))].
exists fnan. destruct (C21.C21_empty F) as (_ & _ & _ & A & _). destruct (C21.C21_empty_mixed G F) as (_ & _ & _ & B & _). rewrite A, B. now split.
Qed.
End Num.
Section Num2.
Context (T : fmt) {F G : fmt} (x : itv F) (y : itv G) (C : comparable F T) (D : comparable G T) (Wx : wf x) (Wy : wf y) (E : same_numbers x y).
Ltac cases := destruct (both_cases x y Wx Wy E) as [[-> ->]|[Hx Hy]].
Lemma inf_mix : same_float (n_inf_mixed T x) (n_inf_mixed T y).
Proof. exact (num_below _ _ _ _ _ (set_points x y E) (C21.C21_inf_mixed F T C x Wx) (C21.C21_inf_mixed G T D y Wy)). Qed.
Lemma sup_mix : same_float (n_sup_mixed T x) (n_sup_mixed T y).
Proof. exact (num_above _ _ _ _ _ (set_points x y E) (C21.C21_sup_mixed F T C x Wx) (C21.C21_sup_mixed G T D y Wy)). Qed.
Lemma wid_mix : same_float (n_wid_mixed T x) (n_wid_mixed T y).
Proof.
cases; [|exact (num_above _ _ _ _ _ (set_differences x y E) (C21.C21_wid_mixed F T C x Hx) (C21.C21_wid_mixed G T D y Hy))].
exists fnan. destruct (C21.C21_empty_mixed F T) as (_ & A & _). destruct (C21.C21_empty_mixed G T) as (_ & B & _). rewrite A, B. now split.
Qed.
Lemma mag_mix : same_float (n_mag_mixed T x) (n_mag_mixed T y).
Proof.
cases; [|exact (num_above _ _ _ _ _ (set_magnitudes x y E) (C21.C21_mag_mixed F T C x Hx) (C21.C21_mag_mixed G T D y Hy))].
exists fnan. destruct (C21.C21_empty_mixed F T) as (_ & _ & A & _). destruct (C21.C21_empty_mixed G T) as (_ & _ & B & _). rewrite A, B. now split.
Qed.
Lemma mig_mix : same_float (n_mig_mixed T x) (n_mig_mixed T y).
Proof.
cases; [|exact (num_below _ _ _ _ _ (set_magnitudes x y E) (C21.C21_mig_mixed F T C x Hx) (C21.C21_mig_mixed G T D y Hy))].
exists fnan. destruct (C21.C21_empty_mixed F T) as (_ & _ & _ & A & _). destruct (C21.C21_empty_mixed G T) as (_ & _ & _ & B & _). rewrite A, B. now split.
Qed.
End Num2.

(** ** Midpoint *)
Lemma nearest_same {F : fmt} r (m n : float F) : nearest_or_inf r m -> nearest_or_inf r n -> zero_is f0 m -> zero_is f0 n -> m = n.
Proof.
intros A B Zm Zn.
assert (K : forall a : float F, is_finite a = true -> Rabs (B2R a) < bpow radix2 (emax F)).
{ intros a _. apply (abs_B2R_lt_emax (prec F) (emax F)). }
assert (X : forall a b : float F, nearest r a -> bpow radix2 (emax F) <= Rabs (round radix2 (fexp F) ZnearestE r) -> False).
{ intros a b [H1 H2] H. pose proof (K a H1). rewrite H2 in *. lra. }
destruct A as [A|(A1 & A2 & A3)], B as [B|(B1 & B2 & B3)].
- destruct A as [Fm Am], B as [Fn Bn]. destruct (Req_dec (B2R m) 0) as [Z|Z]; [rewrite (Zm Fm Z); symmetry; apply (Zn Fn); congruence|].
  apply (B2R_inj (prec F) (emax F)); [| |congruence].
  + destruct m; try easy; now destruct Z.
  + destruct n; try easy. destruct Z. rewrite Am, <- Bn. reflexivity.
- now destruct (X m n A B1).
- now destruct (X n m B A1).
- destruct (Rtotal_order 0 r) as [H|[H|H]]; [now rewrite A2, B2| |now rewrite A3, B3].
  subst r. exfalso. rewrite round_0 in A1 by apply valid_rnd_N. rewrite Rabs_R0 in A1. pose proof (bpow_gt_0 radix2 (emax F)). lra.
Qed.
Lemma bounds_same {F G} (x : itv F) (y : itv G) : same_numbers x y -> (exists r, mem r x) -> bounded_rep x -> bounded_rep y ->
  B2R (fst x) = B2R (fst y) /\ B2R (snd x) = B2R (snd y).
Proof.
intros E [r Hr] [B1 B2] [D1 D2]. destruct x as [a b], y as [l u]. cbn [fst snd] in *.
assert (K : forall t, B2R a <= t <= B2R b <-> B2R l <= t <= B2R u).
{ intros t. specialize (E t). unfold mem, lb, ub in E. cbn [fst snd] in E. destruct a, b, l, u; try easy; exact E. }
assert (L : B2R a <= r <= B2R b) by (unfold mem, lb, ub in Hr; cbn [fst snd] in Hr; destruct a, b; try easy; exact Hr).
pose proof (proj1 (K r) L). pose proof (proj1 (K (B2R a))). pose proof (proj1 (K (B2R b))). pose proof (proj2 (K (B2R l))). pose proof (proj2 (K (B2R u))).
split; apply Rle_antisym; lra.
Qed.
Lemma lo_inf {F} (x : itv F) : (exists r, mem r x) -> (fst x = fminf <-> forall B, exists t, mem t x /\ t < B).
Proof.
intros [r Hr]. destruct x as [a b]. cbn [fst]. split.
- intros -> B. exists (Rmin r (B - 1)). pose proof (Rmin_l r (B - 1)). pose proof (Rmin_r r (B - 1)). split; [|lra].
  destruct Hr as [_ U]. split; [reflexivity|]. exact (ub_mono _ _ _ U H).
- intros H. destruct Hr as [L _]. cbn [fst] in L. destruct a as [s|[|]| |s m e Ha]; try easy.
  + destruct (H 0) as (t & [K _] & Q). cbn in K. lra.
  + destruct (H (B2R (B754_finite s m e Ha : float F))) as (t & [K _] & Q). cbn [fst lb] in K. lra.
Qed.
Lemma hi_inf {F} (x : itv F) : (exists r, mem r x) -> (snd x = finf <-> forall B, exists t, mem t x /\ B < t).
Proof.
intros [r Hr]. destruct x as [a b]. cbn [snd]. split.
- intros -> B. exists (Rmax r (B + 1)). pose proof (Rmax_l r (B + 1)). pose proof (Rmax_r r (B + 1)). split; [|lra].
  destruct Hr as [L _]. split; [|reflexivity]. exact (lb_mono _ _ _ L H).
- intros H. destruct Hr as [_ L]. cbn [snd] in L. destruct b as [s|[|]| |s m e Ha]; try easy.
  + destruct (H 0) as (t & [_ K] & Q). cbn in K. lra.
  + destruct (H (B2R (B754_finite s m e Ha : float F))) as (t & [_ K] & Q). cbn [snd ub] in K. lra.
Qed.
Lemma same_lo {F G} (x : itv F) (y : itv G) : same_numbers x y -> (exists r, mem r x) -> (exists r, mem r y) ->
  (fst x = fminf <-> fst y = fminf).
Proof. intros E Hx Hy. rewrite (lo_inf x Hx), (lo_inf y Hy). split; intros H B; destruct (H B) as (t & K & L); exists t; split; auto; now apply E. Qed.
Lemma same_hi {F G} (x : itv F) (y : itv G) : same_numbers x y -> (exists r, mem r x) -> (exists r, mem r y) ->
  (snd x = finf <-> snd y = finf).
Proof. intros E Hx Hy. rewrite (hi_inf x Hx), (hi_inf y Hy). split; intros H B; destruct (H B) as (t & K & L); exists t; split; auto; now apply E. Qed.
Lemma finite_sides {F} (x : itv F) : (exists r, mem r x) -> fst x <> fminf -> snd x <> finf -> bounded_rep x.
Proof. intros [r [L U]] A B. destruct x as [a b]. cbn [fst snd] in *. split; cbn [fst snd]; [destruct a as [|[|]| |]|destruct b as [|[|]| |]]; easy. Qed.
Lemma returns_one {A} (m : M A) a b : returns m a -> returns m b -> a = b.
Proof. intros H K. specialize (H (Est 0 0)). specialize (K (Est 0 0)). rewrite H in K. now injection K. Qed.
Lemma fminf_dec {F} (a : float F) : a = fminf \/ a <> fminf.
Proof. destruct a as [|[|]| |]; try (now left); right; discriminate. Qed.
Lemma finf_dec {F} (a : float F) : a = finf \/ a <> finf.
Proof. destruct a as [|[|]| |]; try (now left); right; discriminate. Qed.
Lemma mid_mix T {F G} (x : itv F) (y : itv G) : wf x -> wf y -> same_numbers x y -> same_float (n_mid_mixed T x) (n_mid_mixed T y).
Proof.
intros Wx Wy E. destruct (both_cases x y Wx Wy E) as [[-> ->]|[Hx Hy]].
{ exists fnan. destruct (C21.C21_empty_mixed F T) as (A & _). destruct (C21.C21_empty_mixed G T) as (B & _). rewrite A, B. now split. }
destruct (C21.C21_mid_mixed F T x Hx) as (m & Em & Zm & _ & _ & Nm). destruct (C21.C21_mid_mixed G T y Hy) as (n & En & Zn & _ & _ & Nn).
destruct (C21.C21_mid_unbounded F T x Hx) as (m' & Em' & M1 & M2 & M3). destruct (C21.C21_mid_unbounded G T y Hy) as (n' & En' & N1 & N2 & N3).
rewrite (returns_one _ _ _ Em' Em) in *. rewrite (returns_one _ _ _ En' En) in *. clear m' n' Em' En'.
enough (m = n) by (subst n; exists m; now split).
pose proof (same_lo x y E Hx Hy) as L. pose proof (same_hi x y E Hx Hy) as U.
destruct (fminf_dec (fst x)) as [A|A], (finf_dec (snd x)) as [B|B].
- now rewrite (M1 A B), (N1 (proj1 L A) (proj1 U B)).
- rewrite (M2 A B). symmetry. apply N2; tauto.
- rewrite (M3 A B). symmetry. apply N3; tauto.
- assert (Bx := finite_sides x Hx A B). assert (By : bounded_rep y) by (apply (finite_sides y Hy); tauto).
  specialize (Nm Bx). specialize (Nn By). destruct (bounds_same x y E Hx Bx By) as [P Q]. rewrite P, Q in Nm. exact (nearest_same _ m n Nm Nn Zm Zn).
Qed.
Lemma mid_over {F G} (x : itv F) (y : itv G) : wf x -> wf y -> same_numbers x y -> same_float (n_mid x) (n_mid_mixed F y).
Proof. rewrite n_mid_same. apply mid_mix. Qed.
Lemma rad_mix T {F G} (x : itv F) (y : itv G) : comparable F T -> comparable G T -> within F T -> wf x -> wf y -> same_numbers x y ->
  same_float (n_rad_mixed T x) (n_rad_mixed T y).
Proof.
intros C D W Wx Wy E. destruct (both_cases x y Wx Wy E) as [[-> ->]|[Hx Hy]].
{ exists fnan. destruct (C21.C21_empty_mixed F T) as (_ & _ & _ & _ & A & _). destruct (C21.C21_empty_mixed G T) as (_ & _ & _ & _ & B & _). rewrite A, B. now split. }
destruct (mid_mix T x y Wx Wy E) as (m & Em & En).
destruct (C21.C21_mid_mixed F T x Hx) as (m' & Em' & _ & Fm & _). rewrite (returns_one _ _ _ Em' Em) in *. destruct (Fm W) as [Fin _].
destruct (C21.C21_rad_mixed F T x C Hx) as (m1 & r1 & _ & E1 & R1 & L1 & Z1). destruct (C21.C21_rad_mixed G T y D Hy) as (m2 & r2 & _ & E2 & R2 & L2 & Z2).
rewrite (returns_one _ _ _ E1 Em) in *. rewrite (returns_one _ _ _ E2 En) in *.
refine (num_above _ _ _ _ f0 (set_distances (B2R m) x y E) _ _); [exists r1|exists r2]; (split; [assumption|split; [auto|assumption]]).
Qed.
Lemma rad_over {F G} (x : itv F) (y : itv G) : comparable G F -> wf x -> wf y -> same_numbers x y -> same_float (n_rad x) (n_rad_mixed F y).
Proof.
intros D Wx Wy E. destruct (both_cases x y Wx Wy E) as [[-> ->]|[Hx Hy]].
{ exists fnan. destruct (C21.C21_empty F) as (_ & _ & _ & _ & A & _). destruct (C21.C21_empty_mixed G F) as (_ & _ & _ & _ & B & _). rewrite A, B. now split. }
destruct (mid_over x y Wx Wy E) as (m & Em & En).
destruct (C21.C21_rad F x Hx) as (m1 & r1 & _ & E1 & R1 & Fin & _ & L1 & Z1). destruct (C21.C21_rad_mixed G F y D Hy) as (m2 & r2 & _ & E2 & R2 & L2 & Z2).
rewrite (returns_one _ _ _ E1 Em) in *. rewrite (returns_one _ _ _ E2 En) in *.
refine (num_above _ _ _ _ f0 (set_distances (B2R m) x y E) _ _); [exists r1|exists r2]; (split; [assumption|split; [auto|assumption]]).
Qed.

(** ** Reverse functions *)
Lemma pre_same D f {F G F' G'} (c : itv F) (x : itv G) (c' : itv F') (x' : itv G') : same_numbers c c' -> same_numbers x x' ->
  forall t, preimage D f c x t <-> preimage D f c' x' t.
Proof. intros E K t. unfold preimage. unfold same_numbers in E, K. rewrite K, E. tauto. Qed.
Lemma rev_same {F G F' G'} (b : itv F) (c : itv G) (b' : itv F') (c' : itv G') : same_numbers b b' -> same_numbers c c' ->
  forall t, rev_mul b c t <-> rev_mul b' c' t.
Proof. intros E K t. unfold rev_mul. split; intros H; decompose record H; repeat (eexists; try split); try (apply E); try (apply K); eauto. Qed.
Lemma unlimited_same {F F'} (b : itv F) (b' : itv F') : same_numbers b b' -> (unlimited b <-> unlimited b').
Proof. intros E. split; intros H B; destruct (H B) as (s & K & L); exists s; split; auto; now apply E. Qed.
Lemma lim_same {F G F' G'} (b : itv F) (c : itv G) (b' : itv F') (c' : itv G') : same_numbers b b' -> same_numbers c c' ->
  forall t, rev_mul_lim b c t <-> rev_mul_lim b' c' t.
Proof.
intros E K t. unfold rev_mul_lim. rewrite (rev_same b c b' c' E K t), (unlimited_same b b' E).
assert (Q : (exists r, mem r c) <-> (exists r, mem r c')) by (split; intros [r H]; exists r; now apply K). rewrite Q. tauto.
Qed.
Lemma two_same {F G F' G'} (b : itv F) (c : itv G) (b' : itv F') (c' : itv G') : same_numbers b b' -> same_numbers c c' ->
  two_branches b c -> two_branches b' c'.
Proof.
intros E K (A & B & C & D). split; [|split; [|split]].
- destruct A as (s & H & L). exists s. split; auto. now apply E.
- destruct B as (s & H & L). exists s. split; auto. now apply E.
- destruct C as (s & H). exists s. now apply K.
- intros H. apply D. now apply K.
Qed.
Lemma same_num_sym {F G} (x : itv F) (y : itv G) : same_numbers x y -> same_numbers y x.
Proof. intros E r. symmetry. apply E. Qed.
Lemma tight_num {T} (z w : itv T) S S' : tightest S z -> tightest S' w -> (forall r, S r <-> S' r) -> same_numbers z w.
Proof.
intros A B E. assert (P : computes_tightest (ret z) S) by (exists z; split; [intros s; reflexivity|exact A]).
assert (Q : computes_tightest (ret w) S') by (exists w; split; [intros s; reflexivity|exact B]).
destruct (agree_tight _ _ _ _ P Q E) as (z' & w' & H1 & H2 & H3).
assert (H4 : returns (ret z) z) by (intros s; reflexivity). assert (H5 : returns (ret w) w) by (intros s; reflexivity).
now rewrite (returns_one _ _ _ H4 H1), (returns_one _ _ _ H5 H2).
Qed.
Lemma branches_same {T F G F' G'} (b : itv F) (c : itv G) (b' : itv F') (c' : itv G') (m n : M (itv T * itv T)) :
  same_numbers b b' -> same_numbers c c' ->
  gives m (fun z => both_branches b c (fst z) (snd z)) -> gives n (fun z => both_branches b' c' (fst z) (snd z)) -> agree_pair m n.
Proof.
intros E K ((z1 & z2) & Ez & _ & _ & Y & N) ((w1 & w2) & Ew & _ & _ & Y' & N'). cbn [fst snd] in *.
exists (z1, z2), (w1, w2). split; [exact Ez|]. split; [exact Ew|]. cbn [fst snd]. pose proof (rev_same b c b' c' E K) as R.
destruct (Classical_Prop.classic (two_branches b c)) as [B|B].
- destruct (Y B) as (_ & _ & T1 & T2). destruct (Y' (two_same _ _ _ _ E K B)) as (_ & _ & T3 & T4).
  split; [apply (tight_num _ _ _ _ T1 T3)|apply (tight_num _ _ _ _ T2 T4)]; intros r; now rewrite R.
- destruct (N B) as [T1 ->]. assert (B' : ~ two_branches b' c') by (intros B'; apply B; exact (two_same _ _ _ _ (same_num_sym _ _ E) (same_num_sym _ _ K) B')).
  destruct (N' B') as [T3 ->]. split; [exact (tight_num _ _ _ _ T1 T3 R)|intros r; reflexivity].
Qed.

Section Rev.
Context {F G H : fmt} (c x : itv F) (c' : itv G) (x' : itv H) (C1 : comparable F G) (C2 : comparable F H) (C3 : comparable G H)
  (W1 : wf c) (W2 : wf x) (W3 : wf c') (W4 : wf x') (E : same_numbers c c') (K : same_numbers x x').
Lemma sqr_rev_over : agree (sqr_rev c x) (sqr_rev_mixed F c' x').
Proof. exact (agree_tight _ _ _ _ (C25.C25_sqr_rev F c x W1 W2) (C25.C25_sqr_rev_mixed G H F c' x' C1 C2 C3 W3 W4) (pre_same _ _ _ _ _ _ E K)). Qed.
Lemma abs_rev_over : agree (abs_rev c x) (abs_rev_mixed F c' x').
Proof. exact (agree_tight _ _ _ _ (C25.C25_abs_rev F c x W1 W2) (C25.C25_abs_rev_mixed G H F c' x' C1 C2 C3 W3 W4) (pre_same _ _ _ _ _ _ E K)). Qed.
Lemma cosh_rev_over : agree (cosh_rev c x) (cosh_rev_mixed F c' x').
Proof. exact (agree_tight _ _ _ _ (C25.C25_cosh_rev F c x W1 W2) (C25.C25_cosh_rev_mixed G H F c' x' C1 C2 C3 W3 W4) (pre_same _ _ _ _ _ _ E K)). Qed.
Lemma pair_over : agree_pair (mul_rev_to_pair c x) (mul_rev_to_pair_mixed F c' x').
Proof. exact (branches_same _ _ _ _ _ _ E K (C24.C24_mul_rev_to_pair F c x W1 W2) (C24.C24_mul_rev_to_pair_mixed G H F c' x' C1 C2 C3 W3 W4)). Qed.
Lemma mul_rev_over {I : fmt} (t : itv F) (t' : itv I) : comparable F I -> comparable G I -> comparable H I -> wf t -> wf t' -> same_numbers t t' ->
  agree (mul_rev c x t) (mul_rev_mixed F c' x' t').
Proof.
intros D1 D2 D3 V V' L.
refine (agree_tight _ _ _ _ (C24.C24_mul_rev_exact F c x t W1 W2 V) (C24.C24_mul_rev_mixed_exact G H I F c' x' t' C1 C2 C3 D1 D2 D3 W3 W4 V') _).
intros r. rewrite (lim_same c x c' x' E K r). unfold same_numbers in L. rewrite L. tauto.
Qed.
End Rev.
Section Rev2.
Context (T : fmt) {F G F' G' : fmt} (c : itv F) (x : itv G) (c' : itv F') (x' : itv G')
  (C1 : comparable T F) (C2 : comparable T G) (C3 : comparable F G) (D1 : comparable T F') (D2 : comparable T G') (D3 : comparable F' G')
  (W1 : wf c) (W2 : wf x) (W3 : wf c') (W4 : wf x') (E : same_numbers c c') (K : same_numbers x x').
Lemma sqr_rev_mix : agree (sqr_rev_mixed T c x) (sqr_rev_mixed T c' x').
Proof. exact (agree_tight _ _ _ _ (C25.C25_sqr_rev_mixed F G T c x C1 C2 C3 W1 W2) (C25.C25_sqr_rev_mixed F' G' T c' x' D1 D2 D3 W3 W4) (pre_same _ _ _ _ _ _ E K)). Qed.
Lemma abs_rev_mix : agree (abs_rev_mixed T c x) (abs_rev_mixed T c' x').
Proof. exact (agree_tight _ _ _ _ (C25.C25_abs_rev_mixed F G T c x C1 C2 C3 W1 W2) (C25.C25_abs_rev_mixed F' G' T c' x' D1 D2 D3 W3 W4) (pre_same _ _ _ _ _ _ E K)). Qed.
Lemma cosh_rev_mix : agree (cosh_rev_mixed T c x) (cosh_rev_mixed T c' x').
Proof. exact (agree_tight _ _ _ _ (C25.C25_cosh_rev_mixed F G T c x C1 C2 C3 W1 W2) (C25.C25_cosh_rev_mixed F' G' T c' x' D1 D2 D3 W3 W4) (pre_same _ _ _ _ _ _ E K)). Qed.
Lemma pair_mix : agree_pair (mul_rev_to_pair_mixed T c x) (mul_rev_to_pair_mixed T c' x').
Proof. exact (branches_same _ _ _ _ _ _ E K (C24.C24_mul_rev_to_pair_mixed F G T c x C1 C2 C3 W1 W2) (C24.C24_mul_rev_to_pair_mixed F' G' T c' x' D1 D2 D3 W3 W4)). Qed.
Lemma mul_rev_mix {I I' : fmt} (t : itv I) (t' : itv I') : comparable T I -> comparable F I -> comparable G I ->
  comparable T I' -> comparable F' I' -> comparable G' I' -> wf t -> wf t' -> same_numbers t t' ->
  agree (mul_rev_mixed T c x t) (mul_rev_mixed T c' x' t').
Proof.
intros A1 A2 A3 B1 B2 B3 V V' L.
refine (agree_tight _ _ _ _ (C24.C24_mul_rev_mixed_exact F G I T c x t C1 C2 C3 A1 A2 A3 W1 W2 V) (C24.C24_mul_rev_mixed_exact F' G' I' T c' x' t' D1 D2 D3 B1 B2 B3 W3 W4 V') _).
intros r. rewrite (lim_same c x c' x' E K r). unfold same_numbers in L. rewrite L. tauto.
Qed.
End Rev2.

(** ** The reverse power: the work type shows *)
Lemma pown_rev_differs : exists (c x z w : itv binary64) (x' : itv binary80), wf c /\ wf x /\ wf x' /\ same_numbers x x' /\
  (exists k, forall fuel, (k <= fuel)%nat -> returns (pown_rev fuel c x 2) z) /\
  (exists k, forall fuel, (k <= fuel)%nat -> returns (pown_rev_mixed binary64 fuel c x' 2) w) /\
  (exists t, mem t z) /\ w = empty_rep.
Proof.
set (u := fl binary64 6369051672525773 (-52)). set (u' := fl binary80 6369051672525773 (-52)).
set (c := (fl binary64 2 0, fl binary64 2 0)).
assert (Wc : wf c) by (unfold c; wf_tac). assert (Wx : wf (u, u)) by (unfold u; wf_tac). assert (Wx' : wf (u', u')) by (unfold u'; wf_tac).
assert (Fu : is_finite u = true) by (vm_compute; reflexivity). assert (Fu' : is_finite u' = true) by (vm_compute; reflexivity).
assert (Vu : B2R u = 6369051672525773 * / 4503599627370496) by (unfold u, B2R, F2R; vm_compute; lra).
assert (Vu' : B2R u' = 6369051672525773 * / 4503599627370496) by (unfold u', B2R, F2R; vm_compute; lra).
assert (V2 : B2R (fl binary64 2 0) = 2) by b2r.
assert (F2 : is_finite (fl binary64 2 0) = true) by (vm_compute; reflexivity).
assert (S2 : solves 2 c (R_sqrt.sqrt 2)).
{ split; [easy|]. unfold pownR. change (powerRZ (R_sqrt.sqrt 2) 2) with (R_sqrt.sqrt 2 ^ 2). rewrite pow2_sqrt by lra. apply mem_pt; [easy|easy|lra]. }
assert (Q2 : R_sqrt.sqrt 2 * R_sqrt.sqrt 2 = 2) by (apply sqrt_sqrt; lra). assert (Q0 : 0 <= R_sqrt.sqrt 2) by apply sqrt_pos.
assert (S : same_numbers (u, u) (u', u')).
{ intros r. unfold mem. cbn [fst snd]. rewrite !lb_fin, !ub_fin by easy. rewrite Vu, Vu'. tauto. }
destruct (C25.C25_pown_rev_pos_exact binary64 c (u, u) 2 Wc Wx ltac:(easy)) as (z & k & H1 & z1 & z2 & T1 & T2 & T3).
assert (C1 : comparable binary64 binary64) by (apply C28.C28_formats; simpl; auto). assert (C2 : comparable binary64 binary80) by (apply C28.C28_formats; simpl; auto).
destruct (C25.C25_pown_rev_mixed_pos_exact binary64 binary80 binary64 c (u', u') 2 C1 C2 C2 Wc Wx' ltac:(easy)) as (w & k' & H1' & y1 & y2 & U1 & U2 & U3).
assert (Sol : forall t, solves 2 c t -> t * t = 2).
{ intros t [_ [L' U']]. unfold c in L', U'. cbn [fst snd] in L', U'. rewrite lb_fin in L' by easy. rewrite ub_fin in U' by easy.
  unfold pownR in *. change (powerRZ t 2) with (t ^ 2) in *. rewrite V2 in *. lra. }
exists c, (u, u), z, w, (u', u'). split; [easy|]. split; [easy|]. split; [easy|]. split; [easy|]. split; [now exists k|]. split; [now exists k'|]. split.
- assert (Fp : is_finite (Bpred u) = true) by (vm_compute; reflexivity).
  assert (Vp : B2R (Bpred u) = 6369051672525772 * / 4503599627370496) by (unfold u, B2R, F2R; vm_compute; lra).
  exists (B2R u). destruct T3 as (_ & T3 & _). apply T3. split; [apply mem_pt; [easy|easy|lra]|]. right.
  destruct T2 as (_ & T2 & _). specialize (T2 (R_sqrt.sqrt 2) (conj Q0 S2)). destruct T2 as [L U]. split.
  + apply lb_mono with (R_sqrt.sqrt 2); [easy|]. apply Rnot_lt_le. intros K. nra.
  + destruct (fviewP (snd z2)) as [ | | |v Fv]; try easy. rewrite ub_fin in * by easy. apply Rnot_lt_le. intros K.
    destruct (Bpred_fin u Fu) as [(_ & _ & _ & _ & H)|[E _]]; [|now rewrite E in Fp].
    specialize (H v Fv K). nra.
- change (pmax (pmax binary64 binary64) binary80) with binary80 in *.
  set (v := fl binary80 1630477228166597887 (-60)).
  assert (Fv : is_finite v = true) by (vm_compute; reflexivity).
  assert (Vv : B2R v = 1630477228166597887 * / 1152921504606846976) by (unfold v, B2R, F2R; vm_compute; lra).
  assert (N : forall t, ~ (mem t (u', u') /\ (mem t y1 \/ mem t y2))).
  { intros t [[L U] M]. cbn [fst snd] in L, U. rewrite lb_fin in L by easy. rewrite ub_fin in U by easy.
    destruct M as [M|M].
    - destruct U1 as (_ & _ & U1). specialize (U1 (fminf, f0)). apply U1 in M; [|right; exists 0; split; [reflexivity|cbn; lra]|].
      + destruct M as [_ M]. cbn in M. rewrite Vu' in *. lra.
      + intros r [R1 _]. split; [reflexivity|]. cbn. lra.
    - destruct U2 as (_ & _ & U2). specialize (U2 (f0, v)). apply U2 in M.
      + destruct M as [_ M]. cbn [snd] in M. rewrite ub_fin in M by easy. rewrite Vu', Vv in *. lra.
      + right. exists 0. split; [cbn; lra|]. cbn [snd]. rewrite ub_fin by easy. rewrite Vv. lra.
      + intros r [R1 R2]. apply Sol in R2. split; [cbn; lra|]. cbn [snd]. rewrite ub_fin by easy. apply Rnot_lt_le. intros K. rewrite Vv in K. nra. }
  destruct U3 as (W & _ & U3). destruct W as [->|[t Ht]]; [easy|]. exfalso.
  specialize (U3 empty_rep (or_introl eq_refl)). assert (X : mem t (@empty_rep binary64)) by (apply U3; [intros r Hr; now destruct (N r)|easy]). now destruct X.
Qed.
