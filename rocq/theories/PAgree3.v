(** * Proofs: relations, arithmetic and numeric functions agree *)
From Coq Require Import ZArith NArith Reals Bool Lra Lia List Classical.
From Flocq Require Import Core.Core IEEE754.BinarySingleNaN.
From Verif Require Import Fmt Spec FloatFacts Exc Deco SpecApi SpecRel SpecNum MBase PBase MBool MNum MArith PArith PUnary PBool PSetop PConv PNumF PDec PMixed MMixed PAlg SpecAgree PAgree.
Local Open Scope R_scope.
Local Open Scope m_scope.

(** ** The order *)
Lemma num_le_fin {F G} (v : float F) (w : float G) : is_finite v = true -> is_finite w = true -> (num_le v w <-> B2R v <= B2R w).
Proof.
intros Fv Fw. unfold num_le. split.
- intros (_ & _ & H). specialize (H (B2R v)). rewrite !ub_fin in H by easy. lra.
- intros H. split; [now destruct v|]. split; [now destruct w|]. intros t. rewrite !ub_fin by easy. lra.
Qed.
Lemma num_le_lb {F G} (v : float F) (w : float G) : isnan v = false -> isnan w = false -> (num_le v w <-> forall t, lb w t -> lb v t).
Proof.
intros Nv Nw. destruct (fviewP v) as [ | | |v Fv]; [easy|..]; destruct (fviewP w) as [ | | |w Fw]; try easy.
- split; [intros (_ & _ & H) t A; discriminate (H 0 eq_refl)|]. intros H. discriminate (H 0 eq_refl).
- split; [intros (_ & _ & H); specialize (H (B2R w + 1) eq_refl); rewrite ub_fin in H by easy; lra|].
  intros H. specialize (H (B2R w)). rewrite lb_fin in H by easy. discriminate (H (Rle_refl _)).
- split; [intros (_ & _ & H); specialize (H (B2R v)); rewrite ub_fin in H by easy; discriminate (H (Rle_refl _))|].
  intros H. specialize (H (B2R v - 1) eq_refl). rewrite lb_fin in H by easy. lra.
- rewrite num_le_fin by easy. split.
  + intros H t. rewrite !lb_fin by easy. lra.
  + intros H. specialize (H (B2R w)). rewrite !lb_fin in H by easy. lra.
Qed.
Lemma ub_by_lb {G} (w : float G) t : isnan w = false -> (ub w t <-> forall s, lb w s -> t <= s).
Proof.
intros Nw. destruct (fviewP w) as [ | | |w Fw]; [easy|..].
- split; [easy|]. intros H. specialize (H (t - 1) eq_refl). lra.
- split; [intros _ s A; discriminate A|easy].
- rewrite ub_fin by easy. split.
  + intros H s. rewrite lb_fin by easy. lra.
  + intros H. apply H. rewrite lb_fin by easy. lra.
Qed.
Lemma num_le_total {F G} (v : float F) (w : float G) : isnan v = false -> isnan w = false -> num_le v w \/ num_le w v.
Proof.
intros Nv Nw. destruct (fviewP v) as [ | | |v Fv]; [easy|..]; destruct (fviewP w) as [ | | |w Fw]; try easy; try (now left); try (now right).
rewrite !num_le_fin by easy. lra.
Qed.
Lemma num_eq_same {F} (z v w : float F) : zero_is z v -> zero_is z w -> num_eq v w -> v = w.
Proof.
intros Zv Zw [H1 H2]. assert (Nv := proj1 H1). assert (Nw := proj1 H2).
destruct (fviewP v) as [ | | |v Fv]; [easy|..]; destruct (fviewP w) as [ | | |w Fw]; try easy.
- now destruct H2 as (_ & _ & H2); specialize (H2 0 eq_refl).
- destruct H2 as (_ & _ & H2). specialize (H2 (B2R w)). rewrite ub_fin in H2 by easy. discriminate (H2 (Rle_refl _)).
- now destruct H1 as (_ & _ & H1); specialize (H1 0 eq_refl).
- destruct H1 as (_ & _ & H1). specialize (H1 (B2R w + 1) eq_refl). rewrite ub_fin in H1 by easy. lra.
- destruct H1 as (_ & _ & H1). specialize (H1 (B2R v)). rewrite ub_fin in H1 by easy. discriminate (H1 (Rle_refl _)).
- destruct H2 as (_ & _ & H2). specialize (H2 (B2R v + 1) eq_refl). rewrite ub_fin in H2 by easy. lra.
- rewrite num_le_fin in H1, H2 by easy. assert (E : B2R v = B2R w) by lra. destruct (Req_dec (B2R v) 0) as [Z|Z].
  + rewrite (Zv Fv Z). symmetry. apply Zw; [easy|lra].
  + assert (Sv : is_finite_strict v = true) by (destruct v as [| | |]; simpl in Z; try easy; lra).
    assert (Sw : is_finite_strict w = true) by (rewrite E in Z; destruct w as [| | |]; simpl in Z; try easy; lra).
    now apply B2R_inj.
Qed.
Lemma least_le {T : fmt} (S S' : R -> Prop) (v v' : float T) : (forall r, S r -> S' r) -> least_above S v -> least_above S' v' -> num_le v v'.
Proof. intros I (N & U & L) (N' & U' & L'). split; [easy|]. split; [easy|]. apply L. intros r Hr. now apply U', I. Qed.
Lemma greatest_le {T : fmt} (S S' : R -> Prop) (v v' : float T) : (forall r, S r -> S' r) -> greatest_below S v -> greatest_below S' v' -> num_le v' v.
Proof. intros I (N & U & L) (N' & U' & L'). apply num_le_lb; [easy..|]. apply L. intros r Hr. now apply U', I. Qed.
Lemma least_eq {T : fmt} (S S' : R -> Prop) (v v' : float T) : (forall r, S r <-> S' r) -> least_above S v -> least_above S' v' -> num_eq v v'.
Proof. intros I A A'. split; [apply (least_le S S')|apply (least_le S' S)]; trivial; intros r; apply I. Qed.
Lemma greatest_eq {T : fmt} (S S' : R -> Prop) (v v' : float T) : (forall r, S r <-> S' r) -> greatest_below S v -> greatest_below S' v' -> num_eq v v'.
Proof. intros I A A'. split; [apply (greatest_le S' S)|apply (greatest_le S S')]; trivial; intros r; apply I. Qed.
Lemma returns_fun {A} (m : M A) a b : returns m a -> returns m b -> a = b.
Proof. intros H1 H2. specialize (H1 (Est 0 0)). specialize (H2 (Est 0 0)). congruence. Qed.
Lemma dec_true m P : decides m P -> returns m true -> P.
Proof. intros (b & B1 & B2) H. apply B2. now apply (returns_fun m). Qed.

(** ** Larger sets *)
Section Mono.
Context {F G : fmt} (T : fmt) (x : itv F) (y : itv G).
Hypotheses (C : comparable F G) (C1 : comparable F T) (C2 : comparable G T) (Wx : wf x) (Wy : wf y).
Hypothesis I : returns (subset_mixed x y) true.
Let S : s_subset x y := dec_true _ _ (subset_mixed_decides C x y Wx Wy) I.
Lemma m_inf : compare num_le (n_inf_mixed T y) (n_inf_mixed T x).
Proof.
destruct (n_inf_mixed_spec T C1 x Wx) as (v & Ev & Gv & _). destruct (n_inf_mixed_spec T C2 y Wy) as (w & Ew & Gw & _).
exists w, v. split; [easy|]. split; [easy|]. now apply (greatest_le (points x) (points y)).
Qed.
Lemma m_sup : compare num_le (n_sup_mixed T x) (n_sup_mixed T y).
Proof.
destruct (n_sup_mixed_spec T C1 x Wx) as (v & Ev & Gv & _). destruct (n_sup_mixed_spec T C2 y Wy) as (w & Ew & Gw & _).
exists v, w. split; [easy|]. split; [easy|]. now apply (least_le (points x) (points y)).
Qed.
Hypothesis N : s_nonempty x.
Let N' : s_nonempty y. Proof. destruct N as [r Hr]. exists r. now apply S. Qed.
Lemma m_wid : compare num_le (n_wid_mixed T x) (n_wid_mixed T y).
Proof.
destruct (n_wid_mixed_spec T C1 x N) as (v & Ev & Gv & _). destruct (n_wid_mixed_spec T C2 y N') as (w & Ew & Gw & _).
exists v, w. split; [easy|]. split; [easy|]. apply (least_le (differences x) (differences y)); [|easy..].
intros t (r & s & Hr & Hs & E). exists r, s. split; [now apply S|]. split; [now apply S|easy].
Qed.
Lemma m_mag : compare num_le (n_mag_mixed T x) (n_mag_mixed T y).
Proof.
destruct (n_mag_mixed_spec T C1 x N) as (v & Ev & Gv & _). destruct (n_mag_mixed_spec T C2 y N') as (w & Ew & Gw & _).
exists v, w. split; [easy|]. split; [easy|]. apply (least_le (magnitudes x) (magnitudes y)); [|easy..].
intros t (r & Hr & E). exists r. split; [now apply S|easy].
Qed.
Lemma m_mig : compare num_le (n_mig_mixed T y) (n_mig_mixed T x).
Proof.
destruct (n_mig_mixed_spec T C1 x N) as (v & Ev & Gv & _). destruct (n_mig_mixed_spec T C2 y N') as (w & Ew & Gw & _).
exists w, v. split; [easy|]. split; [easy|]. apply (greatest_le (magnitudes x) (magnitudes y)); [|easy..].
intros t (r & Hr & E). exists r. split; [now apply S|easy].
Qed.
End Mono.

(** ** One operand *)
Section One.
Context {F : fmt} (x : itv F).
Lemma u_inf_neg : wf x -> compare eq (n_inf x) (n <- neg x; s <- n_sup n; ret (fneg s)).
Proof.
intros W. destruct (neg_exact x W) as (n & E & Wn & H). destruct (n_inf_spec x W) as (v & Ev & Gv & Zv). destruct (n_sup_spec n Wn) as (w & Ew & Gw & Zw).
exists v, (fneg w). split; [easy|]. split; [apply returns_eq; rewrite E; apply returns_eq in Ew; mreds; rewrite Ew; now mreds|].
assert (Zw' : zero_is fm0 (fneg w)).
{ intros Fw Bw. unfold fneg in *. rewrite is_finite_Bopp in Fw. rewrite B2R_Bopp in Bw. rewrite (Zw Fw) by lra. easy. }
apply (num_eq_same fm0); [easy..|]. apply (greatest_eq (points x) (points x)); [easy..|].
destruct Gw as (N & U & L). split; [now destruct w|]. split.
- intros r Hr. apply lb_opp. apply U. apply H. now rewrite Ropp_involutive.
- intros z Hz t Ht. apply lb_opp in Ht. rewrite <- (Ropp_involutive t). apply ub_opp. apply L; [|easy].
  intros r Hr. apply ub_opp. apply Hz. now apply H.
Qed.
(** The bounds of the tightest interval around a set. *)
Lemma tight_sup S (c : itv F) (v : float F) : (exists r, S r) -> tightest S c -> least_above (points c) v -> least_above S v.
Proof.
intros [r0 Hr0] (W & E & T) (N & U & L). split; [easy|]. split; [intros r Hr; now apply U, E|].
intros w Hw. apply L. intros r Hr.
assert (Hm : mem r ((fminf, w) : itv F)); [|now destruct Hm].
apply (T (fminf, w)); [|intros t Ht; split; [easy|now apply Hw]|easy].
right. exists r0. split; [easy|now apply Hw].
Qed.
Lemma tight_inf S (c : itv F) (v : float F) : (exists r, S r) -> tightest S c -> greatest_below (points c) v -> greatest_below S v.
Proof.
intros [r0 Hr0] (W & E & T) (N & U & L). split; [easy|]. split; [intros r Hr; now apply U, E|].
intros w Hw. apply L. intros r Hr.
assert (Hm : mem r ((w, finf) : itv F)); [|now destruct Hm].
apply (T (w, finf)); [|intros t Ht; split; [now apply Hw|easy]|easy].
right. exists r0. split; [now apply Hw|easy].
Qed.
Hypothesis N : s_nonempty x.
Let W : wf x := mem_wf x N.
Let NN : isnan (fst x) = false := mem_nnan x N.
Lemma u_mag_abs : compare eq (n_mag x) (a <- abs x; n_sup a).
Proof.
destruct (abs_tightest x W) as (a & Ea & Ta). pose proof (tightest_wf _ _ Ta) as Wa.
destruct (n_mag_spec x W NN) as (v & Ev & Gv & Zv). destruct (n_sup_spec a Wa) as (w & Ew & Gw & Zw).
exists v, w. split; [easy|]. split; [apply returns_eq in Ea; rewrite Ea; apply returns_eq in Ew; mreds; rewrite Ew; now mreds|].
apply (num_eq_same f0); [easy..|]. destruct N as [r0 Hr0]. apply tight_sup with (2 := Ta) in Gw; [|exists (Rabs r0), r0; split; [easy|split; easy]].
apply (least_eq (magnitudes x) (image1 everywhere Rabs x)); [|easy..].
intros t. unfold magnitudes, image1, everywhere. split; [intros (r & H1 & H2); now exists r|intros (r & H1 & _ & H2); now exists r].
Qed.
Lemma u_mig_abs : compare num_eq (n_mig x) (a <- abs x; n_inf a).
Proof.
destruct (abs_tightest x W) as (a & Ea & Ta). pose proof (tightest_wf _ _ Ta) as Wa.
destruct (n_mig_spec x W NN) as (v & Ev & Gv & Zv). destruct (n_inf_spec a Wa) as (w & Ew & Gw & Zw).
exists v, w. split; [easy|]. split; [apply returns_eq in Ea; rewrite Ea; apply returns_eq in Ew; mreds; rewrite Ew; now mreds|].
destruct N as [r0 Hr0]. apply tight_inf with (2 := Ta) in Gw; [|exists (Rabs r0), r0; split; [easy|split; easy]].
apply (greatest_eq (magnitudes x) (image1 everywhere Rabs x)); [|easy..].
intros t. unfold magnitudes, image1, everywhere. split; [intros (r & H1 & H2); now exists r|intros (r & H1 & _ & H2); now exists r].
Qed.
Lemma u_wid_sub : compare eq (n_wid x) (a <- sub x x; n_sup a).
Proof.
destruct (sub_tightest x x W W) as (a & Ea & Ta). pose proof (tightest_wf _ _ Ta) as Wa.
destruct (n_wid_spec x W NN) as (v & Ev & Gv & Zv). destruct (n_sup_spec a Wa) as (w & Ew & Gw & Zw).
exists v, w. split; [easy|]. split; [apply returns_eq in Ea; rewrite Ea; apply returns_eq in Ew; mreds; rewrite Ew; now mreds|].
apply (num_eq_same f0); [easy..|]. destruct N as [r0 Hr0]. apply tight_sup with (2 := Ta) in Gw; [|exists (r0 - r0), r0, r0; split; [easy|split; [easy|split; easy]]].
apply (least_eq (differences x) (image2 everywhere2 Rminus x x)); [|easy..].
intros t. unfold differences, image2, everywhere2. split; [intros (r & s & H1 & H2 & H3); now exists r, s|intros (r & s & H1 & H2 & _ & H3); now exists r, s].
Qed.
Lemma u_mid_member : always (m <- n_mid x; is_member m x).
Proof.
destruct (mid_ok x N) as (m & E & Fm & Mm & _). eapply always_dec; [apply decides_bind with (1 := E); now apply is_member_decides|]. now split.
Qed.
Lemma u_rad_wid : compare num_le (n_rad x) (n_wid x).
Proof.
destruct (rad_ok x N) as (m & r & _ & _ & Er & Fm & Mm & Gr & _). destruct (n_wid_spec x W NN) as (w & Ew & Gw & _).
exists r, w. split; [easy|]. split; [easy|]. apply (least_le (distances (B2R m) x) (differences x)); [|easy..].
intros t (s & Hs & E). unfold Rabs in E. destruct (Rcase_abs (s - B2R m)).
- exists (B2R m), s. split; [easy|]. split; [easy|]. lra.
- exists s, (B2R m). split; [easy|]. split; [easy|]. lra.
Qed.
Lemma u_mig_mag : compare num_le (n_mig x) (n_mag x).
Proof.
destruct (n_mig_spec x W NN) as (v & Ev & Gv & _). destruct (n_mag_spec x W NN) as (w & Ew & Gw & _).
exists v, w. split; [easy|]. split; [easy|]. destruct Gv as (N1 & U1 & L1), Gw as (N2 & U2 & L2). split; [easy|]. split; [easy|].
intros t Ht. destruct N as [r Hr]. assert (Hm : magnitudes x (Rabs r)) by now exists r.
apply ub_mono with (1 := U2 _ Hm). apply (proj1 (ub_by_lb v t N1) Ht). now apply U1.
Qed.
Lemma u_singleton : exists w, returns (n_wid x) w /\ decides (is_singleton x) (w = f0).
Proof.
destruct (n_wid_spec x W NN) as (w & Ew & (N1 & U & L) & Z). exists w. split; [easy|].
destruct (is_singleton_decides x W) as (b & B1 & B2). exists b. split; [easy|]. rewrite B2. clear b B1 B2.
assert (F0 : is_finite (@f0 F) = true) by easy. assert (Z0 : B2R (@f0 F) = 0) by easy. split.
- intros [r Hr]. assert (D : forall t, differences x t -> t = 0).
  { intros t (a & b & Ha & Hb & E). apply Hr in Ha, Hb. lra. }
  assert (D0 : differences x 0) by (exists r, r; split; [now apply Hr|]; split; [now apply Hr|lra]).
  assert (H1 : forall t, ub w t -> ub (@f0 F) t). { apply L. intros t Ht. apply D in Ht. rewrite ub_fin, Z0 by easy. lra. }
  apply U in D0. destruct (fviewP w) as [ | | |w Fw]; try easy.
  + specialize (H1 1 eq_refl). rewrite ub_fin, Z0 in H1 by easy. lra.
  + apply Z; [easy|]. specialize (H1 (B2R w)). rewrite !ub_fin, Z0 in H1 by easy. rewrite ub_fin in D0 by easy. lra.
- intros ->. destruct N as [r Hr]. exists r. intros t. split; [|now intros ->]. intros Ht.
  assert (H1 : ub (@f0 F) (t - r)) by (apply U; now exists t, r). assert (H2 : ub (@f0 F) (r - t)) by (apply U; now exists r, t).
  rewrite ub_fin, Z0 in H1, H2 by easy. lra.
Qed.
End One.
Lemma u_empty_mid {F} (x : itv F) : wf x -> exists m, returns (n_mid x) m /\ decides (is_empty x) (isnan m = true).
Proof.
intros W. destruct (is_empty_decides x W) as (b & B1 & B2). destruct W as [->|N].
- exists fnan. destruct (n_empty (F := F)) as (E & _). split; [rewrite E; now intros s|]. exists b. split; [easy|]. rewrite B2. split; [easy|]. intros _ r Hr. now destruct Hr.
- destruct (mid_ok x N) as (m & E & Fm & _). exists m. split; [easy|]. exists b. split; [easy|]. rewrite B2. split.
  + intros H. exfalso. destruct N as [r Hr]. now apply (H r).
  + intros H. now destruct m.
Qed.

(** ** The relations in terms of the bounds *)
Lemma inf_char {F} (x : itv F) (v : float F) t : s_nonempty x -> greatest_below (points x) v -> (lb v t <-> exists a, mem a x /\ a <= t).
Proof.
intros [r Hr] (N & U & L). split.
- intros H. assert (H1 : lb (fst x) t). { apply L; [|easy]. now intros s [Hs _]. }
  destruct (Rle_or_lt r t) as [A|A]; [now exists r|]. exists t. split; [|lra]. split; [easy|]. apply ub_mono with (1 := proj2 Hr). lra.
- intros (a & Ha & A). apply lb_mono with (2 := A). now apply U.
Qed.
Lemma sup_char {F} (x : itv F) (v : float F) t : s_nonempty x -> least_above (points x) v -> (ub v t <-> exists a, mem a x /\ t <= a).
Proof.
intros [r Hr] (N & U & L). split.
- intros H. assert (H1 : ub (snd x) t). { apply L; [|easy]. now intros s [_ Hs]. }
  destruct (Rle_or_lt t r) as [A|A]; [now exists r|]. exists t. split; [|lra]. split; [|easy]. apply lb_mono with (1 := proj1 Hr). lra.
- intros (a & Ha & A). apply ub_mono with (2 := A). now apply U.
Qed.
Section By.
Context {F G : fmt} (x : itv F) (y : itv G).
Hypotheses (C : comparable F G) (Nx : s_nonempty x) (Ny : s_nonempty y).
Lemma dec_iff m P Q : decides m P -> (P <-> Q) -> decides m Q.
Proof. intros (b & B1 & B2) H. exists b. split; [easy|]. tauto. Qed.
Lemma by_bounds : exists ix sx iy sy, returns (n_inf x) ix /\ returns (n_sup x) sx /\ returns (n_inf y) iy /\ returns (n_sup y) sy /\
  decides (equal_mixed x y) (num_eq ix iy /\ num_eq sx sy) /\
  decides (subset_mixed x y) (num_le iy ix /\ num_le sx sy) /\
  decides (less_mixed x y) (num_le ix iy /\ num_le sx sy) /\
  decides (precedes_mixed x y) (num_le sx iy) /\
  decides (strictly_precedes_mixed x y) (num_lt sx iy) /\
  decides (disjoint_mixed x y) (num_lt sx iy \/ num_lt sy ix).
Proof.
pose proof (mem_wf x Nx) as Wx. pose proof (mem_wf y Ny) as Wy.
destruct (n_inf_spec x Wx) as (ix & E1 & G1 & _), (n_sup_spec x Wx) as (sx & E2 & G2 & _), (n_inf_spec y Wy) as (iy & E3 & G3 & _), (n_sup_spec y Wy) as (sy & E4 & G4 & _).
exists ix, sx, iy, sy. do 4 (split; [easy|]).
pose proof (fun t => inf_char x ix t Nx G1) as I1. pose proof (fun t => sup_char x sx t Nx G2) as S1.
pose proof (fun t => inf_char y iy t Ny G3) as I2. pose proof (fun t => sup_char y sy t Ny G4) as S2.
assert (Q1 : isnan ix = false) by apply G1. assert (Q2 : isnan sx = false) by apply G2. assert (Q3 : isnan iy = false) by apply G3. assert (Q4 : isnan sy = false) by apply G4.
clear E1 E2 E3 E4 G1 G2 G3 G4.
assert (LS : num_le sx sy <-> forall a, mem a x -> exists b, mem b y /\ a <= b).
{ split.
  - intros (_ & _ & H) a Ha. apply S2, H, S1. exists a. split; [easy|lra].
  - intros H. split; [easy|]. split; [easy|]. intros t Ht. apply S1 in Ht. destruct Ht as (a & Ha & A). destruct (H a Ha) as (b & Hb & B). apply S2. exists b. split; [easy|lra]. }
assert (LS' : num_le sy sx <-> forall b, mem b y -> exists a, mem a x /\ b <= a).
{ split.
  - intros (_ & _ & H) a Ha. apply S1, H, S2. exists a. split; [easy|lra].
  - intros H. split; [easy|]. split; [easy|]. intros t Ht. apply S2 in Ht. destruct Ht as (a & Ha & A). destruct (H a Ha) as (b & Hb & B). apply S1. exists b. split; [easy|lra]. }
assert (LI : num_le ix iy <-> forall b, mem b y -> exists a, mem a x /\ a <= b).
{ rewrite num_le_lb by easy. split.
  - intros H b Hb. apply I1, H, I2. exists b. split; [easy|lra].
  - intros H t Ht. apply I2 in Ht. destruct Ht as (b & Hb & B). destruct (H b Hb) as (a & Ha & A). apply I1. exists a. split; [easy|lra]. }
assert (LI' : num_le iy ix <-> forall a, mem a x -> exists b, mem b y /\ b <= a).
{ rewrite num_le_lb by easy. split.
  - intros H b Hb. apply I2, H, I1. exists b. split; [easy|lra].
  - intros H t Ht. apply I1 in Ht. destruct Ht as (b & Hb & B). destruct (H b Hb) as (a & Ha & A). apply I2. exists a. split; [easy|lra]. }
assert (SUB : s_subset x y <-> num_le iy ix /\ num_le sx sy).
{ rewrite LS, LI'. split.
  - intros H. split; intros a Ha; exists a; (split; [now apply H|lra]).
  - intros [H1 H2] a Ha. destruct (H1 a Ha) as (b & Hb & B), (H2 a Ha) as (b' & Hb' & B'). now apply (mem_conv y b b'). }
assert (SUB' : s_subset y x <-> num_le ix iy /\ num_le sy sx).
{ rewrite LS', LI. split.
  - intros H. split; intros a Ha; exists a; (split; [now apply H|lra]).
  - intros [H1 H2] a Ha. destruct (H1 a Ha) as (b & Hb & B), (H2 a Ha) as (b' & Hb' & B'). now apply (mem_conv x b b'). }
assert (gen : forall K L (u : itv K) (w : itv L) (i : float L) (s : float K), s_nonempty u -> s_nonempty w -> isnan s = false -> isnan i = false ->
  (forall t, ub s t <-> exists a, mem a u /\ t <= a) -> (forall t, lb i t <-> exists b, mem b w /\ b <= t) ->
  (num_le s i <-> s_precedes u w) /\ (num_lt s i <-> s_strictly_precedes u w)).
{ clear. intros K L u w i s [a0 Ha0] [b0 Hb0] Ns Ni Hs Hi.
  assert (P : num_le s i <-> s_precedes u w).
  { split.
    - intros (_ & _ & H) a b Ha Hb. apply (proj1 (ub_by_lb i a Ni)); [apply H, Hs; exists a; split; [easy|lra]|]. apply Hi. exists b. split; [easy|lra].
    - intros H. split; [easy|]. split; [easy|]. intros t Ht. apply Hs in Ht. destruct Ht as (a & Ha & A). apply ub_by_lb; [easy|]. intros r Hr. apply Hi in Hr. destruct Hr as (b & Hb & B).
      specialize (H a b Ha Hb). lra. }
  split; [easy|]. unfold num_lt.
  assert (Q : num_le i s <-> exists a b, mem a u /\ mem b w /\ b <= a).
  { split.
    - intros (_ & _ & H). destruct (fviewP i) as [ | | |i Fi]; [easy|..].
      + destruct (proj1 (Hi a0) eq_refl) as (b & Hb & B). now exists a0, b.
      + assert (Z : lb (@finf L) b0) by (apply Hi; exists b0; split; [easy|lra]). discriminate Z.
      + assert (Z1 : lb i (B2R i)) by (rewrite lb_fin by easy; lra). assert (Z2 : ub i (B2R i)) by (rewrite ub_fin by easy; lra).
        apply H, Hs in Z2. apply Hi in Z1. destruct Z2 as (a & Ha & A), Z1 as (b & Hb & B). exists a, b. split; [easy|]. split; [easy|lra].
    - intros (a & b & Ha & Hb & L1). split; [easy|]. split; [easy|]. intros t Ht. apply Hs. exists a. split; [easy|].
      apply (proj1 (ub_by_lb i t Ni)); [easy|]. apply Hi. now exists b. }
  rewrite P, Q. split.
  - intros [H1 H2] a b Ha Hb. destruct (H1 a b Ha Hb) as [H|H]; [easy|]. exfalso. apply H2. exists a, b. split; [easy|]. split; [easy|lra].
  - intros H. split; [intros a b Ha Hb; specialize (H a b Ha Hb); lra|]. intros (a & b & Ha & Hb & L1). specialize (H a b Ha Hb). lra. }
destruct (gen F G x y iy sx Nx Ny Q2 Q3 S1 I2) as [P1 P2]. destruct (gen G F y x ix sy Ny Nx Q4 Q1 S2 I1) as [P3 P4]. clear gen.
split; [|split; [|split; [|split; [|split]]]].
- eapply dec_iff; [now apply equal_mixed_decides|]. unfold num_eq.
  assert (s_equal x y <-> s_subset x y /\ s_subset y x) by (split; [intros H; split; intros r; apply H|intros [H H'] r; split; [apply H|apply H']]). tauto.
- eapply dec_iff; [now apply subset_mixed_decides|easy].
- eapply dec_iff; [now apply less_mixed_decides|]. unfold s_less. rewrite LS, LI. tauto.
- eapply dec_iff; [now apply precedes_mixed_decides|easy].
- eapply dec_iff; [now apply strictly_precedes_mixed_decides|easy].
- eapply dec_iff; [now apply disjoint_mixed_decides|]. rewrite P2, P4. split.
  + intros D. destruct (classic (s_strictly_precedes x y)) as [A|A]; [now left|right]. intros b a Hb Ha.
    assert (exists a' b', mem a' x /\ mem b' y /\ b' <= a') as (a' & b' & Ha' & Hb' & L1).
    { apply NNPP. intros Z. apply A. intros a' b' Ha' Hb'. apply Rnot_le_lt. intros L1. apply Z. now exists a', b'. }
    apply Rnot_le_lt. intros L2.
    (* b <= ... the sets would have a common point *)
    destruct (Rle_or_lt a b') as [A1|A1].
    * apply (D b'). split; [|easy]. apply (mem_conv x a a'); [easy..|lra].
    * apply (D a). split; [easy|]. apply (mem_conv y b' b); [easy..|lra].
  + intros [A|A] r [H1 H2]; [specialize (A r r H1 H2)|specialize (A r r H2 H1)]; lra.
Qed.
End By.
