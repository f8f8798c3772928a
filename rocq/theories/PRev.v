(** * Proofs: clipping a branch of a reverse operation *)
From Coq Require Import ZArith NArith Reals Bool Lia Lra Psatz List.
From Flocq Require Import Core.Core Calc.Operations IEEE754.BinarySingleNaN.
From Verif Require Import Fmt Spec FloatFacts Exc Deco SpecApi MBase PBase MBool MArith PArith PMul PFma PDiv PUnary
  PConv PBool PSetop PDec MNum PNumF MRev SpecRev.

Local Open Scope R_scope.

Section T.
Context {F : fmt}.
Implicit Types a b l u : float F.
Lemma F2R_exact a : is_finite a = true -> F2R (exact a) = B2R a.
Proof. destruct a as [s| | |s m e H]; try easy. intros _. unfold exact, F2R; simpl. lra. Qed.
Lemma exact_eqb_spec (p q : Defs.float radix2) : exact_eqb p q = true <-> F2R p = F2R q.
Proof.
unfold exact_eqb. rewrite Z.eqb_eq. split; intros H.
- assert (F2R (Fminus p q) = 0) as E by (apply F2R_0 || (unfold F2R; rewrite H; simpl; lra)).
  rewrite F2R_minus in E. lra.
- apply eq_0_F2R with radix2 (Fexp (Fminus p q)).
  change (F2R (Defs.Float radix2 (Fnum (Fminus p q)) (Fexp (Fminus p q))) = 0).
  replace (Defs.Float radix2 _ _) with (Fminus p q) by now destruct (Fminus p q).
  rewrite F2R_minus. lra.
Qed.
Lemma div_inexact_spec a b l : is_finite a = true -> is_finite b = true -> B2R b <> 0 ->
  div_inexact a b l = negb (is_finite l && Req_bool (B2R l) (B2R a / B2R b)).
Proof.
intros Fa Fb N. unfold div_inexact. rewrite Fa, Fb, feq_fin by easy.
rewrite (Req_bool_false (B2R b)) by easy. cbn [andb negb]. f_equal.
destruct (is_finite l) eqn:Fl; [|easy]. cbn [andb].
destruct (exact_eqb _ _) eqn:E; symmetry.
- apply exact_eqb_spec in E. rewrite F2R_mult, !F2R_exact in E by easy.
  apply Req_bool_true. rewrite <- E. field. easy.
- apply Req_bool_false. intros H. apply (f_equal (fun v => v * B2R b)) in H.
  rewrite <- not_true_iff_false in E. apply E, exact_eqb_spec. rewrite F2R_mult, !F2R_exact by easy.
  rewrite H. field. easy.
Qed.
Lemma div_inexact_inf a b l : is_finite a = false \/ is_finite b = false -> div_inexact a b l = false.
Proof. unfold div_inexact. intros [-> | ->]; [easy|]. now rewrite andb_false_r. Qed.
Lemma sqrt_inexact_spec a l : is_finite a = true -> 0 <= B2R a -> (is_finite l = true -> 0 <= B2R l) ->
  sqrt_inexact a l = negb (is_finite l && Req_bool (B2R l) (R_sqrt.sqrt (B2R a))).
Proof.
intros Fa Pa Pl. unfold sqrt_inexact. rewrite Fa. cbn [andb]. f_equal.
destruct (is_finite l) eqn:Fl; [|easy]. cbn [andb].
destruct (exact_eqb _ _) eqn:E; symmetry.
- apply exact_eqb_spec in E. rewrite F2R_mult, !F2R_exact in E by easy.
  apply Req_bool_true. rewrite <- E. symmetry. apply sqrt_square. auto.
- apply Req_bool_false. intros H. rewrite <- not_true_iff_false in E. apply E, exact_eqb_spec.
  rewrite F2R_mult, !F2R_exact by easy. rewrite H. now apply sqrt_sqrt.
Qed.
End T.

Section C.
Context {F : fmt}.
Implicit Types a b l u : float F.
Implicit Types x y z : itv F.

Definition convexR (I : R -> Prop) : Prop := forall p q r, I p -> I q -> p <= r <= q -> I r.
Definition lo_ok (B : Prop) (I : R -> Prop) l (t : bool) : Prop :=
  glow I l /\ (t = true -> is_finite l = true -> ~ I (B2R l)) /\
  (B \/ B2R l <> 0 -> t = false -> is_finite l = true -> I (B2R l)).
Definition up_ok (B : Prop) (I : R -> Prop) u (t : bool) : Prop :=
  gupp I u /\ (t = true -> is_finite u = true -> ~ I (B2R u)) /\
  (B \/ B2R u <> 0 -> t = false -> is_finite u = true -> I (B2R u)).
Definition branch (B : Prop) (I : R -> Prop) z (tl tu : bool) : Prop :=
  convexR I /\ (exists r, I r) /\ lo_ok B I (fst z) tl /\ up_ok B I (snd z) tu.

Lemma branch_ext B (I J : R -> Prop) z tl tu : (forall r, I r <-> J r) -> branch B I z tl tu -> branch B J z tl tu.
Proof.
intros E (C & (r & N) & (G1 & L1 & L2) & (G2 & U1 & U2)). split; [|split; [|split; split; [|split| |split]]].
- intros p q s. rewrite <- !E. apply C.
- exists r. now apply E.
- now apply glow_ext with I.
- intros T Fl. rewrite <- E. auto.
- intros HB T Fl. rewrite <- E. auto.
- destruct G2 as [G3 G4]. split; [intros s; rewrite <- E; auto|]. intros u' H. apply G4. intros s. rewrite E. auto.
- intros T Fl. rewrite <- E. auto.
- intros HB T Fl. rewrite <- E. auto.
Qed.
Lemma branch_tightest B I z tl tu : branch B I z tl tu -> tightest I z.
Proof. intros (_ & N & (G1 & _) & (G2 & _)). destruct z as [l u]. now apply tightest_intro. Qed.

Lemma glow_view I l r : glow I l -> I r -> l = fminf \/ is_finite l = true.
Proof.
intros [H _] Ir. specialize (H r Ir). destruct l as [|[]| |]; simpl in H; auto; easy.
Qed.
Lemma gupp_view I u r : gupp I u -> I r -> u = finf \/ is_finite u = true.
Proof.
intros [H _] Ir. specialize (H r Ir). destruct u as [|[]| |]; simpl in H; auto; easy.
Qed.

Lemma trim_cases B I z tl tu x : branch B I z tl tu -> wf x ->
  (trim z tl tu x = z /\ ~ (feq (snd z) (fst x) = true /\ tu = true) /\ ~ (feq (snd x) (fst z) = true /\ tl = true)) \/
  (trim z tl tu x = empty /\ forall r, I r -> mem r x -> False).
Proof.
intros (_ & (r0 & N) & (G1 & L1 & _) & (G2 & U1 & _)) Wx. unfold trim.
destruct (feq (snd z) (fst x) && tu) eqn:E1.
- right. split; [easy|]. apply andb_prop in E1. destruct E1 as [E1 ->]. intros r Ir [Ml _].
  destruct (gupp_view _ _ _ G2 N) as [E|E]; [rewrite E in E1; destruct (fst x) as [|[]| |]; easy|].
  assert (Fx : is_finite (fst x) = true).
  { destruct (fst x) as [|[]| |]; try easy; destruct (snd z) as [|[]| |[]]; easy. }
  rewrite feq_fin in E1 by easy. apply (U1 eq_refl E).
  pose proof (proj1 G2 r Ir) as Hu. rewrite ub_fin in Hu by easy. rewrite lb_fin in Ml by easy.
  revert E1. case Req_bool_spec; [|easy]. intros E1 _. now replace (B2R (snd z)) with r by lra.
- destruct (feq (snd x) (fst z) && tl) eqn:E2; cbn [orb].
  + right. split; [easy|]. apply andb_prop in E2. destruct E2 as [E2 ->]. intros r Ir [_ Mu].
    destruct (glow_view _ _ _ G1 N) as [E|E]; [rewrite E in E2; destruct (snd x) as [|[]| |[]]; easy|].
    assert (Fx : is_finite (snd x) = true).
    { destruct (snd x) as [|[]| |]; try easy; destruct (fst z) as [|[]| |[]]; easy. }
    rewrite feq_fin in E2 by easy. apply (L1 eq_refl E).
    pose proof (proj1 G1 r Ir) as Hu. rewrite lb_fin in Hu by easy. rewrite ub_fin in Mu by easy.
    revert E2. case Req_bool_spec; [|easy]. intros E2 _. now replace (B2R (fst z)) with r by lra.
  + left. split; [easy|]. split; intros [H ->]; rewrite H in *; easy.
Qed.

(** Clipping never loses a point. *)
Lemma trim_encloses B I z tl tu x : branch B I z tl tu -> wf x -> wf (trim z tl tu x) /\
  forall r, I r -> mem r x -> mem r (trim z tl tu x).
Proof.
intros H Wx. pose proof (branch_tightest _ _ _ _ _ H) as (W & E & _).
destruct (trim_cases _ _ _ _ _ _ H Wx) as [[-> _]|[-> K]].
- split; [easy|]. auto.
- split; [now left|]. intros r Ir Mr. now destruct (K r Ir Mr).
Qed.

(** ... and is tight if bounds reported exact are attained. *)
Lemma trim_tight (B : Prop) I z tl tu x :
  B \/ (is_finite (fst x) = true -> B2R (fst x) <> 0) /\ (is_finite (snd x) = true -> B2R (snd x) <> 0) -> branch B I z tl tu -> wf x -> forall y, wf y ->
  (forall r, mem r y <-> mem r (trim z tl tu x) /\ mem r x) -> tightest (fun r => I r /\ mem r x) y.
Proof.
intros HB H Wx y Wy Ey. pose proof (branch_tightest _ _ _ _ _ H) as (Wz & Ez & _).
destruct (trim_cases _ _ _ _ _ _ H Wx) as [(T & T1 & T2)|[T K]]; rewrite T in Ey.
2:{ split; [easy|split].
    - intros r [Ir Mr]. now destruct (K r Ir Mr).
    - intros z' _ _ r Mr. apply Ey in Mr. now destruct Mr as [[Mr _] _]. }
split; [easy|split]. { intros r [Ir Mr]. apply Ey. auto. }
destruct H as (C & (i0 & Ni) & (G1 & L1 & L2) & (G2 & U1 & U2)).
intros z' Wz' Ez' r Mr. apply Ey in Mr. destruct Mr as [Mz Mx].
destruct (Classical_Prop.classic (I r)) as [Ir|Nr]. { now apply Ez'. }
destruct (Classical_Prop.classic (exists i, I i /\ i <= r)) as [(i & Ii & Hi)|Hlow].
- (* r is above I *)
  assert (Hab : forall j, I j -> j < r).
  { intros j Ij. destruct (Rlt_or_le j r) as [L|L]; [easy|]. destruct Nr. now apply (C i j r). }
  assert (K : exists j, I j /\ lb (fst x) j).
  { apply Classical_Prop.NNPP. intros NK.
    assert (Fx : is_finite (fst x) = true).
    { destruct Mx as [Mx _]. destruct (fst x) as [|[]| |] eqn:Ex; simpl in Mx; try easy.
      destruct NK. exists i0. split; [easy|reflexivity]. }
    assert (Q : forall j, I j -> ub (fst x) j).
    { intros j Ij. rewrite ub_fin by easy. apply Rnot_lt_le. intros L. apply NK. exists j. split; [easy|].
      rewrite lb_fin by easy. lra. }
    pose proof (proj2 G2 (fst x) Q r (proj2 Mz)) as Hr. rewrite ub_fin in Hr by easy.
    destruct Mx as [Mx _]. rewrite lb_fin in Mx by easy.
    destruct (gupp_view _ _ _ G2 Ni) as [E|E].
    { pose proof (proj2 G2 (fst x) Q (B2R (fst x) + 1)) as Q'. rewrite E in Q'. specialize (Q' eq_refl).
      rewrite ub_fin in Q' by easy. lra. }
    pose proof (proj2 G2 (fst x) Q (B2R (snd z))) as Q'. rewrite !ub_fin in Q' by easy. specialize (Q' (Rle_refl _)).
    destruct Mz as [_ Mz]. rewrite ub_fin in Mz by easy.
    destruct tu.
    - apply T1. split; [|easy]. rewrite feq_fin by easy. apply Req_bool_true. lra.
    - assert (HB' : B \/ B2R (snd z) <> 0).
      { destruct HB as [HB|[HB _]]; [now left|right]. replace (B2R (snd z)) with (B2R (fst x)) by lra. auto. }
      pose proof (Hab _ (U2 HB' eq_refl E)). lra. }
  destruct K as (j & Ij & Hj).
  assert (Mj : mem j x). { split; [easy|]. apply ub_mono with r; [apply Mx|]. pose proof (Hab j Ij). lra. }
  pose proof (Ez' j (conj Ij Mj)) as Zj. split.
  + apply lb_mono with j; [apply Zj|]. pose proof (Hab j Ij). lra.
  + apply (proj2 G2); [|apply Mz]. intros k Ik.
    destruct (Rlt_or_le k j) as [L|L]; [apply ub_mono with j; [apply Zj|lra]|].
    apply Ez'. split; [easy|]. split; [now apply lb_mono with j|].
    apply ub_mono with r; [apply Mx|]. pose proof (Hab k Ik). lra.
- assert (Hab : forall j, I j -> r < j).
  { intros j Ij. destruct (Rlt_or_le r j) as [L|L]; [easy|]. destruct Hlow. now exists j. }
  assert (K : exists j, I j /\ ub (snd x) j).
  { apply Classical_Prop.NNPP. intros NK.
    assert (Fx : is_finite (snd x) = true).
    { destruct Mx as [_ Mx]. destruct (snd x) as [|[]| |] eqn:Ex; simpl in Mx; try easy.
      destruct NK. exists i0. split; [easy|reflexivity]. }
    assert (Q : forall j, I j -> lb (snd x) j).
    { intros j Ij. rewrite lb_fin by easy. apply Rnot_lt_le. intros L. apply NK. exists j. split; [easy|].
      rewrite ub_fin by easy. lra. }
    pose proof (proj2 G1 (snd x) Q r (proj1 Mz)) as Hr. rewrite lb_fin in Hr by easy.
    destruct Mx as [_ Mx]. rewrite ub_fin in Mx by easy.
    destruct (glow_view _ _ _ G1 Ni) as [E|E].
    { pose proof (proj2 G1 (snd x) Q (B2R (snd x) - 1)) as Q'. rewrite E in Q'. specialize (Q' eq_refl).
      rewrite lb_fin in Q' by easy. lra. }
    pose proof (proj2 G1 (snd x) Q (B2R (fst z))) as Q'. rewrite !lb_fin in Q' by easy. specialize (Q' (Rle_refl _)).
    destruct Mz as [Mz _]. rewrite lb_fin in Mz by easy.
    destruct tl.
    - apply T2. split; [|easy]. rewrite feq_fin by easy. apply Req_bool_true. lra.
    - assert (HB' : B \/ B2R (fst z) <> 0).
      { destruct HB as [HB|[_ HB]]; [now left|right]. replace (B2R (fst z)) with (B2R (snd x)) by lra. auto. }
      pose proof (Hab _ (L2 HB' eq_refl E)). lra. }
  destruct K as (j & Ij & Hj).
  assert (Mj : mem j x). { split; [|easy]. apply lb_mono with r; [apply Mx|]. pose proof (Hab j Ij). lra. }
  pose proof (Ez' j (conj Ij Mj)) as Zj. split.
  + apply (proj2 G1); [|apply Mz]. intros k Ik.
    destruct (Rlt_or_le j k) as [L|L]; [apply lb_mono with j; [apply Zj|lra]|].
    apply Ez'. split; [easy|]. split; [|now apply ub_mono with j].
    apply lb_mono with r; [apply Mx|]. pose proof (Hab k Ik). lra.
  + apply ub_mono with j; [apply Zj|]. pose proof (Hab j Ij). lra.
Qed.

(** Hulls of unions. *)
Lemma hull_union (z1 z2 : itv F) (S1 S2 S : R -> Prop) : tightest S1 z1 -> tightest S2 z2 ->
  (forall r, S r <-> S1 r \/ S2 r) -> computes_tightest (convex_hull z1 z2) S.
Proof.
intros (W1 & E1 & M1) (W2 & E2 & M2) H.
destruct (hull_tightest z1 z2 W1 W2) as (w & Hw & Ww & Ew & Mw).
exists w. split; [easy|]. split; [easy|split].
- intros r Sr. apply H in Sr. apply Ew. destruct Sr; [left; now apply E1|right; now apply E2].
- intros w' Ww' Ew'. apply Mw; [easy|]. intros r [Hr|Hr].
  + apply (M1 w' Ww'); [|easy]. intros s Hs. apply Ew', H. now left.
  + apply (M2 w' Ww'); [|easy]. intros s Hs. apply Ew', H. now right.
Qed.
Lemma hull_of_tight z1 z2 x (S1 S2 S : R -> Prop) : wf x -> wf z1 -> wf z2 ->
  (forall y, wf y -> (forall r, mem r y <-> mem r z1 /\ mem r x) -> tightest S1 y) ->
  (forall y, wf y -> (forall r, mem r y <-> mem r z2 /\ mem r x) -> tightest S2 y) ->
  (forall r, S r <-> S1 r \/ S2 r) -> computes_tightest (hull_of z1 z2 x) S.
Proof.
intros Wx W1 W2 H1 H2 H. unfold hull_of.
destruct (intersection_exact z1 x W1 Wx) as (i & -> & Wi & Ei).
destruct (intersection_exact z2 x W2 Wx) as (j & -> & Wj & Ej). mreds.
apply hull_union with S1 S2; auto.
Qed.
Lemma hull_of_encl z1 z2 x (S : R -> Prop) : wf x -> wf z1 -> wf z2 ->
  (forall r, S r -> mem r x /\ (mem r z1 \/ mem r z2)) -> computes_enclosure (hull_of z1 z2 x) S.
Proof.
intros Wx W1 W2 H. unfold hull_of.
destruct (intersection_exact z1 x W1 Wx) as (i & -> & Wi & Ei).
destruct (intersection_exact z2 x W2 Wx) as (j & -> & Wj & Ej). mreds.
destruct (hull_tightest i j Wi Wj) as (w & Hw & Ww & Ew & _).
exists w. split; [easy|]. split; [easy|]. intros r Sr. apply Ew. destruct (H r Sr) as [Mx [M|M]].
- left. now apply Ei.
- right. now apply Ej.
Qed.
End C.
