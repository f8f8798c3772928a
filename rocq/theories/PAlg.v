(** * Proofs: laws between operations *)
From Coq Require Import ZArith NArith Reals Bool Lia Lra Psatz List.
From Flocq Require Import Core.Core IEEE754.BinarySingleNaN.
From Verif Require Import Fmt Spec FloatFacts Exc Deco SpecApi SpecElem SpecDeco SpecNum MBase PBase MBool MArith MElem MPow MTrig PArith PMul PFma PDiv PUnary PElem PElem2
  PConv PBool PSetop PDec PPown PPow PTrigT PRevEven SpecAlg.
Local Open Scope R_scope.
Local Open Scope m_scope.

Section G.
Context {F : fmt}.
Implicit Types x y z w : itv F.

Lemma agree_of (m n : M (itv F)) S S' : computes_tightest m S -> computes_tightest n S' -> (forall t, S t <-> S' t) -> agree m n.
Proof.
intros (z & H1 & H2) (w & H3 & H4) E. exists z, w. split; [easy|]. split; [easy|]. apply tightest_unique with (1 := H2). revert H4. apply tightest_ext.
intros t. symmetry. apply E.
Qed.
Lemma refines_of (m n : M (itv F)) S S' : computes_tightest m S -> computes_enclosure n S' -> (forall t, S t -> S' t) -> refines m n.
Proof.
intros (z & H1 & H2) (w & H3 & W & H4) E. exists z, w. split; [easy|]. split; [easy|]. apply H2; [easy|]. intros t Ht. auto.
Qed.
Lemma ce_of_ct (m : M (itv F)) S : computes_tightest m S -> computes_enclosure m S.
Proof. intros (z & H1 & H2 & H3 & _). now exists z. Qed.
(** Enclosures compose. *)
Lemma ce_bind (m : M (itv F)) (k : itv F -> M (itv F)) S S' : computes_enclosure m S ->
  (forall y, wf y -> encloses S y -> computes_enclosure (k y) S') -> computes_enclosure (y <- m; k y) S'.
Proof.
intros (y & H1 & W & H2) H. apply returns_eq in H1. rewrite H1. mreds. now apply H.
Qed.
Lemma ce_weaken (m : M (itv F)) (S S' : R -> Prop) : computes_enclosure m S -> (forall t, S' t -> S t) -> computes_enclosure m S'.
Proof. intros (z & H1 & W & H2) H. exists z. split; [easy|]. split; [easy|]. intros t Ht. auto. Qed.

(** Negation is exact. *)
Lemma neg_exact x : wf x -> exists y, neg x = ret y /\ wf y /\ forall r, mem r y <-> mem (- r) x.
Proof.
intros Wx. destruct (neg_tightest x Wx) as (y & H1 & H2). apply returns_eq in H1. exists y. split; [easy|]. split; [apply H2|].
assert (E : forall r, mem r (fneg (snd x), fneg (fst x)) <-> mem (- r) x).
{ intros r. unfold mem. cbn [fst snd]. rewrite lb_fneg, ub_fneg. tauto. }
assert (W : wf (fneg (snd x), fneg (fst x)) \/ forall r, ~ mem r x).
{ destruct Wx as [->|[r Hr]]; [right; intros r [H _]; exact (False_ind _ H)|]. left. right. exists (- r). apply E. now rewrite Ropp_involutive. }
intros r. split.
- intros Hr. destruct W as [W|W].
  + apply E. apply H2; [easy| |easy]. intros t (s & Hs & _ & ->). apply E. now rewrite Ropp_involutive.
  + exfalso. assert (K : included y (@empty_rep F)). { apply H2; [now left|]. intros t (s & Hs & _). now destruct (W s). }
    apply K in Hr. destruct Hr as [Hr _]. exact Hr.
- intros Hr. apply (proj1 (proj2 H2)). exists (- r). split; [easy|]. split; [easy|]. ring.
Qed.
Lemma tightest_neg (S : R -> Prop) z y : tightest S z -> wf y -> (forall r, mem r y <-> mem (- r) z) -> tightest (fun t => S (- t)) y.
Proof.
intros (Wz & E & M) Wy H. split; [easy|]. split; [intros t Ht; apply H; now apply E|].
intros w Ww Ew t Ht. apply H in Ht. destruct (neg_exact w Ww) as (w' & _ & Ww' & Hw').
assert (K : included z w'). { apply M; [easy|]. intros s Hs. apply Hw'. apply Ew. now rewrite Ropp_involutive. }
apply K in Ht. apply Hw' in Ht. now rewrite Ropp_involutive in Ht.
Qed.
Lemma ct_neg (m : M (itv F)) S : computes_tightest m S -> computes_tightest (z <- m; neg z) (fun t => S (- t)).
Proof.
intros (z & H1 & H2). apply returns_eq in H1. rewrite H1. mreds. destruct (neg_exact z (proj1 H2)) as (y & E & W & H). rewrite E.
exists y. split; [easy|]. now apply (tightest_neg S z).
Qed.
(** An operation after a negation. *)
Lemma agree_neg_in (op : itv F -> M (itv F)) n x S S' : wf x -> (forall y, wf y -> computes_tightest (op y) (S y)) -> computes_tightest n S' ->
  (forall y t, (forall r, mem r y <-> mem (- r) x) -> S y t <-> S' t) -> agree (y <- neg x; op y) n.
Proof.
intros Wx Hop Hn H. destruct (neg_exact x Wx) as (y & E & W & Hy). rewrite E. mreds. apply (agree_of _ _ (S y) S'); auto.
Qed.
Lemma im1_neg (D : R -> Prop) (f : R -> R) x y t : (forall r, mem r y <-> mem (- r) x) -> image1 D f y t <-> image1 (fun r => D (- r)) (fun r => f (- r)) x t.
Proof.
intros H. split; intros (r & Hr & Dr & ->).
- exists (- r). rewrite Ropp_involutive. split; [now apply H|easy].
- exists (- r). split; [apply H; now rewrite Ropp_involutive|easy].
Qed.
(** Even and odd functions. *)
Lemma even_law (op : itv F -> M (itv F)) D f x : wf x -> (forall y, wf y -> computes_tightest (op y) (image1 D f y)) ->
  (forall r, D r -> D (- r)) -> (forall r, D r -> f (- r) = f r) -> agree (y <- neg x; op y) (op x).
Proof.
intros Wx Hop HD Hf. apply (agree_neg_in op (op x) x (image1 D f) (image1 D f x) Wx Hop (Hop x Wx)).
intros y t Hy. rewrite (im1_neg D f x y t Hy). assert (D' : forall r, D (- r) -> D r) by (intros r Dr; rewrite <- (Ropp_involutive r); auto).
split; intros (r & Hr & Dr & ->); exists r; repeat split; try apply Hr; auto. symmetry. now apply Hf.
Qed.
Lemma odd_law (op : itv F -> M (itv F)) D f x : wf x -> (forall y, wf y -> computes_tightest (op y) (image1 D f y)) ->
  (forall r, D r -> D (- r)) -> (forall r, D r -> f (- r) = - f r) -> agree (y <- neg x; op y) (z <- op x; neg z).
Proof.
intros Wx Hop HD Hf. apply (agree_neg_in op _ x (image1 D f) _ Wx Hop (ct_neg _ _ (Hop x Wx))).
intros y t Hy. rewrite (im1_neg D f x y t Hy). assert (D' : forall r, D (- r) -> D r) by (intros r Dr; rewrite <- (Ropp_involutive r); auto).
split; intros (r & Hr & Dr & E); exists r; repeat split; try apply Hr; auto.
- rewrite E, Hf by auto. ring.
- rewrite <- (Ropp_involutive t), E, Hf by auto. ring.
Qed.
Lemma comm_law (op : itv F -> itv F -> M (itv F)) f x y : wf x -> wf y -> (forall x y, wf x -> wf y -> computes_tightest (op x y) (image2 everywhere2 f x y)) ->
  (forall r s, f r s = f s r) -> agree (op x y) (op y x).
Proof.
intros Wx Wy H C. apply (agree_of _ _ _ _ (H x y Wx Wy) (H y x Wy Wx)). intros t. split; intros (r & s & Hr & Hs & _ & ->); exists s, r; repeat split; try apply Hr; try apply Hs; apply C.
Qed.
End G.
