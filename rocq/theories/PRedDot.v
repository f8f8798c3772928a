(** * Proofs: the scalar product of non-negative numbers is monotone *)
From Coq Require Import ZArith Reals Bool List Lia Lra.
From Flocq Require Import Core.Core IEEE754.BinarySingleNaN.
From Verif Require Import Fmt FloatFacts Exc SpecRound MMpfr PMpfr PMpfr2 MRed SpecRed PRed SpecRedPerm SpecRedX PRedX PRedPerm PRedOrd PRedMono.
Import ListNotations.
Local Open Scope R_scope.

Section D.
Context {F : fmt}.
Lemma nonneg_value (x : float F) : fle f0 x = true -> value x = Infinite false \/ exists r, value x = Real r /\ 0 <= r.
Proof.
intros H. apply fle_xle in H. cbn in H. destruct (value x) as [|[]|r]; try easy; [now left|right; now exists r].
Qed.
Lemma limited_undefined u : limited F Undefined u -> u = Undefined.
Proof. now inversion 1. Qed.
Lemma product_mono (a a' b b' : float F) t t' : fle f0 a = true -> fle a a' = true -> fle f0 b = true -> fle b b' = true ->
  product (value a) (value b) t -> product (value a') (value b') t' -> t = Undefined \/ t' = Undefined \/ xle t t'.
Proof.
intros Pa La Pb Lb. apply fle_xle in La. apply fle_xle in Lb. revert La Lb.
destruct (nonneg_value a Pa) as [->|(r & -> & Hr)], (nonneg_value b Pb) as [->|(s & -> & Hs)]; intros La Lb.
- apply xle_top in La. apply xle_top in Lb. rewrite La, Lb. intros P P'. inversion P; inversion P'; subst. right; right. easy.
- apply xle_top in La. rewrite La. destruct (value b') as [|[]|s']; cbn in Lb; try easy; intros P P'; inversion P; inversion P'; subst; try lra; auto; right; right; easy.
- apply xle_top in Lb. rewrite Lb. destruct (value a') as [|[]|r']; cbn in La; try easy; intros P P'; inversion P; inversion P'; subst; try lra; auto; right; right; easy.
- destruct (value a') as [|[]|r'], (value b') as [|[]|s']; cbn in La, Lb; try easy; intros P P'; inversion P; inversion P'; subst; try lra; auto; right; right; try easy.
  cbn. apply Rmult_le_compat; easy.
Qed.
Lemma term_mono (a a' b b' : float F) u u' : fle f0 a = true -> fle a a' = true -> fle f0 b = true -> fle b b' = true ->
  term (a, b) u -> term (a', b') u' -> u = Undefined \/ u' = Undefined \/ xle u u'.
Proof.
intros H1 H2 H3 H4 (t & P & L) (t' & P' & L'). cbn [fst snd] in P, P'.
destruct (product_mono a a' b b' t t' H1 H2 H3 H4 P P') as [->|[->|K]].
- left. now apply limited_undefined.
- right; left. now apply limited_undefined.
- right; right. exact (limited_mono t t' u u' K L L').
Qed.
Definition below (x y : float F) : Prop := fle f0 x = true /\ fle x y = true.
Lemma terms_mono a a' b b' us us' : Forall2 below a a' -> Forall2 below b b' ->
  Forall2 term (combine a b) us -> Forall2 term (combine a' b') us' -> In Undefined us \/ In Undefined us' \/ Forall2 xle us us'.
Proof.
intros A. revert b b' us us'. induction A as [|x x' a a' [X1 X2] A IH]; intros b b' us us' B K K'.
- inversion K; inversion K'; subst. right; right. constructor.
- destruct B as [|y y' b b' [Y1 Y2] B]; cbn in K, K'; inversion K; inversion K'; subst; [right; right; constructor|].
  destruct (IH b b' l' l'0 B ltac:(easy) ltac:(easy)) as [I|[I|I]]; [left; now right|right; left; now right|].
  match goal with H : term (x, y) ?u, H' : term (x', y') ?v |- _ => destruct (term_mono x x' y y' u v X1 X2 Y1 Y2 H H') as [->|[->|Q]] end;
  [left; now left|right; left; now left|right; right; now constructor].
Qed.
Lemma dot_mono a a' b b' rnd E E' : Forall2 below a a' -> Forall2 below b b' -> (length a <= length b)%nat ->
  exists z E1 z' E1', dot a b rnd E = Ret (z, E1) /\ dot a' b' rnd E' = Ret (z', E1') /\ (z = fnan \/ z' = fnan \/ fle z z' = true).
Proof.
intros A B L. assert (FL : forall c d, Forall2 below c d -> length c = length d) by (induction 1; cbn; congruence).
pose proof (FL _ _ A) as LA. pose proof (FL _ _ B) as LB.
destruct (terms_ex (combine a b)) as [us K]. destruct (terms_ex (combine a' b')) as [us' K'].
destruct (dot_terms a b us rnd E L K) as (z & E1 & D & R). destruct (dot_terms a' b' us' rnd E' ltac:(lia) K') as (z' & E1' & D' & R').
exists z, E1, z', E1'. split; [easy|]. split; [easy|]. destruct (terms_mono a a' b b' us us' A B K K') as [I|[I|I]].
- left. exact (R Undefined (total_nan _ I)).
- right; left. exact (R' Undefined (total_nan _ I)).
- now apply (reduces_mono rnd us us').
Qed.
End D.
