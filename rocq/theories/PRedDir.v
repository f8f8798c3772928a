(** * Proofs: the directions of rounding of the reductions *)
From Coq Require Import ZArith Reals Bool List.
From Flocq Require Import Core.Core IEEE754.BinarySingleNaN.
From Verif Require Import Fmt Exc SpecRound MMpfr MRed SpecRed PRed SpecRedX PRedX SpecRedPerm.
Import ListNotations.

Lemma direction_mode rnd : direction rnd = get_mpfr_rnd_mode rnd.
Proof. now destruct rnd. Qed.
Section D.
Context {F : fmt}.
Lemma sum_direction (l : list (float F)) rnd E : reduces (direction rnd) (map value l) (fst (sum l rnd E)).
Proof. rewrite direction_mode. apply sum_reduces. Qed.
Lemma sum_abs_direction (l : list (float F)) rnd E : reduces (direction rnd) (map (fun x => absolute (value x)) l) (fst (sum_abs l rnd E)).
Proof. rewrite direction_mode. apply sum_abs_reduces. Qed.
Lemma sum_sqr_direction (l : list (float F)) ts us rnd E :
  Forall2 (fun x t => product (value x) (value x) t) l ts -> Forall2 (limited F) ts us -> reduces (direction rnd) us (fst (sum_sqr l rnd E)).
Proof. rewrite direction_mode. apply sum_sqr_exact. Qed.
Lemma dot_direction (a b : list (float F)) ts us rnd E : (length a <= length b)%nat ->
  Forall2 (fun xy t => product (value (fst xy)) (value (snd xy)) t) (combine a b) ts -> Forall2 (limited F) ts us ->
  exists z E', dot a b rnd E = Ret (z, E') /\ reduces (direction rnd) us z.
Proof. rewrite direction_mode. apply dot_exact. Qed.
End D.
