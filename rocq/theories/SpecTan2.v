(** * Arguments of the tangent whose pole cannot be seen from the bounds *)
From Coq Require Import ZArith Reals.
From Flocq Require Import Core.Core IEEE754.BinarySingleNaN.
From Verif Require Import Fmt Spec.
Local Open Scope R_scope.

(** Bounded, a pole inside, not wider than some number of the format [G] below pi, and no two numbers of
    [G] between the tangents of the bounds (which are in reverse order, because of the pole). *)
Definition pole_hidden (G : fmt) {F : fmt} (x : itv F) : Prop :=
  bounded_rep x /\ (exists p, mem p x /\ cos p = 0) /\
  (exists p : float G, is_finite p = true /\ B2R p <= PI /\ B2R (snd x) - B2R (fst x) <= B2R p) /\
  ~ exists f g : float G, is_finite f = true /\ is_finite g = true /\
      tan (B2R (snd x)) <= B2R f /\ B2R f < B2R g /\ B2R g <= tan (B2R (fst x)).
