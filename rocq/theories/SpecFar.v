(** * Specification: bounds at which the reverse trigonometric functions lose count

    The library divides a bound by pi rounded down to the format and keeps the low 63 bits of the
    quotient, so nonzero multiples of 2^63 times that number look like zero. *)
From Coq Require Import ZArith Reals.
From Flocq Require Import Core.Core IEEE754.BinarySingleNaN.
From Verif Require Import Fmt Spec.
Local Open Scope R_scope.

(** [p] is the largest number of the format not above pi. *)
Definition trunc_pi (F : fmt) (p : R) : Prop :=
  (exists f : float F, is_finite f = true /\ p = B2R f) /\ p <= PI /\
  forall f : float F, is_finite f = true -> B2R f <= PI -> B2R f <= p.
(** No bound of [x] is such a multiple (below zero for the lower, above zero for the upper bound). *)
Definition apart (W : fmt) {F} (x : itv F) : Prop := forall p B, trunc_pi W p -> (0 < B)%Z ->
  (is_finite (fst x) = true -> B2R (fst x) <> - (IZR (2 ^ 63 * B) * p)) /\
  (is_finite (snd x) = true -> B2R (snd x) <> IZR (2 ^ 63 * B) * p).
