(** * Specification: solutions near the ends of an interval *)
From Coq Require Import ZArith Reals.
From Flocq Require Import Core.Core IEEE754.BinarySingleNaN.
From Verif Require Import Fmt Spec.

Local Open Scope R_scope.

(** Each finite end of [x] has an element of [S] at a distance of at most 3/2 (about half a
    period of the tangent) inside of it. *)
Definition near_ends {F} (S : R -> Prop) (x : itv F) : Prop :=
  (is_finite (fst x) = true -> exists s, S s /\ s <= B2R (fst x) + 3 / 2) /\
  (is_finite (snd x) = true -> exists s, S s /\ B2R (snd x) - 3 / 2 <= s).
(** [x] is bounded and not wider than 3/2. *)
Definition narrow {F} (x : itv F) : Prop :=
  is_finite (fst x) = true /\ is_finite (snd x) = true /\ B2R (snd x) - B2R (fst x) <= 3 / 2.
