(** * Specification: exactly what the reverse integer power computes *)
From Coq Require Import ZArith Reals Bool.
From Flocq Require Import Core.Core IEEE754.BinarySingleNaN.
From Verif Require Import Fmt Spec SpecElem SpecRev.
Local Open Scope R_scope.

(** The [t] whose power lies in [c]. *)
Definition solves {F} (p : Z) (c : itv F) (t : R) : Prop := pown_dom p t /\ mem (pownR p t) c.
(** Zero as the limit of solutions: a negative exponent and [c] unbounded above or, for odd exponents, below. *)
Definition limit_zero {F} (p : Z) (c : itv F) : Prop :=
  (forall B, exists r, mem r c /\ B < r) \/ (Z.odd p = true /\ forall B, exists r, mem r c /\ r < B).
(** The tightest intervals of the solutions of either sign, cut with [x]. *)
Definition cut_sides {F} (p : Z) (c x z : itv F) : Prop :=
  exists z1 z2 : itv F, tightest (fun t => t <= 0 /\ solves p c t) z1 /\ tightest (fun t => 0 <= t /\ solves p c t) z2 /\
  tightest (fun t => mem t x /\ (mem t z1 \/ mem t z2)) z.
(** For mixed types: the sides are intervals of the work format [W]. *)
Definition cut_sides_mixed {F G T} (W : fmt) (p : Z) (c : itv F) (x : itv G) (z : itv T) : Prop :=
  exists z1 z2 : itv W, tightest (fun t => t <= 0 /\ solves p c t) z1 /\ tightest (fun t => 0 <= t /\ solves p c t) z2 /\
  tightest (fun t => mem t x /\ (mem t z1 \/ mem t z2)) z.
