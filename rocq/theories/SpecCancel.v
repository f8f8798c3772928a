(** * Specification of the cancellative operations

    The result is described through the set equation it has to solve. *)
From Coq Require Import Reals.
From Verif Require Import Fmt Spec SpecRel.
Local Open Scope R_scope.

Section S.
Context {F G : fmt}.
(** The real interval [a, b] solves  y + [a, b] = x. *)
Definition solves_minus (x : itv F) (y : itv G) (a b : R) : Prop :=
  a <= b /\ forall t, mem t x <-> exists r z, mem r y /\ a <= z <= b /\ t = r + z.
(** The real interval [a, b] solves  [a, b] - y = x. *)
Definition solves_plus (x : itv F) (y : itv G) (a b : R) : Prop :=
  a <= b /\ forall t, mem t x <-> exists r z, mem r y /\ a <= z <= b /\ t = z - r.
End S.
Definition segment (a b : R) : R -> Prop := fun r => a <= r <= b.
Definition set_bounded {F : fmt} (x : itv F) : Prop := exists B, forall r, mem r x -> Rabs r <= B.
(** No bound of the interval is the largest finite number of the format or its negative. *)
Definition not_max {F : fmt} (a : Flocq.IEEE754.BinarySingleNaN.binary_float (prec F) (emax F)) : Prop :=
  Rabs (Flocq.IEEE754.BinarySingleNaN.B2R a) < Flocq.IEEE754.BinarySingleNaN.B2R (@fmaxv F).

From Verif Require Import Exc SpecApi.
(** What a cancellative operation with solution predicate [sol] has to return
    whenever a solution exists, an operand is unbounded or an operand is empty. *)
Definition cancel_spec {T F G : fmt} (sol : R -> R -> Prop) (x : itv F) (y : itv G) (m : M (itv T)) : Prop :=
  (s_nonempty x -> set_bounded x -> forall a b, sol a b -> computes_tightest m (segment a b)) /\
  (~ set_bounded x \/ ~ set_bounded y -> returns m (fminf, finf)) /\
  (~ s_nonempty x -> set_bounded y -> returns m empty_rep) /\
  (s_nonempty x -> ~ s_nonempty y -> returns m (fminf, finf)).
(** ... and when there is no solution although both operands are bounded and not empty. *)
Definition no_solution_entire {T F G : fmt} (sol : R -> R -> Prop) (x : itv F) (y : itv G) (m : M (itv T)) : Prop :=
  s_nonempty x -> s_nonempty y -> set_bounded x -> set_bounded y -> (forall a b, ~ sol a b) -> returns m (fminf, finf).
