(** * Specification vocabulary

    Everything here is independent of the algorithms of the library: the set of
    reals denoted by a pair of bounds, which pairs are well formed, and what it
    means for an interval to be the tightest one around a set of reals. *)

From Coq Require Import ZArith Reals Bool.
From Flocq Require Import Core.Core IEEE754.BinarySingleNaN.
From Verif Require Import Fmt.

Local Open Scope R_scope.

(** The bare interval representation: a pair of bounds. *)
Definition itv (F : fmt) : Type := (float F * float F)%type.

Section Spec.
Context {F : fmt}.

(** [lb l r]: the lower bound [l] admits the real number [r]. *)
Definition lb (l : float F) (r : R) : Prop :=
  match l with
  | B754_nan => False
  | B754_infinity s => s = true
  | _ => B2R l <= r
  end.

(** [ub u r]: the upper bound [u] admits the real number [r]. *)
Definition ub (u : float F) (r : R) : Prop :=
  match u with
  | B754_nan => False
  | B754_infinity s => s = false
  | _ => r <= B2R u
  end.

(** The real [r] belongs to the interval [x]. *)
Definition mem (r : R) (x : itv F) : Prop := lb (fst x) r /\ ub (snd x) r.

(** The encoding of the empty set. *)
Definition empty_rep : itv F := (B754_nan, B754_nan).

(** Well-formed representations: the empty encoding or a non-empty set. *)
Definition wf (x : itv F) : Prop := x = empty_rep \/ exists r, mem r x.

(** Set-theoretic notions. *)
Definition included (x y : itv F) : Prop := forall r, mem r x -> mem r y.
Definition same_set (x y : itv F) : Prop := forall r, mem r x <-> mem r y.
Definition encloses (S : R -> Prop) (z : itv F) : Prop := forall r, S r -> mem r z.

(** Both bounds are finite numbers. *)
Definition bounded_rep (x : itv F) : Prop :=
  is_finite (fst x) = true /\ is_finite (snd x) = true.

(** [z] is the tightest interval with bounds in the format around [S]. *)
Definition tightest (S : R -> Prop) (z : itv F) : Prop :=
  wf z /\ encloses S z /\
  forall z', wf z' -> encloses S z' -> included z z'.

End Spec.

(** Images of point functions over intervals. *)
Definition image1 {F} (dom : R -> Prop) (f : R -> R) (x : itv F) : R -> Prop :=
  fun t => exists r, mem r x /\ dom r /\ t = f r.
Definition image2 {F G} (dom : R -> R -> Prop) (f : R -> R -> R) (x : itv F) (y : itv G) : R -> Prop :=
  fun t => exists r s, mem r x /\ mem s y /\ dom r s /\ t = f r s.
Definition image3 {F G H} (f : R -> R -> R -> R) (x : itv F) (y : itv G) (z : itv H) : R -> Prop :=
  fun t => exists r s u, mem r x /\ mem s y /\ mem u z /\ t = f r s u.
Definition everywhere : R -> Prop := fun _ => True.
Definition everywhere2 : R -> R -> Prop := fun _ _ => True.
