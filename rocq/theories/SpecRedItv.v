(** * Specification: the sum of a list of intervals *)
From Coq Require Import Reals List.
From Verif Require Import Fmt Spec Exc MBase MArith.
Import ListNotations.
Local Open Scope R_scope.
Local Open Scope m_scope.

(** The sums of one member of every interval. *)
Definition sums {F : fmt} (xs : list (itv F)) : R -> Prop :=
  fun t => exists rs, Forall2 (fun r x => mem r x) rs xs /\ t = fold_right Rplus 0 rs.
(** A program that adds the intervals one by one. *)
Fixpoint adds {F : fmt} (z : itv F) (xs : list (itv F)) : M (itv F) :=
  match xs with [] => ret z | x :: xs => (a <- add z x; adds a xs) end.
