(** * Specification: laws between operations *)
From Coq Require Import ZArith Reals.
From Flocq Require Import Core.Core IEEE754.BinarySingleNaN.
From Verif Require Import Fmt Spec Exc SpecApi.
Local Open Scope R_scope.

(** Both computations return, and the results denote the same set. *)
Definition agree {F} (m n : M (itv F)) : Prop := exists z w, returns m z /\ returns n w /\ same_set z w.
(** Both return, and the result of [m] is a part of that of [n]. *)
Definition refines {F} (m n : M (itv F)) : Prop := exists z w, returns m z /\ returns n w /\ included z w.
(** The interval [v,v]. *)
Definition is_point {F} (v : R) (y : itv F) : Prop := forall r, mem r y <-> r = v.
