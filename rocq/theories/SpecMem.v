(** * Specification: balanced use of memory *)
From Coq Require Import List Arith.
From Verif Require Import MMem.

(** Addresses not given out yet hold nothing. *)
Definition fresh (h : heap) : Prop := forall a, brk h <= a -> cont h a = None.
(** The same blocks with the same contents. *)
Definition same_blocks (h h' : heap) : Prop := forall a, cont h' a = cont h a.
(** Blocks of [h'] that [h] does not have. *)
Definition left_over (h h' : heap) (a : nat) : Prop := cont h a = None /\ cont h' a <> None.
(** Neither undefined behaviour nor a leak, whether it returns or throws. *)
Definition balanced {A} (m : P A) (h : heap) : Prop :=
  fst (m h) <> Undef /\ (fst (m h) <> Abort -> same_blocks h (snd (m h))).
