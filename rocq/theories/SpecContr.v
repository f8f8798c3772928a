(** * Specification: reverse operations as contractors *)
From Coq Require Import ZArith Reals.
From Flocq Require Import Core.Core IEEE754.BinarySingleNaN.
From Verif Require Import Fmt Spec Exc SpecApi.
Local Open Scope R_scope.

(** The results of a reverse operation: [res c x z] if it returns [z] for the constraint [c] and the box [x]. *)
Definition of_op {F} (op : itv F -> itv F -> M (itv F)) (c x z : itv F) : Prop := returns (op c x) z.
(** An operation that loops: it returns [z] for every sufficient number of rounds. *)
Definition of_loop {F} (op : nat -> itv F -> itv F -> M (itv F)) (c x z : itv F) : Prop :=
  exists k, forall fuel, (k <= fuel)%nat -> returns (op fuel c x) z.

(** The box only shrinks. *)
Definition contracts {F} (res : itv F -> itv F -> itv F -> Prop) : Prop :=
  forall c x, wf c -> wf x -> exists z, res c x z /\ wf z /\ included z x.
(** A second application with the same constraint changes nothing. *)
Definition idempotent {F} (res : itv F -> itv F -> itv F -> Prop) : Prop :=
  forall c x, wf c -> wf x -> exists z z', res c x z /\ res c z z' /\ same_set z' z.
(** A weaker constraint or a larger box gives a larger result. *)
Definition monotone {F} (res : itv F -> itv F -> itv F -> Prop) : Prop :=
  forall c c' x x', wf c -> wf c' -> wf x -> wf x' -> included c c' -> included x x' ->
  exists z z', res c x z /\ res c' x' z' /\ included z z'.
(** The image of the box, taken as the constraint, removes nothing from the boxes with [P]. *)
Definition recovers {F} (P : itv F -> Prop) (fw : itv F -> M (itv F)) (res : itv F -> itv F -> itv F -> Prop) : Prop :=
  forall x, wf x -> P x -> exists c z, returns (fw x) c /\ wf c /\ res c x z /\ same_set z x.
(** Any box. *)
Definition any_box {F} (x : itv F) : Prop := True.
