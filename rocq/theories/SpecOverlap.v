(** * Specification of the overlapping states

    Point-set definitions following the table "interval-overlapping states" of
    IEEE 1788: quantifier statements about the real members only. *)

From Coq Require Import Reals.
From Verif Require Import Fmt Spec SpecRel MOverlap.
Local Open Scope R_scope.

Section O.
Context {F G : fmt} (x : itv F) (y : itv G).

(** Some member of x is below all members of y / some member of y is below all of x. *)
Definition starts_before := exists a, mem a x /\ forall b, mem b y -> a < b.
Definition starts_after := exists b, mem b y /\ forall a, mem a x -> b < a.
(** Some member of y is above all members of x / conversely. *)
Definition ends_before := exists b, mem b y /\ forall a, mem a x -> a < b.
Definition ends_after := exists a, mem a x /\ forall b, mem b y -> b < a.
(** Neither starts before the other / neither ends after the other. *)
Definition start_together :=
  (forall a, mem a x -> exists b, mem b y /\ b <= a) /\ (forall b, mem b y -> exists a, mem a x /\ a <= b).
Definition end_together :=
  (forall a, mem a x -> exists b, mem b y /\ a <= b) /\ (forall b, mem b y -> exists a, mem a x /\ b <= a).
Definition touch := exists r, mem r x /\ mem r y.
Definition strictly_ordered_pair := exists a b, mem a x /\ mem b y /\ b < a.
Definition strictly_ordered_pair' := exists a b, mem a x /\ mem b y /\ a < b.

Definition overlap_spec (o : ostate) : Prop :=
  match o with
  | o_undefined => False
  | o_both_empty => ~ s_nonempty x /\ ~ s_nonempty y
  | o_first_empty => ~ s_nonempty x /\ s_nonempty y
  | o_second_empty => s_nonempty x /\ ~ s_nonempty y
  | o_before => s_nonempty x /\ s_nonempty y /\ s_strictly_precedes x y
  | o_meets => s_precedes x y /\ touch /\ starts_before /\ ends_before
  | o_overlaps => starts_before /\ ends_before /\ strictly_ordered_pair
  | o_starts => s_nonempty x /\ start_together /\ ends_before
  | o_contained_by => s_nonempty x /\ starts_after /\ ends_before
  | o_finishes => s_nonempty x /\ starts_after /\ end_together
  | o_equal => s_nonempty x /\ s_equal x y
  | o_finished_by => s_nonempty y /\ starts_before /\ end_together
  | o_contains => s_nonempty y /\ starts_before /\ ends_after
  | o_started_by => s_nonempty y /\ start_together /\ ends_after
  | o_overlapped_by => starts_after /\ ends_after /\ strictly_ordered_pair'
  | o_met_by => s_precedes y x /\ touch /\ starts_after /\ ends_after
  | o_after => s_nonempty x /\ s_nonempty y /\ s_strictly_precedes y x
  end.
End O.

(** The state with the operands exchanged. *)
Definition converse (o : ostate) : ostate :=
  match o with
  | o_undefined => o_undefined | o_both_empty => o_both_empty
  | o_first_empty => o_second_empty | o_second_empty => o_first_empty
  | o_before => o_after | o_after => o_before
  | o_meets => o_met_by | o_met_by => o_meets
  | o_overlaps => o_overlapped_by | o_overlapped_by => o_overlaps
  | o_starts => o_started_by | o_started_by => o_starts
  | o_contained_by => o_contains | o_contains => o_contained_by
  | o_finishes => o_finished_by | o_finished_by => o_finishes
  | o_equal => o_equal
  end.
