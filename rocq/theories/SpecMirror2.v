(** * Specification: answers for negated operands *)
From Verif Require Import Fmt Spec SpecAgree MOverlap.

(** The state after both operands are reflected in zero. *)
Definition reflected (o : ostate) : ostate :=
  match o with
  | o_undefined => o_undefined | o_both_empty => o_both_empty
  | o_first_empty => o_first_empty | o_second_empty => o_second_empty
  | o_before => o_after | o_after => o_before
  | o_meets => o_met_by | o_met_by => o_meets
  | o_overlaps => o_overlapped_by | o_overlapped_by => o_overlaps
  | o_starts => o_finishes | o_finishes => o_starts
  | o_contained_by => o_contained_by | o_contains => o_contains
  | o_finished_by => o_started_by | o_started_by => o_finished_by
  | o_equal => o_equal
  end.

(** Two numbers that differ in the sign (zeros of any sign are opposite). *)
Definition opposite {F : fmt} (v w : float F) : Prop := num_eq v (fneg w).
