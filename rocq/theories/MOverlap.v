(** * Model: the overlapping state

    C++ side: mpfr_bin_ieee754_flavor_rec_overlap_impl.hpp and
    p1788/overlapping/overlapping.hpp:43-62. *)

From Coq Require Import ZArith NArith Reals Bool.
From Flocq Require Import Core.Core IEEE754.BinarySingleNaN.
From Verif Require Import Fmt Spec Exc Deco MBase MBool.

Local Open Scope m_scope.

(** overlapping.hpp:43-62 [enum class overlapping_state : uint32_t]. *)
Inductive ostate : Type :=
| o_undefined | o_both_empty | o_first_empty | o_second_empty
| o_before | o_meets | o_overlaps | o_starts | o_contained_by | o_finishes | o_equal
| o_finished_by | o_contains | o_started_by | o_overlapped_by | o_met_by | o_after.

(** The enumerator values (bits). *)
Definition ostate_code (o : ostate) : N :=
  match o with
  | o_undefined => 0
  | o_both_empty => 1 | o_first_empty => 2 | o_second_empty => 4
  | o_before => 8 | o_meets => 16 | o_overlaps => 32 | o_starts => 64
  | o_contained_by => 128 | o_finishes => 256 | o_equal => 512
  | o_finished_by => 1024 | o_contains => 2048 | o_started_by => 4096
  | o_overlapped_by => 8192 | o_met_by => 16384 | o_after => 32768
  end.

Section O.
Context {F G : fmt}.

(** rec_overlap_impl.hpp:53-149 [overlap(representation, representation_type<T_>)];
    the same-type version (42-49) calls it with T_ = T. *)
Definition overlap (x : itv F) (y : itv G) : M ostate :=
  mif (mnot (is_valid x) ||| mnot (is_valid y)) (ret o_undefined)
  (mif (is_empty x) (mif (is_empty y) (ret o_both_empty) (ret o_first_empty))
  (mif (is_empty y) (ret o_second_empty)
  (ret (
   if fle2 (fst y) (snd x) then
     if fle2 (snd x) (snd y) then
       if feq2 (fst x) (fst y) then
         if flt2 (snd x) (snd y) then o_starts else o_equal
       else if feq2 (snd x) (snd y) then
         if flt2 (fst x) (fst y) then o_finished_by else o_finishes
       else if flt2 (fst y) (snd x) then
         if flt2 (fst x) (fst y) then o_overlaps else o_contained_by
       else o_meets
     else if fle2 (fst x) (snd y) then
       if fle2 (fst x) (fst y) then
         if flt2 (fst x) (fst y) then o_contains else o_started_by
       else if flt2 (fst x) (snd y) then o_overlapped_by
       else o_met_by
     else o_after
   else o_before)))).

(** rec_overlap_impl.hpp:152-176, decorated. *)
Definition overlap_dec (x : ditv F) (y : ditv G) : M ostate :=
  mif (mnot (is_valid_dec x) ||| mnot (is_valid_dec y) ||| is_nai x ||| is_nai y) (ret o_undefined)
  (overlap (fst x) (fst y)).
End O.
