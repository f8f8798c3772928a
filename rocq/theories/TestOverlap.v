(** * The checks of the unit tests in /repo/test/p1788/flavor/infsup/setbased/
    test_mpfr_bin_ieee754_flavor_rec_overlap.cpp, run on the model

    One definition per test case of that file, the number before a check is its
    line there.  These are tests of the model, not proofs about it. *)

From Coq Require Import ZArith NArith Bool List.
From Flocq Require Import IEEE754.BinarySingleNaN.
From Verif Require Import Fmt Spec Exc Deco MBase MBool MArith MElem MDec MNum MCancel MOverlap MClass MRev MRev1 MMixed Ex TestRun.
Import ListNotations.
Local Open Scope N_scope.

(** lines 55-132 *)
Definition minimal_overlap_test : list (N * M bool) := [
  (57, clear_flags);
  (59, (bind (@overlap binary64 binary64 (@empty binary64) (@empty binary64)) (fun v1 => ret (N.eqb (ostate_code v1) (ostate_code o_both_empty)))));
  (60, (bind (@overlap binary64 binary64 (@empty binary64) ((fl binary64 (1) (0)), (fl binary64 (1) (1)))) (fun v1 => ret (N.eqb (ostate_code v1) (ostate_code o_first_empty)))));
  (61, (bind (@overlap binary64 binary64 ((fl binary64 (1) (0)), (fl binary64 (1) (1))) (@empty binary64)) (fun v1 => ret (N.eqb (ostate_code v1) (ostate_code o_second_empty)))));
  (63, (bind (@overlap binary64 binary64 ((@fminf binary64), (fl binary64 (1) (1))) ((fl binary64 (3) (0)), (@finf binary64))) (fun v1 => ret (N.eqb (ostate_code v1) (ostate_code o_before)))));
  (64, (bind (@overlap binary64 binary64 ((@fminf binary64), (fl binary64 (1) (1))) ((fl binary64 (3) (0)), (fl binary64 (1) (2)))) (fun v1 => ret (N.eqb (ostate_code v1) (ostate_code o_before)))));
  (65, (bind (@overlap binary64 binary64 ((fl binary64 (1) (1)), (fl binary64 (1) (1))) ((fl binary64 (3) (0)), (fl binary64 (1) (2)))) (fun v1 => ret (N.eqb (ostate_code v1) (ostate_code o_before)))));
  (66, (bind (@overlap binary64 binary64 ((fl binary64 (1) (0)), (fl binary64 (1) (1))) ((fl binary64 (3) (0)), (fl binary64 (1) (2)))) (fun v1 => ret (N.eqb (ostate_code v1) (ostate_code o_before)))));
  (67, (bind (@overlap binary64 binary64 ((fl binary64 (1) (0)), (fl binary64 (1) (1))) ((fl binary64 (3) (0)), (fl binary64 (3) (0)))) (fun v1 => ret (N.eqb (ostate_code v1) (ostate_code o_before)))));
  (68, (bind (@overlap binary64 binary64 ((fl binary64 (1) (1)), (fl binary64 (1) (1))) ((fl binary64 (3) (0)), (fl binary64 (3) (0)))) (fun v1 => ret (N.eqb (ostate_code v1) (ostate_code o_before)))));
  (69, (bind (@overlap binary64 binary64 ((fl binary64 (1) (1)), (fl binary64 (1) (1))) ((fl binary64 (3) (0)), (@finf binary64))) (fun v1 => ret (N.eqb (ostate_code v1) (ostate_code o_before)))));
  (71, (bind (@overlap binary64 binary64 ((@fminf binary64), (fl binary64 (1) (1))) ((fl binary64 (1) (1)), (fl binary64 (3) (0)))) (fun v1 => ret (N.eqb (ostate_code v1) (ostate_code o_meets)))));
  (72, (bind (@overlap binary64 binary64 ((fl binary64 (1) (0)), (fl binary64 (1) (1))) ((fl binary64 (1) (1)), (fl binary64 (3) (0)))) (fun v1 => ret (N.eqb (ostate_code v1) (ostate_code o_meets)))));
  (73, (bind (@overlap binary64 binary64 ((fl binary64 (1) (0)), (fl binary64 (1) (1))) ((fl binary64 (1) (1)), (@finf binary64))) (fun v1 => ret (N.eqb (ostate_code v1) (ostate_code o_meets)))));
  (75, (bind (@overlap binary64 binary64 ((fl binary64 (1) (0)), (fl binary64 (1) (1))) ((fl binary64 (3) (-1)), (fl binary64 (5) (-1)))) (fun v1 => ret (N.eqb (ostate_code v1) (ostate_code o_overlaps)))));
  (77, (bind (@overlap binary64 binary64 ((fl binary64 (1) (0)), (fl binary64 (1) (1))) ((fl binary64 (1) (0)), (@finf binary64))) (fun v1 => ret (N.eqb (ostate_code v1) (ostate_code o_starts)))));
  (78, (bind (@overlap binary64 binary64 ((fl binary64 (1) (0)), (fl binary64 (1) (1))) ((fl binary64 (1) (0)), (fl binary64 (3) (0)))) (fun v1 => ret (N.eqb (ostate_code v1) (ostate_code o_starts)))));
  (79, (bind (@overlap binary64 binary64 ((fl binary64 (1) (0)), (fl binary64 (1) (0))) ((fl binary64 (1) (0)), (fl binary64 (3) (0)))) (fun v1 => ret (N.eqb (ostate_code v1) (ostate_code o_starts)))));
  (81, (bind (@overlap binary64 binary64 ((fl binary64 (1) (0)), (fl binary64 (1) (1))) ((@fminf binary64), (@finf binary64))) (fun v1 => ret (N.eqb (ostate_code v1) (ostate_code o_contained_by)))));
  (82, (bind (@overlap binary64 binary64 ((fl binary64 (1) (0)), (fl binary64 (1) (1))) ((@fminf binary64), (fl binary64 (3) (0)))) (fun v1 => ret (N.eqb (ostate_code v1) (ostate_code o_contained_by)))));
  (83, (bind (@overlap binary64 binary64 ((fl binary64 (1) (0)), (fl binary64 (1) (1))) ((@f0 binary64), (fl binary64 (3) (0)))) (fun v1 => ret (N.eqb (ostate_code v1) (ostate_code o_contained_by)))));
  (84, (bind (@overlap binary64 binary64 ((fl binary64 (1) (1)), (fl binary64 (1) (1))) ((@f0 binary64), (fl binary64 (3) (0)))) (fun v1 => ret (N.eqb (ostate_code v1) (ostate_code o_contained_by)))));
  (85, (bind (@overlap binary64 binary64 ((fl binary64 (1) (1)), (fl binary64 (1) (1))) ((@f0 binary64), (@finf binary64))) (fun v1 => ret (N.eqb (ostate_code v1) (ostate_code o_contained_by)))));
  (87, (bind (@overlap binary64 binary64 ((fl binary64 (1) (0)), (fl binary64 (1) (1))) ((@fminf binary64), (fl binary64 (1) (1)))) (fun v1 => ret (N.eqb (ostate_code v1) (ostate_code o_finishes)))));
  (88, (bind (@overlap binary64 binary64 ((fl binary64 (1) (0)), (fl binary64 (1) (1))) ((@f0 binary64), (fl binary64 (1) (1)))) (fun v1 => ret (N.eqb (ostate_code v1) (ostate_code o_finishes)))));
  (89, (bind (@overlap binary64 binary64 ((fl binary64 (1) (1)), (fl binary64 (1) (1))) ((@f0 binary64), (fl binary64 (1) (1)))) (fun v1 => ret (N.eqb (ostate_code v1) (ostate_code o_finishes)))));
  (91, (bind (@overlap binary64 binary64 ((fl binary64 (1) (0)), (fl binary64 (1) (1))) ((fl binary64 (1) (0)), (fl binary64 (1) (1)))) (fun v1 => ret (N.eqb (ostate_code v1) (ostate_code o_equal)))));
  (92, (bind (@overlap binary64 binary64 ((fl binary64 (1) (0)), (fl binary64 (1) (0))) ((fl binary64 (1) (0)), (fl binary64 (1) (0)))) (fun v1 => ret (N.eqb (ostate_code v1) (ostate_code o_equal)))));
  (93, (bind (@overlap binary64 binary64 ((@fminf binary64), (fl binary64 (1) (0))) ((@fminf binary64), (fl binary64 (1) (0)))) (fun v1 => ret (N.eqb (ostate_code v1) (ostate_code o_equal)))));
  (94, (bind (@overlap binary64 binary64 ((@fminf binary64), (@finf binary64)) ((@fminf binary64), (@finf binary64))) (fun v1 => ret (N.eqb (ostate_code v1) (ostate_code o_equal)))));
  (96, (bind (@overlap binary64 binary64 ((fl binary64 (3) (0)), (fl binary64 (1) (2))) ((fl binary64 (1) (1)), (fl binary64 (1) (1)))) (fun v1 => ret (N.eqb (ostate_code v1) (ostate_code o_after)))));
  (97, (bind (@overlap binary64 binary64 ((fl binary64 (3) (0)), (fl binary64 (1) (2))) ((fl binary64 (1) (0)), (fl binary64 (1) (1)))) (fun v1 => ret (N.eqb (ostate_code v1) (ostate_code o_after)))));
  (98, (bind (@overlap binary64 binary64 ((fl binary64 (3) (0)), (fl binary64 (3) (0))) ((fl binary64 (1) (0)), (fl binary64 (1) (1)))) (fun v1 => ret (N.eqb (ostate_code v1) (ostate_code o_after)))));
  (99, (bind (@overlap binary64 binary64 ((fl binary64 (3) (0)), (fl binary64 (3) (0))) ((fl binary64 (1) (1)), (fl binary64 (1) (1)))) (fun v1 => ret (N.eqb (ostate_code v1) (ostate_code o_after)))));
  (100, (bind (@overlap binary64 binary64 ((fl binary64 (3) (0)), (@finf binary64)) ((fl binary64 (1) (1)), (fl binary64 (1) (1)))) (fun v1 => ret (N.eqb (ostate_code v1) (ostate_code o_after)))));
  (102, (bind (@overlap binary64 binary64 ((fl binary64 (1) (1)), (fl binary64 (3) (0))) ((fl binary64 (1) (0)), (fl binary64 (1) (1)))) (fun v1 => ret (N.eqb (ostate_code v1) (ostate_code o_met_by)))));
  (103, (bind (@overlap binary64 binary64 ((fl binary64 (1) (1)), (fl binary64 (3) (0))) ((@fminf binary64), (fl binary64 (1) (1)))) (fun v1 => ret (N.eqb (ostate_code v1) (ostate_code o_met_by)))));
  (105, (bind (@overlap binary64 binary64 ((fl binary64 (3) (-1)), (fl binary64 (5) (-1))) ((fl binary64 (1) (0)), (fl binary64 (1) (1)))) (fun v1 => ret (N.eqb (ostate_code v1) (ostate_code o_overlapped_by)))));
  (106, (bind (@overlap binary64 binary64 ((fl binary64 (3) (-1)), (fl binary64 (5) (-1))) ((@fminf binary64), (fl binary64 (1) (1)))) (fun v1 => ret (N.eqb (ostate_code v1) (ostate_code o_overlapped_by)))));
  (108, (bind (@overlap binary64 binary64 ((fl binary64 (1) (0)), (@finf binary64)) ((fl binary64 (1) (0)), (fl binary64 (1) (1)))) (fun v1 => ret (N.eqb (ostate_code v1) (ostate_code o_started_by)))));
  (109, (bind (@overlap binary64 binary64 ((fl binary64 (1) (0)), (fl binary64 (3) (0))) ((fl binary64 (1) (0)), (fl binary64 (1) (1)))) (fun v1 => ret (N.eqb (ostate_code v1) (ostate_code o_started_by)))));
  (110, (bind (@overlap binary64 binary64 ((fl binary64 (1) (0)), (fl binary64 (3) (0))) ((fl binary64 (1) (0)), (fl binary64 (1) (0)))) (fun v1 => ret (N.eqb (ostate_code v1) (ostate_code o_started_by)))));
  (112, (bind (@overlap binary64 binary64 ((@fminf binary64), (fl binary64 (3) (0))) ((fl binary64 (1) (0)), (fl binary64 (1) (1)))) (fun v1 => ret (N.eqb (ostate_code v1) (ostate_code o_contains)))));
  (113, (bind (@overlap binary64 binary64 ((@fminf binary64), (@finf binary64)) ((fl binary64 (1) (0)), (fl binary64 (1) (1)))) (fun v1 => ret (N.eqb (ostate_code v1) (ostate_code o_contains)))));
  (114, (bind (@overlap binary64 binary64 ((@f0 binary64), (fl binary64 (3) (0))) ((fl binary64 (1) (0)), (fl binary64 (1) (1)))) (fun v1 => ret (N.eqb (ostate_code v1) (ostate_code o_contains)))));
  (115, (bind (@overlap binary64 binary64 ((@f0 binary64), (fl binary64 (3) (0))) ((fl binary64 (1) (1)), (fl binary64 (1) (1)))) (fun v1 => ret (N.eqb (ostate_code v1) (ostate_code o_contains)))));
  (117, (bind (@overlap binary64 binary64 ((@fminf binary64), (fl binary64 (1) (1))) ((fl binary64 (1) (0)), (fl binary64 (1) (1)))) (fun v1 => ret (N.eqb (ostate_code v1) (ostate_code o_finished_by)))));
  (118, (bind (@overlap binary64 binary64 ((@f0 binary64), (fl binary64 (1) (1))) ((fl binary64 (1) (0)), (fl binary64 (1) (1)))) (fun v1 => ret (N.eqb (ostate_code v1) (ostate_code o_finished_by)))));
  (119, (bind (@overlap binary64 binary64 ((@f0 binary64), (fl binary64 (1) (1))) ((fl binary64 (1) (1)), (fl binary64 (1) (1)))) (fun v1 => ret (N.eqb (ostate_code v1) (ostate_code o_finished_by)))));
  (121, (bind get_flags (fun v1 => ret (N.eqb v1 none_bit))));
  (123, clear_flags);
  (124, (bind (@overlap binary64 binary64 ((fl binary64 (1) (0)), (fl binary64 (-5404319552844595) (-51))) ((fl binary64 (1) (0)), (fl binary64 (1) (1)))) (fun v1 => ret (N.eqb (ostate_code v1) (ostate_code o_undefined)))));
  (125, (bind get_flags (fun v1 => ret (N.eqb v1 invalid_operand_bit))));
  (126, clear_flags);
  (127, (set_cwd invalid_operand_bit));
  (128, (throws (@overlap binary64 binary64 ((fl binary64 (1) (0)), (fl binary64 (5404319552844595) (-51))) ((fl binary64 (1) (0)), (fl binary64 (-1) (1)))) Invalid_operand_exception));
  (129, (bind get_flags (fun v1 => ret (N.eqb v1 invalid_operand_bit))));
  (130, clear_flags);
  (131, (set_cwd none_bit))].

(** lines 134-192 *)
Definition minimal_overlap_mixedtype_test : list (N * M bool) := [
  (136, clear_flags);
  (138, (bind (@overlap binary64 binary32 (@empty binary64) (@empty binary32)) (fun v1 => ret (N.eqb (ostate_code v1) (ostate_code o_both_empty)))));
  (139, (bind (@overlap binary64 binary32 (@empty binary64) ((fl binary32 (1) (0)), (fl binary32 (1) (1)))) (fun v1 => ret (N.eqb (ostate_code v1) (ostate_code o_first_empty)))));
  (140, (bind (@overlap binary64 binary32 ((fl binary64 (1) (0)), (fl binary64 (1) (1))) (@empty binary32)) (fun v1 => ret (N.eqb (ostate_code v1) (ostate_code o_second_empty)))));
  (142, (bind (@overlap binary64 binary32 ((fl binary64 (1) (1)), (fl binary64 (1) (1))) ((fl binary32 (3) (0)), (fl binary32 (1) (2)))) (fun v1 => ret (N.eqb (ostate_code v1) (ostate_code o_before)))));
  (143, (bind (@overlap binary64 binary32 ((fl binary64 (1) (0)), (fl binary64 (1) (1))) ((fl binary32 (3) (0)), (fl binary32 (1) (2)))) (fun v1 => ret (N.eqb (ostate_code v1) (ostate_code o_before)))));
  (144, (bind (@overlap binary64 binary32 ((fl binary64 (1) (0)), (fl binary64 (1) (1))) ((fl binary32 (3) (0)), (fl binary32 (3) (0)))) (fun v1 => ret (N.eqb (ostate_code v1) (ostate_code o_before)))));
  (145, (bind (@overlap binary64 binary32 ((fl binary64 (1) (1)), (fl binary64 (1) (1))) ((fl binary32 (3) (0)), (fl binary32 (3) (0)))) (fun v1 => ret (N.eqb (ostate_code v1) (ostate_code o_before)))));
  (147, (bind (@overlap binary64 binary32 ((fl binary64 (1) (0)), (fl binary64 (1) (1))) ((fl binary32 (1) (1)), (fl binary32 (3) (0)))) (fun v1 => ret (N.eqb (ostate_code v1) (ostate_code o_meets)))));
  (149, (bind (@overlap binary64 binary32 ((fl binary64 (1) (0)), (fl binary64 (1) (1))) ((fl binary32 (3) (-1)), (fl binary32 (5) (-1)))) (fun v1 => ret (N.eqb (ostate_code v1) (ostate_code o_overlaps)))));
  (151, (bind (@overlap binary64 binary32 ((fl binary64 (1) (0)), (fl binary64 (1) (1))) ((fl binary32 (1) (0)), (fl binary32 (3) (0)))) (fun v1 => ret (N.eqb (ostate_code v1) (ostate_code o_starts)))));
  (152, (bind (@overlap binary64 binary32 ((fl binary64 (1) (0)), (fl binary64 (1) (0))) ((fl binary32 (1) (0)), (fl binary32 (3) (0)))) (fun v1 => ret (N.eqb (ostate_code v1) (ostate_code o_starts)))));
  (154, (bind (@overlap binary64 binary32 ((fl binary64 (1) (0)), (fl binary64 (1) (1))) ((@f0 binary32), (fl binary32 (3) (0)))) (fun v1 => ret (N.eqb (ostate_code v1) (ostate_code o_contained_by)))));
  (155, (bind (@overlap binary64 binary32 ((fl binary64 (1) (1)), (fl binary64 (1) (1))) ((@f0 binary32), (fl binary32 (3) (0)))) (fun v1 => ret (N.eqb (ostate_code v1) (ostate_code o_contained_by)))));
  (157, (bind (@overlap binary64 binary32 ((fl binary64 (1) (0)), (fl binary64 (1) (1))) ((@f0 binary32), (fl binary32 (1) (1)))) (fun v1 => ret (N.eqb (ostate_code v1) (ostate_code o_finishes)))));
  (158, (bind (@overlap binary64 binary32 ((fl binary64 (1) (1)), (fl binary64 (1) (1))) ((@f0 binary32), (fl binary32 (1) (1)))) (fun v1 => ret (N.eqb (ostate_code v1) (ostate_code o_finishes)))));
  (160, (bind (@overlap binary64 binary32 ((fl binary64 (1) (0)), (fl binary64 (1) (1))) ((fl binary32 (1) (0)), (fl binary32 (1) (1)))) (fun v1 => ret (N.eqb (ostate_code v1) (ostate_code o_equal)))));
  (161, (bind (@overlap binary64 binary32 ((fl binary64 (1) (0)), (fl binary64 (1) (0))) ((fl binary32 (1) (0)), (fl binary32 (1) (0)))) (fun v1 => ret (N.eqb (ostate_code v1) (ostate_code o_equal)))));
  (163, (bind (@overlap binary64 binary32 ((fl binary64 (3) (0)), (fl binary64 (1) (2))) ((fl binary32 (1) (1)), (fl binary32 (1) (1)))) (fun v1 => ret (N.eqb (ostate_code v1) (ostate_code o_after)))));
  (164, (bind (@overlap binary64 binary32 ((fl binary64 (3) (0)), (fl binary64 (1) (2))) ((fl binary32 (1) (0)), (fl binary32 (1) (1)))) (fun v1 => ret (N.eqb (ostate_code v1) (ostate_code o_after)))));
  (165, (bind (@overlap binary64 binary32 ((fl binary64 (3) (0)), (fl binary64 (3) (0))) ((fl binary32 (1) (0)), (fl binary32 (1) (1)))) (fun v1 => ret (N.eqb (ostate_code v1) (ostate_code o_after)))));
  (166, (bind (@overlap binary64 binary32 ((fl binary64 (3) (0)), (fl binary64 (3) (0))) ((fl binary32 (1) (1)), (fl binary32 (1) (1)))) (fun v1 => ret (N.eqb (ostate_code v1) (ostate_code o_after)))));
  (168, (bind (@overlap binary64 binary32 ((fl binary64 (1) (1)), (fl binary64 (3) (0))) ((fl binary32 (1) (0)), (fl binary32 (1) (1)))) (fun v1 => ret (N.eqb (ostate_code v1) (ostate_code o_met_by)))));
  (170, (bind (@overlap binary64 binary32 ((fl binary64 (3) (-1)), (fl binary64 (5) (-1))) ((fl binary32 (1) (0)), (fl binary32 (1) (1)))) (fun v1 => ret (N.eqb (ostate_code v1) (ostate_code o_overlapped_by)))));
  (172, (bind (@overlap binary64 binary32 ((fl binary64 (1) (0)), (fl binary64 (3) (0))) ((fl binary32 (1) (0)), (fl binary32 (1) (1)))) (fun v1 => ret (N.eqb (ostate_code v1) (ostate_code o_started_by)))));
  (173, (bind (@overlap binary64 binary32 ((fl binary64 (1) (0)), (fl binary64 (3) (0))) ((fl binary32 (1) (0)), (fl binary32 (1) (0)))) (fun v1 => ret (N.eqb (ostate_code v1) (ostate_code o_started_by)))));
  (175, (bind (@overlap binary64 binary32 ((@f0 binary64), (fl binary64 (3) (0))) ((fl binary32 (1) (0)), (fl binary32 (1) (1)))) (fun v1 => ret (N.eqb (ostate_code v1) (ostate_code o_contains)))));
  (176, (bind (@overlap binary64 binary32 ((@f0 binary64), (fl binary64 (3) (0))) ((fl binary32 (1) (1)), (fl binary32 (1) (1)))) (fun v1 => ret (N.eqb (ostate_code v1) (ostate_code o_contains)))));
  (178, (bind (@overlap binary64 binary32 ((@f0 binary64), (fl binary64 (1) (1))) ((fl binary32 (1) (0)), (fl binary32 (1) (1)))) (fun v1 => ret (N.eqb (ostate_code v1) (ostate_code o_finished_by)))));
  (179, (bind (@overlap binary64 binary32 ((@f0 binary64), (fl binary64 (1) (1))) ((fl binary32 (1) (1)), (fl binary32 (1) (1)))) (fun v1 => ret (N.eqb (ostate_code v1) (ostate_code o_finished_by)))));
  (181, (bind get_flags (fun v1 => ret (N.eqb v1 none_bit))));
  (183, clear_flags);
  (184, (bind (@overlap binary64 binary32 ((fl binary64 (1) (0)), (fl binary64 (-5404319552844595) (-51))) ((fl binary32 (1) (0)), (fl binary32 (1) (1)))) (fun v1 => ret (N.eqb (ostate_code v1) (ostate_code o_undefined)))));
  (185, (bind get_flags (fun v1 => ret (N.eqb v1 invalid_operand_bit))));
  (186, clear_flags);
  (187, (set_cwd invalid_operand_bit));
  (188, (throws (@overlap binary64 binary32 ((fl binary64 (1) (0)), (fl binary64 (5404319552844595) (-51))) ((fl binary32 (1) (0)), (fl binary32 (-1) (1)))) Invalid_operand_exception));
  (189, (bind get_flags (fun v1 => ret (N.eqb v1 invalid_operand_bit))));
  (190, clear_flags);
  (191, (set_cwd none_bit))].

(** lines 194-256 *)
Definition minimal_overlap_dec_test : list (N * M bool) := [
  (196, clear_flags);
  (198, (bind (@overlap_dec binary64 binary64 (@nai binary64) (@nai binary64)) (fun v1 => ret (N.eqb (ostate_code v1) (ostate_code o_undefined)))));
  (199, (bind (@overlap_dec binary64 binary64 (@nai binary64) (((fl binary64 (1) (0)), (fl binary64 (1) (1))), def)) (fun v1 => ret (N.eqb (ostate_code v1) (ostate_code o_undefined)))));
  (200, (bind (@overlap_dec binary64 binary64 (((fl binary64 (1) (0)), (fl binary64 (1) (1))), dac) (@nai binary64)) (fun v1 => ret (N.eqb (ostate_code v1) (ostate_code o_undefined)))));
  (202, (bind (@overlap_dec binary64 binary64 (@empty_dec binary64) (@empty_dec binary64)) (fun v1 => ret (N.eqb (ostate_code v1) (ostate_code o_both_empty)))));
  (203, (bind (@overlap_dec binary64 binary64 (@empty_dec binary64) (((fl binary64 (1) (0)), (fl binary64 (1) (1))), com)) (fun v1 => ret (N.eqb (ostate_code v1) (ostate_code o_first_empty)))));
  (204, (bind (@overlap_dec binary64 binary64 (((fl binary64 (1) (0)), (fl binary64 (1) (1))), def) (@empty_dec binary64)) (fun v1 => ret (N.eqb (ostate_code v1) (ostate_code o_second_empty)))));
  (206, (bind (@overlap_dec binary64 binary64 (((fl binary64 (1) (1)), (fl binary64 (1) (1))), def) (((fl binary64 (3) (0)), (fl binary64 (1) (2))), def)) (fun v1 => ret (N.eqb (ostate_code v1) (ostate_code o_before)))));
  (207, (bind (@overlap_dec binary64 binary64 (((fl binary64 (1) (0)), (fl binary64 (1) (1))), dac) (((fl binary64 (3) (0)), (fl binary64 (1) (2))), com)) (fun v1 => ret (N.eqb (ostate_code v1) (ostate_code o_before)))));
  (208, (bind (@overlap_dec binary64 binary64 (((fl binary64 (1) (0)), (fl binary64 (1) (1))), com) (((fl binary64 (3) (0)), (fl binary64 (3) (0))), trv)) (fun v1 => ret (N.eqb (ostate_code v1) (ostate_code o_before)))));
  (209, (bind (@overlap_dec binary64 binary64 (((fl binary64 (1) (1)), (fl binary64 (1) (1))), trv) (((fl binary64 (3) (0)), (fl binary64 (3) (0))), def)) (fun v1 => ret (N.eqb (ostate_code v1) (ostate_code o_before)))));
  (211, (bind (@overlap_dec binary64 binary64 (((fl binary64 (1) (0)), (fl binary64 (1) (1))), def) (((fl binary64 (1) (1)), (fl binary64 (3) (0))), def)) (fun v1 => ret (N.eqb (ostate_code v1) (ostate_code o_meets)))));
  (213, (bind (@overlap_dec binary64 binary64 (((fl binary64 (1) (0)), (fl binary64 (1) (1))), dac) (((fl binary64 (3) (-1)), (fl binary64 (5) (-1))), def)) (fun v1 => ret (N.eqb (ostate_code v1) (ostate_code o_overlaps)))));
  (215, (bind (@overlap_dec binary64 binary64 (((fl binary64 (1) (0)), (fl binary64 (1) (1))), def) (((fl binary64 (1) (0)), (fl binary64 (3) (0))), com)) (fun v1 => ret (N.eqb (ostate_code v1) (ostate_code o_starts)))));
  (216, (bind (@overlap_dec binary64 binary64 (((fl binary64 (1) (0)), (fl binary64 (1) (0))), trv) (((fl binary64 (1) (0)), (fl binary64 (3) (0))), def)) (fun v1 => ret (N.eqb (ostate_code v1) (ostate_code o_starts)))));
  (218, (bind (@overlap_dec binary64 binary64 (((fl binary64 (1) (0)), (fl binary64 (1) (1))), def) (((@f0 binary64), (fl binary64 (3) (0))), dac)) (fun v1 => ret (N.eqb (ostate_code v1) (ostate_code o_contained_by)))));
  (219, (bind (@overlap_dec binary64 binary64 (((fl binary64 (1) (1)), (fl binary64 (1) (1))), trv) (((@f0 binary64), (fl binary64 (3) (0))), def)) (fun v1 => ret (N.eqb (ostate_code v1) (ostate_code o_contained_by)))));
  (221, (bind (@overlap_dec binary64 binary64 (((fl binary64 (1) (0)), (fl binary64 (1) (1))), trv) (((@f0 binary64), (fl binary64 (1) (1))), com)) (fun v1 => ret (N.eqb (ostate_code v1) (ostate_code o_finishes)))));
  (222, (bind (@overlap_dec binary64 binary64 (((fl binary64 (1) (1)), (fl binary64 (1) (1))), def) (((@f0 binary64), (fl binary64 (1) (1))), dac)) (fun v1 => ret (N.eqb (ostate_code v1) (ostate_code o_finishes)))));
  (224, (bind (@overlap_dec binary64 binary64 (((fl binary64 (1) (0)), (fl binary64 (1) (1))), def) (((fl binary64 (1) (0)), (fl binary64 (1) (1))), def)) (fun v1 => ret (N.eqb (ostate_code v1) (ostate_code o_equal)))));
  (225, (bind (@overlap_dec binary64 binary64 (((fl binary64 (1) (0)), (fl binary64 (1) (0))), dac) (((fl binary64 (1) (0)), (fl binary64 (1) (0))), dac)) (fun v1 => ret (N.eqb (ostate_code v1) (ostate_code o_equal)))));
  (227, (bind (@overlap_dec binary64 binary64 (((fl binary64 (3) (0)), (fl binary64 (1) (2))), trv) (((fl binary64 (1) (1)), (fl binary64 (1) (1))), trv)) (fun v1 => ret (N.eqb (ostate_code v1) (ostate_code o_after)))));
  (228, (bind (@overlap_dec binary64 binary64 (((fl binary64 (3) (0)), (fl binary64 (1) (2))), def) (((fl binary64 (1) (0)), (fl binary64 (1) (1))), def)) (fun v1 => ret (N.eqb (ostate_code v1) (ostate_code o_after)))));
  (229, (bind (@overlap_dec binary64 binary64 (((fl binary64 (3) (0)), (fl binary64 (3) (0))), com) (((fl binary64 (1) (0)), (fl binary64 (1) (1))), dac)) (fun v1 => ret (N.eqb (ostate_code v1) (ostate_code o_after)))));
  (230, (bind (@overlap_dec binary64 binary64 (((fl binary64 (3) (0)), (fl binary64 (3) (0))), def) (((fl binary64 (1) (1)), (fl binary64 (1) (1))), trv)) (fun v1 => ret (N.eqb (ostate_code v1) (ostate_code o_after)))));
  (232, (bind (@overlap_dec binary64 binary64 (((fl binary64 (1) (1)), (fl binary64 (3) (0))), def) (((fl binary64 (1) (0)), (fl binary64 (1) (1))), trv)) (fun v1 => ret (N.eqb (ostate_code v1) (ostate_code o_met_by)))));
  (234, (bind (@overlap_dec binary64 binary64 (((fl binary64 (3) (-1)), (fl binary64 (5) (-1))), com) (((fl binary64 (1) (0)), (fl binary64 (1) (1))), com)) (fun v1 => ret (N.eqb (ostate_code v1) (ostate_code o_overlapped_by)))));
  (236, (bind (@overlap_dec binary64 binary64 (((fl binary64 (1) (0)), (fl binary64 (3) (0))), dac) (((fl binary64 (1) (0)), (fl binary64 (1) (1))), def)) (fun v1 => ret (N.eqb (ostate_code v1) (ostate_code o_started_by)))));
  (237, (bind (@overlap_dec binary64 binary64 (((fl binary64 (1) (0)), (fl binary64 (3) (0))), com) (((fl binary64 (1) (0)), (fl binary64 (1) (0))), dac)) (fun v1 => ret (N.eqb (ostate_code v1) (ostate_code o_started_by)))));
  (239, (bind (@overlap_dec binary64 binary64 (((@f0 binary64), (fl binary64 (3) (0))), com) (((fl binary64 (1) (0)), (fl binary64 (1) (1))), dac)) (fun v1 => ret (N.eqb (ostate_code v1) (ostate_code o_contains)))));
  (240, (bind (@overlap_dec binary64 binary64 (((@f0 binary64), (fl binary64 (3) (0))), com) (((fl binary64 (1) (1)), (fl binary64 (1) (1))), def)) (fun v1 => ret (N.eqb (ostate_code v1) (ostate_code o_contains)))));
  (242, (bind (@overlap_dec binary64 binary64 (((@f0 binary64), (fl binary64 (1) (1))), def) (((fl binary64 (1) (0)), (fl binary64 (1) (1))), trv)) (fun v1 => ret (N.eqb (ostate_code v1) (ostate_code o_finished_by)))));
  (243, (bind (@overlap_dec binary64 binary64 (((@f0 binary64), (fl binary64 (1) (1))), dac) (((fl binary64 (1) (1)), (fl binary64 (1) (1))), def)) (fun v1 => ret (N.eqb (ostate_code v1) (ostate_code o_finished_by)))));
  (245, (bind get_flags (fun v1 => ret (N.eqb v1 none_bit))));
  (247, clear_flags);
  (248, (bind (@overlap_dec binary64 binary64 (((fl binary64 (1) (0)), (fl binary64 (-5404319552844595) (-51))), trv) (((fl binary64 (1) (0)), (fl binary64 (1) (1))), def)) (fun v1 => ret (N.eqb (ostate_code v1) (ostate_code o_undefined)))));
  (249, (bind get_flags (fun v1 => ret (N.eqb v1 invalid_operand_bit))));
  (250, clear_flags);
  (251, (set_cwd invalid_operand_bit));
  (252, (throws (@overlap_dec binary64 binary64 (((fl binary64 (1) (0)), (fl binary64 (5404319552844595) (-51))), ill) (((fl binary64 (1) (0)), (fl binary64 (-1) (1))), def)) Invalid_operand_exception));
  (253, (bind get_flags (fun v1 => ret (N.eqb v1 invalid_operand_bit))));
  (254, clear_flags);
  (255, (set_cwd none_bit))].

(** lines 258-320 *)
Definition minimal_overlap_dec_mixedtype_test : list (N * M bool) := [
  (260, clear_flags);
  (262, (bind (@overlap_dec binary64 binary32 (@nai binary64) (@nai binary32)) (fun v1 => ret (N.eqb (ostate_code v1) (ostate_code o_undefined)))));
  (263, (bind (@overlap_dec binary64 binary32 (@nai binary64) (((fl binary32 (1) (0)), (fl binary32 (1) (1))), trv)) (fun v1 => ret (N.eqb (ostate_code v1) (ostate_code o_undefined)))));
  (264, (bind (@overlap_dec binary64 binary32 (((fl binary64 (1) (0)), (fl binary64 (1) (1))), def) (@nai binary32)) (fun v1 => ret (N.eqb (ostate_code v1) (ostate_code o_undefined)))));
  (266, (bind (@overlap_dec binary64 binary32 (@empty_dec binary64) (@empty_dec binary32)) (fun v1 => ret (N.eqb (ostate_code v1) (ostate_code o_both_empty)))));
  (267, (bind (@overlap_dec binary64 binary32 (@empty_dec binary64) (((fl binary32 (1) (0)), (fl binary32 (1) (1))), def)) (fun v1 => ret (N.eqb (ostate_code v1) (ostate_code o_first_empty)))));
  (268, (bind (@overlap_dec binary64 binary32 (((fl binary64 (1) (0)), (fl binary64 (1) (1))), def) (@empty_dec binary32)) (fun v1 => ret (N.eqb (ostate_code v1) (ostate_code o_second_empty)))));
  (270, (bind (@overlap_dec binary64 binary32 (((fl binary64 (1) (1)), (fl binary64 (1) (1))), def) (((fl binary32 (3) (0)), (fl binary32 (1) (2))), trv)) (fun v1 => ret (N.eqb (ostate_code v1) (ostate_code o_before)))));
  (271, (bind (@overlap_dec binary64 binary32 (((fl binary64 (1) (0)), (fl binary64 (1) (1))), dac) (((fl binary32 (3) (0)), (fl binary32 (1) (2))), def)) (fun v1 => ret (N.eqb (ostate_code v1) (ostate_code o_before)))));
  (272, (bind (@overlap_dec binary64 binary32 (((fl binary64 (1) (0)), (fl binary64 (1) (1))), dac) (((fl binary32 (3) (0)), (fl binary32 (3) (0))), dac)) (fun v1 => ret (N.eqb (ostate_code v1) (ostate_code o_before)))));
  (273, (bind (@overlap_dec binary64 binary32 (((fl binary64 (1) (1)), (fl binary64 (1) (1))), def) (((fl binary32 (3) (0)), (fl binary32 (3) (0))), com)) (fun v1 => ret (N.eqb (ostate_code v1) (ostate_code o_before)))));
  (275, (bind (@overlap_dec binary64 binary32 (((fl binary64 (1) (0)), (fl binary64 (1) (1))), trv) (((fl binary32 (1) (1)), (fl binary32 (3) (0))), dac)) (fun v1 => ret (N.eqb (ostate_code v1) (ostate_code o_meets)))));
  (277, (bind (@overlap_dec binary64 binary32 (((fl binary64 (1) (0)), (fl binary64 (1) (1))), trv) (((fl binary32 (3) (-1)), (fl binary32 (5) (-1))), dac)) (fun v1 => ret (N.eqb (ostate_code v1) (ostate_code o_overlaps)))));
  (279, (bind (@overlap_dec binary64 binary32 (((fl binary64 (1) (0)), (fl binary64 (1) (1))), def) (((fl binary32 (1) (0)), (fl binary32 (3) (0))), trv)) (fun v1 => ret (N.eqb (ostate_code v1) (ostate_code o_starts)))));
  (280, (bind (@overlap_dec binary64 binary32 (((fl binary64 (1) (0)), (fl binary64 (1) (0))), dac) (((fl binary32 (1) (0)), (fl binary32 (3) (0))), com)) (fun v1 => ret (N.eqb (ostate_code v1) (ostate_code o_starts)))));
  (282, (bind (@overlap_dec binary64 binary32 (((fl binary64 (1) (0)), (fl binary64 (1) (1))), com) (((@f0 binary32), (fl binary32 (3) (0))), def)) (fun v1 => ret (N.eqb (ostate_code v1) (ostate_code o_contained_by)))));
  (283, (bind (@overlap_dec binary64 binary32 (((fl binary64 (1) (1)), (fl binary64 (1) (1))), com) (((@f0 binary32), (fl binary32 (3) (0))), dac)) (fun v1 => ret (N.eqb (ostate_code v1) (ostate_code o_contained_by)))));
  (285, (bind (@overlap_dec binary64 binary32 (((fl binary64 (1) (0)), (fl binary64 (1) (1))), dac) (((@f0 binary32), (fl binary32 (1) (1))), dac)) (fun v1 => ret (N.eqb (ostate_code v1) (ostate_code o_finishes)))));
  (286, (bind (@overlap_dec binary64 binary32 (((fl binary64 (1) (1)), (fl binary64 (1) (1))), def) (((@f0 binary32), (fl binary32 (1) (1))), dac)) (fun v1 => ret (N.eqb (ostate_code v1) (ostate_code o_finishes)))));
  (288, (bind (@overlap_dec binary64 binary32 (((fl binary64 (1) (0)), (fl binary64 (1) (1))), trv) (((fl binary32 (1) (0)), (fl binary32 (1) (1))), def)) (fun v1 => ret (N.eqb (ostate_code v1) (ostate_code o_equal)))));
  (289, (bind (@overlap_dec binary64 binary32 (((fl binary64 (1) (0)), (fl binary64 (1) (0))), def) (((fl binary32 (1) (0)), (fl binary32 (1) (0))), trv)) (fun v1 => ret (N.eqb (ostate_code v1) (ostate_code o_equal)))));
  (291, (bind (@overlap_dec binary64 binary32 (((fl binary64 (3) (0)), (fl binary64 (1) (2))), dac) (((fl binary32 (1) (1)), (fl binary32 (1) (1))), def)) (fun v1 => ret (N.eqb (ostate_code v1) (ostate_code o_after)))));
  (292, (bind (@overlap_dec binary64 binary32 (((fl binary64 (3) (0)), (fl binary64 (1) (2))), def) (((fl binary32 (1) (0)), (fl binary32 (1) (1))), com)) (fun v1 => ret (N.eqb (ostate_code v1) (ostate_code o_after)))));
  (293, (bind (@overlap_dec binary64 binary32 (((fl binary64 (3) (0)), (fl binary64 (3) (0))), dac) (((fl binary32 (1) (0)), (fl binary32 (1) (1))), com)) (fun v1 => ret (N.eqb (ostate_code v1) (ostate_code o_after)))));
  (294, (bind (@overlap_dec binary64 binary32 (((fl binary64 (3) (0)), (fl binary64 (3) (0))), def) (((fl binary32 (1) (1)), (fl binary32 (1) (1))), def)) (fun v1 => ret (N.eqb (ostate_code v1) (ostate_code o_after)))));
  (296, (bind (@overlap_dec binary64 binary32 (((fl binary64 (1) (1)), (fl binary64 (3) (0))), com) (((fl binary32 (1) (0)), (fl binary32 (1) (1))), dac)) (fun v1 => ret (N.eqb (ostate_code v1) (ostate_code o_met_by)))));
  (298, (bind (@overlap_dec binary64 binary32 (((fl binary64 (3) (-1)), (fl binary64 (5) (-1))), def) (((fl binary32 (1) (0)), (fl binary32 (1) (1))), def)) (fun v1 => ret (N.eqb (ostate_code v1) (ostate_code o_overlapped_by)))));
  (300, (bind (@overlap_dec binary64 binary32 (((fl binary64 (1) (0)), (fl binary64 (3) (0))), com) (((fl binary32 (1) (0)), (fl binary32 (1) (1))), def)) (fun v1 => ret (N.eqb (ostate_code v1) (ostate_code o_started_by)))));
  (301, (bind (@overlap_dec binary64 binary32 (((fl binary64 (1) (0)), (fl binary64 (3) (0))), com) (((fl binary32 (1) (0)), (fl binary32 (1) (0))), dac)) (fun v1 => ret (N.eqb (ostate_code v1) (ostate_code o_started_by)))));
  (303, (bind (@overlap_dec binary64 binary32 (((@f0 binary64), (fl binary64 (3) (0))), def) (((fl binary32 (1) (0)), (fl binary32 (1) (1))), com)) (fun v1 => ret (N.eqb (ostate_code v1) (ostate_code o_contains)))));
  (304, (bind (@overlap_dec binary64 binary32 (((@f0 binary64), (fl binary64 (3) (0))), trv) (((fl binary32 (1) (1)), (fl binary32 (1) (1))), trv)) (fun v1 => ret (N.eqb (ostate_code v1) (ostate_code o_contains)))));
  (306, (bind (@overlap_dec binary64 binary32 (((@f0 binary64), (fl binary64 (1) (1))), dac) (((fl binary32 (1) (0)), (fl binary32 (1) (1))), dac)) (fun v1 => ret (N.eqb (ostate_code v1) (ostate_code o_finished_by)))));
  (307, (bind (@overlap_dec binary64 binary32 (((@f0 binary64), (fl binary64 (1) (1))), dac) (((fl binary32 (1) (1)), (fl binary32 (1) (1))), def)) (fun v1 => ret (N.eqb (ostate_code v1) (ostate_code o_finished_by)))));
  (309, (bind get_flags (fun v1 => ret (N.eqb v1 none_bit))));
  (311, clear_flags);
  (312, (bind (@overlap_dec binary64 binary32 (((fl binary64 (1) (0)), (fl binary64 (-5404319552844595) (-51))), dac) (((fl binary32 (1) (0)), (fl binary32 (1) (1))), dac)) (fun v1 => ret (N.eqb (ostate_code v1) (ostate_code o_undefined)))));
  (313, (bind get_flags (fun v1 => ret (N.eqb v1 invalid_operand_bit))));
  (314, clear_flags);
  (315, (set_cwd invalid_operand_bit));
  (316, (throws (@overlap_dec binary64 binary32 (((fl binary64 (1) (0)), (fl binary64 (5404319552844595) (-51))), trv) (((fl binary32 (1) (0)), (fl binary32 (-1) (1))), trv)) Invalid_operand_exception));
  (317, (bind get_flags (fun v1 => ret (N.eqb v1 invalid_operand_bit))));
  (318, clear_flags);
  (319, (set_cwd none_bit))].

Example rec_overlap_agree : test_file [
  minimal_overlap_test; minimal_overlap_mixedtype_test; minimal_overlap_dec_test; minimal_overlap_dec_mixedtype_test] = [].
Proof. vm_compute. reflexivity. Qed.
