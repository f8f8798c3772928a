(** * The checks of the unit tests in /repo/test/p1788/flavor/infsup/setbased/
    test_mpfr_bin_ieee754_flavor_set_op.cpp, run on the model

    One definition per test case of that file, the number before a check is its
    line there.  These are tests of the model, not proofs about it. *)

From Coq Require Import ZArith NArith Bool List.
From Flocq Require Import IEEE754.BinarySingleNaN.
From Verif Require Import Fmt Spec Exc Deco MBase MBool MArith MElem MDec MNum MCancel MOverlap MClass MRev MRev1 MMixed Ex TestRun.
Import ListNotations.
Local Open Scope N_scope.

(** lines 48-67 *)
Definition minimal_intersection_test : list (N * M bool) := [
  (50, (bind (@intersection binary64 ((fl binary64 (1) (0)), (fl binary64 (3) (0))) ((fl binary64 (4728779608739021) (-51)), (fl binary64 (1) (2)))) (fun v1 => ret (ieq v1 ((fl binary64 (4728779608739021) (-51)), (fl binary64 (3) (0)))))));
  (51, (bind (@intersection binary64 ((fl binary64 (1) (0)), (fl binary64 (3) (0))) ((fl binary64 (3) (0)), (fl binary64 (1) (2)))) (fun v1 => ret (ieq v1 ((fl binary64 (3) (0)), (fl binary64 (3) (0)))))));
  (52, (bind (@intersection binary64 ((fl binary64 (1) (0)), (fl binary64 (3) (0))) (@empty binary64)) (fun v1 => @is_empty binary64 v1)));
  (53, (bind (@intersection binary64 (@entire binary64) (@empty binary64)) (fun v1 => @is_empty binary64 v1)));
  (54, (bind (@intersection binary64 ((fl binary64 (1) (0)), (fl binary64 (3) (0))) (@entire binary64)) (fun v1 => ret (ieq v1 ((fl binary64 (1) (0)), (fl binary64 (3) (0)))))));
  (56, (bind get_flags (fun v1 => ret (N.eqb v1 none_bit))));
  (58, clear_flags);
  (59, (bind (@intersection binary64 ((fl binary64 (1) (0)), (fl binary64 (-3) (0))) (@entire binary64)) (fun v1 => @is_empty binary64 v1)));
  (60, (bind get_flags (fun v1 => ret (N.eqb v1 invalid_operand_bit))));
  (61, clear_flags);
  (62, (set_cwd invalid_operand_bit));
  (63, (throws (@intersection binary64 ((fl binary64 (1) (0)), (fl binary64 (3) (0))) ((fl binary64 (1) (0)), (@fnan binary64))) Invalid_operand_exception));
  (64, (bind get_flags (fun v1 => ret (N.eqb v1 invalid_operand_bit))));
  (65, clear_flags);
  (66, (set_cwd none_bit))].

(** lines 69-88 *)
Definition minimal_intersection_mixedtype_test : list (N * M bool) := [
  (71, (bind (@intersection_mixed binary32 binary32 binary64 ((fl binary32 (-1) (0)), (fl binary32 (3) (0))) ((fl binary64 (1) (-1074)), (fl binary64 (1) (2)))) (fun v1 => ret (ieq v1 ((@f0 binary32), (fl binary32 (3) (0)))))));
  (72, (bind (@intersection_mixed binary64 binary32 binary64 ((fl binary32 (1) (0)), (fl binary32 (3) (0))) ((fl binary64 (3) (0)), (fl binary64 (1) (2)))) (fun v1 => ret (ieq v1 ((fl binary64 (3) (0)), (fl binary64 (3) (0)))))));
  (73, (bind (@intersection_mixed binary64 binary32 binary64 ((fl binary32 (1) (0)), (fl binary32 (3) (0))) (@empty binary64)) (fun v1 => @is_empty binary64 v1)));
  (74, (bind (@intersection_mixed binary32 binary64 binary64 (@entire binary64) (@empty binary64)) (fun v1 => @is_empty binary32 v1)));
  (75, (bind (@intersection_mixed binary64 binary64 binary32 ((fl binary64 (1) (0)), (fl binary64 (3) (0))) (@entire binary32)) (fun v1 => ret (ieq v1 ((fl binary64 (1) (0)), (fl binary64 (3) (0)))))));
  (77, (bind get_flags (fun v1 => ret (N.eqb v1 none_bit))));
  (79, clear_flags);
  (80, (bind (@intersection_mixed binary32 binary64 binary32 ((fl binary64 (1) (0)), (fl binary64 (-3) (0))) (@entire binary32)) (fun v1 => @is_empty binary32 v1)));
  (81, (bind get_flags (fun v1 => ret (N.eqb v1 invalid_operand_bit))));
  (82, clear_flags);
  (83, (set_cwd invalid_operand_bit));
  (84, (throws (@intersection_mixed binary32 binary32 binary64 ((fl binary32 (1) (0)), (fl binary32 (3) (0))) ((fl binary64 (1) (0)), (@fnan binary64))) Invalid_operand_exception));
  (85, (bind get_flags (fun v1 => ret (N.eqb v1 invalid_operand_bit))));
  (86, clear_flags);
  (87, (set_cwd none_bit))].

(** lines 90-109 *)
Definition minimal_intersection_dec_test : list (N * M bool) := [
  (92, (bind (@intersection_dec binary64 (((fl binary64 (1) (0)), (fl binary64 (3) (0))), com) (((fl binary64 (4728779608739021) (-51)), (fl binary64 (1) (2))), com)) (fun v1 => ret (dieq v1 (((fl binary64 (4728779608739021) (-51)), (fl binary64 (3) (0))), trv)))));
  (93, (bind (@intersection_dec binary64 (((fl binary64 (1) (0)), (fl binary64 (3) (0))), dac) (((fl binary64 (3) (0)), (fl binary64 (1) (2))), def)) (fun v1 => ret (dieq v1 (((fl binary64 (3) (0)), (fl binary64 (3) (0))), trv)))));
  (94, (bind (@intersection_dec binary64 (((fl binary64 (1) (0)), (fl binary64 (3) (0))), def) (@empty_dec binary64)) (fun v1 => @is_empty_dec binary64 v1)));
  (95, (bind (@intersection_dec binary64 (@entire_dec binary64) (@empty_dec binary64)) (fun v1 => @is_empty_dec binary64 v1)));
  (96, (bind (@intersection_dec binary64 (((fl binary64 (1) (0)), (fl binary64 (3) (0))), dac) (@entire_dec binary64)) (fun v1 => ret (dieq v1 (((fl binary64 (1) (0)), (fl binary64 (3) (0))), trv)))));
  (98, (bind get_flags (fun v1 => ret (N.eqb v1 none_bit))));
  (100, clear_flags);
  (101, (bind (@intersection_dec binary64 (((fl binary64 (1) (0)), (fl binary64 (-3) (0))), com) (((fl binary64 (4728779608739021) (-51)), (fl binary64 (1) (2))), com)) (fun v1 => @is_nai binary64 v1)));
  (102, (bind get_flags (fun v1 => ret (N.eqb v1 invalid_operand_bit))));
  (103, clear_flags);
  (104, (set_cwd invalid_operand_bit));
  (105, (throws (@intersection_dec binary64 (((fl binary64 (1) (0)), (fl binary64 (3) (0))), com) (((fl binary64 (4728779608739021) (-51)), (@finf binary64)), com)) Invalid_operand_exception));
  (106, (bind get_flags (fun v1 => ret (N.eqb v1 invalid_operand_bit))));
  (107, clear_flags);
  (108, (set_cwd none_bit))].

(** lines 111-131 *)
Definition minimal_intersection_dec_mixedtype_test : list (N * M bool) := [
  (113, (bind (@intersection_dec_mixed binary32 binary32 binary64 (((fl binary32 (-1) (0)), (fl binary32 (3) (0))), com) (((fl binary64 (1) (-1074)), (fl binary64 (1) (2))), com)) (fun v1 => ret (dieq v1 (((@f0 binary32), (fl binary32 (3) (0))), trv)))));
  (114, (bind (@intersection_dec_mixed binary64 binary32 binary64 (((fl binary32 (1) (0)), (fl binary32 (3) (0))), dac) (((fl binary64 (3) (0)), (fl binary64 (1) (2))), def)) (fun v1 => ret (dieq v1 (((fl binary64 (3) (0)), (fl binary64 (3) (0))), trv)))));
  (115, (bind (@intersection_dec_mixed binary64 binary32 binary64 (((fl binary32 (1) (0)), (fl binary32 (3) (0))), def) (@empty_dec binary64)) (fun v1 => @is_empty_dec binary64 v1)));
  (116, (bind (@intersection_dec_mixed binary32 binary64 binary64 (@entire_dec binary64) (@empty_dec binary64)) (fun v1 => @is_empty_dec binary32 v1)));
  (117, (bind (@intersection_dec_mixed binary64 binary64 binary32 (((fl binary64 (1) (0)), (fl binary64 (3) (0))), dac) (@entire_dec binary32)) (fun v1 => ret (dieq v1 (((fl binary64 (1) (0)), (fl binary64 (3) (0))), trv)))));
  (120, (bind get_flags (fun v1 => ret (N.eqb v1 none_bit))));
  (122, clear_flags);
  (123, (bind (@intersection_dec_mixed binary32 binary64 binary64 (((fl binary64 (1) (0)), (fl binary64 (-3) (0))), com) (((fl binary64 (4728779608739021) (-51)), (fl binary64 (1) (2))), com)) (fun v1 => @is_nai binary32 v1)));
  (124, (bind get_flags (fun v1 => ret (N.eqb v1 invalid_operand_bit))));
  (125, clear_flags);
  (126, (set_cwd invalid_operand_bit));
  (127, (throws (@intersection_dec_mixed binary64 binary32 binary64 (((fl binary32 (1) (0)), (fl binary32 (3) (0))), com) (((fl binary64 (4728779608739021) (-51)), (@finf binary64)), com)) Invalid_operand_exception));
  (128, (bind get_flags (fun v1 => ret (N.eqb v1 invalid_operand_bit))));
  (129, clear_flags);
  (130, (set_cwd none_bit))].

(** lines 133-152 *)
Definition minimal_convex_hull_test : list (N * M bool) := [
  (135, (bind (@convex_hull binary64 ((fl binary64 (1) (0)), (fl binary64 (3) (0))) ((fl binary64 (4728779608739021) (-51)), (fl binary64 (1) (2)))) (fun v1 => ret (ieq v1 ((fl binary64 (1) (0)), (fl binary64 (1) (2)))))));
  (136, (bind (@convex_hull binary64 ((fl binary64 (1) (0)), (fl binary64 (1) (0))) ((fl binary64 (4728779608739021) (-51)), (fl binary64 (1) (2)))) (fun v1 => ret (ieq v1 ((fl binary64 (1) (0)), (fl binary64 (1) (2)))))));
  (137, (bind (@convex_hull binary64 ((fl binary64 (1) (0)), (fl binary64 (3) (0))) (@empty binary64)) (fun v1 => ret (ieq v1 ((fl binary64 (1) (0)), (fl binary64 (3) (0)))))));
  (138, (bind (@convex_hull binary64 (@empty binary64) (@empty binary64)) (fun v1 => @is_empty binary64 v1)));
  (139, (bind (@convex_hull binary64 ((fl binary64 (1) (0)), (fl binary64 (3) (0))) (@entire binary64)) (fun v1 => ret (ieq v1 (@entire binary64)))));
  (141, (bind get_flags (fun v1 => ret (N.eqb v1 none_bit))));
  (143, clear_flags);
  (144, (bind (@convex_hull binary64 ((fl binary64 (1) (0)), (fl binary64 (-3) (0))) (@entire binary64)) (fun v1 => @is_empty binary64 v1)));
  (145, (bind get_flags (fun v1 => ret (N.eqb v1 invalid_operand_bit))));
  (146, clear_flags);
  (147, (set_cwd invalid_operand_bit));
  (148, (throws (@convex_hull binary64 ((fl binary64 (1) (0)), (fl binary64 (3) (0))) ((fl binary64 (1) (0)), (@fnan binary64))) Invalid_operand_exception));
  (149, (bind get_flags (fun v1 => ret (N.eqb v1 invalid_operand_bit))));
  (150, clear_flags);
  (151, (set_cwd none_bit))].

(** lines 154-173 *)
Definition minimal_convex_hull_mixedtype_test : list (N * M bool) := [
  (156, (bind (@convex_hull_mixed binary32 binary64 binary64 ((fl binary64 (1) (-1074)), (fl binary64 (3) (0))) ((fl binary64 (4278419646001971) (-50)), (fl binary64 (1) (2)))) (fun v1 => ret (ieq v1 ((@f0 binary32), (fl binary32 (1) (2)))))));
  (157, (bind (@convex_hull_mixed binary64 binary32 binary64 ((fl binary32 (1) (0)), (fl binary32 (1) (0))) ((fl binary64 (4728779608739021) (-51)), (fl binary64 (1) (2)))) (fun v1 => ret (ieq v1 ((fl binary64 (1) (0)), (fl binary64 (1) (2)))))));
  (158, (bind (@convex_hull_mixed binary64 binary32 binary64 ((fl binary32 (1) (0)), (fl binary32 (3) (0))) (@empty binary64)) (fun v1 => ret (ieq v1 ((fl binary64 (1) (0)), (fl binary64 (3) (0)))))));
  (159, (bind (@convex_hull_mixed binary64 binary32 binary64 (@empty binary32) (@empty binary64)) (fun v1 => @is_empty binary64 v1)));
  (160, (bind (@convex_hull_mixed binary64 binary64 binary32 ((fl binary64 (1) (0)), (fl binary64 (3) (0))) (@entire binary32)) (fun v1 => ret (ieq v1 (@entire binary64)))));
  (162, (bind get_flags (fun v1 => ret (N.eqb v1 none_bit))));
  (164, clear_flags);
  (165, (bind (@convex_hull_mixed binary32 binary64 binary64 ((fl binary64 (1) (0)), (fl binary64 (-3) (0))) (@entire binary64)) (fun v1 => @is_empty binary32 v1)));
  (166, (bind get_flags (fun v1 => ret (N.eqb v1 invalid_operand_bit))));
  (167, clear_flags);
  (168, (set_cwd invalid_operand_bit));
  (169, (throws (@convex_hull_mixed binary64 binary32 binary64 ((fl binary32 (1) (0)), (fl binary32 (3) (0))) ((fl binary64 (1) (0)), (@fnan binary64))) Invalid_operand_exception));
  (170, (bind get_flags (fun v1 => ret (N.eqb v1 invalid_operand_bit))));
  (171, clear_flags);
  (172, (set_cwd none_bit))].

(** lines 176-195 *)
Definition minimal_convex_hull_dec_test : list (N * M bool) := [
  (178, (bind (@convex_hull_dec binary64 (((fl binary64 (1) (0)), (fl binary64 (3) (0))), trv) (((fl binary64 (4728779608739021) (-51)), (fl binary64 (1) (2))), trv)) (fun v1 => ret (dieq v1 (((fl binary64 (1) (0)), (fl binary64 (1) (2))), trv)))));
  (179, (bind (@convex_hull_dec binary64 (((fl binary64 (1) (0)), (fl binary64 (1) (0))), trv) (((fl binary64 (4728779608739021) (-51)), (fl binary64 (1) (2))), trv)) (fun v1 => ret (dieq v1 (((fl binary64 (1) (0)), (fl binary64 (1) (2))), trv)))));
  (180, (bind (@convex_hull_dec binary64 (((fl binary64 (1) (0)), (fl binary64 (3) (0))), trv) (@empty_dec binary64)) (fun v1 => ret (dieq v1 (((fl binary64 (1) (0)), (fl binary64 (3) (0))), trv)))));
  (181, (bind (@convex_hull_dec binary64 (@empty_dec binary64) (@empty_dec binary64)) (fun v1 => @is_empty_dec binary64 v1)));
  (182, (bind (@convex_hull_dec binary64 (((fl binary64 (1) (0)), (fl binary64 (3) (0))), trv) (@entire_dec binary64)) (fun v1 => ret (dieq v1 (((@fminf binary64), (@finf binary64)), trv)))));
  (184, (bind get_flags (fun v1 => ret (N.eqb v1 none_bit))));
  (186, clear_flags);
  (187, (bind (@convex_hull_dec binary64 (((fl binary64 (1) (0)), (fl binary64 (-3) (0))), trv) (@entire_dec binary64)) (fun v1 => @is_nai binary64 v1)));
  (188, (bind get_flags (fun v1 => ret (N.eqb v1 invalid_operand_bit))));
  (189, clear_flags);
  (190, (set_cwd invalid_operand_bit));
  (191, (throws (@convex_hull_dec binary64 (((fl binary64 (1) (0)), (fl binary64 (3) (0))), trv) (((fl binary64 (1) (0)), (@fnan binary64)), trv)) Invalid_operand_exception));
  (192, (bind get_flags (fun v1 => ret (N.eqb v1 invalid_operand_bit))));
  (193, clear_flags);
  (194, (set_cwd none_bit))].

(** lines 198-217 *)
Definition minimal_convex_hull_dec_mixedtype_test : list (N * M bool) := [
  (200, (bind (@convex_hull_dec_mixed binary32 binary64 binary64 (((fl binary64 (1) (-1074)), (fl binary64 (3) (0))), trv) (((fl binary64 (4278419646001971) (-50)), (fl binary64 (1) (2))), trv)) (fun v1 => ret (dieq v1 (((@f0 binary32), (fl binary32 (1) (2))), trv)))));
  (201, (bind (@convex_hull_dec_mixed binary64 binary32 binary64 (((fl binary32 (1) (0)), (fl binary32 (1) (0))), trv) (((fl binary64 (4728779608739021) (-51)), (fl binary64 (1) (2))), trv)) (fun v1 => ret (dieq v1 (((fl binary64 (1) (0)), (fl binary64 (1) (2))), trv)))));
  (202, (bind (@convex_hull_dec_mixed binary64 binary32 binary64 (((fl binary32 (1) (0)), (fl binary32 (3) (0))), trv) (@empty_dec binary64)) (fun v1 => ret (dieq v1 (((fl binary64 (1) (0)), (fl binary64 (3) (0))), trv)))));
  (203, (bind (@convex_hull_dec_mixed binary64 binary32 binary64 (@empty_dec binary32) (@empty_dec binary64)) (fun v1 => @is_empty_dec binary64 v1)));
  (204, (bind (@convex_hull_dec_mixed binary64 binary64 binary32 (((fl binary64 (1) (0)), (fl binary64 (3) (0))), trv) (@entire_dec binary32)) (fun v1 => ret (dieq v1 (((@fminf binary64), (@finf binary64)), trv)))));
  (206, (bind get_flags (fun v1 => ret (N.eqb v1 none_bit))));
  (208, clear_flags);
  (209, (bind (@convex_hull_dec_mixed binary32 binary64 binary64 (((fl binary64 (1) (0)), (fl binary64 (-3) (0))), trv) (@entire_dec binary64)) (fun v1 => @is_nai binary32 v1)));
  (210, (bind get_flags (fun v1 => ret (N.eqb v1 invalid_operand_bit))));
  (211, clear_flags);
  (212, (set_cwd invalid_operand_bit));
  (213, (throws (@convex_hull_dec_mixed binary64 binary32 binary64 (((fl binary32 (1) (0)), (fl binary32 (3) (0))), trv) (((fl binary64 (1) (0)), (@fnan binary64)), trv)) Invalid_operand_exception));
  (214, (bind get_flags (fun v1 => ret (N.eqb v1 invalid_operand_bit))));
  (215, clear_flags);
  (216, (set_cwd none_bit))].

Example set_op_agree : test_file [
  minimal_intersection_test; minimal_intersection_mixedtype_test; minimal_intersection_dec_test; minimal_intersection_dec_mixedtype_test; minimal_convex_hull_test; minimal_convex_hull_mixedtype_test; minimal_convex_hull_dec_test; minimal_convex_hull_dec_mixedtype_test] = [].
Proof. vm_compute. reflexivity. Qed.
