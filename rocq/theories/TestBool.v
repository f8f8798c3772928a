(** * The checks of the unit tests in /repo/test/p1788/flavor/infsup/setbased/
    test_mpfr_bin_ieee754_flavor_bool_func.cpp, run on the model

    One definition per test case of that file, the number before a check is its
    line there.  These are tests of the model, not proofs about it. *)

From Coq Require Import ZArith NArith Bool List.
From Flocq Require Import IEEE754.BinarySingleNaN.
From Verif Require Import Fmt Spec Exc Deco MBase MBool MArith MElem MDec MNum MCancel MOverlap MClass MRev MRev1 MMixed Ex TestRun.
Import ListNotations.
Local Open Scope N_scope.

(** lines 52-82 *)
Definition minimal_is_empty_test : list (N * M bool) := [
  (54, clear_flags);
  (56, (@is_empty binary64 ((@fnan binary64), (@fnan binary64))));
  (57, (mnot (@is_empty binary64 ((@fminf binary64), (@finf binary64)))));
  (58, (mnot (@is_empty binary64 ((fl binary64 (1) (0)), (fl binary64 (1) (1))))));
  (59, (mnot (@is_empty binary64 ((fl binary64 (-1) (0)), (fl binary64 (1) (1))))));
  (60, (mnot (@is_empty binary64 ((fl binary64 (-3) (0)), (fl binary64 (-1) (1))))));
  (61, (mnot (@is_empty binary64 ((@fminf binary64), (fl binary64 (1) (1))))));
  (62, (mnot (@is_empty binary64 ((@fminf binary64), (@f0 binary64)))));
  (63, (mnot (@is_empty binary64 ((@fminf binary64), (@fm0 binary64)))));
  (64, (mnot (@is_empty binary64 ((@f0 binary64), (@finf binary64)))));
  (65, (mnot (@is_empty binary64 ((@fm0 binary64), (@finf binary64)))));
  (66, (mnot (@is_empty binary64 ((@fm0 binary64), (@f0 binary64)))));
  (67, (mnot (@is_empty binary64 ((@f0 binary64), (@fm0 binary64)))));
  (68, (mnot (@is_empty binary64 ((@f0 binary64), (@f0 binary64)))));
  (69, (mnot (@is_empty binary64 ((@fm0 binary64), (@fm0 binary64)))));
  (71, (bind get_flags (fun v1 => ret (N.eqb v1 none_bit))));
  (73, clear_flags);
  (74, (mnot (@is_empty binary64 ((fl binary64 (1) (0)), (fl binary64 (-1) (1))))));
  (75, (bind get_flags (fun v1 => ret (N.eqb v1 invalid_operand_bit))));
  (76, clear_flags);
  (77, (set_cwd invalid_operand_bit));
  (78, (throws (@is_empty binary64 ((fl binary64 (1) (0)), (fl binary64 (-1) (1)))) Invalid_operand_exception));
  (79, (bind get_flags (fun v1 => ret (N.eqb v1 invalid_operand_bit))));
  (80, clear_flags);
  (81, (set_cwd none_bit))].

(** lines 84-115 *)
Definition minimal_is_empty_dec_test : list (N * M bool) := [
  (86, clear_flags);
  (88, (mnot (@is_empty_dec binary64 (((@fnan binary64), (@fnan binary64)), ill))));
  (89, (@is_empty_dec binary64 (((@fnan binary64), (@fnan binary64)), trv)));
  (90, (mnot (@is_empty_dec binary64 (((@fminf binary64), (@finf binary64)), def))));
  (91, (mnot (@is_empty_dec binary64 (((fl binary64 (1) (0)), (fl binary64 (1) (1))), com))));
  (92, (mnot (@is_empty_dec binary64 (((fl binary64 (-1) (0)), (fl binary64 (1) (1))), trv))));
  (93, (mnot (@is_empty_dec binary64 (((fl binary64 (-3) (0)), (fl binary64 (-1) (1))), dac))));
  (94, (mnot (@is_empty_dec binary64 (((@fminf binary64), (fl binary64 (1) (1))), trv))));
  (95, (mnot (@is_empty_dec binary64 (((@fminf binary64), (@f0 binary64)), trv))));
  (96, (mnot (@is_empty_dec binary64 (((@fminf binary64), (@fm0 binary64)), trv))));
  (97, (mnot (@is_empty_dec binary64 (((@f0 binary64), (@finf binary64)), def))));
  (98, (mnot (@is_empty_dec binary64 (((@fm0 binary64), (@finf binary64)), trv))));
  (99, (mnot (@is_empty_dec binary64 (((@fm0 binary64), (@f0 binary64)), com))));
  (100, (mnot (@is_empty_dec binary64 (((@f0 binary64), (@fm0 binary64)), trv))));
  (101, (mnot (@is_empty_dec binary64 (((@f0 binary64), (@f0 binary64)), trv))));
  (102, (mnot (@is_empty_dec binary64 (((@fm0 binary64), (@fm0 binary64)), trv))));
  (104, (bind get_flags (fun v1 => ret (N.eqb v1 none_bit))));
  (106, clear_flags);
  (107, (mnot (@is_empty_dec binary64 (((fl binary64 (1) (0)), (fl binary64 (-1) (1))), com))));
  (108, (bind get_flags (fun v1 => ret (N.eqb v1 invalid_operand_bit))));
  (109, clear_flags);
  (110, (set_cwd invalid_operand_bit));
  (111, (throws (@is_empty_dec binary64 (((fl binary64 (1) (0)), (fl binary64 (-1) (1))), com)) Invalid_operand_exception));
  (112, (bind get_flags (fun v1 => ret (N.eqb v1 invalid_operand_bit))));
  (113, clear_flags);
  (114, (set_cwd none_bit))].

(** lines 117-147 *)
Definition minimal_is_entire_test : list (N * M bool) := [
  (119, clear_flags);
  (121, (mnot (@is_entire binary64 ((@fnan binary64), (@fnan binary64)))));
  (122, (@is_entire binary64 ((@fminf binary64), (@finf binary64))));
  (123, (mnot (@is_entire binary64 ((fl binary64 (1) (0)), (fl binary64 (1) (1))))));
  (124, (mnot (@is_entire binary64 ((fl binary64 (-1) (0)), (fl binary64 (1) (1))))));
  (125, (mnot (@is_entire binary64 ((fl binary64 (-3) (0)), (fl binary64 (-1) (1))))));
  (126, (mnot (@is_entire binary64 ((@fminf binary64), (fl binary64 (1) (1))))));
  (127, (mnot (@is_entire binary64 ((@fminf binary64), (@f0 binary64)))));
  (128, (mnot (@is_entire binary64 ((@fminf binary64), (@fm0 binary64)))));
  (129, (mnot (@is_entire binary64 ((@f0 binary64), (@finf binary64)))));
  (130, (mnot (@is_entire binary64 ((@fm0 binary64), (@finf binary64)))));
  (131, (mnot (@is_entire binary64 ((@fm0 binary64), (@f0 binary64)))));
  (132, (mnot (@is_entire binary64 ((@f0 binary64), (@fm0 binary64)))));
  (133, (mnot (@is_entire binary64 ((@f0 binary64), (@f0 binary64)))));
  (134, (mnot (@is_entire binary64 ((@fm0 binary64), (@fm0 binary64)))));
  (136, (bind get_flags (fun v1 => ret (N.eqb v1 none_bit))));
  (138, clear_flags);
  (139, (mnot (@is_entire binary64 ((fl binary64 (-1) (0)), (fl binary64 (-1) (1))))));
  (140, (bind get_flags (fun v1 => ret (N.eqb v1 invalid_operand_bit))));
  (141, clear_flags);
  (142, (set_cwd invalid_operand_bit));
  (143, (throws (@is_entire binary64 ((fl binary64 (-1) (0)), (fl binary64 (-1) (1)))) Invalid_operand_exception));
  (144, (bind get_flags (fun v1 => ret (N.eqb v1 invalid_operand_bit))));
  (145, clear_flags);
  (146, (set_cwd none_bit))].

(** lines 149-182 *)
Definition minimal_is_entire_dec_test : list (N * M bool) := [
  (151, clear_flags);
  (153, (mnot (@is_entire_dec binary64 (((@fnan binary64), (@fnan binary64)), ill))));
  (154, (mnot (@is_entire_dec binary64 (((@fnan binary64), (@fnan binary64)), trv))));
  (155, (@is_entire_dec binary64 (((@fminf binary64), (@finf binary64)), trv)));
  (156, (@is_entire_dec binary64 (((@fminf binary64), (@finf binary64)), def)));
  (157, (@is_entire_dec binary64 (((@fminf binary64), (@finf binary64)), dac)));
  (158, (mnot (@is_entire_dec binary64 (((fl binary64 (1) (0)), (fl binary64 (1) (1))), com))));
  (159, (mnot (@is_entire_dec binary64 (((fl binary64 (-1) (0)), (fl binary64 (1) (1))), trv))));
  (160, (mnot (@is_entire_dec binary64 (((fl binary64 (-3) (0)), (fl binary64 (-1) (1))), dac))));
  (161, (mnot (@is_entire_dec binary64 (((@fminf binary64), (fl binary64 (1) (1))), trv))));
  (162, (mnot (@is_entire_dec binary64 (((@fminf binary64), (@f0 binary64)), trv))));
  (163, (mnot (@is_entire_dec binary64 (((@fminf binary64), (@fm0 binary64)), trv))));
  (164, (mnot (@is_entire_dec binary64 (((@f0 binary64), (@finf binary64)), def))));
  (165, (mnot (@is_entire_dec binary64 (((@fm0 binary64), (@finf binary64)), trv))));
  (166, (mnot (@is_entire_dec binary64 (((@fm0 binary64), (@f0 binary64)), com))));
  (167, (mnot (@is_entire_dec binary64 (((@f0 binary64), (@fm0 binary64)), trv))));
  (168, (mnot (@is_entire_dec binary64 (((@f0 binary64), (@f0 binary64)), trv))));
  (169, (mnot (@is_entire_dec binary64 (((@fm0 binary64), (@fm0 binary64)), trv))));
  (171, (bind get_flags (fun v1 => ret (N.eqb v1 none_bit))));
  (173, clear_flags);
  (174, (mnot (@is_entire_dec binary64 (((fl binary64 (1) (0)), (fl binary64 (-1) (1))), com))));
  (175, (bind get_flags (fun v1 => ret (N.eqb v1 invalid_operand_bit))));
  (176, clear_flags);
  (177, (set_cwd invalid_operand_bit));
  (178, (throws (@is_entire_dec binary64 (((fl binary64 (1) (0)), (fl binary64 (-1) (1))), com)) Invalid_operand_exception));
  (179, (bind get_flags (fun v1 => ret (N.eqb v1 invalid_operand_bit))));
  (180, clear_flags);
  (181, (set_cwd none_bit))].

(** lines 184-217 *)
Definition minimal_is_nai_dec_test : list (N * M bool) := [
  (186, clear_flags);
  (188, (@is_nai binary64 (((@fnan binary64), (@fnan binary64)), ill)));
  (189, (mnot (@is_nai binary64 (((@fnan binary64), (@fnan binary64)), trv))));
  (190, (mnot (@is_nai binary64 (((@fminf binary64), (@finf binary64)), trv))));
  (191, (mnot (@is_nai binary64 (((@fminf binary64), (@finf binary64)), def))));
  (192, (mnot (@is_nai binary64 (((@fminf binary64), (@finf binary64)), dac))));
  (193, (mnot (@is_nai binary64 (((fl binary64 (1) (0)), (fl binary64 (1) (1))), com))));
  (194, (mnot (@is_nai binary64 (((fl binary64 (-1) (0)), (fl binary64 (1) (1))), trv))));
  (195, (mnot (@is_nai binary64 (((fl binary64 (-3) (0)), (fl binary64 (-1) (1))), dac))));
  (196, (mnot (@is_nai binary64 (((@fminf binary64), (fl binary64 (1) (1))), trv))));
  (197, (mnot (@is_nai binary64 (((@fminf binary64), (@f0 binary64)), trv))));
  (198, (mnot (@is_nai binary64 (((@fminf binary64), (@fm0 binary64)), trv))));
  (199, (mnot (@is_nai binary64 (((@f0 binary64), (@finf binary64)), def))));
  (200, (mnot (@is_nai binary64 (((@fm0 binary64), (@finf binary64)), trv))));
  (201, (mnot (@is_nai binary64 (((@fm0 binary64), (@f0 binary64)), com))));
  (202, (mnot (@is_nai binary64 (((@f0 binary64), (@fm0 binary64)), trv))));
  (203, (mnot (@is_nai binary64 (((@f0 binary64), (@f0 binary64)), trv))));
  (204, (mnot (@is_nai binary64 (((@fm0 binary64), (@fm0 binary64)), trv))));
  (206, (bind get_flags (fun v1 => ret (N.eqb v1 none_bit))));
  (208, clear_flags);
  (209, (mnot (@is_nai binary64 (((fl binary64 (-1) (0)), (fl binary64 (-1) (1))), trv))));
  (210, (bind get_flags (fun v1 => ret (N.eqb v1 invalid_operand_bit))));
  (211, clear_flags);
  (212, (set_cwd invalid_operand_bit));
  (213, (throws (@is_nai binary64 (((fl binary64 (-1) (0)), (fl binary64 (-1) (1))), trv)) Invalid_operand_exception));
  (214, (bind get_flags (fun v1 => ret (N.eqb v1 invalid_operand_bit))));
  (215, clear_flags);
  (216, (set_cwd none_bit))].

(** lines 219-250 *)
Definition minimal_equal_test : list (N * M bool) := [
  (221, clear_flags);
  (223, ((@equal binary64) ((fl binary64 (1) (0)), (fl binary64 (1) (1))) ((fl binary64 (1) (0)), (fl binary64 (1) (1)))));
  (224, (mnot ((@equal binary64) ((fl binary64 (1) (0)), (fl binary64 (4728779608739021) (-51))) ((fl binary64 (1) (0)), (fl binary64 (1) (1))))));
  (225, ((@equal binary64) ((@fnan binary64), (@fnan binary64)) ((@fnan binary64), (@fnan binary64))));
  (226, (mnot ((@equal binary64) ((@fnan binary64), (@fnan binary64)) ((fl binary64 (1) (0)), (fl binary64 (1) (1))))));
  (227, ((@equal binary64) ((@fminf binary64), (@finf binary64)) ((@fminf binary64), (@finf binary64))));
  (228, (mnot ((@equal binary64) ((fl binary64 (1) (0)), (fl binary64 (5404319552844595) (-51))) ((@fminf binary64), (@finf binary64)))));
  (229, ((@equal binary64) ((fl binary64 (1) (0)), (@finf binary64)) ((fl binary64 (1) (0)), (@finf binary64))));
  (230, (mnot ((@equal binary64) ((fl binary64 (1) (0)), (fl binary64 (5404319552844595) (-51))) ((fl binary64 (1) (0)), (@finf binary64)))));
  (231, ((@equal binary64) ((@fminf binary64), (fl binary64 (1) (1))) ((@fminf binary64), (fl binary64 (1) (1)))));
  (232, (mnot ((@equal binary64) ((@fminf binary64), (fl binary64 (5404319552844595) (-51))) ((@fminf binary64), (fl binary64 (1) (1))))));
  (233, ((@equal binary64) ((fl binary64 (-1) (1)), (@f0 binary64)) ((fl binary64 (-1) (1)), (@f0 binary64))));
  (234, ((@equal binary64) ((@fm0 binary64), (fl binary64 (1) (1))) ((@f0 binary64), (fl binary64 (1) (1)))));
  (235, ((@equal binary64) ((@fm0 binary64), (@fm0 binary64)) ((@f0 binary64), (@f0 binary64))));
  (236, ((@equal binary64) ((@fm0 binary64), (@f0 binary64)) ((@f0 binary64), (@f0 binary64))));
  (237, ((@equal binary64) ((@f0 binary64), (@fm0 binary64)) ((@f0 binary64), (@f0 binary64))));
  (239, (bind get_flags (fun v1 => ret (N.eqb v1 none_bit))));
  (241, clear_flags);
  (242, (mnot ((@equal binary64) ((fl binary64 (1) (0)), (fl binary64 (-5404319552844595) (-51))) ((@fminf binary64), (@finf binary64)))));
  (243, (bind get_flags (fun v1 => ret (N.eqb v1 invalid_operand_bit))));
  (244, clear_flags);
  (245, (set_cwd invalid_operand_bit));
  (246, (throws ((@equal binary64) ((fl binary64 (1) (0)), (fl binary64 (5404319552844595) (-51))) ((@fminf binary64), (@fminf binary64))) Invalid_operand_exception));
  (247, (bind get_flags (fun v1 => ret (N.eqb v1 invalid_operand_bit))));
  (248, clear_flags);
  (249, (set_cwd none_bit))].

(** lines 252-311 *)
Definition minimal_equal_mixedtype_test : list (N * M bool) := [
  (254, clear_flags);
  (256, ((@equal_mixed binary64 binary32) ((fl binary64 (1) (0)), (fl binary64 (1) (1))) ((fl binary32 (1) (0)), (fl binary32 (1) (1)))));
  (257, (mnot ((@equal_mixed binary64 binary32) ((fl binary64 (1) (0)), (fl binary64 (4728779608739021) (-51))) ((fl binary32 (1) (0)), (fl binary32 (1) (1))))));
  (258, ((@equal_mixed binary64 binary32) ((@fnan binary64), (@fnan binary64)) ((@fnan binary32), (@fnan binary32))));
  (259, (mnot ((@equal_mixed binary64 binary32) ((@fnan binary64), (@fnan binary64)) ((fl binary32 (1) (0)), (fl binary32 (1) (1))))));
  (260, ((@equal_mixed binary64 binary32) ((@fminf binary64), (@finf binary64)) ((@fminf binary32), (@finf binary32))));
  (261, (mnot ((@equal_mixed binary64 binary32) ((fl binary64 (1) (0)), (fl binary64 (5404319552844595) (-51))) ((@fminf binary32), (@finf binary32)))));
  (262, ((@equal_mixed binary64 binary32) ((fl binary64 (1) (0)), (@finf binary64)) ((fl binary32 (1) (0)), (@finf binary32))));
  (263, (mnot ((@equal_mixed binary64 binary32) ((fl binary64 (1) (0)), (fl binary64 (5404319552844595) (-51))) ((fl binary32 (1) (0)), (@finf binary32)))));
  (264, ((@equal_mixed binary64 binary32) ((@fminf binary64), (fl binary64 (1) (1))) ((@fminf binary32), (fl binary32 (1) (1)))));
  (265, (mnot ((@equal_mixed binary64 binary32) ((@fminf binary64), (fl binary64 (5404319552844595) (-51))) ((@fminf binary32), (fl binary32 (1) (1))))));
  (266, ((@equal_mixed binary64 binary32) ((fl binary64 (-1) (1)), (@f0 binary64)) ((fl binary32 (-1) (1)), (@f0 binary32))));
  (267, ((@equal_mixed binary64 binary32) ((@fm0 binary64), (fl binary64 (1) (1))) ((@f0 binary32), (fl binary32 (1) (1)))));
  (268, ((@equal_mixed binary64 binary32) ((@fm0 binary64), (@fm0 binary64)) ((@f0 binary32), (@f0 binary32))));
  (269, ((@equal_mixed binary64 binary32) ((@fm0 binary64), (@f0 binary64)) ((@f0 binary32), (@f0 binary32))));
  (270, ((@equal_mixed binary64 binary32) ((@f0 binary64), (@fm0 binary64)) ((@f0 binary32), (@f0 binary32))));
  (272, (bind get_flags (fun v1 => ret (N.eqb v1 none_bit))));
  (274, clear_flags);
  (275, (mnot ((@equal_mixed binary64 binary32) ((fl binary64 (1) (0)), (fl binary64 (-5404319552844595) (-51))) ((@fminf binary32), (@finf binary32)))));
  (276, (bind get_flags (fun v1 => ret (N.eqb v1 invalid_operand_bit))));
  (277, clear_flags);
  (278, (set_cwd invalid_operand_bit));
  (279, (throws ((@equal_mixed binary64 binary32) ((fl binary64 (1) (0)), (fl binary64 (5404319552844595) (-51))) ((@finf binary32), (@finf binary32))) Invalid_operand_exception));
  (280, (bind get_flags (fun v1 => ret (N.eqb v1 invalid_operand_bit))));
  (281, clear_flags);
  (282, (set_cwd none_bit));
  (284, ((@equal_mixed binary32 binary64) ((fl binary32 (1) (0)), (fl binary32 (1) (1))) ((fl binary64 (1) (0)), (fl binary64 (1) (1)))));
  (285, (mnot ((@equal_mixed binary32 binary64) ((fl binary32 (1) (0)), (fl binary32 (4404019) (-21))) ((fl binary64 (1) (0)), (fl binary64 (1) (1))))));
  (286, ((@equal_mixed binary32 binary64) ((@fnan binary32), (@fnan binary32)) ((@fnan binary64), (@fnan binary64))));
  (287, (mnot ((@equal_mixed binary32 binary64) ((@fnan binary32), (@fnan binary32)) ((fl binary64 (1) (0)), (fl binary64 (1) (1))))));
  (288, ((@equal_mixed binary32 binary64) ((@fminf binary32), (@finf binary32)) ((@fminf binary64), (@finf binary64))));
  (289, (mnot ((@equal_mixed binary32 binary64) ((fl binary32 (1) (0)), (fl binary32 (5033165) (-21))) ((@fminf binary64), (@finf binary64)))));
  (290, ((@equal_mixed binary32 binary64) ((fl binary32 (1) (0)), (@finf binary32)) ((fl binary64 (1) (0)), (@finf binary64))));
  (291, (mnot ((@equal_mixed binary32 binary64) ((fl binary32 (1) (0)), (fl binary32 (5033165) (-21))) ((fl binary64 (1) (0)), (@finf binary64)))));
  (292, ((@equal_mixed binary32 binary64) ((@fminf binary32), (fl binary32 (1) (1))) ((@fminf binary64), (fl binary64 (1) (1)))));
  (293, (mnot ((@equal_mixed binary32 binary64) ((@fminf binary32), (fl binary32 (5033165) (-21))) ((@fminf binary64), (fl binary64 (1) (1))))));
  (294, ((@equal_mixed binary32 binary64) ((fl binary32 (-1) (1)), (@f0 binary32)) ((fl binary64 (-1) (1)), (@f0 binary64))));
  (295, ((@equal_mixed binary32 binary64) ((@fm0 binary32), (fl binary32 (1) (1))) ((@f0 binary64), (fl binary64 (1) (1)))));
  (296, ((@equal_mixed binary32 binary64) ((@fm0 binary32), (@fm0 binary32)) ((@f0 binary64), (@f0 binary64))));
  (297, ((@equal_mixed binary32 binary64) ((@fm0 binary32), (@f0 binary32)) ((@f0 binary64), (@f0 binary64))));
  (298, ((@equal_mixed binary32 binary64) ((@f0 binary32), (@fm0 binary32)) ((@f0 binary64), (@f0 binary64))));
  (300, (bind get_flags (fun v1 => ret (N.eqb v1 none_bit))));
  (302, clear_flags);
  (303, (mnot ((@equal_mixed binary32 binary64) ((@finf binary32), (fl binary32 (-5033165) (-21))) ((@fminf binary64), (fl binary64 (1) (1))))));
  (304, (bind get_flags (fun v1 => ret (N.eqb v1 invalid_operand_bit))));
  (305, clear_flags);
  (306, (set_cwd invalid_operand_bit));
  (307, (throws ((@equal_mixed binary32 binary64) ((@fminf binary32), (fl binary32 (5033165) (-21))) ((@finf binary64), (fl binary64 (1) (1)))) Invalid_operand_exception));
  (308, (bind get_flags (fun v1 => ret (N.eqb v1 invalid_operand_bit))));
  (309, clear_flags);
  (310, (set_cwd none_bit))].

(** lines 313-348 *)
Definition minimal_equal_dec_test : list (N * M bool) := [
  (315, clear_flags);
  (317, (@rel_dec binary64 binary64 (@equal binary64) (((fl binary64 (1) (0)), (fl binary64 (1) (1))), def) (((fl binary64 (1) (0)), (fl binary64 (1) (1))), trv)));
  (318, (mnot (@rel_dec binary64 binary64 (@equal binary64) (((fl binary64 (1) (0)), (fl binary64 (4728779608739021) (-51))), trv) (((fl binary64 (1) (0)), (fl binary64 (1) (1))), trv))));
  (319, (@rel_dec binary64 binary64 (@equal binary64) (((@fnan binary64), (@fnan binary64)), trv) (((@fnan binary64), (@fnan binary64)), trv)));
  (320, (mnot (@rel_dec binary64 binary64 (@equal binary64) (((@fnan binary64), (@fnan binary64)), trv) (((@fnan binary64), (@fnan binary64)), ill))));
  (321, (mnot (@rel_dec binary64 binary64 (@equal binary64) (((@fnan binary64), (@fnan binary64)), ill) (((@fnan binary64), (@fnan binary64)), trv))));
  (322, (mnot (@rel_dec binary64 binary64 (@equal binary64) (((@fnan binary64), (@fnan binary64)), ill) (((@fnan binary64), (@fnan binary64)), ill))));
  (323, (mnot (@rel_dec binary64 binary64 (@equal binary64) (((@fnan binary64), (@fnan binary64)), trv) (((fl binary64 (1) (0)), (fl binary64 (1) (1))), trv))));
  (324, (mnot (@rel_dec binary64 binary64 (@equal binary64) (((@fnan binary64), (@fnan binary64)), ill) (((fl binary64 (1) (0)), (fl binary64 (1) (1))), trv))));
  (325, (@rel_dec binary64 binary64 (@equal binary64) (((@fminf binary64), (@finf binary64)), def) (((@fminf binary64), (@finf binary64)), trv)));
  (326, (mnot (@rel_dec binary64 binary64 (@equal binary64) (((fl binary64 (1) (0)), (fl binary64 (5404319552844595) (-51))), trv) (((@fminf binary64), (@finf binary64)), trv))));
  (327, (@rel_dec binary64 binary64 (@equal binary64) (((fl binary64 (1) (0)), (@finf binary64)), trv) (((fl binary64 (1) (0)), (@finf binary64)), trv)));
  (328, (mnot (@rel_dec binary64 binary64 (@equal binary64) (((fl binary64 (1) (0)), (fl binary64 (5404319552844595) (-51))), def) (((fl binary64 (1) (0)), (@finf binary64)), trv))));
  (329, (@rel_dec binary64 binary64 (@equal binary64) (((@fminf binary64), (fl binary64 (1) (1))), trv) (((@fminf binary64), (fl binary64 (1) (1))), trv)));
  (330, (mnot (@rel_dec binary64 binary64 (@equal binary64) (((@fminf binary64), (fl binary64 (5404319552844595) (-51))), def) (((@fminf binary64), (fl binary64 (1) (1))), trv))));
  (331, (@rel_dec binary64 binary64 (@equal binary64) (((fl binary64 (-1) (1)), (@f0 binary64)), trv) (((fl binary64 (-1) (1)), (@f0 binary64)), trv)));
  (332, (@rel_dec binary64 binary64 (@equal binary64) (((@fm0 binary64), (fl binary64 (1) (1))), def) (((@f0 binary64), (fl binary64 (1) (1))), trv)));
  (333, (@rel_dec binary64 binary64 (@equal binary64) (((@fm0 binary64), (@fm0 binary64)), trv) (((@f0 binary64), (@f0 binary64)), trv)));
  (334, (@rel_dec binary64 binary64 (@equal binary64) (((@fm0 binary64), (@f0 binary64)), def) (((@f0 binary64), (@f0 binary64)), trv)));
  (335, (@rel_dec binary64 binary64 (@equal binary64) (((@f0 binary64), (@fm0 binary64)), trv) (((@f0 binary64), (@f0 binary64)), trv)));
  (337, (bind get_flags (fun v1 => ret (N.eqb v1 none_bit))));
  (339, clear_flags);
  (340, (mnot (@rel_dec binary64 binary64 (@equal binary64) (((@fminf binary64), (fl binary64 (5404319552844595) (-51))), def) (((@finf binary64), (fl binary64 (1) (1))), trv))));
  (341, (bind get_flags (fun v1 => ret (N.eqb v1 invalid_operand_bit))));
  (342, clear_flags);
  (343, (set_cwd invalid_operand_bit));
  (344, (throws (@rel_dec binary64 binary64 (@equal binary64) (((@finf binary64), (fl binary64 (5404319552844595) (-51))), def) (((@fminf binary64), (fl binary64 (1) (1))), trv)) Invalid_operand_exception));
  (345, (bind get_flags (fun v1 => ret (N.eqb v1 invalid_operand_bit))));
  (346, clear_flags);
  (347, (set_cwd none_bit))].

(** lines 350-416 *)
Definition minimal_equal_dec_mixedtype_test : list (N * M bool) := [
  (352, clear_flags);
  (354, (@rel_dec binary64 binary32 (@equal_mixed binary64 binary32) (((fl binary64 (1) (0)), (fl binary64 (1) (1))), com) (((fl binary32 (1) (0)), (fl binary32 (1) (1))), trv)));
  (355, (mnot (@rel_dec binary64 binary32 (@equal_mixed binary64 binary32) (((fl binary64 (1) (0)), (fl binary64 (4728779608739021) (-51))), trv) (((fl binary32 (1) (0)), (fl binary32 (1) (1))), trv))));
  (356, (@rel_dec binary64 binary32 (@equal_mixed binary64 binary32) (((@fnan binary64), (@fnan binary64)), trv) (((@fnan binary32), (@fnan binary32)), trv)));
  (357, (mnot (@rel_dec binary64 binary32 (@equal_mixed binary64 binary32) (((@fnan binary64), (@fnan binary64)), trv) (((@fnan binary32), (@fnan binary32)), ill))));
  (358, (mnot (@rel_dec binary64 binary32 (@equal_mixed binary64 binary32) (((@fnan binary64), (@fnan binary64)), ill) (((@fnan binary32), (@fnan binary32)), trv))));
  (359, (mnot (@rel_dec binary64 binary32 (@equal_mixed binary64 binary32) (((@fnan binary64), (@fnan binary64)), ill) (((@fnan binary32), (@fnan binary32)), ill))));
  (360, (mnot (@rel_dec binary64 binary32 (@equal_mixed binary64 binary32) (((@fnan binary64), (@fnan binary64)), trv) (((fl binary32 (1) (0)), (fl binary32 (1) (1))), trv))));
  (361, (mnot (@rel_dec binary64 binary32 (@equal_mixed binary64 binary32) (((@fnan binary64), (@fnan binary64)), ill) (((fl binary32 (1) (0)), (fl binary32 (1) (1))), trv))));
  (362, (@rel_dec binary64 binary32 (@equal_mixed binary64 binary32) (((@fminf binary64), (@finf binary64)), trv) (((@fminf binary32), (@finf binary32)), def)));
  (363, (mnot (@rel_dec binary64 binary32 (@equal_mixed binary64 binary32) (((fl binary64 (1) (0)), (fl binary64 (5404319552844595) (-51))), def) (((@fminf binary32), (@finf binary32)), trv))));
  (364, (@rel_dec binary64 binary32 (@equal_mixed binary64 binary32) (((fl binary64 (1) (0)), (@finf binary64)), trv) (((fl binary32 (1) (0)), (@finf binary32)), trv)));
  (365, (mnot (@rel_dec binary64 binary32 (@equal_mixed binary64 binary32) (((fl binary64 (1) (0)), (fl binary64 (5404319552844595) (-51))), trv) (((fl binary32 (1) (0)), (@finf binary32)), trv))));
  (366, (@rel_dec binary64 binary32 (@equal_mixed binary64 binary32) (((@fminf binary64), (fl binary64 (1) (1))), trv) (((@fminf binary32), (fl binary32 (1) (1))), trv)));
  (367, (mnot (@rel_dec binary64 binary32 (@equal_mixed binary64 binary32) (((@fminf binary64), (fl binary64 (5404319552844595) (-51))), trv) (((@fminf binary32), (fl binary32 (1) (1))), trv))));
  (368, (@rel_dec binary64 binary32 (@equal_mixed binary64 binary32) (((fl binary64 (-1) (1)), (@f0 binary64)), trv) (((fl binary32 (-1) (1)), (@f0 binary32)), trv)));
  (369, (@rel_dec binary64 binary32 (@equal_mixed binary64 binary32) (((@fm0 binary64), (fl binary64 (1) (1))), trv) (((@f0 binary32), (fl binary32 (1) (1))), trv)));
  (370, (@rel_dec binary64 binary32 (@equal_mixed binary64 binary32) (((@fm0 binary64), (@fm0 binary64)), def) (((@f0 binary32), (@f0 binary32)), trv)));
  (371, (@rel_dec binary64 binary32 (@equal_mixed binary64 binary32) (((@fm0 binary64), (@f0 binary64)), trv) (((@f0 binary32), (@f0 binary32)), dac)));
  (372, (@rel_dec binary64 binary32 (@equal_mixed binary64 binary32) (((@f0 binary64), (@fm0 binary64)), com) (((@f0 binary32), (@f0 binary32)), def)));
  (374, (bind get_flags (fun v1 => ret (N.eqb v1 none_bit))));
  (376, clear_flags);
  (377, (mnot (@rel_dec binary64 binary32 (@equal_mixed binary64 binary32) (((@finf binary64), (fl binary64 (5404319552844595) (-51))), trv) (((@fminf binary32), (fl binary32 (1) (1))), trv))));
  (378, (bind get_flags (fun v1 => ret (N.eqb v1 invalid_operand_bit))));
  (379, clear_flags);
  (380, (set_cwd invalid_operand_bit));
  (381, (throws (@rel_dec binary64 binary32 (@equal_mixed binary64 binary32) (((@fminf binary64), (fl binary64 (5404319552844595) (-51))), trv) (((@finf binary32), (fl binary32 (1) (1))), trv)) Invalid_operand_exception));
  (382, (bind get_flags (fun v1 => ret (N.eqb v1 invalid_operand_bit))));
  (383, clear_flags);
  (384, (set_cwd none_bit));
  (386, (@rel_dec binary32 binary64 (@equal_mixed binary32 binary64) (((fl binary32 (1) (0)), (fl binary32 (1) (1))), com) (((fl binary64 (1) (0)), (fl binary64 (1) (1))), trv)));
  (387, (mnot (@rel_dec binary32 binary64 (@equal_mixed binary32 binary64) (((fl binary32 (1) (0)), (fl binary32 (4404019) (-21))), trv) (((fl binary64 (1) (0)), (fl binary64 (1) (1))), trv))));
  (388, (@rel_dec binary32 binary64 (@equal_mixed binary32 binary64) (((@fnan binary32), (@fnan binary32)), trv) (((@fnan binary64), (@fnan binary64)), trv)));
  (389, (mnot (@rel_dec binary32 binary64 (@equal_mixed binary32 binary64) (((@fnan binary32), (@fnan binary32)), ill) (((@fnan binary64), (@fnan binary64)), trv))));
  (390, (mnot (@rel_dec binary32 binary64 (@equal_mixed binary32 binary64) (((@fnan binary32), (@fnan binary32)), ill) (((@fnan binary64), (@fnan binary64)), ill))));
  (391, (mnot (@rel_dec binary32 binary64 (@equal_mixed binary32 binary64) (((@fnan binary32), (@fnan binary32)), ill) (((@fnan binary64), (@fnan binary64)), ill))));
  (392, (mnot (@rel_dec binary32 binary64 (@equal_mixed binary32 binary64) (((@fnan binary32), (@fnan binary32)), trv) (((fl binary64 (1) (0)), (fl binary64 (1) (1))), trv))));
  (393, (@rel_dec binary32 binary64 (@equal_mixed binary32 binary64) (((@fminf binary32), (@finf binary32)), trv) (((@fminf binary64), (@finf binary64)), def)));
  (394, (mnot (@rel_dec binary32 binary64 (@equal_mixed binary32 binary64) (((fl binary32 (1) (0)), (fl binary32 (5033165) (-21))), trv) (((@fminf binary64), (@finf binary64)), trv))));
  (395, (@rel_dec binary32 binary64 (@equal_mixed binary32 binary64) (((fl binary32 (1) (0)), (@finf binary32)), dac) (((fl binary64 (1) (0)), (@finf binary64)), trv)));
  (396, (mnot (@rel_dec binary32 binary64 (@equal_mixed binary32 binary64) (((fl binary32 (1) (0)), (fl binary32 (5033165) (-21))), trv) (((fl binary64 (1) (0)), (@finf binary64)), trv))));
  (397, (@rel_dec binary32 binary64 (@equal_mixed binary32 binary64) (((@fminf binary32), (fl binary32 (1) (1))), trv) (((@fminf binary64), (fl binary64 (1) (1))), trv)));
  (398, (mnot (@rel_dec binary32 binary64 (@equal_mixed binary32 binary64) (((@fminf binary32), (fl binary32 (5033165) (-21))), def) (((@fminf binary64), (fl binary64 (1) (1))), trv))));
  (399, (@rel_dec binary32 binary64 (@equal_mixed binary32 binary64) (((fl binary32 (-1) (1)), (@f0 binary32)), trv) (((fl binary64 (-1) (1)), (@f0 binary64)), trv)));
  (400, (@rel_dec binary32 binary64 (@equal_mixed binary32 binary64) (((@fm0 binary32), (fl binary32 (1) (1))), trv) (((@f0 binary64), (fl binary64 (1) (1))), trv)));
  (401, (@rel_dec binary32 binary64 (@equal_mixed binary32 binary64) (((@fm0 binary32), (@fm0 binary32)), trv) (((@f0 binary64), (@f0 binary64)), trv)));
  (402, (@rel_dec binary32 binary64 (@equal_mixed binary32 binary64) (((@fm0 binary32), (@f0 binary32)), com) (((@f0 binary64), (@f0 binary64)), def)));
  (403, (@rel_dec binary32 binary64 (@equal_mixed binary32 binary64) (((@f0 binary32), (@fm0 binary32)), trv) (((@f0 binary64), (@f0 binary64)), trv)));
  (405, (bind get_flags (fun v1 => ret (N.eqb v1 none_bit))));
  (407, clear_flags);
  (408, (mnot (@rel_dec binary32 binary64 (@equal_mixed binary32 binary64) (((fl binary32 (1) (0)), (fl binary32 (-5033165) (-21))), trv) (((@fminf binary64), (@finf binary64)), trv))));
  (409, (bind get_flags (fun v1 => ret (N.eqb v1 invalid_operand_bit))));
  (410, clear_flags);
  (411, (set_cwd invalid_operand_bit));
  (412, (throws (@rel_dec binary32 binary64 (@equal_mixed binary32 binary64) (((fl binary32 (1) (0)), (fl binary32 (5033165) (-21))), trv) (((@fminf binary64), (@finf binary64)), com)) Invalid_operand_exception));
  (413, (bind get_flags (fun v1 => ret (N.eqb v1 invalid_operand_bit))));
  (414, clear_flags);
  (415, (set_cwd none_bit))].

(** lines 419-466 *)
Definition minimal_subset_test : list (N * M bool) := [
  (421, clear_flags);
  (423, ((@subset binary64) ((@fnan binary64), (@fnan binary64)) ((@fnan binary64), (@fnan binary64))));
  (424, ((@subset binary64) ((@fnan binary64), (@fnan binary64)) ((@f0 binary64), (fl binary64 (1) (2)))));
  (425, ((@subset binary64) ((@fnan binary64), (@fnan binary64)) ((@fm0 binary64), (fl binary64 (1) (2)))));
  (426, ((@subset binary64) ((@fnan binary64), (@fnan binary64)) ((fl binary64 (-3602879701896397) (-55)), (fl binary64 (1) (0)))));
  (427, ((@subset binary64) ((@fnan binary64), (@fnan binary64)) ((fl binary64 (-3602879701896397) (-55)), (@f0 binary64))));
  (428, ((@subset binary64) ((@fnan binary64), (@fnan binary64)) ((fl binary64 (-3602879701896397) (-55)), (@fm0 binary64))));
  (429, ((@subset binary64) ((@fnan binary64), (@fnan binary64)) ((@fminf binary64), (@finf binary64))));
  (431, (mnot ((@subset binary64) ((@f0 binary64), (fl binary64 (1) (2))) ((@fnan binary64), (@fnan binary64)))));
  (432, (mnot ((@subset binary64) ((@fm0 binary64), (fl binary64 (1) (2))) ((@fnan binary64), (@fnan binary64)))));
  (433, (mnot ((@subset binary64) ((fl binary64 (-3602879701896397) (-55)), (fl binary64 (1) (0))) ((@fnan binary64), (@fnan binary64)))));
  (434, (mnot ((@subset binary64) ((@fminf binary64), (@finf binary64)) ((@fnan binary64), (@fnan binary64)))));
  (436, ((@subset binary64) ((@f0 binary64), (fl binary64 (1) (2))) ((@fminf binary64), (@finf binary64))));
  (437, ((@subset binary64) ((@fm0 binary64), (fl binary64 (1) (2))) ((@fminf binary64), (@finf binary64))));
  (438, ((@subset binary64) ((fl binary64 (-3602879701896397) (-55)), (fl binary64 (1) (0))) ((@fminf binary64), (@finf binary64))));
  (439, ((@subset binary64) ((@fminf binary64), (@finf binary64)) ((@fminf binary64), (@finf binary64))));
  (441, ((@subset binary64) ((fl binary64 (1) (0)), (fl binary64 (1) (1))) ((fl binary64 (1) (0)), (fl binary64 (1) (1)))));
  (442, ((@subset binary64) ((fl binary64 (1) (0)), (fl binary64 (1) (1))) ((@f0 binary64), (fl binary64 (1) (2)))));
  (443, ((@subset binary64) ((fl binary64 (1) (0)), (fl binary64 (1) (1))) ((@fm0 binary64), (fl binary64 (1) (2)))));
  (444, ((@subset binary64) ((fl binary64 (3602879701896397) (-55)), (fl binary64 (3602879701896397) (-54))) ((@f0 binary64), (fl binary64 (1) (2)))));
  (445, ((@subset binary64) ((fl binary64 (3602879701896397) (-55)), (fl binary64 (3602879701896397) (-54))) ((@fm0 binary64), (fl binary64 (1) (2)))));
  (446, ((@subset binary64) ((fl binary64 (-3602879701896397) (-55)), (fl binary64 (-3602879701896397) (-55))) ((fl binary64 (-1) (2)), (fl binary64 (7656119366529843) (-51)))));
  (448, ((@subset binary64) ((@f0 binary64), (@f0 binary64)) ((@fm0 binary64), (@fm0 binary64))));
  (449, ((@subset binary64) ((@fm0 binary64), (@fm0 binary64)) ((@f0 binary64), (@f0 binary64))));
  (450, ((@subset binary64) ((@fm0 binary64), (@f0 binary64)) ((@f0 binary64), (@f0 binary64))));
  (451, ((@subset binary64) ((@fm0 binary64), (@f0 binary64)) ((@f0 binary64), (@fm0 binary64))));
  (452, ((@subset binary64) ((@f0 binary64), (@fm0 binary64)) ((@f0 binary64), (@f0 binary64))));
  (453, ((@subset binary64) ((@f0 binary64), (@fm0 binary64)) ((@fm0 binary64), (@f0 binary64))));
  (455, (bind get_flags (fun v1 => ret (N.eqb v1 none_bit))));
  (457, clear_flags);
  (458, (mnot ((@subset binary64) ((fl binary64 (1) (0)), (fl binary64 (-1) (1))) ((@fm0 binary64), (fl binary64 (1) (2))))));
  (459, (bind get_flags (fun v1 => ret (N.eqb v1 invalid_operand_bit))));
  (460, clear_flags);
  (461, (set_cwd invalid_operand_bit));
  (462, (throws ((@subset binary64) ((fl binary64 (1) (0)), (fl binary64 (1) (1))) ((@fm0 binary64), (fl binary64 (-1) (2)))) Invalid_operand_exception));
  (463, (bind get_flags (fun v1 => ret (N.eqb v1 invalid_operand_bit))));
  (464, clear_flags);
  (465, (set_cwd none_bit))].

(** lines 469-549 *)
Definition minimal_subset_mixedtype_test : list (N * M bool) := [
  (471, clear_flags);
  (473, ((@subset_mixed binary64 binary32) ((@fnan binary64), (@fnan binary64)) ((@fnan binary32), (@fnan binary32))));
  (474, ((@subset_mixed binary64 binary32) ((@fnan binary64), (@fnan binary64)) ((@f0 binary32), (fl binary32 (1) (2)))));
  (475, ((@subset_mixed binary64 binary32) ((@fnan binary64), (@fnan binary64)) ((@fm0 binary32), (fl binary32 (1) (2)))));
  (476, ((@subset_mixed binary64 binary32) ((@fnan binary64), (@fnan binary64)) ((fl binary32 (-13421773) (-27)), (fl binary32 (1) (0)))));
  (477, ((@subset_mixed binary64 binary32) ((@fnan binary64), (@fnan binary64)) ((fl binary32 (-13421773) (-27)), (@f0 binary32))));
  (478, ((@subset_mixed binary64 binary32) ((@fnan binary64), (@fnan binary64)) ((fl binary32 (-13421773) (-27)), (@fm0 binary32))));
  (479, ((@subset_mixed binary64 binary32) ((@fnan binary64), (@fnan binary64)) ((@fminf binary32), (@finf binary32))));
  (481, (mnot ((@subset_mixed binary64 binary32) ((@f0 binary64), (fl binary64 (1) (2))) ((@fnan binary32), (@fnan binary32)))));
  (482, (mnot ((@subset_mixed binary64 binary32) ((@fm0 binary64), (fl binary64 (1) (2))) ((@fnan binary32), (@fnan binary32)))));
  (483, (mnot ((@subset_mixed binary64 binary32) ((fl binary64 (-3602879701896397) (-55)), (fl binary64 (1) (0))) ((@fnan binary32), (@fnan binary32)))));
  (484, (mnot ((@subset_mixed binary64 binary32) ((@fminf binary64), (@finf binary64)) ((@fnan binary32), (@fnan binary32)))));
  (486, ((@subset_mixed binary64 binary32) ((@f0 binary64), (fl binary64 (1) (2))) ((@fminf binary32), (@finf binary32))));
  (487, ((@subset_mixed binary64 binary32) ((@fm0 binary64), (fl binary64 (1) (2))) ((@fminf binary32), (@finf binary32))));
  (488, ((@subset_mixed binary64 binary32) ((fl binary64 (-3602879701896397) (-55)), (fl binary64 (1) (0))) ((@fminf binary32), (@finf binary32))));
  (489, ((@subset_mixed binary64 binary32) ((@fminf binary64), (@finf binary64)) ((@fminf binary32), (@finf binary32))));
  (491, ((@subset_mixed binary64 binary32) ((fl binary64 (1) (0)), (fl binary64 (1) (1))) ((fl binary32 (1) (0)), (fl binary32 (1) (1)))));
  (492, ((@subset_mixed binary64 binary32) ((fl binary64 (1) (0)), (fl binary64 (1) (1))) ((@f0 binary32), (fl binary32 (1) (2)))));
  (493, ((@subset_mixed binary64 binary32) ((fl binary64 (1) (0)), (fl binary64 (1) (1))) ((@fm0 binary32), (fl binary32 (1) (2)))));
  (494, ((@subset_mixed binary64 binary32) ((fl binary64 (3602879701896397) (-55)), (fl binary64 (3602879701896397) (-54))) ((@f0 binary32), (fl binary32 (1) (2)))));
  (495, ((@subset_mixed binary64 binary32) ((fl binary64 (3602879701896397) (-55)), (fl binary64 (3602879701896397) (-54))) ((@fm0 binary32), (fl binary32 (1) (2)))));
  (496, ((@subset_mixed binary64 binary32) ((fl binary64 (-3602879701896397) (-55)), (fl binary64 (-3602879701896397) (-55))) ((fl binary32 (-1) (2)), (fl binary32 (7130317) (-21)))));
  (498, ((@subset_mixed binary64 binary32) ((@f0 binary64), (@f0 binary64)) ((@fm0 binary32), (@fm0 binary32))));
  (499, ((@subset_mixed binary64 binary32) ((@fm0 binary64), (@fm0 binary64)) ((@f0 binary32), (@f0 binary32))));
  (500, ((@subset_mixed binary64 binary32) ((@fm0 binary64), (@f0 binary64)) ((@f0 binary32), (@f0 binary32))));
  (501, ((@subset_mixed binary64 binary32) ((@fm0 binary64), (@f0 binary64)) ((@f0 binary32), (@fm0 binary32))));
  (502, ((@subset_mixed binary64 binary32) ((@f0 binary64), (@fm0 binary64)) ((@f0 binary32), (@f0 binary32))));
  (503, ((@subset_mixed binary64 binary32) ((@f0 binary64), (@fm0 binary64)) ((@fm0 binary32), (@f0 binary32))));
  (506, ((@subset_mixed binary32 binary64) ((@fnan binary32), (@fnan binary32)) ((@fnan binary64), (@fnan binary64))));
  (507, ((@subset_mixed binary32 binary64) ((@fnan binary32), (@fnan binary32)) ((@f0 binary64), (fl binary64 (1) (2)))));
  (508, ((@subset_mixed binary32 binary64) ((@fnan binary32), (@fnan binary32)) ((@fm0 binary64), (fl binary64 (1) (2)))));
  (509, ((@subset_mixed binary32 binary64) ((@fnan binary32), (@fnan binary32)) ((fl binary64 (-3602879701896397) (-55)), (fl binary64 (1) (0)))));
  (510, ((@subset_mixed binary32 binary64) ((@fnan binary32), (@fnan binary32)) ((fl binary64 (-3602879701896397) (-55)), (@f0 binary64))));
  (511, ((@subset_mixed binary32 binary64) ((@fnan binary32), (@fnan binary32)) ((fl binary64 (-3602879701896397) (-55)), (@fm0 binary64))));
  (512, ((@subset_mixed binary32 binary64) ((@fnan binary32), (@fnan binary32)) ((@fminf binary64), (@finf binary64))));
  (514, (mnot ((@subset_mixed binary32 binary64) ((@f0 binary32), (fl binary32 (1) (2))) ((@fnan binary64), (@fnan binary64)))));
  (515, (mnot ((@subset_mixed binary32 binary64) ((@fm0 binary32), (fl binary32 (1) (2))) ((@fnan binary64), (@fnan binary64)))));
  (516, (mnot ((@subset_mixed binary32 binary64) ((fl binary32 (-13421773) (-27)), (fl binary32 (1) (0))) ((@fnan binary64), (@fnan binary64)))));
  (517, (mnot ((@subset_mixed binary32 binary64) ((@fminf binary32), (@finf binary32)) ((@fnan binary64), (@fnan binary64)))));
  (519, ((@subset_mixed binary32 binary64) ((@f0 binary32), (fl binary32 (1) (2))) ((@fminf binary64), (@finf binary64))));
  (520, ((@subset_mixed binary32 binary64) ((@fm0 binary32), (fl binary32 (1) (2))) ((@fminf binary64), (@finf binary64))));
  (521, ((@subset_mixed binary32 binary64) ((fl binary32 (-13421773) (-27)), (fl binary32 (1) (0))) ((@fminf binary64), (@finf binary64))));
  (522, ((@subset_mixed binary32 binary64) ((@fminf binary32), (@finf binary32)) ((@fminf binary64), (@finf binary64))));
  (524, ((@subset_mixed binary32 binary64) ((fl binary32 (1) (0)), (fl binary32 (1) (1))) ((fl binary64 (1) (0)), (fl binary64 (1) (1)))));
  (525, ((@subset_mixed binary32 binary64) ((fl binary32 (1) (0)), (fl binary32 (1) (1))) ((@f0 binary64), (fl binary64 (1) (2)))));
  (526, ((@subset_mixed binary32 binary64) ((fl binary32 (1) (0)), (fl binary32 (1) (1))) ((@fm0 binary64), (fl binary64 (1) (2)))));
  (527, ((@subset_mixed binary32 binary64) ((fl binary32 (13421773) (-27)), (fl binary32 (13421773) (-26))) ((@f0 binary64), (fl binary64 (1) (2)))));
  (528, ((@subset_mixed binary32 binary64) ((fl binary32 (13421773) (-27)), (fl binary32 (13421773) (-26))) ((@fm0 binary64), (fl binary64 (1) (2)))));
  (529, ((@subset_mixed binary32 binary64) ((fl binary32 (-13421773) (-27)), (fl binary32 (-13421773) (-27))) ((fl binary64 (-1) (2)), (fl binary64 (7656119366529843) (-51)))));
  (531, ((@subset_mixed binary32 binary64) ((@f0 binary32), (@f0 binary32)) ((@fm0 binary64), (@fm0 binary64))));
  (532, ((@subset_mixed binary32 binary64) ((@fm0 binary32), (@fm0 binary32)) ((@f0 binary64), (@f0 binary64))));
  (533, ((@subset_mixed binary32 binary64) ((@fm0 binary32), (@f0 binary32)) ((@f0 binary64), (@f0 binary64))));
  (534, ((@subset_mixed binary32 binary64) ((@fm0 binary32), (@f0 binary32)) ((@f0 binary64), (@fm0 binary64))));
  (535, ((@subset_mixed binary32 binary64) ((@f0 binary32), (@fm0 binary32)) ((@f0 binary64), (@f0 binary64))));
  (536, ((@subset_mixed binary32 binary64) ((@f0 binary32), (@fm0 binary32)) ((@fm0 binary64), (@f0 binary64))));
  (538, (bind get_flags (fun v1 => ret (N.eqb v1 none_bit))));
  (540, clear_flags);
  (541, (mnot ((@subset_mixed binary32 binary64) ((fl binary32 (1) (0)), (fl binary32 (-1) (1))) ((@f0 binary64), (fl binary64 (1) (2))))));
  (542, (bind get_flags (fun v1 => ret (N.eqb v1 invalid_operand_bit))));
  (543, clear_flags);
  (544, (set_cwd invalid_operand_bit));
  (545, (throws ((@subset_mixed binary32 binary64) ((fl binary32 (1) (0)), (fl binary32 (1) (1))) ((@f0 binary64), (fl binary64 (-1) (2)))) Invalid_operand_exception));
  (546, (bind get_flags (fun v1 => ret (N.eqb v1 invalid_operand_bit))));
  (547, clear_flags);
  (548, (set_cwd none_bit))].

(** lines 552-603 *)
Definition minimal_subset_dec_test : list (N * M bool) := [
  (554, clear_flags);
  (556, (mnot (@rel_dec binary64 binary64 (@subset binary64) (((@fnan binary64), (@fnan binary64)), ill) (((@fnan binary64), (@fnan binary64)), ill))));
  (557, (mnot (@rel_dec binary64 binary64 (@subset binary64) (((@fnan binary64), (@fnan binary64)), ill) (((@fnan binary64), (@fnan binary64)), trv))));
  (558, (mnot (@rel_dec binary64 binary64 (@subset binary64) (((@fnan binary64), (@fnan binary64)), ill) (((@f0 binary64), (fl binary64 (1) (2))), trv))));
  (560, (@rel_dec binary64 binary64 (@subset binary64) (((@fnan binary64), (@fnan binary64)), trv) (((@fnan binary64), (@fnan binary64)), trv)));
  (561, (@rel_dec binary64 binary64 (@subset binary64) (((@fnan binary64), (@fnan binary64)), trv) (((@f0 binary64), (fl binary64 (1) (2))), trv)));
  (562, (@rel_dec binary64 binary64 (@subset binary64) (((@fnan binary64), (@fnan binary64)), trv) (((@fm0 binary64), (fl binary64 (1) (2))), def)));
  (563, (@rel_dec binary64 binary64 (@subset binary64) (((@fnan binary64), (@fnan binary64)), trv) (((fl binary64 (-3602879701896397) (-55)), (fl binary64 (1) (0))), trv)));
  (564, (@rel_dec binary64 binary64 (@subset binary64) (((@fnan binary64), (@fnan binary64)), trv) (((fl binary64 (-3602879701896397) (-55)), (@f0 binary64)), trv)));
  (565, (@rel_dec binary64 binary64 (@subset binary64) (((@fnan binary64), (@fnan binary64)), trv) (((fl binary64 (-3602879701896397) (-55)), (@fm0 binary64)), trv)));
  (566, (@rel_dec binary64 binary64 (@subset binary64) (((@fnan binary64), (@fnan binary64)), trv) (((@fminf binary64), (@finf binary64)), trv)));
  (568, (mnot (@rel_dec binary64 binary64 (@subset binary64) (((@f0 binary64), (fl binary64 (1) (2))), trv) (((@fnan binary64), (@fnan binary64)), trv))));
  (569, (mnot (@rel_dec binary64 binary64 (@subset binary64) (((@fm0 binary64), (fl binary64 (1) (2))), def) (((@fnan binary64), (@fnan binary64)), trv))));
  (570, (mnot (@rel_dec binary64 binary64 (@subset binary64) (((fl binary64 (-3602879701896397) (-55)), (fl binary64 (1) (0))), trv) (((@fnan binary64), (@fnan binary64)), trv))));
  (571, (mnot (@rel_dec binary64 binary64 (@subset binary64) (((@fminf binary64), (@finf binary64)), trv) (((@fnan binary64), (@fnan binary64)), trv))));
  (573, (@rel_dec binary64 binary64 (@subset binary64) (((@f0 binary64), (fl binary64 (1) (2))), trv) (((@fminf binary64), (@finf binary64)), trv)));
  (574, (@rel_dec binary64 binary64 (@subset binary64) (((@fm0 binary64), (fl binary64 (1) (2))), trv) (((@fminf binary64), (@finf binary64)), trv)));
  (575, (@rel_dec binary64 binary64 (@subset binary64) (((fl binary64 (-3602879701896397) (-55)), (fl binary64 (1) (0))), trv) (((@fminf binary64), (@finf binary64)), trv)));
  (576, (@rel_dec binary64 binary64 (@subset binary64) (((@fminf binary64), (@finf binary64)), trv) (((@fminf binary64), (@finf binary64)), trv)));
  (578, (@rel_dec binary64 binary64 (@subset binary64) (((fl binary64 (1) (0)), (fl binary64 (1) (1))), trv) (((fl binary64 (1) (0)), (fl binary64 (1) (1))), trv)));
  (579, (@rel_dec binary64 binary64 (@subset binary64) (((fl binary64 (1) (0)), (fl binary64 (1) (1))), trv) (((@f0 binary64), (fl binary64 (1) (2))), trv)));
  (580, (@rel_dec binary64 binary64 (@subset binary64) (((fl binary64 (1) (0)), (fl binary64 (1) (1))), def) (((@fm0 binary64), (fl binary64 (1) (2))), def)));
  (581, (@rel_dec binary64 binary64 (@subset binary64) (((fl binary64 (3602879701896397) (-55)), (fl binary64 (3602879701896397) (-54))), trv) (((@f0 binary64), (fl binary64 (1) (2))), trv)));
  (582, (@rel_dec binary64 binary64 (@subset binary64) (((fl binary64 (3602879701896397) (-55)), (fl binary64 (3602879701896397) (-54))), trv) (((@fm0 binary64), (fl binary64 (1) (2))), def)));
  (583, (@rel_dec binary64 binary64 (@subset binary64) (((fl binary64 (-3602879701896397) (-55)), (fl binary64 (-3602879701896397) (-55))), trv) (((fl binary64 (-1) (2)), (fl binary64 (7656119366529843) (-51))), trv)));
  (585, (@rel_dec binary64 binary64 (@subset binary64) (((@f0 binary64), (@f0 binary64)), trv) (((@fm0 binary64), (@fm0 binary64)), trv)));
  (586, (@rel_dec binary64 binary64 (@subset binary64) (((@fm0 binary64), (@fm0 binary64)), trv) (((@f0 binary64), (@f0 binary64)), def)));
  (587, (@rel_dec binary64 binary64 (@subset binary64) (((@fm0 binary64), (@f0 binary64)), trv) (((@f0 binary64), (@f0 binary64)), trv)));
  (588, (@rel_dec binary64 binary64 (@subset binary64) (((@fm0 binary64), (@f0 binary64)), trv) (((@f0 binary64), (@fm0 binary64)), trv)));
  (589, (@rel_dec binary64 binary64 (@subset binary64) (((@f0 binary64), (@fm0 binary64)), def) (((@f0 binary64), (@f0 binary64)), trv)));
  (590, (@rel_dec binary64 binary64 (@subset binary64) (((@f0 binary64), (@fm0 binary64)), trv) (((@fm0 binary64), (@f0 binary64)), trv)));
  (592, (bind get_flags (fun v1 => ret (N.eqb v1 none_bit))));
  (594, clear_flags);
  (595, (mnot (@rel_dec binary64 binary64 (@subset binary64) (((fl binary64 (1) (0)), (fl binary64 (-1) (1))), trv) (((fl binary64 (1) (0)), (fl binary64 (1) (1))), trv))));
  (596, (bind get_flags (fun v1 => ret (N.eqb v1 invalid_operand_bit))));
  (597, clear_flags);
  (598, (set_cwd invalid_operand_bit));
  (599, (throws (@rel_dec binary64 binary64 (@subset binary64) (((fl binary64 (1) (0)), (fl binary64 (1) (1))), trv) (((fl binary64 (1) (0)), (fl binary64 (1) (1))), ill)) Invalid_operand_exception));
  (600, (bind get_flags (fun v1 => ret (N.eqb v1 invalid_operand_bit))));
  (601, clear_flags);
  (602, (set_cwd none_bit))].

(** lines 606-693 *)
Definition minimal_subset_dec_mixedtype_test : list (N * M bool) := [
  (608, clear_flags);
  (610, (mnot (@rel_dec binary64 binary32 (@subset_mixed binary64 binary32) (((@fnan binary64), (@fnan binary64)), ill) (((@fnan binary32), (@fnan binary32)), ill))));
  (611, (mnot (@rel_dec binary64 binary32 (@subset_mixed binary64 binary32) (((@fnan binary64), (@fnan binary64)), ill) (((@fnan binary32), (@fnan binary32)), trv))));
  (612, (mnot (@rel_dec binary64 binary32 (@subset_mixed binary64 binary32) (((@fnan binary64), (@fnan binary64)), ill) (((@f0 binary32), (fl binary32 (1) (2))), trv))));
  (614, (@rel_dec binary64 binary32 (@subset_mixed binary64 binary32) (((@fnan binary64), (@fnan binary64)), trv) (((@fnan binary32), (@fnan binary32)), trv)));
  (615, (@rel_dec binary64 binary32 (@subset_mixed binary64 binary32) (((@fnan binary64), (@fnan binary64)), trv) (((@f0 binary32), (fl binary32 (1) (2))), trv)));
  (616, (@rel_dec binary64 binary32 (@subset_mixed binary64 binary32) (((@fnan binary64), (@fnan binary64)), trv) (((@fm0 binary32), (fl binary32 (1) (2))), def)));
  (617, (@rel_dec binary64 binary32 (@subset_mixed binary64 binary32) (((@fnan binary64), (@fnan binary64)), trv) (((fl binary32 (-13421773) (-27)), (fl binary32 (1) (0))), trv)));
  (618, (@rel_dec binary64 binary32 (@subset_mixed binary64 binary32) (((@fnan binary64), (@fnan binary64)), trv) (((fl binary32 (-13421773) (-27)), (@f0 binary32)), trv)));
  (619, (@rel_dec binary64 binary32 (@subset_mixed binary64 binary32) (((@fnan binary64), (@fnan binary64)), trv) (((fl binary32 (-13421773) (-27)), (@fm0 binary32)), trv)));
  (620, (@rel_dec binary64 binary32 (@subset_mixed binary64 binary32) (((@fnan binary64), (@fnan binary64)), trv) (((@fminf binary32), (@finf binary32)), trv)));
  (622, (mnot (@rel_dec binary64 binary32 (@subset_mixed binary64 binary32) (((@f0 binary64), (fl binary64 (1) (2))), trv) (((@fnan binary32), (@fnan binary32)), trv))));
  (623, (mnot (@rel_dec binary64 binary32 (@subset_mixed binary64 binary32) (((@fm0 binary64), (fl binary64 (1) (2))), def) (((@fnan binary32), (@fnan binary32)), trv))));
  (624, (mnot (@rel_dec binary64 binary32 (@subset_mixed binary64 binary32) (((fl binary64 (-3602879701896397) (-55)), (fl binary64 (1) (0))), trv) (((@fnan binary32), (@fnan binary32)), trv))));
  (625, (mnot (@rel_dec binary64 binary32 (@subset_mixed binary64 binary32) (((@fminf binary64), (@finf binary64)), trv) (((@fnan binary32), (@fnan binary32)), trv))));
  (627, (@rel_dec binary64 binary32 (@subset_mixed binary64 binary32) (((@f0 binary64), (fl binary64 (1) (2))), trv) (((@fminf binary32), (@finf binary32)), trv)));
  (628, (@rel_dec binary64 binary32 (@subset_mixed binary64 binary32) (((@fm0 binary64), (fl binary64 (1) (2))), trv) (((@fminf binary32), (@finf binary32)), trv)));
  (629, (@rel_dec binary64 binary32 (@subset_mixed binary64 binary32) (((fl binary64 (-3602879701896397) (-55)), (fl binary64 (1) (0))), trv) (((@fminf binary32), (@finf binary32)), trv)));
  (630, (@rel_dec binary64 binary32 (@subset_mixed binary64 binary32) (((@fminf binary64), (@finf binary64)), trv) (((@fminf binary32), (@finf binary32)), trv)));
  (632, (@rel_dec binary64 binary32 (@subset_mixed binary64 binary32) (((fl binary64 (1) (0)), (fl binary64 (1) (1))), trv) (((fl binary32 (1) (0)), (fl binary32 (1) (1))), trv)));
  (633, (@rel_dec binary64 binary32 (@subset_mixed binary64 binary32) (((fl binary64 (1) (0)), (fl binary64 (1) (1))), trv) (((@f0 binary32), (fl binary32 (1) (2))), trv)));
  (634, (@rel_dec binary64 binary32 (@subset_mixed binary64 binary32) (((fl binary64 (1) (0)), (fl binary64 (1) (1))), def) (((@fm0 binary32), (fl binary32 (1) (2))), def)));
  (635, (@rel_dec binary64 binary32 (@subset_mixed binary64 binary32) (((fl binary64 (3602879701896397) (-55)), (fl binary64 (3602879701896397) (-54))), trv) (((@f0 binary32), (fl binary32 (1) (2))), trv)));
  (636, (@rel_dec binary64 binary32 (@subset_mixed binary64 binary32) (((fl binary64 (3602879701896397) (-55)), (fl binary64 (3602879701896397) (-54))), trv) (((@fm0 binary32), (fl binary32 (1) (2))), def)));
  (637, (@rel_dec binary64 binary32 (@subset_mixed binary64 binary32) (((fl binary64 (-3602879701896397) (-55)), (fl binary64 (-3602879701896397) (-55))), trv) (((fl binary32 (-1) (2)), (fl binary32 (7130317) (-21))), trv)));
  (639, (@rel_dec binary64 binary32 (@subset_mixed binary64 binary32) (((@f0 binary64), (@f0 binary64)), trv) (((@fm0 binary32), (@fm0 binary32)), trv)));
  (640, (@rel_dec binary64 binary32 (@subset_mixed binary64 binary32) (((@fm0 binary64), (@fm0 binary64)), trv) (((@f0 binary32), (@f0 binary32)), trv)));
  (641, (@rel_dec binary64 binary32 (@subset_mixed binary64 binary32) (((@fm0 binary64), (@f0 binary64)), def) (((@f0 binary32), (@f0 binary32)), trv)));
  (642, (@rel_dec binary64 binary32 (@subset_mixed binary64 binary32) (((@fm0 binary64), (@f0 binary64)), trv) (((@f0 binary32), (@fm0 binary32)), trv)));
  (643, (@rel_dec binary64 binary32 (@subset_mixed binary64 binary32) (((@f0 binary64), (@fm0 binary64)), trv) (((@f0 binary32), (@f0 binary32)), def)));
  (644, (@rel_dec binary64 binary32 (@subset_mixed binary64 binary32) (((@f0 binary64), (@fm0 binary64)), trv) (((@fm0 binary32), (@f0 binary32)), trv)));
  (646, (mnot (@rel_dec binary32 binary64 (@subset_mixed binary32 binary64) (((@fnan binary32), (@fnan binary32)), ill) (((@fnan binary64), (@fnan binary64)), ill))));
  (647, (mnot (@rel_dec binary32 binary64 (@subset_mixed binary32 binary64) (((@fnan binary32), (@fnan binary32)), ill) (((@fnan binary64), (@fnan binary64)), trv))));
  (648, (mnot (@rel_dec binary32 binary64 (@subset_mixed binary32 binary64) (((@fnan binary32), (@fnan binary32)), ill) (((@f0 binary64), (fl binary64 (1) (2))), trv))));
  (650, (@rel_dec binary32 binary64 (@subset_mixed binary32 binary64) (((@fnan binary32), (@fnan binary32)), trv) (((@fnan binary64), (@fnan binary64)), trv)));
  (651, (@rel_dec binary32 binary64 (@subset_mixed binary32 binary64) (((@fnan binary32), (@fnan binary32)), trv) (((@f0 binary64), (fl binary64 (1) (2))), trv)));
  (652, (@rel_dec binary32 binary64 (@subset_mixed binary32 binary64) (((@fnan binary32), (@fnan binary32)), trv) (((@fm0 binary64), (fl binary64 (1) (2))), trv)));
  (653, (@rel_dec binary32 binary64 (@subset_mixed binary32 binary64) (((@fnan binary32), (@fnan binary32)), trv) (((fl binary64 (-3602879701896397) (-55)), (fl binary64 (1) (0))), def)));
  (654, (@rel_dec binary32 binary64 (@subset_mixed binary32 binary64) (((@fnan binary32), (@fnan binary32)), trv) (((fl binary64 (-3602879701896397) (-55)), (@f0 binary64)), trv)));
  (655, (@rel_dec binary32 binary64 (@subset_mixed binary32 binary64) (((@fnan binary32), (@fnan binary32)), trv) (((fl binary64 (-3602879701896397) (-55)), (@fm0 binary64)), trv)));
  (656, (@rel_dec binary32 binary64 (@subset_mixed binary32 binary64) (((@fnan binary32), (@fnan binary32)), trv) (((@fminf binary64), (@finf binary64)), trv)));
  (658, (mnot (@rel_dec binary32 binary64 (@subset_mixed binary32 binary64) (((@f0 binary32), (fl binary32 (1) (2))), trv) (((@fnan binary64), (@fnan binary64)), trv))));
  (659, (mnot (@rel_dec binary32 binary64 (@subset_mixed binary32 binary64) (((@fm0 binary32), (fl binary32 (1) (2))), def) (((@fnan binary64), (@fnan binary64)), trv))));
  (660, (mnot (@rel_dec binary32 binary64 (@subset_mixed binary32 binary64) (((fl binary32 (-13421773) (-27)), (fl binary32 (1) (0))), trv) (((@fnan binary64), (@fnan binary64)), trv))));
  (661, (mnot (@rel_dec binary32 binary64 (@subset_mixed binary32 binary64) (((@fminf binary32), (@finf binary32)), trv) (((@fnan binary64), (@fnan binary64)), trv))));
  (663, (@rel_dec binary32 binary64 (@subset_mixed binary32 binary64) (((@f0 binary32), (fl binary32 (1) (2))), trv) (((@fminf binary64), (@finf binary64)), trv)));
  (664, (@rel_dec binary32 binary64 (@subset_mixed binary32 binary64) (((@fm0 binary32), (fl binary32 (1) (2))), trv) (((@fminf binary64), (@finf binary64)), trv)));
  (665, (@rel_dec binary32 binary64 (@subset_mixed binary32 binary64) (((fl binary32 (-13421773) (-27)), (fl binary32 (1) (0))), trv) (((@fminf binary64), (@finf binary64)), trv)));
  (666, (@rel_dec binary32 binary64 (@subset_mixed binary32 binary64) (((@fminf binary32), (@finf binary32)), trv) (((@fminf binary64), (@finf binary64)), trv)));
  (668, (@rel_dec binary32 binary64 (@subset_mixed binary32 binary64) (((fl binary32 (1) (0)), (fl binary32 (1) (1))), trv) (((fl binary64 (1) (0)), (fl binary64 (1) (1))), trv)));
  (669, (@rel_dec binary32 binary64 (@subset_mixed binary32 binary64) (((fl binary32 (1) (0)), (fl binary32 (1) (1))), trv) (((@f0 binary64), (fl binary64 (1) (2))), trv)));
  (670, (@rel_dec binary32 binary64 (@subset_mixed binary32 binary64) (((fl binary32 (1) (0)), (fl binary32 (1) (1))), def) (((@fm0 binary64), (fl binary64 (1) (2))), trv)));
  (671, (@rel_dec binary32 binary64 (@subset_mixed binary32 binary64) (((fl binary32 (13421773) (-27)), (fl binary32 (13421773) (-26))), trv) (((@f0 binary64), (fl binary64 (1) (2))), trv)));
  (672, (@rel_dec binary32 binary64 (@subset_mixed binary32 binary64) (((fl binary32 (13421773) (-27)), (fl binary32 (13421773) (-26))), trv) (((@fm0 binary64), (fl binary64 (1) (2))), def)));
  (673, (@rel_dec binary32 binary64 (@subset_mixed binary32 binary64) (((fl binary32 (-13421773) (-27)), (fl binary32 (-13421773) (-27))), trv) (((fl binary64 (-1) (2)), (fl binary64 (7656119366529843) (-51))), trv)));
  (675, (@rel_dec binary32 binary64 (@subset_mixed binary32 binary64) (((@f0 binary32), (@f0 binary32)), trv) (((@fm0 binary64), (@fm0 binary64)), trv)));
  (676, (@rel_dec binary32 binary64 (@subset_mixed binary32 binary64) (((@fm0 binary32), (@fm0 binary32)), trv) (((@f0 binary64), (@f0 binary64)), trv)));
  (677, (@rel_dec binary32 binary64 (@subset_mixed binary32 binary64) (((@fm0 binary32), (@f0 binary32)), trv) (((@f0 binary64), (@f0 binary64)), trv)));
  (678, (@rel_dec binary32 binary64 (@subset_mixed binary32 binary64) (((@fm0 binary32), (@f0 binary32)), trv) (((@f0 binary64), (@fm0 binary64)), def)));
  (679, (@rel_dec binary32 binary64 (@subset_mixed binary32 binary64) (((@f0 binary32), (@fm0 binary32)), trv) (((@f0 binary64), (@f0 binary64)), trv)));
  (680, (@rel_dec binary32 binary64 (@subset_mixed binary32 binary64) (((@f0 binary32), (@fm0 binary32)), trv) (((@fm0 binary64), (@f0 binary64)), trv)));
  (682, (bind get_flags (fun v1 => ret (N.eqb v1 none_bit))));
  (684, clear_flags);
  (685, (mnot (@rel_dec binary32 binary64 (@subset_mixed binary32 binary64) (((@f0 binary32), (fl binary32 (1) (2))), trv) (((@fnan binary64), (@fnan binary64)), def))));
  (686, (bind get_flags (fun v1 => ret (N.eqb v1 invalid_operand_bit))));
  (687, clear_flags);
  (688, (set_cwd invalid_operand_bit));
  (689, (throws (@rel_dec binary32 binary64 (@subset_mixed binary32 binary64) (((@f0 binary32), (fl binary32 (1) (2))), ill) (((@fnan binary64), (@fnan binary64)), trv)) Invalid_operand_exception));
  (690, (bind get_flags (fun v1 => ret (N.eqb v1 invalid_operand_bit))));
  (691, clear_flags);
  (692, (set_cwd none_bit))].

(** lines 696-742 *)
Definition minimal_less_test : list (N * M bool) := [
  (698, clear_flags);
  (700, ((@less binary64) ((@fnan binary64), (@fnan binary64)) ((@fnan binary64), (@fnan binary64))));
  (701, (mnot ((@less binary64) ((fl binary64 (1) (0)), (fl binary64 (1) (1))) ((@fnan binary64), (@fnan binary64)))));
  (702, (mnot ((@less binary64) ((@fnan binary64), (@fnan binary64)) ((fl binary64 (1) (0)), (fl binary64 (1) (1))))));
  (704, ((@less binary64) ((@fminf binary64), (@finf binary64)) ((@fminf binary64), (@finf binary64))));
  (705, (mnot ((@less binary64) ((fl binary64 (1) (0)), (fl binary64 (1) (1))) ((@fminf binary64), (@finf binary64)))));
  (706, (mnot ((@less binary64) ((@f0 binary64), (fl binary64 (1) (1))) ((@fminf binary64), (@finf binary64)))));
  (707, (mnot ((@less binary64) ((@fm0 binary64), (fl binary64 (1) (1))) ((@fminf binary64), (@finf binary64)))));
  (708, (mnot ((@less binary64) ((@fminf binary64), (@finf binary64)) ((fl binary64 (1) (0)), (fl binary64 (1) (1))))));
  (709, (mnot ((@less binary64) ((@fminf binary64), (@finf binary64)) ((@f0 binary64), (fl binary64 (1) (1))))));
  (710, (mnot ((@less binary64) ((@fminf binary64), (@finf binary64)) ((@fm0 binary64), (fl binary64 (1) (1))))));
  (712, ((@less binary64) ((@f0 binary64), (fl binary64 (1) (1))) ((@f0 binary64), (fl binary64 (1) (1)))));
  (713, ((@less binary64) ((@f0 binary64), (fl binary64 (1) (1))) ((@fm0 binary64), (fl binary64 (1) (1)))));
  (714, ((@less binary64) ((@f0 binary64), (fl binary64 (1) (1))) ((fl binary64 (1) (0)), (fl binary64 (1) (1)))));
  (715, ((@less binary64) ((@fm0 binary64), (fl binary64 (1) (1))) ((fl binary64 (1) (0)), (fl binary64 (1) (1)))));
  (716, ((@less binary64) ((fl binary64 (1) (0)), (fl binary64 (1) (1))) ((fl binary64 (1) (0)), (fl binary64 (1) (1)))));
  (717, ((@less binary64) ((fl binary64 (1) (0)), (fl binary64 (1) (1))) ((fl binary64 (3) (0)), (fl binary64 (1) (2)))));
  (718, ((@less binary64) ((fl binary64 (1) (0)), (fl binary64 (7) (-1))) ((fl binary64 (3) (0)), (fl binary64 (1) (2)))));
  (719, ((@less binary64) ((fl binary64 (1) (0)), (fl binary64 (1) (2))) ((fl binary64 (3) (0)), (fl binary64 (1) (2)))));
  (721, ((@less binary64) ((fl binary64 (-1) (1)), (fl binary64 (-1) (0))) ((fl binary64 (-1) (1)), (fl binary64 (-1) (0)))));
  (722, ((@less binary64) ((fl binary64 (-3) (0)), (fl binary64 (-3) (-1))) ((fl binary64 (-1) (1)), (fl binary64 (-1) (0)))));
  (724, ((@less binary64) ((@f0 binary64), (@f0 binary64)) ((@fm0 binary64), (@fm0 binary64))));
  (725, ((@less binary64) ((@fm0 binary64), (@fm0 binary64)) ((@f0 binary64), (@f0 binary64))));
  (726, ((@less binary64) ((@fm0 binary64), (@f0 binary64)) ((@f0 binary64), (@f0 binary64))));
  (727, ((@less binary64) ((@fm0 binary64), (@f0 binary64)) ((@f0 binary64), (@fm0 binary64))));
  (728, ((@less binary64) ((@f0 binary64), (@fm0 binary64)) ((@f0 binary64), (@f0 binary64))));
  (729, ((@less binary64) ((@f0 binary64), (@fm0 binary64)) ((@fm0 binary64), (@f0 binary64))));
  (731, (bind get_flags (fun v1 => ret (N.eqb v1 none_bit))));
  (733, clear_flags);
  (734, (mnot ((@less binary64) ((@f0 binary64), (fl binary64 (1) (1))) ((fl binary64 (1) (0)), (fl binary64 (-1) (1))))));
  (735, (bind get_flags (fun v1 => ret (N.eqb v1 invalid_operand_bit))));
  (736, clear_flags);
  (737, (set_cwd invalid_operand_bit));
  (738, (throws ((@less binary64) ((@f0 binary64), (@fnan binary64)) ((fl binary64 (1) (0)), (fl binary64 (1) (1)))) Invalid_operand_exception));
  (739, (bind get_flags (fun v1 => ret (N.eqb v1 invalid_operand_bit))));
  (740, clear_flags);
  (741, (set_cwd none_bit))].

(** lines 745-823 *)
Definition minimal_less_mixedtype_test : list (N * M bool) := [
  (747, clear_flags);
  (749, ((@less_mixed binary64 binary32) ((@fnan binary64), (@fnan binary64)) ((@fnan binary32), (@fnan binary32))));
  (750, (mnot ((@less_mixed binary64 binary32) ((fl binary64 (1) (0)), (fl binary64 (1) (1))) ((@fnan binary32), (@fnan binary32)))));
  (751, (mnot ((@less_mixed binary64 binary32) ((@fnan binary64), (@fnan binary64)) ((fl binary32 (1) (0)), (fl binary32 (1) (1))))));
  (753, ((@less_mixed binary64 binary32) ((@fminf binary64), (@finf binary64)) ((@fminf binary32), (@finf binary32))));
  (754, (mnot ((@less_mixed binary64 binary32) ((fl binary64 (1) (0)), (fl binary64 (1) (1))) ((@fminf binary32), (@finf binary32)))));
  (755, (mnot ((@less_mixed binary64 binary32) ((@f0 binary64), (fl binary64 (1) (1))) ((@fminf binary32), (@finf binary32)))));
  (756, (mnot ((@less_mixed binary64 binary32) ((@fm0 binary64), (fl binary64 (1) (1))) ((@fminf binary32), (@finf binary32)))));
  (757, (mnot ((@less_mixed binary64 binary32) ((@fminf binary64), (@finf binary64)) ((fl binary32 (1) (0)), (fl binary32 (1) (1))))));
  (758, (mnot ((@less_mixed binary64 binary32) ((@fminf binary64), (@finf binary64)) ((@f0 binary32), (fl binary32 (1) (1))))));
  (759, (mnot ((@less_mixed binary64 binary32) ((@fminf binary64), (@finf binary64)) ((@fm0 binary32), (fl binary32 (1) (1))))));
  (761, ((@less_mixed binary64 binary32) ((@f0 binary64), (fl binary64 (1) (1))) ((@f0 binary32), (fl binary32 (1) (1)))));
  (762, ((@less_mixed binary64 binary32) ((@f0 binary64), (fl binary64 (1) (1))) ((@fm0 binary32), (fl binary32 (1) (1)))));
  (763, ((@less_mixed binary64 binary32) ((@f0 binary64), (fl binary64 (1) (1))) ((fl binary32 (1) (0)), (fl binary32 (1) (1)))));
  (764, ((@less_mixed binary64 binary32) ((@fm0 binary64), (fl binary64 (1) (1))) ((fl binary32 (1) (0)), (fl binary32 (1) (1)))));
  (765, ((@less_mixed binary64 binary32) ((fl binary64 (1) (0)), (fl binary64 (1) (1))) ((fl binary32 (1) (0)), (fl binary32 (1) (1)))));
  (766, ((@less_mixed binary64 binary32) ((fl binary64 (1) (0)), (fl binary64 (1) (1))) ((fl binary32 (3) (0)), (fl binary32 (1) (2)))));
  (767, ((@less_mixed binary64 binary32) ((fl binary64 (1) (0)), (fl binary64 (7) (-1))) ((fl binary32 (3) (0)), (fl binary32 (1) (2)))));
  (768, ((@less_mixed binary64 binary32) ((fl binary64 (1) (0)), (fl binary64 (1) (2))) ((fl binary32 (3) (0)), (fl binary32 (1) (2)))));
  (770, ((@less_mixed binary64 binary32) ((fl binary64 (-1) (1)), (fl binary64 (-1) (0))) ((fl binary32 (-1) (1)), (fl binary32 (-1) (0)))));
  (771, ((@less_mixed binary64 binary32) ((fl binary64 (-3) (0)), (fl binary64 (-3) (-1))) ((fl binary32 (-1) (1)), (fl binary32 (-1) (0)))));
  (773, ((@less_mixed binary64 binary32) ((@f0 binary64), (@f0 binary64)) ((@fm0 binary32), (@fm0 binary32))));
  (774, ((@less_mixed binary64 binary32) ((@fm0 binary64), (@fm0 binary64)) ((@f0 binary32), (@f0 binary32))));
  (775, ((@less_mixed binary64 binary32) ((@fm0 binary64), (@f0 binary64)) ((@f0 binary32), (@f0 binary32))));
  (776, ((@less_mixed binary64 binary32) ((@fm0 binary64), (@f0 binary64)) ((@f0 binary32), (@fm0 binary32))));
  (777, ((@less_mixed binary64 binary32) ((@f0 binary64), (@fm0 binary64)) ((@f0 binary32), (@f0 binary32))));
  (778, ((@less_mixed binary64 binary32) ((@f0 binary64), (@fm0 binary64)) ((@fm0 binary32), (@f0 binary32))));
  (781, ((@less_mixed binary32 binary64) ((@fnan binary32), (@fnan binary32)) ((@fnan binary64), (@fnan binary64))));
  (782, (mnot ((@less_mixed binary32 binary64) ((fl binary32 (1) (0)), (fl binary32 (1) (1))) ((@fnan binary64), (@fnan binary64)))));
  (783, (mnot ((@less_mixed binary32 binary64) ((@fnan binary32), (@fnan binary32)) ((fl binary64 (1) (0)), (fl binary64 (1) (1))))));
  (785, ((@less_mixed binary32 binary64) ((@fminf binary32), (@finf binary32)) ((@fminf binary64), (@finf binary64))));
  (786, (mnot ((@less_mixed binary32 binary64) ((fl binary32 (1) (0)), (fl binary32 (1) (1))) ((@fminf binary64), (@finf binary64)))));
  (787, (mnot ((@less_mixed binary32 binary64) ((@f0 binary32), (fl binary32 (1) (1))) ((@fminf binary64), (@finf binary64)))));
  (788, (mnot ((@less_mixed binary32 binary64) ((@fm0 binary32), (fl binary32 (1) (1))) ((@fminf binary64), (@finf binary64)))));
  (789, (mnot ((@less_mixed binary32 binary64) ((@fminf binary32), (@finf binary32)) ((fl binary64 (1) (0)), (fl binary64 (1) (1))))));
  (790, (mnot ((@less_mixed binary32 binary64) ((@fminf binary32), (@finf binary32)) ((@f0 binary64), (fl binary64 (1) (1))))));
  (791, (mnot ((@less_mixed binary32 binary64) ((@fminf binary32), (@finf binary32)) ((@fm0 binary64), (fl binary64 (1) (1))))));
  (793, ((@less_mixed binary32 binary64) ((@f0 binary32), (fl binary32 (1) (1))) ((@f0 binary64), (fl binary64 (1) (1)))));
  (794, ((@less_mixed binary32 binary64) ((@f0 binary32), (fl binary32 (1) (1))) ((@fm0 binary64), (fl binary64 (1) (1)))));
  (795, ((@less_mixed binary32 binary64) ((@f0 binary32), (fl binary32 (1) (1))) ((fl binary64 (1) (0)), (fl binary64 (1) (1)))));
  (796, ((@less_mixed binary32 binary64) ((@fm0 binary32), (fl binary32 (1) (1))) ((fl binary64 (1) (0)), (fl binary64 (1) (1)))));
  (797, ((@less_mixed binary32 binary64) ((fl binary32 (1) (0)), (fl binary32 (1) (1))) ((fl binary64 (1) (0)), (fl binary64 (1) (1)))));
  (798, ((@less_mixed binary32 binary64) ((fl binary32 (1) (0)), (fl binary32 (1) (1))) ((fl binary64 (3) (0)), (fl binary64 (1) (2)))));
  (799, ((@less_mixed binary32 binary64) ((fl binary32 (1) (0)), (fl binary32 (7) (-1))) ((fl binary64 (3) (0)), (fl binary64 (1) (2)))));
  (800, ((@less_mixed binary32 binary64) ((fl binary32 (1) (0)), (fl binary32 (1) (2))) ((fl binary64 (3) (0)), (fl binary64 (1) (2)))));
  (802, ((@less_mixed binary32 binary64) ((fl binary32 (-1) (1)), (fl binary32 (-1) (0))) ((fl binary64 (-1) (1)), (fl binary64 (-1) (0)))));
  (803, ((@less_mixed binary32 binary64) ((fl binary32 (-3) (0)), (fl binary32 (-3) (-1))) ((fl binary64 (-1) (1)), (fl binary64 (-1) (0)))));
  (805, ((@less_mixed binary32 binary64) ((@f0 binary32), (@f0 binary32)) ((@fm0 binary64), (@fm0 binary64))));
  (806, ((@less_mixed binary32 binary64) ((@fm0 binary32), (@fm0 binary32)) ((@f0 binary64), (@f0 binary64))));
  (807, ((@less_mixed binary32 binary64) ((@fm0 binary32), (@f0 binary32)) ((@f0 binary64), (@f0 binary64))));
  (808, ((@less_mixed binary32 binary64) ((@fm0 binary32), (@f0 binary32)) ((@f0 binary64), (@fm0 binary64))));
  (809, ((@less_mixed binary32 binary64) ((@f0 binary32), (@fm0 binary32)) ((@f0 binary64), (@f0 binary64))));
  (810, ((@less_mixed binary32 binary64) ((@f0 binary32), (@fm0 binary32)) ((@fm0 binary64), (@f0 binary64))));
  (812, (bind get_flags (fun v1 => ret (N.eqb v1 none_bit))));
  (814, clear_flags);
  (815, (mnot ((@less_mixed binary64 binary32) ((fl binary64 (1) (0)), (fl binary64 (1) (1))) ((fl binary32 (1) (0)), (fl binary32 (-1) (1))))));
  (816, (bind get_flags (fun v1 => ret (N.eqb v1 invalid_operand_bit))));
  (817, clear_flags);
  (818, (set_cwd invalid_operand_bit));
  (819, (throws ((@less_mixed binary64 binary32) ((fl binary64 (1) (0)), (fl binary64 (-1) (1))) ((fl binary32 (1) (0)), (fl binary32 (1) (1)))) Invalid_operand_exception));
  (820, (bind get_flags (fun v1 => ret (N.eqb v1 invalid_operand_bit))));
  (821, clear_flags);
  (822, (set_cwd none_bit))].

(** lines 825-876 *)
Definition minimal_less_dec_test : list (N * M bool) := [
  (827, clear_flags);
  (829, (mnot (@rel_dec binary64 binary64 (@less binary64) (((@fnan binary64), (@fnan binary64)), ill) (((@fnan binary64), (@fnan binary64)), ill))));
  (830, (mnot (@rel_dec binary64 binary64 (@less binary64) (((@fnan binary64), (@fnan binary64)), trv) (((@fnan binary64), (@fnan binary64)), ill))));
  (831, (mnot (@rel_dec binary64 binary64 (@less binary64) (((fl binary64 (1) (0)), (fl binary64 (1) (1))), trv) (((@fnan binary64), (@fnan binary64)), ill))));
  (832, (mnot (@rel_dec binary64 binary64 (@less binary64) (((@fnan binary64), (@fnan binary64)), ill) (((fl binary64 (1) (0)), (fl binary64 (1) (1))), def))));
  (834, (@rel_dec binary64 binary64 (@less binary64) (((@fnan binary64), (@fnan binary64)), trv) (((@fnan binary64), (@fnan binary64)), trv)));
  (835, (mnot (@rel_dec binary64 binary64 (@less binary64) (((fl binary64 (1) (0)), (fl binary64 (1) (1))), trv) (((@fnan binary64), (@fnan binary64)), trv))));
  (836, (mnot (@rel_dec binary64 binary64 (@less binary64) (((@fnan binary64), (@fnan binary64)), trv) (((fl binary64 (1) (0)), (fl binary64 (1) (1))), trv))));
  (838, (@rel_dec binary64 binary64 (@less binary64) (((@fminf binary64), (@finf binary64)), trv) (((@fminf binary64), (@finf binary64)), trv)));
  (839, (mnot (@rel_dec binary64 binary64 (@less binary64) (((fl binary64 (1) (0)), (fl binary64 (1) (1))), def) (((@fminf binary64), (@finf binary64)), trv))));
  (840, (mnot (@rel_dec binary64 binary64 (@less binary64) (((@f0 binary64), (fl binary64 (1) (1))), trv) (((@fminf binary64), (@finf binary64)), trv))));
  (841, (mnot (@rel_dec binary64 binary64 (@less binary64) (((@fm0 binary64), (fl binary64 (1) (1))), trv) (((@fminf binary64), (@finf binary64)), trv))));
  (842, (mnot (@rel_dec binary64 binary64 (@less binary64) (((@fminf binary64), (@finf binary64)), trv) (((fl binary64 (1) (0)), (fl binary64 (1) (1))), trv))));
  (843, (mnot (@rel_dec binary64 binary64 (@less binary64) (((@fminf binary64), (@finf binary64)), trv) (((@f0 binary64), (fl binary64 (1) (1))), def))));
  (844, (mnot (@rel_dec binary64 binary64 (@less binary64) (((@fminf binary64), (@finf binary64)), trv) (((@fm0 binary64), (fl binary64 (1) (1))), trv))));
  (846, (@rel_dec binary64 binary64 (@less binary64) (((@f0 binary64), (fl binary64 (1) (1))), trv) (((@f0 binary64), (fl binary64 (1) (1))), trv)));
  (847, (@rel_dec binary64 binary64 (@less binary64) (((@f0 binary64), (fl binary64 (1) (1))), trv) (((@fm0 binary64), (fl binary64 (1) (1))), trv)));
  (848, (@rel_dec binary64 binary64 (@less binary64) (((@f0 binary64), (fl binary64 (1) (1))), def) (((fl binary64 (1) (0)), (fl binary64 (1) (1))), def)));
  (849, (@rel_dec binary64 binary64 (@less binary64) (((@fm0 binary64), (fl binary64 (1) (1))), trv) (((fl binary64 (1) (0)), (fl binary64 (1) (1))), trv)));
  (850, (@rel_dec binary64 binary64 (@less binary64) (((fl binary64 (1) (0)), (fl binary64 (1) (1))), trv) (((fl binary64 (1) (0)), (fl binary64 (1) (1))), trv)));
  (851, (@rel_dec binary64 binary64 (@less binary64) (((fl binary64 (1) (0)), (fl binary64 (1) (1))), trv) (((fl binary64 (3) (0)), (fl binary64 (1) (2))), def)));
  (852, (@rel_dec binary64 binary64 (@less binary64) (((fl binary64 (1) (0)), (fl binary64 (7) (-1))), trv) (((fl binary64 (3) (0)), (fl binary64 (1) (2))), trv)));
  (853, (@rel_dec binary64 binary64 (@less binary64) (((fl binary64 (1) (0)), (fl binary64 (1) (2))), trv) (((fl binary64 (3) (0)), (fl binary64 (1) (2))), trv)));
  (855, (@rel_dec binary64 binary64 (@less binary64) (((fl binary64 (-1) (1)), (fl binary64 (-1) (0))), trv) (((fl binary64 (-1) (1)), (fl binary64 (-1) (0))), trv)));
  (856, (@rel_dec binary64 binary64 (@less binary64) (((fl binary64 (-3) (0)), (fl binary64 (-3) (-1))), trv) (((fl binary64 (-1) (1)), (fl binary64 (-1) (0))), trv)));
  (858, (@rel_dec binary64 binary64 (@less binary64) (((@f0 binary64), (@f0 binary64)), trv) (((@fm0 binary64), (@fm0 binary64)), trv)));
  (859, (@rel_dec binary64 binary64 (@less binary64) (((@fm0 binary64), (@fm0 binary64)), trv) (((@f0 binary64), (@f0 binary64)), def)));
  (860, (@rel_dec binary64 binary64 (@less binary64) (((@fm0 binary64), (@f0 binary64)), trv) (((@f0 binary64), (@f0 binary64)), trv)));
  (861, (@rel_dec binary64 binary64 (@less binary64) (((@fm0 binary64), (@f0 binary64)), trv) (((@f0 binary64), (@fm0 binary64)), trv)));
  (862, (@rel_dec binary64 binary64 (@less binary64) (((@f0 binary64), (@fm0 binary64)), def) (((@f0 binary64), (@f0 binary64)), trv)));
  (863, (@rel_dec binary64 binary64 (@less binary64) (((@f0 binary64), (@fm0 binary64)), trv) (((@fm0 binary64), (@f0 binary64)), trv)));
  (865, (bind get_flags (fun v1 => ret (N.eqb v1 none_bit))));
  (867, clear_flags);
  (868, (mnot (@rel_dec binary64 binary64 (@less binary64) (((fl binary64 (1) (0)), (fl binary64 (-1) (1))), trv) (((fl binary64 (3) (0)), (fl binary64 (1) (2))), def))));
  (869, (bind get_flags (fun v1 => ret (N.eqb v1 invalid_operand_bit))));
  (870, clear_flags);
  (871, (set_cwd invalid_operand_bit));
  (872, (throws (@rel_dec binary64 binary64 (@less binary64) (((fl binary64 (1) (0)), (fl binary64 (1) (1))), trv) (((fl binary64 (3) (0)), (fl binary64 (-1) (2))), def)) Invalid_operand_exception));
  (873, (bind get_flags (fun v1 => ret (N.eqb v1 invalid_operand_bit))));
  (874, clear_flags);
  (875, (set_cwd none_bit))].

(** lines 879-967 *)
Definition minimal_less_dec_mixedtype_test : list (N * M bool) := [
  (881, clear_flags);
  (883, (mnot (@rel_dec binary64 binary32 (@less_mixed binary64 binary32) (((@fnan binary64), (@fnan binary64)), ill) (((@fnan binary32), (@fnan binary32)), ill))));
  (884, (mnot (@rel_dec binary64 binary32 (@less_mixed binary64 binary32) (((@fnan binary64), (@fnan binary64)), trv) (((@fnan binary32), (@fnan binary32)), ill))));
  (885, (mnot (@rel_dec binary64 binary32 (@less_mixed binary64 binary32) (((fl binary64 (1) (0)), (fl binary64 (1) (1))), trv) (((@fnan binary32), (@fnan binary32)), ill))));
  (886, (mnot (@rel_dec binary64 binary32 (@less_mixed binary64 binary32) (((@fnan binary64), (@fnan binary64)), ill) (((fl binary32 (1) (0)), (fl binary32 (1) (1))), trv))));
  (888, (@rel_dec binary64 binary32 (@less_mixed binary64 binary32) (((@fnan binary64), (@fnan binary64)), trv) (((@fnan binary32), (@fnan binary32)), trv)));
  (889, (mnot (@rel_dec binary64 binary32 (@less_mixed binary64 binary32) (((fl binary64 (1) (0)), (fl binary64 (1) (1))), trv) (((@fnan binary32), (@fnan binary32)), trv))));
  (890, (mnot (@rel_dec binary64 binary32 (@less_mixed binary64 binary32) (((@fnan binary64), (@fnan binary64)), trv) (((fl binary32 (1) (0)), (fl binary32 (1) (1))), trv))));
  (892, (@rel_dec binary64 binary32 (@less_mixed binary64 binary32) (((@fminf binary64), (@finf binary64)), trv) (((@fminf binary32), (@finf binary32)), def)));
  (893, (mnot (@rel_dec binary64 binary32 (@less_mixed binary64 binary32) (((fl binary64 (1) (0)), (fl binary64 (1) (1))), trv) (((@fminf binary32), (@finf binary32)), trv))));
  (894, (mnot (@rel_dec binary64 binary32 (@less_mixed binary64 binary32) (((@f0 binary64), (fl binary64 (1) (1))), def) (((@fminf binary32), (@finf binary32)), trv))));
  (895, (mnot (@rel_dec binary64 binary32 (@less_mixed binary64 binary32) (((@fm0 binary64), (fl binary64 (1) (1))), trv) (((@fminf binary32), (@finf binary32)), trv))));
  (896, (mnot (@rel_dec binary64 binary32 (@less_mixed binary64 binary32) (((@fminf binary64), (@finf binary64)), trv) (((fl binary32 (1) (0)), (fl binary32 (1) (1))), trv))));
  (897, (mnot (@rel_dec binary64 binary32 (@less_mixed binary64 binary32) (((@fminf binary64), (@finf binary64)), trv) (((@f0 binary32), (fl binary32 (1) (1))), def))));
  (898, (mnot (@rel_dec binary64 binary32 (@less_mixed binary64 binary32) (((@fminf binary64), (@finf binary64)), trv) (((@fm0 binary32), (fl binary32 (1) (1))), trv))));
  (900, (@rel_dec binary64 binary32 (@less_mixed binary64 binary32) (((@f0 binary64), (fl binary64 (1) (1))), trv) (((@f0 binary32), (fl binary32 (1) (1))), trv)));
  (901, (@rel_dec binary64 binary32 (@less_mixed binary64 binary32) (((@f0 binary64), (fl binary64 (1) (1))), trv) (((@fm0 binary32), (fl binary32 (1) (1))), trv)));
  (902, (@rel_dec binary64 binary32 (@less_mixed binary64 binary32) (((@f0 binary64), (fl binary64 (1) (1))), def) (((fl binary32 (1) (0)), (fl binary32 (1) (1))), def)));
  (903, (@rel_dec binary64 binary32 (@less_mixed binary64 binary32) (((@fm0 binary64), (fl binary64 (1) (1))), trv) (((fl binary32 (1) (0)), (fl binary32 (1) (1))), trv)));
  (904, (@rel_dec binary64 binary32 (@less_mixed binary64 binary32) (((fl binary64 (1) (0)), (fl binary64 (1) (1))), trv) (((fl binary32 (1) (0)), (fl binary32 (1) (1))), trv)));
  (905, (@rel_dec binary64 binary32 (@less_mixed binary64 binary32) (((fl binary64 (1) (0)), (fl binary64 (1) (1))), trv) (((fl binary32 (3) (0)), (fl binary32 (1) (2))), def)));
  (906, (@rel_dec binary64 binary32 (@less_mixed binary64 binary32) (((fl binary64 (1) (0)), (fl binary64 (7) (-1))), trv) (((fl binary32 (3) (0)), (fl binary32 (1) (2))), trv)));
  (907, (@rel_dec binary64 binary32 (@less_mixed binary64 binary32) (((fl binary64 (1) (0)), (fl binary64 (1) (2))), trv) (((fl binary32 (3) (0)), (fl binary32 (1) (2))), trv)));
  (909, (@rel_dec binary64 binary32 (@less_mixed binary64 binary32) (((fl binary64 (-1) (1)), (fl binary64 (-1) (0))), trv) (((fl binary32 (-1) (1)), (fl binary32 (-1) (0))), trv)));
  (910, (@rel_dec binary64 binary32 (@less_mixed binary64 binary32) (((fl binary64 (-3) (0)), (fl binary64 (-3) (-1))), trv) (((fl binary32 (-1) (1)), (fl binary32 (-1) (0))), trv)));
  (912, (@rel_dec binary64 binary32 (@less_mixed binary64 binary32) (((@f0 binary64), (@f0 binary64)), trv) (((@fm0 binary32), (@fm0 binary32)), trv)));
  (913, (@rel_dec binary64 binary32 (@less_mixed binary64 binary32) (((@fm0 binary64), (@fm0 binary64)), trv) (((@f0 binary32), (@f0 binary32)), trv)));
  (914, (@rel_dec binary64 binary32 (@less_mixed binary64 binary32) (((@fm0 binary64), (@f0 binary64)), def) (((@f0 binary32), (@f0 binary32)), trv)));
  (915, (@rel_dec binary64 binary32 (@less_mixed binary64 binary32) (((@fm0 binary64), (@f0 binary64)), trv) (((@f0 binary32), (@fm0 binary32)), def)));
  (916, (@rel_dec binary64 binary32 (@less_mixed binary64 binary32) (((@f0 binary64), (@fm0 binary64)), trv) (((@f0 binary32), (@f0 binary32)), trv)));
  (917, (@rel_dec binary64 binary32 (@less_mixed binary64 binary32) (((@f0 binary64), (@fm0 binary64)), trv) (((@fm0 binary32), (@f0 binary32)), trv)));
  (920, (mnot (@rel_dec binary32 binary64 (@less_mixed binary32 binary64) (((@fnan binary32), (@fnan binary32)), ill) (((@fnan binary64), (@fnan binary64)), ill))));
  (921, (mnot (@rel_dec binary32 binary64 (@less_mixed binary32 binary64) (((@fnan binary32), (@fnan binary32)), trv) (((@fnan binary64), (@fnan binary64)), ill))));
  (922, (mnot (@rel_dec binary32 binary64 (@less_mixed binary32 binary64) (((fl binary32 (1) (0)), (fl binary32 (1) (1))), trv) (((@fnan binary64), (@fnan binary64)), ill))));
  (923, (mnot (@rel_dec binary32 binary64 (@less_mixed binary32 binary64) (((@fnan binary32), (@fnan binary32)), ill) (((fl binary64 (1) (0)), (fl binary64 (1) (1))), trv))));
  (925, (@rel_dec binary32 binary64 (@less_mixed binary32 binary64) (((@fnan binary32), (@fnan binary32)), trv) (((@fnan binary64), (@fnan binary64)), trv)));
  (926, (mnot (@rel_dec binary32 binary64 (@less_mixed binary32 binary64) (((fl binary32 (1) (0)), (fl binary32 (1) (1))), trv) (((@fnan binary64), (@fnan binary64)), trv))));
  (927, (mnot (@rel_dec binary32 binary64 (@less_mixed binary32 binary64) (((@fnan binary32), (@fnan binary32)), trv) (((fl binary64 (1) (0)), (fl binary64 (1) (1))), trv))));
  (929, (@rel_dec binary32 binary64 (@less_mixed binary32 binary64) (((@fminf binary32), (@finf binary32)), trv) (((@fminf binary64), (@finf binary64)), trv)));
  (930, (mnot (@rel_dec binary32 binary64 (@less_mixed binary32 binary64) (((fl binary32 (1) (0)), (fl binary32 (1) (1))), trv) (((@fminf binary64), (@finf binary64)), trv))));
  (931, (mnot (@rel_dec binary32 binary64 (@less_mixed binary32 binary64) (((@f0 binary32), (fl binary32 (1) (1))), def) (((@fminf binary64), (@finf binary64)), trv))));
  (932, (mnot (@rel_dec binary32 binary64 (@less_mixed binary32 binary64) (((@fm0 binary32), (fl binary32 (1) (1))), trv) (((@fminf binary64), (@finf binary64)), trv))));
  (933, (mnot (@rel_dec binary32 binary64 (@less_mixed binary32 binary64) (((@fminf binary32), (@finf binary32)), trv) (((fl binary64 (1) (0)), (fl binary64 (1) (1))), trv))));
  (934, (mnot (@rel_dec binary32 binary64 (@less_mixed binary32 binary64) (((@fminf binary32), (@finf binary32)), trv) (((@f0 binary64), (fl binary64 (1) (1))), def))));
  (935, (mnot (@rel_dec binary32 binary64 (@less_mixed binary32 binary64) (((@fminf binary32), (@finf binary32)), trv) (((@fm0 binary64), (fl binary64 (1) (1))), trv))));
  (937, (@rel_dec binary32 binary64 (@less_mixed binary32 binary64) (((@f0 binary32), (fl binary32 (1) (1))), trv) (((@f0 binary64), (fl binary64 (1) (1))), trv)));
  (938, (@rel_dec binary32 binary64 (@less_mixed binary32 binary64) (((@f0 binary32), (fl binary32 (1) (1))), trv) (((@fm0 binary64), (fl binary64 (1) (1))), trv)));
  (939, (@rel_dec binary32 binary64 (@less_mixed binary32 binary64) (((@f0 binary32), (fl binary32 (1) (1))), trv) (((fl binary64 (1) (0)), (fl binary64 (1) (1))), trv)));
  (940, (@rel_dec binary32 binary64 (@less_mixed binary32 binary64) (((@fm0 binary32), (fl binary32 (1) (1))), def) (((fl binary64 (1) (0)), (fl binary64 (1) (1))), def)));
  (941, (@rel_dec binary32 binary64 (@less_mixed binary32 binary64) (((fl binary32 (1) (0)), (fl binary32 (1) (1))), trv) (((fl binary64 (1) (0)), (fl binary64 (1) (1))), trv)));
  (942, (@rel_dec binary32 binary64 (@less_mixed binary32 binary64) (((fl binary32 (1) (0)), (fl binary32 (1) (1))), trv) (((fl binary64 (3) (0)), (fl binary64 (1) (2))), trv)));
  (943, (@rel_dec binary32 binary64 (@less_mixed binary32 binary64) (((fl binary32 (1) (0)), (fl binary32 (7) (-1))), trv) (((fl binary64 (3) (0)), (fl binary64 (1) (2))), def)));
  (944, (@rel_dec binary32 binary64 (@less_mixed binary32 binary64) (((fl binary32 (1) (0)), (fl binary32 (1) (2))), trv) (((fl binary64 (3) (0)), (fl binary64 (1) (2))), trv)));
  (946, (@rel_dec binary32 binary64 (@less_mixed binary32 binary64) (((fl binary32 (-1) (1)), (fl binary32 (-1) (0))), trv) (((fl binary64 (-1) (1)), (fl binary64 (-1) (0))), trv)));
  (947, (@rel_dec binary32 binary64 (@less_mixed binary32 binary64) (((fl binary32 (-3) (0)), (fl binary32 (-3) (-1))), trv) (((fl binary64 (-1) (1)), (fl binary64 (-1) (0))), trv)));
  (949, (@rel_dec binary32 binary64 (@less_mixed binary32 binary64) (((@f0 binary32), (@f0 binary32)), trv) (((@fm0 binary64), (@fm0 binary64)), trv)));
  (950, (@rel_dec binary32 binary64 (@less_mixed binary32 binary64) (((@fm0 binary32), (@fm0 binary32)), trv) (((@f0 binary64), (@f0 binary64)), trv)));
  (951, (@rel_dec binary32 binary64 (@less_mixed binary32 binary64) (((@fm0 binary32), (@f0 binary32)), trv) (((@f0 binary64), (@f0 binary64)), def)));
  (952, (@rel_dec binary32 binary64 (@less_mixed binary32 binary64) (((@fm0 binary32), (@f0 binary32)), trv) (((@f0 binary64), (@fm0 binary64)), trv)));
  (953, (@rel_dec binary32 binary64 (@less_mixed binary32 binary64) (((@f0 binary32), (@fm0 binary32)), def) (((@f0 binary64), (@f0 binary64)), trv)));
  (954, (@rel_dec binary32 binary64 (@less_mixed binary32 binary64) (((@f0 binary32), (@fm0 binary32)), trv) (((@fm0 binary64), (@f0 binary64)), trv)));
  (956, (bind get_flags (fun v1 => ret (N.eqb v1 none_bit))));
  (958, clear_flags);
  (959, (mnot (@rel_dec binary64 binary32 (@less_mixed binary64 binary32) (((fl binary64 (1) (0)), (fl binary64 (-1) (1))), trv) (((fl binary32 (1) (0)), (fl binary32 (1) (1))), trv))));
  (960, (bind get_flags (fun v1 => ret (N.eqb v1 invalid_operand_bit))));
  (961, clear_flags);
  (962, (set_cwd invalid_operand_bit));
  (963, (throws (@rel_dec binary64 binary32 (@less_mixed binary64 binary32) (((fl binary64 (1) (0)), (fl binary64 (1) (1))), trv) (((fl binary32 (-1) (0)), (fl binary32 (-1) (1))), trv)) Invalid_operand_exception));
  (964, (bind get_flags (fun v1 => ret (N.eqb v1 invalid_operand_bit))));
  (965, clear_flags);
  (966, (set_cwd none_bit))].

(** lines 970-1012 *)
Definition minimal_precedes_test : list (N * M bool) := [
  (972, clear_flags);
  (974, ((@precedes binary64) ((@fnan binary64), (@fnan binary64)) ((fl binary64 (3) (0)), (fl binary64 (1) (2)))));
  (975, ((@precedes binary64) ((fl binary64 (3) (0)), (fl binary64 (1) (2))) ((@fnan binary64), (@fnan binary64))));
  (976, ((@precedes binary64) ((@fnan binary64), (@fnan binary64)) ((@fnan binary64), (@fnan binary64))));
  (979, (mnot ((@precedes binary64) ((fl binary64 (1) (0)), (fl binary64 (1) (1))) ((@fminf binary64), (@finf binary64)))));
  (980, (mnot ((@precedes binary64) ((@f0 binary64), (fl binary64 (1) (1))) ((@fminf binary64), (@finf binary64)))));
  (981, (mnot ((@precedes binary64) ((@fm0 binary64), (fl binary64 (1) (1))) ((@fminf binary64), (@finf binary64)))));
  (982, (mnot ((@precedes binary64) ((@fminf binary64), (@finf binary64)) ((fl binary64 (1) (0)), (fl binary64 (1) (1))))));
  (983, (mnot ((@precedes binary64) ((@fminf binary64), (@finf binary64)) ((@fminf binary64), (@finf binary64)))));
  (985, ((@precedes binary64) ((fl binary64 (1) (0)), (fl binary64 (1) (1))) ((fl binary64 (3) (0)), (fl binary64 (1) (2)))));
  (986, ((@precedes binary64) ((fl binary64 (1) (0)), (fl binary64 (3) (0))) ((fl binary64 (3) (0)), (fl binary64 (1) (2)))));
  (987, ((@precedes binary64) ((fl binary64 (-3) (0)), (fl binary64 (-1) (0))) ((fl binary64 (-1) (0)), (@f0 binary64))));
  (988, ((@precedes binary64) ((fl binary64 (-3) (0)), (fl binary64 (-1) (0))) ((fl binary64 (-1) (0)), (@fm0 binary64))));
  (990, (mnot ((@precedes binary64) ((fl binary64 (1) (0)), (fl binary64 (7) (-1))) ((fl binary64 (3) (0)), (fl binary64 (1) (2))))));
  (991, (mnot ((@precedes binary64) ((fl binary64 (1) (0)), (fl binary64 (1) (2))) ((fl binary64 (3) (0)), (fl binary64 (1) (2))))));
  (992, (mnot ((@precedes binary64) ((fl binary64 (-3) (0)), (fl binary64 (-3602879701896397) (-55))) ((fl binary64 (-1) (0)), (@f0 binary64)))));
  (994, ((@precedes binary64) ((@f0 binary64), (@f0 binary64)) ((@fm0 binary64), (@fm0 binary64))));
  (995, ((@precedes binary64) ((@fm0 binary64), (@fm0 binary64)) ((@f0 binary64), (@f0 binary64))));
  (996, ((@precedes binary64) ((@fm0 binary64), (@f0 binary64)) ((@f0 binary64), (@f0 binary64))));
  (997, ((@precedes binary64) ((@fm0 binary64), (@f0 binary64)) ((@f0 binary64), (@fm0 binary64))));
  (998, ((@precedes binary64) ((@f0 binary64), (@fm0 binary64)) ((@f0 binary64), (@f0 binary64))));
  (999, ((@precedes binary64) ((@f0 binary64), (@fm0 binary64)) ((@fm0 binary64), (@f0 binary64))));
  (1001, (bind get_flags (fun v1 => ret (N.eqb v1 none_bit))));
  (1003, clear_flags);
  (1004, (mnot ((@precedes binary64) ((fl binary64 (-3) (0)), (fl binary64 (-1) (0))) ((fl binary64 (1) (0)), (@f0 binary64)))));
  (1005, (bind get_flags (fun v1 => ret (N.eqb v1 invalid_operand_bit))));
  (1006, clear_flags);
  (1007, (set_cwd invalid_operand_bit));
  (1008, (throws ((@precedes binary64) ((fl binary64 (3) (0)), (fl binary64 (-1) (0))) ((fl binary64 (-1) (0)), (@f0 binary64))) Invalid_operand_exception));
  (1009, (bind get_flags (fun v1 => ret (N.eqb v1 invalid_operand_bit))));
  (1010, clear_flags);
  (1011, (set_cwd none_bit))].

(** lines 1014-1081 *)
Definition minimal_precedes_mixedtype_test : list (N * M bool) := [
  (1016, clear_flags);
  (1018, ((@precedes_mixed binary64 binary32) ((@fnan binary64), (@fnan binary64)) ((fl binary32 (3) (0)), (fl binary32 (1) (2)))));
  (1019, ((@precedes_mixed binary64 binary32) ((fl binary64 (3) (0)), (fl binary64 (1) (2))) ((@fnan binary32), (@fnan binary32))));
  (1020, ((@precedes_mixed binary64 binary32) ((@fnan binary64), (@fnan binary64)) ((@fnan binary32), (@fnan binary32))));
  (1022, (mnot ((@precedes_mixed binary64 binary32) ((fl binary64 (1) (0)), (fl binary64 (1) (1))) ((@fminf binary32), (@finf binary32)))));
  (1023, (mnot ((@precedes_mixed binary64 binary32) ((@f0 binary64), (fl binary64 (1) (1))) ((@fminf binary32), (@finf binary32)))));
  (1024, (mnot ((@precedes_mixed binary64 binary32) ((@fm0 binary64), (fl binary64 (1) (1))) ((@fminf binary32), (@finf binary32)))));
  (1025, (mnot ((@precedes_mixed binary64 binary32) ((@fminf binary64), (@finf binary64)) ((fl binary32 (1) (0)), (fl binary32 (1) (1))))));
  (1026, (mnot ((@precedes_mixed binary64 binary32) ((@fminf binary64), (@finf binary64)) ((@fminf binary32), (@finf binary32)))));
  (1028, ((@precedes_mixed binary64 binary32) ((fl binary64 (1) (0)), (fl binary64 (1) (1))) ((fl binary32 (3) (0)), (fl binary32 (1) (2)))));
  (1029, ((@precedes_mixed binary64 binary32) ((fl binary64 (1) (0)), (fl binary64 (3) (0))) ((fl binary32 (3) (0)), (fl binary32 (1) (2)))));
  (1030, ((@precedes_mixed binary64 binary32) ((fl binary64 (-3) (0)), (fl binary64 (-1) (0))) ((fl binary32 (-1) (0)), (@f0 binary32))));
  (1031, ((@precedes_mixed binary64 binary32) ((fl binary64 (-3) (0)), (fl binary64 (-1) (0))) ((fl binary32 (-1) (0)), (@fm0 binary32))));
  (1033, (mnot ((@precedes_mixed binary64 binary32) ((fl binary64 (1) (0)), (fl binary64 (7) (-1))) ((fl binary32 (3) (0)), (fl binary32 (1) (2))))));
  (1034, (mnot ((@precedes_mixed binary64 binary32) ((fl binary64 (1) (0)), (fl binary64 (1) (2))) ((fl binary32 (3) (0)), (fl binary32 (1) (2))))));
  (1035, (mnot ((@precedes_mixed binary64 binary32) ((fl binary64 (-3) (0)), (fl binary64 (-3602879701896397) (-55))) ((fl binary32 (-1) (0)), (@f0 binary32)))));
  (1037, ((@precedes_mixed binary64 binary32) ((@f0 binary64), (@f0 binary64)) ((@fm0 binary32), (@fm0 binary32))));
  (1038, ((@precedes_mixed binary64 binary32) ((@fm0 binary64), (@fm0 binary64)) ((@f0 binary32), (@f0 binary32))));
  (1039, ((@precedes_mixed binary64 binary32) ((@fm0 binary64), (@f0 binary64)) ((@f0 binary32), (@f0 binary32))));
  (1040, ((@precedes_mixed binary64 binary32) ((@fm0 binary64), (@f0 binary64)) ((@f0 binary32), (@fm0 binary32))));
  (1041, ((@precedes_mixed binary64 binary32) ((@f0 binary64), (@fm0 binary64)) ((@f0 binary32), (@f0 binary32))));
  (1042, ((@precedes_mixed binary64 binary32) ((@f0 binary64), (@fm0 binary64)) ((@fm0 binary32), (@f0 binary32))));
  (1044, ((@precedes_mixed binary32 binary64) ((@fnan binary32), (@fnan binary32)) ((fl binary64 (3) (0)), (fl binary64 (1) (2)))));
  (1045, ((@precedes_mixed binary32 binary64) ((fl binary32 (3) (0)), (fl binary32 (1) (2))) ((@fnan binary64), (@fnan binary64))));
  (1046, ((@precedes_mixed binary32 binary64) ((@fnan binary32), (@fnan binary32)) ((@fnan binary64), (@fnan binary64))));
  (1048, (mnot ((@precedes_mixed binary32 binary64) ((fl binary32 (1) (0)), (fl binary32 (1) (1))) ((@fminf binary64), (@finf binary64)))));
  (1049, (mnot ((@precedes_mixed binary32 binary64) ((@f0 binary32), (fl binary32 (1) (1))) ((@fminf binary64), (@finf binary64)))));
  (1050, (mnot ((@precedes_mixed binary32 binary64) ((@fm0 binary32), (fl binary32 (1) (1))) ((@fminf binary64), (@finf binary64)))));
  (1051, (mnot ((@precedes_mixed binary32 binary64) ((@fminf binary32), (@finf binary32)) ((fl binary64 (1) (0)), (fl binary64 (1) (1))))));
  (1052, (mnot ((@precedes_mixed binary32 binary64) ((@fminf binary32), (@finf binary32)) ((@fminf binary64), (@finf binary64)))));
  (1054, ((@precedes_mixed binary32 binary64) ((fl binary32 (1) (0)), (fl binary32 (1) (1))) ((fl binary64 (3) (0)), (fl binary64 (1) (2)))));
  (1055, ((@precedes_mixed binary32 binary64) ((fl binary32 (1) (0)), (fl binary32 (3) (0))) ((fl binary64 (3) (0)), (fl binary64 (1) (2)))));
  (1056, ((@precedes_mixed binary32 binary64) ((fl binary32 (-3) (0)), (fl binary32 (-1) (0))) ((fl binary64 (-1) (0)), (@f0 binary64))));
  (1057, ((@precedes_mixed binary32 binary64) ((fl binary32 (-3) (0)), (fl binary32 (-1) (0))) ((fl binary64 (-1) (0)), (@fm0 binary64))));
  (1059, (mnot ((@precedes_mixed binary32 binary64) ((fl binary32 (1) (0)), (fl binary32 (7) (-1))) ((fl binary64 (3) (0)), (fl binary64 (1) (2))))));
  (1060, (mnot ((@precedes_mixed binary32 binary64) ((fl binary32 (1) (0)), (fl binary32 (1) (2))) ((fl binary64 (3) (0)), (fl binary64 (1) (2))))));
  (1061, (mnot ((@precedes_mixed binary32 binary64) ((fl binary32 (-3) (0)), (fl binary32 (-13421773) (-27))) ((fl binary64 (-1) (0)), (@f0 binary64)))));
  (1063, ((@precedes_mixed binary32 binary64) ((@f0 binary32), (@f0 binary32)) ((@fm0 binary64), (@fm0 binary64))));
  (1064, ((@precedes_mixed binary32 binary64) ((@fm0 binary32), (@fm0 binary32)) ((@f0 binary64), (@f0 binary64))));
  (1065, ((@precedes_mixed binary32 binary64) ((@fm0 binary32), (@f0 binary32)) ((@f0 binary64), (@f0 binary64))));
  (1066, ((@precedes_mixed binary32 binary64) ((@fm0 binary32), (@f0 binary32)) ((@f0 binary64), (@fm0 binary64))));
  (1067, ((@precedes_mixed binary32 binary64) ((@f0 binary32), (@fm0 binary32)) ((@f0 binary64), (@f0 binary64))));
  (1068, ((@precedes_mixed binary32 binary64) ((@f0 binary32), (@fm0 binary32)) ((@fm0 binary64), (@f0 binary64))));
  (1070, (bind get_flags (fun v1 => ret (N.eqb v1 none_bit))));
  (1072, clear_flags);
  (1073, (mnot ((@precedes_mixed binary64 binary32) ((fl binary64 (1) (0)), (fl binary64 (7) (-1))) ((fl binary32 (3) (0)), (fl binary32 (-1) (2))))));
  (1074, (bind get_flags (fun v1 => ret (N.eqb v1 invalid_operand_bit))));
  (1075, clear_flags);
  (1076, (set_cwd invalid_operand_bit));
  (1077, (throws (mnot ((@precedes_mixed binary64 binary32) ((fl binary64 (1) (0)), (fl binary64 (-7) (-1))) ((fl binary32 (3) (0)), (fl binary32 (1) (2))))) Invalid_operand_exception));
  (1078, (bind get_flags (fun v1 => ret (N.eqb v1 invalid_operand_bit))));
  (1079, clear_flags);
  (1080, (set_cwd none_bit))].

(** lines 1084-1131 *)
Definition minimal_precedes_dec_test : list (N * M bool) := [
  (1086, clear_flags);
  (1088, (mnot (@rel_dec binary64 binary64 (@precedes binary64) (((@fnan binary64), (@fnan binary64)), ill) (((fl binary64 (3) (0)), (fl binary64 (1) (2))), def))));
  (1089, (mnot (@rel_dec binary64 binary64 (@precedes binary64) (((fl binary64 (3) (0)), (fl binary64 (1) (2))), trv) (((@fnan binary64), (@fnan binary64)), ill))));
  (1090, (mnot (@rel_dec binary64 binary64 (@precedes binary64) (((@fnan binary64), (@fnan binary64)), ill) (((@fnan binary64), (@fnan binary64)), trv))));
  (1091, (mnot (@rel_dec binary64 binary64 (@precedes binary64) (((@fnan binary64), (@fnan binary64)), ill) (((@fnan binary64), (@fnan binary64)), ill))));
  (1093, (@rel_dec binary64 binary64 (@precedes binary64) (((@fnan binary64), (@fnan binary64)), trv) (((fl binary64 (3) (0)), (fl binary64 (1) (2))), trv)));
  (1094, (@rel_dec binary64 binary64 (@precedes binary64) (((fl binary64 (3) (0)), (fl binary64 (1) (2))), trv) (((@fnan binary64), (@fnan binary64)), trv)));
  (1095, (@rel_dec binary64 binary64 (@precedes binary64) (((@fnan binary64), (@fnan binary64)), trv) (((@fnan binary64), (@fnan binary64)), trv)));
  (1098, (mnot (@rel_dec binary64 binary64 (@precedes binary64) (((fl binary64 (1) (0)), (fl binary64 (1) (1))), trv) (((@fminf binary64), (@finf binary64)), trv))));
  (1099, (mnot (@rel_dec binary64 binary64 (@precedes binary64) (((@f0 binary64), (fl binary64 (1) (1))), trv) (((@fminf binary64), (@finf binary64)), trv))));
  (1100, (mnot (@rel_dec binary64 binary64 (@precedes binary64) (((@fm0 binary64), (fl binary64 (1) (1))), trv) (((@fminf binary64), (@finf binary64)), trv))));
  (1101, (mnot (@rel_dec binary64 binary64 (@precedes binary64) (((@fminf binary64), (@finf binary64)), trv) (((fl binary64 (1) (0)), (fl binary64 (1) (1))), trv))));
  (1102, (mnot (@rel_dec binary64 binary64 (@precedes binary64) (((@fminf binary64), (@finf binary64)), trv) (((@fminf binary64), (@finf binary64)), trv))));
  (1104, (@rel_dec binary64 binary64 (@precedes binary64) (((fl binary64 (1) (0)), (fl binary64 (1) (1))), trv) (((fl binary64 (3) (0)), (fl binary64 (1) (2))), trv)));
  (1105, (@rel_dec binary64 binary64 (@precedes binary64) (((fl binary64 (1) (0)), (fl binary64 (3) (0))), trv) (((fl binary64 (3) (0)), (fl binary64 (1) (2))), def)));
  (1106, (@rel_dec binary64 binary64 (@precedes binary64) (((fl binary64 (-3) (0)), (fl binary64 (-1) (0))), def) (((fl binary64 (-1) (0)), (@f0 binary64)), trv)));
  (1107, (@rel_dec binary64 binary64 (@precedes binary64) (((fl binary64 (-3) (0)), (fl binary64 (-1) (0))), trv) (((fl binary64 (-1) (0)), (@fm0 binary64)), trv)));
  (1109, (mnot (@rel_dec binary64 binary64 (@precedes binary64) (((fl binary64 (1) (0)), (fl binary64 (7) (-1))), trv) (((fl binary64 (3) (0)), (fl binary64 (1) (2))), trv))));
  (1110, (mnot (@rel_dec binary64 binary64 (@precedes binary64) (((fl binary64 (1) (0)), (fl binary64 (1) (2))), trv) (((fl binary64 (3) (0)), (fl binary64 (1) (2))), trv))));
  (1111, (mnot (@rel_dec binary64 binary64 (@precedes binary64) (((fl binary64 (-3) (0)), (fl binary64 (-3602879701896397) (-55))), trv) (((fl binary64 (-1) (0)), (@f0 binary64)), trv))));
  (1113, (@rel_dec binary64 binary64 (@precedes binary64) (((@f0 binary64), (@f0 binary64)), trv) (((@fm0 binary64), (@fm0 binary64)), trv)));
  (1114, (@rel_dec binary64 binary64 (@precedes binary64) (((@fm0 binary64), (@fm0 binary64)), trv) (((@f0 binary64), (@f0 binary64)), def)));
  (1115, (@rel_dec binary64 binary64 (@precedes binary64) (((@fm0 binary64), (@f0 binary64)), trv) (((@f0 binary64), (@f0 binary64)), trv)));
  (1116, (@rel_dec binary64 binary64 (@precedes binary64) (((@fm0 binary64), (@f0 binary64)), def) (((@f0 binary64), (@fm0 binary64)), trv)));
  (1117, (@rel_dec binary64 binary64 (@precedes binary64) (((@f0 binary64), (@fm0 binary64)), trv) (((@f0 binary64), (@f0 binary64)), trv)));
  (1118, (@rel_dec binary64 binary64 (@precedes binary64) (((@f0 binary64), (@fm0 binary64)), trv) (((@fm0 binary64), (@f0 binary64)), trv)));
  (1120, (bind get_flags (fun v1 => ret (N.eqb v1 none_bit))));
  (1122, clear_flags);
  (1123, (mnot (@rel_dec binary64 binary64 (@precedes binary64) (((fl binary64 (1) (0)), (fl binary64 (7) (-1))), ill) (((fl binary64 (3) (0)), (fl binary64 (1) (2))), trv))));
  (1124, (bind get_flags (fun v1 => ret (N.eqb v1 invalid_operand_bit))));
  (1125, clear_flags);
  (1126, (set_cwd invalid_operand_bit));
  (1127, (throws (@rel_dec binary64 binary64 (@precedes binary64) (((fl binary64 (1) (0)), (fl binary64 (7) (-1))), trv) (((fl binary64 (3) (0)), (fl binary64 (-1) (2))), trv)) Invalid_operand_exception));
  (1128, (bind get_flags (fun v1 => ret (N.eqb v1 invalid_operand_bit))));
  (1129, clear_flags);
  (1130, (set_cwd none_bit))].

(** lines 1133-1210 *)
Definition minimal_precedes_dec_mixedtype_test : list (N * M bool) := [
  (1135, clear_flags);
  (1137, (mnot (@rel_dec binary64 binary32 (@precedes_mixed binary64 binary32) (((@fnan binary64), (@fnan binary64)), ill) (((fl binary32 (3) (0)), (fl binary32 (1) (2))), trv))));
  (1138, (mnot (@rel_dec binary64 binary32 (@precedes_mixed binary64 binary32) (((fl binary64 (3) (0)), (fl binary64 (1) (2))), trv) (((@fnan binary32), (@fnan binary32)), ill))));
  (1139, (mnot (@rel_dec binary64 binary32 (@precedes_mixed binary64 binary32) (((@fnan binary64), (@fnan binary64)), trv) (((@fnan binary32), (@fnan binary32)), ill))));
  (1140, (mnot (@rel_dec binary64 binary32 (@precedes_mixed binary64 binary32) (((@fnan binary64), (@fnan binary64)), ill) (((@fnan binary32), (@fnan binary32)), ill))));
  (1142, (@rel_dec binary64 binary32 (@precedes_mixed binary64 binary32) (((@fnan binary64), (@fnan binary64)), trv) (((fl binary32 (3) (0)), (fl binary32 (1) (2))), trv)));
  (1143, (@rel_dec binary64 binary32 (@precedes_mixed binary64 binary32) (((fl binary64 (3) (0)), (fl binary64 (1) (2))), trv) (((@fnan binary32), (@fnan binary32)), trv)));
  (1144, (@rel_dec binary64 binary32 (@precedes_mixed binary64 binary32) (((@fnan binary64), (@fnan binary64)), trv) (((@fnan binary32), (@fnan binary32)), trv)));
  (1146, (mnot (@rel_dec binary64 binary32 (@precedes_mixed binary64 binary32) (((fl binary64 (1) (0)), (fl binary64 (1) (1))), trv) (((@fminf binary32), (@finf binary32)), trv))));
  (1147, (mnot (@rel_dec binary64 binary32 (@precedes_mixed binary64 binary32) (((@f0 binary64), (fl binary64 (1) (1))), def) (((@fminf binary32), (@finf binary32)), trv))));
  (1148, (mnot (@rel_dec binary64 binary32 (@precedes_mixed binary64 binary32) (((@fm0 binary64), (fl binary64 (1) (1))), trv) (((@fminf binary32), (@finf binary32)), trv))));
  (1149, (mnot (@rel_dec binary64 binary32 (@precedes_mixed binary64 binary32) (((@fminf binary64), (@finf binary64)), trv) (((fl binary32 (1) (0)), (fl binary32 (1) (1))), trv))));
  (1150, (mnot (@rel_dec binary64 binary32 (@precedes_mixed binary64 binary32) (((@fminf binary64), (@finf binary64)), trv) (((@fminf binary32), (@finf binary32)), trv))));
  (1152, (@rel_dec binary64 binary32 (@precedes_mixed binary64 binary32) (((fl binary64 (1) (0)), (fl binary64 (1) (1))), trv) (((fl binary32 (3) (0)), (fl binary32 (1) (2))), trv)));
  (1153, (@rel_dec binary64 binary32 (@precedes_mixed binary64 binary32) (((fl binary64 (1) (0)), (fl binary64 (3) (0))), trv) (((fl binary32 (3) (0)), (fl binary32 (1) (2))), trv)));
  (1154, (@rel_dec binary64 binary32 (@precedes_mixed binary64 binary32) (((fl binary64 (-3) (0)), (fl binary64 (-1) (0))), trv) (((fl binary32 (-1) (0)), (@f0 binary32)), def)));
  (1155, (@rel_dec binary64 binary32 (@precedes_mixed binary64 binary32) (((fl binary64 (-3) (0)), (fl binary64 (-1) (0))), trv) (((fl binary32 (-1) (0)), (@fm0 binary32)), trv)));
  (1157, (mnot (@rel_dec binary64 binary32 (@precedes_mixed binary64 binary32) (((fl binary64 (1) (0)), (fl binary64 (7) (-1))), trv) (((fl binary32 (3) (0)), (fl binary32 (1) (2))), trv))));
  (1158, (mnot (@rel_dec binary64 binary32 (@precedes_mixed binary64 binary32) (((fl binary64 (1) (0)), (fl binary64 (1) (2))), def) (((fl binary32 (3) (0)), (fl binary32 (1) (2))), trv))));
  (1159, (mnot (@rel_dec binary64 binary32 (@precedes_mixed binary64 binary32) (((fl binary64 (-3) (0)), (fl binary64 (-3602879701896397) (-55))), trv) (((fl binary32 (-1) (0)), (@f0 binary32)), trv))));
  (1161, (@rel_dec binary64 binary32 (@precedes_mixed binary64 binary32) (((@f0 binary64), (@f0 binary64)), trv) (((@fm0 binary32), (@fm0 binary32)), trv)));
  (1162, (@rel_dec binary64 binary32 (@precedes_mixed binary64 binary32) (((@fm0 binary64), (@fm0 binary64)), trv) (((@f0 binary32), (@f0 binary32)), trv)));
  (1163, (@rel_dec binary64 binary32 (@precedes_mixed binary64 binary32) (((@fm0 binary64), (@f0 binary64)), def) (((@f0 binary32), (@f0 binary32)), def)));
  (1164, (@rel_dec binary64 binary32 (@precedes_mixed binary64 binary32) (((@fm0 binary64), (@f0 binary64)), trv) (((@f0 binary32), (@fm0 binary32)), trv)));
  (1165, (@rel_dec binary64 binary32 (@precedes_mixed binary64 binary32) (((@f0 binary64), (@fm0 binary64)), trv) (((@f0 binary32), (@f0 binary32)), trv)));
  (1166, (@rel_dec binary64 binary32 (@precedes_mixed binary64 binary32) (((@f0 binary64), (@fm0 binary64)), trv) (((@fm0 binary32), (@f0 binary32)), trv)));
  (1168, (mnot (@rel_dec binary32 binary64 (@precedes_mixed binary32 binary64) (((@fnan binary32), (@fnan binary32)), ill) (((fl binary64 (3) (0)), (fl binary64 (1) (2))), trv))));
  (1169, (mnot (@rel_dec binary32 binary64 (@precedes_mixed binary32 binary64) (((fl binary32 (3) (0)), (fl binary32 (1) (2))), trv) (((@fnan binary64), (@fnan binary64)), ill))));
  (1170, (mnot (@rel_dec binary32 binary64 (@precedes_mixed binary32 binary64) (((@fnan binary32), (@fnan binary32)), trv) (((@fnan binary64), (@fnan binary64)), ill))));
  (1171, (mnot (@rel_dec binary32 binary64 (@precedes_mixed binary32 binary64) (((@fnan binary32), (@fnan binary32)), ill) (((@fnan binary64), (@fnan binary64)), ill))));
  (1173, (@rel_dec binary32 binary64 (@precedes_mixed binary32 binary64) (((@fnan binary32), (@fnan binary32)), trv) (((fl binary64 (3) (0)), (fl binary64 (1) (2))), trv)));
  (1174, (@rel_dec binary32 binary64 (@precedes_mixed binary32 binary64) (((fl binary32 (3) (0)), (fl binary32 (1) (2))), trv) (((@fnan binary64), (@fnan binary64)), trv)));
  (1175, (@rel_dec binary32 binary64 (@precedes_mixed binary32 binary64) (((@fnan binary32), (@fnan binary32)), trv) (((@fnan binary64), (@fnan binary64)), trv)));
  (1177, (mnot (@rel_dec binary32 binary64 (@precedes_mixed binary32 binary64) (((fl binary32 (1) (0)), (fl binary32 (1) (1))), trv) (((@fminf binary64), (@finf binary64)), trv))));
  (1178, (mnot (@rel_dec binary32 binary64 (@precedes_mixed binary32 binary64) (((@f0 binary32), (fl binary32 (1) (1))), trv) (((@fminf binary64), (@finf binary64)), trv))));
  (1179, (mnot (@rel_dec binary32 binary64 (@precedes_mixed binary32 binary64) (((@fm0 binary32), (fl binary32 (1) (1))), trv) (((@fminf binary64), (@finf binary64)), trv))));
  (1180, (mnot (@rel_dec binary32 binary64 (@precedes_mixed binary32 binary64) (((@fminf binary32), (@finf binary32)), trv) (((fl binary64 (1) (0)), (fl binary64 (1) (1))), trv))));
  (1181, (mnot (@rel_dec binary32 binary64 (@precedes_mixed binary32 binary64) (((@fminf binary32), (@finf binary32)), trv) (((@fminf binary64), (@finf binary64)), trv))));
  (1183, (@rel_dec binary32 binary64 (@precedes_mixed binary32 binary64) (((fl binary32 (1) (0)), (fl binary32 (1) (1))), trv) (((fl binary64 (3) (0)), (fl binary64 (1) (2))), trv)));
  (1184, (@rel_dec binary32 binary64 (@precedes_mixed binary32 binary64) (((fl binary32 (1) (0)), (fl binary32 (3) (0))), trv) (((fl binary64 (3) (0)), (fl binary64 (1) (2))), def)));
  (1185, (@rel_dec binary32 binary64 (@precedes_mixed binary32 binary64) (((fl binary32 (-3) (0)), (fl binary32 (-1) (0))), def) (((fl binary64 (-1) (0)), (@f0 binary64)), trv)));
  (1186, (@rel_dec binary32 binary64 (@precedes_mixed binary32 binary64) (((fl binary32 (-3) (0)), (fl binary32 (-1) (0))), def) (((fl binary64 (-1) (0)), (@fm0 binary64)), def)));
  (1188, (mnot (@rel_dec binary32 binary64 (@precedes_mixed binary32 binary64) (((fl binary32 (1) (0)), (fl binary32 (7) (-1))), trv) (((fl binary64 (3) (0)), (fl binary64 (1) (2))), trv))));
  (1189, (mnot (@rel_dec binary32 binary64 (@precedes_mixed binary32 binary64) (((fl binary32 (1) (0)), (fl binary32 (1) (2))), trv) (((fl binary64 (3) (0)), (fl binary64 (1) (2))), trv))));
  (1190, (mnot (@rel_dec binary32 binary64 (@precedes_mixed binary32 binary64) (((fl binary32 (-3) (0)), (fl binary32 (-13421773) (-27))), trv) (((fl binary64 (-1) (0)), (@f0 binary64)), trv))));
  (1192, (@rel_dec binary32 binary64 (@precedes_mixed binary32 binary64) (((@f0 binary32), (@f0 binary32)), trv) (((@fm0 binary64), (@fm0 binary64)), trv)));
  (1193, (@rel_dec binary32 binary64 (@precedes_mixed binary32 binary64) (((@fm0 binary32), (@fm0 binary32)), def) (((@f0 binary64), (@f0 binary64)), def)));
  (1194, (@rel_dec binary32 binary64 (@precedes_mixed binary32 binary64) (((@fm0 binary32), (@f0 binary32)), trv) (((@f0 binary64), (@f0 binary64)), def)));
  (1195, (@rel_dec binary32 binary64 (@precedes_mixed binary32 binary64) (((@fm0 binary32), (@f0 binary32)), trv) (((@f0 binary64), (@fm0 binary64)), trv)));
  (1196, (@rel_dec binary32 binary64 (@precedes_mixed binary32 binary64) (((@f0 binary32), (@fm0 binary32)), trv) (((@f0 binary64), (@f0 binary64)), trv)));
  (1197, (@rel_dec binary32 binary64 (@precedes_mixed binary32 binary64) (((@f0 binary32), (@fm0 binary32)), trv) (((@fm0 binary64), (@f0 binary64)), trv)));
  (1199, (bind get_flags (fun v1 => ret (N.eqb v1 none_bit))));
  (1201, clear_flags);
  (1202, (mnot (@rel_dec binary64 binary32 (@precedes_mixed binary64 binary32) (((fl binary64 (1) (0)), (fl binary64 (-1) (2))), def) (((fl binary32 (3) (0)), (fl binary32 (1) (2))), trv))));
  (1203, (bind get_flags (fun v1 => ret (N.eqb v1 invalid_operand_bit))));
  (1204, clear_flags);
  (1205, (set_cwd invalid_operand_bit));
  (1206, (throws (@rel_dec binary64 binary32 (@precedes_mixed binary64 binary32) (((fl binary64 (1) (0)), (fl binary64 (1) (2))), def) (((fl binary32 (3) (0)), (fl binary32 (-1) (2))), trv)) Invalid_operand_exception));
  (1207, (bind get_flags (fun v1 => ret (N.eqb v1 invalid_operand_bit))));
  (1208, clear_flags);
  (1209, (set_cwd none_bit))].

(** lines 1213-1248 *)
Definition minimal_interior_test : list (N * M bool) := [
  (1215, clear_flags);
  (1217, ((@interior binary64) ((@fnan binary64), (@fnan binary64)) ((@fnan binary64), (@fnan binary64))));
  (1218, ((@interior binary64) ((@fnan binary64), (@fnan binary64)) ((@f0 binary64), (fl binary64 (1) (2)))));
  (1219, (mnot ((@interior binary64) ((@f0 binary64), (fl binary64 (1) (2))) ((@fnan binary64), (@fnan binary64)))));
  (1221, ((@interior binary64) ((@fminf binary64), (@finf binary64)) ((@fminf binary64), (@finf binary64))));
  (1222, ((@interior binary64) ((@f0 binary64), (fl binary64 (1) (2))) ((@fminf binary64), (@finf binary64))));
  (1223, ((@interior binary64) ((@fnan binary64), (@fnan binary64)) ((@fminf binary64), (@finf binary64))));
  (1224, (mnot ((@interior binary64) ((@fminf binary64), (@finf binary64)) ((@f0 binary64), (fl binary64 (1) (2))))));
  (1226, (mnot ((@interior binary64) ((@f0 binary64), (fl binary64 (1) (2))) ((@f0 binary64), (fl binary64 (1) (2))))));
  (1227, ((@interior binary64) ((fl binary64 (1) (0)), (fl binary64 (1) (1))) ((@f0 binary64), (fl binary64 (1) (2)))));
  (1228, (mnot ((@interior binary64) ((fl binary64 (-1) (1)), (fl binary64 (1) (1))) ((fl binary64 (-1) (1)), (fl binary64 (1) (2))))));
  (1229, ((@interior binary64) ((@fm0 binary64), (@fm0 binary64)) ((fl binary64 (-1) (1)), (fl binary64 (1) (2)))));
  (1230, ((@interior binary64) ((@f0 binary64), (@f0 binary64)) ((fl binary64 (-1) (1)), (fl binary64 (1) (2)))));
  (1231, (mnot ((@interior binary64) ((@f0 binary64), (@f0 binary64)) ((@fm0 binary64), (@fm0 binary64)))));
  (1233, (mnot ((@interior binary64) ((@f0 binary64), (fl binary64 (2476979795053773) (-49))) ((@f0 binary64), (fl binary64 (1) (2))))));
  (1234, (mnot ((@interior binary64) ((fl binary64 (-1) (0)), (fl binary64 (-1) (0))) ((@f0 binary64), (fl binary64 (1) (2))))));
  (1235, (mnot ((@interior binary64) ((fl binary64 (1) (1)), (fl binary64 (1) (1))) ((fl binary64 (-1) (1)), (fl binary64 (-1) (0))))));
  (1237, (bind get_flags (fun v1 => ret (N.eqb v1 none_bit))));
  (1239, clear_flags);
  (1240, (mnot ((@interior binary64) ((@fm0 binary64), (fl binary64 (-1) (0))) ((fl binary64 (-1) (1)), (fl binary64 (1) (2))))));
  (1241, (bind get_flags (fun v1 => ret (N.eqb v1 invalid_operand_bit))));
  (1242, clear_flags);
  (1243, (set_cwd invalid_operand_bit));
  (1244, (throws ((@interior binary64) ((@fm0 binary64), (@fm0 binary64)) ((fl binary64 (-1) (1)), (fl binary64 (-1) (2)))) Invalid_operand_exception));
  (1245, (bind get_flags (fun v1 => ret (N.eqb v1 invalid_operand_bit))));
  (1246, clear_flags);
  (1247, (set_cwd none_bit))].

(** lines 1250-1305 *)
Definition minimal_interior_mixedtype_test : list (N * M bool) := [
  (1252, clear_flags);
  (1254, ((@interior_mixed binary64 binary32) ((@fnan binary64), (@fnan binary64)) ((@fnan binary32), (@fnan binary32))));
  (1255, ((@interior_mixed binary64 binary32) ((@fnan binary64), (@fnan binary64)) ((@f0 binary32), (fl binary32 (1) (2)))));
  (1256, (mnot ((@interior_mixed binary64 binary32) ((@f0 binary64), (fl binary64 (1) (2))) ((@fnan binary32), (@fnan binary32)))));
  (1258, ((@interior_mixed binary64 binary32) ((@fminf binary64), (@finf binary64)) ((@fminf binary32), (@finf binary32))));
  (1259, ((@interior_mixed binary64 binary32) ((@f0 binary64), (fl binary64 (1) (2))) ((@fminf binary32), (@finf binary32))));
  (1260, ((@interior_mixed binary64 binary32) ((@fnan binary64), (@fnan binary64)) ((@fminf binary32), (@finf binary32))));
  (1261, (mnot ((@interior_mixed binary64 binary32) ((@fminf binary64), (@finf binary64)) ((@f0 binary32), (fl binary32 (1) (2))))));
  (1263, (mnot ((@interior_mixed binary64 binary32) ((@f0 binary64), (fl binary64 (1) (2))) ((@f0 binary32), (fl binary32 (1) (2))))));
  (1264, ((@interior_mixed binary64 binary32) ((fl binary64 (1) (0)), (fl binary64 (1) (1))) ((@f0 binary32), (fl binary32 (1) (2)))));
  (1265, (mnot ((@interior_mixed binary64 binary32) ((fl binary64 (-1) (1)), (fl binary64 (1) (1))) ((fl binary32 (-1) (1)), (fl binary32 (1) (2))))));
  (1266, ((@interior_mixed binary64 binary32) ((@fm0 binary64), (@fm0 binary64)) ((fl binary32 (-1) (1)), (fl binary32 (1) (2)))));
  (1267, ((@interior_mixed binary64 binary32) ((@f0 binary64), (@f0 binary64)) ((fl binary32 (-1) (1)), (fl binary32 (1) (2)))));
  (1268, (mnot ((@interior_mixed binary64 binary32) ((@f0 binary64), (@f0 binary64)) ((@fm0 binary32), (@fm0 binary32)))));
  (1270, (mnot ((@interior_mixed binary64 binary32) ((@f0 binary64), (fl binary64 (2476979795053773) (-49))) ((@f0 binary32), (fl binary32 (1) (2))))));
  (1271, (mnot ((@interior_mixed binary64 binary32) ((fl binary64 (-1) (0)), (fl binary64 (-1) (0))) ((@f0 binary32), (fl binary32 (1) (2))))));
  (1272, (mnot ((@interior_mixed binary64 binary32) ((fl binary64 (1) (1)), (fl binary64 (1) (1))) ((fl binary32 (-1) (1)), (fl binary32 (-1) (0))))));
  (1274, ((@interior_mixed binary32 binary64) ((@fnan binary32), (@fnan binary32)) ((@fnan binary64), (@fnan binary64))));
  (1275, ((@interior_mixed binary32 binary64) ((@fnan binary32), (@fnan binary32)) ((@f0 binary64), (fl binary64 (1) (2)))));
  (1276, (mnot ((@interior_mixed binary32 binary64) ((@f0 binary32), (fl binary32 (1) (2))) ((@fnan binary64), (@fnan binary64)))));
  (1278, ((@interior_mixed binary32 binary64) ((@fminf binary32), (@finf binary32)) ((@fminf binary64), (@finf binary64))));
  (1279, ((@interior_mixed binary32 binary64) ((@f0 binary32), (fl binary32 (1) (2))) ((@fminf binary64), (@finf binary64))));
  (1280, ((@interior_mixed binary32 binary64) ((@fnan binary32), (@fnan binary32)) ((@fminf binary64), (@finf binary64))));
  (1281, (mnot ((@interior_mixed binary32 binary64) ((@fminf binary32), (@finf binary32)) ((@f0 binary64), (fl binary64 (1) (2))))));
  (1283, (mnot ((@interior_mixed binary32 binary64) ((@f0 binary32), (fl binary32 (1) (2))) ((@f0 binary64), (fl binary64 (1) (2))))));
  (1284, ((@interior_mixed binary32 binary64) ((fl binary32 (1) (0)), (fl binary32 (1) (1))) ((@f0 binary64), (fl binary64 (1) (2)))));
  (1285, (mnot ((@interior_mixed binary32 binary64) ((fl binary32 (-1) (1)), (fl binary32 (1) (1))) ((fl binary64 (-1) (1)), (fl binary64 (1) (2))))));
  (1286, ((@interior_mixed binary32 binary64) ((@fm0 binary32), (@fm0 binary32)) ((fl binary64 (-1) (1)), (fl binary64 (1) (2)))));
  (1287, ((@interior_mixed binary32 binary64) ((@f0 binary32), (@f0 binary32)) ((fl binary64 (-1) (1)), (fl binary64 (1) (2)))));
  (1288, (mnot ((@interior_mixed binary32 binary64) ((@f0 binary32), (@f0 binary32)) ((@fm0 binary64), (@fm0 binary64)))));
  (1290, (mnot ((@interior_mixed binary32 binary64) ((@f0 binary32), (fl binary32 (9227469) (-21))) ((@f0 binary64), (fl binary64 (1) (2))))));
  (1291, (mnot ((@interior_mixed binary32 binary64) ((fl binary32 (-1) (0)), (fl binary32 (-1) (0))) ((@f0 binary64), (fl binary64 (1) (2))))));
  (1292, (mnot ((@interior_mixed binary32 binary64) ((fl binary32 (1) (1)), (fl binary32 (1) (1))) ((fl binary64 (-1) (1)), (fl binary64 (-1) (0))))));
  (1294, (bind get_flags (fun v1 => ret (N.eqb v1 none_bit))));
  (1296, clear_flags);
  (1297, (mnot ((@interior_mixed binary64 binary32) ((fl binary64 (1) (0)), (fl binary64 (-1) (0))) ((@f0 binary32), (fl binary32 (1) (2))))));
  (1298, (bind get_flags (fun v1 => ret (N.eqb v1 invalid_operand_bit))));
  (1299, clear_flags);
  (1300, (set_cwd invalid_operand_bit));
  (1301, (throws ((@interior_mixed binary64 binary32) ((fl binary64 (-1) (0)), (fl binary64 (-1) (0))) ((fl binary32 (5) (1)), (fl binary32 (1) (2)))) Invalid_operand_exception));
  (1302, (bind get_flags (fun v1 => ret (N.eqb v1 invalid_operand_bit))));
  (1303, clear_flags);
  (1304, (set_cwd none_bit))].

(** lines 1308-1348 *)
Definition minimal_interior_dec_test : list (N * M bool) := [
  (1310, clear_flags);
  (1312, (mnot (@rel_dec binary64 binary64 (@interior binary64) (((@fnan binary64), (@fnan binary64)), ill) (((@fnan binary64), (@fnan binary64)), ill))));
  (1313, (mnot (@rel_dec binary64 binary64 (@interior binary64) (((@fnan binary64), (@fnan binary64)), ill) (((@fnan binary64), (@fnan binary64)), trv))));
  (1314, (mnot (@rel_dec binary64 binary64 (@interior binary64) (((@fnan binary64), (@fnan binary64)), ill) (((@f0 binary64), (fl binary64 (1) (2))), trv))));
  (1315, (mnot (@rel_dec binary64 binary64 (@interior binary64) (((@f0 binary64), (fl binary64 (1) (2))), def) (((@fnan binary64), (@fnan binary64)), ill))));
  (1317, (@rel_dec binary64 binary64 (@interior binary64) (((@fnan binary64), (@fnan binary64)), trv) (((@fnan binary64), (@fnan binary64)), trv)));
  (1318, (@rel_dec binary64 binary64 (@interior binary64) (((@fnan binary64), (@fnan binary64)), trv) (((@f0 binary64), (fl binary64 (1) (2))), trv)));
  (1319, (mnot (@rel_dec binary64 binary64 (@interior binary64) (((@f0 binary64), (fl binary64 (1) (2))), trv) (((@fnan binary64), (@fnan binary64)), trv))));
  (1321, (@rel_dec binary64 binary64 (@interior binary64) (((@fminf binary64), (@finf binary64)), trv) (((@fminf binary64), (@finf binary64)), trv)));
  (1322, (@rel_dec binary64 binary64 (@interior binary64) (((@f0 binary64), (fl binary64 (1) (2))), trv) (((@fminf binary64), (@finf binary64)), trv)));
  (1323, (@rel_dec binary64 binary64 (@interior binary64) (((@fnan binary64), (@fnan binary64)), trv) (((@fminf binary64), (@finf binary64)), trv)));
  (1324, (mnot (@rel_dec binary64 binary64 (@interior binary64) (((@fminf binary64), (@finf binary64)), trv) (((@f0 binary64), (fl binary64 (1) (2))), trv))));
  (1326, (mnot (@rel_dec binary64 binary64 (@interior binary64) (((@f0 binary64), (fl binary64 (1) (2))), trv) (((@f0 binary64), (fl binary64 (1) (2))), trv))));
  (1327, (@rel_dec binary64 binary64 (@interior binary64) (((fl binary64 (1) (0)), (fl binary64 (1) (1))), def) (((@f0 binary64), (fl binary64 (1) (2))), trv)));
  (1328, (mnot (@rel_dec binary64 binary64 (@interior binary64) (((fl binary64 (-1) (1)), (fl binary64 (1) (1))), trv) (((fl binary64 (-1) (1)), (fl binary64 (1) (2))), def))));
  (1329, (@rel_dec binary64 binary64 (@interior binary64) (((@fm0 binary64), (@fm0 binary64)), trv) (((fl binary64 (-1) (1)), (fl binary64 (1) (2))), trv)));
  (1330, (@rel_dec binary64 binary64 (@interior binary64) (((@f0 binary64), (@f0 binary64)), def) (((fl binary64 (-1) (1)), (fl binary64 (1) (2))), trv)));
  (1331, (mnot (@rel_dec binary64 binary64 (@interior binary64) (((@f0 binary64), (@f0 binary64)), trv) (((@fm0 binary64), (@fm0 binary64)), trv))));
  (1333, (mnot (@rel_dec binary64 binary64 (@interior binary64) (((@f0 binary64), (fl binary64 (2476979795053773) (-49))), trv) (((@f0 binary64), (fl binary64 (1) (2))), trv))));
  (1334, (mnot (@rel_dec binary64 binary64 (@interior binary64) (((fl binary64 (-1) (0)), (fl binary64 (-1) (0))), trv) (((@f0 binary64), (fl binary64 (1) (2))), def))));
  (1335, (mnot (@rel_dec binary64 binary64 (@interior binary64) (((fl binary64 (1) (1)), (fl binary64 (1) (1))), def) (((fl binary64 (-1) (1)), (fl binary64 (-1) (0))), trv))));
  (1337, (bind get_flags (fun v1 => ret (N.eqb v1 none_bit))));
  (1339, clear_flags);
  (1340, (mnot (@rel_dec binary64 binary64 (@interior binary64) (((fl binary64 (-1) (1)), (fl binary64 (-7) (1))), trv) (((fl binary64 (-1) (1)), (fl binary64 (1) (2))), def))));
  (1341, (bind get_flags (fun v1 => ret (N.eqb v1 invalid_operand_bit))));
  (1342, clear_flags);
  (1343, (set_cwd invalid_operand_bit));
  (1344, (throws (@rel_dec binary64 binary64 (@interior binary64) (((fl binary64 (-1) (1)), (fl binary64 (7) (1))), trv) (((fl binary64 (-1) (1)), (fl binary64 (1) (2))), ill)) Invalid_operand_exception));
  (1345, (bind get_flags (fun v1 => ret (N.eqb v1 invalid_operand_bit))));
  (1346, clear_flags);
  (1347, (set_cwd none_bit))].

(** lines 1350-1415 *)
Definition minimal_interior_dec_mixedtype_test : list (N * M bool) := [
  (1352, clear_flags);
  (1354, (mnot (@rel_dec binary64 binary32 (@interior_mixed binary64 binary32) (((@fnan binary64), (@fnan binary64)), ill) (((@fnan binary32), (@fnan binary32)), ill))));
  (1355, (mnot (@rel_dec binary64 binary32 (@interior_mixed binary64 binary32) (((@fnan binary64), (@fnan binary64)), trv) (((@fnan binary32), (@fnan binary32)), ill))));
  (1356, (mnot (@rel_dec binary64 binary32 (@interior_mixed binary64 binary32) (((@fnan binary64), (@fnan binary64)), ill) (((@f0 binary32), (fl binary32 (1) (2))), trv))));
  (1357, (mnot (@rel_dec binary64 binary32 (@interior_mixed binary64 binary32) (((@f0 binary64), (fl binary64 (1) (2))), trv) (((@fnan binary32), (@fnan binary32)), ill))));
  (1359, (@rel_dec binary64 binary32 (@interior_mixed binary64 binary32) (((@fnan binary64), (@fnan binary64)), trv) (((@fnan binary32), (@fnan binary32)), trv)));
  (1360, (@rel_dec binary64 binary32 (@interior_mixed binary64 binary32) (((@fnan binary64), (@fnan binary64)), trv) (((@f0 binary32), (fl binary32 (1) (2))), trv)));
  (1361, (mnot (@rel_dec binary64 binary32 (@interior_mixed binary64 binary32) (((@f0 binary64), (fl binary64 (1) (2))), trv) (((@fnan binary32), (@fnan binary32)), trv))));
  (1363, (@rel_dec binary64 binary32 (@interior_mixed binary64 binary32) (((@fminf binary64), (@finf binary64)), trv) (((@fminf binary32), (@finf binary32)), trv)));
  (1364, (@rel_dec binary64 binary32 (@interior_mixed binary64 binary32) (((@f0 binary64), (fl binary64 (1) (2))), trv) (((@fminf binary32), (@finf binary32)), trv)));
  (1365, (@rel_dec binary64 binary32 (@interior_mixed binary64 binary32) (((@fnan binary64), (@fnan binary64)), trv) (((@fminf binary32), (@finf binary32)), trv)));
  (1366, (mnot (@rel_dec binary64 binary32 (@interior_mixed binary64 binary32) (((@fminf binary64), (@finf binary64)), trv) (((@f0 binary32), (fl binary32 (1) (2))), trv))));
  (1368, (mnot (@rel_dec binary64 binary32 (@interior_mixed binary64 binary32) (((@f0 binary64), (fl binary64 (1) (2))), trv) (((@f0 binary32), (fl binary32 (1) (2))), trv))));
  (1369, (@rel_dec binary64 binary32 (@interior_mixed binary64 binary32) (((fl binary64 (1) (0)), (fl binary64 (1) (1))), def) (((@f0 binary32), (fl binary32 (1) (2))), trv)));
  (1370, (mnot (@rel_dec binary64 binary32 (@interior_mixed binary64 binary32) (((fl binary64 (-1) (1)), (fl binary64 (1) (1))), trv) (((fl binary32 (-1) (1)), (fl binary32 (1) (2))), def))));
  (1371, (@rel_dec binary64 binary32 (@interior_mixed binary64 binary32) (((@fm0 binary64), (@fm0 binary64)), trv) (((fl binary32 (-1) (1)), (fl binary32 (1) (2))), trv)));
  (1372, (@rel_dec binary64 binary32 (@interior_mixed binary64 binary32) (((@f0 binary64), (@f0 binary64)), def) (((fl binary32 (-1) (1)), (fl binary32 (1) (2))), trv)));
  (1373, (mnot (@rel_dec binary64 binary32 (@interior_mixed binary64 binary32) (((@f0 binary64), (@f0 binary64)), trv) (((@fm0 binary32), (@fm0 binary32)), trv))));
  (1375, (mnot (@rel_dec binary64 binary32 (@interior_mixed binary64 binary32) (((@f0 binary64), (fl binary64 (2476979795053773) (-49))), trv) (((@f0 binary32), (fl binary32 (1) (2))), trv))));
  (1376, (mnot (@rel_dec binary64 binary32 (@interior_mixed binary64 binary32) (((fl binary64 (-1) (0)), (fl binary64 (-1) (0))), def) (((@f0 binary32), (fl binary32 (1) (2))), def))));
  (1377, (mnot (@rel_dec binary64 binary32 (@interior_mixed binary64 binary32) (((fl binary64 (1) (1)), (fl binary64 (1) (1))), trv) (((fl binary32 (-1) (1)), (fl binary32 (-1) (0))), trv))));
  (1379, (mnot (@rel_dec binary32 binary64 (@interior_mixed binary32 binary64) (((@fnan binary32), (@fnan binary32)), ill) (((@fnan binary64), (@fnan binary64)), ill))));
  (1380, (mnot (@rel_dec binary32 binary64 (@interior_mixed binary32 binary64) (((@fnan binary32), (@fnan binary32)), ill) (((@fnan binary64), (@fnan binary64)), trv))));
  (1381, (mnot (@rel_dec binary32 binary64 (@interior_mixed binary32 binary64) (((@fnan binary32), (@fnan binary32)), ill) (((@f0 binary64), (fl binary64 (1) (2))), trv))));
  (1382, (mnot (@rel_dec binary32 binary64 (@interior_mixed binary32 binary64) (((@f0 binary32), (fl binary32 (1) (2))), trv) (((@fnan binary64), (@fnan binary64)), ill))));
  (1384, (@rel_dec binary32 binary64 (@interior_mixed binary32 binary64) (((@fnan binary32), (@fnan binary32)), trv) (((@fnan binary64), (@fnan binary64)), trv)));
  (1385, (@rel_dec binary32 binary64 (@interior_mixed binary32 binary64) (((@fnan binary32), (@fnan binary32)), trv) (((@f0 binary64), (fl binary64 (1) (2))), trv)));
  (1386, (mnot (@rel_dec binary32 binary64 (@interior_mixed binary32 binary64) (((@f0 binary32), (fl binary32 (1) (2))), def) (((@fnan binary64), (@fnan binary64)), trv))));
  (1388, (@rel_dec binary32 binary64 (@interior_mixed binary32 binary64) (((@fminf binary32), (@finf binary32)), trv) (((@fminf binary64), (@finf binary64)), trv)));
  (1389, (@rel_dec binary32 binary64 (@interior_mixed binary32 binary64) (((@f0 binary32), (fl binary32 (1) (2))), trv) (((@fminf binary64), (@finf binary64)), trv)));
  (1390, (@rel_dec binary32 binary64 (@interior_mixed binary32 binary64) (((@fnan binary32), (@fnan binary32)), trv) (((@fminf binary64), (@finf binary64)), trv)));
  (1391, (mnot (@rel_dec binary32 binary64 (@interior_mixed binary32 binary64) (((@fminf binary32), (@finf binary32)), trv) (((@f0 binary64), (fl binary64 (1) (2))), trv))));
  (1393, (mnot (@rel_dec binary32 binary64 (@interior_mixed binary32 binary64) (((@f0 binary32), (fl binary32 (1) (2))), trv) (((@f0 binary64), (fl binary64 (1) (2))), trv))));
  (1394, (@rel_dec binary32 binary64 (@interior_mixed binary32 binary64) (((fl binary32 (1) (0)), (fl binary32 (1) (1))), def) (((@f0 binary64), (fl binary64 (1) (2))), def)));
  (1395, (mnot (@rel_dec binary32 binary64 (@interior_mixed binary32 binary64) (((fl binary32 (-1) (1)), (fl binary32 (1) (1))), trv) (((fl binary64 (-1) (1)), (fl binary64 (1) (2))), def))));
  (1396, (@rel_dec binary32 binary64 (@interior_mixed binary32 binary64) (((@fm0 binary32), (@fm0 binary32)), trv) (((fl binary64 (-1) (1)), (fl binary64 (1) (2))), trv)));
  (1397, (@rel_dec binary32 binary64 (@interior_mixed binary32 binary64) (((@f0 binary32), (@f0 binary32)), trv) (((fl binary64 (-1) (1)), (fl binary64 (1) (2))), trv)));
  (1398, (mnot (@rel_dec binary32 binary64 (@interior_mixed binary32 binary64) (((@f0 binary32), (@f0 binary32)), trv) (((@fm0 binary64), (@fm0 binary64)), trv))));
  (1400, (mnot (@rel_dec binary32 binary64 (@interior_mixed binary32 binary64) (((@f0 binary32), (fl binary32 (9227469) (-21))), trv) (((@f0 binary64), (fl binary64 (1) (2))), trv))));
  (1401, (mnot (@rel_dec binary32 binary64 (@interior_mixed binary32 binary64) (((fl binary32 (-1) (0)), (fl binary32 (-1) (0))), trv) (((@f0 binary64), (fl binary64 (1) (2))), trv))));
  (1402, (mnot (@rel_dec binary32 binary64 (@interior_mixed binary32 binary64) (((fl binary32 (1) (1)), (fl binary32 (1) (1))), trv) (((fl binary64 (-1) (1)), (fl binary64 (-1) (0))), trv))));
  (1404, (bind get_flags (fun v1 => ret (N.eqb v1 none_bit))));
  (1406, clear_flags);
  (1407, (mnot (@rel_dec binary32 binary64 (@interior_mixed binary32 binary64) (((@f0 binary32), (fl binary32 (1) (2))), trv) (((@fnan binary64), (@fnan binary64)), com))));
  (1408, (bind get_flags (fun v1 => ret (N.eqb v1 invalid_operand_bit))));
  (1409, clear_flags);
  (1410, (set_cwd invalid_operand_bit));
  (1411, (throws (@rel_dec binary32 binary64 (@interior_mixed binary32 binary64) (((@f0 binary32), (fl binary32 (-1) (2))), trv) (((@fnan binary64), (@fnan binary64)), ill)) Invalid_operand_exception));
  (1412, (bind get_flags (fun v1 => ret (N.eqb v1 invalid_operand_bit))));
  (1413, clear_flags);
  (1414, (set_cwd none_bit))].

(** lines 1418-1451 *)
Definition minimal_strictly_less_test : list (N * M bool) := [
  (1420, clear_flags);
  (1422, ((@strictly_less binary64) ((@fnan binary64), (@fnan binary64)) ((@fnan binary64), (@fnan binary64))));
  (1423, (mnot ((@strictly_less binary64) ((fl binary64 (1) (0)), (fl binary64 (1) (1))) ((@fnan binary64), (@fnan binary64)))));
  (1424, (mnot ((@strictly_less binary64) ((@fnan binary64), (@fnan binary64)) ((fl binary64 (1) (0)), (fl binary64 (1) (1))))));
  (1426, ((@strictly_less binary64) ((@fminf binary64), (@finf binary64)) ((@fminf binary64), (@finf binary64))));
  (1427, (mnot ((@strictly_less binary64) ((fl binary64 (1) (0)), (fl binary64 (1) (1))) ((@fminf binary64), (@finf binary64)))));
  (1428, (mnot ((@strictly_less binary64) ((@fminf binary64), (@finf binary64)) ((fl binary64 (1) (0)), (fl binary64 (1) (1))))));
  (1430, (mnot ((@strictly_less binary64) ((fl binary64 (1) (0)), (fl binary64 (1) (1))) ((fl binary64 (1) (0)), (fl binary64 (1) (1))))));
  (1431, ((@strictly_less binary64) ((fl binary64 (1) (0)), (fl binary64 (1) (1))) ((fl binary64 (3) (0)), (fl binary64 (1) (2)))));
  (1432, ((@strictly_less binary64) ((fl binary64 (1) (0)), (fl binary64 (7) (-1))) ((fl binary64 (3) (0)), (fl binary64 (1) (2)))));
  (1433, (mnot ((@strictly_less binary64) ((fl binary64 (1) (0)), (fl binary64 (1) (2))) ((fl binary64 (3) (0)), (fl binary64 (1) (2))))));
  (1434, (mnot ((@strictly_less binary64) ((@f0 binary64), (fl binary64 (1) (2))) ((@f0 binary64), (fl binary64 (1) (2))))));
  (1435, (mnot ((@strictly_less binary64) ((@fm0 binary64), (fl binary64 (1) (2))) ((@f0 binary64), (fl binary64 (1) (2))))));
  (1437, (mnot ((@strictly_less binary64) ((fl binary64 (-1) (1)), (fl binary64 (-1) (0))) ((fl binary64 (-1) (1)), (fl binary64 (-1) (0))))));
  (1438, ((@strictly_less binary64) ((fl binary64 (-3) (0)), (fl binary64 (-3) (-1))) ((fl binary64 (-1) (1)), (fl binary64 (-1) (0)))));
  (1440, (bind get_flags (fun v1 => ret (N.eqb v1 none_bit))));
  (1442, clear_flags);
  (1443, (mnot ((@strictly_less binary64) ((fl binary64 (1) (0)), (fl binary64 (1) (2))) ((fl binary64 (3) (0)), (fl binary64 (-1) (2))))));
  (1444, (bind get_flags (fun v1 => ret (N.eqb v1 invalid_operand_bit))));
  (1445, clear_flags);
  (1446, (set_cwd invalid_operand_bit));
  (1447, (throws ((@strictly_less binary64) ((fl binary64 (5) (1)), (fl binary64 (1) (2))) ((fl binary64 (3) (0)), (fl binary64 (1) (2)))) Invalid_operand_exception));
  (1448, (bind get_flags (fun v1 => ret (N.eqb v1 invalid_operand_bit))));
  (1449, clear_flags);
  (1450, (set_cwd none_bit))].

(** lines 1453-1504 *)
Definition minimal_strictly_less_mixedtype_test : list (N * M bool) := [
  (1455, clear_flags);
  (1457, ((@strictly_less_mixed binary64 binary32) ((@fnan binary64), (@fnan binary64)) ((@fnan binary32), (@fnan binary32))));
  (1458, (mnot ((@strictly_less_mixed binary64 binary32) ((fl binary64 (1) (0)), (fl binary64 (1) (1))) ((@fnan binary32), (@fnan binary32)))));
  (1459, (mnot ((@strictly_less_mixed binary64 binary32) ((@fnan binary64), (@fnan binary64)) ((fl binary32 (1) (0)), (fl binary32 (1) (1))))));
  (1461, ((@strictly_less_mixed binary64 binary32) ((@fminf binary64), (@finf binary64)) ((@fminf binary32), (@finf binary32))));
  (1462, (mnot ((@strictly_less_mixed binary64 binary32) ((fl binary64 (1) (0)), (fl binary64 (1) (1))) ((@fminf binary32), (@finf binary32)))));
  (1463, (mnot ((@strictly_less_mixed binary64 binary32) ((@fminf binary64), (@finf binary64)) ((fl binary32 (1) (0)), (fl binary32 (1) (1))))));
  (1465, (mnot ((@strictly_less_mixed binary64 binary32) ((fl binary64 (1) (0)), (fl binary64 (1) (1))) ((fl binary32 (1) (0)), (fl binary32 (1) (1))))));
  (1466, ((@strictly_less_mixed binary64 binary32) ((fl binary64 (1) (0)), (fl binary64 (1) (1))) ((fl binary32 (3) (0)), (fl binary32 (1) (2)))));
  (1467, ((@strictly_less_mixed binary64 binary32) ((fl binary64 (1) (0)), (fl binary64 (7) (-1))) ((fl binary32 (3) (0)), (fl binary32 (1) (2)))));
  (1468, (mnot ((@strictly_less_mixed binary64 binary32) ((fl binary64 (1) (0)), (fl binary64 (1) (2))) ((fl binary32 (3) (0)), (fl binary32 (1) (2))))));
  (1469, (mnot ((@strictly_less_mixed binary64 binary32) ((@f0 binary64), (fl binary64 (1) (2))) ((@f0 binary32), (fl binary32 (1) (2))))));
  (1470, (mnot ((@strictly_less_mixed binary64 binary32) ((@fm0 binary64), (fl binary64 (1) (2))) ((@f0 binary32), (fl binary32 (1) (2))))));
  (1472, (mnot ((@strictly_less_mixed binary64 binary32) ((fl binary64 (-1) (1)), (fl binary64 (-1) (0))) ((fl binary32 (-1) (1)), (fl binary32 (-1) (0))))));
  (1473, ((@strictly_less_mixed binary64 binary32) ((fl binary64 (-3) (0)), (fl binary64 (-3) (-1))) ((fl binary32 (-1) (1)), (fl binary32 (-1) (0)))));
  (1475, ((@strictly_less_mixed binary32 binary64) ((@fnan binary32), (@fnan binary32)) ((@fnan binary64), (@fnan binary64))));
  (1476, (mnot ((@strictly_less_mixed binary32 binary64) ((fl binary32 (1) (0)), (fl binary32 (1) (1))) ((@fnan binary64), (@fnan binary64)))));
  (1477, (mnot ((@strictly_less_mixed binary32 binary64) ((@fnan binary32), (@fnan binary32)) ((fl binary64 (1) (0)), (fl binary64 (1) (1))))));
  (1479, ((@strictly_less_mixed binary32 binary64) ((@fminf binary32), (@finf binary32)) ((@fminf binary64), (@finf binary64))));
  (1480, (mnot ((@strictly_less_mixed binary32 binary64) ((fl binary32 (1) (0)), (fl binary32 (1) (1))) ((@fminf binary64), (@finf binary64)))));
  (1481, (mnot ((@strictly_less_mixed binary32 binary64) ((@fminf binary32), (@finf binary32)) ((fl binary64 (1) (0)), (fl binary64 (1) (1))))));
  (1483, (mnot ((@strictly_less_mixed binary32 binary64) ((fl binary32 (1) (0)), (fl binary32 (1) (1))) ((fl binary64 (1) (0)), (fl binary64 (1) (1))))));
  (1484, ((@strictly_less_mixed binary32 binary64) ((fl binary32 (1) (0)), (fl binary32 (1) (1))) ((fl binary64 (3) (0)), (fl binary64 (1) (2)))));
  (1485, ((@strictly_less_mixed binary32 binary64) ((fl binary32 (1) (0)), (fl binary32 (7) (-1))) ((fl binary64 (3) (0)), (fl binary64 (1) (2)))));
  (1486, (mnot ((@strictly_less_mixed binary32 binary64) ((fl binary32 (1) (0)), (fl binary32 (1) (2))) ((fl binary64 (3) (0)), (fl binary64 (1) (2))))));
  (1487, (mnot ((@strictly_less_mixed binary32 binary64) ((@f0 binary32), (fl binary32 (1) (2))) ((@f0 binary64), (fl binary64 (1) (2))))));
  (1488, (mnot ((@strictly_less_mixed binary32 binary64) ((@fm0 binary32), (fl binary32 (1) (2))) ((@f0 binary64), (fl binary64 (1) (2))))));
  (1490, (mnot ((@strictly_less_mixed binary32 binary64) ((fl binary32 (-1) (1)), (fl binary32 (-1) (0))) ((fl binary64 (-1) (1)), (fl binary64 (-1) (0))))));
  (1491, ((@strictly_less_mixed binary32 binary64) ((fl binary32 (-3) (0)), (fl binary32 (-3) (-1))) ((fl binary64 (-1) (1)), (fl binary64 (-1) (0)))));
  (1493, (bind get_flags (fun v1 => ret (N.eqb v1 none_bit))));
  (1495, clear_flags);
  (1496, (mnot ((@strictly_less_mixed binary64 binary32) ((fl binary64 (1) (0)), (fl binary64 (7) (-1))) ((fl binary32 (3) (0)), (fl binary32 (-1) (2))))));
  (1497, (bind get_flags (fun v1 => ret (N.eqb v1 invalid_operand_bit))));
  (1498, clear_flags);
  (1499, (set_cwd invalid_operand_bit));
  (1500, (throws ((@strictly_less_mixed binary64 binary32) ((fl binary64 (1) (0)), (fl binary64 (-7) (-1))) ((fl binary32 (3) (0)), (fl binary32 (1) (2)))) Invalid_operand_exception));
  (1501, (bind get_flags (fun v1 => ret (N.eqb v1 invalid_operand_bit))));
  (1502, clear_flags);
  (1503, (set_cwd none_bit))].

(** lines 1507-1545 *)
Definition minimal_strictly_less_dec_test : list (N * M bool) := [
  (1509, clear_flags);
  (1511, (mnot (@rel_dec binary64 binary64 (@strictly_less binary64) (((@fnan binary64), (@fnan binary64)), ill) (((@fnan binary64), (@fnan binary64)), ill))));
  (1512, (mnot (@rel_dec binary64 binary64 (@strictly_less binary64) (((@fnan binary64), (@fnan binary64)), trv) (((@fnan binary64), (@fnan binary64)), ill))));
  (1513, (mnot (@rel_dec binary64 binary64 (@strictly_less binary64) (((fl binary64 (1) (0)), (fl binary64 (1) (1))), trv) (((@fnan binary64), (@fnan binary64)), ill))));
  (1514, (mnot (@rel_dec binary64 binary64 (@strictly_less binary64) (((@fnan binary64), (@fnan binary64)), ill) (((fl binary64 (1) (0)), (fl binary64 (1) (1))), def))));
  (1516, (@rel_dec binary64 binary64 (@strictly_less binary64) (((@fnan binary64), (@fnan binary64)), trv) (((@fnan binary64), (@fnan binary64)), trv)));
  (1517, (mnot (@rel_dec binary64 binary64 (@strictly_less binary64) (((fl binary64 (1) (0)), (fl binary64 (1) (1))), def) (((@fnan binary64), (@fnan binary64)), trv))));
  (1518, (mnot (@rel_dec binary64 binary64 (@strictly_less binary64) (((@fnan binary64), (@fnan binary64)), trv) (((fl binary64 (1) (0)), (fl binary64 (1) (1))), def))));
  (1520, (@rel_dec binary64 binary64 (@strictly_less binary64) (((@fminf binary64), (@finf binary64)), trv) (((@fminf binary64), (@finf binary64)), trv)));
  (1521, (mnot (@rel_dec binary64 binary64 (@strictly_less binary64) (((fl binary64 (1) (0)), (fl binary64 (1) (1))), trv) (((@fminf binary64), (@finf binary64)), trv))));
  (1522, (mnot (@rel_dec binary64 binary64 (@strictly_less binary64) (((@fminf binary64), (@finf binary64)), trv) (((fl binary64 (1) (0)), (fl binary64 (1) (1))), trv))));
  (1524, (mnot (@rel_dec binary64 binary64 (@strictly_less binary64) (((fl binary64 (1) (0)), (fl binary64 (1) (1))), trv) (((fl binary64 (1) (0)), (fl binary64 (1) (1))), trv))));
  (1525, (@rel_dec binary64 binary64 (@strictly_less binary64) (((fl binary64 (1) (0)), (fl binary64 (1) (1))), trv) (((fl binary64 (3) (0)), (fl binary64 (1) (2))), trv)));
  (1526, (@rel_dec binary64 binary64 (@strictly_less binary64) (((fl binary64 (1) (0)), (fl binary64 (7) (-1))), def) (((fl binary64 (3) (0)), (fl binary64 (1) (2))), trv)));
  (1527, (mnot (@rel_dec binary64 binary64 (@strictly_less binary64) (((fl binary64 (1) (0)), (fl binary64 (1) (2))), trv) (((fl binary64 (3) (0)), (fl binary64 (1) (2))), def))));
  (1528, (mnot (@rel_dec binary64 binary64 (@strictly_less binary64) (((@f0 binary64), (fl binary64 (1) (2))), trv) (((@f0 binary64), (fl binary64 (1) (2))), def))));
  (1529, (mnot (@rel_dec binary64 binary64 (@strictly_less binary64) (((@fm0 binary64), (fl binary64 (1) (2))), def) (((@f0 binary64), (fl binary64 (1) (2))), trv))));
  (1531, (mnot (@rel_dec binary64 binary64 (@strictly_less binary64) (((fl binary64 (-1) (1)), (fl binary64 (-1) (0))), def) (((fl binary64 (-1) (1)), (fl binary64 (-1) (0))), def))));
  (1532, (@rel_dec binary64 binary64 (@strictly_less binary64) (((fl binary64 (-3) (0)), (fl binary64 (-3) (-1))), trv) (((fl binary64 (-1) (1)), (fl binary64 (-1) (0))), trv)));
  (1534, (bind get_flags (fun v1 => ret (N.eqb v1 none_bit))));
  (1536, clear_flags);
  (1537, (mnot (@rel_dec binary64 binary64 (@strictly_less binary64) (((fl binary64 (1) (0)), (fl binary64 (1) (1))), trv) (((fl binary64 (3) (0)), (fl binary64 (-1) (2))), trv))));
  (1538, (bind get_flags (fun v1 => ret (N.eqb v1 invalid_operand_bit))));
  (1539, clear_flags);
  (1540, (set_cwd invalid_operand_bit));
  (1541, (throws (@rel_dec binary64 binary64 (@strictly_less binary64) (((fl binary64 (1) (0)), (fl binary64 (-1) (1))), trv) (((fl binary64 (3) (0)), (fl binary64 (1) (2))), trv)) Invalid_operand_exception));
  (1542, (bind get_flags (fun v1 => ret (N.eqb v1 invalid_operand_bit))));
  (1543, clear_flags);
  (1544, (set_cwd none_bit))].

(** lines 1547-1608 *)
Definition minimal_strictly_less_dec_mixedtype_test : list (N * M bool) := [
  (1549, clear_flags);
  (1551, (mnot (@rel_dec binary64 binary32 (@strictly_less_mixed binary64 binary32) (((@fnan binary64), (@fnan binary64)), ill) (((@fnan binary32), (@fnan binary32)), ill))));
  (1552, (mnot (@rel_dec binary64 binary32 (@strictly_less_mixed binary64 binary32) (((@fnan binary64), (@fnan binary64)), ill) (((@fnan binary32), (@fnan binary32)), trv))));
  (1553, (mnot (@rel_dec binary64 binary32 (@strictly_less_mixed binary64 binary32) (((fl binary64 (1) (0)), (fl binary64 (1) (1))), trv) (((@fnan binary32), (@fnan binary32)), ill))));
  (1554, (mnot (@rel_dec binary64 binary32 (@strictly_less_mixed binary64 binary32) (((@fnan binary64), (@fnan binary64)), ill) (((fl binary32 (1) (0)), (fl binary32 (1) (1))), trv))));
  (1556, (@rel_dec binary64 binary32 (@strictly_less_mixed binary64 binary32) (((@fnan binary64), (@fnan binary64)), trv) (((@fnan binary32), (@fnan binary32)), trv)));
  (1557, (mnot (@rel_dec binary64 binary32 (@strictly_less_mixed binary64 binary32) (((fl binary64 (1) (0)), (fl binary64 (1) (1))), trv) (((@fnan binary32), (@fnan binary32)), trv))));
  (1558, (mnot (@rel_dec binary64 binary32 (@strictly_less_mixed binary64 binary32) (((@fnan binary64), (@fnan binary64)), trv) (((fl binary32 (1) (0)), (fl binary32 (1) (1))), def))));
  (1560, (@rel_dec binary64 binary32 (@strictly_less_mixed binary64 binary32) (((@fminf binary64), (@finf binary64)), trv) (((@fminf binary32), (@finf binary32)), trv)));
  (1561, (mnot (@rel_dec binary64 binary32 (@strictly_less_mixed binary64 binary32) (((fl binary64 (1) (0)), (fl binary64 (1) (1))), trv) (((@fminf binary32), (@finf binary32)), trv))));
  (1562, (mnot (@rel_dec binary64 binary32 (@strictly_less_mixed binary64 binary32) (((@fminf binary64), (@finf binary64)), trv) (((fl binary32 (1) (0)), (fl binary32 (1) (1))), trv))));
  (1564, (mnot (@rel_dec binary64 binary32 (@strictly_less_mixed binary64 binary32) (((fl binary64 (1) (0)), (fl binary64 (1) (1))), def) (((fl binary32 (1) (0)), (fl binary32 (1) (1))), def))));
  (1565, (@rel_dec binary64 binary32 (@strictly_less_mixed binary64 binary32) (((fl binary64 (1) (0)), (fl binary64 (1) (1))), trv) (((fl binary32 (3) (0)), (fl binary32 (1) (2))), trv)));
  (1566, (@rel_dec binary64 binary32 (@strictly_less_mixed binary64 binary32) (((fl binary64 (1) (0)), (fl binary64 (7) (-1))), def) (((fl binary32 (3) (0)), (fl binary32 (1) (2))), trv)));
  (1567, (mnot (@rel_dec binary64 binary32 (@strictly_less_mixed binary64 binary32) (((fl binary64 (1) (0)), (fl binary64 (1) (2))), trv) (((fl binary32 (3) (0)), (fl binary32 (1) (2))), trv))));
  (1568, (mnot (@rel_dec binary64 binary32 (@strictly_less_mixed binary64 binary32) (((@f0 binary64), (fl binary64 (1) (2))), trv) (((@f0 binary32), (fl binary32 (1) (2))), trv))));
  (1569, (mnot (@rel_dec binary64 binary32 (@strictly_less_mixed binary64 binary32) (((@fm0 binary64), (fl binary64 (1) (2))), trv) (((@f0 binary32), (fl binary32 (1) (2))), trv))));
  (1571, (mnot (@rel_dec binary64 binary32 (@strictly_less_mixed binary64 binary32) (((fl binary64 (-1) (1)), (fl binary64 (-1) (0))), trv) (((fl binary32 (-1) (1)), (fl binary32 (-1) (0))), trv))));
  (1572, (@rel_dec binary64 binary32 (@strictly_less_mixed binary64 binary32) (((fl binary64 (-3) (0)), (fl binary64 (-3) (-1))), trv) (((fl binary32 (-1) (1)), (fl binary32 (-1) (0))), trv)));
  (1574, (mnot (@rel_dec binary32 binary64 (@strictly_less_mixed binary32 binary64) (((@fnan binary32), (@fnan binary32)), ill) (((@fnan binary64), (@fnan binary64)), ill))));
  (1575, (mnot (@rel_dec binary32 binary64 (@strictly_less_mixed binary32 binary64) (((@fnan binary32), (@fnan binary32)), ill) (((@fnan binary64), (@fnan binary64)), trv))));
  (1576, (mnot (@rel_dec binary32 binary64 (@strictly_less_mixed binary32 binary64) (((fl binary32 (1) (0)), (fl binary32 (1) (1))), def) (((@fnan binary64), (@fnan binary64)), ill))));
  (1577, (mnot (@rel_dec binary32 binary64 (@strictly_less_mixed binary32 binary64) (((@fnan binary32), (@fnan binary32)), ill) (((fl binary64 (1) (0)), (fl binary64 (1) (1))), trv))));
  (1579, (@rel_dec binary32 binary64 (@strictly_less_mixed binary32 binary64) (((@fnan binary32), (@fnan binary32)), trv) (((@fnan binary64), (@fnan binary64)), trv)));
  (1580, (mnot (@rel_dec binary32 binary64 (@strictly_less_mixed binary32 binary64) (((fl binary32 (1) (0)), (fl binary32 (1) (1))), trv) (((@fnan binary64), (@fnan binary64)), trv))));
  (1581, (mnot (@rel_dec binary32 binary64 (@strictly_less_mixed binary32 binary64) (((@fnan binary32), (@fnan binary32)), trv) (((fl binary64 (1) (0)), (fl binary64 (1) (1))), trv))));
  (1583, (@rel_dec binary32 binary64 (@strictly_less_mixed binary32 binary64) (((@fminf binary32), (@finf binary32)), trv) (((@fminf binary64), (@finf binary64)), trv)));
  (1584, (mnot (@rel_dec binary32 binary64 (@strictly_less_mixed binary32 binary64) (((fl binary32 (1) (0)), (fl binary32 (1) (1))), trv) (((@fminf binary64), (@finf binary64)), trv))));
  (1585, (mnot (@rel_dec binary32 binary64 (@strictly_less_mixed binary32 binary64) (((@fminf binary32), (@finf binary32)), trv) (((fl binary64 (1) (0)), (fl binary64 (1) (1))), trv))));
  (1587, (mnot (@rel_dec binary32 binary64 (@strictly_less_mixed binary32 binary64) (((fl binary32 (1) (0)), (fl binary32 (1) (1))), trv) (((fl binary64 (1) (0)), (fl binary64 (1) (1))), trv))));
  (1588, (@rel_dec binary32 binary64 (@strictly_less_mixed binary32 binary64) (((fl binary32 (1) (0)), (fl binary32 (1) (1))), def) (((fl binary64 (3) (0)), (fl binary64 (1) (2))), trv)));
  (1589, (@rel_dec binary32 binary64 (@strictly_less_mixed binary32 binary64) (((fl binary32 (1) (0)), (fl binary32 (7) (-1))), trv) (((fl binary64 (3) (0)), (fl binary64 (1) (2))), trv)));
  (1590, (mnot (@rel_dec binary32 binary64 (@strictly_less_mixed binary32 binary64) (((fl binary32 (1) (0)), (fl binary32 (1) (2))), trv) (((fl binary64 (3) (0)), (fl binary64 (1) (2))), def))));
  (1591, (mnot (@rel_dec binary32 binary64 (@strictly_less_mixed binary32 binary64) (((@f0 binary32), (fl binary32 (1) (2))), trv) (((@f0 binary64), (fl binary64 (1) (2))), trv))));
  (1592, (mnot (@rel_dec binary32 binary64 (@strictly_less_mixed binary32 binary64) (((@fm0 binary32), (fl binary32 (1) (2))), trv) (((@f0 binary64), (fl binary64 (1) (2))), trv))));
  (1594, (mnot (@rel_dec binary32 binary64 (@strictly_less_mixed binary32 binary64) (((fl binary32 (-1) (1)), (fl binary32 (-1) (0))), trv) (((fl binary64 (-1) (1)), (fl binary64 (-1) (0))), trv))));
  (1595, (@rel_dec binary32 binary64 (@strictly_less_mixed binary32 binary64) (((fl binary32 (-3) (0)), (fl binary32 (-3) (-1))), trv) (((fl binary64 (-1) (1)), (fl binary64 (-1) (0))), trv)));
  (1597, (bind get_flags (fun v1 => ret (N.eqb v1 none_bit))));
  (1599, clear_flags);
  (1600, (mnot (@rel_dec binary32 binary64 (@strictly_less_mixed binary32 binary64) (((@fminf binary32), (@finf binary32)), trv) (((@fminf binary64), (@finf binary64)), com))));
  (1601, (bind get_flags (fun v1 => ret (N.eqb v1 invalid_operand_bit))));
  (1602, clear_flags);
  (1603, (set_cwd invalid_operand_bit));
  (1604, (throws (@rel_dec binary32 binary64 (@strictly_less_mixed binary32 binary64) (((@fminf binary32), (@finf binary32)), com) (((@fminf binary64), (@finf binary64)), trv)) Invalid_operand_exception));
  (1605, (bind get_flags (fun v1 => ret (N.eqb v1 invalid_operand_bit))));
  (1606, clear_flags);
  (1607, (set_cwd none_bit))].

(** lines 1612-1646 *)
Definition minimal_strictly_precedes_test : list (N * M bool) := [
  (1614, clear_flags);
  (1616, ((@strictly_precedes binary64) ((@fnan binary64), (@fnan binary64)) ((fl binary64 (3) (0)), (fl binary64 (1) (2)))));
  (1617, ((@strictly_precedes binary64) ((fl binary64 (3) (0)), (fl binary64 (1) (2))) ((@fnan binary64), (@fnan binary64))));
  (1618, ((@strictly_precedes binary64) ((@fnan binary64), (@fnan binary64)) ((@fnan binary64), (@fnan binary64))));
  (1621, (mnot ((@strictly_precedes binary64) ((fl binary64 (1) (0)), (fl binary64 (1) (1))) ((@fminf binary64), (@finf binary64)))));
  (1622, (mnot ((@strictly_precedes binary64) ((@fminf binary64), (@finf binary64)) ((fl binary64 (1) (0)), (fl binary64 (1) (1))))));
  (1623, (mnot ((@strictly_precedes binary64) ((@fminf binary64), (@finf binary64)) ((@fminf binary64), (@finf binary64)))));
  (1625, ((@strictly_precedes binary64) ((fl binary64 (1) (0)), (fl binary64 (1) (1))) ((fl binary64 (3) (0)), (fl binary64 (1) (2)))));
  (1626, (mnot ((@strictly_precedes binary64) ((fl binary64 (1) (0)), (fl binary64 (3) (0))) ((fl binary64 (3) (0)), (fl binary64 (1) (2))))));
  (1627, (mnot ((@strictly_precedes binary64) ((fl binary64 (-3) (0)), (fl binary64 (-1) (0))) ((fl binary64 (-1) (0)), (@f0 binary64)))));
  (1628, (mnot ((@strictly_precedes binary64) ((fl binary64 (-3) (0)), (@fm0 binary64)) ((@f0 binary64), (fl binary64 (1) (0))))));
  (1629, (mnot ((@strictly_precedes binary64) ((fl binary64 (-3) (0)), (@f0 binary64)) ((@fm0 binary64), (fl binary64 (1) (0))))));
  (1631, (mnot ((@strictly_precedes binary64) ((fl binary64 (1) (0)), (fl binary64 (7) (-1))) ((fl binary64 (3) (0)), (fl binary64 (1) (2))))));
  (1632, (mnot ((@strictly_precedes binary64) ((fl binary64 (1) (0)), (fl binary64 (1) (2))) ((fl binary64 (3) (0)), (fl binary64 (1) (2))))));
  (1633, (mnot ((@strictly_precedes binary64) ((fl binary64 (-3) (0)), (fl binary64 (-3602879701896397) (-55))) ((fl binary64 (-1) (0)), (@f0 binary64)))));
  (1635, (bind get_flags (fun v1 => ret (N.eqb v1 none_bit))));
  (1637, clear_flags);
  (1638, (mnot ((@strictly_precedes binary64) ((fl binary64 (1) (0)), (fl binary64 (3) (0))) ((fl binary64 (3) (0)), (fl binary64 (-1) (2))))));
  (1639, (bind get_flags (fun v1 => ret (N.eqb v1 invalid_operand_bit))));
  (1640, clear_flags);
  (1641, (set_cwd invalid_operand_bit));
  (1642, (throws ((@strictly_precedes binary64) ((fl binary64 (1) (4)), (fl binary64 (3) (0))) ((fl binary64 (3) (0)), (fl binary64 (1) (2)))) Invalid_operand_exception));
  (1643, (bind get_flags (fun v1 => ret (N.eqb v1 invalid_operand_bit))));
  (1644, clear_flags);
  (1645, (set_cwd none_bit))].

(** lines 1649-1702 *)
Definition minimal_strictly_precedes_mixedtype_test : list (N * M bool) := [
  (1651, clear_flags);
  (1653, ((@strictly_precedes_mixed binary64 binary32) ((@fnan binary64), (@fnan binary64)) ((fl binary32 (3) (0)), (fl binary32 (1) (2)))));
  (1654, ((@strictly_precedes_mixed binary64 binary32) ((fl binary64 (3) (0)), (fl binary64 (1) (2))) ((@fnan binary32), (@fnan binary32))));
  (1655, ((@strictly_precedes_mixed binary64 binary32) ((@fnan binary64), (@fnan binary64)) ((@fnan binary32), (@fnan binary32))));
  (1658, (mnot ((@strictly_precedes_mixed binary64 binary32) ((fl binary64 (1) (0)), (fl binary64 (1) (1))) ((@fminf binary32), (@finf binary32)))));
  (1659, (mnot ((@strictly_precedes_mixed binary64 binary32) ((@fminf binary64), (@finf binary64)) ((fl binary32 (1) (0)), (fl binary32 (1) (1))))));
  (1660, (mnot ((@strictly_precedes_mixed binary64 binary32) ((@fminf binary64), (@finf binary64)) ((@fminf binary32), (@finf binary32)))));
  (1662, ((@strictly_precedes_mixed binary64 binary32) ((fl binary64 (1) (0)), (fl binary64 (1) (1))) ((fl binary32 (3) (0)), (fl binary32 (1) (2)))));
  (1663, (mnot ((@strictly_precedes_mixed binary64 binary32) ((fl binary64 (1) (0)), (fl binary64 (3) (0))) ((fl binary32 (3) (0)), (fl binary32 (1) (2))))));
  (1664, (mnot ((@strictly_precedes_mixed binary64 binary32) ((fl binary64 (-3) (0)), (fl binary64 (-1) (0))) ((fl binary32 (-1) (0)), (@f0 binary32)))));
  (1665, (mnot ((@strictly_precedes_mixed binary64 binary32) ((fl binary64 (-3) (0)), (@fm0 binary64)) ((@f0 binary32), (fl binary32 (1) (0))))));
  (1666, (mnot ((@strictly_precedes_mixed binary64 binary32) ((fl binary64 (-3) (0)), (@f0 binary64)) ((@fm0 binary32), (fl binary32 (1) (0))))));
  (1668, (mnot ((@strictly_precedes_mixed binary64 binary32) ((fl binary64 (1) (0)), (fl binary64 (7) (-1))) ((fl binary32 (3) (0)), (fl binary32 (1) (2))))));
  (1669, (mnot ((@strictly_precedes_mixed binary64 binary32) ((fl binary64 (1) (0)), (fl binary64 (1) (2))) ((fl binary32 (3) (0)), (fl binary32 (1) (2))))));
  (1670, (mnot ((@strictly_precedes_mixed binary64 binary32) ((fl binary64 (-3) (0)), (fl binary64 (-3602879701896397) (-55))) ((fl binary32 (-1) (0)), (@f0 binary32)))));
  (1672, ((@strictly_precedes_mixed binary32 binary64) ((@fnan binary32), (@fnan binary32)) ((fl binary64 (3) (0)), (fl binary64 (1) (2)))));
  (1673, ((@strictly_precedes_mixed binary32 binary64) ((fl binary32 (3) (0)), (fl binary32 (1) (2))) ((@fnan binary64), (@fnan binary64))));
  (1674, ((@strictly_precedes_mixed binary32 binary64) ((@fnan binary32), (@fnan binary32)) ((@fnan binary64), (@fnan binary64))));
  (1677, (mnot ((@strictly_precedes_mixed binary32 binary64) ((fl binary32 (1) (0)), (fl binary32 (1) (1))) ((@fminf binary64), (@finf binary64)))));
  (1678, (mnot ((@strictly_precedes_mixed binary32 binary64) ((@fminf binary32), (@finf binary32)) ((fl binary64 (1) (0)), (fl binary64 (1) (1))))));
  (1679, (mnot ((@strictly_precedes_mixed binary32 binary64) ((@fminf binary32), (@finf binary32)) ((@fminf binary64), (@finf binary64)))));
  (1681, ((@strictly_precedes_mixed binary32 binary64) ((fl binary32 (1) (0)), (fl binary32 (1) (1))) ((fl binary64 (3) (0)), (fl binary64 (1) (2)))));
  (1682, (mnot ((@strictly_precedes_mixed binary32 binary64) ((fl binary32 (1) (0)), (fl binary32 (3) (0))) ((fl binary64 (3) (0)), (fl binary64 (1) (2))))));
  (1683, (mnot ((@strictly_precedes_mixed binary32 binary64) ((fl binary32 (-3) (0)), (fl binary32 (-1) (0))) ((fl binary64 (-1) (0)), (@f0 binary64)))));
  (1684, (mnot ((@strictly_precedes_mixed binary32 binary64) ((fl binary32 (-3) (0)), (@fm0 binary32)) ((@f0 binary64), (fl binary64 (1) (0))))));
  (1685, (mnot ((@strictly_precedes_mixed binary32 binary64) ((fl binary32 (-3) (0)), (@f0 binary32)) ((@fm0 binary64), (fl binary64 (1) (0))))));
  (1687, (mnot ((@strictly_precedes_mixed binary32 binary64) ((fl binary32 (1) (0)), (fl binary32 (7) (-1))) ((fl binary64 (3) (0)), (fl binary64 (1) (2))))));
  (1688, (mnot ((@strictly_precedes_mixed binary32 binary64) ((fl binary32 (1) (0)), (fl binary32 (1) (2))) ((fl binary64 (3) (0)), (fl binary64 (1) (2))))));
  (1689, (mnot ((@strictly_precedes_mixed binary32 binary64) ((fl binary32 (-3) (0)), (fl binary32 (-13421773) (-27))) ((fl binary64 (-1) (0)), (@f0 binary64)))));
  (1691, (bind get_flags (fun v1 => ret (N.eqb v1 none_bit))));
  (1693, clear_flags);
  (1694, (mnot ((@strictly_precedes_mixed binary32 binary64) ((fl binary32 (1) (0)), (fl binary32 (1) (1))) ((@fminf binary64), (@fminf binary64)))));
  (1695, (bind get_flags (fun v1 => ret (N.eqb v1 invalid_operand_bit))));
  (1696, clear_flags);
  (1697, (set_cwd invalid_operand_bit));
  (1698, (throws ((@strictly_precedes_mixed binary32 binary64) ((fl binary32 (1) (0)), (fl binary32 (-1) (1))) ((@fminf binary64), (@finf binary64))) Invalid_operand_exception));
  (1699, (bind get_flags (fun v1 => ret (N.eqb v1 invalid_operand_bit))));
  (1700, clear_flags);
  (1701, (set_cwd none_bit))].

(** lines 1705-1743 *)
Definition minimal_strictly_precedes_dec_test : list (N * M bool) := [
  (1707, clear_flags);
  (1709, (mnot (@rel_dec binary64 binary64 (@strictly_precedes binary64) (((@fnan binary64), (@fnan binary64)), ill) (((fl binary64 (3) (0)), (fl binary64 (1) (2))), trv))));
  (1710, (mnot (@rel_dec binary64 binary64 (@strictly_precedes binary64) (((fl binary64 (3) (0)), (fl binary64 (1) (2))), def) (((@fnan binary64), (@fnan binary64)), ill))));
  (1711, (mnot (@rel_dec binary64 binary64 (@strictly_precedes binary64) (((@fnan binary64), (@fnan binary64)), ill) (((@fnan binary64), (@fnan binary64)), trv))));
  (1712, (mnot (@rel_dec binary64 binary64 (@strictly_precedes binary64) (((@fnan binary64), (@fnan binary64)), ill) (((@fnan binary64), (@fnan binary64)), ill))));
  (1714, (@rel_dec binary64 binary64 (@strictly_precedes binary64) (((@fnan binary64), (@fnan binary64)), trv) (((fl binary64 (3) (0)), (fl binary64 (1) (2))), trv)));
  (1715, (@rel_dec binary64 binary64 (@strictly_precedes binary64) (((fl binary64 (3) (0)), (fl binary64 (1) (2))), def) (((@fnan binary64), (@fnan binary64)), trv)));
  (1716, (@rel_dec binary64 binary64 (@strictly_precedes binary64) (((@fnan binary64), (@fnan binary64)), trv) (((@fnan binary64), (@fnan binary64)), trv)));
  (1718, (mnot (@rel_dec binary64 binary64 (@strictly_precedes binary64) (((fl binary64 (1) (0)), (fl binary64 (1) (1))), trv) (((@fminf binary64), (@finf binary64)), trv))));
  (1719, (mnot (@rel_dec binary64 binary64 (@strictly_precedes binary64) (((@fminf binary64), (@finf binary64)), trv) (((fl binary64 (1) (0)), (fl binary64 (1) (1))), trv))));
  (1720, (mnot (@rel_dec binary64 binary64 (@strictly_precedes binary64) (((@fminf binary64), (@finf binary64)), trv) (((@fminf binary64), (@finf binary64)), trv))));
  (1722, (@rel_dec binary64 binary64 (@strictly_precedes binary64) (((fl binary64 (1) (0)), (fl binary64 (1) (1))), trv) (((fl binary64 (3) (0)), (fl binary64 (1) (2))), trv)));
  (1723, (mnot (@rel_dec binary64 binary64 (@strictly_precedes binary64) (((fl binary64 (1) (0)), (fl binary64 (3) (0))), def) (((fl binary64 (3) (0)), (fl binary64 (1) (2))), trv))));
  (1724, (mnot (@rel_dec binary64 binary64 (@strictly_precedes binary64) (((fl binary64 (-3) (0)), (fl binary64 (-1) (0))), trv) (((fl binary64 (-1) (0)), (@f0 binary64)), def))));
  (1725, (mnot (@rel_dec binary64 binary64 (@strictly_precedes binary64) (((fl binary64 (-3) (0)), (@fm0 binary64)), def) (((@f0 binary64), (fl binary64 (1) (0))), trv))));
  (1726, (mnot (@rel_dec binary64 binary64 (@strictly_precedes binary64) (((fl binary64 (-3) (0)), (@f0 binary64)), trv) (((@fm0 binary64), (fl binary64 (1) (0))), trv))));
  (1728, (mnot (@rel_dec binary64 binary64 (@strictly_precedes binary64) (((fl binary64 (1) (0)), (fl binary64 (7) (-1))), trv) (((fl binary64 (3) (0)), (fl binary64 (1) (2))), trv))));
  (1729, (mnot (@rel_dec binary64 binary64 (@strictly_precedes binary64) (((fl binary64 (1) (0)), (fl binary64 (1) (2))), trv) (((fl binary64 (3) (0)), (fl binary64 (1) (2))), def))));
  (1730, (mnot (@rel_dec binary64 binary64 (@strictly_precedes binary64) (((fl binary64 (-3) (0)), (fl binary64 (-3602879701896397) (-55))), trv) (((fl binary64 (-1) (0)), (@f0 binary64)), trv))));
  (1732, (bind get_flags (fun v1 => ret (N.eqb v1 none_bit))));
  (1734, clear_flags);
  (1735, (mnot (@rel_dec binary64 binary64 (@strictly_precedes binary64) (((fl binary64 (1) (0)), (fl binary64 (-1) (1))), trv) (((fl binary64 (3) (0)), (fl binary64 (1) (2))), ill))));
  (1736, (bind get_flags (fun v1 => ret (N.eqb v1 invalid_operand_bit))));
  (1737, clear_flags);
  (1738, (set_cwd invalid_operand_bit));
  (1739, (throws (@rel_dec binary64 binary64 (@strictly_precedes binary64) (((fl binary64 (1) (0)), (fl binary64 (1) (1))), trv) (((fl binary64 (3) (0)), (@finf binary64)), com)) Invalid_operand_exception));
  (1740, (bind get_flags (fun v1 => ret (N.eqb v1 invalid_operand_bit))));
  (1741, clear_flags);
  (1742, (set_cwd none_bit))].

(** lines 1746-1807 *)
Definition minimal_strictly_precedes_dec_mixedtype_test : list (N * M bool) := [
  (1748, clear_flags);
  (1750, (mnot (@rel_dec binary64 binary32 (@strictly_precedes_mixed binary64 binary32) (((@fnan binary64), (@fnan binary64)), ill) (((fl binary32 (3) (0)), (fl binary32 (1) (2))), trv))));
  (1751, (mnot (@rel_dec binary64 binary32 (@strictly_precedes_mixed binary64 binary32) (((fl binary64 (3) (0)), (fl binary64 (1) (2))), trv) (((@fnan binary32), (@fnan binary32)), ill))));
  (1752, (mnot (@rel_dec binary64 binary32 (@strictly_precedes_mixed binary64 binary32) (((@fnan binary64), (@fnan binary64)), ill) (((@fnan binary32), (@fnan binary32)), trv))));
  (1753, (mnot (@rel_dec binary64 binary32 (@strictly_precedes_mixed binary64 binary32) (((@fnan binary64), (@fnan binary64)), ill) (((@fnan binary32), (@fnan binary32)), ill))));
  (1755, (@rel_dec binary64 binary32 (@strictly_precedes_mixed binary64 binary32) (((@fnan binary64), (@fnan binary64)), trv) (((fl binary32 (3) (0)), (fl binary32 (1) (2))), trv)));
  (1756, (@rel_dec binary64 binary32 (@strictly_precedes_mixed binary64 binary32) (((fl binary64 (3) (0)), (fl binary64 (1) (2))), trv) (((@fnan binary32), (@fnan binary32)), trv)));
  (1757, (@rel_dec binary64 binary32 (@strictly_precedes_mixed binary64 binary32) (((@fnan binary64), (@fnan binary64)), trv) (((@fnan binary32), (@fnan binary32)), trv)));
  (1759, (mnot (@rel_dec binary64 binary32 (@strictly_precedes_mixed binary64 binary32) (((fl binary64 (1) (0)), (fl binary64 (1) (1))), trv) (((@fminf binary32), (@finf binary32)), def))));
  (1760, (mnot (@rel_dec binary64 binary32 (@strictly_precedes_mixed binary64 binary32) (((@fminf binary64), (@finf binary64)), trv) (((fl binary32 (1) (0)), (fl binary32 (1) (1))), def))));
  (1761, (mnot (@rel_dec binary64 binary32 (@strictly_precedes_mixed binary64 binary32) (((@fminf binary64), (@finf binary64)), trv) (((@fminf binary32), (@finf binary32)), trv))));
  (1763, (@rel_dec binary64 binary32 (@strictly_precedes_mixed binary64 binary32) (((fl binary64 (1) (0)), (fl binary64 (1) (1))), trv) (((fl binary32 (3) (0)), (fl binary32 (1) (2))), trv)));
  (1764, (mnot (@rel_dec binary64 binary32 (@strictly_precedes_mixed binary64 binary32) (((fl binary64 (1) (0)), (fl binary64 (3) (0))), trv) (((fl binary32 (3) (0)), (fl binary32 (1) (2))), trv))));
  (1765, (mnot (@rel_dec binary64 binary32 (@strictly_precedes_mixed binary64 binary32) (((fl binary64 (-3) (0)), (fl binary64 (-1) (0))), def) (((fl binary32 (-1) (0)), (@f0 binary32)), trv))));
  (1766, (mnot (@rel_dec binary64 binary32 (@strictly_precedes_mixed binary64 binary32) (((fl binary64 (-3) (0)), (@fm0 binary64)), trv) (((@f0 binary32), (fl binary32 (1) (0))), def))));
  (1767, (mnot (@rel_dec binary64 binary32 (@strictly_precedes_mixed binary64 binary32) (((fl binary64 (-3) (0)), (@f0 binary64)), trv) (((@fm0 binary32), (fl binary32 (1) (0))), trv))));
  (1769, (mnot (@rel_dec binary64 binary32 (@strictly_precedes_mixed binary64 binary32) (((fl binary64 (1) (0)), (fl binary64 (7) (-1))), trv) (((fl binary32 (3) (0)), (fl binary32 (1) (2))), trv))));
  (1770, (mnot (@rel_dec binary64 binary32 (@strictly_precedes_mixed binary64 binary32) (((fl binary64 (1) (0)), (fl binary64 (1) (2))), def) (((fl binary32 (3) (0)), (fl binary32 (1) (2))), def))));
  (1771, (mnot (@rel_dec binary64 binary32 (@strictly_precedes_mixed binary64 binary32) (((fl binary64 (-3) (0)), (fl binary64 (-3602879701896397) (-55))), trv) (((fl binary32 (-1) (0)), (@f0 binary32)), trv))));
  (1773, (mnot (@rel_dec binary32 binary64 (@strictly_precedes_mixed binary32 binary64) (((@fnan binary32), (@fnan binary32)), ill) (((fl binary64 (3) (0)), (fl binary64 (1) (2))), trv))));
  (1774, (mnot (@rel_dec binary32 binary64 (@strictly_precedes_mixed binary32 binary64) (((fl binary32 (3) (0)), (fl binary32 (1) (2))), trv) (((@fnan binary64), (@fnan binary64)), ill))));
  (1775, (mnot (@rel_dec binary32 binary64 (@strictly_precedes_mixed binary32 binary64) (((@fnan binary32), (@fnan binary32)), ill) (((@fnan binary64), (@fnan binary64)), trv))));
  (1776, (mnot (@rel_dec binary32 binary64 (@strictly_precedes_mixed binary32 binary64) (((@fnan binary32), (@fnan binary32)), ill) (((@fnan binary64), (@fnan binary64)), ill))));
  (1778, (@rel_dec binary32 binary64 (@strictly_precedes_mixed binary32 binary64) (((@fnan binary32), (@fnan binary32)), trv) (((fl binary64 (3) (0)), (fl binary64 (1) (2))), trv)));
  (1779, (@rel_dec binary32 binary64 (@strictly_precedes_mixed binary32 binary64) (((fl binary32 (3) (0)), (fl binary32 (1) (2))), trv) (((@fnan binary64), (@fnan binary64)), trv)));
  (1780, (@rel_dec binary32 binary64 (@strictly_precedes_mixed binary32 binary64) (((@fnan binary32), (@fnan binary32)), trv) (((@fnan binary64), (@fnan binary64)), trv)));
  (1782, (mnot (@rel_dec binary32 binary64 (@strictly_precedes_mixed binary32 binary64) (((fl binary32 (1) (0)), (fl binary32 (1) (1))), trv) (((@fminf binary64), (@finf binary64)), trv))));
  (1783, (mnot (@rel_dec binary32 binary64 (@strictly_precedes_mixed binary32 binary64) (((@fminf binary32), (@finf binary32)), trv) (((fl binary64 (1) (0)), (fl binary64 (1) (1))), trv))));
  (1784, (mnot (@rel_dec binary32 binary64 (@strictly_precedes_mixed binary32 binary64) (((@fminf binary32), (@finf binary32)), trv) (((@fminf binary64), (@finf binary64)), trv))));
  (1786, (@rel_dec binary32 binary64 (@strictly_precedes_mixed binary32 binary64) (((fl binary32 (1) (0)), (fl binary32 (1) (1))), trv) (((fl binary64 (3) (0)), (fl binary64 (1) (2))), trv)));
  (1787, (mnot (@rel_dec binary32 binary64 (@strictly_precedes_mixed binary32 binary64) (((fl binary32 (1) (0)), (fl binary32 (3) (0))), trv) (((fl binary64 (3) (0)), (fl binary64 (1) (2))), trv))));
  (1788, (mnot (@rel_dec binary32 binary64 (@strictly_precedes_mixed binary32 binary64) (((fl binary32 (-3) (0)), (fl binary32 (-1) (0))), def) (((fl binary64 (-1) (0)), (@f0 binary64)), trv))));
  (1789, (mnot (@rel_dec binary32 binary64 (@strictly_precedes_mixed binary32 binary64) (((fl binary32 (-3) (0)), (@fm0 binary32)), trv) (((@f0 binary64), (fl binary64 (1) (0))), def))));
  (1790, (mnot (@rel_dec binary32 binary64 (@strictly_precedes_mixed binary32 binary64) (((fl binary32 (-3) (0)), (@f0 binary32)), trv) (((@fm0 binary64), (fl binary64 (1) (0))), trv))));
  (1792, (mnot (@rel_dec binary32 binary64 (@strictly_precedes_mixed binary32 binary64) (((fl binary32 (1) (0)), (fl binary32 (7) (-1))), trv) (((fl binary64 (3) (0)), (fl binary64 (1) (2))), trv))));
  (1793, (mnot (@rel_dec binary32 binary64 (@strictly_precedes_mixed binary32 binary64) (((fl binary32 (1) (0)), (fl binary32 (1) (2))), trv) (((fl binary64 (3) (0)), (fl binary64 (1) (2))), trv))));
  (1794, (mnot (@rel_dec binary32 binary64 (@strictly_precedes_mixed binary32 binary64) (((fl binary32 (-3) (0)), (fl binary32 (-13421773) (-27))), trv) (((fl binary64 (-1) (0)), (@f0 binary64)), trv))));
  (1796, (bind get_flags (fun v1 => ret (N.eqb v1 none_bit))));
  (1798, clear_flags);
  (1799, (mnot (@rel_dec binary64 binary32 (@strictly_precedes_mixed binary64 binary32) (((fl binary64 (1) (0)), (fl binary64 (7) (-1))), trv) (((fl binary32 (3) (0)), (fl binary32 (-1) (2))), trv))));
  (1800, (bind get_flags (fun v1 => ret (N.eqb v1 invalid_operand_bit))));
  (1801, clear_flags);
  (1802, (set_cwd invalid_operand_bit));
  (1803, (throws (@rel_dec binary64 binary32 (@strictly_precedes_mixed binary64 binary32) (((fl binary64 (1) (0)), (fl binary64 (-7) (-1))), trv) (((fl binary32 (3) (0)), (fl binary32 (1) (2))), trv)) Invalid_operand_exception));
  (1804, (bind get_flags (fun v1 => ret (N.eqb v1 invalid_operand_bit))));
  (1805, clear_flags);
  (1806, (set_cwd none_bit))].

(** lines 1810-1838 *)
Definition minimal_disjoint_test : list (N * M bool) := [
  (1812, clear_flags);
  (1814, ((@disjoint binary64) ((@fnan binary64), (@fnan binary64)) ((fl binary64 (3) (0)), (fl binary64 (1) (2)))));
  (1815, ((@disjoint binary64) ((fl binary64 (3) (0)), (fl binary64 (1) (2))) ((@fnan binary64), (@fnan binary64))));
  (1816, ((@disjoint binary64) ((@fnan binary64), (@fnan binary64)) ((@fnan binary64), (@fnan binary64))));
  (1818, ((@disjoint binary64) ((fl binary64 (3) (0)), (fl binary64 (1) (2))) ((fl binary64 (1) (0)), (fl binary64 (1) (1)))));
  (1820, (mnot ((@disjoint binary64) ((@f0 binary64), (@f0 binary64)) ((@fm0 binary64), (@fm0 binary64)))));
  (1821, (mnot ((@disjoint binary64) ((@f0 binary64), (@fm0 binary64)) ((@fm0 binary64), (@f0 binary64)))));
  (1822, (mnot ((@disjoint binary64) ((fl binary64 (3) (0)), (fl binary64 (1) (2))) ((fl binary64 (1) (0)), (fl binary64 (7) (0))))));
  (1823, (mnot ((@disjoint binary64) ((fl binary64 (3) (0)), (fl binary64 (1) (2))) ((@fminf binary64), (@finf binary64)))));
  (1824, (mnot ((@disjoint binary64) ((@fminf binary64), (@finf binary64)) ((fl binary64 (1) (0)), (fl binary64 (7) (0))))));
  (1825, (mnot ((@disjoint binary64) ((@fminf binary64), (@finf binary64)) ((@fminf binary64), (@finf binary64)))));
  (1827, (bind get_flags (fun v1 => ret (N.eqb v1 none_bit))));
  (1829, clear_flags);
  (1830, (mnot ((@disjoint binary64) ((fl binary64 (3) (0)), (fl binary64 (-1) (2))) ((@fminf binary64), (@finf binary64)))));
  (1831, (bind get_flags (fun v1 => ret (N.eqb v1 invalid_operand_bit))));
  (1832, clear_flags);
  (1833, (set_cwd invalid_operand_bit));
  (1834, (throws ((@disjoint binary64) ((fl binary64 (3) (0)), (fl binary64 (1) (2))) ((@finf binary64), (@finf binary64))) Invalid_operand_exception));
  (1835, (bind get_flags (fun v1 => ret (N.eqb v1 invalid_operand_bit))));
  (1836, clear_flags);
  (1837, (set_cwd none_bit))].

(** lines 1840-1881 *)
Definition minimal_disjoint_mixedtype_test : list (N * M bool) := [
  (1842, clear_flags);
  (1844, ((@disjoint_mixed binary64 binary32) ((@fnan binary64), (@fnan binary64)) ((fl binary32 (3) (0)), (fl binary32 (1) (2)))));
  (1845, ((@disjoint_mixed binary64 binary32) ((fl binary64 (3) (0)), (fl binary64 (1) (2))) ((@fnan binary32), (@fnan binary32))));
  (1846, ((@disjoint_mixed binary64 binary32) ((@fnan binary64), (@fnan binary64)) ((@fnan binary32), (@fnan binary32))));
  (1848, ((@disjoint_mixed binary64 binary32) ((fl binary64 (3) (0)), (fl binary64 (1) (2))) ((fl binary32 (1) (0)), (fl binary32 (1) (1)))));
  (1850, (mnot ((@disjoint_mixed binary64 binary32) ((@f0 binary64), (@f0 binary64)) ((@fm0 binary32), (@fm0 binary32)))));
  (1851, (mnot ((@disjoint_mixed binary64 binary32) ((@f0 binary64), (@fm0 binary64)) ((@fm0 binary32), (@f0 binary32)))));
  (1852, (mnot ((@disjoint_mixed binary64 binary32) ((fl binary64 (3) (0)), (fl binary64 (1) (2))) ((fl binary32 (1) (0)), (fl binary32 (7) (0))))));
  (1853, (mnot ((@disjoint_mixed binary64 binary32) ((fl binary64 (3) (0)), (fl binary64 (1) (2))) ((@fminf binary32), (@finf binary32)))));
  (1854, (mnot ((@disjoint_mixed binary64 binary32) ((@fminf binary64), (@finf binary64)) ((fl binary32 (1) (0)), (fl binary32 (7) (0))))));
  (1855, (mnot ((@disjoint_mixed binary64 binary32) ((@fminf binary64), (@finf binary64)) ((@fminf binary32), (@finf binary32)))));
  (1857, ((@disjoint_mixed binary32 binary64) ((@fnan binary32), (@fnan binary32)) ((fl binary64 (3) (0)), (fl binary64 (1) (2)))));
  (1858, ((@disjoint_mixed binary32 binary64) ((fl binary32 (3) (0)), (fl binary32 (1) (2))) ((@fnan binary64), (@fnan binary64))));
  (1859, ((@disjoint_mixed binary32 binary64) ((@fnan binary32), (@fnan binary32)) ((@fnan binary64), (@fnan binary64))));
  (1861, ((@disjoint_mixed binary32 binary64) ((fl binary32 (3) (0)), (fl binary32 (1) (2))) ((fl binary64 (1) (0)), (fl binary64 (1) (1)))));
  (1863, (mnot ((@disjoint_mixed binary32 binary64) ((@f0 binary32), (@f0 binary32)) ((@fm0 binary64), (@fm0 binary64)))));
  (1864, (mnot ((@disjoint_mixed binary32 binary64) ((@f0 binary32), (@fm0 binary32)) ((@fm0 binary64), (@f0 binary64)))));
  (1865, (mnot ((@disjoint_mixed binary32 binary64) ((fl binary32 (3) (0)), (fl binary32 (1) (2))) ((fl binary64 (1) (0)), (fl binary64 (7) (0))))));
  (1866, (mnot ((@disjoint_mixed binary32 binary64) ((fl binary32 (3) (0)), (fl binary32 (1) (2))) ((@fminf binary64), (@finf binary64)))));
  (1867, (mnot ((@disjoint_mixed binary32 binary64) ((@fminf binary32), (@finf binary32)) ((fl binary64 (1) (0)), (fl binary64 (7) (0))))));
  (1868, (mnot ((@disjoint_mixed binary32 binary64) ((@fminf binary32), (@finf binary32)) ((@fminf binary64), (@finf binary64)))));
  (1870, (bind get_flags (fun v1 => ret (N.eqb v1 none_bit))));
  (1872, clear_flags);
  (1873, (mnot ((@disjoint_mixed binary32 binary64) ((fl binary32 (3) (0)), (fl binary32 (1) (2))) ((@fminf binary64), (@fminf binary64)))));
  (1874, (bind get_flags (fun v1 => ret (N.eqb v1 invalid_operand_bit))));
  (1875, clear_flags);
  (1876, (set_cwd invalid_operand_bit));
  (1877, (throws ((@disjoint_mixed binary32 binary64) ((fl binary32 (15) (1)), (fl binary32 (1) (2))) ((@fminf binary64), (@finf binary64))) Invalid_operand_exception));
  (1878, (bind get_flags (fun v1 => ret (N.eqb v1 invalid_operand_bit))));
  (1879, clear_flags);
  (1880, (set_cwd none_bit))].

(** lines 1884-1917 *)
Definition minimal_disjoint_dec_test : list (N * M bool) := [
  (1886, clear_flags);
  (1888, (mnot (@rel_dec binary64 binary64 (@disjoint binary64) (((@fnan binary64), (@fnan binary64)), ill) (((fl binary64 (3) (0)), (fl binary64 (1) (2))), def))));
  (1889, (mnot (@rel_dec binary64 binary64 (@disjoint binary64) (((fl binary64 (3) (0)), (fl binary64 (1) (2))), trv) (((@fnan binary64), (@fnan binary64)), ill))));
  (1890, (mnot (@rel_dec binary64 binary64 (@disjoint binary64) (((@fnan binary64), (@fnan binary64)), trv) (((@fnan binary64), (@fnan binary64)), ill))));
  (1891, (mnot (@rel_dec binary64 binary64 (@disjoint binary64) (((@fnan binary64), (@fnan binary64)), ill) (((@fnan binary64), (@fnan binary64)), ill))));
  (1893, (@rel_dec binary64 binary64 (@disjoint binary64) (((@fnan binary64), (@fnan binary64)), trv) (((fl binary64 (3) (0)), (fl binary64 (1) (2))), trv)));
  (1894, (@rel_dec binary64 binary64 (@disjoint binary64) (((fl binary64 (3) (0)), (fl binary64 (1) (2))), trv) (((@fnan binary64), (@fnan binary64)), trv)));
  (1895, (@rel_dec binary64 binary64 (@disjoint binary64) (((@fnan binary64), (@fnan binary64)), trv) (((@fnan binary64), (@fnan binary64)), trv)));
  (1897, (@rel_dec binary64 binary64 (@disjoint binary64) (((fl binary64 (3) (0)), (fl binary64 (1) (2))), trv) (((fl binary64 (1) (0)), (fl binary64 (1) (1))), def)));
  (1899, (mnot (@rel_dec binary64 binary64 (@disjoint binary64) (((@f0 binary64), (@f0 binary64)), trv) (((@fm0 binary64), (@fm0 binary64)), trv))));
  (1900, (mnot (@rel_dec binary64 binary64 (@disjoint binary64) (((@f0 binary64), (@fm0 binary64)), trv) (((@fm0 binary64), (@f0 binary64)), trv))));
  (1901, (mnot (@rel_dec binary64 binary64 (@disjoint binary64) (((fl binary64 (3) (0)), (fl binary64 (1) (2))), def) (((fl binary64 (1) (0)), (fl binary64 (7) (0))), def))));
  (1902, (mnot (@rel_dec binary64 binary64 (@disjoint binary64) (((fl binary64 (3) (0)), (fl binary64 (1) (2))), trv) (((@fminf binary64), (@finf binary64)), trv))));
  (1903, (mnot (@rel_dec binary64 binary64 (@disjoint binary64) (((@fminf binary64), (@finf binary64)), trv) (((fl binary64 (1) (0)), (fl binary64 (7) (0))), trv))));
  (1904, (mnot (@rel_dec binary64 binary64 (@disjoint binary64) (((@fminf binary64), (@finf binary64)), trv) (((@fminf binary64), (@finf binary64)), trv))));
  (1906, (bind get_flags (fun v1 => ret (N.eqb v1 none_bit))));
  (1908, clear_flags);
  (1909, (mnot (@rel_dec binary64 binary64 (@disjoint binary64) (((fl binary64 (3) (0)), (fl binary64 (1) (2))), trv) (((@fminf binary64), (@finf binary64)), com))));
  (1910, (bind get_flags (fun v1 => ret (N.eqb v1 invalid_operand_bit))));
  (1911, clear_flags);
  (1912, (set_cwd invalid_operand_bit));
  (1913, (throws (@rel_dec binary64 binary64 (@disjoint binary64) (((fl binary64 (3) (0)), (fl binary64 (1) (2))), ill) (((@fminf binary64), (@finf binary64)), trv)) Invalid_operand_exception));
  (1914, (bind get_flags (fun v1 => ret (N.eqb v1 invalid_operand_bit))));
  (1915, clear_flags);
  (1916, (set_cwd none_bit))].

(** lines 1919-1970 *)
Definition minimal_disjoint_dec_mixedtype_test : list (N * M bool) := [
  (1921, clear_flags);
  (1923, (mnot (@rel_dec binary64 binary32 (@disjoint_mixed binary64 binary32) (((@fnan binary64), (@fnan binary64)), ill) (((fl binary32 (3) (0)), (fl binary32 (1) (2))), trv))));
  (1924, (mnot (@rel_dec binary64 binary32 (@disjoint_mixed binary64 binary32) (((fl binary64 (3) (0)), (fl binary64 (1) (2))), trv) (((@fnan binary32), (@fnan binary32)), ill))));
  (1925, (mnot (@rel_dec binary64 binary32 (@disjoint_mixed binary64 binary32) (((@fnan binary64), (@fnan binary64)), trv) (((@fnan binary32), (@fnan binary32)), ill))));
  (1926, (mnot (@rel_dec binary64 binary32 (@disjoint_mixed binary64 binary32) (((@fnan binary64), (@fnan binary64)), ill) (((@fnan binary32), (@fnan binary32)), ill))));
  (1928, (@rel_dec binary64 binary32 (@disjoint_mixed binary64 binary32) (((@fnan binary64), (@fnan binary64)), trv) (((fl binary32 (3) (0)), (fl binary32 (1) (2))), def)));
  (1929, (@rel_dec binary64 binary32 (@disjoint_mixed binary64 binary32) (((fl binary64 (3) (0)), (fl binary64 (1) (2))), trv) (((@fnan binary32), (@fnan binary32)), trv)));
  (1930, (@rel_dec binary64 binary32 (@disjoint_mixed binary64 binary32) (((@fnan binary64), (@fnan binary64)), trv) (((@fnan binary32), (@fnan binary32)), trv)));
  (1932, (@rel_dec binary64 binary32 (@disjoint_mixed binary64 binary32) (((fl binary64 (3) (0)), (fl binary64 (1) (2))), trv) (((fl binary32 (1) (0)), (fl binary32 (1) (1))), trv)));
  (1934, (mnot (@rel_dec binary64 binary32 (@disjoint_mixed binary64 binary32) (((@f0 binary64), (@f0 binary64)), trv) (((@fm0 binary32), (@fm0 binary32)), trv))));
  (1935, (mnot (@rel_dec binary64 binary32 (@disjoint_mixed binary64 binary32) (((@f0 binary64), (@fm0 binary64)), def) (((@fm0 binary32), (@f0 binary32)), def))));
  (1936, (mnot (@rel_dec binary64 binary32 (@disjoint_mixed binary64 binary32) (((fl binary64 (3) (0)), (fl binary64 (1) (2))), trv) (((fl binary32 (1) (0)), (fl binary32 (7) (0))), trv))));
  (1937, (mnot (@rel_dec binary64 binary32 (@disjoint_mixed binary64 binary32) (((fl binary64 (3) (0)), (fl binary64 (1) (2))), trv) (((@fminf binary32), (@finf binary32)), def))));
  (1938, (mnot (@rel_dec binary64 binary32 (@disjoint_mixed binary64 binary32) (((@fminf binary64), (@finf binary64)), trv) (((fl binary32 (1) (0)), (fl binary32 (7) (0))), trv))));
  (1939, (mnot (@rel_dec binary64 binary32 (@disjoint_mixed binary64 binary32) (((@fminf binary64), (@finf binary64)), trv) (((@fminf binary32), (@finf binary32)), trv))));
  (1941, (mnot (@rel_dec binary32 binary64 (@disjoint_mixed binary32 binary64) (((@fnan binary32), (@fnan binary32)), ill) (((fl binary64 (3) (0)), (fl binary64 (1) (2))), trv))));
  (1942, (mnot (@rel_dec binary32 binary64 (@disjoint_mixed binary32 binary64) (((fl binary32 (3) (0)), (fl binary32 (1) (2))), trv) (((@fnan binary64), (@fnan binary64)), ill))));
  (1943, (mnot (@rel_dec binary32 binary64 (@disjoint_mixed binary32 binary64) (((@fnan binary32), (@fnan binary32)), trv) (((@fnan binary64), (@fnan binary64)), ill))));
  (1944, (mnot (@rel_dec binary32 binary64 (@disjoint_mixed binary32 binary64) (((@fnan binary32), (@fnan binary32)), ill) (((@fnan binary64), (@fnan binary64)), ill))));
  (1946, (@rel_dec binary32 binary64 (@disjoint_mixed binary32 binary64) (((@fnan binary32), (@fnan binary32)), trv) (((fl binary64 (3) (0)), (fl binary64 (1) (2))), trv)));
  (1947, (@rel_dec binary32 binary64 (@disjoint_mixed binary32 binary64) (((fl binary32 (3) (0)), (fl binary32 (1) (2))), trv) (((@fnan binary64), (@fnan binary64)), trv)));
  (1948, (@rel_dec binary32 binary64 (@disjoint_mixed binary32 binary64) (((@fnan binary32), (@fnan binary32)), trv) (((@fnan binary64), (@fnan binary64)), trv)));
  (1950, (@rel_dec binary32 binary64 (@disjoint_mixed binary32 binary64) (((fl binary32 (3) (0)), (fl binary32 (1) (2))), trv) (((fl binary64 (1) (0)), (fl binary64 (1) (1))), trv)));
  (1952, (mnot (@rel_dec binary32 binary64 (@disjoint_mixed binary32 binary64) (((@f0 binary32), (@f0 binary32)), def) (((@fm0 binary64), (@fm0 binary64)), trv))));
  (1953, (mnot (@rel_dec binary32 binary64 (@disjoint_mixed binary32 binary64) (((@f0 binary32), (@fm0 binary32)), trv) (((@fm0 binary64), (@f0 binary64)), trv))));
  (1954, (mnot (@rel_dec binary32 binary64 (@disjoint_mixed binary32 binary64) (((fl binary32 (3) (0)), (fl binary32 (1) (2))), trv) (((fl binary64 (1) (0)), (fl binary64 (7) (0))), def))));
  (1955, (mnot (@rel_dec binary32 binary64 (@disjoint_mixed binary32 binary64) (((fl binary32 (3) (0)), (fl binary32 (1) (2))), trv) (((@fminf binary64), (@finf binary64)), trv))));
  (1956, (mnot (@rel_dec binary32 binary64 (@disjoint_mixed binary32 binary64) (((@fminf binary32), (@finf binary32)), trv) (((fl binary64 (1) (0)), (fl binary64 (7) (0))), trv))));
  (1957, (mnot (@rel_dec binary32 binary64 (@disjoint_mixed binary32 binary64) (((@fminf binary32), (@finf binary32)), trv) (((@fminf binary64), (@finf binary64)), trv))));
  (1959, (bind get_flags (fun v1 => ret (N.eqb v1 none_bit))));
  (1961, clear_flags);
  (1962, (mnot (@rel_dec binary32 binary64 (@disjoint_mixed binary32 binary64) (((@fnan binary32), (@fnan binary32)), dac) (((@fnan binary64), (@fnan binary64)), ill))));
  (1963, (bind get_flags (fun v1 => ret (N.eqb v1 invalid_operand_bit))));
  (1964, clear_flags);
  (1965, (set_cwd invalid_operand_bit));
  (1966, (throws (@rel_dec binary32 binary64 (@disjoint_mixed binary32 binary64) (((@fnan binary32), (@fnan binary32)), trv) (((@fnan binary64), (@fnan binary64)), def)) Invalid_operand_exception));
  (1967, (bind get_flags (fun v1 => ret (N.eqb v1 invalid_operand_bit))));
  (1968, clear_flags);
  (1969, (set_cwd none_bit))].

Example bool_func_agree : test_file [
  minimal_is_empty_test; minimal_is_empty_dec_test; minimal_is_entire_test; minimal_is_entire_dec_test; minimal_is_nai_dec_test; minimal_equal_test; minimal_equal_mixedtype_test; minimal_equal_dec_test; minimal_equal_dec_mixedtype_test; minimal_subset_test; minimal_subset_mixedtype_test; minimal_subset_dec_test; minimal_subset_dec_mixedtype_test; minimal_less_test; minimal_less_mixedtype_test; minimal_less_dec_test; minimal_less_dec_mixedtype_test; minimal_precedes_test; minimal_precedes_mixedtype_test; minimal_precedes_dec_test; minimal_precedes_dec_mixedtype_test; minimal_interior_test; minimal_interior_mixedtype_test; minimal_interior_dec_test; minimal_interior_dec_mixedtype_test; minimal_strictly_less_test; minimal_strictly_less_mixedtype_test; minimal_strictly_less_dec_test; minimal_strictly_less_dec_mixedtype_test; minimal_strictly_precedes_test; minimal_strictly_precedes_mixedtype_test; minimal_strictly_precedes_dec_test; minimal_strictly_precedes_dec_mixedtype_test; minimal_disjoint_test; minimal_disjoint_mixedtype_test; minimal_disjoint_dec_test; minimal_disjoint_dec_mixedtype_test] = [].
Proof. vm_compute. reflexivity. Qed.
