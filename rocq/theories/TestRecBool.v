(** * The checks of the unit tests in /repo/test/p1788/flavor/infsup/setbased/
    test_mpfr_bin_ieee754_flavor_rec_bool_func.cpp, run on the model

    One definition per test case of that file, the number before a check is its
    line there.  These are tests of the model, not proofs about it. *)

From Coq Require Import ZArith NArith Bool List.
From Flocq Require Import IEEE754.BinarySingleNaN.
From Verif Require Import Fmt Spec Exc Deco MBase MBool MArith MElem MDec MNum MCancel MOverlap MClass MRev MRev1 MMixed Ex TestRun.
Import ListNotations.
Local Open Scope N_scope.

(** lines 57-86 *)
Definition minimal_is_common_interval_test : list (N * M bool) := [
  (59, clear_flags);
  (61, (@is_common_interval binary64 ((fl binary64 (-27) (0)), (fl binary64 (-27) (0)))));
  (62, (@is_common_interval binary64 ((fl binary64 (-27) (0)), (@f0 binary64))));
  (63, (@is_common_interval binary64 ((@f0 binary64), (@f0 binary64))));
  (64, (@is_common_interval binary64 ((@fm0 binary64), (@fm0 binary64))));
  (65, (@is_common_interval binary64 ((@fm0 binary64), (@f0 binary64))));
  (66, (@is_common_interval binary64 ((@f0 binary64), (@fm0 binary64))));
  (67, (@is_common_interval binary64 ((fl binary64 (5) (0)), (fl binary64 (6980579422424269) (-49)))));
  (68, (@is_common_interval binary64 ((fl binary64 (-9007199254740991) (971)), (fl binary64 (9007199254740991) (971)))));
  (70, (mnot (@is_common_interval binary64 ((@fminf binary64), (@finf binary64)))));
  (71, (mnot (@is_common_interval binary64 ((@fnan binary64), (@fnan binary64)))));
  (72, (mnot (@is_common_interval binary64 ((@fminf binary64), (@f0 binary64)))));
  (73, (mnot (@is_common_interval binary64 ((@f0 binary64), (@finf binary64)))));
  (75, (bind get_flags (fun v1 => ret (N.eqb v1 none_bit))));
  (77, clear_flags);
  (78, (mnot (@is_common_interval binary64 ((@f0 binary64), (@fminf binary64)))));
  (79, (bind get_flags (fun v1 => ret (N.eqb v1 invalid_operand_bit))));
  (80, clear_flags);
  (81, (set_cwd invalid_operand_bit));
  (82, (throws (@is_common_interval binary64 ((fl binary64 (1) (0)), (fl binary64 (-1) (1)))) Invalid_operand_exception));
  (83, (bind get_flags (fun v1 => ret (N.eqb v1 invalid_operand_bit))));
  (84, clear_flags);
  (85, (set_cwd none_bit))].

(** lines 88-127 *)
Definition minimal_is_common_interval_dec_test : list (N * M bool) := [
  (90, clear_flags);
  (92, (@is_common_interval_dec binary64 (((fl binary64 (-27) (0)), (fl binary64 (-27) (0))), com)));
  (93, (@is_common_interval_dec binary64 (((fl binary64 (-27) (0)), (@f0 binary64)), com)));
  (94, (@is_common_interval_dec binary64 (((@f0 binary64), (@f0 binary64)), com)));
  (95, (@is_common_interval_dec binary64 (((@fm0 binary64), (@fm0 binary64)), com)));
  (96, (@is_common_interval_dec binary64 (((@fm0 binary64), (@f0 binary64)), com)));
  (97, (@is_common_interval_dec binary64 (((@f0 binary64), (@fm0 binary64)), com)));
  (98, (@is_common_interval_dec binary64 (((fl binary64 (5) (0)), (fl binary64 (6980579422424269) (-49))), com)));
  (99, (@is_common_interval_dec binary64 (((fl binary64 (-9007199254740991) (971)), (fl binary64 (9007199254740991) (971))), com)));
  (101, (@is_common_interval_dec binary64 (((fl binary64 (-27) (0)), (fl binary64 (-27) (0))), trv)));
  (102, (@is_common_interval_dec binary64 (((fl binary64 (-27) (0)), (@f0 binary64)), def)));
  (103, (@is_common_interval_dec binary64 (((@f0 binary64), (@f0 binary64)), dac)));
  (104, (@is_common_interval_dec binary64 (((@fm0 binary64), (@fm0 binary64)), trv)));
  (105, (@is_common_interval_dec binary64 (((@fm0 binary64), (@f0 binary64)), def)));
  (106, (@is_common_interval_dec binary64 (((@f0 binary64), (@fm0 binary64)), dac)));
  (107, (@is_common_interval_dec binary64 (((fl binary64 (5) (0)), (fl binary64 (6980579422424269) (-49))), def)));
  (108, (@is_common_interval_dec binary64 (((fl binary64 (-9007199254740991) (971)), (fl binary64 (9007199254740991) (971))), trv)));
  (110, (mnot (@is_common_interval_dec binary64 (((@fminf binary64), (@finf binary64)), dac))));
  (111, (mnot (@is_common_interval_dec binary64 (((@fnan binary64), (@fnan binary64)), ill))));
  (112, (mnot (@is_common_interval_dec binary64 (((@fnan binary64), (@fnan binary64)), trv))));
  (113, (mnot (@is_common_interval_dec binary64 (((@fminf binary64), (@f0 binary64)), trv))));
  (114, (mnot (@is_common_interval_dec binary64 (((@f0 binary64), (@finf binary64)), def))));
  (116, (bind get_flags (fun v1 => ret (N.eqb v1 none_bit))));
  (118, clear_flags);
  (119, (mnot (@is_common_interval_dec binary64 (((fl binary64 (27) (0)), (fl binary64 (-27) (0))), com))));
  (120, (bind get_flags (fun v1 => ret (N.eqb v1 invalid_operand_bit))));
  (121, clear_flags);
  (122, (set_cwd invalid_operand_bit));
  (123, (throws (@is_common_interval_dec binary64 (((fl binary64 (27) (0)), (fl binary64 (-27) (0))), com)) Invalid_operand_exception));
  (124, (bind get_flags (fun v1 => ret (N.eqb v1 invalid_operand_bit))));
  (125, clear_flags);
  (126, (set_cwd none_bit))].

(** lines 129-161 *)
Definition minimal_is_singleton_test : list (N * M bool) := [
  (131, clear_flags);
  (133, (@is_singleton binary64 ((fl binary64 (-27) (0)), (fl binary64 (-27) (0)))));
  (134, (@is_singleton binary64 ((fl binary64 (-1) (1)), (fl binary64 (-1) (1)))));
  (135, (@is_singleton binary64 ((fl binary64 (3) (2)), (fl binary64 (3) (2)))));
  (136, (@is_singleton binary64 ((fl binary64 (2406611050876109) (-47)), (fl binary64 (2406611050876109) (-47)))));
  (137, (@is_singleton binary64 ((@fm0 binary64), (@fm0 binary64))));
  (138, (@is_singleton binary64 ((@f0 binary64), (@f0 binary64))));
  (139, (@is_singleton binary64 ((@fm0 binary64), (@f0 binary64))));
  (140, (@is_singleton binary64 ((@f0 binary64), (@fm0 binary64))));
  (142, (mnot (@is_singleton binary64 ((@fnan binary64), (@fnan binary64)))));
  (143, (mnot (@is_singleton binary64 ((@fminf binary64), (@finf binary64)))));
  (144, (mnot (@is_singleton binary64 ((fl binary64 (-1) (0)), (@f0 binary64)))));
  (145, (mnot (@is_singleton binary64 ((fl binary64 (-1) (0)), (fl binary64 (-1) (-1))))));
  (146, (mnot (@is_singleton binary64 ((fl binary64 (1) (0)), (fl binary64 (1) (1))))));
  (147, (mnot (@is_singleton binary64 ((@fminf binary64), (fl binary64 (-9007199254740991) (971))))));
  (148, (mnot (@is_singleton binary64 ((fl binary64 (-1) (0)), (@finf binary64)))));
  (150, (bind get_flags (fun v1 => ret (N.eqb v1 none_bit))));
  (152, clear_flags);
  (153, (mnot (@is_singleton binary64 ((fl binary64 (1) (0)), (@f0 binary64)))));
  (154, (bind get_flags (fun v1 => ret (N.eqb v1 invalid_operand_bit))));
  (155, clear_flags);
  (156, (set_cwd invalid_operand_bit));
  (157, (throws (@is_singleton binary64 ((fl binary64 (1) (0)), (@f0 binary64))) Invalid_operand_exception));
  (158, (bind get_flags (fun v1 => ret (N.eqb v1 invalid_operand_bit))));
  (159, clear_flags);
  (160, (set_cwd none_bit))].

(** lines 163-196 *)
Definition minimal_is_singleton_dec_test : list (N * M bool) := [
  (165, clear_flags);
  (167, (@is_singleton_dec binary64 (((fl binary64 (-27) (0)), (fl binary64 (-27) (0))), def)));
  (168, (@is_singleton_dec binary64 (((fl binary64 (-1) (1)), (fl binary64 (-1) (1))), trv)));
  (169, (@is_singleton_dec binary64 (((fl binary64 (3) (2)), (fl binary64 (3) (2))), dac)));
  (170, (@is_singleton_dec binary64 (((fl binary64 (2406611050876109) (-47)), (fl binary64 (2406611050876109) (-47))), com)));
  (171, (@is_singleton_dec binary64 (((@fm0 binary64), (@fm0 binary64)), def)));
  (172, (@is_singleton_dec binary64 (((@f0 binary64), (@f0 binary64)), com)));
  (173, (@is_singleton_dec binary64 (((@fm0 binary64), (@f0 binary64)), def)));
  (174, (@is_singleton_dec binary64 (((@f0 binary64), (@fm0 binary64)), dac)));
  (176, (mnot (@is_singleton_dec binary64 (((@fnan binary64), (@fnan binary64)), trv))));
  (177, (mnot (@is_singleton_dec binary64 (((@fnan binary64), (@fnan binary64)), ill))));
  (178, (mnot (@is_singleton_dec binary64 (((@fminf binary64), (@finf binary64)), def))));
  (179, (mnot (@is_singleton_dec binary64 (((fl binary64 (-1) (0)), (@f0 binary64)), dac))));
  (180, (mnot (@is_singleton_dec binary64 (((fl binary64 (-1) (0)), (fl binary64 (-1) (-1))), com))));
  (181, (mnot (@is_singleton_dec binary64 (((fl binary64 (1) (0)), (fl binary64 (1) (1))), def))));
  (182, (mnot (@is_singleton_dec binary64 (((@fminf binary64), (fl binary64 (-9007199254740991) (971))), dac))));
  (183, (mnot (@is_singleton_dec binary64 (((fl binary64 (-1) (0)), (@finf binary64)), trv))));
  (185, (bind get_flags (fun v1 => ret (N.eqb v1 none_bit))));
  (187, clear_flags);
  (188, (mnot (@is_singleton_dec binary64 (((fl binary64 (1) (0)), (fl binary64 (-1) (-1))), com))));
  (189, (bind get_flags (fun v1 => ret (N.eqb v1 invalid_operand_bit))));
  (190, clear_flags);
  (191, (set_cwd invalid_operand_bit));
  (192, (throws (@is_singleton_dec binary64 (((fl binary64 (-1) (0)), (fl binary64 (-1) (-1))), ill)) Invalid_operand_exception));
  (193, (bind get_flags (fun v1 => ret (N.eqb v1 invalid_operand_bit))));
  (194, clear_flags);
  (195, (set_cwd none_bit))].

(** lines 198-250 *)
Definition minimal_is_member_test : list (N * M bool) := [
  (200, clear_flags);
  (202, (@is_member binary64 (fl binary64 (-27) (0)) ((fl binary64 (-27) (0)), (fl binary64 (-27) (0)))));
  (203, (@is_member binary64 (fl binary64 (-27) (0)) ((fl binary64 (-27) (0)), (@f0 binary64))));
  (204, (@is_member binary64 (fl binary64 (-7) (0)) ((fl binary64 (-27) (0)), (@f0 binary64))));
  (205, (@is_member binary64 (@f0 binary64) ((fl binary64 (-27) (0)), (@f0 binary64))));
  (206, (@is_member binary64 (@fm0 binary64) ((@f0 binary64), (@f0 binary64))));
  (207, (@is_member binary64 (@f0 binary64) ((@f0 binary64), (@f0 binary64))));
  (208, (@is_member binary64 (@f0 binary64) ((@fm0 binary64), (@fm0 binary64))));
  (209, (@is_member binary64 (@f0 binary64) ((@fm0 binary64), (@f0 binary64))));
  (210, (@is_member binary64 (@f0 binary64) ((@f0 binary64), (@fm0 binary64))));
  (211, (@is_member binary64 (fl binary64 (5) (0)) ((fl binary64 (5) (0)), (fl binary64 (6980579422424269) (-49)))));
  (212, (@is_member binary64 (fl binary64 (7093169413108531) (-50)) ((fl binary64 (5) (0)), (fl binary64 (6980579422424269) (-49)))));
  (213, (@is_member binary64 (fl binary64 (6980579422424269) (-49)) ((fl binary64 (5) (0)), (fl binary64 (6980579422424269) (-49)))));
  (214, (@is_member binary64 (@f0 binary64) ((@fminf binary64), (@finf binary64))));
  (215, (@is_member binary64 (fl binary64 (5) (0)) ((@fminf binary64), (@finf binary64))));
  (216, (@is_member binary64 (fl binary64 (7093169413108531) (-50)) ((@fminf binary64), (@finf binary64))));
  (217, (@is_member binary64 (fl binary64 (6980579422424269) (-49)) ((@fminf binary64), (@finf binary64))));
  (218, (@is_member binary64 (fl binary64 (9007199254740991) (971)) ((@fminf binary64), (@finf binary64))));
  (219, (@is_member binary64 (fl binary64 (-9007199254740991) (971)) ((@fminf binary64), (@finf binary64))));
  (220, (@is_member binary64 (fl binary64 (1) (-1022)) ((@fminf binary64), (@finf binary64))));
  (221, (@is_member binary64 (fl binary64 (-1) (-1022)) ((@fminf binary64), (@finf binary64))));
  (223, (mnot (@is_member binary64 (fl binary64 (-71) (0)) ((fl binary64 (-27) (0)), (@f0 binary64)))));
  (224, (mnot (@is_member binary64 (fl binary64 (3602879701896397) (-55)) ((fl binary64 (-27) (0)), (@f0 binary64)))));
  (225, (mnot (@is_member binary64 (fl binary64 (-5764607523034235) (-59)) ((@f0 binary64), (@f0 binary64)))));
  (226, (mnot (@is_member binary64 (fl binary64 (4722366482869645) (-72)) ((@f0 binary64), (@f0 binary64)))));
  (227, (mnot (@is_member binary64 (fl binary64 (55555) (1)) ((@fm0 binary64), (@fm0 binary64)))));
  (228, (mnot (@is_member binary64 (fl binary64 (2758454771764429) (-49)) ((fl binary64 (5) (0)), (fl binary64 (6980579422424269) (-49))))));
  (229, (mnot (@is_member binary64 (fl binary64 (-7093169413108531) (-50)) ((fl binary64 (5) (0)), (fl binary64 (6980579422424269) (-49))))));
  (230, (mnot (@is_member binary64 (@f0 binary64) ((@fnan binary64), (@fnan binary64)))));
  (231, (mnot (@is_member binary64 (fl binary64 (-4986615085452493) (-40)) ((@fnan binary64), (@fnan binary64)))));
  (232, (mnot (@is_member binary64 (@fminf binary64) ((@fnan binary64), (@fnan binary64)))));
  (233, (mnot (@is_member binary64 (@finf binary64) ((@fnan binary64), (@fnan binary64)))));
  (234, (mnot (@is_member binary64 (@fnan binary64) ((@fnan binary64), (@fnan binary64)))));
  (235, (mnot (@is_member binary64 (@fminf binary64) ((@fminf binary64), (@finf binary64)))));
  (236, (mnot (@is_member binary64 (@finf binary64) ((@fminf binary64), (@finf binary64)))));
  (237, (mnot (@is_member binary64 (@fnan binary64) ((@fminf binary64), (@finf binary64)))));
  (239, (bind get_flags (fun v1 => ret (N.eqb v1 none_bit))));
  (241, clear_flags);
  (242, (mnot (@is_member binary64 (fl binary64 (2758454771764429) (-49)) ((fl binary64 (5) (0)), (fl binary64 (-6980579422424269) (-49))))));
  (243, (bind get_flags (fun v1 => ret (N.eqb v1 invalid_operand_bit))));
  (244, clear_flags);
  (245, (set_cwd invalid_operand_bit));
  (246, (throws (@is_member binary64 (fl binary64 (2758454771764429) (-49)) ((@fnan binary64), (fl binary64 (6980579422424269) (-49)))) Invalid_operand_exception));
  (247, (bind get_flags (fun v1 => ret (N.eqb v1 invalid_operand_bit))));
  (248, clear_flags);
  (249, (set_cwd none_bit))].

(** lines 252-309 *)
Definition minimal_is_member_dec_test : list (N * M bool) := [
  (254, clear_flags);
  (256, (@is_member_dec binary64 binary64 (fl binary64 (-27) (0)) (((fl binary64 (-27) (0)), (fl binary64 (-27) (0))), trv)));
  (257, (@is_member_dec binary64 binary64 (fl binary64 (-27) (0)) (((fl binary64 (-27) (0)), (@f0 binary64)), def)));
  (258, (@is_member_dec binary64 binary64 (fl binary64 (-7) (0)) (((fl binary64 (-27) (0)), (@f0 binary64)), dac)));
  (259, (@is_member_dec binary64 binary64 (@f0 binary64) (((fl binary64 (-27) (0)), (@f0 binary64)), com)));
  (260, (@is_member_dec binary64 binary64 (@fm0 binary64) (((@f0 binary64), (@f0 binary64)), trv)));
  (261, (@is_member_dec binary64 binary64 (@f0 binary64) (((@f0 binary64), (@f0 binary64)), def)));
  (262, (@is_member_dec binary64 binary64 (@f0 binary64) (((@fm0 binary64), (@fm0 binary64)), dac)));
  (263, (@is_member_dec binary64 binary64 (@f0 binary64) (((@fm0 binary64), (@f0 binary64)), com)));
  (264, (@is_member_dec binary64 binary64 (@f0 binary64) (((@f0 binary64), (@fm0 binary64)), trv)));
  (265, (@is_member_dec binary64 binary64 (fl binary64 (5) (0)) (((fl binary64 (5) (0)), (fl binary64 (6980579422424269) (-49))), def)));
  (266, (@is_member_dec binary64 binary64 (fl binary64 (7093169413108531) (-50)) (((fl binary64 (5) (0)), (fl binary64 (6980579422424269) (-49))), dac)));
  (267, (@is_member_dec binary64 binary64 (fl binary64 (6980579422424269) (-49)) (((fl binary64 (5) (0)), (fl binary64 (6980579422424269) (-49))), com)));
  (268, (@is_member_dec binary64 binary64 (@f0 binary64) (((@fminf binary64), (@finf binary64)), trv)));
  (269, (@is_member_dec binary64 binary64 (fl binary64 (5) (0)) (((@fminf binary64), (@finf binary64)), def)));
  (270, (@is_member_dec binary64 binary64 (fl binary64 (7093169413108531) (-50)) (((@fminf binary64), (@finf binary64)), dac)));
  (271, (@is_member_dec binary64 binary64 (fl binary64 (6980579422424269) (-49)) (((@fminf binary64), (@finf binary64)), trv)));
  (272, (@is_member_dec binary64 binary64 (fl binary64 (9007199254740991) (971)) (((@fminf binary64), (@finf binary64)), def)));
  (273, (@is_member_dec binary64 binary64 (fl binary64 (-9007199254740991) (971)) (((@fminf binary64), (@finf binary64)), dac)));
  (274, (@is_member_dec binary64 binary64 (fl binary64 (1) (-1022)) (((@fminf binary64), (@finf binary64)), trv)));
  (275, (@is_member_dec binary64 binary64 (fl binary64 (-1) (-1022)) (((@fminf binary64), (@finf binary64)), def)));
  (277, (mnot (@is_member_dec binary64 binary64 (fl binary64 (-71) (0)) (((fl binary64 (-27) (0)), (@f0 binary64)), trv))));
  (278, (mnot (@is_member_dec binary64 binary64 (fl binary64 (3602879701896397) (-55)) (((fl binary64 (-27) (0)), (@f0 binary64)), def))));
  (279, (mnot (@is_member_dec binary64 binary64 (fl binary64 (-5764607523034235) (-59)) (((@f0 binary64), (@f0 binary64)), dac))));
  (280, (mnot (@is_member_dec binary64 binary64 (fl binary64 (4722366482869645) (-72)) (((@f0 binary64), (@f0 binary64)), com))));
  (281, (mnot (@is_member_dec binary64 binary64 (fl binary64 (55555) (1)) (((@fm0 binary64), (@fm0 binary64)), trv))));
  (282, (mnot (@is_member_dec binary64 binary64 (fl binary64 (2758454771764429) (-49)) (((fl binary64 (5) (0)), (fl binary64 (6980579422424269) (-49))), def))));
  (283, (mnot (@is_member_dec binary64 binary64 (fl binary64 (-7093169413108531) (-50)) (((fl binary64 (5) (0)), (fl binary64 (6980579422424269) (-49))), dac))));
  (284, (mnot (@is_member_dec binary64 binary64 (@f0 binary64) (((@fnan binary64), (@fnan binary64)), ill))));
  (285, (mnot (@is_member_dec binary64 binary64 (@f0 binary64) (((@fnan binary64), (@fnan binary64)), trv))));
  (286, (mnot (@is_member_dec binary64 binary64 (fl binary64 (-4986615085452493) (-40)) (((@fnan binary64), (@fnan binary64)), trv))));
  (287, (mnot (@is_member_dec binary64 binary64 (fl binary64 (-4986615085452493) (-40)) (((@fnan binary64), (@fnan binary64)), ill))));
  (288, (mnot (@is_member_dec binary64 binary64 (@fminf binary64) (((@fnan binary64), (@fnan binary64)), trv))));
  (289, (mnot (@is_member_dec binary64 binary64 (@fminf binary64) (((@fnan binary64), (@fnan binary64)), ill))));
  (290, (mnot (@is_member_dec binary64 binary64 (@finf binary64) (((@fnan binary64), (@fnan binary64)), trv))));
  (291, (mnot (@is_member_dec binary64 binary64 (@finf binary64) (((@fnan binary64), (@fnan binary64)), ill))));
  (292, (mnot (@is_member_dec binary64 binary64 (@fnan binary64) (((@fnan binary64), (@fnan binary64)), trv))));
  (293, (mnot (@is_member_dec binary64 binary64 (@fnan binary64) (((@fnan binary64), (@fnan binary64)), ill))));
  (294, (mnot (@is_member_dec binary64 binary64 (@fminf binary64) (((@fminf binary64), (@finf binary64)), trv))));
  (295, (mnot (@is_member_dec binary64 binary64 (@finf binary64) (((@fminf binary64), (@finf binary64)), def))));
  (296, (mnot (@is_member_dec binary64 binary64 (@fnan binary64) (((@fminf binary64), (@finf binary64)), dac))));
  (298, (bind get_flags (fun v1 => ret (N.eqb v1 none_bit))));
  (300, clear_flags);
  (301, (mnot (@is_member_dec binary64 binary64 (fl binary64 (-5764607523034235) (-59)) (((fl binary64 (5) (1)), (@f0 binary64)), dac))));
  (302, (bind get_flags (fun v1 => ret (N.eqb v1 invalid_operand_bit))));
  (303, clear_flags);
  (304, (set_cwd invalid_operand_bit));
  (305, (throws (@is_member_dec binary64 binary64 (fl binary64 (-5764607523034235) (-59)) (((@f0 binary64), (@finf binary64)), com)) Invalid_operand_exception));
  (306, (bind get_flags (fun v1 => ret (N.eqb v1 invalid_operand_bit))));
  (307, clear_flags);
  (308, (set_cwd none_bit))].

(** lines 311-363 *)
Definition minimal_mixedtype_is_member_test : list (N * M bool) := [
  (313, clear_flags);
  (315, (@is_member_mixed binary64 binary32 (fl binary32 (-27) (0)) ((fl binary64 (-27) (0)), (fl binary64 (-27) (0)))));
  (316, (@is_member binary64 (fl binary64 (-27) (0)) ((fl binary64 (-27) (0)), (@f0 binary64))));
  (317, (@is_member_mixed binary64 binary32 (fl binary32 (-7) (0)) ((fl binary64 (-27) (0)), (@f0 binary64))));
  (318, (@is_member_mixed binary64 binary32 (@f0 binary32) ((fl binary64 (-27) (0)), (@f0 binary64))));
  (319, (@is_member_mixed binary64 binary32 (@fm0 binary32) ((@f0 binary64), (@f0 binary64))));
  (320, (@is_member_mixed binary64 binary32 (@f0 binary32) ((@f0 binary64), (@f0 binary64))));
  (321, (@is_member_mixed binary64 binary32 (@f0 binary32) ((@fm0 binary64), (@fm0 binary64))));
  (322, (@is_member_mixed binary64 binary32 (@f0 binary32) ((@fm0 binary64), (@f0 binary64))));
  (323, (@is_member_mixed binary64 binary32 (@f0 binary32) ((@f0 binary64), (@fm0 binary64))));
  (324, (@is_member_mixed binary32 binary64 (fl binary64 (5) (0)) ((fl binary32 (5) (0)), (fl binary32 (6501171) (-19)))));
  (325, (@is_member_mixed binary32 binary64 (fl binary64 (7093169413108531) (-50)) ((fl binary32 (5) (0)), (fl binary32 (6501171) (-19)))));
  (326, (@is_member_mixed binary32 binary64 (@f0 binary64) ((@fminf binary32), (@finf binary32))));
  (327, (@is_member_mixed binary32 binary64 (fl binary64 (5) (0)) ((@fminf binary32), (@finf binary32))));
  (328, (@is_member binary64 (fl binary64 (7093169413108531) (-50)) ((@fminf binary64), (@finf binary64))));
  (329, (@is_member binary64 (fl binary64 (6980579422424269) (-49)) ((@fminf binary64), (@finf binary64))));
  (330, (@is_member binary64 (fl binary64 (9007199254740991) (971)) ((@fminf binary64), (@finf binary64))));
  (331, (@is_member_mixed binary32 binary64 (fl binary64 (-9007199254740991) (971)) ((@fminf binary32), (@finf binary32))));
  (332, (@is_member binary64 (fl binary64 (1) (-1022)) ((@fminf binary64), (@finf binary64))));
  (333, (@is_member_mixed binary32 binary64 (fl binary64 (-1) (-1022)) ((@fminf binary32), (@finf binary32))));
  (335, (mnot (@is_member_mixed binary32 binary64 (fl binary64 (6980579422424269) (-49)) ((fl binary32 (5) (0)), (fl binary32 (6501171) (-19))))));
  (336, (mnot (@is_member_mixed binary64 binary32 (fl binary32 (-71) (0)) ((fl binary64 (-27) (0)), (@f0 binary64)))));
  (337, (mnot (@is_member_mixed binary64 binary32 (fl binary32 (13421773) (-27)) ((fl binary64 (-27) (0)), (@f0 binary64)))));
  (338, (mnot (@is_member_mixed binary64 binary32 (fl binary32 (-5368709) (-29)) ((@f0 binary64), (@f0 binary64)))));
  (339, (mnot (@is_member_mixed binary64 binary32 (fl binary32 (8796093) (-43)) ((@f0 binary64), (@f0 binary64)))));
  (340, (mnot (@is_member_mixed binary32 binary64 (fl binary64 (55555) (1)) ((@fm0 binary32), (@fm0 binary32)))));
  (341, (mnot (@is_member_mixed binary64 binary32 (fl binary32 (10276045) (-21)) ((fl binary64 (5) (0)), (fl binary64 (6980579422424269) (-49))))));
  (342, (mnot (@is_member_mixed binary64 binary32 (fl binary32 (-6606029) (-20)) ((fl binary64 (5) (0)), (fl binary64 (6980579422424269) (-49))))));
  (343, (mnot (@is_member_mixed binary64 binary32 (@f0 binary32) ((@fnan binary64), (@fnan binary64)))));
  (344, (mnot (@is_member_mixed binary64 binary32 (fl binary32 (-4644147) (-10)) ((@fnan binary64), (@fnan binary64)))));
  (345, (mnot (@is_member_mixed binary32 binary64 (@fminf binary64) ((@fnan binary32), (@fnan binary32)))));
  (346, (mnot (@is_member_mixed binary32 binary64 (@finf binary64) ((@fnan binary32), (@fnan binary32)))));
  (347, (mnot (@is_member binary64 (@fnan binary64) ((@fnan binary64), (@fnan binary64)))));
  (348, (mnot (@is_member binary64 (@fminf binary64) ((@fminf binary64), (@finf binary64)))));
  (349, (mnot (@is_member_mixed binary32 binary64 (@finf binary64) ((@fminf binary32), (@finf binary32)))));
  (350, (mnot (@is_member_mixed binary32 binary64 (@fnan binary64) ((@fminf binary32), (@finf binary32)))));
  (352, (bind get_flags (fun v1 => ret (N.eqb v1 none_bit))));
  (354, clear_flags);
  (355, (mnot (@is_member_mixed binary64 binary32 (fl binary32 (-71) (0)) ((fl binary64 (27) (0)), (@f0 binary64)))));
  (356, (bind get_flags (fun v1 => ret (N.eqb v1 invalid_operand_bit))));
  (357, clear_flags);
  (358, (set_cwd invalid_operand_bit));
  (359, (throws (@is_member_mixed binary64 binary32 (fl binary32 (-71) (0)) ((fl binary64 (27) (0)), (fl binary64 (-5) (2)))) Invalid_operand_exception));
  (360, (bind get_flags (fun v1 => ret (N.eqb v1 invalid_operand_bit))));
  (361, clear_flags);
  (362, (set_cwd none_bit))].

(** lines 365-422 *)
Definition minimal_mixedtype_is_member_dec_test : list (N * M bool) := [
  (367, clear_flags);
  (369, (@is_member_dec binary64 binary32 (fl binary32 (-27) (0)) (((fl binary64 (-27) (0)), (fl binary64 (-27) (0))), trv)));
  (370, (@is_member_dec binary64 binary64 (fl binary64 (-27) (0)) (((fl binary64 (-27) (0)), (@f0 binary64)), def)));
  (371, (@is_member_dec binary64 binary32 (fl binary32 (-7) (0)) (((fl binary64 (-27) (0)), (@f0 binary64)), dac)));
  (372, (@is_member_dec binary64 binary32 (@f0 binary32) (((fl binary64 (-27) (0)), (@f0 binary64)), com)));
  (373, (@is_member_dec binary64 binary32 (@fm0 binary32) (((@f0 binary64), (@f0 binary64)), trv)));
  (374, (@is_member_dec binary64 binary32 (@f0 binary32) (((@f0 binary64), (@f0 binary64)), def)));
  (375, (@is_member_dec binary64 binary32 (@f0 binary32) (((@fm0 binary64), (@fm0 binary64)), dac)));
  (376, (@is_member_dec binary64 binary32 (@f0 binary32) (((@fm0 binary64), (@f0 binary64)), com)));
  (377, (@is_member_dec binary64 binary32 (@f0 binary32) (((@f0 binary64), (@fm0 binary64)), trv)));
  (378, (@is_member_dec binary32 binary64 (fl binary64 (5) (0)) (((fl binary32 (5) (0)), (fl binary32 (6501171) (-19))), def)));
  (379, (@is_member_dec binary32 binary64 (fl binary64 (7093169413108531) (-50)) (((fl binary32 (5) (0)), (fl binary32 (6501171) (-19))), dac)));
  (380, (@is_member_dec binary32 binary64 (@f0 binary64) (((@fminf binary32), (@finf binary32)), trv)));
  (381, (@is_member_dec binary32 binary64 (fl binary64 (5) (0)) (((@fminf binary32), (@finf binary32)), def)));
  (382, (@is_member_dec binary64 binary64 (fl binary64 (7093169413108531) (-50)) (((@fminf binary64), (@finf binary64)), dac)));
  (383, (@is_member_dec binary64 binary64 (fl binary64 (6980579422424269) (-49)) (((@fminf binary64), (@finf binary64)), trv)));
  (384, (@is_member_dec binary64 binary64 (fl binary64 (9007199254740991) (971)) (((@fminf binary64), (@finf binary64)), def)));
  (385, (@is_member_dec binary32 binary64 (fl binary64 (-9007199254740991) (971)) (((@fminf binary32), (@finf binary32)), dac)));
  (386, (@is_member_dec binary64 binary64 (fl binary64 (1) (-1022)) (((@fminf binary64), (@finf binary64)), trv)));
  (387, (@is_member_dec binary32 binary64 (fl binary64 (-1) (-1022)) (((@fminf binary32), (@finf binary32)), def)));
  (389, (mnot (@is_member_dec binary32 binary64 (fl binary64 (6980579422424269) (-49)) (((fl binary32 (5) (0)), (fl binary32 (6501171) (-19))), trv))));
  (390, (mnot (@is_member_dec binary64 binary32 (fl binary32 (-71) (0)) (((fl binary64 (-27) (0)), (@f0 binary64)), def))));
  (391, (mnot (@is_member_dec binary64 binary32 (fl binary32 (13421773) (-27)) (((fl binary64 (-27) (0)), (@f0 binary64)), dac))));
  (392, (mnot (@is_member_dec binary64 binary32 (fl binary32 (-5368709) (-29)) (((@f0 binary64), (@f0 binary64)), com))));
  (393, (mnot (@is_member_dec binary64 binary32 (fl binary32 (8796093) (-43)) (((@f0 binary64), (@f0 binary64)), trv))));
  (394, (mnot (@is_member_dec binary32 binary64 (fl binary64 (55555) (1)) (((@fm0 binary32), (@fm0 binary32)), def))));
  (395, (mnot (@is_member_dec binary64 binary32 (fl binary32 (10276045) (-21)) (((fl binary64 (5) (0)), (fl binary64 (6980579422424269) (-49))), dac))));
  (396, (mnot (@is_member_dec binary64 binary32 (fl binary32 (-6606029) (-20)) (((fl binary64 (5) (0)), (fl binary64 (6980579422424269) (-49))), com))));
  (397, (mnot (@is_member_dec binary64 binary32 (@f0 binary32) (((@fnan binary64), (@fnan binary64)), trv))));
  (398, (mnot (@is_member_dec binary64 binary32 (@f0 binary32) (((@fnan binary64), (@fnan binary64)), ill))));
  (399, (mnot (@is_member_dec binary64 binary32 (fl binary32 (-4644147) (-10)) (((@fnan binary64), (@fnan binary64)), trv))));
  (400, (mnot (@is_member_dec binary64 binary32 (fl binary32 (-4644147) (-10)) (((@fnan binary64), (@fnan binary64)), ill))));
  (401, (mnot (@is_member_dec binary32 binary64 (@fminf binary64) (((@fnan binary32), (@fnan binary32)), trv))));
  (402, (mnot (@is_member_dec binary32 binary64 (@fminf binary64) (((@fnan binary32), (@fnan binary32)), ill))));
  (403, (mnot (@is_member_dec binary32 binary64 (@finf binary64) (((@fnan binary32), (@fnan binary32)), trv))));
  (404, (mnot (@is_member_dec binary32 binary64 (@finf binary64) (((@fnan binary32), (@fnan binary32)), ill))));
  (405, (mnot (@is_member_dec binary64 binary64 (@fnan binary64) (((@fnan binary64), (@fnan binary64)), trv))));
  (406, (mnot (@is_member_dec binary64 binary64 (@fnan binary64) (((@fnan binary64), (@fnan binary64)), ill))));
  (407, (mnot (@is_member_dec binary64 binary64 (@fminf binary64) (((@fminf binary64), (@finf binary64)), trv))));
  (408, (mnot (@is_member_dec binary32 binary64 (@finf binary64) (((@fminf binary32), (@finf binary32)), def))));
  (409, (mnot (@is_member_dec binary32 binary64 (@fnan binary64) (((@fminf binary32), (@finf binary32)), dac))));
  (411, (bind get_flags (fun v1 => ret (N.eqb v1 none_bit))));
  (413, clear_flags);
  (414, (mnot (@is_member_dec binary64 binary32 (fl binary32 (13421773) (-27)) (((fl binary64 (-27) (0)), (@f0 binary64)), ill))));
  (415, (bind get_flags (fun v1 => ret (N.eqb v1 invalid_operand_bit))));
  (416, clear_flags);
  (417, (set_cwd invalid_operand_bit));
  (418, (throws (@is_member_dec binary64 binary32 (fl binary32 (13421773) (-27)) (((fl binary64 (27) (0)), (@f0 binary64)), trv)) Invalid_operand_exception));
  (419, (bind get_flags (fun v1 => ret (N.eqb v1 invalid_operand_bit))));
  (420, clear_flags);
  (421, (set_cwd none_bit))].

Example rec_bool_func_agree : test_file [
  minimal_is_common_interval_test; minimal_is_common_interval_dec_test; minimal_is_singleton_test; minimal_is_singleton_dec_test; minimal_is_member_test; minimal_is_member_dec_test; minimal_mixedtype_is_member_test; minimal_mixedtype_is_member_dec_test] = [].
Proof. vm_compute. reflexivity. Qed.
