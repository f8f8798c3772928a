(** * The checks of the unit tests in /repo/test/p1788/flavor/infsup/setbased/
    test_mpfr_bin_ieee754_flavor_validation_func.cpp, run on the model

    One definition per test case of that file, the number before a check is its
    line there.  These are tests of the model, not proofs about it. *)

From Coq Require Import ZArith NArith Bool List.
From Flocq Require Import IEEE754.BinarySingleNaN.
From Verif Require Import Fmt Spec Exc Deco MBase MBool MArith MElem MDec MNum MCancel MOverlap MClass MRev MRev1 MMixed Ex TestRun.
Import ListNotations.
Local Open Scope N_scope.

(** lines 57-159 *)
Definition minimal_is_valid_test : list (N * M bool) := [
  (59, clear_flags);
  (61, (mnot (get_flag invalid_operand_bit)));
  (62, (@is_valid binary64 ((@fnan binary64), (@fnan binary64))));
  (63, (@is_valid binary64 ((@fminf binary64), (fl binary64 (-9007199254740991) (971)))));
  (64, (@is_valid binary64 ((@fminf binary64), (fl binary64 (-1) (0)))));
  (65, (@is_valid binary64 ((@fminf binary64), (@f0 binary64))));
  (66, (@is_valid binary64 ((@fminf binary64), (fl binary64 (1) (0)))));
  (67, (@is_valid binary64 ((@fminf binary64), (fl binary64 (9007199254740991) (971)))));
  (68, (@is_valid binary64 ((@fminf binary64), (@finf binary64))));
  (69, (@is_valid binary64 ((fl binary64 (-9007199254740991) (971)), (fl binary64 (-1) (0)))));
  (70, (@is_valid binary64 ((fl binary64 (-9007199254740991) (971)), (@f0 binary64))));
  (71, (@is_valid binary64 ((fl binary64 (-9007199254740991) (971)), (fl binary64 (1) (0)))));
  (72, (@is_valid binary64 ((fl binary64 (-9007199254740991) (971)), (fl binary64 (9007199254740991) (971)))));
  (73, (@is_valid binary64 ((fl binary64 (-9007199254740991) (971)), (@finf binary64))));
  (74, (@is_valid binary64 ((fl binary64 (-1) (0)), (fl binary64 (-1) (0)))));
  (75, (@is_valid binary64 ((fl binary64 (-1) (0)), (@f0 binary64))));
  (76, (@is_valid binary64 ((fl binary64 (-1) (0)), (fl binary64 (1) (0)))));
  (77, (@is_valid binary64 ((fl binary64 (-1) (0)), (fl binary64 (9007199254740991) (971)))));
  (78, (@is_valid binary64 ((fl binary64 (-1) (0)), (@finf binary64))));
  (79, (@is_valid binary64 ((@f0 binary64), (@f0 binary64))));
  (80, (@is_valid binary64 ((@fm0 binary64), (@fm0 binary64))));
  (81, (@is_valid binary64 ((@f0 binary64), (@fm0 binary64))));
  (82, (@is_valid binary64 ((@fm0 binary64), (@f0 binary64))));
  (83, (@is_valid binary64 ((@f0 binary64), (fl binary64 (1) (0)))));
  (84, (@is_valid binary64 ((@f0 binary64), (fl binary64 (9007199254740991) (971)))));
  (85, (@is_valid binary64 ((@f0 binary64), (@finf binary64))));
  (86, (@is_valid binary64 ((fl binary64 (1) (0)), (fl binary64 (1) (0)))));
  (87, (@is_valid binary64 ((fl binary64 (1) (0)), (fl binary64 (9007199254740991) (971)))));
  (88, (@is_valid binary64 ((fl binary64 (1) (0)), (@finf binary64))));
  (89, (@is_valid binary64 ((fl binary64 (9007199254740991) (971)), (fl binary64 (9007199254740991) (971)))));
  (90, (@is_valid binary64 ((fl binary64 (9007199254740991) (971)), (@finf binary64))));
  (91, (mnot (get_flag invalid_operand_bit)));
  (94, (mnot (@is_valid binary64 ((@fminf binary64), (@fminf binary64)))));
  (95, (get_flag invalid_operand_bit));
  (96, clear_flags);
  (97, (mnot (get_flag invalid_operand_bit)));
  (98, (mnot (@is_valid binary64 ((fl binary64 (-1) (0)), (fl binary64 (-3) (0))))));
  (99, (get_flag invalid_operand_bit));
  (100, clear_flags);
  (101, (mnot (get_flag invalid_operand_bit)));
  (102, (mnot (@is_valid binary64 ((@f0 binary64), (fl binary64 (-3) (0))))));
  (103, (get_flag invalid_operand_bit));
  (104, clear_flags);
  (105, (mnot (get_flag invalid_operand_bit)));
  (106, (mnot (@is_valid binary64 ((fl binary64 (1) (0)), (fl binary64 (-3) (0))))));
  (107, (get_flag invalid_operand_bit));
  (108, clear_flags);
  (109, (mnot (get_flag invalid_operand_bit)));
  (110, (mnot (@is_valid binary64 ((@finf binary64), (@finf binary64)))));
  (111, (get_flag invalid_operand_bit));
  (112, clear_flags);
  (113, (mnot (get_flag invalid_operand_bit)));
  (114, (mnot (@is_valid binary64 ((@fnan binary64), (@fminf binary64)))));
  (115, (get_flag invalid_operand_bit));
  (116, clear_flags);
  (117, (mnot (get_flag invalid_operand_bit)));
  (118, (mnot (@is_valid binary64 ((@fnan binary64), (fl binary64 (-3) (0))))));
  (119, (get_flag invalid_operand_bit));
  (120, clear_flags);
  (121, (mnot (get_flag invalid_operand_bit)));
  (122, (mnot (@is_valid binary64 ((@fnan binary64), (fl binary64 (-3) (0))))));
  (123, (get_flag invalid_operand_bit));
  (124, clear_flags);
  (125, (mnot (get_flag invalid_operand_bit)));
  (126, (mnot (@is_valid binary64 ((@fnan binary64), (fl binary64 (-3) (0))))));
  (127, (get_flag invalid_operand_bit));
  (128, clear_flags);
  (129, (mnot (get_flag invalid_operand_bit)));
  (130, (mnot (@is_valid binary64 ((@fnan binary64), (@finf binary64)))));
  (131, (get_flag invalid_operand_bit));
  (132, clear_flags);
  (133, (mnot (get_flag invalid_operand_bit)));
  (134, (mnot (@is_valid binary64 ((@fminf binary64), (@fnan binary64)))));
  (135, (get_flag invalid_operand_bit));
  (136, clear_flags);
  (137, (mnot (get_flag invalid_operand_bit)));
  (138, (mnot (@is_valid binary64 ((fl binary64 (-1) (0)), (@fnan binary64)))));
  (139, (get_flag invalid_operand_bit));
  (140, clear_flags);
  (141, (mnot (get_flag invalid_operand_bit)));
  (142, (mnot (@is_valid binary64 ((@f0 binary64), (@fnan binary64)))));
  (143, (get_flag invalid_operand_bit));
  (144, clear_flags);
  (145, (mnot (get_flag invalid_operand_bit)));
  (146, (mnot (@is_valid binary64 ((fl binary64 (1) (0)), (@fnan binary64)))));
  (147, (get_flag invalid_operand_bit));
  (148, clear_flags);
  (149, (mnot (get_flag invalid_operand_bit)));
  (150, (mnot (@is_valid binary64 ((@finf binary64), (@fnan binary64)))));
  (151, (get_flag invalid_operand_bit));
  (152, clear_flags);
  (154, (set_cwd invalid_operand_bit));
  (155, (throws (@is_valid binary64 ((@fminf binary64), (@fminf binary64))) Invalid_operand_exception));
  (156, (get_flag invalid_operand_bit));
  (157, clear_flags);
  (158, (set_cwd none_bit))].

(** lines 162-463 *)
Definition minimal_is_valid_dec_test : list (N * M bool) := [
  (164, clear_flags);
  (166, (mnot (get_flag invalid_operand_bit)));
  (167, (@is_valid_dec binary64 (((@fnan binary64), (@fnan binary64)), ill)));
  (168, (@is_valid_dec binary64 (((@fnan binary64), (@fnan binary64)), trv)));
  (169, (@is_valid_dec binary64 (((@fminf binary64), (fl binary64 (-9007199254740991) (971))), trv)));
  (170, (@is_valid_dec binary64 (((@fminf binary64), (fl binary64 (-9007199254740991) (971))), def)));
  (171, (@is_valid_dec binary64 (((@fminf binary64), (fl binary64 (-9007199254740991) (971))), dac)));
  (172, (@is_valid_dec binary64 (((@fminf binary64), (fl binary64 (-1) (0))), trv)));
  (173, (@is_valid_dec binary64 (((@fminf binary64), (fl binary64 (-1) (0))), def)));
  (174, (@is_valid_dec binary64 (((@fminf binary64), (fl binary64 (-1) (0))), dac)));
  (175, (@is_valid_dec binary64 (((@fminf binary64), (@f0 binary64)), trv)));
  (176, (@is_valid_dec binary64 (((@fminf binary64), (@f0 binary64)), def)));
  (177, (@is_valid_dec binary64 (((@fminf binary64), (@f0 binary64)), dac)));
  (178, (@is_valid_dec binary64 (((@fminf binary64), (fl binary64 (1) (0))), trv)));
  (179, (@is_valid_dec binary64 (((@fminf binary64), (fl binary64 (1) (0))), def)));
  (180, (@is_valid_dec binary64 (((@fminf binary64), (fl binary64 (1) (0))), dac)));
  (181, (@is_valid_dec binary64 (((@fminf binary64), (fl binary64 (9007199254740991) (971))), trv)));
  (182, (@is_valid_dec binary64 (((@fminf binary64), (fl binary64 (9007199254740991) (971))), def)));
  (183, (@is_valid_dec binary64 (((@fminf binary64), (fl binary64 (9007199254740991) (971))), dac)));
  (184, (@is_valid_dec binary64 (((@fminf binary64), (@finf binary64)), trv)));
  (185, (@is_valid_dec binary64 (((@fminf binary64), (@finf binary64)), def)));
  (186, (@is_valid_dec binary64 (((@fminf binary64), (@finf binary64)), dac)));
  (187, (@is_valid_dec binary64 (((fl binary64 (-9007199254740991) (971)), (fl binary64 (-1) (0))), trv)));
  (188, (@is_valid_dec binary64 (((fl binary64 (-9007199254740991) (971)), (fl binary64 (-1) (0))), def)));
  (189, (@is_valid_dec binary64 (((fl binary64 (-9007199254740991) (971)), (fl binary64 (-1) (0))), dac)));
  (190, (@is_valid_dec binary64 (((fl binary64 (-9007199254740991) (971)), (fl binary64 (-1) (0))), com)));
  (191, (@is_valid_dec binary64 (((fl binary64 (-9007199254740991) (971)), (@f0 binary64)), trv)));
  (192, (@is_valid_dec binary64 (((fl binary64 (-9007199254740991) (971)), (@f0 binary64)), def)));
  (193, (@is_valid_dec binary64 (((fl binary64 (-9007199254740991) (971)), (@f0 binary64)), dac)));
  (194, (@is_valid_dec binary64 (((fl binary64 (-9007199254740991) (971)), (@f0 binary64)), com)));
  (195, (@is_valid_dec binary64 (((fl binary64 (-9007199254740991) (971)), (fl binary64 (1) (0))), trv)));
  (196, (@is_valid_dec binary64 (((fl binary64 (-9007199254740991) (971)), (fl binary64 (1) (0))), def)));
  (197, (@is_valid_dec binary64 (((fl binary64 (-9007199254740991) (971)), (fl binary64 (1) (0))), dac)));
  (198, (@is_valid_dec binary64 (((fl binary64 (-9007199254740991) (971)), (fl binary64 (1) (0))), com)));
  (199, (@is_valid_dec binary64 (((fl binary64 (-9007199254740991) (971)), (fl binary64 (9007199254740991) (971))), trv)));
  (200, (@is_valid_dec binary64 (((fl binary64 (-9007199254740991) (971)), (fl binary64 (9007199254740991) (971))), def)));
  (201, (@is_valid_dec binary64 (((fl binary64 (-9007199254740991) (971)), (fl binary64 (9007199254740991) (971))), dac)));
  (202, (@is_valid_dec binary64 (((fl binary64 (-9007199254740991) (971)), (fl binary64 (9007199254740991) (971))), com)));
  (203, (@is_valid_dec binary64 (((fl binary64 (-9007199254740991) (971)), (@finf binary64)), trv)));
  (204, (@is_valid_dec binary64 (((fl binary64 (-9007199254740991) (971)), (@finf binary64)), def)));
  (205, (@is_valid_dec binary64 (((fl binary64 (-9007199254740991) (971)), (@finf binary64)), dac)));
  (206, (@is_valid_dec binary64 (((fl binary64 (-1) (0)), (fl binary64 (-1) (0))), trv)));
  (207, (@is_valid_dec binary64 (((fl binary64 (-1) (0)), (fl binary64 (-1) (0))), def)));
  (208, (@is_valid_dec binary64 (((fl binary64 (-1) (0)), (fl binary64 (-1) (0))), dac)));
  (209, (@is_valid_dec binary64 (((fl binary64 (-1) (0)), (fl binary64 (-1) (0))), com)));
  (210, (@is_valid_dec binary64 (((fl binary64 (-1) (0)), (@f0 binary64)), trv)));
  (211, (@is_valid_dec binary64 (((fl binary64 (-1) (0)), (@f0 binary64)), def)));
  (212, (@is_valid_dec binary64 (((fl binary64 (-1) (0)), (@f0 binary64)), dac)));
  (213, (@is_valid_dec binary64 (((fl binary64 (-1) (0)), (@f0 binary64)), com)));
  (214, (@is_valid_dec binary64 (((fl binary64 (-1) (0)), (fl binary64 (1) (0))), trv)));
  (215, (@is_valid_dec binary64 (((fl binary64 (-1) (0)), (fl binary64 (1) (0))), def)));
  (216, (@is_valid_dec binary64 (((fl binary64 (-1) (0)), (fl binary64 (1) (0))), dac)));
  (217, (@is_valid_dec binary64 (((fl binary64 (-1) (0)), (fl binary64 (1) (0))), com)));
  (218, (@is_valid_dec binary64 (((fl binary64 (-1) (0)), (fl binary64 (9007199254740991) (971))), trv)));
  (219, (@is_valid_dec binary64 (((fl binary64 (-1) (0)), (fl binary64 (9007199254740991) (971))), def)));
  (220, (@is_valid_dec binary64 (((fl binary64 (-1) (0)), (fl binary64 (9007199254740991) (971))), dac)));
  (221, (@is_valid_dec binary64 (((fl binary64 (-1) (0)), (fl binary64 (9007199254740991) (971))), com)));
  (222, (@is_valid_dec binary64 (((fl binary64 (-1) (0)), (@finf binary64)), trv)));
  (223, (@is_valid_dec binary64 (((fl binary64 (-1) (0)), (@finf binary64)), dac)));
  (224, (@is_valid_dec binary64 (((@f0 binary64), (@f0 binary64)), trv)));
  (225, (@is_valid_dec binary64 (((@f0 binary64), (@f0 binary64)), def)));
  (226, (@is_valid_dec binary64 (((@f0 binary64), (@f0 binary64)), dac)));
  (227, (@is_valid_dec binary64 (((@f0 binary64), (@f0 binary64)), com)));
  (228, (@is_valid_dec binary64 (((@fm0 binary64), (@fm0 binary64)), trv)));
  (229, (@is_valid_dec binary64 (((@fm0 binary64), (@fm0 binary64)), def)));
  (230, (@is_valid_dec binary64 (((@fm0 binary64), (@fm0 binary64)), dac)));
  (231, (@is_valid_dec binary64 (((@fm0 binary64), (@fm0 binary64)), com)));
  (232, (@is_valid_dec binary64 (((@f0 binary64), (@fm0 binary64)), trv)));
  (233, (@is_valid_dec binary64 (((@f0 binary64), (@fm0 binary64)), def)));
  (234, (@is_valid_dec binary64 (((@f0 binary64), (@fm0 binary64)), dac)));
  (235, (@is_valid_dec binary64 (((@f0 binary64), (@fm0 binary64)), com)));
  (236, (@is_valid_dec binary64 (((@fm0 binary64), (@f0 binary64)), trv)));
  (237, (@is_valid_dec binary64 (((@fm0 binary64), (@f0 binary64)), def)));
  (238, (@is_valid_dec binary64 (((@fm0 binary64), (@f0 binary64)), dac)));
  (239, (@is_valid_dec binary64 (((@fm0 binary64), (@f0 binary64)), com)));
  (240, (@is_valid_dec binary64 (((@f0 binary64), (fl binary64 (1) (0))), trv)));
  (241, (@is_valid_dec binary64 (((@f0 binary64), (fl binary64 (1) (0))), def)));
  (242, (@is_valid_dec binary64 (((@f0 binary64), (fl binary64 (1) (0))), dac)));
  (243, (@is_valid_dec binary64 (((@f0 binary64), (fl binary64 (1) (0))), com)));
  (244, (@is_valid_dec binary64 (((@f0 binary64), (fl binary64 (9007199254740991) (971))), trv)));
  (245, (@is_valid_dec binary64 (((@f0 binary64), (fl binary64 (9007199254740991) (971))), def)));
  (246, (@is_valid_dec binary64 (((@f0 binary64), (fl binary64 (9007199254740991) (971))), dac)));
  (247, (@is_valid_dec binary64 (((@f0 binary64), (fl binary64 (9007199254740991) (971))), com)));
  (248, (@is_valid_dec binary64 (((@f0 binary64), (@finf binary64)), trv)));
  (249, (@is_valid_dec binary64 (((@f0 binary64), (@finf binary64)), def)));
  (250, (@is_valid_dec binary64 (((@f0 binary64), (@finf binary64)), dac)));
  (251, (@is_valid_dec binary64 (((fl binary64 (1) (0)), (fl binary64 (1) (0))), trv)));
  (252, (@is_valid_dec binary64 (((fl binary64 (1) (0)), (fl binary64 (1) (0))), def)));
  (253, (@is_valid_dec binary64 (((fl binary64 (1) (0)), (fl binary64 (1) (0))), dac)));
  (254, (@is_valid_dec binary64 (((fl binary64 (1) (0)), (fl binary64 (1) (0))), com)));
  (255, (@is_valid_dec binary64 (((fl binary64 (1) (0)), (fl binary64 (9007199254740991) (971))), trv)));
  (256, (@is_valid_dec binary64 (((fl binary64 (1) (0)), (fl binary64 (9007199254740991) (971))), def)));
  (257, (@is_valid_dec binary64 (((fl binary64 (1) (0)), (fl binary64 (9007199254740991) (971))), dac)));
  (258, (@is_valid_dec binary64 (((fl binary64 (1) (0)), (fl binary64 (9007199254740991) (971))), com)));
  (259, (@is_valid_dec binary64 (((fl binary64 (1) (0)), (@finf binary64)), trv)));
  (260, (@is_valid_dec binary64 (((fl binary64 (1) (0)), (@finf binary64)), def)));
  (261, (@is_valid_dec binary64 (((fl binary64 (1) (0)), (@finf binary64)), dac)));
  (262, (@is_valid_dec binary64 (((fl binary64 (9007199254740991) (971)), (fl binary64 (9007199254740991) (971))), trv)));
  (263, (@is_valid_dec binary64 (((fl binary64 (9007199254740991) (971)), (fl binary64 (9007199254740991) (971))), def)));
  (264, (@is_valid_dec binary64 (((fl binary64 (9007199254740991) (971)), (fl binary64 (9007199254740991) (971))), dac)));
  (265, (@is_valid_dec binary64 (((fl binary64 (9007199254740991) (971)), (fl binary64 (9007199254740991) (971))), com)));
  (266, (@is_valid_dec binary64 (((fl binary64 (9007199254740991) (971)), (@finf binary64)), trv)));
  (267, (@is_valid_dec binary64 (((fl binary64 (9007199254740991) (971)), (@finf binary64)), def)));
  (268, (@is_valid_dec binary64 (((fl binary64 (9007199254740991) (971)), (@finf binary64)), dac)));
  (269, (mnot (get_flag invalid_operand_bit)));
  (272, (mnot (@is_valid_dec binary64 (((@fnan binary64), (@fnan binary64)), def))));
  (273, (get_flag invalid_operand_bit));
  (274, clear_flags);
  (275, (mnot (@is_valid_dec binary64 (((@fnan binary64), (@fnan binary64)), dac))));
  (276, (get_flag invalid_operand_bit));
  (277, clear_flags);
  (278, (mnot (@is_valid_dec binary64 (((@fnan binary64), (@fnan binary64)), com))));
  (279, (get_flag invalid_operand_bit));
  (280, clear_flags);
  (281, (mnot (@is_valid_dec binary64 (((@fminf binary64), (fl binary64 (-9007199254740991) (971))), ill))));
  (282, (get_flag invalid_operand_bit));
  (283, clear_flags);
  (284, (mnot (@is_valid_dec binary64 (((@fminf binary64), (fl binary64 (-9007199254740991) (971))), com))));
  (285, (get_flag invalid_operand_bit));
  (286, clear_flags);
  (287, (mnot (@is_valid_dec binary64 (((@fminf binary64), (fl binary64 (-1) (0))), ill))));
  (288, (get_flag invalid_operand_bit));
  (289, clear_flags);
  (290, (mnot (@is_valid_dec binary64 (((@fminf binary64), (fl binary64 (-1) (0))), com))));
  (291, (get_flag invalid_operand_bit));
  (292, clear_flags);
  (293, (mnot (@is_valid_dec binary64 (((@fminf binary64), (@f0 binary64)), ill))));
  (294, (get_flag invalid_operand_bit));
  (295, clear_flags);
  (296, (mnot (@is_valid_dec binary64 (((@fminf binary64), (@f0 binary64)), com))));
  (297, (get_flag invalid_operand_bit));
  (298, clear_flags);
  (299, (mnot (@is_valid_dec binary64 (((@fminf binary64), (fl binary64 (1) (0))), ill))));
  (300, (get_flag invalid_operand_bit));
  (301, clear_flags);
  (302, (mnot (@is_valid_dec binary64 (((@fminf binary64), (fl binary64 (1) (0))), com))));
  (303, (get_flag invalid_operand_bit));
  (304, clear_flags);
  (305, (mnot (@is_valid_dec binary64 (((@fminf binary64), (fl binary64 (9007199254740991) (971))), ill))));
  (306, (get_flag invalid_operand_bit));
  (307, clear_flags);
  (308, (mnot (@is_valid_dec binary64 (((@fminf binary64), (fl binary64 (9007199254740991) (971))), com))));
  (309, (get_flag invalid_operand_bit));
  (310, clear_flags);
  (311, (mnot (@is_valid_dec binary64 (((@fminf binary64), (@finf binary64)), ill))));
  (312, (get_flag invalid_operand_bit));
  (313, clear_flags);
  (314, (mnot (@is_valid_dec binary64 (((@fminf binary64), (@finf binary64)), com))));
  (315, (get_flag invalid_operand_bit));
  (316, clear_flags);
  (317, (mnot (@is_valid_dec binary64 (((fl binary64 (-9007199254740991) (971)), (fl binary64 (-1) (0))), ill))));
  (318, (get_flag invalid_operand_bit));
  (319, clear_flags);
  (320, (mnot (@is_valid_dec binary64 (((fl binary64 (-9007199254740991) (971)), (@f0 binary64)), ill))));
  (321, (get_flag invalid_operand_bit));
  (322, clear_flags);
  (323, (mnot (@is_valid_dec binary64 (((fl binary64 (-9007199254740991) (971)), (fl binary64 (1) (0))), ill))));
  (324, (get_flag invalid_operand_bit));
  (325, clear_flags);
  (326, (mnot (@is_valid_dec binary64 (((fl binary64 (-9007199254740991) (971)), (fl binary64 (9007199254740991) (971))), ill))));
  (327, (get_flag invalid_operand_bit));
  (328, clear_flags);
  (329, (mnot (@is_valid_dec binary64 (((fl binary64 (-9007199254740991) (971)), (@finf binary64)), ill))));
  (330, (get_flag invalid_operand_bit));
  (331, clear_flags);
  (332, (mnot (@is_valid_dec binary64 (((fl binary64 (-9007199254740991) (971)), (@finf binary64)), com))));
  (333, (get_flag invalid_operand_bit));
  (334, clear_flags);
  (335, (mnot (@is_valid_dec binary64 (((fl binary64 (-1) (0)), (fl binary64 (-1) (0))), ill))));
  (336, (get_flag invalid_operand_bit));
  (337, clear_flags);
  (338, (mnot (@is_valid_dec binary64 (((fl binary64 (-1) (0)), (@f0 binary64)), ill))));
  (339, (get_flag invalid_operand_bit));
  (340, clear_flags);
  (341, (mnot (@is_valid_dec binary64 (((fl binary64 (-1) (0)), (fl binary64 (1) (0))), ill))));
  (342, (get_flag invalid_operand_bit));
  (343, clear_flags);
  (344, (mnot (@is_valid_dec binary64 (((fl binary64 (-1) (0)), (fl binary64 (9007199254740991) (971))), ill))));
  (345, (get_flag invalid_operand_bit));
  (346, clear_flags);
  (347, (mnot (@is_valid_dec binary64 (((fl binary64 (-1) (0)), (@finf binary64)), ill))));
  (348, (get_flag invalid_operand_bit));
  (349, clear_flags);
  (350, (mnot (@is_valid_dec binary64 (((fl binary64 (-1) (0)), (@finf binary64)), com))));
  (351, (get_flag invalid_operand_bit));
  (352, clear_flags);
  (353, (mnot (@is_valid_dec binary64 (((@f0 binary64), (@f0 binary64)), ill))));
  (354, (get_flag invalid_operand_bit));
  (355, clear_flags);
  (356, (mnot (@is_valid_dec binary64 (((@fm0 binary64), (@fm0 binary64)), ill))));
  (357, (get_flag invalid_operand_bit));
  (358, clear_flags);
  (359, (mnot (@is_valid_dec binary64 (((@f0 binary64), (@fm0 binary64)), ill))));
  (360, (get_flag invalid_operand_bit));
  (361, clear_flags);
  (362, (mnot (@is_valid_dec binary64 (((@fm0 binary64), (@f0 binary64)), ill))));
  (363, (get_flag invalid_operand_bit));
  (364, clear_flags);
  (365, (mnot (@is_valid_dec binary64 (((@f0 binary64), (fl binary64 (1) (0))), ill))));
  (366, (get_flag invalid_operand_bit));
  (367, clear_flags);
  (368, (mnot (@is_valid_dec binary64 (((@f0 binary64), (fl binary64 (9007199254740991) (971))), ill))));
  (369, (get_flag invalid_operand_bit));
  (370, clear_flags);
  (371, (mnot (@is_valid_dec binary64 (((@f0 binary64), (@finf binary64)), ill))));
  (372, (get_flag invalid_operand_bit));
  (373, clear_flags);
  (374, (mnot (@is_valid_dec binary64 (((@f0 binary64), (@finf binary64)), com))));
  (375, (get_flag invalid_operand_bit));
  (376, clear_flags);
  (377, (mnot (@is_valid_dec binary64 (((fl binary64 (1) (0)), (fl binary64 (1) (0))), ill))));
  (378, (get_flag invalid_operand_bit));
  (379, clear_flags);
  (380, (mnot (@is_valid_dec binary64 (((fl binary64 (1) (0)), (fl binary64 (9007199254740991) (971))), ill))));
  (381, (get_flag invalid_operand_bit));
  (382, clear_flags);
  (383, (mnot (@is_valid_dec binary64 (((fl binary64 (1) (0)), (@finf binary64)), ill))));
  (384, (get_flag invalid_operand_bit));
  (385, clear_flags);
  (386, (mnot (@is_valid_dec binary64 (((fl binary64 (1) (0)), (@finf binary64)), com))));
  (387, (get_flag invalid_operand_bit));
  (388, clear_flags);
  (389, (mnot (@is_valid_dec binary64 (((fl binary64 (9007199254740991) (971)), (fl binary64 (9007199254740991) (971))), ill))));
  (390, (get_flag invalid_operand_bit));
  (391, clear_flags);
  (392, (mnot (@is_valid_dec binary64 (((fl binary64 (9007199254740991) (971)), (@finf binary64)), ill))));
  (393, (get_flag invalid_operand_bit));
  (394, clear_flags);
  (395, (mnot (@is_valid_dec binary64 (((fl binary64 (9007199254740991) (971)), (@finf binary64)), com))));
  (396, (get_flag invalid_operand_bit));
  (397, clear_flags);
  (398, (mnot (@is_valid_dec binary64 (((@fminf binary64), (@fminf binary64)), trv))));
  (399, (get_flag invalid_operand_bit));
  (400, clear_flags);
  (401, (mnot (get_flag invalid_operand_bit)));
  (402, (mnot (@is_valid_dec binary64 (((fl binary64 (-1) (0)), (fl binary64 (-3) (0))), ill))));
  (403, (get_flag invalid_operand_bit));
  (404, clear_flags);
  (405, (mnot (get_flag invalid_operand_bit)));
  (406, (mnot (@is_valid_dec binary64 (((@f0 binary64), (fl binary64 (-3) (0))), def))));
  (407, (get_flag invalid_operand_bit));
  (408, clear_flags);
  (409, (mnot (get_flag invalid_operand_bit)));
  (410, (mnot (@is_valid_dec binary64 (((fl binary64 (1) (0)), (fl binary64 (-3) (0))), com))));
  (411, (get_flag invalid_operand_bit));
  (412, clear_flags);
  (413, (mnot (get_flag invalid_operand_bit)));
  (414, (mnot (@is_valid_dec binary64 (((@finf binary64), (@finf binary64)), dac))));
  (415, (get_flag invalid_operand_bit));
  (416, clear_flags);
  (417, (mnot (get_flag invalid_operand_bit)));
  (418, (mnot (@is_valid_dec binary64 (((@fnan binary64), (@fminf binary64)), ill))));
  (419, (get_flag invalid_operand_bit));
  (420, clear_flags);
  (421, (mnot (get_flag invalid_operand_bit)));
  (422, (mnot (@is_valid_dec binary64 (((@fnan binary64), (fl binary64 (-3) (0))), trv))));
  (423, (get_flag invalid_operand_bit));
  (424, clear_flags);
  (425, (mnot (get_flag invalid_operand_bit)));
  (426, (mnot (@is_valid_dec binary64 (((@fnan binary64), (fl binary64 (-3) (0))), def))));
  (427, (get_flag invalid_operand_bit));
  (428, clear_flags);
  (429, (mnot (get_flag invalid_operand_bit)));
  (430, (mnot (@is_valid_dec binary64 (((@fnan binary64), (fl binary64 (-3) (0))), dac))));
  (431, (get_flag invalid_operand_bit));
  (432, clear_flags);
  (433, (mnot (get_flag invalid_operand_bit)));
  (434, (mnot (@is_valid_dec binary64 (((@fnan binary64), (@finf binary64)), com))));
  (435, (get_flag invalid_operand_bit));
  (436, clear_flags);
  (437, (mnot (get_flag invalid_operand_bit)));
  (438, (mnot (@is_valid_dec binary64 (((@fminf binary64), (@fnan binary64)), ill))));
  (439, (get_flag invalid_operand_bit));
  (440, clear_flags);
  (441, (mnot (get_flag invalid_operand_bit)));
  (442, (mnot (@is_valid_dec binary64 (((fl binary64 (-1) (0)), (@fnan binary64)), def))));
  (443, (get_flag invalid_operand_bit));
  (444, clear_flags);
  (445, (mnot (get_flag invalid_operand_bit)));
  (446, (mnot (@is_valid_dec binary64 (((@f0 binary64), (@fnan binary64)), trv))));
  (447, (get_flag invalid_operand_bit));
  (448, clear_flags);
  (449, (mnot (get_flag invalid_operand_bit)));
  (450, (mnot (@is_valid_dec binary64 (((fl binary64 (1) (0)), (@fnan binary64)), dac))));
  (451, (get_flag invalid_operand_bit));
  (452, clear_flags);
  (453, (mnot (get_flag invalid_operand_bit)));
  (454, (mnot (@is_valid_dec binary64 (((@finf binary64), (@fnan binary64)), com))));
  (455, (get_flag invalid_operand_bit));
  (456, clear_flags);
  (458, (set_cwd invalid_operand_bit));
  (459, (throws (@is_valid_dec binary64 (((@finf binary64), (@fnan binary64)), com)) Invalid_operand_exception));
  (460, (get_flag invalid_operand_bit));
  (461, clear_flags);
  (462, (set_cwd none_bit))].

Example validation_func_agree : test_file [
  minimal_is_valid_test; minimal_is_valid_dec_test] = [].
Proof. vm_compute. reflexivity. Qed.
