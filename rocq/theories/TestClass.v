(** * The checks of the unit tests in /repo/test/p1788/flavor/infsup/setbased/
    test_mpfr_bin_ieee754_flavor_class.cpp, run on the model

    One definition per test case of that file, the number before a check is its
    line there.  These are tests of the model, not proofs about it. *)

From Coq Require Import ZArith NArith Bool Ascii String List.
From Flocq Require Import IEEE754.BinarySingleNaN.
From Verif Require Import Fmt Spec Exc Deco MBase MBool MArith MElem MDec MNum MCancel MOverlap MClass MRev MRev1 MMixed MStream MRead Ex TestRun TestRead.
Import ListNotations.
Local Open Scope N_scope.

(** lines 60-68 *)
Definition minimal_empty_test : list (N * M bool) := [
  (62, clear_flags);
  (64, (ret (isnan (fst (@empty binary64)))));
  (65, (ret (isnan (snd (@empty binary64)))));
  (67, (bind get_flags (fun v1 => ret (N.eqb v1 none_bit))))].

(** lines 70-79 *)
Definition minimal_empty_dec_test : list (N * M bool) := [
  (72, clear_flags);
  (74, (ret (isnan (fst (fst (@empty_dec binary64))))));
  (75, (ret (isnan (snd (fst (@empty_dec binary64))))));
  (76, (ret (N.eqb (snd (@empty_dec binary64)) trv)));
  (78, (bind get_flags (fun v1 => ret (N.eqb v1 none_bit))))].

(** lines 81-89 *)
Definition minimal_entire_test : list (N * M bool) := [
  (83, clear_flags);
  (85, (ret (feq (fst (@entire binary64)) (@fminf binary64))));
  (86, (ret (feq (snd (@entire binary64)) (@finf binary64))));
  (88, (bind get_flags (fun v1 => ret (N.eqb v1 none_bit))))].

(** lines 92-101 *)
Definition minimal_entire_dec_test : list (N * M bool) := [
  (94, clear_flags);
  (96, (ret (feq (fst (fst (@entire_dec binary64))) (@fminf binary64))));
  (97, (ret (feq (snd (fst (@entire_dec binary64))) (@finf binary64))));
  (98, (ret (N.eqb (snd (@entire_dec binary64)) dac)));
  (100, (bind get_flags (fun v1 => ret (N.eqb v1 none_bit))))].

(** lines 104-113 *)
Definition minimal_nai_test : list (N * M bool) := [
  (106, clear_flags);
  (108, (ret (isnan (fst (fst (@nai binary64))))));
  (109, (ret (isnan (snd (fst (@nai binary64))))));
  (110, (ret (N.eqb (snd (@nai binary64)) ill)));
  (112, (bind get_flags (fun v1 => ret (N.eqb v1 none_bit))))].

(** lines 117-158 *)
Definition minimal_nums_to_interval_test : list (N * M bool) := [
  (119, clear_flags);
  (121, (bind (@nums_to_interval binary64 (fl binary64 (-1) (0)) (fl binary64 (1) (0))) (fun v1 => ret (ieq v1 ((fl binary64 (-1) (0)), (fl binary64 (1) (0)))))));
  (122, (bind (@nums_to_interval binary64 (@fminf binary64) (fl binary64 (1) (0))) (fun v1 => ret (ieq v1 ((@fminf binary64), (fl binary64 (1) (0)))))));
  (123, (bind (@nums_to_interval binary64 (fl binary64 (-1) (0)) (@finf binary64)) (fun v1 => ret (ieq v1 ((fl binary64 (-1) (0)), (@finf binary64))))));
  (124, (bind (@nums_to_interval binary64 (@fminf binary64) (@finf binary64)) (fun v1 => ret (ieq v1 ((@fminf binary64), (@finf binary64))))));
  (126, (bind get_flags (fun v1 => ret (N.eqb v1 none_bit))));
  (128, (bind (bind (@nums_to_interval binary64 (@fnan binary64) (@fnan binary64)) (fun v1 => ret (fst v1))) (fun v2 => ret (isnan v2))));
  (129, (bind get_flags (fun v1 => ret (N.eqb v1 undefined_operation_bit))));
  (130, clear_flags);
  (131, (bind (bind (@nums_to_interval binary64 (@fnan binary64) (@fnan binary64)) (fun v1 => ret (snd v1))) (fun v2 => ret (isnan v2))));
  (132, (bind get_flags (fun v1 => ret (N.eqb v1 undefined_operation_bit))));
  (133, clear_flags);
  (134, (bind (bind (@nums_to_interval binary64 (fl binary64 (1) (0)) (fl binary64 (-1) (0))) (fun v1 => ret (fst v1))) (fun v2 => ret (isnan v2))));
  (135, (bind get_flags (fun v1 => ret (N.eqb v1 undefined_operation_bit))));
  (136, clear_flags);
  (137, (bind (bind (@nums_to_interval binary64 (fl binary64 (1) (0)) (fl binary64 (-1) (0))) (fun v1 => ret (snd v1))) (fun v2 => ret (isnan v2))));
  (138, (bind get_flags (fun v1 => ret (N.eqb v1 undefined_operation_bit))));
  (139, clear_flags);
  (140, (bind (bind (@nums_to_interval binary64 (@fminf binary64) (@fminf binary64)) (fun v1 => ret (fst v1))) (fun v2 => ret (isnan v2))));
  (141, (bind get_flags (fun v1 => ret (N.eqb v1 undefined_operation_bit))));
  (142, clear_flags);
  (143, (bind (bind (@nums_to_interval binary64 (@fminf binary64) (@fminf binary64)) (fun v1 => ret (snd v1))) (fun v2 => ret (isnan v2))));
  (144, (bind get_flags (fun v1 => ret (N.eqb v1 undefined_operation_bit))));
  (145, clear_flags);
  (146, (bind (bind (@nums_to_interval binary64 (@finf binary64) (@finf binary64)) (fun v1 => ret (fst v1))) (fun v2 => ret (isnan v2))));
  (147, (bind get_flags (fun v1 => ret (N.eqb v1 undefined_operation_bit))));
  (148, clear_flags);
  (149, (bind (bind (@nums_to_interval binary64 (@finf binary64) (@finf binary64)) (fun v1 => ret (snd v1))) (fun v2 => ret (isnan v2))));
  (150, (bind get_flags (fun v1 => ret (N.eqb v1 undefined_operation_bit))));
  (151, clear_flags);
  (153, (set_cwd undefined_operation_bit));
  (154, (throws (@nums_to_interval binary64 (@finf binary64) (@finf binary64)) Undefined_operation_exception));
  (155, (bind get_flags (fun v1 => ret (N.eqb v1 undefined_operation_bit))));
  (156, clear_flags);
  (157, (set_cwd none_bit))].

(** lines 160-213 *)
Definition minimal_nums_to_decorated_interval_test : list (N * M bool) := [
  (162, clear_flags);
  (164, (bind (@nums_to_decorated_interval binary64 (fl binary64 (-1) (0)) (fl binary64 (1) (0))) (fun v1 => ret (dieq v1 (((fl binary64 (-1) (0)), (fl binary64 (1) (0))), com)))));
  (165, (bind (@nums_to_decorated_interval binary64 (@fminf binary64) (fl binary64 (1) (0))) (fun v1 => ret (dieq v1 (((@fminf binary64), (fl binary64 (1) (0))), dac)))));
  (166, (bind (@nums_to_decorated_interval binary64 (fl binary64 (-1) (0)) (@finf binary64)) (fun v1 => ret (dieq v1 (((fl binary64 (-1) (0)), (@finf binary64)), dac)))));
  (167, (bind (@nums_to_decorated_interval binary64 (@fminf binary64) (@finf binary64)) (fun v1 => ret (dieq v1 (((@fminf binary64), (@finf binary64)), dac)))));
  (169, (bind get_flags (fun v1 => ret (N.eqb v1 none_bit))));
  (171, (bind (bind (bind (@nums_to_decorated_interval binary64 (@fnan binary64) (@fnan binary64)) (fun v1 => ret (fst v1))) (fun v2 => ret (fst v2))) (fun v3 => ret (isnan v3))));
  (172, (bind get_flags (fun v1 => ret (N.eqb v1 undefined_operation_bit))));
  (173, clear_flags);
  (174, (bind (bind (bind (@nums_to_decorated_interval binary64 (@fnan binary64) (@fnan binary64)) (fun v1 => ret (fst v1))) (fun v2 => ret (snd v2))) (fun v3 => ret (isnan v3))));
  (175, (bind get_flags (fun v1 => ret (N.eqb v1 undefined_operation_bit))));
  (176, clear_flags);
  (177, (bind (bind (@nums_to_decorated_interval binary64 (@fnan binary64) (@fnan binary64)) (fun v1 => ret (snd v1))) (fun v2 => ret (N.eqb v2 ill))));
  (178, (bind get_flags (fun v1 => ret (N.eqb v1 undefined_operation_bit))));
  (179, clear_flags);
  (180, (bind (bind (bind (@nums_to_decorated_interval binary64 (fl binary64 (1) (0)) (fl binary64 (-1) (0))) (fun v1 => ret (fst v1))) (fun v2 => ret (fst v2))) (fun v3 => ret (isnan v3))));
  (181, (bind get_flags (fun v1 => ret (N.eqb v1 undefined_operation_bit))));
  (182, clear_flags);
  (183, (bind (bind (bind (@nums_to_decorated_interval binary64 (fl binary64 (1) (0)) (fl binary64 (-1) (0))) (fun v1 => ret (fst v1))) (fun v2 => ret (snd v2))) (fun v3 => ret (isnan v3))));
  (184, (bind get_flags (fun v1 => ret (N.eqb v1 undefined_operation_bit))));
  (185, clear_flags);
  (186, (bind (bind (@nums_to_decorated_interval binary64 (fl binary64 (1) (0)) (fl binary64 (-1) (0))) (fun v1 => ret (snd v1))) (fun v2 => ret (N.eqb v2 ill))));
  (187, (bind get_flags (fun v1 => ret (N.eqb v1 undefined_operation_bit))));
  (188, clear_flags);
  (189, (bind (bind (bind (@nums_to_decorated_interval binary64 (@fminf binary64) (@fminf binary64)) (fun v1 => ret (fst v1))) (fun v2 => ret (fst v2))) (fun v3 => ret (isnan v3))));
  (190, (bind get_flags (fun v1 => ret (N.eqb v1 undefined_operation_bit))));
  (191, clear_flags);
  (192, (bind (bind (bind (@nums_to_decorated_interval binary64 (@fminf binary64) (@fminf binary64)) (fun v1 => ret (fst v1))) (fun v2 => ret (snd v2))) (fun v3 => ret (isnan v3))));
  (193, (bind get_flags (fun v1 => ret (N.eqb v1 undefined_operation_bit))));
  (194, clear_flags);
  (195, (bind (bind (@nums_to_decorated_interval binary64 (@fminf binary64) (@fminf binary64)) (fun v1 => ret (snd v1))) (fun v2 => ret (N.eqb v2 ill))));
  (196, (bind get_flags (fun v1 => ret (N.eqb v1 undefined_operation_bit))));
  (197, clear_flags);
  (198, (bind (bind (bind (@nums_to_decorated_interval binary64 (@finf binary64) (@finf binary64)) (fun v1 => ret (fst v1))) (fun v2 => ret (fst v2))) (fun v3 => ret (isnan v3))));
  (199, (bind get_flags (fun v1 => ret (N.eqb v1 undefined_operation_bit))));
  (200, clear_flags);
  (201, (bind (bind (bind (@nums_to_decorated_interval binary64 (@finf binary64) (@finf binary64)) (fun v1 => ret (fst v1))) (fun v2 => ret (snd v2))) (fun v3 => ret (isnan v3))));
  (202, (bind get_flags (fun v1 => ret (N.eqb v1 undefined_operation_bit))));
  (203, clear_flags);
  (204, (bind (bind (@nums_to_decorated_interval binary64 (@finf binary64) (@finf binary64)) (fun v1 => ret (snd v1))) (fun v2 => ret (N.eqb v2 ill))));
  (205, (bind get_flags (fun v1 => ret (N.eqb v1 undefined_operation_bit))));
  (206, clear_flags);
  (208, (set_cwd undefined_operation_bit));
  (209, (throws (@nums_to_decorated_interval binary64 (@finf binary64) (@finf binary64)) Undefined_operation_exception));
  (210, (bind get_flags (fun v1 => ret (N.eqb v1 undefined_operation_bit))));
  (211, clear_flags);
  (212, (set_cwd none_bit))].

(** lines 216-267 *)
Definition minimal_nums_to_interval_mixedtype_test : list (N * M bool) := [
  (218, clear_flags);
  (220, (bind (@nums_to_interval_mixed binary64 binary64 binary32 (fl binary64 (-1) (0)) (fl binary64 (1) (0))) (fun v1 => ret (ieq v1 ((fl binary32 (-1) (0)), (fl binary32 (1) (0)))))));
  (221, (bind (@nums_to_interval_mixed binary64 binary64 binary32 (@fminf binary64) (fl binary64 (1) (0))) (fun v1 => ret (ieq v1 ((@fminf binary32), (fl binary32 (1) (0)))))));
  (222, (bind (@nums_to_interval_mixed binary64 binary64 binary32 (fl binary64 (-1) (0)) (@finf binary64)) (fun v1 => ret (ieq v1 ((fl binary32 (-1) (0)), (@finf binary32))))));
  (223, (bind (@nums_to_interval_mixed binary64 binary64 binary32 (@fminf binary64) (@finf binary64)) (fun v1 => ret (ieq v1 ((@fminf binary32), (@finf binary32))))));
  (224, (bind (@nums_to_interval_mixed binary64 binary64 binary32 (fl binary64 (-9007199254740991) (971)) (fl binary64 (9007199254740991) (971))) (fun v1 => ret (ieq v1 ((@fminf binary32), (@finf binary32))))));
  (225, (bind (@nums_to_interval_mixed binary64 binary64 binary32 (fl binary64 (1) (-1074)) (fl binary64 (1) (-1074))) (fun v1 => ret (ieq v1 ((@f0 binary32), (fl binary32 (1) (-149)))))));
  (226, (bind (@nums_to_interval_mixed binary64 binary64 binary32 (fl binary64 (-1) (-1074)) (fl binary64 (-1) (-1074))) (fun v1 => ret (ieq v1 ((fl binary32 (-1) (-149)), (@f0 binary32))))));
  (227, (bind (@nums_to_interval_mixed binary64 binary64 binary32 (fl binary64 (-1) (-1074)) (fl binary64 (1) (-1074))) (fun v1 => ret (ieq v1 ((fl binary32 (-1) (-149)), (fl binary32 (1) (-149)))))));
  (228, (bind (@nums_to_interval_mixed binary64 binary64 binary32 (fl binary64 (-3602879824865869) (-47)) (fl binary64 (7205759403792793) (-56))) (fun v1 => ret (ieq v1 ((fl binary32 (-6710887) (-18)), (fl binary32 (13421773) (-27)))))));
  (229, (bind (@nums_to_interval_mixed binary32 binary32 binary64 (fl binary32 (-6710887) (-18)) (fl binary32 (13421773) (-27))) (fun v1 => ret (ieq v1 ((fl binary64 (-6710887) (-18)), (fl binary64 (13421773) (-27)))))));
  (230, (bind (@nums_to_interval_mixed binary32 binary32 binary64 (fl binary32 (-1) (0)) (fl binary32 (1) (0))) (fun v1 => ret (ieq v1 ((fl binary64 (-1) (0)), (fl binary64 (1) (0)))))));
  (231, (bind (@nums_to_interval_mixed binary32 binary32 binary64 (@fminf binary32) (fl binary32 (1) (0))) (fun v1 => ret (ieq v1 ((@fminf binary64), (fl binary64 (1) (0)))))));
  (232, (bind (@nums_to_interval_mixed binary32 binary32 binary64 (fl binary32 (-1) (0)) (@finf binary32)) (fun v1 => ret (ieq v1 ((fl binary64 (-1) (0)), (@finf binary64))))));
  (233, (bind (@nums_to_interval_mixed binary32 binary32 binary64 (@fminf binary32) (@finf binary32)) (fun v1 => ret (ieq v1 ((@fminf binary64), (@finf binary64))))));
  (235, (bind get_flags (fun v1 => ret (N.eqb v1 none_bit))));
  (237, (bind (@nums_to_interval_mixed binary64 binary32 binary32 (fl binary64 (-1) (-1074)) (fl binary32 (-1) (-149))) (fun v1 => @is_empty binary32 v1)));
  (238, (bind get_flags (fun v1 => ret (N.eqb v1 undefined_operation_bit))));
  (239, clear_flags);
  (240, (bind (@nums_to_interval_mixed binary64 binary64 binary32 (fl binary64 (1) (0)) (fl binary64 (-1) (0))) (fun v1 => @is_empty binary32 v1)));
  (241, (bind get_flags (fun v1 => ret (N.eqb v1 undefined_operation_bit))));
  (242, clear_flags);
  (243, (bind (@nums_to_interval_mixed binary64 binary64 binary32 (@fminf binary64) (@fminf binary64)) (fun v1 => @is_empty binary32 v1)));
  (244, (bind get_flags (fun v1 => ret (N.eqb v1 undefined_operation_bit))));
  (245, clear_flags);
  (246, (bind (@nums_to_interval_mixed binary64 binary64 binary32 (@finf binary64) (@finf binary64)) (fun v1 => @is_empty binary32 v1)));
  (247, (bind get_flags (fun v1 => ret (N.eqb v1 undefined_operation_bit))));
  (248, clear_flags);
  (249, (bind (@nums_to_interval_mixed binary32 binary32 binary64 (fl binary32 (1) (0)) (fl binary32 (-1) (0))) (fun v1 => @is_empty binary64 v1)));
  (250, (bind get_flags (fun v1 => ret (N.eqb v1 undefined_operation_bit))));
  (251, clear_flags);
  (252, (bind (@nums_to_interval_mixed binary32 binary32 binary64 (@fminf binary32) (@fminf binary32)) (fun v1 => @is_empty binary64 v1)));
  (253, (bind get_flags (fun v1 => ret (N.eqb v1 undefined_operation_bit))));
  (254, clear_flags);
  (255, (bind (@nums_to_interval_mixed binary32 binary32 binary64 (@finf binary32) (@finf binary32)) (fun v1 => @is_empty binary64 v1)));
  (256, (bind get_flags (fun v1 => ret (N.eqb v1 undefined_operation_bit))));
  (257, clear_flags);
  (259, (set_cwd undefined_operation_bit));
  (260, (throws (@nums_to_interval_mixed binary64 binary64 binary32 (fl binary64 (1) (0)) (fl binary64 (-1) (0))) Undefined_operation_exception));
  (261, (bind get_flags (fun v1 => ret (N.eqb v1 undefined_operation_bit))));
  (262, clear_flags);
  (263, (throws (@nums_to_interval_mixed binary32 binary32 binary64 (@finf binary32) (@finf binary32)) Undefined_operation_exception));
  (264, (bind get_flags (fun v1 => ret (N.eqb v1 undefined_operation_bit))));
  (265, clear_flags);
  (266, (set_cwd none_bit))].

(** lines 269-321 *)
Definition minimal_nums_to_decorated_interval_mixedtype_test : list (N * M bool) := [
  (271, clear_flags);
  (273, (bind (@nums_to_decorated_interval_mixed binary64 binary64 binary32 (fl binary64 (-1) (0)) (fl binary64 (1) (0))) (fun v1 => ret (dieq v1 (((fl binary32 (-1) (0)), (fl binary32 (1) (0))), com)))));
  (274, (bind (@nums_to_decorated_interval_mixed binary64 binary64 binary32 (@fminf binary64) (fl binary64 (1) (0))) (fun v1 => ret (dieq v1 (((@fminf binary32), (fl binary32 (1) (0))), dac)))));
  (275, (bind (@nums_to_decorated_interval_mixed binary64 binary64 binary32 (fl binary64 (-1) (0)) (@finf binary64)) (fun v1 => ret (dieq v1 (((fl binary32 (-1) (0)), (@finf binary32)), dac)))));
  (276, (bind (@nums_to_decorated_interval_mixed binary64 binary64 binary32 (@fminf binary64) (@finf binary64)) (fun v1 => ret (dieq v1 (((@fminf binary32), (@finf binary32)), dac)))));
  (277, (bind (@nums_to_decorated_interval_mixed binary64 binary64 binary32 (fl binary64 (-9007199254740991) (971)) (fl binary64 (9007199254740991) (971))) (fun v1 => ret (dieq v1 (((@fminf binary32), (@finf binary32)), dac)))));
  (278, (bind (@nums_to_decorated_interval_mixed binary64 binary64 binary32 (fl binary64 (1) (-1074)) (fl binary64 (1) (-1074))) (fun v1 => ret (dieq v1 (((@f0 binary32), (fl binary32 (1) (-149))), com)))));
  (279, (bind (@nums_to_decorated_interval_mixed binary64 binary64 binary32 (fl binary64 (-1) (-1074)) (fl binary64 (-1) (-1074))) (fun v1 => ret (dieq v1 (((fl binary32 (-1) (-149)), (@f0 binary32)), com)))));
  (280, (bind (@nums_to_decorated_interval_mixed binary64 binary64 binary32 (fl binary64 (-1) (-1074)) (fl binary64 (1) (-1074))) (fun v1 => ret (dieq v1 (((fl binary32 (-1) (-149)), (fl binary32 (1) (-149))), com)))));
  (281, (bind (@nums_to_decorated_interval_mixed binary64 binary64 binary32 (fl binary64 (-3602879824865869) (-47)) (fl binary64 (7205759403792793) (-56))) (fun v1 => ret (dieq v1 (((fl binary32 (-6710887) (-18)), (fl binary32 (13421773) (-27))), com)))));
  (282, (bind (@nums_to_decorated_interval_mixed binary32 binary32 binary64 (fl binary32 (-6710887) (-18)) (fl binary32 (13421773) (-27))) (fun v1 => ret (dieq v1 (((fl binary64 (-6710887) (-18)), (fl binary64 (13421773) (-27))), com)))));
  (283, (bind (@nums_to_decorated_interval_mixed binary32 binary32 binary64 (fl binary32 (-1) (0)) (fl binary32 (1) (0))) (fun v1 => ret (dieq v1 (((fl binary64 (-1) (0)), (fl binary64 (1) (0))), com)))));
  (284, (bind (@nums_to_decorated_interval_mixed binary32 binary32 binary64 (@fminf binary32) (fl binary32 (1) (0))) (fun v1 => ret (dieq v1 (((@fminf binary64), (fl binary64 (1) (0))), dac)))));
  (285, (bind (@nums_to_decorated_interval_mixed binary32 binary32 binary64 (fl binary32 (-1) (0)) (@finf binary32)) (fun v1 => ret (dieq v1 (((fl binary64 (-1) (0)), (@finf binary64)), dac)))));
  (286, (bind (@nums_to_decorated_interval_mixed binary32 binary32 binary64 (@fminf binary32) (@finf binary32)) (fun v1 => ret (dieq v1 (((@fminf binary64), (@finf binary64)), dac)))));
  (288, (bind get_flags (fun v1 => ret (N.eqb v1 none_bit))));
  (290, (bind (@nums_to_decorated_interval_mixed binary64 binary32 binary32 (fl binary64 (-1) (-1074)) (fl binary32 (-1) (-149))) (fun v1 => @is_nai binary32 v1)));
  (291, (bind get_flags (fun v1 => ret (N.eqb v1 undefined_operation_bit))));
  (292, clear_flags);
  (293, (bind (@nums_to_decorated_interval_mixed binary64 binary64 binary32 (fl binary64 (1) (0)) (fl binary64 (-1) (0))) (fun v1 => @is_nai binary32 v1)));
  (294, (bind get_flags (fun v1 => ret (N.eqb v1 undefined_operation_bit))));
  (295, clear_flags);
  (296, (bind (@nums_to_decorated_interval_mixed binary64 binary64 binary32 (@fminf binary64) (@fminf binary64)) (fun v1 => @is_nai binary32 v1)));
  (297, (bind get_flags (fun v1 => ret (N.eqb v1 undefined_operation_bit))));
  (298, clear_flags);
  (299, (bind (@nums_to_decorated_interval_mixed binary64 binary64 binary32 (@finf binary64) (@finf binary64)) (fun v1 => @is_nai binary32 v1)));
  (300, (bind get_flags (fun v1 => ret (N.eqb v1 undefined_operation_bit))));
  (301, clear_flags);
  (302, (bind (@nums_to_decorated_interval_mixed binary32 binary32 binary64 (fl binary32 (1) (0)) (fl binary32 (-1) (0))) (fun v1 => @is_nai binary64 v1)));
  (303, (bind get_flags (fun v1 => ret (N.eqb v1 undefined_operation_bit))));
  (304, clear_flags);
  (305, (bind (@nums_to_decorated_interval_mixed binary32 binary32 binary64 (@fminf binary32) (@fminf binary32)) (fun v1 => @is_nai binary64 v1)));
  (306, (bind get_flags (fun v1 => ret (N.eqb v1 undefined_operation_bit))));
  (307, clear_flags);
  (308, (bind (@nums_to_decorated_interval_mixed binary32 binary32 binary64 (@finf binary32) (@finf binary32)) (fun v1 => @is_nai binary64 v1)));
  (309, (bind get_flags (fun v1 => ret (N.eqb v1 undefined_operation_bit))));
  (310, clear_flags);
  (313, (set_cwd undefined_operation_bit));
  (314, (throws (@nums_to_decorated_interval_mixed binary64 binary64 binary32 (@fminf binary64) (@fminf binary64)) Undefined_operation_exception));
  (315, (bind get_flags (fun v1 => ret (N.eqb v1 undefined_operation_bit))));
  (316, clear_flags);
  (317, (throws (@nums_to_decorated_interval_mixed binary32 binary32 binary64 (@finf binary32) (@finf binary32)) Undefined_operation_exception));
  (318, (bind get_flags (fun v1 => ret (N.eqb v1 undefined_operation_bit))));
  (319, clear_flags);
  (320, (set_cwd none_bit))].

(** lines 324-412 *)
Definition minimal_nums_dec_to_decorated_interval_test : list (N * M bool) := [
  (326, clear_flags);
  (328, (bind (@nums_dec_to_decorated_interval binary64 (fl binary64 (-1) (0)) (fl binary64 (1) (0)) trv) (fun v1 => ret (dieq v1 (((fl binary64 (-1) (0)), (fl binary64 (1) (0))), trv)))));
  (329, (bind (@nums_dec_to_decorated_interval binary64 (@fminf binary64) (fl binary64 (1) (0)) def) (fun v1 => ret (dieq v1 (((@fminf binary64), (fl binary64 (1) (0))), def)))));
  (330, (bind (@nums_dec_to_decorated_interval binary64 (fl binary64 (-1) (0)) (@finf binary64) trv) (fun v1 => ret (dieq v1 (((fl binary64 (-1) (0)), (@finf binary64)), trv)))));
  (331, (bind (@nums_dec_to_decorated_interval binary64 (@fminf binary64) (@finf binary64) dac) (fun v1 => ret (dieq v1 (((@fminf binary64), (@finf binary64)), dac)))));
  (333, (bind get_flags (fun v1 => ret (N.eqb v1 none_bit))));
  (335, (bind (bind (bind (@nums_dec_to_decorated_interval binary64 (@fnan binary64) (@fnan binary64) ill) (fun v1 => ret (fst v1))) (fun v2 => ret (fst v2))) (fun v3 => ret (isnan v3))));
  (336, (bind get_flags (fun v1 => ret (N.eqb v1 undefined_operation_bit))));
  (337, clear_flags);
  (338, (bind (bind (bind (@nums_dec_to_decorated_interval binary64 (@fnan binary64) (@fnan binary64) ill) (fun v1 => ret (fst v1))) (fun v2 => ret (snd v2))) (fun v3 => ret (isnan v3))));
  (339, (bind get_flags (fun v1 => ret (N.eqb v1 undefined_operation_bit))));
  (340, clear_flags);
  (341, (bind (bind (@nums_dec_to_decorated_interval binary64 (@fnan binary64) (@fnan binary64) ill) (fun v1 => ret (snd v1))) (fun v2 => ret (N.eqb v2 ill))));
  (342, (bind get_flags (fun v1 => ret (N.eqb v1 undefined_operation_bit))));
  (343, clear_flags);
  (344, (bind (bind (bind (@nums_dec_to_decorated_interval binary64 (@fnan binary64) (@fnan binary64) trv) (fun v1 => ret (fst v1))) (fun v2 => ret (fst v2))) (fun v3 => ret (isnan v3))));
  (345, (bind get_flags (fun v1 => ret (N.eqb v1 undefined_operation_bit))));
  (346, clear_flags);
  (347, (bind (bind (bind (@nums_dec_to_decorated_interval binary64 (@fnan binary64) (@fnan binary64) trv) (fun v1 => ret (fst v1))) (fun v2 => ret (snd v2))) (fun v3 => ret (isnan v3))));
  (348, (bind get_flags (fun v1 => ret (N.eqb v1 undefined_operation_bit))));
  (349, clear_flags);
  (350, (bind (bind (@nums_dec_to_decorated_interval binary64 (@fnan binary64) (@fnan binary64) trv) (fun v1 => ret (snd v1))) (fun v2 => ret (N.eqb v2 ill))));
  (351, (bind get_flags (fun v1 => ret (N.eqb v1 undefined_operation_bit))));
  (352, clear_flags);
  (353, (bind (bind (bind (@nums_dec_to_decorated_interval binary64 (fl binary64 (1) (0)) (fl binary64 (-1) (0)) def) (fun v1 => ret (fst v1))) (fun v2 => ret (fst v2))) (fun v3 => ret (isnan v3))));
  (354, (bind get_flags (fun v1 => ret (N.eqb v1 undefined_operation_bit))));
  (355, clear_flags);
  (356, (bind (bind (bind (@nums_dec_to_decorated_interval binary64 (fl binary64 (1) (0)) (fl binary64 (-1) (0)) def) (fun v1 => ret (fst v1))) (fun v2 => ret (snd v2))) (fun v3 => ret (isnan v3))));
  (357, (bind get_flags (fun v1 => ret (N.eqb v1 undefined_operation_bit))));
  (358, clear_flags);
  (359, (bind (bind (@nums_dec_to_decorated_interval binary64 (fl binary64 (1) (0)) (fl binary64 (-1) (0)) def) (fun v1 => ret (snd v1))) (fun v2 => ret (N.eqb v2 ill))));
  (360, (bind get_flags (fun v1 => ret (N.eqb v1 undefined_operation_bit))));
  (361, clear_flags);
  (362, (bind (bind (bind (@nums_dec_to_decorated_interval binary64 (@fminf binary64) (@fminf binary64) dac) (fun v1 => ret (fst v1))) (fun v2 => ret (fst v2))) (fun v3 => ret (isnan v3))));
  (363, (bind get_flags (fun v1 => ret (N.eqb v1 undefined_operation_bit))));
  (364, clear_flags);
  (365, (bind (bind (bind (@nums_dec_to_decorated_interval binary64 (@fminf binary64) (@fminf binary64) dac) (fun v1 => ret (fst v1))) (fun v2 => ret (snd v2))) (fun v3 => ret (isnan v3))));
  (366, (bind get_flags (fun v1 => ret (N.eqb v1 undefined_operation_bit))));
  (367, clear_flags);
  (368, (bind (bind (@nums_dec_to_decorated_interval binary64 (@fminf binary64) (@fminf binary64) dac) (fun v1 => ret (snd v1))) (fun v2 => ret (N.eqb v2 ill))));
  (369, (bind get_flags (fun v1 => ret (N.eqb v1 undefined_operation_bit))));
  (370, clear_flags);
  (371, (bind (bind (bind (@nums_dec_to_decorated_interval binary64 (@finf binary64) (@finf binary64) def) (fun v1 => ret (fst v1))) (fun v2 => ret (fst v2))) (fun v3 => ret (isnan v3))));
  (372, (bind get_flags (fun v1 => ret (N.eqb v1 undefined_operation_bit))));
  (373, clear_flags);
  (374, (bind (bind (bind (@nums_dec_to_decorated_interval binary64 (@finf binary64) (@finf binary64) def) (fun v1 => ret (fst v1))) (fun v2 => ret (snd v2))) (fun v3 => ret (isnan v3))));
  (375, (bind get_flags (fun v1 => ret (N.eqb v1 undefined_operation_bit))));
  (376, clear_flags);
  (377, (bind (bind (@nums_dec_to_decorated_interval binary64 (@finf binary64) (@finf binary64) def) (fun v1 => ret (snd v1))) (fun v2 => ret (N.eqb v2 ill))));
  (378, (bind get_flags (fun v1 => ret (N.eqb v1 undefined_operation_bit))));
  (379, clear_flags);
  (380, (bind (bind (bind (@nums_dec_to_decorated_interval binary64 (@fminf binary64) (@finf binary64) com) (fun v1 => ret (fst v1))) (fun v2 => ret (fst v2))) (fun v3 => ret (isnan v3))));
  (381, (bind get_flags (fun v1 => ret (N.eqb v1 undefined_operation_bit))));
  (382, clear_flags);
  (383, (bind (bind (bind (@nums_dec_to_decorated_interval binary64 (@fminf binary64) (@finf binary64) com) (fun v1 => ret (fst v1))) (fun v2 => ret (snd v2))) (fun v3 => ret (isnan v3))));
  (384, (bind get_flags (fun v1 => ret (N.eqb v1 undefined_operation_bit))));
  (385, clear_flags);
  (386, (bind (bind (@nums_dec_to_decorated_interval binary64 (@fminf binary64) (@finf binary64) com) (fun v1 => ret (snd v1))) (fun v2 => ret (N.eqb v2 ill))));
  (387, (bind get_flags (fun v1 => ret (N.eqb v1 undefined_operation_bit))));
  (388, clear_flags);
  (392, (bind (bind (bind (@nums_dec_to_decorated_interval binary64 (fl binary64 (1) (0)) (fl binary64 (1) (1)) 13%N) (fun v1 => ret (fst v1))) (fun v2 => ret (fst v2))) (fun v3 => ret (isnan v3))));
  (393, (bind get_flags (fun v1 => ret (N.eqb v1 invalid_operand_bit))));
  (394, clear_flags);
  (395, (bind (bind (bind (@nums_dec_to_decorated_interval binary64 (fl binary64 (1) (0)) (fl binary64 (1) (1)) 13%N) (fun v1 => ret (fst v1))) (fun v2 => ret (snd v2))) (fun v3 => ret (isnan v3))));
  (396, (bind get_flags (fun v1 => ret (N.eqb v1 invalid_operand_bit))));
  (397, clear_flags);
  (398, (bind (bind (@nums_dec_to_decorated_interval binary64 (fl binary64 (1) (0)) (fl binary64 (1) (1)) 13%N) (fun v1 => ret (snd v1))) (fun v2 => ret (N.eqb v2 ill))));
  (399, (bind get_flags (fun v1 => ret (N.eqb v1 invalid_operand_bit))));
  (400, clear_flags);
  (402, (set_cwd undefined_operation_bit));
  (403, (throws (@nums_dec_to_decorated_interval binary64 (@finf binary64) (@finf binary64) trv) Undefined_operation_exception));
  (404, (bind get_flags (fun v1 => ret (N.eqb v1 undefined_operation_bit))));
  (405, clear_flags);
  (407, (set_cwd invalid_operand_bit));
  (408, (throws (@nums_dec_to_decorated_interval binary64 (fl binary64 (1) (0)) (fl binary64 (1) (1)) 13%N) Invalid_operand_exception));
  (409, (bind get_flags (fun v1 => ret (N.eqb v1 invalid_operand_bit))));
  (410, clear_flags);
  (411, (set_cwd none_bit))].

(** lines 414-485 *)
Definition minimal_nums_dec_to_decorated_interval_mixedtype_test : list (N * M bool) := [
  (416, clear_flags);
  (418, (bind (@nums_dec_to_decorated_interval_mixed binary64 binary64 binary32 (fl binary64 (-1) (0)) (fl binary64 (1) (0)) trv) (fun v1 => ret (dieq v1 (((fl binary32 (-1) (0)), (fl binary32 (1) (0))), trv)))));
  (419, (bind (@nums_dec_to_decorated_interval_mixed binary64 binary64 binary32 (@fminf binary64) (fl binary64 (1) (0)) def) (fun v1 => ret (dieq v1 (((@fminf binary32), (fl binary32 (1) (0))), def)))));
  (420, (bind (@nums_dec_to_decorated_interval_mixed binary64 binary64 binary32 (fl binary64 (-1) (0)) (@finf binary64) def) (fun v1 => ret (dieq v1 (((fl binary32 (-1) (0)), (@finf binary32)), def)))));
  (421, (bind (@nums_dec_to_decorated_interval_mixed binary64 binary64 binary32 (@fminf binary64) (@finf binary64) dac) (fun v1 => ret (dieq v1 (((@fminf binary32), (@finf binary32)), dac)))));
  (422, (bind (@nums_dec_to_decorated_interval_mixed binary64 binary64 binary32 (fl binary64 (-9007199254740991) (971)) (fl binary64 (9007199254740991) (971)) com) (fun v1 => ret (dieq v1 (((@fminf binary32), (@finf binary32)), dac)))));
  (423, (bind (@nums_dec_to_decorated_interval_mixed binary64 binary64 binary32 (fl binary64 (1) (-1074)) (fl binary64 (1) (-1074)) def) (fun v1 => ret (dieq v1 (((@f0 binary32), (fl binary32 (1) (-149))), def)))));
  (424, (bind (@nums_dec_to_decorated_interval_mixed binary64 binary64 binary32 (fl binary64 (-1) (-1074)) (fl binary64 (-1) (-1074)) com) (fun v1 => ret (dieq v1 (((fl binary32 (-1) (-149)), (@f0 binary32)), com)))));
  (425, (bind (@nums_dec_to_decorated_interval_mixed binary64 binary64 binary32 (fl binary64 (-1) (-1074)) (fl binary64 (1) (-1074)) def) (fun v1 => ret (dieq v1 (((fl binary32 (-1) (-149)), (fl binary32 (1) (-149))), def)))));
  (426, (bind (@nums_dec_to_decorated_interval_mixed binary64 binary64 binary32 (fl binary64 (-3602879824865869) (-47)) (fl binary64 (7205759403792793) (-56)) dac) (fun v1 => ret (dieq v1 (((fl binary32 (-6710887) (-18)), (fl binary32 (13421773) (-27))), dac)))));
  (427, (bind (@nums_dec_to_decorated_interval_mixed binary32 binary32 binary64 (fl binary32 (-6710887) (-18)) (fl binary32 (13421773) (-27)) com) (fun v1 => ret (dieq v1 (((fl binary64 (-6710887) (-18)), (fl binary64 (13421773) (-27))), com)))));
  (428, (bind (@nums_dec_to_decorated_interval_mixed binary32 binary32 binary64 (fl binary32 (-1) (0)) (fl binary32 (1) (0)) trv) (fun v1 => ret (dieq v1 (((fl binary64 (-1) (0)), (fl binary64 (1) (0))), trv)))));
  (429, (bind (@nums_dec_to_decorated_interval_mixed binary32 binary32 binary64 (@fminf binary32) (fl binary32 (1) (0)) def) (fun v1 => ret (dieq v1 (((@fminf binary64), (fl binary64 (1) (0))), def)))));
  (430, (bind (@nums_dec_to_decorated_interval_mixed binary32 binary32 binary64 (fl binary32 (-1) (0)) (@finf binary32) dac) (fun v1 => ret (dieq v1 (((fl binary64 (-1) (0)), (@finf binary64)), dac)))));
  (431, (bind (@nums_dec_to_decorated_interval_mixed binary32 binary32 binary64 (@fminf binary32) (@finf binary32) trv) (fun v1 => ret (dieq v1 (((@fminf binary64), (@finf binary64)), trv)))));
  (433, (bind get_flags (fun v1 => ret (N.eqb v1 none_bit))));
  (435, (bind (@nums_dec_to_decorated_interval_mixed binary64 binary32 binary32 (fl binary64 (-1) (-1074)) (fl binary32 (-1) (-149)) trv) (fun v1 => @is_nai binary32 v1)));
  (436, (bind get_flags (fun v1 => ret (N.eqb v1 undefined_operation_bit))));
  (437, clear_flags);
  (438, (bind (@nums_dec_to_decorated_interval_mixed binary64 binary64 binary32 (fl binary64 (1) (0)) (fl binary64 (-1) (0)) dac) (fun v1 => @is_nai binary32 v1)));
  (439, (bind get_flags (fun v1 => ret (N.eqb v1 undefined_operation_bit))));
  (440, clear_flags);
  (441, (bind (@nums_dec_to_decorated_interval_mixed binary64 binary64 binary32 (@fminf binary64) (@fminf binary64) def) (fun v1 => @is_nai binary32 v1)));
  (442, (bind get_flags (fun v1 => ret (N.eqb v1 undefined_operation_bit))));
  (443, clear_flags);
  (444, (bind (@nums_dec_to_decorated_interval_mixed binary64 binary64 binary32 (@finf binary64) (@finf binary64) def) (fun v1 => @is_nai binary32 v1)));
  (445, (bind get_flags (fun v1 => ret (N.eqb v1 undefined_operation_bit))));
  (446, clear_flags);
  (447, (bind (@nums_dec_to_decorated_interval_mixed binary32 binary32 binary64 (fl binary32 (1) (0)) (fl binary32 (-1) (0)) trv) (fun v1 => @is_nai binary64 v1)));
  (448, (bind get_flags (fun v1 => ret (N.eqb v1 undefined_operation_bit))));
  (449, clear_flags);
  (450, (bind (@nums_dec_to_decorated_interval_mixed binary32 binary32 binary64 (@fminf binary32) (@fminf binary32) def) (fun v1 => @is_nai binary64 v1)));
  (451, (bind get_flags (fun v1 => ret (N.eqb v1 undefined_operation_bit))));
  (452, clear_flags);
  (453, (bind (@nums_dec_to_decorated_interval_mixed binary32 binary32 binary64 (@finf binary32) (@finf binary32) dac) (fun v1 => @is_nai binary64 v1)));
  (454, (bind get_flags (fun v1 => ret (N.eqb v1 undefined_operation_bit))));
  (455, clear_flags);
  (456, (bind (@nums_dec_to_decorated_interval_mixed binary32 binary32 binary64 (@fminf binary32) (@finf binary32) com) (fun v1 => @is_nai binary64 v1)));
  (457, (bind get_flags (fun v1 => ret (N.eqb v1 undefined_operation_bit))));
  (458, clear_flags);
  (462, (bind (bind (bind (@nums_dec_to_decorated_interval_mixed binary32 binary32 binary64 (fl binary32 (1) (0)) (fl binary32 (1) (1)) 47%N) (fun v1 => ret (fst v1))) (fun v2 => ret (fst v2))) (fun v3 => ret (isnan v3))));
  (463, (bind get_flags (fun v1 => ret (N.eqb v1 invalid_operand_bit))));
  (464, clear_flags);
  (465, (bind (bind (bind (@nums_dec_to_decorated_interval_mixed binary32 binary32 binary64 (fl binary32 (1) (0)) (fl binary32 (1) (1)) 47%N) (fun v1 => ret (fst v1))) (fun v2 => ret (snd v2))) (fun v3 => ret (isnan v3))));
  (466, (bind get_flags (fun v1 => ret (N.eqb v1 invalid_operand_bit))));
  (467, clear_flags);
  (468, (bind (bind (@nums_dec_to_decorated_interval_mixed binary32 binary32 binary64 (fl binary32 (1) (0)) (fl binary32 (1) (1)) 47%N) (fun v1 => ret (snd v1))) (fun v2 => ret (N.eqb v2 ill))));
  (469, (bind get_flags (fun v1 => ret (N.eqb v1 invalid_operand_bit))));
  (470, clear_flags);
  (472, (set_cwd undefined_operation_bit));
  (473, (throws (@nums_dec_to_decorated_interval_mixed binary64 binary64 binary32 (@fminf binary64) (@fminf binary64) trv) Undefined_operation_exception));
  (474, (bind get_flags (fun v1 => ret (N.eqb v1 undefined_operation_bit))));
  (475, clear_flags);
  (476, (throws (@nums_dec_to_decorated_interval_mixed binary32 binary32 binary64 (@finf binary32) (@finf binary32) def) Undefined_operation_exception));
  (477, (bind get_flags (fun v1 => ret (N.eqb v1 undefined_operation_bit))));
  (478, clear_flags);
  (480, (set_cwd invalid_operand_bit));
  (481, (throws (@nums_dec_to_decorated_interval_mixed binary32 binary32 binary64 (fl binary32 (1) (0)) (fl binary32 (1) (1)) 47%N) Invalid_operand_exception));
  (482, (bind get_flags (fun v1 => ret (N.eqb v1 invalid_operand_bit))));
  (483, clear_flags);
  (484, (set_cwd none_bit))].

(** lines 488-658 *)
Definition minimal_text_to_interval_test : list (N * M bool) := [
  (490, clear_flags);
  (492, (bind (@text_to_interval binary64 (txt "[ Empty  ]")) (fun v1 => @is_empty binary64 v1)));
  (493, (bind (@text_to_interval binary64 (txt "[ Empty  ]_trv")) (fun v1 => @is_empty binary64 v1)));
  (494, (bind (@text_to_interval binary64 (txt "[  ]")) (fun v1 => @is_empty binary64 v1)));
  (495, (bind (@text_to_interval binary64 (txt "[  ]_trv")) (fun v1 => @is_empty binary64 v1)));
  (497, (bind (@text_to_interval binary64 (txt "[,]")) (fun v1 => ret (ieq v1 ((@fminf binary64), (@finf binary64))))));
  (498, (bind (@text_to_interval binary64 (txt "[,]_trv")) (fun v1 => ret (ieq v1 ((@fminf binary64), (@finf binary64))))));
  (499, (bind (@text_to_interval binary64 (txt "[ entire  ]")) (fun v1 => ret (ieq v1 ((@fminf binary64), (@finf binary64))))));
  (500, (bind (@text_to_interval binary64 (txt "[ ENTIRE ]_dac")) (fun v1 => ret (ieq v1 ((@fminf binary64), (@finf binary64))))));
  (501, (bind (@text_to_interval binary64 (txt "[ -inf , INF  ]")) (fun v1 => ret (ieq v1 ((@fminf binary64), (@finf binary64))))));
  (502, (bind (@text_to_interval binary64 (txt "[ -inf, INF ]_def")) (fun v1 => ret (ieq v1 ((@fminf binary64), (@finf binary64))))));
  (504, (bind (@text_to_interval binary64 (txt "[-1.0,1.0]")) (fun v1 => ret (ieq v1 ((fl binary64 (-1) (0)), (fl binary64 (1) (0)))))));
  (505, (bind (@text_to_interval binary64 (txt "[  -1.0  ,  1.0  ]_com")) (fun v1 => ret (ieq v1 ((fl binary64 (-1) (0)), (fl binary64 (1) (0)))))));
  (506, (bind (@text_to_interval binary64 (txt "[  -1.0  , 1.0]_trv")) (fun v1 => ret (ieq v1 ((fl binary64 (-1) (0)), (fl binary64 (1) (0)))))));
  (508, (bind (@text_to_interval binary64 (txt "[-1,]")) (fun v1 => ret (ieq v1 ((fl binary64 (-1) (0)), (@finf binary64))))));
  (509, (bind (@text_to_interval binary64 (txt "[-1.0, +inf]_def")) (fun v1 => ret (ieq v1 ((fl binary64 (-1) (0)), (@finf binary64))))));
  (510, (bind (@text_to_interval binary64 (txt "[-1.0, +infinity]_def")) (fun v1 => ret (ieq v1 ((fl binary64 (-1) (0)), (@finf binary64))))));
  (512, (bind (@text_to_interval binary64 (txt "[-Inf, 1.000 ]")) (fun v1 => ret (ieq v1 ((@fminf binary64), (fl binary64 (1) (0)))))));
  (513, (bind (@text_to_interval binary64 (txt "[-Infinity, 1.000 ]_trv")) (fun v1 => ret (ieq v1 ((@fminf binary64), (fl binary64 (1) (0)))))));
  (515, (bind (@text_to_interval binary64 (txt "[1.0E+400 ]_com")) (fun v1 => ret (ieq v1 ((fl binary64 (9007199254740991) (971)), (@finf binary64))))));
  (517, (bind (@text_to_interval binary64 (txt "[ -4/2, 10/5 ]_com")) (fun v1 => ret (ieq v1 ((fl binary64 (-1) (1)), (fl binary64 (1) (1)))))));
  (518, (bind (@text_to_interval binary64 (txt "[ -1/10, 1/10 ]_com")) (fun v1 => ret (ieq v1 ((fl binary64 (-3602879701896397) (-55)), (fl binary64 (3602879701896397) (-55)))))));
  (520, (bind (@text_to_interval binary64 (txt "0.0?")) (fun v1 => ret (ieq v1 ((fl binary64 (-3602879701896397) (-56)), (fl binary64 (3602879701896397) (-56)))))));
  (521, (bind (@text_to_interval binary64 (txt "0.0?u_trv")) (fun v1 => ret (ieq v1 ((@f0 binary64), (fl binary64 (3602879701896397) (-56)))))));
  (522, (bind (@text_to_interval binary64 (txt "0.0?d_dac")) (fun v1 => ret (ieq v1 ((fl binary64 (-3602879701896397) (-56)), (@f0 binary64))))));
  (524, (bind (@text_to_interval binary64 (txt "2.5?")) (fun v1 => ret (ieq v1 ((fl binary64 (5516909543528857) (-51)), (fl binary64 (5742089524897383) (-51)))))));
  (525, (bind (@text_to_interval binary64 (txt "2.5?u")) (fun v1 => ret (ieq v1 ((fl binary64 (5) (-1)), (fl binary64 (5742089524897383) (-51)))))));
  (526, (bind (@text_to_interval binary64 (txt "2.5?d_trv")) (fun v1 => ret (ieq v1 ((fl binary64 (5516909543528857) (-51)), (fl binary64 (5) (-1)))))));
  (528, (bind (@text_to_interval binary64 (txt "0.000?5")) (fun v1 => ret (ieq v1 ((fl binary64 (-5764607523034235) (-60)), (fl binary64 (5764607523034235) (-60)))))));
  (529, (bind (@text_to_interval binary64 (txt "0.000?5u_def")) (fun v1 => ret (ieq v1 ((@f0 binary64), (fl binary64 (5764607523034235) (-60)))))));
  (530, (bind (@text_to_interval binary64 (txt "0.000?5d")) (fun v1 => ret (ieq v1 ((fl binary64 (-5764607523034235) (-60)), (@f0 binary64))))));
  (532, (bind (@text_to_interval binary64 (txt "2.500?5")) (fun v1 => ret (ieq v1 ((fl binary64 (5618240535144693) (-51)), (fl binary64 (5640758533281547) (-51)))))));
  (533, (bind (@text_to_interval binary64 (txt "2.500?5u")) (fun v1 => ret (ieq v1 ((fl binary64 (5) (-1)), (fl binary64 (5640758533281547) (-51)))))));
  (534, (bind (@text_to_interval binary64 (txt "2.500?5d")) (fun v1 => ret (ieq v1 ((fl binary64 (5618240535144693) (-51)), (fl binary64 (5) (-1)))))));
  (536, (bind (@text_to_interval binary64 (txt "0.0??_dac")) (fun v1 => ret (ieq v1 ((@fminf binary64), (@finf binary64))))));
  (537, (bind (@text_to_interval binary64 (txt "0.0??u_trv")) (fun v1 => ret (ieq v1 ((@f0 binary64), (@finf binary64))))));
  (538, (bind (@text_to_interval binary64 (txt "0.0??d")) (fun v1 => ret (ieq v1 ((@fminf binary64), (@f0 binary64))))));
  (540, (bind (@text_to_interval binary64 (txt "2.5??")) (fun v1 => ret (ieq v1 ((@fminf binary64), (@finf binary64))))));
  (541, (bind (@text_to_interval binary64 (txt "2.5??u_def")) (fun v1 => ret (ieq v1 ((fl binary64 (5) (-1)), (@finf binary64))))));
  (542, (bind (@text_to_interval binary64 (txt "2.5??d_dac")) (fun v1 => ret (ieq v1 ((@fminf binary64), (fl binary64 (5) (-1)))))));
  (544, (bind (@text_to_interval binary64 (txt "2.500?5e+27")) (fun v1 => ret (ieq v1 ((fl binary64 (4538378561846911) (39)), (fl binary64 (4556568455882371) (39)))))));
  (545, (bind (@text_to_interval binary64 (txt "2.500?5ue4_def")) (fun v1 => ret (ieq v1 ((fl binary64 (3125) (3)), (fl binary64 (12525) (1)))))));
  (546, (bind (@text_to_interval binary64 (txt "2.500?5de-5")) (fun v1 => ret (ieq v1 ((fl binary64 (7363940234224853) (-68)), (fl binary64 (7378697629483821) (-68)))))));
  (548, (bind (@text_to_interval binary64 (txt "10?3_com")) (fun v1 => ret (ieq v1 ((fl binary64 (7) (0)), (fl binary64 (13) (0)))))));
  (549, (bind (@text_to_interval binary64 (txt "10?3e380_com")) (fun v1 => ret (ieq v1 ((fl binary64 (9007199254740991) (971)), (@finf binary64))))));
  (551, (bind (@text_to_interval binary64 (txt "1.0000000000000001?1")) (fun v1 => ret (ieq v1 ((fl binary64 (1) (0)), (fl binary64 (4503599627370497) (-52)))))));
  (556, (bind (@text_to_interval binary64 (txt "10?1800000000000000000000000000000000000000000000000000000000000000000000000000000000000000000000000000000000000000000000000000000000000000000000000000000000000000000000000000000000000000000000000000000000000000000000000000000000000000000000000000000000000000000000000000000000000000000000000000000000000000000000_com")) (fun v1 => ret (ieq v1 ((@fminf binary64), (@finf binary64))))));
  (558, (bind get_flags (fun v1 => ret (N.eqb v1 none_bit))));
  (560, (bind (@text_to_interval binary64 (txt "[ Nai  ]")) (fun v1 => @is_empty binary64 v1)));
  (561, (bind get_flags (fun v1 => ret (N.eqb v1 interval_part_of_nai_bit))));
  (562, clear_flags);
  (564, (bind (@text_to_interval binary64 (txt "[ Nai  ]_ill")) (fun v1 => @is_empty binary64 v1)));
  (565, (bind get_flags (fun v1 => ret (N.eqb v1 undefined_operation_bit))));
  (566, clear_flags);
  (568, (bind (@text_to_interval binary64 (txt "[ Nai  ]_trv")) (fun v1 => @is_empty binary64 v1)));
  (569, (bind get_flags (fun v1 => ret (N.eqb v1 undefined_operation_bit))));
  (570, clear_flags);
  (572, (bind (@text_to_interval binary64 (txt "[ Empty  ]_ill")) (fun v1 => @is_empty binary64 v1)));
  (573, (bind get_flags (fun v1 => ret (N.eqb v1 undefined_operation_bit))));
  (574, clear_flags);
  (576, (bind (@text_to_interval binary64 (txt "[  ]_com")) (fun v1 => @is_empty binary64 v1)));
  (577, (bind get_flags (fun v1 => ret (N.eqb v1 undefined_operation_bit))));
  (578, clear_flags);
  (580, (bind (@text_to_interval binary64 (txt "[,]_com")) (fun v1 => @is_empty binary64 v1)));
  (581, (bind get_flags (fun v1 => ret (N.eqb v1 undefined_operation_bit))));
  (582, clear_flags);
  (584, (bind (@text_to_interval binary64 (txt "[   Entire ]_com")) (fun v1 => @is_empty binary64 v1)));
  (585, (bind get_flags (fun v1 => ret (N.eqb v1 undefined_operation_bit))));
  (586, clear_flags);
  (588, (bind (@text_to_interval binary64 (txt "[ -inf ,  INF ]_com")) (fun v1 => @is_empty binary64 v1)));
  (589, (bind get_flags (fun v1 => ret (N.eqb v1 undefined_operation_bit))));
  (590, clear_flags);
  (592, (bind (@text_to_interval binary64 (txt "[  -1.0  , 1.0]_ill")) (fun v1 => @is_empty binary64 v1)));
  (593, (bind get_flags (fun v1 => ret (N.eqb v1 undefined_operation_bit))));
  (594, clear_flags);
  (596, (bind (@text_to_interval binary64 (txt "[  -1.0  , 1.0]_fooo")) (fun v1 => @is_empty binary64 v1)));
  (597, (bind get_flags (fun v1 => ret (N.eqb v1 undefined_operation_bit))));
  (598, clear_flags);
  (600, (bind (@text_to_interval binary64 (txt "[  -1.0  , 1.0]_da c")) (fun v1 => @is_empty binary64 v1)));
  (601, (bind get_flags (fun v1 => ret (N.eqb v1 undefined_operation_bit))));
  (602, clear_flags);
  (604, (bind (@text_to_interval binary64 (txt "[-1.0,]_com")) (fun v1 => @is_empty binary64 v1)));
  (605, (bind get_flags (fun v1 => ret (N.eqb v1 undefined_operation_bit))));
  (606, clear_flags);
  (608, (bind (@text_to_interval binary64 (txt "[-Inf, 1.000 ]_ill")) (fun v1 => @is_empty binary64 v1)));
  (609, (bind get_flags (fun v1 => ret (N.eqb v1 undefined_operation_bit))));
  (610, clear_flags);
  (612, (bind (@text_to_interval binary64 (txt "[ 1/-10, 1/10 ]_com")) (fun v1 => @is_empty binary64 v1)));
  (613, (bind get_flags (fun v1 => ret (N.eqb v1 undefined_operation_bit))));
  (614, clear_flags);
  (616, (bind (@text_to_interval binary64 (txt "[-I  nf, 1.000 ]")) (fun v1 => @is_empty binary64 v1)));
  (617, (bind get_flags (fun v1 => ret (N.eqb v1 undefined_operation_bit))));
  (618, clear_flags);
  (620, (bind (@text_to_interval binary64 (txt "[-Inf, 1.0  00 ]")) (fun v1 => @is_empty binary64 v1)));
  (621, (bind get_flags (fun v1 => ret (N.eqb v1 undefined_operation_bit))));
  (622, clear_flags);
  (624, (bind (@text_to_interval binary64 (txt "[-Inf ]")) (fun v1 => @is_empty binary64 v1)));
  (625, (bind get_flags (fun v1 => ret (N.eqb v1 undefined_operation_bit))));
  (626, clear_flags);
  (628, (bind (@text_to_interval binary64 (txt "[Inf , INF]")) (fun v1 => @is_empty binary64 v1)));
  (629, (bind get_flags (fun v1 => ret (N.eqb v1 undefined_operation_bit))));
  (630, clear_flags);
  (632, (bind (@text_to_interval binary64 (txt "[ foo ]")) (fun v1 => @is_empty binary64 v1)));
  (633, (bind get_flags (fun v1 => ret (N.eqb v1 undefined_operation_bit))));
  (634, clear_flags);
  (636, (bind (@text_to_interval binary64 (txt "0.0??_com")) (fun v1 => @is_empty binary64 v1)));
  (637, (bind get_flags (fun v1 => ret (N.eqb v1 undefined_operation_bit))));
  (638, clear_flags);
  (640, (bind (@text_to_interval binary64 (txt "0.0??u_ill")) (fun v1 => @is_empty binary64 v1)));
  (641, (bind get_flags (fun v1 => ret (N.eqb v1 undefined_operation_bit))));
  (642, clear_flags);
  (644, (bind (@text_to_interval binary64 (txt "0.0??d_com")) (fun v1 => @is_empty binary64 v1)));
  (645, (bind get_flags (fun v1 => ret (N.eqb v1 undefined_operation_bit))));
  (646, clear_flags);
  (648, (bind (@text_to_interval binary64 (txt "[1.0000000000000002,1.0000000000000001]")) (fun v1 => @is_empty binary64 v1)));
  (649, (bind get_flags (fun v1 => ret (N.eqb v1 undefined_operation_bit))));
  (650, clear_flags);
  (652, (bind (@text_to_interval binary64 (txt "[10000000000000001/10000000000000000,10000000000000002/10000000000000001]")) (fun v1 => @is_empty binary64 v1)));
  (653, (bind get_flags (fun v1 => ret (N.eqb v1 undefined_operation_bit))));
  (654, clear_flags);
  (656, (bind (@text_to_interval binary64 (txt "[0x1.00000000000002p0,0x1.00000000000001p0]")) (fun v1 => @is_empty binary64 v1)));
  (657, (bind get_flags (fun v1 => ret (N.eqb v1 undefined_operation_bit))))].

(** lines 660-839 *)
Definition minimal_text_to_decorated_interval_test : list (N * M bool) := [
  (662, clear_flags);
  (664, (bind (@text_to_decorated_interval binary64 (txt "[ Empty  ]")) (fun v1 => @is_empty_dec binary64 v1)));
  (665, (bind (@text_to_decorated_interval binary64 (txt "[ Empty  ]_trv")) (fun v1 => @is_empty_dec binary64 v1)));
  (666, (bind (@text_to_decorated_interval binary64 (txt "[  ]")) (fun v1 => @is_empty_dec binary64 v1)));
  (667, (bind (@text_to_decorated_interval binary64 (txt "[  ]_trv")) (fun v1 => @is_empty_dec binary64 v1)));
  (669, (bind (@text_to_decorated_interval binary64 (txt "[,]")) (fun v1 => ret (dieq v1 (((@fminf binary64), (@finf binary64)), dac)))));
  (670, (bind (@text_to_decorated_interval binary64 (txt "[,]_trv")) (fun v1 => ret (dieq v1 (((@fminf binary64), (@finf binary64)), trv)))));
  (671, (bind (@text_to_decorated_interval binary64 (txt "[ entire  ]")) (fun v1 => ret (dieq v1 (@entire_dec binary64)))));
  (672, (bind (@text_to_decorated_interval binary64 (txt "[ ENTIRE ]_dac")) (fun v1 => ret (dieq v1 (((@fminf binary64), (@finf binary64)), dac)))));
  (673, (bind (@text_to_decorated_interval binary64 (txt "[ -inf , INF  ]")) (fun v1 => ret (dieq v1 (@entire_dec binary64)))));
  (674, (bind (@text_to_decorated_interval binary64 (txt "[ -inf, INF ]_def")) (fun v1 => ret (dieq v1 (((@fminf binary64), (@finf binary64)), def)))));
  (676, (bind (@text_to_decorated_interval binary64 (txt "[-1.0,1.0]")) (fun v1 => ret (dieq v1 (((fl binary64 (-1) (0)), (fl binary64 (1) (0))), com)))));
  (677, (bind (@text_to_decorated_interval binary64 (txt "[  -1.0  ,  1.0  ]_com")) (fun v1 => ret (dieq v1 (((fl binary64 (-1) (0)), (fl binary64 (1) (0))), com)))));
  (678, (bind (@text_to_decorated_interval binary64 (txt "[  -1.0  , 1.0]_trv")) (fun v1 => ret (dieq v1 (((fl binary64 (-1) (0)), (fl binary64 (1) (0))), trv)))));
  (680, (bind (@text_to_decorated_interval binary64 (txt "[-1,]")) (fun v1 => ret (dieq v1 (((fl binary64 (-1) (0)), (@finf binary64)), dac)))));
  (681, (bind (@text_to_decorated_interval binary64 (txt "[-1.0, +inf]_def")) (fun v1 => ret (dieq v1 (((fl binary64 (-1) (0)), (@finf binary64)), def)))));
  (682, (bind (@text_to_decorated_interval binary64 (txt "[-1.0, +infinity]_def")) (fun v1 => ret (dieq v1 (((fl binary64 (-1) (0)), (@finf binary64)), def)))));
  (684, (bind (@text_to_decorated_interval binary64 (txt "[-Inf, 1.000 ]")) (fun v1 => ret (dieq v1 (((@fminf binary64), (fl binary64 (1) (0))), dac)))));
  (685, (bind (@text_to_decorated_interval binary64 (txt "[-Infinity, 1.000 ]_trv")) (fun v1 => ret (dieq v1 (((@fminf binary64), (fl binary64 (1) (0))), trv)))));
  (687, (bind (@text_to_decorated_interval binary64 (txt "[1.0E+400 ]_com")) (fun v1 => ret (dieq v1 (((fl binary64 (9007199254740991) (971)), (@finf binary64)), dac)))));
  (689, (bind (@text_to_decorated_interval binary64 (txt "[ -4/2, 10/5 ]_com")) (fun v1 => ret (dieq v1 (((fl binary64 (-1) (1)), (fl binary64 (1) (1))), com)))));
  (690, (bind (@text_to_decorated_interval binary64 (txt "[ -1/10, 1/10 ]_com")) (fun v1 => ret (dieq v1 (((fl binary64 (-3602879701896397) (-55)), (fl binary64 (3602879701896397) (-55))), com)))));
  (692, (bind (@text_to_decorated_interval binary64 (txt "0.0?")) (fun v1 => ret (dieq v1 (((fl binary64 (-3602879701896397) (-56)), (fl binary64 (3602879701896397) (-56))), com)))));
  (693, (bind (@text_to_decorated_interval binary64 (txt "0.0?u_trv")) (fun v1 => ret (dieq v1 (((@f0 binary64), (fl binary64 (3602879701896397) (-56))), trv)))));
  (694, (bind (@text_to_decorated_interval binary64 (txt "0.0?d_dac")) (fun v1 => ret (dieq v1 (((fl binary64 (-3602879701896397) (-56)), (@f0 binary64)), dac)))));
  (696, (bind (@text_to_decorated_interval binary64 (txt "2.5?")) (fun v1 => ret (dieq v1 (((fl binary64 (5516909543528857) (-51)), (fl binary64 (5742089524897383) (-51))), com)))));
  (697, (bind (@text_to_decorated_interval binary64 (txt "2.5?u")) (fun v1 => ret (dieq v1 (((fl binary64 (5) (-1)), (fl binary64 (5742089524897383) (-51))), com)))));
  (698, (bind (@text_to_decorated_interval binary64 (txt "2.5?d_trv")) (fun v1 => ret (dieq v1 (((fl binary64 (5516909543528857) (-51)), (fl binary64 (5) (-1))), trv)))));
  (700, (bind (@text_to_decorated_interval binary64 (txt "0.000?5")) (fun v1 => ret (dieq v1 (((fl binary64 (-5764607523034235) (-60)), (fl binary64 (5764607523034235) (-60))), com)))));
  (701, (bind (@text_to_decorated_interval binary64 (txt "0.000?5u_def")) (fun v1 => ret (dieq v1 (((@f0 binary64), (fl binary64 (5764607523034235) (-60))), def)))));
  (702, (bind (@text_to_decorated_interval binary64 (txt "0.000?5d")) (fun v1 => ret (dieq v1 (((fl binary64 (-5764607523034235) (-60)), (@f0 binary64)), com)))));
  (704, (bind (@text_to_decorated_interval binary64 (txt "2.500?5")) (fun v1 => ret (dieq v1 (((fl binary64 (5618240535144693) (-51)), (fl binary64 (5640758533281547) (-51))), com)))));
  (705, (bind (@text_to_decorated_interval binary64 (txt "2.500?5u")) (fun v1 => ret (dieq v1 (((fl binary64 (5) (-1)), (fl binary64 (5640758533281547) (-51))), com)))));
  (706, (bind (@text_to_decorated_interval binary64 (txt "2.500?5d")) (fun v1 => ret (dieq v1 (((fl binary64 (5618240535144693) (-51)), (fl binary64 (5) (-1))), com)))));
  (708, (bind (@text_to_decorated_interval binary64 (txt "0.0??_dac")) (fun v1 => ret (dieq v1 (((@fminf binary64), (@finf binary64)), dac)))));
  (709, (bind (@text_to_decorated_interval binary64 (txt "0.0??u_trv")) (fun v1 => ret (dieq v1 (((@f0 binary64), (@finf binary64)), trv)))));
  (710, (bind (@text_to_decorated_interval binary64 (txt "0.0??d")) (fun v1 => ret (dieq v1 (((@fminf binary64), (@f0 binary64)), dac)))));
  (712, (bind (@text_to_decorated_interval binary64 (txt "2.5??")) (fun v1 => ret (dieq v1 (((@fminf binary64), (@finf binary64)), dac)))));
  (713, (bind (@text_to_decorated_interval binary64 (txt "2.5??u_def")) (fun v1 => ret (dieq v1 (((fl binary64 (5) (-1)), (@finf binary64)), def)))));
  (714, (bind (@text_to_decorated_interval binary64 (txt "2.5??d_dac")) (fun v1 => ret (dieq v1 (((@fminf binary64), (fl binary64 (5) (-1))), dac)))));
  (716, (bind (@text_to_decorated_interval binary64 (txt "2.500?5e+27")) (fun v1 => ret (dieq v1 (((fl binary64 (4538378561846911) (39)), (fl binary64 (4556568455882371) (39))), com)))));
  (717, (bind (@text_to_decorated_interval binary64 (txt "2.500?5ue4_def")) (fun v1 => ret (dieq v1 (((fl binary64 (3125) (3)), (fl binary64 (12525) (1))), def)))));
  (718, (bind (@text_to_decorated_interval binary64 (txt "2.500?5de-5")) (fun v1 => ret (dieq v1 (((fl binary64 (7363940234224853) (-68)), (fl binary64 (7378697629483821) (-68))), com)))));
  (720, (bind (@text_to_decorated_interval binary64 (txt "[ Nai  ]")) (fun v1 => @is_nai binary64 v1)));
  (725, (bind (@text_to_decorated_interval binary64 (txt "10?1800000000000000000000000000000000000000000000000000000000000000000000000000000000000000000000000000000000000000000000000000000000000000000000000000000000000000000000000000000000000000000000000000000000000000000000000000000000000000000000000000000000000000000000000000000000000000000000000000000000000000000000_com")) (fun v1 => ret (dieq v1 (((@fminf binary64), (@finf binary64)), dac)))));
  (727, (bind (@text_to_decorated_interval binary64 (txt "10?3_com")) (fun v1 => ret (dieq v1 (((fl binary64 (7) (0)), (fl binary64 (13) (0))), com)))));
  (728, (bind (@text_to_decorated_interval binary64 (txt "10?3e380_com")) (fun v1 => ret (dieq v1 (((fl binary64 (9007199254740991) (971)), (@finf binary64)), dac)))));
  (731, (bind get_flags (fun v1 => ret (N.eqb v1 none_bit))));
  (734, (bind (@text_to_decorated_interval binary64 (txt "[ Nai  ]_ill")) (fun v1 => @is_nai binary64 v1)));
  (735, (bind get_flags (fun v1 => ret (N.eqb v1 undefined_operation_bit))));
  (736, clear_flags);
  (738, (bind (@text_to_decorated_interval binary64 (txt "[ Nai  ]_trv")) (fun v1 => @is_nai binary64 v1)));
  (739, (bind get_flags (fun v1 => ret (N.eqb v1 undefined_operation_bit))));
  (740, clear_flags);
  (742, (bind (@text_to_decorated_interval binary64 (txt "[ Empty  ]_ill")) (fun v1 => @is_nai binary64 v1)));
  (743, (bind get_flags (fun v1 => ret (N.eqb v1 undefined_operation_bit))));
  (744, clear_flags);
  (746, (bind (@text_to_decorated_interval binary64 (txt "[  ]_com")) (fun v1 => @is_nai binary64 v1)));
  (747, (bind get_flags (fun v1 => ret (N.eqb v1 undefined_operation_bit))));
  (748, clear_flags);
  (750, (bind (@text_to_decorated_interval binary64 (txt "[,]_com")) (fun v1 => @is_nai binary64 v1)));
  (751, (bind get_flags (fun v1 => ret (N.eqb v1 undefined_operation_bit))));
  (752, clear_flags);
  (754, (bind (@text_to_decorated_interval binary64 (txt "[   Entire ]_com")) (fun v1 => @is_nai binary64 v1)));
  (755, (bind get_flags (fun v1 => ret (N.eqb v1 undefined_operation_bit))));
  (756, clear_flags);
  (758, (bind (@text_to_decorated_interval binary64 (txt "[ -inf ,  INF ]_com")) (fun v1 => @is_nai binary64 v1)));
  (759, (bind get_flags (fun v1 => ret (N.eqb v1 undefined_operation_bit))));
  (760, clear_flags);
  (762, (bind (@text_to_decorated_interval binary64 (txt "[  -1.0  , 1.0]_ill")) (fun v1 => @is_nai binary64 v1)));
  (763, (bind get_flags (fun v1 => ret (N.eqb v1 undefined_operation_bit))));
  (764, clear_flags);
  (766, (bind (@text_to_decorated_interval binary64 (txt "[  -1.0  , 1.0]_fooo")) (fun v1 => @is_nai binary64 v1)));
  (767, (bind get_flags (fun v1 => ret (N.eqb v1 undefined_operation_bit))));
  (768, clear_flags);
  (770, (bind (@text_to_decorated_interval binary64 (txt "[  -1.0  , 1.0]_da c")) (fun v1 => @is_nai binary64 v1)));
  (771, (bind get_flags (fun v1 => ret (N.eqb v1 undefined_operation_bit))));
  (772, clear_flags);
  (774, (bind (@text_to_decorated_interval binary64 (txt "[-1.0,]_com")) (fun v1 => @is_nai binary64 v1)));
  (775, (bind get_flags (fun v1 => ret (N.eqb v1 undefined_operation_bit))));
  (776, clear_flags);
  (778, (bind (@text_to_decorated_interval binary64 (txt "[-Inf, 1.000 ]_ill")) (fun v1 => @is_nai binary64 v1)));
  (779, (bind get_flags (fun v1 => ret (N.eqb v1 undefined_operation_bit))));
  (780, clear_flags);
  (782, (bind (@text_to_decorated_interval binary64 (txt "[ 1/-10, 1/10 ]_com")) (fun v1 => @is_nai binary64 v1)));
  (783, (bind get_flags (fun v1 => ret (N.eqb v1 undefined_operation_bit))));
  (784, clear_flags);
  (786, (bind (@text_to_decorated_interval binary64 (txt "[-I  nf, 1.000 ]")) (fun v1 => @is_nai binary64 v1)));
  (787, (bind get_flags (fun v1 => ret (N.eqb v1 undefined_operation_bit))));
  (788, clear_flags);
  (790, (bind (@text_to_decorated_interval binary64 (txt "[-Inf, 1.0  00 ]")) (fun v1 => @is_nai binary64 v1)));
  (791, (bind get_flags (fun v1 => ret (N.eqb v1 undefined_operation_bit))));
  (792, clear_flags);
  (794, (bind (@text_to_decorated_interval binary64 (txt "[-Inf ]")) (fun v1 => @is_nai binary64 v1)));
  (795, (bind get_flags (fun v1 => ret (N.eqb v1 undefined_operation_bit))));
  (796, clear_flags);
  (798, (bind (@text_to_decorated_interval binary64 (txt "[Inf , INF]")) (fun v1 => @is_nai binary64 v1)));
  (799, (bind get_flags (fun v1 => ret (N.eqb v1 undefined_operation_bit))));
  (800, clear_flags);
  (802, (bind (@text_to_decorated_interval binary64 (txt "[ foo ]")) (fun v1 => @is_nai binary64 v1)));
  (803, (bind get_flags (fun v1 => ret (N.eqb v1 undefined_operation_bit))));
  (804, clear_flags);
  (806, (bind (@text_to_decorated_interval binary64 (txt "0.0??_com")) (fun v1 => @is_nai binary64 v1)));
  (807, (bind get_flags (fun v1 => ret (N.eqb v1 undefined_operation_bit))));
  (808, clear_flags);
  (810, (bind (@text_to_decorated_interval binary64 (txt "0.0??u_ill")) (fun v1 => @is_nai binary64 v1)));
  (811, (bind get_flags (fun v1 => ret (N.eqb v1 undefined_operation_bit))));
  (812, clear_flags);
  (814, (bind (@text_to_decorated_interval binary64 (txt "0.0??d_com")) (fun v1 => @is_nai binary64 v1)));
  (815, (bind get_flags (fun v1 => ret (N.eqb v1 undefined_operation_bit))));
  (817, (bind (@text_to_decorated_interval binary64 (txt "0.0??_com")) (fun v1 => @is_nai binary64 v1)));
  (818, (bind get_flags (fun v1 => ret (N.eqb v1 undefined_operation_bit))));
  (819, clear_flags);
  (821, (bind (@text_to_decorated_interval binary64 (txt "5.0")) (fun v1 => @is_nai binary64 v1)));
  (822, (bind get_flags (fun v1 => ret (N.eqb v1 undefined_operation_bit))));
  (823, clear_flags);
  (825, (bind (@text_to_decorated_interval binary64 (txt "[1.0,2.0")) (fun v1 => @is_nai binary64 v1)));
  (826, (bind get_flags (fun v1 => ret (N.eqb v1 undefined_operation_bit))));
  (827, clear_flags);
  (829, (bind (@text_to_decorated_interval binary64 (txt "[1.0000000000000002,1.0000000000000001]")) (fun v1 => @is_nai binary64 v1)));
  (830, (bind get_flags (fun v1 => ret (N.eqb v1 undefined_operation_bit))));
  (831, clear_flags);
  (833, (bind (@text_to_decorated_interval binary64 (txt "[10000000000000001/10000000000000000,10000000000000002/10000000000000001]")) (fun v1 => @is_nai binary64 v1)));
  (834, (bind get_flags (fun v1 => ret (N.eqb v1 undefined_operation_bit))));
  (835, clear_flags);
  (837, (bind (@text_to_decorated_interval binary64 (txt "[0x1.00000000000002p0,0x1.00000000000001p0]")) (fun v1 => @is_nai binary64 v1)));
  (838, (bind get_flags (fun v1 => ret (N.eqb v1 undefined_operation_bit))))].

(** lines 842-879 *)
Definition minimal_copy_test : list (N * M bool) := [
  (844, clear_flags);
  (846, (bind (@copy binary64 ((fl binary64 (-3602879824865869) (-47)), (fl binary64 (7205759403792793) (-56)))) (fun v1 => ret (ieq v1 ((fl binary64 (-3602879824865869) (-47)), (fl binary64 (7205759403792793) (-56)))))));
  (847, (bind (@copy binary64 ((fl binary64 (-6710887) (-18)), (fl binary64 (7205759403792793) (-56)))) (fun v1 => ret (ieq v1 ((fl binary64 (-6710887) (-18)), (fl binary64 (7205759403792793) (-56)))))));
  (848, (bind (@copy binary64 ((fl binary64 (-3602879824865869) (-47)), (fl binary64 (13421773) (-27)))) (fun v1 => ret (ieq v1 ((fl binary64 (-3602879824865869) (-47)), (fl binary64 (13421773) (-27)))))));
  (849, (bind (@copy binary64 ((fl binary64 (-6710887) (-18)), (fl binary64 (13421773) (-27)))) (fun v1 => ret (ieq v1 ((fl binary64 (-6710887) (-18)), (fl binary64 (13421773) (-27)))))));
  (850, (bind (@copy binary64 ((fl binary64 (-1) (-1074)), (fl binary64 (-1) (-1074)))) (fun v1 => ret (ieq v1 ((fl binary64 (-1) (-1074)), (fl binary64 (-1) (-1074)))))));
  (851, (bind (@copy binary64 ((fl binary64 (-1) (-1074)), (fl binary64 (1) (-1074)))) (fun v1 => ret (ieq v1 ((fl binary64 (-1) (-1074)), (fl binary64 (1) (-1074)))))));
  (852, (bind (@copy binary64 ((fl binary64 (1) (-1074)), (fl binary64 (1) (-1074)))) (fun v1 => ret (ieq v1 ((fl binary64 (1) (-1074)), (fl binary64 (1) (-1074)))))));
  (853, (bind (@copy binary64 ((fl binary64 (-9007199254740991) (971)), (fl binary64 (-9007199254740991) (971)))) (fun v1 => ret (ieq v1 ((fl binary64 (-9007199254740991) (971)), (fl binary64 (-9007199254740991) (971)))))));
  (854, (bind (@copy binary64 ((fl binary64 (-9007199254740991) (971)), (fl binary64 (9007199254740991) (971)))) (fun v1 => ret (ieq v1 ((fl binary64 (-9007199254740991) (971)), (fl binary64 (9007199254740991) (971)))))));
  (855, (bind (@copy binary64 ((fl binary64 (9007199254740991) (971)), (fl binary64 (9007199254740991) (971)))) (fun v1 => ret (ieq v1 ((fl binary64 (9007199254740991) (971)), (fl binary64 (9007199254740991) (971)))))));
  (856, (bind (@copy binary64 ((@fminf binary64), (@finf binary64))) (fun v1 => ret (ieq v1 ((@fminf binary64), (@finf binary64))))));
  (857, (bind (@copy binary64 ((@fnan binary64), (@fnan binary64))) (fun v1 => @is_empty binary64 v1)));
  (859, (bind get_flags (fun v1 => ret (N.eqb v1 none_bit))));
  (861, (bind (@copy binary64 ((fl binary64 (7) (0)), (@fnan binary64))) (fun v1 => @is_empty binary64 v1)));
  (862, (bind get_flags (fun v1 => ret (N.eqb v1 invalid_operand_bit))));
  (863, clear_flags);
  (864, (bind (@copy binary64 ((fl binary64 (7) (0)), (fl binary64 (-3) (0)))) (fun v1 => @is_empty binary64 v1)));
  (865, (bind get_flags (fun v1 => ret (N.eqb v1 invalid_operand_bit))));
  (866, clear_flags);
  (867, (bind (@copy binary64 ((@fminf binary64), (@fminf binary64))) (fun v1 => @is_empty binary64 v1)));
  (868, (bind get_flags (fun v1 => ret (N.eqb v1 invalid_operand_bit))));
  (869, clear_flags);
  (870, (bind (@copy binary64 ((@finf binary64), (@finf binary64))) (fun v1 => @is_empty binary64 v1)));
  (871, (bind get_flags (fun v1 => ret (N.eqb v1 invalid_operand_bit))));
  (872, clear_flags);
  (874, (set_cwd invalid_operand_bit));
  (875, (throws (@copy binary64 ((fl binary64 (7) (0)), (fl binary64 (-3) (0)))) Invalid_operand_exception));
  (876, (bind get_flags (fun v1 => ret (N.eqb v1 invalid_operand_bit))));
  (877, clear_flags);
  (878, (set_cwd none_bit))].

(** lines 881-919 *)
Definition minimal_copy_dec_test : list (N * M bool) := [
  (883, clear_flags);
  (885, (bind (@copy_dec binary64 (((fl binary64 (-3602879824865869) (-47)), (fl binary64 (7205759403792793) (-56))), trv)) (fun v1 => ret (dieq v1 (((fl binary64 (-3602879824865869) (-47)), (fl binary64 (7205759403792793) (-56))), trv)))));
  (886, (bind (@copy_dec binary64 (((fl binary64 (-6710887) (-18)), (fl binary64 (7205759403792793) (-56))), com)) (fun v1 => ret (dieq v1 (((fl binary64 (-6710887) (-18)), (fl binary64 (7205759403792793) (-56))), com)))));
  (887, (bind (@copy_dec binary64 (((fl binary64 (-3602879824865869) (-47)), (fl binary64 (13421773) (-27))), dac)) (fun v1 => ret (dieq v1 (((fl binary64 (-3602879824865869) (-47)), (fl binary64 (13421773) (-27))), dac)))));
  (888, (bind (@copy_dec binary64 (((fl binary64 (-6710887) (-18)), (fl binary64 (13421773) (-27))), def)) (fun v1 => ret (dieq v1 (((fl binary64 (-6710887) (-18)), (fl binary64 (13421773) (-27))), def)))));
  (889, (bind (@copy_dec binary64 (((fl binary64 (-1) (-1074)), (fl binary64 (-1) (-1074))), trv)) (fun v1 => ret (dieq v1 (((fl binary64 (-1) (-1074)), (fl binary64 (-1) (-1074))), trv)))));
  (890, (bind (@copy_dec binary64 (((fl binary64 (-1) (-1074)), (fl binary64 (1) (-1074))), trv)) (fun v1 => ret (dieq v1 (((fl binary64 (-1) (-1074)), (fl binary64 (1) (-1074))), trv)))));
  (891, (bind (@copy_dec binary64 (((fl binary64 (1) (-1074)), (fl binary64 (1) (-1074))), trv)) (fun v1 => ret (dieq v1 (((fl binary64 (1) (-1074)), (fl binary64 (1) (-1074))), trv)))));
  (892, (bind (@copy_dec binary64 (((fl binary64 (-9007199254740991) (971)), (fl binary64 (-9007199254740991) (971))), trv)) (fun v1 => ret (dieq v1 (((fl binary64 (-9007199254740991) (971)), (fl binary64 (-9007199254740991) (971))), trv)))));
  (893, (bind (@copy_dec binary64 (((fl binary64 (-9007199254740991) (971)), (fl binary64 (9007199254740991) (971))), trv)) (fun v1 => ret (dieq v1 (((fl binary64 (-9007199254740991) (971)), (fl binary64 (9007199254740991) (971))), trv)))));
  (894, (bind (@copy_dec binary64 (((fl binary64 (9007199254740991) (971)), (fl binary64 (9007199254740991) (971))), trv)) (fun v1 => ret (dieq v1 (((fl binary64 (9007199254740991) (971)), (fl binary64 (9007199254740991) (971))), trv)))));
  (895, (bind (@copy_dec binary64 (((@fminf binary64), (@finf binary64)), trv)) (fun v1 => ret (dieq v1 (((@fminf binary64), (@finf binary64)), trv)))));
  (896, (bind (@copy_dec binary64 (((@fnan binary64), (@fnan binary64)), trv)) (fun v1 => @is_empty_dec binary64 v1)));
  (897, (bind (@copy_dec binary64 (((fl binary64 (-6710887) (-18)), (fl binary64 (7205759403792793) (-56))), com)) (fun v1 => ret (dieq v1 (((fl binary64 (-6710887) (-18)), (fl binary64 (7205759403792793) (-56))), com)))));
  (899, (bind get_flags (fun v1 => ret (N.eqb v1 none_bit))));
  (901, (bind (@copy_dec binary64 (((fl binary64 (7) (0)), (@fnan binary64)), trv)) (fun v1 => @is_nai binary64 v1)));
  (902, (bind get_flags (fun v1 => ret (N.eqb v1 invalid_operand_bit))));
  (903, clear_flags);
  (904, (bind (@copy_dec binary64 (((fl binary64 (7) (0)), (fl binary64 (-3) (0))), def)) (fun v1 => @is_nai binary64 v1)));
  (905, (bind get_flags (fun v1 => ret (N.eqb v1 invalid_operand_bit))));
  (906, clear_flags);
  (907, (bind (@copy_dec binary64 (((@fminf binary64), (@fminf binary64)), com)) (fun v1 => @is_nai binary64 v1)));
  (908, (bind get_flags (fun v1 => ret (N.eqb v1 invalid_operand_bit))));
  (909, clear_flags);
  (910, (bind (@copy_dec binary64 (((@finf binary64), (@finf binary64)), dac)) (fun v1 => @is_nai binary64 v1)));
  (911, (bind get_flags (fun v1 => ret (N.eqb v1 invalid_operand_bit))));
  (912, clear_flags);
  (914, (set_cwd invalid_operand_bit));
  (915, (throws (@copy_dec binary64 (((fl binary64 (-7) (0)), (fl binary64 (-3) (0))), ill)) Invalid_operand_exception));
  (916, (bind get_flags (fun v1 => ret (N.eqb v1 invalid_operand_bit))));
  (917, clear_flags);
  (918, (set_cwd none_bit))].

(** lines 921-968 *)
Definition minimal_convert_type_test : list (N * M bool) := [
  (923, clear_flags);
  (925, (bind (@convert_type binary64 binary32 ((fl binary64 (-3602879824865869) (-47)), (fl binary64 (7205759403792793) (-56)))) (fun v1 => ret (ieq v1 ((fl binary32 (-6710887) (-18)), (fl binary32 (13421773) (-27)))))));
  (926, (bind (@convert_type binary64 binary32 ((fl binary64 (-6710887) (-18)), (fl binary64 (7205759403792793) (-56)))) (fun v1 => ret (ieq v1 ((fl binary32 (-6710887) (-18)), (fl binary32 (13421773) (-27)))))));
  (927, (bind (@convert_type binary64 binary32 ((fl binary64 (-3602879824865869) (-47)), (fl binary64 (13421773) (-27)))) (fun v1 => ret (ieq v1 ((fl binary32 (-6710887) (-18)), (fl binary32 (13421773) (-27)))))));
  (928, (bind (@convert_type binary64 binary32 ((fl binary64 (-6710887) (-18)), (fl binary64 (13421773) (-27)))) (fun v1 => ret (ieq v1 ((fl binary32 (-6710887) (-18)), (fl binary32 (13421773) (-27)))))));
  (929, (bind (@convert_type binary32 binary64 ((fl binary32 (-6710887) (-18)), (fl binary32 (13421773) (-27)))) (fun v1 => ret (ieq v1 ((fl binary64 (-6710887) (-18)), (fl binary64 (13421773) (-27)))))));
  (930, (bind (@convert_type binary64 binary32 ((fl binary64 (-1) (-1074)), (fl binary64 (-1) (-1074)))) (fun v1 => ret (ieq v1 ((fl binary32 (-1) (-149)), (@f0 binary32))))));
  (931, (mnot (bind (bind (@convert_type binary64 binary32 ((fl binary64 (-1) (-1074)), (fl binary64 (-1) (-1074)))) (fun v1 => ret (snd v1))) (fun v2 => ret (fsign v2)))));
  (932, (bind (@convert_type binary64 binary32 ((fl binary64 (-1) (-1074)), (fl binary64 (1) (-1074)))) (fun v1 => ret (ieq v1 ((fl binary32 (-1) (-149)), (fl binary32 (1) (-149)))))));
  (933, (bind (@convert_type binary64 binary32 ((fl binary64 (1) (-1074)), (fl binary64 (1) (-1074)))) (fun v1 => ret (ieq v1 ((@fm0 binary32), (fl binary32 (1) (-149)))))));
  (934, (bind (bind (@convert_type binary64 binary32 ((fl binary64 (1) (-1074)), (fl binary64 (1) (-1074)))) (fun v1 => ret (fst v1))) (fun v2 => ret (fsign v2))));
  (935, (bind (@convert_type binary32 binary64 ((fl binary32 (1) (-149)), (fl binary32 (1) (-149)))) (fun v1 => ret (ieq v1 ((fl binary64 (1) (-149)), (fl binary64 (1) (-149)))))));
  (936, (bind (@convert_type binary64 binary32 ((fl binary64 (-9007199254740991) (971)), (fl binary64 (-9007199254740991) (971)))) (fun v1 => ret (ieq v1 ((@fminf binary32), (fl binary32 (-16777215) (104)))))));
  (937, (bind (@convert_type binary64 binary32 ((fl binary64 (-9007199254740991) (971)), (fl binary64 (9007199254740991) (971)))) (fun v1 => ret (ieq v1 ((@fminf binary32), (@finf binary32))))));
  (938, (bind (@convert_type binary64 binary32 ((fl binary64 (9007199254740991) (971)), (fl binary64 (9007199254740991) (971)))) (fun v1 => ret (ieq v1 ((fl binary32 (16777215) (104)), (@finf binary32))))));
  (939, (bind (@convert_type binary32 binary64 ((fl binary32 (16777215) (104)), (fl binary32 (16777215) (104)))) (fun v1 => ret (ieq v1 ((fl binary64 (16777215) (104)), (fl binary64 (16777215) (104)))))));
  (940, (bind (@convert_type binary64 binary32 ((@fminf binary64), (@finf binary64))) (fun v1 => ret (ieq v1 ((@fminf binary32), (@finf binary32))))));
  (941, (bind (@convert_type binary32 binary64 ((@fminf binary32), (@finf binary32))) (fun v1 => ret (ieq v1 ((@fminf binary64), (@finf binary64))))));
  (942, (bind (@convert_type binary64 binary32 ((@fnan binary64), (@fnan binary64))) (fun v1 => @is_empty binary32 v1)));
  (943, (bind (@convert_type binary32 binary64 ((@fnan binary32), (@fnan binary32))) (fun v1 => @is_empty binary64 v1)));
  (945, (bind get_flags (fun v1 => ret (N.eqb v1 none_bit))));
  (947, (bind (@convert_type binary64 binary32 ((fl binary64 (-1) (-1074)), (fl binary64 (-1) (-149)))) (fun v1 => @is_empty binary32 v1)));
  (948, (bind get_flags (fun v1 => ret (N.eqb v1 invalid_operand_bit))));
  (949, clear_flags);
  (950, (bind (@convert_type binary64 binary32 ((fl binary64 (7) (0)), (@fnan binary64))) (fun v1 => @is_empty binary32 v1)));
  (951, (bind get_flags (fun v1 => ret (N.eqb v1 invalid_operand_bit))));
  (952, clear_flags);
  (953, (bind (@convert_type binary64 binary32 ((fl binary64 (7) (0)), (fl binary64 (-3) (0)))) (fun v1 => @is_empty binary32 v1)));
  (954, (bind get_flags (fun v1 => ret (N.eqb v1 invalid_operand_bit))));
  (955, clear_flags);
  (956, (bind (@convert_type binary32 binary64 ((@fminf binary32), (@fminf binary32))) (fun v1 => @is_empty binary64 v1)));
  (957, (bind get_flags (fun v1 => ret (N.eqb v1 invalid_operand_bit))));
  (958, clear_flags);
  (959, (bind (@convert_type binary32 binary64 ((@finf binary32), (@finf binary32))) (fun v1 => @is_empty binary64 v1)));
  (960, (bind get_flags (fun v1 => ret (N.eqb v1 invalid_operand_bit))));
  (961, clear_flags);
  (963, (set_cwd invalid_operand_bit));
  (964, (throws (@convert_type binary64 binary32 ((fl binary64 (7) (0)), (fl binary64 (-3) (0)))) Invalid_operand_exception));
  (965, (bind get_flags (fun v1 => ret (N.eqb v1 invalid_operand_bit))));
  (966, clear_flags);
  (967, (set_cwd none_bit))].

(** lines 971-1027 *)
Definition minimal_convert_type_dec_test : list (N * M bool) := [
  (973, clear_flags);
  (975, (bind (@convert_type_dec binary64 binary32 (((fl binary64 (-3602879824865869) (-47)), (fl binary64 (7205759403792793) (-56))), trv)) (fun v1 => ret (dieq v1 (((fl binary32 (-6710887) (-18)), (fl binary32 (13421773) (-27))), trv)))));
  (976, (bind (@convert_type_dec binary64 binary32 (((fl binary64 (-6710887) (-18)), (fl binary64 (7205759403792793) (-56))), com)) (fun v1 => ret (dieq v1 (((fl binary32 (-6710887) (-18)), (fl binary32 (13421773) (-27))), com)))));
  (977, (bind (@convert_type_dec binary64 binary32 (((fl binary64 (-3602879824865869) (-47)), (fl binary64 (13421773) (-27))), dac)) (fun v1 => ret (dieq v1 (((fl binary32 (-6710887) (-18)), (fl binary32 (13421773) (-27))), dac)))));
  (978, (bind (@convert_type_dec binary64 binary32 (((fl binary64 (-6710887) (-18)), (fl binary64 (13421773) (-27))), def)) (fun v1 => ret (dieq v1 (((fl binary32 (-6710887) (-18)), (fl binary32 (13421773) (-27))), def)))));
  (979, (bind (@convert_type_dec binary32 binary64 (((fl binary32 (-6710887) (-18)), (fl binary32 (13421773) (-27))), trv)) (fun v1 => ret (dieq v1 (((fl binary64 (-6710887) (-18)), (fl binary64 (13421773) (-27))), trv)))));
  (981, (bind (@convert_type_dec binary64 binary32 (((fl binary64 (-1) (-1074)), (fl binary64 (-1) (-1074))), trv)) (fun v1 => ret (dieq v1 (((fl binary32 (-1) (-149)), (@f0 binary32)), trv)))));
  (982, (mnot (bind (bind (bind (@convert_type_dec binary64 binary32 (((fl binary64 (-1) (-1074)), (fl binary64 (-1) (-1074))), trv)) (fun v1 => ret (fst v1))) (fun v2 => ret (snd v2))) (fun v3 => ret (fsign v3)))));
  (983, (bind (@convert_type_dec binary64 binary32 (((fl binary64 (-1) (-1074)), (fl binary64 (1) (-1074))), trv)) (fun v1 => ret (dieq v1 (((fl binary32 (-1) (-149)), (fl binary32 (1) (-149))), trv)))));
  (984, (bind (@convert_type_dec binary64 binary32 (((fl binary64 (1) (-1074)), (fl binary64 (1) (-1074))), trv)) (fun v1 => ret (dieq v1 (((@fm0 binary32), (fl binary32 (1) (-149))), trv)))));
  (985, (bind (bind (bind (@convert_type_dec binary64 binary32 (((fl binary64 (1) (-1074)), (fl binary64 (1) (-1074))), trv)) (fun v1 => ret (fst v1))) (fun v2 => ret (fst v2))) (fun v3 => ret (fsign v3))));
  (986, (bind (@convert_type_dec binary32 binary64 (((fl binary32 (1) (-149)), (fl binary32 (1) (-149))), trv)) (fun v1 => ret (dieq v1 (((fl binary64 (1) (-149)), (fl binary64 (1) (-149))), trv)))));
  (988, (bind (@convert_type_dec binary64 binary32 (((fl binary64 (-9007199254740991) (971)), (fl binary64 (-9007199254740991) (971))), def)) (fun v1 => ret (dieq v1 (((@fminf binary32), (fl binary32 (-16777215) (104))), def)))));
  (989, (bind (@convert_type_dec binary64 binary32 (((fl binary64 (-9007199254740991) (971)), (fl binary64 (9007199254740991) (971))), trv)) (fun v1 => ret (dieq v1 (((@fminf binary32), (@finf binary32)), trv)))));
  (990, (bind (@convert_type_dec binary64 binary32 (((fl binary64 (9007199254740991) (971)), (fl binary64 (9007199254740991) (971))), dac)) (fun v1 => ret (dieq v1 (((fl binary32 (16777215) (104)), (@finf binary32)), dac)))));
  (991, (bind (@convert_type_dec binary32 binary64 (((fl binary32 (16777215) (104)), (fl binary32 (16777215) (104))), trv)) (fun v1 => ret (dieq v1 (((fl binary64 (16777215) (104)), (fl binary64 (16777215) (104))), trv)))));
  (993, (bind (@convert_type_dec binary64 binary32 (((fl binary64 (-9007199254740991) (971)), (fl binary64 (-9007199254740991) (971))), com)) (fun v1 => ret (dieq v1 (((@fminf binary32), (fl binary32 (-16777215) (104))), dac)))));
  (994, (bind (@convert_type_dec binary64 binary32 (((fl binary64 (-9007199254740991) (971)), (fl binary64 (9007199254740991) (971))), com)) (fun v1 => ret (dieq v1 (((@fminf binary32), (@finf binary32)), dac)))));
  (995, (bind (@convert_type_dec binary64 binary32 (((fl binary64 (9007199254740991) (971)), (fl binary64 (9007199254740991) (971))), com)) (fun v1 => ret (dieq v1 (((fl binary32 (16777215) (104)), (@finf binary32)), dac)))));
  (996, (bind (@convert_type_dec binary32 binary64 (((@fminf binary32), (@finf binary32)), trv)) (fun v1 => ret (dieq v1 (((@fminf binary64), (@finf binary64)), trv)))));
  (998, (bind (@convert_type_dec binary64 binary32 (((@fminf binary64), (@finf binary64)), trv)) (fun v1 => ret (dieq v1 (((@fminf binary32), (@finf binary32)), trv)))));
  (999, (bind (@convert_type_dec binary32 binary64 (((@fminf binary32), (@finf binary32)), trv)) (fun v1 => ret (dieq v1 (((@fminf binary64), (@finf binary64)), trv)))));
  (1001, (bind (@convert_type_dec binary64 binary32 (((@fnan binary64), (@fnan binary64)), trv)) (fun v1 => @is_empty_dec binary32 v1)));
  (1002, (bind (@convert_type_dec binary32 binary64 (((@fnan binary32), (@fnan binary32)), trv)) (fun v1 => @is_empty_dec binary64 v1)));
  (1004, (bind get_flags (fun v1 => ret (N.eqb v1 none_bit))));
  (1006, (bind (@convert_type_dec binary64 binary32 (((fl binary64 (-1) (-1074)), (fl binary64 (-1) (-149))), trv)) (fun v1 => @is_nai binary32 v1)));
  (1007, (bind get_flags (fun v1 => ret (N.eqb v1 invalid_operand_bit))));
  (1008, clear_flags);
  (1009, (bind (@convert_type_dec binary64 binary32 (((fl binary64 (7) (0)), (@fnan binary64)), trv)) (fun v1 => @is_nai binary32 v1)));
  (1010, (bind get_flags (fun v1 => ret (N.eqb v1 invalid_operand_bit))));
  (1011, clear_flags);
  (1012, (bind (@convert_type_dec binary64 binary32 (((fl binary64 (7) (0)), (fl binary64 (-3) (0))), def)) (fun v1 => @is_nai binary32 v1)));
  (1013, (bind get_flags (fun v1 => ret (N.eqb v1 invalid_operand_bit))));
  (1014, clear_flags);
  (1015, (bind (@convert_type_dec binary32 binary64 (((@fminf binary32), (@fminf binary32)), com)) (fun v1 => @is_nai binary64 v1)));
  (1016, (bind get_flags (fun v1 => ret (N.eqb v1 invalid_operand_bit))));
  (1017, clear_flags);
  (1018, (bind (@convert_type_dec binary32 binary64 (((@finf binary32), (@finf binary32)), dac)) (fun v1 => @is_nai binary64 v1)));
  (1019, (bind get_flags (fun v1 => ret (N.eqb v1 invalid_operand_bit))));
  (1020, clear_flags);
  (1022, (set_cwd invalid_operand_bit));
  (1023, (throws (@convert_type_dec binary64 binary32 (((fl binary64 (-7) (0)), (fl binary64 (-3) (0))), ill)) Invalid_operand_exception));
  (1024, (bind get_flags (fun v1 => ret (N.eqb v1 invalid_operand_bit))));
  (1025, clear_flags);
  (1026, (set_cwd none_bit))].

(** lines 1029-1079 *)
Definition minimal_interval_part_test : list (N * M bool) := [
  (1031, clear_flags);
  (1033, (bind (@interval_part binary64 (((fl binary64 (-3602879824865869) (-47)), (fl binary64 (7205759403792793) (-56))), trv)) (fun v1 => ret (ieq v1 ((fl binary64 (-3602879824865869) (-47)), (fl binary64 (7205759403792793) (-56)))))));
  (1034, (bind (@interval_part binary64 (((fl binary64 (-6710887) (-18)), (fl binary64 (7205759403792793) (-56))), com)) (fun v1 => ret (ieq v1 ((fl binary64 (-6710887) (-18)), (fl binary64 (7205759403792793) (-56)))))));
  (1035, (bind (@interval_part binary64 (((fl binary64 (-3602879824865869) (-47)), (fl binary64 (13421773) (-27))), dac)) (fun v1 => ret (ieq v1 ((fl binary64 (-3602879824865869) (-47)), (fl binary64 (13421773) (-27)))))));
  (1036, (bind (@interval_part binary64 (((fl binary64 (-6710887) (-18)), (fl binary64 (13421773) (-27))), def)) (fun v1 => ret (ieq v1 ((fl binary64 (-6710887) (-18)), (fl binary64 (13421773) (-27)))))));
  (1037, (bind (@interval_part binary64 (((fl binary64 (-1) (-1074)), (fl binary64 (-1) (-1074))), trv)) (fun v1 => ret (ieq v1 ((fl binary64 (-1) (-1074)), (fl binary64 (-1) (-1074)))))));
  (1038, (bind (@interval_part binary64 (((fl binary64 (-1) (-1074)), (fl binary64 (1) (-1074))), trv)) (fun v1 => ret (ieq v1 ((fl binary64 (-1) (-1074)), (fl binary64 (1) (-1074)))))));
  (1039, (bind (@interval_part binary64 (((fl binary64 (1) (-1074)), (fl binary64 (1) (-1074))), trv)) (fun v1 => ret (ieq v1 ((fl binary64 (1) (-1074)), (fl binary64 (1) (-1074)))))));
  (1040, (bind (@interval_part binary64 (((fl binary64 (-9007199254740991) (971)), (fl binary64 (-9007199254740991) (971))), trv)) (fun v1 => ret (ieq v1 ((fl binary64 (-9007199254740991) (971)), (fl binary64 (-9007199254740991) (971)))))));
  (1041, (bind (@interval_part binary64 (((fl binary64 (-9007199254740991) (971)), (fl binary64 (9007199254740991) (971))), trv)) (fun v1 => ret (ieq v1 ((fl binary64 (-9007199254740991) (971)), (fl binary64 (9007199254740991) (971)))))));
  (1042, (bind (@interval_part binary64 (((fl binary64 (9007199254740991) (971)), (fl binary64 (9007199254740991) (971))), trv)) (fun v1 => ret (ieq v1 ((fl binary64 (9007199254740991) (971)), (fl binary64 (9007199254740991) (971)))))));
  (1043, (bind (@interval_part binary64 (((@fminf binary64), (@finf binary64)), trv)) (fun v1 => ret (ieq v1 ((@fminf binary64), (@finf binary64))))));
  (1044, (bind (@interval_part binary64 (((@fnan binary64), (@fnan binary64)), trv)) (fun v1 => @is_empty binary64 v1)));
  (1045, (bind (@interval_part binary64 (((fl binary64 (-6710887) (-18)), (fl binary64 (7205759403792793) (-56))), com)) (fun v1 => ret (ieq v1 ((fl binary64 (-6710887) (-18)), (fl binary64 (7205759403792793) (-56)))))));
  (1047, (bind get_flags (fun v1 => ret (N.eqb v1 none_bit))));
  (1049, (bind (@interval_part binary64 (((@fnan binary64), (@fnan binary64)), ill)) (fun v1 => @is_empty binary64 v1)));
  (1050, (bind get_flags (fun v1 => ret (N.eqb v1 interval_part_of_nai_bit))));
  (1051, clear_flags);
  (1053, (set_cwd interval_part_of_nai_bit));
  (1054, (throws (@interval_part binary64 (((@fnan binary64), (@fnan binary64)), ill)) Interval_part_of_nai_exception));
  (1055, (bind get_flags (fun v1 => ret (N.eqb v1 interval_part_of_nai_bit))));
  (1056, clear_flags);
  (1057, (set_cwd none_bit));
  (1059, (bind (@interval_part binary64 (((fl binary64 (7) (0)), (@fnan binary64)), trv)) (fun v1 => @is_empty binary64 v1)));
  (1060, (bind get_flags (fun v1 => ret (N.eqb v1 invalid_operand_bit))));
  (1061, clear_flags);
  (1062, (bind (@interval_part binary64 (((fl binary64 (7) (0)), (fl binary64 (-3) (0))), def)) (fun v1 => @is_empty binary64 v1)));
  (1063, (bind get_flags (fun v1 => ret (N.eqb v1 invalid_operand_bit))));
  (1064, clear_flags);
  (1065, (bind (@interval_part binary64 (((@fminf binary64), (@fminf binary64)), com)) (fun v1 => @is_empty binary64 v1)));
  (1066, (bind get_flags (fun v1 => ret (N.eqb v1 invalid_operand_bit))));
  (1067, clear_flags);
  (1068, (bind (@interval_part binary64 (((@finf binary64), (@finf binary64)), dac)) (fun v1 => @is_empty binary64 v1)));
  (1069, (bind get_flags (fun v1 => ret (N.eqb v1 invalid_operand_bit))));
  (1070, clear_flags);
  (1072, (set_cwd invalid_operand_bit));
  (1073, (throws (@interval_part binary64 (((fl binary64 (-7) (0)), (fl binary64 (-3) (0))), ill)) Invalid_operand_exception));
  (1074, (bind get_flags (fun v1 => ret (N.eqb v1 invalid_operand_bit))));
  (1075, clear_flags);
  (1076, (set_cwd none_bit));
  (1078, (bind get_flags (fun v1 => ret (N.eqb v1 none_bit))))].

(** lines 1082-1154 *)
Definition minimal_interval_part_mixedtype_test : list (N * M bool) := [
  (1084, clear_flags);
  (1086, (bind (@interval_part_mixed binary64 binary32 (((fl binary64 (-3602879824865869) (-47)), (fl binary64 (7205759403792793) (-56))), trv)) (fun v1 => ret (ieq v1 ((fl binary32 (-6710887) (-18)), (fl binary32 (13421773) (-27)))))));
  (1087, (bind (@interval_part_mixed binary64 binary32 (((fl binary64 (-6710887) (-18)), (fl binary64 (7205759403792793) (-56))), com)) (fun v1 => ret (ieq v1 ((fl binary32 (-6710887) (-18)), (fl binary32 (13421773) (-27)))))));
  (1088, (bind (@interval_part_mixed binary64 binary32 (((fl binary64 (-3602879824865869) (-47)), (fl binary64 (13421773) (-27))), dac)) (fun v1 => ret (ieq v1 ((fl binary32 (-6710887) (-18)), (fl binary32 (13421773) (-27)))))));
  (1089, (bind (@interval_part_mixed binary64 binary32 (((fl binary64 (-6710887) (-18)), (fl binary64 (13421773) (-27))), def)) (fun v1 => ret (ieq v1 ((fl binary32 (-6710887) (-18)), (fl binary32 (13421773) (-27)))))));
  (1090, (bind (@interval_part_mixed binary32 binary64 (((fl binary32 (-6710887) (-18)), (fl binary32 (13421773) (-27))), trv)) (fun v1 => ret (ieq v1 ((fl binary64 (-6710887) (-18)), (fl binary64 (13421773) (-27)))))));
  (1092, (bind (@interval_part_mixed binary64 binary32 (((fl binary64 (-1) (-1074)), (fl binary64 (-1) (-1074))), trv)) (fun v1 => ret (ieq v1 ((fl binary32 (-1) (-149)), (@f0 binary32))))));
  (1093, (mnot (bind (bind (@interval_part_mixed binary64 binary32 (((fl binary64 (-1) (-1074)), (fl binary64 (-1) (-1074))), trv)) (fun v1 => ret (snd v1))) (fun v2 => ret (fsign v2)))));
  (1094, (bind (@interval_part_mixed binary64 binary32 (((fl binary64 (-1) (-1074)), (fl binary64 (1) (-1074))), trv)) (fun v1 => ret (ieq v1 ((fl binary32 (-1) (-149)), (fl binary32 (1) (-149)))))));
  (1095, (bind (@interval_part_mixed binary64 binary32 (((fl binary64 (1) (-1074)), (fl binary64 (1) (-1074))), trv)) (fun v1 => ret (ieq v1 ((@fm0 binary32), (fl binary32 (1) (-149)))))));
  (1096, (bind (bind (@interval_part_mixed binary64 binary32 (((fl binary64 (1) (-1074)), (fl binary64 (1) (-1074))), trv)) (fun v1 => ret (fst v1))) (fun v2 => ret (fsign v2))));
  (1097, (bind (@interval_part_mixed binary32 binary64 (((fl binary32 (1) (-149)), (fl binary32 (1) (-149))), trv)) (fun v1 => ret (ieq v1 ((fl binary64 (1) (-149)), (fl binary64 (1) (-149)))))));
  (1099, (bind (@interval_part_mixed binary64 binary32 (((fl binary64 (-9007199254740991) (971)), (fl binary64 (-9007199254740991) (971))), def)) (fun v1 => ret (ieq v1 ((@fminf binary32), (fl binary32 (-16777215) (104)))))));
  (1100, (bind (@interval_part_mixed binary64 binary32 (((fl binary64 (-9007199254740991) (971)), (fl binary64 (9007199254740991) (971))), trv)) (fun v1 => ret (ieq v1 ((@fminf binary32), (@finf binary32))))));
  (1101, (bind (@interval_part_mixed binary64 binary32 (((fl binary64 (9007199254740991) (971)), (fl binary64 (9007199254740991) (971))), dac)) (fun v1 => ret (ieq v1 ((fl binary32 (16777215) (104)), (@finf binary32))))));
  (1102, (bind (@interval_part_mixed binary32 binary64 (((fl binary32 (16777215) (104)), (fl binary32 (16777215) (104))), trv)) (fun v1 => ret (ieq v1 ((fl binary64 (16777215) (104)), (fl binary64 (16777215) (104)))))));
  (1104, (bind (@interval_part_mixed binary64 binary32 (((fl binary64 (-9007199254740991) (971)), (fl binary64 (-9007199254740991) (971))), com)) (fun v1 => ret (ieq v1 ((@fminf binary32), (fl binary32 (-16777215) (104)))))));
  (1105, (bind (@interval_part_mixed binary64 binary32 (((fl binary64 (-9007199254740991) (971)), (fl binary64 (9007199254740991) (971))), com)) (fun v1 => ret (ieq v1 ((@fminf binary32), (@finf binary32))))));
  (1106, (bind (@interval_part_mixed binary64 binary32 (((fl binary64 (9007199254740991) (971)), (fl binary64 (9007199254740991) (971))), com)) (fun v1 => ret (ieq v1 ((fl binary32 (16777215) (104)), (@finf binary32))))));
  (1107, (bind (@interval_part_mixed binary32 binary64 (((@fminf binary32), (@finf binary32)), trv)) (fun v1 => ret (ieq v1 ((@fminf binary64), (@finf binary64))))));
  (1109, (bind (@interval_part_mixed binary64 binary32 (((@fminf binary64), (@finf binary64)), trv)) (fun v1 => ret (ieq v1 ((@fminf binary32), (@finf binary32))))));
  (1110, (bind (@interval_part_mixed binary32 binary64 (((@fminf binary32), (@finf binary32)), trv)) (fun v1 => ret (ieq v1 ((@fminf binary64), (@finf binary64))))));
  (1112, (bind (@interval_part_mixed binary64 binary32 (((@fnan binary64), (@fnan binary64)), trv)) (fun v1 => @is_empty binary32 v1)));
  (1113, (bind (@interval_part_mixed binary32 binary64 (((@fnan binary32), (@fnan binary32)), trv)) (fun v1 => @is_empty binary64 v1)));
  (1115, (bind get_flags (fun v1 => ret (N.eqb v1 none_bit))));
  (1117, (bind (@interval_part_mixed binary64 binary32 (((@fnan binary64), (@fnan binary64)), ill)) (fun v1 => @is_empty binary32 v1)));
  (1118, (bind get_flags (fun v1 => ret (N.eqb v1 interval_part_of_nai_bit))));
  (1119, clear_flags);
  (1120, (bind (@interval_part_mixed binary32 binary64 (((@fnan binary32), (@fnan binary32)), ill)) (fun v1 => @is_empty binary64 v1)));
  (1121, (bind get_flags (fun v1 => ret (N.eqb v1 interval_part_of_nai_bit))));
  (1122, clear_flags);
  (1124, (set_cwd interval_part_of_nai_bit));
  (1125, (throws (@interval_part_mixed binary32 binary64 (((@fnan binary32), (@fnan binary32)), ill)) Interval_part_of_nai_exception));
  (1126, (bind get_flags (fun v1 => ret (N.eqb v1 interval_part_of_nai_bit))));
  (1127, clear_flags);
  (1128, (throws (@interval_part_mixed binary64 binary32 (((@fnan binary64), (@fnan binary64)), ill)) Interval_part_of_nai_exception));
  (1129, (bind get_flags (fun v1 => ret (N.eqb v1 interval_part_of_nai_bit))));
  (1130, clear_flags);
  (1131, (set_cwd none_bit));
  (1133, (bind (@interval_part_mixed binary64 binary32 (((fl binary64 (-1) (-1074)), (fl binary64 (-1) (-149))), trv)) (fun v1 => @is_empty binary32 v1)));
  (1134, (bind get_flags (fun v1 => ret (N.eqb v1 invalid_operand_bit))));
  (1135, clear_flags);
  (1136, (bind (@interval_part_mixed binary64 binary32 (((fl binary64 (7) (0)), (@fnan binary64)), trv)) (fun v1 => @is_empty binary32 v1)));
  (1137, (bind get_flags (fun v1 => ret (N.eqb v1 invalid_operand_bit))));
  (1138, clear_flags);
  (1139, (bind (@interval_part_mixed binary64 binary32 (((fl binary64 (7) (0)), (fl binary64 (-3) (0))), def)) (fun v1 => @is_empty binary32 v1)));
  (1140, (bind get_flags (fun v1 => ret (N.eqb v1 invalid_operand_bit))));
  (1141, clear_flags);
  (1142, (bind (@interval_part_mixed binary32 binary64 (((@fminf binary32), (@fminf binary32)), com)) (fun v1 => @is_empty binary64 v1)));
  (1143, (bind get_flags (fun v1 => ret (N.eqb v1 invalid_operand_bit))));
  (1144, clear_flags);
  (1145, (bind (@interval_part_mixed binary32 binary64 (((@finf binary32), (@finf binary32)), dac)) (fun v1 => @is_empty binary64 v1)));
  (1146, (bind get_flags (fun v1 => ret (N.eqb v1 invalid_operand_bit))));
  (1147, clear_flags);
  (1149, (set_cwd invalid_operand_bit));
  (1150, (throws (@interval_part_mixed binary64 binary32 (((fl binary64 (-7) (0)), (fl binary64 (-3) (0))), ill)) Invalid_operand_exception));
  (1151, (bind get_flags (fun v1 => ret (N.eqb v1 invalid_operand_bit))));
  (1152, clear_flags);
  (1153, (set_cwd none_bit))].

(** lines 1157-1195 *)
Definition minimal_new_dec_test : list (N * M bool) := [
  (1159, clear_flags);
  (1161, (bind (@new_dec binary64 ((fl binary64 (-3602879824865869) (-47)), (fl binary64 (7205759403792793) (-56)))) (fun v1 => ret (dieq v1 (((fl binary64 (-3602879824865869) (-47)), (fl binary64 (7205759403792793) (-56))), com)))));
  (1162, (bind (@new_dec binary64 ((fl binary64 (-6710887) (-18)), (fl binary64 (7205759403792793) (-56)))) (fun v1 => ret (dieq v1 (((fl binary64 (-6710887) (-18)), (fl binary64 (7205759403792793) (-56))), com)))));
  (1163, (bind (@new_dec binary64 ((fl binary64 (-3602879824865869) (-47)), (fl binary64 (13421773) (-27)))) (fun v1 => ret (dieq v1 (((fl binary64 (-3602879824865869) (-47)), (fl binary64 (13421773) (-27))), com)))));
  (1164, (bind (@new_dec binary64 ((fl binary64 (-6710887) (-18)), (fl binary64 (13421773) (-27)))) (fun v1 => ret (dieq v1 (((fl binary64 (-6710887) (-18)), (fl binary64 (13421773) (-27))), com)))));
  (1165, (bind (@new_dec binary64 ((fl binary64 (-1) (-1074)), (fl binary64 (-1) (-1074)))) (fun v1 => ret (dieq v1 (((fl binary64 (-1) (-1074)), (fl binary64 (-1) (-1074))), com)))));
  (1166, (bind (@new_dec binary64 ((fl binary64 (-1) (-1074)), (fl binary64 (1) (-1074)))) (fun v1 => ret (dieq v1 (((fl binary64 (-1) (-1074)), (fl binary64 (1) (-1074))), com)))));
  (1167, (bind (@new_dec binary64 ((fl binary64 (1) (-1074)), (fl binary64 (1) (-1074)))) (fun v1 => ret (dieq v1 (((fl binary64 (1) (-1074)), (fl binary64 (1) (-1074))), com)))));
  (1168, (bind (@new_dec binary64 ((fl binary64 (-9007199254740991) (971)), (fl binary64 (-9007199254740991) (971)))) (fun v1 => ret (dieq v1 (((fl binary64 (-9007199254740991) (971)), (fl binary64 (-9007199254740991) (971))), com)))));
  (1169, (bind (@new_dec binary64 ((fl binary64 (-9007199254740991) (971)), (fl binary64 (9007199254740991) (971)))) (fun v1 => ret (dieq v1 (((fl binary64 (-9007199254740991) (971)), (fl binary64 (9007199254740991) (971))), com)))));
  (1170, (bind (@new_dec binary64 ((fl binary64 (9007199254740991) (971)), (fl binary64 (9007199254740991) (971)))) (fun v1 => ret (dieq v1 (((fl binary64 (9007199254740991) (971)), (fl binary64 (9007199254740991) (971))), com)))));
  (1171, (bind (@new_dec binary64 ((@fminf binary64), (@finf binary64))) (fun v1 => ret (dieq v1 (((@fminf binary64), (@finf binary64)), dac)))));
  (1172, (bind (@new_dec binary64 ((@fnan binary64), (@fnan binary64))) (fun v1 => @is_empty_dec binary64 v1)));
  (1173, (bind (@new_dec binary64 ((fl binary64 (-6710887) (-18)), (fl binary64 (7205759403792793) (-56)))) (fun v1 => ret (dieq v1 (((fl binary64 (-6710887) (-18)), (fl binary64 (7205759403792793) (-56))), com)))));
  (1175, (bind get_flags (fun v1 => ret (N.eqb v1 none_bit))));
  (1177, (bind (@new_dec binary64 ((fl binary64 (7) (0)), (@fnan binary64))) (fun v1 => @is_nai binary64 v1)));
  (1178, (bind get_flags (fun v1 => ret (N.eqb v1 invalid_operand_bit))));
  (1179, clear_flags);
  (1180, (bind (@new_dec binary64 ((fl binary64 (7) (0)), (fl binary64 (-3) (0)))) (fun v1 => @is_nai binary64 v1)));
  (1181, (bind get_flags (fun v1 => ret (N.eqb v1 invalid_operand_bit))));
  (1182, clear_flags);
  (1183, (bind (@new_dec binary64 ((@fminf binary64), (@fminf binary64))) (fun v1 => @is_nai binary64 v1)));
  (1184, (bind get_flags (fun v1 => ret (N.eqb v1 invalid_operand_bit))));
  (1185, clear_flags);
  (1186, (bind (@new_dec binary64 ((@finf binary64), (@finf binary64))) (fun v1 => @is_nai binary64 v1)));
  (1187, (bind get_flags (fun v1 => ret (N.eqb v1 invalid_operand_bit))));
  (1188, clear_flags);
  (1190, (set_cwd invalid_operand_bit));
  (1191, (throws (@new_dec binary64 ((fl binary64 (7) (0)), (fl binary64 (-3) (0)))) Invalid_operand_exception));
  (1192, (bind get_flags (fun v1 => ret (N.eqb v1 invalid_operand_bit))));
  (1193, clear_flags);
  (1194, (set_cwd none_bit))].

(** lines 1198-1250 *)
Definition minimal_new_dec_mixedtype_test : list (N * M bool) := [
  (1200, clear_flags);
  (1202, (bind (@new_dec_mixed binary64 binary32 ((fl binary64 (-3602879824865869) (-47)), (fl binary64 (7205759403792793) (-56)))) (fun v1 => ret (dieq v1 (((fl binary32 (-6710887) (-18)), (fl binary32 (13421773) (-27))), com)))));
  (1203, (bind (@new_dec_mixed binary64 binary32 ((fl binary64 (-6710887) (-18)), (fl binary64 (7205759403792793) (-56)))) (fun v1 => ret (dieq v1 (((fl binary32 (-6710887) (-18)), (fl binary32 (13421773) (-27))), com)))));
  (1204, (bind (@new_dec_mixed binary64 binary32 ((fl binary64 (-3602879824865869) (-47)), (fl binary64 (13421773) (-27)))) (fun v1 => ret (dieq v1 (((fl binary32 (-6710887) (-18)), (fl binary32 (13421773) (-27))), com)))));
  (1205, (bind (@new_dec_mixed binary64 binary32 ((fl binary64 (-6710887) (-18)), (fl binary64 (13421773) (-27)))) (fun v1 => ret (dieq v1 (((fl binary32 (-6710887) (-18)), (fl binary32 (13421773) (-27))), com)))));
  (1206, (bind (@new_dec_mixed binary32 binary64 ((fl binary32 (-6710887) (-18)), (fl binary32 (13421773) (-27)))) (fun v1 => ret (dieq v1 (((fl binary64 (-6710887) (-18)), (fl binary64 (13421773) (-27))), com)))));
  (1208, (bind (@new_dec_mixed binary64 binary32 ((fl binary64 (-1) (-1074)), (fl binary64 (-1) (-1074)))) (fun v1 => ret (dieq v1 (((fl binary32 (-1) (-149)), (@f0 binary32)), com)))));
  (1209, (mnot (bind (bind (bind (@new_dec_mixed binary64 binary32 ((fl binary64 (-1) (-1074)), (fl binary64 (-1) (-1074)))) (fun v1 => ret (fst v1))) (fun v2 => ret (snd v2))) (fun v3 => ret (fsign v3)))));
  (1210, (bind (@new_dec_mixed binary64 binary32 ((fl binary64 (-1) (-1074)), (fl binary64 (1) (-1074)))) (fun v1 => ret (dieq v1 (((fl binary32 (-1) (-149)), (fl binary32 (1) (-149))), com)))));
  (1211, (bind (@new_dec_mixed binary64 binary32 ((fl binary64 (1) (-1074)), (fl binary64 (1) (-1074)))) (fun v1 => ret (dieq v1 (((@fm0 binary32), (fl binary32 (1) (-149))), com)))));
  (1212, (bind (bind (bind (@new_dec_mixed binary64 binary32 ((fl binary64 (1) (-1074)), (fl binary64 (1) (-1074)))) (fun v1 => ret (fst v1))) (fun v2 => ret (fst v2))) (fun v3 => ret (fsign v3))));
  (1213, (bind (@new_dec_mixed binary32 binary64 ((fl binary32 (1) (-149)), (fl binary32 (1) (-149)))) (fun v1 => ret (dieq v1 (((fl binary64 (1) (-149)), (fl binary64 (1) (-149))), com)))));
  (1215, (bind (@new_dec_mixed binary64 binary32 ((fl binary64 (-9007199254740991) (971)), (fl binary64 (-9007199254740991) (971)))) (fun v1 => ret (dieq v1 (((@fminf binary32), (fl binary32 (-16777215) (104))), dac)))));
  (1216, (bind (@new_dec_mixed binary64 binary32 ((fl binary64 (-9007199254740991) (971)), (fl binary64 (9007199254740991) (971)))) (fun v1 => ret (dieq v1 (((@fminf binary32), (@finf binary32)), dac)))));
  (1217, (bind (@new_dec_mixed binary64 binary32 ((fl binary64 (9007199254740991) (971)), (fl binary64 (9007199254740991) (971)))) (fun v1 => ret (dieq v1 (((fl binary32 (16777215) (104)), (@finf binary32)), dac)))));
  (1218, (bind (@new_dec_mixed binary32 binary64 ((fl binary32 (16777215) (104)), (fl binary32 (16777215) (104)))) (fun v1 => ret (dieq v1 (((fl binary64 (16777215) (104)), (fl binary64 (16777215) (104))), com)))));
  (1219, (bind (@new_dec_mixed binary32 binary64 ((@fminf binary32), (@finf binary32))) (fun v1 => ret (dieq v1 (((@fminf binary64), (@finf binary64)), dac)))));
  (1221, (bind (@new_dec_mixed binary64 binary32 ((@fminf binary64), (@finf binary64))) (fun v1 => ret (dieq v1 (((@fminf binary32), (@finf binary32)), dac)))));
  (1222, (bind (@new_dec_mixed binary32 binary64 ((@fminf binary32), (@finf binary32))) (fun v1 => ret (dieq v1 (((@fminf binary64), (@finf binary64)), dac)))));
  (1224, (bind (@new_dec_mixed binary64 binary32 ((@fnan binary64), (@fnan binary64))) (fun v1 => @is_empty_dec binary32 v1)));
  (1225, (bind (@new_dec_mixed binary32 binary64 ((@fnan binary32), (@fnan binary32))) (fun v1 => @is_empty_dec binary64 v1)));
  (1227, (bind get_flags (fun v1 => ret (N.eqb v1 none_bit))));
  (1229, (bind (@new_dec_mixed binary64 binary32 ((fl binary64 (-1) (-1074)), (fl binary64 (-1) (-149)))) (fun v1 => @is_nai binary32 v1)));
  (1230, (bind get_flags (fun v1 => ret (N.eqb v1 invalid_operand_bit))));
  (1231, clear_flags);
  (1232, (bind (@new_dec_mixed binary64 binary32 ((fl binary64 (7) (0)), (@fnan binary64))) (fun v1 => @is_nai binary32 v1)));
  (1233, (bind get_flags (fun v1 => ret (N.eqb v1 invalid_operand_bit))));
  (1234, clear_flags);
  (1235, (bind (@new_dec_mixed binary64 binary32 ((fl binary64 (7) (0)), (fl binary64 (-3) (0)))) (fun v1 => @is_nai binary32 v1)));
  (1236, (bind get_flags (fun v1 => ret (N.eqb v1 invalid_operand_bit))));
  (1237, clear_flags);
  (1238, (bind (@new_dec_mixed binary32 binary64 ((@fminf binary32), (@fminf binary32))) (fun v1 => @is_nai binary64 v1)));
  (1239, (bind get_flags (fun v1 => ret (N.eqb v1 invalid_operand_bit))));
  (1240, clear_flags);
  (1241, (bind (@new_dec_mixed binary32 binary64 ((@finf binary32), (@finf binary32))) (fun v1 => @is_nai binary64 v1)));
  (1242, (bind get_flags (fun v1 => ret (N.eqb v1 invalid_operand_bit))));
  (1243, clear_flags);
  (1245, (set_cwd invalid_operand_bit));
  (1246, (throws (@new_dec_mixed binary64 binary32 ((fl binary64 (7) (0)), (fl binary64 (-3) (0)))) Invalid_operand_exception));
  (1247, (bind get_flags (fun v1 => ret (N.eqb v1 invalid_operand_bit))));
  (1248, clear_flags);
  (1249, (set_cwd none_bit))].

(** lines 1252-1310 *)
Definition minimal_set_dec_test : list (N * M bool) := [
  (1254, clear_flags);
  (1256, (bind (@set_dec binary64 ((fl binary64 (-3602879824865869) (-47)), (fl binary64 (7205759403792793) (-56))) trv) (fun v1 => ret (dieq v1 (((fl binary64 (-3602879824865869) (-47)), (fl binary64 (7205759403792793) (-56))), trv)))));
  (1257, (bind (@set_dec binary64 ((fl binary64 (-6710887) (-18)), (fl binary64 (7205759403792793) (-56))) com) (fun v1 => ret (dieq v1 (((fl binary64 (-6710887) (-18)), (fl binary64 (7205759403792793) (-56))), com)))));
  (1258, (bind (@set_dec binary64 ((fl binary64 (-3602879824865869) (-47)), (fl binary64 (13421773) (-27))) dac) (fun v1 => ret (dieq v1 (((fl binary64 (-3602879824865869) (-47)), (fl binary64 (13421773) (-27))), dac)))));
  (1259, (bind (@set_dec binary64 ((fl binary64 (-6710887) (-18)), (fl binary64 (13421773) (-27))) def) (fun v1 => ret (dieq v1 (((fl binary64 (-6710887) (-18)), (fl binary64 (13421773) (-27))), def)))));
  (1260, (bind (@set_dec binary64 ((fl binary64 (-1) (-1074)), (fl binary64 (-1) (-1074))) trv) (fun v1 => ret (dieq v1 (((fl binary64 (-1) (-1074)), (fl binary64 (-1) (-1074))), trv)))));
  (1261, (bind (@set_dec binary64 ((fl binary64 (-1) (-1074)), (fl binary64 (1) (-1074))) def) (fun v1 => ret (dieq v1 (((fl binary64 (-1) (-1074)), (fl binary64 (1) (-1074))), def)))));
  (1262, (bind (@set_dec binary64 ((fl binary64 (1) (-1074)), (fl binary64 (1) (-1074))) dac) (fun v1 => ret (dieq v1 (((fl binary64 (1) (-1074)), (fl binary64 (1) (-1074))), dac)))));
  (1263, (bind (@set_dec binary64 ((fl binary64 (-9007199254740991) (971)), (fl binary64 (-9007199254740991) (971))) com) (fun v1 => ret (dieq v1 (((fl binary64 (-9007199254740991) (971)), (fl binary64 (-9007199254740991) (971))), com)))));
  (1264, (bind (@set_dec binary64 ((fl binary64 (-9007199254740991) (971)), (fl binary64 (9007199254740991) (971))) def) (fun v1 => ret (dieq v1 (((fl binary64 (-9007199254740991) (971)), (fl binary64 (9007199254740991) (971))), def)))));
  (1265, (bind (@set_dec binary64 ((fl binary64 (9007199254740991) (971)), (fl binary64 (9007199254740991) (971))) trv) (fun v1 => ret (dieq v1 (((fl binary64 (9007199254740991) (971)), (fl binary64 (9007199254740991) (971))), trv)))));
  (1266, (bind (@set_dec binary64 ((@fminf binary64), (@finf binary64)) dac) (fun v1 => ret (dieq v1 (((@fminf binary64), (@finf binary64)), dac)))));
  (1267, (bind (@set_dec binary64 ((@fnan binary64), (@fnan binary64)) trv) (fun v1 => @is_empty_dec binary64 v1)));
  (1268, (bind (@set_dec binary64 ((fl binary64 (-6710887) (-18)), (fl binary64 (7205759403792793) (-56))) com) (fun v1 => ret (dieq v1 (((fl binary64 (-6710887) (-18)), (fl binary64 (7205759403792793) (-56))), com)))));
  (1270, (bind (@set_dec binary64 ((@fnan binary64), (@fnan binary64)) def) (fun v1 => @is_empty_dec binary64 v1)));
  (1271, (bind (@set_dec binary64 ((@fnan binary64), (@fnan binary64)) dac) (fun v1 => @is_empty_dec binary64 v1)));
  (1272, (bind (@set_dec binary64 ((@fnan binary64), (@fnan binary64)) com) (fun v1 => @is_empty_dec binary64 v1)));
  (1273, (bind (@set_dec binary64 ((fl binary64 (1) (0)), (@finf binary64)) com) (fun v1 => ret (dieq v1 (((fl binary64 (1) (0)), (@finf binary64)), dac)))));
  (1274, (bind (@set_dec binary64 ((@fminf binary64), (fl binary64 (3) (0))) com) (fun v1 => ret (dieq v1 (((@fminf binary64), (fl binary64 (3) (0))), dac)))));
  (1275, (bind (@set_dec binary64 ((@fminf binary64), (@finf binary64)) com) (fun v1 => ret (dieq v1 (((@fminf binary64), (@finf binary64)), dac)))));
  (1276, (bind (@set_dec binary64 ((@fnan binary64), (@fnan binary64)) ill) (fun v1 => @is_nai binary64 v1)));
  (1277, (bind (@set_dec binary64 ((@fminf binary64), (fl binary64 (3) (0))) ill) (fun v1 => @is_nai binary64 v1)));
  (1278, (bind (@set_dec binary64 ((fl binary64 (-1) (0)), (fl binary64 (3) (0))) ill) (fun v1 => @is_nai binary64 v1)));
  (1280, (bind get_flags (fun v1 => ret (N.eqb v1 none_bit))));
  (1282, (bind (@set_dec binary64 ((fl binary64 (7) (0)), (@fnan binary64)) trv) (fun v1 => @is_nai binary64 v1)));
  (1283, (bind get_flags (fun v1 => ret (N.eqb v1 invalid_operand_bit))));
  (1284, clear_flags);
  (1285, (bind (@set_dec binary64 ((fl binary64 (7) (0)), (fl binary64 (-3) (0))) def) (fun v1 => @is_nai binary64 v1)));
  (1286, (bind get_flags (fun v1 => ret (N.eqb v1 invalid_operand_bit))));
  (1287, clear_flags);
  (1288, (bind (@set_dec binary64 ((@fminf binary64), (@fminf binary64)) com) (fun v1 => @is_nai binary64 v1)));
  (1289, (bind get_flags (fun v1 => ret (N.eqb v1 invalid_operand_bit))));
  (1290, clear_flags);
  (1291, (bind (@set_dec binary64 ((@finf binary64), (@finf binary64)) dac) (fun v1 => @is_nai binary64 v1)));
  (1292, (bind get_flags (fun v1 => ret (N.eqb v1 invalid_operand_bit))));
  (1293, clear_flags);
  (1297, (bind (@set_dec binary64 ((fl binary64 (1) (0)), (fl binary64 (1) (1))) 111%N) (fun v1 => @is_nai binary64 v1)));
  (1298, (bind get_flags (fun v1 => ret (N.eqb v1 invalid_operand_bit))));
  (1299, clear_flags);
  (1301, (set_cwd invalid_operand_bit));
  (1302, (throws (@set_dec binary64 ((fl binary64 (7) (0)), (fl binary64 (-3) (0))) ill) Invalid_operand_exception));
  (1303, (bind get_flags (fun v1 => ret (N.eqb v1 invalid_operand_bit))));
  (1304, clear_flags);
  (1306, (throws (@set_dec binary64 ((fl binary64 (1) (0)), (fl binary64 (1) (1))) 111%N) Invalid_operand_exception));
  (1307, (bind get_flags (fun v1 => ret (N.eqb v1 invalid_operand_bit))));
  (1308, clear_flags);
  (1309, (set_cwd none_bit))].

(** lines 1312-1386 *)
Definition minimal_set_dec_mixedtype_test : list (N * M bool) := [
  (1314, clear_flags);
  (1316, (bind (@set_dec_mixed binary64 binary32 ((fl binary64 (-3602879824865869) (-47)), (fl binary64 (7205759403792793) (-56))) trv) (fun v1 => ret (dieq v1 (((fl binary32 (-6710887) (-18)), (fl binary32 (13421773) (-27))), trv)))));
  (1317, (bind (@set_dec_mixed binary64 binary32 ((fl binary64 (-6710887) (-18)), (fl binary64 (7205759403792793) (-56))) com) (fun v1 => ret (dieq v1 (((fl binary32 (-6710887) (-18)), (fl binary32 (13421773) (-27))), com)))));
  (1318, (bind (@set_dec_mixed binary64 binary32 ((fl binary64 (-3602879824865869) (-47)), (fl binary64 (13421773) (-27))) dac) (fun v1 => ret (dieq v1 (((fl binary32 (-6710887) (-18)), (fl binary32 (13421773) (-27))), dac)))));
  (1319, (bind (@set_dec_mixed binary64 binary32 ((fl binary64 (-6710887) (-18)), (fl binary64 (13421773) (-27))) def) (fun v1 => ret (dieq v1 (((fl binary32 (-6710887) (-18)), (fl binary32 (13421773) (-27))), def)))));
  (1320, (bind (@set_dec_mixed binary32 binary64 ((fl binary32 (-6710887) (-18)), (fl binary32 (13421773) (-27))) trv) (fun v1 => ret (dieq v1 (((fl binary64 (-6710887) (-18)), (fl binary64 (13421773) (-27))), trv)))));
  (1322, (bind (@set_dec_mixed binary64 binary32 ((fl binary64 (-1) (-1074)), (fl binary64 (-1) (-1074))) trv) (fun v1 => ret (dieq v1 (((fl binary32 (-1) (-149)), (@f0 binary32)), trv)))));
  (1323, (mnot (bind (bind (bind (@set_dec_mixed binary64 binary32 ((fl binary64 (-1) (-1074)), (fl binary64 (-1) (-1074))) trv) (fun v1 => ret (fst v1))) (fun v2 => ret (snd v2))) (fun v3 => ret (fsign v3)))));
  (1324, (bind (@set_dec_mixed binary64 binary32 ((fl binary64 (-1) (-1074)), (fl binary64 (1) (-1074))) trv) (fun v1 => ret (dieq v1 (((fl binary32 (-1) (-149)), (fl binary32 (1) (-149))), trv)))));
  (1325, (bind (@set_dec_mixed binary64 binary32 ((fl binary64 (1) (-1074)), (fl binary64 (1) (-1074))) trv) (fun v1 => ret (dieq v1 (((@fm0 binary32), (fl binary32 (1) (-149))), trv)))));
  (1326, (bind (bind (bind (@set_dec_mixed binary64 binary32 ((fl binary64 (1) (-1074)), (fl binary64 (1) (-1074))) trv) (fun v1 => ret (fst v1))) (fun v2 => ret (fst v2))) (fun v3 => ret (fsign v3))));
  (1327, (bind (@set_dec_mixed binary32 binary64 ((fl binary32 (1) (-149)), (fl binary32 (1) (-149))) trv) (fun v1 => ret (dieq v1 (((fl binary64 (1) (-149)), (fl binary64 (1) (-149))), trv)))));
  (1329, (bind (@set_dec_mixed binary64 binary32 ((fl binary64 (-9007199254740991) (971)), (fl binary64 (-9007199254740991) (971))) def) (fun v1 => ret (dieq v1 (((@fminf binary32), (fl binary32 (-16777215) (104))), def)))));
  (1330, (bind (@set_dec_mixed binary64 binary32 ((fl binary64 (-9007199254740991) (971)), (fl binary64 (9007199254740991) (971))) trv) (fun v1 => ret (dieq v1 (((@fminf binary32), (@finf binary32)), trv)))));
  (1331, (bind (@set_dec_mixed binary64 binary32 ((fl binary64 (9007199254740991) (971)), (fl binary64 (9007199254740991) (971))) dac) (fun v1 => ret (dieq v1 (((fl binary32 (16777215) (104)), (@finf binary32)), dac)))));
  (1332, (bind (@set_dec_mixed binary32 binary64 ((fl binary32 (16777215) (104)), (fl binary32 (16777215) (104))) trv) (fun v1 => ret (dieq v1 (((fl binary64 (16777215) (104)), (fl binary64 (16777215) (104))), trv)))));
  (1334, (bind (@set_dec_mixed binary64 binary32 ((fl binary64 (-9007199254740991) (971)), (fl binary64 (-9007199254740991) (971))) com) (fun v1 => ret (dieq v1 (((@fminf binary32), (fl binary32 (-16777215) (104))), dac)))));
  (1335, (bind (@set_dec_mixed binary64 binary32 ((fl binary64 (-9007199254740991) (971)), (fl binary64 (9007199254740991) (971))) com) (fun v1 => ret (dieq v1 (((@fminf binary32), (@finf binary32)), dac)))));
  (1336, (bind (@set_dec_mixed binary64 binary32 ((fl binary64 (9007199254740991) (971)), (fl binary64 (9007199254740991) (971))) com) (fun v1 => ret (dieq v1 (((fl binary32 (16777215) (104)), (@finf binary32)), dac)))));
  (1337, (bind (@set_dec_mixed binary32 binary64 ((@fminf binary32), (@finf binary32)) trv) (fun v1 => ret (dieq v1 (((@fminf binary64), (@finf binary64)), trv)))));
  (1339, (bind (@set_dec_mixed binary64 binary32 ((@fminf binary64), (@finf binary64)) trv) (fun v1 => ret (dieq v1 (((@fminf binary32), (@finf binary32)), trv)))));
  (1340, (bind (@set_dec_mixed binary32 binary64 ((@fminf binary32), (@finf binary32)) trv) (fun v1 => ret (dieq v1 (((@fminf binary64), (@finf binary64)), trv)))));
  (1342, (bind (@set_dec_mixed binary64 binary32 ((@fnan binary64), (@fnan binary64)) trv) (fun v1 => @is_empty_dec binary32 v1)));
  (1343, (bind (@set_dec_mixed binary32 binary64 ((@fnan binary32), (@fnan binary32)) trv) (fun v1 => @is_empty_dec binary64 v1)));
  (1346, (bind (@set_dec_mixed binary64 binary32 ((@fnan binary64), (@fnan binary64)) def) (fun v1 => @is_empty_dec binary32 v1)));
  (1347, (bind (@set_dec_mixed binary64 binary32 ((@fnan binary64), (@fnan binary64)) dac) (fun v1 => @is_empty_dec binary32 v1)));
  (1348, (bind (@set_dec_mixed binary64 binary32 ((@fnan binary64), (@fnan binary64)) com) (fun v1 => @is_empty_dec binary32 v1)));
  (1349, (bind (@set_dec_mixed binary32 binary64 ((fl binary32 (1) (0)), (@finf binary32)) com) (fun v1 => ret (dieq v1 (((fl binary64 (1) (0)), (@finf binary64)), dac)))));
  (1350, (bind (@set_dec_mixed binary32 binary64 ((@fminf binary32), (fl binary32 (3) (0))) com) (fun v1 => ret (dieq v1 (((@fminf binary64), (fl binary64 (3) (0))), dac)))));
  (1351, (bind (@set_dec_mixed binary32 binary64 ((@fminf binary32), (@finf binary32)) com) (fun v1 => ret (dieq v1 (((@fminf binary64), (@finf binary64)), dac)))));
  (1352, (bind (@set_dec_mixed binary32 binary64 ((@fnan binary32), (@fnan binary32)) ill) (fun v1 => @is_nai binary64 v1)));
  (1353, (bind (@set_dec_mixed binary32 binary64 ((@fminf binary32), (fl binary32 (3) (0))) ill) (fun v1 => @is_nai binary64 v1)));
  (1354, (bind (@set_dec_mixed binary32 binary64 ((fl binary32 (-1) (0)), (fl binary32 (3) (0))) ill) (fun v1 => @is_nai binary64 v1)));
  (1356, (bind get_flags (fun v1 => ret (N.eqb v1 none_bit))));
  (1358, (bind (@set_dec_mixed binary64 binary32 ((fl binary64 (7) (0)), (@fnan binary64)) trv) (fun v1 => @is_nai binary32 v1)));
  (1359, (bind get_flags (fun v1 => ret (N.eqb v1 invalid_operand_bit))));
  (1360, clear_flags);
  (1361, (bind (@set_dec_mixed binary64 binary32 ((fl binary64 (7) (0)), (fl binary64 (-3) (0))) def) (fun v1 => @is_nai binary32 v1)));
  (1362, (bind get_flags (fun v1 => ret (N.eqb v1 invalid_operand_bit))));
  (1363, clear_flags);
  (1364, (bind (@set_dec_mixed binary32 binary64 ((@fminf binary32), (@fminf binary32)) com) (fun v1 => @is_nai binary64 v1)));
  (1365, (bind get_flags (fun v1 => ret (N.eqb v1 invalid_operand_bit))));
  (1366, clear_flags);
  (1367, (bind (@set_dec_mixed binary32 binary64 ((@finf binary32), (@finf binary32)) dac) (fun v1 => @is_nai binary64 v1)));
  (1368, (bind get_flags (fun v1 => ret (N.eqb v1 invalid_operand_bit))));
  (1369, clear_flags);
  (1373, (bind (@set_dec binary64 ((fl binary64 (1) (0)), (fl binary64 (1) (1))) 111%N) (fun v1 => @is_nai binary64 v1)));
  (1374, (bind get_flags (fun v1 => ret (N.eqb v1 invalid_operand_bit))));
  (1375, clear_flags);
  (1377, (set_cwd invalid_operand_bit));
  (1378, (throws (@set_dec_mixed binary64 binary32 ((fl binary64 (7) (0)), (fl binary64 (-3) (0))) ill) Invalid_operand_exception));
  (1379, (bind get_flags (fun v1 => ret (N.eqb v1 invalid_operand_bit))));
  (1380, clear_flags);
  (1382, (throws (@set_dec_mixed binary64 binary32 ((fl binary64 (1) (0)), (fl binary64 (1) (1))) 111%N) Invalid_operand_exception));
  (1383, (bind get_flags (fun v1 => ret (N.eqb v1 invalid_operand_bit))));
  (1384, clear_flags);
  (1385, (set_cwd none_bit))].

(** lines 1389-1421 *)
Definition minimal_decoration_part_test : list (N * M bool) := [
  (1391, clear_flags);
  (1393, (bind (@decoration_part binary64 (((@fnan binary64), (@fnan binary64)), ill)) (fun v1 => ret (N.eqb v1 ill))));
  (1394, (bind (@decoration_part binary64 (((@fnan binary64), (@fnan binary64)), trv)) (fun v1 => ret (N.eqb v1 trv))));
  (1395, (bind (@decoration_part binary64 (((fl binary64 (-1) (0)), (fl binary64 (3) (0))), trv)) (fun v1 => ret (N.eqb v1 trv))));
  (1396, (bind (@decoration_part binary64 (((fl binary64 (-1) (0)), (fl binary64 (3) (0))), def)) (fun v1 => ret (N.eqb v1 def))));
  (1397, (bind (@decoration_part binary64 (((fl binary64 (-1) (0)), (fl binary64 (3) (0))), dac)) (fun v1 => ret (N.eqb v1 dac))));
  (1398, (bind (@decoration_part binary64 (((fl binary64 (-1) (0)), (fl binary64 (3) (0))), com)) (fun v1 => ret (N.eqb v1 com))));
  (1400, (bind get_flags (fun v1 => ret (N.eqb v1 none_bit))));
  (1403, (bind (@decoration_part binary64 (((fl binary64 (1) (0)), (fl binary64 (17) (0))), ill)) (fun v1 => ret (N.eqb v1 ill))));
  (1404, (bind get_flags (fun v1 => ret (N.eqb v1 invalid_operand_bit))));
  (1405, clear_flags);
  (1406, (bind (@decoration_part binary64 (((@fnan binary64), (@fnan binary64)), dac)) (fun v1 => ret (N.eqb v1 ill))));
  (1407, (bind get_flags (fun v1 => ret (N.eqb v1 invalid_operand_bit))));
  (1408, clear_flags);
  (1409, (bind (@decoration_part binary64 (((@fminf binary64), (fl binary64 (3) (0))), com)) (fun v1 => ret (N.eqb v1 ill))));
  (1410, (bind get_flags (fun v1 => ret (N.eqb v1 invalid_operand_bit))));
  (1411, clear_flags);
  (1412, (bind (@decoration_part binary64 (((fl binary64 (-15) (0)), (@finf binary64)), com)) (fun v1 => ret (N.eqb v1 ill))));
  (1413, (bind get_flags (fun v1 => ret (N.eqb v1 invalid_operand_bit))));
  (1414, clear_flags);
  (1416, (set_cwd invalid_operand_bit));
  (1417, (throws (@decoration_part binary64 (((fl binary64 (-15) (0)), (@finf binary64)), com)) Invalid_operand_exception));
  (1418, (bind get_flags (fun v1 => ret (N.eqb v1 invalid_operand_bit))));
  (1419, clear_flags);
  (1420, (set_cwd none_bit))].

Example class_agree : test_file [
  minimal_empty_test; minimal_empty_dec_test; minimal_entire_test; minimal_entire_dec_test; minimal_nai_test; minimal_nums_to_interval_test; minimal_nums_to_decorated_interval_test; minimal_nums_to_interval_mixedtype_test; minimal_nums_to_decorated_interval_mixedtype_test; minimal_nums_dec_to_decorated_interval_test; minimal_nums_dec_to_decorated_interval_mixedtype_test; minimal_text_to_interval_test; minimal_text_to_decorated_interval_test; minimal_copy_test; minimal_copy_dec_test; minimal_convert_type_test; minimal_convert_type_dec_test; minimal_interval_part_test; minimal_interval_part_mixedtype_test; minimal_new_dec_test; minimal_new_dec_mixedtype_test; minimal_set_dec_test; minimal_set_dec_mixedtype_test; minimal_decoration_part_test] = [].
Proof. vm_compute. reflexivity. Qed.
