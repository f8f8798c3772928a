(** * The checks of the unit tests in /repo/test/p1788/flavor/infsup/setbased/
    test_mpfr_bin_ieee754_flavor_elem_func.cpp, run on the model

    One definition per test case of that file, the number before a check is its
    line there.  These are tests of the model, not proofs about it. *)

From Coq Require Import ZArith NArith Bool List.
From Flocq Require Import IEEE754.BinarySingleNaN.
From Verif Require Import Fmt Spec Exc Deco MBase MBool MArith MElem MDec MNum MCancel MOverlap MClass MRev MRev1 MMixed Ex TestRun.
Import ListNotations.
Local Open Scope N_scope.

(** lines 60-86 *)
Definition minimal_pos_test : list (N * M bool) := [
  (62, (bind (@pos binary64 ((fl binary64 (1) (0)), (fl binary64 (1) (1)))) (fun v1 => ret (ieq v1 ((fl binary64 (1) (0)), (fl binary64 (1) (1)))))));
  (63, (bind (@pos binary64 (@empty binary64)) (fun v1 => @is_empty binary64 v1)));
  (64, (bind (@pos binary64 (@entire binary64)) (fun v1 => ret (ieq v1 (@entire binary64)))));
  (65, (bind (@pos binary64 ((fl binary64 (1) (0)), (@finf binary64))) (fun v1 => ret (ieq v1 ((fl binary64 (1) (0)), (@finf binary64))))));
  (66, (bind (@pos binary64 ((@fminf binary64), (fl binary64 (-1) (0)))) (fun v1 => ret (ieq v1 ((@fminf binary64), (fl binary64 (-1) (0)))))));
  (67, (bind (@pos binary64 ((@f0 binary64), (fl binary64 (1) (1)))) (fun v1 => ret (ieq v1 ((@f0 binary64), (fl binary64 (1) (1)))))));
  (68, (bind (@pos binary64 ((@fm0 binary64), (fl binary64 (1) (1)))) (fun v1 => ret (ieq v1 ((@f0 binary64), (fl binary64 (1) (1)))))));
  (69, (bind (@pos binary64 ((fl binary64 (-5) (-1)), (@fm0 binary64))) (fun v1 => ret (ieq v1 ((fl binary64 (-5) (-1)), (@f0 binary64))))));
  (70, (bind (@pos binary64 ((fl binary64 (-5) (-1)), (@f0 binary64))) (fun v1 => ret (ieq v1 ((fl binary64 (-5) (-1)), (@f0 binary64))))));
  (71, (bind (@pos binary64 ((@fm0 binary64), (@fm0 binary64))) (fun v1 => ret (ieq v1 ((@f0 binary64), (@f0 binary64))))));
  (72, (bind (@pos binary64 ((@f0 binary64), (@f0 binary64))) (fun v1 => ret (ieq v1 ((@f0 binary64), (@f0 binary64))))));
  (75, (bind get_flags (fun v1 => ret (N.eqb v1 none_bit))));
  (77, clear_flags);
  (78, (bind (@pos binary64 ((fl binary64 (1) (0)), (fl binary64 (-1) (1)))) (fun v1 => @is_empty binary64 v1)));
  (79, (bind get_flags (fun v1 => ret (N.eqb v1 invalid_operand_bit))));
  (80, clear_flags);
  (81, (set_cwd invalid_operand_bit));
  (82, (throws (@pos binary64 ((fl binary64 (1) (0)), (fl binary64 (-1) (1)))) Invalid_operand_exception));
  (83, (bind get_flags (fun v1 => ret (N.eqb v1 invalid_operand_bit))));
  (84, clear_flags);
  (85, (set_cwd none_bit))].

(** lines 88-104 *)
Definition minimal_pos_mixedtype_test : list (N * M bool) := [
  (90, (bind (@pos_mixed binary32 binary64 ((fl binary64 (-6710887) (-18)), (fl binary64 (7205759403792793) (-56)))) (fun v1 => ret (ieq v1 ((fl binary32 (-6710887) (-18)), (fl binary32 (13421773) (-27)))))));
  (91, (bind (@pos_mixed binary32 binary64 ((fl binary64 (-6710887) (-18)), (fl binary64 (9007199254740991) (971)))) (fun v1 => ret (ieq v1 ((fl binary32 (-6710887) (-18)), (@finf binary32))))));
  (93, (bind get_flags (fun v1 => ret (N.eqb v1 none_bit))));
  (95, clear_flags);
  (96, (bind (@pos_mixed binary64 binary32 ((fl binary32 (1) (0)), (fl binary32 (-1) (1)))) (fun v1 => @is_empty binary64 v1)));
  (97, (bind get_flags (fun v1 => ret (N.eqb v1 invalid_operand_bit))));
  (98, clear_flags);
  (99, (set_cwd invalid_operand_bit));
  (100, (throws (@pos_mixed binary32 binary64 ((fl binary64 (1) (0)), (fl binary64 (-1) (1)))) Invalid_operand_exception));
  (101, (bind get_flags (fun v1 => ret (N.eqb v1 invalid_operand_bit))));
  (102, clear_flags);
  (103, (set_cwd none_bit))].

(** lines 106-124 *)
Definition minimal_pos_dec_test : list (N * M bool) := [
  (108, (bind (@pos_dec binary64 (@nai binary64)) (fun v1 => @is_nai binary64 v1)));
  (109, (bind (@pos_dec binary64 (@empty_dec binary64)) (fun v1 => @is_empty_dec binary64 v1)));
  (110, (bind (@pos_dec binary64 (@entire_dec binary64)) (fun v1 => ret (dieq v1 (@entire_dec binary64)))));
  (111, (bind (@pos_dec binary64 (((fl binary64 (1) (0)), (fl binary64 (1) (1))), com)) (fun v1 => ret (dieq v1 (((fl binary64 (1) (0)), (fl binary64 (1) (1))), com)))));
  (113, (bind get_flags (fun v1 => ret (N.eqb v1 none_bit))));
  (115, clear_flags);
  (116, (bind (@pos_dec binary64 (((fl binary64 (1) (0)), (fl binary64 (-1) (1))), com)) (fun v1 => @is_nai binary64 v1)));
  (117, (bind get_flags (fun v1 => ret (N.eqb v1 invalid_operand_bit))));
  (118, clear_flags);
  (119, (set_cwd invalid_operand_bit));
  (120, (throws (@pos_dec binary64 (((fl binary64 (1) (0)), (@finf binary64)), com)) Invalid_operand_exception));
  (121, (bind get_flags (fun v1 => ret (N.eqb v1 invalid_operand_bit))));
  (122, clear_flags);
  (123, (set_cwd none_bit))].

(** lines 126-142 *)
Definition minimal_pos_dec_mixedtype_test : list (N * M bool) := [
  (128, (bind (@pos_dec_mixed binary32 binary64 (((fl binary64 (-6710887) (-18)), (fl binary64 (7205759403792793) (-56))), com)) (fun v1 => ret (dieq v1 (((fl binary32 (-6710887) (-18)), (fl binary32 (13421773) (-27))), com)))));
  (129, (bind (@pos_dec_mixed binary32 binary64 (((fl binary64 (-6710887) (-18)), (fl binary64 (9007199254740991) (971))), com)) (fun v1 => ret (dieq v1 (((fl binary32 (-6710887) (-18)), (@finf binary32)), dac)))));
  (131, (bind get_flags (fun v1 => ret (N.eqb v1 none_bit))));
  (133, clear_flags);
  (134, (bind (@pos_dec_mixed binary32 binary64 (((fl binary64 (1) (0)), (fl binary64 (-1) (1))), com)) (fun v1 => @is_nai binary32 v1)));
  (135, (bind get_flags (fun v1 => ret (N.eqb v1 invalid_operand_bit))));
  (136, clear_flags);
  (137, (set_cwd invalid_operand_bit));
  (138, (throws (@pos_dec_mixed binary32 binary64 (((fl binary64 (1) (0)), (@finf binary64)), com)) Invalid_operand_exception));
  (139, (bind get_flags (fun v1 => ret (N.eqb v1 invalid_operand_bit))));
  (140, clear_flags);
  (141, (set_cwd none_bit))].

(** lines 146-171 *)
Definition minimal_neg_test : list (N * M bool) := [
  (148, (bind (@neg binary64 ((fl binary64 (1) (0)), (fl binary64 (1) (1)))) (fun v1 => ret (ieq v1 ((fl binary64 (-1) (1)), (fl binary64 (-1) (0)))))));
  (149, (bind (@neg binary64 (@empty binary64)) (fun v1 => @is_empty binary64 v1)));
  (150, (bind (@neg binary64 (@entire binary64)) (fun v1 => ret (ieq v1 (@entire binary64)))));
  (151, (bind (@neg binary64 ((fl binary64 (1) (0)), (@finf binary64))) (fun v1 => ret (ieq v1 ((@fminf binary64), (fl binary64 (-1) (0)))))));
  (152, (bind (@neg binary64 ((@fminf binary64), (fl binary64 (1) (0)))) (fun v1 => ret (ieq v1 ((fl binary64 (-1) (0)), (@finf binary64))))));
  (153, (bind (@neg binary64 ((@f0 binary64), (fl binary64 (1) (1)))) (fun v1 => ret (ieq v1 ((fl binary64 (-1) (1)), (@f0 binary64))))));
  (154, (bind (@neg binary64 ((@fm0 binary64), (fl binary64 (1) (1)))) (fun v1 => ret (ieq v1 ((fl binary64 (-1) (1)), (@f0 binary64))))));
  (155, (bind (@neg binary64 ((fl binary64 (-1) (1)), (@f0 binary64))) (fun v1 => ret (ieq v1 ((@f0 binary64), (fl binary64 (1) (1)))))));
  (156, (bind (@neg binary64 ((fl binary64 (-1) (1)), (@fm0 binary64))) (fun v1 => ret (ieq v1 ((@f0 binary64), (fl binary64 (1) (1)))))));
  (157, (bind (@neg binary64 ((@f0 binary64), (@fm0 binary64))) (fun v1 => ret (ieq v1 ((@f0 binary64), (@f0 binary64))))));
  (158, (bind (@neg binary64 ((@fm0 binary64), (@fm0 binary64))) (fun v1 => ret (ieq v1 ((@f0 binary64), (@f0 binary64))))));
  (160, (bind get_flags (fun v1 => ret (N.eqb v1 none_bit))));
  (162, clear_flags);
  (163, (bind (@neg binary64 ((fl binary64 (1) (0)), (fl binary64 (-1) (1)))) (fun v1 => @is_empty binary64 v1)));
  (164, (bind get_flags (fun v1 => ret (N.eqb v1 invalid_operand_bit))));
  (165, clear_flags);
  (166, (set_cwd invalid_operand_bit));
  (167, (throws (@neg binary64 ((fl binary64 (1) (0)), (fl binary64 (-1) (1)))) Invalid_operand_exception));
  (168, (bind get_flags (fun v1 => ret (N.eqb v1 invalid_operand_bit))));
  (169, clear_flags);
  (170, (set_cwd none_bit))].

(** lines 173-189 *)
Definition minimal_neg_mixedtype_test : list (N * M bool) := [
  (175, (bind (@neg_mixed binary32 binary64 ((fl binary64 (-6710887) (-18)), (fl binary64 (7205759403792793) (-56)))) (fun v1 => ret (ieq v1 ((fl binary32 (-13421773) (-27)), (fl binary32 (6710887) (-18)))))));
  (176, (bind (@neg_mixed binary32 binary64 ((fl binary64 (-6710887) (-18)), (fl binary64 (9007199254740991) (971)))) (fun v1 => ret (ieq v1 ((@fminf binary32), (fl binary32 (6710887) (-18)))))));
  (178, (bind get_flags (fun v1 => ret (N.eqb v1 none_bit))));
  (180, clear_flags);
  (181, (bind (@neg_mixed binary64 binary32 ((fl binary32 (1) (0)), (fl binary32 (-1) (1)))) (fun v1 => @is_empty binary64 v1)));
  (182, (bind get_flags (fun v1 => ret (N.eqb v1 invalid_operand_bit))));
  (183, clear_flags);
  (184, (set_cwd invalid_operand_bit));
  (185, (throws (@neg_mixed binary32 binary64 ((fl binary64 (1) (0)), (fl binary64 (-1) (1)))) Invalid_operand_exception));
  (186, (bind get_flags (fun v1 => ret (N.eqb v1 invalid_operand_bit))));
  (187, clear_flags);
  (188, (set_cwd none_bit))].

(** lines 191-209 *)
Definition minimal_neg_dec_test : list (N * M bool) := [
  (193, (bind (@neg_dec binary64 (@nai binary64)) (fun v1 => @is_nai binary64 v1)));
  (194, (bind (@neg_dec binary64 (@empty_dec binary64)) (fun v1 => @is_empty_dec binary64 v1)));
  (195, (bind (@neg_dec binary64 (@entire_dec binary64)) (fun v1 => ret (dieq v1 (@entire_dec binary64)))));
  (196, (bind (@neg_dec binary64 (((fl binary64 (1) (0)), (fl binary64 (1) (1))), com)) (fun v1 => ret (dieq v1 (((fl binary64 (-1) (1)), (fl binary64 (-1) (0))), com)))));
  (198, (bind get_flags (fun v1 => ret (N.eqb v1 none_bit))));
  (200, clear_flags);
  (201, (bind (@neg_dec binary64 (((fl binary64 (1) (0)), (fl binary64 (-1) (1))), com)) (fun v1 => @is_nai binary64 v1)));
  (202, (bind get_flags (fun v1 => ret (N.eqb v1 invalid_operand_bit))));
  (203, clear_flags);
  (204, (set_cwd invalid_operand_bit));
  (205, (throws (@neg_dec binary64 (((fl binary64 (1) (0)), (@finf binary64)), com)) Invalid_operand_exception));
  (206, (bind get_flags (fun v1 => ret (N.eqb v1 invalid_operand_bit))));
  (207, clear_flags);
  (208, (set_cwd none_bit))].

(** lines 211-227 *)
Definition minimal_neg_dec_mixedtype_test : list (N * M bool) := [
  (213, (bind (@neg_dec_mixed binary32 binary64 (((fl binary64 (-6710887) (-18)), (fl binary64 (7205759403792793) (-56))), com)) (fun v1 => ret (dieq v1 (((fl binary32 (-13421773) (-27)), (fl binary32 (6710887) (-18))), com)))));
  (214, (bind (@neg_dec_mixed binary32 binary64 (((fl binary64 (-6710887) (-18)), (fl binary64 (9007199254740991) (971))), com)) (fun v1 => ret (dieq v1 (((@fminf binary32), (fl binary32 (6710887) (-18))), dac)))));
  (216, (bind get_flags (fun v1 => ret (N.eqb v1 none_bit))));
  (218, clear_flags);
  (219, (bind (@neg_dec_mixed binary32 binary64 (((fl binary64 (1) (0)), (fl binary64 (-1) (1))), com)) (fun v1 => @is_nai binary32 v1)));
  (220, (bind get_flags (fun v1 => ret (N.eqb v1 invalid_operand_bit))));
  (221, clear_flags);
  (222, (set_cwd invalid_operand_bit));
  (223, (throws (@neg_dec_mixed binary32 binary64 (((fl binary64 (1) (0)), (@finf binary64)), com)) Invalid_operand_exception));
  (224, (bind get_flags (fun v1 => ret (N.eqb v1 invalid_operand_bit))));
  (225, clear_flags);
  (226, (set_cwd none_bit))].

(** lines 231-285 *)
Definition minimal_add_test : list (N * M bool) := [
  (233, (bind (@add binary64 (@empty binary64) (@empty binary64)) (fun v1 => @is_empty binary64 v1)));
  (234, (bind (@add binary64 ((fl binary64 (-1) (0)), (fl binary64 (1) (0))) (@empty binary64)) (fun v1 => @is_empty binary64 v1)));
  (235, (bind (@add binary64 (@empty binary64) ((fl binary64 (-1) (0)), (fl binary64 (1) (0)))) (fun v1 => @is_empty binary64 v1)));
  (236, (bind (@add binary64 (@empty binary64) (@entire binary64)) (fun v1 => @is_empty binary64 v1)));
  (237, (bind (@add binary64 (@entire binary64) (@empty binary64)) (fun v1 => @is_empty binary64 v1)));
  (239, (bind (@add binary64 (@entire binary64) ((@fminf binary64), (fl binary64 (1) (0)))) (fun v1 => ret (ieq v1 (@entire binary64)))));
  (240, (bind (@add binary64 (@entire binary64) ((fl binary64 (-1) (0)), (fl binary64 (1) (0)))) (fun v1 => ret (ieq v1 (@entire binary64)))));
  (242, (bind (@add binary64 (@entire binary64) ((fl binary64 (-1) (0)), (@finf binary64))) (fun v1 => ret (ieq v1 (@entire binary64)))));
  (243, (bind (@add binary64 (@entire binary64) (@entire binary64)) (fun v1 => ret (ieq v1 (@entire binary64)))));
  (244, (bind (@add binary64 ((@fminf binary64), (fl binary64 (1) (0))) (@entire binary64)) (fun v1 => ret (ieq v1 (@entire binary64)))));
  (245, (bind (@add binary64 ((fl binary64 (-1) (0)), (fl binary64 (1) (0))) (@entire binary64)) (fun v1 => ret (ieq v1 (@entire binary64)))));
  (246, (bind (@add binary64 ((fl binary64 (-1) (0)), (@finf binary64)) (@entire binary64)) (fun v1 => ret (ieq v1 (@entire binary64)))));
  (248, (bind (@add binary64 ((@fminf binary64), (fl binary64 (1) (1))) ((@fminf binary64), (fl binary64 (1) (2)))) (fun v1 => ret (ieq v1 ((@fminf binary64), (fl binary64 (3) (1)))))));
  (249, (bind (@add binary64 ((@fminf binary64), (fl binary64 (1) (1))) ((fl binary64 (3) (0)), (fl binary64 (1) (2)))) (fun v1 => ret (ieq v1 ((@fminf binary64), (fl binary64 (3) (1)))))));
  (250, (bind (@add binary64 ((@fminf binary64), (fl binary64 (1) (1))) ((fl binary64 (3) (0)), (@finf binary64))) (fun v1 => ret (ieq v1 (@entire binary64)))));
  (252, (bind (@add binary64 ((fl binary64 (1) (0)), (fl binary64 (1) (1))) ((@fminf binary64), (fl binary64 (1) (2)))) (fun v1 => ret (ieq v1 ((@fminf binary64), (fl binary64 (3) (1)))))));
  (253, (bind (@add binary64 ((fl binary64 (1) (0)), (fl binary64 (1) (1))) ((fl binary64 (3) (0)), (fl binary64 (1) (2)))) (fun v1 => ret (ieq v1 ((fl binary64 (1) (2)), (fl binary64 (3) (1)))))));
  (254, (bind (@add binary64 ((fl binary64 (1) (0)), (fl binary64 (1) (1))) ((fl binary64 (3) (0)), (@finf binary64))) (fun v1 => ret (ieq v1 ((fl binary64 (1) (2)), (@finf binary64))))));
  (256, (bind (@add binary64 ((fl binary64 (1) (0)), (@finf binary64)) ((@fminf binary64), (fl binary64 (1) (2)))) (fun v1 => ret (ieq v1 (@entire binary64)))));
  (257, (bind (@add binary64 ((fl binary64 (1) (0)), (@finf binary64)) ((fl binary64 (3) (0)), (fl binary64 (1) (2)))) (fun v1 => ret (ieq v1 ((fl binary64 (1) (2)), (@finf binary64))))));
  (258, (bind (@add binary64 ((fl binary64 (1) (0)), (@finf binary64)) ((fl binary64 (3) (0)), (@finf binary64))) (fun v1 => ret (ieq v1 ((fl binary64 (1) (2)), (@finf binary64))))));
  (260, (bind (@add binary64 ((fl binary64 (1) (0)), (fl binary64 (9007199254740991) (971))) ((fl binary64 (3) (0)), (fl binary64 (1) (2)))) (fun v1 => ret (ieq v1 ((fl binary64 (1) (2)), (@finf binary64))))));
  (261, (bind (@add binary64 ((fl binary64 (-9007199254740991) (971)), (fl binary64 (1) (1))) ((fl binary64 (-3) (0)), (fl binary64 (1) (2)))) (fun v1 => ret (ieq v1 ((@fminf binary64), (fl binary64 (3) (1)))))));
  (262, (bind (@add binary64 ((fl binary64 (-9007199254740991) (971)), (fl binary64 (1) (1))) ((fl binary64 (-3) (0)), (fl binary64 (9007199254740991) (971)))) (fun v1 => ret (ieq v1 (@entire binary64)))));
  (264, (bind (@add binary64 ((fl binary64 (1) (0)), (fl binary64 (9007199254740991) (971))) ((@f0 binary64), (@f0 binary64))) (fun v1 => ret (ieq v1 ((fl binary64 (1) (0)), (fl binary64 (9007199254740991) (971)))))));
  (265, (bind (@add binary64 ((fl binary64 (1) (0)), (fl binary64 (9007199254740991) (971))) ((@fm0 binary64), (@fm0 binary64))) (fun v1 => ret (ieq v1 ((fl binary64 (1) (0)), (fl binary64 (9007199254740991) (971)))))));
  (266, (bind (@add binary64 ((@f0 binary64), (@f0 binary64)) ((fl binary64 (-3) (0)), (fl binary64 (1) (2)))) (fun v1 => ret (ieq v1 ((fl binary64 (-3) (0)), (fl binary64 (1) (2)))))));
  (267, (bind (@add binary64 ((@fm0 binary64), (@fm0 binary64)) ((fl binary64 (-3) (0)), (fl binary64 (9007199254740991) (971)))) (fun v1 => ret (ieq v1 ((fl binary64 (-3) (0)), (fl binary64 (9007199254740991) (971)))))));
  (269, (bind (@add binary64 ((fl binary64 (562949953421311) (-48)), (fl binary64 (562949953421311) (-48))) ((fl binary64 (3602879701896397) (-55)), (fl binary64 (3602879701896397) (-55)))) (fun v1 => ret (ieq v1 ((fl binary64 (1182194902184753) (-49)), (fl binary64 (4728779608739013) (-51)))))));
  (270, (bind (@add binary64 ((fl binary64 (562949953421311) (-48)), (fl binary64 (562949953421311) (-48))) ((fl binary64 (-3602879701896397) (-55)), (fl binary64 (-3602879701896397) (-55)))) (fun v1 => ret (ieq v1 ((fl binary64 (4278419646001963) (-51)), (fl binary64 (8556839292003927) (-52)))))));
  (271, (bind (@add binary64 ((fl binary64 (-562949953421311) (-48)), (fl binary64 (562949953421311) (-48))) ((fl binary64 (3602879701896397) (-55)), (fl binary64 (3602879701896397) (-55)))) (fun v1 => ret (ieq v1 ((fl binary64 (-8556839292003927) (-52)), (fl binary64 (4728779608739013) (-51)))))));
  (274, (bind get_flags (fun v1 => ret (N.eqb v1 none_bit))));
  (276, clear_flags);
  (277, (bind (@add binary64 ((fl binary64 (1) (0)), (fl binary64 (-9007199254740991) (971))) ((fl binary64 (3) (0)), (fl binary64 (1) (2)))) (fun v1 => @is_empty binary64 v1)));
  (278, (bind get_flags (fun v1 => ret (N.eqb v1 invalid_operand_bit))));
  (279, clear_flags);
  (280, (set_cwd invalid_operand_bit));
  (281, (throws (@add binary64 ((fl binary64 (1) (0)), (fl binary64 (9007199254740991) (971))) ((fl binary64 (3) (0)), (fl binary64 (-1) (2)))) Invalid_operand_exception));
  (282, (bind get_flags (fun v1 => ret (N.eqb v1 invalid_operand_bit))));
  (283, clear_flags);
  (284, (set_cwd none_bit))].

(** lines 287-305 *)
Definition minimal_add_mixedtype_test : list (N * M bool) := [
  (289, (bind (@add_mixed binary32 binary64 binary64 ((fl binary64 (562949953421311) (-48)), (fl binary64 (562949953421311) (-48))) ((fl binary64 (3602879701896397) (-55)), (fl binary64 (3602879701896397) (-55)))) (fun v1 => ret (ieq v1 ((fl binary32 (4404019) (-21)), (fl binary32 (8808039) (-22)))))));
  (290, (bind (@add_mixed binary32 binary64 binary64 ((fl binary64 (562949953421311) (-48)), (fl binary64 (562949953421311) (-48))) ((fl binary64 (-3602879701896397) (-55)), (fl binary64 (-3602879701896397) (-55)))) (fun v1 => ret (ieq v1 ((fl binary32 (15938355) (-23)), (fl binary32 (3984589) (-21)))))));
  (291, (bind (@add_mixed binary64 binary32 binary32 ((fl binary32 (-1) (1)), (fl binary32 (1) (1))) ((fl binary32 (13421773) (-27)), (fl binary32 (13421773) (-27)))) (fun v1 => ret (ieq v1 ((fl binary64 (-255013683) (-27)), (fl binary64 (281857229) (-27)))))));
  (294, (bind get_flags (fun v1 => ret (N.eqb v1 none_bit))));
  (296, clear_flags);
  (297, (bind (@add_mixed binary32 binary64 binary32 ((fl binary64 (1) (0)), (fl binary64 (-9007199254740991) (971))) ((fl binary32 (3) (0)), (fl binary32 (1) (2)))) (fun v1 => @is_empty binary32 v1)));
  (298, (bind get_flags (fun v1 => ret (N.eqb v1 invalid_operand_bit))));
  (299, clear_flags);
  (300, (set_cwd invalid_operand_bit));
  (301, (throws (@add_mixed binary64 binary32 binary32 ((fl binary32 (1) (0)), (fl binary32 (16777215) (104))) ((fl binary32 (3) (0)), (fl binary32 (-1) (2)))) Invalid_operand_exception));
  (302, (bind get_flags (fun v1 => ret (N.eqb v1 invalid_operand_bit))));
  (303, clear_flags);
  (304, (set_cwd none_bit))].

(** lines 307-328 *)
Definition minimal_add_dec_test : list (N * M bool) := [
  (309, (bind (@add_dec binary64 (((fl binary64 (1) (0)), (fl binary64 (1) (1))), com) (((fl binary64 (5) (0)), (fl binary64 (7) (0))), com)) (fun v1 => ret (dieq v1 (((fl binary64 (3) (1)), (fl binary64 (9) (0))), com)))));
  (310, (bind (@add_dec binary64 (((fl binary64 (1) (0)), (fl binary64 (1) (1))), com) (((fl binary64 (5) (0)), (fl binary64 (7) (0))), def)) (fun v1 => ret (dieq v1 (((fl binary64 (3) (1)), (fl binary64 (9) (0))), def)))));
  (311, (bind (@add_dec binary64 (((fl binary64 (1) (0)), (fl binary64 (1) (1))), com) (((fl binary64 (5) (0)), (fl binary64 (9007199254740991) (971))), com)) (fun v1 => ret (dieq v1 (((fl binary64 (3) (1)), (@finf binary64)), dac)))));
  (312, (bind (@add_dec binary64 (((fl binary64 (-9007199254740991) (971)), (fl binary64 (1) (1))), com) (((fl binary64 (-3602879701896397) (-55)), (fl binary64 (5) (0))), com)) (fun v1 => ret (dieq v1 (((@fminf binary64), (fl binary64 (7) (0))), dac)))));
  (313, (bind (@add_dec binary64 (((fl binary64 (1) (0)), (fl binary64 (1) (1))), trv) (@empty_dec binary64)) (fun v1 => @is_empty_dec binary64 v1)));
  (314, (bind (@add_dec binary64 (@nai binary64) (((fl binary64 (1) (0)), (fl binary64 (1) (1))), trv)) (fun v1 => @is_nai binary64 v1)));
  (317, (bind get_flags (fun v1 => ret (N.eqb v1 none_bit))));
  (319, clear_flags);
  (320, (bind (@add_dec binary64 (((fl binary64 (1) (0)), (fl binary64 (-1) (1))), com) (((fl binary64 (5) (0)), (fl binary64 (7) (0))), com)) (fun v1 => @is_nai binary64 v1)));
  (321, (bind get_flags (fun v1 => ret (N.eqb v1 invalid_operand_bit))));
  (322, clear_flags);
  (323, (set_cwd invalid_operand_bit));
  (324, (throws (@add_dec binary64 (((fl binary64 (1) (0)), (@finf binary64)), com) (((fl binary64 (5) (0)), (fl binary64 (7) (0))), com)) Invalid_operand_exception));
  (325, (bind get_flags (fun v1 => ret (N.eqb v1 invalid_operand_bit))));
  (326, clear_flags);
  (327, (set_cwd none_bit))].

(** lines 330-346 *)
Definition minimal_add_dec_mixedtype_test : list (N * M bool) := [
  (332, (bind (@add_dec_mixed binary32 binary64 binary64 (((fl binary64 (562949953421311) (-48)), (fl binary64 (562949953421311) (-48))), com) (((fl binary64 (3602879701896397) (-55)), (fl binary64 (3602879701896397) (-55))), com)) (fun v1 => ret (dieq v1 (((fl binary32 (4404019) (-21)), (fl binary32 (8808039) (-22))), com)))));
  (333, (bind (@add_dec_mixed binary32 binary64 binary64 (((fl binary64 (562949953421311) (-48)), (fl binary64 (562949953421311) (-48))), def) (((fl binary64 (3602879701896397) (-55)), (fl binary64 (3602879701896397) (-55))), com)) (fun v1 => ret (dieq v1 (((fl binary32 (4404019) (-21)), (fl binary32 (8808039) (-22))), def)))));
  (335, (bind get_flags (fun v1 => ret (N.eqb v1 none_bit))));
  (337, clear_flags);
  (338, (bind (@add_dec_mixed binary64 binary32 binary64 (((fl binary32 (1) (0)), (fl binary32 (-1) (1))), com) (((fl binary64 (5) (0)), (fl binary64 (7) (0))), com)) (fun v1 => @is_nai binary64 v1)));
  (339, (bind get_flags (fun v1 => ret (N.eqb v1 invalid_operand_bit))));
  (340, clear_flags);
  (341, (set_cwd invalid_operand_bit));
  (342, (throws (@add_dec_mixed binary32 binary64 binary64 (((fl binary64 (1) (0)), (@finf binary64)), com) (((fl binary64 (5) (0)), (fl binary64 (7) (0))), com)) Invalid_operand_exception));
  (343, (bind get_flags (fun v1 => ret (N.eqb v1 invalid_operand_bit))));
  (344, clear_flags);
  (345, (set_cwd none_bit))].

(** lines 350-403 *)
Definition minimal_sub_test : list (N * M bool) := [
  (352, (bind (@sub binary64 (@empty binary64) (@empty binary64)) (fun v1 => @is_empty binary64 v1)));
  (353, (bind (@sub binary64 ((fl binary64 (-1) (0)), (fl binary64 (1) (0))) (@empty binary64)) (fun v1 => @is_empty binary64 v1)));
  (354, (bind (@sub binary64 (@empty binary64) ((fl binary64 (-1) (0)), (fl binary64 (1) (0)))) (fun v1 => @is_empty binary64 v1)));
  (355, (bind (@sub binary64 (@empty binary64) (@entire binary64)) (fun v1 => @is_empty binary64 v1)));
  (356, (bind (@sub binary64 (@entire binary64) (@empty binary64)) (fun v1 => @is_empty binary64 v1)));
  (358, (bind (@sub binary64 (@entire binary64) ((@fminf binary64), (fl binary64 (1) (0)))) (fun v1 => ret (ieq v1 (@entire binary64)))));
  (359, (bind (@sub binary64 (@entire binary64) ((fl binary64 (-1) (0)), (fl binary64 (1) (0)))) (fun v1 => ret (ieq v1 (@entire binary64)))));
  (360, (bind (@sub binary64 (@entire binary64) ((fl binary64 (-1) (0)), (@finf binary64))) (fun v1 => ret (ieq v1 (@entire binary64)))));
  (361, (bind (@sub binary64 (@entire binary64) (@entire binary64)) (fun v1 => ret (ieq v1 (@entire binary64)))));
  (362, (bind (@sub binary64 ((@fminf binary64), (fl binary64 (1) (0))) (@entire binary64)) (fun v1 => ret (ieq v1 (@entire binary64)))));
  (363, (bind (@sub binary64 ((fl binary64 (-1) (0)), (fl binary64 (1) (0))) (@entire binary64)) (fun v1 => ret (ieq v1 (@entire binary64)))));
  (364, (bind (@sub binary64 ((fl binary64 (-1) (0)), (@finf binary64)) (@entire binary64)) (fun v1 => ret (ieq v1 (@entire binary64)))));
  (366, (bind (@sub binary64 ((@fminf binary64), (fl binary64 (1) (1))) ((@fminf binary64), (fl binary64 (1) (2)))) (fun v1 => ret (ieq v1 (@entire binary64)))));
  (367, (bind (@sub binary64 ((@fminf binary64), (fl binary64 (1) (1))) ((fl binary64 (3) (0)), (fl binary64 (1) (2)))) (fun v1 => ret (ieq v1 ((@fminf binary64), (fl binary64 (-1) (0)))))));
  (368, (bind (@sub binary64 ((@fminf binary64), (fl binary64 (1) (1))) ((fl binary64 (3) (0)), (@finf binary64))) (fun v1 => ret (ieq v1 ((@fminf binary64), (fl binary64 (-1) (0)))))));
  (370, (bind (@sub binary64 ((fl binary64 (1) (0)), (fl binary64 (1) (1))) ((@fminf binary64), (fl binary64 (1) (2)))) (fun v1 => ret (ieq v1 ((fl binary64 (-3) (0)), (@finf binary64))))));
  (371, (bind (@sub binary64 ((fl binary64 (1) (0)), (fl binary64 (1) (1))) ((fl binary64 (3) (0)), (fl binary64 (1) (2)))) (fun v1 => ret (ieq v1 ((fl binary64 (-3) (0)), (fl binary64 (-1) (0)))))));
  (372, (bind (@sub binary64 ((fl binary64 (1) (0)), (fl binary64 (1) (1))) ((fl binary64 (3) (0)), (@finf binary64))) (fun v1 => ret (ieq v1 ((@fminf binary64), (fl binary64 (-1) (0)))))));
  (374, (bind (@sub binary64 ((fl binary64 (1) (0)), (@finf binary64)) ((@fminf binary64), (fl binary64 (1) (2)))) (fun v1 => ret (ieq v1 ((fl binary64 (-3) (0)), (@finf binary64))))));
  (375, (bind (@sub binary64 ((fl binary64 (1) (0)), (@finf binary64)) ((fl binary64 (3) (0)), (fl binary64 (1) (2)))) (fun v1 => ret (ieq v1 ((fl binary64 (-3) (0)), (@finf binary64))))));
  (376, (bind (@sub binary64 ((fl binary64 (1) (0)), (@finf binary64)) ((fl binary64 (3) (0)), (@finf binary64))) (fun v1 => ret (ieq v1 (@entire binary64)))));
  (378, (bind (@sub binary64 ((fl binary64 (1) (0)), (fl binary64 (9007199254740991) (971))) ((fl binary64 (-3) (0)), (fl binary64 (1) (2)))) (fun v1 => ret (ieq v1 ((fl binary64 (-3) (0)), (@finf binary64))))));
  (379, (bind (@sub binary64 ((fl binary64 (-9007199254740991) (971)), (fl binary64 (1) (1))) ((fl binary64 (3) (0)), (fl binary64 (1) (2)))) (fun v1 => ret (ieq v1 ((@fminf binary64), (fl binary64 (-1) (0)))))));
  (380, (bind (@sub binary64 ((fl binary64 (-9007199254740991) (971)), (fl binary64 (1) (1))) ((fl binary64 (-9007199254740991) (971)), (fl binary64 (1) (2)))) (fun v1 => ret (ieq v1 (@entire binary64)))));
  (382, (bind (@sub binary64 ((fl binary64 (1) (0)), (fl binary64 (9007199254740991) (971))) ((@f0 binary64), (@f0 binary64))) (fun v1 => ret (ieq v1 ((fl binary64 (1) (0)), (fl binary64 (9007199254740991) (971)))))));
  (383, (bind (@sub binary64 ((fl binary64 (1) (0)), (fl binary64 (9007199254740991) (971))) ((@fm0 binary64), (@fm0 binary64))) (fun v1 => ret (ieq v1 ((fl binary64 (1) (0)), (fl binary64 (9007199254740991) (971)))))));
  (384, (bind (@sub binary64 ((@f0 binary64), (@f0 binary64)) ((fl binary64 (-3) (0)), (fl binary64 (1) (2)))) (fun v1 => ret (ieq v1 ((fl binary64 (-1) (2)), (fl binary64 (3) (0)))))));
  (385, (bind (@sub binary64 ((@fm0 binary64), (@fm0 binary64)) ((fl binary64 (-3) (0)), (fl binary64 (9007199254740991) (971)))) (fun v1 => ret (ieq v1 ((fl binary64 (-9007199254740991) (971)), (fl binary64 (3) (0)))))));
  (387, (bind (@sub binary64 ((fl binary64 (562949953421311) (-48)), (fl binary64 (562949953421311) (-48))) ((fl binary64 (3602879701896397) (-55)), (fl binary64 (3602879701896397) (-55)))) (fun v1 => ret (ieq v1 ((fl binary64 (4278419646001963) (-51)), (fl binary64 (8556839292003927) (-52)))))));
  (388, (bind (@sub binary64 ((fl binary64 (562949953421311) (-48)), (fl binary64 (562949953421311) (-48))) ((fl binary64 (-3602879701896397) (-55)), (fl binary64 (-3602879701896397) (-55)))) (fun v1 => ret (ieq v1 ((fl binary64 (1182194902184753) (-49)), (fl binary64 (4728779608739013) (-51)))))));
  (389, (bind (@sub binary64 ((fl binary64 (-562949953421311) (-48)), (fl binary64 (562949953421311) (-48))) ((fl binary64 (3602879701896397) (-55)), (fl binary64 (3602879701896397) (-55)))) (fun v1 => ret (ieq v1 ((fl binary64 (-4728779608739013) (-51)), (fl binary64 (8556839292003927) (-52)))))));
  (392, (bind get_flags (fun v1 => ret (N.eqb v1 none_bit))));
  (394, clear_flags);
  (395, (bind (@sub binary64 ((fl binary64 (1) (0)), (fl binary64 (-9007199254740991) (971))) ((fl binary64 (3) (0)), (fl binary64 (1) (2)))) (fun v1 => @is_empty binary64 v1)));
  (396, (bind get_flags (fun v1 => ret (N.eqb v1 invalid_operand_bit))));
  (397, clear_flags);
  (398, (set_cwd invalid_operand_bit));
  (399, (throws (@sub binary64 ((fl binary64 (1) (0)), (fl binary64 (9007199254740991) (971))) ((fl binary64 (3) (0)), (fl binary64 (-1) (2)))) Invalid_operand_exception));
  (400, (bind get_flags (fun v1 => ret (N.eqb v1 invalid_operand_bit))));
  (401, clear_flags);
  (402, (set_cwd none_bit))].

(** lines 405-422 *)
Definition minimal_sub_mixedtype_test : list (N * M bool) := [
  (407, (bind (@sub_mixed binary32 binary64 binary64 ((fl binary64 (562949953421311) (-48)), (fl binary64 (562949953421311) (-48))) ((fl binary64 (3602879701896397) (-55)), (fl binary64 (3602879701896397) (-55)))) (fun v1 => ret (ieq v1 ((fl binary32 (15938355) (-23)), (fl binary32 (3984589) (-21)))))));
  (408, (bind (@sub_mixed binary32 binary64 binary64 ((fl binary64 (562949953421311) (-48)), (fl binary64 (562949953421311) (-48))) ((fl binary64 (-3602879701896397) (-55)), (fl binary64 (-3602879701896397) (-55)))) (fun v1 => ret (ieq v1 ((fl binary32 (4404019) (-21)), (fl binary32 (8808039) (-22)))))));
  (409, (bind (@sub_mixed binary64 binary32 binary32 ((fl binary32 (-1) (1)), (fl binary32 (1) (1))) ((fl binary32 (13421773) (-27)), (fl binary32 (13421773) (-27)))) (fun v1 => ret (ieq v1 ((fl binary64 (-281857229) (-27)), (fl binary64 (255013683) (-27)))))));
  (411, (bind get_flags (fun v1 => ret (N.eqb v1 none_bit))));
  (413, clear_flags);
  (414, (bind (@sub_mixed binary32 binary64 binary32 ((fl binary64 (1) (0)), (fl binary64 (-9007199254740991) (971))) ((fl binary32 (3) (0)), (fl binary32 (1) (2)))) (fun v1 => @is_empty binary32 v1)));
  (415, (bind get_flags (fun v1 => ret (N.eqb v1 invalid_operand_bit))));
  (416, clear_flags);
  (417, (set_cwd invalid_operand_bit));
  (418, (throws (@sub_mixed binary64 binary32 binary32 ((fl binary32 (1) (0)), (fl binary32 (16777215) (104))) ((fl binary32 (3) (0)), (fl binary32 (-1) (2)))) Invalid_operand_exception));
  (419, (bind get_flags (fun v1 => ret (N.eqb v1 invalid_operand_bit))));
  (420, clear_flags);
  (421, (set_cwd none_bit))].

(** lines 424-444 *)
Definition minimal_sub_dec_test : list (N * M bool) := [
  (426, (bind (@sub_dec binary64 (((fl binary64 (1) (0)), (fl binary64 (1) (1))), com) (((fl binary64 (5) (0)), (fl binary64 (7) (0))), com)) (fun v1 => ret (dieq v1 (((fl binary64 (-3) (1)), (fl binary64 (-3) (0))), com)))));
  (427, (bind (@sub_dec binary64 (((fl binary64 (1) (0)), (fl binary64 (1) (1))), com) (((fl binary64 (5) (0)), (fl binary64 (7) (0))), def)) (fun v1 => ret (dieq v1 (((fl binary64 (-3) (1)), (fl binary64 (-3) (0))), def)))));
  (428, (bind (@sub_dec binary64 (((fl binary64 (-1) (0)), (fl binary64 (1) (1))), com) (((fl binary64 (5) (0)), (fl binary64 (9007199254740991) (971))), com)) (fun v1 => ret (dieq v1 (((@fminf binary64), (fl binary64 (-3) (0))), dac)))));
  (429, (bind (@sub_dec binary64 (((fl binary64 (-9007199254740991) (971)), (fl binary64 (1) (1))), com) (((fl binary64 (-1) (0)), (fl binary64 (5) (0))), com)) (fun v1 => ret (dieq v1 (((@fminf binary64), (fl binary64 (3) (0))), dac)))));
  (430, (bind (@sub_dec binary64 (((fl binary64 (1) (0)), (fl binary64 (1) (1))), trv) (@empty_dec binary64)) (fun v1 => @is_empty_dec binary64 v1)));
  (431, (bind (@sub_dec binary64 (@nai binary64) (((fl binary64 (1) (0)), (fl binary64 (1) (1))), trv)) (fun v1 => @is_nai binary64 v1)));
  (433, (bind get_flags (fun v1 => ret (N.eqb v1 none_bit))));
  (435, clear_flags);
  (436, (bind (@sub_dec binary64 (((fl binary64 (1) (0)), (fl binary64 (-1) (1))), com) (((fl binary64 (5) (0)), (fl binary64 (7) (0))), com)) (fun v1 => @is_nai binary64 v1)));
  (437, (bind get_flags (fun v1 => ret (N.eqb v1 invalid_operand_bit))));
  (438, clear_flags);
  (439, (set_cwd invalid_operand_bit));
  (440, (throws (@sub_dec binary64 (((fl binary64 (1) (0)), (@finf binary64)), com) (((fl binary64 (5) (0)), (fl binary64 (7) (0))), com)) Invalid_operand_exception));
  (441, (bind get_flags (fun v1 => ret (N.eqb v1 invalid_operand_bit))));
  (442, clear_flags);
  (443, (set_cwd none_bit))].

(** lines 446-462 *)
Definition minimal_sub_dec_mixedtype_test : list (N * M bool) := [
  (448, (bind (@sub_dec_mixed binary32 binary64 binary64 (((fl binary64 (562949953421311) (-48)), (fl binary64 (562949953421311) (-48))), com) (((fl binary64 (3602879701896397) (-55)), (fl binary64 (3602879701896397) (-55))), com)) (fun v1 => ret (dieq v1 (((fl binary32 (15938355) (-23)), (fl binary32 (3984589) (-21))), com)))));
  (449, (bind (@sub_dec_mixed binary32 binary64 binary64 (((fl binary64 (562949953421311) (-48)), (fl binary64 (562949953421311) (-48))), def) (((fl binary64 (3602879701896397) (-55)), (fl binary64 (3602879701896397) (-55))), com)) (fun v1 => ret (dieq v1 (((fl binary32 (15938355) (-23)), (fl binary32 (3984589) (-21))), def)))));
  (451, (bind get_flags (fun v1 => ret (N.eqb v1 none_bit))));
  (453, clear_flags);
  (454, (bind (@sub_dec_mixed binary64 binary32 binary64 (((fl binary32 (1) (0)), (fl binary32 (-1) (1))), com) (((fl binary64 (5) (0)), (fl binary64 (7) (0))), com)) (fun v1 => @is_nai binary64 v1)));
  (455, (bind get_flags (fun v1 => ret (N.eqb v1 invalid_operand_bit))));
  (456, clear_flags);
  (457, (set_cwd invalid_operand_bit));
  (458, (throws (@sub_dec_mixed binary32 binary64 binary64 (((fl binary64 (1) (0)), (@finf binary64)), com) (((fl binary64 (5) (0)), (fl binary64 (7) (0))), com)) Invalid_operand_exception));
  (459, (bind get_flags (fun v1 => ret (N.eqb v1 invalid_operand_bit))));
  (460, clear_flags);
  (461, (set_cwd none_bit))].

(** lines 467-614 *)
Definition minimal_mul_test : list (N * M bool) := [
  (469, (bind (@mul binary64 (@empty binary64) (@empty binary64)) (fun v1 => @is_empty binary64 v1)));
  (470, (bind (@mul binary64 ((fl binary64 (-1) (0)), (fl binary64 (1) (0))) (@empty binary64)) (fun v1 => @is_empty binary64 v1)));
  (471, (bind (@mul binary64 (@empty binary64) ((fl binary64 (-1) (0)), (fl binary64 (1) (0)))) (fun v1 => @is_empty binary64 v1)));
  (472, (bind (@mul binary64 (@empty binary64) (@entire binary64)) (fun v1 => @is_empty binary64 v1)));
  (473, (bind (@mul binary64 (@entire binary64) (@empty binary64)) (fun v1 => @is_empty binary64 v1)));
  (474, (bind (@mul binary64 ((@f0 binary64), (@f0 binary64)) (@empty binary64)) (fun v1 => @is_empty binary64 v1)));
  (475, (bind (@mul binary64 (@empty binary64) ((@f0 binary64), (@f0 binary64))) (fun v1 => @is_empty binary64 v1)));
  (476, (bind (@mul binary64 ((@fm0 binary64), (@fm0 binary64)) (@empty binary64)) (fun v1 => @is_empty binary64 v1)));
  (477, (bind (@mul binary64 (@empty binary64) ((@fm0 binary64), (@fm0 binary64))) (fun v1 => @is_empty binary64 v1)));
  (479, (bind (@mul binary64 (@entire binary64) ((@f0 binary64), (@f0 binary64))) (fun v1 => ret (ieq v1 ((@f0 binary64), (@f0 binary64))))));
  (480, (bind (@mul binary64 (@entire binary64) ((@fm0 binary64), (@fm0 binary64))) (fun v1 => ret (ieq v1 ((@f0 binary64), (@f0 binary64))))));
  (481, (bind (@mul binary64 (@entire binary64) ((fl binary64 (-5) (0)), (fl binary64 (-1) (0)))) (fun v1 => ret (ieq v1 (@entire binary64)))));
  (482, (bind (@mul binary64 (@entire binary64) ((fl binary64 (-5) (0)), (fl binary64 (3) (0)))) (fun v1 => ret (ieq v1 (@entire binary64)))));
  (483, (bind (@mul binary64 (@entire binary64) ((fl binary64 (1) (0)), (fl binary64 (3) (0)))) (fun v1 => ret (ieq v1 (@entire binary64)))));
  (484, (bind (@mul binary64 (@entire binary64) ((@fminf binary64), (fl binary64 (-1) (0)))) (fun v1 => ret (ieq v1 (@entire binary64)))));
  (485, (bind (@mul binary64 (@entire binary64) ((@fminf binary64), (fl binary64 (3) (0)))) (fun v1 => ret (ieq v1 (@entire binary64)))));
  (486, (bind (@mul binary64 (@entire binary64) ((fl binary64 (-5) (0)), (@finf binary64))) (fun v1 => ret (ieq v1 (@entire binary64)))));
  (487, (bind (@mul binary64 (@entire binary64) ((fl binary64 (1) (0)), (@finf binary64))) (fun v1 => ret (ieq v1 (@entire binary64)))));
  (488, (bind (@mul binary64 (@entire binary64) (@entire binary64)) (fun v1 => ret (ieq v1 (@entire binary64)))));
  (490, (bind (@mul binary64 ((fl binary64 (1) (0)), (@finf binary64)) ((@f0 binary64), (@f0 binary64))) (fun v1 => ret (ieq v1 ((@f0 binary64), (@f0 binary64))))));
  (491, (bind (@mul binary64 ((fl binary64 (1) (0)), (@finf binary64)) ((@fm0 binary64), (@fm0 binary64))) (fun v1 => ret (ieq v1 ((@f0 binary64), (@f0 binary64))))));
  (492, (bind (@mul binary64 ((fl binary64 (1) (0)), (@finf binary64)) ((fl binary64 (-5) (0)), (fl binary64 (-1) (0)))) (fun v1 => ret (ieq v1 ((@fminf binary64), (fl binary64 (-1) (0)))))));
  (493, (bind (@mul binary64 ((fl binary64 (1) (0)), (@finf binary64)) ((fl binary64 (-5) (0)), (fl binary64 (3) (0)))) (fun v1 => ret (ieq v1 (@entire binary64)))));
  (494, (bind (@mul binary64 ((fl binary64 (1) (0)), (@finf binary64)) ((fl binary64 (1) (0)), (fl binary64 (3) (0)))) (fun v1 => ret (ieq v1 ((fl binary64 (1) (0)), (@finf binary64))))));
  (495, (bind (@mul binary64 ((fl binary64 (1) (0)), (@finf binary64)) ((@fminf binary64), (fl binary64 (-1) (0)))) (fun v1 => ret (ieq v1 ((@fminf binary64), (fl binary64 (-1) (0)))))));
  (496, (bind (@mul binary64 ((fl binary64 (1) (0)), (@finf binary64)) ((@fminf binary64), (fl binary64 (3) (0)))) (fun v1 => ret (ieq v1 (@entire binary64)))));
  (497, (bind (@mul binary64 ((fl binary64 (1) (0)), (@finf binary64)) ((fl binary64 (-5) (0)), (@finf binary64))) (fun v1 => ret (ieq v1 (@entire binary64)))));
  (498, (bind (@mul binary64 ((fl binary64 (1) (0)), (@finf binary64)) ((fl binary64 (1) (0)), (@finf binary64))) (fun v1 => ret (ieq v1 ((fl binary64 (1) (0)), (@finf binary64))))));
  (499, (bind (@mul binary64 ((fl binary64 (1) (0)), (@finf binary64)) (@entire binary64)) (fun v1 => ret (ieq v1 (@entire binary64)))));
  (501, (bind (@mul binary64 ((fl binary64 (-1) (0)), (@finf binary64)) ((@f0 binary64), (@f0 binary64))) (fun v1 => ret (ieq v1 ((@f0 binary64), (@f0 binary64))))));
  (502, (bind (@mul binary64 ((fl binary64 (-1) (0)), (@finf binary64)) ((@fm0 binary64), (@fm0 binary64))) (fun v1 => ret (ieq v1 ((@f0 binary64), (@f0 binary64))))));
  (503, (bind (@mul binary64 ((fl binary64 (-1) (0)), (@finf binary64)) ((fl binary64 (-5) (0)), (fl binary64 (-1) (0)))) (fun v1 => ret (ieq v1 ((@fminf binary64), (fl binary64 (5) (0)))))));
  (504, (bind (@mul binary64 ((fl binary64 (-1) (0)), (@finf binary64)) ((fl binary64 (-5) (0)), (fl binary64 (3) (0)))) (fun v1 => ret (ieq v1 (@entire binary64)))));
  (505, (bind (@mul binary64 ((fl binary64 (-1) (0)), (@finf binary64)) ((fl binary64 (1) (0)), (fl binary64 (3) (0)))) (fun v1 => ret (ieq v1 ((fl binary64 (-3) (0)), (@finf binary64))))));
  (506, (bind (@mul binary64 ((fl binary64 (-1) (0)), (@finf binary64)) ((@fminf binary64), (fl binary64 (-1) (0)))) (fun v1 => ret (ieq v1 (@entire binary64)))));
  (507, (bind (@mul binary64 ((fl binary64 (-1) (0)), (@finf binary64)) ((@fminf binary64), (fl binary64 (3) (0)))) (fun v1 => ret (ieq v1 (@entire binary64)))));
  (508, (bind (@mul binary64 ((fl binary64 (-1) (0)), (@finf binary64)) ((fl binary64 (-5) (0)), (@finf binary64))) (fun v1 => ret (ieq v1 (@entire binary64)))));
  (509, (bind (@mul binary64 ((fl binary64 (-1) (0)), (@finf binary64)) ((fl binary64 (1) (0)), (@finf binary64))) (fun v1 => ret (ieq v1 (@entire binary64)))));
  (510, (bind (@mul binary64 ((fl binary64 (-1) (0)), (@finf binary64)) (@entire binary64)) (fun v1 => ret (ieq v1 (@entire binary64)))));
  (512, (bind (@mul binary64 ((@fminf binary64), (fl binary64 (3) (0))) ((@f0 binary64), (@f0 binary64))) (fun v1 => ret (ieq v1 ((@f0 binary64), (@f0 binary64))))));
  (513, (bind (@mul binary64 ((@fminf binary64), (fl binary64 (3) (0))) ((@fm0 binary64), (@fm0 binary64))) (fun v1 => ret (ieq v1 ((@f0 binary64), (@f0 binary64))))));
  (514, (bind (@mul binary64 ((@fminf binary64), (fl binary64 (3) (0))) ((fl binary64 (-5) (0)), (fl binary64 (-1) (0)))) (fun v1 => ret (ieq v1 ((fl binary64 (-15) (0)), (@finf binary64))))));
  (515, (bind (@mul binary64 ((@fminf binary64), (fl binary64 (3) (0))) ((fl binary64 (-5) (0)), (fl binary64 (3) (0)))) (fun v1 => ret (ieq v1 (@entire binary64)))));
  (516, (bind (@mul binary64 ((@fminf binary64), (fl binary64 (3) (0))) ((fl binary64 (1) (0)), (fl binary64 (3) (0)))) (fun v1 => ret (ieq v1 ((@fminf binary64), (fl binary64 (9) (0)))))));
  (517, (bind (@mul binary64 ((@fminf binary64), (fl binary64 (3) (0))) ((@fminf binary64), (fl binary64 (-1) (0)))) (fun v1 => ret (ieq v1 (@entire binary64)))));
  (518, (bind (@mul binary64 ((@fminf binary64), (fl binary64 (3) (0))) ((@fminf binary64), (fl binary64 (3) (0)))) (fun v1 => ret (ieq v1 (@entire binary64)))));
  (519, (bind (@mul binary64 ((@fminf binary64), (fl binary64 (3) (0))) ((fl binary64 (-5) (0)), (@finf binary64))) (fun v1 => ret (ieq v1 (@entire binary64)))));
  (520, (bind (@mul binary64 ((@fminf binary64), (fl binary64 (3) (0))) ((fl binary64 (1) (0)), (@finf binary64))) (fun v1 => ret (ieq v1 (@entire binary64)))));
  (521, (bind (@mul binary64 ((@fminf binary64), (fl binary64 (3) (0))) (@entire binary64)) (fun v1 => ret (ieq v1 (@entire binary64)))));
  (523, (bind (@mul binary64 ((@fminf binary64), (fl binary64 (-3) (0))) ((@f0 binary64), (@f0 binary64))) (fun v1 => ret (ieq v1 ((@f0 binary64), (@f0 binary64))))));
  (524, (bind (@mul binary64 ((@fminf binary64), (fl binary64 (-3) (0))) ((@fm0 binary64), (@fm0 binary64))) (fun v1 => ret (ieq v1 ((@f0 binary64), (@f0 binary64))))));
  (525, (bind (@mul binary64 ((@fminf binary64), (fl binary64 (-3) (0))) ((fl binary64 (-5) (0)), (fl binary64 (-1) (0)))) (fun v1 => ret (ieq v1 ((fl binary64 (3) (0)), (@finf binary64))))));
  (526, (bind (@mul binary64 ((@fminf binary64), (fl binary64 (-3) (0))) ((fl binary64 (-5) (0)), (fl binary64 (3) (0)))) (fun v1 => ret (ieq v1 (@entire binary64)))));
  (527, (bind (@mul binary64 ((@fminf binary64), (fl binary64 (-3) (0))) ((fl binary64 (1) (0)), (fl binary64 (3) (0)))) (fun v1 => ret (ieq v1 ((@fminf binary64), (fl binary64 (-3) (0)))))));
  (528, (bind (@mul binary64 ((@fminf binary64), (fl binary64 (-3) (0))) ((@fminf binary64), (fl binary64 (-1) (0)))) (fun v1 => ret (ieq v1 ((fl binary64 (3) (0)), (@finf binary64))))));
  (529, (bind (@mul binary64 ((@fminf binary64), (fl binary64 (-3) (0))) ((@fminf binary64), (fl binary64 (3) (0)))) (fun v1 => ret (ieq v1 (@entire binary64)))));
  (530, (bind (@mul binary64 ((@fminf binary64), (fl binary64 (-3) (0))) ((fl binary64 (-5) (0)), (@finf binary64))) (fun v1 => ret (ieq v1 (@entire binary64)))));
  (531, (bind (@mul binary64 ((@fminf binary64), (fl binary64 (-3) (0))) ((fl binary64 (1) (0)), (@finf binary64))) (fun v1 => ret (ieq v1 ((@fminf binary64), (fl binary64 (-3) (0)))))));
  (532, (bind (@mul binary64 ((@fminf binary64), (fl binary64 (-3) (0))) (@entire binary64)) (fun v1 => ret (ieq v1 (@entire binary64)))));
  (534, (bind (@mul binary64 ((@f0 binary64), (@f0 binary64)) ((@f0 binary64), (@f0 binary64))) (fun v1 => ret (ieq v1 ((@f0 binary64), (@f0 binary64))))));
  (535, (bind (@mul binary64 ((@f0 binary64), (@f0 binary64)) ((@fm0 binary64), (@fm0 binary64))) (fun v1 => ret (ieq v1 ((@f0 binary64), (@f0 binary64))))));
  (536, (bind (@mul binary64 ((@f0 binary64), (@f0 binary64)) ((fl binary64 (-5) (0)), (fl binary64 (-1) (0)))) (fun v1 => ret (ieq v1 ((@f0 binary64), (@f0 binary64))))));
  (537, (bind (@mul binary64 ((@f0 binary64), (@f0 binary64)) ((fl binary64 (-5) (0)), (fl binary64 (3) (0)))) (fun v1 => ret (ieq v1 ((@f0 binary64), (@f0 binary64))))));
  (538, (bind (@mul binary64 ((@f0 binary64), (@f0 binary64)) ((fl binary64 (1) (0)), (fl binary64 (3) (0)))) (fun v1 => ret (ieq v1 ((@f0 binary64), (@f0 binary64))))));
  (539, (bind (@mul binary64 ((@f0 binary64), (@f0 binary64)) ((@fminf binary64), (fl binary64 (-1) (0)))) (fun v1 => ret (ieq v1 ((@f0 binary64), (@f0 binary64))))));
  (540, (bind (@mul binary64 ((@f0 binary64), (@f0 binary64)) ((@fminf binary64), (fl binary64 (3) (0)))) (fun v1 => ret (ieq v1 ((@f0 binary64), (@f0 binary64))))));
  (541, (bind (@mul binary64 ((@f0 binary64), (@f0 binary64)) ((fl binary64 (-5) (0)), (@finf binary64))) (fun v1 => ret (ieq v1 ((@f0 binary64), (@f0 binary64))))));
  (542, (bind (@mul binary64 ((@f0 binary64), (@f0 binary64)) ((fl binary64 (1) (0)), (@finf binary64))) (fun v1 => ret (ieq v1 ((@f0 binary64), (@f0 binary64))))));
  (543, (bind (@mul binary64 ((@f0 binary64), (@f0 binary64)) (@entire binary64)) (fun v1 => ret (ieq v1 ((@f0 binary64), (@f0 binary64))))));
  (545, (bind (@mul binary64 ((@fm0 binary64), (@fm0 binary64)) ((@f0 binary64), (@f0 binary64))) (fun v1 => ret (ieq v1 ((@f0 binary64), (@f0 binary64))))));
  (546, (bind (@mul binary64 ((@fm0 binary64), (@fm0 binary64)) ((@fm0 binary64), (@fm0 binary64))) (fun v1 => ret (ieq v1 ((@f0 binary64), (@f0 binary64))))));
  (547, (bind (@mul binary64 ((@fm0 binary64), (@fm0 binary64)) ((fl binary64 (-5) (0)), (fl binary64 (-1) (0)))) (fun v1 => ret (ieq v1 ((@f0 binary64), (@f0 binary64))))));
  (548, (bind (@mul binary64 ((@fm0 binary64), (@fm0 binary64)) ((fl binary64 (-5) (0)), (fl binary64 (3) (0)))) (fun v1 => ret (ieq v1 ((@f0 binary64), (@f0 binary64))))));
  (549, (bind (@mul binary64 ((@fm0 binary64), (@fm0 binary64)) ((fl binary64 (1) (0)), (fl binary64 (3) (0)))) (fun v1 => ret (ieq v1 ((@f0 binary64), (@f0 binary64))))));
  (550, (bind (@mul binary64 ((@fm0 binary64), (@fm0 binary64)) ((@fminf binary64), (fl binary64 (-1) (0)))) (fun v1 => ret (ieq v1 ((@f0 binary64), (@f0 binary64))))));
  (551, (bind (@mul binary64 ((@fm0 binary64), (@fm0 binary64)) ((@fminf binary64), (fl binary64 (3) (0)))) (fun v1 => ret (ieq v1 ((@f0 binary64), (@f0 binary64))))));
  (552, (bind (@mul binary64 ((@fm0 binary64), (@fm0 binary64)) ((fl binary64 (-5) (0)), (@finf binary64))) (fun v1 => ret (ieq v1 ((@f0 binary64), (@f0 binary64))))));
  (553, (bind (@mul binary64 ((@fm0 binary64), (@fm0 binary64)) ((fl binary64 (1) (0)), (@finf binary64))) (fun v1 => ret (ieq v1 ((@f0 binary64), (@f0 binary64))))));
  (554, (bind (@mul binary64 ((@fm0 binary64), (@fm0 binary64)) (@entire binary64)) (fun v1 => ret (ieq v1 ((@f0 binary64), (@f0 binary64))))));
  (556, (bind (@mul binary64 ((fl binary64 (1) (0)), (fl binary64 (5) (0))) ((@f0 binary64), (@f0 binary64))) (fun v1 => ret (ieq v1 ((@f0 binary64), (@f0 binary64))))));
  (557, (bind (@mul binary64 ((fl binary64 (1) (0)), (fl binary64 (5) (0))) ((@fm0 binary64), (@fm0 binary64))) (fun v1 => ret (ieq v1 ((@f0 binary64), (@f0 binary64))))));
  (558, (bind (@mul binary64 ((fl binary64 (1) (0)), (fl binary64 (5) (0))) ((fl binary64 (-5) (0)), (fl binary64 (-1) (0)))) (fun v1 => ret (ieq v1 ((fl binary64 (-25) (0)), (fl binary64 (-1) (0)))))));
  (559, (bind (@mul binary64 ((fl binary64 (1) (0)), (fl binary64 (5) (0))) ((fl binary64 (-5) (0)), (fl binary64 (3) (0)))) (fun v1 => ret (ieq v1 ((fl binary64 (-25) (0)), (fl binary64 (15) (0)))))));
  (560, (bind (@mul binary64 ((fl binary64 (1) (0)), (fl binary64 (5) (0))) ((fl binary64 (1) (0)), (fl binary64 (3) (0)))) (fun v1 => ret (ieq v1 ((fl binary64 (1) (0)), (fl binary64 (15) (0)))))));
  (561, (bind (@mul binary64 ((fl binary64 (1) (0)), (fl binary64 (5) (0))) ((@fminf binary64), (fl binary64 (-1) (0)))) (fun v1 => ret (ieq v1 ((@fminf binary64), (fl binary64 (-1) (0)))))));
  (562, (bind (@mul binary64 ((fl binary64 (1) (0)), (fl binary64 (5) (0))) ((@fminf binary64), (fl binary64 (3) (0)))) (fun v1 => ret (ieq v1 ((@fminf binary64), (fl binary64 (15) (0)))))));
  (563, (bind (@mul binary64 ((fl binary64 (1) (0)), (fl binary64 (5) (0))) ((fl binary64 (-5) (0)), (@finf binary64))) (fun v1 => ret (ieq v1 ((fl binary64 (-25) (0)), (@finf binary64))))));
  (564, (bind (@mul binary64 ((fl binary64 (1) (0)), (fl binary64 (5) (0))) ((fl binary64 (1) (0)), (@finf binary64))) (fun v1 => ret (ieq v1 ((fl binary64 (1) (0)), (@finf binary64))))));
  (565, (bind (@mul binary64 ((fl binary64 (1) (0)), (fl binary64 (5) (0))) (@entire binary64)) (fun v1 => ret (ieq v1 (@entire binary64)))));
  (568, (bind (@mul binary64 ((fl binary64 (-1) (0)), (fl binary64 (5) (0))) ((@f0 binary64), (@f0 binary64))) (fun v1 => ret (ieq v1 ((@f0 binary64), (@f0 binary64))))));
  (569, (bind (@mul binary64 ((fl binary64 (-1) (0)), (fl binary64 (5) (0))) ((@fm0 binary64), (@fm0 binary64))) (fun v1 => ret (ieq v1 ((@f0 binary64), (@f0 binary64))))));
  (570, (bind (@mul binary64 ((fl binary64 (-1) (0)), (fl binary64 (5) (0))) ((fl binary64 (-5) (0)), (fl binary64 (-1) (0)))) (fun v1 => ret (ieq v1 ((fl binary64 (-25) (0)), (fl binary64 (5) (0)))))));
  (573, (bind (@mul binary64 ((fl binary64 (-1) (0)), (fl binary64 (5) (0))) ((fl binary64 (-5) (0)), (fl binary64 (3) (0)))) (fun v1 => ret (ieq v1 ((fl binary64 (-25) (0)), (fl binary64 (15) (0)))))));
  (574, (bind (@mul binary64 ((fl binary64 (-5) (1)), (fl binary64 (1) (1))) ((fl binary64 (-5) (0)), (fl binary64 (3) (0)))) (fun v1 => ret (ieq v1 ((fl binary64 (-15) (1)), (fl binary64 (25) (1)))))));
  (575, (bind (@mul binary64 ((fl binary64 (-1) (0)), (fl binary64 (5) (0))) ((fl binary64 (-1) (0)), (fl binary64 (5) (1)))) (fun v1 => ret (ieq v1 ((fl binary64 (-5) (1)), (fl binary64 (25) (1)))))));
  (576, (bind (@mul binary64 ((fl binary64 (-1) (1)), (fl binary64 (1) (1))) ((fl binary64 (-5) (0)), (fl binary64 (3) (0)))) (fun v1 => ret (ieq v1 ((fl binary64 (-5) (1)), (fl binary64 (5) (1)))))));
  (579, (bind (@mul binary64 ((fl binary64 (-1) (0)), (fl binary64 (5) (0))) ((fl binary64 (1) (0)), (fl binary64 (3) (0)))) (fun v1 => ret (ieq v1 ((fl binary64 (-3) (0)), (fl binary64 (15) (0)))))));
  (580, (bind (@mul binary64 ((fl binary64 (-1) (0)), (fl binary64 (5) (0))) ((@fminf binary64), (fl binary64 (-1) (0)))) (fun v1 => ret (ieq v1 (@entire binary64)))));
  (581, (bind (@mul binary64 ((fl binary64 (-1) (0)), (fl binary64 (5) (0))) ((@fminf binary64), (fl binary64 (3) (0)))) (fun v1 => ret (ieq v1 (@entire binary64)))));
  (582, (bind (@mul binary64 ((fl binary64 (-1) (0)), (fl binary64 (5) (0))) ((fl binary64 (-5) (0)), (@finf binary64))) (fun v1 => ret (ieq v1 (@entire binary64)))));
  (583, (bind (@mul binary64 ((fl binary64 (-1) (0)), (fl binary64 (5) (0))) ((fl binary64 (1) (0)), (@finf binary64))) (fun v1 => ret (ieq v1 (@entire binary64)))));
  (584, (bind (@mul binary64 ((fl binary64 (-1) (0)), (fl binary64 (5) (0))) (@entire binary64)) (fun v1 => ret (ieq v1 (@entire binary64)))));
  (586, (bind (@mul binary64 ((fl binary64 (-5) (1)), (fl binary64 (-5) (0))) ((@f0 binary64), (@f0 binary64))) (fun v1 => ret (ieq v1 ((@f0 binary64), (@f0 binary64))))));
  (587, (bind (@mul binary64 ((fl binary64 (-5) (1)), (fl binary64 (-5) (0))) ((@fm0 binary64), (@fm0 binary64))) (fun v1 => ret (ieq v1 ((@f0 binary64), (@f0 binary64))))));
  (588, (bind (@mul binary64 ((fl binary64 (-5) (1)), (fl binary64 (-5) (0))) ((fl binary64 (-5) (0)), (fl binary64 (-1) (0)))) (fun v1 => ret (ieq v1 ((fl binary64 (5) (0)), (fl binary64 (25) (1)))))));
  (589, (bind (@mul binary64 ((fl binary64 (-5) (1)), (fl binary64 (-5) (0))) ((fl binary64 (-5) (0)), (fl binary64 (3) (0)))) (fun v1 => ret (ieq v1 ((fl binary64 (-15) (1)), (fl binary64 (25) (1)))))));
  (590, (bind (@mul binary64 ((fl binary64 (-5) (1)), (fl binary64 (-5) (0))) ((fl binary64 (1) (0)), (fl binary64 (3) (0)))) (fun v1 => ret (ieq v1 ((fl binary64 (-15) (1)), (fl binary64 (-5) (0)))))));
  (591, (bind (@mul binary64 ((fl binary64 (-5) (1)), (fl binary64 (-5) (0))) ((@fminf binary64), (fl binary64 (-1) (0)))) (fun v1 => ret (ieq v1 ((fl binary64 (5) (0)), (@finf binary64))))));
  (592, (bind (@mul binary64 ((fl binary64 (-5) (1)), (fl binary64 (-5) (0))) ((@fminf binary64), (fl binary64 (3) (0)))) (fun v1 => ret (ieq v1 ((fl binary64 (-15) (1)), (@finf binary64))))));
  (593, (bind (@mul binary64 ((fl binary64 (-5) (1)), (fl binary64 (-5) (0))) ((fl binary64 (-5) (0)), (@finf binary64))) (fun v1 => ret (ieq v1 ((@fminf binary64), (fl binary64 (25) (1)))))));
  (594, (bind (@mul binary64 ((fl binary64 (-5) (1)), (fl binary64 (-5) (0))) ((fl binary64 (1) (0)), (@finf binary64))) (fun v1 => ret (ieq v1 ((@fminf binary64), (fl binary64 (-5) (0)))))));
  (595, (bind (@mul binary64 ((fl binary64 (-5) (1)), (fl binary64 (-5) (0))) (@entire binary64)) (fun v1 => ret (ieq v1 (@entire binary64)))));
  (597, (bind (@mul binary64 ((fl binary64 (3602879701896397) (-55)), (fl binary64 (562949953421311) (-48))) ((fl binary64 (-562949953421311) (-48)), (@finf binary64))) (fun v1 => ret (ieq v1 ((fl binary64 (-9007199254740961) (-51)), (@finf binary64))))));
  (598, (bind (@mul binary64 ((fl binary64 (-3602879701896397) (-55)), (fl binary64 (562949953421311) (-48))) ((fl binary64 (-562949953421311) (-48)), (fl binary64 (-3602879701896397) (-55)))) (fun v1 => ret (ieq v1 ((fl binary64 (-9007199254740961) (-51)), (fl binary64 (3602879701896391) (-54)))))));
  (599, (bind (@mul binary64 ((fl binary64 (-3602879701896397) (-55)), (fl binary64 (3602879701896397) (-55))) ((fl binary64 (-562949953421311) (-48)), (fl binary64 (3602879701896397) (-55)))) (fun v1 => ret (ieq v1 ((fl binary64 (-3602879701896391) (-54)), (fl binary64 (3602879701896391) (-54)))))));
  (600, (bind (@mul binary64 ((fl binary64 (-562949953421311) (-48)), (fl binary64 (-3602879701896397) (-55))) ((fl binary64 (3602879701896397) (-55)), (fl binary64 (562949953421311) (-48)))) (fun v1 => ret (ieq v1 ((fl binary64 (-9007199254740961) (-51)), (fl binary64 (-5764607523034235) (-59)))))));
  (603, (bind get_flags (fun v1 => ret (N.eqb v1 none_bit))));
  (605, clear_flags);
  (606, (bind (@mul binary64 ((fl binary64 (1) (0)), (fl binary64 (-9007199254740991) (971))) ((fl binary64 (3) (0)), (fl binary64 (1) (2)))) (fun v1 => @is_empty binary64 v1)));
  (607, (bind get_flags (fun v1 => ret (N.eqb v1 invalid_operand_bit))));
  (608, clear_flags);
  (609, (set_cwd invalid_operand_bit));
  (610, (throws (@mul binary64 ((fl binary64 (1) (0)), (fl binary64 (9007199254740991) (971))) ((fl binary64 (3) (0)), (fl binary64 (-1) (2)))) Invalid_operand_exception));
  (611, (bind get_flags (fun v1 => ret (N.eqb v1 invalid_operand_bit))));
  (612, clear_flags);
  (613, (set_cwd none_bit))].

(** lines 616-633 *)
Definition minimal_mul_mixedtype_test : list (N * M bool) := [
  (618, (bind (@mul_mixed binary32 binary64 binary64 ((fl binary64 (3602879701896397) (-55)), (fl binary64 (562949953421311) (-48))) ((fl binary64 (-562949953421311) (-48)), (@finf binary64))) (fun v1 => ret (ieq v1 ((fl binary32 (-1) (2)), (@finf binary32))))));
  (619, (bind (@mul_mixed binary32 binary64 binary64 ((fl binary64 (3602879701896397) (-55)), (fl binary64 (562949953421311) (-48))) ((fl binary64 (-562949953421311) (-48)), (fl binary64 (-3602879701896397) (-55)))) (fun v1 => ret (ieq v1 ((fl binary32 (-1) (2)), (fl binary32 (-5368709) (-29)))))));
  (620, (bind (@mul_mixed binary64 binary32 binary32 ((fl binary32 (13421773) (-27)), (fl binary32 (1) (1))) ((fl binary32 (-1) (1)), (fl binary32 (-13421773) (-27)))) (fun v1 => ret (ieq v1 ((fl binary64 (-1) (2)), (fl binary64 (-180143990463529) (-54)))))));
  (622, (bind get_flags (fun v1 => ret (N.eqb v1 none_bit))));
  (624, clear_flags);
  (625, (bind (@mul_mixed binary32 binary64 binary32 ((fl binary64 (1) (0)), (fl binary64 (-9007199254740991) (971))) ((fl binary32 (3) (0)), (fl binary32 (1) (2)))) (fun v1 => @is_empty binary32 v1)));
  (626, (bind get_flags (fun v1 => ret (N.eqb v1 invalid_operand_bit))));
  (627, clear_flags);
  (628, (set_cwd invalid_operand_bit));
  (629, (throws (@mul_mixed binary64 binary32 binary32 ((fl binary32 (1) (0)), (fl binary32 (16777215) (104))) ((fl binary32 (3) (0)), (fl binary32 (-1) (2)))) Invalid_operand_exception));
  (630, (bind get_flags (fun v1 => ret (N.eqb v1 invalid_operand_bit))));
  (631, clear_flags);
  (632, (set_cwd none_bit))].

(** lines 635-655 *)
Definition minimal_mul_dec_test : list (N * M bool) := [
  (637, (bind (@mul_dec binary64 (((fl binary64 (1) (0)), (fl binary64 (1) (1))), com) (((fl binary64 (5) (0)), (fl binary64 (7) (0))), com)) (fun v1 => ret (dieq v1 (((fl binary64 (5) (0)), (fl binary64 (7) (1))), com)))));
  (638, (bind (@mul_dec binary64 (((fl binary64 (1) (0)), (fl binary64 (1) (1))), com) (((fl binary64 (5) (0)), (fl binary64 (7) (0))), def)) (fun v1 => ret (dieq v1 (((fl binary64 (5) (0)), (fl binary64 (7) (1))), def)))));
  (639, (bind (@mul_dec binary64 (((fl binary64 (1) (0)), (fl binary64 (1) (1))), com) (((fl binary64 (5) (0)), (fl binary64 (9007199254740991) (971))), com)) (fun v1 => ret (dieq v1 (((fl binary64 (5) (0)), (@finf binary64)), dac)))));
  (640, (bind (@mul_dec binary64 (((fl binary64 (-9007199254740991) (971)), (fl binary64 (1) (1))), com) (((fl binary64 (-1) (0)), (fl binary64 (5) (0))), com)) (fun v1 => ret (dieq v1 (((@fminf binary64), (fl binary64 (9007199254740991) (971))), dac)))));
  (641, (bind (@mul_dec binary64 (((fl binary64 (1) (0)), (fl binary64 (1) (1))), trv) (@empty_dec binary64)) (fun v1 => @is_empty_dec binary64 v1)));
  (642, (bind (@mul_dec binary64 (@nai binary64) (((fl binary64 (1) (0)), (fl binary64 (1) (1))), trv)) (fun v1 => @is_nai binary64 v1)));
  (644, (bind get_flags (fun v1 => ret (N.eqb v1 none_bit))));
  (646, clear_flags);
  (647, (bind (@mul_dec binary64 (((fl binary64 (1) (0)), (fl binary64 (-1) (1))), com) (((fl binary64 (5) (0)), (fl binary64 (7) (0))), com)) (fun v1 => @is_nai binary64 v1)));
  (648, (bind get_flags (fun v1 => ret (N.eqb v1 invalid_operand_bit))));
  (649, clear_flags);
  (650, (set_cwd invalid_operand_bit));
  (651, (throws (@mul_dec binary64 (((fl binary64 (1) (0)), (@finf binary64)), com) (((fl binary64 (5) (0)), (fl binary64 (7) (0))), com)) Invalid_operand_exception));
  (652, (bind get_flags (fun v1 => ret (N.eqb v1 invalid_operand_bit))));
  (653, clear_flags);
  (654, (set_cwd none_bit))].

(** lines 657-673 *)
Definition minimal_mul_dec_mixedtype_test : list (N * M bool) := [
  (659, (bind (@mul_dec_mixed binary32 binary64 binary64 (((fl binary64 (3602879701896397) (-55)), (fl binary64 (562949953421311) (-48))), com) (((fl binary64 (-562949953421311) (-48)), (fl binary64 (-3602879701896397) (-55))), com)) (fun v1 => ret (dieq v1 (((fl binary32 (-1) (2)), (fl binary32 (-5368709) (-29))), com)))));
  (660, (bind (@mul_dec_mixed binary64 binary32 binary32 (((fl binary32 (13421773) (-27)), (fl binary32 (1) (1))), def) (((fl binary32 (-1) (1)), (fl binary32 (-13421773) (-27))), com)) (fun v1 => ret (dieq v1 (((fl binary64 (-1) (2)), (fl binary64 (-180143990463529) (-54))), def)))));
  (662, (bind get_flags (fun v1 => ret (N.eqb v1 none_bit))));
  (664, clear_flags);
  (665, (bind (@mul_dec_mixed binary64 binary32 binary64 (((fl binary32 (1) (0)), (fl binary32 (-1) (1))), com) (((fl binary64 (5) (0)), (fl binary64 (7) (0))), com)) (fun v1 => @is_nai binary64 v1)));
  (666, (bind get_flags (fun v1 => ret (N.eqb v1 invalid_operand_bit))));
  (667, clear_flags);
  (668, (set_cwd invalid_operand_bit));
  (669, (throws (@mul_dec_mixed binary32 binary64 binary64 (((fl binary64 (1) (0)), (@finf binary64)), com) (((fl binary64 (5) (0)), (fl binary64 (7) (0))), com)) Invalid_operand_exception));
  (670, (bind get_flags (fun v1 => ret (N.eqb v1 invalid_operand_bit))));
  (671, clear_flags);
  (672, (set_cwd none_bit))].

(** lines 678-1052 *)
Definition minimal_div_test : list (N * M bool) := [
  (680, (bind (@div binary64 (@empty binary64) (@empty binary64)) (fun v1 => @is_empty binary64 v1)));
  (681, (bind (@div binary64 ((fl binary64 (-1) (0)), (fl binary64 (1) (0))) (@empty binary64)) (fun v1 => @is_empty binary64 v1)));
  (682, (bind (@div binary64 (@empty binary64) ((fl binary64 (-1) (0)), (fl binary64 (1) (0)))) (fun v1 => @is_empty binary64 v1)));
  (683, (bind (@div binary64 (@empty binary64) ((fl binary64 (3602879701896397) (-55)), (fl binary64 (1) (0)))) (fun v1 => @is_empty binary64 v1)));
  (684, (bind (@div binary64 (@empty binary64) ((fl binary64 (-1) (0)), (fl binary64 (-3602879701896397) (-55)))) (fun v1 => @is_empty binary64 v1)));
  (685, (bind (@div binary64 (@empty binary64) (@entire binary64)) (fun v1 => @is_empty binary64 v1)));
  (686, (bind (@div binary64 (@entire binary64) (@empty binary64)) (fun v1 => @is_empty binary64 v1)));
  (687, (bind (@div binary64 ((@f0 binary64), (@f0 binary64)) (@empty binary64)) (fun v1 => @is_empty binary64 v1)));
  (688, (bind (@div binary64 (@empty binary64) ((@f0 binary64), (@f0 binary64))) (fun v1 => @is_empty binary64 v1)));
  (689, (bind (@div binary64 ((@fm0 binary64), (@fm0 binary64)) (@empty binary64)) (fun v1 => @is_empty binary64 v1)));
  (690, (bind (@div binary64 (@empty binary64) ((@fm0 binary64), (@fm0 binary64))) (fun v1 => @is_empty binary64 v1)));
  (692, (bind (@div binary64 (@entire binary64) ((fl binary64 (-5) (0)), (fl binary64 (-3) (0)))) (fun v1 => ret (ieq v1 (@entire binary64)))));
  (693, (bind (@div binary64 (@entire binary64) ((fl binary64 (3) (0)), (fl binary64 (5) (0)))) (fun v1 => ret (ieq v1 (@entire binary64)))));
  (694, (bind (@div binary64 (@entire binary64) ((@fminf binary64), (fl binary64 (-3) (0)))) (fun v1 => ret (ieq v1 (@entire binary64)))));
  (695, (bind (@div binary64 (@entire binary64) ((fl binary64 (3) (0)), (@finf binary64))) (fun v1 => ret (ieq v1 (@entire binary64)))));
  (696, (bind (@div binary64 (@entire binary64) ((@f0 binary64), (@f0 binary64))) (fun v1 => @is_empty binary64 v1)));
  (697, (bind (@div binary64 (@entire binary64) ((@fm0 binary64), (@fm0 binary64))) (fun v1 => @is_empty binary64 v1)));
  (698, (bind (@div binary64 (@entire binary64) ((fl binary64 (-3) (0)), (@f0 binary64))) (fun v1 => ret (ieq v1 (@entire binary64)))));
  (699, (bind (@div binary64 (@entire binary64) ((fl binary64 (-3) (0)), (@fm0 binary64))) (fun v1 => ret (ieq v1 (@entire binary64)))));
  (700, (bind (@div binary64 (@entire binary64) ((fl binary64 (-3) (0)), (fl binary64 (3) (0)))) (fun v1 => ret (ieq v1 (@entire binary64)))));
  (701, (bind (@div binary64 (@entire binary64) ((@f0 binary64), (fl binary64 (3) (0)))) (fun v1 => ret (ieq v1 (@entire binary64)))));
  (702, (bind (@div binary64 (@entire binary64) ((@fminf binary64), (@f0 binary64))) (fun v1 => ret (ieq v1 (@entire binary64)))));
  (703, (bind (@div binary64 (@entire binary64) ((@fm0 binary64), (fl binary64 (3) (0)))) (fun v1 => ret (ieq v1 (@entire binary64)))));
  (704, (bind (@div binary64 (@entire binary64) ((@fminf binary64), (@fm0 binary64))) (fun v1 => ret (ieq v1 (@entire binary64)))));
  (705, (bind (@div binary64 (@entire binary64) ((@fminf binary64), (fl binary64 (3) (0)))) (fun v1 => ret (ieq v1 (@entire binary64)))));
  (706, (bind (@div binary64 (@entire binary64) ((fl binary64 (-3) (0)), (@finf binary64))) (fun v1 => ret (ieq v1 (@entire binary64)))));
  (707, (bind (@div binary64 (@entire binary64) ((@f0 binary64), (@finf binary64))) (fun v1 => ret (ieq v1 (@entire binary64)))));
  (708, (bind (@div binary64 (@entire binary64) ((@fm0 binary64), (@finf binary64))) (fun v1 => ret (ieq v1 (@entire binary64)))));
  (709, (bind (@div binary64 (@entire binary64) (@entire binary64)) (fun v1 => ret (ieq v1 (@entire binary64)))));
  (711, (bind (@div binary64 ((fl binary64 (-15) (1)), (fl binary64 (-15) (0))) ((fl binary64 (-5) (0)), (fl binary64 (-3) (0)))) (fun v1 => ret (ieq v1 ((fl binary64 (3) (0)), (fl binary64 (5) (1)))))));
  (712, (bind (@div binary64 ((fl binary64 (-15) (1)), (fl binary64 (-15) (0))) ((fl binary64 (3) (0)), (fl binary64 (5) (0)))) (fun v1 => ret (ieq v1 ((fl binary64 (-5) (1)), (fl binary64 (-3) (0)))))));
  (713, (bind (@div binary64 ((fl binary64 (-15) (1)), (fl binary64 (-15) (0))) ((@fminf binary64), (fl binary64 (-3) (0)))) (fun v1 => ret (ieq v1 ((@f0 binary64), (fl binary64 (5) (1)))))));
  (714, (bind (@div binary64 ((fl binary64 (-15) (1)), (fl binary64 (-15) (0))) ((fl binary64 (3) (0)), (@finf binary64))) (fun v1 => ret (ieq v1 ((fl binary64 (-5) (1)), (@f0 binary64))))));
  (715, (bind (@div binary64 ((fl binary64 (-15) (1)), (fl binary64 (-15) (0))) ((@f0 binary64), (@f0 binary64))) (fun v1 => @is_empty binary64 v1)));
  (716, (bind (@div binary64 ((fl binary64 (-15) (1)), (fl binary64 (-15) (0))) ((fl binary64 (-3) (0)), (@f0 binary64))) (fun v1 => ret (ieq v1 ((fl binary64 (5) (0)), (@finf binary64))))));
  (717, (bind (@div binary64 ((fl binary64 (-15) (1)), (fl binary64 (-15) (0))) ((@fm0 binary64), (@fm0 binary64))) (fun v1 => @is_empty binary64 v1)));
  (718, (bind (@div binary64 ((fl binary64 (-15) (1)), (fl binary64 (-15) (0))) ((fl binary64 (-3) (0)), (@fm0 binary64))) (fun v1 => ret (ieq v1 ((fl binary64 (5) (0)), (@finf binary64))))));
  (719, (bind (@div binary64 ((fl binary64 (-15) (1)), (fl binary64 (-15) (0))) ((fl binary64 (-3) (0)), (fl binary64 (3) (0)))) (fun v1 => ret (ieq v1 (@entire binary64)))));
  (720, (bind (@div binary64 ((fl binary64 (-15) (1)), (fl binary64 (-15) (0))) ((@f0 binary64), (fl binary64 (3) (0)))) (fun v1 => ret (ieq v1 ((@fminf binary64), (fl binary64 (-5) (0)))))));
  (721, (bind (@div binary64 ((fl binary64 (-15) (1)), (fl binary64 (-15) (0))) ((@fminf binary64), (@f0 binary64))) (fun v1 => ret (ieq v1 ((@f0 binary64), (@finf binary64))))));
  (722, (bind (@div binary64 ((fl binary64 (-15) (1)), (fl binary64 (-15) (0))) ((@fm0 binary64), (fl binary64 (3) (0)))) (fun v1 => ret (ieq v1 ((@fminf binary64), (fl binary64 (-5) (0)))))));
  (723, (bind (@div binary64 ((fl binary64 (-15) (1)), (fl binary64 (-15) (0))) ((@fminf binary64), (@fm0 binary64))) (fun v1 => ret (ieq v1 ((@f0 binary64), (@finf binary64))))));
  (724, (bind (@div binary64 ((fl binary64 (-15) (1)), (fl binary64 (-15) (0))) ((@fminf binary64), (fl binary64 (3) (0)))) (fun v1 => ret (ieq v1 (@entire binary64)))));
  (725, (bind (@div binary64 ((fl binary64 (-15) (1)), (fl binary64 (-15) (0))) ((fl binary64 (-3) (0)), (@finf binary64))) (fun v1 => ret (ieq v1 (@entire binary64)))));
  (726, (bind (@div binary64 ((fl binary64 (-15) (1)), (fl binary64 (-15) (0))) ((@f0 binary64), (@finf binary64))) (fun v1 => ret (ieq v1 ((@fminf binary64), (@f0 binary64))))));
  (727, (bind (@div binary64 ((fl binary64 (-15) (1)), (fl binary64 (-15) (0))) ((@fm0 binary64), (@finf binary64))) (fun v1 => ret (ieq v1 ((@fminf binary64), (@f0 binary64))))));
  (728, (bind (@div binary64 ((fl binary64 (-15) (1)), (fl binary64 (-15) (0))) (@entire binary64)) (fun v1 => ret (ieq v1 (@entire binary64)))));
  (730, (bind (@div binary64 ((fl binary64 (-15) (1)), (fl binary64 (15) (0))) ((fl binary64 (-5) (0)), (fl binary64 (-3) (0)))) (fun v1 => ret (ieq v1 ((fl binary64 (-5) (0)), (fl binary64 (5) (1)))))));
  (731, (bind (@div binary64 ((fl binary64 (-15) (1)), (fl binary64 (15) (0))) ((fl binary64 (3) (0)), (fl binary64 (5) (0)))) (fun v1 => ret (ieq v1 ((fl binary64 (-5) (1)), (fl binary64 (5) (0)))))));
  (732, (bind (@div binary64 ((fl binary64 (-15) (1)), (fl binary64 (15) (0))) ((@fminf binary64), (fl binary64 (-3) (0)))) (fun v1 => ret (ieq v1 ((fl binary64 (-5) (0)), (fl binary64 (5) (1)))))));
  (733, (bind (@div binary64 ((fl binary64 (-15) (1)), (fl binary64 (15) (0))) ((fl binary64 (3) (0)), (@finf binary64))) (fun v1 => ret (ieq v1 ((fl binary64 (-5) (1)), (fl binary64 (5) (0)))))));
  (734, (bind (@div binary64 ((fl binary64 (-15) (1)), (fl binary64 (15) (0))) ((@f0 binary64), (@f0 binary64))) (fun v1 => @is_empty binary64 v1)));
  (735, (bind (@div binary64 ((fl binary64 (-15) (1)), (fl binary64 (15) (0))) ((@fm0 binary64), (@fm0 binary64))) (fun v1 => @is_empty binary64 v1)));
  (736, (bind (@div binary64 ((fl binary64 (-15) (1)), (fl binary64 (15) (0))) ((fl binary64 (-3) (0)), (@f0 binary64))) (fun v1 => ret (ieq v1 (@entire binary64)))));
  (737, (bind (@div binary64 ((fl binary64 (-15) (1)), (fl binary64 (15) (0))) ((fl binary64 (-3) (0)), (@fm0 binary64))) (fun v1 => ret (ieq v1 (@entire binary64)))));
  (738, (bind (@div binary64 ((fl binary64 (-15) (1)), (fl binary64 (15) (0))) ((fl binary64 (-3) (0)), (fl binary64 (3) (0)))) (fun v1 => ret (ieq v1 (@entire binary64)))));
  (739, (bind (@div binary64 ((fl binary64 (-15) (1)), (fl binary64 (15) (0))) ((@f0 binary64), (fl binary64 (3) (0)))) (fun v1 => ret (ieq v1 (@entire binary64)))));
  (740, (bind (@div binary64 ((fl binary64 (-15) (1)), (fl binary64 (15) (0))) ((@fminf binary64), (@f0 binary64))) (fun v1 => ret (ieq v1 (@entire binary64)))));
  (741, (bind (@div binary64 ((fl binary64 (-15) (1)), (fl binary64 (15) (0))) ((@fm0 binary64), (fl binary64 (3) (0)))) (fun v1 => ret (ieq v1 (@entire binary64)))));
  (742, (bind (@div binary64 ((fl binary64 (-15) (1)), (fl binary64 (15) (0))) ((@fminf binary64), (@fm0 binary64))) (fun v1 => ret (ieq v1 (@entire binary64)))));
  (743, (bind (@div binary64 ((fl binary64 (-15) (1)), (fl binary64 (15) (0))) ((@fminf binary64), (fl binary64 (3) (0)))) (fun v1 => ret (ieq v1 (@entire binary64)))));
  (744, (bind (@div binary64 ((fl binary64 (-15) (1)), (fl binary64 (15) (0))) ((fl binary64 (-3) (0)), (@finf binary64))) (fun v1 => ret (ieq v1 (@entire binary64)))));
  (745, (bind (@div binary64 ((fl binary64 (-15) (1)), (fl binary64 (15) (0))) ((@f0 binary64), (@finf binary64))) (fun v1 => ret (ieq v1 (@entire binary64)))));
  (746, (bind (@div binary64 ((fl binary64 (-15) (1)), (fl binary64 (15) (0))) ((@fm0 binary64), (@finf binary64))) (fun v1 => ret (ieq v1 (@entire binary64)))));
  (747, (bind (@div binary64 ((fl binary64 (-15) (1)), (fl binary64 (15) (0))) (@entire binary64)) (fun v1 => ret (ieq v1 (@entire binary64)))));
  (749, (bind (@div binary64 ((fl binary64 (15) (0)), (fl binary64 (15) (1))) ((fl binary64 (-5) (0)), (fl binary64 (-3) (0)))) (fun v1 => ret (ieq v1 ((fl binary64 (-5) (1)), (fl binary64 (-3) (0)))))));
  (750, (bind (@div binary64 ((fl binary64 (15) (0)), (fl binary64 (15) (1))) ((fl binary64 (3) (0)), (fl binary64 (5) (0)))) (fun v1 => ret (ieq v1 ((fl binary64 (3) (0)), (fl binary64 (5) (1)))))));
  (751, (bind (@div binary64 ((fl binary64 (15) (0)), (fl binary64 (15) (1))) ((@fminf binary64), (fl binary64 (-3) (0)))) (fun v1 => ret (ieq v1 ((fl binary64 (-5) (1)), (@f0 binary64))))));
  (752, (bind (@div binary64 ((fl binary64 (15) (0)), (fl binary64 (15) (1))) ((fl binary64 (3) (0)), (@finf binary64))) (fun v1 => ret (ieq v1 ((@f0 binary64), (fl binary64 (5) (1)))))));
  (753, (bind (@div binary64 ((fl binary64 (15) (0)), (fl binary64 (15) (1))) ((@f0 binary64), (@f0 binary64))) (fun v1 => @is_empty binary64 v1)));
  (754, (bind (@div binary64 ((fl binary64 (15) (0)), (fl binary64 (15) (1))) ((fl binary64 (-3) (0)), (@f0 binary64))) (fun v1 => ret (ieq v1 ((@fminf binary64), (fl binary64 (-5) (0)))))));
  (755, (bind (@div binary64 ((fl binary64 (15) (0)), (fl binary64 (15) (1))) ((@fm0 binary64), (@fm0 binary64))) (fun v1 => @is_empty binary64 v1)));
  (756, (bind (@div binary64 ((fl binary64 (15) (0)), (fl binary64 (15) (1))) ((fl binary64 (-3) (0)), (@fm0 binary64))) (fun v1 => ret (ieq v1 ((@fminf binary64), (fl binary64 (-5) (0)))))));
  (757, (bind (@div binary64 ((fl binary64 (15) (0)), (fl binary64 (15) (1))) ((fl binary64 (-3) (0)), (fl binary64 (3) (0)))) (fun v1 => ret (ieq v1 (@entire binary64)))));
  (758, (bind (@div binary64 ((fl binary64 (15) (0)), (fl binary64 (15) (1))) ((@f0 binary64), (fl binary64 (3) (0)))) (fun v1 => ret (ieq v1 ((fl binary64 (5) (0)), (@finf binary64))))));
  (759, (bind (@div binary64 ((fl binary64 (15) (0)), (fl binary64 (15) (1))) ((@fminf binary64), (@f0 binary64))) (fun v1 => ret (ieq v1 ((@fminf binary64), (@f0 binary64))))));
  (760, (bind (@div binary64 ((fl binary64 (15) (0)), (fl binary64 (15) (1))) ((@fm0 binary64), (fl binary64 (3) (0)))) (fun v1 => ret (ieq v1 ((fl binary64 (5) (0)), (@finf binary64))))));
  (761, (bind (@div binary64 ((fl binary64 (15) (0)), (fl binary64 (15) (1))) ((@fminf binary64), (@fm0 binary64))) (fun v1 => ret (ieq v1 ((@fminf binary64), (@f0 binary64))))));
  (762, (bind (@div binary64 ((fl binary64 (15) (0)), (fl binary64 (15) (1))) ((@fminf binary64), (fl binary64 (3) (0)))) (fun v1 => ret (ieq v1 (@entire binary64)))));
  (763, (bind (@div binary64 ((fl binary64 (15) (0)), (fl binary64 (15) (1))) ((fl binary64 (-3) (0)), (@finf binary64))) (fun v1 => ret (ieq v1 (@entire binary64)))));
  (764, (bind (@div binary64 ((fl binary64 (15) (0)), (fl binary64 (15) (1))) ((@f0 binary64), (@finf binary64))) (fun v1 => ret (ieq v1 ((@f0 binary64), (@finf binary64))))));
  (765, (bind (@div binary64 ((fl binary64 (15) (0)), (fl binary64 (15) (1))) ((@fm0 binary64), (@finf binary64))) (fun v1 => ret (ieq v1 ((@f0 binary64), (@finf binary64))))));
  (766, (bind (@div binary64 ((fl binary64 (15) (0)), (fl binary64 (15) (1))) (@entire binary64)) (fun v1 => ret (ieq v1 (@entire binary64)))));
  (768, (bind (@div binary64 ((@f0 binary64), (@f0 binary64)) ((fl binary64 (-5) (0)), (fl binary64 (-3) (0)))) (fun v1 => ret (ieq v1 ((@f0 binary64), (@f0 binary64))))));
  (769, (bind (@div binary64 ((@f0 binary64), (@f0 binary64)) ((fl binary64 (3) (0)), (fl binary64 (5) (0)))) (fun v1 => ret (ieq v1 ((@f0 binary64), (@f0 binary64))))));
  (770, (bind (@div binary64 ((@f0 binary64), (@f0 binary64)) ((@fminf binary64), (fl binary64 (-3) (0)))) (fun v1 => ret (ieq v1 ((@f0 binary64), (@f0 binary64))))));
  (771, (bind (@div binary64 ((@f0 binary64), (@f0 binary64)) ((fl binary64 (3) (0)), (@finf binary64))) (fun v1 => ret (ieq v1 ((@f0 binary64), (@f0 binary64))))));
  (772, (bind (@div binary64 ((@f0 binary64), (@f0 binary64)) ((@f0 binary64), (@f0 binary64))) (fun v1 => @is_empty binary64 v1)));
  (773, (bind (@div binary64 ((@f0 binary64), (@f0 binary64)) ((fl binary64 (-3) (0)), (@f0 binary64))) (fun v1 => ret (ieq v1 ((@f0 binary64), (@f0 binary64))))));
  (774, (bind (@div binary64 ((@f0 binary64), (@f0 binary64)) ((@fm0 binary64), (@fm0 binary64))) (fun v1 => @is_empty binary64 v1)));
  (775, (bind (@div binary64 ((@f0 binary64), (@f0 binary64)) ((fl binary64 (-3) (0)), (@fm0 binary64))) (fun v1 => ret (ieq v1 ((@f0 binary64), (@f0 binary64))))));
  (776, (bind (@div binary64 ((@f0 binary64), (@f0 binary64)) ((fl binary64 (-3) (0)), (fl binary64 (3) (0)))) (fun v1 => ret (ieq v1 ((@f0 binary64), (@f0 binary64))))));
  (777, (bind (@div binary64 ((@f0 binary64), (@f0 binary64)) ((@f0 binary64), (fl binary64 (3) (0)))) (fun v1 => ret (ieq v1 ((@f0 binary64), (@f0 binary64))))));
  (778, (bind (@div binary64 ((@f0 binary64), (@f0 binary64)) ((@fminf binary64), (@f0 binary64))) (fun v1 => ret (ieq v1 ((@f0 binary64), (@f0 binary64))))));
  (779, (bind (@div binary64 ((@f0 binary64), (@f0 binary64)) ((@fm0 binary64), (fl binary64 (3) (0)))) (fun v1 => ret (ieq v1 ((@f0 binary64), (@f0 binary64))))));
  (780, (bind (@div binary64 ((@f0 binary64), (@f0 binary64)) ((@fminf binary64), (@fm0 binary64))) (fun v1 => ret (ieq v1 ((@f0 binary64), (@f0 binary64))))));
  (781, (bind (@div binary64 ((@f0 binary64), (@f0 binary64)) ((@fminf binary64), (fl binary64 (3) (0)))) (fun v1 => ret (ieq v1 ((@f0 binary64), (@f0 binary64))))));
  (782, (bind (@div binary64 ((@f0 binary64), (@f0 binary64)) ((fl binary64 (-3) (0)), (@finf binary64))) (fun v1 => ret (ieq v1 ((@f0 binary64), (@f0 binary64))))));
  (783, (bind (@div binary64 ((@f0 binary64), (@f0 binary64)) ((@f0 binary64), (@finf binary64))) (fun v1 => ret (ieq v1 ((@f0 binary64), (@f0 binary64))))));
  (784, (bind (@div binary64 ((@f0 binary64), (@f0 binary64)) ((@fm0 binary64), (@finf binary64))) (fun v1 => ret (ieq v1 ((@f0 binary64), (@f0 binary64))))));
  (785, (bind (@div binary64 ((@f0 binary64), (@f0 binary64)) (@entire binary64)) (fun v1 => ret (ieq v1 ((@f0 binary64), (@f0 binary64))))));
  (787, (bind (@div binary64 ((@fm0 binary64), (@fm0 binary64)) ((fl binary64 (-5) (0)), (fl binary64 (-3) (0)))) (fun v1 => ret (ieq v1 ((@f0 binary64), (@f0 binary64))))));
  (788, (bind (@div binary64 ((@fm0 binary64), (@fm0 binary64)) ((fl binary64 (3) (0)), (fl binary64 (5) (0)))) (fun v1 => ret (ieq v1 ((@f0 binary64), (@f0 binary64))))));
  (789, (bind (@div binary64 ((@fm0 binary64), (@fm0 binary64)) ((@fminf binary64), (fl binary64 (-3) (0)))) (fun v1 => ret (ieq v1 ((@f0 binary64), (@f0 binary64))))));
  (790, (bind (@div binary64 ((@fm0 binary64), (@fm0 binary64)) ((fl binary64 (3) (0)), (@finf binary64))) (fun v1 => ret (ieq v1 ((@f0 binary64), (@f0 binary64))))));
  (791, (bind (@div binary64 ((@fm0 binary64), (@fm0 binary64)) ((@f0 binary64), (@f0 binary64))) (fun v1 => @is_empty binary64 v1)));
  (792, (bind (@div binary64 ((@fm0 binary64), (@fm0 binary64)) ((fl binary64 (-3) (0)), (@f0 binary64))) (fun v1 => ret (ieq v1 ((@f0 binary64), (@f0 binary64))))));
  (793, (bind (@div binary64 ((@fm0 binary64), (@fm0 binary64)) ((@fm0 binary64), (@fm0 binary64))) (fun v1 => @is_empty binary64 v1)));
  (794, (bind (@div binary64 ((@fm0 binary64), (@fm0 binary64)) ((fl binary64 (-3) (0)), (@fm0 binary64))) (fun v1 => ret (ieq v1 ((@f0 binary64), (@f0 binary64))))));
  (795, (bind (@div binary64 ((@fm0 binary64), (@fm0 binary64)) ((fl binary64 (-3) (0)), (fl binary64 (3) (0)))) (fun v1 => ret (ieq v1 ((@f0 binary64), (@f0 binary64))))));
  (796, (bind (@div binary64 ((@fm0 binary64), (@fm0 binary64)) ((@f0 binary64), (fl binary64 (3) (0)))) (fun v1 => ret (ieq v1 ((@f0 binary64), (@f0 binary64))))));
  (797, (bind (@div binary64 ((@fm0 binary64), (@fm0 binary64)) ((@fminf binary64), (@f0 binary64))) (fun v1 => ret (ieq v1 ((@f0 binary64), (@f0 binary64))))));
  (798, (bind (@div binary64 ((@fm0 binary64), (@fm0 binary64)) ((@fm0 binary64), (fl binary64 (3) (0)))) (fun v1 => ret (ieq v1 ((@f0 binary64), (@f0 binary64))))));
  (799, (bind (@div binary64 ((@fm0 binary64), (@fm0 binary64)) ((@fminf binary64), (@fm0 binary64))) (fun v1 => ret (ieq v1 ((@f0 binary64), (@f0 binary64))))));
  (800, (bind (@div binary64 ((@fm0 binary64), (@fm0 binary64)) ((@fminf binary64), (fl binary64 (3) (0)))) (fun v1 => ret (ieq v1 ((@f0 binary64), (@f0 binary64))))));
  (801, (bind (@div binary64 ((@fm0 binary64), (@fm0 binary64)) ((fl binary64 (-3) (0)), (@finf binary64))) (fun v1 => ret (ieq v1 ((@f0 binary64), (@f0 binary64))))));
  (802, (bind (@div binary64 ((@fm0 binary64), (@fm0 binary64)) ((@f0 binary64), (@finf binary64))) (fun v1 => ret (ieq v1 ((@f0 binary64), (@f0 binary64))))));
  (803, (bind (@div binary64 ((@fm0 binary64), (@fm0 binary64)) ((@fm0 binary64), (@finf binary64))) (fun v1 => ret (ieq v1 ((@f0 binary64), (@f0 binary64))))));
  (804, (bind (@div binary64 ((@fm0 binary64), (@fm0 binary64)) (@entire binary64)) (fun v1 => ret (ieq v1 ((@f0 binary64), (@f0 binary64))))));
  (806, (bind (@div binary64 ((@fminf binary64), (fl binary64 (-15) (0))) ((fl binary64 (-5) (0)), (fl binary64 (-3) (0)))) (fun v1 => ret (ieq v1 ((fl binary64 (3) (0)), (@finf binary64))))));
  (807, (bind (@div binary64 ((@fminf binary64), (fl binary64 (-15) (0))) ((fl binary64 (3) (0)), (fl binary64 (5) (0)))) (fun v1 => ret (ieq v1 ((@fminf binary64), (fl binary64 (-3) (0)))))));
  (808, (bind (@div binary64 ((@fminf binary64), (fl binary64 (-15) (0))) ((@fminf binary64), (fl binary64 (-3) (0)))) (fun v1 => ret (ieq v1 ((@f0 binary64), (@finf binary64))))));
  (809, (bind (@div binary64 ((@fminf binary64), (fl binary64 (-15) (0))) ((fl binary64 (3) (0)), (@finf binary64))) (fun v1 => ret (ieq v1 ((@fminf binary64), (@f0 binary64))))));
  (810, (bind (@div binary64 ((@fminf binary64), (fl binary64 (-15) (0))) ((@f0 binary64), (@f0 binary64))) (fun v1 => @is_empty binary64 v1)));
  (811, (bind (@div binary64 ((@fminf binary64), (fl binary64 (-15) (0))) ((fl binary64 (-3) (0)), (@f0 binary64))) (fun v1 => ret (ieq v1 ((fl binary64 (5) (0)), (@finf binary64))))));
  (812, (bind (@div binary64 ((@fminf binary64), (fl binary64 (-15) (0))) ((@fm0 binary64), (@fm0 binary64))) (fun v1 => @is_empty binary64 v1)));
  (813, (bind (@div binary64 ((@fminf binary64), (fl binary64 (-15) (0))) ((fl binary64 (-3) (0)), (@fm0 binary64))) (fun v1 => ret (ieq v1 ((fl binary64 (5) (0)), (@finf binary64))))));
  (814, (bind (@div binary64 ((@fminf binary64), (fl binary64 (-15) (0))) ((fl binary64 (-3) (0)), (fl binary64 (3) (0)))) (fun v1 => ret (ieq v1 (@entire binary64)))));
  (815, (bind (@div binary64 ((@fminf binary64), (fl binary64 (-15) (0))) ((@f0 binary64), (fl binary64 (3) (0)))) (fun v1 => ret (ieq v1 ((@fminf binary64), (fl binary64 (-5) (0)))))));
  (816, (bind (@div binary64 ((@fminf binary64), (fl binary64 (-15) (0))) ((@fminf binary64), (@f0 binary64))) (fun v1 => ret (ieq v1 ((@f0 binary64), (@finf binary64))))));
  (817, (bind (@div binary64 ((@fminf binary64), (fl binary64 (-15) (0))) ((@fm0 binary64), (fl binary64 (3) (0)))) (fun v1 => ret (ieq v1 ((@fminf binary64), (fl binary64 (-5) (0)))))));
  (818, (bind (@div binary64 ((@fminf binary64), (fl binary64 (-15) (0))) ((@fminf binary64), (@fm0 binary64))) (fun v1 => ret (ieq v1 ((@f0 binary64), (@finf binary64))))));
  (819, (bind (@div binary64 ((@fminf binary64), (fl binary64 (-15) (0))) ((@fminf binary64), (fl binary64 (3) (0)))) (fun v1 => ret (ieq v1 (@entire binary64)))));
  (820, (bind (@div binary64 ((@fminf binary64), (fl binary64 (-15) (0))) ((fl binary64 (-3) (0)), (@finf binary64))) (fun v1 => ret (ieq v1 (@entire binary64)))));
  (821, (bind (@div binary64 ((@fminf binary64), (fl binary64 (-15) (0))) ((@f0 binary64), (@finf binary64))) (fun v1 => ret (ieq v1 ((@fminf binary64), (@f0 binary64))))));
  (822, (bind (@div binary64 ((@fminf binary64), (fl binary64 (-15) (0))) ((@fm0 binary64), (@finf binary64))) (fun v1 => ret (ieq v1 ((@fminf binary64), (@f0 binary64))))));
  (823, (bind (@div binary64 ((@fminf binary64), (fl binary64 (-15) (0))) (@entire binary64)) (fun v1 => ret (ieq v1 (@entire binary64)))));
  (825, (bind (@div binary64 ((@fminf binary64), (fl binary64 (15) (0))) ((fl binary64 (-5) (0)), (fl binary64 (-3) (0)))) (fun v1 => ret (ieq v1 ((fl binary64 (-5) (0)), (@finf binary64))))));
  (826, (bind (@div binary64 ((@fminf binary64), (fl binary64 (15) (0))) ((fl binary64 (3) (0)), (fl binary64 (5) (0)))) (fun v1 => ret (ieq v1 ((@fminf binary64), (fl binary64 (5) (0)))))));
  (827, (bind (@div binary64 ((@fminf binary64), (fl binary64 (15) (0))) ((@fminf binary64), (fl binary64 (-3) (0)))) (fun v1 => ret (ieq v1 ((fl binary64 (-5) (0)), (@finf binary64))))));
  (828, (bind (@div binary64 ((@fminf binary64), (fl binary64 (15) (0))) ((fl binary64 (3) (0)), (@finf binary64))) (fun v1 => ret (ieq v1 ((@fminf binary64), (fl binary64 (5) (0)))))));
  (829, (bind (@div binary64 ((@fminf binary64), (fl binary64 (15) (0))) ((@f0 binary64), (@f0 binary64))) (fun v1 => @is_empty binary64 v1)));
  (830, (bind (@div binary64 ((@fminf binary64), (fl binary64 (15) (0))) ((fl binary64 (-3) (0)), (@f0 binary64))) (fun v1 => ret (ieq v1 (@entire binary64)))));
  (831, (bind (@div binary64 ((@fminf binary64), (fl binary64 (15) (0))) ((@fm0 binary64), (@fm0 binary64))) (fun v1 => @is_empty binary64 v1)));
  (832, (bind (@div binary64 ((@fminf binary64), (fl binary64 (15) (0))) ((fl binary64 (-3) (0)), (@fm0 binary64))) (fun v1 => ret (ieq v1 (@entire binary64)))));
  (833, (bind (@div binary64 ((@fminf binary64), (fl binary64 (15) (0))) ((fl binary64 (-3) (0)), (fl binary64 (3) (0)))) (fun v1 => ret (ieq v1 (@entire binary64)))));
  (834, (bind (@div binary64 ((@fminf binary64), (fl binary64 (15) (0))) ((@f0 binary64), (fl binary64 (3) (0)))) (fun v1 => ret (ieq v1 (@entire binary64)))));
  (835, (bind (@div binary64 ((@fminf binary64), (fl binary64 (15) (0))) ((@fminf binary64), (@f0 binary64))) (fun v1 => ret (ieq v1 (@entire binary64)))));
  (836, (bind (@div binary64 ((@fminf binary64), (fl binary64 (15) (0))) ((@fm0 binary64), (fl binary64 (3) (0)))) (fun v1 => ret (ieq v1 (@entire binary64)))));
  (837, (bind (@div binary64 ((@fminf binary64), (fl binary64 (15) (0))) ((@fminf binary64), (@fm0 binary64))) (fun v1 => ret (ieq v1 (@entire binary64)))));
  (838, (bind (@div binary64 ((@fminf binary64), (fl binary64 (15) (0))) ((@fminf binary64), (fl binary64 (3) (0)))) (fun v1 => ret (ieq v1 (@entire binary64)))));
  (839, (bind (@div binary64 ((@fminf binary64), (fl binary64 (15) (0))) ((fl binary64 (-3) (0)), (@finf binary64))) (fun v1 => ret (ieq v1 (@entire binary64)))));
  (840, (bind (@div binary64 ((@fminf binary64), (fl binary64 (15) (0))) ((@f0 binary64), (@finf binary64))) (fun v1 => ret (ieq v1 (@entire binary64)))));
  (841, (bind (@div binary64 ((@fminf binary64), (fl binary64 (15) (0))) ((@fm0 binary64), (@finf binary64))) (fun v1 => ret (ieq v1 (@entire binary64)))));
  (842, (bind (@div binary64 ((@fminf binary64), (fl binary64 (15) (0))) (@entire binary64)) (fun v1 => ret (ieq v1 (@entire binary64)))));
  (844, (bind (@div binary64 ((fl binary64 (-15) (0)), (@finf binary64)) ((fl binary64 (-5) (0)), (fl binary64 (-3) (0)))) (fun v1 => ret (ieq v1 ((@fminf binary64), (fl binary64 (5) (0)))))));
  (845, (bind (@div binary64 ((fl binary64 (-15) (0)), (@finf binary64)) ((fl binary64 (3) (0)), (fl binary64 (5) (0)))) (fun v1 => ret (ieq v1 ((fl binary64 (-5) (0)), (@finf binary64))))));
  (846, (bind (@div binary64 ((fl binary64 (-15) (0)), (@finf binary64)) ((@fminf binary64), (fl binary64 (-3) (0)))) (fun v1 => ret (ieq v1 ((@fminf binary64), (fl binary64 (5) (0)))))));
  (847, (bind (@div binary64 ((fl binary64 (-15) (0)), (@finf binary64)) ((fl binary64 (3) (0)), (@finf binary64))) (fun v1 => ret (ieq v1 ((fl binary64 (-5) (0)), (@finf binary64))))));
  (848, (bind (@div binary64 ((fl binary64 (-15) (0)), (@finf binary64)) ((@f0 binary64), (@f0 binary64))) (fun v1 => @is_empty binary64 v1)));
  (849, (bind (@div binary64 ((fl binary64 (-15) (0)), (@finf binary64)) ((fl binary64 (-3) (0)), (@f0 binary64))) (fun v1 => ret (ieq v1 (@entire binary64)))));
  (850, (bind (@div binary64 ((fl binary64 (-15) (0)), (@finf binary64)) ((@fm0 binary64), (@fm0 binary64))) (fun v1 => @is_empty binary64 v1)));
  (851, (bind (@div binary64 ((fl binary64 (-15) (0)), (@finf binary64)) ((fl binary64 (-3) (0)), (@fm0 binary64))) (fun v1 => ret (ieq v1 (@entire binary64)))));
  (852, (bind (@div binary64 ((fl binary64 (-15) (0)), (@finf binary64)) ((fl binary64 (-3) (0)), (fl binary64 (3) (0)))) (fun v1 => ret (ieq v1 (@entire binary64)))));
  (853, (bind (@div binary64 ((fl binary64 (-15) (0)), (@finf binary64)) ((@f0 binary64), (fl binary64 (3) (0)))) (fun v1 => ret (ieq v1 (@entire binary64)))));
  (854, (bind (@div binary64 ((fl binary64 (-15) (0)), (@finf binary64)) ((@fminf binary64), (@f0 binary64))) (fun v1 => ret (ieq v1 (@entire binary64)))));
  (855, (bind (@div binary64 ((fl binary64 (-15) (0)), (@finf binary64)) ((@fm0 binary64), (fl binary64 (3) (0)))) (fun v1 => ret (ieq v1 (@entire binary64)))));
  (856, (bind (@div binary64 ((fl binary64 (-15) (0)), (@finf binary64)) ((@fminf binary64), (@fm0 binary64))) (fun v1 => ret (ieq v1 (@entire binary64)))));
  (857, (bind (@div binary64 ((fl binary64 (-15) (0)), (@finf binary64)) ((@fminf binary64), (fl binary64 (3) (0)))) (fun v1 => ret (ieq v1 (@entire binary64)))));
  (858, (bind (@div binary64 ((fl binary64 (-15) (0)), (@finf binary64)) ((fl binary64 (-3) (0)), (@finf binary64))) (fun v1 => ret (ieq v1 (@entire binary64)))));
  (859, (bind (@div binary64 ((fl binary64 (-15) (0)), (@finf binary64)) ((@f0 binary64), (@finf binary64))) (fun v1 => ret (ieq v1 (@entire binary64)))));
  (860, (bind (@div binary64 ((fl binary64 (-15) (0)), (@finf binary64)) ((@fm0 binary64), (@finf binary64))) (fun v1 => ret (ieq v1 (@entire binary64)))));
  (861, (bind (@div binary64 ((fl binary64 (-15) (0)), (@finf binary64)) (@entire binary64)) (fun v1 => ret (ieq v1 (@entire binary64)))));
  (863, (bind (@div binary64 ((fl binary64 (15) (0)), (@finf binary64)) ((fl binary64 (-5) (0)), (fl binary64 (-3) (0)))) (fun v1 => ret (ieq v1 ((@fminf binary64), (fl binary64 (-3) (0)))))));
  (864, (bind (@div binary64 ((fl binary64 (15) (0)), (@finf binary64)) ((fl binary64 (3) (0)), (fl binary64 (5) (0)))) (fun v1 => ret (ieq v1 ((fl binary64 (3) (0)), (@finf binary64))))));
  (865, (bind (@div binary64 ((fl binary64 (15) (0)), (@finf binary64)) ((@fminf binary64), (fl binary64 (-3) (0)))) (fun v1 => ret (ieq v1 ((@fminf binary64), (@f0 binary64))))));
  (866, (bind (@div binary64 ((fl binary64 (15) (0)), (@finf binary64)) ((fl binary64 (3) (0)), (@finf binary64))) (fun v1 => ret (ieq v1 ((@f0 binary64), (@finf binary64))))));
  (867, (bind (@div binary64 ((fl binary64 (15) (0)), (@finf binary64)) ((@f0 binary64), (@f0 binary64))) (fun v1 => @is_empty binary64 v1)));
  (868, (bind (@div binary64 ((fl binary64 (15) (0)), (@finf binary64)) ((fl binary64 (-3) (0)), (@f0 binary64))) (fun v1 => ret (ieq v1 ((@fminf binary64), (fl binary64 (-5) (0)))))));
  (869, (bind (@div binary64 ((fl binary64 (15) (0)), (@finf binary64)) ((@fm0 binary64), (@fm0 binary64))) (fun v1 => @is_empty binary64 v1)));
  (870, (bind (@div binary64 ((fl binary64 (15) (0)), (@finf binary64)) ((fl binary64 (-3) (0)), (@fm0 binary64))) (fun v1 => ret (ieq v1 ((@fminf binary64), (fl binary64 (-5) (0)))))));
  (871, (bind (@div binary64 ((fl binary64 (15) (0)), (@finf binary64)) ((fl binary64 (-3) (0)), (fl binary64 (3) (0)))) (fun v1 => ret (ieq v1 (@entire binary64)))));
  (872, (bind (@div binary64 ((fl binary64 (15) (0)), (@finf binary64)) ((@f0 binary64), (fl binary64 (3) (0)))) (fun v1 => ret (ieq v1 ((fl binary64 (5) (0)), (@finf binary64))))));
  (873, (bind (@div binary64 ((fl binary64 (15) (0)), (@finf binary64)) ((@fminf binary64), (@f0 binary64))) (fun v1 => ret (ieq v1 ((@fminf binary64), (@f0 binary64))))));
  (874, (bind (@div binary64 ((fl binary64 (15) (0)), (@finf binary64)) ((@fm0 binary64), (fl binary64 (3) (0)))) (fun v1 => ret (ieq v1 ((fl binary64 (5) (0)), (@finf binary64))))));
  (875, (bind (@div binary64 ((fl binary64 (15) (0)), (@finf binary64)) ((@fminf binary64), (@fm0 binary64))) (fun v1 => ret (ieq v1 ((@fminf binary64), (@f0 binary64))))));
  (876, (bind (@div binary64 ((fl binary64 (15) (0)), (@finf binary64)) ((@fminf binary64), (fl binary64 (3) (0)))) (fun v1 => ret (ieq v1 (@entire binary64)))));
  (877, (bind (@div binary64 ((fl binary64 (15) (0)), (@finf binary64)) ((fl binary64 (-3) (0)), (@finf binary64))) (fun v1 => ret (ieq v1 (@entire binary64)))));
  (878, (bind (@div binary64 ((fl binary64 (15) (0)), (@finf binary64)) ((@f0 binary64), (@finf binary64))) (fun v1 => ret (ieq v1 ((@f0 binary64), (@finf binary64))))));
  (879, (bind (@div binary64 ((fl binary64 (15) (0)), (@finf binary64)) ((@fm0 binary64), (@finf binary64))) (fun v1 => ret (ieq v1 ((@f0 binary64), (@finf binary64))))));
  (880, (bind (@div binary64 ((fl binary64 (15) (0)), (@finf binary64)) (@entire binary64)) (fun v1 => ret (ieq v1 (@entire binary64)))));
  (882, (bind (@div binary64 ((fl binary64 (-15) (1)), (@f0 binary64)) ((fl binary64 (-5) (0)), (fl binary64 (-3) (0)))) (fun v1 => ret (ieq v1 ((@f0 binary64), (fl binary64 (5) (1)))))));
  (883, (bind (@div binary64 ((fl binary64 (-15) (1)), (@f0 binary64)) ((fl binary64 (3) (0)), (fl binary64 (5) (0)))) (fun v1 => ret (ieq v1 ((fl binary64 (-5) (1)), (@f0 binary64))))));
  (884, (bind (@div binary64 ((fl binary64 (-15) (1)), (@f0 binary64)) ((@fminf binary64), (fl binary64 (-3) (0)))) (fun v1 => ret (ieq v1 ((@f0 binary64), (fl binary64 (5) (1)))))));
  (885, (bind (@div binary64 ((fl binary64 (-15) (1)), (@f0 binary64)) ((fl binary64 (3) (0)), (@finf binary64))) (fun v1 => ret (ieq v1 ((fl binary64 (-5) (1)), (@f0 binary64))))));
  (886, (bind (@div binary64 ((fl binary64 (-15) (1)), (@f0 binary64)) ((@f0 binary64), (@f0 binary64))) (fun v1 => @is_empty binary64 v1)));
  (887, (bind (@div binary64 ((fl binary64 (-15) (1)), (@f0 binary64)) ((fl binary64 (-3) (0)), (@f0 binary64))) (fun v1 => ret (ieq v1 ((@f0 binary64), (@finf binary64))))));
  (888, (bind (@div binary64 ((fl binary64 (-15) (1)), (@f0 binary64)) ((@fm0 binary64), (@fm0 binary64))) (fun v1 => @is_empty binary64 v1)));
  (889, (bind (@div binary64 ((fl binary64 (-15) (1)), (@f0 binary64)) ((fl binary64 (-3) (0)), (@fm0 binary64))) (fun v1 => ret (ieq v1 ((@f0 binary64), (@finf binary64))))));
  (890, (bind (@div binary64 ((fl binary64 (-15) (1)), (@f0 binary64)) ((fl binary64 (-3) (0)), (fl binary64 (3) (0)))) (fun v1 => ret (ieq v1 (@entire binary64)))));
  (891, (bind (@div binary64 ((fl binary64 (-15) (1)), (@f0 binary64)) ((@f0 binary64), (fl binary64 (3) (0)))) (fun v1 => ret (ieq v1 ((@fminf binary64), (@f0 binary64))))));
  (892, (bind (@div binary64 ((fl binary64 (-15) (1)), (@f0 binary64)) ((@fminf binary64), (@f0 binary64))) (fun v1 => ret (ieq v1 ((@f0 binary64), (@finf binary64))))));
  (893, (bind (@div binary64 ((fl binary64 (-15) (1)), (@f0 binary64)) ((@fm0 binary64), (fl binary64 (3) (0)))) (fun v1 => ret (ieq v1 ((@fminf binary64), (@f0 binary64))))));
  (894, (bind (@div binary64 ((fl binary64 (-15) (1)), (@f0 binary64)) ((@fminf binary64), (@fm0 binary64))) (fun v1 => ret (ieq v1 ((@f0 binary64), (@finf binary64))))));
  (895, (bind (@div binary64 ((fl binary64 (-15) (1)), (@f0 binary64)) ((@fminf binary64), (fl binary64 (3) (0)))) (fun v1 => ret (ieq v1 (@entire binary64)))));
  (896, (bind (@div binary64 ((fl binary64 (-15) (1)), (@f0 binary64)) ((fl binary64 (-3) (0)), (@finf binary64))) (fun v1 => ret (ieq v1 (@entire binary64)))));
  (897, (bind (@div binary64 ((fl binary64 (-15) (1)), (@f0 binary64)) ((@f0 binary64), (@finf binary64))) (fun v1 => ret (ieq v1 ((@fminf binary64), (@f0 binary64))))));
  (898, (bind (@div binary64 ((fl binary64 (-15) (1)), (@f0 binary64)) ((@fm0 binary64), (@finf binary64))) (fun v1 => ret (ieq v1 ((@fminf binary64), (@f0 binary64))))));
  (899, (bind (@div binary64 ((fl binary64 (-15) (1)), (@f0 binary64)) (@entire binary64)) (fun v1 => ret (ieq v1 (@entire binary64)))));
  (901, (bind (@div binary64 ((fl binary64 (-15) (1)), (@fm0 binary64)) ((fl binary64 (-5) (0)), (fl binary64 (-3) (0)))) (fun v1 => ret (ieq v1 ((@f0 binary64), (fl binary64 (5) (1)))))));
  (902, (bind (@div binary64 ((fl binary64 (-15) (1)), (@fm0 binary64)) ((fl binary64 (3) (0)), (fl binary64 (5) (0)))) (fun v1 => ret (ieq v1 ((fl binary64 (-5) (1)), (@f0 binary64))))));
  (903, (bind (@div binary64 ((fl binary64 (-15) (1)), (@fm0 binary64)) ((@fminf binary64), (fl binary64 (-3) (0)))) (fun v1 => ret (ieq v1 ((@f0 binary64), (fl binary64 (5) (1)))))));
  (904, (bind (@div binary64 ((fl binary64 (-15) (1)), (@fm0 binary64)) ((fl binary64 (3) (0)), (@finf binary64))) (fun v1 => ret (ieq v1 ((fl binary64 (-5) (1)), (@f0 binary64))))));
  (905, (bind (@div binary64 ((fl binary64 (-15) (1)), (@fm0 binary64)) ((@f0 binary64), (@f0 binary64))) (fun v1 => @is_empty binary64 v1)));
  (906, (bind (@div binary64 ((fl binary64 (-15) (1)), (@fm0 binary64)) ((fl binary64 (-3) (0)), (@f0 binary64))) (fun v1 => ret (ieq v1 ((@f0 binary64), (@finf binary64))))));
  (907, (bind (@div binary64 ((fl binary64 (-15) (1)), (@fm0 binary64)) ((@fm0 binary64), (@fm0 binary64))) (fun v1 => @is_empty binary64 v1)));
  (908, (bind (@div binary64 ((fl binary64 (-15) (1)), (@fm0 binary64)) ((fl binary64 (-3) (0)), (@fm0 binary64))) (fun v1 => ret (ieq v1 ((@f0 binary64), (@finf binary64))))));
  (909, (bind (@div binary64 ((fl binary64 (-15) (1)), (@fm0 binary64)) ((fl binary64 (-3) (0)), (fl binary64 (3) (0)))) (fun v1 => ret (ieq v1 (@entire binary64)))));
  (910, (bind (@div binary64 ((fl binary64 (-15) (1)), (@fm0 binary64)) ((@f0 binary64), (fl binary64 (3) (0)))) (fun v1 => ret (ieq v1 ((@fminf binary64), (@f0 binary64))))));
  (911, (bind (@div binary64 ((fl binary64 (-15) (1)), (@fm0 binary64)) ((@fminf binary64), (@f0 binary64))) (fun v1 => ret (ieq v1 ((@f0 binary64), (@finf binary64))))));
  (912, (bind (@div binary64 ((fl binary64 (-15) (1)), (@fm0 binary64)) ((@fm0 binary64), (fl binary64 (3) (0)))) (fun v1 => ret (ieq v1 ((@fminf binary64), (@f0 binary64))))));
  (913, (bind (@div binary64 ((fl binary64 (-15) (1)), (@fm0 binary64)) ((@fminf binary64), (@fm0 binary64))) (fun v1 => ret (ieq v1 ((@f0 binary64), (@finf binary64))))));
  (914, (bind (@div binary64 ((fl binary64 (-15) (1)), (@fm0 binary64)) ((@fminf binary64), (fl binary64 (3) (0)))) (fun v1 => ret (ieq v1 (@entire binary64)))));
  (915, (bind (@div binary64 ((fl binary64 (-15) (1)), (@fm0 binary64)) ((fl binary64 (-3) (0)), (@finf binary64))) (fun v1 => ret (ieq v1 (@entire binary64)))));
  (916, (bind (@div binary64 ((fl binary64 (-15) (1)), (@fm0 binary64)) ((@f0 binary64), (@finf binary64))) (fun v1 => ret (ieq v1 ((@fminf binary64), (@f0 binary64))))));
  (917, (bind (@div binary64 ((fl binary64 (-15) (1)), (@fm0 binary64)) ((@fm0 binary64), (@finf binary64))) (fun v1 => ret (ieq v1 ((@fminf binary64), (@f0 binary64))))));
  (918, (bind (@div binary64 ((fl binary64 (-15) (1)), (@fm0 binary64)) (@entire binary64)) (fun v1 => ret (ieq v1 (@entire binary64)))));
  (920, (bind (@div binary64 ((@f0 binary64), (fl binary64 (15) (1))) ((fl binary64 (-5) (0)), (fl binary64 (-3) (0)))) (fun v1 => ret (ieq v1 ((fl binary64 (-5) (1)), (@f0 binary64))))));
  (921, (bind (@div binary64 ((@f0 binary64), (fl binary64 (15) (1))) ((fl binary64 (3) (0)), (fl binary64 (5) (0)))) (fun v1 => ret (ieq v1 ((@f0 binary64), (fl binary64 (5) (1)))))));
  (922, (bind (@div binary64 ((@f0 binary64), (fl binary64 (15) (1))) ((@fminf binary64), (fl binary64 (-3) (0)))) (fun v1 => ret (ieq v1 ((fl binary64 (-5) (1)), (@f0 binary64))))));
  (923, (bind (@div binary64 ((@f0 binary64), (fl binary64 (15) (1))) ((fl binary64 (3) (0)), (@finf binary64))) (fun v1 => ret (ieq v1 ((@f0 binary64), (fl binary64 (5) (1)))))));
  (924, (bind (@div binary64 ((@f0 binary64), (fl binary64 (15) (1))) ((@f0 binary64), (@f0 binary64))) (fun v1 => @is_empty binary64 v1)));
  (925, (bind (@div binary64 ((@f0 binary64), (fl binary64 (15) (1))) ((fl binary64 (-3) (0)), (@f0 binary64))) (fun v1 => ret (ieq v1 ((@fminf binary64), (@f0 binary64))))));
  (926, (bind (@div binary64 ((@f0 binary64), (fl binary64 (15) (1))) ((@fm0 binary64), (@fm0 binary64))) (fun v1 => @is_empty binary64 v1)));
  (927, (bind (@div binary64 ((@f0 binary64), (fl binary64 (15) (1))) ((fl binary64 (-3) (0)), (@fm0 binary64))) (fun v1 => ret (ieq v1 ((@fminf binary64), (@f0 binary64))))));
  (928, (bind (@div binary64 ((@f0 binary64), (fl binary64 (15) (1))) ((fl binary64 (-3) (0)), (fl binary64 (3) (0)))) (fun v1 => ret (ieq v1 (@entire binary64)))));
  (929, (bind (@div binary64 ((@f0 binary64), (fl binary64 (15) (1))) ((@f0 binary64), (fl binary64 (3) (0)))) (fun v1 => ret (ieq v1 ((@f0 binary64), (@finf binary64))))));
  (930, (bind (@div binary64 ((@f0 binary64), (fl binary64 (15) (1))) ((@fminf binary64), (@f0 binary64))) (fun v1 => ret (ieq v1 ((@fminf binary64), (@f0 binary64))))));
  (931, (bind (@div binary64 ((@f0 binary64), (fl binary64 (15) (1))) ((@fm0 binary64), (fl binary64 (3) (0)))) (fun v1 => ret (ieq v1 ((@f0 binary64), (@finf binary64))))));
  (932, (bind (@div binary64 ((@f0 binary64), (fl binary64 (15) (1))) ((@fminf binary64), (@fm0 binary64))) (fun v1 => ret (ieq v1 ((@fminf binary64), (@f0 binary64))))));
  (933, (bind (@div binary64 ((@f0 binary64), (fl binary64 (15) (1))) ((@fminf binary64), (fl binary64 (3) (0)))) (fun v1 => ret (ieq v1 (@entire binary64)))));
  (934, (bind (@div binary64 ((@f0 binary64), (fl binary64 (15) (1))) ((fl binary64 (-3) (0)), (@finf binary64))) (fun v1 => ret (ieq v1 (@entire binary64)))));
  (935, (bind (@div binary64 ((@f0 binary64), (fl binary64 (15) (1))) ((@f0 binary64), (@finf binary64))) (fun v1 => ret (ieq v1 ((@f0 binary64), (@finf binary64))))));
  (936, (bind (@div binary64 ((@f0 binary64), (fl binary64 (15) (1))) ((@fm0 binary64), (@finf binary64))) (fun v1 => ret (ieq v1 ((@f0 binary64), (@finf binary64))))));
  (937, (bind (@div binary64 ((@f0 binary64), (fl binary64 (15) (1))) (@entire binary64)) (fun v1 => ret (ieq v1 (@entire binary64)))));
  (939, (bind (@div binary64 ((@fm0 binary64), (fl binary64 (15) (1))) ((fl binary64 (-5) (0)), (fl binary64 (-3) (0)))) (fun v1 => ret (ieq v1 ((fl binary64 (-5) (1)), (@f0 binary64))))));
  (940, (bind (@div binary64 ((@fm0 binary64), (fl binary64 (15) (1))) ((fl binary64 (3) (0)), (fl binary64 (5) (0)))) (fun v1 => ret (ieq v1 ((@f0 binary64), (fl binary64 (5) (1)))))));
  (941, (bind (@div binary64 ((@fm0 binary64), (fl binary64 (15) (1))) ((@fminf binary64), (fl binary64 (-3) (0)))) (fun v1 => ret (ieq v1 ((fl binary64 (-5) (1)), (@f0 binary64))))));
  (942, (bind (@div binary64 ((@fm0 binary64), (fl binary64 (15) (1))) ((fl binary64 (3) (0)), (@finf binary64))) (fun v1 => ret (ieq v1 ((@f0 binary64), (fl binary64 (5) (1)))))));
  (943, (bind (@div binary64 ((@fm0 binary64), (fl binary64 (15) (1))) ((@f0 binary64), (@f0 binary64))) (fun v1 => @is_empty binary64 v1)));
  (944, (bind (@div binary64 ((@fm0 binary64), (fl binary64 (15) (1))) ((fl binary64 (-3) (0)), (@f0 binary64))) (fun v1 => ret (ieq v1 ((@fminf binary64), (@f0 binary64))))));
  (945, (bind (@div binary64 ((@fm0 binary64), (fl binary64 (15) (1))) ((@fm0 binary64), (@fm0 binary64))) (fun v1 => @is_empty binary64 v1)));
  (946, (bind (@div binary64 ((@fm0 binary64), (fl binary64 (15) (1))) ((fl binary64 (-3) (0)), (@fm0 binary64))) (fun v1 => ret (ieq v1 ((@fminf binary64), (@f0 binary64))))));
  (947, (bind (@div binary64 ((@fm0 binary64), (fl binary64 (15) (1))) ((fl binary64 (-3) (0)), (fl binary64 (3) (0)))) (fun v1 => ret (ieq v1 (@entire binary64)))));
  (948, (bind (@div binary64 ((@fm0 binary64), (fl binary64 (15) (1))) ((@f0 binary64), (fl binary64 (3) (0)))) (fun v1 => ret (ieq v1 ((@f0 binary64), (@finf binary64))))));
  (949, (bind (@div binary64 ((@fm0 binary64), (fl binary64 (15) (1))) ((@fminf binary64), (@f0 binary64))) (fun v1 => ret (ieq v1 ((@fminf binary64), (@f0 binary64))))));
  (950, (bind (@div binary64 ((@fm0 binary64), (fl binary64 (15) (1))) ((@fm0 binary64), (fl binary64 (3) (0)))) (fun v1 => ret (ieq v1 ((@f0 binary64), (@finf binary64))))));
  (951, (bind (@div binary64 ((@fm0 binary64), (fl binary64 (15) (1))) ((@fminf binary64), (@fm0 binary64))) (fun v1 => ret (ieq v1 ((@fminf binary64), (@f0 binary64))))));
  (952, (bind (@div binary64 ((@fm0 binary64), (fl binary64 (15) (1))) ((@fminf binary64), (fl binary64 (3) (0)))) (fun v1 => ret (ieq v1 (@entire binary64)))));
  (953, (bind (@div binary64 ((@fm0 binary64), (fl binary64 (15) (1))) ((fl binary64 (-3) (0)), (@finf binary64))) (fun v1 => ret (ieq v1 (@entire binary64)))));
  (954, (bind (@div binary64 ((@fm0 binary64), (fl binary64 (15) (1))) ((@f0 binary64), (@finf binary64))) (fun v1 => ret (ieq v1 ((@f0 binary64), (@finf binary64))))));
  (955, (bind (@div binary64 ((@fm0 binary64), (fl binary64 (15) (1))) ((@fm0 binary64), (@finf binary64))) (fun v1 => ret (ieq v1 ((@f0 binary64), (@finf binary64))))));
  (956, (bind (@div binary64 ((@fm0 binary64), (fl binary64 (15) (1))) (@entire binary64)) (fun v1 => ret (ieq v1 (@entire binary64)))));
  (958, (bind (@div binary64 ((@fminf binary64), (@f0 binary64)) ((fl binary64 (-5) (0)), (fl binary64 (-3) (0)))) (fun v1 => ret (ieq v1 ((@f0 binary64), (@finf binary64))))));
  (959, (bind (@div binary64 ((@fminf binary64), (@f0 binary64)) ((fl binary64 (3) (0)), (fl binary64 (5) (0)))) (fun v1 => ret (ieq v1 ((@fminf binary64), (@f0 binary64))))));
  (960, (bind (@div binary64 ((@fminf binary64), (@f0 binary64)) ((@fminf binary64), (fl binary64 (-3) (0)))) (fun v1 => ret (ieq v1 ((@f0 binary64), (@finf binary64))))));
  (961, (bind (@div binary64 ((@fminf binary64), (@f0 binary64)) ((fl binary64 (3) (0)), (@finf binary64))) (fun v1 => ret (ieq v1 ((@fminf binary64), (@f0 binary64))))));
  (962, (bind (@div binary64 ((@fminf binary64), (@f0 binary64)) ((@f0 binary64), (@f0 binary64))) (fun v1 => @is_empty binary64 v1)));
  (963, (bind (@div binary64 ((@fminf binary64), (@f0 binary64)) ((fl binary64 (-3) (0)), (@f0 binary64))) (fun v1 => ret (ieq v1 ((@f0 binary64), (@finf binary64))))));
  (964, (bind (@div binary64 ((@fminf binary64), (@f0 binary64)) ((@fm0 binary64), (@fm0 binary64))) (fun v1 => @is_empty binary64 v1)));
  (965, (bind (@div binary64 ((@fminf binary64), (@f0 binary64)) ((fl binary64 (-3) (0)), (@fm0 binary64))) (fun v1 => ret (ieq v1 ((@f0 binary64), (@finf binary64))))));
  (966, (bind (@div binary64 ((@fminf binary64), (@f0 binary64)) ((fl binary64 (-3) (0)), (fl binary64 (3) (0)))) (fun v1 => ret (ieq v1 (@entire binary64)))));
  (967, (bind (@div binary64 ((@fminf binary64), (@f0 binary64)) ((@f0 binary64), (fl binary64 (3) (0)))) (fun v1 => ret (ieq v1 ((@fminf binary64), (@f0 binary64))))));
  (968, (bind (@div binary64 ((@fminf binary64), (@f0 binary64)) ((@fminf binary64), (@f0 binary64))) (fun v1 => ret (ieq v1 ((@f0 binary64), (@finf binary64))))));
  (969, (bind (@div binary64 ((@fminf binary64), (@f0 binary64)) ((@fm0 binary64), (fl binary64 (3) (0)))) (fun v1 => ret (ieq v1 ((@fminf binary64), (@f0 binary64))))));
  (970, (bind (@div binary64 ((@fminf binary64), (@f0 binary64)) ((@fminf binary64), (@fm0 binary64))) (fun v1 => ret (ieq v1 ((@f0 binary64), (@finf binary64))))));
  (971, (bind (@div binary64 ((@fminf binary64), (@f0 binary64)) ((@fminf binary64), (fl binary64 (3) (0)))) (fun v1 => ret (ieq v1 (@entire binary64)))));
  (972, (bind (@div binary64 ((@fminf binary64), (@f0 binary64)) ((fl binary64 (-3) (0)), (@finf binary64))) (fun v1 => ret (ieq v1 (@entire binary64)))));
  (973, (bind (@div binary64 ((@fminf binary64), (@f0 binary64)) ((@f0 binary64), (@finf binary64))) (fun v1 => ret (ieq v1 ((@fminf binary64), (@f0 binary64))))));
  (974, (bind (@div binary64 ((@fminf binary64), (@f0 binary64)) ((@fm0 binary64), (@finf binary64))) (fun v1 => ret (ieq v1 ((@fminf binary64), (@f0 binary64))))));
  (975, (bind (@div binary64 ((@fminf binary64), (@f0 binary64)) (@entire binary64)) (fun v1 => ret (ieq v1 (@entire binary64)))));
  (977, (bind (@div binary64 ((@fminf binary64), (@fm0 binary64)) ((fl binary64 (-5) (0)), (fl binary64 (-3) (0)))) (fun v1 => ret (ieq v1 ((@f0 binary64), (@finf binary64))))));
  (978, (bind (@div binary64 ((@fminf binary64), (@fm0 binary64)) ((fl binary64 (3) (0)), (fl binary64 (5) (0)))) (fun v1 => ret (ieq v1 ((@fminf binary64), (@f0 binary64))))));
  (979, (bind (@div binary64 ((@fminf binary64), (@fm0 binary64)) ((@fminf binary64), (fl binary64 (-3) (0)))) (fun v1 => ret (ieq v1 ((@f0 binary64), (@finf binary64))))));
  (980, (bind (@div binary64 ((@fminf binary64), (@fm0 binary64)) ((fl binary64 (3) (0)), (@finf binary64))) (fun v1 => ret (ieq v1 ((@fminf binary64), (@f0 binary64))))));
  (981, (bind (@div binary64 ((@fminf binary64), (@fm0 binary64)) ((@f0 binary64), (@f0 binary64))) (fun v1 => @is_empty binary64 v1)));
  (982, (bind (@div binary64 ((@fminf binary64), (@fm0 binary64)) ((fl binary64 (-3) (0)), (@f0 binary64))) (fun v1 => ret (ieq v1 ((@f0 binary64), (@finf binary64))))));
  (983, (bind (@div binary64 ((@fminf binary64), (@fm0 binary64)) ((@fm0 binary64), (@fm0 binary64))) (fun v1 => @is_empty binary64 v1)));
  (984, (bind (@div binary64 ((@fminf binary64), (@fm0 binary64)) ((fl binary64 (-3) (0)), (@fm0 binary64))) (fun v1 => ret (ieq v1 ((@f0 binary64), (@finf binary64))))));
  (985, (bind (@div binary64 ((@fminf binary64), (@fm0 binary64)) ((fl binary64 (-3) (0)), (fl binary64 (3) (0)))) (fun v1 => ret (ieq v1 (@entire binary64)))));
  (986, (bind (@div binary64 ((@fminf binary64), (@fm0 binary64)) ((@f0 binary64), (fl binary64 (3) (0)))) (fun v1 => ret (ieq v1 ((@fminf binary64), (@f0 binary64))))));
  (987, (bind (@div binary64 ((@fminf binary64), (@fm0 binary64)) ((@fminf binary64), (@f0 binary64))) (fun v1 => ret (ieq v1 ((@f0 binary64), (@finf binary64))))));
  (988, (bind (@div binary64 ((@fminf binary64), (@fm0 binary64)) ((@fm0 binary64), (fl binary64 (3) (0)))) (fun v1 => ret (ieq v1 ((@fminf binary64), (@f0 binary64))))));
  (989, (bind (@div binary64 ((@fminf binary64), (@fm0 binary64)) ((@fminf binary64), (@fm0 binary64))) (fun v1 => ret (ieq v1 ((@f0 binary64), (@finf binary64))))));
  (990, (bind (@div binary64 ((@fminf binary64), (@fm0 binary64)) ((@fminf binary64), (fl binary64 (3) (0)))) (fun v1 => ret (ieq v1 (@entire binary64)))));
  (991, (bind (@div binary64 ((@fminf binary64), (@fm0 binary64)) ((fl binary64 (-3) (0)), (@finf binary64))) (fun v1 => ret (ieq v1 (@entire binary64)))));
  (992, (bind (@div binary64 ((@fminf binary64), (@fm0 binary64)) ((@f0 binary64), (@finf binary64))) (fun v1 => ret (ieq v1 ((@fminf binary64), (@f0 binary64))))));
  (993, (bind (@div binary64 ((@fminf binary64), (@fm0 binary64)) ((@fm0 binary64), (@finf binary64))) (fun v1 => ret (ieq v1 ((@fminf binary64), (@f0 binary64))))));
  (994, (bind (@div binary64 ((@fminf binary64), (@fm0 binary64)) (@entire binary64)) (fun v1 => ret (ieq v1 (@entire binary64)))));
  (996, (bind (@div binary64 ((@f0 binary64), (@finf binary64)) ((fl binary64 (-5) (0)), (fl binary64 (-3) (0)))) (fun v1 => ret (ieq v1 ((@fminf binary64), (@f0 binary64))))));
  (997, (bind (@div binary64 ((@f0 binary64), (@finf binary64)) ((fl binary64 (3) (0)), (fl binary64 (5) (0)))) (fun v1 => ret (ieq v1 ((@f0 binary64), (@finf binary64))))));
  (998, (bind (@div binary64 ((@f0 binary64), (@finf binary64)) ((@fminf binary64), (fl binary64 (-3) (0)))) (fun v1 => ret (ieq v1 ((@fminf binary64), (@f0 binary64))))));
  (999, (bind (@div binary64 ((@f0 binary64), (@finf binary64)) ((fl binary64 (3) (0)), (@finf binary64))) (fun v1 => ret (ieq v1 ((@f0 binary64), (@finf binary64))))));
  (1000, (bind (@div binary64 ((@f0 binary64), (@finf binary64)) ((@f0 binary64), (@f0 binary64))) (fun v1 => @is_empty binary64 v1)));
  (1001, (bind (@div binary64 ((@f0 binary64), (@finf binary64)) ((fl binary64 (-3) (0)), (@f0 binary64))) (fun v1 => ret (ieq v1 ((@fminf binary64), (@f0 binary64))))));
  (1002, (bind (@div binary64 ((@f0 binary64), (@finf binary64)) ((@fm0 binary64), (@fm0 binary64))) (fun v1 => @is_empty binary64 v1)));
  (1003, (bind (@div binary64 ((@f0 binary64), (@finf binary64)) ((fl binary64 (-3) (0)), (@fm0 binary64))) (fun v1 => ret (ieq v1 ((@fminf binary64), (@f0 binary64))))));
  (1004, (bind (@div binary64 ((@f0 binary64), (@finf binary64)) ((fl binary64 (-3) (0)), (fl binary64 (3) (0)))) (fun v1 => ret (ieq v1 (@entire binary64)))));
  (1005, (bind (@div binary64 ((@f0 binary64), (@finf binary64)) ((@f0 binary64), (fl binary64 (3) (0)))) (fun v1 => ret (ieq v1 ((@f0 binary64), (@finf binary64))))));
  (1006, (bind (@div binary64 ((@f0 binary64), (@finf binary64)) ((@fminf binary64), (@f0 binary64))) (fun v1 => ret (ieq v1 ((@fminf binary64), (@f0 binary64))))));
  (1007, (bind (@div binary64 ((@f0 binary64), (@finf binary64)) ((@fm0 binary64), (fl binary64 (3) (0)))) (fun v1 => ret (ieq v1 ((@f0 binary64), (@finf binary64))))));
  (1008, (bind (@div binary64 ((@f0 binary64), (@finf binary64)) ((@fminf binary64), (@fm0 binary64))) (fun v1 => ret (ieq v1 ((@fminf binary64), (@f0 binary64))))));
  (1009, (bind (@div binary64 ((@f0 binary64), (@finf binary64)) ((@fminf binary64), (fl binary64 (3) (0)))) (fun v1 => ret (ieq v1 (@entire binary64)))));
  (1010, (bind (@div binary64 ((@f0 binary64), (@finf binary64)) ((fl binary64 (-3) (0)), (@finf binary64))) (fun v1 => ret (ieq v1 (@entire binary64)))));
  (1011, (bind (@div binary64 ((@f0 binary64), (@finf binary64)) ((@f0 binary64), (@finf binary64))) (fun v1 => ret (ieq v1 ((@f0 binary64), (@finf binary64))))));
  (1012, (bind (@div binary64 ((@f0 binary64), (@finf binary64)) ((@fm0 binary64), (@finf binary64))) (fun v1 => ret (ieq v1 ((@f0 binary64), (@finf binary64))))));
  (1013, (bind (@div binary64 ((@f0 binary64), (@finf binary64)) (@entire binary64)) (fun v1 => ret (ieq v1 (@entire binary64)))));
  (1015, (bind (@div binary64 ((@fm0 binary64), (@finf binary64)) ((fl binary64 (-5) (0)), (fl binary64 (-3) (0)))) (fun v1 => ret (ieq v1 ((@fminf binary64), (@f0 binary64))))));
  (1016, (bind (@div binary64 ((@fm0 binary64), (@finf binary64)) ((fl binary64 (3) (0)), (fl binary64 (5) (0)))) (fun v1 => ret (ieq v1 ((@f0 binary64), (@finf binary64))))));
  (1017, (bind (@div binary64 ((@fm0 binary64), (@finf binary64)) ((@fminf binary64), (fl binary64 (-3) (0)))) (fun v1 => ret (ieq v1 ((@fminf binary64), (@f0 binary64))))));
  (1018, (bind (@div binary64 ((@fm0 binary64), (@finf binary64)) ((fl binary64 (3) (0)), (@finf binary64))) (fun v1 => ret (ieq v1 ((@f0 binary64), (@finf binary64))))));
  (1019, (bind (@div binary64 ((@fm0 binary64), (@finf binary64)) ((@f0 binary64), (@f0 binary64))) (fun v1 => @is_empty binary64 v1)));
  (1020, (bind (@div binary64 ((@fm0 binary64), (@finf binary64)) ((fl binary64 (-3) (0)), (@f0 binary64))) (fun v1 => ret (ieq v1 ((@fminf binary64), (@f0 binary64))))));
  (1021, (bind (@div binary64 ((@fm0 binary64), (@finf binary64)) ((@fm0 binary64), (@fm0 binary64))) (fun v1 => @is_empty binary64 v1)));
  (1022, (bind (@div binary64 ((@fm0 binary64), (@finf binary64)) ((fl binary64 (-3) (0)), (@fm0 binary64))) (fun v1 => ret (ieq v1 ((@fminf binary64), (@f0 binary64))))));
  (1023, (bind (@div binary64 ((@fm0 binary64), (@finf binary64)) ((fl binary64 (-3) (0)), (fl binary64 (3) (0)))) (fun v1 => ret (ieq v1 (@entire binary64)))));
  (1024, (bind (@div binary64 ((@fm0 binary64), (@finf binary64)) ((@f0 binary64), (fl binary64 (3) (0)))) (fun v1 => ret (ieq v1 ((@f0 binary64), (@finf binary64))))));
  (1025, (bind (@div binary64 ((@fm0 binary64), (@finf binary64)) ((@fminf binary64), (@f0 binary64))) (fun v1 => ret (ieq v1 ((@fminf binary64), (@f0 binary64))))));
  (1026, (bind (@div binary64 ((@fm0 binary64), (@finf binary64)) ((@fm0 binary64), (fl binary64 (3) (0)))) (fun v1 => ret (ieq v1 ((@f0 binary64), (@finf binary64))))));
  (1027, (bind (@div binary64 ((@fm0 binary64), (@finf binary64)) ((@fminf binary64), (@fm0 binary64))) (fun v1 => ret (ieq v1 ((@fminf binary64), (@f0 binary64))))));
  (1028, (bind (@div binary64 ((@fm0 binary64), (@finf binary64)) ((@fminf binary64), (fl binary64 (3) (0)))) (fun v1 => ret (ieq v1 (@entire binary64)))));
  (1029, (bind (@div binary64 ((@fm0 binary64), (@finf binary64)) ((fl binary64 (-3) (0)), (@finf binary64))) (fun v1 => ret (ieq v1 (@entire binary64)))));
  (1030, (bind (@div binary64 ((@fm0 binary64), (@finf binary64)) ((@f0 binary64), (@finf binary64))) (fun v1 => ret (ieq v1 ((@f0 binary64), (@finf binary64))))));
  (1031, (bind (@div binary64 ((@fm0 binary64), (@finf binary64)) ((@fm0 binary64), (@finf binary64))) (fun v1 => ret (ieq v1 ((@f0 binary64), (@finf binary64))))));
  (1032, (bind (@div binary64 ((@fm0 binary64), (@finf binary64)) (@entire binary64)) (fun v1 => ret (ieq v1 (@entire binary64)))));
  (1034, (bind (@div binary64 ((fl binary64 (-1) (1)), (fl binary64 (-1) (0))) ((fl binary64 (-5) (1)), (fl binary64 (-3) (0)))) (fun v1 => ret (ieq v1 ((fl binary64 (7205759403792793) (-56)), (fl binary64 (3002399751580331) (-52)))))));
  (1035, (bind (@div binary64 ((fl binary64 (-1) (1)), (fl binary64 (-1) (0))) ((@f0 binary64), (fl binary64 (5) (1)))) (fun v1 => ret (ieq v1 ((@fminf binary64), (fl binary64 (-7205759403792793) (-56)))))));
  (1036, (bind (@div binary64 ((fl binary64 (-1) (1)), (fl binary64 (-1) (0))) ((@fm0 binary64), (fl binary64 (5) (1)))) (fun v1 => ret (ieq v1 ((@fminf binary64), (fl binary64 (-7205759403792793) (-56)))))));
  (1037, (bind (@div binary64 ((fl binary64 (-1) (0)), (fl binary64 (1) (1))) ((fl binary64 (5) (1)), (@finf binary64))) (fun v1 => ret (ieq v1 ((fl binary64 (-3602879701896397) (-55)), (fl binary64 (3602879701896397) (-54)))))));
  (1038, (bind (@div binary64 ((fl binary64 (1) (0)), (fl binary64 (3) (0))) ((@fminf binary64), (fl binary64 (-5) (1)))) (fun v1 => ret (ieq v1 ((fl binary64 (-1351079888211149) (-52)), (@f0 binary64))))));
  (1039, (bind (@div binary64 ((@fminf binary64), (fl binary64 (-1) (0))) ((fl binary64 (1) (0)), (fl binary64 (3) (0)))) (fun v1 => ret (ieq v1 ((@fminf binary64), (fl binary64 (-6004799503160661) (-54)))))));
  (1041, (bind get_flags (fun v1 => ret (N.eqb v1 none_bit))));
  (1043, clear_flags);
  (1044, (bind (@div binary64 ((fl binary64 (1) (0)), (fl binary64 (-9007199254740991) (971))) ((fl binary64 (3) (0)), (fl binary64 (1) (2)))) (fun v1 => @is_empty binary64 v1)));
  (1045, (bind get_flags (fun v1 => ret (N.eqb v1 invalid_operand_bit))));
  (1046, clear_flags);
  (1047, (set_cwd invalid_operand_bit));
  (1048, (throws (@div binary64 ((fl binary64 (1) (0)), (fl binary64 (9007199254740991) (971))) ((fl binary64 (3) (0)), (fl binary64 (-1) (2)))) Invalid_operand_exception));
  (1049, (bind get_flags (fun v1 => ret (N.eqb v1 invalid_operand_bit))));
  (1050, clear_flags);
  (1051, (set_cwd none_bit))].

(** lines 1054-1073 *)
Definition minimal_div_mixedtype_test : list (N * M bool) := [
  (1056, (bind (@div_mixed binary32 binary64 binary64 ((fl binary64 (-1) (1)), (fl binary64 (-1) (0))) ((fl binary64 (-5) (1)), (fl binary64 (-3) (0)))) (fun v1 => ret (ieq v1 ((fl binary32 (3355443) (-25)), (fl binary32 (11184811) (-24)))))));
  (1057, (bind (@div_mixed binary64 binary32 binary32 ((fl binary32 (-1) (1)), (fl binary32 (-1) (0))) ((@f0 binary32), (fl binary32 (5) (1)))) (fun v1 => ret (ieq v1 ((@fminf binary64), (fl binary64 (-7205759403792793) (-56)))))));
  (1058, (bind (@div_mixed binary64 binary32 binary64 ((fl binary32 (-1) (1)), (fl binary32 (-1) (0))) ((@fm0 binary64), (fl binary64 (5) (1)))) (fun v1 => ret (ieq v1 ((@fminf binary64), (fl binary64 (-7205759403792793) (-56)))))));
  (1059, (bind (@div_mixed binary32 binary32 binary64 ((fl binary32 (-1) (0)), (fl binary32 (1) (1))) ((fl binary64 (5) (1)), (@finf binary64))) (fun v1 => ret (ieq v1 ((fl binary32 (-13421773) (-27)), (fl binary32 (13421773) (-26)))))));
  (1062, (bind get_flags (fun v1 => ret (N.eqb v1 none_bit))));
  (1064, clear_flags);
  (1065, (bind (@div_mixed binary32 binary64 binary64 ((fl binary64 (1) (0)), (fl binary64 (-9007199254740991) (971))) ((fl binary64 (3) (0)), (fl binary64 (1) (2)))) (fun v1 => @is_empty binary32 v1)));
  (1066, (bind get_flags (fun v1 => ret (N.eqb v1 invalid_operand_bit))));
  (1067, clear_flags);
  (1068, (set_cwd invalid_operand_bit));
  (1069, (throws (@div_mixed binary64 binary64 binary32 ((fl binary64 (1) (0)), (fl binary64 (9007199254740991) (971))) ((fl binary32 (3) (0)), (fl binary32 (-1) (2)))) Invalid_operand_exception));
  (1070, (bind get_flags (fun v1 => ret (N.eqb v1 invalid_operand_bit))));
  (1071, clear_flags);
  (1072, (set_cwd none_bit))].

(** lines 1075-1095 *)
Definition minimal_div_dec_test : list (N * M bool) := [
  (1077, (bind (@div_dec binary64 (((fl binary64 (-1) (1)), (fl binary64 (-1) (0))), com) (((fl binary64 (-5) (1)), (fl binary64 (-3) (0))), com)) (fun v1 => ret (dieq v1 (((fl binary64 (7205759403792793) (-56)), (fl binary64 (3002399751580331) (-52))), com)))));
  (1078, (bind (@div_dec binary64 (((fl binary64 (-25) (3)), (fl binary64 (-1) (0))), com) (((fl binary64 (1) (-1022)), (fl binary64 (5) (1))), com)) (fun v1 => ret (dieq v1 (((@fminf binary64), (fl binary64 (-7205759403792793) (-56))), dac)))));
  (1079, (bind (@div_dec binary64 (((fl binary64 (-1) (1)), (fl binary64 (-1) (0))), com) (((@f0 binary64), (fl binary64 (5) (1))), com)) (fun v1 => ret (dieq v1 (((@fminf binary64), (fl binary64 (-7205759403792793) (-56))), trv)))));
  (1080, (bind (@div_dec binary64 (((fl binary64 (1) (0)), (fl binary64 (3) (0))), def) (((@fminf binary64), (fl binary64 (-5) (1))), dac)) (fun v1 => ret (dieq v1 (((fl binary64 (-1351079888211149) (-52)), (@f0 binary64)), def)))));
  (1081, (bind (@div_dec binary64 (((fl binary64 (1) (0)), (fl binary64 (1) (1))), trv) (@empty_dec binary64)) (fun v1 => @is_empty_dec binary64 v1)));
  (1082, (bind (@div_dec binary64 (@nai binary64) (((fl binary64 (1) (0)), (fl binary64 (1) (1))), trv)) (fun v1 => @is_nai binary64 v1)));
  (1084, (bind get_flags (fun v1 => ret (N.eqb v1 none_bit))));
  (1086, clear_flags);
  (1087, (bind (@div_dec binary64 (((fl binary64 (1) (0)), (fl binary64 (-1) (1))), com) (((fl binary64 (5) (0)), (fl binary64 (7) (0))), com)) (fun v1 => @is_nai binary64 v1)));
  (1088, (bind get_flags (fun v1 => ret (N.eqb v1 invalid_operand_bit))));
  (1089, clear_flags);
  (1090, (set_cwd invalid_operand_bit));
  (1091, (throws (@div_dec binary64 (((fl binary64 (1) (0)), (@finf binary64)), com) (((fl binary64 (5) (0)), (fl binary64 (7) (0))), com)) Invalid_operand_exception));
  (1092, (bind get_flags (fun v1 => ret (N.eqb v1 invalid_operand_bit))));
  (1093, clear_flags);
  (1094, (set_cwd none_bit))].

(** lines 1097-1117 *)
Definition minimal_div_dec_mixedtype_test : list (N * M bool) := [
  (1099, (bind (@div_dec_mixed binary32 binary64 binary64 (((fl binary64 (-1) (1)), (fl binary64 (-1) (0))), com) (((fl binary64 (-5) (1)), (fl binary64 (-3) (0))), com)) (fun v1 => ret (dieq v1 (((fl binary32 (3355443) (-25)), (fl binary32 (11184811) (-24))), com)))));
  (1100, (bind (@div_dec_mixed binary64 binary32 binary64 (((fl binary32 (-25) (3)), (fl binary32 (-1) (0))), com) (((fl binary64 (1) (-1022)), (fl binary64 (5) (1))), com)) (fun v1 => ret (dieq v1 (((@fminf binary64), (fl binary64 (-7205759403792793) (-56))), dac)))));
  (1101, (bind (@div_dec_mixed binary64 binary64 binary32 (((fl binary64 (-1) (1)), (fl binary64 (-1) (0))), com) (((@f0 binary32), (fl binary32 (5) (1))), com)) (fun v1 => ret (dieq v1 (((@fminf binary64), (fl binary64 (-7205759403792793) (-56))), trv)))));
  (1102, (bind (@div_dec_mixed binary32 binary32 binary64 (((fl binary32 (1) (0)), (fl binary32 (3) (0))), def) (((@fminf binary64), (fl binary64 (-5) (1))), dac)) (fun v1 => ret (dieq v1 (((fl binary32 (-5033165) (-24)), (@f0 binary32)), def)))));
  (1103, (bind (@div_dec_mixed binary64 binary64 binary32 (((fl binary64 (1) (0)), (fl binary64 (1) (1))), trv) (@empty_dec binary32)) (fun v1 => @is_empty_dec binary64 v1)));
  (1104, (bind (@div_dec_mixed binary32 binary64 binary64 (@nai binary64) (((fl binary64 (1) (0)), (fl binary64 (1) (1))), trv)) (fun v1 => @is_nai binary32 v1)));
  (1106, (bind get_flags (fun v1 => ret (N.eqb v1 none_bit))));
  (1108, clear_flags);
  (1109, (bind (@div_dec_mixed binary32 binary64 binary64 (((fl binary64 (1) (0)), (fl binary64 (-1) (1))), com) (((fl binary64 (5) (0)), (fl binary64 (7) (0))), com)) (fun v1 => @is_nai binary32 v1)));
  (1110, (bind get_flags (fun v1 => ret (N.eqb v1 invalid_operand_bit))));
  (1111, clear_flags);
  (1112, (set_cwd invalid_operand_bit));
  (1113, (throws (@div_dec_mixed binary64 binary64 binary32 (((fl binary64 (1) (0)), (@finf binary64)), com) (((fl binary32 (5) (0)), (fl binary32 (7) (0))), com)) Invalid_operand_exception));
  (1114, (bind get_flags (fun v1 => ret (N.eqb v1 invalid_operand_bit))));
  (1115, clear_flags);
  (1116, (set_cwd none_bit))].

(** lines 1121-1153 *)
Definition minimal_recip_test : list (N * M bool) := [
  (1123, (bind (@recip binary64 ((fl binary64 (-25) (1)), (fl binary64 (-5) (1)))) (fun v1 => ret (ieq v1 ((fl binary64 (-3602879701896397) (-55)), (fl binary64 (-2882303761517117) (-57)))))));
  (1124, (bind (@recip binary64 ((fl binary64 (5) (1)), (fl binary64 (25) (1)))) (fun v1 => ret (ieq v1 ((fl binary64 (2882303761517117) (-57)), (fl binary64 (3602879701896397) (-55)))))));
  (1125, (bind (@recip binary64 ((@fminf binary64), (fl binary64 (-5) (1)))) (fun v1 => ret (ieq v1 ((fl binary64 (-3602879701896397) (-55)), (@f0 binary64))))));
  (1126, (bind (@recip binary64 ((fl binary64 (5) (1)), (@finf binary64))) (fun v1 => ret (ieq v1 ((@f0 binary64), (fl binary64 (3602879701896397) (-55)))))));
  (1127, (bind (@recip binary64 ((@f0 binary64), (@f0 binary64))) (fun v1 => @is_empty binary64 v1)));
  (1128, (bind (@recip binary64 ((@fm0 binary64), (@fm0 binary64))) (fun v1 => @is_empty binary64 v1)));
  (1129, (bind (@recip binary64 ((fl binary64 (-5) (1)), (@f0 binary64))) (fun v1 => ret (ieq v1 ((@fminf binary64), (fl binary64 (-7205759403792793) (-56)))))));
  (1130, (bind (@recip binary64 ((fl binary64 (-5) (1)), (@fm0 binary64))) (fun v1 => ret (ieq v1 ((@fminf binary64), (fl binary64 (-7205759403792793) (-56)))))));
  (1131, (bind (@recip binary64 ((fl binary64 (-5) (1)), (fl binary64 (5) (1)))) (fun v1 => ret (ieq v1 (@entire binary64)))));
  (1132, (bind (@recip binary64 ((@f0 binary64), (fl binary64 (5) (1)))) (fun v1 => ret (ieq v1 ((fl binary64 (7205759403792793) (-56)), (@finf binary64))))));
  (1133, (bind (@recip binary64 ((@fm0 binary64), (fl binary64 (5) (1)))) (fun v1 => ret (ieq v1 ((fl binary64 (7205759403792793) (-56)), (@finf binary64))))));
  (1134, (bind (@recip binary64 ((@fminf binary64), (@f0 binary64))) (fun v1 => ret (ieq v1 ((@fminf binary64), (@f0 binary64))))));
  (1135, (bind (@recip binary64 ((@fminf binary64), (@fm0 binary64))) (fun v1 => ret (ieq v1 ((@fminf binary64), (@f0 binary64))))));
  (1136, (bind (@recip binary64 ((@fminf binary64), (fl binary64 (5) (1)))) (fun v1 => ret (ieq v1 (@entire binary64)))));
  (1137, (bind (@recip binary64 ((fl binary64 (-5) (1)), (@finf binary64))) (fun v1 => ret (ieq v1 (@entire binary64)))));
  (1138, (bind (@recip binary64 ((@f0 binary64), (@finf binary64))) (fun v1 => ret (ieq v1 ((@f0 binary64), (@finf binary64))))));
  (1139, (bind (@recip binary64 ((@fm0 binary64), (@finf binary64))) (fun v1 => ret (ieq v1 ((@f0 binary64), (@finf binary64))))));
  (1140, (bind (@recip binary64 (@entire binary64)) (fun v1 => ret (ieq v1 (@entire binary64)))));
  (1142, (bind get_flags (fun v1 => ret (N.eqb v1 none_bit))));
  (1144, clear_flags);
  (1145, (bind (@recip binary64 ((fl binary64 (1) (0)), (fl binary64 (-9007199254740991) (971)))) (fun v1 => @is_empty binary64 v1)));
  (1146, (bind get_flags (fun v1 => ret (N.eqb v1 invalid_operand_bit))));
  (1147, clear_flags);
  (1148, (set_cwd invalid_operand_bit));
  (1149, (throws (@recip binary64 ((fl binary64 (3) (0)), (fl binary64 (-1) (2)))) Invalid_operand_exception));
  (1150, (bind get_flags (fun v1 => ret (N.eqb v1 invalid_operand_bit))));
  (1151, clear_flags);
  (1152, (set_cwd none_bit))].

(** lines 1155-1172 *)
Definition minimal_recip_mixedtype_test : list (N * M bool) := [
  (1157, (bind (@recip_mixed binary32 binary64 ((fl binary64 (-25) (1)), (fl binary64 (-5) (1)))) (fun v1 => ret (ieq v1 ((fl binary32 (-13421773) (-27)), (fl binary32 (-5368709) (-28)))))));
  (1158, (bind (@recip_mixed binary64 binary32 ((fl binary32 (5) (1)), (fl binary32 (25) (1)))) (fun v1 => ret (ieq v1 ((fl binary64 (2882303761517117) (-57)), (fl binary64 (3602879701896397) (-55)))))));
  (1159, (bind (@recip_mixed binary32 binary64 ((@fminf binary64), (fl binary64 (-5) (1)))) (fun v1 => ret (ieq v1 ((fl binary32 (-13421773) (-27)), (@f0 binary32))))));
  (1161, (bind get_flags (fun v1 => ret (N.eqb v1 none_bit))));
  (1163, clear_flags);
  (1164, (bind (@recip_mixed binary32 binary64 ((fl binary64 (1) (0)), (fl binary64 (-9007199254740991) (971)))) (fun v1 => @is_empty binary32 v1)));
  (1165, (bind get_flags (fun v1 => ret (N.eqb v1 invalid_operand_bit))));
  (1166, clear_flags);
  (1167, (set_cwd invalid_operand_bit));
  (1168, (throws (@recip_mixed binary64 binary32 ((fl binary32 (3) (0)), (fl binary32 (-1) (2)))) Invalid_operand_exception));
  (1169, (bind get_flags (fun v1 => ret (N.eqb v1 invalid_operand_bit))));
  (1170, clear_flags);
  (1171, (set_cwd none_bit))].

(** lines 1174-1196 *)
Definition minimal_recip_dec_test : list (N * M bool) := [
  (1176, (bind (@recip_dec binary64 (((fl binary64 (5) (1)), (fl binary64 (25) (1))), com)) (fun v1 => ret (dieq v1 (((fl binary64 (2882303761517117) (-57)), (fl binary64 (3602879701896397) (-55))), com)))));
  (1177, (bind (@recip_dec binary64 (((@fminf binary64), (fl binary64 (-5) (1))), dac)) (fun v1 => ret (dieq v1 (((fl binary64 (-3602879701896397) (-55)), (@f0 binary64)), dac)))));
  (1178, (bind (@recip_dec binary64 (((fl binary64 (-9007199254740991) (971)), (fl binary64 (-1) (-1022))), def)) (fun v1 => ret (dieq v1 (((fl binary64 (-1) (1022)), (fl binary64 (-1) (-1024))), def)))));
  (1179, (bind (@recip_dec binary64 (((@f0 binary64), (@f0 binary64)), com)) (fun v1 => @is_empty_dec binary64 v1)));
  (1180, (bind (@recip_dec binary64 (((fl binary64 (-5) (1)), (@f0 binary64)), com)) (fun v1 => ret (dieq v1 (((@fminf binary64), (fl binary64 (-7205759403792793) (-56))), trv)))));
  (1181, (bind (@recip_dec binary64 (((fl binary64 (-5) (1)), (@finf binary64)), dac)) (fun v1 => ret (dieq v1 (((@fminf binary64), (@finf binary64)), trv)))));
  (1182, (bind (@recip_dec binary64 (((@fm0 binary64), (@finf binary64)), dac)) (fun v1 => ret (dieq v1 (((@f0 binary64), (@finf binary64)), trv)))));
  (1183, (bind (@recip_dec binary64 (@entire_dec binary64)) (fun v1 => ret (dieq v1 (((@fminf binary64), (@finf binary64)), trv)))));
  (1185, (bind get_flags (fun v1 => ret (N.eqb v1 none_bit))));
  (1187, clear_flags);
  (1188, (bind (@recip_dec binary64 (((fl binary64 (1) (0)), (fl binary64 (-9007199254740991) (971))), com)) (fun v1 => @is_nai binary64 v1)));
  (1189, (bind get_flags (fun v1 => ret (N.eqb v1 invalid_operand_bit))));
  (1190, clear_flags);
  (1191, (set_cwd invalid_operand_bit));
  (1192, (throws (@recip_dec binary64 (((fl binary64 (3) (0)), (fl binary64 (-1) (2))), com)) Invalid_operand_exception));
  (1193, (bind get_flags (fun v1 => ret (N.eqb v1 invalid_operand_bit))));
  (1194, clear_flags);
  (1195, (set_cwd none_bit))].

(** lines 1198-1216 *)
Definition minimal_recip_dec_mixedtype_test : list (N * M bool) := [
  (1200, (bind (@recip_dec_mixed binary64 binary32 (((fl binary32 (5) (1)), (fl binary32 (25) (1))), com)) (fun v1 => ret (dieq v1 (((fl binary64 (2882303761517117) (-57)), (fl binary64 (3602879701896397) (-55))), com)))));
  (1201, (bind (@recip_dec_mixed binary64 binary32 (((@fminf binary32), (fl binary32 (-5) (1))), dac)) (fun v1 => ret (dieq v1 (((fl binary64 (-3602879701896397) (-55)), (@f0 binary64)), dac)))));
  (1202, (bind (@recip_dec_mixed binary32 binary64 (((fl binary64 (-9007199254740991) (971)), (fl binary64 (-1) (-1022))), com)) (fun v1 => ret (dieq v1 (((@fminf binary32), (@f0 binary32)), dac)))));
  (1205, (bind get_flags (fun v1 => ret (N.eqb v1 none_bit))));
  (1207, clear_flags);
  (1208, (bind (@recip_dec_mixed binary32 binary64 (((fl binary64 (1) (0)), (fl binary64 (-9007199254740991) (971))), com)) (fun v1 => @is_nai binary32 v1)));
  (1209, (bind get_flags (fun v1 => ret (N.eqb v1 invalid_operand_bit))));
  (1210, clear_flags);
  (1211, (set_cwd invalid_operand_bit));
  (1212, (throws (@recip_dec_mixed binary64 binary32 (((fl binary32 (3) (0)), (fl binary32 (-1) (2))), com)) Invalid_operand_exception));
  (1213, (bind get_flags (fun v1 => ret (N.eqb v1 invalid_operand_bit))));
  (1214, clear_flags);
  (1215, (set_cwd none_bit))].

(** lines 1221-1248 *)
Definition minimal_sqr_test : list (N * M bool) := [
  (1223, (bind (@sqr binary64 (@empty binary64)) (fun v1 => @is_empty binary64 v1)));
  (1224, (bind (@sqr binary64 (@entire binary64)) (fun v1 => ret (ieq v1 ((@f0 binary64), (@finf binary64))))));
  (1225, (bind (@sqr binary64 ((@fminf binary64), (fl binary64 (-1) (-1022)))) (fun v1 => ret (ieq v1 ((@f0 binary64), (@finf binary64))))));
  (1226, (bind (@sqr binary64 ((fl binary64 (-1) (0)), (fl binary64 (1) (0)))) (fun v1 => ret (ieq v1 ((@f0 binary64), (fl binary64 (1) (0)))))));
  (1227, (bind (@sqr binary64 ((@f0 binary64), (fl binary64 (1) (0)))) (fun v1 => ret (ieq v1 ((@f0 binary64), (fl binary64 (1) (0)))))));
  (1228, (bind (@sqr binary64 ((@fm0 binary64), (fl binary64 (1) (0)))) (fun v1 => ret (ieq v1 ((@f0 binary64), (fl binary64 (1) (0)))))));
  (1229, (bind (@sqr binary64 ((fl binary64 (-5) (0)), (fl binary64 (3) (0)))) (fun v1 => ret (ieq v1 ((@f0 binary64), (fl binary64 (25) (0)))))));
  (1230, (bind (@sqr binary64 ((fl binary64 (-5) (0)), (@f0 binary64))) (fun v1 => ret (ieq v1 ((@f0 binary64), (fl binary64 (25) (0)))))));
  (1231, (bind (@sqr binary64 ((fl binary64 (-5) (0)), (@fm0 binary64))) (fun v1 => ret (ieq v1 ((@f0 binary64), (fl binary64 (25) (0)))))));
  (1232, (bind (@sqr binary64 ((fl binary64 (3602879701896397) (-55)), (fl binary64 (3602879701896397) (-55)))) (fun v1 => ret (ieq v1 ((fl binary64 (5764607523034235) (-59)), (fl binary64 (1441151880758559) (-57)))))));
  (1233, (bind (@sqr binary64 ((fl binary64 (-562949953421311) (-48)), (fl binary64 (3602879701896397) (-55)))) (fun v1 => ret (ieq v1 ((@f0 binary64), (fl binary64 (9007199254740961) (-51)))))));
  (1234, (bind (@sqr binary64 ((fl binary64 (-562949953421311) (-48)), (fl binary64 (-562949953421311) (-48)))) (fun v1 => ret (ieq v1 ((fl binary64 (281474976710655) (-46)), (fl binary64 (9007199254740961) (-51)))))));
  (1237, (bind get_flags (fun v1 => ret (N.eqb v1 none_bit))));
  (1239, clear_flags);
  (1240, (bind (@sqr binary64 ((fl binary64 (1) (0)), (fl binary64 (-9007199254740991) (971)))) (fun v1 => @is_empty binary64 v1)));
  (1241, (bind get_flags (fun v1 => ret (N.eqb v1 invalid_operand_bit))));
  (1242, clear_flags);
  (1243, (set_cwd invalid_operand_bit));
  (1244, (throws (@sqr binary64 ((fl binary64 (3) (0)), (fl binary64 (-1) (2)))) Invalid_operand_exception));
  (1245, (bind get_flags (fun v1 => ret (N.eqb v1 invalid_operand_bit))));
  (1246, clear_flags);
  (1247, (set_cwd none_bit))].

(** lines 1250-1267 *)
Definition minimal_sqr_mixedtype_test : list (N * M bool) := [
  (1252, (bind (@sqr_mixed binary64 binary32 ((@fminf binary32), (fl binary32 (-1) (-126)))) (fun v1 => ret (ieq v1 ((fl binary64 (1) (-252)), (@finf binary64))))));
  (1253, (bind (@sqr_mixed binary64 binary32 ((fl binary32 (-1) (0)), (fl binary32 (1) (0)))) (fun v1 => ret (ieq v1 ((@f0 binary64), (fl binary64 (1) (0)))))));
  (1254, (bind (@sqr_mixed binary32 binary64 ((fl binary64 (-562949953421311) (-48)), (fl binary64 (3602879701896397) (-55)))) (fun v1 => ret (ieq v1 ((@f0 binary32), (fl binary32 (1) (2)))))));
  (1256, (bind get_flags (fun v1 => ret (N.eqb v1 none_bit))));
  (1258, clear_flags);
  (1259, (bind (@sqr_mixed binary32 binary64 ((fl binary64 (1) (0)), (fl binary64 (-9007199254740991) (971)))) (fun v1 => @is_empty binary32 v1)));
  (1260, (bind get_flags (fun v1 => ret (N.eqb v1 invalid_operand_bit))));
  (1261, clear_flags);
  (1262, (set_cwd invalid_operand_bit));
  (1263, (throws (@sqr_mixed binary64 binary32 ((fl binary32 (3) (0)), (fl binary32 (-1) (2)))) Invalid_operand_exception));
  (1264, (bind get_flags (fun v1 => ret (N.eqb v1 invalid_operand_bit))));
  (1265, clear_flags);
  (1266, (set_cwd none_bit))].

(** lines 1269-1288 *)
Definition minimal_sqr_dec_test : list (N * M bool) := [
  (1271, (bind (@sqr_dec binary64 (((fl binary64 (-9007199254740991) (971)), (fl binary64 (-1) (-1022))), com)) (fun v1 => ret (dieq v1 (((@f0 binary64), (@finf binary64)), dac)))));
  (1272, (bind (@sqr_dec binary64 (((fl binary64 (-1) (0)), (fl binary64 (1) (0))), def)) (fun v1 => ret (dieq v1 (((@f0 binary64), (fl binary64 (1) (0))), def)))));
  (1273, (bind (@sqr_dec binary64 (((fl binary64 (-5) (0)), (fl binary64 (3) (0))), com)) (fun v1 => ret (dieq v1 (((@f0 binary64), (fl binary64 (25) (0))), com)))));
  (1274, (bind (@sqr_dec binary64 (((fl binary64 (3602879701896397) (-55)), (fl binary64 (3602879701896397) (-55))), com)) (fun v1 => ret (dieq v1 (((fl binary64 (5764607523034235) (-59)), (fl binary64 (1441151880758559) (-57))), com)))));
  (1277, (bind get_flags (fun v1 => ret (N.eqb v1 none_bit))));
  (1279, clear_flags);
  (1280, (bind (@sqr_dec binary64 (((fl binary64 (1) (0)), (fl binary64 (-9007199254740991) (971))), com)) (fun v1 => @is_nai binary64 v1)));
  (1281, (bind get_flags (fun v1 => ret (N.eqb v1 invalid_operand_bit))));
  (1282, clear_flags);
  (1283, (set_cwd invalid_operand_bit));
  (1284, (throws (@sqr_dec binary64 (((fl binary64 (3) (0)), (fl binary64 (-1) (2))), com)) Invalid_operand_exception));
  (1285, (bind get_flags (fun v1 => ret (N.eqb v1 invalid_operand_bit))));
  (1286, clear_flags);
  (1287, (set_cwd none_bit))].

(** lines 1290-1308 *)
Definition minimal_sqr_dec_mixedtype_test : list (N * M bool) := [
  (1292, (bind (@sqr_dec_mixed binary64 binary32 (((fl binary32 (-16777215) (104)), (fl binary32 (-1) (-126))), com)) (fun v1 => ret (dieq v1 (((fl binary64 (1) (-252)), (fl binary64 (281474943156225) (208))), com)))));
  (1293, (bind (@sqr_dec_mixed binary32 binary64 (((fl binary64 (-562949953421311) (-48)), (fl binary64 (3602879701896397) (-55))), com)) (fun v1 => ret (dieq v1 (((@f0 binary32), (fl binary32 (1) (2))), com)))));
  (1294, (bind (@sqr_dec_mixed binary32 binary64 (((fl binary64 (-9007199254740991) (971)), (fl binary64 (-1) (-1022))), com)) (fun v1 => ret (dieq v1 (((@f0 binary32), (@finf binary32)), dac)))));
  (1297, (bind get_flags (fun v1 => ret (N.eqb v1 none_bit))));
  (1299, clear_flags);
  (1300, (bind (@sqr_dec_mixed binary32 binary64 (((fl binary64 (1) (0)), (fl binary64 (-9007199254740991) (971))), com)) (fun v1 => @is_nai binary32 v1)));
  (1301, (bind get_flags (fun v1 => ret (N.eqb v1 invalid_operand_bit))));
  (1302, clear_flags);
  (1303, (set_cwd invalid_operand_bit));
  (1304, (throws (@sqr_dec_mixed binary64 binary32 (((fl binary32 (3) (0)), (fl binary32 (-1) (2))), com)) Invalid_operand_exception));
  (1305, (bind get_flags (fun v1 => ret (N.eqb v1 invalid_operand_bit))));
  (1306, clear_flags);
  (1307, (set_cwd none_bit))].

(** lines 1313-1340 *)
Definition minimal_sqrt_test : list (N * M bool) := [
  (1315, (bind (@sqrt binary64 (@empty binary64)) (fun v1 => @is_empty binary64 v1)));
  (1316, (bind (@sqrt binary64 (@entire binary64)) (fun v1 => ret (ieq v1 ((@f0 binary64), (@finf binary64))))));
  (1317, (bind (@sqrt binary64 ((@fminf binary64), (fl binary64 (-1) (-1022)))) (fun v1 => @is_empty binary64 v1)));
  (1318, (bind (@sqrt binary64 ((fl binary64 (-1) (0)), (fl binary64 (1) (0)))) (fun v1 => ret (ieq v1 ((@f0 binary64), (fl binary64 (1) (0)))))));
  (1319, (bind (@sqrt binary64 ((@f0 binary64), (fl binary64 (1) (0)))) (fun v1 => ret (ieq v1 ((@f0 binary64), (fl binary64 (1) (0)))))));
  (1320, (bind (@sqrt binary64 ((@fm0 binary64), (fl binary64 (1) (0)))) (fun v1 => ret (ieq v1 ((@f0 binary64), (fl binary64 (1) (0)))))));
  (1321, (bind (@sqrt binary64 ((fl binary64 (-5) (0)), (fl binary64 (25) (0)))) (fun v1 => ret (ieq v1 ((@f0 binary64), (fl binary64 (5) (0)))))));
  (1322, (bind (@sqrt binary64 ((@f0 binary64), (fl binary64 (25) (0)))) (fun v1 => ret (ieq v1 ((@f0 binary64), (fl binary64 (5) (0)))))));
  (1323, (bind (@sqrt binary64 ((@fm0 binary64), (fl binary64 (25) (0)))) (fun v1 => ret (ieq v1 ((@f0 binary64), (fl binary64 (5) (0)))))));
  (1324, (bind (@sqrt binary64 ((fl binary64 (-5) (0)), (@finf binary64))) (fun v1 => ret (ieq v1 ((@f0 binary64), (@finf binary64))))));
  (1325, (bind (@sqrt binary64 ((fl binary64 (3602879701896397) (-55)), (fl binary64 (3602879701896397) (-55)))) (fun v1 => ret (ieq v1 ((fl binary64 (5696652996790543) (-54)), (fl binary64 (356040812299409) (-50)))))));
  (1326, (bind (@sqrt binary64 ((fl binary64 (-562949953421311) (-48)), (fl binary64 (3602879701896397) (-55)))) (fun v1 => ret (ieq v1 ((@f0 binary64), (fl binary64 (356040812299409) (-50)))))));
  (1327, (bind (@sqrt binary64 ((fl binary64 (3602879701896397) (-55)), (fl binary64 (562949953421311) (-48)))) (fun v1 => ret (ieq v1 ((fl binary64 (5696652996790543) (-54)), (fl binary64 (6369051672525767) (-52)))))));
  (1329, (bind get_flags (fun v1 => ret (N.eqb v1 none_bit))));
  (1331, clear_flags);
  (1332, (bind (@sqrt binary64 ((fl binary64 (1) (0)), (fl binary64 (-9007199254740991) (971)))) (fun v1 => @is_empty binary64 v1)));
  (1333, (bind get_flags (fun v1 => ret (N.eqb v1 invalid_operand_bit))));
  (1334, clear_flags);
  (1335, (set_cwd invalid_operand_bit));
  (1336, (throws (@sqrt binary64 ((fl binary64 (3) (0)), (fl binary64 (-1) (2)))) Invalid_operand_exception));
  (1337, (bind get_flags (fun v1 => ret (N.eqb v1 invalid_operand_bit))));
  (1338, clear_flags);
  (1339, (set_cwd none_bit))].

(** lines 1342-1358 *)
Definition minimal_sqrt_mixedtype_test : list (N * M bool) := [
  (1344, (bind (@sqrt_mixed binary32 binary64 ((fl binary64 (3602879701896397) (-55)), (fl binary64 (3602879701896397) (-55)))) (fun v1 => ret (ieq v1 ((fl binary32 (10610843) (-25)), (fl binary32 (2652711) (-23)))))));
  (1345, (bind (@sqrt_mixed binary64 binary32 ((fl binary32 (-1) (1)), (fl binary32 (13421773) (-27)))) (fun v1 => ret (ieq v1 ((@f0 binary64), (fl binary64 (5696653039233915) (-54)))))));
  (1347, (bind get_flags (fun v1 => ret (N.eqb v1 none_bit))));
  (1349, clear_flags);
  (1350, (bind (@sqrt_mixed binary32 binary64 ((fl binary64 (1) (0)), (fl binary64 (-9007199254740991) (971)))) (fun v1 => @is_empty binary32 v1)));
  (1351, (bind get_flags (fun v1 => ret (N.eqb v1 invalid_operand_bit))));
  (1352, clear_flags);
  (1353, (set_cwd invalid_operand_bit));
  (1354, (throws (@sqrt_mixed binary64 binary32 ((fl binary32 (3) (0)), (fl binary32 (-1) (2)))) Invalid_operand_exception));
  (1355, (bind get_flags (fun v1 => ret (N.eqb v1 invalid_operand_bit))));
  (1356, clear_flags);
  (1357, (set_cwd none_bit))].

(** lines 1360-1379 *)
Definition minimal_sqrt_dec_test : list (N * M bool) := [
  (1362, (bind (@sqrt_dec binary64 (((fl binary64 (1) (0)), (fl binary64 (1) (2))), com)) (fun v1 => ret (dieq v1 (((fl binary64 (1) (0)), (fl binary64 (1) (1))), com)))));
  (1363, (bind (@sqrt_dec binary64 (((fl binary64 (-5) (0)), (fl binary64 (25) (0))), com)) (fun v1 => ret (dieq v1 (((@f0 binary64), (fl binary64 (5) (0))), trv)))));
  (1364, (bind (@sqrt_dec binary64 (((@f0 binary64), (fl binary64 (25) (0))), def)) (fun v1 => ret (dieq v1 (((@f0 binary64), (fl binary64 (5) (0))), def)))));
  (1366, (bind (@sqrt_dec binary64 (((fl binary64 (-5) (0)), (@finf binary64)), dac)) (fun v1 => ret (dieq v1 (((@f0 binary64), (@finf binary64)), trv)))));
  (1368, (bind get_flags (fun v1 => ret (N.eqb v1 none_bit))));
  (1370, clear_flags);
  (1371, (bind (@sqrt_dec binary64 (((fl binary64 (1) (0)), (fl binary64 (-9007199254740991) (971))), com)) (fun v1 => @is_nai binary64 v1)));
  (1372, (bind get_flags (fun v1 => ret (N.eqb v1 invalid_operand_bit))));
  (1373, clear_flags);
  (1374, (set_cwd invalid_operand_bit));
  (1375, (throws (@sqrt_dec binary64 (((fl binary64 (3) (0)), (fl binary64 (-1) (2))), com)) Invalid_operand_exception));
  (1376, (bind get_flags (fun v1 => ret (N.eqb v1 invalid_operand_bit))));
  (1377, clear_flags);
  (1378, (set_cwd none_bit))].

(** lines 1381-1398 *)
Definition minimal_sqrt_dec_mixedtype_test : list (N * M bool) := [
  (1383, (bind (@sqrt_dec_mixed binary32 binary64 (((fl binary64 (3602879701896397) (-55)), (fl binary64 (3602879701896397) (-55))), com)) (fun v1 => ret (dieq v1 (((fl binary32 (10610843) (-25)), (fl binary32 (2652711) (-23))), com)))));
  (1384, (bind (@sqrt_dec_mixed binary64 binary32 (((fl binary32 (-1) (1)), (fl binary32 (13421773) (-27))), com)) (fun v1 => ret (dieq v1 (((@f0 binary64), (fl binary64 (5696653039233915) (-54))), trv)))));
  (1385, (bind (@sqrt_dec_mixed binary32 binary64 (((fl binary64 (-5) (0)), (@finf binary64)), dac)) (fun v1 => ret (dieq v1 (((@f0 binary32), (@finf binary32)), trv)))));
  (1387, (bind get_flags (fun v1 => ret (N.eqb v1 none_bit))));
  (1389, clear_flags);
  (1390, (bind (@sqrt_dec_mixed binary32 binary64 (((fl binary64 (1) (0)), (fl binary64 (-9007199254740991) (971))), com)) (fun v1 => @is_nai binary32 v1)));
  (1391, (bind get_flags (fun v1 => ret (N.eqb v1 invalid_operand_bit))));
  (1392, clear_flags);
  (1393, (set_cwd invalid_operand_bit));
  (1394, (throws (@sqrt_dec_mixed binary64 binary32 (((fl binary32 (3) (0)), (fl binary32 (-1) (2))), com)) Invalid_operand_exception));
  (1395, (bind get_flags (fun v1 => ret (N.eqb v1 invalid_operand_bit))));
  (1396, clear_flags);
  (1397, (set_cwd none_bit))].

(** lines 1403-2055 *)
Definition minimal_fma_test : list (N * M bool) := [
  (1405, (bind (@fma binary64 (@empty binary64) (@empty binary64) (@empty binary64)) (fun v1 => @is_empty binary64 v1)));
  (1406, (bind (@fma binary64 ((fl binary64 (-1) (0)), (fl binary64 (1) (0))) (@empty binary64) (@empty binary64)) (fun v1 => @is_empty binary64 v1)));
  (1407, (bind (@fma binary64 (@empty binary64) ((fl binary64 (-1) (0)), (fl binary64 (1) (0))) (@empty binary64)) (fun v1 => @is_empty binary64 v1)));
  (1408, (bind (@fma binary64 (@empty binary64) (@entire binary64) (@empty binary64)) (fun v1 => @is_empty binary64 v1)));
  (1409, (bind (@fma binary64 (@entire binary64) (@empty binary64) (@empty binary64)) (fun v1 => @is_empty binary64 v1)));
  (1410, (bind (@fma binary64 ((@f0 binary64), (@f0 binary64)) (@empty binary64) (@empty binary64)) (fun v1 => @is_empty binary64 v1)));
  (1411, (bind (@fma binary64 ((@fm0 binary64), (@fm0 binary64)) (@empty binary64) (@empty binary64)) (fun v1 => @is_empty binary64 v1)));
  (1412, (bind (@fma binary64 (@empty binary64) ((@f0 binary64), (@f0 binary64)) (@empty binary64)) (fun v1 => @is_empty binary64 v1)));
  (1413, (bind (@fma binary64 (@empty binary64) ((@fm0 binary64), (@fm0 binary64)) (@empty binary64)) (fun v1 => @is_empty binary64 v1)));
  (1415, (bind (@fma binary64 (@entire binary64) ((@f0 binary64), (@f0 binary64)) (@empty binary64)) (fun v1 => @is_empty binary64 v1)));
  (1416, (bind (@fma binary64 (@entire binary64) ((@fm0 binary64), (@fm0 binary64)) (@empty binary64)) (fun v1 => @is_empty binary64 v1)));
  (1417, (bind (@fma binary64 (@entire binary64) ((fl binary64 (-5) (0)), (fl binary64 (-1) (0))) (@empty binary64)) (fun v1 => @is_empty binary64 v1)));
  (1418, (bind (@fma binary64 (@entire binary64) ((fl binary64 (-5) (0)), (fl binary64 (3) (0))) (@empty binary64)) (fun v1 => @is_empty binary64 v1)));
  (1419, (bind (@fma binary64 (@entire binary64) ((fl binary64 (1) (0)), (fl binary64 (3) (0))) (@empty binary64)) (fun v1 => @is_empty binary64 v1)));
  (1420, (bind (@fma binary64 (@entire binary64) ((@fminf binary64), (fl binary64 (-1) (0))) (@empty binary64)) (fun v1 => @is_empty binary64 v1)));
  (1421, (bind (@fma binary64 (@entire binary64) ((@fminf binary64), (fl binary64 (3) (0))) (@empty binary64)) (fun v1 => @is_empty binary64 v1)));
  (1422, (bind (@fma binary64 (@entire binary64) ((fl binary64 (-5) (0)), (@finf binary64)) (@empty binary64)) (fun v1 => @is_empty binary64 v1)));
  (1423, (bind (@fma binary64 (@entire binary64) ((fl binary64 (1) (0)), (@finf binary64)) (@empty binary64)) (fun v1 => @is_empty binary64 v1)));
  (1424, (bind (@fma binary64 (@entire binary64) (@entire binary64) (@empty binary64)) (fun v1 => @is_empty binary64 v1)));
  (1426, (bind (@fma binary64 ((fl binary64 (1) (0)), (@finf binary64)) ((@f0 binary64), (@f0 binary64)) (@empty binary64)) (fun v1 => @is_empty binary64 v1)));
  (1427, (bind (@fma binary64 ((fl binary64 (1) (0)), (@finf binary64)) ((@fm0 binary64), (@fm0 binary64)) (@empty binary64)) (fun v1 => @is_empty binary64 v1)));
  (1428, (bind (@fma binary64 ((fl binary64 (1) (0)), (@finf binary64)) ((fl binary64 (-5) (0)), (fl binary64 (-1) (0))) (@empty binary64)) (fun v1 => @is_empty binary64 v1)));
  (1429, (bind (@fma binary64 ((fl binary64 (1) (0)), (@finf binary64)) ((fl binary64 (-5) (0)), (fl binary64 (3) (0))) (@empty binary64)) (fun v1 => @is_empty binary64 v1)));
  (1430, (bind (@fma binary64 ((fl binary64 (1) (0)), (@finf binary64)) ((fl binary64 (1) (0)), (fl binary64 (3) (0))) (@empty binary64)) (fun v1 => @is_empty binary64 v1)));
  (1431, (bind (@fma binary64 ((fl binary64 (1) (0)), (@finf binary64)) ((@fminf binary64), (fl binary64 (-1) (0))) (@empty binary64)) (fun v1 => @is_empty binary64 v1)));
  (1432, (bind (@fma binary64 ((fl binary64 (1) (0)), (@finf binary64)) ((@fminf binary64), (fl binary64 (3) (0))) (@empty binary64)) (fun v1 => @is_empty binary64 v1)));
  (1433, (bind (@fma binary64 ((fl binary64 (1) (0)), (@finf binary64)) ((fl binary64 (-5) (0)), (@finf binary64)) (@empty binary64)) (fun v1 => @is_empty binary64 v1)));
  (1434, (bind (@fma binary64 ((fl binary64 (1) (0)), (@finf binary64)) ((fl binary64 (1) (0)), (@finf binary64)) (@empty binary64)) (fun v1 => @is_empty binary64 v1)));
  (1435, (bind (@fma binary64 ((fl binary64 (1) (0)), (@finf binary64)) (@entire binary64) (@empty binary64)) (fun v1 => @is_empty binary64 v1)));
  (1437, (bind (@fma binary64 ((fl binary64 (-1) (0)), (@finf binary64)) ((@f0 binary64), (@f0 binary64)) (@empty binary64)) (fun v1 => @is_empty binary64 v1)));
  (1438, (bind (@fma binary64 ((fl binary64 (-1) (0)), (@finf binary64)) ((@fm0 binary64), (@fm0 binary64)) (@empty binary64)) (fun v1 => @is_empty binary64 v1)));
  (1439, (bind (@fma binary64 ((fl binary64 (-1) (0)), (@finf binary64)) ((fl binary64 (-5) (0)), (fl binary64 (-1) (0))) (@empty binary64)) (fun v1 => @is_empty binary64 v1)));
  (1440, (bind (@fma binary64 ((fl binary64 (-1) (0)), (@finf binary64)) ((fl binary64 (-5) (0)), (fl binary64 (3) (0))) (@empty binary64)) (fun v1 => @is_empty binary64 v1)));
  (1441, (bind (@fma binary64 ((fl binary64 (-1) (0)), (@finf binary64)) ((fl binary64 (1) (0)), (fl binary64 (3) (0))) (@empty binary64)) (fun v1 => @is_empty binary64 v1)));
  (1442, (bind (@fma binary64 ((fl binary64 (-1) (0)), (@finf binary64)) ((@fminf binary64), (fl binary64 (-1) (0))) (@empty binary64)) (fun v1 => @is_empty binary64 v1)));
  (1443, (bind (@fma binary64 ((fl binary64 (-1) (0)), (@finf binary64)) ((@fminf binary64), (fl binary64 (3) (0))) (@empty binary64)) (fun v1 => @is_empty binary64 v1)));
  (1444, (bind (@fma binary64 ((fl binary64 (-1) (0)), (@finf binary64)) ((fl binary64 (-5) (0)), (@finf binary64)) (@empty binary64)) (fun v1 => @is_empty binary64 v1)));
  (1445, (bind (@fma binary64 ((fl binary64 (-1) (0)), (@finf binary64)) ((fl binary64 (1) (0)), (@finf binary64)) (@empty binary64)) (fun v1 => @is_empty binary64 v1)));
  (1446, (bind (@fma binary64 ((fl binary64 (-1) (0)), (@finf binary64)) (@entire binary64) (@empty binary64)) (fun v1 => @is_empty binary64 v1)));
  (1448, (bind (@fma binary64 ((@fminf binary64), (fl binary64 (3) (0))) ((@f0 binary64), (@f0 binary64)) (@empty binary64)) (fun v1 => @is_empty binary64 v1)));
  (1449, (bind (@fma binary64 ((@fminf binary64), (fl binary64 (3) (0))) ((@fm0 binary64), (@fm0 binary64)) (@empty binary64)) (fun v1 => @is_empty binary64 v1)));
  (1450, (bind (@fma binary64 ((@fminf binary64), (fl binary64 (3) (0))) ((fl binary64 (-5) (0)), (fl binary64 (-1) (0))) (@empty binary64)) (fun v1 => @is_empty binary64 v1)));
  (1451, (bind (@fma binary64 ((@fminf binary64), (fl binary64 (3) (0))) ((fl binary64 (-5) (0)), (fl binary64 (3) (0))) (@empty binary64)) (fun v1 => @is_empty binary64 v1)));
  (1452, (bind (@fma binary64 ((@fminf binary64), (fl binary64 (3) (0))) ((fl binary64 (1) (0)), (fl binary64 (3) (0))) (@empty binary64)) (fun v1 => @is_empty binary64 v1)));
  (1453, (bind (@fma binary64 ((@fminf binary64), (fl binary64 (3) (0))) ((@fminf binary64), (fl binary64 (-1) (0))) (@empty binary64)) (fun v1 => @is_empty binary64 v1)));
  (1454, (bind (@fma binary64 ((@fminf binary64), (fl binary64 (3) (0))) ((@fminf binary64), (fl binary64 (3) (0))) (@empty binary64)) (fun v1 => @is_empty binary64 v1)));
  (1455, (bind (@fma binary64 ((@fminf binary64), (fl binary64 (3) (0))) ((fl binary64 (-5) (0)), (@finf binary64)) (@empty binary64)) (fun v1 => @is_empty binary64 v1)));
  (1456, (bind (@fma binary64 ((@fminf binary64), (fl binary64 (3) (0))) ((fl binary64 (1) (0)), (@finf binary64)) (@empty binary64)) (fun v1 => @is_empty binary64 v1)));
  (1457, (bind (@fma binary64 ((@fminf binary64), (fl binary64 (3) (0))) (@entire binary64) (@empty binary64)) (fun v1 => @is_empty binary64 v1)));
  (1459, (bind (@fma binary64 ((@fminf binary64), (fl binary64 (-3) (0))) ((@f0 binary64), (@f0 binary64)) (@empty binary64)) (fun v1 => @is_empty binary64 v1)));
  (1460, (bind (@fma binary64 ((@fminf binary64), (fl binary64 (-3) (0))) ((@fm0 binary64), (@fm0 binary64)) (@empty binary64)) (fun v1 => @is_empty binary64 v1)));
  (1461, (bind (@fma binary64 ((@fminf binary64), (fl binary64 (-3) (0))) ((fl binary64 (-5) (0)), (fl binary64 (-1) (0))) (@empty binary64)) (fun v1 => @is_empty binary64 v1)));
  (1462, (bind (@fma binary64 ((@fminf binary64), (fl binary64 (-3) (0))) ((fl binary64 (-5) (0)), (fl binary64 (3) (0))) (@empty binary64)) (fun v1 => @is_empty binary64 v1)));
  (1463, (bind (@fma binary64 ((@fminf binary64), (fl binary64 (-3) (0))) ((fl binary64 (1) (0)), (fl binary64 (3) (0))) (@empty binary64)) (fun v1 => @is_empty binary64 v1)));
  (1464, (bind (@fma binary64 ((@fminf binary64), (fl binary64 (-3) (0))) ((@fminf binary64), (fl binary64 (-1) (0))) (@empty binary64)) (fun v1 => @is_empty binary64 v1)));
  (1465, (bind (@fma binary64 ((@fminf binary64), (fl binary64 (-3) (0))) ((@fminf binary64), (fl binary64 (3) (0))) (@empty binary64)) (fun v1 => @is_empty binary64 v1)));
  (1466, (bind (@fma binary64 ((@fminf binary64), (fl binary64 (-3) (0))) ((fl binary64 (-5) (0)), (@finf binary64)) (@empty binary64)) (fun v1 => @is_empty binary64 v1)));
  (1467, (bind (@fma binary64 ((@fminf binary64), (fl binary64 (-3) (0))) ((fl binary64 (1) (0)), (@finf binary64)) (@empty binary64)) (fun v1 => @is_empty binary64 v1)));
  (1468, (bind (@fma binary64 ((@fminf binary64), (fl binary64 (-3) (0))) (@entire binary64) (@empty binary64)) (fun v1 => @is_empty binary64 v1)));
  (1470, (bind (@fma binary64 ((@f0 binary64), (@f0 binary64)) ((@f0 binary64), (@f0 binary64)) (@empty binary64)) (fun v1 => @is_empty binary64 v1)));
  (1471, (bind (@fma binary64 ((@f0 binary64), (@f0 binary64)) ((@fm0 binary64), (@fm0 binary64)) (@empty binary64)) (fun v1 => @is_empty binary64 v1)));
  (1472, (bind (@fma binary64 ((@f0 binary64), (@f0 binary64)) ((fl binary64 (-5) (0)), (fl binary64 (-1) (0))) (@empty binary64)) (fun v1 => @is_empty binary64 v1)));
  (1473, (bind (@fma binary64 ((@f0 binary64), (@f0 binary64)) ((fl binary64 (-5) (0)), (fl binary64 (3) (0))) (@empty binary64)) (fun v1 => @is_empty binary64 v1)));
  (1474, (bind (@fma binary64 ((@f0 binary64), (@f0 binary64)) ((fl binary64 (1) (0)), (fl binary64 (3) (0))) (@empty binary64)) (fun v1 => @is_empty binary64 v1)));
  (1475, (bind (@fma binary64 ((@f0 binary64), (@f0 binary64)) ((@fminf binary64), (fl binary64 (-1) (0))) (@empty binary64)) (fun v1 => @is_empty binary64 v1)));
  (1476, (bind (@fma binary64 ((@f0 binary64), (@f0 binary64)) ((@fminf binary64), (fl binary64 (3) (0))) (@empty binary64)) (fun v1 => @is_empty binary64 v1)));
  (1477, (bind (@fma binary64 ((@f0 binary64), (@f0 binary64)) ((fl binary64 (-5) (0)), (@finf binary64)) (@empty binary64)) (fun v1 => @is_empty binary64 v1)));
  (1478, (bind (@fma binary64 ((@f0 binary64), (@f0 binary64)) ((fl binary64 (1) (0)), (@finf binary64)) (@empty binary64)) (fun v1 => @is_empty binary64 v1)));
  (1479, (bind (@fma binary64 ((@f0 binary64), (@f0 binary64)) (@entire binary64) (@empty binary64)) (fun v1 => @is_empty binary64 v1)));
  (1481, (bind (@fma binary64 ((@fm0 binary64), (@fm0 binary64)) ((@f0 binary64), (@f0 binary64)) (@empty binary64)) (fun v1 => @is_empty binary64 v1)));
  (1482, (bind (@fma binary64 ((@fm0 binary64), (@fm0 binary64)) ((@fm0 binary64), (@fm0 binary64)) (@empty binary64)) (fun v1 => @is_empty binary64 v1)));
  (1483, (bind (@fma binary64 ((@fm0 binary64), (@fm0 binary64)) ((fl binary64 (-5) (0)), (fl binary64 (-1) (0))) (@empty binary64)) (fun v1 => @is_empty binary64 v1)));
  (1484, (bind (@fma binary64 ((@fm0 binary64), (@fm0 binary64)) ((fl binary64 (-5) (0)), (fl binary64 (3) (0))) (@empty binary64)) (fun v1 => @is_empty binary64 v1)));
  (1485, (bind (@fma binary64 ((@fm0 binary64), (@fm0 binary64)) ((fl binary64 (1) (0)), (fl binary64 (3) (0))) (@empty binary64)) (fun v1 => @is_empty binary64 v1)));
  (1486, (bind (@fma binary64 ((@fm0 binary64), (@fm0 binary64)) ((@fminf binary64), (fl binary64 (-1) (0))) (@empty binary64)) (fun v1 => @is_empty binary64 v1)));
  (1487, (bind (@fma binary64 ((@fm0 binary64), (@fm0 binary64)) ((@fminf binary64), (fl binary64 (3) (0))) (@empty binary64)) (fun v1 => @is_empty binary64 v1)));
  (1488, (bind (@fma binary64 ((@fm0 binary64), (@fm0 binary64)) ((fl binary64 (-5) (0)), (@finf binary64)) (@empty binary64)) (fun v1 => @is_empty binary64 v1)));
  (1489, (bind (@fma binary64 ((@fm0 binary64), (@fm0 binary64)) ((fl binary64 (1) (0)), (@finf binary64)) (@empty binary64)) (fun v1 => @is_empty binary64 v1)));
  (1490, (bind (@fma binary64 ((@fm0 binary64), (@fm0 binary64)) (@entire binary64) (@empty binary64)) (fun v1 => @is_empty binary64 v1)));
  (1492, (bind (@fma binary64 ((fl binary64 (1) (0)), (fl binary64 (5) (0))) ((@f0 binary64), (@f0 binary64)) (@empty binary64)) (fun v1 => @is_empty binary64 v1)));
  (1493, (bind (@fma binary64 ((fl binary64 (1) (0)), (fl binary64 (5) (0))) ((@fm0 binary64), (@fm0 binary64)) (@empty binary64)) (fun v1 => @is_empty binary64 v1)));
  (1494, (bind (@fma binary64 ((fl binary64 (1) (0)), (fl binary64 (5) (0))) ((fl binary64 (-5) (0)), (fl binary64 (-1) (0))) (@empty binary64)) (fun v1 => @is_empty binary64 v1)));
  (1495, (bind (@fma binary64 ((fl binary64 (1) (0)), (fl binary64 (5) (0))) ((fl binary64 (-5) (0)), (fl binary64 (3) (0))) (@empty binary64)) (fun v1 => @is_empty binary64 v1)));
  (1496, (bind (@fma binary64 ((fl binary64 (1) (0)), (fl binary64 (5) (0))) ((fl binary64 (1) (0)), (fl binary64 (3) (0))) (@empty binary64)) (fun v1 => @is_empty binary64 v1)));
  (1497, (bind (@fma binary64 ((fl binary64 (1) (0)), (fl binary64 (5) (0))) ((@fminf binary64), (fl binary64 (-1) (0))) (@empty binary64)) (fun v1 => @is_empty binary64 v1)));
  (1498, (bind (@fma binary64 ((fl binary64 (1) (0)), (fl binary64 (5) (0))) ((@fminf binary64), (fl binary64 (3) (0))) (@empty binary64)) (fun v1 => @is_empty binary64 v1)));
  (1499, (bind (@fma binary64 ((fl binary64 (1) (0)), (fl binary64 (5) (0))) ((fl binary64 (-5) (0)), (@finf binary64)) (@empty binary64)) (fun v1 => @is_empty binary64 v1)));
  (1500, (bind (@fma binary64 ((fl binary64 (1) (0)), (fl binary64 (5) (0))) ((fl binary64 (1) (0)), (@finf binary64)) (@empty binary64)) (fun v1 => @is_empty binary64 v1)));
  (1501, (bind (@fma binary64 ((fl binary64 (1) (0)), (fl binary64 (5) (0))) (@entire binary64) (@empty binary64)) (fun v1 => @is_empty binary64 v1)));
  (1503, (bind (@fma binary64 ((fl binary64 (-1) (0)), (fl binary64 (5) (0))) ((@f0 binary64), (@f0 binary64)) (@empty binary64)) (fun v1 => @is_empty binary64 v1)));
  (1504, (bind (@fma binary64 ((fl binary64 (-1) (0)), (fl binary64 (5) (0))) ((@fm0 binary64), (@fm0 binary64)) (@empty binary64)) (fun v1 => @is_empty binary64 v1)));
  (1505, (bind (@fma binary64 ((fl binary64 (-1) (0)), (fl binary64 (5) (0))) ((fl binary64 (-5) (0)), (fl binary64 (-1) (0))) (@empty binary64)) (fun v1 => @is_empty binary64 v1)));
  (1507, (bind (@fma binary64 ((fl binary64 (-1) (0)), (fl binary64 (5) (0))) ((fl binary64 (-5) (0)), (fl binary64 (3) (0))) (@empty binary64)) (fun v1 => @is_empty binary64 v1)));
  (1508, (bind (@fma binary64 ((fl binary64 (-5) (1)), (fl binary64 (1) (1))) ((fl binary64 (-5) (0)), (fl binary64 (3) (0))) (@empty binary64)) (fun v1 => @is_empty binary64 v1)));
  (1509, (bind (@fma binary64 ((fl binary64 (-1) (0)), (fl binary64 (5) (0))) ((fl binary64 (-1) (0)), (fl binary64 (5) (1))) (@empty binary64)) (fun v1 => @is_empty binary64 v1)));
  (1510, (bind (@fma binary64 ((fl binary64 (-1) (1)), (fl binary64 (1) (1))) ((fl binary64 (-5) (0)), (fl binary64 (3) (0))) (@empty binary64)) (fun v1 => @is_empty binary64 v1)));
  (1512, (bind (@fma binary64 ((fl binary64 (-1) (0)), (fl binary64 (5) (0))) ((fl binary64 (1) (0)), (fl binary64 (3) (0))) (@empty binary64)) (fun v1 => @is_empty binary64 v1)));
  (1513, (bind (@fma binary64 ((fl binary64 (-1) (0)), (fl binary64 (5) (0))) ((@fminf binary64), (fl binary64 (-1) (0))) (@empty binary64)) (fun v1 => @is_empty binary64 v1)));
  (1514, (bind (@fma binary64 ((fl binary64 (-1) (0)), (fl binary64 (5) (0))) ((@fminf binary64), (fl binary64 (3) (0))) (@empty binary64)) (fun v1 => @is_empty binary64 v1)));
  (1515, (bind (@fma binary64 ((fl binary64 (-1) (0)), (fl binary64 (5) (0))) ((fl binary64 (-5) (0)), (@finf binary64)) (@empty binary64)) (fun v1 => @is_empty binary64 v1)));
  (1516, (bind (@fma binary64 ((fl binary64 (-1) (0)), (fl binary64 (5) (0))) ((fl binary64 (1) (0)), (@finf binary64)) (@empty binary64)) (fun v1 => @is_empty binary64 v1)));
  (1517, (bind (@fma binary64 ((fl binary64 (-1) (0)), (fl binary64 (5) (0))) (@entire binary64) (@empty binary64)) (fun v1 => @is_empty binary64 v1)));
  (1519, (bind (@fma binary64 ((fl binary64 (-5) (1)), (fl binary64 (-5) (0))) ((@f0 binary64), (@f0 binary64)) (@empty binary64)) (fun v1 => @is_empty binary64 v1)));
  (1520, (bind (@fma binary64 ((fl binary64 (-5) (1)), (fl binary64 (-5) (0))) ((@fm0 binary64), (@fm0 binary64)) (@empty binary64)) (fun v1 => @is_empty binary64 v1)));
  (1521, (bind (@fma binary64 ((fl binary64 (-5) (1)), (fl binary64 (-5) (0))) ((fl binary64 (-5) (0)), (fl binary64 (-1) (0))) (@empty binary64)) (fun v1 => @is_empty binary64 v1)));
  (1522, (bind (@fma binary64 ((fl binary64 (-5) (1)), (fl binary64 (-5) (0))) ((fl binary64 (-5) (0)), (fl binary64 (3) (0))) (@empty binary64)) (fun v1 => @is_empty binary64 v1)));
  (1523, (bind (@fma binary64 ((fl binary64 (-5) (1)), (fl binary64 (-5) (0))) ((fl binary64 (1) (0)), (fl binary64 (3) (0))) (@empty binary64)) (fun v1 => @is_empty binary64 v1)));
  (1524, (bind (@fma binary64 ((fl binary64 (-5) (1)), (fl binary64 (-5) (0))) ((@fminf binary64), (fl binary64 (-1) (0))) (@empty binary64)) (fun v1 => @is_empty binary64 v1)));
  (1525, (bind (@fma binary64 ((fl binary64 (-5) (1)), (fl binary64 (-5) (0))) ((@fminf binary64), (fl binary64 (3) (0))) (@empty binary64)) (fun v1 => @is_empty binary64 v1)));
  (1526, (bind (@fma binary64 ((fl binary64 (-5) (1)), (fl binary64 (-5) (0))) ((fl binary64 (-5) (0)), (@finf binary64)) (@empty binary64)) (fun v1 => @is_empty binary64 v1)));
  (1527, (bind (@fma binary64 ((fl binary64 (-5) (1)), (fl binary64 (-5) (0))) ((fl binary64 (1) (0)), (@finf binary64)) (@empty binary64)) (fun v1 => @is_empty binary64 v1)));
  (1528, (bind (@fma binary64 ((fl binary64 (-5) (1)), (fl binary64 (-5) (0))) (@entire binary64) (@empty binary64)) (fun v1 => @is_empty binary64 v1)));
  (1532, (bind (@fma binary64 (@empty binary64) (@empty binary64) ((@fminf binary64), (fl binary64 (1) (1)))) (fun v1 => @is_empty binary64 v1)));
  (1533, (bind (@fma binary64 ((fl binary64 (-1) (0)), (fl binary64 (1) (0))) (@empty binary64) ((@fminf binary64), (fl binary64 (1) (1)))) (fun v1 => @is_empty binary64 v1)));
  (1534, (bind (@fma binary64 (@empty binary64) ((fl binary64 (-1) (0)), (fl binary64 (1) (0))) ((@fminf binary64), (fl binary64 (1) (1)))) (fun v1 => @is_empty binary64 v1)));
  (1535, (bind (@fma binary64 (@empty binary64) (@entire binary64) ((@fminf binary64), (fl binary64 (1) (1)))) (fun v1 => @is_empty binary64 v1)));
  (1536, (bind (@fma binary64 (@entire binary64) (@empty binary64) ((@fminf binary64), (fl binary64 (1) (1)))) (fun v1 => @is_empty binary64 v1)));
  (1537, (bind (@fma binary64 ((@f0 binary64), (@f0 binary64)) (@empty binary64) ((@fminf binary64), (fl binary64 (1) (1)))) (fun v1 => @is_empty binary64 v1)));
  (1538, (bind (@fma binary64 ((@fm0 binary64), (@fm0 binary64)) (@empty binary64) ((@fminf binary64), (fl binary64 (1) (1)))) (fun v1 => @is_empty binary64 v1)));
  (1539, (bind (@fma binary64 (@empty binary64) ((@f0 binary64), (@f0 binary64)) ((@fminf binary64), (fl binary64 (1) (1)))) (fun v1 => @is_empty binary64 v1)));
  (1540, (bind (@fma binary64 (@empty binary64) ((@fm0 binary64), (@fm0 binary64)) ((@fminf binary64), (fl binary64 (1) (1)))) (fun v1 => @is_empty binary64 v1)));
  (1542, (bind (@fma binary64 (@entire binary64) ((@f0 binary64), (@f0 binary64)) ((@fminf binary64), (fl binary64 (1) (1)))) (fun v1 => ret (ieq v1 ((@fminf binary64), (fl binary64 (1) (1)))))));
  (1543, (bind (@fma binary64 (@entire binary64) ((@fm0 binary64), (@fm0 binary64)) ((@fminf binary64), (fl binary64 (1) (1)))) (fun v1 => ret (ieq v1 ((@fminf binary64), (fl binary64 (1) (1)))))));
  (1544, (bind (@fma binary64 (@entire binary64) ((fl binary64 (-5) (0)), (fl binary64 (-1) (0))) ((@fminf binary64), (fl binary64 (1) (1)))) (fun v1 => ret (ieq v1 (@entire binary64)))));
  (1545, (bind (@fma binary64 (@entire binary64) ((fl binary64 (-5) (0)), (fl binary64 (3) (0))) ((@fminf binary64), (fl binary64 (1) (1)))) (fun v1 => ret (ieq v1 (@entire binary64)))));
  (1546, (bind (@fma binary64 (@entire binary64) ((fl binary64 (1) (0)), (fl binary64 (3) (0))) ((@fminf binary64), (fl binary64 (1) (1)))) (fun v1 => ret (ieq v1 (@entire binary64)))));
  (1547, (bind (@fma binary64 (@entire binary64) ((@fminf binary64), (fl binary64 (-1) (0))) ((@fminf binary64), (fl binary64 (1) (1)))) (fun v1 => ret (ieq v1 (@entire binary64)))));
  (1548, (bind (@fma binary64 (@entire binary64) ((@fminf binary64), (fl binary64 (3) (0))) ((@fminf binary64), (fl binary64 (1) (1)))) (fun v1 => ret (ieq v1 (@entire binary64)))));
  (1549, (bind (@fma binary64 (@entire binary64) ((fl binary64 (-5) (0)), (@finf binary64)) ((@fminf binary64), (fl binary64 (1) (1)))) (fun v1 => ret (ieq v1 (@entire binary64)))));
  (1550, (bind (@fma binary64 (@entire binary64) ((fl binary64 (1) (0)), (@finf binary64)) ((@fminf binary64), (fl binary64 (1) (1)))) (fun v1 => ret (ieq v1 (@entire binary64)))));
  (1551, (bind (@fma binary64 (@entire binary64) (@entire binary64) ((@fminf binary64), (fl binary64 (1) (1)))) (fun v1 => ret (ieq v1 (@entire binary64)))));
  (1553, (bind (@fma binary64 ((fl binary64 (1) (0)), (@finf binary64)) ((@f0 binary64), (@f0 binary64)) ((@fminf binary64), (fl binary64 (1) (1)))) (fun v1 => ret (ieq v1 ((@fminf binary64), (fl binary64 (1) (1)))))));
  (1554, (bind (@fma binary64 ((fl binary64 (1) (0)), (@finf binary64)) ((@fm0 binary64), (@fm0 binary64)) ((@fminf binary64), (fl binary64 (1) (1)))) (fun v1 => ret (ieq v1 ((@fminf binary64), (fl binary64 (1) (1)))))));
  (1555, (bind (@fma binary64 ((fl binary64 (1) (0)), (@finf binary64)) ((fl binary64 (-5) (0)), (fl binary64 (-1) (0))) ((@fminf binary64), (fl binary64 (1) (1)))) (fun v1 => ret (ieq v1 ((@fminf binary64), (fl binary64 (1) (0)))))));
  (1556, (bind (@fma binary64 ((fl binary64 (1) (0)), (@finf binary64)) ((fl binary64 (-5) (0)), (fl binary64 (3) (0))) ((@fminf binary64), (fl binary64 (1) (1)))) (fun v1 => ret (ieq v1 (@entire binary64)))));
  (1557, (bind (@fma binary64 ((fl binary64 (1) (0)), (@finf binary64)) ((fl binary64 (1) (0)), (fl binary64 (3) (0))) ((@fminf binary64), (fl binary64 (1) (1)))) (fun v1 => ret (ieq v1 (@entire binary64)))));
  (1558, (bind (@fma binary64 ((fl binary64 (1) (0)), (@finf binary64)) ((@fminf binary64), (fl binary64 (-1) (0))) ((@fminf binary64), (fl binary64 (1) (1)))) (fun v1 => ret (ieq v1 ((@fminf binary64), (fl binary64 (1) (0)))))));
  (1559, (bind (@fma binary64 ((fl binary64 (1) (0)), (@finf binary64)) ((@fminf binary64), (fl binary64 (3) (0))) ((@fminf binary64), (fl binary64 (1) (1)))) (fun v1 => ret (ieq v1 (@entire binary64)))));
  (1560, (bind (@fma binary64 ((fl binary64 (1) (0)), (@finf binary64)) ((fl binary64 (-5) (0)), (@finf binary64)) ((@fminf binary64), (fl binary64 (1) (1)))) (fun v1 => ret (ieq v1 (@entire binary64)))));
  (1561, (bind (@fma binary64 ((fl binary64 (1) (0)), (@finf binary64)) ((fl binary64 (1) (0)), (@finf binary64)) ((@fminf binary64), (fl binary64 (1) (1)))) (fun v1 => ret (ieq v1 (@entire binary64)))));
  (1562, (bind (@fma binary64 ((fl binary64 (1) (0)), (@finf binary64)) (@entire binary64) ((@fminf binary64), (fl binary64 (1) (1)))) (fun v1 => ret (ieq v1 (@entire binary64)))));
  (1564, (bind (@fma binary64 ((fl binary64 (-1) (0)), (@finf binary64)) ((@f0 binary64), (@f0 binary64)) ((@fminf binary64), (fl binary64 (1) (1)))) (fun v1 => ret (ieq v1 ((@fminf binary64), (fl binary64 (1) (1)))))));
  (1565, (bind (@fma binary64 ((fl binary64 (-1) (0)), (@finf binary64)) ((@fm0 binary64), (@fm0 binary64)) ((@fminf binary64), (fl binary64 (1) (1)))) (fun v1 => ret (ieq v1 ((@fminf binary64), (fl binary64 (1) (1)))))));
  (1566, (bind (@fma binary64 ((fl binary64 (-1) (0)), (@finf binary64)) ((fl binary64 (-5) (0)), (fl binary64 (-1) (0))) ((@fminf binary64), (fl binary64 (1) (1)))) (fun v1 => ret (ieq v1 ((@fminf binary64), (fl binary64 (7) (0)))))));
  (1567, (bind (@fma binary64 ((fl binary64 (-1) (0)), (@finf binary64)) ((fl binary64 (-5) (0)), (fl binary64 (3) (0))) ((@fminf binary64), (fl binary64 (1) (1)))) (fun v1 => ret (ieq v1 (@entire binary64)))));
  (1568, (bind (@fma binary64 ((fl binary64 (-1) (0)), (@finf binary64)) ((fl binary64 (1) (0)), (fl binary64 (3) (0))) ((@fminf binary64), (fl binary64 (1) (1)))) (fun v1 => ret (ieq v1 (@entire binary64)))));
  (1569, (bind (@fma binary64 ((fl binary64 (-1) (0)), (@finf binary64)) ((@fminf binary64), (fl binary64 (-1) (0))) ((@fminf binary64), (fl binary64 (1) (1)))) (fun v1 => ret (ieq v1 (@entire binary64)))));
  (1570, (bind (@fma binary64 ((fl binary64 (-1) (0)), (@finf binary64)) ((@fminf binary64), (fl binary64 (3) (0))) ((@fminf binary64), (fl binary64 (1) (1)))) (fun v1 => ret (ieq v1 (@entire binary64)))));
  (1571, (bind (@fma binary64 ((fl binary64 (-1) (0)), (@finf binary64)) ((fl binary64 (-5) (0)), (@finf binary64)) ((@fminf binary64), (fl binary64 (1) (1)))) (fun v1 => ret (ieq v1 (@entire binary64)))));
  (1572, (bind (@fma binary64 ((fl binary64 (-1) (0)), (@finf binary64)) ((fl binary64 (1) (0)), (@finf binary64)) ((@fminf binary64), (fl binary64 (1) (1)))) (fun v1 => ret (ieq v1 (@entire binary64)))));
  (1573, (bind (@fma binary64 ((fl binary64 (-1) (0)), (@finf binary64)) (@entire binary64) ((@fminf binary64), (fl binary64 (1) (1)))) (fun v1 => ret (ieq v1 (@entire binary64)))));
  (1575, (bind (@fma binary64 ((@fminf binary64), (fl binary64 (3) (0))) ((@f0 binary64), (@f0 binary64)) ((@fminf binary64), (fl binary64 (1) (1)))) (fun v1 => ret (ieq v1 ((@fminf binary64), (fl binary64 (1) (1)))))));
  (1576, (bind (@fma binary64 ((@fminf binary64), (fl binary64 (3) (0))) ((@fm0 binary64), (@fm0 binary64)) ((@fminf binary64), (fl binary64 (1) (1)))) (fun v1 => ret (ieq v1 ((@fminf binary64), (fl binary64 (1) (1)))))));
  (1577, (bind (@fma binary64 ((@fminf binary64), (fl binary64 (3) (0))) ((fl binary64 (-5) (0)), (fl binary64 (-1) (0))) ((@fminf binary64), (fl binary64 (1) (1)))) (fun v1 => ret (ieq v1 (@entire binary64)))));
  (1578, (bind (@fma binary64 ((@fminf binary64), (fl binary64 (3) (0))) ((fl binary64 (-5) (0)), (fl binary64 (3) (0))) ((@fminf binary64), (fl binary64 (1) (1)))) (fun v1 => ret (ieq v1 (@entire binary64)))));
  (1579, (bind (@fma binary64 ((@fminf binary64), (fl binary64 (3) (0))) ((fl binary64 (1) (0)), (fl binary64 (3) (0))) ((@fminf binary64), (fl binary64 (1) (1)))) (fun v1 => ret (ieq v1 ((@fminf binary64), (fl binary64 (11) (0)))))));
  (1580, (bind (@fma binary64 ((@fminf binary64), (fl binary64 (3) (0))) ((@fminf binary64), (fl binary64 (-1) (0))) ((@fminf binary64), (fl binary64 (1) (1)))) (fun v1 => ret (ieq v1 (@entire binary64)))));
  (1581, (bind (@fma binary64 ((@fminf binary64), (fl binary64 (3) (0))) ((@fminf binary64), (fl binary64 (3) (0))) ((@fminf binary64), (fl binary64 (1) (1)))) (fun v1 => ret (ieq v1 (@entire binary64)))));
  (1582, (bind (@fma binary64 ((@fminf binary64), (fl binary64 (3) (0))) ((fl binary64 (-5) (0)), (@finf binary64)) ((@fminf binary64), (fl binary64 (1) (1)))) (fun v1 => ret (ieq v1 (@entire binary64)))));
  (1583, (bind (@fma binary64 ((@fminf binary64), (fl binary64 (3) (0))) ((fl binary64 (1) (0)), (@finf binary64)) ((@fminf binary64), (fl binary64 (1) (1)))) (fun v1 => ret (ieq v1 (@entire binary64)))));
  (1584, (bind (@fma binary64 ((@fminf binary64), (fl binary64 (3) (0))) (@entire binary64) ((@fminf binary64), (fl binary64 (1) (1)))) (fun v1 => ret (ieq v1 (@entire binary64)))));
  (1586, (bind (@fma binary64 ((@fminf binary64), (fl binary64 (-3) (0))) ((@f0 binary64), (@f0 binary64)) ((@fminf binary64), (fl binary64 (1) (1)))) (fun v1 => ret (ieq v1 ((@fminf binary64), (fl binary64 (1) (1)))))));
  (1587, (bind (@fma binary64 ((@fminf binary64), (fl binary64 (-3) (0))) ((@fm0 binary64), (@fm0 binary64)) ((@fminf binary64), (fl binary64 (1) (1)))) (fun v1 => ret (ieq v1 ((@fminf binary64), (fl binary64 (1) (1)))))));
  (1588, (bind (@fma binary64 ((@fminf binary64), (fl binary64 (-3) (0))) ((fl binary64 (-5) (0)), (fl binary64 (-1) (0))) ((@fminf binary64), (fl binary64 (1) (1)))) (fun v1 => ret (ieq v1 (@entire binary64)))));
  (1589, (bind (@fma binary64 ((@fminf binary64), (fl binary64 (-3) (0))) ((fl binary64 (-5) (0)), (fl binary64 (3) (0))) ((@fminf binary64), (fl binary64 (1) (1)))) (fun v1 => ret (ieq v1 (@entire binary64)))));
  (1590, (bind (@fma binary64 ((@fminf binary64), (fl binary64 (-3) (0))) ((fl binary64 (1) (0)), (fl binary64 (3) (0))) ((@fminf binary64), (fl binary64 (1) (1)))) (fun v1 => ret (ieq v1 ((@fminf binary64), (fl binary64 (-1) (0)))))));
  (1591, (bind (@fma binary64 ((@fminf binary64), (fl binary64 (-3) (0))) ((@fminf binary64), (fl binary64 (-1) (0))) ((@fminf binary64), (fl binary64 (1) (1)))) (fun v1 => ret (ieq v1 (@entire binary64)))));
  (1592, (bind (@fma binary64 ((@fminf binary64), (fl binary64 (-3) (0))) ((@fminf binary64), (fl binary64 (3) (0))) ((@fminf binary64), (fl binary64 (1) (1)))) (fun v1 => ret (ieq v1 (@entire binary64)))));
  (1593, (bind (@fma binary64 ((@fminf binary64), (fl binary64 (-3) (0))) ((fl binary64 (-5) (0)), (@finf binary64)) ((@fminf binary64), (fl binary64 (1) (1)))) (fun v1 => ret (ieq v1 (@entire binary64)))));
  (1594, (bind (@fma binary64 ((@fminf binary64), (fl binary64 (-3) (0))) ((fl binary64 (1) (0)), (@finf binary64)) ((@fminf binary64), (fl binary64 (1) (1)))) (fun v1 => ret (ieq v1 ((@fminf binary64), (fl binary64 (-1) (0)))))));
  (1595, (bind (@fma binary64 ((@fminf binary64), (fl binary64 (-3) (0))) (@entire binary64) ((@fminf binary64), (fl binary64 (1) (1)))) (fun v1 => ret (ieq v1 (@entire binary64)))));
  (1597, (bind (@fma binary64 ((@f0 binary64), (@f0 binary64)) ((@f0 binary64), (@f0 binary64)) ((@fminf binary64), (fl binary64 (1) (1)))) (fun v1 => ret (ieq v1 ((@fminf binary64), (fl binary64 (1) (1)))))));
  (1598, (bind (@fma binary64 ((@f0 binary64), (@f0 binary64)) ((@fm0 binary64), (@fm0 binary64)) ((@fminf binary64), (fl binary64 (1) (1)))) (fun v1 => ret (ieq v1 ((@fminf binary64), (fl binary64 (1) (1)))))));
  (1599, (bind (@fma binary64 ((@f0 binary64), (@f0 binary64)) ((fl binary64 (-5) (0)), (fl binary64 (-1) (0))) ((@fminf binary64), (fl binary64 (1) (1)))) (fun v1 => ret (ieq v1 ((@fminf binary64), (fl binary64 (1) (1)))))));
  (1600, (bind (@fma binary64 ((@f0 binary64), (@f0 binary64)) ((fl binary64 (-5) (0)), (fl binary64 (3) (0))) ((@fminf binary64), (fl binary64 (1) (1)))) (fun v1 => ret (ieq v1 ((@fminf binary64), (fl binary64 (1) (1)))))));
  (1601, (bind (@fma binary64 ((@f0 binary64), (@f0 binary64)) ((fl binary64 (1) (0)), (fl binary64 (3) (0))) ((@fminf binary64), (fl binary64 (1) (1)))) (fun v1 => ret (ieq v1 ((@fminf binary64), (fl binary64 (1) (1)))))));
  (1602, (bind (@fma binary64 ((@f0 binary64), (@f0 binary64)) ((@fminf binary64), (fl binary64 (-1) (0))) ((@fminf binary64), (fl binary64 (1) (1)))) (fun v1 => ret (ieq v1 ((@fminf binary64), (fl binary64 (1) (1)))))));
  (1603, (bind (@fma binary64 ((@f0 binary64), (@f0 binary64)) ((@fminf binary64), (fl binary64 (3) (0))) ((@fminf binary64), (fl binary64 (1) (1)))) (fun v1 => ret (ieq v1 ((@fminf binary64), (fl binary64 (1) (1)))))));
  (1604, (bind (@fma binary64 ((@f0 binary64), (@f0 binary64)) ((fl binary64 (-5) (0)), (@finf binary64)) ((@fminf binary64), (fl binary64 (1) (1)))) (fun v1 => ret (ieq v1 ((@fminf binary64), (fl binary64 (1) (1)))))));
  (1605, (bind (@fma binary64 ((@f0 binary64), (@f0 binary64)) ((fl binary64 (1) (0)), (@finf binary64)) ((@fminf binary64), (fl binary64 (1) (1)))) (fun v1 => ret (ieq v1 ((@fminf binary64), (fl binary64 (1) (1)))))));
  (1606, (bind (@fma binary64 ((@f0 binary64), (@f0 binary64)) (@entire binary64) ((@fminf binary64), (fl binary64 (1) (1)))) (fun v1 => ret (ieq v1 ((@fminf binary64), (fl binary64 (1) (1)))))));
  (1608, (bind (@fma binary64 ((@fm0 binary64), (@fm0 binary64)) ((@f0 binary64), (@f0 binary64)) ((@fminf binary64), (fl binary64 (1) (1)))) (fun v1 => ret (ieq v1 ((@fminf binary64), (fl binary64 (1) (1)))))));
  (1609, (bind (@fma binary64 ((@fm0 binary64), (@fm0 binary64)) ((@fm0 binary64), (@fm0 binary64)) ((@fminf binary64), (fl binary64 (1) (1)))) (fun v1 => ret (ieq v1 ((@fminf binary64), (fl binary64 (1) (1)))))));
  (1610, (bind (@fma binary64 ((@fm0 binary64), (@fm0 binary64)) ((fl binary64 (-5) (0)), (fl binary64 (-1) (0))) ((@fminf binary64), (fl binary64 (1) (1)))) (fun v1 => ret (ieq v1 ((@fminf binary64), (fl binary64 (1) (1)))))));
  (1611, (bind (@fma binary64 ((@fm0 binary64), (@fm0 binary64)) ((fl binary64 (-5) (0)), (fl binary64 (3) (0))) ((@fminf binary64), (fl binary64 (1) (1)))) (fun v1 => ret (ieq v1 ((@fminf binary64), (fl binary64 (1) (1)))))));
  (1612, (bind (@fma binary64 ((@fm0 binary64), (@fm0 binary64)) ((fl binary64 (1) (0)), (fl binary64 (3) (0))) ((@fminf binary64), (fl binary64 (1) (1)))) (fun v1 => ret (ieq v1 ((@fminf binary64), (fl binary64 (1) (1)))))));
  (1613, (bind (@fma binary64 ((@fm0 binary64), (@fm0 binary64)) ((@fminf binary64), (fl binary64 (-1) (0))) ((@fminf binary64), (fl binary64 (1) (1)))) (fun v1 => ret (ieq v1 ((@fminf binary64), (fl binary64 (1) (1)))))));
  (1614, (bind (@fma binary64 ((@fm0 binary64), (@fm0 binary64)) ((@fminf binary64), (fl binary64 (3) (0))) ((@fminf binary64), (fl binary64 (1) (1)))) (fun v1 => ret (ieq v1 ((@fminf binary64), (fl binary64 (1) (1)))))));
  (1615, (bind (@fma binary64 ((@fm0 binary64), (@fm0 binary64)) ((fl binary64 (-5) (0)), (@finf binary64)) ((@fminf binary64), (fl binary64 (1) (1)))) (fun v1 => ret (ieq v1 ((@fminf binary64), (fl binary64 (1) (1)))))));
  (1616, (bind (@fma binary64 ((@fm0 binary64), (@fm0 binary64)) ((fl binary64 (1) (0)), (@finf binary64)) ((@fminf binary64), (fl binary64 (1) (1)))) (fun v1 => ret (ieq v1 ((@fminf binary64), (fl binary64 (1) (1)))))));
  (1617, (bind (@fma binary64 ((@fm0 binary64), (@fm0 binary64)) (@entire binary64) ((@fminf binary64), (fl binary64 (1) (1)))) (fun v1 => ret (ieq v1 ((@fminf binary64), (fl binary64 (1) (1)))))));
  (1619, (bind (@fma binary64 ((fl binary64 (1) (0)), (fl binary64 (5) (0))) ((@f0 binary64), (@f0 binary64)) ((@fminf binary64), (fl binary64 (1) (1)))) (fun v1 => ret (ieq v1 ((@fminf binary64), (fl binary64 (1) (1)))))));
  (1620, (bind (@fma binary64 ((fl binary64 (1) (0)), (fl binary64 (5) (0))) ((@fm0 binary64), (@fm0 binary64)) ((@fminf binary64), (fl binary64 (1) (1)))) (fun v1 => ret (ieq v1 ((@fminf binary64), (fl binary64 (1) (1)))))));
  (1621, (bind (@fma binary64 ((fl binary64 (1) (0)), (fl binary64 (5) (0))) ((fl binary64 (-5) (0)), (fl binary64 (-1) (0))) ((@fminf binary64), (fl binary64 (1) (1)))) (fun v1 => ret (ieq v1 ((@fminf binary64), (fl binary64 (1) (0)))))));
  (1622, (bind (@fma binary64 ((fl binary64 (1) (0)), (fl binary64 (5) (0))) ((fl binary64 (-5) (0)), (fl binary64 (3) (0))) ((@fminf binary64), (fl binary64 (1) (1)))) (fun v1 => ret (ieq v1 ((@fminf binary64), (fl binary64 (17) (0)))))));
  (1623, (bind (@fma binary64 ((fl binary64 (1) (0)), (fl binary64 (5) (0))) ((fl binary64 (1) (0)), (fl binary64 (3) (0))) ((@fminf binary64), (fl binary64 (1) (1)))) (fun v1 => ret (ieq v1 ((@fminf binary64), (fl binary64 (17) (0)))))));
  (1624, (bind (@fma binary64 ((fl binary64 (1) (0)), (fl binary64 (5) (0))) ((@fminf binary64), (fl binary64 (-1) (0))) ((@fminf binary64), (fl binary64 (1) (1)))) (fun v1 => ret (ieq v1 ((@fminf binary64), (fl binary64 (1) (0)))))));
  (1625, (bind (@fma binary64 ((fl binary64 (1) (0)), (fl binary64 (5) (0))) ((@fminf binary64), (fl binary64 (3) (0))) ((@fminf binary64), (fl binary64 (1) (1)))) (fun v1 => ret (ieq v1 ((@fminf binary64), (fl binary64 (17) (0)))))));
  (1626, (bind (@fma binary64 ((fl binary64 (1) (0)), (fl binary64 (5) (0))) ((fl binary64 (-5) (0)), (@finf binary64)) ((@fminf binary64), (fl binary64 (1) (1)))) (fun v1 => ret (ieq v1 (@entire binary64)))));
  (1627, (bind (@fma binary64 ((fl binary64 (1) (0)), (fl binary64 (5) (0))) ((fl binary64 (1) (0)), (@finf binary64)) ((@fminf binary64), (fl binary64 (1) (1)))) (fun v1 => ret (ieq v1 (@entire binary64)))));
  (1628, (bind (@fma binary64 ((fl binary64 (1) (0)), (fl binary64 (5) (0))) (@entire binary64) ((@fminf binary64), (fl binary64 (1) (1)))) (fun v1 => ret (ieq v1 (@entire binary64)))));
  (1630, (bind (@fma binary64 ((fl binary64 (-1) (0)), (fl binary64 (5) (0))) ((@f0 binary64), (@f0 binary64)) ((@fminf binary64), (fl binary64 (1) (1)))) (fun v1 => ret (ieq v1 ((@fminf binary64), (fl binary64 (1) (1)))))));
  (1631, (bind (@fma binary64 ((fl binary64 (-1) (0)), (fl binary64 (5) (0))) ((@fm0 binary64), (@fm0 binary64)) ((@fminf binary64), (fl binary64 (1) (1)))) (fun v1 => ret (ieq v1 ((@fminf binary64), (fl binary64 (1) (1)))))));
  (1632, (bind (@fma binary64 ((fl binary64 (-1) (0)), (fl binary64 (5) (0))) ((fl binary64 (-5) (0)), (fl binary64 (-1) (0))) ((@fminf binary64), (fl binary64 (1) (1)))) (fun v1 => ret (ieq v1 ((@fminf binary64), (fl binary64 (7) (0)))))));
  (1634, (bind (@fma binary64 ((fl binary64 (-1) (0)), (fl binary64 (5) (0))) ((fl binary64 (-5) (0)), (fl binary64 (3) (0))) ((@fminf binary64), (fl binary64 (1) (1)))) (fun v1 => ret (ieq v1 ((@fminf binary64), (fl binary64 (17) (0)))))));
  (1635, (bind (@fma binary64 ((fl binary64 (-5) (1)), (fl binary64 (1) (1))) ((fl binary64 (-5) (0)), (fl binary64 (3) (0))) ((@fminf binary64), (fl binary64 (1) (1)))) (fun v1 => ret (ieq v1 ((@fminf binary64), (fl binary64 (13) (2)))))));
  (1636, (bind (@fma binary64 ((fl binary64 (-1) (0)), (fl binary64 (5) (0))) ((fl binary64 (-1) (0)), (fl binary64 (5) (1))) ((@fminf binary64), (fl binary64 (1) (1)))) (fun v1 => ret (ieq v1 ((@fminf binary64), (fl binary64 (13) (2)))))));
  (1637, (bind (@fma binary64 ((fl binary64 (-1) (1)), (fl binary64 (1) (1))) ((fl binary64 (-5) (0)), (fl binary64 (3) (0))) ((@fminf binary64), (fl binary64 (1) (1)))) (fun v1 => ret (ieq v1 ((@fminf binary64), (fl binary64 (3) (2)))))));
  (1639, (bind (@fma binary64 ((fl binary64 (-1) (0)), (fl binary64 (5) (0))) ((fl binary64 (1) (0)), (fl binary64 (3) (0))) ((@fminf binary64), (fl binary64 (1) (1)))) (fun v1 => ret (ieq v1 ((@fminf binary64), (fl binary64 (17) (0)))))));
  (1640, (bind (@fma binary64 ((fl binary64 (-1) (0)), (fl binary64 (5) (0))) ((@fminf binary64), (fl binary64 (-1) (0))) ((@fminf binary64), (fl binary64 (1) (1)))) (fun v1 => ret (ieq v1 (@entire binary64)))));
  (1641, (bind (@fma binary64 ((fl binary64 (-1) (0)), (fl binary64 (5) (0))) ((@fminf binary64), (fl binary64 (3) (0))) ((@fminf binary64), (fl binary64 (1) (1)))) (fun v1 => ret (ieq v1 (@entire binary64)))));
  (1642, (bind (@fma binary64 ((fl binary64 (-1) (0)), (fl binary64 (5) (0))) ((fl binary64 (-5) (0)), (@finf binary64)) ((@fminf binary64), (fl binary64 (1) (1)))) (fun v1 => ret (ieq v1 (@entire binary64)))));
  (1643, (bind (@fma binary64 ((fl binary64 (-1) (0)), (fl binary64 (5) (0))) ((fl binary64 (1) (0)), (@finf binary64)) ((@fminf binary64), (fl binary64 (1) (1)))) (fun v1 => ret (ieq v1 (@entire binary64)))));
  (1644, (bind (@fma binary64 ((fl binary64 (-1) (0)), (fl binary64 (5) (0))) (@entire binary64) ((@fminf binary64), (fl binary64 (1) (1)))) (fun v1 => ret (ieq v1 (@entire binary64)))));
  (1646, (bind (@fma binary64 ((fl binary64 (-5) (1)), (fl binary64 (-5) (0))) ((@f0 binary64), (@f0 binary64)) ((@fminf binary64), (fl binary64 (1) (1)))) (fun v1 => ret (ieq v1 ((@fminf binary64), (fl binary64 (1) (1)))))));
  (1647, (bind (@fma binary64 ((fl binary64 (-5) (1)), (fl binary64 (-5) (0))) ((@fm0 binary64), (@fm0 binary64)) ((@fminf binary64), (fl binary64 (1) (1)))) (fun v1 => ret (ieq v1 ((@fminf binary64), (fl binary64 (1) (1)))))));
  (1648, (bind (@fma binary64 ((fl binary64 (-5) (1)), (fl binary64 (-5) (0))) ((fl binary64 (-5) (0)), (fl binary64 (-1) (0))) ((@fminf binary64), (fl binary64 (1) (1)))) (fun v1 => ret (ieq v1 ((@fminf binary64), (fl binary64 (13) (2)))))));
  (1649, (bind (@fma binary64 ((fl binary64 (-5) (1)), (fl binary64 (-5) (0))) ((fl binary64 (-5) (0)), (fl binary64 (3) (0))) ((@fminf binary64), (fl binary64 (1) (1)))) (fun v1 => ret (ieq v1 ((@fminf binary64), (fl binary64 (13) (2)))))));
  (1650, (bind (@fma binary64 ((fl binary64 (-5) (1)), (fl binary64 (-5) (0))) ((fl binary64 (1) (0)), (fl binary64 (3) (0))) ((@fminf binary64), (fl binary64 (1) (1)))) (fun v1 => ret (ieq v1 ((@fminf binary64), (fl binary64 (-3) (0)))))));
  (1651, (bind (@fma binary64 ((fl binary64 (-5) (1)), (fl binary64 (-5) (0))) ((@fminf binary64), (fl binary64 (-1) (0))) ((@fminf binary64), (fl binary64 (1) (1)))) (fun v1 => ret (ieq v1 (@entire binary64)))));
  (1652, (bind (@fma binary64 ((fl binary64 (-5) (1)), (fl binary64 (-5) (0))) ((@fminf binary64), (fl binary64 (3) (0))) ((@fminf binary64), (fl binary64 (1) (1)))) (fun v1 => ret (ieq v1 (@entire binary64)))));
  (1653, (bind (@fma binary64 ((fl binary64 (-5) (1)), (fl binary64 (-5) (0))) ((fl binary64 (-5) (0)), (@finf binary64)) ((@fminf binary64), (fl binary64 (1) (1)))) (fun v1 => ret (ieq v1 ((@fminf binary64), (fl binary64 (13) (2)))))));
  (1654, (bind (@fma binary64 ((fl binary64 (-5) (1)), (fl binary64 (-5) (0))) ((fl binary64 (1) (0)), (@finf binary64)) ((@fminf binary64), (fl binary64 (1) (1)))) (fun v1 => ret (ieq v1 ((@fminf binary64), (fl binary64 (-3) (0)))))));
  (1655, (bind (@fma binary64 ((fl binary64 (-5) (1)), (fl binary64 (-5) (0))) (@entire binary64) ((@fminf binary64), (fl binary64 (1) (1)))) (fun v1 => ret (ieq v1 (@entire binary64)))));
  (1659, (bind (@fma binary64 (@empty binary64) (@empty binary64) ((fl binary64 (-1) (1)), (fl binary64 (1) (1)))) (fun v1 => @is_empty binary64 v1)));
  (1660, (bind (@fma binary64 ((fl binary64 (-1) (0)), (fl binary64 (1) (0))) (@empty binary64) ((fl binary64 (-1) (1)), (fl binary64 (1) (1)))) (fun v1 => @is_empty binary64 v1)));
  (1661, (bind (@fma binary64 (@empty binary64) ((fl binary64 (-1) (0)), (fl binary64 (1) (0))) ((fl binary64 (-1) (1)), (fl binary64 (1) (1)))) (fun v1 => @is_empty binary64 v1)));
  (1662, (bind (@fma binary64 (@empty binary64) (@entire binary64) ((fl binary64 (-1) (1)), (fl binary64 (1) (1)))) (fun v1 => @is_empty binary64 v1)));
  (1663, (bind (@fma binary64 (@entire binary64) (@empty binary64) ((fl binary64 (-1) (1)), (fl binary64 (1) (1)))) (fun v1 => @is_empty binary64 v1)));
  (1664, (bind (@fma binary64 ((@f0 binary64), (@f0 binary64)) (@empty binary64) ((fl binary64 (-1) (1)), (fl binary64 (1) (1)))) (fun v1 => @is_empty binary64 v1)));
  (1665, (bind (@fma binary64 ((@fm0 binary64), (@fm0 binary64)) (@empty binary64) ((fl binary64 (-1) (1)), (fl binary64 (1) (1)))) (fun v1 => @is_empty binary64 v1)));
  (1666, (bind (@fma binary64 (@empty binary64) ((@f0 binary64), (@f0 binary64)) ((fl binary64 (-1) (1)), (fl binary64 (1) (1)))) (fun v1 => @is_empty binary64 v1)));
  (1667, (bind (@fma binary64 (@empty binary64) ((@fm0 binary64), (@fm0 binary64)) ((fl binary64 (-1) (1)), (fl binary64 (1) (1)))) (fun v1 => @is_empty binary64 v1)));
  (1669, (bind (@fma binary64 (@entire binary64) ((@f0 binary64), (@f0 binary64)) ((fl binary64 (-1) (1)), (fl binary64 (1) (1)))) (fun v1 => ret (ieq v1 ((fl binary64 (-1) (1)), (fl binary64 (1) (1)))))));
  (1670, (bind (@fma binary64 (@entire binary64) ((@fm0 binary64), (@fm0 binary64)) ((fl binary64 (-1) (1)), (fl binary64 (1) (1)))) (fun v1 => ret (ieq v1 ((fl binary64 (-1) (1)), (fl binary64 (1) (1)))))));
  (1671, (bind (@fma binary64 (@entire binary64) ((fl binary64 (-5) (0)), (fl binary64 (-1) (0))) ((fl binary64 (-1) (1)), (fl binary64 (1) (1)))) (fun v1 => ret (ieq v1 (@entire binary64)))));
  (1672, (bind (@fma binary64 (@entire binary64) ((fl binary64 (-5) (0)), (fl binary64 (3) (0))) ((fl binary64 (-1) (1)), (fl binary64 (1) (1)))) (fun v1 => ret (ieq v1 (@entire binary64)))));
  (1673, (bind (@fma binary64 (@entire binary64) ((fl binary64 (1) (0)), (fl binary64 (3) (0))) ((fl binary64 (-1) (1)), (fl binary64 (1) (1)))) (fun v1 => ret (ieq v1 (@entire binary64)))));
  (1674, (bind (@fma binary64 (@entire binary64) ((@fminf binary64), (fl binary64 (-1) (0))) ((fl binary64 (-1) (1)), (fl binary64 (1) (1)))) (fun v1 => ret (ieq v1 (@entire binary64)))));
  (1675, (bind (@fma binary64 (@entire binary64) ((@fminf binary64), (fl binary64 (3) (0))) ((fl binary64 (-1) (1)), (fl binary64 (1) (1)))) (fun v1 => ret (ieq v1 (@entire binary64)))));
  (1676, (bind (@fma binary64 (@entire binary64) ((fl binary64 (-5) (0)), (@finf binary64)) ((fl binary64 (-1) (1)), (fl binary64 (1) (1)))) (fun v1 => ret (ieq v1 (@entire binary64)))));
  (1677, (bind (@fma binary64 (@entire binary64) ((fl binary64 (1) (0)), (@finf binary64)) ((fl binary64 (-1) (1)), (fl binary64 (1) (1)))) (fun v1 => ret (ieq v1 (@entire binary64)))));
  (1678, (bind (@fma binary64 (@entire binary64) (@entire binary64) ((fl binary64 (-1) (1)), (fl binary64 (1) (1)))) (fun v1 => ret (ieq v1 (@entire binary64)))));
  (1680, (bind (@fma binary64 ((fl binary64 (1) (0)), (@finf binary64)) ((@f0 binary64), (@f0 binary64)) ((fl binary64 (-1) (1)), (fl binary64 (1) (1)))) (fun v1 => ret (ieq v1 ((fl binary64 (-1) (1)), (fl binary64 (1) (1)))))));
  (1681, (bind (@fma binary64 ((fl binary64 (1) (0)), (@finf binary64)) ((@fm0 binary64), (@fm0 binary64)) ((fl binary64 (-1) (1)), (fl binary64 (1) (1)))) (fun v1 => ret (ieq v1 ((fl binary64 (-1) (1)), (fl binary64 (1) (1)))))));
  (1682, (bind (@fma binary64 ((fl binary64 (1) (0)), (@finf binary64)) ((fl binary64 (-5) (0)), (fl binary64 (-1) (0))) ((fl binary64 (-1) (1)), (fl binary64 (1) (1)))) (fun v1 => ret (ieq v1 ((@fminf binary64), (fl binary64 (1) (0)))))));
  (1683, (bind (@fma binary64 ((fl binary64 (1) (0)), (@finf binary64)) ((fl binary64 (-5) (0)), (fl binary64 (3) (0))) ((fl binary64 (-1) (1)), (fl binary64 (1) (1)))) (fun v1 => ret (ieq v1 (@entire binary64)))));
  (1684, (bind (@fma binary64 ((fl binary64 (1) (0)), (@finf binary64)) ((fl binary64 (1) (0)), (fl binary64 (3) (0))) ((fl binary64 (-1) (1)), (fl binary64 (1) (1)))) (fun v1 => ret (ieq v1 ((fl binary64 (-1) (0)), (@finf binary64))))));
  (1685, (bind (@fma binary64 ((fl binary64 (1) (0)), (@finf binary64)) ((@fminf binary64), (fl binary64 (-1) (0))) ((fl binary64 (-1) (1)), (fl binary64 (1) (1)))) (fun v1 => ret (ieq v1 ((@fminf binary64), (fl binary64 (1) (0)))))));
  (1686, (bind (@fma binary64 ((fl binary64 (1) (0)), (@finf binary64)) ((@fminf binary64), (fl binary64 (3) (0))) ((fl binary64 (-1) (1)), (fl binary64 (1) (1)))) (fun v1 => ret (ieq v1 (@entire binary64)))));
  (1687, (bind (@fma binary64 ((fl binary64 (1) (0)), (@finf binary64)) ((fl binary64 (-5) (0)), (@finf binary64)) ((fl binary64 (-1) (1)), (fl binary64 (1) (1)))) (fun v1 => ret (ieq v1 (@entire binary64)))));
  (1688, (bind (@fma binary64 ((fl binary64 (1) (0)), (@finf binary64)) ((fl binary64 (1) (0)), (@finf binary64)) ((fl binary64 (-1) (1)), (fl binary64 (1) (1)))) (fun v1 => ret (ieq v1 ((fl binary64 (-1) (0)), (@finf binary64))))));
  (1689, (bind (@fma binary64 ((fl binary64 (1) (0)), (@finf binary64)) (@entire binary64) ((fl binary64 (-1) (1)), (fl binary64 (1) (1)))) (fun v1 => ret (ieq v1 (@entire binary64)))));
  (1691, (bind (@fma binary64 ((fl binary64 (-1) (0)), (@finf binary64)) ((@f0 binary64), (@f0 binary64)) ((fl binary64 (-1) (1)), (fl binary64 (1) (1)))) (fun v1 => ret (ieq v1 ((fl binary64 (-1) (1)), (fl binary64 (1) (1)))))));
  (1692, (bind (@fma binary64 ((fl binary64 (-1) (0)), (@finf binary64)) ((@fm0 binary64), (@fm0 binary64)) ((fl binary64 (-1) (1)), (fl binary64 (1) (1)))) (fun v1 => ret (ieq v1 ((fl binary64 (-1) (1)), (fl binary64 (1) (1)))))));
  (1693, (bind (@fma binary64 ((fl binary64 (-1) (0)), (@finf binary64)) ((fl binary64 (-5) (0)), (fl binary64 (-1) (0))) ((fl binary64 (-1) (1)), (fl binary64 (1) (1)))) (fun v1 => ret (ieq v1 ((@fminf binary64), (fl binary64 (7) (0)))))));
  (1694, (bind (@fma binary64 ((fl binary64 (-1) (0)), (@finf binary64)) ((fl binary64 (-5) (0)), (fl binary64 (3) (0))) ((fl binary64 (-1) (1)), (fl binary64 (1) (1)))) (fun v1 => ret (ieq v1 (@entire binary64)))));
  (1695, (bind (@fma binary64 ((fl binary64 (-1) (0)), (@finf binary64)) ((fl binary64 (1) (0)), (fl binary64 (3) (0))) ((fl binary64 (-1) (1)), (fl binary64 (1) (1)))) (fun v1 => ret (ieq v1 ((fl binary64 (-5) (0)), (@finf binary64))))));
  (1696, (bind (@fma binary64 ((fl binary64 (-1) (0)), (@finf binary64)) ((@fminf binary64), (fl binary64 (-1) (0))) ((fl binary64 (-1) (1)), (fl binary64 (1) (1)))) (fun v1 => ret (ieq v1 (@entire binary64)))));
  (1697, (bind (@fma binary64 ((fl binary64 (-1) (0)), (@finf binary64)) ((@fminf binary64), (fl binary64 (3) (0))) ((fl binary64 (-1) (1)), (fl binary64 (1) (1)))) (fun v1 => ret (ieq v1 (@entire binary64)))));
  (1698, (bind (@fma binary64 ((fl binary64 (-1) (0)), (@finf binary64)) ((fl binary64 (-5) (0)), (@finf binary64)) ((fl binary64 (-1) (1)), (fl binary64 (1) (1)))) (fun v1 => ret (ieq v1 (@entire binary64)))));
  (1699, (bind (@fma binary64 ((fl binary64 (-1) (0)), (@finf binary64)) ((fl binary64 (1) (0)), (@finf binary64)) ((fl binary64 (-1) (1)), (fl binary64 (1) (1)))) (fun v1 => ret (ieq v1 (@entire binary64)))));
  (1700, (bind (@fma binary64 ((fl binary64 (-1) (0)), (@finf binary64)) (@entire binary64) ((fl binary64 (-1) (1)), (fl binary64 (1) (1)))) (fun v1 => ret (ieq v1 (@entire binary64)))));
  (1702, (bind (@fma binary64 ((@fminf binary64), (fl binary64 (3) (0))) ((@f0 binary64), (@f0 binary64)) ((fl binary64 (-1) (1)), (fl binary64 (1) (1)))) (fun v1 => ret (ieq v1 ((fl binary64 (-1) (1)), (fl binary64 (1) (1)))))));
  (1703, (bind (@fma binary64 ((@fminf binary64), (fl binary64 (3) (0))) ((@fm0 binary64), (@fm0 binary64)) ((fl binary64 (-1) (1)), (fl binary64 (1) (1)))) (fun v1 => ret (ieq v1 ((fl binary64 (-1) (1)), (fl binary64 (1) (1)))))));
  (1704, (bind (@fma binary64 ((@fminf binary64), (fl binary64 (3) (0))) ((fl binary64 (-5) (0)), (fl binary64 (-1) (0))) ((fl binary64 (-1) (1)), (fl binary64 (1) (1)))) (fun v1 => ret (ieq v1 ((fl binary64 (-17) (0)), (@finf binary64))))));
  (1705, (bind (@fma binary64 ((@fminf binary64), (fl binary64 (3) (0))) ((fl binary64 (-5) (0)), (fl binary64 (3) (0))) ((fl binary64 (-1) (1)), (fl binary64 (1) (1)))) (fun v1 => ret (ieq v1 (@entire binary64)))));
  (1706, (bind (@fma binary64 ((@fminf binary64), (fl binary64 (3) (0))) ((fl binary64 (1) (0)), (fl binary64 (3) (0))) ((fl binary64 (-1) (1)), (fl binary64 (1) (1)))) (fun v1 => ret (ieq v1 ((@fminf binary64), (fl binary64 (11) (0)))))));
  (1707, (bind (@fma binary64 ((@fminf binary64), (fl binary64 (3) (0))) ((@fminf binary64), (fl binary64 (-1) (0))) ((fl binary64 (-1) (1)), (fl binary64 (1) (1)))) (fun v1 => ret (ieq v1 (@entire binary64)))));
  (1708, (bind (@fma binary64 ((@fminf binary64), (fl binary64 (3) (0))) ((@fminf binary64), (fl binary64 (3) (0))) ((fl binary64 (-1) (1)), (fl binary64 (1) (1)))) (fun v1 => ret (ieq v1 (@entire binary64)))));
  (1709, (bind (@fma binary64 ((@fminf binary64), (fl binary64 (3) (0))) ((fl binary64 (-5) (0)), (@finf binary64)) ((fl binary64 (-1) (1)), (fl binary64 (1) (1)))) (fun v1 => ret (ieq v1 (@entire binary64)))));
  (1710, (bind (@fma binary64 ((@fminf binary64), (fl binary64 (3) (0))) ((fl binary64 (1) (0)), (@finf binary64)) ((fl binary64 (-1) (1)), (fl binary64 (1) (1)))) (fun v1 => ret (ieq v1 (@entire binary64)))));
  (1711, (bind (@fma binary64 ((@fminf binary64), (fl binary64 (3) (0))) (@entire binary64) ((fl binary64 (-1) (1)), (fl binary64 (1) (1)))) (fun v1 => ret (ieq v1 (@entire binary64)))));
  (1713, (bind (@fma binary64 ((@fminf binary64), (fl binary64 (-3) (0))) ((@f0 binary64), (@f0 binary64)) ((fl binary64 (-1) (1)), (fl binary64 (1) (1)))) (fun v1 => ret (ieq v1 ((fl binary64 (-1) (1)), (fl binary64 (1) (1)))))));
  (1714, (bind (@fma binary64 ((@fminf binary64), (fl binary64 (-3) (0))) ((@fm0 binary64), (@fm0 binary64)) ((fl binary64 (-1) (1)), (fl binary64 (1) (1)))) (fun v1 => ret (ieq v1 ((fl binary64 (-1) (1)), (fl binary64 (1) (1)))))));
  (1715, (bind (@fma binary64 ((@fminf binary64), (fl binary64 (-3) (0))) ((fl binary64 (-5) (0)), (fl binary64 (-1) (0))) ((fl binary64 (-1) (1)), (fl binary64 (1) (1)))) (fun v1 => ret (ieq v1 ((fl binary64 (1) (0)), (@finf binary64))))));
  (1716, (bind (@fma binary64 ((@fminf binary64), (fl binary64 (-3) (0))) ((fl binary64 (-5) (0)), (fl binary64 (3) (0))) ((fl binary64 (-1) (1)), (fl binary64 (1) (1)))) (fun v1 => ret (ieq v1 (@entire binary64)))));
  (1717, (bind (@fma binary64 ((@fminf binary64), (fl binary64 (-3) (0))) ((fl binary64 (1) (0)), (fl binary64 (3) (0))) ((fl binary64 (-1) (1)), (fl binary64 (1) (1)))) (fun v1 => ret (ieq v1 ((@fminf binary64), (fl binary64 (-1) (0)))))));
  (1718, (bind (@fma binary64 ((@fminf binary64), (fl binary64 (-3) (0))) ((@fminf binary64), (fl binary64 (-1) (0))) ((fl binary64 (-1) (1)), (fl binary64 (1) (1)))) (fun v1 => ret (ieq v1 ((fl binary64 (1) (0)), (@finf binary64))))));
  (1719, (bind (@fma binary64 ((@fminf binary64), (fl binary64 (-3) (0))) ((@fminf binary64), (fl binary64 (3) (0))) ((fl binary64 (-1) (1)), (fl binary64 (1) (1)))) (fun v1 => ret (ieq v1 (@entire binary64)))));
  (1720, (bind (@fma binary64 ((@fminf binary64), (fl binary64 (-3) (0))) ((fl binary64 (-5) (0)), (@finf binary64)) ((fl binary64 (-1) (1)), (fl binary64 (1) (1)))) (fun v1 => ret (ieq v1 (@entire binary64)))));
  (1721, (bind (@fma binary64 ((@fminf binary64), (fl binary64 (-3) (0))) ((fl binary64 (1) (0)), (@finf binary64)) ((fl binary64 (-1) (1)), (fl binary64 (1) (1)))) (fun v1 => ret (ieq v1 ((@fminf binary64), (fl binary64 (-1) (0)))))));
  (1722, (bind (@fma binary64 ((@fminf binary64), (fl binary64 (-3) (0))) (@entire binary64) ((fl binary64 (-1) (1)), (fl binary64 (1) (1)))) (fun v1 => ret (ieq v1 (@entire binary64)))));
  (1724, (bind (@fma binary64 ((@f0 binary64), (@f0 binary64)) ((@f0 binary64), (@f0 binary64)) ((fl binary64 (-1) (1)), (fl binary64 (1) (1)))) (fun v1 => ret (ieq v1 ((fl binary64 (-1) (1)), (fl binary64 (1) (1)))))));
  (1725, (bind (@fma binary64 ((@f0 binary64), (@f0 binary64)) ((@fm0 binary64), (@fm0 binary64)) ((fl binary64 (-1) (1)), (fl binary64 (1) (1)))) (fun v1 => ret (ieq v1 ((fl binary64 (-1) (1)), (fl binary64 (1) (1)))))));
  (1726, (bind (@fma binary64 ((@f0 binary64), (@f0 binary64)) ((fl binary64 (-5) (0)), (fl binary64 (-1) (0))) ((fl binary64 (-1) (1)), (fl binary64 (1) (1)))) (fun v1 => ret (ieq v1 ((fl binary64 (-1) (1)), (fl binary64 (1) (1)))))));
  (1727, (bind (@fma binary64 ((@f0 binary64), (@f0 binary64)) ((fl binary64 (-5) (0)), (fl binary64 (3) (0))) ((fl binary64 (-1) (1)), (fl binary64 (1) (1)))) (fun v1 => ret (ieq v1 ((fl binary64 (-1) (1)), (fl binary64 (1) (1)))))));
  (1728, (bind (@fma binary64 ((@f0 binary64), (@f0 binary64)) ((fl binary64 (1) (0)), (fl binary64 (3) (0))) ((fl binary64 (-1) (1)), (fl binary64 (1) (1)))) (fun v1 => ret (ieq v1 ((fl binary64 (-1) (1)), (fl binary64 (1) (1)))))));
  (1729, (bind (@fma binary64 ((@f0 binary64), (@f0 binary64)) ((@fminf binary64), (fl binary64 (-1) (0))) ((fl binary64 (-1) (1)), (fl binary64 (1) (1)))) (fun v1 => ret (ieq v1 ((fl binary64 (-1) (1)), (fl binary64 (1) (1)))))));
  (1730, (bind (@fma binary64 ((@f0 binary64), (@f0 binary64)) ((@fminf binary64), (fl binary64 (3) (0))) ((fl binary64 (-1) (1)), (fl binary64 (1) (1)))) (fun v1 => ret (ieq v1 ((fl binary64 (-1) (1)), (fl binary64 (1) (1)))))));
  (1731, (bind (@fma binary64 ((@f0 binary64), (@f0 binary64)) ((fl binary64 (-5) (0)), (@finf binary64)) ((fl binary64 (-1) (1)), (fl binary64 (1) (1)))) (fun v1 => ret (ieq v1 ((fl binary64 (-1) (1)), (fl binary64 (1) (1)))))));
  (1732, (bind (@fma binary64 ((@f0 binary64), (@f0 binary64)) ((fl binary64 (1) (0)), (@finf binary64)) ((fl binary64 (-1) (1)), (fl binary64 (1) (1)))) (fun v1 => ret (ieq v1 ((fl binary64 (-1) (1)), (fl binary64 (1) (1)))))));
  (1733, (bind (@fma binary64 ((@f0 binary64), (@f0 binary64)) (@entire binary64) ((fl binary64 (-1) (1)), (fl binary64 (1) (1)))) (fun v1 => ret (ieq v1 ((fl binary64 (-1) (1)), (fl binary64 (1) (1)))))));
  (1735, (bind (@fma binary64 ((@fm0 binary64), (@fm0 binary64)) ((@f0 binary64), (@f0 binary64)) ((fl binary64 (-1) (1)), (fl binary64 (1) (1)))) (fun v1 => ret (ieq v1 ((fl binary64 (-1) (1)), (fl binary64 (1) (1)))))));
  (1736, (bind (@fma binary64 ((@fm0 binary64), (@fm0 binary64)) ((@fm0 binary64), (@fm0 binary64)) ((fl binary64 (-1) (1)), (fl binary64 (1) (1)))) (fun v1 => ret (ieq v1 ((fl binary64 (-1) (1)), (fl binary64 (1) (1)))))));
  (1737, (bind (@fma binary64 ((@fm0 binary64), (@fm0 binary64)) ((fl binary64 (-5) (0)), (fl binary64 (-1) (0))) ((fl binary64 (-1) (1)), (fl binary64 (1) (1)))) (fun v1 => ret (ieq v1 ((fl binary64 (-1) (1)), (fl binary64 (1) (1)))))));
  (1738, (bind (@fma binary64 ((@fm0 binary64), (@fm0 binary64)) ((fl binary64 (-5) (0)), (fl binary64 (3) (0))) ((fl binary64 (-1) (1)), (fl binary64 (1) (1)))) (fun v1 => ret (ieq v1 ((fl binary64 (-1) (1)), (fl binary64 (1) (1)))))));
  (1739, (bind (@fma binary64 ((@fm0 binary64), (@fm0 binary64)) ((fl binary64 (1) (0)), (fl binary64 (3) (0))) ((fl binary64 (-1) (1)), (fl binary64 (1) (1)))) (fun v1 => ret (ieq v1 ((fl binary64 (-1) (1)), (fl binary64 (1) (1)))))));
  (1740, (bind (@fma binary64 ((@fm0 binary64), (@fm0 binary64)) ((@fminf binary64), (fl binary64 (-1) (0))) ((fl binary64 (-1) (1)), (fl binary64 (1) (1)))) (fun v1 => ret (ieq v1 ((fl binary64 (-1) (1)), (fl binary64 (1) (1)))))));
  (1741, (bind (@fma binary64 ((@fm0 binary64), (@fm0 binary64)) ((@fminf binary64), (fl binary64 (3) (0))) ((fl binary64 (-1) (1)), (fl binary64 (1) (1)))) (fun v1 => ret (ieq v1 ((fl binary64 (-1) (1)), (fl binary64 (1) (1)))))));
  (1742, (bind (@fma binary64 ((@fm0 binary64), (@fm0 binary64)) ((fl binary64 (-5) (0)), (@finf binary64)) ((fl binary64 (-1) (1)), (fl binary64 (1) (1)))) (fun v1 => ret (ieq v1 ((fl binary64 (-1) (1)), (fl binary64 (1) (1)))))));
  (1743, (bind (@fma binary64 ((@fm0 binary64), (@fm0 binary64)) ((fl binary64 (1) (0)), (@finf binary64)) ((fl binary64 (-1) (1)), (fl binary64 (1) (1)))) (fun v1 => ret (ieq v1 ((fl binary64 (-1) (1)), (fl binary64 (1) (1)))))));
  (1744, (bind (@fma binary64 ((@fm0 binary64), (@fm0 binary64)) (@entire binary64) ((fl binary64 (-1) (1)), (fl binary64 (1) (1)))) (fun v1 => ret (ieq v1 ((fl binary64 (-1) (1)), (fl binary64 (1) (1)))))));
  (1746, (bind (@fma binary64 ((fl binary64 (1) (0)), (fl binary64 (5) (0))) ((@f0 binary64), (@f0 binary64)) ((fl binary64 (-1) (1)), (fl binary64 (1) (1)))) (fun v1 => ret (ieq v1 ((fl binary64 (-1) (1)), (fl binary64 (1) (1)))))));
  (1747, (bind (@fma binary64 ((fl binary64 (1) (0)), (fl binary64 (5) (0))) ((@fm0 binary64), (@fm0 binary64)) ((fl binary64 (-1) (1)), (fl binary64 (1) (1)))) (fun v1 => ret (ieq v1 ((fl binary64 (-1) (1)), (fl binary64 (1) (1)))))));
  (1748, (bind (@fma binary64 ((fl binary64 (1) (0)), (fl binary64 (5) (0))) ((fl binary64 (-5) (0)), (fl binary64 (-1) (0))) ((fl binary64 (-1) (1)), (fl binary64 (1) (1)))) (fun v1 => ret (ieq v1 ((fl binary64 (-27) (0)), (fl binary64 (1) (0)))))));
  (1749, (bind (@fma binary64 ((fl binary64 (1) (0)), (fl binary64 (5) (0))) ((fl binary64 (-5) (0)), (fl binary64 (3) (0))) ((fl binary64 (-1) (1)), (fl binary64 (1) (1)))) (fun v1 => ret (ieq v1 ((fl binary64 (-27) (0)), (fl binary64 (17) (0)))))));
  (1750, (bind (@fma binary64 ((fl binary64 (1) (0)), (fl binary64 (5) (0))) ((fl binary64 (1) (0)), (fl binary64 (3) (0))) ((fl binary64 (-1) (1)), (fl binary64 (1) (1)))) (fun v1 => ret (ieq v1 ((fl binary64 (-1) (0)), (fl binary64 (17) (0)))))));
  (1751, (bind (@fma binary64 ((fl binary64 (1) (0)), (fl binary64 (5) (0))) ((@fminf binary64), (fl binary64 (-1) (0))) ((fl binary64 (-1) (1)), (fl binary64 (1) (1)))) (fun v1 => ret (ieq v1 ((@fminf binary64), (fl binary64 (1) (0)))))));
  (1752, (bind (@fma binary64 ((fl binary64 (1) (0)), (fl binary64 (5) (0))) ((@fminf binary64), (fl binary64 (3) (0))) ((fl binary64 (-1) (1)), (fl binary64 (1) (1)))) (fun v1 => ret (ieq v1 ((@fminf binary64), (fl binary64 (17) (0)))))));
  (1753, (bind (@fma binary64 ((fl binary64 (1) (0)), (fl binary64 (5) (0))) ((fl binary64 (-5) (0)), (@finf binary64)) ((fl binary64 (-1) (1)), (fl binary64 (1) (1)))) (fun v1 => ret (ieq v1 ((fl binary64 (-27) (0)), (@finf binary64))))));
  (1754, (bind (@fma binary64 ((fl binary64 (1) (0)), (fl binary64 (5) (0))) ((fl binary64 (1) (0)), (@finf binary64)) ((fl binary64 (-1) (1)), (fl binary64 (1) (1)))) (fun v1 => ret (ieq v1 ((fl binary64 (-1) (0)), (@finf binary64))))));
  (1755, (bind (@fma binary64 ((fl binary64 (1) (0)), (fl binary64 (5) (0))) (@entire binary64) ((fl binary64 (-1) (1)), (fl binary64 (1) (1)))) (fun v1 => ret (ieq v1 (@entire binary64)))));
  (1757, (bind (@fma binary64 ((fl binary64 (-1) (0)), (fl binary64 (5) (0))) ((@f0 binary64), (@f0 binary64)) ((fl binary64 (-1) (1)), (fl binary64 (1) (1)))) (fun v1 => ret (ieq v1 ((fl binary64 (-1) (1)), (fl binary64 (1) (1)))))));
  (1758, (bind (@fma binary64 ((fl binary64 (-1) (0)), (fl binary64 (5) (0))) ((@fm0 binary64), (@fm0 binary64)) ((fl binary64 (-1) (1)), (fl binary64 (1) (1)))) (fun v1 => ret (ieq v1 ((fl binary64 (-1) (1)), (fl binary64 (1) (1)))))));
  (1759, (bind (@fma binary64 ((fl binary64 (-1) (0)), (fl binary64 (5) (0))) ((fl binary64 (-5) (0)), (fl binary64 (-1) (0))) ((fl binary64 (-1) (1)), (fl binary64 (1) (1)))) (fun v1 => ret (ieq v1 ((fl binary64 (-27) (0)), (fl binary64 (7) (0)))))));
  (1761, (bind (@fma binary64 ((fl binary64 (-1) (0)), (fl binary64 (5) (0))) ((fl binary64 (-5) (0)), (fl binary64 (3) (0))) ((fl binary64 (-1) (1)), (fl binary64 (1) (1)))) (fun v1 => ret (ieq v1 ((fl binary64 (-27) (0)), (fl binary64 (17) (0)))))));
  (1762, (bind (@fma binary64 ((fl binary64 (-5) (1)), (fl binary64 (1) (1))) ((fl binary64 (-5) (0)), (fl binary64 (3) (0))) ((fl binary64 (-1) (1)), (fl binary64 (1) (1)))) (fun v1 => ret (ieq v1 ((fl binary64 (-1) (5)), (fl binary64 (13) (2)))))));
  (1763, (bind (@fma binary64 ((fl binary64 (-1) (0)), (fl binary64 (5) (0))) ((fl binary64 (-1) (0)), (fl binary64 (5) (1))) ((fl binary64 (-1) (1)), (fl binary64 (1) (1)))) (fun v1 => ret (ieq v1 ((fl binary64 (-3) (2)), (fl binary64 (13) (2)))))));
  (1764, (bind (@fma binary64 ((fl binary64 (-1) (1)), (fl binary64 (1) (1))) ((fl binary64 (-5) (0)), (fl binary64 (3) (0))) ((fl binary64 (-1) (1)), (fl binary64 (1) (1)))) (fun v1 => ret (ieq v1 ((fl binary64 (-3) (2)), (fl binary64 (3) (2)))))));
  (1766, (bind (@fma binary64 ((fl binary64 (-1) (0)), (fl binary64 (5) (0))) ((fl binary64 (1) (0)), (fl binary64 (3) (0))) ((fl binary64 (-1) (1)), (fl binary64 (1) (1)))) (fun v1 => ret (ieq v1 ((fl binary64 (-5) (0)), (fl binary64 (17) (0)))))));
  (1767, (bind (@fma binary64 ((fl binary64 (-1) (0)), (fl binary64 (5) (0))) ((@fminf binary64), (fl binary64 (-1) (0))) ((fl binary64 (-1) (1)), (fl binary64 (1) (1)))) (fun v1 => ret (ieq v1 (@entire binary64)))));
  (1768, (bind (@fma binary64 ((fl binary64 (-1) (0)), (fl binary64 (5) (0))) ((@fminf binary64), (fl binary64 (3) (0))) ((fl binary64 (-1) (1)), (fl binary64 (1) (1)))) (fun v1 => ret (ieq v1 (@entire binary64)))));
  (1769, (bind (@fma binary64 ((fl binary64 (-1) (0)), (fl binary64 (5) (0))) ((fl binary64 (-5) (0)), (@finf binary64)) ((fl binary64 (-1) (1)), (fl binary64 (1) (1)))) (fun v1 => ret (ieq v1 (@entire binary64)))));
  (1770, (bind (@fma binary64 ((fl binary64 (-1) (0)), (fl binary64 (5) (0))) ((fl binary64 (1) (0)), (@finf binary64)) ((fl binary64 (-1) (1)), (fl binary64 (1) (1)))) (fun v1 => ret (ieq v1 (@entire binary64)))));
  (1771, (bind (@fma binary64 ((fl binary64 (-1) (0)), (fl binary64 (5) (0))) (@entire binary64) ((fl binary64 (-1) (1)), (fl binary64 (1) (1)))) (fun v1 => ret (ieq v1 (@entire binary64)))));
  (1773, (bind (@fma binary64 ((fl binary64 (-5) (1)), (fl binary64 (-5) (0))) ((@f0 binary64), (@f0 binary64)) ((fl binary64 (-1) (1)), (fl binary64 (1) (1)))) (fun v1 => ret (ieq v1 ((fl binary64 (-1) (1)), (fl binary64 (1) (1)))))));
  (1774, (bind (@fma binary64 ((fl binary64 (-5) (1)), (fl binary64 (-5) (0))) ((@fm0 binary64), (@fm0 binary64)) ((fl binary64 (-1) (1)), (fl binary64 (1) (1)))) (fun v1 => ret (ieq v1 ((fl binary64 (-1) (1)), (fl binary64 (1) (1)))))));
  (1775, (bind (@fma binary64 ((fl binary64 (-5) (1)), (fl binary64 (-5) (0))) ((fl binary64 (-5) (0)), (fl binary64 (-1) (0))) ((fl binary64 (-1) (1)), (fl binary64 (1) (1)))) (fun v1 => ret (ieq v1 ((fl binary64 (3) (0)), (fl binary64 (13) (2)))))));
  (1776, (bind (@fma binary64 ((fl binary64 (-5) (1)), (fl binary64 (-5) (0))) ((fl binary64 (-5) (0)), (fl binary64 (3) (0))) ((fl binary64 (-1) (1)), (fl binary64 (1) (1)))) (fun v1 => ret (ieq v1 ((fl binary64 (-1) (5)), (fl binary64 (13) (2)))))));
  (1777, (bind (@fma binary64 ((fl binary64 (-5) (1)), (fl binary64 (-5) (0))) ((fl binary64 (1) (0)), (fl binary64 (3) (0))) ((fl binary64 (-1) (1)), (fl binary64 (1) (1)))) (fun v1 => ret (ieq v1 ((fl binary64 (-1) (5)), (fl binary64 (-3) (0)))))));
  (1778, (bind (@fma binary64 ((fl binary64 (-5) (1)), (fl binary64 (-5) (0))) ((@fminf binary64), (fl binary64 (-1) (0))) ((fl binary64 (-1) (1)), (fl binary64 (1) (1)))) (fun v1 => ret (ieq v1 ((fl binary64 (3) (0)), (@finf binary64))))));
  (1779, (bind (@fma binary64 ((fl binary64 (-5) (1)), (fl binary64 (-5) (0))) ((@fminf binary64), (fl binary64 (3) (0))) ((fl binary64 (-1) (1)), (fl binary64 (1) (1)))) (fun v1 => ret (ieq v1 ((fl binary64 (-1) (5)), (@finf binary64))))));
  (1780, (bind (@fma binary64 ((fl binary64 (-5) (1)), (fl binary64 (-5) (0))) ((fl binary64 (-5) (0)), (@finf binary64)) ((fl binary64 (-1) (1)), (fl binary64 (1) (1)))) (fun v1 => ret (ieq v1 ((@fminf binary64), (fl binary64 (13) (2)))))));
  (1781, (bind (@fma binary64 ((fl binary64 (-5) (1)), (fl binary64 (-5) (0))) ((fl binary64 (1) (0)), (@finf binary64)) ((fl binary64 (-1) (1)), (fl binary64 (1) (1)))) (fun v1 => ret (ieq v1 ((@fminf binary64), (fl binary64 (-3) (0)))))));
  (1782, (bind (@fma binary64 ((fl binary64 (-5) (1)), (fl binary64 (-5) (0))) (@entire binary64) ((fl binary64 (-1) (1)), (fl binary64 (1) (1)))) (fun v1 => ret (ieq v1 (@entire binary64)))));
  (1786, (bind (@fma binary64 (@empty binary64) (@empty binary64) ((fl binary64 (-1) (1)), (@finf binary64))) (fun v1 => @is_empty binary64 v1)));
  (1787, (bind (@fma binary64 ((fl binary64 (-1) (0)), (fl binary64 (1) (0))) (@empty binary64) ((fl binary64 (-1) (1)), (@finf binary64))) (fun v1 => @is_empty binary64 v1)));
  (1788, (bind (@fma binary64 (@empty binary64) ((fl binary64 (-1) (0)), (fl binary64 (1) (0))) ((fl binary64 (-1) (1)), (@finf binary64))) (fun v1 => @is_empty binary64 v1)));
  (1789, (bind (@fma binary64 (@empty binary64) (@entire binary64) ((fl binary64 (-1) (1)), (@finf binary64))) (fun v1 => @is_empty binary64 v1)));
  (1790, (bind (@fma binary64 (@entire binary64) (@empty binary64) ((fl binary64 (-1) (1)), (@finf binary64))) (fun v1 => @is_empty binary64 v1)));
  (1791, (bind (@fma binary64 ((@f0 binary64), (@f0 binary64)) (@empty binary64) ((fl binary64 (-1) (1)), (@finf binary64))) (fun v1 => @is_empty binary64 v1)));
  (1792, (bind (@fma binary64 ((@fm0 binary64), (@fm0 binary64)) (@empty binary64) ((fl binary64 (-1) (1)), (@finf binary64))) (fun v1 => @is_empty binary64 v1)));
  (1793, (bind (@fma binary64 (@empty binary64) ((@f0 binary64), (@f0 binary64)) ((fl binary64 (-1) (1)), (@finf binary64))) (fun v1 => @is_empty binary64 v1)));
  (1794, (bind (@fma binary64 (@empty binary64) ((@fm0 binary64), (@fm0 binary64)) ((fl binary64 (-1) (1)), (@finf binary64))) (fun v1 => @is_empty binary64 v1)));
  (1796, (bind (@fma binary64 (@entire binary64) ((@f0 binary64), (@f0 binary64)) ((fl binary64 (-1) (1)), (@finf binary64))) (fun v1 => ret (ieq v1 ((fl binary64 (-1) (1)), (@finf binary64))))));
  (1797, (bind (@fma binary64 (@entire binary64) ((@fm0 binary64), (@fm0 binary64)) ((fl binary64 (-1) (1)), (@finf binary64))) (fun v1 => ret (ieq v1 ((fl binary64 (-1) (1)), (@finf binary64))))));
  (1798, (bind (@fma binary64 (@entire binary64) ((fl binary64 (-5) (0)), (fl binary64 (-1) (0))) ((fl binary64 (-1) (1)), (@finf binary64))) (fun v1 => ret (ieq v1 (@entire binary64)))));
  (1799, (bind (@fma binary64 (@entire binary64) ((fl binary64 (-5) (0)), (fl binary64 (3) (0))) ((fl binary64 (-1) (1)), (@finf binary64))) (fun v1 => ret (ieq v1 (@entire binary64)))));
  (1800, (bind (@fma binary64 (@entire binary64) ((fl binary64 (1) (0)), (fl binary64 (3) (0))) ((fl binary64 (-1) (1)), (@finf binary64))) (fun v1 => ret (ieq v1 (@entire binary64)))));
  (1801, (bind (@fma binary64 (@entire binary64) ((@fminf binary64), (fl binary64 (-1) (0))) ((fl binary64 (-1) (1)), (@finf binary64))) (fun v1 => ret (ieq v1 (@entire binary64)))));
  (1802, (bind (@fma binary64 (@entire binary64) ((@fminf binary64), (fl binary64 (3) (0))) ((fl binary64 (-1) (1)), (@finf binary64))) (fun v1 => ret (ieq v1 (@entire binary64)))));
  (1803, (bind (@fma binary64 (@entire binary64) ((fl binary64 (-5) (0)), (@finf binary64)) ((fl binary64 (-1) (1)), (@finf binary64))) (fun v1 => ret (ieq v1 (@entire binary64)))));
  (1804, (bind (@fma binary64 (@entire binary64) ((fl binary64 (1) (0)), (@finf binary64)) ((fl binary64 (-1) (1)), (@finf binary64))) (fun v1 => ret (ieq v1 (@entire binary64)))));
  (1805, (bind (@fma binary64 (@entire binary64) (@entire binary64) ((fl binary64 (-1) (1)), (@finf binary64))) (fun v1 => ret (ieq v1 (@entire binary64)))));
  (1807, (bind (@fma binary64 ((fl binary64 (1) (0)), (@finf binary64)) ((@f0 binary64), (@f0 binary64)) ((fl binary64 (-1) (1)), (@finf binary64))) (fun v1 => ret (ieq v1 ((fl binary64 (-1) (1)), (@finf binary64))))));
  (1808, (bind (@fma binary64 ((fl binary64 (1) (0)), (@finf binary64)) ((@fm0 binary64), (@fm0 binary64)) ((fl binary64 (-1) (1)), (@finf binary64))) (fun v1 => ret (ieq v1 ((fl binary64 (-1) (1)), (@finf binary64))))));
  (1809, (bind (@fma binary64 ((fl binary64 (1) (0)), (@finf binary64)) ((fl binary64 (-5) (0)), (fl binary64 (-1) (0))) ((fl binary64 (-1) (1)), (@finf binary64))) (fun v1 => ret (ieq v1 (@entire binary64)))));
  (1810, (bind (@fma binary64 ((fl binary64 (1) (0)), (@finf binary64)) ((fl binary64 (-5) (0)), (fl binary64 (3) (0))) ((fl binary64 (-1) (1)), (@finf binary64))) (fun v1 => ret (ieq v1 (@entire binary64)))));
  (1811, (bind (@fma binary64 ((fl binary64 (1) (0)), (@finf binary64)) ((fl binary64 (1) (0)), (fl binary64 (3) (0))) ((fl binary64 (-1) (1)), (@finf binary64))) (fun v1 => ret (ieq v1 ((fl binary64 (-1) (0)), (@finf binary64))))));
  (1812, (bind (@fma binary64 ((fl binary64 (1) (0)), (@finf binary64)) ((@fminf binary64), (fl binary64 (-1) (0))) ((fl binary64 (-1) (1)), (@finf binary64))) (fun v1 => ret (ieq v1 (@entire binary64)))));
  (1813, (bind (@fma binary64 ((fl binary64 (1) (0)), (@finf binary64)) ((@fminf binary64), (fl binary64 (3) (0))) ((fl binary64 (-1) (1)), (@finf binary64))) (fun v1 => ret (ieq v1 (@entire binary64)))));
  (1814, (bind (@fma binary64 ((fl binary64 (1) (0)), (@finf binary64)) ((fl binary64 (-5) (0)), (@finf binary64)) ((fl binary64 (-1) (1)), (@finf binary64))) (fun v1 => ret (ieq v1 (@entire binary64)))));
  (1815, (bind (@fma binary64 ((fl binary64 (1) (0)), (@finf binary64)) ((fl binary64 (1) (0)), (@finf binary64)) ((fl binary64 (-1) (1)), (@finf binary64))) (fun v1 => ret (ieq v1 ((fl binary64 (-1) (0)), (@finf binary64))))));
  (1816, (bind (@fma binary64 ((fl binary64 (1) (0)), (@finf binary64)) (@entire binary64) ((fl binary64 (-1) (1)), (@finf binary64))) (fun v1 => ret (ieq v1 (@entire binary64)))));
  (1818, (bind (@fma binary64 ((fl binary64 (-1) (0)), (@finf binary64)) ((@f0 binary64), (@f0 binary64)) ((fl binary64 (-1) (1)), (@finf binary64))) (fun v1 => ret (ieq v1 ((fl binary64 (-1) (1)), (@finf binary64))))));
  (1819, (bind (@fma binary64 ((fl binary64 (-1) (0)), (@finf binary64)) ((@fm0 binary64), (@fm0 binary64)) ((fl binary64 (-1) (1)), (@finf binary64))) (fun v1 => ret (ieq v1 ((fl binary64 (-1) (1)), (@finf binary64))))));
  (1820, (bind (@fma binary64 ((fl binary64 (-1) (0)), (@finf binary64)) ((fl binary64 (-5) (0)), (fl binary64 (-1) (0))) ((fl binary64 (-1) (1)), (@finf binary64))) (fun v1 => ret (ieq v1 (@entire binary64)))));
  (1821, (bind (@fma binary64 ((fl binary64 (-1) (0)), (@finf binary64)) ((fl binary64 (-5) (0)), (fl binary64 (3) (0))) ((fl binary64 (-1) (1)), (@finf binary64))) (fun v1 => ret (ieq v1 (@entire binary64)))));
  (1822, (bind (@fma binary64 ((fl binary64 (-1) (0)), (@finf binary64)) ((fl binary64 (1) (0)), (fl binary64 (3) (0))) ((fl binary64 (-1) (1)), (@finf binary64))) (fun v1 => ret (ieq v1 ((fl binary64 (-5) (0)), (@finf binary64))))));
  (1823, (bind (@fma binary64 ((fl binary64 (-1) (0)), (@finf binary64)) ((@fminf binary64), (fl binary64 (-1) (0))) ((fl binary64 (-1) (1)), (@finf binary64))) (fun v1 => ret (ieq v1 (@entire binary64)))));
  (1824, (bind (@fma binary64 ((fl binary64 (-1) (0)), (@finf binary64)) ((@fminf binary64), (fl binary64 (3) (0))) ((fl binary64 (-1) (1)), (@finf binary64))) (fun v1 => ret (ieq v1 (@entire binary64)))));
  (1825, (bind (@fma binary64 ((fl binary64 (-1) (0)), (@finf binary64)) ((fl binary64 (-5) (0)), (@finf binary64)) ((fl binary64 (-1) (1)), (@finf binary64))) (fun v1 => ret (ieq v1 (@entire binary64)))));
  (1826, (bind (@fma binary64 ((fl binary64 (-1) (0)), (@finf binary64)) ((fl binary64 (1) (0)), (@finf binary64)) ((fl binary64 (-1) (1)), (@finf binary64))) (fun v1 => ret (ieq v1 (@entire binary64)))));
  (1827, (bind (@fma binary64 ((fl binary64 (-1) (0)), (@finf binary64)) (@entire binary64) ((fl binary64 (-1) (1)), (@finf binary64))) (fun v1 => ret (ieq v1 (@entire binary64)))));
  (1829, (bind (@fma binary64 ((@fminf binary64), (fl binary64 (3) (0))) ((@f0 binary64), (@f0 binary64)) ((fl binary64 (-1) (1)), (@finf binary64))) (fun v1 => ret (ieq v1 ((fl binary64 (-1) (1)), (@finf binary64))))));
  (1830, (bind (@fma binary64 ((@fminf binary64), (fl binary64 (3) (0))) ((@fm0 binary64), (@fm0 binary64)) ((fl binary64 (-1) (1)), (@finf binary64))) (fun v1 => ret (ieq v1 ((fl binary64 (-1) (1)), (@finf binary64))))));
  (1831, (bind (@fma binary64 ((@fminf binary64), (fl binary64 (3) (0))) ((fl binary64 (-5) (0)), (fl binary64 (-1) (0))) ((fl binary64 (-1) (1)), (@finf binary64))) (fun v1 => ret (ieq v1 ((fl binary64 (-17) (0)), (@finf binary64))))));
  (1832, (bind (@fma binary64 ((@fminf binary64), (fl binary64 (3) (0))) ((fl binary64 (-5) (0)), (fl binary64 (3) (0))) ((fl binary64 (-1) (1)), (@finf binary64))) (fun v1 => ret (ieq v1 (@entire binary64)))));
  (1833, (bind (@fma binary64 ((@fminf binary64), (fl binary64 (3) (0))) ((fl binary64 (1) (0)), (fl binary64 (3) (0))) ((fl binary64 (-1) (1)), (@finf binary64))) (fun v1 => ret (ieq v1 (@entire binary64)))));
  (1834, (bind (@fma binary64 ((@fminf binary64), (fl binary64 (3) (0))) ((@fminf binary64), (fl binary64 (-1) (0))) ((fl binary64 (-1) (1)), (@finf binary64))) (fun v1 => ret (ieq v1 (@entire binary64)))));
  (1835, (bind (@fma binary64 ((@fminf binary64), (fl binary64 (3) (0))) ((@fminf binary64), (fl binary64 (3) (0))) ((fl binary64 (-1) (1)), (@finf binary64))) (fun v1 => ret (ieq v1 (@entire binary64)))));
  (1836, (bind (@fma binary64 ((@fminf binary64), (fl binary64 (3) (0))) ((fl binary64 (-5) (0)), (@finf binary64)) ((fl binary64 (-1) (1)), (@finf binary64))) (fun v1 => ret (ieq v1 (@entire binary64)))));
  (1837, (bind (@fma binary64 ((@fminf binary64), (fl binary64 (3) (0))) ((fl binary64 (1) (0)), (@finf binary64)) ((fl binary64 (-1) (1)), (@finf binary64))) (fun v1 => ret (ieq v1 (@entire binary64)))));
  (1838, (bind (@fma binary64 ((@fminf binary64), (fl binary64 (3) (0))) (@entire binary64) ((fl binary64 (-1) (1)), (@finf binary64))) (fun v1 => ret (ieq v1 (@entire binary64)))));
  (1840, (bind (@fma binary64 ((@fminf binary64), (fl binary64 (-3) (0))) ((@f0 binary64), (@f0 binary64)) ((fl binary64 (-1) (1)), (@finf binary64))) (fun v1 => ret (ieq v1 ((fl binary64 (-1) (1)), (@finf binary64))))));
  (1841, (bind (@fma binary64 ((@fminf binary64), (fl binary64 (-3) (0))) ((@fm0 binary64), (@fm0 binary64)) ((fl binary64 (-1) (1)), (@finf binary64))) (fun v1 => ret (ieq v1 ((fl binary64 (-1) (1)), (@finf binary64))))));
  (1842, (bind (@fma binary64 ((@fminf binary64), (fl binary64 (-3) (0))) ((fl binary64 (-5) (0)), (fl binary64 (-1) (0))) ((fl binary64 (-1) (1)), (@finf binary64))) (fun v1 => ret (ieq v1 ((fl binary64 (1) (0)), (@finf binary64))))));
  (1843, (bind (@fma binary64 ((@fminf binary64), (fl binary64 (-3) (0))) ((fl binary64 (-5) (0)), (fl binary64 (3) (0))) ((fl binary64 (-1) (1)), (@finf binary64))) (fun v1 => ret (ieq v1 (@entire binary64)))));
  (1844, (bind (@fma binary64 ((@fminf binary64), (fl binary64 (-3) (0))) ((fl binary64 (1) (0)), (fl binary64 (3) (0))) ((fl binary64 (-1) (1)), (@finf binary64))) (fun v1 => ret (ieq v1 (@entire binary64)))));
  (1845, (bind (@fma binary64 ((@fminf binary64), (fl binary64 (-3) (0))) ((@fminf binary64), (fl binary64 (-1) (0))) ((fl binary64 (-1) (1)), (@finf binary64))) (fun v1 => ret (ieq v1 ((fl binary64 (1) (0)), (@finf binary64))))));
  (1846, (bind (@fma binary64 ((@fminf binary64), (fl binary64 (-3) (0))) ((@fminf binary64), (fl binary64 (3) (0))) ((fl binary64 (-1) (1)), (@finf binary64))) (fun v1 => ret (ieq v1 (@entire binary64)))));
  (1847, (bind (@fma binary64 ((@fminf binary64), (fl binary64 (-3) (0))) ((fl binary64 (-5) (0)), (@finf binary64)) ((fl binary64 (-1) (1)), (@finf binary64))) (fun v1 => ret (ieq v1 (@entire binary64)))));
  (1848, (bind (@fma binary64 ((@fminf binary64), (fl binary64 (-3) (0))) ((fl binary64 (1) (0)), (@finf binary64)) ((fl binary64 (-1) (1)), (@finf binary64))) (fun v1 => ret (ieq v1 (@entire binary64)))));
  (1849, (bind (@fma binary64 ((@fminf binary64), (fl binary64 (-3) (0))) (@entire binary64) ((fl binary64 (-1) (1)), (@finf binary64))) (fun v1 => ret (ieq v1 (@entire binary64)))));
  (1851, (bind (@fma binary64 ((@f0 binary64), (@f0 binary64)) ((@f0 binary64), (@f0 binary64)) ((fl binary64 (-1) (1)), (@finf binary64))) (fun v1 => ret (ieq v1 ((fl binary64 (-1) (1)), (@finf binary64))))));
  (1852, (bind (@fma binary64 ((@f0 binary64), (@f0 binary64)) ((@fm0 binary64), (@fm0 binary64)) ((fl binary64 (-1) (1)), (@finf binary64))) (fun v1 => ret (ieq v1 ((fl binary64 (-1) (1)), (@finf binary64))))));
  (1853, (bind (@fma binary64 ((@f0 binary64), (@f0 binary64)) ((fl binary64 (-5) (0)), (fl binary64 (-1) (0))) ((fl binary64 (-1) (1)), (@finf binary64))) (fun v1 => ret (ieq v1 ((fl binary64 (-1) (1)), (@finf binary64))))));
  (1854, (bind (@fma binary64 ((@f0 binary64), (@f0 binary64)) ((fl binary64 (-5) (0)), (fl binary64 (3) (0))) ((fl binary64 (-1) (1)), (@finf binary64))) (fun v1 => ret (ieq v1 ((fl binary64 (-1) (1)), (@finf binary64))))));
  (1855, (bind (@fma binary64 ((@f0 binary64), (@f0 binary64)) ((fl binary64 (1) (0)), (fl binary64 (3) (0))) ((fl binary64 (-1) (1)), (@finf binary64))) (fun v1 => ret (ieq v1 ((fl binary64 (-1) (1)), (@finf binary64))))));
  (1856, (bind (@fma binary64 ((@f0 binary64), (@f0 binary64)) ((@fminf binary64), (fl binary64 (-1) (0))) ((fl binary64 (-1) (1)), (@finf binary64))) (fun v1 => ret (ieq v1 ((fl binary64 (-1) (1)), (@finf binary64))))));
  (1857, (bind (@fma binary64 ((@f0 binary64), (@f0 binary64)) ((@fminf binary64), (fl binary64 (3) (0))) ((fl binary64 (-1) (1)), (@finf binary64))) (fun v1 => ret (ieq v1 ((fl binary64 (-1) (1)), (@finf binary64))))));
  (1858, (bind (@fma binary64 ((@f0 binary64), (@f0 binary64)) ((fl binary64 (-5) (0)), (@finf binary64)) ((fl binary64 (-1) (1)), (@finf binary64))) (fun v1 => ret (ieq v1 ((fl binary64 (-1) (1)), (@finf binary64))))));
  (1859, (bind (@fma binary64 ((@f0 binary64), (@f0 binary64)) ((fl binary64 (1) (0)), (@finf binary64)) ((fl binary64 (-1) (1)), (@finf binary64))) (fun v1 => ret (ieq v1 ((fl binary64 (-1) (1)), (@finf binary64))))));
  (1860, (bind (@fma binary64 ((@f0 binary64), (@f0 binary64)) (@entire binary64) ((fl binary64 (-1) (1)), (@finf binary64))) (fun v1 => ret (ieq v1 ((fl binary64 (-1) (1)), (@finf binary64))))));
  (1862, (bind (@fma binary64 ((@fm0 binary64), (@fm0 binary64)) ((@f0 binary64), (@f0 binary64)) ((fl binary64 (-1) (1)), (@finf binary64))) (fun v1 => ret (ieq v1 ((fl binary64 (-1) (1)), (@finf binary64))))));
  (1863, (bind (@fma binary64 ((@fm0 binary64), (@fm0 binary64)) ((@fm0 binary64), (@fm0 binary64)) ((fl binary64 (-1) (1)), (@finf binary64))) (fun v1 => ret (ieq v1 ((fl binary64 (-1) (1)), (@finf binary64))))));
  (1864, (bind (@fma binary64 ((@fm0 binary64), (@fm0 binary64)) ((fl binary64 (-5) (0)), (fl binary64 (-1) (0))) ((fl binary64 (-1) (1)), (@finf binary64))) (fun v1 => ret (ieq v1 ((fl binary64 (-1) (1)), (@finf binary64))))));
  (1865, (bind (@fma binary64 ((@fm0 binary64), (@fm0 binary64)) ((fl binary64 (-5) (0)), (fl binary64 (3) (0))) ((fl binary64 (-1) (1)), (@finf binary64))) (fun v1 => ret (ieq v1 ((fl binary64 (-1) (1)), (@finf binary64))))));
  (1866, (bind (@fma binary64 ((@fm0 binary64), (@fm0 binary64)) ((fl binary64 (1) (0)), (fl binary64 (3) (0))) ((fl binary64 (-1) (1)), (@finf binary64))) (fun v1 => ret (ieq v1 ((fl binary64 (-1) (1)), (@finf binary64))))));
  (1867, (bind (@fma binary64 ((@fm0 binary64), (@fm0 binary64)) ((@fminf binary64), (fl binary64 (-1) (0))) ((fl binary64 (-1) (1)), (@finf binary64))) (fun v1 => ret (ieq v1 ((fl binary64 (-1) (1)), (@finf binary64))))));
  (1868, (bind (@fma binary64 ((@fm0 binary64), (@fm0 binary64)) ((@fminf binary64), (fl binary64 (3) (0))) ((fl binary64 (-1) (1)), (@finf binary64))) (fun v1 => ret (ieq v1 ((fl binary64 (-1) (1)), (@finf binary64))))));
  (1869, (bind (@fma binary64 ((@fm0 binary64), (@fm0 binary64)) ((fl binary64 (-5) (0)), (@finf binary64)) ((fl binary64 (-1) (1)), (@finf binary64))) (fun v1 => ret (ieq v1 ((fl binary64 (-1) (1)), (@finf binary64))))));
  (1870, (bind (@fma binary64 ((@fm0 binary64), (@fm0 binary64)) ((fl binary64 (1) (0)), (@finf binary64)) ((fl binary64 (-1) (1)), (@finf binary64))) (fun v1 => ret (ieq v1 ((fl binary64 (-1) (1)), (@finf binary64))))));
  (1871, (bind (@fma binary64 ((@fm0 binary64), (@fm0 binary64)) (@entire binary64) ((fl binary64 (-1) (1)), (@finf binary64))) (fun v1 => ret (ieq v1 ((fl binary64 (-1) (1)), (@finf binary64))))));
  (1873, (bind (@fma binary64 ((fl binary64 (1) (0)), (fl binary64 (5) (0))) ((@f0 binary64), (@f0 binary64)) ((fl binary64 (-1) (1)), (@finf binary64))) (fun v1 => ret (ieq v1 ((fl binary64 (-1) (1)), (@finf binary64))))));
  (1874, (bind (@fma binary64 ((fl binary64 (1) (0)), (fl binary64 (5) (0))) ((@fm0 binary64), (@fm0 binary64)) ((fl binary64 (-1) (1)), (@finf binary64))) (fun v1 => ret (ieq v1 ((fl binary64 (-1) (1)), (@finf binary64))))));
  (1875, (bind (@fma binary64 ((fl binary64 (1) (0)), (fl binary64 (5) (0))) ((fl binary64 (-5) (0)), (fl binary64 (-1) (0))) ((fl binary64 (-1) (1)), (@finf binary64))) (fun v1 => ret (ieq v1 ((fl binary64 (-27) (0)), (@finf binary64))))));
  (1876, (bind (@fma binary64 ((fl binary64 (1) (0)), (fl binary64 (5) (0))) ((fl binary64 (-5) (0)), (fl binary64 (3) (0))) ((fl binary64 (-1) (1)), (@finf binary64))) (fun v1 => ret (ieq v1 ((fl binary64 (-27) (0)), (@finf binary64))))));
  (1877, (bind (@fma binary64 ((fl binary64 (1) (0)), (fl binary64 (5) (0))) ((fl binary64 (1) (0)), (fl binary64 (3) (0))) ((fl binary64 (-1) (1)), (@finf binary64))) (fun v1 => ret (ieq v1 ((fl binary64 (-1) (0)), (@finf binary64))))));
  (1878, (bind (@fma binary64 ((fl binary64 (1) (0)), (fl binary64 (5) (0))) ((@fminf binary64), (fl binary64 (-1) (0))) ((fl binary64 (-1) (1)), (@finf binary64))) (fun v1 => ret (ieq v1 (@entire binary64)))));
  (1879, (bind (@fma binary64 ((fl binary64 (1) (0)), (fl binary64 (5) (0))) ((@fminf binary64), (fl binary64 (3) (0))) ((fl binary64 (-1) (1)), (@finf binary64))) (fun v1 => ret (ieq v1 (@entire binary64)))));
  (1880, (bind (@fma binary64 ((fl binary64 (1) (0)), (fl binary64 (5) (0))) ((fl binary64 (-5) (0)), (@finf binary64)) ((fl binary64 (-1) (1)), (@finf binary64))) (fun v1 => ret (ieq v1 ((fl binary64 (-27) (0)), (@finf binary64))))));
  (1881, (bind (@fma binary64 ((fl binary64 (1) (0)), (fl binary64 (5) (0))) ((fl binary64 (1) (0)), (@finf binary64)) ((fl binary64 (-1) (1)), (@finf binary64))) (fun v1 => ret (ieq v1 ((fl binary64 (-1) (0)), (@finf binary64))))));
  (1882, (bind (@fma binary64 ((fl binary64 (1) (0)), (fl binary64 (5) (0))) (@entire binary64) ((fl binary64 (-1) (1)), (@finf binary64))) (fun v1 => ret (ieq v1 (@entire binary64)))));
  (1884, (bind (@fma binary64 ((fl binary64 (-1) (0)), (fl binary64 (5) (0))) ((@fm0 binary64), (@fm0 binary64)) ((fl binary64 (-1) (1)), (@finf binary64))) (fun v1 => ret (ieq v1 ((fl binary64 (-1) (1)), (@finf binary64))))));
  (1885, (bind (@fma binary64 ((fl binary64 (-1) (0)), (fl binary64 (5) (0))) ((@f0 binary64), (@f0 binary64)) ((fl binary64 (-1) (1)), (@finf binary64))) (fun v1 => ret (ieq v1 ((fl binary64 (-1) (1)), (@finf binary64))))));
  (1886, (bind (@fma binary64 ((fl binary64 (-1) (0)), (fl binary64 (5) (0))) ((fl binary64 (-5) (0)), (fl binary64 (-1) (0))) ((fl binary64 (-1) (1)), (@finf binary64))) (fun v1 => ret (ieq v1 ((fl binary64 (-27) (0)), (@finf binary64))))));
  (1888, (bind (@fma binary64 ((fl binary64 (-1) (0)), (fl binary64 (5) (0))) ((fl binary64 (-5) (0)), (fl binary64 (3) (0))) ((fl binary64 (-1) (1)), (@finf binary64))) (fun v1 => ret (ieq v1 ((fl binary64 (-27) (0)), (@finf binary64))))));
  (1889, (bind (@fma binary64 ((fl binary64 (-5) (1)), (fl binary64 (1) (1))) ((fl binary64 (-5) (0)), (fl binary64 (3) (0))) ((fl binary64 (-1) (1)), (@finf binary64))) (fun v1 => ret (ieq v1 ((fl binary64 (-1) (5)), (@finf binary64))))));
  (1890, (bind (@fma binary64 ((fl binary64 (-1) (0)), (fl binary64 (5) (0))) ((fl binary64 (-1) (0)), (fl binary64 (5) (1))) ((fl binary64 (-1) (1)), (@finf binary64))) (fun v1 => ret (ieq v1 ((fl binary64 (-3) (2)), (@finf binary64))))));
  (1891, (bind (@fma binary64 ((fl binary64 (-1) (1)), (fl binary64 (1) (1))) ((fl binary64 (-5) (0)), (fl binary64 (3) (0))) ((fl binary64 (-1) (1)), (@finf binary64))) (fun v1 => ret (ieq v1 ((fl binary64 (-3) (2)), (@finf binary64))))));
  (1893, (bind (@fma binary64 ((fl binary64 (-1) (0)), (fl binary64 (5) (0))) ((fl binary64 (1) (0)), (fl binary64 (3) (0))) ((fl binary64 (-1) (1)), (@finf binary64))) (fun v1 => ret (ieq v1 ((fl binary64 (-5) (0)), (@finf binary64))))));
  (1894, (bind (@fma binary64 ((fl binary64 (-1) (0)), (fl binary64 (5) (0))) ((@fminf binary64), (fl binary64 (-1) (0))) ((fl binary64 (-1) (1)), (@finf binary64))) (fun v1 => ret (ieq v1 (@entire binary64)))));
  (1895, (bind (@fma binary64 ((fl binary64 (-1) (0)), (fl binary64 (5) (0))) ((@fminf binary64), (fl binary64 (3) (0))) ((fl binary64 (-1) (1)), (@finf binary64))) (fun v1 => ret (ieq v1 (@entire binary64)))));
  (1896, (bind (@fma binary64 ((fl binary64 (-1) (0)), (fl binary64 (5) (0))) ((fl binary64 (-5) (0)), (@finf binary64)) ((fl binary64 (-1) (1)), (@finf binary64))) (fun v1 => ret (ieq v1 (@entire binary64)))));
  (1897, (bind (@fma binary64 ((fl binary64 (-1) (0)), (fl binary64 (5) (0))) ((fl binary64 (1) (0)), (@finf binary64)) ((fl binary64 (-1) (1)), (@finf binary64))) (fun v1 => ret (ieq v1 (@entire binary64)))));
  (1898, (bind (@fma binary64 ((fl binary64 (-1) (0)), (fl binary64 (5) (0))) (@entire binary64) ((fl binary64 (-1) (1)), (@finf binary64))) (fun v1 => ret (ieq v1 (@entire binary64)))));
  (1900, (bind (@fma binary64 ((fl binary64 (-5) (1)), (fl binary64 (-5) (0))) ((@f0 binary64), (@f0 binary64)) ((fl binary64 (-1) (1)), (@finf binary64))) (fun v1 => ret (ieq v1 ((fl binary64 (-1) (1)), (@finf binary64))))));
  (1901, (bind (@fma binary64 ((fl binary64 (-5) (1)), (fl binary64 (-5) (0))) ((@fm0 binary64), (@fm0 binary64)) ((fl binary64 (-1) (1)), (@finf binary64))) (fun v1 => ret (ieq v1 ((fl binary64 (-1) (1)), (@finf binary64))))));
  (1902, (bind (@fma binary64 ((fl binary64 (-5) (1)), (fl binary64 (-5) (0))) ((fl binary64 (-5) (0)), (fl binary64 (-1) (0))) ((fl binary64 (-1) (1)), (@finf binary64))) (fun v1 => ret (ieq v1 ((fl binary64 (3) (0)), (@finf binary64))))));
  (1903, (bind (@fma binary64 ((fl binary64 (-5) (1)), (fl binary64 (-5) (0))) ((fl binary64 (-5) (0)), (fl binary64 (3) (0))) ((fl binary64 (-1) (1)), (@finf binary64))) (fun v1 => ret (ieq v1 ((fl binary64 (-1) (5)), (@finf binary64))))));
  (1904, (bind (@fma binary64 ((fl binary64 (-5) (1)), (fl binary64 (-5) (0))) ((fl binary64 (1) (0)), (fl binary64 (3) (0))) ((fl binary64 (-1) (1)), (@finf binary64))) (fun v1 => ret (ieq v1 ((fl binary64 (-1) (5)), (@finf binary64))))));
  (1905, (bind (@fma binary64 ((fl binary64 (-5) (1)), (fl binary64 (-5) (0))) ((@fminf binary64), (fl binary64 (-1) (0))) ((fl binary64 (-1) (1)), (@finf binary64))) (fun v1 => ret (ieq v1 ((fl binary64 (3) (0)), (@finf binary64))))));
  (1906, (bind (@fma binary64 ((fl binary64 (-5) (1)), (fl binary64 (-5) (0))) ((@fminf binary64), (fl binary64 (3) (0))) ((fl binary64 (-1) (1)), (@finf binary64))) (fun v1 => ret (ieq v1 ((fl binary64 (-1) (5)), (@finf binary64))))));
  (1907, (bind (@fma binary64 ((fl binary64 (-5) (1)), (fl binary64 (-5) (0))) ((fl binary64 (-5) (0)), (@finf binary64)) ((fl binary64 (-1) (1)), (@finf binary64))) (fun v1 => ret (ieq v1 (@entire binary64)))));
  (1908, (bind (@fma binary64 ((fl binary64 (-5) (1)), (fl binary64 (-5) (0))) ((fl binary64 (1) (0)), (@finf binary64)) ((fl binary64 (-1) (1)), (@finf binary64))) (fun v1 => ret (ieq v1 (@entire binary64)))));
  (1909, (bind (@fma binary64 ((fl binary64 (-5) (1)), (fl binary64 (-5) (0))) (@entire binary64) ((fl binary64 (-1) (1)), (@finf binary64))) (fun v1 => ret (ieq v1 (@entire binary64)))));
  (1913, (bind (@fma binary64 (@empty binary64) (@empty binary64) (@entire binary64)) (fun v1 => @is_empty binary64 v1)));
  (1914, (bind (@fma binary64 ((fl binary64 (-1) (0)), (fl binary64 (1) (0))) (@empty binary64) (@entire binary64)) (fun v1 => @is_empty binary64 v1)));
  (1915, (bind (@fma binary64 (@empty binary64) ((fl binary64 (-1) (0)), (fl binary64 (1) (0))) (@entire binary64)) (fun v1 => @is_empty binary64 v1)));
  (1916, (bind (@fma binary64 (@empty binary64) (@entire binary64) (@entire binary64)) (fun v1 => @is_empty binary64 v1)));
  (1917, (bind (@fma binary64 (@entire binary64) (@empty binary64) (@entire binary64)) (fun v1 => @is_empty binary64 v1)));
  (1918, (bind (@fma binary64 ((@f0 binary64), (@f0 binary64)) (@empty binary64) (@entire binary64)) (fun v1 => @is_empty binary64 v1)));
  (1919, (bind (@fma binary64 ((@fm0 binary64), (@fm0 binary64)) (@empty binary64) (@entire binary64)) (fun v1 => @is_empty binary64 v1)));
  (1920, (bind (@fma binary64 (@empty binary64) ((@f0 binary64), (@f0 binary64)) (@entire binary64)) (fun v1 => @is_empty binary64 v1)));
  (1921, (bind (@fma binary64 (@empty binary64) ((@fm0 binary64), (@fm0 binary64)) (@entire binary64)) (fun v1 => @is_empty binary64 v1)));
  (1923, (bind (@fma binary64 (@entire binary64) ((@f0 binary64), (@f0 binary64)) (@entire binary64)) (fun v1 => ret (ieq v1 (@entire binary64)))));
  (1924, (bind (@fma binary64 (@entire binary64) ((@fm0 binary64), (@fm0 binary64)) (@entire binary64)) (fun v1 => ret (ieq v1 (@entire binary64)))));
  (1925, (bind (@fma binary64 (@entire binary64) ((fl binary64 (-5) (0)), (fl binary64 (-1) (0))) (@entire binary64)) (fun v1 => ret (ieq v1 (@entire binary64)))));
  (1926, (bind (@fma binary64 (@entire binary64) ((fl binary64 (-5) (0)), (fl binary64 (3) (0))) (@entire binary64)) (fun v1 => ret (ieq v1 (@entire binary64)))));
  (1927, (bind (@fma binary64 (@entire binary64) ((fl binary64 (1) (0)), (fl binary64 (3) (0))) (@entire binary64)) (fun v1 => ret (ieq v1 (@entire binary64)))));
  (1928, (bind (@fma binary64 (@entire binary64) ((@fminf binary64), (fl binary64 (-1) (0))) (@entire binary64)) (fun v1 => ret (ieq v1 (@entire binary64)))));
  (1929, (bind (@fma binary64 (@entire binary64) ((@fminf binary64), (fl binary64 (3) (0))) (@entire binary64)) (fun v1 => ret (ieq v1 (@entire binary64)))));
  (1930, (bind (@fma binary64 (@entire binary64) ((fl binary64 (-5) (0)), (@finf binary64)) (@entire binary64)) (fun v1 => ret (ieq v1 (@entire binary64)))));
  (1931, (bind (@fma binary64 (@entire binary64) ((fl binary64 (1) (0)), (@finf binary64)) (@entire binary64)) (fun v1 => ret (ieq v1 (@entire binary64)))));
  (1932, (bind (@fma binary64 (@entire binary64) (@entire binary64) (@entire binary64)) (fun v1 => ret (ieq v1 (@entire binary64)))));
  (1934, (bind (@fma binary64 ((fl binary64 (1) (0)), (@finf binary64)) ((@f0 binary64), (@f0 binary64)) (@entire binary64)) (fun v1 => ret (ieq v1 (@entire binary64)))));
  (1935, (bind (@fma binary64 ((fl binary64 (1) (0)), (@finf binary64)) ((@fm0 binary64), (@fm0 binary64)) (@entire binary64)) (fun v1 => ret (ieq v1 (@entire binary64)))));
  (1936, (bind (@fma binary64 ((fl binary64 (1) (0)), (@finf binary64)) ((fl binary64 (-5) (0)), (fl binary64 (-1) (0))) (@entire binary64)) (fun v1 => ret (ieq v1 (@entire binary64)))));
  (1937, (bind (@fma binary64 ((fl binary64 (1) (0)), (@finf binary64)) ((fl binary64 (-5) (0)), (fl binary64 (3) (0))) (@entire binary64)) (fun v1 => ret (ieq v1 (@entire binary64)))));
  (1938, (bind (@fma binary64 ((fl binary64 (1) (0)), (@finf binary64)) ((fl binary64 (1) (0)), (fl binary64 (3) (0))) (@entire binary64)) (fun v1 => ret (ieq v1 (@entire binary64)))));
  (1939, (bind (@fma binary64 ((fl binary64 (1) (0)), (@finf binary64)) ((@fminf binary64), (fl binary64 (-1) (0))) (@entire binary64)) (fun v1 => ret (ieq v1 (@entire binary64)))));
  (1940, (bind (@fma binary64 ((fl binary64 (1) (0)), (@finf binary64)) ((@fminf binary64), (fl binary64 (3) (0))) (@entire binary64)) (fun v1 => ret (ieq v1 (@entire binary64)))));
  (1941, (bind (@fma binary64 ((fl binary64 (1) (0)), (@finf binary64)) ((fl binary64 (-5) (0)), (@finf binary64)) (@entire binary64)) (fun v1 => ret (ieq v1 (@entire binary64)))));
  (1942, (bind (@fma binary64 ((fl binary64 (1) (0)), (@finf binary64)) ((fl binary64 (1) (0)), (@finf binary64)) (@entire binary64)) (fun v1 => ret (ieq v1 (@entire binary64)))));
  (1943, (bind (@fma binary64 ((fl binary64 (1) (0)), (@finf binary64)) (@entire binary64) (@entire binary64)) (fun v1 => ret (ieq v1 (@entire binary64)))));
  (1945, (bind (@fma binary64 ((fl binary64 (-1) (0)), (@finf binary64)) ((@f0 binary64), (@f0 binary64)) (@entire binary64)) (fun v1 => ret (ieq v1 (@entire binary64)))));
  (1946, (bind (@fma binary64 ((fl binary64 (-1) (0)), (@finf binary64)) ((@fm0 binary64), (@fm0 binary64)) (@entire binary64)) (fun v1 => ret (ieq v1 (@entire binary64)))));
  (1947, (bind (@fma binary64 ((fl binary64 (-1) (0)), (@finf binary64)) ((fl binary64 (-5) (0)), (fl binary64 (-1) (0))) (@entire binary64)) (fun v1 => ret (ieq v1 (@entire binary64)))));
  (1948, (bind (@fma binary64 ((fl binary64 (-1) (0)), (@finf binary64)) ((fl binary64 (-5) (0)), (fl binary64 (3) (0))) (@entire binary64)) (fun v1 => ret (ieq v1 (@entire binary64)))));
  (1949, (bind (@fma binary64 ((fl binary64 (-1) (0)), (@finf binary64)) ((fl binary64 (1) (0)), (fl binary64 (3) (0))) (@entire binary64)) (fun v1 => ret (ieq v1 (@entire binary64)))));
  (1950, (bind (@fma binary64 ((fl binary64 (-1) (0)), (@finf binary64)) ((@fminf binary64), (fl binary64 (-1) (0))) (@entire binary64)) (fun v1 => ret (ieq v1 (@entire binary64)))));
  (1951, (bind (@fma binary64 ((fl binary64 (-1) (0)), (@finf binary64)) ((@fminf binary64), (fl binary64 (3) (0))) (@entire binary64)) (fun v1 => ret (ieq v1 (@entire binary64)))));
  (1952, (bind (@fma binary64 ((fl binary64 (-1) (0)), (@finf binary64)) ((fl binary64 (-5) (0)), (@finf binary64)) (@entire binary64)) (fun v1 => ret (ieq v1 (@entire binary64)))));
  (1953, (bind (@fma binary64 ((fl binary64 (-1) (0)), (@finf binary64)) ((fl binary64 (1) (0)), (@finf binary64)) (@entire binary64)) (fun v1 => ret (ieq v1 (@entire binary64)))));
  (1954, (bind (@fma binary64 ((fl binary64 (-1) (0)), (@finf binary64)) (@entire binary64) (@entire binary64)) (fun v1 => ret (ieq v1 (@entire binary64)))));
  (1956, (bind (@fma binary64 ((@fminf binary64), (fl binary64 (3) (0))) ((@f0 binary64), (@f0 binary64)) (@entire binary64)) (fun v1 => ret (ieq v1 (@entire binary64)))));
  (1957, (bind (@fma binary64 ((@fminf binary64), (fl binary64 (3) (0))) ((@fm0 binary64), (@fm0 binary64)) (@entire binary64)) (fun v1 => ret (ieq v1 (@entire binary64)))));
  (1958, (bind (@fma binary64 ((@fminf binary64), (fl binary64 (3) (0))) ((fl binary64 (-5) (0)), (fl binary64 (-1) (0))) (@entire binary64)) (fun v1 => ret (ieq v1 (@entire binary64)))));
  (1959, (bind (@fma binary64 ((@fminf binary64), (fl binary64 (3) (0))) ((fl binary64 (-5) (0)), (fl binary64 (3) (0))) (@entire binary64)) (fun v1 => ret (ieq v1 (@entire binary64)))));
  (1960, (bind (@fma binary64 ((@fminf binary64), (fl binary64 (3) (0))) ((fl binary64 (1) (0)), (fl binary64 (3) (0))) (@entire binary64)) (fun v1 => ret (ieq v1 (@entire binary64)))));
  (1961, (bind (@fma binary64 ((@fminf binary64), (fl binary64 (3) (0))) ((@fminf binary64), (fl binary64 (-1) (0))) (@entire binary64)) (fun v1 => ret (ieq v1 (@entire binary64)))));
  (1962, (bind (@fma binary64 ((@fminf binary64), (fl binary64 (3) (0))) ((@fminf binary64), (fl binary64 (3) (0))) (@entire binary64)) (fun v1 => ret (ieq v1 (@entire binary64)))));
  (1963, (bind (@fma binary64 ((@fminf binary64), (fl binary64 (3) (0))) ((fl binary64 (-5) (0)), (@finf binary64)) (@entire binary64)) (fun v1 => ret (ieq v1 (@entire binary64)))));
  (1964, (bind (@fma binary64 ((@fminf binary64), (fl binary64 (3) (0))) ((fl binary64 (1) (0)), (@finf binary64)) (@entire binary64)) (fun v1 => ret (ieq v1 (@entire binary64)))));
  (1965, (bind (@fma binary64 ((@fminf binary64), (fl binary64 (3) (0))) (@entire binary64) (@entire binary64)) (fun v1 => ret (ieq v1 (@entire binary64)))));
  (1967, (bind (@fma binary64 ((@fminf binary64), (fl binary64 (-3) (0))) ((@f0 binary64), (@f0 binary64)) (@entire binary64)) (fun v1 => ret (ieq v1 (@entire binary64)))));
  (1968, (bind (@fma binary64 ((@fminf binary64), (fl binary64 (-3) (0))) ((@fm0 binary64), (@fm0 binary64)) (@entire binary64)) (fun v1 => ret (ieq v1 (@entire binary64)))));
  (1969, (bind (@fma binary64 ((@fminf binary64), (fl binary64 (-3) (0))) ((fl binary64 (-5) (0)), (fl binary64 (-1) (0))) (@entire binary64)) (fun v1 => ret (ieq v1 (@entire binary64)))));
  (1970, (bind (@fma binary64 ((@fminf binary64), (fl binary64 (-3) (0))) ((fl binary64 (-5) (0)), (fl binary64 (3) (0))) (@entire binary64)) (fun v1 => ret (ieq v1 (@entire binary64)))));
  (1971, (bind (@fma binary64 ((@fminf binary64), (fl binary64 (-3) (0))) ((fl binary64 (1) (0)), (fl binary64 (3) (0))) (@entire binary64)) (fun v1 => ret (ieq v1 (@entire binary64)))));
  (1972, (bind (@fma binary64 ((@fminf binary64), (fl binary64 (-3) (0))) ((@fminf binary64), (fl binary64 (-1) (0))) (@entire binary64)) (fun v1 => ret (ieq v1 (@entire binary64)))));
  (1973, (bind (@fma binary64 ((@fminf binary64), (fl binary64 (-3) (0))) ((@fminf binary64), (fl binary64 (3) (0))) (@entire binary64)) (fun v1 => ret (ieq v1 (@entire binary64)))));
  (1974, (bind (@fma binary64 ((@fminf binary64), (fl binary64 (-3) (0))) ((fl binary64 (-5) (0)), (@finf binary64)) (@entire binary64)) (fun v1 => ret (ieq v1 (@entire binary64)))));
  (1975, (bind (@fma binary64 ((@fminf binary64), (fl binary64 (-3) (0))) ((fl binary64 (1) (0)), (@finf binary64)) (@entire binary64)) (fun v1 => ret (ieq v1 (@entire binary64)))));
  (1976, (bind (@fma binary64 ((@fminf binary64), (fl binary64 (-3) (0))) (@entire binary64) (@entire binary64)) (fun v1 => ret (ieq v1 (@entire binary64)))));
  (1978, (bind (@fma binary64 ((@f0 binary64), (@f0 binary64)) ((@f0 binary64), (@f0 binary64)) (@entire binary64)) (fun v1 => ret (ieq v1 (@entire binary64)))));
  (1979, (bind (@fma binary64 ((@f0 binary64), (@f0 binary64)) ((@fm0 binary64), (@fm0 binary64)) (@entire binary64)) (fun v1 => ret (ieq v1 (@entire binary64)))));
  (1980, (bind (@fma binary64 ((@f0 binary64), (@f0 binary64)) ((fl binary64 (-5) (0)), (fl binary64 (-1) (0))) (@entire binary64)) (fun v1 => ret (ieq v1 (@entire binary64)))));
  (1981, (bind (@fma binary64 ((@f0 binary64), (@f0 binary64)) ((fl binary64 (-5) (0)), (fl binary64 (3) (0))) (@entire binary64)) (fun v1 => ret (ieq v1 (@entire binary64)))));
  (1982, (bind (@fma binary64 ((@f0 binary64), (@f0 binary64)) ((fl binary64 (1) (0)), (fl binary64 (3) (0))) (@entire binary64)) (fun v1 => ret (ieq v1 (@entire binary64)))));
  (1983, (bind (@fma binary64 ((@f0 binary64), (@f0 binary64)) ((@fminf binary64), (fl binary64 (-1) (0))) (@entire binary64)) (fun v1 => ret (ieq v1 (@entire binary64)))));
  (1984, (bind (@fma binary64 ((@f0 binary64), (@f0 binary64)) ((@fminf binary64), (fl binary64 (3) (0))) (@entire binary64)) (fun v1 => ret (ieq v1 (@entire binary64)))));
  (1985, (bind (@fma binary64 ((@f0 binary64), (@f0 binary64)) ((fl binary64 (-5) (0)), (@finf binary64)) (@entire binary64)) (fun v1 => ret (ieq v1 (@entire binary64)))));
  (1986, (bind (@fma binary64 ((@f0 binary64), (@f0 binary64)) ((fl binary64 (1) (0)), (@finf binary64)) (@entire binary64)) (fun v1 => ret (ieq v1 (@entire binary64)))));
  (1987, (bind (@fma binary64 ((@f0 binary64), (@f0 binary64)) (@entire binary64) (@entire binary64)) (fun v1 => ret (ieq v1 (@entire binary64)))));
  (1989, (bind (@fma binary64 ((@fm0 binary64), (@fm0 binary64)) ((@f0 binary64), (@f0 binary64)) (@entire binary64)) (fun v1 => ret (ieq v1 (@entire binary64)))));
  (1990, (bind (@fma binary64 ((@fm0 binary64), (@fm0 binary64)) ((@fm0 binary64), (@fm0 binary64)) (@entire binary64)) (fun v1 => ret (ieq v1 (@entire binary64)))));
  (1991, (bind (@fma binary64 ((@fm0 binary64), (@fm0 binary64)) ((fl binary64 (-5) (0)), (fl binary64 (-1) (0))) (@entire binary64)) (fun v1 => ret (ieq v1 (@entire binary64)))));
  (1992, (bind (@fma binary64 ((@fm0 binary64), (@fm0 binary64)) ((fl binary64 (-5) (0)), (fl binary64 (3) (0))) (@entire binary64)) (fun v1 => ret (ieq v1 (@entire binary64)))));
  (1993, (bind (@fma binary64 ((@fm0 binary64), (@fm0 binary64)) ((fl binary64 (1) (0)), (fl binary64 (3) (0))) (@entire binary64)) (fun v1 => ret (ieq v1 (@entire binary64)))));
  (1994, (bind (@fma binary64 ((@fm0 binary64), (@fm0 binary64)) ((@fminf binary64), (fl binary64 (-1) (0))) (@entire binary64)) (fun v1 => ret (ieq v1 (@entire binary64)))));
  (1995, (bind (@fma binary64 ((@fm0 binary64), (@fm0 binary64)) ((@fminf binary64), (fl binary64 (3) (0))) (@entire binary64)) (fun v1 => ret (ieq v1 (@entire binary64)))));
  (1996, (bind (@fma binary64 ((@fm0 binary64), (@fm0 binary64)) ((fl binary64 (-5) (0)), (@finf binary64)) (@entire binary64)) (fun v1 => ret (ieq v1 (@entire binary64)))));
  (1997, (bind (@fma binary64 ((@fm0 binary64), (@fm0 binary64)) ((fl binary64 (1) (0)), (@finf binary64)) (@entire binary64)) (fun v1 => ret (ieq v1 (@entire binary64)))));
  (1998, (bind (@fma binary64 ((@fm0 binary64), (@fm0 binary64)) (@entire binary64) (@entire binary64)) (fun v1 => ret (ieq v1 (@entire binary64)))));
  (2000, (bind (@fma binary64 ((fl binary64 (1) (0)), (fl binary64 (5) (0))) ((@f0 binary64), (@f0 binary64)) (@entire binary64)) (fun v1 => ret (ieq v1 (@entire binary64)))));
  (2001, (bind (@fma binary64 ((fl binary64 (1) (0)), (fl binary64 (5) (0))) ((@fm0 binary64), (@fm0 binary64)) (@entire binary64)) (fun v1 => ret (ieq v1 (@entire binary64)))));
  (2002, (bind (@fma binary64 ((fl binary64 (1) (0)), (fl binary64 (5) (0))) ((fl binary64 (-5) (0)), (fl binary64 (-1) (0))) (@entire binary64)) (fun v1 => ret (ieq v1 (@entire binary64)))));
  (2003, (bind (@fma binary64 ((fl binary64 (1) (0)), (fl binary64 (5) (0))) ((fl binary64 (-5) (0)), (fl binary64 (3) (0))) (@entire binary64)) (fun v1 => ret (ieq v1 (@entire binary64)))));
  (2004, (bind (@fma binary64 ((fl binary64 (1) (0)), (fl binary64 (5) (0))) ((fl binary64 (1) (0)), (fl binary64 (3) (0))) (@entire binary64)) (fun v1 => ret (ieq v1 (@entire binary64)))));
  (2005, (bind (@fma binary64 ((fl binary64 (1) (0)), (fl binary64 (5) (0))) ((@fminf binary64), (fl binary64 (-1) (0))) (@entire binary64)) (fun v1 => ret (ieq v1 (@entire binary64)))));
  (2006, (bind (@fma binary64 ((fl binary64 (1) (0)), (fl binary64 (5) (0))) ((@fminf binary64), (fl binary64 (3) (0))) (@entire binary64)) (fun v1 => ret (ieq v1 (@entire binary64)))));
  (2007, (bind (@fma binary64 ((fl binary64 (1) (0)), (fl binary64 (5) (0))) ((fl binary64 (-5) (0)), (@finf binary64)) (@entire binary64)) (fun v1 => ret (ieq v1 (@entire binary64)))));
  (2008, (bind (@fma binary64 ((fl binary64 (1) (0)), (fl binary64 (5) (0))) ((fl binary64 (1) (0)), (@finf binary64)) (@entire binary64)) (fun v1 => ret (ieq v1 (@entire binary64)))));
  (2009, (bind (@fma binary64 ((fl binary64 (1) (0)), (fl binary64 (5) (0))) (@entire binary64) (@entire binary64)) (fun v1 => ret (ieq v1 (@entire binary64)))));
  (2011, (bind (@fma binary64 ((fl binary64 (-1) (0)), (fl binary64 (5) (0))) ((@f0 binary64), (@f0 binary64)) (@entire binary64)) (fun v1 => ret (ieq v1 (@entire binary64)))));
  (2012, (bind (@fma binary64 ((fl binary64 (-1) (0)), (fl binary64 (5) (0))) ((@fm0 binary64), (@fm0 binary64)) (@entire binary64)) (fun v1 => ret (ieq v1 (@entire binary64)))));
  (2013, (bind (@fma binary64 ((fl binary64 (-1) (0)), (fl binary64 (5) (0))) ((fl binary64 (-5) (0)), (fl binary64 (-1) (0))) (@entire binary64)) (fun v1 => ret (ieq v1 (@entire binary64)))));
  (2015, (bind (@fma binary64 ((fl binary64 (-1) (0)), (fl binary64 (5) (0))) ((fl binary64 (-5) (0)), (fl binary64 (3) (0))) (@entire binary64)) (fun v1 => ret (ieq v1 (@entire binary64)))));
  (2016, (bind (@fma binary64 ((fl binary64 (-5) (1)), (fl binary64 (1) (1))) ((fl binary64 (-5) (0)), (fl binary64 (3) (0))) (@entire binary64)) (fun v1 => ret (ieq v1 (@entire binary64)))));
  (2017, (bind (@fma binary64 ((fl binary64 (-1) (0)), (fl binary64 (5) (0))) ((fl binary64 (-1) (0)), (fl binary64 (5) (1))) (@entire binary64)) (fun v1 => ret (ieq v1 (@entire binary64)))));
  (2018, (bind (@fma binary64 ((fl binary64 (-1) (1)), (fl binary64 (1) (1))) ((fl binary64 (-5) (0)), (fl binary64 (3) (0))) (@entire binary64)) (fun v1 => ret (ieq v1 (@entire binary64)))));
  (2020, (bind (@fma binary64 ((fl binary64 (-1) (0)), (fl binary64 (5) (0))) ((fl binary64 (1) (0)), (fl binary64 (3) (0))) (@entire binary64)) (fun v1 => ret (ieq v1 (@entire binary64)))));
  (2021, (bind (@fma binary64 ((fl binary64 (-1) (0)), (fl binary64 (5) (0))) ((@fminf binary64), (fl binary64 (-1) (0))) (@entire binary64)) (fun v1 => ret (ieq v1 (@entire binary64)))));
  (2022, (bind (@fma binary64 ((fl binary64 (-1) (0)), (fl binary64 (5) (0))) ((@fminf binary64), (fl binary64 (3) (0))) (@entire binary64)) (fun v1 => ret (ieq v1 (@entire binary64)))));
  (2023, (bind (@fma binary64 ((fl binary64 (-1) (0)), (fl binary64 (5) (0))) ((fl binary64 (-5) (0)), (@finf binary64)) (@entire binary64)) (fun v1 => ret (ieq v1 (@entire binary64)))));
  (2024, (bind (@fma binary64 ((fl binary64 (-1) (0)), (fl binary64 (5) (0))) ((fl binary64 (1) (0)), (@finf binary64)) (@entire binary64)) (fun v1 => ret (ieq v1 (@entire binary64)))));
  (2025, (bind (@fma binary64 ((fl binary64 (-1) (0)), (fl binary64 (5) (0))) (@entire binary64) (@entire binary64)) (fun v1 => ret (ieq v1 (@entire binary64)))));
  (2027, (bind (@fma binary64 ((fl binary64 (-5) (1)), (fl binary64 (-5) (0))) ((@f0 binary64), (@f0 binary64)) (@entire binary64)) (fun v1 => ret (ieq v1 (@entire binary64)))));
  (2028, (bind (@fma binary64 ((fl binary64 (-5) (1)), (fl binary64 (-5) (0))) ((@fm0 binary64), (@fm0 binary64)) (@entire binary64)) (fun v1 => ret (ieq v1 (@entire binary64)))));
  (2029, (bind (@fma binary64 ((fl binary64 (-5) (1)), (fl binary64 (-5) (0))) ((fl binary64 (-5) (0)), (fl binary64 (-1) (0))) (@entire binary64)) (fun v1 => ret (ieq v1 (@entire binary64)))));
  (2030, (bind (@fma binary64 ((fl binary64 (-5) (1)), (fl binary64 (-5) (0))) ((fl binary64 (-5) (0)), (fl binary64 (3) (0))) (@entire binary64)) (fun v1 => ret (ieq v1 (@entire binary64)))));
  (2031, (bind (@fma binary64 ((fl binary64 (-5) (1)), (fl binary64 (-5) (0))) ((fl binary64 (1) (0)), (fl binary64 (3) (0))) (@entire binary64)) (fun v1 => ret (ieq v1 (@entire binary64)))));
  (2032, (bind (@fma binary64 ((fl binary64 (-5) (1)), (fl binary64 (-5) (0))) ((@fminf binary64), (fl binary64 (-1) (0))) (@entire binary64)) (fun v1 => ret (ieq v1 (@entire binary64)))));
  (2033, (bind (@fma binary64 ((fl binary64 (-5) (1)), (fl binary64 (-5) (0))) ((@fminf binary64), (fl binary64 (3) (0))) (@entire binary64)) (fun v1 => ret (ieq v1 (@entire binary64)))));
  (2034, (bind (@fma binary64 ((fl binary64 (-5) (1)), (fl binary64 (-5) (0))) ((fl binary64 (-5) (0)), (@finf binary64)) (@entire binary64)) (fun v1 => ret (ieq v1 (@entire binary64)))));
  (2035, (bind (@fma binary64 ((fl binary64 (-5) (1)), (fl binary64 (-5) (0))) ((fl binary64 (1) (0)), (@finf binary64)) (@entire binary64)) (fun v1 => ret (ieq v1 (@entire binary64)))));
  (2036, (bind (@fma binary64 ((fl binary64 (-5) (1)), (fl binary64 (-5) (0))) (@entire binary64) (@entire binary64)) (fun v1 => ret (ieq v1 (@entire binary64)))));
  (2039, (bind (@fma binary64 ((fl binary64 (3602879701896397) (-55)), (fl binary64 (1) (-1))) ((fl binary64 (-5) (0)), (fl binary64 (3) (0))) ((fl binary64 (-3602879701896397) (-55)), (fl binary64 (3602879701896397) (-55)))) (fun v1 => ret (ieq v1 ((fl binary64 (-5854679515581645) (-51)), (fl binary64 (3602879701896397) (-51)))))));
  (2040, (bind (@fma binary64 ((fl binary64 (-1) (-1)), (fl binary64 (3602879701896397) (-54))) ((fl binary64 (-5) (0)), (fl binary64 (3) (0))) ((fl binary64 (-3602879701896397) (-55)), (fl binary64 (3602879701896397) (-55)))) (fun v1 => ret (ieq v1 ((fl binary64 (-3602879701896397) (-51)), (fl binary64 (5854679515581645) (-51)))))));
  (2041, (bind (@fma binary64 ((fl binary64 (-1) (-1)), (fl binary64 (-3602879701896397) (-55))) ((fl binary64 (1) (1)), (fl binary64 (3) (0))) ((fl binary64 (-3602879701896397) (-55)), (fl binary64 (3602879701896397) (-55)))) (fun v1 => ret (ieq v1 ((fl binary64 (-3602879701896397) (-51)), (fl binary64 (-3602879701896397) (-55)))))));
  (2042, (bind (@fma binary64 ((fl binary64 (-1) (-1)), (fl binary64 (-3602879701896397) (-55))) ((@fminf binary64), (fl binary64 (3) (0))) ((fl binary64 (-3602879701896397) (-55)), (fl binary64 (3602879701896397) (-55)))) (fun v1 => ret (ieq v1 ((fl binary64 (-3602879701896397) (-51)), (@finf binary64))))));
  (2044, (bind get_flags (fun v1 => ret (N.eqb v1 none_bit))));
  (2046, clear_flags);
  (2047, (bind (@fma binary64 ((@f0 binary64), (fl binary64 (-15) (1))) ((@f0 binary64), (@f0 binary64)) ((fl binary64 (-1) (1)), (@finf binary64))) (fun v1 => @is_empty binary64 v1)));
  (2048, (bind get_flags (fun v1 => ret (N.eqb v1 invalid_operand_bit))));
  (2049, clear_flags);
  (2050, (set_cwd invalid_operand_bit));
  (2051, (throws (@fma binary64 ((@f0 binary64), (@f0 binary64)) ((fl binary64 (5) (0)), (@f0 binary64)) ((fl binary64 (-1) (1)), (@finf binary64))) Invalid_operand_exception));
  (2052, (bind get_flags (fun v1 => ret (N.eqb v1 invalid_operand_bit))));
  (2053, clear_flags);
  (2054, (set_cwd none_bit))].

(** lines 2057-2073 *)
Definition minimal_fma_mixedtype_test : list (N * M bool) := [
  (2059, (bind (@fma_mixed binary32 binary64 binary64 binary64 ((fl binary64 (3602879701896397) (-55)), (fl binary64 (1) (-1))) ((fl binary64 (-5) (0)), (fl binary64 (3) (0))) ((fl binary64 (-3602879701896397) (-55)), (fl binary64 (3602879701896397) (-55)))) (fun v1 => ret (ieq v1 ((fl binary32 (-10905191) (-22)), (fl binary32 (13421773) (-23)))))));
  (2060, (bind (@fma_mixed binary64 binary32 binary64 binary64 ((fl binary32 (-1) (-1)), (fl binary32 (-13421773) (-27))) ((@fminf binary64), (fl binary64 (3) (0))) ((fl binary64 (-3602879701896397) (-55)), (fl binary64 (3602879701896397) (-55)))) (fun v1 => ret (ieq v1 ((fl binary64 (-3602879701896397) (-51)), (@finf binary64))))));
  (2062, (bind get_flags (fun v1 => ret (N.eqb v1 none_bit))));
  (2064, clear_flags);
  (2065, (bind (@fma_mixed binary32 binary64 binary64 binary64 ((@f0 binary64), (fl binary64 (-15) (1))) ((@f0 binary64), (@f0 binary64)) ((fl binary64 (-1) (1)), (@finf binary64))) (fun v1 => @is_empty binary32 v1)));
  (2066, (bind get_flags (fun v1 => ret (N.eqb v1 invalid_operand_bit))));
  (2067, clear_flags);
  (2068, (set_cwd invalid_operand_bit));
  (2069, (throws (@fma_mixed binary64 binary32 binary32 binary32 ((@f0 binary32), (@f0 binary32)) ((fl binary32 (5) (0)), (@f0 binary32)) ((fl binary32 (-1) (1)), (@finf binary32))) Invalid_operand_exception));
  (2070, (bind get_flags (fun v1 => ret (N.eqb v1 invalid_operand_bit))));
  (2071, clear_flags);
  (2072, (set_cwd none_bit))].

(** lines 2075-2093 *)
Definition minimal_fma_dec_test : list (N * M bool) := [
  (2077, (bind (@fma_dec binary64 (((fl binary64 (-1) (-1)), (fl binary64 (-3602879701896397) (-55))), com) (((@fminf binary64), (fl binary64 (3) (0))), dac) (((fl binary64 (-3602879701896397) (-55)), (fl binary64 (3602879701896397) (-55))), com)) (fun v1 => ret (dieq v1 (((fl binary64 (-3602879701896397) (-51)), (@finf binary64)), dac)))));
  (2078, (bind (@fma_dec binary64 (((fl binary64 (1) (0)), (fl binary64 (1) (1))), com) (((fl binary64 (1) (0)), (fl binary64 (9007199254740991) (971))), com) (((@f0 binary64), (fl binary64 (1) (0))), com)) (fun v1 => ret (dieq v1 (((fl binary64 (1) (0)), (@finf binary64)), dac)))));
  (2079, (bind (@fma_dec binary64 (((fl binary64 (1) (0)), (fl binary64 (1) (1))), com) (((fl binary64 (1) (0)), (fl binary64 (1) (1))), com) (((fl binary64 (1) (1)), (fl binary64 (5) (0))), com)) (fun v1 => ret (dieq v1 (((fl binary64 (3) (0)), (fl binary64 (9) (0))), com)))));
  (2082, (bind get_flags (fun v1 => ret (N.eqb v1 none_bit))));
  (2084, clear_flags);
  (2085, (bind (@fma_dec binary64 (((@f0 binary64), (fl binary64 (-15) (1))), trv) (((@f0 binary64), (@f0 binary64)), trv) (((fl binary64 (-1) (1)), (@finf binary64)), trv)) (fun v1 => @is_nai binary64 v1)));
  (2086, (bind get_flags (fun v1 => ret (N.eqb v1 invalid_operand_bit))));
  (2087, clear_flags);
  (2088, (set_cwd invalid_operand_bit));
  (2089, (throws (@fma_dec binary64 (((@f0 binary64), (@f0 binary64)), trv) (((fl binary64 (5) (0)), (@f0 binary64)), trv) (((fl binary64 (-1) (1)), (@finf binary64)), trv)) Invalid_operand_exception));
  (2090, (bind get_flags (fun v1 => ret (N.eqb v1 invalid_operand_bit))));
  (2091, clear_flags);
  (2092, (set_cwd none_bit))].

(** lines 2095-2111 *)
Definition minimal_fma_dec_mixedtype_test : list (N * M bool) := [
  (2097, (bind (@fma_dec_mixed binary32 binary64 binary64 binary64 (((fl binary64 (3602879701896397) (-55)), (fl binary64 (1) (-1))), com) (((fl binary64 (-5) (0)), (fl binary64 (3) (0))), dac) (((fl binary64 (-3602879701896397) (-55)), (fl binary64 (3602879701896397) (-55))), def)) (fun v1 => ret (dieq v1 (((fl binary32 (-10905191) (-22)), (fl binary32 (13421773) (-23))), def)))));
  (2098, (bind (@fma_dec_mixed binary64 binary32 binary64 binary64 (((fl binary32 (-1) (-1)), (fl binary32 (-13421773) (-27))), com) (((@fminf binary64), (fl binary64 (3) (0))), dac) (((fl binary64 (-3602879701896397) (-55)), (fl binary64 (3602879701896397) (-55))), com)) (fun v1 => ret (dieq v1 (((fl binary64 (-3602879701896397) (-51)), (@finf binary64)), dac)))));
  (2100, (bind get_flags (fun v1 => ret (N.eqb v1 none_bit))));
  (2102, clear_flags);
  (2103, (bind (@fma_dec_mixed binary32 binary64 binary64 binary64 (((@f0 binary64), (fl binary64 (-15) (1))), trv) (((@f0 binary64), (@f0 binary64)), trv) (((fl binary64 (-1) (1)), (@finf binary64)), trv)) (fun v1 => @is_nai binary32 v1)));
  (2104, (bind get_flags (fun v1 => ret (N.eqb v1 invalid_operand_bit))));
  (2105, clear_flags);
  (2106, (set_cwd invalid_operand_bit));
  (2107, (throws (@fma_dec_mixed binary64 binary32 binary32 binary32 (((@f0 binary32), (@f0 binary32)), trv) (((fl binary32 (5) (0)), (@f0 binary32)), trv) (((fl binary32 (-1) (1)), (@finf binary32)), trv)) Invalid_operand_exception));
  (2108, (bind get_flags (fun v1 => ret (N.eqb v1 invalid_operand_bit))));
  (2109, clear_flags);
  (2110, (set_cwd none_bit))].

(** lines 2116-2318 *)
Definition minimal_pown_test : list (N * M bool) := [
  (2309, clear_flags);
  (2312, clear_flags);
  (2313, (set_cwd invalid_operand_bit));
  (2316, clear_flags);
  (2317, (set_cwd none_bit))].

(** lines 2320-2339 *)
Definition minimal_pown_mixedtype_test : list (N * M bool) := [
  (2330, clear_flags);
  (2333, clear_flags);
  (2334, (set_cwd invalid_operand_bit));
  (2337, clear_flags);
  (2338, (set_cwd none_bit))].

(** lines 2341-2367 *)
Definition minimal_pown_dec_test : list (N * M bool) := [
  (2358, clear_flags);
  (2361, clear_flags);
  (2362, (set_cwd invalid_operand_bit));
  (2365, clear_flags);
  (2366, (set_cwd none_bit))].

(** lines 2369-2387 *)
Definition minimal_pown_dec_mixedtype_test : list (N * M bool) := [
  (2378, clear_flags);
  (2381, clear_flags);
  (2382, (set_cwd invalid_operand_bit));
  (2385, clear_flags);
  (2386, (set_cwd none_bit))].

(** lines 2392-3804 *)
Definition minimal_pow_test : list (N * M bool) := [
  (3795, clear_flags);
  (3798, clear_flags);
  (3799, (set_cwd invalid_operand_bit));
  (3802, clear_flags);
  (3803, (set_cwd none_bit))].

(** lines 3806-3879 *)
Definition minimal_pow_mixedtype_test : list (N * M bool) := [
  (3870, clear_flags);
  (3873, clear_flags);
  (3874, (set_cwd invalid_operand_bit));
  (3877, clear_flags);
  (3878, (set_cwd none_bit))].

(** lines 3881-4001 *)
Definition minimal_pow_dec_test : list (N * M bool) := [
  (3992, clear_flags);
  (3995, clear_flags);
  (3996, (set_cwd invalid_operand_bit));
  (3999, clear_flags);
  (4000, (set_cwd none_bit))].

(** lines 4003-4076 *)
Definition minimal_pow_dec_mixedtype_test : list (N * M bool) := [
  (4067, clear_flags);
  (4070, clear_flags);
  (4071, (set_cwd invalid_operand_bit));
  (4074, clear_flags);
  (4075, (set_cwd none_bit))].

(** lines 4081-4119 *)
Definition minimal_exp_test : list (N * M bool) := [
  (4110, clear_flags);
  (4113, clear_flags);
  (4114, (set_cwd invalid_operand_bit));
  (4117, clear_flags);
  (4118, (set_cwd none_bit))].

(** lines 4121-4137 *)
Definition minimal_exp_mixedtype_test : list (N * M bool) := [
  (4128, clear_flags);
  (4131, clear_flags);
  (4132, (set_cwd invalid_operand_bit));
  (4135, clear_flags);
  (4136, (set_cwd none_bit))].

(** lines 4139-4156 *)
Definition minimal_exp_dec_test : list (N * M bool) := [
  (4147, clear_flags);
  (4150, clear_flags);
  (4151, (set_cwd invalid_operand_bit));
  (4154, clear_flags);
  (4155, (set_cwd none_bit))].

(** lines 4158-4174 *)
Definition minimal_exp_dec_mixedtype_test : list (N * M bool) := [
  (4165, clear_flags);
  (4168, clear_flags);
  (4169, (set_cwd invalid_operand_bit));
  (4172, clear_flags);
  (4173, (set_cwd none_bit))].

(** lines 4179-4216 *)
Definition minimal_exp2_test : list (N * M bool) := [
  (4207, clear_flags);
  (4210, clear_flags);
  (4211, (set_cwd invalid_operand_bit));
  (4214, clear_flags);
  (4215, (set_cwd none_bit))].

(** lines 4218-4234 *)
Definition minimal_exp2_mixedtype_test : list (N * M bool) := [
  (4225, clear_flags);
  (4228, clear_flags);
  (4229, (set_cwd invalid_operand_bit));
  (4232, clear_flags);
  (4233, (set_cwd none_bit))].

(** lines 4236-4253 *)
Definition minimal_exp2_dec_test : list (N * M bool) := [
  (4244, clear_flags);
  (4247, clear_flags);
  (4248, (set_cwd invalid_operand_bit));
  (4251, clear_flags);
  (4252, (set_cwd none_bit))].

(** lines 4255-4271 *)
Definition minimal_exp2_dec_mixedtype_test : list (N * M bool) := [
  (4262, clear_flags);
  (4265, clear_flags);
  (4266, (set_cwd invalid_operand_bit));
  (4269, clear_flags);
  (4270, (set_cwd none_bit))].

(** lines 4276-4315 *)
Definition minimal_exp10_test : list (N * M bool) := [
  (4306, clear_flags);
  (4309, clear_flags);
  (4310, (set_cwd invalid_operand_bit));
  (4313, clear_flags);
  (4314, (set_cwd none_bit))].

(** lines 4317-4333 *)
Definition minimal_exp10_mixedtype_test : list (N * M bool) := [
  (4324, clear_flags);
  (4327, clear_flags);
  (4328, (set_cwd invalid_operand_bit));
  (4331, clear_flags);
  (4332, (set_cwd none_bit))].

(** lines 4335-4352 *)
Definition minimal_exp10_dec_test : list (N * M bool) := [
  (4343, clear_flags);
  (4346, clear_flags);
  (4347, (set_cwd invalid_operand_bit));
  (4350, clear_flags);
  (4351, (set_cwd none_bit))].

(** lines 4354-4370 *)
Definition minimal_exp10_dec_mixedtype_test : list (N * M bool) := [
  (4361, clear_flags);
  (4364, clear_flags);
  (4365, (set_cwd invalid_operand_bit));
  (4368, clear_flags);
  (4369, (set_cwd none_bit))].

(** lines 4375-4417 *)
Definition minimal_log_test : list (N * M bool) := [
  (4408, clear_flags);
  (4411, clear_flags);
  (4412, (set_cwd invalid_operand_bit));
  (4415, clear_flags);
  (4416, (set_cwd none_bit))].

(** lines 4419-4436 *)
Definition minimal_log_mixedtype_test : list (N * M bool) := [
  (4427, clear_flags);
  (4430, clear_flags);
  (4431, (set_cwd invalid_operand_bit));
  (4434, clear_flags);
  (4435, (set_cwd none_bit))].

(** lines 4438-4455 *)
Definition minimal_log_dec_test : list (N * M bool) := [
  (4446, clear_flags);
  (4449, clear_flags);
  (4450, (set_cwd invalid_operand_bit));
  (4453, clear_flags);
  (4454, (set_cwd none_bit))].

(** lines 4457-4473 *)
Definition minimal_log_dec_mixedtype_test : list (N * M bool) := [
  (4464, clear_flags);
  (4467, clear_flags);
  (4468, (set_cwd invalid_operand_bit));
  (4471, clear_flags);
  (4472, (set_cwd none_bit))].

(** lines 4478-4515 *)
Definition minimal_log2_test : list (N * M bool) := [
  (4506, clear_flags);
  (4509, clear_flags);
  (4510, (set_cwd invalid_operand_bit));
  (4513, clear_flags);
  (4514, (set_cwd none_bit))].

(** lines 4517-4533 *)
Definition minimal_log2_mixedtype_test : list (N * M bool) := [
  (4524, clear_flags);
  (4527, clear_flags);
  (4528, (set_cwd invalid_operand_bit));
  (4531, clear_flags);
  (4532, (set_cwd none_bit))].

(** lines 4535-4553 *)
Definition minimal_log2_dec_test : list (N * M bool) := [
  (4544, clear_flags);
  (4547, clear_flags);
  (4548, (set_cwd invalid_operand_bit));
  (4551, clear_flags);
  (4552, (set_cwd none_bit))].

(** lines 4555-4571 *)
Definition minimal_log2_dec_mixedtype_test : list (N * M bool) := [
  (4562, clear_flags);
  (4565, clear_flags);
  (4566, (set_cwd invalid_operand_bit));
  (4569, clear_flags);
  (4570, (set_cwd none_bit))].

(** lines 4577-4615 *)
Definition minimal_log10_test : list (N * M bool) := [
  (4606, clear_flags);
  (4609, clear_flags);
  (4610, (set_cwd invalid_operand_bit));
  (4613, clear_flags);
  (4614, (set_cwd none_bit))].

(** lines 4617-4633 *)
Definition minimal_log10_mixedtype_test : list (N * M bool) := [
  (4624, clear_flags);
  (4627, clear_flags);
  (4628, (set_cwd invalid_operand_bit));
  (4631, clear_flags);
  (4632, (set_cwd none_bit))].

(** lines 4635-4651 *)
Definition minimal_log10_dec_test : list (N * M bool) := [
  (4642, clear_flags);
  (4645, clear_flags);
  (4646, (set_cwd invalid_operand_bit));
  (4649, clear_flags);
  (4650, (set_cwd none_bit))].

(** lines 4653-4669 *)
Definition minimal_log10_dec_mixedtype_test : list (N * M bool) := [
  (4660, clear_flags);
  (4663, clear_flags);
  (4664, (set_cwd invalid_operand_bit));
  (4667, clear_flags);
  (4668, (set_cwd none_bit))].

(** lines 4673-4748 *)
Definition minimal_sin_test : list (N * M bool) := [
  (4739, clear_flags);
  (4742, clear_flags);
  (4743, (set_cwd invalid_operand_bit));
  (4746, clear_flags);
  (4747, (set_cwd none_bit))].

(** lines 4750-4766 *)
Definition minimal_sin_mixedtype_test : list (N * M bool) := [
  (4757, clear_flags);
  (4760, clear_flags);
  (4761, (set_cwd invalid_operand_bit));
  (4764, clear_flags);
  (4765, (set_cwd none_bit))].

(** lines 4768-4785 *)
Definition minimal_sin_dec_test : list (N * M bool) := [
  (4776, clear_flags);
  (4779, clear_flags);
  (4780, (set_cwd invalid_operand_bit));
  (4783, clear_flags);
  (4784, (set_cwd none_bit))].

(** lines 4787-4804 *)
Definition minimal_sin_dec_mixedtype_test : list (N * M bool) := [
  (4795, clear_flags);
  (4798, clear_flags);
  (4799, (set_cwd invalid_operand_bit));
  (4802, clear_flags);
  (4803, (set_cwd none_bit))].

(** lines 4809-4884 *)
Definition minimal_cos_test : list (N * M bool) := [
  (4875, clear_flags);
  (4878, clear_flags);
  (4879, (set_cwd invalid_operand_bit));
  (4882, clear_flags);
  (4883, (set_cwd none_bit))].

(** lines 4886-4903 *)
Definition minimal_cos_mixedtype_test : list (N * M bool) := [
  (4894, clear_flags);
  (4897, clear_flags);
  (4898, (set_cwd invalid_operand_bit));
  (4901, clear_flags);
  (4902, (set_cwd none_bit))].

(** lines 4905-4922 *)
Definition minimal_cos_dec_test : list (N * M bool) := [
  (4913, clear_flags);
  (4916, clear_flags);
  (4917, (set_cwd invalid_operand_bit));
  (4920, clear_flags);
  (4921, (set_cwd none_bit))].

(** lines 4924-4941 *)
Definition minimal_cos_dec_mixedtype_test : list (N * M bool) := [
  (4932, clear_flags);
  (4935, clear_flags);
  (4936, (set_cwd invalid_operand_bit));
  (4939, clear_flags);
  (4940, (set_cwd none_bit))].

(** lines 4946-5000 *)
Definition minimal_tan_test : list (N * M bool) := [
  (4991, clear_flags);
  (4994, clear_flags);
  (4995, (set_cwd invalid_operand_bit));
  (4998, clear_flags);
  (4999, (set_cwd none_bit))].

(** lines 5002-5018 *)
Definition minimal_tan_mixedtype_test : list (N * M bool) := [
  (5009, clear_flags);
  (5012, clear_flags);
  (5013, (set_cwd invalid_operand_bit));
  (5016, clear_flags);
  (5017, (set_cwd none_bit))].

(** lines 5020-5074 *)
Definition minimal_tan_dec_test : list (N * M bool) := [
  (5065, clear_flags);
  (5068, clear_flags);
  (5069, (set_cwd invalid_operand_bit));
  (5072, clear_flags);
  (5073, (set_cwd none_bit))].

(** lines 5076-5093 *)
Definition minimal_tan_dec_mixedtype_test : list (N * M bool) := [
  (5084, clear_flags);
  (5087, clear_flags);
  (5088, (set_cwd invalid_operand_bit));
  (5091, clear_flags);
  (5092, (set_cwd none_bit))].

(** lines 5098-5131 *)
Definition minimal_asin_test : list (N * M bool) := [
  (5122, clear_flags);
  (5125, clear_flags);
  (5126, (set_cwd invalid_operand_bit));
  (5129, clear_flags);
  (5130, (set_cwd none_bit))].

(** lines 5133-5150 *)
Definition minimal_asin_mixedtype_test : list (N * M bool) := [
  (5141, clear_flags);
  (5144, clear_flags);
  (5145, (set_cwd invalid_operand_bit));
  (5148, clear_flags);
  (5149, (set_cwd none_bit))].

(** lines 5152-5172 *)
Definition minimal_asin_dec_test : list (N * M bool) := [
  (5163, clear_flags);
  (5166, clear_flags);
  (5167, (set_cwd invalid_operand_bit));
  (5170, clear_flags);
  (5171, (set_cwd none_bit))].

(** lines 5174-5191 *)
Definition minimal_asin_dec_mixedtype_test : list (N * M bool) := [
  (5182, clear_flags);
  (5185, clear_flags);
  (5186, (set_cwd invalid_operand_bit));
  (5189, clear_flags);
  (5190, (set_cwd none_bit))].

(** lines 5196-5229 *)
Definition minimal_acos_test : list (N * M bool) := [
  (5220, clear_flags);
  (5223, clear_flags);
  (5224, (set_cwd invalid_operand_bit));
  (5227, clear_flags);
  (5228, (set_cwd none_bit))].

(** lines 5231-5248 *)
Definition minimal_acos_mixedtype_test : list (N * M bool) := [
  (5239, clear_flags);
  (5242, clear_flags);
  (5243, (set_cwd invalid_operand_bit));
  (5246, clear_flags);
  (5247, (set_cwd none_bit))].

(** lines 5250-5270 *)
Definition minimal_acos_dec_test : list (N * M bool) := [
  (5261, clear_flags);
  (5264, clear_flags);
  (5265, (set_cwd invalid_operand_bit));
  (5268, clear_flags);
  (5269, (set_cwd none_bit))].

(** lines 5272-5289 *)
Definition minimal_acos_dec_mixedtype_test : list (N * M bool) := [
  (5280, clear_flags);
  (5283, clear_flags);
  (5284, (set_cwd invalid_operand_bit));
  (5287, clear_flags);
  (5288, (set_cwd none_bit))].

(** lines 5294-5318 *)
Definition minimal_atan_test : list (N * M bool) := [
  (5309, clear_flags);
  (5312, clear_flags);
  (5313, (set_cwd invalid_operand_bit));
  (5316, clear_flags);
  (5317, (set_cwd none_bit))].

(** lines 5320-5338 *)
Definition minimal_atan_mixedtype_test : list (N * M bool) := [
  (5329, clear_flags);
  (5332, clear_flags);
  (5333, (set_cwd invalid_operand_bit));
  (5336, clear_flags);
  (5337, (set_cwd none_bit))].

(** lines 5340-5359 *)
Definition minimal_atan_dec_test : list (N * M bool) := [
  (5350, clear_flags);
  (5353, clear_flags);
  (5354, (set_cwd invalid_operand_bit));
  (5357, clear_flags);
  (5358, (set_cwd none_bit))].

(** lines 5361-5378 *)
Definition minimal_atan_dec_mixedtype_test : list (N * M bool) := [
  (5369, clear_flags);
  (5372, clear_flags);
  (5373, (set_cwd invalid_operand_bit));
  (5376, clear_flags);
  (5377, (set_cwd none_bit))].

(** lines 5383-5579 *)
Definition minimal_atan2_test : list (N * M bool) := [
  (5570, clear_flags);
  (5573, clear_flags);
  (5574, (set_cwd invalid_operand_bit));
  (5577, clear_flags);
  (5578, (set_cwd none_bit))].

(** lines 5581-5644 *)
Definition minimal_atan2_mixedtype_test : list (N * M bool) := [
  (5635, clear_flags);
  (5638, clear_flags);
  (5639, (set_cwd invalid_operand_bit));
  (5642, clear_flags);
  (5643, (set_cwd none_bit))].

(** lines 5646-5842 *)
Definition minimal_atan2_dec_test : list (N * M bool) := [
  (5833, clear_flags);
  (5836, clear_flags);
  (5837, (set_cwd invalid_operand_bit));
  (5840, clear_flags);
  (5841, (set_cwd none_bit))].

(** lines 5844-5907 *)
Definition minimal_atan2_dec_mixedtype_test : list (N * M bool) := [
  (5898, clear_flags);
  (5901, clear_flags);
  (5902, (set_cwd invalid_operand_bit));
  (5905, clear_flags);
  (5906, (set_cwd none_bit))].

(** lines 5911-5936 *)
Definition minimal_sinh_test : list (N * M bool) := [
  (5927, clear_flags);
  (5930, clear_flags);
  (5931, (set_cwd invalid_operand_bit));
  (5934, clear_flags);
  (5935, (set_cwd none_bit))].

(** lines 5938-5954 *)
Definition minimal_sinh_mixedtype_test : list (N * M bool) := [
  (5945, clear_flags);
  (5948, clear_flags);
  (5949, (set_cwd invalid_operand_bit));
  (5952, clear_flags);
  (5953, (set_cwd none_bit))].

(** lines 5956-5975 *)
Definition minimal_sinh_dec_test : list (N * M bool) := [
  (5966, clear_flags);
  (5969, clear_flags);
  (5970, (set_cwd invalid_operand_bit));
  (5973, clear_flags);
  (5974, (set_cwd none_bit))].

(** lines 5977-5993 *)
Definition minimal_sinh_dec_mixedtype_test : list (N * M bool) := [
  (5984, clear_flags);
  (5987, clear_flags);
  (5988, (set_cwd invalid_operand_bit));
  (5991, clear_flags);
  (5992, (set_cwd none_bit))].

(** lines 5999-6023 *)
Definition minimal_cosh_test : list (N * M bool) := [
  (6014, clear_flags);
  (6017, clear_flags);
  (6018, (set_cwd invalid_operand_bit));
  (6021, clear_flags);
  (6022, (set_cwd none_bit))].

(** lines 6025-6041 *)
Definition minimal_cosh_mixedtype_test : list (N * M bool) := [
  (6032, clear_flags);
  (6035, clear_flags);
  (6036, (set_cwd invalid_operand_bit));
  (6039, clear_flags);
  (6040, (set_cwd none_bit))].

(** lines 6043-6064 *)
Definition minimal_cosh_dec_test : list (N * M bool) := [
  (6055, clear_flags);
  (6058, clear_flags);
  (6059, (set_cwd invalid_operand_bit));
  (6062, clear_flags);
  (6063, (set_cwd none_bit))].

(** lines 6066-6082 *)
Definition minimal_cosh_dec_mixedtype_test : list (N * M bool) := [
  (6073, clear_flags);
  (6076, clear_flags);
  (6077, (set_cwd invalid_operand_bit));
  (6080, clear_flags);
  (6081, (set_cwd none_bit))].

(** lines 6088-6111 *)
Definition minimal_tanh_test : list (N * M bool) := [
  (6102, clear_flags);
  (6105, clear_flags);
  (6106, (set_cwd invalid_operand_bit));
  (6109, clear_flags);
  (6110, (set_cwd none_bit))].

(** lines 6113-6129 *)
Definition minimal_tanh_mixedtype_test : list (N * M bool) := [
  (6120, clear_flags);
  (6123, clear_flags);
  (6124, (set_cwd invalid_operand_bit));
  (6127, clear_flags);
  (6128, (set_cwd none_bit))].

(** lines 6131-6151 *)
Definition minimal_tanh_dec_test : list (N * M bool) := [
  (6142, clear_flags);
  (6145, clear_flags);
  (6146, (set_cwd invalid_operand_bit));
  (6149, clear_flags);
  (6150, (set_cwd none_bit))].

(** lines 6153-6170 *)
Definition minimal_tanh_dec_mixedtype_test : list (N * M bool) := [
  (6161, clear_flags);
  (6164, clear_flags);
  (6165, (set_cwd invalid_operand_bit));
  (6168, clear_flags);
  (6169, (set_cwd none_bit))].

(** lines 6174-6197 *)
Definition minimal_asinh_test : list (N * M bool) := [
  (6188, clear_flags);
  (6191, clear_flags);
  (6192, (set_cwd invalid_operand_bit));
  (6195, clear_flags);
  (6196, (set_cwd none_bit))].

(** lines 6199-6216 *)
Definition minimal_asinh_mixedtype_test : list (N * M bool) := [
  (6207, clear_flags);
  (6210, clear_flags);
  (6211, (set_cwd invalid_operand_bit));
  (6214, clear_flags);
  (6215, (set_cwd none_bit))].

(** lines 6218-6238 *)
Definition minimal_asinh_dec_test : list (N * M bool) := [
  (6229, clear_flags);
  (6232, clear_flags);
  (6233, (set_cwd invalid_operand_bit));
  (6236, clear_flags);
  (6237, (set_cwd none_bit))].

(** lines 6240-6257 *)
Definition minimal_asinh_dec_mixedtype_test : list (N * M bool) := [
  (6248, clear_flags);
  (6251, clear_flags);
  (6252, (set_cwd invalid_operand_bit));
  (6255, clear_flags);
  (6256, (set_cwd none_bit))].

(** lines 6263-6286 *)
Definition minimal_acosh_test : list (N * M bool) := [
  (6277, clear_flags);
  (6280, clear_flags);
  (6281, (set_cwd invalid_operand_bit));
  (6284, clear_flags);
  (6285, (set_cwd none_bit))].

(** lines 6288-6305 *)
Definition minimal_acosh_mixedtype_test : list (N * M bool) := [
  (6296, clear_flags);
  (6299, clear_flags);
  (6300, (set_cwd invalid_operand_bit));
  (6303, clear_flags);
  (6304, (set_cwd none_bit))].

(** lines 6307-6330 *)
Definition minimal_acosh_dec_test : list (N * M bool) := [
  (6321, clear_flags);
  (6324, clear_flags);
  (6325, (set_cwd invalid_operand_bit));
  (6328, clear_flags);
  (6329, (set_cwd none_bit))].

(** lines 6332-6348 *)
Definition minimal_acosh_dec_mixedtype_test : list (N * M bool) := [
  (6339, clear_flags);
  (6342, clear_flags);
  (6343, (set_cwd invalid_operand_bit));
  (6346, clear_flags);
  (6347, (set_cwd none_bit))].

(** lines 6354-6381 *)
Definition minimal_atanh_test : list (N * M bool) := [
  (6372, clear_flags);
  (6375, clear_flags);
  (6376, (set_cwd invalid_operand_bit));
  (6379, clear_flags);
  (6380, (set_cwd none_bit))].

(** lines 6383-6400 *)
Definition minimal_atanh_mixedtype_test : list (N * M bool) := [
  (6391, clear_flags);
  (6394, clear_flags);
  (6395, (set_cwd invalid_operand_bit));
  (6398, clear_flags);
  (6399, (set_cwd none_bit))].

(** lines 6402-6426 *)
Definition minimal_atanh_dec_test : list (N * M bool) := [
  (6417, clear_flags);
  (6420, clear_flags);
  (6421, (set_cwd invalid_operand_bit));
  (6424, clear_flags);
  (6425, (set_cwd none_bit))].

(** lines 6428-6445 *)
Definition minimal_atanh_dec_mixedtype_test : list (N * M bool) := [
  (6436, clear_flags);
  (6439, clear_flags);
  (6440, (set_cwd invalid_operand_bit));
  (6443, clear_flags);
  (6444, (set_cwd none_bit))].

(** lines 6450-6473 *)
Definition minimal_sign_test : list (N * M bool) := [
  (6452, (bind (@sign_itv binary64 (@empty binary64)) (fun v1 => @is_empty binary64 v1)));
  (6453, (bind (@sign_itv binary64 ((fl binary64 (1) (0)), (fl binary64 (1) (1)))) (fun v1 => ret (ieq v1 ((fl binary64 (1) (0)), (fl binary64 (1) (0)))))));
  (6454, (bind (@sign_itv binary64 ((fl binary64 (-1) (0)), (fl binary64 (1) (1)))) (fun v1 => ret (ieq v1 ((fl binary64 (-1) (0)), (fl binary64 (1) (0)))))));
  (6455, (bind (@sign_itv binary64 ((fl binary64 (-1) (0)), (@f0 binary64))) (fun v1 => ret (ieq v1 ((fl binary64 (-1) (0)), (@f0 binary64))))));
  (6456, (bind (@sign_itv binary64 ((@f0 binary64), (fl binary64 (1) (1)))) (fun v1 => ret (ieq v1 ((@f0 binary64), (fl binary64 (1) (0)))))));
  (6457, (bind (@sign_itv binary64 ((@fm0 binary64), (fl binary64 (1) (1)))) (fun v1 => ret (ieq v1 ((@f0 binary64), (fl binary64 (1) (0)))))));
  (6458, (bind (@sign_itv binary64 ((fl binary64 (-5) (0)), (fl binary64 (-1) (1)))) (fun v1 => ret (ieq v1 ((fl binary64 (-1) (0)), (fl binary64 (-1) (0)))))));
  (6459, (bind (@sign_itv binary64 ((@f0 binary64), (@f0 binary64))) (fun v1 => ret (ieq v1 ((@f0 binary64), (@f0 binary64))))));
  (6460, (bind (@sign_itv binary64 ((@fm0 binary64), (@fm0 binary64))) (fun v1 => ret (ieq v1 ((@f0 binary64), (@f0 binary64))))));
  (6461, (bind (@sign_itv binary64 ((@fm0 binary64), (@f0 binary64))) (fun v1 => ret (ieq v1 ((@f0 binary64), (@f0 binary64))))));
  (6462, (bind (@sign_itv binary64 (@entire binary64)) (fun v1 => ret (ieq v1 ((fl binary64 (-1) (0)), (fl binary64 (1) (0)))))));
  (6464, clear_flags);
  (6465, (bind (@sign_itv binary64 ((fl binary64 (1) (0)), (fl binary64 (-9007199254740991) (971)))) (fun v1 => @is_empty binary64 v1)));
  (6466, (bind get_flags (fun v1 => ret (N.eqb v1 invalid_operand_bit))));
  (6467, clear_flags);
  (6468, (set_cwd invalid_operand_bit));
  (6469, (throws (@sign_itv binary64 ((fl binary64 (1) (0)), (fl binary64 (-3) (0)))) Invalid_operand_exception));
  (6470, (bind get_flags (fun v1 => ret (N.eqb v1 invalid_operand_bit))));
  (6471, clear_flags);
  (6472, (set_cwd none_bit))].

(** lines 6475-6493 *)
Definition minimal_sign_mixedtype_test : list (N * M bool) := [
  (6477, (bind (@sign_mixed binary32 binary64 ((fl binary64 (1) (0)), (fl binary64 (1) (1)))) (fun v1 => ret (ieq v1 ((fl binary32 (1) (0)), (fl binary32 (1) (0)))))));
  (6478, (bind (@sign_mixed binary32 binary64 ((fl binary64 (-1) (0)), (fl binary64 (1) (1)))) (fun v1 => ret (ieq v1 ((fl binary32 (-1) (0)), (fl binary32 (1) (0)))))));
  (6479, (bind (@sign_mixed binary64 binary32 ((@f0 binary32), (fl binary32 (1) (1)))) (fun v1 => ret (ieq v1 ((@f0 binary64), (fl binary64 (1) (0)))))));
  (6482, (bind get_flags (fun v1 => ret (N.eqb v1 none_bit))));
  (6484, clear_flags);
  (6485, (bind (@sign_mixed binary32 binary64 ((fl binary64 (1) (0)), (fl binary64 (-9007199254740991) (971)))) (fun v1 => @is_empty binary32 v1)));
  (6486, (bind get_flags (fun v1 => ret (N.eqb v1 invalid_operand_bit))));
  (6487, clear_flags);
  (6488, (set_cwd invalid_operand_bit));
  (6489, (throws (@sign_mixed binary64 binary32 ((fl binary32 (1) (0)), (fl binary32 (-3) (0)))) Invalid_operand_exception));
  (6490, (bind get_flags (fun v1 => ret (N.eqb v1 invalid_operand_bit))));
  (6491, clear_flags);
  (6492, (set_cwd none_bit))].

(** lines 6495-6516 *)
Definition minimal_sign_dec_test : list (N * M bool) := [
  (6497, (bind (@sign_dec binary64 (((fl binary64 (1) (0)), (fl binary64 (1) (1))), com)) (fun v1 => ret (dieq v1 (((fl binary64 (1) (0)), (fl binary64 (1) (0))), com)))));
  (6498, (bind (@sign_dec binary64 (((fl binary64 (-1) (0)), (fl binary64 (1) (1))), com)) (fun v1 => ret (dieq v1 (((fl binary64 (-1) (0)), (fl binary64 (1) (0))), def)))));
  (6499, (bind (@sign_dec binary64 (((fl binary64 (-1) (0)), (@f0 binary64)), com)) (fun v1 => ret (dieq v1 (((fl binary64 (-1) (0)), (@f0 binary64)), def)))));
  (6500, (bind (@sign_dec binary64 (((@f0 binary64), (fl binary64 (1) (1))), com)) (fun v1 => ret (dieq v1 (((@f0 binary64), (fl binary64 (1) (0))), def)))));
  (6501, (bind (@sign_dec binary64 (((@fm0 binary64), (fl binary64 (1) (1))), def)) (fun v1 => ret (dieq v1 (((@f0 binary64), (fl binary64 (1) (0))), def)))));
  (6502, (bind (@sign_dec binary64 (((fl binary64 (-5) (0)), (fl binary64 (-1) (1))), trv)) (fun v1 => ret (dieq v1 (((fl binary64 (-1) (0)), (fl binary64 (-1) (0))), trv)))));
  (6503, (bind (@sign_dec binary64 (((@f0 binary64), (@f0 binary64)), dac)) (fun v1 => ret (dieq v1 (((@f0 binary64), (@f0 binary64)), dac)))));
  (6505, (bind get_flags (fun v1 => ret (N.eqb v1 none_bit))));
  (6507, clear_flags);
  (6508, (bind (@sign_dec binary64 (((fl binary64 (1) (0)), (fl binary64 (-9007199254740991) (971))), trv)) (fun v1 => @is_nai binary64 v1)));
  (6509, (bind get_flags (fun v1 => ret (N.eqb v1 invalid_operand_bit))));
  (6510, clear_flags);
  (6511, (set_cwd invalid_operand_bit));
  (6512, (throws (@sign_dec binary64 (((fl binary64 (1) (0)), (fl binary64 (-3) (0))), trv)) Invalid_operand_exception));
  (6513, (bind get_flags (fun v1 => ret (N.eqb v1 invalid_operand_bit))));
  (6514, clear_flags);
  (6515, (set_cwd none_bit))].

(** lines 6518-6535 *)
Definition minimal_sign_dec_mixedtype_test : list (N * M bool) := [
  (6520, (bind (@sign_dec_mixed binary32 binary64 (((fl binary64 (1) (0)), (fl binary64 (1) (1))), com)) (fun v1 => ret (dieq v1 (((fl binary32 (1) (0)), (fl binary32 (1) (0))), com)))));
  (6521, (bind (@sign_dec_mixed binary32 binary64 (((fl binary64 (-1) (0)), (fl binary64 (1) (1))), com)) (fun v1 => ret (dieq v1 (((fl binary32 (-1) (0)), (fl binary32 (1) (0))), def)))));
  (6522, (bind (@sign_dec_mixed binary64 binary32 (((@f0 binary32), (fl binary32 (1) (1))), trv)) (fun v1 => ret (dieq v1 (((@f0 binary64), (fl binary64 (1) (0))), trv)))));
  (6524, (bind get_flags (fun v1 => ret (N.eqb v1 none_bit))));
  (6526, clear_flags);
  (6527, (bind (@sign_dec_mixed binary32 binary64 (((fl binary64 (1) (0)), (fl binary64 (-9007199254740991) (971))), trv)) (fun v1 => @is_nai binary32 v1)));
  (6528, (bind get_flags (fun v1 => ret (N.eqb v1 invalid_operand_bit))));
  (6529, clear_flags);
  (6530, (set_cwd invalid_operand_bit));
  (6531, (throws (@sign_dec_mixed binary64 binary32 (((fl binary32 (1) (0)), (fl binary32 (-3) (0))), trv)) Invalid_operand_exception));
  (6532, (bind get_flags (fun v1 => ret (N.eqb v1 invalid_operand_bit))));
  (6533, clear_flags);
  (6534, (set_cwd none_bit))].

(** lines 6541-6568 *)
Definition minimal_ceil_test : list (N * M bool) := [
  (6543, (bind (@ceil_itv binary64 (@empty binary64)) (fun v1 => @is_empty binary64 v1)));
  (6544, (bind (@ceil_itv binary64 (@entire binary64)) (fun v1 => ret (ieq v1 (@entire binary64)))));
  (6545, (bind (@ceil_itv binary64 ((fl binary64 (2476979795053773) (-51)), (fl binary64 (1) (1)))) (fun v1 => ret (ieq v1 ((fl binary64 (1) (1)), (fl binary64 (1) (1)))))));
  (6546, (bind (@ceil_itv binary64 ((fl binary64 (-2476979795053773) (-51)), (fl binary64 (1) (1)))) (fun v1 => ret (ieq v1 ((fl binary64 (-1) (0)), (fl binary64 (1) (1)))))));
  (6547, (bind (@ceil_itv binary64 ((fl binary64 (-2476979795053773) (-51)), (@f0 binary64))) (fun v1 => ret (ieq v1 ((fl binary64 (-1) (0)), (@f0 binary64))))));
  (6548, (bind (@ceil_itv binary64 ((fl binary64 (-2476979795053773) (-51)), (@fm0 binary64))) (fun v1 => ret (ieq v1 ((fl binary64 (-1) (0)), (@f0 binary64))))));
  (6549, (bind (@ceil_itv binary64 ((fl binary64 (-2476979795053773) (-51)), (fl binary64 (-3602879701896397) (-53)))) (fun v1 => ret (ieq v1 ((fl binary64 (-1) (0)), (@f0 binary64))))));
  (6550, (bind (@ceil_itv binary64 ((fl binary64 (-4278419646001971) (-51)), (fl binary64 (2476979795053773) (-50)))) (fun v1 => ret (ieq v1 ((fl binary64 (-1) (0)), (fl binary64 (3) (0)))))));
  (6551, (bind (@ceil_itv binary64 ((fl binary64 (-1) (0)), (fl binary64 (2476979795053773) (-50)))) (fun v1 => ret (ieq v1 ((fl binary64 (-1) (0)), (fl binary64 (3) (0)))))));
  (6552, (bind (@ceil_itv binary64 ((@f0 binary64), (fl binary64 (2476979795053773) (-50)))) (fun v1 => ret (ieq v1 ((@f0 binary64), (fl binary64 (3) (0)))))));
  (6553, (bind (@ceil_itv binary64 ((@fm0 binary64), (fl binary64 (2476979795053773) (-50)))) (fun v1 => ret (ieq v1 ((@f0 binary64), (fl binary64 (3) (0)))))));
  (6554, (bind (@ceil_itv binary64 ((fl binary64 (-3) (-1)), (@finf binary64))) (fun v1 => ret (ieq v1 ((fl binary64 (-1) (0)), (@finf binary64))))));
  (6555, (bind (@ceil_itv binary64 ((fl binary64 (9007199254740991) (971)), (@finf binary64))) (fun v1 => ret (ieq v1 ((fl binary64 (9007199254740991) (971)), (@finf binary64))))));
  (6556, (bind (@ceil_itv binary64 ((@fminf binary64), (fl binary64 (2476979795053773) (-50)))) (fun v1 => ret (ieq v1 ((@fminf binary64), (fl binary64 (3) (0)))))));
  (6557, (bind (@ceil_itv binary64 ((@fminf binary64), (fl binary64 (-9007199254740991) (971)))) (fun v1 => ret (ieq v1 ((@fminf binary64), (fl binary64 (-9007199254740991) (971)))))));
  (6559, clear_flags);
  (6560, (bind (@ceil_itv binary64 ((fl binary64 (1) (0)), (fl binary64 (-9007199254740991) (971)))) (fun v1 => @is_empty binary64 v1)));
  (6561, (bind get_flags (fun v1 => ret (N.eqb v1 invalid_operand_bit))));
  (6562, clear_flags);
  (6563, (set_cwd invalid_operand_bit));
  (6564, (throws (@ceil_itv binary64 ((fl binary64 (1) (0)), (fl binary64 (-3) (0)))) Invalid_operand_exception));
  (6565, (bind get_flags (fun v1 => ret (N.eqb v1 invalid_operand_bit))));
  (6566, clear_flags);
  (6567, (set_cwd none_bit))].

(** lines 6570-6590 *)
Definition minimal_ceil_mixedtype_test : list (N * M bool) := [
  (6572, (bind (@ceil_mixed binary64 binary32 ((@fm0 binary32), (fl binary32 (9227469) (-22)))) (fun v1 => ret (ieq v1 ((@f0 binary64), (fl binary64 (3) (0)))))));
  (6573, (bind (@ceil_mixed binary32 binary64 ((fl binary64 (-3) (-1)), (@finf binary64))) (fun v1 => ret (ieq v1 ((fl binary32 (-1) (0)), (@finf binary32))))));
  (6574, (bind (@ceil_mixed binary32 binary64 ((fl binary64 (9007199254740991) (971)), (@finf binary64))) (fun v1 => ret (ieq v1 ((fl binary32 (16777215) (104)), (@finf binary32))))));
  (6575, (bind (@ceil_mixed binary32 binary64 ((fl binary64 (9007199254740991) (971)), (fl binary64 (9007199254740991) (971)))) (fun v1 => ret (ieq v1 ((fl binary32 (16777215) (104)), (@finf binary32))))));
  (6576, (bind (@ceil_mixed binary32 binary64 ((@fminf binary64), (fl binary64 (2476979795053773) (-50)))) (fun v1 => ret (ieq v1 ((@fminf binary32), (fl binary32 (3) (0)))))));
  (6577, (bind (@ceil_mixed binary32 binary64 ((@fminf binary64), (fl binary64 (-9007199254740991) (971)))) (fun v1 => ret (ieq v1 ((@fminf binary32), (fl binary32 (-16777215) (104)))))));
  (6579, (bind get_flags (fun v1 => ret (N.eqb v1 none_bit))));
  (6581, clear_flags);
  (6582, (bind (@ceil_mixed binary32 binary64 ((fl binary64 (1) (0)), (fl binary64 (-9007199254740991) (971)))) (fun v1 => @is_empty binary32 v1)));
  (6583, (bind get_flags (fun v1 => ret (N.eqb v1 invalid_operand_bit))));
  (6584, clear_flags);
  (6585, (set_cwd invalid_operand_bit));
  (6586, (throws (@ceil_mixed binary64 binary32 ((fl binary32 (1) (0)), (fl binary32 (-3) (0)))) Invalid_operand_exception));
  (6587, (bind get_flags (fun v1 => ret (N.eqb v1 invalid_operand_bit))));
  (6588, clear_flags);
  (6589, (set_cwd none_bit))].

(** lines 6592-6621 *)
Definition minimal_ceil_dec_test : list (N * M bool) := [
  (6594, (bind (@ceil_dec binary64 (((fl binary64 (2476979795053773) (-51)), (fl binary64 (4278419646001971) (-51))), com)) (fun v1 => ret (dieq v1 (((fl binary64 (1) (1)), (fl binary64 (1) (1))), com)))));
  (6595, (bind (@ceil_dec binary64 (((fl binary64 (2476979795053773) (-51)), (fl binary64 (1) (1))), com)) (fun v1 => ret (dieq v1 (((fl binary64 (1) (1)), (fl binary64 (1) (1))), dac)))));
  (6596, (bind (@ceil_dec binary64 (((fl binary64 (-2476979795053773) (-51)), (fl binary64 (1) (1))), com)) (fun v1 => ret (dieq v1 (((fl binary64 (-1) (0)), (fl binary64 (1) (1))), def)))));
  (6597, (bind (@ceil_dec binary64 (((fl binary64 (-2476979795053773) (-51)), (@f0 binary64)), dac)) (fun v1 => ret (dieq v1 (((fl binary64 (-1) (0)), (@f0 binary64)), def)))));
  (6598, (bind (@ceil_dec binary64 (((fl binary64 (-2476979795053773) (-51)), (@fm0 binary64)), trv)) (fun v1 => ret (dieq v1 (((fl binary64 (-1) (0)), (@f0 binary64)), trv)))));
  (6599, (bind (@ceil_dec binary64 (((fl binary64 (-2476979795053773) (-51)), (fl binary64 (-3602879701896397) (-53))), dac)) (fun v1 => ret (dieq v1 (((fl binary64 (-1) (0)), (@f0 binary64)), def)))));
  (6600, (bind (@ceil_dec binary64 (((fl binary64 (-4278419646001971) (-51)), (fl binary64 (2476979795053773) (-50))), com)) (fun v1 => ret (dieq v1 (((fl binary64 (-1) (0)), (fl binary64 (3) (0))), def)))));
  (6601, (bind (@ceil_dec binary64 (((fl binary64 (-1) (0)), (fl binary64 (2476979795053773) (-50))), dac)) (fun v1 => ret (dieq v1 (((fl binary64 (-1) (0)), (fl binary64 (3) (0))), def)))));
  (6602, (bind (@ceil_dec binary64 (((@f0 binary64), (fl binary64 (2476979795053773) (-50))), trv)) (fun v1 => ret (dieq v1 (((@f0 binary64), (fl binary64 (3) (0))), trv)))));
  (6603, (bind (@ceil_dec binary64 (((@fm0 binary64), (fl binary64 (2476979795053773) (-50))), def)) (fun v1 => ret (dieq v1 (((@f0 binary64), (fl binary64 (3) (0))), def)))));
  (6604, (bind (@ceil_dec binary64 (((fl binary64 (-3) (-1)), (@finf binary64)), trv)) (fun v1 => ret (dieq v1 (((fl binary64 (-1) (0)), (@finf binary64)), trv)))));
  (6605, (bind (@ceil_dec binary64 (((fl binary64 (9007199254740991) (971)), (@finf binary64)), dac)) (fun v1 => ret (dieq v1 (((fl binary64 (9007199254740991) (971)), (@finf binary64)), def)))));
  (6606, (bind (@ceil_dec binary64 (((fl binary64 (9007199254740991) (971)), (fl binary64 (9007199254740991) (971))), com)) (fun v1 => ret (dieq v1 (((fl binary64 (9007199254740991) (971)), (fl binary64 (9007199254740991) (971))), dac)))));
  (6607, (bind (@ceil_dec binary64 (((@fminf binary64), (fl binary64 (2476979795053773) (-50))), trv)) (fun v1 => ret (dieq v1 (((@fminf binary64), (fl binary64 (3) (0))), trv)))));
  (6608, (bind (@ceil_dec binary64 (((@fminf binary64), (fl binary64 (-9007199254740991) (971))), dac)) (fun v1 => ret (dieq v1 (((@fminf binary64), (fl binary64 (-9007199254740991) (971))), def)))));
  (6610, (bind get_flags (fun v1 => ret (N.eqb v1 none_bit))));
  (6612, clear_flags);
  (6613, (bind (@ceil_dec binary64 (((fl binary64 (1) (0)), (fl binary64 (-9007199254740991) (971))), trv)) (fun v1 => @is_nai binary64 v1)));
  (6614, (bind get_flags (fun v1 => ret (N.eqb v1 invalid_operand_bit))));
  (6615, clear_flags);
  (6616, (set_cwd invalid_operand_bit));
  (6617, (throws (@ceil_dec binary64 (((fl binary64 (1) (0)), (fl binary64 (-3) (0))), trv)) Invalid_operand_exception));
  (6618, (bind get_flags (fun v1 => ret (N.eqb v1 invalid_operand_bit))));
  (6619, clear_flags);
  (6620, (set_cwd none_bit))].

(** lines 6623-6643 *)
Definition minimal_ceil_dec_mixedtype_test : list (N * M bool) := [
  (6625, (bind (@ceil_dec_mixed binary64 binary32 (((@fm0 binary32), (fl binary32 (9227469) (-22))), com)) (fun v1 => ret (dieq v1 (((@f0 binary64), (fl binary64 (3) (0))), def)))));
  (6626, (bind (@ceil_dec_mixed binary32 binary64 (((fl binary64 (-3) (-1)), (@finf binary64)), dac)) (fun v1 => ret (dieq v1 (((fl binary32 (-1) (0)), (@finf binary32)), def)))));
  (6627, (bind (@ceil_dec_mixed binary32 binary64 (((fl binary64 (9007199254740991) (971)), (@finf binary64)), def)) (fun v1 => ret (dieq v1 (((fl binary32 (16777215) (104)), (@finf binary32)), def)))));
  (6628, (bind (@ceil_dec_mixed binary32 binary64 (((fl binary64 (9007199254740991) (971)), (fl binary64 (9007199254740991) (971))), com)) (fun v1 => ret (dieq v1 (((fl binary32 (16777215) (104)), (@finf binary32)), dac)))));
  (6629, (bind (@ceil_dec_mixed binary32 binary64 (((@fminf binary64), (fl binary64 (2476979795053773) (-50))), trv)) (fun v1 => ret (dieq v1 (((@fminf binary32), (fl binary32 (3) (0))), trv)))));
  (6630, (bind (@ceil_dec_mixed binary32 binary64 (((@fminf binary64), (fl binary64 (-9007199254740991) (971))), dac)) (fun v1 => ret (dieq v1 (((@fminf binary32), (fl binary32 (-16777215) (104))), def)))));
  (6632, (bind get_flags (fun v1 => ret (N.eqb v1 none_bit))));
  (6634, clear_flags);
  (6635, (bind (@ceil_dec_mixed binary32 binary64 (((fl binary64 (1) (0)), (fl binary64 (-9007199254740991) (971))), trv)) (fun v1 => @is_nai binary32 v1)));
  (6636, (bind get_flags (fun v1 => ret (N.eqb v1 invalid_operand_bit))));
  (6637, clear_flags);
  (6638, (set_cwd invalid_operand_bit));
  (6639, (throws (@ceil_dec_mixed binary64 binary32 (((fl binary32 (1) (0)), (fl binary32 (-3) (0))), trv)) Invalid_operand_exception));
  (6640, (bind get_flags (fun v1 => ret (N.eqb v1 invalid_operand_bit))));
  (6641, clear_flags);
  (6642, (set_cwd none_bit))].

(** lines 6649-6674 *)
Definition minimal_floor_test : list (N * M bool) := [
  (6651, (bind (@floor_itv binary64 (@empty binary64)) (fun v1 => @is_empty binary64 v1)));
  (6652, (bind (@floor_itv binary64 (@entire binary64)) (fun v1 => ret (ieq v1 (@entire binary64)))));
  (6653, (bind (@floor_itv binary64 ((fl binary64 (2476979795053773) (-51)), (fl binary64 (1) (1)))) (fun v1 => ret (ieq v1 ((fl binary64 (1) (0)), (fl binary64 (1) (1)))))));
  (6654, (bind (@floor_itv binary64 ((fl binary64 (-2476979795053773) (-51)), (fl binary64 (1) (1)))) (fun v1 => ret (ieq v1 ((fl binary64 (-1) (1)), (fl binary64 (1) (1)))))));
  (6655, (bind (@floor_itv binary64 ((fl binary64 (-2476979795053773) (-51)), (@f0 binary64))) (fun v1 => ret (ieq v1 ((fl binary64 (-1) (1)), (@f0 binary64))))));
  (6656, (bind (@floor_itv binary64 ((fl binary64 (-2476979795053773) (-51)), (@fm0 binary64))) (fun v1 => ret (ieq v1 ((fl binary64 (-1) (1)), (@f0 binary64))))));
  (6657, (bind (@floor_itv binary64 ((fl binary64 (-2476979795053773) (-51)), (fl binary64 (-3602879701896397) (-53)))) (fun v1 => ret (ieq v1 ((fl binary64 (-1) (1)), (fl binary64 (-1) (0)))))));
  (6658, (bind (@floor_itv binary64 ((fl binary64 (-4278419646001971) (-51)), (fl binary64 (2476979795053773) (-50)))) (fun v1 => ret (ieq v1 ((fl binary64 (-1) (1)), (fl binary64 (1) (1)))))));
  (6659, (bind (@floor_itv binary64 ((fl binary64 (-1) (0)), (fl binary64 (2476979795053773) (-50)))) (fun v1 => ret (ieq v1 ((fl binary64 (-1) (0)), (fl binary64 (1) (1)))))));
  (6660, (bind (@floor_itv binary64 ((@f0 binary64), (fl binary64 (2476979795053773) (-50)))) (fun v1 => ret (ieq v1 ((@f0 binary64), (fl binary64 (1) (1)))))));
  (6661, (bind (@floor_itv binary64 ((@fm0 binary64), (fl binary64 (2476979795053773) (-50)))) (fun v1 => ret (ieq v1 ((@f0 binary64), (fl binary64 (1) (1)))))));
  (6662, (bind (@floor_itv binary64 ((fl binary64 (-3) (-1)), (@finf binary64))) (fun v1 => ret (ieq v1 ((fl binary64 (-1) (1)), (@finf binary64))))));
  (6663, (bind (@floor_itv binary64 ((@fminf binary64), (fl binary64 (2476979795053773) (-50)))) (fun v1 => ret (ieq v1 ((@fminf binary64), (fl binary64 (1) (1)))))));
  (6665, clear_flags);
  (6666, (bind (@floor_itv binary64 ((fl binary64 (1) (0)), (fl binary64 (-9007199254740991) (971)))) (fun v1 => @is_empty binary64 v1)));
  (6667, (bind get_flags (fun v1 => ret (N.eqb v1 invalid_operand_bit))));
  (6668, clear_flags);
  (6669, (set_cwd invalid_operand_bit));
  (6670, (throws (@floor_itv binary64 ((fl binary64 (1) (0)), (fl binary64 (-3) (0)))) Invalid_operand_exception));
  (6671, (bind get_flags (fun v1 => ret (N.eqb v1 invalid_operand_bit))));
  (6672, clear_flags);
  (6673, (set_cwd none_bit))].

(** lines 6676-6696 *)
Definition minimal_floor_mixedtype_test : list (N * M bool) := [
  (6678, (bind (@floor_mixed binary64 binary32 ((@fm0 binary32), (fl binary32 (9227469) (-22)))) (fun v1 => ret (ieq v1 ((@f0 binary64), (fl binary64 (1) (1)))))));
  (6679, (bind (@floor_mixed binary32 binary64 ((fl binary64 (-3) (-1)), (@finf binary64))) (fun v1 => ret (ieq v1 ((fl binary32 (-1) (1)), (@finf binary32))))));
  (6680, (bind (@floor_mixed binary32 binary64 ((fl binary64 (9007199254740991) (971)), (@finf binary64))) (fun v1 => ret (ieq v1 ((fl binary32 (16777215) (104)), (@finf binary32))))));
  (6681, (bind (@floor_mixed binary32 binary64 ((fl binary64 (9007199254740991) (971)), (fl binary64 (9007199254740991) (971)))) (fun v1 => ret (ieq v1 ((fl binary32 (16777215) (104)), (@finf binary32))))));
  (6682, (bind (@floor_mixed binary32 binary64 ((@fminf binary64), (fl binary64 (2476979795053773) (-50)))) (fun v1 => ret (ieq v1 ((@fminf binary32), (fl binary32 (1) (1)))))));
  (6683, (bind (@floor_mixed binary32 binary64 ((@fminf binary64), (fl binary64 (-9007199254740991) (971)))) (fun v1 => ret (ieq v1 ((@fminf binary32), (fl binary32 (-16777215) (104)))))));
  (6685, (bind get_flags (fun v1 => ret (N.eqb v1 none_bit))));
  (6687, clear_flags);
  (6688, (bind (@floor_mixed binary32 binary64 ((fl binary64 (1) (0)), (fl binary64 (-9007199254740991) (971)))) (fun v1 => @is_empty binary32 v1)));
  (6689, (bind get_flags (fun v1 => ret (N.eqb v1 invalid_operand_bit))));
  (6690, clear_flags);
  (6691, (set_cwd invalid_operand_bit));
  (6692, (throws (@floor_mixed binary64 binary32 ((fl binary32 (1) (0)), (fl binary32 (-3) (0)))) Invalid_operand_exception));
  (6693, (bind get_flags (fun v1 => ret (N.eqb v1 invalid_operand_bit))));
  (6694, clear_flags);
  (6695, (set_cwd none_bit))].

(** lines 6698-6725 *)
Definition minimal_floor_dec_test : list (N * M bool) := [
  (6700, (bind (@floor_dec binary64 (((fl binary64 (2476979795053773) (-51)), (fl binary64 (1) (1))), com)) (fun v1 => ret (dieq v1 (((fl binary64 (1) (0)), (fl binary64 (1) (1))), def)))));
  (6701, (bind (@floor_dec binary64 (((fl binary64 (-2476979795053773) (-51)), (fl binary64 (1) (1))), def)) (fun v1 => ret (dieq v1 (((fl binary64 (-1) (1)), (fl binary64 (1) (1))), def)))));
  (6702, (bind (@floor_dec binary64 (((fl binary64 (-2476979795053773) (-51)), (@f0 binary64)), dac)) (fun v1 => ret (dieq v1 (((fl binary64 (-1) (1)), (@f0 binary64)), def)))));
  (6703, (bind (@floor_dec binary64 (((fl binary64 (-5404319552844595) (-52)), (fl binary64 (-2476979795053773) (-51))), com)) (fun v1 => ret (dieq v1 (((fl binary64 (-1) (1)), (fl binary64 (-1) (1))), com)))));
  (6704, (bind (@floor_dec binary64 (((fl binary64 (-1) (1)), (fl binary64 (-2476979795053773) (-51))), com)) (fun v1 => ret (dieq v1 (((fl binary64 (-1) (1)), (fl binary64 (-1) (1))), dac)))));
  (6705, (bind (@floor_dec binary64 (((fl binary64 (-2476979795053773) (-51)), (fl binary64 (-3602879701896397) (-53))), def)) (fun v1 => ret (dieq v1 (((fl binary64 (-1) (1)), (fl binary64 (-1) (0))), def)))));
  (6706, (bind (@floor_dec binary64 (((fl binary64 (-4278419646001971) (-51)), (fl binary64 (2476979795053773) (-50))), com)) (fun v1 => ret (dieq v1 (((fl binary64 (-1) (1)), (fl binary64 (1) (1))), def)))));
  (6707, (bind (@floor_dec binary64 (((fl binary64 (-1) (0)), (fl binary64 (2476979795053773) (-50))), trv)) (fun v1 => ret (dieq v1 (((fl binary64 (-1) (0)), (fl binary64 (1) (1))), trv)))));
  (6708, (bind (@floor_dec binary64 (((@f0 binary64), (fl binary64 (2476979795053773) (-50))), trv)) (fun v1 => ret (dieq v1 (((@f0 binary64), (fl binary64 (1) (1))), trv)))));
  (6709, (bind (@floor_dec binary64 (((@fm0 binary64), (fl binary64 (2476979795053773) (-50))), com)) (fun v1 => ret (dieq v1 (((@f0 binary64), (fl binary64 (1) (1))), def)))));
  (6710, (bind (@floor_dec binary64 (((fl binary64 (-3) (-1)), (@finf binary64)), dac)) (fun v1 => ret (dieq v1 (((fl binary64 (-1) (1)), (@finf binary64)), def)))));
  (6711, (bind (@floor_dec binary64 (((@fminf binary64), (fl binary64 (2476979795053773) (-50))), trv)) (fun v1 => ret (dieq v1 (((@fminf binary64), (fl binary64 (1) (1))), trv)))));
  (6712, (bind (@floor_dec binary64 (((fl binary64 (-9007199254740991) (971)), (fl binary64 (-9007199254740991) (971))), com)) (fun v1 => ret (dieq v1 (((fl binary64 (-9007199254740991) (971)), (fl binary64 (-9007199254740991) (971))), dac)))));
  (6714, (bind get_flags (fun v1 => ret (N.eqb v1 none_bit))));
  (6716, clear_flags);
  (6717, (bind (@floor_dec binary64 (((fl binary64 (1) (0)), (fl binary64 (-9007199254740991) (971))), trv)) (fun v1 => @is_nai binary64 v1)));
  (6718, (bind get_flags (fun v1 => ret (N.eqb v1 invalid_operand_bit))));
  (6719, clear_flags);
  (6720, (set_cwd invalid_operand_bit));
  (6721, (throws (@floor_dec binary64 (((fl binary64 (1) (0)), (fl binary64 (-3) (0))), trv)) Invalid_operand_exception));
  (6722, (bind get_flags (fun v1 => ret (N.eqb v1 invalid_operand_bit))));
  (6723, clear_flags);
  (6724, (set_cwd none_bit))].

(** lines 6727-6747 *)
Definition minimal_floor_dec_mixedtype_test : list (N * M bool) := [
  (6729, (bind (@floor_dec_mixed binary64 binary32 (((@fm0 binary32), (fl binary32 (9227469) (-22))), com)) (fun v1 => ret (dieq v1 (((@f0 binary64), (fl binary64 (1) (1))), def)))));
  (6730, (bind (@floor_dec_mixed binary32 binary64 (((fl binary64 (-3) (-1)), (@finf binary64)), dac)) (fun v1 => ret (dieq v1 (((fl binary32 (-1) (1)), (@finf binary32)), def)))));
  (6731, (bind (@floor_dec_mixed binary32 binary64 (((fl binary64 (9007199254740991) (971)), (@finf binary64)), dac)) (fun v1 => ret (dieq v1 (((fl binary32 (16777215) (104)), (@finf binary32)), def)))));
  (6732, (bind (@floor_dec_mixed binary32 binary64 (((fl binary64 (9007199254740991) (971)), (fl binary64 (9007199254740991) (971))), com)) (fun v1 => ret (dieq v1 (((fl binary32 (16777215) (104)), (@finf binary32)), dac)))));
  (6733, (bind (@floor_dec_mixed binary32 binary64 (((@fminf binary64), (fl binary64 (2476979795053773) (-50))), trv)) (fun v1 => ret (dieq v1 (((@fminf binary32), (fl binary32 (1) (1))), trv)))));
  (6734, (bind (@floor_dec_mixed binary32 binary64 (((@fminf binary64), (fl binary64 (-9007199254740991) (971))), dac)) (fun v1 => ret (dieq v1 (((@fminf binary32), (fl binary32 (-16777215) (104))), def)))));
  (6736, (bind get_flags (fun v1 => ret (N.eqb v1 none_bit))));
  (6738, clear_flags);
  (6739, (bind (@floor_dec_mixed binary32 binary64 (((fl binary64 (1) (0)), (fl binary64 (-9007199254740991) (971))), trv)) (fun v1 => @is_nai binary32 v1)));
  (6740, (bind get_flags (fun v1 => ret (N.eqb v1 invalid_operand_bit))));
  (6741, clear_flags);
  (6742, (set_cwd invalid_operand_bit));
  (6743, (throws (@floor_dec_mixed binary64 binary32 (((fl binary32 (1) (0)), (fl binary32 (-3) (0))), trv)) Invalid_operand_exception));
  (6744, (bind get_flags (fun v1 => ret (N.eqb v1 invalid_operand_bit))));
  (6745, clear_flags);
  (6746, (set_cwd none_bit))].

(** lines 6753-6778 *)
Definition minimal_trunc_test : list (N * M bool) := [
  (6755, (bind (@trunc_itv binary64 (@empty binary64)) (fun v1 => @is_empty binary64 v1)));
  (6756, (bind (@trunc_itv binary64 (@entire binary64)) (fun v1 => ret (ieq v1 (@entire binary64)))));
  (6757, (bind (@trunc_itv binary64 ((fl binary64 (2476979795053773) (-51)), (fl binary64 (4728779608739021) (-51)))) (fun v1 => ret (ieq v1 ((fl binary64 (1) (0)), (fl binary64 (1) (1)))))));
  (6758, (bind (@trunc_itv binary64 ((fl binary64 (-2476979795053773) (-51)), (fl binary64 (1) (1)))) (fun v1 => ret (ieq v1 ((fl binary64 (-1) (0)), (fl binary64 (1) (1)))))));
  (6759, (bind (@trunc_itv binary64 ((fl binary64 (-2476979795053773) (-51)), (@f0 binary64))) (fun v1 => ret (ieq v1 ((fl binary64 (-1) (0)), (@f0 binary64))))));
  (6760, (bind (@trunc_itv binary64 ((fl binary64 (-2476979795053773) (-51)), (@fm0 binary64))) (fun v1 => ret (ieq v1 ((fl binary64 (-1) (0)), (@f0 binary64))))));
  (6761, (bind (@trunc_itv binary64 ((fl binary64 (-2476979795053773) (-51)), (fl binary64 (-3602879701896397) (-53)))) (fun v1 => ret (ieq v1 ((fl binary64 (-1) (0)), (@f0 binary64))))));
  (6762, (bind (@trunc_itv binary64 ((fl binary64 (-4278419646001971) (-51)), (fl binary64 (2476979795053773) (-50)))) (fun v1 => ret (ieq v1 ((fl binary64 (-1) (0)), (fl binary64 (1) (1)))))));
  (6763, (bind (@trunc_itv binary64 ((fl binary64 (-1) (0)), (fl binary64 (2476979795053773) (-50)))) (fun v1 => ret (ieq v1 ((fl binary64 (-1) (0)), (fl binary64 (1) (1)))))));
  (6764, (bind (@trunc_itv binary64 ((@f0 binary64), (fl binary64 (2476979795053773) (-50)))) (fun v1 => ret (ieq v1 ((@f0 binary64), (fl binary64 (1) (1)))))));
  (6765, (bind (@trunc_itv binary64 ((@fm0 binary64), (fl binary64 (2476979795053773) (-50)))) (fun v1 => ret (ieq v1 ((@f0 binary64), (fl binary64 (1) (1)))))));
  (6766, (bind (@trunc_itv binary64 ((fl binary64 (-3) (-1)), (@finf binary64))) (fun v1 => ret (ieq v1 ((fl binary64 (-1) (0)), (@finf binary64))))));
  (6767, (bind (@trunc_itv binary64 ((@fminf binary64), (fl binary64 (2476979795053773) (-50)))) (fun v1 => ret (ieq v1 ((@fminf binary64), (fl binary64 (1) (1)))))));
  (6769, clear_flags);
  (6770, (bind (@trunc_itv binary64 ((fl binary64 (1) (0)), (fl binary64 (-9007199254740991) (971)))) (fun v1 => @is_empty binary64 v1)));
  (6771, (bind get_flags (fun v1 => ret (N.eqb v1 invalid_operand_bit))));
  (6772, clear_flags);
  (6773, (set_cwd invalid_operand_bit));
  (6774, (throws (@trunc_itv binary64 ((fl binary64 (1) (0)), (fl binary64 (-3) (0)))) Invalid_operand_exception));
  (6775, (bind get_flags (fun v1 => ret (N.eqb v1 invalid_operand_bit))));
  (6776, clear_flags);
  (6777, (set_cwd none_bit))].

(** lines 6780-6798 *)
Definition minimal_trunc_mixedtype_test : list (N * M bool) := [
  (6782, (bind (@trunc_mixed binary64 binary32 ((fl binary32 (9227469) (-23)), (fl binary32 (4404019) (-21)))) (fun v1 => ret (ieq v1 ((fl binary64 (1) (0)), (fl binary64 (1) (1)))))));
  (6783, (bind (@trunc_mixed binary32 binary64 ((fl binary64 (-2476979795053773) (-51)), (fl binary64 (-3602879701896397) (-53)))) (fun v1 => ret (ieq v1 ((fl binary32 (-1) (0)), (@f0 binary32))))));
  (6784, (bind (@trunc_mixed binary64 binary32 ((fl binary32 (-3) (-1)), (@finf binary32))) (fun v1 => ret (ieq v1 ((fl binary64 (-1) (0)), (@finf binary64))))));
  (6785, (bind (@trunc_mixed binary32 binary64 ((@fminf binary64), (fl binary64 (2476979795053773) (-50)))) (fun v1 => ret (ieq v1 ((@fminf binary32), (fl binary32 (1) (1)))))));
  (6787, (bind get_flags (fun v1 => ret (N.eqb v1 none_bit))));
  (6789, clear_flags);
  (6790, (bind (@trunc_mixed binary32 binary64 ((fl binary64 (1) (0)), (fl binary64 (-9007199254740991) (971)))) (fun v1 => @is_empty binary32 v1)));
  (6791, (bind get_flags (fun v1 => ret (N.eqb v1 invalid_operand_bit))));
  (6792, clear_flags);
  (6793, (set_cwd invalid_operand_bit));
  (6794, (throws (@trunc_mixed binary64 binary32 ((fl binary32 (1) (0)), (fl binary32 (-3) (0)))) Invalid_operand_exception));
  (6795, (bind get_flags (fun v1 => ret (N.eqb v1 invalid_operand_bit))));
  (6796, clear_flags);
  (6797, (set_cwd none_bit))].

(** lines 6800-6831 *)
Definition minimal_trunc_dec_test : list (N * M bool) := [
  (6802, (bind (@trunc_dec binary64 (((fl binary64 (1) (0)), (fl binary64 (5404319552844595) (-52))), com)) (fun v1 => ret (dieq v1 (((fl binary64 (1) (0)), (fl binary64 (1) (0))), dac)))));
  (6803, (bind (@trunc_dec binary64 (((fl binary64 (2476979795053773) (-51)), (fl binary64 (5404319552844595) (-52))), com)) (fun v1 => ret (dieq v1 (((fl binary64 (1) (0)), (fl binary64 (1) (0))), com)))));
  (6804, (bind (@trunc_dec binary64 (((@f0 binary64), (fl binary64 (8106479329266893) (-53))), com)) (fun v1 => ret (dieq v1 (((@f0 binary64), (@f0 binary64)), com)))));
  (6805, (bind (@trunc_dec binary64 (((fl binary64 (-5404319552844595) (-52)), (fl binary64 (-2476979795053773) (-51))), com)) (fun v1 => ret (dieq v1 (((fl binary64 (-1) (0)), (fl binary64 (-1) (0))), com)))));
  (6806, (bind (@trunc_dec binary64 (((fl binary64 (-5404319552844595) (-52)), (fl binary64 (-1) (0))), com)) (fun v1 => ret (dieq v1 (((fl binary64 (-1) (0)), (fl binary64 (-1) (0))), dac)))));
  (6807, (bind (@trunc_dec binary64 (((fl binary64 (2476979795053773) (-51)), (fl binary64 (4728779608739021) (-51))), com)) (fun v1 => ret (dieq v1 (((fl binary64 (1) (0)), (fl binary64 (1) (1))), def)))));
  (6808, (bind (@trunc_dec binary64 (((fl binary64 (2476979795053773) (-51)), (fl binary64 (4278419646001971) (-51))), com)) (fun v1 => ret (dieq v1 (((fl binary64 (1) (0)), (fl binary64 (1) (0))), com)))));
  (6809, (bind (@trunc_dec binary64 (((fl binary64 (-2476979795053773) (-51)), (fl binary64 (1) (1))), dac)) (fun v1 => ret (dieq v1 (((fl binary64 (-1) (0)), (fl binary64 (1) (1))), def)))));
  (6810, (bind (@trunc_dec binary64 (((fl binary64 (-2476979795053773) (-51)), (@f0 binary64)), trv)) (fun v1 => ret (dieq v1 (((fl binary64 (-1) (0)), (@f0 binary64)), trv)))));
  (6811, (bind (@trunc_dec binary64 (((fl binary64 (-2476979795053773) (-51)), (@fm0 binary64)), def)) (fun v1 => ret (dieq v1 (((fl binary64 (-1) (0)), (@f0 binary64)), def)))));
  (6812, (bind (@trunc_dec binary64 (((fl binary64 (-2476979795053773) (-51)), (fl binary64 (-3602879701896397) (-53))), com)) (fun v1 => ret (dieq v1 (((fl binary64 (-1) (0)), (@f0 binary64)), def)))));
  (6813, (bind (@trunc_dec binary64 (((fl binary64 (-4278419646001971) (-51)), (fl binary64 (2476979795053773) (-50))), def)) (fun v1 => ret (dieq v1 (((fl binary64 (-1) (0)), (fl binary64 (1) (1))), def)))));
  (6814, (bind (@trunc_dec binary64 (((fl binary64 (-1) (0)), (fl binary64 (2476979795053773) (-50))), dac)) (fun v1 => ret (dieq v1 (((fl binary64 (-1) (0)), (fl binary64 (1) (1))), def)))));
  (6815, (bind (@trunc_dec binary64 (((fl binary64 (-3) (-1)), (@finf binary64)), dac)) (fun v1 => ret (dieq v1 (((fl binary64 (-1) (0)), (@finf binary64)), def)))));
  (6816, (bind (@trunc_dec binary64 (((@fminf binary64), (fl binary64 (2476979795053773) (-50))), trv)) (fun v1 => ret (dieq v1 (((@fminf binary64), (fl binary64 (1) (1))), trv)))));
  (6817, (bind (@trunc_dec binary64 (((fl binary64 (9007199254740991) (971)), (fl binary64 (9007199254740991) (971))), com)) (fun v1 => ret (dieq v1 (((fl binary64 (9007199254740991) (971)), (fl binary64 (9007199254740991) (971))), dac)))));
  (6818, (bind (@trunc_dec binary64 (((fl binary64 (9007199254740991) (971)), (@finf binary64)), dac)) (fun v1 => ret (dieq v1 (((fl binary64 (9007199254740991) (971)), (@finf binary64)), def)))));
  (6820, (bind get_flags (fun v1 => ret (N.eqb v1 none_bit))));
  (6822, clear_flags);
  (6823, (bind (@trunc_dec binary64 (((fl binary64 (1) (0)), (fl binary64 (-9007199254740991) (971))), trv)) (fun v1 => @is_nai binary64 v1)));
  (6824, (bind get_flags (fun v1 => ret (N.eqb v1 invalid_operand_bit))));
  (6825, clear_flags);
  (6826, (set_cwd invalid_operand_bit));
  (6827, (throws (@trunc_dec binary64 (((fl binary64 (1) (0)), (fl binary64 (-3) (0))), trv)) Invalid_operand_exception));
  (6828, (bind get_flags (fun v1 => ret (N.eqb v1 invalid_operand_bit))));
  (6829, clear_flags);
  (6830, (set_cwd none_bit))].

(** lines 6833-6853 *)
Definition minimal_trunc_dec_mixedtype_test : list (N * M bool) := [
  (6835, (bind (@trunc_dec_mixed binary64 binary32 (((fl binary32 (9227469) (-23)), (fl binary32 (4404019) (-21))), com)) (fun v1 => ret (dieq v1 (((fl binary64 (1) (0)), (fl binary64 (1) (1))), def)))));
  (6836, (bind (@trunc_dec_mixed binary32 binary64 (((fl binary64 (-2476979795053773) (-51)), (fl binary64 (-3602879701896397) (-53))), trv)) (fun v1 => ret (dieq v1 (((fl binary32 (-1) (0)), (@f0 binary32)), trv)))));
  (6837, (bind (@trunc_dec_mixed binary64 binary32 (((fl binary32 (-3) (-1)), (@finf binary32)), dac)) (fun v1 => ret (dieq v1 (((fl binary64 (-1) (0)), (@finf binary64)), def)))));
  (6838, (bind (@trunc_dec_mixed binary32 binary64 (((@fminf binary64), (fl binary64 (2476979795053773) (-50))), def)) (fun v1 => ret (dieq v1 (((@fminf binary32), (fl binary32 (1) (1))), def)))));
  (6839, (bind (@trunc_dec_mixed binary32 binary64 (((fl binary64 (9007199254740991) (971)), (fl binary64 (9007199254740991) (971))), com)) (fun v1 => ret (dieq v1 (((fl binary32 (16777215) (104)), (@finf binary32)), dac)))));
  (6840, (bind (@trunc_dec_mixed binary32 binary64 (((fl binary64 (9007199254740991) (971)), (@finf binary64)), dac)) (fun v1 => ret (dieq v1 (((fl binary32 (16777215) (104)), (@finf binary32)), def)))));
  (6842, (bind get_flags (fun v1 => ret (N.eqb v1 none_bit))));
  (6844, clear_flags);
  (6845, (bind (@trunc_dec_mixed binary32 binary64 (((fl binary64 (1) (0)), (fl binary64 (-9007199254740991) (971))), trv)) (fun v1 => @is_nai binary32 v1)));
  (6846, (bind get_flags (fun v1 => ret (N.eqb v1 invalid_operand_bit))));
  (6847, clear_flags);
  (6848, (set_cwd invalid_operand_bit));
  (6849, (throws (@trunc_dec_mixed binary64 binary32 (((fl binary32 (1) (0)), (fl binary32 (-3) (0))), trv)) Invalid_operand_exception));
  (6850, (bind get_flags (fun v1 => ret (N.eqb v1 invalid_operand_bit))));
  (6851, clear_flags);
  (6852, (set_cwd none_bit))].

(** lines 6859-6889 *)
Definition minimal_round_ties_to_even_test : list (N * M bool) := [
  (6861, (bind (@round_ties_to_even_itv binary64 (@empty binary64)) (fun v1 => @is_empty binary64 v1)));
  (6862, (bind (@round_ties_to_even_itv binary64 (@entire binary64)) (fun v1 => ret (ieq v1 (@entire binary64)))));
  (6863, (bind (@round_ties_to_even_itv binary64 ((fl binary64 (2476979795053773) (-51)), (fl binary64 (4728779608739021) (-51)))) (fun v1 => ret (ieq v1 ((fl binary64 (1) (0)), (fl binary64 (1) (1)))))));
  (6864, (bind (@round_ties_to_even_itv binary64 ((fl binary64 (-2476979795053773) (-51)), (fl binary64 (1) (1)))) (fun v1 => ret (ieq v1 ((fl binary64 (-1) (0)), (fl binary64 (1) (1)))))));
  (6865, (bind (@round_ties_to_even_itv binary64 ((fl binary64 (-2476979795053773) (-51)), (fl binary64 (-3602879701896397) (-53)))) (fun v1 => ret (ieq v1 ((fl binary64 (-1) (0)), (@f0 binary64))))));
  (6866, (bind (@round_ties_to_even_itv binary64 ((fl binary64 (-2476979795053773) (-51)), (@f0 binary64))) (fun v1 => ret (ieq v1 ((fl binary64 (-1) (0)), (@f0 binary64))))));
  (6867, (bind (@round_ties_to_even_itv binary64 ((fl binary64 (-2476979795053773) (-51)), (@fm0 binary64))) (fun v1 => ret (ieq v1 ((fl binary64 (-1) (0)), (@f0 binary64))))));
  (6868, (bind (@round_ties_to_even_itv binary64 ((fl binary64 (-4278419646001971) (-51)), (fl binary64 (2476979795053773) (-50)))) (fun v1 => ret (ieq v1 ((fl binary64 (-1) (1)), (fl binary64 (1) (1)))))));
  (6869, (bind (@round_ties_to_even_itv binary64 ((fl binary64 (-1) (0)), (fl binary64 (2476979795053773) (-50)))) (fun v1 => ret (ieq v1 ((fl binary64 (-1) (0)), (fl binary64 (1) (1)))))));
  (6870, (bind (@round_ties_to_even_itv binary64 ((fl binary64 (3) (-1)), (fl binary64 (4728779608739021) (-51)))) (fun v1 => ret (ieq v1 ((fl binary64 (1) (1)), (fl binary64 (1) (1)))))));
  (6871, (bind (@round_ties_to_even_itv binary64 ((fl binary64 (-3) (-1)), (fl binary64 (1) (1)))) (fun v1 => ret (ieq v1 ((fl binary64 (-1) (1)), (fl binary64 (1) (1)))))));
  (6872, (bind (@round_ties_to_even_itv binary64 ((fl binary64 (-2476979795053773) (-51)), (fl binary64 (-1) (-1)))) (fun v1 => ret (ieq v1 ((fl binary64 (-1) (0)), (@f0 binary64))))));
  (6873, (bind (@round_ties_to_even_itv binary64 ((fl binary64 (-4278419646001971) (-51)), (fl binary64 (5) (-1)))) (fun v1 => ret (ieq v1 ((fl binary64 (-1) (1)), (fl binary64 (1) (1)))))));
  (6874, (bind (@round_ties_to_even_itv binary64 ((@f0 binary64), (fl binary64 (5) (-1)))) (fun v1 => ret (ieq v1 ((@f0 binary64), (fl binary64 (1) (1)))))));
  (6875, (bind (@round_ties_to_even_itv binary64 ((@fm0 binary64), (fl binary64 (5) (-1)))) (fun v1 => ret (ieq v1 ((@f0 binary64), (fl binary64 (1) (1)))))));
  (6876, (bind (@round_ties_to_even_itv binary64 ((fl binary64 (-3) (-1)), (fl binary64 (5) (-1)))) (fun v1 => ret (ieq v1 ((fl binary64 (-1) (1)), (fl binary64 (1) (1)))))));
  (6877, (bind (@round_ties_to_even_itv binary64 ((fl binary64 (-3) (-1)), (@finf binary64))) (fun v1 => ret (ieq v1 ((fl binary64 (-1) (1)), (@finf binary64))))));
  (6878, (bind (@round_ties_to_even_itv binary64 ((@fminf binary64), (fl binary64 (2476979795053773) (-50)))) (fun v1 => ret (ieq v1 ((@fminf binary64), (fl binary64 (1) (1)))))));
  (6880, clear_flags);
  (6881, (bind (@round_ties_to_even_itv binary64 ((fl binary64 (1) (0)), (fl binary64 (-9007199254740991) (971)))) (fun v1 => @is_empty binary64 v1)));
  (6882, (bind get_flags (fun v1 => ret (N.eqb v1 invalid_operand_bit))));
  (6883, clear_flags);
  (6884, (set_cwd invalid_operand_bit));
  (6885, (throws (@round_ties_to_even_itv binary64 ((fl binary64 (1) (0)), (fl binary64 (-3) (0)))) Invalid_operand_exception));
  (6886, (bind get_flags (fun v1 => ret (N.eqb v1 invalid_operand_bit))));
  (6887, clear_flags);
  (6888, (set_cwd none_bit))].

(** lines 6891-6909 *)
Definition minimal_round_ties_to_even_mixedtype_test : list (N * M bool) := [
  (6893, (bind (@rte_mixed binary64 binary32 ((fl binary32 (3) (-1)), (fl binary32 (4404019) (-21)))) (fun v1 => ret (ieq v1 ((fl binary64 (1) (1)), (fl binary64 (1) (1)))))));
  (6894, (bind (@rte_mixed binary32 binary64 ((fl binary64 (-3) (-1)), (fl binary64 (5) (-1)))) (fun v1 => ret (ieq v1 ((fl binary32 (-1) (1)), (fl binary32 (1) (1)))))));
  (6895, (bind (@rte_mixed binary32 binary64 ((fl binary64 (-3) (-1)), (@finf binary64))) (fun v1 => ret (ieq v1 ((fl binary32 (-1) (1)), (@finf binary32))))));
  (6898, (bind get_flags (fun v1 => ret (N.eqb v1 none_bit))));
  (6900, clear_flags);
  (6901, (bind (@rte_mixed binary32 binary64 ((fl binary64 (1) (0)), (fl binary64 (-9007199254740991) (971)))) (fun v1 => @is_empty binary32 v1)));
  (6902, (bind get_flags (fun v1 => ret (N.eqb v1 invalid_operand_bit))));
  (6903, clear_flags);
  (6904, (set_cwd invalid_operand_bit));
  (6905, (throws (@rte_mixed binary64 binary32 ((fl binary32 (1) (0)), (fl binary32 (-3) (0)))) Invalid_operand_exception));
  (6906, (bind get_flags (fun v1 => ret (N.eqb v1 invalid_operand_bit))));
  (6907, clear_flags);
  (6908, (set_cwd none_bit))].

(** lines 6911-6932 *)
Definition minimal_round_ties_to_even_dec_test : list (N * M bool) := [
  (6913, (bind (@round_ties_to_even_dec binary64 (((fl binary64 (2476979795053773) (-51)), (fl binary64 (4728779608739021) (-51))), com)) (fun v1 => ret (dieq v1 (((fl binary64 (1) (0)), (fl binary64 (1) (1))), def)))));
  (6914, (bind (@round_ties_to_even_dec binary64 (((fl binary64 (-2476979795053773) (-51)), (fl binary64 (1) (1))), trv)) (fun v1 => ret (dieq v1 (((fl binary64 (-1) (0)), (fl binary64 (1) (1))), trv)))));
  (6915, (bind (@round_ties_to_even_dec binary64 (((fl binary64 (-3602879701896397) (-51)), (fl binary64 (-3) (-1))), com)) (fun v1 => ret (dieq v1 (((fl binary64 (-1) (1)), (fl binary64 (-1) (1))), dac)))));
  (6916, (bind (@round_ties_to_even_dec binary64 (((fl binary64 (-3602879701896397) (-51)), (fl binary64 (-6980579422424269) (-52))), com)) (fun v1 => ret (dieq v1 (((fl binary64 (-1) (1)), (fl binary64 (-1) (1))), com)))));
  (6917, (bind (@round_ties_to_even_dec binary64 (((fl binary64 (-3602879701896397) (-51)), (fl binary64 (-3152519739159347) (-51))), com)) (fun v1 => ret (dieq v1 (((fl binary64 (-1) (1)), (fl binary64 (-1) (0))), def)))));
  (6918, (bind (@round_ties_to_even_dec binary64 (((fl binary64 (-3) (-1)), (@finf binary64)), dac)) (fun v1 => ret (dieq v1 (((fl binary64 (-1) (1)), (@finf binary64)), def)))));
  (6919, (bind (@round_ties_to_even_dec binary64 (((@fminf binary64), (fl binary64 (2476979795053773) (-50))), trv)) (fun v1 => ret (dieq v1 (((@fminf binary64), (fl binary64 (1) (1))), trv)))));
  (6921, (bind get_flags (fun v1 => ret (N.eqb v1 none_bit))));
  (6923, clear_flags);
  (6924, (bind (@round_ties_to_even_dec binary64 (((fl binary64 (1) (0)), (fl binary64 (-9007199254740991) (971))), trv)) (fun v1 => @is_nai binary64 v1)));
  (6925, (bind get_flags (fun v1 => ret (N.eqb v1 invalid_operand_bit))));
  (6926, clear_flags);
  (6927, (set_cwd invalid_operand_bit));
  (6928, (throws (@round_ties_to_even_dec binary64 (((fl binary64 (1) (0)), (fl binary64 (-3) (0))), trv)) Invalid_operand_exception));
  (6929, (bind get_flags (fun v1 => ret (N.eqb v1 invalid_operand_bit))));
  (6930, clear_flags);
  (6931, (set_cwd none_bit))].

(** lines 6934-6951 *)
Definition minimal_round_ties_to_even_dec_mixedtype_test : list (N * M bool) := [
  (6936, (bind (@rte_dec_mixed binary64 binary32 (((fl binary32 (3) (-1)), (fl binary32 (4404019) (-21))), com)) (fun v1 => ret (dieq v1 (((fl binary64 (1) (1)), (fl binary64 (1) (1))), dac)))));
  (6937, (bind (@rte_dec_mixed binary32 binary64 (((fl binary64 (-3) (-1)), (fl binary64 (5) (-1))), com)) (fun v1 => ret (dieq v1 (((fl binary32 (-1) (1)), (fl binary32 (1) (1))), def)))));
  (6938, (bind (@rte_dec_mixed binary32 binary64 (((fl binary64 (-3) (-1)), (@finf binary64)), dac)) (fun v1 => ret (dieq v1 (((fl binary32 (-1) (1)), (@finf binary32)), def)))));
  (6940, (bind get_flags (fun v1 => ret (N.eqb v1 none_bit))));
  (6942, clear_flags);
  (6943, (bind (@rte_dec_mixed binary32 binary64 (((fl binary64 (1) (0)), (fl binary64 (-9007199254740991) (971))), trv)) (fun v1 => @is_nai binary32 v1)));
  (6944, (bind get_flags (fun v1 => ret (N.eqb v1 invalid_operand_bit))));
  (6945, clear_flags);
  (6946, (set_cwd invalid_operand_bit));
  (6947, (throws (@rte_dec_mixed binary64 binary32 (((fl binary32 (1) (0)), (fl binary32 (-3) (0))), trv)) Invalid_operand_exception));
  (6948, (bind get_flags (fun v1 => ret (N.eqb v1 invalid_operand_bit))));
  (6949, clear_flags);
  (6950, (set_cwd none_bit))].

(** lines 6956-6986 *)
Definition minimal_round_ties_to_away_test : list (N * M bool) := [
  (6958, (bind (@round_ties_to_away_itv binary64 (@empty binary64)) (fun v1 => @is_empty binary64 v1)));
  (6959, (bind (@round_ties_to_away_itv binary64 (@entire binary64)) (fun v1 => ret (ieq v1 (@entire binary64)))));
  (6960, (bind (@round_ties_to_away_itv binary64 ((fl binary64 (2476979795053773) (-51)), (fl binary64 (4728779608739021) (-51)))) (fun v1 => ret (ieq v1 ((fl binary64 (1) (0)), (fl binary64 (1) (1)))))));
  (6961, (bind (@round_ties_to_away_itv binary64 ((fl binary64 (-2476979795053773) (-51)), (fl binary64 (1) (1)))) (fun v1 => ret (ieq v1 ((fl binary64 (-1) (0)), (fl binary64 (1) (1)))))));
  (6962, (bind (@round_ties_to_away_itv binary64 ((fl binary64 (-2476979795053773) (-51)), (@f0 binary64))) (fun v1 => ret (ieq v1 ((fl binary64 (-1) (0)), (@f0 binary64))))));
  (6963, (bind (@round_ties_to_away_itv binary64 ((fl binary64 (-2476979795053773) (-51)), (@fm0 binary64))) (fun v1 => ret (ieq v1 ((fl binary64 (-1) (0)), (@fm0 binary64))))));
  (6964, (bind (@round_ties_to_away_itv binary64 ((fl binary64 (-2476979795053773) (-51)), (fl binary64 (-3602879701896397) (-53)))) (fun v1 => ret (ieq v1 ((fl binary64 (-1) (0)), (@f0 binary64))))));
  (6965, (bind (@round_ties_to_away_itv binary64 ((fl binary64 (-4278419646001971) (-51)), (fl binary64 (2476979795053773) (-50)))) (fun v1 => ret (ieq v1 ((fl binary64 (-1) (1)), (fl binary64 (1) (1)))))));
  (6966, (bind (@round_ties_to_away_itv binary64 ((fl binary64 (-1) (0)), (fl binary64 (2476979795053773) (-50)))) (fun v1 => ret (ieq v1 ((fl binary64 (-1) (0)), (fl binary64 (1) (1)))))));
  (6967, (bind (@round_ties_to_away_itv binary64 ((fl binary64 (1) (-1)), (fl binary64 (4728779608739021) (-51)))) (fun v1 => ret (ieq v1 ((fl binary64 (1) (0)), (fl binary64 (1) (1)))))));
  (6968, (bind (@round_ties_to_away_itv binary64 ((fl binary64 (-5) (-1)), (fl binary64 (1) (1)))) (fun v1 => ret (ieq v1 ((fl binary64 (-3) (0)), (fl binary64 (1) (1)))))));
  (6969, (bind (@round_ties_to_away_itv binary64 ((fl binary64 (-2476979795053773) (-51)), (fl binary64 (-1) (-1)))) (fun v1 => ret (ieq v1 ((fl binary64 (-1) (0)), (fl binary64 (-1) (0)))))));
  (6970, (bind (@round_ties_to_away_itv binary64 ((fl binary64 (-4278419646001971) (-51)), (fl binary64 (5) (-1)))) (fun v1 => ret (ieq v1 ((fl binary64 (-1) (1)), (fl binary64 (3) (0)))))));
  (6971, (bind (@round_ties_to_away_itv binary64 ((fl binary64 (-3) (-1)), (fl binary64 (5) (-1)))) (fun v1 => ret (ieq v1 ((fl binary64 (-1) (1)), (fl binary64 (3) (0)))))));
  (6972, (bind (@round_ties_to_away_itv binary64 ((@f0 binary64), (fl binary64 (5) (-1)))) (fun v1 => ret (ieq v1 ((@f0 binary64), (fl binary64 (3) (0)))))));
  (6973, (bind (@round_ties_to_away_itv binary64 ((@fm0 binary64), (fl binary64 (5) (-1)))) (fun v1 => ret (ieq v1 ((@f0 binary64), (fl binary64 (3) (0)))))));
  (6974, (bind (@round_ties_to_away_itv binary64 ((fl binary64 (-3) (-1)), (@finf binary64))) (fun v1 => ret (ieq v1 ((fl binary64 (-1) (1)), (@finf binary64))))));
  (6975, (bind (@round_ties_to_away_itv binary64 ((@fminf binary64), (fl binary64 (2476979795053773) (-50)))) (fun v1 => ret (ieq v1 ((@fminf binary64), (fl binary64 (1) (1)))))));
  (6977, clear_flags);
  (6978, (bind (@round_ties_to_away_itv binary64 ((fl binary64 (1) (0)), (fl binary64 (-9007199254740991) (971)))) (fun v1 => @is_empty binary64 v1)));
  (6979, (bind get_flags (fun v1 => ret (N.eqb v1 invalid_operand_bit))));
  (6980, clear_flags);
  (6981, (set_cwd invalid_operand_bit));
  (6982, (throws (@round_ties_to_away_itv binary64 ((fl binary64 (1) (0)), (fl binary64 (-3) (0)))) Invalid_operand_exception));
  (6983, (bind get_flags (fun v1 => ret (N.eqb v1 invalid_operand_bit))));
  (6984, clear_flags);
  (6985, (set_cwd none_bit))].

(** lines 6988-7005 *)
Definition minimal_round_ties_to_away_mixedtype_test : list (N * M bool) := [
  (6990, (bind (@rta_mixed binary64 binary32 ((fl binary32 (3) (-1)), (fl binary32 (4404019) (-21)))) (fun v1 => ret (ieq v1 ((fl binary64 (1) (1)), (fl binary64 (1) (1)))))));
  (6991, (bind (@rta_mixed binary32 binary64 ((fl binary64 (-3) (-1)), (fl binary64 (5) (-1)))) (fun v1 => ret (ieq v1 ((fl binary32 (-1) (1)), (fl binary32 (3) (0)))))));
  (6992, (bind (@rta_mixed binary32 binary64 ((fl binary64 (-3) (-1)), (@finf binary64))) (fun v1 => ret (ieq v1 ((fl binary32 (-1) (1)), (@finf binary32))))));
  (6994, (bind get_flags (fun v1 => ret (N.eqb v1 none_bit))));
  (6996, clear_flags);
  (6997, (bind (@rta_mixed binary32 binary64 ((fl binary64 (1) (0)), (fl binary64 (-9007199254740991) (971)))) (fun v1 => @is_empty binary32 v1)));
  (6998, (bind get_flags (fun v1 => ret (N.eqb v1 invalid_operand_bit))));
  (6999, clear_flags);
  (7000, (set_cwd invalid_operand_bit));
  (7001, (throws (@rta_mixed binary64 binary32 ((fl binary32 (1) (0)), (fl binary32 (-3) (0)))) Invalid_operand_exception));
  (7002, (bind get_flags (fun v1 => ret (N.eqb v1 invalid_operand_bit))));
  (7003, clear_flags);
  (7004, (set_cwd none_bit))].

(** lines 7007-7029 *)
Definition minimal_round_ties_to_away_dec_test : list (N * M bool) := [
  (7010, (bind (@round_ties_to_away_dec binary64 (((fl binary64 (2476979795053773) (-51)), (fl binary64 (4728779608739021) (-51))), com)) (fun v1 => ret (dieq v1 (((fl binary64 (1) (0)), (fl binary64 (1) (1))), def)))));
  (7011, (bind (@round_ties_to_away_dec binary64 (((fl binary64 (-4278419646001971) (-51)), (fl binary64 (2476979795053773) (-50))), com)) (fun v1 => ret (dieq v1 (((fl binary64 (-1) (1)), (fl binary64 (1) (1))), def)))));
  (7012, (bind (@round_ties_to_away_dec binary64 (((fl binary64 (4278419646001971) (-51)), (fl binary64 (2476979795053773) (-50))), com)) (fun v1 => ret (dieq v1 (((fl binary64 (1) (1)), (fl binary64 (1) (1))), com)))));
  (7013, (bind (@round_ties_to_away_dec binary64 (((fl binary64 (-1) (0)), (fl binary64 (2476979795053773) (-50))), trv)) (fun v1 => ret (dieq v1 (((fl binary64 (-1) (0)), (fl binary64 (1) (1))), trv)))));
  (7014, (bind (@round_ties_to_away_dec binary64 (((fl binary64 (5) (-1)), (fl binary64 (5854679515581645) (-51))), com)) (fun v1 => ret (dieq v1 (((fl binary64 (3) (0)), (fl binary64 (3) (0))), dac)))));
  (7015, (bind (@round_ties_to_away_dec binary64 (((fl binary64 (-3) (-1)), (@finf binary64)), dac)) (fun v1 => ret (dieq v1 (((fl binary64 (-1) (1)), (@finf binary64)), def)))));
  (7016, (bind (@round_ties_to_away_dec binary64 (((@fminf binary64), (fl binary64 (2476979795053773) (-50))), def)) (fun v1 => ret (dieq v1 (((@fminf binary64), (fl binary64 (1) (1))), def)))));
  (7018, (bind get_flags (fun v1 => ret (N.eqb v1 none_bit))));
  (7020, clear_flags);
  (7021, (bind (@round_ties_to_away_dec binary64 (((fl binary64 (1) (0)), (fl binary64 (-9007199254740991) (971))), trv)) (fun v1 => @is_nai binary64 v1)));
  (7022, (bind get_flags (fun v1 => ret (N.eqb v1 invalid_operand_bit))));
  (7023, clear_flags);
  (7024, (set_cwd invalid_operand_bit));
  (7025, (throws (@round_ties_to_away_dec binary64 (((fl binary64 (1) (0)), (fl binary64 (-3) (0))), trv)) Invalid_operand_exception));
  (7026, (bind get_flags (fun v1 => ret (N.eqb v1 invalid_operand_bit))));
  (7027, clear_flags);
  (7028, (set_cwd none_bit))].

(** lines 7031-7048 *)
Definition minimal_round_ties_to_away_dec_mixedtype_test : list (N * M bool) := [
  (7033, (bind (@rta_dec_mixed binary64 binary32 (((fl binary32 (3) (-1)), (fl binary32 (4404019) (-21))), com)) (fun v1 => ret (dieq v1 (((fl binary64 (1) (1)), (fl binary64 (1) (1))), dac)))));
  (7034, (bind (@rta_dec_mixed binary32 binary64 (((fl binary64 (-3) (-1)), (fl binary64 (5) (-1))), com)) (fun v1 => ret (dieq v1 (((fl binary32 (-1) (1)), (fl binary32 (3) (0))), def)))));
  (7035, (bind (@rta_dec_mixed binary32 binary64 (((fl binary64 (-3) (-1)), (@finf binary64)), dac)) (fun v1 => ret (dieq v1 (((fl binary32 (-1) (1)), (@finf binary32)), def)))));
  (7037, (bind get_flags (fun v1 => ret (N.eqb v1 none_bit))));
  (7039, clear_flags);
  (7040, (bind (@rta_dec_mixed binary32 binary64 (((fl binary64 (1) (0)), (fl binary64 (-9007199254740991) (971))), trv)) (fun v1 => @is_nai binary32 v1)));
  (7041, (bind get_flags (fun v1 => ret (N.eqb v1 invalid_operand_bit))));
  (7042, clear_flags);
  (7043, (set_cwd invalid_operand_bit));
  (7044, (throws (@rta_dec_mixed binary64 binary32 (((fl binary32 (1) (0)), (fl binary32 (-3) (0))), trv)) Invalid_operand_exception));
  (7045, (bind get_flags (fun v1 => ret (N.eqb v1 invalid_operand_bit))));
  (7046, clear_flags);
  (7047, (set_cwd none_bit))].

(** lines 7053-7077 *)
Definition minimal_abs_test : list (N * M bool) := [
  (7055, (bind (@abs binary64 (@empty binary64)) (fun v1 => @is_empty binary64 v1)));
  (7056, (bind (@abs binary64 (@entire binary64)) (fun v1 => ret (ieq v1 ((@f0 binary64), (@finf binary64))))));
  (7057, (bind (@abs binary64 ((fl binary64 (2476979795053773) (-51)), (fl binary64 (4728779608739021) (-51)))) (fun v1 => ret (ieq v1 ((fl binary64 (2476979795053773) (-51)), (fl binary64 (4728779608739021) (-51)))))));
  (7058, (bind (@abs binary64 ((fl binary64 (-2476979795053773) (-51)), (fl binary64 (1) (1)))) (fun v1 => ret (ieq v1 ((@f0 binary64), (fl binary64 (1) (1)))))));
  (7059, (bind (@abs binary64 ((fl binary64 (-2476979795053773) (-51)), (@f0 binary64))) (fun v1 => ret (ieq v1 ((@f0 binary64), (fl binary64 (2476979795053773) (-51)))))));
  (7060, (bind (@abs binary64 ((fl binary64 (-2476979795053773) (-51)), (@fm0 binary64))) (fun v1 => ret (ieq v1 ((@f0 binary64), (fl binary64 (2476979795053773) (-51)))))));
  (7061, (bind (@abs binary64 ((fl binary64 (-2476979795053773) (-51)), (fl binary64 (-3602879701896397) (-53)))) (fun v1 => ret (ieq v1 ((fl binary64 (3602879701896397) (-53)), (fl binary64 (2476979795053773) (-51)))))));
  (7062, (bind (@abs binary64 ((fl binary64 (-4278419646001971) (-51)), (fl binary64 (3602879701896397) (-54)))) (fun v1 => ret (ieq v1 ((@f0 binary64), (fl binary64 (4278419646001971) (-51)))))));
  (7063, (bind (@abs binary64 ((@f0 binary64), (fl binary64 (3602879701896397) (-54)))) (fun v1 => ret (ieq v1 ((@f0 binary64), (fl binary64 (3602879701896397) (-54)))))));
  (7064, (bind (@abs binary64 ((@fm0 binary64), (fl binary64 (3602879701896397) (-54)))) (fun v1 => ret (ieq v1 ((@f0 binary64), (fl binary64 (3602879701896397) (-54)))))));
  (7065, (bind (@abs binary64 ((fl binary64 (-3) (-1)), (@finf binary64))) (fun v1 => ret (ieq v1 ((@f0 binary64), (@finf binary64))))));
  (7066, (bind (@abs binary64 ((@fminf binary64), (fl binary64 (-2476979795053773) (-50)))) (fun v1 => ret (ieq v1 ((fl binary64 (2476979795053773) (-50)), (@finf binary64))))));
  (7068, clear_flags);
  (7069, (bind (@abs binary64 ((fl binary64 (1) (0)), (fl binary64 (-9007199254740991) (971)))) (fun v1 => @is_empty binary64 v1)));
  (7070, (bind get_flags (fun v1 => ret (N.eqb v1 invalid_operand_bit))));
  (7071, clear_flags);
  (7072, (set_cwd invalid_operand_bit));
  (7073, (throws (@abs binary64 ((fl binary64 (1) (0)), (fl binary64 (-3) (0)))) Invalid_operand_exception));
  (7074, (bind get_flags (fun v1 => ret (N.eqb v1 invalid_operand_bit))));
  (7075, clear_flags);
  (7076, (set_cwd none_bit))].

(** lines 7079-7097 *)
Definition minimal_abs_mixedtype_test : list (N * M bool) := [
  (7081, (bind (@abs_mixed binary32 binary64 ((fl binary64 (-2476979795053773) (-51)), (fl binary64 (-3602879701896397) (-53)))) (fun v1 => ret (ieq v1 ((fl binary32 (3355443) (-23)), (fl binary32 (9227469) (-23)))))));
  (7082, (bind (@abs_mixed binary64 binary32 ((@f0 binary32), (fl binary32 (13421773) (-26)))) (fun v1 => ret (ieq v1 ((@f0 binary64), (fl binary64 (13421773) (-26)))))));
  (7083, (bind (@abs_mixed binary32 binary64 ((@fm0 binary64), (fl binary64 (3602879701896397) (-54)))) (fun v1 => ret (ieq v1 ((@f0 binary32), (fl binary32 (13421773) (-26)))))));
  (7084, (bind (@abs_mixed binary32 binary64 ((fl binary64 (-3) (-1)), (@finf binary64))) (fun v1 => ret (ieq v1 ((@f0 binary32), (@finf binary32))))));
  (7086, (bind get_flags (fun v1 => ret (N.eqb v1 none_bit))));
  (7088, clear_flags);
  (7089, (bind (@abs_mixed binary32 binary64 ((fl binary64 (1) (0)), (fl binary64 (-9007199254740991) (971)))) (fun v1 => @is_empty binary32 v1)));
  (7090, (bind get_flags (fun v1 => ret (N.eqb v1 invalid_operand_bit))));
  (7091, clear_flags);
  (7092, (set_cwd invalid_operand_bit));
  (7093, (throws (@abs_mixed binary64 binary32 ((fl binary32 (1) (0)), (fl binary32 (-3) (0)))) Invalid_operand_exception));
  (7094, (bind get_flags (fun v1 => ret (N.eqb v1 invalid_operand_bit))));
  (7095, clear_flags);
  (7096, (set_cwd none_bit))].

(** lines 7099-7121 *)
Definition minimal_abs_dec_test : list (N * M bool) := [
  (7101, (bind (@abs_dec binary64 (((fl binary64 (-2476979795053773) (-51)), (fl binary64 (1) (1))), com)) (fun v1 => ret (dieq v1 (((@f0 binary64), (fl binary64 (1) (1))), com)))));
  (7102, (bind (@abs_dec binary64 (((fl binary64 (-2476979795053773) (-51)), (@f0 binary64)), dac)) (fun v1 => ret (dieq v1 (((@f0 binary64), (fl binary64 (2476979795053773) (-51))), dac)))));
  (7103, (bind (@abs_dec binary64 (((fl binary64 (-2476979795053773) (-51)), (@fm0 binary64)), def)) (fun v1 => ret (dieq v1 (((@f0 binary64), (fl binary64 (2476979795053773) (-51))), def)))));
  (7104, (bind (@abs_dec binary64 (((fl binary64 (-2476979795053773) (-51)), (fl binary64 (-3602879701896397) (-53))), trv)) (fun v1 => ret (dieq v1 (((fl binary64 (3602879701896397) (-53)), (fl binary64 (2476979795053773) (-51))), trv)))));
  (7105, (bind (@abs_dec binary64 (((fl binary64 (-4278419646001971) (-51)), (fl binary64 (3602879701896397) (-54))), dac)) (fun v1 => ret (dieq v1 (((@f0 binary64), (fl binary64 (4278419646001971) (-51))), dac)))));
  (7106, (bind (@abs_dec binary64 (((@f0 binary64), (fl binary64 (3602879701896397) (-54))), def)) (fun v1 => ret (dieq v1 (((@f0 binary64), (fl binary64 (3602879701896397) (-54))), def)))));
  (7107, (bind (@abs_dec binary64 (((@fm0 binary64), (fl binary64 (3602879701896397) (-54))), com)) (fun v1 => ret (dieq v1 (((@f0 binary64), (fl binary64 (3602879701896397) (-54))), com)))));
  (7108, (bind (@abs_dec binary64 (((fl binary64 (-3) (-1)), (@finf binary64)), dac)) (fun v1 => ret (dieq v1 (((@f0 binary64), (@finf binary64)), dac)))));
  (7110, (bind get_flags (fun v1 => ret (N.eqb v1 none_bit))));
  (7112, clear_flags);
  (7113, (bind (@abs_dec binary64 (((fl binary64 (1) (0)), (fl binary64 (-9007199254740991) (971))), trv)) (fun v1 => @is_nai binary64 v1)));
  (7114, (bind get_flags (fun v1 => ret (N.eqb v1 invalid_operand_bit))));
  (7115, clear_flags);
  (7116, (set_cwd invalid_operand_bit));
  (7117, (throws (@abs_dec binary64 (((fl binary64 (1) (0)), (fl binary64 (-3) (0))), trv)) Invalid_operand_exception));
  (7118, (bind get_flags (fun v1 => ret (N.eqb v1 invalid_operand_bit))));
  (7119, clear_flags);
  (7120, (set_cwd none_bit))].

(** lines 7123-7141 *)
Definition minimal_abs_dec_mixedtype_test : list (N * M bool) := [
  (7125, (bind (@abs_dec_mixed binary32 binary64 (((fl binary64 (-2476979795053773) (-51)), (fl binary64 (-3602879701896397) (-53))), com)) (fun v1 => ret (dieq v1 (((fl binary32 (3355443) (-23)), (fl binary32 (9227469) (-23))), com)))));
  (7126, (bind (@abs_dec_mixed binary64 binary32 (((@f0 binary32), (fl binary32 (13421773) (-26))), def)) (fun v1 => ret (dieq v1 (((@f0 binary64), (fl binary64 (13421773) (-26))), def)))));
  (7127, (bind (@abs_dec_mixed binary32 binary64 (((@fm0 binary64), (fl binary64 (3602879701896397) (-54))), dac)) (fun v1 => ret (dieq v1 (((@f0 binary32), (fl binary32 (13421773) (-26))), dac)))));
  (7128, (bind (@abs_dec_mixed binary32 binary64 (((fl binary64 (-3) (-1)), (@finf binary64)), trv)) (fun v1 => ret (dieq v1 (((@f0 binary32), (@finf binary32)), trv)))));
  (7130, (bind get_flags (fun v1 => ret (N.eqb v1 none_bit))));
  (7132, clear_flags);
  (7133, (bind (@abs_dec_mixed binary32 binary64 (((fl binary64 (1) (0)), (fl binary64 (-9007199254740991) (971))), trv)) (fun v1 => @is_nai binary32 v1)));
  (7134, (bind get_flags (fun v1 => ret (N.eqb v1 invalid_operand_bit))));
  (7135, clear_flags);
  (7136, (set_cwd invalid_operand_bit));
  (7137, (throws (@abs_dec_mixed binary64 binary32 (((fl binary32 (1) (0)), (fl binary32 (-3) (0))), trv)) Invalid_operand_exception));
  (7138, (bind get_flags (fun v1 => ret (N.eqb v1 invalid_operand_bit))));
  (7139, clear_flags);
  (7140, (set_cwd none_bit))].

(** lines 7147-7174 *)
Definition minimal_min_test : list (N * M bool) := [
  (7149, (bind (@min binary64 (@empty binary64) ((fl binary64 (1) (0)), (fl binary64 (1) (1)))) (fun v1 => @is_empty binary64 v1)));
  (7150, (bind (@min binary64 ((fl binary64 (1) (0)), (fl binary64 (1) (1))) (@empty binary64)) (fun v1 => @is_empty binary64 v1)));
  (7151, (bind (@min binary64 (@empty binary64) (@empty binary64)) (fun v1 => @is_empty binary64 v1)));
  (7152, (bind (@min binary64 (@entire binary64) ((fl binary64 (1) (0)), (fl binary64 (1) (1)))) (fun v1 => ret (ieq v1 ((@fminf binary64), (fl binary64 (1) (1)))))));
  (7153, (bind (@min binary64 ((fl binary64 (1) (0)), (fl binary64 (1) (1))) (@entire binary64)) (fun v1 => ret (ieq v1 ((@fminf binary64), (fl binary64 (1) (1)))))));
  (7154, (bind (@min binary64 (@entire binary64) (@entire binary64)) (fun v1 => ret (ieq v1 (@entire binary64)))));
  (7155, (bind (@min binary64 (@empty binary64) (@entire binary64)) (fun v1 => @is_empty binary64 v1)));
  (7156, (bind (@min binary64 ((fl binary64 (1) (0)), (fl binary64 (5) (0))) ((fl binary64 (1) (1)), (fl binary64 (1) (2)))) (fun v1 => ret (ieq v1 ((fl binary64 (1) (0)), (fl binary64 (1) (2)))))));
  (7157, (bind (@min binary64 ((@f0 binary64), (fl binary64 (5) (0))) ((fl binary64 (1) (1)), (fl binary64 (1) (2)))) (fun v1 => ret (ieq v1 ((@f0 binary64), (fl binary64 (1) (2)))))));
  (7158, (bind (@min binary64 ((@fm0 binary64), (fl binary64 (5) (0))) ((fl binary64 (1) (1)), (fl binary64 (1) (2)))) (fun v1 => ret (ieq v1 ((@f0 binary64), (fl binary64 (1) (2)))))));
  (7159, (bind (@min binary64 ((fl binary64 (1) (0)), (fl binary64 (5) (0))) ((fl binary64 (1) (1)), (fl binary64 (1) (3)))) (fun v1 => ret (ieq v1 ((fl binary64 (1) (0)), (fl binary64 (5) (0)))))));
  (7160, (bind (@min binary64 ((fl binary64 (1) (0)), (fl binary64 (5) (0))) (@entire binary64)) (fun v1 => ret (ieq v1 ((@fminf binary64), (fl binary64 (5) (0)))))));
  (7161, (bind (@min binary64 ((fl binary64 (-7) (0)), (fl binary64 (-5) (0))) ((fl binary64 (1) (1)), (fl binary64 (1) (2)))) (fun v1 => ret (ieq v1 ((fl binary64 (-7) (0)), (fl binary64 (-5) (0)))))));
  (7162, (bind (@min binary64 ((fl binary64 (-7) (0)), (@f0 binary64)) ((fl binary64 (1) (1)), (fl binary64 (1) (2)))) (fun v1 => ret (ieq v1 ((fl binary64 (-7) (0)), (@f0 binary64))))));
  (7163, (bind (@min binary64 ((fl binary64 (-7) (0)), (@fm0 binary64)) ((fl binary64 (1) (1)), (fl binary64 (1) (2)))) (fun v1 => ret (ieq v1 ((fl binary64 (-7) (0)), (@f0 binary64))))));
  (7165, clear_flags);
  (7166, (bind (@min binary64 ((fl binary64 (1) (0)), (fl binary64 (-9007199254740991) (971))) ((fl binary64 (1) (0)), (fl binary64 (1) (1)))) (fun v1 => @is_empty binary64 v1)));
  (7167, (bind get_flags (fun v1 => ret (N.eqb v1 invalid_operand_bit))));
  (7168, clear_flags);
  (7169, (set_cwd invalid_operand_bit));
  (7170, (throws (@min binary64 ((fl binary64 (1) (0)), (fl binary64 (3) (0))) ((fl binary64 (1) (0)), (fl binary64 (-3) (0)))) Invalid_operand_exception));
  (7171, (bind get_flags (fun v1 => ret (N.eqb v1 invalid_operand_bit))));
  (7172, clear_flags);
  (7173, (set_cwd none_bit))].

(** lines 7176-7193 *)
Definition minimal_min_mixedtype_test : list (N * M bool) := [
  (7179, (bind (@min_mixed binary64 binary32 binary32 (@entire binary32) ((fl binary32 (1) (0)), (fl binary32 (1) (1)))) (fun v1 => ret (ieq v1 ((@fminf binary64), (fl binary64 (1) (1)))))));
  (7180, (bind (@min_mixed binary32 binary64 binary64 ((fl binary64 (3602879701896397) (-55)), (fl binary64 (5) (0))) ((fl binary64 (1) (1)), (fl binary64 (2308094809027379) (-49)))) (fun v1 => ret (ieq v1 ((fl binary32 (3355443) (-25)), (fl binary32 (2149581) (-19)))))));
  (7182, (bind get_flags (fun v1 => ret (N.eqb v1 none_bit))));
  (7184, clear_flags);
  (7185, (bind (@min_mixed binary32 binary64 binary64 ((fl binary64 (1) (0)), (fl binary64 (-9007199254740991) (971))) ((fl binary64 (1) (0)), (fl binary64 (1) (1)))) (fun v1 => @is_empty binary32 v1)));
  (7186, (bind get_flags (fun v1 => ret (N.eqb v1 invalid_operand_bit))));
  (7187, clear_flags);
  (7188, (set_cwd invalid_operand_bit));
  (7189, (throws (@min_mixed binary64 binary32 binary32 ((fl binary32 (1) (0)), (fl binary32 (3) (0))) ((fl binary32 (1) (0)), (fl binary32 (-3) (0)))) Invalid_operand_exception));
  (7190, (bind get_flags (fun v1 => ret (N.eqb v1 invalid_operand_bit))));
  (7191, clear_flags);
  (7192, (set_cwd none_bit))].

(** lines 7195-7213 *)
Definition minimal_min_dec_test : list (N * M bool) := [
  (7197, (bind (@min_dec binary64 (@entire_dec binary64) (((fl binary64 (1) (0)), (fl binary64 (1) (1))), com)) (fun v1 => ret (dieq v1 (((@fminf binary64), (fl binary64 (1) (1))), dac)))));
  (7198, (bind (@min_dec binary64 (((fl binary64 (-7) (0)), (fl binary64 (-5) (0))), trv) (((fl binary64 (1) (1)), (fl binary64 (1) (2))), def)) (fun v1 => ret (dieq v1 (((fl binary64 (-7) (0)), (fl binary64 (-5) (0))), trv)))));
  (7199, (bind (@min_dec binary64 (((fl binary64 (-7) (0)), (@f0 binary64)), dac) (((fl binary64 (1) (1)), (fl binary64 (1) (2))), def)) (fun v1 => ret (dieq v1 (((fl binary64 (-7) (0)), (@f0 binary64)), def)))));
  (7200, (bind (@min_dec binary64 (((fl binary64 (-7) (0)), (@fm0 binary64)), com) (((fl binary64 (1) (1)), (fl binary64 (1) (2))), com)) (fun v1 => ret (dieq v1 (((fl binary64 (-7) (0)), (@f0 binary64)), com)))));
  (7202, (bind get_flags (fun v1 => ret (N.eqb v1 none_bit))));
  (7204, clear_flags);
  (7205, (bind (@min_dec binary64 (((fl binary64 (1) (0)), (fl binary64 (-9007199254740991) (971))), trv) (((fl binary64 (1) (0)), (fl binary64 (1) (1))), trv)) (fun v1 => @is_nai binary64 v1)));
  (7206, (bind get_flags (fun v1 => ret (N.eqb v1 invalid_operand_bit))));
  (7207, clear_flags);
  (7208, (set_cwd invalid_operand_bit));
  (7209, (throws (@min_dec binary64 (((fl binary64 (1) (0)), (fl binary64 (3) (0))), trv) (((fl binary64 (1) (0)), (fl binary64 (-3) (0))), trv)) Invalid_operand_exception));
  (7210, (bind get_flags (fun v1 => ret (N.eqb v1 invalid_operand_bit))));
  (7211, clear_flags);
  (7212, (set_cwd none_bit))].

(** lines 7215-7231 *)
Definition minimal_min_dec_mixedtype_test : list (N * M bool) := [
  (7217, (bind (@min_dec_mixed binary64 binary32 binary32 (@entire_dec binary32) (((fl binary32 (1) (0)), (fl binary32 (1) (1))), com)) (fun v1 => ret (dieq v1 (((@fminf binary64), (fl binary64 (1) (1))), dac)))));
  (7218, (bind (@min_dec_mixed binary32 binary64 binary64 (((fl binary64 (3602879701896397) (-55)), (fl binary64 (5) (0))), com) (((fl binary64 (1) (1)), (fl binary64 (2308094809027379) (-49))), com)) (fun v1 => ret (dieq v1 (((fl binary32 (3355443) (-25)), (fl binary32 (2149581) (-19))), com)))));
  (7220, (bind get_flags (fun v1 => ret (N.eqb v1 none_bit))));
  (7222, clear_flags);
  (7223, (bind (@min_dec_mixed binary32 binary64 binary64 (((fl binary64 (1) (0)), (fl binary64 (-9007199254740991) (971))), trv) (((fl binary64 (1) (0)), (fl binary64 (1) (1))), trv)) (fun v1 => @is_nai binary32 v1)));
  (7224, (bind get_flags (fun v1 => ret (N.eqb v1 invalid_operand_bit))));
  (7225, clear_flags);
  (7226, (set_cwd invalid_operand_bit));
  (7227, (throws (@min_dec_mixed binary64 binary32 binary32 (((fl binary32 (1) (0)), (fl binary32 (3) (0))), trv) (((fl binary32 (1) (0)), (fl binary32 (-3) (0))), trv)) Invalid_operand_exception));
  (7228, (bind get_flags (fun v1 => ret (N.eqb v1 invalid_operand_bit))));
  (7229, clear_flags);
  (7230, (set_cwd none_bit))].

(** lines 7237-7264 *)
Definition minimal_max_test : list (N * M bool) := [
  (7239, (bind (@max binary64 (@empty binary64) ((fl binary64 (1) (0)), (fl binary64 (1) (1)))) (fun v1 => @is_empty binary64 v1)));
  (7240, (bind (@max binary64 ((fl binary64 (1) (0)), (fl binary64 (1) (1))) (@empty binary64)) (fun v1 => @is_empty binary64 v1)));
  (7241, (bind (@max binary64 (@empty binary64) (@empty binary64)) (fun v1 => @is_empty binary64 v1)));
  (7242, (bind (@max binary64 (@entire binary64) ((fl binary64 (1) (0)), (fl binary64 (1) (1)))) (fun v1 => ret (ieq v1 ((fl binary64 (1) (0)), (@finf binary64))))));
  (7243, (bind (@max binary64 ((fl binary64 (1) (0)), (fl binary64 (1) (1))) (@entire binary64)) (fun v1 => ret (ieq v1 ((fl binary64 (1) (0)), (@finf binary64))))));
  (7244, (bind (@max binary64 (@entire binary64) (@entire binary64)) (fun v1 => ret (ieq v1 (@entire binary64)))));
  (7245, (bind (@max binary64 (@empty binary64) (@entire binary64)) (fun v1 => @is_empty binary64 v1)));
  (7246, (bind (@max binary64 ((fl binary64 (1) (0)), (fl binary64 (5) (0))) ((fl binary64 (1) (1)), (fl binary64 (1) (2)))) (fun v1 => ret (ieq v1 ((fl binary64 (1) (1)), (fl binary64 (5) (0)))))));
  (7247, (bind (@max binary64 ((fl binary64 (1) (0)), (fl binary64 (5) (0))) ((fl binary64 (1) (1)), (fl binary64 (1) (3)))) (fun v1 => ret (ieq v1 ((fl binary64 (1) (1)), (fl binary64 (1) (3)))))));
  (7248, (bind (@max binary64 ((fl binary64 (-1) (0)), (fl binary64 (5) (0))) (@entire binary64)) (fun v1 => ret (ieq v1 ((fl binary64 (-1) (0)), (@finf binary64))))));
  (7249, (bind (@max binary64 ((fl binary64 (-7) (0)), (fl binary64 (-5) (0))) ((fl binary64 (1) (1)), (fl binary64 (1) (2)))) (fun v1 => ret (ieq v1 ((fl binary64 (1) (1)), (fl binary64 (1) (2)))))));
  (7250, (bind (@max binary64 ((fl binary64 (-7) (0)), (fl binary64 (-5) (0))) ((@f0 binary64), (fl binary64 (1) (2)))) (fun v1 => ret (ieq v1 ((@f0 binary64), (fl binary64 (1) (2)))))));
  (7251, (bind (@max binary64 ((fl binary64 (-7) (0)), (fl binary64 (-5) (0))) ((@fm0 binary64), (fl binary64 (1) (2)))) (fun v1 => ret (ieq v1 ((@f0 binary64), (fl binary64 (1) (2)))))));
  (7252, (bind (@max binary64 ((fl binary64 (-7) (0)), (fl binary64 (-5) (0))) ((fl binary64 (-1) (1)), (@f0 binary64))) (fun v1 => ret (ieq v1 ((fl binary64 (-1) (1)), (@f0 binary64))))));
  (7253, (bind (@max binary64 ((fl binary64 (-7) (0)), (fl binary64 (-5) (0))) ((fl binary64 (-1) (1)), (@fm0 binary64))) (fun v1 => ret (ieq v1 ((fl binary64 (-1) (1)), (@f0 binary64))))));
  (7255, clear_flags);
  (7256, (bind (@max binary64 ((fl binary64 (1) (0)), (fl binary64 (-9007199254740991) (971))) ((fl binary64 (1) (0)), (fl binary64 (1) (1)))) (fun v1 => @is_empty binary64 v1)));
  (7257, (bind get_flags (fun v1 => ret (N.eqb v1 invalid_operand_bit))));
  (7258, clear_flags);
  (7259, (set_cwd invalid_operand_bit));
  (7260, (throws (@max binary64 ((fl binary64 (1) (0)), (fl binary64 (3) (0))) ((fl binary64 (1) (0)), (fl binary64 (-3) (0)))) Invalid_operand_exception));
  (7261, (bind get_flags (fun v1 => ret (N.eqb v1 invalid_operand_bit))));
  (7262, clear_flags);
  (7263, (set_cwd none_bit))].

(** lines 7266-7282 *)
Definition minimal_max_mixedtype_test : list (N * M bool) := [
  (7268, (bind (@max_mixed binary64 binary32 binary32 (@entire binary32) ((fl binary32 (1) (0)), (fl binary32 (1) (1)))) (fun v1 => ret (ieq v1 ((fl binary64 (1) (0)), (@finf binary64))))));
  (7269, (bind (@max_mixed binary32 binary64 binary64 ((fl binary64 (3602879701896397) (-55)), (fl binary64 (3) (0))) ((fl binary64 (-1) (1)), (fl binary64 (2308094809027379) (-49)))) (fun v1 => ret (ieq v1 ((fl binary32 (3355443) (-25)), (fl binary32 (2149581) (-19)))))));
  (7271, (bind get_flags (fun v1 => ret (N.eqb v1 none_bit))));
  (7273, clear_flags);
  (7274, (bind (@max_mixed binary32 binary64 binary64 ((fl binary64 (1) (0)), (fl binary64 (-9007199254740991) (971))) ((fl binary64 (1) (0)), (fl binary64 (1) (1)))) (fun v1 => @is_empty binary32 v1)));
  (7275, (bind get_flags (fun v1 => ret (N.eqb v1 invalid_operand_bit))));
  (7276, clear_flags);
  (7277, (set_cwd invalid_operand_bit));
  (7278, (throws (@max_mixed binary64 binary32 binary32 ((fl binary32 (1) (0)), (fl binary32 (3) (0))) ((fl binary32 (1) (0)), (fl binary32 (-3) (0)))) Invalid_operand_exception));
  (7279, (bind get_flags (fun v1 => ret (N.eqb v1 invalid_operand_bit))));
  (7280, clear_flags);
  (7281, (set_cwd none_bit))].

(** lines 7284-7302 *)
Definition minimal_max_dec_test : list (N * M bool) := [
  (7286, (bind (@max_dec binary64 (@entire_dec binary64) (((fl binary64 (1) (0)), (fl binary64 (1) (1))), com)) (fun v1 => ret (dieq v1 (((fl binary64 (1) (0)), (@finf binary64)), dac)))));
  (7287, (bind (@max_dec binary64 (((fl binary64 (-7) (0)), (fl binary64 (-5) (0))), trv) (((fl binary64 (1) (1)), (fl binary64 (1) (2))), def)) (fun v1 => ret (dieq v1 (((fl binary64 (1) (1)), (fl binary64 (1) (2))), trv)))));
  (7288, (bind (@max_dec binary64 (((fl binary64 (-7) (0)), (fl binary64 (5) (0))), dac) (((fl binary64 (1) (1)), (fl binary64 (1) (2))), def)) (fun v1 => ret (dieq v1 (((fl binary64 (1) (1)), (fl binary64 (5) (0))), def)))));
  (7289, (bind (@max_dec binary64 (((fl binary64 (3) (0)), (fl binary64 (7) (-1))), com) (((fl binary64 (1) (1)), (fl binary64 (1) (2))), com)) (fun v1 => ret (dieq v1 (((fl binary64 (3) (0)), (fl binary64 (1) (2))), com)))));
  (7291, (bind get_flags (fun v1 => ret (N.eqb v1 none_bit))));
  (7293, clear_flags);
  (7294, (bind (@max_dec binary64 (((fl binary64 (1) (0)), (fl binary64 (-9007199254740991) (971))), trv) (((fl binary64 (1) (0)), (fl binary64 (1) (1))), trv)) (fun v1 => @is_nai binary64 v1)));
  (7295, (bind get_flags (fun v1 => ret (N.eqb v1 invalid_operand_bit))));
  (7296, clear_flags);
  (7297, (set_cwd invalid_operand_bit));
  (7298, (throws (@max_dec binary64 (((fl binary64 (1) (0)), (fl binary64 (3) (0))), trv) (((fl binary64 (1) (0)), (fl binary64 (-3) (0))), trv)) Invalid_operand_exception));
  (7299, (bind get_flags (fun v1 => ret (N.eqb v1 invalid_operand_bit))));
  (7300, clear_flags);
  (7301, (set_cwd none_bit))].

(** lines 7304-7320 *)
Definition minimal_max_dec_mixedtype_test : list (N * M bool) := [
  (7306, (bind (@max_dec_mixed binary64 binary32 binary32 (@entire_dec binary32) (((fl binary32 (1) (0)), (fl binary32 (1) (1))), com)) (fun v1 => ret (dieq v1 (((fl binary64 (1) (0)), (@finf binary64)), dac)))));
  (7307, (bind (@max_dec_mixed binary32 binary64 binary64 (((fl binary64 (3602879701896397) (-55)), (fl binary64 (3) (0))), com) (((fl binary64 (-1) (1)), (fl binary64 (2308094809027379) (-49))), com)) (fun v1 => ret (dieq v1 (((fl binary32 (3355443) (-25)), (fl binary32 (2149581) (-19))), com)))));
  (7309, (bind get_flags (fun v1 => ret (N.eqb v1 none_bit))));
  (7311, clear_flags);
  (7312, (bind (@max_dec_mixed binary32 binary64 binary64 (((fl binary64 (1) (0)), (fl binary64 (-9007199254740991) (971))), trv) (((fl binary64 (1) (0)), (fl binary64 (1) (1))), trv)) (fun v1 => @is_nai binary32 v1)));
  (7313, (bind get_flags (fun v1 => ret (N.eqb v1 invalid_operand_bit))));
  (7314, clear_flags);
  (7315, (set_cwd invalid_operand_bit));
  (7316, (throws (@max_dec_mixed binary64 binary32 binary32 (((fl binary32 (1) (0)), (fl binary32 (3) (0))), trv) (((fl binary32 (1) (0)), (fl binary32 (-3) (0))), trv)) Invalid_operand_exception));
  (7317, (bind get_flags (fun v1 => ret (N.eqb v1 invalid_operand_bit))));
  (7318, clear_flags);
  (7319, (set_cwd none_bit))].

Example elem_func_agree : test_file [
  minimal_pos_test; minimal_pos_mixedtype_test; minimal_pos_dec_test; minimal_pos_dec_mixedtype_test; minimal_neg_test; minimal_neg_mixedtype_test; minimal_neg_dec_test; minimal_neg_dec_mixedtype_test; minimal_add_test; minimal_add_mixedtype_test; minimal_add_dec_test; minimal_add_dec_mixedtype_test; minimal_sub_test; minimal_sub_mixedtype_test; minimal_sub_dec_test; minimal_sub_dec_mixedtype_test; minimal_mul_test; minimal_mul_mixedtype_test; minimal_mul_dec_test; minimal_mul_dec_mixedtype_test; minimal_div_test; minimal_div_mixedtype_test; minimal_div_dec_test; minimal_div_dec_mixedtype_test; minimal_recip_test; minimal_recip_mixedtype_test; minimal_recip_dec_test; minimal_recip_dec_mixedtype_test; minimal_sqr_test; minimal_sqr_mixedtype_test; minimal_sqr_dec_test; minimal_sqr_dec_mixedtype_test; minimal_sqrt_test; minimal_sqrt_mixedtype_test; minimal_sqrt_dec_test; minimal_sqrt_dec_mixedtype_test; minimal_fma_test; minimal_fma_mixedtype_test; minimal_fma_dec_test; minimal_fma_dec_mixedtype_test; minimal_pown_test; minimal_pown_mixedtype_test; minimal_pown_dec_test; minimal_pown_dec_mixedtype_test; minimal_pow_test; minimal_pow_mixedtype_test; minimal_pow_dec_test; minimal_pow_dec_mixedtype_test; minimal_exp_test; minimal_exp_mixedtype_test; minimal_exp_dec_test; minimal_exp_dec_mixedtype_test; minimal_exp2_test; minimal_exp2_mixedtype_test; minimal_exp2_dec_test; minimal_exp2_dec_mixedtype_test; minimal_exp10_test; minimal_exp10_mixedtype_test; minimal_exp10_dec_test; minimal_exp10_dec_mixedtype_test; minimal_log_test; minimal_log_mixedtype_test; minimal_log_dec_test; minimal_log_dec_mixedtype_test; minimal_log2_test; minimal_log2_mixedtype_test; minimal_log2_dec_test; minimal_log2_dec_mixedtype_test; minimal_log10_test; minimal_log10_mixedtype_test; minimal_log10_dec_test; minimal_log10_dec_mixedtype_test; minimal_sin_test; minimal_sin_mixedtype_test; minimal_sin_dec_test; minimal_sin_dec_mixedtype_test; minimal_cos_test; minimal_cos_mixedtype_test; minimal_cos_dec_test; minimal_cos_dec_mixedtype_test; minimal_tan_test; minimal_tan_mixedtype_test; minimal_tan_dec_test; minimal_tan_dec_mixedtype_test; minimal_asin_test; minimal_asin_mixedtype_test; minimal_asin_dec_test; minimal_asin_dec_mixedtype_test; minimal_acos_test; minimal_acos_mixedtype_test; minimal_acos_dec_test; minimal_acos_dec_mixedtype_test; minimal_atan_test; minimal_atan_mixedtype_test; minimal_atan_dec_test; minimal_atan_dec_mixedtype_test; minimal_atan2_test; minimal_atan2_mixedtype_test; minimal_atan2_dec_test; minimal_atan2_dec_mixedtype_test; minimal_sinh_test; minimal_sinh_mixedtype_test; minimal_sinh_dec_test; minimal_sinh_dec_mixedtype_test; minimal_cosh_test; minimal_cosh_mixedtype_test; minimal_cosh_dec_test; minimal_cosh_dec_mixedtype_test; minimal_tanh_test; minimal_tanh_mixedtype_test; minimal_tanh_dec_test; minimal_tanh_dec_mixedtype_test; minimal_asinh_test; minimal_asinh_mixedtype_test; minimal_asinh_dec_test; minimal_asinh_dec_mixedtype_test; minimal_acosh_test; minimal_acosh_mixedtype_test; minimal_acosh_dec_test; minimal_acosh_dec_mixedtype_test; minimal_atanh_test; minimal_atanh_mixedtype_test; minimal_atanh_dec_test; minimal_atanh_dec_mixedtype_test; minimal_sign_test; minimal_sign_mixedtype_test; minimal_sign_dec_test; minimal_sign_dec_mixedtype_test; minimal_ceil_test; minimal_ceil_mixedtype_test; minimal_ceil_dec_test; minimal_ceil_dec_mixedtype_test; minimal_floor_test; minimal_floor_mixedtype_test; minimal_floor_dec_test; minimal_floor_dec_mixedtype_test; minimal_trunc_test; minimal_trunc_mixedtype_test; minimal_trunc_dec_test; minimal_trunc_dec_mixedtype_test; minimal_round_ties_to_even_test; minimal_round_ties_to_even_mixedtype_test; minimal_round_ties_to_even_dec_test; minimal_round_ties_to_even_dec_mixedtype_test; minimal_round_ties_to_away_test; minimal_round_ties_to_away_mixedtype_test; minimal_round_ties_to_away_dec_test; minimal_round_ties_to_away_dec_mixedtype_test; minimal_abs_test; minimal_abs_mixedtype_test; minimal_abs_dec_test; minimal_abs_dec_mixedtype_test; minimal_min_test; minimal_min_mixedtype_test; minimal_min_dec_test; minimal_min_dec_mixedtype_test; minimal_max_test; minimal_max_mixedtype_test; minimal_max_dec_test; minimal_max_dec_mixedtype_test] = [].
Proof. vm_compute. reflexivity. Qed.
