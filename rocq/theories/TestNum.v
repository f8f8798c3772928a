(** * The checks of the unit tests in /repo/test/p1788/flavor/infsup/setbased/
    test_mpfr_bin_ieee754_flavor_num_func.cpp, run on the model

    One definition per test case of that file, the number before a check is its
    line there.  These are tests of the model, not proofs about it. *)

From Coq Require Import ZArith NArith Bool List.
From Flocq Require Import IEEE754.BinarySingleNaN.
From Verif Require Import Fmt Spec Exc Deco MBase MBool MArith MElem MDec MNum MCancel MOverlap MClass MRev MRev1 MMixed Ex TestRun.
Import ListNotations.
Local Open Scope N_scope.

(** lines 59-95 *)
Definition minimal_inf_test : list (N * M bool) := [
  (61, clear_flags);
  (63, (bind (@n_inf binary64 ((@fnan binary64), (@fnan binary64))) (fun v1 => ret (feq v1 (@finf binary64)))));
  (64, (bind (@n_inf binary64 ((@fminf binary64), (@finf binary64))) (fun v1 => ret (feq v1 (@fminf binary64)))));
  (65, (bind (@n_inf binary64 ((fl binary64 (1) (0)), (fl binary64 (1) (1)))) (fun v1 => ret (feq v1 (fl binary64 (1) (0))))));
  (66, (bind (@n_inf binary64 ((fl binary64 (-3) (0)), (fl binary64 (-1) (1)))) (fun v1 => ret (feq v1 (fl binary64 (-3) (0))))));
  (67, (bind (@n_inf binary64 ((@fminf binary64), (fl binary64 (1) (1)))) (fun v1 => ret (feq v1 (@fminf binary64)))));
  (68, (bind (@n_inf binary64 ((@fminf binary64), (@f0 binary64))) (fun v1 => ret (feq v1 (@fminf binary64)))));
  (69, (bind (@n_inf binary64 ((@fminf binary64), (@fm0 binary64))) (fun v1 => ret (feq v1 (@fminf binary64)))));
  (70, (bind (@n_inf binary64 ((fl binary64 (-1) (1)), (@finf binary64))) (fun v1 => ret (feq v1 (fl binary64 (-1) (1))))));
  (71, (bind (@n_inf binary64 ((@f0 binary64), (@finf binary64))) (fun v1 => ret (feq v1 (@fm0 binary64)))));
  (72, (bind (@n_inf binary64 ((@f0 binary64), (@finf binary64))) (fun v1 => ret (fsign v1))));
  (73, (bind (@n_inf binary64 ((@fm0 binary64), (@finf binary64))) (fun v1 => ret (feq v1 (@fm0 binary64)))));
  (74, (bind (@n_inf binary64 ((@fm0 binary64), (@finf binary64))) (fun v1 => ret (fsign v1))));
  (75, (bind (@n_inf binary64 ((@fm0 binary64), (@f0 binary64))) (fun v1 => ret (feq v1 (@fm0 binary64)))));
  (76, (bind (@n_inf binary64 ((@fm0 binary64), (@f0 binary64))) (fun v1 => ret (fsign v1))));
  (77, (bind (@n_inf binary64 ((@f0 binary64), (@fm0 binary64))) (fun v1 => ret (feq v1 (@fm0 binary64)))));
  (78, (bind (@n_inf binary64 ((@f0 binary64), (@fm0 binary64))) (fun v1 => ret (fsign v1))));
  (79, (bind (@n_inf binary64 ((@f0 binary64), (@f0 binary64))) (fun v1 => ret (feq v1 (@fm0 binary64)))));
  (80, (bind (@n_inf binary64 ((@f0 binary64), (@f0 binary64))) (fun v1 => ret (fsign v1))));
  (81, (bind (@n_inf binary64 ((@fm0 binary64), (@fm0 binary64))) (fun v1 => ret (feq v1 (@fm0 binary64)))));
  (82, (bind (@n_inf binary64 ((@fm0 binary64), (@fm0 binary64))) (fun v1 => ret (fsign v1))));
  (84, (bind get_flags (fun v1 => ret (N.eqb v1 none_bit))));
  (86, clear_flags);
  (87, (bind (@n_inf binary64 ((fl binary64 (1) (0)), (fl binary64 (-1) (1)))) (fun v1 => ret (isnan v1))));
  (88, (bind get_flags (fun v1 => ret (N.eqb v1 invalid_operand_bit))));
  (89, clear_flags);
  (90, (set_cwd invalid_operand_bit));
  (91, (throws (@n_inf binary64 ((fl binary64 (1) (0)), (fl binary64 (-1) (1)))) Invalid_operand_exception));
  (92, (bind get_flags (fun v1 => ret (N.eqb v1 invalid_operand_bit))));
  (93, clear_flags);
  (94, (set_cwd none_bit))].

(** lines 97-178 *)
Definition minimal_inf_mixedtype_test : list (N * M bool) := [
  (99, clear_flags);
  (101, (bind (@n_inf_mixed binary64 binary32 ((@fnan binary64), (@fnan binary64))) (fun v1 => ret (feq v1 (@finf binary32)))));
  (102, (bind (@n_inf_mixed binary64 binary32 ((@fminf binary64), (@finf binary64))) (fun v1 => ret (feq v1 (@fminf binary32)))));
  (103, (bind (@n_inf_mixed binary64 binary32 ((fl binary64 (1) (0)), (fl binary64 (1) (1)))) (fun v1 => ret (feq v1 (fl binary32 (1) (0))))));
  (104, (bind (@n_inf_mixed binary64 binary32 ((fl binary64 (-3) (0)), (fl binary64 (-1) (1)))) (fun v1 => ret (feq v1 (fl binary32 (-3) (0))))));
  (105, (bind (@n_inf_mixed binary64 binary32 ((@fminf binary64), (fl binary64 (1) (1)))) (fun v1 => ret (feq v1 (@fminf binary32)))));
  (106, (bind (@n_inf_mixed binary64 binary32 ((@fminf binary64), (@f0 binary64))) (fun v1 => ret (feq v1 (@fminf binary32)))));
  (107, (bind (@n_inf_mixed binary64 binary32 ((@fminf binary64), (@fm0 binary64))) (fun v1 => ret (feq v1 (@fminf binary32)))));
  (108, (bind (@n_inf_mixed binary64 binary32 ((fl binary64 (-1) (1)), (@finf binary64))) (fun v1 => ret (feq v1 (fl binary32 (-1) (1))))));
  (109, (bind (@n_inf_mixed binary64 binary32 ((@f0 binary64), (@finf binary64))) (fun v1 => ret (feq v1 (@fm0 binary32)))));
  (110, (bind (@n_inf_mixed binary64 binary32 ((@f0 binary64), (@finf binary64))) (fun v1 => ret (fsign v1))));
  (111, (bind (@n_inf_mixed binary64 binary32 ((@fm0 binary64), (@finf binary64))) (fun v1 => ret (feq v1 (@fm0 binary32)))));
  (112, (bind (@n_inf_mixed binary64 binary32 ((@fm0 binary64), (@finf binary64))) (fun v1 => ret (fsign v1))));
  (113, (bind (@n_inf_mixed binary64 binary32 ((@fm0 binary64), (@f0 binary64))) (fun v1 => ret (feq v1 (@fm0 binary32)))));
  (114, (bind (@n_inf_mixed binary64 binary32 ((@fm0 binary64), (@f0 binary64))) (fun v1 => ret (fsign v1))));
  (115, (bind (@n_inf_mixed binary64 binary32 ((@f0 binary64), (@fm0 binary64))) (fun v1 => ret (feq v1 (@fm0 binary32)))));
  (116, (bind (@n_inf_mixed binary64 binary32 ((@f0 binary64), (@fm0 binary64))) (fun v1 => ret (fsign v1))));
  (117, (bind (@n_inf_mixed binary64 binary32 ((@f0 binary64), (@f0 binary64))) (fun v1 => ret (feq v1 (@fm0 binary32)))));
  (118, (bind (@n_inf_mixed binary64 binary32 ((@f0 binary64), (@f0 binary64))) (fun v1 => ret (fsign v1))));
  (119, (bind (@n_inf_mixed binary64 binary32 ((@fm0 binary64), (@fm0 binary64))) (fun v1 => ret (feq v1 (@fm0 binary32)))));
  (120, (bind (@n_inf_mixed binary64 binary32 ((@fm0 binary64), (@fm0 binary64))) (fun v1 => ret (fsign v1))));
  (122, (bind (@n_inf_mixed binary64 binary32 ((fl binary64 (-1) (-1074)), (fl binary64 (1) (-1074)))) (fun v1 => ret (feq v1 (fl binary32 (-1) (-149))))));
  (123, (bind (@n_inf_mixed binary64 binary32 ((fl binary64 (-1) (-1074)), (fl binary64 (-1) (-1074)))) (fun v1 => ret (feq v1 (fl binary32 (-1) (-149))))));
  (124, (bind (@n_inf_mixed binary64 binary32 ((fl binary64 (1) (-1074)), (fl binary64 (1) (-1074)))) (fun v1 => ret (feq v1 (@fm0 binary32)))));
  (125, (bind (@n_inf_mixed binary64 binary32 ((fl binary64 (1) (-1074)), (fl binary64 (1) (-1074)))) (fun v1 => ret (fsign v1))));
  (126, (bind (@n_inf_mixed binary64 binary32 ((fl binary64 (-9007199254740991) (971)), (fl binary64 (9007199254740991) (971)))) (fun v1 => ret (feq v1 (@fminf binary32)))));
  (128, (bind get_flags (fun v1 => ret (N.eqb v1 none_bit))));
  (130, clear_flags);
  (131, (bind (@n_inf_mixed binary64 binary32 ((fl binary64 (1) (0)), (fl binary64 (-1) (1)))) (fun v1 => ret (isnan v1))));
  (132, (bind get_flags (fun v1 => ret (N.eqb v1 invalid_operand_bit))));
  (133, clear_flags);
  (134, (set_cwd invalid_operand_bit));
  (135, (throws (@n_inf_mixed binary64 binary32 ((fl binary64 (1) (0)), (fl binary64 (-1) (1)))) Invalid_operand_exception));
  (136, (bind get_flags (fun v1 => ret (N.eqb v1 invalid_operand_bit))));
  (137, clear_flags);
  (138, (set_cwd none_bit));
  (141, (bind (@n_inf_mixed binary32 binary64 ((@fnan binary32), (@fnan binary32))) (fun v1 => ret (feq v1 (@finf binary64)))));
  (142, (bind (@n_inf_mixed binary32 binary64 ((@fminf binary32), (@finf binary32))) (fun v1 => ret (feq v1 (@fminf binary64)))));
  (143, (bind (@n_inf_mixed binary32 binary64 ((fl binary32 (1) (0)), (fl binary32 (1) (1)))) (fun v1 => ret (feq v1 (fl binary64 (1) (0))))));
  (144, (bind (@n_inf_mixed binary32 binary64 ((fl binary32 (-3) (0)), (fl binary32 (-1) (1)))) (fun v1 => ret (feq v1 (fl binary64 (-3) (0))))));
  (145, (bind (@n_inf_mixed binary32 binary64 ((@fminf binary32), (fl binary32 (1) (1)))) (fun v1 => ret (feq v1 (@fminf binary64)))));
  (146, (bind (@n_inf_mixed binary32 binary64 ((@fminf binary32), (@f0 binary32))) (fun v1 => ret (feq v1 (@fminf binary64)))));
  (147, (bind (@n_inf_mixed binary32 binary64 ((@fminf binary32), (@fm0 binary32))) (fun v1 => ret (feq v1 (@fminf binary64)))));
  (148, (bind (@n_inf_mixed binary32 binary64 ((fl binary32 (-1) (1)), (@finf binary32))) (fun v1 => ret (feq v1 (fl binary64 (-1) (1))))));
  (149, (bind (@n_inf_mixed binary32 binary64 ((@f0 binary32), (@finf binary32))) (fun v1 => ret (feq v1 (@fm0 binary64)))));
  (150, (bind (@n_inf_mixed binary32 binary64 ((@f0 binary32), (@finf binary32))) (fun v1 => ret (fsign v1))));
  (151, (bind (@n_inf_mixed binary32 binary64 ((@fm0 binary32), (@finf binary32))) (fun v1 => ret (feq v1 (@fm0 binary64)))));
  (152, (bind (@n_inf_mixed binary32 binary64 ((@fm0 binary32), (@finf binary32))) (fun v1 => ret (fsign v1))));
  (153, (bind (@n_inf_mixed binary32 binary64 ((@fm0 binary32), (@f0 binary32))) (fun v1 => ret (feq v1 (@fm0 binary64)))));
  (154, (bind (@n_inf_mixed binary32 binary64 ((@fm0 binary32), (@f0 binary32))) (fun v1 => ret (fsign v1))));
  (155, (bind (@n_inf_mixed binary32 binary64 ((@f0 binary32), (@fm0 binary32))) (fun v1 => ret (feq v1 (@fm0 binary64)))));
  (156, (bind (@n_inf_mixed binary32 binary64 ((@f0 binary32), (@fm0 binary32))) (fun v1 => ret (fsign v1))));
  (157, (bind (@n_inf_mixed binary32 binary64 ((@f0 binary32), (@f0 binary32))) (fun v1 => ret (feq v1 (@fm0 binary64)))));
  (158, (bind (@n_inf_mixed binary32 binary64 ((@f0 binary32), (@f0 binary32))) (fun v1 => ret (fsign v1))));
  (159, (bind (@n_inf_mixed binary32 binary64 ((@fm0 binary32), (@fm0 binary32))) (fun v1 => ret (feq v1 (@fm0 binary64)))));
  (160, (bind (@n_inf_mixed binary32 binary64 ((@fm0 binary32), (@fm0 binary32))) (fun v1 => ret (fsign v1))));
  (162, (bind (@n_inf_mixed binary32 binary64 ((fl binary32 (-1) (-149)), (fl binary32 (1) (-149)))) (fun v1 => ret (feq2 v1 (fl binary32 (-1) (-149))))));
  (163, (bind (@n_inf_mixed binary32 binary64 ((fl binary32 (-1) (-149)), (fl binary32 (-1) (-149)))) (fun v1 => ret (feq2 v1 (fl binary32 (-1) (-149))))));
  (164, (bind (@n_inf_mixed binary32 binary64 ((fl binary32 (1) (-149)), (fl binary32 (1) (-149)))) (fun v1 => ret (feq2 v1 (fl binary32 (1) (-149))))));
  (165, (bind (@n_inf_mixed binary32 binary64 ((fl binary32 (-16777215) (104)), (fl binary32 (16777215) (104)))) (fun v1 => ret (feq2 v1 (fl binary32 (-16777215) (104))))));
  (167, (bind get_flags (fun v1 => ret (N.eqb v1 none_bit))));
  (169, clear_flags);
  (170, (bind (@n_inf_mixed binary32 binary64 ((fl binary32 (1) (0)), (fl binary32 (-1) (1)))) (fun v1 => ret (isnan v1))));
  (171, (bind get_flags (fun v1 => ret (N.eqb v1 invalid_operand_bit))));
  (172, clear_flags);
  (173, (set_cwd invalid_operand_bit));
  (174, (throws (@n_inf_mixed binary32 binary64 ((fl binary32 (1) (0)), (fl binary32 (-1) (1)))) Invalid_operand_exception));
  (175, (bind get_flags (fun v1 => ret (N.eqb v1 invalid_operand_bit))));
  (176, clear_flags);
  (177, (set_cwd none_bit))].

(** lines 180-219 *)
Definition minimal_inf_dec_test : list (N * M bool) := [
  (182, clear_flags);
  (184, (bind (@n_inf_dec binary64 (((@fnan binary64), (@fnan binary64)), ill)) (fun v1 => ret (isnan v1))));
  (186, (bind (@n_inf_dec binary64 (((@fnan binary64), (@fnan binary64)), trv)) (fun v1 => ret (feq v1 (@finf binary64)))));
  (187, (bind (@n_inf_dec binary64 (((@fminf binary64), (@finf binary64)), def)) (fun v1 => ret (feq v1 (@fminf binary64)))));
  (188, (bind (@n_inf_dec binary64 (((fl binary64 (1) (0)), (fl binary64 (1) (1))), com)) (fun v1 => ret (feq v1 (fl binary64 (1) (0))))));
  (189, (bind (@n_inf_dec binary64 (((fl binary64 (-3) (0)), (fl binary64 (-1) (1))), trv)) (fun v1 => ret (feq v1 (fl binary64 (-3) (0))))));
  (190, (bind (@n_inf_dec binary64 (((@fminf binary64), (fl binary64 (1) (1))), dac)) (fun v1 => ret (feq v1 (@fminf binary64)))));
  (191, (bind (@n_inf_dec binary64 (((@fminf binary64), (@f0 binary64)), def)) (fun v1 => ret (feq v1 (@fminf binary64)))));
  (192, (bind (@n_inf_dec binary64 (((@fminf binary64), (@fm0 binary64)), trv)) (fun v1 => ret (feq v1 (@fminf binary64)))));
  (193, (bind (@n_inf_dec binary64 (((fl binary64 (-1) (1)), (@finf binary64)), trv)) (fun v1 => ret (feq v1 (fl binary64 (-1) (1))))));
  (194, (bind (@n_inf_dec binary64 (((@f0 binary64), (@finf binary64)), def)) (fun v1 => ret (feq v1 (@fm0 binary64)))));
  (195, (bind (@n_inf_dec binary64 (((@f0 binary64), (@finf binary64)), def)) (fun v1 => ret (fsign v1))));
  (196, (bind (@n_inf_dec binary64 (((@fm0 binary64), (@finf binary64)), trv)) (fun v1 => ret (feq v1 (@fm0 binary64)))));
  (197, (bind (@n_inf_dec binary64 (((@fm0 binary64), (@finf binary64)), trv)) (fun v1 => ret (fsign v1))));
  (198, (bind (@n_inf_dec binary64 (((@fm0 binary64), (@f0 binary64)), dac)) (fun v1 => ret (feq v1 (@fm0 binary64)))));
  (199, (bind (@n_inf_dec binary64 (((@fm0 binary64), (@f0 binary64)), trv)) (fun v1 => ret (fsign v1))));
  (200, (bind (@n_inf_dec binary64 (((@f0 binary64), (@fm0 binary64)), trv)) (fun v1 => ret (feq v1 (@fm0 binary64)))));
  (201, (bind (@n_inf_dec binary64 (((@f0 binary64), (@fm0 binary64)), trv)) (fun v1 => ret (fsign v1))));
  (202, (bind (@n_inf_dec binary64 (((@f0 binary64), (@f0 binary64)), trv)) (fun v1 => ret (feq v1 (@fm0 binary64)))));
  (203, (bind (@n_inf_dec binary64 (((@f0 binary64), (@f0 binary64)), trv)) (fun v1 => ret (fsign v1))));
  (204, (bind (@n_inf_dec binary64 (((@fm0 binary64), (@fm0 binary64)), trv)) (fun v1 => ret (feq v1 (@fm0 binary64)))));
  (205, (bind (@n_inf_dec binary64 (((@fm0 binary64), (@fm0 binary64)), trv)) (fun v1 => ret (fsign v1))));
  (207, (bind get_flags (fun v1 => ret (N.eqb v1 none_bit))));
  (210, clear_flags);
  (211, (bind (@n_inf_dec binary64 (((fl binary64 (1) (0)), (fl binary64 (-1) (1))), com)) (fun v1 => ret (isnan v1))));
  (212, (bind get_flags (fun v1 => ret (N.eqb v1 invalid_operand_bit))));
  (213, clear_flags);
  (214, (set_cwd invalid_operand_bit));
  (215, (throws (@n_inf_dec binary64 (((fl binary64 (1) (0)), (fl binary64 (-1) (1))), com)) Invalid_operand_exception));
  (216, (bind get_flags (fun v1 => ret (N.eqb v1 invalid_operand_bit))));
  (217, clear_flags);
  (218, (set_cwd none_bit))].

(** lines 221-306 *)
Definition minimal_inf_dec_mixedtype_test : list (N * M bool) := [
  (223, clear_flags);
  (225, (bind (@num_dec_mixed binary64 binary32 (@n_inf_mixed binary64 binary32) (((@fnan binary64), (@fnan binary64)), ill)) (fun v1 => ret (isnan v1))));
  (227, (bind (@num_dec_mixed binary64 binary32 (@n_inf_mixed binary64 binary32) (((@fnan binary64), (@fnan binary64)), trv)) (fun v1 => ret (feq v1 (@finf binary32)))));
  (228, (bind (@num_dec_mixed binary64 binary32 (@n_inf_mixed binary64 binary32) (((@fminf binary64), (@finf binary64)), def)) (fun v1 => ret (feq v1 (@fminf binary32)))));
  (229, (bind (@num_dec_mixed binary64 binary32 (@n_inf_mixed binary64 binary32) (((fl binary64 (1) (0)), (fl binary64 (1) (1))), com)) (fun v1 => ret (feq v1 (fl binary32 (1) (0))))));
  (230, (bind (@num_dec_mixed binary64 binary32 (@n_inf_mixed binary64 binary32) (((fl binary64 (-3) (0)), (fl binary64 (-1) (1))), trv)) (fun v1 => ret (feq v1 (fl binary32 (-3) (0))))));
  (231, (bind (@num_dec_mixed binary64 binary32 (@n_inf_mixed binary64 binary32) (((@fminf binary64), (fl binary64 (1) (1))), dac)) (fun v1 => ret (feq v1 (@fminf binary32)))));
  (232, (bind (@num_dec_mixed binary64 binary32 (@n_inf_mixed binary64 binary32) (((@fminf binary64), (@f0 binary64)), def)) (fun v1 => ret (feq v1 (@fminf binary32)))));
  (233, (bind (@num_dec_mixed binary64 binary32 (@n_inf_mixed binary64 binary32) (((@fminf binary64), (@fm0 binary64)), trv)) (fun v1 => ret (feq v1 (@fminf binary32)))));
  (234, (bind (@num_dec_mixed binary64 binary32 (@n_inf_mixed binary64 binary32) (((fl binary64 (-1) (1)), (@finf binary64)), trv)) (fun v1 => ret (feq v1 (fl binary32 (-1) (1))))));
  (235, (bind (@num_dec_mixed binary64 binary32 (@n_inf_mixed binary64 binary32) (((@f0 binary64), (@finf binary64)), def)) (fun v1 => ret (feq v1 (@fm0 binary32)))));
  (236, (bind (@num_dec_mixed binary64 binary32 (@n_inf_mixed binary64 binary32) (((@f0 binary64), (@finf binary64)), def)) (fun v1 => ret (fsign v1))));
  (237, (bind (@num_dec_mixed binary64 binary32 (@n_inf_mixed binary64 binary32) (((@fm0 binary64), (@finf binary64)), trv)) (fun v1 => ret (feq v1 (@fm0 binary32)))));
  (238, (bind (@num_dec_mixed binary64 binary32 (@n_inf_mixed binary64 binary32) (((@fm0 binary64), (@finf binary64)), trv)) (fun v1 => ret (fsign v1))));
  (239, (bind (@num_dec_mixed binary64 binary32 (@n_inf_mixed binary64 binary32) (((@fm0 binary64), (@f0 binary64)), dac)) (fun v1 => ret (feq v1 (@fm0 binary32)))));
  (240, (bind (@num_dec_mixed binary64 binary32 (@n_inf_mixed binary64 binary32) (((@fm0 binary64), (@f0 binary64)), trv)) (fun v1 => ret (fsign v1))));
  (241, (bind (@num_dec_mixed binary64 binary32 (@n_inf_mixed binary64 binary32) (((@f0 binary64), (@fm0 binary64)), trv)) (fun v1 => ret (feq v1 (@fm0 binary32)))));
  (242, (bind (@num_dec_mixed binary64 binary32 (@n_inf_mixed binary64 binary32) (((@f0 binary64), (@fm0 binary64)), trv)) (fun v1 => ret (fsign v1))));
  (243, (bind (@num_dec_mixed binary64 binary32 (@n_inf_mixed binary64 binary32) (((@f0 binary64), (@f0 binary64)), trv)) (fun v1 => ret (feq v1 (@fm0 binary32)))));
  (244, (bind (@num_dec_mixed binary64 binary32 (@n_inf_mixed binary64 binary32) (((@f0 binary64), (@f0 binary64)), trv)) (fun v1 => ret (fsign v1))));
  (245, (bind (@num_dec_mixed binary64 binary32 (@n_inf_mixed binary64 binary32) (((@fm0 binary64), (@fm0 binary64)), trv)) (fun v1 => ret (feq v1 (@fm0 binary32)))));
  (246, (bind (@num_dec_mixed binary64 binary32 (@n_inf_mixed binary64 binary32) (((@fm0 binary64), (@fm0 binary64)), trv)) (fun v1 => ret (fsign v1))));
  (248, (bind (@num_dec_mixed binary64 binary32 (@n_inf_mixed binary64 binary32) (((fl binary64 (-1) (-1074)), (fl binary64 (1) (-1074))), com)) (fun v1 => ret (feq v1 (fl binary32 (-1) (-149))))));
  (249, (bind (@num_dec_mixed binary64 binary32 (@n_inf_mixed binary64 binary32) (((fl binary64 (-1) (-1074)), (fl binary64 (-1) (-1074))), trv)) (fun v1 => ret (feq v1 (fl binary32 (-1) (-149))))));
  (250, (bind (@num_dec_mixed binary64 binary32 (@n_inf_mixed binary64 binary32) (((fl binary64 (1) (-1074)), (fl binary64 (1) (-1074))), def)) (fun v1 => ret (feq v1 (@fm0 binary32)))));
  (251, (bind (@num_dec_mixed binary64 binary32 (@n_inf_mixed binary64 binary32) (((fl binary64 (1) (-1074)), (fl binary64 (1) (-1074))), dac)) (fun v1 => ret (fsign v1))));
  (252, (bind (@num_dec_mixed binary64 binary32 (@n_inf_mixed binary64 binary32) (((fl binary64 (-9007199254740991) (971)), (fl binary64 (9007199254740991) (971))), trv)) (fun v1 => ret (feq v1 (@fminf binary32)))));
  (255, (bind get_flags (fun v1 => ret (N.eqb v1 none_bit))));
  (257, clear_flags);
  (258, (bind (@num_dec_mixed binary64 binary32 (@n_inf_mixed binary64 binary32) (((fl binary64 (1) (0)), (fl binary64 (-1) (1))), com)) (fun v1 => ret (isnan v1))));
  (259, (bind get_flags (fun v1 => ret (N.eqb v1 invalid_operand_bit))));
  (260, clear_flags);
  (261, (set_cwd invalid_operand_bit));
  (262, (throws (@num_dec_mixed binary64 binary32 (@n_inf_mixed binary64 binary32) (((fl binary64 (1) (0)), (fl binary64 (-1) (1))), com)) Invalid_operand_exception));
  (263, (bind get_flags (fun v1 => ret (N.eqb v1 invalid_operand_bit))));
  (264, clear_flags);
  (265, (set_cwd none_bit));
  (267, (bind (@num_dec_mixed binary32 binary64 (@n_inf_mixed binary32 binary64) (((@fnan binary32), (@fnan binary32)), ill)) (fun v1 => ret (isnan v1))));
  (269, (bind (@num_dec_mixed binary32 binary64 (@n_inf_mixed binary32 binary64) (((@fnan binary32), (@fnan binary32)), trv)) (fun v1 => ret (feq v1 (@finf binary64)))));
  (270, (bind (@num_dec_mixed binary32 binary64 (@n_inf_mixed binary32 binary64) (((@fminf binary32), (@finf binary32)), def)) (fun v1 => ret (feq v1 (@fminf binary64)))));
  (271, (bind (@num_dec_mixed binary32 binary64 (@n_inf_mixed binary32 binary64) (((fl binary32 (1) (0)), (fl binary32 (1) (1))), com)) (fun v1 => ret (feq v1 (fl binary64 (1) (0))))));
  (272, (bind (@num_dec_mixed binary32 binary64 (@n_inf_mixed binary32 binary64) (((fl binary32 (-3) (0)), (fl binary32 (-1) (1))), trv)) (fun v1 => ret (feq v1 (fl binary64 (-3) (0))))));
  (273, (bind (@num_dec_mixed binary32 binary64 (@n_inf_mixed binary32 binary64) (((@fminf binary32), (fl binary32 (1) (1))), dac)) (fun v1 => ret (feq v1 (@fminf binary64)))));
  (274, (bind (@num_dec_mixed binary32 binary64 (@n_inf_mixed binary32 binary64) (((@fminf binary32), (@f0 binary32)), def)) (fun v1 => ret (feq v1 (@fminf binary64)))));
  (275, (bind (@num_dec_mixed binary32 binary64 (@n_inf_mixed binary32 binary64) (((@fminf binary32), (@fm0 binary32)), trv)) (fun v1 => ret (feq v1 (@fminf binary64)))));
  (276, (bind (@num_dec_mixed binary32 binary64 (@n_inf_mixed binary32 binary64) (((fl binary32 (-1) (1)), (@finf binary32)), trv)) (fun v1 => ret (feq v1 (fl binary64 (-1) (1))))));
  (277, (bind (@num_dec_mixed binary32 binary64 (@n_inf_mixed binary32 binary64) (((@f0 binary32), (@finf binary32)), def)) (fun v1 => ret (feq v1 (@fm0 binary64)))));
  (278, (bind (@num_dec_mixed binary32 binary64 (@n_inf_mixed binary32 binary64) (((@f0 binary32), (@finf binary32)), def)) (fun v1 => ret (fsign v1))));
  (279, (bind (@num_dec_mixed binary32 binary64 (@n_inf_mixed binary32 binary64) (((@fm0 binary32), (@finf binary32)), trv)) (fun v1 => ret (feq v1 (@fm0 binary64)))));
  (280, (bind (@num_dec_mixed binary32 binary64 (@n_inf_mixed binary32 binary64) (((@fm0 binary32), (@finf binary32)), trv)) (fun v1 => ret (fsign v1))));
  (281, (bind (@num_dec_mixed binary32 binary64 (@n_inf_mixed binary32 binary64) (((@fm0 binary32), (@f0 binary32)), dac)) (fun v1 => ret (feq v1 (@fm0 binary64)))));
  (282, (bind (@num_dec_mixed binary32 binary64 (@n_inf_mixed binary32 binary64) (((@fm0 binary32), (@f0 binary32)), trv)) (fun v1 => ret (fsign v1))));
  (283, (bind (@num_dec_mixed binary32 binary64 (@n_inf_mixed binary32 binary64) (((@f0 binary32), (@fm0 binary32)), trv)) (fun v1 => ret (feq v1 (@fm0 binary64)))));
  (284, (bind (@num_dec_mixed binary32 binary64 (@n_inf_mixed binary32 binary64) (((@f0 binary32), (@fm0 binary32)), trv)) (fun v1 => ret (fsign v1))));
  (285, (bind (@num_dec_mixed binary32 binary64 (@n_inf_mixed binary32 binary64) (((@f0 binary32), (@f0 binary32)), trv)) (fun v1 => ret (feq v1 (@fm0 binary64)))));
  (286, (bind (@num_dec_mixed binary32 binary64 (@n_inf_mixed binary32 binary64) (((@f0 binary32), (@f0 binary32)), trv)) (fun v1 => ret (fsign v1))));
  (287, (bind (@num_dec_mixed binary32 binary64 (@n_inf_mixed binary32 binary64) (((@fm0 binary32), (@fm0 binary32)), trv)) (fun v1 => ret (feq v1 (@fm0 binary64)))));
  (288, (bind (@num_dec_mixed binary32 binary64 (@n_inf_mixed binary32 binary64) (((@fm0 binary32), (@fm0 binary32)), trv)) (fun v1 => ret (fsign v1))));
  (290, (bind (@num_dec_mixed binary32 binary64 (@n_inf_mixed binary32 binary64) (((fl binary32 (-1) (-149)), (fl binary32 (1) (-149))), com)) (fun v1 => ret (feq2 v1 (fl binary32 (-1) (-149))))));
  (291, (bind (@num_dec_mixed binary32 binary64 (@n_inf_mixed binary32 binary64) (((fl binary32 (-1) (-149)), (fl binary32 (-1) (-149))), trv)) (fun v1 => ret (feq2 v1 (fl binary32 (-1) (-149))))));
  (292, (bind (@num_dec_mixed binary32 binary64 (@n_inf_mixed binary32 binary64) (((fl binary32 (1) (-149)), (fl binary32 (1) (-149))), def)) (fun v1 => ret (feq2 v1 (fl binary32 (1) (-149))))));
  (293, (bind (@num_dec_mixed binary32 binary64 (@n_inf_mixed binary32 binary64) (((fl binary32 (-16777215) (104)), (fl binary32 (16777215) (104))), trv)) (fun v1 => ret (feq2 v1 (fl binary32 (-16777215) (104))))));
  (295, (bind get_flags (fun v1 => ret (N.eqb v1 none_bit))));
  (297, clear_flags);
  (298, (bind (@num_dec_mixed binary32 binary64 (@n_inf_mixed binary32 binary64) (((fl binary32 (1) (0)), (fl binary32 (-1) (1))), com)) (fun v1 => ret (isnan v1))));
  (299, (bind get_flags (fun v1 => ret (N.eqb v1 invalid_operand_bit))));
  (300, clear_flags);
  (301, (set_cwd invalid_operand_bit));
  (302, (throws (@num_dec_mixed binary32 binary64 (@n_inf_mixed binary32 binary64) (((fl binary32 (1) (0)), (fl binary32 (-1) (1))), com)) Invalid_operand_exception));
  (303, (bind get_flags (fun v1 => ret (N.eqb v1 invalid_operand_bit))));
  (304, clear_flags);
  (305, (set_cwd none_bit))].

(** lines 310-346 *)
Definition minimal_sup_test : list (N * M bool) := [
  (312, clear_flags);
  (314, (bind (@n_sup binary64 ((@fnan binary64), (@fnan binary64))) (fun v1 => ret (feq v1 (@fminf binary64)))));
  (315, (bind (@n_sup binary64 ((@fminf binary64), (@finf binary64))) (fun v1 => ret (feq v1 (@finf binary64)))));
  (316, (bind (@n_sup binary64 ((fl binary64 (1) (0)), (fl binary64 (1) (1)))) (fun v1 => ret (feq v1 (fl binary64 (1) (1))))));
  (317, (bind (@n_sup binary64 ((fl binary64 (-3) (0)), (fl binary64 (-1) (1)))) (fun v1 => ret (feq v1 (fl binary64 (-1) (1))))));
  (318, (bind (@n_sup binary64 ((@fminf binary64), (fl binary64 (1) (1)))) (fun v1 => ret (feq v1 (fl binary64 (1) (1))))));
  (319, (bind (@n_sup binary64 ((@fminf binary64), (@f0 binary64))) (fun v1 => ret (feq v1 (@f0 binary64)))));
  (320, (mnot (bind (@n_sup binary64 ((@fminf binary64), (@f0 binary64))) (fun v1 => ret (fsign v1)))));
  (321, (bind (@n_sup binary64 ((@fminf binary64), (@fm0 binary64))) (fun v1 => ret (feq v1 (@f0 binary64)))));
  (322, (mnot (bind (@n_sup binary64 ((@fminf binary64), (@fm0 binary64))) (fun v1 => ret (fsign v1)))));
  (323, (bind (@n_sup binary64 ((fl binary64 (-1) (1)), (@finf binary64))) (fun v1 => ret (feq v1 (@finf binary64)))));
  (324, (bind (@n_sup binary64 ((@f0 binary64), (@finf binary64))) (fun v1 => ret (feq v1 (@finf binary64)))));
  (325, (bind (@n_sup binary64 ((@fm0 binary64), (@finf binary64))) (fun v1 => ret (feq v1 (@finf binary64)))));
  (326, (bind (@n_sup binary64 ((@fm0 binary64), (@f0 binary64))) (fun v1 => ret (feq v1 (@f0 binary64)))));
  (327, (mnot (bind (@n_sup binary64 ((@fm0 binary64), (@f0 binary64))) (fun v1 => ret (fsign v1)))));
  (328, (bind (@n_sup binary64 ((@f0 binary64), (@fm0 binary64))) (fun v1 => ret (feq v1 (@f0 binary64)))));
  (329, (mnot (bind (@n_sup binary64 ((@f0 binary64), (@fm0 binary64))) (fun v1 => ret (fsign v1)))));
  (330, (bind (@n_sup binary64 ((@f0 binary64), (@f0 binary64))) (fun v1 => ret (feq v1 (@f0 binary64)))));
  (331, (mnot (bind (@n_sup binary64 ((@f0 binary64), (@f0 binary64))) (fun v1 => ret (fsign v1)))));
  (332, (bind (@n_sup binary64 ((@fm0 binary64), (@fm0 binary64))) (fun v1 => ret (feq v1 (@f0 binary64)))));
  (333, (mnot (bind (@n_sup binary64 ((@fm0 binary64), (@fm0 binary64))) (fun v1 => ret (fsign v1)))));
  (335, (bind get_flags (fun v1 => ret (N.eqb v1 none_bit))));
  (337, clear_flags);
  (338, (bind (@n_sup binary64 ((fl binary64 (1) (0)), (fl binary64 (-1) (1)))) (fun v1 => ret (isnan v1))));
  (339, (bind get_flags (fun v1 => ret (N.eqb v1 invalid_operand_bit))));
  (340, clear_flags);
  (341, (set_cwd invalid_operand_bit));
  (342, (throws (@n_sup binary64 ((fl binary64 (1) (0)), (fl binary64 (-1) (1)))) Invalid_operand_exception));
  (343, (bind get_flags (fun v1 => ret (N.eqb v1 invalid_operand_bit))));
  (344, clear_flags);
  (345, (set_cwd none_bit))].

(** lines 348-429 *)
Definition minimal_sup_mixedtype_test : list (N * M bool) := [
  (350, clear_flags);
  (352, (bind (@n_sup_mixed binary64 binary32 ((@fnan binary64), (@fnan binary64))) (fun v1 => ret (feq v1 (@fminf binary32)))));
  (353, (bind (@n_sup_mixed binary64 binary32 ((@fminf binary64), (@finf binary64))) (fun v1 => ret (feq v1 (@finf binary32)))));
  (354, (bind (@n_sup_mixed binary64 binary32 ((fl binary64 (1) (0)), (fl binary64 (1) (1)))) (fun v1 => ret (feq v1 (fl binary32 (1) (1))))));
  (355, (bind (@n_sup_mixed binary64 binary32 ((fl binary64 (-3) (0)), (fl binary64 (-1) (1)))) (fun v1 => ret (feq v1 (fl binary32 (-1) (1))))));
  (356, (bind (@n_sup_mixed binary64 binary32 ((@fminf binary64), (fl binary64 (1) (1)))) (fun v1 => ret (feq v1 (fl binary32 (1) (1))))));
  (357, (bind (@n_sup_mixed binary64 binary32 ((@fminf binary64), (@f0 binary64))) (fun v1 => ret (feq v1 (@f0 binary32)))));
  (358, (mnot (bind (@n_sup_mixed binary64 binary32 ((@fminf binary64), (@f0 binary64))) (fun v1 => ret (fsign v1)))));
  (359, (bind (@n_sup_mixed binary64 binary32 ((@fminf binary64), (@fm0 binary64))) (fun v1 => ret (feq v1 (@f0 binary32)))));
  (360, (mnot (bind (@n_sup_mixed binary64 binary32 ((@fminf binary64), (@fm0 binary64))) (fun v1 => ret (fsign v1)))));
  (361, (bind (@n_sup_mixed binary64 binary32 ((fl binary64 (-1) (1)), (@finf binary64))) (fun v1 => ret (feq v1 (@finf binary32)))));
  (362, (bind (@n_sup_mixed binary64 binary32 ((@f0 binary64), (@finf binary64))) (fun v1 => ret (feq v1 (@finf binary32)))));
  (363, (bind (@n_sup_mixed binary64 binary32 ((@fm0 binary64), (@finf binary64))) (fun v1 => ret (feq v1 (@finf binary32)))));
  (364, (bind (@n_sup_mixed binary64 binary32 ((@fm0 binary64), (@f0 binary64))) (fun v1 => ret (feq v1 (@f0 binary32)))));
  (365, (mnot (bind (@n_sup_mixed binary64 binary32 ((@fm0 binary64), (@f0 binary64))) (fun v1 => ret (fsign v1)))));
  (366, (bind (@n_sup_mixed binary64 binary32 ((@f0 binary64), (@fm0 binary64))) (fun v1 => ret (feq v1 (@f0 binary32)))));
  (367, (mnot (bind (@n_sup_mixed binary64 binary32 ((@f0 binary64), (@fm0 binary64))) (fun v1 => ret (fsign v1)))));
  (368, (bind (@n_sup_mixed binary64 binary32 ((@f0 binary64), (@f0 binary64))) (fun v1 => ret (feq v1 (@f0 binary32)))));
  (369, (mnot (bind (@n_sup_mixed binary64 binary32 ((@f0 binary64), (@f0 binary64))) (fun v1 => ret (fsign v1)))));
  (370, (bind (@n_sup_mixed binary64 binary32 ((@fm0 binary64), (@fm0 binary64))) (fun v1 => ret (feq v1 (@f0 binary32)))));
  (371, (mnot (bind (@n_sup_mixed binary64 binary32 ((@fm0 binary64), (@fm0 binary64))) (fun v1 => ret (fsign v1)))));
  (373, (bind (@n_sup_mixed binary64 binary32 ((fl binary64 (-1) (-1074)), (fl binary64 (1) (-1074)))) (fun v1 => ret (feq v1 (fl binary32 (1) (-149))))));
  (374, (bind (@n_sup_mixed binary64 binary32 ((fl binary64 (-1) (-1074)), (fl binary64 (-1) (-1074)))) (fun v1 => ret (feq v1 (@f0 binary32)))));
  (375, (mnot (bind (@n_sup_mixed binary64 binary32 ((fl binary64 (-1) (-1074)), (fl binary64 (-1) (-1074)))) (fun v1 => ret (fsign v1)))));
  (376, (bind (@n_sup_mixed binary64 binary32 ((fl binary64 (1) (-1074)), (fl binary64 (1) (-1074)))) (fun v1 => ret (feq v1 (fl binary32 (1) (-149))))));
  (377, (bind (@n_sup_mixed binary64 binary32 ((fl binary64 (-9007199254740991) (971)), (fl binary64 (9007199254740991) (971)))) (fun v1 => ret (feq v1 (@finf binary32)))));
  (379, (bind get_flags (fun v1 => ret (N.eqb v1 none_bit))));
  (381, clear_flags);
  (382, (bind (@n_sup_mixed binary64 binary32 ((fl binary64 (1) (0)), (fl binary64 (-1) (1)))) (fun v1 => ret (isnan v1))));
  (383, (bind get_flags (fun v1 => ret (N.eqb v1 invalid_operand_bit))));
  (384, clear_flags);
  (385, (set_cwd invalid_operand_bit));
  (386, (throws (@n_sup_mixed binary64 binary32 ((fl binary64 (1) (0)), (fl binary64 (-1) (1)))) Invalid_operand_exception));
  (387, (bind get_flags (fun v1 => ret (N.eqb v1 invalid_operand_bit))));
  (388, clear_flags);
  (389, (set_cwd none_bit));
  (391, (bind (@n_sup_mixed binary32 binary64 ((@fnan binary32), (@fnan binary32))) (fun v1 => ret (feq v1 (@fminf binary64)))));
  (392, (bind (@n_sup_mixed binary32 binary64 ((@fminf binary32), (@finf binary32))) (fun v1 => ret (feq v1 (@finf binary64)))));
  (393, (bind (@n_sup_mixed binary32 binary64 ((fl binary32 (1) (0)), (fl binary32 (1) (1)))) (fun v1 => ret (feq v1 (fl binary64 (1) (1))))));
  (394, (bind (@n_sup_mixed binary32 binary64 ((fl binary32 (-3) (0)), (fl binary32 (-1) (1)))) (fun v1 => ret (feq v1 (fl binary64 (-1) (1))))));
  (395, (bind (@n_sup_mixed binary32 binary64 ((@fminf binary32), (fl binary32 (1) (1)))) (fun v1 => ret (feq v1 (fl binary64 (1) (1))))));
  (396, (bind (@n_sup_mixed binary32 binary64 ((@fminf binary32), (@f0 binary32))) (fun v1 => ret (feq v1 (@f0 binary64)))));
  (397, (mnot (bind (@n_sup_mixed binary32 binary64 ((@fminf binary32), (@f0 binary32))) (fun v1 => ret (fsign v1)))));
  (398, (bind (@n_sup_mixed binary32 binary64 ((@fminf binary32), (@fm0 binary32))) (fun v1 => ret (feq v1 (@f0 binary64)))));
  (399, (mnot (bind (@n_sup_mixed binary32 binary64 ((@fminf binary32), (@fm0 binary32))) (fun v1 => ret (fsign v1)))));
  (400, (bind (@n_sup_mixed binary32 binary64 ((fl binary32 (-1) (1)), (@finf binary32))) (fun v1 => ret (feq v1 (@finf binary64)))));
  (401, (bind (@n_sup_mixed binary32 binary64 ((@f0 binary32), (@finf binary32))) (fun v1 => ret (feq v1 (@finf binary64)))));
  (402, (bind (@n_sup_mixed binary32 binary64 ((@fm0 binary32), (@finf binary32))) (fun v1 => ret (feq v1 (@finf binary64)))));
  (403, (bind (@n_sup_mixed binary32 binary64 ((@fm0 binary32), (@f0 binary32))) (fun v1 => ret (feq v1 (@f0 binary64)))));
  (404, (mnot (bind (@n_sup_mixed binary32 binary64 ((@fm0 binary32), (@f0 binary32))) (fun v1 => ret (fsign v1)))));
  (405, (bind (@n_sup_mixed binary32 binary64 ((@f0 binary32), (@fm0 binary32))) (fun v1 => ret (feq v1 (@f0 binary64)))));
  (406, (mnot (bind (@n_sup_mixed binary32 binary64 ((@f0 binary32), (@fm0 binary32))) (fun v1 => ret (fsign v1)))));
  (407, (bind (@n_sup_mixed binary32 binary64 ((@f0 binary32), (@f0 binary32))) (fun v1 => ret (feq v1 (@f0 binary64)))));
  (408, (mnot (bind (@n_sup_mixed binary32 binary64 ((@f0 binary32), (@f0 binary32))) (fun v1 => ret (fsign v1)))));
  (409, (bind (@n_sup_mixed binary32 binary64 ((@fm0 binary32), (@fm0 binary32))) (fun v1 => ret (feq v1 (@f0 binary64)))));
  (410, (mnot (bind (@n_sup_mixed binary32 binary64 ((@fm0 binary32), (@fm0 binary32))) (fun v1 => ret (fsign v1)))));
  (412, (bind (@n_sup_mixed binary32 binary64 ((fl binary32 (-1) (-149)), (fl binary32 (1) (-149)))) (fun v1 => ret (feq2 v1 (fl binary32 (1) (-149))))));
  (413, (bind (@n_sup_mixed binary32 binary64 ((fl binary32 (-1) (-149)), (fl binary32 (-1) (-149)))) (fun v1 => ret (feq2 v1 (fl binary32 (-1) (-149))))));
  (414, (bind (@n_sup_mixed binary32 binary64 ((fl binary32 (1) (-149)), (fl binary32 (1) (-149)))) (fun v1 => ret (feq2 v1 (fl binary32 (1) (-149))))));
  (415, (bind (@n_sup_mixed binary32 binary64 ((fl binary32 (-16777215) (104)), (fl binary32 (16777215) (104)))) (fun v1 => ret (feq2 v1 (fl binary32 (16777215) (104))))));
  (418, (bind get_flags (fun v1 => ret (N.eqb v1 none_bit))));
  (420, clear_flags);
  (421, (bind (@n_sup_mixed binary32 binary64 ((fl binary32 (1) (0)), (fl binary32 (-1) (1)))) (fun v1 => ret (isnan v1))));
  (422, (bind get_flags (fun v1 => ret (N.eqb v1 invalid_operand_bit))));
  (423, clear_flags);
  (424, (set_cwd invalid_operand_bit));
  (425, (throws (@n_sup_mixed binary32 binary64 ((fl binary32 (1) (0)), (fl binary32 (-1) (1)))) Invalid_operand_exception));
  (426, (bind get_flags (fun v1 => ret (N.eqb v1 invalid_operand_bit))));
  (427, clear_flags);
  (428, (set_cwd none_bit))].

(** lines 431-469 *)
Definition minimal_sup_dec_test : list (N * M bool) := [
  (433, clear_flags);
  (435, (bind (@n_sup_dec binary64 (((@fnan binary64), (@fnan binary64)), ill)) (fun v1 => ret (isnan v1))));
  (437, (bind (@n_sup_dec binary64 (((@fnan binary64), (@fnan binary64)), trv)) (fun v1 => ret (feq v1 (@fminf binary64)))));
  (438, (bind (@n_sup_dec binary64 (((@fminf binary64), (@finf binary64)), def)) (fun v1 => ret (feq v1 (@finf binary64)))));
  (439, (bind (@n_sup_dec binary64 (((fl binary64 (1) (0)), (fl binary64 (1) (1))), com)) (fun v1 => ret (feq v1 (fl binary64 (1) (1))))));
  (440, (bind (@n_sup_dec binary64 (((fl binary64 (-3) (0)), (fl binary64 (-1) (1))), trv)) (fun v1 => ret (feq v1 (fl binary64 (-1) (1))))));
  (441, (bind (@n_sup_dec binary64 (((@fminf binary64), (fl binary64 (1) (1))), dac)) (fun v1 => ret (feq v1 (fl binary64 (1) (1))))));
  (442, (bind (@n_sup_dec binary64 (((@fminf binary64), (@f0 binary64)), def)) (fun v1 => ret (feq v1 (@f0 binary64)))));
  (443, (mnot (bind (@n_sup_dec binary64 (((@fminf binary64), (@f0 binary64)), trv)) (fun v1 => ret (fsign v1)))));
  (444, (bind (@n_sup_dec binary64 (((@fminf binary64), (@fm0 binary64)), trv)) (fun v1 => ret (feq v1 (@f0 binary64)))));
  (445, (mnot (bind (@n_sup_dec binary64 (((@fminf binary64), (@f0 binary64)), trv)) (fun v1 => ret (fsign v1)))));
  (446, (bind (@n_sup_dec binary64 (((fl binary64 (-1) (1)), (@finf binary64)), trv)) (fun v1 => ret (feq v1 (@finf binary64)))));
  (447, (bind (@n_sup_dec binary64 (((@f0 binary64), (@finf binary64)), def)) (fun v1 => ret (feq v1 (@finf binary64)))));
  (448, (bind (@n_sup_dec binary64 (((@fm0 binary64), (@finf binary64)), trv)) (fun v1 => ret (feq v1 (@finf binary64)))));
  (449, (bind (@n_sup_dec binary64 (((@fm0 binary64), (@f0 binary64)), dac)) (fun v1 => ret (feq v1 (@f0 binary64)))));
  (450, (mnot (bind (@n_sup_dec binary64 (((@fm0 binary64), (@f0 binary64)), trv)) (fun v1 => ret (fsign v1)))));
  (451, (bind (@n_sup_dec binary64 (((@f0 binary64), (@fm0 binary64)), trv)) (fun v1 => ret (feq v1 (@f0 binary64)))));
  (452, (mnot (bind (@n_sup_dec binary64 (((@f0 binary64), (@fm0 binary64)), trv)) (fun v1 => ret (fsign v1)))));
  (453, (bind (@n_sup_dec binary64 (((@f0 binary64), (@f0 binary64)), trv)) (fun v1 => ret (feq v1 (@f0 binary64)))));
  (454, (mnot (bind (@n_sup_dec binary64 (((@f0 binary64), (@f0 binary64)), trv)) (fun v1 => ret (fsign v1)))));
  (455, (bind (@n_sup_dec binary64 (((@fm0 binary64), (@fm0 binary64)), trv)) (fun v1 => ret (feq v1 (@f0 binary64)))));
  (456, (mnot (bind (@n_sup_dec binary64 (((@fm0 binary64), (@fm0 binary64)), trv)) (fun v1 => ret (fsign v1)))));
  (458, (bind get_flags (fun v1 => ret (N.eqb v1 none_bit))));
  (460, clear_flags);
  (461, (bind (@n_sup_dec binary64 (((fl binary64 (1) (0)), (fl binary64 (-1) (1))), com)) (fun v1 => ret (isnan v1))));
  (462, (bind get_flags (fun v1 => ret (N.eqb v1 invalid_operand_bit))));
  (463, clear_flags);
  (464, (set_cwd invalid_operand_bit));
  (465, (throws (@n_sup_dec binary64 (((fl binary64 (1) (0)), (fl binary64 (-1) (1))), com)) Invalid_operand_exception));
  (466, (bind get_flags (fun v1 => ret (N.eqb v1 invalid_operand_bit))));
  (467, clear_flags);
  (468, (set_cwd none_bit))].

(** lines 471-556 *)
Definition minimal_sup_dec_mixedtype_test : list (N * M bool) := [
  (473, clear_flags);
  (475, (bind (@num_dec_mixed binary64 binary32 (@n_sup_mixed binary64 binary32) (((@fnan binary64), (@fnan binary64)), ill)) (fun v1 => ret (isnan v1))));
  (477, (bind (@num_dec_mixed binary64 binary32 (@n_sup_mixed binary64 binary32) (((@fnan binary64), (@fnan binary64)), trv)) (fun v1 => ret (feq v1 (@fminf binary32)))));
  (478, (bind (@num_dec_mixed binary64 binary32 (@n_sup_mixed binary64 binary32) (((@fminf binary64), (@finf binary64)), def)) (fun v1 => ret (feq v1 (@finf binary32)))));
  (479, (bind (@num_dec_mixed binary64 binary32 (@n_sup_mixed binary64 binary32) (((fl binary64 (1) (0)), (fl binary64 (1) (1))), com)) (fun v1 => ret (feq v1 (fl binary32 (1) (1))))));
  (480, (bind (@num_dec_mixed binary64 binary32 (@n_sup_mixed binary64 binary32) (((fl binary64 (-3) (0)), (fl binary64 (-1) (1))), trv)) (fun v1 => ret (feq v1 (fl binary32 (-1) (1))))));
  (481, (bind (@num_dec_mixed binary64 binary32 (@n_sup_mixed binary64 binary32) (((@fminf binary64), (fl binary64 (1) (1))), dac)) (fun v1 => ret (feq v1 (fl binary32 (1) (1))))));
  (482, (bind (@num_dec_mixed binary64 binary32 (@n_sup_mixed binary64 binary32) (((@fminf binary64), (@f0 binary64)), def)) (fun v1 => ret (feq v1 (@f0 binary32)))));
  (483, (mnot (bind (@num_dec_mixed binary64 binary32 (@n_sup_mixed binary64 binary32) (((@fminf binary64), (@f0 binary64)), def)) (fun v1 => ret (fsign v1)))));
  (484, (bind (@num_dec_mixed binary64 binary32 (@n_sup_mixed binary64 binary32) (((@fminf binary64), (@fm0 binary64)), trv)) (fun v1 => ret (feq v1 (@f0 binary32)))));
  (485, (mnot (bind (@num_dec_mixed binary64 binary32 (@n_sup_mixed binary64 binary32) (((@fminf binary64), (@fm0 binary64)), trv)) (fun v1 => ret (fsign v1)))));
  (486, (bind (@num_dec_mixed binary64 binary32 (@n_sup_mixed binary64 binary32) (((fl binary64 (-1) (1)), (@finf binary64)), trv)) (fun v1 => ret (feq v1 (@finf binary32)))));
  (487, (bind (@num_dec_mixed binary64 binary32 (@n_sup_mixed binary64 binary32) (((@f0 binary64), (@finf binary64)), def)) (fun v1 => ret (feq v1 (@finf binary32)))));
  (488, (bind (@num_dec_mixed binary64 binary32 (@n_sup_mixed binary64 binary32) (((@fm0 binary64), (@finf binary64)), trv)) (fun v1 => ret (feq v1 (@finf binary32)))));
  (489, (bind (@num_dec_mixed binary64 binary32 (@n_sup_mixed binary64 binary32) (((@fm0 binary64), (@f0 binary64)), dac)) (fun v1 => ret (feq v1 (@f0 binary32)))));
  (490, (mnot (bind (@num_dec_mixed binary64 binary32 (@n_sup_mixed binary64 binary32) (((@fm0 binary64), (@f0 binary64)), trv)) (fun v1 => ret (fsign v1)))));
  (491, (bind (@num_dec_mixed binary64 binary32 (@n_sup_mixed binary64 binary32) (((@f0 binary64), (@fm0 binary64)), trv)) (fun v1 => ret (feq v1 (@f0 binary32)))));
  (492, (mnot (bind (@num_dec_mixed binary64 binary32 (@n_sup_mixed binary64 binary32) (((@f0 binary64), (@fm0 binary64)), trv)) (fun v1 => ret (fsign v1)))));
  (493, (bind (@num_dec_mixed binary64 binary32 (@n_sup_mixed binary64 binary32) (((@f0 binary64), (@f0 binary64)), trv)) (fun v1 => ret (feq v1 (@f0 binary32)))));
  (494, (mnot (bind (@num_dec_mixed binary64 binary32 (@n_sup_mixed binary64 binary32) (((@f0 binary64), (@f0 binary64)), trv)) (fun v1 => ret (fsign v1)))));
  (495, (bind (@num_dec_mixed binary64 binary32 (@n_sup_mixed binary64 binary32) (((@fm0 binary64), (@fm0 binary64)), trv)) (fun v1 => ret (feq v1 (@f0 binary32)))));
  (496, (mnot (bind (@num_dec_mixed binary64 binary32 (@n_sup_mixed binary64 binary32) (((@fm0 binary64), (@fm0 binary64)), trv)) (fun v1 => ret (fsign v1)))));
  (498, (bind (@num_dec_mixed binary64 binary32 (@n_sup_mixed binary64 binary32) (((fl binary64 (-1) (-1074)), (fl binary64 (1) (-1074))), com)) (fun v1 => ret (feq v1 (fl binary32 (1) (-149))))));
  (499, (bind (@num_dec_mixed binary64 binary32 (@n_sup_mixed binary64 binary32) (((fl binary64 (-1) (-1074)), (fl binary64 (-1) (-1074))), trv)) (fun v1 => ret (feq v1 (@f0 binary32)))));
  (500, (mnot (bind (@num_dec_mixed binary64 binary32 (@n_sup_mixed binary64 binary32) (((fl binary64 (-1) (-1074)), (fl binary64 (-1) (-1074))), trv)) (fun v1 => ret (fsign v1)))));
  (501, (bind (@num_dec_mixed binary64 binary32 (@n_sup_mixed binary64 binary32) (((fl binary64 (1) (-1074)), (fl binary64 (1) (-1074))), def)) (fun v1 => ret (feq v1 (fl binary32 (1) (-149))))));
  (502, (bind (@num_dec_mixed binary64 binary32 (@n_sup_mixed binary64 binary32) (((fl binary64 (-9007199254740991) (971)), (fl binary64 (9007199254740991) (971))), trv)) (fun v1 => ret (feq v1 (@finf binary32)))));
  (504, (bind get_flags (fun v1 => ret (N.eqb v1 none_bit))));
  (506, clear_flags);
  (507, (bind (@num_dec_mixed binary64 binary32 (@n_sup_mixed binary64 binary32) (((fl binary64 (1) (0)), (fl binary64 (-1) (1))), com)) (fun v1 => ret (isnan v1))));
  (508, (bind get_flags (fun v1 => ret (N.eqb v1 invalid_operand_bit))));
  (509, clear_flags);
  (510, (set_cwd invalid_operand_bit));
  (511, (throws (@num_dec_mixed binary64 binary32 (@n_sup_mixed binary64 binary32) (((fl binary64 (1) (0)), (fl binary64 (-1) (1))), com)) Invalid_operand_exception));
  (512, (bind get_flags (fun v1 => ret (N.eqb v1 invalid_operand_bit))));
  (513, clear_flags);
  (514, (set_cwd none_bit));
  (517, (bind (@num_dec_mixed binary32 binary64 (@n_sup_mixed binary32 binary64) (((@fnan binary32), (@fnan binary32)), ill)) (fun v1 => ret (isnan v1))));
  (519, (bind (@num_dec_mixed binary32 binary64 (@n_sup_mixed binary32 binary64) (((@fnan binary32), (@fnan binary32)), trv)) (fun v1 => ret (feq v1 (@fminf binary64)))));
  (520, (bind (@num_dec_mixed binary32 binary64 (@n_sup_mixed binary32 binary64) (((@fminf binary32), (@finf binary32)), def)) (fun v1 => ret (feq v1 (@finf binary64)))));
  (521, (bind (@num_dec_mixed binary32 binary64 (@n_sup_mixed binary32 binary64) (((fl binary32 (1) (0)), (fl binary32 (1) (1))), com)) (fun v1 => ret (feq v1 (fl binary64 (1) (1))))));
  (522, (bind (@num_dec_mixed binary32 binary64 (@n_sup_mixed binary32 binary64) (((fl binary32 (-3) (0)), (fl binary32 (-1) (1))), trv)) (fun v1 => ret (feq v1 (fl binary64 (-1) (1))))));
  (523, (bind (@num_dec_mixed binary32 binary64 (@n_sup_mixed binary32 binary64) (((@fminf binary32), (fl binary32 (1) (1))), dac)) (fun v1 => ret (feq v1 (fl binary64 (1) (1))))));
  (524, (bind (@num_dec_mixed binary32 binary64 (@n_sup_mixed binary32 binary64) (((@fminf binary32), (@f0 binary32)), def)) (fun v1 => ret (feq v1 (@f0 binary64)))));
  (525, (mnot (bind (@num_dec_mixed binary32 binary64 (@n_sup_mixed binary32 binary64) (((@fminf binary32), (@f0 binary32)), trv)) (fun v1 => ret (fsign v1)))));
  (526, (bind (@num_dec_mixed binary32 binary64 (@n_sup_mixed binary32 binary64) (((@fminf binary32), (@fm0 binary32)), trv)) (fun v1 => ret (feq v1 (@f0 binary64)))));
  (527, (mnot (bind (@num_dec_mixed binary32 binary64 (@n_sup_mixed binary32 binary64) (((@fminf binary32), (@fm0 binary32)), trv)) (fun v1 => ret (fsign v1)))));
  (528, (bind (@num_dec_mixed binary32 binary64 (@n_sup_mixed binary32 binary64) (((fl binary32 (-1) (1)), (@finf binary32)), trv)) (fun v1 => ret (feq v1 (@finf binary64)))));
  (529, (bind (@num_dec_mixed binary32 binary64 (@n_sup_mixed binary32 binary64) (((@f0 binary32), (@finf binary32)), def)) (fun v1 => ret (feq v1 (@finf binary64)))));
  (530, (bind (@num_dec_mixed binary32 binary64 (@n_sup_mixed binary32 binary64) (((@fm0 binary32), (@finf binary32)), trv)) (fun v1 => ret (feq v1 (@finf binary64)))));
  (531, (bind (@num_dec_mixed binary32 binary64 (@n_sup_mixed binary32 binary64) (((@fm0 binary32), (@f0 binary32)), dac)) (fun v1 => ret (feq v1 (@f0 binary64)))));
  (532, (mnot (bind (@num_dec_mixed binary32 binary64 (@n_sup_mixed binary32 binary64) (((@fm0 binary32), (@f0 binary32)), trv)) (fun v1 => ret (fsign v1)))));
  (533, (bind (@num_dec_mixed binary32 binary64 (@n_sup_mixed binary32 binary64) (((@f0 binary32), (@fm0 binary32)), trv)) (fun v1 => ret (feq v1 (@f0 binary64)))));
  (534, (mnot (bind (@num_dec_mixed binary32 binary64 (@n_sup_mixed binary32 binary64) (((@f0 binary32), (@fm0 binary32)), trv)) (fun v1 => ret (fsign v1)))));
  (535, (bind (@num_dec_mixed binary32 binary64 (@n_sup_mixed binary32 binary64) (((@f0 binary32), (@f0 binary32)), trv)) (fun v1 => ret (feq v1 (@f0 binary64)))));
  (536, (mnot (bind (@num_dec_mixed binary32 binary64 (@n_sup_mixed binary32 binary64) (((@f0 binary32), (@f0 binary32)), trv)) (fun v1 => ret (fsign v1)))));
  (537, (bind (@num_dec_mixed binary32 binary64 (@n_sup_mixed binary32 binary64) (((@fm0 binary32), (@fm0 binary32)), trv)) (fun v1 => ret (feq v1 (@f0 binary64)))));
  (538, (mnot (bind (@num_dec_mixed binary32 binary64 (@n_sup_mixed binary32 binary64) (((@fm0 binary32), (@fm0 binary32)), trv)) (fun v1 => ret (fsign v1)))));
  (540, (bind (@num_dec_mixed binary32 binary64 (@n_sup_mixed binary32 binary64) (((fl binary32 (-1) (-149)), (fl binary32 (1) (-149))), com)) (fun v1 => ret (feq2 v1 (fl binary32 (1) (-149))))));
  (541, (bind (@num_dec_mixed binary32 binary64 (@n_sup_mixed binary32 binary64) (((fl binary32 (-1) (-149)), (fl binary32 (-1) (-149))), trv)) (fun v1 => ret (feq2 v1 (fl binary32 (-1) (-149))))));
  (542, (bind (@num_dec_mixed binary32 binary64 (@n_sup_mixed binary32 binary64) (((fl binary32 (1) (-149)), (fl binary32 (1) (-149))), def)) (fun v1 => ret (feq2 v1 (fl binary32 (1) (-149))))));
  (543, (bind (@num_dec_mixed binary32 binary64 (@n_sup_mixed binary32 binary64) (((fl binary32 (-16777215) (104)), (fl binary32 (16777215) (104))), trv)) (fun v1 => ret (feq2 v1 (fl binary32 (16777215) (104))))));
  (545, (bind get_flags (fun v1 => ret (N.eqb v1 none_bit))));
  (547, clear_flags);
  (548, (bind (@num_dec_mixed binary32 binary64 (@n_sup_mixed binary32 binary64) (((fl binary32 (1) (0)), (fl binary32 (-1) (1))), com)) (fun v1 => ret (isnan v1))));
  (549, (bind get_flags (fun v1 => ret (N.eqb v1 invalid_operand_bit))));
  (550, clear_flags);
  (551, (set_cwd invalid_operand_bit));
  (552, (throws (@num_dec_mixed binary32 binary64 (@n_sup_mixed binary32 binary64) (((fl binary32 (1) (0)), (fl binary32 (-1) (1))), com)) Invalid_operand_exception));
  (553, (bind get_flags (fun v1 => ret (N.eqb v1 invalid_operand_bit))));
  (554, clear_flags);
  (555, (set_cwd none_bit))].

(** lines 560-595 *)
Definition minimal_mid_test : list (N * M bool) := [
  (562, clear_flags);
  (564, (bind (@n_mid binary64 ((@fnan binary64), (@fnan binary64))) (fun v1 => ret (isnan v1))));
  (565, (bind (@n_mid binary64 ((@fminf binary64), (@finf binary64))) (fun v1 => ret (feq v1 (@f0 binary64)))));
  (566, (mnot (bind (@n_mid binary64 ((@fminf binary64), (@finf binary64))) (fun v1 => ret (fsign v1)))));
  (567, (bind (@n_mid binary64 ((fl binary64 (-9007199254740991) (971)), (fl binary64 (9007199254740991) (971)))) (fun v1 => ret (feq v1 (@f0 binary64)))));
  (568, (mnot (bind (@n_mid binary64 ((fl binary64 (-9007199254740991) (971)), (fl binary64 (9007199254740991) (971)))) (fun v1 => ret (fsign v1)))));
  (569, (bind (@n_mid binary64 ((@f0 binary64), (fl binary64 (1) (1)))) (fun v1 => ret (feq v1 (fl binary64 (1) (0))))));
  (570, (bind (@n_mid binary64 ((fl binary64 (1) (1)), (fl binary64 (1) (1)))) (fun v1 => ret (feq v1 (fl binary64 (1) (1))))));
  (571, (bind (@n_mid binary64 ((fl binary64 (-1) (1)), (fl binary64 (1) (1)))) (fun v1 => ret (feq v1 (@f0 binary64)))));
  (572, (mnot (bind (@n_mid binary64 ((fl binary64 (-1) (1)), (fl binary64 (1) (1)))) (fun v1 => ret (fsign v1)))));
  (573, (bind (@n_mid binary64 ((@f0 binary64), (@finf binary64))) (fun v1 => ret (feq v1 (fl binary64 (9007199254740991) (971))))));
  (574, (bind (@n_mid binary64 ((@fminf binary64), (fl binary64 (5404319552844595) (-52)))) (fun v1 => ret (feq v1 (fl binary64 (-9007199254740991) (971))))));
  (575, (bind (@n_mid binary64 ((fl binary64 (-1) (-1073)), (fl binary64 (1) (-1074)))) (fun v1 => ret (feq v1 (@f0 binary64)))));
  (576, (mnot (bind (@n_mid binary64 ((fl binary64 (-1) (-1073)), (fl binary64 (1) (-1074)))) (fun v1 => ret (fsign v1)))));
  (577, (bind (@n_mid binary64 ((fl binary64 (-1) (-1074)), (fl binary64 (1) (-1073)))) (fun v1 => ret (feq v1 (@f0 binary64)))));
  (578, (mnot (bind (@n_mid binary64 ((fl binary64 (-1) (-1074)), (fl binary64 (1) (-1073)))) (fun v1 => ret (fsign v1)))));
  (579, (bind (@n_mid binary64 ((fl binary64 (9007199254740991) (970)), (fl binary64 (9007199254740991) (971)))) (fun v1 => ret (feq v1 (fl binary64 (6755399441055743) (971))))));
  (580, (bind (@n_mid binary64 ((fl binary64 (1) (-1074)), (fl binary64 (3) (-1074)))) (fun v1 => ret (feq v1 (fl binary64 (1) (-1073))))));
  (581, (bind (@n_mid binary64 ((fl binary64 (1) (-1074)), (fl binary64 (1) (-1073)))) (fun v1 => ret (feq v1 (fl binary64 (1) (-1073))))));
  (584, (bind get_flags (fun v1 => ret (N.eqb v1 none_bit))));
  (586, clear_flags);
  (587, (bind (@n_mid binary64 ((fl binary64 (3) (-1)), (fl binary64 (3152519739159347) (-52)))) (fun v1 => ret (isnan v1))));
  (588, (bind get_flags (fun v1 => ret (N.eqb v1 invalid_operand_bit))));
  (589, clear_flags);
  (590, (set_cwd invalid_operand_bit));
  (591, (throws (@n_mid binary64 ((fl binary64 (3) (-1)), (fl binary64 (3152519739159347) (-52)))) Invalid_operand_exception));
  (592, (bind get_flags (fun v1 => ret (N.eqb v1 invalid_operand_bit))));
  (593, clear_flags);
  (594, (set_cwd none_bit))].

(** lines 597-631 *)
Definition minimal_mid_mixedtype_test : list (N * M bool) := [
  (599, clear_flags);
  (601, (bind (@n_mid_mixed binary64 binary32 ((@fnan binary64), (@fnan binary64))) (fun v1 => ret (isnan v1))));
  (602, (bind (@n_mid_mixed binary64 binary32 ((@fminf binary64), (@finf binary64))) (fun v1 => ret (feq v1 (@f0 binary32)))));
  (603, (mnot (bind (@n_mid_mixed binary64 binary32 ((@fminf binary64), (@finf binary64))) (fun v1 => ret (fsign v1)))));
  (604, (bind (@n_mid_mixed binary64 binary32 ((fl binary64 (-9007199254740991) (971)), (fl binary64 (9007199254740991) (971)))) (fun v1 => ret (feq v1 (@f0 binary32)))));
  (605, (mnot (bind (@n_mid_mixed binary64 binary32 ((fl binary64 (-9007199254740991) (971)), (fl binary64 (9007199254740991) (971)))) (fun v1 => ret (fsign v1)))));
  (606, (bind (@n_mid_mixed binary64 binary32 ((@f0 binary64), (fl binary64 (1) (1)))) (fun v1 => ret (feq v1 (fl binary32 (1) (0))))));
  (607, (bind (@n_mid_mixed binary64 binary32 ((fl binary64 (1) (1)), (fl binary64 (1) (1)))) (fun v1 => ret (feq v1 (fl binary32 (1) (1))))));
  (608, (bind (@n_mid_mixed binary64 binary32 ((fl binary64 (-1) (1)), (fl binary64 (1) (1)))) (fun v1 => ret (feq v1 (@f0 binary32)))));
  (609, (mnot (bind (@n_mid_mixed binary64 binary32 ((fl binary64 (-1) (1)), (fl binary64 (1) (1)))) (fun v1 => ret (fsign v1)))));
  (610, (bind (@n_mid_mixed binary64 binary32 ((@f0 binary64), (@finf binary64))) (fun v1 => ret (feq v1 (fl binary32 (16777215) (104))))));
  (611, (bind (@n_mid_mixed binary64 binary32 ((@fminf binary64), (fl binary64 (5404319552844595) (-52)))) (fun v1 => ret (feq v1 (fl binary32 (-16777215) (104))))));
  (612, (bind (@n_mid_mixed binary64 binary32 ((fl binary64 (-1) (-1073)), (fl binary64 (1) (-1074)))) (fun v1 => ret (feq v1 (@f0 binary32)))));
  (613, (mnot (bind (@n_mid_mixed binary64 binary32 ((fl binary64 (-1) (-1073)), (fl binary64 (1) (-1074)))) (fun v1 => ret (fsign v1)))));
  (614, (bind (@n_mid_mixed binary64 binary32 ((fl binary64 (-1) (-1074)), (fl binary64 (1) (-1073)))) (fun v1 => ret (feq v1 (@f0 binary32)))));
  (615, (mnot (bind (@n_mid_mixed binary64 binary32 ((fl binary64 (-1) (-1074)), (fl binary64 (1) (-1073)))) (fun v1 => ret (fsign v1)))));
  (616, (bind (@n_mid_mixed binary64 binary32 ((fl binary64 (33554393) (-24)), (fl binary64 (9007188785758209) (-52)))) (fun v1 => ret (feq v1 (fl binary32 (16777197) (-23))))));
  (617, (bind (@n_mid_mixed binary64 binary32 ((fl binary64 (1) (-1074)), (fl binary64 (3) (-1074)))) (fun v1 => ret (feq v1 (@f0 binary32)))));
  (618, (mnot (bind (@n_mid_mixed binary64 binary32 ((fl binary64 (1) (-1074)), (fl binary64 (3) (-1074)))) (fun v1 => ret (fsign v1)))));
  (620, (bind get_flags (fun v1 => ret (N.eqb v1 none_bit))));
  (622, clear_flags);
  (623, (bind (@n_mid_mixed binary64 binary32 ((fl binary64 (3) (-1)), (fl binary64 (3152519739159347) (-52)))) (fun v1 => ret (isnan v1))));
  (624, (bind get_flags (fun v1 => ret (N.eqb v1 invalid_operand_bit))));
  (625, clear_flags);
  (626, (set_cwd invalid_operand_bit));
  (627, (throws (@n_mid_mixed binary64 binary32 ((fl binary64 (3) (-1)), (fl binary64 (3152519739159347) (-52)))) Invalid_operand_exception));
  (628, (bind get_flags (fun v1 => ret (N.eqb v1 invalid_operand_bit))));
  (629, clear_flags);
  (630, (set_cwd none_bit))].

(** lines 633-668 *)
Definition minimal_mid_dec_test : list (N * M bool) := [
  (635, clear_flags);
  (637, (bind (@n_mid_dec binary64 (((@fnan binary64), (@fnan binary64)), trv)) (fun v1 => ret (isnan v1))));
  (638, (bind (@n_mid_dec binary64 (((@fnan binary64), (@fnan binary64)), ill)) (fun v1 => ret (isnan v1))));
  (639, (bind (@n_mid_dec binary64 (((@fminf binary64), (@finf binary64)), def)) (fun v1 => ret (feq v1 (@f0 binary64)))));
  (640, (mnot (bind (@n_mid_dec binary64 (((@fminf binary64), (@finf binary64)), def)) (fun v1 => ret (fsign v1)))));
  (641, (bind (@n_mid_dec binary64 (((fl binary64 (-9007199254740991) (971)), (fl binary64 (9007199254740991) (971))), trv)) (fun v1 => ret (feq v1 (@f0 binary64)))));
  (642, (mnot (bind (@n_mid_dec binary64 (((fl binary64 (-9007199254740991) (971)), (fl binary64 (9007199254740991) (971))), trv)) (fun v1 => ret (fsign v1)))));
  (643, (bind (@n_mid_dec binary64 (((@f0 binary64), (fl binary64 (1) (1))), com)) (fun v1 => ret (feq v1 (fl binary64 (1) (0))))));
  (644, (bind (@n_mid_dec binary64 (((fl binary64 (1) (1)), (fl binary64 (1) (1))), dac)) (fun v1 => ret (feq v1 (fl binary64 (1) (1))))));
  (645, (bind (@n_mid_dec binary64 (((fl binary64 (-1) (1)), (fl binary64 (1) (1))), trv)) (fun v1 => ret (feq v1 (@f0 binary64)))));
  (646, (mnot (bind (@n_mid_dec binary64 (((fl binary64 (-1) (1)), (fl binary64 (1) (1))), trv)) (fun v1 => ret (fsign v1)))));
  (647, (bind (@n_mid_dec binary64 (((@f0 binary64), (@finf binary64)), trv)) (fun v1 => ret (feq v1 (fl binary64 (9007199254740991) (971))))));
  (648, (bind (@n_mid_dec binary64 (((@fminf binary64), (fl binary64 (5404319552844595) (-52))), trv)) (fun v1 => ret (feq v1 (fl binary64 (-9007199254740991) (971))))));
  (649, (bind (@n_mid_dec binary64 (((fl binary64 (-1) (-1073)), (fl binary64 (1) (-1074))), trv)) (fun v1 => ret (feq v1 (@f0 binary64)))));
  (650, (mnot (bind (@n_mid_dec binary64 (((fl binary64 (-1) (-1073)), (fl binary64 (1) (-1074))), trv)) (fun v1 => ret (fsign v1)))));
  (651, (bind (@n_mid_dec binary64 (((fl binary64 (-1) (-1074)), (fl binary64 (1) (-1073))), trv)) (fun v1 => ret (feq v1 (@f0 binary64)))));
  (652, (mnot (bind (@n_mid_dec binary64 (((fl binary64 (-1) (-1074)), (fl binary64 (1) (-1073))), trv)) (fun v1 => ret (fsign v1)))));
  (653, (bind (@n_mid_dec binary64 (((fl binary64 (9007199254740991) (970)), (fl binary64 (9007199254740991) (971))), trv)) (fun v1 => ret (feq v1 (fl binary64 (6755399441055743) (971))))));
  (654, (bind (@n_mid_dec binary64 (((fl binary64 (1) (-1074)), (fl binary64 (3) (-1074))), trv)) (fun v1 => ret (feq v1 (fl binary64 (1) (-1073))))));
  (655, (bind (@n_mid_dec binary64 (((fl binary64 (1) (-1074)), (fl binary64 (1) (-1073))), trv)) (fun v1 => ret (feq v1 (fl binary64 (1) (-1073))))));
  (657, (bind get_flags (fun v1 => ret (N.eqb v1 none_bit))));
  (659, clear_flags);
  (660, (bind (@n_mid_dec binary64 (((fl binary64 (3) (-1)), (fl binary64 (3152519739159347) (-52))), trv)) (fun v1 => ret (isnan v1))));
  (661, (bind get_flags (fun v1 => ret (N.eqb v1 invalid_operand_bit))));
  (662, clear_flags);
  (663, (set_cwd invalid_operand_bit));
  (664, (throws (@n_mid_dec binary64 (((fl binary64 (3) (-1)), (fl binary64 (3152519739159347) (-52))), trv)) Invalid_operand_exception));
  (665, (bind get_flags (fun v1 => ret (N.eqb v1 invalid_operand_bit))));
  (666, clear_flags);
  (667, (set_cwd none_bit))].

(** lines 670-705 *)
Definition minimal_mid_dec_mixedtype_test : list (N * M bool) := [
  (672, clear_flags);
  (674, (bind (@num_dec_mixed binary64 binary32 (@n_mid_mixed binary64 binary32) (((@fnan binary64), (@fnan binary64)), trv)) (fun v1 => ret (isnan v1))));
  (675, (bind (@num_dec_mixed binary64 binary32 (@n_mid_mixed binary64 binary32) (((@fnan binary64), (@fnan binary64)), ill)) (fun v1 => ret (isnan v1))));
  (676, (bind (@num_dec_mixed binary64 binary32 (@n_mid_mixed binary64 binary32) (((@fminf binary64), (@finf binary64)), def)) (fun v1 => ret (feq v1 (@f0 binary32)))));
  (677, (mnot (bind (@num_dec_mixed binary64 binary32 (@n_mid_mixed binary64 binary32) (((@fminf binary64), (@finf binary64)), trv)) (fun v1 => ret (fsign v1)))));
  (678, (bind (@num_dec_mixed binary64 binary32 (@n_mid_mixed binary64 binary32) (((fl binary64 (-9007199254740991) (971)), (fl binary64 (9007199254740991) (971))), trv)) (fun v1 => ret (feq v1 (@f0 binary32)))));
  (679, (mnot (bind (@num_dec_mixed binary64 binary32 (@n_mid_mixed binary64 binary32) (((fl binary64 (-9007199254740991) (971)), (fl binary64 (9007199254740991) (971))), trv)) (fun v1 => ret (fsign v1)))));
  (680, (bind (@num_dec_mixed binary64 binary32 (@n_mid_mixed binary64 binary32) (((@f0 binary64), (fl binary64 (1) (1))), com)) (fun v1 => ret (feq v1 (fl binary32 (1) (0))))));
  (681, (bind (@num_dec_mixed binary64 binary32 (@n_mid_mixed binary64 binary32) (((fl binary64 (1) (1)), (fl binary64 (1) (1))), trv)) (fun v1 => ret (feq v1 (fl binary32 (1) (1))))));
  (682, (bind (@num_dec_mixed binary64 binary32 (@n_mid_mixed binary64 binary32) (((fl binary64 (-1) (1)), (fl binary64 (1) (1))), trv)) (fun v1 => ret (feq v1 (@f0 binary32)))));
  (683, (mnot (bind (@num_dec_mixed binary64 binary32 (@n_mid_mixed binary64 binary32) (((fl binary64 (-1) (1)), (fl binary64 (1) (1))), trv)) (fun v1 => ret (fsign v1)))));
  (684, (bind (@num_dec_mixed binary64 binary32 (@n_mid_mixed binary64 binary32) (((@f0 binary64), (@finf binary64)), trv)) (fun v1 => ret (feq v1 (fl binary32 (16777215) (104))))));
  (685, (bind (@num_dec_mixed binary64 binary32 (@n_mid_mixed binary64 binary32) (((@fminf binary64), (fl binary64 (5404319552844595) (-52))), trv)) (fun v1 => ret (feq v1 (fl binary32 (-16777215) (104))))));
  (686, (bind (@num_dec_mixed binary64 binary32 (@n_mid_mixed binary64 binary32) (((fl binary64 (-1) (-1073)), (fl binary64 (1) (-1074))), trv)) (fun v1 => ret (feq v1 (@f0 binary32)))));
  (687, (mnot (bind (@num_dec_mixed binary64 binary32 (@n_mid_mixed binary64 binary32) (((fl binary64 (-1) (-1073)), (fl binary64 (1) (-1074))), trv)) (fun v1 => ret (fsign v1)))));
  (688, (bind (@num_dec_mixed binary64 binary32 (@n_mid_mixed binary64 binary32) (((fl binary64 (-1) (-1074)), (fl binary64 (1) (-1073))), trv)) (fun v1 => ret (feq v1 (@f0 binary32)))));
  (689, (mnot (bind (@num_dec_mixed binary64 binary32 (@n_mid_mixed binary64 binary32) (((fl binary64 (-1) (-1074)), (fl binary64 (1) (-1073))), trv)) (fun v1 => ret (fsign v1)))));
  (690, (bind (@num_dec_mixed binary64 binary32 (@n_mid_mixed binary64 binary32) (((fl binary64 (33554393) (-24)), (fl binary64 (9007188785758209) (-52))), trv)) (fun v1 => ret (feq v1 (fl binary32 (16777197) (-23))))));
  (691, (bind (@num_dec_mixed binary64 binary32 (@n_mid_mixed binary64 binary32) (((fl binary64 (1) (-1074)), (fl binary64 (3) (-1074))), trv)) (fun v1 => ret (feq v1 (@f0 binary32)))));
  (692, (mnot (bind (@num_dec_mixed binary64 binary32 (@n_mid_mixed binary64 binary32) (((fl binary64 (1) (-1074)), (fl binary64 (3) (-1074))), trv)) (fun v1 => ret (fsign v1)))));
  (694, (bind get_flags (fun v1 => ret (N.eqb v1 none_bit))));
  (696, clear_flags);
  (697, (bind (@num_dec_mixed binary64 binary32 (@n_mid_mixed binary64 binary32) (((fl binary64 (3) (-1)), (fl binary64 (3152519739159347) (-52))), trv)) (fun v1 => ret (isnan v1))));
  (698, (bind get_flags (fun v1 => ret (N.eqb v1 invalid_operand_bit))));
  (699, clear_flags);
  (700, (set_cwd invalid_operand_bit));
  (701, (throws (@num_dec_mixed binary64 binary32 (@n_mid_mixed binary64 binary32) (((fl binary64 (3) (-1)), (fl binary64 (3152519739159347) (-52))), trv)) Invalid_operand_exception));
  (702, (bind get_flags (fun v1 => ret (N.eqb v1 invalid_operand_bit))));
  (703, clear_flags);
  (704, (set_cwd none_bit))].

(** lines 709-735 *)
Definition minimal_rad_test : list (N * M bool) := [
  (711, clear_flags);
  (713, (bind (@n_rad binary64 ((@f0 binary64), (fl binary64 (1) (1)))) (fun v1 => ret (feq v1 (fl binary64 (1) (0))))));
  (714, (bind (@n_rad binary64 ((fl binary64 (1) (1)), (fl binary64 (1) (1)))) (fun v1 => ret (feq v1 (@f0 binary64)))));
  (715, (mnot (bind (@n_rad binary64 ((fl binary64 (1) (1)), (fl binary64 (1) (1)))) (fun v1 => ret (fsign v1)))));
  (716, (bind (@n_rad binary64 ((@fnan binary64), (@fnan binary64))) (fun v1 => ret (isnan v1))));
  (717, (bind (@n_rad binary64 ((@fminf binary64), (@finf binary64))) (fun v1 => ret (feq v1 (@finf binary64)))));
  (718, (bind (@n_rad binary64 ((@f0 binary64), (@finf binary64))) (fun v1 => ret (feq v1 (@finf binary64)))));
  (719, (bind (@n_rad binary64 ((@fminf binary64), (fl binary64 (5404319552844595) (-52)))) (fun v1 => ret (feq v1 (@finf binary64)))));
  (720, (bind (@n_rad binary64 ((fl binary64 (-1) (-1073)), (fl binary64 (1) (-1074)))) (fun v1 => ret (feq v1 (fl binary64 (1) (-1073))))));
  (721, (bind (@n_rad binary64 ((fl binary64 (1) (-1074)), (fl binary64 (1) (-1073)))) (fun v1 => ret (feq v1 (fl binary64 (1) (-1074))))));
  (722, (bind (@n_rad binary64 ((fl binary64 (1) (0)), (fl binary64 (4503599627370499) (-52)))) (fun v1 => ret (feq v1 (fl binary64 (1) (-51))))));
  (724, (bind get_flags (fun v1 => ret (N.eqb v1 none_bit))));
  (726, clear_flags);
  (727, (bind (@n_rad binary64 ((fl binary64 (3) (-1)), (fl binary64 (3152519739159347) (-52)))) (fun v1 => ret (isnan v1))));
  (728, (bind get_flags (fun v1 => ret (N.eqb v1 invalid_operand_bit))));
  (729, clear_flags);
  (730, (set_cwd invalid_operand_bit));
  (731, (throws (@n_rad binary64 ((fl binary64 (3) (-1)), (fl binary64 (3152519739159347) (-52)))) Invalid_operand_exception));
  (732, (bind get_flags (fun v1 => ret (N.eqb v1 invalid_operand_bit))));
  (733, clear_flags);
  (734, (set_cwd none_bit))].

(** lines 737-761 *)
Definition minimal_rad_mixedtype_test : list (N * M bool) := [
  (739, clear_flags);
  (741, (bind (@n_rad_mixed binary64 binary32 ((@f0 binary64), (fl binary64 (1) (1)))) (fun v1 => ret (feq v1 (fl binary32 (1) (0))))));
  (742, (bind (@n_rad_mixed binary64 binary32 ((fl binary64 (1) (1)), (fl binary64 (1) (1)))) (fun v1 => ret (feq v1 (@f0 binary32)))));
  (743, (mnot (bind (@n_rad_mixed binary64 binary32 ((fl binary64 (1) (1)), (fl binary64 (1) (1)))) (fun v1 => ret (fsign v1)))));
  (744, (bind (@n_rad_mixed binary64 binary32 ((@fnan binary64), (@fnan binary64))) (fun v1 => ret (isnan v1))));
  (745, (bind (@n_rad_mixed binary64 binary32 ((@fminf binary64), (@finf binary64))) (fun v1 => ret (feq v1 (@finf binary32)))));
  (746, (bind (@n_rad_mixed binary64 binary32 ((@f0 binary64), (@finf binary64))) (fun v1 => ret (feq v1 (@finf binary32)))));
  (747, (bind (@n_rad_mixed binary64 binary32 ((@fminf binary64), (fl binary64 (5404319552844595) (-52)))) (fun v1 => ret (feq v1 (@finf binary32)))));
  (748, (bind (@n_rad_mixed binary64 binary32 ((fl binary64 (8388607) (105)), (fl binary64 (33554431) (103)))) (fun v1 => ret (feq v1 (fl binary32 (1) (104))))));
  (750, (bind get_flags (fun v1 => ret (N.eqb v1 none_bit))));
  (752, clear_flags);
  (753, (bind (@n_rad_mixed binary64 binary32 ((fl binary64 (3) (-1)), (fl binary64 (3152519739159347) (-52)))) (fun v1 => ret (isnan v1))));
  (754, (bind get_flags (fun v1 => ret (N.eqb v1 invalid_operand_bit))));
  (755, clear_flags);
  (756, (set_cwd invalid_operand_bit));
  (757, (throws (@n_rad_mixed binary64 binary32 ((fl binary64 (3) (-1)), (fl binary64 (3152519739159347) (-52)))) Invalid_operand_exception));
  (758, (bind get_flags (fun v1 => ret (N.eqb v1 invalid_operand_bit))));
  (759, clear_flags);
  (760, (set_cwd none_bit))].

(** lines 763-790 *)
Definition minimal_rad_dec_test : list (N * M bool) := [
  (765, clear_flags);
  (767, (bind (@n_rad_dec binary64 (((@f0 binary64), (fl binary64 (1) (1))), trv)) (fun v1 => ret (feq v1 (fl binary64 (1) (0))))));
  (768, (bind (@n_rad_dec binary64 (((fl binary64 (1) (1)), (fl binary64 (1) (1))), com)) (fun v1 => ret (feq v1 (@f0 binary64)))));
  (769, (mnot (bind (@n_rad_dec binary64 (((fl binary64 (1) (1)), (fl binary64 (1) (1))), trv)) (fun v1 => ret (fsign v1)))));
  (770, (bind (@n_rad_dec binary64 (((@fnan binary64), (@fnan binary64)), trv)) (fun v1 => ret (isnan v1))));
  (771, (bind (@n_rad_dec binary64 (((@fnan binary64), (@fnan binary64)), ill)) (fun v1 => ret (isnan v1))));
  (772, (bind (@n_rad_dec binary64 (((@fminf binary64), (@finf binary64)), trv)) (fun v1 => ret (feq v1 (@finf binary64)))));
  (773, (bind (@n_rad_dec binary64 (((@f0 binary64), (@finf binary64)), def)) (fun v1 => ret (feq v1 (@finf binary64)))));
  (774, (bind (@n_rad_dec binary64 (((@fminf binary64), (fl binary64 (5404319552844595) (-52))), trv)) (fun v1 => ret (feq v1 (@finf binary64)))));
  (775, (bind (@n_rad_dec binary64 (((fl binary64 (-1) (-1073)), (fl binary64 (1) (-1074))), trv)) (fun v1 => ret (feq v1 (fl binary64 (1) (-1073))))));
  (776, (bind (@n_rad_dec binary64 (((fl binary64 (1) (-1074)), (fl binary64 (1) (-1073))), trv)) (fun v1 => ret (feq v1 (fl binary64 (1) (-1074))))));
  (777, (bind (@n_rad_dec binary64 (((fl binary64 (1) (0)), (fl binary64 (4503599627370499) (-52))), trv)) (fun v1 => ret (feq v1 (fl binary64 (1) (-51))))));
  (779, (bind get_flags (fun v1 => ret (N.eqb v1 none_bit))));
  (781, clear_flags);
  (782, (bind (@n_mid_dec binary64 (((fl binary64 (3) (-1)), (fl binary64 (3152519739159347) (-52))), trv)) (fun v1 => ret (isnan v1))));
  (783, (bind get_flags (fun v1 => ret (N.eqb v1 invalid_operand_bit))));
  (784, clear_flags);
  (785, (set_cwd invalid_operand_bit));
  (786, (throws (@n_mid_dec binary64 (((fl binary64 (3) (-1)), (fl binary64 (3152519739159347) (-52))), trv)) Invalid_operand_exception));
  (787, (bind get_flags (fun v1 => ret (N.eqb v1 invalid_operand_bit))));
  (788, clear_flags);
  (789, (set_cwd none_bit))].

(** lines 792-817 *)
Definition minimal_rad_dec_mixedtype_test : list (N * M bool) := [
  (794, clear_flags);
  (796, (bind (@num_dec_mixed binary64 binary32 (@n_rad_mixed binary64 binary32) (((@f0 binary64), (fl binary64 (1) (1))), trv)) (fun v1 => ret (feq v1 (fl binary32 (1) (0))))));
  (797, (bind (@num_dec_mixed binary64 binary32 (@n_rad_mixed binary64 binary32) (((fl binary64 (1) (1)), (fl binary64 (1) (1))), com)) (fun v1 => ret (feq v1 (@f0 binary32)))));
  (798, (mnot (bind (@num_dec_mixed binary64 binary32 (@n_rad_mixed binary64 binary32) (((fl binary64 (1) (1)), (fl binary64 (1) (1))), trv)) (fun v1 => ret (fsign v1)))));
  (799, (bind (@num_dec_mixed binary64 binary32 (@n_rad_mixed binary64 binary32) (((@fnan binary64), (@fnan binary64)), trv)) (fun v1 => ret (isnan v1))));
  (800, (bind (@num_dec_mixed binary64 binary32 (@n_rad_mixed binary64 binary32) (((@fnan binary64), (@fnan binary64)), ill)) (fun v1 => ret (isnan v1))));
  (801, (bind (@num_dec_mixed binary64 binary32 (@n_rad_mixed binary64 binary32) (((@fminf binary64), (@finf binary64)), def)) (fun v1 => ret (feq v1 (@finf binary32)))));
  (802, (bind (@num_dec_mixed binary64 binary32 (@n_rad_mixed binary64 binary32) (((@f0 binary64), (@finf binary64)), trv)) (fun v1 => ret (feq v1 (@finf binary32)))));
  (803, (bind (@num_dec_mixed binary64 binary32 (@n_rad_mixed binary64 binary32) (((@fminf binary64), (fl binary64 (5404319552844595) (-52))), trv)) (fun v1 => ret (feq v1 (@finf binary32)))));
  (804, (bind (@num_dec_mixed binary64 binary32 (@n_rad_mixed binary64 binary32) (((fl binary64 (8388607) (105)), (fl binary64 (33554431) (103))), trv)) (fun v1 => ret (feq v1 (fl binary32 (1) (104))))));
  (806, (bind get_flags (fun v1 => ret (N.eqb v1 none_bit))));
  (808, clear_flags);
  (809, (bind (@num_dec_mixed binary64 binary32 (@n_mid_mixed binary64 binary32) (((fl binary64 (3) (-1)), (fl binary64 (3152519739159347) (-52))), trv)) (fun v1 => ret (isnan v1))));
  (810, (bind get_flags (fun v1 => ret (N.eqb v1 invalid_operand_bit))));
  (811, clear_flags);
  (812, (set_cwd invalid_operand_bit));
  (813, (throws (@num_dec_mixed binary64 binary32 (@n_mid_mixed binary64 binary32) (((fl binary64 (3) (-1)), (fl binary64 (3152519739159347) (-52))), trv)) Invalid_operand_exception));
  (814, (bind get_flags (fun v1 => ret (N.eqb v1 invalid_operand_bit))));
  (815, clear_flags);
  (816, (set_cwd none_bit))].

(** lines 820-869 *)
Definition minimal_mid_rad_test : list (N * M bool) := [
  (822, clear_flags);
  (824, (bind (bind (@n_mid_rad binary64 ((@fnan binary64), (@fnan binary64))) (fun v1 => ret (fst v1))) (fun v2 => ret (isnan v2))));
  (825, (bind (bind (@n_mid_rad binary64 ((@fminf binary64), (@finf binary64))) (fun v1 => ret (fst v1))) (fun v2 => ret (feq v2 (@f0 binary64)))));
  (826, (mnot (bind (bind (@n_mid_rad binary64 ((@fminf binary64), (@finf binary64))) (fun v1 => ret (fst v1))) (fun v2 => ret (fsign v2)))));
  (827, (bind (bind (@n_mid_rad binary64 ((fl binary64 (-9007199254740991) (971)), (fl binary64 (9007199254740991) (971)))) (fun v1 => ret (fst v1))) (fun v2 => ret (feq v2 (@f0 binary64)))));
  (828, (mnot (bind (bind (@n_mid_rad binary64 ((fl binary64 (-9007199254740991) (971)), (fl binary64 (9007199254740991) (971)))) (fun v1 => ret (fst v1))) (fun v2 => ret (fsign v2)))));
  (829, (bind (bind (@n_mid_rad binary64 ((@f0 binary64), (fl binary64 (1) (1)))) (fun v1 => ret (fst v1))) (fun v2 => ret (feq v2 (fl binary64 (1) (0))))));
  (830, (bind (bind (@n_mid_rad binary64 ((fl binary64 (1) (1)), (fl binary64 (1) (1)))) (fun v1 => ret (fst v1))) (fun v2 => ret (feq v2 (fl binary64 (1) (1))))));
  (831, (bind (bind (@n_mid_rad binary64 ((fl binary64 (-1) (1)), (fl binary64 (1) (1)))) (fun v1 => ret (fst v1))) (fun v2 => ret (feq v2 (@f0 binary64)))));
  (832, (mnot (bind (bind (@n_mid_rad binary64 ((fl binary64 (-1) (1)), (fl binary64 (1) (1)))) (fun v1 => ret (fst v1))) (fun v2 => ret (fsign v2)))));
  (833, (bind (bind (@n_mid_rad binary64 ((@f0 binary64), (@finf binary64))) (fun v1 => ret (fst v1))) (fun v2 => ret (feq v2 (fl binary64 (9007199254740991) (971))))));
  (834, (bind (bind (@n_mid_rad binary64 ((@fminf binary64), (fl binary64 (5404319552844595) (-52)))) (fun v1 => ret (fst v1))) (fun v2 => ret (feq v2 (fl binary64 (-9007199254740991) (971))))));
  (835, (bind (bind (@n_mid_rad binary64 ((fl binary64 (-1) (-1073)), (fl binary64 (1) (-1074)))) (fun v1 => ret (fst v1))) (fun v2 => ret (feq v2 (@f0 binary64)))));
  (836, (mnot (bind (bind (@n_mid_rad binary64 ((fl binary64 (-1) (-1073)), (fl binary64 (1) (-1074)))) (fun v1 => ret (fst v1))) (fun v2 => ret (fsign v2)))));
  (837, (bind (bind (@n_mid_rad binary64 ((fl binary64 (-1) (-1074)), (fl binary64 (1) (-1073)))) (fun v1 => ret (fst v1))) (fun v2 => ret (feq v2 (@f0 binary64)))));
  (838, (mnot (bind (bind (@n_mid_rad binary64 ((fl binary64 (-1) (-1074)), (fl binary64 (1) (-1073)))) (fun v1 => ret (fst v1))) (fun v2 => ret (fsign v2)))));
  (839, (bind (bind (@n_mid_rad binary64 ((fl binary64 (9007199254740991) (970)), (fl binary64 (9007199254740991) (971)))) (fun v1 => ret (fst v1))) (fun v2 => ret (feq v2 (fl binary64 (6755399441055743) (971))))));
  (840, (bind (bind (@n_mid_rad binary64 ((fl binary64 (1) (-1074)), (fl binary64 (3) (-1074)))) (fun v1 => ret (fst v1))) (fun v2 => ret (feq v2 (fl binary64 (1) (-1073))))));
  (841, (bind (bind (@n_mid_rad binary64 ((fl binary64 (1) (-1074)), (fl binary64 (1) (-1073)))) (fun v1 => ret (fst v1))) (fun v2 => ret (feq v2 (fl binary64 (1) (-1073))))));
  (844, (bind get_flags (fun v1 => ret (N.eqb v1 none_bit))));
  (846, clear_flags);
  (847, (bind (bind (@n_mid_rad binary64 ((fl binary64 (3) (-1)), (fl binary64 (3152519739159347) (-52)))) (fun v1 => ret (fst v1))) (fun v2 => ret (isnan v2))));
  (848, (bind (bind (@n_mid_rad binary64 ((fl binary64 (3) (-1)), (fl binary64 (3152519739159347) (-52)))) (fun v1 => ret (snd v1))) (fun v2 => ret (isnan v2))));
  (849, (bind get_flags (fun v1 => ret (N.eqb v1 invalid_operand_bit))));
  (850, clear_flags);
  (851, (set_cwd invalid_operand_bit));
  (852, (throws (@n_mid_rad binary64 ((fl binary64 (3) (-1)), (fl binary64 (3152519739159347) (-52)))) Invalid_operand_exception));
  (853, (bind get_flags (fun v1 => ret (N.eqb v1 invalid_operand_bit))));
  (854, clear_flags);
  (855, (set_cwd none_bit));
  (857, (bind (bind (@n_mid_rad binary64 ((@f0 binary64), (fl binary64 (1) (1)))) (fun v1 => ret (snd v1))) (fun v2 => ret (feq v2 (fl binary64 (1) (0))))));
  (858, (bind (bind (@n_mid_rad binary64 ((fl binary64 (1) (1)), (fl binary64 (1) (1)))) (fun v1 => ret (snd v1))) (fun v2 => ret (feq v2 (@f0 binary64)))));
  (859, (mnot (bind (bind (@n_mid_rad binary64 ((fl binary64 (1) (1)), (fl binary64 (1) (1)))) (fun v1 => ret (snd v1))) (fun v2 => ret (fsign v2)))));
  (860, (bind (bind (@n_mid_rad binary64 ((@fnan binary64), (@fnan binary64))) (fun v1 => ret (snd v1))) (fun v2 => ret (isnan v2))));
  (861, (bind (bind (@n_mid_rad binary64 ((@fminf binary64), (@finf binary64))) (fun v1 => ret (snd v1))) (fun v2 => ret (feq v2 (@finf binary64)))));
  (862, (bind (bind (@n_mid_rad binary64 ((@f0 binary64), (@finf binary64))) (fun v1 => ret (snd v1))) (fun v2 => ret (feq v2 (@finf binary64)))));
  (863, (bind (bind (@n_mid_rad binary64 ((@fminf binary64), (fl binary64 (5404319552844595) (-52)))) (fun v1 => ret (snd v1))) (fun v2 => ret (feq v2 (@finf binary64)))));
  (864, (bind (bind (@n_mid_rad binary64 ((fl binary64 (-1) (-1073)), (fl binary64 (1) (-1074)))) (fun v1 => ret (snd v1))) (fun v2 => ret (feq v2 (fl binary64 (1) (-1073))))));
  (865, (bind (bind (@n_mid_rad binary64 ((fl binary64 (1) (-1074)), (fl binary64 (1) (-1073)))) (fun v1 => ret (snd v1))) (fun v2 => ret (feq v2 (fl binary64 (1) (-1074))))));
  (866, (bind (bind (@n_mid_rad binary64 ((fl binary64 (1) (0)), (fl binary64 (4503599627370499) (-52)))) (fun v1 => ret (snd v1))) (fun v2 => ret (feq v2 (fl binary64 (1) (-51))))));
  (868, (bind get_flags (fun v1 => ret (N.eqb v1 none_bit))))].

(** lines 872-918 *)
Definition minimal_mid_rad_mixedtype_test : list (N * M bool) := [
  (874, clear_flags);
  (876, (bind (bind (@n_mid_rad_mixed binary64 binary32 ((@fnan binary64), (@fnan binary64))) (fun v1 => ret (fst v1))) (fun v2 => ret (isnan v2))));
  (877, (bind (bind (@n_mid_rad_mixed binary64 binary32 ((@fminf binary64), (@finf binary64))) (fun v1 => ret (fst v1))) (fun v2 => ret (feq v2 (@f0 binary32)))));
  (878, (mnot (bind (bind (@n_mid_rad_mixed binary64 binary32 ((@fminf binary64), (@finf binary64))) (fun v1 => ret (fst v1))) (fun v2 => ret (fsign v2)))));
  (879, (bind (bind (@n_mid_rad_mixed binary64 binary32 ((fl binary64 (-9007199254740991) (971)), (fl binary64 (9007199254740991) (971)))) (fun v1 => ret (fst v1))) (fun v2 => ret (feq v2 (@f0 binary32)))));
  (880, (mnot (bind (bind (@n_mid_rad_mixed binary64 binary32 ((fl binary64 (-9007199254740991) (971)), (fl binary64 (9007199254740991) (971)))) (fun v1 => ret (fst v1))) (fun v2 => ret (fsign v2)))));
  (881, (bind (bind (@n_mid_rad_mixed binary64 binary32 ((@f0 binary64), (fl binary64 (1) (1)))) (fun v1 => ret (fst v1))) (fun v2 => ret (feq v2 (fl binary32 (1) (0))))));
  (882, (bind (bind (@n_mid_rad_mixed binary64 binary32 ((fl binary64 (1) (1)), (fl binary64 (1) (1)))) (fun v1 => ret (fst v1))) (fun v2 => ret (feq v2 (fl binary32 (1) (1))))));
  (883, (bind (bind (@n_mid_rad_mixed binary64 binary32 ((fl binary64 (-1) (1)), (fl binary64 (1) (1)))) (fun v1 => ret (fst v1))) (fun v2 => ret (feq v2 (@f0 binary32)))));
  (884, (mnot (bind (bind (@n_mid_rad_mixed binary64 binary32 ((fl binary64 (-1) (1)), (fl binary64 (1) (1)))) (fun v1 => ret (fst v1))) (fun v2 => ret (fsign v2)))));
  (885, (bind (bind (@n_mid_rad_mixed binary64 binary32 ((@f0 binary64), (@finf binary64))) (fun v1 => ret (fst v1))) (fun v2 => ret (feq v2 (fl binary32 (16777215) (104))))));
  (886, (bind (bind (@n_mid_rad_mixed binary64 binary32 ((@fminf binary64), (fl binary64 (5404319552844595) (-52)))) (fun v1 => ret (fst v1))) (fun v2 => ret (feq v2 (fl binary32 (-16777215) (104))))));
  (887, (bind (bind (@n_mid_rad_mixed binary64 binary32 ((fl binary64 (-1) (-1073)), (fl binary64 (1) (-1074)))) (fun v1 => ret (fst v1))) (fun v2 => ret (feq v2 (@f0 binary32)))));
  (888, (mnot (bind (bind (@n_mid_rad_mixed binary64 binary32 ((fl binary64 (-1) (-1073)), (fl binary64 (1) (-1074)))) (fun v1 => ret (fst v1))) (fun v2 => ret (fsign v2)))));
  (889, (bind (bind (@n_mid_rad_mixed binary64 binary32 ((fl binary64 (-1) (-1074)), (fl binary64 (1) (-1073)))) (fun v1 => ret (fst v1))) (fun v2 => ret (feq v2 (@f0 binary32)))));
  (890, (mnot (bind (bind (@n_mid_rad_mixed binary64 binary32 ((fl binary64 (-1) (-1074)), (fl binary64 (1) (-1073)))) (fun v1 => ret (fst v1))) (fun v2 => ret (fsign v2)))));
  (891, (bind (bind (@n_mid_rad_mixed binary64 binary32 ((fl binary64 (33554393) (-24)), (fl binary64 (9007188785758209) (-52)))) (fun v1 => ret (fst v1))) (fun v2 => ret (feq v2 (fl binary32 (16777197) (-23))))));
  (892, (bind (bind (@n_mid_rad_mixed binary64 binary32 ((fl binary64 (1) (-1074)), (fl binary64 (3) (-1074)))) (fun v1 => ret (fst v1))) (fun v2 => ret (feq v2 (@f0 binary32)))));
  (893, (mnot (bind (bind (@n_mid_rad_mixed binary64 binary32 ((fl binary64 (1) (-1074)), (fl binary64 (3) (-1074)))) (fun v1 => ret (fst v1))) (fun v2 => ret (fsign v2)))));
  (895, (bind get_flags (fun v1 => ret (N.eqb v1 none_bit))));
  (897, clear_flags);
  (898, (bind (bind (@n_mid_rad_mixed binary64 binary32 ((fl binary64 (3) (-1)), (fl binary64 (3152519739159347) (-52)))) (fun v1 => ret (fst v1))) (fun v2 => ret (isnan v2))));
  (899, (bind (bind (@n_mid_rad_mixed binary64 binary32 ((fl binary64 (3) (-1)), (fl binary64 (3152519739159347) (-52)))) (fun v1 => ret (snd v1))) (fun v2 => ret (isnan v2))));
  (900, (bind get_flags (fun v1 => ret (N.eqb v1 invalid_operand_bit))));
  (901, clear_flags);
  (902, (set_cwd invalid_operand_bit));
  (903, (throws (@n_mid_rad_mixed binary64 binary32 ((fl binary64 (3) (-1)), (fl binary64 (3152519739159347) (-52)))) Invalid_operand_exception));
  (904, (bind get_flags (fun v1 => ret (N.eqb v1 invalid_operand_bit))));
  (905, clear_flags);
  (906, (set_cwd none_bit));
  (908, (bind (bind (@n_mid_rad_mixed binary64 binary32 ((@f0 binary64), (fl binary64 (1) (1)))) (fun v1 => ret (snd v1))) (fun v2 => ret (feq v2 (fl binary32 (1) (0))))));
  (909, (bind (bind (@n_mid_rad_mixed binary64 binary32 ((fl binary64 (1) (1)), (fl binary64 (1) (1)))) (fun v1 => ret (snd v1))) (fun v2 => ret (feq v2 (@f0 binary32)))));
  (910, (mnot (bind (bind (@n_mid_rad_mixed binary64 binary32 ((fl binary64 (1) (1)), (fl binary64 (1) (1)))) (fun v1 => ret (snd v1))) (fun v2 => ret (fsign v2)))));
  (911, (bind (bind (@n_mid_rad_mixed binary64 binary32 ((@fnan binary64), (@fnan binary64))) (fun v1 => ret (snd v1))) (fun v2 => ret (isnan v2))));
  (912, (bind (bind (@n_mid_rad_mixed binary64 binary32 ((@fminf binary64), (@finf binary64))) (fun v1 => ret (snd v1))) (fun v2 => ret (feq v2 (@finf binary32)))));
  (913, (bind (bind (@n_mid_rad_mixed binary64 binary32 ((@f0 binary64), (@finf binary64))) (fun v1 => ret (snd v1))) (fun v2 => ret (feq v2 (@finf binary32)))));
  (914, (bind (bind (@n_mid_rad_mixed binary64 binary32 ((@fminf binary64), (fl binary64 (5404319552844595) (-52)))) (fun v1 => ret (snd v1))) (fun v2 => ret (feq v2 (@finf binary32)))));
  (915, (bind (bind (@n_mid_rad_mixed binary64 binary32 ((fl binary64 (8388607) (105)), (fl binary64 (33554431) (103)))) (fun v1 => ret (snd v1))) (fun v2 => ret (feq v2 (fl binary32 (1) (104))))));
  (917, (bind get_flags (fun v1 => ret (N.eqb v1 none_bit))))].

(** lines 921-973 *)
Definition minimal_mid_rad_dec_test : list (N * M bool) := [
  (923, clear_flags);
  (925, (bind (bind (@n_mid_rad_dec binary64 (((@fnan binary64), (@fnan binary64)), trv)) (fun v1 => ret (fst v1))) (fun v2 => ret (isnan v2))));
  (926, (bind (bind (@n_mid_rad_dec binary64 (((@fnan binary64), (@fnan binary64)), ill)) (fun v1 => ret (fst v1))) (fun v2 => ret (isnan v2))));
  (927, (bind (bind (@n_mid_rad_dec binary64 (((@fminf binary64), (@finf binary64)), def)) (fun v1 => ret (fst v1))) (fun v2 => ret (feq v2 (@f0 binary64)))));
  (928, (mnot (bind (bind (@n_mid_rad_dec binary64 (((@fminf binary64), (@finf binary64)), def)) (fun v1 => ret (fst v1))) (fun v2 => ret (fsign v2)))));
  (929, (bind (bind (@n_mid_rad_dec binary64 (((fl binary64 (-9007199254740991) (971)), (fl binary64 (9007199254740991) (971))), trv)) (fun v1 => ret (fst v1))) (fun v2 => ret (feq v2 (@f0 binary64)))));
  (930, (mnot (bind (bind (@n_mid_rad_dec binary64 (((fl binary64 (-9007199254740991) (971)), (fl binary64 (9007199254740991) (971))), trv)) (fun v1 => ret (fst v1))) (fun v2 => ret (fsign v2)))));
  (931, (bind (bind (@n_mid_rad_dec binary64 (((@f0 binary64), (fl binary64 (1) (1))), com)) (fun v1 => ret (fst v1))) (fun v2 => ret (feq v2 (fl binary64 (1) (0))))));
  (932, (bind (bind (@n_mid_rad_dec binary64 (((fl binary64 (1) (1)), (fl binary64 (1) (1))), dac)) (fun v1 => ret (fst v1))) (fun v2 => ret (feq v2 (fl binary64 (1) (1))))));
  (933, (bind (bind (@n_mid_rad_dec binary64 (((fl binary64 (-1) (1)), (fl binary64 (1) (1))), trv)) (fun v1 => ret (fst v1))) (fun v2 => ret (feq v2 (@f0 binary64)))));
  (934, (mnot (bind (bind (@n_mid_rad_dec binary64 (((fl binary64 (-1) (1)), (fl binary64 (1) (1))), trv)) (fun v1 => ret (fst v1))) (fun v2 => ret (fsign v2)))));
  (935, (bind (bind (@n_mid_rad_dec binary64 (((@f0 binary64), (@finf binary64)), trv)) (fun v1 => ret (fst v1))) (fun v2 => ret (feq v2 (fl binary64 (9007199254740991) (971))))));
  (936, (bind (bind (@n_mid_rad_dec binary64 (((@fminf binary64), (fl binary64 (5404319552844595) (-52))), trv)) (fun v1 => ret (fst v1))) (fun v2 => ret (feq v2 (fl binary64 (-9007199254740991) (971))))));
  (937, (bind (bind (@n_mid_rad_dec binary64 (((fl binary64 (-1) (-1073)), (fl binary64 (1) (-1074))), trv)) (fun v1 => ret (fst v1))) (fun v2 => ret (feq v2 (@f0 binary64)))));
  (938, (mnot (bind (bind (@n_mid_rad_dec binary64 (((fl binary64 (-1) (-1073)), (fl binary64 (1) (-1074))), trv)) (fun v1 => ret (fst v1))) (fun v2 => ret (fsign v2)))));
  (939, (bind (bind (@n_mid_rad_dec binary64 (((fl binary64 (-1) (-1074)), (fl binary64 (1) (-1073))), trv)) (fun v1 => ret (fst v1))) (fun v2 => ret (feq v2 (@f0 binary64)))));
  (940, (mnot (bind (bind (@n_mid_rad_dec binary64 (((fl binary64 (-1) (-1074)), (fl binary64 (1) (-1073))), trv)) (fun v1 => ret (fst v1))) (fun v2 => ret (fsign v2)))));
  (941, (bind (bind (@n_mid_rad_dec binary64 (((fl binary64 (9007199254740991) (970)), (fl binary64 (9007199254740991) (971))), trv)) (fun v1 => ret (fst v1))) (fun v2 => ret (feq v2 (fl binary64 (6755399441055743) (971))))));
  (942, (bind (bind (@n_mid_rad_dec binary64 (((fl binary64 (1) (-1074)), (fl binary64 (3) (-1074))), trv)) (fun v1 => ret (fst v1))) (fun v2 => ret (feq v2 (fl binary64 (1) (-1073))))));
  (943, (bind (bind (@n_mid_rad_dec binary64 (((fl binary64 (1) (-1074)), (fl binary64 (1) (-1073))), trv)) (fun v1 => ret (fst v1))) (fun v2 => ret (feq v2 (fl binary64 (1) (-1073))))));
  (946, (bind get_flags (fun v1 => ret (N.eqb v1 none_bit))));
  (949, clear_flags);
  (950, (bind (bind (@n_mid_rad_dec binary64 (((fl binary64 (3) (-1)), (fl binary64 (3152519739159347) (-52))), trv)) (fun v1 => ret (fst v1))) (fun v2 => ret (isnan v2))));
  (951, (bind (bind (@n_mid_rad_dec binary64 (((fl binary64 (3) (-1)), (fl binary64 (3152519739159347) (-52))), trv)) (fun v1 => ret (snd v1))) (fun v2 => ret (isnan v2))));
  (952, (bind get_flags (fun v1 => ret (N.eqb v1 invalid_operand_bit))));
  (953, clear_flags);
  (954, (set_cwd invalid_operand_bit));
  (955, (throws (@n_mid_rad_dec binary64 (((fl binary64 (3) (-1)), (fl binary64 (3152519739159347) (-52))), trv)) Invalid_operand_exception));
  (956, (bind get_flags (fun v1 => ret (N.eqb v1 invalid_operand_bit))));
  (957, clear_flags);
  (958, (set_cwd none_bit));
  (960, (bind (bind (@n_mid_rad_dec binary64 (((@f0 binary64), (fl binary64 (1) (1))), trv)) (fun v1 => ret (snd v1))) (fun v2 => ret (feq v2 (fl binary64 (1) (0))))));
  (961, (bind (bind (@n_mid_rad_dec binary64 (((fl binary64 (1) (1)), (fl binary64 (1) (1))), com)) (fun v1 => ret (snd v1))) (fun v2 => ret (feq v2 (@f0 binary64)))));
  (962, (mnot (bind (bind (@n_mid_rad_dec binary64 (((fl binary64 (1) (1)), (fl binary64 (1) (1))), trv)) (fun v1 => ret (snd v1))) (fun v2 => ret (fsign v2)))));
  (963, (bind (bind (@n_mid_rad_dec binary64 (((@fnan binary64), (@fnan binary64)), trv)) (fun v1 => ret (snd v1))) (fun v2 => ret (isnan v2))));
  (964, (bind (bind (@n_mid_rad_dec binary64 (((@fnan binary64), (@fnan binary64)), ill)) (fun v1 => ret (snd v1))) (fun v2 => ret (isnan v2))));
  (965, (bind (bind (@n_mid_rad_dec binary64 (((@fminf binary64), (@finf binary64)), trv)) (fun v1 => ret (snd v1))) (fun v2 => ret (feq v2 (@finf binary64)))));
  (966, (bind (bind (@n_mid_rad_dec binary64 (((@f0 binary64), (@finf binary64)), def)) (fun v1 => ret (snd v1))) (fun v2 => ret (feq v2 (@finf binary64)))));
  (967, (bind (bind (@n_mid_rad_dec binary64 (((@fminf binary64), (fl binary64 (5404319552844595) (-52))), trv)) (fun v1 => ret (snd v1))) (fun v2 => ret (feq v2 (@finf binary64)))));
  (968, (bind (bind (@n_mid_rad_dec binary64 (((fl binary64 (-1) (-1073)), (fl binary64 (1) (-1074))), trv)) (fun v1 => ret (snd v1))) (fun v2 => ret (feq v2 (fl binary64 (1) (-1073))))));
  (969, (bind (bind (@n_mid_rad_dec binary64 (((fl binary64 (1) (-1074)), (fl binary64 (1) (-1073))), trv)) (fun v1 => ret (snd v1))) (fun v2 => ret (feq v2 (fl binary64 (1) (-1074))))));
  (970, (bind (bind (@n_mid_rad_dec binary64 (((fl binary64 (1) (0)), (fl binary64 (4503599627370499) (-52))), trv)) (fun v1 => ret (snd v1))) (fun v2 => ret (feq v2 (fl binary64 (1) (-51))))));
  (972, (bind get_flags (fun v1 => ret (N.eqb v1 none_bit))))].

(** lines 976-1025 *)
Definition minimal_mid_rad_dec_mixedtype_test : list (N * M bool) := [
  (978, clear_flags);
  (980, (bind (bind (@n_mid_rad_dec_mixed binary64 binary32 (((@fnan binary64), (@fnan binary64)), trv)) (fun v1 => ret (fst v1))) (fun v2 => ret (isnan v2))));
  (981, (bind (bind (@n_mid_rad_dec_mixed binary64 binary32 (((@fnan binary64), (@fnan binary64)), ill)) (fun v1 => ret (fst v1))) (fun v2 => ret (isnan v2))));
  (982, (bind (bind (@n_mid_rad_dec_mixed binary64 binary32 (((@fminf binary64), (@finf binary64)), def)) (fun v1 => ret (fst v1))) (fun v2 => ret (feq v2 (@f0 binary32)))));
  (983, (mnot (bind (bind (@n_mid_rad_dec_mixed binary64 binary32 (((@fminf binary64), (@finf binary64)), trv)) (fun v1 => ret (fst v1))) (fun v2 => ret (fsign v2)))));
  (984, (bind (bind (@n_mid_rad_dec_mixed binary64 binary32 (((fl binary64 (-9007199254740991) (971)), (fl binary64 (9007199254740991) (971))), trv)) (fun v1 => ret (fst v1))) (fun v2 => ret (feq v2 (@f0 binary32)))));
  (985, (mnot (bind (bind (@n_mid_rad_dec_mixed binary64 binary32 (((fl binary64 (-9007199254740991) (971)), (fl binary64 (9007199254740991) (971))), trv)) (fun v1 => ret (fst v1))) (fun v2 => ret (fsign v2)))));
  (986, (bind (bind (@n_mid_rad_dec_mixed binary64 binary32 (((@f0 binary64), (fl binary64 (1) (1))), com)) (fun v1 => ret (fst v1))) (fun v2 => ret (feq v2 (fl binary32 (1) (0))))));
  (987, (bind (bind (@n_mid_rad_dec_mixed binary64 binary32 (((fl binary64 (1) (1)), (fl binary64 (1) (1))), trv)) (fun v1 => ret (fst v1))) (fun v2 => ret (feq v2 (fl binary32 (1) (1))))));
  (988, (bind (bind (@n_mid_rad_dec_mixed binary64 binary32 (((fl binary64 (-1) (1)), (fl binary64 (1) (1))), trv)) (fun v1 => ret (fst v1))) (fun v2 => ret (feq v2 (@f0 binary32)))));
  (989, (mnot (bind (bind (@n_mid_rad_dec_mixed binary64 binary32 (((fl binary64 (-1) (1)), (fl binary64 (1) (1))), trv)) (fun v1 => ret (fst v1))) (fun v2 => ret (fsign v2)))));
  (990, (bind (bind (@n_mid_rad_dec_mixed binary64 binary32 (((@f0 binary64), (@finf binary64)), trv)) (fun v1 => ret (fst v1))) (fun v2 => ret (feq v2 (fl binary32 (16777215) (104))))));
  (991, (bind (bind (@n_mid_rad_dec_mixed binary64 binary32 (((@fminf binary64), (fl binary64 (5404319552844595) (-52))), trv)) (fun v1 => ret (fst v1))) (fun v2 => ret (feq v2 (fl binary32 (-16777215) (104))))));
  (992, (bind (bind (@n_mid_rad_dec_mixed binary64 binary32 (((fl binary64 (-1) (-1073)), (fl binary64 (1) (-1074))), trv)) (fun v1 => ret (fst v1))) (fun v2 => ret (feq v2 (@f0 binary32)))));
  (993, (mnot (bind (bind (@n_mid_rad_dec_mixed binary64 binary32 (((fl binary64 (-1) (-1073)), (fl binary64 (1) (-1074))), trv)) (fun v1 => ret (fst v1))) (fun v2 => ret (fsign v2)))));
  (994, (bind (bind (@n_mid_rad_dec_mixed binary64 binary32 (((fl binary64 (-1) (-1074)), (fl binary64 (1) (-1073))), trv)) (fun v1 => ret (fst v1))) (fun v2 => ret (feq v2 (@f0 binary32)))));
  (995, (mnot (bind (bind (@n_mid_rad_dec_mixed binary64 binary32 (((fl binary64 (-1) (-1074)), (fl binary64 (1) (-1073))), trv)) (fun v1 => ret (fst v1))) (fun v2 => ret (fsign v2)))));
  (996, (bind (bind (@n_mid_rad_dec_mixed binary64 binary32 (((fl binary64 (33554393) (-24)), (fl binary64 (9007188785758209) (-52))), trv)) (fun v1 => ret (fst v1))) (fun v2 => ret (feq v2 (fl binary32 (16777197) (-23))))));
  (997, (bind (bind (@n_mid_rad_dec_mixed binary64 binary32 (((fl binary64 (1) (-1074)), (fl binary64 (3) (-1074))), trv)) (fun v1 => ret (fst v1))) (fun v2 => ret (feq v2 (@f0 binary32)))));
  (998, (mnot (bind (bind (@n_mid_rad_dec_mixed binary64 binary32 (((fl binary64 (1) (-1074)), (fl binary64 (3) (-1074))), trv)) (fun v1 => ret (fst v1))) (fun v2 => ret (fsign v2)))));
  (1000, (bind get_flags (fun v1 => ret (N.eqb v1 none_bit))));
  (1003, clear_flags);
  (1004, (bind (bind (@n_mid_rad_dec_mixed binary64 binary32 (((fl binary64 (3) (-1)), (fl binary64 (3152519739159347) (-52))), trv)) (fun v1 => ret (fst v1))) (fun v2 => ret (isnan v2))));
  (1005, (bind (bind (@n_mid_rad_dec_mixed binary64 binary32 (((fl binary64 (3) (-1)), (fl binary64 (3152519739159347) (-52))), trv)) (fun v1 => ret (snd v1))) (fun v2 => ret (isnan v2))));
  (1006, (bind get_flags (fun v1 => ret (N.eqb v1 invalid_operand_bit))));
  (1007, clear_flags);
  (1008, (set_cwd invalid_operand_bit));
  (1009, (throws (@n_mid_rad_dec_mixed binary64 binary32 (((fl binary64 (3) (-1)), (fl binary64 (3152519739159347) (-52))), trv)) Invalid_operand_exception));
  (1010, (bind get_flags (fun v1 => ret (N.eqb v1 invalid_operand_bit))));
  (1011, clear_flags);
  (1012, (set_cwd none_bit));
  (1014, (bind (bind (@n_mid_rad_dec_mixed binary64 binary32 (((@f0 binary64), (fl binary64 (1) (1))), trv)) (fun v1 => ret (snd v1))) (fun v2 => ret (feq v2 (fl binary32 (1) (0))))));
  (1015, (bind (bind (@n_mid_rad_dec_mixed binary64 binary32 (((fl binary64 (1) (1)), (fl binary64 (1) (1))), com)) (fun v1 => ret (snd v1))) (fun v2 => ret (feq v2 (@f0 binary32)))));
  (1016, (mnot (bind (bind (@n_mid_rad_dec_mixed binary64 binary32 (((fl binary64 (1) (1)), (fl binary64 (1) (1))), trv)) (fun v1 => ret (snd v1))) (fun v2 => ret (fsign v2)))));
  (1017, (bind (bind (@n_mid_rad_dec_mixed binary64 binary32 (((@fnan binary64), (@fnan binary64)), trv)) (fun v1 => ret (snd v1))) (fun v2 => ret (isnan v2))));
  (1018, (bind (bind (@n_mid_rad_dec_mixed binary64 binary32 (((@fnan binary64), (@fnan binary64)), ill)) (fun v1 => ret (snd v1))) (fun v2 => ret (isnan v2))));
  (1019, (bind (bind (@n_mid_rad_dec_mixed binary64 binary32 (((@fminf binary64), (@finf binary64)), def)) (fun v1 => ret (snd v1))) (fun v2 => ret (feq v2 (@finf binary32)))));
  (1020, (bind (bind (@n_mid_rad_dec_mixed binary64 binary32 (((@f0 binary64), (@finf binary64)), trv)) (fun v1 => ret (snd v1))) (fun v2 => ret (feq v2 (@finf binary32)))));
  (1021, (bind (bind (@n_mid_rad_dec_mixed binary64 binary32 (((@fminf binary64), (fl binary64 (5404319552844595) (-52))), trv)) (fun v1 => ret (snd v1))) (fun v2 => ret (feq v2 (@finf binary32)))));
  (1022, (bind (bind (@n_mid_rad_dec_mixed binary64 binary32 (((fl binary64 (8388607) (105)), (fl binary64 (33554431) (103))), trv)) (fun v1 => ret (snd v1))) (fun v2 => ret (feq v2 (fl binary32 (1) (104))))));
  (1024, (bind get_flags (fun v1 => ret (N.eqb v1 none_bit))))].

(** lines 1029-1054 *)
Definition minimal_wid_test : list (N * M bool) := [
  (1031, clear_flags);
  (1033, (bind (@n_wid binary64 ((fl binary64 (1) (1)), (fl binary64 (1) (1)))) (fun v1 => ret (feq v1 (@f0 binary64)))));
  (1034, (mnot (bind (@n_wid binary64 ((fl binary64 (1) (1)), (fl binary64 (1) (1)))) (fun v1 => ret (fsign v1)))));
  (1035, (bind (@n_wid binary64 ((fl binary64 (1) (0)), (fl binary64 (1) (1)))) (fun v1 => ret (feq v1 (fl binary64 (1) (0))))));
  (1036, (bind (@n_wid binary64 ((fl binary64 (1) (0)), (@finf binary64))) (fun v1 => ret (feq v1 (@finf binary64)))));
  (1037, (bind (@n_wid binary64 ((@fminf binary64), (fl binary64 (1) (1)))) (fun v1 => ret (feq v1 (@finf binary64)))));
  (1038, (bind (@n_wid binary64 ((@fminf binary64), (@finf binary64))) (fun v1 => ret (feq v1 (@finf binary64)))));
  (1039, (bind (@n_wid binary64 ((@fnan binary64), (@fnan binary64))) (fun v1 => ret (isnan v1))));
  (1040, (bind (@n_wid binary64 ((fl binary64 (1) (0)), (fl binary64 (4503599627370497) (-52)))) (fun v1 => ret (feq v1 (fl binary64 (1) (-52))))));
  (1041, (bind (@n_wid binary64 ((fl binary64 (1) (-1022)), (fl binary64 (4503599627370497) (-1074)))) (fun v1 => ret (feq v1 (fl binary64 (1) (-1074))))));
  (1043, (bind get_flags (fun v1 => ret (N.eqb v1 none_bit))));
  (1045, clear_flags);
  (1046, (bind (@n_wid binary64 ((fl binary64 (1) (0)), (fl binary64 (-1) (1)))) (fun v1 => ret (isnan v1))));
  (1047, (bind get_flags (fun v1 => ret (N.eqb v1 invalid_operand_bit))));
  (1048, clear_flags);
  (1049, (set_cwd invalid_operand_bit));
  (1050, (throws (@n_wid binary64 ((fl binary64 (1) (0)), (fl binary64 (-1) (1)))) Invalid_operand_exception));
  (1051, (bind get_flags (fun v1 => ret (N.eqb v1 invalid_operand_bit))));
  (1052, clear_flags);
  (1053, (set_cwd none_bit))].

(** lines 1056-1081 *)
Definition minimal_wid_mixedtype_test : list (N * M bool) := [
  (1058, clear_flags);
  (1060, (bind (@n_wid_mixed binary64 binary32 ((fl binary64 (1) (1)), (fl binary64 (1) (1)))) (fun v1 => ret (feq v1 (@f0 binary32)))));
  (1061, (mnot (bind (@n_wid_mixed binary64 binary32 ((fl binary64 (1) (1)), (fl binary64 (1) (1)))) (fun v1 => ret (fsign v1)))));
  (1062, (bind (@n_wid_mixed binary64 binary32 ((fl binary64 (1) (0)), (fl binary64 (1) (1)))) (fun v1 => ret (feq v1 (fl binary32 (1) (0))))));
  (1063, (bind (@n_wid_mixed binary64 binary32 ((fl binary64 (1) (0)), (@finf binary64))) (fun v1 => ret (feq v1 (@finf binary32)))));
  (1064, (bind (@n_wid_mixed binary64 binary32 ((@fminf binary64), (fl binary64 (1) (1)))) (fun v1 => ret (feq v1 (@finf binary32)))));
  (1065, (bind (@n_wid_mixed binary64 binary32 ((@fminf binary64), (@finf binary64))) (fun v1 => ret (feq v1 (@finf binary32)))));
  (1066, (bind (@n_wid_mixed binary64 binary32 ((@fnan binary64), (@fnan binary64))) (fun v1 => ret (isnan v1))));
  (1067, (bind (@n_wid_mixed binary64 binary32 ((fl binary64 (1) (-1022)), (fl binary64 (4503599627370497) (-1074)))) (fun v1 => ret (feq v1 (fl binary32 (1) (-149))))));
  (1069, (bind get_flags (fun v1 => ret (N.eqb v1 none_bit))));
  (1072, clear_flags);
  (1073, (bind (@n_wid_mixed binary64 binary32 ((fl binary64 (1) (0)), (fl binary64 (-1) (1)))) (fun v1 => ret (isnan v1))));
  (1074, (bind get_flags (fun v1 => ret (N.eqb v1 invalid_operand_bit))));
  (1075, clear_flags);
  (1076, (set_cwd invalid_operand_bit));
  (1077, (throws (@n_wid_mixed binary64 binary32 ((fl binary64 (1) (0)), (fl binary64 (-1) (1)))) Invalid_operand_exception));
  (1078, (bind get_flags (fun v1 => ret (N.eqb v1 invalid_operand_bit))));
  (1079, clear_flags);
  (1080, (set_cwd none_bit))].

(** lines 1083-1110 *)
Definition minimal_wid_dec_test : list (N * M bool) := [
  (1085, clear_flags);
  (1087, (bind (@n_wid_dec binary64 (((fl binary64 (1) (1)), (fl binary64 (1) (1))), com)) (fun v1 => ret (feq v1 (@f0 binary64)))));
  (1088, (mnot (bind (@n_wid_dec binary64 (((fl binary64 (1) (1)), (fl binary64 (1) (1))), trv)) (fun v1 => ret (fsign v1)))));
  (1089, (bind (@n_wid_dec binary64 (((fl binary64 (1) (0)), (fl binary64 (1) (1))), trv)) (fun v1 => ret (feq v1 (fl binary64 (1) (0))))));
  (1090, (bind (@n_wid_dec binary64 (((fl binary64 (1) (0)), (@finf binary64)), trv)) (fun v1 => ret (feq v1 (@finf binary64)))));
  (1091, (bind (@n_wid_dec binary64 (((@fminf binary64), (fl binary64 (1) (1))), def)) (fun v1 => ret (feq v1 (@finf binary64)))));
  (1092, (bind (@n_wid_dec binary64 (((@fminf binary64), (@finf binary64)), trv)) (fun v1 => ret (feq v1 (@finf binary64)))));
  (1093, (bind (@n_wid_dec binary64 (((@fnan binary64), (@fnan binary64)), trv)) (fun v1 => ret (isnan v1))));
  (1094, (bind (@n_wid_dec binary64 (((@fnan binary64), (@fnan binary64)), ill)) (fun v1 => ret (isnan v1))));
  (1095, (bind (@n_wid_dec binary64 (((fl binary64 (1) (0)), (fl binary64 (4503599627370497) (-52))), trv)) (fun v1 => ret (feq v1 (fl binary64 (1) (-52))))));
  (1096, (bind (@n_wid_dec binary64 (((fl binary64 (1) (-1022)), (fl binary64 (4503599627370497) (-1074))), trv)) (fun v1 => ret (feq v1 (fl binary64 (1) (-1074))))));
  (1098, (bind get_flags (fun v1 => ret (N.eqb v1 none_bit))));
  (1101, clear_flags);
  (1102, (bind (@n_wid_dec binary64 (((fl binary64 (1) (0)), (fl binary64 (-1) (1))), trv)) (fun v1 => ret (isnan v1))));
  (1103, (bind get_flags (fun v1 => ret (N.eqb v1 invalid_operand_bit))));
  (1104, clear_flags);
  (1105, (set_cwd invalid_operand_bit));
  (1106, (throws (@n_wid_dec binary64 (((fl binary64 (1) (0)), (fl binary64 (-1) (1))), trv)) Invalid_operand_exception));
  (1107, (bind get_flags (fun v1 => ret (N.eqb v1 invalid_operand_bit))));
  (1108, clear_flags);
  (1109, (set_cwd none_bit))].

(** lines 1112-1137 *)
Definition minimal_wid_dec_mixedtype_test : list (N * M bool) := [
  (1114, clear_flags);
  (1116, (bind (@num_dec_mixed binary64 binary32 (@n_wid_mixed binary64 binary32) (((fl binary64 (1) (1)), (fl binary64 (1) (1))), com)) (fun v1 => ret (feq v1 (@f0 binary32)))));
  (1117, (mnot (bind (@num_dec_mixed binary64 binary32 (@n_wid_mixed binary64 binary32) (((fl binary64 (1) (1)), (fl binary64 (1) (1))), trv)) (fun v1 => ret (fsign v1)))));
  (1118, (bind (@num_dec_mixed binary64 binary32 (@n_wid_mixed binary64 binary32) (((fl binary64 (1) (0)), (fl binary64 (1) (1))), trv)) (fun v1 => ret (feq v1 (fl binary32 (1) (0))))));
  (1119, (bind (@num_dec_mixed binary64 binary32 (@n_wid_mixed binary64 binary32) (((fl binary64 (1) (0)), (@finf binary64)), trv)) (fun v1 => ret (feq v1 (@finf binary32)))));
  (1120, (bind (@num_dec_mixed binary64 binary32 (@n_wid_mixed binary64 binary32) (((@fminf binary64), (fl binary64 (1) (1))), def)) (fun v1 => ret (feq v1 (@finf binary32)))));
  (1121, (bind (@num_dec_mixed binary64 binary32 (@n_wid_mixed binary64 binary32) (((@fminf binary64), (@finf binary64)), trv)) (fun v1 => ret (feq v1 (@finf binary32)))));
  (1122, (bind (@num_dec_mixed binary64 binary32 (@n_wid_mixed binary64 binary32) (((@fnan binary64), (@fnan binary64)), trv)) (fun v1 => ret (isnan v1))));
  (1123, (bind (@num_dec_mixed binary64 binary32 (@n_wid_mixed binary64 binary32) (((@fnan binary64), (@fnan binary64)), ill)) (fun v1 => ret (isnan v1))));
  (1124, (bind (@num_dec_mixed binary64 binary32 (@n_wid_mixed binary64 binary32) (((fl binary64 (1) (-1022)), (fl binary64 (4503599627370497) (-1074))), trv)) (fun v1 => ret (feq v1 (fl binary32 (1) (-149))))));
  (1126, (bind get_flags (fun v1 => ret (N.eqb v1 none_bit))));
  (1128, clear_flags);
  (1129, (bind (@num_dec_mixed binary64 binary32 (@n_wid_mixed binary64 binary32) (((fl binary64 (1) (0)), (fl binary64 (-1) (1))), trv)) (fun v1 => ret (isnan v1))));
  (1130, (bind get_flags (fun v1 => ret (N.eqb v1 invalid_operand_bit))));
  (1131, clear_flags);
  (1132, (set_cwd invalid_operand_bit));
  (1133, (throws (@num_dec_mixed binary64 binary32 (@n_wid_mixed binary64 binary32) (((fl binary64 (1) (0)), (fl binary64 (-1) (1))), trv)) Invalid_operand_exception));
  (1134, (bind get_flags (fun v1 => ret (N.eqb v1 invalid_operand_bit))));
  (1135, clear_flags);
  (1136, (set_cwd none_bit))].

(** lines 1140-1166 *)
Definition minimal_mag_test : list (N * M bool) := [
  (1142, clear_flags);
  (1144, (bind (@n_mag binary64 ((fl binary64 (1) (0)), (fl binary64 (1) (1)))) (fun v1 => ret (feq v1 (fl binary64 (1) (1))))));
  (1145, (bind (@n_mag binary64 ((fl binary64 (-1) (2)), (fl binary64 (1) (1)))) (fun v1 => ret (feq v1 (fl binary64 (1) (2))))));
  (1146, (bind (@n_mag binary64 ((@fminf binary64), (fl binary64 (1) (1)))) (fun v1 => ret (feq v1 (@finf binary64)))));
  (1147, (bind (@n_mag binary64 ((fl binary64 (1) (0)), (@finf binary64))) (fun v1 => ret (feq v1 (@finf binary64)))));
  (1148, (bind (@n_mag binary64 ((@fminf binary64), (@finf binary64))) (fun v1 => ret (feq v1 (@finf binary64)))));
  (1149, (bind (@n_mag binary64 ((@fnan binary64), (@fnan binary64))) (fun v1 => ret (isnan v1))));
  (1150, (bind (@n_mag binary64 ((@fm0 binary64), (@f0 binary64))) (fun v1 => ret (feq v1 (@f0 binary64)))));
  (1151, (mnot (bind (@n_mag binary64 ((@fm0 binary64), (@f0 binary64))) (fun v1 => ret (fsign v1)))));
  (1152, (bind (@n_mag binary64 ((@fm0 binary64), (@fm0 binary64))) (fun v1 => ret (feq v1 (@f0 binary64)))));
  (1153, (mnot (bind (@n_mag binary64 ((@fm0 binary64), (@fm0 binary64))) (fun v1 => ret (fsign v1)))));
  (1155, (bind get_flags (fun v1 => ret (N.eqb v1 none_bit))));
  (1157, clear_flags);
  (1158, (bind (@n_mag binary64 ((fl binary64 (1) (0)), (fl binary64 (-1) (1)))) (fun v1 => ret (isnan v1))));
  (1159, (bind get_flags (fun v1 => ret (N.eqb v1 invalid_operand_bit))));
  (1160, clear_flags);
  (1161, (set_cwd invalid_operand_bit));
  (1162, (throws (@n_mag binary64 ((fl binary64 (1) (0)), (fl binary64 (-1) (1)))) Invalid_operand_exception));
  (1163, (bind get_flags (fun v1 => ret (N.eqb v1 invalid_operand_bit))));
  (1164, clear_flags);
  (1165, (set_cwd none_bit))].

(** lines 1168-1197 *)
Definition minimal_mag_mixedtype_test : list (N * M bool) := [
  (1170, clear_flags);
  (1172, (bind (@n_mag_mixed binary64 binary32 ((fl binary64 (1) (0)), (fl binary64 (1) (1)))) (fun v1 => ret (feq v1 (fl binary32 (1) (1))))));
  (1173, (bind (@n_mag_mixed binary64 binary32 ((fl binary64 (-1) (2)), (fl binary64 (1) (1)))) (fun v1 => ret (feq v1 (fl binary32 (1) (2))))));
  (1174, (bind (@n_mag_mixed binary64 binary32 ((@fminf binary64), (fl binary64 (1) (1)))) (fun v1 => ret (feq v1 (@finf binary32)))));
  (1175, (bind (@n_mag_mixed binary64 binary32 ((fl binary64 (1) (0)), (@finf binary64))) (fun v1 => ret (feq v1 (@finf binary32)))));
  (1176, (bind (@n_mag_mixed binary64 binary32 ((@fminf binary64), (@finf binary64))) (fun v1 => ret (feq v1 (@finf binary32)))));
  (1177, (bind (@n_mag_mixed binary64 binary32 ((@fnan binary64), (@fnan binary64))) (fun v1 => ret (isnan v1))));
  (1178, (bind (@n_mag_mixed binary64 binary32 ((@fm0 binary64), (@f0 binary64))) (fun v1 => ret (feq v1 (@f0 binary32)))));
  (1179, (mnot (bind (@n_mag_mixed binary64 binary32 ((@fm0 binary64), (@f0 binary64))) (fun v1 => ret (fsign v1)))));
  (1180, (bind (@n_mag_mixed binary64 binary32 ((@fm0 binary64), (@fm0 binary64))) (fun v1 => ret (feq v1 (@f0 binary32)))));
  (1181, (mnot (bind (@n_mag_mixed binary64 binary32 ((@fm0 binary64), (@fm0 binary64))) (fun v1 => ret (fsign v1)))));
  (1182, (bind (@n_mag_mixed binary64 binary32 ((fl binary64 (1) (-1022)), (fl binary64 (4503599627370497) (-1074)))) (fun v1 => ret (feq v1 (fl binary32 (1) (-149))))));
  (1183, (bind (@n_mag_mixed binary64 binary32 ((fl binary64 (-2476979795053773) (-51)), (fl binary64 (3152519739159347) (-52)))) (fun v1 => ret (feq v1 (fl binary32 (9227469) (-23))))));
  (1185, (bind get_flags (fun v1 => ret (N.eqb v1 none_bit))));
  (1188, clear_flags);
  (1189, (bind (@n_mag_mixed binary64 binary32 ((fl binary64 (1) (0)), (fl binary64 (-1) (1)))) (fun v1 => ret (isnan v1))));
  (1190, (bind get_flags (fun v1 => ret (N.eqb v1 invalid_operand_bit))));
  (1191, clear_flags);
  (1192, (set_cwd invalid_operand_bit));
  (1193, (throws (@n_mag_mixed binary64 binary32 ((fl binary64 (1) (0)), (fl binary64 (-1) (1)))) Invalid_operand_exception));
  (1194, (bind get_flags (fun v1 => ret (N.eqb v1 invalid_operand_bit))));
  (1195, clear_flags);
  (1196, (set_cwd none_bit))].

(** lines 1199-1227 *)
Definition minimal_mag_dec_test : list (N * M bool) := [
  (1201, clear_flags);
  (1203, (bind (@n_mag_dec binary64 (((fl binary64 (1) (0)), (fl binary64 (1) (1))), com)) (fun v1 => ret (feq v1 (fl binary64 (1) (1))))));
  (1204, (bind (@n_mag_dec binary64 (((fl binary64 (-1) (2)), (fl binary64 (1) (1))), trv)) (fun v1 => ret (feq v1 (fl binary64 (1) (2))))));
  (1205, (bind (@n_mag_dec binary64 (((@fminf binary64), (fl binary64 (1) (1))), trv)) (fun v1 => ret (feq v1 (@finf binary64)))));
  (1206, (bind (@n_mag_dec binary64 (((fl binary64 (1) (0)), (@finf binary64)), def)) (fun v1 => ret (feq v1 (@finf binary64)))));
  (1207, (bind (@n_mag_dec binary64 (((@fminf binary64), (@finf binary64)), trv)) (fun v1 => ret (feq v1 (@finf binary64)))));
  (1208, (bind (@n_mag_dec binary64 (((@fnan binary64), (@fnan binary64)), trv)) (fun v1 => ret (isnan v1))));
  (1209, (bind (@n_mag_dec binary64 (((@fnan binary64), (@fnan binary64)), ill)) (fun v1 => ret (isnan v1))));
  (1210, (bind (@n_mag_dec binary64 (((@fm0 binary64), (@f0 binary64)), trv)) (fun v1 => ret (feq v1 (@f0 binary64)))));
  (1211, (mnot (bind (@n_mag_dec binary64 (((@fm0 binary64), (@f0 binary64)), trv)) (fun v1 => ret (fsign v1)))));
  (1212, (bind (@n_mag_dec binary64 (((@fm0 binary64), (@fm0 binary64)), trv)) (fun v1 => ret (feq v1 (@f0 binary64)))));
  (1213, (mnot (bind (@n_mag_dec binary64 (((@fm0 binary64), (@fm0 binary64)), trv)) (fun v1 => ret (fsign v1)))));
  (1216, (bind get_flags (fun v1 => ret (N.eqb v1 none_bit))));
  (1218, clear_flags);
  (1219, (bind (@n_mag_dec binary64 (((fl binary64 (1) (0)), (fl binary64 (-1) (1))), trv)) (fun v1 => ret (isnan v1))));
  (1220, (bind get_flags (fun v1 => ret (N.eqb v1 invalid_operand_bit))));
  (1221, clear_flags);
  (1222, (set_cwd invalid_operand_bit));
  (1223, (throws (@n_mag_dec binary64 (((fl binary64 (1) (0)), (fl binary64 (-1) (1))), trv)) Invalid_operand_exception));
  (1224, (bind get_flags (fun v1 => ret (N.eqb v1 invalid_operand_bit))));
  (1225, clear_flags);
  (1226, (set_cwd none_bit))].

(** lines 1229-1259 *)
Definition minimal_mag_dec_mixedtype_test : list (N * M bool) := [
  (1231, clear_flags);
  (1233, (bind (@num_dec_mixed binary64 binary32 (@n_mag_mixed binary64 binary32) (((fl binary64 (1) (0)), (fl binary64 (1) (1))), com)) (fun v1 => ret (feq v1 (fl binary32 (1) (1))))));
  (1234, (bind (@num_dec_mixed binary64 binary32 (@n_mag_mixed binary64 binary32) (((fl binary64 (-1) (2)), (fl binary64 (1) (1))), trv)) (fun v1 => ret (feq v1 (fl binary32 (1) (2))))));
  (1235, (bind (@num_dec_mixed binary64 binary32 (@n_mag_mixed binary64 binary32) (((@fminf binary64), (fl binary64 (1) (1))), trv)) (fun v1 => ret (feq v1 (@finf binary32)))));
  (1236, (bind (@num_dec_mixed binary64 binary32 (@n_mag_mixed binary64 binary32) (((fl binary64 (1) (0)), (@finf binary64)), def)) (fun v1 => ret (feq v1 (@finf binary32)))));
  (1237, (bind (@num_dec_mixed binary64 binary32 (@n_mag_mixed binary64 binary32) (((@fminf binary64), (@finf binary64)), trv)) (fun v1 => ret (feq v1 (@finf binary32)))));
  (1238, (bind (@num_dec_mixed binary64 binary32 (@n_mag_mixed binary64 binary32) (((@fnan binary64), (@fnan binary64)), trv)) (fun v1 => ret (isnan v1))));
  (1239, (bind (@num_dec_mixed binary64 binary32 (@n_mag_mixed binary64 binary32) (((@fnan binary64), (@fnan binary64)), ill)) (fun v1 => ret (isnan v1))));
  (1240, (bind (@num_dec_mixed binary64 binary32 (@n_mag_mixed binary64 binary32) (((@fm0 binary64), (@f0 binary64)), trv)) (fun v1 => ret (feq v1 (@f0 binary32)))));
  (1241, (mnot (bind (@num_dec_mixed binary64 binary32 (@n_mag_mixed binary64 binary32) (((@fm0 binary64), (@f0 binary64)), trv)) (fun v1 => ret (fsign v1)))));
  (1242, (bind (@num_dec_mixed binary64 binary32 (@n_mag_mixed binary64 binary32) (((@fm0 binary64), (@fm0 binary64)), trv)) (fun v1 => ret (feq v1 (@f0 binary32)))));
  (1243, (mnot (bind (@num_dec_mixed binary64 binary32 (@n_mag_mixed binary64 binary32) (((@fm0 binary64), (@fm0 binary64)), trv)) (fun v1 => ret (fsign v1)))));
  (1244, (bind (@num_dec_mixed binary64 binary32 (@n_mag_mixed binary64 binary32) (((fl binary64 (1) (-1022)), (fl binary64 (4503599627370497) (-1074))), trv)) (fun v1 => ret (feq v1 (fl binary32 (1) (-149))))));
  (1245, (bind (@num_dec_mixed binary64 binary32 (@n_mag_mixed binary64 binary32) (((fl binary64 (-2476979795053773) (-51)), (fl binary64 (3152519739159347) (-52))), trv)) (fun v1 => ret (feq v1 (fl binary32 (9227469) (-23))))));
  (1248, (bind get_flags (fun v1 => ret (N.eqb v1 none_bit))));
  (1250, clear_flags);
  (1251, (bind (@num_dec_mixed binary64 binary32 (@n_mag_mixed binary64 binary32) (((fl binary64 (1) (0)), (fl binary64 (-1) (1))), trv)) (fun v1 => ret (isnan v1))));
  (1252, (bind get_flags (fun v1 => ret (N.eqb v1 invalid_operand_bit))));
  (1253, clear_flags);
  (1254, (set_cwd invalid_operand_bit));
  (1255, (throws (@num_dec_mixed binary64 binary32 (@n_mag_mixed binary64 binary32) (((fl binary64 (1) (0)), (fl binary64 (-1) (1))), trv)) Invalid_operand_exception));
  (1256, (bind get_flags (fun v1 => ret (N.eqb v1 invalid_operand_bit))));
  (1257, clear_flags);
  (1258, (set_cwd none_bit))].

(** lines 1262-1293 *)
Definition minimal_mig_test : list (N * M bool) := [
  (1264, clear_flags);
  (1266, (bind (@n_mig binary64 ((fl binary64 (1) (0)), (fl binary64 (1) (1)))) (fun v1 => ret (feq v1 (fl binary64 (1) (0))))));
  (1267, (bind (@n_mig binary64 ((fl binary64 (-1) (2)), (fl binary64 (1) (1)))) (fun v1 => ret (feq v1 (@f0 binary64)))));
  (1268, (mnot (bind (@n_mig binary64 ((fl binary64 (-1) (2)), (fl binary64 (1) (1)))) (fun v1 => ret (fsign v1)))));
  (1269, (bind (@n_mig binary64 ((fl binary64 (-1) (2)), (fl binary64 (-1) (1)))) (fun v1 => ret (feq v1 (fl binary64 (1) (1))))));
  (1270, (bind (@n_mig binary64 ((@fminf binary64), (fl binary64 (1) (1)))) (fun v1 => ret (feq v1 (@f0 binary64)))));
  (1271, (bind (@n_mig binary64 ((@fminf binary64), (fl binary64 (-1) (1)))) (fun v1 => ret (feq v1 (fl binary64 (1) (1))))));
  (1272, (bind (@n_mig binary64 ((fl binary64 (-1) (0)), (@finf binary64))) (fun v1 => ret (feq v1 (@f0 binary64)))));
  (1273, (bind (@n_mig binary64 ((fl binary64 (1) (0)), (@finf binary64))) (fun v1 => ret (feq v1 (fl binary64 (1) (0))))));
  (1274, (bind (@n_mig binary64 ((@fminf binary64), (@finf binary64))) (fun v1 => ret (feq v1 (@f0 binary64)))));
  (1275, (mnot (bind (@n_mig binary64 ((@fminf binary64), (@finf binary64))) (fun v1 => ret (fsign v1)))));
  (1276, (bind (@n_mig binary64 ((@fnan binary64), (@fnan binary64))) (fun v1 => ret (isnan v1))));
  (1277, (bind (@n_mig binary64 ((@fm0 binary64), (@f0 binary64))) (fun v1 => ret (feq v1 (@f0 binary64)))));
  (1278, (mnot (bind (@n_mig binary64 ((@fm0 binary64), (@f0 binary64))) (fun v1 => ret (fsign v1)))));
  (1279, (bind (@n_mig binary64 ((@fm0 binary64), (@fm0 binary64))) (fun v1 => ret (feq v1 (@f0 binary64)))));
  (1280, (mnot (bind (@n_mig binary64 ((@fm0 binary64), (@fm0 binary64))) (fun v1 => ret (fsign v1)))));
  (1282, (bind get_flags (fun v1 => ret (N.eqb v1 none_bit))));
  (1284, clear_flags);
  (1285, (bind (@n_mig binary64 ((fl binary64 (1) (0)), (fl binary64 (-1) (1)))) (fun v1 => ret (isnan v1))));
  (1286, (bind get_flags (fun v1 => ret (N.eqb v1 invalid_operand_bit))));
  (1287, clear_flags);
  (1288, (set_cwd invalid_operand_bit));
  (1289, (throws (@n_mig binary64 ((fl binary64 (1) (0)), (fl binary64 (-1) (1)))) Invalid_operand_exception));
  (1290, (bind get_flags (fun v1 => ret (N.eqb v1 invalid_operand_bit))));
  (1291, clear_flags);
  (1292, (set_cwd none_bit))].

(** lines 1295-1328 *)
Definition minimal_mig_mixedtype_test : list (N * M bool) := [
  (1297, clear_flags);
  (1299, (bind (@n_mig_mixed binary64 binary32 ((fl binary64 (1) (0)), (fl binary64 (1) (1)))) (fun v1 => ret (feq v1 (fl binary32 (1) (0))))));
  (1300, (bind (@n_mig_mixed binary64 binary32 ((fl binary64 (-1) (2)), (fl binary64 (1) (1)))) (fun v1 => ret (feq v1 (@f0 binary32)))));
  (1301, (mnot (bind (@n_mig_mixed binary64 binary32 ((fl binary64 (-1) (2)), (fl binary64 (1) (1)))) (fun v1 => ret (fsign v1)))));
  (1302, (bind (@n_mig_mixed binary64 binary32 ((fl binary64 (-1) (2)), (fl binary64 (-1) (1)))) (fun v1 => ret (feq v1 (fl binary32 (1) (1))))));
  (1303, (bind (@n_mig_mixed binary64 binary32 ((@fminf binary64), (fl binary64 (1) (1)))) (fun v1 => ret (feq v1 (@f0 binary32)))));
  (1304, (bind (@n_mig_mixed binary64 binary32 ((@fminf binary64), (fl binary64 (-1) (1)))) (fun v1 => ret (feq v1 (fl binary32 (1) (1))))));
  (1305, (bind (@n_mig_mixed binary64 binary32 ((fl binary64 (-1) (0)), (@finf binary64))) (fun v1 => ret (feq v1 (@f0 binary32)))));
  (1306, (bind (@n_mig_mixed binary64 binary32 ((fl binary64 (1) (0)), (@finf binary64))) (fun v1 => ret (feq v1 (fl binary32 (1) (0))))));
  (1307, (bind (@n_mig_mixed binary64 binary32 ((@fminf binary64), (@finf binary64))) (fun v1 => ret (feq v1 (@f0 binary32)))));
  (1308, (mnot (bind (@n_mig_mixed binary64 binary32 ((@fminf binary64), (@finf binary64))) (fun v1 => ret (fsign v1)))));
  (1309, (bind (@n_mig_mixed binary64 binary32 ((@fnan binary64), (@fnan binary64))) (fun v1 => ret (isnan v1))));
  (1310, (bind (@n_mig_mixed binary64 binary32 ((@fm0 binary64), (@f0 binary64))) (fun v1 => ret (feq v1 (@f0 binary32)))));
  (1311, (mnot (bind (@n_mig_mixed binary64 binary32 ((@fm0 binary64), (@f0 binary64))) (fun v1 => ret (fsign v1)))));
  (1312, (bind (@n_mig_mixed binary64 binary32 ((@fm0 binary64), (@fm0 binary64))) (fun v1 => ret (feq v1 (@f0 binary32)))));
  (1313, (mnot (bind (@n_mig_mixed binary64 binary32 ((@fm0 binary64), (@fm0 binary64))) (fun v1 => ret (fsign v1)))));
  (1314, (bind (@n_mig_mixed binary64 binary32 ((fl binary64 (2476979795053773) (-51)), (fl binary64 (3152519739159347) (-50)))) (fun v1 => ret (feq v1 (fl binary32 (2306867) (-21))))));
  (1316, (bind get_flags (fun v1 => ret (N.eqb v1 none_bit))));
  (1319, clear_flags);
  (1320, (bind (@n_mig_mixed binary64 binary32 ((fl binary64 (1) (0)), (fl binary64 (-1) (1)))) (fun v1 => ret (isnan v1))));
  (1321, (bind get_flags (fun v1 => ret (N.eqb v1 invalid_operand_bit))));
  (1322, clear_flags);
  (1323, (set_cwd invalid_operand_bit));
  (1324, (throws (@n_mig_mixed binary64 binary32 ((fl binary64 (1) (0)), (fl binary64 (-1) (1)))) Invalid_operand_exception));
  (1325, (bind get_flags (fun v1 => ret (N.eqb v1 invalid_operand_bit))));
  (1326, clear_flags);
  (1327, (set_cwd none_bit))].

(** lines 1330-1362 *)
Definition minimal_mig_dec_test : list (N * M bool) := [
  (1332, clear_flags);
  (1334, (bind (@n_mig_dec binary64 (((fl binary64 (1) (0)), (fl binary64 (1) (1))), com)) (fun v1 => ret (feq v1 (fl binary64 (1) (0))))));
  (1335, (bind (@n_mig_dec binary64 (((fl binary64 (-1) (2)), (fl binary64 (1) (1))), trv)) (fun v1 => ret (feq v1 (@f0 binary64)))));
  (1336, (mnot (bind (@n_mig_dec binary64 (((fl binary64 (-1) (2)), (fl binary64 (1) (1))), trv)) (fun v1 => ret (fsign v1)))));
  (1337, (bind (@n_mig_dec binary64 (((fl binary64 (-1) (2)), (fl binary64 (-1) (1))), trv)) (fun v1 => ret (feq v1 (fl binary64 (1) (1))))));
  (1338, (bind (@n_mig_dec binary64 (((@fminf binary64), (fl binary64 (1) (1))), def)) (fun v1 => ret (feq v1 (@f0 binary64)))));
  (1339, (bind (@n_mig_dec binary64 (((@fminf binary64), (fl binary64 (-1) (1))), trv)) (fun v1 => ret (feq v1 (fl binary64 (1) (1))))));
  (1340, (bind (@n_mig_dec binary64 (((fl binary64 (-1) (0)), (@finf binary64)), trv)) (fun v1 => ret (feq v1 (@f0 binary64)))));
  (1341, (bind (@n_mig_dec binary64 (((fl binary64 (1) (0)), (@finf binary64)), trv)) (fun v1 => ret (feq v1 (fl binary64 (1) (0))))));
  (1342, (bind (@n_mig_dec binary64 (((@fminf binary64), (@finf binary64)), trv)) (fun v1 => ret (feq v1 (@f0 binary64)))));
  (1343, (mnot (bind (@n_mig_dec binary64 (((@fminf binary64), (@finf binary64)), trv)) (fun v1 => ret (fsign v1)))));
  (1344, (bind (@n_mig_dec binary64 (((@fnan binary64), (@fnan binary64)), trv)) (fun v1 => ret (isnan v1))));
  (1345, (bind (@n_mig_dec binary64 (((@fnan binary64), (@fnan binary64)), ill)) (fun v1 => ret (isnan v1))));
  (1346, (bind (@n_mig_dec binary64 (((@fm0 binary64), (@f0 binary64)), trv)) (fun v1 => ret (feq v1 (@f0 binary64)))));
  (1347, (mnot (bind (@n_mig_dec binary64 (((@fm0 binary64), (@f0 binary64)), trv)) (fun v1 => ret (fsign v1)))));
  (1348, (bind (@n_mig_dec binary64 (((@fm0 binary64), (@fm0 binary64)), trv)) (fun v1 => ret (feq v1 (@f0 binary64)))));
  (1349, (mnot (bind (@n_mig_dec binary64 (((@fm0 binary64), (@fm0 binary64)), trv)) (fun v1 => ret (fsign v1)))));
  (1351, (bind get_flags (fun v1 => ret (N.eqb v1 none_bit))));
  (1353, clear_flags);
  (1354, (bind (@n_mig_dec binary64 (((fl binary64 (1) (0)), (fl binary64 (-1) (1))), trv)) (fun v1 => ret (isnan v1))));
  (1355, (bind get_flags (fun v1 => ret (N.eqb v1 invalid_operand_bit))));
  (1356, clear_flags);
  (1357, (set_cwd invalid_operand_bit));
  (1358, (throws (@n_mig_dec binary64 (((fl binary64 (1) (0)), (fl binary64 (-1) (1))), trv)) Invalid_operand_exception));
  (1359, (bind get_flags (fun v1 => ret (N.eqb v1 invalid_operand_bit))));
  (1360, clear_flags);
  (1361, (set_cwd none_bit))].

(** lines 1364-1397 *)
Definition minimal_mig_dec_mixedtype_test : list (N * M bool) := [
  (1366, clear_flags);
  (1368, (bind (@num_dec_mixed binary64 binary32 (@n_mig_mixed binary64 binary32) (((fl binary64 (1) (0)), (fl binary64 (1) (1))), com)) (fun v1 => ret (feq v1 (fl binary32 (1) (0))))));
  (1369, (bind (@num_dec_mixed binary64 binary32 (@n_mig_mixed binary64 binary32) (((fl binary64 (-1) (2)), (fl binary64 (1) (1))), trv)) (fun v1 => ret (feq v1 (@f0 binary32)))));
  (1370, (mnot (bind (@num_dec_mixed binary64 binary32 (@n_mig_mixed binary64 binary32) (((fl binary64 (-1) (2)), (fl binary64 (1) (1))), trv)) (fun v1 => ret (fsign v1)))));
  (1371, (bind (@num_dec_mixed binary64 binary32 (@n_mig_mixed binary64 binary32) (((fl binary64 (-1) (2)), (fl binary64 (-1) (1))), trv)) (fun v1 => ret (feq v1 (fl binary32 (1) (1))))));
  (1372, (bind (@num_dec_mixed binary64 binary32 (@n_mig_mixed binary64 binary32) (((@fminf binary64), (fl binary64 (1) (1))), trv)) (fun v1 => ret (feq v1 (@f0 binary32)))));
  (1373, (bind (@num_dec_mixed binary64 binary32 (@n_mig_mixed binary64 binary32) (((@fminf binary64), (fl binary64 (-1) (1))), def)) (fun v1 => ret (feq v1 (fl binary32 (1) (1))))));
  (1374, (bind (@num_dec_mixed binary64 binary32 (@n_mig_mixed binary64 binary32) (((fl binary64 (-1) (0)), (@finf binary64)), trv)) (fun v1 => ret (feq v1 (@f0 binary32)))));
  (1375, (bind (@num_dec_mixed binary64 binary32 (@n_mig_mixed binary64 binary32) (((fl binary64 (1) (0)), (@finf binary64)), trv)) (fun v1 => ret (feq v1 (fl binary32 (1) (0))))));
  (1376, (bind (@num_dec_mixed binary64 binary32 (@n_mig_mixed binary64 binary32) (((@fminf binary64), (@finf binary64)), trv)) (fun v1 => ret (feq v1 (@f0 binary32)))));
  (1377, (mnot (bind (@num_dec_mixed binary64 binary32 (@n_mig_mixed binary64 binary32) (((@fminf binary64), (@finf binary64)), trv)) (fun v1 => ret (fsign v1)))));
  (1378, (bind (@num_dec_mixed binary64 binary32 (@n_mig_mixed binary64 binary32) (((@fnan binary64), (@fnan binary64)), trv)) (fun v1 => ret (isnan v1))));
  (1379, (bind (@num_dec_mixed binary64 binary32 (@n_mig_mixed binary64 binary32) (((@fnan binary64), (@fnan binary64)), ill)) (fun v1 => ret (isnan v1))));
  (1380, (bind (@num_dec_mixed binary64 binary32 (@n_mig_mixed binary64 binary32) (((@fm0 binary64), (@f0 binary64)), trv)) (fun v1 => ret (feq v1 (@f0 binary32)))));
  (1381, (mnot (bind (@num_dec_mixed binary64 binary32 (@n_mig_mixed binary64 binary32) (((@fm0 binary64), (@f0 binary64)), trv)) (fun v1 => ret (fsign v1)))));
  (1382, (bind (@num_dec_mixed binary64 binary32 (@n_mig_mixed binary64 binary32) (((@fm0 binary64), (@fm0 binary64)), trv)) (fun v1 => ret (feq v1 (@f0 binary32)))));
  (1383, (mnot (bind (@num_dec_mixed binary64 binary32 (@n_mig_mixed binary64 binary32) (((@fm0 binary64), (@fm0 binary64)), trv)) (fun v1 => ret (fsign v1)))));
  (1384, (bind (@num_dec_mixed binary64 binary32 (@n_mig_mixed binary64 binary32) (((fl binary64 (2476979795053773) (-51)), (fl binary64 (3152519739159347) (-50))), trv)) (fun v1 => ret (feq v1 (fl binary32 (2306867) (-21))))));
  (1386, (bind get_flags (fun v1 => ret (N.eqb v1 none_bit))));
  (1388, clear_flags);
  (1389, (bind (@num_dec_mixed binary64 binary32 (@n_mig_mixed binary64 binary32) (((fl binary64 (1) (0)), (fl binary64 (-1) (1))), trv)) (fun v1 => ret (isnan v1))));
  (1390, (bind get_flags (fun v1 => ret (N.eqb v1 invalid_operand_bit))));
  (1391, clear_flags);
  (1392, (set_cwd invalid_operand_bit));
  (1393, (throws (@num_dec_mixed binary64 binary32 (@n_mig_mixed binary64 binary32) (((fl binary64 (1) (0)), (fl binary64 (-1) (1))), trv)) Invalid_operand_exception));
  (1394, (bind get_flags (fun v1 => ret (N.eqb v1 invalid_operand_bit))));
  (1395, clear_flags);
  (1396, (set_cwd none_bit))].

Example num_func_agree : test_file [
  minimal_inf_test; minimal_inf_mixedtype_test; minimal_inf_dec_test; minimal_inf_dec_mixedtype_test; minimal_sup_test; minimal_sup_mixedtype_test; minimal_sup_dec_test; minimal_sup_dec_mixedtype_test; minimal_mid_test; minimal_mid_mixedtype_test; minimal_mid_dec_test; minimal_mid_dec_mixedtype_test; minimal_rad_test; minimal_rad_mixedtype_test; minimal_rad_dec_test; minimal_rad_dec_mixedtype_test; minimal_mid_rad_test; minimal_mid_rad_mixedtype_test; minimal_mid_rad_dec_test; minimal_mid_rad_dec_mixedtype_test; minimal_wid_test; minimal_wid_mixedtype_test; minimal_wid_dec_test; minimal_wid_dec_mixedtype_test; minimal_mag_test; minimal_mag_mixedtype_test; minimal_mag_dec_test; minimal_mag_dec_mixedtype_test; minimal_mig_test; minimal_mig_mixedtype_test; minimal_mig_dec_test; minimal_mig_dec_mixedtype_test] = [].
Proof. vm_compute. reflexivity. Qed.
