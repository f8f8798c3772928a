(** * The checks of the unit tests in /repo/test/p1788/flavor/infsup/setbased/
    test_mpfr_bin_ieee754_flavor_rev_func.cpp, run on the model

    One definition per test case of that file, the number before a check is its
    line there.  These are tests of the model, not proofs about it. *)

From Coq Require Import ZArith NArith Bool List.
From Flocq Require Import IEEE754.BinarySingleNaN.
From Verif Require Import Fmt Spec Exc Deco MBase MBool MArith MElem MDec MNum MCancel MOverlap MClass MRev MRev1 MMixed Ex TestRun.
Import ListNotations.
Local Open Scope N_scope.

(** lines 60-86 *)
Definition minimal_sqr_rev_test : list (N * M bool) := [
  (62, (bind (@sqr_rev1 binary64 (@empty binary64)) (fun v1 => @is_empty binary64 v1)));
  (63, (bind (@sqr_rev1 binary64 ((fl binary64 (-5) (1)), (fl binary64 (-1) (0)))) (fun v1 => @is_empty binary64 v1)));
  (64, (bind (@sqr_rev1 binary64 ((@f0 binary64), (@finf binary64))) (fun v1 => ret (ieq v1 (@entire binary64)))));
  (65, (bind (@sqr_rev1 binary64 ((@f0 binary64), (fl binary64 (1) (0)))) (fun v1 => ret (ieq v1 ((fl binary64 (-1) (0)), (fl binary64 (1) (0)))))));
  (66, (bind (@sqr_rev1 binary64 ((fl binary64 (-1) (-1)), (fl binary64 (1) (0)))) (fun v1 => ret (ieq v1 ((fl binary64 (-1) (0)), (fl binary64 (1) (0)))))));
  (67, (bind (@sqr_rev1 binary64 ((fl binary64 (-125) (3)), (fl binary64 (1) (0)))) (fun v1 => ret (ieq v1 ((fl binary64 (-1) (0)), (fl binary64 (1) (0)))))));
  (68, (bind (@sqr_rev1 binary64 ((@f0 binary64), (fl binary64 (25) (0)))) (fun v1 => ret (ieq v1 ((fl binary64 (-5) (0)), (fl binary64 (5) (0)))))));
  (69, (bind (@sqr_rev1 binary64 ((fl binary64 (-1) (0)), (fl binary64 (25) (0)))) (fun v1 => ret (ieq v1 ((fl binary64 (-5) (0)), (fl binary64 (5) (0)))))));
  (72, (bind (@sqr_rev1 binary64 ((fl binary64 (5764607523034235) (-59)), (fl binary64 (1441151880758559) (-57)))) (fun v1 => ret (ieq v1 ((fl binary64 (-7205759403792795) (-56)), (fl binary64 (7205759403792795) (-56)))))));
  (73, (bind (@sqr_rev1 binary64 ((@f0 binary64), (fl binary64 (9007199254740961) (-51)))) (fun v1 => ret (ieq v1 ((fl binary64 (-9007199254740977) (-52)), (fl binary64 (9007199254740977) (-52)))))));
  (75, (bind get_flags (fun v1 => ret (N.eqb v1 none_bit))));
  (77, clear_flags);
  (78, (bind (@sqr_rev1 binary64 ((fl binary64 (1) (0)), (fl binary64 (-9007199254740991) (971)))) (fun v1 => @is_empty binary64 v1)));
  (79, (bind get_flags (fun v1 => ret (N.eqb v1 invalid_operand_bit))));
  (80, clear_flags);
  (81, (set_cwd invalid_operand_bit));
  (82, (throws (@sqr_rev1 binary64 ((fl binary64 (3) (0)), (fl binary64 (-1) (2)))) Invalid_operand_exception));
  (83, (bind get_flags (fun v1 => ret (N.eqb v1 invalid_operand_bit))));
  (84, clear_flags);
  (85, (set_cwd none_bit))].

(** lines 88-120 *)
Definition minimal_sqr_rev_bin_test : list (N * M bool) := [
  (90, (bind (@sqr_rev binary64 (@empty binary64) ((fl binary64 (-5) (0)), (fl binary64 (1) (0)))) (fun v1 => @is_empty binary64 v1)));
  (91, (bind (@sqr_rev binary64 ((fl binary64 (-5) (1)), (fl binary64 (-1) (0))) ((fl binary64 (-5) (0)), (fl binary64 (1) (0)))) (fun v1 => @is_empty binary64 v1)));
  (92, (bind (@sqr_rev binary64 ((@f0 binary64), (@finf binary64)) ((fl binary64 (-5) (0)), (fl binary64 (1) (0)))) (fun v1 => ret (ieq v1 ((fl binary64 (-5) (0)), (fl binary64 (1) (0)))))));
  (93, (bind (@sqr_rev binary64 ((@f0 binary64), (fl binary64 (1) (0))) ((fl binary64 (-3602879701896397) (-55)), (fl binary64 (1) (0)))) (fun v1 => ret (ieq v1 ((fl binary64 (-3602879701896397) (-55)), (fl binary64 (1) (0)))))));
  (94, (bind (@sqr_rev binary64 ((fl binary64 (-1) (-1)), (fl binary64 (1) (0))) ((fl binary64 (-3602879701896397) (-55)), (fl binary64 (1) (0)))) (fun v1 => ret (ieq v1 ((fl binary64 (-3602879701896397) (-55)), (fl binary64 (1) (0)))))));
  (95, (bind (@sqr_rev binary64 ((fl binary64 (-125) (3)), (fl binary64 (1) (0))) ((fl binary64 (-3602879701896397) (-55)), (fl binary64 (1) (0)))) (fun v1 => ret (ieq v1 ((fl binary64 (-3602879701896397) (-55)), (fl binary64 (1) (0)))))));
  (96, (bind (@sqr_rev binary64 ((@f0 binary64), (fl binary64 (25) (0))) ((fl binary64 (-2308094809027379) (-49)), (fl binary64 (3) (1)))) (fun v1 => ret (ieq v1 ((fl binary64 (-2308094809027379) (-49)), (fl binary64 (5) (0)))))));
  (97, (bind (@sqr_rev binary64 ((fl binary64 (-1) (0)), (fl binary64 (25) (0))) ((fl binary64 (-2308094809027379) (-49)), (fl binary64 (7) (0)))) (fun v1 => ret (ieq v1 ((fl binary64 (-2308094809027379) (-49)), (fl binary64 (5) (0)))))));
  (98, (bind (@sqr_rev binary64 ((fl binary64 (1) (0)), (fl binary64 (25) (0))) ((@f0 binary64), (fl binary64 (7) (0)))) (fun v1 => ret (ieq v1 ((fl binary64 (1) (0)), (fl binary64 (5) (0)))))));
  (101, (bind (@sqr_rev binary64 ((fl binary64 (5764607523034235) (-59)), (fl binary64 (1441151880758559) (-57))) ((fl binary64 (-3602879701896397) (-55)), (@finf binary64))) (fun v1 => ret (ieq v1 ((fl binary64 (-3602879701896397) (-55)), (fl binary64 (7205759403792795) (-56)))))));
  (102, (bind (@sqr_rev binary64 ((@f0 binary64), (fl binary64 (9007199254740961) (-51))) ((fl binary64 (-3602879701896397) (-55)), (@finf binary64))) (fun v1 => ret (ieq v1 ((fl binary64 (-3602879701896397) (-55)), (fl binary64 (9007199254740977) (-52)))))));
  (103, (bind (@sqr_rev binary64 ((fl binary64 (4503599627370497) (-52)), (@finf binary64)) ((fl binary64 (-1) (0)), (fl binary64 (4503599627370497) (-52)))) (fun v1 => ret (ieq v1 ((fl binary64 (1) (0)), (fl binary64 (4503599627370497) (-52)))))));
  (104, (bind (@sqr_rev binary64 ((fl binary64 (4503599627370497) (-52)), (@finf binary64)) ((fl binary64 (-4503599627370497) (-52)), (fl binary64 (1) (0)))) (fun v1 => ret (ieq v1 ((fl binary64 (-4503599627370497) (-52)), (fl binary64 (-1) (0)))))));
  (105, (bind (@sqr_rev binary64 ((fl binary64 (4503599627370497) (-52)), (@finf binary64)) ((fl binary64 (-1) (0)), (fl binary64 (1) (0)))) (fun v1 => @is_empty binary64 v1)));
  (106, (bind (@sqr_rev binary64 ((fl binary64 (4503599627370497) (-52)), (@finf binary64)) ((fl binary64 (1) (0)), (fl binary64 (1) (0)))) (fun v1 => @is_empty binary64 v1)));
  (107, (bind (@sqr_rev binary64 ((fl binary64 (4503599627370497) (-52)), (@finf binary64)) ((fl binary64 (-1) (0)), (fl binary64 (-1) (0)))) (fun v1 => @is_empty binary64 v1)));
  (109, (bind get_flags (fun v1 => ret (N.eqb v1 none_bit))));
  (111, clear_flags);
  (112, (bind (@sqr_rev binary64 ((fl binary64 (1) (0)), (fl binary64 (-9007199254740991) (971))) ((fl binary64 (1) (0)), (fl binary64 (-9007199254740991) (971)))) (fun v1 => @is_empty binary64 v1)));
  (113, (bind get_flags (fun v1 => ret (N.eqb v1 invalid_operand_bit))));
  (114, clear_flags);
  (115, (set_cwd invalid_operand_bit));
  (116, (throws (@sqr_rev binary64 ((fl binary64 (3) (0)), (fl binary64 (-1) (2))) ((fl binary64 (3) (0)), (fl binary64 (-1) (2)))) Invalid_operand_exception));
  (117, (bind get_flags (fun v1 => ret (N.eqb v1 invalid_operand_bit))));
  (118, clear_flags);
  (119, (set_cwd none_bit))].

(** lines 122-148 *)
Definition minimal_sqr_rev_mixedtype_test : list (N * M bool) := [
  (124, (bind (@sqr_rev1_mixed binary32 binary64 (@empty binary64)) (fun v1 => @is_empty binary32 v1)));
  (125, (bind (@sqr_rev1_mixed binary64 binary32 ((fl binary32 (-5) (1)), (fl binary32 (-1) (0)))) (fun v1 => @is_empty binary64 v1)));
  (126, (bind (@sqr_rev1_mixed binary32 binary64 ((@f0 binary64), (@finf binary64))) (fun v1 => ret (ieq v1 (@entire binary32)))));
  (127, (bind (@sqr_rev1_mixed binary32 binary64 ((@f0 binary64), (fl binary64 (1) (0)))) (fun v1 => ret (ieq v1 ((fl binary32 (-1) (0)), (fl binary32 (1) (0)))))));
  (128, (bind (@sqr_rev1_mixed binary32 binary64 ((fl binary64 (-1) (-1)), (fl binary64 (1) (0)))) (fun v1 => ret (ieq v1 ((fl binary32 (-1) (0)), (fl binary32 (1) (0)))))));
  (129, (bind (@sqr_rev1_mixed binary64 binary32 ((fl binary32 (-125) (3)), (fl binary32 (1) (0)))) (fun v1 => ret (ieq v1 ((fl binary64 (-1) (0)), (fl binary64 (1) (0)))))));
  (130, (bind (@sqr_rev1_mixed binary64 binary32 ((@f0 binary32), (fl binary32 (25) (0)))) (fun v1 => ret (ieq v1 ((fl binary64 (-5) (0)), (fl binary64 (5) (0)))))));
  (131, (bind (@sqr_rev1_mixed binary64 binary32 ((fl binary32 (-1) (0)), (fl binary32 (25) (0)))) (fun v1 => ret (ieq v1 ((fl binary64 (-5) (0)), (fl binary64 (5) (0)))))));
  (134, (bind (@sqr_rev1_mixed binary32 binary64 ((fl binary64 (5764607523034235) (-59)), (fl binary64 (1441151880758559) (-57)))) (fun v1 => ret (ieq v1 ((fl binary32 (-13421773) (-27)), (fl binary32 (13421773) (-27)))))));
  (135, (bind (@sqr_rev1_mixed binary64 binary32 ((@f0 binary32), (fl binary32 (16777215) (-22)))) (fun v1 => ret (ieq v1 ((fl binary64 (-2251799746576383) (-50)), (fl binary64 (2251799746576383) (-50)))))));
  (137, (bind get_flags (fun v1 => ret (N.eqb v1 none_bit))));
  (139, clear_flags);
  (140, (bind (@sqr_rev1_mixed binary32 binary64 ((fl binary64 (1) (0)), (fl binary64 (-9007199254740991) (971)))) (fun v1 => @is_empty binary32 v1)));
  (141, (bind get_flags (fun v1 => ret (N.eqb v1 invalid_operand_bit))));
  (142, clear_flags);
  (143, (set_cwd invalid_operand_bit));
  (144, (throws (@sqr_rev1_mixed binary64 binary32 ((fl binary32 (3) (0)), (fl binary32 (-1) (2)))) Invalid_operand_exception));
  (145, (bind get_flags (fun v1 => ret (N.eqb v1 invalid_operand_bit))));
  (146, clear_flags);
  (147, (set_cwd none_bit))].

(** lines 150-177 *)
Definition minimal_sqr_rev_bin_mixedtype_test : list (N * M bool) := [
  (152, (bind (@sqr_rev_mixed binary32 binary64 binary64 (@empty binary64) ((fl binary64 (-5) (0)), (fl binary64 (1) (0)))) (fun v1 => @is_empty binary32 v1)));
  (153, (bind (@sqr_rev_mixed binary64 binary32 binary64 ((fl binary32 (-5) (1)), (fl binary32 (-1) (0))) ((fl binary64 (-5) (0)), (fl binary64 (1) (0)))) (fun v1 => @is_empty binary64 v1)));
  (154, (bind (@sqr_rev_mixed binary32 binary64 binary32 ((@f0 binary64), (@finf binary64)) ((fl binary32 (-5) (0)), (fl binary32 (1) (0)))) (fun v1 => ret (ieq v1 ((fl binary32 (-5) (0)), (fl binary32 (1) (0)))))));
  (155, (bind (@sqr_rev_mixed binary32 binary64 binary32 ((@f0 binary64), (fl binary64 (1) (0))) ((fl binary32 (-13421773) (-27)), (fl binary32 (1) (0)))) (fun v1 => ret (ieq v1 ((fl binary32 (-13421773) (-27)), (fl binary32 (1) (0)))))));
  (156, (bind (@sqr_rev_mixed binary32 binary64 binary32 ((fl binary64 (-1) (-1)), (fl binary64 (1) (0))) ((fl binary32 (-13421773) (-27)), (fl binary32 (1) (0)))) (fun v1 => ret (ieq v1 ((fl binary32 (-13421773) (-27)), (fl binary32 (1) (0)))))));
  (157, (bind (@sqr_rev_mixed binary64 binary32 binary64 ((fl binary32 (-125) (3)), (fl binary32 (1) (0))) ((fl binary64 (-3602879701896397) (-55)), (fl binary64 (1) (0)))) (fun v1 => ret (ieq v1 ((fl binary64 (-3602879701896397) (-55)), (fl binary64 (1) (0)))))));
  (158, (bind (@sqr_rev_mixed binary64 binary32 binary64 ((@f0 binary32), (fl binary32 (25) (0))) ((fl binary64 (-2308094809027379) (-49)), (fl binary64 (3) (1)))) (fun v1 => ret (ieq v1 ((fl binary64 (-2308094809027379) (-49)), (fl binary64 (5) (0)))))));
  (159, (bind (@sqr_rev_mixed binary64 binary32 binary64 ((fl binary32 (-1) (0)), (fl binary32 (25) (0))) ((fl binary64 (-2308094809027379) (-49)), (fl binary64 (7) (0)))) (fun v1 => ret (ieq v1 ((fl binary64 (-2308094809027379) (-49)), (fl binary64 (5) (0)))))));
  (160, (bind (@sqr_rev_mixed binary64 binary32 binary64 ((fl binary32 (1) (0)), (fl binary32 (25) (0))) ((@f0 binary64), (fl binary64 (7) (0)))) (fun v1 => ret (ieq v1 ((fl binary64 (1) (0)), (fl binary64 (5) (0)))))));
  (163, (bind (@sqr_rev_mixed binary32 binary64 binary32 ((fl binary64 (5764607523034235) (-59)), (fl binary64 (1441151880758559) (-57))) ((fl binary32 (-13421773) (-27)), (@finf binary32))) (fun v1 => ret (ieq v1 ((fl binary32 (-13421773) (-27)), (fl binary32 (13421773) (-27)))))));
  (164, (bind (@sqr_rev_mixed binary64 binary32 binary64 ((@f0 binary32), (fl binary32 (16777215) (-22))) ((fl binary64 (-3602879701896397) (-55)), (@finf binary64))) (fun v1 => ret (ieq v1 ((fl binary64 (-3602879701896397) (-55)), (fl binary64 (2251799746576383) (-50)))))));
  (166, (bind get_flags (fun v1 => ret (N.eqb v1 none_bit))));
  (168, clear_flags);
  (169, (bind (@sqr_rev_mixed binary32 binary64 binary64 ((fl binary64 (1) (0)), (fl binary64 (-9007199254740991) (971))) ((fl binary64 (1) (0)), (fl binary64 (-9007199254740991) (971)))) (fun v1 => @is_empty binary32 v1)));
  (170, (bind get_flags (fun v1 => ret (N.eqb v1 invalid_operand_bit))));
  (171, clear_flags);
  (172, (set_cwd invalid_operand_bit));
  (173, (throws (@sqr_rev_mixed binary64 binary32 binary64 ((fl binary32 (3) (0)), (fl binary32 (-1) (2))) ((fl binary64 (3) (0)), (fl binary64 (-1) (2)))) Invalid_operand_exception));
  (174, (bind get_flags (fun v1 => ret (N.eqb v1 invalid_operand_bit))));
  (175, clear_flags);
  (176, (set_cwd none_bit))].

(** lines 179-205 *)
Definition minimal_sqr_rev_dec_test : list (N * M bool) := [
  (181, (bind (@sqr_rev1_dec binary64 (@empty_dec binary64)) (fun v1 => @is_empty_dec binary64 v1)));
  (182, (bind (@sqr_rev1_dec binary64 (((fl binary64 (-5) (1)), (fl binary64 (-1) (0))), com)) (fun v1 => @is_empty_dec binary64 v1)));
  (183, (bind (@sqr_rev1_dec binary64 (((@f0 binary64), (@finf binary64)), dac)) (fun v1 => ret (dieq v1 (((@fminf binary64), (@finf binary64)), trv)))));
  (184, (bind (@sqr_rev1_dec binary64 (((@f0 binary64), (fl binary64 (1) (0))), def)) (fun v1 => ret (dieq v1 (((fl binary64 (-1) (0)), (fl binary64 (1) (0))), trv)))));
  (185, (bind (@sqr_rev1_dec binary64 (((fl binary64 (-1) (-1)), (fl binary64 (1) (0))), dac)) (fun v1 => ret (dieq v1 (((fl binary64 (-1) (0)), (fl binary64 (1) (0))), trv)))));
  (186, (bind (@sqr_rev1_dec binary64 (((fl binary64 (-125) (3)), (fl binary64 (1) (0))), com)) (fun v1 => ret (dieq v1 (((fl binary64 (-1) (0)), (fl binary64 (1) (0))), trv)))));
  (187, (bind (@sqr_rev1_dec binary64 (((@f0 binary64), (fl binary64 (25) (0))), def)) (fun v1 => ret (dieq v1 (((fl binary64 (-5) (0)), (fl binary64 (5) (0))), trv)))));
  (188, (bind (@sqr_rev1_dec binary64 (((fl binary64 (-1) (0)), (fl binary64 (25) (0))), dac)) (fun v1 => ret (dieq v1 (((fl binary64 (-5) (0)), (fl binary64 (5) (0))), trv)))));
  (191, (bind (@sqr_rev1_dec binary64 (((fl binary64 (5764607523034235) (-59)), (fl binary64 (1441151880758559) (-57))), com)) (fun v1 => ret (dieq v1 (((fl binary64 (-7205759403792795) (-56)), (fl binary64 (7205759403792795) (-56))), trv)))));
  (192, (bind (@sqr_rev1_dec binary64 (((@f0 binary64), (fl binary64 (9007199254740961) (-51))), def)) (fun v1 => ret (dieq v1 (((fl binary64 (-9007199254740977) (-52)), (fl binary64 (9007199254740977) (-52))), trv)))));
  (194, (bind get_flags (fun v1 => ret (N.eqb v1 none_bit))));
  (196, clear_flags);
  (197, (bind (@sqr_rev1_dec binary64 (((fl binary64 (1) (0)), (fl binary64 (-9007199254740991) (971))), ill)) (fun v1 => @is_nai binary64 v1)));
  (198, (bind get_flags (fun v1 => ret (N.eqb v1 invalid_operand_bit))));
  (199, clear_flags);
  (200, (set_cwd invalid_operand_bit));
  (201, (throws (@sqr_rev1_dec binary64 (((fl binary64 (3) (0)), (fl binary64 (-1) (2))), trv)) Invalid_operand_exception));
  (202, (bind get_flags (fun v1 => ret (N.eqb v1 invalid_operand_bit))));
  (203, clear_flags);
  (204, (set_cwd none_bit))].

(** lines 207-234 *)
Definition minimal_sqr_rev_dec_bin_test : list (N * M bool) := [
  (209, (bind (@sqr_rev_dec binary64 (@empty_dec binary64) (((fl binary64 (-5) (0)), (fl binary64 (1) (0))), def)) (fun v1 => @is_empty_dec binary64 v1)));
  (210, (bind (@sqr_rev_dec binary64 (((fl binary64 (-5) (1)), (fl binary64 (-1) (0))), com) (((fl binary64 (-5) (0)), (fl binary64 (1) (0))), dac)) (fun v1 => @is_empty_dec binary64 v1)));
  (211, (bind (@sqr_rev_dec binary64 (((@f0 binary64), (@finf binary64)), def) (((fl binary64 (-5) (0)), (fl binary64 (1) (0))), dac)) (fun v1 => ret (dieq v1 (((fl binary64 (-5) (0)), (fl binary64 (1) (0))), trv)))));
  (212, (bind (@sqr_rev_dec binary64 (((@f0 binary64), (fl binary64 (1) (0))), dac) (((fl binary64 (-3602879701896397) (-55)), (fl binary64 (1) (0))), def)) (fun v1 => ret (dieq v1 (((fl binary64 (-3602879701896397) (-55)), (fl binary64 (1) (0))), trv)))));
  (213, (bind (@sqr_rev_dec binary64 (((fl binary64 (-1) (-1)), (fl binary64 (1) (0))), def) (((fl binary64 (-3602879701896397) (-55)), (fl binary64 (1) (0))), dac)) (fun v1 => ret (dieq v1 (((fl binary64 (-3602879701896397) (-55)), (fl binary64 (1) (0))), trv)))));
  (214, (bind (@sqr_rev_dec binary64 (((fl binary64 (-125) (3)), (fl binary64 (1) (0))), com) (((fl binary64 (-3602879701896397) (-55)), (fl binary64 (1) (0))), def)) (fun v1 => ret (dieq v1 (((fl binary64 (-3602879701896397) (-55)), (fl binary64 (1) (0))), trv)))));
  (215, (bind (@sqr_rev_dec binary64 (((@f0 binary64), (fl binary64 (25) (0))), def) (((fl binary64 (-2308094809027379) (-49)), (fl binary64 (3) (1))), com)) (fun v1 => ret (dieq v1 (((fl binary64 (-2308094809027379) (-49)), (fl binary64 (5) (0))), trv)))));
  (216, (bind (@sqr_rev_dec binary64 (((fl binary64 (-1) (0)), (fl binary64 (25) (0))), dac) (((fl binary64 (-2308094809027379) (-49)), (fl binary64 (7) (0))), def)) (fun v1 => ret (dieq v1 (((fl binary64 (-2308094809027379) (-49)), (fl binary64 (5) (0))), trv)))));
  (217, (bind (@sqr_rev_dec binary64 (((fl binary64 (1) (0)), (fl binary64 (25) (0))), dac) (((@f0 binary64), (fl binary64 (7) (0))), def)) (fun v1 => ret (dieq v1 (((fl binary64 (1) (0)), (fl binary64 (5) (0))), trv)))));
  (220, (bind (@sqr_rev_dec binary64 (((fl binary64 (5764607523034235) (-59)), (fl binary64 (1441151880758559) (-57))), def) (((fl binary64 (-3602879701896397) (-55)), (@finf binary64)), dac)) (fun v1 => ret (dieq v1 (((fl binary64 (-3602879701896397) (-55)), (fl binary64 (7205759403792795) (-56))), trv)))));
  (221, (bind (@sqr_rev_dec binary64 (((@f0 binary64), (fl binary64 (9007199254740961) (-51))), dac) (((fl binary64 (-3602879701896397) (-55)), (@finf binary64)), dac)) (fun v1 => ret (dieq v1 (((fl binary64 (-3602879701896397) (-55)), (fl binary64 (9007199254740977) (-52))), trv)))));
  (223, (bind get_flags (fun v1 => ret (N.eqb v1 none_bit))));
  (225, clear_flags);
  (226, (bind (@sqr_rev_dec binary64 (((fl binary64 (1) (0)), (fl binary64 (-9007199254740991) (971))), ill) (((fl binary64 (1) (0)), (fl binary64 (-9007199254740991) (971))), trv)) (fun v1 => @is_nai binary64 v1)));
  (227, (bind get_flags (fun v1 => ret (N.eqb v1 invalid_operand_bit))));
  (228, clear_flags);
  (229, (set_cwd invalid_operand_bit));
  (230, (throws (@sqr_rev_dec binary64 (((fl binary64 (3) (0)), (fl binary64 (-1) (2))), def) (((fl binary64 (3) (0)), (fl binary64 (-1) (2))), trv)) Invalid_operand_exception));
  (231, (bind get_flags (fun v1 => ret (N.eqb v1 invalid_operand_bit))));
  (232, clear_flags);
  (233, (set_cwd none_bit))].

(** lines 236-262 *)
Definition minimal_sqr_rev_dec_mixedtype_test : list (N * M bool) := [
  (238, (bind (@sqr_rev1_dec_mixed binary32 binary64 (@empty_dec binary64)) (fun v1 => @is_empty_dec binary32 v1)));
  (239, (bind (@sqr_rev1_dec_mixed binary64 binary32 (((fl binary32 (-5) (1)), (fl binary32 (-1) (0))), def)) (fun v1 => @is_empty_dec binary64 v1)));
  (240, (bind (@sqr_rev1_dec_mixed binary32 binary64 (((@f0 binary64), (@finf binary64)), dac)) (fun v1 => ret (dieq v1 (((@fminf binary32), (@finf binary32)), trv)))));
  (241, (bind (@sqr_rev1_dec_mixed binary32 binary64 (((@f0 binary64), (fl binary64 (1) (0))), def)) (fun v1 => ret (dieq v1 (((fl binary32 (-1) (0)), (fl binary32 (1) (0))), trv)))));
  (242, (bind (@sqr_rev1_dec_mixed binary32 binary64 (((fl binary64 (-1) (-1)), (fl binary64 (1) (0))), com)) (fun v1 => ret (dieq v1 (((fl binary32 (-1) (0)), (fl binary32 (1) (0))), trv)))));
  (243, (bind (@sqr_rev1_dec_mixed binary64 binary32 (((fl binary32 (-125) (3)), (fl binary32 (1) (0))), def)) (fun v1 => ret (dieq v1 (((fl binary64 (-1) (0)), (fl binary64 (1) (0))), trv)))));
  (244, (bind (@sqr_rev1_dec_mixed binary64 binary32 (((@f0 binary32), (fl binary32 (25) (0))), dac)) (fun v1 => ret (dieq v1 (((fl binary64 (-5) (0)), (fl binary64 (5) (0))), trv)))));
  (245, (bind (@sqr_rev1_dec_mixed binary64 binary32 (((fl binary32 (-1) (0)), (fl binary32 (25) (0))), def)) (fun v1 => ret (dieq v1 (((fl binary64 (-5) (0)), (fl binary64 (5) (0))), trv)))));
  (248, (bind (@sqr_rev1_dec_mixed binary32 binary64 (((fl binary64 (5764607523034235) (-59)), (fl binary64 (1441151880758559) (-57))), def)) (fun v1 => ret (dieq v1 (((fl binary32 (-13421773) (-27)), (fl binary32 (13421773) (-27))), trv)))));
  (249, (bind (@sqr_rev1_dec_mixed binary64 binary32 (((@f0 binary32), (fl binary32 (16777215) (-22))), com)) (fun v1 => ret (dieq v1 (((fl binary64 (-2251799746576383) (-50)), (fl binary64 (2251799746576383) (-50))), trv)))));
  (251, (bind get_flags (fun v1 => ret (N.eqb v1 none_bit))));
  (253, clear_flags);
  (254, (bind (@sqr_rev1_dec_mixed binary32 binary64 (((fl binary64 (1) (0)), (fl binary64 (-9007199254740991) (971))), def)) (fun v1 => @is_nai binary32 v1)));
  (255, (bind get_flags (fun v1 => ret (N.eqb v1 invalid_operand_bit))));
  (256, clear_flags);
  (257, (set_cwd invalid_operand_bit));
  (258, (throws (@sqr_rev1_dec_mixed binary64 binary32 (((fl binary32 (3) (0)), (fl binary32 (-1) (2))), trv)) Invalid_operand_exception));
  (259, (bind get_flags (fun v1 => ret (N.eqb v1 invalid_operand_bit))));
  (260, clear_flags);
  (261, (set_cwd none_bit))].

(** lines 264-291 *)
Definition minimal_sqr_rev_dec_bin_mixedtype_test : list (N * M bool) := [
  (266, (bind (@sqr_rev_dec_mixed binary32 binary64 binary64 (@empty_dec binary64) (((fl binary64 (-5) (0)), (fl binary64 (1) (0))), def)) (fun v1 => @is_empty_dec binary32 v1)));
  (267, (bind (@sqr_rev_dec_mixed binary64 binary32 binary64 (((fl binary32 (-5) (1)), (fl binary32 (-1) (0))), dac) (((fl binary64 (-5) (0)), (fl binary64 (1) (0))), def)) (fun v1 => @is_empty_dec binary64 v1)));
  (268, (bind (@sqr_rev_dec_mixed binary32 binary64 binary32 (((@f0 binary64), (@finf binary64)), dac) (((fl binary32 (-5) (0)), (fl binary32 (1) (0))), dac)) (fun v1 => ret (dieq v1 (((fl binary32 (-5) (0)), (fl binary32 (1) (0))), trv)))));
  (269, (bind (@sqr_rev_dec_mixed binary32 binary64 binary32 (((@f0 binary64), (fl binary64 (1) (0))), com) (((fl binary32 (-13421773) (-27)), (fl binary32 (1) (0))), dac)) (fun v1 => ret (dieq v1 (((fl binary32 (-13421773) (-27)), (fl binary32 (1) (0))), trv)))));
  (270, (bind (@sqr_rev_dec_mixed binary32 binary64 binary32 (((fl binary64 (-1) (-1)), (fl binary64 (1) (0))), def) (((fl binary32 (-13421773) (-27)), (fl binary32 (1) (0))), def)) (fun v1 => ret (dieq v1 (((fl binary32 (-13421773) (-27)), (fl binary32 (1) (0))), trv)))));
  (271, (bind (@sqr_rev_dec_mixed binary64 binary32 binary64 (((fl binary32 (-125) (3)), (fl binary32 (1) (0))), def) (((fl binary64 (-3602879701896397) (-55)), (fl binary64 (1) (0))), com)) (fun v1 => ret (dieq v1 (((fl binary64 (-3602879701896397) (-55)), (fl binary64 (1) (0))), trv)))));
  (272, (bind (@sqr_rev_dec_mixed binary64 binary32 binary64 (((@f0 binary32), (fl binary32 (25) (0))), dac) (((fl binary64 (-2308094809027379) (-49)), (fl binary64 (3) (1))), com)) (fun v1 => ret (dieq v1 (((fl binary64 (-2308094809027379) (-49)), (fl binary64 (5) (0))), trv)))));
  (273, (bind (@sqr_rev_dec_mixed binary64 binary32 binary64 (((fl binary32 (-1) (0)), (fl binary32 (25) (0))), dac) (((fl binary64 (-2308094809027379) (-49)), (fl binary64 (7) (0))), def)) (fun v1 => ret (dieq v1 (((fl binary64 (-2308094809027379) (-49)), (fl binary64 (5) (0))), trv)))));
  (274, (bind (@sqr_rev_dec_mixed binary64 binary32 binary64 (((fl binary32 (1) (0)), (fl binary32 (25) (0))), dac) (((@f0 binary64), (fl binary64 (7) (0))), def)) (fun v1 => ret (dieq v1 (((fl binary64 (1) (0)), (fl binary64 (5) (0))), trv)))));
  (277, (bind (@sqr_rev_dec_mixed binary32 binary64 binary32 (((fl binary64 (5764607523034235) (-59)), (fl binary64 (1441151880758559) (-57))), dac) (((fl binary32 (-13421773) (-27)), (@finf binary32)), dac)) (fun v1 => ret (dieq v1 (((fl binary32 (-13421773) (-27)), (fl binary32 (13421773) (-27))), trv)))));
  (278, (bind (@sqr_rev_dec_mixed binary64 binary32 binary64 (((@f0 binary32), (fl binary32 (16777215) (-22))), dac) (((fl binary64 (-3602879701896397) (-55)), (@finf binary64)), def)) (fun v1 => ret (dieq v1 (((fl binary64 (-3602879701896397) (-55)), (fl binary64 (2251799746576383) (-50))), trv)))));
  (280, (bind get_flags (fun v1 => ret (N.eqb v1 none_bit))));
  (282, clear_flags);
  (283, (bind (@sqr_rev_dec_mixed binary32 binary64 binary64 (((fl binary64 (1) (0)), (fl binary64 (-9007199254740991) (971))), def) (((fl binary64 (1) (0)), (fl binary64 (-9007199254740991) (971))), trv)) (fun v1 => @is_nai binary32 v1)));
  (284, (bind get_flags (fun v1 => ret (N.eqb v1 invalid_operand_bit))));
  (285, clear_flags);
  (286, (set_cwd invalid_operand_bit));
  (287, (throws (@sqr_rev_dec_mixed binary64 binary32 binary64 (((fl binary32 (3) (0)), (fl binary32 (-1) (2))), trv) (((fl binary64 (3) (0)), (fl binary64 (-1) (2))), com)) Invalid_operand_exception));
  (288, (bind get_flags (fun v1 => ret (N.eqb v1 invalid_operand_bit))));
  (289, clear_flags);
  (290, (set_cwd none_bit))].

(** lines 294-315 *)
Definition minimal_abs_rev_test : list (N * M bool) := [
  (296, (bind (@abs_rev1 binary64 (@empty binary64)) (fun v1 => @is_empty binary64 v1)));
  (297, (bind (@abs_rev1 binary64 ((fl binary64 (-2476979795053773) (-51)), (fl binary64 (-3602879701896397) (-53)))) (fun v1 => @is_empty binary64 v1)));
  (298, (bind (@abs_rev1 binary64 ((@f0 binary64), (@finf binary64))) (fun v1 => ret (ieq v1 (@entire binary64)))));
  (299, (bind (@abs_rev1 binary64 ((fl binary64 (2476979795053773) (-51)), (fl binary64 (4728779608739021) (-51)))) (fun v1 => ret (ieq v1 ((fl binary64 (-4728779608739021) (-51)), (fl binary64 (4728779608739021) (-51)))))));
  (300, (bind (@abs_rev1 binary64 ((fl binary64 (-2476979795053773) (-51)), (fl binary64 (1) (1)))) (fun v1 => ret (ieq v1 ((fl binary64 (-1) (1)), (fl binary64 (1) (1)))))));
  (301, (bind (@abs_rev1 binary64 ((fl binary64 (-2476979795053773) (-51)), (@f0 binary64))) (fun v1 => ret (ieq v1 ((@f0 binary64), (@f0 binary64))))));
  (302, (bind (@abs_rev1 binary64 ((fl binary64 (-4278419646001971) (-51)), (fl binary64 (3602879701896397) (-54)))) (fun v1 => ret (ieq v1 ((fl binary64 (-3602879701896397) (-54)), (fl binary64 (3602879701896397) (-54)))))));
  (303, (bind (@abs_rev1 binary64 ((@f0 binary64), (fl binary64 (3602879701896397) (-54)))) (fun v1 => ret (ieq v1 ((fl binary64 (-3602879701896397) (-54)), (fl binary64 (3602879701896397) (-54)))))));
  (304, (bind (@abs_rev1 binary64 ((fl binary64 (-3) (-1)), (@finf binary64))) (fun v1 => ret (ieq v1 ((@fminf binary64), (@finf binary64))))));
  (306, clear_flags);
  (307, (bind (@abs_rev1 binary64 ((fl binary64 (1) (0)), (fl binary64 (-9007199254740991) (971)))) (fun v1 => @is_empty binary64 v1)));
  (308, (bind get_flags (fun v1 => ret (N.eqb v1 invalid_operand_bit))));
  (309, clear_flags);
  (310, (set_cwd invalid_operand_bit));
  (311, (throws (@abs_rev1 binary64 ((fl binary64 (1) (0)), (fl binary64 (-3) (0)))) Invalid_operand_exception));
  (312, (bind get_flags (fun v1 => ret (N.eqb v1 invalid_operand_bit))));
  (313, clear_flags);
  (314, (set_cwd none_bit))].

(** lines 318-337 *)
Definition minimal_abs_rev_bin_test : list (N * M bool) := [
  (320, (bind (@abs_rev binary64 (@empty binary64) ((fl binary64 (-2476979795053773) (-51)), (fl binary64 (5) (0)))) (fun v1 => @is_empty binary64 v1)));
  (321, (bind (@abs_rev binary64 ((fl binary64 (-2476979795053773) (-51)), (fl binary64 (-3602879701896397) (-53))) ((fl binary64 (-2476979795053773) (-51)), (fl binary64 (5) (0)))) (fun v1 => @is_empty binary64 v1)));
  (322, (bind (@abs_rev binary64 ((@f0 binary64), (@finf binary64)) ((fl binary64 (-2476979795053773) (-51)), (fl binary64 (5) (0)))) (fun v1 => ret (ieq v1 ((fl binary64 (-2476979795053773) (-51)), (fl binary64 (5) (0)))))));
  (323, (bind (@abs_rev binary64 ((fl binary64 (2476979795053773) (-51)), (fl binary64 (4728779608739021) (-51))) ((fl binary64 (-1) (0)), (fl binary64 (5) (0)))) (fun v1 => ret (ieq v1 ((fl binary64 (2476979795053773) (-51)), (fl binary64 (4728779608739021) (-51)))))));
  (324, (bind (@abs_rev binary64 ((fl binary64 (-2476979795053773) (-51)), (fl binary64 (1) (1))) ((fl binary64 (-2476979795053773) (-51)), (fl binary64 (5) (0)))) (fun v1 => ret (ieq v1 ((fl binary64 (-2476979795053773) (-51)), (fl binary64 (1) (1)))))));
  (325, (bind (@abs_rev binary64 ((fl binary64 (-2476979795053773) (-51)), (@f0 binary64)) ((fl binary64 (-2476979795053773) (-51)), (fl binary64 (5) (0)))) (fun v1 => ret (ieq v1 ((@f0 binary64), (@f0 binary64))))));
  (326, (bind (@abs_rev binary64 ((fl binary64 (-4278419646001971) (-51)), (fl binary64 (3602879701896397) (-54))) ((fl binary64 (-2476979795053773) (-51)), (fl binary64 (5) (0)))) (fun v1 => ret (ieq v1 ((fl binary64 (-3602879701896397) (-54)), (fl binary64 (3602879701896397) (-54)))))));
  (328, clear_flags);
  (329, (bind (@abs_rev binary64 ((fl binary64 (1) (0)), (fl binary64 (-9007199254740991) (971))) ((fl binary64 (-2476979795053773) (-51)), (fl binary64 (5) (0)))) (fun v1 => @is_empty binary64 v1)));
  (330, (bind get_flags (fun v1 => ret (N.eqb v1 invalid_operand_bit))));
  (331, clear_flags);
  (332, (set_cwd invalid_operand_bit));
  (333, (throws (@abs_rev binary64 ((fl binary64 (1) (0)), (fl binary64 (-3) (0))) ((fl binary64 (-2476979795053773) (-51)), (fl binary64 (5) (0)))) Invalid_operand_exception));
  (334, (bind get_flags (fun v1 => ret (N.eqb v1 invalid_operand_bit))));
  (335, clear_flags);
  (336, (set_cwd none_bit))].

(** lines 340-361 *)
Definition minimal_abs_rev_mixedtype_test : list (N * M bool) := [
  (342, (bind (@abs_rev1_mixed binary32 binary64 (@empty binary64)) (fun v1 => @is_empty binary32 v1)));
  (343, (bind (@abs_rev1_mixed binary64 binary32 ((fl binary32 (-9227469) (-23)), (fl binary32 (-13421773) (-25)))) (fun v1 => @is_empty binary64 v1)));
  (344, (bind (@abs_rev1_mixed binary64 binary32 ((@f0 binary32), (@finf binary32))) (fun v1 => ret (ieq v1 (@entire binary64)))));
  (345, (bind (@abs_rev1_mixed binary64 binary32 ((fl binary32 (9227469) (-23)), (fl binary32 (4404019) (-21)))) (fun v1 => ret (ieq v1 ((fl binary64 (-4404019) (-21)), (fl binary64 (4404019) (-21)))))));
  (346, (bind (@abs_rev1_mixed binary64 binary32 ((fl binary32 (-9227469) (-23)), (fl binary32 (1) (1)))) (fun v1 => ret (ieq v1 ((fl binary64 (-1) (1)), (fl binary64 (1) (1)))))));
  (347, (bind (@abs_rev1_mixed binary32 binary64 ((fl binary64 (-2476979795053773) (-51)), (@f0 binary64))) (fun v1 => ret (ieq v1 ((@f0 binary32), (@f0 binary32))))));
  (348, (bind (@abs_rev1_mixed binary32 binary64 ((fl binary64 (-4278419646001971) (-51)), (fl binary64 (3602879701896397) (-54)))) (fun v1 => ret (ieq v1 ((fl binary32 (-13421773) (-26)), (fl binary32 (13421773) (-26)))))));
  (349, (bind (@abs_rev1_mixed binary32 binary64 ((@f0 binary64), (fl binary64 (3602879701896397) (-54)))) (fun v1 => ret (ieq v1 ((fl binary32 (-13421773) (-26)), (fl binary32 (13421773) (-26)))))));
  (350, (bind (@abs_rev1_mixed binary32 binary64 ((fl binary64 (-3) (-1)), (@finf binary64))) (fun v1 => ret (ieq v1 ((@fminf binary32), (@finf binary32))))));
  (352, clear_flags);
  (353, (bind (@abs_rev1_mixed binary32 binary64 ((fl binary64 (1) (0)), (fl binary64 (-9007199254740991) (971)))) (fun v1 => @is_empty binary32 v1)));
  (354, (bind get_flags (fun v1 => ret (N.eqb v1 invalid_operand_bit))));
  (355, clear_flags);
  (356, (set_cwd invalid_operand_bit));
  (357, (throws (@abs_rev1_mixed binary64 binary32 ((fl binary32 (1) (0)), (fl binary32 (-3) (0)))) Invalid_operand_exception));
  (358, (bind get_flags (fun v1 => ret (N.eqb v1 invalid_operand_bit))));
  (359, clear_flags);
  (360, (set_cwd none_bit))].

(** lines 364-383 *)
Definition minimal_abs_rev_bin_mixedtype_test : list (N * M bool) := [
  (366, (bind (@abs_rev_mixed binary32 binary64 binary64 (@empty binary64) ((fl binary64 (-2476979795053773) (-51)), (fl binary64 (5) (0)))) (fun v1 => @is_empty binary32 v1)));
  (367, (bind (@abs_rev_mixed binary64 binary32 binary32 ((fl binary32 (-9227469) (-23)), (fl binary32 (-13421773) (-25))) ((fl binary32 (-1) (0)), (fl binary32 (5) (0)))) (fun v1 => @is_empty binary64 v1)));
  (368, (bind (@abs_rev_mixed binary64 binary32 binary64 ((@f0 binary32), (@finf binary32)) ((fl binary64 (-2476979795053773) (-51)), (fl binary64 (5) (0)))) (fun v1 => ret (ieq v1 ((fl binary64 (-2476979795053773) (-51)), (fl binary64 (5) (0)))))));
  (369, (bind (@abs_rev_mixed binary64 binary32 binary64 ((fl binary32 (9227469) (-23)), (fl binary32 (4404019) (-21))) ((fl binary64 (-2476979795053773) (-51)), (fl binary64 (5) (0)))) (fun v1 => ret (ieq v1 ((fl binary64 (9227469) (-23)), (fl binary64 (4404019) (-21)))))));
  (370, (bind (@abs_rev_mixed binary64 binary32 binary64 ((fl binary32 (-9227469) (-23)), (fl binary32 (1) (1))) ((fl binary64 (-2476979795053773) (-51)), (fl binary64 (5) (0)))) (fun v1 => ret (ieq v1 ((fl binary64 (-2476979795053773) (-51)), (fl binary64 (1) (1)))))));
  (371, (bind (@abs_rev_mixed binary32 binary64 binary64 ((fl binary64 (-2476979795053773) (-51)), (@f0 binary64)) ((fl binary64 (-2476979795053773) (-51)), (fl binary64 (5) (0)))) (fun v1 => ret (ieq v1 ((@f0 binary32), (@f0 binary32))))));
  (372, (bind (@abs_rev_mixed binary32 binary64 binary64 ((fl binary64 (-4278419646001971) (-51)), (fl binary64 (3602879701896397) (-54))) ((fl binary64 (-2476979795053773) (-51)), (fl binary64 (5) (0)))) (fun v1 => ret (ieq v1 ((fl binary32 (-13421773) (-26)), (fl binary32 (13421773) (-26)))))));
  (374, clear_flags);
  (375, (bind (@abs_rev_mixed binary32 binary64 binary64 ((fl binary64 (1) (0)), (fl binary64 (-9007199254740991) (971))) ((fl binary64 (-2476979795053773) (-51)), (fl binary64 (5) (0)))) (fun v1 => @is_empty binary32 v1)));
  (376, (bind get_flags (fun v1 => ret (N.eqb v1 invalid_operand_bit))));
  (377, clear_flags);
  (378, (set_cwd invalid_operand_bit));
  (379, (throws (@abs_rev_mixed binary64 binary32 binary64 ((fl binary32 (1) (0)), (fl binary32 (-3) (0))) ((fl binary64 (-2476979795053773) (-51)), (fl binary64 (5) (0)))) Invalid_operand_exception));
  (380, (bind get_flags (fun v1 => ret (N.eqb v1 invalid_operand_bit))));
  (381, clear_flags);
  (382, (set_cwd none_bit))].

(** lines 387-408 *)
Definition minimal_abs_rev_dec_test : list (N * M bool) := [
  (389, (bind (@abs_rev1_dec binary64 (@empty_dec binary64)) (fun v1 => @is_empty_dec binary64 v1)));
  (390, (bind (@abs_rev1_dec binary64 (((fl binary64 (-2476979795053773) (-51)), (fl binary64 (-3602879701896397) (-53))), dac)) (fun v1 => @is_empty_dec binary64 v1)));
  (391, (bind (@abs_rev1_dec binary64 (((@f0 binary64), (@finf binary64)), dac)) (fun v1 => ret (dieq v1 (((@fminf binary64), (@finf binary64)), trv)))));
  (392, (bind (@abs_rev1_dec binary64 (((fl binary64 (2476979795053773) (-51)), (fl binary64 (4728779608739021) (-51))), com)) (fun v1 => ret (dieq v1 (((fl binary64 (-4728779608739021) (-51)), (fl binary64 (4728779608739021) (-51))), trv)))));
  (393, (bind (@abs_rev1_dec binary64 (((fl binary64 (-2476979795053773) (-51)), (fl binary64 (1) (1))), def)) (fun v1 => ret (dieq v1 (((fl binary64 (-1) (1)), (fl binary64 (1) (1))), trv)))));
  (394, (bind (@abs_rev1_dec binary64 (((fl binary64 (-2476979795053773) (-51)), (@f0 binary64)), dac)) (fun v1 => ret (dieq v1 (((@f0 binary64), (@f0 binary64)), trv)))));
  (395, (bind (@abs_rev1_dec binary64 (((fl binary64 (-4278419646001971) (-51)), (fl binary64 (3602879701896397) (-54))), com)) (fun v1 => ret (dieq v1 (((fl binary64 (-3602879701896397) (-54)), (fl binary64 (3602879701896397) (-54))), trv)))));
  (396, (bind (@abs_rev1_dec binary64 (((@f0 binary64), (fl binary64 (3602879701896397) (-54))), def)) (fun v1 => ret (dieq v1 (((fl binary64 (-3602879701896397) (-54)), (fl binary64 (3602879701896397) (-54))), trv)))));
  (397, (bind (@abs_rev1_dec binary64 (((fl binary64 (-3) (-1)), (@finf binary64)), def)) (fun v1 => ret (dieq v1 (((@fminf binary64), (@finf binary64)), trv)))));
  (399, clear_flags);
  (400, (bind (@abs_rev1_dec binary64 (((fl binary64 (1) (0)), (fl binary64 (-9007199254740991) (971))), trv)) (fun v1 => @is_nai binary64 v1)));
  (401, (bind get_flags (fun v1 => ret (N.eqb v1 invalid_operand_bit))));
  (402, clear_flags);
  (403, (set_cwd invalid_operand_bit));
  (404, (throws (@abs_rev1_dec binary64 (((fl binary64 (1) (0)), (fl binary64 (-3) (0))), dac)) Invalid_operand_exception));
  (405, (bind get_flags (fun v1 => ret (N.eqb v1 invalid_operand_bit))));
  (406, clear_flags);
  (407, (set_cwd none_bit))].

(** lines 411-430 *)
Definition minimal_abs_rev_dec_bin_test : list (N * M bool) := [
  (413, (bind (@abs_rev_dec binary64 (@empty_dec binary64) (((fl binary64 (-2476979795053773) (-51)), (fl binary64 (5) (0))), com)) (fun v1 => @is_empty_dec binary64 v1)));
  (414, (bind (@abs_rev_dec binary64 (((fl binary64 (-2476979795053773) (-51)), (fl binary64 (-3602879701896397) (-53))), dac) (((fl binary64 (-2476979795053773) (-51)), (fl binary64 (5) (0))), dac)) (fun v1 => @is_empty_dec binary64 v1)));
  (415, (bind (@abs_rev_dec binary64 (((@f0 binary64), (@finf binary64)), def) (((fl binary64 (-2476979795053773) (-51)), (fl binary64 (5) (0))), def)) (fun v1 => ret (dieq v1 (((fl binary64 (-2476979795053773) (-51)), (fl binary64 (5) (0))), trv)))));
  (416, (bind (@abs_rev_dec binary64 (((fl binary64 (2476979795053773) (-51)), (fl binary64 (4728779608739021) (-51))), dac) (((fl binary64 (-1) (0)), (fl binary64 (5) (0))), def)) (fun v1 => ret (dieq v1 (((fl binary64 (2476979795053773) (-51)), (fl binary64 (4728779608739021) (-51))), trv)))));
  (417, (bind (@abs_rev_dec binary64 (((fl binary64 (-2476979795053773) (-51)), (fl binary64 (1) (1))), com) (((fl binary64 (-2476979795053773) (-51)), (fl binary64 (5) (0))), def)) (fun v1 => ret (dieq v1 (((fl binary64 (-2476979795053773) (-51)), (fl binary64 (1) (1))), trv)))));
  (418, (bind (@abs_rev_dec binary64 (((fl binary64 (-2476979795053773) (-51)), (@f0 binary64)), def) (((fl binary64 (-2476979795053773) (-51)), (fl binary64 (5) (0))), def)) (fun v1 => ret (dieq v1 (((@f0 binary64), (@f0 binary64)), trv)))));
  (419, (bind (@abs_rev_dec binary64 (((fl binary64 (-4278419646001971) (-51)), (fl binary64 (3602879701896397) (-54))), dac) (((fl binary64 (-2476979795053773) (-51)), (fl binary64 (5) (0))), def)) (fun v1 => ret (dieq v1 (((fl binary64 (-3602879701896397) (-54)), (fl binary64 (3602879701896397) (-54))), trv)))));
  (421, clear_flags);
  (422, (bind (@abs_rev_dec binary64 (((fl binary64 (1) (0)), (fl binary64 (-9007199254740991) (971))), dac) (((fl binary64 (-2476979795053773) (-51)), (fl binary64 (5) (0))), def)) (fun v1 => @is_nai binary64 v1)));
  (423, (bind get_flags (fun v1 => ret (N.eqb v1 invalid_operand_bit))));
  (424, clear_flags);
  (425, (set_cwd invalid_operand_bit));
  (426, (throws (@abs_rev_dec binary64 (((fl binary64 (1) (0)), (fl binary64 (-3) (0))), trv) (((fl binary64 (-2476979795053773) (-51)), (fl binary64 (5) (0))), com)) Invalid_operand_exception));
  (427, (bind get_flags (fun v1 => ret (N.eqb v1 invalid_operand_bit))));
  (428, clear_flags);
  (429, (set_cwd none_bit))].

(** lines 433-454 *)
Definition minimal_abs_rev_dec_mixedtype_test : list (N * M bool) := [
  (435, (bind (@abs_rev1_dec_mixed binary32 binary64 (@empty_dec binary64)) (fun v1 => @is_empty_dec binary32 v1)));
  (436, (bind (@abs_rev1_dec_mixed binary64 binary32 (((fl binary32 (-9227469) (-23)), (fl binary32 (-13421773) (-25))), def)) (fun v1 => @is_empty_dec binary64 v1)));
  (437, (bind (@abs_rev1_dec_mixed binary64 binary32 (((@f0 binary32), (@finf binary32)), dac)) (fun v1 => ret (dieq v1 (((@fminf binary64), (@finf binary64)), trv)))));
  (438, (bind (@abs_rev1_dec_mixed binary64 binary32 (((fl binary32 (9227469) (-23)), (fl binary32 (4404019) (-21))), def)) (fun v1 => ret (dieq v1 (((fl binary64 (-4404019) (-21)), (fl binary64 (4404019) (-21))), trv)))));
  (439, (bind (@abs_rev1_dec_mixed binary64 binary32 (((fl binary32 (-9227469) (-23)), (fl binary32 (1) (1))), com)) (fun v1 => ret (dieq v1 (((fl binary64 (-1) (1)), (fl binary64 (1) (1))), trv)))));
  (440, (bind (@abs_rev1_dec_mixed binary32 binary64 (((fl binary64 (-2476979795053773) (-51)), (@f0 binary64)), dac)) (fun v1 => ret (dieq v1 (((@f0 binary32), (@f0 binary32)), trv)))));
  (441, (bind (@abs_rev1_dec_mixed binary32 binary64 (((fl binary64 (-4278419646001971) (-51)), (fl binary64 (3602879701896397) (-54))), def)) (fun v1 => ret (dieq v1 (((fl binary32 (-13421773) (-26)), (fl binary32 (13421773) (-26))), trv)))));
  (442, (bind (@abs_rev1_dec_mixed binary32 binary64 (((@f0 binary64), (fl binary64 (3602879701896397) (-54))), com)) (fun v1 => ret (dieq v1 (((fl binary32 (-13421773) (-26)), (fl binary32 (13421773) (-26))), trv)))));
  (443, (bind (@abs_rev1_dec_mixed binary32 binary64 (((fl binary64 (-3) (-1)), (@finf binary64)), dac)) (fun v1 => ret (dieq v1 (((@fminf binary32), (@finf binary32)), trv)))));
  (445, clear_flags);
  (446, (bind (@abs_rev1_dec_mixed binary32 binary64 (((fl binary64 (1) (0)), (fl binary64 (-9007199254740991) (971))), def)) (fun v1 => @is_nai binary32 v1)));
  (447, (bind get_flags (fun v1 => ret (N.eqb v1 invalid_operand_bit))));
  (448, clear_flags);
  (449, (set_cwd invalid_operand_bit));
  (450, (throws (@abs_rev1_dec_mixed binary64 binary32 (((fl binary32 (1) (0)), (fl binary32 (-3) (0))), dac)) Invalid_operand_exception));
  (451, (bind get_flags (fun v1 => ret (N.eqb v1 invalid_operand_bit))));
  (452, clear_flags);
  (453, (set_cwd none_bit))].

(** lines 457-476 *)
Definition minimal_abs_rev_dec_bin_mixedtype_test : list (N * M bool) := [
  (459, (bind (@abs_rev_dec_mixed binary32 binary64 binary64 (@empty_dec binary64) (((fl binary64 (-2476979795053773) (-51)), (fl binary64 (5) (0))), trv)) (fun v1 => @is_empty_dec binary32 v1)));
  (460, (bind (@abs_rev_dec_mixed binary64 binary32 binary32 (((fl binary32 (-9227469) (-23)), (fl binary32 (-13421773) (-25))), def) (((fl binary32 (-1) (0)), (fl binary32 (5) (0))), dac)) (fun v1 => @is_empty_dec binary64 v1)));
  (461, (bind (@abs_rev_dec_mixed binary64 binary32 binary64 (((@f0 binary32), (@finf binary32)), dac) (((fl binary64 (-2476979795053773) (-51)), (fl binary64 (5) (0))), def)) (fun v1 => ret (dieq v1 (((fl binary64 (-2476979795053773) (-51)), (fl binary64 (5) (0))), trv)))));
  (462, (bind (@abs_rev_dec_mixed binary64 binary32 binary64 (((fl binary32 (9227469) (-23)), (fl binary32 (4404019) (-21))), def) (((fl binary64 (-2476979795053773) (-51)), (fl binary64 (5) (0))), def)) (fun v1 => ret (dieq v1 (((fl binary64 (9227469) (-23)), (fl binary64 (4404019) (-21))), trv)))));
  (463, (bind (@abs_rev_dec_mixed binary64 binary32 binary64 (((fl binary32 (-9227469) (-23)), (fl binary32 (1) (1))), def) (((fl binary64 (-2476979795053773) (-51)), (fl binary64 (5) (0))), dac)) (fun v1 => ret (dieq v1 (((fl binary64 (-2476979795053773) (-51)), (fl binary64 (1) (1))), trv)))));
  (464, (bind (@abs_rev_dec_mixed binary32 binary64 binary64 (((fl binary64 (-2476979795053773) (-51)), (@f0 binary64)), com) (((fl binary64 (-2476979795053773) (-51)), (fl binary64 (5) (0))), dac)) (fun v1 => ret (dieq v1 (((@f0 binary32), (@f0 binary32)), trv)))));
  (465, (bind (@abs_rev_dec_mixed binary32 binary64 binary64 (((fl binary64 (-4278419646001971) (-51)), (fl binary64 (3602879701896397) (-54))), com) (((fl binary64 (-2476979795053773) (-51)), (fl binary64 (5) (0))), com)) (fun v1 => ret (dieq v1 (((fl binary32 (-13421773) (-26)), (fl binary32 (13421773) (-26))), trv)))));
  (467, clear_flags);
  (468, (bind (@abs_rev_dec_mixed binary32 binary64 binary64 (((fl binary64 (1) (0)), (fl binary64 (-9007199254740991) (971))), def) (((fl binary64 (-2476979795053773) (-51)), (fl binary64 (5) (0))), trv)) (fun v1 => @is_nai binary32 v1)));
  (469, (bind get_flags (fun v1 => ret (N.eqb v1 invalid_operand_bit))));
  (470, clear_flags);
  (471, (set_cwd invalid_operand_bit));
  (472, (throws (@abs_rev_dec_mixed binary64 binary32 binary64 (((fl binary32 (1) (0)), (fl binary32 (-3) (0))), trv) (((fl binary64 (-2476979795053773) (-51)), (fl binary64 (5) (0))), dac)) Invalid_operand_exception));
  (473, (bind get_flags (fun v1 => ret (N.eqb v1 invalid_operand_bit))));
  (474, clear_flags);
  (475, (set_cwd none_bit))].

(** lines 479-646 *)
Definition minimal_pown_rev_test : list (N * M bool) := [
  (637, clear_flags);
  (640, clear_flags);
  (641, (set_cwd invalid_operand_bit));
  (644, clear_flags);
  (645, (set_cwd none_bit))].

(** lines 649-706 *)
Definition minimal_pown_rev_bin_test : list (N * M bool) := [
  (697, clear_flags);
  (700, clear_flags);
  (701, (set_cwd invalid_operand_bit));
  (704, clear_flags);
  (705, (set_cwd none_bit))].

(** lines 709-740 *)
Definition minimal_pown_rev_mixedtype_test : list (N * M bool) := [
  (731, clear_flags);
  (734, clear_flags);
  (735, (set_cwd invalid_operand_bit));
  (738, clear_flags);
  (739, (set_cwd none_bit))].

(** lines 743-771 *)
Definition minimal_pown_rev_bin_mixedtype_test : list (N * M bool) := [
  (762, clear_flags);
  (765, clear_flags);
  (766, (set_cwd invalid_operand_bit));
  (769, clear_flags);
  (770, (set_cwd none_bit))].

(** lines 774-940 *)
Definition minimal_pown_rev_dec_test : list (N * M bool) := [
  (931, clear_flags);
  (934, clear_flags);
  (935, (set_cwd invalid_operand_bit));
  (938, clear_flags);
  (939, (set_cwd none_bit))].

(** lines 943-999 *)
Definition minimal_pown_rev_dec_bin_test : list (N * M bool) := [
  (990, clear_flags);
  (993, clear_flags);
  (994, (set_cwd invalid_operand_bit));
  (997, clear_flags);
  (998, (set_cwd none_bit))].

(** lines 1002-1033 *)
Definition minimal_pown_rev_dec_mixedtype_test : list (N * M bool) := [
  (1024, clear_flags);
  (1027, clear_flags);
  (1028, (set_cwd invalid_operand_bit));
  (1031, clear_flags);
  (1032, (set_cwd none_bit))].

(** lines 1036-1064 *)
Definition minimal_pown_rev_dec_bin_mixedtype_test : list (N * M bool) := [
  (1055, clear_flags);
  (1058, clear_flags);
  (1059, (set_cwd invalid_operand_bit));
  (1062, clear_flags);
  (1063, (set_cwd none_bit))].

(** lines 1067-1089 *)
Definition minimal_sin_rev_test : list (N * M bool) := [
  (1080, clear_flags);
  (1083, clear_flags);
  (1084, (set_cwd invalid_operand_bit));
  (1087, clear_flags);
  (1088, (set_cwd none_bit))].

(** lines 1092-1133 *)
Definition minimal_sin_rev_bin_test : list (N * M bool) := [
  (1124, clear_flags);
  (1127, clear_flags);
  (1128, (set_cwd invalid_operand_bit));
  (1131, clear_flags);
  (1132, (set_cwd none_bit))].

(** lines 1136-1157 *)
Definition minimal_sin_rev_mixedtype_test : list (N * M bool) := [
  (1148, clear_flags);
  (1151, clear_flags);
  (1152, (set_cwd invalid_operand_bit));
  (1155, clear_flags);
  (1156, (set_cwd none_bit))].

(** lines 1160-1178 *)
Definition minimal_sin_rev_bin_mixedtype_test : list (N * M bool) := [
  (1169, clear_flags);
  (1172, clear_flags);
  (1173, (set_cwd invalid_operand_bit));
  (1176, clear_flags);
  (1177, (set_cwd none_bit))].

(** lines 1181-1203 *)
Definition minimal_sin_rev_dec_test : list (N * M bool) := [
  (1194, clear_flags);
  (1197, clear_flags);
  (1198, (set_cwd invalid_operand_bit));
  (1201, clear_flags);
  (1202, (set_cwd none_bit))].

(** lines 1206-1247 *)
Definition minimal_sin_rev_dec_bin_test : list (N * M bool) := [
  (1238, clear_flags);
  (1241, clear_flags);
  (1242, (set_cwd invalid_operand_bit));
  (1245, clear_flags);
  (1246, (set_cwd none_bit))].

(** lines 1250-1271 *)
Definition minimal_sin_rev_dec_mixedtype_test : list (N * M bool) := [
  (1262, clear_flags);
  (1265, clear_flags);
  (1266, (set_cwd invalid_operand_bit));
  (1269, clear_flags);
  (1270, (set_cwd none_bit))].

(** lines 1274-1292 *)
Definition minimal_sin_rev_dec_bin_mixedtype_test : list (N * M bool) := [
  (1283, clear_flags);
  (1286, clear_flags);
  (1287, (set_cwd invalid_operand_bit));
  (1290, clear_flags);
  (1291, (set_cwd none_bit))].

(** lines 1296-1318 *)
Definition minimal_cos_rev_test : list (N * M bool) := [
  (1309, clear_flags);
  (1312, clear_flags);
  (1313, (set_cwd invalid_operand_bit));
  (1316, clear_flags);
  (1317, (set_cwd none_bit))].

(** lines 1321-1364 *)
Definition minimal_cos_rev_bin_test : list (N * M bool) := [
  (1355, clear_flags);
  (1358, clear_flags);
  (1359, (set_cwd invalid_operand_bit));
  (1362, clear_flags);
  (1363, (set_cwd none_bit))].

(** lines 1368-1389 *)
Definition minimal_cos_rev_mixedtype_test : list (N * M bool) := [
  (1380, clear_flags);
  (1383, clear_flags);
  (1384, (set_cwd invalid_operand_bit));
  (1387, clear_flags);
  (1388, (set_cwd none_bit))].

(** lines 1392-1409 *)
Definition minimal_cos_rev_bin_mixedtype_test : list (N * M bool) := [
  (1400, clear_flags);
  (1403, clear_flags);
  (1404, (set_cwd invalid_operand_bit));
  (1407, clear_flags);
  (1408, (set_cwd none_bit))].

(** lines 1413-1435 *)
Definition minimal_cos_rev_dec_test : list (N * M bool) := [
  (1426, clear_flags);
  (1429, clear_flags);
  (1430, (set_cwd invalid_operand_bit));
  (1433, clear_flags);
  (1434, (set_cwd none_bit))].

(** lines 1438-1481 *)
Definition minimal_cos_rev_dec_bin_test : list (N * M bool) := [
  (1472, clear_flags);
  (1475, clear_flags);
  (1476, (set_cwd invalid_operand_bit));
  (1479, clear_flags);
  (1480, (set_cwd none_bit))].

(** lines 1485-1506 *)
Definition minimal_cos_rev_dec_mixedtype_test : list (N * M bool) := [
  (1497, clear_flags);
  (1500, clear_flags);
  (1501, (set_cwd invalid_operand_bit));
  (1504, clear_flags);
  (1505, (set_cwd none_bit))].

(** lines 1509-1526 *)
Definition minimal_cos_rev_dec_bin_mixedtype_test : list (N * M bool) := [
  (1517, clear_flags);
  (1520, clear_flags);
  (1521, (set_cwd invalid_operand_bit));
  (1524, clear_flags);
  (1525, (set_cwd none_bit))].

(** lines 1529-1549 *)
Definition minimal_tan_rev_test : list (N * M bool) := [
  (1540, clear_flags);
  (1543, clear_flags);
  (1544, (set_cwd invalid_operand_bit));
  (1547, clear_flags);
  (1548, (set_cwd none_bit))].

(** lines 1552-1579 *)
Definition minimal_tan_rev_bin_test : list (N * M bool) := [
  (1570, clear_flags);
  (1573, clear_flags);
  (1574, (set_cwd invalid_operand_bit));
  (1577, clear_flags);
  (1578, (set_cwd none_bit))].

(** lines 1581-1599 *)
Definition minimal_tan_rev_mixedtype_test : list (N * M bool) := [
  (1590, clear_flags);
  (1593, clear_flags);
  (1594, (set_cwd invalid_operand_bit));
  (1597, clear_flags);
  (1598, (set_cwd none_bit))].

(** lines 1602-1620 *)
Definition minimal_tan_rev_bin_mixedtype_test : list (N * M bool) := [
  (1611, clear_flags);
  (1614, clear_flags);
  (1615, (set_cwd invalid_operand_bit));
  (1618, clear_flags);
  (1619, (set_cwd none_bit))].

(** lines 1625-1645 *)
Definition minimal_tan_rev_dec_test : list (N * M bool) := [
  (1636, clear_flags);
  (1639, clear_flags);
  (1640, (set_cwd invalid_operand_bit));
  (1643, clear_flags);
  (1644, (set_cwd none_bit))].

(** lines 1648-1675 *)
Definition minimal_tan_rev_dec_bin_test : list (N * M bool) := [
  (1666, clear_flags);
  (1669, clear_flags);
  (1670, (set_cwd invalid_operand_bit));
  (1673, clear_flags);
  (1674, (set_cwd none_bit))].

(** lines 1677-1695 *)
Definition minimal_tan_rev_dec_mixedtype_test : list (N * M bool) := [
  (1686, clear_flags);
  (1689, clear_flags);
  (1690, (set_cwd invalid_operand_bit));
  (1693, clear_flags);
  (1694, (set_cwd none_bit))].

(** lines 1698-1716 *)
Definition minimal_tan_rev_dec_bin_mixedtype_test : list (N * M bool) := [
  (1707, clear_flags);
  (1710, clear_flags);
  (1711, (set_cwd invalid_operand_bit));
  (1714, clear_flags);
  (1715, (set_cwd none_bit))].

(** lines 1720-1741 *)
Definition minimal_cosh_rev_test : list (N * M bool) := [
  (1732, clear_flags);
  (1735, clear_flags);
  (1736, (set_cwd invalid_operand_bit));
  (1739, clear_flags);
  (1740, (set_cwd none_bit))].

(** lines 1744-1769 *)
Definition minimal_cosh_rev_bin_test : list (N * M bool) := [
  (1760, clear_flags);
  (1763, clear_flags);
  (1764, (set_cwd invalid_operand_bit));
  (1767, clear_flags);
  (1768, (set_cwd none_bit))].

(** lines 1773-1793 *)
Definition minimal_cosh_rev_mixedtype_test : list (N * M bool) := [
  (1784, clear_flags);
  (1787, clear_flags);
  (1788, (set_cwd invalid_operand_bit));
  (1791, clear_flags);
  (1792, (set_cwd none_bit))].

(** lines 1796-1814 *)
Definition minimal_cosh_rev_bin_mixedtype_test : list (N * M bool) := [
  (1805, clear_flags);
  (1808, clear_flags);
  (1809, (set_cwd invalid_operand_bit));
  (1812, clear_flags);
  (1813, (set_cwd none_bit))].

(** lines 1819-1840 *)
Definition minimal_cosh_rev_dec_test : list (N * M bool) := [
  (1831, clear_flags);
  (1834, clear_flags);
  (1835, (set_cwd invalid_operand_bit));
  (1838, clear_flags);
  (1839, (set_cwd none_bit))].

(** lines 1843-1864 *)
Definition minimal_cosh_rev_dec_bin_test : list (N * M bool) := [
  (1855, clear_flags);
  (1858, clear_flags);
  (1859, (set_cwd invalid_operand_bit));
  (1862, clear_flags);
  (1863, (set_cwd none_bit))].

(** lines 1868-1888 *)
Definition minimal_cosh_rev_dec_mixedtype_test : list (N * M bool) := [
  (1879, clear_flags);
  (1882, clear_flags);
  (1883, (set_cwd invalid_operand_bit));
  (1886, clear_flags);
  (1887, (set_cwd none_bit))].

(** lines 1891-1909 *)
Definition minimal_cosh_rev_dec_bin_mixedtype_test : list (N * M bool) := [
  (1900, clear_flags);
  (1903, clear_flags);
  (1904, (set_cwd invalid_operand_bit));
  (1907, clear_flags);
  (1908, (set_cwd none_bit))].

(** lines 1913-2116 *)
Definition minimal_mul_rev_test : list (N * M bool) := [
  (1915, (bind (@mul_rev2 binary64 (@empty binary64) ((fl binary64 (1) (0)), (fl binary64 (1) (1)))) (fun v1 => @is_empty binary64 v1)));
  (1916, (bind (@mul_rev2 binary64 ((fl binary64 (1) (0)), (fl binary64 (1) (1))) (@empty binary64)) (fun v1 => @is_empty binary64 v1)));
  (1917, (bind (@mul_rev2 binary64 (@empty binary64) (@empty binary64)) (fun v1 => @is_empty binary64 v1)));
  (1919, (bind (@mul_rev2 binary64 ((fl binary64 (-1) (1)), (fl binary64 (-3602879701896397) (-55))) ((fl binary64 (-4728779608739021) (-51)), (fl binary64 (-3602879701896397) (-53)))) (fun v1 => ret (ieq v1 ((fl binary64 (3602879701896397) (-54)), (fl binary64 (21) (0)))))));
  (1920, (bind (@mul_rev2 binary64 ((fl binary64 (-1) (1)), (@f0 binary64)) ((fl binary64 (-4728779608739021) (-51)), (fl binary64 (-3602879701896397) (-53)))) (fun v1 => ret (ieq v1 ((fl binary64 (3602879701896397) (-54)), (@finf binary64))))));
  (1921, (bind (@mul_rev2 binary64 ((fl binary64 (-1) (1)), (fl binary64 (2476979795053773) (-51))) ((fl binary64 (-4728779608739021) (-51)), (fl binary64 (-3602879701896397) (-53)))) (fun v1 => ret (ieq v1 ((@fminf binary64), (@finf binary64))))));
  (1922, (bind (@mul_rev2 binary64 ((@f0 binary64), (fl binary64 (2476979795053773) (-51))) ((fl binary64 (-4728779608739021) (-51)), (fl binary64 (-3602879701896397) (-53)))) (fun v1 => ret (ieq v1 ((@fminf binary64), (fl binary64 (-6550690367084357) (-54)))))));
  (1923, (bind (@mul_rev2 binary64 ((fl binary64 (5764607523034235) (-59)), (fl binary64 (2476979795053773) (-51))) ((fl binary64 (-4728779608739021) (-51)), (fl binary64 (-3602879701896397) (-53)))) (fun v1 => ret (ieq v1 ((fl binary64 (-7388718138654721) (-45)), (fl binary64 (-6550690367084357) (-54)))))));
  (1924, (bind (@mul_rev2 binary64 ((@f0 binary64), (@f0 binary64)) ((fl binary64 (-4728779608739021) (-51)), (fl binary64 (-3602879701896397) (-53)))) (fun v1 => @is_empty binary64 v1)));
  (1925, (bind (@mul_rev2 binary64 ((@fminf binary64), (fl binary64 (-3602879701896397) (-55))) ((fl binary64 (-4728779608739021) (-51)), (fl binary64 (-3602879701896397) (-53)))) (fun v1 => ret (ieq v1 ((@f0 binary64), (fl binary64 (21) (0)))))));
  (1926, (bind (@mul_rev2 binary64 ((@fminf binary64), (@f0 binary64)) ((fl binary64 (-4728779608739021) (-51)), (fl binary64 (-3602879701896397) (-53)))) (fun v1 => ret (ieq v1 ((@f0 binary64), (@finf binary64))))));
  (1927, (bind (@mul_rev2 binary64 ((@fminf binary64), (fl binary64 (2476979795053773) (-51))) ((fl binary64 (-4728779608739021) (-51)), (fl binary64 (-3602879701896397) (-53)))) (fun v1 => ret (ieq v1 ((@fminf binary64), (@finf binary64))))));
  (1928, (bind (@mul_rev2 binary64 ((fl binary64 (-1) (1)), (@finf binary64)) ((fl binary64 (-4728779608739021) (-51)), (fl binary64 (-3602879701896397) (-53)))) (fun v1 => ret (ieq v1 ((@fminf binary64), (@finf binary64))))));
  (1929, (bind (@mul_rev2 binary64 ((@f0 binary64), (@finf binary64)) ((fl binary64 (-4728779608739021) (-51)), (fl binary64 (-3602879701896397) (-53)))) (fun v1 => ret (ieq v1 ((@fminf binary64), (@f0 binary64))))));
  (1930, (bind (@mul_rev2 binary64 ((fl binary64 (5764607523034235) (-59)), (@finf binary64)) ((fl binary64 (-4728779608739021) (-51)), (fl binary64 (-3602879701896397) (-53)))) (fun v1 => ret (ieq v1 ((fl binary64 (-7388718138654721) (-45)), (@f0 binary64))))));
  (1931, (bind (@mul_rev2 binary64 ((@fminf binary64), (@finf binary64)) ((fl binary64 (-4728779608739021) (-51)), (fl binary64 (-3602879701896397) (-53)))) (fun v1 => ret (ieq v1 ((@fminf binary64), (@finf binary64))))));
  (1933, (bind (@mul_rev2 binary64 ((fl binary64 (-1) (1)), (fl binary64 (-3602879701896397) (-55))) ((fl binary64 (-4728779608739021) (-51)), (@f0 binary64))) (fun v1 => ret (ieq v1 ((@f0 binary64), (fl binary64 (21) (0)))))));
  (1934, (bind (@mul_rev2 binary64 ((fl binary64 (-1) (1)), (@f0 binary64)) ((fl binary64 (-4728779608739021) (-51)), (@f0 binary64))) (fun v1 => ret (ieq v1 ((@fminf binary64), (@finf binary64))))));
  (1935, (bind (@mul_rev2 binary64 ((fl binary64 (-1) (1)), (fl binary64 (2476979795053773) (-51))) ((fl binary64 (-4728779608739021) (-51)), (@f0 binary64))) (fun v1 => ret (ieq v1 ((@fminf binary64), (@finf binary64))))));
  (1936, (bind (@mul_rev2 binary64 ((@f0 binary64), (fl binary64 (2476979795053773) (-51))) ((fl binary64 (-4728779608739021) (-51)), (@f0 binary64))) (fun v1 => ret (ieq v1 ((@fminf binary64), (@finf binary64))))));
  (1937, (bind (@mul_rev2 binary64 ((fl binary64 (5764607523034235) (-59)), (fl binary64 (2476979795053773) (-51))) ((fl binary64 (-4728779608739021) (-51)), (@f0 binary64))) (fun v1 => ret (ieq v1 ((fl binary64 (-7388718138654721) (-45)), (@f0 binary64))))));
  (1938, (bind (@mul_rev2 binary64 ((@f0 binary64), (@f0 binary64)) ((fl binary64 (-4728779608739021) (-51)), (@f0 binary64))) (fun v1 => ret (ieq v1 ((@fminf binary64), (@finf binary64))))));
  (1939, (bind (@mul_rev2 binary64 ((@fminf binary64), (fl binary64 (-3602879701896397) (-55))) ((fl binary64 (-4728779608739021) (-51)), (@f0 binary64))) (fun v1 => ret (ieq v1 ((@f0 binary64), (fl binary64 (21) (0)))))));
  (1940, (bind (@mul_rev2 binary64 ((@fminf binary64), (@f0 binary64)) ((fl binary64 (-4728779608739021) (-51)), (@f0 binary64))) (fun v1 => ret (ieq v1 ((@fminf binary64), (@finf binary64))))));
  (1941, (bind (@mul_rev2 binary64 ((@fminf binary64), (fl binary64 (2476979795053773) (-51))) ((fl binary64 (-4728779608739021) (-51)), (@f0 binary64))) (fun v1 => ret (ieq v1 ((@fminf binary64), (@finf binary64))))));
  (1942, (bind (@mul_rev2 binary64 ((fl binary64 (-1) (1)), (@finf binary64)) ((fl binary64 (-4728779608739021) (-51)), (@f0 binary64))) (fun v1 => ret (ieq v1 ((@fminf binary64), (@finf binary64))))));
  (1943, (bind (@mul_rev2 binary64 ((@f0 binary64), (@finf binary64)) ((fl binary64 (-4728779608739021) (-51)), (@f0 binary64))) (fun v1 => ret (ieq v1 ((@fminf binary64), (@finf binary64))))));
  (1944, (bind (@mul_rev2 binary64 ((fl binary64 (5764607523034235) (-59)), (@finf binary64)) ((fl binary64 (-4728779608739021) (-51)), (@f0 binary64))) (fun v1 => ret (ieq v1 ((fl binary64 (-7388718138654721) (-45)), (@f0 binary64))))));
  (1945, (bind (@mul_rev2 binary64 ((@fminf binary64), (@finf binary64)) ((fl binary64 (-4728779608739021) (-51)), (@f0 binary64))) (fun v1 => ret (ieq v1 ((@fminf binary64), (@finf binary64))))));
  (1947, (bind (@mul_rev2 binary64 ((fl binary64 (-1) (1)), (fl binary64 (-3602879701896397) (-55))) ((fl binary64 (-4728779608739021) (-51)), (fl binary64 (1080863910568919) (-53)))) (fun v1 => ret (ieq v1 ((fl binary64 (-5404319552844595) (-52)), (fl binary64 (21) (0)))))));
  (1948, (bind (@mul_rev2 binary64 ((fl binary64 (-1) (1)), (@f0 binary64)) ((fl binary64 (-4728779608739021) (-51)), (fl binary64 (1080863910568919) (-53)))) (fun v1 => ret (ieq v1 ((@fminf binary64), (@finf binary64))))));
  (1949, (bind (@mul_rev2 binary64 ((fl binary64 (-1) (1)), (fl binary64 (2476979795053773) (-51))) ((fl binary64 (-4728779608739021) (-51)), (fl binary64 (1080863910568919) (-53)))) (fun v1 => ret (ieq v1 ((@fminf binary64), (@finf binary64))))));
  (1950, (bind (@mul_rev2 binary64 ((@f0 binary64), (fl binary64 (2476979795053773) (-51))) ((fl binary64 (-4728779608739021) (-51)), (fl binary64 (1080863910568919) (-53)))) (fun v1 => ret (ieq v1 ((@fminf binary64), (@finf binary64))))));
  (1951, (bind (@mul_rev2 binary64 ((fl binary64 (5764607523034235) (-59)), (fl binary64 (2476979795053773) (-51))) ((fl binary64 (-4728779608739021) (-51)), (fl binary64 (1080863910568919) (-53)))) (fun v1 => ret (ieq v1 ((fl binary64 (-7388718138654721) (-45)), (fl binary64 (3) (2)))))));
  (1952, (bind (@mul_rev2 binary64 ((@f0 binary64), (@f0 binary64)) ((fl binary64 (-4728779608739021) (-51)), (fl binary64 (1080863910568919) (-53)))) (fun v1 => ret (ieq v1 ((@fminf binary64), (@finf binary64))))));
  (1953, (bind (@mul_rev2 binary64 ((@fminf binary64), (fl binary64 (-3602879701896397) (-55))) ((fl binary64 (-4728779608739021) (-51)), (fl binary64 (1080863910568919) (-53)))) (fun v1 => ret (ieq v1 ((fl binary64 (-5404319552844595) (-52)), (fl binary64 (21) (0)))))));
  (1954, (bind (@mul_rev2 binary64 ((@fminf binary64), (@f0 binary64)) ((fl binary64 (-4728779608739021) (-51)), (fl binary64 (1080863910568919) (-53)))) (fun v1 => ret (ieq v1 ((@fminf binary64), (@finf binary64))))));
  (1955, (bind (@mul_rev2 binary64 ((@fminf binary64), (fl binary64 (2476979795053773) (-51))) ((fl binary64 (-4728779608739021) (-51)), (fl binary64 (1080863910568919) (-53)))) (fun v1 => ret (ieq v1 ((@fminf binary64), (@finf binary64))))));
  (1956, (bind (@mul_rev2 binary64 ((fl binary64 (-1) (1)), (@finf binary64)) ((fl binary64 (-4728779608739021) (-51)), (fl binary64 (1080863910568919) (-53)))) (fun v1 => ret (ieq v1 ((@fminf binary64), (@finf binary64))))));
  (1957, (bind (@mul_rev2 binary64 ((@f0 binary64), (@finf binary64)) ((fl binary64 (-4728779608739021) (-51)), (fl binary64 (1080863910568919) (-53)))) (fun v1 => ret (ieq v1 ((@fminf binary64), (@finf binary64))))));
  (1958, (bind (@mul_rev2 binary64 ((fl binary64 (5764607523034235) (-59)), (@finf binary64)) ((fl binary64 (-4728779608739021) (-51)), (fl binary64 (1080863910568919) (-53)))) (fun v1 => ret (ieq v1 ((fl binary64 (-7388718138654721) (-45)), (fl binary64 (3) (2)))))));
  (1959, (bind (@mul_rev2 binary64 ((@fminf binary64), (@finf binary64)) ((fl binary64 (-4728779608739021) (-51)), (fl binary64 (1080863910568919) (-53)))) (fun v1 => ret (ieq v1 ((@fminf binary64), (@finf binary64))))));
  (1961, (bind (@mul_rev2 binary64 ((fl binary64 (-1) (1)), (fl binary64 (-3602879701896397) (-55))) ((@f0 binary64), (fl binary64 (1080863910568919) (-53)))) (fun v1 => ret (ieq v1 ((fl binary64 (-5404319552844595) (-52)), (@f0 binary64))))));
  (1962, (bind (@mul_rev2 binary64 ((fl binary64 (-1) (1)), (@f0 binary64)) ((@f0 binary64), (fl binary64 (1080863910568919) (-53)))) (fun v1 => ret (ieq v1 ((@fminf binary64), (@finf binary64))))));
  (1963, (bind (@mul_rev2 binary64 ((fl binary64 (-1) (1)), (fl binary64 (2476979795053773) (-51))) ((@f0 binary64), (fl binary64 (1080863910568919) (-53)))) (fun v1 => ret (ieq v1 ((@fminf binary64), (@finf binary64))))));
  (1964, (bind (@mul_rev2 binary64 ((@f0 binary64), (fl binary64 (2476979795053773) (-51))) ((@f0 binary64), (fl binary64 (1080863910568919) (-53)))) (fun v1 => ret (ieq v1 ((@fminf binary64), (@finf binary64))))));
  (1965, (bind (@mul_rev2 binary64 ((fl binary64 (5764607523034235) (-59)), (fl binary64 (2476979795053773) (-51))) ((@f0 binary64), (fl binary64 (1080863910568919) (-53)))) (fun v1 => ret (ieq v1 ((@f0 binary64), (fl binary64 (3) (2)))))));
  (1966, (bind (@mul_rev2 binary64 ((@f0 binary64), (@f0 binary64)) ((@f0 binary64), (fl binary64 (1080863910568919) (-53)))) (fun v1 => ret (ieq v1 ((@fminf binary64), (@finf binary64))))));
  (1967, (bind (@mul_rev2 binary64 ((@fminf binary64), (fl binary64 (-3602879701896397) (-55))) ((@f0 binary64), (fl binary64 (1080863910568919) (-53)))) (fun v1 => ret (ieq v1 ((fl binary64 (-5404319552844595) (-52)), (@f0 binary64))))));
  (1968, (bind (@mul_rev2 binary64 ((@fminf binary64), (@f0 binary64)) ((@f0 binary64), (fl binary64 (1080863910568919) (-53)))) (fun v1 => ret (ieq v1 ((@fminf binary64), (@finf binary64))))));
  (1969, (bind (@mul_rev2 binary64 ((@fminf binary64), (fl binary64 (2476979795053773) (-51))) ((@f0 binary64), (fl binary64 (1080863910568919) (-53)))) (fun v1 => ret (ieq v1 ((@fminf binary64), (@finf binary64))))));
  (1970, (bind (@mul_rev2 binary64 ((fl binary64 (-1) (1)), (@finf binary64)) ((@f0 binary64), (fl binary64 (1080863910568919) (-53)))) (fun v1 => ret (ieq v1 ((@fminf binary64), (@finf binary64))))));
  (1971, (bind (@mul_rev2 binary64 ((@f0 binary64), (@finf binary64)) ((@f0 binary64), (fl binary64 (1080863910568919) (-53)))) (fun v1 => ret (ieq v1 ((@fminf binary64), (@finf binary64))))));
  (1972, (bind (@mul_rev2 binary64 ((fl binary64 (5764607523034235) (-59)), (@finf binary64)) ((@f0 binary64), (fl binary64 (1080863910568919) (-53)))) (fun v1 => ret (ieq v1 ((@f0 binary64), (fl binary64 (3) (2)))))));
  (1973, (bind (@mul_rev2 binary64 ((@fminf binary64), (@finf binary64)) ((@f0 binary64), (fl binary64 (1080863910568919) (-53)))) (fun v1 => ret (ieq v1 ((@fminf binary64), (@finf binary64))))));
  (1975, (bind (@mul_rev2 binary64 ((fl binary64 (-1) (1)), (fl binary64 (-3602879701896397) (-55))) ((fl binary64 (5764607523034235) (-59)), (fl binary64 (1080863910568919) (-53)))) (fun v1 => ret (ieq v1 ((fl binary64 (-5404319552844595) (-52)), (fl binary64 (-5764607523034235) (-60)))))));
  (1976, (bind (@mul_rev2 binary64 ((fl binary64 (-1) (1)), (@f0 binary64)) ((fl binary64 (5764607523034235) (-59)), (fl binary64 (1080863910568919) (-53)))) (fun v1 => ret (ieq v1 ((@fminf binary64), (fl binary64 (-5764607523034235) (-60)))))));
  (1977, (bind (@mul_rev2 binary64 ((fl binary64 (-1) (1)), (fl binary64 (2476979795053773) (-51))) ((fl binary64 (5764607523034235) (-59)), (fl binary64 (1080863910568919) (-53)))) (fun v1 => ret (ieq v1 ((@fminf binary64), (@finf binary64))))));
  (1978, (bind (@mul_rev2 binary64 ((@f0 binary64), (fl binary64 (2476979795053773) (-51))) ((fl binary64 (5764607523034235) (-59)), (fl binary64 (1080863910568919) (-53)))) (fun v1 => ret (ieq v1 ((fl binary64 (5240552293667485) (-59)), (@finf binary64))))));
  (1979, (bind (@mul_rev2 binary64 ((fl binary64 (5764607523034235) (-59)), (fl binary64 (2476979795053773) (-51))) ((fl binary64 (5764607523034235) (-59)), (fl binary64 (1080863910568919) (-53)))) (fun v1 => ret (ieq v1 ((fl binary64 (5240552293667485) (-59)), (fl binary64 (3) (2)))))));
  (1980, (bind (@mul_rev2 binary64 ((@f0 binary64), (@f0 binary64)) ((fl binary64 (5764607523034235) (-59)), (fl binary64 (1080863910568919) (-53)))) (fun v1 => @is_empty binary64 v1)));
  (1981, (bind (@mul_rev2 binary64 ((@fminf binary64), (fl binary64 (-3602879701896397) (-55))) ((fl binary64 (5764607523034235) (-59)), (fl binary64 (1080863910568919) (-53)))) (fun v1 => ret (ieq v1 ((fl binary64 (-5404319552844595) (-52)), (@f0 binary64))))));
  (1982, (bind (@mul_rev2 binary64 ((@fminf binary64), (@f0 binary64)) ((fl binary64 (5764607523034235) (-59)), (fl binary64 (1080863910568919) (-53)))) (fun v1 => ret (ieq v1 ((@fminf binary64), (@f0 binary64))))));
  (1983, (bind (@mul_rev2 binary64 ((@fminf binary64), (fl binary64 (2476979795053773) (-51))) ((fl binary64 (5764607523034235) (-59)), (fl binary64 (1080863910568919) (-53)))) (fun v1 => ret (ieq v1 ((@fminf binary64), (@finf binary64))))));
  (1984, (bind (@mul_rev2 binary64 ((fl binary64 (-1) (1)), (@finf binary64)) ((fl binary64 (5764607523034235) (-59)), (fl binary64 (1080863910568919) (-53)))) (fun v1 => ret (ieq v1 ((@fminf binary64), (@finf binary64))))));
  (1985, (bind (@mul_rev2 binary64 ((@f0 binary64), (@finf binary64)) ((fl binary64 (5764607523034235) (-59)), (fl binary64 (1080863910568919) (-53)))) (fun v1 => ret (ieq v1 ((@f0 binary64), (@finf binary64))))));
  (1986, (bind (@mul_rev2 binary64 ((fl binary64 (5764607523034235) (-59)), (@finf binary64)) ((fl binary64 (5764607523034235) (-59)), (fl binary64 (1080863910568919) (-53)))) (fun v1 => ret (ieq v1 ((@f0 binary64), (fl binary64 (3) (2)))))));
  (1987, (bind (@mul_rev2 binary64 ((@fminf binary64), (@finf binary64)) ((fl binary64 (5764607523034235) (-59)), (fl binary64 (1080863910568919) (-53)))) (fun v1 => ret (ieq v1 ((@fminf binary64), (@finf binary64))))));
  (1989, (bind (@mul_rev2 binary64 ((fl binary64 (-1) (1)), (fl binary64 (-3602879701896397) (-55))) ((@f0 binary64), (@f0 binary64))) (fun v1 => ret (ieq v1 ((@f0 binary64), (@f0 binary64))))));
  (1990, (bind (@mul_rev2 binary64 ((fl binary64 (-1) (1)), (@f0 binary64)) ((@f0 binary64), (@f0 binary64))) (fun v1 => ret (ieq v1 ((@fminf binary64), (@finf binary64))))));
  (1991, (bind (@mul_rev2 binary64 ((fl binary64 (-1) (1)), (fl binary64 (2476979795053773) (-51))) ((@f0 binary64), (@f0 binary64))) (fun v1 => ret (ieq v1 ((@fminf binary64), (@finf binary64))))));
  (1992, (bind (@mul_rev2 binary64 ((@f0 binary64), (fl binary64 (2476979795053773) (-51))) ((@f0 binary64), (@f0 binary64))) (fun v1 => ret (ieq v1 ((@fminf binary64), (@finf binary64))))));
  (1993, (bind (@mul_rev2 binary64 ((fl binary64 (5764607523034235) (-59)), (fl binary64 (2476979795053773) (-51))) ((@f0 binary64), (@f0 binary64))) (fun v1 => ret (ieq v1 ((@f0 binary64), (@f0 binary64))))));
  (1994, (bind (@mul_rev2 binary64 ((@f0 binary64), (@f0 binary64)) ((@f0 binary64), (@f0 binary64))) (fun v1 => ret (ieq v1 ((@fminf binary64), (@finf binary64))))));
  (1995, (bind (@mul_rev2 binary64 ((@fminf binary64), (fl binary64 (-3602879701896397) (-55))) ((@f0 binary64), (@f0 binary64))) (fun v1 => ret (ieq v1 ((@f0 binary64), (@f0 binary64))))));
  (1996, (bind (@mul_rev2 binary64 ((@fminf binary64), (@f0 binary64)) ((@f0 binary64), (@f0 binary64))) (fun v1 => ret (ieq v1 ((@fminf binary64), (@finf binary64))))));
  (1997, (bind (@mul_rev2 binary64 ((@fminf binary64), (fl binary64 (2476979795053773) (-51))) ((@f0 binary64), (@f0 binary64))) (fun v1 => ret (ieq v1 ((@fminf binary64), (@finf binary64))))));
  (1998, (bind (@mul_rev2 binary64 ((fl binary64 (-1) (1)), (@finf binary64)) ((@f0 binary64), (@f0 binary64))) (fun v1 => ret (ieq v1 ((@fminf binary64), (@finf binary64))))));
  (1999, (bind (@mul_rev2 binary64 ((@f0 binary64), (@finf binary64)) ((@f0 binary64), (@f0 binary64))) (fun v1 => ret (ieq v1 ((@fminf binary64), (@finf binary64))))));
  (2000, (bind (@mul_rev2 binary64 ((fl binary64 (5764607523034235) (-59)), (@finf binary64)) ((@f0 binary64), (@f0 binary64))) (fun v1 => ret (ieq v1 ((@f0 binary64), (@f0 binary64))))));
  (2001, (bind (@mul_rev2 binary64 ((@fminf binary64), (@finf binary64)) ((@f0 binary64), (@f0 binary64))) (fun v1 => ret (ieq v1 ((@fminf binary64), (@finf binary64))))));
  (2004, (bind (@mul_rev2 binary64 ((fl binary64 (-1) (1)), (fl binary64 (-3602879701896397) (-55))) ((@fminf binary64), (fl binary64 (-3602879701896397) (-55)))) (fun v1 => ret (ieq v1 ((fl binary64 (3602879701896397) (-56)), (@finf binary64))))));
  (2005, (bind (@mul_rev2 binary64 ((fl binary64 (-1) (1)), (@f0 binary64)) ((@fminf binary64), (fl binary64 (-3602879701896397) (-55)))) (fun v1 => ret (ieq v1 ((fl binary64 (3602879701896397) (-56)), (@finf binary64))))));
  (2006, (bind (@mul_rev2 binary64 ((fl binary64 (-1) (1)), (fl binary64 (2476979795053773) (-51))) ((@fminf binary64), (fl binary64 (-3602879701896397) (-55)))) (fun v1 => ret (ieq v1 ((@fminf binary64), (@finf binary64))))));
  (2007, (bind (@mul_rev2 binary64 ((@f0 binary64), (fl binary64 (2476979795053773) (-51))) ((@fminf binary64), (fl binary64 (-3602879701896397) (-55)))) (fun v1 => ret (ieq v1 ((@fminf binary64), (fl binary64 (-6550690367084357) (-56)))))));
  (2008, (bind (@mul_rev2 binary64 ((fl binary64 (5764607523034235) (-59)), (fl binary64 (2476979795053773) (-51))) ((@fminf binary64), (fl binary64 (-3602879701896397) (-55)))) (fun v1 => ret (ieq v1 ((@fminf binary64), (fl binary64 (-6550690367084357) (-56)))))));
  (2009, (bind (@mul_rev2 binary64 ((@f0 binary64), (@f0 binary64)) ((@fminf binary64), (fl binary64 (-3602879701896397) (-55)))) (fun v1 => @is_empty binary64 v1)));
  (2010, (bind (@mul_rev2 binary64 ((@fminf binary64), (fl binary64 (-3602879701896397) (-55))) ((@fminf binary64), (fl binary64 (-3602879701896397) (-55)))) (fun v1 => ret (ieq v1 ((@f0 binary64), (@finf binary64))))));
  (2011, (bind (@mul_rev2 binary64 ((@fminf binary64), (@f0 binary64)) ((@fminf binary64), (fl binary64 (-3602879701896397) (-55)))) (fun v1 => ret (ieq v1 ((@f0 binary64), (@finf binary64))))));
  (2012, (bind (@mul_rev2 binary64 ((@fminf binary64), (fl binary64 (2476979795053773) (-51))) ((@fminf binary64), (fl binary64 (-3602879701896397) (-55)))) (fun v1 => ret (ieq v1 ((@fminf binary64), (@finf binary64))))));
  (2013, (bind (@mul_rev2 binary64 ((fl binary64 (-1) (1)), (@finf binary64)) ((@fminf binary64), (fl binary64 (-3602879701896397) (-55)))) (fun v1 => ret (ieq v1 ((@fminf binary64), (@finf binary64))))));
  (2014, (bind (@mul_rev2 binary64 ((@f0 binary64), (@finf binary64)) ((@fminf binary64), (fl binary64 (-3602879701896397) (-55)))) (fun v1 => ret (ieq v1 ((@fminf binary64), (@f0 binary64))))));
  (2015, (bind (@mul_rev2 binary64 ((fl binary64 (5764607523034235) (-59)), (@finf binary64)) ((@fminf binary64), (fl binary64 (-3602879701896397) (-55)))) (fun v1 => ret (ieq v1 ((@fminf binary64), (@f0 binary64))))));
  (2016, (bind (@mul_rev2 binary64 ((@fminf binary64), (@finf binary64)) ((@fminf binary64), (fl binary64 (-3602879701896397) (-55)))) (fun v1 => ret (ieq v1 ((@fminf binary64), (@finf binary64))))));
  (2018, (bind (@mul_rev2 binary64 ((fl binary64 (-1) (1)), (fl binary64 (-3602879701896397) (-55))) ((@fminf binary64), (@f0 binary64))) (fun v1 => ret (ieq v1 ((@f0 binary64), (@finf binary64))))));
  (2019, (bind (@mul_rev2 binary64 ((fl binary64 (-1) (1)), (@f0 binary64)) ((@fminf binary64), (@f0 binary64))) (fun v1 => ret (ieq v1 ((@fminf binary64), (@finf binary64))))));
  (2020, (bind (@mul_rev2 binary64 ((fl binary64 (-1) (1)), (fl binary64 (2476979795053773) (-51))) ((@fminf binary64), (@f0 binary64))) (fun v1 => ret (ieq v1 ((@fminf binary64), (@finf binary64))))));
  (2021, (bind (@mul_rev2 binary64 ((@f0 binary64), (fl binary64 (2476979795053773) (-51))) ((@fminf binary64), (@f0 binary64))) (fun v1 => ret (ieq v1 ((@fminf binary64), (@finf binary64))))));
  (2022, (bind (@mul_rev2 binary64 ((fl binary64 (5764607523034235) (-59)), (fl binary64 (2476979795053773) (-51))) ((@fminf binary64), (@f0 binary64))) (fun v1 => ret (ieq v1 ((@fminf binary64), (@f0 binary64))))));
  (2023, (bind (@mul_rev2 binary64 ((@f0 binary64), (@f0 binary64)) ((@fminf binary64), (@f0 binary64))) (fun v1 => ret (ieq v1 ((@fminf binary64), (@finf binary64))))));
  (2024, (bind (@mul_rev2 binary64 ((@fminf binary64), (fl binary64 (-3602879701896397) (-55))) ((@fminf binary64), (@f0 binary64))) (fun v1 => ret (ieq v1 ((@f0 binary64), (@finf binary64))))));
  (2025, (bind (@mul_rev2 binary64 ((@fminf binary64), (@f0 binary64)) ((@fminf binary64), (@f0 binary64))) (fun v1 => ret (ieq v1 ((@fminf binary64), (@finf binary64))))));
  (2026, (bind (@mul_rev2 binary64 ((@fminf binary64), (fl binary64 (2476979795053773) (-51))) ((@fminf binary64), (@f0 binary64))) (fun v1 => ret (ieq v1 ((@fminf binary64), (@finf binary64))))));
  (2027, (bind (@mul_rev2 binary64 ((fl binary64 (-1) (1)), (@finf binary64)) ((@fminf binary64), (@f0 binary64))) (fun v1 => ret (ieq v1 ((@fminf binary64), (@finf binary64))))));
  (2028, (bind (@mul_rev2 binary64 ((@f0 binary64), (@finf binary64)) ((@fminf binary64), (@f0 binary64))) (fun v1 => ret (ieq v1 ((@fminf binary64), (@finf binary64))))));
  (2029, (bind (@mul_rev2 binary64 ((fl binary64 (5764607523034235) (-59)), (@finf binary64)) ((@fminf binary64), (@f0 binary64))) (fun v1 => ret (ieq v1 ((@fminf binary64), (@f0 binary64))))));
  (2030, (bind (@mul_rev2 binary64 ((@fminf binary64), (@finf binary64)) ((@fminf binary64), (@f0 binary64))) (fun v1 => ret (ieq v1 ((@fminf binary64), (@finf binary64))))));
  (2032, (bind (@mul_rev2 binary64 ((fl binary64 (-1) (1)), (fl binary64 (-3602879701896397) (-55))) ((@fminf binary64), (fl binary64 (5404319552844595) (-54)))) (fun v1 => ret (ieq v1 ((fl binary64 (-3) (0)), (@finf binary64))))));
  (2033, (bind (@mul_rev2 binary64 ((fl binary64 (-1) (1)), (@f0 binary64)) ((@fminf binary64), (fl binary64 (5404319552844595) (-54)))) (fun v1 => ret (ieq v1 ((@fminf binary64), (@finf binary64))))));
  (2034, (bind (@mul_rev2 binary64 ((fl binary64 (-1) (1)), (fl binary64 (2476979795053773) (-51))) ((@fminf binary64), (fl binary64 (5404319552844595) (-54)))) (fun v1 => ret (ieq v1 ((@fminf binary64), (@finf binary64))))));
  (2035, (bind (@mul_rev2 binary64 ((@f0 binary64), (fl binary64 (2476979795053773) (-51))) ((@fminf binary64), (fl binary64 (5404319552844595) (-54)))) (fun v1 => ret (ieq v1 ((@fminf binary64), (@finf binary64))))));
  (2036, (bind (@mul_rev2 binary64 ((fl binary64 (5764607523034235) (-59)), (fl binary64 (2476979795053773) (-51))) ((@fminf binary64), (fl binary64 (5404319552844595) (-54)))) (fun v1 => ret (ieq v1 ((@fminf binary64), (fl binary64 (15) (1)))))));
  (2037, (bind (@mul_rev2 binary64 ((@f0 binary64), (@f0 binary64)) ((@fminf binary64), (fl binary64 (5404319552844595) (-54)))) (fun v1 => ret (ieq v1 ((@fminf binary64), (@finf binary64))))));
  (2038, (bind (@mul_rev2 binary64 ((@fminf binary64), (fl binary64 (-3602879701896397) (-55))) ((@fminf binary64), (fl binary64 (5404319552844595) (-54)))) (fun v1 => ret (ieq v1 ((fl binary64 (-3) (0)), (@finf binary64))))));
  (2039, (bind (@mul_rev2 binary64 ((@fminf binary64), (@f0 binary64)) ((@fminf binary64), (fl binary64 (5404319552844595) (-54)))) (fun v1 => ret (ieq v1 ((@fminf binary64), (@finf binary64))))));
  (2040, (bind (@mul_rev2 binary64 ((@fminf binary64), (fl binary64 (2476979795053773) (-51))) ((@fminf binary64), (fl binary64 (5404319552844595) (-54)))) (fun v1 => ret (ieq v1 ((@fminf binary64), (@finf binary64))))));
  (2041, (bind (@mul_rev2 binary64 ((fl binary64 (-1) (1)), (@finf binary64)) ((@fminf binary64), (fl binary64 (5404319552844595) (-54)))) (fun v1 => ret (ieq v1 ((@fminf binary64), (@finf binary64))))));
  (2042, (bind (@mul_rev2 binary64 ((@f0 binary64), (@finf binary64)) ((@fminf binary64), (fl binary64 (5404319552844595) (-54)))) (fun v1 => ret (ieq v1 ((@fminf binary64), (@finf binary64))))));
  (2043, (bind (@mul_rev2 binary64 ((fl binary64 (5764607523034235) (-59)), (@finf binary64)) ((@fminf binary64), (fl binary64 (5404319552844595) (-54)))) (fun v1 => ret (ieq v1 ((@fminf binary64), (fl binary64 (15) (1)))))));
  (2044, (bind (@mul_rev2 binary64 ((@fminf binary64), (@finf binary64)) ((@fminf binary64), (fl binary64 (5404319552844595) (-54)))) (fun v1 => ret (ieq v1 ((@fminf binary64), (@finf binary64))))));
  (2046, (bind (@mul_rev2 binary64 ((fl binary64 (-1) (1)), (fl binary64 (-3602879701896397) (-55))) ((fl binary64 (-7566047373982433) (-55)), (@finf binary64))) (fun v1 => ret (ieq v1 ((@fminf binary64), (fl binary64 (4728779608739021) (-51)))))));
  (2047, (bind (@mul_rev2 binary64 ((fl binary64 (-1) (1)), (@f0 binary64)) ((fl binary64 (-7566047373982433) (-55)), (@finf binary64))) (fun v1 => ret (ieq v1 ((@fminf binary64), (@finf binary64))))));
  (2048, (bind (@mul_rev2 binary64 ((fl binary64 (-1) (1)), (fl binary64 (2476979795053773) (-51))) ((fl binary64 (-7566047373982433) (-55)), (@finf binary64))) (fun v1 => ret (ieq v1 ((@fminf binary64), (@finf binary64))))));
  (2049, (bind (@mul_rev2 binary64 ((@f0 binary64), (fl binary64 (2476979795053773) (-51))) ((fl binary64 (-7566047373982433) (-55)), (@finf binary64))) (fun v1 => ret (ieq v1 ((@fminf binary64), (@finf binary64))))));
  (2050, (bind (@mul_rev2 binary64 ((fl binary64 (5764607523034235) (-59)), (fl binary64 (2476979795053773) (-51))) ((fl binary64 (-7566047373982433) (-55)), (@finf binary64))) (fun v1 => ret (ieq v1 ((fl binary64 (-21) (0)), (@finf binary64))))));
  (2051, (bind (@mul_rev2 binary64 ((@f0 binary64), (@f0 binary64)) ((fl binary64 (-7566047373982433) (-55)), (@finf binary64))) (fun v1 => ret (ieq v1 ((@fminf binary64), (@finf binary64))))));
  (2052, (bind (@mul_rev2 binary64 ((@fminf binary64), (fl binary64 (-3602879701896397) (-55))) ((fl binary64 (-7566047373982433) (-55)), (@finf binary64))) (fun v1 => ret (ieq v1 ((@fminf binary64), (fl binary64 (4728779608739021) (-51)))))));
  (2053, (bind (@mul_rev2 binary64 ((@fminf binary64), (@f0 binary64)) ((fl binary64 (-7566047373982433) (-55)), (@finf binary64))) (fun v1 => ret (ieq v1 ((@fminf binary64), (@finf binary64))))));
  (2054, (bind (@mul_rev2 binary64 ((@fminf binary64), (fl binary64 (2476979795053773) (-51))) ((fl binary64 (-7566047373982433) (-55)), (@finf binary64))) (fun v1 => ret (ieq v1 ((@fminf binary64), (@finf binary64))))));
  (2055, (bind (@mul_rev2 binary64 ((fl binary64 (-1) (1)), (@finf binary64)) ((fl binary64 (-7566047373982433) (-55)), (@finf binary64))) (fun v1 => ret (ieq v1 ((@fminf binary64), (@finf binary64))))));
  (2056, (bind (@mul_rev2 binary64 ((@f0 binary64), (@finf binary64)) ((fl binary64 (-7566047373982433) (-55)), (@finf binary64))) (fun v1 => ret (ieq v1 ((@fminf binary64), (@finf binary64))))));
  (2057, (bind (@mul_rev2 binary64 ((fl binary64 (5764607523034235) (-59)), (@finf binary64)) ((fl binary64 (-7566047373982433) (-55)), (@finf binary64))) (fun v1 => ret (ieq v1 ((fl binary64 (-21) (0)), (@finf binary64))))));
  (2058, (bind (@mul_rev2 binary64 ((@fminf binary64), (@finf binary64)) ((fl binary64 (-7566047373982433) (-55)), (@finf binary64))) (fun v1 => ret (ieq v1 ((@fminf binary64), (@finf binary64))))));
  (2061, (bind (@mul_rev2 binary64 ((fl binary64 (-1) (1)), (fl binary64 (-3602879701896397) (-55))) ((@f0 binary64), (@finf binary64))) (fun v1 => ret (ieq v1 ((@fminf binary64), (@f0 binary64))))));
  (2062, (bind (@mul_rev2 binary64 ((fl binary64 (-1) (1)), (@f0 binary64)) ((@f0 binary64), (@finf binary64))) (fun v1 => ret (ieq v1 ((@fminf binary64), (@finf binary64))))));
  (2063, (bind (@mul_rev2 binary64 ((fl binary64 (-1) (1)), (fl binary64 (2476979795053773) (-51))) ((@f0 binary64), (@finf binary64))) (fun v1 => ret (ieq v1 ((@fminf binary64), (@finf binary64))))));
  (2064, (bind (@mul_rev2 binary64 ((@f0 binary64), (fl binary64 (2476979795053773) (-51))) ((@f0 binary64), (@finf binary64))) (fun v1 => ret (ieq v1 ((@fminf binary64), (@finf binary64))))));
  (2065, (bind (@mul_rev2 binary64 ((fl binary64 (5764607523034235) (-59)), (fl binary64 (2476979795053773) (-51))) ((@f0 binary64), (@finf binary64))) (fun v1 => ret (ieq v1 ((@f0 binary64), (@finf binary64))))));
  (2066, (bind (@mul_rev2 binary64 ((@f0 binary64), (@f0 binary64)) ((@f0 binary64), (@finf binary64))) (fun v1 => ret (ieq v1 ((@fminf binary64), (@finf binary64))))));
  (2067, (bind (@mul_rev2 binary64 ((@fminf binary64), (fl binary64 (-3602879701896397) (-55))) ((@f0 binary64), (@finf binary64))) (fun v1 => ret (ieq v1 ((@fminf binary64), (@f0 binary64))))));
  (2068, (bind (@mul_rev2 binary64 ((@fminf binary64), (@f0 binary64)) ((@f0 binary64), (@finf binary64))) (fun v1 => ret (ieq v1 ((@fminf binary64), (@finf binary64))))));
  (2069, (bind (@mul_rev2 binary64 ((@fminf binary64), (fl binary64 (2476979795053773) (-51))) ((@f0 binary64), (@finf binary64))) (fun v1 => ret (ieq v1 ((@fminf binary64), (@finf binary64))))));
  (2070, (bind (@mul_rev2 binary64 ((fl binary64 (-1) (1)), (@finf binary64)) ((@f0 binary64), (@finf binary64))) (fun v1 => ret (ieq v1 ((@fminf binary64), (@finf binary64))))));
  (2071, (bind (@mul_rev2 binary64 ((@f0 binary64), (@finf binary64)) ((@f0 binary64), (@finf binary64))) (fun v1 => ret (ieq v1 ((@fminf binary64), (@finf binary64))))));
  (2072, (bind (@mul_rev2 binary64 ((fl binary64 (5764607523034235) (-59)), (@finf binary64)) ((@f0 binary64), (@finf binary64))) (fun v1 => ret (ieq v1 ((@f0 binary64), (@finf binary64))))));
  (2073, (bind (@mul_rev2 binary64 ((@fminf binary64), (@finf binary64)) ((@f0 binary64), (@finf binary64))) (fun v1 => ret (ieq v1 ((@fminf binary64), (@finf binary64))))));
  (2075, (bind (@mul_rev2 binary64 ((fl binary64 (-1) (1)), (fl binary64 (-3602879701896397) (-55))) ((fl binary64 (5764607523034235) (-57)), (@finf binary64))) (fun v1 => ret (ieq v1 ((@fminf binary64), (fl binary64 (-5764607523034235) (-58)))))));
  (2076, (bind (@mul_rev2 binary64 ((fl binary64 (-1) (1)), (@f0 binary64)) ((fl binary64 (5764607523034235) (-57)), (@finf binary64))) (fun v1 => ret (ieq v1 ((@fminf binary64), (fl binary64 (-5764607523034235) (-58)))))));
  (2077, (bind (@mul_rev2 binary64 ((fl binary64 (-1) (1)), (fl binary64 (2476979795053773) (-51))) ((fl binary64 (5764607523034235) (-57)), (@finf binary64))) (fun v1 => ret (ieq v1 ((@fminf binary64), (@finf binary64))))));
  (2078, (bind (@mul_rev2 binary64 ((@f0 binary64), (fl binary64 (2476979795053773) (-51))) ((fl binary64 (5764607523034235) (-57)), (@finf binary64))) (fun v1 => ret (ieq v1 ((fl binary64 (5240552293667485) (-57)), (@finf binary64))))));
  (2079, (bind (@mul_rev2 binary64 ((fl binary64 (5764607523034235) (-59)), (fl binary64 (2476979795053773) (-51))) ((fl binary64 (5764607523034235) (-57)), (@finf binary64))) (fun v1 => ret (ieq v1 ((fl binary64 (5240552293667485) (-57)), (@finf binary64))))));
  (2080, (bind (@mul_rev2 binary64 ((@f0 binary64), (@f0 binary64)) ((fl binary64 (5764607523034235) (-57)), (@finf binary64))) (fun v1 => @is_empty binary64 v1)));
  (2081, (bind (@mul_rev2 binary64 ((@fminf binary64), (fl binary64 (-3602879701896397) (-55))) ((fl binary64 (5764607523034235) (-57)), (@finf binary64))) (fun v1 => ret (ieq v1 ((@fminf binary64), (@f0 binary64))))));
  (2082, (bind (@mul_rev2 binary64 ((@fminf binary64), (@f0 binary64)) ((fl binary64 (5764607523034235) (-57)), (@finf binary64))) (fun v1 => ret (ieq v1 ((@fminf binary64), (@f0 binary64))))));
  (2083, (bind (@mul_rev2 binary64 ((@fminf binary64), (fl binary64 (2476979795053773) (-51))) ((fl binary64 (5764607523034235) (-57)), (@finf binary64))) (fun v1 => ret (ieq v1 ((@fminf binary64), (@finf binary64))))));
  (2084, (bind (@mul_rev2 binary64 ((fl binary64 (-1) (1)), (@finf binary64)) ((fl binary64 (5764607523034235) (-57)), (@finf binary64))) (fun v1 => ret (ieq v1 ((@fminf binary64), (@finf binary64))))));
  (2085, (bind (@mul_rev2 binary64 ((@f0 binary64), (@finf binary64)) ((fl binary64 (5764607523034235) (-57)), (@finf binary64))) (fun v1 => ret (ieq v1 ((@f0 binary64), (@finf binary64))))));
  (2086, (bind (@mul_rev2 binary64 ((fl binary64 (5764607523034235) (-59)), (@finf binary64)) ((fl binary64 (5764607523034235) (-57)), (@finf binary64))) (fun v1 => ret (ieq v1 ((@f0 binary64), (@finf binary64))))));
  (2087, (bind (@mul_rev2 binary64 ((@fminf binary64), (@finf binary64)) ((fl binary64 (5764607523034235) (-57)), (@finf binary64))) (fun v1 => ret (ieq v1 ((@fminf binary64), (@finf binary64))))));
  (2089, (bind (@mul_rev2 binary64 ((fl binary64 (-1) (1)), (fl binary64 (-3602879701896397) (-55))) ((@fminf binary64), (@finf binary64))) (fun v1 => ret (ieq v1 ((@fminf binary64), (@finf binary64))))));
  (2090, (bind (@mul_rev2 binary64 ((fl binary64 (-1) (1)), (@f0 binary64)) ((@fminf binary64), (@finf binary64))) (fun v1 => ret (ieq v1 ((@fminf binary64), (@finf binary64))))));
  (2091, (bind (@mul_rev2 binary64 ((fl binary64 (-1) (1)), (fl binary64 (2476979795053773) (-51))) ((@fminf binary64), (@finf binary64))) (fun v1 => ret (ieq v1 ((@fminf binary64), (@finf binary64))))));
  (2092, (bind (@mul_rev2 binary64 ((@f0 binary64), (fl binary64 (2476979795053773) (-51))) ((@fminf binary64), (@finf binary64))) (fun v1 => ret (ieq v1 ((@fminf binary64), (@finf binary64))))));
  (2093, (bind (@mul_rev2 binary64 ((fl binary64 (5764607523034235) (-59)), (fl binary64 (2476979795053773) (-51))) ((@fminf binary64), (@finf binary64))) (fun v1 => ret (ieq v1 ((@fminf binary64), (@finf binary64))))));
  (2094, (bind (@mul_rev2 binary64 ((@f0 binary64), (@f0 binary64)) ((@fminf binary64), (@finf binary64))) (fun v1 => ret (ieq v1 ((@fminf binary64), (@finf binary64))))));
  (2095, (bind (@mul_rev2 binary64 ((@fminf binary64), (fl binary64 (-3602879701896397) (-55))) ((@fminf binary64), (@finf binary64))) (fun v1 => ret (ieq v1 ((@fminf binary64), (@finf binary64))))));
  (2096, (bind (@mul_rev2 binary64 ((@fminf binary64), (@f0 binary64)) ((@fminf binary64), (@finf binary64))) (fun v1 => ret (ieq v1 ((@fminf binary64), (@finf binary64))))));
  (2097, (bind (@mul_rev2 binary64 ((@fminf binary64), (fl binary64 (2476979795053773) (-51))) ((@fminf binary64), (@finf binary64))) (fun v1 => ret (ieq v1 ((@fminf binary64), (@finf binary64))))));
  (2098, (bind (@mul_rev2 binary64 ((fl binary64 (-1) (1)), (@finf binary64)) ((@fminf binary64), (@finf binary64))) (fun v1 => ret (ieq v1 ((@fminf binary64), (@finf binary64))))));
  (2099, (bind (@mul_rev2 binary64 ((@f0 binary64), (@finf binary64)) ((@fminf binary64), (@finf binary64))) (fun v1 => ret (ieq v1 ((@fminf binary64), (@finf binary64))))));
  (2100, (bind (@mul_rev2 binary64 ((fl binary64 (5764607523034235) (-59)), (@finf binary64)) ((@fminf binary64), (@finf binary64))) (fun v1 => ret (ieq v1 ((@fminf binary64), (@finf binary64))))));
  (2101, (bind (@mul_rev2 binary64 ((@fminf binary64), (@finf binary64)) ((@fminf binary64), (@finf binary64))) (fun v1 => ret (ieq v1 ((@fminf binary64), (@finf binary64))))));
  (2103, (bind (@mul_rev binary64 ((fl binary64 (-9007199254740991) (-53)), (fl binary64 (9007199254740991) (-53))) ((fl binary64 (1) (0)), (fl binary64 (1) (0))) ((@f0 binary64), (fl binary64 (1) (0)))) (fun v1 => @is_empty binary64 v1)));
  (2105, (bind get_flags (fun v1 => ret (N.eqb v1 none_bit))));
  (2107, clear_flags);
  (2108, (bind (@mul_rev2 binary64 ((fl binary64 (1) (0)), (fl binary64 (-1) (1))) ((fl binary64 (1) (0)), (fl binary64 (1) (1)))) (fun v1 => @is_empty binary64 v1)));
  (2109, (bind get_flags (fun v1 => ret (N.eqb v1 invalid_operand_bit))));
  (2110, clear_flags);
  (2111, (set_cwd invalid_operand_bit));
  (2112, (throws (@mul_rev2 binary64 ((fl binary64 (1) (0)), (fl binary64 (1) (1))) ((fl binary64 (1) (0)), (fl binary64 (-1) (1)))) Invalid_operand_exception));
  (2113, (bind get_flags (fun v1 => ret (N.eqb v1 invalid_operand_bit))));
  (2114, clear_flags);
  (2115, (set_cwd none_bit))].

(** lines 2121-2146 *)
Definition minimal_mul_rev_mixedtype_test : list (N * M bool) := [
  (2123, (bind (@mul_rev2_mixed binary64 binary32 binary64 (@empty binary32) ((fl binary64 (1) (0)), (fl binary64 (1) (1)))) (fun v1 => @is_empty binary64 v1)));
  (2124, (bind (@mul_rev2_mixed binary32 binary64 binary64 ((fl binary64 (1) (0)), (fl binary64 (1) (1))) (@empty binary64)) (fun v1 => @is_empty binary32 v1)));
  (2126, (bind (@mul_rev2_mixed binary32 binary64 binary64 ((fl binary64 (-1) (1)), (fl binary64 (-3602879701896397) (-55))) ((fl binary64 (-4728779608739021) (-51)), (fl binary64 (-3602879701896397) (-53)))) (fun v1 => ret (ieq v1 ((fl binary32 (3355443) (-24)), (fl binary32 (21) (0)))))));
  (2127, (bind (@mul_rev2_mixed binary32 binary64 binary64 ((fl binary64 (5764607523034235) (-59)), (fl binary64 (2476979795053773) (-51))) ((fl binary64 (-4728779608739021) (-51)), (@f0 binary64))) (fun v1 => ret (ieq v1 ((fl binary32 (-13762561) (-16)), (@f0 binary32))))));
  (2128, (bind (@mul_rev2_mixed binary32 binary64 binary64 ((fl binary64 (5764607523034235) (-59)), (fl binary64 (2476979795053773) (-51))) ((fl binary64 (-4728779608739021) (-51)), (fl binary64 (1080863910568919) (-53)))) (fun v1 => ret (ieq v1 ((fl binary32 (-13762561) (-16)), (fl binary32 (3) (2)))))));
  (2129, (bind (@mul_rev2_mixed binary64 binary32 binary32 ((fl binary32 (5368709) (-29)), (@finf binary32)) ((@f0 binary32), (fl binary32 (16106127) (-27)))) (fun v1 => ret (ieq v1 ((@f0 binary64), (fl binary64 (3) (2)))))));
  (2130, (bind (@mul_rev2_mixed binary64 binary32 binary32 ((fl binary32 (-1) (1)), (fl binary32 (9227469) (-23))) ((fl binary32 (5368709) (-29)), (fl binary32 (16106127) (-27)))) (fun v1 => ret (ieq v1 ((@fminf binary64), (@finf binary64))))));
  (2131, (bind (@mul_rev2_mixed binary64 binary32 binary64 ((fl binary32 (-1) (1)), (fl binary32 (9227469) (-23))) ((@fminf binary64), (fl binary64 (-3602879701896397) (-55)))) (fun v1 => ret (ieq v1 ((@fminf binary64), (@finf binary64))))));
  (2132, (bind (@mul_rev2_mixed binary32 binary64 binary64 ((fl binary64 (-1) (1)), (fl binary64 (2476979795053773) (-51))) ((fl binary64 (5764607523034235) (-57)), (@finf binary64))) (fun v1 => ret (ieq v1 ((@fminf binary32), (@finf binary32))))));
  (2135, (bind get_flags (fun v1 => ret (N.eqb v1 none_bit))));
  (2137, clear_flags);
  (2138, (bind (@mul_rev2_mixed binary32 binary64 binary64 ((fl binary64 (1) (0)), (fl binary64 (-1) (1))) ((fl binary64 (1) (0)), (fl binary64 (1) (1)))) (fun v1 => @is_empty binary32 v1)));
  (2139, (bind get_flags (fun v1 => ret (N.eqb v1 invalid_operand_bit))));
  (2140, clear_flags);
  (2141, (set_cwd invalid_operand_bit));
  (2142, (throws (@mul_rev2_mixed binary64 binary64 binary32 ((fl binary64 (1) (0)), (fl binary64 (1) (1))) ((fl binary32 (1) (0)), (fl binary32 (-1) (1)))) Invalid_operand_exception));
  (2143, (bind get_flags (fun v1 => ret (N.eqb v1 invalid_operand_bit))));
  (2144, clear_flags);
  (2145, (set_cwd none_bit))].

(** lines 2148-2167 *)
Definition minimal_mul_rev_ten_test : list (N * M bool) := [
  (2150, (bind (@mul_rev binary64 ((fl binary64 (-1) (1)), (fl binary64 (-3602879701896397) (-55))) ((fl binary64 (-4728779608739021) (-51)), (fl binary64 (-3602879701896397) (-53))) ((fl binary64 (3602879701896397) (-55)), (fl binary64 (15) (0)))) (fun v1 => ret (ieq v1 ((fl binary64 (3602879701896397) (-54)), (fl binary64 (15) (0)))))));
  (2151, (bind (@mul_rev binary64 ((fl binary64 (-1) (1)), (fl binary64 (2476979795053773) (-51))) ((fl binary64 (-4728779608739021) (-51)), (fl binary64 (-3602879701896397) (-53))) ((@fminf binary64), (@f0 binary64))) (fun v1 => ret (ieq v1 ((@fminf binary64), (fl binary64 (-6550690367084357) (-54)))))));
  (2152, (bind (@mul_rev binary64 ((fl binary64 (5764607523034235) (-59)), (fl binary64 (2476979795053773) (-51))) ((fl binary64 (-4728779608739021) (-51)), (@f0 binary64)) ((fl binary64 (-11) (1)), (fl binary64 (-1) (0)))) (fun v1 => ret (ieq v1 ((fl binary64 (-11) (1)), (fl binary64 (-1) (0)))))));
  (2153, (bind (@mul_rev binary64 ((@fminf binary64), (fl binary64 (-3602879701896397) (-55))) ((@f0 binary64), (fl binary64 (1080863910568919) (-53))) ((fl binary64 (1) (0)), (@finf binary64))) (fun v1 => @is_empty binary64 v1)));
  (2154, (bind (@mul_rev binary64 ((fl binary64 (-1) (1)), (fl binary64 (2476979795053773) (-51))) ((fl binary64 (5764607523034235) (-57)), (@finf binary64)) ((@f0 binary64), (@finf binary64))) (fun v1 => ret (ieq v1 ((fl binary64 (5240552293667485) (-57)), (@finf binary64))))));
  (2156, (bind get_flags (fun v1 => ret (N.eqb v1 none_bit))));
  (2158, clear_flags);
  (2159, (bind (@mul_rev binary64 ((fl binary64 (1) (0)), (fl binary64 (-1) (1))) ((fl binary64 (1) (0)), (fl binary64 (1) (1))) ((fl binary64 (5) (0)), (fl binary64 (1) (0)))) (fun v1 => @is_empty binary64 v1)));
  (2160, (bind get_flags (fun v1 => ret (N.eqb v1 invalid_operand_bit))));
  (2161, clear_flags);
  (2162, (set_cwd invalid_operand_bit));
  (2163, (throws (@mul_rev binary64 ((fl binary64 (1) (0)), (fl binary64 (1) (1))) ((fl binary64 (1) (0)), (fl binary64 (-1) (1))) ((fl binary64 (5) (0)), (fl binary64 (1) (0)))) Invalid_operand_exception));
  (2164, (bind get_flags (fun v1 => ret (N.eqb v1 invalid_operand_bit))));
  (2165, clear_flags);
  (2166, (set_cwd none_bit))].

(** lines 2172-2189 *)
Definition minimal_mul_rev_ten_mixedtype_test : list (N * M bool) := [
  (2174, (bind (@mul_rev_mixed binary32 binary64 binary64 binary64 ((fl binary64 (-1) (1)), (fl binary64 (-3602879701896397) (-55))) ((fl binary64 (-4728779608739021) (-51)), (fl binary64 (-3602879701896397) (-53))) ((fl binary64 (3602879701896397) (-55)), (fl binary64 (15) (0)))) (fun v1 => ret (ieq v1 ((fl binary32 (3355443) (-24)), (fl binary32 (15) (0)))))));
  (2175, (bind (@mul_rev_mixed binary32 binary64 binary64 binary32 ((fl binary64 (-1) (1)), (fl binary64 (2476979795053773) (-51))) ((fl binary64 (5764607523034235) (-57)), (@finf binary64)) ((@fminf binary32), (@f0 binary32))) (fun v1 => ret (ieq v1 ((@fminf binary32), (fl binary32 (-5368709) (-28)))))));
  (2178, (bind get_flags (fun v1 => ret (N.eqb v1 none_bit))));
  (2180, clear_flags);
  (2181, (bind (@mul_rev_mixed binary32 binary64 binary64 binary64 ((fl binary64 (1) (0)), (fl binary64 (-1) (1))) ((fl binary64 (1) (0)), (fl binary64 (1) (1))) ((fl binary64 (1) (0)), (fl binary64 (1) (1)))) (fun v1 => @is_empty binary32 v1)));
  (2182, (bind get_flags (fun v1 => ret (N.eqb v1 invalid_operand_bit))));
  (2183, clear_flags);
  (2184, (set_cwd invalid_operand_bit));
  (2185, (throws (@mul_rev_mixed binary64 binary64 binary32 binary32 ((fl binary64 (1) (0)), (fl binary64 (1) (1))) ((fl binary32 (1) (0)), (fl binary32 (-1) (1))) ((fl binary32 (1) (0)), (fl binary32 (-1) (1)))) Invalid_operand_exception));
  (2186, (bind get_flags (fun v1 => ret (N.eqb v1 invalid_operand_bit))));
  (2187, clear_flags);
  (2188, (set_cwd none_bit))].

(** lines 2193-2218 *)
Definition minimal_mul_rev_dec_test : list (N * M bool) := [
  (2195, (bind (@mul_rev2_dec binary64 (@nai binary64) (((fl binary64 (1) (0)), (fl binary64 (1) (1))), dac)) (fun v1 => @is_nai binary64 v1)));
  (2196, (bind (@mul_rev2_dec binary64 (((fl binary64 (1) (0)), (fl binary64 (1) (1))), dac) (@nai binary64)) (fun v1 => @is_nai binary64 v1)));
  (2197, (bind (@mul_rev2_dec binary64 (@nai binary64) (@nai binary64)) (fun v1 => @is_nai binary64 v1)));
  (2199, (bind (@mul_rev2_dec binary64 (((fl binary64 (-1) (1)), (fl binary64 (-3602879701896397) (-55))), dac) (((fl binary64 (-4728779608739021) (-51)), (fl binary64 (-3602879701896397) (-53))), dac)) (fun v1 => ret (dieq v1 (((fl binary64 (3602879701896397) (-54)), (fl binary64 (21) (0))), trv)))));
  (2200, (bind (@mul_rev2_dec binary64 (((fl binary64 (-1) (1)), (fl binary64 (-3602879701896397) (-55))), def) (((fl binary64 (-4728779608739021) (-51)), (@f0 binary64)), def)) (fun v1 => ret (dieq v1 (((@f0 binary64), (fl binary64 (21) (0))), trv)))));
  (2201, (bind (@mul_rev2_dec binary64 (((fl binary64 (-1) (1)), (fl binary64 (-3602879701896397) (-55))), com) (((fl binary64 (-4728779608739021) (-51)), (fl binary64 (1080863910568919) (-53))), dac)) (fun v1 => ret (dieq v1 (((fl binary64 (-5404319552844595) (-52)), (fl binary64 (21) (0))), trv)))));
  (2202, (bind (@mul_rev2_dec binary64 (((@fminf binary64), (fl binary64 (-3602879701896397) (-55))), dac) (((@f0 binary64), (fl binary64 (1080863910568919) (-53))), com)) (fun v1 => ret (dieq v1 (((fl binary64 (-5404319552844595) (-52)), (@f0 binary64)), trv)))));
  (2203, (bind (@mul_rev2_dec binary64 (((fl binary64 (5764607523034235) (-59)), (fl binary64 (2476979795053773) (-51))), def) (((fl binary64 (5764607523034235) (-59)), (fl binary64 (1080863910568919) (-53))), dac)) (fun v1 => ret (dieq v1 (((fl binary64 (5240552293667485) (-59)), (fl binary64 (3) (2))), trv)))));
  (2204, (bind (@mul_rev2_dec binary64 (((fl binary64 (5764607523034235) (-59)), (fl binary64 (2476979795053773) (-51))), dac) (((@fminf binary64), (fl binary64 (5404319552844595) (-54))), def)) (fun v1 => ret (dieq v1 (((@fminf binary64), (fl binary64 (15) (1))), trv)))));
  (2205, (bind (@mul_rev2_dec binary64 (((@fminf binary64), (fl binary64 (-3602879701896397) (-55))), trv) (((fl binary64 (-7566047373982433) (-55)), (@finf binary64)), dac)) (fun v1 => ret (dieq v1 (((@fminf binary64), (fl binary64 (4728779608739021) (-51))), trv)))));
  (2207, (bind get_flags (fun v1 => ret (N.eqb v1 none_bit))));
  (2209, clear_flags);
  (2210, (bind (@mul_rev2_dec binary64 (((fl binary64 (1) (0)), (fl binary64 (-1) (1))), dac) (((fl binary64 (1) (0)), (fl binary64 (1) (1))), dac)) (fun v1 => @is_nai binary64 v1)));
  (2211, (bind get_flags (fun v1 => ret (N.eqb v1 invalid_operand_bit))));
  (2212, clear_flags);
  (2213, (set_cwd invalid_operand_bit));
  (2214, (throws (@mul_rev2_dec binary64 (((fl binary64 (1) (0)), (fl binary64 (1) (1))), dac) (((fl binary64 (1) (0)), (fl binary64 (-1) (1))), dac)) Invalid_operand_exception));
  (2215, (bind get_flags (fun v1 => ret (N.eqb v1 invalid_operand_bit))));
  (2216, clear_flags);
  (2217, (set_cwd none_bit))].

(** lines 2223-2243 *)
Definition minimal_mul_rev_dec_mixedtype_test : list (N * M bool) := [
  (2226, (bind (@mul_rev2_dec_mixed binary32 binary64 binary64 (((fl binary64 (-1) (1)), (fl binary64 (-3602879701896397) (-55))), dac) (((fl binary64 (-4728779608739021) (-51)), (fl binary64 (-3602879701896397) (-53))), dac)) (fun v1 => ret (dieq v1 (((fl binary32 (3355443) (-24)), (fl binary32 (21) (0))), trv)))));
  (2227, (bind (@mul_rev2_dec_mixed binary32 binary64 binary64 (((fl binary64 (5764607523034235) (-59)), (fl binary64 (2476979795053773) (-51))), def) (((fl binary64 (-4728779608739021) (-51)), (@f0 binary64)), com)) (fun v1 => ret (dieq v1 (((fl binary32 (-13762561) (-16)), (@f0 binary32)), trv)))));
  (2228, (bind (@mul_rev2_dec_mixed binary32 binary64 binary64 (((fl binary64 (5764607523034235) (-59)), (fl binary64 (2476979795053773) (-51))), trv) (((fl binary64 (-4728779608739021) (-51)), (fl binary64 (1080863910568919) (-53))), dac)) (fun v1 => ret (dieq v1 (((fl binary32 (-13762561) (-16)), (fl binary32 (3) (2))), trv)))));
  (2232, (bind get_flags (fun v1 => ret (N.eqb v1 none_bit))));
  (2234, clear_flags);
  (2235, (bind (@mul_rev2_dec_mixed binary32 binary64 binary64 (((fl binary64 (1) (0)), (fl binary64 (-1) (1))), dac) (((fl binary64 (1) (0)), (fl binary64 (1) (1))), dac)) (fun v1 => @is_nai binary32 v1)));
  (2236, (bind get_flags (fun v1 => ret (N.eqb v1 invalid_operand_bit))));
  (2237, clear_flags);
  (2238, (set_cwd invalid_operand_bit));
  (2239, (throws (@mul_rev2_dec_mixed binary64 binary64 binary32 (((fl binary64 (1) (0)), (fl binary64 (1) (1))), dac) (((fl binary32 (1) (0)), (fl binary32 (-1) (1))), dac)) Invalid_operand_exception));
  (2240, (bind get_flags (fun v1 => ret (N.eqb v1 invalid_operand_bit))));
  (2241, clear_flags);
  (2242, (set_cwd none_bit))].

(** lines 2245-2264 *)
Definition minimal_mul_rev_dec_ten_test : list (N * M bool) := [
  (2247, (bind (@mul_rev_dec binary64 (((fl binary64 (-1) (1)), (fl binary64 (-3602879701896397) (-55))), dac) (((fl binary64 (-4728779608739021) (-51)), (fl binary64 (-3602879701896397) (-53))), dac) (((fl binary64 (3602879701896397) (-55)), (fl binary64 (15) (0))), dac)) (fun v1 => ret (dieq v1 (((fl binary64 (3602879701896397) (-54)), (fl binary64 (15) (0))), trv)))));
  (2248, (bind (@mul_rev_dec binary64 (((fl binary64 (-1) (1)), (fl binary64 (2476979795053773) (-51))), def) (((fl binary64 (-4728779608739021) (-51)), (fl binary64 (-3602879701896397) (-53))), com) (((@fminf binary64), (@f0 binary64)), dac)) (fun v1 => ret (dieq v1 (((@fminf binary64), (fl binary64 (-6550690367084357) (-54))), trv)))));
  (2249, (bind (@mul_rev_dec binary64 (((fl binary64 (5764607523034235) (-59)), (fl binary64 (2476979795053773) (-51))), com) (((fl binary64 (-4728779608739021) (-51)), (@f0 binary64)), dac) (((fl binary64 (-11) (1)), (fl binary64 (-1) (0))), dac)) (fun v1 => ret (dieq v1 (((fl binary64 (-11) (1)), (fl binary64 (-1) (0))), trv)))));
  (2250, (bind (@mul_rev_dec binary64 (((@fminf binary64), (fl binary64 (-3602879701896397) (-55))), dac) (((@f0 binary64), (fl binary64 (1080863910568919) (-53))), com) (((fl binary64 (1) (0)), (@finf binary64)), dac)) (fun v1 => @is_empty_dec binary64 v1)));
  (2251, (bind (@mul_rev_dec binary64 (((fl binary64 (-1) (1)), (fl binary64 (2476979795053773) (-51))), def) (((fl binary64 (5764607523034235) (-57)), (@finf binary64)), dac) (((@f0 binary64), (@finf binary64)), dac)) (fun v1 => ret (dieq v1 (((fl binary64 (5240552293667485) (-57)), (@finf binary64)), trv)))));
  (2253, (bind get_flags (fun v1 => ret (N.eqb v1 none_bit))));
  (2255, clear_flags);
  (2256, (bind (@mul_rev_dec binary64 (((fl binary64 (1) (0)), (fl binary64 (-1) (1))), ill) (((fl binary64 (1) (0)), (fl binary64 (1) (1))), dac) (((fl binary64 (5) (0)), (fl binary64 (1) (0))), dac)) (fun v1 => @is_nai binary64 v1)));
  (2257, (bind get_flags (fun v1 => ret (N.eqb v1 invalid_operand_bit))));
  (2258, clear_flags);
  (2259, (set_cwd invalid_operand_bit));
  (2260, (throws (@mul_rev_dec binary64 (((fl binary64 (1) (0)), (fl binary64 (1) (1))), def) (((fl binary64 (1) (0)), (fl binary64 (-1) (1))), dac) (((fl binary64 (5) (0)), (fl binary64 (1) (0))), com)) Invalid_operand_exception));
  (2261, (bind get_flags (fun v1 => ret (N.eqb v1 invalid_operand_bit))));
  (2262, clear_flags);
  (2263, (set_cwd none_bit))].

(** lines 2269-2286 *)
Definition minimal_mul_rev_dec_ten_mixedtype_test : list (N * M bool) := [
  (2271, (bind (@mul_rev_dec_mixed binary32 binary64 binary64 binary64 (((fl binary64 (-1) (1)), (fl binary64 (-3602879701896397) (-55))), def) (((fl binary64 (-4728779608739021) (-51)), (fl binary64 (-3602879701896397) (-53))), def) (((fl binary64 (3602879701896397) (-55)), (fl binary64 (15) (0))), def)) (fun v1 => ret (dieq v1 (((fl binary32 (3355443) (-24)), (fl binary32 (15) (0))), trv)))));
  (2272, (bind (@mul_rev_dec_mixed binary32 binary64 binary64 binary32 (((fl binary64 (-1) (1)), (fl binary64 (2476979795053773) (-51))), dac) (((fl binary64 (5764607523034235) (-57)), (@finf binary64)), dac) (((@fminf binary32), (@f0 binary32)), def)) (fun v1 => ret (dieq v1 (((@fminf binary32), (fl binary32 (-5368709) (-28))), trv)))));
  (2275, (bind get_flags (fun v1 => ret (N.eqb v1 none_bit))));
  (2277, clear_flags);
  (2278, (bind (@mul_rev_dec_mixed binary32 binary64 binary64 binary64 (((fl binary64 (1) (0)), (fl binary64 (-1) (1))), dac) (((fl binary64 (1) (0)), (fl binary64 (1) (1))), com) (((fl binary64 (1) (0)), (fl binary64 (1) (1))), ill)) (fun v1 => @is_nai binary32 v1)));
  (2279, (bind get_flags (fun v1 => ret (N.eqb v1 invalid_operand_bit))));
  (2280, clear_flags);
  (2281, (set_cwd invalid_operand_bit));
  (2282, (throws (@mul_rev_dec_mixed binary64 binary64 binary32 binary32 (((fl binary64 (1) (0)), (fl binary64 (1) (1))), dac) (((fl binary32 (1) (0)), (fl binary32 (-1) (1))), com) (((fl binary32 (1) (0)), (fl binary32 (-1) (1))), def)) Invalid_operand_exception));
  (2283, (bind get_flags (fun v1 => ret (N.eqb v1 invalid_operand_bit))));
  (2284, clear_flags);
  (2285, (set_cwd none_bit))].

Example rev_func_agree : test_file [
  minimal_sqr_rev_test; minimal_sqr_rev_bin_test; minimal_sqr_rev_mixedtype_test; minimal_sqr_rev_bin_mixedtype_test; minimal_sqr_rev_dec_test; minimal_sqr_rev_dec_bin_test; minimal_sqr_rev_dec_mixedtype_test; minimal_sqr_rev_dec_bin_mixedtype_test; minimal_abs_rev_test; minimal_abs_rev_bin_test; minimal_abs_rev_mixedtype_test; minimal_abs_rev_bin_mixedtype_test; minimal_abs_rev_dec_test; minimal_abs_rev_dec_bin_test; minimal_abs_rev_dec_mixedtype_test; minimal_abs_rev_dec_bin_mixedtype_test; minimal_pown_rev_test; minimal_pown_rev_bin_test; minimal_pown_rev_mixedtype_test; minimal_pown_rev_bin_mixedtype_test; minimal_pown_rev_dec_test; minimal_pown_rev_dec_bin_test; minimal_pown_rev_dec_mixedtype_test; minimal_pown_rev_dec_bin_mixedtype_test; minimal_sin_rev_test; minimal_sin_rev_bin_test; minimal_sin_rev_mixedtype_test; minimal_sin_rev_bin_mixedtype_test; minimal_sin_rev_dec_test; minimal_sin_rev_dec_bin_test; minimal_sin_rev_dec_mixedtype_test; minimal_sin_rev_dec_bin_mixedtype_test; minimal_cos_rev_test; minimal_cos_rev_bin_test; minimal_cos_rev_mixedtype_test; minimal_cos_rev_bin_mixedtype_test; minimal_cos_rev_dec_test; minimal_cos_rev_dec_bin_test; minimal_cos_rev_dec_mixedtype_test; minimal_cos_rev_dec_bin_mixedtype_test; minimal_tan_rev_test; minimal_tan_rev_bin_test; minimal_tan_rev_mixedtype_test; minimal_tan_rev_bin_mixedtype_test; minimal_tan_rev_dec_test; minimal_tan_rev_dec_bin_test; minimal_tan_rev_dec_mixedtype_test; minimal_tan_rev_dec_bin_mixedtype_test; minimal_cosh_rev_test; minimal_cosh_rev_bin_test; minimal_cosh_rev_mixedtype_test; minimal_cosh_rev_bin_mixedtype_test; minimal_cosh_rev_dec_test; minimal_cosh_rev_dec_bin_test; minimal_cosh_rev_dec_mixedtype_test; minimal_cosh_rev_dec_bin_mixedtype_test; minimal_mul_rev_test; minimal_mul_rev_mixedtype_test; minimal_mul_rev_ten_test; minimal_mul_rev_ten_mixedtype_test; minimal_mul_rev_dec_test; minimal_mul_rev_dec_mixedtype_test; minimal_mul_rev_dec_ten_test; minimal_mul_rev_dec_ten_mixedtype_test] = [].
Proof. vm_compute. reflexivity. Qed.
