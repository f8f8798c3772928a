(** * The checks of the unit tests in /repo/test/p1788/flavor/infsup/setbased/
    test_mpfr_bin_ieee754_flavor_cancel_func.cpp, run on the model

    One definition per test case of that file, the number before a check is its
    line there.  These are tests of the model, not proofs about it. *)

From Coq Require Import ZArith NArith Bool List.
From Flocq Require Import IEEE754.BinarySingleNaN.
From Verif Require Import Fmt Spec Exc Deco MBase MBool MArith MElem MDec MNum MCancel MOverlap MClass MRev MRev1 MMixed Ex TestRun.
Import ListNotations.
Local Open Scope N_scope.

(** lines 56-137 *)
Definition minimal_cancel_plus_test : list (N * M bool) := [
  (58, (bind (@cancel_plus binary64 ((@fminf binary64), (fl binary64 (-1) (0))) (@empty binary64)) (fun v1 => ret (ieq v1 (@entire binary64)))));
  (59, (bind (@cancel_plus binary64 ((fl binary64 (-1) (0)), (@finf binary64)) (@empty binary64)) (fun v1 => ret (ieq v1 (@entire binary64)))));
  (60, (bind (@cancel_plus binary64 (@entire binary64) (@empty binary64)) (fun v1 => ret (ieq v1 (@entire binary64)))));
  (61, (bind (@cancel_plus binary64 ((@fminf binary64), (fl binary64 (-1) (0))) ((fl binary64 (-5) (0)), (fl binary64 (1) (0)))) (fun v1 => ret (ieq v1 (@entire binary64)))));
  (62, (bind (@cancel_plus binary64 ((fl binary64 (-1) (0)), (@finf binary64)) ((fl binary64 (-5) (0)), (fl binary64 (1) (0)))) (fun v1 => ret (ieq v1 (@entire binary64)))));
  (63, (bind (@cancel_plus binary64 (@entire binary64) ((fl binary64 (-5) (0)), (fl binary64 (1) (0)))) (fun v1 => ret (ieq v1 (@entire binary64)))));
  (64, (bind (@cancel_plus binary64 ((@fminf binary64), (fl binary64 (-1) (0))) (@entire binary64)) (fun v1 => ret (ieq v1 (@entire binary64)))));
  (65, (bind (@cancel_plus binary64 ((fl binary64 (-1) (0)), (@finf binary64)) (@entire binary64)) (fun v1 => ret (ieq v1 (@entire binary64)))));
  (66, (bind (@cancel_plus binary64 (@empty binary64) ((fl binary64 (1) (0)), (@finf binary64))) (fun v1 => ret (ieq v1 (@entire binary64)))));
  (67, (bind (@cancel_plus binary64 (@empty binary64) ((@fminf binary64), (fl binary64 (1) (0)))) (fun v1 => ret (ieq v1 (@entire binary64)))));
  (68, (bind (@cancel_plus binary64 (@empty binary64) (@entire binary64)) (fun v1 => ret (ieq v1 (@entire binary64)))));
  (69, (bind (@cancel_plus binary64 ((fl binary64 (-1) (0)), (fl binary64 (5) (0))) ((fl binary64 (1) (0)), (@finf binary64))) (fun v1 => ret (ieq v1 (@entire binary64)))));
  (70, (bind (@cancel_plus binary64 ((fl binary64 (-1) (0)), (fl binary64 (5) (0))) ((@fminf binary64), (fl binary64 (1) (0)))) (fun v1 => ret (ieq v1 (@entire binary64)))));
  (71, (bind (@cancel_plus binary64 ((fl binary64 (-1) (0)), (fl binary64 (5) (0))) (@entire binary64)) (fun v1 => ret (ieq v1 (@entire binary64)))));
  (72, (bind (@cancel_plus binary64 (@entire binary64) ((fl binary64 (1) (0)), (@finf binary64))) (fun v1 => ret (ieq v1 (@entire binary64)))));
  (73, (bind (@cancel_plus binary64 (@entire binary64) ((@fminf binary64), (fl binary64 (1) (0)))) (fun v1 => ret (ieq v1 (@entire binary64)))));
  (74, (bind (@cancel_plus binary64 (@entire binary64) (@entire binary64)) (fun v1 => ret (ieq v1 (@entire binary64)))));
  (76, (bind (@cancel_plus binary64 ((fl binary64 (-5) (0)), (fl binary64 (-1) (0))) ((fl binary64 (1) (0)), (fl binary64 (2871044762448691) (-49)))) (fun v1 => ret (ieq v1 (@entire binary64)))));
  (77, (bind (@cancel_plus binary64 ((fl binary64 (-5) (0)), (fl binary64 (-1) (0))) ((fl binary64 (8106479329266893) (-53)), (fl binary64 (5) (0)))) (fun v1 => ret (ieq v1 (@entire binary64)))));
  (78, (bind (@cancel_plus binary64 ((fl binary64 (-5) (0)), (fl binary64 (-1) (0))) ((fl binary64 (8106479329266893) (-53)), (fl binary64 (2871044762448691) (-49)))) (fun v1 => ret (ieq v1 (@entire binary64)))));
  (79, (bind (@cancel_plus binary64 ((fl binary64 (-5) (1)), (fl binary64 (5) (0))) ((fl binary64 (-5) (0)), (fl binary64 (5685794529555251) (-49)))) (fun v1 => ret (ieq v1 (@entire binary64)))));
  (80, (bind (@cancel_plus binary64 ((fl binary64 (-5) (1)), (fl binary64 (5) (0))) ((fl binary64 (-2871044762448691) (-49)), (fl binary64 (5) (1)))) (fun v1 => ret (ieq v1 (@entire binary64)))));
  (81, (bind (@cancel_plus binary64 ((fl binary64 (-5) (1)), (fl binary64 (5) (0))) ((fl binary64 (-2871044762448691) (-49)), (fl binary64 (5685794529555251) (-49)))) (fun v1 => ret (ieq v1 (@entire binary64)))));
  (82, (bind (@cancel_plus binary64 ((fl binary64 (1) (0)), (fl binary64 (5) (0))) ((fl binary64 (-5) (0)), (fl binary64 (-8106479329266893) (-53)))) (fun v1 => ret (ieq v1 (@entire binary64)))));
  (83, (bind (@cancel_plus binary64 ((fl binary64 (1) (0)), (fl binary64 (5) (0))) ((fl binary64 (-2871044762448691) (-49)), (fl binary64 (-1) (0)))) (fun v1 => ret (ieq v1 (@entire binary64)))));
  (84, (bind (@cancel_plus binary64 ((fl binary64 (1) (0)), (fl binary64 (5) (0))) ((fl binary64 (-2871044762448691) (-49)), (fl binary64 (-8106479329266893) (-53)))) (fun v1 => ret (ieq v1 (@entire binary64)))));
  (86, (bind (@cancel_plus binary64 ((fl binary64 (-5) (1)), (fl binary64 (-1) (0))) (@empty binary64)) (fun v1 => ret (ieq v1 (@entire binary64)))));
  (87, (bind (@cancel_plus binary64 ((fl binary64 (-5) (1)), (fl binary64 (5) (0))) (@empty binary64)) (fun v1 => ret (ieq v1 (@entire binary64)))));
  (88, (bind (@cancel_plus binary64 ((fl binary64 (1) (0)), (fl binary64 (5) (0))) (@empty binary64)) (fun v1 => ret (ieq v1 (@entire binary64)))));
  (91, (bind (@cancel_plus binary64 (@empty binary64) (@empty binary64)) (fun v1 => @is_empty binary64 v1)));
  (92, (bind (@cancel_plus binary64 (@empty binary64) ((fl binary64 (1) (0)), (fl binary64 (5) (1)))) (fun v1 => @is_empty binary64 v1)));
  (93, (bind (@cancel_plus binary64 (@empty binary64) ((fl binary64 (-5) (0)), (fl binary64 (5) (1)))) (fun v1 => @is_empty binary64 v1)));
  (94, (bind (@cancel_plus binary64 (@empty binary64) ((fl binary64 (-5) (0)), (fl binary64 (-1) (0)))) (fun v1 => @is_empty binary64 v1)));
  (96, (bind (@cancel_plus binary64 ((fl binary64 (-2871044762448691) (-49)), (@fm0 binary64)) ((@f0 binary64), (fl binary64 (5) (0)))) (fun v1 => ret (ieq v1 ((fl binary64 (-56294995342131) (-49)), (@f0 binary64))))));
  (97, (bind (@cancel_plus binary64 ((fl binary64 (-2871044762448691) (-49)), (fl binary64 (-1) (0))) ((fl binary64 (1) (0)), (fl binary64 (5) (0)))) (fun v1 => ret (ieq v1 ((fl binary64 (-56294995342131) (-49)), (@f0 binary64))))));
  (98, (bind (@cancel_plus binary64 ((fl binary64 (-5) (0)), (fl binary64 (-8106479329266893) (-53))) ((fl binary64 (1) (0)), (fl binary64 (5) (0)))) (fun v1 => ret (ieq v1 ((@f0 binary64), (fl binary64 (900719925474099) (-53)))))));
  (99, (bind (@cancel_plus binary64 ((fl binary64 (-2871044762448691) (-49)), (fl binary64 (-8106479329266893) (-53))) ((fl binary64 (1) (0)), (fl binary64 (5) (0)))) (fun v1 => ret (ieq v1 ((fl binary64 (-56294995342131) (-49)), (fl binary64 (900719925474099) (-53)))))));
  (100, (bind (@cancel_plus binary64 ((fl binary64 (-5) (0)), (fl binary64 (-1) (0))) ((fl binary64 (1) (0)), (fl binary64 (5) (0)))) (fun v1 => ret (ieq v1 ((@f0 binary64), (@f0 binary64))))));
  (101, (bind (@cancel_plus binary64 ((fl binary64 (-5685794529555251) (-49)), (fl binary64 (5) (0))) ((fl binary64 (-5) (0)), (fl binary64 (5) (1)))) (fun v1 => ret (ieq v1 ((fl binary64 (-56294995342131) (-49)), (@f0 binary64))))));
  (102, (bind (@cancel_plus binary64 ((fl binary64 (-5) (1)), (fl binary64 (2871044762448691) (-49))) ((fl binary64 (-5) (0)), (fl binary64 (5) (1)))) (fun v1 => ret (ieq v1 ((@f0 binary64), (fl binary64 (56294995342131) (-49)))))));
  (103, (bind (@cancel_plus binary64 ((fl binary64 (-5685794529555251) (-49)), (fl binary64 (2871044762448691) (-49))) ((fl binary64 (-5) (0)), (fl binary64 (5) (1)))) (fun v1 => ret (ieq v1 ((fl binary64 (-56294995342131) (-49)), (fl binary64 (56294995342131) (-49)))))));
  (104, (bind (@cancel_plus binary64 ((fl binary64 (-5) (1)), (fl binary64 (5) (0))) ((fl binary64 (-5) (0)), (fl binary64 (5) (1)))) (fun v1 => ret (ieq v1 ((@f0 binary64), (@f0 binary64))))));
  (105, (bind (@cancel_plus binary64 ((fl binary64 (8106479329266893) (-53)), (fl binary64 (5) (0))) ((fl binary64 (-5) (0)), (fl binary64 (-1) (0)))) (fun v1 => ret (ieq v1 ((fl binary64 (-900719925474099) (-53)), (@f0 binary64))))));
  (106, (bind (@cancel_plus binary64 ((fl binary64 (1) (0)), (fl binary64 (2871044762448691) (-49))) ((fl binary64 (-5) (0)), (fl binary64 (-1) (0)))) (fun v1 => ret (ieq v1 ((@f0 binary64), (fl binary64 (56294995342131) (-49)))))));
  (107, (bind (@cancel_plus binary64 ((@f0 binary64), (fl binary64 (2871044762448691) (-49))) ((fl binary64 (-5) (0)), (@fm0 binary64))) (fun v1 => ret (ieq v1 ((@f0 binary64), (fl binary64 (56294995342131) (-49)))))));
  (108, (bind (@cancel_plus binary64 ((fl binary64 (8106479329266893) (-53)), (fl binary64 (2871044762448691) (-49))) ((fl binary64 (-5) (0)), (fl binary64 (-1) (0)))) (fun v1 => ret (ieq v1 ((fl binary64 (-900719925474099) (-53)), (fl binary64 (56294995342131) (-49)))))));
  (109, (bind (@cancel_plus binary64 ((fl binary64 (1) (0)), (fl binary64 (5) (0))) ((fl binary64 (-5) (0)), (fl binary64 (-1) (0)))) (fun v1 => ret (ieq v1 ((@f0 binary64), (@f0 binary64))))));
  (110, (bind (@cancel_plus binary64 ((@f0 binary64), (fl binary64 (5) (0))) ((fl binary64 (-5) (0)), (@fm0 binary64))) (fun v1 => ret (ieq v1 ((@f0 binary64), (@f0 binary64))))));
  (112, (bind (@cancel_plus binary64 ((fl binary64 (562949953421311) (-48)), (fl binary64 (562949953421311) (-48))) ((fl binary64 (-3602879701896397) (-55)), (fl binary64 (-3602879701896397) (-55)))) (fun v1 => ret (ieq v1 ((fl binary64 (4278419646001963) (-51)), (fl binary64 (8556839292003927) (-52)))))));
  (113, (bind (@cancel_plus binary64 ((fl binary64 (-3602879701896397) (-55)), (fl binary64 (562949953421311) (-48))) ((fl binary64 (-3602879701896397) (-55)), (fl binary64 (5764607523034235) (-59)))) (fun v1 => ret (ieq v1 ((fl binary64 (-6485183463413515) (-56)), (fl binary64 (8556839292003927) (-52)))))));
  (115, (bind (@cancel_plus binary64 ((fl binary64 (9007199254740991) (971)), (fl binary64 (9007199254740991) (971))) ((fl binary64 (9007199254740991) (971)), (fl binary64 (9007199254740991) (971)))) (fun v1 => ret (ieq v1 ((fl binary64 (9007199254740991) (971)), (@finf binary64))))));
  (116, (bind (@cancel_plus binary64 ((fl binary64 (-9007199254740991) (971)), (fl binary64 (9007199254740991) (971))) ((fl binary64 (-9007199254740991) (971)), (fl binary64 (9007199254740991) (971)))) (fun v1 => ret (ieq v1 ((@f0 binary64), (@f0 binary64))))));
  (117, (bind (@cancel_plus binary64 ((fl binary64 (-9007199254740991) (971)), (fl binary64 (9007199254740991) (971))) ((fl binary64 (-4503599627370495) (972)), (fl binary64 (9007199254740991) (971)))) (fun v1 => ret (ieq v1 ((@f0 binary64), (fl binary64 (1) (971)))))));
  (118, (bind (@cancel_plus binary64 ((fl binary64 (-9007199254740991) (971)), (fl binary64 (9007199254740991) (971))) ((fl binary64 (-9007199254740991) (971)), (fl binary64 (4503599627370495) (972)))) (fun v1 => ret (ieq v1 ((fl binary64 (-1) (971)), (@f0 binary64))))));
  (119, (bind (@cancel_plus binary64 ((fl binary64 (-9007199254740991) (971)), (fl binary64 (4503599627370495) (972))) ((fl binary64 (-9007199254740991) (971)), (fl binary64 (9007199254740991) (971)))) (fun v1 => ret (ieq v1 (@entire binary64)))));
  (120, (bind (@cancel_plus binary64 ((fl binary64 (-4503599627370495) (972)), (fl binary64 (9007199254740991) (971))) ((fl binary64 (-9007199254740991) (971)), (fl binary64 (9007199254740991) (971)))) (fun v1 => ret (ieq v1 (@entire binary64)))));
  (122, (bind (@cancel_plus binary64 ((fl binary64 (-1) (0)), (fl binary64 (9007199254740991) (-105))) ((fl binary64 (-1) (0)), (fl binary64 (4503599627370495) (-104)))) (fun v1 => ret (ieq v1 ((fl binary64 (-9007199254740991) (-53)), (fl binary64 (-4503599627370495) (-52)))))));
  (123, (bind (@cancel_plus binary64 ((fl binary64 (-1) (0)), (fl binary64 (4503599627370495) (-104))) ((fl binary64 (-1) (0)), (fl binary64 (9007199254740991) (-105)))) (fun v1 => ret (ieq v1 (@entire binary64)))));
  (126, (bind get_flags (fun v1 => ret (N.eqb v1 none_bit))));
  (128, clear_flags);
  (129, (bind (@cancel_plus binary64 ((fl binary64 (1) (0)), (fl binary64 (-9007199254740991) (971))) ((fl binary64 (3) (0)), (fl binary64 (1) (2)))) (fun v1 => @is_empty binary64 v1)));
  (130, (bind get_flags (fun v1 => ret (N.eqb v1 invalid_operand_bit))));
  (131, clear_flags);
  (132, (set_cwd invalid_operand_bit));
  (133, (throws (@cancel_plus binary64 ((fl binary64 (1) (0)), (fl binary64 (9007199254740991) (971))) ((fl binary64 (3) (0)), (fl binary64 (-1) (2)))) Invalid_operand_exception));
  (134, (bind get_flags (fun v1 => ret (N.eqb v1 invalid_operand_bit))));
  (135, clear_flags);
  (136, (set_cwd none_bit))].

(** lines 140-159 *)
Definition minimal_cancel_plus_mixedtype_test : list (N * M bool) := [
  (142, (bind (@cancel_plus_mixed binary32 binary64 binary64 ((fl binary64 (-5) (0)), (fl binary64 (-8106479329266893) (-53))) ((fl binary64 (1) (0)), (fl binary64 (5) (0)))) (fun v1 => ret (ieq v1 ((@f0 binary32), (fl binary32 (13421773) (-27)))))));
  (143, (bind (@cancel_plus_mixed binary32 binary64 binary64 ((fl binary64 (-2871044762448691) (-49)), (fl binary64 (-8106479329266893) (-53))) ((fl binary64 (1) (0)), (fl binary64 (5) (0)))) (fun v1 => ret (ieq v1 ((fl binary32 (-13421773) (-27)), (fl binary32 (13421773) (-27)))))));
  (144, (bind (@cancel_plus_mixed binary64 binary32 binary32 ((fl binary32 (-5295309) (-19)), (fl binary32 (10695475) (-21))) ((fl binary32 (-5) (0)), (fl binary32 (5) (1)))) (fun v1 => ret (ieq v1 ((fl binary64 (-52429) (-19)), (fl binary64 (209715) (-21)))))));
  (145, (bind (@cancel_plus_mixed binary64 binary32 binary32 ((fl binary32 (-13421773) (-27)), (fl binary32 (1) (1))) ((fl binary32 (-13421773) (-27)), (fl binary32 (5368709) (-29)))) (fun v1 => ret (ieq v1 ((fl binary64 (-48318383) (-29)), (fl binary64 (255013683) (-27)))))));
  (146, (bind (@cancel_plus_mixed binary64 binary32 binary32 ((fl binary32 (-1) (0)), (fl binary32 (8388607) (-75))) ((fl binary32 (-1) (0)), (fl binary32 (16777215) (-76)))) (fun v1 => ret (ieq v1 (@entire binary64)))));
  (148, (bind get_flags (fun v1 => ret (N.eqb v1 none_bit))));
  (150, clear_flags);
  (151, (bind (@cancel_plus_mixed binary32 binary64 binary64 ((fl binary64 (1) (0)), (fl binary64 (-9007199254740991) (971))) ((fl binary64 (3) (0)), (fl binary64 (1) (2)))) (fun v1 => @is_empty binary32 v1)));
  (152, (bind get_flags (fun v1 => ret (N.eqb v1 invalid_operand_bit))));
  (153, clear_flags);
  (154, (set_cwd invalid_operand_bit));
  (155, (throws (@cancel_plus_mixed binary64 binary64 binary32 ((fl binary64 (1) (0)), (fl binary64 (9007199254740991) (971))) ((fl binary32 (3) (0)), (fl binary32 (-1) (2)))) Invalid_operand_exception));
  (156, (bind get_flags (fun v1 => ret (N.eqb v1 invalid_operand_bit))));
  (157, clear_flags);
  (158, (set_cwd none_bit))].

(** lines 162-244 *)
Definition minimal_cancel_plus_dec_test : list (N * M bool) := [
  (164, (bind (@cancel_plus_dec binary64 (((@fminf binary64), (fl binary64 (-1) (0))), dac) (@empty_dec binary64)) (fun v1 => ret (dieq v1 (((@fminf binary64), (@finf binary64)), trv)))));
  (165, (bind (@cancel_plus_dec binary64 (((fl binary64 (-1) (0)), (@finf binary64)), def) (@empty_dec binary64)) (fun v1 => ret (dieq v1 (((@fminf binary64), (@finf binary64)), trv)))));
  (166, (bind (@cancel_plus_dec binary64 (@entire_dec binary64) (@empty_dec binary64)) (fun v1 => ret (dieq v1 (((@fminf binary64), (@finf binary64)), trv)))));
  (167, (bind (@cancel_plus_dec binary64 (((@fminf binary64), (fl binary64 (-1) (0))), dac) (((fl binary64 (-5) (0)), (fl binary64 (1) (0))), com)) (fun v1 => ret (dieq v1 (((@fminf binary64), (@finf binary64)), trv)))));
  (168, (bind (@cancel_plus_dec binary64 (((fl binary64 (-1) (0)), (@finf binary64)), trv) (((fl binary64 (-5) (0)), (fl binary64 (1) (0))), def)) (fun v1 => ret (dieq v1 (((@fminf binary64), (@finf binary64)), trv)))));
  (169, (bind (@cancel_plus_dec binary64 (@entire_dec binary64) (((fl binary64 (-5) (0)), (fl binary64 (1) (0))), def)) (fun v1 => ret (dieq v1 (((@fminf binary64), (@finf binary64)), trv)))));
  (170, (bind (@cancel_plus_dec binary64 (((@fminf binary64), (fl binary64 (-1) (0))), dac) (@entire_dec binary64)) (fun v1 => ret (dieq v1 (((@fminf binary64), (@finf binary64)), trv)))));
  (171, (bind (@cancel_plus_dec binary64 (((fl binary64 (-1) (0)), (@finf binary64)), def) (@entire_dec binary64)) (fun v1 => ret (dieq v1 (((@fminf binary64), (@finf binary64)), trv)))));
  (172, (bind (@cancel_plus_dec binary64 (@empty_dec binary64) (((fl binary64 (1) (0)), (@finf binary64)), def)) (fun v1 => ret (dieq v1 (((@fminf binary64), (@finf binary64)), trv)))));
  (173, (bind (@cancel_plus_dec binary64 (@empty_dec binary64) (((@fminf binary64), (fl binary64 (1) (0))), trv)) (fun v1 => ret (dieq v1 (((@fminf binary64), (@finf binary64)), trv)))));
  (174, (bind (@cancel_plus_dec binary64 (@empty_dec binary64) (@entire_dec binary64)) (fun v1 => ret (dieq v1 (((@fminf binary64), (@finf binary64)), trv)))));
  (175, (bind (@cancel_plus_dec binary64 (((fl binary64 (-1) (0)), (fl binary64 (5) (0))), dac) (((fl binary64 (1) (0)), (@finf binary64)), dac)) (fun v1 => ret (dieq v1 (((@fminf binary64), (@finf binary64)), trv)))));
  (176, (bind (@cancel_plus_dec binary64 (((fl binary64 (-1) (0)), (fl binary64 (5) (0))), def) (((@fminf binary64), (fl binary64 (1) (0))), dac)) (fun v1 => ret (dieq v1 (((@fminf binary64), (@finf binary64)), trv)))));
  (177, (bind (@cancel_plus_dec binary64 (((fl binary64 (-1) (0)), (fl binary64 (5) (0))), com) (@entire_dec binary64)) (fun v1 => ret (dieq v1 (((@fminf binary64), (@finf binary64)), trv)))));
  (178, (bind (@cancel_plus_dec binary64 (@entire_dec binary64) (((fl binary64 (1) (0)), (@finf binary64)), dac)) (fun v1 => ret (dieq v1 (((@fminf binary64), (@finf binary64)), trv)))));
  (179, (bind (@cancel_plus_dec binary64 (@entire_dec binary64) (((@fminf binary64), (fl binary64 (1) (0))), def)) (fun v1 => ret (dieq v1 (((@fminf binary64), (@finf binary64)), trv)))));
  (180, (bind (@cancel_plus_dec binary64 (@entire_dec binary64) (@entire_dec binary64)) (fun v1 => ret (dieq v1 (((@fminf binary64), (@finf binary64)), trv)))));
  (182, (bind (@cancel_plus_dec binary64 (((fl binary64 (-5) (0)), (fl binary64 (-1) (0))), com) (((fl binary64 (1) (0)), (fl binary64 (2871044762448691) (-49))), def)) (fun v1 => ret (dieq v1 (((@fminf binary64), (@finf binary64)), trv)))));
  (183, (bind (@cancel_plus_dec binary64 (((fl binary64 (-5) (0)), (fl binary64 (-1) (0))), dac) (((fl binary64 (8106479329266893) (-53)), (fl binary64 (5) (0))), def)) (fun v1 => ret (dieq v1 (((@fminf binary64), (@finf binary64)), trv)))));
  (184, (bind (@cancel_plus_dec binary64 (((fl binary64 (-5) (0)), (fl binary64 (-1) (0))), def) (((fl binary64 (8106479329266893) (-53)), (fl binary64 (2871044762448691) (-49))), def)) (fun v1 => ret (dieq v1 (((@fminf binary64), (@finf binary64)), trv)))));
  (185, (bind (@cancel_plus_dec binary64 (((fl binary64 (-5) (1)), (fl binary64 (5) (0))), trv) (((fl binary64 (-5) (0)), (fl binary64 (5685794529555251) (-49))), dac)) (fun v1 => ret (dieq v1 (((@fminf binary64), (@finf binary64)), trv)))));
  (186, (bind (@cancel_plus_dec binary64 (((fl binary64 (-5) (1)), (fl binary64 (5) (0))), com) (((fl binary64 (-2871044762448691) (-49)), (fl binary64 (5) (1))), dac)) (fun v1 => ret (dieq v1 (((@fminf binary64), (@finf binary64)), trv)))));
  (187, (bind (@cancel_plus_dec binary64 (((fl binary64 (-5) (1)), (fl binary64 (5) (0))), dac) (((fl binary64 (-2871044762448691) (-49)), (fl binary64 (5685794529555251) (-49))), dac)) (fun v1 => ret (dieq v1 (((@fminf binary64), (@finf binary64)), trv)))));
  (188, (bind (@cancel_plus_dec binary64 (((fl binary64 (1) (0)), (fl binary64 (5) (0))), def) (((fl binary64 (-5) (0)), (fl binary64 (-8106479329266893) (-53))), com)) (fun v1 => ret (dieq v1 (((@fminf binary64), (@finf binary64)), trv)))));
  (189, (bind (@cancel_plus_dec binary64 (((fl binary64 (1) (0)), (fl binary64 (5) (0))), trv) (((fl binary64 (-2871044762448691) (-49)), (fl binary64 (-1) (0))), com)) (fun v1 => ret (dieq v1 (((@fminf binary64), (@finf binary64)), trv)))));
  (190, (bind (@cancel_plus_dec binary64 (((fl binary64 (1) (0)), (fl binary64 (5) (0))), dac) (((fl binary64 (-2871044762448691) (-49)), (fl binary64 (-8106479329266893) (-53))), com)) (fun v1 => ret (dieq v1 (((@fminf binary64), (@finf binary64)), trv)))));
  (192, (bind (@cancel_plus_dec binary64 (((fl binary64 (-5) (1)), (fl binary64 (-1) (0))), trv) (@empty_dec binary64)) (fun v1 => ret (dieq v1 (((@fminf binary64), (@finf binary64)), trv)))));
  (193, (bind (@cancel_plus_dec binary64 (((fl binary64 (-5) (1)), (fl binary64 (5) (0))), def) (@empty_dec binary64)) (fun v1 => ret (dieq v1 (((@fminf binary64), (@finf binary64)), trv)))));
  (194, (bind (@cancel_plus_dec binary64 (((fl binary64 (1) (0)), (fl binary64 (5) (0))), com) (@empty_dec binary64)) (fun v1 => ret (dieq v1 (((@fminf binary64), (@finf binary64)), trv)))));
  (197, (bind (@cancel_plus_dec binary64 (@empty_dec binary64) (@empty_dec binary64)) (fun v1 => @is_empty_dec binary64 v1)));
  (198, (bind (@cancel_plus_dec binary64 (@empty_dec binary64) (((fl binary64 (1) (0)), (fl binary64 (5) (1))), dac)) (fun v1 => @is_empty_dec binary64 v1)));
  (199, (bind (@cancel_plus_dec binary64 (@empty_dec binary64) (((fl binary64 (-5) (0)), (fl binary64 (5) (1))), def)) (fun v1 => @is_empty_dec binary64 v1)));
  (200, (bind (@cancel_plus_dec binary64 (@empty_dec binary64) (((fl binary64 (-5) (0)), (fl binary64 (-1) (0))), com)) (fun v1 => @is_empty_dec binary64 v1)));
  (202, (bind (@cancel_plus_dec binary64 (((fl binary64 (-2871044762448691) (-49)), (@fm0 binary64)), com) (((@f0 binary64), (fl binary64 (5) (0))), com)) (fun v1 => ret (dieq v1 (((fl binary64 (-56294995342131) (-49)), (@f0 binary64)), trv)))));
  (203, (bind (@cancel_plus_dec binary64 (((fl binary64 (-2871044762448691) (-49)), (fl binary64 (-1) (0))), com) (((fl binary64 (1) (0)), (fl binary64 (5) (0))), dac)) (fun v1 => ret (dieq v1 (((fl binary64 (-56294995342131) (-49)), (@f0 binary64)), trv)))));
  (204, (bind (@cancel_plus_dec binary64 (((fl binary64 (-5) (0)), (fl binary64 (-8106479329266893) (-53))), com) (((fl binary64 (1) (0)), (fl binary64 (5) (0))), def)) (fun v1 => ret (dieq v1 (((@f0 binary64), (fl binary64 (900719925474099) (-53))), trv)))));
  (205, (bind (@cancel_plus_dec binary64 (((fl binary64 (-2871044762448691) (-49)), (fl binary64 (-8106479329266893) (-53))), dac) (((fl binary64 (1) (0)), (fl binary64 (5) (0))), trv)) (fun v1 => ret (dieq v1 (((fl binary64 (-56294995342131) (-49)), (fl binary64 (900719925474099) (-53))), trv)))));
  (206, (bind (@cancel_plus_dec binary64 (((fl binary64 (-5) (0)), (fl binary64 (-1) (0))), dac) (((fl binary64 (1) (0)), (fl binary64 (5) (0))), com)) (fun v1 => ret (dieq v1 (((@f0 binary64), (@f0 binary64)), trv)))));
  (207, (bind (@cancel_plus_dec binary64 (((fl binary64 (-5685794529555251) (-49)), (fl binary64 (5) (0))), dac) (((fl binary64 (-5) (0)), (fl binary64 (5) (1))), dac)) (fun v1 => ret (dieq v1 (((fl binary64 (-56294995342131) (-49)), (@f0 binary64)), trv)))));
  (208, (bind (@cancel_plus_dec binary64 (((fl binary64 (-5) (1)), (fl binary64 (2871044762448691) (-49))), def) (((fl binary64 (-5) (0)), (fl binary64 (5) (1))), def)) (fun v1 => ret (dieq v1 (((@f0 binary64), (fl binary64 (56294995342131) (-49))), trv)))));
  (209, (bind (@cancel_plus_dec binary64 (((fl binary64 (-5685794529555251) (-49)), (fl binary64 (2871044762448691) (-49))), def) (((fl binary64 (-5) (0)), (fl binary64 (5) (1))), trv)) (fun v1 => ret (dieq v1 (((fl binary64 (-56294995342131) (-49)), (fl binary64 (56294995342131) (-49))), trv)))));
  (210, (bind (@cancel_plus_dec binary64 (((fl binary64 (-5) (1)), (fl binary64 (5) (0))), def) (((fl binary64 (-5) (0)), (fl binary64 (5) (1))), com)) (fun v1 => ret (dieq v1 (((@f0 binary64), (@f0 binary64)), trv)))));
  (211, (bind (@cancel_plus_dec binary64 (((fl binary64 (8106479329266893) (-53)), (fl binary64 (5) (0))), trv) (((fl binary64 (-5) (0)), (fl binary64 (-1) (0))), dac)) (fun v1 => ret (dieq v1 (((fl binary64 (-900719925474099) (-53)), (@f0 binary64)), trv)))));
  (212, (bind (@cancel_plus_dec binary64 (((fl binary64 (1) (0)), (fl binary64 (2871044762448691) (-49))), trv) (((fl binary64 (-5) (0)), (fl binary64 (-1) (0))), def)) (fun v1 => ret (dieq v1 (((@f0 binary64), (fl binary64 (56294995342131) (-49))), trv)))));
  (213, (bind (@cancel_plus_dec binary64 (((@f0 binary64), (fl binary64 (2871044762448691) (-49))), trv) (((fl binary64 (-5) (0)), (@fm0 binary64)), trv)) (fun v1 => ret (dieq v1 (((@f0 binary64), (fl binary64 (56294995342131) (-49))), trv)))));
  (214, (bind (@cancel_plus_dec binary64 (((fl binary64 (8106479329266893) (-53)), (fl binary64 (2871044762448691) (-49))), com) (((fl binary64 (-5) (0)), (fl binary64 (-1) (0))), com)) (fun v1 => ret (dieq v1 (((fl binary64 (-900719925474099) (-53)), (fl binary64 (56294995342131) (-49))), trv)))));
  (215, (bind (@cancel_plus_dec binary64 (((fl binary64 (1) (0)), (fl binary64 (5) (0))), dac) (((fl binary64 (-5) (0)), (fl binary64 (-1) (0))), dac)) (fun v1 => ret (dieq v1 (((@f0 binary64), (@f0 binary64)), trv)))));
  (216, (bind (@cancel_plus_dec binary64 (((@f0 binary64), (fl binary64 (5) (0))), def) (((fl binary64 (-5) (0)), (@fm0 binary64)), trv)) (fun v1 => ret (dieq v1 (((@f0 binary64), (@f0 binary64)), trv)))));
  (218, (bind (@cancel_plus_dec binary64 (((fl binary64 (562949953421311) (-48)), (fl binary64 (562949953421311) (-48))), com) (((fl binary64 (-3602879701896397) (-55)), (fl binary64 (-3602879701896397) (-55))), com)) (fun v1 => ret (dieq v1 (((fl binary64 (4278419646001963) (-51)), (fl binary64 (8556839292003927) (-52))), trv)))));
  (219, (bind (@cancel_plus_dec binary64 (((fl binary64 (-3602879701896397) (-55)), (fl binary64 (562949953421311) (-48))), dac) (((fl binary64 (-3602879701896397) (-55)), (fl binary64 (5764607523034235) (-59))), com)) (fun v1 => ret (dieq v1 (((fl binary64 (-6485183463413515) (-56)), (fl binary64 (8556839292003927) (-52))), trv)))));
  (221, (bind (@cancel_plus_dec binary64 (((fl binary64 (9007199254740991) (971)), (fl binary64 (9007199254740991) (971))), com) (((fl binary64 (9007199254740991) (971)), (fl binary64 (9007199254740991) (971))), com)) (fun v1 => ret (dieq v1 (((fl binary64 (9007199254740991) (971)), (@finf binary64)), trv)))));
  (222, (bind (@cancel_plus_dec binary64 (((fl binary64 (-9007199254740991) (971)), (fl binary64 (9007199254740991) (971))), com) (((fl binary64 (-9007199254740991) (971)), (fl binary64 (9007199254740991) (971))), com)) (fun v1 => ret (dieq v1 (((@f0 binary64), (@f0 binary64)), trv)))));
  (223, (bind (@cancel_plus_dec binary64 (((fl binary64 (-9007199254740991) (971)), (fl binary64 (9007199254740991) (971))), dac) (((fl binary64 (-4503599627370495) (972)), (fl binary64 (9007199254740991) (971))), com)) (fun v1 => ret (dieq v1 (((@f0 binary64), (fl binary64 (1) (971))), trv)))));
  (224, (bind (@cancel_plus_dec binary64 (((fl binary64 (-9007199254740991) (971)), (fl binary64 (9007199254740991) (971))), dac) (((fl binary64 (-9007199254740991) (971)), (fl binary64 (4503599627370495) (972))), com)) (fun v1 => ret (dieq v1 (((fl binary64 (-1) (971)), (@f0 binary64)), trv)))));
  (225, (bind (@cancel_plus_dec binary64 (((fl binary64 (-9007199254740991) (971)), (fl binary64 (4503599627370495) (972))), com) (((fl binary64 (-9007199254740991) (971)), (fl binary64 (9007199254740991) (971))), com)) (fun v1 => ret (dieq v1 (((@fminf binary64), (@finf binary64)), trv)))));
  (226, (bind (@cancel_plus_dec binary64 (((fl binary64 (-4503599627370495) (972)), (fl binary64 (9007199254740991) (971))), com) (((fl binary64 (-9007199254740991) (971)), (fl binary64 (9007199254740991) (971))), com)) (fun v1 => ret (dieq v1 (((@fminf binary64), (@finf binary64)), trv)))));
  (228, (bind (@cancel_plus_dec binary64 (((fl binary64 (-1) (0)), (fl binary64 (9007199254740991) (-105))), dac) (((fl binary64 (-1) (0)), (fl binary64 (4503599627370495) (-104))), com)) (fun v1 => ret (dieq v1 (((fl binary64 (-9007199254740991) (-53)), (fl binary64 (-4503599627370495) (-52))), trv)))));
  (229, (bind (@cancel_plus_dec binary64 (((fl binary64 (-1) (0)), (fl binary64 (4503599627370495) (-104))), def) (((fl binary64 (-1) (0)), (fl binary64 (9007199254740991) (-105))), com)) (fun v1 => ret (dieq v1 (((@fminf binary64), (@finf binary64)), trv)))));
  (233, (bind get_flags (fun v1 => ret (N.eqb v1 none_bit))));
  (235, clear_flags);
  (236, (bind (@cancel_plus_dec binary64 (((fl binary64 (1) (0)), (fl binary64 (-9007199254740991) (971))), trv) (((fl binary64 (3) (0)), (fl binary64 (1) (2))), trv)) (fun v1 => @is_nai binary64 v1)));
  (237, (bind get_flags (fun v1 => ret (N.eqb v1 invalid_operand_bit))));
  (238, clear_flags);
  (239, (set_cwd invalid_operand_bit));
  (240, (throws (@cancel_plus_dec binary64 (((fl binary64 (1) (0)), (fl binary64 (9007199254740991) (971))), trv) (((fl binary64 (3) (0)), (fl binary64 (-1) (2))), trv)) Invalid_operand_exception));
  (241, (bind get_flags (fun v1 => ret (N.eqb v1 invalid_operand_bit))));
  (242, clear_flags);
  (243, (set_cwd none_bit))].

(** lines 247-267 *)
Definition minimal_cancel_plus_dec_mixedtype_test : list (N * M bool) := [
  (249, (bind (@cancel_plus_dec_mixed binary32 binary64 binary64 (((fl binary64 (-5) (0)), (fl binary64 (-8106479329266893) (-53))), com) (((fl binary64 (1) (0)), (fl binary64 (5) (0))), com)) (fun v1 => ret (dieq v1 (((@f0 binary32), (fl binary32 (13421773) (-27))), trv)))));
  (250, (bind (@cancel_plus_dec_mixed binary32 binary64 binary64 (((fl binary64 (-2871044762448691) (-49)), (fl binary64 (-8106479329266893) (-53))), dac) (((fl binary64 (1) (0)), (fl binary64 (5) (0))), def)) (fun v1 => ret (dieq v1 (((fl binary32 (-13421773) (-27)), (fl binary32 (13421773) (-27))), trv)))));
  (251, (bind (@cancel_plus_dec_mixed binary64 binary32 binary32 (((fl binary32 (-5295309) (-19)), (fl binary32 (10695475) (-21))), def) (((fl binary32 (-5) (0)), (fl binary32 (5) (1))), trv)) (fun v1 => ret (dieq v1 (((fl binary64 (-52429) (-19)), (fl binary64 (209715) (-21))), trv)))));
  (252, (bind (@cancel_plus_dec_mixed binary64 binary32 binary32 (((fl binary32 (-13421773) (-27)), (fl binary32 (1) (1))), trv) (((fl binary32 (-13421773) (-27)), (fl binary32 (5368709) (-29))), dac)) (fun v1 => ret (dieq v1 (((fl binary64 (-48318383) (-29)), (fl binary64 (255013683) (-27))), trv)))));
  (253, (bind (@cancel_plus_dec_mixed binary64 binary32 binary32 (((fl binary32 (-1) (0)), (fl binary32 (8388607) (-75))), com) (((fl binary32 (-1) (0)), (fl binary32 (16777215) (-76))), def)) (fun v1 => ret (dieq v1 (((@fminf binary64), (@finf binary64)), trv)))));
  (256, (bind get_flags (fun v1 => ret (N.eqb v1 none_bit))));
  (258, clear_flags);
  (259, (bind (@cancel_plus_dec_mixed binary32 binary64 binary64 (((fl binary64 (1) (0)), (fl binary64 (-9007199254740991) (971))), trv) (((fl binary64 (3) (0)), (fl binary64 (1) (2))), trv)) (fun v1 => @is_nai binary32 v1)));
  (260, (bind get_flags (fun v1 => ret (N.eqb v1 invalid_operand_bit))));
  (261, clear_flags);
  (262, (set_cwd invalid_operand_bit));
  (263, (throws (@cancel_plus_dec_mixed binary64 binary64 binary32 (((fl binary64 (1) (0)), (fl binary64 (9007199254740991) (971))), trv) (((fl binary32 (3) (0)), (fl binary32 (-1) (2))), trv)) Invalid_operand_exception));
  (264, (bind get_flags (fun v1 => ret (N.eqb v1 invalid_operand_bit))));
  (265, clear_flags);
  (266, (set_cwd none_bit))].

(** lines 270-358 *)
Definition minimal_cancel_minus_test : list (N * M bool) := [
  (272, (bind (@cancel_minus binary64 ((@fminf binary64), (fl binary64 (-1) (0))) (@empty binary64)) (fun v1 => ret (ieq v1 (@entire binary64)))));
  (273, (bind (@cancel_minus binary64 ((fl binary64 (-1) (0)), (@finf binary64)) (@empty binary64)) (fun v1 => ret (ieq v1 (@entire binary64)))));
  (274, (bind (@cancel_minus binary64 (@entire binary64) (@empty binary64)) (fun v1 => ret (ieq v1 (@entire binary64)))));
  (275, (bind (@cancel_minus binary64 ((@fminf binary64), (fl binary64 (-1) (0))) ((fl binary64 (-1) (0)), (fl binary64 (5) (0)))) (fun v1 => ret (ieq v1 (@entire binary64)))));
  (276, (bind (@cancel_minus binary64 ((fl binary64 (-1) (0)), (@finf binary64)) ((fl binary64 (-1) (0)), (fl binary64 (5) (0)))) (fun v1 => ret (ieq v1 (@entire binary64)))));
  (277, (bind (@cancel_minus binary64 (@entire binary64) ((fl binary64 (-1) (0)), (fl binary64 (5) (0)))) (fun v1 => ret (ieq v1 (@entire binary64)))));
  (278, (bind (@cancel_minus binary64 ((@fminf binary64), (fl binary64 (-1) (0))) (@entire binary64)) (fun v1 => ret (ieq v1 (@entire binary64)))));
  (279, (bind (@cancel_minus binary64 ((fl binary64 (-1) (0)), (@finf binary64)) (@entire binary64)) (fun v1 => ret (ieq v1 (@entire binary64)))));
  (280, (bind (@cancel_minus binary64 (@empty binary64) ((@fminf binary64), (fl binary64 (-1) (0)))) (fun v1 => ret (ieq v1 (@entire binary64)))));
  (281, (bind (@cancel_minus binary64 (@empty binary64) ((fl binary64 (-1) (0)), (@finf binary64))) (fun v1 => ret (ieq v1 (@entire binary64)))));
  (282, (bind (@cancel_minus binary64 (@empty binary64) (@entire binary64)) (fun v1 => ret (ieq v1 (@entire binary64)))));
  (283, (bind (@cancel_minus binary64 ((fl binary64 (-1) (0)), (fl binary64 (5) (0))) ((@fminf binary64), (fl binary64 (-1) (0)))) (fun v1 => ret (ieq v1 (@entire binary64)))));
  (284, (bind (@cancel_minus binary64 ((fl binary64 (-1) (0)), (fl binary64 (5) (0))) ((fl binary64 (-1) (0)), (@finf binary64))) (fun v1 => ret (ieq v1 (@entire binary64)))));
  (285, (bind (@cancel_minus binary64 ((fl binary64 (-1) (0)), (fl binary64 (5) (0))) (@entire binary64)) (fun v1 => ret (ieq v1 (@entire binary64)))));
  (286, (bind (@cancel_minus binary64 (@entire binary64) ((@fminf binary64), (fl binary64 (-1) (0)))) (fun v1 => ret (ieq v1 (@entire binary64)))));
  (287, (bind (@cancel_minus binary64 (@entire binary64) ((fl binary64 (-1) (0)), (@finf binary64))) (fun v1 => ret (ieq v1 (@entire binary64)))));
  (288, (bind (@cancel_minus binary64 (@entire binary64) (@entire binary64)) (fun v1 => ret (ieq v1 (@entire binary64)))));
  (290, (bind (@cancel_minus binary64 ((fl binary64 (-5) (0)), (fl binary64 (-1) (0))) ((fl binary64 (-2871044762448691) (-49)), (fl binary64 (-1) (0)))) (fun v1 => ret (ieq v1 (@entire binary64)))));
  (291, (bind (@cancel_minus binary64 ((fl binary64 (-5) (0)), (fl binary64 (-1) (0))) ((fl binary64 (-5) (0)), (fl binary64 (-8106479329266893) (-53)))) (fun v1 => ret (ieq v1 (@entire binary64)))));
  (292, (bind (@cancel_minus binary64 ((fl binary64 (-5) (0)), (fl binary64 (-1) (0))) ((fl binary64 (-2871044762448691) (-49)), (fl binary64 (-8106479329266893) (-53)))) (fun v1 => ret (ieq v1 (@entire binary64)))));
  (293, (bind (@cancel_minus binary64 ((fl binary64 (-5) (1)), (fl binary64 (5) (0))) ((fl binary64 (-5685794529555251) (-49)), (fl binary64 (5) (0)))) (fun v1 => ret (ieq v1 (@entire binary64)))));
  (294, (bind (@cancel_minus binary64 ((fl binary64 (-5) (1)), (fl binary64 (5) (0))) ((fl binary64 (-5) (1)), (fl binary64 (2871044762448691) (-49)))) (fun v1 => ret (ieq v1 (@entire binary64)))));
  (295, (bind (@cancel_minus binary64 ((fl binary64 (-5) (1)), (fl binary64 (5) (0))) ((fl binary64 (-5685794529555251) (-49)), (fl binary64 (2871044762448691) (-49)))) (fun v1 => ret (ieq v1 (@entire binary64)))));
  (296, (bind (@cancel_minus binary64 ((fl binary64 (1) (0)), (fl binary64 (5) (0))) ((fl binary64 (8106479329266893) (-53)), (fl binary64 (5) (0)))) (fun v1 => ret (ieq v1 (@entire binary64)))));
  (297, (bind (@cancel_minus binary64 ((fl binary64 (1) (0)), (fl binary64 (5) (0))) ((fl binary64 (1) (0)), (fl binary64 (2871044762448691) (-49)))) (fun v1 => ret (ieq v1 (@entire binary64)))));
  (298, (bind (@cancel_minus binary64 ((fl binary64 (1) (0)), (fl binary64 (5) (0))) ((fl binary64 (8106479329266893) (-53)), (fl binary64 (2871044762448691) (-49)))) (fun v1 => ret (ieq v1 (@entire binary64)))));
  (300, (bind (@cancel_minus binary64 ((fl binary64 (-5) (1)), (fl binary64 (-1) (0))) (@empty binary64)) (fun v1 => ret (ieq v1 (@entire binary64)))));
  (301, (bind (@cancel_minus binary64 ((fl binary64 (-5) (1)), (fl binary64 (5) (0))) (@empty binary64)) (fun v1 => ret (ieq v1 (@entire binary64)))));
  (302, (bind (@cancel_minus binary64 ((fl binary64 (1) (0)), (fl binary64 (5) (0))) (@empty binary64)) (fun v1 => ret (ieq v1 (@entire binary64)))));
  (305, (bind (@cancel_minus binary64 (@empty binary64) (@empty binary64)) (fun v1 => @is_empty binary64 v1)));
  (306, (bind (@cancel_minus binary64 (@empty binary64) ((fl binary64 (-5) (1)), (fl binary64 (-1) (0)))) (fun v1 => @is_empty binary64 v1)));
  (307, (bind (@cancel_minus binary64 (@empty binary64) ((fl binary64 (-5) (1)), (fl binary64 (5) (0)))) (fun v1 => @is_empty binary64 v1)));
  (308, (bind (@cancel_minus binary64 (@empty binary64) ((fl binary64 (1) (0)), (fl binary64 (5) (0)))) (fun v1 => @is_empty binary64 v1)));
  (310, (bind (@cancel_minus binary64 ((fl binary64 (-2871044762448691) (-49)), (@fm0 binary64)) ((fl binary64 (-5) (0)), (@f0 binary64))) (fun v1 => ret (ieq v1 ((fl binary64 (-56294995342131) (-49)), (@f0 binary64))))));
  (311, (bind (@cancel_minus binary64 ((fl binary64 (-2871044762448691) (-49)), (fl binary64 (-1) (0))) ((fl binary64 (-5) (0)), (fl binary64 (-1) (0)))) (fun v1 => ret (ieq v1 ((fl binary64 (-56294995342131) (-49)), (@f0 binary64))))));
  (312, (bind (@cancel_minus binary64 ((fl binary64 (-5) (0)), (fl binary64 (-8106479329266893) (-53))) ((fl binary64 (-5) (0)), (fl binary64 (-1) (0)))) (fun v1 => ret (ieq v1 ((@f0 binary64), (fl binary64 (900719925474099) (-53)))))));
  (313, (bind (@cancel_minus binary64 ((fl binary64 (-2871044762448691) (-49)), (fl binary64 (-8106479329266893) (-53))) ((fl binary64 (-5) (0)), (fl binary64 (-1) (0)))) (fun v1 => ret (ieq v1 ((fl binary64 (-56294995342131) (-49)), (fl binary64 (900719925474099) (-53)))))));
  (314, (bind (@cancel_minus binary64 ((fl binary64 (-5) (0)), (fl binary64 (-1) (0))) ((fl binary64 (-5) (0)), (fl binary64 (-1) (0)))) (fun v1 => ret (ieq v1 ((@f0 binary64), (@f0 binary64))))));
  (315, (bind (@cancel_minus binary64 ((fl binary64 (-5685794529555251) (-49)), (fl binary64 (5) (0))) ((fl binary64 (-5) (1)), (fl binary64 (5) (0)))) (fun v1 => ret (ieq v1 ((fl binary64 (-56294995342131) (-49)), (@f0 binary64))))));
  (316, (bind (@cancel_minus binary64 ((fl binary64 (-5) (1)), (fl binary64 (2871044762448691) (-49))) ((fl binary64 (-5) (1)), (fl binary64 (5) (0)))) (fun v1 => ret (ieq v1 ((@f0 binary64), (fl binary64 (56294995342131) (-49)))))));
  (317, (bind (@cancel_minus binary64 ((fl binary64 (-5685794529555251) (-49)), (fl binary64 (2871044762448691) (-49))) ((fl binary64 (-5) (1)), (fl binary64 (5) (0)))) (fun v1 => ret (ieq v1 ((fl binary64 (-56294995342131) (-49)), (fl binary64 (56294995342131) (-49)))))));
  (318, (bind (@cancel_minus binary64 ((fl binary64 (-5) (1)), (fl binary64 (5) (0))) ((fl binary64 (-5) (1)), (fl binary64 (5) (0)))) (fun v1 => ret (ieq v1 ((@f0 binary64), (@f0 binary64))))));
  (319, (bind (@cancel_minus binary64 ((fl binary64 (8106479329266893) (-53)), (fl binary64 (5) (0))) ((fl binary64 (1) (0)), (fl binary64 (5) (0)))) (fun v1 => ret (ieq v1 ((fl binary64 (-900719925474099) (-53)), (@f0 binary64))))));
  (320, (bind (@cancel_minus binary64 ((@fm0 binary64), (fl binary64 (2871044762448691) (-49))) ((@f0 binary64), (fl binary64 (5) (0)))) (fun v1 => ret (ieq v1 ((@f0 binary64), (fl binary64 (56294995342131) (-49)))))));
  (321, (bind (@cancel_minus binary64 ((fl binary64 (1) (0)), (fl binary64 (2871044762448691) (-49))) ((fl binary64 (1) (0)), (fl binary64 (5) (0)))) (fun v1 => ret (ieq v1 ((@f0 binary64), (fl binary64 (56294995342131) (-49)))))));
  (322, (bind (@cancel_minus binary64 ((fl binary64 (8106479329266893) (-53)), (fl binary64 (2871044762448691) (-49))) ((fl binary64 (1) (0)), (fl binary64 (5) (0)))) (fun v1 => ret (ieq v1 ((fl binary64 (-900719925474099) (-53)), (fl binary64 (56294995342131) (-49)))))));
  (323, (bind (@cancel_minus binary64 ((fl binary64 (1) (0)), (fl binary64 (5) (0))) ((fl binary64 (1) (0)), (fl binary64 (5) (0)))) (fun v1 => ret (ieq v1 ((@f0 binary64), (@f0 binary64))))));
  (324, (bind (@cancel_minus binary64 ((fl binary64 (-5) (0)), (fl binary64 (1) (0))) ((fl binary64 (-1) (0)), (fl binary64 (5) (0)))) (fun v1 => ret (ieq v1 ((fl binary64 (-1) (2)), (fl binary64 (-1) (2)))))));
  (325, (bind (@cancel_minus binary64 ((fl binary64 (-5) (0)), (@f0 binary64)) ((@fm0 binary64), (fl binary64 (5) (0)))) (fun v1 => ret (ieq v1 ((fl binary64 (-5) (0)), (fl binary64 (-5) (0)))))));
  (327, (bind (@cancel_minus binary64 ((fl binary64 (562949953421311) (-48)), (fl binary64 (562949953421311) (-48))) ((fl binary64 (3602879701896397) (-55)), (fl binary64 (3602879701896397) (-55)))) (fun v1 => ret (ieq v1 ((fl binary64 (4278419646001963) (-51)), (fl binary64 (8556839292003927) (-52)))))));
  (328, (bind (@cancel_minus binary64 ((fl binary64 (-3602879701896397) (-55)), (fl binary64 (562949953421311) (-48))) ((fl binary64 (-5764607523034235) (-59)), (fl binary64 (3602879701896397) (-55)))) (fun v1 => ret (ieq v1 ((fl binary64 (-6485183463413515) (-56)), (fl binary64 (8556839292003927) (-52)))))));
  (330, (bind (@cancel_minus binary64 ((fl binary64 (9007199254740991) (971)), (fl binary64 (9007199254740991) (971))) ((fl binary64 (-9007199254740991) (971)), (fl binary64 (-9007199254740991) (971)))) (fun v1 => ret (ieq v1 ((fl binary64 (9007199254740991) (971)), (@finf binary64))))));
  (331, (bind (@cancel_minus binary64 ((fl binary64 (-9007199254740991) (971)), (fl binary64 (9007199254740991) (971))) ((fl binary64 (-9007199254740991) (971)), (fl binary64 (9007199254740991) (971)))) (fun v1 => ret (ieq v1 ((@f0 binary64), (@f0 binary64))))));
  (332, (bind (@cancel_minus binary64 ((fl binary64 (-9007199254740991) (971)), (fl binary64 (9007199254740991) (971))) ((fl binary64 (-9007199254740991) (971)), (fl binary64 (4503599627370495) (972)))) (fun v1 => ret (ieq v1 ((@f0 binary64), (fl binary64 (1) (971)))))));
  (333, (bind (@cancel_minus binary64 ((fl binary64 (-9007199254740991) (971)), (fl binary64 (9007199254740991) (971))) ((fl binary64 (-4503599627370495) (972)), (fl binary64 (9007199254740991) (971)))) (fun v1 => ret (ieq v1 ((fl binary64 (-1) (971)), (@f0 binary64))))));
  (334, (bind (@cancel_minus binary64 ((fl binary64 (-9007199254740991) (971)), (fl binary64 (4503599627370495) (972))) ((fl binary64 (-9007199254740991) (971)), (fl binary64 (9007199254740991) (971)))) (fun v1 => ret (ieq v1 (@entire binary64)))));
  (335, (bind (@cancel_minus binary64 ((fl binary64 (-4503599627370495) (972)), (fl binary64 (9007199254740991) (971))) ((fl binary64 (-9007199254740991) (971)), (fl binary64 (9007199254740991) (971)))) (fun v1 => ret (ieq v1 (@entire binary64)))));
  (337, (bind (@cancel_minus binary64 ((fl binary64 (1) (-1022)), (fl binary64 (1) (-1022))) ((fl binary64 (1) (-1022)), (fl binary64 (1) (-1022)))) (fun v1 => ret (ieq v1 ((@f0 binary64), (@f0 binary64))))));
  (338, (bind (@cancel_minus binary64 ((fl binary64 (1) (-1022)), (fl binary64 (1) (-1022))) ((fl binary64 (-1) (-1022)), (fl binary64 (-1) (-1022)))) (fun v1 => ret (ieq v1 ((fl binary64 (1) (-1021)), (fl binary64 (1) (-1021)))))));
  (339, (bind (@cancel_minus binary64 ((fl binary64 (1) (-1022)), (fl binary64 (2251799813685249) (-1073))) ((fl binary64 (1) (-1022)), (fl binary64 (4503599627370497) (-1074)))) (fun v1 => ret (ieq v1 ((@f0 binary64), (fl binary64 (1) (-1074)))))));
  (340, (bind (@cancel_minus binary64 ((fl binary64 (1) (-1022)), (fl binary64 (4503599627370497) (-1074))) ((fl binary64 (1) (-1022)), (fl binary64 (2251799813685249) (-1073)))) (fun v1 => ret (ieq v1 (@entire binary64)))));
  (343, (bind (@cancel_minus binary64 ((fl binary64 (-1) (0)), (fl binary64 (9007199254740991) (-105))) ((fl binary64 (-4503599627370495) (-104)), (fl binary64 (1) (0)))) (fun v1 => ret (ieq v1 ((fl binary64 (-9007199254740991) (-53)), (fl binary64 (-4503599627370495) (-52)))))));
  (344, (bind (@cancel_minus binary64 ((fl binary64 (-1) (0)), (fl binary64 (4503599627370495) (-104))) ((fl binary64 (-9007199254740991) (-105)), (fl binary64 (1) (0)))) (fun v1 => ret (ieq v1 (@entire binary64)))));
  (347, (bind get_flags (fun v1 => ret (N.eqb v1 none_bit))));
  (349, clear_flags);
  (350, (bind (@cancel_minus binary64 ((fl binary64 (1) (0)), (fl binary64 (-9007199254740991) (971))) ((fl binary64 (3) (0)), (fl binary64 (1) (2)))) (fun v1 => @is_empty binary64 v1)));
  (351, (bind get_flags (fun v1 => ret (N.eqb v1 invalid_operand_bit))));
  (352, clear_flags);
  (353, (set_cwd invalid_operand_bit));
  (354, (throws (@cancel_minus binary64 ((fl binary64 (1) (0)), (fl binary64 (9007199254740991) (971))) ((fl binary64 (3) (0)), (fl binary64 (-1) (2)))) Invalid_operand_exception));
  (355, (bind get_flags (fun v1 => ret (N.eqb v1 invalid_operand_bit))));
  (356, clear_flags);
  (357, (set_cwd none_bit))].

(** lines 361-381 *)
Definition minimal_cancel_minus_mixedtype_test : list (N * M bool) := [
  (363, (bind (@cancel_minus_mixed binary32 binary64 binary64 ((fl binary64 (-5) (0)), (fl binary64 (-8106479329266893) (-53))) ((fl binary64 (-5) (0)), (fl binary64 (-1) (0)))) (fun v1 => ret (ieq v1 ((@f0 binary32), (fl binary32 (13421773) (-27)))))));
  (364, (bind (@cancel_minus_mixed binary32 binary64 binary64 ((fl binary64 (-2871044762448691) (-49)), (fl binary64 (-8106479329266893) (-53))) ((fl binary64 (-5) (0)), (fl binary64 (-1) (0)))) (fun v1 => ret (ieq v1 ((fl binary32 (-13421773) (-27)), (fl binary32 (13421773) (-27)))))));
  (365, (bind (@cancel_minus_mixed binary64 binary32 binary32 ((fl binary32 (-5295309) (-19)), (fl binary32 (10695475) (-21))) ((fl binary32 (-5) (1)), (fl binary32 (5) (0)))) (fun v1 => ret (ieq v1 ((fl binary64 (-52429) (-19)), (fl binary64 (209715) (-21)))))));
  (366, (bind (@cancel_minus_mixed binary64 binary32 binary32 ((fl binary32 (-13421773) (-27)), (fl binary32 (1) (1))) ((fl binary32 (-5368709) (-29)), (fl binary32 (13421773) (-27)))) (fun v1 => ret (ieq v1 ((fl binary64 (-48318383) (-29)), (fl binary64 (255013683) (-27)))))));
  (367, (bind (@cancel_minus_mixed binary64 binary32 binary32 ((fl binary32 (-1) (0)), (fl binary32 (8388607) (-75))) ((fl binary32 (-16777215) (-76)), (fl binary32 (1) (0)))) (fun v1 => ret (ieq v1 (@entire binary64)))));
  (370, (bind get_flags (fun v1 => ret (N.eqb v1 none_bit))));
  (372, clear_flags);
  (373, (bind (@cancel_minus_mixed binary32 binary64 binary64 ((fl binary64 (1) (0)), (fl binary64 (-9007199254740991) (971))) ((fl binary64 (3) (0)), (fl binary64 (1) (2)))) (fun v1 => @is_empty binary32 v1)));
  (374, (bind get_flags (fun v1 => ret (N.eqb v1 invalid_operand_bit))));
  (375, clear_flags);
  (376, (set_cwd invalid_operand_bit));
  (377, (throws (@cancel_minus_mixed binary64 binary64 binary32 ((fl binary64 (1) (0)), (fl binary64 (9007199254740991) (971))) ((fl binary32 (3) (0)), (fl binary32 (-1) (2)))) Invalid_operand_exception));
  (378, (bind get_flags (fun v1 => ret (N.eqb v1 invalid_operand_bit))));
  (379, clear_flags);
  (380, (set_cwd none_bit))].

(** lines 384-473 *)
Definition minimal_cancel_minus_dec_test : list (N * M bool) := [
  (386, (bind (@cancel_minus_dec binary64 (((@fminf binary64), (fl binary64 (-1) (0))), dac) (@empty_dec binary64)) (fun v1 => ret (dieq v1 (((@fminf binary64), (@finf binary64)), trv)))));
  (387, (bind (@cancel_minus_dec binary64 (((fl binary64 (-1) (0)), (@finf binary64)), def) (@empty_dec binary64)) (fun v1 => ret (dieq v1 (((@fminf binary64), (@finf binary64)), trv)))));
  (388, (bind (@cancel_minus_dec binary64 (@entire_dec binary64) (@empty_dec binary64)) (fun v1 => ret (dieq v1 (((@fminf binary64), (@finf binary64)), trv)))));
  (389, (bind (@cancel_minus_dec binary64 (((@fminf binary64), (fl binary64 (-1) (0))), trv) (((fl binary64 (-1) (0)), (fl binary64 (5) (0))), dac)) (fun v1 => ret (dieq v1 (((@fminf binary64), (@finf binary64)), trv)))));
  (390, (bind (@cancel_minus_dec binary64 (((fl binary64 (-1) (0)), (@finf binary64)), dac) (((fl binary64 (-1) (0)), (fl binary64 (5) (0))), com)) (fun v1 => ret (dieq v1 (((@fminf binary64), (@finf binary64)), trv)))));
  (391, (bind (@cancel_minus_dec binary64 (@entire_dec binary64) (((fl binary64 (-1) (0)), (fl binary64 (5) (0))), def)) (fun v1 => ret (dieq v1 (((@fminf binary64), (@finf binary64)), trv)))));
  (392, (bind (@cancel_minus_dec binary64 (((@fminf binary64), (fl binary64 (-1) (0))), def) (@entire_dec binary64)) (fun v1 => ret (dieq v1 (((@fminf binary64), (@finf binary64)), trv)))));
  (393, (bind (@cancel_minus_dec binary64 (((fl binary64 (-1) (0)), (@finf binary64)), trv) (@entire_dec binary64)) (fun v1 => ret (dieq v1 (((@fminf binary64), (@finf binary64)), trv)))));
  (394, (bind (@cancel_minus_dec binary64 (@empty_dec binary64) (((@fminf binary64), (fl binary64 (-1) (0))), dac)) (fun v1 => ret (dieq v1 (((@fminf binary64), (@finf binary64)), trv)))));
  (395, (bind (@cancel_minus_dec binary64 (@empty_dec binary64) (((fl binary64 (-1) (0)), (@finf binary64)), dac)) (fun v1 => ret (dieq v1 (((@fminf binary64), (@finf binary64)), trv)))));
  (396, (bind (@cancel_minus_dec binary64 (@empty_dec binary64) (@entire_dec binary64)) (fun v1 => ret (dieq v1 (((@fminf binary64), (@finf binary64)), trv)))));
  (397, (bind (@cancel_minus_dec binary64 (((fl binary64 (-1) (0)), (fl binary64 (5) (0))), dac) (((@fminf binary64), (fl binary64 (-1) (0))), def)) (fun v1 => ret (dieq v1 (((@fminf binary64), (@finf binary64)), trv)))));
  (398, (bind (@cancel_minus_dec binary64 (((fl binary64 (-1) (0)), (fl binary64 (5) (0))), def) (((fl binary64 (-1) (0)), (@finf binary64)), trv)) (fun v1 => ret (dieq v1 (((@fminf binary64), (@finf binary64)), trv)))));
  (399, (bind (@cancel_minus_dec binary64 (((fl binary64 (-1) (0)), (fl binary64 (5) (0))), com) (@entire_dec binary64)) (fun v1 => ret (dieq v1 (((@fminf binary64), (@finf binary64)), trv)))));
  (400, (bind (@cancel_minus_dec binary64 (@entire_dec binary64) (((@fminf binary64), (fl binary64 (-1) (0))), dac)) (fun v1 => ret (dieq v1 (((@fminf binary64), (@finf binary64)), trv)))));
  (401, (bind (@cancel_minus_dec binary64 (@entire_dec binary64) (((fl binary64 (-1) (0)), (@finf binary64)), def)) (fun v1 => ret (dieq v1 (((@fminf binary64), (@finf binary64)), trv)))));
  (402, (bind (@cancel_minus_dec binary64 (@entire_dec binary64) (@entire_dec binary64)) (fun v1 => ret (dieq v1 (((@fminf binary64), (@finf binary64)), trv)))));
  (404, (bind (@cancel_minus_dec binary64 (((fl binary64 (-5) (0)), (fl binary64 (-1) (0))), com) (((fl binary64 (-2871044762448691) (-49)), (fl binary64 (-1) (0))), trv)) (fun v1 => ret (dieq v1 (((@fminf binary64), (@finf binary64)), trv)))));
  (405, (bind (@cancel_minus_dec binary64 (((fl binary64 (-5) (0)), (fl binary64 (-1) (0))), dac) (((fl binary64 (-5) (0)), (fl binary64 (-8106479329266893) (-53))), def)) (fun v1 => ret (dieq v1 (((@fminf binary64), (@finf binary64)), trv)))));
  (406, (bind (@cancel_minus_dec binary64 (((fl binary64 (-5) (0)), (fl binary64 (-1) (0))), def) (((fl binary64 (-2871044762448691) (-49)), (fl binary64 (-8106479329266893) (-53))), dac)) (fun v1 => ret (dieq v1 (((@fminf binary64), (@finf binary64)), trv)))));
  (407, (bind (@cancel_minus_dec binary64 (((fl binary64 (-5) (1)), (fl binary64 (5) (0))), trv) (((fl binary64 (-5685794529555251) (-49)), (fl binary64 (5) (0))), com)) (fun v1 => ret (dieq v1 (((@fminf binary64), (@finf binary64)), trv)))));
  (408, (bind (@cancel_minus_dec binary64 (((fl binary64 (-5) (1)), (fl binary64 (5) (0))), com) (((fl binary64 (-5) (1)), (fl binary64 (2871044762448691) (-49))), com)) (fun v1 => ret (dieq v1 (((@fminf binary64), (@finf binary64)), trv)))));
  (409, (bind (@cancel_minus_dec binary64 (((fl binary64 (-5) (1)), (fl binary64 (5) (0))), dac) (((fl binary64 (-5685794529555251) (-49)), (fl binary64 (2871044762448691) (-49))), trv)) (fun v1 => ret (dieq v1 (((@fminf binary64), (@finf binary64)), trv)))));
  (410, (bind (@cancel_minus_dec binary64 (((fl binary64 (1) (0)), (fl binary64 (5) (0))), def) (((fl binary64 (8106479329266893) (-53)), (fl binary64 (5) (0))), def)) (fun v1 => ret (dieq v1 (((@fminf binary64), (@finf binary64)), trv)))));
  (411, (bind (@cancel_minus_dec binary64 (((fl binary64 (1) (0)), (fl binary64 (5) (0))), trv) (((fl binary64 (1) (0)), (fl binary64 (2871044762448691) (-49))), dac)) (fun v1 => ret (dieq v1 (((@fminf binary64), (@finf binary64)), trv)))));
  (412, (bind (@cancel_minus_dec binary64 (((fl binary64 (1) (0)), (fl binary64 (5) (0))), com) (((fl binary64 (8106479329266893) (-53)), (fl binary64 (2871044762448691) (-49))), dac)) (fun v1 => ret (dieq v1 (((@fminf binary64), (@finf binary64)), trv)))));
  (414, (bind (@cancel_minus_dec binary64 (((fl binary64 (-5) (1)), (fl binary64 (-1) (0))), com) (@empty_dec binary64)) (fun v1 => ret (dieq v1 (((@fminf binary64), (@finf binary64)), trv)))));
  (415, (bind (@cancel_minus_dec binary64 (((fl binary64 (-5) (1)), (fl binary64 (5) (0))), dac) (@empty_dec binary64)) (fun v1 => ret (dieq v1 (((@fminf binary64), (@finf binary64)), trv)))));
  (416, (bind (@cancel_minus_dec binary64 (((fl binary64 (1) (0)), (fl binary64 (5) (0))), def) (@empty_dec binary64)) (fun v1 => ret (dieq v1 (((@fminf binary64), (@finf binary64)), trv)))));
  (419, (bind (@cancel_minus_dec binary64 (@empty_dec binary64) (@empty_dec binary64)) (fun v1 => @is_empty_dec binary64 v1)));
  (420, (bind (@cancel_minus_dec binary64 (@empty_dec binary64) (((fl binary64 (-5) (1)), (fl binary64 (-1) (0))), com)) (fun v1 => @is_empty_dec binary64 v1)));
  (421, (bind (@cancel_minus_dec binary64 (@empty_dec binary64) (((fl binary64 (-5) (1)), (fl binary64 (5) (0))), dac)) (fun v1 => @is_empty_dec binary64 v1)));
  (422, (bind (@cancel_minus_dec binary64 (@empty_dec binary64) (((fl binary64 (1) (0)), (fl binary64 (5) (0))), def)) (fun v1 => @is_empty_dec binary64 v1)));
  (424, (bind (@cancel_minus_dec binary64 (((fl binary64 (-2871044762448691) (-49)), (@fm0 binary64)), com) (((fl binary64 (-5) (0)), (@f0 binary64)), com)) (fun v1 => ret (dieq v1 (((fl binary64 (-56294995342131) (-49)), (@f0 binary64)), trv)))));
  (425, (bind (@cancel_minus_dec binary64 (((fl binary64 (-2871044762448691) (-49)), (fl binary64 (-1) (0))), dac) (((fl binary64 (-5) (0)), (fl binary64 (-1) (0))), com)) (fun v1 => ret (dieq v1 (((fl binary64 (-56294995342131) (-49)), (@f0 binary64)), trv)))));
  (426, (bind (@cancel_minus_dec binary64 (((fl binary64 (-5) (0)), (fl binary64 (-8106479329266893) (-53))), def) (((fl binary64 (-5) (0)), (fl binary64 (-1) (0))), com)) (fun v1 => ret (dieq v1 (((@f0 binary64), (fl binary64 (900719925474099) (-53))), trv)))));
  (427, (bind (@cancel_minus_dec binary64 (((fl binary64 (-2871044762448691) (-49)), (fl binary64 (-8106479329266893) (-53))), trv) (((fl binary64 (-5) (0)), (fl binary64 (-1) (0))), com)) (fun v1 => ret (dieq v1 (((fl binary64 (-56294995342131) (-49)), (fl binary64 (900719925474099) (-53))), trv)))));
  (428, (bind (@cancel_minus_dec binary64 (((fl binary64 (-5) (0)), (fl binary64 (-1) (0))), com) (((fl binary64 (-5) (0)), (fl binary64 (-1) (0))), dac)) (fun v1 => ret (dieq v1 (((@f0 binary64), (@f0 binary64)), trv)))));
  (429, (bind (@cancel_minus_dec binary64 (((fl binary64 (-5685794529555251) (-49)), (fl binary64 (5) (0))), dac) (((fl binary64 (-5) (1)), (fl binary64 (5) (0))), dac)) (fun v1 => ret (dieq v1 (((fl binary64 (-56294995342131) (-49)), (@f0 binary64)), trv)))));
  (430, (bind (@cancel_minus_dec binary64 (((fl binary64 (-5) (1)), (fl binary64 (2871044762448691) (-49))), def) (((fl binary64 (-5) (1)), (fl binary64 (5) (0))), dac)) (fun v1 => ret (dieq v1 (((@f0 binary64), (fl binary64 (56294995342131) (-49))), trv)))));
  (431, (bind (@cancel_minus_dec binary64 (((fl binary64 (-5685794529555251) (-49)), (fl binary64 (2871044762448691) (-49))), trv) (((fl binary64 (-5) (1)), (fl binary64 (5) (0))), def)) (fun v1 => ret (dieq v1 (((fl binary64 (-56294995342131) (-49)), (fl binary64 (56294995342131) (-49))), trv)))));
  (432, (bind (@cancel_minus_dec binary64 (((fl binary64 (-5) (1)), (fl binary64 (5) (0))), com) (((fl binary64 (-5) (1)), (fl binary64 (5) (0))), def)) (fun v1 => ret (dieq v1 (((@f0 binary64), (@f0 binary64)), trv)))));
  (433, (bind (@cancel_minus_dec binary64 (((fl binary64 (8106479329266893) (-53)), (fl binary64 (5) (0))), dac) (((fl binary64 (1) (0)), (fl binary64 (5) (0))), def)) (fun v1 => ret (dieq v1 (((fl binary64 (-900719925474099) (-53)), (@f0 binary64)), trv)))));
  (434, (bind (@cancel_minus_dec binary64 (((@fm0 binary64), (fl binary64 (2871044762448691) (-49))), def) (((@f0 binary64), (fl binary64 (5) (0))), def)) (fun v1 => ret (dieq v1 (((@f0 binary64), (fl binary64 (56294995342131) (-49))), trv)))));
  (435, (bind (@cancel_minus_dec binary64 (((fl binary64 (1) (0)), (fl binary64 (2871044762448691) (-49))), trv) (((fl binary64 (1) (0)), (fl binary64 (5) (0))), trv)) (fun v1 => ret (dieq v1 (((@f0 binary64), (fl binary64 (56294995342131) (-49))), trv)))));
  (436, (bind (@cancel_minus_dec binary64 (((fl binary64 (8106479329266893) (-53)), (fl binary64 (2871044762448691) (-49))), com) (((fl binary64 (1) (0)), (fl binary64 (5) (0))), trv)) (fun v1 => ret (dieq v1 (((fl binary64 (-900719925474099) (-53)), (fl binary64 (56294995342131) (-49))), trv)))));
  (437, (bind (@cancel_minus_dec binary64 (((fl binary64 (1) (0)), (fl binary64 (5) (0))), dac) (((fl binary64 (1) (0)), (fl binary64 (5) (0))), com)) (fun v1 => ret (dieq v1 (((@f0 binary64), (@f0 binary64)), trv)))));
  (438, (bind (@cancel_minus_dec binary64 (((fl binary64 (-5) (0)), (fl binary64 (1) (0))), def) (((fl binary64 (-1) (0)), (fl binary64 (5) (0))), def)) (fun v1 => ret (dieq v1 (((fl binary64 (-1) (2)), (fl binary64 (-1) (2))), trv)))));
  (439, (bind (@cancel_minus_dec binary64 (((fl binary64 (-5) (0)), (@f0 binary64)), trv) (((@fm0 binary64), (fl binary64 (5) (0))), trv)) (fun v1 => ret (dieq v1 (((fl binary64 (-5) (0)), (fl binary64 (-5) (0))), trv)))));
  (441, (bind (@cancel_minus_dec binary64 (((fl binary64 (562949953421311) (-48)), (fl binary64 (562949953421311) (-48))), com) (((fl binary64 (3602879701896397) (-55)), (fl binary64 (3602879701896397) (-55))), com)) (fun v1 => ret (dieq v1 (((fl binary64 (4278419646001963) (-51)), (fl binary64 (8556839292003927) (-52))), trv)))));
  (442, (bind (@cancel_minus_dec binary64 (((fl binary64 (-3602879701896397) (-55)), (fl binary64 (562949953421311) (-48))), def) (((fl binary64 (-5764607523034235) (-59)), (fl binary64 (3602879701896397) (-55))), dac)) (fun v1 => ret (dieq v1 (((fl binary64 (-6485183463413515) (-56)), (fl binary64 (8556839292003927) (-52))), trv)))));
  (444, (bind (@cancel_minus_dec binary64 (((fl binary64 (9007199254740991) (971)), (fl binary64 (9007199254740991) (971))), com) (((fl binary64 (-9007199254740991) (971)), (fl binary64 (-9007199254740991) (971))), com)) (fun v1 => ret (dieq v1 (((fl binary64 (9007199254740991) (971)), (@finf binary64)), trv)))));
  (445, (bind (@cancel_minus_dec binary64 (((fl binary64 (-9007199254740991) (971)), (fl binary64 (9007199254740991) (971))), com) (((fl binary64 (-9007199254740991) (971)), (fl binary64 (9007199254740991) (971))), com)) (fun v1 => ret (dieq v1 (((@f0 binary64), (@f0 binary64)), trv)))));
  (446, (bind (@cancel_minus_dec binary64 (((fl binary64 (-9007199254740991) (971)), (fl binary64 (9007199254740991) (971))), com) (((fl binary64 (-9007199254740991) (971)), (fl binary64 (4503599627370495) (972))), com)) (fun v1 => ret (dieq v1 (((@f0 binary64), (fl binary64 (1) (971))), trv)))));
  (447, (bind (@cancel_minus_dec binary64 (((fl binary64 (-9007199254740991) (971)), (fl binary64 (9007199254740991) (971))), com) (((fl binary64 (-4503599627370495) (972)), (fl binary64 (9007199254740991) (971))), com)) (fun v1 => ret (dieq v1 (((fl binary64 (-1) (971)), (@f0 binary64)), trv)))));
  (448, (bind (@cancel_minus_dec binary64 (((fl binary64 (-9007199254740991) (971)), (fl binary64 (4503599627370495) (972))), com) (((fl binary64 (-9007199254740991) (971)), (fl binary64 (9007199254740991) (971))), com)) (fun v1 => ret (dieq v1 (((@fminf binary64), (@finf binary64)), trv)))));
  (449, (bind (@cancel_minus_dec binary64 (((fl binary64 (-4503599627370495) (972)), (fl binary64 (9007199254740991) (971))), com) (((fl binary64 (-9007199254740991) (971)), (fl binary64 (9007199254740991) (971))), com)) (fun v1 => ret (dieq v1 (((@fminf binary64), (@finf binary64)), trv)))));
  (451, (bind (@cancel_minus_dec binary64 (((fl binary64 (1) (-1022)), (fl binary64 (1) (-1022))), com) (((fl binary64 (1) (-1022)), (fl binary64 (1) (-1022))), com)) (fun v1 => ret (dieq v1 (((@f0 binary64), (@f0 binary64)), trv)))));
  (452, (bind (@cancel_minus_dec binary64 (((fl binary64 (1) (-1022)), (fl binary64 (1) (-1022))), com) (((fl binary64 (-1) (-1022)), (fl binary64 (-1) (-1022))), dac)) (fun v1 => ret (dieq v1 (((fl binary64 (1) (-1021)), (fl binary64 (1) (-1021))), trv)))));
  (453, (bind (@cancel_minus_dec binary64 (((fl binary64 (1) (-1022)), (fl binary64 (2251799813685249) (-1073))), dac) (((fl binary64 (1) (-1022)), (fl binary64 (4503599627370497) (-1074))), dac)) (fun v1 => ret (dieq v1 (((@f0 binary64), (fl binary64 (1) (-1074))), trv)))));
  (454, (bind (@cancel_minus_dec binary64 (((fl binary64 (1) (-1022)), (fl binary64 (4503599627370497) (-1074))), def) (((fl binary64 (1) (-1022)), (fl binary64 (2251799813685249) (-1073))), com)) (fun v1 => ret (dieq v1 (((@fminf binary64), (@finf binary64)), trv)))));
  (457, (bind (@cancel_minus_dec binary64 (((fl binary64 (-1) (0)), (fl binary64 (9007199254740991) (-105))), com) (((fl binary64 (-4503599627370495) (-104)), (fl binary64 (1) (0))), dac)) (fun v1 => ret (dieq v1 (((fl binary64 (-9007199254740991) (-53)), (fl binary64 (-4503599627370495) (-52))), trv)))));
  (458, (bind (@cancel_minus_dec binary64 (((fl binary64 (-1) (0)), (fl binary64 (4503599627370495) (-104))), def) (((fl binary64 (-9007199254740991) (-105)), (fl binary64 (1) (0))), dac)) (fun v1 => ret (dieq v1 (((@fminf binary64), (@finf binary64)), trv)))));
  (462, (bind get_flags (fun v1 => ret (N.eqb v1 none_bit))));
  (464, clear_flags);
  (465, (bind (@cancel_minus_dec binary64 (((fl binary64 (1) (0)), (fl binary64 (-9007199254740991) (971))), trv) (((fl binary64 (3) (0)), (fl binary64 (1) (2))), trv)) (fun v1 => @is_nai binary64 v1)));
  (466, (bind get_flags (fun v1 => ret (N.eqb v1 invalid_operand_bit))));
  (467, clear_flags);
  (468, (set_cwd invalid_operand_bit));
  (469, (throws (@cancel_minus_dec binary64 (((fl binary64 (1) (0)), (fl binary64 (9007199254740991) (971))), trv) (((fl binary64 (3) (0)), (fl binary64 (-1) (2))), trv)) Invalid_operand_exception));
  (470, (bind get_flags (fun v1 => ret (N.eqb v1 invalid_operand_bit))));
  (471, clear_flags);
  (472, (set_cwd none_bit))].

(** lines 476-497 *)
Definition minimal_cancel_minus_dec_mixedtype_test : list (N * M bool) := [
  (478, (bind (@cancel_minus_dec_mixed binary32 binary64 binary64 (((fl binary64 (-5) (0)), (fl binary64 (-8106479329266893) (-53))), com) (((fl binary64 (-5) (0)), (fl binary64 (-1) (0))), dac)) (fun v1 => ret (dieq v1 (((@f0 binary32), (fl binary32 (13421773) (-27))), trv)))));
  (479, (bind (@cancel_minus_dec_mixed binary32 binary64 binary64 (((fl binary64 (-2871044762448691) (-49)), (fl binary64 (-8106479329266893) (-53))), dac) (((fl binary64 (-5) (0)), (fl binary64 (-1) (0))), def)) (fun v1 => ret (dieq v1 (((fl binary32 (-13421773) (-27)), (fl binary32 (13421773) (-27))), trv)))));
  (480, (bind (@cancel_minus_dec_mixed binary64 binary32 binary32 (((fl binary32 (-5295309) (-19)), (fl binary32 (10695475) (-21))), def) (((fl binary32 (-5) (1)), (fl binary32 (5) (0))), dac)) (fun v1 => ret (dieq v1 (((fl binary64 (-52429) (-19)), (fl binary64 (209715) (-21))), trv)))));
  (481, (bind (@cancel_minus_dec_mixed binary64 binary32 binary32 (((fl binary32 (-13421773) (-27)), (fl binary32 (1) (1))), trv) (((fl binary32 (-5368709) (-29)), (fl binary32 (13421773) (-27))), com)) (fun v1 => ret (dieq v1 (((fl binary64 (-48318383) (-29)), (fl binary64 (255013683) (-27))), trv)))));
  (482, (bind (@cancel_minus_dec_mixed binary64 binary32 binary32 (((fl binary32 (-1) (0)), (fl binary32 (8388607) (-75))), dac) (((fl binary32 (-16777215) (-76)), (fl binary32 (1) (0))), def)) (fun v1 => ret (dieq v1 (((@fminf binary64), (@finf binary64)), trv)))));
  (486, (bind get_flags (fun v1 => ret (N.eqb v1 none_bit))));
  (488, clear_flags);
  (489, (bind (@cancel_minus_dec_mixed binary32 binary64 binary64 (((fl binary64 (1) (0)), (fl binary64 (-9007199254740991) (971))), trv) (((fl binary64 (3) (0)), (fl binary64 (1) (2))), trv)) (fun v1 => @is_nai binary32 v1)));
  (490, (bind get_flags (fun v1 => ret (N.eqb v1 invalid_operand_bit))));
  (491, clear_flags);
  (492, (set_cwd invalid_operand_bit));
  (493, (throws (@cancel_minus_dec_mixed binary64 binary64 binary32 (((fl binary64 (1) (0)), (fl binary64 (9007199254740991) (971))), trv) (((fl binary32 (3) (0)), (fl binary32 (-1) (2))), trv)) Invalid_operand_exception));
  (494, (bind get_flags (fun v1 => ret (N.eqb v1 invalid_operand_bit))));
  (495, clear_flags);
  (496, (set_cwd none_bit))].

Example cancel_func_agree : test_file [
  minimal_cancel_plus_test; minimal_cancel_plus_mixedtype_test; minimal_cancel_plus_dec_test; minimal_cancel_plus_dec_mixedtype_test; minimal_cancel_minus_test; minimal_cancel_minus_mixedtype_test; minimal_cancel_minus_dec_test; minimal_cancel_minus_dec_mixedtype_test] = [].
Proof. vm_compute. reflexivity. Qed.
