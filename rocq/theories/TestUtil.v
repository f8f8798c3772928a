(** * The checks of the unit tests in /repo/test/p1788/flavor/infsup/setbased/
    test_mpfr_bin_ieee754_flavor_util_func.cpp, run on the model

    One definition per test case of that file, the number before a check is its
    line there.  These are tests of the model, not proofs about it. *)

From Coq Require Import ZArith NArith Bool List.
From Flocq Require Import IEEE754.BinarySingleNaN.
From Verif Require Import Fmt Spec Exc Deco MBase MBool MArith MElem MDec MNum MCancel MOverlap MClass MRev MRev1 MMixed Ex TestRun.
Import ListNotations.
Local Open Scope N_scope.

(** lines 58-97 *)
Definition minimal_convert_rndd_test : list (N * M bool) := [
  (60, (ret (feq (@convert_rndd binary64 binary64 (fl binary64 (7205759403792793) (-56))) (fl binary64 (7205759403792793) (-56)))));
  (61, (ret (feq (@convert_rndd binary64 binary32 (fl binary64 (7205759403792793) (-56))) (fl binary32 (3355443) (-25)))));
  (62, (ret (feq (@convert_rndd binary64 binary64 (fl binary64 (13421773) (-27))) (fl binary64 (13421773) (-27)))));
  (63, (ret (feq (@convert_rndd binary32 binary64 (fl binary32 (13421773) (-27))) (fl binary64 (13421773) (-27)))));
  (64, (ret (feq (@convert_rndd binary64 binary32 (fl binary64 (13421773) (-27))) (fl binary32 (13421773) (-27)))));
  (66, (ret (feq (@convert_rndd binary64 binary64 (fl binary64 (-3602879824865869) (-47))) (fl binary64 (-3602879824865869) (-47)))));
  (67, (ret (feq (@convert_rndd binary64 binary32 (fl binary64 (-3602879824865869) (-47))) (fl binary32 (-6710887) (-18)))));
  (68, (ret (feq (@convert_rndd binary64 binary64 (fl binary64 (-6710887) (-18))) (fl binary64 (-6710887) (-18)))));
  (69, (ret (feq (@convert_rndd binary32 binary64 (fl binary32 (-6710887) (-18))) (fl binary64 (-6710887) (-18)))));
  (70, (ret (feq (@convert_rndd binary64 binary32 (fl binary64 (-6710887) (-18))) (fl binary32 (-6710887) (-18)))));
  (73, (ret (feq (@convert_rndd binary64 binary64 (fl binary64 (1) (-1074))) (fl binary64 (1) (-1074)))));
  (74, (ret (feq2 (@convert_rndd binary64 binary32 (fl binary64 (1) (-1074))) (@fm0 binary64))));
  (75, (ret (fsign (@convert_rndd binary64 binary32 (fl binary64 (1) (-1074))))));
  (76, (ret (feq (@convert_rndd binary64 binary64 (fl binary64 (-1) (-1074))) (fl binary64 (-1) (-1074)))));
  (77, (ret (feq (@convert_rndd binary64 binary32 (fl binary64 (-1) (-1074))) (fl binary32 (-1) (-149)))));
  (79, (ret (feq (@convert_rndd binary64 binary64 (fl binary64 (9007199254740991) (971))) (fl binary64 (9007199254740991) (971)))));
  (80, (ret (feq (@convert_rndd binary64 binary32 (fl binary64 (9007199254740991) (971))) (fl binary32 (16777215) (104)))));
  (81, (ret (feq (@convert_rndd binary64 binary64 (fl binary64 (-9007199254740991) (971))) (fl binary64 (-9007199254740991) (971)))));
  (82, (ret (feq (@convert_rndd binary64 binary32 (fl binary64 (-9007199254740991) (971))) (@fminf binary32))));
  (84, (ret (feq (@convert_rndd binary64 binary64 (@finf binary64)) (@finf binary64))));
  (85, (ret (feq (@convert_rndd binary64 binary32 (@finf binary64)) (@finf binary32))));
  (86, (ret (feq (@convert_rndd binary64 binary64 (@fminf binary64)) (@fminf binary64))));
  (87, (ret (feq (@convert_rndd binary64 binary32 (@fminf binary64)) (@fminf binary32))));
  (88, (ret (feq (@convert_rndd binary32 binary64 (@finf binary32)) (@finf binary64))));
  (89, (ret (feq (@convert_rndd binary32 binary32 (@finf binary32)) (@finf binary32))));
  (90, (ret (feq (@convert_rndd binary32 binary64 (@fminf binary32)) (@fminf binary64))));
  (91, (ret (feq (@convert_rndd binary32 binary32 (@fminf binary32)) (@fminf binary32))));
  (93, (ret (isnan (@convert_rndd binary64 binary64 (@fnan binary64)))));
  (94, (ret (isnan (@convert_rndd binary64 binary32 (@fnan binary64)))));
  (95, (ret (isnan (@convert_rndd binary32 binary64 (@fnan binary32)))));
  (96, (ret (isnan (@convert_rndd binary32 binary32 (@fnan binary32)))))].

(** lines 100-139 *)
Definition minimal_convert_rndn_test : list (N * M bool) := [
  (102, (ret (feq (@convert_rndn binary64 binary64 (fl binary64 (7205759403792793) (-56))) (fl binary64 (7205759403792793) (-56)))));
  (103, (ret (feq (@convert_rndn binary64 binary32 (fl binary64 (7205759403792793) (-56))) (fl binary32 (13421773) (-27)))));
  (104, (ret (feq (@convert_rndn binary64 binary64 (fl binary64 (13421773) (-27))) (fl binary64 (13421773) (-27)))));
  (105, (ret (feq (@convert_rndn binary32 binary64 (fl binary32 (13421773) (-27))) (fl binary64 (13421773) (-27)))));
  (106, (ret (feq (@convert_rndn binary64 binary32 (fl binary64 (13421773) (-27))) (fl binary32 (13421773) (-27)))));
  (108, (ret (feq (@convert_rndn binary64 binary64 (fl binary64 (-3602879824865869) (-47))) (fl binary64 (-3602879824865869) (-47)))));
  (109, (ret (feq (@convert_rndn binary64 binary32 (fl binary64 (-3602879824865869) (-47))) (fl binary32 (-13421773) (-19)))));
  (110, (ret (feq (@convert_rndn binary64 binary64 (fl binary64 (-6710887) (-18))) (fl binary64 (-6710887) (-18)))));
  (111, (ret (feq (@convert_rndn binary32 binary64 (fl binary32 (-6710887) (-18))) (fl binary64 (-6710887) (-18)))));
  (112, (ret (feq (@convert_rndn binary64 binary32 (fl binary64 (-6710887) (-18))) (fl binary32 (-6710887) (-18)))));
  (114, (ret (feq (@convert_rndn binary64 binary64 (fl binary64 (1) (-1074))) (fl binary64 (1) (-1074)))));
  (115, (ret (feq2 (@convert_rndn binary64 binary32 (fl binary64 (1) (-1074))) (@f0 binary64))));
  (116, (mnot (ret (fsign (@convert_rndn binary64 binary32 (fl binary64 (1) (-1074)))))));
  (117, (ret (feq (@convert_rndn binary64 binary64 (fl binary64 (-1) (-1074))) (fl binary64 (-1) (-1074)))));
  (118, (ret (feq2 (@convert_rndn binary64 binary32 (fl binary64 (-1) (-1074))) (@f0 binary64))));
  (119, (mnot (ret (fsign (@convert_rndn binary64 binary32 (fl binary64 (-1) (-1074)))))));
  (121, (ret (feq (@convert_rndn binary64 binary64 (fl binary64 (9007199254740991) (971))) (fl binary64 (9007199254740991) (971)))));
  (122, (ret (feq (@convert_rndn binary64 binary32 (fl binary64 (9007199254740991) (971))) (@finf binary32))));
  (123, (ret (feq (@convert_rndn binary64 binary64 (fl binary64 (-9007199254740991) (971))) (fl binary64 (-9007199254740991) (971)))));
  (124, (ret (feq (@convert_rndn binary64 binary32 (fl binary64 (-9007199254740991) (971))) (@fminf binary32))));
  (126, (ret (feq (@convert_rndn binary64 binary64 (@finf binary64)) (@finf binary64))));
  (127, (ret (feq (@convert_rndn binary64 binary32 (@finf binary64)) (@finf binary32))));
  (128, (ret (feq (@convert_rndn binary64 binary64 (@fminf binary64)) (@fminf binary64))));
  (129, (ret (feq (@convert_rndn binary64 binary32 (@fminf binary64)) (@fminf binary32))));
  (130, (ret (feq (@convert_rndn binary32 binary64 (@finf binary32)) (@finf binary64))));
  (131, (ret (feq (@convert_rndn binary32 binary32 (@finf binary32)) (@finf binary32))));
  (132, (ret (feq (@convert_rndn binary32 binary64 (@fminf binary32)) (@fminf binary64))));
  (133, (ret (feq (@convert_rndn binary32 binary32 (@fminf binary32)) (@fminf binary32))));
  (135, (ret (isnan (@convert_rndn binary64 binary64 (@fnan binary64)))));
  (136, (ret (isnan (@convert_rndn binary64 binary32 (@fnan binary64)))));
  (137, (ret (isnan (@convert_rndn binary32 binary64 (@fnan binary32)))));
  (138, (ret (isnan (@convert_rndn binary32 binary32 (@fnan binary32)))))].

(** lines 142-180 *)
Definition minimal_convert_rndu_test : list (N * M bool) := [
  (144, (ret (feq (@convert_rndu binary64 binary64 (fl binary64 (7205759403792793) (-56))) (fl binary64 (7205759403792793) (-56)))));
  (145, (ret (feq (@convert_rndu binary64 binary32 (fl binary64 (7205759403792793) (-56))) (fl binary32 (13421773) (-27)))));
  (146, (ret (feq (@convert_rndu binary64 binary64 (fl binary64 (13421773) (-27))) (fl binary64 (13421773) (-27)))));
  (147, (ret (feq (@convert_rndu binary32 binary64 (fl binary32 (13421773) (-27))) (fl binary64 (13421773) (-27)))));
  (148, (ret (feq (@convert_rndu binary64 binary32 (fl binary64 (13421773) (-27))) (fl binary32 (13421773) (-27)))));
  (150, (ret (feq (@convert_rndu binary64 binary64 (fl binary64 (-3602879824865869) (-47))) (fl binary64 (-3602879824865869) (-47)))));
  (151, (ret (feq (@convert_rndu binary64 binary32 (fl binary64 (-3602879824865869) (-47))) (fl binary32 (-13421773) (-19)))));
  (152, (ret (feq (@convert_rndu binary64 binary64 (fl binary64 (-6710887) (-18))) (fl binary64 (-6710887) (-18)))));
  (153, (ret (feq (@convert_rndu binary32 binary64 (fl binary32 (-6710887) (-18))) (fl binary64 (-6710887) (-18)))));
  (154, (ret (feq (@convert_rndu binary64 binary32 (fl binary64 (-6710887) (-18))) (fl binary32 (-6710887) (-18)))));
  (156, (ret (feq (@convert_rndu binary64 binary64 (fl binary64 (1) (-1074))) (fl binary64 (1) (-1074)))));
  (157, (ret (feq (@convert_rndu binary64 binary32 (fl binary64 (1) (-1074))) (fl binary32 (1) (-149)))));
  (158, (ret (feq (@convert_rndu binary64 binary64 (fl binary64 (-1) (-1074))) (fl binary64 (-1) (-1074)))));
  (159, (ret (feq2 (@convert_rndu binary64 binary32 (fl binary64 (-1) (-1074))) (@f0 binary64))));
  (160, (mnot (ret (fsign (@convert_rndu binary64 binary32 (fl binary64 (-1) (-1074)))))));
  (162, (ret (feq (@convert_rndu binary64 binary64 (fl binary64 (9007199254740991) (971))) (fl binary64 (9007199254740991) (971)))));
  (163, (ret (feq (@convert_rndu binary64 binary32 (fl binary64 (9007199254740991) (971))) (@finf binary32))));
  (164, (ret (feq (@convert_rndu binary64 binary64 (fl binary64 (-9007199254740991) (971))) (fl binary64 (-9007199254740991) (971)))));
  (165, (ret (feq (@convert_rndu binary64 binary32 (fl binary64 (-9007199254740991) (971))) (fl binary32 (-16777215) (104)))));
  (167, (ret (feq (@convert_rndu binary64 binary64 (@finf binary64)) (@finf binary64))));
  (168, (ret (feq (@convert_rndu binary64 binary32 (@finf binary64)) (@finf binary32))));
  (169, (ret (feq (@convert_rndu binary64 binary64 (@fminf binary64)) (@fminf binary64))));
  (170, (ret (feq (@convert_rndu binary64 binary32 (@fminf binary64)) (@fminf binary32))));
  (171, (ret (feq (@convert_rndu binary32 binary64 (@finf binary32)) (@finf binary64))));
  (172, (ret (feq (@convert_rndu binary32 binary32 (@finf binary32)) (@finf binary32))));
  (173, (ret (feq (@convert_rndu binary32 binary64 (@fminf binary32)) (@fminf binary64))));
  (174, (ret (feq (@convert_rndu binary32 binary32 (@fminf binary32)) (@fminf binary32))));
  (176, (ret (isnan (@convert_rndu binary64 binary64 (@fnan binary64)))));
  (177, (ret (isnan (@convert_rndu binary64 binary32 (@fnan binary64)))));
  (178, (ret (isnan (@convert_rndu binary32 binary64 (@fnan binary32)))));
  (179, (ret (isnan (@convert_rndu binary32 binary32 (@fnan binary32)))))].

(** lines 183-230 *)
Definition minimal_convert_hull_test : list (N * M bool) := [
  (185, (bind (ret (@convert_hull binary64 binary64 ((fl binary64 (-3602879824865869) (-47)), (fl binary64 (7205759403792793) (-56))))) (fun v1 => ret (ieq v1 ((fl binary64 (-3602879824865869) (-47)), (fl binary64 (7205759403792793) (-56)))))));
  (186, (bind (ret (@convert_hull binary64 binary64 ((fl binary64 (-6710887) (-18)), (fl binary64 (7205759403792793) (-56))))) (fun v1 => ret (ieq v1 ((fl binary64 (-6710887) (-18)), (fl binary64 (7205759403792793) (-56)))))));
  (187, (bind (ret (@convert_hull binary64 binary64 ((fl binary64 (-3602879824865869) (-47)), (fl binary64 (13421773) (-27))))) (fun v1 => ret (ieq v1 ((fl binary64 (-3602879824865869) (-47)), (fl binary64 (13421773) (-27)))))));
  (188, (bind (ret (@convert_hull binary64 binary64 ((fl binary64 (-6710887) (-18)), (fl binary64 (13421773) (-27))))) (fun v1 => ret (ieq v1 ((fl binary64 (-6710887) (-18)), (fl binary64 (13421773) (-27)))))));
  (189, (bind (ret (@convert_hull binary32 binary64 ((fl binary32 (-6710887) (-18)), (fl binary32 (13421773) (-27))))) (fun v1 => ret (ieq v1 ((fl binary64 (-6710887) (-18)), (fl binary64 (13421773) (-27)))))));
  (191, (bind (ret (@convert_hull binary64 binary64 ((fl binary64 (-1) (-1074)), (fl binary64 (-1) (-1074))))) (fun v1 => ret (ieq v1 ((fl binary64 (-1) (-1074)), (fl binary64 (-1) (-1074)))))));
  (192, (bind (ret (@convert_hull binary64 binary64 ((fl binary64 (-1) (-1074)), (fl binary64 (1) (-1074))))) (fun v1 => ret (ieq v1 ((fl binary64 (-1) (-1074)), (fl binary64 (1) (-1074)))))));
  (193, (bind (ret (@convert_hull binary64 binary64 ((fl binary64 (1) (-1074)), (fl binary64 (1) (-1074))))) (fun v1 => ret (ieq v1 ((fl binary64 (1) (-1074)), (fl binary64 (1) (-1074)))))));
  (194, (bind (ret (@convert_hull binary32 binary64 ((fl binary32 (1) (-149)), (fl binary32 (1) (-149))))) (fun v1 => ret (ieq v1 ((fl binary64 (1) (-149)), (fl binary64 (1) (-149)))))));
  (196, (bind (ret (@convert_hull binary64 binary64 ((fl binary64 (-9007199254740991) (971)), (fl binary64 (-9007199254740991) (971))))) (fun v1 => ret (ieq v1 ((fl binary64 (-9007199254740991) (971)), (fl binary64 (-9007199254740991) (971)))))));
  (197, (bind (ret (@convert_hull binary64 binary64 ((fl binary64 (-9007199254740991) (971)), (fl binary64 (9007199254740991) (971))))) (fun v1 => ret (ieq v1 ((fl binary64 (-9007199254740991) (971)), (fl binary64 (9007199254740991) (971)))))));
  (198, (bind (ret (@convert_hull binary64 binary64 ((fl binary64 (9007199254740991) (971)), (fl binary64 (9007199254740991) (971))))) (fun v1 => ret (ieq v1 ((fl binary64 (9007199254740991) (971)), (fl binary64 (9007199254740991) (971)))))));
  (199, (bind (ret (@convert_hull binary32 binary64 ((fl binary32 (16777215) (104)), (fl binary32 (16777215) (104))))) (fun v1 => ret (ieq v1 ((fl binary64 (16777215) (104)), (fl binary64 (16777215) (104)))))));
  (201, (bind (ret (@convert_hull binary64 binary64 ((@fminf binary64), (@finf binary64)))) (fun v1 => ret (ieq v1 ((@fminf binary64), (@finf binary64))))));
  (202, (bind (ret (@convert_hull binary32 binary64 ((@fminf binary32), (@finf binary32)))) (fun v1 => ret (ieq v1 ((@fminf binary64), (@finf binary64))))));
  (204, (bind (ret (@convert_hull binary64 binary64 ((@fnan binary64), (@fnan binary64)))) (fun v1 => @is_empty binary64 v1)));
  (205, (bind (ret (@convert_hull binary32 binary64 ((@fnan binary32), (@fnan binary32)))) (fun v1 => @is_empty binary64 v1)));
  (207, (bind (ret (@convert_hull binary64 binary32 ((fl binary64 (-3602879824865869) (-47)), (fl binary64 (7205759403792793) (-56))))) (fun v1 => ret (ieq v1 ((fl binary32 (-6710887) (-18)), (fl binary32 (13421773) (-27)))))));
  (208, (bind (ret (@convert_hull binary64 binary32 ((fl binary64 (-6710887) (-18)), (fl binary64 (7205759403792793) (-56))))) (fun v1 => ret (ieq v1 ((fl binary32 (-6710887) (-18)), (fl binary32 (13421773) (-27)))))));
  (209, (bind (ret (@convert_hull binary64 binary32 ((fl binary64 (-3602879824865869) (-47)), (fl binary64 (13421773) (-27))))) (fun v1 => ret (ieq v1 ((fl binary32 (-6710887) (-18)), (fl binary32 (13421773) (-27)))))));
  (210, (bind (ret (@convert_hull binary64 binary32 ((fl binary64 (-6710887) (-18)), (fl binary64 (13421773) (-27))))) (fun v1 => ret (ieq v1 ((fl binary32 (-6710887) (-18)), (fl binary32 (13421773) (-27)))))));
  (211, (bind (ret (@convert_hull binary32 binary32 ((fl binary32 (-6710887) (-18)), (fl binary32 (13421773) (-27))))) (fun v1 => ret (ieq v1 ((fl binary32 (-6710887) (-18)), (fl binary32 (13421773) (-27)))))));
  (213, (bind (ret (@convert_hull binary64 binary32 ((fl binary64 (-1) (-1074)), (fl binary64 (-1) (-1074))))) (fun v1 => ret (ieq v1 ((fl binary32 (-1) (-149)), (@f0 binary32))))));
  (214, (mnot (bind (bind (ret (@convert_hull binary64 binary32 ((fl binary64 (-1) (-1074)), (fl binary64 (-1) (-1074))))) (fun v1 => ret (snd v1))) (fun v2 => ret (fsign v2)))));
  (215, (bind (ret (@convert_hull binary64 binary32 ((fl binary64 (-1) (-1074)), (fl binary64 (1) (-1074))))) (fun v1 => ret (ieq v1 ((fl binary32 (-1) (-149)), (fl binary32 (1) (-149)))))));
  (216, (bind (ret (@convert_hull binary64 binary32 ((fl binary64 (1) (-1074)), (fl binary64 (1) (-1074))))) (fun v1 => ret (ieq v1 ((@fm0 binary32), (fl binary32 (1) (-149)))))));
  (217, (bind (bind (ret (@convert_hull binary64 binary32 ((fl binary64 (1) (-1074)), (fl binary64 (1) (-1074))))) (fun v1 => ret (fst v1))) (fun v2 => ret (fsign v2))));
  (218, (bind (ret (@convert_hull binary32 binary32 ((fl binary32 (1) (-149)), (fl binary32 (1) (-149))))) (fun v1 => ret (ieq v1 ((fl binary32 (1) (-149)), (fl binary32 (1) (-149)))))));
  (220, (bind (ret (@convert_hull binary64 binary32 ((fl binary64 (-9007199254740991) (971)), (fl binary64 (-9007199254740991) (971))))) (fun v1 => ret (ieq v1 ((@fminf binary32), (fl binary32 (-16777215) (104)))))));
  (221, (bind (ret (@convert_hull binary64 binary32 ((fl binary64 (-9007199254740991) (971)), (fl binary64 (9007199254740991) (971))))) (fun v1 => ret (ieq v1 ((@fminf binary32), (@finf binary32))))));
  (222, (bind (ret (@convert_hull binary64 binary32 ((fl binary64 (9007199254740991) (971)), (fl binary64 (9007199254740991) (971))))) (fun v1 => ret (ieq v1 ((fl binary32 (16777215) (104)), (@finf binary32))))));
  (223, (bind (ret (@convert_hull binary32 binary32 ((fl binary32 (16777215) (104)), (fl binary32 (16777215) (104))))) (fun v1 => ret (ieq v1 ((fl binary32 (16777215) (104)), (fl binary32 (16777215) (104)))))));
  (225, (bind (ret (@convert_hull binary64 binary32 ((@fminf binary64), (@finf binary64)))) (fun v1 => ret (ieq v1 ((@fminf binary32), (@finf binary32))))));
  (226, (bind (ret (@convert_hull binary32 binary32 ((@fminf binary32), (@finf binary32)))) (fun v1 => ret (ieq v1 ((@fminf binary32), (@finf binary32))))));
  (228, (bind (ret (@convert_hull binary64 binary32 ((@fnan binary64), (@fnan binary64)))) (fun v1 => @is_empty binary32 v1)));
  (229, (bind (ret (@convert_hull binary32 binary32 ((@fnan binary32), (@fnan binary32)))) (fun v1 => @is_empty binary32 v1)))].

(** lines 233-287 *)
Definition minimal_convert_hull_dec_test : list (N * M bool) := [
  (235, (bind (@convert_hull_dec binary64 binary64 (((fl binary64 (-3602879824865869) (-47)), (fl binary64 (7205759403792793) (-56))), trv)) (fun v1 => ret (dieq v1 (((fl binary64 (-3602879824865869) (-47)), (fl binary64 (7205759403792793) (-56))), trv)))));
  (236, (bind (@convert_hull_dec binary64 binary64 (((fl binary64 (-6710887) (-18)), (fl binary64 (7205759403792793) (-56))), com)) (fun v1 => ret (dieq v1 (((fl binary64 (-6710887) (-18)), (fl binary64 (7205759403792793) (-56))), com)))));
  (237, (bind (@convert_hull_dec binary64 binary64 (((fl binary64 (-3602879824865869) (-47)), (fl binary64 (13421773) (-27))), dac)) (fun v1 => ret (dieq v1 (((fl binary64 (-3602879824865869) (-47)), (fl binary64 (13421773) (-27))), dac)))));
  (238, (bind (@convert_hull_dec binary64 binary64 (((fl binary64 (-6710887) (-18)), (fl binary64 (13421773) (-27))), def)) (fun v1 => ret (dieq v1 (((fl binary64 (-6710887) (-18)), (fl binary64 (13421773) (-27))), def)))));
  (239, (bind (@convert_hull_dec binary32 binary64 (((fl binary32 (-6710887) (-18)), (fl binary32 (13421773) (-27))), trv)) (fun v1 => ret (dieq v1 (((fl binary64 (-6710887) (-18)), (fl binary64 (13421773) (-27))), trv)))));
  (241, (bind (@convert_hull_dec binary64 binary64 (((fl binary64 (-1) (-1074)), (fl binary64 (-1) (-1074))), trv)) (fun v1 => ret (dieq v1 (((fl binary64 (-1) (-1074)), (fl binary64 (-1) (-1074))), trv)))));
  (242, (bind (@convert_hull_dec binary64 binary64 (((fl binary64 (-1) (-1074)), (fl binary64 (1) (-1074))), trv)) (fun v1 => ret (dieq v1 (((fl binary64 (-1) (-1074)), (fl binary64 (1) (-1074))), trv)))));
  (243, (bind (@convert_hull_dec binary64 binary64 (((fl binary64 (1) (-1074)), (fl binary64 (1) (-1074))), trv)) (fun v1 => ret (dieq v1 (((fl binary64 (1) (-1074)), (fl binary64 (1) (-1074))), trv)))));
  (244, (bind (@convert_hull_dec binary32 binary64 (((fl binary32 (1) (-149)), (fl binary32 (1) (-149))), trv)) (fun v1 => ret (dieq v1 (((fl binary64 (1) (-149)), (fl binary64 (1) (-149))), trv)))));
  (246, (bind (@convert_hull_dec binary64 binary64 (((fl binary64 (-9007199254740991) (971)), (fl binary64 (-9007199254740991) (971))), trv)) (fun v1 => ret (dieq v1 (((fl binary64 (-9007199254740991) (971)), (fl binary64 (-9007199254740991) (971))), trv)))));
  (247, (bind (@convert_hull_dec binary64 binary64 (((fl binary64 (-9007199254740991) (971)), (fl binary64 (9007199254740991) (971))), trv)) (fun v1 => ret (dieq v1 (((fl binary64 (-9007199254740991) (971)), (fl binary64 (9007199254740991) (971))), trv)))));
  (248, (bind (@convert_hull_dec binary64 binary64 (((fl binary64 (9007199254740991) (971)), (fl binary64 (9007199254740991) (971))), trv)) (fun v1 => ret (dieq v1 (((fl binary64 (9007199254740991) (971)), (fl binary64 (9007199254740991) (971))), trv)))));
  (249, (bind (@convert_hull_dec binary32 binary64 (((fl binary32 (16777215) (104)), (fl binary32 (16777215) (104))), trv)) (fun v1 => ret (dieq v1 (((fl binary64 (16777215) (104)), (fl binary64 (16777215) (104))), trv)))));
  (251, (bind (@convert_hull_dec binary64 binary64 (((@fminf binary64), (@finf binary64)), trv)) (fun v1 => ret (dieq v1 (((@fminf binary64), (@finf binary64)), trv)))));
  (252, (bind (@convert_hull_dec binary32 binary64 (((@fminf binary32), (@finf binary32)), trv)) (fun v1 => ret (dieq v1 (((@fminf binary64), (@finf binary64)), trv)))));
  (254, (bind (@convert_hull_dec binary64 binary64 (((@fnan binary64), (@fnan binary64)), trv)) (fun v1 => @is_empty_dec binary64 v1)));
  (255, (bind (@convert_hull_dec binary32 binary64 (((@fnan binary32), (@fnan binary32)), trv)) (fun v1 => @is_empty_dec binary64 v1)));
  (257, (bind (@convert_hull_dec binary64 binary32 (((fl binary64 (-3602879824865869) (-47)), (fl binary64 (7205759403792793) (-56))), trv)) (fun v1 => ret (dieq v1 (((fl binary32 (-6710887) (-18)), (fl binary32 (13421773) (-27))), trv)))));
  (258, (bind (@convert_hull_dec binary64 binary32 (((fl binary64 (-6710887) (-18)), (fl binary64 (7205759403792793) (-56))), com)) (fun v1 => ret (dieq v1 (((fl binary32 (-6710887) (-18)), (fl binary32 (13421773) (-27))), com)))));
  (259, (bind (@convert_hull_dec binary64 binary32 (((fl binary64 (-3602879824865869) (-47)), (fl binary64 (13421773) (-27))), dac)) (fun v1 => ret (dieq v1 (((fl binary32 (-6710887) (-18)), (fl binary32 (13421773) (-27))), dac)))));
  (260, (bind (@convert_hull_dec binary64 binary32 (((fl binary64 (-6710887) (-18)), (fl binary64 (13421773) (-27))), def)) (fun v1 => ret (dieq v1 (((fl binary32 (-6710887) (-18)), (fl binary32 (13421773) (-27))), def)))));
  (261, (bind (@convert_hull_dec binary32 binary32 (((fl binary32 (-6710887) (-18)), (fl binary32 (13421773) (-27))), trv)) (fun v1 => ret (dieq v1 (((fl binary32 (-6710887) (-18)), (fl binary32 (13421773) (-27))), trv)))));
  (263, (bind (@convert_hull_dec binary64 binary32 (((fl binary64 (-1) (-1074)), (fl binary64 (-1) (-1074))), trv)) (fun v1 => ret (dieq v1 (((fl binary32 (-1) (-149)), (@f0 binary32)), trv)))));
  (264, (mnot (bind (bind (bind (@convert_hull_dec binary64 binary32 (((fl binary64 (-1) (-1074)), (fl binary64 (-1) (-1074))), trv)) (fun v1 => ret (fst v1))) (fun v2 => ret (snd v2))) (fun v3 => ret (fsign v3)))));
  (265, (bind (@convert_hull_dec binary64 binary32 (((fl binary64 (-1) (-1074)), (fl binary64 (1) (-1074))), trv)) (fun v1 => ret (dieq v1 (((fl binary32 (-1) (-149)), (fl binary32 (1) (-149))), trv)))));
  (266, (bind (@convert_hull_dec binary64 binary32 (((fl binary64 (1) (-1074)), (fl binary64 (1) (-1074))), trv)) (fun v1 => ret (dieq v1 (((@fm0 binary32), (fl binary32 (1) (-149))), trv)))));
  (267, (bind (bind (bind (@convert_hull_dec binary64 binary32 (((fl binary64 (1) (-1074)), (fl binary64 (1) (-1074))), trv)) (fun v1 => ret (fst v1))) (fun v2 => ret (fst v2))) (fun v3 => ret (fsign v3))));
  (268, (bind (@convert_hull_dec binary32 binary32 (((fl binary32 (1) (-149)), (fl binary32 (1) (-149))), trv)) (fun v1 => ret (dieq v1 (((fl binary32 (1) (-149)), (fl binary32 (1) (-149))), trv)))));
  (270, (bind (@convert_hull_dec binary64 binary32 (((fl binary64 (-9007199254740991) (971)), (fl binary64 (-9007199254740991) (971))), def)) (fun v1 => ret (dieq v1 (((@fminf binary32), (fl binary32 (-16777215) (104))), def)))));
  (271, (bind (@convert_hull_dec binary64 binary32 (((fl binary64 (-9007199254740991) (971)), (fl binary64 (9007199254740991) (971))), trv)) (fun v1 => ret (dieq v1 (((@fminf binary32), (@finf binary32)), trv)))));
  (272, (bind (@convert_hull_dec binary64 binary32 (((fl binary64 (9007199254740991) (971)), (fl binary64 (9007199254740991) (971))), dac)) (fun v1 => ret (dieq v1 (((fl binary32 (16777215) (104)), (@finf binary32)), dac)))));
  (273, (bind (@convert_hull_dec binary32 binary32 (((fl binary32 (16777215) (104)), (fl binary32 (16777215) (104))), trv)) (fun v1 => ret (dieq v1 (((fl binary32 (16777215) (104)), (fl binary32 (16777215) (104))), trv)))));
  (275, (bind (@convert_hull_dec binary64 binary32 (((fl binary64 (-9007199254740991) (971)), (fl binary64 (-9007199254740991) (971))), com)) (fun v1 => ret (dieq v1 (((@fminf binary32), (fl binary32 (-16777215) (104))), dac)))));
  (276, (bind (@convert_hull_dec binary64 binary32 (((fl binary64 (-9007199254740991) (971)), (fl binary64 (9007199254740991) (971))), com)) (fun v1 => ret (dieq v1 (((@fminf binary32), (@finf binary32)), dac)))));
  (277, (bind (@convert_hull_dec binary64 binary32 (((fl binary64 (9007199254740991) (971)), (fl binary64 (9007199254740991) (971))), com)) (fun v1 => ret (dieq v1 (((fl binary32 (16777215) (104)), (@finf binary32)), dac)))));
  (278, (bind (@convert_hull_dec binary32 binary32 (((fl binary32 (16777215) (104)), (fl binary32 (16777215) (104))), com)) (fun v1 => ret (dieq v1 (((fl binary32 (16777215) (104)), (fl binary32 (16777215) (104))), com)))));
  (280, (bind (@convert_hull_dec binary64 binary32 (((@fminf binary64), (@finf binary64)), trv)) (fun v1 => ret (dieq v1 (((@fminf binary32), (@finf binary32)), trv)))));
  (281, (bind (@convert_hull_dec binary32 binary32 (((@fminf binary32), (@finf binary32)), trv)) (fun v1 => ret (dieq v1 (((@fminf binary32), (@finf binary32)), trv)))));
  (283, (bind (@convert_hull_dec binary64 binary32 (((@fnan binary64), (@fnan binary64)), trv)) (fun v1 => @is_empty_dec binary32 v1)));
  (284, (bind (@convert_hull_dec binary32 binary32 (((@fnan binary32), (@fnan binary32)), trv)) (fun v1 => @is_empty_dec binary32 v1)));
  (286, (bind (@convert_hull_dec binary64 binary64 (((fl binary64 (-6710887) (-18)), (fl binary64 (7205759403792793) (-56))), com)) (fun v1 => ret (dieq v1 (((fl binary64 (-6710887) (-18)), (fl binary64 (7205759403792793) (-56))), com)))))].

Example util_func_agree : test_file [
  minimal_convert_rndd_test; minimal_convert_rndn_test; minimal_convert_rndu_test; minimal_convert_hull_test; minimal_convert_hull_dec_test] = [].
Proof. vm_compute. reflexivity. Qed.
