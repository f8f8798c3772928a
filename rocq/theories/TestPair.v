(** * The checks of the unit tests in /repo/test/p1788/flavor/infsup/setbased/
    test_mpfr_bin_ieee754_flavor_mul_rev_to_pair_func.cpp, run on the model

    One definition per test case of that file, the number before a check is its
    line there.  These are tests of the model, not proofs about it. *)

From Coq Require Import ZArith NArith Bool List.
From Flocq Require Import IEEE754.BinarySingleNaN.
From Verif Require Import Fmt Spec Exc Deco MBase MBool MArith MElem MDec MNum MCancel MOverlap MClass MRev MRev1 MMixed Ex TestRun.
Import ListNotations.
Local Open Scope N_scope.

(** lines 55-430 *)
Definition minimal_mul_rev_to_pair_test : list (N * M bool) := [
  (57, (bind (bind (@mul_rev_to_pair binary64 (@empty binary64) ((fl binary64 (1) (0)), (fl binary64 (1) (1)))) (fun v1 => ret (fst v1))) (fun v2 => @is_empty binary64 v2)));
  (58, (bind (bind (@mul_rev_to_pair binary64 (@empty binary64) ((fl binary64 (1) (0)), (fl binary64 (1) (1)))) (fun v1 => ret (snd v1))) (fun v2 => @is_empty binary64 v2)));
  (59, (bind (bind (@mul_rev_to_pair binary64 ((fl binary64 (1) (0)), (fl binary64 (1) (1))) (@empty binary64)) (fun v1 => ret (fst v1))) (fun v2 => @is_empty binary64 v2)));
  (60, (bind (bind (@mul_rev_to_pair binary64 ((fl binary64 (1) (0)), (fl binary64 (1) (1))) (@empty binary64)) (fun v1 => ret (snd v1))) (fun v2 => @is_empty binary64 v2)));
  (61, (bind (bind (@mul_rev_to_pair binary64 (@empty binary64) (@empty binary64)) (fun v1 => ret (fst v1))) (fun v2 => @is_empty binary64 v2)));
  (62, (bind (bind (@mul_rev_to_pair binary64 (@empty binary64) (@empty binary64)) (fun v1 => ret (snd v1))) (fun v2 => @is_empty binary64 v2)));
  (65, (bind (bind (@mul_rev_to_pair binary64 ((fl binary64 (-1) (1)), (fl binary64 (-3602879701896397) (-55))) ((fl binary64 (-4728779608739021) (-51)), (fl binary64 (-3602879701896397) (-53)))) (fun v1 => ret (fst v1))) (fun v2 => ret (ieq v2 ((fl binary64 (3602879701896397) (-54)), (fl binary64 (21) (0)))))));
  (66, (bind (bind (@mul_rev_to_pair binary64 ((fl binary64 (-1) (1)), (fl binary64 (-3602879701896397) (-55))) ((fl binary64 (-4728779608739021) (-51)), (fl binary64 (-3602879701896397) (-53)))) (fun v1 => ret (snd v1))) (fun v2 => @is_empty binary64 v2)));
  (67, (bind (bind (@mul_rev_to_pair binary64 ((fl binary64 (-1) (1)), (@f0 binary64)) ((fl binary64 (-4728779608739021) (-51)), (fl binary64 (-3602879701896397) (-53)))) (fun v1 => ret (fst v1))) (fun v2 => ret (ieq v2 ((fl binary64 (3602879701896397) (-54)), (@finf binary64))))));
  (68, (bind (bind (@mul_rev_to_pair binary64 ((fl binary64 (-1) (1)), (@f0 binary64)) ((fl binary64 (-4728779608739021) (-51)), (fl binary64 (-3602879701896397) (-53)))) (fun v1 => ret (snd v1))) (fun v2 => @is_empty binary64 v2)));
  (69, (bind (bind (@mul_rev_to_pair binary64 ((fl binary64 (-1) (1)), (fl binary64 (2476979795053773) (-51))) ((fl binary64 (-4728779608739021) (-51)), (fl binary64 (-3602879701896397) (-53)))) (fun v1 => ret (fst v1))) (fun v2 => ret (ieq v2 ((@fminf binary64), (fl binary64 (-6550690367084357) (-54)))))));
  (70, (bind (bind (@mul_rev_to_pair binary64 ((fl binary64 (-1) (1)), (fl binary64 (2476979795053773) (-51))) ((fl binary64 (-4728779608739021) (-51)), (fl binary64 (-3602879701896397) (-53)))) (fun v1 => ret (snd v1))) (fun v2 => ret (ieq v2 ((fl binary64 (3602879701896397) (-54)), (@finf binary64))))));
  (71, (bind (bind (@mul_rev_to_pair binary64 ((@f0 binary64), (fl binary64 (2476979795053773) (-51))) ((fl binary64 (-4728779608739021) (-51)), (fl binary64 (-3602879701896397) (-53)))) (fun v1 => ret (fst v1))) (fun v2 => ret (ieq v2 ((@fminf binary64), (fl binary64 (-6550690367084357) (-54)))))));
  (72, (bind (bind (@mul_rev_to_pair binary64 ((@f0 binary64), (fl binary64 (2476979795053773) (-51))) ((fl binary64 (-4728779608739021) (-51)), (fl binary64 (-3602879701896397) (-53)))) (fun v1 => ret (snd v1))) (fun v2 => @is_empty binary64 v2)));
  (73, (bind (bind (@mul_rev_to_pair binary64 ((fl binary64 (5764607523034235) (-59)), (fl binary64 (2476979795053773) (-51))) ((fl binary64 (-4728779608739021) (-51)), (fl binary64 (-3602879701896397) (-53)))) (fun v1 => ret (fst v1))) (fun v2 => ret (ieq v2 ((fl binary64 (-7388718138654721) (-45)), (fl binary64 (-6550690367084357) (-54)))))));
  (74, (bind (bind (@mul_rev_to_pair binary64 ((fl binary64 (5764607523034235) (-59)), (fl binary64 (2476979795053773) (-51))) ((fl binary64 (-4728779608739021) (-51)), (fl binary64 (-3602879701896397) (-53)))) (fun v1 => ret (snd v1))) (fun v2 => @is_empty binary64 v2)));
  (75, (bind (bind (@mul_rev_to_pair binary64 ((@f0 binary64), (@f0 binary64)) ((fl binary64 (-4728779608739021) (-51)), (fl binary64 (-3602879701896397) (-53)))) (fun v1 => ret (fst v1))) (fun v2 => @is_empty binary64 v2)));
  (76, (bind (bind (@mul_rev_to_pair binary64 ((@f0 binary64), (@f0 binary64)) ((fl binary64 (-4728779608739021) (-51)), (fl binary64 (-3602879701896397) (-53)))) (fun v1 => ret (snd v1))) (fun v2 => @is_empty binary64 v2)));
  (77, (bind (bind (@mul_rev_to_pair binary64 ((@fminf binary64), (fl binary64 (-3602879701896397) (-55))) ((fl binary64 (-4728779608739021) (-51)), (fl binary64 (-3602879701896397) (-53)))) (fun v1 => ret (fst v1))) (fun v2 => ret (ieq v2 ((@f0 binary64), (fl binary64 (21) (0)))))));
  (78, (bind (bind (@mul_rev_to_pair binary64 ((@fminf binary64), (fl binary64 (-3602879701896397) (-55))) ((fl binary64 (-4728779608739021) (-51)), (fl binary64 (-3602879701896397) (-53)))) (fun v1 => ret (snd v1))) (fun v2 => @is_empty binary64 v2)));
  (79, (bind (bind (@mul_rev_to_pair binary64 ((@fminf binary64), (@f0 binary64)) ((fl binary64 (-4728779608739021) (-51)), (fl binary64 (-3602879701896397) (-53)))) (fun v1 => ret (fst v1))) (fun v2 => ret (ieq v2 ((@f0 binary64), (@finf binary64))))));
  (80, (bind (bind (@mul_rev_to_pair binary64 ((@fminf binary64), (@f0 binary64)) ((fl binary64 (-4728779608739021) (-51)), (fl binary64 (-3602879701896397) (-53)))) (fun v1 => ret (snd v1))) (fun v2 => @is_empty binary64 v2)));
  (81, (bind (bind (@mul_rev_to_pair binary64 ((@fminf binary64), (fl binary64 (2476979795053773) (-51))) ((fl binary64 (-4728779608739021) (-51)), (fl binary64 (-3602879701896397) (-53)))) (fun v1 => ret (fst v1))) (fun v2 => ret (ieq v2 ((@fminf binary64), (fl binary64 (-6550690367084357) (-54)))))));
  (82, (bind (bind (@mul_rev_to_pair binary64 ((@fminf binary64), (fl binary64 (2476979795053773) (-51))) ((fl binary64 (-4728779608739021) (-51)), (fl binary64 (-3602879701896397) (-53)))) (fun v1 => ret (snd v1))) (fun v2 => ret (ieq v2 ((@f0 binary64), (@finf binary64))))));
  (83, (bind (bind (@mul_rev_to_pair binary64 ((fl binary64 (-1) (1)), (@finf binary64)) ((fl binary64 (-4728779608739021) (-51)), (fl binary64 (-3602879701896397) (-53)))) (fun v1 => ret (fst v1))) (fun v2 => ret (ieq v2 ((@fminf binary64), (@f0 binary64))))));
  (84, (bind (bind (@mul_rev_to_pair binary64 ((fl binary64 (-1) (1)), (@finf binary64)) ((fl binary64 (-4728779608739021) (-51)), (fl binary64 (-3602879701896397) (-53)))) (fun v1 => ret (snd v1))) (fun v2 => ret (ieq v2 ((fl binary64 (3602879701896397) (-54)), (@finf binary64))))));
  (85, (bind (bind (@mul_rev_to_pair binary64 ((@f0 binary64), (@finf binary64)) ((fl binary64 (-4728779608739021) (-51)), (fl binary64 (-3602879701896397) (-53)))) (fun v1 => ret (fst v1))) (fun v2 => ret (ieq v2 ((@fminf binary64), (@f0 binary64))))));
  (86, (bind (bind (@mul_rev_to_pair binary64 ((@f0 binary64), (@finf binary64)) ((fl binary64 (-4728779608739021) (-51)), (fl binary64 (-3602879701896397) (-53)))) (fun v1 => ret (snd v1))) (fun v2 => @is_empty binary64 v2)));
  (87, (bind (bind (@mul_rev_to_pair binary64 ((fl binary64 (5764607523034235) (-59)), (@finf binary64)) ((fl binary64 (-4728779608739021) (-51)), (fl binary64 (-3602879701896397) (-53)))) (fun v1 => ret (fst v1))) (fun v2 => ret (ieq v2 ((fl binary64 (-7388718138654721) (-45)), (@f0 binary64))))));
  (88, (bind (bind (@mul_rev_to_pair binary64 ((fl binary64 (5764607523034235) (-59)), (@finf binary64)) ((fl binary64 (-4728779608739021) (-51)), (fl binary64 (-3602879701896397) (-53)))) (fun v1 => ret (snd v1))) (fun v2 => @is_empty binary64 v2)));
  (89, (bind (bind (@mul_rev_to_pair binary64 ((@fminf binary64), (@finf binary64)) ((fl binary64 (-4728779608739021) (-51)), (fl binary64 (-3602879701896397) (-53)))) (fun v1 => ret (fst v1))) (fun v2 => ret (ieq v2 ((@fminf binary64), (@f0 binary64))))));
  (90, (bind (bind (@mul_rev_to_pair binary64 ((@fminf binary64), (@finf binary64)) ((fl binary64 (-4728779608739021) (-51)), (fl binary64 (-3602879701896397) (-53)))) (fun v1 => ret (snd v1))) (fun v2 => ret (ieq v2 ((@f0 binary64), (@finf binary64))))));
  (92, (bind (bind (@mul_rev_to_pair binary64 ((fl binary64 (-1) (1)), (fl binary64 (-3602879701896397) (-55))) ((fl binary64 (-4728779608739021) (-51)), (@f0 binary64))) (fun v1 => ret (fst v1))) (fun v2 => ret (ieq v2 ((@f0 binary64), (fl binary64 (21) (0)))))));
  (93, (bind (bind (@mul_rev_to_pair binary64 ((fl binary64 (-1) (1)), (fl binary64 (-3602879701896397) (-55))) ((fl binary64 (-4728779608739021) (-51)), (@f0 binary64))) (fun v1 => ret (snd v1))) (fun v2 => @is_empty binary64 v2)));
  (94, (bind (bind (@mul_rev_to_pair binary64 ((fl binary64 (-1) (1)), (@f0 binary64)) ((fl binary64 (-4728779608739021) (-51)), (@f0 binary64))) (fun v1 => ret (fst v1))) (fun v2 => ret (ieq v2 ((@fminf binary64), (@finf binary64))))));
  (95, (bind (bind (@mul_rev_to_pair binary64 ((fl binary64 (-1) (1)), (@f0 binary64)) ((fl binary64 (-4728779608739021) (-51)), (@f0 binary64))) (fun v1 => ret (snd v1))) (fun v2 => @is_empty binary64 v2)));
  (96, (bind (bind (@mul_rev_to_pair binary64 ((fl binary64 (-1) (1)), (fl binary64 (2476979795053773) (-51))) ((fl binary64 (-4728779608739021) (-51)), (@f0 binary64))) (fun v1 => ret (fst v1))) (fun v2 => ret (ieq v2 ((@fminf binary64), (@finf binary64))))));
  (97, (bind (bind (@mul_rev_to_pair binary64 ((fl binary64 (-1) (1)), (fl binary64 (2476979795053773) (-51))) ((fl binary64 (-4728779608739021) (-51)), (@f0 binary64))) (fun v1 => ret (snd v1))) (fun v2 => @is_empty binary64 v2)));
  (98, (bind (bind (@mul_rev_to_pair binary64 ((@f0 binary64), (fl binary64 (2476979795053773) (-51))) ((fl binary64 (-4728779608739021) (-51)), (@f0 binary64))) (fun v1 => ret (fst v1))) (fun v2 => ret (ieq v2 ((@fminf binary64), (@finf binary64))))));
  (99, (bind (bind (@mul_rev_to_pair binary64 ((@f0 binary64), (fl binary64 (2476979795053773) (-51))) ((fl binary64 (-4728779608739021) (-51)), (@f0 binary64))) (fun v1 => ret (snd v1))) (fun v2 => @is_empty binary64 v2)));
  (100, (bind (bind (@mul_rev_to_pair binary64 ((fl binary64 (5764607523034235) (-59)), (fl binary64 (2476979795053773) (-51))) ((fl binary64 (-4728779608739021) (-51)), (@f0 binary64))) (fun v1 => ret (fst v1))) (fun v2 => ret (ieq v2 ((fl binary64 (-7388718138654721) (-45)), (@f0 binary64))))));
  (101, (bind (bind (@mul_rev_to_pair binary64 ((fl binary64 (5764607523034235) (-59)), (fl binary64 (2476979795053773) (-51))) ((fl binary64 (-4728779608739021) (-51)), (@f0 binary64))) (fun v1 => ret (snd v1))) (fun v2 => @is_empty binary64 v2)));
  (102, (bind (bind (@mul_rev_to_pair binary64 ((@f0 binary64), (@f0 binary64)) ((fl binary64 (-4728779608739021) (-51)), (@f0 binary64))) (fun v1 => ret (fst v1))) (fun v2 => ret (ieq v2 ((@fminf binary64), (@finf binary64))))));
  (103, (bind (bind (@mul_rev_to_pair binary64 ((@f0 binary64), (@f0 binary64)) ((fl binary64 (-4728779608739021) (-51)), (@f0 binary64))) (fun v1 => ret (snd v1))) (fun v2 => @is_empty binary64 v2)));
  (104, (bind (bind (@mul_rev_to_pair binary64 ((@fminf binary64), (fl binary64 (-3602879701896397) (-55))) ((fl binary64 (-4728779608739021) (-51)), (@f0 binary64))) (fun v1 => ret (fst v1))) (fun v2 => ret (ieq v2 ((@f0 binary64), (fl binary64 (21) (0)))))));
  (105, (bind (bind (@mul_rev_to_pair binary64 ((@fminf binary64), (fl binary64 (-3602879701896397) (-55))) ((fl binary64 (-4728779608739021) (-51)), (@f0 binary64))) (fun v1 => ret (snd v1))) (fun v2 => @is_empty binary64 v2)));
  (106, (bind (bind (@mul_rev_to_pair binary64 ((@fminf binary64), (@f0 binary64)) ((fl binary64 (-4728779608739021) (-51)), (@f0 binary64))) (fun v1 => ret (fst v1))) (fun v2 => ret (ieq v2 ((@fminf binary64), (@finf binary64))))));
  (107, (bind (bind (@mul_rev_to_pair binary64 ((@fminf binary64), (@f0 binary64)) ((fl binary64 (-4728779608739021) (-51)), (@f0 binary64))) (fun v1 => ret (snd v1))) (fun v2 => @is_empty binary64 v2)));
  (108, (bind (bind (@mul_rev_to_pair binary64 ((@fminf binary64), (fl binary64 (2476979795053773) (-51))) ((fl binary64 (-4728779608739021) (-51)), (@f0 binary64))) (fun v1 => ret (fst v1))) (fun v2 => ret (ieq v2 ((@fminf binary64), (@finf binary64))))));
  (109, (bind (bind (@mul_rev_to_pair binary64 ((@fminf binary64), (fl binary64 (2476979795053773) (-51))) ((fl binary64 (-4728779608739021) (-51)), (@f0 binary64))) (fun v1 => ret (snd v1))) (fun v2 => @is_empty binary64 v2)));
  (110, (bind (bind (@mul_rev_to_pair binary64 ((fl binary64 (-1) (1)), (@finf binary64)) ((fl binary64 (-4728779608739021) (-51)), (@f0 binary64))) (fun v1 => ret (fst v1))) (fun v2 => ret (ieq v2 ((@fminf binary64), (@finf binary64))))));
  (111, (bind (bind (@mul_rev_to_pair binary64 ((fl binary64 (-1) (1)), (@finf binary64)) ((fl binary64 (-4728779608739021) (-51)), (@f0 binary64))) (fun v1 => ret (snd v1))) (fun v2 => @is_empty binary64 v2)));
  (112, (bind (bind (@mul_rev_to_pair binary64 ((@f0 binary64), (@finf binary64)) ((fl binary64 (-4728779608739021) (-51)), (@f0 binary64))) (fun v1 => ret (fst v1))) (fun v2 => ret (ieq v2 ((@fminf binary64), (@finf binary64))))));
  (113, (bind (bind (@mul_rev_to_pair binary64 ((@f0 binary64), (@finf binary64)) ((fl binary64 (-4728779608739021) (-51)), (@f0 binary64))) (fun v1 => ret (snd v1))) (fun v2 => @is_empty binary64 v2)));
  (114, (bind (bind (@mul_rev_to_pair binary64 ((fl binary64 (5764607523034235) (-59)), (@finf binary64)) ((fl binary64 (-4728779608739021) (-51)), (@f0 binary64))) (fun v1 => ret (fst v1))) (fun v2 => ret (ieq v2 ((fl binary64 (-7388718138654721) (-45)), (@f0 binary64))))));
  (115, (bind (bind (@mul_rev_to_pair binary64 ((fl binary64 (5764607523034235) (-59)), (@finf binary64)) ((fl binary64 (-4728779608739021) (-51)), (@f0 binary64))) (fun v1 => ret (snd v1))) (fun v2 => @is_empty binary64 v2)));
  (116, (bind (bind (@mul_rev_to_pair binary64 ((@fminf binary64), (@finf binary64)) ((fl binary64 (-4728779608739021) (-51)), (@f0 binary64))) (fun v1 => ret (fst v1))) (fun v2 => ret (ieq v2 ((@fminf binary64), (@finf binary64))))));
  (117, (bind (bind (@mul_rev_to_pair binary64 ((@fminf binary64), (@finf binary64)) ((fl binary64 (-4728779608739021) (-51)), (@f0 binary64))) (fun v1 => ret (snd v1))) (fun v2 => @is_empty binary64 v2)));
  (119, (bind (bind (@mul_rev_to_pair binary64 ((fl binary64 (-1) (1)), (fl binary64 (-3602879701896397) (-55))) ((fl binary64 (-4728779608739021) (-51)), (fl binary64 (1080863910568919) (-53)))) (fun v1 => ret (fst v1))) (fun v2 => ret (ieq v2 ((fl binary64 (-5404319552844595) (-52)), (fl binary64 (21) (0)))))));
  (120, (bind (bind (@mul_rev_to_pair binary64 ((fl binary64 (-1) (1)), (fl binary64 (-3602879701896397) (-55))) ((fl binary64 (-4728779608739021) (-51)), (fl binary64 (1080863910568919) (-53)))) (fun v1 => ret (snd v1))) (fun v2 => @is_empty binary64 v2)));
  (121, (bind (bind (@mul_rev_to_pair binary64 ((fl binary64 (-1) (1)), (@f0 binary64)) ((fl binary64 (-4728779608739021) (-51)), (fl binary64 (1080863910568919) (-53)))) (fun v1 => ret (fst v1))) (fun v2 => ret (ieq v2 ((@fminf binary64), (@finf binary64))))));
  (122, (bind (bind (@mul_rev_to_pair binary64 ((fl binary64 (-1) (1)), (@f0 binary64)) ((fl binary64 (-4728779608739021) (-51)), (fl binary64 (1080863910568919) (-53)))) (fun v1 => ret (snd v1))) (fun v2 => @is_empty binary64 v2)));
  (123, (bind (bind (@mul_rev_to_pair binary64 ((fl binary64 (-1) (1)), (fl binary64 (2476979795053773) (-51))) ((fl binary64 (-4728779608739021) (-51)), (fl binary64 (1080863910568919) (-53)))) (fun v1 => ret (fst v1))) (fun v2 => ret (ieq v2 ((@fminf binary64), (@finf binary64))))));
  (124, (bind (bind (@mul_rev_to_pair binary64 ((fl binary64 (-1) (1)), (fl binary64 (2476979795053773) (-51))) ((fl binary64 (-4728779608739021) (-51)), (fl binary64 (1080863910568919) (-53)))) (fun v1 => ret (snd v1))) (fun v2 => @is_empty binary64 v2)));
  (125, (bind (bind (@mul_rev_to_pair binary64 ((@f0 binary64), (fl binary64 (2476979795053773) (-51))) ((fl binary64 (-4728779608739021) (-51)), (fl binary64 (1080863910568919) (-53)))) (fun v1 => ret (fst v1))) (fun v2 => ret (ieq v2 ((@fminf binary64), (@finf binary64))))));
  (126, (bind (bind (@mul_rev_to_pair binary64 ((@f0 binary64), (fl binary64 (2476979795053773) (-51))) ((fl binary64 (-4728779608739021) (-51)), (fl binary64 (1080863910568919) (-53)))) (fun v1 => ret (snd v1))) (fun v2 => @is_empty binary64 v2)));
  (127, (bind (bind (@mul_rev_to_pair binary64 ((fl binary64 (5764607523034235) (-59)), (fl binary64 (2476979795053773) (-51))) ((fl binary64 (-4728779608739021) (-51)), (fl binary64 (1080863910568919) (-53)))) (fun v1 => ret (fst v1))) (fun v2 => ret (ieq v2 ((fl binary64 (-7388718138654721) (-45)), (fl binary64 (3) (2)))))));
  (128, (bind (bind (@mul_rev_to_pair binary64 ((fl binary64 (5764607523034235) (-59)), (fl binary64 (2476979795053773) (-51))) ((fl binary64 (-4728779608739021) (-51)), (fl binary64 (1080863910568919) (-53)))) (fun v1 => ret (snd v1))) (fun v2 => @is_empty binary64 v2)));
  (129, (bind (bind (@mul_rev_to_pair binary64 ((@f0 binary64), (@f0 binary64)) ((fl binary64 (-4728779608739021) (-51)), (fl binary64 (1080863910568919) (-53)))) (fun v1 => ret (fst v1))) (fun v2 => ret (ieq v2 ((@fminf binary64), (@finf binary64))))));
  (130, (bind (bind (@mul_rev_to_pair binary64 ((@f0 binary64), (@f0 binary64)) ((fl binary64 (-4728779608739021) (-51)), (fl binary64 (1080863910568919) (-53)))) (fun v1 => ret (snd v1))) (fun v2 => @is_empty binary64 v2)));
  (131, (bind (bind (@mul_rev_to_pair binary64 ((@fminf binary64), (fl binary64 (-3602879701896397) (-55))) ((fl binary64 (-4728779608739021) (-51)), (fl binary64 (1080863910568919) (-53)))) (fun v1 => ret (fst v1))) (fun v2 => ret (ieq v2 ((fl binary64 (-5404319552844595) (-52)), (fl binary64 (21) (0)))))));
  (132, (bind (bind (@mul_rev_to_pair binary64 ((@fminf binary64), (fl binary64 (-3602879701896397) (-55))) ((fl binary64 (-4728779608739021) (-51)), (fl binary64 (1080863910568919) (-53)))) (fun v1 => ret (snd v1))) (fun v2 => @is_empty binary64 v2)));
  (133, (bind (bind (@mul_rev_to_pair binary64 ((@fminf binary64), (@f0 binary64)) ((fl binary64 (-4728779608739021) (-51)), (fl binary64 (1080863910568919) (-53)))) (fun v1 => ret (fst v1))) (fun v2 => ret (ieq v2 ((@fminf binary64), (@finf binary64))))));
  (134, (bind (bind (@mul_rev_to_pair binary64 ((@fminf binary64), (@f0 binary64)) ((fl binary64 (-4728779608739021) (-51)), (fl binary64 (1080863910568919) (-53)))) (fun v1 => ret (snd v1))) (fun v2 => @is_empty binary64 v2)));
  (135, (bind (bind (@mul_rev_to_pair binary64 ((@fminf binary64), (fl binary64 (2476979795053773) (-51))) ((fl binary64 (-4728779608739021) (-51)), (fl binary64 (1080863910568919) (-53)))) (fun v1 => ret (fst v1))) (fun v2 => ret (ieq v2 ((@fminf binary64), (@finf binary64))))));
  (136, (bind (bind (@mul_rev_to_pair binary64 ((@fminf binary64), (fl binary64 (2476979795053773) (-51))) ((fl binary64 (-4728779608739021) (-51)), (fl binary64 (1080863910568919) (-53)))) (fun v1 => ret (snd v1))) (fun v2 => @is_empty binary64 v2)));
  (137, (bind (bind (@mul_rev_to_pair binary64 ((fl binary64 (-1) (1)), (@finf binary64)) ((fl binary64 (-4728779608739021) (-51)), (fl binary64 (1080863910568919) (-53)))) (fun v1 => ret (fst v1))) (fun v2 => ret (ieq v2 ((@fminf binary64), (@finf binary64))))));
  (138, (bind (bind (@mul_rev_to_pair binary64 ((fl binary64 (-1) (1)), (@finf binary64)) ((fl binary64 (-4728779608739021) (-51)), (fl binary64 (1080863910568919) (-53)))) (fun v1 => ret (snd v1))) (fun v2 => @is_empty binary64 v2)));
  (139, (bind (bind (@mul_rev_to_pair binary64 ((@f0 binary64), (@finf binary64)) ((fl binary64 (-4728779608739021) (-51)), (fl binary64 (1080863910568919) (-53)))) (fun v1 => ret (fst v1))) (fun v2 => ret (ieq v2 ((@fminf binary64), (@finf binary64))))));
  (140, (bind (bind (@mul_rev_to_pair binary64 ((@f0 binary64), (@finf binary64)) ((fl binary64 (-4728779608739021) (-51)), (fl binary64 (1080863910568919) (-53)))) (fun v1 => ret (snd v1))) (fun v2 => @is_empty binary64 v2)));
  (141, (bind (bind (@mul_rev_to_pair binary64 ((fl binary64 (5764607523034235) (-59)), (@finf binary64)) ((fl binary64 (-4728779608739021) (-51)), (fl binary64 (1080863910568919) (-53)))) (fun v1 => ret (fst v1))) (fun v2 => ret (ieq v2 ((fl binary64 (-7388718138654721) (-45)), (fl binary64 (3) (2)))))));
  (142, (bind (bind (@mul_rev_to_pair binary64 ((fl binary64 (5764607523034235) (-59)), (@finf binary64)) ((fl binary64 (-4728779608739021) (-51)), (fl binary64 (1080863910568919) (-53)))) (fun v1 => ret (snd v1))) (fun v2 => @is_empty binary64 v2)));
  (143, (bind (bind (@mul_rev_to_pair binary64 ((@fminf binary64), (@finf binary64)) ((fl binary64 (-4728779608739021) (-51)), (fl binary64 (1080863910568919) (-53)))) (fun v1 => ret (fst v1))) (fun v2 => ret (ieq v2 ((@fminf binary64), (@finf binary64))))));
  (144, (bind (bind (@mul_rev_to_pair binary64 ((@fminf binary64), (@finf binary64)) ((fl binary64 (-4728779608739021) (-51)), (fl binary64 (1080863910568919) (-53)))) (fun v1 => ret (snd v1))) (fun v2 => @is_empty binary64 v2)));
  (146, (bind (bind (@mul_rev_to_pair binary64 ((fl binary64 (-1) (1)), (fl binary64 (-3602879701896397) (-55))) ((@f0 binary64), (fl binary64 (1080863910568919) (-53)))) (fun v1 => ret (fst v1))) (fun v2 => ret (ieq v2 ((fl binary64 (-5404319552844595) (-52)), (@f0 binary64))))));
  (147, (bind (bind (@mul_rev_to_pair binary64 ((fl binary64 (-1) (1)), (fl binary64 (-3602879701896397) (-55))) ((@f0 binary64), (fl binary64 (1080863910568919) (-53)))) (fun v1 => ret (snd v1))) (fun v2 => @is_empty binary64 v2)));
  (148, (bind (bind (@mul_rev_to_pair binary64 ((fl binary64 (-1) (1)), (@f0 binary64)) ((@f0 binary64), (fl binary64 (1080863910568919) (-53)))) (fun v1 => ret (fst v1))) (fun v2 => ret (ieq v2 ((@fminf binary64), (@finf binary64))))));
  (149, (bind (bind (@mul_rev_to_pair binary64 ((fl binary64 (-1) (1)), (@f0 binary64)) ((@f0 binary64), (fl binary64 (1080863910568919) (-53)))) (fun v1 => ret (snd v1))) (fun v2 => @is_empty binary64 v2)));
  (150, (bind (bind (@mul_rev_to_pair binary64 ((fl binary64 (-1) (1)), (fl binary64 (2476979795053773) (-51))) ((@f0 binary64), (fl binary64 (1080863910568919) (-53)))) (fun v1 => ret (fst v1))) (fun v2 => ret (ieq v2 ((@fminf binary64), (@finf binary64))))));
  (151, (bind (bind (@mul_rev_to_pair binary64 ((fl binary64 (-1) (1)), (fl binary64 (2476979795053773) (-51))) ((@f0 binary64), (fl binary64 (1080863910568919) (-53)))) (fun v1 => ret (snd v1))) (fun v2 => @is_empty binary64 v2)));
  (152, (bind (bind (@mul_rev_to_pair binary64 ((@f0 binary64), (fl binary64 (2476979795053773) (-51))) ((@f0 binary64), (fl binary64 (1080863910568919) (-53)))) (fun v1 => ret (fst v1))) (fun v2 => ret (ieq v2 ((@fminf binary64), (@finf binary64))))));
  (153, (bind (bind (@mul_rev_to_pair binary64 ((@f0 binary64), (fl binary64 (2476979795053773) (-51))) ((@f0 binary64), (fl binary64 (1080863910568919) (-53)))) (fun v1 => ret (snd v1))) (fun v2 => @is_empty binary64 v2)));
  (154, (bind (bind (@mul_rev_to_pair binary64 ((fl binary64 (5764607523034235) (-59)), (fl binary64 (2476979795053773) (-51))) ((@f0 binary64), (fl binary64 (1080863910568919) (-53)))) (fun v1 => ret (fst v1))) (fun v2 => ret (ieq v2 ((@f0 binary64), (fl binary64 (3) (2)))))));
  (155, (bind (bind (@mul_rev_to_pair binary64 ((fl binary64 (5764607523034235) (-59)), (fl binary64 (2476979795053773) (-51))) ((@f0 binary64), (fl binary64 (1080863910568919) (-53)))) (fun v1 => ret (snd v1))) (fun v2 => @is_empty binary64 v2)));
  (156, (bind (bind (@mul_rev_to_pair binary64 ((@f0 binary64), (@f0 binary64)) ((@f0 binary64), (fl binary64 (1080863910568919) (-53)))) (fun v1 => ret (fst v1))) (fun v2 => ret (ieq v2 ((@fminf binary64), (@finf binary64))))));
  (157, (bind (bind (@mul_rev_to_pair binary64 ((@f0 binary64), (@f0 binary64)) ((@f0 binary64), (fl binary64 (1080863910568919) (-53)))) (fun v1 => ret (snd v1))) (fun v2 => @is_empty binary64 v2)));
  (158, (bind (bind (@mul_rev_to_pair binary64 ((@fminf binary64), (fl binary64 (-3602879701896397) (-55))) ((@f0 binary64), (fl binary64 (1080863910568919) (-53)))) (fun v1 => ret (fst v1))) (fun v2 => ret (ieq v2 ((fl binary64 (-5404319552844595) (-52)), (@f0 binary64))))));
  (159, (bind (bind (@mul_rev_to_pair binary64 ((@fminf binary64), (fl binary64 (-3602879701896397) (-55))) ((@f0 binary64), (fl binary64 (1080863910568919) (-53)))) (fun v1 => ret (snd v1))) (fun v2 => @is_empty binary64 v2)));
  (160, (bind (bind (@mul_rev_to_pair binary64 ((@fminf binary64), (@f0 binary64)) ((@f0 binary64), (fl binary64 (1080863910568919) (-53)))) (fun v1 => ret (fst v1))) (fun v2 => ret (ieq v2 ((@fminf binary64), (@finf binary64))))));
  (161, (bind (bind (@mul_rev_to_pair binary64 ((@fminf binary64), (@f0 binary64)) ((@f0 binary64), (fl binary64 (1080863910568919) (-53)))) (fun v1 => ret (snd v1))) (fun v2 => @is_empty binary64 v2)));
  (162, (bind (bind (@mul_rev_to_pair binary64 ((@fminf binary64), (fl binary64 (2476979795053773) (-51))) ((@f0 binary64), (fl binary64 (1080863910568919) (-53)))) (fun v1 => ret (fst v1))) (fun v2 => ret (ieq v2 ((@fminf binary64), (@finf binary64))))));
  (163, (bind (bind (@mul_rev_to_pair binary64 ((@fminf binary64), (fl binary64 (2476979795053773) (-51))) ((@f0 binary64), (fl binary64 (1080863910568919) (-53)))) (fun v1 => ret (snd v1))) (fun v2 => @is_empty binary64 v2)));
  (164, (bind (bind (@mul_rev_to_pair binary64 ((fl binary64 (-1) (1)), (@finf binary64)) ((@f0 binary64), (fl binary64 (1080863910568919) (-53)))) (fun v1 => ret (fst v1))) (fun v2 => ret (ieq v2 ((@fminf binary64), (@finf binary64))))));
  (165, (bind (bind (@mul_rev_to_pair binary64 ((fl binary64 (-1) (1)), (@finf binary64)) ((@f0 binary64), (fl binary64 (1080863910568919) (-53)))) (fun v1 => ret (snd v1))) (fun v2 => @is_empty binary64 v2)));
  (166, (bind (bind (@mul_rev_to_pair binary64 ((@f0 binary64), (@finf binary64)) ((@f0 binary64), (fl binary64 (1080863910568919) (-53)))) (fun v1 => ret (fst v1))) (fun v2 => ret (ieq v2 ((@fminf binary64), (@finf binary64))))));
  (167, (bind (bind (@mul_rev_to_pair binary64 ((@f0 binary64), (@finf binary64)) ((@f0 binary64), (fl binary64 (1080863910568919) (-53)))) (fun v1 => ret (snd v1))) (fun v2 => @is_empty binary64 v2)));
  (168, (bind (bind (@mul_rev_to_pair binary64 ((fl binary64 (5764607523034235) (-59)), (@finf binary64)) ((@f0 binary64), (fl binary64 (1080863910568919) (-53)))) (fun v1 => ret (fst v1))) (fun v2 => ret (ieq v2 ((@f0 binary64), (fl binary64 (3) (2)))))));
  (169, (bind (bind (@mul_rev_to_pair binary64 ((fl binary64 (5764607523034235) (-59)), (@finf binary64)) ((@f0 binary64), (fl binary64 (1080863910568919) (-53)))) (fun v1 => ret (snd v1))) (fun v2 => @is_empty binary64 v2)));
  (170, (bind (bind (@mul_rev_to_pair binary64 ((@fminf binary64), (@finf binary64)) ((@f0 binary64), (fl binary64 (1080863910568919) (-53)))) (fun v1 => ret (fst v1))) (fun v2 => ret (ieq v2 ((@fminf binary64), (@finf binary64))))));
  (171, (bind (bind (@mul_rev_to_pair binary64 ((@fminf binary64), (@finf binary64)) ((@f0 binary64), (fl binary64 (1080863910568919) (-53)))) (fun v1 => ret (snd v1))) (fun v2 => @is_empty binary64 v2)));
  (173, (bind (bind (@mul_rev_to_pair binary64 ((fl binary64 (-1) (1)), (fl binary64 (-3602879701896397) (-55))) ((fl binary64 (5764607523034235) (-59)), (fl binary64 (1080863910568919) (-53)))) (fun v1 => ret (fst v1))) (fun v2 => ret (ieq v2 ((fl binary64 (-5404319552844595) (-52)), (fl binary64 (-5764607523034235) (-60)))))));
  (174, (bind (bind (@mul_rev_to_pair binary64 ((fl binary64 (-1) (1)), (fl binary64 (-3602879701896397) (-55))) ((fl binary64 (5764607523034235) (-59)), (fl binary64 (1080863910568919) (-53)))) (fun v1 => ret (snd v1))) (fun v2 => @is_empty binary64 v2)));
  (175, (bind (bind (@mul_rev_to_pair binary64 ((fl binary64 (-1) (1)), (@f0 binary64)) ((fl binary64 (5764607523034235) (-59)), (fl binary64 (1080863910568919) (-53)))) (fun v1 => ret (fst v1))) (fun v2 => ret (ieq v2 ((@fminf binary64), (fl binary64 (-5764607523034235) (-60)))))));
  (176, (bind (bind (@mul_rev_to_pair binary64 ((fl binary64 (-1) (1)), (@f0 binary64)) ((fl binary64 (5764607523034235) (-59)), (fl binary64 (1080863910568919) (-53)))) (fun v1 => ret (snd v1))) (fun v2 => @is_empty binary64 v2)));
  (177, (bind (bind (@mul_rev_to_pair binary64 ((fl binary64 (-1) (1)), (fl binary64 (2476979795053773) (-51))) ((fl binary64 (5764607523034235) (-59)), (fl binary64 (1080863910568919) (-53)))) (fun v1 => ret (fst v1))) (fun v2 => ret (ieq v2 ((@fminf binary64), (fl binary64 (-5764607523034235) (-60)))))));
  (178, (bind (bind (@mul_rev_to_pair binary64 ((fl binary64 (-1) (1)), (fl binary64 (2476979795053773) (-51))) ((fl binary64 (5764607523034235) (-59)), (fl binary64 (1080863910568919) (-53)))) (fun v1 => ret (snd v1))) (fun v2 => ret (ieq v2 ((fl binary64 (5240552293667485) (-59)), (@finf binary64))))));
  (179, (bind (bind (@mul_rev_to_pair binary64 ((@f0 binary64), (fl binary64 (2476979795053773) (-51))) ((fl binary64 (5764607523034235) (-59)), (fl binary64 (1080863910568919) (-53)))) (fun v1 => ret (fst v1))) (fun v2 => ret (ieq v2 ((fl binary64 (5240552293667485) (-59)), (@finf binary64))))));
  (180, (bind (bind (@mul_rev_to_pair binary64 ((@f0 binary64), (fl binary64 (2476979795053773) (-51))) ((fl binary64 (5764607523034235) (-59)), (fl binary64 (1080863910568919) (-53)))) (fun v1 => ret (snd v1))) (fun v2 => @is_empty binary64 v2)));
  (181, (bind (bind (@mul_rev_to_pair binary64 ((fl binary64 (5764607523034235) (-59)), (fl binary64 (2476979795053773) (-51))) ((fl binary64 (5764607523034235) (-59)), (fl binary64 (1080863910568919) (-53)))) (fun v1 => ret (fst v1))) (fun v2 => ret (ieq v2 ((fl binary64 (5240552293667485) (-59)), (fl binary64 (3) (2)))))));
  (182, (bind (bind (@mul_rev_to_pair binary64 ((fl binary64 (5764607523034235) (-59)), (fl binary64 (2476979795053773) (-51))) ((fl binary64 (5764607523034235) (-59)), (fl binary64 (1080863910568919) (-53)))) (fun v1 => ret (snd v1))) (fun v2 => @is_empty binary64 v2)));
  (183, (bind (bind (@mul_rev_to_pair binary64 ((@f0 binary64), (@f0 binary64)) ((fl binary64 (5764607523034235) (-59)), (fl binary64 (1080863910568919) (-53)))) (fun v1 => ret (fst v1))) (fun v2 => @is_empty binary64 v2)));
  (184, (bind (bind (@mul_rev_to_pair binary64 ((@f0 binary64), (@f0 binary64)) ((fl binary64 (5764607523034235) (-59)), (fl binary64 (1080863910568919) (-53)))) (fun v1 => ret (snd v1))) (fun v2 => @is_empty binary64 v2)));
  (185, (bind (bind (@mul_rev_to_pair binary64 ((@fminf binary64), (fl binary64 (-3602879701896397) (-55))) ((fl binary64 (5764607523034235) (-59)), (fl binary64 (1080863910568919) (-53)))) (fun v1 => ret (fst v1))) (fun v2 => ret (ieq v2 ((fl binary64 (-5404319552844595) (-52)), (@f0 binary64))))));
  (186, (bind (bind (@mul_rev_to_pair binary64 ((@fminf binary64), (fl binary64 (-3602879701896397) (-55))) ((fl binary64 (5764607523034235) (-59)), (fl binary64 (1080863910568919) (-53)))) (fun v1 => ret (snd v1))) (fun v2 => @is_empty binary64 v2)));
  (187, (bind (bind (@mul_rev_to_pair binary64 ((@fminf binary64), (@f0 binary64)) ((fl binary64 (5764607523034235) (-59)), (fl binary64 (1080863910568919) (-53)))) (fun v1 => ret (fst v1))) (fun v2 => ret (ieq v2 ((@fminf binary64), (@f0 binary64))))));
  (188, (bind (bind (@mul_rev_to_pair binary64 ((@fminf binary64), (@f0 binary64)) ((fl binary64 (5764607523034235) (-59)), (fl binary64 (1080863910568919) (-53)))) (fun v1 => ret (snd v1))) (fun v2 => @is_empty binary64 v2)));
  (189, (bind (bind (@mul_rev_to_pair binary64 ((@fminf binary64), (fl binary64 (2476979795053773) (-51))) ((fl binary64 (5764607523034235) (-59)), (fl binary64 (1080863910568919) (-53)))) (fun v1 => ret (fst v1))) (fun v2 => ret (ieq v2 ((@fminf binary64), (@f0 binary64))))));
  (190, (bind (bind (@mul_rev_to_pair binary64 ((@fminf binary64), (fl binary64 (2476979795053773) (-51))) ((fl binary64 (5764607523034235) (-59)), (fl binary64 (1080863910568919) (-53)))) (fun v1 => ret (snd v1))) (fun v2 => ret (ieq v2 ((fl binary64 (5240552293667485) (-59)), (@finf binary64))))));
  (191, (bind (bind (@mul_rev_to_pair binary64 ((fl binary64 (-1) (1)), (@finf binary64)) ((fl binary64 (5764607523034235) (-59)), (fl binary64 (1080863910568919) (-53)))) (fun v1 => ret (fst v1))) (fun v2 => ret (ieq v2 ((@fminf binary64), (fl binary64 (-5764607523034235) (-60)))))));
  (192, (bind (bind (@mul_rev_to_pair binary64 ((fl binary64 (-1) (1)), (@finf binary64)) ((fl binary64 (5764607523034235) (-59)), (fl binary64 (1080863910568919) (-53)))) (fun v1 => ret (snd v1))) (fun v2 => ret (ieq v2 ((@f0 binary64), (@finf binary64))))));
  (193, (bind (bind (@mul_rev_to_pair binary64 ((@f0 binary64), (@finf binary64)) ((fl binary64 (5764607523034235) (-59)), (fl binary64 (1080863910568919) (-53)))) (fun v1 => ret (fst v1))) (fun v2 => ret (ieq v2 ((@f0 binary64), (@finf binary64))))));
  (194, (bind (bind (@mul_rev_to_pair binary64 ((@f0 binary64), (@finf binary64)) ((fl binary64 (5764607523034235) (-59)), (fl binary64 (1080863910568919) (-53)))) (fun v1 => ret (snd v1))) (fun v2 => @is_empty binary64 v2)));
  (195, (bind (bind (@mul_rev_to_pair binary64 ((fl binary64 (5764607523034235) (-59)), (@finf binary64)) ((fl binary64 (5764607523034235) (-59)), (fl binary64 (1080863910568919) (-53)))) (fun v1 => ret (fst v1))) (fun v2 => ret (ieq v2 ((@f0 binary64), (fl binary64 (3) (2)))))));
  (196, (bind (bind (@mul_rev_to_pair binary64 ((fl binary64 (5764607523034235) (-59)), (@finf binary64)) ((fl binary64 (5764607523034235) (-59)), (fl binary64 (1080863910568919) (-53)))) (fun v1 => ret (snd v1))) (fun v2 => @is_empty binary64 v2)));
  (197, (bind (bind (@mul_rev_to_pair binary64 ((@fminf binary64), (@finf binary64)) ((fl binary64 (5764607523034235) (-59)), (fl binary64 (1080863910568919) (-53)))) (fun v1 => ret (fst v1))) (fun v2 => ret (ieq v2 ((@fminf binary64), (@f0 binary64))))));
  (198, (bind (bind (@mul_rev_to_pair binary64 ((@fminf binary64), (@finf binary64)) ((fl binary64 (5764607523034235) (-59)), (fl binary64 (1080863910568919) (-53)))) (fun v1 => ret (snd v1))) (fun v2 => ret (ieq v2 ((@f0 binary64), (@finf binary64))))));
  (200, (bind (bind (@mul_rev_to_pair binary64 ((fl binary64 (-1) (1)), (fl binary64 (-3602879701896397) (-55))) ((@f0 binary64), (@f0 binary64))) (fun v1 => ret (fst v1))) (fun v2 => ret (ieq v2 ((@f0 binary64), (@f0 binary64))))));
  (201, (bind (bind (@mul_rev_to_pair binary64 ((fl binary64 (-1) (1)), (fl binary64 (-3602879701896397) (-55))) ((@f0 binary64), (@f0 binary64))) (fun v1 => ret (snd v1))) (fun v2 => @is_empty binary64 v2)));
  (202, (bind (bind (@mul_rev_to_pair binary64 ((fl binary64 (-1) (1)), (@f0 binary64)) ((@f0 binary64), (@f0 binary64))) (fun v1 => ret (fst v1))) (fun v2 => ret (ieq v2 ((@fminf binary64), (@finf binary64))))));
  (203, (bind (bind (@mul_rev_to_pair binary64 ((fl binary64 (-1) (1)), (@f0 binary64)) ((@f0 binary64), (@f0 binary64))) (fun v1 => ret (snd v1))) (fun v2 => @is_empty binary64 v2)));
  (204, (bind (bind (@mul_rev_to_pair binary64 ((fl binary64 (-1) (1)), (fl binary64 (2476979795053773) (-51))) ((@f0 binary64), (@f0 binary64))) (fun v1 => ret (fst v1))) (fun v2 => ret (ieq v2 ((@fminf binary64), (@finf binary64))))));
  (205, (bind (bind (@mul_rev_to_pair binary64 ((fl binary64 (-1) (1)), (fl binary64 (2476979795053773) (-51))) ((@f0 binary64), (@f0 binary64))) (fun v1 => ret (snd v1))) (fun v2 => @is_empty binary64 v2)));
  (206, (bind (bind (@mul_rev_to_pair binary64 ((@f0 binary64), (fl binary64 (2476979795053773) (-51))) ((@f0 binary64), (@f0 binary64))) (fun v1 => ret (fst v1))) (fun v2 => ret (ieq v2 ((@fminf binary64), (@finf binary64))))));
  (207, (bind (bind (@mul_rev_to_pair binary64 ((@f0 binary64), (fl binary64 (2476979795053773) (-51))) ((@f0 binary64), (@f0 binary64))) (fun v1 => ret (snd v1))) (fun v2 => @is_empty binary64 v2)));
  (208, (bind (bind (@mul_rev_to_pair binary64 ((fl binary64 (5764607523034235) (-59)), (fl binary64 (2476979795053773) (-51))) ((@f0 binary64), (@f0 binary64))) (fun v1 => ret (fst v1))) (fun v2 => ret (ieq v2 ((@f0 binary64), (@f0 binary64))))));
  (209, (bind (bind (@mul_rev_to_pair binary64 ((fl binary64 (5764607523034235) (-59)), (fl binary64 (2476979795053773) (-51))) ((@f0 binary64), (@f0 binary64))) (fun v1 => ret (snd v1))) (fun v2 => @is_empty binary64 v2)));
  (210, (bind (bind (@mul_rev_to_pair binary64 ((@f0 binary64), (@f0 binary64)) ((@f0 binary64), (@f0 binary64))) (fun v1 => ret (fst v1))) (fun v2 => ret (ieq v2 ((@fminf binary64), (@finf binary64))))));
  (211, (bind (bind (@mul_rev_to_pair binary64 ((@f0 binary64), (@f0 binary64)) ((@f0 binary64), (@f0 binary64))) (fun v1 => ret (snd v1))) (fun v2 => @is_empty binary64 v2)));
  (212, (bind (bind (@mul_rev_to_pair binary64 ((@fminf binary64), (fl binary64 (-3602879701896397) (-55))) ((@f0 binary64), (@f0 binary64))) (fun v1 => ret (fst v1))) (fun v2 => ret (ieq v2 ((@f0 binary64), (@f0 binary64))))));
  (213, (bind (bind (@mul_rev_to_pair binary64 ((@fminf binary64), (fl binary64 (-3602879701896397) (-55))) ((@f0 binary64), (@f0 binary64))) (fun v1 => ret (snd v1))) (fun v2 => @is_empty binary64 v2)));
  (214, (bind (bind (@mul_rev_to_pair binary64 ((@fminf binary64), (@f0 binary64)) ((@f0 binary64), (@f0 binary64))) (fun v1 => ret (fst v1))) (fun v2 => ret (ieq v2 ((@fminf binary64), (@finf binary64))))));
  (215, (bind (bind (@mul_rev_to_pair binary64 ((@fminf binary64), (@f0 binary64)) ((@f0 binary64), (@f0 binary64))) (fun v1 => ret (snd v1))) (fun v2 => @is_empty binary64 v2)));
  (216, (bind (bind (@mul_rev_to_pair binary64 ((@fminf binary64), (fl binary64 (2476979795053773) (-51))) ((@f0 binary64), (@f0 binary64))) (fun v1 => ret (fst v1))) (fun v2 => ret (ieq v2 ((@fminf binary64), (@finf binary64))))));
  (217, (bind (bind (@mul_rev_to_pair binary64 ((@fminf binary64), (fl binary64 (2476979795053773) (-51))) ((@f0 binary64), (@f0 binary64))) (fun v1 => ret (snd v1))) (fun v2 => @is_empty binary64 v2)));
  (218, (bind (bind (@mul_rev_to_pair binary64 ((fl binary64 (-1) (1)), (@finf binary64)) ((@f0 binary64), (@f0 binary64))) (fun v1 => ret (fst v1))) (fun v2 => ret (ieq v2 ((@fminf binary64), (@finf binary64))))));
  (219, (bind (bind (@mul_rev_to_pair binary64 ((fl binary64 (-1) (1)), (@finf binary64)) ((@f0 binary64), (@f0 binary64))) (fun v1 => ret (snd v1))) (fun v2 => @is_empty binary64 v2)));
  (220, (bind (bind (@mul_rev_to_pair binary64 ((@f0 binary64), (@finf binary64)) ((@f0 binary64), (@f0 binary64))) (fun v1 => ret (fst v1))) (fun v2 => ret (ieq v2 ((@fminf binary64), (@finf binary64))))));
  (221, (bind (bind (@mul_rev_to_pair binary64 ((@f0 binary64), (@finf binary64)) ((@f0 binary64), (@f0 binary64))) (fun v1 => ret (snd v1))) (fun v2 => @is_empty binary64 v2)));
  (222, (bind (bind (@mul_rev_to_pair binary64 ((fl binary64 (5764607523034235) (-59)), (@finf binary64)) ((@f0 binary64), (@f0 binary64))) (fun v1 => ret (fst v1))) (fun v2 => ret (ieq v2 ((@f0 binary64), (@f0 binary64))))));
  (223, (bind (bind (@mul_rev_to_pair binary64 ((fl binary64 (5764607523034235) (-59)), (@finf binary64)) ((@f0 binary64), (@f0 binary64))) (fun v1 => ret (snd v1))) (fun v2 => @is_empty binary64 v2)));
  (224, (bind (bind (@mul_rev_to_pair binary64 ((@fminf binary64), (@finf binary64)) ((@f0 binary64), (@f0 binary64))) (fun v1 => ret (fst v1))) (fun v2 => ret (ieq v2 ((@fminf binary64), (@finf binary64))))));
  (225, (bind (bind (@mul_rev_to_pair binary64 ((@fminf binary64), (@finf binary64)) ((@f0 binary64), (@f0 binary64))) (fun v1 => ret (snd v1))) (fun v2 => @is_empty binary64 v2)));
  (228, (bind (bind (@mul_rev_to_pair binary64 ((fl binary64 (-1) (1)), (fl binary64 (-3602879701896397) (-55))) ((@fminf binary64), (fl binary64 (-3602879701896397) (-55)))) (fun v1 => ret (fst v1))) (fun v2 => ret (ieq v2 ((fl binary64 (3602879701896397) (-56)), (@finf binary64))))));
  (229, (bind (bind (@mul_rev_to_pair binary64 ((fl binary64 (-1) (1)), (fl binary64 (-3602879701896397) (-55))) ((@fminf binary64), (fl binary64 (-3602879701896397) (-55)))) (fun v1 => ret (snd v1))) (fun v2 => @is_empty binary64 v2)));
  (230, (bind (bind (@mul_rev_to_pair binary64 ((fl binary64 (-1) (1)), (@f0 binary64)) ((@fminf binary64), (fl binary64 (-3602879701896397) (-55)))) (fun v1 => ret (fst v1))) (fun v2 => ret (ieq v2 ((fl binary64 (3602879701896397) (-56)), (@finf binary64))))));
  (231, (bind (bind (@mul_rev_to_pair binary64 ((fl binary64 (-1) (1)), (@f0 binary64)) ((@fminf binary64), (fl binary64 (-3602879701896397) (-55)))) (fun v1 => ret (snd v1))) (fun v2 => @is_empty binary64 v2)));
  (232, (bind (bind (@mul_rev_to_pair binary64 ((fl binary64 (-1) (1)), (fl binary64 (2476979795053773) (-51))) ((@fminf binary64), (fl binary64 (-3602879701896397) (-55)))) (fun v1 => ret (fst v1))) (fun v2 => ret (ieq v2 ((@fminf binary64), (fl binary64 (-6550690367084357) (-56)))))));
  (233, (bind (bind (@mul_rev_to_pair binary64 ((fl binary64 (-1) (1)), (fl binary64 (2476979795053773) (-51))) ((@fminf binary64), (fl binary64 (-3602879701896397) (-55)))) (fun v1 => ret (snd v1))) (fun v2 => ret (ieq v2 ((fl binary64 (3602879701896397) (-56)), (@finf binary64))))));
  (234, (bind (bind (@mul_rev_to_pair binary64 ((@f0 binary64), (fl binary64 (2476979795053773) (-51))) ((@fminf binary64), (fl binary64 (-3602879701896397) (-55)))) (fun v1 => ret (fst v1))) (fun v2 => ret (ieq v2 ((@fminf binary64), (fl binary64 (-6550690367084357) (-56)))))));
  (235, (bind (bind (@mul_rev_to_pair binary64 ((@f0 binary64), (fl binary64 (2476979795053773) (-51))) ((@fminf binary64), (fl binary64 (-3602879701896397) (-55)))) (fun v1 => ret (snd v1))) (fun v2 => @is_empty binary64 v2)));
  (236, (bind (bind (@mul_rev_to_pair binary64 ((fl binary64 (5764607523034235) (-59)), (fl binary64 (2476979795053773) (-51))) ((@fminf binary64), (fl binary64 (-3602879701896397) (-55)))) (fun v1 => ret (fst v1))) (fun v2 => ret (ieq v2 ((@fminf binary64), (fl binary64 (-6550690367084357) (-56)))))));
  (237, (bind (bind (@mul_rev_to_pair binary64 ((fl binary64 (5764607523034235) (-59)), (fl binary64 (2476979795053773) (-51))) ((@fminf binary64), (fl binary64 (-3602879701896397) (-55)))) (fun v1 => ret (snd v1))) (fun v2 => @is_empty binary64 v2)));
  (238, (bind (bind (@mul_rev_to_pair binary64 ((@f0 binary64), (@f0 binary64)) ((@fminf binary64), (fl binary64 (-3602879701896397) (-55)))) (fun v1 => ret (fst v1))) (fun v2 => @is_empty binary64 v2)));
  (239, (bind (bind (@mul_rev_to_pair binary64 ((@f0 binary64), (@f0 binary64)) ((@fminf binary64), (fl binary64 (-3602879701896397) (-55)))) (fun v1 => ret (snd v1))) (fun v2 => @is_empty binary64 v2)));
  (240, (bind (bind (@mul_rev_to_pair binary64 ((@fminf binary64), (fl binary64 (-3602879701896397) (-55))) ((@fminf binary64), (fl binary64 (-3602879701896397) (-55)))) (fun v1 => ret (fst v1))) (fun v2 => ret (ieq v2 ((@f0 binary64), (@finf binary64))))));
  (241, (bind (bind (@mul_rev_to_pair binary64 ((@fminf binary64), (fl binary64 (-3602879701896397) (-55))) ((@fminf binary64), (fl binary64 (-3602879701896397) (-55)))) (fun v1 => ret (snd v1))) (fun v2 => @is_empty binary64 v2)));
  (242, (bind (bind (@mul_rev_to_pair binary64 ((@fminf binary64), (@f0 binary64)) ((@fminf binary64), (fl binary64 (-3602879701896397) (-55)))) (fun v1 => ret (fst v1))) (fun v2 => ret (ieq v2 ((@f0 binary64), (@finf binary64))))));
  (243, (bind (bind (@mul_rev_to_pair binary64 ((@fminf binary64), (@f0 binary64)) ((@fminf binary64), (fl binary64 (-3602879701896397) (-55)))) (fun v1 => ret (snd v1))) (fun v2 => @is_empty binary64 v2)));
  (244, (bind (bind (@mul_rev_to_pair binary64 ((@fminf binary64), (fl binary64 (2476979795053773) (-51))) ((@fminf binary64), (fl binary64 (-3602879701896397) (-55)))) (fun v1 => ret (fst v1))) (fun v2 => ret (ieq v2 ((@fminf binary64), (fl binary64 (-6550690367084357) (-56)))))));
  (245, (bind (bind (@mul_rev_to_pair binary64 ((@fminf binary64), (fl binary64 (2476979795053773) (-51))) ((@fminf binary64), (fl binary64 (-3602879701896397) (-55)))) (fun v1 => ret (snd v1))) (fun v2 => ret (ieq v2 ((@f0 binary64), (@finf binary64))))));
  (246, (bind (bind (@mul_rev_to_pair binary64 ((fl binary64 (-1) (1)), (@finf binary64)) ((@fminf binary64), (fl binary64 (-3602879701896397) (-55)))) (fun v1 => ret (fst v1))) (fun v2 => ret (ieq v2 ((@fminf binary64), (@f0 binary64))))));
  (247, (bind (bind (@mul_rev_to_pair binary64 ((fl binary64 (-1) (1)), (@finf binary64)) ((@fminf binary64), (fl binary64 (-3602879701896397) (-55)))) (fun v1 => ret (snd v1))) (fun v2 => ret (ieq v2 ((fl binary64 (3602879701896397) (-56)), (@finf binary64))))));
  (248, (bind (bind (@mul_rev_to_pair binary64 ((@f0 binary64), (@finf binary64)) ((@fminf binary64), (fl binary64 (-3602879701896397) (-55)))) (fun v1 => ret (fst v1))) (fun v2 => ret (ieq v2 ((@fminf binary64), (@f0 binary64))))));
  (249, (bind (bind (@mul_rev_to_pair binary64 ((@f0 binary64), (@finf binary64)) ((@fminf binary64), (fl binary64 (-3602879701896397) (-55)))) (fun v1 => ret (snd v1))) (fun v2 => @is_empty binary64 v2)));
  (250, (bind (bind (@mul_rev_to_pair binary64 ((fl binary64 (5764607523034235) (-59)), (@finf binary64)) ((@fminf binary64), (fl binary64 (-3602879701896397) (-55)))) (fun v1 => ret (fst v1))) (fun v2 => ret (ieq v2 ((@fminf binary64), (@f0 binary64))))));
  (251, (bind (bind (@mul_rev_to_pair binary64 ((fl binary64 (5764607523034235) (-59)), (@finf binary64)) ((@fminf binary64), (fl binary64 (-3602879701896397) (-55)))) (fun v1 => ret (snd v1))) (fun v2 => @is_empty binary64 v2)));
  (252, (bind (bind (@mul_rev_to_pair binary64 ((@fminf binary64), (@finf binary64)) ((@fminf binary64), (fl binary64 (-3602879701896397) (-55)))) (fun v1 => ret (fst v1))) (fun v2 => ret (ieq v2 ((@fminf binary64), (@f0 binary64))))));
  (253, (bind (bind (@mul_rev_to_pair binary64 ((@fminf binary64), (@finf binary64)) ((@fminf binary64), (fl binary64 (-3602879701896397) (-55)))) (fun v1 => ret (snd v1))) (fun v2 => ret (ieq v2 ((@f0 binary64), (@finf binary64))))));
  (255, (bind (bind (@mul_rev_to_pair binary64 ((fl binary64 (-1) (1)), (fl binary64 (-3602879701896397) (-55))) ((@fminf binary64), (@f0 binary64))) (fun v1 => ret (fst v1))) (fun v2 => ret (ieq v2 ((@f0 binary64), (@finf binary64))))));
  (256, (bind (bind (@mul_rev_to_pair binary64 ((fl binary64 (-1) (1)), (fl binary64 (-3602879701896397) (-55))) ((@fminf binary64), (@f0 binary64))) (fun v1 => ret (snd v1))) (fun v2 => @is_empty binary64 v2)));
  (257, (bind (bind (@mul_rev_to_pair binary64 ((fl binary64 (-1) (1)), (@f0 binary64)) ((@fminf binary64), (@f0 binary64))) (fun v1 => ret (fst v1))) (fun v2 => ret (ieq v2 ((@fminf binary64), (@finf binary64))))));
  (258, (bind (bind (@mul_rev_to_pair binary64 ((fl binary64 (-1) (1)), (@f0 binary64)) ((@fminf binary64), (@f0 binary64))) (fun v1 => ret (snd v1))) (fun v2 => @is_empty binary64 v2)));
  (259, (bind (bind (@mul_rev_to_pair binary64 ((fl binary64 (-1) (1)), (fl binary64 (2476979795053773) (-51))) ((@fminf binary64), (@f0 binary64))) (fun v1 => ret (fst v1))) (fun v2 => ret (ieq v2 ((@fminf binary64), (@finf binary64))))));
  (260, (bind (bind (@mul_rev_to_pair binary64 ((fl binary64 (-1) (1)), (fl binary64 (2476979795053773) (-51))) ((@fminf binary64), (@f0 binary64))) (fun v1 => ret (snd v1))) (fun v2 => @is_empty binary64 v2)));
  (261, (bind (bind (@mul_rev_to_pair binary64 ((@f0 binary64), (fl binary64 (2476979795053773) (-51))) ((@fminf binary64), (@f0 binary64))) (fun v1 => ret (fst v1))) (fun v2 => ret (ieq v2 ((@fminf binary64), (@finf binary64))))));
  (262, (bind (bind (@mul_rev_to_pair binary64 ((@f0 binary64), (fl binary64 (2476979795053773) (-51))) ((@fminf binary64), (@f0 binary64))) (fun v1 => ret (snd v1))) (fun v2 => @is_empty binary64 v2)));
  (263, (bind (bind (@mul_rev_to_pair binary64 ((fl binary64 (5764607523034235) (-59)), (fl binary64 (2476979795053773) (-51))) ((@fminf binary64), (@f0 binary64))) (fun v1 => ret (fst v1))) (fun v2 => ret (ieq v2 ((@fminf binary64), (@f0 binary64))))));
  (264, (bind (bind (@mul_rev_to_pair binary64 ((fl binary64 (5764607523034235) (-59)), (fl binary64 (2476979795053773) (-51))) ((@fminf binary64), (@f0 binary64))) (fun v1 => ret (snd v1))) (fun v2 => @is_empty binary64 v2)));
  (265, (bind (bind (@mul_rev_to_pair binary64 ((@f0 binary64), (@f0 binary64)) ((@fminf binary64), (@f0 binary64))) (fun v1 => ret (fst v1))) (fun v2 => ret (ieq v2 ((@fminf binary64), (@finf binary64))))));
  (266, (bind (bind (@mul_rev_to_pair binary64 ((@f0 binary64), (@f0 binary64)) ((@fminf binary64), (@f0 binary64))) (fun v1 => ret (snd v1))) (fun v2 => @is_empty binary64 v2)));
  (267, (bind (bind (@mul_rev_to_pair binary64 ((@fminf binary64), (fl binary64 (-3602879701896397) (-55))) ((@fminf binary64), (@f0 binary64))) (fun v1 => ret (fst v1))) (fun v2 => ret (ieq v2 ((@f0 binary64), (@finf binary64))))));
  (268, (bind (bind (@mul_rev_to_pair binary64 ((@fminf binary64), (fl binary64 (-3602879701896397) (-55))) ((@fminf binary64), (@f0 binary64))) (fun v1 => ret (snd v1))) (fun v2 => @is_empty binary64 v2)));
  (269, (bind (bind (@mul_rev_to_pair binary64 ((@fminf binary64), (@f0 binary64)) ((@fminf binary64), (@f0 binary64))) (fun v1 => ret (fst v1))) (fun v2 => ret (ieq v2 ((@fminf binary64), (@finf binary64))))));
  (270, (bind (bind (@mul_rev_to_pair binary64 ((@fminf binary64), (@f0 binary64)) ((@fminf binary64), (@f0 binary64))) (fun v1 => ret (snd v1))) (fun v2 => @is_empty binary64 v2)));
  (271, (bind (bind (@mul_rev_to_pair binary64 ((@fminf binary64), (fl binary64 (2476979795053773) (-51))) ((@fminf binary64), (@f0 binary64))) (fun v1 => ret (fst v1))) (fun v2 => ret (ieq v2 ((@fminf binary64), (@finf binary64))))));
  (272, (bind (bind (@mul_rev_to_pair binary64 ((@fminf binary64), (fl binary64 (2476979795053773) (-51))) ((@fminf binary64), (@f0 binary64))) (fun v1 => ret (snd v1))) (fun v2 => @is_empty binary64 v2)));
  (273, (bind (bind (@mul_rev_to_pair binary64 ((fl binary64 (-1) (1)), (@finf binary64)) ((@fminf binary64), (@f0 binary64))) (fun v1 => ret (fst v1))) (fun v2 => ret (ieq v2 ((@fminf binary64), (@finf binary64))))));
  (274, (bind (bind (@mul_rev_to_pair binary64 ((fl binary64 (-1) (1)), (@finf binary64)) ((@fminf binary64), (@f0 binary64))) (fun v1 => ret (snd v1))) (fun v2 => @is_empty binary64 v2)));
  (275, (bind (bind (@mul_rev_to_pair binary64 ((@f0 binary64), (@finf binary64)) ((@fminf binary64), (@f0 binary64))) (fun v1 => ret (fst v1))) (fun v2 => ret (ieq v2 ((@fminf binary64), (@finf binary64))))));
  (276, (bind (bind (@mul_rev_to_pair binary64 ((@f0 binary64), (@finf binary64)) ((@fminf binary64), (@f0 binary64))) (fun v1 => ret (snd v1))) (fun v2 => @is_empty binary64 v2)));
  (277, (bind (bind (@mul_rev_to_pair binary64 ((fl binary64 (5764607523034235) (-59)), (@finf binary64)) ((@fminf binary64), (@f0 binary64))) (fun v1 => ret (fst v1))) (fun v2 => ret (ieq v2 ((@fminf binary64), (@f0 binary64))))));
  (278, (bind (bind (@mul_rev_to_pair binary64 ((fl binary64 (5764607523034235) (-59)), (@finf binary64)) ((@fminf binary64), (@f0 binary64))) (fun v1 => ret (snd v1))) (fun v2 => @is_empty binary64 v2)));
  (279, (bind (bind (@mul_rev_to_pair binary64 ((@fminf binary64), (@finf binary64)) ((@fminf binary64), (@f0 binary64))) (fun v1 => ret (fst v1))) (fun v2 => ret (ieq v2 ((@fminf binary64), (@finf binary64))))));
  (280, (bind (bind (@mul_rev_to_pair binary64 ((@fminf binary64), (@finf binary64)) ((@fminf binary64), (@f0 binary64))) (fun v1 => ret (snd v1))) (fun v2 => @is_empty binary64 v2)));
  (282, (bind (bind (@mul_rev_to_pair binary64 ((fl binary64 (-1) (1)), (fl binary64 (-3602879701896397) (-55))) ((@fminf binary64), (fl binary64 (5404319552844595) (-54)))) (fun v1 => ret (fst v1))) (fun v2 => ret (ieq v2 ((fl binary64 (-3) (0)), (@finf binary64))))));
  (283, (bind (bind (@mul_rev_to_pair binary64 ((fl binary64 (-1) (1)), (fl binary64 (-3602879701896397) (-55))) ((@fminf binary64), (fl binary64 (5404319552844595) (-54)))) (fun v1 => ret (snd v1))) (fun v2 => @is_empty binary64 v2)));
  (284, (bind (bind (@mul_rev_to_pair binary64 ((fl binary64 (-1) (1)), (@f0 binary64)) ((@fminf binary64), (fl binary64 (5404319552844595) (-54)))) (fun v1 => ret (fst v1))) (fun v2 => ret (ieq v2 ((@fminf binary64), (@finf binary64))))));
  (285, (bind (bind (@mul_rev_to_pair binary64 ((fl binary64 (-1) (1)), (@f0 binary64)) ((@fminf binary64), (fl binary64 (5404319552844595) (-54)))) (fun v1 => ret (snd v1))) (fun v2 => @is_empty binary64 v2)));
  (286, (bind (bind (@mul_rev_to_pair binary64 ((fl binary64 (-1) (1)), (fl binary64 (2476979795053773) (-51))) ((@fminf binary64), (fl binary64 (5404319552844595) (-54)))) (fun v1 => ret (fst v1))) (fun v2 => ret (ieq v2 ((@fminf binary64), (@finf binary64))))));
  (287, (bind (bind (@mul_rev_to_pair binary64 ((fl binary64 (-1) (1)), (fl binary64 (2476979795053773) (-51))) ((@fminf binary64), (fl binary64 (5404319552844595) (-54)))) (fun v1 => ret (snd v1))) (fun v2 => @is_empty binary64 v2)));
  (288, (bind (bind (@mul_rev_to_pair binary64 ((@f0 binary64), (fl binary64 (2476979795053773) (-51))) ((@fminf binary64), (fl binary64 (5404319552844595) (-54)))) (fun v1 => ret (fst v1))) (fun v2 => ret (ieq v2 ((@fminf binary64), (@finf binary64))))));
  (289, (bind (bind (@mul_rev_to_pair binary64 ((@f0 binary64), (fl binary64 (2476979795053773) (-51))) ((@fminf binary64), (fl binary64 (5404319552844595) (-54)))) (fun v1 => ret (snd v1))) (fun v2 => @is_empty binary64 v2)));
  (290, (bind (bind (@mul_rev_to_pair binary64 ((fl binary64 (5764607523034235) (-59)), (fl binary64 (2476979795053773) (-51))) ((@fminf binary64), (fl binary64 (5404319552844595) (-54)))) (fun v1 => ret (fst v1))) (fun v2 => ret (ieq v2 ((@fminf binary64), (fl binary64 (15) (1)))))));
  (291, (bind (bind (@mul_rev_to_pair binary64 ((fl binary64 (5764607523034235) (-59)), (fl binary64 (2476979795053773) (-51))) ((@fminf binary64), (fl binary64 (5404319552844595) (-54)))) (fun v1 => ret (snd v1))) (fun v2 => @is_empty binary64 v2)));
  (292, (bind (bind (@mul_rev_to_pair binary64 ((@f0 binary64), (@f0 binary64)) ((@fminf binary64), (fl binary64 (5404319552844595) (-54)))) (fun v1 => ret (fst v1))) (fun v2 => ret (ieq v2 ((@fminf binary64), (@finf binary64))))));
  (293, (bind (bind (@mul_rev_to_pair binary64 ((@f0 binary64), (@f0 binary64)) ((@fminf binary64), (fl binary64 (5404319552844595) (-54)))) (fun v1 => ret (snd v1))) (fun v2 => @is_empty binary64 v2)));
  (294, (bind (bind (@mul_rev_to_pair binary64 ((@fminf binary64), (fl binary64 (-3602879701896397) (-55))) ((@fminf binary64), (fl binary64 (5404319552844595) (-54)))) (fun v1 => ret (fst v1))) (fun v2 => ret (ieq v2 ((fl binary64 (-3) (0)), (@finf binary64))))));
  (295, (bind (bind (@mul_rev_to_pair binary64 ((@fminf binary64), (fl binary64 (-3602879701896397) (-55))) ((@fminf binary64), (fl binary64 (5404319552844595) (-54)))) (fun v1 => ret (snd v1))) (fun v2 => @is_empty binary64 v2)));
  (296, (bind (bind (@mul_rev_to_pair binary64 ((@fminf binary64), (@f0 binary64)) ((@fminf binary64), (fl binary64 (5404319552844595) (-54)))) (fun v1 => ret (fst v1))) (fun v2 => ret (ieq v2 ((@fminf binary64), (@finf binary64))))));
  (297, (bind (bind (@mul_rev_to_pair binary64 ((@fminf binary64), (@f0 binary64)) ((@fminf binary64), (fl binary64 (5404319552844595) (-54)))) (fun v1 => ret (snd v1))) (fun v2 => @is_empty binary64 v2)));
  (298, (bind (bind (@mul_rev_to_pair binary64 ((@fminf binary64), (fl binary64 (2476979795053773) (-51))) ((@fminf binary64), (fl binary64 (5404319552844595) (-54)))) (fun v1 => ret (fst v1))) (fun v2 => ret (ieq v2 ((@fminf binary64), (@finf binary64))))));
  (299, (bind (bind (@mul_rev_to_pair binary64 ((@fminf binary64), (fl binary64 (2476979795053773) (-51))) ((@fminf binary64), (fl binary64 (5404319552844595) (-54)))) (fun v1 => ret (snd v1))) (fun v2 => @is_empty binary64 v2)));
  (300, (bind (bind (@mul_rev_to_pair binary64 ((fl binary64 (-1) (1)), (@finf binary64)) ((@fminf binary64), (fl binary64 (5404319552844595) (-54)))) (fun v1 => ret (fst v1))) (fun v2 => ret (ieq v2 ((@fminf binary64), (@finf binary64))))));
  (301, (bind (bind (@mul_rev_to_pair binary64 ((fl binary64 (-1) (1)), (@finf binary64)) ((@fminf binary64), (fl binary64 (5404319552844595) (-54)))) (fun v1 => ret (snd v1))) (fun v2 => @is_empty binary64 v2)));
  (302, (bind (bind (@mul_rev_to_pair binary64 ((@f0 binary64), (@finf binary64)) ((@fminf binary64), (fl binary64 (5404319552844595) (-54)))) (fun v1 => ret (fst v1))) (fun v2 => ret (ieq v2 ((@fminf binary64), (@finf binary64))))));
  (303, (bind (bind (@mul_rev_to_pair binary64 ((@f0 binary64), (@finf binary64)) ((@fminf binary64), (fl binary64 (5404319552844595) (-54)))) (fun v1 => ret (snd v1))) (fun v2 => @is_empty binary64 v2)));
  (304, (bind (bind (@mul_rev_to_pair binary64 ((fl binary64 (5764607523034235) (-59)), (@finf binary64)) ((@fminf binary64), (fl binary64 (5404319552844595) (-54)))) (fun v1 => ret (fst v1))) (fun v2 => ret (ieq v2 ((@fminf binary64), (fl binary64 (15) (1)))))));
  (305, (bind (bind (@mul_rev_to_pair binary64 ((fl binary64 (5764607523034235) (-59)), (@finf binary64)) ((@fminf binary64), (fl binary64 (5404319552844595) (-54)))) (fun v1 => ret (snd v1))) (fun v2 => @is_empty binary64 v2)));
  (306, (bind (bind (@mul_rev_to_pair binary64 ((@fminf binary64), (@finf binary64)) ((@fminf binary64), (fl binary64 (5404319552844595) (-54)))) (fun v1 => ret (fst v1))) (fun v2 => ret (ieq v2 ((@fminf binary64), (@finf binary64))))));
  (307, (bind (bind (@mul_rev_to_pair binary64 ((@fminf binary64), (@finf binary64)) ((@fminf binary64), (fl binary64 (5404319552844595) (-54)))) (fun v1 => ret (snd v1))) (fun v2 => @is_empty binary64 v2)));
  (309, (bind (bind (@mul_rev_to_pair binary64 ((fl binary64 (-1) (1)), (fl binary64 (-3602879701896397) (-55))) ((fl binary64 (-7566047373982433) (-55)), (@finf binary64))) (fun v1 => ret (fst v1))) (fun v2 => ret (ieq v2 ((@fminf binary64), (fl binary64 (4728779608739021) (-51)))))));
  (310, (bind (bind (@mul_rev_to_pair binary64 ((fl binary64 (-1) (1)), (fl binary64 (-3602879701896397) (-55))) ((fl binary64 (-7566047373982433) (-55)), (@finf binary64))) (fun v1 => ret (snd v1))) (fun v2 => @is_empty binary64 v2)));
  (311, (bind (bind (@mul_rev_to_pair binary64 ((fl binary64 (-1) (1)), (@f0 binary64)) ((fl binary64 (-7566047373982433) (-55)), (@finf binary64))) (fun v1 => ret (fst v1))) (fun v2 => ret (ieq v2 ((@fminf binary64), (@finf binary64))))));
  (312, (bind (bind (@mul_rev_to_pair binary64 ((fl binary64 (-1) (1)), (@f0 binary64)) ((fl binary64 (-7566047373982433) (-55)), (@finf binary64))) (fun v1 => ret (snd v1))) (fun v2 => @is_empty binary64 v2)));
  (313, (bind (bind (@mul_rev_to_pair binary64 ((fl binary64 (-1) (1)), (fl binary64 (2476979795053773) (-51))) ((fl binary64 (-7566047373982433) (-55)), (@finf binary64))) (fun v1 => ret (fst v1))) (fun v2 => ret (ieq v2 ((@fminf binary64), (@finf binary64))))));
  (314, (bind (bind (@mul_rev_to_pair binary64 ((fl binary64 (-1) (1)), (fl binary64 (2476979795053773) (-51))) ((fl binary64 (-7566047373982433) (-55)), (@finf binary64))) (fun v1 => ret (snd v1))) (fun v2 => @is_empty binary64 v2)));
  (315, (bind (bind (@mul_rev_to_pair binary64 ((@f0 binary64), (fl binary64 (2476979795053773) (-51))) ((fl binary64 (-7566047373982433) (-55)), (@finf binary64))) (fun v1 => ret (fst v1))) (fun v2 => ret (ieq v2 ((@fminf binary64), (@finf binary64))))));
  (316, (bind (bind (@mul_rev_to_pair binary64 ((@f0 binary64), (fl binary64 (2476979795053773) (-51))) ((fl binary64 (-7566047373982433) (-55)), (@finf binary64))) (fun v1 => ret (snd v1))) (fun v2 => @is_empty binary64 v2)));
  (317, (bind (bind (@mul_rev_to_pair binary64 ((fl binary64 (5764607523034235) (-59)), (fl binary64 (2476979795053773) (-51))) ((fl binary64 (-7566047373982433) (-55)), (@finf binary64))) (fun v1 => ret (fst v1))) (fun v2 => ret (ieq v2 ((fl binary64 (-21) (0)), (@finf binary64))))));
  (318, (bind (bind (@mul_rev_to_pair binary64 ((fl binary64 (5764607523034235) (-59)), (fl binary64 (2476979795053773) (-51))) ((fl binary64 (-7566047373982433) (-55)), (@finf binary64))) (fun v1 => ret (snd v1))) (fun v2 => @is_empty binary64 v2)));
  (319, (bind (bind (@mul_rev_to_pair binary64 ((@f0 binary64), (@f0 binary64)) ((fl binary64 (-7566047373982433) (-55)), (@finf binary64))) (fun v1 => ret (fst v1))) (fun v2 => ret (ieq v2 ((@fminf binary64), (@finf binary64))))));
  (320, (bind (bind (@mul_rev_to_pair binary64 ((@f0 binary64), (@f0 binary64)) ((fl binary64 (-7566047373982433) (-55)), (@finf binary64))) (fun v1 => ret (snd v1))) (fun v2 => @is_empty binary64 v2)));
  (321, (bind (bind (@mul_rev_to_pair binary64 ((@fminf binary64), (fl binary64 (-3602879701896397) (-55))) ((fl binary64 (-7566047373982433) (-55)), (@finf binary64))) (fun v1 => ret (fst v1))) (fun v2 => ret (ieq v2 ((@fminf binary64), (fl binary64 (4728779608739021) (-51)))))));
  (322, (bind (bind (@mul_rev_to_pair binary64 ((@fminf binary64), (fl binary64 (-3602879701896397) (-55))) ((fl binary64 (-7566047373982433) (-55)), (@finf binary64))) (fun v1 => ret (snd v1))) (fun v2 => @is_empty binary64 v2)));
  (323, (bind (bind (@mul_rev_to_pair binary64 ((@fminf binary64), (@f0 binary64)) ((fl binary64 (-7566047373982433) (-55)), (@finf binary64))) (fun v1 => ret (fst v1))) (fun v2 => ret (ieq v2 ((@fminf binary64), (@finf binary64))))));
  (324, (bind (bind (@mul_rev_to_pair binary64 ((@fminf binary64), (@f0 binary64)) ((fl binary64 (-7566047373982433) (-55)), (@finf binary64))) (fun v1 => ret (snd v1))) (fun v2 => @is_empty binary64 v2)));
  (325, (bind (bind (@mul_rev_to_pair binary64 ((@fminf binary64), (fl binary64 (2476979795053773) (-51))) ((fl binary64 (-7566047373982433) (-55)), (@finf binary64))) (fun v1 => ret (fst v1))) (fun v2 => ret (ieq v2 ((@fminf binary64), (@finf binary64))))));
  (326, (bind (bind (@mul_rev_to_pair binary64 ((@fminf binary64), (fl binary64 (2476979795053773) (-51))) ((fl binary64 (-7566047373982433) (-55)), (@finf binary64))) (fun v1 => ret (snd v1))) (fun v2 => @is_empty binary64 v2)));
  (327, (bind (bind (@mul_rev_to_pair binary64 ((fl binary64 (-1) (1)), (@finf binary64)) ((fl binary64 (-7566047373982433) (-55)), (@finf binary64))) (fun v1 => ret (fst v1))) (fun v2 => ret (ieq v2 ((@fminf binary64), (@finf binary64))))));
  (328, (bind (bind (@mul_rev_to_pair binary64 ((fl binary64 (-1) (1)), (@finf binary64)) ((fl binary64 (-7566047373982433) (-55)), (@finf binary64))) (fun v1 => ret (snd v1))) (fun v2 => @is_empty binary64 v2)));
  (329, (bind (bind (@mul_rev_to_pair binary64 ((@f0 binary64), (@finf binary64)) ((fl binary64 (-7566047373982433) (-55)), (@finf binary64))) (fun v1 => ret (fst v1))) (fun v2 => ret (ieq v2 ((@fminf binary64), (@finf binary64))))));
  (330, (bind (bind (@mul_rev_to_pair binary64 ((@f0 binary64), (@finf binary64)) ((fl binary64 (-7566047373982433) (-55)), (@finf binary64))) (fun v1 => ret (snd v1))) (fun v2 => @is_empty binary64 v2)));
  (331, (bind (bind (@mul_rev_to_pair binary64 ((fl binary64 (5764607523034235) (-59)), (@finf binary64)) ((fl binary64 (-7566047373982433) (-55)), (@finf binary64))) (fun v1 => ret (fst v1))) (fun v2 => ret (ieq v2 ((fl binary64 (-21) (0)), (@finf binary64))))));
  (332, (bind (bind (@mul_rev_to_pair binary64 ((fl binary64 (5764607523034235) (-59)), (@finf binary64)) ((fl binary64 (-7566047373982433) (-55)), (@finf binary64))) (fun v1 => ret (snd v1))) (fun v2 => @is_empty binary64 v2)));
  (333, (bind (bind (@mul_rev_to_pair binary64 ((@fminf binary64), (@finf binary64)) ((fl binary64 (-7566047373982433) (-55)), (@finf binary64))) (fun v1 => ret (fst v1))) (fun v2 => ret (ieq v2 ((@fminf binary64), (@finf binary64))))));
  (334, (bind (bind (@mul_rev_to_pair binary64 ((@fminf binary64), (@finf binary64)) ((fl binary64 (-7566047373982433) (-55)), (@finf binary64))) (fun v1 => ret (snd v1))) (fun v2 => @is_empty binary64 v2)));
  (336, (bind (bind (@mul_rev_to_pair binary64 ((fl binary64 (-1) (1)), (fl binary64 (-3602879701896397) (-55))) ((@f0 binary64), (@finf binary64))) (fun v1 => ret (fst v1))) (fun v2 => ret (ieq v2 ((@fminf binary64), (@f0 binary64))))));
  (337, (bind (bind (@mul_rev_to_pair binary64 ((fl binary64 (-1) (1)), (fl binary64 (-3602879701896397) (-55))) ((@f0 binary64), (@finf binary64))) (fun v1 => ret (snd v1))) (fun v2 => @is_empty binary64 v2)));
  (338, (bind (bind (@mul_rev_to_pair binary64 ((fl binary64 (-1) (1)), (@f0 binary64)) ((@f0 binary64), (@finf binary64))) (fun v1 => ret (fst v1))) (fun v2 => ret (ieq v2 ((@fminf binary64), (@finf binary64))))));
  (339, (bind (bind (@mul_rev_to_pair binary64 ((fl binary64 (-1) (1)), (@f0 binary64)) ((@f0 binary64), (@finf binary64))) (fun v1 => ret (snd v1))) (fun v2 => @is_empty binary64 v2)));
  (340, (bind (bind (@mul_rev_to_pair binary64 ((fl binary64 (-1) (1)), (fl binary64 (2476979795053773) (-51))) ((@f0 binary64), (@finf binary64))) (fun v1 => ret (fst v1))) (fun v2 => ret (ieq v2 ((@fminf binary64), (@finf binary64))))));
  (341, (bind (bind (@mul_rev_to_pair binary64 ((fl binary64 (-1) (1)), (fl binary64 (2476979795053773) (-51))) ((@f0 binary64), (@finf binary64))) (fun v1 => ret (snd v1))) (fun v2 => @is_empty binary64 v2)));
  (342, (bind (bind (@mul_rev_to_pair binary64 ((@f0 binary64), (fl binary64 (2476979795053773) (-51))) ((@f0 binary64), (@finf binary64))) (fun v1 => ret (fst v1))) (fun v2 => ret (ieq v2 ((@fminf binary64), (@finf binary64))))));
  (343, (bind (bind (@mul_rev_to_pair binary64 ((@f0 binary64), (fl binary64 (2476979795053773) (-51))) ((@f0 binary64), (@finf binary64))) (fun v1 => ret (snd v1))) (fun v2 => @is_empty binary64 v2)));
  (344, (bind (bind (@mul_rev_to_pair binary64 ((fl binary64 (5764607523034235) (-59)), (fl binary64 (2476979795053773) (-51))) ((@f0 binary64), (@finf binary64))) (fun v1 => ret (fst v1))) (fun v2 => ret (ieq v2 ((@f0 binary64), (@finf binary64))))));
  (345, (bind (bind (@mul_rev_to_pair binary64 ((fl binary64 (5764607523034235) (-59)), (fl binary64 (2476979795053773) (-51))) ((@f0 binary64), (@finf binary64))) (fun v1 => ret (snd v1))) (fun v2 => @is_empty binary64 v2)));
  (346, (bind (bind (@mul_rev_to_pair binary64 ((@f0 binary64), (@f0 binary64)) ((@f0 binary64), (@finf binary64))) (fun v1 => ret (fst v1))) (fun v2 => ret (ieq v2 ((@fminf binary64), (@finf binary64))))));
  (347, (bind (bind (@mul_rev_to_pair binary64 ((@f0 binary64), (@f0 binary64)) ((@f0 binary64), (@finf binary64))) (fun v1 => ret (snd v1))) (fun v2 => @is_empty binary64 v2)));
  (348, (bind (bind (@mul_rev_to_pair binary64 ((@fminf binary64), (fl binary64 (-3602879701896397) (-55))) ((@f0 binary64), (@finf binary64))) (fun v1 => ret (fst v1))) (fun v2 => ret (ieq v2 ((@fminf binary64), (@f0 binary64))))));
  (349, (bind (bind (@mul_rev_to_pair binary64 ((@fminf binary64), (fl binary64 (-3602879701896397) (-55))) ((@f0 binary64), (@finf binary64))) (fun v1 => ret (snd v1))) (fun v2 => @is_empty binary64 v2)));
  (350, (bind (bind (@mul_rev_to_pair binary64 ((@fminf binary64), (@f0 binary64)) ((@f0 binary64), (@finf binary64))) (fun v1 => ret (fst v1))) (fun v2 => ret (ieq v2 ((@fminf binary64), (@finf binary64))))));
  (351, (bind (bind (@mul_rev_to_pair binary64 ((@fminf binary64), (@f0 binary64)) ((@f0 binary64), (@finf binary64))) (fun v1 => ret (snd v1))) (fun v2 => @is_empty binary64 v2)));
  (352, (bind (bind (@mul_rev_to_pair binary64 ((@fminf binary64), (fl binary64 (2476979795053773) (-51))) ((@f0 binary64), (@finf binary64))) (fun v1 => ret (fst v1))) (fun v2 => ret (ieq v2 ((@fminf binary64), (@finf binary64))))));
  (353, (bind (bind (@mul_rev_to_pair binary64 ((@fminf binary64), (fl binary64 (2476979795053773) (-51))) ((@f0 binary64), (@finf binary64))) (fun v1 => ret (snd v1))) (fun v2 => @is_empty binary64 v2)));
  (354, (bind (bind (@mul_rev_to_pair binary64 ((fl binary64 (-1) (1)), (@finf binary64)) ((@f0 binary64), (@finf binary64))) (fun v1 => ret (fst v1))) (fun v2 => ret (ieq v2 ((@fminf binary64), (@finf binary64))))));
  (355, (bind (bind (@mul_rev_to_pair binary64 ((fl binary64 (-1) (1)), (@finf binary64)) ((@f0 binary64), (@finf binary64))) (fun v1 => ret (snd v1))) (fun v2 => @is_empty binary64 v2)));
  (356, (bind (bind (@mul_rev_to_pair binary64 ((@f0 binary64), (@finf binary64)) ((@f0 binary64), (@finf binary64))) (fun v1 => ret (fst v1))) (fun v2 => ret (ieq v2 ((@fminf binary64), (@finf binary64))))));
  (357, (bind (bind (@mul_rev_to_pair binary64 ((@f0 binary64), (@finf binary64)) ((@f0 binary64), (@finf binary64))) (fun v1 => ret (snd v1))) (fun v2 => @is_empty binary64 v2)));
  (358, (bind (bind (@mul_rev_to_pair binary64 ((fl binary64 (5764607523034235) (-59)), (@finf binary64)) ((@f0 binary64), (@finf binary64))) (fun v1 => ret (fst v1))) (fun v2 => ret (ieq v2 ((@f0 binary64), (@finf binary64))))));
  (359, (bind (bind (@mul_rev_to_pair binary64 ((fl binary64 (5764607523034235) (-59)), (@finf binary64)) ((@f0 binary64), (@finf binary64))) (fun v1 => ret (snd v1))) (fun v2 => @is_empty binary64 v2)));
  (360, (bind (bind (@mul_rev_to_pair binary64 ((@fminf binary64), (@finf binary64)) ((@f0 binary64), (@finf binary64))) (fun v1 => ret (fst v1))) (fun v2 => ret (ieq v2 ((@fminf binary64), (@finf binary64))))));
  (361, (bind (bind (@mul_rev_to_pair binary64 ((@fminf binary64), (@finf binary64)) ((@f0 binary64), (@finf binary64))) (fun v1 => ret (snd v1))) (fun v2 => @is_empty binary64 v2)));
  (363, (bind (bind (@mul_rev_to_pair binary64 ((fl binary64 (-1) (1)), (fl binary64 (-3602879701896397) (-55))) ((fl binary64 (5764607523034235) (-57)), (@finf binary64))) (fun v1 => ret (fst v1))) (fun v2 => ret (ieq v2 ((@fminf binary64), (fl binary64 (-5764607523034235) (-58)))))));
  (364, (bind (bind (@mul_rev_to_pair binary64 ((fl binary64 (-1) (1)), (fl binary64 (-3602879701896397) (-55))) ((fl binary64 (5764607523034235) (-57)), (@finf binary64))) (fun v1 => ret (snd v1))) (fun v2 => @is_empty binary64 v2)));
  (365, (bind (bind (@mul_rev_to_pair binary64 ((fl binary64 (-1) (1)), (@f0 binary64)) ((fl binary64 (5764607523034235) (-57)), (@finf binary64))) (fun v1 => ret (fst v1))) (fun v2 => ret (ieq v2 ((@fminf binary64), (fl binary64 (-5764607523034235) (-58)))))));
  (366, (bind (bind (@mul_rev_to_pair binary64 ((fl binary64 (-1) (1)), (@f0 binary64)) ((fl binary64 (5764607523034235) (-57)), (@finf binary64))) (fun v1 => ret (snd v1))) (fun v2 => @is_empty binary64 v2)));
  (367, (bind (bind (@mul_rev_to_pair binary64 ((fl binary64 (-1) (1)), (fl binary64 (2476979795053773) (-51))) ((fl binary64 (5764607523034235) (-57)), (@finf binary64))) (fun v1 => ret (fst v1))) (fun v2 => ret (ieq v2 ((@fminf binary64), (fl binary64 (-5764607523034235) (-58)))))));
  (368, (bind (bind (@mul_rev_to_pair binary64 ((fl binary64 (-1) (1)), (fl binary64 (2476979795053773) (-51))) ((fl binary64 (5764607523034235) (-57)), (@finf binary64))) (fun v1 => ret (snd v1))) (fun v2 => ret (ieq v2 ((fl binary64 (5240552293667485) (-57)), (@finf binary64))))));
  (369, (bind (bind (@mul_rev_to_pair binary64 ((@f0 binary64), (fl binary64 (2476979795053773) (-51))) ((fl binary64 (5764607523034235) (-57)), (@finf binary64))) (fun v1 => ret (fst v1))) (fun v2 => ret (ieq v2 ((fl binary64 (5240552293667485) (-57)), (@finf binary64))))));
  (370, (bind (bind (@mul_rev_to_pair binary64 ((@f0 binary64), (fl binary64 (2476979795053773) (-51))) ((fl binary64 (5764607523034235) (-57)), (@finf binary64))) (fun v1 => ret (snd v1))) (fun v2 => @is_empty binary64 v2)));
  (371, (bind (bind (@mul_rev_to_pair binary64 ((fl binary64 (5764607523034235) (-59)), (fl binary64 (2476979795053773) (-51))) ((fl binary64 (5764607523034235) (-57)), (@finf binary64))) (fun v1 => ret (fst v1))) (fun v2 => ret (ieq v2 ((fl binary64 (5240552293667485) (-57)), (@finf binary64))))));
  (372, (bind (bind (@mul_rev_to_pair binary64 ((fl binary64 (5764607523034235) (-59)), (fl binary64 (2476979795053773) (-51))) ((fl binary64 (5764607523034235) (-57)), (@finf binary64))) (fun v1 => ret (snd v1))) (fun v2 => @is_empty binary64 v2)));
  (373, (bind (bind (@mul_rev_to_pair binary64 ((@f0 binary64), (@f0 binary64)) ((fl binary64 (5764607523034235) (-57)), (@finf binary64))) (fun v1 => ret (fst v1))) (fun v2 => @is_empty binary64 v2)));
  (374, (bind (bind (@mul_rev_to_pair binary64 ((@f0 binary64), (@f0 binary64)) ((fl binary64 (5764607523034235) (-57)), (@finf binary64))) (fun v1 => ret (snd v1))) (fun v2 => @is_empty binary64 v2)));
  (375, (bind (bind (@mul_rev_to_pair binary64 ((@fminf binary64), (fl binary64 (-3602879701896397) (-55))) ((fl binary64 (5764607523034235) (-57)), (@finf binary64))) (fun v1 => ret (fst v1))) (fun v2 => ret (ieq v2 ((@fminf binary64), (@f0 binary64))))));
  (376, (bind (bind (@mul_rev_to_pair binary64 ((@fminf binary64), (fl binary64 (-3602879701896397) (-55))) ((fl binary64 (5764607523034235) (-57)), (@finf binary64))) (fun v1 => ret (snd v1))) (fun v2 => @is_empty binary64 v2)));
  (377, (bind (bind (@mul_rev_to_pair binary64 ((@fminf binary64), (@f0 binary64)) ((fl binary64 (5764607523034235) (-57)), (@finf binary64))) (fun v1 => ret (fst v1))) (fun v2 => ret (ieq v2 ((@fminf binary64), (@f0 binary64))))));
  (378, (bind (bind (@mul_rev_to_pair binary64 ((@fminf binary64), (@f0 binary64)) ((fl binary64 (5764607523034235) (-57)), (@finf binary64))) (fun v1 => ret (snd v1))) (fun v2 => @is_empty binary64 v2)));
  (379, (bind (bind (@mul_rev_to_pair binary64 ((@fminf binary64), (fl binary64 (2476979795053773) (-51))) ((fl binary64 (5764607523034235) (-57)), (@finf binary64))) (fun v1 => ret (fst v1))) (fun v2 => ret (ieq v2 ((@fminf binary64), (@f0 binary64))))));
  (380, (bind (bind (@mul_rev_to_pair binary64 ((@fminf binary64), (fl binary64 (2476979795053773) (-51))) ((fl binary64 (5764607523034235) (-57)), (@finf binary64))) (fun v1 => ret (snd v1))) (fun v2 => ret (ieq v2 ((fl binary64 (5240552293667485) (-57)), (@finf binary64))))));
  (381, (bind (bind (@mul_rev_to_pair binary64 ((fl binary64 (-1) (1)), (@finf binary64)) ((fl binary64 (5764607523034235) (-57)), (@finf binary64))) (fun v1 => ret (fst v1))) (fun v2 => ret (ieq v2 ((@fminf binary64), (fl binary64 (-5764607523034235) (-58)))))));
  (382, (bind (bind (@mul_rev_to_pair binary64 ((fl binary64 (-1) (1)), (@finf binary64)) ((fl binary64 (5764607523034235) (-57)), (@finf binary64))) (fun v1 => ret (snd v1))) (fun v2 => ret (ieq v2 ((@f0 binary64), (@finf binary64))))));
  (383, (bind (bind (@mul_rev_to_pair binary64 ((@f0 binary64), (@finf binary64)) ((fl binary64 (5764607523034235) (-57)), (@finf binary64))) (fun v1 => ret (fst v1))) (fun v2 => ret (ieq v2 ((@f0 binary64), (@finf binary64))))));
  (384, (bind (bind (@mul_rev_to_pair binary64 ((@f0 binary64), (@finf binary64)) ((fl binary64 (5764607523034235) (-57)), (@finf binary64))) (fun v1 => ret (snd v1))) (fun v2 => @is_empty binary64 v2)));
  (385, (bind (bind (@mul_rev_to_pair binary64 ((fl binary64 (5764607523034235) (-59)), (@finf binary64)) ((fl binary64 (5764607523034235) (-57)), (@finf binary64))) (fun v1 => ret (fst v1))) (fun v2 => ret (ieq v2 ((@f0 binary64), (@finf binary64))))));
  (386, (bind (bind (@mul_rev_to_pair binary64 ((fl binary64 (5764607523034235) (-59)), (@finf binary64)) ((fl binary64 (5764607523034235) (-57)), (@finf binary64))) (fun v1 => ret (snd v1))) (fun v2 => @is_empty binary64 v2)));
  (387, (bind (bind (@mul_rev_to_pair binary64 ((@fminf binary64), (@finf binary64)) ((fl binary64 (5764607523034235) (-57)), (@finf binary64))) (fun v1 => ret (fst v1))) (fun v2 => ret (ieq v2 ((@fminf binary64), (@f0 binary64))))));
  (388, (bind (bind (@mul_rev_to_pair binary64 ((@fminf binary64), (@finf binary64)) ((fl binary64 (5764607523034235) (-57)), (@finf binary64))) (fun v1 => ret (snd v1))) (fun v2 => ret (ieq v2 ((@f0 binary64), (@finf binary64))))));
  (390, (bind (bind (@mul_rev_to_pair binary64 ((fl binary64 (-1) (1)), (fl binary64 (-3602879701896397) (-55))) ((@fminf binary64), (@finf binary64))) (fun v1 => ret (fst v1))) (fun v2 => ret (ieq v2 ((@fminf binary64), (@finf binary64))))));
  (391, (bind (bind (@mul_rev_to_pair binary64 ((fl binary64 (-1) (1)), (fl binary64 (-3602879701896397) (-55))) ((@fminf binary64), (@finf binary64))) (fun v1 => ret (snd v1))) (fun v2 => @is_empty binary64 v2)));
  (392, (bind (bind (@mul_rev_to_pair binary64 ((fl binary64 (-1) (1)), (@f0 binary64)) ((@fminf binary64), (@finf binary64))) (fun v1 => ret (fst v1))) (fun v2 => ret (ieq v2 ((@fminf binary64), (@finf binary64))))));
  (393, (bind (bind (@mul_rev_to_pair binary64 ((fl binary64 (-1) (1)), (@f0 binary64)) ((@fminf binary64), (@finf binary64))) (fun v1 => ret (snd v1))) (fun v2 => @is_empty binary64 v2)));
  (394, (bind (bind (@mul_rev_to_pair binary64 ((fl binary64 (-1) (1)), (fl binary64 (2476979795053773) (-51))) ((@fminf binary64), (@finf binary64))) (fun v1 => ret (fst v1))) (fun v2 => ret (ieq v2 ((@fminf binary64), (@finf binary64))))));
  (395, (bind (bind (@mul_rev_to_pair binary64 ((fl binary64 (-1) (1)), (fl binary64 (2476979795053773) (-51))) ((@fminf binary64), (@finf binary64))) (fun v1 => ret (snd v1))) (fun v2 => @is_empty binary64 v2)));
  (396, (bind (bind (@mul_rev_to_pair binary64 ((@f0 binary64), (fl binary64 (2476979795053773) (-51))) ((@fminf binary64), (@finf binary64))) (fun v1 => ret (fst v1))) (fun v2 => ret (ieq v2 ((@fminf binary64), (@finf binary64))))));
  (397, (bind (bind (@mul_rev_to_pair binary64 ((@f0 binary64), (fl binary64 (2476979795053773) (-51))) ((@fminf binary64), (@finf binary64))) (fun v1 => ret (snd v1))) (fun v2 => @is_empty binary64 v2)));
  (398, (bind (bind (@mul_rev_to_pair binary64 ((fl binary64 (5764607523034235) (-59)), (fl binary64 (2476979795053773) (-51))) ((@fminf binary64), (@finf binary64))) (fun v1 => ret (fst v1))) (fun v2 => ret (ieq v2 ((@fminf binary64), (@finf binary64))))));
  (399, (bind (bind (@mul_rev_to_pair binary64 ((fl binary64 (5764607523034235) (-59)), (fl binary64 (2476979795053773) (-51))) ((@fminf binary64), (@finf binary64))) (fun v1 => ret (snd v1))) (fun v2 => @is_empty binary64 v2)));
  (400, (bind (bind (@mul_rev_to_pair binary64 ((@f0 binary64), (@f0 binary64)) ((@fminf binary64), (@finf binary64))) (fun v1 => ret (fst v1))) (fun v2 => ret (ieq v2 ((@fminf binary64), (@finf binary64))))));
  (401, (bind (bind (@mul_rev_to_pair binary64 ((@f0 binary64), (@f0 binary64)) ((@fminf binary64), (@finf binary64))) (fun v1 => ret (snd v1))) (fun v2 => @is_empty binary64 v2)));
  (402, (bind (bind (@mul_rev_to_pair binary64 ((@fminf binary64), (fl binary64 (-3602879701896397) (-55))) ((@fminf binary64), (@finf binary64))) (fun v1 => ret (fst v1))) (fun v2 => ret (ieq v2 ((@fminf binary64), (@finf binary64))))));
  (403, (bind (bind (@mul_rev_to_pair binary64 ((@fminf binary64), (fl binary64 (-3602879701896397) (-55))) ((@fminf binary64), (@finf binary64))) (fun v1 => ret (snd v1))) (fun v2 => @is_empty binary64 v2)));
  (404, (bind (bind (@mul_rev_to_pair binary64 ((@fminf binary64), (@f0 binary64)) ((@fminf binary64), (@finf binary64))) (fun v1 => ret (fst v1))) (fun v2 => ret (ieq v2 ((@fminf binary64), (@finf binary64))))));
  (405, (bind (bind (@mul_rev_to_pair binary64 ((@fminf binary64), (@f0 binary64)) ((@fminf binary64), (@finf binary64))) (fun v1 => ret (snd v1))) (fun v2 => @is_empty binary64 v2)));
  (406, (bind (bind (@mul_rev_to_pair binary64 ((@fminf binary64), (fl binary64 (2476979795053773) (-51))) ((@fminf binary64), (@finf binary64))) (fun v1 => ret (fst v1))) (fun v2 => ret (ieq v2 ((@fminf binary64), (@finf binary64))))));
  (407, (bind (bind (@mul_rev_to_pair binary64 ((@fminf binary64), (fl binary64 (2476979795053773) (-51))) ((@fminf binary64), (@finf binary64))) (fun v1 => ret (snd v1))) (fun v2 => @is_empty binary64 v2)));
  (408, (bind (bind (@mul_rev_to_pair binary64 ((fl binary64 (-1) (1)), (@finf binary64)) ((@fminf binary64), (@finf binary64))) (fun v1 => ret (fst v1))) (fun v2 => ret (ieq v2 ((@fminf binary64), (@finf binary64))))));
  (409, (bind (bind (@mul_rev_to_pair binary64 ((fl binary64 (-1) (1)), (@finf binary64)) ((@fminf binary64), (@finf binary64))) (fun v1 => ret (snd v1))) (fun v2 => @is_empty binary64 v2)));
  (410, (bind (bind (@mul_rev_to_pair binary64 ((@f0 binary64), (@finf binary64)) ((@fminf binary64), (@finf binary64))) (fun v1 => ret (fst v1))) (fun v2 => ret (ieq v2 ((@fminf binary64), (@finf binary64))))));
  (411, (bind (bind (@mul_rev_to_pair binary64 ((@f0 binary64), (@finf binary64)) ((@fminf binary64), (@finf binary64))) (fun v1 => ret (snd v1))) (fun v2 => @is_empty binary64 v2)));
  (412, (bind (bind (@mul_rev_to_pair binary64 ((fl binary64 (5764607523034235) (-59)), (@finf binary64)) ((@fminf binary64), (@finf binary64))) (fun v1 => ret (fst v1))) (fun v2 => ret (ieq v2 ((@fminf binary64), (@finf binary64))))));
  (413, (bind (bind (@mul_rev_to_pair binary64 ((fl binary64 (5764607523034235) (-59)), (@finf binary64)) ((@fminf binary64), (@finf binary64))) (fun v1 => ret (snd v1))) (fun v2 => @is_empty binary64 v2)));
  (414, (bind (bind (@mul_rev_to_pair binary64 ((@fminf binary64), (@finf binary64)) ((@fminf binary64), (@finf binary64))) (fun v1 => ret (fst v1))) (fun v2 => ret (ieq v2 ((@fminf binary64), (@finf binary64))))));
  (415, (bind (bind (@mul_rev_to_pair binary64 ((@fminf binary64), (@finf binary64)) ((@fminf binary64), (@finf binary64))) (fun v1 => ret (snd v1))) (fun v2 => @is_empty binary64 v2)));
  (418, (bind get_flags (fun v1 => ret (N.eqb v1 none_bit))));
  (420, clear_flags);
  (421, (bind (bind (@mul_rev_to_pair binary64 ((fl binary64 (1) (0)), (fl binary64 (-1) (1))) ((fl binary64 (1) (0)), (fl binary64 (1) (1)))) (fun v1 => ret (fst v1))) (fun v2 => @is_empty binary64 v2)));
  (422, (bind (bind (@mul_rev_to_pair binary64 ((fl binary64 (1) (0)), (fl binary64 (-1) (1))) ((fl binary64 (1) (0)), (fl binary64 (1) (1)))) (fun v1 => ret (snd v1))) (fun v2 => @is_empty binary64 v2)));
  (423, (bind get_flags (fun v1 => ret (N.eqb v1 invalid_operand_bit))));
  (424, clear_flags);
  (425, (set_cwd invalid_operand_bit));
  (426, (throws (@mul_rev_to_pair binary64 ((fl binary64 (1) (0)), (fl binary64 (1) (1))) ((fl binary64 (1) (0)), (fl binary64 (-1) (1)))) Invalid_operand_exception));
  (427, (bind get_flags (fun v1 => ret (N.eqb v1 invalid_operand_bit))));
  (428, clear_flags);
  (429, (set_cwd none_bit))].

(** lines 435-478 *)
Definition minimal_mul_rev_to_pair_mixedtype_test : list (N * M bool) := [
  (437, (bind (bind (@mul_rev_to_pair_mixed binary64 binary32 binary64 (@empty binary32) ((fl binary64 (1) (0)), (fl binary64 (1) (1)))) (fun v1 => ret (fst v1))) (fun v2 => @is_empty binary64 v2)));
  (438, (bind (bind (@mul_rev_to_pair_mixed binary64 binary32 binary64 (@empty binary32) ((fl binary64 (1) (0)), (fl binary64 (1) (1)))) (fun v1 => ret (snd v1))) (fun v2 => @is_empty binary64 v2)));
  (439, (bind (bind (@mul_rev_to_pair_mixed binary32 binary64 binary64 ((fl binary64 (1) (0)), (fl binary64 (1) (1))) (@empty binary64)) (fun v1 => ret (fst v1))) (fun v2 => @is_empty binary32 v2)));
  (440, (bind (bind (@mul_rev_to_pair_mixed binary32 binary64 binary64 ((fl binary64 (1) (0)), (fl binary64 (1) (1))) (@empty binary64)) (fun v1 => ret (snd v1))) (fun v2 => @is_empty binary32 v2)));
  (442, (bind (bind (@mul_rev_to_pair_mixed binary32 binary64 binary64 ((fl binary64 (-1) (1)), (fl binary64 (-3602879701896397) (-55))) ((fl binary64 (-4728779608739021) (-51)), (fl binary64 (-3602879701896397) (-53)))) (fun v1 => ret (fst v1))) (fun v2 => ret (ieq v2 ((fl binary32 (3355443) (-24)), (fl binary32 (21) (0)))))));
  (443, (bind (bind (@mul_rev_to_pair_mixed binary32 binary64 binary64 ((fl binary64 (-1) (1)), (fl binary64 (-3602879701896397) (-55))) ((fl binary64 (-4728779608739021) (-51)), (fl binary64 (-3602879701896397) (-53)))) (fun v1 => ret (snd v1))) (fun v2 => @is_empty binary32 v2)));
  (445, (bind (bind (@mul_rev_to_pair_mixed binary32 binary64 binary64 ((fl binary64 (5764607523034235) (-59)), (fl binary64 (2476979795053773) (-51))) ((fl binary64 (-4728779608739021) (-51)), (@f0 binary64))) (fun v1 => ret (fst v1))) (fun v2 => ret (ieq v2 ((fl binary32 (-13762561) (-16)), (@f0 binary32))))));
  (446, (bind (bind (@mul_rev_to_pair_mixed binary32 binary64 binary64 ((fl binary64 (5764607523034235) (-59)), (fl binary64 (2476979795053773) (-51))) ((fl binary64 (-4728779608739021) (-51)), (@f0 binary64))) (fun v1 => ret (snd v1))) (fun v2 => @is_empty binary32 v2)));
  (448, (bind (bind (@mul_rev_to_pair_mixed binary32 binary64 binary64 ((fl binary64 (5764607523034235) (-59)), (fl binary64 (2476979795053773) (-51))) ((fl binary64 (-4728779608739021) (-51)), (fl binary64 (1080863910568919) (-53)))) (fun v1 => ret (fst v1))) (fun v2 => ret (ieq v2 ((fl binary32 (-13762561) (-16)), (fl binary32 (3) (2)))))));
  (449, (bind (bind (@mul_rev_to_pair_mixed binary32 binary64 binary64 ((fl binary64 (5764607523034235) (-59)), (fl binary64 (2476979795053773) (-51))) ((fl binary64 (-4728779608739021) (-51)), (fl binary64 (1080863910568919) (-53)))) (fun v1 => ret (snd v1))) (fun v2 => @is_empty binary32 v2)));
  (451, (bind (bind (@mul_rev_to_pair_mixed binary64 binary32 binary32 ((fl binary32 (5368709) (-29)), (@finf binary32)) ((@f0 binary32), (fl binary32 (16106127) (-27)))) (fun v1 => ret (fst v1))) (fun v2 => ret (ieq v2 ((@f0 binary64), (fl binary64 (3) (2)))))));
  (452, (bind (bind (@mul_rev_to_pair_mixed binary64 binary32 binary32 ((fl binary32 (5368709) (-29)), (@finf binary32)) ((@f0 binary32), (fl binary32 (16106127) (-27)))) (fun v1 => ret (snd v1))) (fun v2 => @is_empty binary64 v2)));
  (454, (bind (bind (@mul_rev_to_pair_mixed binary64 binary32 binary32 ((fl binary32 (-1) (1)), (fl binary32 (9227469) (-23))) ((fl binary32 (5368709) (-29)), (fl binary32 (16106127) (-27)))) (fun v1 => ret (fst v1))) (fun v2 => ret (ieq v2 ((@fminf binary64), (fl binary64 (-5368709) (-30)))))));
  (455, (bind (bind (@mul_rev_to_pair_mixed binary64 binary32 binary32 ((fl binary32 (-1) (1)), (fl binary32 (9227469) (-23))) ((fl binary32 (5368709) (-29)), (fl binary32 (16106127) (-27)))) (fun v1 => ret (snd v1))) (fun v2 => ret (ieq v2 ((fl binary64 (5240552062946107) (-59)), (@finf binary64))))));
  (458, (bind (bind (@mul_rev_to_pair_mixed binary64 binary32 binary64 ((fl binary32 (-1) (1)), (fl binary32 (9227469) (-23))) ((@fminf binary64), (fl binary64 (-3602879701896397) (-55)))) (fun v1 => ret (fst v1))) (fun v2 => ret (ieq v2 ((@fminf binary64), (fl binary64 (-6550690225101971) (-56)))))));
  (459, (bind (bind (@mul_rev_to_pair_mixed binary64 binary32 binary64 ((fl binary32 (-1) (1)), (fl binary32 (9227469) (-23))) ((@fminf binary64), (fl binary64 (-3602879701896397) (-55)))) (fun v1 => ret (snd v1))) (fun v2 => ret (ieq v2 ((fl binary64 (3602879701896397) (-56)), (@finf binary64))))));
  (462, (bind (bind (@mul_rev_to_pair_mixed binary32 binary64 binary64 ((fl binary64 (-1) (1)), (fl binary64 (2476979795053773) (-51))) ((fl binary64 (5764607523034235) (-57)), (@finf binary64))) (fun v1 => ret (fst v1))) (fun v2 => ret (ieq v2 ((@fminf binary32), (fl binary32 (-5368709) (-28)))))));
  (463, (bind (bind (@mul_rev_to_pair_mixed binary32 binary64 binary64 ((fl binary64 (-1) (1)), (fl binary64 (2476979795053773) (-51))) ((fl binary64 (5764607523034235) (-57)), (@finf binary64))) (fun v1 => ret (snd v1))) (fun v2 => ret (ieq v2 ((fl binary32 (9761289) (-28)), (@finf binary32))))));
  (466, (bind get_flags (fun v1 => ret (N.eqb v1 none_bit))));
  (468, clear_flags);
  (469, (bind (bind (@mul_rev_to_pair_mixed binary32 binary64 binary64 ((fl binary64 (1) (0)), (fl binary64 (-1) (1))) ((fl binary64 (1) (0)), (fl binary64 (1) (1)))) (fun v1 => ret (fst v1))) (fun v2 => @is_empty binary32 v2)));
  (470, (bind (bind (@mul_rev_to_pair_mixed binary32 binary64 binary64 ((fl binary64 (1) (0)), (fl binary64 (-1) (1))) ((fl binary64 (1) (0)), (fl binary64 (1) (1)))) (fun v1 => ret (snd v1))) (fun v2 => @is_empty binary32 v2)));
  (471, (bind get_flags (fun v1 => ret (N.eqb v1 invalid_operand_bit))));
  (472, clear_flags);
  (473, (set_cwd invalid_operand_bit));
  (474, (throws (@mul_rev_to_pair_mixed binary64 binary64 binary32 ((fl binary64 (1) (0)), (fl binary64 (1) (1))) ((fl binary32 (1) (0)), (fl binary32 (-1) (1)))) Invalid_operand_exception));
  (475, (bind get_flags (fun v1 => ret (N.eqb v1 invalid_operand_bit))));
  (476, clear_flags);
  (477, (set_cwd none_bit))].

(** lines 483-867 *)
Definition minimal_mul_rev_to_pair_dec_test : list (N * M bool) := [
  (485, (bind (bind (@mul_rev_to_pair_dec binary64 (@nai binary64) (((fl binary64 (1) (0)), (fl binary64 (1) (1))), def)) (fun v1 => ret (fst v1))) (fun v2 => @is_nai binary64 v2)));
  (486, (bind (bind (@mul_rev_to_pair_dec binary64 (@nai binary64) (((fl binary64 (1) (0)), (fl binary64 (1) (1))), def)) (fun v1 => ret (snd v1))) (fun v2 => @is_nai binary64 v2)));
  (487, (bind (bind (@mul_rev_to_pair_dec binary64 (((fl binary64 (1) (0)), (fl binary64 (1) (1))), com) (@nai binary64)) (fun v1 => ret (fst v1))) (fun v2 => @is_nai binary64 v2)));
  (488, (bind (bind (@mul_rev_to_pair_dec binary64 (((fl binary64 (1) (0)), (fl binary64 (1) (1))), com) (@nai binary64)) (fun v1 => ret (snd v1))) (fun v2 => @is_nai binary64 v2)));
  (489, (bind (bind (@mul_rev_to_pair_dec binary64 (@nai binary64) (@nai binary64)) (fun v1 => ret (fst v1))) (fun v2 => @is_nai binary64 v2)));
  (490, (bind (bind (@mul_rev_to_pair_dec binary64 (@nai binary64) (@nai binary64)) (fun v1 => ret (snd v1))) (fun v2 => @is_nai binary64 v2)));
  (493, (bind (bind (@mul_rev_to_pair_dec binary64 (@empty_dec binary64) (((fl binary64 (1) (0)), (fl binary64 (1) (1))), def)) (fun v1 => ret (fst v1))) (fun v2 => @is_empty_dec binary64 v2)));
  (494, (bind (bind (@mul_rev_to_pair_dec binary64 (@empty_dec binary64) (((fl binary64 (1) (0)), (fl binary64 (1) (1))), def)) (fun v1 => ret (snd v1))) (fun v2 => @is_empty_dec binary64 v2)));
  (495, (bind (bind (@mul_rev_to_pair_dec binary64 (((fl binary64 (1) (0)), (fl binary64 (1) (1))), com) (@empty_dec binary64)) (fun v1 => ret (fst v1))) (fun v2 => @is_empty_dec binary64 v2)));
  (496, (bind (bind (@mul_rev_to_pair_dec binary64 (((fl binary64 (1) (0)), (fl binary64 (1) (1))), com) (@empty_dec binary64)) (fun v1 => ret (snd v1))) (fun v2 => @is_empty_dec binary64 v2)));
  (497, (bind (bind (@mul_rev_to_pair_dec binary64 (@empty_dec binary64) (@empty_dec binary64)) (fun v1 => ret (fst v1))) (fun v2 => @is_empty_dec binary64 v2)));
  (498, (bind (bind (@mul_rev_to_pair_dec binary64 (@empty_dec binary64) (@empty_dec binary64)) (fun v1 => ret (snd v1))) (fun v2 => @is_empty_dec binary64 v2)));
  (501, (bind (bind (@mul_rev_to_pair_dec binary64 (((fl binary64 (-1) (1)), (fl binary64 (-3602879701896397) (-55))), com) (((fl binary64 (-4728779608739021) (-51)), (fl binary64 (-3602879701896397) (-53))), com)) (fun v1 => ret (fst v1))) (fun v2 => ret (dieq v2 (((fl binary64 (3602879701896397) (-54)), (fl binary64 (21) (0))), com)))));
  (502, (bind (bind (@mul_rev_to_pair_dec binary64 (((fl binary64 (-1) (1)), (fl binary64 (-3602879701896397) (-55))), com) (((fl binary64 (-4728779608739021) (-51)), (fl binary64 (-3602879701896397) (-53))), com)) (fun v1 => ret (snd v1))) (fun v2 => @is_empty_dec binary64 v2)));
  (503, (bind (bind (@mul_rev_to_pair_dec binary64 (((fl binary64 (-1) (1)), (@f0 binary64)), dac) (((fl binary64 (-4728779608739021) (-51)), (fl binary64 (-3602879701896397) (-53))), com)) (fun v1 => ret (fst v1))) (fun v2 => ret (dieq v2 (((fl binary64 (3602879701896397) (-54)), (@finf binary64)), trv)))));
  (504, (bind (bind (@mul_rev_to_pair_dec binary64 (((fl binary64 (-1) (1)), (@f0 binary64)), dac) (((fl binary64 (-4728779608739021) (-51)), (fl binary64 (-3602879701896397) (-53))), com)) (fun v1 => ret (snd v1))) (fun v2 => @is_empty_dec binary64 v2)));
  (505, (bind (bind (@mul_rev_to_pair_dec binary64 (((fl binary64 (-1) (1)), (fl binary64 (2476979795053773) (-51))), com) (((fl binary64 (-4728779608739021) (-51)), (fl binary64 (-3602879701896397) (-53))), dac)) (fun v1 => ret (fst v1))) (fun v2 => ret (dieq v2 (((@fminf binary64), (fl binary64 (-6550690367084357) (-54))), trv)))));
  (506, (bind (bind (@mul_rev_to_pair_dec binary64 (((fl binary64 (-1) (1)), (fl binary64 (2476979795053773) (-51))), com) (((fl binary64 (-4728779608739021) (-51)), (fl binary64 (-3602879701896397) (-53))), dac)) (fun v1 => ret (snd v1))) (fun v2 => ret (dieq v2 (((fl binary64 (3602879701896397) (-54)), (@finf binary64)), trv)))));
  (507, (bind (bind (@mul_rev_to_pair_dec binary64 (((@f0 binary64), (fl binary64 (2476979795053773) (-51))), trv) (((fl binary64 (-4728779608739021) (-51)), (fl binary64 (-3602879701896397) (-53))), def)) (fun v1 => ret (fst v1))) (fun v2 => ret (dieq v2 (((@fminf binary64), (fl binary64 (-6550690367084357) (-54))), trv)))));
  (508, (bind (bind (@mul_rev_to_pair_dec binary64 (((@f0 binary64), (fl binary64 (2476979795053773) (-51))), trv) (((fl binary64 (-4728779608739021) (-51)), (fl binary64 (-3602879701896397) (-53))), def)) (fun v1 => ret (snd v1))) (fun v2 => @is_empty_dec binary64 v2)));
  (509, (bind (bind (@mul_rev_to_pair_dec binary64 (((fl binary64 (5764607523034235) (-59)), (fl binary64 (2476979795053773) (-51))), com) (((fl binary64 (-4728779608739021) (-51)), (fl binary64 (-3602879701896397) (-53))), com)) (fun v1 => ret (fst v1))) (fun v2 => ret (dieq v2 (((fl binary64 (-7388718138654721) (-45)), (fl binary64 (-6550690367084357) (-54))), com)))));
  (510, (bind (bind (@mul_rev_to_pair_dec binary64 (((fl binary64 (5764607523034235) (-59)), (fl binary64 (2476979795053773) (-51))), com) (((fl binary64 (-4728779608739021) (-51)), (fl binary64 (-3602879701896397) (-53))), com)) (fun v1 => ret (snd v1))) (fun v2 => @is_empty_dec binary64 v2)));
  (511, (bind (bind (@mul_rev_to_pair_dec binary64 (((@f0 binary64), (@f0 binary64)), dac) (((fl binary64 (-4728779608739021) (-51)), (fl binary64 (-3602879701896397) (-53))), def)) (fun v1 => ret (fst v1))) (fun v2 => @is_empty_dec binary64 v2)));
  (512, (bind (bind (@mul_rev_to_pair_dec binary64 (((@f0 binary64), (@f0 binary64)), dac) (((fl binary64 (-4728779608739021) (-51)), (fl binary64 (-3602879701896397) (-53))), def)) (fun v1 => ret (snd v1))) (fun v2 => @is_empty_dec binary64 v2)));
  (513, (bind (bind (@mul_rev_to_pair_dec binary64 (((@fminf binary64), (fl binary64 (-3602879701896397) (-55))), dac) (((fl binary64 (-4728779608739021) (-51)), (fl binary64 (-3602879701896397) (-53))), dac)) (fun v1 => ret (fst v1))) (fun v2 => ret (dieq v2 (((@f0 binary64), (fl binary64 (21) (0))), dac)))));
  (514, (bind (bind (@mul_rev_to_pair_dec binary64 (((@fminf binary64), (fl binary64 (-3602879701896397) (-55))), dac) (((fl binary64 (-4728779608739021) (-51)), (fl binary64 (-3602879701896397) (-53))), dac)) (fun v1 => ret (snd v1))) (fun v2 => @is_empty_dec binary64 v2)));
  (515, (bind (bind (@mul_rev_to_pair_dec binary64 (((@fminf binary64), (@f0 binary64)), def) (((fl binary64 (-4728779608739021) (-51)), (fl binary64 (-3602879701896397) (-53))), com)) (fun v1 => ret (fst v1))) (fun v2 => ret (dieq v2 (((@f0 binary64), (@finf binary64)), trv)))));
  (516, (bind (bind (@mul_rev_to_pair_dec binary64 (((@fminf binary64), (@f0 binary64)), def) (((fl binary64 (-4728779608739021) (-51)), (fl binary64 (-3602879701896397) (-53))), com)) (fun v1 => ret (snd v1))) (fun v2 => @is_empty_dec binary64 v2)));
  (517, (bind (bind (@mul_rev_to_pair_dec binary64 (((@fminf binary64), (fl binary64 (2476979795053773) (-51))), trv) (((fl binary64 (-4728779608739021) (-51)), (fl binary64 (-3602879701896397) (-53))), def)) (fun v1 => ret (fst v1))) (fun v2 => ret (dieq v2 (((@fminf binary64), (fl binary64 (-6550690367084357) (-54))), trv)))));
  (518, (bind (bind (@mul_rev_to_pair_dec binary64 (((@fminf binary64), (fl binary64 (2476979795053773) (-51))), trv) (((fl binary64 (-4728779608739021) (-51)), (fl binary64 (-3602879701896397) (-53))), def)) (fun v1 => ret (snd v1))) (fun v2 => ret (dieq v2 (((@f0 binary64), (@finf binary64)), trv)))));
  (519, (bind (bind (@mul_rev_to_pair_dec binary64 (((fl binary64 (-1) (1)), (@finf binary64)), dac) (((fl binary64 (-4728779608739021) (-51)), (fl binary64 (-3602879701896397) (-53))), dac)) (fun v1 => ret (fst v1))) (fun v2 => ret (dieq v2 (((@fminf binary64), (@f0 binary64)), trv)))));
  (520, (bind (bind (@mul_rev_to_pair_dec binary64 (((fl binary64 (-1) (1)), (@finf binary64)), dac) (((fl binary64 (-4728779608739021) (-51)), (fl binary64 (-3602879701896397) (-53))), dac)) (fun v1 => ret (snd v1))) (fun v2 => ret (dieq v2 (((fl binary64 (3602879701896397) (-54)), (@finf binary64)), trv)))));
  (521, (bind (bind (@mul_rev_to_pair_dec binary64 (((@f0 binary64), (@finf binary64)), def) (((fl binary64 (-4728779608739021) (-51)), (fl binary64 (-3602879701896397) (-53))), com)) (fun v1 => ret (fst v1))) (fun v2 => ret (dieq v2 (((@fminf binary64), (@f0 binary64)), trv)))));
  (522, (bind (bind (@mul_rev_to_pair_dec binary64 (((@f0 binary64), (@finf binary64)), def) (((fl binary64 (-4728779608739021) (-51)), (fl binary64 (-3602879701896397) (-53))), com)) (fun v1 => ret (snd v1))) (fun v2 => @is_empty_dec binary64 v2)));
  (523, (bind (bind (@mul_rev_to_pair_dec binary64 (((fl binary64 (5764607523034235) (-59)), (@finf binary64)), def) (((fl binary64 (-4728779608739021) (-51)), (fl binary64 (-3602879701896397) (-53))), def)) (fun v1 => ret (fst v1))) (fun v2 => ret (dieq v2 (((fl binary64 (-7388718138654721) (-45)), (@f0 binary64)), def)))));
  (524, (bind (bind (@mul_rev_to_pair_dec binary64 (((fl binary64 (5764607523034235) (-59)), (@finf binary64)), def) (((fl binary64 (-4728779608739021) (-51)), (fl binary64 (-3602879701896397) (-53))), def)) (fun v1 => ret (snd v1))) (fun v2 => @is_empty_dec binary64 v2)));
  (525, (bind (bind (@mul_rev_to_pair_dec binary64 (((@fminf binary64), (@finf binary64)), dac) (((fl binary64 (-4728779608739021) (-51)), (fl binary64 (-3602879701896397) (-53))), dac)) (fun v1 => ret (fst v1))) (fun v2 => ret (dieq v2 (((@fminf binary64), (@f0 binary64)), trv)))));
  (526, (bind (bind (@mul_rev_to_pair_dec binary64 (((@fminf binary64), (@finf binary64)), dac) (((fl binary64 (-4728779608739021) (-51)), (fl binary64 (-3602879701896397) (-53))), dac)) (fun v1 => ret (snd v1))) (fun v2 => ret (dieq v2 (((@f0 binary64), (@finf binary64)), trv)))));
  (528, (bind (bind (@mul_rev_to_pair_dec binary64 (((fl binary64 (-1) (1)), (fl binary64 (-3602879701896397) (-55))), dac) (((fl binary64 (-4728779608739021) (-51)), (@f0 binary64)), com)) (fun v1 => ret (fst v1))) (fun v2 => ret (dieq v2 (((@f0 binary64), (fl binary64 (21) (0))), dac)))));
  (529, (bind (bind (@mul_rev_to_pair_dec binary64 (((fl binary64 (-1) (1)), (fl binary64 (-3602879701896397) (-55))), dac) (((fl binary64 (-4728779608739021) (-51)), (@f0 binary64)), com)) (fun v1 => ret (snd v1))) (fun v2 => @is_empty_dec binary64 v2)));
  (530, (bind (bind (@mul_rev_to_pair_dec binary64 (((fl binary64 (-1) (1)), (@f0 binary64)), dac) (((fl binary64 (-4728779608739021) (-51)), (@f0 binary64)), com)) (fun v1 => ret (fst v1))) (fun v2 => ret (dieq v2 (((@fminf binary64), (@finf binary64)), trv)))));
  (531, (bind (bind (@mul_rev_to_pair_dec binary64 (((fl binary64 (-1) (1)), (@f0 binary64)), dac) (((fl binary64 (-4728779608739021) (-51)), (@f0 binary64)), com)) (fun v1 => ret (snd v1))) (fun v2 => @is_empty_dec binary64 v2)));
  (532, (bind (bind (@mul_rev_to_pair_dec binary64 (((fl binary64 (-1) (1)), (fl binary64 (2476979795053773) (-51))), dac) (((fl binary64 (-4728779608739021) (-51)), (@f0 binary64)), com)) (fun v1 => ret (fst v1))) (fun v2 => ret (dieq v2 (((@fminf binary64), (@finf binary64)), trv)))));
  (533, (bind (bind (@mul_rev_to_pair_dec binary64 (((fl binary64 (-1) (1)), (fl binary64 (2476979795053773) (-51))), dac) (((fl binary64 (-4728779608739021) (-51)), (@f0 binary64)), com)) (fun v1 => ret (snd v1))) (fun v2 => @is_empty_dec binary64 v2)));
  (534, (bind (bind (@mul_rev_to_pair_dec binary64 (((@f0 binary64), (fl binary64 (2476979795053773) (-51))), dac) (((fl binary64 (-4728779608739021) (-51)), (@f0 binary64)), com)) (fun v1 => ret (fst v1))) (fun v2 => ret (dieq v2 (((@fminf binary64), (@finf binary64)), trv)))));
  (535, (bind (bind (@mul_rev_to_pair_dec binary64 (((@f0 binary64), (fl binary64 (2476979795053773) (-51))), dac) (((fl binary64 (-4728779608739021) (-51)), (@f0 binary64)), com)) (fun v1 => ret (snd v1))) (fun v2 => @is_empty_dec binary64 v2)));
  (536, (bind (bind (@mul_rev_to_pair_dec binary64 (((fl binary64 (5764607523034235) (-59)), (fl binary64 (2476979795053773) (-51))), dac) (((fl binary64 (-4728779608739021) (-51)), (@f0 binary64)), com)) (fun v1 => ret (fst v1))) (fun v2 => ret (dieq v2 (((fl binary64 (-7388718138654721) (-45)), (@f0 binary64)), dac)))));
  (537, (bind (bind (@mul_rev_to_pair_dec binary64 (((fl binary64 (5764607523034235) (-59)), (fl binary64 (2476979795053773) (-51))), dac) (((fl binary64 (-4728779608739021) (-51)), (@f0 binary64)), com)) (fun v1 => ret (snd v1))) (fun v2 => @is_empty_dec binary64 v2)));
  (538, (bind (bind (@mul_rev_to_pair_dec binary64 (((@f0 binary64), (@f0 binary64)), dac) (((fl binary64 (-4728779608739021) (-51)), (@f0 binary64)), com)) (fun v1 => ret (fst v1))) (fun v2 => ret (dieq v2 (((@fminf binary64), (@finf binary64)), trv)))));
  (539, (bind (bind (@mul_rev_to_pair_dec binary64 (((@f0 binary64), (@f0 binary64)), dac) (((fl binary64 (-4728779608739021) (-51)), (@f0 binary64)), com)) (fun v1 => ret (snd v1))) (fun v2 => @is_empty_dec binary64 v2)));
  (540, (bind (bind (@mul_rev_to_pair_dec binary64 (((@fminf binary64), (fl binary64 (-3602879701896397) (-55))), dac) (((fl binary64 (-4728779608739021) (-51)), (@f0 binary64)), com)) (fun v1 => ret (fst v1))) (fun v2 => ret (dieq v2 (((@f0 binary64), (fl binary64 (21) (0))), dac)))));
  (541, (bind (bind (@mul_rev_to_pair_dec binary64 (((@fminf binary64), (fl binary64 (-3602879701896397) (-55))), dac) (((fl binary64 (-4728779608739021) (-51)), (@f0 binary64)), com)) (fun v1 => ret (snd v1))) (fun v2 => @is_empty_dec binary64 v2)));
  (542, (bind (bind (@mul_rev_to_pair_dec binary64 (((@fminf binary64), (@f0 binary64)), dac) (((fl binary64 (-4728779608739021) (-51)), (@f0 binary64)), com)) (fun v1 => ret (fst v1))) (fun v2 => ret (dieq v2 (((@fminf binary64), (@finf binary64)), trv)))));
  (543, (bind (bind (@mul_rev_to_pair_dec binary64 (((@fminf binary64), (@f0 binary64)), dac) (((fl binary64 (-4728779608739021) (-51)), (@f0 binary64)), com)) (fun v1 => ret (snd v1))) (fun v2 => @is_empty_dec binary64 v2)));
  (544, (bind (bind (@mul_rev_to_pair_dec binary64 (((@fminf binary64), (fl binary64 (2476979795053773) (-51))), dac) (((fl binary64 (-4728779608739021) (-51)), (@f0 binary64)), com)) (fun v1 => ret (fst v1))) (fun v2 => ret (dieq v2 (((@fminf binary64), (@finf binary64)), trv)))));
  (545, (bind (bind (@mul_rev_to_pair_dec binary64 (((@fminf binary64), (fl binary64 (2476979795053773) (-51))), dac) (((fl binary64 (-4728779608739021) (-51)), (@f0 binary64)), com)) (fun v1 => ret (snd v1))) (fun v2 => @is_empty_dec binary64 v2)));
  (546, (bind (bind (@mul_rev_to_pair_dec binary64 (((fl binary64 (-1) (1)), (@finf binary64)), dac) (((fl binary64 (-4728779608739021) (-51)), (@f0 binary64)), com)) (fun v1 => ret (fst v1))) (fun v2 => ret (dieq v2 (((@fminf binary64), (@finf binary64)), trv)))));
  (547, (bind (bind (@mul_rev_to_pair_dec binary64 (((fl binary64 (-1) (1)), (@finf binary64)), dac) (((fl binary64 (-4728779608739021) (-51)), (@f0 binary64)), com)) (fun v1 => ret (snd v1))) (fun v2 => @is_empty_dec binary64 v2)));
  (548, (bind (bind (@mul_rev_to_pair_dec binary64 (((@f0 binary64), (@finf binary64)), dac) (((fl binary64 (-4728779608739021) (-51)), (@f0 binary64)), com)) (fun v1 => ret (fst v1))) (fun v2 => ret (dieq v2 (((@fminf binary64), (@finf binary64)), trv)))));
  (549, (bind (bind (@mul_rev_to_pair_dec binary64 (((@f0 binary64), (@finf binary64)), dac) (((fl binary64 (-4728779608739021) (-51)), (@f0 binary64)), com)) (fun v1 => ret (snd v1))) (fun v2 => @is_empty_dec binary64 v2)));
  (550, (bind (bind (@mul_rev_to_pair_dec binary64 (((fl binary64 (5764607523034235) (-59)), (@finf binary64)), dac) (((fl binary64 (-4728779608739021) (-51)), (@f0 binary64)), com)) (fun v1 => ret (fst v1))) (fun v2 => ret (dieq v2 (((fl binary64 (-7388718138654721) (-45)), (@f0 binary64)), dac)))));
  (551, (bind (bind (@mul_rev_to_pair_dec binary64 (((fl binary64 (5764607523034235) (-59)), (@finf binary64)), dac) (((fl binary64 (-4728779608739021) (-51)), (@f0 binary64)), com)) (fun v1 => ret (snd v1))) (fun v2 => @is_empty_dec binary64 v2)));
  (552, (bind (bind (@mul_rev_to_pair_dec binary64 (((@fminf binary64), (@finf binary64)), dac) (((fl binary64 (-4728779608739021) (-51)), (@f0 binary64)), com)) (fun v1 => ret (fst v1))) (fun v2 => ret (dieq v2 (((@fminf binary64), (@finf binary64)), trv)))));
  (553, (bind (bind (@mul_rev_to_pair_dec binary64 (((@fminf binary64), (@finf binary64)), dac) (((fl binary64 (-4728779608739021) (-51)), (@f0 binary64)), com)) (fun v1 => ret (snd v1))) (fun v2 => @is_empty_dec binary64 v2)));
  (555, (bind (bind (@mul_rev_to_pair_dec binary64 (((fl binary64 (-1) (1)), (fl binary64 (-3602879701896397) (-55))), def) (((fl binary64 (-4728779608739021) (-51)), (fl binary64 (1080863910568919) (-53))), dac)) (fun v1 => ret (fst v1))) (fun v2 => ret (dieq v2 (((fl binary64 (-5404319552844595) (-52)), (fl binary64 (21) (0))), def)))));
  (556, (bind (bind (@mul_rev_to_pair_dec binary64 (((fl binary64 (-1) (1)), (fl binary64 (-3602879701896397) (-55))), def) (((fl binary64 (-4728779608739021) (-51)), (fl binary64 (1080863910568919) (-53))), dac)) (fun v1 => ret (snd v1))) (fun v2 => @is_empty_dec binary64 v2)));
  (557, (bind (bind (@mul_rev_to_pair_dec binary64 (((fl binary64 (-1) (1)), (@f0 binary64)), def) (((fl binary64 (-4728779608739021) (-51)), (fl binary64 (1080863910568919) (-53))), dac)) (fun v1 => ret (fst v1))) (fun v2 => ret (dieq v2 (((@fminf binary64), (@finf binary64)), trv)))));
  (558, (bind (bind (@mul_rev_to_pair_dec binary64 (((fl binary64 (-1) (1)), (@f0 binary64)), def) (((fl binary64 (-4728779608739021) (-51)), (fl binary64 (1080863910568919) (-53))), dac)) (fun v1 => ret (snd v1))) (fun v2 => @is_empty_dec binary64 v2)));
  (559, (bind (bind (@mul_rev_to_pair_dec binary64 (((fl binary64 (-1) (1)), (fl binary64 (2476979795053773) (-51))), def) (((fl binary64 (-4728779608739021) (-51)), (fl binary64 (1080863910568919) (-53))), dac)) (fun v1 => ret (fst v1))) (fun v2 => ret (dieq v2 (((@fminf binary64), (@finf binary64)), trv)))));
  (560, (bind (bind (@mul_rev_to_pair_dec binary64 (((fl binary64 (-1) (1)), (fl binary64 (2476979795053773) (-51))), def) (((fl binary64 (-4728779608739021) (-51)), (fl binary64 (1080863910568919) (-53))), dac)) (fun v1 => ret (snd v1))) (fun v2 => @is_empty_dec binary64 v2)));
  (561, (bind (bind (@mul_rev_to_pair_dec binary64 (((@f0 binary64), (fl binary64 (2476979795053773) (-51))), def) (((fl binary64 (-4728779608739021) (-51)), (fl binary64 (1080863910568919) (-53))), dac)) (fun v1 => ret (fst v1))) (fun v2 => ret (dieq v2 (((@fminf binary64), (@finf binary64)), trv)))));
  (562, (bind (bind (@mul_rev_to_pair_dec binary64 (((@f0 binary64), (fl binary64 (2476979795053773) (-51))), def) (((fl binary64 (-4728779608739021) (-51)), (fl binary64 (1080863910568919) (-53))), dac)) (fun v1 => ret (snd v1))) (fun v2 => @is_empty_dec binary64 v2)));
  (563, (bind (bind (@mul_rev_to_pair_dec binary64 (((fl binary64 (5764607523034235) (-59)), (fl binary64 (2476979795053773) (-51))), def) (((fl binary64 (-4728779608739021) (-51)), (fl binary64 (1080863910568919) (-53))), dac)) (fun v1 => ret (fst v1))) (fun v2 => ret (dieq v2 (((fl binary64 (-7388718138654721) (-45)), (fl binary64 (3) (2))), def)))));
  (564, (bind (bind (@mul_rev_to_pair_dec binary64 (((fl binary64 (5764607523034235) (-59)), (fl binary64 (2476979795053773) (-51))), def) (((fl binary64 (-4728779608739021) (-51)), (fl binary64 (1080863910568919) (-53))), dac)) (fun v1 => ret (snd v1))) (fun v2 => @is_empty_dec binary64 v2)));
  (565, (bind (bind (@mul_rev_to_pair_dec binary64 (((@f0 binary64), (@f0 binary64)), def) (((fl binary64 (-4728779608739021) (-51)), (fl binary64 (1080863910568919) (-53))), dac)) (fun v1 => ret (fst v1))) (fun v2 => ret (dieq v2 (((@fminf binary64), (@finf binary64)), trv)))));
  (566, (bind (bind (@mul_rev_to_pair_dec binary64 (((@f0 binary64), (@f0 binary64)), def) (((fl binary64 (-4728779608739021) (-51)), (fl binary64 (1080863910568919) (-53))), dac)) (fun v1 => ret (snd v1))) (fun v2 => @is_empty_dec binary64 v2)));
  (567, (bind (bind (@mul_rev_to_pair_dec binary64 (((@fminf binary64), (fl binary64 (-3602879701896397) (-55))), def) (((fl binary64 (-4728779608739021) (-51)), (fl binary64 (1080863910568919) (-53))), dac)) (fun v1 => ret (fst v1))) (fun v2 => ret (dieq v2 (((fl binary64 (-5404319552844595) (-52)), (fl binary64 (21) (0))), def)))));
  (568, (bind (bind (@mul_rev_to_pair_dec binary64 (((@fminf binary64), (fl binary64 (-3602879701896397) (-55))), def) (((fl binary64 (-4728779608739021) (-51)), (fl binary64 (1080863910568919) (-53))), dac)) (fun v1 => ret (snd v1))) (fun v2 => @is_empty_dec binary64 v2)));
  (569, (bind (bind (@mul_rev_to_pair_dec binary64 (((@fminf binary64), (@f0 binary64)), def) (((fl binary64 (-4728779608739021) (-51)), (fl binary64 (1080863910568919) (-53))), dac)) (fun v1 => ret (fst v1))) (fun v2 => ret (dieq v2 (((@fminf binary64), (@finf binary64)), trv)))));
  (570, (bind (bind (@mul_rev_to_pair_dec binary64 (((@fminf binary64), (@f0 binary64)), def) (((fl binary64 (-4728779608739021) (-51)), (fl binary64 (1080863910568919) (-53))), dac)) (fun v1 => ret (snd v1))) (fun v2 => @is_empty_dec binary64 v2)));
  (571, (bind (bind (@mul_rev_to_pair_dec binary64 (((@fminf binary64), (fl binary64 (2476979795053773) (-51))), def) (((fl binary64 (-4728779608739021) (-51)), (fl binary64 (1080863910568919) (-53))), dac)) (fun v1 => ret (fst v1))) (fun v2 => ret (dieq v2 (((@fminf binary64), (@finf binary64)), trv)))));
  (572, (bind (bind (@mul_rev_to_pair_dec binary64 (((@fminf binary64), (fl binary64 (2476979795053773) (-51))), def) (((fl binary64 (-4728779608739021) (-51)), (fl binary64 (1080863910568919) (-53))), dac)) (fun v1 => ret (snd v1))) (fun v2 => @is_empty_dec binary64 v2)));
  (573, (bind (bind (@mul_rev_to_pair_dec binary64 (((fl binary64 (-1) (1)), (@finf binary64)), def) (((fl binary64 (-4728779608739021) (-51)), (fl binary64 (1080863910568919) (-53))), dac)) (fun v1 => ret (fst v1))) (fun v2 => ret (dieq v2 (((@fminf binary64), (@finf binary64)), trv)))));
  (574, (bind (bind (@mul_rev_to_pair_dec binary64 (((fl binary64 (-1) (1)), (@finf binary64)), def) (((fl binary64 (-4728779608739021) (-51)), (fl binary64 (1080863910568919) (-53))), dac)) (fun v1 => ret (snd v1))) (fun v2 => @is_empty_dec binary64 v2)));
  (575, (bind (bind (@mul_rev_to_pair_dec binary64 (((@f0 binary64), (@finf binary64)), def) (((fl binary64 (-4728779608739021) (-51)), (fl binary64 (1080863910568919) (-53))), dac)) (fun v1 => ret (fst v1))) (fun v2 => ret (dieq v2 (((@fminf binary64), (@finf binary64)), trv)))));
  (576, (bind (bind (@mul_rev_to_pair_dec binary64 (((@f0 binary64), (@finf binary64)), def) (((fl binary64 (-4728779608739021) (-51)), (fl binary64 (1080863910568919) (-53))), dac)) (fun v1 => ret (snd v1))) (fun v2 => @is_empty_dec binary64 v2)));
  (577, (bind (bind (@mul_rev_to_pair_dec binary64 (((fl binary64 (5764607523034235) (-59)), (@finf binary64)), def) (((fl binary64 (-4728779608739021) (-51)), (fl binary64 (1080863910568919) (-53))), dac)) (fun v1 => ret (fst v1))) (fun v2 => ret (dieq v2 (((fl binary64 (-7388718138654721) (-45)), (fl binary64 (3) (2))), def)))));
  (578, (bind (bind (@mul_rev_to_pair_dec binary64 (((fl binary64 (5764607523034235) (-59)), (@finf binary64)), def) (((fl binary64 (-4728779608739021) (-51)), (fl binary64 (1080863910568919) (-53))), dac)) (fun v1 => ret (snd v1))) (fun v2 => @is_empty_dec binary64 v2)));
  (579, (bind (bind (@mul_rev_to_pair_dec binary64 (((@fminf binary64), (@finf binary64)), def) (((fl binary64 (-4728779608739021) (-51)), (fl binary64 (1080863910568919) (-53))), dac)) (fun v1 => ret (fst v1))) (fun v2 => ret (dieq v2 (((@fminf binary64), (@finf binary64)), trv)))));
  (580, (bind (bind (@mul_rev_to_pair_dec binary64 (((@fminf binary64), (@finf binary64)), def) (((fl binary64 (-4728779608739021) (-51)), (fl binary64 (1080863910568919) (-53))), dac)) (fun v1 => ret (snd v1))) (fun v2 => @is_empty_dec binary64 v2)));
  (582, (bind (bind (@mul_rev_to_pair_dec binary64 (((fl binary64 (-1) (1)), (fl binary64 (-3602879701896397) (-55))), com) (((@f0 binary64), (fl binary64 (1080863910568919) (-53))), com)) (fun v1 => ret (fst v1))) (fun v2 => ret (dieq v2 (((fl binary64 (-5404319552844595) (-52)), (@f0 binary64)), com)))));
  (583, (bind (bind (@mul_rev_to_pair_dec binary64 (((fl binary64 (-1) (1)), (fl binary64 (-3602879701896397) (-55))), com) (((@f0 binary64), (fl binary64 (1080863910568919) (-53))), com)) (fun v1 => ret (snd v1))) (fun v2 => @is_empty_dec binary64 v2)));
  (584, (bind (bind (@mul_rev_to_pair_dec binary64 (((fl binary64 (-1) (1)), (@f0 binary64)), com) (((@f0 binary64), (fl binary64 (1080863910568919) (-53))), com)) (fun v1 => ret (fst v1))) (fun v2 => ret (dieq v2 (((@fminf binary64), (@finf binary64)), trv)))));
  (585, (bind (bind (@mul_rev_to_pair_dec binary64 (((fl binary64 (-1) (1)), (@f0 binary64)), com) (((@f0 binary64), (fl binary64 (1080863910568919) (-53))), com)) (fun v1 => ret (snd v1))) (fun v2 => @is_empty_dec binary64 v2)));
  (586, (bind (bind (@mul_rev_to_pair_dec binary64 (((fl binary64 (-1) (1)), (fl binary64 (2476979795053773) (-51))), com) (((@f0 binary64), (fl binary64 (1080863910568919) (-53))), com)) (fun v1 => ret (fst v1))) (fun v2 => ret (dieq v2 (((@fminf binary64), (@finf binary64)), trv)))));
  (587, (bind (bind (@mul_rev_to_pair_dec binary64 (((fl binary64 (-1) (1)), (fl binary64 (2476979795053773) (-51))), com) (((@f0 binary64), (fl binary64 (1080863910568919) (-53))), com)) (fun v1 => ret (snd v1))) (fun v2 => @is_empty_dec binary64 v2)));
  (588, (bind (bind (@mul_rev_to_pair_dec binary64 (((@f0 binary64), (fl binary64 (2476979795053773) (-51))), com) (((@f0 binary64), (fl binary64 (1080863910568919) (-53))), com)) (fun v1 => ret (fst v1))) (fun v2 => ret (dieq v2 (((@fminf binary64), (@finf binary64)), trv)))));
  (589, (bind (bind (@mul_rev_to_pair_dec binary64 (((@f0 binary64), (fl binary64 (2476979795053773) (-51))), com) (((@f0 binary64), (fl binary64 (1080863910568919) (-53))), com)) (fun v1 => ret (snd v1))) (fun v2 => @is_empty_dec binary64 v2)));
  (590, (bind (bind (@mul_rev_to_pair_dec binary64 (((fl binary64 (5764607523034235) (-59)), (fl binary64 (2476979795053773) (-51))), com) (((@f0 binary64), (fl binary64 (1080863910568919) (-53))), com)) (fun v1 => ret (fst v1))) (fun v2 => ret (dieq v2 (((@f0 binary64), (fl binary64 (3) (2))), com)))));
  (591, (bind (bind (@mul_rev_to_pair_dec binary64 (((fl binary64 (5764607523034235) (-59)), (fl binary64 (2476979795053773) (-51))), com) (((@f0 binary64), (fl binary64 (1080863910568919) (-53))), com)) (fun v1 => ret (snd v1))) (fun v2 => @is_empty_dec binary64 v2)));
  (592, (bind (bind (@mul_rev_to_pair_dec binary64 (((@f0 binary64), (@f0 binary64)), com) (((@f0 binary64), (fl binary64 (1080863910568919) (-53))), com)) (fun v1 => ret (fst v1))) (fun v2 => ret (dieq v2 (((@fminf binary64), (@finf binary64)), trv)))));
  (593, (bind (bind (@mul_rev_to_pair_dec binary64 (((@f0 binary64), (@f0 binary64)), com) (((@f0 binary64), (fl binary64 (1080863910568919) (-53))), com)) (fun v1 => ret (snd v1))) (fun v2 => @is_empty_dec binary64 v2)));
  (594, (bind (bind (@mul_rev_to_pair_dec binary64 (((@fminf binary64), (fl binary64 (-3602879701896397) (-55))), dac) (((@f0 binary64), (fl binary64 (1080863910568919) (-53))), com)) (fun v1 => ret (fst v1))) (fun v2 => ret (dieq v2 (((fl binary64 (-5404319552844595) (-52)), (@f0 binary64)), dac)))));
  (595, (bind (bind (@mul_rev_to_pair_dec binary64 (((@fminf binary64), (fl binary64 (-3602879701896397) (-55))), dac) (((@f0 binary64), (fl binary64 (1080863910568919) (-53))), com)) (fun v1 => ret (snd v1))) (fun v2 => @is_empty_dec binary64 v2)));
  (596, (bind (bind (@mul_rev_to_pair_dec binary64 (((@fminf binary64), (@f0 binary64)), dac) (((@f0 binary64), (fl binary64 (1080863910568919) (-53))), com)) (fun v1 => ret (fst v1))) (fun v2 => ret (dieq v2 (((@fminf binary64), (@finf binary64)), trv)))));
  (597, (bind (bind (@mul_rev_to_pair_dec binary64 (((@fminf binary64), (@f0 binary64)), dac) (((@f0 binary64), (fl binary64 (1080863910568919) (-53))), com)) (fun v1 => ret (snd v1))) (fun v2 => @is_empty_dec binary64 v2)));
  (598, (bind (bind (@mul_rev_to_pair_dec binary64 (((@fminf binary64), (fl binary64 (2476979795053773) (-51))), dac) (((@f0 binary64), (fl binary64 (1080863910568919) (-53))), com)) (fun v1 => ret (fst v1))) (fun v2 => ret (dieq v2 (((@fminf binary64), (@finf binary64)), trv)))));
  (599, (bind (bind (@mul_rev_to_pair_dec binary64 (((@fminf binary64), (fl binary64 (2476979795053773) (-51))), dac) (((@f0 binary64), (fl binary64 (1080863910568919) (-53))), com)) (fun v1 => ret (snd v1))) (fun v2 => @is_empty_dec binary64 v2)));
  (600, (bind (bind (@mul_rev_to_pair_dec binary64 (((fl binary64 (-1) (1)), (@finf binary64)), dac) (((@f0 binary64), (fl binary64 (1080863910568919) (-53))), com)) (fun v1 => ret (fst v1))) (fun v2 => ret (dieq v2 (((@fminf binary64), (@finf binary64)), trv)))));
  (601, (bind (bind (@mul_rev_to_pair_dec binary64 (((fl binary64 (-1) (1)), (@finf binary64)), dac) (((@f0 binary64), (fl binary64 (1080863910568919) (-53))), com)) (fun v1 => ret (snd v1))) (fun v2 => @is_empty_dec binary64 v2)));
  (602, (bind (bind (@mul_rev_to_pair_dec binary64 (((@f0 binary64), (@finf binary64)), dac) (((@f0 binary64), (fl binary64 (1080863910568919) (-53))), com)) (fun v1 => ret (fst v1))) (fun v2 => ret (dieq v2 (((@fminf binary64), (@finf binary64)), trv)))));
  (603, (bind (bind (@mul_rev_to_pair_dec binary64 (((@f0 binary64), (@finf binary64)), dac) (((@f0 binary64), (fl binary64 (1080863910568919) (-53))), com)) (fun v1 => ret (snd v1))) (fun v2 => @is_empty_dec binary64 v2)));
  (604, (bind (bind (@mul_rev_to_pair_dec binary64 (((fl binary64 (5764607523034235) (-59)), (@finf binary64)), dac) (((@f0 binary64), (fl binary64 (1080863910568919) (-53))), com)) (fun v1 => ret (fst v1))) (fun v2 => ret (dieq v2 (((@f0 binary64), (fl binary64 (3) (2))), dac)))));
  (605, (bind (bind (@mul_rev_to_pair_dec binary64 (((fl binary64 (5764607523034235) (-59)), (@finf binary64)), dac) (((@f0 binary64), (fl binary64 (1080863910568919) (-53))), com)) (fun v1 => ret (snd v1))) (fun v2 => @is_empty_dec binary64 v2)));
  (606, (bind (bind (@mul_rev_to_pair_dec binary64 (((@fminf binary64), (@finf binary64)), dac) (((@f0 binary64), (fl binary64 (1080863910568919) (-53))), com)) (fun v1 => ret (fst v1))) (fun v2 => ret (dieq v2 (((@fminf binary64), (@finf binary64)), trv)))));
  (607, (bind (bind (@mul_rev_to_pair_dec binary64 (((@fminf binary64), (@finf binary64)), dac) (((@f0 binary64), (fl binary64 (1080863910568919) (-53))), com)) (fun v1 => ret (snd v1))) (fun v2 => @is_empty_dec binary64 v2)));
  (609, (bind (bind (@mul_rev_to_pair_dec binary64 (((fl binary64 (-1) (1)), (fl binary64 (-3602879701896397) (-55))), dac) (((fl binary64 (5764607523034235) (-59)), (fl binary64 (1080863910568919) (-53))), dac)) (fun v1 => ret (fst v1))) (fun v2 => ret (dieq v2 (((fl binary64 (-5404319552844595) (-52)), (fl binary64 (-5764607523034235) (-60))), dac)))));
  (610, (bind (bind (@mul_rev_to_pair_dec binary64 (((fl binary64 (-1) (1)), (fl binary64 (-3602879701896397) (-55))), dac) (((fl binary64 (5764607523034235) (-59)), (fl binary64 (1080863910568919) (-53))), dac)) (fun v1 => ret (snd v1))) (fun v2 => @is_empty_dec binary64 v2)));
  (611, (bind (bind (@mul_rev_to_pair_dec binary64 (((fl binary64 (-1) (1)), (@f0 binary64)), dac) (((fl binary64 (5764607523034235) (-59)), (fl binary64 (1080863910568919) (-53))), dac)) (fun v1 => ret (fst v1))) (fun v2 => ret (dieq v2 (((@fminf binary64), (fl binary64 (-5764607523034235) (-60))), trv)))));
  (612, (bind (bind (@mul_rev_to_pair_dec binary64 (((fl binary64 (-1) (1)), (@f0 binary64)), dac) (((fl binary64 (5764607523034235) (-59)), (fl binary64 (1080863910568919) (-53))), dac)) (fun v1 => ret (snd v1))) (fun v2 => @is_empty_dec binary64 v2)));
  (613, (bind (bind (@mul_rev_to_pair_dec binary64 (((fl binary64 (-1) (1)), (fl binary64 (2476979795053773) (-51))), dac) (((fl binary64 (5764607523034235) (-59)), (fl binary64 (1080863910568919) (-53))), dac)) (fun v1 => ret (fst v1))) (fun v2 => ret (dieq v2 (((@fminf binary64), (fl binary64 (-5764607523034235) (-60))), trv)))));
  (614, (bind (bind (@mul_rev_to_pair_dec binary64 (((fl binary64 (-1) (1)), (fl binary64 (2476979795053773) (-51))), dac) (((fl binary64 (5764607523034235) (-59)), (fl binary64 (1080863910568919) (-53))), dac)) (fun v1 => ret (snd v1))) (fun v2 => ret (dieq v2 (((fl binary64 (5240552293667485) (-59)), (@finf binary64)), trv)))));
  (615, (bind (bind (@mul_rev_to_pair_dec binary64 (((@f0 binary64), (fl binary64 (2476979795053773) (-51))), dac) (((fl binary64 (5764607523034235) (-59)), (fl binary64 (1080863910568919) (-53))), dac)) (fun v1 => ret (fst v1))) (fun v2 => ret (dieq v2 (((fl binary64 (5240552293667485) (-59)), (@finf binary64)), trv)))));
  (616, (bind (bind (@mul_rev_to_pair_dec binary64 (((@f0 binary64), (fl binary64 (2476979795053773) (-51))), dac) (((fl binary64 (5764607523034235) (-59)), (fl binary64 (1080863910568919) (-53))), dac)) (fun v1 => ret (snd v1))) (fun v2 => @is_empty_dec binary64 v2)));
  (617, (bind (bind (@mul_rev_to_pair_dec binary64 (((fl binary64 (5764607523034235) (-59)), (fl binary64 (2476979795053773) (-51))), dac) (((fl binary64 (5764607523034235) (-59)), (fl binary64 (1080863910568919) (-53))), dac)) (fun v1 => ret (fst v1))) (fun v2 => ret (dieq v2 (((fl binary64 (5240552293667485) (-59)), (fl binary64 (3) (2))), dac)))));
  (618, (bind (bind (@mul_rev_to_pair_dec binary64 (((fl binary64 (5764607523034235) (-59)), (fl binary64 (2476979795053773) (-51))), dac) (((fl binary64 (5764607523034235) (-59)), (fl binary64 (1080863910568919) (-53))), dac)) (fun v1 => ret (snd v1))) (fun v2 => @is_empty_dec binary64 v2)));
  (619, (bind (bind (@mul_rev_to_pair_dec binary64 (((@f0 binary64), (@f0 binary64)), dac) (((fl binary64 (5764607523034235) (-59)), (fl binary64 (1080863910568919) (-53))), dac)) (fun v1 => ret (fst v1))) (fun v2 => @is_empty_dec binary64 v2)));
  (620, (bind (bind (@mul_rev_to_pair_dec binary64 (((@f0 binary64), (@f0 binary64)), dac) (((fl binary64 (5764607523034235) (-59)), (fl binary64 (1080863910568919) (-53))), dac)) (fun v1 => ret (snd v1))) (fun v2 => @is_empty_dec binary64 v2)));
  (621, (bind (bind (@mul_rev_to_pair_dec binary64 (((@fminf binary64), (fl binary64 (-3602879701896397) (-55))), dac) (((fl binary64 (5764607523034235) (-59)), (fl binary64 (1080863910568919) (-53))), dac)) (fun v1 => ret (fst v1))) (fun v2 => ret (dieq v2 (((fl binary64 (-5404319552844595) (-52)), (@f0 binary64)), dac)))));
  (622, (bind (bind (@mul_rev_to_pair_dec binary64 (((@fminf binary64), (fl binary64 (-3602879701896397) (-55))), dac) (((fl binary64 (5764607523034235) (-59)), (fl binary64 (1080863910568919) (-53))), dac)) (fun v1 => ret (snd v1))) (fun v2 => @is_empty_dec binary64 v2)));
  (623, (bind (bind (@mul_rev_to_pair_dec binary64 (((@fminf binary64), (@f0 binary64)), dac) (((fl binary64 (5764607523034235) (-59)), (fl binary64 (1080863910568919) (-53))), dac)) (fun v1 => ret (fst v1))) (fun v2 => ret (dieq v2 (((@fminf binary64), (@f0 binary64)), trv)))));
  (624, (bind (bind (@mul_rev_to_pair_dec binary64 (((@fminf binary64), (@f0 binary64)), dac) (((fl binary64 (5764607523034235) (-59)), (fl binary64 (1080863910568919) (-53))), dac)) (fun v1 => ret (snd v1))) (fun v2 => @is_empty_dec binary64 v2)));
  (625, (bind (bind (@mul_rev_to_pair_dec binary64 (((@fminf binary64), (fl binary64 (2476979795053773) (-51))), dac) (((fl binary64 (5764607523034235) (-59)), (fl binary64 (1080863910568919) (-53))), dac)) (fun v1 => ret (fst v1))) (fun v2 => ret (dieq v2 (((@fminf binary64), (@f0 binary64)), trv)))));
  (626, (bind (bind (@mul_rev_to_pair_dec binary64 (((@fminf binary64), (fl binary64 (2476979795053773) (-51))), dac) (((fl binary64 (5764607523034235) (-59)), (fl binary64 (1080863910568919) (-53))), dac)) (fun v1 => ret (snd v1))) (fun v2 => ret (dieq v2 (((fl binary64 (5240552293667485) (-59)), (@finf binary64)), trv)))));
  (627, (bind (bind (@mul_rev_to_pair_dec binary64 (((fl binary64 (-1) (1)), (@finf binary64)), dac) (((fl binary64 (5764607523034235) (-59)), (fl binary64 (1080863910568919) (-53))), dac)) (fun v1 => ret (fst v1))) (fun v2 => ret (dieq v2 (((@fminf binary64), (fl binary64 (-5764607523034235) (-60))), trv)))));
  (628, (bind (bind (@mul_rev_to_pair_dec binary64 (((fl binary64 (-1) (1)), (@finf binary64)), dac) (((fl binary64 (5764607523034235) (-59)), (fl binary64 (1080863910568919) (-53))), dac)) (fun v1 => ret (snd v1))) (fun v2 => ret (dieq v2 (((@f0 binary64), (@finf binary64)), trv)))));
  (629, (bind (bind (@mul_rev_to_pair_dec binary64 (((@f0 binary64), (@finf binary64)), dac) (((fl binary64 (5764607523034235) (-59)), (fl binary64 (1080863910568919) (-53))), dac)) (fun v1 => ret (fst v1))) (fun v2 => ret (dieq v2 (((@f0 binary64), (@finf binary64)), trv)))));
  (630, (bind (bind (@mul_rev_to_pair_dec binary64 (((@f0 binary64), (@finf binary64)), dac) (((fl binary64 (5764607523034235) (-59)), (fl binary64 (1080863910568919) (-53))), dac)) (fun v1 => ret (snd v1))) (fun v2 => @is_empty_dec binary64 v2)));
  (631, (bind (bind (@mul_rev_to_pair_dec binary64 (((fl binary64 (5764607523034235) (-59)), (@finf binary64)), dac) (((fl binary64 (5764607523034235) (-59)), (fl binary64 (1080863910568919) (-53))), dac)) (fun v1 => ret (fst v1))) (fun v2 => ret (dieq v2 (((@f0 binary64), (fl binary64 (3) (2))), dac)))));
  (632, (bind (bind (@mul_rev_to_pair_dec binary64 (((fl binary64 (5764607523034235) (-59)), (@finf binary64)), dac) (((fl binary64 (5764607523034235) (-59)), (fl binary64 (1080863910568919) (-53))), dac)) (fun v1 => ret (snd v1))) (fun v2 => @is_empty_dec binary64 v2)));
  (633, (bind (bind (@mul_rev_to_pair_dec binary64 (((@fminf binary64), (@finf binary64)), dac) (((fl binary64 (5764607523034235) (-59)), (fl binary64 (1080863910568919) (-53))), dac)) (fun v1 => ret (fst v1))) (fun v2 => ret (dieq v2 (((@fminf binary64), (@f0 binary64)), trv)))));
  (634, (bind (bind (@mul_rev_to_pair_dec binary64 (((@fminf binary64), (@finf binary64)), dac) (((fl binary64 (5764607523034235) (-59)), (fl binary64 (1080863910568919) (-53))), dac)) (fun v1 => ret (snd v1))) (fun v2 => ret (dieq v2 (((@f0 binary64), (@finf binary64)), trv)))));
  (636, (bind (bind (@mul_rev_to_pair_dec binary64 (((fl binary64 (-1) (1)), (fl binary64 (-3602879701896397) (-55))), com) (((@f0 binary64), (@f0 binary64)), com)) (fun v1 => ret (fst v1))) (fun v2 => ret (dieq v2 (((@f0 binary64), (@f0 binary64)), com)))));
  (637, (bind (bind (@mul_rev_to_pair_dec binary64 (((fl binary64 (-1) (1)), (fl binary64 (-3602879701896397) (-55))), com) (((@f0 binary64), (@f0 binary64)), com)) (fun v1 => ret (snd v1))) (fun v2 => @is_empty_dec binary64 v2)));
  (638, (bind (bind (@mul_rev_to_pair_dec binary64 (((fl binary64 (-1) (1)), (@f0 binary64)), com) (((@f0 binary64), (@f0 binary64)), com)) (fun v1 => ret (fst v1))) (fun v2 => ret (dieq v2 (((@fminf binary64), (@finf binary64)), trv)))));
  (639, (bind (bind (@mul_rev_to_pair_dec binary64 (((fl binary64 (-1) (1)), (@f0 binary64)), com) (((@f0 binary64), (@f0 binary64)), com)) (fun v1 => ret (snd v1))) (fun v2 => @is_empty_dec binary64 v2)));
  (640, (bind (bind (@mul_rev_to_pair_dec binary64 (((fl binary64 (-1) (1)), (fl binary64 (2476979795053773) (-51))), com) (((@f0 binary64), (@f0 binary64)), com)) (fun v1 => ret (fst v1))) (fun v2 => ret (dieq v2 (((@fminf binary64), (@finf binary64)), trv)))));
  (641, (bind (bind (@mul_rev_to_pair_dec binary64 (((fl binary64 (-1) (1)), (fl binary64 (2476979795053773) (-51))), com) (((@f0 binary64), (@f0 binary64)), com)) (fun v1 => ret (snd v1))) (fun v2 => @is_empty_dec binary64 v2)));
  (642, (bind (bind (@mul_rev_to_pair_dec binary64 (((@f0 binary64), (fl binary64 (2476979795053773) (-51))), com) (((@f0 binary64), (@f0 binary64)), com)) (fun v1 => ret (fst v1))) (fun v2 => ret (dieq v2 (((@fminf binary64), (@finf binary64)), trv)))));
  (643, (bind (bind (@mul_rev_to_pair_dec binary64 (((@f0 binary64), (fl binary64 (2476979795053773) (-51))), com) (((@f0 binary64), (@f0 binary64)), com)) (fun v1 => ret (snd v1))) (fun v2 => @is_empty_dec binary64 v2)));
  (644, (bind (bind (@mul_rev_to_pair_dec binary64 (((fl binary64 (5764607523034235) (-59)), (fl binary64 (2476979795053773) (-51))), com) (((@f0 binary64), (@f0 binary64)), com)) (fun v1 => ret (fst v1))) (fun v2 => ret (dieq v2 (((@f0 binary64), (@f0 binary64)), com)))));
  (645, (bind (bind (@mul_rev_to_pair_dec binary64 (((fl binary64 (5764607523034235) (-59)), (fl binary64 (2476979795053773) (-51))), com) (((@f0 binary64), (@f0 binary64)), com)) (fun v1 => ret (snd v1))) (fun v2 => @is_empty_dec binary64 v2)));
  (646, (bind (bind (@mul_rev_to_pair_dec binary64 (((@f0 binary64), (@f0 binary64)), com) (((@f0 binary64), (@f0 binary64)), com)) (fun v1 => ret (fst v1))) (fun v2 => ret (dieq v2 (((@fminf binary64), (@finf binary64)), trv)))));
  (647, (bind (bind (@mul_rev_to_pair_dec binary64 (((@f0 binary64), (@f0 binary64)), com) (((@f0 binary64), (@f0 binary64)), com)) (fun v1 => ret (snd v1))) (fun v2 => @is_empty_dec binary64 v2)));
  (648, (bind (bind (@mul_rev_to_pair_dec binary64 (((@fminf binary64), (fl binary64 (-3602879701896397) (-55))), dac) (((@f0 binary64), (@f0 binary64)), com)) (fun v1 => ret (fst v1))) (fun v2 => ret (dieq v2 (((@f0 binary64), (@f0 binary64)), dac)))));
  (649, (bind (bind (@mul_rev_to_pair_dec binary64 (((@fminf binary64), (fl binary64 (-3602879701896397) (-55))), dac) (((@f0 binary64), (@f0 binary64)), com)) (fun v1 => ret (snd v1))) (fun v2 => @is_empty_dec binary64 v2)));
  (650, (bind (bind (@mul_rev_to_pair_dec binary64 (((@fminf binary64), (@f0 binary64)), dac) (((@f0 binary64), (@f0 binary64)), com)) (fun v1 => ret (fst v1))) (fun v2 => ret (dieq v2 (((@fminf binary64), (@finf binary64)), trv)))));
  (651, (bind (bind (@mul_rev_to_pair_dec binary64 (((@fminf binary64), (@f0 binary64)), dac) (((@f0 binary64), (@f0 binary64)), com)) (fun v1 => ret (snd v1))) (fun v2 => @is_empty_dec binary64 v2)));
  (652, (bind (bind (@mul_rev_to_pair_dec binary64 (((@fminf binary64), (fl binary64 (2476979795053773) (-51))), dac) (((@f0 binary64), (@f0 binary64)), com)) (fun v1 => ret (fst v1))) (fun v2 => ret (dieq v2 (((@fminf binary64), (@finf binary64)), trv)))));
  (653, (bind (bind (@mul_rev_to_pair_dec binary64 (((@fminf binary64), (fl binary64 (2476979795053773) (-51))), dac) (((@f0 binary64), (@f0 binary64)), com)) (fun v1 => ret (snd v1))) (fun v2 => @is_empty_dec binary64 v2)));
  (654, (bind (bind (@mul_rev_to_pair_dec binary64 (((fl binary64 (-1) (1)), (@finf binary64)), dac) (((@f0 binary64), (@f0 binary64)), com)) (fun v1 => ret (fst v1))) (fun v2 => ret (dieq v2 (((@fminf binary64), (@finf binary64)), trv)))));
  (655, (bind (bind (@mul_rev_to_pair_dec binary64 (((fl binary64 (-1) (1)), (@finf binary64)), dac) (((@f0 binary64), (@f0 binary64)), com)) (fun v1 => ret (snd v1))) (fun v2 => @is_empty_dec binary64 v2)));
  (656, (bind (bind (@mul_rev_to_pair_dec binary64 (((@f0 binary64), (@finf binary64)), dac) (((@f0 binary64), (@f0 binary64)), com)) (fun v1 => ret (fst v1))) (fun v2 => ret (dieq v2 (((@fminf binary64), (@finf binary64)), trv)))));
  (657, (bind (bind (@mul_rev_to_pair_dec binary64 (((@f0 binary64), (@finf binary64)), dac) (((@f0 binary64), (@f0 binary64)), com)) (fun v1 => ret (snd v1))) (fun v2 => @is_empty_dec binary64 v2)));
  (658, (bind (bind (@mul_rev_to_pair_dec binary64 (((fl binary64 (5764607523034235) (-59)), (@finf binary64)), dac) (((@f0 binary64), (@f0 binary64)), com)) (fun v1 => ret (fst v1))) (fun v2 => ret (dieq v2 (((@f0 binary64), (@f0 binary64)), dac)))));
  (659, (bind (bind (@mul_rev_to_pair_dec binary64 (((fl binary64 (5764607523034235) (-59)), (@finf binary64)), dac) (((@f0 binary64), (@f0 binary64)), com)) (fun v1 => ret (snd v1))) (fun v2 => @is_empty_dec binary64 v2)));
  (660, (bind (bind (@mul_rev_to_pair_dec binary64 (((@fminf binary64), (@finf binary64)), dac) (((@f0 binary64), (@f0 binary64)), com)) (fun v1 => ret (fst v1))) (fun v2 => ret (dieq v2 (((@fminf binary64), (@finf binary64)), trv)))));
  (661, (bind (bind (@mul_rev_to_pair_dec binary64 (((@fminf binary64), (@finf binary64)), dac) (((@f0 binary64), (@f0 binary64)), com)) (fun v1 => ret (snd v1))) (fun v2 => @is_empty_dec binary64 v2)));
  (665, (bind (bind (@mul_rev_to_pair_dec binary64 (((fl binary64 (-1) (1)), (fl binary64 (-3602879701896397) (-55))), dac) (((@fminf binary64), (fl binary64 (-3602879701896397) (-55))), dac)) (fun v1 => ret (fst v1))) (fun v2 => ret (dieq v2 (((fl binary64 (3602879701896397) (-56)), (@finf binary64)), dac)))));
  (666, (bind (bind (@mul_rev_to_pair_dec binary64 (((fl binary64 (-1) (1)), (fl binary64 (-3602879701896397) (-55))), dac) (((@fminf binary64), (fl binary64 (-3602879701896397) (-55))), dac)) (fun v1 => ret (snd v1))) (fun v2 => @is_empty_dec binary64 v2)));
  (667, (bind (bind (@mul_rev_to_pair_dec binary64 (((fl binary64 (-1) (1)), (@f0 binary64)), dac) (((@fminf binary64), (fl binary64 (-3602879701896397) (-55))), dac)) (fun v1 => ret (fst v1))) (fun v2 => ret (dieq v2 (((fl binary64 (3602879701896397) (-56)), (@finf binary64)), trv)))));
  (668, (bind (bind (@mul_rev_to_pair_dec binary64 (((fl binary64 (-1) (1)), (@f0 binary64)), dac) (((@fminf binary64), (fl binary64 (-3602879701896397) (-55))), dac)) (fun v1 => ret (snd v1))) (fun v2 => @is_empty_dec binary64 v2)));
  (669, (bind (bind (@mul_rev_to_pair_dec binary64 (((fl binary64 (-1) (1)), (fl binary64 (2476979795053773) (-51))), dac) (((@fminf binary64), (fl binary64 (-3602879701896397) (-55))), dac)) (fun v1 => ret (fst v1))) (fun v2 => ret (dieq v2 (((@fminf binary64), (fl binary64 (-6550690367084357) (-56))), trv)))));
  (670, (bind (bind (@mul_rev_to_pair_dec binary64 (((fl binary64 (-1) (1)), (fl binary64 (2476979795053773) (-51))), dac) (((@fminf binary64), (fl binary64 (-3602879701896397) (-55))), dac)) (fun v1 => ret (snd v1))) (fun v2 => ret (dieq v2 (((fl binary64 (3602879701896397) (-56)), (@finf binary64)), trv)))));
  (671, (bind (bind (@mul_rev_to_pair_dec binary64 (((@f0 binary64), (fl binary64 (2476979795053773) (-51))), dac) (((@fminf binary64), (fl binary64 (-3602879701896397) (-55))), dac)) (fun v1 => ret (fst v1))) (fun v2 => ret (dieq v2 (((@fminf binary64), (fl binary64 (-6550690367084357) (-56))), trv)))));
  (672, (bind (bind (@mul_rev_to_pair_dec binary64 (((@f0 binary64), (fl binary64 (2476979795053773) (-51))), dac) (((@fminf binary64), (fl binary64 (-3602879701896397) (-55))), dac)) (fun v1 => ret (snd v1))) (fun v2 => @is_empty_dec binary64 v2)));
  (673, (bind (bind (@mul_rev_to_pair_dec binary64 (((fl binary64 (5764607523034235) (-59)), (fl binary64 (2476979795053773) (-51))), dac) (((@fminf binary64), (fl binary64 (-3602879701896397) (-55))), dac)) (fun v1 => ret (fst v1))) (fun v2 => ret (dieq v2 (((@fminf binary64), (fl binary64 (-6550690367084357) (-56))), dac)))));
  (674, (bind (bind (@mul_rev_to_pair_dec binary64 (((fl binary64 (5764607523034235) (-59)), (fl binary64 (2476979795053773) (-51))), dac) (((@fminf binary64), (fl binary64 (-3602879701896397) (-55))), dac)) (fun v1 => ret (snd v1))) (fun v2 => @is_empty_dec binary64 v2)));
  (675, (bind (bind (@mul_rev_to_pair_dec binary64 (((@f0 binary64), (@f0 binary64)), dac) (((@fminf binary64), (fl binary64 (-3602879701896397) (-55))), dac)) (fun v1 => ret (fst v1))) (fun v2 => @is_empty_dec binary64 v2)));
  (676, (bind (bind (@mul_rev_to_pair_dec binary64 (((@f0 binary64), (@f0 binary64)), dac) (((@fminf binary64), (fl binary64 (-3602879701896397) (-55))), dac)) (fun v1 => ret (snd v1))) (fun v2 => @is_empty_dec binary64 v2)));
  (677, (bind (bind (@mul_rev_to_pair_dec binary64 (((@fminf binary64), (fl binary64 (-3602879701896397) (-55))), dac) (((@fminf binary64), (fl binary64 (-3602879701896397) (-55))), dac)) (fun v1 => ret (fst v1))) (fun v2 => ret (dieq v2 (((@f0 binary64), (@finf binary64)), dac)))));
  (678, (bind (bind (@mul_rev_to_pair_dec binary64 (((@fminf binary64), (fl binary64 (-3602879701896397) (-55))), dac) (((@fminf binary64), (fl binary64 (-3602879701896397) (-55))), dac)) (fun v1 => ret (snd v1))) (fun v2 => @is_empty_dec binary64 v2)));
  (679, (bind (bind (@mul_rev_to_pair_dec binary64 (((@fminf binary64), (@f0 binary64)), dac) (((@fminf binary64), (fl binary64 (-3602879701896397) (-55))), dac)) (fun v1 => ret (fst v1))) (fun v2 => ret (dieq v2 (((@f0 binary64), (@finf binary64)), trv)))));
  (680, (bind (bind (@mul_rev_to_pair_dec binary64 (((@fminf binary64), (@f0 binary64)), dac) (((@fminf binary64), (fl binary64 (-3602879701896397) (-55))), dac)) (fun v1 => ret (snd v1))) (fun v2 => @is_empty_dec binary64 v2)));
  (681, (bind (bind (@mul_rev_to_pair_dec binary64 (((@fminf binary64), (fl binary64 (2476979795053773) (-51))), dac) (((@fminf binary64), (fl binary64 (-3602879701896397) (-55))), dac)) (fun v1 => ret (fst v1))) (fun v2 => ret (dieq v2 (((@fminf binary64), (fl binary64 (-6550690367084357) (-56))), trv)))));
  (682, (bind (bind (@mul_rev_to_pair_dec binary64 (((@fminf binary64), (fl binary64 (2476979795053773) (-51))), dac) (((@fminf binary64), (fl binary64 (-3602879701896397) (-55))), dac)) (fun v1 => ret (snd v1))) (fun v2 => ret (dieq v2 (((@f0 binary64), (@finf binary64)), trv)))));
  (683, (bind (bind (@mul_rev_to_pair_dec binary64 (((fl binary64 (-1) (1)), (@finf binary64)), dac) (((@fminf binary64), (fl binary64 (-3602879701896397) (-55))), dac)) (fun v1 => ret (fst v1))) (fun v2 => ret (dieq v2 (((@fminf binary64), (@f0 binary64)), trv)))));
  (684, (bind (bind (@mul_rev_to_pair_dec binary64 (((fl binary64 (-1) (1)), (@finf binary64)), dac) (((@fminf binary64), (fl binary64 (-3602879701896397) (-55))), dac)) (fun v1 => ret (snd v1))) (fun v2 => ret (dieq v2 (((fl binary64 (3602879701896397) (-56)), (@finf binary64)), trv)))));
  (685, (bind (bind (@mul_rev_to_pair_dec binary64 (((@f0 binary64), (@finf binary64)), dac) (((@fminf binary64), (fl binary64 (-3602879701896397) (-55))), dac)) (fun v1 => ret (fst v1))) (fun v2 => ret (dieq v2 (((@fminf binary64), (@f0 binary64)), trv)))));
  (686, (bind (bind (@mul_rev_to_pair_dec binary64 (((@f0 binary64), (@finf binary64)), dac) (((@fminf binary64), (fl binary64 (-3602879701896397) (-55))), dac)) (fun v1 => ret (snd v1))) (fun v2 => @is_empty_dec binary64 v2)));
  (687, (bind (bind (@mul_rev_to_pair_dec binary64 (((fl binary64 (5764607523034235) (-59)), (@finf binary64)), dac) (((@fminf binary64), (fl binary64 (-3602879701896397) (-55))), dac)) (fun v1 => ret (fst v1))) (fun v2 => ret (dieq v2 (((@fminf binary64), (@f0 binary64)), dac)))));
  (688, (bind (bind (@mul_rev_to_pair_dec binary64 (((fl binary64 (5764607523034235) (-59)), (@finf binary64)), dac) (((@fminf binary64), (fl binary64 (-3602879701896397) (-55))), dac)) (fun v1 => ret (snd v1))) (fun v2 => @is_empty_dec binary64 v2)));
  (689, (bind (bind (@mul_rev_to_pair_dec binary64 (((@fminf binary64), (@finf binary64)), dac) (((@fminf binary64), (fl binary64 (-3602879701896397) (-55))), dac)) (fun v1 => ret (fst v1))) (fun v2 => ret (dieq v2 (((@fminf binary64), (@f0 binary64)), trv)))));
  (690, (bind (bind (@mul_rev_to_pair_dec binary64 (((@fminf binary64), (@finf binary64)), dac) (((@fminf binary64), (fl binary64 (-3602879701896397) (-55))), dac)) (fun v1 => ret (snd v1))) (fun v2 => ret (dieq v2 (((@f0 binary64), (@finf binary64)), trv)))));
  (692, (bind (bind (@mul_rev_to_pair_dec binary64 (((fl binary64 (-1) (1)), (fl binary64 (-3602879701896397) (-55))), dac) (((@fminf binary64), (@f0 binary64)), dac)) (fun v1 => ret (fst v1))) (fun v2 => ret (dieq v2 (((@f0 binary64), (@finf binary64)), dac)))));
  (693, (bind (bind (@mul_rev_to_pair_dec binary64 (((fl binary64 (-1) (1)), (fl binary64 (-3602879701896397) (-55))), dac) (((@fminf binary64), (@f0 binary64)), dac)) (fun v1 => ret (snd v1))) (fun v2 => @is_empty_dec binary64 v2)));
  (694, (bind (bind (@mul_rev_to_pair_dec binary64 (((fl binary64 (-1) (1)), (@f0 binary64)), dac) (((@fminf binary64), (@f0 binary64)), dac)) (fun v1 => ret (fst v1))) (fun v2 => ret (dieq v2 (((@fminf binary64), (@finf binary64)), trv)))));
  (695, (bind (bind (@mul_rev_to_pair_dec binary64 (((fl binary64 (-1) (1)), (@f0 binary64)), dac) (((@fminf binary64), (@f0 binary64)), dac)) (fun v1 => ret (snd v1))) (fun v2 => @is_empty_dec binary64 v2)));
  (696, (bind (bind (@mul_rev_to_pair_dec binary64 (((fl binary64 (-1) (1)), (fl binary64 (2476979795053773) (-51))), dac) (((@fminf binary64), (@f0 binary64)), dac)) (fun v1 => ret (fst v1))) (fun v2 => ret (dieq v2 (((@fminf binary64), (@finf binary64)), trv)))));
  (697, (bind (bind (@mul_rev_to_pair_dec binary64 (((fl binary64 (-1) (1)), (fl binary64 (2476979795053773) (-51))), dac) (((@fminf binary64), (@f0 binary64)), dac)) (fun v1 => ret (snd v1))) (fun v2 => @is_empty_dec binary64 v2)));
  (698, (bind (bind (@mul_rev_to_pair_dec binary64 (((@f0 binary64), (fl binary64 (2476979795053773) (-51))), dac) (((@fminf binary64), (@f0 binary64)), dac)) (fun v1 => ret (fst v1))) (fun v2 => ret (dieq v2 (((@fminf binary64), (@finf binary64)), trv)))));
  (699, (bind (bind (@mul_rev_to_pair_dec binary64 (((@f0 binary64), (fl binary64 (2476979795053773) (-51))), dac) (((@fminf binary64), (@f0 binary64)), dac)) (fun v1 => ret (snd v1))) (fun v2 => @is_empty_dec binary64 v2)));
  (700, (bind (bind (@mul_rev_to_pair_dec binary64 (((fl binary64 (5764607523034235) (-59)), (fl binary64 (2476979795053773) (-51))), dac) (((@fminf binary64), (@f0 binary64)), dac)) (fun v1 => ret (fst v1))) (fun v2 => ret (dieq v2 (((@fminf binary64), (@f0 binary64)), dac)))));
  (701, (bind (bind (@mul_rev_to_pair_dec binary64 (((fl binary64 (5764607523034235) (-59)), (fl binary64 (2476979795053773) (-51))), dac) (((@fminf binary64), (@f0 binary64)), dac)) (fun v1 => ret (snd v1))) (fun v2 => @is_empty_dec binary64 v2)));
  (702, (bind (bind (@mul_rev_to_pair_dec binary64 (((@f0 binary64), (@f0 binary64)), dac) (((@fminf binary64), (@f0 binary64)), dac)) (fun v1 => ret (fst v1))) (fun v2 => ret (dieq v2 (((@fminf binary64), (@finf binary64)), trv)))));
  (703, (bind (bind (@mul_rev_to_pair_dec binary64 (((@f0 binary64), (@f0 binary64)), dac) (((@fminf binary64), (@f0 binary64)), dac)) (fun v1 => ret (snd v1))) (fun v2 => @is_empty_dec binary64 v2)));
  (704, (bind (bind (@mul_rev_to_pair_dec binary64 (((@fminf binary64), (fl binary64 (-3602879701896397) (-55))), dac) (((@fminf binary64), (@f0 binary64)), dac)) (fun v1 => ret (fst v1))) (fun v2 => ret (dieq v2 (((@f0 binary64), (@finf binary64)), dac)))));
  (705, (bind (bind (@mul_rev_to_pair_dec binary64 (((@fminf binary64), (fl binary64 (-3602879701896397) (-55))), dac) (((@fminf binary64), (@f0 binary64)), dac)) (fun v1 => ret (snd v1))) (fun v2 => @is_empty_dec binary64 v2)));
  (706, (bind (bind (@mul_rev_to_pair_dec binary64 (((@fminf binary64), (@f0 binary64)), dac) (((@fminf binary64), (@f0 binary64)), dac)) (fun v1 => ret (fst v1))) (fun v2 => ret (dieq v2 (((@fminf binary64), (@finf binary64)), trv)))));
  (707, (bind (bind (@mul_rev_to_pair_dec binary64 (((@fminf binary64), (@f0 binary64)), dac) (((@fminf binary64), (@f0 binary64)), dac)) (fun v1 => ret (snd v1))) (fun v2 => @is_empty_dec binary64 v2)));
  (708, (bind (bind (@mul_rev_to_pair_dec binary64 (((@fminf binary64), (fl binary64 (2476979795053773) (-51))), dac) (((@fminf binary64), (@f0 binary64)), dac)) (fun v1 => ret (fst v1))) (fun v2 => ret (dieq v2 (((@fminf binary64), (@finf binary64)), trv)))));
  (709, (bind (bind (@mul_rev_to_pair_dec binary64 (((@fminf binary64), (fl binary64 (2476979795053773) (-51))), dac) (((@fminf binary64), (@f0 binary64)), dac)) (fun v1 => ret (snd v1))) (fun v2 => @is_empty_dec binary64 v2)));
  (710, (bind (bind (@mul_rev_to_pair_dec binary64 (((fl binary64 (-1) (1)), (@finf binary64)), dac) (((@fminf binary64), (@f0 binary64)), dac)) (fun v1 => ret (fst v1))) (fun v2 => ret (dieq v2 (((@fminf binary64), (@finf binary64)), trv)))));
  (711, (bind (bind (@mul_rev_to_pair_dec binary64 (((fl binary64 (-1) (1)), (@finf binary64)), dac) (((@fminf binary64), (@f0 binary64)), dac)) (fun v1 => ret (snd v1))) (fun v2 => @is_empty_dec binary64 v2)));
  (712, (bind (bind (@mul_rev_to_pair_dec binary64 (((@f0 binary64), (@finf binary64)), dac) (((@fminf binary64), (@f0 binary64)), dac)) (fun v1 => ret (fst v1))) (fun v2 => ret (dieq v2 (((@fminf binary64), (@finf binary64)), trv)))));
  (713, (bind (bind (@mul_rev_to_pair_dec binary64 (((@f0 binary64), (@finf binary64)), dac) (((@fminf binary64), (@f0 binary64)), dac)) (fun v1 => ret (snd v1))) (fun v2 => @is_empty_dec binary64 v2)));
  (714, (bind (bind (@mul_rev_to_pair_dec binary64 (((fl binary64 (5764607523034235) (-59)), (@finf binary64)), dac) (((@fminf binary64), (@f0 binary64)), dac)) (fun v1 => ret (fst v1))) (fun v2 => ret (dieq v2 (((@fminf binary64), (@f0 binary64)), dac)))));
  (715, (bind (bind (@mul_rev_to_pair_dec binary64 (((fl binary64 (5764607523034235) (-59)), (@finf binary64)), dac) (((@fminf binary64), (@f0 binary64)), dac)) (fun v1 => ret (snd v1))) (fun v2 => @is_empty_dec binary64 v2)));
  (716, (bind (bind (@mul_rev_to_pair_dec binary64 (((@fminf binary64), (@finf binary64)), dac) (((@fminf binary64), (@f0 binary64)), dac)) (fun v1 => ret (fst v1))) (fun v2 => ret (dieq v2 (((@fminf binary64), (@finf binary64)), trv)))));
  (717, (bind (bind (@mul_rev_to_pair_dec binary64 (((@fminf binary64), (@finf binary64)), dac) (((@fminf binary64), (@f0 binary64)), dac)) (fun v1 => ret (snd v1))) (fun v2 => @is_empty_dec binary64 v2)));
  (719, (bind (bind (@mul_rev_to_pair_dec binary64 (((fl binary64 (-1) (1)), (fl binary64 (-3602879701896397) (-55))), dac) (((@fminf binary64), (fl binary64 (5404319552844595) (-54))), dac)) (fun v1 => ret (fst v1))) (fun v2 => ret (dieq v2 (((fl binary64 (-3) (0)), (@finf binary64)), dac)))));
  (720, (bind (bind (@mul_rev_to_pair_dec binary64 (((fl binary64 (-1) (1)), (fl binary64 (-3602879701896397) (-55))), dac) (((@fminf binary64), (fl binary64 (5404319552844595) (-54))), dac)) (fun v1 => ret (snd v1))) (fun v2 => @is_empty_dec binary64 v2)));
  (721, (bind (bind (@mul_rev_to_pair_dec binary64 (((fl binary64 (-1) (1)), (@f0 binary64)), dac) (((@fminf binary64), (fl binary64 (5404319552844595) (-54))), dac)) (fun v1 => ret (fst v1))) (fun v2 => ret (dieq v2 (((@fminf binary64), (@finf binary64)), trv)))));
  (722, (bind (bind (@mul_rev_to_pair_dec binary64 (((fl binary64 (-1) (1)), (@f0 binary64)), dac) (((@fminf binary64), (fl binary64 (5404319552844595) (-54))), dac)) (fun v1 => ret (snd v1))) (fun v2 => @is_empty_dec binary64 v2)));
  (723, (bind (bind (@mul_rev_to_pair_dec binary64 (((fl binary64 (-1) (1)), (fl binary64 (2476979795053773) (-51))), dac) (((@fminf binary64), (fl binary64 (5404319552844595) (-54))), dac)) (fun v1 => ret (fst v1))) (fun v2 => ret (dieq v2 (((@fminf binary64), (@finf binary64)), trv)))));
  (724, (bind (bind (@mul_rev_to_pair_dec binary64 (((fl binary64 (-1) (1)), (fl binary64 (2476979795053773) (-51))), dac) (((@fminf binary64), (fl binary64 (5404319552844595) (-54))), dac)) (fun v1 => ret (snd v1))) (fun v2 => @is_empty_dec binary64 v2)));
  (725, (bind (bind (@mul_rev_to_pair_dec binary64 (((@f0 binary64), (fl binary64 (2476979795053773) (-51))), dac) (((@fminf binary64), (fl binary64 (5404319552844595) (-54))), dac)) (fun v1 => ret (fst v1))) (fun v2 => ret (dieq v2 (((@fminf binary64), (@finf binary64)), trv)))));
  (726, (bind (bind (@mul_rev_to_pair_dec binary64 (((@f0 binary64), (fl binary64 (2476979795053773) (-51))), dac) (((@fminf binary64), (fl binary64 (5404319552844595) (-54))), dac)) (fun v1 => ret (snd v1))) (fun v2 => @is_empty_dec binary64 v2)));
  (727, (bind (bind (@mul_rev_to_pair_dec binary64 (((fl binary64 (5764607523034235) (-59)), (fl binary64 (2476979795053773) (-51))), dac) (((@fminf binary64), (fl binary64 (5404319552844595) (-54))), dac)) (fun v1 => ret (fst v1))) (fun v2 => ret (dieq v2 (((@fminf binary64), (fl binary64 (15) (1))), dac)))));
  (728, (bind (bind (@mul_rev_to_pair_dec binary64 (((fl binary64 (5764607523034235) (-59)), (fl binary64 (2476979795053773) (-51))), dac) (((@fminf binary64), (fl binary64 (5404319552844595) (-54))), dac)) (fun v1 => ret (snd v1))) (fun v2 => @is_empty_dec binary64 v2)));
  (729, (bind (bind (@mul_rev_to_pair_dec binary64 (((@f0 binary64), (@f0 binary64)), dac) (((@fminf binary64), (fl binary64 (5404319552844595) (-54))), dac)) (fun v1 => ret (fst v1))) (fun v2 => ret (dieq v2 (((@fminf binary64), (@finf binary64)), trv)))));
  (730, (bind (bind (@mul_rev_to_pair_dec binary64 (((@f0 binary64), (@f0 binary64)), dac) (((@fminf binary64), (fl binary64 (5404319552844595) (-54))), dac)) (fun v1 => ret (snd v1))) (fun v2 => @is_empty_dec binary64 v2)));
  (731, (bind (bind (@mul_rev_to_pair_dec binary64 (((@fminf binary64), (fl binary64 (-3602879701896397) (-55))), dac) (((@fminf binary64), (fl binary64 (5404319552844595) (-54))), dac)) (fun v1 => ret (fst v1))) (fun v2 => ret (dieq v2 (((fl binary64 (-3) (0)), (@finf binary64)), dac)))));
  (732, (bind (bind (@mul_rev_to_pair_dec binary64 (((@fminf binary64), (fl binary64 (-3602879701896397) (-55))), dac) (((@fminf binary64), (fl binary64 (5404319552844595) (-54))), dac)) (fun v1 => ret (snd v1))) (fun v2 => @is_empty_dec binary64 v2)));
  (733, (bind (bind (@mul_rev_to_pair_dec binary64 (((@fminf binary64), (@f0 binary64)), dac) (((@fminf binary64), (fl binary64 (5404319552844595) (-54))), dac)) (fun v1 => ret (fst v1))) (fun v2 => ret (dieq v2 (((@fminf binary64), (@finf binary64)), trv)))));
  (734, (bind (bind (@mul_rev_to_pair_dec binary64 (((@fminf binary64), (@f0 binary64)), dac) (((@fminf binary64), (fl binary64 (5404319552844595) (-54))), dac)) (fun v1 => ret (snd v1))) (fun v2 => @is_empty_dec binary64 v2)));
  (735, (bind (bind (@mul_rev_to_pair_dec binary64 (((@fminf binary64), (fl binary64 (2476979795053773) (-51))), dac) (((@fminf binary64), (fl binary64 (5404319552844595) (-54))), dac)) (fun v1 => ret (fst v1))) (fun v2 => ret (dieq v2 (((@fminf binary64), (@finf binary64)), trv)))));
  (736, (bind (bind (@mul_rev_to_pair_dec binary64 (((@fminf binary64), (fl binary64 (2476979795053773) (-51))), dac) (((@fminf binary64), (fl binary64 (5404319552844595) (-54))), dac)) (fun v1 => ret (snd v1))) (fun v2 => @is_empty_dec binary64 v2)));
  (737, (bind (bind (@mul_rev_to_pair_dec binary64 (((fl binary64 (-1) (1)), (@finf binary64)), dac) (((@fminf binary64), (fl binary64 (5404319552844595) (-54))), dac)) (fun v1 => ret (fst v1))) (fun v2 => ret (dieq v2 (((@fminf binary64), (@finf binary64)), trv)))));
  (738, (bind (bind (@mul_rev_to_pair_dec binary64 (((fl binary64 (-1) (1)), (@finf binary64)), dac) (((@fminf binary64), (fl binary64 (5404319552844595) (-54))), dac)) (fun v1 => ret (snd v1))) (fun v2 => @is_empty_dec binary64 v2)));
  (739, (bind (bind (@mul_rev_to_pair_dec binary64 (((@f0 binary64), (@finf binary64)), dac) (((@fminf binary64), (fl binary64 (5404319552844595) (-54))), dac)) (fun v1 => ret (fst v1))) (fun v2 => ret (dieq v2 (((@fminf binary64), (@finf binary64)), trv)))));
  (740, (bind (bind (@mul_rev_to_pair_dec binary64 (((@f0 binary64), (@finf binary64)), dac) (((@fminf binary64), (fl binary64 (5404319552844595) (-54))), dac)) (fun v1 => ret (snd v1))) (fun v2 => @is_empty_dec binary64 v2)));
  (741, (bind (bind (@mul_rev_to_pair_dec binary64 (((fl binary64 (5764607523034235) (-59)), (@finf binary64)), dac) (((@fminf binary64), (fl binary64 (5404319552844595) (-54))), dac)) (fun v1 => ret (fst v1))) (fun v2 => ret (dieq v2 (((@fminf binary64), (fl binary64 (15) (1))), dac)))));
  (742, (bind (bind (@mul_rev_to_pair_dec binary64 (((fl binary64 (5764607523034235) (-59)), (@finf binary64)), dac) (((@fminf binary64), (fl binary64 (5404319552844595) (-54))), dac)) (fun v1 => ret (snd v1))) (fun v2 => @is_empty_dec binary64 v2)));
  (743, (bind (bind (@mul_rev_to_pair_dec binary64 (((@fminf binary64), (@finf binary64)), dac) (((@fminf binary64), (fl binary64 (5404319552844595) (-54))), dac)) (fun v1 => ret (fst v1))) (fun v2 => ret (dieq v2 (((@fminf binary64), (@finf binary64)), trv)))));
  (744, (bind (bind (@mul_rev_to_pair_dec binary64 (((@fminf binary64), (@finf binary64)), dac) (((@fminf binary64), (fl binary64 (5404319552844595) (-54))), dac)) (fun v1 => ret (snd v1))) (fun v2 => @is_empty_dec binary64 v2)));
  (746, (bind (bind (@mul_rev_to_pair_dec binary64 (((fl binary64 (-1) (1)), (fl binary64 (-3602879701896397) (-55))), dac) (((fl binary64 (-7566047373982433) (-55)), (@finf binary64)), dac)) (fun v1 => ret (fst v1))) (fun v2 => ret (dieq v2 (((@fminf binary64), (fl binary64 (4728779608739021) (-51))), dac)))));
  (747, (bind (bind (@mul_rev_to_pair_dec binary64 (((fl binary64 (-1) (1)), (fl binary64 (-3602879701896397) (-55))), dac) (((fl binary64 (-7566047373982433) (-55)), (@finf binary64)), dac)) (fun v1 => ret (snd v1))) (fun v2 => @is_empty_dec binary64 v2)));
  (748, (bind (bind (@mul_rev_to_pair_dec binary64 (((fl binary64 (-1) (1)), (@f0 binary64)), dac) (((fl binary64 (-7566047373982433) (-55)), (@finf binary64)), dac)) (fun v1 => ret (fst v1))) (fun v2 => ret (dieq v2 (((@fminf binary64), (@finf binary64)), trv)))));
  (749, (bind (bind (@mul_rev_to_pair_dec binary64 (((fl binary64 (-1) (1)), (@f0 binary64)), dac) (((fl binary64 (-7566047373982433) (-55)), (@finf binary64)), dac)) (fun v1 => ret (snd v1))) (fun v2 => @is_empty_dec binary64 v2)));
  (750, (bind (bind (@mul_rev_to_pair_dec binary64 (((fl binary64 (-1) (1)), (fl binary64 (2476979795053773) (-51))), dac) (((fl binary64 (-7566047373982433) (-55)), (@finf binary64)), dac)) (fun v1 => ret (fst v1))) (fun v2 => ret (dieq v2 (((@fminf binary64), (@finf binary64)), trv)))));
  (751, (bind (bind (@mul_rev_to_pair_dec binary64 (((fl binary64 (-1) (1)), (fl binary64 (2476979795053773) (-51))), dac) (((fl binary64 (-7566047373982433) (-55)), (@finf binary64)), dac)) (fun v1 => ret (snd v1))) (fun v2 => @is_empty_dec binary64 v2)));
  (752, (bind (bind (@mul_rev_to_pair_dec binary64 (((@f0 binary64), (fl binary64 (2476979795053773) (-51))), dac) (((fl binary64 (-7566047373982433) (-55)), (@finf binary64)), dac)) (fun v1 => ret (fst v1))) (fun v2 => ret (dieq v2 (((@fminf binary64), (@finf binary64)), trv)))));
  (753, (bind (bind (@mul_rev_to_pair_dec binary64 (((@f0 binary64), (fl binary64 (2476979795053773) (-51))), dac) (((fl binary64 (-7566047373982433) (-55)), (@finf binary64)), dac)) (fun v1 => ret (snd v1))) (fun v2 => @is_empty_dec binary64 v2)));
  (754, (bind (bind (@mul_rev_to_pair_dec binary64 (((fl binary64 (5764607523034235) (-59)), (fl binary64 (2476979795053773) (-51))), dac) (((fl binary64 (-7566047373982433) (-55)), (@finf binary64)), dac)) (fun v1 => ret (fst v1))) (fun v2 => ret (dieq v2 (((fl binary64 (-21) (0)), (@finf binary64)), dac)))));
  (755, (bind (bind (@mul_rev_to_pair_dec binary64 (((fl binary64 (5764607523034235) (-59)), (fl binary64 (2476979795053773) (-51))), dac) (((fl binary64 (-7566047373982433) (-55)), (@finf binary64)), dac)) (fun v1 => ret (snd v1))) (fun v2 => @is_empty_dec binary64 v2)));
  (756, (bind (bind (@mul_rev_to_pair_dec binary64 (((@f0 binary64), (@f0 binary64)), dac) (((fl binary64 (-7566047373982433) (-55)), (@finf binary64)), dac)) (fun v1 => ret (fst v1))) (fun v2 => ret (dieq v2 (((@fminf binary64), (@finf binary64)), trv)))));
  (757, (bind (bind (@mul_rev_to_pair_dec binary64 (((@f0 binary64), (@f0 binary64)), dac) (((fl binary64 (-7566047373982433) (-55)), (@finf binary64)), dac)) (fun v1 => ret (snd v1))) (fun v2 => @is_empty_dec binary64 v2)));
  (758, (bind (bind (@mul_rev_to_pair_dec binary64 (((@fminf binary64), (fl binary64 (-3602879701896397) (-55))), dac) (((fl binary64 (-7566047373982433) (-55)), (@finf binary64)), dac)) (fun v1 => ret (fst v1))) (fun v2 => ret (dieq v2 (((@fminf binary64), (fl binary64 (4728779608739021) (-51))), dac)))));
  (759, (bind (bind (@mul_rev_to_pair_dec binary64 (((@fminf binary64), (fl binary64 (-3602879701896397) (-55))), dac) (((fl binary64 (-7566047373982433) (-55)), (@finf binary64)), dac)) (fun v1 => ret (snd v1))) (fun v2 => @is_empty_dec binary64 v2)));
  (760, (bind (bind (@mul_rev_to_pair_dec binary64 (((@fminf binary64), (@f0 binary64)), dac) (((fl binary64 (-7566047373982433) (-55)), (@finf binary64)), dac)) (fun v1 => ret (fst v1))) (fun v2 => ret (dieq v2 (((@fminf binary64), (@finf binary64)), trv)))));
  (761, (bind (bind (@mul_rev_to_pair_dec binary64 (((@fminf binary64), (@f0 binary64)), dac) (((fl binary64 (-7566047373982433) (-55)), (@finf binary64)), dac)) (fun v1 => ret (snd v1))) (fun v2 => @is_empty_dec binary64 v2)));
  (762, (bind (bind (@mul_rev_to_pair_dec binary64 (((@fminf binary64), (fl binary64 (2476979795053773) (-51))), dac) (((fl binary64 (-7566047373982433) (-55)), (@finf binary64)), dac)) (fun v1 => ret (fst v1))) (fun v2 => ret (dieq v2 (((@fminf binary64), (@finf binary64)), trv)))));
  (763, (bind (bind (@mul_rev_to_pair_dec binary64 (((@fminf binary64), (fl binary64 (2476979795053773) (-51))), dac) (((fl binary64 (-7566047373982433) (-55)), (@finf binary64)), dac)) (fun v1 => ret (snd v1))) (fun v2 => @is_empty_dec binary64 v2)));
  (764, (bind (bind (@mul_rev_to_pair_dec binary64 (((fl binary64 (-1) (1)), (@finf binary64)), dac) (((fl binary64 (-7566047373982433) (-55)), (@finf binary64)), dac)) (fun v1 => ret (fst v1))) (fun v2 => ret (dieq v2 (((@fminf binary64), (@finf binary64)), trv)))));
  (765, (bind (bind (@mul_rev_to_pair_dec binary64 (((fl binary64 (-1) (1)), (@finf binary64)), dac) (((fl binary64 (-7566047373982433) (-55)), (@finf binary64)), dac)) (fun v1 => ret (snd v1))) (fun v2 => @is_empty_dec binary64 v2)));
  (766, (bind (bind (@mul_rev_to_pair_dec binary64 (((@f0 binary64), (@finf binary64)), dac) (((fl binary64 (-7566047373982433) (-55)), (@finf binary64)), dac)) (fun v1 => ret (fst v1))) (fun v2 => ret (dieq v2 (((@fminf binary64), (@finf binary64)), trv)))));
  (767, (bind (bind (@mul_rev_to_pair_dec binary64 (((@f0 binary64), (@finf binary64)), dac) (((fl binary64 (-7566047373982433) (-55)), (@finf binary64)), dac)) (fun v1 => ret (snd v1))) (fun v2 => @is_empty_dec binary64 v2)));
  (768, (bind (bind (@mul_rev_to_pair_dec binary64 (((fl binary64 (5764607523034235) (-59)), (@finf binary64)), dac) (((fl binary64 (-7566047373982433) (-55)), (@finf binary64)), dac)) (fun v1 => ret (fst v1))) (fun v2 => ret (dieq v2 (((fl binary64 (-21) (0)), (@finf binary64)), dac)))));
  (769, (bind (bind (@mul_rev_to_pair_dec binary64 (((fl binary64 (5764607523034235) (-59)), (@finf binary64)), dac) (((fl binary64 (-7566047373982433) (-55)), (@finf binary64)), dac)) (fun v1 => ret (snd v1))) (fun v2 => @is_empty_dec binary64 v2)));
  (770, (bind (bind (@mul_rev_to_pair_dec binary64 (((@fminf binary64), (@finf binary64)), dac) (((fl binary64 (-7566047373982433) (-55)), (@finf binary64)), dac)) (fun v1 => ret (fst v1))) (fun v2 => ret (dieq v2 (((@fminf binary64), (@finf binary64)), trv)))));
  (771, (bind (bind (@mul_rev_to_pair_dec binary64 (((@fminf binary64), (@finf binary64)), dac) (((fl binary64 (-7566047373982433) (-55)), (@finf binary64)), dac)) (fun v1 => ret (snd v1))) (fun v2 => @is_empty_dec binary64 v2)));
  (773, (bind (bind (@mul_rev_to_pair_dec binary64 (((fl binary64 (-1) (1)), (fl binary64 (-3602879701896397) (-55))), dac) (((@f0 binary64), (@finf binary64)), dac)) (fun v1 => ret (fst v1))) (fun v2 => ret (dieq v2 (((@fminf binary64), (@f0 binary64)), dac)))));
  (774, (bind (bind (@mul_rev_to_pair_dec binary64 (((fl binary64 (-1) (1)), (fl binary64 (-3602879701896397) (-55))), dac) (((@f0 binary64), (@finf binary64)), dac)) (fun v1 => ret (snd v1))) (fun v2 => @is_empty_dec binary64 v2)));
  (775, (bind (bind (@mul_rev_to_pair_dec binary64 (((fl binary64 (-1) (1)), (@f0 binary64)), dac) (((@f0 binary64), (@finf binary64)), dac)) (fun v1 => ret (fst v1))) (fun v2 => ret (dieq v2 (((@fminf binary64), (@finf binary64)), trv)))));
  (776, (bind (bind (@mul_rev_to_pair_dec binary64 (((fl binary64 (-1) (1)), (@f0 binary64)), dac) (((@f0 binary64), (@finf binary64)), dac)) (fun v1 => ret (snd v1))) (fun v2 => @is_empty_dec binary64 v2)));
  (777, (bind (bind (@mul_rev_to_pair_dec binary64 (((fl binary64 (-1) (1)), (fl binary64 (2476979795053773) (-51))), dac) (((@f0 binary64), (@finf binary64)), dac)) (fun v1 => ret (fst v1))) (fun v2 => ret (dieq v2 (((@fminf binary64), (@finf binary64)), trv)))));
  (778, (bind (bind (@mul_rev_to_pair_dec binary64 (((fl binary64 (-1) (1)), (fl binary64 (2476979795053773) (-51))), dac) (((@f0 binary64), (@finf binary64)), dac)) (fun v1 => ret (snd v1))) (fun v2 => @is_empty_dec binary64 v2)));
  (779, (bind (bind (@mul_rev_to_pair_dec binary64 (((@f0 binary64), (fl binary64 (2476979795053773) (-51))), dac) (((@f0 binary64), (@finf binary64)), dac)) (fun v1 => ret (fst v1))) (fun v2 => ret (dieq v2 (((@fminf binary64), (@finf binary64)), trv)))));
  (780, (bind (bind (@mul_rev_to_pair_dec binary64 (((@f0 binary64), (fl binary64 (2476979795053773) (-51))), dac) (((@f0 binary64), (@finf binary64)), dac)) (fun v1 => ret (snd v1))) (fun v2 => @is_empty_dec binary64 v2)));
  (781, (bind (bind (@mul_rev_to_pair_dec binary64 (((fl binary64 (5764607523034235) (-59)), (fl binary64 (2476979795053773) (-51))), dac) (((@f0 binary64), (@finf binary64)), dac)) (fun v1 => ret (fst v1))) (fun v2 => ret (dieq v2 (((@f0 binary64), (@finf binary64)), dac)))));
  (782, (bind (bind (@mul_rev_to_pair_dec binary64 (((fl binary64 (5764607523034235) (-59)), (fl binary64 (2476979795053773) (-51))), dac) (((@f0 binary64), (@finf binary64)), dac)) (fun v1 => ret (snd v1))) (fun v2 => @is_empty_dec binary64 v2)));
  (783, (bind (bind (@mul_rev_to_pair_dec binary64 (((@f0 binary64), (@f0 binary64)), dac) (((@f0 binary64), (@finf binary64)), dac)) (fun v1 => ret (fst v1))) (fun v2 => ret (dieq v2 (((@fminf binary64), (@finf binary64)), trv)))));
  (784, (bind (bind (@mul_rev_to_pair_dec binary64 (((@f0 binary64), (@f0 binary64)), dac) (((@f0 binary64), (@finf binary64)), dac)) (fun v1 => ret (snd v1))) (fun v2 => @is_empty_dec binary64 v2)));
  (785, (bind (bind (@mul_rev_to_pair_dec binary64 (((@fminf binary64), (fl binary64 (-3602879701896397) (-55))), dac) (((@f0 binary64), (@finf binary64)), dac)) (fun v1 => ret (fst v1))) (fun v2 => ret (dieq v2 (((@fminf binary64), (@f0 binary64)), dac)))));
  (786, (bind (bind (@mul_rev_to_pair_dec binary64 (((@fminf binary64), (fl binary64 (-3602879701896397) (-55))), dac) (((@f0 binary64), (@finf binary64)), dac)) (fun v1 => ret (snd v1))) (fun v2 => @is_empty_dec binary64 v2)));
  (787, (bind (bind (@mul_rev_to_pair_dec binary64 (((@fminf binary64), (@f0 binary64)), dac) (((@f0 binary64), (@finf binary64)), dac)) (fun v1 => ret (fst v1))) (fun v2 => ret (dieq v2 (((@fminf binary64), (@finf binary64)), trv)))));
  (788, (bind (bind (@mul_rev_to_pair_dec binary64 (((@fminf binary64), (@f0 binary64)), dac) (((@f0 binary64), (@finf binary64)), dac)) (fun v1 => ret (snd v1))) (fun v2 => @is_empty_dec binary64 v2)));
  (789, (bind (bind (@mul_rev_to_pair_dec binary64 (((@fminf binary64), (fl binary64 (2476979795053773) (-51))), dac) (((@f0 binary64), (@finf binary64)), dac)) (fun v1 => ret (fst v1))) (fun v2 => ret (dieq v2 (((@fminf binary64), (@finf binary64)), trv)))));
  (790, (bind (bind (@mul_rev_to_pair_dec binary64 (((@fminf binary64), (fl binary64 (2476979795053773) (-51))), dac) (((@f0 binary64), (@finf binary64)), dac)) (fun v1 => ret (snd v1))) (fun v2 => @is_empty_dec binary64 v2)));
  (791, (bind (bind (@mul_rev_to_pair_dec binary64 (((fl binary64 (-1) (1)), (@finf binary64)), dac) (((@f0 binary64), (@finf binary64)), dac)) (fun v1 => ret (fst v1))) (fun v2 => ret (dieq v2 (((@fminf binary64), (@finf binary64)), trv)))));
  (792, (bind (bind (@mul_rev_to_pair_dec binary64 (((fl binary64 (-1) (1)), (@finf binary64)), dac) (((@f0 binary64), (@finf binary64)), dac)) (fun v1 => ret (snd v1))) (fun v2 => @is_empty_dec binary64 v2)));
  (793, (bind (bind (@mul_rev_to_pair_dec binary64 (((@f0 binary64), (@finf binary64)), dac) (((@f0 binary64), (@finf binary64)), dac)) (fun v1 => ret (fst v1))) (fun v2 => ret (dieq v2 (((@fminf binary64), (@finf binary64)), trv)))));
  (794, (bind (bind (@mul_rev_to_pair_dec binary64 (((@f0 binary64), (@finf binary64)), dac) (((@f0 binary64), (@finf binary64)), dac)) (fun v1 => ret (snd v1))) (fun v2 => @is_empty_dec binary64 v2)));
  (795, (bind (bind (@mul_rev_to_pair_dec binary64 (((fl binary64 (5764607523034235) (-59)), (@finf binary64)), dac) (((@f0 binary64), (@finf binary64)), dac)) (fun v1 => ret (fst v1))) (fun v2 => ret (dieq v2 (((@f0 binary64), (@finf binary64)), dac)))));
  (796, (bind (bind (@mul_rev_to_pair_dec binary64 (((fl binary64 (5764607523034235) (-59)), (@finf binary64)), dac) (((@f0 binary64), (@finf binary64)), dac)) (fun v1 => ret (snd v1))) (fun v2 => @is_empty_dec binary64 v2)));
  (797, (bind (bind (@mul_rev_to_pair_dec binary64 (((@fminf binary64), (@finf binary64)), dac) (((@f0 binary64), (@finf binary64)), dac)) (fun v1 => ret (fst v1))) (fun v2 => ret (dieq v2 (((@fminf binary64), (@finf binary64)), trv)))));
  (798, (bind (bind (@mul_rev_to_pair_dec binary64 (((@fminf binary64), (@finf binary64)), dac) (((@f0 binary64), (@finf binary64)), dac)) (fun v1 => ret (snd v1))) (fun v2 => @is_empty_dec binary64 v2)));
  (800, (bind (bind (@mul_rev_to_pair_dec binary64 (((fl binary64 (-1) (1)), (fl binary64 (-3602879701896397) (-55))), dac) (((fl binary64 (5764607523034235) (-57)), (@finf binary64)), dac)) (fun v1 => ret (fst v1))) (fun v2 => ret (dieq v2 (((@fminf binary64), (fl binary64 (-5764607523034235) (-58))), dac)))));
  (801, (bind (bind (@mul_rev_to_pair_dec binary64 (((fl binary64 (-1) (1)), (fl binary64 (-3602879701896397) (-55))), dac) (((fl binary64 (5764607523034235) (-57)), (@finf binary64)), dac)) (fun v1 => ret (snd v1))) (fun v2 => @is_empty_dec binary64 v2)));
  (802, (bind (bind (@mul_rev_to_pair_dec binary64 (((fl binary64 (-1) (1)), (@f0 binary64)), dac) (((fl binary64 (5764607523034235) (-57)), (@finf binary64)), dac)) (fun v1 => ret (fst v1))) (fun v2 => ret (dieq v2 (((@fminf binary64), (fl binary64 (-5764607523034235) (-58))), trv)))));
  (803, (bind (bind (@mul_rev_to_pair_dec binary64 (((fl binary64 (-1) (1)), (@f0 binary64)), dac) (((fl binary64 (5764607523034235) (-57)), (@finf binary64)), dac)) (fun v1 => ret (snd v1))) (fun v2 => @is_empty_dec binary64 v2)));
  (804, (bind (bind (@mul_rev_to_pair_dec binary64 (((fl binary64 (-1) (1)), (fl binary64 (2476979795053773) (-51))), dac) (((fl binary64 (5764607523034235) (-57)), (@finf binary64)), dac)) (fun v1 => ret (fst v1))) (fun v2 => ret (dieq v2 (((@fminf binary64), (fl binary64 (-5764607523034235) (-58))), trv)))));
  (805, (bind (bind (@mul_rev_to_pair_dec binary64 (((fl binary64 (-1) (1)), (fl binary64 (2476979795053773) (-51))), dac) (((fl binary64 (5764607523034235) (-57)), (@finf binary64)), dac)) (fun v1 => ret (snd v1))) (fun v2 => ret (dieq v2 (((fl binary64 (5240552293667485) (-57)), (@finf binary64)), trv)))));
  (806, (bind (bind (@mul_rev_to_pair_dec binary64 (((@f0 binary64), (fl binary64 (2476979795053773) (-51))), dac) (((fl binary64 (5764607523034235) (-57)), (@finf binary64)), dac)) (fun v1 => ret (fst v1))) (fun v2 => ret (dieq v2 (((fl binary64 (5240552293667485) (-57)), (@finf binary64)), trv)))));
  (807, (bind (bind (@mul_rev_to_pair_dec binary64 (((@f0 binary64), (fl binary64 (2476979795053773) (-51))), dac) (((fl binary64 (5764607523034235) (-57)), (@finf binary64)), dac)) (fun v1 => ret (snd v1))) (fun v2 => @is_empty_dec binary64 v2)));
  (808, (bind (bind (@mul_rev_to_pair_dec binary64 (((fl binary64 (5764607523034235) (-59)), (fl binary64 (2476979795053773) (-51))), dac) (((fl binary64 (5764607523034235) (-57)), (@finf binary64)), dac)) (fun v1 => ret (fst v1))) (fun v2 => ret (dieq v2 (((fl binary64 (5240552293667485) (-57)), (@finf binary64)), dac)))));
  (809, (bind (bind (@mul_rev_to_pair_dec binary64 (((fl binary64 (5764607523034235) (-59)), (fl binary64 (2476979795053773) (-51))), dac) (((fl binary64 (5764607523034235) (-57)), (@finf binary64)), dac)) (fun v1 => ret (snd v1))) (fun v2 => @is_empty_dec binary64 v2)));
  (810, (bind (bind (@mul_rev_to_pair_dec binary64 (((@f0 binary64), (@f0 binary64)), dac) (((fl binary64 (5764607523034235) (-57)), (@finf binary64)), dac)) (fun v1 => ret (fst v1))) (fun v2 => @is_empty_dec binary64 v2)));
  (811, (bind (bind (@mul_rev_to_pair_dec binary64 (((@f0 binary64), (@f0 binary64)), dac) (((fl binary64 (5764607523034235) (-57)), (@finf binary64)), dac)) (fun v1 => ret (snd v1))) (fun v2 => @is_empty_dec binary64 v2)));
  (812, (bind (bind (@mul_rev_to_pair_dec binary64 (((@fminf binary64), (fl binary64 (-3602879701896397) (-55))), dac) (((fl binary64 (5764607523034235) (-57)), (@finf binary64)), dac)) (fun v1 => ret (fst v1))) (fun v2 => ret (dieq v2 (((@fminf binary64), (@f0 binary64)), dac)))));
  (813, (bind (bind (@mul_rev_to_pair_dec binary64 (((@fminf binary64), (fl binary64 (-3602879701896397) (-55))), dac) (((fl binary64 (5764607523034235) (-57)), (@finf binary64)), dac)) (fun v1 => ret (snd v1))) (fun v2 => @is_empty_dec binary64 v2)));
  (814, (bind (bind (@mul_rev_to_pair_dec binary64 (((@fminf binary64), (@f0 binary64)), dac) (((fl binary64 (5764607523034235) (-57)), (@finf binary64)), dac)) (fun v1 => ret (fst v1))) (fun v2 => ret (dieq v2 (((@fminf binary64), (@f0 binary64)), trv)))));
  (815, (bind (bind (@mul_rev_to_pair_dec binary64 (((@fminf binary64), (@f0 binary64)), dac) (((fl binary64 (5764607523034235) (-57)), (@finf binary64)), dac)) (fun v1 => ret (snd v1))) (fun v2 => @is_empty_dec binary64 v2)));
  (816, (bind (bind (@mul_rev_to_pair_dec binary64 (((@fminf binary64), (fl binary64 (2476979795053773) (-51))), dac) (((fl binary64 (5764607523034235) (-57)), (@finf binary64)), dac)) (fun v1 => ret (fst v1))) (fun v2 => ret (dieq v2 (((@fminf binary64), (@f0 binary64)), trv)))));
  (817, (bind (bind (@mul_rev_to_pair_dec binary64 (((@fminf binary64), (fl binary64 (2476979795053773) (-51))), dac) (((fl binary64 (5764607523034235) (-57)), (@finf binary64)), dac)) (fun v1 => ret (snd v1))) (fun v2 => ret (dieq v2 (((fl binary64 (5240552293667485) (-57)), (@finf binary64)), trv)))));
  (818, (bind (bind (@mul_rev_to_pair_dec binary64 (((fl binary64 (-1) (1)), (@finf binary64)), dac) (((fl binary64 (5764607523034235) (-57)), (@finf binary64)), dac)) (fun v1 => ret (fst v1))) (fun v2 => ret (dieq v2 (((@fminf binary64), (fl binary64 (-5764607523034235) (-58))), trv)))));
  (819, (bind (bind (@mul_rev_to_pair_dec binary64 (((fl binary64 (-1) (1)), (@finf binary64)), dac) (((fl binary64 (5764607523034235) (-57)), (@finf binary64)), dac)) (fun v1 => ret (snd v1))) (fun v2 => ret (dieq v2 (((@f0 binary64), (@finf binary64)), trv)))));
  (820, (bind (bind (@mul_rev_to_pair_dec binary64 (((@f0 binary64), (@finf binary64)), dac) (((fl binary64 (5764607523034235) (-57)), (@finf binary64)), dac)) (fun v1 => ret (fst v1))) (fun v2 => ret (dieq v2 (((@f0 binary64), (@finf binary64)), trv)))));
  (821, (bind (bind (@mul_rev_to_pair_dec binary64 (((@f0 binary64), (@finf binary64)), dac) (((fl binary64 (5764607523034235) (-57)), (@finf binary64)), dac)) (fun v1 => ret (snd v1))) (fun v2 => @is_empty_dec binary64 v2)));
  (822, (bind (bind (@mul_rev_to_pair_dec binary64 (((fl binary64 (5764607523034235) (-59)), (@finf binary64)), dac) (((fl binary64 (5764607523034235) (-57)), (@finf binary64)), dac)) (fun v1 => ret (fst v1))) (fun v2 => ret (dieq v2 (((@f0 binary64), (@finf binary64)), dac)))));
  (823, (bind (bind (@mul_rev_to_pair_dec binary64 (((fl binary64 (5764607523034235) (-59)), (@finf binary64)), dac) (((fl binary64 (5764607523034235) (-57)), (@finf binary64)), dac)) (fun v1 => ret (snd v1))) (fun v2 => @is_empty_dec binary64 v2)));
  (824, (bind (bind (@mul_rev_to_pair_dec binary64 (((@fminf binary64), (@finf binary64)), dac) (((fl binary64 (5764607523034235) (-57)), (@finf binary64)), dac)) (fun v1 => ret (fst v1))) (fun v2 => ret (dieq v2 (((@fminf binary64), (@f0 binary64)), trv)))));
  (825, (bind (bind (@mul_rev_to_pair_dec binary64 (((@fminf binary64), (@finf binary64)), dac) (((fl binary64 (5764607523034235) (-57)), (@finf binary64)), dac)) (fun v1 => ret (snd v1))) (fun v2 => ret (dieq v2 (((@f0 binary64), (@finf binary64)), trv)))));
  (827, (bind (bind (@mul_rev_to_pair_dec binary64 (((fl binary64 (-1) (1)), (fl binary64 (-3602879701896397) (-55))), dac) (((@fminf binary64), (@finf binary64)), dac)) (fun v1 => ret (fst v1))) (fun v2 => ret (dieq v2 (((@fminf binary64), (@finf binary64)), dac)))));
  (828, (bind (bind (@mul_rev_to_pair_dec binary64 (((fl binary64 (-1) (1)), (fl binary64 (-3602879701896397) (-55))), dac) (((@fminf binary64), (@finf binary64)), dac)) (fun v1 => ret (snd v1))) (fun v2 => @is_empty_dec binary64 v2)));
  (829, (bind (bind (@mul_rev_to_pair_dec binary64 (((fl binary64 (-1) (1)), (@f0 binary64)), dac) (((@fminf binary64), (@finf binary64)), dac)) (fun v1 => ret (fst v1))) (fun v2 => ret (dieq v2 (((@fminf binary64), (@finf binary64)), trv)))));
  (830, (bind (bind (@mul_rev_to_pair_dec binary64 (((fl binary64 (-1) (1)), (@f0 binary64)), dac) (((@fminf binary64), (@finf binary64)), dac)) (fun v1 => ret (snd v1))) (fun v2 => @is_empty_dec binary64 v2)));
  (831, (bind (bind (@mul_rev_to_pair_dec binary64 (((fl binary64 (-1) (1)), (fl binary64 (2476979795053773) (-51))), dac) (((@fminf binary64), (@finf binary64)), dac)) (fun v1 => ret (fst v1))) (fun v2 => ret (dieq v2 (((@fminf binary64), (@finf binary64)), trv)))));
  (832, (bind (bind (@mul_rev_to_pair_dec binary64 (((fl binary64 (-1) (1)), (fl binary64 (2476979795053773) (-51))), dac) (((@fminf binary64), (@finf binary64)), dac)) (fun v1 => ret (snd v1))) (fun v2 => @is_empty_dec binary64 v2)));
  (833, (bind (bind (@mul_rev_to_pair_dec binary64 (((@f0 binary64), (fl binary64 (2476979795053773) (-51))), dac) (((@fminf binary64), (@finf binary64)), dac)) (fun v1 => ret (fst v1))) (fun v2 => ret (dieq v2 (((@fminf binary64), (@finf binary64)), trv)))));
  (834, (bind (bind (@mul_rev_to_pair_dec binary64 (((@f0 binary64), (fl binary64 (2476979795053773) (-51))), dac) (((@fminf binary64), (@finf binary64)), dac)) (fun v1 => ret (snd v1))) (fun v2 => @is_empty_dec binary64 v2)));
  (835, (bind (bind (@mul_rev_to_pair_dec binary64 (((fl binary64 (5764607523034235) (-59)), (fl binary64 (2476979795053773) (-51))), dac) (((@fminf binary64), (@finf binary64)), dac)) (fun v1 => ret (fst v1))) (fun v2 => ret (dieq v2 (((@fminf binary64), (@finf binary64)), dac)))));
  (836, (bind (bind (@mul_rev_to_pair_dec binary64 (((fl binary64 (5764607523034235) (-59)), (fl binary64 (2476979795053773) (-51))), dac) (((@fminf binary64), (@finf binary64)), dac)) (fun v1 => ret (snd v1))) (fun v2 => @is_empty_dec binary64 v2)));
  (837, (bind (bind (@mul_rev_to_pair_dec binary64 (((@f0 binary64), (@f0 binary64)), dac) (((@fminf binary64), (@finf binary64)), dac)) (fun v1 => ret (fst v1))) (fun v2 => ret (dieq v2 (((@fminf binary64), (@finf binary64)), trv)))));
  (838, (bind (bind (@mul_rev_to_pair_dec binary64 (((@f0 binary64), (@f0 binary64)), dac) (((@fminf binary64), (@finf binary64)), dac)) (fun v1 => ret (snd v1))) (fun v2 => @is_empty_dec binary64 v2)));
  (839, (bind (bind (@mul_rev_to_pair_dec binary64 (((@fminf binary64), (fl binary64 (-3602879701896397) (-55))), dac) (((@fminf binary64), (@finf binary64)), dac)) (fun v1 => ret (fst v1))) (fun v2 => ret (dieq v2 (((@fminf binary64), (@finf binary64)), dac)))));
  (840, (bind (bind (@mul_rev_to_pair_dec binary64 (((@fminf binary64), (fl binary64 (-3602879701896397) (-55))), dac) (((@fminf binary64), (@finf binary64)), dac)) (fun v1 => ret (snd v1))) (fun v2 => @is_empty_dec binary64 v2)));
  (841, (bind (bind (@mul_rev_to_pair_dec binary64 (((@fminf binary64), (@f0 binary64)), dac) (((@fminf binary64), (@finf binary64)), dac)) (fun v1 => ret (fst v1))) (fun v2 => ret (dieq v2 (((@fminf binary64), (@finf binary64)), trv)))));
  (842, (bind (bind (@mul_rev_to_pair_dec binary64 (((@fminf binary64), (@f0 binary64)), dac) (((@fminf binary64), (@finf binary64)), dac)) (fun v1 => ret (snd v1))) (fun v2 => @is_empty_dec binary64 v2)));
  (843, (bind (bind (@mul_rev_to_pair_dec binary64 (((@fminf binary64), (fl binary64 (2476979795053773) (-51))), dac) (((@fminf binary64), (@finf binary64)), dac)) (fun v1 => ret (fst v1))) (fun v2 => ret (dieq v2 (((@fminf binary64), (@finf binary64)), trv)))));
  (844, (bind (bind (@mul_rev_to_pair_dec binary64 (((@fminf binary64), (fl binary64 (2476979795053773) (-51))), dac) (((@fminf binary64), (@finf binary64)), dac)) (fun v1 => ret (snd v1))) (fun v2 => @is_empty_dec binary64 v2)));
  (845, (bind (bind (@mul_rev_to_pair_dec binary64 (((fl binary64 (-1) (1)), (@finf binary64)), dac) (((@fminf binary64), (@finf binary64)), dac)) (fun v1 => ret (fst v1))) (fun v2 => ret (dieq v2 (((@fminf binary64), (@finf binary64)), trv)))));
  (846, (bind (bind (@mul_rev_to_pair_dec binary64 (((fl binary64 (-1) (1)), (@finf binary64)), dac) (((@fminf binary64), (@finf binary64)), dac)) (fun v1 => ret (snd v1))) (fun v2 => @is_empty_dec binary64 v2)));
  (847, (bind (bind (@mul_rev_to_pair_dec binary64 (((@f0 binary64), (@finf binary64)), dac) (((@fminf binary64), (@finf binary64)), dac)) (fun v1 => ret (fst v1))) (fun v2 => ret (dieq v2 (((@fminf binary64), (@finf binary64)), trv)))));
  (848, (bind (bind (@mul_rev_to_pair_dec binary64 (((@f0 binary64), (@finf binary64)), dac) (((@fminf binary64), (@finf binary64)), dac)) (fun v1 => ret (snd v1))) (fun v2 => @is_empty_dec binary64 v2)));
  (849, (bind (bind (@mul_rev_to_pair_dec binary64 (((fl binary64 (5764607523034235) (-59)), (@finf binary64)), dac) (((@fminf binary64), (@finf binary64)), dac)) (fun v1 => ret (fst v1))) (fun v2 => ret (dieq v2 (((@fminf binary64), (@finf binary64)), dac)))));
  (850, (bind (bind (@mul_rev_to_pair_dec binary64 (((fl binary64 (5764607523034235) (-59)), (@finf binary64)), dac) (((@fminf binary64), (@finf binary64)), dac)) (fun v1 => ret (snd v1))) (fun v2 => @is_empty_dec binary64 v2)));
  (851, (bind (bind (@mul_rev_to_pair_dec binary64 (((@fminf binary64), (@finf binary64)), dac) (((@fminf binary64), (@finf binary64)), dac)) (fun v1 => ret (fst v1))) (fun v2 => ret (dieq v2 (((@fminf binary64), (@finf binary64)), trv)))));
  (852, (bind (bind (@mul_rev_to_pair_dec binary64 (((@fminf binary64), (@finf binary64)), dac) (((@fminf binary64), (@finf binary64)), dac)) (fun v1 => ret (snd v1))) (fun v2 => @is_empty_dec binary64 v2)));
  (855, (bind get_flags (fun v1 => ret (N.eqb v1 none_bit))));
  (857, clear_flags);
  (858, (bind (bind (@mul_rev_to_pair_dec binary64 (((fl binary64 (1) (0)), (fl binary64 (-1) (1))), trv) (((fl binary64 (1) (0)), (fl binary64 (1) (1))), com)) (fun v1 => ret (fst v1))) (fun v2 => @is_nai binary64 v2)));
  (859, (bind (bind (@mul_rev_to_pair_dec binary64 (((fl binary64 (1) (0)), (fl binary64 (-1) (1))), dac) (((fl binary64 (1) (0)), (fl binary64 (1) (1))), trv)) (fun v1 => ret (snd v1))) (fun v2 => @is_nai binary64 v2)));
  (860, (bind get_flags (fun v1 => ret (N.eqb v1 invalid_operand_bit))));
  (861, clear_flags);
  (862, (set_cwd invalid_operand_bit));
  (863, (throws (@mul_rev_to_pair_dec binary64 (((fl binary64 (1) (0)), (fl binary64 (1) (1))), dac) (((fl binary64 (1) (0)), (fl binary64 (-1) (1))), ill)) Invalid_operand_exception));
  (864, (bind get_flags (fun v1 => ret (N.eqb v1 invalid_operand_bit))));
  (865, clear_flags);
  (866, (set_cwd none_bit))].

(** lines 871-920 *)
Definition minimal_mul_rev_to_pair_dec_mixedtype_test : list (N * M bool) := [
  (873, (bind (bind (@mul_rev_to_pair_dec_mixed binary64 binary32 binary64 (@nai binary32) (((fl binary64 (1) (0)), (fl binary64 (1) (1))), dac)) (fun v1 => ret (fst v1))) (fun v2 => @is_nai binary64 v2)));
  (874, (bind (bind (@mul_rev_to_pair_dec_mixed binary64 binary32 binary64 (@nai binary32) (((fl binary64 (1) (0)), (fl binary64 (1) (1))), dac)) (fun v1 => ret (snd v1))) (fun v2 => @is_nai binary64 v2)));
  (875, (bind (bind (@mul_rev_to_pair_dec_mixed binary32 binary64 binary64 (((fl binary64 (1) (0)), (fl binary64 (1) (1))), dac) (@nai binary64)) (fun v1 => ret (fst v1))) (fun v2 => @is_nai binary32 v2)));
  (876, (bind (bind (@mul_rev_to_pair_dec_mixed binary32 binary64 binary64 (((fl binary64 (1) (0)), (fl binary64 (1) (1))), dac) (@nai binary64)) (fun v1 => ret (snd v1))) (fun v2 => @is_nai binary32 v2)));
  (879, (bind (bind (@mul_rev_to_pair_dec_mixed binary64 binary32 binary64 (@empty_dec binary32) (((fl binary64 (1) (0)), (fl binary64 (1) (1))), dac)) (fun v1 => ret (fst v1))) (fun v2 => @is_empty_dec binary64 v2)));
  (880, (bind (bind (@mul_rev_to_pair_dec_mixed binary64 binary32 binary64 (@empty_dec binary32) (((fl binary64 (1) (0)), (fl binary64 (1) (1))), dac)) (fun v1 => ret (snd v1))) (fun v2 => @is_empty_dec binary64 v2)));
  (881, (bind (bind (@mul_rev_to_pair_dec_mixed binary32 binary64 binary64 (((fl binary64 (1) (0)), (fl binary64 (1) (1))), dac) (@empty_dec binary64)) (fun v1 => ret (fst v1))) (fun v2 => @is_empty_dec binary32 v2)));
  (882, (bind (bind (@mul_rev_to_pair_dec_mixed binary32 binary64 binary64 (((fl binary64 (1) (0)), (fl binary64 (1) (1))), dac) (@empty_dec binary64)) (fun v1 => ret (snd v1))) (fun v2 => @is_empty_dec binary32 v2)));
  (884, (bind (bind (@mul_rev_to_pair_dec_mixed binary32 binary64 binary64 (((fl binary64 (-1) (1)), (fl binary64 (-3602879701896397) (-55))), dac) (((fl binary64 (-4728779608739021) (-51)), (fl binary64 (-3602879701896397) (-53))), dac)) (fun v1 => ret (fst v1))) (fun v2 => ret (dieq v2 (((fl binary32 (3355443) (-24)), (fl binary32 (21) (0))), dac)))));
  (885, (bind (bind (@mul_rev_to_pair_dec_mixed binary32 binary64 binary64 (((fl binary64 (-1) (1)), (fl binary64 (-3602879701896397) (-55))), dac) (((fl binary64 (-4728779608739021) (-51)), (fl binary64 (-3602879701896397) (-53))), dac)) (fun v1 => ret (snd v1))) (fun v2 => @is_empty_dec binary32 v2)));
  (887, (bind (bind (@mul_rev_to_pair_dec_mixed binary32 binary64 binary64 (((fl binary64 (5764607523034235) (-59)), (fl binary64 (2476979795053773) (-51))), dac) (((fl binary64 (-4728779608739021) (-51)), (@f0 binary64)), dac)) (fun v1 => ret (fst v1))) (fun v2 => ret (dieq v2 (((fl binary32 (-13762561) (-16)), (@f0 binary32)), dac)))));
  (888, (bind (bind (@mul_rev_to_pair_dec_mixed binary32 binary64 binary64 (((fl binary64 (5764607523034235) (-59)), (fl binary64 (2476979795053773) (-51))), dac) (((fl binary64 (-4728779608739021) (-51)), (@f0 binary64)), dac)) (fun v1 => ret (snd v1))) (fun v2 => @is_empty_dec binary32 v2)));
  (890, (bind (bind (@mul_rev_to_pair_dec_mixed binary32 binary64 binary64 (((fl binary64 (5764607523034235) (-59)), (fl binary64 (2476979795053773) (-51))), dac) (((fl binary64 (-4728779608739021) (-51)), (fl binary64 (1080863910568919) (-53))), dac)) (fun v1 => ret (fst v1))) (fun v2 => ret (dieq v2 (((fl binary32 (-13762561) (-16)), (fl binary32 (3) (2))), dac)))));
  (891, (bind (bind (@mul_rev_to_pair_dec_mixed binary32 binary64 binary64 (((fl binary64 (5764607523034235) (-59)), (fl binary64 (2476979795053773) (-51))), dac) (((fl binary64 (-4728779608739021) (-51)), (fl binary64 (1080863910568919) (-53))), dac)) (fun v1 => ret (snd v1))) (fun v2 => @is_empty_dec binary32 v2)));
  (893, (bind (bind (@mul_rev_to_pair_dec_mixed binary64 binary32 binary32 (((fl binary32 (5368709) (-29)), (@finf binary32)), dac) (((@f0 binary32), (fl binary32 (16106127) (-27))), dac)) (fun v1 => ret (fst v1))) (fun v2 => ret (dieq v2 (((@f0 binary64), (fl binary64 (3) (2))), dac)))));
  (894, (bind (bind (@mul_rev_to_pair_dec_mixed binary64 binary32 binary32 (((fl binary32 (5368709) (-29)), (@finf binary32)), dac) (((@f0 binary32), (fl binary32 (16106127) (-27))), dac)) (fun v1 => ret (snd v1))) (fun v2 => @is_empty_dec binary64 v2)));
  (896, (bind (bind (@mul_rev_to_pair_dec_mixed binary64 binary32 binary32 (((fl binary32 (-1) (1)), (fl binary32 (9227469) (-23))), dac) (((fl binary32 (5368709) (-29)), (fl binary32 (16106127) (-27))), dac)) (fun v1 => ret (fst v1))) (fun v2 => ret (dieq v2 (((@fminf binary64), (fl binary64 (-5368709) (-30))), trv)))));
  (897, (bind (bind (@mul_rev_to_pair_dec_mixed binary64 binary32 binary32 (((fl binary32 (-1) (1)), (fl binary32 (9227469) (-23))), dac) (((fl binary32 (5368709) (-29)), (fl binary32 (16106127) (-27))), dac)) (fun v1 => ret (snd v1))) (fun v2 => ret (dieq v2 (((fl binary64 (5240552062946107) (-59)), (@finf binary64)), trv)))));
  (900, (bind (bind (@mul_rev_to_pair_dec_mixed binary64 binary32 binary64 (((fl binary32 (-1) (1)), (fl binary32 (9227469) (-23))), dac) (((@fminf binary64), (fl binary64 (-3602879701896397) (-55))), dac)) (fun v1 => ret (fst v1))) (fun v2 => ret (dieq v2 (((@fminf binary64), (fl binary64 (-6550690225101971) (-56))), trv)))));
  (901, (bind (bind (@mul_rev_to_pair_dec_mixed binary64 binary32 binary64 (((fl binary32 (-1) (1)), (fl binary32 (9227469) (-23))), dac) (((@fminf binary64), (fl binary64 (-3602879701896397) (-55))), dac)) (fun v1 => ret (snd v1))) (fun v2 => ret (dieq v2 (((fl binary64 (3602879701896397) (-56)), (@finf binary64)), trv)))));
  (904, (bind (bind (@mul_rev_to_pair_dec_mixed binary32 binary64 binary64 (((fl binary64 (-1) (1)), (fl binary64 (2476979795053773) (-51))), dac) (((fl binary64 (5764607523034235) (-57)), (@finf binary64)), dac)) (fun v1 => ret (fst v1))) (fun v2 => ret (dieq v2 (((@fminf binary32), (fl binary32 (-5368709) (-28))), trv)))));
  (905, (bind (bind (@mul_rev_to_pair_dec_mixed binary32 binary64 binary64 (((fl binary64 (-1) (1)), (fl binary64 (2476979795053773) (-51))), dac) (((fl binary64 (5764607523034235) (-57)), (@finf binary64)), dac)) (fun v1 => ret (snd v1))) (fun v2 => ret (dieq v2 (((fl binary32 (9761289) (-28)), (@finf binary32)), trv)))));
  (908, (bind get_flags (fun v1 => ret (N.eqb v1 none_bit))));
  (910, clear_flags);
  (911, (bind (bind (@mul_rev_to_pair_dec_mixed binary32 binary64 binary64 (((fl binary64 (1) (0)), (fl binary64 (-1) (1))), dac) (((fl binary64 (1) (0)), (fl binary64 (1) (1))), dac)) (fun v1 => ret (fst v1))) (fun v2 => @is_nai binary32 v2)));
  (912, (bind (bind (@mul_rev_to_pair_dec_mixed binary32 binary64 binary64 (((fl binary64 (1) (0)), (fl binary64 (-1) (1))), dac) (((fl binary64 (1) (0)), (fl binary64 (1) (1))), dac)) (fun v1 => ret (snd v1))) (fun v2 => @is_nai binary32 v2)));
  (913, (bind get_flags (fun v1 => ret (N.eqb v1 invalid_operand_bit))));
  (914, clear_flags);
  (915, (set_cwd invalid_operand_bit));
  (916, (throws (@mul_rev_to_pair_dec_mixed binary64 binary64 binary32 (((fl binary64 (1) (0)), (fl binary64 (1) (1))), dac) (((fl binary32 (1) (0)), (fl binary32 (-1) (1))), dac)) Invalid_operand_exception));
  (917, (bind get_flags (fun v1 => ret (N.eqb v1 invalid_operand_bit))));
  (918, clear_flags);
  (919, (set_cwd none_bit))].

Example mul_rev_to_pair_func_agree : test_file [
  minimal_mul_rev_to_pair_test; minimal_mul_rev_to_pair_mixedtype_test; minimal_mul_rev_to_pair_dec_test; minimal_mul_rev_to_pair_dec_mixedtype_test] = [].
Proof. vm_compute. reflexivity. Qed.
