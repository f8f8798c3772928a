(** * The checks of the unit tests in /repo/test/p1788/flavor/infsup/setbased/
    test_mpfr_bin_ieee754_flavor_io.cpp, run on the model

    One definition per test case of that file, the number before a check is its
    line there.  These are tests of the model, not proofs about it. *)

From Coq Require Import ZArith NArith Bool Ascii String List.
From Flocq Require Import IEEE754.BinarySingleNaN.
From Verif Require Import Fmt Spec Exc Deco MBase MBool MArith MElem MDec MNum MCancel MOverlap MClass MRev MRev1 MMixed MStream MRead Ex TestRun TestRead.
Import ListNotations.
Local Open Scope N_scope.

(** lines 1172-1728 *)
Definition minimal_decorated_interval_input_test : list (N * M bool) := [
  (1178, (bind (bind (@read_d binary64 (txt "[ Nai  ]") (((@f0 binary64), (@f0 binary64)), 0%N)) (fun r => ret (fst r))) (fun v1 => @is_nai binary64 v1)));
  (1179, (bind (@read_d binary64 (txt "[ Nai  ]") (((@f0 binary64), (@f0 binary64)), 0%N)) (fun r => ret (snd r))));
  (1186, (bind (bind (@read_d binary64 (txt "[ Nai  ]_ill") (((fl binary64 (-1) (0)), (fl binary64 (1) (1))), trv)) (fun r => ret (fst r))) (fun v1 => ret (dieq v1 (((fl binary64 (-1) (0)), (fl binary64 (1) (1))), trv)))));
  (1187, (mnot (bind (@read_d binary64 (txt "[ Nai  ]_ill") (((fl binary64 (-1) (0)), (fl binary64 (1) (1))), trv)) (fun r => ret (snd r)))));
  (1194, (bind (bind (@read_d binary64 (txt "[ Nai  ]_trv") (((fl binary64 (-1) (0)), (fl binary64 (1) (1))), trv)) (fun r => ret (fst r))) (fun v1 => ret (dieq v1 (((fl binary64 (-1) (0)), (fl binary64 (1) (1))), trv)))));
  (1195, (mnot (bind (@read_d binary64 (txt "[ Nai  ]_trv") (((fl binary64 (-1) (0)), (fl binary64 (1) (1))), trv)) (fun r => ret (snd r)))));
  (1202, (bind (bind (@read_d binary64 (txt "[ Empty  ]") (((@f0 binary64), (@f0 binary64)), 0%N)) (fun r => ret (fst r))) (fun v1 => @is_empty_dec binary64 v1)));
  (1203, (bind (@read_d binary64 (txt "[ Empty  ]") (((@f0 binary64), (@f0 binary64)), 0%N)) (fun r => ret (snd r))));
  (1210, (bind (bind (@read_d binary64 (txt "[ Empty  ]_trv") (((@f0 binary64), (@f0 binary64)), 0%N)) (fun r => ret (fst r))) (fun v1 => @is_empty_dec binary64 v1)));
  (1211, (bind (@read_d binary64 (txt "[ Empty  ]_trv") (((@f0 binary64), (@f0 binary64)), 0%N)) (fun r => ret (snd r))));
  (1218, (bind (bind (@read_d binary64 (txt "[ Empty  ]_ill") (((fl binary64 (-1) (0)), (fl binary64 (1) (1))), trv)) (fun r => ret (fst r))) (fun v1 => ret (dieq v1 (((fl binary64 (-1) (0)), (fl binary64 (1) (1))), trv)))));
  (1219, (mnot (bind (@read_d binary64 (txt "[ Empty  ]_ill") (((fl binary64 (-1) (0)), (fl binary64 (1) (1))), trv)) (fun r => ret (snd r)))));
  (1226, (bind (bind (@read_d binary64 (txt "[  ]") (((@f0 binary64), (@f0 binary64)), 0%N)) (fun r => ret (fst r))) (fun v1 => @is_empty_dec binary64 v1)));
  (1227, (bind (@read_d binary64 (txt "[  ]") (((@f0 binary64), (@f0 binary64)), 0%N)) (fun r => ret (snd r))));
  (1235, (bind (bind (@read_d binary64 (txt "[  ]_com") (((fl binary64 (-1) (0)), (fl binary64 (1) (1))), trv)) (fun r => ret (fst r))) (fun v1 => ret (dieq v1 (((fl binary64 (-1) (0)), (fl binary64 (1) (1))), trv)))));
  (1236, (mnot (bind (@read_d binary64 (txt "[  ]_com") (((fl binary64 (-1) (0)), (fl binary64 (1) (1))), trv)) (fun r => ret (snd r)))));
  (1243, (bind (bind (@read_d binary64 (txt "[  ]_trv") (((@f0 binary64), (@f0 binary64)), 0%N)) (fun r => ret (fst r))) (fun v1 => @is_empty_dec binary64 v1)));
  (1244, (bind (@read_d binary64 (txt "[  ]_trv") (((@f0 binary64), (@f0 binary64)), 0%N)) (fun r => ret (snd r))));
  (1252, (bind (bind (@read_d binary64 (txt "[,]") (((@f0 binary64), (@f0 binary64)), 0%N)) (fun r => ret (fst r))) (fun v1 => ret (dieq v1 (@entire_dec binary64)))));
  (1253, (bind (@read_d binary64 (txt "[,]") (((@f0 binary64), (@f0 binary64)), 0%N)) (fun r => ret (snd r))));
  (1260, (bind (bind (@read_d binary64 (txt "[,]_trv") (((@f0 binary64), (@f0 binary64)), 0%N)) (fun r => ret (fst r))) (fun v1 => ret (dieq v1 (((@fminf binary64), (@finf binary64)), trv)))));
  (1261, (bind (@read_d binary64 (txt "[,]_trv") (((@f0 binary64), (@f0 binary64)), 0%N)) (fun r => ret (snd r))));
  (1268, (bind (bind (@read_d binary64 (txt "[,]_com") (((fl binary64 (-1) (0)), (fl binary64 (1) (1))), trv)) (fun r => ret (fst r))) (fun v1 => ret (dieq v1 (((fl binary64 (-1) (0)), (fl binary64 (1) (1))), trv)))));
  (1269, (mnot (bind (@read_d binary64 (txt "[,]_com") (((fl binary64 (-1) (0)), (fl binary64 (1) (1))), trv)) (fun r => ret (snd r)))));
  (1276, (bind (bind (@read_d binary64 (txt "[ entire  ]") (((@f0 binary64), (@f0 binary64)), 0%N)) (fun r => ret (fst r))) (fun v1 => ret (dieq v1 (@entire_dec binary64)))));
  (1277, (bind (@read_d binary64 (txt "[ entire  ]") (((@f0 binary64), (@f0 binary64)), 0%N)) (fun r => ret (snd r))));
  (1284, (bind (bind (@read_d binary64 (txt "[ ENTIRE ]_dac") (((@f0 binary64), (@f0 binary64)), 0%N)) (fun r => ret (fst r))) (fun v1 => ret (dieq v1 (((@fminf binary64), (@finf binary64)), dac)))));
  (1285, (bind (@read_d binary64 (txt "[ ENTIRE ]_dac") (((@f0 binary64), (@f0 binary64)), 0%N)) (fun r => ret (snd r))));
  (1292, (bind (bind (@read_d binary64 (txt "[   Entire ]_com") (((fl binary64 (-1) (0)), (fl binary64 (1) (1))), trv)) (fun r => ret (fst r))) (fun v1 => ret (dieq v1 (((fl binary64 (-1) (0)), (fl binary64 (1) (1))), trv)))));
  (1293, (mnot (bind (@read_d binary64 (txt "[   Entire ]_com") (((fl binary64 (-1) (0)), (fl binary64 (1) (1))), trv)) (fun r => ret (snd r)))));
  (1300, (bind (bind (@read_d binary64 (txt "[ -inf , INF  ]") (((@f0 binary64), (@f0 binary64)), 0%N)) (fun r => ret (fst r))) (fun v1 => ret (dieq v1 (@entire_dec binary64)))));
  (1301, (bind (@read_d binary64 (txt "[ -inf , INF  ]") (((@f0 binary64), (@f0 binary64)), 0%N)) (fun r => ret (snd r))));
  (1308, (bind (bind (@read_d binary64 (txt "[ -inf, INF ]_def") (((@f0 binary64), (@f0 binary64)), 0%N)) (fun r => ret (fst r))) (fun v1 => ret (dieq v1 (((@fminf binary64), (@finf binary64)), def)))));
  (1309, (bind (@read_d binary64 (txt "[ -inf, INF ]_def") (((@f0 binary64), (@f0 binary64)), 0%N)) (fun r => ret (snd r))));
  (1316, (bind (bind (@read_d binary64 (txt "[ -inf ,  INF ]_com") (((fl binary64 (-1) (0)), (fl binary64 (1) (1))), trv)) (fun r => ret (fst r))) (fun v1 => ret (dieq v1 (((fl binary64 (-1) (0)), (fl binary64 (1) (1))), trv)))));
  (1317, (mnot (bind (@read_d binary64 (txt "[ -inf ,  INF ]_com") (((fl binary64 (-1) (0)), (fl binary64 (1) (1))), trv)) (fun r => ret (snd r)))));
  (1324, (bind (bind (@read_d binary64 (txt "[-1.0,1.0]") (((@f0 binary64), (@f0 binary64)), 0%N)) (fun r => ret (fst r))) (fun v1 => ret (dieq v1 (((fl binary64 (-1) (0)), (fl binary64 (1) (0))), com)))));
  (1325, (bind (@read_d binary64 (txt "[-1.0,1.0]") (((@f0 binary64), (@f0 binary64)), 0%N)) (fun r => ret (snd r))));
  (1332, (bind (bind (@read_d binary64 (txt "[  -1.0  ,  1.0  ]_com") (((@f0 binary64), (@f0 binary64)), 0%N)) (fun r => ret (fst r))) (fun v1 => ret (dieq v1 (((fl binary64 (-1) (0)), (fl binary64 (1) (0))), com)))));
  (1333, (bind (@read_d binary64 (txt "[  -1.0  ,  1.0  ]_com") (((@f0 binary64), (@f0 binary64)), 0%N)) (fun r => ret (snd r))));
  (1340, (bind (bind (@read_d binary64 (txt "[  -1.0  , 1.0]_trv") (((@f0 binary64), (@f0 binary64)), 0%N)) (fun r => ret (fst r))) (fun v1 => ret (dieq v1 (((fl binary64 (-1) (0)), (fl binary64 (1) (0))), trv)))));
  (1341, (bind (@read_d binary64 (txt "[  -1.0  , 1.0]_trv") (((@f0 binary64), (@f0 binary64)), 0%N)) (fun r => ret (snd r))));
  (1348, (bind (bind (@read_d binary64 (txt "[  -1.0  , 1.0]_ill") (((fl binary64 (-1) (0)), (fl binary64 (1) (1))), trv)) (fun r => ret (fst r))) (fun v1 => ret (dieq v1 (((fl binary64 (-1) (0)), (fl binary64 (1) (1))), trv)))));
  (1349, (mnot (bind (@read_d binary64 (txt "[  -1.0  , 1.0]_ill") (((fl binary64 (-1) (0)), (fl binary64 (1) (1))), trv)) (fun r => ret (snd r)))));
  (1356, (bind (bind (@read_d binary64 (txt "[  -1.0  , 1.0]_fooo") (((fl binary64 (-1) (0)), (fl binary64 (1) (1))), trv)) (fun r => ret (fst r))) (fun v1 => ret (dieq v1 (((fl binary64 (-1) (0)), (fl binary64 (1) (1))), trv)))));
  (1357, (mnot (bind (@read_d binary64 (txt "[  -1.0  , 1.0]_fooo") (((fl binary64 (-1) (0)), (fl binary64 (1) (1))), trv)) (fun r => ret (snd r)))));
  (1364, (bind (bind (@read_d binary64 (txt "[  -1.0  , 1.0]_da c") (((fl binary64 (-1) (0)), (fl binary64 (1) (1))), trv)) (fun r => ret (fst r))) (fun v1 => ret (dieq v1 (((fl binary64 (-1) (0)), (fl binary64 (1) (1))), trv)))));
  (1365, (mnot (bind (@read_d binary64 (txt "[  -1.0  , 1.0]_da c") (((fl binary64 (-1) (0)), (fl binary64 (1) (1))), trv)) (fun r => ret (snd r)))));
  (1381, (bind (bind (@read_d binary64 (txt "[-1,]") (((@f0 binary64), (@f0 binary64)), 0%N)) (fun r => ret (fst r))) (fun v1 => ret (dieq v1 (((fl binary64 (-1) (0)), (@finf binary64)), dac)))));
  (1382, (bind (@read_d binary64 (txt "[-1,]") (((@f0 binary64), (@f0 binary64)), 0%N)) (fun r => ret (snd r))));
  (1389, (bind (bind (@read_d binary64 (txt "[-1.0, +inf]_def") (((@f0 binary64), (@f0 binary64)), 0%N)) (fun r => ret (fst r))) (fun v1 => ret (dieq v1 (((fl binary64 (-1) (0)), (@finf binary64)), def)))));
  (1390, (bind (@read_d binary64 (txt "[-1.0, +inf]_def") (((@f0 binary64), (@f0 binary64)), 0%N)) (fun r => ret (snd r))));
  (1397, (bind (bind (@read_d binary64 (txt "[-1.0, +infinity]_def") (((@f0 binary64), (@f0 binary64)), 0%N)) (fun r => ret (fst r))) (fun v1 => ret (dieq v1 (((fl binary64 (-1) (0)), (@finf binary64)), def)))));
  (1398, (bind (@read_d binary64 (txt "[-1.0, +infinity]_def") (((@f0 binary64), (@f0 binary64)), 0%N)) (fun r => ret (snd r))));
  (1405, (bind (bind (@read_d binary64 (txt "[-1.0,]_com") (((fl binary64 (-1) (0)), (fl binary64 (1) (1))), trv)) (fun r => ret (fst r))) (fun v1 => ret (dieq v1 (((fl binary64 (-1) (0)), (fl binary64 (1) (1))), trv)))));
  (1406, (mnot (bind (@read_d binary64 (txt "[-1.0,]_com") (((fl binary64 (-1) (0)), (fl binary64 (1) (1))), trv)) (fun r => ret (snd r)))));
  (1413, (bind (bind (@read_d binary64 (txt "[-Inf, 1.000 ]") (((@f0 binary64), (@f0 binary64)), 0%N)) (fun r => ret (fst r))) (fun v1 => ret (dieq v1 (((@fminf binary64), (fl binary64 (1) (0))), dac)))));
  (1414, (bind (@read_d binary64 (txt "[-Inf, 1.000 ]") (((@f0 binary64), (@f0 binary64)), 0%N)) (fun r => ret (snd r))));
  (1421, (bind (bind (@read_d binary64 (txt "[-Infinity, 1.000 ]_trv") (((@f0 binary64), (@f0 binary64)), 0%N)) (fun r => ret (fst r))) (fun v1 => ret (dieq v1 (((@fminf binary64), (fl binary64 (1) (0))), trv)))));
  (1422, (bind (@read_d binary64 (txt "[-Infinity, 1.000 ]_trv") (((@f0 binary64), (@f0 binary64)), 0%N)) (fun r => ret (snd r))));
  (1429, (bind (bind (@read_d binary64 (txt "[-Inf, 1.000 ]_ill") (((fl binary64 (-15) (0)), (fl binary64 (27) (0))), trv)) (fun r => ret (fst r))) (fun v1 => ret (dieq v1 (((fl binary64 (-15) (0)), (fl binary64 (27) (0))), trv)))));
  (1430, (mnot (bind (@read_d binary64 (txt "[-Inf, 1.000 ]_ill") (((fl binary64 (-15) (0)), (fl binary64 (27) (0))), trv)) (fun r => ret (snd r)))));
  (1437, (bind (bind (@read_d binary64 (txt "[1.0E+400 ]_com") (((@f0 binary64), (@f0 binary64)), 0%N)) (fun r => ret (fst r))) (fun v1 => ret (dieq v1 (((fl binary64 (9007199254740991) (971)), (@finf binary64)), dac)))));
  (1438, (bind (@read_d binary64 (txt "[1.0E+400 ]_com") (((@f0 binary64), (@f0 binary64)), 0%N)) (fun r => ret (snd r))));
  (1461, (bind (bind (@read_d binary64 (txt "[10000000000000002]_com") (((@f0 binary64), (@f0 binary64)), 0%N)) (fun r => ret (fst r))) (fun v1 => ret (dieq v1 (((fl binary64 (5000000000000001) (1)), (fl binary64 (5000000000000001) (1))), com)))));
  (1462, (bind (@read_d binary64 (txt "[10000000000000002]_com") (((@f0 binary64), (@f0 binary64)), 0%N)) (fun r => ret (snd r))));
  (1469, (bind (bind (@read_d binary64 (txt "[-10000000000000002]_com") (((@f0 binary64), (@f0 binary64)), 0%N)) (fun r => ret (fst r))) (fun v1 => ret (dieq v1 (((fl binary64 (-5000000000000001) (1)), (fl binary64 (-5000000000000001) (1))), com)))));
  (1470, (bind (@read_d binary64 (txt "[-10000000000000002]_com") (((@f0 binary64), (@f0 binary64)), 0%N)) (fun r => ret (snd r))));
  (1485, (bind (bind (@read_d binary64 (txt "[ -4/2, 10/5 ]_com") (((@f0 binary64), (@f0 binary64)), 0%N)) (fun r => ret (fst r))) (fun v1 => ret (dieq v1 (((fl binary64 (-1) (1)), (fl binary64 (1) (1))), com)))));
  (1486, (bind (@read_d binary64 (txt "[ -4/2, 10/5 ]_com") (((@f0 binary64), (@f0 binary64)), 0%N)) (fun r => ret (snd r))));
  (1493, (bind (bind (@read_d binary64 (txt "[ -1/10, 1/10 ]_com") (((@f0 binary64), (@f0 binary64)), 0%N)) (fun r => ret (fst r))) (fun v1 => ret (dieq v1 (((fl binary64 (-3602879701896397) (-55)), (fl binary64 (3602879701896397) (-55))), com)))));
  (1494, (bind (@read_d binary64 (txt "[ -1/10, 1/10 ]_com") (((@f0 binary64), (@f0 binary64)), 0%N)) (fun r => ret (snd r))));
  (1501, (bind (bind (@read_d binary64 (txt "[ 1/-10, 1/10 ]_com") (((fl binary64 (-1) (0)), (fl binary64 (1) (1))), trv)) (fun r => ret (fst r))) (fun v1 => ret (dieq v1 (((fl binary64 (-1) (0)), (fl binary64 (1) (1))), trv)))));
  (1502, (mnot (bind (@read_d binary64 (txt "[ 1/-10, 1/10 ]_com") (((fl binary64 (-1) (0)), (fl binary64 (1) (1))), trv)) (fun r => ret (snd r)))));
  (1509, (bind (bind (@read_d binary64 (txt "[ 1/10, 1/+10 ]_com") (((fl binary64 (-1) (0)), (fl binary64 (1) (1))), trv)) (fun r => ret (fst r))) (fun v1 => ret (dieq v1 (((fl binary64 (-1) (0)), (fl binary64 (1) (1))), trv)))));
  (1510, (mnot (bind (@read_d binary64 (txt "[ 1/10, 1/+10 ]_com") (((fl binary64 (-1) (0)), (fl binary64 (1) (1))), trv)) (fun r => ret (snd r)))));
  (1517, (bind (bind (@read_d binary64 (txt "[ 1/0, 1/10 ]_com") (((fl binary64 (-1) (0)), (fl binary64 (1) (1))), trv)) (fun r => ret (fst r))) (fun v1 => ret (dieq v1 (((fl binary64 (-1) (0)), (fl binary64 (1) (1))), trv)))));
  (1518, (mnot (bind (@read_d binary64 (txt "[ 1/0, 1/10 ]_com") (((fl binary64 (-1) (0)), (fl binary64 (1) (1))), trv)) (fun r => ret (snd r)))));
  (1525, (bind (bind (@read_d binary64 (txt "[-I  nf, 1.000 ]") (((fl binary64 (-1) (0)), (fl binary64 (1) (1))), trv)) (fun r => ret (fst r))) (fun v1 => ret (dieq v1 (((fl binary64 (-1) (0)), (fl binary64 (1) (1))), trv)))));
  (1526, (mnot (bind (@read_d binary64 (txt "[-I  nf, 1.000 ]") (((fl binary64 (-1) (0)), (fl binary64 (1) (1))), trv)) (fun r => ret (snd r)))));
  (1533, (bind (bind (@read_d binary64 (txt "[-Inf, 1.0  00 ]") (((fl binary64 (-1) (0)), (fl binary64 (1) (1))), trv)) (fun r => ret (fst r))) (fun v1 => ret (dieq v1 (((fl binary64 (-1) (0)), (fl binary64 (1) (1))), trv)))));
  (1534, (mnot (bind (@read_d binary64 (txt "[-Inf, 1.0  00 ]") (((fl binary64 (-1) (0)), (fl binary64 (1) (1))), trv)) (fun r => ret (snd r)))));
  (1541, (bind (bind (@read_d binary64 (txt "[-Inf ]") (((fl binary64 (-1) (0)), (fl binary64 (3) (2))), trv)) (fun r => ret (fst r))) (fun v1 => ret (dieq v1 (((fl binary64 (-1) (0)), (fl binary64 (3) (2))), trv)))));
  (1542, (mnot (bind (@read_d binary64 (txt "[-Inf ]") (((fl binary64 (-1) (0)), (fl binary64 (3) (2))), trv)) (fun r => ret (snd r)))));
  (1549, (bind (bind (@read_d binary64 (txt "[1.0,-1.0]") (((fl binary64 (-1) (0)), (fl binary64 (1) (1))), trv)) (fun r => ret (fst r))) (fun v1 => ret (dieq v1 (((fl binary64 (-1) (0)), (fl binary64 (1) (1))), trv)))));
  (1550, (mnot (bind (@read_d binary64 (txt "[1.0,-1.0]") (((fl binary64 (-1) (0)), (fl binary64 (1) (1))), trv)) (fun r => ret (snd r)))));
  (1557, (bind (bind (@read_d binary64 (txt "[-1.0,1.0") (((fl binary64 (-1) (0)), (fl binary64 (1) (1))), trv)) (fun r => ret (fst r))) (fun v1 => ret (dieq v1 (((fl binary64 (-1) (0)), (fl binary64 (1) (1))), trv)))));
  (1558, (mnot (bind (@read_d binary64 (txt "[-1.0,1.0") (((fl binary64 (-1) (0)), (fl binary64 (1) (1))), trv)) (fun r => ret (snd r)))));
  (1565, (bind (bind (@read_d binary64 (txt "-1.0,1.0]") (((fl binary64 (-1) (0)), (fl binary64 (1) (1))), trv)) (fun r => ret (fst r))) (fun v1 => ret (dieq v1 (((fl binary64 (-1) (0)), (fl binary64 (1) (1))), trv)))));
  (1566, (mnot (bind (@read_d binary64 (txt "-1.0,1.0]") (((fl binary64 (-1) (0)), (fl binary64 (1) (1))), trv)) (fun r => ret (snd r)))));
  (1573, (bind (bind (@read_d binary64 (txt "[1.0") (((fl binary64 (-1) (0)), (fl binary64 (1) (1))), trv)) (fun r => ret (fst r))) (fun v1 => ret (dieq v1 (((fl binary64 (-1) (0)), (fl binary64 (1) (1))), trv)))));
  (1574, (mnot (bind (@read_d binary64 (txt "[1.0") (((fl binary64 (-1) (0)), (fl binary64 (1) (1))), trv)) (fun r => ret (snd r)))));
  (1581, (bind (bind (@read_d binary64 (txt "-1.0]") (((fl binary64 (-1) (0)), (fl binary64 (1) (1))), trv)) (fun r => ret (fst r))) (fun v1 => ret (dieq v1 (((fl binary64 (-1) (0)), (fl binary64 (1) (1))), trv)))));
  (1582, (mnot (bind (@read_d binary64 (txt "-1.0]") (((fl binary64 (-1) (0)), (fl binary64 (1) (1))), trv)) (fun r => ret (snd r)))));
  (1590, (bind (bind (@read_d binary64 (txt "[Inf , INF]") (((fl binary64 (-1) (0)), (fl binary64 (1) (1))), trv)) (fun r => ret (fst r))) (fun v1 => ret (dieq v1 (((fl binary64 (-1) (0)), (fl binary64 (1) (1))), trv)))));
  (1591, (mnot (bind (@read_d binary64 (txt "[Inf , INF]") (((fl binary64 (-1) (0)), (fl binary64 (1) (1))), trv)) (fun r => ret (snd r)))));
  (1598, (bind (bind (@read_d binary64 (txt "[ foo ]") (((fl binary64 (-1) (0)), (fl binary64 (5) (0))), trv)) (fun r => ret (fst r))) (fun v1 => ret (dieq v1 (((fl binary64 (-1) (0)), (fl binary64 (5) (0))), trv)))));
  (1599, (mnot (bind (@read_d binary64 (txt "[ foo ]") (((fl binary64 (-1) (0)), (fl binary64 (5) (0))), trv)) (fun r => ret (snd r)))));
  (1606, (bind (bind (@read_d binary64 (txt "[1.0000000000000002,1.0000000000000001]") (((fl binary64 (-1) (0)), (fl binary64 (5) (0))), trv)) (fun r => ret (fst r))) (fun v1 => ret (dieq v1 (((fl binary64 (-1) (0)), (fl binary64 (5) (0))), trv)))));
  (1607, (mnot (bind (@read_d binary64 (txt "[1.0000000000000002,1.0000000000000001]") (((fl binary64 (-1) (0)), (fl binary64 (5) (0))), trv)) (fun r => ret (snd r)))));
  (1622, (bind (bind (@read_d binary64 (txt "[10000000000000001/10000000000000000,10000000000000002/10000000000000001]") (((fl binary64 (-1) (0)), (fl binary64 (5) (0))), trv)) (fun r => ret (fst r))) (fun v1 => ret (dieq v1 (((fl binary64 (-1) (0)), (fl binary64 (5) (0))), trv)))));
  (1623, (mnot (bind (@read_d binary64 (txt "[10000000000000001/10000000000000000,10000000000000002/10000000000000001]") (((fl binary64 (-1) (0)), (fl binary64 (5) (0))), trv)) (fun r => ret (snd r)))));
  (1630, (bind (bind (@read_d binary64 (txt "[0x1.00000000000001p0,0x1.00000000000002p0]") (((fl binary64 (-1) (0)), (fl binary64 (5) (0))), trv)) (fun r => ret (fst r))) (fun v1 => ret (dieq v1 (((fl binary64 (1) (0)), (fl binary64 (4503599627370497) (-52))), com)))));
  (1631, (bind (@read_d binary64 (txt "[0x1.00000000000001p0,0x1.00000000000002p0]") (((fl binary64 (-1) (0)), (fl binary64 (5) (0))), trv)) (fun r => ret (snd r))));
  (1638, (bind (bind (@read_d binary64 (txt "[-0x1.00000000000001p0,0x1.00000000000002p0]") (((fl binary64 (-1) (0)), (fl binary64 (5) (0))), trv)) (fun r => ret (fst r))) (fun v1 => ret (dieq v1 (((fl binary64 (-4503599627370497) (-52)), (fl binary64 (4503599627370497) (-52))), com)))));
  (1639, (bind (@read_d binary64 (txt "[-0x1.00000000000001p0,0x1.00000000000002p0]") (((fl binary64 (-1) (0)), (fl binary64 (5) (0))), trv)) (fun r => ret (snd r))));
  (1646, (bind (bind (@read_d binary64 (txt "[0x1.00000000000001,0x1.00000000000002p0]") (((fl binary64 (-1) (0)), (fl binary64 (5) (0))), trv)) (fun r => ret (fst r))) (fun v1 => ret (dieq v1 (((fl binary64 (-1) (0)), (fl binary64 (5) (0))), trv)))));
  (1647, (mnot (bind (@read_d binary64 (txt "[0x1.00000000000001,0x1.00000000000002p0]") (((fl binary64 (-1) (0)), (fl binary64 (5) (0))), trv)) (fun r => ret (snd r)))));
  (1654, (bind (bind (@read_d binary64 (txt "[0x1.00000000000001p0,0x1.00000000000002]") (((fl binary64 (-1) (0)), (fl binary64 (5) (0))), trv)) (fun r => ret (fst r))) (fun v1 => ret (dieq v1 (((fl binary64 (-1) (0)), (fl binary64 (5) (0))), trv)))));
  (1655, (mnot (bind (@read_d binary64 (txt "[0x1.00000000000001p0,0x1.00000000000002]") (((fl binary64 (-1) (0)), (fl binary64 (5) (0))), trv)) (fun r => ret (snd r)))));
  (1662, (bind (bind (@read_d binary64 (txt "[0x1.00000000000001,0x1.00000000000002]") (((fl binary64 (-1) (0)), (fl binary64 (5) (0))), trv)) (fun r => ret (fst r))) (fun v1 => ret (dieq v1 (((fl binary64 (-1) (0)), (fl binary64 (5) (0))), trv)))));
  (1663, (mnot (bind (@read_d binary64 (txt "[0x1.00000000000001,0x1.00000000000002]") (((fl binary64 (-1) (0)), (fl binary64 (5) (0))), trv)) (fun r => ret (snd r)))));
  (1670, (bind (bind (@read_d binary64 (txt "[0x1.00000000000001p0]") (((fl binary64 (-1) (0)), (fl binary64 (5) (0))), trv)) (fun r => ret (fst r))) (fun v1 => ret (dieq v1 (((fl binary64 (1) (0)), (fl binary64 (4503599627370497) (-52))), com)))));
  (1671, (bind (@read_d binary64 (txt "[0x1.00000000000001p0]") (((fl binary64 (-1) (0)), (fl binary64 (5) (0))), trv)) (fun r => ret (snd r))));
  (1678, (bind (bind (@read_d binary64 (txt "[-0x1.00000000000001p0]") (((fl binary64 (-1) (0)), (fl binary64 (5) (0))), trv)) (fun r => ret (fst r))) (fun v1 => ret (dieq v1 (((fl binary64 (-4503599627370497) (-52)), (fl binary64 (-1) (0))), com)))));
  (1679, (bind (@read_d binary64 (txt "[-0x1.00000000000001p0]") (((fl binary64 (-1) (0)), (fl binary64 (5) (0))), trv)) (fun r => ret (snd r))));
  (1686, (bind (bind (@read_d binary64 (txt "[0x1.00000000000001]") (((fl binary64 (-1) (0)), (fl binary64 (5) (0))), trv)) (fun r => ret (fst r))) (fun v1 => ret (dieq v1 (((fl binary64 (-1) (0)), (fl binary64 (5) (0))), trv)))));
  (1687, (mnot (bind (@read_d binary64 (txt "[0x1.00000000000001]") (((fl binary64 (-1) (0)), (fl binary64 (5) (0))), trv)) (fun r => ret (snd r)))));
  (1694, (bind (bind (@read_d binary64 (txt "[0x1.00000000000001]") (((fl binary64 (-1) (0)), (fl binary64 (5) (0))), trv)) (fun r => ret (fst r))) (fun v1 => ret (dieq v1 (((fl binary64 (-1) (0)), (fl binary64 (5) (0))), trv)))));
  (1695, (mnot (bind (@read_d binary64 (txt "[0x1.00000000000001]") (((fl binary64 (-1) (0)), (fl binary64 (5) (0))), trv)) (fun r => ret (snd r)))));
  (1702, (bind (bind (@read_d binary64 (txt "[0x1.00000000000002p0,0x1.00000000000001p0]") (((fl binary64 (-1) (0)), (fl binary64 (5) (0))), trv)) (fun r => ret (fst r))) (fun v1 => ret (dieq v1 (((fl binary64 (-1) (0)), (fl binary64 (5) (0))), trv)))));
  (1703, (mnot (bind (@read_d binary64 (txt "[0x1.00000000000002p0,0x1.00000000000001p0]") (((fl binary64 (-1) (0)), (fl binary64 (5) (0))), trv)) (fun r => ret (snd r)))));
  (1710, (bind (bind (@read_d binary64 (txt "[-0x1.00000000000001p0,-0x1.00000000000002p0]") (((fl binary64 (-1) (0)), (fl binary64 (5) (0))), trv)) (fun r => ret (fst r))) (fun v1 => ret (dieq v1 (((fl binary64 (-1) (0)), (fl binary64 (5) (0))), trv)))));
  (1711, (mnot (bind (@read_d binary64 (txt "[-0x1.00000000000001p0,-0x1.00000000000002p0]") (((fl binary64 (-1) (0)), (fl binary64 (5) (0))), trv)) (fun r => ret (snd r)))));
  (1718, (bind (bind (@read_d binary64 (txt "[-0x1.00000000000001p0, 10/5]") (((fl binary64 (-1) (0)), (fl binary64 (5) (0))), trv)) (fun r => ret (fst r))) (fun v1 => ret (dieq v1 (((fl binary64 (-4503599627370497) (-52)), (fl binary64 (1) (1))), com)))));
  (1719, (bind (@read_d binary64 (txt "[-0x1.00000000000001p0, 10/5]") (((fl binary64 (-1) (0)), (fl binary64 (5) (0))), trv)) (fun r => ret (snd r))));
  (1726, (bind (bind (@read_d binary64 (txt "[0x1.00000000000001p0, 2.5]") (((fl binary64 (-1) (0)), (fl binary64 (5) (0))), trv)) (fun r => ret (fst r))) (fun v1 => ret (dieq v1 (((fl binary64 (1) (0)), (fl binary64 (5) (-1))), com)))));
  (1727, (bind (@read_d binary64 (txt "[0x1.00000000000001p0, 2.5]") (((fl binary64 (-1) (0)), (fl binary64 (5) (0))), trv)) (fun r => ret (snd r))))].

(** lines 1733-2113 *)
Definition minimal_interval_input_test : list (N * M bool) := [
  (1739, (bind (bind (@read_b binary64 (txt "[ Empty  ]") ((@f0 binary64), (@f0 binary64))) (fun r => ret (fst r))) (fun v1 => @is_empty binary64 v1)));
  (1740, (bind (@read_b binary64 (txt "[ Empty  ]") ((@f0 binary64), (@f0 binary64))) (fun r => ret (snd r))));
  (1747, (bind (bind (@read_b binary64 (txt "[ Empty  ]_trv") ((@f0 binary64), (@f0 binary64))) (fun r => ret (fst r))) (fun v1 => @is_empty binary64 v1)));
  (1748, (bind (@read_b binary64 (txt "[ Empty  ]_trv") ((@f0 binary64), (@f0 binary64))) (fun r => ret (snd r))));
  (1755, (bind (bind (@read_b binary64 (txt "[ Empty  ]_ill") ((fl binary64 (7) (-1)), (fl binary64 (5291729562160333) (-50)))) (fun r => ret (fst r))) (fun v1 => ret (ieq v1 ((fl binary64 (7) (-1)), (fl binary64 (5291729562160333) (-50)))))));
  (1756, (mnot (bind (@read_b binary64 (txt "[ Empty  ]_ill") ((fl binary64 (7) (-1)), (fl binary64 (5291729562160333) (-50)))) (fun r => ret (snd r)))));
  (1763, (bind (bind (@read_b binary64 (txt "[  ]") ((@f0 binary64), (@f0 binary64))) (fun r => ret (fst r))) (fun v1 => @is_empty binary64 v1)));
  (1764, (bind (@read_b binary64 (txt "[  ]") ((@f0 binary64), (@f0 binary64))) (fun r => ret (snd r))));
  (1772, (bind (bind (@read_b binary64 (txt "[  ]_com") ((fl binary64 (7) (-1)), (fl binary64 (5291729562160333) (-50)))) (fun r => ret (fst r))) (fun v1 => ret (ieq v1 ((fl binary64 (7) (-1)), (fl binary64 (5291729562160333) (-50)))))));
  (1773, (mnot (bind (@read_b binary64 (txt "[  ]_com") ((fl binary64 (7) (-1)), (fl binary64 (5291729562160333) (-50)))) (fun r => ret (snd r)))));
  (1780, (bind (bind (@read_b binary64 (txt "[  ]_trv") ((@f0 binary64), (@f0 binary64))) (fun r => ret (fst r))) (fun v1 => @is_empty binary64 v1)));
  (1781, (bind (@read_b binary64 (txt "[  ]_trv") ((@f0 binary64), (@f0 binary64))) (fun r => ret (snd r))));
  (1789, (bind (bind (@read_b binary64 (txt "[,]") ((@f0 binary64), (@f0 binary64))) (fun r => ret (fst r))) (fun v1 => ret (ieq v1 (@entire binary64)))));
  (1790, (bind (@read_b binary64 (txt "[,]") ((@f0 binary64), (@f0 binary64))) (fun r => ret (snd r))));
  (1797, (bind (bind (@read_b binary64 (txt "[,]_trv") ((@f0 binary64), (@f0 binary64))) (fun r => ret (fst r))) (fun v1 => ret (ieq v1 (@entire binary64)))));
  (1798, (bind (@read_b binary64 (txt "[,]_trv") ((@f0 binary64), (@f0 binary64))) (fun r => ret (snd r))));
  (1805, (bind (bind (@read_b binary64 (txt "[,]_com") ((fl binary64 (7) (-1)), (fl binary64 (5291729562160333) (-50)))) (fun r => ret (fst r))) (fun v1 => ret (ieq v1 ((fl binary64 (7) (-1)), (fl binary64 (5291729562160333) (-50)))))));
  (1806, (mnot (bind (@read_b binary64 (txt "[,]_com") ((fl binary64 (7) (-1)), (fl binary64 (5291729562160333) (-50)))) (fun r => ret (snd r)))));
  (1813, (bind (bind (@read_b binary64 (txt "[ entire  ]") ((@f0 binary64), (@f0 binary64))) (fun r => ret (fst r))) (fun v1 => ret (ieq v1 (@entire binary64)))));
  (1814, (bind (@read_b binary64 (txt "[ entire  ]") ((@f0 binary64), (@f0 binary64))) (fun r => ret (snd r))));
  (1821, (bind (bind (@read_b binary64 (txt "[ ENTIRE ]_dac") ((@f0 binary64), (@f0 binary64))) (fun r => ret (fst r))) (fun v1 => ret (ieq v1 (@entire binary64)))));
  (1822, (bind (@read_b binary64 (txt "[ ENTIRE ]_dac") ((@f0 binary64), (@f0 binary64))) (fun r => ret (snd r))));
  (1829, (bind (bind (@read_b binary64 (txt "[   Entire ]_com") ((fl binary64 (7) (-1)), (fl binary64 (5291729562160333) (-50)))) (fun r => ret (fst r))) (fun v1 => ret (ieq v1 ((fl binary64 (7) (-1)), (fl binary64 (5291729562160333) (-50)))))));
  (1830, (mnot (bind (@read_b binary64 (txt "[   Entire ]_com") ((fl binary64 (7) (-1)), (fl binary64 (5291729562160333) (-50)))) (fun r => ret (snd r)))));
  (1837, (bind (bind (@read_b binary64 (txt "[ -inf , INF  ]") ((@f0 binary64), (@f0 binary64))) (fun r => ret (fst r))) (fun v1 => ret (ieq v1 (@entire binary64)))));
  (1838, (bind (@read_b binary64 (txt "[ -inf , INF  ]") ((@f0 binary64), (@f0 binary64))) (fun r => ret (snd r))));
  (1845, (bind (bind (@read_b binary64 (txt "[ -inf, INF ]_def") ((@f0 binary64), (@f0 binary64))) (fun r => ret (fst r))) (fun v1 => ret (ieq v1 (@entire binary64)))));
  (1846, (bind (@read_b binary64 (txt "[ -inf, INF ]_def") ((@f0 binary64), (@f0 binary64))) (fun r => ret (snd r))));
  (1853, (bind (bind (@read_b binary64 (txt "[ -inf ,  INF ]_com") ((fl binary64 (7) (-1)), (fl binary64 (5291729562160333) (-50)))) (fun r => ret (fst r))) (fun v1 => ret (ieq v1 ((fl binary64 (7) (-1)), (fl binary64 (5291729562160333) (-50)))))));
  (1854, (mnot (bind (@read_b binary64 (txt "[ -inf ,  INF ]_com") ((fl binary64 (7) (-1)), (fl binary64 (5291729562160333) (-50)))) (fun r => ret (snd r)))));
  (1862, (bind (bind (@read_b binary64 (txt "[-1.0,1]") ((@f0 binary64), (@f0 binary64))) (fun r => ret (fst r))) (fun v1 => ret (ieq v1 ((fl binary64 (-1) (0)), (fl binary64 (1) (0)))))));
  (1863, (bind (@read_b binary64 (txt "[-1.0,1]") ((@f0 binary64), (@f0 binary64))) (fun r => ret (snd r))));
  (1870, (bind (bind (@read_b binary64 (txt "[  -1.0  ,  1.0  ]_com") ((@f0 binary64), (@f0 binary64))) (fun r => ret (fst r))) (fun v1 => ret (ieq v1 ((fl binary64 (-1) (0)), (fl binary64 (1) (0)))))));
  (1871, (bind (@read_b binary64 (txt "[  -1.0  ,  1.0  ]_com") ((@f0 binary64), (@f0 binary64))) (fun r => ret (snd r))));
  (1878, (bind (bind (@read_b binary64 (txt "[  -1.0  , 1.0]_trv") ((@f0 binary64), (@f0 binary64))) (fun r => ret (fst r))) (fun v1 => ret (ieq v1 ((fl binary64 (-1) (0)), (fl binary64 (1) (0)))))));
  (1879, (bind (@read_b binary64 (txt "[  -1.0  , 1.0]_trv") ((@f0 binary64), (@f0 binary64))) (fun r => ret (snd r))));
  (1886, (bind (bind (@read_b binary64 (txt "[  -1.0  , 1.0]_ill") ((fl binary64 (7) (-1)), (fl binary64 (5291729562160333) (-50)))) (fun r => ret (fst r))) (fun v1 => ret (ieq v1 ((fl binary64 (7) (-1)), (fl binary64 (5291729562160333) (-50)))))));
  (1887, (mnot (bind (@read_b binary64 (txt "[  -1.0  , 1.0]_ill") ((fl binary64 (7) (-1)), (fl binary64 (5291729562160333) (-50)))) (fun r => ret (snd r)))));
  (1894, (bind (bind (@read_b binary64 (txt "[  -1.0  , 1.0]_fooo") ((fl binary64 (7) (-1)), (fl binary64 (5291729562160333) (-50)))) (fun r => ret (fst r))) (fun v1 => ret (ieq v1 ((fl binary64 (7) (-1)), (fl binary64 (5291729562160333) (-50)))))));
  (1895, (mnot (bind (@read_b binary64 (txt "[  -1.0  , 1.0]_fooo") ((fl binary64 (7) (-1)), (fl binary64 (5291729562160333) (-50)))) (fun r => ret (snd r)))));
  (1902, (bind (bind (@read_b binary64 (txt "[  -1.0  , 1.0]_da c") ((fl binary64 (7) (-1)), (fl binary64 (5291729562160333) (-50)))) (fun r => ret (fst r))) (fun v1 => ret (ieq v1 ((fl binary64 (7) (-1)), (fl binary64 (5291729562160333) (-50)))))));
  (1903, (mnot (bind (@read_b binary64 (txt "[  -1.0  , 1.0]_da c") ((fl binary64 (7) (-1)), (fl binary64 (5291729562160333) (-50)))) (fun r => ret (snd r)))));
  (1911, (bind (bind (@read_b binary64 (txt "[-1.0,]") ((@f0 binary64), (@f0 binary64))) (fun r => ret (fst r))) (fun v1 => ret (ieq v1 ((fl binary64 (-1) (0)), (@finf binary64))))));
  (1912, (bind (@read_b binary64 (txt "[-1.0,]") ((@f0 binary64), (@f0 binary64))) (fun r => ret (snd r))));
  (1919, (bind (bind (@read_b binary64 (txt "[-1.0, +inf]_def") ((@f0 binary64), (@f0 binary64))) (fun r => ret (fst r))) (fun v1 => ret (ieq v1 ((fl binary64 (-1) (0)), (@finf binary64))))));
  (1920, (bind (@read_b binary64 (txt "[-1.0, +inf]_def") ((@f0 binary64), (@f0 binary64))) (fun r => ret (snd r))));
  (1927, (bind (bind (@read_b binary64 (txt "[-1.0, +infinity]_def") ((@f0 binary64), (@f0 binary64))) (fun r => ret (fst r))) (fun v1 => ret (ieq v1 ((fl binary64 (-1) (0)), (@finf binary64))))));
  (1928, (bind (@read_b binary64 (txt "[-1.0, +infinity]_def") ((@f0 binary64), (@f0 binary64))) (fun r => ret (snd r))));
  (1935, (bind (bind (@read_b binary64 (txt "[-1.0,]_com") ((fl binary64 (7) (-1)), (fl binary64 (5291729562160333) (-50)))) (fun r => ret (fst r))) (fun v1 => ret (ieq v1 ((fl binary64 (7) (-1)), (fl binary64 (5291729562160333) (-50)))))));
  (1936, (mnot (bind (@read_b binary64 (txt "[-1.0,]_com") ((fl binary64 (7) (-1)), (fl binary64 (5291729562160333) (-50)))) (fun r => ret (snd r)))));
  (1943, (bind (bind (@read_b binary64 (txt "[-Inf, 1.000 ]") ((@f0 binary64), (@f0 binary64))) (fun r => ret (fst r))) (fun v1 => ret (ieq v1 ((@fminf binary64), (fl binary64 (1) (0)))))));
  (1944, (bind (@read_b binary64 (txt "[-Inf, 1.000 ]") ((@f0 binary64), (@f0 binary64))) (fun r => ret (snd r))));
  (1951, (bind (bind (@read_b binary64 (txt "[-Infinity, 1.000 ]_trv") ((@f0 binary64), (@f0 binary64))) (fun r => ret (fst r))) (fun v1 => ret (ieq v1 ((@fminf binary64), (fl binary64 (1) (0)))))));
  (1952, (bind (@read_b binary64 (txt "[-Infinity, 1.000 ]_trv") ((@f0 binary64), (@f0 binary64))) (fun r => ret (snd r))));
  (1959, (bind (bind (@read_b binary64 (txt "[-Inf, 1.000 ]_ill") ((fl binary64 (-35) (0)), (fl binary64 (-3152519739159347) (-52)))) (fun r => ret (fst r))) (fun v1 => ret (ieq v1 ((fl binary64 (-35) (0)), (fl binary64 (-3152519739159347) (-52)))))));
  (1960, (mnot (bind (@read_b binary64 (txt "[-Inf, 1.000 ]_ill") ((fl binary64 (-35) (0)), (fl binary64 (-3152519739159347) (-52)))) (fun r => ret (snd r)))));
  (1967, (bind (bind (@read_b binary64 (txt "[ 0.1 ]_com") ((@f0 binary64), (@f0 binary64))) (fun r => ret (fst r))) (fun v1 => ret (ieq v1 ((fl binary64 (7205759403792793) (-56)), (fl binary64 (3602879701896397) (-55)))))));
  (1968, (bind (@read_b binary64 (txt "[ 0.1 ]_com") ((@f0 binary64), (@f0 binary64))) (fun r => ret (snd r))));
  (1975, (bind (bind (@read_b binary64 (txt "[ 1/10 ]") ((@f0 binary64), (@f0 binary64))) (fun r => ret (fst r))) (fun v1 => ret (ieq v1 ((fl binary64 (7205759403792793) (-56)), (fl binary64 (3602879701896397) (-55)))))));
  (1976, (bind (@read_b binary64 (txt "[ 1/10 ]") ((@f0 binary64), (@f0 binary64))) (fun r => ret (snd r))));
  (1983, (bind (bind (@read_b binary64 (txt "[1.0E+400 ]_com") ((@f0 binary64), (@f0 binary64))) (fun r => ret (fst r))) (fun v1 => ret (ieq v1 ((fl binary64 (9007199254740991) (971)), (@finf binary64))))));
  (1984, (bind (@read_b binary64 (txt "[1.0E+400 ]_com") ((@f0 binary64), (@f0 binary64))) (fun r => ret (snd r))));
  (1991, (bind (bind (@read_b binary64 (txt "[ -4/2, 10/5 ]_com") ((@f0 binary64), (@f0 binary64))) (fun r => ret (fst r))) (fun v1 => ret (ieq v1 ((fl binary64 (-1) (1)), (fl binary64 (1) (1)))))));
  (1992, (bind (@read_b binary64 (txt "[ -4/2, 10/5 ]_com") ((@f0 binary64), (@f0 binary64))) (fun r => ret (snd r))));
  (1999, (bind (bind (@read_b binary64 (txt "[ -1/10, 1/10 ]_com") ((@f0 binary64), (@f0 binary64))) (fun r => ret (fst r))) (fun v1 => ret (ieq v1 ((fl binary64 (-3602879701896397) (-55)), (fl binary64 (3602879701896397) (-55)))))));
  (2000, (bind (@read_b binary64 (txt "[ -1/10, 1/10 ]_com") ((@f0 binary64), (@f0 binary64))) (fun r => ret (snd r))));
  (2007, (bind (bind (@read_b binary64 (txt "[ 1/-10, 1/10 ]_com") ((fl binary64 (7) (-1)), (fl binary64 (5291729562160333) (-50)))) (fun r => ret (fst r))) (fun v1 => ret (ieq v1 ((fl binary64 (7) (-1)), (fl binary64 (5291729562160333) (-50)))))));
  (2008, (mnot (bind (@read_b binary64 (txt "[ 1/-10, 1/10 ]_com") ((fl binary64 (7) (-1)), (fl binary64 (5291729562160333) (-50)))) (fun r => ret (snd r)))));
  (2015, (bind (bind (@read_b binary64 (txt "1.0, 1.000]") ((fl binary64 (7) (-1)), (fl binary64 (3215851608919245) (-46)))) (fun r => ret (fst r))) (fun v1 => ret (ieq v1 ((fl binary64 (7) (-1)), (fl binary64 (3215851608919245) (-46)))))));
  (2016, (mnot (bind (@read_b binary64 (txt "1.0, 1.000]") ((fl binary64 (7) (-1)), (fl binary64 (3215851608919245) (-46)))) (fun r => ret (snd r)))));
  (2023, (bind (bind (@read_b binary64 (txt "[1.0, 1.000") ((fl binary64 (7) (-1)), (fl binary64 (3215851608919245) (-46)))) (fun r => ret (fst r))) (fun v1 => ret (ieq v1 ((fl binary64 (7) (-1)), (fl binary64 (3215851608919245) (-46)))))));
  (2024, (mnot (bind (@read_b binary64 (txt "[1.0, 1.000") ((fl binary64 (7) (-1)), (fl binary64 (3215851608919245) (-46)))) (fun r => ret (snd r)))));
  (2031, (bind (bind (@read_b binary64 (txt "1.000]") ((fl binary64 (7) (-1)), (fl binary64 (3215851608919245) (-46)))) (fun r => ret (fst r))) (fun v1 => ret (ieq v1 ((fl binary64 (7) (-1)), (fl binary64 (3215851608919245) (-46)))))));
  (2032, (mnot (bind (@read_b binary64 (txt "1.000]") ((fl binary64 (7) (-1)), (fl binary64 (3215851608919245) (-46)))) (fun r => ret (snd r)))));
  (2039, (bind (bind (@read_b binary64 (txt "[1.0") ((fl binary64 (7) (-1)), (fl binary64 (3215851608919245) (-46)))) (fun r => ret (fst r))) (fun v1 => ret (ieq v1 ((fl binary64 (7) (-1)), (fl binary64 (3215851608919245) (-46)))))));
  (2040, (mnot (bind (@read_b binary64 (txt "[1.0") ((fl binary64 (7) (-1)), (fl binary64 (3215851608919245) (-46)))) (fun r => ret (snd r)))));
  (2047, (bind (bind (@read_b binary64 (txt "[-I  nf, 1.000 ]") ((fl binary64 (7) (-1)), (fl binary64 (3215851608919245) (-46)))) (fun r => ret (fst r))) (fun v1 => ret (ieq v1 ((fl binary64 (7) (-1)), (fl binary64 (3215851608919245) (-46)))))));
  (2048, (mnot (bind (@read_b binary64 (txt "[-I  nf, 1.000 ]") ((fl binary64 (7) (-1)), (fl binary64 (3215851608919245) (-46)))) (fun r => ret (snd r)))));
  (2055, (bind (bind (@read_b binary64 (txt "[-Inf, 1.0  00 ]") ((fl binary64 (35) (0)), (fl binary64 (3215851608919245) (-46)))) (fun r => ret (fst r))) (fun v1 => ret (ieq v1 ((fl binary64 (35) (0)), (fl binary64 (3215851608919245) (-46)))))));
  (2056, (mnot (bind (@read_b binary64 (txt "[-Inf, 1.0  00 ]") ((fl binary64 (35) (0)), (fl binary64 (3215851608919245) (-46)))) (fun r => ret (snd r)))));
  (2063, (bind (bind (@read_b binary64 (txt "[1.0,-1.0]") ((fl binary64 (-1) (0)), (fl binary64 (1) (1)))) (fun r => ret (fst r))) (fun v1 => ret (ieq v1 ((fl binary64 (-1) (0)), (fl binary64 (1) (1)))))));
  (2064, (mnot (bind (@read_b binary64 (txt "[1.0,-1.0]") ((fl binary64 (-1) (0)), (fl binary64 (1) (1)))) (fun r => ret (snd r)))));
  (2071, (bind (bind (@read_b binary64 (txt "[-Inf ]") ((fl binary64 (-1) (-1)), (fl binary64 (5291729562160333) (-50)))) (fun r => ret (fst r))) (fun v1 => ret (ieq v1 ((fl binary64 (-1) (-1)), (fl binary64 (5291729562160333) (-50)))))));
  (2072, (mnot (bind (@read_b binary64 (txt "[-Inf ]") ((fl binary64 (-1) (-1)), (fl binary64 (5291729562160333) (-50)))) (fun r => ret (snd r)))));
  (2079, (bind (bind (@read_b binary64 (txt "[Inf , INF]") ((fl binary64 (7) (-1)), (fl binary64 (5291729562160333) (-50)))) (fun r => ret (fst r))) (fun v1 => ret (ieq v1 ((fl binary64 (7) (-1)), (fl binary64 (5291729562160333) (-50)))))));
  (2080, (mnot (bind (@read_b binary64 (txt "[Inf , INF]") ((fl binary64 (7) (-1)), (fl binary64 (5291729562160333) (-50)))) (fun r => ret (snd r)))));
  (2087, (bind (bind (@read_b binary64 (txt "[ foo ]") ((fl binary64 (7) (-1)), (fl binary64 (5291729562160333) (-50)))) (fun r => ret (fst r))) (fun v1 => ret (ieq v1 ((fl binary64 (7) (-1)), (fl binary64 (5291729562160333) (-50)))))));
  (2088, (mnot (bind (@read_b binary64 (txt "[ foo ]") ((fl binary64 (7) (-1)), (fl binary64 (5291729562160333) (-50)))) (fun r => ret (snd r)))));
  (2095, (bind (bind (@read_b binary64 (txt "[1.0000000000000002,1.0000000000000001]") ((fl binary64 (7) (-1)), (fl binary64 (5291729562160333) (-50)))) (fun r => ret (fst r))) (fun v1 => ret (ieq v1 ((fl binary64 (7) (-1)), (fl binary64 (5291729562160333) (-50)))))));
  (2096, (mnot (bind (@read_b binary64 (txt "[1.0000000000000002,1.0000000000000001]") ((fl binary64 (7) (-1)), (fl binary64 (5291729562160333) (-50)))) (fun r => ret (snd r)))));
  (2103, (bind (bind (@read_b binary64 (txt "[10000000000000001/10000000000000000,10000000000000002/10000000000000001]") ((fl binary64 (7) (-1)), (fl binary64 (5291729562160333) (-50)))) (fun r => ret (fst r))) (fun v1 => ret (ieq v1 ((fl binary64 (7) (-1)), (fl binary64 (5291729562160333) (-50)))))));
  (2104, (mnot (bind (@read_b binary64 (txt "[10000000000000001/10000000000000000,10000000000000002/10000000000000001]") ((fl binary64 (7) (-1)), (fl binary64 (5291729562160333) (-50)))) (fun r => ret (snd r)))));
  (2111, (bind (bind (@read_b binary64 (txt "[0x1.00000000000002p0,0x1.00000000000001p0]") ((fl binary64 (7) (-1)), (fl binary64 (5291729562160333) (-50)))) (fun r => ret (fst r))) (fun v1 => ret (ieq v1 ((fl binary64 (7) (-1)), (fl binary64 (5291729562160333) (-50)))))));
  (2112, (mnot (bind (@read_b binary64 (txt "[0x1.00000000000002p0,0x1.00000000000001p0]") ((fl binary64 (7) (-1)), (fl binary64 (5291729562160333) (-50)))) (fun r => ret (snd r)))))].

(** lines 2117-2396 *)
Definition minimal_uncertain_interval_dec_input_test : list (N * M bool) := [
  (2123, (bind (bind (@read_d binary64 (txt "0.0?") (((@f0 binary64), (@f0 binary64)), 0%N)) (fun r => ret (fst r))) (fun v1 => ret (dieq v1 (((fl binary64 (-3602879701896397) (-56)), (fl binary64 (3602879701896397) (-56))), com)))));
  (2124, (bind (@read_d binary64 (txt "0.0?") (((@f0 binary64), (@f0 binary64)), 0%N)) (fun r => ret (snd r))));
  (2131, (bind (bind (@read_d binary64 (txt "0.0?u_trv") (((@f0 binary64), (@f0 binary64)), 0%N)) (fun r => ret (fst r))) (fun v1 => ret (dieq v1 (((@f0 binary64), (fl binary64 (3602879701896397) (-56))), trv)))));
  (2132, (bind (@read_d binary64 (txt "0.0?u_trv") (((@f0 binary64), (@f0 binary64)), 0%N)) (fun r => ret (snd r))));
  (2139, (bind (bind (@read_d binary64 (txt "0.0?d_dac") (((@f0 binary64), (@f0 binary64)), 0%N)) (fun r => ret (fst r))) (fun v1 => ret (dieq v1 (((fl binary64 (-3602879701896397) (-56)), (@f0 binary64)), dac)))));
  (2140, (bind (@read_d binary64 (txt "0.0?d_dac") (((@f0 binary64), (@f0 binary64)), 0%N)) (fun r => ret (snd r))));
  (2147, (bind (bind (@read_d binary64 (txt "2.5?") (((@f0 binary64), (@f0 binary64)), 0%N)) (fun r => ret (fst r))) (fun v1 => ret (dieq v1 (((fl binary64 (5516909543528857) (-51)), (fl binary64 (5742089524897383) (-51))), com)))));
  (2148, (bind (@read_d binary64 (txt "2.5?") (((@f0 binary64), (@f0 binary64)), 0%N)) (fun r => ret (snd r))));
  (2155, (bind (bind (@read_d binary64 (txt "2.5?u") (((@f0 binary64), (@f0 binary64)), 0%N)) (fun r => ret (fst r))) (fun v1 => ret (dieq v1 (((fl binary64 (5) (-1)), (fl binary64 (5742089524897383) (-51))), com)))));
  (2156, (bind (@read_d binary64 (txt "2.5?u") (((@f0 binary64), (@f0 binary64)), 0%N)) (fun r => ret (snd r))));
  (2163, (bind (bind (@read_d binary64 (txt "2.5?d_trv") (((@f0 binary64), (@f0 binary64)), 0%N)) (fun r => ret (fst r))) (fun v1 => ret (dieq v1 (((fl binary64 (5516909543528857) (-51)), (fl binary64 (5) (-1))), trv)))));
  (2164, (bind (@read_d binary64 (txt "2.5?d_trv") (((@f0 binary64), (@f0 binary64)), 0%N)) (fun r => ret (snd r))));
  (2172, (bind (bind (@read_d binary64 (txt "0.000?5") (((@f0 binary64), (@f0 binary64)), 0%N)) (fun r => ret (fst r))) (fun v1 => ret (dieq v1 (((fl binary64 (-5764607523034235) (-60)), (fl binary64 (5764607523034235) (-60))), com)))));
  (2173, (bind (@read_d binary64 (txt "0.000?5") (((@f0 binary64), (@f0 binary64)), 0%N)) (fun r => ret (snd r))));
  (2180, (bind (bind (@read_d binary64 (txt "0.000?5u_def") (((@f0 binary64), (@f0 binary64)), 0%N)) (fun r => ret (fst r))) (fun v1 => ret (dieq v1 (((@f0 binary64), (fl binary64 (5764607523034235) (-60))), def)))));
  (2181, (bind (@read_d binary64 (txt "0.000?5u_def") (((@f0 binary64), (@f0 binary64)), 0%N)) (fun r => ret (snd r))));
  (2188, (bind (bind (@read_d binary64 (txt "0.000?5d") (((@f0 binary64), (@f0 binary64)), 0%N)) (fun r => ret (fst r))) (fun v1 => ret (dieq v1 (((fl binary64 (-5764607523034235) (-60)), (@f0 binary64)), com)))));
  (2189, (bind (@read_d binary64 (txt "0.000?5d") (((@f0 binary64), (@f0 binary64)), 0%N)) (fun r => ret (snd r))));
  (2196, (bind (bind (@read_d binary64 (txt "2.500?5") (((@f0 binary64), (@f0 binary64)), 0%N)) (fun r => ret (fst r))) (fun v1 => ret (dieq v1 (((fl binary64 (5618240535144693) (-51)), (fl binary64 (5640758533281547) (-51))), com)))));
  (2197, (bind (@read_d binary64 (txt "2.500?5") (((@f0 binary64), (@f0 binary64)), 0%N)) (fun r => ret (snd r))));
  (2204, (bind (bind (@read_d binary64 (txt "2.500?5u") (((@f0 binary64), (@f0 binary64)), 0%N)) (fun r => ret (fst r))) (fun v1 => ret (dieq v1 (((fl binary64 (5) (-1)), (fl binary64 (5640758533281547) (-51))), com)))));
  (2205, (bind (@read_d binary64 (txt "2.500?5u") (((@f0 binary64), (@f0 binary64)), 0%N)) (fun r => ret (snd r))));
  (2212, (bind (bind (@read_d binary64 (txt "2.500?5d") (((@f0 binary64), (@f0 binary64)), 0%N)) (fun r => ret (fst r))) (fun v1 => ret (dieq v1 (((fl binary64 (5618240535144693) (-51)), (fl binary64 (5) (-1))), com)))));
  (2213, (bind (@read_d binary64 (txt "2.500?5d") (((@f0 binary64), (@f0 binary64)), 0%N)) (fun r => ret (snd r))));
  (2221, (bind (bind (@read_d binary64 (txt "0.0??_dac") (((@f0 binary64), (@f0 binary64)), 0%N)) (fun r => ret (fst r))) (fun v1 => ret (dieq v1 (((@fminf binary64), (@finf binary64)), dac)))));
  (2222, (bind (@read_d binary64 (txt "0.0??_dac") (((@f0 binary64), (@f0 binary64)), 0%N)) (fun r => ret (snd r))));
  (2229, (bind (bind (@read_d binary64 (txt "0.0??u_trv") (((@f0 binary64), (@f0 binary64)), 0%N)) (fun r => ret (fst r))) (fun v1 => ret (dieq v1 (((@f0 binary64), (@finf binary64)), trv)))));
  (2230, (bind (@read_d binary64 (txt "0.0??u_trv") (((@f0 binary64), (@f0 binary64)), 0%N)) (fun r => ret (snd r))));
  (2237, (bind (bind (@read_d binary64 (txt "0.0??d") (((@f0 binary64), (@f0 binary64)), 0%N)) (fun r => ret (fst r))) (fun v1 => ret (dieq v1 (((@fminf binary64), (@f0 binary64)), dac)))));
  (2238, (bind (@read_d binary64 (txt "0.0??d") (((@f0 binary64), (@f0 binary64)), 0%N)) (fun r => ret (snd r))));
  (2245, (bind (bind (@read_d binary64 (txt "5?") (((@f0 binary64), (@f0 binary64)), 0%N)) (fun r => ret (fst r))) (fun v1 => ret (dieq v1 (((fl binary64 (9) (-1)), (fl binary64 (11) (-1))), com)))));
  (2246, (bind (@read_d binary64 (txt "5?") (((@f0 binary64), (@f0 binary64)), 0%N)) (fun r => ret (snd r))));
  (2253, (bind (bind (@read_d binary64 (txt "5?d") (((@f0 binary64), (@f0 binary64)), 0%N)) (fun r => ret (fst r))) (fun v1 => ret (dieq v1 (((fl binary64 (9) (-1)), (fl binary64 (5) (0))), com)))));
  (2254, (bind (@read_d binary64 (txt "5?d") (((@f0 binary64), (@f0 binary64)), 0%N)) (fun r => ret (snd r))));
  (2261, (bind (bind (@read_d binary64 (txt "5?u") (((@f0 binary64), (@f0 binary64)), 0%N)) (fun r => ret (fst r))) (fun v1 => ret (dieq v1 (((fl binary64 (5) (0)), (fl binary64 (11) (-1))), com)))));
  (2262, (bind (@read_d binary64 (txt "5?u") (((@f0 binary64), (@f0 binary64)), 0%N)) (fun r => ret (snd r))));
  (2269, (bind (bind (@read_d binary64 (txt "-5?") (((@f0 binary64), (@f0 binary64)), 0%N)) (fun r => ret (fst r))) (fun v1 => ret (dieq v1 (((fl binary64 (-11) (-1)), (fl binary64 (-9) (-1))), com)))));
  (2270, (bind (@read_d binary64 (txt "-5?") (((@f0 binary64), (@f0 binary64)), 0%N)) (fun r => ret (snd r))));
  (2277, (bind (bind (@read_d binary64 (txt "-5?d") (((@f0 binary64), (@f0 binary64)), 0%N)) (fun r => ret (fst r))) (fun v1 => ret (dieq v1 (((fl binary64 (-11) (-1)), (fl binary64 (-5) (0))), com)))));
  (2278, (bind (@read_d binary64 (txt "-5?d") (((@f0 binary64), (@f0 binary64)), 0%N)) (fun r => ret (snd r))));
  (2285, (bind (bind (@read_d binary64 (txt "-5?u") (((@f0 binary64), (@f0 binary64)), 0%N)) (fun r => ret (fst r))) (fun v1 => ret (dieq v1 (((fl binary64 (-5) (0)), (fl binary64 (-9) (-1))), com)))));
  (2286, (bind (@read_d binary64 (txt "-5?u") (((@f0 binary64), (@f0 binary64)), 0%N)) (fun r => ret (snd r))));
  (2293, (bind (bind (@read_d binary64 (txt "2.5??") (((@f0 binary64), (@f0 binary64)), 0%N)) (fun r => ret (fst r))) (fun v1 => ret (dieq v1 (((@fminf binary64), (@finf binary64)), dac)))));
  (2294, (bind (@read_d binary64 (txt "2.5??") (((@f0 binary64), (@f0 binary64)), 0%N)) (fun r => ret (snd r))));
  (2301, (bind (bind (@read_d binary64 (txt "2.5??u_def") (((@f0 binary64), (@f0 binary64)), 0%N)) (fun r => ret (fst r))) (fun v1 => ret (dieq v1 (((fl binary64 (5) (-1)), (@finf binary64)), def)))));
  (2302, (bind (@read_d binary64 (txt "2.5??u_def") (((@f0 binary64), (@f0 binary64)), 0%N)) (fun r => ret (snd r))));
  (2309, (bind (bind (@read_d binary64 (txt "2.5??d_dac") (((@f0 binary64), (@f0 binary64)), 0%N)) (fun r => ret (fst r))) (fun v1 => ret (dieq v1 (((@fminf binary64), (fl binary64 (5) (-1))), dac)))));
  (2310, (bind (@read_d binary64 (txt "2.5??d_dac") (((@f0 binary64), (@f0 binary64)), 0%N)) (fun r => ret (snd r))));
  (2318, (bind (bind (@read_d binary64 (txt "2.500?5e+27") (((@f0 binary64), (@f0 binary64)), 0%N)) (fun r => ret (fst r))) (fun v1 => ret (dieq v1 (((fl binary64 (4538378561846911) (39)), (fl binary64 (4556568455882371) (39))), com)))));
  (2319, (bind (@read_d binary64 (txt "2.500?5e+27") (((@f0 binary64), (@f0 binary64)), 0%N)) (fun r => ret (snd r))));
  (2326, (bind (bind (@read_d binary64 (txt "2.500?5ue4_def") (((@f0 binary64), (@f0 binary64)), 0%N)) (fun r => ret (fst r))) (fun v1 => ret (dieq v1 (((fl binary64 (3125) (3)), (fl binary64 (12525) (1))), def)))));
  (2327, (bind (@read_d binary64 (txt "2.500?5ue4_def") (((@f0 binary64), (@f0 binary64)), 0%N)) (fun r => ret (snd r))));
  (2334, (bind (bind (@read_d binary64 (txt "2.500?5de-5") (((@f0 binary64), (@f0 binary64)), 0%N)) (fun r => ret (fst r))) (fun v1 => ret (dieq v1 (((fl binary64 (7363940234224853) (-68)), (fl binary64 (7378697629483821) (-68))), com)))));
  (2335, (bind (@read_d binary64 (txt "2.500?5de-5") (((@f0 binary64), (@f0 binary64)), 0%N)) (fun r => ret (snd r))));
  (2345, (bind (bind (@read_d binary64 (txt "10?1800000000000000000000000000000000000000000000000000000000000000000000000000000000000000000000000000000000000000000000000000000000000000000000000000000000000000000000000000000000000000000000000000000000000000000000000000000000000000000000000000000000000000000000000000000000000000000000000000000000000000000000_com") (((@f0 binary64), (@f0 binary64)), 0%N)) (fun r => ret (fst r))) (fun v1 => ret (dieq v1 (((@fminf binary64), (@finf binary64)), dac)))));
  (2346, (bind (@read_d binary64 (txt "10?1800000000000000000000000000000000000000000000000000000000000000000000000000000000000000000000000000000000000000000000000000000000000000000000000000000000000000000000000000000000000000000000000000000000000000000000000000000000000000000000000000000000000000000000000000000000000000000000000000000000000000000000_com") (((@f0 binary64), (@f0 binary64)), 0%N)) (fun r => ret (snd r))));
  (2354, (bind (bind (@read_d binary64 (txt "10?3_com") (((@f0 binary64), (@f0 binary64)), 0%N)) (fun r => ret (fst r))) (fun v1 => ret (dieq v1 (((fl binary64 (7) (0)), (fl binary64 (13) (0))), com)))));
  (2355, (bind (@read_d binary64 (txt "10?3_com") (((@f0 binary64), (@f0 binary64)), 0%N)) (fun r => ret (snd r))));
  (2362, (bind (bind (@read_d binary64 (txt "10?3e380_com") (((@f0 binary64), (@f0 binary64)), 0%N)) (fun r => ret (fst r))) (fun v1 => ret (dieq v1 (((fl binary64 (9007199254740991) (971)), (@finf binary64)), dac)))));
  (2363, (bind (@read_d binary64 (txt "10?3e380_com") (((@f0 binary64), (@f0 binary64)), 0%N)) (fun r => ret (snd r))));
  (2370, (bind (bind (@read_d binary64 (txt "5") (((fl binary64 (-3715469692580659) (-50)), (fl binary64 (5635129033747333) (-49))), com)) (fun r => ret (fst r))) (fun v1 => ret (dieq v1 (((fl binary64 (-3715469692580659) (-50)), (fl binary64 (5635129033747333) (-49))), com)))));
  (2371, (mnot (bind (@read_d binary64 (txt "5") (((fl binary64 (-3715469692580659) (-50)), (fl binary64 (5635129033747333) (-49))), com)) (fun r => ret (snd r)))));
  (2378, (bind (bind (@read_d binary64 (txt "0.0??_com") (((fl binary64 (-4165829655317709) (-50)), (fl binary64 (5764607523034235) (-59))), def)) (fun r => ret (fst r))) (fun v1 => ret (dieq v1 (((fl binary64 (-4165829655317709) (-50)), (fl binary64 (5764607523034235) (-59))), def)))));
  (2379, (mnot (bind (@read_d binary64 (txt "0.0??_com") (((fl binary64 (-4165829655317709) (-50)), (fl binary64 (5764607523034235) (-59))), def)) (fun r => ret (snd r)))));
  (2386, (bind (bind (@read_d binary64 (txt "0.0??u_ill") (((fl binary64 (4165829655317709) (-50)), (fl binary64 (6980579422424269) (-49))), trv)) (fun r => ret (fst r))) (fun v1 => ret (dieq v1 (((fl binary64 (4165829655317709) (-50)), (fl binary64 (6980579422424269) (-49))), trv)))));
  (2387, (mnot (bind (@read_d binary64 (txt "0.0??u_ill") (((fl binary64 (4165829655317709) (-50)), (fl binary64 (6980579422424269) (-49))), trv)) (fun r => ret (snd r)))));
  (2394, (bind (bind (@read_d binary64 (txt "0.0??d_com") (((fl binary64 (-3715469692580659) (-50)), (fl binary64 (5635129033747333) (-49))), com)) (fun r => ret (fst r))) (fun v1 => ret (dieq v1 (((fl binary64 (-3715469692580659) (-50)), (fl binary64 (5635129033747333) (-49))), com)))));
  (2395, (mnot (bind (@read_d binary64 (txt "0.0??d_com") (((fl binary64 (-3715469692580659) (-50)), (fl binary64 (5635129033747333) (-49))), com)) (fun r => ret (snd r)))))].

(** lines 2411-2650 *)
Definition minimal_uncertain_interval_input_test : list (N * M bool) := [
  (2417, (bind (bind (@read_b binary64 (txt "0.0?") ((@f0 binary64), (@f0 binary64))) (fun r => ret (fst r))) (fun v1 => ret (ieq v1 ((fl binary64 (-3602879701896397) (-56)), (fl binary64 (3602879701896397) (-56)))))));
  (2418, (bind (@read_b binary64 (txt "0.0?") ((@f0 binary64), (@f0 binary64))) (fun r => ret (snd r))));
  (2425, (bind (bind (@read_b binary64 (txt "0.0?u_trv") ((@f0 binary64), (@f0 binary64))) (fun r => ret (fst r))) (fun v1 => ret (ieq v1 ((@f0 binary64), (fl binary64 (3602879701896397) (-56)))))));
  (2426, (bind (@read_b binary64 (txt "0.0?u_trv") ((@f0 binary64), (@f0 binary64))) (fun r => ret (snd r))));
  (2433, (bind (bind (@read_b binary64 (txt "0.0?d_dac") ((@f0 binary64), (@f0 binary64))) (fun r => ret (fst r))) (fun v1 => ret (ieq v1 ((fl binary64 (-3602879701896397) (-56)), (@f0 binary64))))));
  (2434, (bind (@read_b binary64 (txt "0.0?d_dac") ((@f0 binary64), (@f0 binary64))) (fun r => ret (snd r))));
  (2441, (bind (bind (@read_b binary64 (txt "2.5?") ((@f0 binary64), (@f0 binary64))) (fun r => ret (fst r))) (fun v1 => ret (ieq v1 ((fl binary64 (5516909543528857) (-51)), (fl binary64 (5742089524897383) (-51)))))));
  (2442, (bind (@read_b binary64 (txt "2.5?") ((@f0 binary64), (@f0 binary64))) (fun r => ret (snd r))));
  (2449, (bind (bind (@read_b binary64 (txt "2.5?u") ((@f0 binary64), (@f0 binary64))) (fun r => ret (fst r))) (fun v1 => ret (ieq v1 ((fl binary64 (5) (-1)), (fl binary64 (5742089524897383) (-51)))))));
  (2450, (bind (@read_b binary64 (txt "2.5?u") ((@f0 binary64), (@f0 binary64))) (fun r => ret (snd r))));
  (2457, (bind (bind (@read_b binary64 (txt "2.5?d_trv") ((@f0 binary64), (@f0 binary64))) (fun r => ret (fst r))) (fun v1 => ret (ieq v1 ((fl binary64 (5516909543528857) (-51)), (fl binary64 (5) (-1)))))));
  (2458, (bind (@read_b binary64 (txt "2.5?d_trv") ((@f0 binary64), (@f0 binary64))) (fun r => ret (snd r))));
  (2466, (bind (bind (@read_b binary64 (txt "0.000?5") ((@f0 binary64), (@f0 binary64))) (fun r => ret (fst r))) (fun v1 => ret (ieq v1 ((fl binary64 (-5764607523034235) (-60)), (fl binary64 (5764607523034235) (-60)))))));
  (2467, (bind (@read_b binary64 (txt "0.000?5") ((@f0 binary64), (@f0 binary64))) (fun r => ret (snd r))));
  (2474, (bind (bind (@read_b binary64 (txt "0.000?5u_def") ((@f0 binary64), (@f0 binary64))) (fun r => ret (fst r))) (fun v1 => ret (ieq v1 ((@f0 binary64), (fl binary64 (5764607523034235) (-60)))))));
  (2475, (bind (@read_b binary64 (txt "0.000?5u_def") ((@f0 binary64), (@f0 binary64))) (fun r => ret (snd r))));
  (2482, (bind (bind (@read_b binary64 (txt "0.000?5d") ((@f0 binary64), (@f0 binary64))) (fun r => ret (fst r))) (fun v1 => ret (ieq v1 ((fl binary64 (-5764607523034235) (-60)), (@f0 binary64))))));
  (2483, (bind (@read_b binary64 (txt "0.000?5d") ((@f0 binary64), (@f0 binary64))) (fun r => ret (snd r))));
  (2490, (bind (bind (@read_b binary64 (txt "2.500?5") ((@f0 binary64), (@f0 binary64))) (fun r => ret (fst r))) (fun v1 => ret (ieq v1 ((fl binary64 (5618240535144693) (-51)), (fl binary64 (5640758533281547) (-51)))))));
  (2491, (bind (@read_b binary64 (txt "2.500?5") ((@f0 binary64), (@f0 binary64))) (fun r => ret (snd r))));
  (2498, (bind (bind (@read_b binary64 (txt "2.500?5u") ((@f0 binary64), (@f0 binary64))) (fun r => ret (fst r))) (fun v1 => ret (ieq v1 ((fl binary64 (5) (-1)), (fl binary64 (5640758533281547) (-51)))))));
  (2499, (bind (@read_b binary64 (txt "2.500?5u") ((@f0 binary64), (@f0 binary64))) (fun r => ret (snd r))));
  (2506, (bind (bind (@read_b binary64 (txt "2.500?5d") ((@f0 binary64), (@f0 binary64))) (fun r => ret (fst r))) (fun v1 => ret (ieq v1 ((fl binary64 (5618240535144693) (-51)), (fl binary64 (5) (-1)))))));
  (2507, (bind (@read_b binary64 (txt "2.500?5d") ((@f0 binary64), (@f0 binary64))) (fun r => ret (snd r))));
  (2515, (bind (bind (@read_b binary64 (txt "0.0??_dac") ((@f0 binary64), (@f0 binary64))) (fun r => ret (fst r))) (fun v1 => ret (ieq v1 ((@fminf binary64), (@finf binary64))))));
  (2516, (bind (@read_b binary64 (txt "0.0??_dac") ((@f0 binary64), (@f0 binary64))) (fun r => ret (snd r))));
  (2523, (bind (bind (@read_b binary64 (txt "0.0??u_trv") ((@f0 binary64), (@f0 binary64))) (fun r => ret (fst r))) (fun v1 => ret (ieq v1 ((@f0 binary64), (@finf binary64))))));
  (2524, (bind (@read_b binary64 (txt "0.0??u_trv") ((@f0 binary64), (@f0 binary64))) (fun r => ret (snd r))));
  (2531, (bind (bind (@read_b binary64 (txt "0.0??d") ((@f0 binary64), (@f0 binary64))) (fun r => ret (fst r))) (fun v1 => ret (ieq v1 ((@fminf binary64), (@f0 binary64))))));
  (2532, (bind (@read_b binary64 (txt "0.0??d") ((@f0 binary64), (@f0 binary64))) (fun r => ret (snd r))));
  (2539, (bind (bind (@read_b binary64 (txt "2.5??") ((@f0 binary64), (@f0 binary64))) (fun r => ret (fst r))) (fun v1 => ret (ieq v1 ((@fminf binary64), (@finf binary64))))));
  (2540, (bind (@read_b binary64 (txt "2.5??") ((@f0 binary64), (@f0 binary64))) (fun r => ret (snd r))));
  (2547, (bind (bind (@read_b binary64 (txt "2.5??u_def") ((@f0 binary64), (@f0 binary64))) (fun r => ret (fst r))) (fun v1 => ret (ieq v1 ((fl binary64 (5) (-1)), (@finf binary64))))));
  (2548, (bind (@read_b binary64 (txt "2.5??u_def") ((@f0 binary64), (@f0 binary64))) (fun r => ret (snd r))));
  (2555, (bind (bind (@read_b binary64 (txt "2.5??d_dac") ((@f0 binary64), (@f0 binary64))) (fun r => ret (fst r))) (fun v1 => ret (ieq v1 ((@fminf binary64), (fl binary64 (5) (-1)))))));
  (2556, (bind (@read_b binary64 (txt "2.5??d_dac") ((@f0 binary64), (@f0 binary64))) (fun r => ret (snd r))));
  (2564, (bind (bind (@read_b binary64 (txt "2.500?5e+27") ((@f0 binary64), (@f0 binary64))) (fun r => ret (fst r))) (fun v1 => ret (ieq v1 ((fl binary64 (4538378561846911) (39)), (fl binary64 (4556568455882371) (39)))))));
  (2565, (bind (@read_b binary64 (txt "2.500?5e+27") ((@f0 binary64), (@f0 binary64))) (fun r => ret (snd r))));
  (2572, (bind (bind (@read_b binary64 (txt "2.500?5ue4_def") ((@f0 binary64), (@f0 binary64))) (fun r => ret (fst r))) (fun v1 => ret (ieq v1 ((fl binary64 (3125) (3)), (fl binary64 (12525) (1)))))));
  (2573, (bind (@read_b binary64 (txt "2.500?5ue4_def") ((@f0 binary64), (@f0 binary64))) (fun r => ret (snd r))));
  (2580, (bind (bind (@read_b binary64 (txt "2.500?5de-5") ((@f0 binary64), (@f0 binary64))) (fun r => ret (fst r))) (fun v1 => ret (ieq v1 ((fl binary64 (7363940234224853) (-68)), (fl binary64 (7378697629483821) (-68)))))));
  (2581, (bind (@read_b binary64 (txt "2.500?5de-5") ((@f0 binary64), (@f0 binary64))) (fun r => ret (snd r))));
  (2591, (bind (bind (@read_b binary64 (txt "10?1800000000000000000000000000000000000000000000000000000000000000000000000000000000000000000000000000000000000000000000000000000000000000000000000000000000000000000000000000000000000000000000000000000000000000000000000000000000000000000000000000000000000000000000000000000000000000000000000000000000000000000000_com") ((@f0 binary64), (@f0 binary64))) (fun r => ret (fst r))) (fun v1 => ret (ieq v1 ((@fminf binary64), (@finf binary64))))));
  (2592, (bind (@read_b binary64 (txt "10?1800000000000000000000000000000000000000000000000000000000000000000000000000000000000000000000000000000000000000000000000000000000000000000000000000000000000000000000000000000000000000000000000000000000000000000000000000000000000000000000000000000000000000000000000000000000000000000000000000000000000000000000_com") ((@f0 binary64), (@f0 binary64))) (fun r => ret (snd r))));
  (2600, (bind (bind (@read_b binary64 (txt "10?3_com") ((@f0 binary64), (@f0 binary64))) (fun r => ret (fst r))) (fun v1 => ret (ieq v1 ((fl binary64 (7) (0)), (fl binary64 (13) (0)))))));
  (2601, (bind (@read_b binary64 (txt "10?3_com") ((@f0 binary64), (@f0 binary64))) (fun r => ret (snd r))));
  (2608, (bind (bind (@read_b binary64 (txt "10?3e380_com") ((@f0 binary64), (@f0 binary64))) (fun r => ret (fst r))) (fun v1 => ret (ieq v1 ((fl binary64 (9007199254740991) (971)), (@finf binary64))))));
  (2609, (bind (@read_b binary64 (txt "10?3e380_com") ((@f0 binary64), (@f0 binary64))) (fun r => ret (snd r))));
  (2616, (bind (bind (@read_b binary64 (txt "1.0000000000000001?1") ((@f0 binary64), (@f0 binary64))) (fun r => ret (fst r))) (fun v1 => ret (ieq v1 ((fl binary64 (1) (0)), (fl binary64 (4503599627370497) (-52)))))));
  (2617, (bind (@read_b binary64 (txt "1.0000000000000001?1") ((@f0 binary64), (@f0 binary64))) (fun r => ret (snd r))));
  (2624, (bind (bind (@read_b binary64 (txt "12") ((fl binary64 (1) (1)), (fl binary64 (3) (0)))) (fun r => ret (fst r))) (fun v1 => ret (ieq v1 ((fl binary64 (1) (1)), (fl binary64 (3) (0)))))));
  (2625, (mnot (bind (@read_b binary64 (txt "12") ((fl binary64 (1) (1)), (fl binary64 (3) (0)))) (fun r => ret (snd r)))));
  (2632, (bind (bind (@read_b binary64 (txt "0.0??_com") ((fl binary64 (1) (1)), (fl binary64 (3) (0)))) (fun r => ret (fst r))) (fun v1 => ret (ieq v1 ((fl binary64 (1) (1)), (fl binary64 (3) (0)))))));
  (2633, (mnot (bind (@read_b binary64 (txt "0.0??_com") ((fl binary64 (1) (1)), (fl binary64 (3) (0)))) (fun r => ret (snd r)))));
  (2640, (bind (bind (@read_b binary64 (txt "0.0??u_ill") ((fl binary64 (5) (-1)), (fl binary64 (7656119366529843) (-51)))) (fun r => ret (fst r))) (fun v1 => ret (ieq v1 ((fl binary64 (5) (-1)), (fl binary64 (7656119366529843) (-51)))))));
  (2641, (mnot (bind (@read_b binary64 (txt "0.0??u_ill") ((fl binary64 (5) (-1)), (fl binary64 (7656119366529843) (-51)))) (fun r => ret (snd r)))));
  (2648, (bind (bind (@read_b binary64 (txt "0.0??d_com") ((fl binary64 (-1) (1)), (fl binary64 (-1) (0)))) (fun r => ret (fst r))) (fun v1 => ret (ieq v1 ((fl binary64 (-1) (1)), (fl binary64 (-1) (0)))))));
  (2649, (mnot (bind (@read_b binary64 (txt "0.0??d_com") ((fl binary64 (-1) (1)), (fl binary64 (-1) (0)))) (fun r => ret (snd r)))))].

Example io_agree : test_file [
  minimal_decorated_interval_input_test; minimal_interval_input_test; minimal_uncertain_interval_dec_input_test; minimal_uncertain_interval_input_test] = [].
Proof. vm_compute. reflexivity. Qed.
