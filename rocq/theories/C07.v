(** * C07: sqr, sqrt, abs, min, max *)
From Coq Require Import ZArith NArith Reals Bool Lra.
From Flocq Require Import Core.Core IEEE754.BinarySingleNaN.
From Verif Require Import Fmt Spec Exc Deco SpecApi MBase PBase MArith PArith PMul PFma PDiv PUnary Ex.

Local Open Scope R_scope.

Theorem C07_sqr_tightest : forall (F : fmt) (x : itv F), wf x ->
  computes_tightest (sqr x) (image1 everywhere (fun r => r * r) x).
Proof. exact @sqr_tightest. Qed.
Print Assumptions C07_sqr_tightest.

Theorem C07_sqrt_tightest : forall (F : fmt) (x : itv F), wf x ->
  computes_tightest (sqrt x) (image1 (fun r => 0 <= r) R_sqrt.sqrt x).
Proof. exact @sqrt_tightest. Qed.
Print Assumptions C07_sqrt_tightest.

Theorem C07_abs_tightest : forall (F : fmt) (x : itv F), wf x ->
  computes_tightest (abs x) (image1 everywhere Rabs x).
Proof. exact @abs_tightest. Qed.
Print Assumptions C07_abs_tightest.

Theorem C07_min_tightest : forall (F : fmt) (x y : itv F), wf x -> wf y ->
  computes_tightest (min x y) (image2 everywhere2 Rmin x y).
Proof. exact @min_tightest. Qed.
Print Assumptions C07_min_tightest.

Theorem C07_max_tightest : forall (F : fmt) (x y : itv F), wf x -> wf y ->
  computes_tightest (max x y) (image2 everywhere2 Rmax x y).
Proof. exact @max_tightest. Qed.
Print Assumptions C07_max_tightest.

(** sqr [-3,2] = [0,9]; sqrt [-1,4] = [0,2]; sqrt [-2,-1] = empty; abs [-3,2] = [0,3];
    min([1,5],[2,+oo]) = [1,5]; max([1,5],[2,+oo]) = [2,+oo]. *)
Example C07_ex :
  run (sqr (fl binary64 (-3) 0, fl binary64 2 0)) = okz f0 (fl binary64 9 0)
  /\ run (sqrt (fl binary64 (-1) 0, fl binary64 4 0)) = okz f0 (fl binary64 2 0)
  /\ run (sqrt (fl binary64 (-2) 0, fl binary64 (-1) 0)) = okz (@fnan binary64) fnan
  /\ run (abs (fl binary64 (-3) 0, fl binary64 2 0)) = okz f0 (fl binary64 3 0)
  /\ run (min (fl binary64 1 0, fl binary64 5 0) (fl binary64 2 0, finf)) = okz (fl binary64 1 0) (fl binary64 5 0)
  /\ run (max (fl binary64 1 0, fl binary64 5 0) (fl binary64 2 0, finf)) = okz (fl binary64 2 0) finf
  /\ wf ((fl binary64 (-3) 0, fl binary64 2 0) : itv binary64)
  /\ wf ((fl binary64 2 0, finf) : itv binary64).
Proof. repeat (split; [first [wf_tac|vm_compute; reflexivity]|]). wf_tac. Qed.
