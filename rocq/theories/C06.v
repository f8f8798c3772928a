(** * C06: fused multiply-add *)
From Coq Require Import ZArith NArith Reals Bool Lra.
From Flocq Require Import Core.Core IEEE754.BinarySingleNaN.
From Verif Require Import Fmt Spec Exc Deco SpecApi MBase PBase MArith PArith PMul PFma PDiv PUnary Ex.

Local Open Scope R_scope.

Theorem C06_fma_tightest : forall (F : fmt) (x y z : itv F), wf x -> wf y -> wf z ->
  computes_tightest (fma x y z) (image3 (fun r s t => r * s + t) x y z).
Proof. exact @fma_tightest. Qed.
Print Assumptions C06_fma_tightest.

(** With a = 1+2^-52: a*a - 1 - 2^-51 = 2^-104 exactly; two roundings would give [0, 2^-51]. *)
Example C06_ex_single_rounding :
  run (fma (fl binary64 (2^52+1) (-52), fl binary64 (2^52+1) (-52))
           (fl binary64 (2^52+1) (-52), fl binary64 (2^52+1) (-52))
           (fl binary64 (-(2^51+1)) (-51), fl binary64 (-(2^51+1)) (-51)))
  = okz (fl binary64 1 (-104)) (fl binary64 1 (-104))
  /\ wf ((fl binary64 (2^52+1) (-52), fl binary64 (2^52+1) (-52)) : itv binary64)
  /\ wf ((fl binary64 (-(2^51+1)) (-51), fl binary64 (-(2^51+1)) (-51)) : itv binary64).
Proof. split; [vm_compute; reflexivity|split; wf_tac]. Qed.
(** [-oo,0] * [1,2] + [3,4] = [-oo,4]. *)
Example C06_ex_unbounded :
  run (fma (fminf, f0) (fl binary64 1 0, fl binary64 2 0) (fl binary64 3 0, fl binary64 4 0)) = okz fminf (fl binary64 4 0).
Proof. vm_compute; reflexivity. Qed.
