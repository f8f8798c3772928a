(** * C04: multiplication *)
From Coq Require Import ZArith NArith Reals Bool Lra.
From Flocq Require Import Core.Core IEEE754.BinarySingleNaN.
From Verif Require Import Fmt Spec Exc Deco SpecApi MBase PBase MArith PArith PMul PFma PDiv PUnary Ex.

Local Open Scope R_scope.

Theorem C04_mul_tightest : forall (F : fmt) (x y : itv F), wf x -> wf y ->
  computes_tightest (mul x y) (image2 everywhere2 Rmult x y).
Proof. exact @mul_tightest. Qed.
Print Assumptions C04_mul_tightest.

(** [-oo,1/2] * [0,+oo] = entire: 0 * oo never reaches a bound. *)
Example C04_ex_unbounded :
  run (mul (fminf, fl binary64 1 (-1)) (f0, finf)) = okz (@fminf binary64) finf
  /\ wf ((fminf, fl binary64 1 (-1)) : itv binary64) /\ wf ((f0, finf) : itv binary64).
Proof. split; [vm_compute; reflexivity|split; wf_tac]. Qed.
(** [-2,3] * [-5,1] = [-15,10]: both candidate corners are needed. *)
Example C04_ex_mixed :
  run (mul (fl binary64 (-2) 0, fl binary64 3 0) (fl binary64 (-5) 0, fl binary64 1 0))
  = okz (fl binary64 (-15) 0) (fl binary64 10 0)
  /\ wf ((fl binary64 (-2) 0, fl binary64 3 0) : itv binary64) /\ wf ((fl binary64 (-5) 0, fl binary64 1 0) : itv binary64).
Proof. split; [vm_compute; reflexivity|split; wf_tac]. Qed.
