(** * C09: general power *)
From Coq Require Import ZArith NArith Reals Bool Lra.
From Flocq Require Import Core.Core IEEE754.BinarySingleNaN.
From Verif Require Import Fmt Spec Exc Deco SpecApi SpecElem MBase PBase MPow PPow Ex.

Local Open Scope R_scope.

Theorem C09_pow_tightest : forall (F : fmt) (x y : itv F), wf x -> wf y ->
  computes_tightest (pow x y) (image2 pow_dom powR x y).
Proof. exact @pow_tightest. Qed.
Print Assumptions C09_pow_tightest.

(** [0,1]^[-1,+oo] = [0,+oo], [-3,0]^[1,2] = [0,0], [-3,0]^[-2,-1] = empty, [0,1/2]^[0,0] = [1,1],
    [2,+oo]^[0,0] = [1,1]; [1/2,4] and [-1,2] are valid and the power contains 2 = (1/2)^-1. *)
Example C09_ex :
  run (pow (fl binary64 0 0, fl binary64 1 0) (fl binary64 (-1) 0, finf)) = okz (@f0 binary64) finf
  /\ run (pow (fl binary64 (-3) 0, fl binary64 0 0) (fl binary64 1 0, fl binary64 2 0)) = okz (@f0 binary64) f0
  /\ run (pow (fl binary64 (-3) 0, fl binary64 0 0) (fl binary64 (-2) 0, fl binary64 (-1) 0)) = okz (@fnan binary64) fnan
  /\ run (pow (fl binary64 0 0, fl binary64 1 (-1)) (fl binary64 0 0, fl binary64 0 0)) = okz (@f1 binary64) f1
  /\ run (pow (fl binary64 2 0, finf) (fl binary64 0 0, fl binary64 0 0)) = okz (@f1 binary64) f1
  /\ wf ((fl binary64 1 (-1), fl binary64 4 0) : itv binary64)
  /\ wf ((fl binary64 (-1) 0, fl binary64 2 0) : itv binary64).
Proof. repeat (split; [first [wf_tac|vm_compute; reflexivity]|]). wf_tac. Qed.
Example C09_ex_mem :
  exists z, returns (pow ((fl binary64 1 (-1), fl binary64 4 0) : itv binary64) (fl binary64 (-1) 0, fl binary64 2 0)) z /\ mem 2 z.
Proof.
assert (B1 : B2R (fl binary64 1 (-1)) = /2) by b2r. assert (B2 : B2R (fl binary64 4 0) = 4) by b2r.
assert (B3 : B2R (fl binary64 (-1) 0) = -1) by b2r. assert (B4 : B2R (fl binary64 2 0) = 2) by b2r.
eapply ct_has; [apply C09_pow_tightest; wf_tac|].
exists (/2), (-1). split; [apply mem_pt; [easy|easy|lra]|]. split; [apply mem_pt; [easy|easy|lra]|].
split; [left; lra|]. unfold powR. destruct Req_EM_T; [lra|].
replace (-1) with (-(1)) by ring. rewrite Rpower_Ropp, Rpower_1 by lra. lra.
Qed.
