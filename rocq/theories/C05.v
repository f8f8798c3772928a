(** * C05: division and reciprocal *)
From Coq Require Import ZArith NArith Reals Bool Lra.
From Flocq Require Import Core.Core IEEE754.BinarySingleNaN.
From Verif Require Import Fmt Spec Exc Deco SpecApi MBase PBase MArith PArith PMul PFma PDiv PUnary Ex.

Local Open Scope R_scope.

Theorem C05_div_tightest : forall (F : fmt) (x y : itv F), wf x -> wf y ->
  computes_tightest (div x y) (image2 (fun _ s => s <> 0) Rdiv x y).
Proof. exact @div_tightest. Qed.
Print Assumptions C05_div_tightest.

Theorem C05_recip_tightest : forall (F : fmt) (x : itv F), wf x ->
  computes_tightest (recip x) (image1 (fun r => r <> 0) Rinv x).
Proof. exact @recip_tightest. Qed.
Print Assumptions C05_recip_tightest.

(** [1,2] / [0,4] = [1/4,+oo]; [1,2] / [0,0] = empty; [-1,2] / [-oo,-4] = [-1/2,1/4]. *)
Example C05_ex_touching :
  run (div (fl binary64 1 0, fl binary64 2 0) (f0, fl binary64 4 0)) = okz (fl binary64 1 (-2)) finf
  /\ wf ((fl binary64 1 0, fl binary64 2 0) : itv binary64) /\ wf ((f0, fl binary64 4 0) : itv binary64).
Proof. split; [vm_compute; reflexivity|split; wf_tac]. Qed.
Example C05_ex_zero :
  run (div (fl binary64 1 0, fl binary64 2 0) (f0, f0)) = okz (@fnan binary64) fnan.
Proof. vm_compute; reflexivity. Qed.
Example C05_ex_unbounded :
  run (div (fl binary64 (-1) 0, fl binary64 2 0) (fminf, fl binary64 (-4) 0)) = okz (fl binary64 (-1) (-1)) (fl binary64 1 (-2)).
Proof. vm_compute; reflexivity. Qed.
(** 1/[3,+oo] in binary32: [0, RU(1/3)]. *)
Example C05_ex_recip :
  run (recip ((fl binary32 3 0, finf) : itv binary32)) = okz f0 (fl binary32 11184811 (-25))
  /\ wf ((fl binary32 3 0, finf) : itv binary32).
Proof. split; [vm_compute; reflexivity|wf_tac]. Qed.
