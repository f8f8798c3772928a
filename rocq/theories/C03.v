(** * C03: addition, subtraction, negation, identity *)
From Coq Require Import ZArith NArith Reals Bool Lra.
From Flocq Require Import Core.Core IEEE754.BinarySingleNaN.
From Verif Require Import Fmt Spec Exc Deco SpecApi MBase PBase MArith PArith Ex.

Local Open Scope R_scope.

Theorem C03_add_tightest : forall (F : fmt) (x y : itv F), wf x -> wf y ->
  computes_tightest (add x y) (image2 everywhere2 Rplus x y).
Proof. exact @add_tightest. Qed.
Print Assumptions C03_add_tightest.

Theorem C03_sub_tightest : forall (F : fmt) (x y : itv F), wf x -> wf y ->
  computes_tightest (sub x y) (image2 everywhere2 Rminus x y).
Proof. exact @sub_tightest. Qed.
Print Assumptions C03_sub_tightest.

Theorem C03_neg_tightest : forall (F : fmt) (x : itv F), wf x ->
  computes_tightest (neg x) (image1 everywhere Ropp x).
Proof. exact @neg_tightest. Qed.
Print Assumptions C03_neg_tightest.

Theorem C03_pos_tightest : forall (F : fmt) (x : itv F), wf x ->
  computes_tightest (pos x) (image1 everywhere (fun r => r) x).
Proof. exact @pos_tightest. Qed.
Print Assumptions C03_pos_tightest.

(** Adding the largest number to itself overflows upwards only:
    [max,max] + [max,max] = [max, +oo]. *)
Example C03_ex_overflow :
  run (add (fmaxv, fmaxv) ((fmaxv, fmaxv) : itv binary64)) = okz (@fmaxv binary64) finf.
Proof. vm_compute. reflexivity. Qed.
Example C03_ex_wf : wf ((fmaxv, fmaxv) : itv binary64).
Proof. wf_tac. Qed.
