(** * C13: inverse trigonometric, hyperbolic and inverse hyperbolic functions *)
From Coq Require Import ZArith NArith Reals Bool Lra Ratan.
From Flocq Require Import Core.Core IEEE754.BinarySingleNaN.
From Verif Require Import Fmt Spec Exc Deco SpecApi SpecElem MBase PBase MElem PElem PElem2 Ex.

Local Open Scope R_scope.

Theorem C13_asin_tightest : forall (F : fmt) (x : itv F), wf x ->
  computes_tightest (asin_itv x) (image1 within1 asin x).
Proof. exact @asin_tightest. Qed.
Print Assumptions C13_asin_tightest.

Theorem C13_acos_tightest : forall (F : fmt) (x : itv F), wf x ->
  computes_tightest (acos_itv x) (image1 within1 acos x).
Proof. exact @acos_tightest. Qed.
Print Assumptions C13_acos_tightest.

Theorem C13_atan_tightest : forall (F : fmt) (x : itv F), wf x ->
  computes_tightest (atan_itv x) (image1 everywhere atan x).
Proof. exact @atan_tightest. Qed.
Print Assumptions C13_atan_tightest.

Theorem C13_sinh_tightest : forall (F : fmt) (x : itv F), wf x ->
  computes_tightest (sinh_itv x) (image1 everywhere sinh x).
Proof. exact @sinh_tightest. Qed.
Print Assumptions C13_sinh_tightest.

Theorem C13_cosh_tightest : forall (F : fmt) (x : itv F), wf x ->
  computes_tightest (cosh_itv x) (image1 everywhere cosh x).
Proof. exact @cosh_tightest. Qed.
Print Assumptions C13_cosh_tightest.

Theorem C13_tanh_tightest : forall (F : fmt) (x : itv F), wf x ->
  computes_tightest (tanh_itv x) (image1 everywhere tanh x).
Proof. exact @tanh_tightest. Qed.
Print Assumptions C13_tanh_tightest.

Theorem C13_asinh_tightest : forall (F : fmt) (x : itv F), wf x ->
  computes_tightest (asinh_itv x) (image1 everywhere arcsinh x).
Proof. exact @asinh_tightest. Qed.
Print Assumptions C13_asinh_tightest.

Theorem C13_acosh_tightest : forall (F : fmt) (x : itv F), wf x ->
  computes_tightest (acosh_itv x) (image1 from1 acoshR x).
Proof. exact @acosh_tightest. Qed.
Print Assumptions C13_acosh_tightest.

Theorem C13_atanh_tightest : forall (F : fmt) (x : itv F), wf x ->
  computes_tightest (atanh_itv x) (image1 inside1 atanhR x).
Proof. exact @atanh_tightest. Qed.
Print Assumptions C13_atanh_tightest.

(** tanh of the whole line is [-1,1], cosh of [-oo,+oo] is [1,+oo], acosh of [-3,-2] and asin of
    [2,3] are empty, atanh of [-1,1] the whole line; bounded arguments are covered as well. *)
Example C13_ex :
  run (tanh_itv ((fminf, finf) : itv binary64)) = okz (@fm1 binary64) f1
  /\ run (cosh_itv ((fminf, finf) : itv binary64)) = okz (@f1 binary64) finf
  /\ run (acosh_itv (fl binary64 (-3) 0, fl binary64 (-2) 0)) = okz (@fnan binary64) fnan
  /\ run (asin_itv (fl binary64 2 0, fl binary64 3 0)) = okz (@fnan binary64) fnan
  /\ run (sinh_itv ((fminf, finf) : itv binary32)) = okz (@fminf binary32) finf
  /\ wf ((fl binary64 (-1) 0, fl binary64 1 0) : itv binary64)
  /\ wf ((fl binary64 2 0, fl binary64 3 0) : itv binary64).
Proof. repeat (split; [first [wf_tac|vm_compute; reflexivity]|]). wf_tac. Qed.
Example C13_ex_mem : exists z, returns (atan_itv ((fl binary64 (-1) 0, fl binary64 1 0) : itv binary64)) z
  /\ mem (PI / 4) z /\ mem (- (PI / 4)) z.
Proof.
destruct (C13_atan_tightest binary64 (fl binary64 (-1) 0, fl binary64 1 0)) as (z & E & T); [wf_tac|].
exists z. split; [exact E|].
assert (B : B2R (fl binary64 1 0) = 1) by (unfold B2R, F2R; vm_compute; lra).
assert (B' : B2R (fl binary64 (-1) 0) = -1) by (unfold B2R, F2R; vm_compute; lra).
split; (apply (proj1 (proj2 T))).
- exists 1. split; [split; cbn; unfold lb, ub; cbn|split; [easy|now rewrite atan_1]].
  + change (B2R (fl binary64 (-1) 0) <= 1). lra.
  + change (1 <= B2R (fl binary64 1 0)). lra.
- exists (-1). split; [split; cbn; unfold lb, ub; cbn|split; [easy|]].
  + change (B2R (fl binary64 (-1) 0) <= -1). lra.
  + change (-1 <= B2R (fl binary64 1 0)). lra.
  + replace (-1) with (- (1)) by ring. now rewrite atan_opp, atan_1.
Qed.
