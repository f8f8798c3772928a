(** * C10: exponentials and logarithms *)
From Coq Require Import ZArith NArith Reals Bool Lra Ratan.
From Flocq Require Import Core.Core IEEE754.BinarySingleNaN.
From Verif Require Import Fmt Spec Exc Deco SpecApi SpecElem MBase PBase MElem PElem PElem2 Ex.

Local Open Scope R_scope.

Theorem C10_exp_tightest : forall (F : fmt) (x : itv F), wf x ->
  computes_tightest (exp_itv x) (image1 everywhere exp x).
Proof. exact @exp_tightest. Qed.
Print Assumptions C10_exp_tightest.

Theorem C10_exp2_tightest : forall (F : fmt) (x : itv F), wf x ->
  computes_tightest (exp2_itv x) (image1 everywhere exp2R x).
Proof. exact @exp2_tightest. Qed.
Print Assumptions C10_exp2_tightest.

Theorem C10_exp10_tightest : forall (F : fmt) (x : itv F), wf x ->
  computes_tightest (exp10_itv x) (image1 everywhere exp10R x).
Proof. exact @exp10_tightest. Qed.
Print Assumptions C10_exp10_tightest.

Theorem C10_log_tightest : forall (F : fmt) (x : itv F), wf x ->
  computes_tightest (log_itv x) (image1 positive ln x).
Proof. exact @log_tightest. Qed.
Print Assumptions C10_log_tightest.

Theorem C10_log2_tightest : forall (F : fmt) (x : itv F), wf x ->
  computes_tightest (log2_itv x) (image1 positive log2R x).
Proof. exact @log2_tightest. Qed.
Print Assumptions C10_log2_tightest.

Theorem C10_log10_tightest : forall (F : fmt) (x : itv F), wf x ->
  computes_tightest (log10_itv x) (image1 positive log10R x).
Proof. exact @log10_tightest. Qed.
Print Assumptions C10_log10_tightest.

(** exp of the whole line is [0,+oo], log of [-1,+oo] the whole line, log of [-2,0] empty; the
    interval [0,1] is valid, so the result of exp contains exp 0 = 1 and exp 1. *)
Example C10_ex :
  run (exp_itv ((fminf, finf) : itv binary64)) = okz (@f0 binary64) finf
  /\ run (exp2_itv ((fminf, finf) : itv binary32)) = okz (@f0 binary32) finf
  /\ run (log_itv (fl binary64 (-1) 0, finf)) = okz (@fminf binary64) finf
  /\ run (log10_itv (fl binary64 (-2) 0, f0)) = okz (@fnan binary64) fnan
  /\ wf ((f0, fl binary64 1 0) : itv binary64)
  /\ wf ((fl binary64 (-1) 0, finf) : itv binary64).
Proof. repeat (split; [first [wf_tac|vm_compute; reflexivity]|]). wf_tac. Qed.
Example C10_ex_mem : exists z, returns (exp_itv ((f0, fl binary64 1 0) : itv binary64)) z /\ mem 1 z /\ mem (exp 1) z.
Proof.
destruct (C10_exp_tightest binary64 (f0, fl binary64 1 0)) as (z & E & T); [wf_tac|].
exists z. split; [exact E|].
assert (B : B2R (fl binary64 1 0) = 1) by (unfold B2R, F2R; vm_compute; lra).
split; (apply (proj1 (proj2 T))).
- exists 0. split; [split; cbn; unfold lb, ub; cbn; try lra|split; [easy|now rewrite exp_0]].
  change (0 <= B2R (fl binary64 1 0)). lra.
- exists 1. split; [split; cbn; unfold lb, ub; cbn; try lra|split; [easy|easy]].
  change (1 <= B2R (fl binary64 1 0)). lra.
Qed.
