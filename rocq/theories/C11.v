(** * C11: sine and cosine *)
From Coq Require Import ZArith NArith Reals Bool Lra.
From Flocq Require Import Core.Core IEEE754.BinarySingleNaN.
From Verif Require Import Fmt Spec Exc Deco SpecApi SpecElem MBase PBase MTrig PTrig PTrigT Ex.

Local Open Scope R_scope.

Theorem C11_sin_tightest : forall (F : fmt) (x : itv F), wf x ->
  computes_tightest (sin_itv x) (image1 everywhere sin x).
Proof. exact @sin_tightest. Qed.
Print Assumptions C11_sin_tightest.

Theorem C11_cos_tightest : forall (F : fmt) (x : itv F), wf x ->
  computes_tightest (cos_itv x) (image1 everywhere cos x).
Proof. exact @cos_tightest. Qed.
Print Assumptions C11_cos_tightest.

Theorem C11_sin_range : forall (F : fmt) (x z : itv F), wf x -> returns (sin_itv x) z ->
  forall r, mem r z -> -1 <= r <= 1.
Proof. exact @sin_range. Qed.
Print Assumptions C11_sin_range.

Theorem C11_cos_range : forall (F : fmt) (x z : itv F), wf x -> returns (cos_itv x) z ->
  forall r, mem r z -> -1 <= r <= 1.
Proof. exact @cos_range. Qed.
Print Assumptions C11_cos_range.

(** [1,2] has a maximum of the sine inside and is narrow; [-oo,3] is wide. *)
Example C11_ex_narrow : exists z, returns (sin_itv (fl binary64 1 0, fl binary64 2 0)) z /\ mem 1 z.
Proof.
assert (B1 : B2R (fl binary64 1 0) = 1) by b2r. assert (B2 : B2R (fl binary64 2 0) = 2) by b2r.
apply ct_has with (image1 everywhere sin (fl binary64 1 0, fl binary64 2 0)).
- apply C11_sin_tightest. wf_tac.
- exists (PI / 2). split; [|split; [easy|now rewrite sin_PI2]].
  apply mem_pt; [reflexivity..|]. rewrite B1, B2. pose proof PI2_3_2. pose proof PI_4. lra.
Qed.
Example C11_ex_wide : exists z, returns (cos_itv ((fminf, fl binary64 3 0) : itv binary64)) z /\ mem (-1) z.
Proof.
assert (B3 : B2R (fl binary64 3 0) = 3) by b2r. pose proof PI2_3_2. pose proof PI_4.
assert (M : forall r, r <= 3 -> mem r ((fminf, fl binary64 3 0) : itv binary64)).
{ intros r Hr. split; [reflexivity|]. cbn [snd]. change (r <= B2R (fl binary64 3 0)). now rewrite B3. }
apply ct_has with (image1 everywhere cos (fminf, fl binary64 3 0)).
- apply C11_cos_tightest. wf_tac.
- exists (- PI). split; [apply M; lra|split; [easy|]]. now rewrite cos_neg, cos_PI.
Qed.
