(** * C14: two-argument arctangent *)
From Coq Require Import ZArith NArith Reals Bool Lra.
From Flocq Require Import Core.Core IEEE754.BinarySingleNaN.
From Verif Require Import Fmt Spec Exc Deco SpecApi SpecAtan2 MBase PBase MTrig MAtan2 PAtan2 Ex.

Local Open Scope R_scope.

(** The result is even the tightest interval around all angles. *)
Theorem C14_atan2_tightest : forall (F : fmt) (y x : itv F), wf y -> wf x ->
  computes_tightest (atan2_itv y x) (fun t => exists r s, mem r y /\ mem s x /\ angle r s t).
Proof. exact @atan2_angle. Qed.
Print Assumptions C14_atan2_tightest.

Theorem C14_atan2_empty : forall (F : fmt) (y x z : itv F), wf y -> wf x -> returns (atan2_itv y x) z ->
  z = empty_rep <-> (forall r s, mem r y -> mem s x -> r = 0 /\ s = 0).
Proof. exact @atan2_empty. Qed.
Print Assumptions C14_atan2_empty.

(** Every point but the origin has exactly one angle. *)
Theorem C14_angle_exists_unique : forall y x, (y <> 0 \/ x <> 0) ->
  exists t, angle y x t /\ forall t', angle y x t' -> t' = t.
Proof.
exact (fun y x H => ex_intro _ _ (conj (angle_ratan2 y x H) (fun t' H' => angle_unique y x t' _ H' (angle_ratan2 y x H)))).
Qed.
Print Assumptions C14_angle_exists_unique.

(** The box [-1,0] x [-2,-1] touches the branch cut from below: pi is in the result. *)
Example C14_ex_cut : exists z,
  returns (atan2_itv (fl binary64 (-1) 0, f0) (fl binary64 (-2) 0, fl binary64 (-1) 0)) z /\ mem PI z.
Proof.
assert (B1 : B2R (fl binary64 (-1) 0) = -1) by b2r. assert (B2 : B2R (fl binary64 (-2) 0) = -2) by b2r.
eapply ct_has; [apply C14_atan2_tightest; wf_tac|].
exists 0, (-1). split; [|split].
- apply mem_pt; [reflexivity..|]. rewrite B1. simpl. lra.
- apply mem_pt; [reflexivity..|]. rewrite B1, B2. lra.
- pose proof PI_RGT_0. split; [lra|]. exists 1. rewrite cos_PI, sin_PI. lra.
Qed.
Example C14_ex_origin : run (atan2_itv ((f0, fm0) : itv binary64) (fm0, f0)) = okz (@fnan binary64) fnan
  /\ run (atan2_itv ((f0, f0) : itv binary64) (f0, finf)) = okz (@f0 binary64) f0.
Proof. split; vm_compute; reflexivity. Qed.
