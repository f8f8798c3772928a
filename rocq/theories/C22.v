(** * C22: midpoint-radius form *)
From Coq Require Import ZArith NArith Reals Bool Lra.
From Flocq Require Import Core.Core IEEE754.BinarySingleNaN.
From Verif Require Import Fmt Spec Exc Deco SpecApi MBase PBase Ex PConv MMixed MNum SpecNum PNumF PMidOver.
Local Open Scope R_scope.

Theorem C22_mid_rad : forall (F : fmt) (x : itv F), (exists r, mem r x) ->
  exists m r, returns (n_mid_rad x) (m, r) /\ returns (n_mid x) m /\ returns (n_rad x) r /\ is_finite m = true /\
  ((is_finite r = true /\ forall t, mem t x -> B2R m - B2R r <= t <= B2R m + B2R r) \/ r = finf).
Proof. exact @midrad_encloses. Qed.
Print Assumptions C22_mid_rad.

(** With an arbitrary result type: missing is the case of a bounded interval
    whose midpoint overflows the (narrower) result type. *)
Theorem C22_mid_rad_mixed_partial : forall (F G : fmt) (x : itv F), comparable F G -> (exists r, mem r x) ->
  exists m r, returns (n_mid_rad_mixed G x) (m, r) /\ returns (n_mid_mixed G x) m /\ returns (n_rad_mixed G x) r /\
  (is_finite m = true ->
   ((is_finite r = true /\ forall t, mem t x -> B2R m - B2R r <= t <= B2R m + B2R r) \/ r = finf)) /\
  (within F G \/ ~ bounded_rep x -> is_finite m = true).
Proof. exact @midrad_mixed_encloses. Qed.
Print Assumptions C22_mid_rad_mixed_partial.

(** In that case the midpoint is not finite: [2^130, 2^131] of binary64 with
    result type binary32. *)
Theorem C22_mid_rad_mixed_refuted : exists x : itv binary64, bounded_rep x /\ (exists r, mem r x) /\
  comparable binary64 binary32 /\ returns (n_mid_rad_mixed binary32 x) (finf, finf).
Proof.
exists (fl binary64 1 130, fl binary64 1 131). split; [now split|]. split; [|split].
- exists (B2R (fl binary64 1 130)). apply mem_pt; [easy|easy|]. b2r.
- right; right. now split.
- now intros s.
Qed.
Print Assumptions C22_mid_rad_mixed_refuted.

(** Exactly: for a bounded interval the midpoint is finite, and the pair encloses it, if and only if the exact midpoint
    is less than half a unit of the result type beyond its largest number; otherwise both are infinite. *)
Theorem C22_mid_rad_mixed_exact : forall (F G : fmt) (x : itv F), comparable F G -> bounded_rep x -> (exists r, mem r x) ->
  let c := (B2R (fst x) + B2R (snd x)) / 2 in
  exists m r, returns (n_mid_rad_mixed G x) (m, r) /\
  (is_finite m = true <-> Rabs c < bpow radix2 (emax G) - bpow radix2 (emax G - prec G - 1)) /\
  (is_finite m = true -> (is_finite r = true /\ forall t, mem t x -> B2R m - B2R r <= t <= B2R m + B2R r) \/ r = finf) /\
  (is_finite m = false -> m = (if Rlt_bool 0 c then finf else fminf) /\ r = finf).
Proof. exact @midrad_over. Qed.
Print Assumptions C22_mid_rad_mixed_exact.

Definition run2 {F} (m : M (float F * float F)) : outcome (SpecFloat.spec_float * SpecFloat.spec_float) * est :=
  match m (Est 0 0) with (Ret z, s) => (Ret (B2SF (fst z), B2SF (snd z)), s) | (Throw e, s) => (Throw e, s) | (UB, s) => (UB, s) end.
Example C22_ex :
  run2 (n_mid_rad (fl binary64 1 0, fl binary64 4 0)) = okz (fl binary64 5 (-1)) (fl binary64 3 (-1))
  /\ run2 (n_mid_rad (fl binary64 1 (-1074), fl binary64 2 (-1074))) = okz (fl binary64 2 (-1074)) (fl binary64 1 (-1074))
  /\ run2 (n_mid_rad (fl binary64 (2^52) (-52), fl binary64 (2^52+1) (-52))) = okz (fl binary64 1 0) (fl binary64 1 (-52))
  /\ run2 (n_mid_rad (fl binary64 1 0, finf)) = okz (@fmaxv binary64) finf
  /\ run2 (n_mid_rad_mixed binary32 (fl binary64 1 0, fl binary64 (2^40 + 1) (-40))) = okz (fl binary32 1 0) (fl binary32 1 (-40))
  /\ wf (fl binary64 1 0, fl binary64 (2^40 + 1) (-40)).
Proof. repeat (split; [vm_compute; reflexivity|]). wf_tac. Qed.
(** At the limit: the largest number of binary32 plus half a unit overflows, the number of binary64 before it does not. *)
Example C22_ex_limit :
  run2 (n_mid_rad_mixed binary32 (fl binary64 (2^25 - 1) 103, fl binary64 (2^25 - 1) 103)) = okz finf (@finf binary32)
  /\ run2 (n_mid_rad_mixed binary32 (fl binary64 (2^53 - 2^28 - 1) 75, fl binary64 (2^53 - 2^28 - 1) 75))
     = okz (@fmaxv binary32) (fl binary32 (2^23) 80)
  /\ comparable binary64 binary32 /\ wf (fl binary64 (2^25 - 1) 103, fl binary64 (2^25 - 1) 103).
Proof. split; [vm_compute; reflexivity|]. split; [vm_compute; reflexivity|]. split; [right; right; now split|wf_tac]. Qed.
