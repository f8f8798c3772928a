(** * C48: reverse operations are contractors

    Claimed: for every constraint c and box x a reverse operation returns a part of x;
    applying it again changes nothing; a weaker constraint or a larger box gives a larger
    result; the image of x as the constraint removes nothing.  Proved for the square, the
    absolute value, the hyperbolic cosine, the multiplication and integer powers (except
    INT_MIN).  For sine, cosine and tangent: only the first and, for bounds of modest size,
    the last; the third is false of the reverse sine. *)
From Coq Require Import ZArith NArith Reals Bool Lra.
From Flocq Require Import Core.Core IEEE754.BinarySingleNaN.
From Verif Require Import Fmt Spec FloatFacts Exc Deco SpecApi SpecElem SpecDeco SpecNum SpecProg MBase PBase Ex MBool MArith MElem MPow MTrig PTan PTanF PTanOff PTan64 MRev MTrigRev SpecRev SpecNear SpecContr PContr PContr2.
Local Open Scope R_scope.

(** ** The result is a part of the box *)
Theorem C48_sqr_rev_contracts : forall F : fmt, contracts (of_op (@sqr_rev F)).
Proof. exact sqr_rev_contr. Qed.
Print Assumptions C48_sqr_rev_contracts.
Theorem C48_abs_rev_contracts : forall F : fmt, contracts (of_op (@abs_rev F)).
Proof. exact abs_rev_contr. Qed.
Print Assumptions C48_abs_rev_contracts.
Theorem C48_cosh_rev_contracts : forall F : fmt, contracts (of_op (@cosh_rev F)).
Proof. exact cosh_rev_contr. Qed.
Print Assumptions C48_cosh_rev_contracts.
Theorem C48_mul_rev_contracts : forall (F : fmt) (b : itv F), wf b -> contracts (of_op (mul_rev b)).
Proof. exact @mul_rev_contr. Qed.
Print Assumptions C48_mul_rev_contracts.
Theorem C48_pown_rev_contracts_partial : forall (F : fmt) (p : Z), p <> int_min -> contracts (of_loop (fun n c x => @pown_rev F n c x p)).
Proof. exact @pown_rev_contr. Qed.
Print Assumptions C48_pown_rev_contracts_partial.
(** The trigonometric ones, whenever they return. *)
Theorem C48_sin_rev_contracts_partial : forall (F : fmt) (c x : itv F), wf c -> wf x -> delivers (sin_rev c x) (fun z => wf z /\ included z x).
Proof. exact @sin_rev_in. Qed.
Print Assumptions C48_sin_rev_contracts_partial.
Theorem C48_cos_rev_contracts_partial : forall (F : fmt) (c x : itv F), wf c -> wf x -> delivers (cos_rev c x) (fun z => wf z /\ included z x).
Proof. exact @cos_rev_in. Qed.
Print Assumptions C48_cos_rev_contracts_partial.
Theorem C48_tan_rev_contracts_partial : forall (F : fmt) (c x : itv F), wf c -> wf x -> delivers (tan_rev c x) (fun z => wf z /\ included z x).
Proof. exact @tan_rev_in. Qed.
Print Assumptions C48_tan_rev_contracts_partial.

(** ** A second application changes nothing *)
Theorem C48_sqr_rev_idempotent : forall F : fmt, idempotent (of_op (@sqr_rev F)).
Proof. exact sqr_rev_idem. Qed.
Print Assumptions C48_sqr_rev_idempotent.
Theorem C48_abs_rev_idempotent : forall F : fmt, idempotent (of_op (@abs_rev F)).
Proof. exact abs_rev_idem. Qed.
Print Assumptions C48_abs_rev_idempotent.
Theorem C48_cosh_rev_idempotent : forall F : fmt, idempotent (of_op (@cosh_rev F)).
Proof. exact cosh_rev_idem. Qed.
Print Assumptions C48_cosh_rev_idempotent.
Theorem C48_mul_rev_idempotent : forall (F : fmt) (b : itv F), wf b -> idempotent (of_op (mul_rev b)).
Proof. exact @mul_rev_idem. Qed.
Print Assumptions C48_mul_rev_idempotent.
Theorem C48_pown_rev_idempotent_partial : forall (F : fmt) (p : Z), p <> int_min -> idempotent (of_loop (fun n c x => @pown_rev F n c x p)).
Proof. exact @pown_rev_idem. Qed.
Print Assumptions C48_pown_rev_idempotent_partial.

(** ** Weaker constraint, larger box, larger result *)
Theorem C48_sqr_rev_monotone : forall F : fmt, monotone (of_op (@sqr_rev F)).
Proof. exact sqr_rev_mono. Qed.
Print Assumptions C48_sqr_rev_monotone.
Theorem C48_abs_rev_monotone : forall F : fmt, monotone (of_op (@abs_rev F)).
Proof. exact abs_rev_mono. Qed.
Print Assumptions C48_abs_rev_monotone.
Theorem C48_cosh_rev_monotone : forall F : fmt, monotone (of_op (@cosh_rev F)).
Proof. exact cosh_rev_mono. Qed.
Print Assumptions C48_cosh_rev_monotone.
Theorem C48_mul_rev_monotone : forall (F : fmt) (b b' c c' x x' : itv F), wf b -> wf b' -> wf c -> wf c' -> wf x -> wf x' ->
  included b b' -> included c c' -> included x x' ->
  exists z z', returns (mul_rev b c x) z /\ returns (mul_rev b' c' x') z' /\ included z z'.
Proof. exact @mul_rev_mono. Qed.
Print Assumptions C48_mul_rev_monotone.
Theorem C48_pown_rev_monotone_partial : forall (F : fmt) (p : Z), p <> int_min -> monotone (of_loop (fun n c x => @pown_rev F n c x p)).
Proof. exact @pown_rev_mono. Qed.
Print Assumptions C48_pown_rev_monotone_partial.
(** The reverse sine is not monotone: a part of the box has solutions, for the whole box it returns the empty set. *)
Theorem C48_sin_rev_monotone_any_refuted : forall F : fmt, (9 <= prec F)%Z -> exists c x x' : itv F, wf c /\ wf x /\ wf x' /\ included x x' /\
  exists z, returns (sin_rev c x) z /\ returns (sin_rev c x') empty /\ exists t, mem t z.
Proof. exact @sin_rev_not_mono. Qed.
Print Assumptions C48_sin_rev_monotone_any_refuted.
Theorem C48_sin_rev_monotone_refuted : exists c x x' : itv binary64, wf c /\ wf x /\ wf x' /\ included x x' /\
  exists z, returns (sin_rev c x) z /\ returns (sin_rev c x') empty /\ exists t, mem t z.
Proof. apply (@sin_rev_not_mono binary64). vm_compute. easy. Qed.
Print Assumptions C48_sin_rev_monotone_refuted.

(** ** The image as the constraint removes nothing *)
Theorem C48_sqr_rev_recovers : forall F : fmt, recovers any_box (@sqr F) (of_op (@sqr_rev F)).
Proof. exact sqr_rev_recov. Qed.
Print Assumptions C48_sqr_rev_recovers.
Theorem C48_abs_rev_recovers : forall F : fmt, recovers any_box (@abs F) (of_op (@abs_rev F)).
Proof. exact abs_rev_recov. Qed.
Print Assumptions C48_abs_rev_recovers.
Theorem C48_cosh_rev_recovers : forall F : fmt, recovers any_box (@cosh_itv F) (of_op (@cosh_rev F)).
Proof. exact cosh_rev_recov. Qed.
Print Assumptions C48_cosh_rev_recovers.
Theorem C48_mul_rev_recovers : forall (F : fmt) (b : itv F), wf b -> (exists s, mem s b) -> recovers any_box (mul b) (of_op (mul_rev b)).
Proof. exact @mul_rev_recov. Qed.
Print Assumptions C48_mul_rev_recovers.
(** Negative exponents: except the box {0}, whose image is empty. *)
Theorem C48_pown_rev_recovers_partial : forall (F : fmt) (p : Z), p <> int_min ->
  recovers (fun x : itv F => (0 <= p)%Z \/ (exists t, mem t x /\ t <> 0) \/ forall t, ~ mem t x) (fun x => pown x p)
    (of_loop (fun n c x => @pown_rev F n c x p)).
Proof. exact @pown_rev_recov. Qed.
Print Assumptions C48_pown_rev_recovers_partial.
Theorem C48_cos_rev_recovers_partial : forall F : fmt, recovers (modest (prec F)) (@cos_itv F) (of_op (@cos_rev F)).
Proof. exact @cos_rev_recov. Qed.
Print Assumptions C48_cos_rev_recovers_partial.
Theorem C48_sin_rev_recovers_partial : forall F : fmt, (8 <= prec F)%Z -> recovers (modest (prec F - 6)) (@sin_itv F) (of_op (@sin_rev F)).
Proof. exact @sin_rev_recov. Qed.
Print Assumptions C48_sin_rev_recovers_partial.
(** The tangent: for boxes whose image it encloses, see C12. *)
Theorem C48_tan_rev_recovers_partial : forall F : fmt, (8 <= prec F)%Z ->
  recovers (fun x => modest (prec F - 6) x /\ computes_enclosure (tan_itv x) (image1 (fun r => cos r <> 0) tan x)) (@tan_itv F) (of_op (@tan_rev F)).
Proof. exact @tan_rev_recov. Qed.
Print Assumptions C48_tan_rev_recovers_partial.
Theorem C48_tan_rev_recovers_binary32_partial : recovers (modest (prec binary32 - 6)) (@tan_itv binary32) (of_op (@tan_rev binary32)).
Proof. intros x Wx Mx. apply (@tan_rev_recov binary32); [vm_compute; easy|easy|]. split; [easy|]. now apply (@tan_far binary32 x far32). Qed.
Print Assumptions C48_tan_rev_recovers_binary32_partial.

(** ** Examples *)
Notation b64 := (fl binary64).
Example C48_ex :
  (* contraction, and again *)
  run (sqr_rev (b64 4 0, b64 9 0) (b64 (-10) 0, b64 1 0)) = okz (b64 (-3) 0) (b64 (-2) 0)
  /\ run (sqr_rev (b64 4 0, b64 9 0) (b64 (-3) 0, b64 (-2) 0)) = okz (b64 (-3) 0) (b64 (-2) 0)
  (* a larger box and a weaker constraint *)
  /\ run (sqr_rev (b64 4 0, b64 16 0) (b64 (-10) 0, b64 3 0)) = okz (b64 (-4) 0) (b64 3 0)
  (* the image of [-3,2] *)
  /\ run (sqr (b64 (-3) 0, b64 2 0)) = okz (b64 0 0) (b64 9 0)
  /\ run (sqr_rev (b64 0 0, b64 9 0) (b64 (-3) 0, b64 2 0)) = okz (b64 (-3) 0) (b64 2 0)
  /\ run (mul_rev (b64 2 0, b64 3 0) (b64 6 0, b64 12 0) (b64 1 0, b64 4 0)) = okz (b64 2 0) (b64 4 0)
  /\ run (mul_rev (b64 2 0, b64 3 0) (b64 6 0, b64 12 0) (b64 2 0, b64 4 0)) = okz (b64 2 0) (b64 4 0)
  /\ wf (b64 4 0, b64 9 0) /\ wf (b64 (-3) 0, b64 2 0).
Proof. repeat split; try (vm_compute; reflexivity); wf_tac. Qed.
(** The reverse cosine of the cosine of [1,10] is [1,10]. *)
Example C48_ex_cos : exists c z, returns (cos_itv (b64 1 0, b64 10 0)) c /\ returns (cos_rev c (b64 1 0, b64 10 0)) z /\ same_set z (b64 1 0, b64 10 0).
Proof.
assert (E1 : B2R (b64 1 0) = 1) by b2r. assert (E2 : B2R (b64 10 0) = 10) by b2r.
destruct (C48_cos_rev_recovers_partial binary64 (b64 1 0, b64 10 0) ltac:(wf_tac)) as (c & z & H1 & _ & H2 & H3).
{ split; intros _; cbn [fst snd]; rewrite ?E1, ?E2; (rewrite Rabs_pos_eq by lra); apply Rle_trans with (bpow radix2 5); try (simpl; lra); apply bpow_le; vm_compute; easy. }
now exists c, z.
Qed.
