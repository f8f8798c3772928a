(** * C52: functions on valid operands return

    [gives m P]: the call returns a value with [P] in every state of the exception flags, throws
    nothing, sets no flag and has no undefined behaviour.  [un0], [bin0], [tern], [two] and the
    decorated [dun0], [dbin0], [dtern], [dtwo] (MProg.v) list the public functions that return
    intervals; [bint], [dbint] are the reverse sine, cosine and tangent with [x], [canc], [dcanc]
    the cancellative operations. *)
From Coq Require Import ZArith NArith Reals Bool Lra Lia List.
From Flocq Require Import Core.Core IEEE754.BinarySingleNaN.
From Verif Require PRevEven.
From Verif Require Import Fmt Spec PConv PMixed PNai SpecNai FloatFacts Exc Deco SpecApi SpecElem SpecDeco SpecMixed SpecNum SpecRel SpecRev SpecCancel SpecProg MBase PBase MBool MArith MDec MMixed MCancel
  MTrigRev MRev MRev1 MText MStream PDec PClass PValid PValid2 PValid4 PValid5 MProg MClass SpecClass SpecCalm PCalm PCalmC PQuiet PTrigUB PCalm0 PTrigRev2 Ex C25 C50 SpecFar PTrigRev PCalm1 PTrigFar SpecBlind.
Local Open Scope R_scope.

(** ** Bare intervals *)
Theorem C52_one : forall (F T : fmt) f, un0 F T f -> forall x, wf x -> gives (f x) wf.
Proof. exact un0_giv. Qed.
Print Assumptions C52_one.
Theorem C52_two : forall (F G T : fmt) f, bin0 F G T f -> forall x y, wf x -> wf y -> gives (f x y) wf.
Proof. exact bin0_giv. Qed.
Print Assumptions C52_two.
Theorem C52_three : forall (F G H T : fmt) f, tern F G H T f -> forall x y z, wf x -> wf y -> wf z -> gives (f x y z) wf.
Proof. exact tern_giv. Qed.
Print Assumptions C52_three.
Theorem C52_pair : forall (F G T : fmt) f, two F G T f -> forall x y, wf x -> wf y -> gives (f x y) (fun z => wf (fst z) /\ wf (snd z)).
Proof. exact two_giv. Qed.
Print Assumptions C52_pair.

(** ** Decorated intervals *)
Theorem C52_one_dec : forall (F T : fmt) f, dun0 F T f -> forall x, valid_dec x -> gives (f x) valid_dec.
Proof. exact dun0_giv. Qed.
Print Assumptions C52_one_dec.
Theorem C52_two_dec : forall (F G T : fmt) f, dbin0 F G T f -> forall x y, valid_dec x -> valid_dec y -> gives (f x y) valid_dec.
Proof. exact dbin0_giv. Qed.
Print Assumptions C52_two_dec.
Theorem C52_three_dec : forall (F G H T : fmt) f, dtern F G H T f -> forall x y z, valid_dec x -> valid_dec y -> valid_dec z -> gives (f x y z) valid_dec.
Proof. exact dtern_giv. Qed.
Print Assumptions C52_three_dec.
Theorem C52_pair_dec : forall (F G T : fmt) f, dtwo F G T f -> forall x y, valid_dec x -> valid_dec y -> gives (f x y) (fun z => valid_dec (fst z) /\ valid_dec (snd z)).
Proof. exact dtwo_giv. Qed.
Print Assumptions C52_pair_dec.

(** ** Reverse sine, cosine and tangent
    Missing: arguments of large magnitude, where the statement is false. *)
Theorem C52_trig_rev_partial : forall (F G T : fmt) f, bint F G T f -> comparable T F -> comparable T G -> comparable F G ->
  forall c x, modest (prec G) x -> wf c -> wf x -> gives (f c x) wf.
Proof. exact bint_giv. Qed.
Print Assumptions C52_trig_rev_partial.
Theorem C52_trig_rev_dec_partial : forall (F G T : fmt) f, dbint F G T f -> comparable T F -> comparable T G -> comparable F G ->
  forall c x, modest (prec G) (fst x) -> valid_dec c -> valid_dec x -> gives (f c x) valid_dec.
Proof. exact dbint_giv. Qed.
Print Assumptions C52_trig_rev_dec_partial.
(** With at most 61 digits, as in binary32 and binary64, any magnitude will do, provided that no
    bound is a nonzero multiple of 2^63 times pi rounded down. *)
Theorem C52_trig_rev_narrow_partial : forall (F G T : fmt) f, bint F G T f -> comparable T F -> comparable T G -> comparable F G ->
  (prec F <= 61)%Z -> (prec G <= 61)%Z -> (prec T <= 61)%Z ->
  forall c x, apart T x -> apart F x -> apart G x -> wf c -> wf x -> gives (f c x) wf.
Proof. exact bint_narrow. Qed.
Print Assumptions C52_trig_rev_narrow_partial.
Theorem C52_trig_rev_narrow_dec_partial : forall (F G T : fmt) f, dbint F G T f -> comparable T F -> comparable T G -> comparable F G ->
  (prec F <= 61)%Z -> (prec G <= 61)%Z -> (prec T <= 61)%Z ->
  forall c x, apart T (fst x) -> apart F (fst x) -> apart G (fst x) -> valid_dec c -> valid_dec x -> gives (f c x) valid_dec.
Proof. exact dbint_narrow. Qed.
Print Assumptions C52_trig_rev_narrow_dec_partial.
(** At such a multiple all three functions report valid operands as invalid, in every format that
    has the number. *)
Theorem C52_sin_rev_reports_refuted : forall F : fmt, (65 < emax F)%Z ->
  exists (c x : itv F) v, wf c /\ wf x /\ bounded_rep x /\ reports_invalid (sin_rev c x) v.
Proof.
intros F HE. destruct (far_bound HE) as (X & FX & EX). destruct (sin_rev_reports X FX EX) as (v & H). exists cz, (xr X), v.
split; [apply cz_wf|]. split; [now apply xr_wf|]. split; [|easy]. split; [apply is_finite_f1|exact FX].
Qed.
Print Assumptions C52_sin_rev_reports_refuted.
Theorem C52_cos_rev_reports_refuted : forall F : fmt, (65 < emax F)%Z ->
  exists (c x : itv F) v, wf c /\ wf x /\ bounded_rep x /\ reports_invalid (cos_rev c x) v.
Proof.
intros F HE. destruct (far_bound HE) as (X & FX & EX). destruct (cos_rev_reports X FX EX) as (v & H); [lia|]. exists co, (xl X), v.
split; [apply co_wf|]. split; [now apply xl_wf|]. split; [|easy]. split; [cbn [fst xl]; now rewrite PRevEven.fin_fneg|apply is_finite_fm1].
Qed.
Print Assumptions C52_cos_rev_reports_refuted.
Theorem C52_tan_rev_reports_refuted : forall F : fmt, (65 < emax F)%Z ->
  exists (c x : itv F) v, wf c /\ wf x /\ bounded_rep x /\ reports_invalid (tan_rev c x) v.
Proof.
intros F HE. destruct (far_bound HE) as (X & FX & EX). destruct (tan_rev_reports X FX EX) as (v & H). exists cz, (xr X), v.
split; [apply cz_wf|]. split; [now apply xr_wf|]. split; [|easy]. split; [apply is_finite_f1|exact FX].
Qed.
Print Assumptions C52_tan_rev_reports_refuted.
(** The largest branch number of remquo plus one overflows the [long]. *)
Theorem C52_sin_rev_refuted : exists c x : itv binary80, wf c /\ wf x /\ bounded_rep x /\ forall s, fst (sin_rev c x s) = UB.
Proof. exists c0, xp. split; [exact c0_wf|]. split; [exact xp_wf|]. split; [now split|]. intros s. now rewrite sin_rev_undef. Qed.
Print Assumptions C52_sin_rev_refuted.
Theorem C52_cos_rev_refuted : exists c x : itv binary80, wf c /\ wf x /\ bounded_rep x /\ forall s, fst (cos_rev c x s) = UB.
Proof. exists c0, xp. split; [exact c0_wf|]. split; [exact xp_wf|]. split; [now split|]. intros s. now rewrite cos_rev_undef. Qed.
Print Assumptions C52_cos_rev_refuted.
Theorem C52_tan_rev_refuted : exists c x : itv binary80, wf c /\ wf x /\ bounded_rep x /\ forall s, fst (tan_rev c x s) = UB.
Proof. exists c0, xp. split; [exact c0_wf|]. split; [exact xp_wf|]. split; [now split|]. intros s. now rewrite tan_rev_undef. Qed.
Print Assumptions C52_tan_rev_refuted.

(** ** Reverse powers: the recursion ends
    Missing: the exponent INT_MIN, for which the behaviour is undefined (C25_pown_rev_intmin_refuted). *)
Theorem C52_pown_rev_partial : forall (F G T : fmt) (c : itv F) (x : itv G) (p : Z),
  comparable T F -> comparable T G -> comparable F G -> wf c -> wf x -> p <> int_min ->
  finally (fun fuel => pown_rev_mixed T fuel c x p) wf.
Proof.
intros F G T c x p C1 C2 C3 Wc Wx N. destruct (C25_pown_rev_mixed_partial F G T c x p C1 C2 C3 Wc Wx N) as (a & k & R & W & _).
now exists a, k.
Qed.
Print Assumptions C52_pown_rev_partial.

(** ** Cancellative operations
    The bare ones return for all valid operands.  The result is valid, and the decorated ones
    return a valid result, if the operands are [clear]. *)
Theorem C52_cancel_returns : forall (F G T : fmt) f, canc F G T f -> forall x y, wf x -> wf y -> exists z, returns (f x y) z.
Proof. intros F G T f C x y Wx Wy. destruct (canc_calm F G T f C x y Wx Wy) as (z & R & _). now exists z. Qed.
Print Assumptions C52_cancel_returns.
Theorem C52_cancel_partial : forall (F G T : fmt) f, canc F G T f -> forall x y, clear T F G x y -> wf x -> wf y -> gives (f x y) wf.
Proof. exact canc_giv. Qed.
Print Assumptions C52_cancel_partial.
Theorem C52_cancel_dec_partial : forall (F G T : fmt) f, dcanc F G T f -> forall x y, clear T F G (fst x) (fst y) -> valid_dec x -> valid_dec y -> gives (f x y) valid_dec.
Proof. exact dcanc_giv. Qed.
Print Assumptions C52_cancel_dec_partial.
(** For other operands the decorated operation of mixed types blames its own intermediate result:
    invalid_operand is raised although both operands are valid. *)
Theorem C52_cancel_dec_refuted : exists (x y : ditv binary64) v, valid_dec x /\ valid_dec y /\ bounded_rep (fst x) /\ bounded_rep (fst y) /\
  reports_invalid (cancel_minus_dec_mixed binary64 x y) v.
Proof.
destruct minus_dec_mixed_reports as (v & H). exists (bad_x, dac), (bad_y, dac), v.
split; [split; [exact bad_x_dac|cbn; tauto]|]. split; [split; [exact bad_y_dac|cbn; tauto]|]. now split; [|split].
Qed.
Print Assumptions C52_cancel_dec_refuted.

(** ** Expressions and programs
    Expressions of these functions, with any constants that exist, have a valid value on valid
    objects; programs of them neither throw nor touch the flags, whatever copies the compiler
    makes, and end if they have no loops. *)
Theorem C52_expression : forall vt (st : store vt) t (e : term vt t), good_store st -> quiet e -> gives (ev st e) (good_obj t).
Proof. intros vt st t e. exact (ev_quiet st e). Qed.
Print Assumptions C52_expression.
Theorem C52_program : forall vt may (c : cmd vt) (s : state vt) r, exec may c s r -> quiet_cmd c -> good_store (objs s) ->
  exists s', r = Normal s' /\ good_store (objs s') /\ inp s' = inp s /\ env s' = env s.
Proof. intros vt. exact exec_quiet. Qed.
Print Assumptions C52_program.
Theorem C52_program_ends : forall vt (c : cmd vt), quiet_cmd c -> straight c -> forall s, good_store (objs s) -> exists s', exec anyhow c s (Normal s').
Proof. intros vt. exact exec_some. Qed.
Print Assumptions C52_program_ends.

(** ** Examples *)
Example C52_ex_division : gives (div (@entire binary64) (@entire binary64)) wf.
Proof. apply (C52_two _ _ _ _ (b_div binary64)); apply wf_entire. Qed.
Example C52_ex_log_empty : gives (log_mixed binary32 (@empty binary64)) wf.
Proof. apply (C52_one _ _ _ (u_log_mixed binary32 binary64)); apply wf_empty. Qed.
Example C52_ex_nai : gives (add_dec (@nai binary64) (@nai binary64)) valid_dec.
Proof. apply (C52_two_dec _ _ _ _ (db_add binary64)); apply vd_nai. Qed.
Example C52_ex_trig : gives (sin_rev (@entire binary64) (b64 100 0, b64 200 0)) wf.
Proof.
apply (C52_trig_rev_partial _ _ _ _ (b_sin_rev binary64)); try apply comparable_refl; try apply wf_entire; [|wf_tac].
assert (E1 : B2R (b64 100 0) = 100) by (unfold b64; b2r). assert (E2 : B2R (b64 200 0) = 200) by (unfold b64; b2r).
split; intros _; cbn [fst snd]; rewrite ?E1, ?E2; (rewrite Rabs_pos_eq by lra); apply Rle_trans with (bpow radix2 8); try (simpl; lra); apply bpow_le; vm_compute; easy.
Qed.
(** Bounds that are not modest: 2^58 and 2^60. *)
Lemma ex_far : @apart binary64 binary64 (b64 1 58, b64 1 60).
Proof.
intros p B (_ & _ & Tp) HB. destruct (@three binary64) as (t & Ft & Et). assert (P3 : 3 <= p) by (rewrite <- Et; apply Tp; rewrite ?Et; [easy|pose proof pi34; lra]).
assert (E1 : B2R (b64 1 58) = bpow radix2 58) by (unfold b64; b2r). assert (E2 : B2R (b64 1 60) = bpow radix2 60) by (unfold b64; b2r).
assert (Q : IZR (2 ^ 63) <= IZR (2 ^ 63 * B)) by (apply IZR_le; lia). change (IZR (2 ^ 63)) with 9223372036854775808 in Q.
split; intros _; cbn [fst snd]; rewrite ?E1, ?E2; simpl bpow; nra.
Qed.
Example C52_ex_trig_large : gives (sin_rev (@entire binary64) (b64 1 58, b64 1 60)) wf.
Proof.
apply (C52_trig_rev_narrow_partial _ _ _ _ (b_sin_rev binary64)); try apply comparable_refl; try easy; try apply ex_far; [apply wf_entire|wf_tac].
Qed.
Example C52_ex_reports : exists (c x : itv binary32) v, wf c /\ wf x /\ bounded_rep x /\ reports_invalid (tan_rev c x) v.
Proof. apply C52_tan_rev_reports_refuted. easy. Qed.
Example C52_ex_pown_rev : finally (fun fuel => pown_rev_mixed binary64 fuel (fl binary32 (-8) 0, fl binary32 27 0) (@entire binary64) (-3)) wf.
Proof. apply C52_pown_rev_partial; try apply wf_entire; try discriminate; [right; right; now split|now left|right; left; now split|wf_tac]. Qed.
(** The loop of C50 ends in no other way than normally, in every state of the flags. *)
Example C52_ex_loop : forall k m r, exec careful (ex_loop k) (ex_state m) r -> exists s', r = Normal s' /\ env s' = Est 0 m.
Proof.
intros k m r X. destruct (C52_program _ _ _ _ _ X) as (s' & E & _ & _ & E').
- split; [intros st _; now eexists|]. cbn. split; [apply q_bin, b_add|easy].
- intros i. cbn. wf_tac.
- now exists s'.
Qed.
