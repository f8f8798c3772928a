(** * C16: decorations never overstate *)
From Coq Require Import ZArith NArith Reals Bool List Lra.
From Flocq Require Import Core.Core IEEE754.BinarySingleNaN.
From Verif Require Import Fmt Spec FloatFacts Exc Deco SpecApi SpecElem SpecAtan2 SpecDeco SpecTan SpecTan2 MBase PBase MBool MArith MElem MPow
  MTrig PTan PTanF MAtan2 MDec PDecF PDecT PTanOff PTan64 PTanIff Ex.
Import ListNotations.
Local Open Scope R_scope.

(** For every function: the interval part is the bare result, the decoration is
    not better than that of an operand, and what it says about the function on
    the operands is true ([SpecDeco.honest]). *)
Theorem C16_neg : forall F : fmt, @decorates1 F neg_dec neg everywhere Ropp.
Proof. exact @neg_decorates. Qed.
Theorem C16_pos : forall F : fmt, @decorates1 F pos_dec pos everywhere (fun r => r).
Proof. exact @pos_decorates. Qed.
Theorem C16_recip : forall F : fmt, @decorates1 F recip_dec recip (fun r => r <> 0) Rinv.
Proof. exact @recip_decorates. Qed.
Theorem C16_sqr : forall F : fmt, @decorates1 F sqr_dec sqr everywhere (fun r => r * r).
Proof. exact @sqr_decorates. Qed.
Theorem C16_abs : forall F : fmt, @decorates1 F abs_dec abs everywhere Rabs.
Proof. exact @abs_decorates. Qed.
Theorem C16_sqrt : forall F : fmt, @decorates1 F sqrt_dec sqrt (fun r => 0 <= r) R_sqrt.sqrt.
Proof. exact @sqrt_decorates. Qed.
Theorem C16_exp : forall F : fmt, @decorates1 F exp_dec exp_itv everywhere exp.
Proof. exact @exp_decorates. Qed.
Theorem C16_exp2 : forall F : fmt, @decorates1 F exp2_dec exp2_itv everywhere exp2R.
Proof. exact @exp2_decorates. Qed.
Theorem C16_exp10 : forall F : fmt, @decorates1 F exp10_dec exp10_itv everywhere exp10R.
Proof. exact @exp10_decorates. Qed.
Theorem C16_log : forall F : fmt, @decorates1 F log_dec log_itv positive ln.
Proof. exact @log_decorates. Qed.
Theorem C16_log2 : forall F : fmt, @decorates1 F log2_dec log2_itv positive log2R.
Proof. exact @log2_decorates. Qed.
Theorem C16_log10 : forall F : fmt, @decorates1 F log10_dec log10_itv positive log10R.
Proof. exact @log10_decorates. Qed.
Theorem C16_sin : forall F : fmt, @decorates1 F sin_dec sin_itv everywhere sin.
Proof. exact @sin_decorates. Qed.
Theorem C16_cos : forall F : fmt, @decorates1 F cos_dec cos_itv everywhere cos.
Proof. exact @cos_decorates. Qed.
Theorem C16_asin : forall F : fmt, @decorates1 F asin_dec asin_itv within1 asin.
Proof. exact @asin_decorates. Qed.
Theorem C16_acos : forall F : fmt, @decorates1 F acos_dec acos_itv within1 acos.
Proof. exact @acos_decorates. Qed.
Theorem C16_atan : forall F : fmt, @decorates1 F atan_dec atan_itv everywhere atan.
Proof. exact @atan_decorates. Qed.
Theorem C16_sinh : forall F : fmt, @decorates1 F sinh_dec sinh_itv everywhere sinh.
Proof. exact @sinh_decorates. Qed.
Theorem C16_cosh : forall F : fmt, @decorates1 F cosh_dec cosh_itv everywhere cosh.
Proof. exact @cosh_decorates. Qed.
Theorem C16_tanh : forall F : fmt, @decorates1 F tanh_dec tanh_itv everywhere tanh.
Proof. exact @tanh_decorates. Qed.
Theorem C16_asinh : forall F : fmt, @decorates1 F asinh_dec asinh_itv everywhere arcsinh.
Proof. exact @asinh_decorates. Qed.
Theorem C16_acosh : forall F : fmt, @decorates1 F acosh_dec acosh_itv from1 acoshR.
Proof. exact @acosh_decorates. Qed.
Theorem C16_atanh : forall F : fmt, @decorates1 F atanh_dec atanh_itv inside1 atanhR.
Proof. exact @atanh_decorates. Qed.
Theorem C16_sign : forall F : fmt, @decorates1 F sign_dec sign_itv everywhere signR.
Proof. exact @sign_decorates. Qed.
Theorem C16_ceil : forall F : fmt, @decorates1 F ceil_dec ceil_itv everywhere ceilR.
Proof. exact @ceil_decorates. Qed.
Theorem C16_floor : forall F : fmt, @decorates1 F floor_dec floor_itv everywhere floorR.
Proof. exact @floor_decorates. Qed.
Theorem C16_trunc : forall F : fmt, @decorates1 F trunc_dec trunc_itv everywhere truncR.
Proof. exact @trunc_decorates. Qed.
Theorem C16_rte : forall F : fmt, @decorates1 F round_ties_to_even_dec round_ties_to_even_itv everywhere rteR.
Proof. exact @rte_decorates. Qed.
Theorem C16_rta : forall F : fmt, @decorates1 F round_ties_to_away_dec round_ties_to_away_itv everywhere rtaR.
Proof. exact @rta_decorates. Qed.
Theorem C16_add : forall F : fmt, @decorates2 F add_dec add everywhere2 Rplus.
Proof. exact @add_decorates. Qed.
Theorem C16_sub : forall F : fmt, @decorates2 F sub_dec sub everywhere2 Rminus.
Proof. exact @sub_decorates. Qed.
Theorem C16_mul : forall F : fmt, @decorates2 F mul_dec mul everywhere2 Rmult.
Proof. exact @mul_decorates. Qed.
Theorem C16_div : forall F : fmt, @decorates2 F div_dec div (fun _ s => s <> 0) Rdiv.
Proof. exact @div_decorates. Qed.
Theorem C16_min : forall F : fmt, @decorates2 F min_dec min everywhere2 Rmin.
Proof. exact @min_decorates. Qed.
Theorem C16_max : forall F : fmt, @decorates2 F max_dec max everywhere2 Rmax.
Proof. exact @max_decorates. Qed.
Theorem C16_pow : forall F : fmt, @decorates2 F pow_dec pow pow_dom powR.
Proof. exact @pow_decorates. Qed.
Theorem C16_atan2 : forall F : fmt, @decorates2 F atan2_dec atan2_itv not_origin ratan2.
Proof. exact @atan2_decorates. Qed.
Theorem C16_pown : forall (F : fmt) (k : Z), @decorates1 F (fun x => pown_dec x k) (fun x => pown x k) (pown_dom k) (pownR k).
Proof. exact @pown_decorates. Qed.
Theorem C16_fma : forall F : fmt, @decorates3 F fma_dec fma (fun r s t => r * s + t).
Proof. exact @fma_decorates. Qed.
Print Assumptions C16_add. Print Assumptions C16_div. Print Assumptions C16_fma. Print Assumptions C16_pow.
Print Assumptions C16_atan2. Print Assumptions C16_rte. Print Assumptions C16_sin. Print Assumptions C16_log.

(** Tangent: [float] and [long double]; for [double] only without a pole, ... *)
Theorem C16_tan_binary32 : @decorates1 binary32 tan_dec tan_itv (fun r => cos r <> 0) tan.
Proof. exact (tan_decorates far32). Qed.
Theorem C16_tan_binary80 : @decorates1 binary80 tan_dec tan_itv (fun r => cos r <> 0) tan.
Proof. exact (tan_decorates far80). Qed.
Print Assumptions C16_tan_binary32.
Theorem C16_tan_no_pole_partial : forall (F : fmt) (x : ditv F), wf_dec x -> is_deco (snd x) -> snd x <> ill ->
  (forall r, mem r (fst x) -> cos r <> 0) ->
  exists z, returns (tan_dec x) z /\ wf_dec z /\ is_deco (snd z) /\ snd z <> ill /\
    returns (tan_itv (fst x)) (fst z) /\ (snd z <= snd x)%N /\
    honest near1 (box1 (fst x)) (fun r => cos r <> 0) (bounded_rep (fst x)) tan (fst z) (snd z).
Proof. exact (fun F x W D N H => tan_dec_ok x W D N (free_pole_seen (fst x) H)). Qed.
Print Assumptions C16_tan_no_pole_partial.
(** With or without poles, if the width is not about pi. *)
Theorem C16_tan_off_pi_partial : forall (F : fmt) (x : ditv F), (prec F + 3 <= emax F)%Z ->
  wf_dec x -> is_deco (snd x) -> snd x <> ill -> off_pi F (fst x) ->
  exists z, returns (tan_dec x) z /\ wf_dec z /\ is_deco (snd z) /\ snd z <> ill /\
    returns (tan_itv (fst x)) (fst z) /\ (snd z <= snd x)%N /\
    honest near1 (box1 (fst x)) (fun r => cos r <> 0) (bounded_rep (fst x)) tan (fst z) (snd z).
Proof. exact @tan_dec_off. Qed.
Print Assumptions C16_tan_off_pi_partial.
Theorem C16_tan_binary64_partial : forall x : ditv binary64, wf_dec x -> is_deco (snd x) -> snd x <> ill -> width_not_pi64 (fst x) ->
  exists z, returns (tan_dec x) z /\ wf_dec z /\ is_deco (snd z) /\ snd z <> ill /\
    returns (tan_itv (fst x)) (fst z) /\ (snd z <= snd x)%N /\
    honest near1 (box1 (fst x)) (fun r => cos r <> 0) (bounded_rep (fst x)) tan (fst z) (snd z).
Proof. exact tan_dec64. Qed.
Print Assumptions C16_tan_binary64_partial.
(** In every format, with or without poles: if no pole is hidden (see C12) ... *)
Theorem C16_tan_not_hidden_partial : forall (F : fmt) (x : ditv F), wf_dec x -> is_deco (snd x) -> snd x <> ill -> ~ pole_hidden F (fst x) ->
  exists z, returns (tan_dec x) z /\ wf_dec z /\ is_deco (snd z) /\ snd z <> ill /\
    returns (tan_itv (fst x)) (fst z) /\ (snd z <= snd x)%N /\
    honest near1 (box1 (fst x)) (fun r => cos r <> 0) (bounded_rep (fst x)) tan (fst z) (snd z).
Proof. exact @tan_seen_dec. Qed.
Print Assumptions C16_tan_not_hidden_partial.
(** ... and only then: every operand with a hidden pole, unless decorated trv, gets a decoration that says "defined everywhere". *)
Theorem C16_tan_hidden_refuted : forall (F : fmt) (x : ditv F), wf_dec x -> is_deco (snd x) -> snd x <> ill -> snd x <> trv ->
  pole_hidden F (fst x) -> exists z r, returns (tan_dec x) z /\ (def <= snd z)%N /\ mem r (fst x) /\ cos r = 0.
Proof. exact @hidden_dec. Qed.
Print Assumptions C16_tan_hidden_refuted.
(** ... since there a pole can be missed: the result says "defined everywhere". *)
Theorem C16_tan_binary64_refuted : exists (x z : ditv binary64) r, wf_dec x /\ is_deco (snd x) /\ snd x <> ill /\
  returns (tan_dec x) z /\ (def <= snd z)%N /\ mem r (fst x) /\ cos r = 0.
Proof. exact tan64_dec_refuted. Qed.
Print Assumptions C16_tan_binary64_refuted.

(** ** Examples: operands meeting the hypotheses, and the result where it computes *)
Notation b n e := (fl binary64 n e).
Notation s n e := (fl binary32 n e).
Example C16_ex_neg : wf_dec ((b 1 0, b 3 0), com) /\ is_deco com /\ com <> ill /\ rund (neg_dec ((b 1 0, b 3 0), com)) = okd (b (-3) 0) (b (-1) 0) com.
Proof. split; [wf_tac|]. split; [unfold is_deco; simpl; tauto|]. split; [easy|]. vm_compute; reflexivity. Qed.
Example C16_ex_pos : wf_dec ((b 1 0, b 3 0), def) /\ is_deco def /\ def <> ill /\ rund (pos_dec ((b 1 0, b 3 0), def)) = okd (b 1 0) (b 3 0) def.
Proof. split; [wf_tac|]. split; [unfold is_deco; simpl; tauto|]. split; [easy|]. vm_compute; reflexivity. Qed.
Example C16_ex_recip : wf_dec ((b 2 0, b 4 0), com) /\ is_deco com /\ com <> ill /\ rund (recip_dec ((b 2 0, b 4 0), com)) = okd (b 1 (-2)) (b 1 (-1)) com.
Proof. split; [wf_tac|]. split; [unfold is_deco; simpl; tauto|]. split; [easy|]. vm_compute; reflexivity. Qed.
Example C16_ex_recip0 : wf_dec ((b 0 0, b 4 0), com) /\ is_deco com /\ com <> ill /\ rund (recip_dec ((b 0 0, b 4 0), com)) = okd (b 1 (-2)) (finf) trv.
Proof. split; [wf_tac|]. split; [unfold is_deco; simpl; tauto|]. split; [easy|]. vm_compute; reflexivity. Qed.
Example C16_ex_sqr : wf_dec ((b (-3) 0, b 2 0), dac) /\ is_deco dac /\ dac <> ill /\ rund (sqr_dec ((b (-3) 0, b 2 0), dac)) = okd (b 0 0) (b 9 0) dac.
Proof. split; [wf_tac|]. split; [unfold is_deco; simpl; tauto|]. split; [easy|]. vm_compute; reflexivity. Qed.
Example C16_ex_abs : wf_dec ((b (-3) 0, finf), dac) /\ is_deco dac /\ dac <> ill /\ rund (abs_dec ((b (-3) 0, finf), dac)) = okd (b 0 0) (finf) dac.
Proof. split; [wf_tac|]. split; [unfold is_deco; simpl; tauto|]. split; [easy|]. vm_compute; reflexivity. Qed.
Example C16_ex_sqrt : wf_dec ((b 4 0, b 9 0), com) /\ is_deco com /\ com <> ill /\ rund (sqrt_dec ((b 4 0, b 9 0), com)) = okd (b 2 0) (b 3 0) com.
Proof. split; [wf_tac|]. split; [unfold is_deco; simpl; tauto|]. split; [easy|]. vm_compute; reflexivity. Qed.
Example C16_ex_sqrt_neg : wf_dec ((b (-4) 0, b 9 0), com) /\ is_deco com /\ com <> ill /\ rund (sqrt_dec ((b (-4) 0, b 9 0), com)) = okd (b 0 0) (b 3 0) trv.
Proof. split; [wf_tac|]. split; [unfold is_deco; simpl; tauto|]. split; [easy|]. vm_compute; reflexivity. Qed.
Example C16_ex_sign : wf_dec ((b (-4) 0, b 9 0), com) /\ is_deco com /\ com <> ill /\ rund (sign_dec ((b (-4) 0, b 9 0), com)) = okd (b (-1) 0) (b 1 0) def.
Proof. split; [wf_tac|]. split; [unfold is_deco; simpl; tauto|]. split; [easy|]. vm_compute; reflexivity. Qed.
Example C16_ex_sign_pos : wf_dec ((b 4 0, b 9 0), com) /\ is_deco com /\ com <> ill /\ rund (sign_dec ((b 4 0, b 9 0), com)) = okd (b 1 0) (b 1 0) com.
Proof. split; [wf_tac|]. split; [unfold is_deco; simpl; tauto|]. split; [easy|]. vm_compute; reflexivity. Qed.
Example C16_ex_ceil : wf_dec ((b 3 (-1), b 2 0), com) /\ is_deco com /\ com <> ill /\ rund (ceil_dec ((b 3 (-1), b 2 0), com)) = okd (b 2 0) (b 2 0) dac.
Proof. split; [wf_tac|]. split; [unfold is_deco; simpl; tauto|]. split; [easy|]. vm_compute; reflexivity. Qed.
Example C16_ex_ceil_inner : wf_dec ((b 5 (-2), b 3 (-1)), com) /\ is_deco com /\ com <> ill /\ rund (ceil_dec ((b 5 (-2), b 3 (-1)), com)) = okd (b 2 0) (b 2 0) com.
Proof. split; [wf_tac|]. split; [unfold is_deco; simpl; tauto|]. split; [easy|]. vm_compute; reflexivity. Qed.
Example C16_ex_floor : wf_dec ((b 1 0, b 3 (-1)), com) /\ is_deco com /\ com <> ill /\ rund (floor_dec ((b 1 0, b 3 (-1)), com)) = okd (b 1 0) (b 1 0) dac.
Proof. split; [wf_tac|]. split; [unfold is_deco; simpl; tauto|]. split; [easy|]. vm_compute; reflexivity. Qed.
Example C16_ex_trunc : wf_dec ((b (-3) (-2), b 3 (-2)), com) /\ is_deco com /\ com <> ill /\ rund (trunc_dec ((b (-3) (-2), b 3 (-2)), com)) = okd (fneg (b 0 0)) (b 0 0) com.
Proof. split; [wf_tac|]. split; [unfold is_deco; simpl; tauto|]. split; [easy|]. vm_compute; reflexivity. Qed.
Example C16_ex_rte : wf_dec ((b 1 (-1), b 3 (-1)), com) /\ is_deco com /\ com <> ill /\ rund (round_ties_to_even_dec ((b 1 (-1), b 3 (-1)), com)) = okd (b 0 0) (b 2 0) def.
Proof. split; [wf_tac|]. split; [unfold is_deco; simpl; tauto|]. split; [easy|]. vm_compute; reflexivity. Qed.
Example C16_ex_rte_tie : wf_dec ((b 3 (-1), b 5 (-1)), com) /\ is_deco com /\ com <> ill /\ rund (round_ties_to_even_dec ((b 3 (-1), b 5 (-1)), com)) = okd (b 2 0) (b 2 0) dac.
Proof. split; [wf_tac|]. split; [unfold is_deco; simpl; tauto|]. split; [easy|]. vm_compute; reflexivity. Qed.
Example C16_ex_rta : wf_dec ((b 3 (-1), b 2 0), com) /\ is_deco com /\ com <> ill /\ rund (round_ties_to_away_dec ((b 3 (-1), b 2 0), com)) = okd (b 2 0) (b 2 0) dac.
Proof. split; [wf_tac|]. split; [unfold is_deco; simpl; tauto|]. split; [easy|]. vm_compute; reflexivity. Qed.
Example C16_ex_add : wf_dec ((b 1 0, b 2 0), com) /\ wf_dec ((b 3 0, b 4 0), dac) /\ rund (add_dec ((b 1 0, b 2 0), com) ((b 3 0, b 4 0), dac)) = okd (b 4 0) (b 6 0) dac.
Proof. split; [wf_tac|]. split; [wf_tac|]. vm_compute; reflexivity. Qed.
Example C16_ex_sub : wf_dec ((b 1 0, b 2 0), com) /\ wf_dec ((b 3 0, b 4 0), com) /\ rund (sub_dec ((b 1 0, b 2 0), com) ((b 3 0, b 4 0), com)) = okd (b (-3) 0) (b (-1) 0) com.
Proof. split; [wf_tac|]. split; [wf_tac|]. vm_compute; reflexivity. Qed.
Example C16_ex_mul : wf_dec ((b 1 1000, b 1 1001), com) /\ wf_dec ((b 1 1000, b 1 1001), com) /\ rund (mul_dec ((b 1 1000, b 1 1001), com) ((b 1 1000, b 1 1001), com)) = okd (@fmaxv binary64) finf dac.
Proof. split; [wf_tac|]. split; [wf_tac|]. vm_compute; reflexivity. Qed.
Example C16_ex_div : wf_dec ((b 1 0, b 2 0), com) /\ wf_dec ((b (-1) 0, b 1 0), com) /\ rund (div_dec ((b 1 0, b 2 0), com) ((b (-1) 0, b 1 0), com)) = okd (@fminf binary64) finf trv.
Proof. split; [wf_tac|]. split; [wf_tac|]. vm_compute; reflexivity. Qed.
Example C16_ex_min : wf_dec ((b 1 0, b 4 0), com) /\ wf_dec ((b 2 0, b 3 0), def) /\ rund (min_dec ((b 1 0, b 4 0), com) ((b 2 0, b 3 0), def)) = okd (b 1 0) (b 3 0) def.
Proof. split; [wf_tac|]. split; [wf_tac|]. vm_compute; reflexivity. Qed.
Example C16_ex_max : wf_dec ((b 1 0, b 4 0), com) /\ wf_dec ((b 2 0, b 3 0), def) /\ rund (max_dec ((b 1 0, b 4 0), com) ((b 2 0, b 3 0), def)) = okd (b 2 0) (b 4 0) def.
Proof. split; [wf_tac|]. split; [wf_tac|]. vm_compute; reflexivity. Qed.
Example C16_ex_fma : wf_dec ((b 1 0, b 2 0), com) /\ wf_dec ((b 3 0, b 4 0), dac) /\ wf_dec ((b 1 0, b 1 0), com) /\
  rund (fma_dec ((b 1 0, b 2 0), com) ((b 3 0, b 4 0), dac) ((b 1 0, b 1 0), com)) = okd (b 4 0) (b 9 0) dac.
Proof. split; [wf_tac|]. split; [wf_tac|]. split; [wf_tac|]. vm_compute; reflexivity. Qed.
(** The functions below do not compute; the operands meet the hypotheses and touch the interesting points. *)
Example C16_ex_hyps : Forall (fun x : ditv binary64 => wf_dec x /\ is_deco (snd x) /\ snd x <> ill)
  [((b (-1) 0, b 1 0), com); ((b 0 0, finf), dac); ((b 1 0, b 1 0), com); ((fminf, b 3 0), def); (@empty binary64, trv)].
Proof. repeat (apply Forall_cons; [split; [wf_tac|split; [unfold is_deco; simpl; tauto|easy]]|]). apply Forall_nil. Qed.
(** [exp] on a half line is defined and continuous; [log] at zero is not. *)
Example C16_ex_log : exists z, returns (log_dec ((b 0 0, b 1 0), com)) z /\ snd z = trv.
Proof.
destruct (C16_log binary64 ((b 0 0, b 1 0), com)) as (z & H1 & _ & H3 & H4 & _ & _ & H7 & _);
  [wf_tac|unfold is_deco; simpl; tauto|easy|].
exists z. split; [easy|]. destruct (N.lt_ge_cases (snd z) def) as [L|L].
- unfold is_deco, ill, trv, def, dac, com in *. simpl in H3. destruct H3 as [E|[E|[E|[E|[E|[]]]]]]; rewrite <- E in *; easy.
- destruct (H7 L) as [_ D]. specialize (D 0). assert (M : box1 (b 0 0, b 1 0) 0).
  { apply mem_pt; [reflexivity..|]. assert (E1 : B2R (b 0 0) = 0) by b2r. assert (E2 : B2R (b 1 0) = 1) by b2r. rewrite E1, E2. lra. }
  apply D in M. unfold positive in M. lra.
Qed.
(** Crossing the cut of the two-argument arctangent is reported as discontinuous. *)
Example C16_ex_atan2_cut : wf_dec ((b (-1) 0, b 1 0), com) /\ wf_dec ((b (-2) 0, b (-1) 0), com).
Proof. split; wf_tac. Qed.
Example C16_ex_tan : wf_dec ((s 1 0, s 2 0), com) /\ wf_dec ((b (-1) 0, b 1 0), com) /\
  forall r, mem r (b (-1) 0, b 1 0) -> cos r <> 0.
Proof.
split; [wf_tac|]. split; [wf_tac|]. intros r [H1 H2]. cbn [fst snd] in *.
assert (E1 : B2R (b (-1) 0) = -1) by b2r. assert (E2 : B2R (b 1 0) = 1) by b2r.
rewrite lb_fin, E1 in H1 by reflexivity. rewrite ub_fin, E2 in H2 by reflexivity.
pose proof PI2_3_2. apply Rgt_not_eq, cos_gt_0; lra.
Qed.
Example C16_ex_off : wf_dec ((b 1 0, b 2 0), com) /\ off_pi binary64 (b 1 0, b 2 0) /\ width_not_pi64 (b 1 0, b 2 0).
Proof.
assert (E1 : B2R (b 1 0) = 1) by b2r. assert (E2 : B2R (b 2 0) = 2) by b2r.
split; [wf_tac|]. split; [apply off64; left|intros _]; cbn [fst snd]; rewrite E1, E2; lra.
Qed.
