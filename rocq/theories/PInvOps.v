(** * Proofs: every operation looks at the validity of its operands first *)
From Coq Require Import ZArith NArith Reals Bool List Lra.
From Flocq Require Import Core.Core IEEE754.BinarySingleNaN.
From Verif Require Import Fmt Spec FloatFacts Exc Deco SpecApi MBase PBase MBool MOverlap MArith MElem MPow MTrig MAtan2 MDec MMixed MNum MCancel MRev
  MTrigRev PClass PDec PInv.

Create HintDb heads.
Global Hint Unfold dec1 dec2 dec3 mixed1 mixed2 mixed3 mixed_dec1 mixed_dec2 mixed_dec3 rev_dec2 rev_dec3 rev_mixed2 rev_mixed_dec2 rel_same rel_dec num_dec num_mixed num_dec_mixed : heads.
Ltac iop L H := winv H; ems; try contradiction; apply inv_reports; autounfold with heads; cbv zeta; ired;
  repeat first [erewrite bind_inv_ret by reflexivity | progress ired]; reflexivity.
Lemma inv_valid_deco d : ~ valid_deco d -> is_valid_deco d = inv false.
Proof. intros H. apply inv_eq. now apply is_valid_deco_bad. Qed.
Lemma inv_neg : forall (F : fmt) (x : itv F), ~ wf x ->
  reports_invalid (neg x) empty_rep.
Proof. intros F x HH. unfold neg. iop tt HH. Qed.
Lemma inv_pos : forall (F : fmt) (x : itv F), ~ wf x ->
  reports_invalid (pos x) empty_rep.
Proof. intros F x HH. unfold pos. iop tt HH. Qed.
Lemma inv_recip : forall (F : fmt) (x : itv F), ~ wf x ->
  reports_invalid (recip x) empty_rep.
Proof. intros F x HH. unfold recip. iop tt HH. Qed.
Lemma inv_sqr : forall (F : fmt) (x : itv F), ~ wf x ->
  reports_invalid (sqr x) empty_rep.
Proof. intros F x HH. unfold sqr. iop tt HH. Qed.
Lemma inv_sqrt : forall (F : fmt) (x : itv F), ~ wf x ->
  reports_invalid (sqrt x) empty_rep.
Proof. intros F x HH. unfold sqrt. iop tt HH. Qed.
Lemma inv_abs : forall (F : fmt) (x : itv F), ~ wf x ->
  reports_invalid (abs x) empty_rep.
Proof. intros F x HH. unfold abs. iop tt HH. Qed.
Lemma inv_exp : forall (F : fmt) (x : itv F), ~ wf x ->
  reports_invalid (exp_itv x) empty_rep.
Proof. intros F x HH. unfold exp_itv. iop tt HH. Qed.
Lemma inv_exp2 : forall (F : fmt) (x : itv F), ~ wf x ->
  reports_invalid (exp2_itv x) empty_rep.
Proof. intros F x HH. unfold exp2_itv. iop tt HH. Qed.
Lemma inv_exp10 : forall (F : fmt) (x : itv F), ~ wf x ->
  reports_invalid (exp10_itv x) empty_rep.
Proof. intros F x HH. unfold exp10_itv. iop tt HH. Qed.
Lemma inv_log : forall (F : fmt) (x : itv F), ~ wf x ->
  reports_invalid (log_itv x) empty_rep.
Proof. intros F x HH. unfold log_itv. iop tt HH. Qed.
Lemma inv_log2 : forall (F : fmt) (x : itv F), ~ wf x ->
  reports_invalid (log2_itv x) empty_rep.
Proof. intros F x HH. unfold log2_itv. iop tt HH. Qed.
Lemma inv_log10 : forall (F : fmt) (x : itv F), ~ wf x ->
  reports_invalid (log10_itv x) empty_rep.
Proof. intros F x HH. unfold log10_itv. iop tt HH. Qed.
Lemma inv_sin : forall (F : fmt) (x : itv F), ~ wf x ->
  reports_invalid (sin_itv x) empty_rep.
Proof. intros F x HH. unfold sin_itv. iop tt HH. Qed.
Lemma inv_cos : forall (F : fmt) (x : itv F), ~ wf x ->
  reports_invalid (cos_itv x) empty_rep.
Proof. intros F x HH. unfold cos_itv. iop tt HH. Qed.
Lemma inv_tan : forall (F : fmt) (x : itv F), ~ wf x ->
  reports_invalid (tan_itv x) empty_rep.
Proof. intros F x HH. unfold tan_itv. iop tt HH. Qed.
Lemma inv_asin : forall (F : fmt) (x : itv F), ~ wf x ->
  reports_invalid (asin_itv x) empty_rep.
Proof. intros F x HH. unfold asin_itv. iop tt HH. Qed.
Lemma inv_acos : forall (F : fmt) (x : itv F), ~ wf x ->
  reports_invalid (acos_itv x) empty_rep.
Proof. intros F x HH. unfold acos_itv. iop tt HH. Qed.
Lemma inv_atan : forall (F : fmt) (x : itv F), ~ wf x ->
  reports_invalid (atan_itv x) empty_rep.
Proof. intros F x HH. unfold atan_itv. iop tt HH. Qed.
Lemma inv_sinh : forall (F : fmt) (x : itv F), ~ wf x ->
  reports_invalid (sinh_itv x) empty_rep.
Proof. intros F x HH. unfold sinh_itv. iop tt HH. Qed.
Lemma inv_cosh : forall (F : fmt) (x : itv F), ~ wf x ->
  reports_invalid (cosh_itv x) empty_rep.
Proof. intros F x HH. unfold cosh_itv. iop tt HH. Qed.
Lemma inv_tanh : forall (F : fmt) (x : itv F), ~ wf x ->
  reports_invalid (tanh_itv x) empty_rep.
Proof. intros F x HH. unfold tanh_itv. iop tt HH. Qed.
Lemma inv_asinh : forall (F : fmt) (x : itv F), ~ wf x ->
  reports_invalid (asinh_itv x) empty_rep.
Proof. intros F x HH. unfold asinh_itv. iop tt HH. Qed.
Lemma inv_acosh : forall (F : fmt) (x : itv F), ~ wf x ->
  reports_invalid (acosh_itv x) empty_rep.
Proof. intros F x HH. unfold acosh_itv. iop tt HH. Qed.
Lemma inv_atanh : forall (F : fmt) (x : itv F), ~ wf x ->
  reports_invalid (atanh_itv x) empty_rep.
Proof. intros F x HH. unfold atanh_itv. iop tt HH. Qed.
Lemma inv_sign : forall (F : fmt) (x : itv F), ~ wf x ->
  reports_invalid (sign_itv x) empty_rep.
Proof. intros F x HH. unfold sign_itv. iop tt HH. Qed.
Lemma inv_ceil : forall (F : fmt) (x : itv F), ~ wf x ->
  reports_invalid (ceil_itv x) empty_rep.
Proof. intros F x HH. unfold ceil_itv. iop tt HH. Qed.
Lemma inv_floor : forall (F : fmt) (x : itv F), ~ wf x ->
  reports_invalid (floor_itv x) empty_rep.
Proof. intros F x HH. unfold floor_itv. iop tt HH. Qed.
Lemma inv_trunc : forall (F : fmt) (x : itv F), ~ wf x ->
  reports_invalid (trunc_itv x) empty_rep.
Proof. intros F x HH. unfold trunc_itv. iop tt HH. Qed.
Lemma inv_round_ties_to_even : forall (F : fmt) (x : itv F), ~ wf x ->
  reports_invalid (round_ties_to_even_itv x) empty_rep.
Proof. intros F x HH. unfold round_ties_to_even_itv. iop tt HH. Qed.
Lemma inv_round_ties_to_away : forall (F : fmt) (x : itv F), ~ wf x ->
  reports_invalid (round_ties_to_away_itv x) empty_rep.
Proof. intros F x HH. unfold round_ties_to_away_itv. iop tt HH. Qed.
Lemma inv_pown : forall (F : fmt) (x : itv F) (p : Z), ~ wf x ->
  reports_invalid (pown x p) empty_rep.
Proof. intros F x p HH. unfold pown. iop tt HH. Qed.
Lemma inv_add : forall (F : fmt) (x y : itv F), ~ wf x \/ ~ wf y ->
  reports_invalid (add x y) empty_rep.
Proof. intros F x y HH. unfold add. iop tt HH. Qed.
Lemma inv_sub : forall (F : fmt) (x y : itv F), ~ wf x \/ ~ wf y ->
  reports_invalid (sub x y) empty_rep.
Proof. intros F x y HH. unfold sub. iop tt HH. Qed.
Lemma inv_mul : forall (F : fmt) (x y : itv F), ~ wf x \/ ~ wf y ->
  reports_invalid (mul x y) empty_rep.
Proof. intros F x y HH. unfold mul. iop tt HH. Qed.
Lemma inv_div : forall (F : fmt) (x y : itv F), ~ wf x \/ ~ wf y ->
  reports_invalid (div x y) empty_rep.
Proof. intros F x y HH. unfold div. iop tt HH. Qed.
Lemma inv_min : forall (F : fmt) (x y : itv F), ~ wf x \/ ~ wf y ->
  reports_invalid (min x y) empty_rep.
Proof. intros F x y HH. unfold min. iop tt HH. Qed.
Lemma inv_max : forall (F : fmt) (x y : itv F), ~ wf x \/ ~ wf y ->
  reports_invalid (max x y) empty_rep.
Proof. intros F x y HH. unfold max. iop tt HH. Qed.
Lemma inv_pow : forall (F : fmt) (x y : itv F), ~ wf x \/ ~ wf y ->
  reports_invalid (pow x y) empty_rep.
Proof. intros F x y HH. unfold pow. iop tt HH. Qed.
Lemma inv_atan2 : forall (F : fmt) (x y : itv F), ~ wf x \/ ~ wf y ->
  reports_invalid (atan2_itv x y) empty_rep.
Proof. intros F x y HH. unfold atan2_itv. iop tt HH. Qed.
Lemma inv_intersection : forall (F : fmt) (x y : itv F), ~ wf x \/ ~ wf y ->
  reports_invalid (intersection x y) empty_rep.
Proof. intros F x y HH. unfold intersection. iop tt HH. Qed.
Lemma inv_convex_hull : forall (F : fmt) (x y : itv F), ~ wf x \/ ~ wf y ->
  reports_invalid (convex_hull x y) empty_rep.
Proof. intros F x y HH. unfold convex_hull. iop tt HH. Qed.
Lemma inv_fma : forall (F : fmt) (x y z : itv F), ~ wf x \/ ~ wf y \/ ~ wf z ->
  reports_invalid (fma x y z) empty_rep.
Proof. intros F x y z HH. unfold fma. iop tt HH. Qed.
Lemma inv_neg_dec : forall (F : fmt) (x : ditv F), ~ wf_dec x ->
  reports_invalid (neg_dec x) (empty_rep, ill).
Proof. intros F x HH. unfold neg_dec. iop tt HH. Qed.
Lemma inv_pos_dec : forall (F : fmt) (x : ditv F), ~ wf_dec x ->
  reports_invalid (pos_dec x) (empty_rep, ill).
Proof. intros F x HH. unfold pos_dec. iop tt HH. Qed.
Lemma inv_recip_dec : forall (F : fmt) (x : ditv F), ~ wf_dec x ->
  reports_invalid (recip_dec x) (empty_rep, ill).
Proof. intros F x HH. unfold recip_dec. iop tt HH. Qed.
Lemma inv_sqr_dec : forall (F : fmt) (x : ditv F), ~ wf_dec x ->
  reports_invalid (sqr_dec x) (empty_rep, ill).
Proof. intros F x HH. unfold sqr_dec. iop tt HH. Qed.
Lemma inv_sqrt_dec : forall (F : fmt) (x : ditv F), ~ wf_dec x ->
  reports_invalid (sqrt_dec x) (empty_rep, ill).
Proof. intros F x HH. unfold sqrt_dec. iop tt HH. Qed.
Lemma inv_abs_dec : forall (F : fmt) (x : ditv F), ~ wf_dec x ->
  reports_invalid (abs_dec x) (empty_rep, ill).
Proof. intros F x HH. unfold abs_dec. iop tt HH. Qed.
Lemma inv_exp_dec : forall (F : fmt) (x : ditv F), ~ wf_dec x ->
  reports_invalid (exp_dec x) (empty_rep, ill).
Proof. intros F x HH. unfold exp_dec. iop tt HH. Qed.
Lemma inv_exp2_dec : forall (F : fmt) (x : ditv F), ~ wf_dec x ->
  reports_invalid (exp2_dec x) (empty_rep, ill).
Proof. intros F x HH. unfold exp2_dec. iop tt HH. Qed.
Lemma inv_exp10_dec : forall (F : fmt) (x : ditv F), ~ wf_dec x ->
  reports_invalid (exp10_dec x) (empty_rep, ill).
Proof. intros F x HH. unfold exp10_dec. iop tt HH. Qed.
Lemma inv_log_dec : forall (F : fmt) (x : ditv F), ~ wf_dec x ->
  reports_invalid (log_dec x) (empty_rep, ill).
Proof. intros F x HH. unfold log_dec. iop tt HH. Qed.
Lemma inv_log2_dec : forall (F : fmt) (x : ditv F), ~ wf_dec x ->
  reports_invalid (log2_dec x) (empty_rep, ill).
Proof. intros F x HH. unfold log2_dec. iop tt HH. Qed.
Lemma inv_log10_dec : forall (F : fmt) (x : ditv F), ~ wf_dec x ->
  reports_invalid (log10_dec x) (empty_rep, ill).
Proof. intros F x HH. unfold log10_dec. iop tt HH. Qed.
Lemma inv_sin_dec : forall (F : fmt) (x : ditv F), ~ wf_dec x ->
  reports_invalid (sin_dec x) (empty_rep, ill).
Proof. intros F x HH. unfold sin_dec. iop tt HH. Qed.
Lemma inv_cos_dec : forall (F : fmt) (x : ditv F), ~ wf_dec x ->
  reports_invalid (cos_dec x) (empty_rep, ill).
Proof. intros F x HH. unfold cos_dec. iop tt HH. Qed.
Lemma inv_tan_dec : forall (F : fmt) (x : ditv F), ~ wf_dec x ->
  reports_invalid (tan_dec x) (empty_rep, ill).
Proof. intros F x HH. unfold tan_dec. iop tt HH. Qed.
Lemma inv_asin_dec : forall (F : fmt) (x : ditv F), ~ wf_dec x ->
  reports_invalid (asin_dec x) (empty_rep, ill).
Proof. intros F x HH. unfold asin_dec. iop tt HH. Qed.
Lemma inv_acos_dec : forall (F : fmt) (x : ditv F), ~ wf_dec x ->
  reports_invalid (acos_dec x) (empty_rep, ill).
Proof. intros F x HH. unfold acos_dec. iop tt HH. Qed.
Lemma inv_atan_dec : forall (F : fmt) (x : ditv F), ~ wf_dec x ->
  reports_invalid (atan_dec x) (empty_rep, ill).
Proof. intros F x HH. unfold atan_dec. iop tt HH. Qed.
Lemma inv_sinh_dec : forall (F : fmt) (x : ditv F), ~ wf_dec x ->
  reports_invalid (sinh_dec x) (empty_rep, ill).
Proof. intros F x HH. unfold sinh_dec. iop tt HH. Qed.
Lemma inv_cosh_dec : forall (F : fmt) (x : ditv F), ~ wf_dec x ->
  reports_invalid (cosh_dec x) (empty_rep, ill).
Proof. intros F x HH. unfold cosh_dec. iop tt HH. Qed.
Lemma inv_tanh_dec : forall (F : fmt) (x : ditv F), ~ wf_dec x ->
  reports_invalid (tanh_dec x) (empty_rep, ill).
Proof. intros F x HH. unfold tanh_dec. iop tt HH. Qed.
Lemma inv_asinh_dec : forall (F : fmt) (x : ditv F), ~ wf_dec x ->
  reports_invalid (asinh_dec x) (empty_rep, ill).
Proof. intros F x HH. unfold asinh_dec. iop tt HH. Qed.
Lemma inv_acosh_dec : forall (F : fmt) (x : ditv F), ~ wf_dec x ->
  reports_invalid (acosh_dec x) (empty_rep, ill).
Proof. intros F x HH. unfold acosh_dec. iop tt HH. Qed.
Lemma inv_atanh_dec : forall (F : fmt) (x : ditv F), ~ wf_dec x ->
  reports_invalid (atanh_dec x) (empty_rep, ill).
Proof. intros F x HH. unfold atanh_dec. iop tt HH. Qed.
Lemma inv_sign_dec : forall (F : fmt) (x : ditv F), ~ wf_dec x ->
  reports_invalid (sign_dec x) (empty_rep, ill).
Proof. intros F x HH. unfold sign_dec. iop tt HH. Qed.
Lemma inv_ceil_dec : forall (F : fmt) (x : ditv F), ~ wf_dec x ->
  reports_invalid (ceil_dec x) (empty_rep, ill).
Proof. intros F x HH. unfold ceil_dec. iop tt HH. Qed.
Lemma inv_floor_dec : forall (F : fmt) (x : ditv F), ~ wf_dec x ->
  reports_invalid (floor_dec x) (empty_rep, ill).
Proof. intros F x HH. unfold floor_dec. iop tt HH. Qed.
Lemma inv_trunc_dec : forall (F : fmt) (x : ditv F), ~ wf_dec x ->
  reports_invalid (trunc_dec x) (empty_rep, ill).
Proof. intros F x HH. unfold trunc_dec. iop tt HH. Qed.
Lemma inv_round_ties_to_even_dec : forall (F : fmt) (x : ditv F), ~ wf_dec x ->
  reports_invalid (round_ties_to_even_dec x) (empty_rep, ill).
Proof. intros F x HH. unfold round_ties_to_even_dec. iop tt HH. Qed.
Lemma inv_round_ties_to_away_dec : forall (F : fmt) (x : ditv F), ~ wf_dec x ->
  reports_invalid (round_ties_to_away_dec x) (empty_rep, ill).
Proof. intros F x HH. unfold round_ties_to_away_dec. iop tt HH. Qed.
Lemma inv_pown_dec : forall (F : fmt) (x : ditv F) (p : Z), ~ wf_dec x ->
  reports_invalid (pown_dec x p) (empty_rep, ill).
Proof. intros F x p HH. unfold pown_dec. iop tt HH. Qed.
Lemma inv_add_dec : forall (F : fmt) (x y : ditv F), ~ wf_dec x \/ ~ wf_dec y ->
  reports_invalid (add_dec x y) (empty_rep, ill).
Proof. intros F x y HH. unfold add_dec. iop tt HH. Qed.
Lemma inv_sub_dec : forall (F : fmt) (x y : ditv F), ~ wf_dec x \/ ~ wf_dec y ->
  reports_invalid (sub_dec x y) (empty_rep, ill).
Proof. intros F x y HH. unfold sub_dec. iop tt HH. Qed.
Lemma inv_mul_dec : forall (F : fmt) (x y : ditv F), ~ wf_dec x \/ ~ wf_dec y ->
  reports_invalid (mul_dec x y) (empty_rep, ill).
Proof. intros F x y HH. unfold mul_dec. iop tt HH. Qed.
Lemma inv_div_dec : forall (F : fmt) (x y : ditv F), ~ wf_dec x \/ ~ wf_dec y ->
  reports_invalid (div_dec x y) (empty_rep, ill).
Proof. intros F x y HH. unfold div_dec. iop tt HH. Qed.
Lemma inv_min_dec : forall (F : fmt) (x y : ditv F), ~ wf_dec x \/ ~ wf_dec y ->
  reports_invalid (min_dec x y) (empty_rep, ill).
Proof. intros F x y HH. unfold min_dec. iop tt HH. Qed.
Lemma inv_max_dec : forall (F : fmt) (x y : ditv F), ~ wf_dec x \/ ~ wf_dec y ->
  reports_invalid (max_dec x y) (empty_rep, ill).
Proof. intros F x y HH. unfold max_dec. iop tt HH. Qed.
Lemma inv_pow_dec : forall (F : fmt) (x y : ditv F), ~ wf_dec x \/ ~ wf_dec y ->
  reports_invalid (pow_dec x y) (empty_rep, ill).
Proof. intros F x y HH. unfold pow_dec. iop tt HH. Qed.
Lemma inv_atan2_dec : forall (F : fmt) (x y : ditv F), ~ wf_dec x \/ ~ wf_dec y ->
  reports_invalid (atan2_dec x y) (empty_rep, ill).
Proof. intros F x y HH. unfold atan2_dec. iop tt HH. Qed.
Lemma inv_intersection_dec : forall (F : fmt) (x y : ditv F), ~ wf_dec x \/ ~ wf_dec y ->
  reports_invalid (intersection_dec x y) (empty_rep, ill).
Proof. intros F x y HH. unfold intersection_dec. iop tt HH. Qed.
Lemma inv_convex_hull_dec : forall (F : fmt) (x y : ditv F), ~ wf_dec x \/ ~ wf_dec y ->
  reports_invalid (convex_hull_dec x y) (empty_rep, ill).
Proof. intros F x y HH. unfold convex_hull_dec. iop tt HH. Qed.
Lemma inv_cancel_minus_dec : forall (F : fmt) (x y : ditv F), ~ wf_dec x \/ ~ wf_dec y ->
  reports_invalid (cancel_minus_dec x y) (empty_rep, ill).
Proof. intros F x y HH. unfold cancel_minus_dec. iop tt HH. Qed.
Lemma inv_fma_dec : forall (F : fmt) (x y z : ditv F), ~ wf_dec x \/ ~ wf_dec y \/ ~ wf_dec z ->
  reports_invalid (fma_dec x y z) (empty_rep, ill).
Proof. intros F x y z HH. unfold fma_dec. iop tt HH. Qed.
Lemma inv_neg_mixed : forall (T F : fmt) (x : itv F), ~ wf x ->
  reports_invalid (neg_mixed T x) empty_rep.
Proof. intros T F x HH. unfold neg_mixed. iop tt HH. Qed.
Lemma inv_pos_mixed : forall (T F : fmt) (x : itv F), ~ wf x ->
  reports_invalid (pos_mixed T x) empty_rep.
Proof. intros T F x HH. unfold pos_mixed. iop tt HH. Qed.
Lemma inv_recip_mixed : forall (T F : fmt) (x : itv F), ~ wf x ->
  reports_invalid (recip_mixed T x) empty_rep.
Proof. intros T F x HH. unfold recip_mixed. iop tt HH. Qed.
Lemma inv_sqr_mixed : forall (T F : fmt) (x : itv F), ~ wf x ->
  reports_invalid (sqr_mixed T x) empty_rep.
Proof. intros T F x HH. unfold sqr_mixed. iop tt HH. Qed.
Lemma inv_sqrt_mixed : forall (T F : fmt) (x : itv F), ~ wf x ->
  reports_invalid (sqrt_mixed T x) empty_rep.
Proof. intros T F x HH. unfold sqrt_mixed. iop tt HH. Qed.
Lemma inv_abs_mixed : forall (T F : fmt) (x : itv F), ~ wf x ->
  reports_invalid (abs_mixed T x) empty_rep.
Proof. intros T F x HH. unfold abs_mixed. iop tt HH. Qed.
Lemma inv_exp_mixed : forall (T F : fmt) (x : itv F), ~ wf x ->
  reports_invalid (exp_mixed T x) empty_rep.
Proof. intros T F x HH. unfold exp_mixed. iop tt HH. Qed.
Lemma inv_exp2_mixed : forall (T F : fmt) (x : itv F), ~ wf x ->
  reports_invalid (exp2_mixed T x) empty_rep.
Proof. intros T F x HH. unfold exp2_mixed. iop tt HH. Qed.
Lemma inv_exp10_mixed : forall (T F : fmt) (x : itv F), ~ wf x ->
  reports_invalid (exp10_mixed T x) empty_rep.
Proof. intros T F x HH. unfold exp10_mixed. iop tt HH. Qed.
Lemma inv_log_mixed : forall (T F : fmt) (x : itv F), ~ wf x ->
  reports_invalid (log_mixed T x) empty_rep.
Proof. intros T F x HH. unfold log_mixed. iop tt HH. Qed.
Lemma inv_log2_mixed : forall (T F : fmt) (x : itv F), ~ wf x ->
  reports_invalid (log2_mixed T x) empty_rep.
Proof. intros T F x HH. unfold log2_mixed. iop tt HH. Qed.
Lemma inv_log10_mixed : forall (T F : fmt) (x : itv F), ~ wf x ->
  reports_invalid (log10_mixed T x) empty_rep.
Proof. intros T F x HH. unfold log10_mixed. iop tt HH. Qed.
Lemma inv_sin_mixed : forall (T F : fmt) (x : itv F), ~ wf x ->
  reports_invalid (sin_mixed T x) empty_rep.
Proof. intros T F x HH. unfold sin_mixed. iop tt HH. Qed.
Lemma inv_cos_mixed : forall (T F : fmt) (x : itv F), ~ wf x ->
  reports_invalid (cos_mixed T x) empty_rep.
Proof. intros T F x HH. unfold cos_mixed. iop tt HH. Qed.
Lemma inv_tan_mixed : forall (T F : fmt) (x : itv F), ~ wf x ->
  reports_invalid (tan_mixed T x) empty_rep.
Proof. intros T F x HH. unfold tan_mixed. iop tt HH. Qed.
Lemma inv_asin_mixed : forall (T F : fmt) (x : itv F), ~ wf x ->
  reports_invalid (asin_mixed T x) empty_rep.
Proof. intros T F x HH. unfold asin_mixed. iop tt HH. Qed.
Lemma inv_acos_mixed : forall (T F : fmt) (x : itv F), ~ wf x ->
  reports_invalid (acos_mixed T x) empty_rep.
Proof. intros T F x HH. unfold acos_mixed. iop tt HH. Qed.
Lemma inv_atan_mixed : forall (T F : fmt) (x : itv F), ~ wf x ->
  reports_invalid (atan_mixed T x) empty_rep.
Proof. intros T F x HH. unfold atan_mixed. iop tt HH. Qed.
Lemma inv_sinh_mixed : forall (T F : fmt) (x : itv F), ~ wf x ->
  reports_invalid (sinh_mixed T x) empty_rep.
Proof. intros T F x HH. unfold sinh_mixed. iop tt HH. Qed.
Lemma inv_cosh_mixed : forall (T F : fmt) (x : itv F), ~ wf x ->
  reports_invalid (cosh_mixed T x) empty_rep.
Proof. intros T F x HH. unfold cosh_mixed. iop tt HH. Qed.
Lemma inv_tanh_mixed : forall (T F : fmt) (x : itv F), ~ wf x ->
  reports_invalid (tanh_mixed T x) empty_rep.
Proof. intros T F x HH. unfold tanh_mixed. iop tt HH. Qed.
Lemma inv_asinh_mixed : forall (T F : fmt) (x : itv F), ~ wf x ->
  reports_invalid (asinh_mixed T x) empty_rep.
Proof. intros T F x HH. unfold asinh_mixed. iop tt HH. Qed.
Lemma inv_acosh_mixed : forall (T F : fmt) (x : itv F), ~ wf x ->
  reports_invalid (acosh_mixed T x) empty_rep.
Proof. intros T F x HH. unfold acosh_mixed. iop tt HH. Qed.
Lemma inv_atanh_mixed : forall (T F : fmt) (x : itv F), ~ wf x ->
  reports_invalid (atanh_mixed T x) empty_rep.
Proof. intros T F x HH. unfold atanh_mixed. iop tt HH. Qed.
Lemma inv_sign_mixed : forall (T F : fmt) (x : itv F), ~ wf x ->
  reports_invalid (sign_mixed T x) empty_rep.
Proof. intros T F x HH. unfold sign_mixed. iop tt HH. Qed.
Lemma inv_ceil_mixed : forall (T F : fmt) (x : itv F), ~ wf x ->
  reports_invalid (ceil_mixed T x) empty_rep.
Proof. intros T F x HH. unfold ceil_mixed. iop tt HH. Qed.
Lemma inv_floor_mixed : forall (T F : fmt) (x : itv F), ~ wf x ->
  reports_invalid (floor_mixed T x) empty_rep.
Proof. intros T F x HH. unfold floor_mixed. iop tt HH. Qed.
Lemma inv_trunc_mixed : forall (T F : fmt) (x : itv F), ~ wf x ->
  reports_invalid (trunc_mixed T x) empty_rep.
Proof. intros T F x HH. unfold trunc_mixed. iop tt HH. Qed.
Lemma inv_round_ties_to_even_mixed : forall (T F : fmt) (x : itv F), ~ wf x ->
  reports_invalid (rte_mixed T x) empty_rep.
Proof. intros T F x HH. unfold rte_mixed. iop tt HH. Qed.
Lemma inv_round_ties_to_away_mixed : forall (T F : fmt) (x : itv F), ~ wf x ->
  reports_invalid (rta_mixed T x) empty_rep.
Proof. intros T F x HH. unfold rta_mixed. iop tt HH. Qed.
Lemma inv_pown_mixed : forall (T F : fmt) (x : itv F) (p : Z), ~ wf x ->
  reports_invalid (pown_mixed T x p) empty_rep.
Proof. intros T F x p HH. unfold pown_mixed. iop tt HH. Qed.
Lemma inv_add_mixed : forall (T F G : fmt) (x : itv F) (y : itv G), ~ wf x \/ ~ wf y ->
  reports_invalid (add_mixed T x y) empty_rep.
Proof. intros T F G x y HH. unfold add_mixed. iop tt HH. Qed.
Lemma inv_sub_mixed : forall (T F G : fmt) (x : itv F) (y : itv G), ~ wf x \/ ~ wf y ->
  reports_invalid (sub_mixed T x y) empty_rep.
Proof. intros T F G x y HH. unfold sub_mixed. iop tt HH. Qed.
Lemma inv_mul_mixed : forall (T F G : fmt) (x : itv F) (y : itv G), ~ wf x \/ ~ wf y ->
  reports_invalid (mul_mixed T x y) empty_rep.
Proof. intros T F G x y HH. unfold mul_mixed. iop tt HH. Qed.
Lemma inv_div_mixed : forall (T F G : fmt) (x : itv F) (y : itv G), ~ wf x \/ ~ wf y ->
  reports_invalid (div_mixed T x y) empty_rep.
Proof. intros T F G x y HH. unfold div_mixed. iop tt HH. Qed.
Lemma inv_min_mixed : forall (T F G : fmt) (x : itv F) (y : itv G), ~ wf x \/ ~ wf y ->
  reports_invalid (min_mixed T x y) empty_rep.
Proof. intros T F G x y HH. unfold min_mixed. iop tt HH. Qed.
Lemma inv_max_mixed : forall (T F G : fmt) (x : itv F) (y : itv G), ~ wf x \/ ~ wf y ->
  reports_invalid (max_mixed T x y) empty_rep.
Proof. intros T F G x y HH. unfold max_mixed. iop tt HH. Qed.
Lemma inv_pow_mixed : forall (T F G : fmt) (x : itv F) (y : itv G), ~ wf x \/ ~ wf y ->
  reports_invalid (pow_mixed T x y) empty_rep.
Proof. intros T F G x y HH. unfold pow_mixed. iop tt HH. Qed.
Lemma inv_atan2_mixed : forall (T F G : fmt) (x : itv F) (y : itv G), ~ wf x \/ ~ wf y ->
  reports_invalid (atan2_mixed T x y) empty_rep.
Proof. intros T F G x y HH. unfold atan2_mixed. iop tt HH. Qed.
Lemma inv_intersection_mixed : forall (T F G : fmt) (x : itv F) (y : itv G), ~ wf x \/ ~ wf y ->
  reports_invalid (intersection_mixed T x y) empty_rep.
Proof. intros T F G x y HH. unfold intersection_mixed. iop tt HH. Qed.
Lemma inv_convex_hull_mixed : forall (T F G : fmt) (x : itv F) (y : itv G), ~ wf x \/ ~ wf y ->
  reports_invalid (convex_hull_mixed T x y) empty_rep.
Proof. intros T F G x y HH. unfold convex_hull_mixed. iop tt HH. Qed.
Lemma inv_cancel_minus_mixed : forall (T F G : fmt) (x : itv F) (y : itv G), ~ wf x \/ ~ wf y ->
  reports_invalid (cancel_minus_mixed T x y) empty_rep.
Proof. intros T F G x y HH. unfold cancel_minus_mixed. iop tt HH. Qed.
Lemma inv_fma_mixed : forall (T F G H : fmt) (x : itv F) (y : itv G) (z : itv H), ~ wf x \/ ~ wf y \/ ~ wf z ->
  reports_invalid (fma_mixed T x y z) empty_rep.
Proof. intros T F G H x y z HH. unfold fma_mixed. iop tt HH. Qed.
Lemma inv_neg_dec_mixed : forall (T F : fmt) (x : ditv F), ~ wf_dec x ->
  reports_invalid (neg_dec_mixed T x) (empty_rep, ill).
Proof. intros T F x HH. unfold neg_dec_mixed. iop tt HH. Qed.
Lemma inv_pos_dec_mixed : forall (T F : fmt) (x : ditv F), ~ wf_dec x ->
  reports_invalid (pos_dec_mixed T x) (empty_rep, ill).
Proof. intros T F x HH. unfold pos_dec_mixed. iop tt HH. Qed.
Lemma inv_recip_dec_mixed : forall (T F : fmt) (x : ditv F), ~ wf_dec x ->
  reports_invalid (recip_dec_mixed T x) (empty_rep, ill).
Proof. intros T F x HH. unfold recip_dec_mixed. iop tt HH. Qed.
Lemma inv_sqr_dec_mixed : forall (T F : fmt) (x : ditv F), ~ wf_dec x ->
  reports_invalid (sqr_dec_mixed T x) (empty_rep, ill).
Proof. intros T F x HH. unfold sqr_dec_mixed. iop tt HH. Qed.
Lemma inv_sqrt_dec_mixed : forall (T F : fmt) (x : ditv F), ~ wf_dec x ->
  reports_invalid (sqrt_dec_mixed T x) (empty_rep, ill).
Proof. intros T F x HH. unfold sqrt_dec_mixed. iop tt HH. Qed.
Lemma inv_abs_dec_mixed : forall (T F : fmt) (x : ditv F), ~ wf_dec x ->
  reports_invalid (abs_dec_mixed T x) (empty_rep, ill).
Proof. intros T F x HH. unfold abs_dec_mixed. iop tt HH. Qed.
Lemma inv_exp_dec_mixed : forall (T F : fmt) (x : ditv F), ~ wf_dec x ->
  reports_invalid (exp_dec_mixed T x) (empty_rep, ill).
Proof. intros T F x HH. unfold exp_dec_mixed. iop tt HH. Qed.
Lemma inv_exp2_dec_mixed : forall (T F : fmt) (x : ditv F), ~ wf_dec x ->
  reports_invalid (exp2_dec_mixed T x) (empty_rep, ill).
Proof. intros T F x HH. unfold exp2_dec_mixed. iop tt HH. Qed.
Lemma inv_exp10_dec_mixed : forall (T F : fmt) (x : ditv F), ~ wf_dec x ->
  reports_invalid (exp10_dec_mixed T x) (empty_rep, ill).
Proof. intros T F x HH. unfold exp10_dec_mixed. iop tt HH. Qed.
Lemma inv_log_dec_mixed : forall (T F : fmt) (x : ditv F), ~ wf_dec x ->
  reports_invalid (log_dec_mixed T x) (empty_rep, ill).
Proof. intros T F x HH. unfold log_dec_mixed. iop tt HH. Qed.
Lemma inv_log2_dec_mixed : forall (T F : fmt) (x : ditv F), ~ wf_dec x ->
  reports_invalid (log2_dec_mixed T x) (empty_rep, ill).
Proof. intros T F x HH. unfold log2_dec_mixed. iop tt HH. Qed.
Lemma inv_log10_dec_mixed : forall (T F : fmt) (x : ditv F), ~ wf_dec x ->
  reports_invalid (log10_dec_mixed T x) (empty_rep, ill).
Proof. intros T F x HH. unfold log10_dec_mixed. iop tt HH. Qed.
Lemma inv_sin_dec_mixed : forall (T F : fmt) (x : ditv F), ~ wf_dec x ->
  reports_invalid (sin_dec_mixed T x) (empty_rep, ill).
Proof. intros T F x HH. unfold sin_dec_mixed. iop tt HH. Qed.
Lemma inv_cos_dec_mixed : forall (T F : fmt) (x : ditv F), ~ wf_dec x ->
  reports_invalid (cos_dec_mixed T x) (empty_rep, ill).
Proof. intros T F x HH. unfold cos_dec_mixed. iop tt HH. Qed.
Lemma inv_tan_dec_mixed : forall (T F : fmt) (x : ditv F), ~ wf_dec x ->
  reports_invalid (tan_dec_mixed T x) (empty_rep, ill).
Proof. intros T F x HH. unfold tan_dec_mixed. iop tt HH. Qed.
Lemma inv_asin_dec_mixed : forall (T F : fmt) (x : ditv F), ~ wf_dec x ->
  reports_invalid (asin_dec_mixed T x) (empty_rep, ill).
Proof. intros T F x HH. unfold asin_dec_mixed. iop tt HH. Qed.
Lemma inv_acos_dec_mixed : forall (T F : fmt) (x : ditv F), ~ wf_dec x ->
  reports_invalid (acos_dec_mixed T x) (empty_rep, ill).
Proof. intros T F x HH. unfold acos_dec_mixed. iop tt HH. Qed.
Lemma inv_atan_dec_mixed : forall (T F : fmt) (x : ditv F), ~ wf_dec x ->
  reports_invalid (atan_dec_mixed T x) (empty_rep, ill).
Proof. intros T F x HH. unfold atan_dec_mixed. iop tt HH. Qed.
Lemma inv_sinh_dec_mixed : forall (T F : fmt) (x : ditv F), ~ wf_dec x ->
  reports_invalid (sinh_dec_mixed T x) (empty_rep, ill).
Proof. intros T F x HH. unfold sinh_dec_mixed. iop tt HH. Qed.
Lemma inv_cosh_dec_mixed : forall (T F : fmt) (x : ditv F), ~ wf_dec x ->
  reports_invalid (cosh_dec_mixed T x) (empty_rep, ill).
Proof. intros T F x HH. unfold cosh_dec_mixed. iop tt HH. Qed.
Lemma inv_tanh_dec_mixed : forall (T F : fmt) (x : ditv F), ~ wf_dec x ->
  reports_invalid (tanh_dec_mixed T x) (empty_rep, ill).
Proof. intros T F x HH. unfold tanh_dec_mixed. iop tt HH. Qed.
Lemma inv_asinh_dec_mixed : forall (T F : fmt) (x : ditv F), ~ wf_dec x ->
  reports_invalid (asinh_dec_mixed T x) (empty_rep, ill).
Proof. intros T F x HH. unfold asinh_dec_mixed. iop tt HH. Qed.
Lemma inv_acosh_dec_mixed : forall (T F : fmt) (x : ditv F), ~ wf_dec x ->
  reports_invalid (acosh_dec_mixed T x) (empty_rep, ill).
Proof. intros T F x HH. unfold acosh_dec_mixed. iop tt HH. Qed.
Lemma inv_atanh_dec_mixed : forall (T F : fmt) (x : ditv F), ~ wf_dec x ->
  reports_invalid (atanh_dec_mixed T x) (empty_rep, ill).
Proof. intros T F x HH. unfold atanh_dec_mixed. iop tt HH. Qed.
Lemma inv_sign_dec_mixed : forall (T F : fmt) (x : ditv F), ~ wf_dec x ->
  reports_invalid (sign_dec_mixed T x) (empty_rep, ill).
Proof. intros T F x HH. unfold sign_dec_mixed. iop tt HH. Qed.
Lemma inv_ceil_dec_mixed : forall (T F : fmt) (x : ditv F), ~ wf_dec x ->
  reports_invalid (ceil_dec_mixed T x) (empty_rep, ill).
Proof. intros T F x HH. unfold ceil_dec_mixed. iop tt HH. Qed.
Lemma inv_floor_dec_mixed : forall (T F : fmt) (x : ditv F), ~ wf_dec x ->
  reports_invalid (floor_dec_mixed T x) (empty_rep, ill).
Proof. intros T F x HH. unfold floor_dec_mixed. iop tt HH. Qed.
Lemma inv_trunc_dec_mixed : forall (T F : fmt) (x : ditv F), ~ wf_dec x ->
  reports_invalid (trunc_dec_mixed T x) (empty_rep, ill).
Proof. intros T F x HH. unfold trunc_dec_mixed. iop tt HH. Qed.
Lemma inv_round_ties_to_even_dec_mixed : forall (T F : fmt) (x : ditv F), ~ wf_dec x ->
  reports_invalid (rte_dec_mixed T x) (empty_rep, ill).
Proof. intros T F x HH. unfold rte_dec_mixed. iop tt HH. Qed.
Lemma inv_round_ties_to_away_dec_mixed : forall (T F : fmt) (x : ditv F), ~ wf_dec x ->
  reports_invalid (rta_dec_mixed T x) (empty_rep, ill).
Proof. intros T F x HH. unfold rta_dec_mixed. iop tt HH. Qed.
Lemma inv_pown_dec_mixed : forall (T F : fmt) (x : ditv F) (p : Z), ~ wf_dec x ->
  reports_invalid (pown_dec_mixed T x p) (empty_rep, ill).
Proof. intros T F x p HH. unfold pown_dec_mixed. iop tt HH. Qed.
Lemma inv_add_dec_mixed : forall (T F G : fmt) (x : ditv F) (y : ditv G), ~ wf_dec x \/ ~ wf_dec y ->
  reports_invalid (add_dec_mixed T x y) (empty_rep, ill).
Proof. intros T F G x y HH. unfold add_dec_mixed. iop tt HH. Qed.
Lemma inv_sub_dec_mixed : forall (T F G : fmt) (x : ditv F) (y : ditv G), ~ wf_dec x \/ ~ wf_dec y ->
  reports_invalid (sub_dec_mixed T x y) (empty_rep, ill).
Proof. intros T F G x y HH. unfold sub_dec_mixed. iop tt HH. Qed.
Lemma inv_mul_dec_mixed : forall (T F G : fmt) (x : ditv F) (y : ditv G), ~ wf_dec x \/ ~ wf_dec y ->
  reports_invalid (mul_dec_mixed T x y) (empty_rep, ill).
Proof. intros T F G x y HH. unfold mul_dec_mixed. iop tt HH. Qed.
Lemma inv_div_dec_mixed : forall (T F G : fmt) (x : ditv F) (y : ditv G), ~ wf_dec x \/ ~ wf_dec y ->
  reports_invalid (div_dec_mixed T x y) (empty_rep, ill).
Proof. intros T F G x y HH. unfold div_dec_mixed. iop tt HH. Qed.
Lemma inv_min_dec_mixed : forall (T F G : fmt) (x : ditv F) (y : ditv G), ~ wf_dec x \/ ~ wf_dec y ->
  reports_invalid (min_dec_mixed T x y) (empty_rep, ill).
Proof. intros T F G x y HH. unfold min_dec_mixed. iop tt HH. Qed.
Lemma inv_max_dec_mixed : forall (T F G : fmt) (x : ditv F) (y : ditv G), ~ wf_dec x \/ ~ wf_dec y ->
  reports_invalid (max_dec_mixed T x y) (empty_rep, ill).
Proof. intros T F G x y HH. unfold max_dec_mixed. iop tt HH. Qed.
Lemma inv_pow_dec_mixed : forall (T F G : fmt) (x : ditv F) (y : ditv G), ~ wf_dec x \/ ~ wf_dec y ->
  reports_invalid (pow_dec_mixed T x y) (empty_rep, ill).
Proof. intros T F G x y HH. unfold pow_dec_mixed. iop tt HH. Qed.
Lemma inv_atan2_dec_mixed : forall (T F G : fmt) (x : ditv F) (y : ditv G), ~ wf_dec x \/ ~ wf_dec y ->
  reports_invalid (atan2_dec_mixed T x y) (empty_rep, ill).
Proof. intros T F G x y HH. unfold atan2_dec_mixed. iop tt HH. Qed.
Lemma inv_intersection_dec_mixed : forall (T F G : fmt) (x : ditv F) (y : ditv G), ~ wf_dec x \/ ~ wf_dec y ->
  reports_invalid (intersection_dec_mixed T x y) (empty_rep, ill).
Proof. intros T F G x y HH. unfold intersection_dec_mixed. iop tt HH. Qed.
Lemma inv_convex_hull_dec_mixed : forall (T F G : fmt) (x : ditv F) (y : ditv G), ~ wf_dec x \/ ~ wf_dec y ->
  reports_invalid (convex_hull_dec_mixed T x y) (empty_rep, ill).
Proof. intros T F G x y HH. unfold convex_hull_dec_mixed. iop tt HH. Qed.
Lemma inv_cancel_minus_dec_mixed : forall (T F G : fmt) (x : ditv F) (y : ditv G), ~ wf_dec x \/ ~ wf_dec y ->
  reports_invalid (cancel_minus_dec_mixed T x y) (empty_rep, ill).
Proof. intros T F G x y HH. unfold cancel_minus_dec_mixed. iop tt HH. Qed.
Lemma inv_fma_dec_mixed : forall (T F G H : fmt) (x : ditv F) (y : ditv G) (z : ditv H), ~ wf_dec x \/ ~ wf_dec y \/ ~ wf_dec z ->
  reports_invalid (fma_dec_mixed T x y z) (empty_rep, ill).
Proof. intros T F G H x y z HH. unfold fma_dec_mixed. iop tt HH. Qed.
Lemma inv_sqr_rev : forall (F : fmt) (c x : itv F), ~ wf c \/ ~ wf x ->
  reports_invalid (sqr_rev c x) empty_rep.
Proof. intros F c x HH. unfold sqr_rev. iop tt HH. Qed.
Lemma inv_sqr_rev1 : forall (F : fmt) (c : itv F), ~ wf c ->
  reports_invalid (sqr_rev1 c) empty_rep.
Proof. intros F c HH. unfold sqr_rev1, sqr_rev. iop tt HH. Qed.
Lemma inv_sqr_rev_dec : forall (F : fmt) (c x : ditv F), ~ wf_dec c \/ ~ wf_dec x ->
  reports_invalid (sqr_rev_dec c x) (empty_rep, ill).
Proof. intros F c x HH. unfold sqr_rev_dec. iop tt HH. Qed.
Lemma inv_sqr_rev1_dec : forall (F : fmt) (c : ditv F), ~ wf_dec c ->
  reports_invalid (sqr_rev1_dec c) (empty_rep, ill).
Proof. intros F c HH. unfold sqr_rev1_dec, sqr_rev_dec. iop tt HH. Qed.
Lemma inv_sqr_rev_mixed : forall (T F G : fmt) (c : itv F) (x : itv G), ~ wf c \/ ~ wf x ->
  reports_invalid (sqr_rev_mixed T c x) empty_rep.
Proof. intros T F G c x HH. unfold sqr_rev_mixed. iop tt HH. Qed.
Lemma inv_sqr_rev_dec_mixed : forall (T F G : fmt) (c : ditv F) (x : ditv G), ~ wf_dec c \/ ~ wf_dec x ->
  reports_invalid (sqr_rev_dec_mixed T c x) (empty_rep, ill).
Proof. intros T F G c x HH. unfold sqr_rev_dec_mixed. iop tt HH. Qed.
Lemma inv_abs_rev : forall (F : fmt) (c x : itv F), ~ wf c \/ ~ wf x ->
  reports_invalid (abs_rev c x) empty_rep.
Proof. intros F c x HH. unfold abs_rev. iop tt HH. Qed.
Lemma inv_abs_rev1 : forall (F : fmt) (c : itv F), ~ wf c ->
  reports_invalid (abs_rev1 c) empty_rep.
Proof. intros F c HH. unfold abs_rev1, abs_rev. iop tt HH. Qed.
Lemma inv_abs_rev_dec : forall (F : fmt) (c x : ditv F), ~ wf_dec c \/ ~ wf_dec x ->
  reports_invalid (abs_rev_dec c x) (empty_rep, ill).
Proof. intros F c x HH. unfold abs_rev_dec. iop tt HH. Qed.
Lemma inv_abs_rev1_dec : forall (F : fmt) (c : ditv F), ~ wf_dec c ->
  reports_invalid (abs_rev1_dec c) (empty_rep, ill).
Proof. intros F c HH. unfold abs_rev1_dec, abs_rev_dec. iop tt HH. Qed.
Lemma inv_abs_rev_mixed : forall (T F G : fmt) (c : itv F) (x : itv G), ~ wf c \/ ~ wf x ->
  reports_invalid (abs_rev_mixed T c x) empty_rep.
Proof. intros T F G c x HH. unfold abs_rev_mixed. iop tt HH. Qed.
Lemma inv_abs_rev_dec_mixed : forall (T F G : fmt) (c : ditv F) (x : ditv G), ~ wf_dec c \/ ~ wf_dec x ->
  reports_invalid (abs_rev_dec_mixed T c x) (empty_rep, ill).
Proof. intros T F G c x HH. unfold abs_rev_dec_mixed. iop tt HH. Qed.
Lemma inv_cosh_rev : forall (F : fmt) (c x : itv F), ~ wf c \/ ~ wf x ->
  reports_invalid (cosh_rev c x) empty_rep.
Proof. intros F c x HH. unfold cosh_rev. iop tt HH. Qed.
Lemma inv_cosh_rev1 : forall (F : fmt) (c : itv F), ~ wf c ->
  reports_invalid (cosh_rev1 c) empty_rep.
Proof. intros F c HH. unfold cosh_rev1, cosh_rev. iop tt HH. Qed.
Lemma inv_cosh_rev_dec : forall (F : fmt) (c x : ditv F), ~ wf_dec c \/ ~ wf_dec x ->
  reports_invalid (cosh_rev_dec c x) (empty_rep, ill).
Proof. intros F c x HH. unfold cosh_rev_dec. iop tt HH. Qed.
Lemma inv_cosh_rev1_dec : forall (F : fmt) (c : ditv F), ~ wf_dec c ->
  reports_invalid (cosh_rev1_dec c) (empty_rep, ill).
Proof. intros F c HH. unfold cosh_rev1_dec, cosh_rev_dec. iop tt HH. Qed.
Lemma inv_cosh_rev_mixed : forall (T F G : fmt) (c : itv F) (x : itv G), ~ wf c \/ ~ wf x ->
  reports_invalid (cosh_rev_mixed T c x) empty_rep.
Proof. intros T F G c x HH. unfold cosh_rev_mixed. iop tt HH. Qed.
Lemma inv_cosh_rev_dec_mixed : forall (T F G : fmt) (c : ditv F) (x : ditv G), ~ wf_dec c \/ ~ wf_dec x ->
  reports_invalid (cosh_rev_dec_mixed T c x) (empty_rep, ill).
Proof. intros T F G c x HH. unfold cosh_rev_dec_mixed. iop tt HH. Qed.
Lemma inv_sin_rev : forall (F : fmt) (c x : itv F), ~ wf c \/ ~ wf x ->
  reports_invalid (sin_rev c x) empty_rep.
Proof. intros F c x HH. unfold sin_rev. iop tt HH. Qed.
Lemma inv_sin_rev1 : forall (F : fmt) (c : itv F), ~ wf c ->
  reports_invalid (sin_rev1 c) empty_rep.
Proof. intros F c HH. unfold sin_rev1, sin_rev. iop tt HH. Qed.
Lemma inv_sin_rev_dec : forall (F : fmt) (c x : ditv F), ~ wf_dec c \/ ~ wf_dec x ->
  reports_invalid (sin_rev_dec c x) (empty_rep, ill).
Proof. intros F c x HH. unfold sin_rev_dec. iop tt HH. Qed.
Lemma inv_sin_rev1_dec : forall (F : fmt) (c : ditv F), ~ wf_dec c ->
  reports_invalid (sin_rev1_dec c) (empty_rep, ill).
Proof. intros F c HH. unfold sin_rev1_dec, sin_rev_dec. iop tt HH. Qed.
Lemma inv_sin_rev_mixed : forall (T F G : fmt) (c : itv F) (x : itv G), ~ wf c \/ ~ wf x ->
  reports_invalid (sin_rev_mixed T c x) empty_rep.
Proof. intros T F G c x HH. unfold sin_rev_mixed. iop tt HH. Qed.
Lemma inv_sin_rev_dec_mixed : forall (T F G : fmt) (c : ditv F) (x : ditv G), ~ wf_dec c \/ ~ wf_dec x ->
  reports_invalid (sin_rev_dec_mixed T c x) (empty_rep, ill).
Proof. intros T F G c x HH. unfold sin_rev_dec_mixed. iop tt HH. Qed.
Lemma inv_cos_rev : forall (F : fmt) (c x : itv F), ~ wf c \/ ~ wf x ->
  reports_invalid (cos_rev c x) empty_rep.
Proof. intros F c x HH. unfold cos_rev. iop tt HH. Qed.
Lemma inv_cos_rev1 : forall (F : fmt) (c : itv F), ~ wf c ->
  reports_invalid (cos_rev1 c) empty_rep.
Proof. intros F c HH. unfold cos_rev1, cos_rev. iop tt HH. Qed.
Lemma inv_cos_rev_dec : forall (F : fmt) (c x : ditv F), ~ wf_dec c \/ ~ wf_dec x ->
  reports_invalid (cos_rev_dec c x) (empty_rep, ill).
Proof. intros F c x HH. unfold cos_rev_dec. iop tt HH. Qed.
Lemma inv_cos_rev1_dec : forall (F : fmt) (c : ditv F), ~ wf_dec c ->
  reports_invalid (cos_rev1_dec c) (empty_rep, ill).
Proof. intros F c HH. unfold cos_rev1_dec, cos_rev_dec. iop tt HH. Qed.
Lemma inv_cos_rev_mixed : forall (T F G : fmt) (c : itv F) (x : itv G), ~ wf c \/ ~ wf x ->
  reports_invalid (cos_rev_mixed T c x) empty_rep.
Proof. intros T F G c x HH. unfold cos_rev_mixed. iop tt HH. Qed.
Lemma inv_cos_rev_dec_mixed : forall (T F G : fmt) (c : ditv F) (x : ditv G), ~ wf_dec c \/ ~ wf_dec x ->
  reports_invalid (cos_rev_dec_mixed T c x) (empty_rep, ill).
Proof. intros T F G c x HH. unfold cos_rev_dec_mixed. iop tt HH. Qed.
Lemma inv_tan_rev : forall (F : fmt) (c x : itv F), ~ wf c \/ ~ wf x ->
  reports_invalid (tan_rev c x) empty_rep.
Proof. intros F c x HH. unfold tan_rev. iop tt HH. Qed.
Lemma inv_tan_rev1 : forall (F : fmt) (c : itv F), ~ wf c ->
  reports_invalid (tan_rev1 c) empty_rep.
Proof. intros F c HH. unfold tan_rev1, tan_rev. iop tt HH. Qed.
Lemma inv_tan_rev_dec : forall (F : fmt) (c x : ditv F), ~ wf_dec c \/ ~ wf_dec x ->
  reports_invalid (tan_rev_dec c x) (empty_rep, ill).
Proof. intros F c x HH. unfold tan_rev_dec. iop tt HH. Qed.
Lemma inv_tan_rev1_dec : forall (F : fmt) (c : ditv F), ~ wf_dec c ->
  reports_invalid (tan_rev1_dec c) (empty_rep, ill).
Proof. intros F c HH. unfold tan_rev1_dec, tan_rev_dec. iop tt HH. Qed.
Lemma inv_tan_rev_mixed : forall (T F G : fmt) (c : itv F) (x : itv G), ~ wf c \/ ~ wf x ->
  reports_invalid (tan_rev_mixed T c x) empty_rep.
Proof. intros T F G c x HH. unfold tan_rev_mixed. iop tt HH. Qed.
Lemma inv_tan_rev_dec_mixed : forall (T F G : fmt) (c : ditv F) (x : ditv G), ~ wf_dec c \/ ~ wf_dec x ->
  reports_invalid (tan_rev_dec_mixed T c x) (empty_rep, ill).
Proof. intros T F G c x HH. unfold tan_rev_dec_mixed. iop tt HH. Qed.
Lemma inv_pown_rev : forall (F : fmt) (c x : itv F) (fuel : nat) (p : Z), ~ wf c \/ ~ wf x ->
  reports_invalid (pown_rev fuel c x p) empty_rep.
Proof. intros F c x fuel p HH. unfold pown_rev. iop tt HH. Qed.
Lemma inv_pown_rev1 : forall (F : fmt) (c : itv F) (fuel : nat) (p : Z), ~ wf c ->
  reports_invalid (pown_rev1 fuel c p) empty_rep.
Proof. intros F c fuel p HH. unfold pown_rev1, pown_rev. iop tt HH. Qed.
Lemma inv_pown_rev_dec : forall (F : fmt) (c x : ditv F) (fuel : nat) (p : Z), ~ wf_dec c \/ ~ wf_dec x ->
  reports_invalid (pown_rev_dec fuel c x p) (empty_rep, ill).
Proof. intros F c x fuel p HH. unfold pown_rev_dec. iop tt HH. Qed.
Lemma inv_pown_rev1_dec : forall (F : fmt) (c : ditv F) (fuel : nat) (p : Z), ~ wf_dec c ->
  reports_invalid (pown_rev1_dec fuel c p) (empty_rep, ill).
Proof. intros F c fuel p HH. unfold pown_rev1_dec, pown_rev_dec. iop tt HH. Qed.
Lemma inv_pown_rev_mixed : forall (T F G : fmt) (c : itv F) (x : itv G) (fuel : nat) (p : Z), ~ wf c \/ ~ wf x ->
  reports_invalid (pown_rev_mixed T fuel c x p) empty_rep.
Proof. intros T F G c x fuel p HH. unfold pown_rev_mixed. iop tt HH. Qed.
Lemma inv_pown_rev_dec_mixed : forall (T F G : fmt) (c : ditv F) (x : ditv G) (fuel : nat) (p : Z), ~ wf_dec c \/ ~ wf_dec x ->
  reports_invalid (pown_rev_dec_mixed T fuel c x p) (empty_rep, ill).
Proof. intros T F G c x fuel p HH. unfold pown_rev_dec_mixed. iop tt HH. Qed.
Lemma inv_mul_rev : forall (F : fmt) (b c x : itv F), ~ wf b \/ ~ wf c \/ ~ wf x ->
  reports_invalid (mul_rev b c x) empty_rep.
Proof. intros F b c x HH. unfold mul_rev. iop tt HH. Qed.
Lemma inv_mul_rev2 : forall (F : fmt) (b c : itv F), ~ wf b \/ ~ wf c ->
  reports_invalid (mul_rev2 b c) empty_rep.
Proof. intros F b c HH. unfold mul_rev2, mul_rev. iop tt HH. Qed.
Lemma inv_mul_rev_dec : forall (F : fmt) (b c x : ditv F), ~ wf_dec b \/ ~ wf_dec c \/ ~ wf_dec x ->
  reports_invalid (mul_rev_dec b c x) (empty_rep, ill).
Proof. intros F b c x HH. unfold mul_rev_dec. iop tt HH. Qed.
Lemma inv_mul_rev2_dec : forall (F : fmt) (b c : ditv F), ~ wf_dec b \/ ~ wf_dec c ->
  reports_invalid (mul_rev2_dec b c) (empty_rep, ill).
Proof. intros F b c HH. unfold mul_rev2_dec, mul_rev_dec. iop tt HH. Qed.
Lemma inv_mul_rev_mixed : forall (T F G H : fmt) (b : itv F) (c : itv G) (x : itv H), ~ wf b \/ ~ wf c \/ ~ wf x ->
  reports_invalid (mul_rev_mixed T b c x) empty_rep.
Proof. intros T F G H b c x HH. unfold mul_rev_mixed. iop tt HH. Qed.
Lemma inv_mul_rev_dec_mixed : forall (T F G H : fmt) (b : ditv F) (c : ditv G) (x : ditv H), ~ wf_dec b \/ ~ wf_dec c \/ ~ wf_dec x ->
  reports_invalid (mul_rev_dec_mixed T b c x) (empty_rep, ill).
Proof. intros T F G H b c x HH. unfold mul_rev_dec_mixed. iop tt HH. Qed.
Lemma inv_mul_rev_to_pair : forall (F : fmt) (b c : itv F), ~ wf b \/ ~ wf c ->
  reports_invalid (mul_rev_to_pair b c) (empty_rep, empty_rep).
Proof. intros F b c HH. unfold mul_rev_to_pair, mul_rev_to_pair_t. iop tt HH. Qed.
Lemma inv_mul_rev_to_pair_dec : forall (F : fmt) (b c : ditv F), ~ wf_dec b \/ ~ wf_dec c ->
  reports_invalid (mul_rev_to_pair_dec b c) ((empty_rep, ill), (empty_rep, ill)).
Proof. intros F b c HH. unfold mul_rev_to_pair_dec. iop tt HH. Qed.
Lemma inv_equal : forall (F : fmt) (x y : itv F), ~ wf x \/ ~ wf y ->
  reports_invalid (equal x y) false.
Proof. intros F x y HH. unfold equal. iop tt HH. Qed.
Lemma inv_equal_mixed : forall (F G : fmt) (x : itv F) (y : itv G), ~ wf x \/ ~ wf y ->
  reports_invalid (equal_mixed x y) false.
Proof. intros F G x y HH. unfold equal_mixed. iop tt HH. Qed.
Lemma inv_equal_dec : forall (F G : fmt) (x : ditv F) (y : ditv G), ~ wf_dec x \/ ~ wf_dec y ->
  reports_invalid (rel_dec equal_mixed x y) false.
Proof. intros F G x y HH.  iop tt HH. Qed.
Lemma inv_subset : forall (F : fmt) (x y : itv F), ~ wf x \/ ~ wf y ->
  reports_invalid (subset x y) false.
Proof. intros F x y HH. unfold subset. iop tt HH. Qed.
Lemma inv_subset_mixed : forall (F G : fmt) (x : itv F) (y : itv G), ~ wf x \/ ~ wf y ->
  reports_invalid (subset_mixed x y) false.
Proof. intros F G x y HH. unfold subset_mixed. iop tt HH. Qed.
Lemma inv_subset_dec : forall (F G : fmt) (x : ditv F) (y : ditv G), ~ wf_dec x \/ ~ wf_dec y ->
  reports_invalid (rel_dec subset_mixed x y) false.
Proof. intros F G x y HH.  iop tt HH. Qed.
Lemma inv_less : forall (F : fmt) (x y : itv F), ~ wf x \/ ~ wf y ->
  reports_invalid (less x y) false.
Proof. intros F x y HH. unfold less. iop tt HH. Qed.
Lemma inv_less_mixed : forall (F G : fmt) (x : itv F) (y : itv G), ~ wf x \/ ~ wf y ->
  reports_invalid (less_mixed x y) false.
Proof. intros F G x y HH. unfold less_mixed. iop tt HH. Qed.
Lemma inv_less_dec : forall (F G : fmt) (x : ditv F) (y : ditv G), ~ wf_dec x \/ ~ wf_dec y ->
  reports_invalid (rel_dec less_mixed x y) false.
Proof. intros F G x y HH.  iop tt HH. Qed.
Lemma inv_precedes : forall (F : fmt) (x y : itv F), ~ wf x \/ ~ wf y ->
  reports_invalid (precedes x y) false.
Proof. intros F x y HH. unfold precedes. iop tt HH. Qed.
Lemma inv_precedes_mixed : forall (F G : fmt) (x : itv F) (y : itv G), ~ wf x \/ ~ wf y ->
  reports_invalid (precedes_mixed x y) false.
Proof. intros F G x y HH. unfold precedes_mixed. iop tt HH. Qed.
Lemma inv_precedes_dec : forall (F G : fmt) (x : ditv F) (y : ditv G), ~ wf_dec x \/ ~ wf_dec y ->
  reports_invalid (rel_dec precedes_mixed x y) false.
Proof. intros F G x y HH.  iop tt HH. Qed.
Lemma inv_interior : forall (F : fmt) (x y : itv F), ~ wf x \/ ~ wf y ->
  reports_invalid (interior x y) false.
Proof. intros F x y HH. unfold interior. iop tt HH. Qed.
Lemma inv_interior_mixed : forall (F G : fmt) (x : itv F) (y : itv G), ~ wf x \/ ~ wf y ->
  reports_invalid (interior_mixed x y) false.
Proof. intros F G x y HH. unfold interior_mixed. iop tt HH. Qed.
Lemma inv_interior_dec : forall (F G : fmt) (x : ditv F) (y : ditv G), ~ wf_dec x \/ ~ wf_dec y ->
  reports_invalid (rel_dec interior_mixed x y) false.
Proof. intros F G x y HH.  iop tt HH. Qed.
Lemma inv_strictly_less : forall (F : fmt) (x y : itv F), ~ wf x \/ ~ wf y ->
  reports_invalid (strictly_less x y) false.
Proof. intros F x y HH. unfold strictly_less. iop tt HH. Qed.
Lemma inv_strictly_less_mixed : forall (F G : fmt) (x : itv F) (y : itv G), ~ wf x \/ ~ wf y ->
  reports_invalid (strictly_less_mixed x y) false.
Proof. intros F G x y HH. unfold strictly_less_mixed. iop tt HH. Qed.
Lemma inv_strictly_less_dec : forall (F G : fmt) (x : ditv F) (y : ditv G), ~ wf_dec x \/ ~ wf_dec y ->
  reports_invalid (rel_dec strictly_less_mixed x y) false.
Proof. intros F G x y HH.  iop tt HH. Qed.
Lemma inv_strictly_precedes : forall (F : fmt) (x y : itv F), ~ wf x \/ ~ wf y ->
  reports_invalid (strictly_precedes x y) false.
Proof. intros F x y HH. unfold strictly_precedes. iop tt HH. Qed.
Lemma inv_strictly_precedes_mixed : forall (F G : fmt) (x : itv F) (y : itv G), ~ wf x \/ ~ wf y ->
  reports_invalid (strictly_precedes_mixed x y) false.
Proof. intros F G x y HH. unfold strictly_precedes_mixed. iop tt HH. Qed.
Lemma inv_strictly_precedes_dec : forall (F G : fmt) (x : ditv F) (y : ditv G), ~ wf_dec x \/ ~ wf_dec y ->
  reports_invalid (rel_dec strictly_precedes_mixed x y) false.
Proof. intros F G x y HH.  iop tt HH. Qed.
Lemma inv_disjoint : forall (F : fmt) (x y : itv F), ~ wf x \/ ~ wf y ->
  reports_invalid (disjoint x y) false.
Proof. intros F x y HH. unfold disjoint. iop tt HH. Qed.
Lemma inv_disjoint_mixed : forall (F G : fmt) (x : itv F) (y : itv G), ~ wf x \/ ~ wf y ->
  reports_invalid (disjoint_mixed x y) false.
Proof. intros F G x y HH. unfold disjoint_mixed. iop tt HH. Qed.
Lemma inv_disjoint_dec : forall (F G : fmt) (x : ditv F) (y : ditv G), ~ wf_dec x \/ ~ wf_dec y ->
  reports_invalid (rel_dec disjoint_mixed x y) false.
Proof. intros F G x y HH.  iop tt HH. Qed.
Lemma inv_superset_mixed : forall (F G : fmt) (x : itv F) (y : itv G), ~ wf y \/ ~ wf x ->
  reports_invalid (superset_mixed x y) false.
Proof. intros F G x y HH. unfold superset_mixed, subset_mixed. iop tt HH. Qed.
Lemma inv_greater_mixed : forall (F G : fmt) (x : itv F) (y : itv G), ~ wf y \/ ~ wf x ->
  reports_invalid (greater_mixed x y) false.
Proof. intros F G x y HH. unfold greater_mixed, less_mixed. iop tt HH. Qed.
Lemma inv_succeeds_mixed : forall (F G : fmt) (x : itv F) (y : itv G), ~ wf y \/ ~ wf x ->
  reports_invalid (succeeds_mixed x y) false.
Proof. intros F G x y HH. unfold succeeds_mixed, precedes_mixed. iop tt HH. Qed.
Lemma inv_contains_interior_mixed : forall (F G : fmt) (x : itv F) (y : itv G), ~ wf y \/ ~ wf x ->
  reports_invalid (contains_interior_mixed x y) false.
Proof. intros F G x y HH. unfold contains_interior_mixed, interior_mixed. iop tt HH. Qed.
Lemma inv_strictly_greater_mixed : forall (F G : fmt) (x : itv F) (y : itv G), ~ wf y \/ ~ wf x ->
  reports_invalid (strictly_greater_mixed x y) false.
Proof. intros F G x y HH. unfold strictly_greater_mixed, strictly_less_mixed. iop tt HH. Qed.
Lemma inv_strictly_succeeds_mixed : forall (F G : fmt) (x : itv F) (y : itv G), ~ wf y \/ ~ wf x ->
  reports_invalid (strictly_succeeds_mixed x y) false.
Proof. intros F G x y HH. unfold strictly_succeeds_mixed, strictly_precedes_mixed. iop tt HH. Qed.
Lemma inv_op_eq : forall (F G : fmt) (x : itv F) (y : itv G), ~ wf x \/ ~ wf y ->
  reports_invalid (op_eq x y) false.
Proof. intros F G x y HH. unfold op_eq, equal_mixed. iop tt HH. Qed.
Lemma inv_is_empty : forall (F : fmt) (x : itv F), ~ wf x ->
  reports_invalid (is_empty x) false.
Proof. intros F x HH. unfold is_empty. iop tt HH. Qed.
Lemma inv_is_empty_dec : forall (F : fmt) (x : ditv F), ~ wf_dec x ->
  reports_invalid (is_empty_dec x) false.
Proof. intros F x HH. unfold is_empty_dec. iop tt HH. Qed.
Lemma inv_is_entire : forall (F : fmt) (x : itv F), ~ wf x ->
  reports_invalid (is_entire x) false.
Proof. intros F x HH. unfold is_entire. iop tt HH. Qed.
Lemma inv_is_entire_dec : forall (F : fmt) (x : ditv F), ~ wf_dec x ->
  reports_invalid (is_entire_dec x) false.
Proof. intros F x HH. unfold is_entire_dec. iop tt HH. Qed.
Lemma inv_is_common_interval : forall (F : fmt) (x : itv F), ~ wf x ->
  reports_invalid (is_common_interval x) false.
Proof. intros F x HH. unfold is_common_interval. iop tt HH. Qed.
Lemma inv_is_common_interval_dec : forall (F : fmt) (x : ditv F), ~ wf_dec x ->
  reports_invalid (is_common_interval_dec x) false.
Proof. intros F x HH. unfold is_common_interval_dec. iop tt HH. Qed.
Lemma inv_is_singleton : forall (F : fmt) (x : itv F), ~ wf x ->
  reports_invalid (is_singleton x) false.
Proof. intros F x HH. unfold is_singleton. iop tt HH. Qed.
Lemma inv_is_singleton_dec : forall (F : fmt) (x : ditv F), ~ wf_dec x ->
  reports_invalid (is_singleton_dec x) false.
Proof. intros F x HH. unfold is_singleton_dec. iop tt HH. Qed.
Lemma inv_is_nai : forall (F : fmt) (x : ditv F), ~ wf_dec x ->
  reports_invalid (is_nai x) false.
Proof. intros F x HH. unfold is_nai. iop tt HH. Qed.
Lemma inv_is_member : forall (F : fmt) (m : float F) (x : itv F), ~ wf x ->
  reports_invalid (is_member m x) false.
Proof. intros F m x HH. unfold is_member. iop tt HH. Qed.
Lemma inv_is_member_mixed : forall (F G : fmt) (m : float G) (x : itv F), ~ wf x ->
  reports_invalid (is_member_mixed m x) false.
Proof. intros F G m x HH. unfold is_member_mixed. iop tt HH. Qed.
Lemma inv_is_member_dec : forall (F G : fmt) (m : float G) (x : ditv F), ~ wf_dec x ->
  reports_invalid (is_member_dec m x) false.
Proof. intros F G m x HH. unfold is_member_dec. iop tt HH. Qed.
Lemma inv_overlap : forall (F G : fmt) (x : itv F) (y : itv G), ~ wf x \/ ~ wf y ->
  reports_invalid (overlap x y) o_undefined.
Proof. intros F G x y HH. unfold overlap. iop tt HH. Qed.
Lemma inv_overlap_dec : forall (F G : fmt) (x : ditv F) (y : ditv G), ~ wf_dec x \/ ~ wf_dec y ->
  reports_invalid (overlap_dec x y) o_undefined.
Proof. intros F G x y HH. unfold overlap_dec. iop tt HH. Qed.
Lemma inv_n_inf : forall (F : fmt) (x : itv F), ~ wf x ->
  reports_invalid (n_inf x) fnan.
Proof. intros F x HH. unfold n_inf. iop tt HH. Qed.
Lemma inv_n_inf_dec : forall (F : fmt) (x : ditv F), ~ wf_dec x ->
  reports_invalid (n_inf_dec x) fnan.
Proof. intros F x HH. unfold n_inf_dec. iop tt HH. Qed.
Lemma inv_n_inf_mixed : forall (G F : fmt) (x : itv F), ~ wf x ->
  reports_invalid (n_inf_mixed G x) fnan.
Proof. intros G F x HH. unfold n_inf_mixed. iop tt HH. Qed.
Lemma inv_n_inf_dec_mixed : forall (G F : fmt) (x : ditv F), ~ wf_dec x ->
  reports_invalid (num_dec_mixed G (n_inf_mixed G) x) fnan.
Proof. intros G F x HH.  iop tt HH. Qed.
Lemma inv_n_sup : forall (F : fmt) (x : itv F), ~ wf x ->
  reports_invalid (n_sup x) fnan.
Proof. intros F x HH. unfold n_sup. iop tt HH. Qed.
Lemma inv_n_sup_dec : forall (F : fmt) (x : ditv F), ~ wf_dec x ->
  reports_invalid (n_sup_dec x) fnan.
Proof. intros F x HH. unfold n_sup_dec. iop tt HH. Qed.
Lemma inv_n_sup_mixed : forall (G F : fmt) (x : itv F), ~ wf x ->
  reports_invalid (n_sup_mixed G x) fnan.
Proof. intros G F x HH. unfold n_sup_mixed. iop tt HH. Qed.
Lemma inv_n_sup_dec_mixed : forall (G F : fmt) (x : ditv F), ~ wf_dec x ->
  reports_invalid (num_dec_mixed G (n_sup_mixed G) x) fnan.
Proof. intros G F x HH.  iop tt HH. Qed.
Lemma inv_n_mid : forall (F : fmt) (x : itv F), ~ wf x ->
  reports_invalid (n_mid x) fnan.
Proof. intros F x HH. unfold n_mid. iop tt HH. Qed.
Lemma inv_n_mid_dec : forall (F : fmt) (x : ditv F), ~ wf_dec x ->
  reports_invalid (n_mid_dec x) fnan.
Proof. intros F x HH. unfold n_mid_dec. iop tt HH. Qed.
Lemma inv_n_mid_mixed : forall (G F : fmt) (x : itv F), ~ wf x ->
  reports_invalid (n_mid_mixed G x) fnan.
Proof. intros G F x HH. unfold n_mid_mixed. iop tt HH. Qed.
Lemma inv_n_mid_dec_mixed : forall (G F : fmt) (x : ditv F), ~ wf_dec x ->
  reports_invalid (num_dec_mixed G (n_mid_mixed G) x) fnan.
Proof. intros G F x HH.  iop tt HH. Qed.
Lemma inv_n_rad : forall (F : fmt) (x : itv F), ~ wf x ->
  reports_invalid (n_rad x) fnan.
Proof. intros F x HH. unfold n_rad, n_mid_rad. iop tt HH. Qed.
Lemma inv_n_rad_dec : forall (F : fmt) (x : ditv F), ~ wf_dec x ->
  reports_invalid (n_rad_dec x) fnan.
Proof. intros F x HH. unfold n_rad_dec. iop tt HH. Qed.
Lemma inv_n_rad_mixed : forall (G F : fmt) (x : itv F), ~ wf x ->
  reports_invalid (n_rad_mixed G x) fnan.
Proof. intros G F x HH. unfold n_rad_mixed, n_mid_rad_mixed. iop tt HH. Qed.
Lemma inv_n_rad_dec_mixed : forall (G F : fmt) (x : ditv F), ~ wf_dec x ->
  reports_invalid (num_dec_mixed G (n_rad_mixed G) x) fnan.
Proof. intros G F x HH.  iop tt HH. Qed.
Lemma inv_n_wid : forall (F : fmt) (x : itv F), ~ wf x ->
  reports_invalid (n_wid x) fnan.
Proof. intros F x HH. unfold n_wid. iop tt HH. Qed.
Lemma inv_n_wid_dec : forall (F : fmt) (x : ditv F), ~ wf_dec x ->
  reports_invalid (n_wid_dec x) fnan.
Proof. intros F x HH. unfold n_wid_dec. iop tt HH. Qed.
Lemma inv_n_wid_mixed : forall (G F : fmt) (x : itv F), ~ wf x ->
  reports_invalid (n_wid_mixed G x) fnan.
Proof. intros G F x HH. unfold n_wid_mixed. iop tt HH. Qed.
Lemma inv_n_wid_dec_mixed : forall (G F : fmt) (x : ditv F), ~ wf_dec x ->
  reports_invalid (num_dec_mixed G (n_wid_mixed G) x) fnan.
Proof. intros G F x HH.  iop tt HH. Qed.
Lemma inv_n_mag : forall (F : fmt) (x : itv F), ~ wf x ->
  reports_invalid (n_mag x) fnan.
Proof. intros F x HH. unfold n_mag. iop tt HH. Qed.
Lemma inv_n_mag_dec : forall (F : fmt) (x : ditv F), ~ wf_dec x ->
  reports_invalid (n_mag_dec x) fnan.
Proof. intros F x HH. unfold n_mag_dec. iop tt HH. Qed.
Lemma inv_n_mag_mixed : forall (G F : fmt) (x : itv F), ~ wf x ->
  reports_invalid (n_mag_mixed G x) fnan.
Proof. intros G F x HH. unfold n_mag_mixed. iop tt HH. Qed.
Lemma inv_n_mag_dec_mixed : forall (G F : fmt) (x : ditv F), ~ wf_dec x ->
  reports_invalid (num_dec_mixed G (n_mag_mixed G) x) fnan.
Proof. intros G F x HH.  iop tt HH. Qed.
Lemma inv_n_mig : forall (F : fmt) (x : itv F), ~ wf x ->
  reports_invalid (n_mig x) fnan.
Proof. intros F x HH. unfold n_mig. iop tt HH. Qed.
Lemma inv_n_mig_dec : forall (F : fmt) (x : ditv F), ~ wf_dec x ->
  reports_invalid (n_mig_dec x) fnan.
Proof. intros F x HH. unfold n_mig_dec. iop tt HH. Qed.
Lemma inv_n_mig_mixed : forall (G F : fmt) (x : itv F), ~ wf x ->
  reports_invalid (n_mig_mixed G x) fnan.
Proof. intros G F x HH. unfold n_mig_mixed. iop tt HH. Qed.
Lemma inv_n_mig_dec_mixed : forall (G F : fmt) (x : ditv F), ~ wf_dec x ->
  reports_invalid (num_dec_mixed G (n_mig_mixed G) x) fnan.
Proof. intros G F x HH.  iop tt HH. Qed.
Lemma inv_n_mid_rad : forall (F : fmt) (x : itv F), ~ wf x ->
  reports_invalid (n_mid_rad x) (fnan, fnan).
Proof. intros F x HH. unfold n_mid_rad. iop tt HH. Qed.
Lemma inv_n_mid_rad_dec : forall (F : fmt) (x : ditv F), ~ wf_dec x ->
  reports_invalid (n_mid_rad_dec x) (fnan, fnan).
Proof. intros F x HH. unfold n_mid_rad_dec. iop tt HH. Qed.
Lemma inv_n_mid_rad_mixed : forall (G F : fmt) (x : itv F), ~ wf x ->
  reports_invalid (n_mid_rad_mixed G x) (fnan, fnan).
Proof. intros G F x HH. unfold n_mid_rad_mixed. iop tt HH. Qed.
Lemma inv_n_mid_rad_dec_mixed : forall (G F : fmt) (x : ditv F), ~ wf_dec x ->
  reports_invalid (n_mid_rad_dec_mixed G x) (fnan, fnan).
Proof. intros G F x HH. unfold n_mid_rad_dec_mixed. iop tt HH. Qed.
Lemma inv_copy : forall (F : fmt) (x : itv F), ~ wf x ->
  reports_invalid (copy x) empty_rep.
Proof. intros F x HH. unfold copy. iop tt HH. Qed.
Lemma inv_copy_dec : forall (F : fmt) (x : ditv F), ~ wf_dec x ->
  reports_invalid (copy_dec x) (empty_rep, ill).
Proof. intros F x HH. unfold copy_dec. iop tt HH. Qed.
Lemma inv_convert_type : forall (G F : fmt) (x : itv F), ~ wf x ->
  reports_invalid (convert_type G x) empty_rep.
Proof. intros G F x HH. unfold convert_type. iop tt HH. Qed.
Lemma inv_convert_type_dec : forall (G F : fmt) (x : ditv F), ~ wf_dec x ->
  reports_invalid (convert_type_dec G x) (empty_rep, ill).
Proof. intros G F x HH. unfold convert_type_dec. iop tt HH. Qed.
Lemma inv_interval_part : forall (F : fmt) (x : ditv F), ~ wf_dec x ->
  reports_invalid (interval_part x) empty_rep.
Proof. intros F x HH. unfold interval_part. iop tt HH. Qed.
Lemma inv_interval_part_mixed : forall (G F : fmt) (x : ditv F), ~ wf_dec x ->
  reports_invalid (interval_part_mixed G x) empty_rep.
Proof. intros G F x HH. unfold interval_part_mixed. iop tt HH. Qed.
Lemma inv_decoration_part : forall (F : fmt) (x : ditv F), ~ wf_dec x ->
  reports_invalid (decoration_part x) ill.
Proof. intros F x HH. unfold decoration_part. iop tt HH. Qed.
Lemma inv_new_dec : forall (F : fmt) (x : itv F), ~ wf x ->
  reports_invalid (new_dec x) (empty_rep, ill).
Proof. intros F x HH. unfold new_dec. iop tt HH. Qed.
Lemma inv_new_dec_mixed : forall (G F : fmt) (x : itv F), ~ wf x ->
  reports_invalid (new_dec_mixed G x) (empty_rep, ill).
Proof. intros G F x HH. unfold new_dec_mixed. iop tt HH. Qed.
