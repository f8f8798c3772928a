(** * C32: invalid operands are reported and yield empty, NaI, false or NaN *)
From Coq Require Import ZArith NArith Reals Bool List Lra.
From Flocq Require Import Core.Core IEEE754.BinarySingleNaN.
From Verif Require Import Fmt Spec FloatFacts Exc Deco SpecApi MBase PBase MBool MOverlap MArith MElem MPow MTrig MAtan2 MDec MMixed MNum MCancel MRev
  MTrigRev PClass PDec PInv PInvOps PConv PInv2 Ex MRev1 PRev1.
Local Open Scope R_scope.

(** A representation that is not valid ([~ wf], [~ wf_dec]) in any operand
    position: the operation sets the flag invalid_operand, throws if that is
    enabled, and otherwise returns the stated value ([SpecApi.reports]). *)

(** ** Bare operations of one type *)
Theorem C32_neg : forall (F : fmt) (x : itv F), ~ wf x ->
  reports_invalid (neg x) empty_rep.
Proof. exact inv_neg. Qed.
Theorem C32_pos : forall (F : fmt) (x : itv F), ~ wf x ->
  reports_invalid (pos x) empty_rep.
Proof. exact inv_pos. Qed.
Theorem C32_recip : forall (F : fmt) (x : itv F), ~ wf x ->
  reports_invalid (recip x) empty_rep.
Proof. exact inv_recip. Qed.
Theorem C32_sqr : forall (F : fmt) (x : itv F), ~ wf x ->
  reports_invalid (sqr x) empty_rep.
Proof. exact inv_sqr. Qed.
Theorem C32_sqrt : forall (F : fmt) (x : itv F), ~ wf x ->
  reports_invalid (sqrt x) empty_rep.
Proof. exact inv_sqrt. Qed.
Theorem C32_abs : forall (F : fmt) (x : itv F), ~ wf x ->
  reports_invalid (abs x) empty_rep.
Proof. exact inv_abs. Qed.
Theorem C32_exp : forall (F : fmt) (x : itv F), ~ wf x ->
  reports_invalid (exp_itv x) empty_rep.
Proof. exact inv_exp. Qed.
Theorem C32_exp2 : forall (F : fmt) (x : itv F), ~ wf x ->
  reports_invalid (exp2_itv x) empty_rep.
Proof. exact inv_exp2. Qed.
Theorem C32_exp10 : forall (F : fmt) (x : itv F), ~ wf x ->
  reports_invalid (exp10_itv x) empty_rep.
Proof. exact inv_exp10. Qed.
Theorem C32_log : forall (F : fmt) (x : itv F), ~ wf x ->
  reports_invalid (log_itv x) empty_rep.
Proof. exact inv_log. Qed.
Theorem C32_log2 : forall (F : fmt) (x : itv F), ~ wf x ->
  reports_invalid (log2_itv x) empty_rep.
Proof. exact inv_log2. Qed.
Theorem C32_log10 : forall (F : fmt) (x : itv F), ~ wf x ->
  reports_invalid (log10_itv x) empty_rep.
Proof. exact inv_log10. Qed.
Theorem C32_sin : forall (F : fmt) (x : itv F), ~ wf x ->
  reports_invalid (sin_itv x) empty_rep.
Proof. exact inv_sin. Qed.
Theorem C32_cos : forall (F : fmt) (x : itv F), ~ wf x ->
  reports_invalid (cos_itv x) empty_rep.
Proof. exact inv_cos. Qed.
Theorem C32_tan : forall (F : fmt) (x : itv F), ~ wf x ->
  reports_invalid (tan_itv x) empty_rep.
Proof. exact inv_tan. Qed.
Theorem C32_asin : forall (F : fmt) (x : itv F), ~ wf x ->
  reports_invalid (asin_itv x) empty_rep.
Proof. exact inv_asin. Qed.
Theorem C32_acos : forall (F : fmt) (x : itv F), ~ wf x ->
  reports_invalid (acos_itv x) empty_rep.
Proof. exact inv_acos. Qed.
Theorem C32_atan : forall (F : fmt) (x : itv F), ~ wf x ->
  reports_invalid (atan_itv x) empty_rep.
Proof. exact inv_atan. Qed.
Theorem C32_sinh : forall (F : fmt) (x : itv F), ~ wf x ->
  reports_invalid (sinh_itv x) empty_rep.
Proof. exact inv_sinh. Qed.
Theorem C32_cosh : forall (F : fmt) (x : itv F), ~ wf x ->
  reports_invalid (cosh_itv x) empty_rep.
Proof. exact inv_cosh. Qed.
Theorem C32_tanh : forall (F : fmt) (x : itv F), ~ wf x ->
  reports_invalid (tanh_itv x) empty_rep.
Proof. exact inv_tanh. Qed.
Theorem C32_asinh : forall (F : fmt) (x : itv F), ~ wf x ->
  reports_invalid (asinh_itv x) empty_rep.
Proof. exact inv_asinh. Qed.
Theorem C32_acosh : forall (F : fmt) (x : itv F), ~ wf x ->
  reports_invalid (acosh_itv x) empty_rep.
Proof. exact inv_acosh. Qed.
Theorem C32_atanh : forall (F : fmt) (x : itv F), ~ wf x ->
  reports_invalid (atanh_itv x) empty_rep.
Proof. exact inv_atanh. Qed.
Theorem C32_sign : forall (F : fmt) (x : itv F), ~ wf x ->
  reports_invalid (sign_itv x) empty_rep.
Proof. exact inv_sign. Qed.
Theorem C32_ceil : forall (F : fmt) (x : itv F), ~ wf x ->
  reports_invalid (ceil_itv x) empty_rep.
Proof. exact inv_ceil. Qed.
Theorem C32_floor : forall (F : fmt) (x : itv F), ~ wf x ->
  reports_invalid (floor_itv x) empty_rep.
Proof. exact inv_floor. Qed.
Theorem C32_trunc : forall (F : fmt) (x : itv F), ~ wf x ->
  reports_invalid (trunc_itv x) empty_rep.
Proof. exact inv_trunc. Qed.
Theorem C32_round_ties_to_even : forall (F : fmt) (x : itv F), ~ wf x ->
  reports_invalid (round_ties_to_even_itv x) empty_rep.
Proof. exact inv_round_ties_to_even. Qed.
Theorem C32_round_ties_to_away : forall (F : fmt) (x : itv F), ~ wf x ->
  reports_invalid (round_ties_to_away_itv x) empty_rep.
Proof. exact inv_round_ties_to_away. Qed.
Theorem C32_pown : forall (F : fmt) (x : itv F) (p : Z), ~ wf x ->
  reports_invalid (pown x p) empty_rep.
Proof. exact inv_pown. Qed.
Theorem C32_add : forall (F : fmt) (x y : itv F), ~ wf x \/ ~ wf y ->
  reports_invalid (add x y) empty_rep.
Proof. exact inv_add. Qed.
Theorem C32_sub : forall (F : fmt) (x y : itv F), ~ wf x \/ ~ wf y ->
  reports_invalid (sub x y) empty_rep.
Proof. exact inv_sub. Qed.
Theorem C32_mul : forall (F : fmt) (x y : itv F), ~ wf x \/ ~ wf y ->
  reports_invalid (mul x y) empty_rep.
Proof. exact inv_mul. Qed.
Theorem C32_div : forall (F : fmt) (x y : itv F), ~ wf x \/ ~ wf y ->
  reports_invalid (div x y) empty_rep.
Proof. exact inv_div. Qed.
Theorem C32_min : forall (F : fmt) (x y : itv F), ~ wf x \/ ~ wf y ->
  reports_invalid (min x y) empty_rep.
Proof. exact inv_min. Qed.
Theorem C32_max : forall (F : fmt) (x y : itv F), ~ wf x \/ ~ wf y ->
  reports_invalid (max x y) empty_rep.
Proof. exact inv_max. Qed.
Theorem C32_pow : forall (F : fmt) (x y : itv F), ~ wf x \/ ~ wf y ->
  reports_invalid (pow x y) empty_rep.
Proof. exact inv_pow. Qed.
Theorem C32_atan2 : forall (F : fmt) (x y : itv F), ~ wf x \/ ~ wf y ->
  reports_invalid (atan2_itv x y) empty_rep.
Proof. exact inv_atan2. Qed.
Theorem C32_intersection : forall (F : fmt) (x y : itv F), ~ wf x \/ ~ wf y ->
  reports_invalid (intersection x y) empty_rep.
Proof. exact inv_intersection. Qed.
Theorem C32_convex_hull : forall (F : fmt) (x y : itv F), ~ wf x \/ ~ wf y ->
  reports_invalid (convex_hull x y) empty_rep.
Proof. exact inv_convex_hull. Qed.
Theorem C32_fma : forall (F : fmt) (x y z : itv F), ~ wf x \/ ~ wf y \/ ~ wf z ->
  reports_invalid (fma x y z) empty_rep.
Proof. exact inv_fma. Qed.

(** ** Decorated operations of one type *)
Theorem C32_neg_dec : forall (F : fmt) (x : ditv F), ~ wf_dec x ->
  reports_invalid (neg_dec x) (empty_rep, ill).
Proof. exact inv_neg_dec. Qed.
Theorem C32_pos_dec : forall (F : fmt) (x : ditv F), ~ wf_dec x ->
  reports_invalid (pos_dec x) (empty_rep, ill).
Proof. exact inv_pos_dec. Qed.
Theorem C32_recip_dec : forall (F : fmt) (x : ditv F), ~ wf_dec x ->
  reports_invalid (recip_dec x) (empty_rep, ill).
Proof. exact inv_recip_dec. Qed.
Theorem C32_sqr_dec : forall (F : fmt) (x : ditv F), ~ wf_dec x ->
  reports_invalid (sqr_dec x) (empty_rep, ill).
Proof. exact inv_sqr_dec. Qed.
Theorem C32_sqrt_dec : forall (F : fmt) (x : ditv F), ~ wf_dec x ->
  reports_invalid (sqrt_dec x) (empty_rep, ill).
Proof. exact inv_sqrt_dec. Qed.
Theorem C32_abs_dec : forall (F : fmt) (x : ditv F), ~ wf_dec x ->
  reports_invalid (abs_dec x) (empty_rep, ill).
Proof. exact inv_abs_dec. Qed.
Theorem C32_exp_dec : forall (F : fmt) (x : ditv F), ~ wf_dec x ->
  reports_invalid (exp_dec x) (empty_rep, ill).
Proof. exact inv_exp_dec. Qed.
Theorem C32_exp2_dec : forall (F : fmt) (x : ditv F), ~ wf_dec x ->
  reports_invalid (exp2_dec x) (empty_rep, ill).
Proof. exact inv_exp2_dec. Qed.
Theorem C32_exp10_dec : forall (F : fmt) (x : ditv F), ~ wf_dec x ->
  reports_invalid (exp10_dec x) (empty_rep, ill).
Proof. exact inv_exp10_dec. Qed.
Theorem C32_log_dec : forall (F : fmt) (x : ditv F), ~ wf_dec x ->
  reports_invalid (log_dec x) (empty_rep, ill).
Proof. exact inv_log_dec. Qed.
Theorem C32_log2_dec : forall (F : fmt) (x : ditv F), ~ wf_dec x ->
  reports_invalid (log2_dec x) (empty_rep, ill).
Proof. exact inv_log2_dec. Qed.
Theorem C32_log10_dec : forall (F : fmt) (x : ditv F), ~ wf_dec x ->
  reports_invalid (log10_dec x) (empty_rep, ill).
Proof. exact inv_log10_dec. Qed.
Theorem C32_sin_dec : forall (F : fmt) (x : ditv F), ~ wf_dec x ->
  reports_invalid (sin_dec x) (empty_rep, ill).
Proof. exact inv_sin_dec. Qed.
Theorem C32_cos_dec : forall (F : fmt) (x : ditv F), ~ wf_dec x ->
  reports_invalid (cos_dec x) (empty_rep, ill).
Proof. exact inv_cos_dec. Qed.
Theorem C32_tan_dec : forall (F : fmt) (x : ditv F), ~ wf_dec x ->
  reports_invalid (tan_dec x) (empty_rep, ill).
Proof. exact inv_tan_dec. Qed.
Theorem C32_asin_dec : forall (F : fmt) (x : ditv F), ~ wf_dec x ->
  reports_invalid (asin_dec x) (empty_rep, ill).
Proof. exact inv_asin_dec. Qed.
Theorem C32_acos_dec : forall (F : fmt) (x : ditv F), ~ wf_dec x ->
  reports_invalid (acos_dec x) (empty_rep, ill).
Proof. exact inv_acos_dec. Qed.
Theorem C32_atan_dec : forall (F : fmt) (x : ditv F), ~ wf_dec x ->
  reports_invalid (atan_dec x) (empty_rep, ill).
Proof. exact inv_atan_dec. Qed.
Theorem C32_sinh_dec : forall (F : fmt) (x : ditv F), ~ wf_dec x ->
  reports_invalid (sinh_dec x) (empty_rep, ill).
Proof. exact inv_sinh_dec. Qed.
Theorem C32_cosh_dec : forall (F : fmt) (x : ditv F), ~ wf_dec x ->
  reports_invalid (cosh_dec x) (empty_rep, ill).
Proof. exact inv_cosh_dec. Qed.
Theorem C32_tanh_dec : forall (F : fmt) (x : ditv F), ~ wf_dec x ->
  reports_invalid (tanh_dec x) (empty_rep, ill).
Proof. exact inv_tanh_dec. Qed.
Theorem C32_asinh_dec : forall (F : fmt) (x : ditv F), ~ wf_dec x ->
  reports_invalid (asinh_dec x) (empty_rep, ill).
Proof. exact inv_asinh_dec. Qed.
Theorem C32_acosh_dec : forall (F : fmt) (x : ditv F), ~ wf_dec x ->
  reports_invalid (acosh_dec x) (empty_rep, ill).
Proof. exact inv_acosh_dec. Qed.
Theorem C32_atanh_dec : forall (F : fmt) (x : ditv F), ~ wf_dec x ->
  reports_invalid (atanh_dec x) (empty_rep, ill).
Proof. exact inv_atanh_dec. Qed.
Theorem C32_sign_dec : forall (F : fmt) (x : ditv F), ~ wf_dec x ->
  reports_invalid (sign_dec x) (empty_rep, ill).
Proof. exact inv_sign_dec. Qed.
Theorem C32_ceil_dec : forall (F : fmt) (x : ditv F), ~ wf_dec x ->
  reports_invalid (ceil_dec x) (empty_rep, ill).
Proof. exact inv_ceil_dec. Qed.
Theorem C32_floor_dec : forall (F : fmt) (x : ditv F), ~ wf_dec x ->
  reports_invalid (floor_dec x) (empty_rep, ill).
Proof. exact inv_floor_dec. Qed.
Theorem C32_trunc_dec : forall (F : fmt) (x : ditv F), ~ wf_dec x ->
  reports_invalid (trunc_dec x) (empty_rep, ill).
Proof. exact inv_trunc_dec. Qed.
Theorem C32_round_ties_to_even_dec : forall (F : fmt) (x : ditv F), ~ wf_dec x ->
  reports_invalid (round_ties_to_even_dec x) (empty_rep, ill).
Proof. exact inv_round_ties_to_even_dec. Qed.
Theorem C32_round_ties_to_away_dec : forall (F : fmt) (x : ditv F), ~ wf_dec x ->
  reports_invalid (round_ties_to_away_dec x) (empty_rep, ill).
Proof. exact inv_round_ties_to_away_dec. Qed.
Theorem C32_pown_dec : forall (F : fmt) (x : ditv F) (p : Z), ~ wf_dec x ->
  reports_invalid (pown_dec x p) (empty_rep, ill).
Proof. exact inv_pown_dec. Qed.
Theorem C32_add_dec : forall (F : fmt) (x y : ditv F), ~ wf_dec x \/ ~ wf_dec y ->
  reports_invalid (add_dec x y) (empty_rep, ill).
Proof. exact inv_add_dec. Qed.
Theorem C32_sub_dec : forall (F : fmt) (x y : ditv F), ~ wf_dec x \/ ~ wf_dec y ->
  reports_invalid (sub_dec x y) (empty_rep, ill).
Proof. exact inv_sub_dec. Qed.
Theorem C32_mul_dec : forall (F : fmt) (x y : ditv F), ~ wf_dec x \/ ~ wf_dec y ->
  reports_invalid (mul_dec x y) (empty_rep, ill).
Proof. exact inv_mul_dec. Qed.
Theorem C32_div_dec : forall (F : fmt) (x y : ditv F), ~ wf_dec x \/ ~ wf_dec y ->
  reports_invalid (div_dec x y) (empty_rep, ill).
Proof. exact inv_div_dec. Qed.
Theorem C32_min_dec : forall (F : fmt) (x y : ditv F), ~ wf_dec x \/ ~ wf_dec y ->
  reports_invalid (min_dec x y) (empty_rep, ill).
Proof. exact inv_min_dec. Qed.
Theorem C32_max_dec : forall (F : fmt) (x y : ditv F), ~ wf_dec x \/ ~ wf_dec y ->
  reports_invalid (max_dec x y) (empty_rep, ill).
Proof. exact inv_max_dec. Qed.
Theorem C32_pow_dec : forall (F : fmt) (x y : ditv F), ~ wf_dec x \/ ~ wf_dec y ->
  reports_invalid (pow_dec x y) (empty_rep, ill).
Proof. exact inv_pow_dec. Qed.
Theorem C32_atan2_dec : forall (F : fmt) (x y : ditv F), ~ wf_dec x \/ ~ wf_dec y ->
  reports_invalid (atan2_dec x y) (empty_rep, ill).
Proof. exact inv_atan2_dec. Qed.
Theorem C32_intersection_dec : forall (F : fmt) (x y : ditv F), ~ wf_dec x \/ ~ wf_dec y ->
  reports_invalid (intersection_dec x y) (empty_rep, ill).
Proof. exact inv_intersection_dec. Qed.
Theorem C32_convex_hull_dec : forall (F : fmt) (x y : ditv F), ~ wf_dec x \/ ~ wf_dec y ->
  reports_invalid (convex_hull_dec x y) (empty_rep, ill).
Proof. exact inv_convex_hull_dec. Qed.
Theorem C32_cancel_minus_dec : forall (F : fmt) (x y : ditv F), ~ wf_dec x \/ ~ wf_dec y ->
  reports_invalid (cancel_minus_dec x y) (empty_rep, ill).
Proof. exact inv_cancel_minus_dec. Qed.
Theorem C32_fma_dec : forall (F : fmt) (x y z : ditv F), ~ wf_dec x \/ ~ wf_dec y \/ ~ wf_dec z ->
  reports_invalid (fma_dec x y z) (empty_rep, ill).
Proof. exact inv_fma_dec. Qed.

(** ** Mixed-type operations *)
Theorem C32_neg_mixed : forall (T F : fmt) (x : itv F), ~ wf x ->
  reports_invalid (neg_mixed T x) empty_rep.
Proof. exact inv_neg_mixed. Qed.
Theorem C32_pos_mixed : forall (T F : fmt) (x : itv F), ~ wf x ->
  reports_invalid (pos_mixed T x) empty_rep.
Proof. exact inv_pos_mixed. Qed.
Theorem C32_recip_mixed : forall (T F : fmt) (x : itv F), ~ wf x ->
  reports_invalid (recip_mixed T x) empty_rep.
Proof. exact inv_recip_mixed. Qed.
Theorem C32_sqr_mixed : forall (T F : fmt) (x : itv F), ~ wf x ->
  reports_invalid (sqr_mixed T x) empty_rep.
Proof. exact inv_sqr_mixed. Qed.
Theorem C32_sqrt_mixed : forall (T F : fmt) (x : itv F), ~ wf x ->
  reports_invalid (sqrt_mixed T x) empty_rep.
Proof. exact inv_sqrt_mixed. Qed.
Theorem C32_abs_mixed : forall (T F : fmt) (x : itv F), ~ wf x ->
  reports_invalid (abs_mixed T x) empty_rep.
Proof. exact inv_abs_mixed. Qed.
Theorem C32_exp_mixed : forall (T F : fmt) (x : itv F), ~ wf x ->
  reports_invalid (exp_mixed T x) empty_rep.
Proof. exact inv_exp_mixed. Qed.
Theorem C32_exp2_mixed : forall (T F : fmt) (x : itv F), ~ wf x ->
  reports_invalid (exp2_mixed T x) empty_rep.
Proof. exact inv_exp2_mixed. Qed.
Theorem C32_exp10_mixed : forall (T F : fmt) (x : itv F), ~ wf x ->
  reports_invalid (exp10_mixed T x) empty_rep.
Proof. exact inv_exp10_mixed. Qed.
Theorem C32_log_mixed : forall (T F : fmt) (x : itv F), ~ wf x ->
  reports_invalid (log_mixed T x) empty_rep.
Proof. exact inv_log_mixed. Qed.
Theorem C32_log2_mixed : forall (T F : fmt) (x : itv F), ~ wf x ->
  reports_invalid (log2_mixed T x) empty_rep.
Proof. exact inv_log2_mixed. Qed.
Theorem C32_log10_mixed : forall (T F : fmt) (x : itv F), ~ wf x ->
  reports_invalid (log10_mixed T x) empty_rep.
Proof. exact inv_log10_mixed. Qed.
Theorem C32_sin_mixed : forall (T F : fmt) (x : itv F), ~ wf x ->
  reports_invalid (sin_mixed T x) empty_rep.
Proof. exact inv_sin_mixed. Qed.
Theorem C32_cos_mixed : forall (T F : fmt) (x : itv F), ~ wf x ->
  reports_invalid (cos_mixed T x) empty_rep.
Proof. exact inv_cos_mixed. Qed.
Theorem C32_tan_mixed : forall (T F : fmt) (x : itv F), ~ wf x ->
  reports_invalid (tan_mixed T x) empty_rep.
Proof. exact inv_tan_mixed. Qed.
Theorem C32_asin_mixed : forall (T F : fmt) (x : itv F), ~ wf x ->
  reports_invalid (asin_mixed T x) empty_rep.
Proof. exact inv_asin_mixed. Qed.
Theorem C32_acos_mixed : forall (T F : fmt) (x : itv F), ~ wf x ->
  reports_invalid (acos_mixed T x) empty_rep.
Proof. exact inv_acos_mixed. Qed.
Theorem C32_atan_mixed : forall (T F : fmt) (x : itv F), ~ wf x ->
  reports_invalid (atan_mixed T x) empty_rep.
Proof. exact inv_atan_mixed. Qed.
Theorem C32_sinh_mixed : forall (T F : fmt) (x : itv F), ~ wf x ->
  reports_invalid (sinh_mixed T x) empty_rep.
Proof. exact inv_sinh_mixed. Qed.
Theorem C32_cosh_mixed : forall (T F : fmt) (x : itv F), ~ wf x ->
  reports_invalid (cosh_mixed T x) empty_rep.
Proof. exact inv_cosh_mixed. Qed.
Theorem C32_tanh_mixed : forall (T F : fmt) (x : itv F), ~ wf x ->
  reports_invalid (tanh_mixed T x) empty_rep.
Proof. exact inv_tanh_mixed. Qed.
Theorem C32_asinh_mixed : forall (T F : fmt) (x : itv F), ~ wf x ->
  reports_invalid (asinh_mixed T x) empty_rep.
Proof. exact inv_asinh_mixed. Qed.
Theorem C32_acosh_mixed : forall (T F : fmt) (x : itv F), ~ wf x ->
  reports_invalid (acosh_mixed T x) empty_rep.
Proof. exact inv_acosh_mixed. Qed.
Theorem C32_atanh_mixed : forall (T F : fmt) (x : itv F), ~ wf x ->
  reports_invalid (atanh_mixed T x) empty_rep.
Proof. exact inv_atanh_mixed. Qed.
Theorem C32_sign_mixed : forall (T F : fmt) (x : itv F), ~ wf x ->
  reports_invalid (sign_mixed T x) empty_rep.
Proof. exact inv_sign_mixed. Qed.
Theorem C32_ceil_mixed : forall (T F : fmt) (x : itv F), ~ wf x ->
  reports_invalid (ceil_mixed T x) empty_rep.
Proof. exact inv_ceil_mixed. Qed.
Theorem C32_floor_mixed : forall (T F : fmt) (x : itv F), ~ wf x ->
  reports_invalid (floor_mixed T x) empty_rep.
Proof. exact inv_floor_mixed. Qed.
Theorem C32_trunc_mixed : forall (T F : fmt) (x : itv F), ~ wf x ->
  reports_invalid (trunc_mixed T x) empty_rep.
Proof. exact inv_trunc_mixed. Qed.
Theorem C32_round_ties_to_even_mixed : forall (T F : fmt) (x : itv F), ~ wf x ->
  reports_invalid (rte_mixed T x) empty_rep.
Proof. exact inv_round_ties_to_even_mixed. Qed.
Theorem C32_round_ties_to_away_mixed : forall (T F : fmt) (x : itv F), ~ wf x ->
  reports_invalid (rta_mixed T x) empty_rep.
Proof. exact inv_round_ties_to_away_mixed. Qed.
Theorem C32_pown_mixed : forall (T F : fmt) (x : itv F) (p : Z), ~ wf x ->
  reports_invalid (pown_mixed T x p) empty_rep.
Proof. exact inv_pown_mixed. Qed.
Theorem C32_add_mixed : forall (T F G : fmt) (x : itv F) (y : itv G), ~ wf x \/ ~ wf y ->
  reports_invalid (add_mixed T x y) empty_rep.
Proof. exact inv_add_mixed. Qed.
Theorem C32_sub_mixed : forall (T F G : fmt) (x : itv F) (y : itv G), ~ wf x \/ ~ wf y ->
  reports_invalid (sub_mixed T x y) empty_rep.
Proof. exact inv_sub_mixed. Qed.
Theorem C32_mul_mixed : forall (T F G : fmt) (x : itv F) (y : itv G), ~ wf x \/ ~ wf y ->
  reports_invalid (mul_mixed T x y) empty_rep.
Proof. exact inv_mul_mixed. Qed.
Theorem C32_div_mixed : forall (T F G : fmt) (x : itv F) (y : itv G), ~ wf x \/ ~ wf y ->
  reports_invalid (div_mixed T x y) empty_rep.
Proof. exact inv_div_mixed. Qed.
Theorem C32_min_mixed : forall (T F G : fmt) (x : itv F) (y : itv G), ~ wf x \/ ~ wf y ->
  reports_invalid (min_mixed T x y) empty_rep.
Proof. exact inv_min_mixed. Qed.
Theorem C32_max_mixed : forall (T F G : fmt) (x : itv F) (y : itv G), ~ wf x \/ ~ wf y ->
  reports_invalid (max_mixed T x y) empty_rep.
Proof. exact inv_max_mixed. Qed.
Theorem C32_pow_mixed : forall (T F G : fmt) (x : itv F) (y : itv G), ~ wf x \/ ~ wf y ->
  reports_invalid (pow_mixed T x y) empty_rep.
Proof. exact inv_pow_mixed. Qed.
Theorem C32_atan2_mixed : forall (T F G : fmt) (x : itv F) (y : itv G), ~ wf x \/ ~ wf y ->
  reports_invalid (atan2_mixed T x y) empty_rep.
Proof. exact inv_atan2_mixed. Qed.
Theorem C32_intersection_mixed : forall (T F G : fmt) (x : itv F) (y : itv G), ~ wf x \/ ~ wf y ->
  reports_invalid (intersection_mixed T x y) empty_rep.
Proof. exact inv_intersection_mixed. Qed.
Theorem C32_convex_hull_mixed : forall (T F G : fmt) (x : itv F) (y : itv G), ~ wf x \/ ~ wf y ->
  reports_invalid (convex_hull_mixed T x y) empty_rep.
Proof. exact inv_convex_hull_mixed. Qed.
Theorem C32_cancel_minus_mixed : forall (T F G : fmt) (x : itv F) (y : itv G), ~ wf x \/ ~ wf y ->
  reports_invalid (cancel_minus_mixed T x y) empty_rep.
Proof. exact inv_cancel_minus_mixed. Qed.
Theorem C32_fma_mixed : forall (T F G H : fmt) (x : itv F) (y : itv G) (z : itv H), ~ wf x \/ ~ wf y \/ ~ wf z ->
  reports_invalid (fma_mixed T x y z) empty_rep.
Proof. exact inv_fma_mixed. Qed.
Theorem C32_neg_dec_mixed : forall (T F : fmt) (x : ditv F), ~ wf_dec x ->
  reports_invalid (neg_dec_mixed T x) (empty_rep, ill).
Proof. exact inv_neg_dec_mixed. Qed.
Theorem C32_pos_dec_mixed : forall (T F : fmt) (x : ditv F), ~ wf_dec x ->
  reports_invalid (pos_dec_mixed T x) (empty_rep, ill).
Proof. exact inv_pos_dec_mixed. Qed.
Theorem C32_recip_dec_mixed : forall (T F : fmt) (x : ditv F), ~ wf_dec x ->
  reports_invalid (recip_dec_mixed T x) (empty_rep, ill).
Proof. exact inv_recip_dec_mixed. Qed.
Theorem C32_sqr_dec_mixed : forall (T F : fmt) (x : ditv F), ~ wf_dec x ->
  reports_invalid (sqr_dec_mixed T x) (empty_rep, ill).
Proof. exact inv_sqr_dec_mixed. Qed.
Theorem C32_sqrt_dec_mixed : forall (T F : fmt) (x : ditv F), ~ wf_dec x ->
  reports_invalid (sqrt_dec_mixed T x) (empty_rep, ill).
Proof. exact inv_sqrt_dec_mixed. Qed.
Theorem C32_abs_dec_mixed : forall (T F : fmt) (x : ditv F), ~ wf_dec x ->
  reports_invalid (abs_dec_mixed T x) (empty_rep, ill).
Proof. exact inv_abs_dec_mixed. Qed.
Theorem C32_exp_dec_mixed : forall (T F : fmt) (x : ditv F), ~ wf_dec x ->
  reports_invalid (exp_dec_mixed T x) (empty_rep, ill).
Proof. exact inv_exp_dec_mixed. Qed.
Theorem C32_exp2_dec_mixed : forall (T F : fmt) (x : ditv F), ~ wf_dec x ->
  reports_invalid (exp2_dec_mixed T x) (empty_rep, ill).
Proof. exact inv_exp2_dec_mixed. Qed.
Theorem C32_exp10_dec_mixed : forall (T F : fmt) (x : ditv F), ~ wf_dec x ->
  reports_invalid (exp10_dec_mixed T x) (empty_rep, ill).
Proof. exact inv_exp10_dec_mixed. Qed.
Theorem C32_log_dec_mixed : forall (T F : fmt) (x : ditv F), ~ wf_dec x ->
  reports_invalid (log_dec_mixed T x) (empty_rep, ill).
Proof. exact inv_log_dec_mixed. Qed.
Theorem C32_log2_dec_mixed : forall (T F : fmt) (x : ditv F), ~ wf_dec x ->
  reports_invalid (log2_dec_mixed T x) (empty_rep, ill).
Proof. exact inv_log2_dec_mixed. Qed.
Theorem C32_log10_dec_mixed : forall (T F : fmt) (x : ditv F), ~ wf_dec x ->
  reports_invalid (log10_dec_mixed T x) (empty_rep, ill).
Proof. exact inv_log10_dec_mixed. Qed.
Theorem C32_sin_dec_mixed : forall (T F : fmt) (x : ditv F), ~ wf_dec x ->
  reports_invalid (sin_dec_mixed T x) (empty_rep, ill).
Proof. exact inv_sin_dec_mixed. Qed.
Theorem C32_cos_dec_mixed : forall (T F : fmt) (x : ditv F), ~ wf_dec x ->
  reports_invalid (cos_dec_mixed T x) (empty_rep, ill).
Proof. exact inv_cos_dec_mixed. Qed.
Theorem C32_tan_dec_mixed : forall (T F : fmt) (x : ditv F), ~ wf_dec x ->
  reports_invalid (tan_dec_mixed T x) (empty_rep, ill).
Proof. exact inv_tan_dec_mixed. Qed.
Theorem C32_asin_dec_mixed : forall (T F : fmt) (x : ditv F), ~ wf_dec x ->
  reports_invalid (asin_dec_mixed T x) (empty_rep, ill).
Proof. exact inv_asin_dec_mixed. Qed.
Theorem C32_acos_dec_mixed : forall (T F : fmt) (x : ditv F), ~ wf_dec x ->
  reports_invalid (acos_dec_mixed T x) (empty_rep, ill).
Proof. exact inv_acos_dec_mixed. Qed.
Theorem C32_atan_dec_mixed : forall (T F : fmt) (x : ditv F), ~ wf_dec x ->
  reports_invalid (atan_dec_mixed T x) (empty_rep, ill).
Proof. exact inv_atan_dec_mixed. Qed.
Theorem C32_sinh_dec_mixed : forall (T F : fmt) (x : ditv F), ~ wf_dec x ->
  reports_invalid (sinh_dec_mixed T x) (empty_rep, ill).
Proof. exact inv_sinh_dec_mixed. Qed.
Theorem C32_cosh_dec_mixed : forall (T F : fmt) (x : ditv F), ~ wf_dec x ->
  reports_invalid (cosh_dec_mixed T x) (empty_rep, ill).
Proof. exact inv_cosh_dec_mixed. Qed.
Theorem C32_tanh_dec_mixed : forall (T F : fmt) (x : ditv F), ~ wf_dec x ->
  reports_invalid (tanh_dec_mixed T x) (empty_rep, ill).
Proof. exact inv_tanh_dec_mixed. Qed.
Theorem C32_asinh_dec_mixed : forall (T F : fmt) (x : ditv F), ~ wf_dec x ->
  reports_invalid (asinh_dec_mixed T x) (empty_rep, ill).
Proof. exact inv_asinh_dec_mixed. Qed.
Theorem C32_acosh_dec_mixed : forall (T F : fmt) (x : ditv F), ~ wf_dec x ->
  reports_invalid (acosh_dec_mixed T x) (empty_rep, ill).
Proof. exact inv_acosh_dec_mixed. Qed.
Theorem C32_atanh_dec_mixed : forall (T F : fmt) (x : ditv F), ~ wf_dec x ->
  reports_invalid (atanh_dec_mixed T x) (empty_rep, ill).
Proof. exact inv_atanh_dec_mixed. Qed.
Theorem C32_sign_dec_mixed : forall (T F : fmt) (x : ditv F), ~ wf_dec x ->
  reports_invalid (sign_dec_mixed T x) (empty_rep, ill).
Proof. exact inv_sign_dec_mixed. Qed.
Theorem C32_ceil_dec_mixed : forall (T F : fmt) (x : ditv F), ~ wf_dec x ->
  reports_invalid (ceil_dec_mixed T x) (empty_rep, ill).
Proof. exact inv_ceil_dec_mixed. Qed.
Theorem C32_floor_dec_mixed : forall (T F : fmt) (x : ditv F), ~ wf_dec x ->
  reports_invalid (floor_dec_mixed T x) (empty_rep, ill).
Proof. exact inv_floor_dec_mixed. Qed.
Theorem C32_trunc_dec_mixed : forall (T F : fmt) (x : ditv F), ~ wf_dec x ->
  reports_invalid (trunc_dec_mixed T x) (empty_rep, ill).
Proof. exact inv_trunc_dec_mixed. Qed.
Theorem C32_round_ties_to_even_dec_mixed : forall (T F : fmt) (x : ditv F), ~ wf_dec x ->
  reports_invalid (rte_dec_mixed T x) (empty_rep, ill).
Proof. exact inv_round_ties_to_even_dec_mixed. Qed.
Theorem C32_round_ties_to_away_dec_mixed : forall (T F : fmt) (x : ditv F), ~ wf_dec x ->
  reports_invalid (rta_dec_mixed T x) (empty_rep, ill).
Proof. exact inv_round_ties_to_away_dec_mixed. Qed.
Theorem C32_pown_dec_mixed : forall (T F : fmt) (x : ditv F) (p : Z), ~ wf_dec x ->
  reports_invalid (pown_dec_mixed T x p) (empty_rep, ill).
Proof. exact inv_pown_dec_mixed. Qed.
Theorem C32_add_dec_mixed : forall (T F G : fmt) (x : ditv F) (y : ditv G), ~ wf_dec x \/ ~ wf_dec y ->
  reports_invalid (add_dec_mixed T x y) (empty_rep, ill).
Proof. exact inv_add_dec_mixed. Qed.
Theorem C32_sub_dec_mixed : forall (T F G : fmt) (x : ditv F) (y : ditv G), ~ wf_dec x \/ ~ wf_dec y ->
  reports_invalid (sub_dec_mixed T x y) (empty_rep, ill).
Proof. exact inv_sub_dec_mixed. Qed.
Theorem C32_mul_dec_mixed : forall (T F G : fmt) (x : ditv F) (y : ditv G), ~ wf_dec x \/ ~ wf_dec y ->
  reports_invalid (mul_dec_mixed T x y) (empty_rep, ill).
Proof. exact inv_mul_dec_mixed. Qed.
Theorem C32_div_dec_mixed : forall (T F G : fmt) (x : ditv F) (y : ditv G), ~ wf_dec x \/ ~ wf_dec y ->
  reports_invalid (div_dec_mixed T x y) (empty_rep, ill).
Proof. exact inv_div_dec_mixed. Qed.
Theorem C32_min_dec_mixed : forall (T F G : fmt) (x : ditv F) (y : ditv G), ~ wf_dec x \/ ~ wf_dec y ->
  reports_invalid (min_dec_mixed T x y) (empty_rep, ill).
Proof. exact inv_min_dec_mixed. Qed.
Theorem C32_max_dec_mixed : forall (T F G : fmt) (x : ditv F) (y : ditv G), ~ wf_dec x \/ ~ wf_dec y ->
  reports_invalid (max_dec_mixed T x y) (empty_rep, ill).
Proof. exact inv_max_dec_mixed. Qed.
Theorem C32_pow_dec_mixed : forall (T F G : fmt) (x : ditv F) (y : ditv G), ~ wf_dec x \/ ~ wf_dec y ->
  reports_invalid (pow_dec_mixed T x y) (empty_rep, ill).
Proof. exact inv_pow_dec_mixed. Qed.
Theorem C32_atan2_dec_mixed : forall (T F G : fmt) (x : ditv F) (y : ditv G), ~ wf_dec x \/ ~ wf_dec y ->
  reports_invalid (atan2_dec_mixed T x y) (empty_rep, ill).
Proof. exact inv_atan2_dec_mixed. Qed.
Theorem C32_intersection_dec_mixed : forall (T F G : fmt) (x : ditv F) (y : ditv G), ~ wf_dec x \/ ~ wf_dec y ->
  reports_invalid (intersection_dec_mixed T x y) (empty_rep, ill).
Proof. exact inv_intersection_dec_mixed. Qed.
Theorem C32_convex_hull_dec_mixed : forall (T F G : fmt) (x : ditv F) (y : ditv G), ~ wf_dec x \/ ~ wf_dec y ->
  reports_invalid (convex_hull_dec_mixed T x y) (empty_rep, ill).
Proof. exact inv_convex_hull_dec_mixed. Qed.
Theorem C32_cancel_minus_dec_mixed : forall (T F G : fmt) (x : ditv F) (y : ditv G), ~ wf_dec x \/ ~ wf_dec y ->
  reports_invalid (cancel_minus_dec_mixed T x y) (empty_rep, ill).
Proof. exact inv_cancel_minus_dec_mixed. Qed.
Theorem C32_fma_dec_mixed : forall (T F G H : fmt) (x : ditv F) (y : ditv G) (z : ditv H), ~ wf_dec x \/ ~ wf_dec y \/ ~ wf_dec z ->
  reports_invalid (fma_dec_mixed T x y z) (empty_rep, ill).
Proof. exact inv_fma_dec_mixed. Qed.

(** ** Reverse operations *)
Theorem C32_sqr_rev : forall (F : fmt) (c x : itv F), ~ wf c \/ ~ wf x ->
  reports_invalid (sqr_rev c x) empty_rep.
Proof. exact inv_sqr_rev. Qed.
Theorem C32_sqr_rev1 : forall (F : fmt) (c : itv F), ~ wf c ->
  reports_invalid (sqr_rev1 c) empty_rep.
Proof. exact inv_sqr_rev1. Qed.
Theorem C32_sqr_rev_dec : forall (F : fmt) (c x : ditv F), ~ wf_dec c \/ ~ wf_dec x ->
  reports_invalid (sqr_rev_dec c x) (empty_rep, ill).
Proof. exact inv_sqr_rev_dec. Qed.
Theorem C32_sqr_rev1_dec : forall (F : fmt) (c : ditv F), ~ wf_dec c ->
  reports_invalid (sqr_rev1_dec c) (empty_rep, ill).
Proof. exact inv_sqr_rev1_dec. Qed.
Theorem C32_sqr_rev_mixed : forall (T F G : fmt) (c : itv F) (x : itv G), ~ wf c \/ ~ wf x ->
  reports_invalid (sqr_rev_mixed T c x) empty_rep.
Proof. exact inv_sqr_rev_mixed. Qed.
Theorem C32_sqr_rev_dec_mixed : forall (T F G : fmt) (c : ditv F) (x : ditv G), ~ wf_dec c \/ ~ wf_dec x ->
  reports_invalid (sqr_rev_dec_mixed T c x) (empty_rep, ill).
Proof. exact inv_sqr_rev_dec_mixed. Qed.
Theorem C32_abs_rev : forall (F : fmt) (c x : itv F), ~ wf c \/ ~ wf x ->
  reports_invalid (abs_rev c x) empty_rep.
Proof. exact inv_abs_rev. Qed.
Theorem C32_abs_rev1 : forall (F : fmt) (c : itv F), ~ wf c ->
  reports_invalid (abs_rev1 c) empty_rep.
Proof. exact inv_abs_rev1. Qed.
Theorem C32_abs_rev_dec : forall (F : fmt) (c x : ditv F), ~ wf_dec c \/ ~ wf_dec x ->
  reports_invalid (abs_rev_dec c x) (empty_rep, ill).
Proof. exact inv_abs_rev_dec. Qed.
Theorem C32_abs_rev1_dec : forall (F : fmt) (c : ditv F), ~ wf_dec c ->
  reports_invalid (abs_rev1_dec c) (empty_rep, ill).
Proof. exact inv_abs_rev1_dec. Qed.
Theorem C32_abs_rev_mixed : forall (T F G : fmt) (c : itv F) (x : itv G), ~ wf c \/ ~ wf x ->
  reports_invalid (abs_rev_mixed T c x) empty_rep.
Proof. exact inv_abs_rev_mixed. Qed.
Theorem C32_abs_rev_dec_mixed : forall (T F G : fmt) (c : ditv F) (x : ditv G), ~ wf_dec c \/ ~ wf_dec x ->
  reports_invalid (abs_rev_dec_mixed T c x) (empty_rep, ill).
Proof. exact inv_abs_rev_dec_mixed. Qed.
Theorem C32_cosh_rev : forall (F : fmt) (c x : itv F), ~ wf c \/ ~ wf x ->
  reports_invalid (cosh_rev c x) empty_rep.
Proof. exact inv_cosh_rev. Qed.
Theorem C32_cosh_rev1 : forall (F : fmt) (c : itv F), ~ wf c ->
  reports_invalid (cosh_rev1 c) empty_rep.
Proof. exact inv_cosh_rev1. Qed.
Theorem C32_cosh_rev_dec : forall (F : fmt) (c x : ditv F), ~ wf_dec c \/ ~ wf_dec x ->
  reports_invalid (cosh_rev_dec c x) (empty_rep, ill).
Proof. exact inv_cosh_rev_dec. Qed.
Theorem C32_cosh_rev1_dec : forall (F : fmt) (c : ditv F), ~ wf_dec c ->
  reports_invalid (cosh_rev1_dec c) (empty_rep, ill).
Proof. exact inv_cosh_rev1_dec. Qed.
Theorem C32_cosh_rev_mixed : forall (T F G : fmt) (c : itv F) (x : itv G), ~ wf c \/ ~ wf x ->
  reports_invalid (cosh_rev_mixed T c x) empty_rep.
Proof. exact inv_cosh_rev_mixed. Qed.
Theorem C32_cosh_rev_dec_mixed : forall (T F G : fmt) (c : ditv F) (x : ditv G), ~ wf_dec c \/ ~ wf_dec x ->
  reports_invalid (cosh_rev_dec_mixed T c x) (empty_rep, ill).
Proof. exact inv_cosh_rev_dec_mixed. Qed.
Theorem C32_sin_rev : forall (F : fmt) (c x : itv F), ~ wf c \/ ~ wf x ->
  reports_invalid (sin_rev c x) empty_rep.
Proof. exact inv_sin_rev. Qed.
Theorem C32_sin_rev1 : forall (F : fmt) (c : itv F), ~ wf c ->
  reports_invalid (sin_rev1 c) empty_rep.
Proof. exact inv_sin_rev1. Qed.
Theorem C32_sin_rev_dec : forall (F : fmt) (c x : ditv F), ~ wf_dec c \/ ~ wf_dec x ->
  reports_invalid (sin_rev_dec c x) (empty_rep, ill).
Proof. exact inv_sin_rev_dec. Qed.
Theorem C32_sin_rev1_dec : forall (F : fmt) (c : ditv F), ~ wf_dec c ->
  reports_invalid (sin_rev1_dec c) (empty_rep, ill).
Proof. exact inv_sin_rev1_dec. Qed.
Theorem C32_sin_rev_mixed : forall (T F G : fmt) (c : itv F) (x : itv G), ~ wf c \/ ~ wf x ->
  reports_invalid (sin_rev_mixed T c x) empty_rep.
Proof. exact inv_sin_rev_mixed. Qed.
Theorem C32_sin_rev_dec_mixed : forall (T F G : fmt) (c : ditv F) (x : ditv G), ~ wf_dec c \/ ~ wf_dec x ->
  reports_invalid (sin_rev_dec_mixed T c x) (empty_rep, ill).
Proof. exact inv_sin_rev_dec_mixed. Qed.
Theorem C32_cos_rev : forall (F : fmt) (c x : itv F), ~ wf c \/ ~ wf x ->
  reports_invalid (cos_rev c x) empty_rep.
Proof. exact inv_cos_rev. Qed.
Theorem C32_cos_rev1 : forall (F : fmt) (c : itv F), ~ wf c ->
  reports_invalid (cos_rev1 c) empty_rep.
Proof. exact inv_cos_rev1. Qed.
Theorem C32_cos_rev_dec : forall (F : fmt) (c x : ditv F), ~ wf_dec c \/ ~ wf_dec x ->
  reports_invalid (cos_rev_dec c x) (empty_rep, ill).
Proof. exact inv_cos_rev_dec. Qed.
Theorem C32_cos_rev1_dec : forall (F : fmt) (c : ditv F), ~ wf_dec c ->
  reports_invalid (cos_rev1_dec c) (empty_rep, ill).
Proof. exact inv_cos_rev1_dec. Qed.
Theorem C32_cos_rev_mixed : forall (T F G : fmt) (c : itv F) (x : itv G), ~ wf c \/ ~ wf x ->
  reports_invalid (cos_rev_mixed T c x) empty_rep.
Proof. exact inv_cos_rev_mixed. Qed.
Theorem C32_cos_rev_dec_mixed : forall (T F G : fmt) (c : ditv F) (x : ditv G), ~ wf_dec c \/ ~ wf_dec x ->
  reports_invalid (cos_rev_dec_mixed T c x) (empty_rep, ill).
Proof. exact inv_cos_rev_dec_mixed. Qed.
Theorem C32_tan_rev : forall (F : fmt) (c x : itv F), ~ wf c \/ ~ wf x ->
  reports_invalid (tan_rev c x) empty_rep.
Proof. exact inv_tan_rev. Qed.
Theorem C32_tan_rev1 : forall (F : fmt) (c : itv F), ~ wf c ->
  reports_invalid (tan_rev1 c) empty_rep.
Proof. exact inv_tan_rev1. Qed.
Theorem C32_tan_rev_dec : forall (F : fmt) (c x : ditv F), ~ wf_dec c \/ ~ wf_dec x ->
  reports_invalid (tan_rev_dec c x) (empty_rep, ill).
Proof. exact inv_tan_rev_dec. Qed.
Theorem C32_tan_rev1_dec : forall (F : fmt) (c : ditv F), ~ wf_dec c ->
  reports_invalid (tan_rev1_dec c) (empty_rep, ill).
Proof. exact inv_tan_rev1_dec. Qed.
Theorem C32_tan_rev_mixed : forall (T F G : fmt) (c : itv F) (x : itv G), ~ wf c \/ ~ wf x ->
  reports_invalid (tan_rev_mixed T c x) empty_rep.
Proof. exact inv_tan_rev_mixed. Qed.
Theorem C32_tan_rev_dec_mixed : forall (T F G : fmt) (c : ditv F) (x : ditv G), ~ wf_dec c \/ ~ wf_dec x ->
  reports_invalid (tan_rev_dec_mixed T c x) (empty_rep, ill).
Proof. exact inv_tan_rev_dec_mixed. Qed.
Theorem C32_pown_rev : forall (F : fmt) (c x : itv F) (fuel : nat) (p : Z), ~ wf c \/ ~ wf x ->
  reports_invalid (pown_rev fuel c x p) empty_rep.
Proof. exact inv_pown_rev. Qed.
Theorem C32_pown_rev1 : forall (F : fmt) (c : itv F) (fuel : nat) (p : Z), ~ wf c ->
  reports_invalid (pown_rev1 fuel c p) empty_rep.
Proof. exact inv_pown_rev1. Qed.
Theorem C32_pown_rev_dec : forall (F : fmt) (c x : ditv F) (fuel : nat) (p : Z), ~ wf_dec c \/ ~ wf_dec x ->
  reports_invalid (pown_rev_dec fuel c x p) (empty_rep, ill).
Proof. exact inv_pown_rev_dec. Qed.
Theorem C32_pown_rev1_dec : forall (F : fmt) (c : ditv F) (fuel : nat) (p : Z), ~ wf_dec c ->
  reports_invalid (pown_rev1_dec fuel c p) (empty_rep, ill).
Proof. exact inv_pown_rev1_dec. Qed.
Theorem C32_pown_rev_mixed : forall (T F G : fmt) (c : itv F) (x : itv G) (fuel : nat) (p : Z), ~ wf c \/ ~ wf x ->
  reports_invalid (pown_rev_mixed T fuel c x p) empty_rep.
Proof. exact inv_pown_rev_mixed. Qed.
Theorem C32_pown_rev_dec_mixed : forall (T F G : fmt) (c : ditv F) (x : ditv G) (fuel : nat) (p : Z), ~ wf_dec c \/ ~ wf_dec x ->
  reports_invalid (pown_rev_dec_mixed T fuel c x p) (empty_rep, ill).
Proof. exact inv_pown_rev_dec_mixed. Qed.
Theorem C32_mul_rev : forall (F : fmt) (b c x : itv F), ~ wf b \/ ~ wf c \/ ~ wf x ->
  reports_invalid (mul_rev b c x) empty_rep.
Proof. exact inv_mul_rev. Qed.
Theorem C32_mul_rev2 : forall (F : fmt) (b c : itv F), ~ wf b \/ ~ wf c ->
  reports_invalid (mul_rev2 b c) empty_rep.
Proof. exact inv_mul_rev2. Qed.
Theorem C32_mul_rev_dec : forall (F : fmt) (b c x : ditv F), ~ wf_dec b \/ ~ wf_dec c \/ ~ wf_dec x ->
  reports_invalid (mul_rev_dec b c x) (empty_rep, ill).
Proof. exact inv_mul_rev_dec. Qed.
Theorem C32_mul_rev2_dec : forall (F : fmt) (b c : ditv F), ~ wf_dec b \/ ~ wf_dec c ->
  reports_invalid (mul_rev2_dec b c) (empty_rep, ill).
Proof. exact inv_mul_rev2_dec. Qed.
Theorem C32_mul_rev_mixed : forall (T F G H : fmt) (b : itv F) (c : itv G) (x : itv H), ~ wf b \/ ~ wf c \/ ~ wf x ->
  reports_invalid (mul_rev_mixed T b c x) empty_rep.
Proof. exact inv_mul_rev_mixed. Qed.
Theorem C32_mul_rev_dec_mixed : forall (T F G H : fmt) (b : ditv F) (c : ditv G) (x : ditv H), ~ wf_dec b \/ ~ wf_dec c \/ ~ wf_dec x ->
  reports_invalid (mul_rev_dec_mixed T b c x) (empty_rep, ill).
Proof. exact inv_mul_rev_dec_mixed. Qed.
Theorem C32_mul_rev_to_pair : forall (F : fmt) (b c : itv F), ~ wf b \/ ~ wf c ->
  reports_invalid (mul_rev_to_pair b c) (empty_rep, empty_rep).
Proof. exact inv_mul_rev_to_pair. Qed.
Theorem C32_mul_rev_to_pair_dec : forall (F : fmt) (b c : ditv F), ~ wf_dec b \/ ~ wf_dec c ->
  reports_invalid (mul_rev_to_pair_dec b c) ((empty_rep, ill), (empty_rep, ill)).
Proof. exact inv_mul_rev_to_pair_dec. Qed.

(** ** Relations *)
Theorem C32_equal : forall (F : fmt) (x y : itv F), ~ wf x \/ ~ wf y ->
  reports_invalid (equal x y) false.
Proof. exact inv_equal. Qed.
Theorem C32_equal_mixed : forall (F G : fmt) (x : itv F) (y : itv G), ~ wf x \/ ~ wf y ->
  reports_invalid (equal_mixed x y) false.
Proof. exact inv_equal_mixed. Qed.
Theorem C32_equal_dec : forall (F G : fmt) (x : ditv F) (y : ditv G), ~ wf_dec x \/ ~ wf_dec y ->
  reports_invalid (rel_dec equal_mixed x y) false.
Proof. exact inv_equal_dec. Qed.
Theorem C32_subset : forall (F : fmt) (x y : itv F), ~ wf x \/ ~ wf y ->
  reports_invalid (subset x y) false.
Proof. exact inv_subset. Qed.
Theorem C32_subset_mixed : forall (F G : fmt) (x : itv F) (y : itv G), ~ wf x \/ ~ wf y ->
  reports_invalid (subset_mixed x y) false.
Proof. exact inv_subset_mixed. Qed.
Theorem C32_subset_dec : forall (F G : fmt) (x : ditv F) (y : ditv G), ~ wf_dec x \/ ~ wf_dec y ->
  reports_invalid (rel_dec subset_mixed x y) false.
Proof. exact inv_subset_dec. Qed.
Theorem C32_less : forall (F : fmt) (x y : itv F), ~ wf x \/ ~ wf y ->
  reports_invalid (less x y) false.
Proof. exact inv_less. Qed.
Theorem C32_less_mixed : forall (F G : fmt) (x : itv F) (y : itv G), ~ wf x \/ ~ wf y ->
  reports_invalid (less_mixed x y) false.
Proof. exact inv_less_mixed. Qed.
Theorem C32_less_dec : forall (F G : fmt) (x : ditv F) (y : ditv G), ~ wf_dec x \/ ~ wf_dec y ->
  reports_invalid (rel_dec less_mixed x y) false.
Proof. exact inv_less_dec. Qed.
Theorem C32_precedes : forall (F : fmt) (x y : itv F), ~ wf x \/ ~ wf y ->
  reports_invalid (precedes x y) false.
Proof. exact inv_precedes. Qed.
Theorem C32_precedes_mixed : forall (F G : fmt) (x : itv F) (y : itv G), ~ wf x \/ ~ wf y ->
  reports_invalid (precedes_mixed x y) false.
Proof. exact inv_precedes_mixed. Qed.
Theorem C32_precedes_dec : forall (F G : fmt) (x : ditv F) (y : ditv G), ~ wf_dec x \/ ~ wf_dec y ->
  reports_invalid (rel_dec precedes_mixed x y) false.
Proof. exact inv_precedes_dec. Qed.
Theorem C32_interior : forall (F : fmt) (x y : itv F), ~ wf x \/ ~ wf y ->
  reports_invalid (interior x y) false.
Proof. exact inv_interior. Qed.
Theorem C32_interior_mixed : forall (F G : fmt) (x : itv F) (y : itv G), ~ wf x \/ ~ wf y ->
  reports_invalid (interior_mixed x y) false.
Proof. exact inv_interior_mixed. Qed.
Theorem C32_interior_dec : forall (F G : fmt) (x : ditv F) (y : ditv G), ~ wf_dec x \/ ~ wf_dec y ->
  reports_invalid (rel_dec interior_mixed x y) false.
Proof. exact inv_interior_dec. Qed.
Theorem C32_strictly_less : forall (F : fmt) (x y : itv F), ~ wf x \/ ~ wf y ->
  reports_invalid (strictly_less x y) false.
Proof. exact inv_strictly_less. Qed.
Theorem C32_strictly_less_mixed : forall (F G : fmt) (x : itv F) (y : itv G), ~ wf x \/ ~ wf y ->
  reports_invalid (strictly_less_mixed x y) false.
Proof. exact inv_strictly_less_mixed. Qed.
Theorem C32_strictly_less_dec : forall (F G : fmt) (x : ditv F) (y : ditv G), ~ wf_dec x \/ ~ wf_dec y ->
  reports_invalid (rel_dec strictly_less_mixed x y) false.
Proof. exact inv_strictly_less_dec. Qed.
Theorem C32_strictly_precedes : forall (F : fmt) (x y : itv F), ~ wf x \/ ~ wf y ->
  reports_invalid (strictly_precedes x y) false.
Proof. exact inv_strictly_precedes. Qed.
Theorem C32_strictly_precedes_mixed : forall (F G : fmt) (x : itv F) (y : itv G), ~ wf x \/ ~ wf y ->
  reports_invalid (strictly_precedes_mixed x y) false.
Proof. exact inv_strictly_precedes_mixed. Qed.
Theorem C32_strictly_precedes_dec : forall (F G : fmt) (x : ditv F) (y : ditv G), ~ wf_dec x \/ ~ wf_dec y ->
  reports_invalid (rel_dec strictly_precedes_mixed x y) false.
Proof. exact inv_strictly_precedes_dec. Qed.
Theorem C32_disjoint : forall (F : fmt) (x y : itv F), ~ wf x \/ ~ wf y ->
  reports_invalid (disjoint x y) false.
Proof. exact inv_disjoint. Qed.
Theorem C32_disjoint_mixed : forall (F G : fmt) (x : itv F) (y : itv G), ~ wf x \/ ~ wf y ->
  reports_invalid (disjoint_mixed x y) false.
Proof. exact inv_disjoint_mixed. Qed.
Theorem C32_disjoint_dec : forall (F G : fmt) (x : ditv F) (y : ditv G), ~ wf_dec x \/ ~ wf_dec y ->
  reports_invalid (rel_dec disjoint_mixed x y) false.
Proof. exact inv_disjoint_dec. Qed.
Theorem C32_superset_mixed : forall (F G : fmt) (x : itv F) (y : itv G), ~ wf y \/ ~ wf x ->
  reports_invalid (superset_mixed x y) false.
Proof. exact inv_superset_mixed. Qed.
Theorem C32_greater_mixed : forall (F G : fmt) (x : itv F) (y : itv G), ~ wf y \/ ~ wf x ->
  reports_invalid (greater_mixed x y) false.
Proof. exact inv_greater_mixed. Qed.
Theorem C32_succeeds_mixed : forall (F G : fmt) (x : itv F) (y : itv G), ~ wf y \/ ~ wf x ->
  reports_invalid (succeeds_mixed x y) false.
Proof. exact inv_succeeds_mixed. Qed.
Theorem C32_contains_interior_mixed : forall (F G : fmt) (x : itv F) (y : itv G), ~ wf y \/ ~ wf x ->
  reports_invalid (contains_interior_mixed x y) false.
Proof. exact inv_contains_interior_mixed. Qed.
Theorem C32_strictly_greater_mixed : forall (F G : fmt) (x : itv F) (y : itv G), ~ wf y \/ ~ wf x ->
  reports_invalid (strictly_greater_mixed x y) false.
Proof. exact inv_strictly_greater_mixed. Qed.
Theorem C32_strictly_succeeds_mixed : forall (F G : fmt) (x : itv F) (y : itv G), ~ wf y \/ ~ wf x ->
  reports_invalid (strictly_succeeds_mixed x y) false.
Proof. exact inv_strictly_succeeds_mixed. Qed.
Theorem C32_op_eq : forall (F G : fmt) (x : itv F) (y : itv G), ~ wf x \/ ~ wf y ->
  reports_invalid (op_eq x y) false.
Proof. exact inv_op_eq. Qed.
Theorem C32_is_empty : forall (F : fmt) (x : itv F), ~ wf x ->
  reports_invalid (is_empty x) false.
Proof. exact inv_is_empty. Qed.
Theorem C32_is_empty_dec : forall (F : fmt) (x : ditv F), ~ wf_dec x ->
  reports_invalid (is_empty_dec x) false.
Proof. exact inv_is_empty_dec. Qed.
Theorem C32_is_entire : forall (F : fmt) (x : itv F), ~ wf x ->
  reports_invalid (is_entire x) false.
Proof. exact inv_is_entire. Qed.
Theorem C32_is_entire_dec : forall (F : fmt) (x : ditv F), ~ wf_dec x ->
  reports_invalid (is_entire_dec x) false.
Proof. exact inv_is_entire_dec. Qed.
Theorem C32_is_common_interval : forall (F : fmt) (x : itv F), ~ wf x ->
  reports_invalid (is_common_interval x) false.
Proof. exact inv_is_common_interval. Qed.
Theorem C32_is_common_interval_dec : forall (F : fmt) (x : ditv F), ~ wf_dec x ->
  reports_invalid (is_common_interval_dec x) false.
Proof. exact inv_is_common_interval_dec. Qed.
Theorem C32_is_singleton : forall (F : fmt) (x : itv F), ~ wf x ->
  reports_invalid (is_singleton x) false.
Proof. exact inv_is_singleton. Qed.
Theorem C32_is_singleton_dec : forall (F : fmt) (x : ditv F), ~ wf_dec x ->
  reports_invalid (is_singleton_dec x) false.
Proof. exact inv_is_singleton_dec. Qed.
Theorem C32_is_nai : forall (F : fmt) (x : ditv F), ~ wf_dec x ->
  reports_invalid (is_nai x) false.
Proof. exact inv_is_nai. Qed.
Theorem C32_is_member : forall (F : fmt) (m : float F) (x : itv F), ~ wf x ->
  reports_invalid (is_member m x) false.
Proof. exact inv_is_member. Qed.
Theorem C32_is_member_mixed : forall (F G : fmt) (m : float G) (x : itv F), ~ wf x ->
  reports_invalid (is_member_mixed m x) false.
Proof. exact inv_is_member_mixed. Qed.
Theorem C32_is_member_dec : forall (F G : fmt) (m : float G) (x : ditv F), ~ wf_dec x ->
  reports_invalid (is_member_dec m x) false.
Proof. exact inv_is_member_dec. Qed.
Theorem C32_overlap : forall (F G : fmt) (x : itv F) (y : itv G), ~ wf x \/ ~ wf y ->
  reports_invalid (overlap x y) o_undefined.
Proof. exact inv_overlap. Qed.
Theorem C32_overlap_dec : forall (F G : fmt) (x : ditv F) (y : ditv G), ~ wf_dec x \/ ~ wf_dec y ->
  reports_invalid (overlap_dec x y) o_undefined.
Proof. exact inv_overlap_dec. Qed.

(** ** Numeric functions *)
Theorem C32_n_inf : forall (F : fmt) (x : itv F), ~ wf x ->
  reports_invalid (n_inf x) fnan.
Proof. exact inv_n_inf. Qed.
Theorem C32_n_inf_dec : forall (F : fmt) (x : ditv F), ~ wf_dec x ->
  reports_invalid (n_inf_dec x) fnan.
Proof. exact inv_n_inf_dec. Qed.
Theorem C32_n_inf_mixed : forall (G F : fmt) (x : itv F), ~ wf x ->
  reports_invalid (n_inf_mixed G x) fnan.
Proof. exact inv_n_inf_mixed. Qed.
Theorem C32_n_inf_dec_mixed : forall (G F : fmt) (x : ditv F), ~ wf_dec x ->
  reports_invalid (num_dec_mixed G (n_inf_mixed G) x) fnan.
Proof. exact inv_n_inf_dec_mixed. Qed.
Theorem C32_n_sup : forall (F : fmt) (x : itv F), ~ wf x ->
  reports_invalid (n_sup x) fnan.
Proof. exact inv_n_sup. Qed.
Theorem C32_n_sup_dec : forall (F : fmt) (x : ditv F), ~ wf_dec x ->
  reports_invalid (n_sup_dec x) fnan.
Proof. exact inv_n_sup_dec. Qed.
Theorem C32_n_sup_mixed : forall (G F : fmt) (x : itv F), ~ wf x ->
  reports_invalid (n_sup_mixed G x) fnan.
Proof. exact inv_n_sup_mixed. Qed.
Theorem C32_n_sup_dec_mixed : forall (G F : fmt) (x : ditv F), ~ wf_dec x ->
  reports_invalid (num_dec_mixed G (n_sup_mixed G) x) fnan.
Proof. exact inv_n_sup_dec_mixed. Qed.
Theorem C32_n_mid : forall (F : fmt) (x : itv F), ~ wf x ->
  reports_invalid (n_mid x) fnan.
Proof. exact inv_n_mid. Qed.
Theorem C32_n_mid_dec : forall (F : fmt) (x : ditv F), ~ wf_dec x ->
  reports_invalid (n_mid_dec x) fnan.
Proof. exact inv_n_mid_dec. Qed.
Theorem C32_n_mid_mixed : forall (G F : fmt) (x : itv F), ~ wf x ->
  reports_invalid (n_mid_mixed G x) fnan.
Proof. exact inv_n_mid_mixed. Qed.
Theorem C32_n_mid_dec_mixed : forall (G F : fmt) (x : ditv F), ~ wf_dec x ->
  reports_invalid (num_dec_mixed G (n_mid_mixed G) x) fnan.
Proof. exact inv_n_mid_dec_mixed. Qed.
Theorem C32_n_rad : forall (F : fmt) (x : itv F), ~ wf x ->
  reports_invalid (n_rad x) fnan.
Proof. exact inv_n_rad. Qed.
Theorem C32_n_rad_dec : forall (F : fmt) (x : ditv F), ~ wf_dec x ->
  reports_invalid (n_rad_dec x) fnan.
Proof. exact inv_n_rad_dec. Qed.
Theorem C32_n_rad_mixed : forall (G F : fmt) (x : itv F), ~ wf x ->
  reports_invalid (n_rad_mixed G x) fnan.
Proof. exact inv_n_rad_mixed. Qed.
Theorem C32_n_rad_dec_mixed : forall (G F : fmt) (x : ditv F), ~ wf_dec x ->
  reports_invalid (num_dec_mixed G (n_rad_mixed G) x) fnan.
Proof. exact inv_n_rad_dec_mixed. Qed.
Theorem C32_n_wid : forall (F : fmt) (x : itv F), ~ wf x ->
  reports_invalid (n_wid x) fnan.
Proof. exact inv_n_wid. Qed.
Theorem C32_n_wid_dec : forall (F : fmt) (x : ditv F), ~ wf_dec x ->
  reports_invalid (n_wid_dec x) fnan.
Proof. exact inv_n_wid_dec. Qed.
Theorem C32_n_wid_mixed : forall (G F : fmt) (x : itv F), ~ wf x ->
  reports_invalid (n_wid_mixed G x) fnan.
Proof. exact inv_n_wid_mixed. Qed.
Theorem C32_n_wid_dec_mixed : forall (G F : fmt) (x : ditv F), ~ wf_dec x ->
  reports_invalid (num_dec_mixed G (n_wid_mixed G) x) fnan.
Proof. exact inv_n_wid_dec_mixed. Qed.
Theorem C32_n_mag : forall (F : fmt) (x : itv F), ~ wf x ->
  reports_invalid (n_mag x) fnan.
Proof. exact inv_n_mag. Qed.
Theorem C32_n_mag_dec : forall (F : fmt) (x : ditv F), ~ wf_dec x ->
  reports_invalid (n_mag_dec x) fnan.
Proof. exact inv_n_mag_dec. Qed.
Theorem C32_n_mag_mixed : forall (G F : fmt) (x : itv F), ~ wf x ->
  reports_invalid (n_mag_mixed G x) fnan.
Proof. exact inv_n_mag_mixed. Qed.
Theorem C32_n_mag_dec_mixed : forall (G F : fmt) (x : ditv F), ~ wf_dec x ->
  reports_invalid (num_dec_mixed G (n_mag_mixed G) x) fnan.
Proof. exact inv_n_mag_dec_mixed. Qed.
Theorem C32_n_mig : forall (F : fmt) (x : itv F), ~ wf x ->
  reports_invalid (n_mig x) fnan.
Proof. exact inv_n_mig. Qed.
Theorem C32_n_mig_dec : forall (F : fmt) (x : ditv F), ~ wf_dec x ->
  reports_invalid (n_mig_dec x) fnan.
Proof. exact inv_n_mig_dec. Qed.
Theorem C32_n_mig_mixed : forall (G F : fmt) (x : itv F), ~ wf x ->
  reports_invalid (n_mig_mixed G x) fnan.
Proof. exact inv_n_mig_mixed. Qed.
Theorem C32_n_mig_dec_mixed : forall (G F : fmt) (x : ditv F), ~ wf_dec x ->
  reports_invalid (num_dec_mixed G (n_mig_mixed G) x) fnan.
Proof. exact inv_n_mig_dec_mixed. Qed.
Theorem C32_n_mid_rad : forall (F : fmt) (x : itv F), ~ wf x ->
  reports_invalid (n_mid_rad x) (fnan, fnan).
Proof. exact inv_n_mid_rad. Qed.
Theorem C32_n_mid_rad_dec : forall (F : fmt) (x : ditv F), ~ wf_dec x ->
  reports_invalid (n_mid_rad_dec x) (fnan, fnan).
Proof. exact inv_n_mid_rad_dec. Qed.
Theorem C32_n_mid_rad_mixed : forall (G F : fmt) (x : itv F), ~ wf x ->
  reports_invalid (n_mid_rad_mixed G x) (fnan, fnan).
Proof. exact inv_n_mid_rad_mixed. Qed.
Theorem C32_n_mid_rad_dec_mixed : forall (G F : fmt) (x : ditv F), ~ wf_dec x ->
  reports_invalid (n_mid_rad_dec_mixed G x) (fnan, fnan).
Proof. exact inv_n_mid_rad_dec_mixed. Qed.

(** ** Copies, conversions and parts *)
Theorem C32_copy : forall (F : fmt) (x : itv F), ~ wf x ->
  reports_invalid (copy x) empty_rep.
Proof. exact inv_copy. Qed.
Theorem C32_copy_dec : forall (F : fmt) (x : ditv F), ~ wf_dec x ->
  reports_invalid (copy_dec x) (empty_rep, ill).
Proof. exact inv_copy_dec. Qed.
Theorem C32_convert_type : forall (G F : fmt) (x : itv F), ~ wf x ->
  reports_invalid (convert_type G x) empty_rep.
Proof. exact inv_convert_type. Qed.
Theorem C32_convert_type_dec : forall (G F : fmt) (x : ditv F), ~ wf_dec x ->
  reports_invalid (convert_type_dec G x) (empty_rep, ill).
Proof. exact inv_convert_type_dec. Qed.
Theorem C32_interval_part : forall (F : fmt) (x : ditv F), ~ wf_dec x ->
  reports_invalid (interval_part x) empty_rep.
Proof. exact inv_interval_part. Qed.
Theorem C32_interval_part_mixed : forall (G F : fmt) (x : ditv F), ~ wf_dec x ->
  reports_invalid (interval_part_mixed G x) empty_rep.
Proof. exact inv_interval_part_mixed. Qed.
Theorem C32_decoration_part : forall (F : fmt) (x : ditv F), ~ wf_dec x ->
  reports_invalid (decoration_part x) ill.
Proof. exact inv_decoration_part. Qed.
Theorem C32_new_dec : forall (F : fmt) (x : itv F), ~ wf x ->
  reports_invalid (new_dec x) (empty_rep, ill).
Proof. exact inv_new_dec. Qed.
Theorem C32_new_dec_mixed : forall (G F : fmt) (x : itv F), ~ wf x ->
  reports_invalid (new_dec_mixed G x) (empty_rep, ill).
Proof. exact inv_new_dec_mixed. Qed.
Theorem C32_set_dec : forall (F : fmt) (x : itv F) (d : deco), ~ wf x \/ ~ valid_deco d ->
  reports_invalid (set_dec x d) (empty_rep, ill).
Proof. exact inv_set_dec. Qed.
Theorem C32_set_dec_mixed : forall (G F : fmt) (x : itv F) (d : deco), ~ wf x \/ ~ valid_deco d ->
  reports_invalid (set_dec_mixed G x d) (empty_rep, ill).
Proof. exact inv_set_dec_mixed. Qed.
(** operator!= negates the false of operator==. *)
Theorem C32_op_ne : forall (F G : fmt) (x : itv F) (y : itv G), ~ wf x \/ ~ wf y -> reports_invalid (op_ne x y) true.
Proof. exact inv_op_ne. Qed.
Print Assumptions C32_add. Print Assumptions C32_fma_dec_mixed. Print Assumptions C32_mul_rev_dec_mixed.

(** ** Operations of another shape *)
Theorem C32_mul_rev_to_pair_mixed : forall (T F G : fmt) (b : itv F) (c : itv G), comparable T F -> comparable T G -> comparable F G ->
  ~ wf b \/ ~ wf c -> reports_invalid (mul_rev_to_pair_mixed T b c) (empty_rep, empty_rep).
Proof. exact inv_mul_rev_to_pair_mixed. Qed.
Theorem C32_cancel_plus_dec : forall (F : fmt) (x y : ditv F), ~ wf_dec x \/ ~ wf_dec y ->
  reports_invalid (cancel_plus_dec x y) (empty_rep, ill).
Proof. exact inv_cancel_plus_dec. Qed.
Theorem C32_cancel_plus_dec_mixed : forall (T F G : fmt) (x : ditv F) (y : ditv G), ~ wf_dec x \/ ~ wf_dec y ->
  reports_invalid (cancel_plus_dec_mixed T x y) (empty_rep, ill).
Proof. exact inv_cancel_plus_dec_mixed. Qed.
(** Missing [return] in the mixed decorated mul_rev_to_pair: an invalid operand
    decorated com can become valid when it is converted (com turns into dac). *)
Theorem C32_mul_rev_to_pair_dec_mixed_partial : forall (T F G : fmt) (b : ditv F) (c : ditv G),
  comparable T F -> comparable T G -> comparable F G ->
  (wf_dec b \/ snd b <> com) -> (wf_dec c \/ snd c <> com) ->
  ~ wf_dec b \/ ~ wf_dec c -> reports_invalid (mul_rev_to_pair_dec_mixed T b c) ((empty_rep, ill), (empty_rep, ill)).
Proof. exact inv_mul_rev_to_pair_dec_mixed. Qed.
Theorem C32_mul_rev_to_pair_dec_mixed_refuted : exists (b c : ditv binary64) z, ~ wf_dec b /\ wf_dec c /\
  reports_invalid (mul_rev_to_pair_dec_mixed binary64 b c) z /\ z <> ((empty_rep, ill), (empty_rep, ill)).
Proof. exact mul_rev_to_pair_dec_mixed_bad. Qed.
Print Assumptions C32_mul_rev_to_pair_dec_mixed_refuted.

(** cancel_minus tests its first operand twice and the second never. *)
Theorem C32_cancel_minus_partial : forall (F : fmt) (x y : itv F), ~ wf x -> reports_invalid (cancel_minus x y) empty_rep.
Proof. exact inv_cancel_minus_x. Qed.
Theorem C32_cancel_minus_refuted : forall (F : fmt) (x : itv F), wf x ->
  ~ wf (@finf F, @finf F) /\ returns (cancel_minus x (finf, finf)) entire.
Proof. exact cancel_minus_silent. Qed.
Theorem C32_cancel_minus_value_refuted : exists x y z : itv binary64, wf x /\ ~ wf y /\
  reports_invalid (cancel_minus x y) z /\ z <> empty_rep.
Proof. exact cancel_minus_bad. Qed.
Theorem C32_cancel_plus_partial : forall (F : fmt) (x y : itv F), ~ wf x -> reports_invalid (cancel_plus x y) empty_rep.
Proof. exact inv_cancel_plus_x. Qed.
Theorem C32_cancel_plus_refuted : forall (F : fmt) (y : itv F), ~ wf y -> reports_invalid (cancel_plus (f0, f0) y) entire.
Proof. exact cancel_plus_bad. Qed.
Theorem C32_cancel_plus_mixed_partial : forall (T F G : fmt) (x : itv F) (y : itv G), ~ wf x ->
  reports_invalid (cancel_plus_mixed T x y) empty_rep.
Proof. exact inv_cancel_plus_mixed_x. Qed.
Theorem C32_cancel_plus_mixed_refuted : forall y : itv binary32, ~ wf y ->
  reports_invalid (cancel_plus_mixed binary64 (@f0 binary64, @f0 binary64) y) entire.
Proof. exact cancel_plus_mixed_bad. Qed.
Print Assumptions C32_cancel_minus_refuted.

(** The decoration byte is not part of the test: 7 is not a decoration. *)
Theorem C32_decoration_byte_refuted : forall F : fmt, wf_dec (((@f0 F, @f0 F), 7%N) : ditv F) /\ ~ valid_deco 7%N /\
  returns (neg_dec (((@f0 F, @f0 F), 7%N) : ditv F)) ((fneg f0, fneg f0), 7%N).
Proof. exact bad_byte. Qed.

(** ** Examples *)
(** Mixed-type reverse operations without [x]. *)
Theorem C32_sqr_rev1_mixed : forall (T F : fmt) (c : itv F), ~ wf c ->
  reports_invalid (sqr_rev1_mixed T c) empty_rep.
Proof. exact inv_sqr_rev1_mixed. Qed.
Print Assumptions C32_sqr_rev1_mixed.
Theorem C32_sqr_rev1_dec_mixed : forall (T F : fmt) (c : ditv F), ~ wf_dec c ->
  reports_invalid (sqr_rev1_dec_mixed T c) (empty_rep, ill).
Proof. exact inv_sqr_rev1_dec_mixed. Qed.
Print Assumptions C32_sqr_rev1_dec_mixed.
Theorem C32_abs_rev1_mixed : forall (T F : fmt) (c : itv F), ~ wf c ->
  reports_invalid (abs_rev1_mixed T c) empty_rep.
Proof. exact inv_abs_rev1_mixed. Qed.
Print Assumptions C32_abs_rev1_mixed.
Theorem C32_abs_rev1_dec_mixed : forall (T F : fmt) (c : ditv F), ~ wf_dec c ->
  reports_invalid (abs_rev1_dec_mixed T c) (empty_rep, ill).
Proof. exact inv_abs_rev1_dec_mixed. Qed.
Print Assumptions C32_abs_rev1_dec_mixed.
Theorem C32_cosh_rev1_mixed : forall (T F : fmt) (c : itv F), ~ wf c ->
  reports_invalid (cosh_rev1_mixed T c) empty_rep.
Proof. exact inv_cosh_rev1_mixed. Qed.
Print Assumptions C32_cosh_rev1_mixed.
Theorem C32_cosh_rev1_dec_mixed : forall (T F : fmt) (c : ditv F), ~ wf_dec c ->
  reports_invalid (cosh_rev1_dec_mixed T c) (empty_rep, ill).
Proof. exact inv_cosh_rev1_dec_mixed. Qed.
Print Assumptions C32_cosh_rev1_dec_mixed.
Theorem C32_sin_rev1_mixed : forall (T F : fmt) (c : itv F), ~ wf c ->
  reports_invalid (sin_rev1_mixed T c) empty_rep.
Proof. exact inv_sin_rev1_mixed. Qed.
Print Assumptions C32_sin_rev1_mixed.
Theorem C32_sin_rev1_dec_mixed : forall (T F : fmt) (c : ditv F), ~ wf_dec c ->
  reports_invalid (sin_rev1_dec_mixed T c) (empty_rep, ill).
Proof. exact inv_sin_rev1_dec_mixed. Qed.
Print Assumptions C32_sin_rev1_dec_mixed.
Theorem C32_cos_rev1_mixed : forall (T F : fmt) (c : itv F), ~ wf c ->
  reports_invalid (cos_rev1_mixed T c) empty_rep.
Proof. exact inv_cos_rev1_mixed. Qed.
Print Assumptions C32_cos_rev1_mixed.
Theorem C32_cos_rev1_dec_mixed : forall (T F : fmt) (c : ditv F), ~ wf_dec c ->
  reports_invalid (cos_rev1_dec_mixed T c) (empty_rep, ill).
Proof. exact inv_cos_rev1_dec_mixed. Qed.
Print Assumptions C32_cos_rev1_dec_mixed.
Theorem C32_tan_rev1_mixed : forall (T F : fmt) (c : itv F), ~ wf c ->
  reports_invalid (tan_rev1_mixed T c) empty_rep.
Proof. exact inv_tan_rev1_mixed. Qed.
Print Assumptions C32_tan_rev1_mixed.
Theorem C32_tan_rev1_dec_mixed : forall (T F : fmt) (c : ditv F), ~ wf_dec c ->
  reports_invalid (tan_rev1_dec_mixed T c) (empty_rep, ill).
Proof. exact inv_tan_rev1_dec_mixed. Qed.
Print Assumptions C32_tan_rev1_dec_mixed.
Theorem C32_pown_rev1_mixed : forall (T F : fmt) (c : itv F) (fuel : nat) (p : Z), ~ wf c ->
  reports_invalid (pown_rev1_mixed T fuel c p) empty_rep.
Proof. exact inv_pown_rev1_mixed. Qed.
Print Assumptions C32_pown_rev1_mixed.
Theorem C32_pown_rev1_dec_mixed : forall (T F : fmt) (c : ditv F) (fuel : nat) (p : Z), ~ wf_dec c ->
  reports_invalid (pown_rev1_dec_mixed T fuel c p) (empty_rep, ill).
Proof. exact inv_pown_rev1_dec_mixed. Qed.
Print Assumptions C32_pown_rev1_dec_mixed.
Theorem C32_mul_rev2_mixed : forall (T F G : fmt) (b : itv F) (c : itv G), ~ wf b \/ ~ wf c ->
  reports_invalid (mul_rev2_mixed T b c) empty_rep.
Proof. exact inv_mul_rev2_mixed. Qed.
Print Assumptions C32_mul_rev2_mixed.
Theorem C32_mul_rev2_dec_mixed : forall (T F G : fmt) (b : ditv F) (c : ditv G), ~ wf_dec b \/ ~ wf_dec c ->
  reports_invalid (mul_rev2_dec_mixed T b c) (empty_rep, ill).
Proof. exact inv_mul_rev2_dec_mixed. Qed.
Print Assumptions C32_mul_rev2_dec_mixed.

(** Reversed bounds, a lone NaN, and +oo as a lower bound are not valid; neither
    is com with an infinite bound, ill with bounds, or the empty set with def. *)
Example C32_ex_invalid : ~ wf (fl binary64 2 0, fl binary64 1 0) /\ ~ wf (@fnan binary64, fl binary64 1 0)
  /\ ~ wf (@finf binary64, @finf binary64) /\ ~ wf_dec ((fl binary64 1 0, @finf binary64), com)
  /\ ~ wf_dec ((fl binary64 1 0, fl binary64 1 0), ill) /\ ~ wf_dec ((@fnan binary64, @fnan binary64), def).
Proof.
assert (E1 : B2R (fl binary64 1 0) = 1) by b2r. assert (E2 : B2R (fl binary64 2 0) = 2) by b2r.
repeat split.
- intros [E|[r [H1 H2]]]; [discriminate|]. cbn [fst snd] in *. rewrite lb_fin in H1 by reflexivity.
  rewrite ub_fin in H2 by reflexivity. lra.
- intros [E|[r [H1 H2]]]; [discriminate|easy].
- intros [E|[r [H1 H2]]]; [discriminate|easy].
- intros [[E _]|(_ & _ & E)]; [discriminate|]. now destruct (E eq_refl).
- intros [[E _]|(_ & E & _)]; [discriminate|easy].
- intros [[_ [E|E]]|([r [E _]] & _)]; easy.
Qed.
(** [2,1] + [1,1] with throwing disabled and enabled. *)
Example C32_ex_run : add (fl binary64 2 0, fl binary64 1 0) (fl binary64 1 0, fl binary64 1 0) (Est 0 0) = (Ret empty_rep, Est 8 0)
  /\ add (fl binary64 2 0, fl binary64 1 0) (fl binary64 1 0, fl binary64 1 0) (Est 1 8) = (Throw Invalid_operand_exception, Est 9 8).
Proof. split; vm_compute; reflexivity. Qed.
