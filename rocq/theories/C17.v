(** * C17: NaI is absorbing, and forward operations produce it from nothing else *)
From Coq Require Import ZArith NArith Reals Bool List Lra.
From Flocq Require Import Core.Core IEEE754.BinarySingleNaN.
From Verif Require Import Fmt Spec FloatFacts Exc Deco SpecApi MBase PBase MBool MOverlap MArith MElem MPow MTrig MAtan2 MDec MMixed MNum MCancel MRev
  MTrigRev PClass PDec PInv PInvOps PInv2 SpecDeco SpecMixed SpecElem SpecAtan2 SpecIso SpecNai MCancel FloatFacts PConv PNai Ex MRev1 PRev1.
From Verif Require C16 C28 C20.
Import ListNotations.
Local Open Scope R_scope.

(** ** A NaI operand: NaI, false, NaN, undefined overlap; no signal *)

(** ** Decorated operations of one type *)
Theorem C17_neg_dec : forall (F : fmt),
  on_nai1 (fun (x : ditv F) => neg_dec x) (empty_rep, ill).
Proof. exact nai_neg_dec. Qed.
Theorem C17_pos_dec : forall (F : fmt),
  on_nai1 (fun (x : ditv F) => pos_dec x) (empty_rep, ill).
Proof. exact nai_pos_dec. Qed.
Theorem C17_recip_dec : forall (F : fmt),
  on_nai1 (fun (x : ditv F) => recip_dec x) (empty_rep, ill).
Proof. exact nai_recip_dec. Qed.
Theorem C17_sqr_dec : forall (F : fmt),
  on_nai1 (fun (x : ditv F) => sqr_dec x) (empty_rep, ill).
Proof. exact nai_sqr_dec. Qed.
Theorem C17_sqrt_dec : forall (F : fmt),
  on_nai1 (fun (x : ditv F) => sqrt_dec x) (empty_rep, ill).
Proof. exact nai_sqrt_dec. Qed.
Theorem C17_abs_dec : forall (F : fmt),
  on_nai1 (fun (x : ditv F) => abs_dec x) (empty_rep, ill).
Proof. exact nai_abs_dec. Qed.
Theorem C17_exp_dec : forall (F : fmt),
  on_nai1 (fun (x : ditv F) => exp_dec x) (empty_rep, ill).
Proof. exact nai_exp_dec. Qed.
Theorem C17_exp2_dec : forall (F : fmt),
  on_nai1 (fun (x : ditv F) => exp2_dec x) (empty_rep, ill).
Proof. exact nai_exp2_dec. Qed.
Theorem C17_exp10_dec : forall (F : fmt),
  on_nai1 (fun (x : ditv F) => exp10_dec x) (empty_rep, ill).
Proof. exact nai_exp10_dec. Qed.
Theorem C17_log_dec : forall (F : fmt),
  on_nai1 (fun (x : ditv F) => log_dec x) (empty_rep, ill).
Proof. exact nai_log_dec. Qed.
Theorem C17_log2_dec : forall (F : fmt),
  on_nai1 (fun (x : ditv F) => log2_dec x) (empty_rep, ill).
Proof. exact nai_log2_dec. Qed.
Theorem C17_log10_dec : forall (F : fmt),
  on_nai1 (fun (x : ditv F) => log10_dec x) (empty_rep, ill).
Proof. exact nai_log10_dec. Qed.
Theorem C17_sin_dec : forall (F : fmt),
  on_nai1 (fun (x : ditv F) => sin_dec x) (empty_rep, ill).
Proof. exact nai_sin_dec. Qed.
Theorem C17_cos_dec : forall (F : fmt),
  on_nai1 (fun (x : ditv F) => cos_dec x) (empty_rep, ill).
Proof. exact nai_cos_dec. Qed.
Theorem C17_tan_dec : forall (F : fmt),
  on_nai1 (fun (x : ditv F) => tan_dec x) (empty_rep, ill).
Proof. exact nai_tan_dec. Qed.
Theorem C17_asin_dec : forall (F : fmt),
  on_nai1 (fun (x : ditv F) => asin_dec x) (empty_rep, ill).
Proof. exact nai_asin_dec. Qed.
Theorem C17_acos_dec : forall (F : fmt),
  on_nai1 (fun (x : ditv F) => acos_dec x) (empty_rep, ill).
Proof. exact nai_acos_dec. Qed.
Theorem C17_atan_dec : forall (F : fmt),
  on_nai1 (fun (x : ditv F) => atan_dec x) (empty_rep, ill).
Proof. exact nai_atan_dec. Qed.
Theorem C17_sinh_dec : forall (F : fmt),
  on_nai1 (fun (x : ditv F) => sinh_dec x) (empty_rep, ill).
Proof. exact nai_sinh_dec. Qed.
Theorem C17_cosh_dec : forall (F : fmt),
  on_nai1 (fun (x : ditv F) => cosh_dec x) (empty_rep, ill).
Proof. exact nai_cosh_dec. Qed.
Theorem C17_tanh_dec : forall (F : fmt),
  on_nai1 (fun (x : ditv F) => tanh_dec x) (empty_rep, ill).
Proof. exact nai_tanh_dec. Qed.
Theorem C17_asinh_dec : forall (F : fmt),
  on_nai1 (fun (x : ditv F) => asinh_dec x) (empty_rep, ill).
Proof. exact nai_asinh_dec. Qed.
Theorem C17_acosh_dec : forall (F : fmt),
  on_nai1 (fun (x : ditv F) => acosh_dec x) (empty_rep, ill).
Proof. exact nai_acosh_dec. Qed.
Theorem C17_atanh_dec : forall (F : fmt),
  on_nai1 (fun (x : ditv F) => atanh_dec x) (empty_rep, ill).
Proof. exact nai_atanh_dec. Qed.
Theorem C17_sign_dec : forall (F : fmt),
  on_nai1 (fun (x : ditv F) => sign_dec x) (empty_rep, ill).
Proof. exact nai_sign_dec. Qed.
Theorem C17_ceil_dec : forall (F : fmt),
  on_nai1 (fun (x : ditv F) => ceil_dec x) (empty_rep, ill).
Proof. exact nai_ceil_dec. Qed.
Theorem C17_floor_dec : forall (F : fmt),
  on_nai1 (fun (x : ditv F) => floor_dec x) (empty_rep, ill).
Proof. exact nai_floor_dec. Qed.
Theorem C17_trunc_dec : forall (F : fmt),
  on_nai1 (fun (x : ditv F) => trunc_dec x) (empty_rep, ill).
Proof. exact nai_trunc_dec. Qed.
Theorem C17_round_ties_to_even_dec : forall (F : fmt),
  on_nai1 (fun (x : ditv F) => round_ties_to_even_dec x) (empty_rep, ill).
Proof. exact nai_round_ties_to_even_dec. Qed.
Theorem C17_round_ties_to_away_dec : forall (F : fmt),
  on_nai1 (fun (x : ditv F) => round_ties_to_away_dec x) (empty_rep, ill).
Proof. exact nai_round_ties_to_away_dec. Qed.
Theorem C17_pown_dec : forall (F : fmt) (p : Z),
  on_nai1 (fun (x : ditv F) => pown_dec x p) (empty_rep, ill).
Proof. exact nai_pown_dec. Qed.
Theorem C17_add_dec : forall (F : fmt),
  on_nai2 (fun (x : ditv F) (y : ditv F) => add_dec x y) (empty_rep, ill).
Proof. exact nai_add_dec. Qed.
Theorem C17_sub_dec : forall (F : fmt),
  on_nai2 (fun (x : ditv F) (y : ditv F) => sub_dec x y) (empty_rep, ill).
Proof. exact nai_sub_dec. Qed.
Theorem C17_mul_dec : forall (F : fmt),
  on_nai2 (fun (x : ditv F) (y : ditv F) => mul_dec x y) (empty_rep, ill).
Proof. exact nai_mul_dec. Qed.
Theorem C17_div_dec : forall (F : fmt),
  on_nai2 (fun (x : ditv F) (y : ditv F) => div_dec x y) (empty_rep, ill).
Proof. exact nai_div_dec. Qed.
Theorem C17_min_dec : forall (F : fmt),
  on_nai2 (fun (x : ditv F) (y : ditv F) => min_dec x y) (empty_rep, ill).
Proof. exact nai_min_dec. Qed.
Theorem C17_max_dec : forall (F : fmt),
  on_nai2 (fun (x : ditv F) (y : ditv F) => max_dec x y) (empty_rep, ill).
Proof. exact nai_max_dec. Qed.
Theorem C17_pow_dec : forall (F : fmt),
  on_nai2 (fun (x : ditv F) (y : ditv F) => pow_dec x y) (empty_rep, ill).
Proof. exact nai_pow_dec. Qed.
Theorem C17_atan2_dec : forall (F : fmt),
  on_nai2 (fun (x : ditv F) (y : ditv F) => atan2_dec x y) (empty_rep, ill).
Proof. exact nai_atan2_dec. Qed.
Theorem C17_intersection_dec : forall (F : fmt),
  on_nai2 (fun (x : ditv F) (y : ditv F) => intersection_dec x y) (empty_rep, ill).
Proof. exact nai_intersection_dec. Qed.
Theorem C17_convex_hull_dec : forall (F : fmt),
  on_nai2 (fun (x : ditv F) (y : ditv F) => convex_hull_dec x y) (empty_rep, ill).
Proof. exact nai_convex_hull_dec. Qed.
Theorem C17_cancel_minus_dec : forall (F : fmt),
  on_nai2 (fun (x : ditv F) (y : ditv F) => cancel_minus_dec x y) (empty_rep, ill).
Proof. exact nai_cancel_minus_dec. Qed.
Theorem C17_fma_dec : forall (F : fmt),
  on_nai3 (fun (x : ditv F) (y : ditv F) (z : ditv F) => fma_dec x y z) (empty_rep, ill).
Proof. exact nai_fma_dec. Qed.

(** ** Mixed-type operations *)
Theorem C17_neg_dec_mixed : forall (T : fmt) (F : fmt),
  on_nai1 (fun (x : ditv F) => neg_dec_mixed T x) (empty_rep, ill).
Proof. exact nai_neg_dec_mixed. Qed.
Theorem C17_pos_dec_mixed : forall (T : fmt) (F : fmt),
  on_nai1 (fun (x : ditv F) => pos_dec_mixed T x) (empty_rep, ill).
Proof. exact nai_pos_dec_mixed. Qed.
Theorem C17_recip_dec_mixed : forall (T : fmt) (F : fmt),
  on_nai1 (fun (x : ditv F) => recip_dec_mixed T x) (empty_rep, ill).
Proof. exact nai_recip_dec_mixed. Qed.
Theorem C17_sqr_dec_mixed : forall (T : fmt) (F : fmt),
  on_nai1 (fun (x : ditv F) => sqr_dec_mixed T x) (empty_rep, ill).
Proof. exact nai_sqr_dec_mixed. Qed.
Theorem C17_sqrt_dec_mixed : forall (T : fmt) (F : fmt),
  on_nai1 (fun (x : ditv F) => sqrt_dec_mixed T x) (empty_rep, ill).
Proof. exact nai_sqrt_dec_mixed. Qed.
Theorem C17_abs_dec_mixed : forall (T : fmt) (F : fmt),
  on_nai1 (fun (x : ditv F) => abs_dec_mixed T x) (empty_rep, ill).
Proof. exact nai_abs_dec_mixed. Qed.
Theorem C17_exp_dec_mixed : forall (T : fmt) (F : fmt),
  on_nai1 (fun (x : ditv F) => exp_dec_mixed T x) (empty_rep, ill).
Proof. exact nai_exp_dec_mixed. Qed.
Theorem C17_exp2_dec_mixed : forall (T : fmt) (F : fmt),
  on_nai1 (fun (x : ditv F) => exp2_dec_mixed T x) (empty_rep, ill).
Proof. exact nai_exp2_dec_mixed. Qed.
Theorem C17_exp10_dec_mixed : forall (T : fmt) (F : fmt),
  on_nai1 (fun (x : ditv F) => exp10_dec_mixed T x) (empty_rep, ill).
Proof. exact nai_exp10_dec_mixed. Qed.
Theorem C17_log_dec_mixed : forall (T : fmt) (F : fmt),
  on_nai1 (fun (x : ditv F) => log_dec_mixed T x) (empty_rep, ill).
Proof. exact nai_log_dec_mixed. Qed.
Theorem C17_log2_dec_mixed : forall (T : fmt) (F : fmt),
  on_nai1 (fun (x : ditv F) => log2_dec_mixed T x) (empty_rep, ill).
Proof. exact nai_log2_dec_mixed. Qed.
Theorem C17_log10_dec_mixed : forall (T : fmt) (F : fmt),
  on_nai1 (fun (x : ditv F) => log10_dec_mixed T x) (empty_rep, ill).
Proof. exact nai_log10_dec_mixed. Qed.
Theorem C17_sin_dec_mixed : forall (T : fmt) (F : fmt),
  on_nai1 (fun (x : ditv F) => sin_dec_mixed T x) (empty_rep, ill).
Proof. exact nai_sin_dec_mixed. Qed.
Theorem C17_cos_dec_mixed : forall (T : fmt) (F : fmt),
  on_nai1 (fun (x : ditv F) => cos_dec_mixed T x) (empty_rep, ill).
Proof. exact nai_cos_dec_mixed. Qed.
Theorem C17_tan_dec_mixed : forall (T : fmt) (F : fmt),
  on_nai1 (fun (x : ditv F) => tan_dec_mixed T x) (empty_rep, ill).
Proof. exact nai_tan_dec_mixed. Qed.
Theorem C17_asin_dec_mixed : forall (T : fmt) (F : fmt),
  on_nai1 (fun (x : ditv F) => asin_dec_mixed T x) (empty_rep, ill).
Proof. exact nai_asin_dec_mixed. Qed.
Theorem C17_acos_dec_mixed : forall (T : fmt) (F : fmt),
  on_nai1 (fun (x : ditv F) => acos_dec_mixed T x) (empty_rep, ill).
Proof. exact nai_acos_dec_mixed. Qed.
Theorem C17_atan_dec_mixed : forall (T : fmt) (F : fmt),
  on_nai1 (fun (x : ditv F) => atan_dec_mixed T x) (empty_rep, ill).
Proof. exact nai_atan_dec_mixed. Qed.
Theorem C17_sinh_dec_mixed : forall (T : fmt) (F : fmt),
  on_nai1 (fun (x : ditv F) => sinh_dec_mixed T x) (empty_rep, ill).
Proof. exact nai_sinh_dec_mixed. Qed.
Theorem C17_cosh_dec_mixed : forall (T : fmt) (F : fmt),
  on_nai1 (fun (x : ditv F) => cosh_dec_mixed T x) (empty_rep, ill).
Proof. exact nai_cosh_dec_mixed. Qed.
Theorem C17_tanh_dec_mixed : forall (T : fmt) (F : fmt),
  on_nai1 (fun (x : ditv F) => tanh_dec_mixed T x) (empty_rep, ill).
Proof. exact nai_tanh_dec_mixed. Qed.
Theorem C17_asinh_dec_mixed : forall (T : fmt) (F : fmt),
  on_nai1 (fun (x : ditv F) => asinh_dec_mixed T x) (empty_rep, ill).
Proof. exact nai_asinh_dec_mixed. Qed.
Theorem C17_acosh_dec_mixed : forall (T : fmt) (F : fmt),
  on_nai1 (fun (x : ditv F) => acosh_dec_mixed T x) (empty_rep, ill).
Proof. exact nai_acosh_dec_mixed. Qed.
Theorem C17_atanh_dec_mixed : forall (T : fmt) (F : fmt),
  on_nai1 (fun (x : ditv F) => atanh_dec_mixed T x) (empty_rep, ill).
Proof. exact nai_atanh_dec_mixed. Qed.
Theorem C17_sign_dec_mixed : forall (T : fmt) (F : fmt),
  on_nai1 (fun (x : ditv F) => sign_dec_mixed T x) (empty_rep, ill).
Proof. exact nai_sign_dec_mixed. Qed.
Theorem C17_ceil_dec_mixed : forall (T : fmt) (F : fmt),
  on_nai1 (fun (x : ditv F) => ceil_dec_mixed T x) (empty_rep, ill).
Proof. exact nai_ceil_dec_mixed. Qed.
Theorem C17_floor_dec_mixed : forall (T : fmt) (F : fmt),
  on_nai1 (fun (x : ditv F) => floor_dec_mixed T x) (empty_rep, ill).
Proof. exact nai_floor_dec_mixed. Qed.
Theorem C17_trunc_dec_mixed : forall (T : fmt) (F : fmt),
  on_nai1 (fun (x : ditv F) => trunc_dec_mixed T x) (empty_rep, ill).
Proof. exact nai_trunc_dec_mixed. Qed.
Theorem C17_round_ties_to_even_dec_mixed : forall (T : fmt) (F : fmt),
  on_nai1 (fun (x : ditv F) => rte_dec_mixed T x) (empty_rep, ill).
Proof. exact nai_round_ties_to_even_dec_mixed. Qed.
Theorem C17_round_ties_to_away_dec_mixed : forall (T : fmt) (F : fmt),
  on_nai1 (fun (x : ditv F) => rta_dec_mixed T x) (empty_rep, ill).
Proof. exact nai_round_ties_to_away_dec_mixed. Qed.
Theorem C17_pown_dec_mixed : forall (T : fmt) (F : fmt) (p : Z),
  on_nai1 (fun (x : ditv F) => pown_dec_mixed T x p) (empty_rep, ill).
Proof. exact nai_pown_dec_mixed. Qed.
Theorem C17_add_dec_mixed : forall (T : fmt) (F : fmt) (G : fmt),
  on_nai2 (fun (x : ditv F) (y : ditv G) => add_dec_mixed T x y) (empty_rep, ill).
Proof. exact nai_add_dec_mixed. Qed.
Theorem C17_sub_dec_mixed : forall (T : fmt) (F : fmt) (G : fmt),
  on_nai2 (fun (x : ditv F) (y : ditv G) => sub_dec_mixed T x y) (empty_rep, ill).
Proof. exact nai_sub_dec_mixed. Qed.
Theorem C17_mul_dec_mixed : forall (T : fmt) (F : fmt) (G : fmt),
  on_nai2 (fun (x : ditv F) (y : ditv G) => mul_dec_mixed T x y) (empty_rep, ill).
Proof. exact nai_mul_dec_mixed. Qed.
Theorem C17_div_dec_mixed : forall (T : fmt) (F : fmt) (G : fmt),
  on_nai2 (fun (x : ditv F) (y : ditv G) => div_dec_mixed T x y) (empty_rep, ill).
Proof. exact nai_div_dec_mixed. Qed.
Theorem C17_min_dec_mixed : forall (T : fmt) (F : fmt) (G : fmt),
  on_nai2 (fun (x : ditv F) (y : ditv G) => min_dec_mixed T x y) (empty_rep, ill).
Proof. exact nai_min_dec_mixed. Qed.
Theorem C17_max_dec_mixed : forall (T : fmt) (F : fmt) (G : fmt),
  on_nai2 (fun (x : ditv F) (y : ditv G) => max_dec_mixed T x y) (empty_rep, ill).
Proof. exact nai_max_dec_mixed. Qed.
Theorem C17_pow_dec_mixed : forall (T : fmt) (F : fmt) (G : fmt),
  on_nai2 (fun (x : ditv F) (y : ditv G) => pow_dec_mixed T x y) (empty_rep, ill).
Proof. exact nai_pow_dec_mixed. Qed.
Theorem C17_atan2_dec_mixed : forall (T : fmt) (F : fmt) (G : fmt),
  on_nai2 (fun (x : ditv F) (y : ditv G) => atan2_dec_mixed T x y) (empty_rep, ill).
Proof. exact nai_atan2_dec_mixed. Qed.
Theorem C17_intersection_dec_mixed : forall (T : fmt) (F : fmt) (G : fmt),
  on_nai2 (fun (x : ditv F) (y : ditv G) => intersection_dec_mixed T x y) (empty_rep, ill).
Proof. exact nai_intersection_dec_mixed. Qed.
Theorem C17_convex_hull_dec_mixed : forall (T : fmt) (F : fmt) (G : fmt),
  on_nai2 (fun (x : ditv F) (y : ditv G) => convex_hull_dec_mixed T x y) (empty_rep, ill).
Proof. exact nai_convex_hull_dec_mixed. Qed.
Theorem C17_cancel_minus_dec_mixed : forall (T : fmt) (F : fmt) (G : fmt),
  on_nai2 (fun (x : ditv F) (y : ditv G) => cancel_minus_dec_mixed T x y) (empty_rep, ill).
Proof. exact nai_cancel_minus_dec_mixed. Qed.
Theorem C17_fma_dec_mixed : forall (T : fmt) (F : fmt) (G : fmt) (H : fmt),
  on_nai3 (fun (x : ditv F) (y : ditv G) (z : ditv H) => fma_dec_mixed T x y z) (empty_rep, ill).
Proof. exact nai_fma_dec_mixed. Qed.

(** ** Reverse operations *)
Theorem C17_sqr_rev_dec : forall (F : fmt),
  on_nai2 (fun (c : ditv F) (x : ditv F) => sqr_rev_dec c x) (empty_rep, ill).
Proof. exact nai_sqr_rev_dec. Qed.
Theorem C17_sqr_rev1_dec : forall (F : fmt),
  on_nai1 (fun (c : ditv F) => sqr_rev1_dec c) (empty_rep, ill).
Proof. exact nai_sqr_rev1_dec. Qed.
Theorem C17_sqr_rev_dec_mixed : forall (T : fmt) (F : fmt) (G : fmt),
  on_nai2 (fun (c : ditv F) (x : ditv G) => sqr_rev_dec_mixed T c x) (empty_rep, ill).
Proof. exact nai_sqr_rev_dec_mixed. Qed.
Theorem C17_abs_rev_dec : forall (F : fmt),
  on_nai2 (fun (c : ditv F) (x : ditv F) => abs_rev_dec c x) (empty_rep, ill).
Proof. exact nai_abs_rev_dec. Qed.
Theorem C17_abs_rev1_dec : forall (F : fmt),
  on_nai1 (fun (c : ditv F) => abs_rev1_dec c) (empty_rep, ill).
Proof. exact nai_abs_rev1_dec. Qed.
Theorem C17_abs_rev_dec_mixed : forall (T : fmt) (F : fmt) (G : fmt),
  on_nai2 (fun (c : ditv F) (x : ditv G) => abs_rev_dec_mixed T c x) (empty_rep, ill).
Proof. exact nai_abs_rev_dec_mixed. Qed.
Theorem C17_cosh_rev_dec : forall (F : fmt),
  on_nai2 (fun (c : ditv F) (x : ditv F) => cosh_rev_dec c x) (empty_rep, ill).
Proof. exact nai_cosh_rev_dec. Qed.
Theorem C17_cosh_rev1_dec : forall (F : fmt),
  on_nai1 (fun (c : ditv F) => cosh_rev1_dec c) (empty_rep, ill).
Proof. exact nai_cosh_rev1_dec. Qed.
Theorem C17_cosh_rev_dec_mixed : forall (T : fmt) (F : fmt) (G : fmt),
  on_nai2 (fun (c : ditv F) (x : ditv G) => cosh_rev_dec_mixed T c x) (empty_rep, ill).
Proof. exact nai_cosh_rev_dec_mixed. Qed.
Theorem C17_sin_rev_dec : forall (F : fmt),
  on_nai2 (fun (c : ditv F) (x : ditv F) => sin_rev_dec c x) (empty_rep, ill).
Proof. exact nai_sin_rev_dec. Qed.
Theorem C17_sin_rev1_dec : forall (F : fmt),
  on_nai1 (fun (c : ditv F) => sin_rev1_dec c) (empty_rep, ill).
Proof. exact nai_sin_rev1_dec. Qed.
Theorem C17_sin_rev_dec_mixed : forall (T : fmt) (F : fmt) (G : fmt),
  on_nai2 (fun (c : ditv F) (x : ditv G) => sin_rev_dec_mixed T c x) (empty_rep, ill).
Proof. exact nai_sin_rev_dec_mixed. Qed.
Theorem C17_cos_rev_dec : forall (F : fmt),
  on_nai2 (fun (c : ditv F) (x : ditv F) => cos_rev_dec c x) (empty_rep, ill).
Proof. exact nai_cos_rev_dec. Qed.
Theorem C17_cos_rev1_dec : forall (F : fmt),
  on_nai1 (fun (c : ditv F) => cos_rev1_dec c) (empty_rep, ill).
Proof. exact nai_cos_rev1_dec. Qed.
Theorem C17_cos_rev_dec_mixed : forall (T : fmt) (F : fmt) (G : fmt),
  on_nai2 (fun (c : ditv F) (x : ditv G) => cos_rev_dec_mixed T c x) (empty_rep, ill).
Proof. exact nai_cos_rev_dec_mixed. Qed.
Theorem C17_tan_rev_dec : forall (F : fmt),
  on_nai2 (fun (c : ditv F) (x : ditv F) => tan_rev_dec c x) (empty_rep, ill).
Proof. exact nai_tan_rev_dec. Qed.
Theorem C17_tan_rev1_dec : forall (F : fmt),
  on_nai1 (fun (c : ditv F) => tan_rev1_dec c) (empty_rep, ill).
Proof. exact nai_tan_rev1_dec. Qed.
Theorem C17_tan_rev_dec_mixed : forall (T : fmt) (F : fmt) (G : fmt),
  on_nai2 (fun (c : ditv F) (x : ditv G) => tan_rev_dec_mixed T c x) (empty_rep, ill).
Proof. exact nai_tan_rev_dec_mixed. Qed.
Theorem C17_pown_rev_dec : forall (F : fmt) (fuel : nat) (p : Z),
  on_nai2 (fun (c : ditv F) (x : ditv F) => pown_rev_dec fuel c x p) (empty_rep, ill).
Proof. exact nai_pown_rev_dec. Qed.
Theorem C17_pown_rev1_dec : forall (F : fmt) (fuel : nat) (p : Z),
  on_nai1 (fun (c : ditv F) => pown_rev1_dec fuel c p) (empty_rep, ill).
Proof. exact nai_pown_rev1_dec. Qed.
Theorem C17_pown_rev_dec_mixed : forall (T : fmt) (F : fmt) (G : fmt) (fuel : nat) (p : Z),
  on_nai2 (fun (c : ditv F) (x : ditv G) => pown_rev_dec_mixed T fuel c x p) (empty_rep, ill).
Proof. exact nai_pown_rev_dec_mixed. Qed.
Theorem C17_mul_rev_dec : forall (F : fmt),
  on_nai3 (fun (b : ditv F) (c : ditv F) (x : ditv F) => mul_rev_dec b c x) (empty_rep, ill).
Proof. exact nai_mul_rev_dec. Qed.
Theorem C17_mul_rev2_dec : forall (F : fmt),
  on_nai2 (fun (b : ditv F) (c : ditv F) => mul_rev2_dec b c) (empty_rep, ill).
Proof. exact nai_mul_rev2_dec. Qed.
Theorem C17_mul_rev_dec_mixed : forall (T : fmt) (F : fmt) (G : fmt) (H : fmt),
  on_nai3 (fun (b : ditv F) (c : ditv G) (x : ditv H) => mul_rev_dec_mixed T b c x) (empty_rep, ill).
Proof. exact nai_mul_rev_dec_mixed. Qed.
Theorem C17_mul_rev_to_pair_dec : forall (F : fmt),
  on_nai2 (fun (b : ditv F) (c : ditv F) => mul_rev_to_pair_dec b c) ((empty_rep, ill), (empty_rep, ill)).
Proof. exact nai_mul_rev_to_pair_dec. Qed.

(** ** Relations *)
Theorem C17_equal_dec : forall (F : fmt) (G : fmt),
  on_nai2 (fun (x : ditv F) (y : ditv G) => rel_dec equal_mixed x y) false.
Proof. exact nai_equal_dec. Qed.
Theorem C17_subset_dec : forall (F : fmt) (G : fmt),
  on_nai2 (fun (x : ditv F) (y : ditv G) => rel_dec subset_mixed x y) false.
Proof. exact nai_subset_dec. Qed.
Theorem C17_less_dec : forall (F : fmt) (G : fmt),
  on_nai2 (fun (x : ditv F) (y : ditv G) => rel_dec less_mixed x y) false.
Proof. exact nai_less_dec. Qed.
Theorem C17_precedes_dec : forall (F : fmt) (G : fmt),
  on_nai2 (fun (x : ditv F) (y : ditv G) => rel_dec precedes_mixed x y) false.
Proof. exact nai_precedes_dec. Qed.
Theorem C17_interior_dec : forall (F : fmt) (G : fmt),
  on_nai2 (fun (x : ditv F) (y : ditv G) => rel_dec interior_mixed x y) false.
Proof. exact nai_interior_dec. Qed.
Theorem C17_strictly_less_dec : forall (F : fmt) (G : fmt),
  on_nai2 (fun (x : ditv F) (y : ditv G) => rel_dec strictly_less_mixed x y) false.
Proof. exact nai_strictly_less_dec. Qed.
Theorem C17_strictly_precedes_dec : forall (F : fmt) (G : fmt),
  on_nai2 (fun (x : ditv F) (y : ditv G) => rel_dec strictly_precedes_mixed x y) false.
Proof. exact nai_strictly_precedes_dec. Qed.
Theorem C17_disjoint_dec : forall (F : fmt) (G : fmt),
  on_nai2 (fun (x : ditv F) (y : ditv G) => rel_dec disjoint_mixed x y) false.
Proof. exact nai_disjoint_dec. Qed.
Theorem C17_is_empty_dec : forall (F : fmt),
  on_nai1 (fun (x : ditv F) => is_empty_dec x) false.
Proof. exact nai_is_empty_dec. Qed.
Theorem C17_is_entire_dec : forall (F : fmt),
  on_nai1 (fun (x : ditv F) => is_entire_dec x) false.
Proof. exact nai_is_entire_dec. Qed.
Theorem C17_is_common_interval_dec : forall (F : fmt),
  on_nai1 (fun (x : ditv F) => is_common_interval_dec x) false.
Proof. exact nai_is_common_interval_dec. Qed.
Theorem C17_is_singleton_dec : forall (F : fmt),
  on_nai1 (fun (x : ditv F) => is_singleton_dec x) false.
Proof. exact nai_is_singleton_dec. Qed.
Theorem C17_is_member_dec : forall (F : fmt) (G : fmt) (m : float G),
  on_nai1 (fun (x : ditv F) => is_member_dec m x) false.
Proof. exact nai_is_member_dec. Qed.
Theorem C17_overlap_dec : forall (F : fmt) (G : fmt),
  on_nai2 (fun (x : ditv F) (y : ditv G) => overlap_dec x y) o_undefined.
Proof. exact nai_overlap_dec. Qed.

(** ** Numeric functions *)
Theorem C17_n_inf_dec : forall (F : fmt),
  on_nai1 (fun (x : ditv F) => n_inf_dec x) fnan.
Proof. exact nai_n_inf_dec. Qed.
Theorem C17_n_inf_dec_mixed : forall (G : fmt) (F : fmt),
  on_nai1 (fun (x : ditv F) => num_dec_mixed G (n_inf_mixed G) x) fnan.
Proof. exact nai_n_inf_dec_mixed. Qed.
Theorem C17_n_sup_dec : forall (F : fmt),
  on_nai1 (fun (x : ditv F) => n_sup_dec x) fnan.
Proof. exact nai_n_sup_dec. Qed.
Theorem C17_n_sup_dec_mixed : forall (G : fmt) (F : fmt),
  on_nai1 (fun (x : ditv F) => num_dec_mixed G (n_sup_mixed G) x) fnan.
Proof. exact nai_n_sup_dec_mixed. Qed.
Theorem C17_n_mid_dec : forall (F : fmt),
  on_nai1 (fun (x : ditv F) => n_mid_dec x) fnan.
Proof. exact nai_n_mid_dec. Qed.
Theorem C17_n_mid_dec_mixed : forall (G : fmt) (F : fmt),
  on_nai1 (fun (x : ditv F) => num_dec_mixed G (n_mid_mixed G) x) fnan.
Proof. exact nai_n_mid_dec_mixed. Qed.
Theorem C17_n_rad_dec : forall (F : fmt),
  on_nai1 (fun (x : ditv F) => n_rad_dec x) fnan.
Proof. exact nai_n_rad_dec. Qed.
Theorem C17_n_rad_dec_mixed : forall (G : fmt) (F : fmt),
  on_nai1 (fun (x : ditv F) => num_dec_mixed G (n_rad_mixed G) x) fnan.
Proof. exact nai_n_rad_dec_mixed. Qed.
Theorem C17_n_wid_dec : forall (F : fmt),
  on_nai1 (fun (x : ditv F) => n_wid_dec x) fnan.
Proof. exact nai_n_wid_dec. Qed.
Theorem C17_n_wid_dec_mixed : forall (G : fmt) (F : fmt),
  on_nai1 (fun (x : ditv F) => num_dec_mixed G (n_wid_mixed G) x) fnan.
Proof. exact nai_n_wid_dec_mixed. Qed.
Theorem C17_n_mag_dec : forall (F : fmt),
  on_nai1 (fun (x : ditv F) => n_mag_dec x) fnan.
Proof. exact nai_n_mag_dec. Qed.
Theorem C17_n_mag_dec_mixed : forall (G : fmt) (F : fmt),
  on_nai1 (fun (x : ditv F) => num_dec_mixed G (n_mag_mixed G) x) fnan.
Proof. exact nai_n_mag_dec_mixed. Qed.
Theorem C17_n_mig_dec : forall (F : fmt),
  on_nai1 (fun (x : ditv F) => n_mig_dec x) fnan.
Proof. exact nai_n_mig_dec. Qed.
Theorem C17_n_mig_dec_mixed : forall (G : fmt) (F : fmt),
  on_nai1 (fun (x : ditv F) => num_dec_mixed G (n_mig_mixed G) x) fnan.
Proof. exact nai_n_mig_dec_mixed. Qed.
Theorem C17_n_mid_rad_dec : forall (F : fmt),
  on_nai1 (fun (x : ditv F) => n_mid_rad_dec x) (fnan, fnan).
Proof. exact nai_n_mid_rad_dec. Qed.
Theorem C17_n_mid_rad_dec_mixed : forall (G : fmt) (F : fmt),
  on_nai1 (fun (x : ditv F) => n_mid_rad_dec_mixed G x) (fnan, fnan).
Proof. exact nai_n_mid_rad_dec_mixed. Qed.

(** ** Copies, conversions and parts *)
Theorem C17_convert_type_dec : forall (G : fmt) (F : fmt),
  on_nai1 (fun (x : ditv F) => convert_type_dec G x) (empty_rep, ill).
Proof. exact nai_convert_type_dec. Qed.

Theorem C17_copy_dec : forall F : fmt, on_nai1 (fun x : ditv F => copy_dec x) (empty_rep, ill).
Proof. exact (nai_copy_dec). Qed.
Theorem C17_cancel_plus_dec : forall F : fmt, on_nai2 (fun x y : ditv F => cancel_plus_dec x y) (empty_rep, ill).
Proof. exact (nai_cancel_plus_dec). Qed.
Theorem C17_cancel_plus_dec_mixed : forall T F G : fmt, on_nai2 (fun (x : ditv F) (y : ditv G) => cancel_plus_dec_mixed T x y) (empty_rep, ill).
Proof. exact (nai_cancel_plus_dec_mixed). Qed.
Theorem C17_mul_rev_to_pair_dec_mixed : forall T F G : fmt, on_nai2 (fun (b : ditv F) (c : ditv G) => mul_rev_to_pair_dec_mixed T b c)
  ((empty_rep, ill), (empty_rep, ill)).
Proof. exact (nai_mul_rev_to_pair_dec_mixed). Qed.
(** NaI is recognised, and only NaI. *)
Theorem C17_is_nai : forall (F : fmt) (x : ditv F), wf_dec x -> exists b, returns (is_nai x) b /\ (b = true <-> x = (empty_rep, ill)).
Proof. exact @nai_is_nai. Qed.
Theorem C17_decoration_part : forall F : fmt, on_nai1 (fun x : ditv F => decoration_part x) ill.
Proof. exact nai_decoration_part. Qed.
Print Assumptions C17_mul_rev_to_pair_dec_mixed.

(** ** Valid operands other than NaI: the result is not NaI *)
Theorem C17_neg_produces : forall F : fmt, no_nai1 (@neg_dec F).
Proof. exact (fun F => only1 _ _ _ _ (C16.C16_neg F)). Qed.
Theorem C17_pos_produces : forall F : fmt, no_nai1 (@pos_dec F).
Proof. exact (fun F => only1 _ _ _ _ (C16.C16_pos F)). Qed.
Theorem C17_recip_produces : forall F : fmt, no_nai1 (@recip_dec F).
Proof. exact (fun F => only1 _ _ _ _ (C16.C16_recip F)). Qed.
Theorem C17_sqr_produces : forall F : fmt, no_nai1 (@sqr_dec F).
Proof. exact (fun F => only1 _ _ _ _ (C16.C16_sqr F)). Qed.
Theorem C17_sqrt_produces : forall F : fmt, no_nai1 (@sqrt_dec F).
Proof. exact (fun F => only1 _ _ _ _ (C16.C16_sqrt F)). Qed.
Theorem C17_abs_produces : forall F : fmt, no_nai1 (@abs_dec F).
Proof. exact (fun F => only1 _ _ _ _ (C16.C16_abs F)). Qed.
Theorem C17_exp_produces : forall F : fmt, no_nai1 (@exp_dec F).
Proof. exact (fun F => only1 _ _ _ _ (C16.C16_exp F)). Qed.
Theorem C17_exp2_produces : forall F : fmt, no_nai1 (@exp2_dec F).
Proof. exact (fun F => only1 _ _ _ _ (C16.C16_exp2 F)). Qed.
Theorem C17_exp10_produces : forall F : fmt, no_nai1 (@exp10_dec F).
Proof. exact (fun F => only1 _ _ _ _ (C16.C16_exp10 F)). Qed.
Theorem C17_log_produces : forall F : fmt, no_nai1 (@log_dec F).
Proof. exact (fun F => only1 _ _ _ _ (C16.C16_log F)). Qed.
Theorem C17_log2_produces : forall F : fmt, no_nai1 (@log2_dec F).
Proof. exact (fun F => only1 _ _ _ _ (C16.C16_log2 F)). Qed.
Theorem C17_log10_produces : forall F : fmt, no_nai1 (@log10_dec F).
Proof. exact (fun F => only1 _ _ _ _ (C16.C16_log10 F)). Qed.
Theorem C17_sin_produces : forall F : fmt, no_nai1 (@sin_dec F).
Proof. exact (fun F => only1 _ _ _ _ (C16.C16_sin F)). Qed.
Theorem C17_cos_produces : forall F : fmt, no_nai1 (@cos_dec F).
Proof. exact (fun F => only1 _ _ _ _ (C16.C16_cos F)). Qed.
Theorem C17_asin_produces : forall F : fmt, no_nai1 (@asin_dec F).
Proof. exact (fun F => only1 _ _ _ _ (C16.C16_asin F)). Qed.
Theorem C17_acos_produces : forall F : fmt, no_nai1 (@acos_dec F).
Proof. exact (fun F => only1 _ _ _ _ (C16.C16_acos F)). Qed.
Theorem C17_atan_produces : forall F : fmt, no_nai1 (@atan_dec F).
Proof. exact (fun F => only1 _ _ _ _ (C16.C16_atan F)). Qed.
Theorem C17_sinh_produces : forall F : fmt, no_nai1 (@sinh_dec F).
Proof. exact (fun F => only1 _ _ _ _ (C16.C16_sinh F)). Qed.
Theorem C17_cosh_produces : forall F : fmt, no_nai1 (@cosh_dec F).
Proof. exact (fun F => only1 _ _ _ _ (C16.C16_cosh F)). Qed.
Theorem C17_tanh_produces : forall F : fmt, no_nai1 (@tanh_dec F).
Proof. exact (fun F => only1 _ _ _ _ (C16.C16_tanh F)). Qed.
Theorem C17_asinh_produces : forall F : fmt, no_nai1 (@asinh_dec F).
Proof. exact (fun F => only1 _ _ _ _ (C16.C16_asinh F)). Qed.
Theorem C17_acosh_produces : forall F : fmt, no_nai1 (@acosh_dec F).
Proof. exact (fun F => only1 _ _ _ _ (C16.C16_acosh F)). Qed.
Theorem C17_atanh_produces : forall F : fmt, no_nai1 (@atanh_dec F).
Proof. exact (fun F => only1 _ _ _ _ (C16.C16_atanh F)). Qed.
Theorem C17_sign_produces : forall F : fmt, no_nai1 (@sign_dec F).
Proof. exact (fun F => only1 _ _ _ _ (C16.C16_sign F)). Qed.
Theorem C17_ceil_produces : forall F : fmt, no_nai1 (@ceil_dec F).
Proof. exact (fun F => only1 _ _ _ _ (C16.C16_ceil F)). Qed.
Theorem C17_floor_produces : forall F : fmt, no_nai1 (@floor_dec F).
Proof. exact (fun F => only1 _ _ _ _ (C16.C16_floor F)). Qed.
Theorem C17_trunc_produces : forall F : fmt, no_nai1 (@trunc_dec F).
Proof. exact (fun F => only1 _ _ _ _ (C16.C16_trunc F)). Qed.
Theorem C17_rte_produces : forall F : fmt, no_nai1 (@round_ties_to_even_dec F).
Proof. exact (fun F => only1 _ _ _ _ (C16.C16_rte F)). Qed.
Theorem C17_rta_produces : forall F : fmt, no_nai1 (@round_ties_to_away_dec F).
Proof. exact (fun F => only1 _ _ _ _ (C16.C16_rta F)). Qed.
Theorem C17_add_produces : forall F : fmt, no_nai2 (@add_dec F).
Proof. exact (fun F => only2 _ _ _ _ (C16.C16_add F)). Qed.
Theorem C17_sub_produces : forall F : fmt, no_nai2 (@sub_dec F).
Proof. exact (fun F => only2 _ _ _ _ (C16.C16_sub F)). Qed.
Theorem C17_mul_produces : forall F : fmt, no_nai2 (@mul_dec F).
Proof. exact (fun F => only2 _ _ _ _ (C16.C16_mul F)). Qed.
Theorem C17_div_produces : forall F : fmt, no_nai2 (@div_dec F).
Proof. exact (fun F => only2 _ _ _ _ (C16.C16_div F)). Qed.
Theorem C17_min_produces : forall F : fmt, no_nai2 (@min_dec F).
Proof. exact (fun F => only2 _ _ _ _ (C16.C16_min F)). Qed.
Theorem C17_max_produces : forall F : fmt, no_nai2 (@max_dec F).
Proof. exact (fun F => only2 _ _ _ _ (C16.C16_max F)). Qed.
Theorem C17_pow_produces : forall F : fmt, no_nai2 (@pow_dec F).
Proof. exact (fun F => only2 _ _ _ _ (C16.C16_pow F)). Qed.
Theorem C17_atan2_produces : forall F : fmt, no_nai2 (@atan2_dec F).
Proof. exact (fun F => only2 _ _ _ _ (C16.C16_atan2 F)). Qed.
Theorem C17_pown_produces : forall (F : fmt) (p : Z), no_nai1 (fun x : ditv F => pown_dec x p).
Proof. exact (fun F p => only1 _ _ _ _ (C16.C16_pown F p)). Qed.
Theorem C17_fma_produces : forall F : fmt, no_nai3 (@fma_dec F).
Proof. exact (fun F => only3 _ _ _ (C16.C16_fma F)). Qed.
Theorem C17_tan_produces : forall F : fmt, no_nai1 (@tan_dec F).
Proof. exact (tan_no_nai). Qed.
Theorem C17_intersection_produces : forall F : fmt, no_nai2 (@intersection_dec F).
Proof. exact (intersection_no_nai). Qed.
Theorem C17_convex_hull_produces : forall F : fmt, no_nai2 (@convex_hull_dec F).
Proof. exact (convex_hull_no_nai). Qed.
Theorem C17_neg_mixed_produces : forall T F : fmt, no_nai1 (fun x : ditv F => neg_dec_mixed T x).
Proof. exact (fun T F => only1 _ _ _ _ (C28.C28_neg_dec T F)). Qed.
Theorem C17_pos_mixed_produces : forall T F : fmt, no_nai1 (fun x : ditv F => pos_dec_mixed T x).
Proof. exact (fun T F => only1 _ _ _ _ (C28.C28_pos_dec T F)). Qed.
Theorem C17_recip_mixed_produces : forall T F : fmt, comparable T F -> no_nai1 (fun x : ditv F => recip_dec_mixed T x).
Proof. exact (fun T F C => only1 _ _ _ _ (C28.C28_recip_dec T F C)). Qed.
Theorem C17_sqr_mixed_produces : forall T F : fmt, comparable T F -> no_nai1 (fun x : ditv F => sqr_dec_mixed T x).
Proof. exact (fun T F C => only1 _ _ _ _ (C28.C28_sqr_dec T F C)). Qed.
Theorem C17_sqrt_mixed_produces : forall T F : fmt, comparable T F -> no_nai1 (fun x : ditv F => sqrt_dec_mixed T x).
Proof. exact (fun T F C => only1 _ _ _ _ (C28.C28_sqrt_dec T F C)). Qed.
Theorem C17_abs_mixed_produces : forall T F : fmt, comparable T F -> no_nai1 (fun x : ditv F => abs_dec_mixed T x).
Proof. exact (fun T F C => only1 _ _ _ _ (C28.C28_abs_dec T F C)). Qed.
Theorem C17_exp_mixed_produces : forall T F : fmt, comparable T F -> no_nai1 (fun x : ditv F => exp_dec_mixed T x).
Proof. exact (fun T F C => only1 _ _ _ _ (C28.C28_exp_dec T F C)). Qed.
Theorem C17_exp2_mixed_produces : forall T F : fmt, comparable T F -> no_nai1 (fun x : ditv F => exp2_dec_mixed T x).
Proof. exact (fun T F C => only1 _ _ _ _ (C28.C28_exp2_dec T F C)). Qed.
Theorem C17_exp10_mixed_produces : forall T F : fmt, comparable T F -> no_nai1 (fun x : ditv F => exp10_dec_mixed T x).
Proof. exact (fun T F C => only1 _ _ _ _ (C28.C28_exp10_dec T F C)). Qed.
Theorem C17_log_mixed_produces : forall T F : fmt, comparable T F -> no_nai1 (fun x : ditv F => log_dec_mixed T x).
Proof. exact (fun T F C => only1 _ _ _ _ (C28.C28_log_dec T F C)). Qed.
Theorem C17_log2_mixed_produces : forall T F : fmt, comparable T F -> no_nai1 (fun x : ditv F => log2_dec_mixed T x).
Proof. exact (fun T F C => only1 _ _ _ _ (C28.C28_log2_dec T F C)). Qed.
Theorem C17_log10_mixed_produces : forall T F : fmt, comparable T F -> no_nai1 (fun x : ditv F => log10_dec_mixed T x).
Proof. exact (fun T F C => only1 _ _ _ _ (C28.C28_log10_dec T F C)). Qed.
Theorem C17_sin_mixed_produces : forall T F : fmt, comparable T F -> no_nai1 (fun x : ditv F => sin_dec_mixed T x).
Proof. exact (fun T F C => only1 _ _ _ _ (C28.C28_sin_dec T F C)). Qed.
Theorem C17_cos_mixed_produces : forall T F : fmt, comparable T F -> no_nai1 (fun x : ditv F => cos_dec_mixed T x).
Proof. exact (fun T F C => only1 _ _ _ _ (C28.C28_cos_dec T F C)). Qed.
Theorem C17_asin_mixed_produces : forall T F : fmt, comparable T F -> no_nai1 (fun x : ditv F => asin_dec_mixed T x).
Proof. exact (fun T F C => only1 _ _ _ _ (C28.C28_asin_dec T F C)). Qed.
Theorem C17_acos_mixed_produces : forall T F : fmt, comparable T F -> no_nai1 (fun x : ditv F => acos_dec_mixed T x).
Proof. exact (fun T F C => only1 _ _ _ _ (C28.C28_acos_dec T F C)). Qed.
Theorem C17_atan_mixed_produces : forall T F : fmt, comparable T F -> no_nai1 (fun x : ditv F => atan_dec_mixed T x).
Proof. exact (fun T F C => only1 _ _ _ _ (C28.C28_atan_dec T F C)). Qed.
Theorem C17_sinh_mixed_produces : forall T F : fmt, comparable T F -> no_nai1 (fun x : ditv F => sinh_dec_mixed T x).
Proof. exact (fun T F C => only1 _ _ _ _ (C28.C28_sinh_dec T F C)). Qed.
Theorem C17_cosh_mixed_produces : forall T F : fmt, comparable T F -> no_nai1 (fun x : ditv F => cosh_dec_mixed T x).
Proof. exact (fun T F C => only1 _ _ _ _ (C28.C28_cosh_dec T F C)). Qed.
Theorem C17_tanh_mixed_produces : forall T F : fmt, comparable T F -> no_nai1 (fun x : ditv F => tanh_dec_mixed T x).
Proof. exact (fun T F C => only1 _ _ _ _ (C28.C28_tanh_dec T F C)). Qed.
Theorem C17_asinh_mixed_produces : forall T F : fmt, comparable T F -> no_nai1 (fun x : ditv F => asinh_dec_mixed T x).
Proof. exact (fun T F C => only1 _ _ _ _ (C28.C28_asinh_dec T F C)). Qed.
Theorem C17_acosh_mixed_produces : forall T F : fmt, comparable T F -> no_nai1 (fun x : ditv F => acosh_dec_mixed T x).
Proof. exact (fun T F C => only1 _ _ _ _ (C28.C28_acosh_dec T F C)). Qed.
Theorem C17_atanh_mixed_produces : forall T F : fmt, comparable T F -> no_nai1 (fun x : ditv F => atanh_dec_mixed T x).
Proof. exact (fun T F C => only1 _ _ _ _ (C28.C28_atanh_dec T F C)). Qed.
Theorem C17_sign_mixed_produces : forall T F : fmt, comparable T F -> no_nai1 (fun x : ditv F => sign_dec_mixed T x).
Proof. exact (fun T F C => only1 _ _ _ _ (C28.C28_sign_dec T F C)). Qed.
Theorem C17_ceil_mixed_produces : forall T F : fmt, comparable T F -> no_nai1 (fun x : ditv F => ceil_dec_mixed T x).
Proof. exact (fun T F C => only1 _ _ _ _ (C28.C28_ceil_dec T F C)). Qed.
Theorem C17_floor_mixed_produces : forall T F : fmt, comparable T F -> no_nai1 (fun x : ditv F => floor_dec_mixed T x).
Proof. exact (fun T F C => only1 _ _ _ _ (C28.C28_floor_dec T F C)). Qed.
Theorem C17_trunc_mixed_produces : forall T F : fmt, comparable T F -> no_nai1 (fun x : ditv F => trunc_dec_mixed T x).
Proof. exact (fun T F C => only1 _ _ _ _ (C28.C28_trunc_dec T F C)). Qed.
Theorem C17_rte_mixed_produces : forall T F : fmt, comparable T F -> no_nai1 (fun x : ditv F => rte_dec_mixed T x).
Proof. exact (fun T F C => only1 _ _ _ _ (C28.C28_rte_dec T F C)). Qed.
Theorem C17_rta_mixed_produces : forall T F : fmt, comparable T F -> no_nai1 (fun x : ditv F => rta_dec_mixed T x).
Proof. exact (fun T F C => only1 _ _ _ _ (C28.C28_rta_dec T F C)). Qed.
Theorem C17_add_mixed_produces : forall T F G : fmt, comparable T F -> comparable T G -> comparable F G ->
  no_nai2 (fun (x : ditv F) (y : ditv G) => add_dec_mixed T x y).
Proof. exact (fun T F G A B C => only2 _ _ _ _ (C28.C28_add_dec T F G A B C)). Qed.
Theorem C17_sub_mixed_produces : forall T F G : fmt, comparable T F -> comparable T G -> comparable F G ->
  no_nai2 (fun (x : ditv F) (y : ditv G) => sub_dec_mixed T x y).
Proof. exact (fun T F G A B C => only2 _ _ _ _ (C28.C28_sub_dec T F G A B C)). Qed.
Theorem C17_mul_mixed_produces : forall T F G : fmt, comparable T F -> comparable T G -> comparable F G ->
  no_nai2 (fun (x : ditv F) (y : ditv G) => mul_dec_mixed T x y).
Proof. exact (fun T F G A B C => only2 _ _ _ _ (C28.C28_mul_dec T F G A B C)). Qed.
Theorem C17_div_mixed_produces : forall T F G : fmt, comparable T F -> comparable T G -> comparable F G ->
  no_nai2 (fun (x : ditv F) (y : ditv G) => div_dec_mixed T x y).
Proof. exact (fun T F G A B C => only2 _ _ _ _ (C28.C28_div_dec T F G A B C)). Qed.
Theorem C17_min_mixed_produces : forall T F G : fmt, comparable T F -> comparable T G -> comparable F G ->
  no_nai2 (fun (x : ditv F) (y : ditv G) => min_dec_mixed T x y).
Proof. exact (fun T F G A B C => only2 _ _ _ _ (C28.C28_min_dec T F G A B C)). Qed.
Theorem C17_max_mixed_produces : forall T F G : fmt, comparable T F -> comparable T G -> comparable F G ->
  no_nai2 (fun (x : ditv F) (y : ditv G) => max_dec_mixed T x y).
Proof. exact (fun T F G A B C => only2 _ _ _ _ (C28.C28_max_dec T F G A B C)). Qed.
Theorem C17_pow_mixed_produces : forall T F G : fmt, comparable T F -> comparable T G -> comparable F G ->
  no_nai2 (fun (x : ditv F) (y : ditv G) => pow_dec_mixed T x y).
Proof. exact (fun T F G A B C => only2 _ _ _ _ (C28.C28_pow_dec T F G A B C)). Qed.
Theorem C17_atan2_mixed_produces : forall T F G : fmt, comparable T F -> comparable T G -> comparable F G ->
  no_nai2 (fun (x : ditv F) (y : ditv G) => atan2_dec_mixed T x y).
Proof. exact (fun T F G A B C => only2 _ _ _ _ (C28.C28_atan2_dec T F G A B C)). Qed.
Theorem C17_pown_mixed_produces : forall (T F : fmt) (p : Z), comparable T F -> no_nai1 (fun x : ditv F => pown_dec_mixed T x p).
Proof. exact (fun T F p C => only1 _ _ _ _ (C28.C28_pown_dec T F p C)). Qed.
Theorem C17_fma_mixed_produces : forall T F G H : fmt, comparable T F -> comparable T G -> comparable F G -> comparable T H -> comparable F H -> comparable G H ->
  no_nai3 (fun (x : ditv F) (y : ditv G) (w : ditv H) => fma_dec_mixed T x y w).
Proof. exact (fun T F G H C1 C2 C3 C4 C5 C6 => only3 _ _ _ (C28.C28_fma_dec T F G H C1 C2 C3 C4 C5 C6)). Qed.
Theorem C17_tan_mixed_produces : forall T F : fmt, comparable T F -> no_nai1 (fun x : ditv F => tan_dec_mixed T x).
Proof. exact (tan_mixed_no_nai). Qed.
Print Assumptions C17_fma_mixed_produces.
Print Assumptions C17_tan_mixed_produces.

(** Mixed-type reverse operations without [x]. *)
Theorem C17_sqr_rev1_dec_mixed : forall (T F : fmt), on_nai1 (fun (c : ditv F) => sqr_rev1_dec_mixed T c) (empty_rep, ill).
Proof. exact nai_sqr_rev1_dec_mixed. Qed.
Theorem C17_abs_rev1_dec_mixed : forall (T F : fmt), on_nai1 (fun (c : ditv F) => abs_rev1_dec_mixed T c) (empty_rep, ill).
Proof. exact nai_abs_rev1_dec_mixed. Qed.
Theorem C17_cosh_rev1_dec_mixed : forall (T F : fmt), on_nai1 (fun (c : ditv F) => cosh_rev1_dec_mixed T c) (empty_rep, ill).
Proof. exact nai_cosh_rev1_dec_mixed. Qed.
Theorem C17_sin_rev1_dec_mixed : forall (T F : fmt), on_nai1 (fun (c : ditv F) => sin_rev1_dec_mixed T c) (empty_rep, ill).
Proof. exact nai_sin_rev1_dec_mixed. Qed.
Theorem C17_cos_rev1_dec_mixed : forall (T F : fmt), on_nai1 (fun (c : ditv F) => cos_rev1_dec_mixed T c) (empty_rep, ill).
Proof. exact nai_cos_rev1_dec_mixed. Qed.
Theorem C17_tan_rev1_dec_mixed : forall (T F : fmt), on_nai1 (fun (c : ditv F) => tan_rev1_dec_mixed T c) (empty_rep, ill).
Proof. exact nai_tan_rev1_dec_mixed. Qed.
Theorem C17_pown_rev1_dec_mixed : forall (T F : fmt) (fuel : nat) (p : Z), on_nai1 (fun (c : ditv F) => pown_rev1_dec_mixed T fuel c p) (empty_rep, ill).
Proof. exact nai_pown_rev1_dec_mixed. Qed.
Theorem C17_mul_rev2_dec_mixed : forall (T F G : fmt), on_nai2 (fun (b : ditv F) (c : ditv G) => mul_rev2_dec_mixed T b c) (empty_rep, ill).
Proof. exact nai_mul_rev2_dec_mixed. Qed.
Print Assumptions C17_mul_rev2_dec_mixed.

(** ** Examples: NaI + [1,2]_com = NaI, [1,2]_com + [1,2]_com is not; mid(NaI) is NaN, NaI = NaI is false. *)
Notation b64 := (fl binary64).
Example C17_ex :
  rund (add_dec (empty_rep, ill) ((b64 1 0, b64 2 0), com)) = rund (ret (@empty_rep binary64, ill))
  /\ rund (add_dec ((b64 1 0, b64 2 0), com) ((b64 1 0, b64 2 0), com)) = okd (b64 2 0) (b64 4 0) com
  /\ rund (sqrt_dec ((b64 (-4) 0, b64 (-1) 0), com)) = rund (ret (@empty_rep binary64, trv))
  /\ fst (rel_dec equal_mixed (@empty_rep binary64, ill) (@empty_rep binary64, ill) (Est 0 0)) = Ret false
  /\ fst (rel_dec equal_mixed (@empty_rep binary64, trv) (@empty_rep binary64, trv) (Est 0 0)) = Ret true.
Proof. repeat split; vm_compute; reflexivity. Qed.
(** The hypotheses are met: NaI and [1,2]_com are valid, the latter is proper. *)
Example C17_hyp : wf_dec (@empty_rep binary64, ill) /\ proper ((b64 1 0, b64 2 0), com).
Proof.
split; [left; split; [easy|now left]|]. split; [|split; [unfold is_deco; simpl; tauto|easy]].
right. split; [|split; [easy|intros _; split; vm_compute; reflexivity]].
exists 1. split; cbn [fst snd]; [rewrite lb_fin by (vm_compute; reflexivity)|rewrite ub_fin by (vm_compute; reflexivity)]; unfold fl; b2r; lra.
Qed.
