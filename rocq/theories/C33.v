(** * C33: forward operations are isotonic *)
From Coq Require Import ZArith NArith Reals Bool List Lra.
From Flocq Require Import Core.Core IEEE754.BinarySingleNaN.
From Verif Require Import Fmt Spec FloatFacts Exc Deco SpecApi SpecElem SpecAtan2 SpecDeco SpecMixed SpecTan SpecTan2 MBase PBase MBool MArith PArith PMul PDiv
  PFma PUnary PConv PSetop MElem PElem PElem2 MPow PPown PPow MTrig PTan PTrigT PTanF MAtan2 PAtan2 MDec PDecF PDecT MMixed PMixed PTanOff PTan64 PTanIff Ex.
From Verif Require Import SpecIso PIso PTanF PIsoMixed.
From Verif Require C16 C28.
Import ListNotations.
Local Open Scope R_scope.

(** ** Bare operations of one type *)
Theorem C33_neg : forall F : fmt, isotonic1 (@neg F).
Proof. exact (fun F => iso1 _ _ _ (fun x W => neg_tightest x W)). Qed.
Theorem C33_pos : forall F : fmt, isotonic1 (@pos F).
Proof. exact (fun F => iso1 _ _ _ (fun x W => pos_tightest x W)). Qed.
Theorem C33_recip : forall F : fmt, isotonic1 (@recip F).
Proof. exact (fun F => iso1 _ _ _ (fun x W => recip_tightest x W)). Qed.
Theorem C33_sqr : forall F : fmt, isotonic1 (@sqr F).
Proof. exact (fun F => iso1 _ _ _ (fun x W => sqr_tightest x W)). Qed.
Theorem C33_sqrt : forall F : fmt, isotonic1 (@sqrt F).
Proof. exact (fun F => iso1 _ _ _ (fun x W => sqrt_tightest x W)). Qed.
Theorem C33_abs : forall F : fmt, isotonic1 (@abs F).
Proof. exact (fun F => iso1 _ _ _ (fun x W => abs_tightest x W)). Qed.
Theorem C33_exp : forall F : fmt, isotonic1 (@exp_itv F).
Proof. exact (fun F => iso1 _ _ _ (fun x W => exp_tightest x W)). Qed.
Theorem C33_exp2 : forall F : fmt, isotonic1 (@exp2_itv F).
Proof. exact (fun F => iso1 _ _ _ (fun x W => exp2_tightest x W)). Qed.
Theorem C33_exp10 : forall F : fmt, isotonic1 (@exp10_itv F).
Proof. exact (fun F => iso1 _ _ _ (fun x W => exp10_tightest x W)). Qed.
Theorem C33_log : forall F : fmt, isotonic1 (@log_itv F).
Proof. exact (fun F => iso1 _ _ _ (fun x W => log_tightest x W)). Qed.
Theorem C33_log2 : forall F : fmt, isotonic1 (@log2_itv F).
Proof. exact (fun F => iso1 _ _ _ (fun x W => log2_tightest x W)). Qed.
Theorem C33_log10 : forall F : fmt, isotonic1 (@log10_itv F).
Proof. exact (fun F => iso1 _ _ _ (fun x W => log10_tightest x W)). Qed.
Theorem C33_sin : forall F : fmt, isotonic1 (@sin_itv F).
Proof. exact (fun F => iso1 _ _ _ (fun x W => sin_tightest x W)). Qed.
Theorem C33_cos : forall F : fmt, isotonic1 (@cos_itv F).
Proof. exact (fun F => iso1 _ _ _ (fun x W => cos_tightest x W)). Qed.
Theorem C33_asin : forall F : fmt, isotonic1 (@asin_itv F).
Proof. exact (fun F => iso1 _ _ _ (fun x W => asin_tightest x W)). Qed.
Theorem C33_acos : forall F : fmt, isotonic1 (@acos_itv F).
Proof. exact (fun F => iso1 _ _ _ (fun x W => acos_tightest x W)). Qed.
Theorem C33_atan : forall F : fmt, isotonic1 (@atan_itv F).
Proof. exact (fun F => iso1 _ _ _ (fun x W => atan_tightest x W)). Qed.
Theorem C33_sinh : forall F : fmt, isotonic1 (@sinh_itv F).
Proof. exact (fun F => iso1 _ _ _ (fun x W => sinh_tightest x W)). Qed.
Theorem C33_cosh : forall F : fmt, isotonic1 (@cosh_itv F).
Proof. exact (fun F => iso1 _ _ _ (fun x W => cosh_tightest x W)). Qed.
Theorem C33_tanh : forall F : fmt, isotonic1 (@tanh_itv F).
Proof. exact (fun F => iso1 _ _ _ (fun x W => tanh_tightest x W)). Qed.
Theorem C33_asinh : forall F : fmt, isotonic1 (@asinh_itv F).
Proof. exact (fun F => iso1 _ _ _ (fun x W => asinh_tightest x W)). Qed.
Theorem C33_acosh : forall F : fmt, isotonic1 (@acosh_itv F).
Proof. exact (fun F => iso1 _ _ _ (fun x W => acosh_tightest x W)). Qed.
Theorem C33_atanh : forall F : fmt, isotonic1 (@atanh_itv F).
Proof. exact (fun F => iso1 _ _ _ (fun x W => atanh_tightest x W)). Qed.
Theorem C33_sign : forall F : fmt, isotonic1 (@sign_itv F).
Proof. exact (fun F => iso1 _ _ _ (fun x W => sign_tightest x W)). Qed.
Theorem C33_ceil : forall F : fmt, isotonic1 (@ceil_itv F).
Proof. exact (fun F => iso1 _ _ _ (fun x W => ceil_tightest x W)). Qed.
Theorem C33_floor : forall F : fmt, isotonic1 (@floor_itv F).
Proof. exact (fun F => iso1 _ _ _ (fun x W => floor_tightest x W)). Qed.
Theorem C33_trunc : forall F : fmt, isotonic1 (@trunc_itv F).
Proof. exact (fun F => iso1 _ _ _ (fun x W => trunc_tightest x W)). Qed.
Theorem C33_rte : forall F : fmt, isotonic1 (@round_ties_to_even_itv F).
Proof. exact (fun F => iso1 _ _ _ (fun x W => rte_tightest x W)). Qed.
Theorem C33_rta : forall F : fmt, isotonic1 (@round_ties_to_away_itv F).
Proof. exact (fun F => iso1 _ _ _ (fun x W => rta_tightest x W)). Qed.
Theorem C33_add : forall F : fmt, isotonic2 (@add F).
Proof. exact (fun F => iso2 _ _ _ (fun x y W V => add_tightest x y W V)). Qed.
Theorem C33_sub : forall F : fmt, isotonic2 (@sub F).
Proof. exact (fun F => iso2 _ _ _ (fun x y W V => sub_tightest x y W V)). Qed.
Theorem C33_mul : forall F : fmt, isotonic2 (@mul F).
Proof. exact (fun F => iso2 _ _ _ (fun x y W V => mul_tightest x y W V)). Qed.
Theorem C33_div : forall F : fmt, isotonic2 (@div F).
Proof. exact (fun F => iso2 _ _ _ (fun x y W V => div_tightest x y W V)). Qed.
Theorem C33_min : forall F : fmt, isotonic2 (@min F).
Proof. exact (fun F => iso2 _ _ _ (fun x y W V => min_tightest x y W V)). Qed.
Theorem C33_max : forall F : fmt, isotonic2 (@max F).
Proof. exact (fun F => iso2 _ _ _ (fun x y W V => max_tightest x y W V)). Qed.
Theorem C33_pow : forall F : fmt, isotonic2 (@pow F).
Proof. exact (fun F => iso2 _ _ _ (fun x y W V => pow_tightest x y W V)). Qed.
Theorem C33_atan2 : forall F : fmt, isotonic2 (@atan2_itv F).
Proof. exact (fun F => iso2 _ _ _ (fun x y W V => atan2_tightest x y W V)). Qed.
Theorem C33_pown : forall (F : fmt) (p : Z), isotonic1 (fun x : itv F => pown x p).
Proof. exact (fun F p => iso1 _ _ _ (fun x W => pown_tightest x p W)). Qed.
Theorem C33_fma : forall F : fmt, isotonic3 (@fma F).
Proof. exact (fun F => iso3 _ _ (fun x y w W V U => fma_tightest x y w W V U)). Qed.
Print Assumptions C33_fma.

(** The tangent: formats in which numbers keep away from pi. *)
Theorem C33_tan_binary32 : isotonic1 (@tan_itv binary32).
Proof. exact (tan_isotonic far32). Qed.
Theorem C33_tan_binary80 : isotonic1 (@tan_itv binary80).
Proof. exact (tan_isotonic far80). Qed.
Theorem C33_tan_partial : forall F : fmt, (prec F + 3 <= emax F)%Z ->
  (forall p : float F, is_finite p = true -> B2R p <= PI ->
    B2R p + (bpow radix2 (1 - prec F) + bpow radix2 (1 - prec F) * bpow radix2 (1 - prec F)) <= PI) ->
  isotonic1 (@tan_itv F).
Proof. exact (fun F H K => tan_isotonic (conj H K)). Qed.
Print Assumptions C33_tan_partial.
(** In binary64 it is not isotonic. *)
Theorem C33_tan_binary64_refuted : exists (x x' z z' : itv binary64) r, wf x /\ wf x' /\ included x x' /\
  returns (tan_itv x) z /\ returns (tan_itv x') z' /\ mem r z /\ ~ mem r z'.
Proof. exact tan64_not_isotonic. Qed.
Print Assumptions C33_tan_binary64_refuted.

(** ** Decorated operations of one type *)
Theorem C33_neg_dec : forall F : fmt, isotonic_dec1 (@neg_dec F).
Proof. exact (fun F => iso_dec1 _ _ _ _ (C16.C16_neg F) (C33_neg F)). Qed.
Theorem C33_pos_dec : forall F : fmt, isotonic_dec1 (@pos_dec F).
Proof. exact (fun F => iso_dec1 _ _ _ _ (C16.C16_pos F) (C33_pos F)). Qed.
Theorem C33_recip_dec : forall F : fmt, isotonic_dec1 (@recip_dec F).
Proof. exact (fun F => iso_dec1 _ _ _ _ (C16.C16_recip F) (C33_recip F)). Qed.
Theorem C33_sqr_dec : forall F : fmt, isotonic_dec1 (@sqr_dec F).
Proof. exact (fun F => iso_dec1 _ _ _ _ (C16.C16_sqr F) (C33_sqr F)). Qed.
Theorem C33_sqrt_dec : forall F : fmt, isotonic_dec1 (@sqrt_dec F).
Proof. exact (fun F => iso_dec1 _ _ _ _ (C16.C16_sqrt F) (C33_sqrt F)). Qed.
Theorem C33_abs_dec : forall F : fmt, isotonic_dec1 (@abs_dec F).
Proof. exact (fun F => iso_dec1 _ _ _ _ (C16.C16_abs F) (C33_abs F)). Qed.
Theorem C33_exp_dec : forall F : fmt, isotonic_dec1 (@exp_dec F).
Proof. exact (fun F => iso_dec1 _ _ _ _ (C16.C16_exp F) (C33_exp F)). Qed.
Theorem C33_exp2_dec : forall F : fmt, isotonic_dec1 (@exp2_dec F).
Proof. exact (fun F => iso_dec1 _ _ _ _ (C16.C16_exp2 F) (C33_exp2 F)). Qed.
Theorem C33_exp10_dec : forall F : fmt, isotonic_dec1 (@exp10_dec F).
Proof. exact (fun F => iso_dec1 _ _ _ _ (C16.C16_exp10 F) (C33_exp10 F)). Qed.
Theorem C33_log_dec : forall F : fmt, isotonic_dec1 (@log_dec F).
Proof. exact (fun F => iso_dec1 _ _ _ _ (C16.C16_log F) (C33_log F)). Qed.
Theorem C33_log2_dec : forall F : fmt, isotonic_dec1 (@log2_dec F).
Proof. exact (fun F => iso_dec1 _ _ _ _ (C16.C16_log2 F) (C33_log2 F)). Qed.
Theorem C33_log10_dec : forall F : fmt, isotonic_dec1 (@log10_dec F).
Proof. exact (fun F => iso_dec1 _ _ _ _ (C16.C16_log10 F) (C33_log10 F)). Qed.
Theorem C33_sin_dec : forall F : fmt, isotonic_dec1 (@sin_dec F).
Proof. exact (fun F => iso_dec1 _ _ _ _ (C16.C16_sin F) (C33_sin F)). Qed.
Theorem C33_cos_dec : forall F : fmt, isotonic_dec1 (@cos_dec F).
Proof. exact (fun F => iso_dec1 _ _ _ _ (C16.C16_cos F) (C33_cos F)). Qed.
Theorem C33_asin_dec : forall F : fmt, isotonic_dec1 (@asin_dec F).
Proof. exact (fun F => iso_dec1 _ _ _ _ (C16.C16_asin F) (C33_asin F)). Qed.
Theorem C33_acos_dec : forall F : fmt, isotonic_dec1 (@acos_dec F).
Proof. exact (fun F => iso_dec1 _ _ _ _ (C16.C16_acos F) (C33_acos F)). Qed.
Theorem C33_atan_dec : forall F : fmt, isotonic_dec1 (@atan_dec F).
Proof. exact (fun F => iso_dec1 _ _ _ _ (C16.C16_atan F) (C33_atan F)). Qed.
Theorem C33_sinh_dec : forall F : fmt, isotonic_dec1 (@sinh_dec F).
Proof. exact (fun F => iso_dec1 _ _ _ _ (C16.C16_sinh F) (C33_sinh F)). Qed.
Theorem C33_cosh_dec : forall F : fmt, isotonic_dec1 (@cosh_dec F).
Proof. exact (fun F => iso_dec1 _ _ _ _ (C16.C16_cosh F) (C33_cosh F)). Qed.
Theorem C33_tanh_dec : forall F : fmt, isotonic_dec1 (@tanh_dec F).
Proof. exact (fun F => iso_dec1 _ _ _ _ (C16.C16_tanh F) (C33_tanh F)). Qed.
Theorem C33_asinh_dec : forall F : fmt, isotonic_dec1 (@asinh_dec F).
Proof. exact (fun F => iso_dec1 _ _ _ _ (C16.C16_asinh F) (C33_asinh F)). Qed.
Theorem C33_acosh_dec : forall F : fmt, isotonic_dec1 (@acosh_dec F).
Proof. exact (fun F => iso_dec1 _ _ _ _ (C16.C16_acosh F) (C33_acosh F)). Qed.
Theorem C33_atanh_dec : forall F : fmt, isotonic_dec1 (@atanh_dec F).
Proof. exact (fun F => iso_dec1 _ _ _ _ (C16.C16_atanh F) (C33_atanh F)). Qed.
Theorem C33_sign_dec : forall F : fmt, isotonic_dec1 (@sign_dec F).
Proof. exact (fun F => iso_dec1 _ _ _ _ (C16.C16_sign F) (C33_sign F)). Qed.
Theorem C33_ceil_dec : forall F : fmt, isotonic_dec1 (@ceil_dec F).
Proof. exact (fun F => iso_dec1 _ _ _ _ (C16.C16_ceil F) (C33_ceil F)). Qed.
Theorem C33_floor_dec : forall F : fmt, isotonic_dec1 (@floor_dec F).
Proof. exact (fun F => iso_dec1 _ _ _ _ (C16.C16_floor F) (C33_floor F)). Qed.
Theorem C33_trunc_dec : forall F : fmt, isotonic_dec1 (@trunc_dec F).
Proof. exact (fun F => iso_dec1 _ _ _ _ (C16.C16_trunc F) (C33_trunc F)). Qed.
Theorem C33_rte_dec : forall F : fmt, isotonic_dec1 (@round_ties_to_even_dec F).
Proof. exact (fun F => iso_dec1 _ _ _ _ (C16.C16_rte F) (C33_rte F)). Qed.
Theorem C33_rta_dec : forall F : fmt, isotonic_dec1 (@round_ties_to_away_dec F).
Proof. exact (fun F => iso_dec1 _ _ _ _ (C16.C16_rta F) (C33_rta F)). Qed.
Theorem C33_add_dec : forall F : fmt, isotonic_dec2 (@add_dec F).
Proof. exact (fun F => iso_dec2 _ _ _ _ (C16.C16_add F) (C33_add F)). Qed.
Theorem C33_sub_dec : forall F : fmt, isotonic_dec2 (@sub_dec F).
Proof. exact (fun F => iso_dec2 _ _ _ _ (C16.C16_sub F) (C33_sub F)). Qed.
Theorem C33_mul_dec : forall F : fmt, isotonic_dec2 (@mul_dec F).
Proof. exact (fun F => iso_dec2 _ _ _ _ (C16.C16_mul F) (C33_mul F)). Qed.
Theorem C33_div_dec : forall F : fmt, isotonic_dec2 (@div_dec F).
Proof. exact (fun F => iso_dec2 _ _ _ _ (C16.C16_div F) (C33_div F)). Qed.
Theorem C33_min_dec : forall F : fmt, isotonic_dec2 (@min_dec F).
Proof. exact (fun F => iso_dec2 _ _ _ _ (C16.C16_min F) (C33_min F)). Qed.
Theorem C33_max_dec : forall F : fmt, isotonic_dec2 (@max_dec F).
Proof. exact (fun F => iso_dec2 _ _ _ _ (C16.C16_max F) (C33_max F)). Qed.
Theorem C33_pow_dec : forall F : fmt, isotonic_dec2 (@pow_dec F).
Proof. exact (fun F => iso_dec2 _ _ _ _ (C16.C16_pow F) (C33_pow F)). Qed.
Theorem C33_atan2_dec : forall F : fmt, isotonic_dec2 (@atan2_dec F).
Proof. exact (fun F => iso_dec2 _ _ _ _ (C16.C16_atan2 F) (C33_atan2 F)). Qed.
Theorem C33_pown_dec : forall (F : fmt) (p : Z), isotonic_dec1 (fun x : ditv F => pown_dec x p).
Proof. exact (fun F p => iso_dec1 _ _ _ _ (C16.C16_pown F p) (C33_pown F p)). Qed.
Theorem C33_fma_dec : forall F : fmt, isotonic_dec3 (@fma_dec F).
Proof. exact (fun F => iso_dec3 _ _ _ (C16.C16_fma F) (C33_fma F)). Qed.
Theorem C33_tan_dec_binary32 : isotonic_dec1 (@tan_dec binary32).
Proof. exact (iso_dec1 _ _ _ _ C16.C16_tan_binary32 C33_tan_binary32). Qed.
Theorem C33_tan_dec_binary80 : isotonic_dec1 (@tan_dec binary80).
Proof. exact (iso_dec1 _ _ _ _ C16.C16_tan_binary80 C33_tan_binary80). Qed.
Print Assumptions C33_fma_dec.

(** ** Mixed-type operations *)
Theorem C33_neg_mixed : forall T F : fmt, isotonic1 (fun x : itv F => neg_mixed T x).
Proof. exact (fun T F => iso1 _ _ _ (fun x W => C28.C28_neg T F x W)). Qed.
Theorem C33_neg_dec_mixed : forall T F : fmt, isotonic_dec1 (fun x : ditv F => neg_dec_mixed T x).
Proof. exact (fun T F => iso_dec1 _ _ _ _ (C28.C28_neg_dec T F) (C33_neg_mixed T F)). Qed.
Theorem C33_pos_mixed : forall T F : fmt, isotonic1 (fun x : itv F => pos_mixed T x).
Proof. exact (fun T F => iso1 _ _ _ (fun x W => C28.C28_pos T F x W)). Qed.
Theorem C33_pos_dec_mixed : forall T F : fmt, isotonic_dec1 (fun x : ditv F => pos_dec_mixed T x).
Proof. exact (fun T F => iso_dec1 _ _ _ _ (C28.C28_pos_dec T F) (C33_pos_mixed T F)). Qed.
Theorem C33_recip_mixed : forall T F : fmt, comparable T F -> isotonic1 (fun x : itv F => recip_mixed T x).
Proof. exact (fun T F C => iso1 _ _ _ (fun x W => C28.C28_recip T F x C W)). Qed.
Theorem C33_recip_dec_mixed : forall T F : fmt, comparable T F -> isotonic_dec1 (fun x : ditv F => recip_dec_mixed T x).
Proof. exact (fun T F C => iso_dec1 _ _ _ _ (C28.C28_recip_dec T F C) (C33_recip_mixed T F C)). Qed.
Theorem C33_sqr_mixed : forall T F : fmt, comparable T F -> isotonic1 (fun x : itv F => sqr_mixed T x).
Proof. exact (fun T F C => iso1 _ _ _ (fun x W => C28.C28_sqr T F x C W)). Qed.
Theorem C33_sqr_dec_mixed : forall T F : fmt, comparable T F -> isotonic_dec1 (fun x : ditv F => sqr_dec_mixed T x).
Proof. exact (fun T F C => iso_dec1 _ _ _ _ (C28.C28_sqr_dec T F C) (C33_sqr_mixed T F C)). Qed.
Theorem C33_sqrt_mixed : forall T F : fmt, comparable T F -> isotonic1 (fun x : itv F => sqrt_mixed T x).
Proof. exact (fun T F C => iso1 _ _ _ (fun x W => C28.C28_sqrt T F x C W)). Qed.
Theorem C33_sqrt_dec_mixed : forall T F : fmt, comparable T F -> isotonic_dec1 (fun x : ditv F => sqrt_dec_mixed T x).
Proof. exact (fun T F C => iso_dec1 _ _ _ _ (C28.C28_sqrt_dec T F C) (C33_sqrt_mixed T F C)). Qed.
Theorem C33_abs_mixed : forall T F : fmt, comparable T F -> isotonic1 (fun x : itv F => abs_mixed T x).
Proof. exact (fun T F C => iso1 _ _ _ (fun x W => C28.C28_abs T F x C W)). Qed.
Theorem C33_abs_dec_mixed : forall T F : fmt, comparable T F -> isotonic_dec1 (fun x : ditv F => abs_dec_mixed T x).
Proof. exact (fun T F C => iso_dec1 _ _ _ _ (C28.C28_abs_dec T F C) (C33_abs_mixed T F C)). Qed.
Theorem C33_exp_mixed : forall T F : fmt, comparable T F -> isotonic1 (fun x : itv F => exp_mixed T x).
Proof. exact (fun T F C => iso1 _ _ _ (fun x W => C28.C28_exp T F x C W)). Qed.
Theorem C33_exp_dec_mixed : forall T F : fmt, comparable T F -> isotonic_dec1 (fun x : ditv F => exp_dec_mixed T x).
Proof. exact (fun T F C => iso_dec1 _ _ _ _ (C28.C28_exp_dec T F C) (C33_exp_mixed T F C)). Qed.
Theorem C33_exp2_mixed : forall T F : fmt, comparable T F -> isotonic1 (fun x : itv F => exp2_mixed T x).
Proof. exact (fun T F C => iso1 _ _ _ (fun x W => C28.C28_exp2 T F x C W)). Qed.
Theorem C33_exp2_dec_mixed : forall T F : fmt, comparable T F -> isotonic_dec1 (fun x : ditv F => exp2_dec_mixed T x).
Proof. exact (fun T F C => iso_dec1 _ _ _ _ (C28.C28_exp2_dec T F C) (C33_exp2_mixed T F C)). Qed.
Theorem C33_exp10_mixed : forall T F : fmt, comparable T F -> isotonic1 (fun x : itv F => exp10_mixed T x).
Proof. exact (fun T F C => iso1 _ _ _ (fun x W => C28.C28_exp10 T F x C W)). Qed.
Theorem C33_exp10_dec_mixed : forall T F : fmt, comparable T F -> isotonic_dec1 (fun x : ditv F => exp10_dec_mixed T x).
Proof. exact (fun T F C => iso_dec1 _ _ _ _ (C28.C28_exp10_dec T F C) (C33_exp10_mixed T F C)). Qed.
Theorem C33_log_mixed : forall T F : fmt, comparable T F -> isotonic1 (fun x : itv F => log_mixed T x).
Proof. exact (fun T F C => iso1 _ _ _ (fun x W => C28.C28_log T F x C W)). Qed.
Theorem C33_log_dec_mixed : forall T F : fmt, comparable T F -> isotonic_dec1 (fun x : ditv F => log_dec_mixed T x).
Proof. exact (fun T F C => iso_dec1 _ _ _ _ (C28.C28_log_dec T F C) (C33_log_mixed T F C)). Qed.
Theorem C33_log2_mixed : forall T F : fmt, comparable T F -> isotonic1 (fun x : itv F => log2_mixed T x).
Proof. exact (fun T F C => iso1 _ _ _ (fun x W => C28.C28_log2 T F x C W)). Qed.
Theorem C33_log2_dec_mixed : forall T F : fmt, comparable T F -> isotonic_dec1 (fun x : ditv F => log2_dec_mixed T x).
Proof. exact (fun T F C => iso_dec1 _ _ _ _ (C28.C28_log2_dec T F C) (C33_log2_mixed T F C)). Qed.
Theorem C33_log10_mixed : forall T F : fmt, comparable T F -> isotonic1 (fun x : itv F => log10_mixed T x).
Proof. exact (fun T F C => iso1 _ _ _ (fun x W => C28.C28_log10 T F x C W)). Qed.
Theorem C33_log10_dec_mixed : forall T F : fmt, comparable T F -> isotonic_dec1 (fun x : ditv F => log10_dec_mixed T x).
Proof. exact (fun T F C => iso_dec1 _ _ _ _ (C28.C28_log10_dec T F C) (C33_log10_mixed T F C)). Qed.
Theorem C33_sin_mixed : forall T F : fmt, comparable T F -> isotonic1 (fun x : itv F => sin_mixed T x).
Proof. exact (fun T F C => iso1 _ _ _ (fun x W => C28.C28_sin T F x C W)). Qed.
Theorem C33_sin_dec_mixed : forall T F : fmt, comparable T F -> isotonic_dec1 (fun x : ditv F => sin_dec_mixed T x).
Proof. exact (fun T F C => iso_dec1 _ _ _ _ (C28.C28_sin_dec T F C) (C33_sin_mixed T F C)). Qed.
Theorem C33_cos_mixed : forall T F : fmt, comparable T F -> isotonic1 (fun x : itv F => cos_mixed T x).
Proof. exact (fun T F C => iso1 _ _ _ (fun x W => C28.C28_cos T F x C W)). Qed.
Theorem C33_cos_dec_mixed : forall T F : fmt, comparable T F -> isotonic_dec1 (fun x : ditv F => cos_dec_mixed T x).
Proof. exact (fun T F C => iso_dec1 _ _ _ _ (C28.C28_cos_dec T F C) (C33_cos_mixed T F C)). Qed.
Theorem C33_asin_mixed : forall T F : fmt, comparable T F -> isotonic1 (fun x : itv F => asin_mixed T x).
Proof. exact (fun T F C => iso1 _ _ _ (fun x W => C28.C28_asin T F x C W)). Qed.
Theorem C33_asin_dec_mixed : forall T F : fmt, comparable T F -> isotonic_dec1 (fun x : ditv F => asin_dec_mixed T x).
Proof. exact (fun T F C => iso_dec1 _ _ _ _ (C28.C28_asin_dec T F C) (C33_asin_mixed T F C)). Qed.
Theorem C33_acos_mixed : forall T F : fmt, comparable T F -> isotonic1 (fun x : itv F => acos_mixed T x).
Proof. exact (fun T F C => iso1 _ _ _ (fun x W => C28.C28_acos T F x C W)). Qed.
Theorem C33_acos_dec_mixed : forall T F : fmt, comparable T F -> isotonic_dec1 (fun x : ditv F => acos_dec_mixed T x).
Proof. exact (fun T F C => iso_dec1 _ _ _ _ (C28.C28_acos_dec T F C) (C33_acos_mixed T F C)). Qed.
Theorem C33_atan_mixed : forall T F : fmt, comparable T F -> isotonic1 (fun x : itv F => atan_mixed T x).
Proof. exact (fun T F C => iso1 _ _ _ (fun x W => C28.C28_atan T F x C W)). Qed.
Theorem C33_atan_dec_mixed : forall T F : fmt, comparable T F -> isotonic_dec1 (fun x : ditv F => atan_dec_mixed T x).
Proof. exact (fun T F C => iso_dec1 _ _ _ _ (C28.C28_atan_dec T F C) (C33_atan_mixed T F C)). Qed.
Theorem C33_sinh_mixed : forall T F : fmt, comparable T F -> isotonic1 (fun x : itv F => sinh_mixed T x).
Proof. exact (fun T F C => iso1 _ _ _ (fun x W => C28.C28_sinh T F x C W)). Qed.
Theorem C33_sinh_dec_mixed : forall T F : fmt, comparable T F -> isotonic_dec1 (fun x : ditv F => sinh_dec_mixed T x).
Proof. exact (fun T F C => iso_dec1 _ _ _ _ (C28.C28_sinh_dec T F C) (C33_sinh_mixed T F C)). Qed.
Theorem C33_cosh_mixed : forall T F : fmt, comparable T F -> isotonic1 (fun x : itv F => cosh_mixed T x).
Proof. exact (fun T F C => iso1 _ _ _ (fun x W => C28.C28_cosh T F x C W)). Qed.
Theorem C33_cosh_dec_mixed : forall T F : fmt, comparable T F -> isotonic_dec1 (fun x : ditv F => cosh_dec_mixed T x).
Proof. exact (fun T F C => iso_dec1 _ _ _ _ (C28.C28_cosh_dec T F C) (C33_cosh_mixed T F C)). Qed.
Theorem C33_tanh_mixed : forall T F : fmt, comparable T F -> isotonic1 (fun x : itv F => tanh_mixed T x).
Proof. exact (fun T F C => iso1 _ _ _ (fun x W => C28.C28_tanh T F x C W)). Qed.
Theorem C33_tanh_dec_mixed : forall T F : fmt, comparable T F -> isotonic_dec1 (fun x : ditv F => tanh_dec_mixed T x).
Proof. exact (fun T F C => iso_dec1 _ _ _ _ (C28.C28_tanh_dec T F C) (C33_tanh_mixed T F C)). Qed.
Theorem C33_asinh_mixed : forall T F : fmt, comparable T F -> isotonic1 (fun x : itv F => asinh_mixed T x).
Proof. exact (fun T F C => iso1 _ _ _ (fun x W => C28.C28_asinh T F x C W)). Qed.
Theorem C33_asinh_dec_mixed : forall T F : fmt, comparable T F -> isotonic_dec1 (fun x : ditv F => asinh_dec_mixed T x).
Proof. exact (fun T F C => iso_dec1 _ _ _ _ (C28.C28_asinh_dec T F C) (C33_asinh_mixed T F C)). Qed.
Theorem C33_acosh_mixed : forall T F : fmt, comparable T F -> isotonic1 (fun x : itv F => acosh_mixed T x).
Proof. exact (fun T F C => iso1 _ _ _ (fun x W => C28.C28_acosh T F x C W)). Qed.
Theorem C33_acosh_dec_mixed : forall T F : fmt, comparable T F -> isotonic_dec1 (fun x : ditv F => acosh_dec_mixed T x).
Proof. exact (fun T F C => iso_dec1 _ _ _ _ (C28.C28_acosh_dec T F C) (C33_acosh_mixed T F C)). Qed.
Theorem C33_atanh_mixed : forall T F : fmt, comparable T F -> isotonic1 (fun x : itv F => atanh_mixed T x).
Proof. exact (fun T F C => iso1 _ _ _ (fun x W => C28.C28_atanh T F x C W)). Qed.
Theorem C33_atanh_dec_mixed : forall T F : fmt, comparable T F -> isotonic_dec1 (fun x : ditv F => atanh_dec_mixed T x).
Proof. exact (fun T F C => iso_dec1 _ _ _ _ (C28.C28_atanh_dec T F C) (C33_atanh_mixed T F C)). Qed.
Theorem C33_sign_mixed : forall T F : fmt, comparable T F -> isotonic1 (fun x : itv F => sign_mixed T x).
Proof. exact (fun T F C => iso1 _ _ _ (fun x W => C28.C28_sign T F x C W)). Qed.
Theorem C33_sign_dec_mixed : forall T F : fmt, comparable T F -> isotonic_dec1 (fun x : ditv F => sign_dec_mixed T x).
Proof. exact (fun T F C => iso_dec1 _ _ _ _ (C28.C28_sign_dec T F C) (C33_sign_mixed T F C)). Qed.
Theorem C33_ceil_mixed : forall T F : fmt, comparable T F -> isotonic1 (fun x : itv F => ceil_mixed T x).
Proof. exact (fun T F C => iso1 _ _ _ (fun x W => C28.C28_ceil T F x C W)). Qed.
Theorem C33_ceil_dec_mixed : forall T F : fmt, comparable T F -> isotonic_dec1 (fun x : ditv F => ceil_dec_mixed T x).
Proof. exact (fun T F C => iso_dec1 _ _ _ _ (C28.C28_ceil_dec T F C) (C33_ceil_mixed T F C)). Qed.
Theorem C33_floor_mixed : forall T F : fmt, comparable T F -> isotonic1 (fun x : itv F => floor_mixed T x).
Proof. exact (fun T F C => iso1 _ _ _ (fun x W => C28.C28_floor T F x C W)). Qed.
Theorem C33_floor_dec_mixed : forall T F : fmt, comparable T F -> isotonic_dec1 (fun x : ditv F => floor_dec_mixed T x).
Proof. exact (fun T F C => iso_dec1 _ _ _ _ (C28.C28_floor_dec T F C) (C33_floor_mixed T F C)). Qed.
Theorem C33_trunc_mixed : forall T F : fmt, comparable T F -> isotonic1 (fun x : itv F => trunc_mixed T x).
Proof. exact (fun T F C => iso1 _ _ _ (fun x W => C28.C28_trunc T F x C W)). Qed.
Theorem C33_trunc_dec_mixed : forall T F : fmt, comparable T F -> isotonic_dec1 (fun x : ditv F => trunc_dec_mixed T x).
Proof. exact (fun T F C => iso_dec1 _ _ _ _ (C28.C28_trunc_dec T F C) (C33_trunc_mixed T F C)). Qed.
Theorem C33_rte_mixed : forall T F : fmt, comparable T F -> isotonic1 (fun x : itv F => rte_mixed T x).
Proof. exact (fun T F C => iso1 _ _ _ (fun x W => C28.C28_rte T F x C W)). Qed.
Theorem C33_rte_dec_mixed : forall T F : fmt, comparable T F -> isotonic_dec1 (fun x : ditv F => rte_dec_mixed T x).
Proof. exact (fun T F C => iso_dec1 _ _ _ _ (C28.C28_rte_dec T F C) (C33_rte_mixed T F C)). Qed.
Theorem C33_rta_mixed : forall T F : fmt, comparable T F -> isotonic1 (fun x : itv F => rta_mixed T x).
Proof. exact (fun T F C => iso1 _ _ _ (fun x W => C28.C28_rta T F x C W)). Qed.
Theorem C33_rta_dec_mixed : forall T F : fmt, comparable T F -> isotonic_dec1 (fun x : ditv F => rta_dec_mixed T x).
Proof. exact (fun T F C => iso_dec1 _ _ _ _ (C28.C28_rta_dec T F C) (C33_rta_mixed T F C)). Qed.
Theorem C33_add_mixed : forall T F G : fmt, comparable T F -> comparable T G -> comparable F G ->
  isotonic2 (fun (x : itv F) (y : itv G) => add_mixed T x y).
Proof. exact (fun T F G A B C => iso2 _ _ _ (fun x y W V => C28.C28_add T F G x y A B C W V)). Qed.
Theorem C33_add_dec_mixed : forall T F G : fmt, comparable T F -> comparable T G -> comparable F G ->
  isotonic_dec2 (fun (x : ditv F) (y : ditv G) => add_dec_mixed T x y).
Proof. exact (fun T F G A B C => iso_dec2 _ _ _ _ (C28.C28_add_dec T F G A B C) (C33_add_mixed T F G A B C)). Qed.
Theorem C33_sub_mixed : forall T F G : fmt, comparable T F -> comparable T G -> comparable F G ->
  isotonic2 (fun (x : itv F) (y : itv G) => sub_mixed T x y).
Proof. exact (fun T F G A B C => iso2 _ _ _ (fun x y W V => C28.C28_sub T F G x y A B C W V)). Qed.
Theorem C33_sub_dec_mixed : forall T F G : fmt, comparable T F -> comparable T G -> comparable F G ->
  isotonic_dec2 (fun (x : ditv F) (y : ditv G) => sub_dec_mixed T x y).
Proof. exact (fun T F G A B C => iso_dec2 _ _ _ _ (C28.C28_sub_dec T F G A B C) (C33_sub_mixed T F G A B C)). Qed.
Theorem C33_mul_mixed : forall T F G : fmt, comparable T F -> comparable T G -> comparable F G ->
  isotonic2 (fun (x : itv F) (y : itv G) => mul_mixed T x y).
Proof. exact (fun T F G A B C => iso2 _ _ _ (fun x y W V => C28.C28_mul T F G x y A B C W V)). Qed.
Theorem C33_mul_dec_mixed : forall T F G : fmt, comparable T F -> comparable T G -> comparable F G ->
  isotonic_dec2 (fun (x : ditv F) (y : ditv G) => mul_dec_mixed T x y).
Proof. exact (fun T F G A B C => iso_dec2 _ _ _ _ (C28.C28_mul_dec T F G A B C) (C33_mul_mixed T F G A B C)). Qed.
Theorem C33_div_mixed : forall T F G : fmt, comparable T F -> comparable T G -> comparable F G ->
  isotonic2 (fun (x : itv F) (y : itv G) => div_mixed T x y).
Proof. exact (fun T F G A B C => iso2 _ _ _ (fun x y W V => C28.C28_div T F G x y A B C W V)). Qed.
Theorem C33_div_dec_mixed : forall T F G : fmt, comparable T F -> comparable T G -> comparable F G ->
  isotonic_dec2 (fun (x : ditv F) (y : ditv G) => div_dec_mixed T x y).
Proof. exact (fun T F G A B C => iso_dec2 _ _ _ _ (C28.C28_div_dec T F G A B C) (C33_div_mixed T F G A B C)). Qed.
Theorem C33_min_mixed : forall T F G : fmt, comparable T F -> comparable T G -> comparable F G ->
  isotonic2 (fun (x : itv F) (y : itv G) => min_mixed T x y).
Proof. exact (fun T F G A B C => iso2 _ _ _ (fun x y W V => C28.C28_min T F G x y A B C W V)). Qed.
Theorem C33_min_dec_mixed : forall T F G : fmt, comparable T F -> comparable T G -> comparable F G ->
  isotonic_dec2 (fun (x : ditv F) (y : ditv G) => min_dec_mixed T x y).
Proof. exact (fun T F G A B C => iso_dec2 _ _ _ _ (C28.C28_min_dec T F G A B C) (C33_min_mixed T F G A B C)). Qed.
Theorem C33_max_mixed : forall T F G : fmt, comparable T F -> comparable T G -> comparable F G ->
  isotonic2 (fun (x : itv F) (y : itv G) => max_mixed T x y).
Proof. exact (fun T F G A B C => iso2 _ _ _ (fun x y W V => C28.C28_max T F G x y A B C W V)). Qed.
Theorem C33_max_dec_mixed : forall T F G : fmt, comparable T F -> comparable T G -> comparable F G ->
  isotonic_dec2 (fun (x : ditv F) (y : ditv G) => max_dec_mixed T x y).
Proof. exact (fun T F G A B C => iso_dec2 _ _ _ _ (C28.C28_max_dec T F G A B C) (C33_max_mixed T F G A B C)). Qed.
Theorem C33_pow_mixed : forall T F G : fmt, comparable T F -> comparable T G -> comparable F G ->
  isotonic2 (fun (x : itv F) (y : itv G) => pow_mixed T x y).
Proof. exact (fun T F G A B C => iso2 _ _ _ (fun x y W V => C28.C28_pow T F G x y A B C W V)). Qed.
Theorem C33_pow_dec_mixed : forall T F G : fmt, comparable T F -> comparable T G -> comparable F G ->
  isotonic_dec2 (fun (x : ditv F) (y : ditv G) => pow_dec_mixed T x y).
Proof. exact (fun T F G A B C => iso_dec2 _ _ _ _ (C28.C28_pow_dec T F G A B C) (C33_pow_mixed T F G A B C)). Qed.
Theorem C33_atan2_mixed : forall T F G : fmt, comparable T F -> comparable T G -> comparable F G ->
  isotonic2 (fun (x : itv F) (y : itv G) => atan2_mixed T x y).
Proof. exact (fun T F G A B C => iso2 _ _ _ (fun x y W V => C28.C28_atan2 T F G x y A B C W V)). Qed.
Theorem C33_atan2_dec_mixed : forall T F G : fmt, comparable T F -> comparable T G -> comparable F G ->
  isotonic_dec2 (fun (x : ditv F) (y : ditv G) => atan2_dec_mixed T x y).
Proof. exact (fun T F G A B C => iso_dec2 _ _ _ _ (C28.C28_atan2_dec T F G A B C) (C33_atan2_mixed T F G A B C)). Qed.
Theorem C33_pown_mixed : forall (T F : fmt) (p : Z), comparable T F -> isotonic1 (fun x : itv F => pown_mixed T x p).
Proof. exact (fun T F p C => iso1 _ _ _ (fun x W => C28.C28_pown T F x p C W)). Qed.
Theorem C33_pown_dec_mixed : forall (T F : fmt) (p : Z), comparable T F -> isotonic_dec1 (fun x : ditv F => pown_dec_mixed T x p).
Proof. exact (fun T F p C => iso_dec1 _ _ _ _ (C28.C28_pown_dec T F p C) (C33_pown_mixed T F p C)). Qed.
Theorem C33_fma_mixed : forall T F G H : fmt, comparable T F -> comparable T G -> comparable F G -> comparable T H -> comparable F H -> comparable G H ->
  isotonic3 (fun (x : itv F) (y : itv G) (w : itv H) => fma_mixed T x y w).
Proof. exact (fun T F G H C1 C2 C3 C4 C5 C6 => iso3 _ _ (fun x y w W V U => C28.C28_fma T F G H x y w C1 C2 C3 C4 C5 C6 W V U)). Qed.
Theorem C33_fma_dec_mixed : forall T F G H : fmt, comparable T F -> comparable T G -> comparable F G -> comparable T H -> comparable F H -> comparable G H ->
  isotonic_dec3 (fun (x : ditv F) (y : ditv G) (w : ditv H) => fma_dec_mixed T x y w).
Proof. exact (fun T F G H C1 C2 C3 C4 C5 C6 => iso_dec3 _ _ _ (C28.C28_fma_dec T F G H C1 C2 C3 C4 C5 C6) (C33_fma_mixed T F G H C1 C2 C3 C4 C5 C6)). Qed.
Print Assumptions C33_fma_dec_mixed.

(** Mixed-type tangent, with the condition of [C33_tan_partial] on the widest type.  Missing:
    binary64 as the widest type, see above. *)
Theorem C33_tan_mixed_partial : forall T F : fmt, pi_far (pmax T F) -> isotonic1 (fun x : itv F => tan_mixed T x).
Proof. exact tan_mixed_iso. Qed.
Theorem C33_tan_dec_mixed_partial : forall T F : fmt, comparable T F -> pi_far (pmax T F) -> isotonic_dec1 (fun x : ditv F => tan_dec_mixed T x).
Proof. exact (fun T F C P => iso_dec1 _ _ _ _ (C28.C28_tan_dec_partial T F C P) (C33_tan_mixed_partial T F P)). Qed.
(** With binary80 as the result type or the operand type. *)
Theorem C33_tan_mixed_binary80 : forall F : fmt, In F (binary32 :: binary64 :: binary80 :: nil) ->
  isotonic1 (fun x : itv F => tan_mixed binary80 x) /\ isotonic1 (fun x : itv binary80 => tan_mixed F x) /\
  isotonic_dec1 (fun x : ditv F => tan_dec_mixed binary80 x) /\ isotonic_dec1 (fun x : ditv binary80 => tan_dec_mixed F x).
Proof.
exact (fun F H => conj (C33_tan_mixed_partial binary80 F (far_pmax1 F H))
  (conj (C33_tan_mixed_partial F binary80 (far_pmax2 F H))
  (conj (C33_tan_dec_mixed_partial binary80 F (c80 F H) (far_pmax1 F H)) (C33_tan_dec_mixed_partial F binary80 (c80' F H) (far_pmax2 F H))))).
Qed.
Print Assumptions C33_tan_mixed_binary80.
(** In any format, if the width of the larger argument is not about pi. *)
Theorem C33_tan_off_pi_partial : forall (F : fmt) (x x' : itv F), (prec F + 3 <= emax F)%Z ->
  wf x -> wf x' -> off_pi F x' -> included x x' ->
  exists z z', returns (tan_itv x) z /\ returns (tan_itv x') z' /\ included z z'.
Proof. exact @tan_off_iso. Qed.
Print Assumptions C33_tan_off_pi_partial.
Theorem C33_tan_dec_off_pi_partial : forall (F : fmt) (x x' : ditv F), (prec F + 3 <= emax F)%Z ->
  proper x -> proper x' -> off_pi F (fst x') -> included (fst x) (fst x') ->
  exists z z', returns (tan_dec x) z /\ returns (tan_dec x') z' /\ included (fst z) (fst z').
Proof. exact @tan_dec_off_iso. Qed.
Theorem C33_tan_mixed_off_pi_partial : forall (T F : fmt) (x x' : itv F), comparable T F -> (prec (pmax T F) + 3 <= emax (pmax T F))%Z ->
  wf x -> wf x' -> off_pi (pmax T F) x' -> included x x' ->
  exists z z', returns (tan_mixed T x) z /\ returns (tan_mixed T x') z' /\ included z z'.
Proof. exact @tan_mixed_off_iso. Qed.
Print Assumptions C33_tan_mixed_off_pi_partial.
(** binary64: every width of the larger argument but that of the number below pi. *)
Theorem C33_tan_binary64_partial : forall x x' : itv binary64, wf x -> wf x' -> width_not_pi64 x' -> included x x' ->
  exists z z', returns (tan_itv x) z /\ returns (tan_itv x') z' /\ included z z'.
Proof. exact tan_iso64. Qed.
Print Assumptions C33_tan_binary64_partial.
Theorem C33_tan_dec_binary64_partial : forall x x' : ditv binary64, proper x -> proper x' -> width_not_pi64 (fst x') -> included (fst x) (fst x') ->
  exists z z', returns (tan_dec x) z /\ returns (tan_dec x') z' /\ included (fst z) (fst z').
Proof. exact tan_dec_iso64. Qed.
Theorem C33_tan_mixed_binary64_partial : forall (T F : fmt) (x x' : itv F), comparable T F -> pmax T F = binary64 ->
  wf x -> wf x' -> width_not_pi64 x' -> included x x' ->
  exists z z', returns (tan_mixed T x) z /\ returns (tan_mixed T x') z' /\ included z z'.
Proof. exact tan_mixed_iso64. Qed.
Theorem C33_tan_dec_mixed_binary64_partial : forall (T F : fmt) (x x' : ditv F), comparable T F -> pmax T F = binary64 ->
  proper x -> proper x' -> width_not_pi64 (fst x') -> included (fst x) (fst x') ->
  exists z z', returns (tan_dec_mixed T x) z /\ returns (tan_dec_mixed T x') z' /\ included (fst z) (fst z').
Proof. exact tan_dec_mixed_iso64. Qed.
Print Assumptions C33_tan_dec_mixed_binary64_partial.
(** In every format and pair of formats, if the larger argument has no hidden pole (see C12). *)
Theorem C33_tan_not_hidden_partial : forall (F : fmt) (x x' : itv F), wf x -> wf x' -> ~ pole_hidden F x' -> included x x' ->
  exists z z', returns (tan_itv x) z /\ returns (tan_itv x') z' /\ included z z'.
Proof. exact @tan_iso_unhidden. Qed.
Theorem C33_tan_dec_not_hidden_partial : forall (F : fmt) (x x' : ditv F), proper x -> proper x' -> ~ pole_hidden F (fst x') ->
  included (fst x) (fst x') ->
  exists z z', returns (tan_dec x) z /\ returns (tan_dec x') z' /\ included (fst z) (fst z').
Proof. exact @tan_dec_iso_unhidden. Qed.
Theorem C33_tan_mixed_not_hidden_partial : forall (T F : fmt) (x x' : itv F), comparable T F -> wf x -> wf x' ->
  ~ pole_hidden (pmax T F) x' -> included x x' ->
  exists z z', returns (tan_mixed T x) z /\ returns (tan_mixed T x') z' /\ included z z'.
Proof. exact tan_mixed_iso_unhidden. Qed.
Theorem C33_tan_dec_mixed_not_hidden_partial : forall (T F : fmt) (x x' : ditv F), comparable T F -> proper x -> proper x' ->
  ~ pole_hidden (pmax T F) (fst x') -> included (fst x) (fst x') ->
  exists z z', returns (tan_dec_mixed T x) z /\ returns (tan_dec_mixed T x') z' /\ included (fst z) (fst z').
Proof. exact tan_dec_mixed_iso_unhidden. Qed.
Print Assumptions C33_tan_not_hidden_partial. Print Assumptions C33_tan_dec_mixed_not_hidden_partial.

(** ** Examples *)
Notation b n e := (fl binary64 n e).
(** [1,1]/[2,4] is inside [1,1]/[0,4] = [1/4,+oo], and [1,2]*[1,1] inside [1,2]*[-1,3]; with decorations too. *)
Example C33_ex :
  run (div (b 1 0, b 1 0) (b 2 0, b 4 0)) = okz (b 1 (-2)) (b 1 (-1))
  /\ run (div (b 1 0, b 1 0) (b 0 0, b 4 0)) = okz (b 1 (-2)) finf
  /\ run (mul (b 1 0, b 2 0) (b 1 0, b 1 0)) = okz (b 1 0) (b 2 0)
  /\ run (mul (b 1 0, b 2 0) (b (-1) 0, b 3 0)) = okz (b (-2) 0) (b 6 0)
  /\ rund (div_dec ((b 1 0, b 1 0), com) ((b 2 0, b 4 0), dac)) = okd (b 1 (-2)) (b 1 (-1)) dac
  /\ rund (div_dec ((b 1 0, b 1 0), com) ((b 0 0, b 4 0), com)) = okd (b 1 (-2)) finf trv
  /\ wf (b 2 0, b 4 0) /\ wf (b 0 0, b 4 0).
Proof. repeat (split; [first [wf_tac|vm_compute; reflexivity]|]). wf_tac. Qed.
Example C33_ex_hyps : included (b 2 0, b 4 0) (b 0 0, b 4 0) /\ proper ((b 2 0, b 4 0), dac).
Proof.
split.
- intros r [K1 K2]. cbn [fst snd] in *. rewrite lb_fin in K1 by reflexivity. rewrite ub_fin in K2 by reflexivity.
  assert (E1 : B2R (b 2 0) = 2) by b2r. assert (E2 : B2R (b 4 0) = 4) by b2r. assert (E3 : B2R (b 0 0) = 0) by reflexivity.
  split; cbn [fst snd]; [rewrite lb_fin by reflexivity|rewrite ub_fin by reflexivity]; rewrite ?E1, ?E2, ?E3 in *; lra.
- split; [wf_tac|]. split; [unfold is_deco; simpl; auto|easy].
Qed.
Example C33_ex_off : off_pi binary64 (b 1 0, b 2 0) /\ off_pi (pmax binary32 binary64) (b 1 0, b 2 0) /\ width_not_pi64 (b 1 0, b 2 0).
Proof.
assert (E1 : B2R (b 1 0) = 1) by b2r. assert (E2 : B2R (b 2 0) = 2) by b2r.
split; [apply off64; left|split; [apply off64; left|intros _]]; cbn [fst snd]; rewrite E1, E2; lra.
Qed.
