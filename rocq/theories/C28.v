(** * C28: mixed-type operations are as tight as the result type allows *)
From Coq Require Import ZArith NArith Reals Bool List Lra.
From Flocq Require Import Core.Core IEEE754.BinarySingleNaN.
From Verif Require Import Fmt Spec FloatFacts Exc Deco SpecApi SpecElem SpecAtan2 SpecDeco SpecMixed SpecTan SpecTan2 MBase PBase MBool MArith PArith PMul PDiv
  PFma PUnary PConv PSetop MElem PElem PElem2 MPow PPown PPow MTrig PTan PTrigT PTanF MAtan2 PAtan2 MDec PDecF PDecT MMixed PMixed PTanOff PTan64 PTanIff PTanW Ex.
Import ListNotations.
Local Open Scope R_scope.

(** The C++ types are pairwise comparable: one contains the other. *)
Theorem C28_formats : forall F G : fmt, In F [binary32; binary64; binary80] -> In G [binary32; binary64; binary80] ->
  comparable F G.
Proof. exact std_comparable. Qed.
Print Assumptions C28_formats.

(** ** Bare operations: tightest in the result type [T] *)
Theorem C28_pos : forall (T F : fmt) (x : itv F), wf x -> computes_tightest (pos_mixed T x) (image1 everywhere (fun r => r) x).
Proof. exact @pos_mixed_tightest. Qed.
Theorem C28_neg : forall (T F : fmt) (x : itv F), wf x -> computes_tightest (neg_mixed T x) (image1 everywhere Ropp x).
Proof. exact @neg_mixed_tightest. Qed.
Theorem C28_recip : forall (T F : fmt) (x : itv F), comparable T F -> wf x ->
  computes_tightest (recip_mixed T x) (image1 (fun r => r <> 0) Rinv x).
Proof. exact (fun T F x HC W => mixed1_image T (@recip) _ _ x HC W (@recip_tightest)). Qed.
Theorem C28_sqr : forall (T F : fmt) (x : itv F), comparable T F -> wf x ->
  computes_tightest (sqr_mixed T x) (image1 everywhere (fun r => r * r) x).
Proof. exact (fun T F x HC W => mixed1_image T (@sqr) _ _ x HC W (@sqr_tightest)). Qed.
Theorem C28_abs : forall (T F : fmt) (x : itv F), comparable T F -> wf x ->
  computes_tightest (abs_mixed T x) (image1 everywhere Rabs x).
Proof. exact (fun T F x HC W => mixed1_image T (@abs) _ _ x HC W (@abs_tightest)). Qed.
Theorem C28_sqrt : forall (T F : fmt) (x : itv F), comparable T F -> wf x ->
  computes_tightest (sqrt_mixed T x) (image1 (fun r => 0 <= r) R_sqrt.sqrt x).
Proof. exact (fun T F x HC W => mixed1_image T (@sqrt) _ _ x HC W (@sqrt_tightest)). Qed.
Theorem C28_exp : forall (T F : fmt) (x : itv F), comparable T F -> wf x ->
  computes_tightest (exp_mixed T x) (image1 everywhere exp x).
Proof. exact (fun T F x HC W => mixed1_image T (@exp_itv) _ _ x HC W (@exp_tightest)). Qed.
Theorem C28_exp2 : forall (T F : fmt) (x : itv F), comparable T F -> wf x ->
  computes_tightest (exp2_mixed T x) (image1 everywhere exp2R x).
Proof. exact (fun T F x HC W => mixed1_image T (@exp2_itv) _ _ x HC W (@exp2_tightest)). Qed.
Theorem C28_exp10 : forall (T F : fmt) (x : itv F), comparable T F -> wf x ->
  computes_tightest (exp10_mixed T x) (image1 everywhere exp10R x).
Proof. exact (fun T F x HC W => mixed1_image T (@exp10_itv) _ _ x HC W (@exp10_tightest)). Qed.
Theorem C28_log : forall (T F : fmt) (x : itv F), comparable T F -> wf x ->
  computes_tightest (log_mixed T x) (image1 positive ln x).
Proof. exact (fun T F x HC W => mixed1_image T (@log_itv) _ _ x HC W (@log_tightest)). Qed.
Theorem C28_log2 : forall (T F : fmt) (x : itv F), comparable T F -> wf x ->
  computes_tightest (log2_mixed T x) (image1 positive log2R x).
Proof. exact (fun T F x HC W => mixed1_image T (@log2_itv) _ _ x HC W (@log2_tightest)). Qed.
Theorem C28_log10 : forall (T F : fmt) (x : itv F), comparable T F -> wf x ->
  computes_tightest (log10_mixed T x) (image1 positive log10R x).
Proof. exact (fun T F x HC W => mixed1_image T (@log10_itv) _ _ x HC W (@log10_tightest)). Qed.
Theorem C28_sin : forall (T F : fmt) (x : itv F), comparable T F -> wf x ->
  computes_tightest (sin_mixed T x) (image1 everywhere sin x).
Proof. exact (fun T F x HC W => mixed1_image T (@sin_itv) _ _ x HC W (@sin_tightest)). Qed.
Theorem C28_cos : forall (T F : fmt) (x : itv F), comparable T F -> wf x ->
  computes_tightest (cos_mixed T x) (image1 everywhere cos x).
Proof. exact (fun T F x HC W => mixed1_image T (@cos_itv) _ _ x HC W (@cos_tightest)). Qed.
Theorem C28_asin : forall (T F : fmt) (x : itv F), comparable T F -> wf x ->
  computes_tightest (asin_mixed T x) (image1 within1 asin x).
Proof. exact (fun T F x HC W => mixed1_image T (@asin_itv) _ _ x HC W (@asin_tightest)). Qed.
Theorem C28_acos : forall (T F : fmt) (x : itv F), comparable T F -> wf x ->
  computes_tightest (acos_mixed T x) (image1 within1 acos x).
Proof. exact (fun T F x HC W => mixed1_image T (@acos_itv) _ _ x HC W (@acos_tightest)). Qed.
Theorem C28_atan : forall (T F : fmt) (x : itv F), comparable T F -> wf x ->
  computes_tightest (atan_mixed T x) (image1 everywhere atan x).
Proof. exact (fun T F x HC W => mixed1_image T (@atan_itv) _ _ x HC W (@atan_tightest)). Qed.
Theorem C28_sinh : forall (T F : fmt) (x : itv F), comparable T F -> wf x ->
  computes_tightest (sinh_mixed T x) (image1 everywhere sinh x).
Proof. exact (fun T F x HC W => mixed1_image T (@sinh_itv) _ _ x HC W (@sinh_tightest)). Qed.
Theorem C28_cosh : forall (T F : fmt) (x : itv F), comparable T F -> wf x ->
  computes_tightest (cosh_mixed T x) (image1 everywhere cosh x).
Proof. exact (fun T F x HC W => mixed1_image T (@cosh_itv) _ _ x HC W (@cosh_tightest)). Qed.
Theorem C28_tanh : forall (T F : fmt) (x : itv F), comparable T F -> wf x ->
  computes_tightest (tanh_mixed T x) (image1 everywhere tanh x).
Proof. exact (fun T F x HC W => mixed1_image T (@tanh_itv) _ _ x HC W (@tanh_tightest)). Qed.
Theorem C28_asinh : forall (T F : fmt) (x : itv F), comparable T F -> wf x ->
  computes_tightest (asinh_mixed T x) (image1 everywhere arcsinh x).
Proof. exact (fun T F x HC W => mixed1_image T (@asinh_itv) _ _ x HC W (@asinh_tightest)). Qed.
Theorem C28_acosh : forall (T F : fmt) (x : itv F), comparable T F -> wf x ->
  computes_tightest (acosh_mixed T x) (image1 from1 acoshR x).
Proof. exact (fun T F x HC W => mixed1_image T (@acosh_itv) _ _ x HC W (@acosh_tightest)). Qed.
Theorem C28_atanh : forall (T F : fmt) (x : itv F), comparable T F -> wf x ->
  computes_tightest (atanh_mixed T x) (image1 inside1 atanhR x).
Proof. exact (fun T F x HC W => mixed1_image T (@atanh_itv) _ _ x HC W (@atanh_tightest)). Qed.
Theorem C28_sign : forall (T F : fmt) (x : itv F), comparable T F -> wf x ->
  computes_tightest (sign_mixed T x) (image1 everywhere signR x).
Proof. exact (fun T F x HC W => mixed1_image T (@sign_itv) _ _ x HC W (@sign_tightest)). Qed.
Theorem C28_ceil : forall (T F : fmt) (x : itv F), comparable T F -> wf x ->
  computes_tightest (ceil_mixed T x) (image1 everywhere ceilR x).
Proof. exact (fun T F x HC W => mixed1_image T (@ceil_itv) _ _ x HC W (@ceil_tightest)). Qed.
Theorem C28_floor : forall (T F : fmt) (x : itv F), comparable T F -> wf x ->
  computes_tightest (floor_mixed T x) (image1 everywhere floorR x).
Proof. exact (fun T F x HC W => mixed1_image T (@floor_itv) _ _ x HC W (@floor_tightest)). Qed.
Theorem C28_trunc : forall (T F : fmt) (x : itv F), comparable T F -> wf x ->
  computes_tightest (trunc_mixed T x) (image1 everywhere truncR x).
Proof. exact (fun T F x HC W => mixed1_image T (@trunc_itv) _ _ x HC W (@trunc_tightest)). Qed.
Theorem C28_rte : forall (T F : fmt) (x : itv F), comparable T F -> wf x ->
  computes_tightest (rte_mixed T x) (image1 everywhere rteR x).
Proof. exact (fun T F x HC W => mixed1_image T (@round_ties_to_even_itv) _ _ x HC W (@rte_tightest)). Qed.
Theorem C28_rta : forall (T F : fmt) (x : itv F), comparable T F -> wf x ->
  computes_tightest (rta_mixed T x) (image1 everywhere rtaR x).
Proof. exact (fun T F x HC W => mixed1_image T (@round_ties_to_away_itv) _ _ x HC W (@rta_tightest)). Qed.
Theorem C28_pown : forall (T F : fmt) (x : itv F) (p : Z), comparable T F -> wf x ->
  computes_tightest (pown_mixed T x p) (image1 (pown_dom p) (pownR p) x).
Proof. exact (fun T F x p HC W => mixed1_image T (fun W x => @pown W x p) _ _ x HC W (fun W y => @pown_tightest W y p)). Qed.
Theorem C28_add : forall (T F G : fmt) (x : itv F) (y : itv G), comparable T F -> comparable T G -> comparable F G ->
  wf x -> wf y -> computes_tightest (add_mixed T x y) (image2 everywhere2 Rplus x y).
Proof. exact (fun T F G x y C1 C2 C3 Wx Wy => mixed2_image T (@add) _ _ x y C1 C2 C3 Wx Wy (@add_tightest)). Qed.
Theorem C28_sub : forall (T F G : fmt) (x : itv F) (y : itv G), comparable T F -> comparable T G -> comparable F G ->
  wf x -> wf y -> computes_tightest (sub_mixed T x y) (image2 everywhere2 Rminus x y).
Proof. exact (fun T F G x y C1 C2 C3 Wx Wy => mixed2_image T (@sub) _ _ x y C1 C2 C3 Wx Wy (@sub_tightest)). Qed.
Theorem C28_mul : forall (T F G : fmt) (x : itv F) (y : itv G), comparable T F -> comparable T G -> comparable F G ->
  wf x -> wf y -> computes_tightest (mul_mixed T x y) (image2 everywhere2 Rmult x y).
Proof. exact (fun T F G x y C1 C2 C3 Wx Wy => mixed2_image T (@mul) _ _ x y C1 C2 C3 Wx Wy (@mul_tightest)). Qed.
Theorem C28_div : forall (T F G : fmt) (x : itv F) (y : itv G), comparable T F -> comparable T G -> comparable F G ->
  wf x -> wf y -> computes_tightest (div_mixed T x y) (image2 (fun _ s => s <> 0) Rdiv x y).
Proof. exact (fun T F G x y C1 C2 C3 Wx Wy => mixed2_image T (@div) _ _ x y C1 C2 C3 Wx Wy (@div_tightest)). Qed.
Theorem C28_min : forall (T F G : fmt) (x : itv F) (y : itv G), comparable T F -> comparable T G -> comparable F G ->
  wf x -> wf y -> computes_tightest (min_mixed T x y) (image2 everywhere2 Rmin x y).
Proof. exact (fun T F G x y C1 C2 C3 Wx Wy => mixed2_image T (@min) _ _ x y C1 C2 C3 Wx Wy (@min_tightest)). Qed.
Theorem C28_max : forall (T F G : fmt) (x : itv F) (y : itv G), comparable T F -> comparable T G -> comparable F G ->
  wf x -> wf y -> computes_tightest (max_mixed T x y) (image2 everywhere2 Rmax x y).
Proof. exact (fun T F G x y C1 C2 C3 Wx Wy => mixed2_image T (@max) _ _ x y C1 C2 C3 Wx Wy (@max_tightest)). Qed.
Theorem C28_pow : forall (T F G : fmt) (x : itv F) (y : itv G), comparable T F -> comparable T G -> comparable F G ->
  wf x -> wf y -> computes_tightest (pow_mixed T x y) (image2 pow_dom powR x y).
Proof. exact (fun T F G x y C1 C2 C3 Wx Wy => mixed2_image T (@pow) _ _ x y C1 C2 C3 Wx Wy (@pow_tightest)). Qed.
Theorem C28_atan2 : forall (T F G : fmt) (x : itv F) (y : itv G), comparable T F -> comparable T G -> comparable F G ->
  wf x -> wf y -> computes_tightest (atan2_mixed T x y) (image2 not_origin ratan2 x y).
Proof. exact (fun T F G x y C1 C2 C3 Wx Wy => mixed2_image T (@atan2_itv) _ _ x y C1 C2 C3 Wx Wy (@atan2_tightest)). Qed.
Theorem C28_fma : forall (T F G H : fmt) (x : itv F) (y : itv G) (w : itv H),
  comparable T F -> comparable T G -> comparable F G -> comparable T H -> comparable F H -> comparable G H ->
  wf x -> wf y -> wf w -> computes_tightest (fma_mixed T x y w) (image3 (fun r s t => r * s + t) x y w).
Proof. exact (fun T F G H x y w C1 C2 C3 C4 C5 C6 Wx Wy Ww => mixed3_image T (@fma) _ x y w C1 C2 C3 C4 C5 C6 Wx Wy Ww (@fma_tightest)). Qed.
Theorem C28_intersection : forall (T F G : fmt) (x : itv F) (y : itv G), comparable T F -> comparable T G -> comparable F G ->
  wf x -> wf y -> computes_tightest (intersection_mixed T x y) (fun r => mem r x /\ mem r y).
Proof. exact @intersection_mixed_tightest. Qed.
Theorem C28_hull : forall (T F G : fmt) (x : itv F) (y : itv G), comparable T F -> comparable T G -> comparable F G ->
  wf x -> wf y -> computes_tightest (convex_hull_mixed T x y) (fun r => mem r x \/ mem r y).
Proof. exact @hull_mixed_tightest. Qed.
Print Assumptions C28_neg. Print Assumptions C28_add. Print Assumptions C28_div. Print Assumptions C28_fma.
Print Assumptions C28_pow. Print Assumptions C28_sin. Print Assumptions C28_hull.
(** Tangent: enclosed if the tangent of the wide type is (missing: that is not
    so when the wide type is binary64, see C12, and tightness). *)
Theorem C28_tan_partial : forall (T F : fmt) (x : itv F), comparable T F -> wf x ->
  (forall y : itv (pmax T F), wf y -> computes_enclosure (tan_itv y) (image1 (fun r => cos r <> 0) tan y)) ->
  computes_enclosure (tan_mixed T x) (image1 (fun r => cos r <> 0) tan x).
Proof. exact (fun T F x => mixed1_encl T (@tan_itv) _ _ x). Qed.
Print Assumptions C28_tan_partial.
Theorem C28_tan_binary80 : forall x : itv binary64, wf x ->
  computes_enclosure (tan_mixed binary80 x) (image1 (fun r => cos r <> 0) tan x).
Proof.
exact (fun x W => C28_tan_partial binary80 binary64 x (C28_formats _ _ (or_intror (or_intror (or_introl eq_refl)))
  (or_intror (or_introl eq_refl))) W (fun y Wy => @tan_far binary80 y far80 Wy)).
Qed.
Print Assumptions C28_tan_binary80.
(** In any pair of types, if the width is not about pi. *)
Theorem C28_tan_off_pi_partial : forall (T F : fmt) (x : itv F), comparable T F -> (prec (pmax T F) + 3 <= emax (pmax T F))%Z ->
  wf x -> off_pi (pmax T F) x -> computes_enclosure (tan_mixed T x) (image1 (fun r => cos r <> 0) tan x).
Proof. exact @tan_mixed_off. Qed.
Print Assumptions C28_tan_off_pi_partial.
Theorem C28_tan_dec_off_pi_partial : forall (T F : fmt) (x : ditv F), comparable T F -> (prec (pmax T F) + 3 <= emax (pmax T F))%Z ->
  wf_dec x -> is_deco (snd x) -> snd x <> ill -> off_pi (pmax T F) (fst x) ->
  exists z, returns (tan_dec_mixed T x) z /\ wf_dec z /\ is_deco (snd z) /\ snd z <> ill /\
    returns (tan_mixed T (fst x)) (fst z) /\ (snd z <= snd x)%N /\
    honest near1 (box1 (fst x)) (fun r => cos r <> 0) (bounded_rep (fst x)) tan (fst z) (snd z).
Proof. exact @tan_dec_mixed_off. Qed.
Print Assumptions C28_tan_dec_off_pi_partial.
(** binary64 as the widest type: every width but that of the number below pi. *)
Theorem C28_tan_binary64_partial : forall (T F : fmt) (x : itv F), comparable T F -> pmax T F = binary64 -> wf x -> width_not_pi64 x ->
  computes_enclosure (tan_mixed T x) (image1 (fun r => cos r <> 0) tan x).
Proof. exact tan_mixed64. Qed.
Print Assumptions C28_tan_binary64_partial.
Theorem C28_tan_dec_binary64_partial : forall (T F : fmt) (x : ditv F), comparable T F -> pmax T F = binary64 ->
  wf_dec x -> is_deco (snd x) -> snd x <> ill -> width_not_pi64 (fst x) ->
  exists z, returns (tan_dec_mixed T x) z /\ wf_dec z /\ is_deco (snd z) /\ snd z <> ill /\
    returns (tan_mixed T (fst x)) (fst z) /\ (snd z <= snd x)%N /\
    honest near1 (box1 (fst x)) (fun r => cos r <> 0) (bounded_rep (fst x)) tan (fst z) (snd z).
Proof. exact tan_dec_mixed64. Qed.
Print Assumptions C28_tan_dec_binary64_partial.

(** Exactly: the tangent is enclosed if and only if no pole is hidden in the widest type (see C12), and the
    decoration is wrong otherwise. *)
Theorem C28_tan_exact : forall (T F : fmt) (x : itv F), comparable T F -> wf x ->
  (computes_enclosure (tan_mixed T x) (image1 (fun r => cos r <> 0) tan x) <-> ~ pole_hidden (pmax T F) x).
Proof. exact tan_mixed_iff. Qed.
Print Assumptions C28_tan_exact.
(** It is then the tightest one in the result type, if the widest type is a C++ one. *)
Theorem C28_tan_tightest : forall (T F : fmt) (x : itv F), comparable T F ->
  pmax T F = binary32 \/ pmax T F = binary64 \/ pmax T F = binary80 -> wf x ->
  (computes_tightest (tan_mixed T x) (image1 (fun r => cos r <> 0) tan x) <-> ~ pole_hidden (pmax T F) x).
Proof. exact tan_mixed_tight_iff. Qed.
Print Assumptions C28_tan_tightest.
Theorem C28_tan_dec_not_hidden_partial : forall (T F : fmt) (x : ditv F), comparable T F ->
  wf_dec x -> is_deco (snd x) -> snd x <> ill -> ~ pole_hidden (pmax T F) (fst x) ->
  exists z, returns (tan_dec_mixed T x) z /\ wf_dec z /\ is_deco (snd z) /\ snd z <> ill /\
    returns (tan_mixed T (fst x)) (fst z) /\ (snd z <= snd x)%N /\
    honest near1 (box1 (fst x)) (fun r => cos r <> 0) (bounded_rep (fst x)) tan (fst z) (snd z).
Proof. exact tan_seen_dec_mixed. Qed.
Print Assumptions C28_tan_dec_not_hidden_partial.
Theorem C28_tan_dec_hidden_refuted : forall (T F : fmt) (x : ditv F), comparable T F ->
  wf_dec x -> is_deco (snd x) -> snd x <> ill -> snd x <> trv -> pole_hidden (pmax T F) (fst x) ->
  exists z r, returns (tan_dec_mixed T x) z /\ (def <= snd z)%N /\ mem r (fst x) /\ cos r = 0.
Proof. exact hidden_dec_mixed. Qed.
Print Assumptions C28_tan_dec_hidden_refuted.

(** ** Decorated operations: honest, and the interval part is the bare result *)
Theorem C28_pos_dec : forall T F : fmt, @mixed_decorates1 F T (pos_dec_mixed T) (pos_mixed T) everywhere (fun r => r).
Proof. exact @pos_dec_mixed_ok. Qed.
Theorem C28_neg_dec : forall T F : fmt, @mixed_decorates1 F T (neg_dec_mixed T) (neg_mixed T) everywhere Ropp.
Proof. exact @neg_dec_mixed_ok. Qed.
Theorem C28_recip_dec : forall T F : fmt, comparable T F -> @mixed_decorates1 F T (recip_dec_mixed T) (recip_mixed T) (fun r => r <> 0) Rinv.
Proof. exact (fun T F HC => mixed_dec1_ok T (@recip_dec) (@recip) _ _ HC (@recip_decorates _)). Qed.
Theorem C28_sqr_dec : forall T F : fmt, comparable T F -> @mixed_decorates1 F T (sqr_dec_mixed T) (sqr_mixed T) everywhere (fun r => r * r).
Proof. exact (fun T F HC => mixed_dec1_ok T (@sqr_dec) (@sqr) _ _ HC (@sqr_decorates _)). Qed.
Theorem C28_abs_dec : forall T F : fmt, comparable T F -> @mixed_decorates1 F T (abs_dec_mixed T) (abs_mixed T) everywhere Rabs.
Proof. exact (fun T F HC => mixed_dec1_ok T (@abs_dec) (@abs) _ _ HC (@abs_decorates _)). Qed.
Theorem C28_sqrt_dec : forall T F : fmt, comparable T F -> @mixed_decorates1 F T (sqrt_dec_mixed T) (sqrt_mixed T) (fun r => 0 <= r) R_sqrt.sqrt.
Proof. exact (fun T F HC => mixed_dec1_ok T (@sqrt_dec) (@sqrt) _ _ HC (@sqrt_decorates _)). Qed.
Theorem C28_exp_dec : forall T F : fmt, comparable T F -> @mixed_decorates1 F T (exp_dec_mixed T) (exp_mixed T) everywhere exp.
Proof. exact (fun T F HC => mixed_dec1_ok T (@exp_dec) (@exp_itv) _ _ HC (@exp_decorates _)). Qed.
Theorem C28_exp2_dec : forall T F : fmt, comparable T F -> @mixed_decorates1 F T (exp2_dec_mixed T) (exp2_mixed T) everywhere exp2R.
Proof. exact (fun T F HC => mixed_dec1_ok T (@exp2_dec) (@exp2_itv) _ _ HC (@exp2_decorates _)). Qed.
Theorem C28_exp10_dec : forall T F : fmt, comparable T F -> @mixed_decorates1 F T (exp10_dec_mixed T) (exp10_mixed T) everywhere exp10R.
Proof. exact (fun T F HC => mixed_dec1_ok T (@exp10_dec) (@exp10_itv) _ _ HC (@exp10_decorates _)). Qed.
Theorem C28_log_dec : forall T F : fmt, comparable T F -> @mixed_decorates1 F T (log_dec_mixed T) (log_mixed T) positive ln.
Proof. exact (fun T F HC => mixed_dec1_ok T (@log_dec) (@log_itv) _ _ HC (@log_decorates _)). Qed.
Theorem C28_log2_dec : forall T F : fmt, comparable T F -> @mixed_decorates1 F T (log2_dec_mixed T) (log2_mixed T) positive log2R.
Proof. exact (fun T F HC => mixed_dec1_ok T (@log2_dec) (@log2_itv) _ _ HC (@log2_decorates _)). Qed.
Theorem C28_log10_dec : forall T F : fmt, comparable T F -> @mixed_decorates1 F T (log10_dec_mixed T) (log10_mixed T) positive log10R.
Proof. exact (fun T F HC => mixed_dec1_ok T (@log10_dec) (@log10_itv) _ _ HC (@log10_decorates _)). Qed.
Theorem C28_sin_dec : forall T F : fmt, comparable T F -> @mixed_decorates1 F T (sin_dec_mixed T) (sin_mixed T) everywhere sin.
Proof. exact (fun T F HC => mixed_dec1_ok T (@sin_dec) (@sin_itv) _ _ HC (@sin_decorates _)). Qed.
Theorem C28_cos_dec : forall T F : fmt, comparable T F -> @mixed_decorates1 F T (cos_dec_mixed T) (cos_mixed T) everywhere cos.
Proof. exact (fun T F HC => mixed_dec1_ok T (@cos_dec) (@cos_itv) _ _ HC (@cos_decorates _)). Qed.
Theorem C28_asin_dec : forall T F : fmt, comparable T F -> @mixed_decorates1 F T (asin_dec_mixed T) (asin_mixed T) within1 asin.
Proof. exact (fun T F HC => mixed_dec1_ok T (@asin_dec) (@asin_itv) _ _ HC (@asin_decorates _)). Qed.
Theorem C28_acos_dec : forall T F : fmt, comparable T F -> @mixed_decorates1 F T (acos_dec_mixed T) (acos_mixed T) within1 acos.
Proof. exact (fun T F HC => mixed_dec1_ok T (@acos_dec) (@acos_itv) _ _ HC (@acos_decorates _)). Qed.
(** Tangent: missing for binary64 as the widest type, see C16. *)
Theorem C28_tan_dec_partial : forall T F : fmt, comparable T F -> pi_far (pmax T F) ->
  @mixed_decorates1 F T (tan_dec_mixed T) (tan_mixed T) (fun r => cos r <> 0) tan.
Proof. exact (fun T F HC P => mixed_dec1_ok T (@tan_dec) (@tan_itv) _ _ HC (tan_decorates P)). Qed.
Theorem C28_atan_dec : forall T F : fmt, comparable T F -> @mixed_decorates1 F T (atan_dec_mixed T) (atan_mixed T) everywhere atan.
Proof. exact (fun T F HC => mixed_dec1_ok T (@atan_dec) (@atan_itv) _ _ HC (@atan_decorates _)). Qed.
Theorem C28_sinh_dec : forall T F : fmt, comparable T F -> @mixed_decorates1 F T (sinh_dec_mixed T) (sinh_mixed T) everywhere sinh.
Proof. exact (fun T F HC => mixed_dec1_ok T (@sinh_dec) (@sinh_itv) _ _ HC (@sinh_decorates _)). Qed.
Theorem C28_cosh_dec : forall T F : fmt, comparable T F -> @mixed_decorates1 F T (cosh_dec_mixed T) (cosh_mixed T) everywhere cosh.
Proof. exact (fun T F HC => mixed_dec1_ok T (@cosh_dec) (@cosh_itv) _ _ HC (@cosh_decorates _)). Qed.
Theorem C28_tanh_dec : forall T F : fmt, comparable T F -> @mixed_decorates1 F T (tanh_dec_mixed T) (tanh_mixed T) everywhere tanh.
Proof. exact (fun T F HC => mixed_dec1_ok T (@tanh_dec) (@tanh_itv) _ _ HC (@tanh_decorates _)). Qed.
Theorem C28_asinh_dec : forall T F : fmt, comparable T F -> @mixed_decorates1 F T (asinh_dec_mixed T) (asinh_mixed T) everywhere arcsinh.
Proof. exact (fun T F HC => mixed_dec1_ok T (@asinh_dec) (@asinh_itv) _ _ HC (@asinh_decorates _)). Qed.
Theorem C28_acosh_dec : forall T F : fmt, comparable T F -> @mixed_decorates1 F T (acosh_dec_mixed T) (acosh_mixed T) from1 acoshR.
Proof. exact (fun T F HC => mixed_dec1_ok T (@acosh_dec) (@acosh_itv) _ _ HC (@acosh_decorates _)). Qed.
Theorem C28_atanh_dec : forall T F : fmt, comparable T F -> @mixed_decorates1 F T (atanh_dec_mixed T) (atanh_mixed T) inside1 atanhR.
Proof. exact (fun T F HC => mixed_dec1_ok T (@atanh_dec) (@atanh_itv) _ _ HC (@atanh_decorates _)). Qed.
Theorem C28_sign_dec : forall T F : fmt, comparable T F -> @mixed_decorates1 F T (sign_dec_mixed T) (sign_mixed T) everywhere signR.
Proof. exact (fun T F HC => mixed_dec1_ok T (@sign_dec) (@sign_itv) _ _ HC (@sign_decorates _)). Qed.
Theorem C28_ceil_dec : forall T F : fmt, comparable T F -> @mixed_decorates1 F T (ceil_dec_mixed T) (ceil_mixed T) everywhere ceilR.
Proof. exact (fun T F HC => mixed_dec1_ok T (@ceil_dec) (@ceil_itv) _ _ HC (@ceil_decorates _)). Qed.
Theorem C28_floor_dec : forall T F : fmt, comparable T F -> @mixed_decorates1 F T (floor_dec_mixed T) (floor_mixed T) everywhere floorR.
Proof. exact (fun T F HC => mixed_dec1_ok T (@floor_dec) (@floor_itv) _ _ HC (@floor_decorates _)). Qed.
Theorem C28_trunc_dec : forall T F : fmt, comparable T F -> @mixed_decorates1 F T (trunc_dec_mixed T) (trunc_mixed T) everywhere truncR.
Proof. exact (fun T F HC => mixed_dec1_ok T (@trunc_dec) (@trunc_itv) _ _ HC (@trunc_decorates _)). Qed.
Theorem C28_rte_dec : forall T F : fmt, comparable T F -> @mixed_decorates1 F T (rte_dec_mixed T) (rte_mixed T) everywhere rteR.
Proof. exact (fun T F HC => mixed_dec1_ok T (@round_ties_to_even_dec) (@round_ties_to_even_itv) _ _ HC (@rte_decorates _)). Qed.
Theorem C28_rta_dec : forall T F : fmt, comparable T F -> @mixed_decorates1 F T (rta_dec_mixed T) (rta_mixed T) everywhere rtaR.
Proof. exact (fun T F HC => mixed_dec1_ok T (@round_ties_to_away_dec) (@round_ties_to_away_itv) _ _ HC (@rta_decorates _)). Qed.
Theorem C28_pown_dec : forall (T F : fmt) (p : Z), comparable T F ->
  @mixed_decorates1 F T (fun x => pown_dec_mixed T x p) (fun x => pown_mixed T x p) (pown_dom p) (pownR p).
Proof. exact (fun T F p HC => mixed_dec1_ok T (fun W x => @pown_dec W x p) (fun W x => @pown W x p) _ _ HC (@pown_decorates _ p)). Qed.
Theorem C28_add_dec : forall T F G : fmt, comparable T F -> comparable T G -> comparable F G ->
  @mixed_decorates2 F G T (add_dec_mixed T) (add_mixed T) everywhere2 Rplus.
Proof. exact (fun T F G C1 C2 C3 => mixed_dec2_ok T (@add_dec) (@add) _ _ C1 C2 C3 (@add_decorates _)). Qed.
Theorem C28_sub_dec : forall T F G : fmt, comparable T F -> comparable T G -> comparable F G ->
  @mixed_decorates2 F G T (sub_dec_mixed T) (sub_mixed T) everywhere2 Rminus.
Proof. exact (fun T F G C1 C2 C3 => mixed_dec2_ok T (@sub_dec) (@sub) _ _ C1 C2 C3 (@sub_decorates _)). Qed.
Theorem C28_mul_dec : forall T F G : fmt, comparable T F -> comparable T G -> comparable F G ->
  @mixed_decorates2 F G T (mul_dec_mixed T) (mul_mixed T) everywhere2 Rmult.
Proof. exact (fun T F G C1 C2 C3 => mixed_dec2_ok T (@mul_dec) (@mul) _ _ C1 C2 C3 (@mul_decorates _)). Qed.
Theorem C28_div_dec : forall T F G : fmt, comparable T F -> comparable T G -> comparable F G ->
  @mixed_decorates2 F G T (div_dec_mixed T) (div_mixed T) (fun _ s => s <> 0) Rdiv.
Proof. exact (fun T F G C1 C2 C3 => mixed_dec2_ok T (@div_dec) (@div) _ _ C1 C2 C3 (@div_decorates _)). Qed.
Theorem C28_min_dec : forall T F G : fmt, comparable T F -> comparable T G -> comparable F G ->
  @mixed_decorates2 F G T (min_dec_mixed T) (min_mixed T) everywhere2 Rmin.
Proof. exact (fun T F G C1 C2 C3 => mixed_dec2_ok T (@min_dec) (@min) _ _ C1 C2 C3 (@min_decorates _)). Qed.
Theorem C28_max_dec : forall T F G : fmt, comparable T F -> comparable T G -> comparable F G ->
  @mixed_decorates2 F G T (max_dec_mixed T) (max_mixed T) everywhere2 Rmax.
Proof. exact (fun T F G C1 C2 C3 => mixed_dec2_ok T (@max_dec) (@max) _ _ C1 C2 C3 (@max_decorates _)). Qed.
Theorem C28_pow_dec : forall T F G : fmt, comparable T F -> comparable T G -> comparable F G ->
  @mixed_decorates2 F G T (pow_dec_mixed T) (pow_mixed T) pow_dom powR.
Proof. exact (fun T F G C1 C2 C3 => mixed_dec2_ok T (@pow_dec) (@pow) _ _ C1 C2 C3 (@pow_decorates _)). Qed.
Theorem C28_atan2_dec : forall T F G : fmt, comparable T F -> comparable T G -> comparable F G ->
  @mixed_decorates2 F G T (atan2_dec_mixed T) (atan2_mixed T) not_origin ratan2.
Proof. exact (fun T F G C1 C2 C3 => mixed_dec2_ok T (@atan2_dec) (@atan2_itv) _ _ C1 C2 C3 (@atan2_decorates _)). Qed.
Theorem C28_fma_dec : forall T F G H : fmt,
  comparable T F -> comparable T G -> comparable F G -> comparable T H -> comparable F H -> comparable G H ->
  @mixed_decorates3 F G H T (fma_dec_mixed T) (fma_mixed T) (fun r s t => r * s + t).
Proof. exact (fun T F G H C1 C2 C3 C4 C5 C6 => mixed_dec3_ok T (@fma_dec) (@fma) _ C1 C2 C3 C4 C5 C6 (@fma_decorates _)). Qed.
Print Assumptions C28_neg_dec. Print Assumptions C28_add_dec. Print Assumptions C28_fma_dec. Print Assumptions C28_atan2_dec.

(** ** Examples *)
Notation b n e := (fl binary64 n e).
Notation s n e := (fl binary32 n e).
Notation l n e := (fl binary80 n e).
(** 1 + 2^-40 is not a binary32 number; the sum of a binary32 and a binary64
    interval is rounded outward once.  The product 2^100 * 2^100 overflows
    binary32 only.  The decoration com is lost with the bounds. *)
Example C28_ex :
  run (add_mixed binary32 (s 1 0, s 1 0) (b 1 (-40), b 1 (-40))) = okz (s 1 0) (s 8388609 (-23))
  /\ run (add_mixed binary64 (s 1 0, s 1 0) (b 1 (-40), b 1 (-40))) = okz (b 1099511627777 (-40)) (b 1099511627777 (-40))
  /\ run (mul_mixed binary32 (s 1 100, s 1 100) (s 1 100, s 1 100)) = okz (@fmaxv binary32) finf
  /\ run (mul_mixed binary64 (s 1 100, s 1 100) (s 1 100, s 1 100)) = okz (b 1 200) (b 1 200)
  /\ run (div_mixed binary32 (b 1 0, b 1 0) (l 3 0, l 3 0)) = okz (s 11184810 (-25)) (s 11184811 (-25))
  /\ run (fma_mixed binary32 (s 1 0, s 1 0) (b 1 0, b 1 0) (l 1 (-60), l 1 (-60))) = okz (s 1 0) (s 8388609 (-23))
  /\ run (neg_mixed binary32 (b 1 200, b 1 200)) = okz (@fminf binary32) (fneg fmaxv)
  /\ rund (add_dec_mixed binary32 ((s 1 127, s 1 127), com) ((b 1 127, b 1 127), com)) = okd (@fmaxv binary32) finf dac
  /\ rund (add_dec_mixed binary64 ((s 1 127, s 1 127), com) ((b 1 127, b 1 127), com)) = okd (b 1 128) (b 1 128) com
  /\ run (intersection_mixed binary32 (s 1 0, s 2 0) (b 1099511627777 (-40), finf)) = okz (s 1 0) (s 2 0)
  /\ wf (s 1 0, s 2 0) /\ wf (b 1099511627777 (-40), finf) /\ wf_dec ((s 1 127, s 1 127), com).
Proof. repeat (split; [first [wf_tac|vm_compute; reflexivity]|]). wf_tac. Qed.
(** Functions that do not compute: pi/4 lies in atan [1,1] of binary64 taken in binary32. *)
Example C28_ex_atan : exists z, returns (atan_mixed binary32 (b 1 0, b 1 0)) z /\ mem (PI / 4) z.
Proof.
destruct (C28_atan binary32 binary64 (b 1 0, b 1 0)) as (z & H1 & H2).
- apply C28_formats; simpl; auto.
- wf_tac.
- exists z. split; [easy|]. apply (proj1 (proj2 H2)). exists 1. split; [|split; [easy|now rewrite atan_1]].
  apply mem_pt; [reflexivity..|]. assert (E : B2R (b 1 0) = 1) by b2r. rewrite E. lra.
Qed.
Example C28_ex_off : wf (b 1 0, b 2 0) /\ off_pi (pmax binary32 binary64) (b 1 0, b 2 0) /\ pmax binary32 binary64 = binary64 /\
  width_not_pi64 (b 1 0, b 2 0).
Proof.
assert (E1 : B2R (b 1 0) = 1) by b2r. assert (E2 : B2R (b 2 0) = 2) by b2r.
split; [wf_tac|]. split; [|split; [reflexivity|]]; [apply off64; left|intros _]; cbn [fst snd]; rewrite E1, E2; lra.
Qed.
