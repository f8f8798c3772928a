(** * Proofs: every function a program can call delivers valid results *)
From Coq Require Import ZArith NArith Reals Bool Lra Lia List Classical.
From Flocq Require Import Core.Core IEEE754.BinarySingleNaN.
From Verif Require Import Fmt Spec FloatFacts Exc Deco SpecApi SpecElem SpecAtan2 SpecDeco SpecMixed SpecNum SpecNai SpecRel SpecRev SpecCancel SpecProg MBase PBase MBool MOverlap MArith PArith
  MElem MPow MTrig MAtan2 MDec MMixed MCancel MRev MTrigRev MRev1 MStream MDecoIo MText MRegex MRead
  PConv PBool PSetop PClass PAtan2 PDec PDecF PDecT PDiv PElem PElem2 PFma PMul PPow PPown PTan PTanF PTrig PTrigT PUnary PMixed PRevW PNai PCancel
  PValid PValid2 PValid3 MProg.
Import ListNotations.
Local Open Scope R_scope.
Local Open Scope m_scope.

(** ** Bare functions *)
Lemma pos_del F (x : itv F) : wf x -> delivers (pos x) wf. Proof. intros W. exact (del_tight _ _ (pos_tightest x W)). Qed.
Lemma neg_del F (x : itv F) : wf x -> delivers (neg x) wf. Proof. intros W. exact (del_tight _ _ (neg_tightest x W)). Qed.
Lemma recip_del F (x : itv F) : wf x -> delivers (recip x) wf. Proof. intros W. exact (del_tight _ _ (recip_tightest x W)). Qed.
Lemma sqr_del F (x : itv F) : wf x -> delivers (sqr x) wf. Proof. intros W. exact (del_tight _ _ (sqr_tightest x W)). Qed.
Lemma sqrt_del F (x : itv F) : wf x -> delivers (sqrt x) wf. Proof. intros W. exact (del_tight _ _ (sqrt_tightest x W)). Qed.
Lemma abs_del F (x : itv F) : wf x -> delivers (abs x) wf. Proof. intros W. exact (del_tight _ _ (abs_tightest x W)). Qed.
Lemma exp_del F (x : itv F) : wf x -> delivers (exp_itv x) wf. Proof. intros W. exact (del_tight _ _ (exp_tightest x W)). Qed.
Lemma exp2_del F (x : itv F) : wf x -> delivers (exp2_itv x) wf. Proof. intros W. exact (del_tight _ _ (exp2_tightest x W)). Qed.
Lemma exp10_del F (x : itv F) : wf x -> delivers (exp10_itv x) wf. Proof. intros W. exact (del_tight _ _ (exp10_tightest x W)). Qed.
Lemma log_del F (x : itv F) : wf x -> delivers (log_itv x) wf. Proof. intros W. exact (del_tight _ _ (log_tightest x W)). Qed.
Lemma log2_del F (x : itv F) : wf x -> delivers (log2_itv x) wf. Proof. intros W. exact (del_tight _ _ (log2_tightest x W)). Qed.
Lemma log10_del F (x : itv F) : wf x -> delivers (log10_itv x) wf. Proof. intros W. exact (del_tight _ _ (log10_tightest x W)). Qed.
Lemma sin_del F (x : itv F) : wf x -> delivers (sin_itv x) wf. Proof. intros W. exact (del_tight _ _ (sin_tightest x W)). Qed.
Lemma cos_del F (x : itv F) : wf x -> delivers (cos_itv x) wf. Proof. intros W. exact (del_tight _ _ (cos_tightest x W)). Qed.
Lemma asin_del F (x : itv F) : wf x -> delivers (asin_itv x) wf. Proof. intros W. exact (del_tight _ _ (asin_tightest x W)). Qed.
Lemma acos_del F (x : itv F) : wf x -> delivers (acos_itv x) wf. Proof. intros W. exact (del_tight _ _ (acos_tightest x W)). Qed.
Lemma atan_del F (x : itv F) : wf x -> delivers (atan_itv x) wf. Proof. intros W. exact (del_tight _ _ (atan_tightest x W)). Qed.
Lemma sinh_del F (x : itv F) : wf x -> delivers (sinh_itv x) wf. Proof. intros W. exact (del_tight _ _ (sinh_tightest x W)). Qed.
Lemma cosh_del F (x : itv F) : wf x -> delivers (cosh_itv x) wf. Proof. intros W. exact (del_tight _ _ (cosh_tightest x W)). Qed.
Lemma tanh_del F (x : itv F) : wf x -> delivers (tanh_itv x) wf. Proof. intros W. exact (del_tight _ _ (tanh_tightest x W)). Qed.
Lemma asinh_del F (x : itv F) : wf x -> delivers (asinh_itv x) wf. Proof. intros W. exact (del_tight _ _ (asinh_tightest x W)). Qed.
Lemma acosh_del F (x : itv F) : wf x -> delivers (acosh_itv x) wf. Proof. intros W. exact (del_tight _ _ (acosh_tightest x W)). Qed.
Lemma atanh_del F (x : itv F) : wf x -> delivers (atanh_itv x) wf. Proof. intros W. exact (del_tight _ _ (atanh_tightest x W)). Qed.
Lemma sign_del F (x : itv F) : wf x -> delivers (sign_itv x) wf. Proof. intros W. exact (del_tight _ _ (sign_tightest x W)). Qed.
Lemma ceil_del F (x : itv F) : wf x -> delivers (ceil_itv x) wf. Proof. intros W. exact (del_tight _ _ (ceil_tightest x W)). Qed.
Lemma floor_del F (x : itv F) : wf x -> delivers (floor_itv x) wf. Proof. intros W. exact (del_tight _ _ (floor_tightest x W)). Qed.
Lemma trunc_del F (x : itv F) : wf x -> delivers (trunc_itv x) wf. Proof. intros W. exact (del_tight _ _ (trunc_tightest x W)). Qed.
Lemma rte_del F (x : itv F) : wf x -> delivers (round_ties_to_even_itv x) wf. Proof. intros W. exact (del_tight _ _ (rte_tightest x W)). Qed.
Lemma rta_del F (x : itv F) : wf x -> delivers (round_ties_to_away_itv x) wf. Proof. intros W. exact (del_tight _ _ (rta_tightest x W)). Qed.
Lemma pown_del F p (x : itv F) : wf x -> delivers (pown x p) wf. Proof. intros W. exact (del_tight _ _ (pown_tightest x p W)). Qed.
Lemma add_del F (x y : itv F) : wf x -> wf y -> delivers (add x y) wf. Proof. intros W V. exact (del_tight _ _ (add_tightest x y W V)). Qed.
Lemma sub_del F (x y : itv F) : wf x -> wf y -> delivers (sub x y) wf. Proof. intros W V. exact (del_tight _ _ (sub_tightest x y W V)). Qed.
Lemma mul_del F (x y : itv F) : wf x -> wf y -> delivers (mul x y) wf. Proof. intros W V. exact (del_tight _ _ (mul_tightest x y W V)). Qed.
Lemma div_del F (x y : itv F) : wf x -> wf y -> delivers (div x y) wf. Proof. intros W V. exact (del_tight _ _ (div_tightest x y W V)). Qed.
Lemma min_del F (x y : itv F) : wf x -> wf y -> delivers (min x y) wf. Proof. intros W V. exact (del_tight _ _ (min_tightest x y W V)). Qed.
Lemma max_del F (x y : itv F) : wf x -> wf y -> delivers (max x y) wf. Proof. intros W V. exact (del_tight _ _ (max_tightest x y W V)). Qed.
Lemma pow_del F (x y : itv F) : wf x -> wf y -> delivers (pow x y) wf. Proof. intros W V. exact (del_tight _ _ (pow_tightest x y W V)). Qed.
Lemma atan2_del F (x y : itv F) : wf x -> wf y -> delivers (atan2_itv x y) wf. Proof. intros W V. exact (del_tight _ _ (atan2_tightest x y W V)). Qed.
Lemma intersection_del F (x y : itv F) : wf x -> wf y -> delivers (intersection x y) wf. Proof. intros _ _. apply del_inter. Qed.
Lemma convex_hull_del F (x y : itv F) : wf x -> wf y -> delivers (convex_hull x y) wf. Proof. intros _ _. apply del_hull. Qed.
Lemma fma_del F (x y w : itv F) : wf x -> wf y -> wf w -> delivers (fma x y w) wf. Proof. intros A B C. exact (del_tight _ _ (fma_tightest x y w A B C)). Qed.

Lemma un0_del F T f : un0 F T f -> forall x, wf x -> delivers (f x) wf.
Proof.
destruct 1; intros x W.
- now apply pos_del.
- unfold pos_mixed. apply del_mif; [apply del_ret, wf_empty|]. apply del_ret. now apply wf_convert_hull.
- now apply neg_del.
- unfold neg_mixed. apply del_mif; [apply del_ret, wf_empty|]. apply del_conv. now apply neg_del.
- now apply recip_del.
- apply (mixed1_del T (@recip)); [|easy]. intros V y Wy. now apply recip_del.
- now apply sqr_del.
- apply (mixed1_del T (@sqr)); [|easy]. intros V y Wy. now apply sqr_del.
- now apply sqrt_del.
- apply (mixed1_del T (@sqrt)); [|easy]. intros V y Wy. now apply sqrt_del.
- now apply abs_del.
- apply (mixed1_del T (@abs)); [|easy]. intros V y Wy. now apply abs_del.
- now apply exp_del.
- apply (mixed1_del T (@exp_itv)); [|easy]. intros V y Wy. now apply exp_del.
- now apply exp2_del.
- apply (mixed1_del T (@exp2_itv)); [|easy]. intros V y Wy. now apply exp2_del.
- now apply exp10_del.
- apply (mixed1_del T (@exp10_itv)); [|easy]. intros V y Wy. now apply exp10_del.
- now apply log_del.
- apply (mixed1_del T (@log_itv)); [|easy]. intros V y Wy. now apply log_del.
- now apply log2_del.
- apply (mixed1_del T (@log2_itv)); [|easy]. intros V y Wy. now apply log2_del.
- now apply log10_del.
- apply (mixed1_del T (@log10_itv)); [|easy]. intros V y Wy. now apply log10_del.
- now apply sin_del.
- apply (mixed1_del T (@sin_itv)); [|easy]. intros V y Wy. now apply sin_del.
- now apply cos_del.
- apply (mixed1_del T (@cos_itv)); [|easy]. intros V y Wy. now apply cos_del.
- now apply tan_del.
- apply (mixed1_del T (@tan_itv)); [|easy]. intros V y Wy. now apply tan_del.
- now apply asin_del.
- apply (mixed1_del T (@asin_itv)); [|easy]. intros V y Wy. now apply asin_del.
- now apply acos_del.
- apply (mixed1_del T (@acos_itv)); [|easy]. intros V y Wy. now apply acos_del.
- now apply atan_del.
- apply (mixed1_del T (@atan_itv)); [|easy]. intros V y Wy. now apply atan_del.
- now apply sinh_del.
- apply (mixed1_del T (@sinh_itv)); [|easy]. intros V y Wy. now apply sinh_del.
- now apply cosh_del.
- apply (mixed1_del T (@cosh_itv)); [|easy]. intros V y Wy. now apply cosh_del.
- now apply tanh_del.
- apply (mixed1_del T (@tanh_itv)); [|easy]. intros V y Wy. now apply tanh_del.
- now apply asinh_del.
- apply (mixed1_del T (@asinh_itv)); [|easy]. intros V y Wy. now apply asinh_del.
- now apply acosh_del.
- apply (mixed1_del T (@acosh_itv)); [|easy]. intros V y Wy. now apply acosh_del.
- now apply atanh_del.
- apply (mixed1_del T (@atanh_itv)); [|easy]. intros V y Wy. now apply atanh_del.
- now apply sign_del.
- apply (mixed1_del T (@sign_itv)); [|easy]. intros V y Wy. now apply sign_del.
- now apply ceil_del.
- apply (mixed1_del T (@ceil_itv)); [|easy]. intros V y Wy. now apply ceil_del.
- now apply floor_del.
- apply (mixed1_del T (@floor_itv)); [|easy]. intros V y Wy. now apply floor_del.
- now apply trunc_del.
- apply (mixed1_del T (@trunc_itv)); [|easy]. intros V y Wy. now apply trunc_del.
- now apply rte_del.
- apply (mixed1_del T (@round_ties_to_even_itv)); [|easy]. intros V y Wy. now apply rte_del.
- now apply rta_del.
- apply (mixed1_del T (@round_ties_to_away_itv)); [|easy]. intros V y Wy. now apply rta_del.
- now apply pown_del.
- apply (mixed1_del T (fun V v => @pown V v p)); [|easy]. intros V y Wy. now apply pown_del.
- unfold copy. apply del_mif; [apply del_ret, wf_empty|now apply del_ret].
- unfold convert_type. apply del_mif; [apply del_ret, wf_empty|]. apply del_ret. now apply wf_convert_hull.
- apply sqr_rev_del.
- apply abs_rev_del.
- apply cosh_rev_del.
- apply sin_rev_del, wf_entire.
- apply cos_rev_del, wf_entire.
- apply tan_rev_del.
- apply (rev_mixed2_del T (@sqr_rev)); [|easy|apply wf_entire]. intros V a b Wa Wb. now apply sqr_rev_del.
- apply (rev_mixed2_del T (@abs_rev)); [|easy|apply wf_entire]. intros V a b Wa Wb. now apply abs_rev_del.
- apply (rev_mixed2_del T (@cosh_rev)); [|easy|apply wf_entire]. intros V a b Wa Wb. now apply cosh_rev_del.
- apply (rev_mixed2_del T (@sin_rev)); [|easy|apply wf_entire]. intros V a b Wa Wb. now apply sin_rev_del.
- apply (rev_mixed2_del T (@cos_rev)); [|easy|apply wf_entire]. intros V a b Wa Wb. now apply cos_rev_del.
- apply (rev_mixed2_del T (@tan_rev)); [|easy|apply wf_entire]. intros V a b Wa Wb. now apply tan_rev_del.
Qed.
Lemma un_del F T f : un F T f -> forall x, wf x -> delivers (f x) wf.
Proof.
destruct 1; intros x W.
- now apply (un0_del _ _ _ H).
- apply pown_rev_del, wf_entire.
- apply (rev_mixed2_del T (fun V c x => @pown_rev V fuel c x p)); [|easy|apply wf_entire]. intros V a b Wa Wb. now apply pown_rev_del.
Qed.
Lemma bin0_del F G T f : bin0 F G T f -> forall x y, wf x -> wf y -> delivers (f x y) wf.
Proof.
destruct 1; intros x y Wx Wy.
- now apply add_del.
- apply (mixed2_del T (@add)); [|easy..]. intros V a b Wa Wb. now apply add_del.
- now apply sub_del.
- apply (mixed2_del T (@sub)); [|easy..]. intros V a b Wa Wb. now apply sub_del.
- now apply mul_del.
- apply (mixed2_del T (@mul)); [|easy..]. intros V a b Wa Wb. now apply mul_del.
- now apply div_del.
- apply (mixed2_del T (@div)); [|easy..]. intros V a b Wa Wb. now apply div_del.
- now apply min_del.
- apply (mixed2_del T (@min)); [|easy..]. intros V a b Wa Wb. now apply min_del.
- now apply max_del.
- apply (mixed2_del T (@max)); [|easy..]. intros V a b Wa Wb. now apply max_del.
- now apply pow_del.
- apply (mixed2_del T (@pow)); [|easy..]. intros V a b Wa Wb. now apply pow_del.
- now apply atan2_del.
- apply (mixed2_del T (@atan2_itv)); [|easy..]. intros V a b Wa Wb. now apply atan2_del.
- now apply intersection_del.
- apply (mixed2_del T (@intersection)); [|easy..]. intros V a b Wa Wb. now apply intersection_del.
- now apply convex_hull_del.
- apply (mixed2_del T (@convex_hull)); [|easy..]. intros V a b Wa Wb. now apply convex_hull_del.
- now apply sqr_rev_del.
- apply (rev_mixed2_del T (@sqr_rev)); [|easy..]. intros V a b Wa Wb. now apply sqr_rev_del.
- now apply abs_rev_del.
- apply (rev_mixed2_del T (@abs_rev)); [|easy..]. intros V a b Wa Wb. now apply abs_rev_del.
- now apply cosh_rev_del.
- apply (rev_mixed2_del T (@cosh_rev)); [|easy..]. intros V a b Wa Wb. now apply cosh_rev_del.
- apply mul_rev_del.
- apply (mixed3_del T (@mul_rev)); [|easy|easy|apply wf_entire]. intros V a b c Wa Wb Wc. apply mul_rev_del.
Qed.
Lemma bint_del F G T f : bint F G T f -> forall x y, wf x -> wf y -> delivers (f x y) wf.
Proof.
destruct 1; intros x y Wx Wy.
- now apply sin_rev_del.
- apply (rev_mixed2_del T (@sin_rev)); [|easy..]. intros V a b Wa Wb. now apply sin_rev_del.
- now apply cos_rev_del.
- apply (rev_mixed2_del T (@cos_rev)); [|easy..]. intros V a b Wa Wb. now apply cos_rev_del.
- now apply tan_rev_del.
- apply (rev_mixed2_del T (@tan_rev)); [|easy..]. intros V a b Wa Wb. now apply tan_rev_del.
Qed.
Lemma bin_del F G T f : bin F G T f -> forall x y, wf x -> wf y -> delivers (f x y) wf.
Proof.
destruct 1; intros x y Wx Wy.
- now apply (bin0_del _ _ _ _ H).
- now apply (bint_del _ _ _ _ H).
- now apply pown_rev_del.
- apply (rev_mixed2_del T (fun V c x => @pown_rev V fuel c x p)); [|easy..]. intros V a b Wa Wb. now apply pown_rev_del.
Qed.
Lemma tern_del F G H T f : tern F G H T f -> forall x y w, wf x -> wf y -> wf w -> delivers (f x y w) wf.
Proof.
destruct 1; intros x y w Wx Wy Ww.
- now apply fma_del.
- apply (mixed3_del T (@fma)); [|easy..]. intros V a b c Wa Wb Wc. now apply fma_del.
- apply mul_rev_del.
- apply (mixed3_del T (@mul_rev)); [|easy..]. intros V a b c Wa Wb Wc. apply mul_rev_del.
Qed.
Lemma two_del F G T f : two F G T f -> forall x y, wf x -> wf y -> delivers (f x y) (fun z => wf (fst z) /\ wf (snd z)).
Proof. destruct 1; intros x y Wx Wy; [now apply pair_del|now apply pair_mixed_del]. Qed.

(** ** Decorated functions *)
Lemma pos_dec_del F (x : ditv F) : valid_dec x -> delivers (pos_dec x) valid_dec. Proof. exact (d1 _ _ _ _ _ (@pos_decorates F) (nai_pos_dec F) vd_nai x). Qed.
Lemma neg_dec_del F (x : ditv F) : valid_dec x -> delivers (neg_dec x) valid_dec. Proof. exact (d1 _ _ _ _ _ (@neg_decorates F) (nai_neg_dec F) vd_nai x). Qed.
Lemma recip_dec_del F (x : ditv F) : valid_dec x -> delivers (recip_dec x) valid_dec. Proof. exact (d1 _ _ _ _ _ (@recip_decorates F) (nai_recip_dec F) vd_nai x). Qed.
Lemma sqr_dec_del F (x : ditv F) : valid_dec x -> delivers (sqr_dec x) valid_dec. Proof. exact (d1 _ _ _ _ _ (@sqr_decorates F) (nai_sqr_dec F) vd_nai x). Qed.
Lemma sqrt_dec_del F (x : ditv F) : valid_dec x -> delivers (sqrt_dec x) valid_dec. Proof. exact (d1 _ _ _ _ _ (@sqrt_decorates F) (nai_sqrt_dec F) vd_nai x). Qed.
Lemma abs_dec_del F (x : ditv F) : valid_dec x -> delivers (abs_dec x) valid_dec. Proof. exact (d1 _ _ _ _ _ (@abs_decorates F) (nai_abs_dec F) vd_nai x). Qed.
Lemma exp_dec_del F (x : ditv F) : valid_dec x -> delivers (exp_dec x) valid_dec. Proof. exact (d1 _ _ _ _ _ (@exp_decorates F) (nai_exp_dec F) vd_nai x). Qed.
Lemma exp2_dec_del F (x : ditv F) : valid_dec x -> delivers (exp2_dec x) valid_dec. Proof. exact (d1 _ _ _ _ _ (@exp2_decorates F) (nai_exp2_dec F) vd_nai x). Qed.
Lemma exp10_dec_del F (x : ditv F) : valid_dec x -> delivers (exp10_dec x) valid_dec. Proof. exact (d1 _ _ _ _ _ (@exp10_decorates F) (nai_exp10_dec F) vd_nai x). Qed.
Lemma log_dec_del F (x : ditv F) : valid_dec x -> delivers (log_dec x) valid_dec. Proof. exact (d1 _ _ _ _ _ (@log_decorates F) (nai_log_dec F) vd_nai x). Qed.
Lemma log2_dec_del F (x : ditv F) : valid_dec x -> delivers (log2_dec x) valid_dec. Proof. exact (d1 _ _ _ _ _ (@log2_decorates F) (nai_log2_dec F) vd_nai x). Qed.
Lemma log10_dec_del F (x : ditv F) : valid_dec x -> delivers (log10_dec x) valid_dec. Proof. exact (d1 _ _ _ _ _ (@log10_decorates F) (nai_log10_dec F) vd_nai x). Qed.
Lemma sin_dec_del F (x : ditv F) : valid_dec x -> delivers (sin_dec x) valid_dec. Proof. exact (d1 _ _ _ _ _ (@sin_decorates F) (nai_sin_dec F) vd_nai x). Qed.
Lemma cos_dec_del F (x : ditv F) : valid_dec x -> delivers (cos_dec x) valid_dec. Proof. exact (d1 _ _ _ _ _ (@cos_decorates F) (nai_cos_dec F) vd_nai x). Qed.
Lemma asin_dec_del F (x : ditv F) : valid_dec x -> delivers (asin_dec x) valid_dec. Proof. exact (d1 _ _ _ _ _ (@asin_decorates F) (nai_asin_dec F) vd_nai x). Qed.
Lemma acos_dec_del F (x : ditv F) : valid_dec x -> delivers (acos_dec x) valid_dec. Proof. exact (d1 _ _ _ _ _ (@acos_decorates F) (nai_acos_dec F) vd_nai x). Qed.
Lemma atan_dec_del F (x : ditv F) : valid_dec x -> delivers (atan_dec x) valid_dec. Proof. exact (d1 _ _ _ _ _ (@atan_decorates F) (nai_atan_dec F) vd_nai x). Qed.
Lemma sinh_dec_del F (x : ditv F) : valid_dec x -> delivers (sinh_dec x) valid_dec. Proof. exact (d1 _ _ _ _ _ (@sinh_decorates F) (nai_sinh_dec F) vd_nai x). Qed.
Lemma cosh_dec_del F (x : ditv F) : valid_dec x -> delivers (cosh_dec x) valid_dec. Proof. exact (d1 _ _ _ _ _ (@cosh_decorates F) (nai_cosh_dec F) vd_nai x). Qed.
Lemma tanh_dec_del F (x : ditv F) : valid_dec x -> delivers (tanh_dec x) valid_dec. Proof. exact (d1 _ _ _ _ _ (@tanh_decorates F) (nai_tanh_dec F) vd_nai x). Qed.
Lemma asinh_dec_del F (x : ditv F) : valid_dec x -> delivers (asinh_dec x) valid_dec. Proof. exact (d1 _ _ _ _ _ (@asinh_decorates F) (nai_asinh_dec F) vd_nai x). Qed.
Lemma acosh_dec_del F (x : ditv F) : valid_dec x -> delivers (acosh_dec x) valid_dec. Proof. exact (d1 _ _ _ _ _ (@acosh_decorates F) (nai_acosh_dec F) vd_nai x). Qed.
Lemma atanh_dec_del F (x : ditv F) : valid_dec x -> delivers (atanh_dec x) valid_dec. Proof. exact (d1 _ _ _ _ _ (@atanh_decorates F) (nai_atanh_dec F) vd_nai x). Qed.
Lemma sign_dec_del F (x : ditv F) : valid_dec x -> delivers (sign_dec x) valid_dec. Proof. exact (d1 _ _ _ _ _ (@sign_decorates F) (nai_sign_dec F) vd_nai x). Qed.
Lemma ceil_dec_del F (x : ditv F) : valid_dec x -> delivers (ceil_dec x) valid_dec. Proof. exact (d1 _ _ _ _ _ (@ceil_decorates F) (nai_ceil_dec F) vd_nai x). Qed.
Lemma floor_dec_del F (x : ditv F) : valid_dec x -> delivers (floor_dec x) valid_dec. Proof. exact (d1 _ _ _ _ _ (@floor_decorates F) (nai_floor_dec F) vd_nai x). Qed.
Lemma trunc_dec_del F (x : ditv F) : valid_dec x -> delivers (trunc_dec x) valid_dec. Proof. exact (d1 _ _ _ _ _ (@trunc_decorates F) (nai_trunc_dec F) vd_nai x). Qed.
Lemma rte_dec_del F (x : ditv F) : valid_dec x -> delivers (round_ties_to_even_dec x) valid_dec. Proof. exact (d1 _ _ _ _ _ (@rte_decorates F) (nai_round_ties_to_even_dec F) vd_nai x). Qed.
Lemma rta_dec_del F (x : ditv F) : valid_dec x -> delivers (round_ties_to_away_dec x) valid_dec. Proof. exact (d1 _ _ _ _ _ (@rta_decorates F) (nai_round_ties_to_away_dec F) vd_nai x). Qed.
Lemma pown_dec_del F p (x : ditv F) : valid_dec x -> delivers (pown_dec x p) valid_dec. Proof. exact (d1 _ _ _ _ _ (@pown_decorates F p) (nai_pown_dec F p) vd_nai x). Qed.
Lemma add_dec_del F (x y : ditv F) : valid_dec x -> valid_dec y -> delivers (add_dec x y) valid_dec. Proof. exact (d2 _ _ _ _ _ (@add_decorates F) (nai_add_dec F) vd_nai x y). Qed.
Lemma sub_dec_del F (x y : ditv F) : valid_dec x -> valid_dec y -> delivers (sub_dec x y) valid_dec. Proof. exact (d2 _ _ _ _ _ (@sub_decorates F) (nai_sub_dec F) vd_nai x y). Qed.
Lemma mul_dec_del F (x y : ditv F) : valid_dec x -> valid_dec y -> delivers (mul_dec x y) valid_dec. Proof. exact (d2 _ _ _ _ _ (@mul_decorates F) (nai_mul_dec F) vd_nai x y). Qed.
Lemma div_dec_del F (x y : ditv F) : valid_dec x -> valid_dec y -> delivers (div_dec x y) valid_dec. Proof. exact (d2 _ _ _ _ _ (@div_decorates F) (nai_div_dec F) vd_nai x y). Qed.
Lemma min_dec_del F (x y : ditv F) : valid_dec x -> valid_dec y -> delivers (min_dec x y) valid_dec. Proof. exact (d2 _ _ _ _ _ (@min_decorates F) (nai_min_dec F) vd_nai x y). Qed.
Lemma max_dec_del F (x y : ditv F) : valid_dec x -> valid_dec y -> delivers (max_dec x y) valid_dec. Proof. exact (d2 _ _ _ _ _ (@max_decorates F) (nai_max_dec F) vd_nai x y). Qed.
Lemma pow_dec_del F (x y : ditv F) : valid_dec x -> valid_dec y -> delivers (pow_dec x y) valid_dec. Proof. exact (d2 _ _ _ _ _ (@pow_decorates F) (nai_pow_dec F) vd_nai x y). Qed.
Lemma atan2_dec_del F (x y : ditv F) : valid_dec x -> valid_dec y -> delivers (atan2_dec x y) valid_dec. Proof. exact (d2 _ _ _ _ _ (@atan2_decorates F) (nai_atan2_dec F) vd_nai x y). Qed.
Lemma intersection_dec_del F (x y : ditv F) : valid_dec x -> valid_dec y -> delivers (intersection_dec x y) valid_dec.
Proof. intros _ _. unfold intersection_dec. apply del_mif; [apply del_ret, vd_nai|]. apply del_trv, del_inter. Qed.
Lemma convex_hull_dec_del F (x y : ditv F) : valid_dec x -> valid_dec y -> delivers (convex_hull_dec x y) valid_dec.
Proof. intros _ _. unfold convex_hull_dec. apply del_mif; [apply del_ret, vd_nai|]. apply del_trv, del_hull. Qed.
Lemma fma_dec_del F (x y w : ditv F) : valid_dec x -> valid_dec y -> valid_dec w -> delivers (fma_dec x y w) valid_dec.
Proof. exact (d3 _ _ _ _ (@fma_decorates F) (nai_fma_dec F) vd_nai x y w). Qed.

Lemma sqr_rev_dec_del F (c x : ditv F) : valid_dec c -> valid_dec x -> delivers (sqr_rev_dec c x) valid_dec. Proof. apply rev_dec2_del. intros; now apply sqr_rev_del. Qed.
Lemma abs_rev_dec_del F (c x : ditv F) : valid_dec c -> valid_dec x -> delivers (abs_rev_dec c x) valid_dec. Proof. apply rev_dec2_del. intros; now apply abs_rev_del. Qed.
Lemma cosh_rev_dec_del F (c x : ditv F) : valid_dec c -> valid_dec x -> delivers (cosh_rev_dec c x) valid_dec. Proof. apply rev_dec2_del. intros; now apply cosh_rev_del. Qed.
Lemma sin_rev_dec_del F (c x : ditv F) : valid_dec c -> valid_dec x -> delivers (sin_rev_dec c x) valid_dec. Proof. apply rev_dec2_del. intros; now apply sin_rev_del. Qed.
Lemma cos_rev_dec_del F (c x : ditv F) : valid_dec c -> valid_dec x -> delivers (cos_rev_dec c x) valid_dec. Proof. apply rev_dec2_del. intros; now apply cos_rev_del. Qed.
Lemma tan_rev_dec_del F (c x : ditv F) : valid_dec c -> valid_dec x -> delivers (tan_rev_dec c x) valid_dec. Proof. apply rev_dec2_del. intros; now apply tan_rev_del. Qed.
Lemma pown_rev_dec_del F fuel p (c x : ditv F) : valid_dec c -> valid_dec x -> delivers (pown_rev_dec fuel c x p) valid_dec.
Proof. apply rev_dec2_del. intros; now apply pown_rev_del. Qed.
Lemma dun0_del F T f : dun0 F T f -> forall x, valid_dec x -> delivers (f x) valid_dec.
Proof.
destruct 1; intros x W.
- now apply pos_dec_del.
- unfold pos_dec_mixed. apply del_mif; [apply del_ret, vd_nai|]. now apply conv_dec.
- now apply neg_dec_del.
- unfold neg_dec_mixed. apply del_mif; [apply del_ret, vd_nai|]. apply del_conv_dec. now apply neg_dec_del.
- now apply recip_dec_del.
- apply (mixed_dec1_del T (@recip_dec)); [|easy]. intros V y Wy. now apply recip_dec_del.
- now apply sqr_dec_del.
- apply (mixed_dec1_del T (@sqr_dec)); [|easy]. intros V y Wy. now apply sqr_dec_del.
- now apply sqrt_dec_del.
- apply (mixed_dec1_del T (@sqrt_dec)); [|easy]. intros V y Wy. now apply sqrt_dec_del.
- now apply abs_dec_del.
- apply (mixed_dec1_del T (@abs_dec)); [|easy]. intros V y Wy. now apply abs_dec_del.
- now apply exp_dec_del.
- apply (mixed_dec1_del T (@exp_dec)); [|easy]. intros V y Wy. now apply exp_dec_del.
- now apply exp2_dec_del.
- apply (mixed_dec1_del T (@exp2_dec)); [|easy]. intros V y Wy. now apply exp2_dec_del.
- now apply exp10_dec_del.
- apply (mixed_dec1_del T (@exp10_dec)); [|easy]. intros V y Wy. now apply exp10_dec_del.
- now apply log_dec_del.
- apply (mixed_dec1_del T (@log_dec)); [|easy]. intros V y Wy. now apply log_dec_del.
- now apply log2_dec_del.
- apply (mixed_dec1_del T (@log2_dec)); [|easy]. intros V y Wy. now apply log2_dec_del.
- now apply log10_dec_del.
- apply (mixed_dec1_del T (@log10_dec)); [|easy]. intros V y Wy. now apply log10_dec_del.
- now apply sin_dec_del.
- apply (mixed_dec1_del T (@sin_dec)); [|easy]. intros V y Wy. now apply sin_dec_del.
- now apply cos_dec_del.
- apply (mixed_dec1_del T (@cos_dec)); [|easy]. intros V y Wy. now apply cos_dec_del.
- now apply tan_dec_del.
- apply (mixed_dec1_del T (@tan_dec)); [|easy]. intros V y Wy. now apply tan_dec_del.
- now apply asin_dec_del.
- apply (mixed_dec1_del T (@asin_dec)); [|easy]. intros V y Wy. now apply asin_dec_del.
- now apply acos_dec_del.
- apply (mixed_dec1_del T (@acos_dec)); [|easy]. intros V y Wy. now apply acos_dec_del.
- now apply atan_dec_del.
- apply (mixed_dec1_del T (@atan_dec)); [|easy]. intros V y Wy. now apply atan_dec_del.
- now apply sinh_dec_del.
- apply (mixed_dec1_del T (@sinh_dec)); [|easy]. intros V y Wy. now apply sinh_dec_del.
- now apply cosh_dec_del.
- apply (mixed_dec1_del T (@cosh_dec)); [|easy]. intros V y Wy. now apply cosh_dec_del.
- now apply tanh_dec_del.
- apply (mixed_dec1_del T (@tanh_dec)); [|easy]. intros V y Wy. now apply tanh_dec_del.
- now apply asinh_dec_del.
- apply (mixed_dec1_del T (@asinh_dec)); [|easy]. intros V y Wy. now apply asinh_dec_del.
- now apply acosh_dec_del.
- apply (mixed_dec1_del T (@acosh_dec)); [|easy]. intros V y Wy. now apply acosh_dec_del.
- now apply atanh_dec_del.
- apply (mixed_dec1_del T (@atanh_dec)); [|easy]. intros V y Wy. now apply atanh_dec_del.
- now apply sign_dec_del.
- apply (mixed_dec1_del T (@sign_dec)); [|easy]. intros V y Wy. now apply sign_dec_del.
- now apply ceil_dec_del.
- apply (mixed_dec1_del T (@ceil_dec)); [|easy]. intros V y Wy. now apply ceil_dec_del.
- now apply floor_dec_del.
- apply (mixed_dec1_del T (@floor_dec)); [|easy]. intros V y Wy. now apply floor_dec_del.
- now apply trunc_dec_del.
- apply (mixed_dec1_del T (@trunc_dec)); [|easy]. intros V y Wy. now apply trunc_dec_del.
- now apply rte_dec_del.
- apply (mixed_dec1_del T (@round_ties_to_even_dec)); [|easy]. intros V y Wy. now apply rte_dec_del.
- now apply rta_dec_del.
- apply (mixed_dec1_del T (@round_ties_to_away_dec)); [|easy]. intros V y Wy. now apply rta_dec_del.
- now apply pown_dec_del.
- apply (mixed_dec1_del T (fun V v => @pown_dec V v p)); [|easy]. intros V y Wy. now apply pown_dec_del.
- unfold copy_dec. apply del_mif; [apply del_ret, vd_nai|now apply del_ret].
- unfold convert_type_dec. apply del_mif; [apply del_ret, vd_nai|]. now apply conv_dec.
- apply sqr_rev_dec_del; [easy|apply vd_entire].
- apply abs_rev_dec_del; [easy|apply vd_entire].
- apply cosh_rev_dec_del; [easy|apply vd_entire].
- apply sin_rev_dec_del; [easy|apply vd_entire].
- apply cos_rev_dec_del; [easy|apply vd_entire].
- apply tan_rev_dec_del; [easy|apply vd_entire].
- apply rev_mixed_dec2_del; [|easy|apply vd_entire]. intros a b Wa Wb. now apply (bin0_del _ _ _ _ (b_sqr_rev_mixed T F T)).
- apply rev_mixed_dec2_del; [|easy|apply vd_entire]. intros a b Wa Wb. now apply (bin0_del _ _ _ _ (b_abs_rev_mixed T F T)).
- apply rev_mixed_dec2_del; [|easy|apply vd_entire]. intros a b Wa Wb. now apply (bin0_del _ _ _ _ (b_cosh_rev_mixed T F T)).
- apply rev_mixed_dec2_del; [|easy|apply vd_entire]. intros a b Wa Wb. now apply (bint_del _ _ _ _ (b_sin_rev_mixed T F T)).
- apply rev_mixed_dec2_del; [|easy|apply vd_entire]. intros a b Wa Wb. now apply (bint_del _ _ _ _ (b_cos_rev_mixed T F T)).
- apply rev_mixed_dec2_del; [|easy|apply vd_entire]. intros a b Wa Wb. now apply (bint_del _ _ _ _ (b_tan_rev_mixed T F T)).
Qed.
Lemma dun_del F T f : dun F T f -> forall x, valid_dec x -> delivers (f x) valid_dec.
Proof.
destruct 1; intros x W.
- now apply (dun0_del _ _ _ H).
- apply pown_rev_dec_del; [easy|apply vd_entire].
- apply rev_mixed_dec2_del; [|easy|apply vd_entire]. intros a b Wa Wb. now apply (bin_del _ _ _ _ (b_pown_rev_mixed T F T fuel p)).
Qed.
Lemma dbin0_del F G T f : dbin0 F G T f -> forall x y, valid_dec x -> valid_dec y -> delivers (f x y) valid_dec.
Proof.
destruct 1; intros x y Wx Wy.
- now apply add_dec_del.
- apply (mixed_dec2_del T (@add_dec)); [|easy..]. intros V a b Wa Wb. now apply add_dec_del.
- now apply sub_dec_del.
- apply (mixed_dec2_del T (@sub_dec)); [|easy..]. intros V a b Wa Wb. now apply sub_dec_del.
- now apply mul_dec_del.
- apply (mixed_dec2_del T (@mul_dec)); [|easy..]. intros V a b Wa Wb. now apply mul_dec_del.
- now apply div_dec_del.
- apply (mixed_dec2_del T (@div_dec)); [|easy..]. intros V a b Wa Wb. now apply div_dec_del.
- now apply min_dec_del.
- apply (mixed_dec2_del T (@min_dec)); [|easy..]. intros V a b Wa Wb. now apply min_dec_del.
- now apply max_dec_del.
- apply (mixed_dec2_del T (@max_dec)); [|easy..]. intros V a b Wa Wb. now apply max_dec_del.
- now apply pow_dec_del.
- apply (mixed_dec2_del T (@pow_dec)); [|easy..]. intros V a b Wa Wb. now apply pow_dec_del.
- now apply atan2_dec_del.
- apply (mixed_dec2_del T (@atan2_dec)); [|easy..]. intros V a b Wa Wb. now apply atan2_dec_del.
- now apply intersection_dec_del.
- apply (mixed_dec2_del T (@intersection_dec)); [|easy..]. intros V a b Wa Wb. now apply intersection_dec_del.
- now apply convex_hull_dec_del.
- apply (mixed_dec2_del T (@convex_hull_dec)); [|easy..]. intros V a b Wa Wb. now apply convex_hull_dec_del.
- now apply sqr_rev_dec_del.
- apply rev_mixed_dec2_del; [|easy..]. intros a b Wa Wb. now apply (bin0_del _ _ _ _ (b_sqr_rev_mixed T F G)).
- now apply abs_rev_dec_del.
- apply rev_mixed_dec2_del; [|easy..]. intros a b Wa Wb. now apply (bin0_del _ _ _ _ (b_abs_rev_mixed T F G)).
- now apply cosh_rev_dec_del.
- apply rev_mixed_dec2_del; [|easy..]. intros a b Wa Wb. now apply (bin0_del _ _ _ _ (b_cosh_rev_mixed T F G)).
- apply mul_rev_dec_del.
- apply mul_rev_dec_mixed_del.
Qed.
Lemma dbint_del F G T f : dbint F G T f -> forall x y, valid_dec x -> valid_dec y -> delivers (f x y) valid_dec.
Proof.
destruct 1; intros x y Wx Wy.
- now apply sin_rev_dec_del.
- apply rev_mixed_dec2_del; [|easy..]. intros a b Wa Wb. now apply (bint_del _ _ _ _ (b_sin_rev_mixed T F G)).
- now apply cos_rev_dec_del.
- apply rev_mixed_dec2_del; [|easy..]. intros a b Wa Wb. now apply (bint_del _ _ _ _ (b_cos_rev_mixed T F G)).
- now apply tan_rev_dec_del.
- apply rev_mixed_dec2_del; [|easy..]. intros a b Wa Wb. now apply (bint_del _ _ _ _ (b_tan_rev_mixed T F G)).
Qed.
Lemma dbin_del F G T f : dbin F G T f -> forall x y, valid_dec x -> valid_dec y -> delivers (f x y) valid_dec.
Proof.
destruct 1; intros x y Wx Wy.
- now apply (dbin0_del _ _ _ _ H).
- now apply (dbint_del _ _ _ _ H).
- now apply pown_rev_dec_del.
- apply rev_mixed_dec2_del; [|easy..]. intros a b Wa Wb. now apply (bin_del _ _ _ _ (b_pown_rev_mixed T F G fuel p)).
Qed.
Lemma dtern_del F G H T f : dtern F G H T f -> forall x y w, valid_dec x -> valid_dec y -> valid_dec w -> delivers (f x y w) valid_dec.
Proof.
destruct 1; intros x y w Wx Wy Ww.
- now apply fma_dec_del.
- apply (mixed_dec3_del T (@fma_dec)); [|easy..]. intros V a b c Wa Wb Wc. now apply fma_dec_del.
- apply mul_rev_dec_del.
- apply mul_rev_dec_mixed_del.
Qed.
Lemma dtwo_del F G T f : dtwo F G T f -> forall x y, valid_dec x -> valid_dec y -> delivers (f x y) both_valid_dec.
Proof. destruct 1; intros x y Wx Wy; [now apply pair_dec_del|now apply pair_dec_mixed_del]. Qed.

(** ** Cancellative operations with tame operands *)
Lemma canc_del F G T f : canc F G T f -> forall x y, tame T F G x y -> wf x -> wf y -> delivers (f x y) wf.
Proof.
destruct 1; intros x y (C1 & C2 & C3 & M1 & M2 & M3 & M4) Wx Wy.
- now apply minus_del.
- now apply minus_mixed_del.
- now apply plus_del.
- now apply plus_mixed_del.
Qed.
Lemma dcanc_del F G T f : dcanc F G T f -> forall x y, tame T F G (fst x) (fst y) -> valid_dec x -> valid_dec y -> delivers (f x y) valid_dec.
Proof.
destruct 1; intros x y (C1 & C2 & C3 & M1 & M2 & M3 & M4) Wx Wy.
- now apply minus_dec_del.
- now apply minus_dec_mixed_del.
- now apply plus_dec_del.
- now apply plus_dec_mixed_del.
Qed.

(** ** Everything that can be built *)
Scheme built_mut := Induction for built Sort Prop with dbuilt_mut := Induction for dbuilt Sort Prop.
Lemma built_gen (P : forall T F G, itv F -> itv G -> Prop) :
  (forall F G T f, canc F G T f -> forall x y, P T F G x y -> wf x -> wf y -> delivers (f x y) wf) ->
  (forall F G T f, dcanc F G T f -> forall x y, P T F G (fst x) (fst y) -> valid_dec x -> valid_dec y -> delivers (f x y) valid_dec) ->
  (forall F x, built P F x -> wf x) /\ (forall F x, dbuilt P F x -> valid_dec x).
Proof.
intros HC HD.
split; [apply (built_mut P (fun F x _ => wf x) (fun F x _ => valid_dec x))
       |apply (dbuilt_mut P (fun F x _ => wf x) (fun F x _ => valid_dec x))]; intros;
  try solve [apply wf_empty | apply wf_entire | apply vd_nai | apply vd_empty | apply vd_entire];
  match goal with
  | H : nums_to_interval _ _ _ = _ |- _ => exact (nums_del _ _ _ _ _ H)
  | C : comparable _ _, H : nums_to_interval_mixed _ _ _ _ = _ |- _ => exact (nums_mixed_del _ C _ _ _ _ _ H)
  | H : text_to_interval _ _ = _ |- _ => exact (text_itv_del _ _ _ _ H)
  | H : read_itv _ _ = _ |- _ => exact (read_itv_del _ _ _ _ H _ eq_refl)
  | U : un _ _ _, H : _ = (Ret _, _) |- _ => exact (un_del _ _ _ U _ ltac:(eassumption) _ _ _ H)
  | U : bin _ _ _ _, H : _ = (Ret _, _) |- _ => exact (bin_del _ _ _ _ U _ _ ltac:(eassumption) ltac:(eassumption) _ _ _ H)
  | U : tern _ _ _ _ _, H : _ = (Ret _, _) |- _ => exact (tern_del _ _ _ _ _ U _ _ _ ltac:(eassumption) ltac:(eassumption) ltac:(eassumption) _ _ _ H)
  | U : two _ _ _ _, H : _ = (Ret (?z, ?v), _) |- wf ?z => exact (proj1 (two_del _ _ _ _ U _ _ ltac:(eassumption) ltac:(eassumption) _ _ _ H))
  | U : two _ _ _ _, H : _ = (Ret (?z, ?v), _) |- wf ?v => exact (proj2 (two_del _ _ _ _ U _ _ ltac:(eassumption) ltac:(eassumption) _ _ _ H))
  | U : canc _ _ _ _, H : _ = (Ret _, _) |- _ => exact (HC _ _ _ _ U _ _ ltac:(eassumption) ltac:(eassumption) ltac:(eassumption) _ _ _ H)
  | H : interval_part _ _ = _ |- _ => exact (interval_part_del _ ltac:(eassumption) _ _ _ H)
  | H : interval_part_mixed _ _ _ = _ |- _ => exact (interval_part_mixed_del _ _ ltac:(eassumption) _ _ _ H)
  | H : new_dec _ _ = _ |- _ => exact (new_dec_del _ _ _ _ H)
  | H : new_dec_mixed _ _ _ = _ |- _ => exact (new_dec_mixed_del _ _ ltac:(eassumption) _ _ _ H)
  | H : set_dec _ _ _ = _ |- _ => exact (set_dec_del _ _ _ _ _ H)
  | H : set_dec_mixed _ _ _ _ = _ |- _ => exact (set_dec_mixed_del _ _ _ _ _ _ H)
  | H : nums_to_decorated_interval _ _ _ = _ |- _ => exact (nums_d_del _ _ _ _ _ H)
  | C : comparable _ _, H : nums_to_decorated_interval_mixed _ _ _ _ = _ |- _ => exact (nums_d_mixed_del _ _ _ _ _ _ H)
  | H : nums_dec_to_decorated_interval _ _ _ _ = _ |- _ => exact (nums_dec_del _ _ _ _ _ _ H)
  | C : comparable _ _, H : nums_dec_to_decorated_interval_mixed _ _ _ _ _ = _ |- _ => exact (nums_dec_mixed_del _ C _ _ _ _ _ _ H)
  | H : text_to_decorated_interval _ _ = _ |- _ => exact (text_ditv_del _ _ _ _ H)
  | H : read_ditv _ _ = _ |- _ => exact (read_ditv_del _ _ _ _ H _ eq_refl)
  | U : dun _ _ _, H : _ = (Ret _, _) |- _ => exact (dun_del _ _ _ U _ ltac:(eassumption) _ _ _ H)
  | U : dbin _ _ _ _, H : _ = (Ret _, _) |- _ => exact (dbin_del _ _ _ _ U _ _ ltac:(eassumption) ltac:(eassumption) _ _ _ H)
  | U : dtern _ _ _ _ _, H : _ = (Ret _, _) |- _ => exact (dtern_del _ _ _ _ _ U _ _ _ ltac:(eassumption) ltac:(eassumption) ltac:(eassumption) _ _ _ H)
  | U : dtwo _ _ _ _, H : _ = (Ret (?z, ?v), _) |- valid_dec ?z => exact (proj1 (dtwo_del _ _ _ _ U _ _ ltac:(eassumption) ltac:(eassumption) _ _ _ H))
  | U : dtwo _ _ _ _, H : _ = (Ret (?z, ?v), _) |- valid_dec ?v => exact (proj2 (dtwo_del _ _ _ _ U _ _ ltac:(eassumption) ltac:(eassumption) _ _ _ H))
  | U : dcanc _ _ _ _, H : _ = (Ret _, _) |- _ => exact (HD _ _ _ _ U _ _ ltac:(eassumption) ltac:(eassumption) ltac:(eassumption) _ _ _ H)
  end.
Qed.
Lemma built_both : (forall F x, built tame F x -> wf x) /\ (forall F x, dbuilt tame F x -> valid_dec x).
Proof. exact (built_gen tame canc_del dcanc_del). Qed.
Lemma built_wf F x : built tame F x -> wf x. Proof. apply built_both. Qed.
Lemma dbuilt_valid F x : dbuilt tame F x -> valid_dec x. Proof. apply built_both. Qed.

