(** * Proofs: the laws *)
From Coq Require Import ZArith NArith Reals Bool Lia Lra Psatz List.
From Flocq Require Import Core.Core IEEE754.BinarySingleNaN.
From Verif Require Import Fmt Spec FloatFacts Exc Deco SpecApi SpecElem SpecDeco SpecNum MBase PBase MBool MArith MElem MPow MTrig PArith PMul PFma PDiv PUnary PElem PElem2
  PConv PBool PSetop PDec PPown PPow PTrigT PRevEven SpecAlg PAlg Ex.
Local Open Scope R_scope.
Local Open Scope m_scope.

Section L.
Context {F : fmt}.
Implicit Types x y z w o : itv F.

(** *** Commutativity *)
Lemma law_add_comm x y : wf x -> wf y -> agree (add x y) (add y x).
Proof. intros Wx Wy. apply (comm_law add Rplus x y Wx Wy add_tightest Rplus_comm). Qed.
Lemma law_mul_comm x y : wf x -> wf y -> agree (mul x y) (mul y x).
Proof. intros Wx Wy. apply (comm_law mul Rmult x y Wx Wy mul_tightest Rmult_comm). Qed.
Lemma law_min_comm x y : wf x -> wf y -> agree (min x y) (min y x).
Proof. intros Wx Wy. apply (comm_law min Rmin x y Wx Wy min_tightest Rmin_comm). Qed.
Lemma law_max_comm x y : wf x -> wf y -> agree (max x y) (max y x).
Proof. intros Wx Wy. apply (comm_law max Rmax x y Wx Wy max_tightest Rmax_comm). Qed.
Lemma law_fma_comm x y z : wf x -> wf y -> wf z -> agree (fma x y z) (fma y x z).
Proof.
intros Wx Wy Wz. apply (agree_of _ _ _ _ (fma_tightest x y z Wx Wy Wz) (fma_tightest y x z Wy Wx Wz)).
intros t. split; intros (r & s & u & Hr & Hs & Hu & ->); exists s, r, u; repeat split; try apply Hr; try apply Hs; try apply Hu; ring.
Qed.

(** *** Negation *)
Lemma law_neg_neg x : wf x -> agree (y <- neg x; neg y) (ret x).
Proof.
intros Wx. destruct (neg_exact x Wx) as (y & E & W & H). rewrite E. mreds. destruct (neg_exact y W) as (z & E' & W' & H').
exists z, x. rewrite E'. split; [easy|]. split; [easy|]. intros r. now rewrite H', H, Ropp_involutive.
Qed.
Lemma law_sub_neg x y : wf x -> wf y -> agree (y' <- neg y; add x y') (sub x y).
Proof.
intros Wx Wy. apply (agree_neg_in (add x) _ y (image2 everywhere2 Rplus x) _ Wy (fun z W => add_tightest x z Wx W) (sub_tightest x y Wx Wy)).
intros z t H. split; intros (r & s & Hr & Hs & _ & ->); exists r, (- s); (split; [easy|]); (split; [|split; [easy|ring]]).
- now apply H.
- apply H. now rewrite Ropp_involutive.
Qed.
Lemma law_neg_sub x y : wf x -> wf y -> agree (z <- sub x y; neg z) (sub y x).
Proof.
intros Wx Wy. apply (agree_of _ _ _ _ (ct_neg _ _ (sub_tightest x y Wx Wy)) (sub_tightest y x Wy Wx)).
intros t. split; intros (r & s & Hr & Hs & _ & E); exists s, r; (split; [easy|]); (split; [easy|split; [easy|lra]]).
Qed.
Lemma law_neg_add x y : wf x -> wf y -> agree (x' <- neg x; y' <- neg y; add x' y') (z <- add x y; neg z).
Proof.
intros Wx Wy. destruct (neg_exact x Wx) as (x' & E & W & H). rewrite E. mreds.
apply (agree_neg_in (add x') _ y (image2 everywhere2 Rplus x') _ Wy (fun z Wz => add_tightest x' z W Wz) (ct_neg _ _ (add_tightest x y Wx Wy))).
intros y' t H'. split; intros (r & s & Hr & Hs & _ & Et); exists (- r), (- s).
- repeat split; try (apply H; easy); try (apply H'; easy); lra.
- split; [apply H; now rewrite Ropp_involutive|]. split; [apply H'; now rewrite Ropp_involutive|]. split; [easy|lra].
Qed.
Lemma law_mul_neg x y : wf x -> wf y -> agree (y' <- neg y; mul x y') (z <- mul x y; neg z).
Proof.
intros Wx Wy. apply (agree_neg_in (mul x) _ y (image2 everywhere2 Rmult x) _ Wy (fun z W => mul_tightest x z Wx W) (ct_neg _ _ (mul_tightest x y Wx Wy))).
intros z t H. split; intros (r & s & Hr & Hs & _ & E); exists r, (- s); (split; [easy|]).
- split; [now apply H|]. split; [easy|lra].
- split; [apply H; now rewrite Ropp_involutive|]. split; [easy|lra].
Qed.
Lemma law_div_neg x y : wf x -> wf y -> agree (y' <- neg y; div x y') (z <- div x y; neg z).
Proof.
intros Wx Wy. apply (agree_neg_in (div x) _ y (image2 (fun _ s => s <> 0) Rdiv x) _ Wy (fun z W => div_tightest x z Wx W) (ct_neg _ _ (div_tightest x y Wx Wy))).
intros z t H. split; intros (r & s & Hr & Hs & N & E); exists r, (- s); (split; [easy|]).
- split; [now apply H|]. split; [lra|]. rewrite E. field. lra.
- split; [apply H; now rewrite Ropp_involutive|]. split; [lra|]. replace t with (- - t) by ring. rewrite E. field. lra.
Qed.
Lemma law_recip_neg x : wf x -> agree (x' <- neg x; recip x') (z <- recip x; neg z).
Proof. intros Wx. apply (odd_law recip (fun r => r <> 0) Rinv x Wx recip_tightest); intros r Nr; [lra|]. now apply Rinv_opp. Qed.
Lemma law_min_max x y : wf x -> wf y -> agree (x' <- neg x; y' <- neg y; max x' y') (z <- min x y; neg z).
Proof.
intros Wx Wy. destruct (neg_exact x Wx) as (x' & E & W & H). rewrite E. mreds.
apply (agree_neg_in (max x') _ y (image2 everywhere2 Rmax x') _ Wy (fun z Wz => max_tightest x' z W Wz) (ct_neg _ _ (min_tightest x y Wx Wy))).
assert (O : forall r s, Rmin (- r) (- s) = - Rmax r s) by (intros; unfold Rmin, Rmax; destruct (Rle_dec (- r) (- s)), (Rle_dec r s); lra).
intros y' t H'. split; intros (r & s & Hr & Hs & _ & Et); exists (- r), (- s).
- split; [now apply H|]. split; [now apply H'|]. split; [easy|]. rewrite O. lra.
- split; [apply H; now rewrite Ropp_involutive|]. split; [apply H'; now rewrite Ropp_involutive|]. split; [easy|].
  rewrite <- (Ropp_involutive (Rmax _ _)), <- O, !Ropp_involutive. lra.
Qed.

(** *** Even and odd functions *)
Lemma law_abs_even x : wf x -> agree (x' <- neg x; abs x') (abs x).
Proof. intros W. apply (even_law abs everywhere Rabs x W abs_tightest); intros r _; [easy|apply Rabs_Ropp]. Qed.
Lemma law_sqr_even x : wf x -> agree (x' <- neg x; sqr x') (sqr x).
Proof. intros W. apply (even_law sqr everywhere (fun r => r * r) x W sqr_tightest); intros r _; [easy|ring]. Qed.
Lemma law_cos_even x : wf x -> agree (x' <- neg x; cos_itv x') (cos_itv x).
Proof. intros W. apply (even_law cos_itv everywhere cos x W cos_tightest); intros r _; [easy|apply cos_neg]. Qed.
Lemma law_cosh_even x : wf x -> agree (x' <- neg x; cosh_itv x') (cosh_itv x).
Proof. intros W. apply (even_law cosh_itv everywhere cosh x W cosh_tightest); intros r _; [easy|]. unfold cosh. rewrite Ropp_involutive. lra. Qed.
Lemma law_sin_odd x : wf x -> agree (x' <- neg x; sin_itv x') (z <- sin_itv x; neg z).
Proof. intros W. apply (odd_law sin_itv everywhere sin x W sin_tightest); intros r _; [easy|apply sin_neg]. Qed.
Lemma law_asin_odd x : wf x -> agree (x' <- neg x; asin_itv x') (z <- asin_itv x; neg z).
Proof. intros W. apply (odd_law asin_itv within1 asin x W asin_tightest); intros r D; [unfold within1 in *; lra|apply asin_opp]. Qed.
Lemma law_atan_odd x : wf x -> agree (x' <- neg x; atan_itv x') (z <- atan_itv x; neg z).
Proof. intros W. apply (odd_law atan_itv everywhere atan x W atan_tightest); intros r _; [easy|apply atan_opp]. Qed.
Lemma law_sinh_odd x : wf x -> agree (x' <- neg x; sinh_itv x') (z <- sinh_itv x; neg z).
Proof. intros W. apply (odd_law sinh_itv everywhere sinh x W sinh_tightest); intros r _; [easy|]. unfold sinh. rewrite Ropp_involutive. lra. Qed.
Lemma law_tanh_odd x : wf x -> agree (x' <- neg x; tanh_itv x') (z <- tanh_itv x; neg z).
Proof.
intros W. apply (odd_law tanh_itv everywhere tanh x W tanh_tightest); intros r _; [easy|]. unfold tanh, sinh, cosh. rewrite Ropp_involutive.
pose proof (exp_pos r). pose proof (exp_pos (- r)). field. lra.
Qed.
Lemma arcsinh_opp r : arcsinh (- r) = - arcsinh r.
Proof.
rewrite <- (arcsinh_sinh (- arcsinh r)). f_equal. unfold sinh at 1. rewrite Ropp_involutive.
replace ((exp (- arcsinh r) - exp (arcsinh r)) / 2) with (- sinh (arcsinh r)) by (unfold sinh; lra). now rewrite sinh_arcsinh.
Qed.
Lemma law_asinh_odd x : wf x -> agree (x' <- neg x; asinh_itv x') (z <- asinh_itv x; neg z).
Proof. intros W. apply (odd_law asinh_itv everywhere arcsinh x W asinh_tightest); intros r _; [easy|apply arcsinh_opp]. Qed.
Lemma law_atanh_odd x : wf x -> agree (x' <- neg x; atanh_itv x') (z <- atanh_itv x; neg z).
Proof.
intros W. apply (odd_law atanh_itv inside1 atanhR x W atanh_tightest); unfold inside1; intros r D; [lra|]. unfold atanhR.
replace ((1 + - r) / (1 - - r)) with (/ ((1 + r) / (1 - r))) by (field; lra). rewrite ln_Rinv; [lra|]. apply Rdiv_lt_0_compat; lra.
Qed.
Lemma signR_opp r : signR (- r) = - signR r.
Proof. unfold signR. destruct (Rlt_dec (- r) 0), (Rlt_dec 0 (- r)), (Rlt_dec r 0), (Rlt_dec 0 r); lra. Qed.
Lemma law_sign_odd x : wf x -> agree (x' <- neg x; sign_itv x') (z <- sign_itv x; neg z).
Proof. intros W. apply (odd_law sign_itv everywhere signR x W sign_tightest); intros r _; [easy|apply signR_opp]. Qed.
Lemma floor_opp r : floorR (- r) = - ceilR r.
Proof. unfold floorR, ceilR, Zceil. now rewrite opp_IZR, Ropp_involutive. Qed.
Lemma ceil_opp r : ceilR (- r) = - floorR r.
Proof. unfold floorR, ceilR, Zceil. now rewrite opp_IZR, Ropp_involutive. Qed.
Lemma law_floor_ceil x : wf x -> agree (x' <- neg x; floor_itv x') (z <- ceil_itv x; neg z).
Proof.
intros W. apply (agree_neg_in floor_itv _ x (image1 everywhere floorR) _ W floor_tightest (ct_neg _ _ (ceil_tightest x W))).
intros y t H. rewrite (im1_neg _ _ x y t H). split; intros (r & Hr & _ & E); exists r; (split; [easy|]); (split; [easy|]).
- rewrite E, floor_opp. ring.
- rewrite floor_opp, <- E. ring.
Qed.
Lemma truncR_opp r : truncR (- r) = - truncR r.
Proof.
unfold truncR. destruct (Rlt_dec (- r) 0), (Rlt_dec r 0); try lra.
- apply ceil_opp.
- apply floor_opp.
- assert (r = 0) as -> by lra. rewrite Ropp_0. unfold floorR. rewrite Zfloor_IZR. lra.
Qed.
Lemma law_trunc_odd x : wf x -> agree (x' <- neg x; trunc_itv x') (z <- trunc_itv x; neg z).
Proof. intros W. apply (odd_law trunc_itv everywhere truncR x W trunc_tightest); intros r _; [easy|apply truncR_opp]. Qed.
Lemma Znearest_choice c1 c2 r : (forall t, c1 t = c2 t) -> Znearest c1 r = Znearest c2 r.
Proof. intros H. unfold Znearest. destruct Rcompare; try easy. now rewrite H. Qed.
Lemma rteR_opp r : rteR (- r) = - rteR r.
Proof.
unfold rteR. rewrite Znearest_opp, opp_IZR. do 2 f_equal. apply Znearest_choice. intros t. rewrite negb_involutive, Z.even_opp, Z.even_add.
now destruct (Z.even t).
Qed.
Lemma rtaR_opp r : rtaR (- r) = - rtaR r.
Proof.
unfold rtaR. rewrite Znearest_opp, opp_IZR. do 2 f_equal. apply Znearest_choice. intros t.
destruct (Z.leb_spec 0 (- (t + 1))), (Z.leb_spec 0 t); try easy; lia.
Qed.
Lemma law_rte_odd x : wf x -> agree (x' <- neg x; round_ties_to_even_itv x') (z <- round_ties_to_even_itv x; neg z).
Proof. intros W. apply (odd_law round_ties_to_even_itv everywhere rteR x W rte_tightest); intros r _; [easy|apply rteR_opp]. Qed.
Lemma law_rta_odd x : wf x -> agree (x' <- neg x; round_ties_to_away_itv x') (z <- round_ties_to_away_itv x; neg z).
Proof. intros W. apply (odd_law round_ties_to_away_itv everywhere rtaR x W rta_tightest); intros r _; [easy|apply rtaR_opp]. Qed.

(** *** The same function by another operation *)
Lemma law_sqr_pown x : wf x -> agree (pown x 2) (sqr x).
Proof.
intros W. apply (agree_of _ _ _ _ (pown_tightest x 2 W) (sqr_tightest x W)). intros t. unfold pown_dom, pownR.
split; intros (r & Hr & _ & ->); exists r; (split; [easy|]).
- split; [easy|]. simpl. ring.
- split; [lia|]. simpl. ring.
Qed.
Lemma law_pown_1 x : wf x -> agree (pown x 1) (ret x).
Proof.
intros W. apply (agree_of _ (ret x) _ (fun t => mem t x) (pown_tightest x 1 W)).
- exists x. split; [easy|]. now apply tightest_self.
- intros t. unfold pown_dom, pownR. split.
  + intros (r & Hr & _ & ->). now rewrite powerRZ_1.
  + intros Ht. exists t. split; [easy|]. split; [lia|]. now rewrite powerRZ_1.
Qed.
Lemma law_pown_m1 x : wf x -> agree (pown x (-1)) (recip x).
Proof.
intros W. apply (agree_of _ _ _ _ (pown_tightest x (-1) W) (recip_tightest x W)). intros t. unfold pown_dom, pownR.
split; intros (r & Hr & D & ->); exists r; (split; [easy|]).
- split; [apply D; lia|]. simpl. now rewrite Rmult_1_r.
- split; [easy|]. simpl. now rewrite Rmult_1_r.
Qed.
Lemma law_recip_div x o : wf x -> wf o -> is_point 1 o -> agree (div o x) (recip x).
Proof.
intros W Wo H. apply (agree_of _ _ _ _ (div_tightest o x Wo W) (recip_tightest x W)). intros t. split.
- intros (r & s & Hr & Hs & N & ->). apply H in Hr. subst r. exists s. split; [easy|]. split; [easy|]. unfold Rdiv. ring.
- intros (s & Hs & N & ->). exists 1, s. split; [now apply H|]. split; [easy|]. split; [easy|]. unfold Rdiv. ring.
Qed.
Lemma law_fma_mul x y o : wf x -> wf y -> wf o -> is_point 0 o -> agree (fma x y o) (mul x y).
Proof.
intros Wx Wy Wo H. apply (agree_of _ _ _ _ (fma_tightest x y o Wx Wy Wo) (mul_tightest x y Wx Wy)). intros t. split.
- intros (r & s & u & Hr & Hs & Hu & ->). apply H in Hu. subst u. exists r, s. repeat split; try apply Hr; try apply Hs. ring.
- intros (r & s & Hr & Hs & _ & ->). exists r, s, 0. split; [easy|]. split; [easy|]. split; [now apply H|]. ring.
Qed.
Lemma law_fma_add x z o : wf x -> wf z -> wf o -> is_point 1 o -> agree (fma x o z) (add x z).
Proof.
intros Wx Wz Wo H. apply (agree_of _ _ _ _ (fma_tightest x o z Wx Wo Wz) (add_tightest x z Wx Wz)). intros t. split.
- intros (r & s & u & Hr & Hs & Hu & ->). apply H in Hs. subst s. exists r, u. repeat split; try apply Hr; try apply Hu. ring.
- intros (r & s & Hr & Hs & _ & ->). exists r, 1, s. split; [easy|]. split; [now apply H|]. split; [easy|]. ring.
Qed.
Lemma law_add_0 x o : wf x -> wf o -> is_point 0 o -> agree (add x o) (ret x).
Proof.
intros W Wo H. apply (agree_of _ (ret x) _ (fun t => mem t x) (add_tightest x o W Wo)).
- exists x. split; [easy|]. now apply tightest_self.
- intros t. split.
  + intros (r & s & Hr & Hs & _ & ->). apply H in Hs. subst s. now rewrite Rplus_0_r.
  + intros Ht. exists t, 0. split; [easy|]. split; [now apply H|]. split; [easy|ring].
Qed.
Lemma law_mul_1 x o : wf x -> wf o -> is_point 1 o -> agree (mul x o) (ret x).
Proof.
intros W Wo H. apply (agree_of _ (ret x) _ (fun t => mem t x) (mul_tightest x o W Wo)).
- exists x. split; [easy|]. now apply tightest_self.
- intros t. split.
  + intros (r & s & Hr & Hs & _ & ->). apply H in Hs. subst s. now rewrite Rmult_1_r.
  + intros Ht. exists t, 1. split; [easy|]. split; [now apply H|]. split; [easy|ring].
Qed.
Lemma law_mul_0 x o : wf x -> (exists r, mem r x) -> wf o -> is_point 0 o -> agree (mul x o) (ret o).
Proof.
intros W [r0 H0] Wo H. apply (agree_of _ (ret o) _ (fun t => mem t o) (mul_tightest x o W Wo)).
- exists o. split; [easy|]. now apply tightest_self.
- intros t. split.
  + intros (r & s & Hr & Hs & _ & ->). apply H in Hs. subst s. apply H. ring.
  + intros Ht. exists r0, 0. split; [easy|]. split; [now apply H|]. split; [easy|]. apply H in Ht. rewrite Ht. ring.
Qed.
Lemma law_div_1 x o : wf x -> wf o -> is_point 1 o -> agree (div x o) (ret x).
Proof.
intros W Wo H. apply (agree_of _ (ret x) _ (fun t => mem t x) (div_tightest x o W Wo)).
- exists x. split; [easy|]. now apply tightest_self.
- intros t. split.
  + intros (r & s & Hr & Hs & _ & ->). apply H in Hs. subst s. unfold Rdiv. now rewrite Rinv_1, Rmult_1_r.
  + intros Ht. exists t, 1. split; [easy|]. split; [now apply H|]. split; [lra|]. field.
Qed.
Lemma law_exp2_pow x o : wf x -> wf o -> is_point 2 o -> agree (pow o x) (exp2_itv x).
Proof.
intros W Wo H. apply (agree_of _ _ _ _ (pow_tightest o x Wo W) (exp2_tightest x W)). intros t. unfold pow_dom, powR, exp2R. split.
- intros (r & s & Hr & Hs & _ & ->). apply H in Hr. subst r. exists s. split; [easy|]. split; [easy|]. destruct (Req_EM_T 2 0); [lra|easy].
- intros (s & Hs & _ & ->). exists 2, s. split; [now apply H|]. split; [easy|]. split; [left; lra|]. destruct (Req_EM_T 2 0); [lra|easy].
Qed.
Lemma law_exp10_pow x o : wf x -> wf o -> is_point 10 o -> agree (pow o x) (exp10_itv x).
Proof.
intros W Wo H. apply (agree_of _ _ _ _ (pow_tightest o x Wo W) (exp10_tightest x W)). intros t. unfold pow_dom, powR, exp10R. split.
- intros (r & s & Hr & Hs & _ & ->). apply H in Hr. subst r. exists s. split; [easy|]. split; [easy|]. destruct (Req_EM_T 10 0); [lra|easy].
- intros (s & Hs & _ & ->). exists 10, s. split; [now apply H|]. split; [easy|]. split; [left; lra|]. destruct (Req_EM_T 10 0); [lra|easy].
Qed.
Lemma law_sqrt_pow x o : wf x -> wf o -> is_point (/ 2) o -> agree (pow x o) (sqrt x).
Proof.
intros W Wo H. apply (agree_of _ _ _ _ (pow_tightest x o W Wo) (sqrt_tightest x W)). intros t. unfold pow_dom, powR. split.
- intros (r & s & Hr & Hs & D & ->). apply H in Hs. subst s. exists r. split; [easy|]. split; [lra|].
  destruct (Req_EM_T r 0) as [->|N]; [now rewrite sqrt_0|]. apply Rpower_sqrt. lra.
- intros (r & Hr & D & ->). exists r, (/ 2). split; [easy|]. split; [now apply H|]. split; [lra|].
  destruct (Req_EM_T r 0) as [->|N]; [apply sqrt_0|]. symmetry. apply Rpower_sqrt. lra.
Qed.

(** *** Narrower by one operation than by two *)
Lemma law_sqr_mul x : wf x -> refines (sqr x) (mul x x).
Proof.
intros W. apply (refines_of _ _ _ _ (sqr_tightest x W) (ce_of_ct _ _ (mul_tightest x x W W))).
intros t (r & Hr & _ & ->). now exists r, r.
Qed.
Lemma law_fma_two x y z : wf x -> wf y -> wf z -> refines (fma x y z) (p <- mul x y; add p z).
Proof.
intros Wx Wy Wz. apply (refines_of _ _ _ (image3 (fun r s t => r * s + t) x y z) (fma_tightest x y z Wx Wy Wz)); [|easy].
eapply ce_bind; [exact (ce_of_ct _ _ (mul_tightest x y Wx Wy))|]. intros p Wp Hp. apply (ce_weaken _ _ _ (ce_of_ct _ _ (add_tightest p z Wp Wz))).
intros t (r & s & u & Hr & Hs & Hu & ->). exists (r * s), u. split; [apply Hp; now exists r, s|]. easy.
Qed.
Lemma law_div_recip x y : wf x -> wf y -> refines (div x y) (q <- recip y; mul x q).
Proof.
intros Wx Wy. apply (refines_of _ _ _ (image2 (fun _ s => s <> 0) Rdiv x y) (div_tightest x y Wx Wy)); [|easy].
eapply ce_bind; [exact (ce_of_ct _ _ (recip_tightest y Wy))|]. intros q Wq Hq. apply (ce_weaken _ _ _ (ce_of_ct _ _ (mul_tightest x q Wx Wq))).
intros t (r & s & Hr & Hs & N & ->). exists r, (/ s). split; [easy|]. split; [apply Hq; now exists s|]. easy.
Qed.
Lemma law_pown_add x m n : wf x -> (0 <= m)%Z -> (0 <= n)%Z -> refines (pown x (m + n)) (a <- pown x m; b <- pown x n; mul a b).
Proof.
intros W Hm Hn. apply (refines_of _ _ _ (image1 (pown_dom (m + n)) (pownR (m + n)) x) (pown_tightest x (m + n) W)); [|easy].
eapply ce_bind; [exact (ce_of_ct _ _ (pown_tightest x m W))|]. intros a Wa Ha.
eapply ce_bind; [exact (ce_of_ct _ _ (pown_tightest x n W))|]. intros b Wb Hb.
apply (ce_weaken _ _ _ (ce_of_ct _ _ (mul_tightest a b Wa Wb))). intros t (r & Hr & _ & ->). exists (pownR m r), (pownR n r).
split; [apply Ha; exists r; split; [easy|]; split; [unfold pown_dom; lia|easy]|]. split; [apply Hb; exists r; split; [easy|]; split; [unfold pown_dom; lia|easy]|].
split; [easy|]. unfold pownR. rewrite <- (Z2Nat.id m), <- (Z2Nat.id n) by easy. rewrite <- Nat2Z.inj_add, <- !pow_powerRZ. apply pow_add.
Qed.

(** *** Undoing an operation loses nothing *)
Lemma law_add_sub x y : wf x -> wf y -> (exists s, mem s y) -> refines (ret x) (z <- add x y; sub z y).
Proof.
intros Wx Wy [s Hs]. apply (refines_of _ _ (fun t => mem t x) (fun t => mem t x)); [| |easy].
- exists x. split; [easy|]. now apply tightest_self.
- eapply ce_bind; [exact (ce_of_ct _ _ (add_tightest x y Wx Wy))|]. intros z Wz Hz. apply (ce_weaken _ _ _ (ce_of_ct _ _ (sub_tightest z y Wz Wy))).
  intros t Ht. exists (t + s), s. split; [apply Hz; now exists t, s|]. split; [easy|]. split; [easy|ring].
Qed.
Lemma law_mul_div x y : wf x -> wf y -> (exists s, mem s y /\ s <> 0) -> refines (ret x) (z <- mul x y; div z y).
Proof.
intros Wx Wy (s & Hs & Ns). apply (refines_of _ _ (fun t => mem t x) (fun t => mem t x)); [| |easy].
- exists x. split; [easy|]. now apply tightest_self.
- eapply ce_bind; [exact (ce_of_ct _ _ (mul_tightest x y Wx Wy))|]. intros z Wz Hz. apply (ce_weaken _ _ _ (ce_of_ct _ _ (div_tightest z y Wz Wy))).
  intros t Ht. exists (t * s), s. split; [apply Hz; now exists t, s|]. split; [easy|]. split; [easy|field; easy].
Qed.
Lemma law_abs_sqrt x : wf x -> refines (abs x) (z <- sqr x; sqrt z).
Proof.
intros W. apply (refines_of _ _ _ (image1 everywhere Rabs x) (abs_tightest x W)); [|easy].
eapply ce_bind; [exact (ce_of_ct _ _ (sqr_tightest x W))|]. intros z Wz Hz. apply (ce_weaken _ _ _ (ce_of_ct _ _ (sqrt_tightest z Wz))).
intros t (r & Hr & _ & ->). exists (r * r). split; [apply Hz; now exists r|]. split; [nra|]. symmetry. apply sqrt_Rsqr_abs.
Qed.
Lemma law_exp_log x : wf x -> refines (ret x) (z <- exp_itv x; log_itv z).
Proof.
intros W. apply (refines_of _ _ (fun t => mem t x) (fun t => mem t x)); [| |easy].
- exists x. split; [easy|]. now apply tightest_self.
- eapply ce_bind; [exact (ce_of_ct _ _ (exp_tightest x W))|]. intros z Wz Hz. apply (ce_weaken _ _ _ (ce_of_ct _ _ (log_tightest z Wz))).
  intros t Ht. exists (exp t). split; [apply Hz; now exists t|]. split; [apply exp_pos|]. now rewrite ln_exp.
Qed.
Lemma law_sinh_asinh x : wf x -> refines (ret x) (z <- sinh_itv x; asinh_itv z).
Proof.
intros W. apply (refines_of _ _ (fun t => mem t x) (fun t => mem t x)); [| |easy].
- exists x. split; [easy|]. now apply tightest_self.
- eapply ce_bind; [exact (ce_of_ct _ _ (sinh_tightest x W))|]. intros z Wz Hz. apply (ce_weaken _ _ _ (ce_of_ct _ _ (asinh_tightest z Wz))).
  intros t Ht. exists (sinh t). split; [apply Hz; now exists t|]. split; [easy|]. now rewrite arcsinh_sinh.
Qed.
(** *** Identities *)
Lemma law_sin_cos x : wf x -> (exists r, mem r x) ->
  exists z, returns (s <- sin_itv x; c <- cos_itv x; s2 <- sqr s; c2 <- sqr c; add s2 c2) z /\ mem 1 z.
Proof.
intros W [r Hr].
assert (H : computes_enclosure (s <- sin_itv x; c <- cos_itv x; s2 <- sqr s; c2 <- sqr c; add s2 c2) (fun t => t = 1)).
{ eapply ce_bind; [exact (ce_of_ct _ _ (sin_tightest x W))|]. intros s Ws Hs.
  eapply ce_bind; [exact (ce_of_ct _ _ (cos_tightest x W))|]. intros c Wc Hc.
  eapply ce_bind; [exact (ce_of_ct _ _ (sqr_tightest s Ws))|]. intros s2 Ws2 Hs2.
  eapply ce_bind; [exact (ce_of_ct _ _ (sqr_tightest c Wc))|]. intros c2 Wc2 Hc2.
  apply (ce_weaken _ _ _ (ce_of_ct _ _ (add_tightest s2 c2 Ws2 Wc2))). intros t ->.
  exists (sin r * sin r), (cos r * cos r). split; [apply Hs2; exists (sin r); split; [apply Hs; now exists r|easy]|].
  split; [apply Hc2; exists (cos r); split; [apply Hc; now exists r|easy]|]. split; [easy|]. symmetry. apply sin2_cos2. }
destruct H as (z & H1 & _ & H2). exists z. split; [easy|]. now apply H2.
Qed.
(** Subdistributivity: exactly when the sum is not rounded; here for the exact sum. *)
Lemma law_distr x y z : wf x -> wf y -> wf z ->
  (forall w, returns (add y z) w -> forall t, mem t w -> image2 everywhere2 Rplus y z t) ->
  refines (w <- add y z; mul x w) (a <- mul x y; b <- mul x z; add a b).
Proof.
intros Wx Wy Wz H. destruct (add_tightest y z Wy Wz) as (w & E & T). specialize (H w E). apply returns_eq in E. rewrite E. mreds.
apply (refines_of _ _ _ (image2 everywhere2 Rmult x w) (mul_tightest x w Wx (proj1 T))); [|easy].
eapply ce_bind; [exact (ce_of_ct _ _ (mul_tightest x y Wx Wy))|]. intros a Wa Ha.
eapply ce_bind; [exact (ce_of_ct _ _ (mul_tightest x z Wx Wz))|]. intros b Wb Hb.
apply (ce_weaken _ _ _ (ce_of_ct _ _ (add_tightest a b Wa Wb))). intros t (r & s & Hr & Hs & _ & ->).
destruct (H s Hs) as (p & q & Hp & Hq & _ & ->). exists (r * p), (r * q). split; [apply Ha; now exists r, p|]. split; [apply Hb; now exists r, q|]. split; [easy|ring].
Qed.
End L.

(** A run determines the result. *)
Lemma run_is {F} (m : M (itv F)) (l u : float F) z : run m = okz l u -> returns m z -> z = (l, u).
Proof.
intros H R. unfold run in H. rewrite R in H. unfold okz in H. inversion H as [[H1 H2]]. destruct z as [a b]. cbn [fst snd] in *.
f_equal; now apply B2SF_inj.
Qed.
