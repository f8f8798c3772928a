(** * Proofs: decorated forward functions, one by one *)
From Coq Require Import ZArith NArith Reals Bool Lia Lra List FunctionalExtensionality.
From Flocq Require Import Core.Core IEEE754.BinarySingleNaN.
From Verif Require Import Fmt Spec FloatFacts Exc Deco SpecApi SpecElem SpecAtan2 SpecDeco MBase PBase MBool MArith PArith
  PMul PFma PDiv PUnary PConv SpecRel PBool PSetop MElem PElem PElem2 MPow PPown PPow MTrig PTrig PTan PTrigT MAtan2 PAtan2 MDec PCont PDec.
Import ListNotations.
Local Open Scope R_scope.

Section D.
Context {F : fmt}.
Implicit Types z : itv F.

Lemma ct_tight (m : M (itv F)) S z : computes_tightest m S -> m = ret z -> tightest S z.
Proof.
intros (z' & H1 & H2) E. apply returns_eq in H1. replace z with z'; [easy|].
assert (E' : ret z' = ret z) by congruence. apply (f_equal (fun m => m (Est 0 0))) in E'. now inversion E'.
Qed.
Lemma tight_bounded (S : R -> Prop) z (B : float F) : tightest S z -> (exists r, mem r z) -> is_finite B = true ->
  (forall t, S t -> Rabs t <= B2R B) -> bounded_rep z.
Proof.
intros (W & E & T) [r Hr] FB HS.
assert (FB' : is_finite (fneg B) = true) by now rewrite is_finite_fneg.
assert (M : forall t, mem t (fneg B, B) <-> - B2R B <= t <= B2R B).
{ intros t. unfold mem. cbn [fst snd]. rewrite lb_fin, ub_fin, B2R_fneg by easy. tauto. }
assert (B0 : 0 <= B2R B).
{ destruct (tight_seen S z (conj W (conj E T)) (ex_intro _ r Hr)) as [t Ht]. apply HS in Ht. pose proof (Rabs_pos t). lra. }
assert (I : forall t, mem t z -> - B2R B <= t <= B2R B).
{ intros t Ht. apply M. apply (T (fneg B, B)); [right; exists 0; apply M; lra| |easy].
  intros s Hs. apply M. apply HS in Hs. apply Rabs_le_inv in Hs. lra. }
destruct Hr as [Hl Hu]. destruct z as [l u]; cbn [fst snd] in *.
split; cbn [fst snd].
- destruct (fviewP l) as [ | | |l Fl]; try easy. exfalso.
  specialize (I (Rmin r (- B2R B - 1))). assert (- B2R B <= Rmin r (- B2R B - 1)).
  { apply I. split; [easy|]. cbn [snd]. apply ub_mono with (1 := Hu). apply Rmin_l. }
  pose proof (Rmin_r r (- B2R B - 1)). lra.
- destruct (fviewP u) as [ | | |u Fu]; try easy. exfalso.
  specialize (I (Rmax r (B2R B + 1))). assert (Rmax r (B2R B + 1) <= B2R B).
  { apply I. split; [|easy]. cbn [fst]. apply lb_mono with (1 := Hl). apply Rmax_l. }
  pose proof (Rmax_r r (B2R B + 1)). lra.
Qed.
Lemma four : exists B : float F, is_finite B = true /\ B2R B = 4.
Proof.
apply fmt_float.
- change 4 with (bpow radix2 2). apply generic_format_FLT_bpow; [exact _|].
  pose proof (fmt_prec1 F). pose proof (fmt_emax F). unfold emin, SpecFloat.emin. lia.
- change 4 with (bpow radix2 2). rewrite Rabs_pos_eq by apply bpow_ge_0. apply bpow_lt. pose proof (@emax3 F). lia.
Qed.
Lemma tight_bounded4 (S : R -> Prop) z : tightest S z -> (exists r, mem r z) ->
  (forall t, S t -> -4 <= t <= 4) -> bounded_rep z.
Proof.
intros T H HS. destruct four as (B & FB & EB). apply (tight_bounded S z B); try easy.
intros t Ht. rewrite EB. apply Rabs_le. now apply HS.
Qed.

(** ** Shapes *)
Lemma smooth1 (op : itv F -> M (itv F)) (c : ditv F -> M bool) dom f :
  (forall x, wf x -> computes_tightest (op x) (image1 dom f x)) ->
  (forall p, dom p -> cont_at near1 dom f p) ->
  (forall x, wf_dec x -> snd x <> ill -> exists b, c x = ret b /\ (b = false -> forall p, mem p (fst x) -> dom p)) ->
  @decorates1 F (dec1 op (fun x => t_cond (c x))) op dom f.
Proof.
intros H1 H2 H3. apply dec1_ok; [now apply (ct_seen1 op dom f)|].
intros x z Wx Nx E Wz. destruct (H3 x Wx Nx) as (b & Eb & Hb). rewrite Eb. apply local_smooth; auto.
Qed.
Lemma total1 (op : itv F -> M (itv F)) f :
  (forall x, wf x -> computes_tightest (op x) (image1 everywhere f x)) ->
  (forall p, cont_at near1 everywhere f p) ->
  @decorates1 F (dec1 op (fun _ => t_total)) op everywhere f.
Proof.
intros H1 H2. apply dec1_ok; [now apply (ct_seen1 op everywhere f)|].
intros x z Wx Nx E Wz. apply local_total; auto. now intros p.
Qed.
Lemma bounded1 (op : itv F -> M (itv F)) (c : ditv F -> M bool) dom f :
  (forall x, wf x -> computes_tightest (op x) (image1 dom f x)) ->
  (forall p, dom p -> cont_at near1 dom f p) -> (forall p, dom p -> -4 <= f p <= 4) ->
  (forall x, wf_dec x -> snd x <> ill -> exists b, c x = ret b /\ (b = false -> forall p, mem p (fst x) -> dom p)) ->
  @decorates1 F (dec1 op (fun x => t_bounded (c x))) op dom f.
Proof.
intros H1 H2 H4 H3. apply dec1_ok; [now apply (ct_seen1 op dom f)|].
intros x z Wx Nx E Wz. destruct (H3 x Wx Nx) as (b & Eb & Hb). rewrite Eb. apply local_bounded; auto.
intros _ Hn. assert (T : tightest (image1 dom f (fst x)) z) by (apply ct_tight with (op (fst x)); [apply H1; now apply wf_dec_wf|easy]).
apply tight_bounded4 with (1 := T); [easy|]. intros t (r & _ & Hr & ->). now apply H4.
Qed.
Lemma ring2 (op : itv F -> itv F -> M (itv F)) f :
  (forall x y, wf x -> wf y -> computes_tightest (op x y) (image2 everywhere2 f x y)) ->
  (forall p, cont_at near2 (fun p => everywhere2 (fst p) (snd p)) (fun q => f (fst q) (snd q)) p) ->
  @decorates2 F (dec2 op (fun _ _ => t_ring)) op everywhere2 f.
Proof.
intros H1 H2. apply dec2_ok; [now apply (ct_seen2 op everywhere2 f)|].
intros x y z Wx Nx Wy Ny E Wz. apply local_ring; auto. now intros p.
Qed.
Lemma total2 (op : itv F -> itv F -> M (itv F)) f :
  (forall x y, wf x -> wf y -> computes_tightest (op x y) (image2 everywhere2 f x y)) ->
  (forall p, cont_at near2 (fun p => everywhere2 (fst p) (snd p)) (fun q => f (fst q) (snd q)) p) ->
  @decorates2 F (dec2 op (fun _ _ => t_total)) op everywhere2 f.
Proof.
intros H1 H2. apply dec2_ok; [now apply (ct_seen2 op everywhere2 f)|].
intros x y z Wx Nx Wy Ny E Wz. apply local_total; auto. now intros p.
Qed.
Lemma smooth2 (op : itv F -> itv F -> M (itv F)) (c : ditv F -> ditv F -> M bool) dom f :
  (forall x y, wf x -> wf y -> computes_tightest (op x y) (image2 dom f x y)) ->
  (forall p, dom (fst p) (snd p) -> cont_at near2 (fun p => dom (fst p) (snd p)) (fun q => f (fst q) (snd q)) p) ->
  (forall x y, wf_dec x -> snd x <> ill -> wf_dec y -> snd y <> ill ->
     exists b, c x y = ret b /\ (b = false -> forall r s, mem r (fst x) -> mem s (fst y) -> dom r s)) ->
  @decorates2 F (dec2 op (fun x y => t_cond (c x y))) op dom f.
Proof.
intros H1 H2 H3. apply dec2_ok; [now apply (ct_seen2 op dom f)|].
intros x y z Wx Nx Wy Ny E Wz. destruct (H3 x y Wx Nx Wy Ny) as (b & Eb & Hb). rewrite Eb. apply local_smooth; auto.
intros H _ p [Hp Hq]. now apply Hb.
Qed.

(** ** Ring operations *)
Lemma keep1 (op : itv F -> M (itv F)) f : (forall x, wf x -> computes_tightest (op x) (image1 everywhere f x)) ->
  (forall p, cont_at near1 everywhere f p) ->
  (forall x z, wf x -> op x = ret z -> bounded_rep x -> bounded_rep z) ->
  decorates1 (fun x => mif (mor (mnot (is_valid_dec x)) (is_nai x)) (ret nai) (bind (op (fst x)) (fun b => ret (b, snd x)))) op everywhere f.
Proof.
intros H1 H2 H3 x Wx Dx Nx. pose proof (wf_dec_wf x Wx) as W.
destruct (ct_seen1 op everywhere f H1 (fst x) W) as (z & E & Wz & Hs).
assert (T : tightest (image1 everywhere f (fst x)) z) by (apply ct_tight with (op (fst x)); auto).
assert (L : local near1 (box1 (fst x)) everywhere (bounded_rep (fst x)) f z (snd x)).
{ split; [now apply deco_cases|]. split; [|split].
  - intros H. split; [|now intros p]. destruct Wx as [[_ [C|C]]|[[r Hr] _]].
    + now rewrite C in H.
    + now rewrite C in H.
    + exists (f r). apply (proj1 (proj2 T)). now exists r.
  - intros H p Hp. apply cont_sub with everywhere; [easy|apply H2].
  - intros H B. split; [now apply H3 with (fst x)|]. intros p _. apply H2. }
destruct (local_honest _ _ _ _ _ z (snd x) (snd x) Wz Hs (deco_cases _ Dx Nx) (wf_dec_com x Wx) L) as (A1 & A2 & A3 & A4 & A5).
assert (Em : dmin (snd x) (snd x) = snd x) by (rewrite dmin_min; lia). rewrite Em in *.
exists (z, snd x). split; [|split; [easy|split; [easy|split; [easy|split; [now apply returns_eq|split; [easy|easy]]]]]].
apply returns_eq. rewrite is_valid_dec_wf, is_nai_wf by easy. mreds.
destruct (deq_spec (snd x) ill) as [C|_]; [easy|]. mreds. now rewrite E.
Qed.
Lemma neg_decorates : decorates1 (@neg_dec F) neg everywhere Ropp.
Proof.
apply keep1; [apply neg_tightest|intros p; apply (cont_opp near1 everywhere (fun r => r)), cont_id|].
intros x z W E [B1 B2]. unfold neg in E. rewrite is_valid_wf, is_empty_wf in E by easy. revert E. mreds.
rewrite isnan_fin by easy. intros E. apply (f_equal (fun m => m (Est 0 0))) in E. injection E as <-.
split; cbn [fst snd]; now rewrite is_finite_fneg.
Qed.
Lemma pos_decorates : decorates1 (@pos_dec F) pos everywhere (fun r => r).
Proof.
assert (D : decorates1 (fun x => mif (mor (mnot (is_valid_dec x)) (is_nai x)) (ret nai) (bind (pos (fst x)) (fun b => ret (b, snd x))))
  (@pos F) everywhere (fun r => r)).
{ apply keep1; [apply pos_tightest|intros p; apply cont_id|].
  intros x z W E B. unfold pos in E. rewrite is_valid_wf in E by easy. revert E. mreds.
  intros E. apply (f_equal (fun m => m (Est 0 0))) in E. now injection E as <-. }
intros x Wx Dx Nx. destruct (D x Wx Dx Nx) as (z & H1 & H2). exists z. split; [|easy].
apply returns_eq in H1. apply returns_eq. rewrite <- H1. unfold pos_dec.
rewrite is_valid_dec_wf, is_nai_wf by easy. mreds. destruct (deq_spec (snd x) ill) as [C|_]; [easy|]. mreds.
unfold pos. rewrite is_valid_wf by now apply wf_dec_wf. mreds. now destruct x.
Qed.

Lemma add_decorates : decorates2 (@add_dec F) add everywhere2 Rplus.
Proof. apply ring2; [apply add_tightest|]. intros p. apply cont_plus; [exact near2_le|apply cont_fst|apply cont_snd]. Qed.
Lemma sub_decorates : decorates2 (@sub_dec F) sub everywhere2 Rminus.
Proof. apply ring2; [apply sub_tightest|]. intros p. apply cont_minus; [exact near2_le|apply cont_fst|apply cont_snd]. Qed.
Lemma mul_decorates : decorates2 (@mul_dec F) mul everywhere2 Rmult.
Proof. apply ring2; [apply mul_tightest|]. intros p. apply cont_mult; [exact near2_le|apply cont_fst|apply cont_snd]. Qed.
Lemma div_decorates : decorates2 (@div_dec F) div (fun _ s => s <> 0) Rdiv.
Proof.
apply smooth2; [apply div_tightest| |].
- intros p H. apply cont_div; [exact near2_le|easy|apply cont_fst|apply cont_snd].
- intros x y _ _ Wy Ny. destruct (member0 y Wy Ny) as (c & E & H). exists c. split; [easy|].
  intros -> r s _ Hs ->. now apply H in Hs.
Qed.
Lemma recip_decorates : decorates1 (@recip_dec F) recip (fun r => r <> 0) Rinv.
Proof.
apply smooth1; [apply recip_tightest|intros p H; now apply c_inv|].
intros x Wx Nx. destruct (member0 x Wx Nx) as (c & E & H). exists c. split; [easy|].
intros -> r Hr ->. now apply H in Hr.
Qed.
Lemma sqr_decorates : decorates1 (@sqr_dec F) sqr everywhere (fun r => r * r).
Proof. apply total1; [apply sqr_tightest|]. intros p. apply cont_mult; [exact near1_le|apply cont_id|apply cont_id]. Qed.
Lemma fma_decorates : decorates3 (@fma_dec F) fma (fun r s t => r * s + t).
Proof.
apply dec3_ok.
- intros x y w W1 W2 W3. destruct (fma_tightest x y w W1 W2 W3) as (z & H1 & H2). exists z.
  split; [now apply returns_eq|]. split; [apply H2|].
  intros Hr. destruct (tight_seen _ _ H2 Hr) as (t & r & s & q & Ht & Hs & Hq & _). exists (r, s, q). exact (conj (conj Ht Hs) Hq).
- intros x y w z _ _ _ _ _ _ _ Wz. apply local_total; [easy|easy|]. intros p _.
  apply cont_plus; [exact near3_le| |apply cont_3]. apply cont_mult; [exact near3_le|apply cont_1|apply cont_2].
Qed.
Lemma abs_decorates : decorates1 (@abs_dec F) abs everywhere Rabs.
Proof. apply total1; [apply abs_tightest|]. intros p. apply c_abs. Qed.
Lemma min_decorates : decorates2 (@min_dec F) min everywhere2 Rmin.
Proof. apply total2; [apply min_tightest|]. intros p. now apply c_min. Qed.
Lemma max_decorates : decorates2 (@max_dec F) max everywhere2 Rmax.
Proof. apply total2; [apply max_tightest|]. intros p. now apply c_max. Qed.

(** ** Elementary functions *)
Lemma sqrt_decorates : decorates1 (@sqrt_dec F) sqrt (fun r => 0 <= r) R_sqrt.sqrt.
Proof.
apply smooth1; [apply sqrt_tightest|intros p H; now apply c_sqrt|].
intros x Wx Nx. eexists. split; [reflexivity|]. intros E p [Hp _]. exact (flt_low _ (@f0 F) p eq_refl Hp E).
Qed.
Lemma exp_decorates : decorates1 (@exp_dec F) exp_itv everywhere exp.
Proof. apply total1; [apply exp_tightest|intros; apply c_exp]. Qed.
Lemma exp2_decorates : decorates1 (@exp2_dec F) exp2_itv everywhere exp2R.
Proof. apply total1; [apply exp2_tightest|intros; apply c_exp2]. Qed.
Lemma exp10_decorates : decorates1 (@exp10_dec F) exp10_itv everywhere exp10R.
Proof. apply total1; [apply exp10_tightest|intros; apply c_exp10]. Qed.
Lemma pos_cond (x : ditv F) : wf_dec x -> snd x <> ill -> exists b, ret (fle (fst (fst x)) (@f0 F)) = ret b /\ (b = false -> forall p, mem p (fst x) -> positive p).
Proof. intros. eexists. split; [reflexivity|]. intros E p [Hp _]. exact (fle_low _ (@f0 F) p eq_refl Hp E). Qed.
Lemma log_decorates : decorates1 (@log_dec F) log_itv positive ln.
Proof. apply smooth1; [apply log_tightest|intros; now apply c_ln|apply pos_cond]. Qed.
Lemma log2_decorates : decorates1 (@log2_dec F) log2_itv positive log2R.
Proof. apply smooth1; [apply log2_tightest|intros; now apply c_ln_div|apply pos_cond]. Qed.
Lemma log10_decorates : decorates1 (@log10_dec F) log10_itv positive log10R.
Proof. apply smooth1; [apply log10_tightest|intros; now apply c_ln_div|apply pos_cond]. Qed.
Lemma sin_decorates : decorates1 (@sin_dec F) sin_itv everywhere sin.
Proof. apply total1; [apply sin_tightest|intros; apply c_sin]. Qed.
Lemma cos_decorates : decorates1 (@cos_dec F) cos_itv everywhere cos.
Proof. apply total1; [apply cos_tightest|intros; apply c_cos]. Qed.
Lemma sinh_decorates : decorates1 (@sinh_dec F) sinh_itv everywhere sinh.
Proof. apply total1; [apply sinh_tightest|intros; apply c_sinh]. Qed.
Lemma cosh_decorates : decorates1 (@cosh_dec F) cosh_itv everywhere cosh.
Proof. apply total1; [apply cosh_tightest|intros; apply c_cosh]. Qed.
Lemma asinh_decorates : decorates1 (@asinh_dec F) asinh_itv everywhere arcsinh.
Proof. apply total1; [apply asinh_tightest|intros; apply c_arcsinh]. Qed.
Lemma acosh_decorates : decorates1 (@acosh_dec F) acosh_itv from1 acoshR.
Proof.
apply smooth1; [apply acosh_tightest|intros; now apply c_acosh|].
intros x _ _. eexists. split; [reflexivity|]. intros E p [Hp _]. unfold from1. rewrite <- (@B2R_f1 F).
exact (flt_low _ _ p (@is_finite_f1 F) Hp E).
Qed.
Lemma atanh_decorates : decorates1 (@atanh_dec F) atanh_itv inside1 atanhR.
Proof.
apply smooth1; [apply atanh_tightest|intros; now apply c_atanh|].
intros x _ _. eexists. split; [reflexivity|]. intros E p [Hp Hq]. unfold inside1.
apply orb_false_iff in E. destruct E as [E1 E2].
apply (fle_low _ _ p (@is_finite_fm1 F) Hp) in E1. apply (fge_upp _ _ p (@is_finite_f1 F) Hq) in E2.
rewrite B2R_fm1 in E1. rewrite B2R_f1 in E2. lra.
Qed.
Lemma unit_cond (x : ditv F) : wf_dec x -> snd x <> ill ->
  exists b, ret (flt (fst (fst x)) (@fm1 F) || fgt (snd (fst x)) (@f1 F)) = ret b /\ (b = false -> forall p, mem p (fst x) -> within1 p).
Proof.
intros _ _. eexists. split; [reflexivity|]. intros E p [Hp Hq]. unfold within1.
apply orb_false_iff in E. destruct E as [E1 E2].
apply (flt_low _ _ p (@is_finite_fm1 F) Hp) in E1. apply (fgt_upp _ _ p (@is_finite_f1 F) Hq) in E2.
rewrite B2R_fm1 in E1. rewrite B2R_f1 in E2. lra.
Qed.
Lemma asin_decorates : decorates1 (@asin_dec F) asin_itv within1 asin.
Proof.
apply bounded1; [apply asin_tightest|intros; now apply c_asin| |apply unit_cond].
intros p _. pose proof (Ratan.asin_bound p). pose proof PI_315. lra.
Qed.
Lemma acos_decorates : decorates1 (@acos_dec F) acos_itv within1 acos.
Proof.
apply bounded1; [apply acos_tightest|intros; now apply c_acos| |apply unit_cond].
intros p _. pose proof (Ratan.acos_bound p). pose proof PI_315. lra.
Qed.
Lemma none_cond (x : ditv F) : wf_dec x -> snd x <> ill -> exists b, ret false = ret b /\ (b = false -> forall p, mem p (fst x) -> everywhere p).
Proof. intros _ _. now exists false. Qed.
Lemma atan_decorates : decorates1 (@atan_dec F) atan_itv everywhere atan.
Proof.
apply bounded1; [apply atan_tightest|intros; apply c_atan| |apply none_cond].
intros p _. pose proof (Ratan.atan_bound p). pose proof PI_315. lra.
Qed.
Lemma tanh_inside p : -1 < tanh p < 1.
Proof.
unfold tanh, sinh, cosh. pose proof (exp_pos p). pose proof (exp_pos (- p)).
replace ((exp p - exp (- p)) / 2 / ((exp p + exp (- p)) / 2)) with ((exp p - exp (- p)) * / (exp p + exp (- p))) by (field; lra).
set (u := exp p) in *. set (v := exp (- p)) in *. assert (0 < / (u + v)) by (apply Rinv_0_lt_compat; lra).
assert ((u + v) * / (u + v) = 1) by (apply Rinv_r; lra). nra.
Qed.
Lemma tanh_decorates : decorates1 (@tanh_dec F) tanh_itv everywhere tanh.
Proof.
apply bounded1; [apply tanh_tightest|intros; apply c_tanh| |apply none_cond].
intros p _. pose proof (tanh_inside p). lra.
Qed.
Lemma pown_decorates k : decorates1 (fun x : ditv F => pown_dec x k) (fun b => pown b k) (pown_dom k) (pownR k).
Proof.
unfold pown_dec. apply smooth1; [intros; now apply pown_tightest|intros; now apply c_pown|].
intros x Wx Nx. destruct (member0 x Wx Nx) as (c & E & H). exists ((k <? 0)%Z && c)%bool. split.
- rewrite E. now destruct (k <? 0)%Z.
- intros Eb r Hr Hk Er. subst r. apply H in Hr. apply andb_false_iff in Eb. destruct Eb as [Eb|Eb]; [|congruence].
  apply Z.ltb_ge in Eb. lia.
Qed.
Lemma pow_decorates : decorates2 (@pow_dec F) pow pow_dom powR.
Proof.
apply smooth2; [apply pow_tightest|intros p H; now apply c_powR|].
intros x y Wx Nx Wy Ny. destruct (member0 x Wx Nx) as (c & E & H).
exists (flt (fst (fst x)) f0 || (c && fle (fst (fst y)) f0))%bool. split.
- rewrite E. destruct (flt _ _); [easy|]. now destruct c.
- intros Eb r s Hr Hs. apply orb_false_iff in Eb. destruct Eb as [E1 E2].
  assert (0 <= r) by exact (flt_low _ (@f0 F) r eq_refl (proj1 Hr) E1).
  destruct (Req_dec r 0) as [->|N]; [|left; lra]. right. split; [easy|].
  apply H in Hr. subst c. exact (fle_low _ (@f0 F) s eq_refl (proj1 Hs) E2).
Qed.

(** ** atan2 *)
Lemma atan2_decorates : decorates2 (@atan2_dec F) atan2_itv not_origin ratan2.
Proof.
apply dec2_ok; [apply (ct_seen2 atan2_itv not_origin ratan2); apply atan2_tightest|].
intros y x z Wy Ny Wx Nx E Wz. pose proof (wf_dec_wf y Wy) as Vy. pose proof (wf_dec_wf x Wx) as Vx.
destruct (member0 y Wy Ny) as (cy & Ey & Hy). destruct (member0 x Wx Nx) as (cx & Ex & Hx).
rewrite Ey, Ex, is_empty_wf, is_common_wf by easy.
replace (mor (mand (ret cy) (ret cx)) (ret (isnan (fst z)))) with (ret ((cy && cx) || isnan (fst z))%bool)
  by (now destruct cy, cx).
mreds.
destruct ((cy && cx) || isnan (fst z))%bool eqn:E1; [exists trv; split; [easy|apply local_trv]|].
apply orb_false_iff in E1. destruct E1 as [E1 E1'].
assert (Hn : exists r, mem r z) by now apply wf_nonempty.
assert (T : tightest (image2 not_origin ratan2 (fst y) (fst x)) z).
{ apply ct_tight with (2 := E). now apply atan2_tightest. }
assert (Hd : forall p, box2 (fst y) (fst x) p -> not_origin (fst p) (snd p)).
{ intros [r s] [Hr Hs]. cbn [fst snd] in *. unfold not_origin.
  destruct (Req_dec r 0) as [->|N]; [|now left]. destruct (Req_dec s 0) as [->|N]; [|now right].
  apply Hy in Hr. apply Hx in Hs. subst. easy. }
assert (B : bounded_rep z).
{ apply tight_bounded4 with (1 := T); [easy|]. intros t (r & s & _ & _ & O & ->).
  pose proof (angle_ratan2 r s O) as [A _]. pose proof PI_315. lra. }
destruct (flt (fst (fst y)) f0 && fge (snd (fst y)) f0 && flt (fst (fst x)) f0)%bool eqn:E2.
{ exists def. split; [easy|]. split; [simpl; tauto|]. split; [auto|]. unfold def, dac, com. split; intros; lia. }
assert (Cm : is_finite (fst z) && is_finite (snd z) = true) by (destruct B as [-> ->]; easy). rewrite Cm. mreds.
(* positions of the box relative to the cut *)
assert (Cut : forall r s, mem r (fst y) -> mem s (fst x) -> 0 < s \/ 0 <= r \/ r < 0 /\ forall r', mem r' (fst y) -> r' < 0).
{ intros r s Hr Hs. destruct (flt (fst (fst y)) f0) eqn:A1.
  - destruct (fge (snd (fst y)) f0) eqn:A2.
    + cbn [andb] in E2. left. pose proof (flt_low _ (@f0 F) s eq_refl (proj1 Hs) E2) as Hs0. change (B2R (@f0 F)) with 0 in Hs0.
      assert (M0 : mem 0 (fst y)).
      { split; [apply (flt_lb _ (@f0 F) r eq_refl (proj1 Hr) A1)|apply (fge_ub _ (@f0 F) r eq_refl (proj2 Hr) A2)]. }
      apply Hy in M0. subst cy. cbn [andb] in E1. subst cx.
      destruct (Req_dec s 0) as [->|N]; [|lra]. now apply Hx in Hs.
    + right; right. assert (G : forall r', mem r' (fst y) -> r' < 0).
      { intros r' [_ Hr']. now apply (fge_upp _ (@f0 F) r' eq_refl Hr'). }
      split; [now apply G|easy].
  - right; left. exact (flt_low _ (@f0 F) r eq_refl (proj1 Hr) A1). }
destruct (feq (fst (fst y)) f0 && flt (fst (fst x)) f0)%bool eqn:E3; mreds.
- exists dac. split; [easy|]. apply local_dac; [easy|easy|]. intros p Hp.
  apply andb_true_iff in E3. destruct E3 as [E3 _].
  apply c_ratan2_up; [|easy|now apply Hd]. intros q [Hq _].
  apply (flt_low _ (@f0 F) (fst q) eq_refl (proj1 Hq)).
  destruct Hq as [Hq _]. destruct (fviewP (fst (fst y))) as [ | | |l Fl]; try easy.
  rewrite feq_fin in E3 by easy. rewrite flt_fin by easy. revert E3. case Req_bool_spec; [|easy]. intros -> _. apply Rlt_bool_false. lra.
- exists com. split; [easy|]. apply local_com; [easy|easy|easy|]. intros [r s] Hp. apply c_ratan2. cbn [fst snd].
  pose proof (Hd _ Hp) as O. destruct Hp as [Hr Hs]. cbn [fst snd] in *.
  destruct (Cut r s Hr Hs) as [H|[H|[H _]]]; [now left| |right; lra].
  destruct (Req_dec r 0) as [->|N]; [left|now right].
  destruct O as [O|O]; [easy|]. apply andb_false_iff in E3. destruct E3 as [E3|E3].
  + (* zero is not the lower bound, so it is an inner point *)
    assert (A1 : flt (fst (fst y)) f0 = true).
    { destruct Hr as [Hr _]. destruct (fviewP (fst (fst y))) as [ | | |l Fl]; try easy.
      rewrite lb_fin in Hr by easy. rewrite feq_fin in E3 by easy. revert E3. case Req_bool_spec; [easy|]. intros N _.
      rewrite flt_fin by easy. apply Rlt_bool_true. change (B2R (@f0 F)) with 0 in *. lra. }
    assert (A2 : fge (snd (fst y)) f0 = true).
    { destruct (fge (snd (fst y)) f0) eqn:A2; [easy|]. apply (fge_upp _ (@f0 F) 0 eq_refl (proj2 Hr)) in A2.
      change (B2R (@f0 F)) with 0 in A2. lra. }
    rewrite A1, A2 in E2. cbn [andb] in E2.
    pose proof (flt_low _ (@f0 F) s eq_refl (proj1 Hs) E2) as Hs0. change (B2R (@f0 F)) with 0 in Hs0. lra.
  + pose proof (flt_low _ (@f0 F) s eq_refl (proj1 Hs) E3) as Hs0. change (B2R (@f0 F)) with 0 in Hs0. lra.
Qed.

(** ** Step functions *)
Lemma upp_is (x : itv F) n : (forall r, mem r x -> r <= n) -> mem n x -> is_finite (snd x) = true /\ B2R (snd x) = n.
Proof.
intros H [M1 M2]. destruct x as [l u]; cbn [fst snd] in *. destruct (fviewP u) as [ | | |u Fu]; try easy.
- assert (n + 1 <= n); [|lra]. apply H. split; [|easy]. apply lb_mono with (1 := M1). lra.
- split; [easy|]. rewrite ub_fin in M2 by easy. apply Rle_antisym; [|easy]. apply H.
  split; cbn [fst snd]; [now apply lb_mono with (1 := M1)|rewrite ub_fin by easy; lra].
Qed.
Lemma low_is (x : itv F) n : (forall r, mem r x -> n <= r) -> mem n x -> is_finite (fst x) = true /\ B2R (fst x) = n.
Proof.
intros H [M1 M2]. destruct x as [l u]; cbn [fst snd] in *. destruct (fviewP l) as [ | | |l Fl]; try easy.
- assert (n <= n - 1); [|lra]. apply H. split; [easy|]. apply ub_mono with (1 := M2). lra.
- split; [easy|]. rewrite lb_fin in M1 by easy. apply Rle_antisym; [easy|]. apply H.
  split; cbn [fst snd]; [rewrite lb_fin by easy; lra|now apply ub_mono with (1 := M2)].
Qed.
Lemma single_bounds z n : (forall t, mem t z <-> t = n) ->
  (is_finite (fst z) = true /\ B2R (fst z) = n) /\ (is_finite (snd z) = true /\ B2R (snd z) = n).
Proof.
intros H. split; [apply low_is|apply upp_is]; try now apply H.
- intros r Hr. apply H in Hr. lra.
- intros r Hr. apply H in Hr. lra.
Qed.
Lemma feq_val (a b : float F) n : is_finite a = true -> B2R a = n -> is_finite b = true -> B2R b = n -> feq a b = true.
Proof. intros F1 E1 F2 E2. rewrite feq_fin by easy. apply Req_bool_true. congruence. Qed.

(** [c] is false only where the function is locally constant. *)
Lemma step1 (op : itv F -> M (itv F)) (c : ditv F -> itv F -> M bool) f :
  (forall x, wf x -> computes_tightest (op x) (image1 everywhere f x)) ->
  (forall x z, wf x -> op x = ret z -> (exists r, mem r z) -> bounded_rep x -> bounded_rep z) ->
  (forall x z, wf_dec x -> snd x <> ill -> wf z -> exists b, c x z = ret b /\
     (b = false -> forall n p, (forall t, mem t z <-> t = n) -> (forall r, mem r (fst x) -> f r = n) -> mem p (fst x) ->
       exists d, 0 < d /\ forall q, near1 d p q -> f q = f p)) ->
  @decorates1 F (dec1 op (fun x z => t_step (c x z) z)) op everywhere f.
Proof.
intros H1 H2 H3. apply dec1_ok; [now apply (ct_seen1 op everywhere f)|].
intros x z Wx Nx E Wz. destruct (H3 x z Wx Nx Wz) as (b & Eb & Hb). rewrite Eb.
pose proof (wf_dec_wf x Wx) as W.
assert (T : tightest (image1 everywhere f (fst x)) z) by (apply ct_tight with (op (fst x)); auto).
assert (En : forall r, mem r (fst x) -> mem (f r) z) by (intros r Hr; apply (proj1 (proj2 T)); now exists r).
apply local_step; try easy.
- intros B Hn. now apply H2 with (fst x).
- intros t (p & Hp & ->). now apply En.
- intros C [n Hs] p Hp. apply c_locconst. apply (Hb C n p); [easy| |easy]. intros r Hr. now apply Hs, En.
Qed.

Lemma sign_decorates : decorates1 (@sign_dec F) sign_itv everywhere signR.
Proof.
apply (step1 sign_itv (fun x _ => is_member_dec (@f0 F) x)); [apply sign_tightest| |].
- intros x z W E Hn _. apply tight_bounded4 with (image1 everywhere signR x); [|easy|].
  + apply ct_tight with (2 := E). now apply sign_tightest.
  + intros t (r & _ & _ & ->). unfold signR. repeat destruct Rlt_dec; lra.
- intros x z Wx Nx Wz. destruct (member0 x Wx Nx) as (c & E & H). exists c. split; [easy|].
  intros -> n p _ _ Hp. assert (p <> 0) by (intros ->; now apply H in Hp).
  exists (Rabs p). split; [now apply Rabs_pos_lt|]. intros q N. unfold near1 in N. apply Rabs_def2 in N.
  unfold signR, Rabs in *. destruct Rcase_abs; repeat destruct Rlt_dec; lra.
Qed.

Lemma nb_bounded m (x z : itv F) : wf x ->
  mif (mor (mnot (is_valid x)) (is_empty x)) (ret empty) (ret (Bnearbyint m (fst x), Bnearbyint m (snd x))) = ret z ->
  bounded_rep x -> bounded_rep z.
Proof.
intros W E [B1 B2]. rewrite is_valid_wf, is_empty_wf, isnan_fin in E by easy. revert E. mreds. intros E.
apply (f_equal (fun m => m (Est 0 0))) in E. injection E as <-. split; cbn [fst snd]; now apply nearbyint_fin.
Qed.

Lemma ceil_decorates : decorates1 (@ceil_dec F) ceil_itv everywhere ceilR.
Proof.
apply (step1 ceil_itv (fun x b => ret (feq (snd (fst x)) (snd b)))); [apply ceil_tightest| |].
- intros x z W E _. now apply (nb_bounded mode_UP).
- intros x z _ _ _. eexists. split; [reflexivity|]. intros Hc n p Hz Hf Hp.
  assert (Hr : forall r, mem r (fst x) -> n - 1 < r <= n).
  { intros r Hr. rewrite <- (Hf r Hr). apply ceilR_char. }
  assert (p <> n).
  { intros ->. destruct (upp_is (fst x) n) as [F1 E1]; [intros r M; now apply Hr|easy|].
    destruct (single_bounds z n Hz) as [_ [F2 E2]]. rewrite (feq_val _ _ n) in Hc by easy. easy. }
  specialize (Hr p Hp). exists (Rmin (n - p) (p - (n - 1))). split; [apply Rmin_pos; lra|].
  intros q N. unfold near1 in N. apply Rabs_def2 in N. pose proof (Rmin_l (n - p) (p - (n - 1))). pose proof (Rmin_r (n - p) (p - (n - 1))).
  rewrite (Hf p Hp). specialize (Hf p Hp). unfold ceilR in *. rewrite <- Hf in *. f_equal. apply Zceil_imp. rewrite minus_IZR. lra.
Qed.
Lemma floor_decorates : decorates1 (@floor_dec F) floor_itv everywhere floorR.
Proof.
apply (step1 floor_itv (fun x b => ret (feq (fst (fst x)) (fst b)))); [apply floor_tightest| |].
- intros x z W E _. now apply (nb_bounded mode_DN).
- intros x z _ _ _. eexists. split; [reflexivity|]. intros Hc n p Hz Hf Hp.
  assert (Hr : forall r, mem r (fst x) -> n <= r < n + 1).
  { intros r Hr. rewrite <- (Hf r Hr). apply floorR_char. }
  assert (p <> n).
  { intros ->. destruct (low_is (fst x) n) as [F1 E1]; [intros r M; now apply Hr|easy|].
    destruct (single_bounds z n Hz) as [[F2 E2] _]. rewrite (feq_val _ _ n) in Hc by easy. easy. }
  specialize (Hr p Hp). exists (Rmin (p - n) (n + 1 - p)). split; [apply Rmin_pos; lra|].
  intros q N. unfold near1 in N. apply Rabs_def2 in N. pose proof (Rmin_l (p - n) (n + 1 - p)). pose proof (Rmin_r (p - n) (n + 1 - p)).
  rewrite (Hf p Hp). specialize (Hf p Hp). unfold floorR in *. rewrite <- Hf in *. f_equal. apply Zfloor_imp. rewrite plus_IZR. lra.
Qed.
Lemma truncR_pos_iff r n : (1 <= n)%Z -> truncR r = IZR n <-> IZR n <= r < IZR n + 1.
Proof.
intros Hn. apply IZR_le in Hn. unfold truncR. destruct Rlt_dec as [H|H].
- pose proof (ceilR_char r). split; [|lra]. intros E. exfalso.
  assert (ceilR r <= 0); [|lra]. unfold ceilR. apply IZR_le. apply Zceil_glb. simpl. lra.
- pose proof (floorR_char r). split; [lra|]. intros Hr. unfold floorR. f_equal. apply Zfloor_imp. now rewrite plus_IZR.
Qed.
Lemma truncR_neg_iff r n : (n <= -1)%Z -> truncR r = IZR n <-> IZR n - 1 < r <= IZR n.
Proof.
intros Hn. apply IZR_le in Hn. unfold truncR. destruct Rlt_dec as [H|H].
- pose proof (ceilR_char r). split; [lra|]. intros Hr. unfold ceilR. f_equal. apply Zceil_imp. now rewrite minus_IZR.
- pose proof (floorR_char r). split; [|lra]. intros E. exfalso.
  assert (0 <= floorR r); [|lra]. unfold floorR. apply IZR_le. apply Zfloor_lub. simpl. lra.
Qed.
Lemma truncR_zero_iff r : truncR r = 0 <-> -1 < r < 1.
Proof.
unfold truncR. destruct Rlt_dec as [H|H].
- pose proof (ceilR_char r). split; [lra|]. intros Hr. unfold ceilR. apply IZR_eq || f_equal. change 0 with (IZR 0). f_equal. apply Zceil_imp. simpl. lra.
- pose proof (floorR_char r). split; [lra|]. intros Hr. unfold floorR. change 0 with (IZR 0). f_equal. apply Zfloor_imp. simpl. lra.
Qed.
Lemma fne_val (a : float F) n : is_finite a = true -> B2R a = n -> n <> 0 -> fne a f0 = true.
Proof.
intros F1 E1 Hn. change (fne a f0) with (negb (feq a f0)). rewrite feq_fin by easy. rewrite Req_bool_false; [easy|].
rewrite E1. exact Hn.
Qed.
Lemma trunc_decorates : decorates1 (@trunc_dec F) trunc_itv everywhere truncR.
Proof.
apply (step1 trunc_itv (fun x b => ret ((fne (fst (fst x)) f0 && feq (fst (fst x)) (fst b)) ||
               (fne (snd (fst x)) f0 && feq (snd (fst x)) (snd b)))%bool)); [apply trunc_tightest| |].
- intros x z W E _. now apply (nb_bounded mode_ZR).
- intros x z _ _ _. eexists. split; [reflexivity|]. intros Hc n p Hz Hf Hp.
  apply orb_false_iff in Hc. destruct Hc as [C1 C2].
  assert (exists k, n = IZR k) as [k ->].
  { rewrite <- (Hf p Hp). rewrite truncR_Ztrunc. eauto. }
  destruct (single_bounds z _ Hz) as [[F1 E1] [F2 E2]].
  rewrite (Hf p Hp). destruct (Z.lt_trichotomy k 0) as [K|[K|K]].
  + assert (Hr : forall r, mem r (fst x) -> IZR k - 1 < r <= IZR k).
    { intros r Hr. apply truncR_neg_iff; [lia|]. now apply Hf. }
    assert (p <> IZR k).
    { intros ->. destruct (upp_is (fst x) (IZR k)) as [G1 G2]; [intros r M; now apply Hr|easy|].
      rewrite (feq_val _ _ (IZR k)), (fne_val _ (IZR k)) in C2; try easy. now apply IZR_neq, Z.lt_neq. }
    specialize (Hr p Hp). exists (Rmin (IZR k - p) (p - (IZR k - 1))). split; [apply Rmin_pos; lra|].
    intros q N. unfold near1 in N. apply Rabs_def2 in N.
    pose proof (Rmin_l (IZR k - p) (p - (IZR k - 1))). pose proof (Rmin_r (IZR k - p) (p - (IZR k - 1))).
    apply truncR_neg_iff; [lia|lra].
  + subst k. assert (Hr : -1 < p < 1). { apply truncR_zero_iff. now apply Hf. }
    exists (Rmin (1 - p) (p + 1)). split; [apply Rmin_pos; lra|].
    intros q N. unfold near1 in N. apply Rabs_def2 in N.
    pose proof (Rmin_l (1 - p) (p + 1)). pose proof (Rmin_r (1 - p) (p + 1)).
    apply truncR_zero_iff. lra.
  + assert (Hr : forall r, mem r (fst x) -> IZR k <= r < IZR k + 1).
    { intros r Hr. apply truncR_pos_iff; [lia|]. now apply Hf. }
    assert (p <> IZR k).
    { intros ->. destruct (low_is (fst x) (IZR k)) as [G1 G2]; [intros r M; now apply Hr|easy|].
      rewrite (feq_val _ _ (IZR k)), (fne_val _ (IZR k)) in C1; try easy. apply IZR_neq. lia. }
    specialize (Hr p Hp). exists (Rmin (p - IZR k) (IZR k + 1 - p)). split; [apply Rmin_pos; lra|].
    intros q N. unfold near1 in N. apply Rabs_def2 in N.
    pose proof (Rmin_l (p - IZR k) (IZR k + 1 - p)). pose proof (Rmin_r (p - IZR k) (IZR k + 1 - p)).
    apply truncR_pos_iff; [lia|lra].
Qed.

Lemma B2R_fhalf : is_finite (@fhalf F) = true /\ B2R (@fhalf F) = / 2.
Proof.
unfold fhalf. pose proof (Bldexp_correct (prec F) (emax F) _ _ mode_NE Bone (-1)) as H.
pose proof (fmt_prec1 F). pose proof (fmt_emax F).
rewrite Bone_correct, is_finite_Bone in H by exact _. rewrite Rmult_1_l in H.
rewrite round_generic in H; auto with typeclass_instances.
- rewrite Rlt_bool_true in H.
  + destruct H as (Ha & Hb & _). split; [exact Hb|]. rewrite Ha. simpl. lra.
  + rewrite Rabs_pos_eq by apply bpow_ge_0. apply bpow_lt. lia.
- apply generic_format_FLT_bpow; [exact _|]. unfold SpecFloat.emin. lia.
Qed.
Lemma is_tie_true (a : float F) k : is_finite a = true -> B2R a = IZR k + / 2 -> is_tie a = true.
Proof.
intros Fa Ea. unfold is_tie, std_trunc.
assert (Fb : is_finite (fabs a) = true) by now rewrite is_finite_fabs.
destruct (nearbyint_fin mode_ZR (fabs a) Fb) as [F1 E1].
pose proof (rsub_rnds mode_NE (fabs a) (Bnearbyint mode_ZR (fabs a)) Fb F1) as R.
assert (E : B2R (fabs a) - B2R (Bnearbyint mode_ZR (fabs a)) = / 2).
{ rewrite E1. cbn [round_mode]. assert (P : exists j, B2R (fabs a) = IZR j + / 2 /\ (0 <= j)%Z).
  { rewrite B2R_fabs, Ea. destruct (Z.le_gt_cases 0 k) as [H|H].
    - exists k. split; [|easy]. apply Rabs_pos_eq. apply IZR_le in H. lra.
    - exists (- k - 1)%Z. split; [|lia]. rewrite minus_IZR, opp_IZR.
      assert (H' : (k <= -1)%Z) by lia. apply IZR_le in H'. rewrite Rabs_left1 by lra. lra. }
  destruct P as (j & -> & Hj). rewrite Ztrunc_floor by (apply IZR_le in Hj; lra).
  rewrite (Zfloor_imp j) by (rewrite plus_IZR; lra). lra. }
rewrite E in R. destruct B2R_fhalf as [H1 H2]. rewrite <- H2 in R.
assert (S : is_finite (rsub mode_NE (fabs a) (Bnearbyint mode_ZR (fabs a))) = true /\
            B2R (rsub mode_NE (fabs a) (Bnearbyint mode_ZR (fabs a))) = B2R (@fhalf F)).
{ revert R. unfold rnds. rewrite round_generic; [|auto with typeclass_instances|apply B2R_format].
  rewrite Rlt_bool_true; [intros [R1 R2]; auto|]. apply abs_B2R_lt_emax. }
destruct S as [S1 S2]. now apply feq_val with (/ 2); rewrite ?S2.
Qed.
Lemma nearest_decorates c (op : itv F -> M (itv F)) m : (forall r, round_mode m r = Znearest c r) ->
  (forall x, op x = mif (mor (mnot (is_valid x)) (is_empty x)) (ret empty) (ret (Bnearbyint m (fst x), Bnearbyint m (snd x)))) ->
  decorates1 (dec1 op (fun x => t_step (ret (is_tie (fst (fst x)) || is_tie (snd (fst x)))%bool))) op everywhere (fun r => IZR (Znearest c r)).
Proof.
intros Hm Ho.
apply (step1 op (fun x _ => ret (is_tie (fst (fst x)) || is_tie (snd (fst x)))%bool)).
- intros x W. rewrite Ho. apply (int_step_tightest (Znearest c) m); [|easy]. intros r. now rewrite Hm.
- intros x z W E _. rewrite Ho in E. now apply (nb_bounded m).
- intros x z _ _ _. eexists. split; [reflexivity|]. intros Hc n p Hz Hf Hp.
  apply orb_false_iff in Hc. destruct Hc as [C1 C2].
  assert (exists k, n = IZR k) as [k ->] by (rewrite <- (Hf p Hp); eauto).
  assert (Hr : forall r, mem r (fst x) -> IZR k - / 2 <= r <= IZR k + / 2).
  { intros r Hr. pose proof (Znearest_half c r) as H. rewrite (Hf r Hr) in H. apply Rabs_le_inv in H. lra. }
  assert (p <> IZR k + / 2).
  { intros ->. destruct (upp_is (fst x) (IZR k + / 2)) as [G1 G2]; [intros r M; now apply Hr|easy|].
    now rewrite (is_tie_true _ k) in C2. }
  assert (p <> IZR k - / 2).
  { intros ->. destruct (low_is (fst x) (IZR k - / 2)) as [G1 G2]; [intros r M; now apply Hr|easy|].
    rewrite (is_tie_true _ (k - 1)) in C1; [easy|easy|]. rewrite minus_IZR. lra. }
  specialize (Hr p Hp). assert (Hr' : IZR k - / 2 < p < IZR k + / 2) by lra.
  exists (Rmin (IZR k + / 2 - p) (p - (IZR k - / 2))). split; [apply Rmin_pos; lra|].
  intros q N. unfold near1 in N. apply Rabs_def2 in N.
  pose proof (Rmin_l (IZR k + / 2 - p) (p - (IZR k - / 2))). pose proof (Rmin_r (IZR k + / 2 - p) (p - (IZR k - / 2))).
  rewrite (Hf p Hp). f_equal. apply Znearest_imp. apply Rabs_def1; lra.
Qed.
Lemma rte_decorates : decorates1 (@round_ties_to_even_dec F) round_ties_to_even_itv everywhere rteR.
Proof. now apply (nearest_decorates (fun n => negb (Z.even n)) round_ties_to_even_itv mode_NE). Qed.
Lemma rta_decorates : decorates1 (@round_ties_to_away_dec F) round_ties_to_away_itv everywhere rtaR.
Proof. now apply (nearest_decorates (Zle_bool 0) round_ties_to_away_itv mode_NA). Qed.
End D.
