(** * Proofs: monotone elementary functions return the tightest enclosure *)

From Coq Require Import ZArith NArith Reals Bool Lia Lra Psatz Ratan.
From Flocq Require Import Core.Core IEEE754.BinarySingleNaN.
From Verif Require Import Fmt Spec FloatFacts Exc Deco SpecApi SpecElem MBase PBase MBool MArith PArith
  PMul PFma PDiv PUnary PBool PSetop MElem.

Local Open Scope R_scope.

Section M.
Context {F : fmt}.
Implicit Types a b c l u : float F.
Implicit Types x y z : itv F.

Lemma rround_RD sz r : is_RD r (@rround F mode_DN sz r).
Proof. apply rnds_DN, rround_rnds. Qed.
Lemma rround_RU sz r : is_RU r (@rround F mode_UP sz r).
Proof. apply rnds_UP, rround_rnds. Qed.

(** ** Images of monotone functions *)
Section Mono.
Variables (f : R -> R) (dom : R -> Prop) (x : itv F).
Let D r := mem r x /\ dom r.

Lemma img_iff t : image1 dom f x t <-> exists r, D r /\ t = f r.
Proof. split; [intros (r & H1 & H2 & H3)|intros (r & [H1 H2] & H3)]; exists r; unfold D; auto. Qed.

Lemma glow_inc_att (a : R) l : D a -> (forall r, D r -> f a <= f r) -> is_RD (f a) l -> glow (image1 dom f x) l.
Proof.
intros H1 H2 H3. apply glow_att with (f a); [|intros t (r & Hr & Hd & ->); now apply H2|easy].
exists a. unfold D in H1. tauto.
Qed.
Lemma gupp_inc_att (a : R) l : D a -> (forall r, D r -> f r <= f a) -> is_RU (f a) l -> gupp (image1 dom f x) l.
Proof.
intros H1 H2 H3. apply gupp_att with (f a); [|intros t (r & Hr & Hd & ->); now apply H2|easy].
exists a. unfold D in H1. tauto.
Qed.
Lemma glow_inc_lim g l : (forall r, D r -> g <= f r) -> (forall e, 0 < e -> exists r, D r /\ f r < g + e) ->
  is_RD g l -> glow (image1 dom f x) l.
Proof.
intros H1 H2 H3. apply glow_glb with g; [|easy]. apply glbR_eps.
- intros t (r & Hr & Hd & ->). now apply H1.
- intros e He. destruct (H2 e He) as (r & [Hr Hd] & Hl). exists (f r). split; [now exists r|easy].
Qed.
Lemma gupp_inc_lim g l : (forall r, D r -> f r <= g) -> (forall e, 0 < e -> exists r, D r /\ g - e < f r) ->
  is_RU g l -> gupp (image1 dom f x) l.
Proof.
intros H1 H2 H3. apply gupp_lub with g; [|easy]. apply lubR_eps.
- intros t (r & Hr & Hd & ->). now apply H1.
- intros e He. destruct (H2 e He) as (r & [Hr Hd] & Hl). exists (f r). split; [now exists r|easy].
Qed.
Lemma glow_inc_unb : (forall B, exists r, D r /\ f r < B) -> glow (image1 dom f x) (@fminf F).
Proof.
intros H. apply glow_unb. intros B. destruct (H B) as (r & [Hr Hd] & Hl). exists (f r). split; [now exists r|easy].
Qed.
Lemma gupp_inc_unb : (forall B, exists r, D r /\ B < f r) -> gupp (image1 dom f x) (@finf F).
Proof.
intros H. apply gupp_unb. intros B. destruct (H B) as (r & [Hr Hd] & Hl). exists (f r). split; [now exists r|easy].
Qed.
End Mono.

(** Behaviour of an evaluation function at the infinities. *)
Definition lim_lo (f : R -> R) (v : float F) : Prop :=
  (v = fminf /\ forall B, exists M, f M < B) \/
  (exists g, is_RD g v /\ (forall r, g <= f r) /\ forall e, 0 < e -> exists M, f M < g + e).
Definition lim_up (f : R -> R) (v : float F) : Prop :=
  (v = finf /\ forall B, exists M, B < f M) \/
  (exists g, is_RU g v /\ (forall r, f r <= g) /\ forall e, 0 < e -> exists M, g - e < f M).

Lemma inc_tightest (f : R -> R) (ev : mode -> float F -> float F) x :
  (forall r s, r <= s -> f r <= f s) ->
  (forall m a, is_finite a = true -> rnds m (f (B2R a)) (ev m a)) ->
  lim_lo f (ev mode_DN fminf) -> lim_up f (ev mode_UP finf) ->
  wf x ->
  computes_tightest (mif (mor (mnot (is_valid x)) (is_empty x)) (ret empty)
                      (ret (ev mode_DN (fst x), ev mode_UP (snd x)))) (image1 everywhere f x).
Proof.
intros Hf Hev HL HU W. vred.
destruct (isnan (fst x)) eqn:Ex; vred.
{ eapply ct_ret; [reflexivity|]. apply tightest_empty. intros r. now apply image1_empty. }
eapply ct_ret; [reflexivity|].
pose proof (wf_view _ W) as V. destruct (wview_nonempty x V Ex) as [r0 Hr0].
apply tightest_intro; [exists (f r0), r0; easy| |].
- destruct (low_end_fst x V Ex) as [(H1 & H2 & H3)|(H1 & H2)].
  + apply glow_inc_att with (B2R (fst x)); [easy|intros r [Hr _]; now apply Hf, H3|now apply rnds_DN, Hev].
  + rewrite H1. destruct HL as [(E & H)|(g & Hg & Hb & He)].
    * rewrite E. apply glow_inc_unb. intros B. destruct (H B) as [M HM].
      destruct (H2 M) as (r & Hr & Hlt). exists r. split; [easy|].
      pose proof (Hf r M). lra.
    * apply glow_inc_lim with g; [now intros r _| |easy].
      intros e Hpos. destruct (He e Hpos) as [M HM]. destruct (H2 M) as (r & Hr & Hlt).
      exists r. split; [easy|]. pose proof (Hf r M). lra.
- destruct (upp_end_snd x V Ex) as [(H1 & H2 & H3)|(H1 & H2)].
  + apply gupp_inc_att with (B2R (snd x)); [easy|intros r [Hr _]; now apply Hf, H3|now apply rnds_UP, Hev].
  + rewrite H1. destruct HU as [(E & H)|(g & Hg & Hb & He)].
    * rewrite E. apply gupp_inc_unb. intros B. destruct (H B) as [M HM].
      destruct (H2 M) as (r & Hr & Hlt). exists r. split; [easy|].
      pose proof (Hf M r). lra.
    * apply gupp_inc_lim with g; [now intros r _| |easy].
      intros e Hpos. destruct (He e Hpos) as [M HM]. destruct (H2 M) as (r & Hr & Hlt).
      exists r. split; [easy|]. pose proof (Hf M r). lra.
Qed.

(** ** Exponentials *)
Lemma exp_like_tightest (f : R -> R) x : (forall r s, r <= s -> f r <= f s) -> (forall r, 0 < f r) ->
  (forall B, exists M, B < f M) -> (forall e, 0 < e -> exists M, f M < e) -> wf x ->
  computes_tightest (mif (mor (mnot (is_valid x)) (is_empty x)) (ret empty)
    (ret (mpfr_exp_like f mode_DN (fst x), mpfr_exp_like f mode_UP (snd x)))) (image1 everywhere f x).
Proof.
intros H1 H2 H3 H4 W. apply inc_tightest; try easy.
- intros m a Fa. destruct a; try easy; apply rround_rnds.
- right. exists 0. split; [apply is_RD_0|split].
  + intros r. specialize (H2 r). lra.
  + intros e He. destruct (H4 e He) as [M HM]. exists M. lra.
- now left.
Qed.
Lemma exp_tightest x : wf x -> computes_tightest (exp_itv x) (image1 everywhere exp x).
Proof. intros W. apply exp_like_tightest; auto using exp_le, exp_pos, exp_big, exp_small. Qed.
Lemma exp2_tightest x : wf x -> computes_tightest (exp2_itv x) (image1 everywhere exp2R x).
Proof.
intros W. apply exp_like_tightest; [..|easy].
- intros; apply pow_base_mono; lra.
- intros; apply Rpower_pos.
- intros; apply Rpower_big; lra.
- intros; apply Rpower_small; lra.
Qed.
Lemma exp10_tightest x : wf x -> computes_tightest (exp10_itv x) (image1 everywhere exp10R x).
Proof.
intros W. apply exp_like_tightest; [..|easy].
- intros; apply pow_base_mono; lra.
- intros; apply Rpower_pos.
- intros; apply Rpower_big; lra.
- intros; apply Rpower_small; lra.
Qed.

(** ** Functions on the whole line *)
Lemma atan_tightest x : wf x -> computes_tightest (atan_itv x) (image1 everywhere atan x).
Proof.
intros W. apply inc_tightest; [exact atan_le|..|easy].
- intros m a Fa. destruct a; try easy; apply rround_rnds.
- right. exists (- (PI / 2)). split; [apply rround_RD|split].
  + intros r. pose proof (atan_bound r). lra.
  + exact atan_near_lo.
- right. exists (PI / 2). split; [apply rround_RU|split].
  + intros r. pose proof (atan_bound r). lra.
  + exact atan_near_up.
Qed.
Lemma sinh_tightest x : wf x -> computes_tightest (sinh_itv x) (image1 everywhere sinh x).
Proof.
intros W. apply inc_tightest; [exact sinh_le|..|easy].
- intros m a Fa. unfold mpfr_sinh. rewrite Fa. apply rround_rnds.
- left. split; [easy|exact sinh_small].
- left. split; [easy|exact sinh_big].
Qed.
Lemma asinh_tightest x : wf x -> computes_tightest (asinh_itv x) (image1 everywhere arcsinh x).
Proof.
intros W. apply inc_tightest; [exact arcsinh_le'|..|easy].
- intros m a Fa. unfold mpfr_asinh. rewrite Fa. apply rround_rnds.
- left. split; [easy|]. intros B. exists (sinh (B - 1)). rewrite arcsinh_sinh. lra.
- left. split; [easy|]. intros B. exists (sinh (B + 1)). rewrite arcsinh_sinh. lra.
Qed.
Lemma is_RD_f1 : is_RD 1 (@f1 F). Proof. rewrite <- (@B2R_f1 F). apply is_RD_self, is_finite_f1. Qed.
Lemma is_RU_f1 : is_RU 1 (@f1 F). Proof. rewrite <- (@B2R_f1 F). apply is_RU_self, is_finite_f1. Qed.
Lemma is_RD_fm1 : is_RD (-1) (@fm1 F). Proof. rewrite <- (@B2R_fm1 F). apply is_RD_self, is_finite_fm1. Qed.
Lemma is_RU_fm1 : is_RU (-1) (@fm1 F). Proof. rewrite <- (@B2R_fm1 F). apply is_RU_self, is_finite_fm1. Qed.
Lemma tanh_tightest x : wf x -> computes_tightest (tanh_itv x) (image1 everywhere tanh x).
Proof.
intros W. apply inc_tightest; [exact tanh_le|..|easy].
- intros m a Fa. destruct a; try easy; apply rround_rnds.
- right. exists (-1). split; [apply is_RD_fm1|split].
  + intros r. pose proof (tanh_lt1 r). lra.
  + exact tanh_near_lo.
- right. exists 1. split; [apply is_RU_f1|split].
  + intros r. pose proof (tanh_lt1 r). lra.
  + exact tanh_near_up.
Qed.


(** ** Logarithms *)
Lemma wf_nn : wf ((f0, finf) : itv F).
Proof. right. exists 0. split; simpl; [lra|easy]. Qed.

Lemma fle_iff a b : is_finite a = true -> is_finite b = true -> fle a b = true <-> B2R a <= B2R b.
Proof. intros. rewrite fle_fin by easy. case Rle_bool_spec; split; try easy; lra. Qed.

Lemma log_like_pos (f : R -> R) m a : is_finite a = true -> 0 < B2R a ->
  mpfr_log_like f m a = rround m false (f (B2R a)).
Proof.
intros Fa Hpos. destruct a as [|[]| |[]]; try easy; simpl in Hpos; [lra|].
exfalso. pose proof (F2R_lt_0 radix2 (Float radix2 (Zneg m0) e) eq_refl). simpl in *. lra.
Qed.
Lemma log_like_tightest (f : R -> R) x : (forall r s, 0 < r -> r <= s -> f r <= f s) ->
  (forall B, exists M, 0 < M /\ f M < B) -> (forall B, exists M, 0 < M /\ B < f M) -> wf x ->
  computes_tightest
  (mif (mnot (is_valid x)) (ret empty)
   (bind (intersection x (f0, finf)) (fun xx =>
    mif (is_empty xx) (ret xx)
    (if fle (snd x) f0 then ret empty else
     ret (mpfr_log_like f mode_DN (if fle (fst x) f0 then f0 else fst x), mpfr_log_like f mode_UP (snd x))))))
  (image1 positive f x).
Proof.
intros H1 H2 H3 W. vred.
destruct (intersection_exact x (f0, finf) W wf_nn) as (xx & -> & Wx & Hx). vred.
destruct (isnan (fst xx)) eqn:Ex; vred.
{ eapply ct_ret; [reflexivity|]. rewrite (wf_nan_l xx) by easy. apply tightest_empty.
  intros t (r & Hr & Hd & _). apply wf_nan_l in Ex; [|easy]. subst xx.
  apply (@mem_empty F r), Hx. split; [easy|]. split; simpl; [|easy]. unfold positive in Hd. lra. }
destruct (wf_nonempty xx Wx Ex) as (r0 & Hr0). apply Hx in Hr0. destruct Hr0 as [Hr0 [Hp0 _]]. simpl in Hp0.
assert (Ex' : isnan (fst x) = false) by (destruct Hr0 as [Hr0 _]; now destruct (fst x)).
pose proof (wf_view _ W) as V.
destruct (fle (snd x) f0) eqn:E0.
{ eapply ct_ret; [reflexivity|]. apply tightest_empty.
  intros t (r & Hr & Hd & _). unfold positive in Hd. destruct Hr as [_ Hr].
  destruct (fviewP (snd x)) as [ | | |u Fu]; try easy.
  rewrite ub_fin in Hr by easy. rewrite fle_iff in E0 by easy. simpl in E0. lra. }
eapply ct_ret; [reflexivity|].
(* a positive member below any positive bound on the right side *)
assert (HU : forall M, 0 < M -> (forall l, is_finite l = true -> fst x = l -> B2R l <= 0) ->
   exists r, mem r x /\ 0 < r /\ r <= M).
{ intros M HM Hl. destruct (upp_end_snd x V Ex') as [(A1 & A2 & A3)|(A1 & A2)].
  - assert (~ B2R (snd x) <= 0) by (intros H; rewrite <- Bool.not_true_iff_false in E0; apply E0; now apply fle_iff).
    exists (Rmin M (B2R (snd x))). split; [|split; [apply Rmin_glb_lt; lra|apply Rmin_l]].
    split; [|now rewrite ub_fin by easy; apply Rmin_r].
    destruct (low_end_fst x V Ex') as [(B1 & B2 & B3)|(B1 & B2)]; [|now rewrite B1].
    rewrite lb_fin by easy. specialize (Hl _ B1 eq_refl).
    apply Rle_trans with 0; [lra|]. left; apply Rmin_glb_lt; lra.
  - exists M. split; [|split; [easy|lra]]. split; [|now rewrite A1].
    destruct (low_end_fst x V Ex') as [(B1 & B2 & B3)|(B1 & B2)]; [|now rewrite B1].
    rewrite lb_fin by easy. specialize (Hl _ B1 eq_refl). lra. }
assert (HP : exists r, mem r x /\ 0 < r).
{ destruct (upp_end_snd x V Ex') as [(A1 & A2 & A3)|(A1 & A2)].
  - exists (B2R (snd x)). split; [easy|]. apply Rnot_le_lt. intros H.
    rewrite <- Bool.not_true_iff_false in E0; apply E0; now apply fle_iff.
  - destruct (A2 0) as (r & Hr & Hlt). now exists r. }
destruct HP as (r1 & Hr1 & Hp1).
apply tightest_intro; [now exists (f r1), r1| |].
- assert (Hlow : (fle (fst x) f0 = true /\ forall l, is_finite l = true -> fst x = l -> B2R l <= 0) \/
                 (fle (fst x) f0 = false /\ is_finite (fst x) = true /\ 0 < B2R (fst x) /\ mem (B2R (fst x)) x /\
                   forall r, mem r x -> B2R (fst x) <= r)).
  { destruct (low_end_fst x V Ex') as [(B1 & B2 & B3)|(B1 & B2)].
    - destruct (fle (fst x) f0) eqn:E.
      + left. split; [easy|]. intros l _ <-. now apply fle_iff in E.
      + right. repeat (split; [easy|]). split; [|easy]. apply Rnot_le_lt. intros H.
        rewrite <- Bool.not_true_iff_false in E; apply E; now apply fle_iff.
    - rewrite B1. left. split; [easy|]. intros l Fl <-. easy. }
  destruct Hlow as [(-> & Hl)|(-> & Ff & Hpos & Hm & Hle)].
  + change (mpfr_log_like f mode_DN f0) with (@fminf F). apply glow_inc_unb.
    intros B. destruct (H2 B) as (M & HM & HfM). destruct (HU M HM Hl) as (r & Hr & Hrp & Hrle).
    exists r. split; [easy|]. pose proof (H1 r M Hrp Hrle). lra.
  + assert (E : mpfr_log_like f mode_DN (fst x) = rround mode_DN false (f (B2R (fst x)))) by now apply log_like_pos.
    rewrite E. apply glow_inc_att with (B2R (fst x)); [easy| |apply rround_RD].
    intros r [Hr Hd]. apply H1; [easy|]. now apply Hle.
- destruct (upp_end_snd x V Ex') as [(A1 & A2 & A3)|(A1 & A2)].
  + assert (Hpos : 0 < B2R (snd x)) by (specialize (A3 r1 Hr1); lra).
    assert (E : mpfr_log_like f mode_UP (snd x) = rround mode_UP false (f (B2R (snd x)))) by now apply log_like_pos.
    rewrite E. apply gupp_inc_att with (B2R (snd x)); [easy| |apply rround_RU].
    intros r [Hr Hd]. apply H1; [easy|]. now apply A3.
  + rewrite A1. change (mpfr_log_like f mode_UP finf) with (@finf F). apply gupp_inc_unb.
    intros B. destruct (H3 B) as (M & HM & HfM). destruct (A2 M) as (r & Hr & Hlt).
    exists r. split; [split; [easy|unfold positive; lra]|].
    pose proof (H1 M r HM). lra.
Qed.

Lemma log_tightest x : wf x -> computes_tightest (log_itv x) (image1 positive ln x).
Proof.
intros W. apply log_like_tightest; [exact ln_le|..|easy]; intros B.
- exists (exp (B - 1)). split; [apply exp_pos|]. rewrite ln_exp. lra.
- exists (exp (B + 1)). split; [apply exp_pos|]. rewrite ln_exp. lra.
Qed.
Lemma log_base_tightest (b : R) (f : R -> R) x : 0 < ln b -> (forall r, f r = ln r / ln b) -> wf x ->
  computes_tightest
  (mif (mnot (is_valid x)) (ret empty)
   (bind (intersection x (f0, finf)) (fun xx =>
    mif (is_empty xx) (ret xx)
    (if fle (snd x) f0 then ret empty else
     ret (mpfr_log_like f mode_DN (if fle (fst x) f0 then f0 else fst x), mpfr_log_like f mode_UP (snd x))))))
  (image1 positive f x).
Proof.
intros Hb Hf W. apply log_like_tightest; [..|easy].
- intros r s Hr Hs. rewrite !Hf. apply Rmult_le_compat_r; [left; now apply Rinv_0_lt_compat|now apply ln_le].
- intros B. exists (exp ((B - 1) * ln b)). split; [apply exp_pos|]. rewrite Hf, ln_exp. field_simplify; lra.
- intros B. exists (exp ((B + 1) * ln b)). split; [apply exp_pos|]. rewrite Hf, ln_exp. field_simplify; lra.
Qed.
Lemma log2_tightest x : wf x -> computes_tightest (log2_itv x) (image1 positive log2R x).
Proof. intros W. now apply (log_base_tightest 2); [apply ln2_pos| |]. Qed.
Lemma log10_tightest x : wf x -> computes_tightest (log10_itv x) (image1 positive log10R x).
Proof. intros W. now apply (log_base_tightest 10); [apply ln10_pos| |]. Qed.

(** ** asin, acos *)
Lemma wf_pm1 : wf ((fm1, f1) : itv F).
Proof.
right. exists 0. split; simpl; [rewrite lb_fin by fin; rewrite B2R_fm1; lra|rewrite ub_fin by fin; rewrite B2R_f1; lra].
Qed.
Lemma mem_pm1 r : mem r ((fm1, f1) : itv F) <-> within1 r.
Proof. unfold mem, within1; simpl. rewrite lb_fin, ub_fin by fin. now rewrite B2R_fm1, B2R_f1. Qed.

(** The part of [x] inside [-1,1]: a bounded interval with ends in [-1,1]. *)
Lemma clip1 x : wf x -> exists xx, intersection x (fm1, f1) = ret xx /\ wf xx /\
  (isnan (fst xx) = true /\ (forall r, ~ (mem r x /\ within1 r)) \/
   isnan (fst xx) = false /\ exists a b, xx = (a, b) /\ is_finite a = true /\ is_finite b = true /\
     mem (B2R a) x /\ within1 (B2R a) /\ mem (B2R b) x /\ within1 (B2R b) /\
     forall r, mem r x -> within1 r -> B2R a <= r <= B2R b).
Proof.
intros W. destruct (intersection_exact x (fm1, f1) W wf_pm1) as (xx & E & Wx & Hx).
exists xx. split; [easy|split; [easy|]].
assert (Hx' : forall r, mem r xx <-> mem r x /\ within1 r) by (intros r; rewrite Hx, mem_pm1; tauto).
destruct (isnan (fst xx)) eqn:Ex.
- left. split; [easy|]. intros r Hr. apply Hx' in Hr. apply wf_nan_l in Ex; [|easy]. subst xx. now apply mem_empty in Hr.
- right. split; [easy|]. pose proof (wf_view _ Wx) as V.
  destruct (low_end_fst xx V Ex) as [(A1 & A2 & A3)|(A1 & A2)].
  2:{ destruct (A2 (-1)) as (r & Hr & Hlt). apply Hx' in Hr. unfold within1 in Hr. lra. }
  destruct (upp_end_snd xx V Ex) as [(B1 & B2 & B3)|(B1 & B2)].
  2:{ destruct (B2 1) as (r & Hr & Hlt). apply Hx' in Hr. unfold within1 in Hr. lra. }
  exists (fst xx), (snd xx). split; [apply surjective_pairing|]. split; [easy|split; [easy|]].
  pose proof (proj1 (Hx' _) A2) as [C1 C2]. pose proof (proj1 (Hx' _) B2) as [C3 C4].
  repeat (split; [easy|]). intros r Hr Hw. assert (mem r xx) by now apply Hx'. split; [now apply A3|now apply B3].
Qed.
Lemma within1_abs r : within1 r -> Rle_bool (Rabs r) 1 = true.
Proof. intros [H1 H2]. apply Rle_bool_true. now apply Rabs_le. Qed.

Lemma asin_tightest x : wf x -> computes_tightest (asin_itv x) (image1 within1 asin x).
Proof.
intros W. unfold asin_itv. vred.
destruct (clip1 x W) as (xx & -> & Wx & [(E & H)|(E & a & b & -> & Fa & Fb & Ma & Wa & Mb & Wb & Hab)]); vred; rewrite E; vred.
- eapply ct_ret; [reflexivity|]. rewrite (wf_nan_l xx) by easy. apply tightest_empty.
  intros t (r & Hr & Hd & _). now apply (H r).
- eapply ct_ret; [reflexivity|]. cbn [fst snd]. unfold mpfr_asin. rewrite Fa, Fb, !within1_abs by easy. simpl.
  apply tightest_intro; [now exists (asin (B2R a)), (B2R a)| |].
  + apply glow_inc_att with (B2R a); [easy| |apply rround_RD]. intros r [Hr Hd].
    pose proof (Hab r Hr Hd). unfold within1 in *. apply asin_le; lra.
  + apply gupp_inc_att with (B2R b); [easy| |apply rround_RU]. intros r [Hr Hd].
    pose proof (Hab r Hr Hd). unfold within1 in *. apply asin_le; lra.
Qed.
Lemma acos_tightest x : wf x -> computes_tightest (acos_itv x) (image1 within1 acos x).
Proof.
intros W. unfold acos_itv. vred.
destruct (clip1 x W) as (xx & -> & Wx & [(E & H)|(E & a & b & -> & Fa & Fb & Ma & Wa & Mb & Wb & Hab)]); vred; rewrite E; vred.
- eapply ct_ret; [reflexivity|]. rewrite (wf_nan_l xx) by easy. apply tightest_empty.
  intros t (r & Hr & Hd & _). now apply (H r).
- eapply ct_ret; [reflexivity|]. cbn [fst snd]. unfold mpfr_acos. rewrite Fa, Fb, !within1_abs by easy. simpl.
  apply tightest_intro; [now exists (acos (B2R a)), (B2R a)| |].
  + apply glow_inc_att with (B2R b); [easy| |apply rround_RD]. intros r [Hr Hd].
    pose proof (Hab r Hr Hd). unfold within1 in *. apply acos_le; lra.
  + apply gupp_inc_att with (B2R a); [easy| |apply rround_RU]. intros r [Hr Hd].
    pose proof (Hab r Hr Hd). unfold within1 in *. apply acos_le; lra.
Qed.

End M.
