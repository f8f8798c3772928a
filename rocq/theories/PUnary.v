(** * Proofs: sqr, sqrt, abs, min, max are tightest *)

From Coq Require Import ZArith NArith Reals Bool Lia Lra Psatz.
From Flocq Require Import Core.Core IEEE754.BinarySingleNaN.
From Verif Require Import Fmt Spec FloatFacts Exc Deco SpecApi MBase PBase MBool MArith PArith PMul PFma PDiv.

Local Open Scope R_scope.

Section M.
Context {F : fmt}.
Implicit Types a b c l u : float F.
Implicit Types x y z : itv F.

Lemma is_finite_fabs a : is_finite (fabs a) = is_finite a.
Proof. now destruct a. Qed.
Lemma B2R_fabs a : B2R (fabs a) = Rabs (B2R a).
Proof. apply B2R_Babs. Qed.
Lemma fabs_pinf : fabs (@finf F) = finf. Proof. reflexivity. Qed.
Lemma fabs_minf : fabs (@fminf F) = finf. Proof. reflexivity. Qed.

(** Sets given by an attained minimum / maximum. *)
Lemma glow_att (S : R -> Prop) g l : S g -> (forall r, S r -> g <= r) -> is_RD g l -> glow S l.
Proof. intros H1 H2 H3. apply glow_glb with g; [now apply glbR_min|easy]. Qed.
Lemma gupp_att (S : R -> Prop) g l : S g -> (forall r, S r -> r <= g) -> is_RU g l -> gupp S l.
Proof. intros H1 H2 H3. apply gupp_lub with g; [now apply lubR_max|easy]. Qed.

Notation SQ x := (image1 everywhere (fun r => r * r) x).

Lemma glow_sqr a x : is_finite a = true -> (exists r, mem r x /\ Rabs r = B2R a) ->
  (forall r, mem r x -> B2R a <= Rabs r) -> glow (SQ x) (rmul mode_DN a a).
Proof.
intros Fa (r0 & M0 & E0) H. apply glow_att with (B2R a * B2R a).
- exists r0. split; [easy|split; [easy|]]. rewrite <- E0, <- Rabs_mult.
  apply Rabs_pos_eq, Rle_0_sqr.
- intros t (r & Mr & _ & ->). specialize (H r Mr).
  rewrite <- (Rabs_pos_eq (r * r)) by apply Rle_0_sqr. rewrite Rabs_mult.
  pose proof (Rabs_pos r0). apply Rmult_le_compat; lra.
- now apply rmul_RD.
Qed.
Lemma gupp_sqr a x : is_finite a = true -> (exists r, mem r x /\ Rabs r = B2R a) ->
  (forall r, mem r x -> Rabs r <= B2R a) -> gupp (SQ x) (rmul mode_UP a a).
Proof.
intros Fa (r0 & M0 & E0) H. apply gupp_att with (B2R a * B2R a).
- exists r0. split; [easy|split; [easy|]]. rewrite <- E0, <- Rabs_mult.
  apply Rabs_pos_eq, Rle_0_sqr.
- intros t (r & Mr & _ & ->). specialize (H r Mr).
  rewrite <- (Rabs_pos_eq (r * r)) by apply Rle_0_sqr. rewrite Rabs_mult.
  pose proof (Rabs_pos r). apply Rmult_le_compat; lra.
- now apply rmul_RU.
Qed.
Lemma gupp_sqr_unb x : (forall B, exists r, mem r x /\ B < Rabs r) -> gupp (SQ x) (rmul mode_UP (@finf F) finf).
Proof.
intros H. apply gupp_unb. intros B. destruct (H (Rabs B + 1)) as (r & Mr & Hr).
exists (r * r). split; [now exists r|].
rewrite <- (Rabs_pos_eq (r * r)) by apply Rle_0_sqr. rewrite Rabs_mult.
pose proof (Rle_abs B). pose proof (Rabs_pos B). nra.
Qed.

Lemma endp_abs_unb a x : endp a x -> isinf a = true -> forall B, exists r, mem r x /\ B < Rabs r.
Proof.
intros [[H _]|[[_ H]|[_ H]]] I B; [now rewrite isinf_fin in I| |].
- destruct (H (- Rabs B)) as (r & Mr & Hr). exists r. split; [easy|].
  pose proof (Rle_abs B). pose proof (Rabs_pos B). rewrite Rabs_left; lra.
- destruct (H (Rabs B)) as (r & Mr & Hr). exists r. split; [easy|].
  pose proof (Rle_abs B). pose proof (Rabs_pos B). rewrite Rabs_right; lra.
Qed.

Ltac rabs := unfold Rabs in *; repeat destruct Rcase_abs; try lra.

Lemma is_RD_0 : is_RD 0 (@f0 F). Proof. change 0 with (B2R (@f0 F)). now apply is_RD_self. Qed.
Lemma is_RU_0 : is_RU 0 (@f0 F). Proof. change 0 with (B2R (@f0 F)). now apply is_RU_self. Qed.

Lemma sqr_tightest x : wf x -> computes_tightest (sqr x) (SQ x).
Proof.
intros W. unfold sqr. vred.
destruct (isnan (fst x)) eqn:Ex; vred.
{ eapply ct_ret; [reflexivity|]. apply tightest_empty. intros; now apply image1_empty. }
eapply ct_ret; [reflexivity|].
pose proof (wf_nonempty x W Ex) as [r0 Hr0]. apply wf_view in W.
pose proof (endp_l x W Ex) as Lx. pose proof (endp_u x W Ex) as Ux.
assert (NE : exists r, SQ x r) by now exists (r0 * r0), r0.
assert (G0 : lb (fst x) 0 -> ub (snd x) 0 -> glow (SQ x) (@f0 F)).
{ intros H1 H2. apply glow_att with 0; [|intros r (s & _ & _ & ->); apply Rle_0_sqr|apply is_RD_0].
  exists 0. split; [now split|split; [easy|ring]]. }
destruct W as [ | |xu Fxu|xl Fxl|xl xu Fxl Fxu Hx]; try discriminate; cbn [fst snd] in *;
  rewrite ?fabs_pinf, ?fabs_minf; unfold fgt; fcmp.
- apply tightest_intro; [easy|now apply G0|]. change (flt finf finf) with false.
  cbv iota. apply gupp_sqr_unb. eapply endp_abs_unb; [exact Ux|easy].
- assert (Fa : is_finite (fabs xu) = true) by now rewrite is_finite_fabs.
  rewrite ?flt_pinf_l, ?flt_pinf_r by easy. simpl (B2R f0). rcase.
  + apply tightest_intro; [easy| |].
    * apply G0; [easy|]. rewrite ub_fin by easy. lra.
    * apply gupp_sqr_unb. eapply endp_abs_unb; [exact Lx|easy].
  + apply tightest_intro; [easy| |].
    * apply glow_sqr; [easy| |].
      -- exists (B2R xu). split; [|now rewrite B2R_fabs]. split; [easy|]. cbn [snd]. rewrite ub_fin by easy. lra.
      -- intros r Hr. memx. rewrite B2R_fabs. rabs.
    * apply gupp_sqr_unb. eapply endp_abs_unb; [exact Lx|easy].
- assert (Fa : is_finite (fabs xl) = true) by now rewrite is_finite_fabs.
  rewrite ?flt_pinf_l, ?flt_pinf_r by easy. simpl (B2R f0). rcase.
  + apply tightest_intro; [easy| |].
    * apply G0; [|easy]. rewrite lb_fin by easy. lra.
    * apply gupp_sqr_unb. eapply endp_abs_unb; [exact Ux|easy].
  + apply tightest_intro; [easy| |].
    * apply glow_sqr; [easy| |].
      -- exists (B2R xl). split; [|now rewrite B2R_fabs]. split; [|easy]. cbn [fst]. rewrite lb_fin by easy. lra.
      -- intros r Hr. memx. rewrite B2R_fabs. rabs.
    * apply gupp_sqr_unb. eapply endp_abs_unb; [exact Ux|easy].
- assert (Fa : is_finite (fabs xl) = true) by now rewrite is_finite_fabs.
  assert (Fb : is_finite (fabs xu) = true) by now rewrite is_finite_fabs.
  rewrite !flt_fin by easy. rewrite !B2R_fabs, ?B2R_f0.
  assert (Ml : mem (B2R xl) (xl, xu)). { split; cbn [fst snd]; rewrite ?lb_fin, ?ub_fin by easy; lra. }
  assert (Mu : mem (B2R xu) (xl, xu)). { split; cbn [fst snd]; rewrite ?lb_fin, ?ub_fin by easy; lra. }
  rewrite lb_fin, ub_fin in G0 by easy.
  repeat rcase; apply tightest_intro; try assumption; try (apply G0; lra);
  (first [apply glow_sqr|apply gupp_sqr]; [easy| |intros r Hr; memx; rewrite ?B2R_fabs; rabs]);
  solve [exists (B2R xl); split; [easy|]; rewrite ?B2R_fabs; rabs | exists (B2R xu); split; [easy|]; rewrite ?B2R_fabs; rabs].
Qed.

(** ** Square root *)
Lemma rsqrt_pinf m : rsqrt m (@finf F) = finf. Proof. reflexivity. Qed.
Lemma sqrt_tightest x : wf x -> computes_tightest (sqrt x) (image1 (fun r => 0 <= r) R_sqrt.sqrt x).
Proof.
intros W. unfold sqrt. vred.
destruct (isnan (fst x)) eqn:Ex; vred.
{ eapply ct_ret; [reflexivity|]. apply tightest_empty. intros; now apply image1_empty. }
destruct (flt (snd x) f0) eqn:Nx.
{ eapply ct_ret; [reflexivity|]. apply tightest_empty. intros t (r & Hr & Hd & _).
  apply wf_view in W. pose proof (endp_u x W Ex) as [[Fu _]|[[E _]|[E _]]].
  - apply neg_f_fin in Nx; [|easy]. destruct Hr as [_ Hr]. rewrite ub_fin in Hr by easy. lra.
  - destruct Hr as [_ Hr]. now rewrite E in Hr.
  - now rewrite E in Nx. }
eapply ct_ret; [reflexivity|].
apply wf_view in W. rewrite <- surjective_pairing || idtac.
assert (GU : forall u, upp_end u x -> flt u f0 = false -> gupp (image1 (fun r => 0 <= r) R_sqrt.sqrt x) (rsqrt mode_UP u)).
{ intros u [(Fu & Mu & Hu)|(-> & Hu)] Nu.
  - rewrite flt_fin in Nu by fin. rewrite B2R_f0 in Nu. revert Nu; case Rlt_bool_spec; [easy|intros Nu _].
    apply gupp_att with (R_sqrt.sqrt (B2R u)).
    + now exists (B2R u).
    + intros t (r & Hr & Hd & ->). apply sqrt_le_1_alt. auto.
    + now apply rnds_UP, rsqrt_rnds.
  - rewrite rsqrt_pinf. apply gupp_unb. intros B.
    destruct (Hu (Rsqr (Rabs B + 1))) as (r & Hr & Hr'). exists (R_sqrt.sqrt r).
    pose proof (Rle_abs B). pose proof (Rabs_pos B).
    pose proof (Rle_0_sqr (Rabs B + 1)).
    split; [exists r; split; [easy|split; [lra|easy]]|].
    apply Rlt_le_trans with (Rabs B + 1); [lra|].
    rewrite <- (sqrt_Rsqr (Rabs B + 1)) by lra. apply sqrt_le_1_alt. lra. }
assert (GL : forall l, low_end l x -> flt l f0 = false -> glow (image1 (fun r => 0 <= r) R_sqrt.sqrt x) (rsqrt mode_DN l)).
{ intros u [(Fu & Mu & Hu)|(-> & Hu)] Nu; [|easy].
  rewrite flt_fin in Nu by fin. rewrite B2R_f0 in Nu. revert Nu; case Rlt_bool_spec; [easy|intros Nu _].
  apply glow_att with (R_sqrt.sqrt (B2R u)).
  + now exists (B2R u).
  + intros t (r & Hr & Hd & ->). apply sqrt_le_1_alt. auto.
  + now apply rnds_DN, rsqrt_rnds. }
assert (NE : exists t, image1 (fun r => 0 <= r) R_sqrt.sqrt x t).
{ destruct (upp_end_snd x W Ex) as [(Fu & Mu & Hu)|(Iu & Hu)].
  - rewrite flt_fin in Nx by fin. rewrite B2R_f0 in Nx. revert Nx; case Rlt_bool_spec; [easy|intros Nu _].
    exists (R_sqrt.sqrt (B2R (snd x))). now exists (B2R (snd x)).
  - destruct (Hu 0) as (r & Hr & Hr'). exists (R_sqrt.sqrt r), r. split; [easy|split; [lra|easy]]. }
destruct (flt (fst x) f0) eqn:Nl; apply tightest_intro; auto using upp_end_snd, low_end_fst.
apply glow_att with 0; [|intros t (r & _ & _ & ->); apply sqrt_pos|apply is_RD_0].
exists 0. split; [|split; [lra|now rewrite sqrt_0]].
destruct (endp_neg _ _ (endp_l x W Ex) Nl) as (r & [Hr _] & Hr0).
split; [apply lb_mono with r; [easy|lra]|].
destruct NE as (t & s & [_ Hs] & Hs0 & _). apply ub_mono with s; easy.
Qed.

(** ** Absolute value, minimum and maximum *)
Lemma abs_tightest x : wf x -> computes_tightest (abs x) (image1 everywhere Rabs x).
Proof.
intros W. unfold abs. vred.
destruct (isnan (fst x)) eqn:Ex; vred.
{ eapply ct_ret; [reflexivity|]. apply tightest_empty. intros; now apply image1_empty. }
eapply ct_ret; [reflexivity|].
pose proof (wf_nonempty x W Ex) as [r0 Hr0]. pose proof W as W'. apply wf_view in W.
pose proof (endp_l x W Ex) as Lx. pose proof (endp_u x W Ex) as Ux.
assert (NE : exists r, image1 everywhere Rabs x r) by now exists (Rabs r0), r0.
assert (G0 : lb (fst x) 0 -> ub (snd x) 0 -> glow (image1 everywhere Rabs x) (@f0 F)).
{ intros H1 H2. apply glow_att with 0; [|intros r (s & _ & _ & ->); apply Rabs_pos|apply is_RD_0].
  exists 0. split; [now split|split; [easy|now rewrite Rabs_R0]]. }
assert (GU : forall a, endp a x -> isinf a = true -> gupp (image1 everywhere Rabs x) (@finf F)).
{ intros a Ha Ia. apply gupp_unb. intros B. destruct (endp_abs_unb a x Ha Ia B) as (r & Hr & Hr').
  exists (Rabs r). now split; [exists r|]. }
assert (GA : forall a, is_finite a = true -> mem (B2R a) x -> (forall r, mem r x -> Rabs r <= Rabs (B2R a)) ->
  forall b, is_finite b = true -> B2R b = Rabs (B2R a) -> gupp (image1 everywhere Rabs x) b).
{ intros a Fa Ma Ha b Fb Eb. apply gupp_att with (Rabs (B2R a)); [now exists (B2R a)|intros t (r & Hr & _ & ->); auto|].
  rewrite <- Eb. now apply is_RU_self. }
assert (GB : forall a, is_finite a = true -> mem (B2R a) x -> (forall r, mem r x -> Rabs (B2R a) <= Rabs r) ->
  forall b, is_finite b = true -> B2R b = Rabs (B2R a) -> glow (image1 everywhere Rabs x) b).
{ intros a Fa Ma Ha b Fb Eb. apply glow_att with (Rabs (B2R a)); [now exists (B2R a)|intros t (r & Hr & _ & ->); auto|].
  rewrite <- Eb. now apply is_RD_self. }
unfold fmax.
destruct W as [ | |xu Fxu|xl Fxl|xl xu Fxl Fxu Hx]; try discriminate; cbn [fst snd] in *;
  rewrite ?fabs_pinf, ?fabs_minf; fcmp.
- apply tightest_intro; [easy|now apply G0|]. change (flt finf finf) with false. apply (GU _ Ux eq_refl).
- assert (Fa : is_finite (fabs xu) = true) by now rewrite is_finite_fabs.
  rewrite B2R_f0. rcase.
  + apply tightest_intro; [easy| |apply (GU _ Lx eq_refl)].
    apply GB with xu; try easy; [split; cbn [fst snd]; [easy|rewrite ub_fin by easy; lra]| |apply B2R_fabs].
    intros r Hr. memx. rabs.
  + apply tightest_intro; [easy| |].
    * apply G0; [easy|]. rewrite ub_fin by easy. lra.
    * apply (GU _ Lx eq_refl).
- assert (Fa : is_finite (fabs xl) = true) by now rewrite is_finite_fabs.
  rewrite B2R_f0. rcase.
  + apply tightest_intro; [easy| |apply (GU _ Ux eq_refl)].
    apply GB with xl; try easy; [split; cbn [fst snd]; [rewrite lb_fin by easy; lra|easy]| |rabs].
    intros r Hr. memx. rabs.
  + rewrite flt_pinf_r by easy.
    apply tightest_intro; [easy| |].
    * apply G0; [|easy]. rewrite lb_fin by easy. lra.
    * apply (GU _ Ux eq_refl).
- assert (Fa : is_finite (fabs xl) = true) by now rewrite is_finite_fabs.
  assert (Fb : is_finite (fabs xu) = true) by now rewrite is_finite_fabs.
  assert (Ml : mem (B2R xl) (xl, xu)). { split; cbn [fst snd]; rewrite ?lb_fin, ?ub_fin by easy; lra. }
  assert (Mu : mem (B2R xu) (xl, xu)). { split; cbn [fst snd]; rewrite ?lb_fin, ?ub_fin by easy; lra. }
  rewrite lb_fin, ub_fin in G0 by easy.
  rewrite !flt_fin by easy. rewrite !B2R_fabs, ?B2R_f0.
  repeat rcase; apply tightest_intro; try assumption; try (apply G0; lra);
  first
  [ solve [first [apply GB with xl|apply GA with xl]; try easy; [intros r Hr; memx; rabs|rewrite ?B2R_fabs; rabs]]
  | solve [first [apply GB with xu|apply GA with xu]; try easy; [intros r Hr; memx; rabs|rewrite ?B2R_fabs; rabs]]].
Qed.

Lemma flt_fle_false a b : isnan a = false -> isnan b = false -> flt b a = false -> fle a b = true.
Proof.
destruct (fviewP a) as [ | | |a Fa], (fviewP b) as [ | | |b Fb]; try easy; intros _ _;
  rewrite ?flt_minf_l, ?flt_pinf_r, ?fle_minf_l, ?fle_pinf_r by first [easy|now apply isnan_fin]; try easy.
rewrite flt_fin, fle_fin by easy. case Rlt_bool_spec; [easy|intros H _]. now apply Rle_bool_true.
Qed.
Lemma flt_fle a b : flt a b = true -> fle a b = true.
Proof.
destruct (fviewP a) as [ | | |a Fa], (fviewP b) as [ | | |b Fb]; try easy;
  rewrite ?flt_nan_r, ?flt_minf_l, ?flt_pinf_r, ?flt_pinf_l, ?flt_minf_r, ?fle_minf_l, ?fle_pinf_r by first [easy|now apply isnan_fin]; try easy.
rewrite flt_fin, fle_fin by easy. case Rlt_bool_spec; [intros H _|easy]. apply Rle_bool_true. lra.
Qed.
Lemma fmin_cases a b : isnan a = false -> isnan b = false ->
  (fmin a b = a /\ fle a b = true) \/ (fmin a b = b /\ fle b a = true).
Proof.
intros Ha Hb. unfold fmin. destruct (flt b a) eqn:E; [right|left]; split; auto using flt_fle_false, flt_fle.
Qed.
Lemma fmax_cases a b : isnan a = false -> isnan b = false ->
  (fmax a b = a /\ fle b a = true) \/ (fmax a b = b /\ fle a b = true).
Proof.
intros Ha Hb. unfold fmax. destruct (flt a b) eqn:E; [right|left]; split; auto using flt_fle_false, flt_fle.
Qed.

Lemma low_end_nan a x : low_end a x -> isnan a = false.
Proof. intros [[H _]|[-> _]]; [now apply isnan_fin|easy]. Qed.
Lemma upp_end_nan a x : upp_end a x -> isnan a = false.
Proof. intros [[H _]|[-> _]]; [now apply isnan_fin|easy]. Qed.
Lemma fle_fin_le a b : is_finite a = true -> is_finite b = true -> fle a b = true -> B2R a <= B2R b.
Proof. intros Ha Hb. rewrite fle_fin by easy. now case Rle_bool_spec. Qed.

Section MM.
Variables (x y : itv F) (a b : float F) (Nx : exists r, mem r x) (Ny : exists r, mem r y).
Let SMin := image2 everywhere2 Rmin x y.
Let SMax := image2 everywhere2 Rmax x y.

(** A lower end below the other operand's decides the minimum. *)
Lemma glow_min_l : low_end a x -> low_end b y -> fle a b = true -> glow SMin a.
Proof.
intros Ha Hb Hle. destruct Nx as [r0 Hr0], Ny as [s0 Hs0].
destruct Ha as [(Fa & Ma & La)|(-> & Ua)].
- destruct Hb as [(Fb & Mb & Lb)|(-> & Ub)]; [|now rewrite fle_minf_r in Hle].
  apply fle_fin_le in Hle; try easy.
  apply glow_att with (B2R a); [|intros t (r & s & Hr & Hs & _ & ->)|now apply is_RD_self].
  + exists (B2R a), (B2R b). split; [easy|split; [easy|split; [easy|now rewrite Rmin_left]]].
  + specialize (La r Hr). specialize (Lb s Hs). apply Rmin_glb; lra.
- apply glow_unb. intros B. destruct (Ua B) as (r & Hr & Hr'). exists (Rmin r s0). split; [now exists r, s0|].
  generalize (Rmin_l r s0); lra.
Qed.
Lemma gupp_min_l : upp_end a x -> upp_end b y -> fle a b = true -> gupp SMin a.
Proof.
intros Ha Hb Hle. destruct Nx as [r0 Hr0], Ny as [s0 Hs0].
destruct Ha as [(Fa & Ma & La)|(-> & Ua)].
- apply gupp_att with (B2R a); [|intros t (r & s & Hr & Hs & _ & ->)|now apply is_RU_self].
  + destruct Hb as [(Fb & Mb & Lb)|(-> & Ub)].
    * apply fle_fin_le in Hle; try easy.
      exists (B2R a), (B2R b). split; [easy|split; [easy|split; [easy|now rewrite Rmin_left]]].
    * destruct (Ub (B2R a)) as (s & Hs & Hs').
      exists (B2R a), s. split; [easy|split; [easy|split; [easy|rewrite Rmin_left; lra]]].
  + specialize (La r Hr). generalize (Rmin_l r s). lra.
- destruct Hb as [(Fb & Mb & Lb)|(-> & Ub)]; [now rewrite fle_pinf_l in Hle|].
  apply gupp_unb. intros B. destruct (Ua B) as (r & Hr & Hr'). destruct (Ub B) as (s & Hs & Hs').
  exists (Rmin r s). split; [now exists r, s|]. now apply Rmin_glb_lt.
Qed.
Lemma gupp_max_l : upp_end a x -> upp_end b y -> fle b a = true -> gupp SMax a.
Proof.
intros Ha Hb Hle. destruct Nx as [r0 Hr0], Ny as [s0 Hs0].
destruct Ha as [(Fa & Ma & La)|(-> & Ua)].
- destruct Hb as [(Fb & Mb & Lb)|(-> & Ub)]; [|now rewrite fle_pinf_l in Hle].
  apply fle_fin_le in Hle; try easy.
  apply gupp_att with (B2R a); [|intros t (r & s & Hr & Hs & _ & ->)|now apply is_RU_self].
  + exists (B2R a), (B2R b). split; [easy|split; [easy|split; [easy|now rewrite Rmax_left]]].
  + specialize (La r Hr). specialize (Lb s Hs). apply Rmax_lub; lra.
- apply gupp_unb. intros B. destruct (Ua B) as (r & Hr & Hr'). exists (Rmax r s0). split; [now exists r, s0|].
  generalize (Rmax_l r s0); lra.
Qed.
Lemma glow_max_l : low_end a x -> low_end b y -> fle b a = true -> glow SMax a.
Proof.
intros Ha Hb Hle. destruct Nx as [r0 Hr0], Ny as [s0 Hs0].
destruct Ha as [(Fa & Ma & La)|(-> & Ua)].
- apply glow_att with (B2R a); [|intros t (r & s & Hr & Hs & _ & ->)|now apply is_RD_self].
  + destruct Hb as [(Fb & Mb & Lb)|(-> & Ub)].
    * apply fle_fin_le in Hle; try easy.
      exists (B2R a), (B2R b). split; [easy|split; [easy|split; [easy|now rewrite Rmax_left]]].
    * destruct (Ub (B2R a)) as (s & Hs & Hs').
      exists (B2R a), s. split; [easy|split; [easy|split; [easy|rewrite Rmax_left; lra]]].
  + specialize (La r Hr). generalize (Rmax_l r s). lra.
- destruct Hb as [(Fb & Mb & Lb)|(-> & Ub)]; [now rewrite fle_minf_r in Hle|].
  apply glow_unb. intros B. destruct (Ua B) as (r & Hr & Hr'). destruct (Ub B) as (s & Hs & Hs').
  exists (Rmax r s). split; [now exists r, s|]. now apply Rmax_lub_lt.
Qed.
End MM.

Lemma image2_comm (f : R -> R -> R) x y : (forall r s, f r s = f s r) ->
  forall t, image2 everywhere2 f x y t <-> image2 everywhere2 f y x t.
Proof. intros C t. split; intros (r & s & Hr & Hs & _ & ->); exists s, r; now rewrite C. Qed.

Lemma min_tightest x y : wf x -> wf y -> computes_tightest (min x y) (image2 everywhere2 Rmin x y).
Proof.
intros Wx Wy. unfold min. vred.
destruct (isnan (fst x)) eqn:Ex; vred.
{ eapply ct_ret; [reflexivity|]. apply tightest_empty. intros; now apply image2_empty_l. }
destruct (isnan (fst y)) eqn:Ey; vred.
{ eapply ct_ret; [reflexivity|]. apply tightest_empty. intros; now apply image2_empty_r. }
eapply ct_ret; [reflexivity|].
pose proof (wf_nonempty x Wx Ex) as Nx. pose proof (wf_nonempty y Wy Ey) as Ny.
apply wf_view in Wx. apply wf_view in Wy.
pose proof (low_end_fst x Wx Ex) as Lx. pose proof (upp_end_snd x Wx Ex) as Ux.
pose proof (low_end_fst y Wy Ey) as Ly. pose proof (upp_end_snd y Wy Ey) as Uy.
apply tightest_intro.
- destruct Nx as [r Hr], Ny as [s Hs]. now exists (Rmin r s), r, s.
- destruct (fmin_cases (fst x) (fst y)) as [[-> H]|[-> H]]; try easy.
  + now apply glow_min_l with (fst y).
  + apply glow_ext with (image2 everywhere2 Rmin y x); [apply image2_comm, Rmin_comm|].
    now apply glow_min_l with (fst x).
- destruct (fmin_cases (snd x) (snd y)) as [[-> H]|[-> H]]; try (eapply upp_end_nan; eassumption).
  + now apply gupp_min_l with (snd y).
  + apply gupp_ext with (image2 everywhere2 Rmin y x); [apply image2_comm, Rmin_comm|].
    now apply gupp_min_l with (snd x).
Qed.
Lemma max_tightest x y : wf x -> wf y -> computes_tightest (max x y) (image2 everywhere2 Rmax x y).
Proof.
intros Wx Wy. unfold max. vred.
destruct (isnan (fst x)) eqn:Ex; vred.
{ eapply ct_ret; [reflexivity|]. apply tightest_empty. intros; now apply image2_empty_l. }
destruct (isnan (fst y)) eqn:Ey; vred.
{ eapply ct_ret; [reflexivity|]. apply tightest_empty. intros; now apply image2_empty_r. }
eapply ct_ret; [reflexivity|].
pose proof (wf_nonempty x Wx Ex) as Nx. pose proof (wf_nonempty y Wy Ey) as Ny.
apply wf_view in Wx. apply wf_view in Wy.
pose proof (low_end_fst x Wx Ex) as Lx. pose proof (upp_end_snd x Wx Ex) as Ux.
pose proof (low_end_fst y Wy Ey) as Ly. pose proof (upp_end_snd y Wy Ey) as Uy.
apply tightest_intro.
- destruct Nx as [r Hr], Ny as [s Hs]. now exists (Rmax r s), r, s.
- destruct (fmax_cases (fst x) (fst y)) as [[-> H]|[-> H]]; try easy.
  + now apply glow_max_l with (fst y).
  + apply glow_ext with (image2 everywhere2 Rmax y x); [apply image2_comm, Rmax_comm|].
    now apply glow_max_l with (fst x).
- destruct (fmax_cases (snd x) (snd y)) as [[-> H]|[-> H]]; try (eapply upp_end_nan; eassumption).
  + now apply gupp_max_l with (snd y).
  + apply gupp_ext with (image2 everywhere2 Rmax y x); [apply image2_comm, Rmax_comm|].
    now apply gupp_max_l with (snd x).
Qed.

End M.
