(** * Proofs: numeric functions *)

From Coq Require Import ZArith NArith Reals Bool Lia Lra Psatz.
From Flocq Require Import Core.Core Calc.Operations IEEE754.BinarySingleNaN.
From Verif Require Import Fmt Spec FloatFacts Exc Deco SpecApi MBase PBase MBool MArith PArith PConv
  MTrig MMixed MNum SpecNum PDec PMixed.

Local Open Scope R_scope.

(** ** Conversion keeps best bounds *)
Section Conv.
Context {W G : fmt} (HW : within G W).

Lemma fconv_up_gupp (S : R -> Prop) (v : float W) : gupp S v -> isnan v = false -> gupp S (fconv G mode_UP v).
Proof.
destruct (fviewP v) as [ | | |v Fv]; intros [H1 H2] N; try discriminate N.
- rewrite fconv_minf. split; [exact H1|]. now intros u' H t Ht.
- rewrite fconv_pinf. split; [now intros|]. intros u' H t _.
  apply (ub_exact W mode_UP u' t HW), H2; [|easy]. intros r Hr. now apply ub_exact, H.
- destruct (rnds_UP _ _ (fconv_rnds G mode_UP v Fv)) as [R1 R2].
  assert (B : forall u' : float G, (forall r, S r -> ub u' r) -> ub u' (B2R v)).
  { intros u' H. apply (ub_exact W mode_UP u' _ HW). apply H2.
    - intros r Hr. now apply ub_exact, H.
    - rewrite ub_fin by easy. lra. }
  split.
  + intros r Hr. apply ub_mono with (B2R v); [easy|]. specialize (H1 r Hr). now rewrite ub_fin in H1.
  + intros u' H t Ht. apply R2; [now apply B|easy].
Qed.
Lemma fconv_dn_glow (S : R -> Prop) (v : float W) : glow S v -> isnan v = false -> glow S (fconv G mode_DN v).
Proof.
destruct (fviewP v) as [ | | |v Fv]; intros [H1 H2] N; try discriminate N.
- rewrite fconv_minf. split; [now intros|]. intros u' H t _.
  apply (lb_exact W mode_DN u' t HW), H2; [|easy]. intros r Hr. now apply lb_exact, H.
- rewrite fconv_pinf. split; [exact H1|]. now intros u' H t Ht.
- destruct (rnds_DN _ _ (fconv_rnds G mode_DN v Fv)) as [R1 R2].
  assert (B : forall u' : float G, (forall r, S r -> lb u' r) -> lb u' (B2R v)).
  { intros u' H. apply (lb_exact W mode_DN u' _ HW). apply H2.
    - intros r Hr. now apply lb_exact, H.
    - rewrite lb_fin by easy. lra. }
  split.
  + intros r Hr. apply lb_mono with (B2R v); [easy|]. specialize (H1 r Hr). now rewrite lb_fin in H1.
  + intros u' H t Ht. apply R2; [now apply B|easy].
Qed.
End Conv.

Lemma fconv_nan_iff {F} G m (v : float F) : isnan (fconv G m v) = isnan v.
Proof. destruct v; try easy. simpl. apply is_nan_binary_normalize. Qed.

(** ** Zero adjustment does not change the bound *)
Section Zero.
Context {F : fmt}.
Implicit Types a b l u v z : float F.
Definition isz z := z = f0 \/ z = fm0.
Definition zadj z v : float F := if feq v f0 then z else v.
Lemma zadj_cases z v : (is_finite v = true /\ B2R v = 0 /\ zadj z v = z) \/ zadj z v = v.
Proof.
unfold zadj. destruct (fviewP v) as [ | | |v Fv]; try now right.
rewrite feq_fin by easy. case Req_bool_spec; [left|now right]. easy.
Qed.
Lemma zadj_lb z v r : isz z -> lb (zadj z v) r <-> lb v r.
Proof.
intros Hz. destruct (zadj_cases z v) as [(H1 & H2 & ->)| ->]; [|easy].
rewrite (lb_fin v), H2 by easy. destruct Hz; subst z; now rewrite lb_fin.
Qed.
Lemma zadj_ub z v r : isz z -> ub (zadj z v) r <-> ub v r.
Proof.
intros Hz. destruct (zadj_cases z v) as [(H1 & H2 & ->)| ->]; [|easy].
rewrite (ub_fin v), H2 by easy. destruct Hz; subst z; now rewrite ub_fin.
Qed.
Lemma zadj_nan z v : isz z -> isnan (zadj z v) = isnan v.
Proof.
intros Hz. destruct (zadj_cases z v) as [(H1 & H2 & ->)| ->]; [|easy].
rewrite (isnan_fin v) by easy. now destruct Hz; subst z.
Qed.
Lemma zadj_zero z v : zero_is z (zadj z v).
Proof.
intros H1 H2. unfold zadj in *. destruct (fviewP v) as [ | | |v Fv]; try easy.
rewrite feq_fin in * by easy. revert H2. case Req_bool_spec; [easy|]. intros H3 H4. now contradiction H3.
Qed.
Lemma zadj_glow z v S : isz z -> glow S v -> glow S (zadj z v).
Proof.
intros Hz [H1 H2]. split.
- intros r Hr. now apply zadj_lb, H1.
- intros l' H t Ht. apply H2; [easy|]. now apply zadj_lb in Ht.
Qed.
Lemma zadj_gupp z v S : isz z -> gupp S v -> gupp S (zadj z v).
Proof.
intros Hz [H1 H2]. split.
- intros r Hr. now apply zadj_ub, H1.
- intros l' H t Ht. apply H2; [easy|]. now apply zadj_ub in Ht.
Qed.
Lemma isz0 : isz f0. Proof. now left. Qed.
Lemma iszm0 : isz fm0. Proof. now right. Qed.

Lemma gb_intro S v : glow S v -> isnan v = false -> greatest_below S v.
Proof. intros [H1 H2] N. now split. Qed.
Lemma la_intro S v : gupp S v -> isnan v = false -> least_above S v.
Proof. intros [H1 H2] N. now split. Qed.
Lemma gb_elim S v : greatest_below S v -> glow S v /\ isnan v = false.
Proof. intros (N & H1 & H2). now split. Qed.
Lemma la_elim S v : least_above S v -> gupp S v /\ isnan v = false.
Proof. intros (N & H1 & H2). now split. Qed.
Lemma gb_zadj z S v : isz z -> greatest_below S v -> greatest_below S (zadj z v).
Proof.
intros Hz H. apply gb_elim in H as [H N]. apply gb_intro; [now apply zadj_glow|]. now rewrite zadj_nan.
Qed.
Lemma la_zadj z S v : isz z -> least_above S v -> least_above S (zadj z v).
Proof.
intros Hz H. apply la_elim in H as [H N]. apply la_intro; [now apply zadj_gupp|]. now rewrite zadj_nan.
Qed.

Lemma glow_points_empty (S : R -> Prop) : (forall r, ~ S r) -> greatest_below S (@finf F).
Proof. intros H. split; [easy|]. split; [intros r Hr; now apply H in Hr|]. now intros w _ t. Qed.
Lemma gupp_points_empty (S : R -> Prop) : (forall r, ~ S r) -> least_above S (@fminf F).
Proof. intros H. split; [easy|]. split; [intros r Hr; now apply H in Hr|]. now intros w _ t. Qed.

Lemma gupp_dom (S S' : R -> Prop) u : (forall r, S r -> S' r) -> (forall r, S' r -> exists s, S s /\ r <= s) ->
  gupp S' u -> gupp S u.
Proof.
intros H1 H2 [G1 G2]. split; [auto|]. intros u' H t. apply G2. intros r Hr.
destruct (H2 r Hr) as (s & Hs & L). apply ub_mono with s; auto.
Qed.
Lemma glow_dom (S S' : R -> Prop) u : (forall r, S r -> S' r) -> (forall r, S' r -> exists s, S s /\ s <= r) ->
  glow S' u -> glow S u.
Proof.
intros H1 H2 [G1 G2]. split; [auto|]. intros u' H t. apply G2. intros r Hr.
destruct (H2 r Hr) as (s & Hs & L). apply lb_mono with s; auto.
Qed.

Lemma fgt_ub a b t : fgt a b = true -> ub b t -> ub a t.
Proof.
change (fgt a b) with (flt b a). destruct (fviewP a) as [ | | |a Fa].
- now rewrite flt_nan_r.
- now rewrite flt_minf_r.
- easy.
- destruct (fviewP b) as [ | | |b Fb]; try easy; [now rewrite flt_pinf_l|].
  rewrite flt_fin, !ub_fin by easy. case Rlt_bool_spec; [|easy]. intros; lra.
Qed.
Lemma ngt_ub a b t : fgt a b = false -> isnan a = false -> isnan b = false -> ub a t -> ub b t.
Proof.
change (fgt a b) with (flt b a). destruct (fviewP b) as [ | | |b Fb]; try easy.
- destruct (fviewP a) as [ | | |a Fa]; try easy. now rewrite flt_minf_l.
- destruct (fviewP a) as [ | | |a Fa]; try easy.
  + now rewrite flt_pinf_r.
  + rewrite flt_fin, !ub_fin by easy. case Rlt_bool_spec; [easy|]. intros; lra.
Qed.
Definition vmax a b : float F := if fgt a b then a else b.
Lemma gupp_max (S1 S2 : R -> Prop) a b : gupp S1 a -> gupp S2 b -> isnan a = false -> isnan b = false ->
  gupp (fun r => S1 r \/ S2 r) (vmax a b).
Proof.
intros [A1 A2] [B1 B2] Na Nb. unfold vmax. destruct (fgt a b) eqn:E.
- split.
  + intros r [H|H]; [now apply A1|]. apply fgt_ub with (1 := E). now apply B1.
  + intros u' H t Ht. apply A2; [|easy]. intros r Hr. apply H. now left.
- split.
  + intros r [H|H]; [|now apply B1]. apply ngt_ub with (1 := E); auto.
  + intros u' H t Ht. apply B2; [|easy]. intros r Hr. apply H. now right.
Qed.
Lemma vmax_nan a b : isnan a = false -> isnan b = false -> isnan (vmax a b) = false.
Proof. unfold vmax. now destruct fgt. Qed.
End Zero.

(** ** Half sum *)
Lemma exact_F2R {F} (a : float F) : is_finite a = true -> F2R (exact a) = B2R a.
Proof. destruct a as [s| | |s m e H]; try easy. simpl. unfold F2R; simpl. intros; ring. Qed.

Lemma half_sum_nearest {F} G (a b : float F) : is_finite a = true -> is_finite b = true ->
  nearest_or_inf ((B2R a + B2R b) / 2) (half_sum G a b).
Proof.
intros Fa Fb. unfold half_sum.
set (s := Fplus (exact a) (exact b)).
assert (E : F2R (Defs.Float radix2 (Defs.Fnum s) (Defs.Fexp s - 1)) = (B2R a + B2R b) / 2).
{ rewrite <- (exact_F2R a), <- (exact_F2R b), <- F2R_plus by easy. fold s.
  unfold F2R; simpl Defs.Fnum; simpl Defs.Fexp. unfold Zminus. rewrite bpow_plus.
  change (bpow radix2 (- (1))) with (/ 2). field. }
pose proof (binary_normalize_correct (prec G) (emax G) _ _ mode_NE (Defs.Fnum s) (Defs.Fexp s - 1) false) as H.
cbv zeta in H. rewrite E in H. fold (fexp G) in H. change (round_mode mode_NE) with ZnearestE in H.
revert H. case Rlt_bool_spec; intros Hb H.
- left. split; apply H.
- right. split; [easy|]. split; intros Hs.
  + rewrite Rlt_bool_false in H by lra. now apply B2SF_pinf.
  + rewrite Rlt_bool_true in H by lra. now apply B2SF_minf.
Qed.

Lemma half_sum_within {F} G (a b : float F) : within F G -> is_finite a = true -> is_finite b = true ->
  B2R a <= B2R b ->
  nearest ((B2R a + B2R b) / 2) (half_sum G a b) /\ B2R a <= B2R (half_sum G a b) <= B2R b.
Proof.
intros HW Fa Fb L.
assert (V : Valid_exp (fexp G)) by apply (FLT_exp_valid (SpecFloat.emin (prec G) (emax G)) (prec G)).
set (c := (B2R a + B2R b) / 2).
assert (B : B2R a <= round radix2 (fexp G) ZnearestE c <= B2R b).
{ split.
  - apply round_ge_generic; auto with typeclass_instances; [|unfold c; lra].
    apply (within_format G _ HW), B2R_format.
  - apply round_le_generic; auto with typeclass_instances; [|unfold c; lra].
    apply (within_format G _ HW), B2R_format. }
assert (N : nearest c (half_sum G a b)).
{ destruct (half_sum_nearest G a b Fa Fb) as [H|[H _]]; [easy|]. exfalso. fold c in H.
  assert (bpow radix2 (emax F) <= bpow radix2 (emax G)) by (apply bpow_le, HW).
  pose proof (B2R_bound a) as Ha. pose proof (B2R_bound b) as Hb.
  apply Rabs_lt_inv in Ha. apply Rabs_lt_inv in Hb.
  apply (Rlt_not_le _ _ (Rabs_lt (round radix2 (fexp G) ZnearestE c) (bpow radix2 (emax G)) ltac:(lra)) H). }
split; [easy|]. destruct N as [_ ->]. exact B.
Qed.

(** ** Same-type functions *)
Section Same.
Context {F : fmt}.
Implicit Types x : itv F.
Implicit Types a b c l u v : float F.

Lemma low_end_glow a x : low_end a x -> glow (points x) a.
Proof.
intros H. unfold points. destruct H as [(Fa & H1 & H2)|[-> H]].
- apply glow_glb with (B2R a); [now apply glbR_min|now apply is_RD_self].
- now apply glow_unb.
Qed.
Lemma upp_end_gupp a x : upp_end a x -> gupp (points x) a.
Proof.
intros H. unfold points. destruct H as [(Fa & H1 & H2)|[-> H]].
- apply gupp_lub with (B2R a); [now apply lubR_max|now apply is_RU_self].
- now apply gupp_unb.
Qed.

Lemma n_inf_spec x : wf x -> gives (n_inf x) (fun v => greatest_below (points x) v /\ zero_is fm0 v).
Proof.
intros W. unfold n_inf. rewrite is_valid_wf, is_empty_wf by easy. mreds.
destruct (isnan (fst x)) eqn:E.
- exists finf. split; [easy|]. split; [|easy]. apply glow_points_empty.
  intros r. rewrite (wf_nan_l x W E). apply mem_empty.
- exists (zadj fm0 (fst x)). split; [easy|]. split; [|apply zadj_zero].
  apply gb_zadj; [apply iszm0|]. apply gb_intro; [|easy].
  apply low_end_glow, low_end_fst; [now apply wf_view|easy].
Qed.
Lemma wf_snd_nan x : wf x -> isnan (fst x) = false -> isnan (snd x) = false.
Proof.
intros W. destruct (wf_view x W) as [ | |u Hu|l Hl|l u Hl Hu H]; try easy; intros _; now apply isnan_fin.
Qed.
Lemma n_sup_spec x : wf x -> gives (n_sup x) (fun v => least_above (points x) v /\ zero_is f0 v).
Proof.
intros W. unfold n_sup. rewrite is_valid_wf, is_empty_wf by easy. mreds.
destruct (isnan (fst x)) eqn:E.
- exists fminf. split; [easy|]. split; [|easy]. apply gupp_points_empty.
  intros r. rewrite (wf_nan_l x W E). apply mem_empty.
- exists (zadj f0 (snd x)). split; [easy|]. split; [|apply zadj_zero].
  apply la_zadj; [apply isz0|]. apply la_intro; [|now apply wf_snd_nan].
  apply upp_end_gupp, upp_end_snd; [now apply wf_view|easy].
Qed.

Lemma rsub_nan m a b : isnan a = false -> isnan b = false -> is_finite a = true \/ is_finite b = true \/ a <> b ->
  isnan (rsub m a b) = false.
Proof.
intros Na Nb H. destruct (fviewP a) as [ | | |a Fa], (fviewP b) as [ | | |b Fb]; try easy.
- now destruct H as [H|[H|H]].
- now destruct b.
- now destruct H as [H|[H|H]].
- now destruct b.
- now destruct a.
- now destruct a.
- assert (R := rsub_rnds m a b Fa Fb). unfold rnds in R. revert R. case Rlt_bool_spec; intros L R.
  + now apply isnan_fin.
  + destruct (rsub m a b); try easy. unfold binary_overflow in R. simpl in R.
    now destruct overflow_to_inf.
Qed.

Lemma n_wid_spec x : wf x -> isnan (fst x) = false ->
  gives (n_wid x) (fun v => least_above (differences x) v /\ zero_is f0 v).
Proof.
intros W E. unfold n_wid. rewrite is_valid_wf, is_empty_wf by easy. mreds. rewrite E.
exists (zadj f0 (rsub mode_UP (snd x) (fst x))). split; [easy|]. split; [|apply zadj_zero].
apply la_zadj; [apply isz0|]. pose proof (wf_view x W) as V. apply la_intro.
- assert (Hn : exists r, mem r x) by now apply wf_nonempty.
  eapply gupp_ext; [|apply (gupp_sub (snd x) (fst x) x x); auto using upp_end_snd, low_end_fst].
  intros t. split; [intros (r & s & H1 & H2 & _ & ->); now exists r, s|].
  intros (r & s & H1 & H2 & ->). now exists r, s.
- pose proof (wf_snd_nan x W E) as E2. apply rsub_nan; [easy|easy|].
  destruct V as [ | |u Hu|l Hl|l u Hl Hu H]; simpl; auto; right; right; easy.
Qed.

Lemma fabs_fin a : is_finite a = true -> is_finite (fabs a) = true /\ B2R (fabs a) = Rabs (B2R a).
Proof. intros H. unfold fabs. rewrite is_finite_Babs, B2R_Babs. easy. Qed.
Lemma fabs_nan a : isnan (fabs a) = isnan a.
Proof. now destruct a. Qed.
Lemma fabs_zero a : zero_is f0 (fabs a).
Proof.
intros H1 H2. destruct a as [s| | |s m e H]; try easy.
exfalso. simpl in H2. revert H2. apply Rgt_not_eq. unfold F2R; simpl.
apply Rmult_lt_0_compat; [now apply IZR_lt|apply bpow_gt_0].
Qed.

Lemma fmag_gupp x : wview x -> isnan (fst x) = false ->
  gupp (magnitudes x) (vmax (fabs (fst x)) (fabs (snd x))).
Proof.
intros W E.
assert (W' := wview_wf x W). assert (E2 := wf_snd_nan x W' E).
apply gupp_dom with (fun t => (exists r, mem r x /\ t = - r) \/ (exists r, mem r x /\ t = r) \/ (exists r, mem r x /\ t = Rabs r)).
- intros r Hr. now right; right.
- intros t [(r & Hr & ->)|[(r & Hr & ->)|(r & Hr & ->)]]; exists (Rabs r); (split; [now exists r|]).
  + rewrite <- Rabs_Ropp. apply Rle_abs.
  + apply Rle_abs.
  + lra.
- destruct W as [ | |u Hu|l Hl|l u Hl Hu Hlu]; try easy; simpl fst; simpl snd.
  + change (vmax (fabs fminf) (fabs finf)) with (@finf F). apply gupp_unb. intros B.
    exists (Rabs B + 1). split; [right; right; exists (Rabs B + 1); split; [easy|]|].
    * symmetry. apply Rabs_pos_eq. pose proof (Rabs_pos B). lra.
    * pose proof (Rle_abs B). lra.
  + change (fabs (@fminf F)) with (@finf F).
    assert (Z : vmax finf (fabs u) = finf).
    { unfold vmax, fgt. change (Bltb (fabs u) finf) with (flt (fabs u) finf). rewrite flt_pinf_r; [easy|now apply fabs_fin]. }
    rewrite Z. apply gupp_unb. intros B. exists (Rabs B + Rabs (B2R u) + 1).
    pose proof (Rabs_pos B). pose proof (Rle_abs B). pose proof (Rabs_pos (B2R u)).
    pose proof (Rle_abs (- B2R u)). rewrite Rabs_Ropp in *.
    split; [left; exists (- (Rabs B + Rabs (B2R u) + 1))|lra]. split; [split; simpl; [easy|rewrite ub_fin by easy; lra]|ring].
  + change (fabs (@finf F)) with (@finf F).
    assert (Z : vmax (fabs l) finf = finf).
    { unfold vmax, fgt. change (Bltb finf (fabs l)) with (flt finf (fabs l)). now rewrite flt_pinf_l. }
    rewrite Z. apply gupp_unb. intros B. exists (Rabs B + Rabs (B2R l) + 1).
    pose proof (Rabs_pos B). pose proof (Rle_abs B). pose proof (Rabs_pos (B2R l)).
    pose proof (Rle_abs (B2R l)).
    split; [right; left; exists (Rabs B + Rabs (B2R l) + 1)|lra].
    split; [split; simpl; [rewrite lb_fin by easy; lra|easy]|ring].
  + destruct (fabs_fin l Hl) as [A1 A2], (fabs_fin u Hu) as [B1 B2].
    assert (Z : is_finite (vmax (fabs l) (fabs u)) = true /\ B2R (vmax (fabs l) (fabs u)) = Rmax (Rabs (B2R l)) (Rabs (B2R u))).
    { unfold vmax. rewrite fgt_fin by easy. rewrite A2, B2. case Rlt_bool_spec; intros L.
      - rewrite Rmax_left by lra. easy.
      - rewrite Rmax_right by lra. easy. }
    destruct Z as [Z1 Z2]. apply gupp_lub with (B2R (vmax (fabs l) (fabs u))); [|now apply is_RU_self].
    rewrite Z2. apply lubR_max.
    * right; right. destruct (Rle_lt_dec (Rabs (B2R l)) (Rabs (B2R u))).
      -- exists (B2R u). rewrite Rmax_right by lra. split; [|easy]. split; simpl; [rewrite lb_fin by easy; lra|rewrite ub_fin by easy; lra].
      -- exists (B2R l). rewrite Rmax_left by lra. split; [|easy]. split; simpl; [rewrite lb_fin by easy; lra|rewrite ub_fin by easy; lra].
    * assert (M : forall r, mem r (l, u) -> Rabs r <= Rmax (Rabs (B2R l)) (Rabs (B2R u))).
      { intros r Hr. pose proof (mem_fin_l _ _ _ Hr Hl). pose proof (mem_fin_u _ _ _ Hr Hu). now apply RmaxAbs. }
      intros t [(r & Hr & ->)|[(r & Hr & ->)|(r & Hr & ->)]].
      -- eapply Rle_trans; [apply Rle_abs|]. rewrite Rabs_Ropp. now apply M.
      -- eapply Rle_trans; [apply Rle_abs|]. now apply M.
      -- now apply M.
Qed.

Lemma n_mag_spec x : wf x -> isnan (fst x) = false ->
  gives (n_mag x) (fun v => least_above (magnitudes x) v /\ zero_is f0 v).
Proof.
intros W E. unfold n_mag. rewrite is_valid_wf, is_empty_wf by easy. mreds. rewrite E.
exists (vmax (fabs (fst x)) (fabs (snd x))). split; [easy|]. pose proof (wf_view x W) as V. split.
- apply la_intro; [now apply fmag_gupp|]. apply vmax_nan; rewrite fabs_nan; [easy|now apply wf_snd_nan].
- unfold vmax. destruct fgt; apply fabs_zero.
Qed.

Lemma n_mig_spec x : wf x -> isnan (fst x) = false ->
  gives (n_mig x) (fun v => greatest_below (magnitudes x) v /\ zero_is f0 v).
Proof.
intros W E. unfold n_mig. rewrite is_valid_wf, is_empty_wf by easy. mreds. rewrite E.
eexists. split; [intros s; reflexivity|].
assert (P : forall v : float F, is_finite v = true -> zero_is f0 v ->
  magnitudes x (B2R v) -> (forall r, mem r x -> B2R v <= Rabs r) -> greatest_below (magnitudes x) v /\ zero_is f0 v).
{ intros v Fv Zv H1 H2. split; [|easy]. apply gb_intro; [|now apply isnan_fin].
  apply glow_glb with (B2R v); [|now apply is_RD_self]. apply glbR_min; [easy|]. intros t (r & Hr & ->). now apply H2. }
destruct (wf_view x W) as [ | |u Hu|l Hl|l u Hl Hu Hlu]; try easy; simpl fst; simpl snd.
- apply P; [easy|easy| |].
  + exists 0. split; [easy|]. now rewrite Rabs_R0.
  + intros r _. apply Rabs_pos.
- change (flt fminf f0) with true. rewrite fgt_fin by easy. rewrite B2R_f0. simpl andb.
  case Rlt_bool_spec; intros L.
  + apply P; [easy|easy| |].
    * exists 0. split; [split; simpl; [easy|rewrite ub_fin by easy; lra]|]. now rewrite Rabs_R0.
    * intros r _. apply Rabs_pos.
  + change (flt (fabs fminf) (fabs u)) with (flt finf (fabs u)). rewrite flt_pinf_l.
    destruct (fabs_fin u Hu) as [A1 A2]. apply P; [easy|apply fabs_zero| |]; rewrite A2.
    * exists (B2R u). split; [|easy]. split; simpl; [easy|rewrite ub_fin by easy; lra].
    * intros r [_ Hr]. simpl in Hr. rewrite ub_fin in Hr by easy. rewrite !Rabs_left1 by lra. lra.
- change (fgt finf f0) with true. rewrite flt_fin by easy. rewrite B2R_f0. rewrite andb_true_r.
  case Rlt_bool_spec; intros L.
  + apply P; [easy|easy| |].
    * exists 0. split; [split; simpl; [rewrite lb_fin by easy; lra|easy]|]. now rewrite Rabs_R0.
    * intros r _. apply Rabs_pos.
  + destruct (fabs_fin l Hl) as [A1 A2].
    change (fabs finf) with (@finf F). rewrite flt_pinf_r by easy. apply P; [easy|apply fabs_zero| |]; rewrite A2.
    * exists (B2R l). split; [|easy]. split; simpl; [rewrite lb_fin by easy; lra|easy].
    * intros r [Hr _]. simpl in Hr. rewrite lb_fin in Hr by easy. rewrite !Rabs_pos_eq by lra. lra.
- rewrite flt_fin, fgt_fin by easy. rewrite B2R_f0.
  destruct (fabs_fin l Hl) as [A1 A2], (fabs_fin u Hu) as [B1 B2].
  case Rlt_bool_spec; intros L1; [case Rlt_bool_spec; intros L2|]; simpl andb; cbv iota.
  + apply P; [easy|easy| |].
    * exists 0. split; [split; simpl; [rewrite lb_fin by easy; lra|rewrite ub_fin by easy; lra]|]. now rewrite Rabs_R0.
    * intros r _. apply Rabs_pos.
  + rewrite flt_fin, A2, B2 by easy. rewrite Rlt_bool_false by (rewrite !Rabs_left1 by lra; lra).
    apply P; [easy|apply fabs_zero| |]; rewrite B2.
    * exists (B2R u). split; [|easy]. split; simpl; [rewrite lb_fin by easy; lra|rewrite ub_fin by easy; lra].
    * intros r [_ Hr]. simpl in Hr. rewrite ub_fin in Hr by easy. rewrite !Rabs_left1 by lra. lra.
  + rewrite flt_fin, A2, B2 by easy. case Rlt_bool_spec; intros L3.
    * apply P; [easy|apply fabs_zero| |]; rewrite A2.
      -- exists (B2R l). split; [|easy]. split; simpl; [rewrite lb_fin by easy; lra|rewrite ub_fin by easy; lra].
      -- intros r [Hr _]. simpl in Hr. rewrite lb_fin in Hr by easy. rewrite !Rabs_pos_eq by lra. lra.
    * apply P; [easy|apply fabs_zero| |]; rewrite B2.
      -- exists (B2R u). split; [|easy]. split; simpl; [rewrite lb_fin by easy; lra|rewrite ub_fin by easy; lra].
      -- intros r [Hr _]. simpl in Hr. rewrite lb_fin in Hr by easy.
         rewrite !Rabs_pos_eq in * by lra. lra.
Qed.
End Same.

(** ** Midpoint *)
Section Mid.
Context {F : fmt} (G : fmt).
Implicit Types x : itv F.

(** [n_mid] and [n_mid_mixed F] are the same function. *)
Lemma n_mid_same x : n_mid x = n_mid_mixed F x. Proof. reflexivity. Qed.

Lemma n_mid_mixed_ret x : wf x -> isnan (fst x) = false -> exists m, n_mid_mixed G x = ret m /\ zero_is f0 m /\
  isnan m = false /\
  (bounded_rep x -> nearest_or_inf ((B2R (fst x) + B2R (snd x)) / 2) m) /\ (~ bounded_rep x -> is_finite m = true) /\
  (within F G -> is_finite m = true /\ mem (B2R m) x) /\
  (fst x = fminf -> snd x = finf -> m = f0) /\
  (fst x = fminf -> snd x <> finf -> m = fneg fmaxv) /\
  (fst x <> fminf -> snd x = finf -> m = fmaxv).
Proof.
intros W E. unfold n_mid_mixed. rewrite is_valid_wf, is_empty_wf, is_entire_wf by easy. mreds. rewrite E.
assert (MZ : zero_is f0 (@fmaxv G)).
{ intros _ H. pose proof (@fmaxv_ge1 G). lra. }
assert (MZ' : zero_is f0 (fneg (@fmaxv G))).
{ intros _ H. unfold fneg in H. rewrite B2R_Bopp in H. pose proof (@fmaxv_ge1 G). lra. }
assert (FM : is_finite (fneg (@fmaxv G)) = true) by (unfold fneg; now rewrite is_finite_Bopp).
assert (BW : within F G -> B2R (@fmaxv F) <= B2R (@fmaxv G)).
{ intros HW. pose proof (fconv_exact G mode_NE (@fmaxv F) HW (is_finite_fmaxv)) as [H1 H2].
  rewrite <- H2. eapply Rle_trans; [apply Rle_abs|]. apply abs_le_fmaxv. }
destruct (wf_view x W) as [ | |u Hu|l Hl|l u Hl Hu Hlu]; try easy; simpl fst; simpl snd.
- change (feq fminf fminf && feq finf finf) with true.
  exists f0. mreds. split; [easy|]. split; [easy|]. split; [easy|]. split; [now intros []|]. split; [easy|].
  split; [|easy]. intros _. split; [easy|]. now split.
- rewrite feq_pinf_r by easy. change (feq fminf fminf) with true. simpl andb.
  exists (fneg fmaxv). mreds. split; [easy|]. split; [easy|]. split; [now apply isnan_fin|]. split; [now intros []|].
  split; [easy|]. split.
  { intros HW. split; [easy|]. split; [easy|]. change (ub u (B2R (fneg (@fmaxv G)))). rewrite ub_fin by easy.
    unfold fneg. rewrite B2R_Bopp. pose proof (abs_le_fmaxv u). specialize (BW HW).
    pose proof (Rle_abs (- B2R u)). rewrite Rabs_Ropp in *. lra. }
  split; [|easy]. intros _ E3. rewrite E3 in Hu. easy.
- rewrite feq_minf_r by easy. change (feq finf finf) with true. simpl andb.
  exists fmaxv. mreds. split; [easy|]. split; [easy|]. split; [easy|]. split; [now intros []|].
  split; [easy|]. split.
  { intros HW. split; [easy|]. split; [|easy]. change (lb l (B2R (@fmaxv G))). rewrite lb_fin by easy.
    pose proof (abs_le_fmaxv l). specialize (BW HW). pose proof (Rle_abs (B2R l)). lra. }
  split; [|split; [|easy]]; intros E3 _; rewrite E3 in Hl; easy.
- rewrite feq_minf_r, feq_pinf_r by easy. simpl andb.
  exists (zadj f0 (half_sum G l u)). mreds. split; [easy|]. split; [apply zadj_zero|].
  assert (Q : nearest_or_inf ((B2R l + B2R u) / 2) (zadj f0 (half_sum G l u))).
  { destruct (half_sum_nearest G l u Hl Hu) as [[H1 H2]|[H1 [H2 H3]]].
    - left. destruct (zadj_cases f0 (half_sum G l u)) as [(Q1 & Q2 & ->)| ->]; [|easy].
      split; [easy|]. now rewrite B2R_f0, <- H2, Q2.
    - right. split; [easy|]. split; intros Hs; [rewrite H2 by easy|rewrite H3 by easy]; reflexivity. }
  split.
  { destruct Q as [[Q _]|[Q1 [Q2 Q3]]]; [now apply isnan_fin|].
    destruct (Rtotal_order ((B2R l + B2R u) / 2) 0) as [H|[H|H]].
    - now rewrite Q3.
    - exfalso. rewrite H in Q1. rewrite round_0, Rabs_R0 in Q1 by auto with typeclass_instances.
      pose proof (bpow_gt_0 radix2 (emax G)). lra.
    - now rewrite Q2. }
  split; [now intros _|]. split; [intros H; contradiction H; now split|]. split.
  { intros HW. destruct (half_sum_within G l u HW Hl Hu Hlu) as [[N1 N2] B].
    destruct (zadj_cases f0 (half_sum G l u)) as [(Q1 & Q2 & ->)| ->].
    - split; [easy|]. split; simpl; [rewrite lb_fin by easy; lra|rewrite ub_fin by easy; lra].
    - split; [easy|]. split; simpl; [rewrite lb_fin by easy; lra|rewrite ub_fin by easy; lra]. }
  split; [|split]; intros E1 E2.
  + now rewrite E1 in Hl.
  + now rewrite E1 in Hl.
  + now rewrite E2 in Hu.
Qed.
End Mid.

(** ** Radius *)
Lemma dist_gupp {W} (m : float W) (y : itv W) : is_finite m = true -> wview y -> isnan (fst y) = false ->
  gupp (distances (B2R m) y) (vmax (rsub mode_UP m (fst y)) (rsub mode_UP (snd y) m)) /\
  isnan (vmax (rsub mode_UP m (fst y)) (rsub mode_UP (snd y) m)) = false.
Proof.
intros Fm V E. assert (Hw := wview_wf y V). assert (E2 := wf_snd_nan y Hw E).
assert (N1 : isnan (rsub mode_UP m (fst y)) = false) by (apply rsub_nan; auto using isnan_fin).
assert (N2 : isnan (rsub mode_UP (snd y) m) = false) by (apply rsub_nan; auto using isnan_fin).
split; [|now apply vmax_nan].
set (p := (m, m) : itv W).
assert (Vp : wview p) by (apply W_bnd; auto; lra).
assert (Ep : isnan (fst p) = false) by (now apply isnan_fin).
assert (Mp : forall r, mem r p <-> r = B2R m).
{ intros r. unfold p, mem; simpl. rewrite lb_fin, ub_fin by easy. split; [intros []; lra|intros ->; lra]. }
assert (Hn : exists r, mem r y) by now apply wf_nonempty.
assert (Hp : exists r, mem r p) by (exists (B2R m); now apply Mp).
assert (G1 := gupp_sub _ _ p y (upp_end_snd p Vp Ep) (low_end_fst y V E) Hp Hn).
assert (G2 := gupp_sub _ _ y p (upp_end_snd y V E) (low_end_fst p Vp Ep) Hn Hp).
eapply gupp_dom; [ | | apply (gupp_max _ _ _ _ G1 G2 N1 N2)].
- intros t (r & Hr & ->). cbv beta. unfold Rabs. destruct Rcase_abs.
  + left. exists (B2R m), r. split; [now apply Mp|]. split; [easy|]. split; [easy|]. ring.
  + right. exists r, (B2R m). split; [easy|]. split; [now apply Mp|]. split; [easy|]. ring.
- intros t [(a & r & Ha & Hr & _ & ->)|(r & a & Hr & Ha & _ & ->)]; apply Mp in Ha; subst a;
  exists (Rabs (r - B2R m)); (split; [now exists r|]).
  + rewrite Rabs_minus_sym. apply Rle_abs.
  + apply Rle_abs.
Qed.

Lemma distances_ext {F W} (x : itv F) (y : itv W) m : (forall r, mem r y <-> mem r x) ->
  forall t, distances m y t <-> distances m x t.
Proof. intros H t. split; intros (r & Hr & ->); exists r; now rewrite H in *. Qed.

Lemma n_mid_rad_spec {F} (x : itv F) : wf x -> isnan (fst x) = false ->
  exists m r, n_mid_rad x = ret (m, r) /\ n_mid x = ret m /\ is_finite m = true /\ mem (B2R m) x /\
  least_above (distances (B2R m) x) r /\ zero_is f0 r.
Proof.
intros W E. destruct (n_mid_mixed_ret F x W E) as (m & Hm & _ & _ & _ & _ & H & _).
destruct (H (within_refl F)) as [Fm Mm].
exists m, (zadj f0 (vmax (rsub mode_UP m (fst x)) (rsub mode_UP (snd x) m))).
split. { unfold n_mid_rad. rewrite is_valid_wf, is_empty_wf by easy. rewrite n_mid_same, Hm. mreds. now rewrite E. }
split; [now rewrite n_mid_same|]. split; [easy|]. split; [easy|]. split; [|apply zadj_zero].
apply la_zadj; [apply isz0|]. destruct (dist_gupp m x Fm (wf_view x W) E). now apply la_intro.
Qed.

Lemma n_mid_rad_mixed_spec {F} (G : fmt) (x : itv F) : comparable F G -> wf x -> isnan (fst x) = false ->
  exists m r, n_mid_rad_mixed G x = ret (m, r) /\ n_mid_mixed G x = ret m /\
  (is_finite m = true -> least_above (distances (B2R m) x) r) /\ zero_is f0 r.
Proof.
intros HC W E. destruct (n_mid_mixed_ret G x W E) as (m & Hm & _ & _ & _).
set (T := pmax G F). destruct (within_pmax G F (comparable_sym _ _ HC)) as [WG WF]. fold T in WG, WF.
set (mw := fconv T mode_NE m).
exists m. eexists. split.
{ unfold n_mid_rad_mixed. rewrite is_valid_wf, is_empty_wf by easy. rewrite Hm. mreds. rewrite E. reflexivity. }
split; [easy|]. split; [|apply zadj_zero]. intros Fm.
destruct (fconv_exact T mode_NE m WG Fm) as [Fw Ew].
apply (la_zadj f0); [apply isz0|]. fold T.
set (y := (fconv T mode_DN (fst x), fconv T mode_UP (snd x))).
assert (My : forall r, mem r y <-> mem r x).
{ intros r. unfold mem, y; simpl. now rewrite lb_exact, ub_exact. }
assert (Ey : isnan (fst y) = false) by (unfold y; simpl; now rewrite fconv_nan_iff).
assert (Wy : wf y). { right. destruct (wf_nonempty x W E) as [r Hr]. exists r. now apply My. }
destruct (dist_gupp mw y Fw (wf_view y Wy) Ey) as [D N]. unfold mw in D. rewrite Ew in D.
change (least_above (distances (B2R m) x) (fconv G mode_UP (vmax (rsub mode_UP mw (fst y)) (rsub mode_UP (snd y) mw)))).
apply la_intro; [|now rewrite fconv_nan_iff].
apply fconv_up_gupp; [easy| |easy]. revert D. apply gupp_ext. now apply distances_ext.
Qed.

(** ** Other mixed functions *)
Section MixedP.
Context {F : fmt} (G : fmt) (HC : comparable F G).
Let T := pmax G F.
Implicit Types x : itv F.

Lemma WGT : within G T. Proof. apply within_pmax, comparable_sym, HC. Qed.
Lemma WFT : within F T. Proof. apply within_pmax, comparable_sym, HC. Qed.

Lemma crndd_gb (S : R -> Prop) (v : float T) : greatest_below S v ->
  greatest_below S (convert_rndd G v) /\ zero_is fm0 (convert_rndd G v).
Proof.
intros H. apply gb_elim in H as [H N]. split; [|apply zadj_zero].
apply (gb_zadj fm0); [apply iszm0|]. apply gb_intro; [now apply (fconv_dn_glow WGT)|now rewrite fconv_nan_iff].
Qed.
Lemma crndu_la (S : R -> Prop) (v : float T) : least_above S v ->
  least_above S (convert_rndu G v) /\ zero_is f0 (convert_rndu G v).
Proof.
intros H. apply la_elim in H as [H N]. split; [|apply zadj_zero].
apply (la_zadj f0); [apply isz0|]. apply la_intro; [now apply (fconv_up_gupp WGT)|now rewrite fconv_nan_iff].
Qed.

Lemma gb_ext {H : fmt} (S S' : R -> Prop) (v : float H) : (forall r, S r <-> S' r) -> greatest_below S v -> greatest_below S' v.
Proof. intros E (N & H1 & H2). split; [easy|]. split; [intros r Hr; now apply H1, E|]. intros w Hw. apply H2. intros r Hr. now apply Hw, E. Qed.
Lemma la_ext {H : fmt} (S S' : R -> Prop) (v : float H) : (forall r, S r <-> S' r) -> least_above S v -> least_above S' v.
Proof. intros E (N & H1 & H2). split; [easy|]. split; [intros r Hr; now apply H1, E|]. intros w Hw. apply H2. intros r Hr. now apply Hw, E. Qed.

Lemma num_mixed_spec (f : itv T -> M (float T)) (conv : float T -> float G) (P : float T -> Prop) (Q : float G -> Prop) x :
  wf x -> (gives (f (convert_hull T x)) P) -> (forall v, P v -> Q (conv v)) -> gives (num_mixed G conv f x) Q.
Proof.
intros W (v & H1 & H2) H3. exists (conv v). split; [|now apply H3].
unfold num_mixed. rewrite is_valid_wf by easy. mreds. fold T.
apply returns_eq in H1. rewrite H1. now mreds.
Qed.
End MixedP.

Lemma points_ext {F W} (x : itv F) (y : itv W) : (forall r, mem r y <-> mem r x) -> forall t, points y t <-> points x t.
Proof. intros H t. apply H. Qed.
Lemma differences_ext {F W} (x : itv F) (y : itv W) : (forall r, mem r y <-> mem r x) ->
  forall t, differences y t <-> differences x t.
Proof. intros H t. split; intros (r & s & H1 & H2 & ->); exists r, s; now rewrite !H in *. Qed.
Lemma magnitudes_ext {F W} (x : itv F) (y : itv W) : (forall r, mem r y <-> mem r x) ->
  forall t, magnitudes y t <-> magnitudes x t.
Proof. intros H t. split; intros (r & H1 & ->); exists r; now rewrite !H in *. Qed.

Lemma mem_wf {F} (x : itv F) : (exists r, mem r x) -> wf x. Proof. now right. Qed.
Lemma mem_nnan {F} (x : itv F) : (exists r, mem r x) -> isnan (fst x) = false.
Proof. intros [r [H _]]. now destruct (fst x). Qed.

Section MixedQ.
Context {F : fmt} (G : fmt) (HC : comparable F G).
Let T := pmax G F.
Implicit Types x : itv F.
Let WFT' : within F T := WFT G HC.

Lemma chull_ext x : wf x -> forall r, mem r (convert_hull T x) <-> mem r x.
Proof. intros W. now apply convert_hull_exact. Qed.
Lemma chull_wf x : wf x -> wf (convert_hull T x). Proof. apply wf_convert_hull. Qed.
Lemma chull_ne x : (exists r, mem r x) -> exists r, mem r (convert_hull T x).
Proof. intros [r Hr]. exists r. apply chull_ext; [right; now exists r|easy]. Qed.

Lemma n_inf_mixed_spec x : wf x -> gives (n_inf_mixed G x) (fun v => greatest_below (points x) v /\ zero_is fm0 v).
Proof.
intros W. eapply num_mixed_spec; [easy|apply n_inf_spec; now apply chull_wf|]. cbv beta.
intros v [H _]. apply (crndd_gb G HC). revert H. apply gb_ext, points_ext, chull_ext, W.
Qed.
Lemma n_sup_mixed_spec x : wf x -> gives (n_sup_mixed G x) (fun v => least_above (points x) v /\ zero_is f0 v).
Proof.
intros W. eapply num_mixed_spec; [easy|apply n_sup_spec; now apply chull_wf|]. cbv beta.
intros v [H _]. apply (crndu_la G HC). revert H. apply la_ext, points_ext, chull_ext, W.
Qed.
Lemma n_wid_mixed_spec x : (exists r, mem r x) ->
  gives (n_wid_mixed G x) (fun v => least_above (differences x) v /\ zero_is f0 v).
Proof.
intros W. eapply num_mixed_spec; [now right|apply n_wid_spec; [apply chull_wf; now right|now apply mem_nnan, chull_ne]|].
cbv beta. intros v [H _]. apply (crndu_la G HC). revert H. apply la_ext, differences_ext, chull_ext. now right.
Qed.
Lemma n_mag_mixed_spec x : (exists r, mem r x) ->
  gives (n_mag_mixed G x) (fun v => least_above (magnitudes x) v /\ zero_is f0 v).
Proof.
intros W. eapply num_mixed_spec; [now right|apply n_mag_spec; [apply chull_wf; now right|now apply mem_nnan, chull_ne]|].
cbv beta. intros v [H _]. apply (crndu_la G HC). revert H. apply la_ext, magnitudes_ext, chull_ext. now right.
Qed.
Lemma n_mig_mixed_spec x : (exists r, mem r x) ->
  gives (n_mig_mixed G x) (fun v => greatest_below (magnitudes x) v /\ zero_is f0 v).
Proof.
intros W. eapply num_mixed_spec; [now right|apply n_mig_spec; [apply chull_wf; now right|now apply mem_nnan, chull_ne]|].
cbv beta. intros v [H _]. split; [|apply zadj_zero]. apply (gb_zadj f0); [apply isz0|].
apply (crndd_gb G HC). revert H. apply gb_ext, magnitudes_ext, chull_ext. now right.
Qed.
End MixedQ.

(** ** Empty operands *)
Lemma n_empty {F} : n_mid (@empty_rep F) = ret fnan /\ n_wid (@empty_rep F) = ret fnan /\
  n_mag (@empty_rep F) = ret fnan /\ n_mig (@empty_rep F) = ret fnan /\ n_rad (@empty_rep F) = ret fnan /\
  n_mid_rad (@empty_rep F) = ret (fnan, fnan).
Proof. repeat split; reflexivity. Qed.
Lemma n_empty_mixed {F} G : n_mid_mixed G (@empty_rep F) = ret fnan /\ n_wid_mixed G (@empty_rep F) = ret fnan /\
  n_mag_mixed G (@empty_rep F) = ret fnan /\ n_mig_mixed G (@empty_rep F) = ret fnan /\
  n_rad_mixed G (@empty_rep F) = ret fnan /\ n_mid_rad_mixed G (@empty_rep F) = ret (fnan, fnan).
Proof. repeat split; reflexivity. Qed.

(** ** Statements with a non-empty operand *)
Lemma mid_ok {F} (x : itv F) : (exists r, mem r x) -> gives (n_mid x) (fun m =>
  is_finite m = true /\ mem (B2R m) x /\ zero_is f0 m /\
  (bounded_rep x -> nearest ((B2R (fst x) + B2R (snd x)) / 2) m)).
Proof.
intros H. destruct (n_mid_mixed_ret F x (mem_wf x H) (mem_nnan x H)) as (m & Hm & Z & _ & N & _ & M & _).
destruct (M (within_refl F)) as [M1 M2]. exists m. rewrite n_mid_same, Hm. split; [easy|].
split; [easy|]. split; [easy|]. split; [easy|]. intros B. destruct (N B) as [N'|[N1 N2]]; [easy|exfalso].
set (c := (B2R (fst x) + B2R (snd x)) / 2) in *.
destruct x as [l u], B as [Hl Hu]. destruct (wf_nonempty _ (mem_wf _ H) (mem_nnan _ H)) as [r Hr].
pose proof (mem_fin_l _ _ _ Hr Hl). pose proof (mem_fin_u _ _ _ Hr Hu).
destruct (half_sum_within F l u (within_refl F) Hl Hu ltac:(lra)) as [[_ Q] _]. simpl in c. fold c in Q.
rewrite <- Q in N1. pose proof (B2R_bound (half_sum F l u)). lra.
Qed.
Lemma mid_mixed_ok {F} G (x : itv F) : (exists r, mem r x) -> gives (n_mid_mixed G x) (fun m =>
  zero_is f0 m /\ (within F G -> is_finite m = true /\ mem (B2R m) x) /\ (~ bounded_rep x -> is_finite m = true) /\
  (bounded_rep x -> nearest_or_inf ((B2R (fst x) + B2R (snd x)) / 2) m)).
Proof.
intros H. destruct (n_mid_mixed_ret G x (mem_wf x H) (mem_nnan x H)) as (m & Hm & Z & _ & N & U & M & _).
exists m. rewrite Hm. split; [easy|]. split; [easy|]. split; [exact M|]. now split.
Qed.
Lemma mid_unbounded {F} G (x : itv F) : (exists r, mem r x) -> gives (n_mid_mixed G x) (fun m =>
  (fst x = fminf -> snd x = finf -> m = f0) /\ (fst x = fminf -> snd x <> finf -> m = fneg fmaxv) /\
  (fst x <> fminf -> snd x = finf -> m = fmaxv)).
Proof.
intros H. destruct (n_mid_mixed_ret G x (mem_wf x H) (mem_nnan x H)) as (m & Hm & _ & _ & _ & _ & _ & Q).
exists m. rewrite Hm. now split.
Qed.

Lemma rad_ok {F} (x : itv F) : (exists r, mem r x) ->
  exists m r, returns (n_mid_rad x) (m, r) /\ returns (n_mid x) m /\ returns (n_rad x) r /\
  is_finite m = true /\ mem (B2R m) x /\ least_above (distances (B2R m) x) r /\ zero_is f0 r.
Proof.
intros H. destruct (n_mid_rad_spec x (mem_wf x H) (mem_nnan x H)) as (m & r & H1 & H2 & H3 & H4 & H5 & H6).
exists m, r. unfold n_rad. rewrite H1, H2. mreds. easy.
Qed.
Lemma rad_mixed_ok {F} G (x : itv F) : comparable F G -> (exists r, mem r x) ->
  exists m r, returns (n_mid_rad_mixed G x) (m, r) /\ returns (n_mid_mixed G x) m /\ returns (n_rad_mixed G x) r /\
  (is_finite m = true -> least_above (distances (B2R m) x) r) /\ zero_is f0 r.
Proof.
intros HC H. destruct (n_mid_rad_mixed_spec G x HC (mem_wf x H) (mem_nnan x H)) as (m & r & H1 & H2 & H3 & H4).
exists m, r. unfold n_rad_mixed. rewrite H1, H2. mreds. easy.
Qed.
Lemma la_dist_encloses {F G} (x : itv F) (m r : float G) : least_above (distances (B2R m) x) r ->
  forall t, mem t x -> is_finite r = true -> B2R m - B2R r <= t <= B2R m + B2R r.
Proof.
intros (_ & H & _) t Ht Fr. specialize (H (Rabs (t - B2R m)) (ex_intro _ t (conj Ht eq_refl))).
rewrite ub_fin in H by easy. apply Rabs_le_inv in H. lra.
Qed.
(** The radius is infinite only for unbounded intervals or overflow. *)
Lemma midrad_encloses {F} (x : itv F) : (exists r, mem r x) ->
  exists m r, returns (n_mid_rad x) (m, r) /\ returns (n_mid x) m /\ returns (n_rad x) r /\ is_finite m = true /\
  ((is_finite r = true /\ forall t, mem t x -> B2R m - B2R r <= t <= B2R m + B2R r) \/ r = finf).
Proof.
intros H. destruct (rad_ok x H) as (m & r & H1 & H2 & H3 & H4 & H5 & H6 & H7).
exists m, r. split; [easy|]. split; [easy|]. split; [easy|]. split; [easy|].
assert (Q := la_dist_encloses x m r H6). destruct H6 as (N & U & _).
destruct (fviewP r) as [ | | |r Fr]; try easy; [|now right|left].
- exfalso. destruct H as [t Ht]. now specialize (U _ (ex_intro _ t (conj Ht eq_refl))).
- split; [easy|]. intros t Ht. now apply Q.
Qed.
Lemma midrad_mixed_encloses {F} G (x : itv F) : comparable F G -> (exists r, mem r x) ->
  exists m r, returns (n_mid_rad_mixed G x) (m, r) /\ returns (n_mid_mixed G x) m /\ returns (n_rad_mixed G x) r /\
  (is_finite m = true ->
   ((is_finite r = true /\ forall t, mem t x -> B2R m - B2R r <= t <= B2R m + B2R r) \/ r = finf)) /\
  (within F G \/ ~ bounded_rep x -> is_finite m = true).
Proof.
intros HC H. destruct (rad_mixed_ok G x HC H) as (m & r & H1 & H2 & H3 & H4 & H5).
exists m, r. split; [easy|]. split; [easy|]. split; [easy|]. split.
- intros Fm. specialize (H4 Fm). assert (Q := la_dist_encloses x m r H4). destruct H4 as (N & U & _).
  destruct (fviewP r) as [ | | |r Fr]; try easy; [|now right|left].
  + exfalso. destruct H as [t Ht]. now specialize (U _ (ex_intro _ t (conj Ht eq_refl))).
  + split; [easy|]. intros t Ht. now apply Q.
- destruct (mid_mixed_ok G x H) as (m' & E & _ & P1 & P2 & _).
  assert (m' = m). { specialize (E (Est 0 0)). specialize (H2 (Est 0 0)). rewrite H2 in E. now injection E. }
  subst m'. intros [K|K]; [now apply P1|now apply P2].
Qed.
Lemma n_dec {F} (f : itv F -> M (float F)) (x : ditv F) : wf_dec x ->
  (snd x = ill -> returns (num_dec f x) fnan) /\ (snd x <> ill -> num_dec f x = f (fst x)).
Proof.
intros W. unfold num_dec. rewrite is_valid_dec_wf, is_nai_wf by easy. mreds.
destruct (deq_spec (snd x) ill) as [E|E]; split; intros; mreds; easy.
Qed.
Lemma n_dec_mixed {F} G (f : itv F -> M (float G)) (x : ditv F) : wf_dec x ->
  (snd x = ill -> returns (num_dec_mixed G f x) fnan) /\ (snd x <> ill -> num_dec_mixed G f x = f (fst x)).
Proof.
intros W. unfold num_dec_mixed. rewrite is_valid_dec_wf, is_nai_wf by easy. mreds.
destruct (deq_spec (snd x) ill) as [E|E]; split; intros; mreds; easy.
Qed.
Lemma n_mid_rad_dec_ok {F} (x : ditv F) : wf_dec x ->
  (snd x = ill -> returns (n_mid_rad_dec x) (fnan, fnan)) /\ (snd x <> ill -> n_mid_rad_dec x = n_mid_rad (fst x)).
Proof.
intros W. unfold n_mid_rad_dec. rewrite is_valid_dec_wf, is_nai_wf by easy. mreds.
destruct (deq_spec (snd x) ill) as [E|E]; split; intros; mreds; easy.
Qed.
Lemma n_mid_rad_dec_mixed_ok {F} G (x : ditv F) : wf_dec x ->
  (snd x = ill -> returns (n_mid_rad_dec_mixed G x) (fnan, fnan)) /\
  (snd x <> ill -> n_mid_rad_dec_mixed G x = n_mid_rad_mixed G (fst x)).
Proof.
intros W. unfold n_mid_rad_dec_mixed. rewrite is_valid_dec_wf, is_nai_wf by easy. mreds.
destruct (deq_spec (snd x) ill) as [E|E]; split; intros; mreds; easy.
Qed.
