(** * Proofs: continuity of the point functions *)
From Coq Require Import ZArith NArith Reals Lra Lia Psatz Ratan.
From Flocq Require Import Core.Core.
From Verif Require Import Fmt Spec Deco SpecDeco SpecElem SpecAtan2.
Local Open Scope R_scope.

Section C.
Context {P : Type} (near : R -> P -> P -> Prop)
  (near_le : forall d d' p q, d <= d' -> near d p q -> near d' p q).
Implicit Types D : P -> Prop.
Implicit Types f g : P -> R.

Lemma cont_sub D D' f p : (forall q, D' q -> D q) -> cont_at near D f p -> cont_at near D' f p.
Proof. intros H C e He. destruct (C e He) as (d & Hd & H'). exists d. split; [easy|]. intros q Hq. now apply H', H. Qed.

(** Two conditions at once. *)
Lemma near_two D (A B : P -> Prop) p :
  (exists d, 0 < d /\ forall q, D q -> near d p q -> A q) ->
  (exists d, 0 < d /\ forall q, D q -> near d p q -> B q) ->
  exists d, 0 < d /\ forall q, D q -> near d p q -> A q /\ B q.
Proof.
intros (d1 & H1 & C1) (d2 & H2 & C2). exists (Rmin d1 d2). split; [now apply Rmin_pos|].
intros q Hq N. split; [apply C1|apply C2]; try easy;
(eapply near_le; [|exact N]); [apply Rmin_l|apply Rmin_r].
Qed.

Lemma cont_ext D f g p : D p -> (forall q, D q -> f q = g q) -> cont_at near D f p -> cont_at near D g p.
Proof.
intros Dp H C e He. destruct (C e He) as (d & Hd & H'). exists d. split; [easy|].
intros q Hq N. rewrite <- !H by easy. now apply H'.
Qed.
Lemma cont_local D f g p : f p = g p ->
  (exists d, 0 < d /\ forall q, D q -> near d p q -> f q = g q) -> cont_at near D f p -> cont_at near D g p.
Proof.
intros E H C e He. destruct (near_two D _ _ p H (C e He)) as (d & Hd & H'). exists d. split; [easy|].
intros q Hq N. destruct (H' q Hq N) as [H1 H2]. now rewrite <- H1, <- E.
Qed.
Lemma cont_const D (c : R) p : cont_at near D (fun _ => c) p.
Proof. intros e He. exists 1. split; [lra|]. intros q _ _. rewrite Rminus_diag_eq, Rabs_R0; easy. Qed.
Lemma cont_comp D f (g : R -> R) p : continuity_pt g (f p) -> cont_at near D f p -> cont_at near D (fun q => g (f q)) p.
Proof.
intros G C e He. destruct (G e He) as (d1 & H1 & H2). destruct (C d1 H1) as (d & Hd & H). exists d. split; [easy|].
intros q Hq N. specialize (H q Hq N).
destruct (Req_dec (f q) (f p)) as [E|E].
- rewrite E, Rminus_diag_eq, Rabs_R0; easy.
- apply (H2 (f q)). split; [split; [easy|]|exact H]. congruence.
Qed.
Lemma cont_plus D f g p : cont_at near D f p -> cont_at near D g p -> cont_at near D (fun q => f q + g q) p.
Proof.
intros C1 C2 e He. destruct (near_two D _ _ p (C1 (e / 2) ltac:(lra)) (C2 (e / 2) ltac:(lra))) as (d & Hd & H).
exists d. split; [easy|]. intros q Hq N. destruct (H q Hq N) as [H1 H2].
replace (f q + g q - (f p + g p)) with ((f q - f p) + (g q - g p)) by ring.
eapply Rle_lt_trans; [apply Rabs_triang|lra].
Qed.
Lemma cont_opp D f p : cont_at near D f p -> cont_at near D (fun q => - f q) p.
Proof. apply (cont_comp D f Ropp). reg. Qed.
Lemma cont_minus D f g p : cont_at near D f p -> cont_at near D g p -> cont_at near D (fun q => f q - g q) p.
Proof. intros C1 C2. apply cont_plus; [easy|now apply cont_opp]. Qed.
Lemma cont_scal D f (c : R) p : cont_at near D f p -> cont_at near D (fun q => c * f q) p.
Proof. apply (cont_comp D f (fun t => c * t)). reg. Qed.
Lemma cont_mult D f g p : cont_at near D f p -> cont_at near D g p -> cont_at near D (fun q => f q * g q) p.
Proof.
intros C1 C2.
assert (C : cont_at near D (fun q => / 4 * ((f q + g q) * (f q + g q)) - / 4 * ((f q - g q) * (f q - g q))) p).
{ apply cont_minus; apply cont_scal.
  - apply (cont_comp D (fun q => f q + g q) (fun t => t * t)); [reg|now apply cont_plus].
  - apply (cont_comp D (fun q => f q - g q) (fun t => t * t)); [reg|now apply cont_minus]. }
intros e He. destruct (C e He) as (d & Hd & H). exists d. split; [easy|].
intros q Hq N. specialize (H q Hq N). cbv beta in H.
replace (f q * g q) with (/ 4 * ((f q + g q) * (f q + g q)) - / 4 * ((f q - g q) * (f q - g q))) by field.
replace (f p * g p) with (/ 4 * ((f p + g p) * (f p + g p)) - / 4 * ((f p - g p) * (f p - g p))) by field. exact H.
Qed.
Lemma cont_inv D f p : f p <> 0 -> cont_at near D f p -> cont_at near D (fun q => / f q) p.
Proof.
intros N. apply (cont_comp D f Rinv). apply (continuity_pt_inv id (f p)); [|easy].
apply derivable_continuous_pt, derivable_pt_id.
Qed.
Lemma cont_div D f g p : g p <> 0 -> cont_at near D f p -> cont_at near D g p -> cont_at near D (fun q => f q / g q) p.
Proof. intros N C1 C2. apply cont_mult; [easy|now apply cont_inv]. Qed.
End C.

Lemma near1_le d d' p q : d <= d' -> near1 d p q -> near1 d' p q. Proof. unfold near1. lra. Qed.
Lemma near2_le d d' p q : d <= d' -> near2 d p q -> near2 d' p q.
Proof. intros H [H1 H2]. split; eapply near1_le; eassumption. Qed.
Lemma near3_le d d' p q : d <= d' -> near3 d p q -> near3 d' p q.
Proof. intros H [H1 H2]. split; [eapply near2_le|eapply near1_le]; eassumption. Qed.

Lemma cont_id D p : cont_at near1 D (fun r => r) p.
Proof. intros e He. exists e. split; [easy|]. now intros q _ N. Qed.
Lemma cont_fst D p : cont_at near2 D fst p.
Proof. intros e He. exists e. split; [easy|]. now intros q _ [N _]. Qed.
Lemma cont_snd D p : cont_at near2 D snd p.
Proof. intros e He. exists e. split; [easy|]. now intros q _ [_ N]. Qed.
Lemma cont_1 D p : cont_at near3 D (fun q => fst (fst q)) p.
Proof. intros e He. exists e. split; [easy|]. now intros q _ [[N _] _]. Qed.
Lemma cont_2 D p : cont_at near3 D (fun q => snd (fst q)) p.
Proof. intros e He. exists e. split; [easy|]. now intros q _ [[_ N] _]. Qed.
Lemma cont_3 D p : cont_at near3 D (fun q => snd q) p.
Proof. intros e He. exists e. split; [easy|]. now intros q _ [_ N]. Qed.
Lemma cont_pt (f : R -> R) D p : continuity_pt f p -> cont_at near1 D f p.
Proof. intros H. apply (cont_comp near1 D (fun r => r) f); [easy|apply cont_id]. Qed.
Lemma cont_der (f : R -> R) D p : derivable_pt f p -> cont_at near1 D f p.
Proof. intros H. now apply cont_pt, derivable_continuous_pt. Qed.

Ltac ctn := repeat first
  [ apply cont_id | apply cont_fst | apply cont_snd | apply cont_1 | apply cont_2 | apply cont_3 | apply cont_const
  | apply cont_plus; [exact near1_le| |] | apply cont_plus; [exact near2_le| |] | apply cont_plus; [exact near3_le| |]
  | apply cont_mult; [exact near1_le| |] | apply cont_mult; [exact near2_le| |] | apply cont_mult; [exact near3_le| |] ].

(** ** Elementary functions *)
Lemma c_exp D p : cont_at near1 D exp p. Proof. apply cont_der, derivable_pt_exp. Qed.
Lemma Rpower_cont_pt a s : continuity_pt (fun r => Rpower a r) s.
Proof. apply derivable_continuous_pt. unfold Rpower. reg. Qed.
Lemma c_exp2 D p : cont_at near1 D exp2R p. Proof. apply cont_pt, Rpower_cont_pt. Qed.
Lemma c_exp10 D p : cont_at near1 D exp10R p. Proof. apply cont_pt, Rpower_cont_pt. Qed.
Lemma ln_cont_pt r : 0 < r -> continuity_pt ln r.
Proof. intros H. apply derivable_continuous_pt. exists (/ r). now apply derivable_pt_lim_ln. Qed.
Lemma c_ln D p : 0 < p -> cont_at near1 D ln p. Proof. intros H. now apply cont_pt, ln_cont_pt. Qed.
Lemma c_ln_div (c : R) D p : 0 < p -> cont_at near1 D (fun r => ln r / c) p.
Proof. intros H. apply cont_mult; [exact near1_le|now apply c_ln|apply cont_const]. Qed.
Lemma c_sin D p : cont_at near1 D sin p. Proof. apply cont_der, derivable_pt_sin. Qed.
Lemma c_cos D p : cont_at near1 D cos p. Proof. apply cont_der, derivable_pt_cos. Qed.
Lemma c_tan D p : cos p <> 0 -> cont_at near1 D tan p.
Proof. intros H. apply (cont_div near1 near1_le D sin cos p H); [apply c_sin|apply c_cos]. Qed.
Lemma c_sinh D p : cont_at near1 D sinh p. Proof. apply cont_der, derivable_pt_sinh. Qed.
Lemma c_cosh D p : cont_at near1 D cosh p. Proof. apply cont_der, derivable_pt_cosh. Qed.
Lemma cosh_pos r : 0 < cosh r.
Proof. unfold cosh. pose proof (exp_pos r). pose proof (exp_pos (- r)). lra. Qed.
Lemma c_tanh D p : cont_at near1 D tanh p.
Proof. apply (cont_div near1 near1_le D sinh cosh p); [|apply c_sinh|apply c_cosh]. pose proof (cosh_pos p). lra. Qed.
Lemma sqrt_cont_pt r : 0 <= r -> continuity_pt sqrt r. Proof. apply continuity_pt_sqrt. Qed.
Lemma c_sqrt D p : 0 <= p -> cont_at near1 D sqrt p. Proof. intros H. now apply cont_pt, sqrt_cont_pt. Qed.
Lemma c_atan D p : cont_at near1 D atan p.
Proof. apply cont_der, derivable_pt_atan. Qed.
Lemma c_arcsinh D p : cont_at near1 D arcsinh p.
Proof. apply cont_der. eexists. apply derivable_pt_lim_arcsinh. Qed.
Lemma c_acosh D p : 1 <= p -> cont_at near1 D acoshR p.
Proof.
intros H. apply (cont_comp near1 D (fun r => r + sqrt (r * r - 1)) ln).
- apply ln_cont_pt. pose proof (acoshR_arg p H). lra.
- apply cont_plus; [exact near1_le|apply cont_id|].
  apply (cont_comp near1 D (fun r => r * r - 1) sqrt); [apply sqrt_cont_pt; nra|].
  apply cont_minus; [exact near1_le|ctn|apply cont_const].
Qed.
Lemma c_atanh D p : -1 < p < 1 -> cont_at near1 D atanhR p.
Proof.
intros H. apply cont_mult; [exact near1_le| |apply cont_const].
apply (cont_comp near1 D (fun r => (1 + r) / (1 - r)) ln); [apply ln_cont_pt; now apply atanhR_arg|].
apply cont_div; [exact near1_le|lra|ctn|].
apply cont_minus; [exact near1_le|ctn|ctn].
Qed.
Lemma c_abs D p : cont_at near1 D Rabs p.
Proof. apply cont_pt, Rcontinuity_abs. Qed.
Lemma c_asin p : -1 <= p <= 1 -> cont_at near1 within1 asin p.
Proof.
intros Hp e He. pose proof (asin_bound p) as B.
(* a margin below *)
assert (L : exists d, 0 < d /\ forall q, within1 q -> near1 d p q -> asin p - e < asin q).
{ destruct (Rlt_or_le (asin p - e) (- PI / 2)) as [H|H].
  - exists 1. split; [lra|]. intros q _ _. pose proof (asin_bound q). lra.
  - assert (S : sin (asin p - e) < p).
    { rewrite <- (sin_asin p) at 2 by easy. apply sin_increasing_1; lra. }
    exists (p - sin (asin p - e)). split; [lra|]. intros q Hq N. unfold near1 in N.
    apply Rabs_def2 in N. destruct (Rlt_or_le (asin p - e) (asin q)) as [H'|H']; [easy|exfalso].
    pose proof (asin_bound q).
    assert (q <= sin (asin p - e)); [|lra].
    rewrite <- (sin_asin q) by easy. apply sin_incr_1; lra. }
assert (U : exists d, 0 < d /\ forall q, within1 q -> near1 d p q -> asin q < asin p + e).
{ destruct (Rlt_or_le (PI / 2) (asin p + e)) as [H|H].
  - exists 1. split; [lra|]. intros q _ _. pose proof (asin_bound q). lra.
  - assert (S : p < sin (asin p + e)).
    { rewrite <- (sin_asin p) at 1 by easy. apply sin_increasing_1; lra. }
    exists (sin (asin p + e) - p). split; [lra|]. intros q Hq N. unfold near1 in N.
    apply Rabs_def2 in N. destruct (Rlt_or_le (asin q) (asin p + e)) as [H'|H']; [easy|exfalso].
    pose proof (asin_bound q).
    assert (sin (asin p + e) <= q); [|lra].
    rewrite <- (sin_asin q) by easy. apply sin_incr_1; lra. }
destruct (near_two near1 near1_le within1 _ _ p L U) as (d & Hd & H). exists d. split; [easy|].
intros q Hq N. destruct (H q Hq N). apply Rabs_def1; lra.
Qed.
Lemma c_acos p : -1 <= p <= 1 -> cont_at near1 within1 acos p.
Proof.
intros Hp. apply cont_ext with (f := fun r => PI / 2 - asin r); [easy| |].
- intros q Hq. symmetry. now apply acos_asin.
- apply cont_minus; [exact near1_le|apply cont_const|now apply c_asin].
Qed.
Lemma c_inv D p : p <> 0 -> cont_at near1 D Rinv p.
Proof. intros H. apply (cont_inv near1 D (fun r => r)); [easy|apply cont_id]. Qed.
Lemma c_pow n D p : cont_at near1 D (fun r => r ^ n) p.
Proof. apply cont_der, derivable_pt_pow. Qed.
Lemma c_pown k p : pown_dom k p -> forall D, cont_at near1 D (pownR k) p.
Proof.
intros H D. destruct k as [|k|k]; unfold pownR; simpl.
- apply cont_const.
- apply c_pow.
- apply (cont_inv near1 D (fun r => r ^ Pos.to_nat k)); [|apply c_pow]. apply pow_nonzero. now apply H.
Qed.

(** ** Two variables *)
Lemma Rmin_alt (a b : R) : Rmin a b = (a + b - Rabs (a - b)) * / 2.
Proof. unfold Rmin, Rabs. destruct Rle_dec, Rcase_abs; lra. Qed.
Lemma Rmax_alt (a b : R) : Rmax a b = (a + b + Rabs (a - b)) * / 2.
Proof. unfold Rmax, Rabs. destruct Rle_dec, Rcase_abs; lra. Qed.
Lemma c_absdiff D p : cont_at near2 D (fun q => Rabs (fst q - snd q)) p.
Proof.
apply (cont_comp near2 D (fun q => fst q - snd q) Rabs); [apply Rcontinuity_abs|].
apply cont_minus; [exact near2_le|ctn|ctn].
Qed.
Lemma c_min (D : R * R -> Prop) p : D p -> cont_at near2 D (fun q => Rmin (fst q) (snd q)) p.
Proof.
intros Dp. apply cont_ext with (f := fun q => (fst q + snd q - Rabs (fst q - snd q)) * / 2); [easy| |].
- intros q _. symmetry. apply Rmin_alt.
- apply cont_mult; [exact near2_le| |ctn]. apply cont_minus; [exact near2_le|ctn|apply c_absdiff].
Qed.
Lemma c_max (D : R * R -> Prop) p : D p -> cont_at near2 D (fun q => Rmax (fst q) (snd q)) p.
Proof.
intros Dp. apply cont_ext with (f := fun q => (fst q + snd q + Rabs (fst q - snd q)) * / 2); [easy| |].
- intros q _. symmetry. apply Rmax_alt.
- apply cont_mult; [exact near2_le| |ctn]. apply cont_plus; [exact near2_le|ctn|apply c_absdiff].
Qed.

Definition pdom (q : R * R) : Prop := pow_dom (fst q) (snd q).
Lemma c_powR p : pdom p -> cont_at near2 pdom (fun q => powR (fst q) (snd q)) p.
Proof.
destruct p as [r s]. intros [H|[H1 H2]]; simpl in *.
- apply (cont_local near2 near2_le pdom (fun q => exp (snd q * ln (fst q)))); simpl.
  + unfold powR. destruct Req_EM_T; [lra|easy].
  + exists r. split; [easy|]. intros [r' s'] _ [N _]; simpl in *. unfold near1 in N. apply Rabs_def2 in N.
    unfold powR. destruct Req_EM_T; [lra|easy].
  + apply (cont_comp near2 pdom (fun q => snd q * ln (fst q)) exp).
    * apply derivable_continuous_pt, derivable_pt_exp.
    * apply cont_mult; [exact near2_le|ctn|].
      apply (cont_comp near2 pdom fst ln); [now apply ln_cont_pt|ctn].
- subst r. intros e He. cbn [fst snd]. set (m := Rpower e (2 / s)).
  assert (Hm : 0 < m) by apply exp_pos.
  assert (P1 : powR 0 s = 0) by (unfold powR; destruct Req_EM_T; lra).
  exists (Rmin (s / 2) (Rmin 1 m)). split; [repeat apply Rmin_pos; lra|].
  intros [r' s'] D' [N1 N2]; simpl in *. unfold near1 in *.
  rewrite P1, Rminus_0_r in *.
  pose proof (Rmin_l (s / 2) (Rmin 1 m)). pose proof (Rmin_r (s / 2) (Rmin 1 m)).
  pose proof (Rmin_l 1 m). pose proof (Rmin_r 1 m).
  unfold powR. destruct (Req_EM_T r' 0) as [E|E]; [rewrite Rabs_R0; lra|].
  destruct D' as [D'|D']; simpl in *; [|easy].
  apply Rabs_def2 in N1. apply Rabs_def2 in N2.
  assert (Hr : 0 < r' < 1) by lra.
  rewrite Rabs_pos_eq by (left; apply exp_pos).
  apply Rlt_le_trans with (Rpower m (s / 2)).
  + apply Rle_lt_trans with (Rpower r' (s / 2)).
    * unfold Rpower. apply exp_le. assert (ln r' < 0) by (rewrite <- ln_1; apply ln_increasing; lra). nra.
    * apply exp_increasing. apply Rmult_lt_compat_l; [lra|]. apply ln_increasing; lra.
  + right. unfold m. rewrite Rpower_mult. replace (2 / s * (s / 2)) with 1 by (field; lra). now apply Rpower_1.
Qed.

Lemma ratan2_right y x : 0 < x -> ratan2 y x = atan (y / x).
Proof.
intros H. destruct (total_order_T 0 y) as [[Hy|Hy]|Hy].
- rewrite ratan2_pos by easy. assert (0 < x / y) by now apply Rdiv_lt_0_compat.
  replace (y / x) with (/ (x / y)) by (field; lra). now rewrite atan_inv.
- subst y. rewrite ratan2_0r by lra. unfold Rdiv. now rewrite Rmult_0_l, atan_0.
- rewrite ratan2_neg by easy. assert (0 < x / - y) by (apply Rdiv_lt_0_compat; lra).
  replace (y / x) with (- / (x / - y)) by (field; lra). rewrite atan_opp, atan_inv by easy.
  replace (x / y) with (- (x / - y)) by (field; lra). rewrite atan_opp. lra.
Qed.
Lemma ratan2_left y x : x < 0 -> 0 <= y -> ratan2 y x = PI + atan (y / x).
Proof.
intros H [Hy|Hy].
- rewrite ratan2_pos by easy. assert (0 < - x / y) by (apply Rdiv_lt_0_compat; lra).
  replace (y / x) with (- / (- x / y)) by (field; lra). rewrite atan_opp, atan_inv by easy.
  replace (x / y) with (- (- x / y)) by (field; lra). rewrite atan_opp. lra.
- subst y. rewrite ratan2_0l by lra. unfold Rdiv. rewrite Rmult_0_l, atan_0. lra.
Qed.
Lemma c_atan_div D (p : R * R) : snd p <> 0 -> cont_at near2 D (fun q => atan (fst q / snd q)) p.
Proof.
intros H. apply (cont_comp near2 D (fun q => fst q / snd q) atan).
- apply derivable_continuous_pt, derivable_pt_atan.
- apply cont_div; [exact near2_le|easy|ctn|ctn].
Qed.
Lemma c_atan_div' D (p : R * R) : fst p <> 0 -> cont_at near2 D (fun q => atan (snd q / fst q)) p.
Proof.
intros H. apply (cont_comp near2 D (fun q => snd q / fst q) atan).
- apply derivable_continuous_pt, derivable_pt_atan.
- apply cont_div; [exact near2_le|easy|ctn|ctn].
Qed.
Lemma near_pos (p : R * R) d (q : R * R) : near2 d p q ->
  fst p - d < fst q < fst p + d /\ snd p - d < snd q < snd p + d.
Proof. intros [H1 H2]. unfold near1 in *. apply Rabs_def2 in H1. apply Rabs_def2 in H2. lra. Qed.

(** Away from the cut. *)
Lemma c_ratan2 D p : 0 < snd p \/ fst p <> 0 -> cont_at near2 D (fun q => ratan2 (fst q) (snd q)) p.
Proof.
destruct p as [y x]; cbn [fst snd]. intros [H|H].
- apply (cont_local near2 near2_le D (fun q => atan (fst q / snd q))); cbn [fst snd].
  + symmetry. now apply ratan2_right.
  + exists x. split; [easy|]. intros q _ N. apply near_pos in N. cbn [fst snd] in N. symmetry. apply ratan2_right. lra.
  + apply c_atan_div. simpl. lra.
- destruct (Rdichotomy _ _ H) as [H'|H'].
  + apply (cont_local near2 near2_le D (fun q => - (PI / 2) - atan (snd q / fst q))); cbn [fst snd].
    * symmetry. now apply ratan2_neg.
    * exists (- y). split; [lra|]. intros q _ N. apply near_pos in N. cbn [fst snd] in N. symmetry. apply ratan2_neg. lra.
    * apply cont_minus; [exact near2_le|ctn|now apply c_atan_div'].
  + apply (cont_local near2 near2_le D (fun q => PI / 2 - atan (snd q / fst q))); cbn [fst snd].
    * symmetry. now apply ratan2_pos.
    * exists y. split; [lra|]. intros q _ N. apply near_pos in N. cbn [fst snd] in N. symmetry. apply ratan2_pos. lra.
    * apply cont_minus; [exact near2_le|ctn|now apply c_atan_div'].
Qed.
(** In the closed upper half plane. *)
Lemma c_ratan2_up (D : R * R -> Prop) p : (forall q, D q -> 0 <= fst q) -> D p -> not_origin (fst p) (snd p) ->
  cont_at near2 D (fun q => ratan2 (fst q) (snd q)) p.
Proof.
intros HD Dp O. destruct (Req_dec (fst p) 0) as [Ey|Ey]; [|apply c_ratan2; now right].
destruct O as [O|O]; [easy|]. destruct (Rdichotomy _ _ O) as [H|H]; [|apply c_ratan2; now left].
apply (cont_local near2 near2_le D (fun q => PI + atan (fst q / snd q))).
- symmetry. apply ratan2_left; [easy|lra].
- exists (- snd p). split; [lra|]. intros q Dq N. apply near_pos in N. symmetry. apply ratan2_left; [lra|now apply HD].
- apply cont_plus; [exact near2_le|ctn|now apply c_atan_div].
Qed.

(** ** Step functions *)
Lemma c_locconst (f : R -> R) D p :
  (exists d, 0 < d /\ forall q, near1 d p q -> f q = f p) -> cont_at near1 D f p.
Proof.
intros (d & Hd & H) e He. exists d. split; [easy|]. intros q _ N. rewrite H by easy.
rewrite Rminus_diag_eq, Rabs_R0; easy.
Qed.
