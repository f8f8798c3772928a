(** * Proofs: sine and cosine *)

From Coq Require Import ZArith NArith Reals Bool Lia Lra Psatz.
From Flocq Require Import Core.Core IEEE754.BinarySingleNaN.
From Verif Require Import Fmt Spec FloatFacts Exc Deco SpecApi SpecElem MBase PBase MBool MArith PArith
  PMul PFma PDiv PUnary PBool PSetop MElem PElem PElem2 MTrig PTrigR.

Local Open Scope R_scope.

Section T.
Context {F : fmt}.
Implicit Types f l u : float F.
Implicit Types x z : itv F.

#[local] Instance vexp : Valid_exp (fexp F) := FLT_exp_valid (emin F) (prec F).
Notation eta := (bpow radix2 (emin F)).

Lemma emax3 : (3 <= emax F)%Z.
Proof. pose proof (fmt_prec1 F). pose proof (fmt_emax F). lia. Qed.
Lemma fmt_eta : generic_format radix2 (fexp F) eta.
Proof. apply (generic_format_FLT_bpow radix2 (emin F) (prec F)), Z.le_refl. Qed.
Lemma fmt_one : generic_format radix2 (fexp F) 1.
Proof. rewrite <- (@B2R_f1 F). apply B2R_format. Qed.

Lemma rnds_unit m (r : R) f : -1 <= r <= 1 -> rnds m r f ->
  is_finite f = true /\ B2R f = round radix2 (fexp F) (round_mode m) r /\ -1 <= B2R f <= 1.
Proof.
intros Hr. unfold rnds.
assert (A : -1 <= round radix2 (fexp F) (round_mode m) r <= 1).
{ split; [apply round_ge_generic|apply round_le_generic]; auto with typeclass_instances; try lra.
  - change (-1) with (- (1)). apply generic_format_opp, fmt_one.
  - apply fmt_one. }
rewrite Rlt_bool_true.
- intros [H1 H2]. rewrite H1. easy.
- apply Rle_lt_trans with 1; [apply Rabs_le; lra|].
  change 1 with (bpow radix2 0). apply bpow_lt. pose proof emax3. lia.
Qed.

Lemma mpfr_sgn_fin f : is_finite f = true ->
  (mpfr_sgn f = 1%Z /\ 0 < B2R f) \/ (mpfr_sgn f = (-1)%Z /\ B2R f < 0) \/ (mpfr_sgn f = 0%Z /\ B2R f = 0).
Proof.
destruct f as [s| | |s m e H]; try easy; intros _; [now right; right|].
destruct s; [right; left|left]; split; try easy.
- now apply F2R_lt_0.
- now apply F2R_gt_0.
Qed.
(** What the sign of a correctly rounded number of [[-1, 1]] says about the number. *)
Definition sgn_of (s : Z) (r : R) : Prop :=
  (s = 1%Z /\ 0 < r) \/ (s = (-1)%Z /\ r < 0) \/ (s = 0%Z /\ Rabs r < eta).
Lemma sgn_rnds m (r : R) f : -1 <= r <= 1 -> rnds m r f -> sgn_of (mpfr_sgn f) r.
Proof.
intros Hr Hf. destruct (rnds_unit m r f Hr Hf) as (F1 & E & _).
pose proof (generic_format_0 radix2 (fexp F)) as G0. pose proof fmt_eta as Ge. pose proof (bpow_gt_0 radix2 (emin F)) as Hpos.
destruct (mpfr_sgn_fin f F1) as [[-> H]|[[-> H]|[-> H]]]; rewrite E in H.
- left. split; [easy|]. apply Rnot_le_lt. intros Hn.
  apply (Rlt_not_le _ _ H). now apply round_le_generic; auto with typeclass_instances.
- right; left. split; [easy|]. apply Rnot_le_lt. intros Hn.
  apply (Rlt_not_le _ _ H). now apply round_ge_generic; auto with typeclass_instances.
- right; right. split; [easy|]. apply Rnot_le_lt. intros Hn.
  assert (Hc : eta <= r \/ r <= - eta) by (unfold Rabs in Hn; destruct Rcase_abs; lra).
  destruct Hc as [Hc|Hc].
  + assert (eta <= round radix2 (fexp F) (round_mode m) r)
      by (apply round_ge_generic; auto with typeclass_instances). lra.
  + assert (round radix2 (fexp F) (round_mode m) r <= - eta)
      by (apply round_le_generic; auto using generic_format_opp with typeclass_instances). lra.
Qed.
Lemma sgn_of_neg s (r : R) : sgn_of s r -> sgn_of (- s) (- r).
Proof.
unfold sgn_of. rewrite Rabs_Ropp. intros [[-> H]|[[-> H]|[-> H]]]; [right; left|left|right; right]; split; try easy; lra.
Qed.
Lemma mpfr_sgn_neg f : is_finite f = true -> mpfr_sgn (fneg f) = (- mpfr_sgn f)%Z.
Proof. destruct f as [s| | |s m e H]; try easy; destruct s; easy. Qed.

(** Next to an extremum the value rounds to the extremum. *)
Lemma near_one (s c : R) f : s * s + c * c = 1 -> 0 <= s -> Rabs c < eta -> is_RU s f -> B2R f = 1 /\ is_finite f = true.
Proof.
intros Hsc Hs Hc Hf.
assert (Hs1 : s <= 1) by nra.
assert (E : B2R (@rround F mode_UP false s) = 1 /\ is_finite (@rround F mode_UP false s) = true).
{ destruct (rnds_unit mode_UP s (rround mode_UP false s)) as (F1 & E & _ & Hle); [lra|apply rround_rnds|].
  split; [|easy]. apply Rle_antisym; [easy|].
  pose proof (fmt_prec1 F) as P1. pose proof emax3 as E3.
  assert (Hp : pred radix2 (fexp F) 1 = 1 - bpow radix2 (- prec F)).
  { change 1 with (bpow radix2 0). rewrite pred_bpow. f_equal. f_equal.
    change (fexp F 0) with (Z.max (0 - prec F) (emin F)). unfold emin. lia. }
  assert (Hlt : pred radix2 (fexp F) 1 < s).
  { rewrite Hp. set (q := bpow radix2 (- prec F)).
    assert (Hq : 0 < q < 1). { split; [apply bpow_gt_0|]. change 1 with (bpow radix2 0). apply bpow_lt. lia. }
    assert (Hee : c * c <= q).
    { apply Rle_trans with (eta * eta).
      - assert (Ha : c * c = Rabs c * Rabs c) by (unfold Rabs; destruct Rcase_abs; lra).
        rewrite Ha. pose proof (Rabs_pos c). apply Rmult_le_compat; lra.
      - unfold q. rewrite <- bpow_plus. apply bpow_le. unfold emin. lia. }
    apply Rnot_le_lt. intros Hn. nra. }
  assert (Hr : s <= round radix2 (fexp F) (round_mode mode_UP) s) by apply round_UP_pt, vexp.
  rewrite E. rewrite <- (succ_pred_pos radix2 (fexp F) 1); [|apply fmt_one|lra].
  apply succ_le_lt; [apply vexp|..|lra].
  - apply generic_format_pred; [apply vexp|apply fmt_one].
  - apply generic_format_round; auto with typeclass_instances. }
destruct E as [E1 E2].
assert (H1 : is_RU s (@rround F mode_UP false s)) by apply rround_RU.
assert (A : ub (@rround F mode_UP false s) (B2R f) /\ is_finite f = true /\ 1 <= B2R f).
{ destruct Hf as [U1 U2]. destruct H1 as [V1 V2].
  assert (Ff : is_finite f = true).
  { specialize (U2 _ V1). destruct (fviewP f) as [ | | |f Ff]; try easy.
    specialize (U2 2 eq_refl). rewrite ub_fin in U2 by easy. lra. }
  split; [|split; [easy|]].
  - apply U2; [easy|]. rewrite ub_fin by easy. lra.
  - specialize (V2 _ U1 1). rewrite ub_fin in V2 by easy. rewrite ub_fin in V2 by easy. apply V2. lra. }
destruct A as (A1 & A2 & A3). rewrite ub_fin in A1 by easy. split; [lra|easy].
Qed.

Lemma is_RU_fneg (r : R) f : is_RD r f -> is_RU (- r) (fneg f).
Proof.
intros [H1 H2]. unfold fneg. split.
- apply ub_opp. now rewrite Ropp_involutive.
- intros u' Hu t Ht. apply ub_opp in Ht. rewrite <- (Ropp_involutive t). apply lb_opp. apply H2; [|easy].
  now apply lb_opp.
Qed.
Lemma near_mone (s c : R) f : s * s + c * c = 1 -> s <= 0 -> Rabs c < eta -> is_RD s f -> B2R f = -1 /\ is_finite f = true.
Proof.
intros H1 H2 H3 H4. destruct (near_one (- s) c (fneg f)) as [E1 E2]; [lra|lra|easy|now apply is_RU_fneg|].
rewrite B2R_fneg in E1. rewrite is_finite_fneg in E2. split; [lra|easy].
Qed.

Lemma is_RU_max (r s : R) u v : is_RU r u -> is_RU s v -> is_RU (Rmax r s) (fmax u v).
Proof.
intros [A1 A2] [B1 B2].
assert (Na : isnan u = false) by now destruct u. assert (Nb : isnan v = false) by now destruct v.
split.
- destruct (fmax_cases u v Na Nb) as [[-> E]|[-> E]]; apply Rmax_case; auto; now apply ub_fle with (1 := E).
- intros u' Hu t.
  assert (ub u' r) by (apply ub_mono with (1 := Hu); apply Rmax_l).
  assert (ub u' s) by (apply ub_mono with (1 := Hu); apply Rmax_r).
  destruct (fmax_cases u v Na Nb) as [[-> E]|[-> E]]; auto.
Qed.
Lemma is_RD_min (r s : R) u v : is_RD r u -> is_RD s v -> is_RD (Rmin r s) (fmin u v).
Proof.
intros [A1 A2] [B1 B2].
assert (Na : isnan u = false) by now destruct u. assert (Nb : isnan v = false) by now destruct v.
split.
- destruct (fmin_cases u v Na Nb) as [[-> E]|[-> E]]; apply Rmin_case; auto; now apply lb_fle with (1 := E).
- intros u' Hu t.
  assert (lb u' r) by (apply lb_mono with (1 := Hu); apply Rmin_l).
  assert (lb u' s) by (apply lb_mono with (1 := Hu); apply Rmin_r).
  destruct (fmin_cases u v Na Nb) as [[-> E]|[-> E]]; auto.
Qed.

(** The constants. *)
Lemma pi_fin : is_finite (@mpfr_const_pi F mode_DN) = true /\ 0 < B2R (@mpfr_const_pi F mode_DN) <= PI.
Proof.
pose proof (rround_RD false PI : is_RD PI (@mpfr_const_pi F mode_DN)) as [H1 H2].
assert (H3 : lb (@f1 F) PI) by (rewrite lb_fin, B2R_f1 by apply is_finite_f1; pose proof PI2_3_2; lra).
specialize (H2 _ H3).
destruct (fviewP (@mpfr_const_pi F mode_DN)) as [ | | |p Fp]; try easy.
- specialize (H2 0 eq_refl). rewrite lb_fin, B2R_f1 in H2 by apply is_finite_f1. lra.
- split; [easy|]. rewrite lb_fin in H1 by easy. split; [|easy].
  specialize (H2 (B2R p)). rewrite !lb_fin, B2R_f1 in H2 by (easy || apply is_finite_f1). lra.
Qed.
Lemma twice_fin : is_finite (@mpfr_twice F mode_DN (mpfr_const_pi mode_DN)) = true /\
  0 < B2R (@mpfr_twice F mode_DN (mpfr_const_pi mode_DN)) <= 2 * B2R (@mpfr_const_pi F mode_DN).
Proof.
destruct pi_fin as [P1 P2]. set (p := @mpfr_const_pi F mode_DN) in *.
pose proof (rround_RD (Bsign p) (2 * B2R p) : is_RD (2 * B2R p) (@mpfr_twice F mode_DN p)) as [H1 H2].
assert (H3 : lb p (2 * B2R p)) by (rewrite lb_fin by easy; lra).
specialize (H2 _ H3).
destruct (fviewP (@mpfr_twice F mode_DN p)) as [ | | |q Fp]; try easy.
- specialize (H2 0 eq_refl). rewrite lb_fin in H2 by easy. lra.
- split; [easy|]. rewrite lb_fin in H1 by easy. split; [|easy].
  specialize (H2 (B2R q)). rewrite !lb_fin in H2 by easy. lra.
Qed.
Lemma width_le l u p : is_finite l = true -> is_finite u = true -> is_finite p = true ->
  mpfr_greater (rsub mode_UP u l) p = false <-> B2R u - B2R l <= B2R p.
Proof.
intros Fl Fu Fp. destruct (rsub_RU u l Fu Fl) as [H1 H2]. unfold mpfr_greater.
set (w := rsub mode_UP u l) in *. split.
- intros H. destruct (fviewP w) as [ | | |w Fw]; try easy.
  + unfold fgt in H. destruct p; try easy.
  + rewrite ub_fin in H1 by easy. rewrite fgt_fin in H by easy. revert H. case Rlt_bool_spec; [easy|]. intros; lra.
- intros H. assert (Hp : ub p (B2R u - B2R l)) by now rewrite ub_fin.
  specialize (H2 _ Hp). destruct (fviewP w) as [ | | |w Fw]; try easy.
  + exfalso. specialize (H2 (B2R p + 1) eq_refl). rewrite ub_fin in H2 by easy. lra.
  + specialize (H2 (B2R w)). rewrite !ub_fin in H2 by easy. rewrite fgt_fin by easy. apply Rlt_bool_false. apply H2. lra.
Qed.
Lemma width_inf l u p : is_finite p = true -> (l = fminf /\ u <> fminf /\ isnan u = false) \/ (u = finf /\ l <> finf /\ isnan l = false) ->
  mpfr_greater (rsub mode_UP u l) p = true.
Proof.
intros Fp H. assert (E : rsub mode_UP u l = finf).
{ destruct H as [(-> & H1 & H2)|(-> & H1 & H2)].
  - destruct u as [|[]| |]; easy.
  - destruct l as [|[]| |]; easy. }
rewrite E. now destruct p as [|[]| |[]].
Qed.
End T.

(** ** The common text of sine and cosine *)
Section Core.
Context {F : fmt}.
Variable phi : R.
Variable ev : mode -> float F -> float F.
Let g t := sin (t + phi).
Let d t := cos (t + phi).
Hypothesis Hev : forall m a, is_finite a = true -> rnds m (g (B2R a)) (ev m a).
Variables (a b : float F) (dl du : Z).
Hypothesis (Fa : is_finite a = true) (Fb : is_finite b = true) (Hab : B2R a <= B2R b).
Hypothesis (Hl : @sgn_of F dl (d (B2R a))) (Hu : @sgn_of F du (d (B2R b))).
Let S := image1 everywhere g (a, b).
Let z := trig_core ev dl du a b.

Lemma gd t : g t * g t + d t * d t = 1.
Proof. apply sin2_cos2. Qed.
Lemma g_bound t : -1 <= g t <= 1. Proof. apply SIN_bound. Qed.
Lemma S_iff t : S t <-> exists r, B2R a <= r <= B2R b /\ t = g r.
Proof.
unfold S, image1, mem, everywhere. cbn [fst snd].
split; [intros (r & H1 & _ & ->)|intros (r & H1 & ->)]; exists r;
  rewrite lb_fin, ub_fin in *; auto.
Qed.
Lemma S_a : S (g (B2R a)). Proof. apply S_iff. exists (B2R a). split; [lra|easy]. Qed.
Lemma S_b : S (g (B2R b)). Proof. apply S_iff. exists (B2R b). split; [lra|easy]. Qed.
Lemma S_max : S (Rmax (g (B2R a)) (g (B2R b))).
Proof. apply Rmax_case; [apply S_a|apply S_b]. Qed.
Lemma S_min : S (Rmin (g (B2R a)) (g (B2R b))).
Proof. apply Rmin_case; [apply S_a|apply S_b]. Qed.

Lemma RD_tail : is_RD (Rmin (g (B2R a)) (g (B2R b))) (fmin (ev mode_DN a) (ev mode_DN b)).
Proof. apply is_RD_min; apply rnds_DN; now apply Hev. Qed.
Lemma RU_tail : is_RU (Rmax (g (B2R a)) (g (B2R b))) (fmax (ev mode_UP a) (ev mode_UP b)).
Proof. apply is_RU_max; apply rnds_UP; now apply Hev. Qed.
Lemma is_RU_1 f : is_finite f = true -> B2R f = 1 -> @is_RU F 1 f.
Proof. intros H1 H2. rewrite <- H2. now apply is_RU_self. Qed.
Lemma is_RD_m1 f : is_finite f = true -> B2R f = -1 -> @is_RD F (-1) f.
Proof. intros H1 H2. rewrite <- H2. now apply is_RD_self. Qed.
Lemma RU_tail_1 : (0 <= g (B2R a) /\ Rabs (d (B2R a)) < bpow radix2 (emin F)) \/
   (0 <= g (B2R b) /\ Rabs (d (B2R b)) < bpow radix2 (emin F)) -> is_RU 1 (fmax (ev mode_UP a) (ev mode_UP b)).
Proof.
intros H.
assert (Ra : is_RU (g (B2R a)) (ev mode_UP a)) by now apply rnds_UP, Hev.
assert (Rb : is_RU (g (B2R b)) (ev mode_UP b)) by now apply rnds_UP, Hev.
destruct (rnds_unit mode_UP _ _ (g_bound (B2R a)) (Hev mode_UP a Fa)) as (A1 & _ & A2).
destruct (rnds_unit mode_UP _ _ (g_bound (B2R b)) (Hev mode_UP b Fb)) as (B1 & _ & B2).
destruct (fmax_fin (ev mode_UP a) (ev mode_UP b) A1 B1) as [M1 M2].
apply is_RU_1; [easy|]. rewrite M2.
destruct H as [[H1 H2]|[H1 H2]].
- destruct (near_one _ _ _ (gd (B2R a)) H1 H2 Ra) as [E _]. rewrite E. apply Rmax_left. lra.
- destruct (near_one _ _ _ (gd (B2R b)) H1 H2 Rb) as [E _]. rewrite E. apply Rmax_right. lra.
Qed.
Lemma RD_tail_m1 : (g (B2R a) <= 0 /\ Rabs (d (B2R a)) < bpow radix2 (emin F)) \/
   (g (B2R b) <= 0 /\ Rabs (d (B2R b)) < bpow radix2 (emin F)) -> is_RD (-1) (fmin (ev mode_DN a) (ev mode_DN b)).
Proof.
intros H.
assert (Ra : is_RD (g (B2R a)) (ev mode_DN a)) by now apply rnds_DN, Hev.
assert (Rb : is_RD (g (B2R b)) (ev mode_DN b)) by now apply rnds_DN, Hev.
destruct (rnds_unit mode_DN _ _ (g_bound (B2R a)) (Hev mode_DN a Fa)) as (A1 & _ & A2).
destruct (rnds_unit mode_DN _ _ (g_bound (B2R b)) (Hev mode_DN b Fb)) as (B1 & _ & B2).
destruct (fmin_fin (ev mode_DN a) (ev mode_DN b) A1 B1) as [M1 M2].
apply is_RD_m1; [easy|]. rewrite M2.
destruct H as [[H1 H2]|[H1 H2]].
- destruct (near_mone _ _ _ (gd (B2R a)) H1 H2 Ra) as [E _]. rewrite E. apply Rmin_left. lra.
- destruct (near_mone _ _ _ (gd (B2R b)) H1 H2 Rb) as [E _]. rewrite E. apply Rmin_right. lra.
Qed.

(** Fall-through case: less than half a period and no detected extremum. *)
Lemma tail_tightest : B2R b - B2R a <= PI -> dl = 0%Z \/ du = 0%Z \/ dl = du ->
  tightest S (fmin (ev mode_DN a) (ev mode_DN b), fmax (ev mode_UP a) (ev mode_UP b)).
Proof.
intros Hw Hz.
assert (Pe : forall r, - bpow radix2 (emin F) < r < bpow radix2 (emin F) -> Rabs r < bpow radix2 (emin F))
  by (intros r Hr; now apply Rabs_def1).
assert (Pr : forall r, Rabs r < bpow radix2 (emin F) -> - bpow radix2 (emin F) < r < bpow radix2 (emin F))
  by (intros r Hr; apply Rabs_def2 in Hr; lra).
apply tightest_intro; [exists (g (B2R a)); apply S_a| |].
- destruct (Classical_Prop.classic (forall t, S t -> Rmin (g (B2R a)) (g (B2R b)) <= t)) as [H|H].
  { apply glow_att with (2 := H); [apply S_min|apply RD_tail]. }
  apply Classical_Pred_Type.not_all_ex_not in H. destruct H as [t Ht].
  apply Classical_Prop.imply_to_and in Ht. destruct Ht as [Ht Hlt]. apply S_iff in Ht. destruct Ht as (r & Hr & ->).
  destruct (narrow_below (B2R a + phi) (B2R b + phi) (r + phi)) as [H|(H1 & H2 & H3 & H4 & s & Hs & Es)]; [lra|lra|easy|].
  fold (g (B2R a)) (g (B2R b)) (d (B2R a)) (d (B2R b)) in *.
  apply glow_att with (-1).
  + apply S_iff. exists (s - phi). split; [lra|]. unfold g. replace (s - phi + phi) with s by lra. easy.
  + intros t Ht. apply S_iff in Ht. destruct Ht as (q & _ & ->). apply g_bound.
  + apply RD_tail_m1. unfold sgn_of in *.
    destruct Hl as [[L1 L2]|[[L1 L2]|[L1 L2]]]; [lra| |].
    * destruct Hu as [[U1 U2]|[[U1 U2]|[U1 U2]]]; [lia|lra|]. apply Pr in U2.
      destruct H4 as [H4|[H4 H5]]; [right|left]; (split; [lra|apply Pe; lra]).
    * apply Pr in L2. destruct H3 as [H3|[H3 H5]]; [left|right]; (split; [lra|apply Pe; lra]).
- destruct (Classical_Prop.classic (forall t, S t -> t <= Rmax (g (B2R a)) (g (B2R b)))) as [H|H].
  { apply gupp_att with (2 := H); [apply S_max|apply RU_tail]. }
  apply Classical_Pred_Type.not_all_ex_not in H. destruct H as [t Ht].
  apply Classical_Prop.imply_to_and in Ht. destruct Ht as [Ht Hlt]. apply S_iff in Ht. destruct Ht as (r & Hr & ->).
  destruct (narrow_above (B2R a + phi) (B2R b + phi) (r + phi)) as [H|(H1 & H2 & H3 & H4 & s & Hs & Es)]; [lra|lra|easy|].
  fold (g (B2R a)) (g (B2R b)) (d (B2R a)) (d (B2R b)) in *.
  apply gupp_att with 1.
  + apply S_iff. exists (s - phi). split; [lra|]. unfold g. replace (s - phi + phi) with s by lra. easy.
  + intros t Ht. apply S_iff in Ht. destruct Ht as (q & _ & ->). apply g_bound.
  + apply RU_tail_1. unfold sgn_of in *.
    destruct Hl as [[L1 L2]|[[L1 L2]|[L1 L2]]]; [|lra|].
    * destruct Hu as [[U1 U2]|[[U1 U2]|[U1 U2]]]; [lra|lia|]. apply Pr in U2.
      destruct H4 as [H4|[H4 H5]]; [right|left]; (split; [lra|apply Pe; lra]).
    * apply Pr in L2. destruct H3 as [H3|[H3 H5]]; [left|right]; (split; [lra|apply Pe; lra]).
Qed.

Lemma peak_tightest : B2R b - B2R a <= 2 * PI -> 0 < d (B2R a) -> d (B2R b) < 0 ->
  tightest S (fmin (ev mode_DN a) (ev mode_DN b), f1).
Proof.
intros Hw H1 H2.
apply tightest_intro; [exists (g (B2R a)); apply S_a| |].
- apply glow_att with (3 := RD_tail); [apply S_min|]. intros t Ht. apply S_iff in Ht. destruct Ht as (r & Hr & ->).
  now apply (one_peak (B2R a + phi) (B2R b + phi) (r + phi)); [lra|lra|..].
- destruct (one_peak (B2R a + phi) (B2R b + phi) (B2R a + phi)) as (_ & s & Hs & Es); [lra|lra|easy..|].
  apply gupp_att with (3 := is_RU_f1).
  + apply S_iff. exists (s - phi). split; [lra|]. unfold g. replace (s - phi + phi) with s by lra. easy.
  + intros t Ht. apply S_iff in Ht. destruct Ht as (q & _ & ->). apply g_bound.
Qed.
Lemma valley_tightest : B2R b - B2R a <= 2 * PI -> d (B2R a) < 0 -> 0 < d (B2R b) ->
  tightest S (fm1, fmax (ev mode_UP a) (ev mode_UP b)).
Proof.
intros Hw H1 H2.
apply tightest_intro; [exists (g (B2R a)); apply S_a| |].
- destruct (one_valley (B2R a + phi) (B2R b + phi) (B2R a + phi)) as (_ & s & Hs & Es); [lra|lra|easy..|].
  apply glow_att with (3 := is_RD_fm1).
  + apply S_iff. exists (s - phi). split; [lra|]. unfold g. replace (s - phi + phi) with s by lra. easy.
  + intros t Ht. apply S_iff in Ht. destruct Ht as (q & _ & ->). apply g_bound.
- apply gupp_att with (3 := RU_tail); [apply S_max|]. intros t Ht. apply S_iff in Ht. destruct Ht as (r & Hr & ->).
  now apply (one_valley (B2R a + phi) (B2R b + phi) (r + phi)); [lra|lra|..].
Qed.

(** The result is the full range, or the tightest interval; for intervals not
    wider than the rounded pi it is the tightest interval, and for intervals
    wider than two pi it is the full range, which then is the tightest. *)
Lemma core_cases :
  (z = (fm1, f1) /\ B2R (@mpfr_const_pi F mode_DN) < B2R b - B2R a) \/
  (tightest S z /\ B2R b - B2R a <= 2 * PI).
Proof.
unfold z, trig_core. destruct (@pi_fin F) as [P1 P2]. destruct (@twice_fin F) as [Q1 Q2].
set (p := mpfr_const_pi mode_DN) in *. set (p2 := mpfr_twice mode_DN p) in *.
pose proof (width_le a b p Fa Fb P1) as W1. pose proof (width_le a b p2 Fa Fb Q1) as W2.
assert (T : dl = 0%Z \/ du = 0%Z \/ dl = du ->
  let r := if mpfr_greater (rsub mode_UP b a) p then (fm1, f1)
           else (fmin (ev mode_DN a) (ev mode_DN b), fmax (ev mode_UP a) (ev mode_UP b)) in
  (r = (fm1, f1) /\ B2R p < B2R b - B2R a) \/ (tightest S r /\ B2R b - B2R a <= 2 * PI)).
{ intros Hz. cbv zeta. destruct (mpfr_greater (rsub mode_UP b a) p).
  - left. split; [easy|]. apply Rnot_le_lt. intros H. now apply W1 in H.
  - right. assert (B2R b - B2R a <= B2R p) by now apply W1. split; [|lra]. apply tail_tightest; [lra|easy]. }
cbv zeta in T |- *. case (Z.eqb_spec dl du); intros E1; cbn [negb].
- apply T. tauto.
- case (Z.eqb_spec dl 0); intros E2; [apply T; tauto|].
  case (Z.eqb_spec du 0); intros E3; [apply T; tauto|].
  destruct (mpfr_greater (rsub mode_UP b a) p2).
  + left. split; [easy|]. apply Rnot_le_lt. intros H. assert (false = true -> False) by easy.
    assert (L : B2R b - B2R a <= B2R p2 -> False) by (intros H'; now apply W2 in H').
    apply L. apply Rle_trans with (1 := H).
    assert (Hp : lb p (2 * B2R p)) by (rewrite lb_fin by easy; lra).
    pose proof (rround_RD (Bsign p) (2 * B2R p) : is_RD (2 * B2R p) p2) as [_ H2].
    specialize (H2 p Hp (B2R p2)). rewrite !lb_fin in H2 by easy. apply H2. lra.
  + assert (B2R b - B2R a <= B2R p2) by now apply W2.
    right. split; [|lra].
    destruct Hl as [[L1 L2]|[[L1 L2]|[L1 L2]]]; destruct Hu as [[U1 U2]|[[U1 U2]|[U1 U2]]]; try congruence; rewrite L1.
    * apply peak_tightest; [lra|easy..].
    * apply valley_tightest; [lra|easy..].
Qed.
End Core.

Section Main.
Context {F : fmt}.
Implicit Types x z : itv F.

Lemma core_unbounded ev dl du (a b : float F) :
  (a = fminf /\ b <> fminf /\ isnan b = false) \/ (b = finf /\ a <> finf /\ isnan a = false) ->
  dl = 0%Z \/ du = 0%Z \/ dl = du ->
  trig_core ev dl du a b = (fm1, f1).
Proof.
intros H Hz. unfold trig_core. rewrite (width_inf a b (mpfr_const_pi mode_DN)) by (apply pi_fin || easy). cbv zeta.
case (Z.eqb_spec dl du); intros E1; [easy|]. case (Z.eqb_spec dl 0); intros E2; [easy|].
case (Z.eqb_spec du 0); intros E3; [easy|]. exfalso. tauto.
Qed.

Definition trig_ok (m : M (itv F)) (g : R -> R) x : Prop :=
  exists z, returns m z /\ wf z /\ encloses (image1 everywhere g x) z /\ (forall r, mem r z -> -1 <= r <= 1) /\
    (is_finite (fst x) = true -> is_finite (snd x) = true ->
     B2R (snd x) - B2R (fst x) <= B2R (@mpfr_const_pi F mode_DN) -> tightest (image1 everywhere g x) z) /\
    (fst x = fminf \/ snd x = finf \/ (is_finite (fst x) = true /\ is_finite (snd x) = true /\ 2 * PI < B2R (snd x) - B2R (fst x)) ->
     tightest (image1 everywhere g x) z).

Lemma full_mem (r : R) : mem r ((fm1, f1) : itv F) <-> -1 <= r <= 1.
Proof. unfold mem. cbn [fst snd]. rewrite lb_fin, ub_fin by (apply is_finite_fm1 || apply is_finite_f1). rewrite B2R_f1, B2R_fm1. tauto. Qed.

Lemma full_tight (phi : R) x (a b : R) : 2 * PI <= b - a -> (forall r, a <= r <= b -> mem r x) ->
  tightest (image1 everywhere (fun t => sin (t + phi)) x) (@fm1 F, @f1 F).
Proof.
intros H Hm. destruct (full_period (a + phi) (b + phi)) as [(s & Hs & Es) (s' & Hs' & Es')]; [lra|].
assert (I1 : image1 everywhere (fun t => sin (t + phi)) x 1).
{ exists (s - phi). split; [apply Hm; lra|split; [easy|]]. rewrite <- Es. f_equal. lra. }
assert (I2 : image1 everywhere (fun t => sin (t + phi)) x (-1)).
{ exists (s' - phi). split; [apply Hm; lra|split; [easy|]]. rewrite <- Es'. f_equal. lra. }
apply tightest_intro; [now exists 1| |].
- apply glow_att with (3 := is_RD_fm1); [easy|]. intros t (r & _ & _ & ->). apply SIN_bound.
- apply gupp_att with (3 := is_RU_f1); [easy|]. intros t (r & _ & _ & ->). apply SIN_bound.
Qed.

Lemma trig_main (phi : R) (g : R -> R) (ev : mode -> float F -> float F) (m : M (itv F)) (dl du : Z) x :
  (forall t, g t = sin (t + phi)) ->
  (forall m a, is_finite a = true -> rnds m (g (B2R a)) (ev m a)) ->
  (is_finite (fst x) = true -> @sgn_of F dl (cos (B2R (fst x) + phi))) ->
  (is_finite (snd x) = true -> @sgn_of F du (cos (B2R (snd x) + phi))) ->
  (is_finite (fst x) = false -> dl = 0%Z) -> (is_finite (snd x) = false -> du = 0%Z) ->
  wf x -> isnan (fst x) = false -> returns m (trig_core ev dl du (fst x) (snd x)) -> trig_ok m g x.
Proof.
intros Hg Hev Hl Hu Hl0 Hu0 W Ex Hm. pose proof (wf_view _ W) as V.
destruct (wview_nonempty x V Ex) as [r0 Hr0].
set (z := trig_core ev dl du (fst x) (snd x)) in *.
assert (Hi : forall t, image1 everywhere g x t <-> image1 everywhere (fun t => sin (t + phi)) x t).
{ intros t; split; intros (r & H1 & H2 & ->); exists r; rewrite Hg; auto. }
assert (Bnd : encloses (image1 everywhere g x) (@fm1 F, @f1 F)).
{ intros t (r & _ & _ & ->). apply full_mem. rewrite Hg. apply SIN_bound. }
assert (Full : z = (fm1, f1) -> (forall r, mem r z -> -1 <= r <= 1) /\ wf z /\ encloses (image1 everywhere g x) z).
{ intros ->. split; [intros r; apply full_mem|]. split; [|easy]. right. exists 0. apply full_mem. lra. }
assert (Wide : z = (fm1, f1) -> (exists a b, 2 * PI <= b - a /\ forall r, a <= r <= b -> mem r x) -> tightest (image1 everywhere g x) z).
{ intros -> (a & b & H1 & H2). apply tightest_ext with (image1 everywhere (fun t => sin (t + phi)) x).
  - intros r. symmetry. apply Hi.
  - now apply full_tight with a b. }
exists z. split; [easy|].
destruct (is_finite (fst x) && is_finite (snd x)) eqn:Ef.
- apply andb_true_iff in Ef. destruct Ef as [F1 F2].
  assert (Hab : B2R (fst x) <= B2R (snd x)).
  { destruct Hr0 as [A B]. rewrite lb_fin in A by easy. rewrite ub_fin in B by easy. lra. }
  assert (Hev' : forall m a, is_finite a = true -> rnds m (sin (B2R a + phi)) (ev m a))
    by (intros; rewrite <- Hg; auto).
  destruct (core_cases phi ev Hev' (fst x) (snd x) dl du F1 F2 Hab (Hl F1) (Hu F2)) as [[E Hw]|[T Hw]]; [fold z in E|fold z in T].
  + destruct (Full E) as (A1 & A2 & A3). repeat (split; [assumption|]). split; [intros; lra|].
    intros [C|[C|(_ & _ & C)]]; [rewrite C in F1; easy|rewrite C in F2; easy|].
    apply Wide; [easy|]. exists (B2R (fst x)), (B2R (snd x)). split; [lra|].
    intros r Hr. split; [rewrite lb_fin by easy|rewrite ub_fin by easy]; lra.
  + assert (T' : tightest (image1 everywhere g x) z).
    { apply tightest_ext with (2 := T). intros r. rewrite Hi. now destruct x. }
    split; [apply T'|]. split; [apply T'|]. split; [|easy].
    intros r Hr. apply full_mem. destruct T' as (_ & _ & T'). apply (T' (fm1, f1)); [|easy..].
    right. exists 0. apply full_mem. lra.
- assert (Hinf : (fst x = fminf /\ snd x <> fminf /\ isnan (snd x) = false) \/
                 (snd x = finf /\ fst x <> finf /\ isnan (fst x) = false)).
  { destruct V; cbn [fst snd] in *; try easy.
    - left. now repeat split.
    - rewrite H in Ef. left. repeat split; [|now apply isnan_fin]. now intros ->.
    - rewrite H in Ef. right. repeat split; [|now apply isnan_fin]. now intros ->.
    - rewrite H, H0 in Ef. easy. }
  assert (E : z = (fm1, f1)).
  { apply core_unbounded; [easy|]. apply andb_false_iff in Ef. destruct Ef as [Ef|Ef]; auto. }
  destruct (Full E) as (A1 & A2 & A3). repeat (split; [assumption|]). 
  split; [intros H1 H2; now rewrite H1, H2 in Ef|]. intros _. apply Wide; [easy|].
  destruct Hinf as [(E1 & _ & _)|(E1 & _ & _)].
  + exists (r0 - 2 * PI), r0. split; [lra|]. intros r Hr. split; [now rewrite E1|].
    destruct Hr0 as [_ Hr0]. apply ub_mono with (1 := Hr0). lra.
  + exists r0, (r0 + 2 * PI). split; [lra|]. intros r Hr. split; [|now rewrite E1].
    destruct Hr0 as [Hr0 _]. apply lb_mono with (1 := Hr0). lra.
Qed.

Lemma empty_ok (m : M (itv F)) (g : R -> R) x : wf x -> isnan (fst x) = true -> returns m empty -> trig_ok m g x.
Proof.
intros W Ex Hm. apply wf_nan_l in Ex; [|easy]. subst x.
assert (T : tightest (image1 everywhere g (@empty_rep F)) (@empty F)).
{ apply tightest_empty. intros r (s & H & _). now apply (@mem_empty F s). }
exists empty. split; [easy|]. split; [apply T|]. split; [apply T|]. split; [|easy].
intros r H. now apply (@mem_empty F r) in H.
Qed.

Lemma sin_ok x : wf x -> trig_ok (sin_itv x) sin x.
Proof.
intros W. assert (Ev : exists m, sin_itv x = m) by eauto. destruct Ev as [m Em]. rewrite Em. revert Em.
unfold sin_itv. vred. destruct (isnan (fst x)) eqn:Ex; vred; intros <-.
{ now apply empty_ok. }
eapply trig_main with (phi := 0) (ev := mpfr_sin) (dl := mpfr_sgn (mpfr_cos mode_DN (fst x)))
  (du := mpfr_sgn (mpfr_cos mode_UP (snd x))); try easy.
- intros t. f_equal. lra.
- intros m a Fa. unfold mpfr_sin. rewrite Fa. apply rround_rnds.
- intros Fa. rewrite Rplus_0_r. eapply sgn_rnds; [apply COS_bound|].
  unfold mpfr_cos. rewrite Fa. apply rround_rnds.
- intros Fa. rewrite Rplus_0_r. eapply sgn_rnds; [apply COS_bound|].
  unfold mpfr_cos. rewrite Fa. apply rround_rnds.
- intros Fa. unfold mpfr_cos. now rewrite Fa.
- intros Fa. unfold mpfr_cos. now rewrite Fa.
Qed.
Lemma cos_ok x : wf x -> trig_ok (cos_itv x) cos x.
Proof.
intros W. assert (Ev : exists m, cos_itv x = m) by eauto. destruct Ev as [m Em]. rewrite Em. revert Em.
unfold cos_itv. vred. destruct (isnan (fst x)) eqn:Ex; vred; intros <-.
{ now apply empty_ok. }
assert (D : forall m a, is_finite a = true -> @sgn_of F (mpfr_sgn (fneg (@mpfr_sin F m a))) (cos (B2R a + PI / 2))).
{ intros m a Fa. replace (cos (B2R a + PI / 2)) with (- sin (B2R a)) by (rewrite sin_cos, (Rplus_comm (PI / 2)); lra).
  unfold mpfr_sin. rewrite Fa.
  assert (R : rnds m (sin (B2R a)) (@rround F m (Bsign a) (sin (B2R a)))) by apply rround_rnds.
  rewrite mpfr_sgn_neg by apply (rnds_unit _ _ _ (SIN_bound (B2R a)) R).
  apply sgn_of_neg. eapply sgn_rnds; [apply SIN_bound|exact R]. }
eapply trig_main with (phi := PI / 2) (ev := mpfr_cos) (dl := mpfr_sgn (fneg (mpfr_sin mode_DN (fst x))))
  (du := mpfr_sgn (fneg (mpfr_sin mode_UP (snd x)))); try easy.
- intros t. rewrite cos_sin. f_equal. lra.
- intros m a Fa. unfold mpfr_cos. rewrite Fa. apply rround_rnds.
- now apply D.
- now apply D.
- intros Fa. unfold mpfr_sin. now rewrite Fa.
- intros Fa. unfold mpfr_sin. now rewrite Fa.
Qed.
End Main.

(** ** Statements *)
Section Out.
Context {F : fmt}.
Implicit Types x z : itv F.
Lemma ok_encloses (m : M (itv F)) g x : trig_ok m g x ->
  exists z, returns m z /\ wf z /\ encloses (image1 everywhere g x) z /\ (forall r, mem r z -> -1 <= r <= 1).
Proof. intros (z & H1 & H2 & H3 & H4 & _). now exists z. Qed.
Lemma ok_narrow (m : M (itv F)) g x (p : float F) : trig_ok m g x -> bounded_rep x ->
  is_finite p = true -> B2R p <= PI -> B2R (snd x) - B2R (fst x) <= B2R p ->
  computes_tightest m (image1 everywhere g x).
Proof.
intros (z & H1 & H2 & H3 & H4 & H5 & _) [B1 B2] Fp Hp Hw. exists z. split; [easy|]. apply H5; try easy.
apply Rle_trans with (1 := Hw).
pose proof (rround_RD false PI : is_RD PI (@mpfr_const_pi F mode_DN)) as [_ H].
assert (L : lb p PI) by now rewrite lb_fin.
specialize (H p L (B2R (@mpfr_const_pi F mode_DN))). rewrite !lb_fin in H by (easy || apply pi_fin). apply H. lra.
Qed.
Lemma ok_wide (m : M (itv F)) g x r s : trig_ok m g x -> wf x -> mem r x -> mem s x -> 2 * PI < s - r ->
  computes_tightest m (image1 everywhere g x).
Proof.
intros (z & H1 & H2 & H3 & H4 & _ & H5) W [L1 U1] [L2 U2] Hw. exists z. split; [easy|]. apply H5.
destruct (fviewP (fst x)) as [ | | |a Fa]; try easy; [now left|].
destruct (fviewP (snd x)) as [ | | |b Fb]; try easy; [now right; left|].
right; right. rewrite !lb_fin in * by easy. rewrite !ub_fin in * by easy. repeat split; try easy. lra.
Qed.
Lemma sin_encloses x : wf x ->
  exists z, returns (sin_itv x) z /\ wf z /\ encloses (image1 everywhere sin x) z /\ (forall r, mem r z -> -1 <= r <= 1).
Proof. intros W. now apply ok_encloses, sin_ok. Qed.
Lemma cos_encloses x : wf x ->
  exists z, returns (cos_itv x) z /\ wf z /\ encloses (image1 everywhere cos x) z /\ (forall r, mem r z -> -1 <= r <= 1).
Proof. intros W. now apply ok_encloses, cos_ok. Qed.
Lemma sin_narrow x (p : float F) : wf x -> bounded_rep x ->
  is_finite p = true -> B2R p <= PI -> B2R (snd x) - B2R (fst x) <= B2R p ->
  computes_tightest (sin_itv x) (image1 everywhere sin x).
Proof. intros W B. apply ok_narrow; [now apply sin_ok|easy]. Qed.
Lemma cos_narrow x (p : float F) : wf x -> bounded_rep x ->
  is_finite p = true -> B2R p <= PI -> B2R (snd x) - B2R (fst x) <= B2R p ->
  computes_tightest (cos_itv x) (image1 everywhere cos x).
Proof. intros W B. apply ok_narrow; [now apply cos_ok|easy]. Qed.
Lemma sin_wide x r s : wf x -> mem r x -> mem s x -> 2 * PI < s - r ->
  computes_tightest (sin_itv x) (image1 everywhere sin x).
Proof. intros W. apply ok_wide; [now apply sin_ok|easy]. Qed.
Lemma cos_wide x r s : wf x -> mem r x -> mem s x -> 2 * PI < s - r ->
  computes_tightest (cos_itv x) (image1 everywhere cos x).
Proof. intros W. apply ok_wide; [now apply cos_ok|easy]. Qed.
End Out.
