(** * Facts about floating-point numbers, comparisons and directed rounding *)

From Coq Require Import ZArith Reals Bool Lia Lra.
From Flocq Require Import Core.Core IEEE754.BinarySingleNaN.
From Verif Require Import Fmt Spec.

Local Open Scope R_scope.

Section Facts.
Context {F : fmt}.
Implicit Types x y z l u : float F.

#[local] Instance fexpF_valid : Valid_exp (fexp F) := FLT_exp_valid (emin F) (prec F).
#[local] Instance fexpF_mono : Monotone_exp (fexp F) := FLT_exp_monotone (emin F) (prec F).

(** ** A four-way view of floats *)
Inductive fview : float F -> Prop :=
| V_nan : fview fnan
| V_minf : fview fminf
| V_pinf : fview finf
| V_fin x : is_finite x = true -> fview x.

Lemma fviewP x : fview x.
Proof.
destruct x as [s|[]| |s m e H]; try (constructor; fail).
now apply V_fin. now apply V_fin.
Qed.

Lemma is_finite_f0 : is_finite (@f0 F) = true. Proof. reflexivity. Qed.
Lemma is_finite_fm0 : is_finite (@fm0 F) = true. Proof. reflexivity. Qed.
Lemma is_finite_f1 : is_finite (@f1 F) = true. Proof. apply is_finite_Bone. Qed.
Lemma is_finite_fm1 : is_finite (@fm1 F) = true.
Proof. unfold fm1. rewrite is_finite_Bopp. apply is_finite_Bone. Qed.
Lemma is_finite_fmaxv : is_finite (@fmaxv F) = true. Proof. reflexivity. Qed.
Lemma B2R_f0 : B2R (@f0 F) = 0. Proof. reflexivity. Qed.
Lemma B2R_fm0 : B2R (@fm0 F) = 0. Proof. reflexivity. Qed.
Lemma B2R_f1 : B2R (@f1 F) = 1. Proof. apply Bone_correct. Qed.
Lemma B2R_fm1 : B2R (@fm1 F) = -1.
Proof. unfold fm1. rewrite B2R_Bopp, Bone_correct. lra. Qed.

(** ** Comparisons *)
Lemma fle_fin x y : is_finite x = true -> is_finite y = true ->
  fle x y = Rle_bool (B2R x) (B2R y).
Proof. apply Bleb_correct. Qed.
Lemma flt_fin x y : is_finite x = true -> is_finite y = true ->
  flt x y = Rlt_bool (B2R x) (B2R y).
Proof. apply Bltb_correct. Qed.
Lemma feq_fin x y : is_finite x = true -> is_finite y = true ->
  feq x y = Req_bool (B2R x) (B2R y).
Proof. apply Beqb_correct. Qed.

Lemma fge_fin x y : is_finite x = true -> is_finite y = true ->
  fge x y = Rle_bool (B2R y) (B2R x).
Proof. intros; now apply Bleb_correct. Qed.
Lemma fgt_fin x y : is_finite x = true -> is_finite y = true ->
  fgt x y = Rlt_bool (B2R y) (B2R x).
Proof. intros; now apply Bltb_correct. Qed.
Lemma fne_fin x y : is_finite x = true -> is_finite y = true ->
  fne x y = negb (Req_bool (B2R x) (B2R y)).
Proof. intros; unfold fne; f_equal; now apply Beqb_correct. Qed.

Lemma fle_nan_l y : fle fnan y = false. Proof. reflexivity. Qed.
Lemma fle_nan_r x : fle x fnan = false. Proof. now destruct x as [|[]| |[]]. Qed.
Lemma flt_nan_l y : flt fnan y = false. Proof. reflexivity. Qed.
Lemma flt_nan_r x : flt x fnan = false. Proof. now destruct x as [|[]| |[]]. Qed.
Lemma feq_nan_l y : feq fnan y = false. Proof. reflexivity. Qed.
Lemma feq_nan_r x : feq x fnan = false. Proof. now destruct x as [|[]| |[]]. Qed.

Lemma fle_minf_l y : isnan y = false -> fle fminf y = true.
Proof. now destruct y as [|[]| |[]]. Qed.
Lemma fle_pinf_r x : isnan x = false -> fle x finf = true.
Proof. now destruct x as [|[]| |[]]. Qed.
Lemma fle_pinf_l y : is_finite y = true -> fle finf y = false.
Proof. now destruct y as [|[]| |[]]. Qed.
Lemma fle_minf_r x : is_finite x = true -> fle x fminf = false.
Proof. now destruct x as [|[]| |[]]. Qed.
Lemma flt_minf_l y : is_finite y = true -> flt fminf y = true.
Proof. now destruct y as [|[]| |[]]. Qed.
Lemma flt_pinf_r x : is_finite x = true -> flt x finf = true.
Proof. now destruct x as [|[]| |[]]. Qed.
Lemma flt_pinf_l y : flt finf y = false.
Proof. now destruct y as [|[]| |[]]. Qed.
Lemma flt_minf_r x : flt x fminf = false.
Proof. now destruct x as [|[]| |[]]. Qed.
Lemma feq_minf_l y : is_finite y = true -> feq fminf y = false.
Proof. now destruct y as [|[]| |[]]. Qed.
Lemma feq_minf_r y : is_finite y = true -> feq y fminf = false.
Proof. now destruct y as [|[]| |[]]. Qed.
Lemma feq_pinf_l y : is_finite y = true -> feq finf y = false.
Proof. now destruct y as [|[]| |[]]. Qed.
Lemma feq_pinf_r y : is_finite y = true -> feq y finf = false.
Proof. now destruct y as [|[]| |[]]. Qed.

Lemma isnan_fin x : is_finite x = true -> isnan x = false.
Proof. now destruct x. Qed.
Lemma isinf_fin x : is_finite x = true -> isinf x = false.
Proof. now destruct x. Qed.

(** ** Bounds *)
Lemma lb_fin l r : is_finite l = true -> lb l r = (B2R l <= r).
Proof. now destruct l. Qed.
Lemma ub_fin u r : is_finite u = true -> ub u r = (r <= B2R u).
Proof. now destruct u. Qed.

Lemma lb_mono l r s : lb l r -> r <= s -> lb l s.
Proof. destruct l as [ | | | ]; simpl; intros; auto; try lra. Qed.
Lemma ub_mono u r s : ub u r -> s <= r -> ub u s.
Proof. destruct u as [ | | | ]; simpl; intros; auto; try lra. Qed.

Lemma lb_opp l r : lb (Bopp l) r <-> ub l (- r).
Proof.
destruct (fviewP l) as [ | | |l Hl]; simpl; try tauto.
- split; discriminate.
- rewrite lb_fin by now rewrite is_finite_Bopp.
  rewrite ub_fin by easy. rewrite B2R_Bopp. split; lra.
Qed.
Lemma ub_opp l r : ub (Bopp l) r <-> lb l (- r).
Proof.
destruct (fviewP l) as [ | | |l Hl]; simpl; try tauto.
- split; discriminate.
- rewrite ub_fin by now rewrite is_finite_Bopp.
  rewrite lb_fin by easy. rewrite B2R_Bopp. split; lra.
Qed.

Lemma lbmem (x : itv F) r : mem r x -> lb (fst x) r. Proof. now intros []. Qed.
Lemma ubmem (x : itv F) r : mem r x -> ub (snd x) r. Proof. now intros []. Qed.

(** ** Directed rounding *)
Definition is_RD (r : R) (l : float F) : Prop :=
  lb l r /\ forall l', lb l' r -> forall t, lb l t -> lb l' t.
Definition is_RU (r : R) (u : float F) : Prop :=
  ub u r /\ forall u', ub u' r -> forall t, ub u t -> ub u' t.

(** [rnds m r f]: [f] is [r] correctly rounded in direction [m]. *)
Definition rnds (m : mode) (r : R) (f : float F) : Prop :=
  if Rlt_bool (Rabs (round radix2 (fexp F) (round_mode m) r)) (bpow radix2 (emax F))
  then B2R f = round radix2 (fexp F) (round_mode m) r /\ is_finite f = true
  else B2SF f = binary_overflow (prec F) (emax F) m (Rlt_bool r 0).

Lemma B2SF_pinf x : B2SF x = SpecFloat.S754_infinity false -> x = finf.
Proof. destruct x as [|[]| |]; simpl; intros H; try discriminate; easy. Qed.
Lemma B2SF_minf x : B2SF x = SpecFloat.S754_infinity true -> x = fminf.
Proof. destruct x as [|[]| |]; simpl; intros H; try discriminate; easy. Qed.

Lemma B2R_fmaxv : B2R (@fmaxv F) = bpow radix2 (emax F) - bpow radix2 (emax F - prec F).
Proof.
unfold fmaxv, Bmax_float. rewrite B2R_SF2B. simpl.
unfold F2R; simpl.
pose proof (fmt_prec_gt_0 F) as Hp. unfold Prec_gt_0 in Hp.
pose proof (fmt_prec1 F).
replace (Zpos (shift_pos (Z.to_pos (prec F)) 1 - 1)) with (2 ^ prec F - 1)%Z.
2:{ rewrite Pos2Z.inj_sub.
    - rewrite shift_pos_correct, Z.pow_pos_fold, Z2Pos.id by easy. lia.
    - change (Z.pos 1 < Z.pos (shift_pos (Z.to_pos (prec F)) 1))%Z.
      rewrite shift_pos_correct, Z.pow_pos_fold, Z2Pos.id by easy.
      rewrite Z.mul_1_r. now apply (Zpower_gt_1 radix2). }
rewrite minus_IZR.
change 2%Z with (radix_val radix2). rewrite IZR_Zpower by lia.
rewrite Rmult_minus_distr_r, <- bpow_plus, Rmult_1_l.
f_equal. f_equal. lia.
Qed.

Lemma abs_le_fmaxv x : Rabs (B2R x) <= B2R (@fmaxv F).
Proof. rewrite B2R_fmaxv. apply abs_B2R_le_emax_minus_prec. apply fmt_prec_gt_0. Qed.
Lemma fmaxv_lt : B2R (@fmaxv F) < bpow radix2 (emax F).
Proof. rewrite B2R_fmaxv. pose proof (bpow_gt_0 radix2 (emax F - prec F)). lra. Qed.
Lemma fmaxv_ge1 : 1 <= B2R (@fmaxv F).
Proof.
rewrite <- B2R_f1 at 1. apply Rle_trans with (2 := abs_le_fmaxv f1). apply Rle_abs.
Qed.

Lemma B2SF_maxf x : B2SF x = SpecFloat.S754_finite false (Z.to_pos (Zpower 2 (prec F) - 1)) (emax F - prec F) ->
  is_finite x = true /\ B2R x = B2R (@fmaxv F).
Proof.
rewrite B2R_fmaxv.
destruct x as [s|s| |s m e H]; simpl; intros E; try discriminate.
injection E as -> -> ->. split; [easy|].
unfold F2R; simpl.
pose proof (fmt_prec_gt_0 F) as Hp. unfold Prec_gt_0 in Hp.
pose proof (fmt_prec1 F).
rewrite Z2Pos.id.
2:{ apply Zlt_succ_pred. now apply (Zpower_gt_1 radix2). }
change (Z.pow_pos 2) with (fun p => Z.pow 2 (Zpos p)).
rewrite minus_IZR. change 2%Z with (radix_val radix2). rewrite IZR_Zpower by lia.
rewrite Rmult_minus_distr_r, <- bpow_plus, Rmult_1_l.
f_equal. f_equal. lia.
Qed.
Lemma B2SF_minf_max x : B2SF x = SpecFloat.S754_finite true (Z.to_pos (Zpower 2 (prec F) - 1)) (emax F - prec F) ->
  is_finite x = true /\ B2R x = - B2R (@fmaxv F).
Proof.
intros E.
destruct (B2SF_maxf (Bopp x)) as [H1 H2].
- destruct x; simpl in *; try discriminate. now injection E as -> -> ->.
- rewrite is_finite_Bopp in H1. rewrite B2R_Bopp in H2. split; [easy|lra].
Qed.

Lemma B2R_format x : generic_format radix2 (fexp F) (B2R x).
Proof. apply generic_format_B2R. Qed.

Lemma rnds_DN r f : rnds mode_DN r f -> is_RD r f.
Proof.
unfold rnds. simpl round_mode.
case Rlt_bool_spec; intros Hb.
- intros [Hr Hf].
  assert (Hle : B2R f <= r) by (rewrite Hr; apply round_DN_pt; apply fexpF_valid).
  split; [now rewrite lb_fin|].
  intros l' H' t. rewrite lb_fin by easy. intros Ht.
  destruct (fviewP l') as [ | | |l' Hl']; simpl in H'; try easy.
  rewrite lb_fin in * by easy.
  apply Rle_trans with (2 := Ht). rewrite Hr.
  apply round_DN_pt; [apply fexpF_valid|apply B2R_format|easy].
- unfold binary_overflow, overflow_to_inf.
  case Rlt_bool_spec; intros Hs; intros E.
  + apply B2SF_minf in E. subst f. split; [easy|].
    intros l' H' t _.
    destruct (fviewP l') as [ | | |l' Hl']; simpl in H'; try easy.
    rewrite lb_fin in * by easy. exfalso.
    assert (round radix2 (fexp F) Zfloor r <= 0).
    { apply round_le_generic; auto with typeclass_instances. apply generic_format_0. lra. }
    rewrite Rabs_left1 in Hb by easy.
    assert (B2R l' <= round radix2 (fexp F) Zfloor r).
    { apply round_DN_pt; [apply fexpF_valid|apply B2R_format|easy]. }
    pose proof (abs_B2R_lt_emax (prec F) (emax F) l') as Hx.
    rewrite Rabs_left1 in Hx by lra. lra.
  + apply B2SF_maxf in E. destruct E as [Hf Hr].
    assert (H0 : 0 <= round radix2 (fexp F) Zfloor r).
    { apply round_ge_generic; auto with typeclass_instances. apply generic_format_0. }
    rewrite Rabs_pos_eq in Hb by easy.
    assert (round radix2 (fexp F) Zfloor r <= r) by (apply round_DN_pt; apply fexpF_valid).
    pose proof fmaxv_lt.
    split; [rewrite lb_fin by easy; lra|].
    intros l' H' t. rewrite lb_fin by easy. intros Ht.
    destruct (fviewP l') as [ | | |l' Hl']; simpl in H'; try easy.
    rewrite lb_fin in * by easy.
    pose proof (abs_le_fmaxv l'). pose proof (Rle_abs (B2R l')). lra.
Qed.

Lemma rnds_UP r f : rnds mode_UP r f -> is_RU r f.
Proof.
unfold rnds. simpl round_mode.
case Rlt_bool_spec; intros Hb.
- intros [Hr Hf].
  assert (Hle : r <= B2R f) by (rewrite Hr; apply round_UP_pt; apply fexpF_valid).
  split; [now rewrite ub_fin|].
  intros l' H' t. rewrite ub_fin by easy. intros Ht.
  destruct (fviewP l') as [ | | |l' Hl']; simpl in H'; try easy.
  rewrite ub_fin in * by easy.
  apply Rle_trans with (1 := Ht). rewrite Hr.
  apply round_UP_pt; [apply fexpF_valid|apply B2R_format|easy].
- unfold binary_overflow, overflow_to_inf.
  case Rlt_bool_spec; intros Hs; intros E.
  + apply B2SF_minf_max in E. destruct E as [Hf Hr].
    assert (H0 : round radix2 (fexp F) Zceil r <= 0).
    { apply round_le_generic; auto with typeclass_instances. apply generic_format_0. lra. }
    rewrite Rabs_left1 in Hb by easy.
    assert (r <= round radix2 (fexp F) Zceil r) by (apply round_UP_pt; apply fexpF_valid).
    pose proof fmaxv_lt.
    split; [rewrite ub_fin by easy; lra|].
    intros l' H' t. rewrite ub_fin by easy. intros Ht.
    destruct (fviewP l') as [ | | |l' Hl']; simpl in H'; try easy.
    rewrite ub_fin in * by easy.
    pose proof (abs_le_fmaxv l'). pose proof (Rle_abs (- B2R l')). rewrite Rabs_Ropp in *. lra.
  + apply B2SF_pinf in E. subst f. split; [easy|].
    intros l' H' t _.
    destruct (fviewP l') as [ | | |l' Hl']; simpl in H'; try easy.
    rewrite ub_fin in * by easy. exfalso.
    assert (0 <= round radix2 (fexp F) Zceil r).
    { apply round_ge_generic; auto with typeclass_instances. apply generic_format_0. }
    rewrite Rabs_pos_eq in Hb by easy.
    assert (round radix2 (fexp F) Zceil r <= B2R l').
    { apply round_UP_pt; [apply fexpF_valid|apply B2R_format|easy]. }
    pose proof (abs_B2R_lt_emax (prec F) (emax F) l') as Hx.
    rewrite Rabs_pos_eq in Hx by lra. lra.
Qed.

(** ** The operations are correctly rounded *)
Lemma round_sign_nz m r : bpow radix2 (emax F) <= Rabs (round radix2 (fexp F) (round_mode m) r) -> r <> 0.
Proof.
intros H ->. rewrite round_0 in H by auto with typeclass_instances.
rewrite Rabs_R0 in H. pose proof (bpow_gt_0 radix2 (emax F)). lra.
Qed.

Lemma Bsign_neg x : is_finite x = true -> B2R x < 0 -> Bsign x = true.
Proof.
destruct x as [s|s| |[] m e H]; simpl; try easy; intros _ Hr; try lra.
exfalso. pose proof (F2R_gt_0 radix2 (Float radix2 (Zpos m) e) eq_refl). lra.
Qed.
Lemma Bsign_pos x : is_finite x = true -> 0 < B2R x -> Bsign x = false.
Proof.
destruct x as [s|s| |[] m e H]; simpl; try easy; intros _ Hr; try lra.
exfalso. pose proof (F2R_lt_0 radix2 (Float radix2 (Zneg m) e) eq_refl). lra.
Qed.
Lemma Bsign_true_le x : is_finite x = true -> Bsign x = true -> B2R x <= 0.
Proof.
destruct x as [s|s| |[] m e H]; simpl; try easy; intros _ Hr; try lra.
left. exact (F2R_lt_0 radix2 (Float radix2 (Zneg m) e) eq_refl).
Qed.
Lemma Bsign_false_ge x : is_finite x = true -> Bsign x = false -> 0 <= B2R x.
Proof.
destruct x as [s|s| |[] m e H]; simpl; try easy; intros _ Hr; try lra.
left. exact (F2R_gt_0 radix2 (Float radix2 (Zpos m) e) eq_refl).
Qed.

Lemma radd_rnds m x y : is_finite x = true -> is_finite y = true ->
  rnds m (B2R x + B2R y) (radd m x y).
Proof.
intros Hx Hy. generalize (Bplus_correct _ _ _ _ m x y Hx Hy). unfold rnds.
fold (fexp F). case Rlt_bool_spec; intros Hb.
- now intros [H1 [H2 _]].
- intros [H1 H2]. unfold radd. rewrite H1. f_equal.
  pose proof (round_sign_nz _ _ Hb) as Hnz.
  destruct (Bsign x) eqn:Ex.
  + apply Bsign_true_le in Ex; [|easy]. symmetry in H2. apply Bsign_true_le in H2; [|easy].
    symmetry; apply Rlt_bool_true; lra.
  + apply Bsign_false_ge in Ex; [|easy]. symmetry in H2. apply Bsign_false_ge in H2; [|easy].
    symmetry; apply Rlt_bool_false; lra.
Qed.

Lemma rsub_rnds m x y : is_finite x = true -> is_finite y = true ->
  rnds m (B2R x - B2R y) (rsub m x y).
Proof.
intros Hx Hy. generalize (Bminus_correct _ _ _ _ m x y Hx Hy). unfold rnds.
fold (fexp F). case Rlt_bool_spec; intros Hb.
- now intros [H1 [H2 _]].
- intros [H1 H2]. unfold rsub. rewrite H1. f_equal.
  pose proof (round_sign_nz _ _ Hb) as Hnz.
  destruct (Bsign x) eqn:Ex.
  + apply Bsign_true_le in Ex; [|easy].
    assert (Bsign y = false) as H3 by now destruct (Bsign y).
    apply Bsign_false_ge in H3; [|easy].
    symmetry; apply Rlt_bool_true; lra.
  + apply Bsign_false_ge in Ex; [|easy].
    assert (Bsign y = true) as H3 by now destruct (Bsign y).
    apply Bsign_true_le in H3; [|easy].
    symmetry; apply Rlt_bool_false; lra.
Qed.

Lemma sign_mul x y : is_finite x = true -> is_finite y = true -> B2R x * B2R y <> 0 ->
  xorb (Bsign x) (Bsign y) = Rlt_bool (B2R x * B2R y) 0.
Proof.
intros Hx Hy Hnz.
assert (B2R x <> 0) by (intros E; rewrite E in Hnz; lra).
assert (B2R y <> 0) by (intros E; rewrite E in Hnz; lra).
destruct (Rlt_or_le (B2R x) 0) as [Ex|Ex]; destruct (Rlt_or_le (B2R y) 0) as [Ey|Ey].
- rewrite (Bsign_neg x), (Bsign_neg y) by easy. simpl. symmetry; apply Rlt_bool_false. nra.
- rewrite (Bsign_neg x), (Bsign_pos y) by (easy || lra). simpl. symmetry; apply Rlt_bool_true. nra.
- rewrite (Bsign_pos x), (Bsign_neg y) by (easy || lra). simpl. symmetry; apply Rlt_bool_true. nra.
- rewrite (Bsign_pos x), (Bsign_pos y) by (easy || lra). simpl. symmetry; apply Rlt_bool_false. nra.
Qed.

Lemma rmul_rnds m x y : is_finite x = true -> is_finite y = true ->
  rnds m (B2R x * B2R y) (rmul m x y).
Proof.
intros Hx Hy. generalize (Bmult_correct _ _ _ _ m x y). unfold rnds.
fold (fexp F). case Rlt_bool_spec; intros Hb.
- rewrite Hx, Hy. now intros [H1 [H2 _]].
- intros H1. unfold rmul. rewrite H1. f_equal.
  apply sign_mul; try easy. now apply round_sign_nz in Hb.
Qed.

Lemma rdiv_rnds m x y : is_finite x = true -> is_finite y = true -> B2R y <> 0 ->
  rnds m (B2R x / B2R y) (rdiv m x y).
Proof.
intros Hx Hy Hyz. generalize (Bdiv_correct _ _ _ _ m x y Hyz). unfold rnds.
fold (fexp F). case Rlt_bool_spec; intros Hb.
- rewrite Hx. now intros [H1 [H2 _]].
- intros H1. unfold rdiv. rewrite H1. f_equal.
  apply round_sign_nz in Hb.
  assert (B2R x <> 0) by (intros E; rewrite E in Hb; unfold Rdiv in Hb; lra).
  rewrite sign_mul by (try easy; now apply Rmult_integral_contrapositive).
  assert (HH : B2R x * B2R y = B2R x / B2R y * (B2R y * B2R y)) by now field.
  assert (0 < B2R y * B2R y) by nra.
  destruct (Rlt_or_le (B2R x / B2R y) 0) as [E|E].
  + rewrite !Rlt_bool_true; try easy. rewrite HH. nra.
  + rewrite !Rlt_bool_false; try easy. rewrite HH. nra.
Qed.

Lemma rfma_rnds m x y z : is_finite x = true -> is_finite y = true -> is_finite z = true ->
  rnds m (B2R x * B2R y + B2R z) (rfma m x y z).
Proof.
intros Hx Hy Hz. generalize (Bfma_correct _ _ _ _ m x y z Hx Hy Hz). unfold rnds.
fold (fexp F). cbv zeta. case Rlt_bool_spec; intros Hb.
- now intros [H1 [H2 _]].
- intros H1. unfold rfma. now rewrite H1.
Qed.

Lemma B2R_bound x : Rabs (B2R x) < bpow radix2 (emax F).
Proof. apply abs_B2R_lt_emax. Qed.

Lemma rsqrt_rnds m x : is_finite x = true -> 0 <= B2R x ->
  rnds m (sqrt (B2R x)) (rsqrt m x).
Proof.
intros Hx H0. destruct (Bsqrt_correct _ _ _ _ m x) as [H1 [H2 _]].
assert (is_finite (Bsqrt m x) = true) as H3.
{ rewrite H2. destruct x as [| | |[] mm e H]; try easy.
  exfalso. pose proof (F2R_lt_0 radix2 (Float radix2 (Zneg mm) e) eq_refl). simpl in *. lra. }
unfold rnds. rewrite Rlt_bool_true; [easy|].
fold (fexp F) in H1. rewrite <- H1. apply B2R_bound.
Qed.

Lemma B2SF_fmaxv : B2SF (@fmaxv F) =
  SpecFloat.S754_finite false (Z.to_pos (Zpower 2 (prec F) - 1)) (emax F - prec F).
Proof.
unfold fmaxv, Bmax_float. rewrite B2SF_SF2B.
f_equal. apply Pos2Z.inj. rewrite Pos2Z.inj_sub, shift_pos_correct, Z.pow_pos_fold.
- rewrite !Z2Pos.id; [ring| | apply fmt_prec_gt_0].
  apply Zlt_succ_pred, (Zpower_gt_1 radix2), fmt_prec_gt_0.
- change (Z.pos 1 < Z.pos (shift_pos (Z.to_pos (prec F)) 1))%Z.
  rewrite shift_pos_correct, Z.pow_pos_fold, Z2Pos.id by apply fmt_prec_gt_0.
  rewrite Z.mul_1_r. apply (Zpower_gt_1 radix2), fmt_prec_gt_0.
Qed.
Lemma B2SF_Bopp_pos x m e : B2SF x = SpecFloat.S754_finite false m e ->
  B2SF (Bopp x) = SpecFloat.S754_finite true m e.
Proof. destruct x; simpl; intros E; try discriminate. now injection E as -> -> ->. Qed.

Lemma rround_rnds m sz r : rnds m r (rround m sz r).
Proof.
unfold rnds, rround.
set (rr := round radix2 (fexp F) (round_mode m) r).
case Rlt_bool_spec; intros Hb.
- pose proof (binary_normalize_correct (prec F) (emax F) _ _ mode_NE
    (Ztrunc (scaled_mantissa radix2 (fexp F) rr)) (cexp radix2 (fexp F) rr)
    (if Req_bool r 0 then sz else Rlt_bool r 0)) as H.
  cbv zeta in H.
  assert (Hg : generic_format radix2 (fexp F) rr) by (apply generic_format_round; auto with typeclass_instances).
  assert (E : F2R (Float radix2 (Ztrunc (scaled_mantissa radix2 (fexp F) rr)) (cexp radix2 (fexp F) rr)) = rr)
    by (symmetry; exact Hg).
  rewrite E in H. fold (fexp F) in H.
  rewrite round_generic in H; [|auto with typeclass_instances|easy].
  rewrite Rlt_bool_true in H by easy. easy.
- unfold binary_overflow. case Rlt_bool_spec; intros Hs.
  + destruct (overflow_to_inf m true); [easy|].
    apply B2SF_Bopp_pos, B2SF_fmaxv.
  + destruct (overflow_to_inf m false); [easy|]. apply B2SF_fmaxv.
Qed.

Lemma is_RD_self x : is_finite x = true -> is_RD (B2R x) x.
Proof.
intros H. split; [now rewrite lb_fin; [right|]|].
intros l' H' t Ht. rewrite lb_fin in Ht by easy. now apply lb_mono with (1 := H').
Qed.
Lemma is_RU_self x : is_finite x = true -> is_RU (B2R x) x.
Proof.
intros H. split; [now rewrite ub_fin; [right|]|].
intros l' H' t Ht. rewrite ub_fin in Ht by easy. now apply ub_mono with (1 := H').
Qed.

(** ** Greatest lower / least upper bounds of sets of reals *)
Definition glow (S : R -> Prop) (l : float F) : Prop :=
  (forall r, S r -> lb l r) /\
  forall l', (forall r, S r -> lb l' r) -> forall t, lb l t -> lb l' t.
Definition gupp (S : R -> Prop) (u : float F) : Prop :=
  (forall r, S r -> ub u r) /\
  forall u', (forall r, S r -> ub u' r) -> forall t, ub u t -> ub u' t.

Definition glbR (S : R -> Prop) (g : R) : Prop :=
  (forall r, S r -> g <= r) /\ forall b, (forall r, S r -> b <= r) -> b <= g.
Definition lubR (S : R -> Prop) (g : R) : Prop :=
  (forall r, S r -> r <= g) /\ forall b, (forall r, S r -> r <= b) -> g <= b.
Definition unb_below (S : R -> Prop) := forall b, exists r, S r /\ r < b.
Definition unb_above (S : R -> Prop) := forall b, exists r, S r /\ b < r.

Lemma glbR_min (S : R -> Prop) g : S g -> (forall r, S r -> g <= r) -> glbR S g.
Proof. intros H1 H2; split; auto. Qed.
Lemma lubR_max (S : R -> Prop) g : S g -> (forall r, S r -> r <= g) -> lubR S g.
Proof. intros H1 H2; split; auto. Qed.

Lemma glbR_eps (S : R -> Prop) g : (forall r, S r -> g <= r) ->
  (forall e, 0 < e -> exists r, S r /\ r < g + e) -> glbR S g.
Proof.
intros H1 H2; split; [easy|]. intros b Hb. apply Rnot_lt_le. intros Hlt.
destruct (H2 (b - g)) as (r & Hr & Hr'); [lra|]. specialize (Hb r Hr). lra.
Qed.
Lemma lubR_eps (S : R -> Prop) g : (forall r, S r -> r <= g) ->
  (forall e, 0 < e -> exists r, S r /\ g - e < r) -> lubR S g.
Proof.
intros H1 H2; split; [easy|]. intros b Hb. apply Rnot_lt_le. intros Hlt.
destruct (H2 (g - b)) as (r & Hr & Hr'); [lra|]. specialize (Hb r Hr). lra.
Qed.

Lemma glow_glb S g l : glbR S g -> is_RD g l -> glow S l.
Proof.
intros [H1 H2] [H3 H4]. split.
- intros r Hr. apply lb_mono with (1 := H3). auto.
- intros l' Hl' t Ht. apply H4; [|easy].
  destruct (fviewP l') as [ | | |l' Hf]; simpl; try easy.
  + assert (g + 1 <= g) by (apply H2; intros r Hr; elim (Hl' _ Hr)). lra.
  + assert (g + 1 <= g) by (apply H2; intros r Hr; specialize (Hl' _ Hr); simpl in Hl'; easy). lra.
  + rewrite lb_fin by easy. apply H2. intros r Hr. specialize (Hl' _ Hr). now rewrite lb_fin in Hl'.
Qed.
Lemma gupp_lub S g u : lubR S g -> is_RU g u -> gupp S u.
Proof.
intros [H1 H2] [H3 H4]. split.
- intros r Hr. apply ub_mono with (1 := H3). auto.
- intros l' Hl' t Ht. apply H4; [|easy].
  destruct (fviewP l') as [ | | |l' Hf]; simpl; try easy.
  + assert (g <= g - 1) by (apply H2; intros r Hr; elim (Hl' _ Hr)). lra.
  + assert (g <= g - 1) by (apply H2; intros r Hr; specialize (Hl' _ Hr); simpl in Hl'; easy). lra.
  + rewrite ub_fin by easy. apply H2. intros r Hr. specialize (Hl' _ Hr). now rewrite ub_fin in Hl'.
Qed.
Lemma glow_unb S : unb_below S -> glow S fminf.
Proof.
intros H. split; [easy|].
intros l' Hl' t _.
destruct (fviewP l') as [ | | |l' Hf]; simpl; try easy.
- destruct (H 0) as [r [Hr _]]. elim (Hl' _ Hr).
- destruct (H 0) as [r [Hr _]]. now specialize (Hl' _ Hr).
- destruct (H (B2R l')) as [r [Hr1 Hr2]]. specialize (Hl' _ Hr1).
  rewrite lb_fin in Hl' by easy. lra.
Qed.
Lemma gupp_unb S : unb_above S -> gupp S finf.
Proof.
intros H. split; [easy|].
intros l' Hl' t _.
destruct (fviewP l') as [ | | |l' Hf]; simpl; try easy.
- destruct (H 0) as [r [Hr _]]. elim (Hl' _ Hr).
- destruct (H 0) as [r [Hr _]]. now specialize (Hl' _ Hr).
- destruct (H (B2R l')) as [r [Hr1 Hr2]]. specialize (Hl' _ Hr1).
  rewrite ub_fin in Hl' by easy. lra.
Qed.

Lemma tightest_intro (S : R -> Prop) l u :
  (exists r, S r) -> glow S l -> gupp S u -> tightest S (l, u).
Proof.
intros [r Hr] [Hl1 Hl2] [Hu1 Hu2].
split; [|split].
- right. exists r. split; simpl; auto.
- intros t Ht. split; simpl; auto.
- intros [l' u'] Hw He t [Ht1 Ht2]. simpl in *. split; simpl.
  + apply Hl2; [|easy]. intros s Hs. now destruct (He s Hs).
  + apply Hu2; [|easy]. intros s Hs. now destruct (He s Hs).
Qed.

Lemma tightest_empty (S : R -> Prop) : (forall r, ~ S r) -> tightest S (@empty_rep F).
Proof.
intros H. split; [|split].
- now left.
- intros r Hr. now elim (H r).
- intros z _ _ r [Hr _]. easy.
Qed.

Lemma tightest_ext (S S' : R -> Prop) (z : itv F) :
  (forall r, S r <-> S' r) -> tightest S z -> tightest S' z.
Proof.
intros H [H1 [H2 H3]]. split; [easy|split].
- intros r Hr. apply H2. now apply H.
- intros z' Hz' He. apply H3; [easy|]. intros r Hr. apply He. now apply H.
Qed.

Lemma glow_ext (S S' : R -> Prop) l : (forall r, S r <-> S' r) -> glow S l -> glow S' l.
Proof.
intros H [H1 H2]. split.
- intros r Hr; apply H1; now apply H.
- intros l' Hl'. apply H2. intros r Hr. apply Hl'. now apply H.
Qed.
Lemma gupp_ext (S S' : R -> Prop) l : (forall r, S r <-> S' r) -> gupp S l -> gupp S' l.
Proof.
intros H [H1 H2]. split.
- intros r Hr; apply H1; now apply H.
- intros l' Hl'. apply H2. intros r Hr. apply Hl'. now apply H.
Qed.

(** The tightest interval is unique as a set. *)
Lemma tightest_unique S (z z' : itv F) : tightest S z -> tightest S z' -> same_set z z'.
Proof.
intros [H1 [H2 H3]] [H1' [H2' H3']] r. split; intros Hr.
- now apply (H3 z').
- now apply (H3' z).
Qed.

End Facts.
