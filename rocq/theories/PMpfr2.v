(** * Proofs: consequences for the model of the flavor, mid, programs *)
From Coq Require Import ZArith Reals Bool List Lia Lra Psatz.
From Flocq Require Import Core.Core IEEE754.BinarySingleNaN Calc.Operations.
From Flocq Require Mult_error.
From Verif Require Import Fmt FloatFacts SpecRound MMpfr PMpfr PConv MNum PNumF.
Local Open Scope R_scope.

Section R.
Context {F : fmt}.
#[local] Instance fexpV2 : Valid_exp (fexp F) := FLT_exp_valid (emin F) (prec F).
Lemma rnds_rounded m r (z : float F) : rnds m r z -> rounded m r z.
Proof.
unfold rnds, rounded. cbv zeta. change (FLT_exp (3 - emax F - prec F) (prec F)) with (fexp F).
case Rlt_bool_spec; intros H.
- intros [H1 H2]. split; [easy|]. intros; lra.
- intros Hz. split; [intros; lra|]. intros _. revert Hz. unfold largest. rewrite <- B2R_fmaxv. unfold binary_overflow, overflow_to_inf.
  destruct m, (Rlt_bool r 0); cbn [negb]; intros Hz; try (now apply B2SF_minf in Hz); try (now apply B2SF_pinf in Hz);
  try (now apply B2SF_minf_max in Hz); now apply B2SF_maxf in Hz.
Qed.
Lemma strict_nz (z : float F) : is_finite z = true -> B2R z <> 0 -> is_finite_strict z = true.
Proof. now destruct z. Qed.
Lemma rnds_same m r (y z : float F) : rnds m r y -> rnds m r z -> same_number y z.
Proof.
unfold rnds. case Rlt_bool_spec; intros H.
- intros [H1 H2] [H3 H4]. destruct (Req_dec (B2R y) 0) as [E|E].
  + right. repeat split; try easy. now rewrite H3, <- H1.
  + left. apply B2R_inj; [now apply strict_nz|apply strict_nz; [easy|now rewrite H3, <- H1]|now rewrite H1, H3].
- intros H1 H2. left. apply B2SF_inj. now rewrite H1, H2.
Qed.

(** Directed rounding needs no subnormalize when get<T> uses the same direction. *)
Lemma pipeline_raw_rnds m v E : m <> mode_NA -> m <> mode_NE -> @rnds F m v (fst (pipeline_raw F m v E)).
Proof.
intros Hm Hn. pose proof (@pipeline_rnds F m v E Hm) as H. revert H. unfold pipeline, pipeline_raw. cbv zeta. set (E1 := setup (var_of F) E).
destruct (mp_call E1 (prec F) m v) as [c tc]. cbn [fst]. unfold subnormalize. cbn [v_sub var_of v_prec].
destruct c as [ |s|r]; [easy|easy|].
assert (Ee : (g_emin E1 - 1)%Z = emin F) by (unfold E1, setup, var_of, emin; cbn; lia).
destruct (Req_dec r 0) as [Z0|Z0]; [now rewrite sub_skip by now left|].
destruct (Rle_or_lt (bpow radix2 (g_emin E1 + prec F - 2)) (Rabs r)) as [Q|Q]; [now rewrite sub_skip by now right|].
rewrite sub_num by easy. rewrite Ee.
replace (kfun m tc (r * bpow radix2 (- emin F))) with (round_mode m (r * bpow radix2 (- emin F))) by now destruct m.
replace (g_emin E1 + prec F - 2)%Z with (emin F + prec F - 1)%Z in Q by lia.
rewrite <- (@round_fix F m r) by lra. set (g := round radix2 (fexp F) (round_mode m) r).
assert (Hg : Rabs g < bpow radix2 (emax F)). { apply Rle_lt_trans with (bpow radix2 (emin F + prec F - 1)); [apply fix_small; lra|]. apply bpow_lt, emax_big. }
destruct (@get_exact F m g) as [G1 G2]; [apply generic_format_round; auto with typeclass_instances|easy|].
unfold rnds. case Rlt_bool_spec; intros Hb.
- intros [A B]. pose proof (@rround_rnds F m false r) as C. unfold rnds in C. fold g in C. rewrite Rlt_bool_true in C by easy.
  unfold get. rewrite <- A, G1. exact C.
- intros A. exfalso. set (z := get F m (VNum g)) in *.
  assert (L : Rabs (B2R z) < 1).
  { rewrite G1. apply Rle_lt_trans with (bpow radix2 (emin F + prec F - 1)); [apply fix_small; lra|].
    change 1 with (bpow radix2 0). apply bpow_lt. unfold emin. pose proof (fmt_prec1 F). pose proof (fmt_prec_lt_emax F). unfold Prec_lt_emax in *. lia. }
  assert (B : z = B754_infinity true \/ z = B754_infinity false \/ B2R z = - B2R (@fmaxv F) \/ B2R z = B2R (@fmaxv F)).
  { destruct (rnds_rounded m v z) as [_ R1]; [unfold rnds; now rewrite Rlt_bool_false|]. specialize (R1 Hb). revert R1. cbv zeta. unfold largest. rewrite <- B2R_fmaxv.
    destruct m, (Rlt_bool v 0); tauto. }
  pose proof (@fmaxv_ge1 F). revert G2 L. destruct B as [->|[->|[->| ->]]]; try easy; intros _.
  + rewrite Rabs_Ropp, Rabs_pos_eq; lra.
  + rewrite Rabs_pos_eq; lra.
Qed.

(** ** Exact calls *)
Lemma call_exact E p m v : (0 < p)%Z -> generic_format radix2 (FLX_exp p) v -> v = 0 \/ bpow radix2 (g_emin E - 1) <= Rabs v ->
  Rabs v < bpow radix2 (g_emax E) -> mp_call E p m v = (VNum v, Eq).
Proof.
intros Hp Hf Hl Hu. unfold mp_call, mp_round. rewrite round_generic by auto with typeclass_instances.
rewrite Rcompare_Eq by easy. unfold check_range. destruct (Req_dec v 0) as [->|Z]; [now rewrite Req_bool_true|].
rewrite Req_bool_false by easy. destruct Hl as [Hl|Hl]; [easy|]. rewrite Rlt_bool_false by easy. now rewrite Rle_bool_false.
Qed.
Lemma float_flx (a : float F) : generic_format radix2 (FLX_exp (prec F)) (B2R a).
Proof. apply generic_format_FLX_FLT with (emin F). apply generic_format_B2R. Qed.
Lemma flx_half p r : (0 < p)%Z -> generic_format radix2 (FLX_exp p) r -> generic_format radix2 (FLX_exp p) (r / 2).
Proof. intros Hp H. exact (@Mult_error.mult_bpow_exact_FLX radix2 p r (-1) H). Qed.
Lemma float_grid (a : float F) : exists k, B2R a = IZR k * bpow radix2 (emin F).
Proof.
assert (H : generic_format radix2 (FIX_exp (emin F)) (B2R a)) by (apply generic_format_FIX_FLT with (prec F); apply generic_format_B2R).
apply FIX_format_generic in H. destruct H as [f E1 E2]. exists (Fnum f). rewrite E1. unfold F2R. now rewrite E2.
Qed.
Lemma grid_big k e : k <> 0%Z -> bpow radix2 e <= Rabs (IZR k * bpow radix2 e).
Proof.
intros H. rewrite Rabs_mult, (Rabs_pos_eq (bpow radix2 e)) by apply bpow_ge_0. rewrite <- abs_IZR.
rewrite <- (Rmult_1_l (bpow radix2 e)) at 1. apply Rmult_le_compat_r; [apply bpow_ge_0|]. apply IZR_le. lia.
Qed.
(** Halves of the operands are exact in the extended range, and so is the grid of the sum. *)
Lemma mid_half_exact E (a : float F) : is_finite a = true -> mid_half (setup (ext_of F) E) (prec F) (B2R a) = VNum (B2R a / 2).
Proof.
intros Ha. unfold mid_half. rewrite call_exact; [easy|pose proof (fmt_prec1 F); lia|apply flx_half; [pose proof (fmt_prec1 F); lia|apply float_flx]| |].
- destruct (float_grid a) as [k ->]. destruct (Z.eq_dec k 0) as [->|Hk]; [left; lra|right].
  apply (grid_big k (emin F - 1)) in Hk. cbn [g_emin setup ext_of v_emin].
  replace (3 - emax F - prec F + 1 - 1 - 1)%Z with (emin F - 1)%Z by (unfold emin; lia).
  replace (IZR k * bpow radix2 (emin F) / 2) with (IZR k * bpow radix2 (emin F - 1)); [easy|].
  unfold Zminus. rewrite bpow_plus. change (bpow radix2 (- (1))) with (/ 2). field.
- cbn [g_emax setup ext_of v_emax]. pose proof (abs_B2R_lt_emax _ _ a). unfold Rdiv. rewrite Rabs_mult, (Rabs_pos_eq (/ 2)) by lra. 
  pose proof (Rabs_pos (B2R a)). lra.
Qed.
Lemma half_grid (a b : float F) : exists k, B2R a / 2 + B2R b / 2 = IZR k * bpow radix2 (emin F - 1).
Proof.
destruct (float_grid a) as [j ->]. destruct (float_grid b) as [k ->]. exists (j + k)%Z. rewrite plus_IZR.
unfold Zminus. rewrite bpow_plus. change (bpow radix2 (- (1))) with (/ 2). field.
Qed.
Lemma half_max (a b : float F) : Rabs (B2R a / 2 + B2R b / 2) <= B2R (@fmaxv F).
Proof. pose proof (abs_le_fmaxv a). pose proof (abs_le_fmaxv b). apply Rabs_le. apply Rabs_le_inv in H, H0. lra. Qed.
Lemma fmaxv_flx : generic_format radix2 (FLX_exp (prec F)) (B2R (@fmaxv F)). Proof. apply float_flx. Qed.
Lemma fmaxv_lt : B2R (@fmaxv F) < bpow radix2 (emax F).
Proof. apply Rle_lt_trans with (1 := Rle_abs _). apply abs_B2R_lt_emax. Qed.

Lemma mid_pipeline_rnds (a b : float F) E : is_finite a = true -> is_finite b = true ->
  @rnds F mode_NE ((B2R a + B2R b) / 2) (fst (mid_pipeline F (B2R a) (B2R b) E)).
Proof.
intros Ha Hb. unfold mid_pipeline. cbv zeta. rewrite !mid_half_exact by easy. cbn [num].
replace ((B2R a + B2R b) / 2) with (B2R a / 2 + B2R b / 2) by lra. set (v := B2R a / 2 + B2R b / 2).
set (E1 := setup (ext_of F) E). set (E2 := setup (var_of F) E1).
pose proof (half_max a b) as Hm. fold v in Hm. destruct (half_grid a b) as [k Hk]. fold v in Hk.
pose proof (fmt_prec1 F) as Hp. pose proof fmaxv_lt as Hx. pose proof (@emax_big F) as He.
assert (Ee : (g_emin E1 - 1)%Z = (emin F - 1)%Z) by (unfold E1, setup, ext_of, emin; cbn; lia).
assert (Ef : (g_emin E2 - 1)%Z = emin F) by (unfold E2, setup, var_of, emin; cbn; lia).
assert (Eg : (g_emin E2 - 2)%Z = (emin F - 1)%Z) by lia.
assert (X1 : g_emax E1 = emax F) by easy. assert (X2 : g_emax E2 = emax F) by easy.
destruct (Rle_or_lt (Rabs v) (bpow radix2 (emin F + prec F - 1))) as [Hs|Hs].
- rewrite call_exact; [ |lia| | |].
  2:{ assert (G : generic_format radix2 (FLX_exp (prec F)) v); [|exact G]. rewrite Hk.
      assert (Hkp : (Z.abs k <= 2 ^ prec F)%Z).
      { apply le_IZR. rewrite abs_IZR. change 2%Z with (radix_val radix2). rewrite IZR_Zpower by lia.
        apply Rmult_le_reg_r with (bpow radix2 (emin F - 1)); [apply bpow_gt_0|]. rewrite <- bpow_plus.
        rewrite <- (Rabs_pos_eq (bpow radix2 (emin F - 1))) at 1 by apply bpow_ge_0. rewrite <- Rabs_mult, <- Hk.
        replace (prec F + (emin F - 1))%Z with (emin F + prec F - 1)%Z by lia. easy. }
      apply (@Mult_error.mult_bpow_exact_FLX radix2 (prec F) (IZR k) (emin F - 1)).
      destruct (Z.eq_dec (Z.abs k) (2 ^ prec F)) as [Q|Q].
      - assert (G : generic_format radix2 (FLX_exp (prec F)) (bpow radix2 (prec F))) by (apply generic_format_FLX_1 || (apply generic_format_bpow; unfold FLX_exp; lia)).
        assert (R1 : Rabs (IZR k) = bpow radix2 (prec F)) by (rewrite <- abs_IZR, Q; change 2%Z with (radix_val radix2); apply IZR_Zpower; lia).
        apply generic_format_abs_inv. now rewrite R1.
      - apply generic_format_FLX. exists (Defs.Float radix2 k 0); [unfold F2R; simpl; ring|]. cbn [Fnum]. change (radix_val radix2) with 2%Z. lia. }
  2:{ rewrite Ee, Hk. destruct (Z.eq_dec k 0) as [->|Z]; [left; lra|right]. now apply grid_big. }
  2:{ rewrite X1. lra. }
  unfold recheck, check_range. rewrite Ef, Eg, X2. unfold subnormalize. cbn [v_sub ext_of].
  case Req_bool_spec; intros Z0.
  { cbn [fst get]. rewrite Z0. apply rround_rnds. }
  case Rlt_bool_spec; intros Z1.
  + assert (Hv : Rabs v = bpow radix2 (emin F - 1)).
    { assert (Hk1 : (Z.abs k = 1)%Z).
      { assert (L : (Z.abs k < 2)%Z).
        { apply lt_IZR. rewrite abs_IZR. apply Rmult_lt_reg_r with (bpow radix2 (emin F - 1)); [apply bpow_gt_0|].
          rewrite <- (Rabs_pos_eq (bpow radix2 (emin F - 1))) at 1 by apply bpow_ge_0. rewrite <- Rabs_mult, <- Hk.
          replace (2 * bpow radix2 (emin F - 1)) with (bpow radix2 (emin F)); [easy|].
          unfold Zminus; rewrite bpow_plus; change (bpow radix2 (- (1))) with (/ 2). field. }
        assert (k <> 0%Z) by (intros ->; apply Z0; rewrite Hk; ring). lia. }
      rewrite Hk, Rabs_mult, (Rabs_pos_eq (bpow radix2 _)) by apply bpow_ge_0. rewrite <- abs_IZR, Hk1. ring. }
    rewrite Hv, Rlt_bool_false by lra. rewrite Req_bool_true by easy.
    replace (if Rlt_bool v 0 then tern_le Eq else tern_ge Eq) with true by now case Rlt_bool.
    cbn [orb andb fst get].
    destruct (@get_exact F mode_NE 0) as [G1 G2]; [apply generic_format_0|rewrite Rabs_R0; apply bpow_gt_0|].
    apply rnds_val; [apply generic_format_B2R|easy|]. unfold get in G1. rewrite G1. rewrite round_fix by easy.
    change (round_mode mode_NE) with ZnearestE. rewrite (ZnE_0 E); [lra|].
    assert (Q : Rabs (v * bpow radix2 (- emin F)) = / 2).
    { rewrite Rabs_mult, Hv, (Rabs_pos_eq (bpow radix2 _)), <- bpow_plus by apply bpow_ge_0.
      replace (emin F - 1 + - emin F)%Z with (-1)%Z by lia. reflexivity. }
    apply Rabs_le_inv. lra.
  + rewrite Rle_bool_false by lra. cbn [fst get]. apply rround_rnds.
- set (y := round radix2 (FLX_exp (prec F)) (round_mode mode_NE) v).
  assert (Hy : y = round radix2 (fexp F) (round_mode mode_NE) v).
  { change (fexp F) with (FLT_exp (emin F) (prec F)). unfold y. symmetry. apply round_FLT_FLX. lra. }
  assert (Hb1 : bpow radix2 (emin F + prec F - 1) <= Rabs y).
  { rewrite Hy. apply abs_round_ge_generic; auto with typeclass_instances; [|lra]. apply generic_format_bpow.
    unfold fexp, SpecFloat.fexp, SpecFloat.emin, emin. lia. }
  assert (Hb2 : Rabs y < bpow radix2 (emax F)).
  { apply Rle_lt_trans with (2 := Hx). rewrite Hy. apply abs_round_le_generic; auto with typeclass_instances. apply generic_format_B2R. }
  assert (Hn : y <> 0). { intros Z0. rewrite Z0, Rabs_R0 in Hb1. pose proof (bpow_gt_0 radix2 (emin F + prec F - 1)). lra. }
  assert (Hc : forall E' t, (g_emin E' - 1 <= emin F + prec F - 1)%Z -> g_emax E' = emax F -> check_range E' (prec F) mode_NE y t = (VNum y, t)).
  { intros E' t L1 L2. unfold check_range. rewrite Req_bool_false by easy. rewrite Rlt_bool_false.
    - rewrite L2, Rle_bool_false by easy. easy.
    - apply Rle_trans with (2 := Hb1). now apply bpow_le. }
  unfold mp_call, mp_round. fold y. rewrite Hc by (easy || lia). unfold recheck. rewrite Hc by (easy || lia).
  unfold subnormalize. cbn [v_sub ext_of fst].
  destruct (@get_exact F mode_NE y) as [G1 G2]; [rewrite Hy; apply generic_format_round; auto with typeclass_instances|easy|].
  apply rnds_val; [apply generic_format_B2R|easy|]. now rewrite G1.
Qed.
End R.

(** ** Mixed mid *)
Lemma mid_mixed_rnds {F G : fmt} (a b : float G) E : comparable F G -> is_finite a = true -> is_finite b = true ->
  @rnds F mode_NE ((B2R a + B2R b) / 2) (fst (mid_pipeline_mixed F G (B2R a) (B2R b) E)).
Proof.
intros HC Ha Hb.
replace (fst (mid_pipeline_mixed F G (B2R a) (B2R b) E)) with (fst (pipeline F mode_NE ((B2R a + B2R b) / 2) (setup (ext_of G) E))); [now apply pipeline_rnds|].
unfold mid_pipeline_mixed, pipeline. cbv zeta. rewrite !mid_half_exact by easy. cbn [num].
replace ((B2R a + B2R b) / 2) with (B2R a / 2 + B2R b / 2) by lra. 
pose proof (half_max a b) as Hm. destruct (half_grid a b) as [k Hk]. set (v := B2R a / 2 + B2R b / 2) in *.
set (E1 := setup (ext_of G) E). set (E2 := setup (var_of F) E1).
pose proof (fmt_prec1 F) as Hp. pose proof (@fmaxv_lt G) as Hx.
assert (Ee : (g_emin E1 - 1)%Z = (emin G - 1)%Z) by (unfold E1, setup, ext_of, emin; cbn; lia).
unfold mp_call, mp_round. set (y := round radix2 (FLX_exp (prec F)) (round_mode mode_NE) v). set (t := Rcompare y v).
assert (P0 : Prec_gt_0 (prec F)) by (unfold Prec_gt_0; lia).
assert (R1 : recheck E2 (prec F) mode_NE (fst (check_range E1 (prec F) mode_NE y t)) (snd (check_range E1 (prec F) mode_NE y t)) =
  check_range E2 (prec F) mode_NE y t).
2:{ destruct (check_range E1 (prec F) mode_NE y t). cbn [fst snd] in R1. rewrite R1. now destruct check_range. }
unfold check_range at 1 2. case Req_bool_spec; intros Z0.
{ cbn [fst snd]; unfold recheck, check_range; now rewrite !Req_bool_true. }
rewrite Rlt_bool_false.
2:{ rewrite Ee. apply abs_round_ge_generic; auto with typeclass_instances.
    - apply generic_format_bpow. unfold FLX_exp. lia.
    - rewrite Hk. apply grid_big. intros ->. apply Z0. unfold y. rewrite Hk, Rmult_0_l. apply round_0; auto with typeclass_instances. }
case Rle_bool_spec; intros Ho; [|easy].
assert (HE : (emax F <= emax G)%Z).
{ destruct HC as [->|[[_ H]|[H _]]]; [lia|easy|]. exfalso.
  change (g_emax E1) with (emax G) in Ho.
  assert (Rabs y <= B2R (@fmaxv G)); [|lra]. apply abs_round_le_generic; auto with typeclass_instances.
  apply generic_inclusion_mag with (FLX_exp (prec G)); [|apply float_flx]. intros _. unfold FLX_exp. lia. }
assert (Rle1 : bpow radix2 (emax F) <= Rabs y) by (apply Rle_trans with (2 := Ho); now apply bpow_le).
change (overflow_to_inf mode_NE (Rlt_bool y 0)) with true. cbn [fst snd recheck]. unfold check_range.
rewrite Req_bool_false by easy. rewrite (Rlt_bool_false (Rabs y) (bpow radix2 (g_emin E2 - 1))).
- change (g_emax E2) with (emax F). rewrite Rle_bool_true by exact Rle1. change (overflow_to_inf mode_NE (Rlt_bool y 0)) with true. destruct (Rlt_bool y 0); reflexivity.
- apply Rle_trans with (2 := Rle1). apply bpow_le. change (g_emin E2) with (3 - emax F - prec F + 1)%Z. pose proof (fmt_emax F). unfold Z.sub; lia.
Qed.

Lemma half_sum_rnds {F} G (a b : float F) : is_finite a = true -> is_finite b = true ->
  @rnds G mode_NE ((B2R a + B2R b) / 2) (half_sum G a b).
Proof.
intros Fa Fb. unfold half_sum. set (s := Fplus (exact a) (exact b)).
assert (E : F2R (Defs.Float radix2 (Defs.Fnum s) (Defs.Fexp s - 1)) = (B2R a + B2R b) / 2).
{ rewrite <- (exact_F2R a), <- (exact_F2R b), <- F2R_plus by easy. fold s.
  unfold F2R; simpl Defs.Fnum; simpl Defs.Fexp. unfold Zminus. rewrite bpow_plus.
  change (bpow radix2 (- (1))) with (/ 2). field. }
pose proof (binary_normalize_correct (prec G) (emax G) _ _ mode_NE (Defs.Fnum s) (Defs.Fexp s - 1) false) as H.
cbv zeta in H. rewrite E in H. unfold rnds. fold (fexp G) in H. revert H. case Rlt_bool; tauto.
Qed.

(** ** Programs *)
Definition good_call (c : call) : Prop := c_mode c <> mode_NA.
Lemma calls_rnds l : forall E, Forall good_call l ->
  Forall2 (fun c (z : {F : fmt & float F}) => exists y : float (c_fmt c), z = existT _ (c_fmt c) y /\ rnds (c_mode c) (c_val c) y) l (fst (calls l E)).
Proof.
induction l as [|c l IH]; intros E H; cbn [calls].
- constructor.
- destruct (pipeline (c_fmt c) (c_mode c) (c_val c) E) as [z E1] eqn:Ep. specialize (IH E1). destruct (calls l E1) as [zs E2].
  cbn [fst] in *. inversion H as [|? ? H1 H2]; subst. constructor; [|now apply IH].
  exists z. split; [easy|]. change z with (fst (z, E1)). rewrite <- Ep. now apply pipeline_rnds.
Qed.

(** ** Statements with [rounded] *)
Lemma pipeline_rounded F m v E : m <> mode_NA -> @rounded F m v (fst (pipeline F m v E)).
Proof. intros. now apply rnds_rounded, pipeline_rnds. Qed.
Lemma pipeline_raw_rounded F m v E : m <> mode_NA -> m <> mode_NE -> @rounded F m v (fst (pipeline_raw F m v E)).
Proof. intros. now apply rnds_rounded, pipeline_raw_rnds. Qed.
Lemma mid_rounded F (a b : float F) E : is_finite a = true -> is_finite b = true ->
  @rounded F mode_NE ((B2R a + B2R b) / 2) (fst (mid_pipeline F (B2R a) (B2R b) E)).
Proof. intros. now apply rnds_rounded, mid_pipeline_rnds. Qed.
Lemma mid_mixed_rounded F G (a b : float G) E : comparable F G -> is_finite a = true -> is_finite b = true ->
  @rounded F mode_NE ((B2R a + B2R b) / 2) (fst (mid_pipeline_mixed F G (B2R a) (B2R b) E)).
Proof. intros. now apply rnds_rounded, mid_mixed_rnds. Qed.
Lemma calls_rounded l E : (forall c, In c l -> c_mode c <> mode_NA) ->
  Forall2 (fun c (z : {F : fmt & float F}) => exists y : float (c_fmt c), z = existT _ (c_fmt c) y /\ rounded (c_mode c) (c_val c) y) l (fst (calls l E)).
Proof.
intros H. assert (G : Forall good_call l) by (apply Forall_forall; exact H).
induction (calls_rnds l E G) as [|c z l' zs [y [E1 H1]] H2 IH]; constructor.
- exists y. split; [easy|]. now apply rnds_rounded.
- apply IH; [intros; apply H; now right|]. now inversion G.
Qed.
Lemma pipeline_indep F m v l E E' : fst (pipeline F m v (snd (calls l E))) = fst (pipeline F m v E').
Proof. reflexivity. Qed.

Section Same.
Context {F : fmt} (m : mode).
Implicit Types a b c : float F.
Lemma add_pipeline a b E : m <> mode_NA -> is_finite a = true -> is_finite b = true ->
  same_number (radd m a b) (fst (pipeline F m (B2R a + B2R b) E)).
Proof. intros. apply rnds_same with m (B2R a + B2R b); [now apply radd_rnds|now apply pipeline_rnds]. Qed.
Lemma sub_pipeline a b E : m <> mode_NA -> is_finite a = true -> is_finite b = true ->
  same_number (rsub m a b) (fst (pipeline F m (B2R a - B2R b) E)).
Proof. intros. apply rnds_same with m (B2R a - B2R b); [now apply rsub_rnds|now apply pipeline_rnds]. Qed.
Lemma mul_pipeline a b E : m <> mode_NA -> is_finite a = true -> is_finite b = true ->
  same_number (rmul m a b) (fst (pipeline F m (B2R a * B2R b) E)).
Proof. intros. apply rnds_same with m (B2R a * B2R b); [now apply rmul_rnds|now apply pipeline_rnds]. Qed.
Lemma div_pipeline a b E : m <> mode_NA -> is_finite a = true -> is_finite b = true -> B2R b <> 0 ->
  same_number (rdiv m a b) (fst (pipeline F m (B2R a / B2R b) E)).
Proof. intros. apply rnds_same with m (B2R a / B2R b); [now apply rdiv_rnds|now apply pipeline_rnds]. Qed.
Lemma fma_pipeline a b c E : m <> mode_NA -> is_finite a = true -> is_finite b = true -> is_finite c = true ->
  same_number (rfma m a b c) (fst (pipeline F m (B2R a * B2R b + B2R c) E)).
Proof. intros. apply rnds_same with m (B2R a * B2R b + B2R c); [now apply rfma_rnds|now apply pipeline_rnds]. Qed.
Lemma sqrt_pipeline a E : m <> mode_NA -> is_finite a = true -> 0 <= B2R a ->
  same_number (rsqrt m a) (fst (pipeline F m (sqrt (B2R a)) E)).
Proof. intros. apply rnds_same with m (sqrt (B2R a)); [now apply rsqrt_rnds|now apply pipeline_rnds]. Qed.
Lemma rround_pipeline sz r E : m <> mode_NA -> same_number (rround m sz r) (fst (pipeline F m r E)).
Proof. intros. apply rnds_same with m r; [now apply rround_rnds|now apply pipeline_rnds]. Qed.
End Same.
Lemma half_sum_pipeline {F} (a b : float F) E : is_finite a = true -> is_finite b = true ->
  same_number (half_sum F a b) (fst (mid_pipeline F (B2R a) (B2R b) E)).
Proof. intros. apply rnds_same with mode_NE ((B2R a + B2R b) / 2); [now apply half_sum_rnds|now apply mid_pipeline_rnds]. Qed.
Lemma half_sum_mixed_pipeline {F G} (a b : float G) E : comparable F G -> is_finite a = true -> is_finite b = true ->
  same_number (half_sum F a b) (fst (mid_pipeline_mixed F G (B2R a) (B2R b) E)).
Proof. intros. apply rnds_same with mode_NE ((B2R a + B2R b) / 2); [now apply half_sum_rnds|now apply mid_mixed_rnds]. Qed.

(** ** Double rounding without subnormalize *)
Lemma raw_double_rounding {F : fmt} E : let v := bpow radix2 (emin F) * (3 / 2 - bpow radix2 (- prec F - 1)) in
  ~ @rounded F mode_NE v (fst (pipeline_raw F mode_NE v E)).
Proof.
intros v [H _]. pose proof (fmt_prec1 F) as Hp. pose proof (@emax_big F) as He. pose proof (bpow_gt_0 radix2 (emin F)) as Hu.
assert (V : Valid_exp (fexp F)) by apply (FLT_exp_valid (emin F) (prec F)).
assert (P0 : Prec_gt_0 (prec F)) by (unfold Prec_gt_0; lia).
set (d := bpow radix2 (- prec F - 1)) in *.
assert (Hd : 0 < d <= / 8). { split; [apply bpow_gt_0|]. change (/ 8) with (bpow radix2 (-3)). apply bpow_le. lia. }
assert (Hv : Rabs v <= bpow radix2 (emin F + prec F - 1)).
{ rewrite Rabs_pos_eq by (unfold v; apply Rmult_le_pos; lra). unfold v.
  replace (emin F + prec F - 1)%Z with (emin F + (prec F - 1))%Z by lia. rewrite bpow_plus.
  apply Rmult_le_compat_l; [lra|]. apply Rle_trans with 2; [lra|]. change 2 with (bpow radix2 1). apply bpow_le. lia. }
assert (R1 : round radix2 (fexp F) (round_mode mode_NE) v = bpow radix2 (emin F)).
{ rewrite round_fix by easy. replace (v * bpow radix2 (- emin F)) with (3 / 2 - d).
  - change (round_mode mode_NE) with ZnearestE. rewrite (nearest_lo _ 1); [lra|]. lra.
  - unfold v. rewrite Rmult_assoc, (Rmult_comm _ (bpow radix2 (- emin F))), <- Rmult_assoc, <- bpow_plus.
    replace (emin F + - emin F)%Z with 0%Z by lia. simpl (bpow radix2 0). ring. }
change (FLT_exp (3 - emax F - prec F) (prec F)) with (fexp F) in H. rewrite R1 in H.
destruct H as [_ H]. { rewrite Rabs_pos_eq by lra. apply bpow_lt. lia. }
revert H. unfold pipeline_raw, mp_call, mp_round. cbv zeta.
assert (Y : round radix2 (FLX_exp (prec F)) (round_mode mode_NE) v = 3 / 2 * bpow radix2 (emin F)).
{ assert (Hm : mag radix2 v = (emin F + 1)%Z :> Z).
  { apply mag_unique. rewrite Rabs_pos_eq by (unfold v; apply Rmult_le_pos; lra).
    replace (emin F + 1 - 1)%Z with (emin F) by lia. rewrite bpow_plus. change (bpow radix2 1) with 2. unfold v. split.
    - rewrite <- (Rmult_1_r (bpow radix2 (emin F))) at 1. apply Rmult_le_compat_l; lra.
    - apply Rmult_lt_compat_l; lra. }
  unfold round, scaled_mantissa, F2R, cexp; cbn [Fnum Fexp]. rewrite Hm. unfold FLX_exp.
  change (round_mode mode_NE) with ZnearestE.
  assert (Ew : v * bpow radix2 (- (emin F + 1 - prec F)) = IZR (3 * 2 ^ (prec F - 2)) - / 4).
  { unfold v. replace (- (emin F + 1 - prec F))%Z with (- emin F + (prec F - 1))%Z by lia. rewrite bpow_plus.
    replace (bpow radix2 (emin F) * (3 / 2 - d) * (bpow radix2 (- emin F) * bpow radix2 (prec F - 1))) with
      ((bpow radix2 (emin F) * bpow radix2 (- emin F)) * (3 / 2 * bpow radix2 (prec F - 1) - d * bpow radix2 (prec F - 1))) by ring.
    rewrite <- bpow_plus. replace (emin F + - emin F)%Z with 0%Z by lia. unfold d. rewrite <- bpow_plus.
    replace (- prec F - 1 + (prec F - 1))%Z with (-2)%Z by lia. change (bpow radix2 (-2)) with (/ 4). change (bpow radix2 0) with 1.
    rewrite mult_IZR. change 2%Z with (radix_val radix2) at 2. rewrite IZR_Zpower by lia.
    replace (prec F - 1)%Z with (prec F - 2 + 1)%Z by lia. rewrite bpow_plus. change (bpow radix2 1) with 2. field. }
  rewrite Ew. rewrite (nearest_hi _ (3 * 2 ^ (prec F - 2) - 1)).
  - replace (3 * 2 ^ (prec F - 2) - 1 + 1)%Z with (3 * 2 ^ (prec F - 2))%Z by lia. rewrite mult_IZR. change 2%Z with (radix_val radix2) at 1. rewrite IZR_Zpower by lia.
    rewrite Rmult_assoc, <- bpow_plus. replace (prec F - 2 + (emin F + 1 - prec F))%Z with (emin F + -1)%Z by lia. rewrite bpow_plus.
    change (bpow radix2 (-1)) with (/ 2). lra.
  - rewrite minus_IZR. lra. }
rewrite Y. unfold check_range. set (y := 3 / 2 * bpow radix2 (emin F)). assert (Hy : 0 < y) by (unfold y; lra).
assert (Ay : Rabs y = y) by (apply Rabs_pos_eq; lra).
set (E1 := setup (var_of F) E).
assert (Ef : (g_emin E1 - 1)%Z = emin F) by (unfold E1, setup, var_of, emin; cbn; lia).
rewrite Req_bool_false by lra. rewrite Ay, Ef. rewrite Rlt_bool_false by (unfold y; lra). change (g_emax E1) with (emax F).
assert (By : y <= bpow radix2 (emin F + prec F - 1)).
{ replace (emin F + prec F - 1)%Z with (emin F + (prec F - 1))%Z by lia. rewrite bpow_plus. unfold y. rewrite Rmult_comm.
  apply Rmult_le_compat_l; [lra|]. apply Rle_trans with 2; [lra|]. change 2 with (bpow radix2 1). apply bpow_le. lia. }
assert (Ly : y < bpow radix2 (emax F)) by (apply Rle_lt_trans with (1 := By); now apply bpow_lt).
rewrite Rle_bool_false by easy. cbn [fst get].
assert (R2 : round radix2 (fexp F) (round_mode mode_NE) y = 2 * bpow radix2 (emin F)).
{ rewrite round_fix by (now rewrite Ay). replace (y * bpow radix2 (- emin F)) with (3 / 2).
  - change (round_mode mode_NE) with ZnearestE. replace (ZnearestE (3 / 2)) with 2%Z; [easy|]. symmetry.
    unfold Znearest. replace (Zfloor (3 / 2)) with 1%Z by (symmetry; apply Zfloor_imp; rewrite plus_IZR; lra).
    rewrite Rcompare_Eq by lra. cbn. apply Zceil_imp. cbn [Z.sub]. split; simpl; lra.
  - unfold y. rewrite Rmult_assoc, <- bpow_plus. replace (emin F + - emin F)%Z with 0%Z by lia. simpl (bpow radix2 0). ring. }
pose proof (@rround_rnds F mode_NE false y) as G. unfold rnds in G. rewrite R2 in G. rewrite Rlt_bool_true in G.
- intros H. rewrite (proj1 G) in H. lra.
- rewrite Rabs_pos_eq by lra. apply Rle_lt_trans with (bpow radix2 (emin F + prec F - 1)); [|now apply bpow_lt].
  replace (emin F + prec F - 1)%Z with (emin F + (prec F - 1))%Z by lia. rewrite bpow_plus, Rmult_comm.
  apply Rmult_le_compat_l; [lra|]. change 2 with (bpow radix2 1). apply bpow_le. lia.
Qed.

Import ListNotations.
Lemma tiny_rounds (z : float binary32) m : rnds m (bpow radix2 (-200)) z -> m = mode_UP \/ m = mode_DN ->
  B2R z = match m with mode_UP => bpow radix2 (-149) | _ => 0 end.
Proof.
intros H Hm. apply rnds_rounded in H. destruct H as [H _]. cbv zeta in H. change (FLT_exp (3 - emax binary32 - prec binary32) (prec binary32)) with (fexp binary32) in H.
assert (B : bpow radix2 (-200) < bpow radix2 (-149)) by (apply bpow_lt; lia). pose proof (bpow_gt_0 radix2 (-200)) as P.
assert (C : bpow radix2 (-200) * bpow radix2 149 = bpow radix2 (-51)) by (rewrite <- bpow_plus; easy).
assert (D : 0 < bpow radix2 (-51) < 1) by (split; [apply bpow_gt_0|change 1 with (bpow radix2 0); apply bpow_lt; lia]).
assert (R1 : round radix2 (fexp binary32) (round_mode m) (bpow radix2 (-200)) = match m with mode_UP => bpow radix2 (-149) | _ => 0 end).
{ rewrite round_fix. 2:{ rewrite Rabs_pos_eq by lra. apply bpow_le. easy. }
  change (- emin binary32)%Z with 149%Z. rewrite C. destruct Hm as [-> | ->]; cbn [round_mode].
  - rewrite (Zceil_imp 1); [rewrite Rmult_1_l; easy|]. simpl Z.sub. lra.
  - rewrite (Zfloor_imp 0); [ring|]. simpl Z.add. lra. }
rewrite R1 in H. apply H. destruct Hm as [-> | ->].
- rewrite Rabs_pos_eq by lra. apply bpow_lt. easy.
- rewrite Rabs_R0. apply bpow_gt_0.
Qed.
Lemma example_tiny E :
  exists y z w, fst (calls [Call binary64 mode_NE 3; Call binary32 mode_UP (bpow radix2 (-200)); Call binary32 mode_DN (bpow radix2 (-200))] E) =
    [existT _ binary64 y; existT _ binary32 z; existT _ binary32 w] /\ B2R z = bpow radix2 (-149) /\ B2R w = 0.
Proof.
unfold calls, c_fmt, c_mode, c_val.
pose proof (fun E => @pipeline_rnds binary32 mode_UP (bpow radix2 (-200)) E) as H1.
pose proof (fun E => @pipeline_rnds binary32 mode_DN (bpow radix2 (-200)) E) as H2.
destruct (pipeline binary64 mode_NE 3 E) as [y E1]. specialize (H1 E1).
destruct (pipeline binary32 mode_UP (bpow radix2 (-200)) E1) as [z E2]. specialize (H2 E2).
destruct (pipeline binary32 mode_DN (bpow radix2 (-200)) E2) as [w E3].
exists y, z, w. split; [reflexivity|]. split.
- apply (tiny_rounds _ mode_UP); [now apply H1|now left].
- apply (tiny_rounds _ mode_DN); [now apply H2|now right].
Qed.
