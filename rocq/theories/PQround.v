(** * The computed rounding of a rational number is the correct one *)
From Coq Require Import ZArith NArith Reals Bool Lra Lia.
From Flocq Require Import Core.Core IEEE754.BinarySingleNaN Calc.Div Calc.Bracket.
From Verif Require Import Fmt Spec FloatFacts MRead.
Local Open Scope Z_scope.

Section Q.
Context {F : fmt}.
#[local] Instance vexp : Valid_exp (fexp F) := fexp_correct (prec F) (emax F) _.

Lemma of_sf_valid z : SpecFloat.valid_binary (prec F) (emax F) z = true -> B2SF (@of_sf F z) = z.
Proof.
intros V. destruct z as [s|s| |s m e]; try easy. unfold of_sf.
set (y := B754_finite s m e V : float F).
assert (E : binary_normalize (prec F) (emax F) _ _ mode_NE (cond_Zopp s (Zpos m)) e s = y); [|now rewrite E].
pose proof (binary_normalize_correct (prec F) (emax F) _ _ mode_NE (cond_Zopp s (Zpos m)) e s) as H.
cbv zeta in H.
assert (B : F2R (Defs.Float radix2 (cond_Zopp s (Zpos m)) e) = B2R y) by reflexivity.
rewrite B in H. rewrite round_generic in H; [|auto with typeclass_instances|apply (generic_format_B2R (prec F) (emax F) y)].
rewrite Rlt_bool_true in H by apply abs_B2R_lt_emax.
destruct H as (H1 & H2 & H3). apply B2R_Bsign_inj; try easy.
rewrite H3. destruct (Rcompare_spec (B2R y) 0) as [L|L|L].
- now rewrite (Bsign_neg y).
- exfalso. revert L. unfold y. cbn [B2R]. destruct s; [apply Rlt_not_eq|apply Rgt_not_eq]; [now apply F2R_lt_0|now apply F2R_gt_0].
- rewrite (Bsign_pos y); easy.
Qed.

Lemma rround_sign m r : r <> 0%R -> is_finite (@rround F m false r) = true -> Bsign (@rround F m false r) = Rlt_bool r 0.
Proof.
intros Hr. unfold rround.
set (rr := round radix2 (fexp F) (round_mode m) r).
case Rlt_bool_spec; intros Hb.
2:{ assert (Fm : Bsign (@fmaxv F) = false) by (pose proof (@B2SF_fmaxv F) as E; destruct (@fmaxv F); cbn in *; congruence).
    assert (Fp : Bsign (Bopp (@fmaxv F)) = true) by (pose proof (@B2SF_fmaxv F) as E; destruct (@fmaxv F); cbn in *; try discriminate; injection E as E _ _; now rewrite E).
    case Rlt_bool_spec; intros L; [destruct (overflow_to_inf m true)|destruct (overflow_to_inf m false)]; intros X; try easy; try exact Fp; try exact Fm. }
intros _.
assert (Hg : generic_format radix2 (fexp F) rr) by (apply generic_format_round; auto with typeclass_instances).
pose proof (binary_normalize_correct (prec F) (emax F) _ _ mode_NE
    (Ztrunc (scaled_mantissa radix2 (fexp F) rr)) (cexp radix2 (fexp F) rr)
    (if Req_bool r 0 then false else Rlt_bool r 0)) as H.
cbv zeta in H.
change (F2R (Defs.Float radix2 (Ztrunc (scaled_mantissa radix2 (fexp F) rr)) (cexp radix2 (fexp F) rr)) = _) with (True) in H || idtac.
replace (F2R (Defs.Float radix2 (Ztrunc (scaled_mantissa radix2 (fexp F) rr)) (cexp radix2 (fexp F) rr))) with rr in H by exact Hg.
fold (fexp F) in H. rewrite (round_generic _ _ _ rr) in H by (auto with typeclass_instances).
rewrite Rlt_bool_true in H by easy. destruct H as (_ & _ & H3). rewrite H3.
rewrite (Req_bool_false r 0) by easy.
destruct (Rcompare_spec rr 0) as [L|L|L].
- symmetry. apply Rlt_bool_true. destruct (Rlt_or_le r 0) as [K|K]; [easy|]. exfalso. apply (Rlt_not_le _ _ L). unfold rr. apply round_ge_generic; auto with typeclass_instances. apply generic_format_0.
- easy.
- symmetry. apply Rlt_bool_false. destruct (Rle_or_lt 0 r) as [K|K]; [easy|]. exfalso. apply (Rlt_not_le _ _ L). unfold rr. apply round_le_generic; auto with typeclass_instances; try apply generic_format_0; lra.
Qed.

Lemma rround_0 m : @rround F m false 0 = f0.
Proof.
unfold rround. rewrite round_0 by auto with typeclass_instances.
rewrite Rlt_bool_true by (rewrite Rabs_R0; apply bpow_gt_0).
unfold scaled_mantissa. rewrite Rmult_0_l, Ztrunc_IZR, Req_bool_true by easy. reflexivity.
Qed.

Theorem qround_rround m n d : @qround F m n d = rround m false (IZR n / IZR d).
Proof.
unfold qround. set (k := Z.sgn d * n).
assert (Hx : (IZR n / IZR d = IZR k / IZR (Z.abs d))%R).
{ unfold k. destruct d as [|d|d]; cbn [Z.sgn Z.abs]; [|now rewrite Z.mul_1_l|].
  - unfold Rdiv. rewrite Z.mul_0_l. change (IZR 0) with 0%R. rewrite Rinv_0. ring.
  - rewrite mult_IZR. change (Z.neg d) with (- Z.pos d). rewrite opp_IZR. change (IZR (-1)) with (-1)%R. field. apply not_0_IZR. lia. }
rewrite Hx. destruct (Z.eqb_spec k 0) as [K|K].
- rewrite K. unfold Rdiv. rewrite Rmult_0_l. now rewrite rround_0.
- assert (Hd : 0 < Z.abs d) by (destruct d; cbn in *; lia).
  set (x := (IZR k / IZR (Z.abs d))%R).
  assert (Hd' : (0 < IZR (Z.abs d))%R) by now apply IZR_lt.
  assert (Hx0 : x <> 0%R) by (unfold x; apply Rmult_integral_contrapositive; split; [now apply not_0_IZR|apply Rinv_neq_0_compat; lra]).
  assert (Hs : Rlt_bool x 0 = (k <? 0)).
  { destruct (Z.ltb_spec k 0) as [L|L].
    - apply Rlt_bool_true. unfold x. apply (Rmult_lt_reg_r (IZR (Z.abs d))); [easy|]. unfold Rdiv. rewrite Rmult_assoc, Rinv_l by lra. rewrite Rmult_1_r, Rmult_0_l. now apply IZR_lt.
    - apply Rlt_bool_false. unfold x. apply Rmult_le_pos; [now apply IZR_le|]. left. now apply Rinv_0_lt_compat. }
  assert (Ha : Rabs x = (F2R (Defs.Float radix2 (Z.abs k) 0) / F2R (Defs.Float radix2 (Z.abs d) 0))%R).
  { unfold x, Rdiv. rewrite Rabs_mult, <- abs_IZR, (Rabs_right (/ _)). 2:{ apply Rgt_ge. now apply Rinv_0_lt_compat. }
    unfold F2R. cbn. now rewrite !Rmult_1_r. }
  pose proof (@Fdiv_correct radix2 (fexp F) (Defs.Float radix2 (Z.abs k) 0) (Defs.Float radix2 (Z.abs d) 0)) as D.
  destruct (Fdiv (fexp F) (Defs.Float radix2 (Z.abs k) 0) (Defs.Float radix2 (Z.abs d) 0)) as [[q e] l].
  destruct D as [D1 D2]; [apply F2R_gt_0; cbn; lia|apply F2R_gt_0; cbn; lia|].
  rewrite <- Ha in D1, D2. rewrite cexp_abs in D1.
  pose proof (binary_round_aux_correct' (prec F) (emax F) _ _ m x q e l Hx0 D2 D1) as R.
  cbv zeta in R. rewrite Hs in R. set (z := binary_round_aux _ _ _ _ _ _ _) in *.
  destruct R as [V R]. pose proof (of_sf_valid z V) as Z0.
  pose proof (@rround_rnds F m false x) as G. unfold rnds in G. fold (fexp F) in R.
  destruct (Rlt_bool (Rabs (round radix2 (fexp F) (round_mode m) x)) (bpow radix2 (emax F))).
  + destruct G as [G1 G2]. destruct R as (R1 & R2 & R3).
    apply B2R_Bsign_inj; try easy.
    * rewrite <- is_finite_SF_B2SF. now rewrite Z0.
    * rewrite G1, <- R1. rewrite <- SF2R_B2SF. now rewrite Z0.
    * rewrite rround_sign, Hs by easy. rewrite <- R3. transitivity (sign_SF (B2SF (@of_sf F z))); [now destruct (@of_sf F z)|now rewrite Z0].
  + apply B2SF_inj. now rewrite Z0, R, G, Hs.
Qed.
Lemma rnd_q_rround m q : @rnd_q F m q = rround m false (mpq_val q).
Proof. apply qround_rround. Qed.
End Q.
