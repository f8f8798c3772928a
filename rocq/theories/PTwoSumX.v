(** * Proofs: exactly when the error-free sum fails *)
From Coq Require Import ZArith NArith Reals Bool Lia Lra.
From Flocq Require Import Core.Core IEEE754.BinarySingleNaN.
From Verif Require Import Fmt Spec FloatFacts Exc Deco SpecApi MBase PBase MBool MArith PArith SpecCancel MCancel PTwoSum.
Local Open Scope R_scope.

Section T.
Context {F : fmt}.
Notation RN := (round radix2 (fexp F) ZnearestE).
Notation fmtd := (generic_format radix2 (fexp F)).
Notation MM := (bpow radix2 (emax F)).
Notation uu := (bpow radix2 (emax F - prec F)).
Notation OO := (B2R (@fmaxv F)).
Local Instance vexp' : Valid_exp (fexp F) := FLT_exp_valid _ _.
Local Instance mexp' : Monotone_exp (fexp F) := FLT_exp_monotone _ _.

Lemma bpow_Z (n : Z) : (0 <= n)%Z -> bpow radix2 n = IZR (2 ^ n).
Proof. intros H. now rewrite <- (IZR_Zpower radix2 n H). Qed.
Lemma MM_uu : MM = IZR (2 ^ prec F) * uu.
Proof. rewrite <- bpow_Z by (pose proof (fmt_prec1 F); lia). rewrite <- bpow_plus. f_equal. lia. Qed.
Lemma MM2_uu : bpow radix2 (emax F - 1) = IZR (2 ^ (prec F - 1)) * uu.
Proof. rewrite <- bpow_Z by (pose proof (fmt_prec1 F); lia). rewrite <- bpow_plus. f_equal. lia. Qed.
Lemma pow_half : (2 ^ prec F = 2 * 2 ^ (prec F - 1))%Z.
Proof. rewrite <- Z.pow_succ_r by (pose proof (fmt_prec1 F); lia). f_equal. lia. Qed.
Lemma pow_even : Z.even (2 ^ prec F) = true.
Proof. rewrite pow_half, Z.even_mul. reflexivity. Qed.

(** A value half way between two neighbours of the largest binade. *)
Lemma tie n : (2 ^ (prec F - 1) <= n < 2 ^ prec F)%Z ->
  RN ((IZR n + / 2) * uu) = IZR (if Z.even n then n else n + 1) * uu.
Proof.
intros [H1 H2].
assert (L1 : bpow radix2 (emax F - 1) <= (IZR n + / 2) * uu).
{ rewrite MM2_uu. apply Rmult_le_compat_r; [apply bpow_ge_0|]. apply IZR_le in H1. lra. }
assert (L2 : (IZR n + / 2) * uu < MM).
{ rewrite MM_uu. apply Rmult_lt_compat_r; [apply bpow_gt_0|].
  assert (n + 1 <= 2 ^ prec F)%Z as H by lia. apply IZR_le in H. rewrite plus_IZR in H. lra. }
assert (C : cexp radix2 (fexp F) ((IZR n + / 2) * uu) = (emax F - prec F)%Z).
{ unfold cexp. rewrite (mag_unique_pos radix2 _ (emax F)) by (split; assumption).
  rewrite fexp_eq. pose proof (@emin_small F). lia. }
unfold round, F2R, scaled_mantissa. rewrite C. cbn [Fnum Fexp]. f_equal. f_equal.
replace ((IZR n + / 2) * uu * bpow radix2 (- (emax F - prec F))) with (IZR n + / 2)
  by (rewrite Rmult_assoc, <- bpow_plus; replace (emax F - prec F + - (emax F - prec F))%Z with 0%Z by lia; cbn; ring).
assert (Fl : Zfloor (IZR n + / 2) = n) by (apply Zfloor_imp; rewrite plus_IZR; lra).
unfold Znearest. rewrite Fl. rewrite Rcompare_Eq by lra.
destruct (Z.even n); cbn [negb]; [reflexivity|].
apply Zceil_imp. rewrite minus_IZR, plus_IZR. lra.
Qed.

Lemma RN_OO_tie : RN (OO + uu / 2) = MM.
Proof.
rewrite OO_eq. assert (P := pow_half). assert (0 < 2 ^ (prec F - 1))%Z by (apply Z.pow_pos_nonneg; pose proof (fmt_prec1 F); lia).
replace (MM - uu + uu / 2) with ((IZR (2 ^ prec F - 1) + / 2) * uu) by (rewrite MM_uu, minus_IZR; lra).
rewrite tie by lia. rewrite Z.even_sub, pow_even. cbn [Z.even xorb Bool.eqb].
rewrite MM_uu. f_equal. f_equal. lia.
Qed.

(** The second step overflows for a positive first operand. *)
Lemma second_pos b : fmtd b -> Rabs b <= OO -> let s := RN (OO + b) in Rabs s <= OO ->
  (MM <= Rabs (RN (s - b)) <->
   exists k, (0 <= k /\ 2 * k + 2 < 2 ^ (prec F - 1))%Z /\ b = - (2 * IZR k + 3 / 2) * uu).
Proof.
intros Gb Bb s Bs. pose proof (@OO_eq F) as EO. pose proof (@uu_pos F) as U. pose proof (@uu_le F) as U4.
pose proof MM_uu as EM. pose proof pow_half as PH. split.
- intros H.
  pose proof (RN_err (OO + b) Bs) as E. fold s in E.
  assert (D : s - b = OO + uu / 2).
  { destruct (Rlt_or_le (Rabs (s - b)) (OO + uu / 2)) as [L|L].
    - apply RN_lt in L. lra.
    - clear - L E U EO U4. abs_lra. }
  assert (Sp : 0 < s). { clear - D Bb U. abs_lra. }
  assert (Us : uu <= ulp radix2 (fexp F) s).
  { pose proof (error_le_half_ulp_round radix2 (fexp F) (fun x => negb (Z.even x)) (OO + b)) as Q.
    fold s in Q. replace (s - (OO + b)) with (uu / 2) in Q by lra.
    rewrite Rabs_pos_eq in Q by lra. lra. }
  assert (S1 : bpow radix2 (emax F - 1) <= s).
  { rewrite ulp_neq_0 in Us by lra. apply le_bpow in Us. unfold cexp in Us. rewrite fexp_eq in Us.
    pose proof (@emin_small F). destruct (mag radix2 s) as [m Hm]; cbn in Us. specialize (Hm ltac:(lra)).
    rewrite Rabs_pos_eq in Hm by lra. eapply Rle_trans; [apply bpow_le|apply Hm]. lia. }
  destruct (@mult_of F s (emax F)) as [n Hn].
  { apply generic_format_round; auto with typeclass_instances. }
  { rewrite Rabs_pos_eq by lra. exact S1. }
  rewrite MM2_uu, Hn in S1. apply Rmult_le_reg_r in S1; [|easy]. apply le_IZR in S1.
  assert (N2 : (n < 2 ^ prec F)%Z).
  { apply lt_IZR. apply Rmult_lt_reg_r with uu; [easy|]. rewrite <- Hn, <- EM. rewrite Rabs_pos_eq in Bs; lra. }
  assert (Eab : OO + b = (IZR (n - 1) + / 2) * uu) by (rewrite minus_IZR; lra).
  assert (N3 : (2 ^ (prec F - 1) < n)%Z).
  { destruct (Z.eq_dec n (2 ^ (prec F - 1))) as [En|]; [exfalso|lia].
    assert (G : fmtd (OO + b)).
    { rewrite Eab. replace ((IZR (n - 1) + / 2) * uu) with (IZR (2 * n - 1) * bpow radix2 (emax F - 1 - prec F)).
      2:{ rewrite uu_half, !minus_IZR, mult_IZR. lra. }
      apply fmt_mult; [pose proof (@emin_small F); lia|].
      replace (emax F - 1 - prec F + prec F)%Z with (emax F - 1)%Z by lia. rewrite uu_half, MM2_uu, <- En, minus_IZR, mult_IZR.
      assert (1 <= n)%Z as N0 by (assert (0 < 2 ^ (prec F - 1))%Z by (apply Z.pow_pos_nonneg; pose proof (fmt_prec1 F); lia); lia).
      apply IZR_le in N0. rewrite Rabs_pos_eq by nra. nra. }
    unfold s in D. rewrite (round_generic _ _ _ _ G) in D. lra. }
  assert (T : s = IZR (if Z.even (n - 1) then n - 1 else n - 1 + 1) * uu).
  { unfold s. rewrite Eab. apply tie. lia. }
  assert (Ev : Z.even (n - 1) = false).
  { destruct (Z.even (n - 1)); [exfalso|reflexivity]. rewrite Hn, minus_IZR in T. nra. }
  assert (En : Z.even n = true).
  { rewrite Z.even_sub in Ev. now destruct (Z.even n). }
  apply Z.even_spec in En. destruct En as [h En].
  exists (2 ^ (prec F - 1) - 1 - h)%Z. split; [lia|].
  rewrite !minus_IZR. assert (IZR n = 2 * IZR h) by (rewrite En, mult_IZR; reflexivity).
  assert (Q : IZR (2 ^ prec F) = 2 * IZR (2 ^ (prec F - 1))) by (rewrite PH, mult_IZR; reflexivity).
  rewrite Q in EM. rewrite minus_IZR in Eab. nra.
- intros (k & [K1 K2] & Hb).
  assert (Eab : OO + b = (IZR (2 ^ prec F - 2 * k - 3) + / 2) * uu).
  { rewrite Hb, EO, EM, !minus_IZR, mult_IZR. lra. }
  assert (Es : s = IZR (2 ^ prec F - 2 * k - 2) * uu).
  { unfold s. rewrite Eab, tie by lia. rewrite !Z.even_sub, pow_even, Z.even_mul. cbn. do 2 f_equal. lia. }
  replace (s - b) with (OO + uu / 2).
  2:{ rewrite Es, Hb, EO, EM, !minus_IZR, mult_IZR. lra. }
  rewrite RN_OO_tie, Rabs_pos_eq; lra.
Qed.
End T.

(** The error term is NaN although the sum is finite exactly when the second step overflows. *)
Lemma two_sum_nan_iff {F} (a b : float F) : is_finite a = true -> is_finite b = true ->
  is_finite (fst (two_sum a b)) = true ->
  (snd (two_sum a b) = fnan <-> bpow radix2 (emax F) <= Rabs (round radix2 (fexp F) ZnearestE (round radix2 (fexp F) ZnearestE (B2R a + B2R b) - B2R b))).
Proof.
intros Fa Fb Fs. unfold two_sum in *. cbn [fst snd] in *.
destruct (rnds_NE_cases _ _ (radd_rnds mode_NE a b Fa Fb)) as [(_ & Es & Bs)|(Hs & Cs)].
2:{ destruct Cs as [[E _]|[E _]]; rewrite E in Fs; discriminate. }
set (s := radd mode_NE a b) in *.
destruct (rnds_NE_cases _ _ (rsub_rnds mode_NE s b Fs Fb)) as [(Fa' & Ea' & Ba')|(Ha' & Ca')].
- rewrite Es in Ba'. split; [|pose proof (@OO_eq F); pose proof (@uu_pos F); lra].
  intros N. exfalso. pose proof (two_sum_cases a b Fa Fb) as C. cbv zeta in C. unfold two_sum in C. cbn [fst snd] in C.
  fold s in C. rewrite N in C.
  destruct C as [(_ & H2 & _)|[(_ & _ & _ & H4)|(_ & _ & [[H4 _]|[H4 _]])]]; try (rewrite H4 in Fs; discriminate); [discriminate|].
  clear H4.
  assert (T := third (B2R a) (B2R b) (B2R_format a) (B2R_format b) (B2R_le_OO a) (B2R_le_OO b)). cbv zeta in T. specialize (T Bs Ba').
  set (a' := rsub mode_NE s b) in *. rewrite Es in Ea'.
  assert (Hb' := rsub_rnds mode_NE s a' Fs Fa'). rewrite Es, Ea' in Hb'.
  destruct (rnds_NE_fin _ _ Hb' T) as [Fb' Eb'].
  set (b' := rsub mode_NE s a') in *.
  pose proof (RN_err _ Bs) as E1. pose proof (RN_err _ Ba') as E2. pose proof (RN_err _ T) as E3.
  pose proof (@OO_big F) as OB. pose proof (@uu_pos F) as U. pose proof (@RN_le F) as RL.
  set (rs := round radix2 (fexp F) ZnearestE (B2R a + B2R b)) in *.
  set (ra := round radix2 (fexp F) ZnearestE (rs - B2R b)) in *.
  set (rb := round radix2 (fexp F) ZnearestE (rs - ra)) in *.
  assert (Hda := rsub_rnds mode_NE a a' Fa Fa'). rewrite Ea' in Hda.
  assert (Hdb := rsub_rnds mode_NE b b' Fb Fb'). rewrite Eb' in Hdb.
  assert (Ba1 : Rabs (B2R a - ra) <= bpow radix2 (emax F - prec F)) by (clear - E1 E2; abs_lra).
  assert (Bb1 : Rabs (B2R b - rb) <= bpow radix2 (emax F - prec F)) by (clear - E2 E3; abs_lra).
  assert (Fu : generic_format radix2 (fexp F) (bpow radix2 (emax F - prec F))).
  { apply generic_format_bpow. rewrite fexp_eq. pose proof (fmt_prec1 F). pose proof (@emin_small F). lia. }
  assert (VE : Valid_exp (fexp F)) by apply FLT_exp_valid, _.
  assert (Ba2 : Rabs (round radix2 (fexp F) ZnearestE (B2R a - ra)) <= bpow radix2 (emax F - prec F)) by (apply abs_round_le_generic; auto with typeclass_instances).
  assert (Bb2 : Rabs (round radix2 (fexp F) ZnearestE (B2R b - rb)) <= bpow radix2 (emax F - prec F)) by (apply abs_round_le_generic; auto with typeclass_instances).
  destruct (rnds_NE_fin _ _ Hda ltac:(lra)) as [Fda Eda].
  destruct (rnds_NE_fin _ _ Hdb ltac:(lra)) as [Fdb Edb].
  assert (He := radd_rnds mode_NE (rsub mode_NE a a') (rsub mode_NE b b') Fda Fdb). rewrite Eda, Edb in He.
  destruct (rnds_NE_fin _ _ He) as [Fe _]; [apply RL; clear - Ba2 Bb2 OB; abs_lra|].
  rewrite N in Fe. discriminate.
- rewrite Es in Ha'. split; [easy|]. intros _.
  assert (H : forall sg, rsub mode_NE s b = B754_infinity sg ->
    radd mode_NE (rsub mode_NE a (rsub mode_NE s b)) (rsub mode_NE b (rsub mode_NE s (rsub mode_NE s b))) = fnan).
  { intros sg ->.
    replace (rsub mode_NE a (B754_infinity sg)) with (@B754_infinity (prec F) (emax F) (negb sg)) by now destruct a.
    replace (rsub mode_NE s (B754_infinity sg)) with (@B754_infinity (prec F) (emax F) (negb sg)) by now destruct s.
    replace (rsub mode_NE b (B754_infinity (negb sg))) with (@B754_infinity (prec F) (emax F) sg) by (destruct sg; now destruct b).
    now destruct sg. }
  destruct Ca' as [[E _]|[E _]]; exact (H _ E).
Qed.

Lemma two_sum_gap {F} (a b s e : float F) : is_finite a = true -> is_finite b = true ->
  two_sum a b = (s, e) -> is_finite s = true ->
  (e = fnan <-> exists k, (0 <= k /\ 2 * k + 2 < 2 ^ (prec F - 1))%Z /\
    (B2R a = B2R (@fmaxv F) /\ B2R b = - (2 * IZR k + 3 / 2) * bpow radix2 (emax F - prec F) \/
     B2R a = - B2R (@fmaxv F) /\ B2R b = (2 * IZR k + 3 / 2) * bpow radix2 (emax F - prec F))).
Proof.
intros Fa Fb E Fs. pose proof (two_sum_nan_iff a b Fa Fb) as I. rewrite E in I. cbn [fst snd] in I. rewrite (I Fs). clear I.
pose proof (two_sum_cases a b Fa Fb) as C. cbv zeta in C. rewrite E in C. cbn [fst snd] in C.
assert (Bs : Rabs (round radix2 (fexp F) ZnearestE (B2R a + B2R b)) <= B2R (@fmaxv F)).
{ destruct C as [(_ & _ & H & _)|[(_ & _ & H & _)|(_ & _ & [[H4 _]|[H4 _]])]]; try (rewrite H4 in Fs; discriminate);
  rewrite <- H; apply abs_le_fmaxv. }
clear C. pose proof (B2R_format b) as Gb. pose proof (B2R_le_OO b) as Bb. pose proof (B2R_le_OO a) as Ba.
pose proof (@OO_eq F) as EO. pose proof (@uu_pos F) as U. pose proof (@uu_le F) as U4.
split.
- intros H.
  assert (A : Rabs (B2R a) = B2R (@fmaxv F)).
  { destruct (Rlt_or_le (Rabs (B2R a)) (B2R (@fmaxv F))) as [L|L]; [exfalso|lra].
    pose proof (second (B2R a) (B2R b) (B2R_format a) Gb L) as S. cbv zeta in S. specialize (S Bs). lra. }
  assert (A' : B2R a = B2R (@fmaxv F) \/ B2R a = - B2R (@fmaxv F)) by (clear - A; abs_lra).
  destruct A' as [A'|A'].
  + rewrite A' in H, Bs. apply second_pos in H; try easy. destruct H as (k & K & Hk). exists k. auto.
  + assert (Q : bpow radix2 (emax F) <= Rabs (round radix2 (fexp F) ZnearestE (round radix2 (fexp F) ZnearestE (B2R (@fmaxv F) + - B2R b) - - B2R b))).
    { replace (B2R (@fmaxv F) + - B2R b) with (- (B2R a + B2R b)) by lra. rewrite RN_opp.
      match goal with |- context [- ?x - - ?y] => replace (- x - - y) with (- (x - y)) by ring end.
      rewrite RN_opp, Rabs_Ropp. exact H. }
    apply second_pos in Q.
    * destruct Q as (k & K & Hk). exists k. split; [easy|]. right. split; [easy|]. lra.
    * now apply generic_format_opp.
    * now rewrite Rabs_Ropp.
    * replace (B2R (@fmaxv F) + - B2R b) with (- (B2R a + B2R b)) by lra. now rewrite RN_opp, Rabs_Ropp.
- intros (k & K & [[A B]|[A B]]).
  + rewrite A in *. apply second_pos; try easy. now exists k.
  + assert (Q : bpow radix2 (emax F) <= Rabs (round radix2 (fexp F) ZnearestE (round radix2 (fexp F) ZnearestE (B2R (@fmaxv F) + - B2R b) - - B2R b))).
    { apply second_pos.
      - now apply generic_format_opp.
      - now rewrite Rabs_Ropp.
      - replace (B2R (@fmaxv F) + - B2R b) with (- (B2R a + B2R b)) by lra. now rewrite RN_opp, Rabs_Ropp.
      - exists k. split; [easy|]. rewrite B. ring. }
    replace (B2R (@fmaxv F) + - B2R b) with (- (B2R a + B2R b)) in Q by lra. rewrite RN_opp in Q.
    match type of Q with context [- ?x - - ?y] => replace (- x - - y) with (- (x - y)) in Q by ring end.
    rewrite RN_opp, Rabs_Ropp in Q. exact Q.
Qed.
Lemma two_sum_exact_iff {F} (a b s e : float F) : is_finite a = true -> is_finite b = true ->
  two_sum a b = (s, e) -> is_finite s = true ->
  (is_finite e = true /\ B2R s + B2R e = B2R a + B2R b <->
   ~ exists k, (0 <= k /\ 2 * k + 2 < 2 ^ (prec F - 1))%Z /\
    (B2R a = B2R (@fmaxv F) /\ B2R b = - (2 * IZR k + 3 / 2) * bpow radix2 (emax F - prec F) \/
     B2R a = - B2R (@fmaxv F) /\ B2R b = (2 * IZR k + 3 / 2) * bpow radix2 (emax F - prec F))).
Proof.
intros Fa Fb E Fs. rewrite <- (two_sum_gap a b s e Fa Fb E Fs). split.
- intros [Fe _] ->. discriminate.
- intros N. now destruct (two_sum_never_wrong a b s e Fa Fb E) as [_ (_ & H)].
Qed.
