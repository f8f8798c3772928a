(** * Midpoint and radius in a narrower type: exactly when the midpoint overflows *)
From Coq Require Import ZArith NArith Reals Bool Lia Lra.
From Flocq Require Import Core.Core IEEE754.BinarySingleNaN.
From Verif Require Import Fmt Spec FloatFacts Exc Deco SpecApi MBase PBase PConv PDec PIso MMixed PMixed MNum SpecNum PNum PNumF Ex.
Local Open Scope R_scope.

Section O.
Context {G : fmt}.
#[local] Instance vexpO : Valid_exp (fexp G) := FLT_exp_valid (emin G) (prec G).
Notation lim := (bpow radix2 (emax G) - bpow radix2 (emax G - prec G - 1)).
Notation rne := (round radix2 (fexp G) ZnearestE).
Notation top := (bpow radix2 (emax G)).

Lemma lim_mid : 2 * lim = top + B2R (@fmaxv G).
Proof.
rewrite B2R_fmaxv. replace (bpow radix2 (emax G - prec G)) with (2 * bpow radix2 (emax G - prec G - 1)); [lra|].
change 2 with (bpow radix2 1). rewrite <- bpow_plus. f_equal. lia.
Qed.
Lemma round_lim : rne lim = top.
Proof.
pose proof (fmt_prec1 G) as P1. pose proof (fmt_prec_lt_emax G) as P2. unfold Prec_lt_emax in P2.
assert (B : bpow radix2 (emax G - prec G - 1) < bpow radix2 (emax G - 1)) by (apply bpow_lt; lia).
assert (B0 := bpow_gt_0 radix2 (emax G - prec G - 1)).
assert (B1 : top = 2 * bpow radix2 (emax G - 1)) by (change 2 with (bpow radix2 1); rewrite <- bpow_plus; f_equal; lia).
assert (M : (mag radix2 lim = emax G :> Z)).
{ apply mag_unique_pos. lra. }
assert (IP : IZR (2 ^ prec G) = bpow radix2 (prec G)) by (apply (IZR_Zpower radix2); lia).
unfold round, scaled_mantissa, cexp. rewrite M.
assert (E : fexp G (emax G) = (emax G - prec G)%Z) by (unfold fexp, SpecFloat.fexp, SpecFloat.emin; lia).
rewrite E.
assert (S : lim * bpow radix2 (- (emax G - prec G)) = IZR (2 ^ prec G - 1) + / 2).
{ rewrite Rmult_minus_distr_r, <- !bpow_plus. replace (emax G + - (emax G - prec G))%Z with (prec G) by lia.
  replace (emax G - prec G - 1 + - (emax G - prec G))%Z with (-1)%Z by lia. change (bpow radix2 (-1)) with (/ 2).
  rewrite minus_IZR, IP. lra. }
rewrite S.
assert (Z : ZnearestE (IZR (2 ^ prec G - 1) + / 2) = (2 ^ prec G)%Z).
{ unfold Znearest. assert (Fl : Zfloor (IZR (2 ^ prec G - 1) + / 2) = (2 ^ prec G - 1)%Z).
  { apply Zfloor_imp. rewrite plus_IZR. lra. }
  rewrite Fl. rewrite Rcompare_Eq by lra. 
  assert (Od : Z.even (2 ^ prec G - 1) = false).
  { rewrite Z.even_sub. rewrite Z.even_pow by lia. reflexivity. }
  rewrite Od. cbn [negb]. assert (Ce : Zceil (IZR (2 ^ prec G - 1) + / 2) = (2 ^ prec G)%Z).
  { apply Zceil_imp. rewrite !minus_IZR. lra. }
  exact Ce. }
rewrite Z. unfold F2R. cbn [Fnum Fexp]. rewrite IP, <- bpow_plus. f_equal. lia.
Qed.
Lemma over_iff c : top <= Rabs (rne c) <-> lim <= Rabs c.
Proof.
rewrite <- round_NE_abs by apply vexpO. set (a := Rabs c). split.
- intros H. destruct (Rle_or_lt lim a) as [L|L]; [easy|exfalso].
  assert (Gm : generic_format radix2 (fexp G) (B2R (@fmaxv G))) by apply generic_format_B2R.
  pose proof (@fmaxv_lt G) as FL. pose proof lim_mid as LM.
  destruct (Rle_or_lt a (B2R (@fmaxv G))) as [A|A].
  + assert (rne a <= B2R (@fmaxv G)) by (apply round_le_generic; auto with typeclass_instances). lra.
  + destruct (round_N_pt radix2 (fexp G) (fun z => negb (Z.even z)) a) as [_ N]. specialize (N _ Gm).
    rewrite (Rabs_left (B2R fmaxv - a)) in N by lra. change (round radix2 (fexp G) (Znearest (fun z => negb (Z.even z))) a) with (rne a) in N.
    rewrite Rabs_pos_eq in N by lra. lra.
- intros H. rewrite <- round_lim. apply round_le; auto with typeclass_instances.
Qed.
End O.

Lemma midrad_over {F} (G : fmt) (x : itv F) : comparable F G -> bounded_rep x -> (exists r, mem r x) ->
  let c := (B2R (fst x) + B2R (snd x)) / 2 in
  exists m r, returns (n_mid_rad_mixed G x) (m, r) /\
  (is_finite m = true <-> Rabs c < bpow radix2 (emax G) - bpow radix2 (emax G - prec G - 1)) /\
  (is_finite m = true -> (is_finite r = true /\ forall t, mem t x -> B2R m - B2R r <= t <= B2R m + B2R r) \/ r = finf) /\
  (is_finite m = false -> m = (if Rlt_bool 0 c then finf else fminf) /\ r = finf).
Proof.
intros HC B H c. destruct (midrad_mixed_encloses G x HC H) as (m & r & H1 & H2 & H3 & H4 & _).
exists m, r. split; [easy|].
destruct (mid_mixed_ok G x H) as (m' & E & _ & _ & _ & N). rewrite (returns_same _ _ _ E H2) in N. clear m' E.
specialize (N B). fold c in N.
assert (I : is_finite m = true <-> Rabs c < bpow radix2 (emax G) - bpow radix2 (emax G - prec G - 1)).
{ split.
  - intros Fm. apply Rnot_le_lt. intros L. pose proof (proj2 (over_iff (G := G) c) L) as O.
    destruct N as [N|(_ & N2 & N3)].
    + destruct N as [_ Q]. pose proof (B2R_bound m) as Bm. rewrite Q in Bm. lra.
    + destruct (Rtotal_order 0 c) as [K|[K|K]].
      * now rewrite (N2 K) in Fm.
      * rewrite <- K, round_0, Rabs_R0 in O by auto with typeclass_instances. pose proof (bpow_gt_0 radix2 (emax G)). lra.
      * now rewrite (N3 K) in Fm.
  - intros L. destruct N as [[N _]|(N1 & _)]; [easy|]. apply over_iff in N1. lra. }
split; [exact I|]. split; [exact H4|]. intros Fm.
assert (L : bpow radix2 (emax G) - bpow radix2 (emax G - prec G - 1) <= Rabs c).
{ apply Rnot_lt_le. intros L. apply I in L. now rewrite L in Fm. }
destruct N as [[N _]|(N1 & N2 & N3)]; [now rewrite N in Fm|].
assert (C : m = (if Rlt_bool 0 c then finf else fminf)).
{ case Rlt_bool_spec; intros K; [now apply N2|]. destruct (Rle_lt_or_eq_dec c 0 K) as [K'|K']; [now apply N3|].
  rewrite K', round_0, Rabs_R0 in N1 by auto with typeclass_instances. pose proof (bpow_gt_0 radix2 (emax G)). lra. }
split; [exact C|].
destruct B as [B1 B2]. apply returns_eq in H1. apply returns_eq in H2. unfold n_mid_rad_mixed in H1. rewrite H2 in H1.
pose proof (mem_wf x H) as W. pose proof (mem_nnan x H) as Nn.
rewrite is_valid_wf, is_empty_wf, Nn in H1 by easy. revert H1. mreds. cbv zeta. intros H1.
apply (f_equal (fun m => m (Est 0 0))) in H1. injection H1 as H1. rewrite <- H1. clear H1 H2 H3 H4 I Fm N1 N2 N3.
subst m.
assert (FW : forall md (a : float F), is_finite a = true -> is_finite (fconv (pmax G F) md a) = true).
{ intros md a Fa. destruct (within_pmax G F (comparable_sym _ _ HC)) as [_ K]. now apply fconv_exact. }
pose proof (FW mode_DN _ B1) as D1. pose proof (FW mode_UP _ B2) as D2.
destruct Rlt_bool.
- change (fconv (pmax G F) mode_NE (@finf G)) with (@finf (pmax G F)).
  destruct (fconv (pmax G F) mode_DN (fst x)) as [| | |]; try easy; destruct (fconv (pmax G F) mode_UP (snd x)) as [| | |]; try easy; reflexivity.
- change (fconv (pmax G F) mode_NE (@fminf G)) with (@fminf (pmax G F)).
  destruct (fconv (pmax G F) mode_DN (fst x)) as [| | |]; try easy; destruct (fconv (pmax G F) mode_UP (snd x)) as [| | |]; try easy; reflexivity.
Qed.
