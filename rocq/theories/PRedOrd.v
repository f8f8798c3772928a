(** * Proofs: the directions of rounding of a reduction are ordered *)
From Coq Require Import ZArith Reals Bool List Lia Lra.
From Flocq Require Import Core.Core IEEE754.BinarySingleNaN.
From Verif Require Import Fmt FloatFacts Exc SpecRound MMpfr PMpfr PMpfr2 MRed SpecRed PRed SpecRedPerm SpecRedX PRedX PRedPerm.
Import ListNotations.
Local Open Scope R_scope.

Section O.
Context {F : fmt}.
Implicit Types (x y z d u : float F).
#[local] Instance fexpV3 : Valid_exp (FLT_exp (3 - emax F - prec F) (prec F)).
Proof. apply FLT_exp_valid. apply fmt_prec_gt_0. Qed.
Lemma fle_fin x y : is_finite x = true -> is_finite y = true -> B2R x <= B2R y -> fle x y = true.
Proof. intros H1 H2 H. unfold fle. rewrite Bleb_correct by easy. now apply Rle_bool_true. Qed.
Lemma fle_minf y : isnan y = false -> fle (B754_infinity true) y = true.
Proof. destruct y as [|[]| |]; easy. Qed.
Lemma fle_pinf x : isnan x = false -> fle x (B754_infinity false) = true.
Proof. destruct x as [|[]| |]; easy. Qed.
Lemma fin_nan x : is_finite x = true -> isnan x = false. Proof. now destruct x. Qed.
Lemma largest_fmaxv : largest F = B2R (@fmaxv F). Proof. now rewrite B2R_fmaxv. Qed.
Lemma fle_opp x y : fle (Bopp x) (Bopp y) = true -> fle y x = true.
Proof.
destruct (is_finite x) eqn:Fx; [destruct (is_finite y) eqn:Fy|].
- unfold fle. rewrite !Bleb_correct by now rewrite ?is_finite_Bopp. rewrite !B2R_Bopp.
  case Rle_bool_spec; [|easy]. intros H _. apply Rle_bool_true. lra.
- destruct y as [|[]| |]; try easy; destruct x as [|[]| |]; easy.
- destruct x as [|[]| |]; try easy; destruct y as [|[]| |]; easy.
Qed.
Lemma rounded_nan m r z : rounded m r z -> isnan z = false.
Proof.
unfold rounded. cbv zeta. intros [A B].
destruct (Rlt_or_le (Rabs (round radix2 (FLT_exp (3 - emax F - prec F) (prec F)) (round_mode m) r)) (bpow radix2 (emax F))) as [H|H].
- apply fin_nan. now apply A.
- specialize (B H). destruct m, (Rlt_bool r 0); try (now subst z); now apply fin_nan.
Qed.
Lemma rounded_low m r d z : rounded mode_DN r d -> rounded m r z -> fle d z = true.
Proof.
intros D Z. pose proof (rounded_nan _ _ _ D) as Nd. pose proof (rounded_nan _ _ _ Z) as Nz.
revert D Z. unfold rounded. cbv zeta.
set (fe := FLT_exp (3 - emax F - prec F) (prec F)) in *. set (yd := round radix2 fe (round_mode mode_DN) r). set (ym := round radix2 fe (round_mode m) r).
assert (V : Valid_exp fe) by apply fexpV3.
assert (L : yd <= ym).
{ unfold yd, ym. cbn [round_mode]. destruct (round_DN_or_UP radix2 fe (round_mode m) r) as [->| ->]; [lra|].
  apply Rle_trans with r; [apply round_DN_pt|apply round_UP_pt]; exact V. }
assert (Yd : 0 <= r -> 0 <= yd) by (intros; apply round_ge_generic; [exact V|apply valid_rnd_round_mode|apply generic_format_0|easy]).
assert (Ym : 0 <= r -> 0 <= ym) by (intros; apply round_ge_generic; [exact V|apply valid_rnd_round_mode|apply generic_format_0|easy]).
assert (Ym' : r <= 0 -> ym <= 0) by (intros; apply round_le_generic; [exact V|apply valid_rnd_round_mode|apply generic_format_0|easy]).
pose proof (bpow_gt_0 radix2 (emax F)) as M0. set (M := bpow radix2 (emax F)) in *.
intros [D1 D2] [Z1 Z2].
assert (LD : yd <= - M -> d = B754_infinity true).
{ intros H. assert (H' : M <= Rabs yd) by (rewrite Rabs_left; lra). specialize (D2 H'). rewrite Rlt_bool_true in D2; [easy|].
  apply Rnot_le_lt. intros Hr. specialize (Yd Hr). lra. }
destruct (Rle_or_lt yd (- M)) as [S|S]; [rewrite (LD S); now apply fle_minf|].
destruct (Rlt_or_le (Rabs ym) M) as [Hm|Hm].
- destruct (Z1 Hm) as [Fz Ez]. apply Rabs_def2 in Hm. destruct (D1 ltac:(apply Rabs_def1; lra)) as [Fd Ed].
  apply fle_fin; [easy..|]. now rewrite Ed, Ez.
- assert (P : M <= ym) by (revert Hm; unfold Rabs; case Rcase_abs; lra).
  assert (R0 : Rlt_bool r 0 = false) by (apply Rlt_bool_false; apply Rnot_lt_le; intros Hr; assert (ym <= 0) by (apply Ym'; lra); lra).
  specialize (Z2 Hm). rewrite R0 in Z2, D2.
  assert (C : z = B754_infinity false \/ (is_finite z = true /\ B2R z = largest F)) by (destruct m; auto).
  destruct C as [->|[Fz Ez]]; [now apply fle_pinf|].
  assert (Fd : is_finite d = true) by (destruct (Rlt_or_le (Rabs yd) M) as [K|K]; [now apply D1|now apply D2]).
  apply fle_fin; [easy..|]. rewrite Ez, largest_fmaxv. apply Rle_trans with (2 := @abs_le_fmaxv F d). apply Rle_abs.
Qed.
Lemma rounded_upp rnd r u z : rounded mode_UP r u -> rounded (get_mpfr_rnd_mode rnd) r z -> fle z u = true.
Proof.
intros U Z. apply (rounded_opposite upward) in U. apply rounded_opposite in Z. apply fle_opp. exact (rounded_low _ _ _ _ U Z).
Qed.
Lemma reduces_between (ts : list xreal) rnd d z u : reduces mode_DN ts d -> reduces (get_mpfr_rnd_mode rnd) ts z -> reduces mode_UP ts u ->
  (d = fnan /\ z = fnan /\ u = fnan) \/ (fle d z = true /\ fle z u = true).
Proof.
intros D Z U. destruct (total_exists ts) as [t Ht]. specialize (D t Ht). specialize (Z t Ht). specialize (U t Ht). destruct t as [|s|r].
- now left.
- right. subst. now destruct s.
- right. destruct D as [D _], Z as [Z _], U as [U _]. split; [now apply rounded_low with (1 := D) (2 := Z)|now apply rounded_upp with (1 := U) (2 := Z)].
Qed.
Lemma sum_between (l : list (float F)) rnd E1 E2 E3 : let d := fst (sum l downward E1) in let z := fst (sum l rnd E2) in let u := fst (sum l upward E3) in
  (d = fnan /\ z = fnan /\ u = fnan) \/ (fle d z = true /\ fle z u = true).
Proof. exact (reduces_between _ rnd _ _ _ (sum_reduces l downward E1) (sum_reduces l rnd E2) (sum_reduces l upward E3)). Qed.
Lemma sum_abs_between (l : list (float F)) rnd E1 E2 E3 : let d := fst (sum_abs l downward E1) in let z := fst (sum_abs l rnd E2) in let u := fst (sum_abs l upward E3) in
  (d = fnan /\ z = fnan /\ u = fnan) \/ (fle d z = true /\ fle z u = true).
Proof. exact (reduces_between _ rnd _ _ _ (sum_abs_reduces l downward E1) (sum_abs_reduces l rnd E2) (sum_abs_reduces l upward E3)). Qed.
Lemma sum_sqr_between (l : list (float F)) rnd E1 E2 E3 : let d := fst (sum_sqr l downward E1) in let z := fst (sum_sqr l rnd E2) in let u := fst (sum_sqr l upward E3) in
  (d = fnan /\ z = fnan /\ u = fnan) \/ (fle d z = true /\ fle z u = true).
Proof.
destruct (terms_ex (combine l l)) as [us H].
exact (reduces_between us rnd _ _ _ (sqr_terms l us downward E1 H) (sqr_terms l us rnd E2 H) (sqr_terms l us upward E3 H)).
Qed.
Lemma dot_between (a b : list (float F)) rnd E1 E2 E3 : (length a <= length b)%nat -> exists d E1' z E2' u E3',
  dot a b downward E1 = Ret (d, E1') /\ dot a b rnd E2 = Ret (z, E2') /\ dot a b upward E3 = Ret (u, E3') /\
  ((d = fnan /\ z = fnan /\ u = fnan) \/ (fle d z = true /\ fle z u = true)).
Proof.
intros L. destruct (terms_ex (combine a b)) as [us H].
destruct (dot_terms a b us downward E1 L H) as (d & E1' & D & RD). destruct (dot_terms a b us rnd E2 L H) as (z & E2' & Z & RZ).
destruct (dot_terms a b us upward E3 L H) as (u & E3' & U & RU).
exists d, E1', z, E2', u, E3'. split; [easy|]. split; [easy|]. split; [easy|]. exact (reduces_between us rnd d z u RD RZ RU).
Qed.

End O.
