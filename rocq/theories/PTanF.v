(** * Tangent: the concrete formats *)
From Coq Require Import ZArith QArith Qreals Reals Bool Lia Lra.
From Flocq Require Import Core.Core IEEE754.BinarySingleNaN.
From Verif Require Import Fmt Spec FloatFacts Exc Deco SpecApi SpecElem MBase PBase PArith PElem MTrig PTrig PNum PTan Ex.
Local Open Scope R_scope.

(** Nothing lies between a float and its successor. *)
Lemma below_next {F} (p p' q : float F) : is_finite q = true -> B2SF (Bsucc q) = B2SF p' -> is_finite p' = true ->
  is_finite p = true -> B2R p < B2R p' -> B2R p <= B2R q.
Proof.
intros Fq Eq Fp' Fp Hp.
pose proof (Bsucc_correct _ _ (fmt_prec_gt_0 F) (fmt_prec_lt_emax F) q Fq) as H.
assert (E' : Bsucc q = p') by now apply B2SF_inj. rewrite E' in H.
revert H. case Rlt_bool_spec; intros Hs H.
- destruct H as (E & _). apply Rnot_lt_le. intros Hlt.
  assert (succ radix2 (SpecFloat.fexp (prec F) (emax F)) (B2R q) <= B2R p).
  { apply succ_le_lt; try easy; try apply generic_format_B2R. apply fexp_correct, fmt_prec_gt_0. }
  lra.
- destruct p'; try easy; simpl in H; congruence.
Qed.
Lemma below_pi {F} (p p' q : float F) : is_finite q = true -> B2SF (Bsucc q) = B2SF p' -> is_finite p' = true ->
  PI < B2R p' -> is_finite p = true -> B2R p <= PI -> B2R p <= B2R q.
Proof. intros Fq Eq Fp' Hpi Fp Hp. apply below_next with p'; try easy. lra. Qed.

(** Values of literals. *)
Lemma B2R_sf {F} (x : float F) s m e : B2SF x = SpecFloat.S754_finite s m e ->
  B2R x = IZR (cond_Zopp s (Zpos m)) * bpow radix2 e.
Proof. intros H. rewrite <- SF2R_B2SF, H. reflexivity. Qed.
Ltac litval := repeat match goal with |- context [B2R (fl ?F ?m ?e)] =>
  erewrite (B2R_sf (fl F m e)) by (vm_compute; reflexivity) end; cbv [cond_Zopp Z.opp]; simpl bpow.
Ltac pib := unfold pi_lo, pi_hi, Q2R, Qnum, Qden in *.

Lemma far32 : pi_far binary32.
Proof.
split; [easy|]. intros p Fp Hp. pose proof pi_bounds as [Hlo Hhi]. pib.
assert (B : B2R p <= B2R (fl binary32 13176794 (-22))).
{ apply below_pi with (fl binary32 13176795 (-22)); try easy; try (vm_compute; reflexivity). litval. lra. }
revert B. litval. change (prec binary32) with 24%Z. simpl bpow. lra.
Qed.
Lemma far80 : pi_far binary80.
Proof.
split; [easy|]. intros p Fp Hp. pose proof pi_bounds as [Hlo Hhi]. pib.
assert (B : B2R p <= B2R (fl binary80 14488038916154245684 (-62))).
{ apply below_pi with (fl binary80 14488038916154245685 (-62)); try easy; try (vm_compute; reflexivity). litval. lra. }
revert B. litval. change (prec binary80) with 64%Z. simpl bpow. lra.
Qed.

(** ** binary64: a pole that goes unnoticed *)
Definition tl64 : float binary64 := fl binary64 (-2575921390006027) (-51).
Definition tu64 : float binary64 := fl binary64 4498316362022413 (-51).
Definition al64 : Q := 2575921390006027 # 2251799813685248.
Definition xu64 : Q := 4498316362022413 # 2251799813685248.

Lemma tl64_val : B2R tl64 = - Q2R al64.
Proof. unfold tl64. litval. unfold al64, Q2R, Qnum, Qden. lra. Qed.
Lemma tu64_val : B2R tu64 = Q2R xu64.
Proof. unfold tu64. litval. unfold xu64, Q2R, Qnum, Qden. lra. Qed.

Lemma al64_tan : Q2R (4950937304327924 # 2251799813685248) < tan (Q2R al64).
Proof.
assert (R : 0 <= Q2R al64 <= 2) by (unfold al64, Q2R, Qnum, Qden; lra).
destruct (sin_q al64 5) as [S1 _]; [lra|]. destruct (cos_q al64 5) as [_ C2]; [lra|].
assert (C0 : 0 < cos (Q2R al64)).
{ destruct (cos_q al64 3) as [C1 _]; [lra|]. apply Rlt_le_trans with (2 := C1).
  replace 0 with (Q2R 0) by (unfold Q2R, Qnum, Qden; lra). apply q_lt. vm_compute. reflexivity. }
set (c := Q2R (4950937304327924 # 2251799813685248)).
assert (H : c * cos (Q2R al64) < sin (Q2R al64)).
{ apply Rle_lt_trans with (c * Q2R (qcos al64 (2 * (5 + 1)))).
  - apply Rmult_le_compat_l; [unfold c, Q2R, Qnum, Qden; lra|easy].
  - apply Rlt_le_trans with (2 := S1). unfold c. rewrite <- Q2R_mult. apply q_lt. vm_compute. reflexivity. }
unfold tan. apply Rmult_lt_reg_r with (cos (Q2R al64)); [easy|]. unfold Rdiv.
rewrite Rmult_assoc, Rinv_l, Rmult_1_r by lra. easy.
Qed.
Lemma xu64_tan : - Q2R (4950937304327926 # 2251799813685248) < tan (Q2R xu64) <= -1.
Proof.
assert (R : 0 <= Q2R xu64 <= 2) by (unfold xu64, Q2R, Qnum, Qden; lra).
destruct (sin_q xu64 6) as [S1 S2]; [lra|]. destruct (cos_q xu64 6) as [C1 C2]; [lra|].
assert (C0 : cos (Q2R xu64) < 0).
{ apply Rle_lt_trans with (1 := C2).
  replace 0 with (Q2R 0) by (unfold Q2R, Qnum, Qden; lra). apply q_lt. vm_compute. reflexivity. }
set (c := Q2R (4950937304327926 # 2251799813685248)).
assert (H : sin (Q2R xu64) < - c * cos (Q2R xu64)).
{ apply Rlt_le_trans with (- c * Q2R (qcos xu64 (2 * (6 + 1)))).
  - apply Rle_lt_trans with (1 := S2). unfold c. rewrite <- Q2R_opp, <- Q2R_mult. apply q_lt. vm_compute. reflexivity.
  - apply Rmult_le_compat_neg_l; [unfold c, Q2R, Qnum, Qden; lra|easy]. }
assert (H' : - cos (Q2R xu64) <= sin (Q2R xu64)).
{ apply Rle_trans with (2 := S1). apply Rle_trans with (- Q2R (qcos xu64 (2 * 6 + 1))); [lra|].
  rewrite <- Q2R_opp. apply q_le. vm_compute. reflexivity. }
unfold tan, Rdiv.
assert (I : / cos (Q2R xu64) < 0) by now apply Rinv_lt_0_compat.
assert (E : cos (Q2R xu64) * / cos (Q2R xu64) = 1) by (apply Rinv_r; lra).
split; nra.
Qed.

Lemma not_greater {F} (g g' : float F) (ra rb c : R) : lb g ra -> ub g' rb ->
  (is_finite g = true -> B2R g <= c) -> (is_finite g' = true -> c <= B2R g') -> mpfr_greater g g' = false.
Proof.
intros H1 H2 H3 H4. unfold mpfr_greater.
destruct (fviewP g) as [ | | |g Fg]; try easy; destruct (fviewP g') as [ | | |g' Fg']; try easy.
- now destruct g' as [| | |[]].
- now destruct g as [| | |[]].
- rewrite fgt_fin by easy. apply Rlt_bool_false. specialize (H3 Fg). specialize (H4 Fg'). lra.
Qed.
Lemma tan64_result : exists z, returns (tan_itv (tl64, tu64)) z /\ snd z = @mpfr_tan binary64 mode_UP tu64.
Proof.
assert (W : wf (tl64, tu64)) by wf_tac.
assert (F1 : is_finite tl64 = true) by (vm_compute; reflexivity).
assert (F2 : is_finite tu64 = true) by (vm_compute; reflexivity).
unfold tan_itv. vred. replace (isnan tl64) with false by (vm_compute; reflexivity). vred. cbn [fst snd].
destruct (@pi_fin binary64) as [P1 P2].
assert (G1 : mpfr_greater (rsub mode_UP tu64 tl64) (mpfr_const_pi mode_DN) = false).
{ apply width_le; try easy.
  pose proof (rround_RD false PI : is_RD PI (@mpfr_const_pi binary64 mode_DN)) as [_ H].
  assert (L : lb (fl binary64 884279719003555 (-48)) PI).
  { rewrite lb_fin by (vm_compute; reflexivity). litval. pose proof pi_bounds as [Hlo Hhi]. pib. lra. }
  specialize (H _ L (B2R (@mpfr_const_pi binary64 mode_DN))).
  rewrite !lb_fin in H by (easy || (vm_compute; reflexivity)). specialize (H (Rle_refl _)).
  apply Rle_trans with (2 := H). rewrite tl64_val, tu64_val. litval. unfold al64, xu64, Q2R, Qnum, Qden. lra. }
rewrite G1.
assert (Ra : is_RD (tan (B2R tl64)) (@mpfr_tan binary64 mode_DN tl64)) by (unfold mpfr_tan; rewrite F1; apply rround_RD).
assert (Rb : is_RU (tan (B2R tu64)) (@mpfr_tan binary64 mode_UP tu64)) by (unfold mpfr_tan; rewrite F2; apply rround_RU).
rewrite tl64_val, tan_neg in Ra. rewrite tu64_val in Rb.
pose proof al64_tan as TA. pose proof xu64_tan as TB.
assert (G2 : mpfr_greater (@mpfr_tan binary64 mode_DN tl64) (mpfr_tan mode_UP tu64) = false).
{ destruct Ra as [A1 A2]. destruct Rb as [B1 B2]. clear A2 B2.
  revert A1 B1. generalize (@mpfr_tan binary64 mode_DN tl64) as g. generalize (@mpfr_tan binary64 mode_UP tu64) as g'.
  intros g' g A1 B1. revert A1 TA B1 TB. generalize (tan (Q2R al64)) (tan (Q2R xu64)). intros ta tb A1 TA B1 TB.
  apply not_greater with (- ta) tb (B2R (fl binary64 (-4950937304327925) (-51))); [exact A1|exact B1|..].
  - intros Fg. rewrite lb_fin in A1 by exact Fg.
    apply below_next with (fl binary64 (-4950937304327924) (-51)); [vm_compute; reflexivity..|exact Fg|].
    litval. unfold Q2R in TA; cbv [Qnum Qden] in TA. clear - A1 TA. lra.
  - intros Fg. rewrite ub_fin in B1 by exact Fg. apply Rnot_lt_le. intros K.
    assert (K2 : B2R g' <= B2R (fl binary64 (-4950937304327926) (-51))).
    { apply below_next with (fl binary64 (-4950937304327925) (-51)); [vm_compute; reflexivity..|exact Fg|exact K]. }
    revert K2. litval. unfold Q2R in TB; cbv [Qnum Qden] in TB. clear - B1 TB. lra. }
rewrite G2. eexists. split; [now intros s|reflexivity].
Qed.
Lemma tan64_zero : exists (x : itv binary64) z, wf x /\ returns (tan_itv x) z /\ mem 0 x /\ ~ mem 0 z.
Proof.
destruct tan64_result as (z & Hz & Ez). exists (tl64, tu64), z.
split; [wf_tac|]. split; [easy|]. split.
- split; cbn [fst snd]; [rewrite lb_fin, tl64_val by (vm_compute; reflexivity)|rewrite ub_fin, tu64_val by (vm_compute; reflexivity)];
    unfold al64, xu64, Q2R, Qnum, Qden; lra.
- intros [_ H]. rewrite Ez in H.
  assert (F2 : is_finite tu64 = true) by (vm_compute; reflexivity).
  assert (Rb : is_RU (tan (B2R tu64)) (@mpfr_tan binary64 mode_UP tu64)) by (unfold mpfr_tan; rewrite F2; apply rround_RU).
  destruct Rb as [_ B2]. rewrite tu64_val in B2. specialize (B2 fm1).
  rewrite ub_fin, B2R_fm1 in B2 by apply is_finite_fm1. specialize (B2 (proj2 xu64_tan) 0 H).
  rewrite ub_fin, B2R_fm1 in B2 by apply is_finite_fm1. lra.
Qed.
Lemma tan64_refuted : exists (x : itv binary64) z r, wf x /\ returns (tan_itv x) z /\ mem r x /\ cos r <> 0 /\ ~ mem (tan r) z.
Proof.
destruct tan64_zero as (x & z & W & Z & H0 & N). exists x, z, 0.
repeat split; try easy; try apply H0.
- rewrite cos_0. lra.
- now rewrite tan_0.
Qed.
