(** * Proofs: conversion between bound types *)

From Coq Require Import ZArith NArith Reals Bool Lia Lra.
From Flocq Require Import Core.Core IEEE754.BinarySingleNaN.
From Verif Require Import Fmt Spec FloatFacts Exc Deco SpecApi MBase PBase MBool MArith PArith PMul PUnary.

Local Open Scope R_scope.

(** ** Rounding conversion *)
Section C.
Context {F : fmt} (G : fmt).

Lemma fconv_rnds m (x : float F) : is_finite x = true -> rnds m (B2R x) (fconv G m x).
Proof.
destruct x as [s|s| |s mx ex Hx]; try easy; intros _.
- unfold rnds. simpl. rewrite round_0 by apply valid_rnd_round_mode. rewrite Rabs_R0, Rlt_bool_true by apply bpow_gt_0. easy.
- unfold fconv.
  generalize (binary_normalize_correct (prec G) (emax G) _ _ m (cond_Zopp s (Zpos mx)) ex s).
  change (B2R (B754_finite s mx ex Hx)) with (F2R (Float radix2 (cond_Zopp s (Zpos mx)) ex)).
  unfold rnds. change (SpecFloat.fexp (prec G) (emax G)) with (fexp G).
  case Rlt_bool; intros H; [now split|easy].
Qed.
Lemma fconv_pinf m : fconv G m (@finf F) = finf. Proof. reflexivity. Qed.
Lemma fconv_minf m : fconv G m (@fminf F) = fminf. Proof. reflexivity. Qed.
Lemma fconv_nan m : fconv G m (@fnan F) = fnan. Proof. reflexivity. Qed.

(** Every value of the narrower format is a value of the wider one. *)
Definition within : Prop := (prec F <= prec G)%Z /\ (emax F <= emax G)%Z.

Lemma within_format r : within -> generic_format radix2 (fexp F) r -> generic_format radix2 (fexp G) r.
Proof.
intros [Hp He]. apply generic_inclusion_mag. intros _. unfold fexp, SpecFloat.fexp, SpecFloat.emin. lia.
Qed.

Lemma fconv_exact m (x : float F) : within -> is_finite x = true ->
  is_finite (fconv G m x) = true /\ B2R (fconv G m x) = B2R x.
Proof.
intros W Fx. pose proof (fconv_rnds m x Fx) as H. unfold rnds in H.
rewrite round_generic in H.
- rewrite Rlt_bool_true in H; [now split|].
  apply Rlt_le_trans with (1 := B2R_bound x). apply bpow_le, W.
- apply valid_rnd_round_mode.
- apply within_format; [easy|]. apply B2R_format.
Qed.

Lemma convert_rndd_fin (x : float F) : is_finite x = true -> is_RD (B2R x) (convert_rndd G x).
Proof.
intros Fx. pose proof (rnds_DN _ _ (fconv_rnds mode_DN x Fx)) as H.
unfold convert_rndd. destruct feq eqn:E; [|easy]. apply feq_f0 in E. destruct E as [E1 E2].
destruct H as [H1 H2]. split.
- rewrite lb_fin in H1 by easy. rewrite E2 in H1. now rewrite lb_fin.
- intros l' Hl' t. rewrite lb_fin by easy. intros Ht. apply H2; [easy|]. rewrite lb_fin, E2 by easy. easy.
Qed.
Lemma convert_rndu_fin (x : float F) : is_finite x = true -> is_RU (B2R x) (convert_rndu G x).
Proof.
intros Fx. pose proof (rnds_UP _ _ (fconv_rnds mode_UP x Fx)) as H.
unfold convert_rndu. destruct feq eqn:E; [|easy]. apply feq_f0 in E. destruct E as [E1 E2].
destruct H as [H1 H2]. split.
- rewrite ub_fin in H1 by easy. rewrite E2 in H1. now rewrite ub_fin.
- intros l' Hl' t. rewrite ub_fin by easy. intros Ht. apply H2; [easy|]. rewrite ub_fin, E2 by easy. easy.
Qed.

Lemma convert_glow (x : float F) (S : R -> Prop) :
  (is_finite x = true -> glbR S (B2R x)) -> (x = fminf -> unb_below S) ->
  x <> finf -> isnan x = false -> glow S (convert_rndd G x).
Proof.
intros H1 H2 H3 H4. destruct (fviewP x) as [ | | |x Fx]; try easy.
- now apply glow_unb, H2.
- apply glow_glb with (B2R x); [now apply H1|now apply convert_rndd_fin].
Qed.
Lemma convert_gupp (x : float F) (S : R -> Prop) :
  (is_finite x = true -> lubR S (B2R x)) -> (x = finf -> unb_above S) ->
  x <> fminf -> isnan x = false -> gupp S (convert_rndu G x).
Proof.
intros H1 H2 H3 H4. destruct (fviewP x) as [ | | |x Fx]; try easy.
- now apply gupp_unb, H2.
- apply gupp_lub with (B2R x); [now apply H1|now apply convert_rndu_fin].
Qed.

Lemma low_end_glb (a : float F) x : low_end a x -> is_finite a = true -> glbR (fun r => mem r x) (B2R a).
Proof. intros [(H & M & L)|[-> _]] H'; [now apply glbR_min|easy]. Qed.
Lemma upp_end_lub (a : float F) x : upp_end a x -> is_finite a = true -> lubR (fun r => mem r x) (B2R a).
Proof. intros [(H & M & L)|[-> _]] H'; [now apply lubR_max|easy]. Qed.

Lemma convert_hull_tightest (x : itv F) : wf x -> tightest (fun r => mem r x) (convert_hull G x).
Proof.
intros W. destruct (isnan (fst x)) eqn:E.
- apply wf_nan_l in E; [|easy]. subst x. apply tightest_empty. now intros r [].
- pose proof (wf_nonempty x W E) as NE. apply wf_view in W.
  pose proof (low_end_fst x W E) as L. pose proof (upp_end_snd x W E) as U.
  apply tightest_intro; [easy| |].
  + apply convert_glow; [now apply low_end_glb| | |easy].
    * intros E'. rewrite E' in L. now destruct L as [[L _]|[_ L]].
    * intros E'. rewrite E' in L. now destruct L as [[L _]|[L _]].
  + apply convert_gupp; [now apply upp_end_lub| | |now apply upp_end_nan with x].
    * intros E'. rewrite E' in U. now destruct U as [[U _]|[_ U]].
    * intros E'. rewrite E' in U. now destruct U as [[U _]|[U _]].
Qed.

Lemma lb_exact m (a : float F) r : within -> lb (fconv G m a) r <-> lb a r.
Proof.
intros W. destruct (fviewP a) as [ | | |a Fa]; try easy.
destruct (fconv_exact m a W Fa) as [H1 H2]. now rewrite !lb_fin, H2 by easy.
Qed.
Lemma ub_exact m (a : float F) r : within -> ub (fconv G m a) r <-> ub a r.
Proof.
intros W. destruct (fviewP a) as [ | | |a Fa]; try easy.
destruct (fconv_exact m a W Fa) as [H1 H2]. now rewrite !ub_fin, H2 by easy.
Qed.
End C.
Arguments within : clear implicits.

Lemma within_refl F : within F F. Proof. split; apply Z.le_refl. Qed.

Lemma tightest_wf {F} S (z : itv F) : tightest S z -> wf z.
Proof. now intros []. Qed.

Lemma wf_convert_hull {F} G (x : itv F) : wf x -> wf (convert_hull G x).
Proof. intros W. now apply (tightest_wf _ _ (convert_hull_tightest G x W)). Qed.

(** Widening is exact as a set. *)
Lemma convert_hull_exact {F} G (x : itv F) : within F G -> wf x -> forall r, mem r (convert_hull G x) <-> mem r x.
Proof.
intros W Wx r. unfold convert_hull, mem; simpl.
assert (L : lb (convert_rndd G (fst x)) r <-> lb (fst x) r).
{ unfold convert_rndd. destruct feq eqn:E; [|now apply lb_exact].
  apply feq_f0 in E. rewrite <- (lb_exact G mode_DN (fst x)) by easy.
  now rewrite !lb_fin, (proj2 E) by easy. }
assert (U : ub (convert_rndu G (snd x)) r <-> ub (snd x) r).
{ unfold convert_rndu. destruct feq eqn:E; [|now apply ub_exact].
  apply feq_f0 in E. rewrite <- (ub_exact G mode_UP (snd x)) by easy.
  now rewrite !ub_fin, (proj2 E) by easy. }
now rewrite L, U.
Qed.

(** ** Comparisons across formats *)
(** One format is strictly wider than the other, or they are the same; true of
    any two of float, double and long double. *)
Definition nested (F G : fmt) : Prop := (prec F < prec G)%Z /\ (emax F <= emax G)%Z.
Definition comparable (F G : fmt) : Prop := F = G \/ nested F G \/ nested G F.

Lemma comparable_refl F : comparable F F. Proof. now left. Qed.
Lemma comparable_sym F G : comparable F G -> comparable G F.
Proof. intros [H|[H|H]]; [left; now symmetry|right; now right|right; now left]. Qed.
Lemma within_pw F G : comparable F G -> within F (pw F G) /\ within G (pw F G).
Proof.
unfold pw, within. intros [<-|[[H1 H2]|[H1 H2]]].
- destruct Z.ltb; repeat split; lia.
- destruct (Z.ltb_spec (prec F) (prec G)); repeat split; lia.
- destruct (Z.ltb_spec (prec F) (prec G)); repeat split; lia.
Qed.

Section Cmp.
Context {F G : fmt} (C : comparable F G).
Implicit Types (a : float F) (b : float G).

Lemma cmp2_fin a b : is_finite a = true -> is_finite b = true ->
  fle2 a b = Rle_bool (B2R a) (B2R b) /\ flt2 a b = Rlt_bool (B2R a) (B2R b) /\ feq2 a b = Req_bool (B2R a) (B2R b).
Proof.
intros Fa Fb. destruct (within_pw F G C) as [WF WG].
destruct (fconv_exact (pw F G) mode_NE a WF Fa) as [H1 H2].
destruct (fconv_exact (pw F G) mode_NE b WG Fb) as [H3 H4].
unfold fle2, flt2, feq2. rewrite fle_fin, flt_fin, feq_fin, H2, H4 by easy. easy.
Qed.
Lemma fle2_fin a b : is_finite a = true -> is_finite b = true -> fle2 a b = Rle_bool (B2R a) (B2R b).
Proof. intros; now apply cmp2_fin. Qed.
Lemma flt2_fin a b : is_finite a = true -> is_finite b = true -> flt2 a b = Rlt_bool (B2R a) (B2R b).
Proof. intros; now apply cmp2_fin. Qed.
Lemma feq2_fin a b : is_finite a = true -> is_finite b = true -> feq2 a b = Req_bool (B2R a) (B2R b).
Proof. intros; now apply cmp2_fin. Qed.

Lemma fin2_l a : is_finite a = true -> is_finite (fconv (pw F G) mode_NE a) = true.
Proof. intros H. now apply fconv_exact; [apply within_pw|]. Qed.
Lemma fin2_r b : is_finite b = true -> is_finite (fconv (pw F G) mode_NE b) = true.
Proof. intros H. now apply fconv_exact; [apply within_pw|]. Qed.

Lemma cmp2_fin_minf a : is_finite a = true -> fle2 a (@fminf G) = false /\ flt2 a (@fminf G) = false /\ feq2 a (@fminf G) = false.
Proof. intros H. apply fin2_l in H. unfold fle2, flt2, feq2. rewrite fconv_minf, fle_minf_r, flt_minf_r, feq_minf_r by easy. easy. Qed.
Lemma cmp2_fin_pinf a : is_finite a = true -> fle2 a (@finf G) = true /\ flt2 a (@finf G) = true /\ feq2 a (@finf G) = false.
Proof. intros H. apply fin2_l in H. unfold fle2, flt2, feq2. rewrite fconv_pinf, fle_pinf_r, flt_pinf_r, feq_pinf_r by (try apply isnan_fin; easy). easy. Qed.
Lemma cmp2_minf_fin b : is_finite b = true -> fle2 (@fminf F) b = true /\ flt2 (@fminf F) b = true /\ feq2 (@fminf F) b = false.
Proof. intros H. apply fin2_r in H. unfold fle2, flt2, feq2. rewrite fconv_minf, fle_minf_l, flt_minf_l, feq_minf_l by (try apply isnan_fin; easy). easy. Qed.
Lemma cmp2_pinf_fin b : is_finite b = true -> fle2 (@finf F) b = false /\ flt2 (@finf F) b = false /\ feq2 (@finf F) b = false.
Proof. intros H. apply fin2_r in H. unfold fle2, flt2, feq2. rewrite fconv_pinf, fle_pinf_l, flt_pinf_l, feq_pinf_l by easy. easy. Qed.
Lemma fle2_nan_l b : fle2 (@fnan F) b = false. Proof. reflexivity. Qed.
Lemma flt2_nan_l b : flt2 (@fnan F) b = false. Proof. reflexivity. Qed.
Lemma feq2_nan_l b : feq2 (@fnan F) b = false. Proof. reflexivity. Qed.
Lemma fle2_nan_r a : fle2 a (@fnan G) = false. Proof. unfold fle2. rewrite fconv_nan. apply fle_nan_r. Qed.
Lemma flt2_nan_r a : flt2 a (@fnan G) = false. Proof. unfold flt2. rewrite fconv_nan. apply flt_nan_r. Qed.
Lemma feq2_nan_r a : feq2 a (@fnan G) = false. Proof. unfold feq2. rewrite fconv_nan. apply feq_nan_r. Qed.
End Cmp.

Example nested_32_64 : nested binary32 binary64. Proof. split; vm_compute; congruence. Qed.
Example nested_64_80 : nested binary64 binary80. Proof. split; vm_compute; congruence. Qed.
Example nested_32_80 : nested binary32 binary80. Proof. split; vm_compute; congruence. Qed.
