(** * Proofs: fused multiply-add is tightest *)

From Coq Require Import ZArith NArith Reals Bool Lia Lra Psatz.
From Flocq Require Import Core.Core IEEE754.BinarySingleNaN.
From Verif Require Import Fmt Spec FloatFacts Exc Deco SpecApi MBase PBase MBool MArith PArith PMul.

Local Open Scope R_scope.

Section M.
Context {F : fmt}.
Implicit Types a b c l u : float F.
Implicit Types x y z : itv F.

Definition fma_fun (r s t : R) := r * s + t.
Notation SF z x y := (image3 fma_fun x y z).

Lemma rfma_inf m a b c p : rmul m a b = p -> isinf p = true -> is_finite a = false \/ is_finite b = false ->
  is_finite c = true \/ c = p -> rfma m a b c = p.
Proof.
destruct a as [[]|[]| |[]], b as [[]|[]| |[]], c as [[]|[]| |[]]; simpl; intros H1 H2 H3 H4; subst; simpl in *; try easy;
destruct H3, H4; try easy.
Qed.
Lemma rfma_inf_r m a b c : is_finite a = true -> is_finite b = true -> isinf c = true -> rfma m a b c = c.
Proof. destruct a as [[]|[]| |[]], b as [[]|[]| |[]], c as [[]|[]| |[]]; easy. Qed.

Lemma glow_fma z a b c x y : low_end c z -> endp a x -> endp b y ->
  (is_finite a = true -> is_finite b = true -> forall r s, mem r x -> mem s y -> B2R a * B2R b <= r * s) ->
  (a = finf -> neg_f b) -> (a = fminf -> pos_f b) ->
  (b = finf -> neg_f a) -> (b = fminf -> pos_f a) ->
  glow (SF z x y) (rfma mode_DN a b c).
Proof.
intros Ec Ea Eb Hf Hap Ham Hbp Hbm.
assert (Hz : exists t, mem t z).
{ destruct Ec as [(_ & H & _)|[_ H]]; [now eexists; eauto|]. destruct (H 0) as (t & Ht & _). eauto. }
assert (Hx : exists t, mem t x).
{ destruct Ea as [[_ H]|[[_ H]|[_ H]]]; [eauto| |]; destruct (H 0) as (t & Ht & _); eauto. }
assert (Hy : exists t, mem t y).
{ destruct Eb as [[_ H]|[[_ H]|[_ H]]]; [eauto| |]; destruct (H 0) as (t & Ht & _); eauto. }
destruct Hz as [t0 Ht0], Hx as [r0 Hr0], Hy as [s0 Hs0].
assert (Hc : is_finite c = true \/ c = fminf) by (destruct Ec as [[H _]|[H _]]; auto).
assert (UM : unb_below (image2 everywhere2 Rmult x y) -> unb_below (SF z x y)).
{ intros H B. destruct (H (B - t0)) as (t & (r & s & Hr & Hs & _ & ->) & Ht).
  exists (r * s + t0). split; [now exists r, s, t0|]. lra. }
assert (I : is_finite a = false \/ is_finite b = false -> rmul mode_DN a b = fminf).
{ destruct Ea as [[Fa _]|[[Ia _]|[Ia _]]].
  - destruct Eb as [[Fb _]|[[Ib _]|[Ib _]]].
    + intros [E|E]; congruence.
    + intros _. rewrite rmul_sym, Ib. apply rmul_minf_pos; auto.
    + intros _. rewrite rmul_sym, Ib. apply rmul_pinf_neg; auto.
  - intros _. rewrite Ia. apply rmul_minf_pos; auto.
  - intros _. rewrite Ia. apply rmul_pinf_neg; auto. }
assert (Fin : is_finite a = true /\ is_finite b = true \/ is_finite a = false \/ is_finite b = false).
{ destruct (is_finite a), (is_finite b); auto. }
destruct Fin as [[Fa Fb]|Nf].
- destruct Ec as [(Fc & Mc & Lc)|(-> & Uc)].
  + apply glow_glb with (B2R a * B2R b + B2R c).
    2: now apply rnds_DN, rfma_rnds.
    assert (Ma : mem (B2R a) x). { destruct Ea as [[_ H]|[[Ia _]|[Ia _]]]; [easy|subst; easy|subst; easy]. }
    assert (Mb : mem (B2R b) y). { destruct Eb as [[_ H]|[[Ia _]|[Ia _]]]; [easy|subst; easy|subst; easy]. }
    apply glbR_min; [now exists (B2R a), (B2R b), (B2R c)|].
    intros ? (r & s & t & Hr & Hs & Ht & ->). unfold fma_fun.
    specialize (Hf Fa Fb r s Hr Hs). specialize (Lc t Ht). lra.
  + rewrite rfma_inf_r by easy. apply glow_unb. intros B.
    destruct (Uc (B - r0 * s0)) as (t & Ht & Ht'). exists (r0 * s0 + t). split; [now exists r0, s0, t|lra].
- rewrite (rfma_inf _ a b c fminf) by auto.
  apply glow_unb, UM. intros B.
  destruct Ea as [[Fa Ma]|[[Ia Ma]|[Ia Ma]]].
  + destruct Eb as [[Fb _]|[[Ib Mb]|[Ib Mb]]]; [destruct Nf; congruence| |].
    * specialize (Hbm Ib). apply pos_f_fin in Hbm; [|easy].
      destruct (unb_mul y x (B2R a) B Ma) as (t & Ht & Ht'); [lra| |].
      -- rewrite Rlt_bool_true by easy. apply Mb.
      -- exists t. split; [now apply image2_sym|easy].
    * specialize (Hbp Ib). apply neg_f_fin in Hbp; [|easy].
      destruct (unb_mul y x (B2R a) B Ma) as (t & Ht & Ht'); [lra| |].
      -- rewrite Rlt_bool_false by lra. apply Mb.
      -- exists t. split; [now apply image2_sym|easy].
  + destruct (endp_pos b y) as (s & Hs & Hs'); auto.
    apply unb_mul with s; [easy|lra|]. rewrite Rlt_bool_true by easy. apply Ma.
  + destruct (endp_neg b y) as (s & Hs & Hs'); auto.
    apply unb_mul with s; [easy|lra|]. rewrite Rlt_bool_false by lra. apply Ma.
Qed.

Lemma gupp_fma z a b c x y : upp_end c z -> endp a x -> endp b y ->
  (is_finite a = true -> is_finite b = true -> forall r s, mem r x -> mem s y -> r * s <= B2R a * B2R b) ->
  (a = finf -> pos_f b) -> (a = fminf -> neg_f b) ->
  (b = finf -> pos_f a) -> (b = fminf -> neg_f a) ->
  gupp (SF z x y) (rfma mode_UP a b c).
Proof.
intros Ec Ea Eb Hf Hap Ham Hbp Hbm.
assert (Hz : exists t, mem t z).
{ destruct Ec as [(_ & H & _)|[_ H]]; [now eexists; eauto|]. destruct (H 0) as (t & Ht & _). eauto. }
assert (Hx : exists t, mem t x).
{ destruct Ea as [[_ H]|[[_ H]|[_ H]]]; [eauto| |]; destruct (H 0) as (t & Ht & _); eauto. }
assert (Hy : exists t, mem t y).
{ destruct Eb as [[_ H]|[[_ H]|[_ H]]]; [eauto| |]; destruct (H 0) as (t & Ht & _); eauto. }
destruct Hz as [t0 Ht0], Hx as [r0 Hr0], Hy as [s0 Hs0].
assert (Hc : is_finite c = true \/ c = finf) by (destruct Ec as [[H _]|[H _]]; auto).
assert (UM : unb_above (image2 everywhere2 Rmult x y) -> unb_above (SF z x y)).
{ intros H B. destruct (H (B - t0)) as (t & (r & s & Hr & Hs & _ & ->) & Ht).
  exists (r * s + t0). split; [now exists r, s, t0|]. lra. }
assert (I : is_finite a = false \/ is_finite b = false -> rmul mode_UP a b = finf).
{ destruct Ea as [[Fa _]|[[Ia _]|[Ia _]]].
  - destruct Eb as [[Fb _]|[[Ib _]|[Ib _]]].
    + intros [E|E]; congruence.
    + intros _. rewrite rmul_sym, Ib. apply rmul_minf_neg; auto.
    + intros _. rewrite rmul_sym, Ib. apply rmul_pinf_pos; auto.
  - intros _. rewrite Ia. apply rmul_minf_neg; auto.
  - intros _. rewrite Ia. apply rmul_pinf_pos; auto. }
assert (Fin : is_finite a = true /\ is_finite b = true \/ is_finite a = false \/ is_finite b = false).
{ destruct (is_finite a), (is_finite b); auto. }
destruct Fin as [[Fa Fb]|Nf].
- destruct Ec as [(Fc & Mc & Lc)|(-> & Uc)].
  + apply gupp_lub with (B2R a * B2R b + B2R c).
    2: now apply rnds_UP, rfma_rnds.
    assert (Ma : mem (B2R a) x). { destruct Ea as [[_ H]|[[Ia _]|[Ia _]]]; [easy|subst; easy|subst; easy]. }
    assert (Mb : mem (B2R b) y). { destruct Eb as [[_ H]|[[Ia _]|[Ia _]]]; [easy|subst; easy|subst; easy]. }
    apply lubR_max; [now exists (B2R a), (B2R b), (B2R c)|].
    intros ? (r & s & t & Hr & Hs & Ht & ->). unfold fma_fun.
    specialize (Hf Fa Fb r s Hr Hs). specialize (Lc t Ht). lra.
  + rewrite rfma_inf_r by easy. apply gupp_unb. intros B.
    destruct (Uc (B - r0 * s0)) as (t & Ht & Ht'). exists (r0 * s0 + t). split; [now exists r0, s0, t|lra].
- rewrite (rfma_inf _ a b c finf) by auto.
  apply gupp_unb, UM. intros B.
  destruct Ea as [[Fa Ma]|[[Ia Ma]|[Ia Ma]]].
  + destruct Eb as [[Fb _]|[[Ib Mb]|[Ib Mb]]]; [destruct Nf; congruence| |].
    * specialize (Hbm Ib). apply neg_f_fin in Hbm; [|easy].
      destruct (unb_mul_up y x (B2R a) B Ma) as (t & Ht & Ht'); [lra| |].
      -- rewrite Rlt_bool_false by lra. apply Mb.
      -- exists t. split; [now apply image2_sym|easy].
    * specialize (Hbp Ib). apply pos_f_fin in Hbp; [|easy].
      destruct (unb_mul_up y x (B2R a) B Ma) as (t & Ht & Ht'); [lra| |].
      -- rewrite Rlt_bool_true by lra. apply Mb.
      -- exists t. split; [now apply image2_sym|easy].
  + destruct (endp_neg b y) as (s & Hs & Hs'); auto.
    apply unb_mul_up with s; [easy|lra|]. rewrite Rlt_bool_false by lra. apply Ma.
  + destruct (endp_pos b y) as (s & Hs & Hs'); auto.
    apply unb_mul_up with s; [easy|lra|]. rewrite Rlt_bool_true by lra. apply Ma.
Qed.


Lemma image3_empty_1 f (x y z : itv F) r : isnan (fst x) = true -> wf x -> ~ image3 f x y z r.
Proof. intros E W (s & t & v & H & _). apply wf_nan_l in E; [|easy]. subst x. now apply mem_empty in H. Qed.
Lemma image3_empty_2 f (x y z : itv F) r : isnan (fst y) = true -> wf y -> ~ image3 f x y z r.
Proof. intros E W (s & t & v & _ & H & _). apply wf_nan_l in E; [|easy]. subst y. now apply mem_empty in H. Qed.
Lemma image3_empty_3 f (x y z : itv F) r : isnan (fst z) = true -> wf z -> ~ image3 f x y z r.
Proof. intros E W (s & t & v & _ & _ & H & _). apply wf_nan_l in E; [|easy]. subst z. now apply mem_empty in H. Qed.

Lemma wview_entire x : wview x -> feq (fst x) fminf && feq (snd x) finf = true -> x = (fminf, finf).
Proof.
intros [ | |u Hu|l Hl|l u Hl Hu Hlu]; simpl; try easy.
- now rewrite feq_pinf_r.
- now rewrite feq_minf_r.
- now rewrite feq_minf_r.
Qed.
Lemma wview_zero x : feq (fst x) f0 && feq (snd x) f0 = true -> forall r, mem r x <-> r = 0.
Proof.
intros Z. apply andb_prop in Z. destruct Z as [Z1 Z2]. apply feq_f0 in Z1. apply feq_f0 in Z2.
intros r. unfold mem. rewrite lb_fin, ub_fin by easy. lra.
Qed.

Lemma fma_tightest x y z : wf x -> wf y -> wf z ->
  computes_tightest (fma x y z) (image3 (fun r s t => r * s + t) x y z).
Proof.
intros Wx Wy Wz. unfold fma. vred.
destruct (isnan (fst x)) eqn:Ex; vred.
{ eapply ct_ret; [reflexivity|]. apply tightest_empty. intros; now apply image3_empty_1. }
destruct (isnan (fst y)) eqn:Ey; vred.
{ eapply ct_ret; [reflexivity|]. apply tightest_empty. intros; now apply image3_empty_2. }
destruct (isnan (fst z)) eqn:Ez; vred.
{ eapply ct_ret; [reflexivity|]. apply tightest_empty. intros; now apply image3_empty_3. }
pose proof (wf_nonempty x Wx Ex) as [rx Hrx]. pose proof (wf_nonempty y Wy Ey) as [ry Hry].
pose proof (wf_nonempty z Wz Ez) as [rz Hrz].
assert (NE : exists r, image3 (fun r s t => r * s + t) x y z r) by now exists (rx * ry + rz), rx, ry, rz.
pose proof Wx as Wx'. pose proof Wy as Wy'. pose proof Wz as Wz'.
apply wf_view in Wx. apply wf_view in Wy. apply wf_view in Wz.
destruct (feq (fst x) f0 && feq (snd x) f0) eqn:Zx.
{ pose proof (wview_zero x Zx) as H.
  eapply ct_ret; [reflexivity|]. apply tightest_self; [easy|]. intros r. split.
  - intros (r1 & s & t & Hr & Hs & Ht & ->). apply H in Hr. subst. now replace (0 * s + t) with t by ring.
  - intros Hr. exists 0, ry, r. rewrite H. split; [easy|split; [easy|split; [easy|ring]]]. }
destruct (feq (fst y) f0 && feq (snd y) f0) eqn:Zy.
{ pose proof (wview_zero y Zy) as H.
  eapply ct_ret; [reflexivity|]. apply tightest_self; [easy|]. intros r. split.
  - intros (r1 & s & t & Hr & Hs & Ht & ->). apply H in Hs. subst. now replace (r1 * 0 + t) with t by ring.
  - intros Hr. exists rx, 0, r. rewrite H. split; [easy|split; [easy|split; [easy|ring]]]. }
destruct (feq (fst x) fminf && feq (snd x) finf) eqn:Ix.
{ apply (wview_entire x Wx) in Ix. subst x.
  destruct (nonzero_mem y Wy Ey Zy) as (s0 & Hs0 & Ns0).
  eapply ct_ret; [reflexivity|]. apply tightest_intro; [easy| |].
  - apply glow_unb. intros B. exists ((B - rz - 1) / s0 * s0 + rz). split; [now exists ((B - rz - 1) / s0), s0, rz|].
    field_simplify; [lra|easy].
  - apply gupp_unb. intros B. exists ((B - rz + 1) / s0 * s0 + rz). split; [now exists ((B - rz + 1) / s0), s0, rz|].
    field_simplify; [lra|easy]. }
destruct (feq (fst y) fminf && feq (snd y) finf) eqn:Iy.
{ apply (wview_entire y Wy) in Iy. subst y.
  destruct (nonzero_mem x Wx Ex Zx) as (s0 & Hs0 & Ns0).
  eapply ct_ret; [reflexivity|]. apply tightest_intro; [easy| |].
  - apply glow_unb. intros B. exists (s0 * ((B - rz - 1) / s0) + rz). split; [now exists s0, ((B - rz - 1) / s0), rz|].
    field_simplify; [lra|easy].
  - apply gupp_unb. intros B. exists (s0 * ((B - rz + 1) / s0) + rz). split; [now exists s0, ((B - rz + 1) / s0), rz|].
    field_simplify; [lra|easy]. }
eapply ct_ret; [reflexivity|].
apply (body_tightest (fun x y => SF z x y) (fun a b => rfma mode_DN a b (fst z)) (fun a b => rfma mode_UP a b (snd z))); try easy.
- intros; apply glow_fma; auto. now apply low_end_fst.
- intros; apply gupp_fma; auto. now apply upp_end_snd.
- intros x' x1 x2 y' t H. split.
  + intros (r & s & v & Hr & Hs & Hv & ->). apply H in Hr. destruct Hr; [left|right]; now exists r, s, v.
  + intros [(r & s & v & Hr & Hs & Hv & ->)|(r & s & v & Hr & Hs & Hv & ->)]; exists r, s, v; rewrite H; auto.
- intros x' y' r s Hr Hs. now exists (r * s + rz), r, s, rz.
Qed.

End M.
