(** * Proofs: the cancellative operations return *)
From Coq Require Import ZArith NArith Reals Bool Lra Lia List Classical.
From Flocq Require Import Core.Core IEEE754.BinarySingleNaN.
From Verif Require Import Fmt Spec FloatFacts Exc Deco SpecApi SpecElem SpecDeco SpecMixed SpecNum SpecNai SpecRel SpecRev SpecCancel SpecProg SpecBlind MBase PBase MBool MOverlap MArith PArith
    Ex PAlg2 PValid5 MDec MMixed MCancel MRev PConv PBool PSetop PClass PDec PUnary PMixed PRevW PNai PCancel POverlap PBlind PValid PValid2 PValid3 PValid4 PValid6 PInv PInv2 PCalm MProg.
Local Open Scope m_scope.

Lemma minus_calm F (x y : itv F) : wf x -> wf y -> calm (cancel_minus x y).
Proof.
intros Wx Wy. unfold cancel_minus. rewrite is_valid_wf by easy. mreds.
destruct (feq (fst x) fminf || feq (snd x) finf || feq (fst y) fminf || feq (snd y) finf)%bool; [now apply g_ret|].
destruct (overlap_correct (comparable_refl F) x y Wx Wy) as (o & E & _). apply returns_eq in E. rewrite E. mreds.
destruct o; try (now apply g_ret); apply g_if; intros _; now apply g_ret.
Qed.
Lemma minus_mixed_calm T F G (x : itv F) (y : itv G) : wf x -> wf y -> calm (cancel_minus_mixed T x y).
Proof.
intros Wx Wy. unfold cancel_minus_mixed, mixed2. cbv zeta. apply g_mif; [cond|now apply g_ret|].
eapply g_bind; [apply minus_calm; now apply wf_convert_hull|]. intros z _. now apply g_ret.
Qed.
Lemma canc_calm F G T f : canc F G T f -> forall x y, wf x -> wf y -> calm (f x y).
Proof.
destruct 1; intros x y Wx Wy.
- now apply minus_calm.
- now apply minus_mixed_calm.
- eapply g_bind; [now apply neg_giv|]. intros z Wz. now apply minus_calm.
- eapply g_bind; [now apply (un0_giv _ _ _ (u_neg_mixed T G))|]. intros z Wz. now apply minus_mixed_calm.
Qed.
Lemma canc_giv F G T f : canc F G T f -> forall x y, clear T F G x y -> wf x -> wf y -> gives (f x y) wf.
Proof. intros C x y K Wx Wy. apply gives_del with (1 := canc_calm F G T f C x y Wx Wy). now apply (canc_clear F G T). Qed.

Lemma minus_dec_calm F (x y : ditv F) : valid_dec x -> valid_dec y -> calm (cancel_minus_dec x y).
Proof.
intros Wx Wy. unfold cancel_minus_dec. apply g_mif; [cond|now apply g_ret|].
eapply g_bind; [apply minus_calm; now apply vd_wf|]. intros z _. now apply g_ret.
Qed.
Lemma plus_dec_calm F (x y : ditv F) : valid_dec x -> valid_dec y -> calm (cancel_plus_dec x y).
Proof. intros Wx Wy. eapply g_bind; [now apply neg_dec_giv|]. intros z Wz. now apply minus_dec_calm. Qed.
Lemma minus_dec_mixed_calm T F G (x : ditv F) (y : ditv G) : comparable T F -> comparable T G -> comparable F G ->
  valid_dec x -> valid_dec y -> snd x = ill \/ snd y = ill \/ ~ blind (pmax (pmax T F) G) (fst x) (fst y) -> calm (cancel_minus_dec_mixed T x y).
Proof.
intros C1 C2 C3 Vx Vy D. destruct Vx as [Wx Dx], Vy as [Wy Dy].
destruct (N.eq_dec (snd x) ill) as [E|E]; [|destruct (N.eq_dec (snd y) ill) as [E'|E']].
- eapply g_returns; [apply cancel_minus_dec_mixed_nai; auto|easy].
- eapply g_returns; [apply cancel_minus_dec_mixed_nai; auto|easy].
- destruct D as [D|[D|N]]; try easy.
  destruct (within_pmax3 T F G C1 C2 C3) as (A & B & C).
  unfold cancel_minus_dec_mixed, mixed_dec2. cbv zeta. set (W := pmax (pmax T F) G) in *.
  destruct (widen_dec W x B Wx E) as (Cx & Wx' & _). destruct (widen_dec W y C Wy E') as (Cy & Wy' & _).
  apply g_mif; [rewrite !is_valid_dec_wf, !is_nai_wf by easy; mreds; destruct (deq (snd x) ill); now apply g_ret|now apply g_ret|]. rewrite Cx. mreds. rewrite Cy. mreds.
  eapply g_bind with (Q := valid_dec).
  + apply gives_del with (Q := fun _ => True); [now apply minus_dec_calm|]. apply minus_dec_clear; try easy. cbn [fst snd]. now rewrite blind_conv.
  + intros z Vz. destruct (gconv_dec T z Vz) as (v & Hv & _). now exists v.
Qed.
Lemma dcanc_giv F G T f : dcanc F G T f -> forall x y, clear T F G (fst x) (fst y) -> valid_dec x -> valid_dec y -> gives (f x y) valid_dec.
Proof.
intros C x y K Wx Wy. apply gives_del with (Q := fun _ => True); [|now apply (dcanc_clear F G T)].
destruct C; destruct K as (C1 & C2 & C3 & N & P).
- now apply minus_dec_calm.
- apply minus_dec_mixed_calm; auto.
- now apply plus_dec_calm.
- eapply g_bind with (Q := fun v => valid_dec v /\ (snd v = ill \/ ~ blind (pmax T F) (fst x) (fst v))).
  + destruct (dun0_giv _ _ _ (du_neg_mixed T G) y Wy) as (v & Hv & Vv). exists v. split; [easy|]. split; [easy|].
    pose proof (proj1 (returns_eq _ _) Hv) as Ev. revert Ev. unfold neg_dec_mixed. rewrite is_valid_dec_wf, is_nai_wf by (now destruct Wy).
    destruct (deq_spec (snd y) ill) as [D|D]; mreds.
    { intros Ev. left. apply (f_equal (fun m => fst (m (Est 0 0)))) in Ev. injection Ev as <-. reflexivity. }
    destruct (neg_dec_shape y Wy) as (y' & E & V' & _ & N'). specialize (N' D). rewrite E. mreds.
    pose proof (neg_mixed_clear (T := T) (fst x) (fst y) (vd_wf y Wy) P) as K.
    assert (R : neg_mixed T (fst y) = ret (convert_hull T (fst y'))).
    { unfold neg_mixed. destruct (neg_ret (fst y) (vd_wf y Wy)) as (u & Ru & _ & _ & Eu).
      rewrite is_valid_wf by now apply vd_wf. mreds. rewrite Ru. mreds. now rewrite Eu, N'. }
    rewrite R in K. destruct (K (Est 0 0) _ _ eq_refl) as (Wz & A).
    unfold convert_hull_dec. rewrite is_nai_wf by now destruct V'.
    destruct (deq (snd y') ill); mreds.
    * intros Ev. left. apply (f_equal (fun m => fst (m (Est 0 0)))) in Ev. injection Ev as <-. reflexivity.
    * cbv zeta. destruct (deq (snd y') com && _)%bool; intros Ev; apply (f_equal (fun m => fst (m (Est 0 0)))) in Ev; injection Ev as <-; now right.
  + intros v (Vv & A). apply minus_dec_mixed_calm; auto using comparable_refl, comparable_sym. rewrite pmax_twice by easy. tauto.
Qed.
(** With blind operands, the mixed-type decorated version reports its own invalid
    intermediate result. *)
Lemma conv_bad (x : itv binary64) : run (ret (convert_hull binary64 x)) = okz (fst x) (snd x) -> convert_hull binary64 x = x.
Proof. intros H. rewrite (surjective_pairing x) at 2. apply run_is with (1 := H). now intros s. Qed.
Lemma bad_x_dac : wf_dec (bad_x, dac).
Proof.
right. split; [|split; [easy|discriminate]]. apply wf_nonempty; [wf_tac|reflexivity].
Qed.
Lemma bad_y_dac : wf_dec (bad_y, dac).
Proof.
right. split; [|split; [easy|discriminate]]. apply wf_nonempty; [wf_tac|reflexivity].
Qed.
Lemma minus_dec_mixed_reports : exists v, reports_invalid (cancel_minus_dec_mixed binary64 (bad_x, dac) (bad_y, dac)) v.
Proof.
assert (Wx := bad_x_dac). assert (Wy := bad_y_dac).
assert (B : within binary64 binary64) by apply within_refl.
destruct (widen_dec binary64 (bad_x, dac) B Wx) as (Cx & _); [easy|].
destruct (widen_dec binary64 (bad_y, dac) B Wy) as (Cy & _); [easy|].
cbn [fst snd] in Cx, Cy.
rewrite (conv_bad bad_x) in Cx by (vm_compute; reflexivity). rewrite (conv_bad bad_y) in Cy by (vm_compute; reflexivity).
eexists.
unfold cancel_minus_dec_mixed, mixed_dec2. cbv zeta. rewrite !pmax_same.
rewrite !is_valid_dec_wf, !is_nai_wf by easy. cbn [snd]. change (deq dac ill) with false. mreds. rewrite Cx. mreds. rewrite Cy. mreds.
unfold cancel_minus_dec. rewrite !is_valid_dec_wf, !is_nai_wf by easy. cbn [fst snd]. change (deq dac ill) with false. mreds. rewrite bad_returns. mreds.
assert (N : ~ wf_dec (cancel_bounds bad_x bad_y, trv)).
{ intros [[E _]|[(r & M) _]]; [apply bad_not_wf; cbn [fst] in E; rewrite E; apply wf_empty|apply bad_not_wf; right; now exists r]. }
unfold convert_hull_dec. apply reports_mif with (v := false).
- apply reports_mif with (v := true); [|reflexivity]. apply (reports_mnot _ _ _ false), is_valid_dec_reports, N.
- cbn [snd]. change (deq trv com) with false. cbn [andb]. reflexivity.
Qed.
