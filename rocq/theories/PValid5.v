(** * Proofs: a program that builds an invalid interval; tame operands *)
From Coq Require Import ZArith NArith Reals Bool Lra List.
From Flocq Require Import Core.Core IEEE754.BinarySingleNaN.
From Verif Require Import Fmt Spec FloatFacts Exc Deco SpecApi SpecDeco SpecRel SpecCancel SpecProg MBase PBase MBool MArith PArith MDec MMixed MCancel PConv PBool PClass PRevW PTwoSum PCancel PNai PDec PValid PValid3 MProg Ex.
Local Open Scope R_scope.

Definition bad_xl := fl binary64 (2^53-5) 970.
Definition bad_xu := @fmaxv binary64.
Definition bad_yl := fl binary64 (1-2^53) 970.
Definition bad_yu := fl binary64 3 971.
Definition bad_x : itv binary64 := (bad_xl, bad_xu).
Definition bad_y : itv binary64 := (bad_yl, bad_yu).
Lemma bad_returns : cancel_minus bad_x bad_y = ret (cancel_bounds bad_x bad_y).
Proof.
assert (Hx : B2R bad_xl <= B2R bad_xu) by (unfold bad_xl, bad_xu; b2r).
assert (Hy : B2R bad_yl <= B2R bad_yu) by (unfold bad_yl, bad_yu; b2r).
destruct (cancel_fin bad_xl bad_xu bad_yl bad_yu eq_refl eq_refl eq_refl eq_refl Hx Hy) as (_ & _ & [C|C]); [exact C|].
exfalso. apply (f_equal run) in C. vm_compute in C. discriminate.
Qed.
Lemma bad_not_wf : ~ wf (cancel_bounds bad_x bad_y).
Proof. intros H. apply vcond_wf in H. vm_compute in H. discriminate. Qed.
Lemma cancel_invalid : exists x y z : itv binary64, wf x /\ wf y /\ bounded_rep x /\ bounded_rep y /\
  returns (cancel_minus x y) z /\ ~ wf z.
Proof.
exists bad_x, bad_y, (cancel_bounds bad_x bad_y). split; [wf_tac|]. split; [wf_tac|]. split; [now split|]. split; [now split|].
split; [|exact bad_not_wf]. apply returns_eq. exact bad_returns.
Qed.
Lemma nums_run {F} (l u : float F) s : fle l u && fne l finf && fne u fminf = true -> nums_to_interval l u s = (Ret (l, u), s).
Proof. unfold nums_to_interval. now intros ->. Qed.
Lemma bad_built : built anything binary64 (cancel_bounds bad_x bad_y).
Proof.
apply (bl_canc anything binary64 binary64 binary64 cancel_minus bad_x bad_y (Est 0 0) _ (Est 0 0)); [constructor|exact I| | |].
- apply (bl_nums _ _ bad_xl bad_xu (Est 0 0) _ (Est 0 0)). apply nums_run. vm_compute. reflexivity.
- apply (bl_nums _ _ bad_yl bad_yu (Est 0 0) _ (Est 0 0)). apply nums_run. vm_compute. reflexivity.
- now rewrite bad_returns.
Qed.
Lemma built_refuted : exists x : itv binary64, built anything binary64 x /\ ~ wf x.
Proof. exists (cancel_bounds bad_x bad_y). split; [exact bad_built|exact bad_not_wf]. Qed.
Lemma nums_d_run {F} (l u : float F) s : fle l u && fne l finf && fne u fminf = true -> is_finite l && is_finite u = true ->
  nums_to_decorated_interval l u s = (Ret ((l, u), com), s).
Proof.
intros H Hf. assert (Hn : exists r, mem r (l, u)) by now apply nums_cond.
rewrite (nums_d_ok l u Hn). apply andb_true_iff in Hf. destruct bounded_dec as [B|B]; [easy|]. now destruct B.
Qed.
Lemma dbuilt_refuted : exists x : ditv binary64, dbuilt anything binary64 x /\ ~ valid_dec x.
Proof.
exists (cancel_bounds bad_x bad_y, trv). split.
- apply (dl_canc anything binary64 binary64 binary64 cancel_minus_dec (bad_x, com) (bad_y, com) (Est 0 0) _ (Est 0 0)); [constructor|exact I| | |].
  + apply (dl_nums _ _ bad_xl bad_xu (Est 0 0) _ (Est 0 0)). apply nums_d_run; vm_compute; reflexivity.
  + apply (dl_nums _ _ bad_yl bad_yu (Est 0 0) _ (Est 0 0)). apply nums_d_run; vm_compute; reflexivity.
  + assert (W1 : wf_dec (bad_x, com)) by wf_tac. assert (W2 : wf_dec (bad_y, com)) by wf_tac.
    unfold cancel_minus_dec. rewrite !is_valid_dec_wf, !is_nai_wf by easy. mreds. cbn [fst snd]. rewrite bad_returns. now mreds.
- intros [H _]. apply wf_dec_wf in H. now apply bad_not_wf.
Qed.

(** In one type the conditions are that no bound is the largest finite number. *)
Lemma tame_same F (x y : itv F) : is_finite (fst y) = true -> is_finite (snd y) = true -> wf y ->
  not_max (snd x) -> not_max (fst y) -> not_max (snd y) -> tame F F F x y.
Proof.
intros F1 F2 Wy M1 M2 M3. split; [apply comparable_refl|]. split; [apply comparable_refl|]. split; [apply comparable_refl|].
split; [easy|]. split; [easy|]. split; [easy|]. intros z (Wz & E & L).
assert (I : included z y) by (apply L; [easy|now intros r]).
assert (P : 0 < B2R (@fmaxv F)) by (pose proof (@fmaxv_ge1 F); lra).
assert (K : forall t, mem t y -> Rabs t < B2R (@fmaxv F)).
{ intros t [H1 H2]. rewrite lb_fin in H1 by easy. rewrite ub_fin in H2 by easy. revert M2 M3. unfold not_max, Rabs.
  repeat destruct Rcase_abs; lra. }
assert (Z : forall a : float F, is_finite a = false -> not_max a).
{ intros a H. unfold not_max. destruct a; try discriminate; cbn [B2R]; rewrite Rabs_R0; exact P. }
destruct z as [l u]. destruct (wf_view _ Wz); cbn [fst snd] in *; split; try (apply Z; reflexivity); unfold not_max; apply K, I.
- split; cbn [fst snd]; [easy|]. rewrite ub_fin by easy. lra.
- split; cbn [fst snd]; [|easy]. rewrite lb_fin by easy. lra.
- split; cbn [fst snd]; rewrite ?lb_fin, ?ub_fin by easy; lra.
- split; cbn [fst snd]; rewrite ?lb_fin, ?ub_fin by easy; lra.
Qed.
