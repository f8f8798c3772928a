(** * Proofs: constructors, conversions, decorating *)

From Coq Require Import ZArith NArith Reals Bool Lia Lra.
From Flocq Require Import Core.Core IEEE754.BinarySingleNaN.
From Verif Require Import Fmt Spec FloatFacts Exc Deco SpecApi SpecRel MBase PBase MBool MArith PArith PMul PUnary PConv PBool POverlap.

Local Open Scope R_scope.

(** ** Small facts *)
Lemma deq_refl d : deq d d = true. Proof. apply N.eqb_refl. Qed.
Lemma deq_iff d e : deq d e = true <-> d = e. Proof. apply N.eqb_eq. Qed.

Definition valid_deco (d : deco) : Prop := d = ill \/ d = trv \/ d = def \/ d = dac \/ d = com.

Lemma is_valid_deco_ok d : valid_deco d -> is_valid_deco d = ret true.
Proof. now intros [->|[->|[->|[->| ->]]]]. Qed.
Lemma is_valid_deco_bad d : ~ valid_deco d -> reports_invalid (is_valid_deco d) false.
Proof.
intros H. unfold is_valid_deco.
destruct (deq_spec d ill); [now destruct H; left|]. destruct (deq_spec d trv); [now destruct H; right; left|].
destruct (deq_spec d def); [now destruct H; right; right; left|]. destruct (deq_spec d dac); [now destruct H; right; right; right; left|].
destruct (deq_spec d com); [now destruct H; right; right; right; right|]. simpl. apply not_signal_invalid_eq.
Qed.

Section U.
Context {F : fmt}.
Implicit Types x : itv F.

(** The unboundedness test of the code. *)
Lemma unb_test x : wf x -> isnan (fst x) = false ->
  feq (fst x) fminf || feq (snd x) finf = negb (is_finite (fst x) && is_finite (snd x)).
Proof.
intros W E. destruct (wf_view x W) as [ | |u Hu|l Hl|l u Hl Hu Hlu]; cbn [fst snd] in *; try easy.
- rewrite Hl. cbn. now rewrite orb_true_r.
- rewrite feq_minf_r, feq_pinf_r, Hl, Hu by easy. easy.
Qed.
Lemma isinf_test x : wf x -> isnan (fst x) = false ->
  isinf (fst x) || isinf (snd x) = negb (is_finite (fst x) && is_finite (snd x)).
Proof.
intros W E. destruct (wf_view x W) as [ | |u Hu|l Hl|l u Hl Hu Hlu]; cbn [fst snd] in *; try easy.
- rewrite Hl. cbn. now rewrite orb_true_r.
- rewrite Hl, Hu. cbn. now destruct l, u.
Qed.

Lemma bounded_dec x : {bounded_rep x} + {~ bounded_rep x}.
Proof.
unfold bounded_rep. destruct (is_finite (fst x)), (is_finite (snd x)); [now left|right; now intros []..].
Defined.

(** ** new_dec *)
Lemma new_dec_empty : new_dec (@empty F) = ret empty_dec. Proof. reflexivity. Qed.
Lemma new_dec_nonempty x : (exists r, mem r x) ->
  new_dec x = ret (x, if bounded_dec x then com else dac).
Proof.
intros N. assert (W : wf x) by now right. assert (E : isnan (fst x) = false).
{ destruct (isnan (fst x)) eqn:E; [|easy]. apply wf_nan_l in E; [|easy]. subst x. destruct N as [r N]. now apply mem_empty in N. }
unfold new_dec. vred. rewrite E. vred. rewrite unb_test by easy.
destruct (bounded_dec x) as [[H1 H2]|H].
- now rewrite H1, H2.
- destruct (is_finite (fst x)) eqn:E1; [|easy]. destruct (is_finite (snd x)) eqn:E2; [|easy]. now destruct H.
Qed.
Lemma new_dec_wf_dec x : wf x -> exists y, new_dec x = ret y /\ wf_dec y /\ fst y = x /\ snd y <> ill.
Proof.
intros [->|N].
- exists empty_dec. split; [easy|]. split; [apply wf_dec_empty|easy].
- rewrite new_dec_nonempty by easy. eexists. split; [reflexivity|]. split; [|destruct bounded_dec; easy].
  right. cbn. split; [easy|]. destruct bounded_dec; (split; [easy|]); easy.
Qed.

(** ** set_dec *)
Lemma set_dec_ill x : wf x -> set_dec x ill = ret nai.
Proof. intros W. unfold set_dec. rewrite is_valid_deco_ok by now left. vred. reflexivity. Qed.
Lemma set_dec_empty d : valid_deco d -> d <> ill -> set_dec (@empty F) d = ret empty_dec.
Proof. intros [->|[->|[->|[->| ->]]]] H; easy. Qed.
Lemma set_dec_nonempty x d : (exists r, mem r x) -> valid_deco d -> d <> ill ->
  set_dec x d = ret (x, if bounded_dec x then d else dmin d dac).
Proof.
intros N V D. assert (W : wf x) by now right. assert (E : isnan (fst x) = false).
{ destruct (isnan (fst x)) eqn:E; [|easy]. apply wf_nan_l in E; [|easy]. subst x. destruct N as [r N]. now apply mem_empty in N. }
unfold set_dec. rewrite is_valid_deco_ok by easy. vred. destruct (deq_spec d ill) as [|_]; [easy|]. vred.
rewrite E. vred. rewrite unb_test by easy.
destruct (bounded_dec x) as [[H1 H2]|H].
- rewrite H1, H2. now rewrite andb_false_r.
- replace (is_finite (fst x) && is_finite (snd x)) with false.
  + destruct V as [->|[->|[->|[->| ->]]]]; easy.
  + destruct (is_finite (fst x)) eqn:E1; [|easy]. destruct (is_finite (snd x)) eqn:E2; [|easy]. now destruct H.
Qed.
Lemma set_dec_wf_dec x d : wf x -> valid_deco d -> exists y, set_dec x d = ret y /\ wf_dec y /\ (d <> ill -> fst y = x).
Proof.
intros W V. destruct (N.eq_dec d ill) as [->|D].
- exists nai. split; [now apply set_dec_ill|]. split; [apply wf_dec_nai|easy].
- destruct W as [->|N].
  + exists empty_dec. split; [now apply set_dec_empty|]. split; [apply wf_dec_empty|easy].
  + rewrite set_dec_nonempty by easy. eexists. split; [reflexivity|]. split; [|easy].
    right. cbn [fst snd]. split; [easy|]. destruct bounded_dec; (split; [|try easy]).
    * easy.
    * destruct V as [->|[->|[->|[->| ->]]]]; easy.
    * destruct V as [->|[->|[->|[->| ->]]]]; easy.
Qed.
Lemma set_dec_bad_deco x d : ~ valid_deco d -> reports_invalid (set_dec x d) nai.
Proof.
intros H s. unfold set_dec, mif, mor, mnot, bind. rewrite (is_valid_deco_bad d H). 
now destruct (masked _ s).
Qed.
Lemma set_dec_invalid x d : valid_deco d -> ~ wf x -> reports_invalid (set_dec x d) nai.
Proof.
intros V H s. unfold set_dec, mif, mor, mnot, bind. rewrite is_valid_deco_ok by easy. cbn.
rewrite (is_valid_reports x H s). now destruct (masked _ s).
Qed.
Lemma new_dec_invalid x : ~ wf x -> reports_invalid (new_dec x) nai.
Proof.
intros H s. unfold new_dec, mif, mor, mnot, bind.
rewrite (is_valid_reports x H s). now destruct (masked _ s).
Qed.

(** ** interval_part *)
Lemma interval_part_ok (x : ditv F) : wf_dec x -> snd x <> ill -> interval_part x = ret (fst x).
Proof. intros W H. unfold interval_part. vred. destruct (deq_spec (snd x) ill); [easy|]. now vred. Qed.
Lemma interval_part_nai (x : ditv F) : wf_dec x -> snd x = ill ->
  reports interval_part_of_nai_bit Interval_part_of_nai_exception (interval_part x) empty.
Proof.
intros W H. unfold interval_part. vred. rewrite H, deq_refl. vred. apply reports_signal.
Qed.
Lemma interval_part_invalid (x : ditv F) : ~ wf_dec x -> reports_invalid (interval_part x) empty.
Proof.
intros H s. unfold interval_part, mif, mor, mnot, bind.
rewrite (is_valid_dec_reports x H s). now destruct (masked _ s).
Qed.
Lemma decoration_part_ok (x : ditv F) : wf_dec x -> decoration_part x = ret (snd x).
Proof. intros W. unfold decoration_part. now vred. Qed.

(** ** numeric constructors, same type *)
Lemma nums_cond (l u : float F) : fle l u && fne l finf && fne u fminf = true <-> exists r, mem r (l, u).
Proof.
split.
- intros H. assert (W : wf (l, u)) by (apply vcond_wf; unfold vcond; simpl; rewrite H; apply orb_true_r).
  destruct W as [W|W]; [|easy]. now injection W as -> ->.
- intros H. assert (W : vcond (l, u) = true) by (apply vcond_wf; now right).
  unfold vcond in W. cbn [fst snd] in W. apply orb_prop in W. destruct W as [W|W]; [|easy].
  apply andb_prop in W. destruct H as [r [H _]]. cbn in H. destruct l; try easy.
Qed.
Lemma nums_ok (l u : float F) : (exists r, mem r (l, u)) -> nums_to_interval l u = ret (l, u).
Proof. intros H. unfold nums_to_interval. now rewrite (proj2 (nums_cond l u) H). Qed.
Lemma nums_bad (l u : float F) : ~ (exists r, mem r (l, u)) -> reports_undefined (nums_to_interval l u) empty.
Proof.
intros H. unfold nums_to_interval. destruct (_ && _) eqn:E; [now apply nums_cond in E|]. apply reports_signal.
Qed.
Lemma nums_d_ok (l u : float F) : (exists r, mem r (l, u)) ->
  nums_to_decorated_interval l u = ret ((l, u), if bounded_dec (l, u) then com else dac).
Proof. intros H. unfold nums_to_decorated_interval. rewrite (proj2 (nums_cond l u) H). now apply new_dec_nonempty. Qed.
Lemma nums_d_bad (l u : float F) : ~ (exists r, mem r (l, u)) -> reports_undefined (nums_to_decorated_interval l u) nai.
Proof.
intros H. unfold nums_to_decorated_interval. destruct (_ && _) eqn:E; [now apply nums_cond in E|]. apply reports_signal.
Qed.

Lemma com_cond (l u : float F) d : (exists r, mem r (l, u)) ->
  negb (deq d com) || (fne l fminf && fne u finf) = true <-> (d = com -> bounded_rep (l, u)).
Proof.
intros H. destruct (deq_spec d com) as [->|E]; cbn [negb orb]; [|tauto].
assert (W : wf (l, u)) by now right.
assert (E : isnan (fst (l, u)) = false). { destruct H as [r [H _]]. cbn in *. now destruct l. }
pose proof (unb_test (l, u) W E) as T. cbn [fst snd] in T. unfold fne. unfold feq in T.
rewrite <- negb_orb, T, negb_involutive. unfold bounded_rep; cbn [fst snd]. rewrite andb_true_iff. tauto.
Qed.

Lemma nums_dec_ok (l u : float F) d : (exists r, mem r (l, u)) -> valid_deco d -> d <> ill ->
  (d = com -> bounded_rep (l, u)) -> nums_dec_to_decorated_interval l u d = ret ((l, u), d).
Proof.
intros H V D Cb. unfold nums_dec_to_decorated_interval. rewrite is_valid_deco_ok by easy. mred.
destruct (deq_spec d ill); [easy|]. rewrite (proj2 (nums_cond l u) H), (proj2 (com_cond l u d H) Cb). easy.
Qed.
Lemma nums_dec_bad (l u : float F) d : valid_deco d ->
  d = ill \/ ~ (exists r, mem r (l, u)) \/ (d = com /\ ~ bounded_rep (l, u)) ->
  reports_undefined (nums_dec_to_decorated_interval l u d) nai.
Proof.
intros V H. unfold nums_dec_to_decorated_interval. rewrite is_valid_deco_ok by easy. mred.
destruct (deq_spec d ill) as [E|D]; [apply reports_signal|]. cbn [negb andb].
destruct (fle l u && fne l finf && fne u fminf) eqn:N; [|apply reports_signal]. apply nums_cond in N.
destruct (negb (deq d com) || (fne l fminf && fne u finf)) eqn:B; [|apply reports_signal].
rewrite com_cond in B by easy. exfalso. destruct H as [H|[H|[H1 H2]]]; auto.
Qed.
Lemma nums_dec_bad_deco (l u : float F) d : ~ valid_deco d ->
  reports_invalid (nums_dec_to_decorated_interval l u d) nai.
Proof.
intros H s. unfold nums_dec_to_decorated_interval, mif, bind. rewrite (is_valid_deco_bad d H). now destruct (masked _ s).
Qed.
End U.

(** ** Mixed-type constructors *)
Section X.
Context {L U : fmt} (C : comparable L U) (T : fmt) (l : float L) (u : float U).

(** The set denoted by bounds of different types. *)
Definition between (r : R) : Prop := lb l r /\ ub u r.

Lemma nums_mixed_cond : nums_ok_mixed l u = true <-> exists r, between r.
Proof.
unfold nums_ok_mixed, between, fne.
destruct (fviewP l) as [ | | |l' Fl]; destruct (fviewP u) as [ | | |u' Fu].
- split; [easy|]. now intros [r []].
- split; [easy|]. now intros [r []].
- split; [easy|]. now intros [r []].
- rewrite fle2_nan_l. split; [easy|]. now intros [r []].
- split; [easy|]. now intros [r []].
- split; [easy|]. now intros [r []].
- split; [|easy]. intros _. now exists 0.
- rewrite (proj1 (cmp2_minf_fin C u' Fu)). cbn. fold (@fminf U). change (Beqb u' fminf) with (feq u' fminf).
  rewrite feq_minf_r by easy. split; [|easy]. intros _. exists (B2R u'). split; [easy|]. rewrite ub_fin by easy. lra.
- split; [easy|]. now intros [r []].
- split; [easy|]. now intros [r []].
- split; [easy|]. now intros [r []].
- rewrite (proj1 (cmp2_pinf_fin C u' Fu)). split; [easy|]. now intros [r []].
- rewrite fle2_nan_r. split; [easy|]. now intros [r []].
- rewrite (proj1 (cmp2_fin_minf C l' Fl)). split; [easy|]. now intros [r []].
- rewrite (proj1 (cmp2_fin_pinf C l' Fl)). change (Beqb l' finf) with (feq l' finf).
  rewrite feq_pinf_r by easy. split; [|easy]. intros _. exists (B2R l'). split; [|easy]. rewrite lb_fin by easy. lra.
- change (Beqb l' finf) with (feq l' finf). change (Beqb u' fminf) with (feq u' fminf).
  rewrite feq_pinf_r, feq_minf_r, (fle2_fin C) by easy. cbn [negb]. rewrite !andb_true_r, Rle_bool_iff.
  split.
  + intros H. exists (B2R l'). rewrite lb_fin, ub_fin by easy. lra.
  + intros [r H]. rewrite lb_fin, ub_fin in H by easy. lra.
Qed.

Lemma conv_between : (exists r, between r) -> tightest between (convert_rndd T l, convert_rndu T u).
Proof.
intros [r [Hl Hu]]. apply tightest_intro; [now exists r| |].
- apply convert_glow.
  + intros Fl. rewrite lb_fin in Hl by easy. split.
    * intros b [Hb _]. now rewrite lb_fin in Hb.
    * intros b Hb. apply Hb. split; [rewrite lb_fin by easy; lra|]. apply ub_mono with r; easy.
  + intros E b. exists (Rmin r (b - 1)). pose proof (Rmin_l r (b - 1)). pose proof (Rmin_r r (b - 1)).
    split; [|lra]. split; [now rewrite E|]. now apply ub_mono with r.
  + intros E. now rewrite E in Hl.
  + now destruct l.
- apply convert_gupp.
  + intros Fl. rewrite ub_fin in Hu by easy. split.
    * intros b [_ Hb]. now rewrite ub_fin in Hb.
    * intros b Hb. apply Hb. split; [|rewrite ub_fin by easy; lra]. apply lb_mono with r; easy.
  + intros E b. exists (Rmax r (b + 1)). pose proof (Rmax_l r (b + 1)). pose proof (Rmax_r r (b + 1)).
    split; [|lra]. split; [|now rewrite E]. now apply lb_mono with r.
  + intros E. now rewrite E in Hu.
  + now destruct u.
Qed.

Lemma nums_mixed_ok : (exists r, between r) -> computes_tightest (nums_to_interval_mixed T l u) between.
Proof.
intros H. unfold nums_to_interval_mixed. rewrite (proj2 nums_mixed_cond H). eapply ct_ret; [reflexivity|].
now apply conv_between.
Qed.
Lemma nums_mixed_bad : ~ (exists r, between r) -> reports_undefined (nums_to_interval_mixed T l u) empty.
Proof.
intros H. unfold nums_to_interval_mixed. destruct nums_ok_mixed eqn:E; [now apply nums_mixed_cond in E|].
apply reports_signal.
Qed.
Lemma tightest_nonempty {F} S (z : itv F) : (exists r, S r) -> tightest S z -> exists r, mem r z.
Proof. intros [r Hr] (_ & E & _). exists r. now apply E. Qed.
Lemma nums_d_mixed_ok : (exists r, between r) ->
  exists z, nums_to_decorated_interval_mixed T l u = ret (z, if bounded_dec z then com else dac) /\ tightest between z.
Proof.
intros H. unfold nums_to_decorated_interval_mixed. rewrite (proj2 nums_mixed_cond H).
pose proof (conv_between H) as Z. eexists. split; [|exact Z]. apply new_dec_nonempty. now apply tightest_nonempty with between.
Qed.
Lemma nums_d_mixed_bad : ~ (exists r, between r) -> reports_undefined (nums_to_decorated_interval_mixed T l u) nai.
Proof.
intros H. unfold nums_to_decorated_interval_mixed. destruct nums_ok_mixed eqn:E; [now apply nums_mixed_cond in E|].
apply reports_signal.
Qed.

Lemma com_cond_mixed d : (exists r, between r) ->
  negb (deq d com) || (fne l fminf && fne u finf) = true <->
  (d = com -> is_finite l = true /\ is_finite u = true).
Proof.
intros [r [H1 H2]]. destruct (deq_spec d com) as [->|E]; cbn [negb orb]; [|tauto].
unfold fne. change (@Beqb (prec L) (emax L)) with (@feq L). change (@Beqb (prec U) (emax U)) with (@feq U).
destruct (fviewP l) as [ | | |l' Fl]; try easy; destruct (fviewP u) as [ | | |u' Fu]; try easy.
- split; [easy|]. intros H. now destruct (H eq_refl).
- split; [easy|]. intros H. now destruct (H eq_refl).
- rewrite feq_minf_r by easy. split; [easy|]. intros H. now destruct (H eq_refl).
- rewrite feq_minf_r, feq_pinf_r by easy. tauto.
Qed.

Lemma nums_dec_mixed_ok d : (exists r, between r) -> valid_deco d -> d <> ill ->
  (d = com -> is_finite l = true /\ is_finite u = true) ->
  exists z, nums_dec_to_decorated_interval_mixed T l u d = ret (z, if bounded_dec z then d else dmin d dac) /\ tightest between z.
Proof.
intros H V D Cb. unfold nums_dec_to_decorated_interval_mixed. rewrite is_valid_deco_ok by easy. mred.
destruct (deq_spec d ill); [easy|]. rewrite (proj2 nums_mixed_cond H), (proj2 (com_cond_mixed d H) Cb). cbn [negb andb].
pose proof (conv_between H) as Z. eexists. split; [|exact Z]. f_equal. f_equal.
set (z := (convert_rndd T l, convert_rndu T u)) in *.
assert (W : wf z) by now apply tightest_wf in Z. pose proof (tightest_nonempty _ _ H Z) as N.
assert (E : isnan (fst z) = false). { destruct N as [r [N _]]. now destruct (fst z). }
rewrite isinf_test by easy.
destruct (bounded_dec z) as [[H1 H2]|B].
- rewrite H1, H2. destruct V as [->|[->|[->|[->| ->]]]]; easy.
- replace (is_finite (fst z) && is_finite (snd z)) with false; [easy|].
  destruct (is_finite (fst z)) eqn:E1; [|easy]. destruct (is_finite (snd z)) eqn:E2; [|easy]. now destruct B.
Qed.
Lemma nums_dec_mixed_bad d : valid_deco d ->
  d = ill \/ ~ (exists r, between r) \/ (d = com /\ ~ (is_finite l = true /\ is_finite u = true)) ->
  reports_undefined (nums_dec_to_decorated_interval_mixed T l u d) nai.
Proof.
intros V H. unfold nums_dec_to_decorated_interval_mixed. rewrite is_valid_deco_ok by easy. mred.
destruct (deq_spec d ill) as [E|D]; [apply reports_signal|]. cbn [negb andb].
destruct (nums_ok_mixed l u) eqn:N; [|apply reports_signal]. apply nums_mixed_cond in N.
destruct (negb (deq d com) || (fne l fminf && fne u finf)) eqn:B; [|apply reports_signal].
rewrite com_cond_mixed in B by easy. exfalso. destruct H as [H|[H|[H1 H2]]]; auto.
Qed.
Lemma nums_dec_mixed_bad_deco d : ~ valid_deco d ->
  reports_invalid (nums_dec_to_decorated_interval_mixed T l u d) nai.
Proof.
intros H s. unfold nums_dec_to_decorated_interval_mixed, mif, bind. rewrite (is_valid_deco_bad d H). now destruct (masked _ s).
Qed.
End X.

(** ** Conversion *)
Section V.
Context {F : fmt} (G : fmt).
Lemma convert_type_tightest (x : itv F) : wf x -> computes_tightest (convert_type G x) (fun r => mem r x).
Proof. intros W. unfold convert_type. vred. eapply ct_ret; [reflexivity|]. now apply convert_hull_tightest. Qed.

Definition demote (z : itv G) (d : deco) : deco := if bounded_dec z then d else if deq d com then dac else d.

Lemma convert_hull_dec_spec (x : ditv F) : wf_dec x -> snd x <> ill ->
  exists z, convert_hull_dec G x = ret (z, if isnan (fst (fst x)) then snd x else demote z (snd x)) /\
    tightest (fun r => mem r (fst x)) z.
Proof.
intros W D. unfold convert_hull_dec. vred. destruct (deq_spec (snd x) ill); [easy|]. vred.
pose proof (wf_dec_wf x W) as W1. pose proof (convert_hull_tightest G (fst x) W1) as T.
exists (convert_hull G (fst x)). split; [|easy].
destruct (isnan (fst (fst x))) eqn:E.
- apply wf_nan_l in E; [|easy]. rewrite E. destruct W as [[_ W]|[[r W] _]].
  + destruct W as [W|W]; [easy|]. now rewrite W.
  + rewrite E in W. now apply mem_empty in W.
- pose proof (tightest_nonempty _ _ (wf_nonempty _ W1 E) T) as N.
  assert (E' : isnan (fst (convert_hull G (fst x))) = false).
  { destruct N as [r [N _]]. now destruct (fst (convert_hull G (fst x))). }
  rewrite unb_test; [|now apply tightest_wf in T|easy]. unfold demote.
  destruct (bounded_dec _) as [[H1 H2]|B].
  + rewrite H1, H2. now rewrite andb_false_r.
  + set (z := convert_hull G (fst x)) in *.
    replace (is_finite (fst z) && is_finite (snd z)) with false.
    * rewrite andb_true_r. now destruct deq.
    * destruct (is_finite (fst z)) eqn:E1; [|easy]. destruct (is_finite (snd z)) eqn:E2; [|easy]. now destruct B.
Qed.
Lemma convert_hull_dec_nai (x : ditv F) : wf_dec x -> snd x = ill -> convert_hull_dec G x = ret nai.
Proof. intros W D. unfold convert_hull_dec. vred. now rewrite D. Qed.

(** Summary used by the property file: same set hull, decoration kept or com demoted. *)
Lemma convert_type_dec_ok (x : ditv F) : wf_dec x -> snd x <> ill ->
  exists z d, returns (convert_type_dec G x) (z, d) /\ tightest (fun r => mem r (fst x)) z /\ wf_dec (z, d) /\
    (d = snd x \/ (snd x = com /\ d = dac)) /\ (d <> snd x -> ~ bounded_rep z).
Proof.
intros W D. unfold convert_type_dec. vred. destruct (convert_hull_dec_spec x W D) as (z & E & T).
rewrite E. eexists _, _. split; [easy|]. split; [exact T|].
pose proof (wf_dec_wf x W) as W1.
destruct (isnan (fst (fst x))) eqn:N.
- apply wf_nan_l in N; [|easy].
  assert (Z : z = empty).
  { pose proof (tightest_wf _ _ T) as [Z|Z]; [easy|]. exfalso.
    destruct T as (_ & _ & T). destruct Z as [r Z]. specialize (T empty wf_empty).
    apply (@mem_empty G r). apply (T ltac:(intros s Hs; now rewrite N in Hs; apply mem_empty in Hs) r Z). }
  subst z. split; [|now split; [left|]].
  left. split; [easy|]. destruct W as [[_ W]|[[r W] _]]; [tauto|]. rewrite N in W. now apply mem_empty in W.
- pose proof (wf_nonempty _ W1 N) as [r Hr]. unfold demote.
  destruct W as [[W _]|[_ [_ Wb]]]; [rewrite W in Hr; now apply mem_empty in Hr|].
  assert (Nz : exists s, mem s z) by (exists r; now apply (proj1 (proj2 T))).
  destruct (bounded_dec z) as [B|B].
  + split; [right|split; [now left|easy]]. cbn. split; [easy|]. now split.
  + destruct (deq_spec (snd x) com) as [Ec|Ec].
    * split; [right|split; [right; now split|easy]]. cbn. now split.
    * split; [right|split; [now left|easy]]. cbn. now split.
Qed.
Lemma convert_type_dec_nai (x : ditv F) : wf_dec x -> snd x = ill -> convert_type_dec G x = ret nai.
Proof. intros W D. unfold convert_type_dec. vred. now apply convert_hull_dec_nai. Qed.
Lemma convert_type_invalid (x : itv F) : ~ wf x -> reports_invalid (convert_type G x) empty.
Proof.
intros H s. unfold convert_type, mif, mnot, bind. rewrite (is_valid_reports x H s). now destruct (masked _ s).
Qed.
Lemma convert_type_dec_invalid (x : ditv F) : ~ wf_dec x -> reports_invalid (convert_type_dec G x) nai.
Proof.
intros H s. unfold convert_type_dec, mif, mnot, bind. rewrite (is_valid_dec_reports x H s). now destruct (masked _ s).
Qed.

Lemma interval_part_mixed_ok (x : ditv F) : wf_dec x -> snd x <> ill ->
  computes_tightest (interval_part_mixed G x) (fun r => mem r (fst x)).
Proof.
intros W H. unfold interval_part_mixed. vred. destruct (deq_spec (snd x) ill); [easy|]. vred.
eapply ct_ret; [reflexivity|]. now apply convert_hull_tightest, wf_dec_wf.
Qed.
Lemma interval_part_mixed_nai (x : ditv F) : wf_dec x -> snd x = ill ->
  reports interval_part_of_nai_bit Interval_part_of_nai_exception (interval_part_mixed G x) empty.
Proof. intros W H. unfold interval_part_mixed. vred. rewrite H, deq_refl. vred. apply reports_signal. Qed.

Lemma new_dec_mixed_eq (x : itv F) : wf x -> new_dec_mixed G x = new_dec (convert_hull G x).
Proof.
intros W. pose proof (wf_convert_hull G x W). unfold new_dec_mixed, new_dec. now vred.
Qed.
Lemma new_dec_mixed_ok (x : itv F) : (exists r, mem r x) ->
  exists z, new_dec_mixed G x = ret (z, if bounded_dec z then com else dac) /\ tightest (fun r => mem r x) z.
Proof.
intros N. rewrite new_dec_mixed_eq by now right.
pose proof (convert_hull_tightest G x ltac:(now right)) as T. eexists. split; [|exact T].
apply new_dec_nonempty. now apply tightest_nonempty with (2 := T).
Qed.
Lemma new_dec_mixed_empty : new_dec_mixed G (@empty F) = ret empty_dec.
Proof. reflexivity. Qed.
Lemma set_dec_mixed_ok (x : itv F) d : (exists r, mem r x) -> valid_deco d -> d <> ill ->
  exists z, set_dec_mixed G x d = ret (z, demote z (if bounded_dec x then d else dmin d dac)) /\ tightest (fun r => mem r x) z.
Proof.
intros N V D. unfold set_dec_mixed. rewrite set_dec_nonempty by easy. mred.
destruct (set_dec_wf_dec x d ltac:(now right) V) as (y & E & W & _). rewrite set_dec_nonempty in E by easy.
assert (Y : (x, if bounded_dec x then d else dmin d dac) = y).
{ assert (Q := f_equal (fun m : M (ditv F) => m (Est 0 0)) E). now injection Q. }
rewrite <- Y in W. destruct (convert_hull_dec_spec _ W) as (z & E2 & T).
- cbn. destruct bounded_dec; [easy|]. destruct V as [->|[->|[->|[->| ->]]]]; easy.
- cbn [fst snd] in *. exists z. split; [|easy]. rewrite E2. f_equal. f_equal.
  destruct (isnan (fst x)) eqn:Ex; [|easy]. exfalso. apply wf_nan_l in Ex; [|now right]. subst x.
  destruct N as [r N]. now apply mem_empty in N.
Qed.
End V.

(** Round trips. *)
Lemma bind_ret_l {A B} (a : A) (k : A -> M B) : bind (ret a) k = k a. Proof. reflexivity. Qed.
Lemma new_dec_interval_part {F} (x : itv F) : wf x -> bind (new_dec x) interval_part = ret x.
Proof.
intros W. destruct (new_dec_wf_dec x W) as (y & -> & Wy & E & D). rewrite bind_ret_l.
rewrite interval_part_ok by easy. now rewrite E.
Qed.
Lemma set_dec_interval_part {F} (x : itv F) d : wf x -> valid_deco d -> d <> ill ->
  bind (set_dec x d) interval_part = ret x.
Proof.
intros W V D. destruct (set_dec_wf_dec x d W V) as (y & E & Wy & Ey). rewrite E, bind_ret_l.
rewrite interval_part_ok; [now rewrite Ey|easy|].
intros I. apply wf_dec_ill in I; [|easy]. subst y. rewrite <- (Ey D) in E.
change (fst nai) with (@empty F) in E. rewrite set_dec_empty in E by easy. assert (Q := f_equal (fun m : M (ditv F) => m (Est 0 0)) E). discriminate.
Qed.
