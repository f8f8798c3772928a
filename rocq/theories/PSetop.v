(** * Proofs: intersection and convex hull *)

From Coq Require Import ZArith NArith Reals Bool Lia Lra.
From Flocq Require Import Core.Core IEEE754.BinarySingleNaN.
From Verif Require Import Fmt Spec FloatFacts Exc Deco SpecApi SpecRel MBase PBase MBool MArith PArith PMul PUnary PConv PBool.

Local Open Scope R_scope.

Section P.
Context {F : fmt}.
Implicit Types (x y z : itv F).

Lemma lb_fmax (a b : float F) r : isnan a = false -> isnan b = false -> lb (fmax a b) r <-> lb a r /\ lb b r.
Proof.
intros Ha Hb. destruct (fmax_cases a b Ha Hb) as [[-> H]|[-> H]]; pose proof (lb_fle _ _ r H); tauto.
Qed.
Lemma ub_fmin (a b : float F) r : isnan a = false -> isnan b = false -> ub (fmin a b) r <-> ub a r /\ ub b r.
Proof.
intros Ha Hb. destruct (fmin_cases a b Ha Hb) as [[-> H]|[-> H]]; pose proof (ub_fle _ _ r H); tauto.
Qed.
Lemma lb_fmin (a b : float F) r : isnan a = false -> isnan b = false -> lb (fmin a b) r <-> lb a r \/ lb b r.
Proof.
intros Ha Hb. destruct (fmin_cases a b Ha Hb) as [[-> H]|[-> H]]; pose proof (lb_fle _ _ r H); tauto.
Qed.
Lemma ub_fmax (a b : float F) r : isnan a = false -> isnan b = false -> ub (fmax a b) r <-> ub a r \/ ub b r.
Proof.
intros Ha Hb. destruct (fmax_cases a b Ha Hb) as [[-> H]|[-> H]]; pose proof (ub_fle _ _ r H); tauto.
Qed.

Lemma nan_ends x : wf x -> isnan (fst x) = false -> isnan (snd x) = false.
Proof. intros W E. apply (upp_end_nan _ x). now apply upp_end_snd; [apply wf_view|]. Qed.

Lemma intersection_exact x y : wf x -> wf y ->
  exists z, intersection x y = ret z /\ wf z /\ forall r, mem r z <-> mem r x /\ mem r y.
Proof.
intros Wx Wy. unfold intersection, disjoint, rel_same. vred.
rewrite disjoint_mixed_ret by easy.
destruct (disjoint_mixed_decides (comparable_refl F) x y Wx Wy) as (b & Hb & D).
rewrite disjoint_mixed_ret in Hb by easy. specialize (Hb (Est 0 0)). injection Hb as Hb.
rewrite Hb. vred. destruct b.
- exists empty. split; [easy|]. split; [now left|]. intros r. split; [intros H; now apply mem_empty in H|].
  intros H. now apply (proj1 D eq_refl) in H.
- destruct (isnan (fst x)) eqn:Ex; [easy|]. destruct (isnan (fst y)) eqn:Ey; [easy|].
  eexists; split; [reflexivity|].
  assert (E : forall r, mem r (fmax (fst x) (fst y), fmin (snd x) (snd y)) <-> mem r x /\ mem r y).
  { intros r. unfold mem; cbn [fst snd]. rewrite lb_fmax, ub_fmin by auto using nan_ends. tauto. }
  split; [|exact E]. right.
  assert (N : ~ s_disjoint x y) by (intros H; apply D in H; discriminate).
  unfold s_disjoint in N. apply Classical_Pred_Type.not_all_ex_not in N. destruct N as [r Hr].
  apply Classical_Prop.NNPP in Hr. exists r. now apply E.
Qed.

Lemma intersection_tightest x y : wf x -> wf y ->
  computes_tightest (intersection x y) (fun r => mem r x /\ mem r y).
Proof.
intros Wx Wy. destruct (intersection_exact x y Wx Wy) as (z & E & W & H).
eapply ct_ret; [exact E|]. apply tightest_self; [easy|]. intros r. symmetry. apply H.
Qed.

Lemma hull_ret x y : wf x -> wf y ->
  convex_hull x y = ret (if isnan (fst x) then y else if isnan (fst y) then x
                         else (fmin (fst x) (fst y), fmax (snd x) (snd y))).
Proof.
intros Wx Wy. unfold convex_hull. vred. destruct (isnan (fst x)); vred; [easy|].
now destruct (isnan (fst y)); vred.
Qed.

Lemma hull_tightest x y : wf x -> wf y ->
  computes_tightest (convex_hull x y) (fun r => mem r x \/ mem r y).
Proof.
intros Wx Wy. eapply ct_ret; [now apply hull_ret|].
destruct (isnan (fst x)) eqn:Ex; [|destruct (isnan (fst y)) eqn:Ey].
- apply wf_nan_l in Ex; [|easy]. subst x. apply tightest_self; [easy|].
  intros r. split; [intros [H|H]; [now apply mem_empty in H|easy]|tauto].
- apply wf_nan_l in Ey; [|easy]. subst y. apply tightest_self; [easy|].
  intros r. split; [intros [H|H]; [easy|now apply mem_empty in H]|tauto].
- pose proof (nan_ends x Wx Ex) as Ex2. pose proof (nan_ends y Wy Ey) as Ey2.
  pose proof (wf_nonempty x Wx Ex) as [rx Hx]. pose proof (wf_nonempty y Wy Ey) as [ry Hy].
  split; [|split].
  + right. exists rx. split; cbn [fst snd]; [rewrite lb_fmin by easy|rewrite ub_fmax by easy]; left; apply Hx.
  + intros r [[H1 H2]|[H1 H2]]; (split; cbn [fst snd]; [rewrite lb_fmin by easy|rewrite ub_fmax by easy]); tauto.
  + intros z Wz E r [H1 H2]. cbn [fst snd] in *. rewrite lb_fmin in H1 by easy. rewrite ub_fmax in H2 by easy.
    (* a member of z at or below r, one at or above r *)
    assert (A : exists a, mem a z /\ a <= r).
    { destruct H1 as [H1|H1].
      - destruct (Rle_or_lt r rx).
        + exists r. split; [|lra]. apply E. left. split; [easy|]. now apply ub_mono with rx; [apply Hx|].
        + exists rx. split; [|lra]. apply E. now left.
      - destruct (Rle_or_lt r ry).
        + exists r. split; [|lra]. apply E. right. split; [easy|]. now apply ub_mono with ry; [apply Hy|].
        + exists ry. split; [|lra]. apply E. now right. }
    assert (B : exists b, mem b z /\ r <= b).
    { destruct H2 as [H2|H2].
      - destruct (Rle_or_lt rx r).
        + exists r. split; [|lra]. apply E. left. split; [|easy]. now apply lb_mono with rx; [apply Hx|].
        + exists rx. split; [|lra]. apply E. now left.
      - destruct (Rle_or_lt ry r).
        + exists r. split; [|lra]. apply E. right. split; [|easy]. now apply lb_mono with ry; [apply Hy|].
        + exists ry. split; [|lra]. apply E. now right. }
    destruct A as (a & Ha & La), B as (b & Hb & Lb). now apply mem_between with a b.
Qed.

(** Algebra of the two operations, as sets. *)
Definition same_result (m n : M (itv F)) : Prop :=
  exists z z', returns m z /\ returns n z' /\ same_set z z'.

Lemma ct_same (m n : M (itv F)) S S' : computes_tightest m S -> computes_tightest n S' -> (forall r, S r <-> S' r) ->
  same_result m n.
Proof.
intros (z & H1 & H2) (z' & H1' & H2') E. exists z, z'. split; [easy|split; [easy|]].
apply tightest_unique with S'; [now apply tightest_ext with S|easy].
Qed.

Lemma intersection_comm x y : wf x -> wf y -> same_result (intersection x y) (intersection y x).
Proof. intros Wx Wy. eapply ct_same; [now apply intersection_tightest..|]. cbv beta; intros; tauto. Qed.
Lemma hull_comm x y : wf x -> wf y -> same_result (convex_hull x y) (convex_hull y x).
Proof. intros Wx Wy. eapply ct_same; [now apply hull_tightest..|]. cbv beta; intros; tauto. Qed.
Lemma ct_self x : wf x -> computes_tightest (ret x) (fun r => mem r x).
Proof. intros W. eapply ct_ret; [reflexivity|]. now apply tightest_self. Qed.
Lemma intersection_idem x : wf x -> same_result (intersection x x) (ret x).
Proof. intros Wx. eapply ct_same; [now apply intersection_tightest|now apply ct_self|]. cbv beta; intros; tauto. Qed.
Lemma hull_idem x : wf x -> same_result (convex_hull x x) (ret x).
Proof. intros Wx. eapply ct_same; [now apply hull_tightest|now apply ct_self|]. cbv beta; intros; tauto. Qed.

Lemma bind_ct (m : M (itv F)) (k : itv F -> M (itv F)) S S' :
  computes_tightest m S -> (forall z, tightest S z -> computes_tightest (k z) S') -> computes_tightest (bind m k) S'.
Proof.
intros (z & H1 & H2) H. destruct (H z H2) as (z' & H3 & H4). exists z'. split; [|easy].
intros s. unfold bind. now rewrite H1.
Qed.

Lemma intersection_assoc x y z : wf x -> wf y -> wf z ->
  same_result (bind (intersection x y) (fun t => intersection t z))
              (bind (intersection y z) (fun t => intersection x t)).
Proof.
intros Wx Wy Wz.
destruct (intersection_exact x y Wx Wy) as (a & -> & Wa & Ha).
destruct (intersection_exact y z Wy Wz) as (b & -> & Wb & Hb). mred.
eapply ct_same; [now apply intersection_tightest..|]. cbv beta. intros r. rewrite Ha, Hb. tauto.
Qed.

Lemma hull_assoc_ct x y z : wf x -> wf y -> wf z ->
  computes_tightest (bind (convex_hull x y) (fun t => convex_hull t z)) (fun r => mem r x \/ mem r y \/ mem r z).
Proof.
intros Wx Wy Wz. eapply bind_ct; [now apply hull_tightest|].
intros t (Wt & Et & Mt). destruct (hull_tightest t z Wt Wz) as (w & Hw & Ww & Ew & Mw).
exists w. split; [easy|]. split; [easy|split].
- intros r [H|[H|H]]; apply Ew; [left; apply Et; tauto|left; apply Et; tauto|tauto].
- intros w' Ww' Ew'. apply Mw; [easy|]. intros r [H|H].
  + apply (Mt w' Ww'); [|easy]. intros r' [H'|H']; apply Ew'; tauto.
  + apply Ew'; tauto.
Qed.
Lemma hull_assoc x y z : wf x -> wf y -> wf z ->
  same_result (bind (convex_hull x y) (fun t => convex_hull t z))
              (bind (convex_hull y z) (fun t => convex_hull x t)).
Proof.
intros Wx Wy Wz. eapply ct_same; [now apply hull_assoc_ct| |].
- instantiate (1 := fun r => mem r x \/ mem r y \/ mem r z).
  eapply bind_ct; [now apply hull_tightest|].
  intros t (Wt & Et & Mt). destruct (hull_tightest x t Wx Wt) as (w & Hw & Ww & Ew & Mw).
  exists w. split; [easy|]. split; [easy|split].
  + intros r [H|[H|H]]; apply Ew; [tauto|right; apply Et; tauto|right; apply Et; tauto].
  + intros w' Ww' Ew'. apply Mw; [easy|]. intros r [H|H].
    * apply Ew'; tauto.
    * apply (Mt w' Ww'); [|easy]. intros r' [H'|H']; apply Ew'; tauto.
- tauto.
Qed.

(** Decorated versions: bare result decorated trv, NaI absorbing. *)
Lemma setop_dec_nai (op : itv F -> itv F -> M (itv F)) (x y : ditv F) : wf_dec x -> wf_dec y ->
  snd x = ill \/ snd y = ill ->
  mif (mor (mor (mor (mnot (is_valid_dec x)) (mnot (is_valid_dec y))) (is_nai x)) (is_nai y)) (ret nai)
    (bind (op (fst x) (fst y)) (fun b => ret (b, trv))) = ret nai.
Proof.
intros Wx Wy H. vred. destruct (deq_spec (snd x) ill); vred; [easy|].
destruct (deq_spec (snd y) ill); vred; [easy|]. tauto.
Qed.
Lemma setop_dec_val (op : itv F -> itv F -> M (itv F)) (x y : ditv F) : wf_dec x -> wf_dec y ->
  snd x <> ill -> snd y <> ill ->
  mif (mor (mor (mor (mnot (is_valid_dec x)) (mnot (is_valid_dec y))) (is_nai x)) (is_nai y)) (ret nai)
    (bind (op (fst x) (fst y)) (fun b => ret (b, trv))) = bind (op (fst x) (fst y)) (fun b => ret (b, trv)).
Proof.
intros Wx Wy H1 H2. vred. destruct (deq_spec (snd x) ill); vred; [easy|].
destruct (deq_spec (snd y) ill); vred; [easy|]. easy.
Qed.
End P.
