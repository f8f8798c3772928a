(** * Proofs: reverse sine, cosine and tangent as contractors *)
From Coq Require Import ZArith NArith Reals Bool Lia Lra Psatz List.
From Flocq Require Import Core.Core IEEE754.BinarySingleNaN.
From Verif Require Import Fmt Spec FloatFacts Exc Deco SpecApi SpecElem SpecDeco SpecNum SpecProg MBase PBase MBool MArith MElem PArith
  PConv PBool PSetop PClass PDec PTrigT PTan MRev SpecRev PRev PRevEven PRevW MTrig MTrigRev PTrigRev PTrigRev2 PTrigRev3 PTrigRev4 SpecNear
  PNai PValid PValid2 SpecContr.
Local Open Scope R_scope.
Local Open Scope m_scope.

Section C.
Context {F : fmt}.
Implicit Types c x y z : itv F.
Definition inside x z : Prop := wf z /\ included z x.
Lemma inside_empty x : inside x empty.
Proof. split; [now left|]. intros t [H _]. exact (False_ind _ H). Qed.
Lemma del_inter_in y x : wf x -> delivers (intersection y x) (inside x).
Proof.
intros Wx. destruct (wf_dec_em y) as [Wy|Ny].
- destruct (intersection_exact y x Wy Wx) as (z & E & Wz & H). rewrite E. apply del_ret. split; [easy|]. intros t Ht. now apply H.
- unfold intersection, mif. apply del_bind with (Q := fun v => v = true).
  + apply del_reports with (2 := eq_refl) (b := invalid_operand_bit) (e := Invalid_operand_exception). apply reports_mor_true. change true with (negb false) at 1.
    apply reports_mnot, is_valid_reports, Ny.
  + intros v ->. apply del_ret, inside_empty.
Qed.
Lemma del_hull_in y z x : wf x -> inside x y -> inside x z -> delivers (convex_hull y z) (inside x).
Proof.
intros Wx [Wy Hy] [Wz Hz]. destruct (hull_tightest y z Wy Wz) as (h & E & T). apply del_returns with (1 := E).
split; [apply T|]. apply T; [easy|]. intros t [H|H]; auto.
Qed.
Lemma try_two_del b0 b1 x : wf x -> delivers (try_two b0 b1 x) (inside x).
Proof.
intros Wx. unfold try_two. apply del_then. intros z. eapply del_bind; [now apply del_inter_in|]. intros z' Hz'.
apply del_mif; [|now apply del_ret]. apply del_then. intros z1. now apply del_inter_in.
Qed.
Lemma lchk_del {A} k (m : M A) P : delivers m P -> delivers (lchk k m) P.
Proof. intros H. unfold lchk. apply del_if; intros _; [easy|apply del_undef]. Qed.
Lemma left_box_del kind cl cu x : wf x -> isnan (fst x) = false -> delivers (left_box kind cl cu x) (inside x).
Proof.
intros Wx N. unfold left_box. apply del_if; intros E; [|apply lchk_del; now apply try_two_del]. apply del_ret. split.
- right. exists (- B2R (@fmaxv F)). split; [easy|]. cbn [snd]. apply ub_fneg. rewrite Ropp_involutive. rewrite lb_fin by apply is_finite_fmaxv. lra.
- intros t [_ Ht]. cbn [snd] in Ht. apply ub_fneg in Ht. rewrite lb_fin in Ht by apply is_finite_fmaxv.
  destruct (wf_nonnan x Wx N) as [r [L U]]. split.
  + revert E L. destruct (fviewP (fst x)) as [ | | |v Fv]; try easy. intros E. exfalso. now destruct v.
  + revert U. destruct (fviewP (snd x)) as [ | | |w Fw]; try easy. intros _. rewrite ub_fin by easy.
    pose proof (abs_le_fmaxv w) as A. apply Rabs_le_inv in A. lra.
Qed.
Lemma right_box_del kind up cl cu x : wf x -> isnan (fst x) = false -> delivers (right_box kind up cl cu x) (inside x).
Proof.
intros Wx N. unfold right_box. apply del_if; intros E; [|apply lchk_del; now apply try_two_del]. apply del_ret. split.
- right. exists (B2R (@fmaxv F)). split; [|easy]. cbn [fst]. rewrite lb_fin by apply is_finite_fmaxv. lra.
- intros t [Ht _]. cbn [fst] in Ht. rewrite lb_fin in Ht by apply is_finite_fmaxv.
  destruct (wf_nonnan x Wx N) as [r [L U]]. split.
  + revert L. destruct (fviewP (fst x)) as [ | | |w Fw]; try easy. intros _. rewrite lb_fin by easy.
    pose proof (abs_le_fmaxv w) as A. apply Rabs_le_inv in A. lra.
  + revert E U. destruct (fviewP (snd x)) as [ | | |v Fv]; try easy. intros E. exfalso. now destruct v.
Qed.
Lemma two_boxes_in kind up cl cu x : wf x -> isnan (fst x) = false -> delivers (two_boxes kind up cl cu x) (inside x).
Proof.
intros Wx N. unfold two_boxes. eapply del_bind; [now apply left_box_del|]. intros l Hl. eapply del_bind; [now apply right_box_del|]. intros r Hr.
now apply del_hull_in.
Qed.
Lemma inside_self x : wf x -> inside x x. Proof. now split. Qed.
Lemma sin_rev_in c x : wf c -> wf x -> delivers (sin_rev c x) (inside x).
Proof.
intros Wc Wx. unfold sin_rev. rewrite !is_valid_wf, !is_empty_wf by easy. mreds. destruct (isnan (fst x)) eqn:N; mreds; [apply del_ret, inside_empty|].
destruct (intersection_exact c (fm1, f1) Wc unit_wf) as (cc & Ec & Wcc & Hcc). rewrite Ec. mreds. rewrite is_empty_wf by easy. mreds.
destruct (isnan (fst cc)) eqn:Ncc; mreds.
- apply del_ret. split; [easy|]. intros t Ht. now apply (nan_no_mem cc t) in Ncc.
- apply del_mif; [now apply del_ret, inside_self|]. now apply two_boxes_in.
Qed.
Lemma cos_rev_in c x : wf c -> wf x -> delivers (cos_rev c x) (inside x).
Proof.
intros Wc Wx. unfold cos_rev. rewrite !is_valid_wf, !is_empty_wf by easy. mreds. destruct (isnan (fst x)) eqn:N; mreds; [apply del_ret, inside_empty|].
destruct (intersection_exact c (fm1, f1) Wc unit_wf) as (cc & Ec & Wcc & Hcc). rewrite Ec. mreds. rewrite is_empty_wf by easy. mreds.
destruct (isnan (fst cc)) eqn:Ncc; mreds.
- apply del_ret. split; [easy|]. intros t Ht. now apply (nan_no_mem cc t) in Ncc.
- apply del_mif; [now apply del_ret, inside_self|]. now apply two_boxes_in.
Qed.
Lemma tan_rev_in c x : wf c -> wf x -> delivers (tan_rev c x) (inside x).
Proof.
intros Wc Wx. unfold tan_rev. rewrite !is_valid_wf, !is_empty_wf by easy. mreds. destruct (isnan (fst c)); mreds; [apply del_ret, inside_empty|].
destruct (isnan (fst x)) eqn:N; mreds; [apply del_ret, inside_empty|]. now apply two_boxes_in.
Qed.

(** ** The image as the constraint *)
Lemma end_in x : (exists t, mem t x) -> (is_finite (fst x) = true -> mem (B2R (fst x)) x) /\ (is_finite (snd x) = true -> mem (B2R (snd x)) x).
Proof.
intros [t [L U]]. split; intros Fx; (split; [|]).
- rewrite lb_fin by easy. lra.
- rewrite lb_fin in L by easy. now apply ub_mono with t.
- rewrite ub_fin in U by easy. now apply lb_mono with t.
- rewrite ub_fin by easy. lra.
Qed.
Lemma cos_rev_recov : recovers (modest (prec F)) (@cos_itv F) (of_op (@cos_rev F)).
Proof.
intros x Wx Mx. destruct (cos_tightest x Wx) as (c & H1 & Wc & H2 & _). destruct (cos_rev_encl c x Wc Wx Mx) as (z & H3 & Wz & H4).
exists c, z. split; [easy|]. split; [easy|]. split; [easy|]. intros t. split.
- exact (proj2 (cos_rev_in c x Wc Wx (Est 0 0) z (Est 0 0) (H3 _)) t).
- intros Ht. apply H4. split; [easy|]. split; [easy|]. apply H2. now exists t.
Qed.
Lemma sin_rev_recov : (8 <= prec F)%Z -> recovers (modest (prec F - 6)) (@sin_itv F) (of_op (@sin_rev F)).
Proof.
intros P8 x Wx Mx. destruct (sin_tightest x Wx) as (c & H1 & Wc & H2 & _).
assert (S : forall t, mem t x -> preimage everywhere sin c x t) by (intros t Ht; split; [easy|]; split; [easy|]; apply H2; now exists t).
destruct (sin_rev_near c x P8 Wc Wx Mx) as (z & H3 & Wz & H4).
{ intros (t & Ht & _). destruct (end_in x (ex_intro _ t Ht)) as [E1 E2]. split; intros Fx.
  - exists (B2R (fst x)). split; [apply S; auto|lra].
  - exists (B2R (snd x)). split; [apply S; auto|lra]. }
exists c, z. split; [easy|]. split; [easy|]. split; [easy|]. intros t. split.
- exact (proj2 (sin_rev_in c x Wc Wx (Est 0 0) z (Est 0 0) (H3 _)) t).
- intros Ht. apply H4. auto.
Qed.
(** Every point of [x] lies between points of [x] that are not poles. *)
Lemma between_defined x t : mem t x -> exists a b, mem a x /\ mem b x /\ cos a <> 0 /\ cos b <> 0 /\ a <= t <= b.
Proof.
intros Ht. destruct (Req_dec (cos t) 0) as [Z|N]; [|exists t, t; repeat split; try apply Ht; try easy; lra].
destruct (end_in x (ex_intro _ t Ht)) as [E1 E2].
assert (Ps : cos (t - 1) <> 0 /\ cos (t + 1) <> 0).
{ assert (Q : sin t * sin t = 1). { pose proof (sin2_cos2 t) as Q. unfold Rsqr in Q. rewrite Z in Q. lra. }
  assert (S1 : 0 < sin 1) by (apply sin_gt_0; pose proof pi34; lra).
  rewrite cos_minus, cos_plus, Z. split; intros K; assert (sin t * sin 1 = 0) as K' by lra; apply Rmult_integral in K'; destruct K' as [K'|K']; rewrite ?K' in *; lra. }
assert (A : exists a, mem a x /\ cos a <> 0 /\ a <= t).
{ destruct (is_finite (fst x)) eqn:Fx.
  - exists (B2R (fst x)). split; [auto|]. split; [apply cos_nz, rational_B2R|]. destruct Ht as [L _]. now rewrite lb_fin in L.
  - exists (t - 1). split; [|split; [easy|lra]]. destruct Ht as [L U]. split; [now destruct (fst x) as [|[]| |]|apply ub_mono with t; [easy|lra]]. }
assert (B : exists b, mem b x /\ cos b <> 0 /\ t <= b).
{ destruct (is_finite (snd x)) eqn:Fx.
  - exists (B2R (snd x)). split; [auto|]. split; [apply cos_nz, rational_B2R|]. destruct Ht as [_ U]. now rewrite ub_fin in U.
  - exists (t + 1). split; [|split; [easy|lra]]. destruct Ht as [L U]. split; [apply lb_mono with t; [easy|lra]|now destruct (snd x) as [|[]| |]]. }
destruct A as (a & ? & ? & ?), B as (b & ? & ? & ?). exists a, b. repeat split; try easy; apply H || apply H2.
Qed.
Lemma tan_rev_recov : (8 <= prec F)%Z ->
  recovers (fun x => modest (prec F - 6) x /\ computes_enclosure (tan_itv x) (image1 (fun r => cos r <> 0) tan x)) (@tan_itv F) (of_op (@tan_rev F)).
Proof.
intros P8 x Wx [Mx (c & H1 & Wc & H2)].
assert (S : forall t, mem t x -> cos t <> 0 -> preimage (fun t => cos t <> 0) tan c x t) by (intros t Ht N; split; [easy|]; split; [easy|]; apply H2; now exists t).
destruct (tan_rev_near c x P8 Wc Wx Mx) as (z & H3 & Wz & H4).
{ intros (t & Ht & _). destruct (end_in x (ex_intro _ t Ht)) as [E1 E2]. split; intros Fx.
  - exists (B2R (fst x)). split; [apply S; [auto|apply cos_nz, rational_B2R]|lra].
  - exists (B2R (snd x)). split; [apply S; [auto|apply cos_nz, rational_B2R]|lra]. }
exists c, z. split; [easy|]. split; [easy|]. split; [easy|]. intros t. split.
- exact (proj2 (tan_rev_in c x Wc Wx (Est 0 0) z (Est 0 0) (H3 _)) t).
- intros Ht. destruct (between_defined x t Ht) as (a & b & Ma & Mb & Na & Nb & L). apply mem_between with a b; [apply H4; auto|apply H4; auto|easy].
Qed.

(** ** Not monotone *)
Lemma sin_rev_not_mono : (9 <= prec F)%Z -> exists c x x', wf c /\ wf x /\ wf x' /\ included x x' /\
  exists z, returns (sin_rev c x) z /\ returns (sin_rev c x') empty /\ exists t, mem t z.
Proof.
intros P. assert (P8 : (8 <= prec F)%Z) by lia. destruct (sin_rev_misses_at (F := F) P8) as (c & x' & Wc & Wx' & _ & (_ & _ & Mc) & Hx' & E').
destruct (sixteenth P8 64) as (a & Fa & Ea); [easy|]. destruct (sixteenth P8 80) as (b & Fb & Eb); [easy|].
assert (Hx : forall r, mem r (a, b) <-> 4 <= r <= 5) by (intros r; rewrite point_mem by easy; lra).
assert (Wx : wf (a, b)) by (right; exists 4; apply Hx; lra).
assert (Mo : modest (prec F - 6) (a, b)).
{ assert (8 <= bpow radix2 (Z.min (prec F - 6) 62)). { apply Rle_trans with (bpow radix2 3); [simpl; lra|]. apply bpow_le. lia. }
  split; intros _; cbn [fst snd]; rewrite ?Ea, ?Eb, Rabs_pos_eq; lra. }
destruct (sin_rev_narrow c (a, b) P8 Wc Wx Mo) as (z & E & Wz & Hz). { repeat split; try easy. cbn [fst snd]. lra. }
exists c, (a, b), x'. repeat (split; [easy|]). split; [intros r Hr; apply Hx'; apply Hx in Hr; lra|].
exists z. split; [easy|]. split; [easy|]. exists (3 * (PI / 2)). apply Hz. split; [|now split]. apply Hx. pose proof pi34. lra.
Qed.
End C.
