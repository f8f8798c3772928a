(** * Proofs: reverse operations as contractors *)
From Coq Require Import ZArith NArith Reals Bool Lia Lra Psatz List.
From Flocq Require Import Core.Core IEEE754.BinarySingleNaN.
From Verif Require Import Fmt Spec FloatFacts Exc Deco SpecApi SpecElem SpecDeco SpecNum SpecProg MBase PBase MBool MArith MElem MPow PArith PMul PUnary PElem2
  PConv PBool PSetop PClass PDec PPown PTrigT PTan MRev SpecRev PRev PRevEven PRevW SpecPownRev PPownRev PPownRev7 SpecMulRev PMulRevX MTrig MTrigRev PTrigRev PTrigRev2 PTrigRev4 SpecNear
  PValid PValid2 SpecContr.
Local Open Scope R_scope.
Local Open Scope m_scope.

Section G.
Context {F : fmt}.
Implicit Types c x z : itv F.
Lemma tightest_mono (S S' : R -> Prop) z z' : (forall t, S t -> S' t) -> tightest S z -> tightest S' z' -> included z z'.
Proof. intros H (_ & _ & H3) (W & E & _). apply H3; [easy|]. intros t Ht. apply E. auto. Qed.
Lemma tightest_sub (S : R -> Prop) x z : wf x -> tightest (fun t => S t /\ mem t x) z -> included z x.
Proof. intros W (_ & _ & H). apply H; [easy|]. now intros t []. Qed.
Lemma tightest_again (S : R -> Prop) x z z' : wf x ->
  tightest (fun t => S t /\ mem t x) z -> tightest (fun t => S t /\ mem t z) z' -> same_set z' z.
Proof.
intros W H H'. apply tightest_unique with (1 := H'). destruct H as (Wz & E & M). split; [easy|]. split; [now intros t []|].
intros y Wy Ey. apply M; [easy|]. intros t [H1 H2]. apply Ey. split; [easy|]. now apply E.
Qed.

(** An operation that returns the tightest interval around [S c] in the box. *)
Variable res : itv F -> itv F -> itv F -> Prop.
Variable S : itv F -> R -> Prop.
Hypothesis T : forall c x, wf c -> wf x -> exists z, res c x z /\ tightest (fun t => S c t /\ mem t x) z.
Lemma contr_of : contracts res.
Proof. intros c x Wc Wx. destruct (T c x Wc Wx) as (z & H1 & H2). exists z. split; [easy|]. split; [apply H2|]. now apply (tightest_sub (S c)). Qed.
Lemma idem_of : idempotent res.
Proof.
intros c x Wc Wx. destruct (T c x Wc Wx) as (z & H1 & H2). destruct (T c z Wc (proj1 H2)) as (z' & H1' & H2').
exists z, z'. split; [easy|]. split; [easy|]. now apply (tightest_again (S c) x).
Qed.
Lemma mono_of : (forall c c', wf c -> wf c' -> included c c' -> forall t, S c t -> S c' t) -> monotone res.
Proof.
intros Hm c c' x x' Wc Wc' Wx Wx' Hc Hx. destruct (T c x Wc Wx) as (z & H1 & H2). destruct (T c' x' Wc' Wx') as (z' & H1' & H2').
exists z, z'. split; [easy|]. split; [easy|]. revert H2 H2'. apply tightest_mono. intros t [K1 K2]. split; [now apply (Hm c)|now apply Hx].
Qed.
Lemma recov_of (P : itv F -> Prop) fw D : (forall x, wf x -> computes_tightest (fw x) (D x)) ->
  (forall x c, wf x -> wf c -> P x -> encloses (D x) c -> forall y, wf y -> (forall t, S c t -> mem t x -> mem t y) -> included x y) -> recovers P fw res.
Proof.
intros Hf Hr x Wx Px. destruct (Hf x Wx) as (c & H1 & Wc & H2 & _). destruct (T c x Wc Wx) as (z & H3 & H4).
exists c, z. split; [easy|]. split; [easy|]. split; [easy|]. intros t. split; [now apply (tightest_sub (S c))|].
apply (Hr x c Wx Wc Px H2 z (proj1 H4)). intros u K1 K2. now apply (proj1 (proj2 H4)).
Qed.
End G.

Lemma of_tight {F} (op : itv F -> itv F -> M (itv F)) S (c x : itv F) : computes_tightest (op c x) (S c x) -> exists z, of_op op c x z /\ tightest (S c x) z.
Proof. intros (z & H1 & H2). now exists z. Qed.
Lemma of_tight_pre {F} (op : itv F -> itv F -> M (itv F)) D f : (forall c x, wf c -> wf x -> computes_tightest (op c x) (preimage D f c x)) ->
  forall c x, wf c -> wf x -> exists z, of_op op c x z /\ tightest (fun t => (D t /\ mem (f t) c) /\ mem t x) z.
Proof.
intros H c x Wc Wx. destruct (H c x Wc Wx) as (z & H1 & H2). exists z. split; [easy|]. revert H2. apply tightest_ext. intros t. unfold preimage. tauto.
Qed.

Lemma pre_mono {F} (D : R -> Prop) (f : R -> R) (c c' : itv F) : wf c -> wf c' -> included c c' ->
  forall t, D t /\ mem (f t) c -> D t /\ mem (f t) c'.
Proof. intros _ _ H t [H1 H2]. split; [easy|now apply H]. Qed.
Lemma pre_recov {F} (f : R -> R) (x c : itv F) : wf x -> wf c -> any_box x -> encloses (image1 everywhere f x) c ->
  forall y : itv F, wf y -> (forall t, everywhere t /\ mem (f t) c -> mem t x -> mem t y) -> included x y.
Proof. intros _ _ _ E y _ H t Ht. apply H; [|easy]. split; [easy|]. apply E. now exists t. Qed.

Section Ev.
Variable F : fmt.
Let Ts := of_tight_pre (@sqr_rev F) everywhere (fun t => t * t) sqr_rev_tight.
Let Ta := of_tight_pre (@abs_rev F) everywhere Rabs abs_rev_tight.
Let Tc := of_tight_pre (@cosh_rev F) everywhere cosh cosh_rev_tight.
Lemma sqr_rev_contr : contracts (of_op (@sqr_rev F)). Proof. exact (contr_of _ _ Ts). Qed.
Lemma sqr_rev_idem : idempotent (of_op (@sqr_rev F)). Proof. exact (idem_of _ _ Ts). Qed.
Lemma sqr_rev_mono : monotone (of_op (@sqr_rev F)). Proof. apply (mono_of _ _ Ts). intros. now apply (pre_mono _ _ c). Qed.
Lemma sqr_rev_recov : recovers any_box (@sqr F) (of_op (@sqr_rev F)).
Proof. apply (recov_of _ _ Ts _ _ _ sqr_tightest). apply (pre_recov (fun t => t * t)). Qed.
Lemma abs_rev_contr : contracts (of_op (@abs_rev F)). Proof. exact (contr_of _ _ Ta). Qed.
Lemma abs_rev_idem : idempotent (of_op (@abs_rev F)). Proof. exact (idem_of _ _ Ta). Qed.
Lemma abs_rev_mono : monotone (of_op (@abs_rev F)). Proof. apply (mono_of _ _ Ta). intros. now apply (pre_mono _ _ c). Qed.
Lemma abs_rev_recov : recovers any_box (@abs F) (of_op (@abs_rev F)).
Proof. apply (recov_of _ _ Ta _ _ _ abs_tightest). apply pre_recov. Qed.
Lemma cosh_rev_contr : contracts (of_op (@cosh_rev F)). Proof. exact (contr_of _ _ Tc). Qed.
Lemma cosh_rev_idem : idempotent (of_op (@cosh_rev F)). Proof. exact (idem_of _ _ Tc). Qed.
Lemma cosh_rev_mono : monotone (of_op (@cosh_rev F)). Proof. apply (mono_of _ _ Tc). intros. now apply (pre_mono _ _ c). Qed.
Lemma cosh_rev_recov : recovers any_box (@cosh_itv F) (of_op (@cosh_rev F)).
Proof. apply (recov_of _ _ Tc _ _ _ cosh_tightest). apply pre_recov. Qed.
End Ev.

(** ** Multiplication *)
Section Mu.
Context {F : fmt}.
Implicit Types b c x : itv F.
Lemma mul_T b : wf b -> forall c x, wf c -> wf x -> exists z, of_op (mul_rev b) c x z /\ tightest (fun t => rev_mul_lim b c t /\ mem t x) z.
Proof. intros Wb c x Wc Wx. apply (of_tight (mul_rev b) (fun c x t => rev_mul_lim b c t /\ mem t x)). now apply mul_rev_exact. Qed.
Lemma mul_rev_contr b : wf b -> contracts (of_op (mul_rev b)). Proof. intros W. exact (contr_of _ _ (mul_T b W)). Qed.
Lemma mul_rev_idem b : wf b -> idempotent (of_op (mul_rev b)). Proof. intros W. exact (idem_of _ _ (mul_T b W)). Qed.
Lemma lim_mono b b' c c' t : included b b' -> included c c' -> rev_mul_lim b c t -> rev_mul_lim b' c' t.
Proof.
intros Hb Hc [(s & H1 & H2)|(E & U & r & Hr)]; [left; exists s; split; [now apply Hb|now apply Hc]|right].
split; [easy|]. split; [|exists r; now apply Hc]. intros B. destruct (U B) as (s & H1 & H2). exists s. split; [now apply Hb|easy].
Qed.
Lemma mul_rev_mono b b' c c' x x' : wf b -> wf b' -> wf c -> wf c' -> wf x -> wf x' -> included b b' -> included c c' -> included x x' ->
  exists z z', returns (mul_rev b c x) z /\ returns (mul_rev b' c' x') z' /\ included z z'.
Proof.
intros Wb Wb' Wc Wc' Wx Wx' Hb Hc Hx. destruct (mul_T b Wb c x Wc Wx) as (z & H1 & H2). destruct (mul_T b' Wb' c' x' Wc' Wx') as (z' & H1' & H2').
exists z, z'. split; [easy|]. split; [easy|]. revert H2 H2'. apply tightest_mono. intros t [K1 K2]. split; [now apply (lim_mono b b' c c')|now apply Hx].
Qed.
Lemma mul_rev_recov b : wf b -> (exists s, mem s b) -> recovers any_box (mul b) (of_op (mul_rev b)).
Proof.
intros Wb [s Hs]. apply (recov_of _ _ (mul_T b Wb) _ _ _ (fun x Wx => mul_tightest b x Wb Wx)).
intros x c _ _ _ E y _ H t Ht. apply H; [|easy]. left. exists s. split; [easy|]. apply E. now exists s, t.
Qed.
End Mu.

(** ** Integer powers *)
Section Pw.
Context {F : fmt}.
Implicit Types c x : itv F.
Variable p : Z.
Hypothesis Hp : p <> int_min.
Definition sideof c (t : R) : Prop := forall z1 z2 : itv F, tightest (fun t => t <= 0 /\ solves p c t) z1 ->
  tightest (fun t => 0 <= t /\ solves p c t) z2 -> mem t z1 \/ mem t z2.
Definition Sp c (t : R) : Prop := if Z.ltb p 0 then solves p c t \/ (t = 0 /\ limit_zero p c) else sideof c t.
Lemma pown_T c x : wf c -> wf x -> exists z, of_loop (fun n c x => pown_rev n c x p) c x z /\ tightest (fun t => Sp c t /\ mem t x) z.
Proof.
intros Wc Wx. unfold Sp. destruct (Z.ltb_spec p 0) as [L|L].
- destruct (pown_rev_neg_tight c x p Wc Wx L Hp) as (z & k & H1 & H2). exists z. split; [now exists k|]. revert H2. apply tightest_ext. intros t. tauto.
- destruct (pown_rev_pos_cut c x p Wc Wx L) as (z & k & H1 & z1 & z2 & T1 & T2 & H2). exists z. split; [now exists k|].
  revert H2. apply tightest_ext. intros t. unfold sideof. split.
  + intros [K1 K2]. split; [|easy]. intros y1 y2 S1 S2. destruct K2 as [K2|K2]; [left|right].
    * now apply (tightest_unique _ _ _ T1 S1).
    * now apply (tightest_unique _ _ _ T2 S2).
  + intros [K1 K2]. split; [easy|]. now apply K1.
Qed.
Lemma pown_rev_contr : contracts (of_loop (fun n c x => @pown_rev F n c x p)). Proof. exact (contr_of _ _ pown_T). Qed.
Lemma pown_rev_idem : idempotent (of_loop (fun n c x => @pown_rev F n c x p)). Proof. exact (idem_of _ _ pown_T). Qed.
Lemma solves_mono c c' t : included c c' -> solves p c t -> solves p c' t.
Proof. intros H [H1 H2]. split; [easy|now apply H]. Qed.
Lemma sides_exist c : wf c -> (0 <= p)%Z -> exists z1 z2 : itv F, tightest (fun t => t <= 0 /\ solves p c t) z1 /\ tightest (fun t => 0 <= t /\ solves p c t) z2.
Proof.
intros Wc L. destruct (pown_rev_pos_cut c empty_rep p Wc (or_introl eq_refl) L) as (z & k & _ & z1 & z2 & T1 & T2 & _). now exists z1, z2.
Qed.
Lemma pown_rev_mono : monotone (of_loop (fun n c x => @pown_rev F n c x p)).
Proof.
apply (mono_of _ _ pown_T). intros c c' Wc Wc' H t. unfold Sp. destruct (Z.ltb_spec p 0) as [L|L].
- intros [K|[K1 K2]]; [left; now apply (solves_mono c)|right]. split; [easy|].
  destruct K2 as [K2|[O K2]]; [left|right; split; [easy|]]; intros B; destruct (K2 B) as (r & H1 & H2); exists r; (split; [now apply H|easy]).
- intros K y1 y2 S1 S2. destruct (sides_exist c Wc L) as (z1 & z2 & T1 & T2).
  assert (Q : forall u, solves p c u -> solves p c' u) by (intros u; now apply solves_mono).
  destruct (K z1 z2 T1 T2) as [M|M]; [left; refine (tightest_mono _ _ _ _ _ T1 S1 t M)|right; refine (tightest_mono _ _ _ _ _ T2 S2 t M)];
    (intros u [K1 K2]; split; [easy|now apply Q]).
Qed.
(** A closed interval around the non-zero points of [x] contains zero as well if [x] does. *)
Lemma closed_zero x (y : itv F) : wf x -> wf y -> ((exists t, mem t x /\ t <> 0) \/ forall t, ~ mem t x) ->
  (forall t, mem t x -> t <> 0 -> mem t y) -> included x y.
Proof.
intros Wx Wy Hx H t Ht. destruct (Req_dec t 0) as [->|Nt]; [|now apply H]. destruct Hx as [(s & Hs & Ns)|Hx]; [|now destruct (Hx 0)].
assert (C : forall e, 0 < e -> e <= 1 -> exists r, (lb (fst y) r /\ ub (snd y) r) /\ 0 < r * s /\ Rabs r <= e * Rabs s).
{ intros e He H1. exists (s * e). assert (Ms : mem (s * e) x).
  { destruct Ht as [L0 U0], Hs as [L1 U1]. destruct (Rle_or_lt 0 s) as [P|P].
    - split; [apply lb_mono with 0; [easy|nra]|apply ub_mono with s; [easy|nra]].
    - split; [apply lb_mono with s; [easy|nra]|apply ub_mono with 0; [easy|nra]]. }
  split; [apply H; [easy|apply Rmult_integral_contrapositive; lra]|]. split.
  - replace (s * e * s) with (e * (s * s)) by ring. apply Rmult_lt_0_compat; [easy|]. nra.
  - rewrite Rabs_mult, (Rabs_pos_eq e) by lra. lra. }
assert (Ps : 0 < Rabs s) by now apply Rabs_pos_lt.
split.
- revert C; destruct (fviewP (fst y)) as [ | | |v Fv]; intros C.
  + destruct (C 1 Rlt_0_1 (Rle_refl 1)) as (r & [M _] & _); easy.
  + easy.
  + destruct (C 1 Rlt_0_1 (Rle_refl 1)) as (r & [M _] & _); easy.
  + rewrite lb_fin by easy. apply Rnot_lt_le. intros K.
    destruct (C (Rmin 1 (B2R v / 2 / Rabs s))) as (r & [M _] & _ & Q).
    * apply Rmin_pos; [lra|]. apply Rdiv_lt_0_compat; lra.
    * apply Rmin_l.
    * rewrite lb_fin in M by easy. assert (Rabs r <= B2R v / 2).
      { apply Rle_trans with (1 := Q). apply Rle_trans with (B2R v / 2 / Rabs s * Rabs s); [apply Rmult_le_compat_r; [lra|apply Rmin_r]|]. right. field. lra. }
      pose proof (Rle_abs r). lra.
- revert C; destruct (fviewP (snd y)) as [ | | |v Fv]; intros C.
  + destruct (C 1 Rlt_0_1 (Rle_refl 1)) as (r & [_ M] & _); easy.
  + destruct (C 1 Rlt_0_1 (Rle_refl 1)) as (r & [_ M] & _); easy.
  + easy.
  + rewrite ub_fin by easy. apply Rnot_lt_le. intros K.
    destruct (C (Rmin 1 (- B2R v / 2 / Rabs s))) as (r & [_ M] & _ & Q).
    * apply Rmin_pos; [lra|]. apply Rdiv_lt_0_compat; lra.
    * apply Rmin_l.
    * rewrite ub_fin in M by easy. assert (Rabs r <= - B2R v / 2).
      { apply Rle_trans with (1 := Q). apply Rle_trans with (- B2R v / 2 / Rabs s * Rabs s); [apply Rmult_le_compat_r; [lra|apply Rmin_r]|]. right. field. lra. }
      pose proof (Rle_abs (- r)) as A. rewrite Rabs_Ropp in A. lra.
Qed.
Lemma pown_rev_recov : recovers (fun x => (0 <= p)%Z \/ (exists t, mem t x /\ t <> 0) \/ forall t, ~ mem t x) (fun x => pown x p)
  (of_loop (fun n c x => @pown_rev F n c x p)).
Proof.
apply (recov_of _ _ pown_T _ _ _ (fun x Wx => pown_tightest x p Wx)). intros x c Wx Wc Px E y Wy H.
assert (K : forall t, mem t x -> pown_dom p t -> mem t y).
{ intros t Ht D. apply H; [|easy]. assert (Q : solves p c t) by (split; [easy|]; apply E; now exists t).
  unfold Sp. destruct (Z.ltb_spec p 0) as [L|L]; [now left|]. intros z1 z2 T1 T2.
  destruct (Rle_or_lt t 0); [left; now apply (proj1 (proj2 T1))|right]. apply (proj1 (proj2 T2)). split; [lra|easy]. }
destruct (Z.ltb_spec p 0) as [L|L].
- apply closed_zero; [easy|easy|destruct Px as [Px|Px]; [lia|easy]|]. intros t Ht Nt. apply K; [easy|]. now intros _.
- intros t Ht. apply K; [easy|]. intros K'. lia.
Qed.
End Pw.
