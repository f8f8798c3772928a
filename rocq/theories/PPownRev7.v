(** * Proofs: exactly what the reverse integer power computes, all exponents *)
From Coq Require Import ZArith NArith Reals Bool Lia Lra Psatz List.
From Flocq Require Import Core.Core Calc.Operations IEEE754.BinarySingleNaN.
From Verif Require Import Fmt Spec SpecElem FloatFacts Exc Deco SpecApi MBase PBase MBool MArith PArith PMul PFma PDiv PUnary
  PConv PBool PSetop PDec MNum PNumF PCancel MElem PElem MPow PPown MRev SpecRev PRev PMulRev PRevEven PPownRev PPownRev2 PPownRev3 PPownRev4 PPownRev5
  PPownRev6 MMixed PMixed PRevW SpecPownRev.

Local Open Scope R_scope.

Section P.
Context {F : fmt}.
Implicit Types x z c : itv F.

Lemma upp_inf c : wf c -> isnan (fst c) = false -> (snd c = finf <-> unb_above (fun r => mem r c)).
Proof.
intros Wc Nc. destruct (upp_end_snd c (wf_view c Wc) Nc) as [(Fu & M & L)|(E & U)]; [|now split].
split; [intros E; now rewrite E in Fu|]. intros U. destruct (U (B2R (snd c))) as (r & Mr & Lr). specialize (L r Mr). lra.
Qed.
Lemma low_inf c : wf c -> isnan (fst c) = false -> (fst c = fminf <-> unb_below (fun r => mem r c)).
Proof.
intros Wc Nc. destruct (low_end_fst c (wf_view c Wc) Nc) as [(Fu & M & L)|(E & U)]; [|now split].
split; [intros E; now rewrite E in Fu|]. intros U. destruct (U (B2R (fst c))) as (r & Mr & Lr). specialize (L r Mr). lra.
Qed.
Lemma sol_neg q c t : solves (Zneg q) c t <-> t <> 0 /\ mem (/ t ^ Pos.to_nat q) c.
Proof. unfold solves, pown_dom. split; intros [H1 H2]; (split; [|exact H2]); [now apply H1|easy]. Qed.
Lemma tight_finally (f g : nat -> M (itv F)) (S S' : R -> Prop) : (forall j, g j = f j) -> (forall t, S t <-> S' t) ->
  settles_tight f S -> finally g (tightest S').
Proof.
intros E1 E2 (z & k & H1 & H2). exists z, k. split.
- intros j Hj. apply returns_eq. rewrite E1. auto.
- revert H2. now apply tightest_ext.
Qed.

Lemma pown_rev_neg_tight c x (p : Z) : wf c -> wf x -> (p < 0)%Z -> p <> int_min ->
  finally (fun fuel => pown_rev fuel c x p) (tightest (fun t => mem t x /\ (solves p c t \/ (t = 0 /\ limit_zero p c)))).
Proof.
intros Wc Wx Np NP. destruct p as [|q|q]; try lia.
destruct (isnan (fst c)) eqn:Ec.
{ exists empty, 0%nat. split; [intros j _; apply returns_eq; unfold pown_rev; cbv zeta; vred; rewrite Ec; now vred|].
  apply tightest_empty. intros t (_ & [[_ H]|[_ H]]).
  - now apply nan_no_mem in H.
  - destruct H as [H|[_ H]]; destruct (H 0) as (r & H' & _); now apply nan_no_mem in H'. }
destruct (isnan (fst x)) eqn:Ex.
{ exists empty, 0%nat. split; [intros j _; apply returns_eq; unfold pown_rev; cbv zeta; vred; rewrite Ec, Ex; now vred|].
  apply tightest_empty. intros t (H & _). now apply nan_no_mem in H. }
pose proof (upp_inf c Wc Ec) as UI. pose proof (low_inf c Wc Ec) as LI.
destruct (Z.even (Zneg q)) eqn:Ev.
- eapply tight_finally; [|  |now apply (neg_even_tight q NP c x)].
  + intros j. unfold pown_rev. cbv zeta. vred. rewrite Ec, Ex. vred. rewrite Ev. reflexivity.
  + intros t. rewrite sol_neg, UI. unfold limit_zero. rewrite <- Z.negb_even, Ev. cbn [negb]. unfold unb_above. intuition congruence.
- eapply tight_finally; [|  |now apply (neg_odd_tight q NP c x)].
  + intros j. unfold pown_rev. cbv zeta. vred. rewrite Ec, Ex. vred. rewrite Ev. reflexivity.
  + intros t. rewrite sol_neg, UI, LI. unfold limit_zero. rewrite <- Z.negb_even, Ev. cbn [negb]. unfold unb_above, unb_below. tauto.
Qed.

Lemma tightest_mem z : wf z -> tightest (fun t => mem t z) z.
Proof. intros W. split; [easy|]. split; [now intros r|]. intros z' _ H r Hr. now apply H. Qed.
Lemma half_neg (t : R) : mem t (@fminf F, f0) <-> t <= 0.
Proof. unfold mem. cbn [fst snd]. rewrite ub_fin, B2R_f0 by reflexivity. split; [now intros [_ H]|]. intros H. split; easy. Qed.
Lemma half_pos (t : R) : mem t (@f0 F, finf) <-> 0 <= t.
Proof. unfold mem. cbn [fst snd]. rewrite lb_fin, B2R_f0 by reflexivity. split; [now intros [H _]|]. intros H. split; easy. Qed.
Lemma wf_half_neg : wf (@fminf F, f0). Proof. right. exists 0. apply half_neg. lra. Qed.
Lemma wf_half_pos : wf (@f0 F, finf). Proof. right. exists 0. apply half_pos. lra. Qed.
Lemma pown_rev_pos_cut c x (p : Z) : wf c -> wf x -> (0 <= p)%Z ->
  finally (fun fuel => pown_rev fuel c x p) (cut_sides p c x).
Proof.
intros Wc Wx Np.
destruct (isnan (fst c)) eqn:Ec.
{ exists empty, 0%nat. split; [intros j _; apply returns_eq; unfold pown_rev; cbv zeta; vred; rewrite Ec; now vred|].
  exists empty, empty. split; [|split]; apply tightest_empty.
  - intros t (_ & _ & H). now apply nan_no_mem in H.
  - intros t (_ & _ & H). now apply nan_no_mem in H.
  - intros t (_ & [H|H]); destruct H as [H _]; exact H. }
assert (CW : forall z, (forall j, pown_rev j c x p = ret z) -> cut_sides p c x z -> finally (fun fuel => pown_rev fuel c x p) (cut_sides p c x)).
{ intros z H1 H2. exists z, 0%nat. split; [|easy]. intros j _. now apply returns_eq. }
destruct (isnan (fst x)) eqn:Ex.
{ assert (XE : forall t, ~ mem t x) by (intros t H; now apply nan_no_mem in H).
  assert (HS : exists z1 z2 : itv F, tightest (fun t => t <= 0 /\ solves p c t) z1 /\ tightest (fun t => 0 <= t /\ solves p c t) z2).
  { destruct p as [|q|q]; try lia.
    - destruct (is_member_decides (@f1 F) c Wc) as (b & H1 & H2). rewrite B2R_f1 in H2. assert (F1 := @is_finite_f1 F).
      assert (K : forall t, solves 0 c t <-> mem 1 c) by (intros t; unfold solves, pown_dom, pownR; cbn [powerRZ]; intuition lia).
      destruct b.
      + exists (fminf, f0), (f0, finf). assert (M : mem 1 c) by tauto. split; eapply tightest_ext; try (apply tightest_mem).
        * intros t. rewrite K, half_neg. tauto.
        * apply wf_half_neg.
        * intros t. rewrite K, half_pos. tauto.
        * apply wf_half_pos.
      + exists empty, empty. split; apply tightest_empty; intros t [_ H]; rewrite K in H; assert (false = true) by tauto; easy.
    - destruct (Z.even (Zpos q)) eqn:Ev.
      + destruct (pos_even_cut q c x Wc Wx Ec Ev) as (z & _ & z1 & z2 & H1 & H2 & _). now exists z1, z2.
      + destruct (pos_odd_cut q c x Wc Wx Ec Ev) as (z & _ & z1 & z2 & H1 & H2 & _). now exists z1, z2. }
  destruct HS as (z1 & z2 & H1 & H2). apply CW with empty.
  - intros j. unfold pown_rev. cbv zeta. vred. rewrite Ec, Ex. now vred.
  - exists z1, z2. split; [easy|]. split; [easy|]. apply tightest_empty. intros t [H _]. now apply XE in H. }
destruct p as [|q|q]; try lia.
- destruct (is_member_decides (@f1 F) c Wc) as (b & H1 & H2). apply returns_eq in H1. rewrite B2R_f1 in H2. assert (F1 := @is_finite_f1 F).
  assert (K : forall t, solves 0 c t <-> mem 1 c) by (intros t; unfold solves, pown_dom, pownR; cbn [powerRZ]; intuition lia).
  apply CW with (if b then x else empty).
  { intros j. unfold pown_rev. cbv zeta. vred. rewrite Ec, Ex. vred. cbn [Z.eqb]. rewrite H1. now destruct b; mreds. }
  destruct b.
  + exists (fminf, f0), (f0, finf). assert (M : mem 1 c) by tauto. split; [|split]; eapply tightest_ext; try (apply tightest_mem).
    * intros t. rewrite K, half_neg. tauto.
    * apply wf_half_neg.
    * intros t. rewrite K, half_pos. tauto.
    * apply wf_half_pos.
    * intros t. rewrite half_neg, half_pos. split; [|tauto].
      intros H. split; [easy|]. destruct (Rle_or_lt t 0); [now left|right; lra].
    * easy.
  + exists empty, empty. split; [|split]; apply tightest_empty.
    * intros t [_ H]; rewrite K in H; assert (false = true) by tauto; easy.
    * intros t [_ H]; rewrite K in H; assert (false = true) by tauto; easy.
    * intros t (_ & [H|H]); destruct H as [H _]; exact H.
- destruct (Pos.eq_dec q 1) as [->|Nq].
  + (* the identity *)
    destruct (pos_odd_cut 1 c x Wc Wx Ec eq_refl) as (z & _ & z1 & z2 & H1 & H2 & H3).
    destruct (intersection_exact x c Wx Wc) as (y & Hy & Wy & Ey).
    apply CW with y. { intros j. unfold pown_rev. cbv zeta. vred. rewrite Ec, Ex. vred. exact Hy. }
    assert (K : forall t, solves 1 c t <-> mem t c).
    { intros t. rewrite sol_pos. change (Pos.to_nat 1) with 1%nat. now rewrite pow_1. }
    exists z1, z2. split; [easy|]. split; [easy|]. split; [easy|]. split.
    * (* the sides of an interval are intervals with the same bounds *)
      intros t [Mx [M|M]]; apply Ey; (split; [easy|]).
      -- destruct H1 as (_ & _ & H1). apply (H1 c Wc); [|easy]. intros s [_ Hs]. now apply K.
      -- destruct H2 as (_ & _ & H2). apply (H2 c Wc); [|easy]. intros s [_ Hs]. now apply K.
    * intros z' _ HE t Mt. apply Ey in Mt. apply HE. split; [easy|]. destruct (Rle_or_lt t 0); [left|right].
      -- destruct H1 as (_ & H1 & _). apply H1. split; [easy|]. now apply K.
      -- destruct H2 as (_ & H2 & _). apply H2. split; [lra|]. now apply K.
  + assert (E1 : Z.eqb (Zpos q) 1 = false) by (apply Z.eqb_neq; congruence).
    destruct (Z.even (Zpos q)) eqn:Ev.
    * destruct (pos_even_cut q c x Wc Wx Ec Ev) as (z & H1 & H2). apply CW with z; [|easy].
      intros j. unfold pown_rev. cbv zeta. vred. rewrite Ec, Ex. vred. change (Z.eqb (Zpos q) 0) with false. rewrite E1, Ev. exact H1.
    * destruct (pos_odd_cut q c x Wc Wx Ec Ev) as (z & H1 & H2). apply CW with z; [|easy].
      intros j. unfold pown_rev. cbv zeta. vred. rewrite Ec, Ex. vred. change (Z.eqb (Zpos q) 0) with false. rewrite E1, Ev. exact H1.
Qed.

(** ** Without [x] *)
Lemma limit_closed c z (p : Z) : (p < 0)%Z -> limit_zero p c -> wf z -> encloses (solves p c) z -> mem 0 z.
Proof.
intros Np HL Wz E. destruct p as [|q|q]; try lia.
assert (S1 : forall r, adm q r -> mem r c -> mem (/ rootR (Zpos q) r) z).
{ intros r A M. apply E. apply sol_neg. split; [|now rewrite rho_inv]. apply Rinv_neq_0_compat.
  destruct A as [A|[_ A]]; [pose proof (root_pos q r A)|pose proof (root_neg q r A)]; lra. }
destruct HL as [HL|[O HL]].
- assert (SM : forall e, 0 < e -> exists t, 0 < t < e /\ mem t z).
  { intros e He. destruct (HL (Rmax ((/ e) ^ Pos.to_nat q) 1)) as (r & M & L).
    pose proof (Rmax_l ((/ e) ^ Pos.to_nat q) 1). pose proof (Rmax_r ((/ e) ^ Pos.to_nat q) 1). assert (0 < r) by lra.
    exists (/ rootR (Zpos q) r). split; [|apply S1; [now left|easy]].
    assert (0 < / e) by now apply Rinv_0_lt_compat.
    assert (K : / e < rootR (Zpos q) r) by (apply root_gt; [right|right|]; lra).
    split; [now apply Rinv_0_lt_compat, root_pos|]. rewrite <- (Rinv_inv e). apply Rinv_lt_contravar; [apply Rmult_lt_0_compat; lra|easy]. }
  destruct (SM 1 ltac:(lra)) as (t1 & T1 & M1). destruct z as [l u]. split; cbn [fst snd].
  + destruct (fviewP l) as [ | | |l Fl]; try (now destruct M1).
    rewrite lb_fin by easy. apply Rnot_lt_le. intros K. destruct (SM (B2R l) K) as (t & T & [M _]). cbn [fst] in M. rewrite lb_fin in M by easy. lra.
  + apply ub_mono with t1; [apply M1|lra].
- assert (Oq : oddq q) by (unfold oddq; now rewrite <- Z.negb_odd; change (Z.odd (Zpos q)) with (Z.odd (Zneg q)); rewrite O).
  assert (SM : forall e, 0 < e -> exists t, - e < t < 0 /\ mem t z).
  { intros e He. destruct (HL (- Rmax ((/ e) ^ Pos.to_nat q) 1)) as (r & M & L).
    pose proof (Rmax_l ((/ e) ^ Pos.to_nat q) 1). pose proof (Rmax_r ((/ e) ^ Pos.to_nat q) 1). assert (r < 0) by lra.
    exists (/ rootR (Zpos q) r). split; [|apply S1; [now right|easy]].
    assert (0 < / e) by now apply Rinv_0_lt_compat.
    assert (K : / e < rootR (Zpos q) (- r)) by (apply root_gt; [right|right|]; lra).
    assert (RO : rootR (Zpos q) r = - rootR (Zpos q) (- r)) by (rewrite <- (root_opp q (- r)) by lra; now rewrite Ropp_involutive).
    rewrite RO, Rinv_opp.
    assert (/ rootR (Zpos q) (- r) < e) by (rewrite <- (Rinv_inv e); apply Rinv_lt_contravar; [apply Rmult_lt_0_compat; lra|easy]).
    assert (0 < / rootR (Zpos q) (- r)) by (apply Rinv_0_lt_compat; lra). lra. }
  destruct (SM 1 ltac:(lra)) as (t1 & T1 & M1). destruct z as [l u]. split; cbn [fst snd].
  + apply lb_mono with t1; [apply M1|lra].
  + destruct (fviewP u) as [ | | |u Fl]; try (now destruct M1).
    rewrite ub_fin by easy. apply Rnot_lt_le. intros K. destruct (SM (- B2R u) ltac:(lra)) as (t & T & [_ M]). cbn [snd] in M. rewrite ub_fin in M by easy. lra.
Qed.
Lemma pown_rev1_tight c (p : Z) : wf c -> p <> int_min -> finally (fun fuel => pown_rev1 fuel c p) (tightest (solves p c)).
Proof.
intros Wc NP. unfold pown_rev1. destruct (Z_lt_le_dec p 0) as [L|L].
- destruct (pown_rev_neg_tight c entire p Wc wf_entire L NP) as (z & k & H1 & W & E & H). exists z, k. split; [easy|]. split; [easy|]. split.
  + intros t Ht. apply E. split; [easy|now left].
  + intros z' W' E'. apply H; [easy|]. intros t [_ [Ht|[-> Ht]]]; [now apply E'|]. now apply (limit_closed c z' p).
- destruct (pown_rev_pos_cut c entire p Wc wf_entire L) as (z & k & H1 & z1 & z2 & (W1 & E1 & T1) & (W2 & E2 & T2) & W & E & H). exists z, k. split; [easy|]. split; [easy|]. split.
  + intros t Ht. apply E. split; [easy|]. destruct (Rle_or_lt t 0); [left; now apply E1|right; apply E2; split; [lra|easy]].
  + intros z' W' E'. apply H; [easy|]. intros t [_ [Ht|Ht]]; [revert Ht; apply T1|revert Ht; apply T2]; try easy; intros s [_ Hs]; now apply E'.
Qed.

(** ** Decorated *)
Lemma cut_wf p c x z : cut_sides p c x z -> wf z.
Proof. now intros (z1 & z2 & _ & _ & W & _). Qed.
Lemma pown_rev_dec_neg (c x : ditv F) p : wf_dec c -> snd c <> ill -> wf_dec x -> snd x <> ill -> (p < 0)%Z -> p <> int_min ->
  finally (fun fuel => pown_rev_dec fuel c x p) (with_trv (tightest (fun t => mem t (fst x) /\ (solves p (fst c) t \/ (t = 0 /\ limit_zero p (fst c)))))).
Proof.
intros Wc Nc Wx Nx L N. apply (finally_dec2 (fun fuel (c x : itv F) => pown_rev fuel c x p) _ c x Wc Nc Wx Nx); [now intros z [H _]|].
apply pown_rev_neg_tight; try easy; now apply wf_dec_wf.
Qed.
Lemma pown_rev_dec_pos (c x : ditv F) p : wf_dec c -> snd c <> ill -> wf_dec x -> snd x <> ill -> (0 <= p)%Z ->
  finally (fun fuel => pown_rev_dec fuel c x p) (with_trv (cut_sides p (fst c) (fst x))).
Proof.
intros Wc Nc Wx Nx L. apply (finally_dec2 (fun fuel (c x : itv F) => pown_rev fuel c x p) _ c x Wc Nc Wx Nx); [intros z; apply cut_wf|].
apply pown_rev_pos_cut; try easy; now apply wf_dec_wf.
Qed.
Lemma pown_rev1_dec_tight (c : ditv F) p : wf_dec c -> snd c <> ill -> p <> int_min ->
  finally (fun fuel => pown_rev1_dec fuel c p) (with_trv (tightest (solves p (fst c)))).
Proof.
intros Wc Nc N. unfold pown_rev1_dec.
apply (finally_dec2 (fun fuel (c x : itv F) => pown_rev fuel c x p) _ c entire_dec Wc Nc); [|easy|now intros z [H _]|].
- apply entire_dec_wf.
- apply pown_rev1_tight; [now apply wf_dec_wf|easy].
Qed.
End P.

(** ** Mixed types *)
Lemma solves_ext {F G} p (c : itv F) (c' : itv G) t : (forall r, mem r c <-> mem r c') -> solves p c t <-> solves p c' t.
Proof. intros E. unfold solves. now rewrite E. Qed.
Lemma limit_ext {F G} p (c : itv F) (c' : itv G) : (forall r, mem r c <-> mem r c') -> limit_zero p c <-> limit_zero p c'.
Proof.
intros E. unfold limit_zero. split; (intros [H|[O H]]; [left|right; split; [easy|]]; intros B; destruct (H B) as (r & M & L); exists r; (split; [now apply E|easy])).
Qed.
Lemma pown_rev_mixed_neg {F G} T (c : itv F) (x : itv G) p :
  comparable T F -> comparable T G -> comparable F G -> wf c -> wf x -> (p < 0)%Z -> p <> int_min ->
  finally (fun fuel => pown_rev_mixed T fuel c x p) (tightest (fun t => mem t x /\ (solves p c t \/ (t = 0 /\ limit_zero p c)))).
Proof.
intros C1 C2 C3 Wc Wx L NP. destruct (within_pmax3 T F G C1 C2 C3) as (A & B & C).
unfold pown_rev_mixed, rev_mixed2. cbv zeta. set (W := pmax (pmax T F) G) in *.
destruct (isnan (fst c)) eqn:Ec.
{ exists empty, 0%nat. split; [intros fuel _; apply returns_eq; rewrite !is_valid_wf, !is_empty_wf by easy; mreds; rewrite Ec; now mreds|].
  apply tightest_empty. intros t (_ & [[_ H]|[_ [H|[_ H]]]]); [now apply nan_no_mem in H| |]; destruct (H 0) as (r & H' & _); now apply nan_no_mem in H'. }
destruct (isnan (fst x)) eqn:Ex.
{ exists empty, 0%nat. split; [intros fuel _; apply returns_eq; rewrite !is_valid_wf, !is_empty_wf by easy; mreds; rewrite Ec, Ex; now mreds|].
  apply tightest_empty. intros t (H & _). now apply nan_no_mem in H. }
destruct (pown_rev_neg_tight (convert_hull W c) (convert_hull W x) p (wf_convert_hull W c Wc) (wf_convert_hull W x Wx) L NP) as (z & k & H1 & H2).
exists (convert_hull T z), k. split.
- intros fuel Lf. apply returns_eq. specialize (H1 fuel Lf). apply returns_eq in H1.
  rewrite !is_valid_wf, !is_empty_wf by easy. mreds. rewrite Ec, Ex. mreds. rewrite H1. now mreds.
- apply tightest_narrow; [easy|]. revert H2. apply tightest_ext. intros t.
  rewrite (solves_ext p (convert_hull W c) c), (limit_ext p (convert_hull W c) c) by (intros r; now apply convert_hull_exact).
  assert (E : mem t (convert_hull W x) <-> mem t x) by now apply convert_hull_exact. rewrite E. tauto.
Qed.
Lemma pown_rev_mixed_pos {F G} T (c : itv F) (x : itv G) p :
  comparable T F -> comparable T G -> comparable F G -> wf c -> wf x -> (0 <= p)%Z ->
  finally (fun fuel => pown_rev_mixed T fuel c x p) (cut_sides_mixed (pmax (pmax T F) G) p c x).
Proof.
intros C1 C2 C3 Wc Wx L. destruct (within_pmax3 T F G C1 C2 C3) as (A & B & C).
unfold pown_rev_mixed, rev_mixed2. cbv zeta. set (W := pmax (pmax T F) G) in *.
destruct (pown_rev_pos_cut (convert_hull W c) (convert_hull W x) p (wf_convert_hull W c Wc) (wf_convert_hull W x Wx) L) as (z & k & H1 & H2).
assert (H2' : cut_sides_mixed W p c x (convert_hull T z)).
{ destruct H2 as (z1 & z2 & T1 & T2 & T3). exists z1, z2. split; [|split].
  - revert T1. apply tightest_ext. intros t. rewrite (solves_ext p (convert_hull W c) c) by (intros r; now apply convert_hull_exact). easy.
  - revert T2. apply tightest_ext. intros t. rewrite (solves_ext p (convert_hull W c) c) by (intros r; now apply convert_hull_exact). easy.
  - apply tightest_narrow; [easy|]. revert T3. apply tightest_ext. intros t. assert (E : mem t (convert_hull W x) <-> mem t x) by now apply convert_hull_exact. now rewrite E. }
assert (EM : (forall t, ~ (mem t x /\ exists s, mem s c)) -> cut_sides_mixed W p c x (@empty T)).
{ intros N. destruct H2' as (z1 & z2 & T1 & T2 & T3). exists z1, z2. split; [easy|]. split; [easy|].
  apply tightest_empty. intros t [Mx M]. apply (N t). split; [easy|].
  destruct (isnan (fst c)) eqn:Ec; [|destruct Wc as [->|Wc]; [easy|exact Wc]].
  exfalso. destruct T1 as (_ & _ & T1), T2 as (_ & _ & T2). assert (WE : wf (@empty W)) by now left.
  destruct M as [M|M]; [apply (T1 empty WE) in M|apply (T2 empty WE) in M]; try (destruct M as [M _]; exact M);
  intros s (_ & _ & Ms); now apply nan_no_mem in Ms. }
destruct (isnan (fst c)) eqn:Ec.
{ exists empty, 0%nat. split; [intros fuel _; apply returns_eq; rewrite !is_valid_wf, !is_empty_wf by easy; mreds; rewrite Ec; now mreds|].
  apply EM. intros t (_ & s & H). now apply nan_no_mem in H. }
destruct (isnan (fst x)) eqn:Ex.
{ exists empty, 0%nat. split; [intros fuel _; apply returns_eq; rewrite !is_valid_wf, !is_empty_wf by easy; mreds; rewrite Ec, Ex; now mreds|].
  apply EM. intros t (H & _). now apply nan_no_mem in H. }
exists (convert_hull T z), k. split; [|easy].
intros fuel Lf. apply returns_eq. specialize (H1 fuel Lf). apply returns_eq in H1.
rewrite !is_valid_wf, !is_empty_wf by easy. mreds. rewrite Ec, Ex. mreds. rewrite H1. now mreds.
Qed.
Lemma pown_rev_dec_mixed_neg {F G} T (c : ditv F) (x : ditv G) p :
  comparable T F -> comparable T G -> comparable F G -> wf_dec c -> snd c <> ill -> wf_dec x -> snd x <> ill -> (p < 0)%Z -> p <> int_min ->
  finally (fun fuel => pown_rev_dec_mixed T fuel c x p)
    (with_trv (tightest (fun t => mem t (fst x) /\ (solves p (fst c) t \/ (t = 0 /\ limit_zero p (fst c)))))).
Proof.
intros C1 C2 C3 Wc Nc Wx Nx L N.
apply (finally_dec2 (fun fuel (c : itv F) (x : itv G) => pown_rev_mixed T fuel c x p) _ c x Wc Nc Wx Nx); [now intros z [H _]|].
apply pown_rev_mixed_neg; try easy; now apply wf_dec_wf.
Qed.
Lemma pown_rev_dec_mixed_pos {F G} T (c : ditv F) (x : ditv G) p :
  comparable T F -> comparable T G -> comparable F G -> wf_dec c -> snd c <> ill -> wf_dec x -> snd x <> ill -> (0 <= p)%Z ->
  finally (fun fuel => pown_rev_dec_mixed T fuel c x p) (with_trv (cut_sides_mixed (pmax (pmax T F) G) p (fst c) (fst x))).
Proof.
intros C1 C2 C3 Wc Nc Wx Nx L.
apply (finally_dec2 (fun fuel (c : itv F) (x : itv G) => pown_rev_mixed T fuel c x p) _ c x Wc Nc Wx Nx); [now intros z (z1 & z2 & _ & _ & W & _)|].
apply pown_rev_mixed_pos; try easy; now apply wf_dec_wf.
Qed.
