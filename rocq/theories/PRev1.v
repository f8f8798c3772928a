(** * Proofs: mixed-type reverse functions without [x] *)
From Coq Require Import ZArith NArith Reals Bool Lia Lra.
From Flocq Require Import Core.Core IEEE754.BinarySingleNaN.
From Verif Require Import Fmt Spec FloatFacts Exc Deco SpecApi SpecElem SpecDeco SpecNum MBase PBase Ex MBool MArith PArith PElem2 PConv PDec MMixed PMixed MRev SpecRev PRev PRevEven PMulRevX MTrigRev PTrigRev PTrigRev2 PTrigRev3 PRevW SpecNear SpecNai SpecPownRev PTrigRev4 PPownRev7 PNai PInvOps MRev1.
Local Open Scope R_scope.

Lemma entire_conv F W : convert_hull W (@entire F) = @entire W.
Proof. reflexivity. Qed.
Lemma comparable_refl T : comparable T T. Proof. now left. Qed.
Lemma comparable_sym F G : comparable F G -> comparable G F.
Proof. intros [<-|[H|H]]; [now left|right; right|right; left]; exact H. Qed.
Section One.
Context {F : fmt} (T : fmt).
Hypothesis C : comparable T F.
Let CT := comparable_refl T.
Let CF := comparable_sym _ _ C.
(** Bare. *)
Lemma pre_any (dm : R -> Prop) f (c : itv F) G t : preimage dm f c (@entire G) t <-> dm t /\ mem (f t) c.
Proof. unfold preimage. split; [tauto|]. intros H. split; [now split|exact H]. Qed.
Lemma ct_any (m : M (itv T)) f (c : itv F) G : computes_tightest m (preimage everywhere f c (@entire G)) -> computes_tightest m (fun t => mem (f t) c).
Proof. apply ct_ext. intros t. rewrite pre_any. unfold everywhere. tauto. Qed.
Lemma sqr_rev1_mixed_tight (c : itv F) : wf c -> computes_tightest (sqr_rev1_mixed T c) (fun t => mem (t * t) c).
Proof. intros W. apply (ct_any _ (fun t => t * t) c T). apply rev_mixed2_ok; try easy; [apply wf_entire|]. intros. now apply sqr_rev_tight. Qed.
Lemma abs_rev1_mixed_tight (c : itv F) : wf c -> computes_tightest (abs_rev1_mixed T c) (fun t => mem (Rabs t) c).
Proof. intros W. apply (ct_any _ Rabs c T). apply rev_mixed2_ok; try easy; [apply wf_entire|]. intros. now apply abs_rev_tight. Qed.
Lemma cosh_rev1_mixed_tight (c : itv F) : wf c -> computes_tightest (cosh_rev1_mixed T c) (fun t => mem (cosh t) c).
Proof. intros W. apply (ct_any _ cosh c T). apply rev_mixed2_ok; try easy; [apply wf_entire|]. intros. now apply cosh_rev_tight. Qed.
(** One operation on the constraint in the wider type. *)
Lemma one_encl (op : forall W, itv W -> itv W -> M (itv W)) dm f (c : itv F) : wf c ->
  (forall W (c : itv W), wf c -> computes_enclosure (op W c entire) (preimage dm f c (@entire W))) ->
  computes_enclosure (rev_mixed2 T op c (@entire T)) (preimage dm f c (@entire T)).
Proof.
intros Wc Hop. destruct (within_pmax3 T F T C CT CF) as (A & B & D). unfold rev_mixed2. cbv zeta. set (W := pmax (pmax T F) T) in *.
rewrite !is_valid_wf, !is_empty_wf by (easy || apply wf_entire). mreds. destruct (isnan (fst c)) eqn:Ec; mreds.
{ exists empty. split; [now intros s|]. split; [now left|]. intros t (_ & _ & H). now apply nan_no_mem in H. }
replace (isnan (fst (@entire T))) with false by reflexivity. mreds. rewrite entire_conv.
destruct (Hop W (convert_hull W c) (wf_convert_hull W c Wc)) as (z & H1 & H2 & H3). apply returns_eq in H1. rewrite H1. mreds.
exists (convert_hull T z). split; [now intros s|]. apply encloses_narrow; [easy|]. intros t (_ & K1 & K2). apply H3.
split; [now split|]. split; [easy|]. now apply convert_hull_exact.
Qed.
Lemma sin_rev1_mixed_encl (c : itv F) : wf c -> computes_enclosure (sin_rev1_mixed T c) (fun t => mem (sin t) c).
Proof.
intros W. destruct (one_encl (@sin_rev) everywhere sin c W) as (z & H1 & H2 & H3).
- intros V d Wd. apply sin_rev_encl; [easy|apply wf_entire|apply modest_entire|now left].
- exists z. split; [easy|]. split; [easy|]. intros t Ht. apply H3. now apply pre_any.
Qed.
Lemma cos_rev1_mixed_encl (c : itv F) : wf c -> computes_enclosure (cos_rev1_mixed T c) (fun t => mem (cos t) c).
Proof.
intros W. destruct (one_encl (@cos_rev) everywhere cos c W) as (z & H1 & H2 & H3).
- intros V d Wd. apply cos_rev_encl; [easy|apply wf_entire|apply modest_entire].
- exists z. split; [easy|]. split; [easy|]. intros t Ht. apply H3. now apply pre_any.
Qed.
Lemma tan_rev1_mixed_encl (c : itv F) : wf c -> computes_enclosure (tan_rev1_mixed T c) (fun t => cos t <> 0 /\ mem (tan t) c).
Proof.
intros W. destruct (one_encl (@tan_rev) (fun t => cos t <> 0) tan c W) as (z & H1 & H2 & H3).
- intros V d Wd. apply tan_rev_encl; [easy|apply wf_entire|apply modest_entire|now left].
- exists z. split; [easy|]. split; [easy|]. intros t Ht. apply H3. now apply pre_any.
Qed.
Lemma solves_conv W p (c : itv F) : within F W -> wf c -> forall t, solves p (convert_hull W c) t <-> solves p c t.
Proof. intros A Wc t. unfold solves. now rewrite (convert_hull_exact W c A Wc). Qed.
Lemma pown_rev1_mixed_tight (c : itv F) p : wf c -> p <> int_min -> finally (fun fuel => pown_rev1_mixed T fuel c p) (tightest (solves p c)).
Proof.
intros Wc NP. destruct (within_pmax3 T F T C CT CF) as (A & B & D). unfold pown_rev1_mixed, pown_rev_mixed, rev_mixed2. cbv zeta. set (W := pmax (pmax T F) T) in *.
destruct (isnan (fst c)) eqn:Ec.
{ exists empty, 0%nat. split.
  - intros fuel _. apply returns_eq. rewrite !is_valid_wf, !is_empty_wf by (easy || apply wf_entire). mreds. rewrite Ec. now mreds.
  - apply tightest_empty. intros t [_ H]. now apply nan_no_mem in H. }
destruct (pown_rev1_tight (convert_hull W c) p (wf_convert_hull W c Wc) NP) as (z & k & H1 & H2).
exists (convert_hull T z), k. split.
- intros fuel L. apply returns_eq. specialize (H1 fuel L). apply returns_eq in H1. unfold pown_rev1 in H1.
  rewrite !is_valid_wf, !is_empty_wf by (easy || apply wf_entire). mreds. rewrite Ec. replace (isnan (fst (@entire T))) with false by reflexivity.
  mreds. rewrite entire_conv, H1. now mreds.
- apply tightest_narrow; [easy|]. revert H2. apply tightest_ext. now apply solves_conv.
Qed.
(** Decorated. *)
Lemma dec1 (op : itv F -> itv T -> M (itv T)) (P : itv T -> Prop) (c : ditv F) : (forall z, P z -> wf z) -> wf_dec c -> snd c <> ill ->
  gives (op (fst c) entire) P -> gives (rev_mixed_dec2 T op c entire_dec) (with_trv P).
Proof. intros HP W N G. apply (rev_dec2_ok op P c entire_dec W N entire_dec_wf ltac:(easy) HP). exact G. Qed.
Lemma sqr_rev1_dec_mixed_tight (c : ditv F) : wf_dec c -> snd c <> ill ->
  gives (sqr_rev1_dec_mixed T c) (with_trv (tightest (fun t => mem (t * t) (fst c)))).
Proof. intros W N. apply dec1; [apply tightest_wf|easy|easy|]. apply sqr_rev1_mixed_tight. now apply wf_dec_wf. Qed.
Lemma abs_rev1_dec_mixed_tight (c : ditv F) : wf_dec c -> snd c <> ill ->
  gives (abs_rev1_dec_mixed T c) (with_trv (tightest (fun t => mem (Rabs t) (fst c)))).
Proof. intros W N. apply dec1; [apply tightest_wf|easy|easy|]. apply abs_rev1_mixed_tight. now apply wf_dec_wf. Qed.
Lemma cosh_rev1_dec_mixed_tight (c : ditv F) : wf_dec c -> snd c <> ill ->
  gives (cosh_rev1_dec_mixed T c) (with_trv (tightest (fun t => mem (cosh t) (fst c)))).
Proof. intros W N. apply dec1; [apply tightest_wf|easy|easy|]. apply cosh_rev1_mixed_tight. now apply wf_dec_wf. Qed.
Lemma sin_rev1_dec_mixed_encl (c : ditv F) : wf_dec c -> snd c <> ill ->
  gives (sin_rev1_dec_mixed T c) (with_trv (encl (fun t => mem (sin t) (fst c)))).
Proof. intros W N. apply dec1; [apply encl_wf|easy|easy|]. apply encl_gives, sin_rev1_mixed_encl. now apply wf_dec_wf. Qed.
Lemma cos_rev1_dec_mixed_encl (c : ditv F) : wf_dec c -> snd c <> ill ->
  gives (cos_rev1_dec_mixed T c) (with_trv (encl (fun t => mem (cos t) (fst c)))).
Proof. intros W N. apply dec1; [apply encl_wf|easy|easy|]. apply encl_gives, cos_rev1_mixed_encl. now apply wf_dec_wf. Qed.
Lemma tan_rev1_dec_mixed_encl (c : ditv F) : wf_dec c -> snd c <> ill ->
  gives (tan_rev1_dec_mixed T c) (with_trv (encl (fun t => cos t <> 0 /\ mem (tan t) (fst c)))).
Proof. intros W N. apply dec1; [apply encl_wf|easy|easy|]. apply encl_gives, tan_rev1_mixed_encl. now apply wf_dec_wf. Qed.
Lemma pown_rev1_dec_mixed_tight (c : ditv F) p : wf_dec c -> snd c <> ill -> p <> int_min ->
  finally (fun fuel => pown_rev1_dec_mixed T fuel c p) (with_trv (tightest (solves p (fst c)))).
Proof.
intros W N NP. apply (finally_dec2 (fun fuel (c : itv F) (x : itv T) => pown_rev_mixed T fuel c x p) _ c entire_dec W N entire_dec_wf ltac:(easy)); [now intros z [H _]|].
apply pown_rev1_mixed_tight; [now apply wf_dec_wf|easy].
Qed.
End One.
Lemma mul_rev2_mixed_tight {F G} T (b : itv F) (c : itv G) : comparable T F -> comparable T G -> comparable F G -> wf b -> wf c ->
  computes_tightest (mul_rev2_mixed T b c) (rev_mul b c).
Proof.
intros C1 C2 C3 Wb Wc. pose proof (comparable_refl T) as C4.
destruct (within_pmax4 T F G T C1 C2 C3 C4 (comparable_sym _ _ C1) (comparable_sym _ _ C2)) as (A & B & C & D).
set (W := pmax (pmax (pmax T F) G) T) in *.
destruct (mul_rev2_tight (convert_hull W b) (convert_hull W c) (wf_convert_hull W b Wb) (wf_convert_hull W c Wc)) as (z & H1 & H2).
exists (convert_hull T z). split.
- apply returns_eq. apply mixed3_ret; [easy|easy|apply wf_entire|]. rewrite entire_conv. now apply returns_eq.
- apply tightest_narrow; [easy|]. revert H2. apply tightest_ext. intros t. unfold rev_mul.
  split; intros (s & M1 & M2); exists s; [split; [apply (convert_hull_exact W b)|apply (convert_hull_exact W c)]|split; apply convert_hull_exact]; easy.
Qed.
Lemma mul_rev2_dec_mixed_tight {F G} T (b : ditv F) (c : ditv G) : comparable T F -> comparable T G -> comparable F G ->
  wf_dec b -> snd b <> ill -> wf_dec c -> snd c <> ill ->
  gives (mul_rev2_dec_mixed T b c) (with_trv (tightest (rev_mul (fst b) (fst c)))).
Proof.
intros C1 C2 C3 Wb Nb Wc Nc. apply (rev_dec3_ok (mul_rev_mixed T) _ b c entire_dec Wb Nb Wc Nc entire_dec_wf ltac:(easy) (tightest_wf _)).
apply mul_rev2_mixed_tight; try easy; now apply wf_dec_wf.
Qed.
(** NaI. *)
Lemma nai_sqr_rev1_dec_mixed : forall (T F : fmt), on_nai1 (fun (c : ditv F) => sqr_rev1_dec_mixed T c) (empty_rep, ill).
Proof. intros T F c Wc HH. apply (nai_sqr_rev_dec_mixed T F T c entire_dec Wc entire_dec_wf). now left. Qed.
Lemma nai_abs_rev1_dec_mixed : forall (T F : fmt), on_nai1 (fun (c : ditv F) => abs_rev1_dec_mixed T c) (empty_rep, ill).
Proof. intros T F c Wc HH. apply (nai_abs_rev_dec_mixed T F T c entire_dec Wc entire_dec_wf). now left. Qed.
Lemma nai_cosh_rev1_dec_mixed : forall (T F : fmt), on_nai1 (fun (c : ditv F) => cosh_rev1_dec_mixed T c) (empty_rep, ill).
Proof. intros T F c Wc HH. apply (nai_cosh_rev_dec_mixed T F T c entire_dec Wc entire_dec_wf). now left. Qed.
Lemma nai_sin_rev1_dec_mixed : forall (T F : fmt), on_nai1 (fun (c : ditv F) => sin_rev1_dec_mixed T c) (empty_rep, ill).
Proof. intros T F c Wc HH. apply (nai_sin_rev_dec_mixed T F T c entire_dec Wc entire_dec_wf). now left. Qed.
Lemma nai_cos_rev1_dec_mixed : forall (T F : fmt), on_nai1 (fun (c : ditv F) => cos_rev1_dec_mixed T c) (empty_rep, ill).
Proof. intros T F c Wc HH. apply (nai_cos_rev_dec_mixed T F T c entire_dec Wc entire_dec_wf). now left. Qed.
Lemma nai_tan_rev1_dec_mixed : forall (T F : fmt), on_nai1 (fun (c : ditv F) => tan_rev1_dec_mixed T c) (empty_rep, ill).
Proof. intros T F c Wc HH. apply (nai_tan_rev_dec_mixed T F T c entire_dec Wc entire_dec_wf). now left. Qed.
Lemma nai_pown_rev1_dec_mixed : forall (T F : fmt) (fuel : nat) (p : Z), on_nai1 (fun (c : ditv F) => pown_rev1_dec_mixed T fuel c p) (empty_rep, ill).
Proof. intros T F fuel p c Wc HH. apply (nai_pown_rev_dec_mixed T F T fuel p c entire_dec Wc entire_dec_wf). now left. Qed.
Lemma nai_mul_rev2_dec_mixed : forall (T F G : fmt), on_nai2 (fun (b : ditv F) (c : ditv G) => mul_rev2_dec_mixed T b c) (empty_rep, ill).
Proof. intros T F G b c Wb Wc HH. apply (nai_mul_rev_dec_mixed T F G T b c entire_dec Wb Wc entire_dec_wf). destruct HH; [now left|right; now left]. Qed.
(** Invalid operands. *)
Lemma inv_sqr_rev1_mixed : forall (T F : fmt) (c : itv F), ~ wf c ->
  reports_invalid (sqr_rev1_mixed T c) empty_rep.
Proof. intros T F c H. exact (inv_sqr_rev_mixed T F T c entire (or_introl H)). Qed.
Lemma inv_sqr_rev1_dec_mixed : forall (T F : fmt) (c : ditv F), ~ wf_dec c ->
  reports_invalid (sqr_rev1_dec_mixed T c) (empty_rep, ill).
Proof. intros T F c H. exact (inv_sqr_rev_dec_mixed T F T c entire_dec (or_introl H)). Qed.
Lemma inv_abs_rev1_mixed : forall (T F : fmt) (c : itv F), ~ wf c ->
  reports_invalid (abs_rev1_mixed T c) empty_rep.
Proof. intros T F c H. exact (inv_abs_rev_mixed T F T c entire (or_introl H)). Qed.
Lemma inv_abs_rev1_dec_mixed : forall (T F : fmt) (c : ditv F), ~ wf_dec c ->
  reports_invalid (abs_rev1_dec_mixed T c) (empty_rep, ill).
Proof. intros T F c H. exact (inv_abs_rev_dec_mixed T F T c entire_dec (or_introl H)). Qed.
Lemma inv_cosh_rev1_mixed : forall (T F : fmt) (c : itv F), ~ wf c ->
  reports_invalid (cosh_rev1_mixed T c) empty_rep.
Proof. intros T F c H. exact (inv_cosh_rev_mixed T F T c entire (or_introl H)). Qed.
Lemma inv_cosh_rev1_dec_mixed : forall (T F : fmt) (c : ditv F), ~ wf_dec c ->
  reports_invalid (cosh_rev1_dec_mixed T c) (empty_rep, ill).
Proof. intros T F c H. exact (inv_cosh_rev_dec_mixed T F T c entire_dec (or_introl H)). Qed.
Lemma inv_sin_rev1_mixed : forall (T F : fmt) (c : itv F), ~ wf c ->
  reports_invalid (sin_rev1_mixed T c) empty_rep.
Proof. intros T F c H. exact (inv_sin_rev_mixed T F T c entire (or_introl H)). Qed.
Lemma inv_sin_rev1_dec_mixed : forall (T F : fmt) (c : ditv F), ~ wf_dec c ->
  reports_invalid (sin_rev1_dec_mixed T c) (empty_rep, ill).
Proof. intros T F c H. exact (inv_sin_rev_dec_mixed T F T c entire_dec (or_introl H)). Qed.
Lemma inv_cos_rev1_mixed : forall (T F : fmt) (c : itv F), ~ wf c ->
  reports_invalid (cos_rev1_mixed T c) empty_rep.
Proof. intros T F c H. exact (inv_cos_rev_mixed T F T c entire (or_introl H)). Qed.
Lemma inv_cos_rev1_dec_mixed : forall (T F : fmt) (c : ditv F), ~ wf_dec c ->
  reports_invalid (cos_rev1_dec_mixed T c) (empty_rep, ill).
Proof. intros T F c H. exact (inv_cos_rev_dec_mixed T F T c entire_dec (or_introl H)). Qed.
Lemma inv_tan_rev1_mixed : forall (T F : fmt) (c : itv F), ~ wf c ->
  reports_invalid (tan_rev1_mixed T c) empty_rep.
Proof. intros T F c H. exact (inv_tan_rev_mixed T F T c entire (or_introl H)). Qed.
Lemma inv_tan_rev1_dec_mixed : forall (T F : fmt) (c : ditv F), ~ wf_dec c ->
  reports_invalid (tan_rev1_dec_mixed T c) (empty_rep, ill).
Proof. intros T F c H. exact (inv_tan_rev_dec_mixed T F T c entire_dec (or_introl H)). Qed.
Lemma inv_pown_rev1_mixed : forall (T F : fmt) (c : itv F) (fuel : nat) (p : Z), ~ wf c ->
  reports_invalid (pown_rev1_mixed T fuel c p) empty_rep.
Proof. intros T F c fuel p H. exact (inv_pown_rev_mixed T F T c entire fuel p (or_introl H)). Qed.
Lemma inv_pown_rev1_dec_mixed : forall (T F : fmt) (c : ditv F) (fuel : nat) (p : Z), ~ wf_dec c ->
  reports_invalid (pown_rev1_dec_mixed T fuel c p) (empty_rep, ill).
Proof. intros T F c fuel p H. exact (inv_pown_rev_dec_mixed T F T c entire_dec fuel p (or_introl H)). Qed.
Lemma inv_mul_rev2_mixed : forall (T F G : fmt) (b : itv F) (c : itv G), ~ wf b \/ ~ wf c ->
  reports_invalid (mul_rev2_mixed T b c) empty_rep.
Proof. intros T F G b c H. apply (inv_mul_rev_mixed T F G T b c entire). destruct H; [now left|right; now left]. Qed.
Lemma inv_mul_rev2_dec_mixed : forall (T F G : fmt) (b : ditv F) (c : ditv G), ~ wf_dec b \/ ~ wf_dec c ->
  reports_invalid (mul_rev2_dec_mixed T b c) (empty_rep, ill).
Proof. intros T F G b c H. apply (inv_mul_rev_dec_mixed T F G T b c entire_dec). destruct H; [now left|right; now left]. Qed.
