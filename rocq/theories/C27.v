(** * C27: reverse cosine

    Claimed: the result contains every t of x with cos t in c.  Proved when the finite
    bounds of x are at most 2^prec and 2^62 in magnitude; false for larger ones, where
    mpfr_remquo delivers the low bits of the quotient only. *)
From Coq Require Import ZArith NArith Reals Bool Lia Lra.
From Flocq Require Import Core.Core IEEE754.BinarySingleNaN.
From Verif Require Import Fmt Spec FloatFacts Exc Deco SpecApi SpecElem SpecDeco SpecNum MBase PBase Ex MBool MArith PArith PConv PDec MMixed MRev SpecRev PRev MTrigRev PTrigRev PTrigRev2 PTrigRev3 PRevW MRev1 PRev1.
Local Open Scope R_scope.
Theorem C27_cos_rev1 : forall (F : fmt) (c : itv F), wf c ->
  computes_enclosure (cos_rev1 c) (preimage everywhere cos c (@entire F)).
Proof. intros F c W. apply cos_rev_encl; [easy|apply wf_entire|apply modest_entire]. Qed.
Print Assumptions C27_cos_rev1.
Theorem C27_cos_rev_partial : forall (F : fmt) (c x : itv F), wf c -> wf x -> modest (prec F) x ->
  computes_enclosure (cos_rev c x) (preimage everywhere cos c x).
Proof. exact @cos_rev_encl. Qed.
Print Assumptions C27_cos_rev_partial.
Theorem C27_cos_rev_dec_partial : forall (F : fmt) (c x : ditv F), wf_dec c -> snd c <> ill -> wf_dec x -> snd x <> ill ->
  modest (prec F) (fst x) -> gives (cos_rev_dec c x) (with_trv (encl (preimage everywhere cos (fst c) (fst x)))).
Proof. intros. apply (rev_dec2_ok (@cos_rev F)); try easy; [apply encl_wf|]. apply encl_gives, cos_rev_encl; auto; now apply wf_dec_wf. Qed.
Print Assumptions C27_cos_rev_dec_partial.
Theorem C27_cos_rev1_dec : forall (F : fmt) (c : ditv F), wf_dec c -> snd c <> ill ->
  gives (cos_rev1_dec c) (with_trv (encl (preimage everywhere cos (fst c) (@entire F)))).
Proof. intros F c W N. apply (rev_dec2_ok (@cos_rev F) _ c entire_dec); try easy; [apply entire_dec_wf|apply encl_wf|]. apply encl_gives, cos_rev_encl; [now apply wf_dec_wf|apply wf_entire|apply modest_entire]. Qed.
Print Assumptions C27_cos_rev1_dec.
Theorem C27_cos_rev_mixed_partial : forall (F G T : fmt) (c : itv F) (x : itv G),
  comparable T F -> comparable T G -> comparable F G -> wf c -> wf x -> modest (prec G) x ->
  gives (cos_rev_mixed T c x) (encl (preimage everywhere cos c x)).
Proof. intros. apply trig_mixed with (P := fun W (y : itv W) => True); try easy. intros W c' x' K1 K2 K3 K4. now apply cos_rev_encl. Qed.
Print Assumptions C27_cos_rev_mixed_partial.
Theorem C27_cos_rev_dec_mixed_partial : forall (F G T : fmt) (c : ditv F) (x : ditv G),
  comparable T F -> comparable T G -> comparable F G -> wf_dec c -> snd c <> ill -> wf_dec x -> snd x <> ill ->
  modest (prec G) (fst x) -> gives (cos_rev_dec_mixed T c x) (with_trv (encl (preimage everywhere cos (fst c) (fst x)))).
Proof. intros. apply (rev_dec2_ok (@cos_rev_mixed T F G)); try easy; [apply encl_wf|]. apply C27_cos_rev_mixed_partial; auto; now apply wf_dec_wf. Qed.
Print Assumptions C27_cos_rev_dec_mixed_partial.
Example C27_partial_example : let c := (fl binary64 (-1) 0, fl binary64 0 0) in let x := (fl binary64 1 0, fl binary64 5 1) in
  wf c /\ wf x /\ modest (prec binary64) x /\ preimage everywhere cos c x PI.
Proof.
cbv zeta. pose proof pi34. split; [wf_tac|]. split; [wf_tac|].
assert (M : forall r, mem r (fl binary64 1 0, fl binary64 5 1) <-> 1 <= r <= 10).
{ intros r. rewrite point_mem by reflexivity. b2r. }
split.
{ assert (E1 : B2R (fl binary64 1 0) = 1) by b2r. assert (E2 : B2R (fl binary64 5 1) = 10) by b2r.
  split; intros _; cbn [fst snd]; rewrite ?E1, ?E2; (rewrite Rabs_pos_eq by lra); apply Rle_trans with (bpow radix2 5); try (simpl; lra); apply bpow_le; vm_compute; easy. }
split; [apply M; lra|]. split; [easy|]. rewrite cos_PI. apply point_mem; try reflexivity; b2r.
Qed.
(** For large bounds no interval that encloses is returned: the result is empty, or the
    arithmetic on the branch number overflows.  The witness is cos_rev([0,0],[2^100,2^101]). *)
Theorem C27_cos_rev_any_refuted : forall F : fmt, (110 <= emax F)%Z -> exists c x : itv F, wf c /\ wf x /\ bounded_rep x /\
  (exists t, preimage everywhere cos c x t) /\ ~ computes_enclosure (cos_rev c x) (preimage everywhere cos c x).
Proof. exact @cos_rev_not. Qed.
Print Assumptions C27_cos_rev_any_refuted.
Theorem C27_cos_rev_refuted : exists c x : itv binary64, wf c /\ wf x /\ bounded_rep x /\
  (exists t, preimage everywhere cos c x t) /\ ~ computes_enclosure (cos_rev c x) (preimage everywhere cos c x).
Proof. apply (@cos_rev_not binary64). vm_compute. easy. Qed.
Print Assumptions C27_cos_rev_refuted.

(** Mixed types without [x]. *)
Theorem C27_cos_rev1_mixed : forall (F T : fmt) (c : itv F), comparable T F -> wf c ->
  computes_enclosure (cos_rev1_mixed T c) (fun t => mem (cos t) c).
Proof. exact (fun F T c C => cos_rev1_mixed_encl T C c). Qed.
Print Assumptions C27_cos_rev1_mixed.
Theorem C27_cos_rev1_dec_mixed : forall (F T : fmt) (c : ditv F), comparable T F -> wf_dec c -> snd c <> ill ->
  gives (cos_rev1_dec_mixed T c) (with_trv (encl (fun t => mem (cos t) (fst c)))).
Proof. exact (fun F T c C => cos_rev1_dec_mixed_encl T C c). Qed.
Print Assumptions C27_cos_rev1_dec_mixed.
