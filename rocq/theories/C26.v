(** * C26: reverse sine and tangent

    Claimed: the result contains every t of x with sin t (tan t) in c.  That holds for all x
    without the argument x (x = entire), see the first theorems; with an argument x it
    is false, see the refutations: when c does not contain zero, branches are skipped.
    Proved for c with zero and bounds of x that the branch number computation can
    represent, and for any c when there are solutions near both ends of x, in particular
    when x is no wider than 3/2. *)
From Coq Require Import ZArith NArith Reals Bool Lia Lra.
From Flocq Require Import Core.Core IEEE754.BinarySingleNaN.
From Verif Require Import Fmt Spec FloatFacts Exc Deco SpecApi SpecElem SpecDeco SpecNum MBase PBase Ex MBool MArith PArith PConv PDec MMixed MRev SpecRev PRev MTrigRev PTrigRev PTrigRev2 PTrigRev3 PRevW SpecNear PTrigRev4 MRev1 PRev1.
Local Open Scope R_scope.
Theorem C26_sin_rev1 : forall (F : fmt) (c : itv F), wf c ->
  computes_enclosure (sin_rev1 c) (preimage everywhere sin c (@entire F)).
Proof. intros F c W. apply sin_rev_encl; [easy|apply wf_entire|apply modest_entire|now left]. Qed.
Print Assumptions C26_sin_rev1.
Theorem C26_sin_rev_partial : forall (F : fmt) (c x : itv F), wf c -> wf x ->
  modest (prec F) x -> mem 0 c -> computes_enclosure (sin_rev c x) (preimage everywhere sin c x).
Proof. intros. apply sin_rev_encl; auto. Qed.
Print Assumptions C26_sin_rev_partial.
Theorem C26_sin_rev_dec_partial : forall (F : fmt) (c x : ditv F), wf_dec c -> snd c <> ill -> wf_dec x -> snd x <> ill ->
  modest (prec F) (fst x) -> mem 0 (fst c) ->
  gives (sin_rev_dec c x) (with_trv (encl (preimage everywhere sin (fst c) (fst x)))).
Proof. intros. apply (rev_dec2_ok (@sin_rev F)); try easy; [apply encl_wf|]. apply encl_gives, sin_rev_encl; auto; now apply wf_dec_wf. Qed.
Print Assumptions C26_sin_rev_dec_partial.
Theorem C26_sin_rev1_dec : forall (F : fmt) (c : ditv F), wf_dec c -> snd c <> ill ->
  gives (sin_rev1_dec c) (with_trv (encl (preimage everywhere sin (fst c) (@entire F)))).
Proof. intros F c W N. apply (rev_dec2_ok (@sin_rev F) _ c entire_dec); try easy; [apply entire_dec_wf|apply encl_wf|]. apply encl_gives, sin_rev_encl; [now apply wf_dec_wf|apply wf_entire|apply modest_entire|now left]. Qed.
Print Assumptions C26_sin_rev1_dec.
Theorem C26_sin_rev_mixed_partial : forall (F G T : fmt) (c : itv F) (x : itv G),
  comparable T F -> comparable T G -> comparable F G -> wf c -> wf x -> modest (prec G) x -> mem 0 c ->
  gives (sin_rev_mixed T c x) (encl (preimage everywhere sin c x)).
Proof. intros. apply trig_mixed with (P := fun W (y : itv W) => mem 0 y); try easy.
- intros W c' E. apply E.
- intros W c' x' K1 K2 K3 K4. apply sin_rev_encl; auto. Qed.
Print Assumptions C26_sin_rev_mixed_partial.
Theorem C26_sin_rev_dec_mixed_partial : forall (F G T : fmt) (c : ditv F) (x : ditv G),
  comparable T F -> comparable T G -> comparable F G -> wf_dec c -> snd c <> ill -> wf_dec x -> snd x <> ill ->
  modest (prec G) (fst x) -> mem 0 (fst c) ->
  gives (sin_rev_dec_mixed T c x) (with_trv (encl (preimage everywhere sin (fst c) (fst x)))).
Proof. intros. apply (rev_dec2_ok (@sin_rev_mixed T F G)); try easy; [apply encl_wf|]. apply C26_sin_rev_mixed_partial; auto; now apply wf_dec_wf. Qed.
Print Assumptions C26_sin_rev_dec_mixed_partial.
Theorem C26_tan_rev1 : forall (F : fmt) (c : itv F), wf c ->
  computes_enclosure (tan_rev1 c) (preimage (fun t => cos t <> 0) tan c (@entire F)).
Proof. intros F c W. apply tan_rev_encl; [easy|apply wf_entire|apply modest_entire|now left]. Qed.
Print Assumptions C26_tan_rev1.
Theorem C26_tan_rev_partial : forall (F : fmt) (c x : itv F), wf c -> wf x ->
  modest (prec F) x -> mem 0 c -> computes_enclosure (tan_rev c x) (preimage (fun t => cos t <> 0) tan c x).
Proof. intros. apply tan_rev_encl; auto. Qed.
Print Assumptions C26_tan_rev_partial.
Theorem C26_tan_rev_dec_partial : forall (F : fmt) (c x : ditv F), wf_dec c -> snd c <> ill -> wf_dec x -> snd x <> ill ->
  modest (prec F) (fst x) -> mem 0 (fst c) ->
  gives (tan_rev_dec c x) (with_trv (encl (preimage (fun t => cos t <> 0) tan (fst c) (fst x)))).
Proof. intros. apply (rev_dec2_ok (@tan_rev F)); try easy; [apply encl_wf|]. apply encl_gives, tan_rev_encl; auto; now apply wf_dec_wf. Qed.
Print Assumptions C26_tan_rev_dec_partial.
Theorem C26_tan_rev1_dec : forall (F : fmt) (c : ditv F), wf_dec c -> snd c <> ill ->
  gives (tan_rev1_dec c) (with_trv (encl (preimage (fun t => cos t <> 0) tan (fst c) (@entire F)))).
Proof. intros F c W N. apply (rev_dec2_ok (@tan_rev F) _ c entire_dec); try easy; [apply entire_dec_wf|apply encl_wf|]. apply encl_gives, tan_rev_encl; [now apply wf_dec_wf|apply wf_entire|apply modest_entire|now left]. Qed.
Print Assumptions C26_tan_rev1_dec.
Theorem C26_tan_rev_mixed_partial : forall (F G T : fmt) (c : itv F) (x : itv G),
  comparable T F -> comparable T G -> comparable F G -> wf c -> wf x -> modest (prec G) x -> mem 0 c ->
  gives (tan_rev_mixed T c x) (encl (preimage (fun t => cos t <> 0) tan c x)).
Proof. intros. apply trig_mixed with (P := fun W (y : itv W) => mem 0 y); try easy.
- intros W c' E. apply E.
- intros W c' x' K1 K2 K3 K4. apply tan_rev_encl; auto. Qed.
Print Assumptions C26_tan_rev_mixed_partial.
Theorem C26_tan_rev_dec_mixed_partial : forall (F G T : fmt) (c : ditv F) (x : ditv G),
  comparable T F -> comparable T G -> comparable F G -> wf_dec c -> snd c <> ill -> wf_dec x -> snd x <> ill ->
  modest (prec G) (fst x) -> mem 0 (fst c) ->
  gives (tan_rev_dec_mixed T c x) (with_trv (encl (preimage (fun t => cos t <> 0) tan (fst c) (fst x)))).
Proof. intros. apply (rev_dec2_ok (@tan_rev_mixed T F G)); try easy; [apply encl_wf|]. apply C26_tan_rev_mixed_partial; auto; now apply wf_dec_wf. Qed.
Print Assumptions C26_tan_rev_dec_mixed_partial.
(** Two solutions met by the hypotheses. *)
Example C26_partial_example : let c := (fl binary64 0 0, fl binary64 1 0) in let x := (fl binary64 1 0, fl binary64 5 1) in
  wf c /\ wf x /\ modest (prec binary64) x /\ mem 0 c /\ preimage everywhere sin c x PI /\ preimage (fun t => cos t <> 0) tan c x PI.
Proof.
cbv zeta. pose proof pi34. split; [wf_tac|]. split; [wf_tac|].
assert (M : forall r, mem r (fl binary64 1 0, fl binary64 5 1) <-> 1 <= r <= 10).
{ intros r. rewrite point_mem by reflexivity. b2r. }
assert (Z : mem 0 (fl binary64 0 0, fl binary64 1 0)) by (apply point_mem; try reflexivity; b2r).
split.
{ assert (E1 : B2R (fl binary64 1 0) = 1) by b2r. assert (E2 : B2R (fl binary64 5 1) = 10) by b2r.
  split; intros _; cbn [fst snd]; rewrite ?E1, ?E2; (rewrite Rabs_pos_eq by lra); apply Rle_trans with (bpow radix2 5); try (simpl; lra); apply bpow_le; vm_compute; easy. }
split; [exact Z|]. split; (split; [apply M; lra|]).
- rewrite sin_PI. split; [easy|exact Z].
- rewrite tan_PI, cos_PI. split; [lra|exact Z].
Qed.

(** Any c: solutions near both ends of x are enough.  Missing: x without such solutions
    (see the refutations) and larger bounds of x. *)
Theorem C26_sin_rev_near_partial : forall (F : fmt) (c x : itv F), (8 <= prec F)%Z -> wf c -> wf x -> modest (prec F - 6) x ->
  ((exists t, preimage everywhere sin c x t) -> near_ends (preimage everywhere sin c x) x) -> computes_enclosure (sin_rev c x) (preimage everywhere sin c x).
Proof. intros F c x. exact (sin_rev_near c x). Qed.
Print Assumptions C26_sin_rev_near_partial.
Theorem C26_sin_rev_narrow_partial : forall (F : fmt) (c x : itv F), (8 <= prec F)%Z -> wf c -> wf x -> modest (prec F - 6) x -> narrow x ->
  computes_enclosure (sin_rev c x) (preimage everywhere sin c x).
Proof. intros F c x. exact (sin_rev_narrow c x). Qed.
Print Assumptions C26_sin_rev_narrow_partial.
Theorem C26_sin_rev_dec_near_partial : forall (F : fmt) (c x : ditv F), (8 <= prec F)%Z ->
  wf_dec c -> snd c <> ill -> wf_dec x -> snd x <> ill -> modest (prec F - 6) (fst x) ->
  ((exists t, preimage everywhere sin (fst c) (fst x) t) -> near_ends (preimage everywhere sin (fst c) (fst x)) (fst x)) ->
  gives (sin_rev_dec c x) (with_trv (encl (preimage everywhere sin (fst c) (fst x)))).
Proof. intros. apply (rev_dec2_ok (@sin_rev F)); try easy; [apply encl_wf|]. apply encl_gives, sin_rev_near; auto; now apply wf_dec_wf. Qed.
Print Assumptions C26_sin_rev_dec_near_partial.
Theorem C26_sin_rev_mixed_near_partial : forall (F G T : fmt) (c : itv F) (x : itv G), (8 <= prec G)%Z ->
  comparable T F -> comparable T G -> comparable F G -> wf c -> wf x -> modest (prec G - 6) x ->
  ((exists t, preimage everywhere sin c x t) -> near_ends (preimage everywhere sin c x) x) -> gives (sin_rev_mixed T c x) (encl (preimage everywhere sin c x)).
Proof. intros. apply trig_mixed_near; try easy. intros W c' x'. apply sin_rev_near. Qed.
Print Assumptions C26_sin_rev_mixed_near_partial.
Theorem C26_tan_rev_near_partial : forall (F : fmt) (c x : itv F), (8 <= prec F)%Z -> wf c -> wf x -> modest (prec F - 6) x ->
  ((exists t, preimage (fun t => cos t <> 0) tan c x t) -> near_ends (preimage (fun t => cos t <> 0) tan c x) x) -> computes_enclosure (tan_rev c x) (preimage (fun t => cos t <> 0) tan c x).
Proof. intros F c x. exact (tan_rev_near c x). Qed.
Print Assumptions C26_tan_rev_near_partial.
Theorem C26_tan_rev_narrow_partial : forall (F : fmt) (c x : itv F), (8 <= prec F)%Z -> wf c -> wf x -> modest (prec F - 6) x -> narrow x ->
  computes_enclosure (tan_rev c x) (preimage (fun t => cos t <> 0) tan c x).
Proof. intros F c x. exact (tan_rev_narrow c x). Qed.
Print Assumptions C26_tan_rev_narrow_partial.
Theorem C26_tan_rev_dec_near_partial : forall (F : fmt) (c x : ditv F), (8 <= prec F)%Z ->
  wf_dec c -> snd c <> ill -> wf_dec x -> snd x <> ill -> modest (prec F - 6) (fst x) ->
  ((exists t, preimage (fun t => cos t <> 0) tan (fst c) (fst x) t) -> near_ends (preimage (fun t => cos t <> 0) tan (fst c) (fst x)) (fst x)) ->
  gives (tan_rev_dec c x) (with_trv (encl (preimage (fun t => cos t <> 0) tan (fst c) (fst x)))).
Proof. intros. apply (rev_dec2_ok (@tan_rev F)); try easy; [apply encl_wf|]. apply encl_gives, tan_rev_near; auto; now apply wf_dec_wf. Qed.
Print Assumptions C26_tan_rev_dec_near_partial.
Theorem C26_tan_rev_mixed_near_partial : forall (F G T : fmt) (c : itv F) (x : itv G), (8 <= prec G)%Z ->
  comparable T F -> comparable T G -> comparable F G -> wf c -> wf x -> modest (prec G - 6) x ->
  ((exists t, preimage (fun t => cos t <> 0) tan c x t) -> near_ends (preimage (fun t => cos t <> 0) tan c x) x) -> gives (tan_rev_mixed T c x) (encl (preimage (fun t => cos t <> 0) tan c x)).
Proof. intros. apply trig_mixed_near; try easy. intros W c' x'. apply tan_rev_near. Qed.
Print Assumptions C26_tan_rev_mixed_near_partial.
(** sin t = 1/2 in [0,3]: solutions pi/6 and 5pi/6, both near an end; zero is not in c. *)
Example C26_near_example : let c := (fl binary64 1 (-1), fl binary64 1 (-1)) in let x := (fl binary64 0 0, fl binary64 3 0) in
  (8 <= prec binary64)%Z /\ wf c /\ wf x /\ modest (prec binary64 - 6) x /\ near_ends (preimage everywhere sin c x) x /\ ~ mem 0 c.
Proof.
cbv zeta. pose proof pi34. split; [vm_compute; easy|]. split; [wf_tac|]. split; [wf_tac|].
assert (M : forall r, mem r (fl binary64 0 0, fl binary64 3 0) <-> 0 <= r <= 3) by (intros r; rewrite point_mem by reflexivity; b2r).
assert (C : forall r, mem r (fl binary64 1 (-1), fl binary64 1 (-1)) <-> r = / 2).
{ intros r. rewrite point_mem by reflexivity. assert (E : B2R (fl binary64 1 (-1)) = / 2) by b2r. rewrite E. lra. }
assert (E1 : B2R (fl binary64 0 0) = 0) by b2r. assert (E2 : B2R (fl binary64 3 0) = 3) by b2r.
split.
{ split; intros _; cbn [fst snd]; rewrite ?E1, ?E2; (rewrite Rabs_pos_eq by lra); apply Rle_trans with (bpow radix2 5); try (simpl; lra); apply bpow_le; vm_compute; easy. }
split; [|rewrite C; lra].
split; intros _; cbn [fst snd]; rewrite ?E1, ?E2.
- exists (PI / 6). split; [|lra]. split; [apply M; lra|]. split; [easy|]. apply C. rewrite sin_PI6. lra.
- exists (PI - PI / 6). split; [|lra]. split; [apply M; lra|]. split; [easy|]. apply C. rewrite sin_PI_x, sin_PI6. lra.
Qed.

(** ** Refutations *)
Theorem C26_sin_rev_any_refuted : forall F : fmt, (8 <= prec F)%Z -> exists c x : itv F, wf c /\ wf x /\ modest (prec F) x /\
  (exists t, preimage everywhere sin c x t) /\ returns (sin_rev c x) empty.
Proof. exact @sin_rev_misses. Qed.
Print Assumptions C26_sin_rev_any_refuted.
Theorem C26_tan_rev_any_refuted : forall F : fmt, (8 <= prec F)%Z -> exists c x : itv F, wf c /\ wf x /\ modest (prec F) x /\
  exists t z, preimage (fun t => cos t <> 0) tan c x t /\ returns (tan_rev c x) z /\ ~ mem t z.
Proof. exact @tan_rev_misses. Qed.
Print Assumptions C26_tan_rev_any_refuted.
(** In particular for double; the witness is sin_rev([-1,-1/2],[-1/4,19/2]), which is empty. *)
Theorem C26_sin_rev_refuted : exists c x : itv binary64, wf c /\ wf x /\ (exists t, preimage everywhere sin c x t) /\ returns (sin_rev c x) empty.
Proof. destruct (@sin_rev_misses binary64) as (c & x & H); [vm_compute; easy|]. exists c, x. tauto. Qed.
Print Assumptions C26_sin_rev_refuted.
Theorem C26_tan_rev_refuted : exists c x : itv binary64, wf c /\ wf x /\
  exists t z, preimage (fun t => cos t <> 0) tan c x t /\ returns (tan_rev c x) z /\ ~ mem t z.
Proof. destruct (@tan_rev_misses binary64) as (c & x & H); [vm_compute; easy|]. exists c, x. tauto. Qed.
Print Assumptions C26_tan_rev_refuted.

(** Mixed types without [x]. *)
Theorem C26_sin_rev1_mixed : forall (F T : fmt) (c : itv F), comparable T F -> wf c ->
  computes_enclosure (sin_rev1_mixed T c) (fun t => mem (sin t) c).
Proof. exact (fun F T c C => sin_rev1_mixed_encl T C c). Qed.
Print Assumptions C26_sin_rev1_mixed.
Theorem C26_sin_rev1_dec_mixed : forall (F T : fmt) (c : ditv F), comparable T F -> wf_dec c -> snd c <> ill ->
  gives (sin_rev1_dec_mixed T c) (with_trv (encl (fun t => mem (sin t) (fst c)))).
Proof. exact (fun F T c C => sin_rev1_dec_mixed_encl T C c). Qed.
Print Assumptions C26_sin_rev1_dec_mixed.
Theorem C26_tan_rev1_mixed : forall (F T : fmt) (c : itv F), comparable T F -> wf c ->
  computes_enclosure (tan_rev1_mixed T c) (fun t => cos t <> 0 /\ mem (tan t) c).
Proof. exact (fun F T c C => tan_rev1_mixed_encl T C c). Qed.
Print Assumptions C26_tan_rev1_mixed.
Theorem C26_tan_rev1_dec_mixed : forall (F T : fmt) (c : ditv F), comparable T F -> wf_dec c -> snd c <> ill ->
  gives (tan_rev1_dec_mixed T c) (with_trv (encl (fun t => cos t <> 0 /\ mem (tan t) (fst c)))).
Proof. exact (fun F T c C => tan_rev1_dec_mixed_encl T C c). Qed.
Print Assumptions C26_tan_rev1_dec_mixed.
