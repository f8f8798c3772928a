(** * C43: programs cannot build invalid intervals

    [built] and [dbuilt] (MProg.v) are the values a program can obtain through the public
    functions, in any number of steps, with any arguments and any state of the exception
    flags at each of them. *)
From Coq Require Import ZArith NArith Reals Bool Lra List.
From Flocq Require Import Core.Core IEEE754.BinarySingleNaN.
From Verif Require Import Fmt Spec FloatFacts Exc Deco SpecApi SpecDeco SpecRel SpecCancel SpecProg MBase PBase MBool MArith MDec MMixed MCancel MStream MText MRead PConv
  PClass PValid PValid2 PValid3 PValid4 PValid5 MProg SpecBlind PValid6 Ex.
Local Open Scope R_scope.
(** Every interval a program can build is valid.  Missing: cancellative operations with
    operands that are not [tame]; for those the statement is false, see below. *)
Theorem C43_built_partial : forall (F : fmt) (x : itv F), built tame F x -> wf x.
Proof. exact built_wf. Qed.
Print Assumptions C43_built_partial.
(** The same for decorated intervals: the interval part is valid, the decoration is one of
    the five, com only on a bounded interval, ill only with the empty one. *)
Theorem C43_dbuilt_partial : forall (F : fmt) (x : ditv F), dbuilt tame F x -> valid_dec x.
Proof. exact dbuilt_valid. Qed.
Print Assumptions C43_dbuilt_partial.
(** The restriction weakened to what is needed for the test of the widths to be exact (C23):
    the operands are not blind; [tame] ones are not. *)
Theorem C43_built_clear_partial : forall (F : fmt) (x : itv F), built clear F x -> wf x.
Proof. exact built_clear. Qed.
Print Assumptions C43_built_clear_partial.
Theorem C43_dbuilt_clear_partial : forall (F : fmt) (x : ditv F), dbuilt clear F x -> valid_dec x.
Proof. exact dbuilt_clear. Qed.
Print Assumptions C43_dbuilt_clear_partial.
Theorem C43_tame_clear : forall (T F G : fmt) (x : itv F) (y : itv G), tame T F G x y -> clear T F G x y.
Proof. exact tame_clear. Qed.
Print Assumptions C43_tame_clear.
(** Without the restriction: [cancel_minus] of two bounded intervals obtained from numbers
    returns a lower bound that is greater than the upper bound. *)
Theorem C43_refuted : exists x : itv binary64, built anything binary64 x /\ ~ wf x.
Proof. exact built_refuted. Qed.
Print Assumptions C43_refuted.
Theorem C43_dec_refuted : exists x : ditv binary64, dbuilt anything binary64 x /\ ~ valid_dec x.
Proof. exact dbuilt_refuted. Qed.
Print Assumptions C43_dec_refuted.
Theorem C43_cancel_minus_refuted : exists x y z : itv binary64, wf x /\ wf y /\ bounded_rep x /\ bounded_rep y /\
  returns (cancel_minus x y) z /\ ~ wf z.
Proof. exact cancel_invalid. Qed.
Print Assumptions C43_cancel_minus_refuted.
(** What [tame] asks for in one type and a bounded second operand. *)
Theorem C43_tame_same : forall (F : fmt) (x y : itv F), is_finite (fst y) = true -> is_finite (snd y) = true -> wf y ->
  not_max (snd x) -> not_max (fst y) -> not_max (snd y) -> tame F F F x y.
Proof. exact tame_same. Qed.
Print Assumptions C43_tame_same.
(** ** The single steps *)
Theorem C43_one : forall (F T : fmt) f, un F T f -> forall x, wf x -> delivers (f x) wf.
Proof. exact un_del. Qed.
Print Assumptions C43_one.
Theorem C43_two : forall (F G T : fmt) f, bin F G T f -> forall x y, wf x -> wf y -> delivers (f x y) wf.
Proof. exact bin_del. Qed.
Print Assumptions C43_two.
Theorem C43_three : forall (F G H T : fmt) f, tern F G H T f -> forall x y w, wf x -> wf y -> wf w -> delivers (f x y w) wf.
Proof. exact tern_del. Qed.
Print Assumptions C43_three.
Theorem C43_pair : forall (F G T : fmt) f, two F G T f -> forall x y, wf x -> wf y ->
  delivers (f x y) (fun z => wf (fst z) /\ wf (snd z)).
Proof. exact two_del. Qed.
Print Assumptions C43_pair.
Theorem C43_one_dec : forall (F T : fmt) f, dun F T f -> forall x, valid_dec x -> delivers (f x) valid_dec.
Proof. exact dun_del. Qed.
Print Assumptions C43_one_dec.
Theorem C43_two_dec : forall (F G T : fmt) f, dbin F G T f -> forall x y, valid_dec x -> valid_dec y -> delivers (f x y) valid_dec.
Proof. exact dbin_del. Qed.
Print Assumptions C43_two_dec.
Theorem C43_three_dec : forall (F G H T : fmt) f, dtern F G H T f -> forall x y w, valid_dec x -> valid_dec y -> valid_dec w ->
  delivers (f x y w) valid_dec.
Proof. exact dtern_del. Qed.
Print Assumptions C43_three_dec.
Theorem C43_pair_dec : forall (F G T : fmt) f, dtwo F G T f -> forall x y, valid_dec x -> valid_dec y ->
  delivers (f x y) (fun z => valid_dec (fst z) /\ valid_dec (snd z)).
Proof. exact dtwo_del. Qed.
Print Assumptions C43_pair_dec.
Theorem C43_cancel_partial : forall (F G T : fmt) f, canc F G T f -> forall x y, tame T F G x y -> wf x -> wf y -> delivers (f x y) wf.
Proof. exact canc_del. Qed.
Print Assumptions C43_cancel_partial.
Theorem C43_cancel_dec_partial : forall (F G T : fmt) f, dcanc F G T f -> forall x y, tame T F G (fst x) (fst y) -> valid_dec x -> valid_dec y ->
  delivers (f x y) valid_dec.
Proof. exact dcanc_del. Qed.
Print Assumptions C43_cancel_dec_partial.
(** Construction delivers valid intervals whatever it is given, also an invalid
    interval part or a byte that is no decoration. *)
Theorem C43_new_dec : forall (F : fmt) (x : itv F), delivers (new_dec x) valid_dec.
Proof. exact @new_dec_del. Qed.
Print Assumptions C43_new_dec.
Theorem C43_set_dec : forall (F : fmt) (x : itv F) (d : deco), delivers (set_dec x d) valid_dec.
Proof. exact @set_dec_del. Qed.
Print Assumptions C43_set_dec.
Theorem C43_nums : forall (F : fmt) (l u : float F), delivers (nums_to_interval l u) wf.
Proof. exact @nums_del. Qed.
Print Assumptions C43_nums.
Theorem C43_nums_dec : forall (F : fmt) (l u : float F) (d : deco), delivers (nums_dec_to_decorated_interval l u d) valid_dec.
Proof. exact @nums_dec_del. Qed.
Print Assumptions C43_nums_dec.
(** Any text, any stream. *)
Theorem C43_text : forall (F : fmt) t, delivers (@text_to_interval F t) wf.
Proof. exact @text_itv_del. Qed.
Print Assumptions C43_text.
Theorem C43_text_dec : forall (F : fmt) t, delivers (@text_to_decorated_interval F t) valid_dec.
Proof. exact @text_ditv_del. Qed.
Print Assumptions C43_text_dec.
Theorem C43_read : forall (F : fmt) i, delivers (@read_itv F i) (fun r => forall z, fst r = Some z -> wf z).
Proof. exact @read_itv_del. Qed.
Print Assumptions C43_read.
Theorem C43_read_dec : forall (F : fmt) i, delivers (@read_ditv F i) (fun r => forall z, fst r = Some z -> valid_dec z).
Proof. exact @read_ditv_del. Qed.
Print Assumptions C43_read_dec.
(** ** Examples *)
Notation b64 := (fl binary64).
(** x = [-5,7], y = [1,3], then cancel_minus x y = [-6,4], its square, and the decorated one. *)
Definition ex_x : itv binary64 := (b64 (-5) 0, b64 7 0).
Definition ex_y : itv binary64 := (b64 1 0, b64 3 0).
Lemma ex_tame : tame binary64 binary64 binary64 ex_x ex_y.
Proof. apply C43_tame_same; try reflexivity; try wf_tac; unfold not_max, Rabs; destruct Rcase_abs as [H|H]; revert H; b2r. Qed.
Example C43_ex : exists z w d : itv binary64, built tame binary64 z /\ built tame binary64 w /\ dbuilt tame binary64 (d, com) /\
  sf2 z = (B2SF (b64 (-6) 0), B2SF (b64 4 0)) /\ sf2 w = (B2SF (@f0 binary64), B2SF (b64 36 0)) /\ sf2 d = sf2 w.
Proof.
assert (Bx : built tame binary64 ex_x) by (apply (bl_nums _ _ (b64 (-5) 0) (b64 7 0) (Est 0 0) _ (Est 0 0)); apply nums_run; reflexivity).
assert (By : built tame binary64 ex_y) by (apply (bl_nums _ _ (b64 1 0) (b64 3 0) (Est 0 0) _ (Est 0 0)); apply nums_run; reflexivity).
destruct (cancel_minus ex_x ex_y (Est 0 0)) as [[z| |] s1] eqn:E1; try (apply (f_equal (fun p => match fst p with Ret _ => true | _ => false end)) in E1; vm_compute in E1; discriminate).
assert (Bz : built tame binary64 z) by exact (bl_canc tame _ _ _ _ _ _ _ _ _ (c_minus binary64) ex_tame Bx By E1).
assert (R1 : run (cancel_minus ex_x ex_y) = okz (b64 (-6) 0) (b64 4 0)) by (vm_compute; reflexivity).
unfold run in R1. rewrite E1 in R1. apply (f_equal fst) in R1. cbn [fst] in R1.
assert (Hz : z = (b64 (-6) 0, b64 4 0)) by (injection R1; destruct z as [l u]; cbn [fst snd]; intros H1 H2; f_equal; apply B2SF_inj; assumption).
destruct (sqr z (Est 0 0)) as [[w| |] s2] eqn:E2; try (apply (f_equal (fun p => match fst p with Ret _ => true | _ => false end)) in E2; subst z; vm_compute in E2; discriminate).
assert (Bw : built tame binary64 w) by exact (bl_un tame _ _ _ _ _ _ _ (u_fun _ _ _ (u_sqr binary64)) Bz E2).
assert (R2 : run (sqr z) = okz (@f0 binary64) (b64 36 0)) by (subst z; vm_compute; reflexivity).
unfold run in R2. rewrite E2 in R2. apply (f_equal fst) in R2. cbn [fst] in R2.
assert (Hw : w = (f0, b64 36 0)) by (injection R2; destruct w as [l u]; cbn [fst snd]; intros H1 H2; f_equal; apply B2SF_inj; assumption).
exists z, w, w. split; [exact Bz|]. split; [exact Bw|]. split.
- apply (dl_new tame binary64 w (Est 0 0) _ (Est 0 0) Bw). subst w. reflexivity.
- subst z w. repeat split.
Qed.
Example C43_ex_clear : clear binary64 binary64 binary64 ex_x ex_y.
Proof. exact (C43_tame_clear _ _ _ _ _ ex_tame). Qed.
