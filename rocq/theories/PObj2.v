(** * Proofs: programs without cancellation, copies, and programs that go wrong *)
From Coq Require Import ZArith NArith Reals Bool Lra List.
From Flocq Require Import Core.Core IEEE754.BinarySingleNaN.
From Verif Require Import Fmt Spec FloatFacts Exc Deco SpecApi SpecDeco SpecProg MBase PBase MBool MCancel MStream MRead PConv PClass PDec PValid PValid3 PValid5 MProg Ex PInvOps MClass SpecClass PObj.
Local Open Scope R_scope.

Section Terms.
Context {vt : nat -> ty}.
Lemma exec_no_cancel may (c : cmd vt) s r : exec may c s r -> no_cancel_cmd c -> exec careful c s r.
Proof.
intros X. induction X; cbn [no_cancel_cmd]; intros N.
- constructor.
- apply x_assign; [now apply no_cancel_careful|easy].
- apply x_assign_throw; [now apply no_cancel_careful|easy].
- eapply x_assign_ub; [now apply no_cancel_careful|eassumption].
- now apply x_extract.
- now apply x_extract_none.
- now apply x_extract_throw.
- eapply x_extract_ub. eassumption.
- constructor.
- eapply x_seq; [apply IHX1|apply IHX2]; tauto.
- apply x_seq_throw; tauto.
- apply x_seq_ub; tauto.
- eapply x_if; [eassumption|]. apply IHX. destruct b; tauto.
- eapply x_if_throw. eassumption.
- eapply x_if_ub. eassumption.
- apply x_while. apply IHX. cbn [no_cancel_cmd]. tauto.
- constructor.
- apply x_try; tauto.
- destruct N as [N1 N2]. eapply x_catch; [exact (IHX1 N1)|exact (IHX2 (N2 _))].
- apply x_try_ub; tauto.
Qed.
Lemma exec_good_plain may (c : cmd vt) s r : exec may c s r -> no_cancel_cmd c -> good_store (objs s) -> after r good_store.
Proof. intros X N. apply exec_good with c. now apply (exec_no_cancel may). Qed.

(** Copy construction and assignment. *)
Lemma copy_assign (st : store vt) a (f : vl a -> M (vl a)) (H : op1 a a f) (x : term vt a) k : f = copyv a -> good_store st -> careful st a x ->
  forall s, ev st (Ap1 f H x k) s = ev st x s.
Proof.
intros -> G C s. change (bind (ev st x) (fun v => bind (copyv a v) (copies k)) s = ev st x s).
unfold bind at 1. destruct (ev st x s) as [[v| |] s'] eqn:E; [|reflexivity|reflexivity].
pose proof (ev_good st x G C s v s' E) as V. unfold bind. rewrite (copyv_good a v V). unfold ret. now rewrite (copies_good a k v V).
Qed.
End Terms.

(** ** A program that goes wrong *)
Definition bad_vt : nat -> ty := fun _ => Bare binary64.
Definition bad_store : store bad_vt := fun _ => empty.
Definition bad_term (k : nat) : term bad_vt (Bare binary64) :=
  Canc _ (o_canc _ _ _ _ (c_minus binary64))
    (Src _ (s_nums binary64 bad_xl bad_xu) 0) (Src _ (s_nums binary64 bad_yl bad_yu) 0) k.
Definition bad_cmd (k : nat) : cmd bad_vt := @Assign bad_vt 0%nat (bad_term k).
Lemma nums_then {A} (l u : float binary64) (k : itv binary64 -> M A) s : fle l u && fne l finf && fne u fminf = true ->
  bind (nums_to_interval l u) k s = k (l, u) s.
Proof. intros E. unfold bind. now rewrite nums_run. Qed.
Lemma bad_ev k st s : ev st (bad_term k) s = copies k (cancel_bounds bad_x bad_y : vl (Bare binary64)) s.
Proof.
assert (E1 : fle bad_xl bad_xu && fne bad_xl finf && fne bad_xu fminf = true) by (vm_compute; reflexivity).
assert (E2 : fle bad_yl bad_yu && fne bad_yl finf && fne bad_yu fminf = true) by (vm_compute; reflexivity).
pose proof (nums_run bad_xl bad_xu s E1) as N1. pose proof (nums_run bad_yl bad_yu s E2) as N2.
change (bind (bind (nums_to_interval bad_xl bad_xu) (fun v => ret v)) (fun v =>
  bind (bind (nums_to_interval bad_yl bad_yu) (fun v => ret v)) (fun w => bind (cancel_minus v w) (fun z : vl (Bare binary64) => copies k z))) s
  = copies k (cancel_bounds bad_x bad_y : vl (Bare binary64)) s).
unfold bind at 1 2. rewrite N1. unfold ret at 1. unfold bind at 1 2. rewrite N2. unfold ret at 1. fold bad_x bad_y. rewrite bad_returns. reflexivity.
Qed.
Lemma bad_copied k s : masked invalid_operand_bit s = false ->
  fst (copies (S k) (cancel_bounds bad_x bad_y : vl (Bare binary64)) s) = Ret empty.
Proof.
intros Hm. cbn [copies]. unfold bind. change (copyv (Bare binary64)) with (@copy binary64).
rewrite (inv_copy binary64 (cancel_bounds bad_x bad_y) bad_not_wf s), Hm.
exact (f_equal (fun m : M (vl (Bare binary64)) => fst (m _)) (copies_good (Bare binary64) k empty wf_empty)).
Qed.
Definition no_text : istream := string_stream nil.
Definition bad_state (p : istream) : state bad_vt := State bad_store p (Est 0 0).
Lemma bad_good : good_store bad_store.
Proof. intros i. exact wf_empty. Qed.
Lemma bad_run p : exec anyhow (bad_cmd 0) (bad_state p)
  (Normal (State (write bad_store 0%nat (cancel_bounds bad_x bad_y)) p (Est 0 0))).
Proof.
apply (x_assign bad_vt anyhow 0%nat (bad_term 0) (bad_state p) (cancel_bounds bad_x bad_y) (Est 0 0)); [exact I|].
exact (bad_ev 0 bad_store (Est 0 0)).
Qed.
Lemma bad_run_copied k p : exists f, exec anyhow (bad_cmd (S k)) (bad_state p) (Normal (State (write bad_store 0%nat empty) p f)).
Proof.
exists (snd (copies (S k) (cancel_bounds bad_x bad_y : vl (Bare binary64)) (Est 0 0))).
apply (x_assign bad_vt anyhow 0%nat (bad_term (S k)) (bad_state p) empty); [exact I|].
etransitivity; [exact (bad_ev (S k) bad_store (Est 0 0))|].
pose proof (bad_copied k (Est 0 0) eq_refl) as E. destruct (copies _ _ _) as [o f]. cbn [fst snd] in *. now rewrite E.
Qed.
Lemma invalid_object : exists (vt : nat -> ty) (c : cmd vt) s s', good_store (objs s) /\ no_input c /\
  exec anyhow c s (Normal s') /\ ~ good_store (objs s').
Proof.
exists bad_vt, (bad_cmd 0), (bad_state no_text), (State (write bad_store 0%nat (cancel_bounds bad_x bad_y)) no_text (Est 0 0)).
split; [exact bad_good|]. split; [exact I|]. split; [apply bad_run|]. intros G. apply bad_not_wf. exact (G 0%nat).
Qed.
Lemma copies_matter : exists (vt : nat -> ty) (c : cmd vt) s s1 s2, good_store (objs s) /\ no_input c /\
  exec anyhow c s (Normal s1) /\ exec anyhow (elide_cmd c) s (Normal s2) /\ objs s1 <> objs s2.
Proof.
destruct (bad_run_copied 0 no_text) as [f X].
exists bad_vt, (bad_cmd 1), (bad_state no_text). do 2 eexists.
split; [exact bad_good|]. split; [exact I|]. split; [exact X|]. split; [apply bad_run|]. cbn [objs].
intros E. apply (f_equal (fun st => isnan (fst (st 0%nat : itv binary64)))) in E. vm_compute in E. discriminate E.
Qed.
Lemma copy_differs : exists (vt : nat -> ty) (c : cmd vt) (s s' : state vt), good_store (objs s) /\ no_input c /\
  exec anyhow c s (Normal s') /\ exists i H v w f1 f2,
    ev (objs s') (@Obj vt i) (env s') = (Ret v, f1) /\ ev (objs s') (Ap1 (copyv (vt i)) H (@Obj vt i) 0) (env s') = (Ret w, f2) /\ v <> w.
Proof.
exists bad_vt, (bad_cmd 0), (bad_state no_text), (State (write bad_store 0%nat (cancel_bounds bad_x bad_y)) no_text (Est 0 0)).
split; [exact bad_good|]. split; [exact I|]. split; [apply bad_run|].
exists 0%nat, (o_un _ _ _ (u_fun _ _ _ (u_copy binary64))), (cancel_bounds bad_x bad_y), empty. do 2 eexists.
split; [reflexivity|]. split.
- etransitivity; [|exact (inv_copy binary64 (cancel_bounds bad_x bad_y) bad_not_wf (Est 0 0))]. cbn [objs env ev]. 
  unfold bind, ret, write. cbn. reflexivity.
- intros E. apply (f_equal (fun z => isnan (fst (z : itv binary64)))) in E. vm_compute in E. discriminate E.
Qed.
(** ** Widening loses nothing *)
Lemma widen_back {F G} (x : itv F) : within F G -> wf x ->
  exists z, bind (convert_type G x) (convert_type F) = ret z /\ wf z /\ forall r, mem r z <-> mem r x.
Proof.
intros W Wx. destruct (convert_type_tightest G x Wx) as (y & Ey & Ty). apply returns_eq in Ey. rewrite Ey.
destruct (convert_type_tightest F y (proj1 Ty)) as (z & Ez & Tz). apply returns_eq in Ez. exists z. mreds. split; [exact Ez|]. split; [apply Tz|].
assert (Ky : forall r, mem r y <-> mem r x).
{ intros r. split; [|apply Ty]. intros M. 
  apply (convert_hull_exact G x W Wx). apply (proj2 (proj2 Ty)); [|intros q Q; now apply (convert_hull_exact G x W Wx)|exact M].
  now apply wf_convert_hull. }
intros r. split.
- intros M. apply (proj2 (proj2 Tz) x Wx); [|exact M]. intros q Q. now apply Ky.
- intros M. apply (proj1 (proj2 Tz)). now apply Ky.
Qed.
