(** * C50: objects, copies and programs

    Claimed: whatever a program does with objects of the interval classes -- declarations,
    assignments to objects that also occur in the expression, loops, exceptions caught in the
    middle, input from streams -- every object is valid at every moment, an exception leaves
    the target of the assignment as it was, objects that are not targets never change, and the
    copies of temporaries that a compiler may make or leave out have no effect.
    True of programs whose cancellative operations get operands with exactly tested widths
    ([careful], SpecClass.v; in particular of programs without them), and refuted without
    that restriction: the invalid result of [cancel_minus] (C23) is kept by assignment,
    and replaced by the empty set where it is copied. *)
From Coq Require Import ZArith NArith Reals Bool Lra List.
From Flocq Require Import Core.Core IEEE754.BinarySingleNaN.
From Verif Require Import Fmt Spec FloatFacts Exc Deco SpecApi SpecDeco SpecProg MBase PBase MBool MArith PArith PDec MDec PValid MStream MRead PConv MProg Ex MClass SpecClass PObj PObj2.
Local Open Scope R_scope.

(** ** Every object is valid *)
Theorem C50_objects_valid : forall (vt : nat -> ty) (c : cmd vt) s r,
  exec careful c s r -> good_store (objs s) -> after r good_store.
Proof. intros vt. exact exec_good. Qed.
Print Assumptions C50_objects_valid.
Theorem C50_objects_valid_no_cancel : forall (vt : nat -> ty) may (c : cmd vt) s r,
  exec may c s r -> no_cancel_cmd c -> good_store (objs s) -> after r good_store.
Proof. intros vt. exact exec_good_plain. Qed.
Print Assumptions C50_objects_valid_no_cancel.
Theorem C50_objects_valid_refuted : exists (vt : nat -> ty) (c : cmd vt) s s', good_store (objs s) /\ no_input c /\
  exec anyhow c s (Normal s') /\ ~ good_store (objs s').
Proof. exact invalid_object. Qed.
Print Assumptions C50_objects_valid_refuted.

(** ** Copies of temporaries have no effect *)
Theorem C50_copies : forall (vt : nat -> ty) (c : cmd vt) s r, good_store (objs s) ->
  exec careful c s r <-> exec careful (elide_cmd c) s r.
Proof. intros vt. exact exec_elide_iff. Qed.
Print Assumptions C50_copies.
Theorem C50_copies_refuted : exists (vt : nat -> ty) (c : cmd vt) s s1 s2, good_store (objs s) /\ no_input c /\
  exec anyhow c s (Normal s1) /\ exec anyhow (elide_cmd c) s (Normal s2) /\ objs s1 <> objs s2.
Proof. exact copies_matter. Qed.
Print Assumptions C50_copies_refuted.
(** Construction of a copy and assignment give the same. *)
Theorem C50_copy_is_assignment : forall (vt : nat -> ty) (st : store vt) a (f : vl a -> M (vl a)) (H : op1 a a f) (x : term vt a) k,
  f = copyv a -> good_store st -> careful st a x -> forall s, ev st (Ap1 f H x k) s = ev st x s.
Proof. intros vt. exact copy_assign. Qed.
Print Assumptions C50_copy_is_assignment.
Theorem C50_copy_is_assignment_refuted : exists (vt : nat -> ty) (c : cmd vt) (s s' : state vt), good_store (objs s) /\ no_input c /\
  exec anyhow c s (Normal s') /\ exists i H v w f1 f2,
    ev (objs s') (@Obj vt i) (env s') = (Ret v, f1) /\ ev (objs s') (Ap1 (copyv (vt i)) H (@Obj vt i) 0) (env s') = (Ret w, f2) /\ v <> w.
Proof. exact copy_differs. Qed.
Print Assumptions C50_copy_is_assignment_refuted.

(** ** Only targets change, and only by completed statements *)
Theorem C50_frame : forall (vt : nat -> ty) may (c : cmd vt) s r i,
  exec may c s r -> ~ target i c -> after r (fun st => st i = objs s i).
Proof. intros vt. exact exec_frame. Qed.
Print Assumptions C50_frame.
Theorem C50_assign_atomic : forall (vt : nat -> ty) may i (e : term vt (vt i)) s x s',
  exec may (Assign i e) s (Raised x s') -> objs s' = objs s.
Proof. intros vt. exact assign_atomic. Qed.
Print Assumptions C50_assign_atomic.
Theorem C50_extract_atomic : forall (vt : nat -> ty) may i (s : state vt) x s',
  exec may (Extract i) s (Raised x s') -> objs s' = objs s.
Proof. intros vt. exact extract_atomic. Qed.
Print Assumptions C50_extract_atomic.
(** The state of the stream tells whether the object was written. *)
Theorem C50_extract : forall (vt : nat -> ty) may i (s s' : state vt), exec may (Extract i) s (Normal s') ->
  if ok (inp s') then good_obj (vt i) (objs s' i) else objs s' = objs s.
Proof. intros vt. exact extract_effect. Qed.
Print Assumptions C50_extract.

(** ** Programs without input have one outcome *)
Theorem C50_deterministic : forall (vt : nat -> ty) may (c : cmd vt) s r r', no_input c ->
  exec may c s r -> exec may c s r' -> r' = r.
Proof. intros vt may c s r r' N X. exact (exec_det may c s r X N r'). Qed.
Print Assumptions C50_deterministic.

(** ** Widening an object to another type and back *)
Theorem C50_widen_back : forall (F G : fmt) (x : itv F), within F G -> wf x ->
  exists z, bind (convert_type G x) (convert_type F) = ret z /\ wf z /\ forall r, mem r z <-> mem r x.
Proof. intros F G. exact widen_back. Qed.
Print Assumptions C50_widen_back.

(** ** Examples *)
(** [while (inf(x) < 3) x = x + x;] with [x] = [1, 1], where the sum is copied [k] times before
    it is assigned to the object it was computed from. *)
Definition ex_vt : nat -> ty := fun _ => Bare binary64.
Definition ex_one : itv binary64 := (fl binary64 1 0, fl binary64 1 0).
Definition ex_state (m : N) : state ex_vt := State (fun _ => ex_one : vl (Bare binary64)) (string_stream nil) (Est 0 m).
Definition ex_body (k : nat) : cmd ex_vt :=
  @Assign ex_vt 0%nat (Ap2 _ (o_bin _ _ _ _ (b_fun _ _ _ _ (b_add binary64))) (@Obj ex_vt 0) (@Obj ex_vt 0) k : term ex_vt (Bare binary64)).
Definition ex_loop (k : nat) : cmd ex_vt := @While ex_vt (fun st => ret (flt (fst (st 0%nat : itv binary64)) (fl binary64 3 0))) (ex_body k).
(** [m] returns and leaves the flags alone. *)
Definition ended {A} (m : M A) (s : est) : bool := match m s with (Ret _, f) => N.eqb (flags f) (flags s) && N.eqb (cwd f) (cwd s) | _ => false end.
Lemma ran {A} (m : M A) s : ended m s = true -> exists z, m s = (Ret z, s).
Proof.
unfold ended. destruct (m s) as [[z| |] f]; try discriminate. intros H. apply andb_true_iff in H. destruct H as [H1 H2].
apply N.eqb_eq in H1, H2. exists z. destruct f, s. cbn in *. now subst.
Qed.
Definition is_pt (z : Z) (x : itv binary64) : bool := feq (fst x) (fl binary64 z 0) && feq (snd x) (fl binary64 z 0).
Lemma ex_step k (st : store ex_vt) p f (z : itv binary64) : wf z -> @add binary64 (st 0%nat) (st 0%nat) f = (Ret z, f) ->
  exec careful (ex_body k) (State st p f) (Normal (State (@write ex_vt st 0%nat z) p f)).
Proof.
intros W E. apply (x_assign ex_vt careful 0%nat _ (State st p f) z f); [now apply no_cancel_careful|].
change (bind (@add binary64 (st 0%nat) (st 0%nat)) (@copies (Bare binary64) k) f = (Ret z, f)). unfold bind. rewrite E.
exact (f_equal (fun m : M (vl (Bare binary64)) => m f) (copies_good (Bare binary64) k z W)).
Qed.
Example C50_ex_loop : good_store (objs (ex_state 0)) /\ no_cancel_cmd (ex_loop 2) /\ no_input (ex_loop 2) /\
  exists s', exec careful (ex_loop 2) (ex_state 0) (Normal s') /\ is_pt 4 (objs s' 0%nat) = true /\ objs s' 1%nat = ex_one.
Proof.
split; [intros i; wf_tac|]. split; [easy|]. split; [easy|].
destruct (ran (add ex_one ex_one) (Est 0 0)) as [z Ez]; [vm_compute; reflexivity|].
assert (Pz : is_pt 2 z = true /\ flt (fst z) (fl binary64 3 0) = true /\ ended (add z z) (Est 0 0) = true /\ (forall w, add z z (Est 0 0) = (Ret w, Est 0 0) -> is_pt 4 w = true /\ flt (fst w) (fl binary64 3 0) = false)).
{ assert (E : z = match add ex_one ex_one (Est 0 0) with (Ret z, _) => z | _ => empty end) by now rewrite Ez.
  rewrite E. split; [vm_compute; reflexivity|]. split; [vm_compute; reflexivity|]. split; [vm_compute; reflexivity|]. clear E Ez z.
  intros w Ew. assert (E : w = match add (match add ex_one ex_one (Est 0 0) with (Ret z, _) => z | _ => empty end) (match add ex_one ex_one (Est 0 0) with (Ret z, _) => z | _ => empty end) (Est 0 0) with (Ret z, _) => z | _ => empty end) by now rewrite Ew.
  rewrite E. split; vm_compute; reflexivity. }
destruct Pz as (_ & Lz & Rz & Kz). destruct (ran (add z z) (Est 0 0) Rz) as [w Ew]. destruct (Kz w Ew) as [Pw Lw].
assert (Wz : wf z) by (assert (E : z = match add ex_one ex_one (Est 0 0) with (Ret z, _) => z | _ => empty end) by (now rewrite Ez); rewrite E; wf_tac).
assert (Ww : wf w).
{ destruct (add_tightest z z Wz Wz) as (w' & E & T). apply returns_eq in E. rewrite E in Ew. injection Ew as <-. apply T. }
exists (State (@write ex_vt (@write ex_vt (fun _ => ex_one : vl (Bare binary64)) 0%nat z) 0%nat w) (string_stream nil) (Est 0 0)).
split; [|split; [exact Pw|reflexivity]].
apply x_while. apply (x_if _ _ _ _ _ _ true (Est 0 0)); [vm_compute; reflexivity|].
eapply x_seq; [now apply (ex_step 2 _ _ _ z)|].
apply x_while. apply (x_if _ _ _ _ _ _ true (Est 0 0)); [exact (f_equal (fun b => (Ret b, Est 0 0)) Lz)|].
eapply x_seq; [now apply (ex_step 2 _ _ _ w)|].
apply x_while. apply (x_if _ _ _ _ _ _ false (Est 0 0)); [exact (f_equal (fun b => (Ret b, Est 0 0)) Lw)|]. constructor.
Qed.
(** [try { x = interval<double>(2, 1); } catch (...) { x = x + x; }] with all exceptions
    enabled: the assignment that fails leaves [x] as it was, so the handler makes it [2, 2]. *)
Definition ex_try : cmd ex_vt :=
  Try (@Assign ex_vt 0%nat (Src _ (s_nums binary64 (fl binary64 2 0) (fl binary64 1 0)) 0 : term ex_vt (Bare binary64))) (fun _ => ex_body 0).
Example C50_ex_try : exists s1 s', exec careful (@Assign ex_vt 0%nat (Src _ (s_nums binary64 (fl binary64 2 0) (fl binary64 1 0)) 0 : term ex_vt (Bare binary64)))
    (ex_state 255) (Raised Undefined_operation_exception s1) /\ objs s1 = objs (ex_state 255) /\
  exec careful ex_try (ex_state 255) (Normal s') /\ is_pt 2 (objs s' 0%nat) = true.
Proof.
exists (State (objs (ex_state 255)) (string_stream nil) (Est 1 255)).
destruct (ran (add ex_one ex_one) (Est 1 255)) as [z Ez]; [vm_compute; reflexivity|].
exists (State (@write ex_vt (objs (ex_state 255)) 0%nat z) (string_stream nil) (Est 1 255)).
assert (X : exec careful (@Assign ex_vt 0%nat (Src _ (s_nums binary64 (fl binary64 2 0) (fl binary64 1 0)) 0 : term ex_vt (Bare binary64)))
    (ex_state 255) (Raised Undefined_operation_exception (State (objs (ex_state 255)) (string_stream nil) (Est 1 255)))).
{ apply (x_assign_throw _ _ _ _ (ex_state 255)); [now apply no_cancel_careful|]. vm_compute. reflexivity. }
split; [exact X|]. split; [reflexivity|]. split.
- eapply x_catch; [exact X|]. apply ex_step; [|exact Ez].
  assert (E : z = match add ex_one ex_one (Est 1 255) with (Ret z, _) => z | _ => empty end) by now rewrite Ez.
  rewrite E. wf_tac.
- assert (E : z = match add ex_one ex_one (Est 1 255) with (Ret z, _) => z | _ => empty end) by now rewrite Ez.
  change (is_pt 2 z = true). rewrite E. vm_compute. reflexivity.
Qed.
(** A copy of a decorated object. *)
Example C50_ex_copy : ev (fun _ => (ex_one, com) : vl (Deco binary64)) (Ap1 (vt := fun _ => Deco binary64) _ (o_dun _ _ _ (du_fun _ _ _ (du_copy binary64))) (@Obj (fun _ => Deco binary64) 3) 4) (Est 0 0)
  = (Ret (ex_one, com), Est 0 0).
Proof.
assert (G : good_store (vt := fun _ => Deco binary64) (fun _ => (ex_one, com))) by (intros i; split; [wf_tac|cbn; tauto]).
exact (C50_copy_is_assignment (fun _ => Deco binary64) _ (Deco binary64) _ (o_dun _ _ _ (du_fun _ _ _ (du_copy binary64))) (@Obj (fun _ => Deco binary64) 3) 4 eq_refl G I (Est 0 0)).
Qed.
