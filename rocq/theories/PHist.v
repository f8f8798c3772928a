(** * Proofs: histories of exception calls *)

From Coq Require Import NArith Bool List Lia.
From Verif Require Import Exc MHist.
Import ListNotations.

(** Specification: what a history means, without any state.  The last word set. *)
Fixpoint last_mask (m0 : N) (h : list call) : N :=
  match h with
  | [] => m0
  | SetMask c :: h' => last_mask c h'
  | _ :: h' => last_mask m0 h'
  end.
(** Has [k] been signalled since the last clear (or was it set before)? *)
Fixpoint raised (k : kind) (b0 : bool) (h : list call) : Prop :=
  match h with
  | [] => b0 = true
  | Clear :: h' => raised k false h'
  | Signal k' :: h' => (k' = k /\ raised k true h') \/ (k' <> k /\ raised k b0 h')
  | _ :: h' => raised k b0 h'
  end.
Definition has_bit (k : kind) (w : N) : bool := N.testbit w (match k with K_undefined => 0 | K_possibly => 1 | K_nai => 2 | K_invalid => 3 end).

Lemma kbit_pow k : kbit k = N.shiftl 1 (match k with K_undefined => 0 | K_possibly => 1 | K_nai => 2 | K_invalid => 3 end).
Proof. now destruct k. Qed.

Lemma land_bit k w : negb (N.eqb (N.land w (kbit k)) 0) = has_bit k w.
Proof.
unfold has_bit. rewrite kbit_pow. set (i := match k with K_undefined => 0%N | _ => _ end).
destruct (N.testbit w i) eqn:E.
- apply negb_true_iff, N.eqb_neq. intros H. assert (T : N.testbit (N.land w (N.shiftl 1 i)) i = true).
  { rewrite N.land_spec, E, N.shiftl_spec_high' by lia. now rewrite N.sub_diag. }
  rewrite H in T. now rewrite N.bits_0 in T.
- apply negb_false_iff, N.eqb_eq. apply N.bits_inj. intros j. rewrite N.bits_0, N.land_spec.
  rewrite N.shiftl_1_l. destruct (N.eq_dec i j) as [<-|H]; [now rewrite E|].
  rewrite N.pow2_bits_false by easy. apply andb_false_r.
Qed.
Lemma kind_dec (k k' : kind) : {k = k'} + {k <> k'}. Proof. decide equality. Qed.
Lemma lor_bit k k' w : has_bit k (N.lor w (kbit k')) = if kind_dec k' k then true else has_bit k w.
Proof.
unfold has_bit. rewrite N.lor_spec. destruct (kind_dec k' k) as [->|H].
- replace (N.testbit (kbit k) _) with true; [apply orb_true_r|now destruct k].
- replace (N.testbit (kbit k') _) with false; [apply orb_false_r|]. now destruct k, k'.
Qed.

Lemma step_signal k s : step (Signal k) s =
  ((if has_bit k (cwd s) then O_exn (kexn k) else O_word (N.lor (flags s) (kbit k))), Est (N.lor (flags s) (kbit k)) (cwd s)).
Proof.
cbn [step]. replace (ksignal k s) with (signal (kbit k) (kexn k) s) by now destruct k.
unfold signal. rewrite land_bit. now destruct (has_bit k (cwd s)).
Qed.
Lemma step_query k s : step (Query k) s = (O_bool (has_bit k (flags s)), s).
Proof.
cbn [step]. replace (kquery k s) with (test_bit (kbit k) s) by now destruct k.
unfold test_bit. cbn [obs_of]. now rewrite land_bit.
Qed.

(** The state after a history. *)
Lemma run_mask h s : cwd (snd (run_calls h s)) = last_mask (cwd s) h.
Proof.
revert s. induction h as [|c h IH]; intros s; [easy|]. cbn [run_calls].
destruct c as [k| |m| |k]; try rewrite step_signal; try rewrite step_query; cbn [step obs_of clear set_throw_exception_cwd get_throw_exception_cwd last_mask];
 match goal with |- context [run_calls h ?t] => specialize (IH t); destruct (run_calls h t) end; exact IH.
Qed.
Lemma run_flag k h s : has_bit k (flags (snd (run_calls h s))) = true <-> raised k (has_bit k (flags s)) h.
Proof.
revert s. induction h as [|c h IH]; intros s; [easy|]. cbn [run_calls].
destruct c as [k'| |m| |k']; try rewrite step_signal; try rewrite step_query; cbn [step obs_of clear set_throw_exception_cwd get_throw_exception_cwd raised];
 match goal with |- context [run_calls h ?t] => specialize (IH t); destruct (run_calls h t) end; cbn [snd flags] in *.
- rewrite IH, lor_bit. destruct (kind_dec k' k) as [E|E]; tauto.
- rewrite IH. unfold has_bit, none_bit. now rewrite N.bits_0.
- exact IH.
- exact IH.
- exact IH.
Qed.

Lemma run_app h1 h2 s :
  run_calls (h1 ++ h2) s = (let (o1, s1) := run_calls h1 s in let (o2, s2) := run_calls h2 s1 in (o1 ++ o2, s2)).
Proof.
revert s. induction h1 as [|c h1 IH]; intros s; cbn [run_calls app].
- now destruct (run_calls h2 s).
- destruct (step c s) as [o s1]. rewrite IH. destruct (run_calls h1 s1) as [o1 s2]. now destruct (run_calls h2 s2).
Qed.

(** The observation made by the call that follows history [h]. *)
Definition observe (h : list call) (c : call) : obs := fst (step c (snd (run_calls h est0))).

Lemma observe_last h c : exists os, fst (run_calls (h ++ [c]) est0) = os ++ [observe h c].
Proof.
rewrite run_app. unfold observe. destruct (run_calls h est0) as [o1 s1]. cbn [run_calls snd].
destruct (step c s1) as [o s2]. now exists o1.
Qed.

Lemma has_bit_0 k : has_bit k none_bit = false. Proof. apply N.bits_0. Qed.

Lemma observe_query h k : exists b, observe h (Query k) = O_bool b /\ (b = true <-> raised k false h).
Proof.
unfold observe. rewrite step_query. eexists. split; [reflexivity|]. rewrite run_flag. now rewrite has_bit_0.
Qed.
Lemma observe_signal_throws h k : observe h (Signal k) = O_exn (kexn k) <-> has_bit k (last_mask none_bit h) = true.
Proof.
unfold observe. rewrite step_signal. rewrite run_mask. cbn [est0 cwd fst]. destruct (has_bit k _); easy.
Qed.
Lemma observe_signal_no_other h k e : observe h (Signal k) = O_exn e -> e = kexn k.
Proof. unfold observe. rewrite step_signal. cbn [fst]. destruct has_bit; [now injection 1|discriminate]. Qed.
Lemma observe_mask h : observe h GetMask = O_word (last_mask none_bit h).
Proof. unfold observe. cbn. now rewrite run_mask. Qed.
Lemma no_other_throws h c e : observe h c = O_exn e -> exists k, c = Signal k.
Proof.
destruct c as [k| |m| |k]; [now exists k|..]; unfold observe; try rewrite step_query; discriminate.
Qed.

(** ** Threads *)
Definition own (t : tid) (h : list (tid * call)) : list call :=
  map snd (filter (fun p => tid_eqb (fst p) t) h).
Definition seen_by (t : tid) (l : list (tid * obs)) : list obs :=
  map snd (filter (fun p => tid_eqb (fst p) t) l).
(** The flags are private if each thread observes what it would observe alone. *)
Definition private_state : Prop := forall h t,
  seen_by t (run_threads h est0) = fst (run_calls (own t h) est0).

Lemma private_state_false : exists h t,
  seen_by t (run_threads h est0) <> fst (run_calls (own t h) est0).
Proof.
exists [(T2, Signal K_invalid); (T1, Query K_invalid)], T1. vm_compute. discriminate.
Qed.
(** A thread can be thrown at because of a mask set by another thread. *)
Lemma private_mask_false : exists h t e,
  In (O_exn e) (seen_by t (run_threads h est0)) /\ ~ In (O_exn e) (fst (run_calls (own t h) est0)).
Proof.
exists [(T2, SetMask 8%N); (T1, Signal K_invalid)], T1, Invalid_operand_exception. vm_compute.
split; [now left|]. intros [H|[]]. discriminate.
Qed.
(** And another thread's clear() loses a flag. *)
Lemma private_clear_false : exists h t,
  In (O_bool false) (seen_by t (run_threads h est0)) /\ ~ In (O_bool false) (fst (run_calls (own t h) est0)).
Proof.
exists [(T1, Signal K_invalid); (T2, Clear); (T1, Query K_invalid)], T1. vm_compute.
split; [right; now left|]. intros [H|[H|[]]]; discriminate.
Qed.

(** If every other thread only reads, the state is as good as private. *)
Definition reads (c : call) : bool := match c with GetMask | Query _ => true | _ => false end.
Lemma reads_step c s : reads c = true -> snd (step c s) = s.
Proof. destruct c; try easy; intros _; try rewrite step_query; easy. Qed.
Lemma private_if_read_only t h s : (forall p, In p h -> fst p <> t -> reads (snd p) = true) ->
  seen_by t (run_threads h s) = fst (run_calls (own t h) s).
Proof.
revert s. induction h as [|[t' c] h IH]; intros s H; [easy|].
cbn [run_threads]. destruct (step c s) as [o s1] eqn:E. unfold seen_by, own in *. cbn [filter map fst].
destruct (tid_eqb t' t) eqn:T.
- cbn [map snd run_calls]. rewrite E. rewrite IH by (intros; apply H; [now right|easy]).
  now destruct (run_calls _ s1).
- assert (R : reads c = true). { apply (H (t', c)); [now left|]. cbn. intros ->. now destruct t. }
  pose proof (reads_step c s R) as S. rewrite E in S. cbn in S. subst s1.
  apply IH. intros; apply H; [now right|easy].
Qed.
