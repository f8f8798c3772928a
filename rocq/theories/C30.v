(** * C30: exception flags are sticky, exceptions are thrown exactly when enabled *)
From Coq Require Import NArith Bool List.
From Verif Require Import Exc MHist PHist.
Import ListNotations.

(** A query answers true exactly when the kind was signalled since the last clear. *)
Theorem C30_flags_sticky : forall (h : list call) (k : kind),
  exists b, observe h (Query k) = O_bool b /\ (b = true <-> raised k false h).
Proof. exact observe_query. Qed.
Print Assumptions C30_flags_sticky.

(** A signal throws exactly when the mask in force has its bit, and only its own class. *)
Theorem C30_throws_iff_enabled : forall (h : list call) (k : kind),
  observe h (Signal k) = O_exn (kexn k) <-> has_bit k (last_mask none_bit h) = true.
Proof. exact observe_signal_throws. Qed.
Print Assumptions C30_throws_iff_enabled.
Theorem C30_throws_own_class : forall (h : list call) (k : kind) (e : exn),
  observe h (Signal k) = O_exn e -> e = kexn k.
Proof. exact observe_signal_no_other. Qed.
Theorem C30_nothing_else_throws : forall (h : list call) (c : call) (e : exn),
  observe h c = O_exn e -> exists k, c = Signal k.
Proof. exact no_other_throws. Qed.

(** The mask is the last one set, whatever else was called. *)
Theorem C30_mask_only_by_setter : forall (h : list call),
  observe h GetMask = O_word (last_mask none_bit h).
Proof. exact observe_mask. Qed.
Print Assumptions C30_mask_only_by_setter.

(** Signalling from any state sets its flag and leaves the others and the mask. *)
Theorem C30_signal_sets_one_flag : forall (k k' : kind) (s : est),
  has_bit k' (flags (snd (step (Signal k) s))) = (if kind_dec k k' then true else has_bit k' (flags s))
  /\ cwd (snd (step (Signal k) s)) = cwd s.
Proof. intros k k' s. rewrite step_signal. split; [apply lor_bit|reflexivity]. Qed.

Example C30_ex :
  fst (run_calls [Signal K_nai; Query K_nai; Query K_invalid; SetMask 5%N; Signal K_invalid; Signal K_undefined; Query K_undefined; Clear; Query K_nai; GetMask] est0)
  = [O_word 4%N; O_bool true; O_bool false; O_word 5%N; O_word 12%N; O_exn Undefined_operation_exception; O_bool true; O_word 0%N; O_bool false; O_word 5%N].
Proof. vm_compute. reflexivity. Qed.
