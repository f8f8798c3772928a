(** * C31: exception state is private to a thread (refuted)

    exception.hpp documents thread-local flags; the objects are plain statics. *)
From Coq Require Import NArith Bool List.
From Verif Require Import Exc MHist PHist.
Import ListNotations.

(** The full statement is [private_state]; it fails. *)
Theorem C31_state_private_refuted : exists (h : list (tid * call)) (t : tid),
  seen_by t (run_threads h est0) <> fst (run_calls (own t h) est0).
Proof. exact private_state_false. Qed.
Print Assumptions C31_state_private_refuted.

(** A mask set by one thread makes another thread's operation throw. *)
Theorem C31_mask_private_refuted : exists (h : list (tid * call)) (t : tid) (e : exn),
  In (O_exn e) (seen_by t (run_threads h est0)) /\ ~ In (O_exn e) (fst (run_calls (own t h) est0)).
Proof. exact private_mask_false. Qed.
Print Assumptions C31_mask_private_refuted.

(** A clear() of one thread loses a flag of another. *)
Theorem C31_clear_private_refuted : exists (h : list (tid * call)) (t : tid),
  In (O_bool false) (seen_by t (run_threads h est0)) /\ ~ In (O_bool false) (fst (run_calls (own t h) est0)).
Proof. exact private_clear_false. Qed.

(** What does hold: a thread is undisturbed if the others only read.  Missing from
    the full statement: other threads that signal, clear or set the mask. *)
Theorem C31_state_private_partial : forall (t : tid) (h : list (tid * call)) (s : est),
  (forall p, In p h -> fst p <> t -> reads (snd p) = true) ->
  seen_by t (run_threads h s) = fst (run_calls (own t h) s).
Proof. exact private_if_read_only. Qed.
Print Assumptions C31_state_private_partial.

(** A history with a single thread is consistent with the sequential semantics. *)
Example C31_ex_reader : forall p, In p [(T1, Signal K_invalid); (T2, Query K_invalid)] -> fst p <> T1 -> reads (snd p) = true.
Proof. intros p [<-|[<-|[]]]; easy. Qed.
Example C31_ex : seen_by T1 (run_threads [(T1, Signal K_invalid); (T1, Query K_invalid)] est0)
  = fst (run_calls [Signal K_invalid; Query K_invalid] est0).
Proof. vm_compute. reflexivity. Qed.
