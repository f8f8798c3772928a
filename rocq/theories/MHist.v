(** * Model: histories of calls into exception.hpp

    A client (one or several threads) issues a sequence of calls of the functions
    of p1788/exception/exception.hpp:100-294; thrown exceptions are caught by the
    client.  [cwd()] (100-106) and [state()] (183-189) are functions with a plain
    [static] local object, so all threads use one and the same [est]. *)

From Coq Require Import NArith Bool List.
From Verif Require Import Exc.
Import ListNotations.

(** The four exception kinds, their bits and exception classes (44-51, 129-178). *)
Inductive kind : Type := K_undefined | K_possibly | K_nai | K_invalid.
Definition kbit (k : kind) : N :=
  match k with
  | K_undefined => undefined_operation_bit
  | K_possibly => possibly_undefined_operation_bit
  | K_nai => interval_part_of_nai_bit
  | K_invalid => invalid_operand_bit
  end.
Definition kexn (k : kind) : exn :=
  match k with
  | K_undefined => Undefined_operation_exception
  | K_possibly => Possibly_undefined_operation_exception
  | K_nai => Interval_part_of_nai_exception
  | K_invalid => Invalid_operand_exception
  end.
Definition ksignal (k : kind) : M N :=
  match k with
  | K_undefined => signal_undefined_operation
  | K_possibly => signal_possibly_undefined_operation
  | K_nai => signal_interval_part_of_nai
  | K_invalid => signal_invalid_operand
  end.
Definition kquery (k : kind) : M bool :=
  match k with
  | K_undefined => undefined_operation
  | K_possibly => possibly_undefined_operation
  | K_nai => interval_part_of_nai
  | K_invalid => invalid_operand
  end.

Inductive call : Type :=
| Signal (k : kind)
| Clear
| SetMask (c : N)
| GetMask
| Query (k : kind).

(** What a call lets the caller observe. *)
Inductive obs : Type :=
| O_word (w : N)        (* a returned control word or state *)
| O_bool (b : bool)     (* a query result *)
| O_exn (e : exn)       (* a caught exception *)
| O_ub.

Definition obs_of {A} (f : A -> obs) (r : outcome A * est) : obs * est :=
  match r with
  | (Ret a, s) => (f a, s) | (Throw e, s) => (O_exn e, s) | (UB, s) => (O_ub, s)
  end.
Definition step (c : call) (s : est) : obs * est :=
  match c with
  | Signal k => obs_of O_word (ksignal k s)
  | Clear => obs_of O_word (clear s)
  | SetMask m => obs_of O_word (set_throw_exception_cwd m s)
  | GetMask => obs_of O_word (get_throw_exception_cwd s)
  | Query k => obs_of O_bool (kquery k s)
  end.
Fixpoint run_calls (h : list call) (s : est) : list obs * est :=
  match h with
  | [] => ([], s)
  | c :: h' => let (o, s1) := step c s in let (os, s2) := run_calls h' s1 in (o :: os, s2)
  end.

(** Program start: both static objects are [none_bit] (103, 186). *)
Definition est0 : est := Est none_bit none_bit.

(** Two threads: every call is tagged with its thread; all act on the same static
    objects.  The result lists each call's observation with its thread. *)
Inductive tid : Type := T1 | T2.
Definition tid_eqb (a b : tid) : bool := match a, b with T1, T1 | T2, T2 => true | _, _ => false end.
Fixpoint run_threads (h : list (tid * call)) (s : est) : list (tid * obs) :=
  match h with
  | [] => []
  | (t, c) :: h' => let (o, s1) := step c s in (t, o) :: run_threads h' s1
  end.
