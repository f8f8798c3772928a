(** * Exception state, throw mask and the monad of the library's functions

    C++ side: p1788/exception/exception.hpp. *)

From Coq Require Import NArith Bool.

(** exception.hpp:44-51, [enum exception_bits]; the enum is an int used as a
    bit set, represented by [N]. *)
Definition none_bit : N := 0.
Definition undefined_operation_bit : N := 1.
Definition possibly_undefined_operation_bit : N := 2.
Definition interval_part_of_nai_bit : N := 4.
Definition invalid_operand_bit : N := 8.

(** exception.hpp:129-178, the exception classes. *)
Inductive exn : Type :=
| Undefined_operation_exception
| Possibly_undefined_operation_exception
| Interval_part_of_nai_exception
| Invalid_operand_exception
(** std::out_of_range, thrown by std::stoi, std::stoll and operations on std::string. *)
| Out_of_range
(** std::invalid_argument, thrown by std::stoi and std::stoll. *)
| Invalid_argument.

(** exception.hpp:100-106 [cwd()] and 183-189 [state()]: two static objects. *)
Record est : Type := Est { flags : N; cwd : N }.

(** What a call can do: return a value, leave by a C++ exception, or run into
    undefined behaviour. *)
Inductive outcome (A : Type) : Type :=
| Ret (a : A)
| Throw (e : exn)
| UB.
Arguments Ret {A} a. Arguments Throw {A} e. Arguments UB {A}.

Definition M (A : Type) : Type := est -> outcome A * est.

Definition ret {A} (a : A) : M A := fun s => (Ret a, s).
Definition bind {A B} (m : M A) (k : A -> M B) : M B := fun s =>
  match m s with
  | (Ret a, s') => k a s'
  | (Throw e, s') => (Throw e, s')
  | (UB, s') => (UB, s')
  end.
Definition undef {A} : M A := fun s => (UB, s).

Declare Scope m_scope.
Delimit Scope m_scope with M.
Notation "x <- m ; k" := (bind m (fun x => k))
  (at level 61, m at next level, right associativity) : m_scope.
Notation "m ;; k" := (bind m (fun _ => k)) (at level 61, right associativity) : m_scope.
Local Open Scope m_scope.

(** C++ short-circuit operators on computations. *)
Definition mor (a b : M bool) : M bool := v <- a; if v then ret true else b.
Definition mand (a b : M bool) : M bool := v <- a; if v then b else ret false.
Definition mnot (a : M bool) : M bool := v <- a; ret (negb v).
Infix "|||" := mor (at level 50, left associativity) : m_scope.
Infix "&&&" := mand (at level 40, left associativity) : m_scope.
Definition mif {A} (c : M bool) (t e : M A) : M A := v <- c; if v then t else e.

(** exception.hpp:114-125 [set_throw_exception_cwd], [get_throw_exception_cwd]. *)
Definition set_throw_exception_cwd (c : N) : M N := fun s => (Ret c, Est (flags s) c).
Definition get_throw_exception_cwd : M N := fun s => (Ret (cwd s), s).

(** exception.hpp:195-198 [clear]. *)
Definition clear : M N := fun s => (Ret none_bit, Est none_bit (cwd s)).

Definition test_bit (b : N) : M bool := fun s => (Ret (negb (N.eqb (N.land (flags s) b) 0)), s).
(** exception.hpp:203-230, the four queries. *)
Definition undefined_operation := test_bit undefined_operation_bit.
Definition possibly_undefined_operation := test_bit possibly_undefined_operation_bit.
Definition interval_part_of_nai := test_bit interval_part_of_nai_bit.
Definition invalid_operand := test_bit invalid_operand_bit.

(** exception.hpp:237-294, the four [signal_*] functions: set the flag, throw if
    the mask has the bit, otherwise return the state. *)
Definition signal (b : N) (e : exn) : M N := fun s =>
  let s' := Est (N.lor (flags s) b) (cwd s) in
  if negb (N.eqb (N.land (cwd s) b) 0) then (Throw e, s') else (Ret (flags s'), s').
Definition signal_undefined_operation := signal undefined_operation_bit Undefined_operation_exception.
Definition signal_possibly_undefined_operation :=
  signal possibly_undefined_operation_bit Possibly_undefined_operation_exception.
Definition signal_interval_part_of_nai :=
  signal interval_part_of_nai_bit Interval_part_of_nai_exception.
Definition signal_invalid_operand := signal invalid_operand_bit Invalid_operand_exception.
