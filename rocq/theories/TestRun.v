(** * Running the checks of the repository's unit tests on the model

    C++ side: the macros of Boost.Test used in
    /repo/test/p1788/flavor/infsup/setbased/test_mpfr_bin_ieee754_flavor_*.cpp.  A test case is the
    list of its checks; each check is run from the exception state the previous one left. *)

From Coq Require Import NArith Bool List.
From Flocq Require Import IEEE754.BinarySingleNaN.
From Verif Require Import Fmt Spec Exc Deco MBase.
Import ListNotations.
Local Open Scope N_scope.

(** p1788::exception::state, clear and set_throw_exception_cwd (exception.hpp:114-198) as checks
    that always hold. *)
Definition get_flags : M N := fun s => (Ret (flags s), s).
Definition get_flag (b : N) : M bool := test_bit b.
Definition clear_flags : M bool := bind clear (fun _ => ret true).
Definition set_cwd (c : N) : M bool := bind (set_throw_exception_cwd c) (fun _ => ret true).

(** std::signbit. *)
Definition fsign {F} (x : float F) : bool := Bsign x.

(** operator== of std::pair: the numbers are compared as numbers, so a NaN differs from itself and
    the two zeros are equal. *)
Definition ieq {F} (x y : itv F) : bool := feq (fst x) (fst y) && feq (snd x) (snd y).
Definition dieq {F} (x y : ditv F) : bool := ieq (fst x) (fst y) && (snd x =? snd y).

Definition exn_eqb (a b : exn) : bool :=
  match a, b with
  | Undefined_operation_exception, Undefined_operation_exception
  | Possibly_undefined_operation_exception, Possibly_undefined_operation_exception
  | Interval_part_of_nai_exception, Interval_part_of_nai_exception
  | Invalid_operand_exception, Invalid_operand_exception => true
  | _, _ => false
  end.

(** BOOST_CHECK_THROW. *)
Definition throws {A} (m : M A) (x : exn) : M bool := fun s =>
  match m s with
  | (Throw y, s') => (Ret (exn_eqb x y), s')
  | (_, s') => (Ret false, s')
  end.

(** The lines of the checks that do not hold, in order, and the exception state at the end.  The
    state is static data of the process, so it passes from one test case to the next. *)
Fixpoint failing (s : est) (l : list (N * M bool)) : list N * est :=
  match l with
  | [] => ([], s)
  | (n, c) :: l' =>
    match c s with
    | (Ret true, s') => failing s' l'
    | (_, s') => let (ns, e) := failing s' l' in (n :: ns, e)
    end
  end.
Fixpoint failing_cases (s : est) (l : list (list (N * M bool))) : list N :=
  match l with
  | [] => []
  | c :: l' => let (ns, s') := failing s c in ns ++ failing_cases s' l'
  end.

(** A whole test file, started in the state of a new process (exception.hpp:100-106, 183-189). *)
Definition test_file (l : list (list (N * M bool))) : list N := failing_cases (Est none_bit none_bit) l.
