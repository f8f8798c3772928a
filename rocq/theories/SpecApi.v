(** * Specification vocabulary for exceptions and decorations *)

From Coq Require Import NArith Reals Bool.
From Flocq Require Import Core.Core IEEE754.BinarySingleNaN.
From Verif Require Import Fmt Spec Exc Deco.

(** Setting a flag; is the exception enabled in the throw mask? *)
Definition set_flag (b : N) (s : est) : est := Est (N.lor (flags s) b) (cwd s).
Definition masked (b : N) (s : est) : bool := negb (N.eqb (N.land (cwd s) b) 0).
(** [reports b e m a]: [m] sets flag [b], then throws [e] if enabled, else returns [a]. *)
Definition reports {A} (b : N) (e : exn) (m : M A) (a : A) : Prop :=
  forall s, m s = ((if masked b s then Throw e else Ret a), set_flag b s).
Definition reports_invalid {A} := @reports A invalid_operand_bit Invalid_operand_exception.
Definition reports_undefined {A} := @reports A undefined_operation_bit Undefined_operation_exception.

(** What a valid decorated representation is. *)
Definition wf_dec {F} (x : ditv F) : Prop :=
  (fst x = empty_rep /\ (snd x = ill \/ snd x = trv)) \/
  ((exists r, mem r (fst x)) /\ snd x <> ill /\ (snd x = com -> bounded_rep (fst x))).


(** [m] returns [a], raises nothing and leaves the exception state alone. *)
Definition returns {A} (m : M A) (a : A) : Prop := forall s, m s = (Ret a, s).
(** [m] is such a computation and its interval result is the tightest around [S]. *)
Definition computes_tightest {F} (m : M (itv F)) (S : R -> Prop) : Prop :=
  exists z, returns m z /\ tightest S z.
Definition computes_enclosure {F} (m : M (itv F)) (S : R -> Prop) : Prop :=
  exists z, returns m z /\ wf z /\ encloses S z.
(** [m] is such a computation with a Boolean result that decides [P]. *)
Definition decides (m : M bool) (P : Prop) : Prop :=
  exists b, returns m b /\ (b = true <-> P).
