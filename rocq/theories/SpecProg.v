(** * Specification: what every value a call delivers has to satisfy *)
From Coq Require Import NArith Reals.
From Verif Require Import Fmt Spec Exc Deco SpecApi SpecDeco SpecCancel PConv.

(** Whenever [m] returns at all, in whatever state it is started, the value satisfies [P].
    (It may throw, or run into undefined behaviour; those are the subject of other claims.) *)
Definition delivers {A} (m : M A) (P : A -> Prop) : Prop :=
  forall s a s', m s = (Ret a, s') -> P a.
(** A proper decorated interval: a valid representation with one of the five decorations. *)
Definition valid_dec {F} (x : ditv F) : Prop := wf_dec x /\ is_deco (snd x).
(** Operands of a cancellative operation with result type [T] for which its test of the
    widths is exact: types as float, double and long double, no bound is the largest finite
    number of its type, and none becomes the largest finite number of [T] when the second
    operand is converted. *)
Definition tame (T F G : fmt) (x : itv F) (y : itv G) : Prop :=
  comparable T F /\ comparable T G /\ comparable F G /\
  not_max (snd x) /\ not_max (fst y) /\ not_max (snd y) /\
  forall z : itv T, tightest (fun r => mem r y) z -> not_max (fst z) /\ not_max (snd z).
(** No restriction. *)
Definition anything (T F G : fmt) (x : itv F) (y : itv G) : Prop := True.
