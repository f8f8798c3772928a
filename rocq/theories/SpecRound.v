(** * IEEE 754 rounding of a real number: specification *)
From Coq Require Import ZArith Reals.
From Flocq Require Import Core.Core IEEE754.BinarySingleNaN.
From Verif Require Import Fmt.
Local Open Scope R_scope.

(** The largest finite number of a format. *)
Definition largest (F : fmt) : R := bpow radix2 (emax F) - bpow radix2 (emax F - prec F).

(** [z] is [r] rounded once in direction [m] (to nearest: ties to even): first as if the
    exponent were not bounded above, then overflow is treated by the rule of IEEE 754, 7.4.
    Signs of zeros are not specified. *)
Definition rounded {F : fmt} (m : mode) (r : R) (z : float F) : Prop :=
  let y := round radix2 (FLT_exp (3 - emax F - prec F) (prec F)) (round_mode m) r in
  (Rabs y < bpow radix2 (emax F) -> is_finite z = true /\ B2R z = y) /\
  (bpow radix2 (emax F) <= Rabs y ->
    let max_of := is_finite z = true /\ B2R z = (if Rlt_bool r 0 then - largest F else largest F) in
    match m with
    | mode_NE | mode_NA => z = B754_infinity (Rlt_bool r 0)
    | mode_ZR => max_of
    | mode_DN => if Rlt_bool r 0 then z = B754_infinity true else max_of
    | mode_UP => if Rlt_bool r 0 then max_of else z = B754_infinity false
    end).

(** The same number, up to the sign of zero. *)
Definition same_number {F : fmt} (y z : float F) : Prop :=
  y = z \/ (is_finite y = true /\ is_finite z = true /\ B2R y = 0 /\ B2R z = 0).
