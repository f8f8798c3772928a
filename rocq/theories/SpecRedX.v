(** * Specification: terms kept in the exponent range of the element type *)
From Coq Require Import ZArith Reals Bool List.
From Flocq Require Import Core.Core IEEE754.BinarySingleNaN.
From Verif Require Import Fmt SpecRed.
Local Open Scope R_scope.

(** The least positive number of the format. *)
Definition least (F : fmt) : R := bpow radix2 (3 - emax F - prec F).
(** A term too large becomes an infinity; one below the least positive number becomes zero or, if it is
    above the half of it, the least number of its sign; every other one stays as it is. *)
Inductive limited (F : fmt) : xreal -> xreal -> Prop :=
  | lim_undefined : limited F Undefined Undefined
  | lim_infinite s : limited F (Infinite s) (Infinite s)
  | lim_same r : least F <= Rabs r < bpow radix2 (emax F) -> limited F (Real r) (Real r)
  | lim_above r : bpow radix2 (emax F) <= r -> limited F (Real r) (Infinite false)
  | lim_below r : r <= - bpow radix2 (emax F) -> limited F (Real r) (Infinite true)
  | lim_small r : Rabs r <= least F / 2 -> limited F (Real r) (Real 0)
  | lim_least r : least F / 2 < r < least F -> limited F (Real r) (Real (least F))
  | lim_least_neg r : - least F < r < - (least F / 2) -> limited F (Real r) (Real (- least F)).
