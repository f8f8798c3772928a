(** * Specification: directions of rounding *)
From Flocq Require Import IEEE754.BinarySingleNaN.
From Verif Require Import MRed.
(** The rounding of IEEE 754 that a constant of [rnd_mode] names. *)
Definition direction (r : rnd_mode) : mode :=
  match r with downward => mode_DN | upward => mode_UP | to_nearest => mode_NE | to_zero => mode_ZR end.
(** The direction seen from below. *)
Definition opposite (r : rnd_mode) : rnd_mode :=
  match r with downward => upward | upward => downward | r => r end.
