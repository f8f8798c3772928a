(** * Arguments of the tangent whose width is recognisably below or above pi *)
From Coq Require Import ZArith Reals.
From Flocq Require Import Core.Core IEEE754.BinarySingleNaN.
From Verif Require Import Fmt Spec.
Local Open Scope R_scope.

(** The width, if finite, is less than pi by about half a unit in the last place of pi in the format
    [G], or it exceeds every number of [G] below pi. *)
Definition off_pi (G : fmt) {F : fmt} (x : itv F) : Prop := bounded_rep x ->
  let w := B2R (snd x) - B2R (fst x) in
  let d := bpow radix2 (1 - prec G) in
  w + (d + d * d) <= PI \/ forall p : float G, is_finite p = true -> B2R p <= PI -> B2R p < w.
(** The width is not 884279719003555 / 2^48, the largest number of binary64 below pi. *)
Definition width_not_pi64 {F : fmt} (x : itv F) : Prop := bounded_rep x ->
  B2R (snd x) - B2R (fst x) <> 884279719003555 / 281474976710656.
