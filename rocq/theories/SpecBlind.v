(** * Specification: where the comparison of widths by error-free sums is blind *)
From Coq Require Import ZArith Reals.
From Flocq Require Import Core.Core IEEE754.BinarySingleNaN.
From Verif Require Import Fmt Spec MMixed PConv.
Local Open Scope R_scope.

(** The first number is the largest of the format or its negative, the second 2k + 3/2 of its last
    places the other way: the sums without a finite error term (C40). *)
Definition lost (F : fmt) (a b : R) : Prop :=
  exists k, (0 <= k /\ 2 * k + 2 < 2 ^ (prec F - 1))%Z /\
    (a = B2R (@fmaxv F) /\ b = - (2 * IZR k + 3 / 2) * bpow radix2 (emax F - prec F) \/
     a = - B2R (@fmaxv F) /\ b = (2 * IZR k + 3 / 2) * bpow radix2 (emax F - prec F)).

(** The operands [xl, xu] and [yl, yu] for which the two compared sums agree after rounding and the error term of
    one of them is lost: the widths if the operands do not overlap, else the distances of the bounds.
    [W] is the format of the sums. *)
Definition blind (W : fmt) {F G : fmt} (x : itv F) (y : itv G) : Prop :=
  let RN := round radix2 (fexp W) ZnearestE in
  let xl := B2R (fst x) in let xu := B2R (snd x) in let yl := B2R (fst y) in let yu := B2R (snd y) in
  (xu <= yl \/ yu <= xl) /\ RN (xu - xl) = RN (yu - yl) /\ (lost W xu (- xl) \/ lost W yu (- yl)) \/
  (xl < yl < xu /\ xu < yu \/ yl < xl < yu /\ yu < xu) /\ RN (yl - xl) = RN (yu - xu) /\ (lost W yl (- xl) \/ lost W yu (- xu)).

(** Operands of a cancellative operation with result type [T] for which its test of the widths is
    exact: types as float, double and long double, and the operands are not blind, neither as they
    are nor with the second one negated and converted to [T]. *)
Definition clear (T F G : fmt) (x : itv F) (y : itv G) : Prop :=
  comparable T F /\ comparable T G /\ comparable F G /\ ~ blind (pmax (pmax T F) G) x y /\
  forall z : itv T, tightest (fun r => mem (- r) y) z -> ~ blind (pmax T F) x z.
