(** * Model: two-argument arctangent (bare, same type)

    C++ side: mpfr_bin_ieee754_flavor_elem_func_impl.hpp. *)

From Coq Require Import ZArith NArith Reals Bool.
From Flocq Require Import Core.Core IEEE754.BinarySingleNaN.
From Verif Require Import Fmt Spec Exc Deco SpecElem SpecAtan2 MBase MBool MTrig.

Local Open Scope m_scope.

Section Atan2.
Context {F : fmt}.
Implicit Types x y z : itv F.
Implicit Types a b : float F.

(** [mpfr_atan2(rop, a, b, m)] with the special values of the MPFR manual. *)
Definition signedR (s : bool) (r : R) : R := if s then (- r)%R else r.
Definition mpfr_atan2 (m : mode) a b : float F :=
  match a, b with
  | B754_nan, _ | _, B754_nan => fnan
  | B754_zero s, (B754_zero false | B754_infinity false | B754_finite false _ _ _) => B754_zero s
  | B754_zero s, _ => rround m s (signedR s PI)
  | B754_infinity s, B754_infinity false => rround m s (signedR s (PI / 4))
  | B754_infinity s, B754_infinity true => rround m s (signedR s (3 * PI / 4))
  | B754_infinity s, _ => rround m s (signedR s (PI / 2))
  | B754_finite s _ _ _, B754_infinity true => rround m s (signedR s PI)
  | B754_finite s _ _ _, B754_infinity false => B754_zero s
  | B754_finite s _ _ _, _ => rround m s (ratan2 (B2R a) (B2R b))
  end.

(** elem_func_impl.hpp:2997-3122 [atan2]. *)
Definition atan2_itv y x : M (itv F) :=
  mif (mnot (is_valid y) ||| mnot (is_valid x) ||| is_empty y ||| is_empty x
       ||| ret (feq (fst y) f0 && feq (snd y) f0 && feq (fst x) f0 && feq (snd x) f0)) (ret empty)
  (let yl := fst y in let yu := snd y in let xl := fst x in let xu := snd x in
   let D a b := mpfr_atan2 mode_DN a b in
   let U a b := mpfr_atan2 mode_UP a b in
   let piu := mpfr_const_pi mode_UP in
   let pid := mpfr_const_pi mode_DN in
   ret
   (if fge yl f0 && fgt yu f0 then
      if feq xl f0 && feq xu f0 then (D yu xl, U yu xl)
      else if fge xl f0 then (D yl xu, U yu xl)
      else if fle xu f0 then (D yu xu, if feq yl f0 then piu else U yl xl)
      else if feq yl f0 then (f0, piu)
      else (D yl xu, U yl xl)
    else if flt yl f0 && fle yu f0 then
      if feq xl f0 && feq xu f0 then (D yl xl, U yl xl)
      else if fge xl f0 then (D yl xl, U yu xu)
      else if fle xu f0 then
        if feq yu f0 then (fneg piu, piu) else (D yu xl, U yl xu)
      else if feq yu f0 then (fneg piu, piu)
      else (D yu xl, U yu xu)
    else if feq yl f0 && feq yu f0 then
      if fge xl f0 then (f0, f0)
      else if fle xu f0 then (pid, piu)
      else (f0, piu)
    else
      if fge xl f0 then (D yl xl, U yu xl)
      else (fneg piu, piu))).

End Atan2.
