(** * Model: integer power and general power (bare, same type)

    C++ side: mpfr_bin_ieee754_flavor_elem_func_impl.hpp. *)

From Coq Require Import ZArith NArith Reals Bool.
From Flocq Require Import Core.Core IEEE754.BinarySingleNaN.
From Verif Require Import Fmt Spec Exc Deco MBase MBool MArith.

Local Open Scope m_scope.

Section Pow.
Context {F : fmt}.
Implicit Types x y z : itv F.
Implicit Types a c : float F.

(** mpfr_pow_si, MPFR manual: correctly rounded [a^p]; [a^0 = 1] for every [a]; signed
    zeros and infinities follow the parity of [p]. *)
Definition mpfr_pow_si (m : mode) a (p : Z) : float F :=
  if Z.eqb p 0 then f1 else
  match a with
  | B754_nan => fnan
  | B754_zero s =>
      if Z.ltb 0 p then B754_zero (s && Z.odd p) else B754_infinity (s && Z.odd p)
  | B754_infinity s =>
      if Z.ltb 0 p then B754_infinity (s && Z.odd p) else B754_zero (s && Z.odd p)
  | B754_finite s _ _ _ => rround m (s && Z.odd p) (powerRZ (B2R a) p)
  end.

(** The C++ conditionals [p > q ? p : q] and [p < q ? p : q]. *)
Definition pick_gt a c : float F := if fgt a c then a else c.
Definition pick_lt a c : float F := if flt a c then a else c.

(** elem_func_impl.hpp:1347-1448 [pown].  [p] is a C++ int; the model takes any integer. *)
Definition pown x (p : Z) : M (itv F) :=
  mif (mnot (is_valid x) ||| is_empty x) (ret empty)
  (if Z.ltb 0 p then
     if Z.even p then
       if flt (fst x) f0 && fgt (snd x) f0
       then ret (f0, mpfr_pow_si mode_UP (pick_gt (fabs (fst x)) (snd x)) p)
       else ret (mpfr_pow_si mode_DN (pick_lt (fabs (fst x)) (fabs (snd x))) p,
                 mpfr_pow_si mode_UP (pick_gt (fabs (fst x)) (fabs (snd x))) p)
     else ret (mpfr_pow_si mode_DN (fst x) p, mpfr_pow_si mode_UP (snd x) p)
   else if Z.ltb p 0 then
     if feq (fst x) f0 && feq (snd x) f0 then ret empty else
     if Z.even p then
       if flt (fst x) f0 && fgt (snd x) f0
       then ret (mpfr_pow_si mode_DN (pick_gt (fabs (fst x)) (snd x)) p, finf)
       else ret (mpfr_pow_si mode_DN (pick_gt (fabs (fst x)) (fabs (snd x))) p,
                 mpfr_pow_si mode_UP (pick_lt (fabs (fst x)) (fabs (snd x))) p)
     else
       if flt (fst x) f0 && fgt (snd x) f0 then ret entire else
       if feq (fst x) f0 then ret (mpfr_pow_si mode_DN (snd x) p, finf) else
       if feq (snd x) f0 then ret (fminf, mpfr_pow_si mode_UP (fst x) p) else
       ret (mpfr_pow_si mode_DN (snd x) p, mpfr_pow_si mode_UP (fst x) p)
   else ret (f1, f1)).

(** mpfr_pow, MPFR manual, for a base that is not negative (the only use): correctly
    rounded [a^c]; [pow(a,0) = 1] and [pow(1,c) = 1] for every other argument. *)
Definition mpfr_pow (m : mode) a c : float F :=
  if feq c f0 then f1 else if feq a f1 then f1 else
  match a, c with
  | B754_nan, _ | _, B754_nan => fnan
  | B754_zero _, _ => if fgt c f0 then f0 else finf
  | B754_infinity false, _ => if fgt c f0 then finf else f0
  | B754_finite false _ _ _, B754_infinity s =>
      if Bool.eqb s (flt a f1) then finf else f0
  | B754_finite false _ _ _, _ => rround m false (Rpower (B2R a) (B2R c))
  | _, _ => fnan (* negative base: not reached *)
  end.
(** elem_func_impl.hpp:1528-1639 [pow]. *)
Definition pow x y : M (itv F) :=
  mif (mnot (is_valid x) ||| mnot (is_valid y) ||| is_empty y) (ret empty)
  (xx <- intersection x (f0, finf);
   mif (is_empty xx) (ret xx)
   (if feq (snd xx) f0 then
      if fle (snd y) f0 then ret empty else ret (f0, f0)
    else
    let xl := if feq (fst xx) fm0 then f0 else fst xx in
    let xu := snd xx in let yl := fst y in let yu := snd y in
    let D a c := mpfr_pow mode_DN a c in
    let U a c := mpfr_pow mode_UP a c in
    if fle f0 yl then
      if fle xu f1 then ret (D xl yu, U xu yl)
      else if fle f1 (fst xx) then ret (D xl yl, U xu yu)
      else ret (D xl yu, U xu yu)
    else if fle yu f0 then
      if fle xu f1 then ret (D xu yu, U xl yl)
      else if fle f1 (fst xx) then ret (D xu yl, U xl yu)
      else ret (D xu yl, U xl yl)
    else
      if fle xu f1 then ret (D xl yu, U xl yl)
      else if fle f1 (fst xx) then ret (D xu yl, U xu yu)
      else ret (mpfr_min (D xu yl) (D xl yu), mpfr_max (U xu yu) (U xl yl)))).

End Pow.
