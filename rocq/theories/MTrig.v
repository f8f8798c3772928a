(** * Model: sine, cosine and tangent (bare, same type)

    C++ side: mpfr_bin_ieee754_flavor_elem_func_impl.hpp. *)

From Coq Require Import ZArith NArith Reals Bool.
From Flocq Require Import Core.Core IEEE754.BinarySingleNaN.
From Verif Require Import Fmt Spec Exc Deco SpecElem MBase MBool.

Local Open Scope m_scope.

Section Trig.
Context {F : fmt}.
Implicit Types x y z : itv F.
Implicit Types a : float F.

(** ** MPFR functions, with the special values of the MPFR manual *)
(** NaN at the infinities; the sign of an exact zero is that of the argument. *)
Definition mpfr_sin (m : mode) a : float F :=
  if is_finite a then rround m (Bsign a) (sin (B2R a)) else fnan.
Definition mpfr_cos (m : mode) a : float F :=
  if is_finite a then rround m false (cos (B2R a)) else fnan.
Definition mpfr_tan (m : mode) a : float F :=
  if is_finite a then rround m (Bsign a) (tan (B2R a)) else fnan.
Definition mpfr_const_pi (m : mode) : float F := rround m false PI.
(** [mpfr_mul_si(pi2, pi, 2, MPFR_RNDD)] for finite [pi]. *)
Definition mpfr_twice (m : mode) a : float F := rround m (Bsign a) (2 * B2R a).
(** [mpfr_sgn]: 0 for NaN (which also sets MPFR's erange flag, not modelled). *)
Definition mpfr_sgn a : Z :=
  match a with
  | B754_nan => 0
  | B754_zero _ => 0
  | B754_infinity s => if s then -1 else 1
  | B754_finite s _ _ _ => if s then -1 else 1
  end.
(** [mpfr_cmp(a, b) > 0]: 0 if an operand is NaN. *)
Definition mpfr_greater a b : bool := fgt a b.

(** Common text of [sin] and [cos]: [ev] is the function, [df_lower] and
    [df_upper] the signs of its derivative at the endpoints.
    elem_func_impl.hpp:2310-2362 and 2469-2521.
    [w] and the constants are not subnormalised in the C++ (lines 2294, 2298,
    2325); a difference of two numbers of the format that is below the normal
    range is exact, so this makes no difference. *)
Definition trig_core (ev : mode -> float F -> float F) (df_lower df_upper : Z) (xl xu : float F) : itv F :=
  let pi := mpfr_const_pi mode_DN in
  let w := rsub mode_UP xu xl in
  let tail := (fmin (ev mode_DN xl) (ev mode_DN xu), fmax (ev mode_UP xl) (ev mode_UP xu)) in
  if negb (Z.eqb df_lower df_upper) then
    if Z.eqb df_lower 0 then
      if mpfr_greater w pi then (fm1, f1) else tail
    else if Z.eqb df_upper 0 then
      if mpfr_greater w pi then (fm1, f1) else tail
    else
      let pi2 := mpfr_twice mode_DN pi in
      if mpfr_greater w pi2 then (fm1, f1)
      else if Z.ltb 0 df_lower then (fmin (ev mode_DN xl) (ev mode_DN xu), f1)
      else (fm1, fmax (ev mode_UP xl) (ev mode_UP xu))
  else if mpfr_greater w pi then (fm1, f1)
  else tail.

(** elem_func_impl.hpp:2278-2363 [sin]. *)
Definition sin_itv x : M (itv F) :=
  mif (mnot (is_valid x) ||| is_empty x) (ret empty)
  (let df_lower := mpfr_sgn (mpfr_cos mode_DN (fst x)) in
   let df_upper := mpfr_sgn (mpfr_cos mode_UP (snd x)) in
   ret (trig_core mpfr_sin df_lower df_upper (fst x) (snd x))).

(** elem_func_impl.hpp:2438-2522 [cos]. *)
Definition cos_itv x : M (itv F) :=
  mif (mnot (is_valid x) ||| is_empty x) (ret empty)
  (let df_lower := mpfr_sgn (fneg (mpfr_sin mode_DN (fst x))) in
   let df_upper := mpfr_sgn (fneg (mpfr_sin mode_UP (snd x))) in
   ret (trig_core mpfr_cos df_lower df_upper (fst x) (snd x))).

(** elem_func_impl.hpp:2597-2623 [tan]. *)
Definition tan_itv x : M (itv F) :=
  mif (mnot (is_valid x) ||| is_empty x) (ret empty)
  (let pi := mpfr_const_pi mode_DN in
   let w := rsub mode_UP (snd x) (fst x) in
   if mpfr_greater w pi then ret entire
   else
     let tl := mpfr_tan mode_DN (fst x) in
     let tu := mpfr_tan mode_UP (snd x) in
     if mpfr_greater tl tu then ret entire else ret (tl, tu)).

End Trig.
