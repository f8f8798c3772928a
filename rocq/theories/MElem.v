(** * Model: exponential, logarithmic, inverse trigonometric, hyperbolic and step
      functions (bare, same type)

    C++ side: mpfr_bin_ieee754_flavor_elem_func_impl.hpp. *)

From Coq Require Import ZArith NArith Reals Bool Ratan.
From Flocq Require Import Core.Core IEEE754.BinarySingleNaN.
From Verif Require Import Fmt Spec Exc Deco SpecElem MBase MBool.

Local Open Scope m_scope.

Section Elem.
Context {F : fmt}.
Implicit Types x y z : itv F.
Implicit Types a : float F.

(** ** MPFR functions: the correctly rounded real function, with the special
    values of the MPFR manual. *)
Definition mpfr_exp_like (f : R -> R) (m : mode) a : float F :=
  match a with
  | B754_nan => fnan
  | B754_infinity true => f0
  | B754_infinity false => finf
  | _ => rround m false (f (B2R a))
  end.
Definition mpfr_exp := mpfr_exp_like exp.
Definition mpfr_exp2 := mpfr_exp_like exp2R.
Definition mpfr_exp10 := mpfr_exp_like exp10R.

Definition mpfr_log_like (f : R -> R) (m : mode) a : float F :=
  match a with
  | B754_nan => fnan
  | B754_infinity true => fnan
  | B754_infinity false => finf
  | B754_zero _ => fminf
  | B754_finite true _ _ _ => fnan
  | B754_finite false _ _ _ => rround m false (f (B2R a))
  end.
Definition mpfr_log := mpfr_log_like ln.
Definition mpfr_log2 := mpfr_log_like log2R.
Definition mpfr_log10 := mpfr_log_like log10R.

Definition mpfr_asin (m : mode) a : float F :=
  if is_finite a && Rle_bool (Rabs (B2R a)) 1 then rround m (Bsign a) (asin (B2R a)) else fnan.
Definition mpfr_acos (m : mode) a : float F :=
  if is_finite a && Rle_bool (Rabs (B2R a)) 1 then rround m false (acos (B2R a)) else fnan.
Definition mpfr_atan (m : mode) a : float F :=
  match a with
  | B754_nan => fnan
  | B754_infinity true => rround m true (- (PI / 2))
  | B754_infinity false => rround m false (PI / 2)
  | _ => rround m (Bsign a) (atan (B2R a))
  end.
Definition mpfr_sinh (m : mode) a : float F :=
  if is_finite a then rround m (Bsign a) (sinh (B2R a)) else a.
Definition mpfr_cosh (m : mode) a : float F :=
  match a with
  | B754_nan => fnan
  | B754_infinity _ => finf
  | _ => rround m false (cosh (B2R a))
  end.
Definition mpfr_tanh (m : mode) a : float F :=
  match a with
  | B754_nan => fnan
  | B754_infinity true => fm1
  | B754_infinity false => f1
  | _ => rround m (Bsign a) (tanh (B2R a))
  end.
Definition mpfr_asinh (m : mode) a : float F :=
  if is_finite a then rround m (Bsign a) (arcsinh (B2R a)) else a.
Definition mpfr_acosh (m : mode) a : float F :=
  match a with
  | B754_nan => fnan
  | B754_infinity true => fnan
  | B754_infinity false => finf
  | _ => if Rle_bool 1 (B2R a) then rround m false (acoshR (B2R a)) else fnan
  end.
Definition mpfr_atanh (m : mode) a : float F :=
  if is_finite a then
    if Rlt_bool (Rabs (B2R a)) 1 then rround m (Bsign a) (atanhR (B2R a))
    else if Req_bool (B2R a) 1 then finf
    else if Req_bool (B2R a) (-1) then fminf
    else fnan
  else fnan.

(** ** Exponentials *)
(** elem_func_impl.hpp:1722-1737 [exp]. *)
Definition exp_itv x : M (itv F) :=
  mif (mnot (is_valid x) ||| is_empty x) (ret empty)
  (ret (mpfr_exp mode_DN (fst x), mpfr_exp mode_UP (snd x))).
(** elem_func_impl.hpp:1810-1825 [exp2]. *)
Definition exp2_itv x : M (itv F) :=
  mif (mnot (is_valid x) ||| is_empty x) (ret empty)
  (ret (mpfr_exp2 mode_DN (fst x), mpfr_exp2 mode_UP (snd x))).
(** elem_func_impl.hpp:1898-1913 [exp10]. *)
Definition exp10_itv x : M (itv F) :=
  mif (mnot (is_valid x) ||| is_empty x) (ret empty)
  (ret (mpfr_exp10 mode_DN (fst x), mpfr_exp10 mode_UP (snd x))).

(** ** Logarithms *)
(** elem_func_impl.hpp:1987-2010 [log]. *)
Definition log_itv x : M (itv F) :=
  mif (mnot (is_valid x)) (ret empty)
  (xx <- intersection x (f0, finf);
   mif (is_empty xx) (ret xx)
   (if fle (snd x) f0 then ret empty else
    ret (mpfr_log mode_DN (if fle (fst x) f0 then f0 else fst x), mpfr_log mode_UP (snd x)))).
(** elem_func_impl.hpp:2084-2107 [log2]. *)
Definition log2_itv x : M (itv F) :=
  mif (mnot (is_valid x)) (ret empty)
  (xx <- intersection x (f0, finf);
   mif (is_empty xx) (ret xx)
   (if fle (snd x) f0 then ret empty else
    ret (mpfr_log2 mode_DN (if fle (fst x) f0 then f0 else fst x), mpfr_log2 mode_UP (snd x)))).
(** elem_func_impl.hpp:2180-2203 [log10]. *)
Definition log10_itv x : M (itv F) :=
  mif (mnot (is_valid x)) (ret empty)
  (xx <- intersection x (f0, finf);
   mif (is_empty xx) (ret xx)
   (if fle (snd x) f0 then ret empty else
    ret (mpfr_log10 mode_DN (if fle (fst x) f0 then f0 else fst x), mpfr_log10 mode_UP (snd x)))).

(** ** Inverse trigonometric functions *)
(** elem_func_impl.hpp:2716-2736 [asin]. *)
Definition asin_itv x : M (itv F) :=
  mif (mnot (is_valid x)) (ret empty)
  (xx <- intersection x (fm1, f1);
   mif (is_empty xx) (ret xx)
   (ret (mpfr_asin mode_DN (fst xx), mpfr_asin mode_UP (snd xx)))).
(** elem_func_impl.hpp:2810-2830 [acos]. *)
Definition acos_itv x : M (itv F) :=
  mif (mnot (is_valid x)) (ret empty)
  (xx <- intersection x (fm1, f1);
   mif (is_empty xx) (ret xx)
   (ret (mpfr_acos mode_DN (snd xx), mpfr_acos mode_UP (fst xx)))).
(** elem_func_impl.hpp:2905-2920 [atan]. *)
Definition atan_itv x : M (itv F) :=
  mif (mnot (is_valid x) ||| is_empty x) (ret empty)
  (ret (mpfr_atan mode_DN (fst x), mpfr_atan mode_UP (snd x))).

(** ** Hyperbolic functions and their inverses *)
(** elem_func_impl.hpp:3204-3219 [sinh]. *)
Definition sinh_itv x : M (itv F) :=
  mif (mnot (is_valid x) ||| is_empty x) (ret empty)
  (ret (mpfr_sinh mode_DN (fst x), mpfr_sinh mode_UP (snd x))).
(** elem_func_impl.hpp:3294-3317 [cosh]. *)
Definition cosh_itv x : M (itv F) :=
  mif (mnot (is_valid x) ||| is_empty x) (ret empty)
  (if flt (fst x) f0 && fgt (snd x) f0
   then ret (f1, mpfr_cosh mode_UP (fmax (fneg (fst x)) (snd x)))
   else ret (mpfr_cosh mode_DN (fmin (fabs (fst x)) (fabs (snd x))),
             mpfr_cosh mode_UP (fmax (fabs (fst x)) (fabs (snd x))))).
(** elem_func_impl.hpp:3392-3407 [tanh]. *)
Definition tanh_itv x : M (itv F) :=
  mif (mnot (is_valid x) ||| is_empty x) (ret empty)
  (ret (mpfr_tanh mode_DN (fst x), mpfr_tanh mode_UP (snd x))).
(** elem_func_impl.hpp:3480-3495 [asinh]. *)
Definition asinh_itv x : M (itv F) :=
  mif (mnot (is_valid x) ||| is_empty x) (ret empty)
  (ret (mpfr_asinh mode_DN (fst x), mpfr_asinh mode_UP (snd x))).
(** elem_func_impl.hpp:3569-3584 [acosh]. *)
Definition acosh_itv x : M (itv F) :=
  mif (mnot (is_valid x) ||| is_empty x ||| ret (flt (snd x) f1)) (ret empty)
  (ret (mpfr_acosh mode_DN (if flt (fst x) f1 then f1 else fst x), mpfr_acosh mode_UP (snd x))).
(** elem_func_impl.hpp:3658-3673 [atanh]. *)
Definition atanh_itv x : M (itv F) :=
  mif (mnot (is_valid x) ||| is_empty x ||| ret (fle (snd x) fm1) ||| ret (fge (fst x) f1)) (ret empty)
  (ret (mpfr_atanh mode_DN (if flt (fst x) fm1 then fm1 else fst x),
        mpfr_atanh mode_UP (if fgt (snd x) f1 then f1 else snd x))).

(** ** Step functions.  std::ceil, floor, trunc, nearbyint (to nearest), round. *)
Definition std_ceil a : float F := Bnearbyint mode_UP a.
Definition std_floor a : float F := Bnearbyint mode_DN a.
Definition std_trunc a : float F := Bnearbyint mode_ZR a.
Definition std_nearbyint a : float F := Bnearbyint mode_NE a.
Definition std_round a : float F := Bnearbyint mode_NA a.

(** elem_func_impl.hpp:3747-3756 [sign]. *)
Definition sign_itv x : M (itv F) :=
  mif (mnot (is_valid x) ||| is_empty x) (ret empty)
  (ret ((if flt (fst x) f0 then fm1 else if feq (fst x) f0 then f0 else f1),
        (if flt (snd x) f0 then fm1 else if feq (snd x) f0 then f0 else f1))).
(** elem_func_impl.hpp:3831-3839 [ceil]. *)
Definition ceil_itv x : M (itv F) :=
  mif (mnot (is_valid x) ||| is_empty x) (ret empty) (ret (std_ceil (fst x), std_ceil (snd x))).
(** elem_func_impl.hpp:3913-3921 [floor]. *)
Definition floor_itv x : M (itv F) :=
  mif (mnot (is_valid x) ||| is_empty x) (ret empty) (ret (std_floor (fst x), std_floor (snd x))).
(** elem_func_impl.hpp:3995-4003 [trunc]. *)
Definition trunc_itv x : M (itv F) :=
  mif (mnot (is_valid x) ||| is_empty x) (ret empty) (ret (std_trunc (fst x), std_trunc (snd x))).
(** elem_func_impl.hpp:4078-4103 [round_ties_to_even]; the rounding mode guard
    object sets FE_TONEAREST for the two calls. *)
Definition round_ties_to_even_itv x : M (itv F) :=
  mif (mnot (is_valid x) ||| is_empty x) (ret empty) (ret (std_nearbyint (fst x), std_nearbyint (snd x))).
(** elem_func_impl.hpp:4176-4184 [round_ties_to_away]. *)
Definition round_ties_to_away_itv x : M (itv F) :=
  mif (mnot (is_valid x) ||| is_empty x) (ret empty) (ret (std_round (fst x), std_round (snd x))).

End Elem.
