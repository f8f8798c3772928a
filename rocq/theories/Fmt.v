(** * Floating-point formats, numbers and the MPFR rounding primitives

    C++ side:  p1788/flavor/infsup/setbased/mpfr_bin_ieee754_flavor.hpp:77-90
    (the flavor is parameterised by an IEEE 754 binary type [T] and uses
    [mpfr_var<digits, ..., SUBNORMALIZE>]) and p1788/util/mpfr_var_impl.hpp.

    Simplification: one [mpfr_*] call on a [mpfr_var] followed by
    [subnormalize] and [get<T>] is represented by one IEEE 754 operation with
    the given rounding direction; file [MMpfr.v] justifies this. *)

From Coq Require Import ZArith Reals Bool Lia Lra.
From Flocq Require Import Core.Core IEEE754.BinarySingleNaN.

(** An IEEE 754 binary interchange-like format: [std::numeric_limits<T>::digits]
    and [std::numeric_limits<T>::max_exponent]. *)
Record fmt : Type := Fmt {
  prec : Z;
  emax : Z;
  fmt_prec1 : (1 < prec)%Z;
  fmt_emax : (prec < emax)%Z }.

#[global] Instance fmt_prec_gt_0 (F : fmt) : Prec_gt_0 (prec F).
Proof. unfold Prec_gt_0. pose proof (fmt_prec1 F). lia. Defined.

#[global] Instance fmt_prec_lt_emax (F : fmt) : Prec_lt_emax (prec F) (emax F).
Proof. exact (fmt_emax F). Defined.

(** The three C++ types: float, double and (x87) long double. *)
Definition binary32 : fmt := Fmt 24 128 eq_refl eq_refl.
Definition binary64 : fmt := Fmt 53 1024 eq_refl eq_refl.
Definition binary80 : fmt := Fmt 64 16384 eq_refl eq_refl.

Definition float (F : fmt) : Type := binary_float (prec F) (emax F).

(** Exponent of the smallest subnormal number and the FLT exponent function. *)
Definition emin (F : fmt) : Z := (3 - emax F - prec F)%Z.
Definition fexp (F : fmt) : Z -> Z := SpecFloat.fexp (prec F) (emax F).

Section Lits.
Context {F : fmt}.

(** Literals and [std::numeric_limits<T>] members used by the code. *)
Definition fnan : float F := B754_nan.
Definition finf : float F := B754_infinity false.     (* +oo *)
Definition fminf : float F := B754_infinity true.     (* -oo *)
Definition f0 : float F := B754_zero false.           (* 0.0 *)
Definition fm0 : float F := B754_zero true.           (* -0.0 *)
Definition f1 : float F := Bone.                      (* 1.0 *)
Definition fm1 : float F := Bopp Bone.                (* -1.0 *)
Definition fmaxv : float F := Bmax_float.             (* numeric_limits::max() *)
Definition fhalf : float F := Bldexp mode_NE Bone (-1). (* 0.5 *)

(** C++ comparison operators on [T] (false on NaN, except [!=]). *)
Definition feq (x y : float F) : bool := Beqb x y.
Definition fne (x y : float F) : bool := negb (Beqb x y).
Definition flt (x y : float F) : bool := Bltb x y.
Definition fle (x y : float F) : bool := Bleb x y.
Definition fgt (x y : float F) : bool := Bltb y x.
Definition fge (x y : float F) : bool := Bleb y x.

(** [std::isnan], [std::isinf]. *)
Definition isnan (x : float F) : bool := is_nan x.
Definition isinf (x : float F) : bool :=
  match x with B754_infinity _ => true | _ => false end.

(** [std::min], [std::max]: (b < a) ? b : a  and  (a < b) ? b : a. *)
Definition fmin (a b : float F) : float F := if flt b a then b else a.
Definition fmax (a b : float F) : float F := if flt a b then b else a.

(** Directed and nearest versions of the basic MPFR operations
    (mpfr_add, mpfr_sub, mpfr_mul, mpfr_div, mpfr_fma, mpfr_sqrt). *)
Definition radd (m : mode) (x y : float F) : float F := Bplus m x y.
Definition rsub (m : mode) (x y : float F) : float F := Bminus m x y.
Definition rmul (m : mode) (x y : float F) : float F := Bmult m x y.
Definition rdiv (m : mode) (x y : float F) : float F := Bdiv m x y.
Definition rfma (m : mode) (x y z : float F) : float F := Bfma m x y z.
Definition rsqrt (m : mode) (x : float F) : float F := Bsqrt m x.
Definition fneg (x : float F) : float F := Bopp x.
Definition fabs (x : float F) : float F := Babs x.

(** Correct rounding of an arbitrary real number: the contract of the
    transcendental MPFR functions.  [sz] is the sign given to an exact zero.
    Not executable. *)
Definition rround (m : mode) (sz : bool) (r : R) : float F :=
  let rr := round radix2 (fexp F) (round_mode m) r in
  if Rlt_bool (Rabs rr) (bpow radix2 (emax F)) then
    binary_normalize (prec F) (emax F) _ _ mode_NE
      (Ztrunc (scaled_mantissa radix2 (fexp F) rr))
      (cexp radix2 (fexp F) rr)
      (if Req_bool r 0 then sz else Rlt_bool r 0)
  else if Rlt_bool r 0
       then (if overflow_to_inf m true then fminf else Bopp fmaxv)
       else (if overflow_to_inf m false then finf else fmaxv).

End Lits.

Arguments fnan {F}. Arguments finf {F}. Arguments fminf {F}.
Arguments f0 {F}. Arguments fm0 {F}. Arguments f1 {F}. Arguments fm1 {F}.
Arguments fmaxv {F}. Arguments fhalf {F}.

(** Conversion of a number of format [F] to format [G]
    (mpfr_set_{flt,d,ld} into a variable of the target format). *)
Definition fconv {F : fmt} (G : fmt) (m : mode) (x : float F) : float G :=
  match x with
  | B754_nan => B754_nan
  | B754_infinity s => B754_infinity s
  | B754_zero s => B754_zero s
  | B754_finite s mx ex _ =>
      binary_normalize (prec G) (emax G) _ _ m (cond_Zopp s (Zpos mx)) ex s
  end.
