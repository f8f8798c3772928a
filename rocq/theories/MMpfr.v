(** * Model: the MPFR wrapper

    C++ side: p1788/util/mpfr_var_impl.hpp:40-240 and 380-420 (traits, setup, set, get,
    subnormalize).  MPFR itself is modelled from its manual and documented rounding
    contract: every function rounds the exact result to the precision of its target with an
    unbounded exponent and then applies mpfr_check_range; mpfr_subnormalize and
    mpfr_check_range are written after the MPFR sources.
    Simplifications: a ternary value is a comparison of the result with the exact value,
    signs of zeros are not represented, MPFR_RNDNA (not used by the library) is left out. *)
From Coq Require Import ZArith Reals Bool List.
From Flocq Require Import Core.Core IEEE754.BinarySingleNaN.
From Verif Require Import Fmt.
Local Open Scope R_scope.

(** The global exponent range of MPFR (mpfr_get_emin, mpfr_get_emax). *)
Record genv : Type := Genv { g_emin : Z; g_emax : Z }.

(** An mpfr_t: NaN, infinity (true: negative) or a number. *)
Inductive mval : Type := VNaN | VInf (neg : bool) | VNum (r : R).

(** mpfr_var<PREC,EMIN,EMAX,SUBNORMALIZE>. *)
Record vtype : Type := Vtype { v_prec : Z; v_emin : Z; v_emax : Z; v_sub : bool }.
(** The wrapper type of the flavor for a format with subnormal numbers
    (mpfr_bin_ieee754_flavor.hpp:84-90): EMIN = min_exponent - digits + 1 and
    min_exponent = 3 - max_exponent. *)
Definition var_of (F : fmt) : vtype := Vtype (prec F) (3 - emax F - prec F + 1) (emax F) true.

(** mpfr_var_impl.hpp:118-122 [setup]. *)
Definition setup (V : vtype) (_ : genv) : genv := Genv (v_emin V) (v_emax V).

(** An MPFR function before the range check: the exact result [v] rounded to [p] bits,
    and the ternary value. *)
Definition mp_round (p : Z) (m : mode) (v : R) : R * comparison :=
  let y := round radix2 (FLX_exp p) (round_mode m) v in (y, Rcompare y v).

Definition signed (y a : R) : R := if Rlt_bool y 0 then - a else a.
Definition tern_le (t : comparison) : bool := match t with Gt => false | _ => true end.
Definition tern_ge (t : comparison) : bool := match t with Lt => false | _ => true end.

(** mpfr_check_range. *)
Definition check_range (E : genv) (p : Z) (m : mode) (y : R) (t : comparison) : mval * comparison :=
  if Req_bool y 0 then (VNum 0, t)
  else if Rlt_bool (Rabs y) (bpow radix2 (g_emin E - 1)) then
    let to_zero := match m with
      | mode_NE => Rlt_bool (Rabs y) (bpow radix2 (g_emin E - 2)) ||
                   (Req_bool (Rabs y) (bpow radix2 (g_emin E - 2)) && if Rlt_bool y 0 then tern_le t else tern_ge t)
      | mode_DN => Rlt_bool 0 y
      | mode_UP => Rlt_bool y 0
      | _ => true end in
    if to_zero then (VNum 0, if Rlt_bool y 0 then Gt else Lt)
    else (VNum (signed y (bpow radix2 (g_emin E - 1))), if Rlt_bool y 0 then Lt else Gt)
  else if Rle_bool (bpow radix2 (g_emax E)) (Rabs y) then
    if overflow_to_inf m (Rlt_bool y 0) then (VInf (Rlt_bool y 0), if Rlt_bool y 0 then Lt else Gt)
    else (VNum (signed y ((1 - bpow radix2 (- p)) * bpow radix2 (g_emax E))), if Rlt_bool y 0 then Gt else Lt)
  else (VNum y, t).

(** One MPFR function call with a finite exact result. *)
Definition mp_call (E : genv) (p : Z) (m : mode) (v : R) : mval * comparison :=
  let '(y, t) := mp_round p m v in check_range E p m y t.

(** mpfr_subnormalize: round to a multiple of 2^(emin-1); when rounding to nearest a
    midpoint is resolved by the ternary value. *)
Definition mid_up (t : comparison) (s : R) : Z :=
  if Req_bool s (IZR (Zfloor s) + / 2)
  then match t with Eq => ZnearestE s | Gt => Zfloor s | Lt => Zceil s end
  else ZnearestE s.
Definition mp_subnormalize (E : genv) (p : Z) (m : mode) (y : mval) (t : comparison) : mval :=
  match y with
  | VNum r =>
    if Req_bool r 0 || Rle_bool (bpow radix2 (g_emin E + p - 2)) (Rabs r) then y
    else let s := r * bpow radix2 (- (g_emin E - 1)) in
         VNum (IZR (match m with mode_NE => mid_up t s | _ => round_mode m s end) * bpow radix2 (g_emin E - 1))
  | _ => y
  end.
(** mpfr_var_impl.hpp:93-114, 409-414 [subnormalization_trait], [subnormalize]. *)
Definition subnormalize (V : vtype) (E : genv) (m : mode) (y : mval) (t : comparison) : mval :=
  if v_sub V then mp_subnormalize E (v_prec V) m y t else y.

(** mpfr_var_impl.hpp:45-71, 231-236 [get] with T = float, double or long double
    (mpfr_get_flt, mpfr_get_d, mpfr_get_ld round to T, whatever the global range). *)
Definition get (F : fmt) (m : mode) (y : mval) : float F :=
  match y with VNaN => fnan | VInf s => B754_infinity s | VNum r => rround m false r end.

(** The pattern of nearly every function of the flavor: setup(); call; subnormalize; get.
    The value of the function is computed from [v], the global range is left behind. *)
Definition pipeline (F : fmt) (m : mode) (v : R) (E : genv) : float F * genv :=
  let E1 := setup (var_of F) E in
  let '(y, t) := mp_call E1 (prec F) m v in
  (get F m (subnormalize (var_of F) E1 m y t), E1).
(** The same without subnormalize (cancel_minus, FL_cancel_func_impl.hpp:136-148). *)
Definition pipeline_raw (F : fmt) (m : mode) (v : R) (E : genv) : float F * genv :=
  let E1 := setup (var_of F) E in
  let '(y, _) := mp_call E1 (prec F) m v in (get F m y, E1).

(** FL_num_func_impl.hpp:188-213 and 239-269 [mid]: the operands are of type [G], the
    result of type [F] (equal for the non-mixed version).  The type of the variable holding
    the sum is [ext_mpfr_var] without subnormalization (non-mixed) or [mpfr_var] of F. *)
Definition ext_of (G : fmt) : vtype := Vtype (prec G) (3 - emax G - prec G + 1 - 1) (emax G) false.
Definition mid_half (E : genv) (p : Z) (x : R) : mval := fst (mp_call E p mode_NE (x / 2)).
Definition num (y : mval) : R := match y with VNum r => r | _ => 0 end.
(** mpfr_check_range leaves NaN and infinities alone. *)
Definition recheck (E : genv) (p : Z) (m : mode) (y : mval) (t : comparison) : mval * comparison :=
  match y with VNum r => check_range E p m r t | _ => (y, t) end.
Definition mid_pipeline (F : fmt) (xl xu : R) (E : genv) : float F * genv :=
  let E1 := setup (ext_of F) E in
  let a := mid_half E1 (prec F) xl in let b := mid_half E1 (prec F) xu in
  let '(y, t) := mp_call E1 (prec F) mode_NE (num a + num b) in
  let E2 := setup (var_of F) E1 in
  let '(z, t') := recheck E2 (prec F) mode_NE y t in
  (get F mode_NE (subnormalize (ext_of F) E2 mode_NE z t'), E2).
Definition mid_pipeline_mixed (F G : fmt) (xl xu : R) (E : genv) : float F * genv :=
  let E1 := setup (ext_of G) E in
  let a := mid_half E1 (prec G) xl in let b := mid_half E1 (prec G) xu in
  let '(y, t) := mp_call E1 (prec F) mode_NE (num a + num b) in
  let E2 := setup (var_of F) E1 in
  let '(z, t') := recheck E2 (prec F) mode_NE y t in
  (get F mode_NE (subnormalize (var_of F) E2 mode_NE z t'), E2).

(** A program: calls of operations of various formats, one after the other. *)
Record call : Type := Call { c_fmt : fmt; c_mode : mode; c_val : R }.
Fixpoint calls (l : list call) (E : genv) : list {F : fmt & float F} * genv :=
  match l with
  | nil => (nil, E)
  | c :: l' =>
    let '(z, E1) := pipeline (c_fmt c) (c_mode c) (c_val c) E in
    let '(zs, E2) := calls l' E1 in (existT _ (c_fmt c) z :: zs, E2)
  end.
