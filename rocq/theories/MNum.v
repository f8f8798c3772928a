(** * Model: numeric functions

    C++ side: mpfr_bin_ieee754_flavor_num_func_impl.hpp.
    [F] is the type of the bounds (T_), [G] the result type (T) of the mixed
    versions, [pmax G F] is T_MAX. *)

From Coq Require Import ZArith NArith Reals Bool.
From Flocq Require Import Core.Core Calc.Operations IEEE754.BinarySingleNaN.
From Verif Require Import Fmt Spec Exc Deco MBase MTrig MMixed.

Local Open Scope m_scope.

(** The exact value of a finite number. *)
Definition exact {F : fmt} (a : float F) : Defs.float radix2 :=
  match a with B754_finite s m e _ => Defs.Float radix2 (cond_Zopp s (Zpos m)) e | _ => Defs.Float radix2 0 0 end.
(** (a + b) / 2 rounded once to nearest.  The code halves both in an exponent
    range extended by one, adds with rounding, then applies the exponent range
    of the result ([mpfr_check_range], [mpfr_subnormalize]); see [MMpfr.v]. *)
Definition half_sum {F : fmt} (G : fmt) (a b : float F) : float G :=
  let s := Fplus (exact a) (exact b) in
  binary_normalize (prec G) (emax G) _ _ mode_NE (Defs.Fnum s) (Defs.Fexp s - 1) false.
(** [res == -0.0 ? +0.0 : res] *)
Definition pos_zero {F : fmt} (r : float F) : float F := if feq r f0 then f0 else r.

Section Num.
Context {F : fmt}.
Implicit Types x : itv F.

(** 41-56. *)
Definition n_inf x : M (float F) :=
  mif (mnot (is_valid x)) (ret fnan) (mif (is_empty x) (ret finf) (ret (if feq (fst x) f0 then fm0 else fst x))).
(** 104-119. *)
Definition n_sup x : M (float F) :=
  mif (mnot (is_valid x)) (ret fnan) (mif (is_empty x) (ret fminf) (ret (if feq (snd x) f0 then f0 else snd x))).
(** 170-211. *)
Definition n_mid x : M (float F) :=
  mif (mnot (is_valid x) ||| is_empty x) (ret fnan)
  (mif (is_entire x) (ret f0)
   (ret (if feq (fst x) fminf then fneg fmaxv
         else if feq (snd x) finf then fmaxv
         else pos_zero (half_sum F (fst x) (snd x))))).
(** 338-368. *)
Definition n_mid_rad x : M (float F * float F) :=
  mif (mnot (is_valid x) ||| is_empty x) (ret (fnan, fnan))
  (m <- n_mid x;
   let l := rsub mode_UP m (fst x) in
   let u := rsub mode_UP (snd x) m in
   ret (m, pos_zero (if mpfr_greater l u then l else u))).
(** 293-299. *)
Definition n_rad x : M (float F) := p <- n_mid_rad x; ret (snd p).
(** 441-458. *)
Definition n_wid x : M (float F) :=
  mif (mnot (is_valid x) ||| is_empty x) (ret fnan) (ret (pos_zero (rsub mode_UP (snd x) (fst x)))).
(** 510-522. *)
Definition n_mag x : M (float F) :=
  mif (mnot (is_valid x) ||| is_empty x) (ret fnan)
  (ret (let l := fabs (fst x) in let u := fabs (snd x) in if fgt l u then l else u)).
(** 576-592. *)
Definition n_mig x : M (float F) :=
  mif (mnot (is_valid x) ||| is_empty x) (ret fnan)
  (ret (if flt (fst x) f0 && fgt (snd x) f0 then f0
        else let l := fabs (fst x) in let u := fabs (snd x) in if flt l u then l else u)).

(** Decorated versions, 81-88, 144-151, 266-273, 312-319, 412-421, 483-490, 548-555, 620-627. *)
Definition num_dec (f : itv F -> M (float F)) (x : ditv F) : M (float F) :=
  mif (mnot (is_valid_dec x) ||| is_nai x) (ret fnan) (f (fst x)).
Definition n_inf_dec := num_dec n_inf.
Definition n_sup_dec := num_dec n_sup.
Definition n_mid_dec := num_dec n_mid.
Definition n_rad_dec := num_dec n_rad.
Definition n_wid_dec := num_dec n_wid.
Definition n_mag_dec := num_dec n_mag.
Definition n_mig_dec := num_dec n_mig.
Definition n_mid_rad_dec (x : ditv F) : M (float F * float F) :=
  mif (mnot (is_valid_dec x) ||| is_nai x) (ret (fnan, fnan)) (n_mid_rad (fst x)).
End Num.

Section Mixed.
Context {F : fmt} (G : fmt).
Implicit Types x : itv F.
Let W := pmax G F.

(** 58-79, 121-142, 460-481, 525-546. *)
Definition num_mixed (conv : float W -> float G) (f : itv W -> M (float W)) x : M (float G) :=
  mif (mnot (is_valid x)) (ret fnan) (v <- f (convert_hull W x); ret (conv v)).
Definition n_inf_mixed := num_mixed (convert_rndd G) n_inf.
Definition n_sup_mixed := num_mixed (convert_rndu G) n_sup.
Definition n_wid_mixed := num_mixed (convert_rndu G) n_wid.
Definition n_mag_mixed := num_mixed (convert_rndu G) n_mag.
(** 595-618. *)
Definition n_mig_mixed := num_mixed (fun v => pos_zero (convert_rndd G v)) n_mig.
(** 214-264: here the wide type is not used. *)
Definition n_mid_mixed x : M (float G) :=
  mif (mnot (is_valid x) ||| is_empty x) (ret fnan)
  (mif (is_entire x) (ret f0)
   (ret (if feq (fst x) fminf then fneg fmaxv
         else if feq (snd x) finf then fmaxv
         else pos_zero (half_sum G (fst x) (snd x))))).
(** 371-410. *)
Definition n_mid_rad_mixed x : M (float G * float G) :=
  mif (mnot (is_valid x) ||| is_empty x) (ret (fnan, fnan))
  (m <- n_mid_mixed x;
   let mw := fconv W mode_NE m in
   let l := rsub mode_UP mw (fconv W mode_DN (fst x)) in
   let u := rsub mode_UP (fconv W mode_UP (snd x)) mw in
   ret (m, pos_zero (fconv G mode_UP (if mpfr_greater l u then l else u)))).
(** 302-310. *)
Definition n_rad_mixed x : M (float G) := p <- n_mid_rad_mixed x; ret (snd p).

(** Decorated versions, 91-102, 154-165, 276-287, 322-333, 424-436, 493-505, 558-570, 630-642. *)
Definition num_dec_mixed (f : itv F -> M (float G)) (x : ditv F) : M (float G) :=
  mif (mnot (is_valid_dec x) ||| is_nai x) (ret fnan) (f (fst x)).
Definition n_mid_rad_dec_mixed (x : ditv F) : M (float G * float G) :=
  mif (mnot (is_valid_dec x) ||| is_nai x) (ret (fnan, fnan)) (n_mid_rad_mixed (fst x)).
End Mixed.
