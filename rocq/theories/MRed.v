(** * Model: reduction operations (p1788/reduction/reduction.hpp)

    Elements are taken from a list; an iterator running past its list is undefined
    behaviour.  MPFR values and the global exponent range are those of MMpfr.v; mpfr_sum
    follows the MPFR 4 manual: the exact sum rounded once, NaN and infinities as for IEEE
    addition, zero for an empty sum.  Memory is not modelled here. *)
From Coq Require Import ZArith Reals Bool List.
From Flocq Require Import Core.Core IEEE754.BinarySingleNaN.
From Verif Require Import Fmt Exc MMpfr.
Import ListNotations.
Local Open Scope R_scope.

(** reduction.hpp:42-49 [rnd_mode] *)
Inductive rnd_mode : Type := downward | upward | to_nearest | to_zero.
(** reduction.hpp:51-68 [get_mpfr_rnd_mode] *)
Definition get_mpfr_rnd_mode (r : rnd_mode) : mode :=
  match r with downward => mode_DN | upward => mode_UP | to_nearest => mode_NE | to_zero => mode_ZR end.

(** mpfr_init2(p); mpfr_set(p, tmp): same precision, no rounding; the range check applies. *)
Definition mp_set (E : genv) (p : Z) (y : mval) : mval :=
  match y with VNum r => fst (mp_call E p mode_NE r) | _ => y end.
(** mpfr_var tmp( *i, MPFR_RNDN): mpfr_set_d and subnormalize in the precision of the variable. *)
Definition mp_of {F : fmt} (E : genv) (p : Z) (x : float F) : mval :=
  match x with
  | B754_nan => VNaN
  | B754_infinity s => VInf s
  | _ => let '(y, t) := mp_call E p mode_NE (B2R x) in mp_subnormalize E p mode_NE y t
  end.
(** mpfr_abs *)
Definition mp_abs (E : genv) (p : Z) (y : mval) : mval :=
  match y with VNaN => VNaN | VInf _ => VInf false | VNum r => fst (mp_call E p mode_NE (Rabs r)) end.
(** mpfr_mul, mpfr_sqr *)
Definition mp_mul (E : genv) (p : Z) (x y : mval) : mval :=
  match x, y with
  | VNum r, VNum s => fst (mp_call E p mode_NE (r * s))
  | VNaN, _ | _, VNaN => VNaN
  | VInf a, VInf b => VInf (xorb a b)
  | VInf a, VNum r | VNum r, VInf a => if Req_bool r 0 then VNaN else VInf (xorb a (Rlt_bool r 0))
  end.

(** mpfr_sum *)
Definition is_vnan (y : mval) : bool := match y with VNaN => true | _ => false end.
Definition is_vinf (s : bool) (y : mval) : bool := match y with VInf s' => Bool.eqb s s' | _ => false end.
Definition mp_sum (E : genv) (p : Z) (m : mode) (l : list mval) : mval * comparison :=
  if existsb is_vnan l || (existsb (is_vinf true) l && existsb (is_vinf false) l) then (VNaN, Eq)
  else if existsb (is_vinf true) l then (VInf true, Eq)
  else if existsb (is_vinf false) l then (VInf false, Eq)
  else mp_call E p m (fold_right Rplus 0 (map num l)).

(** reduction.hpp:87-137 [reduction_sum_op]: the constructors, given the elements computed
    by op in the range set up before. *)
Definition reduction_sum_op (F : fmt) (ops : genv -> list mval) (rnd : rnd_mode) (E : genv) : float F * genv :=
  let E1 := setup (var_of F) E in
  let m := get_mpfr_rnd_mode rnd in
  let '(y, t) := mp_sum E1 (prec F) m (ops E1) in
  let r := get F m (subnormalize (var_of F) E1 m y t) in
  (if feq r f0 then match rnd with downward => fm0 | _ => f0 end else r, E1).

Section Red.
Context {F : fmt}.
Implicit Types l : list (float F).
Let p := prec F.

(** reduction.hpp:162-197 [sum] *)
Definition sum l (rnd : rnd_mode) (E : genv) : float F * genv :=
  reduction_sum_op F (fun E1 => map (fun x => mp_set E1 p (mp_of E1 p x)) l) rnd E.
(** reduction.hpp:200-236 [sum_abs] *)
Definition sum_abs l (rnd : rnd_mode) (E : genv) : float F * genv :=
  reduction_sum_op F (fun E1 => map (fun x => mp_set E1 p (mp_abs E1 p (mp_of E1 p x))) l) rnd E.
(** reduction.hpp:239-275 [sum_sqr]: variables of twice the precision; their setup is not called. *)
Definition sum_sqr l (rnd : rnd_mode) (E : genv) : float F * genv :=
  reduction_sum_op F (fun E1 => map (fun x =>
    let tmp := mp_of E1 (2 * p) x in mp_set E1 (2 * p) (mp_mul E1 (2 * p) tmp tmp)) l) rnd E.
(** reduction.hpp:278-316 [dot]: as many elements of the second sequence are read as the first has. *)
Definition dot (a b : list (float F)) (rnd : rnd_mode) (E : genv) : outcome (float F * genv) :=
  if (length b <? length a)%nat then UB
  else Ret (reduction_sum_op F (fun E1 => map (fun xy =>
    let tmp_a := mp_of E1 (2 * p) (fst xy) in let tmp_b := mp_of E1 (2 * p) (snd xy) in
    mp_set E1 (2 * p) (mp_mul E1 (2 * p) tmp_a tmp_b)) (combine a b)) rnd E).
End Red.
