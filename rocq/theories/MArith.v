(** * Model: arithmetic operations (bare, same type)

    C++ side: mpfr_bin_ieee754_flavor_elem_func_impl.hpp.

    [mpfr_var xl(x.first, MPFR_RNDD)] loads a bound exactly, so loading is the
    identity; [v.subnormalize(mpfr_op(...), RND); v.get<T>(RND)] is one correctly
    rounded IEEE operation (see MMpfr.v). *)

From Coq Require Import ZArith NArith Reals Bool.
From Flocq Require Import Core.Core IEEE754.BinarySingleNaN.
From Verif Require Import Fmt Spec Exc Deco MBase MBool.

Local Open Scope m_scope.

Section Arith.
Context {F : fmt}.
Implicit Types x y z : itv F.

(** mpfr_min / mpfr_max: NaN is ignored, -0 is smaller than +0. *)
Definition mpfr_min (a b : float F) : float F :=
  if isnan a then b else if isnan b then a
  else if feq a f0 && feq b f0 then (if Bsign a then a else b)
  else if fle a b then a else b.
Definition mpfr_max (a b : float F) : float F :=
  if isnan a then b else if isnan b then a
  else if feq a f0 && feq b f0 then (if Bsign a then b else a)
  else if fle a b then b else a.

(** elem_func_impl.hpp:46-53 [pos]. *)
Definition pos x : M (itv F) := mif (mnot (is_valid x)) (ret empty) (ret x).

(** elem_func_impl.hpp:99-106 [neg]. *)
Definition neg x : M (itv F) :=
  mif (mnot (is_valid x) ||| is_empty x) (ret empty) (ret (fneg (snd x), fneg (fst x))).

(** elem_func_impl.hpp:155-175 [add]. *)
Definition add x y : M (itv F) :=
  mif (mnot (is_valid x) ||| mnot (is_valid y) ||| is_empty x ||| is_empty y) (ret empty)
  (ret (radd mode_DN (fst x) (fst y), radd mode_UP (snd x) (snd y))).

(** elem_func_impl.hpp:261-281 [sub]. *)
Definition sub x y : M (itv F) :=
  mif (mnot (is_valid x) ||| mnot (is_valid y) ||| is_empty x ||| is_empty y) (ret empty)
  (ret (rsub mode_DN (fst x) (snd y), rsub mode_UP (snd x) (fst y))).

(** elem_func_impl.hpp:363-501 [mul]. *)
Definition mul x y : M (itv F) :=
  let xl := fst x in let xu := snd x in let yl := fst y in let yu := snd y in
  mif (mnot (is_valid x) ||| mnot (is_valid y) ||| is_empty x ||| is_empty y) (ret empty)
  (if feq xl f0 && feq xu f0 then ret x else
   if feq yl f0 && feq yu f0 then ret y else
   mif (is_entire x) (ret x)
  (mif (is_entire y) (ret y)
  (ret
   (if fle yu f0 then
      if fle xu f0 then (rmul mode_DN xu yu, rmul mode_UP xl yl)
      else if fge xl f0 then (rmul mode_DN xu yl, rmul mode_UP xl yu)
      else (rmul mode_DN xu yl, rmul mode_UP xl yl)
    else if fge yl f0 then
      if fle xu f0 then (rmul mode_DN xl yu, rmul mode_UP xu yl)
      else if fge xl f0 then (rmul mode_DN xl yl, rmul mode_UP xu yu)
      else (rmul mode_DN xl yu, rmul mode_UP xu yu)
    else
      if fle xu f0 then (rmul mode_DN xl yu, rmul mode_UP xl yl)
      else if fge xl f0 then (rmul mode_DN xu yl, rmul mode_UP xu yu)
      else (mpfr_min (rmul mode_DN xl yu) (rmul mode_DN xu yl),
            mpfr_max (rmul mode_UP xl yl) (rmul mode_UP xu yu)))))).

(** elem_func_impl.hpp:583-719 [div].  In the branches that fall through
    without an assignment the MPFR variables keep their initial NaN. *)
Definition div x y : M (itv F) :=
  let xl := fst x in let xu := snd x in let yl := fst y in let yu := snd y in
  mif (mnot (is_valid x) ||| mnot (is_valid y) ||| is_empty x ||| is_empty y) (ret empty)
  (if feq yl f0 && feq yu f0 then ret empty else
   if feq xl f0 && feq xu f0 then ret x else
   if (flt yl f0 && fgt yu f0)
      || (flt xl f0 && fgt xu f0 && (feq yl f0 || feq yu f0)) then ret entire else
   ret
   (if fle xu f0 then
      if flt yu f0 then (rdiv mode_DN xu yl, rdiv mode_UP xl yu)
      else if fgt yl f0 then (rdiv mode_DN xl yl, rdiv mode_UP xu yu)
      else if feq yu f0 then (rdiv mode_DN xu yl, finf)
      else if feq yl f0 then (fminf, rdiv mode_UP xu yu)
      else (fnan, fnan)
    else if fge xl f0 then
      if flt yu f0 then (rdiv mode_DN xu yu, rdiv mode_UP xl yl)
      else if fgt yl f0 then (rdiv mode_DN xl yu, rdiv mode_UP xu yl)
      else if feq yu f0 then (fminf, rdiv mode_UP xl yl)
      else if feq yl f0 then (rdiv mode_DN xl yu, finf)
      else (fnan, fnan)
    else
      if flt yu f0 then (rdiv mode_DN xu yu, rdiv mode_UP xl yu)
      else if fgt yl f0 then (rdiv mode_DN xl yl, rdiv mode_UP xu yl)
      else (fnan, fnan))).

(** elem_func_impl.hpp:801-808 [recip]. *)
Definition recip x : M (itv F) :=
  mif (mnot (is_valid x)) (ret empty) (div (f1, f1) x).

(** elem_func_impl.hpp:883-906 [sqr]. *)
Definition sqr x : M (itv F) :=
  let xl := fst x in let xu := snd x in
  mif (mnot (is_valid x) ||| is_empty x) (ret empty)
  (ret
   (if flt xl f0 && fgt xu f0 then
      let u := if fgt (fabs xl) xu then fabs xl else xu in
      (f0, rmul mode_UP u u)
    else
      let l := if flt (fabs xl) (fabs xu) then fabs xl else fabs xu in
      let u := if fgt (fabs xl) (fabs xu) then fabs xl else fabs xu in
      (rmul mode_DN l l, rmul mode_UP u u))).

(** elem_func_impl.hpp:982-1006 [sqrt]. *)
Definition sqrt x : M (itv F) :=
  let xl := fst x in let xu := snd x in
  mif (mnot (is_valid x) ||| is_empty x ||| ret (flt xu f0)) (ret empty)
  (ret (if flt xl f0 then (f0, rsqrt mode_UP xu) else (rsqrt mode_DN xl, rsqrt mode_UP xu))).

(** elem_func_impl.hpp:1081-1248 [fma]. *)
Definition fma x y z : M (itv F) :=
  let xl := fst x in let xu := snd x in let yl := fst y in let yu := snd y in
  let zl := fst z in let zu := snd z in
  mif (mnot (is_valid x) ||| mnot (is_valid y) ||| mnot (is_valid z)
       ||| is_empty x ||| is_empty y ||| is_empty z) (ret empty)
  (if feq xl f0 && feq xu f0 then ret z else
   if feq yl f0 && feq yu f0 then ret z else
   mif (is_entire x) (ret x)
  (mif (is_entire y) (ret y)
  (ret
   (if fle yu f0 then
      if fle xu f0 then (rfma mode_DN xu yu zl, rfma mode_UP xl yl zu)
      else if fge xl f0 then (rfma mode_DN xu yl zl, rfma mode_UP xl yu zu)
      else (rfma mode_DN xu yl zl, rfma mode_UP xl yl zu)
    else if fge yl f0 then
      if fle xu f0 then (rfma mode_DN xl yu zl, rfma mode_UP xu yl zu)
      else if fge xl f0 then (rfma mode_DN xl yl zl, rfma mode_UP xu yu zu)
      else (rfma mode_DN xl yu zl, rfma mode_UP xu yu zu)
    else
      if fle xu f0 then (rfma mode_DN xl yu zl, rfma mode_UP xl yl zu)
      else if fge xl f0 then (rfma mode_DN xu yl zl, rfma mode_UP xu yu zu)
      else (mpfr_min (rfma mode_DN xl yu zl) (rfma mode_DN xu yl zl),
            mpfr_max (rfma mode_UP xl yl zu) (rfma mode_UP xu yu zu)))))).

(** elem_func_impl.hpp:4260-4273 [abs]. *)
Definition abs x : M (itv F) :=
  mif (mnot (is_valid x) ||| is_empty x) (ret empty)
  (ret (if fge (fst x) f0 then x
        else if fle (snd x) f0 then (fabs (snd x), fabs (fst x))
        else (f0, fmax (fabs (fst x)) (snd x)))).

(** elem_func_impl.hpp:4347-4355 [min], 4438-4446 [max]. *)
Definition min x y : M (itv F) :=
  mif (mnot (is_valid x) ||| mnot (is_valid y) ||| is_empty x ||| is_empty y) (ret empty)
  (ret (fmin (fst x) (fst y), fmin (snd x) (snd y))).
Definition max x y : M (itv F) :=
  mif (mnot (is_valid x) ||| mnot (is_valid y) ||| is_empty x ||| is_empty y) (ret empty)
  (ret (fmax (fst x) (fst y), fmax (snd x) (snd y))).

End Arith.
