(** * Model: cancellative addition and subtraction, the error-free sum

    C++ side: mpfr_bin_ieee754_flavor_cancel_func_impl.hpp and
    util/mpfr_util.hpp:36-69. *)
From Coq Require Import ZArith NArith Reals Bool.
From Flocq Require Import Core.Core IEEE754.BinarySingleNaN.
From Verif Require Import Fmt Spec Exc Deco MBase MBool MArith MOverlap MDec MMixed.

Local Open Scope m_scope.

Section C.
Context {F : fmt}.

(** util/mpfr_util.hpp:36-69 [two_sum]: every step rounds to nearest. *)
Definition two_sum (a b : float F) : float F * float F :=
  let s := radd mode_NE a b in
  let a_delta := rsub mode_NE s b in
  let b_delta := rsub mode_NE s a_delta in
  let a_delta := rsub mode_NE a a_delta in
  let b_delta := rsub mode_NE b b_delta in
  (s, radd mode_NE a_delta b_delta).

(** The condition of lines 123 and 132. *)
Definition pair_lt (p q : float F * float F) : bool :=
  flt (fst p) (fst q) || (feq (fst p) (fst q) && flt (snd p) (snd q)).

(** 136-148. *)
Definition cancel_bounds (x y : itv F) : itv F :=
  (rsub mode_DN (fst x) (fst y), rsub mode_UP (snd x) (snd y)).

(** 84-149 (line 89 tests the validity of [x] twice and that of [y] never). *)
Definition cancel_minus (x y : itv F) : M (itv F) :=
  mif (mnot (is_valid x) ||| mnot (is_valid x)) (ret empty)
  (if feq (fst x) fminf || feq (snd x) finf || feq (fst y) fminf || feq (snd y) finf then ret entire else
   os <- overlap x y;
   match os with
   | o_first_empty | o_both_empty => ret x
   | o_second_empty => ret entire
   | o_starts | o_contained_by | o_finishes => ret entire
   | o_before | o_meets | o_met_by | o_after =>
       if pair_lt (two_sum (snd x) (fneg (fst x))) (two_sum (snd y) (fneg (fst y)))
       then ret entire else ret (cancel_bounds x y)
   | o_overlaps | o_overlapped_by =>
       if pair_lt (two_sum (fst y) (fneg (fst x))) (two_sum (snd y) (fneg (snd x)))
       then ret entire else ret (cancel_bounds x y)
   | _ => ret (cancel_bounds x y)
   end).
(** 42-48. *)
Definition cancel_plus (x y : itv F) : M (itv F) := y' <- neg y; cancel_minus x y'.

(** 178-190. *)
Definition cancel_minus_dec (x y : ditv F) : M (ditv F) :=
  mif (mnot (is_valid_dec x) ||| mnot (is_valid_dec y) ||| is_nai x ||| is_nai y) (ret nai)
  (bare <- cancel_minus (fst x) (fst y); ret (bare, trv)).
(** 62-68. *)
Definition cancel_plus_dec (x y : ditv F) : M (ditv F) := y' <- neg_dec y; cancel_minus_dec x y'.
End C.

Section Mixed.
Context (T : fmt) {F G : fmt}.
(** 152-175 and 193-217. *)
Definition cancel_minus_mixed (x : itv F) (y : itv G) : M (itv T) := mixed2 T (@cancel_minus) x y.
Definition cancel_minus_dec_mixed (x : ditv F) (y : ditv G) : M (ditv T) := mixed_dec2 T (@cancel_minus_dec) x y.
End Mixed.

Section MixedPlus.
Context (T : fmt) {F G : fmt}.
(** 50-60 and 70-80: [neg] is the one of flavor<T>, so it converts [y] to T. *)
Definition cancel_plus_mixed (x : itv F) (y : itv G) : M (itv T) :=
  y' <- neg_mixed T y; cancel_minus_mixed T x y'.
Definition cancel_plus_dec_mixed (x : ditv F) (y : ditv G) : M (ditv T) :=
  y' <- neg_dec_mixed T y; cancel_minus_dec_mixed T x y'.
End MixedPlus.
