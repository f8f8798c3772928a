(** * Model: reverse operations of multiplication, square, absolute value, power, cosh

    C++ side: mpfr_bin_ieee754_flavor_mul_rev_to_pair_func_impl.hpp and
    mpfr_bin_ieee754_flavor_rev_func_impl.hpp.

    An MPFR call returns its ternary value: zero if and only if the result is exact.
    The code only asks whether it is zero, so the model keeps one Boolean. *)
From Coq Require Import ZArith NArith Reals Bool List.
From Flocq Require Import Core.Core Calc.Operations IEEE754.BinarySingleNaN.
From Verif Require Import Fmt Spec SpecElem Exc Deco MBase MBool MArith MElem MPow MNum MMixed.

Local Open Scope m_scope.

Section Ternary.
Context {F : fmt}.
Implicit Types a b r : float F.

(** Equality of exact values. *)
Definition exact_eqb (a b : Defs.float radix2) : bool := Z.eqb (Fnum (Fminus a b)) 0.
(** mpfr_div then subnormalize: a division of or by an infinity or by zero is exact. *)
Definition div_inexact a b r : bool :=
  is_finite a && is_finite b && negb (feq b f0) &&
  negb (is_finite r && exact_eqb (Fmult (exact r) (exact b)) (exact a)).
(** mpfr_sqrt then subnormalize. *)
Definition sqrt_inexact a r : bool :=
  is_finite a && negb (is_finite r && exact_eqb (Fmult (exact r) (exact r)) (exact a)).
(** Any other function: the result is not the exact value [v]. *)
Definition inexact (v : R) r : bool := negb (is_finite r && Req_bool (B2R r) v).
Definition acosh_inexact a r : bool := is_finite a && inexact (acoshR (B2R a)) r.

(** mpfr_root, MPFR manual: correctly rounded n-th root; NaN for an even root of a
    negative number; infinities and zeros are fixed points. *)
Definition rootR (n : Z) (r : R) : R :=
  if Rlt_bool r 0 then (- Rpower (- r) (/ IZR n))%R
  else if Req_bool r 0 then 0%R else Rpower r (/ IZR n).
Definition mpfr_root (m : mode) a (n : Z) : float F :=
  match a with
  | B754_nan => fnan
  | B754_zero _ => a
  | B754_infinity s => if s && Z.even n then fnan else a
  | B754_finite s _ _ _ => if s && Z.even n then fnan else rround m s (rootR n (B2R a))
  end.
Definition root_inexact a (n : Z) r : bool := is_finite a && inexact (rootR n (B2R a)) r.
Definition pow_inexact a (p : Z) r : bool := is_finite a && inexact (powerRZ (B2R a) p) r.
End Ternary.

Section Rev.
Context {F : fmt}.
Implicit Types a b c x z : itv F.

(** mul_rev_to_pair_func_impl.hpp:45-244: the pair and the four ternary values. *)
Record pair_t : Type := Pair { p_first : itv F; p_second : itv F;
  t_fl : bool; t_fu : bool; t_sl : bool; t_su : bool }.
Definition one z tl tu : pair_t := Pair z empty tl tu false false.
(** A quotient rounded down / up with its ternary value. *)
Definition divd (a b : float F) := let r := rdiv mode_DN a b in (r, div_inexact a b r).
Definition divu (a b : float F) := let r := rdiv mode_UP a b in (r, div_inexact a b r).
Definition both (l u : float F * bool) : pair_t := one (fst l, fst u) (snd l) (snd u).
Definition below (u : float F * bool) : pair_t := one (fminf, fst u) false (snd u).
Definition above (l : float F * bool) : pair_t := one (fst l, finf) (snd l) false.
Definition split (u l : float F * bool) : pair_t :=
  Pair (fminf, fst u) (fst l, finf) false (snd u) (snd l) false.
Definition only z : pair_t := one z false false.

Definition mul_rev_to_pair_t b c : M pair_t :=
  let bl := fst b in let bu := snd b in let cl := fst c in let cu := snd c in
  mif (mnot (is_valid b) ||| mnot (is_valid c) ||| is_empty b ||| is_empty c) (ret (only empty))
  (mif (is_entire c) (ret (only entire))
  (if feq cl f0 && feq cu f0
   then mif (is_member f0 b) (ret (only entire)) (ret (only (f0, f0)))
   else if fle cu f0 then
     if feq bl f0 && feq bu f0 then mif (is_member f0 c) (ret (only entire)) (ret (only empty)) else
     ret (if flt bl f0 && fgt bu f0 && flt cu f0 then split (divu cu bu) (divd cu bl)
          else if flt bu f0 then both (divd cu bl) (divu cl bu)
          else if feq bu f0 && flt cu f0 then above (divd cu bl)
          else if fgt bl f0 then both (divd cl bl) (divu cu bu)
          else if feq bl f0 && flt cu f0 then below (divu cu bu)
          else only entire)
   else if fge cl f0 then
     if feq bl f0 && feq bu f0 then mif (is_member f0 c) (ret (only entire)) (ret (only empty)) else
     ret (if flt bl f0 && fgt bu f0 && fgt cl f0 then split (divu cl bl) (divd cl bu)
          else if flt bu f0 then both (divd cu bu) (divu cl bl)
          else if feq bu f0 && fgt cl f0 then below (divu cl bl)
          else if fgt bl f0 then both (divd cl bu) (divu cu bl)
          else if feq bl f0 && fgt cl f0 then above (divd cl bu)
          else only entire)
   else
     ret (if feq bl f0 && feq bu f0 then only entire
          else if flt bu f0 then both (divd cu bu) (divu cl bu)
          else if fgt bl f0 then both (divd cl bl) (divu cu bl)
          else only entire))).
(** 249-254. *)
Definition mul_rev_to_pair b c : M (itv F * itv F) :=
  p <- mul_rev_to_pair_t b c; ret (p_first p, p_second p).
(** 289-306, decorated. *)
Definition mul_rev_to_pair_dec (b c : ditv F) : M (ditv F * ditv F) :=
  mif (mnot (is_valid_dec b) ||| mnot (is_valid_dec c) ||| is_nai b ||| is_nai c) (ret (nai, nai))
  (p <- mul_rev_to_pair (fst b) (fst c);
   t <- mif (is_member_dec (@f0 F) b ||| is_empty (fst p)) (ret trv)
        (mif (is_common_interval (fst p)) (ret com) (ret dac));
   ret ((fst p, dmin (dmin (snd b) (snd c)) t), (snd p, trv))).

(** The comparison with [x] that follows in [mul_rev], [sqr_rev], [cosh_rev] and
    [pown_rev]: a branch that only touches [x] at an inexact bound is dropped. *)
Definition trim z (tl tu : bool) x : itv F :=
  if (feq (snd z) (fst x) && tu) || (feq (snd x) (fst z) && tl) then empty else z.
(** convex_hull(intersection(p, x), intersection(n, x)) *)
Definition hull_of p n x : M (itv F) :=
  i <- intersection p x; j <- intersection n x; convex_hull i j.
(** convex_hull(intersection(x, n), intersection(x, p)) *)
Definition hull_of_l x n p : M (itv F) :=
  i <- intersection x n; j <- intersection x p; convex_hull i j.

(** rev_func_impl.hpp:1527-1547 [mul_rev]. *)
Definition mul_rev b c x : M (itv F) :=
  mif (mnot (is_valid b) ||| mnot (is_valid c) ||| mnot (is_valid x)) (ret empty)
  (t <- mul_rev_to_pair_t b c;
   hull_of (trim (p_first t) (t_fl t) (t_fu t) x) (trim (p_second t) (t_sl t) (t_su t) x) x).

(** The common last part of [sqr_rev], [cosh_rev] and the negative even [pown_rev]. *)
Definition even_rev (l u : float F) (tl tu : bool) x : M (itv F) :=
  n <- neg (l, u); hull_of (trim (l, u) tl tu x) (trim n tu tl x) x.

(** rev_func_impl.hpp:45-90 [sqr_rev]. *)
Definition sqr_rev c x : M (itv F) :=
  mif (mnot (is_valid c) ||| mnot (is_valid x) ||| is_empty c ||| is_empty x ||| ret (flt (snd c) f0)) (ret empty)
  (let u := rsqrt mode_UP (snd c) in
   if flt (fst c) f0 then even_rev f0 u false (sqrt_inexact (snd c) u) x
   else let l := rsqrt mode_DN (fst c) in
        even_rev l u (sqrt_inexact (fst c) l) (sqrt_inexact (snd c) u) x).

(** rev_func_impl.hpp:200-213 [abs_rev].  The call std::max(0.0, c.first) has two
    arguments of one type only if T is double; the model does not need that. *)
Definition abs_rev c x : M (itv F) :=
  mif (mnot (is_valid c) ||| mnot (is_valid x) ||| is_empty c ||| is_empty x) (ret empty)
  (if flt (snd c) f0 then ret empty else
   let p := ((if flt f0 (fst c) then fst c else f0), snd c) in
   n <- neg p; hull_of p n x).

(** rev_func_impl.hpp:1371-1416 [cosh_rev]. *)
Definition cosh_rev c x : M (itv F) :=
  mif (mnot (is_valid c) ||| mnot (is_valid x) ||| is_empty c ||| is_empty x ||| ret (flt (snd c) f1)) (ret empty)
  (let u := mpfr_acosh mode_UP (snd c) in
   if flt (fst c) f1 then even_rev f0 u false (acosh_inexact (snd c) u) x
   else let l := mpfr_acosh mode_DN (fst c) in
        even_rev l u (acosh_inexact (fst c) l) (acosh_inexact (snd c) u) x).

(** rev_func_impl.hpp:322-354 [pown_rev_inf] and 358-390 [pown_rev_sup]: the exponent is
    negative.  The loop steps through adjacent numbers; [fuel] bounds the number of
    rounds and [None] means that it did not suffice.  The value of [c] compared with
    the power rounded towards it tells on which side the power lies, whether or not
    the power is additionally rounded to the subnormal grid (the code does not do
    that, [mpfr_pow_si] of the model does). *)
Definition regular (v : float F) : bool := is_finite v && negb (feq v f0).
Fixpoint inf_loop (fuel : nat) (c v : float F) (p : Z) : option (float F * bool) :=
  match fuel with
  | O => None
  | S k =>
      let w := Bsucc v in
      if negb (regular w) then Some (Bpred w, true) else
      let cm := mpfr_pow_si mode_UP w p in
      if flt c cm then inf_loop k c w p else
      if feq c cm && negb (pow_inexact w p cm) then Some (w, false) else Some (Bpred w, true)
  end.
Fixpoint sup_loop (fuel : nat) (c v : float F) (p : Z) : option (float F * bool) :=
  match fuel with
  | O => None
  | S k =>
      let w := Bpred v in
      if negb (regular w) then Some (Bsucc w, true) else
      let cm := mpfr_pow_si mode_DN w p in
      if fgt c cm then sup_loop k c w p else
      if feq c cm && negb (pow_inexact w p cm) then Some (w, false) else Some (Bsucc w, true)
  end.
Definition int_min : Z := (-2147483648)%Z.
Definition pown_rev_inf (fuel : nat) (c : float F) (p : Z) : M (float F * bool) :=
  (* p != -p negates an int *)
  if Z.eqb p int_min then undef else
  let v := mpfr_root mode_UP c (- p) in
  let w := rdiv mode_DN f1 v in
  let t := div_inexact f1 v w || root_inexact c (- p) v in
  if Z.eqb p (-1) || negb t then ret (w, t) else
  match inf_loop fuel c w p with Some r => ret r | None => undef end.
Definition pown_rev_sup (fuel : nat) (c : float F) (p : Z) : M (float F * bool) :=
  if Z.eqb p int_min then undef else
  let v := mpfr_root mode_DN c (- p) in
  let w := rdiv mode_UP f1 v in
  let t := div_inexact f1 v w || root_inexact c (- p) v in
  if Z.eqb p (-1) || negb t then ret (w, t) else
  match sup_loop fuel c w p with Some r => ret r | None => undef end.

(** rev_func_impl.hpp:395-552 [pown_rev].  [fuel] is for the loops above; a result other
    than [undef] does not depend on it. *)
Definition pown_rev (fuel : nat) c x (p : Z) : M (itv F) :=
  let cl := fst c in let cu := snd c in
  mif (mnot (is_valid c) ||| mnot (is_valid x) ||| is_empty c ||| is_empty x) (ret empty)
  (if Z.eqb p 0 then mif (is_member f1 c) (ret x) (ret empty) else
   if Z.eqb p 1 then intersection x c else
   if Z.even p then
     if Z.ltb p 0 then
       if fle cu f0 then ret empty else
       u <- pown_rev_sup fuel (if fle cl f0 then f0 else cl) p;
       l <- pown_rev_inf fuel cu p;
       even_rev (fst l) (fst u) (snd l) (snd u) x
     else
       if flt cu f0 then ret empty else
       let u := mpfr_root mode_UP cu p in
       if fle cl f0 then intersection x (fneg u, u) else
       let l := mpfr_root mode_DN cl p in
       hull_of_l x (fneg u, fneg l) (l, u)
   else
     if Z.ltb p 0 then
       if feq cl f0 && feq cu f0 then ret empty else
       if fge cl f0 || fle cu f0 then
         u <- (if fne cl f0 then pown_rev_sup fuel cl p else ret (finf, false));
         l <- (if fne cu f0 then pown_rev_inf fuel cu p else ret (fminf, false));
         intersection x (trim (fst l, fst u) (snd l) (snd u) x)
       else
         u <- pown_rev_sup fuel cl p;
         l <- pown_rev_inf fuel cu p;
         hull_of_l x (trim (fminf, fst u) false (snd u) x) (trim (fst l, finf) (snd l) false x)
     else
       intersection x (mpfr_root mode_DN cl p, mpfr_root mode_UP cu p)).
End Rev.

(** Decorated versions: sqr_rev 124-132, abs_rev 247-255, pown_rev 591-600,
    cosh_rev 1450-1458 (two operands), mul_rev 1583-1592 (three). *)
Definition rev_dec2 {F} (op : itv F -> itv F -> M (itv F)) (c x : ditv F) : M (ditv F) :=
  mif (mnot (is_valid_dec c) ||| mnot (is_valid_dec x) ||| is_nai c ||| is_nai x) (ret nai)
  (b <- op (fst c) (fst x); ret (b, trv)).
Definition rev_dec3 {F} (op : itv F -> itv F -> itv F -> M (itv F)) (b c x : ditv F) : M (ditv F) :=
  mif (mnot (is_valid_dec b) ||| mnot (is_valid_dec c) ||| mnot (is_valid_dec x) ||| is_nai b ||| is_nai c ||| is_nai x) (ret nai)
  (z <- op (fst b) (fst c) (fst x); ret (z, trv)).
Definition sqr_rev_dec {F} := rev_dec2 (@sqr_rev F).
Definition abs_rev_dec {F} := rev_dec2 (@abs_rev F).
Definition cosh_rev_dec {F} := rev_dec2 (@cosh_rev F).
Definition pown_rev_dec {F} fuel (c x : ditv F) p := rev_dec2 (fun c x => @pown_rev F fuel c x p) c x.
Definition mul_rev_dec {F} := rev_dec3 (@mul_rev F).

(** Versions without [x]: sqr_rev 156-191, abs_rev 279-314, pown_rev 624-659,
    cosh_rev 1482-1517, mul_rev 1618-1659: [x] is entire. *)
Definition sqr_rev1 {F} (c : itv F) := sqr_rev c entire.
Definition abs_rev1 {F} (c : itv F) := abs_rev c entire.
Definition cosh_rev1 {F} (c : itv F) := cosh_rev c entire.
Definition pown_rev1 {F} fuel (c : itv F) p := pown_rev fuel c entire p.
Definition mul_rev2 {F} (b c : itv F) := mul_rev b c entire.
Definition sqr_rev1_dec {F} (c : ditv F) := sqr_rev_dec c entire_dec.
Definition abs_rev1_dec {F} (c : ditv F) := abs_rev_dec c entire_dec.
Definition cosh_rev1_dec {F} (c : ditv F) := cosh_rev_dec c entire_dec.
Definition pown_rev1_dec {F} fuel (c : ditv F) p := pown_rev_dec fuel c entire_dec p.
Definition mul_rev2_dec {F} (b c : ditv F) := mul_rev_dec b c entire_dec.

(** Mixed-type versions: sqr_rev 96-119, abs_rev 219-242, pown_rev 560-586,
    cosh_rev 1422-1445: as [mixed2] but empty operands return early. *)
Definition rev_mixed2 (T : fmt) {F G} (op : forall W, itv W -> itv W -> M (itv W)) (c : itv F) (x : itv G) : M (itv T) :=
  let W := pmax (pmax T F) G in
  mif (mnot (is_valid c) ||| mnot (is_valid x) ||| is_empty c ||| is_empty x) (ret empty)
  (z <- op W (convert_hull W c) (convert_hull W x); ret (convert_hull T z)).
Definition sqr_rev_mixed T {F G} := @rev_mixed2 T F G (@sqr_rev).
Definition abs_rev_mixed T {F G} := @rev_mixed2 T F G (@abs_rev).
Definition cosh_rev_mixed T {F G} := @rev_mixed2 T F G (@cosh_rev).
Definition pown_rev_mixed T {F G} fuel (c : itv F) (x : itv G) p :=
  @rev_mixed2 T F G (fun W c x => @pown_rev W fuel c x p) c x.
(** mul_rev 1553-1578. *)
Definition mul_rev_mixed T {F G H} := @mixed3 T F G H (@mul_rev).
(** mul_rev_to_pair_func_impl.hpp:262-283.  The text lacks a [return] after the validity
    test: the operands are only tested (which signals), then the operation runs. *)
Definition mul_rev_to_pair_mixed (T : fmt) {F G} (b : itv F) (c : itv G) : M (itv T * itv T) :=
  let W := pmax (pmax T F) G in
  (mnot (is_valid b) ||| mnot (is_valid c));;
  (p <- mul_rev_to_pair (convert_hull W b) (convert_hull W c);
   ret (convert_hull T (fst p), convert_hull T (snd p))).
(** Mixed decorated: sqr_rev 138-150, abs_rev 261-273, pown_rev 606-618,
    cosh_rev 1464-1476, mul_rev 1598-1612: bare mixed version decorated trv. *)
Definition rev_mixed_dec2 (T : fmt) {F G} (op : itv F -> itv G -> M (itv T)) (c : ditv F) (x : ditv G) : M (ditv T) :=
  mif (mnot (is_valid_dec c) ||| mnot (is_valid_dec x) ||| is_nai c ||| is_nai x) (ret nai)
  (b <- op (fst c) (fst x); ret (b, trv)).
Definition sqr_rev_dec_mixed T {F G} := rev_mixed_dec2 T (@sqr_rev_mixed T F G).
Definition abs_rev_dec_mixed T {F G} := rev_mixed_dec2 T (@abs_rev_mixed T F G).
Definition cosh_rev_dec_mixed T {F G} := rev_mixed_dec2 T (@cosh_rev_mixed T F G).
Definition pown_rev_dec_mixed T {F G} fuel (c : ditv F) (x : ditv G) p :=
  rev_mixed_dec2 T (fun c x => @pown_rev_mixed T F G fuel c x p) c x.
Definition mul_rev_dec_mixed T {F G H} (b : ditv F) (c : ditv G) (x : ditv H) : M (ditv T) :=
  mif (mnot (is_valid_dec b) ||| mnot (is_valid_dec c) ||| mnot (is_valid_dec x) ||| is_nai b ||| is_nai c ||| is_nai x) (ret nai)
  (z <- mul_rev_mixed T (fst b) (fst c) (fst x); ret (z, trv)).
(** mul_rev_to_pair_func_impl.hpp:312-334, decorated, again without the [return]. *)
Definition mul_rev_to_pair_dec_mixed (T : fmt) {F G} (b : ditv F) (c : ditv G) : M (ditv T * ditv T) :=
  let W := pmax (pmax T F) G in
  (mnot (is_valid_dec b) ||| mnot (is_valid_dec c) ||| is_nai b ||| is_nai c);;
  (b' <- convert_hull_dec W b; c' <- convert_hull_dec W c;
   p <- mul_rev_to_pair_dec b' c';
   u <- convert_hull_dec T (fst p); v <- convert_hull_dec T (snd p); ret (u, v)).
