(** * Model: numbers as text (mpfr_sprintf)

    External code, written after the manuals of MPFR (Formatted Output Functions) and C99
    (fprintf): conversions "%[width][.precision]R*{f,e,g,a}" of a number of format F.
    The cases of test/p1788/util/test_mpfr_var.cpp:262-360 hold of this model (PText.v).
    Simplification: width and precision are not limited to the range of int. *)
From Coq Require Import ZArith NArith Bool Ascii String List.
From Flocq Require Import Core.Core IEEE754.BinarySingleNaN.
From Verif Require Import Fmt MStream.
Import ListNotations.
Local Open Scope Z_scope.

(** ** Digits *)
(** The least k >= 1 with n < b^k, that is the number of digits of n >= 0. *)
Fixpoint ndig_from (fuel : nat) (b n : Z) : nat :=
  match fuel with
  | O => 1%nat
  | S f => if n <? b then 1%nat else S (ndig_from f b (n / b))
  end.
Definition ndig (b n : Z) : nat := ndig_from (Z.to_nat (Z.log2 n)) b n.
Definition dchar (upper : bool) (d : Z) : ascii := digit_char upper (Z.to_N d).
(** The last k digits of n. *)
Fixpoint fixdigs (up : bool) (b : Z) (k : nat) (n : Z) : text :=
  match k with O => [] | S k' => fixdigs up b k' (n / b) ++ [dchar up (n mod b)] end.
Definition digs (up : bool) (b n : Z) : text := fixdigs up b (ndig b n) n.

(** ** Rounding the magnitude n/d, n >= 0, d > 0, of a number with sign s *)
Definition rquo (m : mode) (s : bool) (n d : Z) : Z :=
  let q := n / d in let r := n mod d in
  let away := match m with
    | mode_DN => s && negb (r =? 0)
    | mode_UP => negb s && negb (r =? 0)
    | mode_ZR => false
    | mode_NE => (d <? 2 * r) || ((2 * r =? d) && Z.odd q)
    | mode_NA => d <=? 2 * r end in
  if away then q + 1 else q.
(** n/d * b^k *)
Definition shift (b k n d : Z) : Z * Z := if 0 <=? k then (n * b ^ k, d) else (n, d * b ^ (- k)).
(** floor (log_b (n/d)), n > 0 *)
Definition ilog (b n d : Z) : Z :=
  if d <=? n then Z.of_nat (ndig b (n / d)) - 1 else - Z.of_nat (ndig b ((d - 1) / n)).

(** Numerator and denominator of m 2^e. *)
Definition frac (ma e : Z) : Z * Z := shift 2 e ma 1.

(** [p+1] digits in base b: n/d is about N * b^(k-p), b^p <= N < b^(p+1) (N = 0 and k = 0 for zero). *)
Definition sci (b : Z) (m : mode) (s : bool) (p : nat) (n d : Z) : Z * Z :=
  if n =? 0 then (0, 0) else
  let k := ilog b n d in
  let '(n', d') := shift b (Z.of_nat p - k) n d in
  let N := rquo m s n' d' in
  if N =? b ^ (Z.of_nat p + 1) then (b ^ Z.of_nat p, k + 1) else (N, k).

Definition sign_text (s : bool) : text := if s then txt "-" else [].
Definition esign (k : Z) : text := if k <? 0 then txt "-" else txt "+".
Definition point (l : text) : text := match l with [] => [] | _ => txt "." ++ l end.
Fixpoint strip (l : text) : text :=       (* without trailing zeros *)
  match l with
  | [] => []
  | c :: l' => match strip l' with [] => if ceq c "0" then [] else [c] | r => c :: r end
  end.

(** N * b^-p with p digits after the point. *)
Definition body (up : bool) (b : Z) (p : nat) (N : Z) (z : text -> text) : text :=
  digs up b (N / b ^ Z.of_nat p) ++ point (z (fixdigs up b p N)).
(** Exponent of 'e': at least two digits. *)
Definition exp10 (up : bool) (k : Z) : text :=
  txt (if up then "E" else "e") ++ esign k ++ fixdigs false 10 (Nat.max 2 (ndig 10 (Z.abs k))) (Z.abs k).
Definition exp2 (up : bool) (k : Z) : text :=
  txt (if up then "P" else "p") ++ esign k ++ digs false 10 (Z.abs k).
Definition keep (l : text) : text := l.

Definition conv_f (m : mode) (s : bool) (p : nat) (n d : Z) : text :=
  body false 10 p (rquo m s (n * 10 ^ Z.of_nat p) d) keep.
Definition conv_e (up : bool) (m : mode) (s : bool) (p : nat) (n d : Z) : text :=
  let '(N, k) := sci 10 m s p n d in body false 10 p N keep ++ exp10 up k.
(** P > 0 significant digits *)
Definition conv_g (up : bool) (m : mode) (s : bool) (P : nat) (n d : Z) : text :=
  let p := Nat.pred P in
  let '(N, k) := sci 10 m s p n d in
  if (-4 <=? k) && (k <? Z.of_nat P)
  then let q := Z.to_nat (Z.of_nat p - k) in body false 10 q (rquo m s (n * 10 ^ Z.of_nat q) d) strip
  else body false 10 p N strip ++ exp10 up k.
(** Without a precision all digits are written. *)
Definition conv_a (up : bool) (m : mode) (s : bool) (p : nat) (n d : Z) : text :=
  let '(N, k) := sci 16 m s p n d in body up 16 p N keep ++ exp2 up (4 * k).
(** ma * 2^e *)
Definition conv_a_exact (up : bool) (ma e : Z) : text :=
  let k := if ma =? 0 then 0 else (Z.log2 ma + e) / 4 in
  let j := Z.max 0 ((4 * k - e + 3) / 4) in        (* enough digits *)
  body up 16 (Z.to_nat j) (ma * 2 ^ (e + 4 * (j - k))) strip ++ exp2 up (4 * k).

Inductive conversion : Type := c_f | c_e | c_g | c_a.
(** "%R*x" of ma * 2^e with sign s *)
Definition conv (c : conversion) (up : bool) (m : mode) (p : option nat) (s : bool) (ma e : Z) : text :=
  let '(n, d) := frac ma e in
  let q := match p with Some q => q | None => 6%nat end in
  match c with
  | c_f => conv_f m s q n d
  | c_e => conv_e up m s q n d
  | c_g => conv_g up m s q n d
  | c_a => txt (if up then "0X" else "0x") ++ match p with Some q => conv_a up m s q n d | None => conv_a_exact up ma e end
  end.
Definition number_text {F : fmt} (c : conversion) (up : bool) (m : mode) (p : option nat) (x : float F) : text :=
  match x with
  | B754_nan => txt (if up then "NAN" else "nan")
  | B754_infinity s => sign_text s ++ txt (if up then "INF" else "inf")
  | B754_zero s => sign_text s ++ conv c up m p s 0 0
  | B754_finite s ma e _ => sign_text s ++ conv c up m p s (Zpos ma) e
  end.
Definition padded (w : nat) (l : text) : text := spaces (w - length l) " " ++ l.
Definition sprintf {F : fmt} (w : nat) (c : conversion) (up : bool) (m : mode) (p : option nat) (x : float F) : text :=
  padded w (number_text c up m p x).
