(** * Model: writing intervals in inf-sup form

    C++ side: p1788/util/mpfr_var_impl.hpp:226-365 (get_str), io_impl.hpp
    (mpfr_bin_ieee754_flavor_io_impl.hpp):43-52 and 334-485 (operator_interval_to_text without the
    uncertain forms).
    Simplifications: widths, precisions and lengths of texts are below 2^31, so conversions
    between long, size_t and int do not change them. *)
From Coq Require Import ZArith NArith Reals Bool Ascii String List.
From Flocq Require Import Core.Core IEEE754.BinarySingleNaN.
From Verif Require Import Fmt Spec Exc Deco MBase MBool MNum MStream MDecoIo MText MMpfr.
Import ListNotations.

(** p1788/io/io_manip.hpp:80-100, 173-181, 238-304, 350-356 *)
Inductive number_rep : Type := r_decsci | r_decimal | r_scientific | r_hex.
Inductive special_rep : Type := s_text | s_bounds | s_no_bounds.
Record manip : Type := Manip {
  m_number : number_rep; m_width : N; m_precision : N; m_special : special_rep;
  m_punct : bool;            (* show_punctuation *)
  m_string_width : N }.

(** ** get_str *)
(** size_t and unsigned long arithmetic *)
Definition ulong (n : N) : N := (n mod 2 ^ 64)%N.
(** mpfr_get_ui: saturating, NaN gives 0. *)
Definition get_ui (m : mode) (v : mval) : N :=
  match v with
  | VNaN => 0%N | VInf true => 0%N | VInf false => (2 ^ 64 - 1)%N
  | VNum r => Z.to_N (Z.min (2 ^ 64 - 1) (Z.max 0 (round_mode m r)))
  end.
Definition log10 (r : R) : R := (ln r / ln 10)%R.
(** mpfr_log10 of a value that is not negative *)
Definition mp_log10 (E : genv) (p : Z) (m : mode) (v : mval) : mval :=
  match v with
  | VNum r => if Req_bool r 0 then VInf true else fst (mp_call E p m (log10 r))
  | _ => v
  end.
(** |x| *)
Definition mp_abs {F : fmt} (x : float F) : mval :=
  match x with B754_nan => VNaN | B754_infinity _ => VInf false | _ => VNum (Rabs (B2R x)) end.
(** mpfr_div_d(x, x, c, MPFR_RNDU), c > 0 *)
Definition mp_div_up (E : genv) (p : Z) (v : mval) (c : R) : mval :=
  match v with VNum r => fst (mp_call E p mode_UP (r / c)) | _ => v end.

Section GetStr.
Context {F : fmt}.
(** lines 248-250, 309-311: integer digits of |x| *)
Definition req_digits (E : genv) (x : float F) : N :=
  get_ui mode_DN (mp_log10 E (prec F) mode_UP (mp_abs x)).
(** lines 267-269, 290-292, 314-316: digits of the exponent *)
Definition req_exp (E : genv) : N :=
  let big := (Z.max (- v_emin (var_of F)) (v_emax (var_of F)) + 1)%Z in
  get_ui mode_DN (mp_log10 E (prec F) mode_UP (mp_div_up E (prec F) (fst (mp_call E (prec F) mode_UP (IZR big))) 3)).
(** lines 286-287: hexadecimal digits *)
Definition req_prec (E : genv) : N :=
  get_ui mode_UP (mp_div_up E (prec F) (fst (mp_call E (prec F) mode_UP (IZR (prec F)))) 4).

(** The computation of req_string_width.  The conditional operator binds weaker than "+" and
    ">", so "a + precision > 0 ? precision : 6 + b" is "(a + precision > 0) ? precision : (6 + b)". *)
Definition req_width (E : genv) (r : number_rep) (p : N) (x : float F) : N :=
  (match r with
   | r_decimal =>                                                     (* lines 252-255 *)
     if 0 <? ulong (1 + req_digits E x + 1 + 3 + p) then p else 6
   | r_scientific =>                                                  (* lines 271-274 *)
     if 0 <? ulong (3 + p) then p else ulong (6 + 2 + req_exp E + 1)
   | r_hex => ulong (5 + req_prec E + 1 + 2 + req_exp E + 1)          (* lines 294-297 *)
   | r_decsci =>                                                      (* lines 318-323 *)
     if 0 <? ulong (1 + req_digits E x + 1 + 3 + p) then p else ulong (6 + 2 + req_exp E + 1)
   end)%N.
Definition buffer_size (E : genv) (r : number_rep) (w p : N) (x : float F) : N :=
  (N.max w (req_width E r p x) + 1)%N.                                  (* lines 257-258, ..., 339 *)

Definition conversion_of (r : number_rep) : conversion :=
  match r with r_decimal => c_f | r_scientific => c_e | r_hex => c_a | r_decsci => c_g end.
Definition precision_of (r : number_rep) (p : N) : option nat :=
  if (0 <? p)%N then Some (N.to_nat p) else match r with r_hex => None | _ => Some 6%nat end.
(** lines 229-355: writing behind the end of the buffer is undefined behaviour *)
Definition get_str (E : genv) (m : mode) (r : number_rep) (w p : N) (up : bool) (x : float F) : M text :=
  let t := sprintf (N.to_nat w) (conversion_of r) up m (precision_of r p) x in
  if (N.of_nat (length t) + 1 <=? buffer_size E r w p x)%N then ret t else undef.
End GetStr.

(** ** Intervals *)
(** os << a << b << ...: only the first item is padded to os.width() *)
Definition put_parts (o : ostream) (l : list text) : text :=
  match l with [] => [] | a :: l' => pad o [] a ++ concat l' end.
Definition blanks (n : nat) : text := spaces n " ".
Local Open Scope string_scope.
Local Open Scope list_scope.
Local Open Scope m_scope.

Section Print.
Context {F : fmt}.
(** After mpfr_var::setup() the global range of MPFR is that of F. *)
Definition setup_env : genv := setup (var_of F) (Genv 0 0).
(** lines 337-390: the five parts *)
Definition parts (o : ostream) (f : manip) (x : itv F) : M (text * text * text * text * text) :=
  let lit a b := txt (if m_punct f then a else b) in
  mif ((is_empty x ||| is_entire x) &&& ret (match m_special f with s_bounds => false | _ => true end))
   (e <- is_empty x;
    let words := txt (if o_upper_text o then (if (e : bool) then "EMPTY" else "ENTIRE")
                      else (if e then "empty" else "entire")) in
    let part3 := match m_special f, m_punct f with
      | s_no_bounds, true => txt (if e then " " else ",")
      | _, _ => words end in
    let n := (length part3 - 1)%nat in
    let w := N.to_nat (m_width f) in
    ret (lit "[" "", blanks (w - n / 2), part3, blanks (w - (n - n / 2)), lit "]" ""))
   (a <- n_inf x;
    l <- get_str setup_env mode_DN (m_number f) (m_width f) (m_precision f) (o_upper_text o) a;
    b <- n_sup x;
    u <- get_str setup_env mode_UP (m_number f) (m_width f) (m_precision f) (o_upper_text o) b;
    ret (lit "[" "", l, lit "," " ", u, lit "]" "")).
(** lines 51-52, 393-403 *)
Definition write_itv (o : ostream) (f : manip) (x : itv F) : M text :=
  mif (mnot (is_valid x)) (ret [])
   (ps <- parts o f x;
    let '(p1, p2, p3, p4, p5) := ps in
    let width := (N.to_nat (m_string_width f) - length (p1 ++ p2 ++ p3 ++ p4 ++ p5))%nat in
    ret (put_parts o [p1; blanks (width / 2); p2; p3; blanks (width - width / 2); p4; p5])).

(** lines 407-485 *)
Definition set_string_width (n : N) (f : manip) : manip :=
  Manip (m_number f) (m_width f) (m_precision f) (m_special f) (m_punct f) n.
Definition no_width (o : ostream) : ostream :=
  Ostream (o_base o) (o_showbase o) (o_upper o) 0 (o_fill o) (o_adjust o) (o_dec_numeric o) (o_upper_text o).
Definition write_ditv (o : ostream) (f : manip) (x : ditv F) : M text :=
  mif (mnot (is_valid_dec x)) (ret [])
  (mif (is_nai x)
    (let w := N.to_nat (m_width f) in
     let part1 := txt (if m_punct f then "[" else "") ++ blanks (w - 1) in
     let part2 := txt (if o_upper_text o then "NAI" else "nai") in
     let part3 := blanks (w - 1) ++ txt (if m_punct f then "]" else "") in
     let width := (N.to_nat (m_string_width f) - length (part1 ++ part2 ++ part3))%nat in
     ret (put_parts o [part1; blanks (width / 2); part2; blanks (width - width / 2); part3]))
  (mif (is_empty_dec x) (write_itv o f (fst x))
    (let buf := put_parts o [txt (if m_punct f then "_" else " ")] ++ write_deco (no_width o) (snd x) in
     t <- write_itv o (set_string_width (m_string_width f - N.of_nat (length buf)) f) (fst x);
     ret (t ++ buf)))).
End Print.
