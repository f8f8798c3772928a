(** * Model: reading intervals

    C++ side: mpfr_bin_ieee754_flavor_io_impl.hpp:489-1408 (operator_text_to_interval),
    mpfr_bin_ieee754_flavor_class_impl.hpp:255-307 (text_to_interval,
    text_to_decorated_interval).
    Simplifications: memory is unlimited (GMP computes every power of ten and two), the
    functions of GMP are exact, the exceptions of the stream are switched off.  As everywhere
    (MMpfr.v) mpfr_set_q, subnormalize and get<T> round the exact value once. *)
From Coq Require Import ZArith NArith Reals Bool Ascii String List.
From Flocq Require Import Core.Core IEEE754.BinarySingleNaN Calc.Div.
From Verif Require Import Fmt Spec Exc Deco MBase MStream MDecoIo MText MRegex.
Import ListNotations.

Local Open Scope Z_scope.
Local Open Scope list_scope.
Local Open Scope m_scope.

(** ** int *)
Definition int_max : Z := 2147483647.
Definition is_int (v : Z) : bool := (- int_max - 1 <=? v) && (v <=? int_max).
(** Arithmetic on int: overflow is undefined behaviour. *)
Definition ichk {A} (v : Z) (k : M A) : M A := if is_int v then k else undef.
(** Conversion of an integer to int, modulo 2^32. *)
Definition to_int (v : Z) : Z := (v + 2 ^ 31) mod 2 ^ 32 - 2 ^ 31.

(** ** Texts to numbers *)
Fixpoint digits_val (b acc : Z) (l : text) : option Z :=
  match l with
  | [] => Some acc
  | c :: l' => match digit c with
               | Some d => if Z.of_N d <? b then digits_val b (acc * b + Z.of_N d) l' else None
               | None => None
               end
  end.
Definition nat_val (b : Z) (l : text) : option Z := match l with [] => None | _ => digits_val b 0 l end.
(** mpz_set_str with base 10 or 0 (None: it returns -1): an optional minus sign; base 0
    looks at a prefix 0x or 0X, 0b or 0B, 0.  White space in the text, which GMP skips, does
    not occur. *)
Definition is_b (c : ascii) : bool := ceq (tolower c) "b".
Definition nat_val0 (l : text) : option Z :=
  match l with
  | z :: x :: l' => if ceq z "0" then if is_x x then nat_val 16 l' else if is_b x then nat_val 2 l' else nat_val 8 l
                    else nat_val 10 l
  | _ => nat_val 10 l
  end.
Definition with_minus (f : text -> option Z) (l : text) : option Z :=
  match l with c :: l' => if ceq c "-" then option_map Z.opp (f l') else f l | [] => f l end.
Definition mpz_set_str10 : text -> option Z := with_minus (nat_val 10).
Definition mpz_set_str0 : text -> option Z := with_minus nat_val0.
(** std::stoi of [+-]?[0-9]+: std::out_of_range beyond int *)
Definition stoi (l : text) : M Z :=
  let v := match l with
           | c :: l' => if ceq c "-" then option_map Z.opp (nat_val 10 l')
                        else if ceq c "+" then nat_val 10 l' else nat_val 10 l
           | [] => None end in
  match v with
  | Some n => if is_int n then ret n else fun s => (Throw Out_of_range, s)
  | None => undef     (* std::invalid_argument, not reached *)
  end.

(** n_str.find('.'); n_str.erase(p,1); p = -(n_str.size() - p): the digits without the point
    and minus the number of digits behind it *)
Fixpoint find_point (l : text) : option nat :=
  match l with [] => None | c :: l' => if is_point c then Some 0%nat else option_map S (find_point l') end.
Definition erase (n : nat) (l : text) : text := firstn n l ++ skipn (S n) l.
Definition remove_point (l : text) : text * Z :=
  match find_point l with
  | None => (l, 0)
  | Some i => let p := to_int (Z.of_nat i) in
              if 0 <=? p then let l' := erase (Z.to_nat p) l in (l', to_int (- (Z.of_nat (length l') - p)))
              else (l, 0)
  end.

(** A rational number; the denominator is positive. *)
Definition mpq : Type := (Z * Z)%type.
Definition mpq_val (q : mpq) : R := (IZR (fst q) / IZR (snd q))%R.
Definition mpq_le (a b : mpq) : bool := fst a * snd b <=? fst b * snd a.
(** n * b^p: mpz_ui_pow_ui with std::abs(p), mpq_inv, mpq_mul *)
Definition scaled (b n p : Z) : M mpq := ichk (Z.abs p) (ret (shift b p n 1)).

(** float, lines 686-716: None if the number is not accepted by mpz_set_str *)
Definition read_float (num ex : text) : M (option mpq) :=
  let '(n_str, p) := remove_point num in
  match mpz_set_str10 n_str with
  | None => ret None
  | Some n => match ex with
              | [] => q <- scaled 10 n p; ret (Some q)
              | _ => e <- stoi ex; ichk (p + e) (q <- scaled 10 n (p + e); ret (Some q))
              end
  end.
(** hex, lines 733-765 *)
Definition read_hex (num ex : text) : M (option mpq) :=
  let '(n_str, p) := remove_point num in
  ichk (p * 4)
  (match mpz_set_str0 n_str with
   | None => ret None
   | Some n => e <- stoi ex; ichk (p * 4 + e) (q <- scaled 2 n (p * 4 + e); ret (Some q))
   end).
(** rational, line 789: mpq_set_str(num + "/" + den), which does not reduce the fraction *)
Definition read_rational (num den : text) : M (option mpq) :=
  ret (match mpz_set_str10 num, mpz_set_str10 den with Some n, Some d => Some (n, d) | _, _ => None end).
(** The number with the groups n, ..., n+5; None also if there is none. *)
Definition read_number (c : caps) (n : nat) : M (option mpq) :=
  if matched c n then read_float (cap c n) (cap c (n + 1))
  else if matched c (n + 2) then read_hex (cap c (n + 2)) (cap c (n + 3))
  else if matched c (n + 4) then read_rational (cap c (n + 4)) (cap c (n + 5))
  else ret None.

Section Read.
Context {F : fmt}.
(** The number with the given sign, mantissa and exponent. *)
Definition of_sf (z : SpecFloat.spec_float) : float F :=
  match z with
  | SpecFloat.S754_zero s => B754_zero s
  | SpecFloat.S754_infinity s => B754_infinity s
  | SpecFloat.S754_nan => B754_nan
  | SpecFloat.S754_finite s m e => binary_normalize (prec F) (emax F) _ _ mode_NE (cond_Zopp s (Zpos m)) e s
  end.
(** Correct rounding of n/d, as a computation (PQround.v: it is [rround] of the quotient). *)
Definition qround (m : mode) (n d : Z) : float F :=
  let n := Z.sgn d * n in
  if n =? 0 then f0
  else let '(q, e, l) := Fdiv (fexp F) (Defs.Float radix2 (Z.abs n) 0) (Defs.Float radix2 (Z.abs d) 0) in
       of_sf (binary_round_aux (prec F) (emax F) m (n <? 0) q e l).
(** l.subnormalize(mpfr_set_q(l(), q, rnd), rnd); l.get<T>(rnd) *)
Definition rnd_q (m : mode) (q : mpq) : float F := qround m (fst q) (snd q).

(** ** The bounds and the strongest decoration of a matched literal *)
(** lines 655-805 *)
Definition one_argument (c : caps) : M (itv F * deco) :=
  if matched c 8 || negb (matched c 1) then ret (empty, trv)
  else if matched c 9 then ret (entire, dac)
  else if matched c 10 then ret (empty, ill)
  else q <- read_number c 2;
       ret (match q with Some v => (rnd_q mode_DN v, rnd_q mode_UP v) | None => (f1, fm1) end, com).
(** lines 808-1060: [l] and [u] with the rational they come from, None for an infinite bound *)
Definition two_arguments (c : caps) : M (itv F * deco) :=
  let no_l := matched c 18 || negb (matched c 11) in
  let no_u := matched c 27 || negb (matched c 20) in
  ql <- (if no_l then ret None else read_number c 12);
  qu <- (if no_u then ret None else read_number c 21);
  let l := if no_l then fminf else match ql with Some q => rnd_q mode_DN q | None => finf end in
  let u := if no_u then finf else match qu with Some q => rnd_q mode_UP q | None => fminf end in
  (* a number that was not accepted leaves the value 0 in ql, qu *)
  let zero := (0, 1) in
  let ordered := mpq_le (match ql with Some q => q | None => zero end) (match qu with Some q => q | None => zero end) in
  ret (if fle l u && (no_l || no_u || ordered) then (l, u) else (f1, fm1), if no_l || no_u then dac else com).
Definition literal_value (c : caps) : M (itv F * deco) :=
  if matched c 19 then two_arguments c else one_argument c.

(** lines 1192-1316, None if a number is not accepted *)
Definition uncertain_value (c : caps) : M (option (itv F * deco)) :=
  let '(m_str, p) := remove_point (cap c 1) in
  let im := mpz_set_str10 m_str in
  let iu := if matched c 3 then mpz_set_str10 (cap c 3) else Some 5 in
  let m := match im with Some m => m | None => 0 end in
  let '(m, p) := if matched c 3 then (m, p) else (m * 10, p - 1) in
  ichk p
  (match im, iu with
   | Some _, Some ulps =>
     p <- (if matched c 6 then e <- stoi (cap c 6); ichk (p + e) (ret (p + e)) else ret p);
     let at_ n := scaled 10 n p in
     if matched c 2 then
       q <- at_ m;
       ret (Some (if matched c 4 then (rnd_q mode_DN q, finf)
                  else if matched c 5 then (fminf, rnd_q mode_UP q) else entire, dac))
     else
       ql <- at_ (if matched c 4 then m else m - ulps);
       qu <- at_ (if matched c 4 then m + ulps else if matched c 5 then m else m + ulps);
       ret (Some ((rnd_q mode_DN ql, rnd_q mode_UP qu), com))
   | _, _ => ret None
   end).

(** ** Reading *)
Definition bounds_ok (x : itv F) : bool := fle (fst x) (snd x) && fne (fst x) finf && fne (snd x) fminf.
Definition peek_is (p : ascii -> bool) (s : istream) : bool * istream :=
  let '(c, s1) := peek s in (match c with Some a => p a | None => false end, s1).
(** is.peek() == a || is.peek() == b || ... *)
Fixpoint peek_any (l : text) (s : istream) : bool * istream :=
  match l with
  | [] => (false, s)
  | a :: l' => let '(b, s1) := peek_is (ceq a) s in if b then (true, s1) else peek_any l' s1
  end.
(** What operator>> leaves: the value assigned, None if there is none, and the stream. *)
Definition failed (s : istream) : M (option (ditv F) * istream) := ret (None, setfail s).
(** lines 1067-1109, 1335-1383 *)
Definition with_decoration (bare : itv F) (dec : deco) (s : istream) : M (option (ditv F) * istream) :=
  let '(read_decoration, s1) := if ok s then peek_is (ceq "_") s else (false, s) in
  if read_decoration then
    if ok s1 && negb (deq dec ill) then
      let '(d, s3) := read_deco (snd (get s1)) in
      match d with
      | Some d =>
        if ok s3 && N.leb d dec && negb (deq d ill)
        then x <- set_dec bare (if isinf (fst bare) || isinf (snd bare) then dmin d dac else d); ret (Some x, s3)
        else failed s3
      | None => failed s3
      end
    else failed s1
  else
    x <- (if deq dec ill then ret nai else new_dec bare);
    ret (Some x, if eofbit s1 then clear s1 else s1).

(** lines 560-567: the characters up to a closing bracket; [l] is what is left of the input.
    At its end get() fails. *)
Fixpoint read_bracket (l acc : text) (s : istream) : text * istream :=
  let '(c, s1) := peek s in
  if ok s1 then
    let '(g, s2) := get s1 in
    match c, l with
    | Some a, _ :: l' => if ceq a "]" then (acc ++ [a], s2) else read_bracket l' (acc ++ [a]) s2
    | _, _ => (acc, snd (peek s2))
    end
  else (acc, s1).
(** lines 545-1114 *)
Definition read_inf_sup (s : istream) : M (option (ditv F) * istream) :=
  let '(input, s1) := read_bracket (rest s) [] s in
  if ok s1 then
    match regex_match inf_sup_regex input with
    | Some c =>
      v <- literal_value c;
      if (isnan (fst (fst v)) && isnan (snd (fst v))) || bounds_ok (fst v)
      then with_decoration (fst v) (snd v) s1 else failed s1
    | None => failed s1
    end
  else failed s1.

(** lines 1125-1131 *)
Definition in_number (c : ascii) : bool := isdigit c || ceq c "." || ceq c "?" || ceq c "+" || ceq c "-".
Fixpoint read_uncertain_number (l acc : text) (s : istream) : text * istream :=
  let '(c, s1) := peek s in
  match c, l with
  | Some a, _ :: l' =>
    if ok s1 && in_number a then
      let s2 := snd (get s1) in
      if ceq a "?" then (acc ++ [a], s2) else read_uncertain_number l' (acc ++ [a]) s2
    else (acc, s1)
  | _, _ => (acc, s1)
  end.
(** while (cond(is) && std::isdigit(is.peek())) input += is.get(); *)
Fixpoint read_digits (cond : istream -> bool) (l acc : text) (s : istream) : text * istream :=
  if cond s then
    let '(c, s1) := peek s in
    match c, l with
    | Some a, _ :: l' => if isdigit a then read_digits cond l' (acc ++ [a]) (snd (get s1)) else (acc, s1)
    | _, _ => (acc, s1)
    end
  else (acc, s).
(** if (cond(is) && (is.peek() == ...)) input += is.get(); *)
Definition read_one (cond : istream -> bool) (set acc : text) (s : istream) : bool * text * istream :=
  if cond s then
    let '(b, s1) := peek_any set s in
    if b then match get s1 with (Some a, s2) => (true, acc ++ [a], s2) | (None, s2) => (true, acc, s2) end
    else (false, acc, s1)
  else (false, acc, s).
(** lines 1133-1163 *)
Definition read_uncertain_text (s : istream) : text * istream :=
  let '(t, s) := read_uncertain_number (rest s) [] s in
  let '(b, t, s) := read_one ok (txt "?") t s in
  let '(t, s) := if b then (t, s) else read_digits ok (rest s) t s in
  let '(_, t, s) := read_one ok (txt "dDuU") t s in
  let '(b, t, s) := read_one ok (txt "eE") t s in
  if b then
    let '(_, t, s) := read_one good (txt "-+") t s in read_digits good (rest s) t s
  else (t, s).
(** lines 1116-1400 *)
Definition read_uncertain (s : istream) : M (option (ditv F) * istream) :=
  let '(b, s1) := if ok s then peek_any (txt "+-.") s else (false, s) in
  let '(b, s1) := if b then (b, s1) else if ok s then peek_is isdigit s1 else (false, s1) in
  if b then
    let '(input, s2) := read_uncertain_text s1 in
    if ok s2 || eofbit s2 then
      match regex_match uncertain_regex input with
      | Some c =>
        v <- uncertain_value c;
        match v with
        | Some v => if bounds_ok (fst v) then with_decoration (fst v) (snd v) s2 else failed s2
        | None => failed s2
        end
      | None => failed s2
      end
    else failed s2
  else failed s1.

(** lines 509-1408 *)
Definition read_ditv (s : istream) : M (option (ditv F) * istream) :=
  let s1 := if skipws s then remove_ws s else s in
  if ok s1 then
    let '(b, s2) := peek_is (ceq "[") s1 in
    if b then read_inf_sup s2 else read_uncertain s2
  else failed s1.
(** lines 489-503 *)
Definition read_itv (s : istream) : M (option (itv F) * istream) :=
  r <- read_ditv s;
  match r with
  | (Some x, s1) => if ok s1 then z <- interval_part x; ret (Some z, s1) else ret (None, s1)
  | (None, s1) => if ok s1 then undef else ret (None, s1)   (* an uninitialised pair, not reached *)
  end.

(** ** Constructors from a string *)
Definition string_stream (t : text) : istream := Istream t false false false true b_dec.
(** while (s.get(c)) if (!std::isspace(c)): [c] is a char; std::isspace of a negative value
    is undefined behaviour. *)
Fixpoint only_blanks (l : text) : M bool :=
  match l with
  | [] => ret true
  | c :: l' => if (code c <? 128)%N then if isspace c then only_blanks l' else ret false else undef
  end.
Definition unread (s : istream) : text := if good s then rest s else [].
(** class_impl.hpp:283-307 *)
Definition text_to_decorated_interval (t : text) : M (ditv F) :=
  r <- read_ditv (string_stream t);
  match r with
  | (Some x, s) => if ok s then mif (only_blanks (unread s)) (ret x) (signal_undefined_operation ;; ret nai)
                   else signal_undefined_operation ;; ret nai
  | (None, s) => signal_undefined_operation ;; ret nai
  end.
(** class_impl.hpp:256-280 *)
Definition text_to_interval (t : text) : M (itv F) :=
  r <- read_itv (string_stream t);
  match r with
  | (Some x, s) => if ok s then mif (only_blanks (unread s)) (ret x) (signal_undefined_operation ;; ret empty)
                   else signal_undefined_operation ;; ret empty
  | (None, s) => signal_undefined_operation ;; ret empty
  end.
End Read.
