(** * Model: writing intervals in uncertain form

    C++ side: io_impl.hpp (mpfr_bin_ieee754_flavor_io_impl.hpp):52-331, the part of
    operator_interval_to_text for the representations uncertain, uncertain up and uncertain
    down, and lines 407-485 for decorated intervals.
    Simplifications as in MPrint.v; the operands of "+" and of std::max, whose order of evaluation
    C++ leaves open, are evaluated from left to right.
    The call of get_str is a parameter, so that the rest of the code can be studied apart from
    the overrun of the buffer inside it (C36). *)
From Coq Require Import ZArith NArith Reals Bool Ascii String List.
From Flocq Require Import Core.Core IEEE754.BinarySingleNaN.
From Verif Require Import Fmt Spec Exc Deco MBase MBool MNum MStream MDecoIo MText MPrint MRead.
Import ListNotations.
Local Open Scope Z_scope.
Local Open Scope list_scope.
Local Open Scope m_scope.

(** ** std::string *)
Definition throw {A} (e : exn) : M A := fun s => (Throw e, s).
Definition size (t : text) : Z := Z.of_nat (length t).
(** static_cast<int>(t.find(c)): -1 if there is none *)
Fixpoint find (c : ascii) (t : text) : Z :=
  match t with
  | [] => -1
  | a :: t' => if ceq a c then 0 else let p := find c t' in if p <? 0 then p else p + 1
  end.
(** Positions are of type size_t: a negative one is a huge one, behind the end. *)
Definition inside (pos : Z) (t : text) : bool := (0 <=? pos) && (pos <=? size t).
(** t.substr(pos), t.substr(pos, n) *)
Definition substr_from (t : text) (pos : Z) : M text :=
  if inside pos t then ret (skipn (Z.to_nat pos) t) else throw Out_of_range.
Definition substr (t : text) (pos n : Z) : M text :=
  u <- substr_from t pos; ret (firstn (Z.to_nat n) u).
(** t.erase(pos), t.erase(pos, 1) *)
Definition erase_from (t : text) (pos : Z) : M text :=
  if inside pos t then ret (firstn (Z.to_nat pos) t) else throw Out_of_range.
Definition erase1 (t : text) (pos : Z) : M text :=
  if inside pos t then ret (firstn (Z.to_nat pos) t ++ skipn (Z.to_nat (pos + 1)) t) else throw Out_of_range.
(** t.resize(n), n at most the size; a negative n, a huge one, is not reached *)
Definition resize (t : text) (n : Z) : M text :=
  if inside n t then ret (firstn (Z.to_nat n) t) else undef.
(** t.insert(pos, u) *)
Definition insert (t : text) (pos : Z) (u : text) : M text :=
  if inside pos t then ret (firstn (Z.to_nat pos) t ++ u ++ skipn (Z.to_nat pos) t) else throw Out_of_range.

(** ** std::stoi, std::stoll, std::to_string *)
Fixpoint leading_digits (t : text) : text :=
  match t with c :: t' => if isdigit c then c :: leading_digits t' else [] | [] => [] end.
(** strtol, base 10, of a text that does not begin with white space *)
Definition strto (t : text) : option Z :=
  match t with
  | c :: t' => if ceq c "-" then option_map Z.opp (nat_val 10 (leading_digits t'))
               else if ceq c "+" then nat_val 10 (leading_digits t') else nat_val 10 (leading_digits t)
  | [] => None
  end.
Definition sto (limit : Z) (t : text) : M Z :=
  match strto t with
  | Some n => if (- limit - 1 <=? n) && (n <=? limit) then ret n else throw Out_of_range
  | None => throw Invalid_argument
  end.
Definition llong_max : Z := 9223372036854775807.
Definition stoi' : text -> M Z := sto int_max.
Definition stoll : text -> M Z := sto llong_max.
(** Arithmetic on long long int: overflow is undefined behaviour. *)
Definition lchk {A} (v : Z) (k : M A) : M A := if (- llong_max - 1 <=? v) && (v <=? llong_max) then k else undef.
Definition to_string (n : Z) : text := if n <? 0 then txt "-" ++ digs false 10 (- n) else digs false 10 n.

(** ** The form *)
(** p1788/io/io_manip.hpp:85-90 *)
Inductive side : Type := u_both | u_up | u_down.

Section Uncertain.
Context {F : fmt}.
(** get_str with width 0: rounding, scientific or decimal, precision, upper case, number *)
Variable get : mode -> number_rep -> N -> bool -> float F -> M text.

(** std::max(static_cast<int>(t.find('E')), static_cast<int>(t.find('e'))) *)
Definition exp_pos (t : text) : Z := Z.max (find "E" t) (find "e" t).
(** lines 91-97, 114-118, 135-139 *)
Definition put_mark (t mark : text) : M text :=
  let p := exp_pos t in if 0 <=? p then insert t p mark else ret (t ++ mark).
(** t.erase(t.size() - prec - 1, 1) *)
Definition no_point (p : N) (t : text) : M text := erase1 t (size t - Z.of_N p - 1).
(** std::stoi(t.substr(p + 1, t.size() - p - 1)) *)
Definition exp_of (t : text) (p : Z) : M Z := u <- substr t (p + 1) (size t - p - 1); stoi' u.
(** lines 203-213, 227-236, 284-294, 297-306: the digits t times 10^e; digits that fall away
    count as one unit if [away] *)
Definition align (t : text) (e : Z) (away : bool) : M (text * Z) :=
  if e <? 0 then
    u <- substr_from t (size t + e);
    v <- stoll u;
    t' <- resize t (size t + e);
    ret (t', if negb (v =? 0) && away then 1 else 0)
  else ret (t ++ spaces (Z.to_nat e) "0", 0).

(** lines 171-243 *)
Definition units_both (p : N) (x : itv F) (tl tu tm : text) : M (text * Z * text) :=
  let pl := exp_pos tl in let pu := exp_pos tu in let pm := exp_pos tm in
  str <- (if 0 <=? pm then substr tm 0 pm else ret tm);
  exp_str <- (if 0 <=? pm then substr tm pm (size tm - pm) else ret []);
  m <- no_point p str;
  em <- (if 0 <=? pm then u <- substr exp_str 1 (size m - 1); stoi' u else ret 0);
  la <- (if 0 <=? pl then
           el <- exp_of tl pl;
           ichk (el - em)
            (l1 <- erase_from tl pl;
             l2 <- no_point p l1;
             align l2 (el - em) (flt (fst x) f0))
         else l2 <- no_point p tl; ret (l2, 0));
  ua <- (if 0 <=? pu then
           eu <- exp_of tu pu;
           ichk (em - eu)
            (u1 <- erase_from tu pu;
             u2 <- no_point p u1;
             align u2 (- (em - eu)) (flt f0 (snd x)))
         else u2 <- no_point p tu; ret (u2, 0));
  tmp <- stoll m;
  lv <- stoll (fst la);
  lchk (- lv) (lchk (- lv + tmp) (lchk (- lv + tmp + snd la)
   (lchk (- tmp) (uv <- stoll (fst ua);
    lchk (- tmp + uv) (lchk (- tmp + uv + snd ua)
     (ret (str, Z.max (- lv + tmp + snd la) (- tmp + uv + snd ua), exp_str))))))).

(** lines 245-309 *)
Definition units_side (up : bool) (p : N) (x : itv F) (tl tu : text) : M (text * Z * text) :=
  let pl := exp_pos tl in let pu := exp_pos tu in
  let t := if up then tl else tu in let pt := if up then pl else pu in
  str <- (if 0 <=? pt then substr t 0 pt else ret t);
  exp_str <- (if 0 <=? pt then substr t pt (size t - pt) else ret []);
  el <- (if 0 <=? pl then exp_of tl pl else ret 0);
  l1 <- (if 0 <=? pl then erase_from tl pl else ret tl);
  eu <- (if 0 <=? pu then exp_of tu pu else ret 0);
  ichk (el - eu)
   (u1 <- (if 0 <=? pu then erase_from tu pu else ret tu);
    l2 <- no_point p l1;
    u2 <- no_point p u1;
    a <- (if up then r <- align u2 (- (el - eu)) (flt f0 (snd x)); ret (l2, fst r, snd r)
          else r <- align l2 (el - eu) (flt (fst x) f0); ret (fst r, u2, snd r));
    let '(l3, u3, c) := a in
    lv <- stoll l3;
    lchk (- lv) (uv <- stoll u3; lchk (- lv + uv) (lchk (c + (- lv + uv))
     (ret (str, c + (- lv + uv), exp_str))))).

(** lines 63-323 *)
Definition uncertain_body (k : side) (sci : bool) (p0 : N) (up : bool) (x : itv F) : M text :=
  let p := if (p0 =? 0)%N then 6%N else p0 in
  let r := if sci then r_scientific else r_decimal in
  let letter (a b : string) := txt (if up then a else b) in
  mif (is_entire x)
   (m <- n_mid x; t <- get mode_NE r p up m; put_mark t (txt "??"))
  (if isinf (fst x) then t <- get mode_UP r p up (snd x); put_mark t (letter "??D"%string "??d"%string)
   else if isinf (snd x) then t <- get mode_DN r p up (fst x); put_mark t (letter "??U"%string "??u"%string)
   else
    tl <- get mode_DN r p up (fst x);
    tu <- get mode_UP r p up (snd x);
    res <- match k with
           | u_both => m <- n_mid x; tm <- get mode_NE r p up m; units_both p x tl tu tm
           | u_up => units_side true p x tl tu
           | u_down => units_side false p x tl tu
           end;
    let '(str, ulps, exp_str) := res in
    ret (str ++ txt "?" ++ to_string ulps ++
         match k with u_both => [] | u_up => letter "U"%string "u"%string | u_down => letter "D"%string "d"%string end ++ exp_str)).

(** io_impl.hpp:44-331: [k] is None for the inf-sup form *)
Definition write_any (k : option side) (sci : bool) (o : ostream) (f : manip) (x : itv F) : M text :=
  match k with
  | None => write_itv o f x
  | Some k =>
    mif (mnot (is_valid x)) (ret [])
    (mif (is_empty x) (write_itv o f x)
     (str <- uncertain_body k sci (m_precision f) (o_upper_text o) x;
      ret (pad o [] (blanks (N.to_nat (m_string_width f) - length str) ++ str))))
  end.

(** lines 407-485: as [write_ditv] (MPrint.v), calling the function above *)
Definition write_ditv_any (k : option side) (sci : bool) (o : ostream) (f : manip) (x : ditv F) : M text :=
  mif (mnot (is_valid_dec x)) (ret [])
  (mif (is_nai x) (write_ditv o f x)
  (mif (is_empty_dec x) (write_any k sci o f (fst x))
    (let buf := put_parts o [txt (if m_punct f then "_" else " ")] ++ write_deco (no_width o) (snd x) in
     t <- write_any k sci o (set_string_width (m_string_width f - N.of_nat (length buf)) f) (fst x);
     ret (t ++ buf)))).
End Uncertain.

(** The calls as they are in the code. *)
Definition code_get {F : fmt} : mode -> number_rep -> N -> bool -> float F -> M text :=
  fun m r p up x => get_str (setup_env (F := F)) m r 0 p up x.
(** The same with a buffer that is long enough. *)
Definition ample_get {F : fmt} : mode -> number_rep -> N -> bool -> float F -> M text :=
  fun m r p up x => ret (sprintf 0 (conversion_of r) up m (precision_of r p) x).
