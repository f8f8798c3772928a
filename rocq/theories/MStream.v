(** * Model: character streams

    The part of std::basic_istream<char> and std::basic_ostream<char> the library uses, in the
    classic locale, with no exceptions enabled on the stream (is.exceptions() == goodbit).
    The characters not yet read are a list; reading never fails before its end. *)
From Coq Require Import ZArith NArith Bool Ascii String List.
Import ListNotations.
Local Open Scope N_scope.

Definition text : Type := list ascii.
Definition txt (s : string) : text := list_ascii_of_string s.

(** ** Characters (<cctype>, classic locale) *)
Definition code (c : ascii) : N := N_of_ascii c.
Definition between (a b : N) (c : ascii) : bool := (a <=? code c) && (code c <=? b).
Definition isspace (c : ascii) : bool := between 9 13 c || (code c =? 32).
Definition isdigit (c : ascii) : bool := between 48 57 c.
Definition isupper (c : ascii) : bool := between 65 90 c.
Definition tolower (c : ascii) : ascii := if isupper c then ascii_of_N (code c + 32) else c.
Definition ceq (a b : ascii) : bool := code a =? code b.
Fixpoint teq (s t : text) : bool :=
  match s, t with [], [] => true | a :: s', b :: t' => ceq a b && teq s' t' | _, _ => false end.
(** Value of a digit in bases up to 16. *)
Definition digit (c : ascii) : option N :=
  if isdigit c then Some (code c - 48)
  else if between 97 102 c then Some (code c - 87)
  else if between 65 70 c then Some (code c - 55)
  else None.

(** ** Input streams *)
Inductive basefield : Type := b_dec | b_oct | b_hex | b_none.
Record istream : Type := Istream {
  rest : text; eofbit : bool; failbit : bool; badbit : bool; skipws : bool; basef : basefield }.

Definition good (s : istream) : bool := negb (eofbit s || failbit s || badbit s).
(** [if (is)]: operator bool *)
Definition ok (s : istream) : bool := negb (failbit s || badbit s).
Definition setfail (s : istream) : istream := Istream (rest s) (eofbit s) true (badbit s) (skipws s) (basef s).
Definition seteof (s : istream) : istream := Istream (rest s) true (failbit s) (badbit s) (skipws s) (basef s).
Definition setrest (l : text) (s : istream) : istream := Istream l (eofbit s) (failbit s) (badbit s) (skipws s) (basef s).
(** is.clear(std::ios_base::goodbit) *)
Definition clear (s : istream) : istream := Istream (rest s) false false false (skipws s) (basef s).

(** is.peek(): the sentry of an unformatted input function sets failbit unless the stream is
    good; at the end of the input eofbit is set. *)
Definition peek (s : istream) : option ascii * istream :=
  if good s then match rest s with [] => (None, seteof s) | c :: _ => (Some c, s) end
  else (None, setfail s).
(** is.get(): at the end of the input eofbit and failbit are set. *)
Definition get (s : istream) : option ascii * istream :=
  if good s then match rest s with [] => (None, setfail (seteof s)) | c :: l => (Some c, setrest l s) end
  else (None, setfail s).
(** is.read(p, n): the characters stored, all n unless failbit is set. *)
Definition read (n : nat) (s : istream) : text * istream :=
  if good s then
    let l := firstn n (rest s) in
    let s' := setrest (skipn n (rest s)) s in
    if (length l <? n)%nat then (l, setfail (seteof s')) else (l, s')
  else ([], setfail s).

(** is >> n for unsigned int (std::num_get::get): digits of the base given by basefield. *)
Fixpoint digits_from (b acc : N) (seen : bool) (l : text) : option N * text :=
  match l with
  | [] => (if seen then Some acc else None, [])
  | c :: l' =>
    match digit c with
    | Some d => if d <? b then digits_from b (acc * b + d) true l' else (if seen then Some acc else None, l)
    | None => (if seen then Some acc else None, l)
    end
  end.
Definition is_x (c : ascii) : bool := (code c =? 120) || (code c =? 88).
Definition num_get (bf : basefield) (l : text) : option N * text :=
  match bf, l with
  | b_hex, a :: x :: l' => if ceq a "0" && is_x x then digits_from 16 0 false l' else digits_from 16 0 false l
  | b_hex, _ => digits_from 16 0 false l
  | b_oct, _ => digits_from 8 0 false l
  | b_dec, _ => digits_from 10 0 false l
  | b_none, a :: x :: l' =>
    if ceq a "0" then if is_x x then digits_from 16 0 false l' else digits_from 8 0 false l else digits_from 10 0 false l
  | b_none, _ => digits_from 10 0 false l
  end.
Fixpoint drop_ws (l : text) : text :=
  match l with [] => [] | c :: l' => if isspace c then drop_ws l' else l end.
Definition read_unsigned (s : istream) : option N * istream :=
  if good s then
    let l := if skipws s then drop_ws (rest s) else rest s in
    let '(n, l') := num_get (basef s) l in
    let s1 := setrest l' s in
    let s2 := match l' with [] => seteof s1 | _ => s1 end in
    match n with
    | Some v => if v <? 2 ^ 32 then (Some v, s2) else (None, setfail s2)
    | None => (None, setfail s2)
    end
  else (None, setfail s).

(** p1788/util/io.hpp:38-45 [remove_ws] *)
Fixpoint remove_ws_from (l : text) (s : istream) : istream :=
  (* the loop, [l] being what is left of the input *)
  if ok s then
    match peek s with
    | (Some c, s1) => if isspace c then match l with [] => s1 | _ :: l' => remove_ws_from l' (snd (get s1)) end else s1
    | (None, s1) => s1
    end
  else s.
Definition remove_ws (s : istream) : istream := remove_ws_from (rest s) s.
(** p1788/util/io.hpp:48-57 [ascii_to_lower] *)
Definition ascii_to_lower (l : text) : text := map (fun c => if code c <? 128 then tolower c else c) l.

(** ** Output streams *)
Inductive adjustfield : Type := a_right | a_left | a_internal.
Record ostream : Type := Ostream {
  o_base : basefield; o_showbase : bool; o_upper : bool;   (* formatting of integers *)
  o_width : N; o_fill : ascii; o_adjust : adjustfield;
  o_dec_numeric : bool;         (* iword(dec_manip_id) == dec_numeric_representation *)
  o_upper_text : bool }.        (* iword(text_representation_manip_id) == upper_case_... *)

Definition spaces (n : nat) (c : ascii) : text := repeat c n.
(** Padding to width; [pre] is a prefix in front of which internal padding does not go. *)
Definition pad (o : ostream) (pre body : text) : text :=
  let fillers := spaces (N.to_nat (o_width o) - length (pre ++ body)) (o_fill o) in
  match o_adjust o with
  | a_right => fillers ++ pre ++ body
  | a_left => pre ++ body ++ fillers
  | a_internal => pre ++ fillers ++ body
  end.
(** os << "..." *)
Definition put_text (o : ostream) (s : string) : text := pad o [] (txt s).
(** os << unsigned (std::num_put) *)
Definition digit_char (upper : bool) (d : N) : ascii :=
  ascii_of_N (if d <? 10 then 48 + d else if upper then 55 + d else 87 + d).
Fixpoint digits_of (fuel : nat) (b : N) (upper : bool) (n : N) (acc : text) : text :=
  match fuel with
  | O => acc
  | S f => let acc' := digit_char upper (n mod b) :: acc in
           if n / b =? 0 then acc' else digits_of f b upper (n / b) acc'
  end.
Definition put_unsigned (o : ostream) (n : N) : text :=
  match o_base o with
  | b_hex => pad o (if o_showbase o && negb (n =? 0) then txt (if o_upper o then "0X" else "0x") else [])
                 (digits_of 32 16 (o_upper o) n [])
  | b_oct => pad o [] ((if o_showbase o && negb (n =? 0) then txt "0" else []) ++ digits_of 32 8 (o_upper o) n [])
  | _ => pad o [] (digits_of 32 10 (o_upper o) n [])
  end.
