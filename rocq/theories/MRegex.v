(** * Model: the regular expressions of operator_text_to_interval

    C++ side: mpfr_bin_ieee754_flavor_io_impl.hpp:606-634 ([inf_sup_regex]) and 1181-1189
    ([uncertain_regex]), both compiled with icase (ECMAScript grammar), and std::regex_match.
    The matcher is the backtracking search ECMAScript prescribes: alternatives from left to
    right, repetitions greedy.  Every repetition of the two expressions is one of a single
    character.  The stack space std::regex_match takes on long inputs is not modelled. *)
From Coq Require Import ZArith NArith Bool Ascii String List.
From Verif Require Import MStream.
Import ListNotations.
Local Open Scope N_scope.

(** ** Expressions *)
Inductive re : Type :=
| Eps
| Chr (p : ascii -> bool)          (* one character *)
| Star (p : ascii -> bool)         (* any number of characters *)
| Cat (a b : re)
| Alt (a b : re)
| Grp (n : nat) (r : re).          (* capturing group *)

(** The captured texts; the one that was captured last comes first. *)
Definition caps : Type := list (nat * text).
Fixpoint cap (c : caps) (n : nat) : text :=        (* match[n].str() *)
  match c with [] => [] | (m, t) :: c' => if Nat.eqb m n then t else cap c' n end.
Definition matched (c : caps) (n : nat) : bool :=  (* match[n].length() > 0 *)
  match cap c n with [] => false | _ => true end.

(** ** The matcher; [k] is what follows *)
Section Match.
Context {A : Type}.
Fixpoint mstar (p : ascii -> bool) (s : text) (k : text -> option A) : option A :=
  match s with
  | [] => k s
  | x :: s' => if p x then match mstar p s' k with Some r => Some r | None => k s end else k s
  end.
Fixpoint mre (r : re) (s : text) (c : caps) (k : text -> caps -> option A) : option A :=
  match r with
  | Eps => k s c
  | Chr p => match s with x :: s' => if p x then k s' c else None | [] => None end
  | Star p => mstar p s (fun s' => k s' c)
  | Cat a b => mre a s c (fun s' c' => mre b s' c' k)
  | Alt a b => match mre a s c k with Some r => Some r | None => mre b s c k end
  | Grp n a => mre a s c (fun s' c' => k s' ((n, firstn (length s - length s') s) :: c'))
  end.
End Match.
Definition regex_match (r : re) (s : text) : option caps :=
  mre r s [] (fun s' c => match s' with [] => Some c | _ => None end).

(** ** The two expressions *)
Definition Opt (r : re) : re := Alt r Eps.
Definition Plus (p : ascii -> bool) : re := Cat (Chr p) (Star p).
(** A literal character or text, ignoring case. *)
Definition same (a c : ascii) : bool := ceq (tolower a) (tolower c).
Definition Lit (a : ascii) : re := Chr (same a).
Fixpoint Lits (l : text) : re := match l with [] => Eps | a :: l' => Cat (Lit a) (Lits l') end.
(** Character classes; \s is isspace in the classic locale. *)
Definition is_sign (c : ascii) : bool := ceq c "+" || ceq c "-".
Definition is_point (c : ascii) : bool := ceq c ".".
Definition is_hex (c : ascii) : bool := match digit c with Some _ => true | None => false end.
Definition is_zero (c : ascii) : bool := ceq c "0".
Definition is_nonzero (c : ascii) : bool := between 49 57 c.
Definition Ws : re := Star isspace.

(** (?:(?:[0-9]*\.[0-9]+)|(?:[0-9]+[\.])|(?:[0-9]+)) and the same with [0-9a-f] *)
Definition Mant (p : ascii -> bool) : re :=
  Alt (Cat (Star p) (Cat (Chr is_point) (Plus p))) (Alt (Cat (Plus p) (Chr is_point)) (Plus p)).
(** [+-]?[0-9]+ *)
Definition Int : re := Cat (Opt (Chr is_sign)) (Plus isdigit).
(** ([+-]?Mant)(?:e([+-]?[0-9]+))? *)
Definition Float (n : nat) : re :=
  Cat (Grp n (Cat (Opt (Chr is_sign)) (Mant isdigit))) (Opt (Cat (Lit "e") (Grp (n + 1) Int))).
(** ([+-]?0xMant)(?:p([+-]?[0-9]+)) *)
Definition Hex (n : nat) : re :=
  Cat (Grp n (Cat (Opt (Chr is_sign)) (Cat (Lits (txt "0x")) (Mant is_hex)))) (Cat (Lit "p") (Grp (n + 1) Int)).
(** ([+-]?[0-9]+)\s*/\s*([0]*[1-9][0-9]* ) *)
Definition Rational (n : nat) : re :=
  Cat (Grp n Int) (Cat Ws (Cat (Lit "/") (Cat Ws
    (Grp (n + 1) (Cat (Star is_zero) (Cat (Chr is_nonzero) (Star isdigit))))))).
(** float, hex or rational with the groups n, ..., n+5, or something else *)
Definition Number (n : nat) (r : re) : re :=
  Alt Eps (Alt (Float n) (Alt (Hex (n + 2)) (Alt (Rational (n + 4)) r))).

(** lines 608-614 *)
Definition Words : re :=
  Alt (Grp 8 (Lits (txt "empty"))) (Alt (Grp 9 (Lits (txt "entire"))) (Grp 10 (Lits (txt "nai")))).
Definition One_argument : re :=
  Cat (Lit "[") (Cat Ws (Cat (Opt (Grp 1 (Number 2 Words))) (Cat Ws (Lit "]")))).
(** lines 616-631 *)
Definition Inf : re := Alt (Lits (txt "inf")) (Lits (txt "infinity")).
Definition Two_arguments : re :=
  Cat (Lit "[") (Cat Ws (Cat (Opt (Grp 11 (Number 12 (Cat (Lit "-") (Grp 18 Inf)))))
  (Cat Ws (Cat (Grp 19 (Lit ",")) (Cat Ws
  (Cat (Opt (Grp 20 (Number 21 (Cat (Opt (Lit "+")) (Grp 27 Inf))))) (Cat Ws (Lit "]")))))))).
Definition inf_sup_regex : re := Alt One_argument Two_arguments.

(** lines 1181-1189 *)
Definition uncertain_regex : re :=
  Cat (Grp 1 (Cat (Opt (Chr is_sign)) (Mant isdigit)))
  (Cat (Lit "?")
  (Cat (Opt (Alt (Grp 2 (Lit "?")) (Grp 3 (Plus isdigit))))
  (Cat (Opt (Alt (Grp 4 (Alt (Lit "u") (Lit "U"))) (Grp 5 (Alt (Lit "d") (Lit "D")))))
       (Opt (Cat (Alt (Lit "e") (Lit "E")) (Grp 6 Int)))))).
