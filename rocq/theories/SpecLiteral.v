(** * Specification: interval literals

    The texts that denote intervals (IEEE 1788, clause 9.7, with the spellings the library
    documents) and the set of real numbers each of them denotes.

    Two parameters restrict the grammar, so that theorems can say for which literals they
    hold: [sign] tells which texts are signs of a number, [small] which integers may be an
    exponent. *)
From Coq Require Import ZArith NArith Reals Ascii String List.
From Verif Require Import Deco MStream.
Import ListNotations.
Local Open Scope R_scope.
Local Open Scope list_scope.

(** ** Characters *)
Definition blank (c : ascii) : Prop := (9 <= code c <= 13)%N \/ code c = 32%N.
Definition blanks (t : text) : Prop := Forall blank t.
(** [c] is the digit [d] in base [b]. *)
Definition is_digit (b : Z) (c : ascii) (d : Z) : Prop :=
  (0 <= d < b)%Z /\
  (Z.of_N (code c) = 48 + d /\ d < 10 \/
   Z.of_N (code c) = 97 + (d - 10) /\ 10 <= d \/ Z.of_N (code c) = 65 + (d - 10) /\ 10 <= d)%Z.
(** The same letters, whatever their case. *)
Definition word (w : string) (t : text) : Prop := map tolower t = txt w.

(** ** Numbers *)
Inductive numeral (b : Z) : text -> Z -> Prop :=
| Num_nil : numeral b [] 0
| Num_snoc : forall l n c d, numeral b l n -> is_digit b c d -> numeral b (l ++ [c]) (n * b + d).
Inductive any_sign : text -> Z -> Prop :=
| Sign_none : any_sign [] 1 | Sign_plus : any_sign (txt "+") 1 | Sign_minus : any_sign (txt "-") (-1).
Inductive no_plus : text -> Z -> Prop :=
| No_sign : no_plus [] 1 | Minus : no_plus (txt "-") (-1).
Definition any_exponent (e : Z) : Prop := True.
Definition int_exponent (e : Z) : Prop := (Z.abs e <= 2147483647)%Z.
(** A letter (in either case), a sign and digits. *)
Inductive exponent (w : string) : text -> Z -> Prop :=
| Exponent : forall m s sg l n, word w m -> any_sign s sg -> numeral 10 l n -> l <> [] ->
    exponent w (m ++ s ++ l) (sg * n).
(** Digits with or without a point: [k] digits follow the point, [n] is the value without it. *)
Inductive mantissa (b : Z) : text -> Z -> nat -> Prop :=
| Mant_int : forall i n, numeral b i n -> i <> [] -> mantissa b i n 0
| Mant_point : forall i f n, numeral b (i ++ f) n -> i ++ f <> [] -> mantissa b (i ++ txt "." ++ f) n (length f).

Section Literals.
Variable sign : text -> Z -> Prop.
Variable small : Z -> Prop.

Inductive number : text -> R -> Prop :=
| Decimal : forall s sg m n k, sign s sg -> mantissa 10 m n k -> small (- Z.of_nat k) ->
    number (s ++ m) (IZR (sg * n) * powerRZ 10 (- Z.of_nat k))
| Decimal_e : forall s sg m n k x e, sign s sg -> mantissa 10 m n k -> exponent "e" x e ->
    small e -> small (e - Z.of_nat k) ->
    number (s ++ m ++ x) (IZR (sg * n) * powerRZ 10 (e - Z.of_nat k))
| Hexadecimal : forall s sg z m n k x e, sign s sg -> word "0x" z -> mantissa 16 m n k -> exponent "p" x e ->
    small e -> small (e - 4 * Z.of_nat k) ->
    number (s ++ z ++ m ++ x) (IZR (sg * n) * powerRZ 2 (e - 4 * Z.of_nat k))
| Rational : forall s sg i n a b j d, sign s sg -> numeral 10 i n -> i <> [] -> blanks a -> blanks b ->
    numeral 10 j d -> (0 < d)%Z ->
    number (s ++ i ++ a ++ txt "/" ++ b ++ j) (IZR (sg * n) / IZR d).

(** ** Bounds; None is an infinite one *)
Inductive lower_bound : text -> option R -> Prop :=
| Lower_number : forall t r, number t r -> lower_bound t (Some r)
| Lower_none : lower_bound [] None
| Lower_inf : forall t, word "-inf" t \/ word "-infinity" t -> lower_bound t None.
Inductive upper_bound : text -> option R -> Prop :=
| Upper_number : forall t r, number t r -> upper_bound t (Some r)
| Upper_none : upper_bound [] None
| Upper_inf : forall t, word "inf" t \/ word "infinity" t \/ word "+inf" t \/ word "+infinity" t -> upper_bound t None.
Definition between_bounds (l u : option R) : R -> Prop := fun r =>
  match l with Some a => a <= r | None => True end /\ match u with Some b => r <= b | None => True end.
Definition ordered (l u : option R) : Prop := match l, u with Some a, Some b => a <= b | _, _ => True end.
(** The strongest decoration of an interval with these bounds. *)
Definition strongest (l u : option R) : deco := match l, u with Some _, Some _ => com | _, _ => dac end.

(** ** The uncertain form: a radius of half a unit, some units or infinity, to one side or both *)
Inductive radius : text -> option R -> Prop :=
| Half_unit : radius [] (Some (/ 2))
| Infinite : radius (txt "?") None
| Units : forall t n, numeral 10 t n -> t <> [] -> radius t (Some (IZR n)).
Inductive direction : text -> bool -> bool -> Prop :=      (* downwards, upwards *)
| Both : direction [] true true
| Up : forall t, word "u" t -> direction t false true
| Down : forall t, word "d" t -> direction t true false.
Inductive uncertain_exponent : text -> Z -> Prop :=
| No_exponent : uncertain_exponent [] 0
| With_exponent : forall x e, exponent "e" x e -> small e -> uncertain_exponent x e.
(** The bound at distance [rad] (None: infinitely far) from [c], if it is on this side. *)
Definition moved_bound (on : bool) (c : R) (rad : option R) : option R :=
  if on then option_map (fun r => c + r) rad else Some c.

(** ** Literals without a decoration: text, set, strongest decoration *)
Inductive bare_literal : text -> (R -> Prop) -> deco -> Prop :=
| Empty_brackets : forall a, blanks a -> bare_literal (txt "[" ++ a ++ txt "]") (fun _ => False) trv
| Empty_word : forall a w b, blanks a -> blanks b -> word "empty" w ->
    bare_literal (txt "[" ++ a ++ w ++ b ++ txt "]") (fun _ => False) trv
| Entire_word : forall a w b, blanks a -> blanks b -> word "entire" w ->
    bare_literal (txt "[" ++ a ++ w ++ b ++ txt "]") (fun _ => True) dac
| Nai_word : forall a w b, blanks a -> blanks b -> word "nai" w ->
    bare_literal (txt "[" ++ a ++ w ++ b ++ txt "]") (fun _ => False) ill
| Point : forall a t b r, blanks a -> blanks b -> number t r ->
    bare_literal (txt "[" ++ a ++ t ++ b ++ txt "]") (fun x => x = r) com
| Bounds : forall a t b c t' d l u, blanks a -> blanks b -> blanks c -> blanks d ->
    lower_bound t l -> upper_bound t' u -> ordered l u ->
    bare_literal (txt "[" ++ a ++ t ++ b ++ txt "," ++ c ++ t' ++ d ++ txt "]") (between_bounds l u) (strongest l u)
| Uncertain : forall s sg m n k t rad w dn up x e, sign s sg -> mantissa 10 m n k -> radius t rad ->
    direction w dn up -> uncertain_exponent x e ->
    small (e - Z.of_nat k) -> small (e - Z.of_nat k - 1) ->
    let unit := powerRZ 10 (e - Z.of_nat k) in
    let c := IZR (sg * n) * unit in
    let dist := option_map (fun r => r * unit) rad in
    let l := moved_bound dn c (option_map Ropp dist) in
    let u := moved_bound up c dist in
    bare_literal (s ++ m ++ txt "?" ++ t ++ w ++ x) (between_bounds l u)
      (match rad with Some _ => com | None => dac end).

(** ** Literals *)
Inductive decoration_name : text -> deco -> Prop :=
| Name_trv : forall t, word "trv" t -> decoration_name t trv
| Name_def : forall t, word "def" t -> decoration_name t def
| Name_dac : forall t, word "dac" t -> decoration_name t dac
| Name_com : forall t, word "com" t -> decoration_name t com.
(** Text, set and the decoration given in the text.  A literal that is no interval ([nai])
    carries no decoration, others one that is not stronger than their set allows. *)
Inductive literal : text -> (R -> Prop) -> option deco -> Prop :=
| Plain : forall t S d, bare_literal t S d -> d <> ill -> literal t S None
| Decorated : forall t S d w d', bare_literal t S d -> d <> ill -> decoration_name w d' -> (d' <= d)%N ->
    literal (t ++ txt "_" ++ w) S (Some d').
Inductive nai_literal : text -> Prop := Nai_literal : forall t S, bare_literal t S ill -> nai_literal t.
End Literals.

(** The decoration of the result: the one given, at most dac for an unbounded result, trv for
    the empty set; without one the strongest possible. *)
Definition literal_decoration (is_empty bounded : bool) (given : option deco) : deco :=
  if is_empty then trv
  else let d := match given with Some d => d | None => com end in if bounded then d else N.min d dac.
