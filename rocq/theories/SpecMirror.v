(** * Specification: operations that differ by signs and the order of operands only *)
From Coq Require Import Reals Bool List.
From Verif Require Import Fmt Spec Exc Deco SpecApi SpecExpr MArith MDec.
Import ListNotations.
Local Open Scope R_scope.

(** A number, an interval or a decorated interval, negated if [s]. *)
Definition sg (s : bool) (r : R) : R := if s then - r else r.
Definition flip {F} (s : bool) (x : itv F) : M (itv F) := if s then neg x else ret x.
Definition flip_dec {F} (s : bool) (x : ditv F) : M (ditv F) := if s then neg_dec x else ret x.
(** Operands in the other order if [w]. *)
Definition swap (w : bool) {A B} (f : A -> A -> B) (a b : A) : B := if w then f b a else f a b.

(** [u], its argument negated if [s], is [v] with the result negated if [o]. *)
Definition alike1 (s o : bool) (u v : un) : Prop := forall r,
  (un_dom u (sg s r) <-> un_dom v r) /\ (un_dom v r -> un_val u (sg s r) = sg o (un_val v r)).
(** The same with two arguments. *)
Definition alike2 (w s t o : bool) (b c : bin) : Prop := forall p q,
  (swap w (bin_dom b) (sg s p) (sg t q) <-> bin_dom c p q) /\
  (bin_dom c p q -> swap w (bin_val b) (sg s p) (sg t q) = sg o (bin_val c p q)).
(** Laws of the functions of two arguments: [(w, s, t, o, b, c)] for [alike2 w s t o b c]. *)
Definition laws2 : list (bool * bool * bool * bool * bin * bin) :=
  [ (true, false, false, false, b_add, b_add); (false, true, true, true, b_add, b_add); (false, false, true, false, b_add, b_sub);
    (true, false, false, true, b_sub, b_sub); (false, true, true, true, b_sub, b_sub); (false, false, true, false, b_sub, b_add);
    (true, false, false, false, b_mul, b_mul); (false, true, false, true, b_mul, b_mul); (false, false, true, true, b_mul, b_mul); (false, true, true, false, b_mul, b_mul);
    (false, true, false, true, b_div, b_div); (false, false, true, true, b_div, b_div); (false, true, true, false, b_div, b_div);
    (true, false, false, false, b_min, b_min); (true, false, false, false, b_max, b_max); (false, true, true, true, b_min, b_max); (false, true, true, true, b_max, b_min) ].
