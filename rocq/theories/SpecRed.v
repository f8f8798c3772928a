(** * Reductions: specification *)
From Coq Require Import ZArith Reals Bool List.
From Flocq Require Import Core.Core IEEE754.BinarySingleNaN.
From Verif Require Import Fmt SpecRound.
Local Open Scope R_scope.

(** Extended real numbers with an undefined value. *)
Inductive xreal : Type := Undefined | Infinite (negative : bool) | Real (r : R).

Definition value {F : fmt} (x : float F) : xreal :=
  match x with B754_nan => Undefined | B754_infinity s => Infinite s | _ => Real (B2R x) end.
Definition absolute (x : xreal) : xreal :=
  match x with Undefined => Undefined | Infinite _ => Infinite false | Real r => Real (Rabs r) end.
Inductive product : xreal -> xreal -> xreal -> Prop :=
  | product_nan_l y : product Undefined y Undefined
  | product_nan_r x : product x Undefined Undefined
  | product_real r s : product (Real r) (Real s) (Real (r * s))
  | product_inf a b : product (Infinite a) (Infinite b) (Infinite (xorb a b))
  | product_zero_l r a : r = 0 -> product (Real r) (Infinite a) Undefined
  | product_zero_r r a : r = 0 -> product (Infinite a) (Real r) Undefined
  | product_pos_l r a : 0 < r -> product (Real r) (Infinite a) (Infinite a)
  | product_pos_r r a : 0 < r -> product (Infinite a) (Real r) (Infinite a)
  | product_neg_l r a : r < 0 -> product (Real r) (Infinite a) (Infinite (negb a))
  | product_neg_r r a : r < 0 -> product (Infinite a) (Real r) (Infinite (negb a)).

(** The sum of the terms is defined unless a term is undefined or infinities of both signs occur. *)
Inductive total : list xreal -> xreal -> Prop :=
  | total_nan l : In Undefined l -> total l Undefined
  | total_both l : In (Infinite true) l -> In (Infinite false) l -> total l Undefined
  | total_inf l s : In (Infinite s) l -> ~ In Undefined l -> ~ In (Infinite (negb s)) l -> total l (Infinite s)
  | total_real l : total (map Real l) (Real (fold_right Rplus 0 l)).

(** [z] is the sum of the terms, rounded once; a zero is negative exactly when rounding downward. *)
Definition reduces {F : fmt} (m : mode) (l : list xreal) (z : float F) : Prop :=
  forall t, total l t ->
  match t with
  | Undefined => z = B754_nan
  | Infinite s => z = B754_infinity s
  | Real r => rounded m r z /\ (is_finite z = true -> B2R z = 0 -> z = B754_zero (match m with mode_DN => true | _ => false end))
  end.
