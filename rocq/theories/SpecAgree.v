(** * Specification: answers of different functions agree

    Relations, set operations, numeric functions and overlapping states are different functions
    of the library that look at the same sets; these are the forms of the laws between them. *)
From Coq Require Import Reals Bool NArith List.
From Flocq Require Import IEEE754.BinarySingleNaN.
From Verif Require Import Fmt Spec Exc Deco MBase MOverlap SpecApi.
Local Open Scope R_scope.
Local Open Scope m_scope.

(** Both calls return, and the answers are the same. *)
Definition same_answer (m n : M bool) : Prop := exists b, returns m b /\ returns n b.
(** Both calls return, and if the first answer is yes, so is the second. *)
Definition follows (m n : M bool) : Prop := exists a b, returns m a /\ returns n b /\ (a = true -> b = true).
(** Two questions at once. *)
Definition both (m n : M bool) : M bool := a <- m; b <- n; ret (a && b).
Definition always (m : M bool) : Prop := returns m true.

(** The order of the extended real numbers, for numbers of any two formats that are not NaN. *)
Definition num_le {F G : fmt} (v : float F) (w : float G) : Prop :=
  isnan v = false /\ isnan w = false /\ forall t, ub v t -> ub w t.
(** Both calls return numbers with [R]. *)
Definition compare {A B} (R : A -> B -> Prop) (m : M A) (n : M B) : Prop := exists a b, returns m a /\ returns n b /\ R a b.
Definition num_eq {F G : fmt} (v : float F) (w : float G) : Prop := num_le v w /\ num_le w v.
Definition num_lt {F G : fmt} (v : float F) (w : float G) : Prop := num_le v w /\ ~ num_le w v.

(** The overlapping state is one of [l]. *)
Definition among (l : list ostate) (o : ostate) : bool := existsb (fun o' => N.eqb (ostate_code o) (ostate_code o')) l.
Definition state_in {F G} (x : itv F) (y : itv G) (l : list ostate) : M bool := o <- overlap x y; ret (among l o).
Definition state_in_dec {F G} (x : ditv F) (y : ditv G) (l : list ostate) : M bool := o <- overlap_dec x y; ret (among l o).
