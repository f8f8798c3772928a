(** * Model: comparison relations, recommended predicates, set operations

    C++ side: mpfr_bin_ieee754_flavor_bool_func_impl.hpp,
    mpfr_bin_ieee754_flavor_rec_bool_func_impl.hpp,
    mpfr_bin_ieee754_flavor_set_op_impl.hpp ("FL" abbreviates the common prefix).

    The same-type relations call the mixed-type template with T_ = T after
    repeating the validity check, e.g. bool_func_impl.hpp:107-117. *)

From Coq Require Import ZArith NArith Reals Bool.
From Flocq Require Import Core.Core IEEE754.BinarySingleNaN.
From Verif Require Import Fmt Spec Exc Deco MBase.

Local Open Scope m_scope.

Section Rel.
Context {F G : fmt}.
Implicit Types (x : itv F) (y : itv G).

(** FL_bool_func_impl.hpp:133-146 [equal]. *)
Definition equal_mixed x y : M bool :=
  mif (mnot (is_valid x) ||| mnot (is_valid y)) (ret false)
  ((is_empty x &&& is_empty y) ||| ret (feq2 (fst x) (fst y) && feq2 (snd x) (snd y))).
(** FL_bool_func_impl.hpp:193-205 [subset]. *)
Definition subset_mixed x y : M bool :=
  mif (mnot (is_valid x) ||| mnot (is_valid y)) (ret false)
  (is_empty x ||| ret (fle2 (fst y) (fst x) && fle2 (snd x) (snd y))).
(** FL_bool_func_impl.hpp:253-266 [less]. *)
Definition less_mixed x y : M bool :=
  mif (mnot (is_valid x) ||| mnot (is_valid y)) (ret false)
  ((is_empty x &&& is_empty y) ||| ret (fle2 (fst x) (fst y) && fle2 (snd x) (snd y))).
(** FL_bool_func_impl.hpp:314-326 [precedes]. *)
Definition precedes_mixed x y : M bool :=
  mif (mnot (is_valid x) ||| mnot (is_valid y)) (ret false)
  (is_empty x ||| is_empty y ||| ret (fle2 (snd x) (fst y))).
(** FL_bool_func_impl.hpp:374-392 [interior]. *)
Definition interior_mixed x y : M bool :=
  mif (mnot (is_valid x) ||| mnot (is_valid y)) (ret false)
  (is_empty x |||
   ret ((flt2 (fst y) (fst x) || (feq (fst y) fminf && feq (fst x) fminf))
        && (flt2 (snd x) (snd y) || (feq (snd x) finf && feq (snd y) finf)))).
(** FL_bool_func_impl.hpp:441-459 [strictly_less]. *)
Definition strictly_less_mixed x y : M bool :=
  mif (mnot (is_valid x) ||| mnot (is_valid y)) (ret false)
  ((is_empty x &&& is_empty y) |||
   ret ((flt2 (fst x) (fst y) || (feq (fst x) fminf && feq (fst y) fminf))
        && (flt2 (snd x) (snd y) || (feq (snd x) finf && feq (snd y) finf)))).
(** FL_bool_func_impl.hpp:507-519 [strictly_precedes]. *)
Definition strictly_precedes_mixed x y : M bool :=
  mif (mnot (is_valid x) ||| mnot (is_valid y)) (ret false)
  (is_empty x ||| is_empty y ||| ret (flt2 (snd x) (fst y))).
(** FL_bool_func_impl.hpp:567-579 [disjoint]. *)
Definition disjoint_mixed x y : M bool :=
  mif (mnot (is_valid x) ||| mnot (is_valid y)) (ret false)
  (is_empty x ||| is_empty y ||| ret (flt2 (snd x) (fst y)) ||| ret (flt2 (snd y) (fst x))).

(** The decorated versions (FL_bool_func_impl.hpp:149-162, 208-222, 269-283, 329-343,
    395-409, 462-476, 522-536, 582-596) all share this shape. *)
Definition rel_dec (rel : itv F -> itv G -> M bool) (x : ditv F) (y : ditv G) : M bool :=
  mif (mnot (is_valid_dec x) ||| mnot (is_valid_dec y) ||| is_nai x ||| is_nai y) (ret false)
  (rel (fst x) (fst y)).

(** FL_rec_bool_func_impl.hpp:108-119 [is_member] ([m] of type T_). *)
Definition is_member_mixed (m : float G) x : M bool :=
  mif (mnot (is_valid x)) (ret false)
  (ret (fle2 (fst x) m && fle2 m (snd x) && negb (isinf m))).

End Rel.

(** Same-type versions: FL_bool_func_impl.hpp:105-117, 165-177, 225-237, 286-298,
    346-358, 412-425, 479-491, 539-551. *)
Definition rel_same {F} (rel : itv F -> itv F -> M bool) (x y : itv F) : M bool :=
  mif (mnot (is_valid x) ||| mnot (is_valid y)) (ret false) (rel x y).
(** Same-type decorated versions: 120-130, 180-190, 240-250, 301-311, 361-371,
    428-438, 494-504, 554-564 call the bare mixed template directly. *)

Section One.
Context {F : fmt}.
Implicit Types x y : itv F.

Definition equal := @rel_same F equal_mixed.
Definition subset := @rel_same F subset_mixed.
Definition less := @rel_same F less_mixed.
Definition precedes := @rel_same F precedes_mixed.
Definition interior := @rel_same F interior_mixed.
Definition strictly_less := @rel_same F strictly_less_mixed.
Definition strictly_precedes := @rel_same F strictly_precedes_mixed.
Definition disjoint := @rel_same F disjoint_mixed.

(** FL_rec_bool_func_impl.hpp:42-63 [is_common_interval]. *)
Definition is_common_interval x : M bool :=
  mif (mnot (is_valid x)) (ret false)
  (mnot (is_empty x) &&& ret (fgt (fst x) fminf && flt (snd x) finf)).
Definition is_common_interval_dec (x : ditv F) : M bool :=
  mif (mnot (is_valid_dec x) ||| is_nai x) (ret false) (is_common_interval (fst x)).

(** FL_rec_bool_func_impl.hpp:65-84 [is_singleton]. *)
Definition is_singleton x : M bool :=
  mif (mnot (is_valid x)) (ret false) (ret (feq (fst x) (snd x))).
Definition is_singleton_dec (x : ditv F) : M bool :=
  mif (mnot (is_valid_dec x) ||| is_nai x) (ret false) (is_singleton (fst x)).

(** FL_rec_bool_func_impl.hpp:86-106 [is_member] same type, 122-134 decorated. *)
Definition is_member (m : float F) x : M bool :=
  mif (mnot (is_valid x)) (ret false) (is_member_mixed m x).
Definition is_member_dec {G} (m : float G) (x : ditv F) : M bool :=
  mif (mnot (is_valid_dec x) ||| is_nai x) (ret false) (is_member_mixed m (fst x)).

(** FL_set_op_impl.hpp:42-56 [intersection]. *)
Definition intersection x y : M (itv F) :=
  mif (mnot (is_valid x) ||| mnot (is_valid y)) (ret empty)
  (mif (disjoint x y) (ret empty) (ret (fmax (fst x) (fst y), fmin (snd x) (snd y)))).
(** FL_set_op_impl.hpp:84-94 [intersection] decorated. *)
Definition intersection_dec (x y : ditv F) : M (ditv F) :=
  mif (mnot (is_valid_dec x) ||| mnot (is_valid_dec y) ||| is_nai x ||| is_nai y) (ret nai)
  (b <- intersection (fst x) (fst y); ret (b, trv)).

(** FL_set_op_impl.hpp:123-139 [convex_hull]. *)
Definition convex_hull x y : M (itv F) :=
  mif (mnot (is_valid x) ||| mnot (is_valid y)) (ret empty)
  (mif (is_empty x) (ret y)
  (mif (is_empty y) (ret x)
       (ret (fmin (fst x) (fst y), fmax (snd x) (snd y))))).
(** FL_set_op_impl.hpp:167-177 [convex_hull] decorated. *)
Definition convex_hull_dec (x y : ditv F) : M (ditv F) :=
  mif (mnot (is_valid_dec x) ||| mnot (is_valid_dec y) ||| is_nai x ||| is_nai y) (ret nai)
  (b <- convex_hull (fst x) (fst y); ret (b, trv)).

End One.

(** The API layer p1788/infsup/base_interval_bool_func_impl.hpp adds the converse
    relations by exchanging the operands: superset 139-163, greater 195-219,
    succeeds 251-275, contains_interior 307-331, strictly_greater 363-387,
    strictly_succeeds 419-443; operator== 100 and operator!= 107. *)
Section Api.
Context {F G : fmt}.
Definition superset_mixed (x : itv F) (y : itv G) : M bool := subset_mixed y x.
Definition greater_mixed (x : itv F) (y : itv G) : M bool := less_mixed y x.
Definition succeeds_mixed (x : itv F) (y : itv G) : M bool := precedes_mixed y x.
Definition contains_interior_mixed (x : itv F) (y : itv G) : M bool := interior_mixed y x.
Definition strictly_greater_mixed (x : itv F) (y : itv G) : M bool := strictly_less_mixed y x.
Definition strictly_succeeds_mixed (x : itv F) (y : itv G) : M bool := strictly_precedes_mixed y x.
Definition op_eq (x : itv F) (y : itv G) : M bool := equal_mixed x y.
Definition op_ne (x : itv F) (y : itv G) : M bool := mnot (op_eq x y).
End Api.
