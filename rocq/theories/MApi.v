(** * The relations of the public classes on decorated intervals

    p1788/infsup/base_interval_bool_func_impl.hpp is one template for bare and decorated
    intervals; the bare instances of the derived relations are at the end of MBool.v.
    On decorated intervals the flavor functions called are those of
    FL_bool_func_impl.hpp with decorated operands ([rel_dec]). *)
From Verif Require Import Fmt Exc Deco MBase MBool.
Local Open Scope m_scope.

Section Api.
Context {F G : fmt}.
(** 139-155, 195-211, 251-267, 307-323, 363-379, 419-435. *)
Definition superset_dec (x : ditv F) (y : ditv G) : M bool := rel_dec subset_mixed y x.
Definition greater_dec (x : ditv F) (y : ditv G) : M bool := rel_dec less_mixed y x.
Definition succeeds_dec (x : ditv F) (y : ditv G) : M bool := rel_dec precedes_mixed y x.
Definition contains_interior_dec (x : ditv F) (y : ditv G) : M bool := rel_dec interior_mixed y x.
Definition strictly_greater_dec (x : ditv F) (y : ditv G) : M bool := rel_dec strictly_less_mixed y x.
Definition strictly_succeeds_dec (x : ditv F) (y : ditv G) : M bool := rel_dec strictly_precedes_mixed y x.
(** 99-102, 106-109. *)
Definition op_eq_dec (x : ditv F) (y : ditv G) : M bool := rel_dec equal_mixed x y.
Definition op_ne_dec (x : ditv F) (y : ditv G) : M bool := mnot (op_eq_dec x y).
End Api.
