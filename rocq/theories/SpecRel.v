(** * Specification of the comparison relations

    First-order statements about the real members (IEEE 1788, table of
    comparisons); [interior] is the topological interior. *)

From Coq Require Import Reals.
From Verif Require Import Fmt Spec.
Local Open Scope R_scope.

Section R.
Context {F G : fmt} (x : itv F) (y : itv G).
Definition has_no_member := forall r, ~ mem r x.
Definition has_all_members := forall r, mem r x.
Definition s_equal := forall r, mem r x <-> mem r y.
Definition s_subset := forall r, mem r x -> mem r y.
Definition s_less :=
  (forall a, mem a x -> exists b, mem b y /\ a <= b) /\
  (forall b, mem b y -> exists a, mem a x /\ a <= b).
Definition s_precedes := forall a b, mem a x -> mem b y -> a <= b.
Definition s_interior := forall a, mem a x -> exists e, 0 < e /\ forall t, Rabs (t - a) < e -> mem t y.
Definition s_strictly_less :=
  (forall a, mem a x -> exists b, mem b y /\ a < b) /\
  (forall b, mem b y -> exists a, mem a x /\ a < b).
Definition s_strictly_precedes := forall a b, mem a x -> mem b y -> a < b.
Definition s_disjoint := forall r, ~ (mem r x /\ mem r y).
Definition s_singleton := exists r, forall t, mem t x <-> t = r.
Definition s_bounded := exists B, forall r, mem r x -> Rabs r <= B.
Definition s_nonempty := exists r, mem r x.
End R.
