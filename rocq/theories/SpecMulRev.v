(** * Specification: what reverse multiplication computes *)
From Coq Require Import Reals.
From Verif Require Import Fmt Spec SpecRev.
Local Open Scope R_scope.

(** [b] holds arbitrarily large numbers. *)
Definition unlimited {F} (b : itv F) : Prop := forall B, exists s, mem s b /\ B < Rabs s.
(** The solutions [t] of [s * t = r] with [s] in [b] and [r] in [c], and zero if the solutions come
    arbitrarily close to it because [b] is unlimited. *)
Definition rev_mul_lim {F G} (b : itv F) (c : itv G) (t : R) : Prop :=
  rev_mul b c t \/ t = 0 /\ unlimited b /\ exists r, mem r c.
