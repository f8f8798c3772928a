(** * What the numeric functions have to return *)
From Coq Require Import ZArith Reals Bool.
From Flocq Require Import Core.Core IEEE754.BinarySingleNaN.
From Verif Require Import Fmt Spec Exc SpecApi.
Local Open Scope R_scope.

(** The best number of the format below / above all members of a set. *)
Definition greatest_below {G : fmt} (S : R -> Prop) (v : float G) : Prop :=
  isnan v = false /\ (forall r, S r -> lb v r) /\
  forall w : float G, (forall r, S r -> lb w r) -> forall t, lb v t -> lb w t.
Definition least_above {G : fmt} (S : R -> Prop) (v : float G) : Prop :=
  isnan v = false /\ (forall r, S r -> ub v r) /\
  forall w : float G, (forall r, S r -> ub w r) -> forall t, ub v t -> ub w t.

(** Sets of which inf/sup, wid, rad, mag/mig are the bounds. *)
Definition points {F} (x : itv F) : R -> Prop := fun t => mem t x.
Definition differences {F} (x : itv F) : R -> Prop := fun t => exists r s, mem r x /\ mem s x /\ t = r - s.
Definition distances {F} (m : R) (x : itv F) : R -> Prop := fun t => exists r, mem r x /\ t = Rabs (r - m).
Definition magnitudes {F} (x : itv F) : R -> Prop := fun t => exists r, mem r x /\ t = Rabs r.

(** [m] is a number nearest to [r], the even one in case of a tie. *)
Definition nearest {G : fmt} (r : R) (m : float G) : Prop :=
  is_finite m = true /\ B2R m = round radix2 (fexp G) ZnearestE r.

(** The same when the exponent range of the format may be too small. *)
Definition nearest_or_inf {G : fmt} (r : R) (m : float G) : Prop :=
  nearest r m \/
  bpow radix2 (emax G) <= Rabs (round radix2 (fexp G) ZnearestE r) /\ (0 < r -> m = finf) /\ (r < 0 -> m = fminf).
(** A zero result has the sign of [z]. *)
Definition zero_is {G : fmt} (z v : float G) : Prop := is_finite v = true -> B2R v = 0 -> v = z.

Definition gives {A} (m : M A) (P : A -> Prop) : Prop := exists a, returns m a /\ P a.
