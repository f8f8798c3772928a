(** * Specification: reverse operations *)
From Coq Require Import ZArith NArith Reals.
From Flocq Require Import Core.Core IEEE754.BinarySingleNaN.
From Verif Require Import Fmt Spec Deco Exc SpecApi SpecDeco.

Local Open Scope R_scope.

(** The [t] with [s * t] in [c] for some [s] in [b]. *)
Definition rev_mul {F G} (b : itv F) (c : itv G) (t : R) : Prop := exists s, mem s b /\ mem (s * t) c.
(** [b] has points on both sides of zero and [c] is a non-empty set without zero: the
    case in which the solutions fall into two branches. *)
Definition two_branches {F G} (b : itv F) (c : itv G) : Prop :=
  (exists s, mem s b /\ s < 0) /\ (exists s, mem s b /\ 0 < s) /\ (exists r, mem r c) /\ ~ mem 0 c.
(** The [t] of [x] whose image under [f], with natural domain [dom], lies in [c]. *)
Definition preimage {F G} (dom : R -> Prop) (f : R -> R) (c : itv F) (x : itv G) (t : R) : Prop :=
  mem t x /\ dom t /\ mem (f t) c.

(** The two intervals of extended division: together they contain all solutions, in
    ascending order; each is the tightest for its branch; the second is empty if there is
    only one branch. *)
Definition both_branches {F G T} (b : itv F) (c : itv G) (z1 z2 : itv T) : Prop :=
  (forall t, rev_mul b c t -> mem t z1 \/ mem t z2) /\
  (forall t1 t2, mem t1 z1 -> mem t2 z2 -> t1 <= t2) /\
  (two_branches b c -> (exists t, mem t z1) /\ (exists t, mem t z2) /\
     tightest (fun t => rev_mul b c t /\ t < 0) z1 /\ tightest (fun t => rev_mul b c t /\ 0 < t) z2) /\
  (~ two_branches b c -> tightest (rev_mul b c) z1 /\ z2 = empty_rep).
(** A computation that needs a number of rounds: any sufficient number gives the same result. *)
Definition finally {A} (m : nat -> M A) (P : A -> Prop) : Prop :=
  exists a k, (forall fuel, (k <= fuel)%nat -> returns (m fuel) a) /\ P a.
(** The bare result with decoration trv. *)
Definition with_trv {T} (P : itv T -> Prop) (d : ditv T) : Prop := snd d = trv /\ wf_dec d /\ P (fst d).
(** The decorated pair: the first decoration tells about the quotient over the box of the
    operands, the second is trv. *)
Definition pair_decorated {F G T} (b : ditv F) (c : ditv G) (z : ditv T * ditv T) : Prop :=
  both_branches (fst b) (fst c) (fst (fst z)) (fst (snd z)) /\
  wf_dec (fst z) /\ is_deco (snd (fst z)) /\ snd (fst z) <> ill /\ wf_dec (snd z) /\ snd (snd z) = trv /\
  (snd (fst z) <= snd b)%N /\ (snd (fst z) <= snd c)%N /\
  honest near2 (box2 (fst b) (fst c)) (fun p => fst p <> 0) (bounded_rep (fst b) /\ bounded_rep (fst c))
    (fun p => snd p / fst p) (fst (fst z)) (snd (fst z)).
(** Enclosure by a valid interval. *)
Definition encl {T} (S : R -> Prop) (z : itv T) : Prop := wf z /\ encloses S z.

(** The finite bounds of [x] are at most 2^p and at most 2^62 in magnitude. *)
Definition modest {F} (p : Z) (x : itv F) : Prop :=
  (is_finite (fst x) = true -> Rabs (B2R (fst x)) <= bpow radix2 (Z.min p 62)) /\
  (is_finite (snd x) = true -> Rabs (B2R (snd x)) <= bpow radix2 (Z.min p 62)).
