(** * Specification: the uncertain form of an interval

    A centre and a distance to one side or both. *)
From Coq Require Import ZArith NArith Reals.
From Flocq Require Import Core.Core IEEE754.BinarySingleNaN.
From Verif Require Import Fmt Spec Deco SpecNum MStream MDecoIo MUncertain SpecLiteral PPrint.
Local Open Scope R_scope.

(** The numbers at most [w] below (if [dn]) or above (if [up]) the number [c]. *)
Definition band (dn up : bool) (c w : R) : R -> Prop :=
  between_bounds (moved_bound dn c (Some (- w))) (moved_bound up c (Some w)).
(** No number of units less than [n] reaches all of x. *)
Definition fewest {F : fmt} (dn up : bool) (c unit : R) (n : Z) (x : itv F) : Prop :=
  forall n' : Z, (forall r, mem r x -> band dn up c (IZR n' * unit) r) -> (n <= n')%Z.

(** The sides on which the three forms extend; the digits after the point asked for. *)
Definition downwards (k : side) : bool := match k with u_up => false | _ => true end.
Definition upwards (k : side) : bool := match k with u_down => false | _ => true end.
Definition digits_of (p : N) : nat := N.to_nat (if (p =? 0)%N then 6 else p)%N.
Notation bare := (bare_literal no_plus int_exponent).
(** The centre is the bound, rounded away from the interval, or, for both sides, a midpoint
    correctly rounded to a float and then to a decimal. *)
Definition centre {F : fmt} (k : side) (p : nat) (x : itv F) (c : R) : Prop :=
  let unit := bpow radix10 (- Z.of_nat p) in
  match k with
  | u_up => c <= B2R (fst x) < c + unit
  | u_down => c - unit < B2R (snd x) <= c
  | u_both => exists m : float F, is_finite m = true /\ nearest ((B2R (fst x) + B2R (snd x)) / 2) m /\ Rabs (c - B2R m) <= unit / 2
  end.
(** Text of a bounded interval: a literal of a set that encloses x.  In the decimal form the
    unit is the last digit asked for and the number of units is the least possible. *)
Definition bounded_text {F : fmt} (k : side) (sci : bool) (p : nat) (x : itv F) (t : list Ascii.ascii) : Prop :=
  exists c unit n, 0 < unit /\ (0 <= n)%Z /\ bare t (band (downwards k) (upwards k) c (IZR n * unit)) com /\
    (forall r, mem r x -> band (downwards k) (upwards k) c (IZR n * unit) r) /\
    (sci = false -> unit = bpow radix10 (- Z.of_nat p) /\ (exists C, c = IZR C * unit) /\ centre k p x c /\
                    fewest (downwards k) (upwards k) c unit n x).
(** Text of an unbounded interval: unbounded on the same sides; the other bound is rounded away
    from the interval. *)
Definition unbounded_text {F : fmt} (sci : bool) (p : nat) (x : itv F) (t : list Ascii.ascii) : Prop :=
  exists l u, bare t (between_bounds l u) dac /\
    (if is_finite (fst x) then exists a, l = Some a /\ a <= B2R (fst x) /\ (sci = false -> B2R (fst x) < a + bpow radix10 (- Z.of_nat p)) else l = None) /\
    (if is_finite (snd x) then exists b, u = Some b /\ B2R (snd x) <= b /\ (sci = false -> b - bpow radix10 (- Z.of_nat p) < B2R (snd x)) else u = None).
(** The exponents of the format have fewer digits than are written after the point. *)
Definition roomy (F : fmt) (sci : bool) (p : nat) : Prop :=
  sci = true -> (3 <= p)%nat /\ (emax F + prec F < 3 * 10 ^ (Z.of_nat p - 1))%Z.
