(** * What the root finders have to do *)
From Coq Require Import ZArith Reals Bool List.
From Flocq Require Import Core.Core IEEE754.BinarySingleNaN.
From Verif Require Import Fmt Spec Exc SpecApi.
Local Open Scope R_scope.

Section S.
Context {F : fmt}.
Implicit Types x y v : itv F.

(** [f] is an interval extension of the partial function whose graph is [phi]. *)
Definition extends (f : itv F -> M (itv F)) (phi : R -> R -> Prop) : Prop :=
  forall x, wf x -> exists y, returns (f x) y /\ wf y /\ forall r s, mem r x -> phi r s -> mem s y.
Definition graph (g : R -> R) : R -> R -> Prop := fun r s => s = g r.
(** [f] returns a valid interval for every valid interval. *)
Definition valid_fun (f : itv F -> M (itv F)) : Prop := extends f (fun _ _ => False).

Definition inhabited_itv v : Prop := exists r, mem r v.
(** The intervals of [l] cover the set [S]. *)
Definition covers (l : list (itv F)) (S : R -> Prop) : Prop := forall r, S r -> exists v, In v l /\ mem r v.
(** Each interval of the list lies before the next ones (a common bound is allowed). *)
Definition ascending (l : list (itv F)) : Prop :=
  ForallOrdPairs (fun v v' => forall r s, mem r v -> mem s v' -> r <= s) l.
(** [|s| < eps], for every real [s] if [eps] is +oo. *)
Definition smaller_than (eps : float F) (s : R) : Prop :=
  match eps with
  | B754_nan => False
  | B754_infinity b => b = false
  | _ => Rabs s < B2R eps
  end.

(** What the bisection reports: all zeros are covered; the intervals are non-empty parts of
    [x] in ascending order, and the function is small on each. *)
Definition finds_small (phi : R -> R -> Prop) x (eps : float F) (l : list (itv F)) : Prop :=
  covers l (fun r => mem r x /\ phi r 0) /\ ascending l /\
  forall v, In v l -> inhabited_itv v /\ included v x /\ forall r s, mem r v -> phi r s -> smaller_than eps s.
(** What Newton's method reports: all zeros are covered; the intervals are non-empty parts
    of [x] and narrow. *)
Definition finds_narrow (phi : R -> R -> Prop) x (eps : float F) (l : list (itv F)) : Prop :=
  covers l (fun r => mem r x /\ phi r 0) /\
  forall v, In v l -> inhabited_itv v /\ included v x /\ forall r s, mem r v -> mem s v -> smaller_than eps (r - s).

(** No number of the format lies strictly between the bounds. *)
Definition thin v : Prop :=
  forall c : float F, is_finite c = true -> mem (B2R c) v ->
  (forall r, mem r v -> B2R c <= r) \/ (forall r, mem r v -> r <= B2R c).

(** A computation bounded by a number of levels: it does not stop / it stops with a
    result, the same for every number of levels that suffices. *)
Definition never_stops {A} (m : nat -> M (option A)) : Prop := forall fuel, returns (m fuel) None.
Definition stops_with {A} (m : nat -> M (option A)) (P : A -> Prop) : Prop :=
  exists a k, (forall fuel, (k <= fuel)%nat -> returns (m fuel) (Some a)) /\ P a.
(** Whenever it stops, it does so without an exception and the result satisfies [P]. *)
Definition stops_only_with {A} (m : nat -> M (option A)) (P : A -> Prop) : Prop :=
  forall fuel, exists o, returns (m fuel) o /\ forall a, o = Some a -> P a.
End S.
