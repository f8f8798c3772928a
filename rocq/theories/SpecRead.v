(** * Specification: reading a literal *)
From Coq Require Import ZArith NArith Reals Ascii String List.
From Verif Require Import Fmt Spec Deco MStream SpecDecoText SpecLiteral.
Import ListNotations.
Local Open Scope list_scope.

(** The decorated interval for a literal denoting [S] with the decoration [given]: the
    tightest enclosure, and the decoration [literal_decoration] tells. *)
Definition reading {F : fmt} (S : R -> Prop) (given : option deco) (x : ditv F) : Prop :=
  tightest S (fst x) /\
  exists e b : bool, (e = true <-> forall r, ~ S r) /\ (b = true <-> bounded_rep (fst x)) /\
    snd x = literal_decoration e b given.

(** The text [r] after a literal does not continue it: nothing can follow a decoration that
    would be taken for a part of it; otherwise no digit and none of these characters. *)
Definition follows (given : option deco) (r : text) : Prop :=
  match given with
  | Some _ => True
  | None => forall c r', r = c :: r' -> ~ In c (txt "0123456789?_dDuUeE")
  end.

(** Exponents up to 10^9, however long the text around them. *)
Definition small_exponents (l : text) : Prop :=
  forall a m s g k n b, l = a ++ m ++ s ++ k ++ b -> word "e" m \/ word "p" m -> any_sign s g -> numeral 10 k n ->
  (n <= 1000000000)%Z.
(** Long inputs (128 MiB) are out of scope: lengths are converted to int. *)
Definition moderate (l : text) : Prop := (Z.of_nat (length l) < 2 ^ 27)%Z.

(** The texts that are read as a literal, [r] being left: literals without plus signs whose
    decoration may be preceded by white space or be a number. *)
Inductive accepted : text -> (R -> Prop) -> option deco -> text -> Prop :=
| Accepted_plain : forall t S d r, bare_literal no_plus any_exponent t S d -> d <> ill ->
    (forall r', r <> txt "_" ++ r') -> accepted (t ++ r) S None r
| Accepted_decorated : forall t S d a w k r, bare_literal no_plus any_exponent t S d -> d <> ill ->
    blanks a -> denotes w k r -> k <> d_ill -> (byte k <= d)%N ->
    accepted (t ++ txt "_" ++ a ++ w) S (Some (byte k)) r.
(** Characters on which std::isspace is defined. *)
Definition ascii_text (l : text) : Prop := Forall (fun c => (code c < 128)%N) l.
