(** * What decorations promise (IEEE 1788: com, dac, def, trv, ill) *)
From Coq Require Import NArith Reals List.
From Verif Require Import Fmt Spec Deco Exc SpecApi.
Import ListNotations.
Local Open Scope R_scope.

(** The five decorations. *)
Definition is_deco (d : deco) : Prop := In d [ill; trv; def; dac; com].

(** Points of one, two and three real coordinates that are less than [d] apart. *)
Definition near1 (d : R) (p q : R) : Prop := Rabs (q - p) < d.
Definition near2 (d : R) (p q : R * R) : Prop := near1 d (fst p) (fst q) /\ near1 d (snd p) (snd q).
Definition near3 (d : R) (p q : R * R * R) : Prop := near2 d (fst p) (fst q) /\ near1 d (snd p) (snd q).

(** Continuity at [p] of [f] restricted to [D]. *)
Definition cont_at {P : Type} (near : R -> P -> P -> Prop) (D : P -> Prop) (f : P -> R) (p : P) : Prop :=
  forall e, 0 < e -> exists d, 0 < d /\ forall q, D q -> near d p q -> Rabs (f q - f p) < e.

(** The decoration [d] tells the truth about evaluating [f], of domain [dom],
    over [box] with result [z]; [bbox] says that the box is bounded. *)
Definition honest {F : fmt} {P : Type} (near : R -> P -> P -> Prop) (box dom : P -> Prop) (bbox : Prop)
    (f : P -> R) (z : itv F) (d : deco) : Prop :=
  ((def <= d)%N -> (exists p, box p) /\ forall p, box p -> dom p) /\
  ((dac <= d)%N -> forall p, box p -> cont_at near box f p) /\
  ((com <= d)%N -> bbox /\ bounded_rep z /\ forall p, box p -> cont_at near dom f p).

(** Boxes. *)
Definition box1 {F} (x : itv F) : R -> Prop := fun r => mem r x.
Definition box2 {F G} (x : itv F) (y : itv G) : R * R -> Prop := fun p => mem (fst p) x /\ mem (snd p) y.
Definition box3 {F G H} (x : itv F) (y : itv G) (z : itv H) : R * R * R -> Prop :=
  fun p => box2 x y (fst p) /\ mem (snd p) z.

(** A decorated operation [opd] extends the bare operation [op] of the point
    function [f] with domain [dom], for operands that are not NaI. *)
Definition decorates1 {F} (opd : ditv F -> M (ditv F)) (op : itv F -> M (itv F)) (dom : R -> Prop) (f : R -> R) : Prop :=
  forall x, wf_dec x -> is_deco (snd x) -> snd x <> ill ->
  exists z, returns (opd x) z /\ wf_dec z /\ is_deco (snd z) /\ snd z <> ill /\
    returns (op (fst x)) (fst z) /\ (snd z <= snd x)%N /\
    honest near1 (box1 (fst x)) dom (bounded_rep (fst x)) f (fst z) (snd z).
Definition decorates2 {F} (opd : ditv F -> ditv F -> M (ditv F)) (op : itv F -> itv F -> M (itv F))
    (dom : R -> R -> Prop) (f : R -> R -> R) : Prop :=
  forall x y, wf_dec x -> is_deco (snd x) -> snd x <> ill -> wf_dec y -> is_deco (snd y) -> snd y <> ill ->
  exists z, returns (opd x y) z /\ wf_dec z /\ is_deco (snd z) /\ snd z <> ill /\
    returns (op (fst x) (fst y)) (fst z) /\ (snd z <= snd x)%N /\ (snd z <= snd y)%N /\
    honest near2 (box2 (fst x) (fst y)) (fun p => dom (fst p) (snd p))
      (bounded_rep (fst x) /\ bounded_rep (fst y)) (fun p => f (fst p) (snd p)) (fst z) (snd z).
Definition decorates3 {F} (opd : ditv F -> ditv F -> ditv F -> M (ditv F)) (op : itv F -> itv F -> itv F -> M (itv F))
    (f : R -> R -> R -> R) : Prop :=
  forall x y w, wf_dec x -> is_deco (snd x) -> snd x <> ill -> wf_dec y -> is_deco (snd y) -> snd y <> ill ->
  wf_dec w -> is_deco (snd w) -> snd w <> ill ->
  exists z, returns (opd x y w) z /\ wf_dec z /\ is_deco (snd z) /\ snd z <> ill /\
    returns (op (fst x) (fst y) (fst w)) (fst z) /\ (snd z <= snd x)%N /\ (snd z <= snd y)%N /\ (snd z <= snd w)%N /\
    honest near3 (box3 (fst x) (fst y) (fst w)) (fun _ => True)
      (bounded_rep (fst x) /\ bounded_rep (fst y) /\ bounded_rep (fst w))
      (fun p => f (fst (fst p)) (snd (fst p)) (snd p)) (fst z) (snd z).
