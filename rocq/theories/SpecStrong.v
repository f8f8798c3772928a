(** * Specification: the strongest decoration

    [honest] (SpecDeco.v) says which decorations are true of an evaluation.  The standard lets a
    function return any true one; here the result carries the greatest of those that the
    decorations of the operands allow. *)
From Coq Require Import NArith Reals.
From Verif Require Import Fmt Spec Deco Exc SpecApi SpecDeco.
Local Open Scope N_scope.

Definition strongest1 {F T} (opd : ditv F -> M (ditv T)) (dom : R -> Prop) (f : R -> R) : Prop :=
  forall x, wf_dec x -> is_deco (snd x) -> snd x <> ill -> forall z, returns (opd x) z ->
  forall d, is_deco d -> d <= snd x ->
    honest near1 (box1 (fst x)) dom (bounded_rep (fst x)) f (fst z) d -> d <= snd z.
Definition strongest2 {F G T} (opd : ditv F -> ditv G -> M (ditv T)) (dom : R -> R -> Prop) (f : R -> R -> R) : Prop :=
  forall x y, wf_dec x -> is_deco (snd x) -> snd x <> ill -> wf_dec y -> is_deco (snd y) -> snd y <> ill ->
  forall z, returns (opd x y) z ->
  forall d, is_deco d -> d <= snd x -> d <= snd y ->
    honest near2 (box2 (fst x) (fst y)) (fun p => dom (fst p) (snd p))
      (bounded_rep (fst x) /\ bounded_rep (fst y)) (fun p => f (fst p) (snd p)) (fst z) d -> d <= snd z.
Definition strongest3 {F G H T} (opd : ditv F -> ditv G -> ditv H -> M (ditv T)) (f : R -> R -> R -> R) : Prop :=
  forall x y w, wf_dec x -> is_deco (snd x) -> snd x <> ill -> wf_dec y -> is_deco (snd y) -> snd y <> ill ->
  wf_dec w -> is_deco (snd w) -> snd w <> ill ->
  forall z, returns (opd x y w) z ->
  forall d, is_deco d -> d <= snd x -> d <= snd y -> d <= snd w ->
    honest near3 (box3 (fst x) (fst y) (fst w)) (fun _ => True)
      (bounded_rep (fst x) /\ bounded_rep (fst y) /\ bounded_rep (fst w))
      (fun p => f (fst (fst p)) (snd (fst p)) (snd p)) (fst z) d -> d <= snd z.

(** Smaller operands with better decorations give a better decoration.  The empty set comes with
    the worst one, so it counts as smaller only if the other operand has that, too. *)
Definition better {F} (x x' : ditv F) : Prop :=
  included (fst x) (fst x') /\ snd x' <= snd x /\ ((forall r, ~ mem r (fst x)) -> snd x' <= trv).
