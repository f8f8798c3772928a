(** * What decorated mixed-type operations promise *)
From Coq Require Import NArith Reals.
From Verif Require Import Fmt Spec Deco Exc SpecApi SpecDeco.

(** As [decorates1], ... of [SpecDeco], with operand types [F], [G], [H] and
    result type [T]. *)
Definition mixed_decorates1 {F T} (opd : ditv F -> M (ditv T)) (op : itv F -> M (itv T))
    (dom : R -> Prop) (f : R -> R) : Prop :=
  forall x, wf_dec x -> is_deco (snd x) -> snd x <> ill ->
  exists z, returns (opd x) z /\ wf_dec z /\ is_deco (snd z) /\ snd z <> ill /\
    returns (op (fst x)) (fst z) /\ (snd z <= snd x)%N /\
    honest near1 (box1 (fst x)) dom (bounded_rep (fst x)) f (fst z) (snd z).
Definition mixed_decorates2 {F G T} (opd : ditv F -> ditv G -> M (ditv T)) (op : itv F -> itv G -> M (itv T))
    (dom : R -> R -> Prop) (f : R -> R -> R) : Prop :=
  forall x y, wf_dec x -> is_deco (snd x) -> snd x <> ill -> wf_dec y -> is_deco (snd y) -> snd y <> ill ->
  exists z, returns (opd x y) z /\ wf_dec z /\ is_deco (snd z) /\ snd z <> ill /\
    returns (op (fst x) (fst y)) (fst z) /\ (snd z <= snd x)%N /\ (snd z <= snd y)%N /\
    honest near2 (box2 (fst x) (fst y)) (fun p => dom (fst p) (snd p))
      (bounded_rep (fst x) /\ bounded_rep (fst y)) (fun p => f (fst p) (snd p)) (fst z) (snd z).
Definition mixed_decorates3 {F G H T} (opd : ditv F -> ditv G -> ditv H -> M (ditv T))
    (op : itv F -> itv G -> itv H -> M (itv T)) (f : R -> R -> R -> R) : Prop :=
  forall x y w, wf_dec x -> is_deco (snd x) -> snd x <> ill -> wf_dec y -> is_deco (snd y) -> snd y <> ill ->
  wf_dec w -> is_deco (snd w) -> snd w <> ill ->
  exists z, returns (opd x y w) z /\ wf_dec z /\ is_deco (snd z) /\ snd z <> ill /\
    returns (op (fst x) (fst y) (fst w)) (fst z) /\ (snd z <= snd x)%N /\ (snd z <= snd y)%N /\ (snd z <= snd w)%N /\
    honest near3 (box3 (fst x) (fst y) (fst w)) (fun _ => True)
      (bounded_rep (fst x) /\ bounded_rep (fst y) /\ bounded_rep (fst w))
      (fun p => f (fst (fst p)) (snd (fst p)) (snd p)) (fst z) (snd z).
