(** * Isotonicity: enlarging the operands never loses points of the result *)
From Coq Require Import NArith Reals.
From Verif Require Import Fmt Spec Deco Exc SpecApi SpecDeco.

Definition isotonic1 {F T} (op : itv F -> M (itv T)) : Prop :=
  forall x x', wf x -> wf x' -> included x x' ->
  exists z z', returns (op x) z /\ returns (op x') z' /\ included z z'.
Definition isotonic2 {F G T} (op : itv F -> itv G -> M (itv T)) : Prop :=
  forall x x' y y', wf x -> wf x' -> wf y -> wf y' -> included x x' -> included y y' ->
  exists z z', returns (op x y) z /\ returns (op x' y') z' /\ included z z'.
Definition isotonic3 {F G H T} (op : itv F -> itv G -> itv H -> M (itv T)) : Prop :=
  forall x x' y y' w w', wf x -> wf x' -> wf y -> wf y' -> wf w -> wf w' ->
  included x x' -> included y y' -> included w w' ->
  exists z z', returns (op x y w) z /\ returns (op x' y' w') z' /\ included z z'.

(** A decorated operand that is valid and not NaI, whatever its decoration. *)
Definition proper {F} (x : ditv F) : Prop := wf_dec x /\ is_deco (snd x) /\ snd x <> ill.

Definition isotonic_dec1 {F T} (op : ditv F -> M (ditv T)) : Prop :=
  forall x x', proper x -> proper x' -> included (fst x) (fst x') ->
  exists z z', returns (op x) z /\ returns (op x') z' /\ included (fst z) (fst z').
Definition isotonic_dec2 {F G T} (op : ditv F -> ditv G -> M (ditv T)) : Prop :=
  forall x x' y y', proper x -> proper x' -> proper y -> proper y' ->
  included (fst x) (fst x') -> included (fst y) (fst y') ->
  exists z z', returns (op x y) z /\ returns (op x' y') z' /\ included (fst z) (fst z').
Definition isotonic_dec3 {F G H T} (op : ditv F -> ditv G -> ditv H -> M (ditv T)) : Prop :=
  forall x x' y y' w w', proper x -> proper x' -> proper y -> proper y' -> proper w -> proper w' ->
  included (fst x) (fst x') -> included (fst y) (fst y') -> included (fst w) (fst w') ->
  exists z z', returns (op x y w) z /\ returns (op x' y' w') z' /\ included (fst z) (fst z').
