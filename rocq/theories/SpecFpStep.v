(** * Specification: programs of assignments in floating-point arithmetic *)
From Coq Require Import Reals List PeanoNat.
From Verif Require Import Fmt Spec SpecApi SpecExpr SpecFp MExpr SpecStep.
Import ListNotations.

Section Run.
Context {vf : nat -> fmt}.
Definition setF (p : fenv vf) (i : nat) (v : float (vf i)) : fenv vf := fun j =>
  match Nat.eq_dec i j with left q => eq_rect i (fun k => float (vf k)) v j q | right _ => p j end.
(** [frun tr p q]: the assignments [tr] may turn the variables [p] into [q]. *)
Inductive frun : list (asg vf) -> fenv vf -> fenv vf -> Prop :=
| fr_nil p : frun [] p p
| fr_cons a tr p v q : feval p (what a) v -> frun tr (setF p (to a) v) q -> frun (a :: tr) p q.
(** No tangent of an assignment meets a hidden pole, with the values that the objects have then. *)
Definition fine_way (X : ienv vf) (tr : list (asg vf)) : Prop :=
  forall pre a post, tr = pre ++ a :: post -> forall Y : ienv vf, (forall i, returns (beval X (inline pre i)) (Y i)) ->
  tan_fine (fun F e z => returns (beval Y e) z) (what a).
End Run.
