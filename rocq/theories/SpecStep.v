(** * Specification: what a sequence of assignments computes over the reals *)
From Coq Require Import Reals List PeanoNat.
From Verif Require Import Fmt Spec Exc SpecExpr MClass MStep.
Import ListNotations.

Section Steps.
Context {vf : nat -> fmt}.
(** One assignment; the assignments of a run in their order. *)
Record asg : Type := Asg { to : nat; what : expr vf (vf to) }.
Definition setR (p : nat -> R) (i : nat) (r : R) : nat -> R := fun j => if Nat.eqb i j then r else p j.
(** The variables after the assignments, computed exactly. *)
Fixpoint rrun (tr : list asg) (p : nat -> R) : nat -> R :=
  match tr with [] => p | a :: tr => rrun tr (setR p (to a) (val p (what a))) end.
(** No function is applied outside of its domain on the way. *)
Fixpoint rdef (tr : list asg) (p : nat -> R) : Prop :=
  match tr with [] => True | a :: tr => dom p (what a) /\ rdef tr (setR p (to a) (val p (what a))) end.

(** The same as one expression per variable: what variable [i] holds in the end, as
    an expression of the variables at the beginning. *)
Fixpoint subst (s : forall i, expr vf (vf i)) {F} (e : expr vf F) : expr vf F :=
  match e in expr _ F return expr vf F with
  | Var i => s i
  | Un u a => Un u (subst s a)
  | Bin b a c => Bin b (subst s a) (subst s c)
  | Fma a c d => Fma (subst s a) (subst s c) (subst s d)
  | MUn T u a => MUn T u (subst s a)
  | MBin T b a c => MBin T b (subst s a) (subst s c)
  | MFma T a c d => MFma T (subst s a) (subst s c) (subst s d)
  end.
Definition setE (s : forall i, expr vf (vf i)) (i : nat) (e : expr vf (vf i)) : forall j, expr vf (vf j) := fun j =>
  match Nat.eq_dec i j with left q => eq_rect i (fun k => expr vf (vf k)) e j q | right _ => s j end.
Fixpoint inline_from (s : forall i, expr vf (vf i)) (tr : list asg) : forall i, expr vf (vf i) :=
  match tr with [] => s | a :: tr => inline_from (setE s (to a) (subst s (what a))) tr end.
Definition inline (tr : list asg) : forall i, expr vf (vf i) := inline_from (fun i => Var i) tr.

(** The sequences of assignments along the paths of a program. *)
Inductive path {Q} : prog vf Q -> list asg -> Prop :=
| p_done : path Done []
| p_let i e k : path (Let i e k) [Asg i e]
| p_then p q tr tr' : path p tr -> path q tr' -> path (Then p q) (tr ++ tr')
| p_cond t p q (b : bool) tr : path (if b then p else q) tr -> path (Cond t p q) tr
| p_loop t p tr : path (Cond t (Then p (Loop t p)) Done) tr -> path (Loop t p) tr.
(** The path that the conditions select.  [guided pre f p tr f']: after the assignments [pre],
    with the exception state [f], the program [p] makes the assignments [tr] and leaves [f'].
    [now pre st]: [st] are the values of the objects after [pre].  Only the conditions can touch
    the exception state. *)
Section Guided.
Context {vt : nat -> ty} (now : list asg -> store vt -> Prop).
Inductive guided : list asg -> est -> prog vf (store vt -> M bool) -> list asg -> est -> Prop :=
| gu_done pre f : guided pre f Done [] f
| gu_let pre f i e k : guided pre f (Let i e k) [Asg i e] f
| gu_then pre f p q tr f1 tr' f2 : guided pre f p tr f1 -> guided (pre ++ tr) f1 q tr' f2 -> guided pre f (Then p q) (tr ++ tr') f2
| gu_cond pre f t p q st (b : bool) f1 tr f2 : now pre st -> t st f = (Ret b, f1) ->
    guided pre f1 (if b then p else q) tr f2 -> guided pre f (Cond t p q) tr f2
| gu_loop pre f t p tr f' : guided pre f (Cond t (Then p (Loop t p)) Done) tr f' -> guided pre f (Loop t p) tr f'.
End Guided.
(** A property of all expressions of a program. *)
Fixpoint all_expr {Q} (P : forall F, expr vf F -> Prop) (p : prog vf Q) : Prop :=
  match p with
  | Done => True
  | Let _ e _ => P _ e
  | Then p q => all_expr P p /\ all_expr P q
  | Cond _ p q => all_expr P p /\ all_expr P q
  | Loop _ p => all_expr P p
  end.
(** Tangents of the expression, if any, work in binary32 or binary80 (there are no hidden poles then, C12). *)
Definition safe_tan {F} (e : expr vf F) : Prop := tan_types (fun G => G = binary32 \/ G = binary80) e.
End Steps.
Arguments asg vf : clear implicits.
