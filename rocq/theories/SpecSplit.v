(** * Specification: an operand cut into parts *)
From Coq Require Import NArith Reals List.
From Verif Require Import Fmt Spec Deco Exc SpecApi MExpr SpecExpr.
Local Open Scope R_scope.

(** [x] is the union of [x1] and [x2]. *)
Definition cut {F} (x x1 x2 : itv F) : Prop := forall r, mem r x <-> mem r x1 \/ mem r x2.
(** The first computation returns the tightest interval around the results of the two others. *)
Definition joins {F} (m m1 m2 : M (itv F)) : Prop :=
  exists z z1 z2, returns m z /\ returns m1 z1 /\ returns m2 z2 /\ tightest (fun r => mem r z1 \/ mem r z2) z.
(** The same, and the decoration is the worse one of the two others. *)
Definition joins_dec {F} (m m1 m2 : M (ditv F)) : Prop :=
  exists z z1 z2, returns m z /\ returns m1 z1 /\ returns m2 z2 /\
  tightest (fun r => mem r (fst z1) \/ mem r (fst z2)) (fst z) /\ snd z = N.min (snd z1) (snd z2).
(** Decorated operands: the decoration of the whole is the worse one of the parts, and no part is empty. *)
Definition cut_dec {F} (x x1 x2 : ditv F) : Prop :=
  cut (fst x) (fst x1) (fst x2) /\ (exists r, mem r (fst x1)) /\ (exists r, mem r (fst x2)) /\ snd x = N.min (snd x1) (snd x2).
(** The boxes of the list lie in the box [X] and cover it, as far as the variables of [e] are concerned. *)
Definition covered {vf F} (e : expr vf F) (X : ienv vf) (l : list (ienv vf)) : Prop :=
  (forall Y, In Y l -> forall i, occurs i e = true -> included (Y i) (X i)) /\
  (forall p, in_box e X p -> exists Y, In Y l /\ in_box e Y p).
