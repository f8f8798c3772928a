(** * Specification: the same call with operands of other types, or with another overload *)
From Coq Require Import ZArith NArith Reals.
From Flocq Require Import Core.Core IEEE754.BinarySingleNaN.
From Verif Require Import Fmt Spec Exc Deco SpecApi SpecTan2 SpecExpr SpecPoint PConv.

(** The two intervals, maybe with bounds of different types, are the same set of real numbers; the two decorated
    intervals have the same decoration, too.  (A bound 0 may have either sign.) *)
Definition same_numbers {F G : fmt} (x : itv F) (y : itv G) : Prop := forall r, mem r x <-> mem r y.
Definition same_dec {F G : fmt} (x : ditv F) (y : ditv G) : Prop := same_numbers (fst x) (fst y) /\ snd x = snd y.
(** Both computations return, and they return the same. *)
Definition agree_dec {F : fmt} (m n : M (ditv F)) : Prop := exists z w, returns m z /\ returns n w /\ same_dec z w.
(** Operands at which the tangent that works in the type [W] is right (C12, C28). *)
Definition tan_good (W : fmt) {F : fmt} (u : un) (x : itv F) : Prop := u = u_tan -> three W /\ ~ pole_hidden W x.

(** [recast e e']: two expressions with the same functions and the same result type at every function.  The types of
    the variables may differ, and each function may be the version for one type or the one for mixed types. *)
Inductive recast {vf vf' : nat -> fmt} : forall {F G : fmt}, expr vf F -> expr vf' G -> Prop :=
  | rc_var i : recast (@Var vf i) (@Var vf' i)
  | rc_un F u (a : expr vf F) (a' : expr vf' F) : recast a a' -> recast (Un u a) (Un u a')
  | rc_un_m F G u (a : expr vf F) (a' : expr vf' G) : recast a a' -> recast (Un u a) (MUn F u a')
  | rc_m_un F G u (a : expr vf G) (a' : expr vf' F) : recast a a' -> recast (MUn F u a) (Un u a')
  | rc_m_m_un T F G u (a : expr vf F) (a' : expr vf' G) : recast a a' -> recast (MUn T u a) (MUn T u a')
  | rc_bin F b (a c : expr vf F) (a' c' : expr vf' F) : recast a a' -> recast c c' -> recast (Bin b a c) (Bin b a' c')
  | rc_bin_m F G K b (a c : expr vf F) (a' : expr vf' G) (c' : expr vf' K) : recast a a' -> recast c c' ->
      recast (Bin b a c) (MBin F b a' c')
  | rc_m_bin F G K b (a : expr vf G) (c : expr vf K) (a' c' : expr vf' F) : recast a a' -> recast c c' ->
      recast (MBin F b a c) (Bin b a' c')
  | rc_m_m_bin T F G F' G' b (a : expr vf F) (c : expr vf G) (a' : expr vf' F') (c' : expr vf' G') : recast a a' -> recast c c' ->
      recast (MBin T b a c) (MBin T b a' c')
  | rc_fma F (a c d : expr vf F) (a' c' d' : expr vf' F) : recast a a' -> recast c c' -> recast d d' ->
      recast (Fma a c d) (Fma a' c' d')
  | rc_fma_m F G K L (a c d : expr vf F) (a' : expr vf' G) (c' : expr vf' K) (d' : expr vf' L) :
      recast a a' -> recast c c' -> recast d d' -> recast (Fma a c d) (MFma F a' c' d')
  | rc_m_fma F G K L (a : expr vf G) (c : expr vf K) (d : expr vf L) (a' c' d' : expr vf' F) :
      recast a a' -> recast c c' -> recast d d' -> recast (MFma F a c d) (Fma a' c' d')
  | rc_m_m_fma T F G K F' G' K' (a : expr vf F) (c : expr vf G) (d : expr vf K) (a' : expr vf' F') (c' : expr vf' G') (d' : expr vf' K') :
      recast a a' -> recast c c' -> recast d d' -> recast (MFma T a c d) (MFma T a' c' d').

(** Relations: the answer depends on the sets alone, in the version for one type and in the one for two types. *)
Definition same_answer (m n : M bool) : Prop := exists b, returns m b /\ returns n b.
Definition set_relation (one : forall F, itv F -> itv F -> M bool) (two : forall F G, itv F -> itv G -> M bool) : Prop :=
  (forall (F : fmt) (x y : itv F) (F' G' : fmt) (x' : itv F') (y' : itv G'), comparable F' G' -> wf x -> wf y -> wf x' -> wf y' ->
     same_numbers x x' -> same_numbers y y' -> same_answer (one F x y) (two F' G' x' y')) /\
  (forall (F G : fmt) (x : itv F) (y : itv G) (F' G' : fmt) (x' : itv F') (y' : itv G'), comparable F G -> comparable F' G' ->
     wf x -> wf y -> wf x' -> wf y' -> same_numbers x x' -> same_numbers y y' -> same_answer (two F G x y) (two F' G' x' y')).

(** Numeric functions: both calls return, the same number with the same sign of zero, or both NaN. *)
Definition same_float {F : fmt} (m n : M (float F)) : Prop := exists v, returns m v /\ returns n v.
(** The two intervals of the extended division. *)
Definition agree_pair {F : fmt} (m n : M (itv F * itv F)) : Prop :=
  exists z w, returns m z /\ returns n w /\ same_numbers (fst z) (fst w) /\ same_numbers (snd z) (snd w).
