(** * Specification: expressions over the reals, and what evaluating them with intervals has to give *)
From Coq Require Import ZArith NArith Reals Bool List PeanoNat.
From Flocq Require Import Core.Core.
From Verif Require Import Fmt Spec Deco Exc SpecApi SpecDeco SpecElem SpecAtan2 SpecIso SpecTan SpecTan2 PConv MMixed.
Local Open Scope R_scope.

(** Names of the point functions of one and two real variables. *)
Inductive un : Type :=
  u_pos | u_neg | u_recip | u_sqr | u_sqrt | u_abs | u_exp | u_exp2 | u_exp10 | u_log | u_log2 | u_log10 | u_sin | u_cos | u_tan | u_asin | u_acos | u_atan | u_sinh | u_cosh | u_tanh | u_asinh | u_acosh | u_atanh | u_sign | u_ceil | u_floor | u_trunc | u_rte | u_rta
  | u_pown (k : Z).
Inductive bin : Type :=
  b_add | b_sub | b_mul | b_div | b_min | b_max | b_pow | b_atan2.

(** Expressions of result type [F] over variables [0, 1, 2, ...] of types [vf i].  [Un], [Bin]
    and [Fma] have operands and result of one type, [MUn], [MBin] and [MFma] name the type of
    the result and have operands of any types. *)
Inductive expr (vf : nat -> fmt) : fmt -> Type :=
  | Var (i : nat) : expr vf (vf i)
  | Un {F} (u : un) (a : expr vf F) : expr vf F
  | Bin {F} (b : bin) (a c : expr vf F) : expr vf F
  | Fma {F} (a c e : expr vf F) : expr vf F
  | MUn (T : fmt) {F} (u : un) (a : expr vf F) : expr vf T
  | MBin (T : fmt) {F G} (b : bin) (a : expr vf F) (c : expr vf G) : expr vf T
  | MFma (T : fmt) {F G H} (a : expr vf F) (c : expr vf G) (e : expr vf H) : expr vf T.
Arguments Var {vf} i.
Arguments Un {vf F} u a.
Arguments Bin {vf F} b a c.
Arguments Fma {vf F} a c e.
Arguments MUn {vf} T {F} u a.
Arguments MBin {vf} T {F G} b a c.
Arguments MFma {vf} T {F G H} a c e.

(** The point functions: domain and value. *)
Definition un_dom (u : un) (r : R) : Prop :=
  match u with
  | u_recip => r <> 0
  | u_sqrt => 0 <= r
  | u_log => 0 < r
  | u_log2 => 0 < r
  | u_log10 => 0 < r
  | u_tan => cos r <> 0
  | u_asin => -1 <= r <= 1
  | u_acos => -1 <= r <= 1
  | u_acosh => 1 <= r
  | u_atanh => -1 < r < 1
  | u_pown k => (k < 0)%Z -> r <> 0
  | _ => True
  end.
Definition un_val (u : un) (r : R) : R :=
  match u with
  | u_pos => r
  | u_neg => - r
  | u_recip => / r
  | u_sqr => r * r
  | u_sqrt => R_sqrt.sqrt r
  | u_abs => Rabs r
  | u_exp => exp r
  | u_exp2 => exp2R r
  | u_exp10 => exp10R r
  | u_log => ln r
  | u_log2 => log2R r
  | u_log10 => log10R r
  | u_sin => sin r
  | u_cos => cos r
  | u_tan => tan r
  | u_asin => asin r
  | u_acos => acos r
  | u_atan => atan r
  | u_sinh => sinh r
  | u_cosh => cosh r
  | u_tanh => tanh r
  | u_asinh => arcsinh r
  | u_acosh => acoshR r
  | u_atanh => atanhR r
  | u_sign => signR r
  | u_ceil => ceilR r
  | u_floor => floorR r
  | u_trunc => truncR r
  | u_rte => rteR r
  | u_rta => rtaR r
  | u_pown k => powerRZ r k
  end.
Definition bin_dom (b : bin) (r s : R) : Prop :=
  match b with
  | b_div => s <> 0
  | b_pow => pow_dom r s
  | b_atan2 => not_origin r s
  | _ => True
  end.
Definition bin_val (b : bin) (r s : R) : R :=
  match b with
  | b_add => r + s
  | b_sub => r - s
  | b_mul => r * s
  | b_div => r / s
  | b_min => Rmin r s
  | b_max => Rmax r s
  | b_pow => powR r s
  | b_atan2 => ratan2 r s
  end.

Section Expr.
Context {vf : nat -> fmt}.

(** Value at the point [p] of the variables (meaningful on the domain only), and the domain:
    the points at which no function of the expression is applied outside of its domain. *)
Fixpoint val (p : nat -> R) {F} (e : expr vf F) : R :=
  match e with
  | Var i => p i
  | Un u a => un_val u (val p a)
  | Bin b a c => bin_val b (val p a) (val p c)
  | Fma a c d => val p a * val p c + val p d
  | MUn _ u a => un_val u (val p a)
  | MBin _ b a c => bin_val b (val p a) (val p c)
  | MFma _ a c d => val p a * val p c + val p d
  end.
Fixpoint dom (p : nat -> R) {F} (e : expr vf F) : Prop :=
  match e with
  | Var i => True
  | Un u a => dom p a /\ un_dom u (val p a)
  | Bin b a c => dom p a /\ dom p c /\ bin_dom b (val p a) (val p c)
  | Fma a c d => dom p a /\ dom p c /\ dom p d
  | MUn _ u a => dom p a /\ un_dom u (val p a)
  | MBin _ b a c => dom p a /\ dom p c /\ bin_dom b (val p a) (val p c)
  | MFma _ a c d => dom p a /\ dom p c /\ dom p d
  end.
(** Does the variable [i] occur? *)
Fixpoint occurs (i : nat) {F} (e : expr vf F) : bool :=
  match e with
  | Var j => Nat.eqb i j
  | Un _ a | MUn _ _ a => occurs i a
  | Bin _ a c => occurs i a || occurs i c
  | MBin _ _ a c => occurs i a || occurs i c
  | Fma a c d => occurs i a || occurs i c || occurs i d
  | MFma _ a c d => occurs i a || occurs i c || occurs i d
  end.
(** The types of mixed-type operations are comparable, as float, double and long double are. *)
Fixpoint typed {F} (e : expr vf F) : Prop :=
  match e with
  | Var _ => True
  | Un _ a => typed a
  | Bin _ a c => typed a /\ typed c
  | Fma a c d => typed a /\ typed c /\ typed d
  | @MUn _ T F _ a => typed a /\ comparable T F
  | @MBin _ T F G _ a c => typed a /\ typed c /\ comparable T F /\ comparable T G /\ comparable F G
  | @MFma _ T F G H a c d => typed a /\ typed c /\ typed d /\ comparable T F /\ comparable T G /\ comparable F G /\
      comparable T H /\ comparable F H /\ comparable G H
  end.

(** Intervals for the variables; points of the box of the variables that occur; is it bounded? *)
Definition ienv := forall i, itv (vf i).
Definition denv := forall i, ditv (vf i).
Definition parts (I : denv) : ienv := fun i => fst (I i).
Definition in_box {F} (e : expr vf F) (X : ienv) (p : nat -> R) : Prop :=
  forall i, occurs i e = true -> mem (p i) (X i).
Definition bounded_box {F} (e : expr vf F) (X : ienv) : Prop :=
  forall i, occurs i e = true -> bounded_rep (X i).
(** Points whose coordinates are less than [d] apart. *)
Definition near_env (d : R) (p q : nat -> R) : Prop := forall i, near1 d (p i) (q i).

(** Operands of the tangent, of working type [W], whose poles it sees (see C12, C28, which also say
    that the tangent of every other operand is wrong, and that binary32 and binary80 have none). *)
Definition tan_sure (W : fmt) {F} (x : itv F) : Prop := ~ pole_hidden W x.
(** [ev e z]: the expression [e] evaluates to the interval [z].  All tangents of the
    expression are applied to such operands. *)
Fixpoint tan_fine (ev : forall F, expr vf F -> itv F -> Prop) {F} (e : expr vf F) : Prop :=
  match e with
  | Var _ => True
  | @Un _ F u a => tan_fine ev a /\ (u = u_tan -> forall z, ev F a z -> tan_sure F z)
  | Bin _ a c => tan_fine ev a /\ tan_fine ev c
  | Fma a c d => tan_fine ev a /\ tan_fine ev c /\ tan_fine ev d
  | @MUn _ T F u a => tan_fine ev a /\ (u = u_tan -> forall z, ev F a z -> tan_sure (pmax T F) z)
  | MBin _ _ a c => tan_fine ev a /\ tan_fine ev c
  | MFma _ a c d => tan_fine ev a /\ tan_fine ev c /\ tan_fine ev d
  end.
(** The expression has no tangent. *)
Fixpoint no_tan {F} (e : expr vf F) : Prop :=
  match e with
  | Var _ => True
  | Un u a | MUn _ u a => no_tan a /\ u <> u_tan
  | Bin _ a c => no_tan a /\ no_tan c
  | MBin _ _ a c => no_tan a /\ no_tan c
  | Fma a c d => no_tan a /\ no_tan c /\ no_tan d
  | MFma _ a c d => no_tan a /\ no_tan c /\ no_tan d
  end.
(** The types in which the tangents of the expression work. *)
Fixpoint tan_types (P : fmt -> Prop) {F} (e : expr vf F) : Prop :=
  match e with
  | Var _ => True
  | @Un _ F u a => tan_types P a /\ (u = u_tan -> P F)
  | @MUn _ T F u a => tan_types P a /\ (u = u_tan -> P (pmax T F))
  | Bin _ a c => tan_types P a /\ tan_types P c
  | MBin _ _ a c => tan_types P a /\ tan_types P c
  | Fma a c d => tan_types P a /\ tan_types P c /\ tan_types P d
  | MFma _ a c d => tan_types P a /\ tan_types P c /\ tan_types P d
  end.
End Expr.
Arguments ienv vf : clear implicits.
Arguments denv vf : clear implicits.
