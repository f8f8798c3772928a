(** * Specification: evaluating an expression in floating-point arithmetic

    The point counterpart of interval evaluation: every function is applied to numbers and its result
    is rounded to the type of the interval result, in any way that never passes a number of the type. *)
From Coq Require Import ZArith Reals Bool.
From Flocq Require Import Core.Core IEEE754.BinarySingleNaN.
From Verif Require Import Fmt Spec SpecExpr.
Local Open Scope R_scope.

(** [v] is one of the two numbers around [r], or [r] itself if it is a number (faithful rounding). *)
Definition faithful {F : fmt} (r : R) (v : float F) : Prop :=
  is_finite v = true /\
  forall w : float F, is_finite w = true -> (B2R w <= r -> B2R w <= B2R v) /\ (r <= B2R w -> B2R v <= B2R w).
(** [r] does not overflow: it lies between two numbers of the type. *)
Definition in_range (F : fmt) (r : R) : Prop :=
  exists lo hi : float F, is_finite lo = true /\ is_finite hi = true /\ B2R lo <= r <= B2R hi.

Section Fp.
Context {vf : nat -> fmt}.
Definition fenv := forall i, float (vf i).
(** [v] is a possible result, without invalid operations on the way. *)
Fixpoint feval (p : fenv) {F} (e : expr vf F) : float F -> Prop :=
  match e in expr _ F return float F -> Prop with
  | Var i => fun v => v = p i
  | Un u a => fun v => exists r, feval p a r /\ un_dom u (B2R r) /\ faithful (un_val u (B2R r)) v
  | Bin b a c => fun v => exists r s, feval p a r /\ feval p c s /\ bin_dom b (B2R r) (B2R s) /\ faithful (bin_val b (B2R r) (B2R s)) v
  | Fma a c d => fun v => exists r s t, feval p a r /\ feval p c s /\ feval p d t /\ faithful (B2R r * B2R s + B2R t) v
  | MUn T u a => fun v => exists r, feval p a r /\ un_dom u (B2R r) /\ faithful (un_val u (B2R r)) v
  | MBin T b a c => fun v => exists r s, feval p a r /\ feval p c s /\ bin_dom b (B2R r) (B2R s) /\ faithful (bin_val b (B2R r) (B2R s)) v
  | MFma T a c d => fun v => exists r s t, feval p a r /\ feval p c s /\ feval p d t /\ faithful (B2R r * B2R s + B2R t) v
  end.
(** However the numbers are rounded, no function is applied outside of its domain ... *)
Fixpoint never_invalid (p : fenv) {F} (e : expr vf F) : Prop :=
  match e with
  | Var _ => True
  | Un u a => never_invalid p a /\ forall r, feval p a r -> un_dom u (B2R r)
  | Bin b a c => never_invalid p a /\ never_invalid p c /\ forall r s, feval p a r -> feval p c s -> bin_dom b (B2R r) (B2R s)
  | Fma a c d => never_invalid p a /\ never_invalid p c /\ never_invalid p d
  | MUn _ u a => never_invalid p a /\ forall r, feval p a r -> un_dom u (B2R r)
  | MBin _ b a c => never_invalid p a /\ never_invalid p c /\ forall r s, feval p a r -> feval p c s -> bin_dom b (B2R r) (B2R s)
  | MFma _ a c d => never_invalid p a /\ never_invalid p c /\ never_invalid p d
  end.
(** ... and no result overflows its type. *)
Fixpoint never_overflow (p : fenv) {F} (e : expr vf F) : Prop :=
  match e with
  | Var _ => True
  | @Un _ F u a => never_overflow p a /\ forall r, feval p a r -> in_range F (un_val u (B2R r))
  | @Bin _ F b a c => never_overflow p a /\ never_overflow p c /\ forall r s, feval p a r -> feval p c s -> in_range F (bin_val b (B2R r) (B2R s))
  | @Fma _ F a c d => never_overflow p a /\ never_overflow p c /\ never_overflow p d /\
      forall r s t, feval p a r -> feval p c s -> feval p d t -> in_range F (B2R r * B2R s + B2R t)
  | MUn T u a => never_overflow p a /\ forall r, feval p a r -> in_range T (un_val u (B2R r))
  | MBin T b a c => never_overflow p a /\ never_overflow p c /\ forall r s, feval p a r -> feval p c s -> in_range T (bin_val b (B2R r) (B2R s))
  | MFma T a c d => never_overflow p a /\ never_overflow p c /\ never_overflow p d /\
      forall r s t, feval p a r -> feval p c s -> feval p d t -> in_range T (B2R r * B2R s + B2R t)
  end.
End Fp.
Arguments fenv vf : clear implicits.
