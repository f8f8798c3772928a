(** * Specification: operands that are single numbers *)
From Coq Require Import ZArith Reals Bool.
From Flocq Require Import Core.Core IEEE754.BinarySingleNaN.
From Verif Require Import Fmt Spec SpecExpr SpecFp.
Local Open Scope R_scope.

(** The interval is the single real number [t] (which is a number of the type then). *)
Definition is_point {F : fmt} (t : R) (x : itv F) : Prop :=
  is_finite (fst x) = true /\ is_finite (snd x) = true /\ B2R (fst x) = t /\ B2R (snd x) = t.
Definition number (F : fmt) (t : R) : Prop := exists v : float F, is_finite v = true /\ B2R v = t.
(** The numbers of the interval are exactly the faithful roundings of [t]. *)
Definition only_faithful {F : fmt} (t : R) (z : itv F) : Prop :=
  wf z /\ mem t z /\ forall v : float F, is_finite v = true -> (mem (B2R v) z <-> faithful t v).

(** The result [z] around the exact value [t]: as sharp as the type permits.  It is a point exactly if [t] is
    a number, and otherwise, unless it is unbounded, one unit in the last place wide. *)
Definition sharp {F : fmt} (t : R) (z : itv F) : Prop :=
  only_faithful t z /\ (is_point t z <-> number F t) /\
  (bounded_rep z -> ~ number F t -> B2R (snd z) - B2R (fst z) = ulp radix2 (fexp F) t).
Definition three (F : fmt) : Prop := F = binary32 \/ F = binary64 \/ F = binary80.

(** All values on the way are numbers of their types, and no function is applied outside of its domain. *)
Section Exact.
Context {vf : nat -> fmt}.
Fixpoint exact_at (p : nat -> R) {F} (e : expr vf F) : Prop :=
  match e with
  | Var _ => True
  | @Un _ F u a => exact_at p a /\ un_dom u (val p a) /\ number F (un_val u (val p a))
  | @Bin _ F b a c => exact_at p a /\ exact_at p c /\ bin_dom b (val p a) (val p c) /\ number F (bin_val b (val p a) (val p c))
  | @Fma _ F a c d => exact_at p a /\ exact_at p c /\ exact_at p d /\ number F (val p a * val p c + val p d)
  | MUn T u a => exact_at p a /\ un_dom u (val p a) /\ number T (un_val u (val p a))
  | MBin T b a c => exact_at p a /\ exact_at p c /\ bin_dom b (val p a) (val p c) /\ number T (bin_val b (val p a) (val p c))
  | MFma T a c d => exact_at p a /\ exact_at p c /\ exact_at p d /\ number T (val p a * val p c + val p d)
  end.
End Exact.
