(** * C63: reductions are monotone *)
From Coq Require Import ZArith Reals Bool List Lia Lra.
From Flocq Require Import Core.Core IEEE754.BinarySingleNaN.
From Verif Require Import Fmt FloatFacts Exc MMpfr MRed PRedMono PRedDot.
Import ListNotations.
Local Open Scope R_scope.

(** Elements not less give a sum not less, in every direction of rounding and with overflows and
    infinities; only infinities of both signs make a sum undefined. *)
Theorem C63_sum : forall (F : fmt) (l l' : list (float F)) (rnd : rnd_mode) (E E' : genv),
  Forall2 (fun x y => fle x y = true) l l' ->
  let z := fst (sum l rnd E) in let z' := fst (sum l' rnd E') in z = fnan \/ z' = fnan \/ fle z z' = true.
Proof. exact @sum_mono. Qed.
Print Assumptions C63_sum.
(** Sums of absolute values and of squares are monotone in the absolute values, and are never undefined. *)
Theorem C63_sum_abs : forall (F : fmt) (l l' : list (float F)) (rnd : rnd_mode) (E E' : genv),
  Forall2 (fun x y => fle (Babs x) (Babs y) = true) l l' ->
  fle (fst (sum_abs l rnd E)) (fst (sum_abs l' rnd E')) = true.
Proof. exact @sum_abs_fle. Qed.
Print Assumptions C63_sum_abs.
Theorem C63_sum_sqr : forall (F : fmt) (l l' : list (float F)) (rnd : rnd_mode) (E E' : genv),
  Forall2 (fun x y => fle (Babs x) (Babs y) = true) l l' ->
  fle (fst (sum_sqr l rnd E)) (fst (sum_sqr l' rnd E')) = true.
Proof. exact @sum_sqr_fle. Qed.
Print Assumptions C63_sum_sqr.
(** The scalar product of non-negative sequences; zero times infinity makes it undefined. *)
Theorem C63_dot : forall (F : fmt) (a a' b b' : list (float F)) (rnd : rnd_mode) (E E' : genv),
  Forall2 (fun x y => fle f0 x = true /\ fle x y = true) a a' -> Forall2 (fun x y => fle f0 x = true /\ fle x y = true) b b' ->
  (length a <= length b)%nat ->
  exists z E1 z' E1', dot a b rnd E = Ret (z, E1) /\ dot a' b' rnd E' = Ret (z', E1') /\ (z = fnan \/ z' = fnan \/ fle z z' = true).
Proof. exact @dot_mono. Qed.
Print Assumptions C63_dot.
(** The sum does not exceed the sum of the absolute values; in the symmetric directions its
    absolute value does not. *)
Theorem C63_sum_le_sum_abs : forall (F : fmt) (l : list (float F)) (rnd : rnd_mode) (E E' : genv),
  Forall (fun x => isnan x = false) l ->
  let z := fst (sum l rnd E) in z = fnan \/ fle z (fst (sum_abs l rnd E')) = true.
Proof. exact @sum_le_abs_nan. Qed.
Print Assumptions C63_sum_le_sum_abs.
Theorem C63_triangle : forall (F : fmt) (l : list (float F)) (rnd : rnd_mode) (E E' : genv),
  rnd = to_nearest \/ rnd = to_zero -> Forall (fun x => isnan x = false) l ->
  let z := fst (sum l rnd E) in z = fnan \/ fle (Babs z) (fst (sum_abs l rnd E')) = true.
Proof. exact @triangle. Qed.
Print Assumptions C63_triangle.

Example C63_ex_sum : forall E E', let z := fst (sum [@fneg binary64 f1; fmaxv] to_nearest E) in let z' := fst (sum [@f1 binary64; finf] to_nearest E') in
  z = fnan \/ z' = fnan \/ fle z z' = true.
Proof. intros E E'. apply (C63_sum binary64). constructor; [reflexivity|constructor; [reflexivity|constructor]]. Qed.
Example C63_ex_sqr : forall E E', fle (fst (sum_sqr [@f1 binary64; fneg f1] downward E)) (fst (sum_sqr [fneg (@fmaxv binary64); f1] downward E')) = true.
Proof. intros E E'. apply C63_sum_sqr. constructor; [reflexivity|constructor; [reflexivity|constructor]]. Qed.
Example C63_ex_triangle : forall E E', let z := fst (sum [@fneg binary64 f1; fmaxv; fminf] to_zero E) in
  z = fnan \/ fle (Babs z) (fst (sum_abs [@fneg binary64 f1; fmaxv; fminf] to_zero E')) = true.
Proof. intros E E'. apply (C63_triangle binary64); [now right|]. repeat constructor. Qed.
Example C63_ex_dot : forall E E', exists z E1 z' E1',
  dot [@f1 binary64; f1] [f0; f1; f1] upward E = Ret (z, E1) /\ dot [@fmaxv binary64; finf] [f1; fmaxv; finf] upward E' = Ret (z', E1') /\
  (z = fnan \/ z' = fnan \/ fle z z' = true).
Proof. intros E E'. apply C63_dot; [repeat constructor|repeat constructor|simpl; lia]. Qed.
