(** * C61: reductions depend neither on the order of the elements nor on earlier calls *)
From Coq Require Import ZArith Reals Bool List Lia Lra Permutation.
From Flocq Require Import Core.Core IEEE754.BinarySingleNaN.
From Verif Require Import Fmt FloatFacts Exc SpecRound SpecRed MMpfr PMpfr2 MRed PRed SpecRedPerm PRedPerm.
Import ListNotations.
Local Open Scope R_scope.

(** Any order of the elements and any exponent range left behind by earlier calls: the same bits. *)
Theorem C61_sum_order : forall (F : fmt) (l l' : list (float F)) (rnd : rnd_mode) (E E' : genv),
  Permutation l l' -> fst (sum l rnd E) = fst (sum l' rnd E').
Proof. exact @sum_perm_eq. Qed.
Print Assumptions C61_sum_order.
Theorem C61_sum_abs_order : forall (F : fmt) (l l' : list (float F)) (rnd : rnd_mode) (E E' : genv),
  Permutation l l' -> fst (sum_abs l rnd E) = fst (sum_abs l' rnd E').
Proof. exact @sum_abs_perm_eq. Qed.
Print Assumptions C61_sum_abs_order.
Theorem C61_sum_sqr_order : forall (F : fmt) (l l' : list (float F)) (rnd : rnd_mode) (E E' : genv),
  Permutation l l' -> fst (sum_sqr l rnd E) = fst (sum_sqr l' rnd E').
Proof. exact @sum_sqr_perm_eq. Qed.
Print Assumptions C61_sum_sqr_order.
(** The pairs in any order; elements of the second sequence without a partner do not matter. *)
Theorem C61_dot_order : forall (F : fmt) (a b a' b' : list (float F)) (rnd : rnd_mode) (E E' : genv),
  (length a <= length b)%nat -> (length a' <= length b')%nat -> Permutation (combine a b) (combine a' b') ->
  exists z E1 E1', dot a b rnd E = Ret (z, E1) /\ dot a' b' rnd E' = Ret (z, E1').
Proof. exact @dot_perm_eq. Qed.
Print Assumptions C61_dot_order.
Theorem C61_dot_swap : forall (F : fmt) (a b : list (float F)) (rnd : rnd_mode) (E E' : genv),
  length a = length b ->
  exists z E1 E1', dot a b rnd E = Ret (z, E1) /\ dot b a rnd E' = Ret (z, E1').
Proof. exact @dot_swap_eq. Qed.
Print Assumptions C61_dot_swap.

(** Whatever the elements and the range before, all of them leave behind the exponent range of the element type. *)
Theorem C61_state : forall (F : fmt) (l a b : list (float F)) (rnd : rnd_mode) (E : genv),
  let G := Genv (4 - emax F - prec F) (emax F) in
  snd (sum l rnd E) = G /\ snd (sum_abs l rnd E) = G /\ snd (sum_sqr l rnd E) = G /\
  forall z E', dot a b rnd E = Ret (z, E') -> E' = G.
Proof. exact @state_after. Qed.
Print Assumptions C61_state.

(** The four reductions agree with each other. *)
Theorem C61_sum_abs_sum : forall (F : fmt) (l : list (float F)) (rnd : rnd_mode) (E E' : genv),
  fst (sum_abs l rnd E) = fst (sum (map Babs l) rnd E').
Proof. exact @sum_abs_sum. Qed.
Print Assumptions C61_sum_abs_sum.
Theorem C61_dot_sum_sqr : forall (F : fmt) (l : list (float F)) (rnd : rnd_mode) (E E' : genv),
  exists E1, dot l l rnd E = Ret (fst (sum_sqr l rnd E'), E1).
Proof. exact @dot_self. Qed.
Print Assumptions C61_dot_sum_sqr.

(** A zero of either sign may be added or left out anywhere. *)
Theorem C61_sum_zero : forall (F : fmt) (l l' : list (float F)) (s : bool) (rnd : rnd_mode) (E E' : genv),
  Permutation l' (B754_zero s :: l) -> fst (sum l' rnd E) = fst (sum l rnd E').
Proof. exact @sum_without_zero. Qed.
Print Assumptions C61_sum_zero.

(** Opposite elements and the opposite direction give the opposite number, up to the sign of zero. *)
Theorem C61_sum_opposite : forall (F : fmt) (l : list (float F)) (rnd : rnd_mode) (E E' : genv),
  same_number (fst (sum (map fneg l) (opposite rnd) E)) (fneg (fst (sum l rnd E'))).
Proof. exact @sum_opp_eq. Qed.
Print Assumptions C61_sum_opposite.
Theorem C61_dot_opposite : forall (F : fmt) (a b : list (float F)) (rnd : rnd_mode) (E E' : genv),
  (length a <= length b)%nat ->
  exists z E1 z' E1', dot (map fneg a) b (opposite rnd) E = Ret (z, E1) /\ dot a b rnd E' = Ret (z', E1') /\ same_number z (fneg z').
Proof. exact @dot_opp_eq. Qed.
Print Assumptions C61_dot_opposite.
(** The sign of a zero is not kept: to nearest it is positive both times. *)
Theorem C61_sum_opposite_sign_refuted : exists (l : list (float binary64)) rnd E,
  fst (sum (map fneg l) (opposite rnd) E) <> fneg (fst (sum l rnd E)).
Proof. exact sum_signs_refuted. Qed.
Print Assumptions C61_sum_opposite_sign_refuted.

(** Adding the largest numbers first would overflow in another order. *)
Example C61_ex_order : forall E E',
  fst (sum [@big binary64; big; fneg big; fneg big; f1] upward E) = fst (sum [f1; @big binary64; fneg big; big; fneg big] upward E').
Proof.
intros E E'. apply C61_sum_order.
apply Permutation_trans with (f1 :: [@big binary64; big; fneg big; fneg big]).
- apply Permutation_sym. apply (Permutation_cons_append [@big binary64; big; fneg big; fneg big] f1).
- repeat constructor.
Qed.
Example C61_ex_dot : forall E E', exists z E1 E1',
  dot [@big binary64; f1] [f1; fneg big; fnan] to_nearest E = Ret (z, E1) /\ dot [f1; @big binary64] [fneg big; f1] to_nearest E' = Ret (z, E1').
Proof. intros E E'. apply C61_dot_order; [simpl; lia|simpl; lia|]. cbn. constructor. Qed.
Example C61_ex_zero : forall E E', fst (sum [@big binary64; fm0; f1] downward E) = fst (sum [@big binary64; f1] downward E').
Proof. intros E E'. apply (C61_sum_zero _ [@big binary64; f1] [@big binary64; fm0; f1] true). constructor. Qed.
Example C61_ex_opposite : forall E E',
  same_number (fst (sum [fneg (@big binary64); fneg f1] downward E)) (fneg (fst (sum [@big binary64; f1] upward E'))).
Proof. intros E E'. exact (C61_sum_opposite _ [@big binary64; f1] upward E E'). Qed.
Example C61_ex_state : snd (sum [@f1 binary64] upward (Genv (-5) 7)) = Genv (-1073) 1024.
Proof. exact (proj1 (C61_state binary64 [@f1 binary64] [] [] upward (Genv (-5) 7))). Qed.
