(** * C34: reductions are correctly rounded *)
From Coq Require Import ZArith Reals Bool List Lia Lra.
From Flocq Require Import Core.Core IEEE754.BinarySingleNaN.
From Verif Require Import Fmt Exc SpecRound SpecRed MMpfr MRed PMpfr2 PRed SpecRedX PRedX SpecRedPerm PRedDir PRedErr.
Import ListNotations.
Local Open Scope R_scope.

(** Every list of terms has a sum, so that [reduces] says something about every result. *)
Theorem C34_total_exists : forall l, exists t, total l t.
Proof. exact total_exists. Qed.

(** sum and sum_abs: all lists, all directions, any exponent range left by earlier calls. *)
Theorem C34_sum : forall (F : fmt) (l : list (float F)) (rnd : rnd_mode) (E : genv),
  reduces (get_mpfr_rnd_mode rnd) (map value l) (fst (sum l rnd E)).
Proof. exact @sum_reduces. Qed.
Print Assumptions C34_sum.
Theorem C34_sum_abs : forall (F : fmt) (l : list (float F)) (rnd : rnd_mode) (E : genv),
  reduces (get_mpfr_rnd_mode rnd) (map (fun x => absolute (value x)) l) (fst (sum_abs l rnd E)).
Proof. exact @sum_abs_reduces. Qed.
Print Assumptions C34_sum_abs.

(** sum_sqr and dot: only if every product of finite elements is zero or lies within the
    exponent range of the element type.  Missing: larger and smaller products, where the
    statement is false (below). *)
Theorem C34_sum_sqr_partial : forall (F : fmt) (l : list (float F)) (ts : list xreal) (rnd : rnd_mode) (E : genv),
  Forall2 (fun x t => product (value x) (value x) t) l ts ->
  Forall (fun t => forall r, t = Real r -> r = 0 \/ bpow radix2 (3 - emax F - prec F) <= Rabs r < bpow radix2 (emax F)) ts ->
  reduces (get_mpfr_rnd_mode rnd) ts (fst (sum_sqr l rnd E)).
Proof. exact @sum_sqr_reduces. Qed.
Print Assumptions C34_sum_sqr_partial.
Theorem C34_dot_partial : forall (F : fmt) (a b : list (float F)) (ts : list xreal) (rnd : rnd_mode) (E : genv),
  (length a <= length b)%nat ->
  Forall2 (fun xy t => product (value (fst xy)) (value (snd xy)) t) (combine a b) ts ->
  Forall (fun t => forall r, t = Real r -> r = 0 \/ bpow radix2 (3 - emax F - prec F) <= Rabs r < bpow radix2 (emax F)) ts ->
  exists z E', dot a b rnd E = Ret (z, E') /\ reduces (get_mpfr_rnd_mode rnd) ts z.
Proof. exact @dot_reduces. Qed.
Print Assumptions C34_dot_partial.
(** dot does not look at the length of its second argument. *)
Theorem C34_dot_short_undefined : forall (F : fmt) (a b : list (float F)) (rnd : rnd_mode) (E : genv),
  (length b < length a)%nat -> dot a b rnd E = UB.
Proof. exact @dot_short. Qed.

(** In every format and direction two products may overflow and cancel: NaN instead of zero. *)
Theorem C34_dot_refuted : forall (F : fmt) (rnd : rnd_mode) (E : genv),
  exists (a b : list (float F)) r z E', (length a <= length b)%nat /\
  Forall2 (fun xy t => product (value (fst xy)) (value (snd xy)) t) (combine a b) [Real r; Real (- r)] /\
  dot a b rnd E = Ret (z, E') /\ ~ reduces (get_mpfr_rnd_mode rnd) [Real r; Real (- r)] z.
Proof. exact dot_refuted. Qed.
Print Assumptions C34_dot_refuted.
(** A square above the range gives an infinity even when rounding toward zero. *)
Theorem C34_sum_sqr_overflow_refuted : forall (F : fmt) (E : genv), exists (l : list (float F)) r,
  Forall2 (fun x t => product (value x) (value x) t) l [Real r] /\
  ~ reduces mode_ZR [Real r] (fst (sum_sqr l to_zero E)).
Proof. exact sqr_over_refuted. Qed.
Print Assumptions C34_sum_sqr_overflow_refuted.
(** A square below the range gives zero even when rounding upward. *)
Theorem C34_sum_sqr_underflow_refuted : forall (F : fmt) (E : genv), exists (l : list (float F)) r,
  Forall2 (fun x t => product (value x) (value x) t) l [Real r] /\
  ~ reduces mode_UP [Real r] (fst (sum_sqr l upward E)).
Proof. exact sqr_under_refuted. Qed.
Print Assumptions C34_sum_sqr_underflow_refuted.

(** big + 1 - big - 1 = -0 downward, with big the largest power of two. *)
Example C34_example_cancel : forall E, fst (sum [@big binary64; f1; fneg big; fneg f1] downward E) = B754_zero true.
Proof.
intros E. destruct (@big_val binary64) as [B1 B2]. destruct (@neg_big binary64) as [N1 N2].
pose proof (C34_sum binary64 [@big binary64; f1; fneg big; fneg f1] downward E) as H.
assert (M : map value [@big binary64; f1; fneg big; fneg f1] = map Real [B2R (@big binary64); 1; - B2R (@big binary64); -1]).
{ cbn [map]. rewrite !value_fin by easy. rewrite N1. repeat f_equal; [apply FloatFacts.B2R_f1|].
  unfold fneg. rewrite B2R_Bopp, FloatFacts.B2R_f1. reflexivity. }
rewrite M in H. specialize (H _ (total_real _)). cbv beta iota in H. destruct H as [[H _] HZ]. cbn [fold_right] in H.
replace (B2R (@big binary64) + (1 + (- B2R (@big binary64) + (-1 + 0)))) with 0 in H by lra.
rewrite round_0, Rabs_R0 in H by (apply valid_rnd_round_mode). destruct H as [H1 H2]; [apply bpow_gt_0|].
now apply HZ.
Qed.
(** Infinities of both signs. *)
Example C34_example_inf : forall E, fst (sum [@finf binary64; f1; fminf] upward E) = B754_nan.
Proof.
intros E. pose proof (C34_sum binary64 [@finf binary64; f1; fminf] upward E) as H.
apply (H Undefined). apply total_both; simpl; tauto.
Qed.
(** 1 * 1 + 1 * 1: the hypotheses of the partial theorem. *)
Example C34_example_dot : exists z E', dot [@f1 binary64; f1] [f1; f1; f1] upward (Genv (-10) 10) = Ret (z, E') /\
  reduces mode_UP [Real (1 * 1); Real (1 * 1)] z.
Proof.
apply (C34_dot_partial binary64 [f1; f1] [f1; f1; f1] [Real (1 * 1); Real (1 * 1)] upward (Genv (-10) 10)); [simpl; lia| |].
- assert (P : product (value (@f1 binary64)) (value (@f1 binary64)) (Real (1 * 1))).
  { rewrite value_fin by easy. rewrite FloatFacts.B2R_f1. constructor. }
  repeat constructor; exact P.
- assert (B : forall r, Real (1 * 1) = Real r -> r = 0 \/ bpow radix2 (3 - emax binary64 - prec binary64) <= Rabs r < bpow radix2 (emax binary64)).
  { intros r H. injection H as <-. right. rewrite Rmult_1_r, Rabs_R1. change 1 with (bpow radix2 0). split; [apply bpow_le|apply bpow_lt]; easy. }
  constructor; [exact B|]. constructor; [exact B|]. constructor.
Qed.

(** ** Exactly what is computed *)

(** Every term has exactly one limited term. *)
Theorem C34_limited_total : forall (F : fmt) t, exists u, limited F t u /\ forall u', limited F t u' -> u' = u.
Proof. intros F t. destruct (@limited_total F t) as [u H]. exists u. split; [easy|]. intros u' H'. now apply (@limited_fun F t). Qed.
(** For all elements: sum_sqr and dot sum the products kept in the range of the element type, exactly
    and with one rounding. *)
Theorem C34_sum_sqr_exact : forall (F : fmt) (l : list (float F)) (ts us : list xreal) (rnd : rnd_mode) (E : genv),
  Forall2 (fun x t => product (value x) (value x) t) l ts -> Forall2 (limited F) ts us ->
  reduces (get_mpfr_rnd_mode rnd) us (fst (sum_sqr l rnd E)).
Proof. exact @sum_sqr_exact. Qed.
Print Assumptions C34_sum_sqr_exact.
Theorem C34_dot_exact : forall (F : fmt) (a b : list (float F)) (ts us : list xreal) (rnd : rnd_mode) (E : genv),
  (length a <= length b)%nat ->
  Forall2 (fun xy t => product (value (fst xy)) (value (snd xy)) t) (combine a b) ts -> Forall2 (limited F) ts us ->
  exists z E', dot a b rnd E = Ret (z, E') /\ reduces (get_mpfr_rnd_mode rnd) us z.
Proof. exact @dot_exact. Qed.
Print Assumptions C34_dot_exact.
(** When no square is below the range, sum_sqr is right exactly in these cases: rounding upward or to
    nearest, an element that is not finite, or all squares below the overflow threshold. *)
Theorem C34_sum_sqr_iff : forall (F : fmt) (l : list (float F)) (ts : list xreal) (rnd : rnd_mode) (E : genv),
  (forall x, In x l -> is_finite x = true -> B2R x = 0 \/ bpow radix2 (3 - emax F - prec F) <= B2R x * B2R x) ->
  Forall2 (fun x t => product (value x) (value x) t) l ts ->
  (reduces (get_mpfr_rnd_mode rnd) ts (fst (sum_sqr l rnd E)) <->
   rnd = upward \/ rnd = to_nearest \/ (exists x, In x l /\ is_finite x = false) \/
   (forall x, In x l -> B2R x * B2R x < bpow radix2 (emax F))).
Proof. exact @sum_sqr_iff. Qed.
Print Assumptions C34_sum_sqr_iff.
(** One element whose square overflows: right upward, wrong downward. *)
Example C34_ex_sqr : forall E, let b := @big binary64 in
  reduces mode_UP [Real (B2R b * B2R b)] (fst (sum_sqr [b] upward E)) /\
  ~ reduces mode_DN [Real (B2R b * B2R b)] (fst (sum_sqr [b] downward E)).
Proof.
intros E b. destruct (@big_val binary64) as [B1 B2]. pose proof (@big_sqr binary64) as B3. fold b in B1, B2, B3.
assert (P : Forall2 (fun x t => product (value x) (value x) t) [b] [Real (B2R b * B2R b)]).
{ constructor; [|constructor]. rewrite value_fin by easy. constructor. }
assert (U : forall x, In x [b] -> is_finite x = true -> B2R x = 0 \/ bpow radix2 (3 - emax binary64 - prec binary64) <= B2R x * B2R x).
{ intros x [<-|[]] _. right. apply Rle_trans with (2 := B3). apply bpow_le. easy. }
split.
- apply (C34_sum_sqr_iff _ _ _ upward E U P). now left.
- intros H. apply (C34_sum_sqr_iff _ _ _ downward E U P) in H. destruct H as [H|[H|[(x & [<-|[]] & H)|H]]]; try congruence.
  specialize (H b (or_introl eq_refl)). lra.
Qed.
(** The same with the direction each constant names, stated without the table of the program. *)
Theorem C34_sum_direction : forall (F : fmt) (l : list (float F)) (rnd : rnd_mode) (E : genv),
  reduces (direction rnd) (map value l) (fst (sum l rnd E)).
Proof. exact @sum_direction. Qed.
Print Assumptions C34_sum_direction.
Theorem C34_sum_abs_direction : forall (F : fmt) (l : list (float F)) (rnd : rnd_mode) (E : genv),
  reduces (direction rnd) (map (fun x => absolute (value x)) l) (fst (sum_abs l rnd E)).
Proof. exact @sum_abs_direction. Qed.
Print Assumptions C34_sum_abs_direction.
Theorem C34_sum_sqr_direction : forall (F : fmt) (l : list (float F)) (ts us : list xreal) (rnd : rnd_mode) (E : genv),
  Forall2 (fun x t => product (value x) (value x) t) l ts -> Forall2 (limited F) ts us ->
  reduces (direction rnd) us (fst (sum_sqr l rnd E)).
Proof. exact @sum_sqr_direction. Qed.
Print Assumptions C34_sum_sqr_direction.
Theorem C34_dot_direction : forall (F : fmt) (a b : list (float F)) (ts us : list xreal) (rnd : rnd_mode) (E : genv),
  (length a <= length b)%nat ->
  Forall2 (fun xy t => product (value (fst xy)) (value (snd xy)) t) (combine a b) ts -> Forall2 (limited F) ts us ->
  exists z E', dot a b rnd E = Ret (z, E') /\ reduces (direction rnd) us z.
Proof. exact @dot_direction. Qed.
Print Assumptions C34_dot_direction.
(** Without overflow of a product the result is the rounding of a number that is away from the
    exact value by no more than half the least positive number for each term. *)
Theorem C34_dot_near : forall (F : fmt) (a b : list (float F)) (rnd : rnd_mode) (E : genv), (length a <= length b)%nat ->
  Forall (fun xy => is_finite (fst xy) = true /\ is_finite (snd xy) = true /\
    Rabs (B2R (fst xy) * B2R (snd xy)) < bpow radix2 (emax F)) (combine a b) ->
  exists z E' s, dot a b rnd E = Ret (z, E') /\ rounded (direction rnd) s z /\
  Rabs (s - fold_right Rplus 0 (map (fun xy => B2R (fst xy) * B2R (snd xy)) (combine a b))) <= INR (length a) * (least F / 2).
Proof. exact @dot_near. Qed.
Print Assumptions C34_dot_near.
Theorem C34_sum_sqr_near : forall (F : fmt) (l : list (float F)) (rnd : rnd_mode) (E : genv),
  Forall (fun x => is_finite x = true /\ B2R x * B2R x < bpow radix2 (emax F)) l ->
  exists s, rounded (direction rnd) s (fst (sum_sqr l rnd E)) /\
  Rabs (s - fold_right Rplus 0 (map (fun x => B2R x * B2R x) l)) <= INR (length l) * (least F / 2).
Proof. exact @sum_sqr_near. Qed.
Print Assumptions C34_sum_sqr_near.
Example C34_ex_near : forall E, exists s, rounded mode_UP s (fst (sum_sqr [@f1 binary64; fneg f1] upward E)) /\
  Rabs (s - 2) <= 2 * (least binary64 / 2).
Proof.
intros E. assert (O : 1 * 1 < bpow radix2 (emax binary64)) by (rewrite Rmult_1_l; change 1 with (bpow radix2 0); now apply bpow_lt).
destruct (C34_sum_sqr_near binary64 [@f1 binary64; fneg f1] upward E) as (s & H1 & H2).
- constructor; [|constructor; [|constructor]]; (split; [reflexivity|]); unfold fneg; rewrite ?B2R_Bopp, FloatFacts.B2R_f1; lra.
- exists s. split; [exact H1|]. cbn [map fold_right length] in H2. unfold fneg in H2. rewrite B2R_Bopp, FloatFacts.B2R_f1 in H2.
  replace (1 * 1 + (- (1) * - (1) + 0)) with 2 in H2 by ring. replace (INR 2) with 2 in H2 by (cbn; ring). exact H2.
Qed.
(** Two products that cancel become infinities of both signs, and the sum is undefined. *)
Example C34_ex_dot : forall E, let b := @big binary64 in exists z E', dot [b; b] [b; fneg b] to_nearest E = Ret (z, E') /\ z = B754_nan.
Proof.
intros E b. destruct (@big_val binary64) as [B1 B2]. destruct (@neg_big binary64) as [N1 N2]. pose proof (@big_sqr binary64) as B3. fold b in B1, B2, B3, N1, N2.
destruct (C34_dot_exact binary64 [b; b] [b; fneg b] [Real (B2R b * B2R b); Real (B2R b * B2R (fneg b))] [Infinite false; Infinite true] to_nearest E) as (z & E' & H1 & H2).
- simpl. lia.
- constructor; [|constructor; [|constructor]]; cbn [fst snd]; rewrite !value_fin by easy; constructor.
- constructor; [|constructor; [|constructor]]; [now apply lim_above|apply lim_below]. rewrite N1. lra.
- exists z, E'. split; [easy|]. apply (H2 Undefined). apply total_both; simpl; tauto.
Qed.
