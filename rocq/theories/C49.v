(** * C49: laws between operations

    Claimed: different operations of the library that compute the same real function agree
    (commutativity, negation, even and odd functions, the same function by another
    operation), one operation is at least as narrow as two that are rounded separately, and
    undoing an operation loses no point.  Beyond the claim: the addition is not associative, and
    subdistributivity holds if the sum is exact but not in general. *)
From Coq Require Import ZArith NArith Reals Bool Lra.
From Flocq Require Import Core.Core IEEE754.BinarySingleNaN.
From Verif Require Import Fmt Spec FloatFacts Exc Deco SpecApi SpecElem SpecDeco SpecNum MBase PBase Ex MBool MArith MElem MPow MTrig SpecAlg PAlg2.
Local Open Scope R_scope.
Local Open Scope m_scope.

(** ** Commutativity *)
Theorem C49_add_comm : forall (F : fmt) (x y : itv F), wf x -> wf y -> agree (add x y) (add y x).
Proof. exact @law_add_comm. Qed.
Print Assumptions C49_add_comm.
Theorem C49_mul_comm : forall (F : fmt) (x y : itv F), wf x -> wf y -> agree (mul x y) (mul y x).
Proof. exact @law_mul_comm. Qed.
Print Assumptions C49_mul_comm.
Theorem C49_min_comm : forall (F : fmt) (x y : itv F), wf x -> wf y -> agree (min x y) (min y x).
Proof. exact @law_min_comm. Qed.
Print Assumptions C49_min_comm.
Theorem C49_max_comm : forall (F : fmt) (x y : itv F), wf x -> wf y -> agree (max x y) (max y x).
Proof. exact @law_max_comm. Qed.
Print Assumptions C49_max_comm.
Theorem C49_fma_comm : forall (F : fmt) (x y z : itv F), wf x -> wf y -> wf z -> agree (fma x y z) (fma y x z).
Proof. exact @law_fma_comm. Qed.
Print Assumptions C49_fma_comm.
(** ** Negation *)
Theorem C49_neg_neg : forall (F : fmt) (x : itv F), wf x -> agree (y <- neg x; neg y) (ret x).
Proof. exact @law_neg_neg. Qed.
Print Assumptions C49_neg_neg.
Theorem C49_sub_neg : forall (F : fmt) (x y : itv F), wf x -> wf y -> agree (y' <- neg y; add x y') (sub x y).
Proof. exact @law_sub_neg. Qed.
Print Assumptions C49_sub_neg.
Theorem C49_neg_sub : forall (F : fmt) (x y : itv F), wf x -> wf y -> agree (z <- sub x y; neg z) (sub y x).
Proof. exact @law_neg_sub. Qed.
Print Assumptions C49_neg_sub.
Theorem C49_neg_add : forall (F : fmt) (x y : itv F), wf x -> wf y -> agree (x' <- neg x; y' <- neg y; add x' y') (z <- add x y; neg z).
Proof. exact @law_neg_add. Qed.
Print Assumptions C49_neg_add.
Theorem C49_mul_neg : forall (F : fmt) (x y : itv F), wf x -> wf y -> agree (y' <- neg y; mul x y') (z <- mul x y; neg z).
Proof. exact @law_mul_neg. Qed.
Print Assumptions C49_mul_neg.
Theorem C49_div_neg : forall (F : fmt) (x y : itv F), wf x -> wf y -> agree (y' <- neg y; div x y') (z <- div x y; neg z).
Proof. exact @law_div_neg. Qed.
Print Assumptions C49_div_neg.
Theorem C49_recip_neg : forall (F : fmt) (x : itv F), wf x -> agree (x' <- neg x; recip x') (z <- recip x; neg z).
Proof. exact @law_recip_neg. Qed.
Print Assumptions C49_recip_neg.
Theorem C49_min_max : forall (F : fmt) (x y : itv F), wf x -> wf y -> agree (x' <- neg x; y' <- neg y; max x' y') (z <- min x y; neg z).
Proof. exact @law_min_max. Qed.
Print Assumptions C49_min_max.
(** ** Even and odd functions *)
Theorem C49_abs_even : forall (F : fmt) (x : itv F), wf x -> agree (x' <- neg x; abs x') (abs x).
Proof. exact @law_abs_even. Qed.
Print Assumptions C49_abs_even.
Theorem C49_sqr_even : forall (F : fmt) (x : itv F), wf x -> agree (x' <- neg x; sqr x') (sqr x).
Proof. exact @law_sqr_even. Qed.
Print Assumptions C49_sqr_even.
Theorem C49_cos_even : forall (F : fmt) (x : itv F), wf x -> agree (x' <- neg x; cos_itv x') (cos_itv x).
Proof. exact @law_cos_even. Qed.
Print Assumptions C49_cos_even.
Theorem C49_cosh_even : forall (F : fmt) (x : itv F), wf x -> agree (x' <- neg x; cosh_itv x') (cosh_itv x).
Proof. exact @law_cosh_even. Qed.
Print Assumptions C49_cosh_even.
Theorem C49_sin_odd : forall (F : fmt) (x : itv F), wf x -> agree (x' <- neg x; sin_itv x') (z <- sin_itv x; neg z).
Proof. exact @law_sin_odd. Qed.
Print Assumptions C49_sin_odd.
Theorem C49_asin_odd : forall (F : fmt) (x : itv F), wf x -> agree (x' <- neg x; asin_itv x') (z <- asin_itv x; neg z).
Proof. exact @law_asin_odd. Qed.
Print Assumptions C49_asin_odd.
Theorem C49_atan_odd : forall (F : fmt) (x : itv F), wf x -> agree (x' <- neg x; atan_itv x') (z <- atan_itv x; neg z).
Proof. exact @law_atan_odd. Qed.
Print Assumptions C49_atan_odd.
Theorem C49_sinh_odd : forall (F : fmt) (x : itv F), wf x -> agree (x' <- neg x; sinh_itv x') (z <- sinh_itv x; neg z).
Proof. exact @law_sinh_odd. Qed.
Print Assumptions C49_sinh_odd.
Theorem C49_tanh_odd : forall (F : fmt) (x : itv F), wf x -> agree (x' <- neg x; tanh_itv x') (z <- tanh_itv x; neg z).
Proof. exact @law_tanh_odd. Qed.
Print Assumptions C49_tanh_odd.
Theorem C49_asinh_odd : forall (F : fmt) (x : itv F), wf x -> agree (x' <- neg x; asinh_itv x') (z <- asinh_itv x; neg z).
Proof. exact @law_asinh_odd. Qed.
Print Assumptions C49_asinh_odd.
Theorem C49_atanh_odd : forall (F : fmt) (x : itv F), wf x -> agree (x' <- neg x; atanh_itv x') (z <- atanh_itv x; neg z).
Proof. exact @law_atanh_odd. Qed.
Print Assumptions C49_atanh_odd.
Theorem C49_sign_odd : forall (F : fmt) (x : itv F), wf x -> agree (x' <- neg x; sign_itv x') (z <- sign_itv x; neg z).
Proof. exact @law_sign_odd. Qed.
Print Assumptions C49_sign_odd.
Theorem C49_floor_ceil : forall (F : fmt) (x : itv F), wf x -> agree (x' <- neg x; floor_itv x') (z <- ceil_itv x; neg z).
Proof. exact @law_floor_ceil. Qed.
Print Assumptions C49_floor_ceil.
Theorem C49_trunc_odd : forall (F : fmt) (x : itv F), wf x -> agree (x' <- neg x; trunc_itv x') (z <- trunc_itv x; neg z).
Proof. exact @law_trunc_odd. Qed.
Print Assumptions C49_trunc_odd.
Theorem C49_rte_odd : forall (F : fmt) (x : itv F), wf x -> agree (x' <- neg x; round_ties_to_even_itv x') (z <- round_ties_to_even_itv x; neg z).
Proof. exact @law_rte_odd. Qed.
Print Assumptions C49_rte_odd.
Theorem C49_rta_odd : forall (F : fmt) (x : itv F), wf x -> agree (x' <- neg x; round_ties_to_away_itv x') (z <- round_ties_to_away_itv x; neg z).
Proof. exact @law_rta_odd. Qed.
Print Assumptions C49_rta_odd.
(** ** The same function by another operation *)
Theorem C49_sqr_pown : forall (F : fmt) (x : itv F), wf x -> agree (pown x 2) (sqr x).
Proof. exact @law_sqr_pown. Qed.
Print Assumptions C49_sqr_pown.
Theorem C49_pown_1 : forall (F : fmt) (x : itv F), wf x -> agree (pown x 1) (ret x).
Proof. exact @law_pown_1. Qed.
Print Assumptions C49_pown_1.
Theorem C49_pown_m1 : forall (F : fmt) (x : itv F), wf x -> agree (pown x (-1)) (recip x).
Proof. exact @law_pown_m1. Qed.
Print Assumptions C49_pown_m1.
Theorem C49_recip_div : forall (F : fmt) (x o : itv F), wf x -> wf o -> is_point 1 o -> agree (div o x) (recip x).
Proof. exact @law_recip_div. Qed.
Print Assumptions C49_recip_div.
Theorem C49_fma_mul : forall (F : fmt) (x y o : itv F), wf x -> wf y -> wf o -> is_point 0 o -> agree (fma x y o) (mul x y).
Proof. exact @law_fma_mul. Qed.
Print Assumptions C49_fma_mul.
Theorem C49_fma_add : forall (F : fmt) (x z o : itv F), wf x -> wf z -> wf o -> is_point 1 o -> agree (fma x o z) (add x z).
Proof. exact @law_fma_add. Qed.
Print Assumptions C49_fma_add.
Theorem C49_add_0 : forall (F : fmt) (x o : itv F), wf x -> wf o -> is_point 0 o -> agree (add x o) (ret x).
Proof. exact @law_add_0. Qed.
Print Assumptions C49_add_0.
Theorem C49_mul_1 : forall (F : fmt) (x o : itv F), wf x -> wf o -> is_point 1 o -> agree (mul x o) (ret x).
Proof. exact @law_mul_1. Qed.
Print Assumptions C49_mul_1.
Theorem C49_mul_0 : forall (F : fmt) (x o : itv F), wf x -> (exists r, mem r x) -> wf o -> is_point 0 o -> agree (mul x o) (ret o).
Proof. exact @law_mul_0. Qed.
Print Assumptions C49_mul_0.
Theorem C49_div_1 : forall (F : fmt) (x o : itv F), wf x -> wf o -> is_point 1 o -> agree (div x o) (ret x).
Proof. exact @law_div_1. Qed.
Print Assumptions C49_div_1.
Theorem C49_exp2_pow : forall (F : fmt) (x o : itv F), wf x -> wf o -> is_point 2 o -> agree (pow o x) (exp2_itv x).
Proof. exact @law_exp2_pow. Qed.
Print Assumptions C49_exp2_pow.
Theorem C49_exp10_pow : forall (F : fmt) (x o : itv F), wf x -> wf o -> is_point 10 o -> agree (pow o x) (exp10_itv x).
Proof. exact @law_exp10_pow. Qed.
Print Assumptions C49_exp10_pow.
Theorem C49_sqrt_pow : forall (F : fmt) (x o : itv F), wf x -> wf o -> is_point (/ 2) o -> agree (pow x o) (sqrt x).
Proof. exact @law_sqrt_pow. Qed.
Print Assumptions C49_sqrt_pow.
(** ** Narrower by one operation than by two *)
Theorem C49_sqr_mul : forall (F : fmt) (x : itv F), wf x -> refines (sqr x) (mul x x).
Proof. exact @law_sqr_mul. Qed.
Print Assumptions C49_sqr_mul.
Theorem C49_fma_two : forall (F : fmt) (x y z : itv F), wf x -> wf y -> wf z -> refines (fma x y z) (p <- mul x y; add p z).
Proof. exact @law_fma_two. Qed.
Print Assumptions C49_fma_two.
Theorem C49_div_recip : forall (F : fmt) (x y : itv F), wf x -> wf y -> refines (div x y) (q <- recip y; mul x q).
Proof. exact @law_div_recip. Qed.
Print Assumptions C49_div_recip.
Theorem C49_pown_add : forall (F : fmt) (x : itv F) (m n : Z), wf x -> (0 <= m)%Z -> (0 <= n)%Z -> refines (pown x (m + n)) (a <- pown x m; b <- pown x n; mul a b).
Proof. exact @law_pown_add. Qed.
Print Assumptions C49_pown_add.
(** ** Undoing an operation loses nothing *)
Theorem C49_add_sub : forall (F : fmt) (x y : itv F), wf x -> wf y -> (exists s, mem s y) -> refines (ret x) (z <- add x y; sub z y).
Proof. exact @law_add_sub. Qed.
Print Assumptions C49_add_sub.
Theorem C49_mul_div : forall (F : fmt) (x y : itv F), wf x -> wf y -> (exists s, mem s y /\ s <> 0) -> refines (ret x) (z <- mul x y; div z y).
Proof. exact @law_mul_div. Qed.
Print Assumptions C49_mul_div.
Theorem C49_abs_sqrt : forall (F : fmt) (x : itv F), wf x -> refines (abs x) (z <- sqr x; sqrt z).
Proof. exact @law_abs_sqrt. Qed.
Print Assumptions C49_abs_sqrt.
Theorem C49_exp_log : forall (F : fmt) (x : itv F), wf x -> refines (ret x) (z <- exp_itv x; log_itv z).
Proof. exact @law_exp_log. Qed.
Print Assumptions C49_exp_log.
Theorem C49_sinh_asinh : forall (F : fmt) (x : itv F), wf x -> refines (ret x) (z <- sinh_itv x; asinh_itv z).
Proof. exact @law_sinh_asinh. Qed.
Print Assumptions C49_sinh_asinh.
(** ** Identities *)
Theorem C49_sin_cos : forall (F : fmt) (x : itv F), wf x -> (exists r, mem r x) ->
  exists z, returns (s <- sin_itv x; c <- cos_itv x; s2 <- sqr s; c2 <- sqr c; add s2 c2) z /\ mem 1 z.
Proof. exact @law_sin_cos. Qed.
Print Assumptions C49_sin_cos.
(** The sum is exact. *)
Theorem C49_distr_exact_sum : forall (F : fmt) (x y z : itv F), wf x -> wf y -> wf z ->
  (forall w, returns (add y z) w -> forall t, mem t w -> image2 everywhere2 Rplus y z t) ->
  refines (w <- add y z; mul x w) (a <- mul x y; b <- mul x z; add a b).
Proof. exact @law_distr. Qed.
Print Assumptions C49_distr_exact_sum.

(** ** What does not hold *)
Notation b64 := (fl binary64).
(** (1 + 2^-60) - 1 is [0,2^-52], 1 + (2^-60 - 1) is [0,2^-53]. *)
Theorem C49_add_not_assoc : exists x y z : itv binary64, wf x /\ wf y /\ wf z /\
  ~ agree (a <- add x y; add a z) (b <- add y z; add x b).
Proof.
exists (b64 1 0, b64 1 0), (b64 1 (-60), b64 1 (-60)), (b64 (-1) 0, b64 (-1) 0).
split; [wf_tac|]. split; [wf_tac|]. split; [wf_tac|].
assert (F0 : is_finite (fneg (b64 0 0)) = true) by (vm_compute; reflexivity). assert (F1 : is_finite (b64 1 (-52)) = true) by (vm_compute; reflexivity).
assert (F2 : is_finite (b64 1 (-53)) = true) by (vm_compute; reflexivity). intros (z & w & H1 & H2 & H3).
assert (E1 : z = (fneg (b64 0 0), b64 1 (-52))) by (apply (run_is _ _ _ z) with (2 := H1); vm_compute; reflexivity).
assert (E2 : w = (fneg (b64 0 0), b64 1 (-53))) by (apply (run_is _ _ _ w) with (2 := H2); vm_compute; reflexivity).
assert (M : mem (/ 4503599627370496) w).
{ apply H3. rewrite E1. assert (V0 : B2R (fneg (b64 0 0)) = 0) by b2r. assert (V1 : B2R (b64 1 (-52)) = / 4503599627370496) by b2r.
  apply mem_pt; [exact F0|exact F1|]. rewrite V0, V1. split; [|lra]. apply Rlt_le, Rinv_0_lt_compat. lra. }
rewrite E2 in M. destruct M as [_ M]. cbn [snd] in M. rewrite ub_fin in M by exact F2.
assert (V2 : B2R (b64 1 (-53)) = / 9007199254740992) by b2r. rewrite V2 in M. lra.
Qed.
Print Assumptions C49_add_not_assoc.
(** 3 (1 + 2^-53) is at most 3 + 2^-50 by the sum, at most 3 + 2^-51 by the products. *)
Theorem C49_no_distr : exists x y z : itv binary64, wf x /\ wf y /\ wf z /\
  ~ refines (w <- add y z; mul x w) (a <- mul x y; b <- mul x z; add a b).
Proof.
exists (b64 3 0, b64 3 0), (b64 1 0, b64 1 0), (b64 1 (-53), b64 1 (-53)).
split; [wf_tac|]. split; [wf_tac|]. split; [wf_tac|].
assert (F0 : is_finite (b64 3 0) = true) by (vm_compute; reflexivity). assert (F1 : is_finite (b64 3377699720527873 (-50)) = true) by (vm_compute; reflexivity).
assert (F2 : is_finite (b64 6755399441055745 (-51)) = true) by (vm_compute; reflexivity). intros (z & w & H1 & H2 & H3).
assert (E1 : z = (b64 3 0, b64 3377699720527873 (-50))) by (apply (run_is _ _ _ z) with (2 := H1); vm_compute; reflexivity).
assert (E2 : w = (b64 3 0, b64 6755399441055745 (-51))) by (apply (run_is _ _ _ w) with (2 := H2); vm_compute; reflexivity).
assert (V0 : B2R (b64 3 0) = 3) by b2r. assert (V1 : B2R (b64 3377699720527873 (-50)) = 3377699720527873 / 1125899906842624) by b2r.
assert (V2 : B2R (b64 6755399441055745 (-51)) = 6755399441055745 / 2251799813685248) by b2r.
assert (M : mem (3377699720527873 / 1125899906842624) w).
{ apply H3. rewrite E1. apply mem_pt; [exact F0|exact F1|]. rewrite V0, V1. lra. }
rewrite E2 in M. destruct M as [_ M]. cbn [snd] in M. rewrite ub_fin in M by exact F2. rewrite V2 in M. lra.
Qed.
Print Assumptions C49_no_distr.

(** ** Examples *)
Example C49_ex :
  run (sqr (b64 (-1) 0, b64 2 0)) = okz (b64 0 0) (b64 4 0)
  /\ run (mul (b64 (-1) 0, b64 2 0) (b64 (-1) 0, b64 2 0)) = okz (b64 (-2) 0) (b64 4 0)
  /\ run (y <- neg (b64 1 0, b64 2 0); recip y) = okz (b64 (-1) 0) (b64 (-1) (-1))
  /\ run (y <- recip (b64 1 0, b64 2 0); neg y) = okz (b64 (-1) 0) (b64 (-1) (-1))
  /\ run (z <- add (b64 1 0, b64 2 0) (b64 1 0, b64 4 0); sub z (b64 1 0, b64 4 0)) = okz (b64 (-2) 0) (b64 5 0)
  /\ wf (b64 (-1) 0, b64 2 0) /\ @is_point binary64 1 (b64 1 0, b64 1 0).
Proof.
do 5 (split; [vm_compute; reflexivity|]). split; [wf_tac|]. intros r. split.
- intros [L U]. cbn [fst snd] in L, U. rewrite lb_fin in L by easy. rewrite ub_fin in U by easy. assert (V : B2R (b64 1 0) = 1) by b2r. lra.
- intros ->. apply mem_pt; [easy|easy|]. assert (V : B2R (b64 1 0) = 1) by b2r. lra.
Qed.
