(** * C53: relations, set operations, numeric functions and overlapping states agree

    Claimed: the answers that different functions of the library give about the same
    intervals fit together.  The relations satisfy the laws of the orders they are named
    after, for operands of up to three bound types; they agree with the intersection and the
    hull, with the bounds that [inf] and [sup] return and with the overlapping states; the
    numeric functions agree with the interval functions and respect inclusion. *)
From Coq Require Import ZArith NArith Reals Bool Lra Lia List.
From Flocq Require Import Core.Core IEEE754.BinarySingleNaN.
From Verif Require Import Fmt Spec Exc Deco SpecApi SpecRel SpecNum MBase MBool MOverlap MNum MArith MMixed PConv SpecAgree PAgree PAgree2 PAgree3 Ex.
Import ListNotations.
Local Open Scope R_scope.
Local Open Scope m_scope.

(** ** Laws of the relations *)
Theorem C53_reflexive : forall (F : fmt) (x : itv F), wf x -> always (subset x x) /\ always (equal x x) /\ always (less x x) /\
  same_answer (is_empty x) (subset x (@empty F)).
Proof. exact (fun F x W => conj (l_subset_refl x W) (conj (l_equal_refl x W) (conj (l_less_refl x W) (l_empty_subset x W)))). Qed.
Print Assumptions C53_reflexive.

Theorem C53_two_operands : forall (F G : fmt) (x : itv F) (y : itv G), comparable F G -> wf x -> wf y ->
  same_answer (both (subset_mixed x y) (subset_mixed y x)) (equal_mixed x y) /\
  same_answer (both (less_mixed x y) (less_mixed y x)) (equal_mixed x y) /\
  same_answer (equal_mixed x y) (equal_mixed y x) /\
  same_answer (disjoint_mixed x y) (disjoint_mixed y x) /\
  same_answer (strictly_precedes_mixed x y) (both (precedes_mixed x y) (disjoint_mixed x y)) /\
  follows (strictly_less_mixed x y) (less_mixed x y) /\
  follows (interior_mixed x y) (subset_mixed x y) /\
  (s_nonempty x -> s_nonempty y -> follows (precedes_mixed x y) (less_mixed x y)).
Proof.
exact (fun F G x y C Wx Wy => conj (l_subset_antisym C x y Wx Wy) (conj (l_less_antisym C x y Wx Wy) (conj (l_equal_sym C x y Wx Wy)
  (conj (l_disjoint_sym C x y Wx Wy) (conj (l_precedes_strict C x y Wx Wy) (conj (l_strictly_less_less C x y Wx Wy)
  (conj (l_interior_subset C x y Wx Wy) (l_precedes_less C x y Wx Wy)))))))).
Qed.
Print Assumptions C53_two_operands.

Theorem C53_three_operands : forall (F G H : fmt) (x : itv F) (y : itv G) (z : itv H),
  comparable F G -> comparable G H -> comparable F H -> wf x -> wf y -> wf z ->
  follows (both (subset_mixed x y) (subset_mixed y z)) (subset_mixed x z) /\
  follows (both (less_mixed x y) (less_mixed y z)) (less_mixed x z) /\
  follows (both (strictly_less_mixed x y) (strictly_less_mixed y z)) (strictly_less_mixed x z) /\
  follows (both (less_mixed x y) (strictly_less_mixed y z)) (strictly_less_mixed x z) /\
  follows (both (interior_mixed x y) (subset_mixed y z)) (interior_mixed x z) /\
  follows (both (subset_mixed x y) (interior_mixed y z)) (interior_mixed x z) /\
  follows (both (subset_mixed x y) (disjoint_mixed y z)) (disjoint_mixed x z) /\
  follows (both (subset_mixed x y) (precedes_mixed y z)) (precedes_mixed x z) /\
  (s_nonempty y -> follows (both (precedes_mixed x y) (precedes_mixed y z)) (precedes_mixed x z)).
Proof.
exact (fun F G H x y z C1 C2 C3 Wx Wy Wz => conj (l_subset_trans C1 C2 C3 x y z Wx Wy Wz) (conj (l_less_trans C1 C2 C3 x y z Wx Wy Wz)
  (conj (l_strictly_less_trans C1 C2 C3 x y z Wx Wy Wz) (conj (l_less_strict_trans C1 C2 C3 x y z Wx Wy Wz)
  (conj (l_interior_trans C1 C2 C3 x y z Wx Wy Wz) (conj (l_interior_trans' C1 C2 C3 x y z Wx Wy Wz)
  (conj (l_disjoint_mono C1 C2 C3 x y z Wx Wy Wz) (conj (l_precedes_mono C1 C2 C3 x y z Wx Wy Wz) (l_precedes_trans C1 C2 C3 x y z Wx Wy Wz))))))))).
Qed.
Print Assumptions C53_three_operands.

(** ** Set operations *)
Theorem C53_set_operations : forall (F : fmt) (x y : itv F), wf x -> wf y ->
  same_answer (disjoint x y) (c <- intersection x y; is_empty c) /\
  same_answer (subset x y) (c <- intersection x y; equal c x) /\
  same_answer (subset x y) (c <- convex_hull x y; equal c y) /\
  always (c <- convex_hull x y; d <- intersection x c; equal d x) /\
  always (c <- intersection x y; d <- convex_hull x c; equal d x).
Proof.
exact (fun F x y Wx Wy => conj (l_disjoint_empty x y Wx Wy) (conj (l_subset_inter x y Wx Wy) (conj (l_subset_hull x y Wx Wy)
  (conj (l_absorb1 x y Wx Wy) (l_absorb2 x y Wx Wy))))).
Qed.
Print Assumptions C53_set_operations.

Theorem C53_bounds : forall (F : fmt) (x y z : itv F), wf x -> wf y -> wf z ->
  same_answer (both (subset z x) (subset z y)) (c <- intersection x y; subset z c) /\
  same_answer (both (subset x z) (subset y z)) (c <- convex_hull x y; subset c z) /\
  always (a <- intersection x y; b <- intersection x z; c <- convex_hull a b; d <- convex_hull y z; e <- intersection x d; subset c e).
Proof.
exact (fun F x y z Wx Wy Wz => conj (l_glb x y z Wx Wy Wz) (conj (l_lub x y z Wx Wy Wz) (l_distr x y z Wx Wy Wz))).
Qed.
Print Assumptions C53_bounds.

Theorem C53_disjoint_mixed : forall (T F G : fmt) (x : itv F) (y : itv G), comparable T F -> comparable T G -> comparable F G -> wf x -> wf y ->
  same_answer (disjoint_mixed x y) (c <- intersection_mixed T x y; is_empty c).
Proof. exact (fun T F G => @l_disjoint_empty_mixed F G T). Qed.
Print Assumptions C53_disjoint_mixed.

(** ** Overlapping states: the relations are unions of states. *)
Theorem C53_states : forall (F G : fmt) (x : itv F) (y : itv G), comparable F G -> wf x -> wf y ->
  same_answer (subset_mixed x y) (state_in x y [o_both_empty; o_first_empty; o_starts; o_contained_by; o_finishes; o_equal]) /\
  same_answer (equal_mixed x y) (state_in x y [o_both_empty; o_equal]) /\
  same_answer (disjoint_mixed x y) (state_in x y [o_both_empty; o_first_empty; o_second_empty; o_before; o_after]) /\
  same_answer (strictly_precedes_mixed x y) (state_in x y [o_both_empty; o_first_empty; o_second_empty; o_before]) /\
  same_answer (less_mixed x y) (state_in x y [o_both_empty; o_before; o_meets; o_overlaps; o_starts; o_equal; o_finished_by]) /\
  follows (state_in x y [o_before; o_meets]) (precedes_mixed x y) /\
  follows (state_in x y [o_contained_by]) (interior_mixed x y) /\
  follows (state_in x y [o_before; o_meets; o_overlaps]) (strictly_less_mixed x y).
Proof.
exact (fun F G x y C Wx Wy => conj (o_subset x y C Wx Wy) (conj (o_equal_l x y C Wx Wy) (conj (o_disjoint x y C Wx Wy)
  (conj (o_strictly_precedes x y C Wx Wy) (conj (o_less x y C Wx Wy) (conj (o_precedes x y C Wx Wy)
  (conj (o_interior x y C Wx Wy) (o_strictly_less x y C Wx Wy)))))))).
Qed.
Print Assumptions C53_states.

(** The same for decorated operands, NaI included: all answers are no. *)
Theorem C53_states_decorated : forall (F G : fmt) (x : ditv F) (y : ditv G), comparable F G -> wf_dec x -> wf_dec y ->
  same_answer (rel_dec subset_mixed x y) (state_in_dec x y [o_both_empty; o_first_empty; o_starts; o_contained_by; o_finishes; o_equal]) /\
  same_answer (rel_dec equal_mixed x y) (state_in_dec x y [o_both_empty; o_equal]) /\
  same_answer (rel_dec disjoint_mixed x y) (state_in_dec x y [o_both_empty; o_first_empty; o_second_empty; o_before; o_after]) /\
  same_answer (rel_dec strictly_precedes_mixed x y) (state_in_dec x y [o_both_empty; o_first_empty; o_second_empty; o_before]) /\
  same_answer (rel_dec less_mixed x y) (state_in_dec x y [o_both_empty; o_before; o_meets; o_overlaps; o_starts; o_equal; o_finished_by]).
Proof.
exact (fun F G x y C Wx Wy => conj (od_subset x y C Wx Wy) (conj (od_equal x y C Wx Wy) (conj (od_disjoint x y C Wx Wy)
  (conj (od_strictly_precedes x y C Wx Wy) (od_less x y C Wx Wy))))).
Qed.
Print Assumptions C53_states_decorated.

(** ** Numeric functions *)
(** A subset has the larger infimum and mignitude and the smaller supremum, width and magnitude, in
    every format of the result. *)
Theorem C53_monotone : forall (F G T : fmt) (x : itv F) (y : itv G), comparable F G -> comparable F T -> comparable G T -> wf x -> wf y ->
  returns (subset_mixed x y) true ->
  compare num_le (n_inf_mixed T y) (n_inf_mixed T x) /\ compare num_le (n_sup_mixed T x) (n_sup_mixed T y) /\
  (s_nonempty x -> compare num_le (n_wid_mixed T x) (n_wid_mixed T y) /\ compare num_le (n_mag_mixed T x) (n_mag_mixed T y) /\
    compare num_le (n_mig_mixed T y) (n_mig_mixed T x)).
Proof.
exact (fun F G T x y C C1 C2 Wx Wy I => conj (m_inf T x y C C1 C2 Wx Wy I) (conj (m_sup T x y C C1 C2 Wx Wy I)
  (fun N => conj (m_wid T x y C C1 C2 Wx Wy I N) (conj (m_mag T x y C C1 C2 Wx Wy I N) (m_mig T x y C C1 C2 Wx Wy I N))))).
Qed.
Print Assumptions C53_monotone.

Theorem C53_inf_neg : forall (F : fmt) (x : itv F), wf x -> compare eq (n_inf x) (n <- neg x; s <- n_sup n; ret (fneg s)).
Proof. exact @u_inf_neg. Qed.
Print Assumptions C53_inf_neg.

Theorem C53_numeric : forall (F : fmt) (x : itv F), s_nonempty x ->
  compare eq (n_mag x) (a <- abs x; n_sup a) /\
  compare num_eq (n_mig x) (a <- abs x; n_inf a) /\
  compare eq (n_wid x) (a <- sub x x; n_sup a) /\
  always (m <- n_mid x; is_member m x) /\
  compare num_le (n_rad x) (n_wid x) /\
  compare num_le (n_mig x) (n_mag x) /\
  exists w, returns (n_wid x) w /\ decides (is_singleton x) (w = f0).
Proof.
exact (fun F x N => conj (u_mag_abs x N) (conj (u_mig_abs x N) (conj (u_wid_sub x N) (conj (u_mid_member x N) (conj (u_rad_wid x N)
  (conj (u_mig_mag x N) (u_singleton x N))))))).
Qed.
Print Assumptions C53_numeric.

Theorem C53_empty_mid : forall (F : fmt) (x : itv F), wf x -> exists m, returns (n_mid x) m /\ decides (is_empty x) (isnan m = true).
Proof. exact @u_empty_mid. Qed.
Print Assumptions C53_empty_mid.

(** The relations by the results of [inf] and [sup]. *)
Theorem C53_by_bounds : forall (F G : fmt) (x : itv F) (y : itv G), comparable F G -> s_nonempty x -> s_nonempty y ->
  exists ix sx iy sy, returns (n_inf x) ix /\ returns (n_sup x) sx /\ returns (n_inf y) iy /\ returns (n_sup y) sy /\
  decides (equal_mixed x y) (num_eq ix iy /\ num_eq sx sy) /\
  decides (subset_mixed x y) (num_le iy ix /\ num_le sx sy) /\
  decides (less_mixed x y) (num_le ix iy /\ num_le sx sy) /\
  decides (precedes_mixed x y) (num_le sx iy) /\
  decides (strictly_precedes_mixed x y) (num_lt sx iy) /\
  decides (disjoint_mixed x y) (num_lt sx iy \/ num_lt sy ix).
Proof. exact @by_bounds. Qed.
Print Assumptions C53_by_bounds.

(** ** Examples *)
Local Notation b64 m e := (fl binary64 m e).
Local Notation yes := (Ret true, Est 0 0).
Local Notation no := (Ret false, Est 0 0).
Local Definition run {A} (m : M A) := m (Est 0 0).
(** A point and an interval that starts with it: [precedes] holds though the state is [starts], so
    [precedes] is no union of states; the hull of two parts of [1,4] may be larger than the
    parts, so the inclusion in [C53_bounds] is no equality. *)
Example C53_ex :
  run (precedes_mixed (b64 1 0, b64 1 0) (b64 1 0, b64 2 0)) = yes
  /\ run (overlap (b64 1 0, b64 1 0) (b64 1 0, b64 2 0)) = (Ret o_starts, Est 0 0)
  /\ run (subset_mixed (b64 1 0, b64 1 0) (b64 1 0, b64 2 0)) = yes
  /\ run (state_in (b64 1 0, b64 1 0) (b64 1 0, b64 2 0) [o_both_empty; o_first_empty; o_starts; o_contained_by; o_finishes; o_equal]) = yes
  /\ run (interior_mixed (b64 1 0, b64 2 0) (b64 0 0, finf)) = yes
  /\ run (d <- convex_hull (b64 1 0, b64 2 0) (b64 3 0, b64 4 0); disjoint d (b64 5 1, finf)) = yes
  /\ run (d <- convex_hull (b64 0 0, b64 1 0) (b64 4 0, b64 5 0); e <- intersection (b64 2 0, b64 3 0) d; is_empty e) = no
  /\ run (a <- intersection (b64 2 0, b64 3 0) (b64 0 0, b64 1 0); b <- intersection (b64 2 0, b64 3 0) (b64 4 0, b64 5 0); d <- convex_hull a b; is_empty d) = yes.
Proof. repeat apply conj; vm_compute; reflexivity. Qed.
Example C53_ex_operands : wf (b64 1 0, b64 2 0) /\ @s_nonempty binary64 (b64 1 0, finf) /\ comparable binary32 binary64 /\ @wf binary64 empty_rep /\
  wf_dec (nai : ditv binary64).
Proof.
split; [right; exists 1; split; vm_compute; lra|]. split; [exists 2; split; vm_compute; [lra|reflexivity]|]. split; [vm_compute; intuition congruence|]. split; [now left|].
vm_compute. tauto.
Qed.
(** The empty set is below and above everything: [precedes] is not transitive over it. *)
Example C53_ex_empty :
  run (both (precedes_mixed (b64 2 0, b64 2 0) (@empty_rep binary64)) (precedes_mixed (@empty_rep binary64) (b64 1 0, b64 1 0))) = yes
  /\ run (precedes_mixed (b64 2 0, b64 2 0) (b64 1 0, b64 1 0)) = no.
Proof. split; vm_compute; reflexivity. Qed.
