(** * C18: comparison relations and predicates *)
From Coq Require Import ZArith NArith Reals Bool Lra.
From Flocq Require Import Core.Core IEEE754.BinarySingleNaN.
From Verif Require Import Fmt Spec Exc Deco SpecApi SpecRel MBase PBase MBool PConv PBool MApi PApi Ex.

Local Open Scope R_scope.

(** Any two of float, double and long double are comparable. *)
Theorem C18_formats_comparable :
  comparable binary32 binary64 /\ comparable binary64 binary80 /\ comparable binary32 binary80.
Proof. repeat split; right; left; split; vm_compute; easy. Qed.

(** Relations between possibly different bound types (same type: F = G). *)
Theorem C18_equal : forall (F G : fmt) (x : itv F) (y : itv G), comparable F G -> wf x -> wf y ->
  decides (equal_mixed x y) (s_equal x y).
Proof. intros F G x y C. now apply equal_mixed_decides. Qed.
Print Assumptions C18_equal.
Theorem C18_equal_same_type : forall (F : fmt) (x y : itv F), wf x -> wf y ->
  decides (equal x y) (s_equal x y).
Proof. exact @equal_decides. Qed.
Theorem C18_equal_decorated : forall (F G : fmt) (x : ditv F) (y : ditv G), comparable F G -> wf_dec x -> wf_dec y ->
  decides (rel_dec equal_mixed x y) (snd x <> ill /\ snd y <> ill /\ s_equal (fst x) (fst y)).
Proof. intros F G x y C. apply (rel_dec_decides _ s_equal). now apply equal_mixed_decides. Qed.
Theorem C18_subset : forall (F G : fmt) (x : itv F) (y : itv G), comparable F G -> wf x -> wf y ->
  decides (subset_mixed x y) (s_subset x y).
Proof. intros F G x y C. now apply subset_mixed_decides. Qed.
Print Assumptions C18_subset.
Theorem C18_subset_same_type : forall (F : fmt) (x y : itv F), wf x -> wf y ->
  decides (subset x y) (s_subset x y).
Proof. exact @subset_decides. Qed.
Theorem C18_subset_decorated : forall (F G : fmt) (x : ditv F) (y : ditv G), comparable F G -> wf_dec x -> wf_dec y ->
  decides (rel_dec subset_mixed x y) (snd x <> ill /\ snd y <> ill /\ s_subset (fst x) (fst y)).
Proof. intros F G x y C. apply (rel_dec_decides _ s_subset). now apply subset_mixed_decides. Qed.
Theorem C18_less : forall (F G : fmt) (x : itv F) (y : itv G), comparable F G -> wf x -> wf y ->
  decides (less_mixed x y) (s_less x y).
Proof. intros F G x y C. now apply less_mixed_decides. Qed.
Print Assumptions C18_less.
Theorem C18_less_same_type : forall (F : fmt) (x y : itv F), wf x -> wf y ->
  decides (less x y) (s_less x y).
Proof. exact @less_decides. Qed.
Theorem C18_less_decorated : forall (F G : fmt) (x : ditv F) (y : ditv G), comparable F G -> wf_dec x -> wf_dec y ->
  decides (rel_dec less_mixed x y) (snd x <> ill /\ snd y <> ill /\ s_less (fst x) (fst y)).
Proof. intros F G x y C. apply (rel_dec_decides _ s_less). now apply less_mixed_decides. Qed.
Theorem C18_precedes : forall (F G : fmt) (x : itv F) (y : itv G), comparable F G -> wf x -> wf y ->
  decides (precedes_mixed x y) (s_precedes x y).
Proof. intros F G x y C. now apply precedes_mixed_decides. Qed.
Print Assumptions C18_precedes.
Theorem C18_precedes_same_type : forall (F : fmt) (x y : itv F), wf x -> wf y ->
  decides (precedes x y) (s_precedes x y).
Proof. exact @precedes_decides. Qed.
Theorem C18_precedes_decorated : forall (F G : fmt) (x : ditv F) (y : ditv G), comparable F G -> wf_dec x -> wf_dec y ->
  decides (rel_dec precedes_mixed x y) (snd x <> ill /\ snd y <> ill /\ s_precedes (fst x) (fst y)).
Proof. intros F G x y C. apply (rel_dec_decides _ s_precedes). now apply precedes_mixed_decides. Qed.
Theorem C18_interior : forall (F G : fmt) (x : itv F) (y : itv G), comparable F G -> wf x -> wf y ->
  decides (interior_mixed x y) (s_interior x y).
Proof. intros F G x y C. now apply interior_mixed_decides. Qed.
Print Assumptions C18_interior.
Theorem C18_interior_same_type : forall (F : fmt) (x y : itv F), wf x -> wf y ->
  decides (interior x y) (s_interior x y).
Proof. exact @interior_decides. Qed.
Theorem C18_interior_decorated : forall (F G : fmt) (x : ditv F) (y : ditv G), comparable F G -> wf_dec x -> wf_dec y ->
  decides (rel_dec interior_mixed x y) (snd x <> ill /\ snd y <> ill /\ s_interior (fst x) (fst y)).
Proof. intros F G x y C. apply (rel_dec_decides _ s_interior). now apply interior_mixed_decides. Qed.
Theorem C18_strictly_less : forall (F G : fmt) (x : itv F) (y : itv G), comparable F G -> wf x -> wf y ->
  decides (strictly_less_mixed x y) (s_strictly_less x y).
Proof. intros F G x y C. now apply strictly_less_mixed_decides. Qed.
Print Assumptions C18_strictly_less.
Theorem C18_strictly_less_same_type : forall (F : fmt) (x y : itv F), wf x -> wf y ->
  decides (strictly_less x y) (s_strictly_less x y).
Proof. exact @strictly_less_decides. Qed.
Theorem C18_strictly_less_decorated : forall (F G : fmt) (x : ditv F) (y : ditv G), comparable F G -> wf_dec x -> wf_dec y ->
  decides (rel_dec strictly_less_mixed x y) (snd x <> ill /\ snd y <> ill /\ s_strictly_less (fst x) (fst y)).
Proof. intros F G x y C. apply (rel_dec_decides _ s_strictly_less). now apply strictly_less_mixed_decides. Qed.
Theorem C18_strictly_precedes : forall (F G : fmt) (x : itv F) (y : itv G), comparable F G -> wf x -> wf y ->
  decides (strictly_precedes_mixed x y) (s_strictly_precedes x y).
Proof. intros F G x y C. now apply strictly_precedes_mixed_decides. Qed.
Print Assumptions C18_strictly_precedes.
Theorem C18_strictly_precedes_same_type : forall (F : fmt) (x y : itv F), wf x -> wf y ->
  decides (strictly_precedes x y) (s_strictly_precedes x y).
Proof. exact @strictly_precedes_decides. Qed.
Theorem C18_strictly_precedes_decorated : forall (F G : fmt) (x : ditv F) (y : ditv G), comparable F G -> wf_dec x -> wf_dec y ->
  decides (rel_dec strictly_precedes_mixed x y) (snd x <> ill /\ snd y <> ill /\ s_strictly_precedes (fst x) (fst y)).
Proof. intros F G x y C. apply (rel_dec_decides _ s_strictly_precedes). now apply strictly_precedes_mixed_decides. Qed.
Theorem C18_disjoint : forall (F G : fmt) (x : itv F) (y : itv G), comparable F G -> wf x -> wf y ->
  decides (disjoint_mixed x y) (s_disjoint x y).
Proof. intros F G x y C. now apply disjoint_mixed_decides. Qed.
Print Assumptions C18_disjoint.
Theorem C18_disjoint_same_type : forall (F : fmt) (x y : itv F), wf x -> wf y ->
  decides (disjoint x y) (s_disjoint x y).
Proof. exact @disjoint_decides. Qed.
Theorem C18_disjoint_decorated : forall (F G : fmt) (x : ditv F) (y : ditv G), comparable F G -> wf_dec x -> wf_dec y ->
  decides (rel_dec disjoint_mixed x y) (snd x <> ill /\ snd y <> ill /\ s_disjoint (fst x) (fst y)).
Proof. intros F G x y C. apply (rel_dec_decides _ s_disjoint). now apply disjoint_mixed_decides. Qed.
Theorem C18_superset : forall (F G : fmt) (x : itv F) (y : itv G), comparable F G -> wf x -> wf y ->
  decides (superset_mixed x y) (s_subset y x).
Proof. intros F G x y C Wx Wy. apply subset_mixed_decides; [now apply comparable_sym|easy..]. Qed.
Theorem C18_greater : forall (F G : fmt) (x : itv F) (y : itv G), comparable F G -> wf x -> wf y ->
  decides (greater_mixed x y) (s_less y x).
Proof. intros F G x y C Wx Wy. apply less_mixed_decides; [now apply comparable_sym|easy..]. Qed.
Theorem C18_succeeds : forall (F G : fmt) (x : itv F) (y : itv G), comparable F G -> wf x -> wf y ->
  decides (succeeds_mixed x y) (s_precedes y x).
Proof. intros F G x y C Wx Wy. apply precedes_mixed_decides; [now apply comparable_sym|easy..]. Qed.
Theorem C18_contains_interior : forall (F G : fmt) (x : itv F) (y : itv G), comparable F G -> wf x -> wf y ->
  decides (contains_interior_mixed x y) (s_interior y x).
Proof. intros F G x y C Wx Wy. apply interior_mixed_decides; [now apply comparable_sym|easy..]. Qed.
Theorem C18_strictly_greater : forall (F G : fmt) (x : itv F) (y : itv G), comparable F G -> wf x -> wf y ->
  decides (strictly_greater_mixed x y) (s_strictly_less y x).
Proof. intros F G x y C Wx Wy. apply strictly_less_mixed_decides; [now apply comparable_sym|easy..]. Qed.
Theorem C18_strictly_succeeds : forall (F G : fmt) (x : itv F) (y : itv G), comparable F G -> wf x -> wf y ->
  decides (strictly_succeeds_mixed x y) (s_strictly_precedes y x).
Proof. intros F G x y C Wx Wy. apply strictly_precedes_mixed_decides; [now apply comparable_sym|easy..]. Qed.
Theorem C18_op_ne : forall (F G : fmt) (x : itv F) (y : itv G), comparable F G -> wf x -> wf y ->
  decides (op_ne x y) (~ s_equal x y).
Proof. intros F G x y C. now apply op_ne_decides. Qed.
Theorem C18_op_eq : forall (F G : fmt) (x : itv F) (y : itv G), comparable F G -> wf x -> wf y ->
  decides (op_eq x y) (s_equal x y).
Proof. intros F G x y C. now apply equal_mixed_decides. Qed.
Theorem C18_superset_decorated : forall (F G : fmt) (x : ditv F) (y : ditv G), comparable F G -> wf_dec x -> wf_dec y ->
  decides (superset_dec x y) (snd x <> ill /\ snd y <> ill /\ s_subset (fst y) (fst x)).
Proof. exact (fun F G x y C Wx Wy => decides_swap _ _ _ _ (C18_subset_decorated G F y x (comparable_sym _ _ C) Wy Wx)). Qed.
Theorem C18_greater_decorated : forall (F G : fmt) (x : ditv F) (y : ditv G), comparable F G -> wf_dec x -> wf_dec y ->
  decides (greater_dec x y) (snd x <> ill /\ snd y <> ill /\ s_less (fst y) (fst x)).
Proof. exact (fun F G x y C Wx Wy => decides_swap _ _ _ _ (C18_less_decorated G F y x (comparable_sym _ _ C) Wy Wx)). Qed.
Theorem C18_succeeds_decorated : forall (F G : fmt) (x : ditv F) (y : ditv G), comparable F G -> wf_dec x -> wf_dec y ->
  decides (succeeds_dec x y) (snd x <> ill /\ snd y <> ill /\ s_precedes (fst y) (fst x)).
Proof. exact (fun F G x y C Wx Wy => decides_swap _ _ _ _ (C18_precedes_decorated G F y x (comparable_sym _ _ C) Wy Wx)). Qed.
Theorem C18_contains_interior_decorated : forall (F G : fmt) (x : ditv F) (y : ditv G), comparable F G -> wf_dec x -> wf_dec y ->
  decides (contains_interior_dec x y) (snd x <> ill /\ snd y <> ill /\ s_interior (fst y) (fst x)).
Proof. exact (fun F G x y C Wx Wy => decides_swap _ _ _ _ (C18_interior_decorated G F y x (comparable_sym _ _ C) Wy Wx)). Qed.
Theorem C18_strictly_greater_decorated : forall (F G : fmt) (x : ditv F) (y : ditv G), comparable F G -> wf_dec x -> wf_dec y ->
  decides (strictly_greater_dec x y) (snd x <> ill /\ snd y <> ill /\ s_strictly_less (fst y) (fst x)).
Proof. exact (fun F G x y C Wx Wy => decides_swap _ _ _ _ (C18_strictly_less_decorated G F y x (comparable_sym _ _ C) Wy Wx)). Qed.
Theorem C18_strictly_succeeds_decorated : forall (F G : fmt) (x : ditv F) (y : ditv G), comparable F G -> wf_dec x -> wf_dec y ->
  decides (strictly_succeeds_dec x y) (snd x <> ill /\ snd y <> ill /\ s_strictly_precedes (fst y) (fst x)).
Proof. exact (fun F G x y C Wx Wy => decides_swap _ _ _ _ (C18_strictly_precedes_decorated G F y x (comparable_sym _ _ C) Wy Wx)). Qed.
Theorem C18_op_eq_decorated : forall (F G : fmt) (x : ditv F) (y : ditv G), comparable F G -> wf_dec x -> wf_dec y ->
  decides (op_eq_dec x y) (snd x <> ill /\ snd y <> ill /\ s_equal (fst x) (fst y)).
Proof. exact C18_equal_decorated. Qed.
(** A NaI is different from everything, itself included. *)
Theorem C18_op_ne_decorated : forall (F G : fmt) (x : ditv F) (y : ditv G), comparable F G -> wf_dec x -> wf_dec y ->
  decides (op_ne_dec x y) (snd x = ill \/ snd y = ill \/ ~ s_equal (fst x) (fst y)).
Proof. exact (fun F G x y C Wx Wy => decides_ne _ _ _ _ (C18_equal_decorated F G x y C Wx Wy)). Qed.
Print Assumptions C18_op_ne_decorated.

(** Predicates. *)
Theorem C18_is_empty : forall (F : fmt) (x : itv F), wf x -> decides (is_empty x) (has_no_member x).
Proof. exact @is_empty_decides. Qed.
Print Assumptions C18_is_empty.
Theorem C18_is_empty_decorated : forall (F : fmt) (x : ditv F), wf_dec x ->
  decides (is_empty_dec x) (snd x <> ill /\ has_no_member (fst x)).
Proof. intros F x. apply (pred_dec_decides is_empty has_no_member). apply is_empty_decides. Qed.
Theorem C18_is_entire : forall (F : fmt) (x : itv F), wf x -> decides (is_entire x) (has_all_members x).
Proof. exact @is_entire_decides. Qed.
Print Assumptions C18_is_entire.
Theorem C18_is_entire_decorated : forall (F : fmt) (x : ditv F), wf_dec x ->
  decides (is_entire_dec x) (snd x <> ill /\ has_all_members (fst x)).
Proof. intros F x. apply (pred_dec_decides is_entire has_all_members). apply is_entire_decides. Qed.
Theorem C18_is_singleton : forall (F : fmt) (x : itv F), wf x -> decides (is_singleton x) (s_singleton x).
Proof. exact @is_singleton_decides. Qed.
Print Assumptions C18_is_singleton.
Theorem C18_is_singleton_decorated : forall (F : fmt) (x : ditv F), wf_dec x ->
  decides (is_singleton_dec x) (snd x <> ill /\ s_singleton (fst x)).
Proof. intros F x. apply (pred_dec_decides is_singleton s_singleton). apply is_singleton_decides. Qed.
Theorem C18_is_common_interval : forall (F : fmt) (x : itv F), wf x -> decides (is_common_interval x) (s_nonempty x /\ s_bounded x).
Proof. exact @is_common_decides. Qed.
Print Assumptions C18_is_common_interval.
Theorem C18_is_common_interval_decorated : forall (F : fmt) (x : ditv F), wf_dec x ->
  decides (is_common_interval_dec x) (snd x <> ill /\ s_nonempty (fst x) /\ s_bounded (fst x)).
Proof. intros F x. apply (pred_dec_decides is_common_interval (fun x => s_nonempty x /\ s_bounded x)). apply is_common_decides. Qed.
Theorem C18_is_member : forall (F G : fmt) (m : float G) (x : itv F), comparable F G -> wf x ->
  decides (is_member_mixed m x) (is_finite m = true /\ mem (B2R m) x).
Proof. intros F G m x C. now apply is_member_mixed_decides. Qed.
Print Assumptions C18_is_member.
Theorem C18_is_member_same_type : forall (F : fmt) (m : float F) (x : itv F), wf x ->
  decides (is_member m x) (is_finite m = true /\ mem (B2R m) x).
Proof. exact @is_member_decides. Qed.
Theorem C18_is_member_decorated : forall (F G : fmt) (m : float G) (x : ditv F), comparable F G -> wf_dec x ->
  decides (is_member_dec m x) (snd x <> ill /\ is_finite m = true /\ mem (B2R m) (fst x)).
Proof. intros F G m x C. apply (pred_dec_decides (is_member_mixed m) (fun x => is_finite m = true /\ mem (B2R m) x)). now apply is_member_mixed_decides. Qed.

(** [1,2] (float) inside the interior of [-oo,3] (double); 0.1f is not the double 0.1. *)
Definition tf : est -> bool -> outcome bool * est := fun s b => (Ret b, s).
Example C18_ex :
  interior_mixed (fl binary32 1 0, fl binary32 2 0) (fminf, fl binary64 3 0) (Est 0 0) = tf (Est 0 0) true
  /\ interior_mixed (fl binary32 1 0, fl binary32 2 0) (fl binary64 1 0, fl binary64 3 0) (Est 0 0) = tf (Est 0 0) false
  /\ equal_mixed (fl binary32 13421773 (-27), fl binary32 1 0) (fl binary64 7205759403792794 (-56), fl binary64 1 0) (Est 0 0) = tf (Est 0 0) false
  /\ disjoint (fl binary64 1 0, fl binary64 2 0) (fl binary64 3 0, finf) (Est 0 0) = tf (Est 0 0) true
  /\ is_member (fl binary64 2 0) (fl binary64 1 0, finf) (Est 0 0) = tf (Est 0 0) true
  /\ is_member finf (fl binary64 1 0, finf) (Est 0 0) = tf (Est 0 0) false
  /\ wf ((fl binary32 1 0, fl binary32 2 0) : itv binary32)
  /\ wf ((fminf, fl binary64 3 0) : itv binary64)
  /\ wf_dec (((fminf, fl binary64 3 0), dac) : ditv binary64).
Proof. repeat (split; [first [wf_tac|vm_compute; reflexivity]|]). wf_tac. Qed.
(** [2,3] (double) strictly succeeds [0,1] (float), also decorated; a NaI succeeds nothing and differs from itself. *)
Example C18_api_ex :
  let x := ((fl binary64 2 0, fl binary64 3 0), dac) : ditv binary64 in
  let y := ((fl binary32 0 0, fl binary32 1 0), com) : ditv binary32 in
  strictly_succeeds_dec x y (Est 0 0) = tf (Est 0 0) true
  /\ strictly_succeeds_dec (@nai binary64) y (Est 0 0) = tf (Est 0 0) false
  /\ op_ne_dec (@nai binary64) (@nai binary64) (Est 0 0) = tf (Est 0 0) true
  /\ op_ne_dec x x (Est 0 0) = tf (Est 0 0) false /\ op_eq_dec x x (Est 0 0) = tf (Est 0 0) true
  /\ superset_dec x (((fl binary32 2 0, fl binary32 2 0), com) : ditv binary32) (Est 0 0) = tf (Est 0 0) true
  /\ wf_dec x /\ wf_dec y.
Proof. repeat (split; [first [wf_tac|vm_compute; reflexivity]|]). wf_tac. Qed.
