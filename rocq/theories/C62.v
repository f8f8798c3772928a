(** * C62: directed reductions of the bounds give the tightest sum of intervals *)
From Coq Require Import ZArith Reals Bool List Lia Lra.
From Flocq Require Import Core.Core IEEE754.BinarySingleNaN.
From Verif Require Import Fmt Spec FloatFacts Exc SpecApi MBase MArith MMpfr MRed SpecRedItv PRedItv PRedOrd SpecRound PRedExact.
Import ListNotations.
Local Open Scope R_scope.

(** The lower bounds summed downward and the upper bounds summed upward, from any prior exponent
    ranges: the tightest interval around all sums of members, with empty and unbounded intervals. *)
Theorem C62_interval_sum : forall (F : fmt) (xs : list (itv F)) (E E' : genv), Forall wf xs ->
  tightest (sums xs) (fst (sum (map fst xs) downward E), fst (sum (map snd xs) upward E')).
Proof. exact @interval_sum. Qed.
Print Assumptions C62_interval_sum.
(** A program adding the intervals one by one encloses all sums of members ... *)
Theorem C62_adds_enclose : forall (F : fmt) (xs : list (itv F)) (z : itv F), wf z -> Forall wf xs ->
  computes_enclosure (adds z xs) (fun t => exists r s, mem r z /\ sums xs s /\ t = r + s).
Proof. exact @adds_enclose. Qed.
Print Assumptions C62_adds_enclose.
(** ... and is never better than the two reductions. *)
Theorem C62_within_adds : forall (F : fmt) (x : itv F) (xs : list (itv F)) (E E' : genv), wf x -> Forall wf xs ->
  exists z, returns (adds x xs) z /\
  included (fst (sum (map fst (x :: xs)) downward E), fst (sum (map snd (x :: xs)) upward E')) z.
Proof. exact @within_adds. Qed.
Print Assumptions C62_within_adds.
(** Sometimes it is worse. *)
Theorem C62_adds_tightest_refuted : exists (x : itv binary32) (xs : list (itv binary32)) z t,
  wf x /\ Forall wf xs /\ returns (adds x xs) z /\
  mem t z /\ forall E E', ~ mem t (fst (sum (map fst (x :: xs)) downward E), fst (sum (map snd (x :: xs)) upward E')).
Proof. exact adds_not_tightest. Qed.
Print Assumptions C62_adds_tightest_refuted.

(** Every direction gives a number between the results downward and upward, unless the sum is undefined. *)
Theorem C62_sum_between : forall (F : fmt) (l : list (float F)) (rnd : rnd_mode) (E1 E2 E3 : genv),
  let d := fst (sum l downward E1) in let z := fst (sum l rnd E2) in let u := fst (sum l upward E3) in
  (d = fnan /\ z = fnan /\ u = fnan) \/ (fle d z = true /\ fle z u = true).
Proof. exact @sum_between. Qed.
Print Assumptions C62_sum_between.
Theorem C62_sum_abs_between : forall (F : fmt) (l : list (float F)) (rnd : rnd_mode) (E1 E2 E3 : genv),
  let d := fst (sum_abs l downward E1) in let z := fst (sum_abs l rnd E2) in let u := fst (sum_abs l upward E3) in
  (d = fnan /\ z = fnan /\ u = fnan) \/ (fle d z = true /\ fle z u = true).
Proof. exact @sum_abs_between. Qed.
Print Assumptions C62_sum_abs_between.
Theorem C62_sum_sqr_between : forall (F : fmt) (l : list (float F)) (rnd : rnd_mode) (E1 E2 E3 : genv),
  let d := fst (sum_sqr l downward E1) in let z := fst (sum_sqr l rnd E2) in let u := fst (sum_sqr l upward E3) in
  (d = fnan /\ z = fnan /\ u = fnan) \/ (fle d z = true /\ fle z u = true).
Proof. exact @sum_sqr_between. Qed.
Print Assumptions C62_sum_sqr_between.
Theorem C62_dot_between : forall (F : fmt) (a b : list (float F)) (rnd : rnd_mode) (E1 E2 E3 : genv),
  (length a <= length b)%nat -> exists d E1' z E2' u E3',
  dot a b downward E1 = Ret (d, E1') /\ dot a b rnd E2 = Ret (z, E2') /\ dot a b upward E3 = Ret (u, E3') /\
  ((d = fnan /\ z = fnan /\ u = fnan) \/ (fle d z = true /\ fle z u = true)).
Proof. exact @dot_between. Qed.
Print Assumptions C62_dot_between.

(** Whenever the exact sum is a number of the format it is returned, whatever the order, the
    direction and the partial sums; and the two directions agree only then. *)
Theorem C62_exact : forall (F : fmt) (l : list (float F)) (v : float F) (rnd : rnd_mode) (E : genv),
  Forall (fun x => is_finite x = true) l -> is_finite v = true -> fold_right Rplus 0 (map B2R l) = B2R v ->
  same_number (fst (sum l rnd E)) v.
Proof. exact @sum_exact. Qed.
Print Assumptions C62_exact.
Theorem C62_exact_iff : forall (F : fmt) (l : list (float F)) (E E' : genv), Forall (fun x => is_finite x = true) l ->
  let d := fst (sum l downward E) in let u := fst (sum l upward E') in
  (is_finite d = true /\ is_finite u = true /\ B2R d = B2R u) <->
  (exists v : float F, is_finite v = true /\ fold_right Rplus 0 (map B2R l) = B2R v).
Proof. exact @sum_exact_iff. Qed.
Print Assumptions C62_exact_iff.
Theorem C62_single : forall (F : fmt) (v : float F) (rnd : rnd_mode) (E : genv), same_number (fst (sum [v] rnd E)) v.
Proof. exact @sum_single. Qed.
Print Assumptions C62_single.

(** [1, +oo] + [-1, 1] + [-0, +0]. *)
Example C62_ex : forall E E', let xs := [(@f1 binary64, finf); (fneg f1, f1); (fm0, f0)] in
  tightest (sums xs) (fst (sum (map fst xs) downward E), fst (sum (map snd xs) upward E')) /\ sums xs 7.
Proof.
intros E E' xs.
assert (A : mem 6 (@f1 binary64, finf)) by (split; [cbn [fst]; rewrite lb_fin, B2R_f1 by easy; lra|easy]).
assert (B : mem 1 (fneg (@f1 binary64), f1)).
{ split; cbn [fst snd]; [|rewrite ub_fin, B2R_f1 by easy; lra]. unfold fneg. rewrite lb_fin, B2R_Bopp, B2R_f1 by easy. lra. }
assert (C : mem 0 (@fm0 binary64, f0)) by (split; cbn; lra).
split.
- apply C62_interval_sum. constructor; [right; now exists 6|constructor; [right; now exists 1|constructor; [right; now exists 0|constructor]]].
- exists [6; 1; 0]. split; [exact (Forall2_cons _ _ A (Forall2_cons _ _ B (Forall2_cons _ _ C (Forall2_nil _))))|cbn; lra].
Qed.
(** An empty interval makes the sum empty. *)
Example C62_ex_empty : forall E E', let xs := [(@f1 binary64, f1); empty_rep] in
  tightest (sums xs) (fst (sum (map fst xs) downward E), fst (sum (map snd xs) upward E')).
Proof.
intros E E' xs. apply C62_interval_sum. constructor; [|constructor; [now left|constructor]]. right. exists 1.
split; cbn [fst snd]; [rewrite lb_fin, B2R_f1 by easy; lra|rewrite ub_fin, B2R_f1 by easy; lra].
Qed.
(** The largest number and one: the result to nearest is between a number and an infinity. *)
Example C62_ex_between : forall E1 E2 E3,
  let d := fst (sum [@fmaxv binary64; f1] downward E1) in let z := fst (sum [@fmaxv binary64; f1] to_nearest E2) in
  let u := fst (sum [@fmaxv binary64; f1] upward E3) in
  (d = fnan /\ z = fnan /\ u = fnan) \/ (fle d z = true /\ fle z u = true).
Proof. intros E1 E2 E3. exact (C62_sum_between _ _ to_nearest E1 E2 E3). Qed.
(** Partial sums overflow or lose the one, the result is one. *)
Example C62_ex_exact : forall rnd E, same_number (fst (sum [@fmaxv binary64; fmaxv; f1; fneg fmaxv; fneg fmaxv] rnd E)) f1.
Proof.
intros rnd E. apply C62_exact.
- repeat constructor.
- reflexivity.
- cbn [map fold_right]. unfold fneg. rewrite !B2R_Bopp. lra.
Qed.
