(** * C15: step functions *)
From Coq Require Import ZArith NArith Reals Bool Lra Ratan.
From Flocq Require Import Core.Core IEEE754.BinarySingleNaN.
From Verif Require Import Fmt Spec Exc Deco SpecApi SpecElem MBase PBase MElem PElem PElem2 Ex.

Local Open Scope R_scope.

Theorem C15_sign_tightest : forall (F : fmt) (x : itv F), wf x ->
  computes_tightest (sign_itv x) (image1 everywhere signR x).
Proof. exact @sign_tightest. Qed.
Print Assumptions C15_sign_tightest.

Theorem C15_ceil_tightest : forall (F : fmt) (x : itv F), wf x ->
  computes_tightest (ceil_itv x) (image1 everywhere ceilR x).
Proof. exact @ceil_tightest. Qed.
Print Assumptions C15_ceil_tightest.

Theorem C15_floor_tightest : forall (F : fmt) (x : itv F), wf x ->
  computes_tightest (floor_itv x) (image1 everywhere floorR x).
Proof. exact @floor_tightest. Qed.
Print Assumptions C15_floor_tightest.

Theorem C15_trunc_tightest : forall (F : fmt) (x : itv F), wf x ->
  computes_tightest (trunc_itv x) (image1 everywhere truncR x).
Proof. exact @trunc_tightest. Qed.
Print Assumptions C15_trunc_tightest.

Theorem C15_round_ties_to_even_tightest : forall (F : fmt) (x : itv F), wf x ->
  computes_tightest (round_ties_to_even_itv x) (image1 everywhere rteR x).
Proof. exact @rte_tightest. Qed.
Print Assumptions C15_round_ties_to_even_tightest.

Theorem C15_round_ties_to_away_tightest : forall (F : fmt) (x : itv F), wf x ->
  computes_tightest (round_ties_to_away_itv x) (image1 everywhere rtaR x).
Proof. exact @rta_tightest. Qed.
Print Assumptions C15_round_ties_to_away_tightest.

(** On [-1.5, 2.5]: sign [-1,1], ceil [-1,3], floor [-2,2], trunc [-1,2], ties-to-even [-2,2],
    ties-to-away [-2,3]; floor of [1.5,+oo] is [1,+oo]. *)
Example C15_ex : let x : itv binary64 := (fl binary64 (-3) (-1), fl binary64 5 (-1)) in
  run (sign_itv x) = okz (fl binary64 (-1) 0) (fl binary64 1 0)
  /\ run (ceil_itv x) = okz (fl binary64 (-1) 0) (fl binary64 3 0)
  /\ run (floor_itv x) = okz (fl binary64 (-2) 0) (fl binary64 2 0)
  /\ run (trunc_itv x) = okz (fl binary64 (-1) 0) (fl binary64 2 0)
  /\ run (round_ties_to_even_itv x) = okz (fl binary64 (-2) 0) (fl binary64 2 0)
  /\ run (round_ties_to_away_itv x) = okz (fl binary64 (-2) 0) (fl binary64 3 0)
  /\ run (floor_itv (fl binary64 3 (-1), finf)) = okz (fl binary64 1 0) finf
  /\ wf x.
Proof. cbv zeta. repeat (split; [first [wf_tac|vm_compute; reflexivity]|]). wf_tac. Qed.
