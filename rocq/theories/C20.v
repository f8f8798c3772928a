(** * C20: intersection and convex hull *)
From Coq Require Import ZArith NArith Reals Bool Lra.
From Flocq Require Import Core.Core IEEE754.BinarySingleNaN.
From Verif Require Import Fmt Spec Exc Deco SpecApi SpecRel MBase PBase MBool PSetop Ex.

Local Open Scope R_scope.

Theorem C20_intersection_exact : forall (F : fmt) (x y : itv F), wf x -> wf y ->
  exists z, intersection x y = ret z /\ wf z /\ forall r, mem r z <-> mem r x /\ mem r y.
Proof. exact @intersection_exact. Qed.
Print Assumptions C20_intersection_exact.

Theorem C20_hull_tightest : forall (F : fmt) (x y : itv F), wf x -> wf y ->
  computes_tightest (convex_hull x y) (fun r => mem r x \/ mem r y).
Proof. exact @hull_tightest. Qed.
Print Assumptions C20_hull_tightest.

Theorem C20_intersection_commutative : forall (F : fmt) (x y : itv F), wf x -> wf y ->
  same_result (intersection x y) (intersection y x).
Proof. exact @intersection_comm. Qed.
Theorem C20_intersection_idempotent : forall (F : fmt) (x : itv F), wf x -> same_result (intersection x x) (ret x).
Proof. exact @intersection_idem. Qed.
Theorem C20_intersection_associative : forall (F : fmt) (x y z : itv F), wf x -> wf y -> wf z ->
  same_result (bind (intersection x y) (fun t => intersection t z)) (bind (intersection y z) (fun t => intersection x t)).
Proof. exact @intersection_assoc. Qed.
Theorem C20_intersection_decorated_nai : forall (F : fmt) (x y : ditv F), wf_dec x -> wf_dec y ->
  snd x = ill \/ snd y = ill -> intersection_dec x y = ret nai.
Proof. intros F. exact (@setop_dec_nai F intersection). Qed.
Theorem C20_intersection_decorated : forall (F : fmt) (x y : ditv F), wf_dec x -> wf_dec y -> snd x <> ill -> snd y <> ill ->
  intersection_dec x y = bind (intersection (fst x) (fst y)) (fun b => ret (b, trv)).
Proof. intros F. exact (@setop_dec_val F intersection). Qed.
Theorem C20_hull_commutative : forall (F : fmt) (x y : itv F), wf x -> wf y ->
  same_result (convex_hull x y) (convex_hull y x).
Proof. exact @hull_comm. Qed.
Theorem C20_hull_idempotent : forall (F : fmt) (x : itv F), wf x -> same_result (convex_hull x x) (ret x).
Proof. exact @hull_idem. Qed.
Theorem C20_hull_associative : forall (F : fmt) (x y z : itv F), wf x -> wf y -> wf z ->
  same_result (bind (convex_hull x y) (fun t => convex_hull t z)) (bind (convex_hull y z) (fun t => convex_hull x t)).
Proof. exact @hull_assoc. Qed.
Theorem C20_hull_decorated_nai : forall (F : fmt) (x y : ditv F), wf_dec x -> wf_dec y ->
  snd x = ill \/ snd y = ill -> convex_hull_dec x y = ret nai.
Proof. intros F. exact (@setop_dec_nai F convex_hull). Qed.
Theorem C20_hull_decorated : forall (F : fmt) (x y : ditv F), wf_dec x -> wf_dec y -> snd x <> ill -> snd y <> ill ->
  convex_hull_dec x y = bind (convex_hull (fst x) (fst y)) (fun b => ret (b, trv)).
Proof. intros F. exact (@setop_dec_val F convex_hull). Qed.

(** [1,5] n [3,+oo] = [3,5]; [1,2] n [3,4] = empty; hull([1,2],[4,5]) = [1,5]. *)
Example C20_ex :
  run (intersection (fl binary64 1 0, fl binary64 5 0) (fl binary64 3 0, finf)) = okz (fl binary64 3 0) (fl binary64 5 0)
  /\ run (intersection (fl binary64 1 0, fl binary64 2 0) (fl binary64 3 0, fl binary64 4 0)) = okz (@fnan binary64) fnan
  /\ run (convex_hull (fl binary64 1 0, fl binary64 2 0) (fl binary64 4 0, fl binary64 5 0)) = okz (fl binary64 1 0) (fl binary64 5 0)
  /\ rund (convex_hull_dec ((fl binary64 1 0, fl binary64 2 0), com) ((fl binary64 4 0, fl binary64 5 0), com)) = okd (fl binary64 1 0) (fl binary64 5 0) trv
  /\ wf ((fl binary64 1 0, fl binary64 2 0) : itv binary64)
  /\ wf ((fl binary64 3 0, finf) : itv binary64)
  /\ wf_dec (((fl binary64 1 0, fl binary64 2 0), com) : ditv binary64).
Proof. repeat (split; [first [wf_tac|vm_compute; reflexivity]|]). wf_tac. Qed.
