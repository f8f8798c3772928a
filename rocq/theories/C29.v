(** * C29: conversion between bound types *)
From Coq Require Import ZArith NArith Reals Bool Lra.
From Flocq Require Import Core.Core IEEE754.BinarySingleNaN.
From Verif Require Import Fmt Spec Exc Deco SpecApi MBase PBase PConv PClass Ex.

Local Open Scope R_scope.

Theorem C29_convert_type_tightest : forall (F G : fmt) (x : itv F), wf x ->
  computes_tightest (convert_type G x) (fun r => mem r x).
Proof. intros F G x. exact (convert_type_tightest G x). Qed.
Print Assumptions C29_convert_type_tightest.

(** Widening is exact. *)
Theorem C29_convert_wider_exact : forall (F G : fmt) (x : itv F), within F G -> wf x ->
  forall r, mem r (convert_hull G x) <-> mem r x.
Proof. intros F G x. exact (convert_hull_exact G x). Qed.
Print Assumptions C29_convert_wider_exact.

(** Decorated: same hull, decoration unchanged except com -> dac on overflow. *)
Theorem C29_convert_decorated : forall (F G : fmt) (x : ditv F), wf_dec x -> snd x <> ill ->
  exists z d, returns (convert_type_dec G x) (z, d) /\ tightest (fun r => mem r (fst x)) z /\ wf_dec (z, d) /\
    (d = snd x \/ (snd x = com /\ d = dac)) /\ (d <> snd x -> ~ bounded_rep z).
Proof. intros F G x. exact (convert_type_dec_ok G x). Qed.
Print Assumptions C29_convert_decorated.
Theorem C29_convert_nai : forall (F G : fmt) (x : ditv F), wf_dec x -> snd x = ill ->
  convert_type_dec G x = ret (empty_rep, ill).
Proof. intros F G x. exact (convert_type_dec_nai G x). Qed.
Theorem C29_convert_invalid : forall (F G : fmt) (x : itv F), ~ wf x -> reports_invalid (convert_type G x) empty_rep.
Proof. intros F G x. exact (convert_type_invalid G x). Qed.
Theorem C29_convert_decorated_invalid : forall (F G : fmt) (x : ditv F), ~ wf_dec x ->
  reports_invalid (convert_type_dec G x) (empty_rep, ill).
Proof. intros F G x. exact (convert_type_dec_invalid G x). Qed.

(** double [0.1, 2^1000]com to float: [RD 0.1, +oo]dac; to long double: exact, com. *)
Example C29_ex :
  rund (convert_type_dec binary32 ((fl binary64 7205759403792794 (-56), fl binary64 1 1000), com))
    = okd (fl binary32 13421772 (-27)) (@finf binary32) dac
  /\ rund (convert_type_dec binary80 ((fl binary64 7205759403792794 (-56), fl binary64 1 1000), com))
    = okd (fl binary80 7205759403792794 (-56)) (fl binary80 1 1000) com
  /\ within binary64 binary80
  /\ wf_dec (((fl binary64 7205759403792794 (-56), fl binary64 1 1000), com) : ditv binary64).
Proof. split; [vm_compute; reflexivity|]. split; [vm_compute; reflexivity|]. split; [|wf_tac]. now split; vm_compute. Qed.
