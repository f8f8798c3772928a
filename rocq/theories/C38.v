(** * C38: decorating and undecorating *)
From Coq Require Import ZArith NArith Reals Bool Lra.
From Flocq Require Import Core.Core IEEE754.BinarySingleNaN.
From Verif Require Import Fmt Spec Exc Deco SpecApi MBase PBase PConv PClass Ex.

Local Open Scope R_scope.

Theorem C38_new_dec : forall (F : fmt) (x : itv F), (exists r, mem r x) ->
  new_dec x = ret (x, if bounded_dec x then com else dac).
Proof. exact @new_dec_nonempty. Qed.
Print Assumptions C38_new_dec.
Theorem C38_new_dec_empty : forall F : fmt, new_dec (@empty_rep F) = ret (empty_rep, trv).
Proof. exact @new_dec_empty. Qed.

Theorem C38_set_dec : forall (F : fmt) (x : itv F) (d : deco), (exists r, mem r x) -> valid_deco d -> d <> ill ->
  set_dec x d = ret (x, if bounded_dec x then d else dmin d dac).
Proof. exact @set_dec_nonempty. Qed.
Print Assumptions C38_set_dec.
Theorem C38_set_dec_empty : forall (F : fmt) (d : deco), valid_deco d -> d <> ill ->
  set_dec (@empty_rep F) d = ret (empty_rep, trv).
Proof. exact @set_dec_empty. Qed.
Theorem C38_set_dec_ill : forall (F : fmt) (x : itv F), wf x -> set_dec x ill = ret (empty_rep, ill).
Proof. exact @set_dec_ill. Qed.
Theorem C38_set_dec_invalid_decoration : forall (F : fmt) (x : itv F) (d : deco), ~ valid_deco d ->
  reports_invalid (set_dec x d) (empty_rep, ill).
Proof. exact @set_dec_bad_deco. Qed.

(** Results are valid decorated intervals. *)
Theorem C38_new_dec_valid : forall (F : fmt) (x : itv F), wf x ->
  exists y, new_dec x = ret y /\ wf_dec y /\ fst y = x /\ snd y <> ill.
Proof. exact @new_dec_wf_dec. Qed.
Theorem C38_set_dec_valid : forall (F : fmt) (x : itv F) (d : deco), wf x -> valid_deco d ->
  exists y, set_dec x d = ret y /\ wf_dec y /\ (d <> ill -> fst y = x).
Proof. exact @set_dec_wf_dec. Qed.

(** interval_part undoes both and reports NaI. *)
Theorem C38_new_dec_interval_part : forall (F : fmt) (x : itv F), wf x -> bind (new_dec x) interval_part = ret x.
Proof. exact @new_dec_interval_part. Qed.
Print Assumptions C38_new_dec_interval_part.
Theorem C38_set_dec_interval_part : forall (F : fmt) (x : itv F) (d : deco), wf x -> valid_deco d -> d <> ill ->
  bind (set_dec x d) interval_part = ret x.
Proof. exact @set_dec_interval_part. Qed.
Theorem C38_interval_part : forall (F : fmt) (x : ditv F), wf_dec x -> snd x <> ill -> interval_part x = ret (fst x).
Proof. exact @interval_part_ok. Qed.
Theorem C38_interval_part_nai : forall (F : fmt) (x : ditv F), wf_dec x -> snd x = ill ->
  reports interval_part_of_nai_bit Interval_part_of_nai_exception (interval_part x) empty_rep.
Proof. exact @interval_part_nai. Qed.
Print Assumptions C38_interval_part_nai.
Theorem C38_decoration_part : forall (F : fmt) (x : ditv F), wf_dec x -> decoration_part x = ret (snd x).
Proof. exact @decoration_part_ok. Qed.

(** Mixed-type versions. *)
Theorem C38_interval_part_mixed : forall (F G : fmt) (x : ditv F), wf_dec x -> snd x <> ill ->
  computes_tightest (interval_part_mixed G x) (fun r => mem r (fst x)).
Proof. intros F G x. exact (interval_part_mixed_ok G x). Qed.
Theorem C38_interval_part_mixed_nai : forall (F G : fmt) (x : ditv F), wf_dec x -> snd x = ill ->
  reports interval_part_of_nai_bit Interval_part_of_nai_exception (interval_part_mixed G x) empty_rep.
Proof. intros F G x. exact (interval_part_mixed_nai G x). Qed.
Theorem C38_new_dec_mixed : forall (F G : fmt) (x : itv F), (exists r, mem r x) ->
  exists z, new_dec_mixed G x = ret (z, if bounded_dec z then com else dac) /\ tightest (fun r => mem r x) z.
Proof. intros F G x. exact (new_dec_mixed_ok G x). Qed.
Theorem C38_set_dec_mixed : forall (F G : fmt) (x : itv F) (d : deco), (exists r, mem r x) -> valid_deco d -> d <> ill ->
  exists z, set_dec_mixed G x d = ret (z, demote G z (if bounded_dec x then d else dmin d dac))
            /\ tightest (fun r => mem r x) z.
Proof. intros F G x d. exact (set_dec_mixed_ok G x d). Qed.
Print Assumptions C38_set_dec_mixed.

Example C38_ex :
  rund (new_dec (fl binary64 1 0, finf)) = okd (fl binary64 1 0) finf dac
  /\ rund (new_dec (fl binary64 1 0, fl binary64 2 0)) = okd (fl binary64 1 0) (fl binary64 2 0) com
  /\ rund (set_dec (fl binary64 1 0, finf) com) = okd (fl binary64 1 0) finf dac
  /\ rund (set_dec (fl binary64 1 0, finf) def) = okd (fl binary64 1 0) finf def
  /\ rund (set_dec (@empty binary64) com) = okd (@fnan binary64) fnan trv
  /\ run (interval_part (@nai binary64)) = (Ret (B2SF (@fnan binary64), B2SF (@fnan binary64)), Est 4 0)
  /\ wf ((fl binary64 1 0, finf) : itv binary64) /\ valid_deco def.
Proof. repeat (split; [first [wf_tac|vm_compute; reflexivity]|]). unfold valid_deco; tauto. Qed.
