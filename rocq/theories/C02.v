(** * C02: numeric constructors *)
From Coq Require Import ZArith NArith Reals Bool Lra.
From Flocq Require Import Core.Core IEEE754.BinarySingleNaN.
From Verif Require Import Fmt Spec Exc Deco SpecApi MBase PBase PConv PClass Ex.

Local Open Scope R_scope.

(** ** Same type: the bounds are kept, anything that is not an interval is reported. *)
Theorem C02_nums_to_interval : forall (F : fmt) (l u : float F),
  (exists r, mem r (l, u)) -> nums_to_interval l u = ret (l, u).
Proof. exact @nums_ok. Qed.
Print Assumptions C02_nums_to_interval.
Theorem C02_nums_to_interval_undefined : forall (F : fmt) (l u : float F),
  ~ (exists r, mem r (l, u)) -> reports_undefined (nums_to_interval l u) empty_rep.
Proof. exact @nums_bad. Qed.
Print Assumptions C02_nums_to_interval_undefined.
Theorem C02_nums_to_decorated_interval : forall (F : fmt) (l u : float F), (exists r, mem r (l, u)) ->
  nums_to_decorated_interval l u = ret ((l, u), if bounded_dec (l, u) then com else dac).
Proof. exact @nums_d_ok. Qed.
Theorem C02_nums_to_decorated_interval_undefined : forall (F : fmt) (l u : float F), ~ (exists r, mem r (l, u)) ->
  reports_undefined (nums_to_decorated_interval l u) (empty_rep, ill).
Proof. exact @nums_d_bad. Qed.
Theorem C02_nums_dec : forall (F : fmt) (l u : float F) (d : deco),
  (exists r, mem r (l, u)) -> valid_deco d -> d <> ill -> (d = com -> bounded_rep (l, u)) ->
  nums_dec_to_decorated_interval l u d = ret ((l, u), d).
Proof. exact @nums_dec_ok. Qed.
Theorem C02_nums_dec_undefined : forall (F : fmt) (l u : float F) (d : deco), valid_deco d ->
  d = ill \/ ~ (exists r, mem r (l, u)) \/ (d = com /\ ~ bounded_rep (l, u)) ->
  reports_undefined (nums_dec_to_decorated_interval l u d) (empty_rep, ill).
Proof. exact @nums_dec_bad. Qed.
Theorem C02_nums_dec_invalid_decoration : forall (F : fmt) (l u : float F) (d : deco), ~ valid_deco d ->
  reports_invalid (nums_dec_to_decorated_interval l u d) (empty_rep, ill).
Proof. exact @nums_dec_bad_deco. Qed.
Print Assumptions C02_nums_dec_invalid_decoration.

(** ** Bounds of other types L, U: tightest interval of the target type T. *)
Theorem C02_mixed : forall (L U T : fmt) (l : float L) (u : float U), comparable L U ->
  (exists r, lb l r /\ ub u r) ->
  computes_tightest (nums_to_interval_mixed T l u) (fun r => lb l r /\ ub u r).
Proof. intros L U T l u C. exact (nums_mixed_ok C T l u). Qed.
Print Assumptions C02_mixed.
Theorem C02_mixed_undefined : forall (L U T : fmt) (l : float L) (u : float U), comparable L U ->
  ~ (exists r, lb l r /\ ub u r) -> reports_undefined (nums_to_interval_mixed T l u) empty_rep.
Proof. intros L U T l u C. exact (nums_mixed_bad C T l u). Qed.
Theorem C02_mixed_decorated : forall (L U T : fmt) (l : float L) (u : float U), comparable L U ->
  (exists r, lb l r /\ ub u r) ->
  exists z, nums_to_decorated_interval_mixed T l u = ret (z, if bounded_dec z then com else dac)
            /\ tightest (fun r => lb l r /\ ub u r) z.
Proof. intros L U T l u C. exact (nums_d_mixed_ok C T l u). Qed.
Theorem C02_mixed_decorated_undefined : forall (L U T : fmt) (l : float L) (u : float U), comparable L U ->
  ~ (exists r, lb l r /\ ub u r) -> reports_undefined (nums_to_decorated_interval_mixed T l u) (empty_rep, ill).
Proof. intros L U T l u C. exact (nums_d_mixed_bad C T l u). Qed.
Theorem C02_mixed_dec : forall (L U T : fmt) (l : float L) (u : float U) (d : deco), comparable L U ->
  (exists r, lb l r /\ ub u r) -> valid_deco d -> d <> ill ->
  (d = com -> is_finite l = true /\ is_finite u = true) ->
  exists z, nums_dec_to_decorated_interval_mixed T l u d = ret (z, if bounded_dec z then d else dmin d dac)
            /\ tightest (fun r => lb l r /\ ub u r) z.
Proof. intros L U T l u d C. exact (nums_dec_mixed_ok C T l u d). Qed.
Print Assumptions C02_mixed_dec.
Theorem C02_mixed_dec_undefined : forall (L U T : fmt) (l : float L) (u : float U) (d : deco), comparable L U ->
  valid_deco d ->
  d = ill \/ ~ (exists r, lb l r /\ ub u r) \/ (d = com /\ ~ (is_finite l = true /\ is_finite u = true)) ->
  reports_undefined (nums_dec_to_decorated_interval_mixed T l u d) (empty_rep, ill).
Proof. intros L U T l u d C. exact (nums_dec_mixed_bad C T l u d). Qed.
Theorem C02_mixed_dec_invalid_decoration : forall (L U T : fmt) (l : float L) (u : float U) (d : deco),
  ~ valid_deco d -> reports_invalid (nums_dec_to_decorated_interval_mixed T l u d) (empty_rep, ill).
Proof. intros L U T l u d. exact (nums_dec_mixed_bad_deco T l u d). Qed.

(** double 0.1 .. 1e300 into float: [largest float below 0.1, +oo], com becomes dac;
    (2,1), (NaN,1) and (+oo,+oo) are reported. *)
Example C02_ex :
  run (nums_to_interval_mixed binary32 (fl binary64 7205759403792794 (-56)) (fl binary64 1 1000))
    = okz (fl binary32 13421772 (-27)) (@finf binary32)
  /\ rund (nums_dec_to_decorated_interval_mixed binary32 (fl binary64 1 0) (fl binary64 1 1000) com)
    = okd (fl binary32 1 0) (@finf binary32) dac
  /\ run (nums_to_interval (fl binary64 2 0) (fl binary64 1 0)) = (Ret (B2SF (@fnan binary64), B2SF (@fnan binary64)), Est 1 0)
  /\ run (nums_to_interval fnan (fl binary64 1 0)) = (Ret (B2SF (@fnan binary64), B2SF (@fnan binary64)), Est 1 0)
  /\ run (nums_to_interval (@finf binary64) finf) = (Ret (B2SF (@fnan binary64), B2SF (@fnan binary64)), Est 1 0)
  /\ rund (nums_dec_to_decorated_interval (fl binary64 1 0) finf com) = (Ret ((B2SF (@fnan binary64), B2SF (@fnan binary64)), ill), Est 1 0)
  /\ rund (nums_dec_to_decorated_interval (fl binary64 1 0) finf 7%N) = (Ret ((B2SF (@fnan binary64), B2SF (@fnan binary64)), ill), Est 8 0).
Proof. vm_compute. repeat split. Qed.
Example C02_ex_hyp : (exists r, mem r (fl binary64 1 0, @finf binary64)) /\ valid_deco com /\ ~ valid_deco 7%N.
Proof.
split; [|split; [unfold valid_deco; tauto|intros [H|[H|[H|[H|H]]]]; discriminate]].
exists 1. split; [|easy]. vm_compute. lra.
Qed.
