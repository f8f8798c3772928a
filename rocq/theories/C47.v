(** * C47: evaluating whole expressions (fundamental theorem of decorated interval arithmetic) *)
From Coq Require Import ZArith NArith Reals Bool List PeanoNat Lra.
From Flocq Require Import Core.Core IEEE754.BinarySingleNaN.
From Verif Require Import Fmt Spec Exc Deco SpecApi SpecElem SpecAtan2 SpecDeco SpecTan SpecIso SpecProg PConv MMixed SpecExpr MBase MTrig MDec MExpr PExpr Ex.
From Verif Require C12 C16 C28.
Import ListNotations.
Local Open Scope R_scope.

(** [tan_fine]: no tangent is applied to an interval whose pole it cannot see ([pole_hidden]); for such an
    operand the tangent itself is wrong (C12) and so may be the claims (last theorem of this part).
    All expressions without tangents meet it ([C47_no_tan]), and so do those whose tangents work in
    binary32 or binary80 ([C47_tan_types]). *)
(** ** Bare evaluation encloses the values of the expression *)
Theorem C47_bare_partial : forall (vf : nat -> fmt) (X : ienv vf) (F : fmt) (e : expr vf F),
  (forall i, occurs i e = true -> wf (X i)) -> typed e ->
  tan_fine (fun F a z => returns (beval X a) z) e ->
  exists z, returns (beval X e) z /\ wf z /\ forall p, in_box e X p -> dom p e -> mem (val p e) z.
Proof. exact (fun vf X F e => bare_ok X e). Qed.
Print Assumptions C47_bare_partial.

(** ** Decorated evaluation: same interval, and a decoration that tells the truth about the whole expression *)
Theorem C47_decorated_partial : forall (vf : nat -> fmt) (I : denv vf) (F : fmt) (e : expr vf F),
  (forall i, occurs i e = true -> proper (I i)) -> typed e ->
  tan_fine (fun F a z => returns (beval (parts I) a) z) e ->
  exists z, returns (deval I e) z /\ proper z /\ returns (beval (parts I) e) (fst z) /\
    (forall i, occurs i e = true -> (snd z <= snd (I i))%N) /\
    (forall p, in_box e (parts I) p -> dom p e -> mem (val p e) (fst z)) /\
    honest near_env (in_box e (parts I)) (fun p => dom p e) (bounded_box e (parts I)) (fun p => val p e) (fst z) (snd z).
Proof. exact (fun vf I F e => decorated_ok I e). Qed.
Print Assumptions C47_decorated_partial.

(** Expressions without tangents meet the condition on tangents, whatever the variables. *)
Theorem C47_no_tan : forall (vf : nat -> fmt) (ev : forall F, expr vf F -> itv F -> Prop) (F : fmt) (e : expr vf F), no_tan e -> tan_fine ev e.
Proof. exact (fun vf ev F e => no_tan_fine ev e). Qed.
Print Assumptions C47_no_tan.

(** Neither is there a restriction if the tangents work in binary32 or binary80, whatever else the
    expression does. *)
Theorem C47_tan_types : forall (vf : nat -> fmt) (X : ienv vf) (F : fmt) (e : expr vf F),
  (forall i, occurs i e = true -> wf (X i)) -> typed e -> tan_types (fun G => G = binary32 \/ G = binary80) e ->
  tan_fine (fun F a z => returns (beval X a) z) e.
Proof. exact (fun vf X F e => tan_types_fine X e). Qed.
Print Assumptions C47_tan_types.

(** With a tangent of binary64 on an interval as wide as the number below pi it fails:
    the decoration promises that the expression is defined on the box; it is not. *)
Theorem C47_tan_binary64_refuted : exists (I : denv (fun _ => binary64)) (e : expr (fun _ => binary64) binary64) z p,
  (forall i, proper (I i)) /\ typed e /\ returns (deval I e) z /\ (def <= snd z)%N /\ in_box e (parts I) p /\ ~ dom p e.
Proof.
destruct C16.C16_tan_binary64_refuted as (x & z & r & H1 & H2 & H3 & H4 & H5 & H6 & H7).
exists (fun _ => x), (Un u_tan (@Var (fun _ => binary64) 0)), z, (fun _ => r). split; [now split|]. split; [easy|]. split; [exact H4|]. split; [easy|].
split; [now intros i _|]. cbn. tauto.
Qed.
Print Assumptions C47_tan_binary64_refuted.

(** ** Every evaluation of valid variables returns a valid result; it is NaI if and only if a variable of the expression is *)
Theorem C47_nai : forall (vf : nat -> fmt) (I : denv vf) (F : fmt) (e : expr vf F),
  (forall i, occurs i e = true -> valid_dec (I i)) -> typed e ->
  exists z, returns (deval I e) z /\ valid_dec z /\ (snd z = ill <-> exists i, occurs i e = true /\ snd (I i) = ill).
Proof. exact (fun vf I F e => nai_ok I e). Qed.
Print Assumptions C47_nai.

(** ** Larger operands never lose points of the result *)
Theorem C47_bare_isotonic_partial : forall (vf : nat -> fmt) (X X' : ienv vf) (F : fmt) (e : expr vf F),
  (forall i, occurs i e = true -> wf (X i) /\ wf (X' i) /\ included (X i) (X' i)) -> typed e ->
  tan_fine (fun F a z => returns (beval X' a) z) e ->
  exists z z', returns (beval X e) z /\ returns (beval X' e) z' /\ included z z'.
Proof. exact (fun vf X X' F e => bare_iso X X' e). Qed.
Print Assumptions C47_bare_isotonic_partial.
Theorem C47_decorated_isotonic_partial : forall (vf : nat -> fmt) (I I' : denv vf) (F : fmt) (e : expr vf F),
  (forall i, occurs i e = true -> proper (I i) /\ proper (I' i) /\ included (fst (I i)) (fst (I' i))) -> typed e ->
  tan_fine (fun F a z => returns (beval (parts I') a) z) e ->
  exists z z', returns (deval I e) z /\ returns (deval I' e) z' /\ included (fst z) (fst z').
Proof. exact (fun vf I I' F e => decorated_iso I I' e). Qed.
Print Assumptions C47_decorated_isotonic_partial.

(** ** Examples *)
Notation b n e := (fl binary64 n e).
Notation s n e := (fl binary32 n e).
(** Variables 0 (binary64) and 1 (binary32): sqrt (x * x - y) taken in binary32, over [2,3] x [1,3] and
    over [1,2] x [1,3], where it is not defined everywhere. *)
Definition ex_vf (i : nat) : fmt := match i with 0%nat => binary64 | _ => binary32 end.
Definition ex_e : expr ex_vf binary32 := MUn binary32 u_sqrt (MBin binary64 b_sub (Bin b_mul (@Var ex_vf 0) (@Var ex_vf 0)) (@Var ex_vf 1)).
Definition ex_I (l u : Z) : denv ex_vf := fun i => match i return ditv (ex_vf i) with 0%nat => ((b l 0, b u 0), com) | _ => ((s 1 0, s 3 0), com) end.
Example C47_ex :
  rund (deval (ex_I 2 3) ex_e) = okd (s 1 0) (s 11863284 (-22)) com
  /\ rund (deval (ex_I 1 2) ex_e) = okd (fneg (s 0 0)) (s 14529496 (-23)) trv
  /\ (forall i, occurs i ex_e = true -> proper (ex_I 2 3 i)) /\ typed ex_e /\ no_tan ex_e
  /\ (forall i, occurs i ex_e = true -> proper (ex_I 1 2 i))
  /\ dom (fun _ => 1) ex_e /\ ~ dom (fun i => match i with 0%nat => 1 | _ => 2 end) ex_e.
Proof.
split; [vm_compute; reflexivity|]. split; [vm_compute; reflexivity|].
assert (W : forall l u i, wf_dec ((b l 0, b u 0), com) -> proper (ex_I l u i)).
{ intros l u i W. split; [|split; [destruct i; cbn; unfold is_deco; cbn; tauto|now destruct i]]. destruct i; cbn; [easy|wf_tac]. }
split; [intros i _; apply W; wf_tac|].
assert (C : comparable binary32 binary64) by (apply C28.C28_formats; simpl; auto).
assert (C' : comparable binary64 binary32) by (apply C28.C28_formats; simpl; auto).
split. { cbn. repeat split; try easy. now left. }
split; [cbn; easy|]. split; [intros i _; apply W; wf_tac|].
cbn. split; [repeat split; lra|]. intros [_ H]. lra.
Qed.
(** Tangent: tan x over [0,1] in binary64. *)
Definition ex_tan : expr (fun _ => binary64) binary64 := Bin b_add (Un u_tan (@Var (fun _ => binary64) 0)) (@Var (fun _ => binary64) 0).
Example C47_ex_tan : let X := (fun _ => (b 0 0, b 1 0)) : ienv (fun _ => binary64) in
  (forall i, occurs i ex_tan = true -> wf (X i)) /\ typed ex_tan /\ tan_fine (fun F a z => returns (beval X a) z) ex_tan /\
  in_box ex_tan X (fun _ => 1) /\ dom (fun _ => 1) ex_tan.
Proof.
intros X. split; [intros i _; wf_tac|]. split; [easy|]. split.
- cbn. split; [|easy]. split; [easy|]. intros _ z Hz.
  specialize (Hz (Est 0 0)). cbn in Hz. injection Hz as <-. apply C12.C12_no_hidden; [wf_tac|]. right. right. left. split; [easy|]. intros _. cbn [fst snd X].
  assert (B1 : B2R (b 1 0) = 1) by b2r. assert (B0 : B2R (b 0 0) = 0) by b2r. rewrite B1, B0. lra.
- split. { intros i _. apply mem_pt; [reflexivity..|]. assert (B1 : B2R (b 1 0) = 1) by b2r. assert (B0 : B2R (b 0 0) = 0) by b2r. rewrite B1, B0. lra. }
  cbn. split; [|easy]. split; [easy|]. apply Rgt_not_eq. apply cos_gt_0; pose proof PI2_1; lra.
Qed.
(** The same with the tangent taken in binary32, for all intervals. *)
Example C47_ex_tan32 : let e := Bin b_add (MUn binary32 u_tan (@Var (fun _ => binary32) 0)) (@Var (fun _ => binary32) 0) in
  typed e /\ tan_types (fun G => G = binary32 \/ G = binary80) e /\ ~ no_tan e.
Proof.
cbn. split; [|split].
- split; [|easy]. split; [easy|]. apply C28.C28_formats; simpl; auto.
- split; [|easy]. split; [easy|]. now left.
- intros [[_ H] _]. now apply H.
Qed.
