(** * C55: floating-point evaluation stays inside the interval evaluation

    Claimed: if the variables of an expression are numbers out of the intervals, then the numbers
    that ordinary floating-point arithmetic computes -- every operation and every function rounded
    in some way to the type of the result, upwards, downwards, to nearest or differently each time --
    lie in the interval that the library computes for the expression.  Moreover the decoration guards
    the floating-point program: [def] or better says that no function is ever applied outside of its
    domain, whatever the roundings, [com] that no result overflows, so that there is a result.  The
    width of the interval bounds the distance of the computed numbers from the exact value.
    As in C47, where a tangent is applied its operand must not hide a pole; for the rest without
    restriction.  (A rounding is faithful if it never passes a number of the type.) *)
From Coq Require Import ZArith NArith Reals Bool Lra Lia List.
From Flocq Require Import Core.Core IEEE754.BinarySingleNaN.
From Verif Require Import Fmt Spec FloatFacts Exc Deco SpecApi SpecDeco SpecIso SpecTan2 SpecExpr SpecFp MBase PBase PConv MNum MExpr Ex PIso PExpr PFp.
From Verif Require Import MRead MClass SpecClass MStep SpecStep SpecFpStep PStep2 PFpStep.
From Verif Require C28 C47 C51.
Import ListNotations.
Local Open Scope R_scope.

(** ** The results of IEEE 754 arithmetic are faithful, in every rounding mode *)
Theorem C55_add : forall (F : fmt) m (x y : float F), is_finite x = true -> is_finite y = true ->
  is_finite (Bplus m x y) = true -> faithful (B2R x + B2R y) (Bplus m x y).
Proof. exact @hw_add. Qed.
Print Assumptions C55_add.
Theorem C55_sub : forall (F : fmt) m (x y : float F), is_finite x = true -> is_finite y = true ->
  is_finite (Bminus m x y) = true -> faithful (B2R x - B2R y) (Bminus m x y).
Proof. exact @hw_sub. Qed.
Print Assumptions C55_sub.
Theorem C55_mul : forall (F : fmt) m (x y : float F), is_finite x = true -> is_finite y = true ->
  is_finite (Bmult m x y) = true -> faithful (B2R x * B2R y) (Bmult m x y).
Proof. exact @hw_mul. Qed.
Print Assumptions C55_mul.
Theorem C55_div : forall (F : fmt) m (x y : float F), is_finite x = true -> is_finite y = true -> B2R y <> 0 ->
  is_finite (Bdiv m x y) = true -> faithful (B2R x / B2R y) (Bdiv m x y).
Proof. exact @hw_div. Qed.
Print Assumptions C55_div.
Theorem C55_fma : forall (F : fmt) m (x y z : float F), is_finite x = true -> is_finite y = true -> is_finite z = true ->
  is_finite (Bfma m x y z) = true -> faithful (B2R x * B2R y + B2R z) (Bfma m x y z).
Proof. exact @hw_fma. Qed.
Print Assumptions C55_fma.
Theorem C55_sqrt : forall (F : fmt) m (x : float F), is_finite x = true -> 0 <= B2R x ->
  is_finite (Bsqrt m x) = true -> faithful (R_sqrt.sqrt (B2R x)) (Bsqrt m x).
Proof. exact @hw_sqrt. Qed.
Print Assumptions C55_sqrt.
(** So is every correctly rounded function value, and it is finite if the value is in range. *)
Theorem C55_rounding : forall (F : fmt) m r (f : float F), rnds m r f ->
  (is_finite f = true -> faithful r f) /\ (in_range F r -> is_finite f = true).
Proof. intros F m r f H. split; [exact (round_faithful m r f H)|intros K; apply (range_round m r f K H)]. Qed.
Print Assumptions C55_rounding.

(** ** Inside *)
Theorem C55_bare_partial : forall (vf : nat -> fmt) (X : ienv vf) (p : fenv vf) (F : fmt) (e : expr vf F),
  (forall i, occurs i e = true -> wf (X i)) -> typed e ->
  tan_fine (fun F a z => returns (beval X a) z) e ->
  (forall i, occurs i e = true -> mem (B2R (p i)) (X i)) ->
  exists z, returns (beval X e) z /\ forall v, feval p e v -> mem (B2R v) z.
Proof. exact (fun vf X p F e => fp_bare X p e). Qed.
Print Assumptions C55_bare_partial.
Theorem C55_decorated_partial : forall (vf : nat -> fmt) (I : denv vf) (p : fenv vf) (F : fmt) (e : expr vf F),
  (forall i, occurs i e = true -> proper (I i)) -> typed e ->
  tan_fine (fun F a z => returns (beval (parts I) a) z) e ->
  (forall i, occurs i e = true -> mem (B2R (p i)) (parts I i)) ->
  exists z, returns (deval I e) z /\ (forall v, feval p e v -> mem (B2R v) (fst z)) /\
    ((def <= snd z)%N -> never_invalid p e) /\ ((com <= snd z)%N -> never_overflow p e /\ exists v, feval p e v).
Proof. exact (fun vf I p F e => fp_deco I p e). Qed.
Print Assumptions C55_decorated_partial.
(** Without tangents, or with tangents of binary32 and binary80 only, nothing is assumed. *)
Theorem C55_no_tan : forall (vf : nat -> fmt) (I : denv vf) (p : fenv vf) (F : fmt) (e : expr vf F),
  (forall i, occurs i e = true -> proper (I i)) -> typed e -> no_tan e ->
  (forall i, occurs i e = true -> mem (B2R (p i)) (parts I i)) ->
  exists z, returns (deval I e) z /\ (forall v, feval p e v -> mem (B2R v) (fst z)) /\
    ((def <= snd z)%N -> never_invalid p e) /\ ((com <= snd z)%N -> never_overflow p e /\ exists v, feval p e v).
Proof. exact (fun vf I p F e H1 H2 H3 => fp_deco I p e H1 H2 (C47.C47_no_tan _ _ _ _ H3)). Qed.
Print Assumptions C55_no_tan.
Theorem C55_tan_types : forall (vf : nat -> fmt) (I : denv vf) (p : fenv vf) (F : fmt) (e : expr vf F),
  (forall i, occurs i e = true -> proper (I i)) -> typed e -> tan_types (fun G => G = binary32 \/ G = binary80) e ->
  (forall i, occurs i e = true -> mem (B2R (p i)) (parts I i)) ->
  exists z, returns (deval I e) z /\ (forall v, feval p e v -> mem (B2R v) (fst z)) /\
    ((def <= snd z)%N -> never_invalid p e) /\ ((com <= snd z)%N -> never_overflow p e /\ exists v, feval p e v).
Proof. exact (fun vf I p F e H1 H2 H3 => fp_deco I p e H1 H2 (C47.C47_tan_types _ _ _ _ (fun i O => proper_wf _ (H1 i O)) H2 H3)). Qed.
Print Assumptions C55_tan_types.
(** Computed numbers are finite. *)
Theorem C55_finite : forall (vf : nat -> fmt) (p : fenv vf) (F : fmt) (e : expr vf F) v,
  (forall i, occurs i e = true -> is_finite (p i) = true) -> feval p e v -> is_finite v = true.
Proof. exact (fun vf p F e v => fp_finite p e v). Qed.
Print Assumptions C55_finite.

(** ** Rounding errors are bounded by the width *)
Theorem C55_error_partial : forall (vf : nat -> fmt) (X : ienv vf) (p : fenv vf) (F : fmt) (e : expr vf F),
  (forall i, occurs i e = true -> wf (X i)) -> typed e ->
  tan_fine (fun F a z => returns (beval X a) z) e ->
  (forall i, occurs i e = true -> mem (B2R (p i)) (X i)) -> (exists v, feval p e v) ->
  exists z w, returns (beval X e) z /\ returns (n_wid z) w /\
    forall v, feval p e v -> dom (fun i => B2R (p i)) e -> ub w (Rabs (B2R v - val (fun i => B2R (p i)) e)).
Proof. exact (fun vf X p F e => fp_error X p e). Qed.
Print Assumptions C55_error_partial.

(** ** Programs of assignments
    A floating-point program that takes the path of the interval program (C51) stays inside, object by object;
    the decoration of an object at the end guards all computations that flow into it. *)
Theorem C55_program_bare_partial : forall (vf : nat -> fmt) may p s s', exec may (@bare_cmd vf p) s (Normal s') ->
  all_expr (@typed vf) p -> good_store (objs s) ->
  exists tr, C51.bare_way s p tr (env s') /\ (fine_way (objs s) tr ->
    forall x y, (forall i, mem (B2R (x i)) (objs s i)) -> frun tr x y -> forall i, mem (B2R (y i)) (objs s' i)).
Proof.
intros vf may p s s' X T G. destruct (C51.C51_bare_exact vf may p s s' X T G) as (tr & A & B). exists tr. split; [exact A|]. intros S.
exact (proj2 (bare_fine p tr (objs s) (objs s') (guided_path _ _ _ _ _ _ A) T G S B)).
Qed.
Print Assumptions C55_program_bare_partial.
Theorem C55_program_decorated_partial : forall (vf : nat -> fmt) may p s s', exec may (@deco_cmd vf p) s (Normal s') ->
  all_expr (@typed vf) p -> good_store (objs s) -> (forall i, proper (objs s i)) ->
  exists tr, C51.deco_way s p tr (env s') /\ (fine_way (parts (objs s)) tr ->
    forall x, (forall j, mem (B2R (x j)) (fst (objs s j))) -> forall i,
    (forall y, frun tr x y -> mem (B2R (y i)) (fst (objs s' i))) /\
    ((def <= snd (objs s' i))%N -> never_invalid x (inline tr i)) /\ ((com <= snd (objs s' i))%N -> never_overflow x (inline tr i))).
Proof.
intros vf may p s s' X T G B. destruct (C51.C51_decorated_exact vf may p s s' X T G) as (tr & A & C). exists tr. split; [exact A|].
intros S x Mx i. destruct (deco_fine p tr (objs s) (objs s') (guided_path _ _ _ _ _ _ A) T B S C i) as (_ & _ & C3). exact (C3 x Mx).
Qed.
Print Assumptions C55_program_decorated_partial.
(** What the run computes, the expressions of C51 may compute too: the guards above cover all runs. *)
Theorem C55_run_inline : forall (vf : nat -> fmt) (tr : list (asg vf)) x y, frun tr x y -> forall i, feval x (inline tr i) (y i).
Proof. intros vf tr x y R. exact (frun_inline tr x y R (fun i => Var i) x (fun i => eq_refl)). Qed.
Print Assumptions C55_run_inline.

(** The guard is needed: with [trv] the same program may compute a number although the function is not
    defined, or get an invalid operand. *)
Theorem C55_guard_needed : exists (I : denv (fun _ => binary64)) (p : fenv (fun _ => binary64)) (e : expr (fun _ => binary64) binary64) z,
  (forall i, proper (I i)) /\ (forall i, mem (B2R (p i)) (parts I i)) /\ typed e /\ no_tan e /\
  returns (deval I e) z /\ snd z = trv /\ ~ never_invalid p e /\ ~ (exists v, feval p e v).
Proof. exact fp_trv. Qed.
Print Assumptions C55_guard_needed.

(** ** Examples *)
Notation b n e := (fl binary64 n e).
(** 1 / x - x at x = 3, over [2,4]: evaluated to nearest in both steps. *)
Definition ex_e : expr (fun _ => binary64) binary64 := Bin b_sub (Un u_recip (@Var (fun _ => binary64) 0)) (@Var (fun _ => binary64) 0).
Definition ex_I : denv (fun _ => binary64) := fun _ => ((b 2 0, b 4 0), com).
Definition ex_p : fenv (fun _ => binary64) := fun _ => b 3 0.
Definition ex_v : float binary64 := Bminus mode_NE (Bdiv mode_NE (b 1 0) (b 3 0)) (b 3 0).
Example C55_ex : (forall i, occurs i ex_e = true -> proper (ex_I i)) /\ typed ex_e /\ no_tan ex_e /\
  (forall i, occurs i ex_e = true -> mem (B2R (ex_p i)) (parts ex_I i)) /\ feval ex_p ex_e ex_v /\
  rund (deval ex_I ex_e) = okd (b (-15) (-2)) (b (-3) (-1)) com.
Proof.
assert (B1 : B2R (b 1 0) = 1) by b2r. assert (B2 : B2R (b 2 0) = 2) by b2r. assert (B3 : B2R (b 3 0) = 3) by b2r. assert (B4 : B2R (b 4 0) = 4) by b2r.
split; [intros i _; split; [wf_tac|split; [unfold is_deco; simpl; tauto|easy]]|]. split; [easy|]. split; [cbn; easy|].
split; [intros i _; apply mem_pt; [reflexivity..|]; unfold ex_I, ex_p; cbn [fst snd]; lra|]. split; [|vm_compute; reflexivity].
exists (Bdiv mode_NE (b 1 0) (b 3 0)), (b 3 0). split.
- exists (b 3 0). split; [easy|]. split; [change (B2R (b 3 0) <> 0); rewrite B3; lra|]. cbn [un_val]. replace (/ B2R (b 3 0)) with (B2R (b 1 0) / B2R (b 3 0)) by (rewrite B1; unfold Rdiv; ring).
  apply C55_div; [reflexivity|reflexivity|rewrite B3; lra|vm_compute; reflexivity].
- split; [easy|]. split; [easy|]. cbn [bin_val]. apply C55_sub; vm_compute; reflexivity.
Qed.

(** A program: [x0 = 1 / x0; x0 = x0 - x1] run on (3, 3) over [2,4]. *)
Definition ex_prog : prog (fun _ => binary64) (store (deco_vars (fun _ => binary64)) -> M bool) :=
  Then (@Let (fun _ => binary64) _ 0 (Un u_recip (@Var (fun _ => binary64) 0)) 1)
    (@Let (fun _ => binary64) _ 0 (Bin b_sub (@Var (fun _ => binary64) 0) (@Var (fun _ => binary64) 1)) 0).
Definition ex_path : list (asg (fun _ => binary64)) :=
  [@Asg (fun _ => binary64) 0 (Un u_recip (@Var (fun _ => binary64) 0)); @Asg (fun _ => binary64) 0 (Bin b_sub (@Var (fun _ => binary64) 0) (@Var (fun _ => binary64) 1))].
Example C55_ex_program : all_expr (@typed _) ex_prog /\ all_expr (@safe_tan _) ex_prog /\ path ex_prog ex_path /\ frun ex_path ex_p (setF (setF ex_p 0 (Bdiv mode_NE (b 1 0) (b 3 0))) 0 ex_v).
Proof.
assert (B1 : B2R (b 1 0) = 1) by b2r. assert (B3 : B2R (b 3 0) = 3) by b2r.
split; [cbn; tauto|]. split; [cbn; repeat split; discriminate|].
split; [apply (p_then (Q := store (deco_vars (fun _ => binary64)) -> M bool) _ _ [_] [_]); constructor|].
apply (fr_cons (@Asg (fun _ => binary64) 0 _) _ _ (Bdiv mode_NE (b 1 0) (b 3 0))).
- exists (b 3 0). split; [easy|]. split; [change (B2R (b 3 0) <> 0); rewrite B3; lra|]. cbn [un_val]. replace (/ B2R (b 3 0)) with (B2R (b 1 0) / B2R (b 3 0)) by (rewrite B1; unfold Rdiv; ring).
  apply C55_div; [reflexivity|reflexivity|rewrite B3; lra|vm_compute; reflexivity].
- apply (fr_cons (@Asg (fun _ => binary64) 0 _) _ _ ex_v); [|constructor]. exists (Bdiv mode_NE (b 1 0) (b 3 0)), (b 3 0). split; [easy|].
  split; [easy|]. split; [easy|]. cbn [bin_val]. apply C55_sub; vm_compute; reflexivity.
Qed.
