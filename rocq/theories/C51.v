(** * C51: programs of assignments

    Claimed: a program that assigns expressions of the elementary functions to objects, in
    any order, with objects reused, conditionals and loops decided by the intervals, computes
    enclosures: with exact real arithmetic along the same path, from any point of the initial
    intervals, every variable ends in the interval of its object, provided no function is applied
    outside of its domain.  With decorated intervals the decorations tell the truth about the
    function that the whole path computes.
    True if the tangents work in binary32 or binary80 ([safe_tan]; there may be none),
    refuted with a tangent of binary64 (C12).  Termination of loops and the tests are not part of
    the claim; assignments always return. *)
From Coq Require Import ZArith NArith Reals Bool Lra List.
From Flocq Require Import Core.Core IEEE754.BinarySingleNaN.
From Verif Require Import Fmt Spec Exc Deco SpecApi SpecElem SpecDeco SpecIso SpecProg PConv MMixed SpecExpr MBase MTrig MExpr MRead MClass SpecClass PObj MStep SpecStep PStep PStep2 SpecFp SpecFpStep PFpStep Ex.
From Verif Require C12.
Import ListNotations.
Local Open Scope R_scope.

(** ** The path
    The conditions are evaluated on the values that the objects have then, which are those of
    the expressions substituted so far; conditions may read and change the exception flags,
    nothing else does. *)
Definition bare_way {vf : nat -> fmt} (s : state (bare_vars vf)) p tr f : Prop :=
  guided (fun pre (st : store (bare_vars vf)) => forall i, returns (beval (objs s) (inline pre i)) (st i)) [] (env s) p tr f.
Definition deco_way {vf : nat -> fmt} (s : state (deco_vars vf)) p tr f : Prop :=
  guided (fun pre (st : store (deco_vars vf)) => forall i, returns (deval (objs s) (inline pre i)) (st i)) [] (env s) p tr f.
Theorem C51_way_path : forall (vf : nat -> fmt) (s : state (bare_vars vf)) p tr f, bare_way s p tr f -> path p tr.
Proof. intros vf s p tr f H. exact (guided_path _ _ _ _ _ _ H). Qed.
Print Assumptions C51_way_path.
Theorem C51_way_unique : forall (vf : nat -> fmt) (s : state (bare_vars vf)) p tr f tr' f',
  bare_way s p tr f -> bare_way s p tr' f' -> tr' = tr /\ f' = f.
Proof. intros vf s p tr f tr' f' H K. exact (guided_unique _ (now_b_unique (objs s)) _ _ _ _ _ H _ _ K). Qed.
Print Assumptions C51_way_unique.
Theorem C51_way_unique_dec : forall (vf : nat -> fmt) (s : state (deco_vars vf)) p tr f tr' f',
  deco_way s p tr f -> deco_way s p tr' f' -> tr' = tr /\ f' = f.
Proof. intros vf s p tr f tr' f' H K. exact (guided_unique _ (now_d_unique (objs s)) _ _ _ _ _ H _ _ K). Qed.
Print Assumptions C51_way_unique_dec.

(** ** The final objects are the values of one expression each, of the initial ones *)
Theorem C51_bare_exact : forall (vf : nat -> fmt) may p s s', exec may (@bare_cmd vf p) s (Normal s') ->
  all_expr (@typed vf) p -> good_store (objs s) ->
  exists tr, bare_way s p tr (env s') /\ forall i, returns (beval (objs s) (inline tr i)) (objs s' i).
Proof.
intros vf may p s s' X T G. apply (bare_guided _ _ _ _ X p s' (objs s) [] eq_refl eq_refl T G).
intros i. now intros f.
Qed.
Print Assumptions C51_bare_exact.
Theorem C51_decorated_exact : forall (vf : nat -> fmt) may p s s', exec may (@deco_cmd vf p) s (Normal s') ->
  all_expr (@typed vf) p -> good_store (objs s) ->
  exists tr, deco_way s p tr (env s') /\ forall i, returns (deval (objs s) (inline tr i)) (objs s' i).
Proof.
intros vf may p s s' X T G. apply (deco_guided _ _ _ _ X p s' (objs s) [] eq_refl eq_refl T G).
intros i. now intros f.
Qed.
Print Assumptions C51_decorated_exact.
(** Conversely the program runs along the selected path, if there is one. *)
Theorem C51_bare_runs : forall (vf : nat -> fmt) p s tr f, bare_way s p tr f -> all_expr (@typed vf) p -> good_store (objs s) ->
  exists s', exec careful (@bare_cmd vf p) s (Normal s') /\ env s' = f /\ inp s' = inp s /\ forall i, returns (beval (objs s) (inline tr i)) (objs s' i).
Proof. intros vf p s tr f H T G. apply (guided_bare (objs s) [] (env s) p tr f H T s eq_refl G). intros i. now intros g. Qed.
Print Assumptions C51_bare_runs.
Theorem C51_decorated_runs : forall (vf : nat -> fmt) p s tr f, deco_way s p tr f -> all_expr (@typed vf) p -> good_store (objs s) ->
  exists s', exec careful (@deco_cmd vf p) s (Normal s') /\ env s' = f /\ inp s' = inp s /\ forall i, returns (deval (objs s) (inline tr i)) (objs s' i).
Proof. intros vf p s tr f H T G. apply (guided_deco (objs s) [] (env s) p tr f H T s eq_refl G). intros i. now intros g. Qed.
Print Assumptions C51_decorated_runs.
Theorem C51_inline : forall (vf : nat -> fmt) (tr : list (asg vf)) x i,
  val x (inline tr i) = rrun tr x i /\ (rdef tr x -> dom x (inline tr i)).
Proof. intros vf tr x i. split; [exact (inline_val _ tr x i)|]. intros D. apply inline_dom; [easy|exact D]. Qed.
Print Assumptions C51_inline.

(** ** Enclosure *)
Theorem C51_bare_partial : forall (vf : nat -> fmt) may p s s', exec may (@bare_cmd vf p) s (Normal s') ->
  all_expr (@typed vf) p -> all_expr (@safe_tan vf) p -> good_store (objs s) ->
  exists tr, bare_way s p tr (env s') /\ forall x, (forall i, mem (x i) (objs s i)) -> rdef tr x -> forall i, mem (rrun tr x i) (objs s' i).
Proof.
intros vf may p s s' X T S G. destruct (C51_bare_exact vf may p s s' X T G) as (tr & A & B). exists tr. split; [exact A|].
exact (bare_along p tr (objs s) (objs s') (C51_way_path _ _ _ _ _ A) T S G B).
Qed.
Print Assumptions C51_bare_partial.
(** ** Decorations *)
Theorem C51_decorated_partial : forall (vf : nat -> fmt) may p s s', exec may (@deco_cmd vf p) s (Normal s') ->
  all_expr (@typed vf) p -> all_expr (@safe_tan vf) p -> good_store (objs s) -> (forall i, proper (objs s i)) ->
  exists tr, deco_way s p tr (env s') /\ forall i,
    honest near_env (in_box (inline tr i) (parts (objs s))) (fun x => dom x (inline tr i)) (bounded_box (inline tr i) (parts (objs s)))
      (fun x => rrun tr x i) (fst (objs s' i)) (snd (objs s' i)) /\
    (forall x, (forall j, mem (x j) (fst (objs s j))) -> rdef tr x -> mem (rrun tr x i) (fst (objs s' i))).
Proof.
intros vf may p s s' X T S G B. destruct (C51_decorated_exact vf may p s s' X T G) as (tr & A & C). exists tr. split; [exact A|].
intros i. destruct (deco_along p tr (objs s) (objs s') (guided_path _ _ _ _ _ _ A) T S B C i) as (C1 & _ & C3). now split.
Qed.
Print Assumptions C51_decorated_partial.
(** With any tangents, if none of them meets a hidden pole on the way ([fine_way], SpecFpStep.v; see C12). *)
Theorem C51_safe_way : forall (vf : nat -> fmt) (X : ienv vf) Q (p : prog vf Q) tr, path p tr -> all_expr (@typed vf) p -> all_expr (@safe_tan vf) p ->
  (forall i, wf (X i)) -> fine_way X tr.
Proof. intros vf X Q p tr P T S W. exact (safe_way X tr W (path_all _ p _ P T) (path_all _ p _ P S)). Qed.
Print Assumptions C51_safe_way.
Theorem C51_bare_fine_partial : forall (vf : nat -> fmt) may p s s', exec may (@bare_cmd vf p) s (Normal s') ->
  all_expr (@typed vf) p -> good_store (objs s) ->
  exists tr, bare_way s p tr (env s') /\ (fine_way (objs s) tr ->
    forall x, (forall i, mem (x i) (objs s i)) -> rdef tr x -> forall i, mem (rrun tr x i) (objs s' i)).
Proof.
intros vf may p s s' X T G. destruct (C51_bare_exact vf may p s s' X T G) as (tr & A & B). exists tr. split; [exact A|]. intros S.
exact (proj1 (bare_fine p tr (objs s) (objs s') (C51_way_path _ _ _ _ _ A) T G S B)).
Qed.
Print Assumptions C51_bare_fine_partial.
Theorem C51_decorated_fine_partial : forall (vf : nat -> fmt) may p s s', exec may (@deco_cmd vf p) s (Normal s') ->
  all_expr (@typed vf) p -> good_store (objs s) -> (forall i, proper (objs s i)) ->
  exists tr, deco_way s p tr (env s') /\ (fine_way (parts (objs s)) tr -> forall i,
    honest near_env (in_box (inline tr i) (parts (objs s))) (fun x => dom x (inline tr i)) (bounded_box (inline tr i) (parts (objs s)))
      (fun x => rrun tr x i) (fst (objs s' i)) (snd (objs s' i)) /\
    (forall x, (forall j, mem (x j) (fst (objs s j))) -> rdef tr x -> mem (rrun tr x i) (fst (objs s' i)))).
Proof.
intros vf may p s s' X T G B. destruct (C51_decorated_exact vf may p s s' X T G) as (tr & A & C). exists tr. split; [exact A|].
intros S i. destruct (deco_fine p tr (objs s) (objs s') (guided_path _ _ _ _ _ _ A) T B S C i) as (C1 & C2 & _). now split.
Qed.
Print Assumptions C51_decorated_fine_partial.
(** With a tangent of binary64: [x = tan(x)]. *)
Theorem C51_tan_binary64_refuted : exists (p : prog (fun _ => binary64) _) s s' x,
  exec careful (@bare_cmd (fun _ => binary64) p) s (Normal s') /\ all_expr (@typed _) p /\ good_store (objs s) /\
  (forall i, mem (x i) (objs s i)) /\ forall tr, path p tr -> rdef tr x /\ ~ mem (rrun tr x 0%nat) (objs s' 0%nat).
Proof. exact tan_program. Qed.
Print Assumptions C51_tan_binary64_refuted.

(** ** Assignments always return, and change no flag *)
Theorem C51_bare_returns : forall (vf : nat -> fmt) i (e : expr vf (vf i)) k (s : state (bare_vars vf)), good_store (objs s) -> typed e ->
  exists v, returns (beval (objs s) e) v /\
    exec careful (bare_cmd (Let i e k)) s (Normal (State (write (objs s) i v) (inp s) (env s))).
Proof. intros vf. exact bare_let_returns. Qed.
Print Assumptions C51_bare_returns.
Theorem C51_decorated_returns : forall (vf : nat -> fmt) i (e : expr vf (vf i)) k (s : state (deco_vars vf)), good_store (objs s) -> typed e ->
  exists v, returns (deval (objs s) e) v /\
    exec careful (deco_cmd (Let i e k)) s (Normal (State (write (objs s) i v) (inp s) (env s))).
Proof. intros vf. exact deco_let_returns. Qed.
Print Assumptions C51_decorated_returns.

(** ** Examples *)
(** [x0 = x0 * x0; x1 = x0 + x1; x0 = sqrt(x1 - x0);] over x0 = [2, 3] and x1 = [3, 3]: from
    (2, 3) the variables become 4; 7; and the square root of 3. *)
Definition ex_vf : nat -> fmt := fun _ => binary64.
Definition ex_prog : prog ex_vf (store (deco_vars ex_vf) -> M bool) :=
  Then (@Let ex_vf _ 0 (Bin b_mul (@Var ex_vf 0) (@Var ex_vf 0)) 1)
    (Then (@Let ex_vf _ 1 (Bin b_add (@Var ex_vf 0) (@Var ex_vf 1)) 0)
      (@Let ex_vf _ 0 (Un u_sqrt (Bin b_sub (@Var ex_vf 1) (@Var ex_vf 0))) 2)).
Definition ex_objs : store (deco_vars ex_vf) := fun i =>
  match i with O => ((fl binary64 1 1, fl binary64 3 0), com) | _ => ((fl binary64 3 0, fl binary64 3 0), com) end.
Definition ex_x (i : nat) : R := match i with O => 2 | _ => 3 end.
Example C51_ex : all_expr (@typed ex_vf) ex_prog /\ all_expr (@safe_tan ex_vf) ex_prog /\ good_store ex_objs /\ (forall i, proper (ex_objs i)) /\
  (forall i, mem (ex_x i) (fst (ex_objs i))) /\
  exists s', exec careful (deco_cmd ex_prog) (State ex_objs (string_stream []) (Est 0 0)) (Normal s') /\
    mem 7 (fst (objs s' 1%nat)) /\ mem (R_sqrt.sqrt 3) (fst (objs s' 0%nat)).
Proof.
assert (T : all_expr (@typed ex_vf) ex_prog) by (cbn; tauto).
assert (S : all_expr (@safe_tan ex_vf) ex_prog) by (cbn; repeat split; discriminate).
assert (B : forall i, proper (ex_objs i)).
{ intros i. split; [destruct i; wf_tac|]. split; [destruct i; cbn; unfold is_deco; cbn; tauto|now destruct i]. }
assert (G : good_store ex_objs) by (intros i; destruct (B i) as (B1 & B2 & _); now split).
assert (Mx : forall i, mem (ex_x i) (fst (ex_objs i))).
{ intros i. destruct i; apply mem_pt; try reflexivity; cbn [ex_x]; b2r. }
split; [exact T|]. split; [exact S|]. split; [exact G|]. split; [exact B|]. split; [exact Mx|].
set (s := State ex_objs (string_stream []) (Est 0 0)). assert (Gs : good_store (objs s)) by exact G.
destruct T as (T1 & T2 & T3).
destruct (C51_decorated_returns _ 0%nat _ 1 s Gs T1) as (v1 & _ & X1).
pose proof (exec_good _ _ _ X1 Gs) as G1. cbn [after] in G1.
destruct (C51_decorated_returns _ 1%nat _ 0 _ G1 T2) as (v2 & _ & X2).
pose proof (exec_good _ _ _ X2 G1) as G2. cbn [after] in G2.
destruct (C51_decorated_returns _ 0%nat _ 2 _ G2 T3) as (v3 & _ & X3).
assert (X : exists s', exec careful (deco_cmd ex_prog) s (Normal s')).
{ eexists. eapply x_seq; [exact X1|]. eapply x_seq; [exact X2|exact X3]. }
destruct X as (s' & X). exists s'. split; [exact X|].
destruct (C51_decorated_partial _ careful ex_prog s s' X (conj T1 (conj T2 T3)) S Gs B) as (tr & P & K).
apply guided_path, path_inv in P. destruct P as (t1 & t' & -> & P1 & P'). apply path_inv in P'. destruct P' as (t2 & t3 & -> & P2 & P3).
apply path_inv in P1, P2, P3. subst t1 t2 t3.
assert (D : rdef ([@Asg ex_vf 0 (Bin b_mul (@Var ex_vf 0) (@Var ex_vf 0))] ++ [@Asg ex_vf 1 (Bin b_add (@Var ex_vf 0) (@Var ex_vf 1))] ++
   [@Asg ex_vf 0 (Un u_sqrt (Bin b_sub (@Var ex_vf 1) (@Var ex_vf 0)))]) ex_x).
{ cbn. repeat split. lra. }
split.
- destruct (K 1%nat) as [_ K1]. specialize (K1 ex_x Mx D). cbn in K1. now replace 7 with (2 * 2 + 3) by lra.
- destruct (K 0%nat) as [_ K1]. specialize (K1 ex_x Mx D). cbn in K1. now replace 3 with (2 * 2 + 3 - 2 * 2) by lra.
Qed.
(** [if (inf(x0) < 3) x0 = x0 * x0;] over x0 = [2, 3] takes the first branch, over [3, 3] it does not. *)
Definition ex_if : prog ex_vf (store (bare_vars ex_vf) -> M bool) :=
  Cond (fun st : store (bare_vars ex_vf) => ret (flt (fst (st 0%nat : itv binary64)) (fl binary64 3 0)))
    (@Let ex_vf (store (bare_vars ex_vf) -> M bool) 0 (Bin b_mul (@Var ex_vf 0) (@Var ex_vf 0)) 1) (@Done ex_vf (store (bare_vars ex_vf) -> M bool)).
Definition ex_at (l : Z) : state (bare_vars ex_vf) := @State (bare_vars ex_vf) (fun _ => (fl binary64 l 0, fl binary64 3 0)) (string_stream []) (Est 0 0).
Example C51_ex_way : bare_way (ex_at 2) ex_if [@Asg ex_vf 0 (Bin b_mul (@Var ex_vf 0) (@Var ex_vf 0))] (Est 0 0) /\
  bare_way (ex_at 3) ex_if [] (Est 0 0) /\ ~ bare_way (ex_at 2) ex_if [] (Est 0 0).
Proof.
assert (A : bare_way (ex_at 2) ex_if [@Asg ex_vf 0 (Bin b_mul (@Var ex_vf 0) (@Var ex_vf 0))] (Est 0 0)).
{ apply gu_cond with (objs (ex_at 2)) true (Est 0 0); [now intros i f|vm_compute; reflexivity|exact (gu_let _ _ _ _ _ _)]. }
split; [exact A|]. split.
- apply gu_cond with (objs (ex_at 3)) false (Est 0 0); [now intros i f|vm_compute; reflexivity|exact (gu_done _ _ _)].
- intros H. destruct (C51_way_unique _ _ _ _ _ _ _ A H) as [E _]. discriminate.
Qed.
