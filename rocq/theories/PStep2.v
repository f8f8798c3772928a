(** * Proofs: the path of a program is the one its conditions select *)
From Coq Require Import ZArith NArith Reals Bool Lra List PeanoNat FunctionalExtensionality.
From Flocq Require Import Core.Core IEEE754.BinarySingleNaN.
From Verif Require Import Fmt Spec Exc Deco SpecApi SpecElem SpecDeco SpecIso SpecProg MBase PBase PDec PConv MMixed SpecExpr MExpr PIso PExpr MTrig PTanF MRead MClass SpecClass PObj PObj2 MStep SpecStep PStep.
Import ListNotations.
Local Open Scope R_scope.

Section Guided.
Context {vf : nat -> fmt}.
Lemma guided_path {vt} now pre f (p : prog vf (store vt -> M bool)) tr f' : guided now pre f p tr f' -> path p tr.
Proof. induction 1; try now constructor. now apply (p_cond t _ _ b). Qed.
Lemma guided_inv {vt} now pre f (p : prog vf (store vt -> M bool)) tr f' : guided now pre f p tr f' ->
  match p with
  | Done => tr = [] /\ f' = f
  | Let i e k => tr = [Asg i e] /\ f' = f
  | Then p q => exists t1 f1 t2, guided now pre f p t1 f1 /\ guided now (pre ++ t1) f1 q t2 f' /\ tr = t1 ++ t2
  | Cond t p q => exists st (b : bool) f1, now pre st /\ t st f = (Ret b, f1) /\ guided now pre f1 (if b then p else q) tr f'
  | Loop t p => guided now pre f (Cond t (Then p (Loop t p)) Done) tr f'
  end.
Proof. destruct 1; eauto 10. Qed.
(** There is one such path. *)
Lemma guided_unique {vt} (now : list (asg vf) -> store vt -> Prop) : (forall pre st st', now pre st -> now pre st' -> st = st') ->
  forall pre f p tr f', guided now pre f p tr f' -> forall tr2 f2, guided now pre f p tr2 f2 -> tr2 = tr /\ f2 = f'.
Proof.
intros U pre f p tr f' H. induction H; intros tr2 g2 K; apply guided_inv in K.
- now destruct K.
- now destruct K.
- destruct K as (t1 & g1 & t2 & K1 & K2 & ->). destruct (IHguided1 _ _ K1) as [-> ->]. destruct (IHguided2 _ _ K2) as [-> ->]. easy.
- destruct K as (st2 & b2 & g1 & N & E & K). rewrite (U _ _ _ N H) in E. rewrite H0 in E. injection E as <- <-. now apply IHguided.
- now apply IHguided.
Qed.

(** ** Bare intervals *)
Definition now_b (X : ienv vf) (pre : list (asg vf)) (st : store (bare_vars vf)) : Prop := forall i, returns (beval X (inline pre i)) (st i).
Lemma now_b_unique X pre st st' : now_b X pre st -> now_b X pre st' -> st = st'.
Proof. intros A B. apply functional_extensionality_dep. intros i. exact (returns_same _ _ _ (A i) (B i)). Qed.
Lemma now_b_holds X pre st : now_b X pre st <-> holds_b X (inline pre) st.
Proof. split; intros H i; [apply returns_eq, H|apply returns_eq, H]. Qed.
Lemma bare_guided may c s r : exec may c s r -> forall p s' X pre, c = @bare_cmd vf p -> r = Normal s' -> all_expr (@typed vf) p -> good_store (objs s) ->
  now_b X pre (objs s) -> exists tr, guided (now_b X) pre (env s) p tr (env s') /\ now_b X (pre ++ tr) (objs s').
Proof.
intros X. induction X; intros p' s' I pre E R T G N; destruct p'; cbn [bare_cmd] in E; try discriminate E; try discriminate R; cbn [all_expr] in T.
- injection R as <-. exists []. split; [constructor|]. now rewrite app_nil_r.
- exists [Asg i0 e0].
  assert (Y : exec may (@Assign (bare_vars vf) i0 (bare_term k e0)) s (Normal s')) by (rewrite <- E, <- R; now apply x_assign).
  assert (Ef : env s' = env s).
  { apply exec_invert in Y. cbn [exec_inv] in Y. destruct Y as (_ & [(v' & f' & A & B)|[(x & f' & A & B)|(f' & A & B)]]); try discriminate B.
    injection B as ->. cbn [env]. rewrite (bare_ev (objs s) k e0 G) in A. destruct (btotal (objs s) e0) as (z & Z & _); [intros j _; apply (G j)|easy|]. rewrite (Z (env s)) in A. now injection A as _ <-. }
  destruct (bare_let _ _ _ _ _ _ G T Y) as (z & Ez & Es). split; [rewrite Ef; constructor|].
  apply now_b_holds. apply now_b_holds in N. unfold inline in *. rewrite inline_app. cbn [inline_from to what]. rewrite Es. intros j. destruct (Nat.eq_dec j i0) as [->|J].
  + rewrite setE_same. rewrite (beval_subst (inline pre) I (objs s)) by exact N. rewrite Ez. f_equal. symmetry. exact (write_same (vt := bare_vars vf) (objs s) i0 z).
  + rewrite setE_other by easy. rewrite (N j). f_equal. symmetry. exact (write_other (vt := bare_vars vf) (objs s) i0 z j J).
- injection E as -> ->. destruct T as [T1 T2]. destruct (IHX1 _ _ I pre eq_refl eq_refl T1 G N) as (tr & P1 & N1).
  pose proof (exec_good_plain _ _ _ _ X1 (bare_cmd_plain _) G) as G1. cbn [after] in G1.
  destruct (IHX2 _ _ I (pre ++ tr) eq_refl R T2 G1 N1) as (tr' & P2 & N2). exists (tr ++ tr'). split; [now apply gu_then with (env s1)|]. now rewrite app_assoc.
- injection E as -> -> ->. destruct (IHX (if b then p'1 else p'2) s' I pre) as (tr & P & N1); [now destruct b|exact R|destruct b; tauto|exact G|exact N|].
  exists tr. split; [|exact N1]. now apply gu_cond with (objs s) b f.
- injection E as -> ->. destruct (IHX (Cond t (Then p' (Loop t p')) Done) s' I pre) as (tr & P & N1); [reflexivity|exact R|cbn [all_expr]; tauto|exact G|exact N|].
  exists tr. split; [now apply gu_loop|exact N1].
Qed.
(** Conversely the program runs along that path. *)
Lemma guided_bare X pre f p tr f' : guided (now_b X) pre f p tr f' -> all_expr (@typed vf) p ->
  forall s, env s = f -> good_store (objs s) -> now_b X pre (objs s) ->
  exists s', exec careful (@bare_cmd vf p) s (Normal s') /\ env s' = f' /\ inp s' = inp s /\ now_b X (pre ++ tr) (objs s').
Proof.
intros H. induction H; intros T s E G N; cbn [bare_cmd all_expr] in *.
- exists s. split; [constructor|]. now rewrite app_nil_r.
- destruct (bare_let_returns i e k s G T) as (v & R & Y). eexists. split; [exact Y|]. split; [exact E|]. split; [reflexivity|].
  destruct (bare_guided _ _ _ _ Y (Let i e k) _ X pre eq_refl eq_refl T G N) as (tr & P & N1). apply guided_inv in P. destruct P as [-> _]. exact N1.
- destruct T as [T1 T2]. destruct (IHguided1 T1 s E G N) as (s1 & Y1 & E1 & I1 & N1).
  pose proof (exec_good_plain _ _ _ _ Y1 (bare_cmd_plain _) G) as G1. cbn [after] in G1.
  destruct (IHguided2 T2 s1 E1 G1 N1) as (s2 & Y2 & E2 & I2 & N2). exists s2. split; [now apply x_seq with s1|]. split; [exact E2|]. split; [now rewrite I2|]. now rewrite app_assoc.
- assert (Es := now_b_unique _ _ _ _ H N). subst st.
  destruct (IHguided ltac:(destruct b; tauto) (State (objs s) (inp s) f1) eq_refl G N) as (s' & Y & E1 & I1 & N1). exists s'.
  split; [|now split]. apply x_if with b f1; [now rewrite E|]. now destruct b.
- destruct (IHguided ltac:(cbn [all_expr]; tauto) s E G N) as (s' & Y & R). exists s'. split; [|exact R]. now apply x_while.
Qed.

(** ** Decorated intervals *)
Definition now_d (X : store (deco_vars vf)) (pre : list (asg vf)) (st : store (deco_vars vf)) : Prop := forall i, returns (deval X (inline pre i)) (st i).
Lemma now_d_unique X pre st st' : now_d X pre st -> now_d X pre st' -> st = st'.
Proof. intros A B. apply functional_extensionality_dep. intros i. exact (returns_same _ _ _ (A i) (B i)). Qed.
Lemma now_d_holds X pre st : now_d X pre st <-> holds_d X (inline pre) st.
Proof. split; intros H i; [apply returns_eq, H|apply returns_eq, H]. Qed.
Lemma deco_guided may c s r : exec may c s r -> forall p s' X pre, c = @deco_cmd vf p -> r = Normal s' -> all_expr (@typed vf) p -> good_store (objs s) ->
  now_d X pre (objs s) -> exists tr, guided (now_d X) pre (env s) p tr (env s') /\ now_d X (pre ++ tr) (objs s').
Proof.
intros X. induction X; intros p' s' I pre E R T G N; destruct p'; cbn [deco_cmd] in E; try discriminate E; try discriminate R; cbn [all_expr] in T.
- injection R as <-. exists []. split; [constructor|]. now rewrite app_nil_r.
- exists [Asg i0 e0].
  assert (Y : exec may (@Assign (deco_vars vf) i0 (deco_term k e0)) s (Normal s')) by (rewrite <- E, <- R; now apply x_assign).
  assert (Ef : env s' = env s).
  { apply exec_invert in Y. cbn [exec_inv] in Y. destruct Y as (_ & [(v' & f' & A & B)|[(x & f' & A & B)|(f' & A & B)]]); try discriminate B.
    injection B as ->. cbn [env]. rewrite (deco_ev (objs s) k e0 G) in A. destruct (nai_ok (objs s) e0) as (z & Z & _); [intros j _; apply (G j)|easy|]. rewrite (Z (env s)) in A. now injection A as _ <-. }
  destruct (deco_let _ _ _ _ _ _ G T Y) as (z & Ez & Es). split; [rewrite Ef; constructor|].
  apply now_d_holds. apply now_d_holds in N. unfold inline in *. rewrite inline_app. cbn [inline_from to what]. rewrite Es. intros j. destruct (Nat.eq_dec j i0) as [->|J].
  + rewrite setE_same. rewrite (deval_subst (inline pre) I (objs s)) by exact N. rewrite Ez. f_equal. symmetry. exact (write_same (vt := deco_vars vf) (objs s) i0 z).
  + rewrite setE_other by easy. rewrite (N j). f_equal. symmetry. exact (write_other (vt := deco_vars vf) (objs s) i0 z j J).
- injection E as -> ->. destruct T as [T1 T2]. destruct (IHX1 _ _ I pre eq_refl eq_refl T1 G N) as (tr & P1 & N1).
  pose proof (exec_good_plain _ _ _ _ X1 (deco_cmd_plain _) G) as G1. cbn [after] in G1.
  destruct (IHX2 _ _ I (pre ++ tr) eq_refl R T2 G1 N1) as (tr' & P2 & N2). exists (tr ++ tr'). split; [now apply gu_then with (env s1)|]. now rewrite app_assoc.
- injection E as -> -> ->. destruct (IHX (if b then p'1 else p'2) s' I pre) as (tr & P & N1); [now destruct b|exact R|destruct b; tauto|exact G|exact N|].
  exists tr. split; [|exact N1]. now apply gu_cond with (objs s) b f.
- injection E as -> ->. destruct (IHX (Cond t (Then p' (Loop t p')) Done) s' I pre) as (tr & P & N1); [reflexivity|exact R|cbn [all_expr]; tauto|exact G|exact N|].
  exists tr. split; [now apply gu_loop|exact N1].
Qed.
(** Conversely the program runs along that path. *)
Lemma guided_deco X pre f p tr f' : guided (now_d X) pre f p tr f' -> all_expr (@typed vf) p ->
  forall s, env s = f -> good_store (objs s) -> now_d X pre (objs s) ->
  exists s', exec careful (@deco_cmd vf p) s (Normal s') /\ env s' = f' /\ inp s' = inp s /\ now_d X (pre ++ tr) (objs s').
Proof.
intros H. induction H; intros T s E G N; cbn [deco_cmd all_expr] in *.
- exists s. split; [constructor|]. now rewrite app_nil_r.
- destruct (deco_let_returns i e k s G T) as (v & R & Y). eexists. split; [exact Y|]. split; [exact E|]. split; [reflexivity|].
  destruct (deco_guided _ _ _ _ Y (Let i e k) _ X pre eq_refl eq_refl T G N) as (tr & P & N1). apply guided_inv in P. destruct P as [-> _]. exact N1.
- destruct T as [T1 T2]. destruct (IHguided1 T1 s E G N) as (s1 & Y1 & E1 & I1 & N1).
  pose proof (exec_good_plain _ _ _ _ Y1 (deco_cmd_plain _) G) as G1. cbn [after] in G1.
  destruct (IHguided2 T2 s1 E1 G1 N1) as (s2 & Y2 & E2 & I2 & N2). exists s2. split; [now apply x_seq with s1|]. split; [exact E2|]. split; [now rewrite I2|]. now rewrite app_assoc.
- assert (Es := now_d_unique _ _ _ _ H N). subst st.
  destruct (IHguided ltac:(destruct b; tauto) (State (objs s) (inp s) f1) eq_refl G N) as (s' & Y & E1 & I1 & N1). exists s'.
  split; [|now split]. apply x_if with b f1; [now rewrite E|]. now destruct b.
- destruct (IHguided ltac:(cbn [all_expr]; tauto) s E G N) as (s' & Y & R). exists s'. split; [|exact R]. now apply x_while.
Qed.

(** ** The enclosures hold for the path taken *)
Lemma bare_along p (tr : list (asg vf)) (X Y : ienv vf) : path (Q := store (bare_vars vf) -> M bool) p tr -> all_expr (@typed vf) p -> all_expr (@safe_tan vf) p -> (forall i, wf (X i)) ->
  (forall i, returns (beval X (inline tr i)) (Y i)) ->
  forall x, (forall i, mem (x i) (X i)) -> rdef tr x -> forall i, mem (rrun tr x i) (Y i).
Proof.
intros P T S G K x B D i.
assert (Ti : typed (inline tr i)) by (apply (inline_all (@typed vf)); [intros; now apply typed_subst|easy|now apply (path_all _ p)]).
assert (Si : safe_tan (inline tr i)) by (apply (inline_all (@safe_tan vf)); [intros; now apply tan_types_subst|easy|now apply (path_all _ p)]).
assert (W : forall j, occurs j (inline tr i) = true -> wf (X j)) by (intros j _; apply (G j)).
destruct (bare_ok X (inline tr i) W Ti (tan_types_fine _ _ W Ti Si)) as (z & Z & _ & V).
rewrite (returns_same _ _ _ (K i) Z). unfold inline in V. specialize (V x).
rewrite inline_val in V. apply V; [intros j _; apply B|]. apply inline_dom; [easy|exact D].
Qed.
Lemma deco_along p (tr : list (asg vf)) (X Y : store (deco_vars vf)) : path (Q := store (deco_vars vf) -> M bool) p tr -> all_expr (@typed vf) p -> all_expr (@safe_tan vf) p ->
  (forall i, proper (X i)) -> (forall i, returns (deval X (inline tr i)) (Y i)) -> forall i,
      honest near_env (in_box (inline tr i) (parts X)) (fun x => dom x (inline tr i)) (bounded_box (inline tr i) (parts X))
        (fun x => rrun tr x i) (fst (Y i)) (snd (Y i)) /\
      (forall x, rdef tr x -> dom x (inline tr i)) /\
      (forall x, (forall j, mem (x j) (fst (X j))) -> rdef tr x -> mem (rrun tr x i) (fst (Y i))).
Proof.
intros P T S B K i.
assert (Ti : typed (inline tr i)) by (apply (inline_all (@typed vf)); [intros; now apply typed_subst|easy|now apply (path_all _ p)]).
assert (Si : safe_tan (inline tr i)) by (apply (inline_all (@safe_tan vf)); [intros; now apply tan_types_subst|easy|now apply (path_all _ p)]).
assert (W : forall j, occurs j (inline tr i) = true -> wf (parts X j)) by (intros j _; apply proper_wf, B).
destruct (decorated_ok X (inline tr i) (fun j _ => B j) Ti (tan_types_fine _ _ W Ti Si)) as (z & Z & _ & _ & _ & V & Ho).
rewrite (returns_same _ _ _ (K i) Z).
assert (Dm : forall x, rdef tr x -> dom x (inline tr i)) by (intros x D; apply inline_dom; [easy|exact D]).
split; [|split; [exact Dm|]].
- revert Ho. apply honest_ext. intros x. unfold inline. now rewrite inline_val.
- intros x M D. pose proof (V x (fun j _ => M j) (Dm x D)) as K'. unfold inline in K'. now rewrite inline_val in K'.
Qed.
End Guided.
