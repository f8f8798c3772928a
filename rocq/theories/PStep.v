(** * Proofs: programs of assignments compute what the expressions say *)
From Coq Require Import ZArith NArith Reals Bool Lra List PeanoNat Eqdep_dec.
From Flocq Require Import Core.Core IEEE754.BinarySingleNaN.
From Verif Require Import Fmt Spec Exc Deco SpecApi SpecElem SpecDeco SpecIso SpecProg MBase PBase PDec PConv MMixed SpecExpr MExpr PIso PExpr MTrig PTanF MRead MClass SpecClass PObj PObj2 MStep SpecStep.
Import ListNotations.
Local Open Scope R_scope.

Section Subst.
Context {vf : nat -> fmt}.
Lemma val_subst s p {F} (e : expr vf F) : val p (subst s e) = val (fun i => val p (s i)) e.
Proof. induction e; cbn [subst val]; congruence. Qed.
Lemma val_ext p q {F} (e : expr vf F) : (forall i, p i = q i) -> val p e = val q e.
Proof. intros E. induction e; cbn [val]; congruence. Qed.
Lemma dom_ext p q {F} (e : expr vf F) : (forall i, p i = q i) -> dom p e -> dom q e.
Proof.
intros E. induction e; cbn [dom]; rewrite ?(val_ext p q) by easy; tauto.
Qed.
Lemma dom_subst s p {F} (e : expr vf F) : (forall i, dom p (s i)) -> dom (fun i => val p (s i)) e -> dom p (subst s e).
Proof. intros D. induction e; cbn [subst dom]; rewrite ?val_subst; try tauto. intros _. apply D. Qed.
Lemma typed_subst s {F} (e : expr vf F) : (forall i, typed (s i)) -> typed e -> typed (subst s e).
Proof. intros D. induction e; cbn [subst typed]; try tauto. intros _. apply D. Qed.
Lemma tan_types_subst P s {F} (e : expr vf F) : (forall i, tan_types P (s i)) -> tan_types P e -> tan_types P (subst s e).
Proof. intros D. induction e; cbn [subst tan_types]; try tauto. intros _. apply D. Qed.
Lemma beval_subst s X Y {F} (e : expr vf F) : (forall i, beval X (s i) = ret (Y i)) -> beval X (subst s e) = beval Y e.
Proof. intros E. induction e; cbn [subst beval]; [apply E|..]; repeat match goal with H : beval X (subst _ _) = _ |- _ => rewrite H; clear H end; reflexivity. Qed.
Lemma deval_subst s X Y {F} (e : expr vf F) : (forall i, deval X (s i) = ret (Y i)) -> deval X (subst s e) = deval Y e.
Proof. intros E. induction e; cbn [subst deval]; [apply E|..]; repeat match goal with H : deval X (subst _ _) = _ |- _ => rewrite H; clear H end; reflexivity. Qed.
Lemma setE_same (s : forall i, expr vf (vf i)) i e : setE s i e i = e.
Proof. unfold setE. destruct (Nat.eq_dec i i) as [q|n]; [|easy]. now rewrite (UIP_dec Nat.eq_dec q eq_refl). Qed.
Lemma setE_other (s : forall i, expr vf (vf i)) i e j : j <> i -> setE s i e j = s j.
Proof. intros N. unfold setE. destruct (Nat.eq_dec i j) as [q|n]; [congruence|reflexivity]. Qed.
Lemma setE_all (s : forall i, expr vf (vf i)) i e (P : forall F, expr vf F -> Prop) : (forall j, P _ (s j)) -> P _ e -> forall j, P _ (setE s i e j).
Proof. intros A B j. destruct (Nat.eq_dec j i) as [->|N]; [now rewrite setE_same|now rewrite setE_other]. Qed.

(** Running over the reals and the expressions. *)
Lemma setE_val (s : forall i, expr vf (vf i)) p i e j : val p (setE s i e j) = setR (fun k => val p (s k)) i (val p e) j.
Proof.
unfold setR. destruct (Nat.eq_dec i j) as [<-|N].
- now rewrite setE_same, Nat.eqb_refl.
- rewrite setE_other by congruence. now destruct (Nat.eqb_spec i j).
Qed.
Lemma rrun_ext tr p q : (forall i, p i = q i) -> forall i, @rrun vf tr p i = rrun tr q i.
Proof.
revert p q. induction tr as [|a tr IH]; intros p q E; cbn [rrun]; [exact E|]. apply IH. intros i. unfold setR.
now rewrite (val_ext p q), E.
Qed.
Lemma rdef_ext tr p q : (forall i, p i = q i) -> @rdef vf tr p -> rdef tr q.
Proof.
revert p q. induction tr as [|a tr IH]; intros p q E; cbn [rdef]; [easy|]. intros [D R]. split; [now apply (dom_ext p q)|].
revert R. apply IH. intros i. unfold setR. now rewrite (val_ext p q), E.
Qed.
Lemma inline_val (s : forall i, expr vf (vf i)) tr p i : val p (inline_from s tr i) = rrun tr (fun k => val p (s k)) i.
Proof.
revert s. induction tr as [|a tr IH]; intros s; cbn [inline_from rrun]; [reflexivity|]. rewrite IH. apply rrun_ext.
intros j. rewrite setE_val. unfold setR. now rewrite val_subst.
Qed.
Lemma inline_dom (s : forall i, expr vf (vf i)) tr p : (forall i, dom p (s i)) -> rdef tr (fun k => val p (s k)) -> forall i, dom p (inline_from s tr i).
Proof.
revert s. induction tr as [|a tr IH]; intros s D; cbn [inline_from rdef]; [now intros _|]. intros [E R]. apply IH.
- apply (setE_all _ _ _ (fun F e => dom p e)); [exact D|]. now apply dom_subst.
- revert R. apply rdef_ext. intros i. rewrite setE_val. unfold setR. now rewrite val_subst.
Qed.
Lemma inline_all (P : forall F, expr vf F -> Prop) (s : forall i, expr vf (vf i)) tr : (forall s F (e : expr vf F), (forall i, P _ (s i)) -> P _ e -> P _ (subst s e)) ->
  (forall i, P _ (s i)) -> Forall (fun a => P _ (what a)) tr -> forall i, P _ (inline_from s tr i).
Proof.
intros C. revert s. induction tr as [|a tr IH]; intros s D A; cbn [inline_from]; [exact D|]. inversion A as [|? ? A1 A2]; subst.
apply IH; [|exact A2]. apply (setE_all _ _ _ P); [exact D|]. now apply C.
Qed.
Lemma path_all {Q} P (p : prog vf Q) tr : path p tr -> all_expr P p -> Forall (fun a => P _ (what a)) tr.
Proof.
induction 1; cbn [all_expr]; intros A.
- constructor.
- now repeat constructor.
- apply Forall_app. tauto.
- apply IHpath. destruct b; tauto.
- apply IHpath. cbn [all_expr]. tauto.
Qed.
Lemma inline_app (s : forall i, expr vf (vf i)) tr tr' : inline_from s (tr ++ tr') = inline_from (inline_from s tr) tr'.
Proof. revert s. induction tr as [|a tr IH]; intros s; cbn [app inline_from]; [reflexivity|apply IH]. Qed.

(** ** The class layer evaluates the expressions *)
Lemma bare_elide k {F} (e : expr vf F) : elide (bare_term k e) = bare_term 0 e.
Proof. induction e; cbn [bare_term elide]; congruence. Qed.
Lemma deco_elide k {F} (e : expr vf F) : elide (deco_term k e) = deco_term 0 e.
Proof. induction e; cbn [deco_term elide]; congruence. Qed.
Lemma bare_plain k {F} (e : expr vf F) : no_cancel (bare_term k e).
Proof. induction e; cbn [bare_term no_cancel]; tauto. Qed.
Lemma deco_plain k {F} (e : expr vf F) : no_cancel (deco_term k e).
Proof. induction e; cbn [deco_term no_cancel]; tauto. Qed.
Lemma bind_cong {A B} (m m' : M A) (k k' : A -> M B) s : (forall s, m s = m' s) -> (forall a s, k a s = k' a s) -> bind m k s = bind m' k' s.
Proof. intros E K. unfold bind. rewrite E. destruct (m' s) as [[a| |] s']; [apply K|reflexivity|reflexivity]. Qed.
Lemma bind_none {A B} (m : A -> M B) a s : bind (m a) (fun z => ret z) s = m a s.
Proof. unfold bind, ret. now destruct (m a s) as [[b| |] s']. Qed.
Lemma bare_ev0 (st : store (bare_vars vf)) {F} (e : expr vf F) : forall s, ev st (bare_term 0 e) s = beval st e s.
Proof.
induction e; intros s; cbn [bare_term ev beval copies].
- reflexivity.
- apply bind_cong; [exact IHe|]. intros. apply bind_none.
- apply bind_cong; [exact IHe1|]. intros. apply bind_cong; [exact IHe2|]. intros. apply (bind_none (bin_bare b a)).
- apply bind_cong; [exact IHe1|]. intros. apply bind_cong; [exact IHe2|]. intros. apply bind_cong; [exact IHe3|]. intros. apply (bind_none (MArith.fma a a0)).
- apply bind_cong; [exact IHe|]. intros. apply bind_none.
- apply bind_cong; [exact IHe1|]. intros. apply bind_cong; [exact IHe2|]. intros. apply (bind_none (bin_bare_mixed T b a)).
- apply bind_cong; [exact IHe1|]. intros. apply bind_cong; [exact IHe2|]. intros. apply bind_cong; [exact IHe3|]. intros. apply (bind_none (fma_mixed T a a0)).
Qed.
Lemma deco_ev0 (st : store (deco_vars vf)) {F} (e : expr vf F) : forall s, ev st (deco_term 0 e) s = deval st e s.
Proof.
induction e; intros s; cbn [deco_term ev deval copies].
- reflexivity.
- apply bind_cong; [exact IHe|]. intros. apply bind_none.
- apply bind_cong; [exact IHe1|]. intros. apply bind_cong; [exact IHe2|]. intros. apply (bind_none (bin_decd b a)).
- apply bind_cong; [exact IHe1|]. intros. apply bind_cong; [exact IHe2|]. intros. apply bind_cong; [exact IHe3|]. intros. apply (bind_none (MDec.fma_dec a a0)).
- apply bind_cong; [exact IHe|]. intros. apply bind_none.
- apply bind_cong; [exact IHe1|]. intros. apply bind_cong; [exact IHe2|]. intros. apply (bind_none (bin_decd_mixed T b a)).
- apply bind_cong; [exact IHe1|]. intros. apply bind_cong; [exact IHe2|]. intros. apply bind_cong; [exact IHe3|]. intros. apply (bind_none (fma_dec_mixed T a a0)).
Qed.
Lemma bare_ev (st : store (bare_vars vf)) k {F} (e : expr vf F) : good_store st -> forall s, ev st (bare_term k e) s = beval st e s.
Proof. intros G s. rewrite (ev_elide st (bare_term k e) G) by apply no_cancel_careful, bare_plain. rewrite bare_elide. apply bare_ev0. Qed.
Lemma deco_ev (st : store (deco_vars vf)) k {F} (e : expr vf F) : good_store st -> forall s, ev st (deco_term k e) s = deval st e s.
Proof. intros G s. rewrite (ev_elide st (deco_term k e) G) by apply no_cancel_careful, deco_plain. rewrite deco_elide. apply deco_ev0. Qed.

(** ** Executions *)
Definition holds_b (X : ienv vf) (s : forall i, expr vf (vf i)) (st : store (bare_vars vf)) : Prop := forall i, beval X (s i) = ret (st i).
Definition holds_d (X : denv vf) (s : forall i, expr vf (vf i)) (st : store (deco_vars vf)) : Prop := forall i, deval X (s i) = ret (st i).
Lemma bare_let may i (e : expr vf (vf i)) k s s' : good_store (objs s) -> typed e ->
  exec may (@Assign (bare_vars vf) i (bare_term k e)) s (Normal s') ->
  exists v, beval (objs s) e = ret v /\ objs s' = write (objs s) i v.
Proof.
intros G T X. apply exec_invert in X. cbn [exec_inv] in X.
destruct X as (_ & [(v & f & A & B)|[(x & f & A & B)|(f & A & B)]]); try discriminate B. injection B as ->. exists v. split; [|reflexivity].
destruct (btotal (objs s) e) as (z & Z & _); [intros j _; apply (G j)|easy|]. apply returns_eq in Z. rewrite Z.
pose proof (bare_ev (objs s) k e G (env s)) as E. rewrite Z in E. f_equal.
assert (K : (Ret z, env s) = (Ret v, f)) by (rewrite <- A; symmetry; exact E). now injection K.
Qed.
Lemma deco_let may i (e : expr vf (vf i)) k s s' : good_store (objs s) -> typed e ->
  exec may (@Assign (deco_vars vf) i (deco_term k e)) s (Normal s') ->
  exists v, deval (objs s) e = ret v /\ objs s' = write (objs s) i v.
Proof.
intros G T X. apply exec_invert in X. cbn [exec_inv] in X.
destruct X as (_ & [(v & f & A & B)|[(x & f & A & B)|(f & A & B)]]); try discriminate B. injection B as ->. exists v. split; [|reflexivity].
destruct (nai_ok (objs s) e) as (z & Z & _); [intros j _; apply (G j)|easy|]. apply returns_eq in Z. rewrite Z.
pose proof (deco_ev (objs s) k e G (env s)) as E. rewrite Z in E. f_equal.
assert (K : (Ret z, env s) = (Ret v, f)) by (rewrite <- A; symmetry; exact E). now injection K.
Qed.
Lemma bare_cmd_plain p : no_cancel_cmd (@bare_cmd vf p).
Proof. induction p; cbn [bare_cmd no_cancel_cmd]; try tauto. apply bare_plain. Qed.
Lemma deco_cmd_plain p : no_cancel_cmd (@deco_cmd vf p).
Proof. induction p; cbn [deco_cmd no_cancel_cmd]; try tauto. apply deco_plain. Qed.

Lemma bare_exec may c s r : exec may c s r -> forall p s', c = @bare_cmd vf p -> r = Normal s' -> all_expr (@typed vf) p -> good_store (objs s) ->
  exists tr, path p tr /\ forall X sg, holds_b X sg (objs s) -> holds_b X (inline_from sg tr) (objs s').
Proof.
intros X. induction X; intros p' s' E R T G; destruct p'; cbn [bare_cmd] in E; try discriminate E; try discriminate R; cbn [all_expr] in T.
- injection R as <-. exists []. split; [constructor|]. now intros X sg H.
- exists [Asg i0 e0]. split; [constructor|]. intros X sg Hs.
  assert (Y : exec may (@Assign (bare_vars vf) i0 (bare_term k e0)) s (Normal s')) by (rewrite <- E, <- R; now apply x_assign).
  destruct (bare_let _ _ _ _ _ _ G T Y) as (z & Ez & ->). cbn [inline_from to what]. intros j. destruct (Nat.eq_dec j i0) as [->|N].
  + rewrite setE_same. rewrite (beval_subst sg X (objs s)) by exact Hs. rewrite Ez. f_equal. symmetry. exact (write_same (vt := bare_vars vf) (objs s) i0 z).
  + rewrite setE_other by easy. rewrite (Hs j). f_equal. symmetry. exact (write_other (vt := bare_vars vf) (objs s) i0 z j N).
- injection E as -> ->. destruct T as [T1 T2]. destruct (IHX1 _ _ eq_refl eq_refl T1 G) as (tr & P1 & H1).
  pose proof (exec_good_plain _ _ _ _ X1 (bare_cmd_plain _) G) as G1. cbn [after] in G1.
  destruct (IHX2 _ _ eq_refl R T2 G1) as (tr' & P2 & H2). exists (tr ++ tr'). split; [now constructor|]. intros X sg Hs. rewrite inline_app. apply H2, H1, Hs.
- injection E as -> -> ->. destruct (IHX (if b then p'1 else p'2) s') as (tr & P & H1); [now destruct b|exact R|destruct b; tauto|exact G|].
  exists tr. split; [now apply (p_cond t _ _ b)|exact H1].
- injection E as -> ->. destruct (IHX (Cond t (Then p' (Loop t p')) Done) s') as (tr & P & H1); [reflexivity|exact R|cbn [all_expr]; tauto|exact G|].
  exists tr. split; [now apply p_loop|exact H1].
Qed.
Lemma deco_exec may c s r : exec may c s r -> forall p s', c = @deco_cmd vf p -> r = Normal s' -> all_expr (@typed vf) p -> good_store (objs s) ->
  exists tr, path p tr /\ forall X sg, holds_d X sg (objs s) -> holds_d X (inline_from sg tr) (objs s').
Proof.
intros X. induction X; intros p' s' E R T G; destruct p'; cbn [deco_cmd] in E; try discriminate E; try discriminate R; cbn [all_expr] in T.
- injection R as <-. exists []. split; [constructor|]. now intros X sg H.
- exists [Asg i0 e0]. split; [constructor|]. intros X sg Hs.
  assert (Y : exec may (@Assign (deco_vars vf) i0 (deco_term k e0)) s (Normal s')) by (rewrite <- E, <- R; now apply x_assign).
  destruct (deco_let _ _ _ _ _ _ G T Y) as (z & Ez & ->). cbn [inline_from to what]. intros j. destruct (Nat.eq_dec j i0) as [->|N].
  + rewrite setE_same. rewrite (deval_subst sg X (objs s)) by exact Hs. rewrite Ez. f_equal. symmetry. exact (write_same (vt := deco_vars vf) (objs s) i0 z).
  + rewrite setE_other by easy. rewrite (Hs j). f_equal. symmetry. exact (write_other (vt := deco_vars vf) (objs s) i0 z j N).
- injection E as -> ->. destruct T as [T1 T2]. destruct (IHX1 _ _ eq_refl eq_refl T1 G) as (tr & P1 & H1).
  pose proof (exec_good_plain _ _ _ _ X1 (deco_cmd_plain _) G) as G1. cbn [after] in G1.
  destruct (IHX2 _ _ eq_refl R T2 G1) as (tr' & P2 & H2). exists (tr ++ tr'). split; [now constructor|]. intros X sg Hs. rewrite inline_app. apply H2, H1, Hs.
- injection E as -> -> ->. destruct (IHX (if b then p'1 else p'2) s') as (tr & P & H1); [now destruct b|exact R|destruct b; tauto|exact G|].
  exists tr. split; [now apply (p_cond t _ _ b)|exact H1].
- injection E as -> ->. destruct (IHX (Cond t (Then p' (Loop t p')) Done) s') as (tr & P & H1); [reflexivity|exact R|cbn [all_expr]; tauto|exact G|].
  exists tr. split; [now apply p_loop|exact H1].
Qed.

(** ** Together with the theorems about expressions *)
Lemma honest_ext {F} {P : Type} near (box dm : P -> Prop) bb f g (z : itv F) d : (forall p, f p = g p) ->
  honest near box dm bb f z d -> honest near box dm bb g z d.
Proof.
intros E (H1 & H2 & H3). split; [exact H1|]. unfold cont_at in *. split.
- intros D p B e Pe. destruct (H2 D p B e Pe) as (x & X1 & X2). exists x. split; [easy|]. intros q. rewrite <- !E. apply X2.
- intros D. destruct (H3 D) as (B1 & B2 & B3). split; [easy|]. split; [easy|].
  intros p B e Pe. destruct (B3 p B e Pe) as (x & X1 & X2). exists x. split; [easy|]. intros q. rewrite <- !E. apply X2.
Qed.
Lemma bare_program may p s s' : exec may (@bare_cmd vf p) s (Normal s') -> all_expr (@typed vf) p -> good_store (objs s) ->
  exists tr, path p tr /\ (forall i, returns (beval (objs s) (inline tr i)) (objs s' i)) /\
    (all_expr (@safe_tan vf) p -> forall x, (forall i, mem (x i) (objs s i)) -> rdef tr x -> forall i, mem (rrun tr x i) (objs s' i)).
Proof.
intros X T G. destruct (bare_exec _ _ _ _ X p s' eq_refl eq_refl T G) as (tr & P & H). exists tr. split; [exact P|].
assert (K : forall i, returns (beval (objs s) (inline tr i)) (objs s' i)).
{ intros i. apply returns_eq. apply (H (objs s) (fun j => Var j)). intros j. reflexivity. }
split; [exact K|]. intros S x B D i.
assert (Ti : typed (inline tr i)) by (apply (inline_all (@typed vf)); [intros; now apply typed_subst|easy|now apply (path_all _ p)]).
assert (Si : safe_tan (inline tr i)) by (apply (inline_all (@safe_tan vf)); [intros; now apply tan_types_subst|easy|now apply (path_all _ p)]).
assert (W : forall j, occurs j (inline tr i) = true -> wf (objs s j)) by (intros j _; apply (G j)).
destruct (bare_ok (objs s) (inline tr i) W Ti (tan_types_fine _ _ W Ti Si)) as (z & Z & _ & V).
rewrite (returns_same _ _ _ (K i) Z). unfold inline in V. specialize (V x).
rewrite inline_val in V. apply V; [intros j _; apply B|]. apply inline_dom; [easy|exact D].
Qed.
Lemma deco_program may p s s' : exec may (@deco_cmd vf p) s (Normal s') -> all_expr (@typed vf) p -> good_store (objs s) ->
  exists tr, path p tr /\ (forall i, returns (deval (objs s) (inline tr i)) (objs s' i)) /\
    (all_expr (@safe_tan vf) p -> (forall i, proper (objs s i)) -> forall i,
      honest near_env (in_box (inline tr i) (parts (objs s))) (fun x => dom x (inline tr i)) (bounded_box (inline tr i) (parts (objs s)))
        (fun x => rrun tr x i) (fst (objs s' i)) (snd (objs s' i)) /\
      (forall x, rdef tr x -> dom x (inline tr i)) /\
      (forall x, (forall j, mem (x j) (fst (objs s j))) -> rdef tr x -> mem (rrun tr x i) (fst (objs s' i)))).
Proof.
intros X T G. destruct (deco_exec _ _ _ _ X p s' eq_refl eq_refl T G) as (tr & P & H). exists tr. split; [exact P|].
assert (K : forall i, returns (deval (objs s) (inline tr i)) (objs s' i)).
{ intros i. apply returns_eq. apply (H (objs s) (fun j => Var j)). intros j. reflexivity. }
split; [exact K|]. intros S B i.
assert (Ti : typed (inline tr i)) by (apply (inline_all (@typed vf)); [intros; now apply typed_subst|easy|now apply (path_all _ p)]).
assert (Si : safe_tan (inline tr i)) by (apply (inline_all (@safe_tan vf)); [intros; now apply tan_types_subst|easy|now apply (path_all _ p)]).
assert (W : forall j, occurs j (inline tr i) = true -> wf (parts (objs s) j)) by (intros j _; apply proper_wf, B).
destruct (decorated_ok (objs s) (inline tr i) (fun j _ => B j) Ti (tan_types_fine _ _ W Ti Si)) as (z & Z & _ & _ & _ & V & Ho).
rewrite (returns_same _ _ _ (K i) Z).
assert (Dm : forall x, rdef tr x -> dom x (inline tr i)) by (intros x D; apply inline_dom; [easy|exact D]).
split; [|split; [exact Dm|]].
- revert Ho. apply honest_ext. intros x. unfold inline. now rewrite inline_val.
- intros x M D. pose proof (V x (fun j _ => M j) (Dm x D)) as K'. unfold inline in K'. now rewrite inline_val in K'.
Qed.
End Subst.
(** ** Assignments always return *)
Lemma bare_let_returns {vf} i (e : expr vf (vf i)) k (s : state (bare_vars vf)) : good_store (objs s) -> typed e ->
  exists v, returns (beval (objs s) e) v /\
    exec careful (bare_cmd (Let i e k)) s (Normal (State (write (objs s) i v) (inp s) (env s))).
Proof.
intros G T. destruct (btotal (objs s) e) as (z & Z & _); [intros j _; apply (G j)|easy|]. exists z. split; [exact Z|].
apply (x_assign (bare_vars vf) careful i (bare_term k e) s z (env s)); [apply no_cancel_careful, bare_plain|].
rewrite (bare_ev (objs s) k e G). exact (Z (env s)).
Qed.
Lemma deco_let_returns {vf} i (e : expr vf (vf i)) k (s : state (deco_vars vf)) : good_store (objs s) -> typed e ->
  exists v, returns (deval (objs s) e) v /\
    exec careful (deco_cmd (Let i e k)) s (Normal (State (write (objs s) i v) (inp s) (env s))).
Proof.
intros G T. destruct (nai_ok (objs s) e) as (z & Z & _); [intros j _; apply (G j)|easy|]. exists z. split; [exact Z|].
apply (x_assign (deco_vars vf) careful i (deco_term k e) s z (env s)); [apply no_cancel_careful, deco_plain|].
rewrite (deco_ev (objs s) k e G). exact (Z (env s)).
Qed.
Lemma path_inv {vf Q} (p : prog vf Q) tr : path p tr ->
  match p with
  | Done => tr = []
  | Let i e k => tr = [Asg i e]
  | Then p q => exists t1 t2, tr = t1 ++ t2 /\ path p t1 /\ path q t2
  | _ => True
  end.
Proof. destruct 1; eauto. Qed.
Lemma tan_program : exists (p : prog (fun _ => binary64) _) s s' x,
  exec careful (@bare_cmd (fun _ => binary64) p) s (Normal s') /\ all_expr (@typed _) p /\ good_store (objs s) /\
  (forall i, mem (x i) (objs s i)) /\ forall tr, path p tr -> rdef tr x /\ ~ mem (rrun tr x 0%nat) (objs s' 0%nat).
Proof.
destruct tan64_refuted as (x & z & r & W & R & Mr & C & N). set (vf := fun _ : nat => binary64).
set (e := Un u_tan (@Var vf 0)). set (s := State (vt := bare_vars vf) (fun _ => x) (string_stream []) (Est 0 0)).
assert (G : good_store (objs s)) by (intros i; exact W).
destruct (bare_let_returns (vf := vf) 0%nat e 0 s G I) as (v & V & X).
exists (Let (vf := vf) 0%nat e 0). exists s. eexists. exists (fun _ => r). split; [exact X|]. split; [exact I|]. split; [exact G|].
split; [intros i; exact Mr|]. intros tr P. apply path_inv in P. subst tr. cbn [rdef rrun to what objs]. split; [now repeat split|].
rewrite (write_same (vt := bare_vars vf)). change (setR (fun _ => r) 0 (val (fun _ => r) e) 0%nat) with (tan r).
assert (E : v = z); [|now rewrite E]. apply (returns_same (tan_itv x)); [|exact R]. exact V.
Qed.
