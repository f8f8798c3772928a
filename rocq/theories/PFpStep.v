(** * Proofs: programs of assignments in floating-point arithmetic stay inside *)
From Coq Require Import ZArith NArith Reals Bool Lra List PeanoNat Eqdep_dec.
From Flocq Require Import Core.Core IEEE754.BinarySingleNaN.
From Verif Require Import Fmt Spec Exc Deco SpecApi SpecElem SpecDeco SpecIso SpecProg MBase PBase PDec PConv MMixed SpecExpr MExpr PIso PExpr MTrig PTanF MRead MClass SpecClass PObj PObj2 MStep SpecStep PStep PStep2 SpecFp PFp SpecFpStep.
Import ListNotations.
Local Open Scope R_scope.

Section Fine.
Context {vf : nat -> fmt}.
Lemma tan_fine_subst s X Y {F} (e : expr vf F) : (forall i, beval X (s i) = ret (Y i)) -> (forall i, tan_fine (fun F a z => returns (beval X a) z) (s i)) ->
  tan_fine (fun F a z => returns (beval Y a) z) e -> tan_fine (fun F a z => returns (beval X a) z) (subst s e).
Proof.
intros E S. induction e; cbn [subst tan_fine]; rewrite ?(beval_subst s X Y) by exact E; try tauto. intros _. apply S.
Qed.
Lemma inline_snoc (tr : list (asg vf)) a : inline (tr ++ [a]) = setE (inline tr) (to a) (subst (inline tr) (what a)).
Proof. unfold inline. rewrite inline_app. reflexivity. Qed.
Lemma fine_inline (X : ienv vf) tr : (forall i, wf (X i)) -> Forall (fun a => typed (what a)) tr -> fine_way X tr ->
  forall i, tan_fine (fun F a z => returns (beval X a) z) (inline tr i).
Proof.
intros W T. induction tr as [|a tr IH] using rev_ind; intros FW; [easy|].
apply Forall_app in T. destruct T as [T1 T2]. inversion T2 as [|? ? Ta _]; subst.
assert (IHi : forall i, tan_fine (fun F a z => returns (beval X a) z) (inline tr i)).
{ apply IH; [easy|]. intros pre b post E Y HY. apply (FW pre b (post ++ [a])); [|easy]. now rewrite E, <- app_assoc. }
assert (TY : forall i, typed (inline tr i)) by (apply (inline_all (@typed vf)); [intros; now apply typed_subst|easy|easy]).
assert (K : forall i, exists y, returns (beval X (inline tr i)) y).
{ intros i. destruct (bare_ok X (inline tr i) (fun j _ => W j) (TY i) (IHi i)) as (z & Z & _). now exists z. }
set (Y := (fun i => match fst (beval X (inline tr i) (Est 0 0)) with Ret y => y | _ => X i end) : ienv vf).
assert (HY : forall i, returns (beval X (inline tr i)) (Y i)).
{ intros i. destruct (K i) as [y Hy]. unfold Y. rewrite (Hy (Est 0 0)). exact Hy. }
rewrite inline_snoc. apply (setE_all _ _ _ (fun F e => tan_fine (fun F a z => returns (beval X a) z) e)); [easy|].
apply (tan_fine_subst _ X Y); [|easy|].
- intros i. now apply returns_eq.
- now apply (FW tr a []).
Qed.
Lemma safe_way (X : ienv vf) tr : (forall i, wf (X i)) -> Forall (fun a => typed (what a)) tr -> Forall (fun a => safe_tan (what a)) tr -> fine_way X tr.
Proof.
intros W T S pre a post E Y HY. subst tr. apply Forall_app in T, S. destruct T as [T1 T2], S as [S1 S2]. inversion T2; inversion S2; subst.
apply tan_types_fine; try easy. intros i _.
assert (TY : typed (inline pre i)) by (apply (inline_all (@typed vf)); [intros; now apply typed_subst|easy|easy]).
assert (SY : safe_tan (inline pre i)) by (apply (inline_all (@safe_tan vf)); [intros; now apply tan_types_subst|easy|easy]).
destruct (bare_ok X (inline pre i) (fun j _ => W j) TY (tan_types_fine _ _ (fun j _ => W j) TY SY)) as (z & Z & Wz & _).
now rewrite (returns_same _ _ _ (HY i) Z).
Qed.
(** ** Floating-point runs *)
Lemma feval_subst s (p q : fenv vf) {F} (e : expr vf F) v : (forall i, feval p (s i) (q i)) -> feval q e v -> feval p (subst s e) v.
Proof.
intros S. revert v. induction e; cbn [subst feval]; intros v.
- intros ->. apply S.
- intros (r & Q1 & K). exists r. split; [apply IHe, Q1|exact K].
- intros (r & t & Q1 & Q2 & K). exists r, t. split; [apply IHe1, Q1|]. split; [apply IHe2, Q2|exact K].
- intros (r & t & w & Q1 & Q2 & Q3 & K). exists r, t, w. split; [apply IHe1, Q1|]. split; [apply IHe2, Q2|]. split; [apply IHe3, Q3|exact K].
- intros (r & Q1 & K). exists r. split; [apply IHe, Q1|exact K].
- intros (r & t & Q1 & Q2 & K). exists r, t. split; [apply IHe1, Q1|]. split; [apply IHe2, Q2|exact K].
- intros (r & t & w & Q1 & Q2 & Q3 & K). exists r, t, w. split; [apply IHe1, Q1|]. split; [apply IHe2, Q2|]. split; [apply IHe3, Q3|exact K].
Qed.
Lemma setE_feval s (p q : fenv vf) i (e : expr vf (vf i)) v : (forall j, feval p (s j) (q j)) -> feval p e v -> forall j, feval p (setE s i e j) (setF q i v j).
Proof. intros S H j. unfold setE, setF. destruct (Nat.eq_dec i j) as [<-|N]; [exact H|apply S]. Qed.
Lemma frun_inline tr q q' : frun tr q q' -> forall s (p : fenv vf), (forall i, feval p (s i) (q i)) -> forall i, feval p (inline_from s tr i) (q' i).
Proof.
induction 1 as [q|a tr q v q' H R IH]; intros s p S; cbn [inline_from]; [exact S|]. apply IH. apply setE_feval; [exact S|]. now apply (feval_subst s p q).
Qed.
(** ** Programs *)
Lemma bare_fine p (tr : list (asg vf)) (X Y : ienv vf) : path (Q := store (bare_vars vf) -> M bool) p tr -> all_expr (@typed vf) p -> (forall i, wf (X i)) ->
  fine_way X tr -> (forall i, returns (beval X (inline tr i)) (Y i)) ->
  (forall x, (forall i, mem (x i) (X i)) -> rdef tr x -> forall i, mem (rrun tr x i) (Y i)) /\
  (forall x y, (forall i, mem (B2R (x i)) (X i)) -> frun tr x y -> forall i, mem (B2R (y i)) (Y i)).
Proof.
intros P T W S K. assert (Ts := path_all _ p _ P T). assert (Fi := fine_inline X tr W Ts S).
assert (Ti : forall i, typed (inline tr i)) by (apply (inline_all (@typed vf)); [intros; now apply typed_subst|easy|easy]).
split.
- intros x B D i. destruct (bare_ok X (inline tr i) (fun j _ => W j) (Ti i) (Fi i)) as (z & Z & _ & V).
  rewrite (returns_same _ _ _ (K i) Z). unfold inline in V. specialize (V x). rewrite inline_val in V. apply V; [intros j _; apply B|]. apply inline_dom; [easy|exact D].
- intros x y B R i. destruct (fp_bare X x (inline tr i) (fun j _ => W j) (Ti i) (Fi i) (fun j _ => B j)) as (z & Z & V).
  rewrite (returns_same _ _ _ (K i) Z). apply V. now apply (frun_inline tr x y R).
Qed.
Lemma deco_fine p (tr : list (asg vf)) (X Y : store (deco_vars vf)) : path (Q := store (deco_vars vf) -> M bool) p tr -> all_expr (@typed vf) p ->
  (forall i, proper (X i)) -> fine_way (parts X) tr -> (forall i, returns (deval X (inline tr i)) (Y i)) -> forall i,
  honest near_env (in_box (inline tr i) (parts X)) (fun x => dom x (inline tr i)) (bounded_box (inline tr i) (parts X))
    (fun x => rrun tr x i) (fst (Y i)) (snd (Y i)) /\
  (forall x, (forall j, mem (x j) (fst (X j))) -> rdef tr x -> mem (rrun tr x i) (fst (Y i))) /\
  (forall x, (forall j, mem (B2R (x j)) (fst (X j))) ->
    (forall y, frun tr x y -> mem (B2R (y i)) (fst (Y i))) /\
    ((def <= snd (Y i))%N -> never_invalid x (inline tr i)) /\ ((com <= snd (Y i))%N -> never_overflow x (inline tr i))).
Proof.
intros P T B S K i. assert (W : forall i, wf (parts X i)) by (intros j; apply proper_wf, B).
assert (Ts := path_all _ p _ P T). assert (Fi := fine_inline (parts X) tr W Ts S i).
assert (Ti : typed (inline tr i)) by (apply (inline_all (@typed vf)); [intros; now apply typed_subst|easy|easy]).
destruct (decorated_ok X (inline tr i) (fun j _ => B j) Ti Fi) as (z & Z & _ & _ & _ & V & Ho).
rewrite (returns_same _ _ _ (K i) Z).
split; [revert Ho; apply honest_ext; intros x; unfold inline; now rewrite inline_val|]. split.
- intros x Mx D. assert (Dm : dom x (inline tr i)) by (apply inline_dom; [easy|exact D]).
  pose proof (V x (fun j _ => Mx j) Dm) as K'. unfold inline in K'. now rewrite inline_val in K'.
- intros x Mx. destruct (fp_deco X x (inline tr i) (fun j _ => B j) Ti Fi (fun j _ => Mx j)) as (z' & Z' & V1 & V2 & V3).
  rewrite (returns_same _ _ _ Z' Z) in *. split; [|split; [exact V2|intros H; apply (V3 H)]].
  intros y R. apply V1. now apply (frun_inline tr x y R).
Qed.
End Fine.
