(** * Proofs: valid intervals in, valid intervals out *)
From Coq Require Import ZArith NArith Reals Bool Lra List Classical.
From Flocq Require Import Core.Core IEEE754.BinarySingleNaN.
From Verif Require Import Fmt Spec FloatFacts Exc Deco SpecApi SpecElem SpecDeco SpecMixed SpecNum SpecNai SpecProg MBase PBase MBool MArith PArith
  PConv PBool PSetop PClass PDec PRevW PNai.
Import ListNotations.
Local Open Scope R_scope.
Local Open Scope m_scope.

(** ** The monad *)
Lemma del_ret {A} (a : A) (P : A -> Prop) : P a -> delivers (ret a) P.
Proof. intros H s b s' E. now inversion E; subst. Qed.
Lemma del_undef {A} (P : A -> Prop) : delivers (@undef A) P.
Proof. intros s b s' E. discriminate E. Qed.
Lemma del_bind {A B} (m : M A) (k : A -> M B) (Q : A -> Prop) (P : B -> Prop) :
  delivers m Q -> (forall a, Q a -> delivers (k a) P) -> delivers (bind m k) P.
Proof.
intros H1 H2 s b s' E. unfold bind in E. destruct (m s) as [[a|e|] s1] eqn:E1; try discriminate E.
exact (H2 a (H1 _ _ _ E1) _ _ _ E).
Qed.
Lemma del_any {A} (m : M A) : delivers m (fun _ => True). Proof. easy. Qed.
Lemma del_then {A B} (m : M A) (k : A -> M B) (P : B -> Prop) : (forall a, delivers (k a) P) -> delivers (bind m k) P.
Proof. intros H. apply del_bind with (1 := del_any m). auto. Qed.
Lemma del_mif {A} c (t e : M A) (P : A -> Prop) : delivers t P -> delivers e P -> delivers (mif c t e) P.
Proof. intros H1 H2. apply del_then. now intros []. Qed.
Lemma del_if {A} (b : bool) (t e : M A) (P : A -> Prop) : (b = true -> delivers t P) -> (b = false -> delivers e P) -> delivers (if b then t else e) P.
Proof. destruct b; auto. Qed.
Lemma del_impl {A} (m : M A) (P Q : A -> Prop) : (forall a, P a -> Q a) -> delivers m P -> delivers m Q.
Proof. intros H1 H2 s a s' E. apply H1. exact (H2 _ _ _ E). Qed.
Lemma del_returns {A} (m : M A) a (P : A -> Prop) : returns m a -> P a -> delivers m P.
Proof. intros H1 H2 s b s' E. rewrite H1 in E. now inversion E; subst. Qed.
Lemma del_gives {A} (m : M A) (P : A -> Prop) : gives m P -> delivers m P.
Proof. intros (a & H1 & H2). now apply del_returns with a. Qed.
Lemma del_reports {A} b e (m : M A) a (P : A -> Prop) : reports b e m a -> P a -> delivers m P.
Proof. intros H1 H2 s c s' E. rewrite H1 in E. destruct masked; [discriminate E|]. now inversion E; subst. Qed.
Lemma del_tight {F} (m : M (itv F)) S : computes_tightest m S -> delivers m wf.
Proof. intros (z & H1 & H2). apply del_returns with (1 := H1). now apply tightest_wf in H2. Qed.
Lemma del_encl {F} (m : M (itv F)) S : computes_enclosure m S -> delivers m wf.
Proof. intros (z & H1 & H2 & _). now apply del_returns with (1 := H1). Qed.

(** ** Set operations of arbitrary representations *)
Section Bare.
Context {F : fmt}.
Implicit Types x y z c b : itv F.
Lemma del_inter x y : delivers (intersection x y) wf.
Proof.
destruct (wf_dec_em x) as [Wx|Nx]; [destruct (wf_dec_em y) as [Wy|Ny]|].
- apply del_tight with (1 := intersection_tightest x y Wx Wy).
- unfold intersection. rewrite is_valid_wf by easy. mreds. unfold mif. apply del_bind with (Q := fun v => v = true).
  + apply del_reports with (2 := eq_refl) (b := invalid_operand_bit) (e := Invalid_operand_exception). change true with (negb false) at 1.
    apply reports_mnot, is_valid_reports, Ny.
  + intros v ->. apply del_ret, wf_empty.
- unfold intersection, mif. apply del_bind with (Q := fun v => v = true).
  + apply del_reports with (2 := eq_refl) (b := invalid_operand_bit) (e := Invalid_operand_exception). apply reports_mor_true. change true with (negb false) at 1.
    apply reports_mnot, is_valid_reports, Nx.
  + intros v ->. apply del_ret, wf_empty.
Qed.
Lemma del_hull x y : delivers (convex_hull x y) wf.
Proof.
destruct (wf_dec_em x) as [Wx|Nx]; [destruct (wf_dec_em y) as [Wy|Ny]|].
- apply del_tight with (1 := hull_tightest x y Wx Wy).
- unfold convex_hull. rewrite is_valid_wf by easy. mreds. unfold mif. apply del_bind with (Q := fun v => v = true).
  + apply del_reports with (2 := eq_refl) (b := invalid_operand_bit) (e := Invalid_operand_exception). change true with (negb false) at 1.
    apply reports_mnot, is_valid_reports, Ny.
  + intros v ->. apply del_ret, wf_empty.
- unfold convex_hull, mif. apply del_bind with (Q := fun v => v = true).
  + apply del_reports with (2 := eq_refl) (b := invalid_operand_bit) (e := Invalid_operand_exception). apply reports_mor_true. change true with (negb false) at 1.
    apply reports_mnot, is_valid_reports, Nx.
  + intros v ->. apply del_ret, wf_empty.
Qed.
Lemma bounds_wf (l u : float F) : isnan l = false -> isnan u = false -> fgt l u = false -> l <> finf -> u <> fminf -> wf (l, u).
Proof.
intros N1 N2 H L U. apply vcond_wf. unfold vcond. cbn [fst snd]. rewrite N1. cbn [andb orb].
destruct (fviewP l) as [ | | |l Fl]; try easy; destruct (fviewP u) as [ | | |u Fu]; try easy.
- unfold fne. now destruct u.
- unfold fne. now destruct l as [| | |[]].
- rewrite fgt_fin in H by easy. unfold fne. rewrite fle_fin by easy.
  change (Beqb l finf) with (feq l finf). change (Beqb u fminf) with (feq u fminf).
  rewrite feq_pinf_r, feq_minf_r by easy. cbn [negb]. rewrite !andb_true_r. apply Rle_bool_true.
  revert H. case Rlt_bool_spec; [easy|]. intros. lra.
Qed.
End Bare.

(** ** Wrappers *)
Lemma vd_nai {F} : valid_dec (@nai F). Proof. split; [apply wf_dec_nai|]. now left. Qed.
Lemma vd_empty {F} : valid_dec (@empty_dec F). Proof. split; [apply wf_dec_empty|]. right. now left. Qed.
Lemma vd_entire {F} : valid_dec (@entire_dec F). Proof. split; [apply wf_entire_dec|]. do 3 right. now left. Qed.
Lemma vd_trv {F} (z : itv F) : wf z -> valid_dec (z, trv).
Proof. intros H. split; [now apply wf_dec_trv|]. right. now left. Qed.
Lemma vd_wf {F} (x : ditv F) : valid_dec x -> wf (fst x). Proof. intros [H _]. now apply wf_dec_wf. Qed.
Lemma conv_dec {F} T (x : ditv F) : valid_dec x -> delivers (convert_hull_dec T x) valid_dec.
Proof.
intros [W D]. destruct (N.eq_dec (snd x) ill) as [E|E].
- rewrite (convert_hull_dec_nai T x W E). apply del_ret, vd_nai.
- pose proof (convert_type_dec_ok T x W E) as (z & d & H1 & _ & H2 & H3 & _).
  assert (H : convert_hull_dec T x = ret (z, d)).
  { apply returns_eq in H1. unfold convert_type_dec in H1. rewrite is_valid_dec_wf in H1 by easy. revert H1. now mreds. }
  rewrite H. apply del_ret. split; [easy|]. cbn [snd]. destruct H3 as [->|[_ ->]]; [easy|]. do 3 right. now left.
Qed.
Lemma d1 {F} (opd : ditv F -> M (ditv F)) op dom f v : decorates1 opd op dom f -> on_nai1 opd v -> valid_dec v ->
  forall x, valid_dec x -> delivers (opd x) valid_dec.
Proof.
intros H N V x [W D]. destruct (N.eq_dec (snd x) ill) as [E|E].
- now apply del_returns with (1 := N x W E).
- destruct (H x W D E) as (z & H1 & H2 & H3 & _). now apply del_returns with (1 := H1).
Qed.
Lemma d2 {F} (opd : ditv F -> ditv F -> M (ditv F)) op dom f v : decorates2 opd op dom f -> on_nai2 opd v -> valid_dec v ->
  forall x y, valid_dec x -> valid_dec y -> delivers (opd x y) valid_dec.
Proof.
intros H N V x y [W D] [W' D']. destruct (N.eq_dec (snd x) ill) as [E|E]; [|destruct (N.eq_dec (snd y) ill) as [E'|E']].
- apply del_returns with (2 := V). apply N; auto.
- apply del_returns with (2 := V). apply N; auto.
- destruct (H x y W D E W' D' E') as (z & H1 & H2 & H3 & _). now apply del_returns with (1 := H1).
Qed.
Lemma d3 {F} (opd : ditv F -> ditv F -> ditv F -> M (ditv F)) op f v : decorates3 opd op f -> on_nai3 opd v -> valid_dec v ->
  forall x y w, valid_dec x -> valid_dec y -> valid_dec w -> delivers (opd x y w) valid_dec.
Proof.
intros H N V x y w [W D] [W' D'] [W'' D'']. destruct (N.eq_dec (snd x) ill) as [E|E]; [|destruct (N.eq_dec (snd y) ill) as [E'|E']];
  [| |destruct (N.eq_dec (snd w) ill) as [E''|E'']].
- apply del_returns with (2 := V). apply N; auto.
- apply del_returns with (2 := V). apply N; auto.
- apply del_returns with (2 := V). apply N; auto.
- destruct (H x y w W D E W' D' E' W'' D'' E'') as (z & H1 & H2 & H3 & _). now apply del_returns with (1 := H1).
Qed.
