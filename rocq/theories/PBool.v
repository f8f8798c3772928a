(** * Proofs: relations decide their set-theoretic definitions *)

From Coq Require Import ZArith NArith Reals Bool Lia Lra.
From Flocq Require Import Core.Core IEEE754.BinarySingleNaN.
From Verif Require Import Fmt Spec FloatFacts Exc Deco SpecApi SpecRel MBase PBase MBool MArith PArith PMul PUnary PConv.

Local Open Scope R_scope.

Lemma dec_ret (m : M bool) b P : m = ret b -> (b = true <-> P) -> decides m P.
Proof. intros -> H. exists b. now split. Qed.

Lemma Rle_bool_iff a b : Rle_bool a b = true <-> a <= b.
Proof. case Rle_bool_spec; split; intros; try easy; lra. Qed.
Lemma Rlt_bool_iff a b : Rlt_bool a b = true <-> a < b.
Proof. case Rlt_bool_spec; split; intros; try easy; lra. Qed.

Section S.
Context {F G : fmt} (C : comparable F G) (x : itv F) (y : itv G).
Variables (xl xu : float F) (yl yu : float G).
Hypothesis (Lx : low_end xl x) (Ux : upp_end xu x) (Ly : low_end yl y) (Uy : upp_end yu y).

Ltac c2 := change (fle2 (@finf F) (@fminf G)) with false; change (flt2 (@finf F) (@fminf G)) with false; rewrite ?fle2_fin, ?flt2_fin by easy;
  repeat match goal with
  | |- context [fle2 ?a (@fminf G)] => rewrite (proj1 (cmp2_fin_minf C a ltac:(easy)))
  | |- context [flt2 ?a (@fminf G)] => rewrite (proj1 (proj2 (cmp2_fin_minf C a ltac:(easy))))
  | |- context [fle2 ?a (@finf G)] => rewrite (proj1 (cmp2_fin_pinf C a ltac:(easy)))
  | |- context [flt2 ?a (@finf G)] => rewrite (proj1 (proj2 (cmp2_fin_pinf C a ltac:(easy))))
  | |- context [fle2 (@fminf F) ?a] => rewrite (proj1 (cmp2_minf_fin C a ltac:(easy)))
  | |- context [flt2 (@fminf F) ?a] => rewrite (proj1 (proj2 (cmp2_minf_fin C a ltac:(easy))))
  | |- context [fle2 (@finf F) ?a] => rewrite (proj1 (cmp2_pinf_fin C a ltac:(easy)))
  | |- context [flt2 (@finf F) ?a] => rewrite (proj1 (proj2 (cmp2_pinf_fin C a ltac:(easy))))
  end; rewrite ?Rle_bool_iff, ?Rlt_bool_iff.

Lemma nonempty_low : exists r, mem r x.
Proof. destruct Lx as [(_ & H & _)|[_ H]]; [eauto|]. destruct (H 0) as (r & Hr & _). eauto. Qed.

(** lower ends *)
Lemma low_le : fle2 xl yl = true <-> (forall b, mem b y -> exists a, mem a x /\ a <= b).
Proof.
destruct Lx as [(F1 & M1 & H1)|(-> & H1)], Ly as [(F2 & M2 & H2)|(-> & H2)]; c2.
- split.
  + intros H b Hb. exists (B2R xl). split; [easy|]. specialize (H2 b Hb). lra.
  + intros H. destruct (H _ M2) as (a & Ha & Ha'). specialize (H1 a Ha). lra.
- split; [easy|]. intros H. destruct (H2 (B2R xl)) as (b & Hb & Hb'). destruct (H b Hb) as (a & Ha & Ha').
  specialize (H1 a Ha). lra.
- split; [|easy]. intros _ b Hb. destruct (H1 b) as (a & Ha & Ha'). exists a. split; [easy|lra].
- split; [|easy]. intros _ b Hb. destruct (H1 b) as (a & Ha & Ha'). exists a. split; [easy|lra].
Qed.
Lemma low_lt : flt2 xl yl || (feq xl fminf && feq yl fminf) = true <-> (forall b, mem b y -> exists a, mem a x /\ a < b).
Proof.
destruct Lx as [(F1 & M1 & H1)|(-> & H1)], Ly as [(F2 & M2 & H2)|(-> & H2)]; try rewrite (feq_minf_r xl) by easy; try rewrite (feq_minf_r yl) by easy; cbn [andb]; rewrite ?andb_false_r, ?orb_false_r; c2.
- split.
  + intros H b Hb. exists (B2R xl). split; [easy|]. specialize (H2 b Hb). lra.
  + intros H. destruct (H _ M2) as (a & Ha & Ha'). specialize (H1 a Ha). lra.
- split; [easy|]. intros H. destruct (H2 (B2R xl)) as (b & Hb & Hb'). destruct (H b Hb) as (a & Ha & Ha').
  specialize (H1 a Ha). lra.
- split; [|easy]. intros _ b Hb. destruct (H1 b) as (a & Ha & Ha'). exists a. split; [easy|lra].
- split; [|easy]. intros _ b Hb. destruct (H1 b) as (a & Ha & Ha'). exists a. split; [easy|lra].
Qed.
(** upper ends *)
Lemma upp_le : fle2 xu yu = true <-> (forall a, mem a x -> exists b, mem b y /\ a <= b).
Proof.
destruct Ux as [(F1 & M1 & H1)|(-> & H1)], Uy as [(F2 & M2 & H2)|(-> & H2)]; c2.
- split.
  + intros H b Hb. exists (B2R yu). split; [easy|]. specialize (H1 b Hb). lra.
  + intros H. destruct (H _ M1) as (a & Ha & Ha'). specialize (H2 a Ha). lra.
- split; [|easy]. intros _ b Hb. destruct (H2 b) as (a & Ha & Ha'). exists a. split; [easy|lra].
- split; [easy|]. intros H. destruct (H1 (B2R yu)) as (b & Hb & Hb'). destruct (H b Hb) as (a & Ha & Ha').
  specialize (H2 a Ha). lra.
- split; [|easy]. intros _ b Hb. destruct (H2 b) as (a & Ha & Ha'). exists a. split; [easy|lra].
Qed.
Lemma upp_lt : flt2 xu yu || (feq xu finf && feq yu finf) = true <-> (forall a, mem a x -> exists b, mem b y /\ a < b).
Proof.
destruct Ux as [(F1 & M1 & H1)|(-> & H1)], Uy as [(F2 & M2 & H2)|(-> & H2)]; try rewrite (feq_pinf_r xu) by easy; try rewrite (feq_pinf_r yu) by easy; cbn [andb]; rewrite ?andb_false_r, ?orb_false_r; c2.
- split.
  + intros H b Hb. exists (B2R yu). split; [easy|]. specialize (H1 b Hb). lra.
  + intros H. destruct (H _ M1) as (a & Ha & Ha'). specialize (H2 a Ha). lra.
- split; [|easy]. intros _ b Hb. destruct (H2 b) as (a & Ha & Ha'). exists a. split; [easy|lra].
- split; [easy|]. intros H. destruct (H1 (B2R yu)) as (b & Hb & Hb'). destruct (H b Hb) as (a & Ha & Ha').
  specialize (H2 a Ha). lra.
- split; [|easy]. intros _ b Hb. destruct (H2 b) as (a & Ha & Ha'). exists a. split; [easy|lra].
Qed.
(** upper end of one against lower end of the other *)
Lemma ul_le : fle2 xu yl = true <-> s_precedes x y.
Proof.
unfold s_precedes.
destruct Ux as [(F1 & M1 & H1)|(-> & H1)], Ly as [(F2 & M2 & H2)|(-> & H2)]; c2.
- split; [intros H a b Ha Hb; specialize (H1 a Ha); specialize (H2 b Hb); lra|intros H; auto].
- split; [easy|]. intros H. destruct (H2 (B2R xu)) as (b & Hb & Hb'). specialize (H _ _ M1 Hb). lra.
- split; [easy|]. intros H. destruct (H1 (B2R yl)) as (b & Hb & Hb'). specialize (H _ _ Hb M2). lra.
- split; [easy|]. intros H. destruct (H1 0) as (a & Ha & Ha'). destruct (H2 0) as (b & Hb & Hb'). specialize (H _ _ Ha Hb). lra.
Qed.
Lemma ul_lt : flt2 xu yl = true <-> s_strictly_precedes x y.
Proof.
unfold s_strictly_precedes.
destruct Ux as [(F1 & M1 & H1)|(-> & H1)], Ly as [(F2 & M2 & H2)|(-> & H2)]; c2.
- split; [intros H a b Ha Hb; specialize (H1 a Ha); specialize (H2 b Hb); lra|intros H; auto].
- split; [easy|]. intros H. destruct (H2 (B2R xu)) as (b & Hb & Hb'). specialize (H _ _ M1 Hb). lra.
- split; [easy|]. intros H. destruct (H1 (B2R yl)) as (b & Hb & Hb'). specialize (H _ _ Hb M2). lra.
- split; [easy|]. intros H. destruct (H1 0) as (a & Ha & Ha'). destruct (H2 0) as (b & Hb & Hb'). specialize (H _ _ Ha Hb). lra.
Qed.
End S.

(** Members are exactly what lies between two members. *)
Lemma mem_between {F} (x : itv F) a b r : mem a x -> mem b x -> a <= r <= b -> mem r x.
Proof. intros [H1 _] [_ H2] H. split; [now apply lb_mono with a|now apply ub_mono with b]. Qed.

Lemma s_subset_ends {F G} (x : itv F) (y : itv G) :
  s_subset x y <-> (forall a, mem a x -> exists b, mem b y /\ b <= a) /\ (forall a, mem a x -> exists b, mem b y /\ a <= b).
Proof.
split.
- intros H. split; intros a Ha; exists a; (split; [auto|lra]).
- intros [H1 H2] r Hr. destruct (H1 r Hr) as (a & Ha & Ha'). destruct (H2 r Hr) as (b & Hb & Hb').
  now apply mem_between with a b.
Qed.
Lemma s_interior_ends {F G} (x : itv F) (y : itv G) :
  s_interior x y <-> (forall a, mem a x -> exists b, mem b y /\ b < a) /\ (forall a, mem a x -> exists b, mem b y /\ a < b).
Proof.
split.
- intros H. split; intros a Ha; destruct (H a Ha) as (e & He & Hb).
  + exists (a - e / 2). split; [|lra]. apply Hb. replace (a - e / 2 - a) with (- (e / 2)) by ring.
    rewrite Rabs_Ropp, Rabs_right; lra.
  + exists (a + e / 2). split; [|lra]. apply Hb. replace (a + e / 2 - a) with (e / 2) by ring.
    rewrite Rabs_right; lra.
- intros [H1 H2] r Hr. destruct (H1 r Hr) as (a & Ha & Ha'). destruct (H2 r Hr) as (b & Hb & Hb').
  exists (Rmin (r - a) (b - r)). split; [apply Rmin_glb_lt; lra|].
  intros t Ht. apply Rabs_lt_inv in Ht. apply mem_between with a b; try easy.
  pose proof (Rmin_l (r - a) (b - r)). pose proof (Rmin_r (r - a) (b - r)). lra.
Qed.

Section Rel.
Context {F G : fmt} (C : comparable F G) (x : itv F) (y : itv G) (Wx : wf x) (Wy : wf y).
Let C' := comparable_sym _ _ C.

Ltac setup :=
  vred; destruct (isnan (fst x)) eqn:Ex; vred; destruct (isnan (fst y)) eqn:Ey; vred;
  try (apply wf_nan_l in Ex; [|easy]); try (apply wf_nan_l in Ey; [|easy]);
  eapply dec_ret; try reflexivity.
Ltac ends :=
  match goal with H : isnan (fst x) = false |- _ => 
  let Nx := fresh "Nx" in let Ny := fresh "Ny" in
  let Lx := fresh "Lx" in let Ux := fresh "Ux" in let Ly := fresh "Ly" in let Uy := fresh "Uy" in
  pose proof (wf_nonempty x Wx H) as [Nx ?NXH];
  pose proof (low_end_fst x (wf_view x Wx) H) as Lx; pose proof (upp_end_snd x (wf_view x Wx) H) as Ux
  end;
  match goal with H : isnan (fst y) = false |- _ => 
  let Ny := fresh "Ny" in let Ly := fresh "Ly" in let Uy := fresh "Uy" in
  pose proof (wf_nonempty y Wy H) as [Ny ?NYH];
  pose proof (low_end_fst y (wf_view y Wy) H) as Ly; pose proof (upp_end_snd y (wf_view y Wy) H) as Uy
  end.

Lemma fold_empty {H} : (@fnan H, @fnan H) = empty. Proof. reflexivity. Qed.
Lemma nn {H} (z : itv H) : wf z -> isnan (fst z) = false -> exists r, mem r z.
Proof. intros; now apply wf_nonempty. Qed.

Lemma feq2_le (a : float F) (b : float G) : isnan a = false -> isnan b = false ->
  feq2 a b = true <-> fle2 a b = true /\ fle2 b a = true.
Proof.
destruct (fviewP a) as [ | | |a Fa], (fviewP b) as [ | | |b Fb]; try easy; intros _ _.
- now destruct (cmp2_minf_fin C b Fb) as (-> & _ & ->), (cmp2_fin_minf C' b Fb) as (-> & _ & _).
- now destruct (cmp2_pinf_fin C b Fb) as (-> & _ & ->), (cmp2_fin_pinf C' b Fb) as (-> & _ & _).
- now destruct (cmp2_fin_minf C a Fa) as (-> & _ & ->), (cmp2_minf_fin C' a Fa) as (-> & _ & _).
- now destruct (cmp2_fin_pinf C a Fa) as (-> & _ & ->), (cmp2_pinf_fin C' a Fa) as (-> & _ & _).
- rewrite (feq2_fin C), (fle2_fin C), (fle2_fin C') by easy. rewrite !Rle_bool_iff.
  case Req_bool_spec; split; intros; try easy; lra.
Qed.

Lemma equal_mixed_decides : decides (equal_mixed x y) (s_equal x y).
Proof.
unfold equal_mixed. setup.
- subst x y. split; [|easy]. intros _ r. split; intros H; now apply mem_empty in H.
- subst x. split; [easy|]. intros H. destruct (nn y Wy Ey) as [r Hr]. apply H in Hr. now apply mem_empty in Hr.
- subst y. cbn [fst snd empty]. rewrite feq2_nan_r. split; [easy|]. intros H. destruct (nn x Wx Ex) as [r Hr]. apply H in Hr. now apply mem_empty in Hr.
- ends. rewrite andb_true_iff, !feq2_le by (first [easy|eapply upp_end_nan; eassumption]).
  rewrite (low_le C x y), (upp_le C x y), (low_le C' y x), (upp_le C' y x) by easy.
  split.
  + intros H r. split; intros Hr; [apply (proj2 (s_subset_ends x y))|apply (proj2 (s_subset_ends y x))]; tauto.
  + intros H. assert (H1 : s_subset x y) by (intros r; apply H). assert (H2 : s_subset y x) by (intros r; apply H).
    apply s_subset_ends in H1. apply s_subset_ends in H2. tauto.
Qed.

Lemma subset_mixed_decides : decides (subset_mixed x y) (s_subset x y).
Proof.
unfold subset_mixed. setup.
- subst x. split; [|easy]. intros _ r H; now apply mem_empty in H.
- subst x. split; [|easy]. intros _ r H; now apply mem_empty in H.
- subst y. split; [easy|]. intros H. destruct (nn x Wx Ex) as [r Hr]. apply H in Hr. now apply mem_empty in Hr.
- ends. rewrite andb_true_iff, (low_le C' y x), (upp_le C x y), s_subset_ends by easy. easy.
Qed.

Lemma less_mixed_decides : decides (less_mixed x y) (s_less x y).
Proof.
unfold less_mixed. setup.
- subst x y. split; [|easy]. intros _. split; intros r H; now apply mem_empty in H.
- subst x. split; [easy|]. intros [_ H]. destruct (nn y Wy Ey) as [r Hr]. destruct (H r Hr) as (t & Ht & _). now apply mem_empty in Ht.
- subst y. cbn [fst snd empty]. rewrite fle2_nan_r. split; [easy|]. intros [H _]. destruct (nn x Wx Ex) as [r Hr]. destruct (H r Hr) as (t & Ht & _). now apply mem_empty in Ht.
- ends. rewrite andb_true_iff, (low_le C x y), (upp_le C x y) by easy. unfold s_less. tauto.
Qed.

Lemma precedes_mixed_decides : decides (precedes_mixed x y) (s_precedes x y).
Proof.
unfold precedes_mixed. setup.
- subst x. split; [|easy]. intros _ r s H; now apply mem_empty in H.
- subst x. split; [|easy]. intros _ r s H; now apply mem_empty in H.
- subst y. split; [|easy]. intros _ r s _ H; now apply mem_empty in H.
- ends. now apply ul_le.
Qed.

Lemma interior_mixed_decides : decides (interior_mixed x y) (s_interior x y).
Proof.
unfold interior_mixed. setup.
- subst x. split; [|easy]. intros _ r H; now apply mem_empty in H.
- subst x. split; [|easy]. intros _ r H; now apply mem_empty in H.
- subst y. split; [easy|]. intros H. destruct (nn x Wx Ex) as [r Hr]. destruct (H r Hr) as (e & He & Ht).
  assert (M : mem r (@empty G)). { apply Ht. unfold Rminus. now rewrite Rplus_opp_r, Rabs_R0. } now apply mem_empty in M.
- ends. rewrite andb_true_iff, (low_lt C' y x), (upp_lt C x y), s_interior_ends by easy. easy.
Qed.

Lemma strictly_less_mixed_decides : decides (strictly_less_mixed x y) (s_strictly_less x y).
Proof.
unfold strictly_less_mixed. setup.
- subst x y. split; [|easy]. intros _. split; intros r H; now apply mem_empty in H.
- subst x. split; [easy|]. intros [_ H]. destruct (nn y Wy Ey) as [r Hr]. destruct (H r Hr) as (t & Ht & _). now apply mem_empty in Ht.
- subst y. cbn [fst snd empty]. rewrite !flt2_nan_r, !feq_nan_l, !andb_false_r. split; [easy|]. intros [H _].
  destruct (nn x Wx Ex) as [r Hr]. destruct (H r Hr) as (t & Ht & _). now apply mem_empty in Ht.
- ends. rewrite andb_true_iff, (low_lt C x y), (upp_lt C x y) by easy. unfold s_strictly_less. tauto.
Qed.

Lemma strictly_precedes_mixed_decides : decides (strictly_precedes_mixed x y) (s_strictly_precedes x y).
Proof.
unfold strictly_precedes_mixed. setup.
- subst x. split; [|easy]. intros _ r s H; now apply mem_empty in H.
- subst x. split; [|easy]. intros _ r s H; now apply mem_empty in H.
- subst y. split; [|easy]. intros _ r s _ H; now apply mem_empty in H.
- ends. now apply ul_lt.
Qed.

Lemma disjoint_split : s_nonempty x -> s_nonempty y -> s_disjoint x y <-> s_strictly_precedes x y \/ s_strictly_precedes y x.
Proof.
intros [r Hr] [s Hs]. split.
- intros H. destruct (Rle_or_lt r s) as [L|L]; [left|right]; intros a b Ha Hb; apply Rnot_le_lt; intros Hba.
  + destruct (Rle_or_lt a s).
    * apply (H a). split; [easy|]. now apply mem_between with b s.
    * apply (H s). split; [|easy]. now apply mem_between with r a; try easy; split; lra.
  + destruct (Rle_or_lt r a).
    * apply (H r). split; [easy|]. apply mem_between with s a; try easy; lra.
    * apply (H a). split; [|easy]. apply mem_between with b r; try easy; lra.
- intros [H|H] t [H1 H2]; [specialize (H t t H1 H2)|specialize (H t t H2 H1)]; lra.
Qed.

Lemma disjoint_mixed_ret : disjoint_mixed x y =
  ret (isnan (fst x) || isnan (fst y) || flt2 (snd x) (fst y) || flt2 (snd y) (fst x)).
Proof.
unfold disjoint_mixed. vred. destruct (isnan (fst x)); vred; [easy|]. destruct (isnan (fst y)); vred; [easy|].
now destruct flt2.
Qed.

Lemma disjoint_mixed_decides : decides (disjoint_mixed x y) (s_disjoint x y).
Proof.
rewrite disjoint_mixed_ret. setup.
- subst x. split; [|easy]. intros _ r [H _]; now apply mem_empty in H.
- subst x. split; [|easy]. intros _ r [H _]; now apply mem_empty in H.
- subst y. split; [|easy]. intros _ r [_ H]; now apply mem_empty in H.
- ends. cbn [orb]. rewrite orb_true_iff, (ul_lt C x y), (ul_lt C' y x), disjoint_split by first [easy|now eexists; eauto]. easy.
Qed.

End Rel.

(** ** Same-type, decorated and converse versions *)
Lemma rel_same_decides {F} (rel : itv F -> itv F -> M bool) (P : itv F -> itv F -> Prop) x y :
  (wf x -> wf y -> decides (rel x y) (P x y)) -> wf x -> wf y -> decides (rel_same rel x y) (P x y).
Proof. intros H Wx Wy. unfold rel_same. vred. auto. Qed.

Lemma rel_dec_decides {F G} (rel : itv F -> itv G -> M bool) (P : itv F -> itv G -> Prop) (x : ditv F) (y : ditv G) :
  (wf (fst x) -> wf (fst y) -> decides (rel (fst x) (fst y)) (P (fst x) (fst y))) ->
  wf_dec x -> wf_dec y ->
  decides (rel_dec rel x y) (snd x <> ill /\ snd y <> ill /\ P (fst x) (fst y)).
Proof.
intros H Wx Wy. unfold rel_dec. vred.
destruct (deq_spec (snd x) ill) as [E|E]; vred; [eapply dec_ret; [reflexivity|]; split; [easy|tauto]|].
destruct (deq_spec (snd y) ill) as [E'|E']; vred; [eapply dec_ret; [reflexivity|]; split; [easy|tauto]|].
destruct H as (b & H1 & H2); [now apply wf_dec_wf..|]. exists b. split; [easy|]. tauto.
Qed.

Section Same.
Context {F : fmt} (x y : itv F) (Wx : wf x) (Wy : wf y).
Let C := comparable_refl F.
Lemma equal_decides : decides (equal x y) (s_equal x y).
Proof. apply rel_same_decides; [|easy..]. now apply equal_mixed_decides. Qed.
Lemma subset_decides : decides (subset x y) (s_subset x y).
Proof. apply rel_same_decides; [|easy..]. now apply subset_mixed_decides. Qed.
Lemma less_decides : decides (less x y) (s_less x y).
Proof. apply rel_same_decides; [|easy..]. now apply less_mixed_decides. Qed.
Lemma precedes_decides : decides (precedes x y) (s_precedes x y).
Proof. apply rel_same_decides; [|easy..]. now apply precedes_mixed_decides. Qed.
Lemma interior_decides : decides (interior x y) (s_interior x y).
Proof. apply rel_same_decides; [|easy..]. now apply interior_mixed_decides. Qed.
Lemma strictly_less_decides : decides (strictly_less x y) (s_strictly_less x y).
Proof. apply rel_same_decides; [|easy..]. now apply strictly_less_mixed_decides. Qed.
Lemma strictly_precedes_decides : decides (strictly_precedes x y) (s_strictly_precedes x y).
Proof. apply rel_same_decides; [|easy..]. now apply strictly_precedes_mixed_decides. Qed.
Lemma disjoint_decides : decides (disjoint x y) (s_disjoint x y).
Proof. apply rel_same_decides; [|easy..]. now apply disjoint_mixed_decides. Qed.
End Same.

Lemma op_ne_decides {F G} (C : comparable F G) (x : itv F) (y : itv G) : wf x -> wf y ->
  decides (op_ne x y) (~ s_equal x y).
Proof.
intros Wx Wy. unfold op_ne, op_eq. destruct (equal_mixed_decides C x y Wx Wy) as (b & H1 & H2). exists (negb b). split.
- intros s. unfold mnot, bind. now rewrite H1.
- rewrite <- H2. now destruct b.
Qed.

(** ** Predicates *)
Section Pred.
Context {F : fmt} (x : itv F) (Wx : wf x).

Lemma is_empty_decides : decides (is_empty x) (has_no_member x).
Proof.
rewrite is_empty_wf by easy. eapply dec_ret; [reflexivity|]. destruct (isnan (fst x)) eqn:E.
- apply wf_nan_l in E; [|easy]. subst x. split; [|easy]. intros _ r. apply mem_empty.
- split; [easy|]. intros H. destruct (wf_nonempty x Wx E) as [r Hr]. now apply H in Hr.
Qed.

Lemma is_entire_decides : decides (is_entire x) (has_all_members x).
Proof.
rewrite is_entire_wf by easy. eapply dec_ret; [reflexivity|]. unfold has_all_members.
destruct (wf_view x Wx) as [ | |u Hu|l Hl|l u Hl Hu Hlu]; cbn [fst snd].
- split; [easy|]. intros H. now destruct (H 0).
- split; [|easy]. now intros _ r.
- rewrite feq_pinf_r, andb_false_r by easy. split; [easy|]. intros H. destruct (H (B2R u + 1)) as [_ H'].
  simpl in H'. rewrite ub_fin in H' by easy. lra.
- rewrite feq_minf_r by easy. split; [easy|]. intros H. destruct (H (B2R l - 1)) as [H' _].
  simpl in H'. rewrite lb_fin in H' by easy. lra.
- rewrite feq_minf_r by easy. split; [easy|]. intros H. destruct (H (B2R l - 1)) as [H' _].
  simpl in H'. rewrite lb_fin in H' by easy. lra.
Qed.

Lemma is_singleton_decides : decides (is_singleton x) (s_singleton x).
Proof.
unfold is_singleton. vred. eapply dec_ret; [reflexivity|]. unfold s_singleton.
destruct (wf_view x Wx) as [ | |u Hu|l Hl|l u Hl Hu Hlu]; cbn [fst snd].
- split; [easy|]. intros [r H]. now destruct (proj2 (H r) eq_refl).
- split; [easy|]. intros [r H]. assert (r + 1 = r) by (apply H; easy). lra.
- rewrite feq_minf_l by easy. split; [easy|]. intros [r H].
  assert (Hr : mem r (@fminf F, u)) by now apply H.
  assert (r - 1 = r); [|lra]. apply H. split; [easy|]. destruct Hr as [_ Hr]. simpl in *. apply ub_mono with r; [easy|lra].
- rewrite feq_pinf_r by easy. split; [easy|]. intros [r H].
  assert (Hr : mem r (l, @finf F)) by now apply H.
  assert (r + 1 = r); [|lra]. apply H. split; [|easy]. destruct Hr as [Hr _]. simpl in *. apply lb_mono with r; [easy|lra].
- rewrite feq_fin by easy. case Req_bool_spec; intros E; split; try easy.
  + intros _. exists (B2R l). intros t. unfold mem; simpl. rewrite lb_fin, ub_fin by easy. split; [lra|intros ->; lra].
  + intros [r H].
    assert (E1 : B2R l = r). { apply H. split; simpl; rewrite ?lb_fin, ?ub_fin by easy; lra. }
    assert (E2 : B2R u = r). { apply H. split; simpl; rewrite ?lb_fin, ?ub_fin by easy; lra. }
    congruence.
Qed.

Lemma is_common_wf : is_common_interval x = ret (is_finite (fst x) && is_finite (snd x)).
Proof.
unfold is_common_interval. vred.
destruct (wf_view x Wx) as [ | |u Hu|l Hl|l u Hl Hu Hlu]; cbn [fst snd].
- easy.
- easy.
- easy.
- rewrite isnan_fin by easy. vred. rewrite Hl. f_equal. cbn. now rewrite andb_false_r.
- rewrite isnan_fin by easy. vred. rewrite Hl, Hu. f_equal. now destruct l as [|[]| |], u as [|[]| |].
Qed.

Lemma is_common_decides : decides (is_common_interval x) (s_nonempty x /\ s_bounded x).
Proof.
rewrite is_common_wf. eapply dec_ret; [reflexivity|]. unfold s_nonempty, s_bounded.
destruct (wf_view x Wx) as [ | |u Hu|l Hl|l u Hl Hu Hlu]; cbn [fst snd].
- split; [easy|]. intros [[r []] _]; easy.
- split; [easy|]. intros [_ [B H]]. specialize (H (Rabs B + 1)). assert (Rabs (Rabs B + 1) <= B) by now apply H.
  pose proof (Rabs_pos B). pose proof (Rle_abs B). rewrite Rabs_right in H0 by lra. lra.
- rewrite andb_false_l. split; [easy|]. intros [_ [B H]]. exfalso.
  set (r := - (Rabs B + Rabs (B2R u) + 1)).
  assert (H0 : Rabs r <= B). { apply H. split; [easy|]. simpl. rewrite ub_fin by easy. unfold r.
    pose proof (Rabs_pos B). pose proof (Rle_abs (- B2R u)). rewrite Rabs_Ropp in H1. lra. }
  unfold r in H0. rewrite Rabs_Ropp, Rabs_right in H0;
  pose proof (Rle_abs B); pose proof (Rabs_pos B); pose proof (Rabs_pos (B2R u)); lra.
- rewrite andb_false_r. split; [easy|]. intros [_ [B H]]. exfalso.
  set (r := (Rabs B + Rabs (B2R l) + 1)).
  assert (H0 : Rabs r <= B). { apply H. split; [|easy]. simpl. rewrite lb_fin by easy. unfold r.
    pose proof (Rabs_pos B). pose proof (Rle_abs (B2R l)). lra. }
  unfold r in H0. rewrite Rabs_right in H0;
  pose proof (Rle_abs B); pose proof (Rabs_pos B); pose proof (Rabs_pos (B2R l)); lra.
- rewrite Hl, Hu. split; [|easy]. intros _. split.
  + exists (B2R l). split; simpl; rewrite ?lb_fin, ?ub_fin by easy; lra.
  + exists (Rmax (Rabs (B2R l)) (Rabs (B2R u))). intros r [H1 H2]. simpl in H1, H2.
    rewrite lb_fin in H1 by easy. rewrite ub_fin in H2 by easy. now apply RmaxAbs.
Qed.

End Pred.

Lemma is_member_mixed_decides {F G} (C : comparable F G) (m : float G) (x : itv F) : wf x ->
  decides (is_member_mixed m x) (is_finite m = true /\ mem (B2R m) x).
Proof.
intros Wx. unfold is_member_mixed. vred. eapply dec_ret; [reflexivity|].
pose proof (comparable_sym _ _ C) as C'.
destruct (fviewP m) as [ | | |m Fm].
- rewrite fle2_nan_r. split; easy.
- rewrite andb_false_r. split; easy.
- rewrite andb_false_r. split; easy.
- replace (isinf m) with false by (now destruct m as [|[]| |]). rewrite andb_true_r, andb_true_iff.
  unfold mem.
  destruct (wf_view x Wx) as [ | |u Hu|l Hl|l u Hl Hu Hlu]; cbn [fst snd].
  + rewrite fle2_nan_l. split; [easy|]. now intros (_ & H & _).
  + rewrite (proj1 (cmp2_minf_fin C m Fm)), (proj1 (cmp2_fin_pinf C' m Fm)). split; easy.
  + rewrite (proj1 (cmp2_minf_fin C m Fm)), (fle2_fin C'), Rle_bool_iff, ub_fin by easy. split; try tauto; easy.
  + rewrite (fle2_fin C), Rle_bool_iff, lb_fin, (proj1 (cmp2_fin_pinf C' m Fm)) by easy. split; try tauto; easy.
  + rewrite (fle2_fin C), (fle2_fin C'), !Rle_bool_iff, lb_fin, ub_fin by easy. tauto.
Qed.
Lemma is_member_decides {F} (m : float F) (x : itv F) : wf x ->
  decides (is_member m x) (is_finite m = true /\ mem (B2R m) x).
Proof. intros Wx. unfold is_member. vred. apply is_member_mixed_decides; [apply comparable_refl|easy]. Qed.

Lemma pred_dec_decides {F} (p : itv F -> M bool) (P : itv F -> Prop) (x : ditv F) :
  (wf (fst x) -> decides (p (fst x)) (P (fst x))) -> wf_dec x ->
  decides (mif (mor (mnot (is_valid_dec x)) (is_nai x)) (ret false) (p (fst x))) (snd x <> ill /\ P (fst x)).
Proof.
intros H Wx. vred.
destruct (deq_spec (snd x) ill) as [E|E]; vred; [eapply dec_ret; [reflexivity|]; split; [easy|tauto]|].
destruct H as (b & H1 & H2); [now apply wf_dec_wf|]. exists b. split; [easy|]. tauto.
Qed.
