(** * Proofs: answers of different functions agree *)
From Coq Require Import ZArith NArith Reals Bool Lra Lia List Classical.
From Flocq Require Import Core.Core IEEE754.BinarySingleNaN.
From Verif Require Import Fmt Spec FloatFacts Exc Deco SpecApi SpecRel SpecOverlap SpecNum MBase PBase MBool MOverlap MNum MArith PArith PUnary PBool PSetop PConv PNum PDec PMixed MMixed SpecMixed SpecAgree.
Import ListNotations.
Local Open Scope R_scope.
Local Open Scope m_scope.

(** ** Forms *)
Lemma both_decides m n P Q : decides m P -> decides n Q -> decides (both m n) (P /\ Q).
Proof.
intros (a & A1 & A2) (b & B1 & B2). apply returns_eq in A1, B1. exists (a && b)%bool. split.
- unfold both. rewrite A1, B1. now intros s.
- rewrite andb_true_iff. tauto.
Qed.
Lemma same_dec m n P Q : decides m P -> decides n Q -> (P <-> Q) -> same_answer m n.
Proof.
intros (a & A1 & A2) (b & B1 & B2) H. assert (a = b) by (apply eq_true_iff_eq; tauto). subst b. now exists a.
Qed.
Lemma follows_dec m n P Q : decides m P -> decides n Q -> (P -> Q) -> follows m n.
Proof. intros (a & A1 & A2) (b & B1 & B2) H. exists a, b. split; [exact A1|]. split; [exact B1|]. tauto. Qed.
Lemma always_dec m P : decides m P -> P -> always m.
Proof. intros (a & A1 & A2) H. apply A2 in H. subst a. exact A1. Qed.
Lemma decides_bind {A} (m : M A) a (k : A -> M bool) P : returns m a -> decides (k a) P -> decides (bind m k) P.
Proof. intros H (b & B1 & B2). apply returns_eq in H, B1. rewrite H. mreds. rewrite B1. exists b. split; [now intros s|easy]. Qed.

(** ** Order *)
Section Rel.
Context {F G H : fmt}.
Hypotheses (CFG : comparable F G) (CGH : comparable G H) (CFH : comparable F H).
Variables (x : itv F) (y : itv G) (z : itv H).
Hypotheses (Wx : wf x) (Wy : wf y) (Wz : wf z).
Let CGF : comparable G F := comparable_sym _ _ CFG.
Lemma l_subset_antisym : same_answer (both (subset_mixed x y) (subset_mixed y x)) (equal_mixed x y).
Proof.
eapply same_dec; [apply both_decides; now apply subset_mixed_decides|now apply equal_mixed_decides|]. split; [intros [A B] r; split; [apply A|apply B]|]. intros E. split; intros r; apply E.
Qed.
Lemma l_subset_trans : follows (both (subset_mixed x y) (subset_mixed y z)) (subset_mixed x z).
Proof.
eapply follows_dec; [apply both_decides; now apply subset_mixed_decides|now apply subset_mixed_decides|]. intros [A B] r Hr. apply B. now apply A.
Qed.
Lemma l_equal_sym : same_answer (equal_mixed x y) (equal_mixed y x).
Proof. eapply same_dec; [now apply equal_mixed_decides|now apply equal_mixed_decides|]. split; intros E r; split; apply E. Qed.
Lemma l_less_trans : follows (both (less_mixed x y) (less_mixed y z)) (less_mixed x z).
Proof.
eapply follows_dec; [apply both_decides; now apply less_mixed_decides|now apply less_mixed_decides|]. intros [[A1 A2] [B1 B2]]. split.
- intros a Ha. destruct (A1 a Ha) as (b & Hb & L). destruct (B1 b Hb) as (c & Hc & L'). exists c. split; [easy|lra].
- intros a Ha. destruct (B2 a Ha) as (b & Hb & L). destruct (A2 b Hb) as (c & Hc & L'). exists c. split; [easy|lra].
Qed.
Lemma mem_conv {K} (w : itv K) a b t : mem a w -> mem b w -> a <= t <= b -> mem t w.
Proof. intros [A1 A2] [B1 B2] T. split; [now apply lb_mono with a|now apply ub_mono with b]. Qed.
Lemma l_less_antisym : same_answer (both (less_mixed x y) (less_mixed y x)) (equal_mixed x y).
Proof.
eapply same_dec; [apply both_decides; now apply less_mixed_decides|now apply equal_mixed_decides|]. split.
- intros [[A1 A2] [B1 B2]] r. split; intros Hr.
  + destruct (A1 r Hr) as (b & Hb & L). destruct (B2 r Hr) as (c & Hc & L'). now apply mem_conv with c b.
  + destruct (B1 r Hr) as (b & Hb & L). destruct (A2 r Hr) as (c & Hc & L'). now apply mem_conv with c b.
- intros E. repeat split; intros a Ha; exists a; (split; [now apply E|lra]).
Qed.
Lemma l_strictly_less_trans : follows (both (strictly_less_mixed x y) (strictly_less_mixed y z)) (strictly_less_mixed x z).
Proof.
eapply follows_dec; [apply both_decides; now apply strictly_less_mixed_decides|now apply strictly_less_mixed_decides|]. intros [[A1 A2] [B1 B2]]. split.
- intros a Ha. destruct (A1 a Ha) as (b & Hb & L). destruct (B1 b Hb) as (c & Hc & L'). exists c. split; [easy|lra].
- intros a Ha. destruct (B2 a Ha) as (b & Hb & L). destruct (A2 b Hb) as (c & Hc & L'). exists c. split; [easy|lra].
Qed.
Lemma l_strictly_less_less : follows (strictly_less_mixed x y) (less_mixed x y).
Proof.
eapply follows_dec; [now apply strictly_less_mixed_decides|now apply less_mixed_decides|]. intros [A1 A2]. split.
- intros a Ha. destruct (A1 a Ha) as (b & Hb & L). exists b. split; [easy|lra].
- intros a Ha. destruct (A2 a Ha) as (b & Hb & L). exists b. split; [easy|lra].
Qed.
Lemma l_less_strict_trans : follows (both (less_mixed x y) (strictly_less_mixed y z)) (strictly_less_mixed x z).
Proof.
eapply follows_dec; [apply both_decides; [now apply less_mixed_decides|now apply strictly_less_mixed_decides]|now apply strictly_less_mixed_decides|]. intros [[A1 A2] [B1 B2]]. split.
- intros a Ha. destruct (A1 a Ha) as (b & Hb & L). destruct (B1 b Hb) as (c & Hc & L'). exists c. split; [easy|lra].
- intros a Ha. destruct (B2 a Ha) as (b & Hb & L). destruct (A2 b Hb) as (c & Hc & L'). exists c. split; [easy|lra].
Qed.
Lemma l_precedes_strict : same_answer (strictly_precedes_mixed x y) (both (precedes_mixed x y) (disjoint_mixed x y)).
Proof.
eapply same_dec; [now apply strictly_precedes_mixed_decides|apply both_decides; [now apply precedes_mixed_decides|now apply disjoint_mixed_decides]|]. split.
- intros A. split; [intros a b Ha Hb; specialize (A a b Ha Hb); lra|]. intros r [Hx Hy]. specialize (A r r Hx Hy). lra.
- intros [A B] a b Ha Hb. destruct (A a b Ha Hb) as [L|L]; [easy|]. subst. exfalso. now apply (B b).
Qed.
Lemma l_precedes_less : s_nonempty x -> s_nonempty y -> follows (precedes_mixed x y) (less_mixed x y).
Proof.
intros [a0 A0] [b0 B0]. eapply follows_dec; [now apply precedes_mixed_decides|now apply less_mixed_decides|]. intros P. split.
- intros a Ha. exists b0. split; [easy|]. now apply P.
- intros b Hb. exists a0. split; [easy|]. now apply P.
Qed.
(** [precedes] is transitive over a nonempty set. *)
Lemma l_precedes_trans : s_nonempty y -> follows (both (precedes_mixed x y) (precedes_mixed y z)) (precedes_mixed x z).
Proof.
intros [b0 B0]. eapply follows_dec; [apply both_decides; now apply precedes_mixed_decides|now apply precedes_mixed_decides|].
intros [A B] a c Ha Hc. specialize (A a b0 Ha B0). specialize (B b0 c B0 Hc). lra.
Qed.
Lemma l_interior_subset : follows (interior_mixed x y) (subset_mixed x y).
Proof.
eapply follows_dec; [now apply interior_mixed_decides|now apply subset_mixed_decides|]. intros A r Hr. destruct (A r Hr) as (e & He & B). apply B. now rewrite Rminus_eq_0, Rabs_R0.
Qed.
Lemma l_interior_trans : follows (both (interior_mixed x y) (subset_mixed y z)) (interior_mixed x z).
Proof.
eapply follows_dec; [apply both_decides; [now apply interior_mixed_decides|now apply subset_mixed_decides]|now apply interior_mixed_decides|].
intros [A B] r Hr. destruct (A r Hr) as (e & He & C). exists e. split; [easy|]. intros t Ht. apply B. now apply C.
Qed.
Lemma l_interior_trans' : follows (both (subset_mixed x y) (interior_mixed y z)) (interior_mixed x z).
Proof.
eapply follows_dec; [apply both_decides; [now apply subset_mixed_decides|now apply interior_mixed_decides]|now apply interior_mixed_decides|].
intros [A B] r Hr. apply B. now apply A.
Qed.
Lemma l_disjoint_sym : same_answer (disjoint_mixed x y) (disjoint_mixed y x).
Proof. eapply same_dec; [now apply disjoint_mixed_decides|now apply disjoint_mixed_decides|]. split; intros E r [A B]; now apply (E r). Qed.
Lemma l_disjoint_mono : follows (both (subset_mixed x y) (disjoint_mixed y z)) (disjoint_mixed x z).
Proof.
eapply follows_dec; [apply both_decides; [now apply subset_mixed_decides|now apply disjoint_mixed_decides]|now apply disjoint_mixed_decides|].
intros [A B] r [Hx Hz]. apply (B r). split; [now apply A|easy].
Qed.
Lemma l_precedes_mono : follows (both (subset_mixed x y) (precedes_mixed y z)) (precedes_mixed x z).
Proof.
eapply follows_dec; [apply both_decides; [now apply subset_mixed_decides|now apply precedes_mixed_decides]|now apply precedes_mixed_decides|].
intros [A B] a c Ha Hc. apply B; [now apply A|easy].
Qed.
End Rel.
Section Rel1.
Context {F : fmt}.
Variable (x : itv F).
Hypothesis (Wx : wf x).
Lemma l_subset_refl : always (subset x x).
Proof. eapply always_dec; [now apply subset_decides|]. now intros r. Qed.
Lemma l_equal_refl : always (equal x x).
Proof. eapply always_dec; [now apply equal_decides|]. now intros r. Qed.
Lemma l_less_refl : always (less x x).
Proof. eapply always_dec; [now apply less_decides|]. split; intros a Ha; exists a; (split; [easy|lra]). Qed.
Lemma l_empty_subset : same_answer (is_empty x) (subset x (@empty F)).
Proof.
eapply same_dec; [now apply is_empty_decides|apply subset_decides; [easy|now left]|]. split; intros A r Hr; [now apply A in Hr|].
apply A in Hr. now destruct Hr.
Qed.
End Rel1.

(** ** Set operations *)
Section Set_.
Context {F : fmt}.
Variables (x y z : itv F).
Hypotheses (Wx : wf x) (Wy : wf y) (Wz : wf z).
Lemma inter_ret a b : wf a -> wf b -> exists c : itv F, returns (intersection a b) c /\ wf c /\ forall r, mem r c <-> mem r a /\ mem r b.
Proof. intros Wa Wb. destruct (intersection_exact a b Wa Wb) as (c & E & W & H). exists c. split; [rewrite E; now intros s|easy]. Qed.
(** The hull: the points between two members. *)
Lemma hull_ret a b : wf a -> wf b -> exists c : itv F, returns (convex_hull a b) c /\ wf c /\
  (forall r, mem r a \/ mem r b -> mem r c) /\ forall d : itv F, wf d -> (forall r, mem r a \/ mem r b -> mem r d) -> forall r, mem r c -> mem r d.
Proof.
intros Wa Wb. destruct (hull_tightest a b Wa Wb) as (c & E & T). exists c. split; [easy|]. split; [now apply tightest_wf in T|]. destruct T as (T1 & T2 & T3). now split.
Qed.
Lemma l_disjoint_empty : same_answer (disjoint x y) (c <- intersection x y; is_empty c).
Proof.
destruct (inter_ret x y Wx Wy) as (c & E & W & H). eapply same_dec; [now apply disjoint_decides|apply decides_bind with (1 := E); now apply is_empty_decides|].
split; intros A r Hr; apply (A r); now apply H.
Qed.
Lemma l_subset_inter : same_answer (subset x y) (c <- intersection x y; equal c x).
Proof.
destruct (inter_ret x y Wx Wy) as (c & E & W & H). eapply same_dec; [now apply subset_decides|apply decides_bind with (1 := E); now apply equal_decides|].
split.
- intros A r. rewrite H. split; [tauto|]. intros Hr. split; [easy|now apply A].
- intros A r Hr. apply A in Hr. now apply H in Hr.
Qed.
Lemma l_subset_hull : same_answer (subset x y) (c <- convex_hull x y; equal c y).
Proof.
destruct (hull_ret x y Wx Wy) as (c & E & W & H1 & H2). eapply same_dec; [now apply subset_decides|apply decides_bind with (1 := E); now apply equal_decides|].
split.
- intros A r. split; [|auto]. apply H2; [easy|]. intros t [Ht|Ht]; [now apply A|easy].
- intros A r Hr. apply A. apply H1. now left.
Qed.
Lemma l_glb : same_answer (both (subset z x) (subset z y)) (c <- intersection x y; subset z c).
Proof.
destruct (inter_ret x y Wx Wy) as (c & E & W & H). eapply same_dec; [apply both_decides; now apply subset_decides|apply decides_bind with (1 := E); now apply subset_decides|].
split.
- intros [A B] r Hr. apply H. split; [now apply A|now apply B].
- intros A. split; intros r Hr; apply A in Hr; now apply H in Hr.
Qed.
Lemma l_lub : same_answer (both (subset x z) (subset y z)) (c <- convex_hull x y; subset c z).
Proof.
destruct (hull_ret x y Wx Wy) as (c & E & W & H1 & H2). eapply same_dec; [apply both_decides; now apply subset_decides|apply decides_bind with (1 := E); now apply subset_decides|].
split.
- intros [A B] r. apply H2; [easy|]. intros t [Ht|Ht]; [now apply A|now apply B].
- intros A. split; intros r Hr; apply A, H1; tauto.
Qed.
Lemma l_absorb1 : always (c <- convex_hull x y; d <- intersection x c; equal d x).
Proof.
destruct (hull_ret x y Wx Wy) as (c & E & W & H1 & H2). destruct (inter_ret x c Wx W) as (d & E' & W' & H).
eapply always_dec; [apply decides_bind with (1 := E), decides_bind with (1 := E'); now apply equal_decides|].
intros r. rewrite H. split; [tauto|]. intros Hr. split; [easy|]. apply H1. now left.
Qed.
Lemma l_absorb2 : always (c <- intersection x y; d <- convex_hull x c; equal d x).
Proof.
destruct (inter_ret x y Wx Wy) as (c & E & W & H). destruct (hull_ret x c Wx W) as (d & E' & W' & H1 & H2).
eapply always_dec; [apply decides_bind with (1 := E), decides_bind with (1 := E'); now apply equal_decides|].
intros r. split; [|auto]. apply H2; [easy|]. intros t [Ht|Ht]; [easy|]. now apply H in Ht.
Qed.
(** One half of the distributive law. *)
Lemma l_distr : always (a <- intersection x y; b <- intersection x z; c <- convex_hull a b; d <- convex_hull y z; e <- intersection x d; subset c e).
Proof.
destruct (inter_ret x y Wx Wy) as (a & Ea & Wa & Ha). destruct (inter_ret x z Wx Wz) as (b & Eb & Wb & Hb).
destruct (hull_ret a b Wa Wb) as (c & Ec & Wc & H1 & H2). destruct (hull_ret y z Wy Wz) as (d & Ed & Wd & H3 & H4).
destruct (inter_ret x d Wx Wd) as (e & Ee & We & He).
eapply always_dec; [apply decides_bind with (1 := Ea), decides_bind with (1 := Eb), decides_bind with (1 := Ec), decides_bind with (1 := Ed), decides_bind with (1 := Ee); now apply subset_decides|].
intros r. apply H2; [easy|]. intros t [Ht|Ht]; apply He; [apply Ha in Ht|apply Hb in Ht]; (split; [easy|]); apply H3; tauto.
Qed.
End Set_.
(** Mixed types: the intersection in a third type is empty exactly for disjoint operands. *)
Lemma l_disjoint_empty_mixed {F G} T (x : itv F) (y : itv G) : comparable T F -> comparable T G -> comparable F G -> wf x -> wf y ->
  same_answer (disjoint_mixed x y) (c <- intersection_mixed T x y; is_empty c).
Proof.
intros C1 C2 C3 Wx Wy. destruct (intersection_mixed_tightest T F G x y C1 C2 C3 Wx Wy) as (c & E & Tc). pose proof (tightest_wf _ _ Tc) as W.
eapply same_dec; [now apply disjoint_mixed_decides|apply decides_bind with (1 := E); now apply is_empty_decides|].
destruct Tc as (T1 & T2 & T3). split.
- intros A r Hr. apply (T3 (@empty T)) in Hr; [now destruct Hr|now left|]. intros t Ht. exfalso. now apply (A t).
- intros A r Hr. apply (A r). now apply T2.
Qed.
