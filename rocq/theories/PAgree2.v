(** * Proofs: relations and overlapping states agree *)
From Coq Require Import ZArith NArith Reals Bool Lra Lia List Classical.
From Flocq Require Import Core.Core IEEE754.BinarySingleNaN.
From Verif Require Import Fmt Spec FloatFacts Exc Deco SpecApi SpecRel SpecOverlap MBase PBase MBool MOverlap PBool PConv PDec POverlap SpecAgree PAgree.
Import ListNotations.
Local Open Scope R_scope.
Local Open Scope m_scope.

Lemma code_inj o o' : ostate_code o = ostate_code o' -> o = o'.
Proof. now destruct o, o'. Qed.
Lemma among_in l o : among l o = true <-> In o l.
Proof.
unfold among. rewrite existsb_exists. split.
- intros (o' & I & E). apply N.eqb_eq, code_inj in E. now subst o'.
- intros I. exists o. split; [easy|apply N.eqb_refl].
Qed.

Section O.
Context {F G : fmt} (x : itv F) (y : itv G).
Definition spec_in (l : list ostate) : Prop := exists o, In o l /\ overlap_spec x y o.
Lemma state_in_decides l : comparable F G -> wf x -> wf y -> decides (state_in x y l) (spec_in l).
Proof.
intros C Wx Wy. destruct (overlap_correct C x y Wx Wy) as (o & E & H). apply returns_eq in E. exists (among l o). split; [unfold state_in; rewrite E; now intros s|].
rewrite among_in. split.
- intros I. exists o. split; [easy|]. now apply H.
- intros (o' & I & S). apply H in S. now subst o'.
Qed.
(** Some state always applies. *)
Lemma some_state : comparable F G -> wf x -> wf y -> exists o, overlap_spec x y o.
Proof. intros C Wx Wy. destruct (overlap_correct C x y Wx Wy) as (o & E & H). exists o. now apply H. Qed.

Definition L_subset := [o_both_empty; o_first_empty; o_starts; o_contained_by; o_finishes; o_equal].
Definition L_equal := [o_both_empty; o_equal].
Definition L_disjoint := [o_both_empty; o_first_empty; o_second_empty; o_before; o_after].
Definition L_precedes := [o_both_empty; o_first_empty; o_second_empty; o_before].
Definition L_less := [o_both_empty; o_before; o_meets; o_overlaps; o_starts; o_equal; o_finished_by].

Ltac pick o := exists o; split; [simpl; tauto|assumption].
Lemma subset_of_spec : spec_in L_subset -> s_subset x y.
Proof.
intros (o & I & S) a Ha. simpl in I. decompose [or] I; try contradiction; subst o; simpl in S; clear I.
- destruct S as [S _]. exfalso. apply S. now exists a.
- destruct S as [S _]. exfalso. apply S. now exists a.
- destruct S as (_ & [S _] & (b & Hb & B)). destruct (S a Ha) as (b' & Hb' & B'). apply (mem_conv y b' b); [easy..|]. specialize (B a Ha). lra.
- destruct S as (_ & (b' & Hb' & B') & (b & Hb & B)). apply (mem_conv y b' b); [easy..|]. specialize (B a Ha). specialize (B' a Ha). lra.
- destruct S as (_ & (b' & Hb' & B') & [S _]). destruct (S a Ha) as (b & Hb & B). apply (mem_conv y b' b); [easy..|]. specialize (B' a Ha). lra.
- now apply S.
Qed.
Lemma sb_no : starts_before x y -> ~ s_subset x y.
Proof. intros (a & Ha & A) S. specialize (A a (S a Ha)). lra. Qed.
Lemma ea_no : ends_after x y -> ~ s_subset x y.
Proof. intros (a & Ha & A) S. specialize (A a (S a Ha)). lra. Qed.
Lemma spec_of_subset : (exists o, overlap_spec x y o) -> s_subset x y -> spec_in L_subset.
Proof.
intros (o & S) I. assert (SB := sb_no). assert (EA := ea_no). destruct o; simpl in S; try (exists o_both_empty; tauto).
- pick o_both_empty.
- pick o_first_empty.
- destruct S as [[a Ha] S]. exfalso. apply S. exists a. now apply I.
- destruct S as ([a Ha] & _ & S). specialize (S a a Ha (I a Ha)). lra.
- pick o_starts.
- pick o_contained_by.
- pick o_finishes.
- pick o_equal.
- destruct S as ([a Ha] & [b Hb] & S). specialize (S a a (I a Ha) Ha). lra.
Qed.
Lemma equal_of_spec : spec_in L_equal <-> s_equal x y.
Proof.
split.
- intros (o & [E|[E|[]]] & S); subst o; simpl in S.
  + destruct S as [S1 S2]. intros r. split; intros Hr; exfalso; [apply S1|apply S2]; now exists r.
  + now destruct S.
- intros E. destruct (classic (s_nonempty x)) as [N|N].
  + exists o_equal. split; simpl; tauto.
  + exists o_both_empty. split; [simpl; tauto|]. split; [easy|]. intros [b Hb]. apply N. exists b. now apply E.
Qed.
Lemma disjoint_of_spec : spec_in L_disjoint -> s_disjoint x y.
Proof.
intros (o & I & S) r [Hr Hr']. simpl in I. decompose [or] I; try contradiction; subst o; simpl in S; clear I.
- destruct S as [S _]. apply S. now exists r.
- destruct S as [S _]. apply S. now exists r.
- destruct S as [_ S]. apply S. now exists r.
- destruct S as (_ & _ & S). specialize (S r r Hr Hr'). lra.
- destruct S as (_ & _ & S). specialize (S r r Hr' Hr). lra.
Qed.
Lemma touch_spec o : overlap_spec x y o -> ~ In o L_disjoint -> touch x y.
Proof.
intros S N. destruct o; simpl in S, N; try tauto.
- destruct S as ((a & Ha & A) & _ & (a' & b & Ha' & Hb & L)). exists b. split; [|easy]. apply (mem_conv x a a'); [easy..|]. specialize (A b Hb). lra.
- assert (I : s_subset x y) by (apply subset_of_spec; exists o_starts; split; [simpl; tauto|exact S]). destruct S as [[a Ha] _]. exists a. split; [easy|now apply I].
- assert (I : s_subset x y) by (apply subset_of_spec; exists o_contained_by; split; [simpl; tauto|exact S]). destruct S as [[a Ha] _]. exists a. split; [easy|now apply I].
- assert (I : s_subset x y) by (apply subset_of_spec; exists o_finishes; split; [simpl; tauto|exact S]). destruct S as [[a Ha] _]. exists a. split; [easy|now apply I].
- destruct S as [[a Ha] S]. exists a. split; [easy|now apply S].
- destruct S as ([b Hb] & (a & Ha & A) & (_ & S)). destruct (S b Hb) as (a' & Ha' & L). exists b. split; [|easy]. apply (mem_conv x a a'); [easy..|]. specialize (A b Hb). lra.
- destruct S as ([b Hb] & (a & Ha & A) & (a' & Ha' & A')). exists b. split; [|easy]. apply (mem_conv x a a'); [easy..|]. specialize (A b Hb). specialize (A' b Hb). lra.
- destruct S as ([b Hb] & (_ & S) & (a' & Ha' & A')). destruct (S b Hb) as (a & Ha & L). exists b. split; [|easy]. apply (mem_conv x a a'); [easy..|]. specialize (A' b Hb). lra.
- destruct S as ((b & Hb & B) & _ & (a & b' & Ha & Hb' & L)). exists a. split; [easy|]. apply (mem_conv y b b'); [easy..|]. specialize (B a Ha). lra.
Qed.
Lemma spec_of_disjoint : (exists o, overlap_spec x y o) -> s_disjoint x y -> spec_in L_disjoint.
Proof.
intros (o & S) D. destruct (classic (In o L_disjoint)) as [I|I]; [now exists o|]. exfalso. destruct (touch_spec o S I) as (r & Hr). now apply (D r).
Qed.
Lemma precedes_of_spec : spec_in L_precedes <-> s_strictly_precedes x y.
Proof.
split.
- intros (o & I & S) a b Ha Hb. simpl in I. decompose [or] I; try contradiction; subst o; simpl in S; clear I.
  + destruct S as [S _]. exfalso. apply S. now exists a.
  + destruct S as [S _]. exfalso. apply S. now exists a.
  + destruct S as [_ S]. exfalso. apply S. now exists b.
  + destruct S as (_ & _ & S). now apply S.
- intros P. destruct (classic (s_nonempty x)) as [N|N]; destruct (classic (s_nonempty y)) as [N'|N'].
  + exists o_before. split; simpl; tauto.
  + exists o_second_empty. split; simpl; tauto.
  + exists o_first_empty. split; simpl; tauto.
  + exists o_both_empty. split; simpl; tauto.
Qed.
Lemma less_of_spec : spec_in L_less -> s_less x y.
Proof.
intros (o & I & S). simpl in I. decompose [or] I; try contradiction; subst o; simpl in S; clear I.
- destruct S as [S S']. split; [intros a Ha; exfalso; apply S; now exists a|intros b Hb; exfalso; apply S'; now exists b].
- destruct S as ([a' Ha'] & [b' Hb'] & S). split; [intros a Ha; exists b'; split; [easy|]; specialize (S a b' Ha Hb'); lra|intros b Hb; exists a'; split; [easy|]; specialize (S a' b Ha' Hb); lra].
- destruct S as (S & (r & Hr & Hr') & _). split; [intros a Ha; exists r; split; [easy|now apply S]|intros b Hb; exists r; split; [easy|now apply S]].
- destruct S as ((a' & Ha' & A) & (b' & Hb' & B) & _). split; [intros a Ha; exists b'; split; [easy|]; specialize (B a Ha); lra|intros b Hb; exists a'; split; [easy|]; specialize (A b Hb); lra].
- destruct S as (_ & [_ S] & (b' & Hb' & B)). split; [intros a Ha; exists b'; split; [easy|]; specialize (B a Ha); lra|exact S].
- destruct S as (_ & S). split; [intros a Ha; exists a; split; [now apply S|lra]|intros a Ha; exists a; split; [now apply S|lra]].
- destruct S as (_ & (a' & Ha' & A) & [S _]). split; [exact S|intros b Hb; exists a'; split; [easy|]; specialize (A b Hb); lra].
Qed.
Lemma sa_no : starts_after x y -> ~ s_less x y.
Proof. intros (b & Hb & B) [_ S]. destruct (S b Hb) as (a & Ha & L). specialize (B a Ha). lra. Qed.
Lemma ea_no' : ends_after x y -> ~ s_less x y.
Proof. intros (a & Ha & A) [S _]. destruct (S a Ha) as (b & Hb & L). specialize (A b Hb). lra. Qed.
Lemma spec_of_less : (exists o, overlap_spec x y o) -> s_less x y -> spec_in L_less.
Proof.
intros (o & S) I. assert (SA := sa_no). assert (EA := ea_no'). destruct o; simpl in S; try (exists o_both_empty; tauto).
- pick o_both_empty.
- destruct S as [S [b Hb]]. exfalso. destruct I as [_ I]. destruct (I b Hb) as (a & Ha & _). apply S. now exists a.
- destruct S as [[a Ha] S]. exfalso. destruct I as [I _]. destruct (I a Ha) as (b & Hb & _). apply S. now exists b.
- pick o_before.
- pick o_meets.
- pick o_overlaps.
- pick o_starts.
- pick o_equal.
- pick o_finished_by.
- destruct S as ([a Ha] & [b Hb] & S). exfalso. destruct I as [I _]. destruct (I a Ha) as (b' & Hb' & L). specialize (S b' a Hb' Ha). lra.
Qed.
Lemma meets_precedes : spec_in [o_before; o_meets] -> s_precedes x y.
Proof.
intros (o & [E|[E|[]]] & S) a b Ha Hb; subst o; simpl in S.
- destruct S as (_ & _ & S). specialize (S a b Ha Hb). lra.
- destruct S as (S & _). now apply S.
Qed.
Lemma contained_interior : spec_in [o_contained_by] -> s_interior x y.
Proof.
intros (o & [E|[]] & S) a Ha; subst o; simpl in S. destruct S as (_ & (b & Hb & B) & (b' & Hb' & B')).
specialize (B a Ha). specialize (B' a Ha). exists (Rmin (a - b) (b' - a)). split; [apply Rmin_glb_lt; lra|].
intros t Ht. apply Rabs_lt_inv in Ht. pose proof (Rmin_l (a - b) (b' - a)). pose proof (Rmin_r (a - b) (b' - a)). apply (mem_conv y b b'); [easy..|lra].
Qed.
Lemma strict_states : spec_in [o_before; o_meets; o_overlaps] -> s_strictly_less x y.
Proof.
intros (o & I & S). simpl in I. decompose [or] I; try contradiction; subst o; simpl in S; clear I.
- destruct S as ([a' Ha'] & [b' Hb'] & S). split; [intros a Ha; exists b'; split; [easy|now apply S]|intros b Hb; exists a'; split; [easy|now apply S]].
- destruct S as (_ & _ & (a' & Ha' & A) & (b' & Hb' & B)). split; [intros a Ha; exists b'; split; [easy|now apply B]|intros b Hb; exists a'; split; [easy|now apply A]].
- destruct S as ((a' & Ha' & A) & (b' & Hb' & B) & _). split; [intros a Ha; exists b'; split; [easy|now apply B]|intros b Hb; exists a'; split; [easy|now apply A]].
Qed.
End O.

Section L.
Context {F G : fmt} (x : itv F) (y : itv G).
Hypotheses (C : comparable F G) (Wx : wf x) (Wy : wf y).
Lemma o_subset : same_answer (subset_mixed x y) (state_in x y L_subset).
Proof.
eapply same_dec; [now apply subset_mixed_decides|now apply state_in_decides|]. split; [apply spec_of_subset; now apply some_state|apply subset_of_spec].
Qed.
Lemma o_equal_l : same_answer (equal_mixed x y) (state_in x y L_equal).
Proof. eapply same_dec; [now apply equal_mixed_decides|now apply state_in_decides|]. symmetry. apply equal_of_spec. Qed.
Lemma o_disjoint : same_answer (disjoint_mixed x y) (state_in x y L_disjoint).
Proof.
eapply same_dec; [now apply disjoint_mixed_decides|now apply state_in_decides|]. split; [apply spec_of_disjoint; now apply some_state|apply disjoint_of_spec].
Qed.
Lemma o_strictly_precedes : same_answer (strictly_precedes_mixed x y) (state_in x y L_precedes).
Proof. eapply same_dec; [now apply strictly_precedes_mixed_decides|now apply state_in_decides|]. symmetry. apply precedes_of_spec. Qed.
Lemma o_less : same_answer (less_mixed x y) (state_in x y L_less).
Proof.
eapply same_dec; [now apply less_mixed_decides|now apply state_in_decides|]. split; [apply spec_of_less; now apply some_state|apply less_of_spec].
Qed.
Lemma o_precedes : follows (state_in x y [o_before; o_meets]) (precedes_mixed x y).
Proof. eapply follows_dec; [now apply state_in_decides|now apply precedes_mixed_decides|]. apply meets_precedes. Qed.
Lemma o_interior : follows (state_in x y [o_contained_by]) (interior_mixed x y).
Proof. eapply follows_dec; [now apply state_in_decides|now apply interior_mixed_decides|]. apply contained_interior. Qed.
Lemma o_strictly_less : follows (state_in x y [o_before; o_meets; o_overlaps]) (strictly_less_mixed x y).
Proof. eapply follows_dec; [now apply state_in_decides|now apply strictly_less_mixed_decides|]. apply strict_states. Qed.
End L.

(** ** Decorated *)
Section D.
Context {F G : fmt} (x : ditv F) (y : ditv G).
Hypotheses (C : comparable F G) (Wx : wf_dec x) (Wy : wf_dec y).
Lemma state_in_dec_decides l : ~ In o_undefined l -> decides (state_in_dec x y l) (snd x <> ill /\ snd y <> ill /\ spec_in (fst x) (fst y) l).
Proof.
intros U. destruct (overlap_dec_correct C x y Wx Wy) as (o & E & H1 & H2). apply returns_eq in E. exists (among l o). split; [unfold state_in_dec; rewrite E; now intros s|].
rewrite among_in. split.
- intros I. assert (N : o <> o_undefined) by (intros ->; easy). destruct (H2 o N) as [H _]. destruct (H eq_refl) as (A & B & D). split; [easy|]. split; [easy|]. now exists o.
- intros (A & B & o' & I & S). assert (N : o' <> o_undefined) by (intros ->; easy). apply H2 in N. destruct N as [_ N]. rewrite N by easy. easy.
Qed.
Lemma wf_of_dec {K} (w : ditv K) : wf_dec w -> wf (fst w).
Proof. now apply wf_dec_wf. Qed.
Lemma od_subset : same_answer (rel_dec subset_mixed x y) (state_in_dec x y L_subset).
Proof.
eapply same_dec; [apply (rel_dec_decides _ s_subset); [|easy..]; now apply subset_mixed_decides|apply state_in_dec_decides; simpl; intuition congruence|].
enough (s_subset (fst x) (fst y) <-> spec_in (fst x) (fst y) L_subset) by tauto. split; [apply spec_of_subset; apply some_state; try easy; now apply wf_of_dec|apply subset_of_spec].
Qed.
Lemma od_equal : same_answer (rel_dec equal_mixed x y) (state_in_dec x y L_equal).
Proof.
eapply same_dec; [apply (rel_dec_decides _ s_equal); [|easy..]; now apply equal_mixed_decides|apply state_in_dec_decides; simpl; intuition congruence|].
enough (s_equal (fst x) (fst y) <-> spec_in (fst x) (fst y) L_equal) by tauto. symmetry. apply equal_of_spec.
Qed.
Lemma od_disjoint : same_answer (rel_dec disjoint_mixed x y) (state_in_dec x y L_disjoint).
Proof.
eapply same_dec; [apply (rel_dec_decides _ s_disjoint); [|easy..]; now apply disjoint_mixed_decides|apply state_in_dec_decides; simpl; intuition congruence|].
enough (s_disjoint (fst x) (fst y) <-> spec_in (fst x) (fst y) L_disjoint) by tauto. split; [apply spec_of_disjoint; apply some_state; try easy; now apply wf_of_dec|apply disjoint_of_spec].
Qed.
Lemma od_strictly_precedes : same_answer (rel_dec strictly_precedes_mixed x y) (state_in_dec x y L_precedes).
Proof.
eapply same_dec; [apply (rel_dec_decides _ s_strictly_precedes); [|easy..]; now apply strictly_precedes_mixed_decides|apply state_in_dec_decides; simpl; intuition congruence|].
enough (s_strictly_precedes (fst x) (fst y) <-> spec_in (fst x) (fst y) L_precedes) by tauto. symmetry. apply precedes_of_spec.
Qed.
Lemma od_less : same_answer (rel_dec less_mixed x y) (state_in_dec x y L_less).
Proof.
eapply same_dec; [apply (rel_dec_decides _ s_less); [|easy..]; now apply less_mixed_decides|apply state_in_dec_decides; simpl; intuition congruence|].
enough (s_less (fst x) (fst y) <-> spec_in (fst x) (fst y) L_less) by tauto. split; [apply spec_of_less; apply some_state; try easy; now apply wf_of_dec|apply less_of_spec].
Qed.
End D.
