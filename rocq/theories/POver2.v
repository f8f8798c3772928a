(** * Proofs: relations and set operations depend on the sets, not on the overload *)
From Coq Require Import ZArith NArith Reals Bool Lra Lia List Setoid.
From Flocq Require Import Core.Core IEEE754.BinarySingleNaN.
From Verif Require Import Fmt Spec FloatFacts Exc Deco SpecApi SpecMixed SpecRel SpecAlg SpecOver MBase PBase PConv MBool MArith MMixed MDec PSetop POver.
From Verif Require C18 C20 C28.
Local Open Scope R_scope.

Definition cong (S : forall F G, itv F -> itv G -> Prop) : Prop := forall F G (x : itv F) (y : itv G) F' G' (x' : itv F') (y' : itv G'),
  same_numbers x x' -> same_numbers y y' -> S F G x y <-> S F' G' x' y'.
Ltac cong_tac := let E := fresh in let E' := fresh in intros F G x y F' G' x' y' E E'; hnf in E, E'; cbv delta [s_equal s_subset s_less s_precedes s_interior s_strictly_less s_strictly_precedes s_disjoint] beta; setoid_rewrite E; setoid_rewrite E'; reflexivity.
Lemma cong_equal : cong (@s_equal). Proof. cong_tac. Qed.
Lemma cong_subset : cong (@s_subset). Proof. cong_tac. Qed.
Lemma cong_less : cong (@s_less). Proof. cong_tac. Qed.
Lemma cong_precedes : cong (@s_precedes). Proof. cong_tac. Qed.
Lemma cong_interior : cong (@s_interior). Proof. cong_tac. Qed.
Lemma cong_strictly_less : cong (@s_strictly_less). Proof. cong_tac. Qed.
Lemma cong_strictly_precedes : cong (@s_strictly_precedes). Proof. cong_tac. Qed.
Lemma cong_disjoint : cong (@s_disjoint). Proof. cong_tac. Qed.

Lemma ans m n P Q : decides m P -> decides n Q -> (P <-> Q) -> same_answer m n.
Proof.
intros (b & B1 & B2) (c & D1 & D2) E. exists b. split; [easy|]. replace b with c; [easy|].
destruct b, c; try easy; [assert (false = true) by (apply D2, E, B2; easy)|assert (false = true) by (apply B2, E, D2; easy)]; easy.
Qed.
Lemma set_rel one two (S : forall F G, itv F -> itv G -> Prop) : cong S ->
  (forall F (x y : itv F), wf x -> wf y -> decides (one F x y) (S F F x y)) ->
  (forall F G (x : itv F) (y : itv G), comparable F G -> wf x -> wf y -> decides (two F G x y) (S F G x y)) -> set_relation one two.
Proof.
intros C H K. split.
- intros F x y F' G' x' y' I A B A' B' E E'. exact (ans _ _ _ _ (H F x y A B) (K F' G' x' y' I A' B') (C _ _ _ _ _ _ _ _ E E')).
- intros F G x y F' G' x' y' I I' A B A' B' E E'. exact (ans _ _ _ _ (K F G x y I A B) (K F' G' x' y' I' A' B') (C _ _ _ _ _ _ _ _ E E')).
Qed.
Lemma same_equal : set_relation (@equal) (@equal_mixed).
Proof. exact (set_rel _ _ (@s_equal) cong_equal C18.C18_equal_same_type C18.C18_equal). Qed.
Lemma same_subset : set_relation (@subset) (@subset_mixed).
Proof. exact (set_rel _ _ (@s_subset) cong_subset C18.C18_subset_same_type C18.C18_subset). Qed.
Lemma same_less : set_relation (@less) (@less_mixed).
Proof. exact (set_rel _ _ (@s_less) cong_less C18.C18_less_same_type C18.C18_less). Qed.
Lemma same_precedes : set_relation (@precedes) (@precedes_mixed).
Proof. exact (set_rel _ _ (@s_precedes) cong_precedes C18.C18_precedes_same_type C18.C18_precedes). Qed.
Lemma same_interior : set_relation (@interior) (@interior_mixed).
Proof. exact (set_rel _ _ (@s_interior) cong_interior C18.C18_interior_same_type C18.C18_interior). Qed.
Lemma same_strictly_less : set_relation (@strictly_less) (@strictly_less_mixed).
Proof. exact (set_rel _ _ (@s_strictly_less) cong_strictly_less C18.C18_strictly_less_same_type C18.C18_strictly_less). Qed.
Lemma same_strictly_precedes : set_relation (@strictly_precedes) (@strictly_precedes_mixed).
Proof. exact (set_rel _ _ (@s_strictly_precedes) cong_strictly_precedes C18.C18_strictly_precedes_same_type C18.C18_strictly_precedes). Qed.
Lemma same_disjoint : set_relation (@disjoint) (@disjoint_mixed).
Proof. exact (set_rel _ _ (@s_disjoint) cong_disjoint C18.C18_disjoint_same_type C18.C18_disjoint). Qed.

Lemma same_intersection (F : fmt) (x y : itv F) (G H : fmt) (x' : itv G) (y' : itv H) : comparable F G -> comparable F H -> comparable G H ->
  wf x -> wf y -> wf x' -> wf y' -> same_numbers x x' -> same_numbers y y' -> agree (intersection x y) (intersection_mixed F x' y').
Proof.
intros C D I A B A' B' E E'.
apply (agree_tight _ _ (fun r => mem r x /\ mem r y) (fun r => mem r x' /\ mem r y')); [now apply intersection_tightest|now apply C28.C28_intersection|].
intros r. now rewrite (E r), (E' r).
Qed.
Lemma same_intersection_mixed (T F G : fmt) (x : itv F) (y : itv G) (F' G' : fmt) (x' : itv F') (y' : itv G') :
  comparable T F -> comparable T G -> comparable F G -> comparable T F' -> comparable T G' -> comparable F' G' ->
  wf x -> wf y -> wf x' -> wf y' -> same_numbers x x' -> same_numbers y y' -> agree (intersection_mixed T x y) (intersection_mixed T x' y').
Proof.
intros C D I C' D' I' A B A' B' E E'.
apply (agree_tight _ _ (fun r => mem r x /\ mem r y) (fun r => mem r x' /\ mem r y')); [now apply C28.C28_intersection|now apply C28.C28_intersection|].
intros r. now rewrite (E r), (E' r).
Qed.
Lemma same_hull (F : fmt) (x y : itv F) (G H : fmt) (x' : itv G) (y' : itv H) : comparable F G -> comparable F H -> comparable G H ->
  wf x -> wf y -> wf x' -> wf y' -> same_numbers x x' -> same_numbers y y' -> agree (convex_hull x y) (convex_hull_mixed F x' y').
Proof.
intros C D I A B A' B' E E'.
apply (agree_tight _ _ (fun r => mem r x \/ mem r y) (fun r => mem r x' \/ mem r y')); [now apply C20.C20_hull_tightest|now apply C28.C28_hull|].
intros r. now rewrite (E r), (E' r).
Qed.
Lemma same_hull_mixed (T F G : fmt) (x : itv F) (y : itv G) (F' G' : fmt) (x' : itv F') (y' : itv G') :
  comparable T F -> comparable T G -> comparable F G -> comparable T F' -> comparable T G' -> comparable F' G' ->
  wf x -> wf y -> wf x' -> wf y' -> same_numbers x x' -> same_numbers y y' -> agree (convex_hull_mixed T x y) (convex_hull_mixed T x' y').
Proof.
intros C D I C' D' I' A B A' B' E E'.
apply (agree_tight _ _ (fun r => mem r x \/ mem r y) (fun r => mem r x' \/ mem r y')); [now apply C28.C28_hull|now apply C28.C28_hull|].
intros r. now rewrite (E r), (E' r).
Qed.

(** ** The tangent of an operand with a hidden pole depends on the type in which it is stored *)
From Verif Require Import SpecTan2 SpecElem SpecExpr MTrig MExpr PIso.
From Verif Require C12.
Lemma cmp64_80 : comparable binary64 binary80.
Proof. apply C28.C28_formats; simpl; auto. Qed.
Lemma within80 : within binary64 binary80.
Proof. vm_compute. repeat split; discriminate. Qed.
Lemma tan_overload_differs (x : itv binary64) : wf x -> pole_hidden binary64 x ->
  let x' := convert_hull binary80 x in wf x' /\ same_numbers x x' /\ ~ agree (un_bare u_tan x) (un_bare_mixed binary64 u_tan x').
Proof.
intros W Hx x'. assert (W' : wf x') by now apply wf_convert_hull.
assert (S : same_numbers x x') by (intros r; symmetry; apply (convert_hull_exact binary80 x within80 W)).
split; [easy|]. split; [easy|]. intros (z & w & Z & V & E).
assert (K : computes_enclosure (un_bare_mixed binary64 u_tan x') (image1 (fun r => cos r <> 0) tan x')).
{ apply (C28.C28_tan_exact binary64 binary80 x' cmp64_80 W'). apply (PTanIff.no_hidden binary64 binary80 x' cmp64_80 W'). right. left. reflexivity. }
destruct K as (v & V1 & V2 & V3). rewrite <- (returns_same _ _ _ V V1) in *.
apply (proj1 (C12.C12_tan_exact binary64 x W)); [|exact Hx].
exists z. split; [exact Z|].
assert (I : encloses (image1 (fun r => cos r <> 0) tan x) z).
{ intros r (t & Ht & D & ->). apply E. apply V3. exists t. split; [now apply S|easy]. }
split; [|exact I].
destruct (C12.C12_tan_hidden_refuted binary64 x W Hx) as (z' & r & R1 & R2 & R3 & R4). exfalso. apply R4.
rewrite <- (returns_same _ _ _ Z R1). apply I. now exists r.
Qed.
Lemma tan_overload_refuted : exists (x : itv binary64) (x' : itv binary80), wf x /\ wf x' /\ same_numbers x x' /\
  ~ agree (un_bare u_tan x) (un_bare_mixed binary64 u_tan x').
Proof.
destruct C12.C12_tan_binary64_refuted as (x & z & r & W & R1 & R2 & R3 & R4).
assert (Hd : pole_hidden binary64 x).
{ apply Classical_Prop.NNPP. intros N. apply (C12.C12_tan_exact binary64 x W) in N. destruct N as (v & V1 & V2 & V3).
  apply R4. rewrite (returns_same _ _ _ R1 V1). apply V3. now exists r. }
exists x, (convert_hull binary80 x). split; [easy|]. now apply tan_overload_differs.
Qed.
