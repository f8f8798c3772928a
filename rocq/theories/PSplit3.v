(** * Cutting operands: decorated fma, reverse functions, intersection *)
From Coq Require Import ZArith NArith Reals Bool Lra Lia List.
From Flocq Require Import Core.Core IEEE754.BinarySingleNaN.
From Verif Require Import Fmt Spec FloatFacts Exc Deco SpecApi SpecDeco SpecIso SpecStrong SpecMixed SpecNum SpecRev SpecMulRev SpecPownRev SpecExpr SpecSplit MBase PBase PConv MBool MArith MDec MMixed MRev MExpr PIso PExpr PStrong PStrong4 POver POver3 PSplit PSplit2.
From Verif Require C20 C24 C25 C28.
Local Open Scope R_scope.

Lemma scales3 : scales near3.
Proof. intros d d' p q H [K L]. split; [eapply scales2; eauto|eapply scales1; eauto]. Qed.
Lemma closed3 {F G H} (x : itv F) (y : itv G) (w : itv H) : closed near3 (box3 x y w).
Proof.
intros p Hp. destruct (Classical_Prop.classic (box2 x y (fst p))) as [L|L].
- assert (U : ~ box1 w (snd p)) by (intros U; apply Hp; split; assumption). destruct (closed1 w _ U) as (d & Hd & K). exists d. split; [exact Hd|].
  intros q [_ Q] [_ Y]. exact (K _ Q Y).
- destruct (closed2 x y _ L) as (d & Hd & K). exists d. split; [exact Hd|]. intros q [Q _] [Y _]. exact (K _ Q Y).
Qed.
Lemma join_dec3 {F G H T} (opd : ditv F -> ditv G -> ditv H -> M (ditv T)) op f (x x1 x2 : ditv F) (y y1 y2 : ditv G) (w w1 w2 : ditv H) : strongest3 opd f ->
  proper x -> proper y -> proper w -> cut_dec x x1 x2 -> cut_dec y y1 y2 -> cut_dec w w1 w2 ->
  (forall p, box3 (fst x) (fst y) (fst w) p <-> box3 (fst x1) (fst y1) (fst w1) p \/ box3 (fst x2) (fst y2) (fst w2) p) ->
  node3 opd op f x y w -> node3 opd op f x1 y1 w1 -> node3 opd op f x2 y2 w2 ->
  joins (op (fst x) (fst y) (fst w)) (op (fst x1) (fst y1) (fst w1)) (op (fst x2) (fst y2) (fst w2)) ->
  (forall z z1, returns (opd x y w) z -> returns (opd x1 y1 w1) z1 -> (snd z <= snd z1)%N) -> (forall z z2, returns (opd x y w) z -> returns (opd x2 y2 w2) z2 -> (snd z <= snd z2)%N) ->
  joins_dec (opd x y w) (opd x1 y1 w1) (opd x2 y2 w2).
Proof.
intros S P Py Pw C Cy Cw CB (z & Z & Pz & Bz & _) (z1 & Z1 & Pz1 & Bz1 & Lx1 & Ly1 & Lw1 & _ & H1) (z2 & Z2 & Pz2 & Bz2 & Lx2 & Ly2 & Lw2 & _ & H2) (v & v1 & v2 & W & W1 & W2 & J) M1 M2.
rewrite (returns_one _ _ _ W Bz), (returns_one _ _ _ W1 Bz1), (returns_one _ _ _ W2 Bz2) in J.
exists z, z1, z2. split; [exact Z|]. split; [exact Z1|]. split; [exact Z2|]. split; [exact J|].
apply N.le_antisymm; [apply N.min_glb; [exact (M1 z z1 Z Z1)|exact (M2 z z2 Z Z2)]|].
assert (BC : forall K (a a1 a2 : ditv K), proper a -> cut_dec a a1 a2 -> bounded_rep (fst a1) -> bounded_rep (fst a2) -> bounded_rep (fst a)).
{ intros K a a1 a2 Pa (Ca & E1 & _). apply bounded_cut; [exact Ca|destruct E1 as [r E]; exists r; apply Ca; auto|now apply proper_wf]. }
pose proof (BC _ x x1 x2 P C) as Bx. pose proof (BC _ y y1 y2 Py Cy) as By. pose proof (BC _ w w1 w2 Pw Cw) as Bw. clear BC.
destruct C as (C & E1 & E2 & D). destruct Cy as (Cy & _ & _ & Dy'). destruct Cw as (Cw & _ & _ & Dw').
destruct P as (Wx & Dx & Ix). destruct Py as (Wy & Dy & Iy). destruct Pw as (Ww & Dw & Iw). destruct Pz1 as (Wz1 & Dz1 & Iz1), Pz2 as (Wz2 & Dz2 & Iz2).
apply (S x y w Wx Dx Ix Wy Dy Iy Ww Dw Iw z Z); [now apply min_deco|rewrite D; lia|rewrite Dy'; lia|rewrite Dw'; lia|].
refine (honest_paste near3 _ (box3 (fst x1) (fst y1) (fst w1)) (box3 (fst x2) (fst y2) (fst w2)) _ _ _ _ _ _ (fst z1) (fst z2) _ _ scales3 (closed3 _ _ _) (closed3 _ _ _) CB _ _ H1 H2).
- intros (Q1 & Q2 & Q3) (K1 & K2 & K3). split; [now apply Bx|]. split; [now apply By|now apply Bw].
- intros Q1 Q2. assert (V1 : wf (fst z1)) by (apply (proper_wf z1); now split). assert (V2 : wf (fst z2)) by (apply (proper_wf z2); now split).
  exact (bounded_join _ _ _ J (bounded_some _ V1 Q1) (bounded_some _ V2 Q2) Q1 Q2).
Qed.
Lemma dfma_cut {F} (x x1 x2 y y1 y2 w w1 w2 : ditv F) : proper x -> proper x1 -> proper x2 -> proper y -> proper y1 -> proper y2 -> proper w -> proper w1 -> proper w2 ->
  cut_dec x x1 x2 -> cut_dec y y1 y2 -> cut_dec w w1 w2 ->
  (forall p, box3 (fst x) (fst y) (fst w) p <-> box3 (fst x1) (fst y1) (fst w1) p \/ box3 (fst x2) (fst y2) (fst w2) p) ->
  joins_dec (fma_dec x y w) (fma_dec x1 y1 w1) (fma_dec x2 y2 w2).
Proof.
intros P P1 P2 Q Q1 Q2 K K1 K2 C Cy Cw CB. destruct (cut_better _ _ _ C) as [A1 A2]. destruct (cut_better _ _ _ Cy) as [B1 B2]. destruct (cut_better _ _ _ Cw) as [D1 D2].
refine (join_dec3 fma_dec fma fmaR x x1 x2 y y1 y2 w w1 w2 _ P Q K C Cy Cw CB (fma_node x y w P Q K) (fma_node x1 y1 w1 P1 Q1 K1) (fma_node x2 y2 w2 P2 Q2 K2) _ _ _).
- apply fma_strong.
- apply fma_box; try (apply proper_wf; assumption). exact CB.
- exact (worse _ _ (fma_better x1 x y1 y w1 w P1 P A1 Q1 Q B1 K1 K D1)).
- exact (worse _ _ (fma_better x2 x y2 y w2 w P2 P A2 Q2 Q B2 K2 K D2)).
Qed.
Lemma dfma_cut_mixed T {F G H} (x x1 x2 : ditv F) (y y1 y2 : ditv G) (w w1 w2 : ditv H) :
  comparable T F -> comparable T G -> comparable F G -> comparable T H -> comparable F H -> comparable G H ->
  proper x -> proper x1 -> proper x2 -> proper y -> proper y1 -> proper y2 -> proper w -> proper w1 -> proper w2 ->
  cut_dec x x1 x2 -> cut_dec y y1 y2 -> cut_dec w w1 w2 ->
  (forall p, box3 (fst x) (fst y) (fst w) p <-> box3 (fst x1) (fst y1) (fst w1) p \/ box3 (fst x2) (fst y2) (fst w2) p) ->
  joins_dec (fma_dec_mixed T x y w) (fma_dec_mixed T x1 y1 w1) (fma_dec_mixed T x2 y2 w2).
Proof.
intros G1 G2 G3 G4 G5 G6 P P1 P2 Q Q1 Q2 K K1 K2 C Cy Cw CB. destruct (cut_better _ _ _ C) as [A1 A2]. destruct (cut_better _ _ _ Cy) as [B1 B2]. destruct (cut_better _ _ _ Cw) as [D1 D2].
assert (GG : comp3 T F G H) by (unfold comp3; tauto).
refine (join_dec3 (fma_dec_mixed T) (fma_mixed T) fmaR x x1 x2 y y1 y2 w w1 w2 (fma_strong_m T F G H GG) P Q K C Cy Cw CB (fma_node_mixed T x y w GG P Q K) (fma_node_mixed T x1 y1 w1 GG P1 Q1 K1) (fma_node_mixed T x2 y2 w2 GG P2 Q2 K2) _ _ _).
- apply fma_box_mixed; try assumption; try (apply proper_wf; assumption).
- exact (worse _ _ (fma_better_mixed T x1 x y1 y w1 w G1 G2 G3 G4 G5 G6 P1 P A1 Q1 Q B1 K1 K D1)).
- exact (worse _ _ (fma_better_mixed T x2 x y2 y w2 w G1 G2 G3 G4 G5 G6 P2 P A2 Q2 Q B2 K2 K D2)).
Qed.

(** ** Reverse functions *)
Lemma pre_box {F G} D f (c c1 c2 : itv F) (x x1 x2 : itv G) : (forall p, box2 c x p <-> box2 c1 x1 p \/ box2 c2 x2 p) ->
  forall t, preimage D f c x t <-> preimage D f c1 x1 t \/ preimage D f c2 x2 t.
Proof. intros C t. specialize (C (f t, t)). unfold box2 in C. cbn [fst snd] in C. unfold preimage. tauto. Qed.
Section RevBox.
Context {F : fmt} (c c1 c2 x x1 x2 : itv F).
Hypotheses (W : wf c) (W1 : wf c1) (W2 : wf c2) (V : wf x) (V1 : wf x1) (V2 : wf x2) (C : forall p, box2 c x p <-> box2 c1 x1 p \/ box2 c2 x2 p).
Lemma sqr_rev_box : joins (sqr_rev c x) (sqr_rev c1 x1) (sqr_rev c2 x2).
Proof. exact (join_tight _ _ _ _ _ _ (C25.C25_sqr_rev F c x W V) (C25.C25_sqr_rev F c1 x1 W1 V1) (C25.C25_sqr_rev F c2 x2 W2 V2) (pre_box _ _ _ _ _ _ _ _ C)). Qed.
Lemma abs_rev_box : joins (abs_rev c x) (abs_rev c1 x1) (abs_rev c2 x2).
Proof. exact (join_tight _ _ _ _ _ _ (C25.C25_abs_rev F c x W V) (C25.C25_abs_rev F c1 x1 W1 V1) (C25.C25_abs_rev F c2 x2 W2 V2) (pre_box _ _ _ _ _ _ _ _ C)). Qed.
Lemma cosh_rev_box : joins (cosh_rev c x) (cosh_rev c1 x1) (cosh_rev c2 x2).
Proof. exact (join_tight _ _ _ _ _ _ (C25.C25_cosh_rev F c x W V) (C25.C25_cosh_rev F c1 x1 W1 V1) (C25.C25_cosh_rev F c2 x2 W2 V2) (pre_box _ _ _ _ _ _ _ _ C)). Qed.
End RevBox.
Section RevBoxMixed.
Context (T F G : fmt) (c c1 c2 : itv F) (x x1 x2 : itv G).
Hypotheses (Q1 : comparable T F) (Q2 : comparable T G) (Q3 : comparable F G).
Hypotheses (W : wf c) (W1 : wf c1) (W2 : wf c2) (V : wf x) (V1 : wf x1) (V2 : wf x2) (C : forall p, box2 c x p <-> box2 c1 x1 p \/ box2 c2 x2 p).
Lemma sqr_rev_box_mixed : joins (sqr_rev_mixed T c x) (sqr_rev_mixed T c1 x1) (sqr_rev_mixed T c2 x2).
Proof. exact (join_tight _ _ _ _ _ _ (C25.C25_sqr_rev_mixed F G T c x Q1 Q2 Q3 W V) (C25.C25_sqr_rev_mixed F G T c1 x1 Q1 Q2 Q3 W1 V1) (C25.C25_sqr_rev_mixed F G T c2 x2 Q1 Q2 Q3 W2 V2) (pre_box _ _ _ _ _ _ _ _ C)). Qed.
Lemma abs_rev_box_mixed : joins (abs_rev_mixed T c x) (abs_rev_mixed T c1 x1) (abs_rev_mixed T c2 x2).
Proof. exact (join_tight _ _ _ _ _ _ (C25.C25_abs_rev_mixed F G T c x Q1 Q2 Q3 W V) (C25.C25_abs_rev_mixed F G T c1 x1 Q1 Q2 Q3 W1 V1) (C25.C25_abs_rev_mixed F G T c2 x2 Q1 Q2 Q3 W2 V2) (pre_box _ _ _ _ _ _ _ _ C)). Qed.
Lemma cosh_rev_box_mixed : joins (cosh_rev_mixed T c x) (cosh_rev_mixed T c1 x1) (cosh_rev_mixed T c2 x2).
Proof. exact (join_tight _ _ _ _ _ _ (C25.C25_cosh_rev_mixed F G T c x Q1 Q2 Q3 W V) (C25.C25_cosh_rev_mixed F G T c1 x1 Q1 Q2 Q3 W1 V1) (C25.C25_cosh_rev_mixed F G T c2 x2 Q1 Q2 Q3 W2 V2) (pre_box _ _ _ _ _ _ _ _ C)). Qed.
End RevBoxMixed.
(** The solutions and the limits at zero of a product, over a box that is the union of two. *)
Lemma lim_box {F G H} (b b1 b2 : itv F) (c c1 c2 : itv G) (x x1 x2 : itv H) : (forall p, box3 b c x p <-> box3 b1 c1 x1 p \/ box3 b2 c2 x2 p) ->
  forall t, rev_mul_lim b c t /\ mem t x <-> (rev_mul_lim b1 c1 t /\ mem t x1) \/ (rev_mul_lim b2 c2 t /\ mem t x2).
Proof.
intros C t.
assert (K : forall r s u, mem r b /\ mem s c /\ mem u x <-> (mem r b1 /\ mem s c1 /\ mem u x1) \/ (mem r b2 /\ mem s c2 /\ mem u x2)).
{ intros r s u. specialize (C (r, s, u)). unfold box3, box2 in C. cbn [fst snd] in C. tauto. }
unfold rev_mul_lim, rev_mul. split.
- intros [[(s & Hs & Hp)|(-> & U & r & Hr)] Ht].
  + destruct (proj1 (K s _ t) (conj Hs (conj Hp Ht))) as [(P & Q & S)|(P & Q & S)]; [left|right]; (split; [left; exists s; now split|exact S]).
  + destruct (Classical_Prop.classic (unlimited b1 /\ mem r c1 /\ mem 0 x1)) as [(P & Q & S)|N1]; [left; split; [right; split; [reflexivity|]; split; [exact P|now exists r]|exact S]|].
    destruct (Classical_Prop.classic (unlimited b2 /\ mem r c2 /\ mem 0 x2)) as [(P & Q & S)|N2]; [right; split; [right; split; [reflexivity|]; split; [exact P|now exists r]|exact S]|].
    exfalso. assert (L : forall b' : itv F, ~ unlimited b' -> exists B, forall s, mem s b' -> Rabs s <= B).
    { intros b' N. apply Classical_Prop.NNPP. intros N'. apply N. intros B. apply Classical_Prop.NNPP. intros N''. apply N'. exists B. intros s Hs. apply Rnot_lt_le. intros L. apply N''. exists s. now split. }
    assert (L1 : exists B, forall s, mem s b1 /\ mem r c1 /\ mem 0 x1 -> Rabs s <= B).
    { destruct (Classical_Prop.classic (mem r c1 /\ mem 0 x1)) as [Y|Y]; [|exists 0; intros s (_ & Y'); now destruct Y].
      destruct (L b1) as [B HB]; [intros U1; apply N1; now split|]. exists B. intros s [Y' _]. now apply HB. }
    assert (L2 : exists B, forall s, mem s b2 /\ mem r c2 /\ mem 0 x2 -> Rabs s <= B).
    { destruct (Classical_Prop.classic (mem r c2 /\ mem 0 x2)) as [Y|Y]; [|exists 0; intros s (_ & Y'); now destruct Y].
      destruct (L b2) as [B HB]; [intros U1; apply N2; now split|]. exists B. intros s [Y' _]. now apply HB. }
    destruct L1 as [E1 L1], L2 as [E2 L2]. destruct (U (Rmax E1 E2)) as (s & Hs & Hm). pose proof (Rmax_l E1 E2). pose proof (Rmax_r E1 E2).
    destruct (proj1 (K s r 0) (conj Hs (conj Hr Ht))) as [Y|Y]; [specialize (L1 s Y)|specialize (L2 s Y)]; lra.
- intros [[[(s & Hs & Hp)|(-> & U & r & Hr)] Ht]|[[(s & Hs & Hp)|(-> & U & r & Hr)] Ht]].
  + destruct (proj2 (K s _ t) (or_introl (conj Hs (conj Hp Ht)))) as (P & Q & S). split; [left; exists s; now split|exact S].
  + destruct (U 0) as (pb1 & B1 & _). destruct (proj2 (K pb1 r 0) (or_introl (conj B1 (conj Hr Ht)))) as (_ & Q & S). split; [right|exact S]. split; [reflexivity|]. split; [|now exists r].
    intros B. destruct (U B) as (s & Hs & Hm). exists s. split; [|exact Hm]. now destruct (proj2 (K s r 0) (or_introl (conj Hs (conj Hr Ht)))) as (P & _).
  + destruct (proj2 (K s _ t) (or_intror (conj Hs (conj Hp Ht)))) as (P & Q & S). split; [left; exists s; now split|exact S].
  + destruct (U 0) as (pb2 & B2 & _). destruct (proj2 (K pb2 r 0) (or_intror (conj B2 (conj Hr Ht)))) as (_ & Q & S). split; [right|exact S]. split; [reflexivity|]. split; [|now exists r].
    intros B. destruct (U B) as (s & Hs & Hm). exists s. split; [|exact Hm]. now destruct (proj2 (K s r 0) (or_intror (conj Hs (conj Hr Ht)))) as (P & _).
Qed.
Lemma mul_rev_box {F} (b b1 b2 c c1 c2 x x1 x2 : itv F) : wf b -> wf b1 -> wf b2 -> wf c -> wf c1 -> wf c2 -> wf x -> wf x1 -> wf x2 ->
  (forall p, box3 b c x p <-> box3 b1 c1 x1 p \/ box3 b2 c2 x2 p) -> joins (mul_rev b c x) (mul_rev b1 c1 x1) (mul_rev b2 c2 x2).
Proof.
intros B B1 B2 W W1 W2 V V1 V2 C.
exact (join_tight _ _ _ _ _ _ (C24.C24_mul_rev_exact F b c x B W V) (C24.C24_mul_rev_exact F b1 c1 x1 B1 W1 V1) (C24.C24_mul_rev_exact F b2 c2 x2 B2 W2 V2) (lim_box _ _ _ _ _ _ _ _ _ C)).
Qed.
Lemma mul_rev_box_mixed T {F G H} (b b1 b2 : itv F) (c c1 c2 : itv G) (x x1 x2 : itv H) :
  comparable T F -> comparable T G -> comparable F G -> comparable T H -> comparable F H -> comparable G H ->
  wf b -> wf b1 -> wf b2 -> wf c -> wf c1 -> wf c2 -> wf x -> wf x1 -> wf x2 ->
  (forall p, box3 b c x p <-> box3 b1 c1 x1 p \/ box3 b2 c2 x2 p) -> joins (mul_rev_mixed T b c x) (mul_rev_mixed T b1 c1 x1) (mul_rev_mixed T b2 c2 x2).
Proof.
intros Q1 Q2 Q3 Q4 Q5 Q6 B B1 B2 W W1 W2 V V1 V2 C.
exact (join_tight _ _ _ _ _ _ (C24.C24_mul_rev_mixed_exact F G H T b c x Q1 Q2 Q3 Q4 Q5 Q6 B W V) (C24.C24_mul_rev_mixed_exact F G H T b1 c1 x1 Q1 Q2 Q3 Q4 Q5 Q6 B1 W1 V1) (C24.C24_mul_rev_mixed_exact F G H T b2 c2 x2 Q1 Q2 Q3 Q4 Q5 Q6 B2 W2 V2) (lim_box _ _ _ _ _ _ _ _ _ C)).
Qed.
(** ** Intersection *)
Lemma inter_cut {F} (x x1 x2 y : itv F) : wf x -> wf x1 -> wf x2 -> wf y -> cut x x1 x2 -> joins (intersection x y) (intersection x1 y) (intersection x2 y).
Proof.
intros W W1 W2 V C.
assert (K : forall a : itv F, wf a -> computes_tightest (intersection a y) (fun r => mem r a /\ mem r y)).
{ intros a A. destruct (C20.C20_intersection_exact F a y A V) as (z & E & Wz & M). exists z. split; [intros s; now rewrite E|]. split; [exact Wz|]. split; [intros r H; now apply M|].
  intros w _ H r Hr. now apply H, M. }
refine (join_tight _ _ _ _ _ _ (K x W) (K x1 W1) (K x2 W2) _). intros r. specialize (C r). tauto.
Qed.
Lemma inter_cut_mixed T {F G} (x x1 x2 : itv F) (y : itv G) : comparable T F -> comparable T G -> comparable F G ->
  wf x -> wf x1 -> wf x2 -> wf y -> cut x x1 x2 -> joins (intersection_mixed T x y) (intersection_mixed T x1 y) (intersection_mixed T x2 y).
Proof.
intros Q1 Q2 Q3 W W1 W2 V C.
refine (join_tight _ _ _ _ _ _ (C28.C28_intersection T F G x y Q1 Q2 Q3 W V) (C28.C28_intersection T F G x1 y Q1 Q2 Q3 W1 V) (C28.C28_intersection T F G x2 y Q1 Q2 Q3 W2 V) _).
intros r. specialize (C r). tauto.
Qed.
(** ** Decorated reverse functions: the decoration is always trv *)
Lemma join_trv {T} (m m1 m2 : M (ditv T)) S S1 S2 : gives m (with_trv (tightest S)) -> gives m1 (with_trv (tightest S1)) -> gives m2 (with_trv (tightest S2)) ->
  (forall r, S r <-> S1 r \/ S2 r) -> joins_dec m m1 m2.
Proof.
intros (z & Z & Dz & _ & Tz) (z1 & Z1 & D1 & _ & T1) (z2 & Z2 & D2 & _ & T2) E.
destruct (join_tight (ret (fst z)) (ret (fst z1)) (ret (fst z2)) S S1 S2) as (a & a1 & a2 & A & A1 & A2 & K);
  [exists (fst z); now split|exists (fst z1); now split|exists (fst z2); now split|exact E|].
exists z, z1, z2. split; [exact Z|]. split; [exact Z1|]. split; [exact Z2|]. split; [|now rewrite Dz, D1, D2].
rewrite (returns_one _ (fst z) a (fun s => eq_refl) A), (returns_one _ (fst z1) a1 (fun s => eq_refl) A1), (returns_one _ (fst z2) a2 (fun s => eq_refl) A2). exact K.
Qed.
Lemma dsqr_rev_box {F} (c c1 c2 x x1 x2 : ditv F) : proper c -> proper c1 -> proper c2 -> proper x -> proper x1 -> proper x2 ->
  (forall p, box2 (fst c) (fst x) p <-> box2 (fst c1) (fst x1) p \/ box2 (fst c2) (fst x2) p) -> joins_dec (sqr_rev_dec c x) (sqr_rev_dec c1 x1) (sqr_rev_dec c2 x2).
Proof.
intros (A & _ & A') (A1 & _ & A1') (A2 & _ & A2') (B & _ & B') (B1 & _ & B1') (B2 & _ & B2') C.
exact (join_trv _ _ _ _ _ _ (C25.C25_sqr_rev_dec F c x A A' B B') (C25.C25_sqr_rev_dec F c1 x1 A1 A1' B1 B1') (C25.C25_sqr_rev_dec F c2 x2 A2 A2' B2 B2') (pre_box _ _ _ _ _ _ _ _ C)).
Qed.
Lemma dsqr_rev_box_mixed T {F G} (c c1 c2 : ditv F) (x x1 x2 : ditv G) : comparable T F -> comparable T G -> comparable F G ->
  proper c -> proper c1 -> proper c2 -> proper x -> proper x1 -> proper x2 ->
  (forall p, box2 (fst c) (fst x) p <-> box2 (fst c1) (fst x1) p \/ box2 (fst c2) (fst x2) p) -> joins_dec (sqr_rev_dec_mixed T c x) (sqr_rev_dec_mixed T c1 x1) (sqr_rev_dec_mixed T c2 x2).
Proof.
intros Q1 Q2 Q3 (A & _ & A') (A1 & _ & A1') (A2 & _ & A2') (B & _ & B') (B1 & _ & B1') (B2 & _ & B2') C.
exact (join_trv _ _ _ _ _ _ (C25.C25_sqr_rev_dec_mixed F G T c x Q1 Q2 Q3 A A' B B') (C25.C25_sqr_rev_dec_mixed F G T c1 x1 Q1 Q2 Q3 A1 A1' B1 B1') (C25.C25_sqr_rev_dec_mixed F G T c2 x2 Q1 Q2 Q3 A2 A2' B2 B2') (pre_box _ _ _ _ _ _ _ _ C)).
Qed.
Lemma dabs_rev_box {F} (c c1 c2 x x1 x2 : ditv F) : proper c -> proper c1 -> proper c2 -> proper x -> proper x1 -> proper x2 ->
  (forall p, box2 (fst c) (fst x) p <-> box2 (fst c1) (fst x1) p \/ box2 (fst c2) (fst x2) p) -> joins_dec (abs_rev_dec c x) (abs_rev_dec c1 x1) (abs_rev_dec c2 x2).
Proof.
intros (A & _ & A') (A1 & _ & A1') (A2 & _ & A2') (B & _ & B') (B1 & _ & B1') (B2 & _ & B2') C.
exact (join_trv _ _ _ _ _ _ (C25.C25_abs_rev_dec F c x A A' B B') (C25.C25_abs_rev_dec F c1 x1 A1 A1' B1 B1') (C25.C25_abs_rev_dec F c2 x2 A2 A2' B2 B2') (pre_box _ _ _ _ _ _ _ _ C)).
Qed.
Lemma dabs_rev_box_mixed T {F G} (c c1 c2 : ditv F) (x x1 x2 : ditv G) : comparable T F -> comparable T G -> comparable F G ->
  proper c -> proper c1 -> proper c2 -> proper x -> proper x1 -> proper x2 ->
  (forall p, box2 (fst c) (fst x) p <-> box2 (fst c1) (fst x1) p \/ box2 (fst c2) (fst x2) p) -> joins_dec (abs_rev_dec_mixed T c x) (abs_rev_dec_mixed T c1 x1) (abs_rev_dec_mixed T c2 x2).
Proof.
intros Q1 Q2 Q3 (A & _ & A') (A1 & _ & A1') (A2 & _ & A2') (B & _ & B') (B1 & _ & B1') (B2 & _ & B2') C.
exact (join_trv _ _ _ _ _ _ (C25.C25_abs_rev_dec_mixed F G T c x Q1 Q2 Q3 A A' B B') (C25.C25_abs_rev_dec_mixed F G T c1 x1 Q1 Q2 Q3 A1 A1' B1 B1') (C25.C25_abs_rev_dec_mixed F G T c2 x2 Q1 Q2 Q3 A2 A2' B2 B2') (pre_box _ _ _ _ _ _ _ _ C)).
Qed.
Lemma dcosh_rev_box {F} (c c1 c2 x x1 x2 : ditv F) : proper c -> proper c1 -> proper c2 -> proper x -> proper x1 -> proper x2 ->
  (forall p, box2 (fst c) (fst x) p <-> box2 (fst c1) (fst x1) p \/ box2 (fst c2) (fst x2) p) -> joins_dec (cosh_rev_dec c x) (cosh_rev_dec c1 x1) (cosh_rev_dec c2 x2).
Proof.
intros (A & _ & A') (A1 & _ & A1') (A2 & _ & A2') (B & _ & B') (B1 & _ & B1') (B2 & _ & B2') C.
exact (join_trv _ _ _ _ _ _ (C25.C25_cosh_rev_dec F c x A A' B B') (C25.C25_cosh_rev_dec F c1 x1 A1 A1' B1 B1') (C25.C25_cosh_rev_dec F c2 x2 A2 A2' B2 B2') (pre_box _ _ _ _ _ _ _ _ C)).
Qed.
Lemma dcosh_rev_box_mixed T {F G} (c c1 c2 : ditv F) (x x1 x2 : ditv G) : comparable T F -> comparable T G -> comparable F G ->
  proper c -> proper c1 -> proper c2 -> proper x -> proper x1 -> proper x2 ->
  (forall p, box2 (fst c) (fst x) p <-> box2 (fst c1) (fst x1) p \/ box2 (fst c2) (fst x2) p) -> joins_dec (cosh_rev_dec_mixed T c x) (cosh_rev_dec_mixed T c1 x1) (cosh_rev_dec_mixed T c2 x2).
Proof.
intros Q1 Q2 Q3 (A & _ & A') (A1 & _ & A1') (A2 & _ & A2') (B & _ & B') (B1 & _ & B1') (B2 & _ & B2') C.
exact (join_trv _ _ _ _ _ _ (C25.C25_cosh_rev_dec_mixed F G T c x Q1 Q2 Q3 A A' B B') (C25.C25_cosh_rev_dec_mixed F G T c1 x1 Q1 Q2 Q3 A1 A1' B1 B1') (C25.C25_cosh_rev_dec_mixed F G T c2 x2 Q1 Q2 Q3 A2 A2' B2 B2') (pre_box _ _ _ _ _ _ _ _ C)).
Qed.
Lemma dmul_rev_box {F} (b b1 b2 c c1 c2 x x1 x2 : ditv F) : proper b -> proper b1 -> proper b2 -> proper c -> proper c1 -> proper c2 -> proper x -> proper x1 -> proper x2 ->
  (forall p, box3 (fst b) (fst c) (fst x) p <-> box3 (fst b1) (fst c1) (fst x1) p \/ box3 (fst b2) (fst c2) (fst x2) p) -> joins_dec (mul_rev_dec b c x) (mul_rev_dec b1 c1 x1) (mul_rev_dec b2 c2 x2).
Proof.
intros (A & _ & A') (A1 & _ & A1') (A2 & _ & A2') (B & _ & B') (B1 & _ & B1') (B2 & _ & B2') (D & _ & D') (D1 & _ & D1') (D2 & _ & D2') C.
exact (join_trv _ _ _ _ _ _ (C24.C24_mul_rev_dec_exact F b c x A A' B B' D D') (C24.C24_mul_rev_dec_exact F b1 c1 x1 A1 A1' B1 B1' D1 D1') (C24.C24_mul_rev_dec_exact F b2 c2 x2 A2 A2' B2 B2' D2 D2') (lim_box _ _ _ _ _ _ _ _ _ C)).
Qed.
Lemma dmul_rev_box_mixed T {F G H} (b b1 b2 : ditv F) (c c1 c2 : ditv G) (x x1 x2 : ditv H) : comparable T F -> comparable T G -> comparable F G -> comparable T H -> comparable F H -> comparable G H -> proper b -> proper b1 -> proper b2 -> proper c -> proper c1 -> proper c2 -> proper x -> proper x1 -> proper x2 ->
  (forall p, box3 (fst b) (fst c) (fst x) p <-> box3 (fst b1) (fst c1) (fst x1) p \/ box3 (fst b2) (fst c2) (fst x2) p) -> joins_dec (mul_rev_dec_mixed T b c x) (mul_rev_dec_mixed T b1 c1 x1) (mul_rev_dec_mixed T b2 c2 x2).
Proof.
intros Q1 Q2 Q3 Q4 Q5 Q6 (A & _ & A') (A1 & _ & A1') (A2 & _ & A2') (B & _ & B') (B1 & _ & B1') (B2 & _ & B2') (D & _ & D') (D1 & _ & D1') (D2 & _ & D2') C.
exact (join_trv _ _ _ _ _ _ (C24.C24_mul_rev_dec_mixed_exact F G H T b c x Q1 Q2 Q3 Q4 Q5 Q6 A A' B B' D D') (C24.C24_mul_rev_dec_mixed_exact F G H T b1 c1 x1 Q1 Q2 Q3 Q4 Q5 Q6 A1 A1' B1 B1' D1 D1') (C24.C24_mul_rev_dec_mixed_exact F G H T b2 c2 x2 Q1 Q2 Q3 Q4 Q5 Q6 A2 A2' B2 B2' D2 D2') (lim_box _ _ _ _ _ _ _ _ _ C)).
Qed.

(** ** The reverse power: the box cut *)
Lemma tight_sets {F} S (z z' : itv F) : tightest S z -> tightest S z' -> forall r, mem r z <-> mem r z'.
Proof. intros (W & E & M) (W' & E' & M') r. split; [now apply (M z' W')|now apply (M' z W)]. Qed.
Lemma finally_join {T} (m m1 m2 : nat -> M (itv T)) P P1 P2 : finally m P -> finally m1 P1 -> finally m2 P2 ->
  (forall z z1 z2, P z -> P1 z1 -> P2 z2 -> tightest (fun r => mem r z1 \/ mem r z2) z) -> exists k, forall fuel, (k <= fuel)%nat -> joins (m fuel) (m1 fuel) (m2 fuel).
Proof.
intros (z & k & H & Pz) (z1 & k1 & H1 & Pz1) (z2 & k2 & H2 & Pz2) K. exists (k + k1 + k2)%nat. intros fuel L. exists z, z1, z2.
split; [apply H; lia|]. split; [apply H1; lia|]. split; [apply H2; lia|now apply K].
Qed.
Lemma tight_join {F} (S S1 S2 : R -> Prop) (z z1 z2 : itv F) : (forall r, S r <-> S1 r \/ S2 r) -> tightest S z -> tightest S1 z1 -> tightest S2 z2 ->
  tightest (fun r => mem r z1 \/ mem r z2) z.
Proof.
intros E T T1 T2. destruct (join_tight (ret z) (ret z1) (ret z2) S S1 S2) as (a & a1 & a2 & A & A1 & A2 & K);
  [exists z; now split|exists z1; now split|exists z2; now split|exact E|].
rewrite (returns_one _ z a (fun s => eq_refl) A), (returns_one _ z1 a1 (fun s => eq_refl) A1), (returns_one _ z2 a2 (fun s => eq_refl) A2). exact K.
Qed.
Lemma sides_join {F G T} W p (c : itv F) (x x1 x2 : itv G) (z z1 z2 : itv T) : cut x x1 x2 ->
  cut_sides_mixed W p c x z -> cut_sides_mixed W p c x1 z1 -> cut_sides_mixed W p c x2 z2 -> tightest (fun r => mem r z1 \/ mem r z2) z.
Proof.
intros C (a & b & A & B & Z) (a1 & b1 & A1 & B1 & Z1) (a2 & b2 & A2 & B2 & Z2). refine (tight_join _ _ _ _ _ _ _ Z Z1 Z2).
intros r. pose proof (tight_sets _ _ _ A A1 r). pose proof (tight_sets _ _ _ A A2 r). pose proof (tight_sets _ _ _ B B1 r). pose proof (tight_sets _ _ _ B B2 r).
specialize (C r). tauto.
Qed.
Lemma pown_rev_cut {F} (c x x1 x2 : itv F) p : wf c -> wf x -> wf x1 -> wf x2 -> p <> int_min -> cut x x1 x2 ->
  exists k, forall fuel, (k <= fuel)%nat -> joins (pown_rev fuel c x p) (pown_rev fuel c x1 p) (pown_rev fuel c x2 p).
Proof.
intros W V V1 V2 N C. destruct (Z.lt_ge_cases p 0) as [L|L].
- refine (finally_join _ _ _ _ _ _ (C25.C25_pown_rev_neg_exact F c x p W V L N) (C25.C25_pown_rev_neg_exact F c x1 p W V1 L N) (C25.C25_pown_rev_neg_exact F c x2 p W V2 L N) _).
  intros z z1 z2. apply tight_join. intros r. specialize (C r). tauto.
- refine (finally_join _ _ _ _ _ _ (C25.C25_pown_rev_pos_exact F c x p W V L) (C25.C25_pown_rev_pos_exact F c x1 p W V1 L) (C25.C25_pown_rev_pos_exact F c x2 p W V2 L) _).
  intros z z1 z2. exact (sides_join F p c x x1 x2 z z1 z2 C).
Qed.
Lemma pown_rev_cut_mixed T {F G} (c : itv F) (x x1 x2 : itv G) p : comparable T F -> comparable T G -> comparable F G ->
  wf c -> wf x -> wf x1 -> wf x2 -> p <> int_min -> cut x x1 x2 ->
  exists k, forall fuel, (k <= fuel)%nat -> joins (pown_rev_mixed T fuel c x p) (pown_rev_mixed T fuel c x1 p) (pown_rev_mixed T fuel c x2 p).
Proof.
intros Q1 Q2 Q3 W V V1 V2 N C. destruct (Z.lt_ge_cases p 0) as [L|L].
- refine (finally_join _ _ _ _ _ _ (C25.C25_pown_rev_mixed_neg_exact F G T c x p Q1 Q2 Q3 W V L N) (C25.C25_pown_rev_mixed_neg_exact F G T c x1 p Q1 Q2 Q3 W V1 L N) (C25.C25_pown_rev_mixed_neg_exact F G T c x2 p Q1 Q2 Q3 W V2 L N) _).
  intros z z1 z2. apply tight_join. intros r. specialize (C r). tauto.
- refine (finally_join _ _ _ _ _ _ (C25.C25_pown_rev_mixed_pos_exact F G T c x p Q1 Q2 Q3 W V L) (C25.C25_pown_rev_mixed_pos_exact F G T c x1 p Q1 Q2 Q3 W V1 L) (C25.C25_pown_rev_mixed_pos_exact F G T c x2 p Q1 Q2 Q3 W V2 L) _).
  intros z z1 z2. exact (sides_join _ p c x x1 x2 z z1 z2 C).
Qed.
