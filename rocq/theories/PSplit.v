(** * Proofs: operands cut into parts *)
From Coq Require Import ZArith NArith Reals Bool Lra Lia List Setoid.
From Flocq Require Import Core.Core IEEE754.BinarySingleNaN.
From Verif Require Import Fmt Spec FloatFacts Exc Deco SpecApi SpecDeco SpecIso SpecStrong SpecElem SpecMixed SpecExpr SpecAlg SpecPoint SpecOver SpecSplit MBase PBase PConv MBool MArith MMixed MExpr PIso PExpr PPoint PStrong4 POver POver3.
From Verif Require C20 C47 C54.
Local Open Scope R_scope.

Lemma join_tight {F} (m m1 m2 : M (itv F)) S S1 S2 : computes_tightest m S -> computes_tightest m1 S1 -> computes_tightest m2 S2 ->
  (forall r, S r <-> S1 r \/ S2 r) -> joins m m1 m2.
Proof.
intros (z & Z & T) (z1 & Z1 & T1) (z2 & Z2 & T2) E. exists z, z1, z2. split; [exact Z|]. split; [exact Z1|]. split; [exact Z2|].
destruct T as (W & En & Mi), T1 as (W1 & En1 & Mi1), T2 as (W2 & En2 & Mi2). split; [exact W|]. split.
- intros r [H|H]; [apply (Mi1 z W)|apply (Mi2 z W)]; auto; intros t Ht; apply En, E; auto.
- intros w Ww K. apply Mi; [exact Ww|]. intros r Hr. apply E in Hr as [Hr|Hr]; apply K; [left; now apply En1|right; now apply En2].
Qed.

Lemma img1_cut D f {F} (x x1 x2 : itv F) : cut x x1 x2 -> forall r, image1 D f x r <-> image1 D f x1 r \/ image1 D f x2 r.
Proof.
intros E r. unfold image1. split.
- intros (s & H & K). apply E in H as [H|H]; [left|right]; exists s; now split.
- intros [(s & H & K)|(s & H & K)]; exists s; (split; [apply E; auto|exact K]).
Qed.
Lemma img2_cut1 D f {F G} (x x1 x2 : itv F) (y : itv G) : cut x x1 x2 -> forall r, image2 D f x y r <-> image2 D f x1 y r \/ image2 D f x2 y r.
Proof.
intros E r. unfold image2. split.
- intros (s & t & H & K). apply E in H as [H|H]; [left|right]; exists s, t; now split.
- intros [(s & t & H & K)|(s & t & H & K)]; exists s, t; (split; [apply E; auto|exact K]).
Qed.
Lemma img2_cut2 D f {F G} (x : itv F) (y y1 y2 : itv G) : cut y y1 y2 -> forall r, image2 D f x y r <-> image2 D f x y1 r \/ image2 D f x y2 r.
Proof.
intros E r. unfold image2. split.
- intros (s & t & H & L & K). apply E in L as [L|L]; [left|right]; exists s, t; now split.
- intros [(s & t & H & L & K)|(s & t & H & L & K)]; exists s, t; (split; [exact H|split; [apply E; auto|exact K]]).
Qed.

Lemma un_cut {F} u (x x1 x2 : itv F) : wf x -> wf x1 -> wf x2 -> cut x x1 x2 -> tan_good F u x -> tan_good F u x1 -> tan_good F u x2 ->
  joins (un_bare u x) (un_bare u x1) (un_bare u x2).
Proof. intros W W1 W2 C T T1 T2. exact (join_tight _ _ _ _ _ _ (un_tight1 u x W T) (un_tight1 u x1 W1 T1) (un_tight1 u x2 W2 T2) (img1_cut _ _ _ _ _ C)). Qed.
Lemma un_cut_mixed T {F} u (x x1 x2 : itv F) : comparable T F -> wf x -> wf x1 -> wf x2 -> cut x x1 x2 ->
  tan_good (pmax T F) u x -> tan_good (pmax T F) u x1 -> tan_good (pmax T F) u x2 ->
  joins (un_bare_mixed T u x) (un_bare_mixed T u x1) (un_bare_mixed T u x2).
Proof. intros D W W1 W2 C K K1 K2. exact (join_tight _ _ _ _ _ _ (un_tight1_mixed T u x D W K) (un_tight1_mixed T u x1 D W1 K1) (un_tight1_mixed T u x2 D W2 K2) (img1_cut _ _ _ _ _ C)). Qed.
Lemma bin_cut1 {F} b (x x1 x2 y : itv F) : wf x -> wf x1 -> wf x2 -> wf y -> cut x x1 x2 -> joins (bin_bare b x y) (bin_bare b x1 y) (bin_bare b x2 y).
Proof. intros W W1 W2 V C. exact (join_tight _ _ _ _ _ _ (bin_tight b x y W V) (bin_tight b x1 y W1 V) (bin_tight b x2 y W2 V) (img2_cut1 _ _ _ _ _ _ C)). Qed.
Lemma bin_cut2 {F} b (x y y1 y2 : itv F) : wf x -> wf y -> wf y1 -> wf y2 -> cut y y1 y2 -> joins (bin_bare b x y) (bin_bare b x y1) (bin_bare b x y2).
Proof. intros V W W1 W2 C. exact (join_tight _ _ _ _ _ _ (bin_tight b x y V W) (bin_tight b x y1 V W1) (bin_tight b x y2 V W2) (img2_cut2 _ _ _ _ _ _ C)). Qed.
Lemma bin_cut1_mixed T {F G} b (x x1 x2 : itv F) (y : itv G) : comparable T F -> comparable T G -> comparable F G ->
  wf x -> wf x1 -> wf x2 -> wf y -> cut x x1 x2 -> joins (bin_bare_mixed T b x y) (bin_bare_mixed T b x1 y) (bin_bare_mixed T b x2 y).
Proof. intros A B D W W1 W2 V C. exact (join_tight _ _ _ _ _ _ (bin_tight_mixed T b x y A B D W V) (bin_tight_mixed T b x1 y A B D W1 V) (bin_tight_mixed T b x2 y A B D W2 V) (img2_cut1 _ _ _ _ _ _ C)). Qed.
Lemma bin_cut2_mixed T {F G} b (x : itv F) (y y1 y2 : itv G) : comparable T F -> comparable T G -> comparable F G ->
  wf x -> wf y -> wf y1 -> wf y2 -> cut y y1 y2 -> joins (bin_bare_mixed T b x y) (bin_bare_mixed T b x y1) (bin_bare_mixed T b x y2).
Proof. intros A B D V W W1 W2 C. exact (join_tight _ _ _ _ _ _ (bin_tight_mixed T b x y A B D V W) (bin_tight_mixed T b x y1 A B D V W1) (bin_tight_mixed T b x y2 A B D V W2) (img2_cut2 _ _ _ _ _ _ C)). Qed.

(** ** Continuity on the union of closed sets *)
Definition closed {P} (near : R -> P -> P -> Prop) (B : P -> Prop) : Prop :=
  forall p, ~ B p -> exists d, 0 < d /\ forall q, near d p q -> ~ B q.
Definition scales {P} (near : R -> P -> P -> Prop) : Prop := forall d d' p q, d <= d' -> near d p q -> near d' p q.
Lemma scales1 : scales near1. Proof. intros d d' p q H K. unfold near1 in *. lra. Qed.
Lemma scales2 : scales near2. Proof. intros d d' p q H [K L]. split; eapply scales1; eauto. Qed.
Lemma closed1 {F} (x : itv F) : closed near1 (box1 x).
Proof.
intros p Hp. destruct x as [l u]. unfold box1, mem in *. cbn [fst snd] in *. destruct (Classical_Prop.classic (lb l p)) as [L|L].
- assert (U : ~ ub u p) by (intros U; now apply Hp). destruct (is_finite u) eqn:Fu.
  + rewrite ub_fin in U by easy. exists (p - B2R u). split; [lra|]. intros q Hq [_ K]. unfold near1 in Hq.
    rewrite ub_fin in K by easy. apply Rabs_def2 in Hq. lra.
  + exists 1. split; [lra|]. intros q _ [_ K]. apply U. destruct u; try easy; exact K.
- destruct (is_finite l) eqn:Fu.
  + rewrite lb_fin in L by easy. exists (B2R l - p). split; [lra|]. intros q Hq [K _]. unfold near1 in Hq.
    rewrite lb_fin in K by easy. apply Rabs_def2 in Hq. lra.
  + exists 1. split; [lra|]. intros q _ [K _]. apply L. destruct l; try easy; exact K.
Qed.
Lemma closed2 {F G} (x : itv F) (y : itv G) : closed near2 (box2 x y).
Proof.
intros p Hp. destruct (Classical_Prop.classic (mem (fst p) x)) as [L|L].
- assert (U : ~ box1 y (snd p)) by (intros U; now apply Hp). destruct (closed1 y _ U) as (d & Hd & K). exists d. split; [exact Hd|].
  intros q [_ Q] [_ Y]. exact (K _ Q Y).
- destruct (closed1 x _ L) as (d & Hd & K). exists d. split; [exact Hd|]. intros q [Q _] [Y _]. exact (K _ Q Y).
Qed.
Lemma paste {P} (near : R -> P -> P -> Prop) (B B1 B2 : P -> Prop) f p : scales near -> closed near B1 -> closed near B2 ->
  (forall q, B q <-> B1 q \/ B2 q) -> (B1 p -> cont_at near B1 f p) -> (B2 p -> cont_at near B2 f p) -> cont_at near B f p.
Proof.
intros S C1 C2 E H1 H2 e He.
assert (K : forall D, closed near D -> (D p -> cont_at near D f p) -> exists d, 0 < d /\ forall q, D q -> near d p q -> Rabs (f q - f p) < e).
{ intros D C H. destruct (Classical_Prop.classic (D p)) as [Q|Q]; [exact (H Q e He)|]. destruct (C p Q) as (d & Hd & N). exists d. split; [exact Hd|].
  intros q Dq Hq. now destruct (N q Hq). }
destruct (K B1 C1 H1) as (d1 & P1 & Q1). destruct (K B2 C2 H2) as (d2 & P2 & Q2). exists (Rmin d1 d2). split; [now apply Rmin_glb_lt|].
intros q Bq Nq. apply E in Bq as [Bq|Bq]; [apply Q1|apply Q2]; auto; eapply S; eauto; [apply Rmin_l|apply Rmin_r].
Qed.
Lemma honest_paste {F P} (near : R -> P -> P -> Prop) (B B1 B2 D : P -> Prop) (b b1 b2 : Prop) f (z z1 z2 : itv F) d1 d2 :
  scales near -> closed near B1 -> closed near B2 -> (forall q, B q <-> B1 q \/ B2 q) -> (b1 -> b2 -> b) -> (bounded_rep z1 -> bounded_rep z2 -> bounded_rep z) ->
  honest near B1 D b1 f z1 d1 -> honest near B2 D b2 f z2 d2 -> honest near B D b f z (N.min d1 d2).
Proof.
intros S C1 C2 E Hb Hz (A1 & A2 & A3) (A1' & A2' & A3'). split; [|split]; intros L.
- destruct (A1 ltac:(lia)) as [[p Hp] K]. destruct (A1' ltac:(lia)) as [_ K']. split; [exists p; apply E; auto|]. intros q Hq. apply E in Hq as [Hq|Hq]; auto.
- intros p Hp. apply (paste near B B1 B2); auto; [apply A2; lia|apply A2'; lia].
- destruct (A3 ltac:(lia)) as (Q1 & Q2 & Q3). destruct (A3' ltac:(lia)) as (Q1' & Q2' & Q3'). split; [auto|]. split; [auto|].
  intros p Hp. apply E in Hp as [Hp|Hp]; auto.
Qed.
Lemma bounded_join {F} (z z1 z2 : itv F) : tightest (fun r => mem r z1 \/ mem r z2) z -> (exists r, mem r z1) -> (exists r, mem r z2) -> bounded_rep z1 -> bounded_rep z2 -> bounded_rep z.
Proof.
intros (W & En & Mi) [r H] [r' H'] [A1 A2] [B1 B2].
set (l := if Rle_bool (B2R (fst z1)) (B2R (fst z2)) then fst z1 else fst z2). set (u := if Rle_bool (B2R (snd z1)) (B2R (snd z2)) then snd z2 else snd z1).
assert (Fl : is_finite l = true) by (unfold l; case (Rle_bool (B2R (fst z1)) (B2R (fst z2))); [exact A1|exact B1]). assert (Fu : is_finite u = true) by (unfold u; case (Rle_bool (B2R (snd z1)) (B2R (snd z2))); [exact B2|exact A2]).
assert (L : B2R l <= B2R (fst z1) /\ B2R l <= B2R (fst z2)) by (unfold l; destruct (Rle_bool_spec (B2R (fst z1)) (B2R (fst z2))); lra).
assert (U : B2R (snd z1) <= B2R u /\ B2R (snd z2) <= B2R u) by (unfold u; destruct (Rle_bool_spec (B2R (snd z1)) (B2R (snd z2))); lra).
assert (K : forall t, mem t z1 \/ mem t z2 -> mem t (l, u)).
{ intros t Q. unfold mem in *. cbn [fst snd]. rewrite (lb_fin l), (ub_fin u) by assumption. destruct Q as [[Q1 Q2]|[Q1 Q2]]; rewrite lb_fin in Q1 by assumption; rewrite ub_fin in Q2 by assumption; lra. }
assert (J : included z (l, u)) by (apply Mi; [right; exists r; apply K; auto|exact K]).
assert (Z : mem r z) by (apply En; auto).
assert (M : forall t, mem t z -> B2R l <= t <= B2R u).
{ intros t Q. apply J in Q. unfold mem in Q. cbn [fst snd] in Q. rewrite lb_fin, ub_fin in Q by assumption. exact Q. }
destruct Z as [Z1 Z2]. destruct z as [a b]. cbn [fst snd] in *. split; cbn [fst snd].
- destruct (is_finite a) eqn:Fa; [reflexivity|]. exfalso. pose proof (Rmin_r r (B2R l - 1)) as Q.
  assert (X : mem (Rmin r (B2R l - 1)) (a, b)) by (split; cbn [fst snd]; [destruct a; try easy; exact Z1|exact (ub_mono _ _ _ Z2 (Rmin_l _ _))]). apply M in X. lra.
- destruct (is_finite b) eqn:Fb; [reflexivity|]. exfalso. pose proof (Rmax_r r (B2R u + 1)) as Q.
  assert (X : mem (Rmax r (B2R u + 1)) (a, b)) by (split; cbn [fst snd]; [exact (lb_mono _ _ _ Z1 (Rmax_l _ _))|destruct b; try easy; exact Z2]). apply M in X. lra.
Qed.

(** ** Decorations *)
Lemma bounded_some {F} (z : itv F) : wf z -> bounded_rep z -> exists r, mem r z.
Proof. intros [->|H] [B _]; [discriminate B|exact H]. Qed.
Lemma min_deco a b : is_deco a -> is_deco b -> is_deco (N.min a b).
Proof. intros A B. destruct (N.min_dec a b) as [->| ->]; assumption. Qed.
Lemma cut_better {F} (x x1 x2 : ditv F) : cut_dec x x1 x2 -> better x1 x /\ better x2 x.
Proof.
intros (C & [r1 H1] & [r2 H2] & D). split; (split; [intros r Hr; apply C; auto|]; split; [rewrite D; lia|]; intros N; exfalso; eapply N; eauto).
Qed.
Lemma bounded_cut {F} (x x1 x2 : itv F) : cut x x1 x2 -> (exists r, mem r x) -> wf x -> bounded_rep x1 -> bounded_rep x2 -> bounded_rep x.
Proof.
intros C Hx W B1 B2. destruct (Classical_Prop.classic (exists r, mem r x1)) as [H1|H1], (Classical_Prop.classic (exists r, mem r x2)) as [H2|H2].
- refine (bounded_join x x1 x2 _ H1 H2 B1 B2). split; [exact W|]. split; [intros r H; now apply C|]. intros w _ K r H. apply K. now apply C.
- destruct Hx as [r H]. assert (K : tightest (fun r => mem r x1 \/ mem r x1) x).
  { split; [exact W|]. split; [intros t T; apply C; tauto|]. intros w _ K t T. apply K. apply C in T as [T|T]; [auto|]. destruct H2. now exists t. }
  exact (bounded_join x x1 x1 K H1 H1 B1 B1).
- assert (K : tightest (fun r => mem r x2 \/ mem r x2) x).
  { split; [exact W|]. split; [intros t T; apply C; tauto|]. intros w _ K t T. apply K. apply C in T as [T|T]; [|auto]. destruct H1. now exists t. }
  exact (bounded_join x x2 x2 K H2 H2 B2 B2).
- destruct Hx as [r H]. apply C in H as [H|H]; [destruct H1|destruct H2]; now exists r.
Qed.
Lemma join_dec1 {F T} (opd : ditv F -> M (ditv T)) op dm f (x x1 x2 : ditv F) : strongest1 opd dm f ->
  proper x -> proper x1 -> proper x2 -> cut_dec x x1 x2 -> node1 opd op dm f x -> node1 opd op dm f x1 -> node1 opd op dm f x2 ->
  joins (op (fst x)) (op (fst x1)) (op (fst x2)) ->
  (forall z z1, returns (opd x) z -> returns (opd x1) z1 -> (snd z <= snd z1)%N) -> (forall z z2, returns (opd x) z -> returns (opd x2) z2 -> (snd z <= snd z2)%N) ->
  joins_dec (opd x) (opd x1) (opd x2).
Proof.
intros S P P1 P2 C (z & Z & Pz & Bz & Lz & _ & _) (z1 & Z1 & Pz1 & Bz1 & Lz1 & _ & H1) (z2 & Z2 & Pz2 & Bz2 & Lz2 & _ & H2) (w & w1 & w2 & W & W1 & W2 & J) M1 M2.
rewrite (returns_one _ _ _ W Bz), (returns_one _ _ _ W1 Bz1), (returns_one _ _ _ W2 Bz2) in J.
exists z, z1, z2. split; [exact Z|]. split; [exact Z1|]. split; [exact Z2|]. split; [exact J|].
apply N.le_antisymm; [apply N.min_glb; [exact (M1 z z1 Z Z1)|exact (M2 z z2 Z Z2)]|].
destruct C as (C & E1 & E2 & D). destruct P as (Wx & Dx & Ix). destruct Pz1 as (Wz1 & Dz1 & Iz1), Pz2 as (Wz2 & Dz2 & Iz2).
apply (S x Wx Dx Ix z Z); [now apply min_deco|rewrite D; lia|].
refine (honest_paste near1 _ (box1 (fst x1)) (box1 (fst x2)) dm _ _ _ f _ (fst z1) (fst z2) _ _ scales1 (closed1 _) (closed1 _) C _ _ H1 H2).
- apply bounded_cut; [exact C|destruct E1 as [r H]; exists r; apply C; auto|apply (proper_wf x); now split].
- intros Q1 Q2. assert (V1 : wf (fst z1)) by (apply (proper_wf z1); now split). assert (V2 : wf (fst z2)) by (apply (proper_wf z2); now split).
  exact (bounded_join _ _ _ J (bounded_some _ V1 Q1) (bounded_some _ V2 Q2) Q1 Q2).
Qed.
Lemma box2_cut1 {F G} (x x1 x2 : itv F) (y : itv G) : cut x x1 x2 -> forall q, box2 x y q <-> box2 x1 y q \/ box2 x2 y q.
Proof. intros C q. unfold box2. specialize (C (fst q)). tauto. Qed.
Lemma box2_cut2 {F G} (x : itv F) (y y1 y2 : itv G) : cut y y1 y2 -> forall q, box2 x y q <-> box2 x y1 q \/ box2 x y2 q.
Proof. intros C q. unfold box2. specialize (C (snd q)). tauto. Qed.
Lemma join_dec2a {F G T} (opd : ditv F -> ditv G -> M (ditv T)) op dm f (x x1 x2 : ditv F) (y : ditv G) : strongest2 opd dm f ->
  proper x -> proper x1 -> proper x2 -> proper y -> cut_dec x x1 x2 -> node2 opd op dm f x y -> node2 opd op dm f x1 y -> node2 opd op dm f x2 y ->
  joins (op (fst x) (fst y)) (op (fst x1) (fst y)) (op (fst x2) (fst y)) ->
  (forall z z1, returns (opd x y) z -> returns (opd x1 y) z1 -> (snd z <= snd z1)%N) -> (forall z z2, returns (opd x y) z -> returns (opd x2 y) z2 -> (snd z <= snd z2)%N) ->
  joins_dec (opd x y) (opd x1 y) (opd x2 y).
Proof.
intros S P P1 P2 Py C (z & Z & Pz & Bz & _) (z1 & Z1 & Pz1 & Bz1 & Lz1 & Ly1 & _ & H1) (z2 & Z2 & Pz2 & Bz2 & Lz2 & Ly2 & _ & H2) (w & w1 & w2 & W & W1 & W2 & J) M1 M2.
rewrite (returns_one _ _ _ W Bz), (returns_one _ _ _ W1 Bz1), (returns_one _ _ _ W2 Bz2) in J.
exists z, z1, z2. split; [exact Z|]. split; [exact Z1|]. split; [exact Z2|]. split; [exact J|].
apply N.le_antisymm; [apply N.min_glb; [exact (M1 z z1 Z Z1)|exact (M2 z z2 Z Z2)]|].
destruct C as (C & E1 & E2 & D). destruct P as (Wx & Dx & Ix). destruct Py as (Wy & Dy & Iy). destruct Pz1 as (Wz1 & Dz1 & Iz1), Pz2 as (Wz2 & Dz2 & Iz2).
apply (S x y Wx Dx Ix Wy Dy Iy z Z); [now apply min_deco|rewrite D; lia|lia|].
refine (honest_paste near2 _ (box2 (fst x1) (fst y)) (box2 (fst x2) (fst y)) _ _ _ _ _ _ (fst z1) (fst z2) _ _ scales2 (closed2 _ _) (closed2 _ _) (box2_cut1 _ _ _ _ C) _ _ H1 H2).
- intros [Q1 Q] [Q2 _]. split; [|exact Q]. revert Q1 Q2. apply bounded_cut; [exact C|destruct E1 as [r H]; exists r; apply C; auto|apply (proper_wf x); now split].
- intros Q1 Q2. assert (V1 : wf (fst z1)) by (apply (proper_wf z1); now split). assert (V2 : wf (fst z2)) by (apply (proper_wf z2); now split).
  exact (bounded_join _ _ _ J (bounded_some _ V1 Q1) (bounded_some _ V2 Q2) Q1 Q2).
Qed.
Lemma join_dec2b {F G T} (opd : ditv F -> ditv G -> M (ditv T)) op dm f (x : ditv F) (y y1 y2 : ditv G) : strongest2 opd dm f ->
  proper x -> proper y -> proper y1 -> proper y2 -> cut_dec y y1 y2 -> node2 opd op dm f x y -> node2 opd op dm f x y1 -> node2 opd op dm f x y2 ->
  joins (op (fst x) (fst y)) (op (fst x) (fst y1)) (op (fst x) (fst y2)) ->
  (forall z z1, returns (opd x y) z -> returns (opd x y1) z1 -> (snd z <= snd z1)%N) -> (forall z z2, returns (opd x y) z -> returns (opd x y2) z2 -> (snd z <= snd z2)%N) ->
  joins_dec (opd x y) (opd x y1) (opd x y2).
Proof.
intros S Px P P1 P2 C (z & Z & Pz & Bz & _) (z1 & Z1 & Pz1 & Bz1 & Lx1 & Lz1 & _ & H1) (z2 & Z2 & Pz2 & Bz2 & Lx2 & Lz2 & _ & H2) (w & w1 & w2 & W & W1 & W2 & J) M1 M2.
rewrite (returns_one _ _ _ W Bz), (returns_one _ _ _ W1 Bz1), (returns_one _ _ _ W2 Bz2) in J.
exists z, z1, z2. split; [exact Z|]. split; [exact Z1|]. split; [exact Z2|]. split; [exact J|].
apply N.le_antisymm; [apply N.min_glb; [exact (M1 z z1 Z Z1)|exact (M2 z z2 Z Z2)]|].
destruct C as (C & E1 & E2 & D). destruct P as (Wy & Dy & Iy). destruct Px as (Wx & Dx & Ix). destruct Pz1 as (Wz1 & Dz1 & Iz1), Pz2 as (Wz2 & Dz2 & Iz2).
apply (S x y Wx Dx Ix Wy Dy Iy z Z); [now apply min_deco|lia|rewrite D; lia|].
refine (honest_paste near2 _ (box2 (fst x) (fst y1)) (box2 (fst x) (fst y2)) _ _ _ _ _ _ (fst z1) (fst z2) _ _ scales2 (closed2 _ _) (closed2 _ _) (box2_cut2 _ _ _ _ C) _ _ H1 H2).
- intros [Q Q1] [_ Q2]. split; [exact Q|]. revert Q1 Q2. apply bounded_cut; [exact C|destruct E1 as [r H]; exists r; apply C; auto|apply (proper_wf y); now split].
- intros Q1 Q2. assert (V1 : wf (fst z1)) by (apply (proper_wf z1); now split). assert (V2 : wf (fst z2)) by (apply (proper_wf z2); now split).
  exact (bounded_join _ _ _ J (bounded_some _ V1 Q1) (bounded_some _ V2 Q2) Q1 Q2).
Qed.
Lemma better_refl {F} (x : ditv F) : proper x -> better x x.
Proof.
intros (W & _ & _). split; [intros r H; exact H|]. split; [lia|]. intros N. destruct W as [[_ [-> | ->]]|[[r H] _]]; [discriminate|discriminate|now destruct (N r)].
Qed.
Lemma worse {A} (m n : M (ditv A)) : (exists z1 z, returns m z1 /\ returns n z /\ proper z1 /\ proper z /\ better z1 z) -> forall z z1, returns n z -> returns m z1 -> (snd z <= snd z1)%N.
Proof. intros (w1 & w & H1 & H & _ & _ & _ & L & _) z z1 K K1. now rewrite (returns_one _ _ _ K H), (returns_one _ _ _ K1 H1). Qed.

Lemma dun_cut {F} u (x x1 x2 : ditv F) : proper x -> proper x1 -> proper x2 -> cut_dec x x1 x2 ->
  tan_good F u (fst x) -> tan_good F u (fst x1) -> tan_good F u (fst x2) -> joins_dec (un_decd u x) (un_decd u x1) (un_decd u x2).
Proof.
intros P P1 P2 C T T1 T2. destruct (cut_better x x1 x2 C) as [B1 B2].
refine (join_dec1 (un_decd u) (un_bare u) (un_dom u) (un_val u) x x1 x2 (un_strong F u (fun E => proj1 (T E))) P P1 P2 C (un_node u x P (fun E => proj2 (T E))) (un_node u x1 P1 (fun E => proj2 (T1 E))) (un_node u x2 P2 (fun E => proj2 (T2 E))) _ _ _).
- exact (un_cut u _ _ _ (proper_wf _ P) (proper_wf _ P1) (proper_wf _ P2) (proj1 C) T T1 T2).
- exact (worse _ _ (un_better u x1 x P1 P T B1)).
- exact (worse _ _ (un_better u x2 x P2 P T B2)).
Qed.
Lemma dun_cut_mixed T {F} u (x x1 x2 : ditv F) : comparable T F -> proper x -> proper x1 -> proper x2 -> cut_dec x x1 x2 ->
  tan_good (pmax T F) u (fst x) -> tan_good (pmax T F) u (fst x1) -> tan_good (pmax T F) u (fst x2) -> joins_dec (un_decd_mixed T u x) (un_decd_mixed T u x1) (un_decd_mixed T u x2).
Proof.
intros Q P P1 P2 C K K1 K2. destruct (cut_better x x1 x2 C) as [B1 B2].
refine (join_dec1 (un_decd_mixed T u) (un_bare_mixed T u) (un_dom u) (un_val u) x x1 x2 (un_strong_mixed T F u Q (fun E => proj1 (K E))) P P1 P2 C (un_node_mixed T u x Q P (fun E => proj2 (K E))) (un_node_mixed T u x1 Q P1 (fun E => proj2 (K1 E))) (un_node_mixed T u x2 Q P2 (fun E => proj2 (K2 E))) _ _ _).
- exact (un_cut_mixed T u _ _ _ Q (proper_wf _ P) (proper_wf _ P1) (proper_wf _ P2) (proj1 C) K K1 K2).
- exact (worse _ _ (un_better_mixed T u x1 x Q P1 P K B1)).
- exact (worse _ _ (un_better_mixed T u x2 x Q P2 P K B2)).
Qed.
Lemma dbin_cut1 {F} b (x x1 x2 y : ditv F) : proper x -> proper x1 -> proper x2 -> proper y -> cut_dec x x1 x2 -> joins_dec (bin_decd b x y) (bin_decd b x1 y) (bin_decd b x2 y).
Proof.
intros P P1 P2 Q C. destruct (cut_better x x1 x2 C) as [B1 B2].
refine (join_dec2a (bin_decd b) (bin_bare b) (bin_dom b) (bin_val b) x x1 x2 y (bin_strong F b) P P1 P2 Q C (bin_node b x y P Q) (bin_node b x1 y P1 Q) (bin_node b x2 y P2 Q) _ _ _).
- exact (bin_cut1 b _ _ _ _ (proper_wf _ P) (proper_wf _ P1) (proper_wf _ P2) (proper_wf _ Q) (proj1 C)).
- exact (worse _ _ (bin_better b x1 x y y P1 P B1 Q Q (better_refl y Q))).
- exact (worse _ _ (bin_better b x2 x y y P2 P B2 Q Q (better_refl y Q))).
Qed.
Lemma dbin_cut2 {F} b (x y y1 y2 : ditv F) : proper x -> proper y -> proper y1 -> proper y2 -> cut_dec y y1 y2 -> joins_dec (bin_decd b x y) (bin_decd b x y1) (bin_decd b x y2).
Proof.
intros Q P P1 P2 C. destruct (cut_better y y1 y2 C) as [B1 B2].
refine (join_dec2b (bin_decd b) (bin_bare b) (bin_dom b) (bin_val b) x y y1 y2 (bin_strong F b) Q P P1 P2 C (bin_node b x y Q P) (bin_node b x y1 Q P1) (bin_node b x y2 Q P2) _ _ _).
- exact (bin_cut2 b _ _ _ _ (proper_wf _ Q) (proper_wf _ P) (proper_wf _ P1) (proper_wf _ P2) (proj1 C)).
- exact (worse _ _ (bin_better b x x y1 y Q Q (better_refl x Q) P1 P B1)).
- exact (worse _ _ (bin_better b x x y2 y Q Q (better_refl x Q) P2 P B2)).
Qed.
Lemma dbin_cut1_mixed T {F G} b (x x1 x2 : ditv F) (y : ditv G) : comparable T F -> comparable T G -> comparable F G ->
  proper x -> proper x1 -> proper x2 -> proper y -> cut_dec x x1 x2 -> joins_dec (bin_decd_mixed T b x y) (bin_decd_mixed T b x1 y) (bin_decd_mixed T b x2 y).
Proof.
intros D1 D2 D3 P P1 P2 Q C. destruct (cut_better x x1 x2 C) as [B1 B2].
refine (join_dec2a (bin_decd_mixed T b) (bin_bare_mixed T b) (bin_dom b) (bin_val b) x x1 x2 y (bin_strong_mixed T F G b D1 D2 D3) P P1 P2 Q C (bin_node_mixed T b x y D1 D2 D3 P Q) (bin_node_mixed T b x1 y D1 D2 D3 P1 Q) (bin_node_mixed T b x2 y D1 D2 D3 P2 Q) _ _ _).
- exact (bin_cut1_mixed T b _ _ _ _ D1 D2 D3 (proper_wf _ P) (proper_wf _ P1) (proper_wf _ P2) (proper_wf _ Q) (proj1 C)).
- exact (worse _ _ (bin_better_mixed T b x1 x y y D1 D2 D3 P1 P B1 Q Q (better_refl y Q))).
- exact (worse _ _ (bin_better_mixed T b x2 x y y D1 D2 D3 P2 P B2 Q Q (better_refl y Q))).
Qed.
Lemma dbin_cut2_mixed T {F G} b (x : ditv F) (y y1 y2 : ditv G) : comparable T F -> comparable T G -> comparable F G ->
  proper x -> proper y -> proper y1 -> proper y2 -> cut_dec y y1 y2 -> joins_dec (bin_decd_mixed T b x y) (bin_decd_mixed T b x y1) (bin_decd_mixed T b x y2).
Proof.
intros D1 D2 D3 Q P P1 P2 C. destruct (cut_better y y1 y2 C) as [B1 B2].
refine (join_dec2b (bin_decd_mixed T b) (bin_bare_mixed T b) (bin_dom b) (bin_val b) x y y1 y2 (bin_strong_mixed T F G b D1 D2 D3) Q P P1 P2 C (bin_node_mixed T b x y D1 D2 D3 Q P) (bin_node_mixed T b x y1 D1 D2 D3 Q P1) (bin_node_mixed T b x y2 D1 D2 D3 Q P2) _ _ _).
- exact (bin_cut2_mixed T b _ _ _ _ D1 D2 D3 (proper_wf _ Q) (proper_wf _ P) (proper_wf _ P1) (proper_wf _ P2) (proj1 C)).
- exact (worse _ _ (bin_better_mixed T b x x y1 y D1 D2 D3 Q Q (better_refl x Q) P1 P B1)).
- exact (worse _ _ (bin_better_mixed T b x x y2 y D1 D2 D3 Q Q (better_refl x Q) P2 P B2)).
Qed.

(** ** Expressions over a box that is covered by boxes *)
Lemma expr_cover vf (X : ienv vf) l F (e : expr vf F) : covered e X l -> (forall i, occurs i e = true -> wf (X i)) ->
  (forall Y, In Y l -> forall i, occurs i e = true -> wf (Y i)) -> typed e ->
  tan_fine (fun F a z => returns (beval X a) z) e -> (forall Y, In Y l -> tan_fine (fun F a z => returns (beval Y a) z) e) ->
  exists z, returns (beval X e) z /\ (forall Y, In Y l -> exists y, returns (beval Y e) y /\ included y z) /\
  forall p, in_box e X p -> dom p e -> exists Y y, In Y l /\ returns (beval Y e) y /\ mem (val p e) y /\ included y z.
Proof.
intros [I C] W V T Q QY. destruct (C47.C47_bare_partial vf X F e W T Q) as (z & Z & _).
assert (K : forall Y, In Y l -> exists y, returns (beval Y e) y /\ included y z).
{ intros Y HY. destruct (C47.C47_bare_isotonic_partial vf Y X F e) as (y & z' & H1 & H2 & H3); auto.
  exists y. split; [exact H1|]. now rewrite (returns_one _ _ _ Z H2). }
exists z. split; [exact Z|]. split; [exact K|]. intros p Hp D. destruct (C p Hp) as (Y & HY & Bp).
destruct (C47.C47_bare_partial vf Y F e (V Y HY) T (QY Y HY)) as (y & Ey & _ & M). exists Y, y. split; [exact HY|]. split; [exact Ey|].
split; [now apply M|]. destruct (K Y HY) as (y' & Ey' & J). now rewrite (returns_one _ _ _ Ey Ey').
Qed.
