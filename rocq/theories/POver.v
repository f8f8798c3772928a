(** * Proofs: results depend on the sets, not on the overload *)
From Coq Require Import ZArith NArith Reals Bool Lra Lia List.
From Flocq Require Import Core.Core IEEE754.BinarySingleNaN.
From Verif Require Import Fmt Spec FloatFacts Exc Deco SpecApi SpecDeco SpecIso SpecTan2 SpecMixed SpecExpr SpecAlg SpecStrong SpecPoint SpecOver.
From Verif Require Import MBase PBase PConv MArith PArith MDec MMixed MExpr PDec PIso  PIso  PExpr PPoint PTanW PStrong PStrong4.
From Verif Require C16 C28 C06.
Local Open Scope R_scope.
Local Open Scope m_scope.

Lemma same_sym {F G} (x : itv F) (y : itv G) : same_numbers x y -> same_numbers y x.
Proof. intros H r. symmetry. apply H. Qed.
Lemma tight_same {F} S S' (z w : itv F) : tightest S z -> tightest S' w -> (forall r, S r <-> S' r) -> same_numbers z w.
Proof.
intros (Z1 & Z2 & Z3) (W1 & W2 & W3) E r. split; intros Hr.
- apply (Z3 w); try easy. intros t Ht. apply W2. now apply E.
- apply (W3 z); try easy. intros t Ht. apply Z2. now apply E.
Qed.
Lemma agree_tight {F} (m n : M (itv F)) S S' : computes_tightest m S -> computes_tightest n S' -> (forall r, S r <-> S' r) -> agree m n.
Proof. intros (z & Z1 & Z2) (w & W1 & W2) E. exists z, w. split; [easy|]. split; [easy|]. exact (tight_same _ _ _ _ Z2 W2 E). Qed.

Lemma img1 {F G} dm f (x : itv F) (y : itv G) : same_numbers x y -> forall r, image1 dm f x r <-> image1 dm f y r.
Proof. intros E r. split; intros (t & Ht & D & ->); exists t; split; try easy; now apply E. Qed.
Lemma img2 {F G F' G'} dm f (x : itv F) (y : itv G) (x' : itv F') (y' : itv G') : same_numbers x x' -> same_numbers y y' ->
  forall r, image2 dm f x y r <-> image2 dm f x' y' r.
Proof. intros E E' r. split; intros (t & s & Ht & Hs & D & ->); exists t, s; (split; [now apply E|]); (split; [now apply E'|easy]). Qed.
Lemma img3 {F G H F' G' H'} f (x : itv F) (y : itv G) (w : itv H) (x' : itv F') (y' : itv G') (w' : itv H') :
  same_numbers x x' -> same_numbers y y' -> same_numbers w w' -> forall r, image3 f x y w r <-> image3 f x' y' w' r.
Proof.
intros E E' E'' r. split; intros (t & s & q & Ht & Hs & Hq & ->); exists t, s, q;
  (split; [now apply E|]); (split; [now apply E'|]); (split; [now apply E''|easy]).
Qed.

Lemma agree_sym {F} (m n : M (itv F)) : agree m n -> agree n m.
Proof. intros (z & w & Z & W & S). exists w, z. split; [easy|]. split; [easy|]. intros r. symmetry. apply S. Qed.

(** ** Bare *)
Lemma un_tight1 {F} u (x : itv F) : wf x -> tan_good F u x -> computes_tightest (un_bare u x) (image1 (un_dom u) (un_val u) x).
Proof.
intros W T. assert (D : u = u_tan \/ u <> u_tan) by (destruct u; first [now left|now right]).
destruct D as [->|N]; [|now apply un_tight0]. destruct (T eq_refl) as [T1 T2].
exact (proj2 (tan_tight_iff F x T1 W) T2).
Qed.
Lemma un_tight1_mixed T {F} u (x : itv F) : comparable T F -> wf x -> tan_good (pmax T F) u x ->
  computes_tightest (un_bare_mixed T u x) (image1 (un_dom u) (un_val u) x).
Proof.
intros C W K. assert (D : u = u_tan \/ u <> u_tan) by (destruct u; first [now left|now right]).
destruct D as [->|N]; [|now apply un_tight0_mixed]. destruct (K eq_refl) as [T1 T2].
exact (proj2 (tan_mixed_tight_iff T F x C T1 W) T2).
Qed.

Lemma un_same {F} u (x y : itv F) : wf x -> wf y -> same_numbers x y -> tan_good F u x -> tan_good F u y -> agree (un_bare u x) (un_bare u y).
Proof. intros W V E T T'. exact (agree_tight _ _ _ _ (un_tight1 u x W T) (un_tight1 u y V T') (img1 _ _ x y E)). Qed.
Lemma un_same_mixed {F G} u (x : itv F) (y : itv G) : comparable F G -> wf x -> wf y -> same_numbers x y -> tan_good F u x -> tan_good (pmax F G) u y ->
  agree (un_bare u x) (un_bare_mixed F u y).
Proof. intros C W V E T T'. exact (agree_tight _ _ _ _ (un_tight1 u x W T) (un_tight1_mixed F u y C V T') (img1 _ _ x y E)). Qed.
Lemma un_mixed_same T {F G} u (x : itv F) (y : itv G) : comparable T F -> comparable T G -> wf x -> wf y -> same_numbers x y ->
  tan_good (pmax T F) u x -> tan_good (pmax T G) u y -> agree (un_bare_mixed T u x) (un_bare_mixed T u y).
Proof. intros C D W V E K K'. exact (agree_tight _ _ _ _ (un_tight1_mixed T u x C W K) (un_tight1_mixed T u y D V K') (img1 _ _ x y E)). Qed.

Lemma bin_same {F} b (x y x' y' : itv F) : wf x -> wf y -> wf x' -> wf y' -> same_numbers x x' -> same_numbers y y' -> agree (bin_bare b x y) (bin_bare b x' y').
Proof. intros W V W' V' E E'. exact (agree_tight _ _ _ _ (bin_tight b x y W V) (bin_tight b x' y' W' V') (img2 _ _ x y x' y' E E')). Qed.
Lemma bin_same_mixed {F G K} b (x y : itv F) (x' : itv G) (y' : itv K) : comparable F G -> comparable F K -> comparable G K ->
  wf x -> wf y -> wf x' -> wf y' -> same_numbers x x' -> same_numbers y y' -> agree (bin_bare b x y) (bin_bare_mixed F b x' y').
Proof. intros C D I W V W' V' E E'. exact (agree_tight _ _ _ _ (bin_tight b x y W V) (bin_tight_mixed F b x' y' C D I W' V') (img2 _ _ x y x' y' E E')). Qed.
Lemma bin_mixed_same T {F G F' G'} b (x : itv F) (y : itv G) (x' : itv F') (y' : itv G') :
  comparable T F -> comparable T G -> comparable F G -> comparable T F' -> comparable T G' -> comparable F' G' ->
  wf x -> wf y -> wf x' -> wf y' -> same_numbers x x' -> same_numbers y y' -> agree (bin_bare_mixed T b x y) (bin_bare_mixed T b x' y').
Proof.
intros C D I C' D' I' W V W' V' E E'.
exact (agree_tight _ _ _ _ (bin_tight_mixed T b x y C D I W V) (bin_tight_mixed T b x' y' C' D' I' W' V') (img2 _ _ x y x' y' E E')).
Qed.
Definition comp3 (T F G H : fmt) : Prop :=
  comparable T F /\ comparable T G /\ comparable F G /\ comparable T H /\ comparable F H /\ comparable G H.
Lemma fma_m T {F G H} (x : itv F) (y : itv G) (w : itv H) : comp3 T F G H -> wf x -> wf y -> wf w ->
  computes_tightest (fma_mixed T x y w) (image3 (fun r s t => r * s + t) x y w).
Proof. intros (A & B & C & D & E & I) W V U. now apply C28.C28_fma. Qed.
Lemma fma_same {F} (x y w x' y' w' : itv F) : wf x -> wf y -> wf w -> wf x' -> wf y' -> wf w' ->
  same_numbers x x' -> same_numbers y y' -> same_numbers w w' -> agree (fma x y w) (fma x' y' w').
Proof.
intros W V U W' V' U' E E' E''.
exact (agree_tight _ _ _ _ (C06.C06_fma_tightest F x y w W V U) (C06.C06_fma_tightest F x' y' w' W' V' U') (img3 _ x y w x' y' w' E E' E'')).
Qed.
Lemma fma_same_mixed {F G H K} (x y w : itv F) (x' : itv G) (y' : itv H) (w' : itv K) : comp3 F G H K ->
  wf x -> wf y -> wf w -> wf x' -> wf y' -> wf w' ->
  same_numbers x x' -> same_numbers y y' -> same_numbers w w' -> agree (fma x y w) (fma_mixed F x' y' w').
Proof.
intros C W V U W' V' U' E E' E''.
exact (agree_tight _ _ _ _ (C06.C06_fma_tightest F x y w W V U) (fma_m F x' y' w' C W' V' U') (img3 _ x y w x' y' w' E E' E'')).
Qed.
Lemma fma_mixed_same T {F G H F' G' H'} (x : itv F) (y : itv G) (w : itv H) (x' : itv F') (y' : itv G') (w' : itv H') :
  comp3 T F G H -> comp3 T F' G' H' -> wf x -> wf y -> wf w -> wf x' -> wf y' -> wf w' ->
  same_numbers x x' -> same_numbers y y' -> same_numbers w w' -> agree (fma_mixed T x y w) (fma_mixed T x' y' w').
Proof.
intros C C' W V U W' V' U' E E' E''.
exact (agree_tight _ _ _ _ (fma_m T x y w C W V U) (fma_m T x' y' w' C' W' V' U') (img3 _ x y w x' y' w' E E' E'')).
Qed.

(** ** Decorated *)
Lemma bounded_same {F G} (x : itv F) (y : itv G) : wf x -> wf y -> same_numbers x y -> bounded_rep x -> bounded_rep y.
Proof.
intros W V E [B1 B2]. destruct V as [->|[r Hr]].
- exfalso. destruct W as [->|[r Hr]]; [discriminate B1|]. apply E in Hr. now destruct Hr.
- destruct x as [a b], y as [l u]. cbn in *. split; cbn.
  + destruct l as [s|s| |s m e p]; try easy; destruct Hr as [H1 H2]; cbn in H1; [|easy]. subst s.
    assert (Q : mem (Rmin r (B2R a - 1)) (@pair (float G) (float G) (B754_infinity true) u)).
    { split; [easy|]. cbn in *. destruct u as [s|s| |s m e p]; cbn in *; try easy; pose proof (Rmin_l r (B2R a - 1)); lra. }
    apply E in Q. destruct Q as [Q _]. cbn in Q. pose proof (Rmin_r r (B2R a - 1)).
    destruct a; try discriminate B1; unfold lb in Q; lra.
  + destruct u as [s|s| |s m e p]; try easy; destruct Hr as [H1 H2]; cbn in H2; [|easy]. subst s.
    assert (Q : mem (Rmax r (B2R b + 1)) (@pair (float G) (float G) l (B754_infinity false))).
    { split; [|easy]. cbn in *. destruct l as [s|s| |s m e p]; cbn in *; try easy; pose proof (Rmax_l r (B2R b + 1)); lra. }
    apply E in Q. destruct Q as [_ Q]. cbn in Q. pose proof (Rmax_r r (B2R b + 1)).
    destruct b; try discriminate B2; unfold ub in Q; lra.
Qed.
Lemma cont_same {P} near (D D' : P -> Prop) f p : (forall p, D p <-> D' p) -> cont_at near D f p -> cont_at near D' f p.
Proof. intros E C e He. destruct (C e He) as (d & Hd & K). exists d. split; [easy|]. intros q Hq. apply K. now apply E. Qed.
Lemma honest_same {F G P} near (box box' dom : P -> Prop) (bb bb' : Prop) f (z : itv F) (w : itv G) d :
  (forall p, box p <-> box' p) -> (bb -> bb') -> (bounded_rep z -> bounded_rep w) ->
  honest near box dom bb f z d -> honest near box' dom bb' f w d.
Proof.
intros E B Z (H1 & H2 & H3). split; [|split].
- intros L. destruct (H1 L) as [(p & Hp) A]. split; [exists p; now apply E|]. intros q Hq. apply A. now apply E.
- intros L p Hp. apply (cont_same _ box); [easy|]. apply (H2 L). now apply E.
- intros L. destruct (H3 L) as (A1 & A2 & A3). split; [auto|]. split; [auto|]. intros p Hp. apply A3. now apply E.
Qed.

Lemma dec1 {F G T} (opd : ditv F -> M (ditv T)) op (opd' : ditv G -> M (ditv T)) op' dm f (x : ditv F) (y : ditv G) :
  proper x -> proper y -> same_dec x y -> agree (op (fst x)) (op' (fst y)) ->
  node1 opd op dm f x -> node1 opd' op' dm f y -> strongest1 opd dm f -> strongest1 opd' dm f -> agree_dec (opd x) (opd' y).
Proof.
intros P Q [E D] (a & b & A & B & S) (z & Z1 & Z2 & Z3 & Z4 & _ & Z5) (w & W1 & W2 & W3 & W4 & _ & W5) K K'.
exists z, w. split; [easy|]. split; [easy|].
assert (S' : same_numbers (fst z) (fst w)) by (rewrite (returns_same _ _ _ Z3 A), (returns_same _ _ _ W3 B); exact S).
split; [easy|]. pose proof (proper_wf _ P) as Px. pose proof (proper_wf _ Q) as Py. pose proof (proper_wf _ Z2) as Pz. pose proof (proper_wf _ W2) as Pw.
apply N.le_antisymm.
- destruct Z2 as (_ & Dz & _). destruct Q as (Q1 & Q2 & Q3). apply (K' y Q1 Q2 Q3 w W1); [easy|lia|].
  refine (honest_same _ _ _ _ _ _ _ _ _ _ _ _ _ Z5); [exact E|now apply bounded_same|now apply bounded_same].
- destruct W2 as (_ & Dw & _). destruct P as (P1 & P2 & P3). apply (K x P1 P2 P3 z Z1); [easy|lia|].
  refine (honest_same _ _ _ _ _ _ _ _ _ _ _ _ _ W5); [exact (same_sym _ _ E)|now apply bounded_same; [..|apply same_sym]|now apply bounded_same; [..|apply same_sym]].
Qed.
Lemma dec2 {F G F' G' T} (opd : ditv F -> ditv G -> M (ditv T)) op (opd' : ditv F' -> ditv G' -> M (ditv T)) op' dm f
    (x : ditv F) (y : ditv G) (x' : ditv F') (y' : ditv G') :
  proper x -> proper y -> proper x' -> proper y' -> same_dec x x' -> same_dec y y' -> agree (op (fst x) (fst y)) (op' (fst x') (fst y')) ->
  node2 opd op dm f x y -> node2 opd' op' dm f x' y' -> strongest2 opd dm f -> strongest2 opd' dm f -> agree_dec (opd x y) (opd' x' y').
Proof.
intros P Q P' Q' [E D] [E' D'] (a & b & A & B & S) (z & Z1 & Z2 & Z3 & Z4 & Z4' & _ & Z5) (w & W1 & W2 & W3 & W4 & W4' & _ & W5) K K'.
exists z, w. split; [easy|]. split; [easy|].
assert (S' : same_numbers (fst z) (fst w)) by (rewrite (returns_same _ _ _ Z3 A), (returns_same _ _ _ W3 B); exact S).
split; [easy|]. pose proof (proper_wf _ P) as Px. pose proof (proper_wf _ Q) as Py. pose proof (proper_wf _ Z2) as Pz. pose proof (proper_wf _ W2) as Pw.
pose proof (proper_wf _ P') as Px'. pose proof (proper_wf _ Q') as Py'.
assert (BX : forall p, box2 (fst x) (fst y) p <-> box2 (fst x') (fst y') p) by (intros p; unfold box2; now rewrite (E (fst p)), (E' (snd p))).
apply N.le_antisymm.
- destruct Z2 as (_ & Dz & _). destruct P' as (P1 & P2 & P3), Q' as (Q1 & Q2 & Q3). apply (K' x' y' P1 P2 P3 Q1 Q2 Q3 w W1); [easy|lia|lia|].
  refine (honest_same _ _ _ _ _ _ _ _ _ _ BX _ _ Z5); [|now apply bounded_same].
  intros [B1 B2]. split; [exact (bounded_same _ _ Px Px' E B1)|exact (bounded_same _ _ Py Py' E' B2)].
- destruct W2 as (_ & Dw & _). destruct P as (P1 & P2 & P3), Q as (Q1 & Q2 & Q3). apply (K x y P1 P2 P3 Q1 Q2 Q3 z Z1); [easy|lia|lia|].
  refine (honest_same _ _ _ _ _ _ _ _ _ _ (fun p => iff_sym (BX p)) _ _ W5).
  + intros [B1 B2]. split; [exact (bounded_same _ _ Px' Px (same_sym _ _ E) B1)|exact (bounded_same _ _ Py' Py (same_sym _ _ E') B2)].
  + exact (bounded_same _ _ Pw Pz (same_sym _ _ S')).
Qed.
Lemma dec3 {F G H F' G' H' T} (opd : ditv F -> ditv G -> ditv H -> M (ditv T)) op (opd' : ditv F' -> ditv G' -> ditv H' -> M (ditv T)) op' f
    (x : ditv F) (y : ditv G) (t : ditv H) (x' : ditv F') (y' : ditv G') (t' : ditv H') :
  proper x -> proper y -> proper t -> proper x' -> proper y' -> proper t' -> same_dec x x' -> same_dec y y' -> same_dec t t' ->
  agree (op (fst x) (fst y) (fst t)) (op' (fst x') (fst y') (fst t')) ->
  node3 opd op f x y t -> node3 opd' op' f x' y' t' -> strongest3 opd f -> strongest3 opd' f -> agree_dec (opd x y t) (opd' x' y' t').
Proof.
intros P Q R P' Q' R' [E D] [E' D'] [E'' D''] (a & b & A & B & S) (z & Z1 & Z2 & Z3 & Z4 & Z4' & Z4'' & _ & Z5) (w & W1 & W2 & W3 & W4 & W4' & W4'' & _ & W5) K K'.
exists z, w. split; [easy|]. split; [easy|].
assert (S' : same_numbers (fst z) (fst w)) by (rewrite (returns_same _ _ _ Z3 A), (returns_same _ _ _ W3 B); exact S).
split; [easy|]. pose proof (proper_wf _ P) as Px. pose proof (proper_wf _ Q) as Py. pose proof (proper_wf _ R) as Pt. pose proof (proper_wf _ Z2) as Pz. pose proof (proper_wf _ W2) as Pw.
pose proof (proper_wf _ P') as Px'. pose proof (proper_wf _ Q') as Py'. pose proof (proper_wf _ R') as Pt'.
assert (BX : forall p, box3 (fst x) (fst y) (fst t) p <-> box3 (fst x') (fst y') (fst t') p) by
  (intros p; unfold box3, box2; now rewrite (E (fst (fst p))), (E' (snd (fst p))), (E'' (snd p))).
apply N.le_antisymm.
- destruct Z2 as (_ & Dz & _). destruct P' as (P1 & P2 & P3), Q' as (Q1 & Q2 & Q3), R' as (R1 & R2 & R3). apply (K' x' y' t' P1 P2 P3 Q1 Q2 Q3 R1 R2 R3 w W1); [easy|lia|lia|lia|].
  refine (honest_same _ _ _ _ _ _ _ _ _ _ BX _ _ Z5); [|now apply bounded_same].
  intros (B1 & B2 & B3). split; [exact (bounded_same _ _ Px Px' E B1)|]. split; [exact (bounded_same _ _ Py Py' E' B2)|exact (bounded_same _ _ Pt Pt' E'' B3)].
- destruct W2 as (_ & Dw & _). destruct P as (P1 & P2 & P3), Q as (Q1 & Q2 & Q3), R as (R1 & R2 & R3). apply (K x y t P1 P2 P3 Q1 Q2 Q3 R1 R2 R3 z Z1); [easy|lia|lia|lia|].
  refine (honest_same _ _ _ _ _ _ _ _ _ _ (fun p => iff_sym (BX p)) _ _ W5).
  + intros (B1 & B2 & B3). split; [exact (bounded_same _ _ Px' Px (same_sym _ _ E) B1)|]. split; [exact (bounded_same _ _ Py' Py (same_sym _ _ E') B2)|exact (bounded_same _ _ Pt' Pt (same_sym _ _ E'') B3)].
  + exact (bounded_same _ _ Pw Pz (same_sym _ _ S')).
Qed.

Lemma std3_of W : three W -> std3 W. Proof. easy. Qed.
Lemma dun_same {F} u (x y : ditv F) : proper x -> proper y -> same_dec x y -> tan_good F u (fst x) -> tan_good F u (fst y) ->
  agree_dec (un_decd u x) (un_decd u y).
Proof.
intros P Q S T T'. apply (dec1 _ (un_bare u) _ (un_bare u) (un_dom u) (un_val u)); try easy.
- apply un_same; try easy; [now apply proper_wf|now apply proper_wf|apply S].
- apply un_node; [easy|]. intros E. apply (T E).
- apply un_node; [easy|]. intros E. apply (T' E).
- apply un_strong. intros E. apply (T E).
- apply un_strong. intros E. apply (T E).
Qed.
Lemma dun_same_mixed {F G} u (x : ditv F) (y : ditv G) : comparable F G -> proper x -> proper y -> same_dec x y ->
  tan_good F u (fst x) -> tan_good (pmax F G) u (fst y) -> agree_dec (un_decd u x) (un_decd_mixed F u y).
Proof.
intros C P Q S T T'. apply (dec1 _ (un_bare u) _ (un_bare_mixed F u) (un_dom u) (un_val u)); try easy.
- apply un_same_mixed; try easy; [now apply proper_wf|now apply proper_wf|apply S].
- apply un_node; [easy|]. intros E. apply (T E).
- apply un_node_mixed; [easy|easy|]. intros E. apply (T' E).
- apply un_strong. intros E. apply (T E).
- apply un_strong_mixed; [easy|]. intros E. apply (T' E).
Qed.
Lemma dun_mixed_same T {F G} u (x : ditv F) (y : ditv G) : comparable T F -> comparable T G -> proper x -> proper y -> same_dec x y ->
  tan_good (pmax T F) u (fst x) -> tan_good (pmax T G) u (fst y) -> agree_dec (un_decd_mixed T u x) (un_decd_mixed T u y).
Proof.
intros C D P Q S K K'. apply (dec1 _ (un_bare_mixed T u) _ (un_bare_mixed T u) (un_dom u) (un_val u)); try easy.
- apply un_mixed_same; try easy; [now apply proper_wf|now apply proper_wf|apply S].
- apply un_node_mixed; [easy|easy|]. intros E. apply (K E).
- apply un_node_mixed; [easy|easy|]. intros E. apply (K' E).
- apply un_strong_mixed; [easy|]. intros E. apply (K E).
- apply un_strong_mixed; [easy|]. intros E. apply (K' E).
Qed.
Lemma dbin_same {F} b (x y x' y' : ditv F) : proper x -> proper y -> proper x' -> proper y' -> same_dec x x' -> same_dec y y' ->
  agree_dec (bin_decd b x y) (bin_decd b x' y').
Proof.
intros P Q P' Q' S S'. apply (dec2 _ (bin_bare b) _ (bin_bare b) (bin_dom b) (bin_val b)); try easy.
- apply bin_same; try (now apply proper_wf); [apply S|apply S'].
- now apply bin_node.
- now apply bin_node.
- apply bin_strong.
- apply bin_strong.
Qed.
Lemma dbin_same_mixed {F G K} b (x y : ditv F) (x' : ditv G) (y' : ditv K) : comparable F G -> comparable F K -> comparable G K ->
  proper x -> proper y -> proper x' -> proper y' -> same_dec x x' -> same_dec y y' -> agree_dec (bin_decd b x y) (bin_decd_mixed F b x' y').
Proof.
intros C D I P Q P' Q' S S'. apply (dec2 _ (bin_bare b) _ (bin_bare_mixed F b) (bin_dom b) (bin_val b)); try easy.
- apply bin_same_mixed; try (now apply proper_wf); try easy; [apply S|apply S'].
- now apply bin_node.
- now apply bin_node_mixed.
- apply bin_strong.
- now apply bin_strong_mixed.
Qed.
Lemma dbin_mixed_same T {F G F' G'} b (x : ditv F) (y : ditv G) (x' : ditv F') (y' : ditv G') :
  comparable T F -> comparable T G -> comparable F G -> comparable T F' -> comparable T G' -> comparable F' G' ->
  proper x -> proper y -> proper x' -> proper y' -> same_dec x x' -> same_dec y y' -> agree_dec (bin_decd_mixed T b x y) (bin_decd_mixed T b x' y').
Proof.
intros C D I C' D' I' P Q P' Q' S S'. apply (dec2 _ (bin_bare_mixed T b) _ (bin_bare_mixed T b) (bin_dom b) (bin_val b)); try easy.
- apply bin_mixed_same; try (now apply proper_wf); try easy; [apply S|apply S'].
- now apply bin_node_mixed.
- now apply bin_node_mixed.
- now apply bin_strong_mixed.
- now apply bin_strong_mixed.
Qed.
Notation fmaR := (fun r s t : R => r * s + t).
Lemma fma_node {F} (x y w : ditv F) : proper x -> proper y -> proper w -> node3 fma_dec fma fmaR x y w.
Proof. intros P Q K. exact (mk3 _ _ _ x y w (C16.C16_fma F) (fun u v t U V T => C06.C06_fma_tightest F u v t U V T) P Q K). Qed.
Lemma fma_node_mixed T {F G H} (x : ditv F) (y : ditv G) (w : ditv H) : comp3 T F G H -> proper x -> proper y -> proper w ->
  node3 (fma_dec_mixed T) (fma_mixed T) fmaR x y w.
Proof.
intros C P Q K. pose proof C as (A & B & D & E & I & J).
exact (mk3 _ _ _ x y w (C28.C28_fma_dec T F G H A B D E I J) (fun u v t U V W => fma_m T u v t C U V W) P Q K).
Qed.
Lemma fma_strong_m T F G H : comp3 T F G H -> strongest3 (@fma_dec_mixed T F G H) fmaR.
Proof. intros (A & B & D & E & I & J). now apply fma_strong_mixed. Qed.
Lemma dfma_same {F} (x y w x' y' w' : ditv F) : proper x -> proper y -> proper w -> proper x' -> proper y' -> proper w' ->
  same_dec x x' -> same_dec y y' -> same_dec w w' -> agree_dec (fma_dec x y w) (fma_dec x' y' w').
Proof.
intros P Q K P' Q' K' S S' S''. apply (dec3 _ fma _ fma fmaR); try easy.
- apply fma_same; try (now apply proper_wf); [apply S|apply S'|apply S''].
- now apply fma_node.
- now apply fma_node.
- apply fma_strong.
- apply fma_strong.
Qed.
Lemma dfma_same_mixed {F G H L} (x y w : ditv F) (x' : ditv G) (y' : ditv H) (w' : ditv L) : comp3 F G H L ->
  proper x -> proper y -> proper w -> proper x' -> proper y' -> proper w' ->
  same_dec x x' -> same_dec y y' -> same_dec w w' -> agree_dec (fma_dec x y w) (fma_dec_mixed F x' y' w').
Proof.
intros C P Q K P' Q' K' S S' S''. apply (dec3 _ fma _ (fma_mixed F) fmaR); try easy.
- apply fma_same_mixed; try (now apply proper_wf); try easy; [apply S|apply S'|apply S''].
- now apply fma_node.
- now apply fma_node_mixed.
- apply fma_strong.
- now apply fma_strong_m.
Qed.
Lemma dfma_mixed_same T {F G H F' G' H'} (x : ditv F) (y : ditv G) (w : ditv H) (x' : ditv F') (y' : ditv G') (w' : ditv H') :
  comp3 T F G H -> comp3 T F' G' H' -> proper x -> proper y -> proper w -> proper x' -> proper y' -> proper w' ->
  same_dec x x' -> same_dec y y' -> same_dec w w' -> agree_dec (fma_dec_mixed T x y w) (fma_dec_mixed T x' y' w').
Proof.
intros C C' P Q K P' Q' K' S S' S''. apply (dec3 _ (fma_mixed T) _ (fma_mixed T) fmaR); try easy.
- apply fma_mixed_same; try (now apply proper_wf); try easy; [apply S|apply S'|apply S''].
- now apply fma_node_mixed.
- now apply fma_node_mixed.
- now apply fma_strong_m.
- now apply fma_strong_m.
Qed.

(** ** Expressions *)
Section Expr.
Context {vf vf' : nat -> fmt}.
Lemma recast_occurs i {F G} (e : expr vf F) (e' : expr vf' G) : recast e e' -> occurs i e = occurs i e'.
Proof. intros R. induction R; cbn [occurs]; congruence. Qed.

Section Bare.
Context (X : ienv vf) (X' : ienv vf').
Definition bev {v} (Y : ienv v) := fun F (e : expr v F) z => returns (beval Y e) z.
Definition fine_b {v} (Y : ienv v) {F} (e : expr v F) : Prop :=
  (forall i, occurs i e = true -> wf (Y i)) /\ typed e /\ tan_types three e /\ tan_fine (bev Y) e.
Lemma fine_b_wf {v} (Y : ienv v) {F} (e : expr v F) z : fine_b Y e -> returns (beval Y e) z -> wf z.
Proof. intros (A & B & _) R. destruct (btotal Y e A B) as (w & W & V). now rewrite (returns_same _ _ _ R W). Qed.
Lemma fine_b_un {v} (Y : ienv v) {F} u (a : expr v F) : fine_b Y (Un u a) -> fine_b Y a /\ forall z, returns (beval Y a) z -> wf z /\ tan_good F u z.
Proof.
intros (A & B & [C C'] & [D D']). assert (O : fine_b Y a) by now repeat split. split; [easy|]. intros z R. split; [now apply (fine_b_wf Y a)|].
intros E. split; [now apply C'|now apply D'].
Qed.
Lemma fine_b_mun {v} (Y : ienv v) T {F} u (a : expr v F) : fine_b Y (MUn T u a) ->
  fine_b Y a /\ comparable T F /\ forall z, returns (beval Y a) z -> wf z /\ tan_good (pmax T F) u z.
Proof.
intros (A & [B B'] & [C C'] & [D D']). assert (O : fine_b Y a) by now repeat split. split; [easy|]. split; [easy|]. intros z R. split; [now apply (fine_b_wf Y a)|].
intros E. split; [now apply C'|now apply D'].
Qed.
Lemma fine_b_bin {v} (Y : ienv v) {F} b (a c : expr v F) : fine_b Y (Bin b a c) -> fine_b Y a /\ fine_b Y c.
Proof.
intros (A & [B B'] & [C C'] & [D D']). split; (split; [|easy]); intros i Hi; apply A; cbn [occurs]; rewrite Hi; [easy|apply orb_true_r].
Qed.
Lemma fine_b_mbin {v} (Y : ienv v) T {F G} b (a : expr v F) (c : expr v G) : fine_b Y (MBin T b a c) ->
  fine_b Y a /\ fine_b Y c /\ comparable T F /\ comparable T G /\ comparable F G.
Proof.
intros (A & (B & B' & B'') & [C C'] & [D D']). split; [|split; [|easy]]; (split; [|easy]); intros i Hi; apply A; cbn [occurs]; rewrite Hi; [easy|apply orb_true_r].
Qed.
Lemma fine_b_fma {v} (Y : ienv v) {F} (a c d : expr v F) : fine_b Y (Fma a c d) -> fine_b Y a /\ fine_b Y c /\ fine_b Y d.
Proof.
intros (A & (B & B' & B'') & (C & C' & C'') & (D & D' & D'')).
split; [|split]; (split; [|easy]); intros i Hi; apply A; cbn [occurs]; rewrite Hi; [easy|now rewrite orb_true_r|apply orb_true_r].
Qed.
Lemma fine_b_mfma {v} (Y : ienv v) T {F G H} (a : expr v F) (c : expr v G) (d : expr v H) : fine_b Y (MFma T a c d) ->
  fine_b Y a /\ fine_b Y c /\ fine_b Y d /\ comp3 T F G H.
Proof.
intros (A & (B & B' & B'' & K) & (C & C' & C'') & (D & D' & D'')).
split; [|split; [|split; [|exact K]]]; (split; [|easy]); intros i Hi; apply A; cbn [occurs]; rewrite Hi; [easy|now rewrite orb_true_r|apply orb_true_r].
Qed.
Definition sb {F G} (m : M (itv F)) (n : M (itv G)) : Prop := exists z w, returns m z /\ returns n w /\ same_numbers z w.
Lemma sb1 {F G T} (m : M (itv F)) (n : M (itv G)) (f : itv F -> M (itv T)) (g : itv G -> M (itv T)) :
  sb m n -> (forall z w, returns m z -> returns n w -> same_numbers z w -> agree (f z) (g w)) -> sb (x <- m; f x) (x <- n; g x).
Proof.
intros (z & w & Z & W & S) H. destruct (H z w Z W S) as (p & q & P & Q & R). exists p, q.
split; [now apply (ret_bind _ _ z)|]. split; [now apply (ret_bind _ _ w)|easy].
Qed.
Lemma sb2 {F G F' G' T} (m : M (itv F)) (n : M (itv G)) (m' : M (itv F')) (n' : M (itv G')) (f : itv F -> itv G -> M (itv T)) (g : itv F' -> itv G' -> M (itv T)) :
  sb m m' -> sb n n' -> (forall x y x' y', returns m x -> returns n y -> returns m' x' -> returns n' y' -> same_numbers x x' -> same_numbers y y' -> agree (f x y) (g x' y')) ->
  sb (x <- m; y <- n; f x y) (x <- m'; y <- n'; g x y).
Proof.
intros (z & w & Z & W & S) (z' & w' & Z' & W' & S') H. destruct (H z z' w w' Z Z' W W' S S') as (p & q & P & Q & R). exists p, q.
split; [apply (ret_bind _ _ z); [easy|]; now apply (ret_bind _ _ z')|]. split; [apply (ret_bind _ _ w); [easy|]; now apply (ret_bind _ _ w')|easy].
Qed.
Lemma sb3 {F G H F' G' H' T} (m : M (itv F)) (n : M (itv G)) (k : M (itv H)) (m' : M (itv F')) (n' : M (itv G')) (k' : M (itv H'))
    (f : itv F -> itv G -> itv H -> M (itv T)) (g : itv F' -> itv G' -> itv H' -> M (itv T)) :
  sb m m' -> sb n n' -> sb k k' -> (forall x y t x' y' t', returns m x -> returns n y -> returns k t -> returns m' x' -> returns n' y' -> returns k' t' ->
    same_numbers x x' -> same_numbers y y' -> same_numbers t t' -> agree (f x y t) (g x' y' t')) ->
  sb (x <- m; y <- n; t <- k; f x y t) (x <- m'; y <- n'; t <- k'; g x y t).
Proof.
intros (z & w & Z & W & S) (z' & w' & Z' & W' & S') (z2 & w2 & Z2 & W2 & S2) K. destruct (K z z' z2 w w' w2 Z Z' Z2 W W' W2 S S' S2) as (p & q & P & Q & R). exists p, q.
split; [apply (ret_bind _ _ z); [easy|]; apply (ret_bind _ _ z'); [easy|]; now apply (ret_bind _ _ z2)|].
split; [apply (ret_bind _ _ w); [easy|]; apply (ret_bind _ _ w'); [easy|]; now apply (ret_bind _ _ w2)|easy].
Qed.

Ltac wfs := match goal with R : returns (beval ?Y ?e) ?z, O : fine_b ?Y ?e |- wf ?z => exact (fine_b_wf Y e z O R) end.
Lemma expr_same {F G} (e : expr vf F) (e' : expr vf' G) : recast e e' -> (forall i, occurs i e = true -> same_numbers (X i) (X' i)) ->
  fine_b X e -> fine_b X' e' -> sb (beval X e) (beval X' e').
Proof.
intros R. induction R; intros V O O'.
- exists (X i), (X' i). split; [easy|]. split; [easy|]. apply V. unfold occurs. apply Nat.eqb_refl.
- apply fine_b_un in O, O'. destruct O as [O K], O' as [O' K']. cbn [beval]; apply sb1; [now apply IHR|].
  intros z w Z W S. destruct (K z Z), (K' w W). now apply un_same.
- apply fine_b_un in O. apply fine_b_mun in O'. destruct O as [O K], O' as (O' & C & K'). cbn [beval]; apply sb1; [now apply IHR|].
  intros z w Z W S. destruct (K z Z), (K' w W). now apply un_same_mixed.
- apply fine_b_mun in O. apply fine_b_un in O'. destruct O as (O & C & K), O' as (O' & K'). cbn [beval]; apply sb1; [now apply IHR|].
  intros z w Z W S. destruct (K z Z), (K' w W). apply agree_sym. apply un_same_mixed; try easy; now apply same_sym.
- apply fine_b_mun in O, O'. destruct O as (O & C & K), O' as (O' & C' & K'). cbn [beval]; apply sb1; [now apply IHR|].
  intros z w Z W S. destruct (K z Z), (K' w W). now apply un_mixed_same.
- apply fine_b_bin in O, O'. destruct O as [O1 O2], O' as [O1' O2']. cbn [beval]; apply sb2; [apply IHR1|apply IHR2|]; try easy; try (intros i Hi; apply V; cbn [occurs]; rewrite Hi; now rewrite ?orb_true_r).
  intros. apply bin_same; try easy; wfs.
- apply fine_b_bin in O. apply fine_b_mbin in O'. destruct O as [O1 O2], O' as (O1' & O2' & C1 & C2 & C3). cbn [beval]; apply sb2; [apply IHR1|apply IHR2|]; try easy; try (intros i Hi; apply V; cbn [occurs]; rewrite Hi; now rewrite ?orb_true_r).
  intros. apply bin_same_mixed; try easy; wfs.
- apply fine_b_mbin in O. apply fine_b_bin in O'. destruct O as (O1 & O2 & C1 & C2 & C3), O' as [O1' O2']. cbn [beval]; apply sb2; [apply IHR1|apply IHR2|]; try easy; try (intros i Hi; apply V; cbn [occurs]; rewrite Hi; now rewrite ?orb_true_r).
  intros. apply agree_sym. apply bin_same_mixed; try easy; try wfs; now apply same_sym.
- apply fine_b_mbin in O, O'. destruct O as (O1 & O2 & C1 & C2 & C3), O' as (O1' & O2' & C1' & C2' & C3'). cbn [beval]; apply sb2; [apply IHR1|apply IHR2|]; try easy; try (intros i Hi; apply V; cbn [occurs]; rewrite Hi; now rewrite ?orb_true_r).
  intros. apply bin_mixed_same; try easy; wfs.
- apply fine_b_fma in O, O'. destruct O as (O1 & O2 & O3), O' as (O1' & O2' & O3'). cbn [beval]; apply sb3; [apply IHR1|apply IHR2|apply IHR3|]; try easy; try (intros i Hi; apply V; cbn [occurs]; rewrite Hi; now rewrite ?orb_true_r).
  intros. apply fma_same; try easy; wfs.
- apply fine_b_fma in O. apply fine_b_mfma in O'. destruct O as (O1 & O2 & O3), O' as (O1' & O2' & O3' & C). cbn [beval]; apply sb3; [apply IHR1|apply IHR2|apply IHR3|]; try easy; try (intros i Hi; apply V; cbn [occurs]; rewrite Hi; now rewrite ?orb_true_r).
  intros. apply fma_same_mixed; try easy; wfs.
- apply fine_b_mfma in O. apply fine_b_fma in O'. destruct O as (O1 & O2 & O3 & C), O' as (O1' & O2' & O3'). cbn [beval]; apply sb3; [apply IHR1|apply IHR2|apply IHR3|]; try easy; try (intros i Hi; apply V; cbn [occurs]; rewrite Hi; now rewrite ?orb_true_r).
  intros. apply agree_sym. apply fma_same_mixed; try easy; try wfs; now apply same_sym.
- apply fine_b_mfma in O, O'. destruct O as (O1 & O2 & O3 & C), O' as (O1' & O2' & O3' & C'). cbn [beval]; apply sb3; [apply IHR1|apply IHR2|apply IHR3|]; try easy; try (intros i Hi; apply V; cbn [occurs]; rewrite Hi; now rewrite ?orb_true_r).
  intros. apply fma_mixed_same; try easy; wfs.
Qed.
End Bare.

Lemma same_dec_sym {F G} (x : ditv F) (y : ditv G) : same_dec x y -> same_dec y x.
Proof. intros [H E]. split; [now apply same_sym|easy]. Qed.
Lemma agree_dec_sym {F} (m n : M (ditv F)) : agree_dec m n -> agree_dec n m.
Proof. intros (z & w & Z & W & S). exists w, z. split; [easy|]. split; [easy|]. now apply same_dec_sym. Qed.
Section Decd.
Context (X : denv vf) (X' : denv vf').
Definition fine_d {v} (Y : denv v) {F} (e : expr v F) : Prop :=
  (forall i, occurs i e = true -> proper (Y i)) /\ typed e /\ tan_types three e /\ tan_fine (bev (parts Y)) e.
Lemma fine_d_wf {v} (Y : denv v) {F} (e : expr v F) z : fine_d Y e -> returns (deval Y e) z -> proper z /\ returns (beval (parts Y) e) (fst z).
Proof. intros (A & B & _) R. destruct (total Y e A B) as (w & W & V & U). now rewrite (returns_same _ _ _ R W). Qed.
Lemma fine_d_un {v} (Y : denv v) {F} u (a : expr v F) : fine_d Y (Un u a) -> fine_d Y a /\ forall z, returns (deval Y a) z -> proper z /\ tan_good F u (fst z).
Proof.
intros (A & B & [C C'] & [D D']). assert (O : fine_d Y a) by (split; [exact A|]; split; [exact B|]; split; [exact C|exact D]). split; [easy|]. intros z R. destruct (fine_d_wf Y a z O R) as [P R']. split; [easy|].
intros E. split; [now apply C'|now apply (D' E)].
Qed.
Lemma fine_d_mun {v} (Y : denv v) T {F} u (a : expr v F) : fine_d Y (MUn T u a) ->
  fine_d Y a /\ comparable T F /\ forall z, returns (deval Y a) z -> proper z /\ tan_good (pmax T F) u (fst z).
Proof.
intros (A & [B B'] & [C C'] & [D D']). assert (O : fine_d Y a) by (split; [exact A|]; split; [exact B|]; split; [exact C|exact D]). split; [easy|]. split; [easy|]. intros z R. destruct (fine_d_wf Y a z O R) as [P R']. split; [easy|].
intros E. split; [now apply C'|now apply (D' E)].
Qed.
Lemma fine_d_bin {v} (Y : denv v) {F} b (a c : expr v F) : fine_d Y (Bin b a c) -> fine_d Y a /\ fine_d Y c.
Proof.
intros (A & [B B'] & [C C'] & [D D']). split; (split; [|easy]); intros i Hi; apply A; cbn [occurs]; rewrite Hi; [easy|apply orb_true_r].
Qed.
Lemma fine_d_mbin {v} (Y : denv v) T {F G} b (a : expr v F) (c : expr v G) : fine_d Y (MBin T b a c) ->
  fine_d Y a /\ fine_d Y c /\ comparable T F /\ comparable T G /\ comparable F G.
Proof.
intros (A & (B & B' & B'') & [C C'] & [D D']). split; [|split; [|easy]]; (split; [|easy]); intros i Hi; apply A; cbn [occurs]; rewrite Hi; [easy|apply orb_true_r].
Qed.
Lemma fine_d_fma {v} (Y : denv v) {F} (a c d : expr v F) : fine_d Y (Fma a c d) -> fine_d Y a /\ fine_d Y c /\ fine_d Y d.
Proof.
intros (A & (B & B' & B'') & (C & C' & C'') & (D & D' & D'')).
split; [|split]; (split; [|easy]); intros i Hi; apply A; cbn [occurs]; rewrite Hi; [easy|now rewrite orb_true_r|apply orb_true_r].
Qed.
Lemma fine_d_mfma {v} (Y : denv v) T {F G H} (a : expr v F) (c : expr v G) (d : expr v H) : fine_d Y (MFma T a c d) ->
  fine_d Y a /\ fine_d Y c /\ fine_d Y d /\ comp3 T F G H.
Proof.
intros (A & (B & B' & B'' & K) & (C & C' & C'') & (D & D' & D'')).
split; [|split; [|split; [|exact K]]]; (split; [|easy]); intros i Hi; apply A; cbn [occurs]; rewrite Hi; [easy|now rewrite orb_true_r|apply orb_true_r].
Qed.
Definition sd {F G} (m : M (ditv F)) (n : M (ditv G)) : Prop := exists z w, returns m z /\ returns n w /\ same_dec z w.
Lemma sd1 {F G T} (m : M (ditv F)) (n : M (ditv G)) (f : ditv F -> M (ditv T)) (g : ditv G -> M (ditv T)) :
  sd m n -> (forall z w, returns m z -> returns n w -> same_dec z w -> agree_dec (f z) (g w)) -> sd (x <- m; f x) (x <- n; g x).
Proof.
intros (z & w & Z & W & S) H. destruct (H z w Z W S) as (p & q & P & Q & R). exists p, q.
split; [now apply (ret_bind _ _ z)|]. split; [now apply (ret_bind _ _ w)|easy].
Qed.
Lemma sd2 {F G F' G' T} (m : M (ditv F)) (n : M (ditv G)) (m' : M (ditv F')) (n' : M (ditv G')) (f : ditv F -> ditv G -> M (ditv T)) (g : ditv F' -> ditv G' -> M (ditv T)) :
  sd m m' -> sd n n' -> (forall x y x' y', returns m x -> returns n y -> returns m' x' -> returns n' y' -> same_dec x x' -> same_dec y y' -> agree_dec (f x y) (g x' y')) ->
  sd (x <- m; y <- n; f x y) (x <- m'; y <- n'; g x y).
Proof.
intros (z & w & Z & W & S) (z' & w' & Z' & W' & S') H. destruct (H z z' w w' Z Z' W W' S S') as (p & q & P & Q & R). exists p, q.
split; [apply (ret_bind _ _ z); [easy|]; now apply (ret_bind _ _ z')|]. split; [apply (ret_bind _ _ w); [easy|]; now apply (ret_bind _ _ w')|easy].
Qed.
Lemma sd3 {F G H F' G' H' T} (m : M (ditv F)) (n : M (ditv G)) (k : M (ditv H)) (m' : M (ditv F')) (n' : M (ditv G')) (k' : M (ditv H'))
    (f : ditv F -> ditv G -> ditv H -> M (ditv T)) (g : ditv F' -> ditv G' -> ditv H' -> M (ditv T)) :
  sd m m' -> sd n n' -> sd k k' -> (forall x y t x' y' t', returns m x -> returns n y -> returns k t -> returns m' x' -> returns n' y' -> returns k' t' ->
    same_dec x x' -> same_dec y y' -> same_dec t t' -> agree_dec (f x y t) (g x' y' t')) ->
  sd (x <- m; y <- n; t <- k; f x y t) (x <- m'; y <- n'; t <- k'; g x y t).
Proof.
intros (z & w & Z & W & S) (z' & w' & Z' & W' & S') (z2 & w2 & Z2 & W2 & S2) K. destruct (K z z' z2 w w' w2 Z Z' Z2 W W' W2 S S' S2) as (p & q & P & Q & R). exists p, q.
split; [apply (ret_bind _ _ z); [easy|]; apply (ret_bind _ _ z'); [easy|]; now apply (ret_bind _ _ z2)|].
split; [apply (ret_bind _ _ w); [easy|]; apply (ret_bind _ _ w'); [easy|]; now apply (ret_bind _ _ w2)|easy].
Qed.

Ltac pros := match goal with R : returns (deval ?Y ?e) ?z, O : fine_d ?Y ?e |- proper ?z => exact (proj1 (fine_d_wf Y e z O R)) end.
Lemma dexpr_same {F G} (e : expr vf F) (e' : expr vf' G) : recast e e' -> (forall i, occurs i e = true -> same_dec (X i) (X' i)) ->
  fine_d X e -> fine_d X' e' -> sd (deval X e) (deval X' e').
Proof.
intros R. induction R; intros V O O'.
- exists (X i), (X' i). split; [easy|]. split; [easy|]. apply V. unfold occurs. apply Nat.eqb_refl.
- apply fine_d_un in O, O'. destruct O as [O K], O' as [O' K']. cbn [deval]; apply sd1; [now apply IHR|].
  intros z w Z W S. destruct (K z Z), (K' w W). now apply dun_same.
- apply fine_d_un in O. apply fine_d_mun in O'. destruct O as [O K], O' as (O' & C & K'). cbn [deval]; apply sd1; [now apply IHR|].
  intros z w Z W S. destruct (K z Z), (K' w W). now apply dun_same_mixed.
- apply fine_d_mun in O. apply fine_d_un in O'. destruct O as (O & C & K), O' as (O' & K'). cbn [deval]; apply sd1; [now apply IHR|].
  intros z w Z W S. destruct (K z Z), (K' w W). apply agree_dec_sym. apply dun_same_mixed; try easy; now apply same_dec_sym.
- apply fine_d_mun in O, O'. destruct O as (O & C & K), O' as (O' & C' & K'). cbn [deval]; apply sd1; [now apply IHR|].
  intros z w Z W S. destruct (K z Z), (K' w W). now apply dun_mixed_same.
- apply fine_d_bin in O, O'. destruct O as [O1 O2], O' as [O1' O2']. cbn [deval]; apply sd2; [apply IHR1|apply IHR2|]; try easy; try (intros i Hi; apply V; cbn [occurs]; rewrite Hi; now rewrite ?orb_true_r).
  intros. apply dbin_same; try easy; pros.
- apply fine_d_bin in O. apply fine_d_mbin in O'. destruct O as [O1 O2], O' as (O1' & O2' & C1 & C2 & C3). cbn [deval]; apply sd2; [apply IHR1|apply IHR2|]; try easy; try (intros i Hi; apply V; cbn [occurs]; rewrite Hi; now rewrite ?orb_true_r).
  intros. apply dbin_same_mixed; try easy; pros.
- apply fine_d_mbin in O. apply fine_d_bin in O'. destruct O as (O1 & O2 & C1 & C2 & C3), O' as [O1' O2']. cbn [deval]; apply sd2; [apply IHR1|apply IHR2|]; try easy; try (intros i Hi; apply V; cbn [occurs]; rewrite Hi; now rewrite ?orb_true_r).
  intros. apply agree_dec_sym. apply dbin_same_mixed; try easy; try pros; now apply same_dec_sym.
- apply fine_d_mbin in O, O'. destruct O as (O1 & O2 & C1 & C2 & C3), O' as (O1' & O2' & C1' & C2' & C3'). cbn [deval]; apply sd2; [apply IHR1|apply IHR2|]; try easy; try (intros i Hi; apply V; cbn [occurs]; rewrite Hi; now rewrite ?orb_true_r).
  intros. apply dbin_mixed_same; try easy; pros.
- apply fine_d_fma in O, O'. destruct O as (O1 & O2 & O3), O' as (O1' & O2' & O3'). cbn [deval]; apply sd3; [apply IHR1|apply IHR2|apply IHR3|]; try easy; try (intros i Hi; apply V; cbn [occurs]; rewrite Hi; now rewrite ?orb_true_r).
  intros. apply dfma_same; try easy; pros.
- apply fine_d_fma in O. apply fine_d_mfma in O'. destruct O as (O1 & O2 & O3), O' as (O1' & O2' & O3' & C). cbn [deval]; apply sd3; [apply IHR1|apply IHR2|apply IHR3|]; try easy; try (intros i Hi; apply V; cbn [occurs]; rewrite Hi; now rewrite ?orb_true_r).
  intros. apply dfma_same_mixed; try easy; pros.
- apply fine_d_mfma in O. apply fine_d_fma in O'. destruct O as (O1 & O2 & O3 & C), O' as (O1' & O2' & O3'). cbn [deval]; apply sd3; [apply IHR1|apply IHR2|apply IHR3|]; try easy; try (intros i Hi; apply V; cbn [occurs]; rewrite Hi; now rewrite ?orb_true_r).
  intros. apply agree_dec_sym. apply dfma_same_mixed; try easy; try pros; now apply same_dec_sym.
- apply fine_d_mfma in O, O'. destruct O as (O1 & O2 & O3 & C), O' as (O1' & O2' & O3' & C'). cbn [deval]; apply sd3; [apply IHR1|apply IHR2|apply IHR3|]; try easy; try (intros i Hi; apply V; cbn [occurs]; rewrite Hi; now rewrite ?orb_true_r).
  intros. apply dfma_mixed_same; try easy; pros.
Qed.
End Decd.
End Expr.

Lemma expr_same_full (vf vf' : nat -> fmt) (X : ienv vf) (X' : ienv vf') (F G : fmt) (e : expr vf F) (e' : expr vf' G) :
  recast e e' -> (forall i, occurs i e = true -> wf (X i) /\ wf (X' i) /\ same_numbers (X i) (X' i)) ->
  typed e -> tan_types three e -> tan_fine (fun F a z => returns (beval X a) z) e ->
  typed e' -> tan_types three e' -> tan_fine (fun F a z => returns (beval X' a) z) e' ->
  exists z w, returns (beval X e) z /\ returns (beval X' e') w /\ same_numbers z w.
Proof.
intros R V A B C A' B' C'. apply (expr_same X X' e e' R); [intros i Hi; now apply V| |].
- split; [intros i Hi; now apply V|easy].
- split; [intros i Hi; rewrite <- (recast_occurs i e e' R) in Hi; now apply V|easy].
Qed.
Lemma dexpr_same_full (vf vf' : nat -> fmt) (X : denv vf) (X' : denv vf') (F G : fmt) (e : expr vf F) (e' : expr vf' G) :
  recast e e' -> (forall i, occurs i e = true -> proper (X i) /\ proper (X' i) /\ same_dec (X i) (X' i)) ->
  typed e -> tan_types three e -> tan_fine (fun F a z => returns (beval (parts X) a) z) e ->
  typed e' -> tan_types three e' -> tan_fine (fun F a z => returns (beval (parts X') a) z) e' ->
  exists z w, returns (deval X e) z /\ returns (deval X' e') w /\ same_dec z w.
Proof.
intros R V A B C A' B' C'. apply (dexpr_same X X' e e' R); [intros i Hi; now apply V| |].
- split; [intros i Hi; now apply V|easy].
- split; [intros i Hi; rewrite <- (recast_occurs i e e' R) in Hi; now apply V|easy].
Qed.
