(** * Proofs: operations that differ by signs and the order of operands *)
From Coq Require Import ZArith NArith Reals Bool Lra Lia List.
From Flocq Require Import Core.Core IEEE754.BinarySingleNaN.
From Verif Require Import Fmt Spec FloatFacts Exc Deco SpecApi SpecDeco SpecIso SpecStrong SpecElem SpecMixed SpecExpr SpecAlg SpecPoint SpecOver SpecTan2 SpecNai SpecMirror MBase PBase PConv MBool MArith MDec MMixed MExpr PArith PAlg PCancel PIso PExpr PPoint PStrong4 POver POver3 PSplit PDec.
From Verif Require C54.
Local Open Scope R_scope.
Local Open Scope m_scope.

(** Honesty carried over by a map of the arguments and an isometry of the values. *)
Lemma honest_move {F T P Q} (nr : R -> P -> P -> Prop) (nr' : R -> Q -> Q -> Prop) (box dom : P -> Prop) (bb : Prop) (f : P -> R) (z : itv F)
    (box' dom' : Q -> Prop) (bb' : Prop) (f' : Q -> R) (z' : itv T) d (h : Q -> P) (g : P -> Q) o :
  (forall q, box' q -> box (h q)) -> (forall p, box p -> box' (g p)) -> (forall q, dom' q <-> dom (h q)) ->
  (forall e q q', nr' e q q' -> nr e (h q) (h q')) -> (forall q, dom' q -> f' q = sg o (f (h q))) ->
  (bb -> bb') -> (bounded_rep z -> bounded_rep z') -> honest nr box dom bb f z d -> honest nr' box' dom' bb' f' z' d.
Proof.
intros H1 H2 H3 H4 H5 H6 H7 (A1 & A2 & A3).
assert (S : forall a b, Rabs (sg o a - sg o b) = Rabs (a - b)).
{ intros a b. unfold sg. destruct o; [|reflexivity]. replace (- a - - b) with (- (a - b)) by ring. apply Rabs_Ropp. }
assert (D : (def <= d)%N -> forall q, box' q -> dom' q) by (intros L q Hq; apply H3; apply (proj2 (A1 L)); auto).
split; [|split]; intros L.
- destruct (A1 L) as [[p Hp] _]. split; [exists (g p); auto|auto].
- assert (L' : (def <= d)%N) by (unfold def, dac in *; lia). intros q Hq e He. destruct (A2 L (h q) (H1 q Hq) e He) as (t & Pt & K). exists t. split; [exact Pt|].
  intros q' Bq' Nq'. rewrite (H5 q (D L' q Hq)), (H5 q' (D L' q' Bq')), S. auto.
- assert (L' : (def <= d)%N) by (unfold def, com in *; lia). destruct (A3 L) as (B1 & B2 & B3). split; [auto|]. split; [auto|].
  intros q Hq e He. destruct (B3 (h q) (H1 q Hq) e He) as (t & Pt & K). exists t. split; [exact Pt|].
  intros q' Dq' Nq'. rewrite (H5 q (D L' q Hq)), (H5 q' Dq'), S. apply K; [now apply H3|auto].
Qed.

(** ** Negation *)
Definition mirror {F} (s : bool) (x : itv F) : itv F := if s then (fneg (snd x), fneg (fst x)) else x.
Definition mird {F} (s : bool) (x : ditv F) : ditv F := (mirror s (fst x), snd x).
Lemma sg_sg s r : sg s (sg s r) = r.
Proof. destruct s; cbn; [apply Ropp_involutive|reflexivity]. Qed.
Lemma mem_mirror {F} s (x : itv F) r : mem r (mirror s x) <-> mem (sg s r) x.
Proof. destruct s; [|reflexivity]. destruct x as [l u]. apply mem_neg. Qed.
Lemma wf_mirror {F} s (x : itv F) : wf x -> wf (mirror s x).
Proof. intros [->|[r H]]; [destruct s; left; reflexivity|right; exists (sg s r); apply mem_mirror; now rewrite sg_sg]. Qed.
Lemma bounded_mirror {F} s (x : itv F) : bounded_rep (mirror s x) <-> bounded_rep x.
Proof.
destruct s; [|reflexivity]. unfold bounded_rep. cbn. destruct x as [l u]. cbn [fst snd].
assert (K : forall a : float F, is_finite (fneg a) = is_finite a) by (intros []; reflexivity). rewrite !K. tauto.
Qed.
Lemma flip_eq {F} s (x : itv F) : wf x -> flip s x = ret (mirror s x).
Proof.
intros W. destruct s; [|reflexivity]. cbn [flip mirror]. unfold neg. vred. destruct (isnan (fst x)) eqn:E; vred; [|reflexivity].
destruct W as [->|[r [H _]]]; [reflexivity|]. destruct (fst x); discriminate E || now destruct H.
Qed.
Lemma flipd_eq {F} s (x : ditv F) : proper x -> flip_dec s x = ret (mird s x).
Proof.
intros (W & D & I). destruct s; [|cbn; now destruct x]. cbn [flip_dec]. unfold neg_dec. rewrite is_valid_dec_wf, is_nai_wf by easy.
destruct (deq_spec (snd x) ill) as [E|_]; [easy|]. mreds. pose proof (flip_eq true (fst x) (proper_wf x (conj W (conj D I)))) as E. cbn [flip] in E. rewrite E. mreds. reflexivity.
Qed.
Lemma proper_mird {F} s (x : ditv F) : proper x -> proper (mird s x).
Proof.
intros (W & D & I). split; [|split; [exact D|exact I]]. destruct W as [[E H]|([r H] & H2 & H3)].
- left. split; [|exact H]. cbn. rewrite E. destruct s; reflexivity.
- right. split; [exists (sg s r); apply mem_mirror; now rewrite sg_sg|]. split; [exact H2|]. intros C. apply bounded_mirror. auto.
Qed.
Lemma tan_good_mirror W {F} s u v (x : itv F) : (u = u_tan -> v = u_tan) -> tan_good W v x -> tan_good W u (mirror s x).
Proof.
intros E G U. destruct (G (E U)) as [T N]. split; [exact T|]. destruct s; [|exact N]. intros (B & (p & Hp & Cp) & (q & Fq & Q1 & Q2) & X). apply N.
split; [now apply (bounded_mirror true)|]. split; [exists (- p); split; [now apply (mem_mirror true)|now rewrite cos_neg]|].
cbn in Q2, X. rewrite !B2R_fneg in Q2, X. split; [exists q; split; [exact Fq|split; [exact Q1|lra]]|].
intros (f & g & Ff & Fg & H1 & H2 & H3). apply X. exists (fneg g), (fneg f). rewrite !tan_neg, !B2R_fneg. repeat split; try (now apply fneg_fin); lra.
Qed.
Lemma tightest_mirror {F} o S S' (z : itv F) : tightest S z -> (forall r, S' r <-> S (sg o r)) -> tightest S' (mirror o z).
Proof.
intros T E. assert (W : wf (mirror o z)) by (apply wf_mirror, T). destruct o; [|cbn; cbn in E].
- assert (K : tightest (fun t => S (- t)) (mirror true z)) by (apply (tightest_neg S z); [exact T|exact W|intros r; apply (mem_mirror true)]).
  destruct K as (_ & K1 & K2). split; [exact W|]. split; [intros r Hr; apply K1; now apply E|]. intros w Ww Hw. apply K2; [exact Ww|]. intros r Hr. apply Hw. now apply E.
- destruct T as (_ & K1 & K2). split; [exact W|]. split; [intros r Hr; apply K1; now apply E|]. intros w Ww Hw. apply K2; [exact Ww|]. intros r Hr. apply Hw. now apply E.
Qed.

Lemma bounded_same {F} (x y : itv F) : wf x -> wf y -> same_numbers x y -> bounded_rep x -> bounded_rep y.
Proof.
intros Wx Wy E B. destruct (bounded_some x Wx B) as [r H]. refine (bounded_join y x x _ (ex_intro _ r H) (ex_intro _ r H) B B).
split; [exact Wy|]. split; [intros t Ht; apply E; tauto|]. intros w _ K t Ht. apply K. left. now apply E.
Qed.
Lemma near_sg s e p q : near1 e p q -> near1 e (sg s p) (sg s q).
Proof.
unfold near1. destruct s; cbn; [|auto]. replace (- q - - p) with (- (q - p)) by ring. now rewrite Rabs_Ropp.
Qed.
Lemma alike1_back s o u v q : alike1 s o u v -> (un_dom u q <-> un_dom v (sg s q)) /\ (un_dom u q -> un_val u q = sg o (un_val v (sg s q))).
Proof. intros A. destruct (A (sg s q)) as [A1 A2]. rewrite sg_sg in A1, A2. split; [exact A1|]. intros D. apply A2, A1, D. Qed.
Lemma alike1_forth s o u v q : alike1 s o u v -> (un_dom v q <-> un_dom u (sg s q)) /\ (un_dom v q -> un_val v q = sg o (un_val u (sg s q))).
Proof. intros A. destruct (A q) as [A1 A2]. split; [now symmetry|]. intros D. rewrite (A2 D). symmetry. apply sg_sg. Qed.

(** ** One operand *)
Lemma image_alike {F} s o u v (x : itv F) : alike1 s o u v -> forall r,
  image1 (un_dom u) (un_val u) (mirror s x) r <-> image1 (un_dom v) (un_val v) x (sg o r).
Proof.
intros A r. split.
- intros (t & Ht & Dt & ->). exists (sg s t). destruct (A (sg s t)) as [A1 A2]. rewrite sg_sg in A1, A2. apply A1 in Dt. split; [now apply mem_mirror|]. split; [exact Dt|].
  rewrite (A2 Dt). apply sg_sg.
- intros (t & Ht & Dt & E). exists (sg s t). destruct (A t) as [A1 A2]. split; [apply mem_mirror; now rewrite sg_sg|]. split; [now apply A1|].
  rewrite (A2 Dt), <- E. symmetry. apply sg_sg.
Qed.
Lemma law1 {F T} s o u v (opu opv : itv F -> M (itv T)) x : alike1 s o u v -> wf x ->
  computes_tightest (opu (mirror s x)) (image1 (un_dom u) (un_val u) (mirror s x)) -> computes_tightest (opv x) (image1 (un_dom v) (un_val v) x) ->
  agree (y <- flip s x; opu y) (z <- opv x; flip o z).
Proof.
intros A W (z & Z & Tz) (w & K & Tw). rewrite (flip_eq s x W). mreds. apply returns_eq in K. rewrite K. mreds. rewrite (flip_eq o w (proj1 Tw)).
exists z, (mirror o w). split; [exact Z|]. split; [now intros q|]. apply (tight_same _ _ _ _ Tz (tightest_mirror o _ _ w Tw (image_alike s o u v x A))). reflexivity.
Qed.
Lemma dlaw1 {F T} s o u v (du dv : ditv F -> M (ditv T)) (opu opv : itv F -> M (itv T)) x : alike1 s o u v -> proper x ->
  computes_tightest (opu (mirror s (fst x))) (image1 (un_dom u) (un_val u) (mirror s (fst x))) -> computes_tightest (opv (fst x)) (image1 (un_dom v) (un_val v) (fst x)) ->
  strongest1 du (un_dom u) (un_val u) -> strongest1 dv (un_dom v) (un_val v) ->
  node1 du opu (un_dom u) (un_val u) (mird s x) -> node1 dv opv (un_dom v) (un_val v) x ->
  agree_dec (y <- flip_dec s x; du y) (z <- dv x; flip_dec o z).
Proof.
intros A P Tu Tv Su Sv (z & Z & Pz & Bz & Lz & _ & Hz) (w & K & Pw & Bw & Lw & _ & Hw).
destruct Tu as (z1 & Z1 & Tz), Tv as (w1 & W1 & Tw). rewrite <- (returns_one _ _ _ Bz Z1) in Tz. rewrite <- (returns_one _ _ _ Bw W1) in Tw.
rewrite (flipd_eq s x P). mreds. pose proof K as K'. apply returns_eq in K'. rewrite K'. mreds. rewrite (flipd_eq o w Pw).
exists z, (mird o w). split; [exact Z|]. split; [now intros q|].
assert (E : same_numbers (fst z) (mirror o (fst w))).
{ apply (tight_same _ _ _ _ Tz (tightest_mirror o _ _ _ Tw (image_alike s o u v _ A))). reflexivity. }
split; [exact E|]. cbn [mird snd].
pose proof (proper_wf _ Pz) as Wz. pose proof (proper_wf _ Pw) as Ww.
assert (Bzw : bounded_rep (fst z) <-> bounded_rep (fst w)).
{ rewrite <- (bounded_mirror o (fst w)). split; apply bounded_same; auto using wf_mirror. intros r. symmetry. apply E. }
pose proof (proper_mird s x P) as (Q1 & Q2 & Q3). destruct Pz as (Z3 & Z4 & Z5), Pw as (W3 & W4 & W5), P as (P1 & P2 & P3). cbn [mird snd] in Lz.
apply N.le_antisymm.
- apply (Sv x P1 P2 P3 w K); [exact Z4|exact Lz|].
  refine (honest_move near1 near1 _ _ _ _ _ _ _ _ _ _ _ (sg s) (sg s) o _ _ _ _ _ _ _ Hz).
  + intros q Hq. apply mem_mirror. now rewrite sg_sg.
  + intros q Hq. now apply mem_mirror in Hq.
  + intros q. apply (alike1_forth s o u v q A).
  + intros e q q'. apply near_sg.
  + intros q. apply (alike1_forth s o u v q A).
  + apply bounded_mirror.
  + apply Bzw.
- apply (Su (mird s x) Q1 Q2 Q3 z Z); [exact W4|exact Lw|].
  refine (honest_move near1 near1 _ _ _ _ _ _ _ _ _ _ _ (sg s) (sg s) o _ _ _ _ _ _ _ Hw).
  + intros q Hq. now apply mem_mirror in Hq.
  + intros q Hq. apply mem_mirror. now rewrite sg_sg.
  + intros q. apply (alike1_back s o u v q A).
  + intros e q q'. apply near_sg.
  + intros q. apply (alike1_back s o u v q A).
  + apply bounded_mirror.
  + apply Bzw.
Qed.

Lemma un_alike {F} s o u v (x : itv F) : alike1 s o u v -> (u = u_tan -> v = u_tan) -> wf x -> tan_good F v x ->
  agree (y <- flip s x; un_bare u y) (z <- un_bare v x; flip o z).
Proof.
intros A N W T. apply (law1 s o u v); auto; apply un_tight1; auto using wf_mirror. now apply (tan_good_mirror F s u v).
Qed.
Lemma un_alike_mixed T {F} s o u v (x : itv F) : comparable T F -> alike1 s o u v -> (u = u_tan -> v = u_tan) -> wf x -> tan_good (pmax T F) v x ->
  agree (y <- flip s x; un_bare_mixed T u y) (z <- un_bare_mixed T v x; flip o z).
Proof.
intros C A N W K. apply (law1 s o u v); auto; apply un_tight1_mixed; auto using wf_mirror. now apply (tan_good_mirror _ s u v).
Qed.
Lemma dun_alike {F} s o u v (x : ditv F) : alike1 s o u v -> (u = u_tan -> v = u_tan) -> proper x -> tan_good F v (fst x) ->
  agree_dec (y <- flip_dec s x; un_decd u y) (z <- un_decd v x; flip_dec o z).
Proof.
intros A N P T. pose proof (tan_good_mirror F s u v (fst x) N T) as T'. pose proof (proper_wf x P) as W.
apply (dlaw1 s o u v _ _ (un_bare u) (un_bare v)); auto.
- apply un_tight1; auto using wf_mirror.
- apply un_tight1; auto.
- apply un_strong. intros E. apply (T' E).
- apply un_strong. intros E. apply (T E).
- apply un_node; [now apply proper_mird|]. intros E. apply (T' E).
- apply un_node; [exact P|]. intros E. apply (T E).
Qed.
Lemma dun_alike_mixed T {F} s o u v (x : ditv F) : comparable T F -> alike1 s o u v -> (u = u_tan -> v = u_tan) -> proper x -> tan_good (pmax T F) v (fst x) ->
  agree_dec (y <- flip_dec s x; un_decd_mixed T u y) (z <- un_decd_mixed T v x; flip_dec o z).
Proof.
intros C A N P K. pose proof (tan_good_mirror _ s u v (fst x) N K) as K'. pose proof (proper_wf x P) as W.
apply (dlaw1 s o u v _ _ (un_bare_mixed T u) (un_bare_mixed T v)); auto.
- apply un_tight1_mixed; auto using wf_mirror.
- apply un_tight1_mixed; auto.
- apply un_strong_mixed; [exact C|]. intros E. apply (K' E).
- apply un_strong_mixed; [exact C|]. intros E. apply (K E).
- apply un_node_mixed; [exact C|now apply proper_mird|]. intros E. apply (K' E).
- apply un_node_mixed; [exact C|exact P|]. intros E. apply (K E).
Qed.

(** ** Two operands *)
Definition like2 (s t o : bool) (D : R -> R -> Prop) f (D' : R -> R -> Prop) f' : Prop := forall p q,
  (D (sg s p) (sg t q) <-> D' p q) /\ (D' p q -> f (sg s p) (sg t q) = sg o (f' p q)).
Lemma like2_back s t o D f D' f' p q : like2 s t o D f D' f' -> (D p q <-> D' (sg s p) (sg t q)) /\ (D p q -> f p q = sg o (f' (sg s p) (sg t q))).
Proof. intros A. destruct (A (sg s p) (sg t q)) as [A1 A2]. rewrite !sg_sg in A1, A2. split; [exact A1|]. intros K. apply A2, A1, K. Qed.
Lemma like2_forth s t o D f D' f' p q : like2 s t o D f D' f' -> (D' p q <-> D (sg s p) (sg t q)) /\ (D' p q -> f' p q = sg o (f (sg s p) (sg t q))).
Proof. intros A. destruct (A p q) as [A1 A2]. split; [now symmetry|]. intros K. rewrite (A2 K). symmetry. apply sg_sg. Qed.
Lemma image_like2 {F G} s t o D f D' f' (x : itv F) (y : itv G) : like2 s t o D f D' f' -> forall r,
  image2 D f (mirror s x) (mirror t y) r <-> image2 D' f' x y (sg o r).
Proof.
intros A r. split.
- intros (p & q & Hp & Hq & K & ->). destruct (like2_back s t o D f D' f' p q A) as [A1 A2]. exists (sg s p), (sg t q).
  split; [now apply mem_mirror|]. split; [now apply mem_mirror|]. split; [now apply A1|]. rewrite (A2 K). apply sg_sg.
- intros (p & q & Hp & Hq & K & E). destruct (like2_forth s t o D f D' f' p q A) as [A1 A2]. exists (sg s p), (sg t q).
  split; [apply mem_mirror; now rewrite sg_sg|]. split; [apply mem_mirror; now rewrite sg_sg|]. split; [now apply A1|].
  rewrite <- (sg_sg o r), E, (A2 K). apply sg_sg.
Qed.
Lemma law2 {F G T} s t o D f D' f' (op op' : itv F -> itv G -> M (itv T)) x y : like2 s t o D f D' f' -> wf x -> wf y ->
  computes_tightest (op (mirror s x) (mirror t y)) (image2 D f (mirror s x) (mirror t y)) -> computes_tightest (op' x y) (image2 D' f' x y) ->
  agree (x' <- flip s x; y' <- flip t y; op x' y') (z <- op' x y; flip o z).
Proof.
intros A Wx Wy (z & Z & Tz) (w & K & Tw). rewrite (flip_eq s x Wx). mreds. rewrite (flip_eq t y Wy). mreds. apply returns_eq in K. rewrite K. mreds. rewrite (flip_eq o w (proj1 Tw)).
exists z, (mirror o w). split; [exact Z|]. split; [now intros q|]. apply (tight_same _ _ _ _ Tz (tightest_mirror o _ _ w Tw (image_like2 s t o D f D' f' x y A))). reflexivity.
Qed.
Lemma dlaw2 {F G T} s t o D f D' f' (opd opd' : ditv F -> ditv G -> M (ditv T)) (op op' : itv F -> itv G -> M (itv T)) x y : like2 s t o D f D' f' -> proper x -> proper y ->
  computes_tightest (op (mirror s (fst x)) (mirror t (fst y))) (image2 D f (mirror s (fst x)) (mirror t (fst y))) -> computes_tightest (op' (fst x) (fst y)) (image2 D' f' (fst x) (fst y)) ->
  strongest2 opd D f -> strongest2 opd' D' f' ->
  node2 opd op D f (mird s x) (mird t y) -> node2 opd' op' D' f' x y ->
  agree_dec (x' <- flip_dec s x; y' <- flip_dec t y; opd x' y') (z <- opd' x y; flip_dec o z).
Proof.
intros A P Py Tu Tv Su Sv (z & Z & Pz & Bz & Lz & Lzy & _ & Hz) (w & K & Pw & Bw & Lw & Lwy & _ & Hw).
destruct Tu as (z1 & Z1 & Tz), Tv as (w1 & W1 & Tw). rewrite <- (returns_one _ _ _ Bz Z1) in Tz. rewrite <- (returns_one _ _ _ Bw W1) in Tw.
rewrite (flipd_eq s x P). mreds. rewrite (flipd_eq t y Py). mreds. pose proof K as K'. apply returns_eq in K'. rewrite K'. mreds. rewrite (flipd_eq o w Pw).
exists z, (mird o w). split; [exact Z|]. split; [now intros q|].
assert (E : same_numbers (fst z) (mirror o (fst w))).
{ apply (tight_same _ _ _ _ Tz (tightest_mirror o _ _ _ Tw (image_like2 s t o D f D' f' _ _ A))). reflexivity. }
split; [exact E|]. cbn [mird snd].
pose proof (proper_wf _ Pz) as Wz. pose proof (proper_wf _ Pw) as Ww.
assert (Bzw : bounded_rep (fst z) <-> bounded_rep (fst w)).
{ rewrite <- (bounded_mirror o (fst w)). split; apply bounded_same; auto using wf_mirror. intros r. symmetry. apply E. }
pose proof (proper_mird s x P) as (Q1 & Q2 & Q3). pose proof (proper_mird t y Py) as (R1 & R2 & R3).
destruct Pz as (Z3 & Z4 & Z5), Pw as (W3 & W4 & W5), P as (P1 & P2 & P3), Py as (S1 & S2 & S3). cbn [mird snd] in Lz, Lzy.
apply N.le_antisymm.
- apply (Sv x y P1 P2 P3 S1 S2 S3 w K); [exact Z4|exact Lz|exact Lzy|].
  refine (honest_move near2 near2 _ _ _ _ _ _ _ _ _ _ _ (fun p => (sg s (fst p), sg t (snd p))) (fun p => (sg s (fst p), sg t (snd p))) o _ _ _ _ _ _ _ Hz).
  + intros q [H1 H2]. split; apply mem_mirror; cbn [fst snd]; now rewrite sg_sg.
  + intros q [H1 H2]. apply mem_mirror in H1. apply mem_mirror in H2. now split.
  + intros q. apply (like2_forth s t o D f D' f' (fst q) (snd q) A).
  + intros e q q' [H1 H2]. split; now apply near_sg.
  + intros q. apply (like2_forth s t o D f D' f' (fst q) (snd q) A).
  + intros [B1 B2]. split; [now apply (bounded_mirror s)|now apply (bounded_mirror t)].
  + apply Bzw.
- apply (Su (mird s x) (mird t y) Q1 Q2 Q3 R1 R2 R3 z Z); [exact W4|exact Lw|exact Lwy|].
  refine (honest_move near2 near2 _ _ _ _ _ _ _ _ _ _ _ (fun p => (sg s (fst p), sg t (snd p))) (fun p => (sg s (fst p), sg t (snd p))) o _ _ _ _ _ _ _ Hw).
  + intros q [H1 H2]. apply mem_mirror in H1. apply mem_mirror in H2. now split.
  + intros q [H1 H2]. split; apply mem_mirror; cbn [fst snd]; now rewrite sg_sg.
  + intros q. apply (like2_back s t o D f D' f' (fst q) (snd q) A).
  + intros e q q' [H1 H2]. split; now apply near_sg.
  + intros q. apply (like2_back s t o D f D' f' (fst q) (snd q) A).
  + intros [B1 B2]. split; now apply bounded_mirror.
  + apply Bzw.
Qed.
(** Operands in the other order. *)
Definition pswap (p : R * R) : R * R := (snd p, fst p).
Lemma honest_swap {F G T} (x : itv F) (y : itv G) (D : R -> R -> Prop) f (z : itv T) d :
  honest near2 (box2 x y) (fun p => D (fst p) (snd p)) (bounded_rep x /\ bounded_rep y) (fun p => f (fst p) (snd p)) z d ->
  honest near2 (box2 y x) (fun p => D (snd p) (fst p)) (bounded_rep y /\ bounded_rep x) (fun p => f (snd p) (fst p)) z d.
Proof.
intros H. refine (honest_move near2 near2 _ _ _ _ _ _ _ _ _ _ _ pswap pswap false _ _ _ _ _ _ _ H).
- intros q [H1 H2]. now split.
- intros q [H1 H2]. now split.
- intros q. reflexivity.
- intros e q q' [H1 H2]. now split.
- intros q _. reflexivity.
- tauto.
- tauto.
Qed.
Lemma strongest2_swap {F G T} (opd : ditv F -> ditv G -> M (ditv T)) D f : strongest2 opd D f -> strongest2 (fun x y => opd y x) (fun p q => D q p) (fun p q => f q p).
Proof.
intros S x y Wx Dx Ix Wy Dy Iy z Z d Hd L1 L2 H. apply (S y x Wy Dy Iy Wx Dx Ix z Z d Hd L2 L1). exact (honest_swap _ _ (fun p q => D q p) (fun p q => f q p) _ _ H).
Qed.
Lemma node2_swap {F G T} (opd : ditv F -> ditv G -> M (ditv T)) op D f x y : node2 opd op D f y x -> node2 (fun x y => opd y x) (fun x y => op y x) (fun p q => D q p) (fun p q => f q p) x y.
Proof.
intros (z & Z & Pz & Bz & L1 & L2 & M & H). exists z. split; [exact Z|]. split; [exact Pz|]. split; [exact Bz|]. split; [exact L2|]. split; [exact L1|]. split; [auto|].
exact (honest_swap _ _ D f _ _ H).
Qed.
Lemma image2_swap {F G} D f (x : itv F) (y : itv G) r : image2 D f y x r <-> image2 (fun p q => D q p) (fun p q => f q p) x y r.
Proof. split; intros (p & q & H1 & H2 & H3 & H4); exists q, p; auto. Qed.
Lemma ct_swap {F G T} (op : itv F -> itv G -> M (itv T)) D f x y : computes_tightest (op y x) (image2 D f y x) -> computes_tightest (op y x) (image2 (fun p q => D q p) (fun p q => f q p) x y).
Proof.
intros (z & Z & W & E & M). exists z. split; [exact Z|]. split; [exact W|]. split; [intros r Hr; now apply E, image2_swap|]. intros w Ww Hw. apply M; [exact Ww|]. intros r Hr. now apply Hw, image2_swap.
Qed.

Lemma bin_alike {F} w s t o b c (x y : itv F) : alike2 w s t o b c -> wf x -> wf y ->
  agree (x' <- flip s x; y' <- flip t y; swap w (bin_bare b) x' y') (z <- bin_bare c x y; flip o z).
Proof.
intros A Wx Wy. destruct w; cbn [swap].
- apply (law2 s t o (fun p q => bin_dom b q p) (fun p q => bin_val b q p) (bin_dom c) (bin_val c) (fun x y => bin_bare b y x)); auto.
  + apply ct_swap, bin_tight; now apply wf_mirror.
  + now apply bin_tight.
- apply (law2 s t o (bin_dom b) (bin_val b) (bin_dom c) (bin_val c) (bin_bare b)); auto; apply bin_tight; auto using wf_mirror.
Qed.
Lemma dbin_alike {F} w s t o b c (x y : ditv F) : alike2 w s t o b c -> proper x -> proper y ->
  agree_dec (x' <- flip_dec s x; y' <- flip_dec t y; swap w (bin_decd b) x' y') (z <- bin_decd c x y; flip_dec o z).
Proof.
intros A Px Py. pose proof (proper_wf _ Px) as Wx. pose proof (proper_wf _ Py) as Wy. destruct w; cbn [swap].
- apply (dlaw2 s t o (fun p q => bin_dom b q p) (fun p q => bin_val b q p) (bin_dom c) (bin_val c) (fun x y => bin_decd b y x) (bin_decd c) (fun x y => bin_bare b y x) (bin_bare c)); auto.
  + apply ct_swap, bin_tight; now apply wf_mirror.
  + now apply bin_tight.
  + apply (strongest2_swap (bin_decd b)), bin_strong.
  + apply bin_strong.
  + apply (node2_swap (bin_decd b) (bin_bare b)), bin_node; now apply proper_mird.
  + now apply bin_node.
- apply (dlaw2 s t o (bin_dom b) (bin_val b) (bin_dom c) (bin_val c) (bin_decd b) (bin_decd c) (bin_bare b) (bin_bare c)); auto.
  + apply bin_tight; now apply wf_mirror.
  + now apply bin_tight.
  + apply bin_strong.
  + apply bin_strong.
  + apply bin_node; now apply proper_mird.
  + now apply bin_node.
Qed.
Lemma bin_alike_mixed T {F G} (w : bool) s t o b c (x : itv F) (y : itv G) : comparable T F -> comparable T G -> comparable F G -> alike2 w s t o b c -> wf x -> wf y ->
  agree (x' <- flip s x; y' <- flip t y; if w then bin_bare_mixed T b y' x' else bin_bare_mixed T b x' y') (z <- bin_bare_mixed T c x y; flip o z).
Proof.
intros C1 C2 C3 A Wx Wy. pose proof (comparable_sym _ _ C3) as C4. destruct w.
- apply (law2 s t o (fun p q => bin_dom b q p) (fun p q => bin_val b q p) (bin_dom c) (bin_val c) (fun x y => bin_bare_mixed T b y x)); auto.
  + apply ct_swap, bin_tight_mixed; auto using wf_mirror.
  + apply bin_tight_mixed; auto.
- apply (law2 s t o (bin_dom b) (bin_val b) (bin_dom c) (bin_val c) (bin_bare_mixed T b)); auto; apply bin_tight_mixed; auto using wf_mirror.
Qed.
Lemma dbin_alike_mixed T {F G} (w : bool) s t o b c (x : ditv F) (y : ditv G) : comparable T F -> comparable T G -> comparable F G -> alike2 w s t o b c -> proper x -> proper y ->
  agree_dec (x' <- flip_dec s x; y' <- flip_dec t y; if w then bin_decd_mixed T b y' x' else bin_decd_mixed T b x' y') (z <- bin_decd_mixed T c x y; flip_dec o z).
Proof.
intros C1 C2 C3 A Px Py. pose proof (comparable_sym _ _ C3) as C4. pose proof (proper_wf _ Px) as Wx. pose proof (proper_wf _ Py) as Wy. destruct w.
- apply (dlaw2 s t o (fun p q => bin_dom b q p) (fun p q => bin_val b q p) (bin_dom c) (bin_val c) (fun x y => bin_decd_mixed T b y x) (bin_decd_mixed T c) (fun x y => bin_bare_mixed T b y x) (bin_bare_mixed T c)); auto.
  + apply ct_swap, bin_tight_mixed; auto using wf_mirror.
  + apply bin_tight_mixed; auto.
  + apply (strongest2_swap (bin_decd_mixed T b)), bin_strong_mixed; auto.
  + apply bin_strong_mixed; auto.
  + apply (node2_swap (bin_decd_mixed T b) (bin_bare_mixed T b)), bin_node_mixed; auto using proper_mird.
  + apply bin_node_mixed; auto.
- apply (dlaw2 s t o (bin_dom b) (bin_val b) (bin_dom c) (bin_val c) (bin_decd_mixed T b) (bin_decd_mixed T c) (bin_bare_mixed T b) (bin_bare_mixed T c)); auto.
  + apply bin_tight_mixed; auto using wf_mirror.
  + apply bin_tight_mixed; auto.
  + apply bin_strong_mixed; auto.
  + apply bin_strong_mixed; auto.
  + apply bin_node_mixed; auto using proper_mird.
  + apply bin_node_mixed; auto.
Qed.
