(** * Proofs: rounding outward in two steps is rounding in one step *)
From Coq Require Import ZArith NArith Reals Bool Lra Lia List.
From Flocq Require Import Core.Core IEEE754.BinarySingleNaN.
From Verif Require Import Fmt Spec FloatFacts Exc Deco SpecApi SpecDeco SpecIso SpecElem SpecMixed SpecExpr SpecRev SpecAlg SpecPoint SpecStrong SpecOver MBase PBase PConv MBool MArith MDec MMixed MRev MExpr PSetop PMixed PClass PIso PExpr PDec PPoint PStrong4 POver POver3.
From Verif Require PSplit C24 C25 C28.
Local Open Scope R_scope.
Local Open Scope m_scope.

(** ** Bare *)
Lemma convert_type_wf T {V} (z : itv V) : wf z -> convert_type T z = ret (convert_hull T z).
Proof. intros W. unfold convert_type. rewrite is_valid_wf by easy. now mreds. Qed.
Lemma twice {T V} (m : M (itv V)) (n : M (itv T)) S : within T V -> computes_tightest m S -> computes_tightest n S -> agree (z <- m; convert_type T z) n.
Proof.
intros H (z & Z & Tz) (w & K & Tw). apply returns_eq in Z. rewrite Z. mreds. rewrite (convert_type_wf T z (proj1 Tz)).
exists (convert_hull T z), w. split; [now intros q|]. split; [exact K|]. exact (tight_same _ _ _ _ (tightest_narrow T S z H Tz) Tw (fun r => iff_refl _)).
Qed.
(** A wider result type gives a smaller result. *)
Lemma finer {T V} (m : M (itv V)) (n : M (itv T)) S : within T V -> computes_tightest m S -> computes_tightest n S ->
  exists z w, returns m z /\ returns n w /\ forall r, mem r z -> mem r w.
Proof.
intros H (z & Z & Tz) (w & K & Tw). exists z, w. split; [exact Z|]. split; [exact K|]. intros r Hr.
apply (convert_hull_exact V w H (proj1 Tw)). apply (proj2 (proj2 Tz)); [apply wf_convert_hull, Tw| |exact Hr].
intros t Ht. apply (convert_hull_exact V w H (proj1 Tw)). now apply (proj1 (proj2 Tw)).
Qed.

(** ** Decorated *)
Lemma deco_com d : is_deco d -> (com <= d)%N -> d = com.
Proof. unfold is_deco, com, dac, def, trv, ill. simpl. intros D L. intuition (subst; easy). Qed.
Lemma deco_below d : is_deco d -> ~ (com <= d)%N -> (d <= dac)%N.
Proof. unfold is_deco, com, dac, def, trv, ill. simpl. intros D L. destruct D as [<-|[<-|[<-|[<-|[<-|[]]]]]]; try easy. exfalso. now apply L. Qed.
Section Dec.
Context {T V : fmt} {P : Type} (near : R -> P -> P -> Prop) (box dom : P -> Prop) (bb : Prop) (f : P -> R) (S : R -> Prop).
Variables (z : ditv V) (w : ditv T).
Hypotheses (H : within T V) (Pz : proper z) (Pw : proper w) (Tz : tightest S (fst z)) (Tw : tightest S (fst w)).
Hypotheses (Hz : honest near box dom bb f (fst z) (snd z)) (Hw : honest near box dom bb f (fst w) (snd w)).
Hypothesis Sz : is_deco (snd w) -> honest near box dom bb f (fst z) (snd w) -> (snd w <= snd z)%N.
Hypothesis Sw : forall d, is_deco d -> (d <= snd z)%N -> honest near box dom bb f (fst w) d -> (d <= snd w)%N.
Lemma dcore : exists c, returns (convert_type_dec T z) c /\ same_dec c w /\ (snd w <= snd z)%N.
Proof.
destruct Pz as (Z1 & Z2 & Z3), Pw as (W1 & W2 & W3). pose proof (wf_dec_wf z Z1) as Wz. pose proof (wf_dec_wf w W1) as Ww.
destruct (convert_type_dec_ok T z Z1 Z3) as (c & d & R & Tc & Wc & Dc & Bc). cbn [fst snd] in *.
assert (Vc : wf c) by apply (proj1 Tc).
assert (E : same_numbers c (fst w)).
{ intros r. rewrite (tight_same _ _ _ _ Tc (convert_hull_tightest T (fst z) Wz) (fun r => iff_refl _) r).
  exact (tight_same _ _ _ _ (tightest_narrow T S (fst z) H Tz) Tw (fun r => iff_refl _) r). }
assert (B1 : bounded_rep c -> bounded_rep (fst w)) by (apply bounded_same; trivial).
assert (B2 : bounded_rep (fst w) -> bounded_rep c) by (apply bounded_same; trivial; intros r; symmetry; apply E).
assert (Bz : (com <= snd w)%N -> bounded_rep (fst z)).
{ intros K. destruct Hw as (_ & _ & (_ & Q & _)); [exact K|]. pose proof Wz as [X|X]; [exfalso|apply (bounded_under _ c); [exact Wz|exact X|apply Tc|now apply B2]].
  apply B2 in Q. destruct (PSplit.bounded_some c Vc Q) as [r Hr].
  assert (mem r (@empty_rep T)) as [[] _]. apply (proj2 (proj2 Tc)); [now left| |exact Hr]. intros t Ht. cbv beta in Ht. rewrite X in Ht. destruct Ht as [[] _]. }
assert (L : (snd w <= snd z)%N).
{ apply Sz; [exact W2|]. destruct Hw as (A1 & A2 & A3). split; [exact A1|]. split; [exact A2|]. intros K. destruct (A3 K) as (Q1 & _ & Q3). auto. }
exists (c, d). split; [exact R|]. split; [|exact L]. split; [exact E|]. cbn [snd].
assert (D : is_deco d) by (destruct Dc as [-> |[_ ->]]; [exact Z2|cbv; tauto]).
assert (Ld : (d <= snd z)%N) by (destruct Dc as [-> |[-> ->]]; easy).
apply N.le_antisymm.
- apply Sw; trivial. destruct Hz as (A1 & A2 & A3). split; [intros K; apply A1; lia|]. split; [intros K; apply A2; lia|].
  intros K. destruct (A3 ltac:(lia)) as (Q1 & _ & Q3). split; [exact Q1|]. split; [|exact Q3]. apply B1.
  destruct Wc as [[_ [Q|Q]]|(_ & _ & Q)]; cbn [fst snd] in Q; [rewrite Q in K; easy|rewrite Q in K; easy|]. apply Q. now apply deco_com.
- destruct Dc as [-> |[Cz Ed]]; [exact L|]. rewrite Ed. apply deco_below; [exact W2|]. intros K. destruct Hw as (_ & _ & (_ & Q & _)); [exact K|].
  apply Bc; [rewrite Ed, Cz; discriminate|now apply B2].
Qed.
End Dec.

(** ** The functions *)
Lemma dtwice1 {F T V} (dm : R -> Prop) f (opv : itv F -> M (itv V)) (opt : itv F -> M (itv T)) (dv : ditv F -> M (ditv V)) (dt : ditv F -> M (ditv T)) x :
  within T V -> proper x -> computes_tightest (opv (fst x)) (image1 dm f (fst x)) -> computes_tightest (opt (fst x)) (image1 dm f (fst x)) ->
  strongest1 dv dm f -> strongest1 dt dm f -> node1 dv opv dm f x -> node1 dt opt dm f x ->
  agree_dec (z <- dv x; convert_type_dec T z) (dt x) /\ exists z w, returns (dv x) z /\ returns (dt x) w /\ (snd w <= snd z)%N.
Proof.
intros H (P1 & P2 & P3) Tv Tt Sv St (z & Z & Pz & Bz & Lz & _ & Hz) (w & K & Pw & Bw & Lw & _ & Hw).
destruct Tv as (z1 & Z1 & Tz), Tt as (w1 & W1 & Tw). rewrite <- (returns_one _ _ _ Bz Z1) in Tz. rewrite <- (returns_one _ _ _ Bw W1) in Tw.
destruct (dcore near1 _ _ _ _ _ z w H Pz Pw Tz Tw Hz Hw) as (c & R & E & L).
- intros D Q. now apply (Sv x P1 P2 P3 z Z).
- intros d D Ld Q. apply (St x P1 P2 P3 w K d D); [lia|exact Q].
- split; [|now exists z, w]. apply returns_eq in Z. rewrite Z. mreds. now exists c, w.
Qed.
Lemma dtwice2 {F G T V} (dm : R -> R -> Prop) f (opv : itv F -> itv G -> M (itv V)) (opt : itv F -> itv G -> M (itv T)) (dv : ditv F -> ditv G -> M (ditv V)) (dt : ditv F -> ditv G -> M (ditv T)) x y :
  within T V -> proper x -> proper y -> computes_tightest (opv (fst x) (fst y)) (image2 dm f (fst x) (fst y)) -> computes_tightest (opt (fst x) (fst y)) (image2 dm f (fst x) (fst y)) ->
  strongest2 dv dm f -> strongest2 dt dm f -> node2 dv opv dm f x y -> node2 dt opt dm f x y ->
  agree_dec (z <- dv x y; convert_type_dec T z) (dt x y) /\ exists z w, returns (dv x y) z /\ returns (dt x y) w /\ (snd w <= snd z)%N.
Proof.
intros H (P1 & P2 & P3) (Q1 & Q2 & Q3) Tv Tt Sv St (z & Z & Pz & Bz & Lz & Mz & _ & Hz) (w & K & Pw & Bw & Lw & Mw & _ & Hw).
destruct Tv as (z1 & Z1 & Tz), Tt as (w1 & W1 & Tw). rewrite <- (returns_one _ _ _ Bz Z1) in Tz. rewrite <- (returns_one _ _ _ Bw W1) in Tw.
destruct (dcore near2 _ _ _ _ _ z w H Pz Pw Tz Tw Hz Hw) as (c & R & E & L).
- intros D Q. now apply (Sv x y P1 P2 P3 Q1 Q2 Q3 z Z).
- intros d D Ld Q. apply (St x y P1 P2 P3 Q1 Q2 Q3 w K d D); [lia|lia|exact Q].
- split; [|now exists z, w]. apply returns_eq in Z. rewrite Z. mreds. now exists c, w.
Qed.
Lemma dtwice3 {F G H T V} f (opv : itv F -> itv G -> itv H -> M (itv V)) (opt : itv F -> itv G -> itv H -> M (itv T)) (dv : ditv F -> ditv G -> ditv H -> M (ditv V)) (dt : ditv F -> ditv G -> ditv H -> M (ditv T)) x y v :
  within T V -> proper x -> proper y -> proper v -> computes_tightest (opv (fst x) (fst y) (fst v)) (image3 f (fst x) (fst y) (fst v)) -> computes_tightest (opt (fst x) (fst y) (fst v)) (image3 f (fst x) (fst y) (fst v)) ->
  strongest3 dv f -> strongest3 dt f -> node3 dv opv f x y v -> node3 dt opt f x y v ->
  agree_dec (z <- dv x y v; convert_type_dec T z) (dt x y v) /\ exists z w, returns (dv x y v) z /\ returns (dt x y v) w /\ (snd w <= snd z)%N.
Proof.
intros HW (P1 & P2 & P3) (Q1 & Q2 & Q3) (R1 & R2 & R3) Tv Tt Sv St (z & Z & Pz & Bz & Lz & Mz & Nz & _ & Hz) (w & K & Pw & Bw & Lw & Mw & Nw & _ & Hw).
destruct Tv as (z1 & Z1 & Tz), Tt as (w1 & W1 & Tw). rewrite <- (returns_one _ _ _ Bz Z1) in Tz. rewrite <- (returns_one _ _ _ Bw W1) in Tw.
destruct (dcore near3 _ _ _ _ _ z w HW Pz Pw Tz Tw Hz Hw) as (c & R & E & L).
- intros D Q. now apply (Sv x y v P1 P2 P3 Q1 Q2 Q3 R1 R2 R3 z Z).
- intros d D Ld Q. apply (St x y v P1 P2 P3 Q1 Q2 Q3 R1 R2 R3 w K d D); [lia|lia|lia|exact Q].
- split; [|now exists z, w]. apply returns_eq in Z. rewrite Z. mreds. now exists c, w.
Qed.

Section Inst.
Context (T V : fmt) (H : within T V).
Lemma un_twice {F} u (x : itv F) : comparable T F -> comparable V F -> wf x -> tan_good (pmax T F) u x -> tan_good (pmax V F) u x ->
  agree (z <- un_bare_mixed V u x; convert_type T z) (un_bare_mixed T u x).
Proof. intros C1 C2 W G1 G2. now apply (twice _ _ (image1 (un_dom u) (un_val u) x) H); apply un_tight1_mixed. Qed.
Lemma bin_twice {F G} b (x : itv F) (y : itv G) : comparable T F -> comparable T G -> comparable V F -> comparable V G -> comparable F G -> wf x -> wf y ->
  agree (z <- bin_bare_mixed V b x y; convert_type T z) (bin_bare_mixed T b x y).
Proof. intros. now apply (twice _ _ (image2 (bin_dom b) (bin_val b) x y) H); apply bin_tight_mixed. Qed.
Lemma fma_twice {F G K} (x : itv F) (y : itv G) (v : itv K) : comp3 T F G K -> comp3 V F G K -> wf x -> wf y -> wf v ->
  agree (z <- fma_mixed V x y v; convert_type T z) (fma_mixed T x y v).
Proof. intros. now apply (twice _ _ (image3 fmaR x y v) H); apply fma_m. Qed.
Lemma dun_twice {F} u (x : ditv F) : comparable T F -> comparable V F -> proper x -> tan_good (pmax T F) u (fst x) -> tan_good (pmax V F) u (fst x) ->
  agree_dec (z <- un_decd_mixed V u x; convert_type_dec T z) (un_decd_mixed T u x) /\
  exists z w, returns (un_decd_mixed V u x) z /\ returns (un_decd_mixed T u x) w /\ (snd w <= snd z)%N.
Proof.
intros C1 C2 P G1 G2. pose proof (proper_wf x P) as W. apply (dtwice1 (un_dom u) (un_val u) (un_bare_mixed V u) (un_bare_mixed T u)); auto.
- now apply un_tight1_mixed.
- now apply un_tight1_mixed.
- apply un_strong_mixed; [exact C2|]. intros E. apply (G2 E).
- apply un_strong_mixed; [exact C1|]. intros E. apply (G1 E).
- apply un_node_mixed; [exact C2|exact P|]. intros E. apply (G2 E).
- apply un_node_mixed; [exact C1|exact P|]. intros E. apply (G1 E).
Qed.
Lemma dbin_twice {F G} b (x : ditv F) (y : ditv G) : comparable T F -> comparable T G -> comparable V F -> comparable V G -> comparable F G -> proper x -> proper y ->
  agree_dec (z <- bin_decd_mixed V b x y; convert_type_dec T z) (bin_decd_mixed T b x y) /\
  exists z w, returns (bin_decd_mixed V b x y) z /\ returns (bin_decd_mixed T b x y) w /\ (snd w <= snd z)%N.
Proof.
intros C1 C2 C3 C4 C5 P Q. pose proof (proper_wf x P) as Wx. pose proof (proper_wf y Q) as Wy.
apply (dtwice2 (bin_dom b) (bin_val b) (bin_bare_mixed V b) (bin_bare_mixed T b)); auto using bin_tight_mixed, bin_strong_mixed, bin_node_mixed.
Qed.
Lemma dfma_twice {F G K} (x : ditv F) (y : ditv G) (v : ditv K) : comp3 T F G K -> comp3 V F G K -> proper x -> proper y -> proper v ->
  agree_dec (z <- fma_dec_mixed V x y v; convert_type_dec T z) (fma_dec_mixed T x y v) /\
  exists z w, returns (fma_dec_mixed V x y v) z /\ returns (fma_dec_mixed T x y v) w /\ (snd w <= snd z)%N.
Proof.
intros C D P Q R. pose proof (proper_wf x P) as Wx. pose proof (proper_wf y Q) as Wy. pose proof (proper_wf v R) as Wv.
apply (dtwice3 fmaR (fma_mixed V) (fma_mixed T)); auto using fma_node_mixed.
- now apply fma_m.
- now apply fma_m.
- destruct D as (A1 & A2 & A3 & A4 & A5 & A6). now apply fma_strong_mixed.
- destruct C as (A1 & A2 & A3 & A4 & A5 & A6). now apply fma_strong_mixed.
Qed.
Lemma un_finer {F} u (x : itv F) : comparable T F -> comparable V F -> wf x -> tan_good (pmax T F) u x -> tan_good (pmax V F) u x ->
  exists z w, returns (un_bare_mixed V u x) z /\ returns (un_bare_mixed T u x) w /\ forall r, mem r z -> mem r w.
Proof. intros C1 C2 W G1 G2. now apply (finer _ _ (image1 (un_dom u) (un_val u) x) H); apply un_tight1_mixed. Qed.
Lemma bin_finer {F G} b (x : itv F) (y : itv G) : comparable T F -> comparable T G -> comparable V F -> comparable V G -> comparable F G -> wf x -> wf y ->
  exists z w, returns (bin_bare_mixed V b x y) z /\ returns (bin_bare_mixed T b x y) w /\ forall r, mem r z -> mem r w.
Proof. intros. now apply (finer _ _ (image2 (bin_dom b) (bin_val b) x y) H); apply bin_tight_mixed. Qed.
Lemma fma_finer {F G K} (x : itv F) (y : itv G) (v : itv K) : comp3 T F G K -> comp3 V F G K -> wf x -> wf y -> wf v ->
  exists z w, returns (fma_mixed V x y v) z /\ returns (fma_mixed T x y v) w /\ forall r, mem r z -> mem r w.
Proof. intros. now apply (finer _ _ (image3 fmaR x y v) H); apply fma_m. Qed.
(** Reverse functions, set operations, conversions. *)
Lemma rev_twice {F G} (c : itv F) (x : itv G) : comparable T F -> comparable T G -> comparable V F -> comparable V G -> comparable F G -> wf c -> wf x ->
  agree (z <- sqr_rev_mixed V c x; convert_type T z) (sqr_rev_mixed T c x) /\
  agree (z <- abs_rev_mixed V c x; convert_type T z) (abs_rev_mixed T c x) /\
  agree (z <- cosh_rev_mixed V c x; convert_type T z) (cosh_rev_mixed T c x).
Proof.
intros. split; [|split].
- eapply twice; [exact H|now apply C25.C25_sqr_rev_mixed|now apply C25.C25_sqr_rev_mixed].
- eapply twice; [exact H|now apply C25.C25_abs_rev_mixed|now apply C25.C25_abs_rev_mixed].
- eapply twice; [exact H|now apply C25.C25_cosh_rev_mixed|now apply C25.C25_cosh_rev_mixed].
Qed.
Lemma mul_rev_twice {F G K} (b : itv F) (c : itv G) (x : itv K) : comp3 T F G K -> comp3 V F G K -> wf b -> wf c -> wf x ->
  agree (z <- mul_rev_mixed V b c x; convert_type T z) (mul_rev_mixed T b c x).
Proof.
intros (A1 & A2 & A3 & A4 & A5 & A6) (B1 & B2 & B3 & B4 & B5 & B6) Wb Wc Wx.
eapply twice; [exact H|now apply C24.C24_mul_rev_mixed_exact|now apply C24.C24_mul_rev_mixed_exact].
Qed.
Lemma set_twice {F G} (x : itv F) (y : itv G) : comparable T F -> comparable T G -> comparable V F -> comparable V G -> comparable F G -> wf x -> wf y ->
  agree (z <- intersection_mixed V x y; convert_type T z) (intersection_mixed T x y) /\
  agree (z <- convex_hull_mixed V x y; convert_type T z) (convex_hull_mixed T x y).
Proof.
intros. split.
- eapply twice; [exact H|now apply intersection_mixed_tightest|now apply intersection_mixed_tightest].
- eapply twice; [exact H|now apply hull_mixed_tightest|now apply hull_mixed_tightest].
Qed.
Lemma convert_twice {F} (x : itv F) : wf x -> agree (z <- convert_type V x; convert_type T z) (convert_type T x).
Proof. intros W. eapply twice; [exact H|now apply convert_type_tightest|now apply convert_type_tightest]. Qed.
End Inst.
(** The versions for one type, then converted. *)
Section One.
Context (T F : fmt) (H : within T F) (C : comparable T F).
Lemma un_twice1 u (x : itv F) : wf x -> tan_good (pmax T F) u x -> tan_good F u x -> agree (z <- un_bare u x; convert_type T z) (un_bare_mixed T u x).
Proof. intros W G1 G2. apply (twice _ _ (image1 (un_dom u) (un_val u) x) H); [now apply un_tight1|now apply un_tight1_mixed]. Qed.
Lemma bin_twice1 b (x y : itv F) : wf x -> wf y -> agree (z <- bin_bare b x y; convert_type T z) (bin_bare_mixed T b x y).
Proof. intros. assert (comparable F F) by now left. apply (twice _ _ (image2 (bin_dom b) (bin_val b) x y) H); [now apply bin_tight|now apply bin_tight_mixed]. Qed.
Lemma dun_twice1 u (x : ditv F) : proper x -> tan_good (pmax T F) u (fst x) -> tan_good F u (fst x) ->
  agree_dec (z <- un_decd u x; convert_type_dec T z) (un_decd_mixed T u x).
Proof.
intros P G1 G2. pose proof (proper_wf x P) as W. apply (dtwice1 (un_dom u) (un_val u) (un_bare u) (un_bare_mixed T u)); auto.
- now apply un_tight1.
- now apply un_tight1_mixed.
- apply un_strong. intros E. apply (G2 E).
- apply un_strong_mixed; [exact C|]. intros E. apply (G1 E).
- apply un_node; [exact P|]. intros E. apply (G2 E).
- apply un_node_mixed; [exact C|exact P|]. intros E. apply (G1 E).
Qed.
Lemma dbin_twice1 b (x y : ditv F) : proper x -> proper y -> agree_dec (z <- bin_decd b x y; convert_type_dec T z) (bin_decd_mixed T b x y).
Proof.
intros P Q. assert (comparable F F) by now left. pose proof (proper_wf x P) as Wx. pose proof (proper_wf y Q) as Wy.
apply (dtwice2 (bin_dom b) (bin_val b) (bin_bare b) (bin_bare_mixed T b)); auto using bin_tight, bin_strong, bin_node, bin_tight_mixed, bin_strong_mixed, bin_node_mixed.
Qed.
End One.
