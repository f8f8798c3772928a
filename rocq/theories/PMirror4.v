(** * Proofs: relations, set operations and numeric functions of negated operands *)
From Coq Require Import ZArith NArith Reals Bool Lra Lia List.
From Flocq Require Import Core.Core IEEE754.BinarySingleNaN.
From Verif Require Import Fmt Spec FloatFacts Exc Deco SpecApi SpecRel SpecOverlap SpecNum SpecIso SpecMixed SpecAlg SpecOver SpecMirror SpecMirror2 SpecAgree MBase PBase PConv MBool MOverlap MNum MArith MMixed PArith PUnary PBool PSetop PNum PNumF POverlap MDec PDec PMixed PAlg PCancel PIso POver PAgree PAgree3 PMirror.
Local Open Scope R_scope.
Local Open Scope m_scope.

Lemma neg_eq {F} (x : itv F) : wf x -> neg x = ret (mirror true x).
Proof. exact (flip_eq true x). Qed.
Lemma mem_neg {F} (x : itv F) r : mem r (mirror true x) <-> mem (- r) x.
Proof. exact (mem_mirror true x r). Qed.

(** [x'] is [x] reflected. *)
Definition refl {F} (x' x : itv F) : Prop := forall r, mem r x' <-> mem (- r) x.
Lemma refl_sym {F} (x' x : itv F) : refl x' x -> refl x x'.
Proof. intros H r. rewrite (H (- r)), Ropp_involutive. reflexivity. Qed.
Lemma refl_at {F} (x' x : itv F) r : refl x' x -> mem r x -> mem (- r) x'.
Proof. intros H K. apply H. now rewrite Ropp_involutive. Qed.

Section Sets.
Context {F G : fmt}.
Lemma equal_r (x x' : itv F) (y y' : itv G) : refl x' x -> refl y' y -> s_equal x y -> s_equal x' y'.
Proof. intros Hx Hy E r. rewrite (Hx r), (Hy r). apply E. Qed.
Lemma subset_r (x x' : itv F) (y y' : itv G) : refl x' x -> refl y' y -> s_subset x y -> s_subset x' y'.
Proof. intros Hx Hy E r. rewrite (Hx r), (Hy r). apply E. Qed.
Lemma disjoint_r (x x' : itv F) (y y' : itv G) : refl x' x -> refl y' y -> s_disjoint x y -> s_disjoint x' y'.
Proof. intros Hx Hy E r. rewrite (Hx r), (Hy r). apply E. Qed.
Lemma interior_r (x x' : itv F) (y y' : itv G) : refl x' x -> refl y' y -> s_interior x y -> s_interior x' y'.
Proof.
intros Hx Hy E a Ha. apply Hx in Ha. destruct (E _ Ha) as (e & E0 & E1). exists e. split; [exact E0|]. intros t Ht. apply Hy, E1.
replace (- t - - a) with (- (t - a)) by ring. now rewrite Rabs_Ropp.
Qed.
Lemma precedes_r (x x' : itv F) (y y' : itv G) : refl x' x -> refl y' y -> s_precedes x y -> s_precedes y' x'.
Proof. intros Hx Hy E a b Ha Hb. apply Hy in Ha. apply Hx in Hb. specialize (E _ _ Hb Ha). lra. Qed.
Lemma sprecedes_r (x x' : itv F) (y y' : itv G) : refl x' x -> refl y' y -> s_strictly_precedes x y -> s_strictly_precedes y' x'.
Proof. intros Hx Hy E a b Ha Hb. apply Hy in Ha. apply Hx in Hb. specialize (E _ _ Hb Ha). lra. Qed.
Lemma less_r (x x' : itv F) (y y' : itv G) : refl x' x -> refl y' y -> s_less x y -> s_less y' x'.
Proof.
intros Hx Hy [E1 E2]. split.
- intros a Ha. apply Hy in Ha. destruct (E2 _ Ha) as (b & Hb & L). exists (- b). split; [now apply (refl_at x' x)|lra].
- intros b Hb. apply Hx in Hb. destruct (E1 _ Hb) as (a & Ha & L). exists (- a). split; [now apply (refl_at y' y)|lra].
Qed.
Lemma sless_r (x x' : itv F) (y y' : itv G) : refl x' x -> refl y' y -> s_strictly_less x y -> s_strictly_less y' x'.
Proof.
intros Hx Hy [E1 E2]. split.
- intros a Ha. apply Hy in Ha. destruct (E2 _ Ha) as (b & Hb & L). exists (- b). split; [now apply (refl_at x' x)|lra].
- intros b Hb. apply Hx in Hb. destruct (E1 _ Hb) as (a & Ha & L). exists (- a). split; [now apply (refl_at y' y)|lra].
Qed.
Lemma some_r (x x' : itv F) : refl x' x -> s_nonempty x -> s_nonempty x'.
Proof. intros Hx [r Hr]. exists (- r). now apply (refl_at x' x). Qed.
Lemma none_r (x x' : itv F) : refl x' x -> ~ s_nonempty x -> ~ s_nonempty x'.
Proof. intros Hx N [r Hr]. apply N. exists (- r). now apply Hx. Qed.
End Sets.
Section Parts.
Context {F G : fmt} (x x' : itv F) (y y' : itv G) (Hx : refl x' x) (Hy : refl y' y).
Lemma sb_r : starts_before x y -> ends_after x' y'.
Proof. intros (a & Ha & L). exists (- a). split; [now apply (refl_at x' x)|]. intros b Hb. apply Hy in Hb. specialize (L _ Hb). lra. Qed.
Lemma ea_r : ends_after x y -> starts_before x' y'.
Proof. intros (a & Ha & L). exists (- a). split; [now apply (refl_at x' x)|]. intros b Hb. apply Hy in Hb. specialize (L _ Hb). lra. Qed.
Lemma sa_r : starts_after x y -> ends_before x' y'.
Proof. intros (a & Ha & L). exists (- a). split; [now apply (refl_at y' y)|]. intros b Hb. apply Hx in Hb. specialize (L _ Hb). lra. Qed.
Lemma eb_r : ends_before x y -> starts_after x' y'.
Proof. intros (a & Ha & L). exists (- a). split; [now apply (refl_at y' y)|]. intros b Hb. apply Hx in Hb. specialize (L _ Hb). lra. Qed.
Lemma st_r : start_together x y -> end_together x' y'.
Proof.
intros [E1 E2]. split.
- intros a Ha. apply Hx in Ha. destruct (E1 _ Ha) as (b & Hb & L). exists (- b). split; [now apply (refl_at y' y)|lra].
- intros b Hb. apply Hy in Hb. destruct (E2 _ Hb) as (a & Ha & L). exists (- a). split; [now apply (refl_at x' x)|lra].
Qed.
Lemma et_r : end_together x y -> start_together x' y'.
Proof.
intros [E1 E2]. split.
- intros a Ha. apply Hx in Ha. destruct (E1 _ Ha) as (b & Hb & L). exists (- b). split; [now apply (refl_at y' y)|lra].
- intros b Hb. apply Hy in Hb. destruct (E2 _ Hb) as (a & Ha & L). exists (- a). split; [now apply (refl_at x' x)|lra].
Qed.
Lemma touch_r : touch x y -> touch x' y'.
Proof. intros (r & A & B). exists (- r). split; [now apply (refl_at x' x)|now apply (refl_at y' y)]. Qed.
Lemma so_r : strictly_ordered_pair x y -> strictly_ordered_pair' x' y'.
Proof. intros (a & c & A & B & L). exists (- a), (- c). split; [now apply (refl_at x' x)|]. split; [now apply (refl_at y' y)|lra]. Qed.
Lemma so'_r : strictly_ordered_pair' x y -> strictly_ordered_pair x' y'.
Proof. intros (a & c & A & B & L). exists (- a), (- c). split; [now apply (refl_at x' x)|]. split; [now apply (refl_at y' y)|lra]. Qed.
Lemma overlap_r o : overlap_spec x y o -> overlap_spec x' y' (reflected o).
Proof.
destruct o; cbn [overlap_spec reflected].
all: intros K; try exact K; decompose [and] K; clear K;
  repeat split; first [now apply (some_r x)|now apply (some_r y)|now apply (none_r x)|now apply (none_r y)
  |now apply (sprecedes_r x x' y y')|now apply (sprecedes_r y y' x x')|now apply (precedes_r x x' y y')|now apply (precedes_r y y' x x')|now apply (equal_r x x' y y')
  |now apply sb_r|now apply ea_r|now apply sa_r|now apply eb_r|now apply st_r|now apply et_r|now apply touch_r|now apply so_r|now apply so'_r|idtac].
Qed.
End Parts.

(** ** Relations *)
Section Rel.
Context {F G : fmt} (C : comparable F G) (x : itv F) (y : itv G) (Wx : wf x) (Wy : wf y).
Let C' := comparable_sym _ _ C.
Let Vx := wf_mirror true x Wx.
Let Vy := wf_mirror true y Wy.
Let Hx : refl (mirror true x) x := mem_neg x.
Let Hy : refl (mirror true y) y := mem_neg y.
Let Hx' := refl_sym _ _ Hx.
Let Hy' := refl_sym _ _ Hy.
Lemma neg_equal : same_answer (a <- neg x; b <- neg y; equal_mixed a b) (equal_mixed x y).
Proof. rewrite !neg_eq by easy. mreds. apply (same_dec _ _ _ _ (equal_mixed_decides C _ _ Vx Vy) (equal_mixed_decides C x y Wx Wy)). split; apply equal_r; assumption. Qed.
Lemma neg_subset : same_answer (a <- neg x; b <- neg y; subset_mixed a b) (subset_mixed x y).
Proof. rewrite !neg_eq by easy. mreds. apply (same_dec _ _ _ _ (subset_mixed_decides C _ _ Vx Vy) (subset_mixed_decides C x y Wx Wy)). split; apply subset_r; assumption. Qed.
Lemma neg_interior : same_answer (a <- neg x; b <- neg y; interior_mixed a b) (interior_mixed x y).
Proof. rewrite !neg_eq by easy. mreds. apply (same_dec _ _ _ _ (interior_mixed_decides C _ _ Vx Vy) (interior_mixed_decides C x y Wx Wy)). split; apply interior_r; assumption. Qed.
Lemma neg_disjoint : same_answer (a <- neg x; b <- neg y; disjoint_mixed a b) (disjoint_mixed x y).
Proof. rewrite !neg_eq by easy. mreds. apply (same_dec _ _ _ _ (disjoint_mixed_decides C _ _ Vx Vy) (disjoint_mixed_decides C x y Wx Wy)). split; apply disjoint_r; assumption. Qed.
Lemma neg_less : same_answer (a <- neg x; b <- neg y; less_mixed b a) (less_mixed x y).
Proof. rewrite !neg_eq by easy. mreds. apply (same_dec _ _ _ _ (less_mixed_decides C' _ _ Vy Vx) (less_mixed_decides C x y Wx Wy)). split; apply less_r; assumption. Qed.
Lemma neg_sless : same_answer (a <- neg x; b <- neg y; strictly_less_mixed b a) (strictly_less_mixed x y).
Proof. rewrite !neg_eq by easy. mreds. apply (same_dec _ _ _ _ (strictly_less_mixed_decides C' _ _ Vy Vx) (strictly_less_mixed_decides C x y Wx Wy)). split; apply sless_r; assumption. Qed.
Lemma neg_precedes : same_answer (a <- neg x; b <- neg y; precedes_mixed b a) (precedes_mixed x y).
Proof. rewrite !neg_eq by easy. mreds. apply (same_dec _ _ _ _ (precedes_mixed_decides C' _ _ Vy Vx) (precedes_mixed_decides C x y Wx Wy)). split; apply precedes_r; assumption. Qed.
Lemma neg_sprecedes : same_answer (a <- neg x; b <- neg y; strictly_precedes_mixed b a) (strictly_precedes_mixed x y).
Proof. rewrite !neg_eq by easy. mreds. apply (same_dec _ _ _ _ (strictly_precedes_mixed_decides C' _ _ Vy Vx) (strictly_precedes_mixed_decides C x y Wx Wy)). split; apply sprecedes_r; assumption. Qed.
Lemma neg_overlap : exists o, returns (overlap x y) o /\ returns (a <- neg x; b <- neg y; overlap a b) (reflected o).
Proof.
destruct (overlap_correct C x y Wx Wy) as (o & E & K). destruct (overlap_correct C _ _ Vx Vy) as (o' & E' & K'). exists o. split; [exact E|].
rewrite !neg_eq by easy. mreds. replace (reflected o) with o'; [exact E'|]. apply K'. apply (overlap_r x _ y _ Hx Hy). now apply K.
Qed.
End Rel.

(** ** Decorated *)
Lemma dneg_eq {F} (x : ditv F) : wf_dec x -> neg_dec x = ret (mird true x).
Proof.
intros W. destruct (N.eq_dec (snd x) ill) as [E|E].
- unfold neg_dec. rewrite is_valid_dec_wf, is_nai_wf, E by easy. mreds. destruct W as [[W _]|[_ [W _]]]; [|easy]. destruct x as [x d]. cbn in E, W. subst. reflexivity.
- unfold neg_dec. rewrite is_valid_dec_wf, is_nai_wf by easy. destruct (deq_spec (snd x) ill) as [C|_]; [easy|]. mreds. rewrite (neg_eq _ (wf_dec_wf x W)). mreds. reflexivity.
Qed.
Lemma wf_mird {F} (x : ditv F) : wf_dec x -> wf_dec (mird true x).
Proof.
intros [[E1 E2]|[[r Hr] [N H]]].
- left. split; [|exact E2]. cbn. now rewrite E1.
- right. cbn [mird fst snd]. split; [exists (- r); apply (mem_mirror true); cbn; now rewrite Ropp_involutive|]. split; [easy|]. intros E. apply (bounded_mirror true). now apply H.
Qed.
Lemma rel_dec_eq {F G} (rel : itv F -> itv G -> M bool) x y : wf_dec x -> wf_dec y ->
  rel_dec rel x y = if deq (snd x) ill || deq (snd y) ill then ret false else rel (fst x) (fst y).
Proof.
intros Wx Wy. unfold rel_dec. rewrite !is_valid_dec_wf, !is_nai_wf by easy. mreds. destruct (deq (snd x) ill); mreds; [reflexivity|]. destruct (deq (snd y) ill); mreds; reflexivity.
Qed.
Lemma drel {F G} (r : itv F -> itv G -> M bool) x y : wf_dec x -> wf_dec y -> same_answer (a <- neg (fst x); b <- neg (fst y); r a b) (r (fst x) (fst y)) ->
  same_answer (a <- neg_dec x; b <- neg_dec y; rel_dec r a b) (rel_dec r x y).
Proof.
intros Wx Wy H. rewrite !dneg_eq by easy. mreds. rewrite (rel_dec_eq r _ _ (wf_mird x Wx) (wf_mird y Wy)), (rel_dec_eq r x y Wx Wy). cbn [mird fst snd].
rewrite !neg_eq in H by now apply wf_dec_wf. revert H. mreds. intros H. destruct (_ || _); [exists false; split; now intros q|exact H].
Qed.
Lemma drel' {F G} (r : itv F -> itv G -> M bool) (r' : itv G -> itv F -> M bool) x y : wf_dec x -> wf_dec y ->
  same_answer (a <- neg (fst x); b <- neg (fst y); r' b a) (r (fst x) (fst y)) -> same_answer (a <- neg_dec x; b <- neg_dec y; rel_dec r' b a) (rel_dec r x y).
Proof.
intros Wx Wy H. rewrite !dneg_eq by easy. mreds. rewrite (rel_dec_eq r' _ _ (wf_mird y Wy) (wf_mird x Wx)), (rel_dec_eq r x y Wx Wy). cbn [mird fst snd].
rewrite !neg_eq in H by now apply wf_dec_wf. revert H. mreds. intros H. rewrite orb_comm. destruct (_ || _); [exists false; split; now intros q|exact H].
Qed.
Section DRel.
Context {F G : fmt} (C : comparable F G) (x : ditv F) (y : ditv G) (Wx : wf_dec x) (Wy : wf_dec y).
Let Vx := wf_dec_wf x Wx.
Let Vy := wf_dec_wf y Wy.
Lemma dneg_equal : same_answer (a <- neg_dec x; b <- neg_dec y; rel_dec equal_mixed a b) (rel_dec equal_mixed x y).
Proof. apply drel; trivial. now apply neg_equal. Qed.
Lemma dneg_subset : same_answer (a <- neg_dec x; b <- neg_dec y; rel_dec subset_mixed a b) (rel_dec subset_mixed x y).
Proof. apply drel; trivial. now apply neg_subset. Qed.
Lemma dneg_interior : same_answer (a <- neg_dec x; b <- neg_dec y; rel_dec interior_mixed a b) (rel_dec interior_mixed x y).
Proof. apply drel; trivial. now apply neg_interior. Qed.
Lemma dneg_disjoint : same_answer (a <- neg_dec x; b <- neg_dec y; rel_dec disjoint_mixed a b) (rel_dec disjoint_mixed x y).
Proof. apply drel; trivial. now apply neg_disjoint. Qed.
Lemma dneg_less : same_answer (a <- neg_dec x; b <- neg_dec y; rel_dec less_mixed b a) (rel_dec less_mixed x y).
Proof. apply drel'; trivial. now apply neg_less. Qed.
Lemma dneg_sless : same_answer (a <- neg_dec x; b <- neg_dec y; rel_dec strictly_less_mixed b a) (rel_dec strictly_less_mixed x y).
Proof. apply drel'; trivial. now apply neg_sless. Qed.
Lemma dneg_precedes : same_answer (a <- neg_dec x; b <- neg_dec y; rel_dec precedes_mixed b a) (rel_dec precedes_mixed x y).
Proof. apply drel'; trivial. now apply neg_precedes. Qed.
Lemma dneg_sprecedes : same_answer (a <- neg_dec x; b <- neg_dec y; rel_dec strictly_precedes_mixed b a) (rel_dec strictly_precedes_mixed x y).
Proof. apply drel'; trivial. now apply neg_sprecedes. Qed.
Lemma dneg_overlap : exists o, returns (overlap_dec x y) o /\ returns (a <- neg_dec x; b <- neg_dec y; overlap_dec a b) (reflected o).
Proof.
rewrite !dneg_eq by easy. mreds. unfold overlap_dec. pose proof (wf_mird x Wx) as Mx. pose proof (wf_mird y Wy) as My. rewrite !is_valid_dec_wf, !is_nai_wf by easy. cbn [mird fst snd]. mreds.
destruct (neg_overlap C (fst x) (fst y) Vx Vy) as (o & E & E'). rewrite !neg_eq in E' by easy. revert E'. mreds. intros E'.
destruct (deq (snd x) ill); mreds; [now exists o_undefined|]. destruct (deq (snd y) ill); mreds; [now exists o_undefined|]. now exists o.
Qed.
End DRel.

(** ** Set operations *)
Lemma ct_neg {F} (m n : M (itv F)) S S' : computes_tightest m S -> computes_tightest n S' -> (forall r, S r <-> S' (- r)) -> agree m (z <- n; neg z).
Proof.
intros (z & Z & Tz) (w & K & Tw) E. apply returns_eq in K. rewrite K. mreds. rewrite (neg_eq w (proj1 Tw)). exists z, (mirror true w). split; [exact Z|]. split; [now intros q|].
apply (tight_same _ _ _ _ Tz (tightest_mirror true _ _ w Tw E)). reflexivity.
Qed.
Lemma exact_tightest {F} (m : M (itv F)) S : (exists z, m = ret z /\ wf z /\ forall r, mem r z <-> S r) -> computes_tightest m S.
Proof.
intros (z & -> & W & E). exists z. split; [now intros q|]. split; [exact W|]. split; [intros r Hr; now apply E|]. intros w _ K r Hr. apply K. now apply E.
Qed.
Lemma neg_intersection {F} (x y : itv F) : wf x -> wf y -> agree (a <- neg x; b <- neg y; intersection a b) (z <- intersection x y; neg z).
Proof.
intros Wx Wy. rewrite !neg_eq by easy. mreds. refine (ct_neg _ _ _ _ (exact_tightest _ _ (intersection_exact _ _ (wf_mirror true x Wx) (wf_mirror true y Wy))) (exact_tightest _ _ (intersection_exact x y Wx Wy)) _).
intros r. now rewrite !mem_neg.
Qed.
Lemma neg_hull {F} (x y : itv F) : wf x -> wf y -> agree (a <- neg x; b <- neg y; convex_hull a b) (z <- convex_hull x y; neg z).
Proof.
intros Wx Wy. rewrite !neg_eq by easy. mreds. refine (ct_neg _ _ _ _ (hull_tightest _ _ (wf_mirror true x Wx) (wf_mirror true y Wy)) (hull_tightest x y Wx Wy) _).
intros r. cbv beta. now rewrite !mem_neg.
Qed.
Lemma neg_intersection_mixed T {F G} (x : itv F) (y : itv G) : comparable T F -> comparable T G -> comparable F G -> wf x -> wf y ->
  agree (a <- neg x; b <- neg y; intersection_mixed T a b) (z <- intersection_mixed T x y; neg z).
Proof.
intros C1 C2 C3 Wx Wy. rewrite !neg_eq by easy. mreds.
refine (ct_neg _ _ _ _ (intersection_mixed_tightest T F G _ _ C1 C2 C3 (wf_mirror true x Wx) (wf_mirror true y Wy)) (intersection_mixed_tightest T F G x y C1 C2 C3 Wx Wy) _).
intros r. cbv beta. now rewrite !mem_neg.
Qed.
Lemma neg_hull_mixed T {F G} (x : itv F) (y : itv G) : comparable T F -> comparable T G -> comparable F G -> wf x -> wf y ->
  agree (a <- neg x; b <- neg y; convex_hull_mixed T a b) (z <- convex_hull_mixed T x y; neg z).
Proof.
intros C1 C2 C3 Wx Wy. rewrite !neg_eq by easy. mreds.
refine (ct_neg _ _ _ _ (hull_mixed_tightest T F G _ _ C1 C2 C3 (wf_mirror true x Wx) (wf_mirror true y Wy)) (hull_mixed_tightest T F G x y C1 C2 C3 Wx Wy) _).
intros r. cbv beta. now rewrite !mem_neg.
Qed.

(** ** Numeric functions *)
Section Num.
Context {F : fmt} (T : fmt) (x : itv F) (C : comparable F T) (N : s_nonempty x).
Let Wx : wf x := mem_wf x N.
Let N' : s_nonempty (mirror true x) := some_r x (mirror true x) (mem_neg x) N.
Lemma differences_neg t : differences (mirror true x) t <-> differences x t.
Proof.
split; intros (r & s & Hr & Hs & E).
- exists (- s), (- r). rewrite mem_neg in Hr, Hs. split; [exact Hs|]. split; [exact Hr|]. lra.
- exists (- s), (- r). rewrite !mem_neg, !Ropp_involutive. split; [exact Hs|]. split; [exact Hr|]. lra.
Qed.
Lemma magnitudes_neg t : magnitudes (mirror true x) t <-> magnitudes x t.
Proof.
split; intros (r & Hr & E); exists (- r); rewrite Rabs_Ropp; (split; [|exact E]); [now apply mem_neg|apply mem_neg; now rewrite Ropp_involutive].
Qed.
Lemma distances_neg m m' t : m' = - m -> distances m' (mirror true x) t <-> distances m x t.
Proof.
intros ->. split; intros (r & Hr & E); exists (- r).
- split; [now apply mem_neg|]. rewrite E, <- Rabs_Ropp. f_equal. ring.
- split; [apply mem_neg; now rewrite Ropp_involutive|]. rewrite E, <- Rabs_Ropp. f_equal. ring.
Qed.
Lemma neg_wid : compare eq (a <- neg x; n_wid_mixed T a) (n_wid_mixed T x).
Proof.
rewrite neg_eq by easy. mreds. destruct (n_wid_mixed_spec T C x N) as (v & Ev & Gv & Zv). destruct (n_wid_mixed_spec T C _ N') as (w & Ew & Gw & Zw).
exists w, v. split; [easy|]. split; [easy|]. apply (num_eq_same f0); [easy..|]. exact (least_eq _ _ _ _ differences_neg Gw Gv).
Qed.
Lemma neg_mag : compare eq (a <- neg x; n_mag_mixed T a) (n_mag_mixed T x).
Proof.
rewrite neg_eq by easy. mreds. destruct (n_mag_mixed_spec T C x N) as (v & Ev & Gv & Zv). destruct (n_mag_mixed_spec T C _ N') as (w & Ew & Gw & Zw).
exists w, v. split; [easy|]. split; [easy|]. apply (num_eq_same f0); [easy..|]. exact (least_eq _ _ _ _ magnitudes_neg Gw Gv).
Qed.
Lemma neg_mig : compare eq (a <- neg x; n_mig_mixed T a) (n_mig_mixed T x).
Proof.
rewrite neg_eq by easy. mreds. destruct (n_mig_mixed_spec T C x N) as (v & Ev & Gv & Zv). destruct (n_mig_mixed_spec T C _ N') as (w & Ew & Gw & Zw).
exists w, v. split; [easy|]. split; [easy|]. apply (num_eq_same f0); [easy..|]. exact (greatest_eq _ _ _ _ magnitudes_neg Gw Gv).
Qed.
Lemma fin_opposite {G} (v w : float G) : is_finite v = true -> is_finite w = true -> B2R v = - B2R w -> opposite v w.
Proof.
intros Fv Fw E. assert (Fn : is_finite (fneg w) = true) by now apply fneg_fin.
split; (split; [now apply isnan_fin|split; [now apply isnan_fin|]]); intros t; rewrite !ub_fin, B2R_fneg by easy; lra.
Qed.
Lemma neg_mid : compare opposite (a <- neg x; n_mid_mixed T a) (n_mid_mixed T x).
Proof.
rewrite neg_eq by easy. mreds. destruct (n_mid_mixed_ret T x Wx (mem_nnan x N)) as (m & E & _ & _ & B & _ & _ & K1 & K2 & K3).
destruct (n_mid_mixed_ret T _ (mem_wf _ N') (mem_nnan _ N')) as (m' & E' & _ & _ & B' & _ & _ & K1' & K2' & K3').
exists m', m. rewrite E, E'. split; [now intros q|]. split; [now intros q|]. clear E E'.
destruct (wf_view x Wx) as [ | |u Hu|l Hl|l u Hl Hu Hlu]; cbn [mirror fst snd] in *.
- destruct N as [r [[] _]].
- rewrite K1, K1' by easy. now apply fin_opposite; try easy; cbn; lra.
- rewrite K2 by (try easy; intros Q; now rewrite Q in Hu). rewrite K3'; [|intros Q; destruct u as [[]|[]| |[] ? ? ?]; easy|easy].
  assert (Fm : is_finite (@fmaxv T) = true) by reflexivity. apply fin_opposite; [easy|now apply fneg_fin|]. rewrite B2R_fneg. lra.
- rewrite K3 by (try easy; intros Q; now rewrite Q in Hl). rewrite K2'; [|easy|intros Q; destruct l as [[]|[]| |[] ? ? ?]; easy].
  assert (Fm : is_finite (@fmaxv T) = true) by reflexivity. apply fin_opposite; [now apply fneg_fin|easy|]. rewrite B2R_fneg. lra.
- assert (Fl : is_finite (fneg l) = true) by now apply fneg_fin. assert (Fu : is_finite (fneg u) = true) by now apply fneg_fin.
  specialize (B (conj Hl Hu)). specialize (B' (conj Fu Fl)). rewrite !B2R_fneg in B'. set (c := (B2R l + B2R u) / 2) in *.
  replace ((- B2R u + - B2R l) / 2) with (- c) in B' by (unfold c; field).
  destruct B as [[F1 R1]|(O1 & P1 & P2)], B' as [[F1' R1']|(O1' & P1' & P2')].
  + apply fin_opposite; trivial. now rewrite R1, R1', round_NE_opp.
  + exfalso. rewrite round_NE_opp, Rabs_Ropp, <- R1 in O1'. pose proof (B2R_bound m). lra.
  + exfalso. rewrite round_NE_opp in R1'. pose proof (B2R_bound m') as Q. rewrite R1', Rabs_Ropp in Q. lra.
  + destruct (Rtotal_order c 0) as [L|[L|L]].
    * rewrite P2, P1' by lra. now repeat split.
    * exfalso. rewrite L, round_0, Rabs_R0 in O1 by apply valid_rnd_N. pose proof (bpow_gt_0 radix2 (emax T)). lra.
    * rewrite P1, P2' by lra. now repeat split.
Qed.
End Num.
Lemma neg_rad {F} (x : itv F) : s_nonempty x -> compare eq (a <- neg x; n_rad a) (n_rad x).
Proof.
intros N. pose proof (mem_wf x N) as W. pose proof (some_r x (mirror true x) (mem_neg x) N) as N'.
destruct (neg_mid F x N) as (a & c & A & K & O). rewrite neg_eq in A |- * by easy. revert A. mreds. intros A.
destruct (rad_ok x N) as (m & r & _ & M & R & Fm & _ & L & Z). destruct (rad_ok _ N') as (m' & r' & _ & M' & R' & Fm' & _ & L' & Z').
rewrite n_mid_same in M, M'. pose proof (returns_fun _ _ _ A M') as <-. pose proof (returns_fun _ _ _ K M) as <-.
exists r', r. split; [easy|]. split; [easy|]. apply (num_eq_same f0); [easy..|]. refine (least_eq _ _ _ _ (fun t => distances_neg x (B2R c) (B2R a) t _) L' L).
destruct O as [(_ & _ & O1) (_ & _ & O2)]. assert (Fn : is_finite (fneg c) = true) by now apply fneg_fin. setoid_rewrite ub_fin in O1; trivial. setoid_rewrite ub_fin in O2; trivial.
specialize (O1 (B2R a) (Rle_refl _)). specialize (O2 (B2R (fneg c)) (Rle_refl _)). rewrite B2R_fneg in *. lra.
Qed.
