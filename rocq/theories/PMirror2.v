(** * Proofs: fma and NaI, and which functions are alike *)
From Coq Require Import ZArith NArith Reals Bool Lra Lia List.
From Flocq Require Import Core.Core IEEE754.BinarySingleNaN.
From Verif Require Import Fmt Spec FloatFacts Exc Deco SpecApi SpecDeco SpecIso SpecStrong SpecElem SpecMixed SpecExpr SpecAlg SpecPoint SpecOver SpecTan2 SpecNai SpecRev SpecMulRev SpecMirror MBase PBase PConv MBool MArith MDec MMixed MExpr PArith PFma PAlg PAlg2 PCancel PIso PExpr PPoint PStrong PStrong4 POver POver3 PSplit PDec PMirror.
From Verif Require C17 C28 C54.
Import ListNotations.
Local Open Scope R_scope.
Local Open Scope m_scope.

Definition sg3 (w s t o : bool) (p : R * R * R) : R * R * R :=
  ((if w then (sg t (snd (fst p)), sg s (fst (fst p))) else (sg s (fst (fst p)), sg t (snd (fst p)))), sg o (snd p)).
Lemma fma_sg s t p q r : sg s p * sg t q + sg (xorb s t) r = sg (xorb s t) (p * q + r).
Proof. destruct s, t; cbn; ring. Qed.
Lemma image_fma {F G H} s t (x : itv F) (y : itv G) (v : itv H) : forall r,
  image3 fmaR (mirror s x) (mirror t y) (mirror (xorb s t) v) r <-> image3 fmaR x y v (sg (xorb s t) r).
Proof.
intros r. split.
- intros (p & q & k & Hp & Hq & Hk & ->). exists (sg s p), (sg t q), (sg (xorb s t) k). split; [now apply mem_mirror|]. split; [now apply mem_mirror|]. split; [now apply mem_mirror|].
  now rewrite fma_sg.
- intros (p & q & k & Hp & Hq & Hk & E). exists (sg s p), (sg t q), (sg (xorb s t) k). split; [apply mem_mirror; now rewrite sg_sg|]. split; [apply mem_mirror; now rewrite sg_sg|]. split; [apply mem_mirror; now rewrite sg_sg|].
  rewrite fma_sg, <- E. symmetry. apply sg_sg.
Qed.
Lemma image_fma_swap {F G H} (x : itv F) (y : itv G) (v : itv H) r : image3 fmaR y x v r <-> image3 fmaR x y v r.
Proof. split; intros (p & q & k & Hp & Hq & Hk & ->); exists q, p, k; (split; [assumption|]); (split; [assumption|]); (split; [assumption|]); ring. Qed.
Lemma ct_iff {F} (m : M (itv F)) S S' : computes_tightest m S -> (forall r, S r <-> S' r) -> computes_tightest m S'.
Proof.
intros (z & Z & W & E & M) H. exists z. split; [exact Z|]. split; [exact W|]. split; [intros r Hr; now apply E, H|]. intros w Ww Hw. apply M; [exact Ww|]. intros r Hr. now apply Hw, H.
Qed.
Lemma law3 {F G H T} s t (op op' : itv F -> itv G -> itv H -> M (itv T)) x y v : wf x -> wf y -> wf v ->
  computes_tightest (op (mirror s x) (mirror t y) (mirror (xorb s t) v)) (image3 fmaR (mirror s x) (mirror t y) (mirror (xorb s t) v)) -> computes_tightest (op' x y v) (image3 fmaR x y v) ->
  agree (x' <- flip s x; y' <- flip t y; v' <- flip (xorb s t) v; op x' y' v') (z <- op' x y v; flip (xorb s t) z).
Proof.
intros Wx Wy Wv (z & Z & Tz) (w & K & Tw). rewrite (flip_eq s x Wx). mreds. rewrite (flip_eq t y Wy). mreds. rewrite (flip_eq _ v Wv). mreds. apply returns_eq in K. rewrite K. mreds. rewrite (flip_eq _ w (proj1 Tw)).
exists z, (mirror (xorb s t) w). split; [exact Z|]. split; [now intros q|]. apply (tight_same _ _ _ _ Tz (tightest_mirror _ _ _ w Tw (image_fma s t x y v))). reflexivity.
Qed.
Lemma dlaw3 {F G H T} s t (opd opd' : ditv F -> ditv G -> ditv H -> M (ditv T)) (op op' : itv F -> itv G -> itv H -> M (itv T)) x y v : proper x -> proper y -> proper v ->
  let o := xorb s t in
  computes_tightest (op (mirror s (fst x)) (mirror t (fst y)) (mirror o (fst v))) (image3 fmaR (mirror s (fst x)) (mirror t (fst y)) (mirror o (fst v))) ->
  computes_tightest (op' (fst x) (fst y) (fst v)) (image3 fmaR (fst x) (fst y) (fst v)) ->
  strongest3 opd fmaR -> strongest3 opd' fmaR ->
  node3 opd op fmaR (mird s x) (mird t y) (mird o v) -> node3 opd' op' fmaR x y v ->
  agree_dec (x' <- flip_dec s x; y' <- flip_dec t y; v' <- flip_dec o v; opd x' y' v') (z <- opd' x y v; flip_dec o z).
Proof.
intros P Py Pv o Tu Tv Su Sv (z & Z & Pz & Bz & Lz & Lzy & Lzv & _ & Hz) (w & K & Pw & Bw & Lw & Lwy & Lwv & _ & Hw).
destruct Tu as (z1 & Z1 & Tz), Tv as (w1 & W1 & Tw). rewrite <- (returns_one _ _ _ Bz Z1) in Tz. rewrite <- (returns_one _ _ _ Bw W1) in Tw.
rewrite (flipd_eq s x P). mreds. rewrite (flipd_eq t y Py). mreds. rewrite (flipd_eq o v Pv). mreds. pose proof K as K'. apply returns_eq in K'. rewrite K'. mreds. rewrite (flipd_eq o w Pw).
exists z, (mird o w). split; [exact Z|]. split; [now intros q|].
assert (E : same_numbers (fst z) (mirror o (fst w))).
{ apply (tight_same _ _ _ _ Tz (tightest_mirror o _ _ _ Tw (image_fma s t _ _ _))). reflexivity. }
split; [exact E|]. cbn [mird snd].
pose proof (proper_wf _ Pz) as Wz. pose proof (proper_wf _ Pw) as Ww.
assert (Bzw : bounded_rep (fst z) <-> bounded_rep (fst w)).
{ rewrite <- (bounded_mirror o (fst w)). split; apply bounded_same; auto using wf_mirror. intros r. symmetry. apply E. }
assert (V : forall q : R * R * R, fmaR (sg s (fst (fst q))) (sg t (snd (fst q))) (sg o (snd q)) = sg o (fmaR (fst (fst q)) (snd (fst q)) (snd q))).
{ intros q. apply fma_sg. }
pose proof (proper_mird s x P) as (Q1 & Q2 & Q3). pose proof (proper_mird t y Py) as (R1 & R2 & R3). pose proof (proper_mird o v Pv) as (V1 & V2 & V3).
destruct Pz as (Z3 & Z4 & Z5), Pw as (W3 & W4 & W5), P as (P1 & P2 & P3), Py as (S1 & S2 & S3), Pv as (X1 & X2 & X3). cbn [mird snd] in Lz, Lzy, Lzv.
apply N.le_antisymm.
- apply (Sv x y v P1 P2 P3 S1 S2 S3 X1 X2 X3 w K); [exact Z4|exact Lz|exact Lzy|exact Lzv|].
  refine (honest_move near3 near3 _ _ _ _ _ _ _ _ _ _ _ (sg3 false s t o) (sg3 false s t o) o _ _ _ _ _ _ _ Hz).
  + intros q [[H1 H2] H3]. repeat split; apply mem_mirror; cbn [sg3 fst snd]; rewrite sg_sg; assumption.
  + intros q [[H1 H2] H3]. apply mem_mirror in H1. apply mem_mirror in H2. apply mem_mirror in H3. exact (conj (conj H1 H2) H3).
  + intros q. tauto.
  + intros e q q' [[H1 H2] H3]. exact (conj (conj (near_sg s _ _ _ H1) (near_sg t _ _ _ H2)) (near_sg o _ _ _ H3)).
  + intros q _. cbn [sg3 fst snd]. rewrite V. symmetry. apply sg_sg.
  + intros (B1 & B2 & B3). split; [now apply (bounded_mirror s)|]. split; [now apply (bounded_mirror t)|now apply (bounded_mirror o)].
  + apply Bzw.
- apply (Su (mird s x) (mird t y) (mird o v) Q1 Q2 Q3 R1 R2 R3 V1 V2 V3 z Z); [exact W4|exact Lw|exact Lwy|exact Lwv|].
  refine (honest_move near3 near3 _ _ _ _ _ _ _ _ _ _ _ (sg3 false s t o) (sg3 false s t o) o _ _ _ _ _ _ _ Hw).
  + intros q [[H1 H2] H3]. apply mem_mirror in H1. apply mem_mirror in H2. apply mem_mirror in H3. exact (conj (conj H1 H2) H3).
  + intros q [[H1 H2] H3]. repeat split; apply mem_mirror; cbn [sg3 fst snd]; rewrite sg_sg; assumption.
  + intros q. tauto.
  + intros e q q' [[H1 H2] H3]. exact (conj (conj (near_sg s _ _ _ H1) (near_sg t _ _ _ H2)) (near_sg o _ _ _ H3)).
  + intros q _. cbn [sg3 fst snd]. rewrite V. symmetry. apply sg_sg.
  + intros (B1 & B2 & B3). split; [now apply bounded_mirror|]. split; now apply bounded_mirror.
  + apply Bzw.
Qed.
(** Factors in the other order. *)
Lemma honest_swap3 {F G H T} (x : itv F) (y : itv G) (v : itv H) (z : itv T) d :
  honest near3 (box3 x y v) (fun _ => True) (bounded_rep x /\ bounded_rep y /\ bounded_rep v) (fun p => fmaR (fst (fst p)) (snd (fst p)) (snd p)) z d ->
  honest near3 (box3 y x v) (fun _ => True) (bounded_rep y /\ bounded_rep x /\ bounded_rep v) (fun p => fmaR (fst (fst p)) (snd (fst p)) (snd p)) z d.
Proof.
intros H0. refine (honest_move near3 near3 _ _ _ _ _ _ _ _ _ _ _ (sg3 true false false false) (sg3 true false false false) false _ _ _ _ _ _ _ H0).
- intros q [[H1 H2] H3]. exact (conj (conj H2 H1) H3).
- intros q [[H1 H2] H3]. exact (conj (conj H2 H1) H3).
- intros q. tauto.
- intros e q q' [[H1 H2] H3]. exact (conj (conj H2 H1) H3).
- intros q _. cbn. ring.
- tauto.
- tauto.
Qed.
Lemma strongest3_swap {F G H T} (opd : ditv F -> ditv G -> ditv H -> M (ditv T)) : strongest3 opd fmaR -> strongest3 (fun x y v => opd y x v) fmaR.
Proof.
intros S x y v Wx Dx Ix Wy Dy Iy Wv Dv Iv z Z d Hd L1 L2 L3 H0. exact (S y x v Wy Dy Iy Wx Dx Ix Wv Dv Iv z Z d Hd L2 L1 L3 (honest_swap3 _ _ _ _ _ H0)).
Qed.
Lemma node3_swap {F G H T} (opd : ditv F -> ditv G -> ditv H -> M (ditv T)) op x y v : node3 opd op fmaR y x v -> node3 (fun x y v => opd y x v) (fun x y v => op y x v) fmaR x y v.
Proof.
intros (z & Z & Pz & Bz & L1 & L2 & L3 & M & H0). exists z. split; [exact Z|]. split; [exact Pz|]. split; [exact Bz|]. split; [exact L2|]. split; [exact L1|]. split; [exact L3|]. split.
- intros r s t Hr Hs Ht. replace (fmaR r s t) with (fmaR s r t) by (ring). auto.
- exact (honest_swap3 _ _ _ _ _ H0).
Qed.
Lemma fma_alike_mixed T {F G H} (w : bool) s t (x : itv F) (y : itv G) (v : itv H) : comparable T F -> comparable T G -> comparable F G -> comparable T H -> comparable F H -> comparable G H ->
  wf x -> wf y -> wf v ->
  agree (x' <- flip s x; y' <- flip t y; v' <- flip (xorb s t) v; if w then fma_mixed T y' x' v' else fma_mixed T x' y' v') (z <- fma_mixed T x y v; flip (xorb s t) z).
Proof.
intros C1 C2 C3 C4 C5 C6 Wx Wy Wv. pose proof (comparable_sym _ _ C3) as C3'. destruct w.
- apply (law3 s t (fun x y v => fma_mixed T y x v) (fma_mixed T)); auto; [|now apply C28.C28_fma].
  eapply ct_iff; [apply C28.C28_fma; auto using wf_mirror|]. intros r. apply image_fma_swap.
- apply (law3 s t (fma_mixed T) (fma_mixed T)); auto; apply C28.C28_fma; auto using wf_mirror.
Qed.
Lemma fma_alike {F} (w : bool) s t (x y v : itv F) : wf x -> wf y -> wf v ->
  agree (x' <- flip s x; y' <- flip t y; v' <- flip (xorb s t) v; if w then fma y' x' v' else fma x' y' v') (z <- fma x y v; flip (xorb s t) z).
Proof.
intros Wx Wy Wv. destruct w.
- apply (law3 s t (fun x y v => fma y x v) fma); auto; [|now apply fma_tightest].
  eapply ct_iff; [apply fma_tightest; auto using wf_mirror|]. intros r. apply image_fma_swap.
- apply (law3 s t fma fma); auto; apply fma_tightest; auto using wf_mirror.
Qed.
Lemma dfma_alike_mixed T {F G H} (w : bool) s t (x : ditv F) (y : ditv G) (v : ditv H) : comparable T F -> comparable T G -> comparable F G -> comparable T H -> comparable F H -> comparable G H ->
  proper x -> proper y -> proper v ->
  agree_dec (x' <- flip_dec s x; y' <- flip_dec t y; v' <- flip_dec (xorb s t) v; if w then fma_dec_mixed T y' x' v' else fma_dec_mixed T x' y' v') (z <- fma_dec_mixed T x y v; flip_dec (xorb s t) z).
Proof.
intros C1 C2 C3 C4 C5 C6 Px Py Pv. pose proof (comparable_sym _ _ C3) as C3'.
pose proof (proper_wf _ Px) as Wx. pose proof (proper_wf _ Py) as Wy. pose proof (proper_wf _ Pv) as Wv. destruct w.
- apply (dlaw3 s t (fun x y v => fma_dec_mixed T y x v) (fma_dec_mixed T) (fun x y v => fma_mixed T y x v) (fma_mixed T)); auto.
  + eapply ct_iff; [apply C28.C28_fma; auto using wf_mirror|]. intros r. apply image_fma_swap.
  + now apply C28.C28_fma.
  + apply (strongest3_swap (fma_dec_mixed T)), fma_strong_mixed; auto.
  + apply fma_strong_mixed; auto.
  + apply (node3_swap (fma_dec_mixed T) (fma_mixed T)), fma_node_mixed; auto using proper_mird. repeat split; auto.
  + apply fma_node_mixed; auto. repeat split; auto.
- apply (dlaw3 s t (fma_dec_mixed T) (fma_dec_mixed T) (fma_mixed T) (fma_mixed T)); auto.
  + apply C28.C28_fma; auto using wf_mirror.
  + now apply C28.C28_fma.
  + apply fma_strong_mixed; auto.
  + apply fma_strong_mixed; auto.
  + apply fma_node_mixed; auto using proper_mird. repeat split; auto.
  + apply fma_node_mixed; auto. repeat split; auto.
Qed.
Lemma dfma_alike {F} (w : bool) s t (x y v : ditv F) : proper x -> proper y -> proper v ->
  agree_dec (x' <- flip_dec s x; y' <- flip_dec t y; v' <- flip_dec (xorb s t) v; if w then fma_dec y' x' v' else fma_dec x' y' v') (z <- fma_dec x y v; flip_dec (xorb s t) z).
Proof.
intros Px Py Pv.
pose proof (proper_wf _ Px) as Wx. pose proof (proper_wf _ Py) as Wy. pose proof (proper_wf _ Pv) as Wv. destruct w.
- apply (dlaw3 s t (fun x y v => fma_dec y x v) fma_dec (fun x y v => fma y x v) fma); auto.
  + eapply ct_iff; [apply fma_tightest; auto using wf_mirror|]. intros r. apply image_fma_swap.
  + now apply fma_tightest.
  + apply (strongest3_swap fma_dec), fma_strong.
  + apply fma_strong.
  + apply (node3_swap fma_dec fma), fma_node; auto using proper_mird.
  + now apply fma_node.
- apply (dlaw3 s t fma_dec fma_dec fma fma); auto.
  + apply fma_tightest; auto using wf_mirror.
  + now apply fma_tightest.
  + apply fma_strong.
  + apply fma_strong.
  + apply fma_node; auto using proper_mird.
  + now apply fma_node.
Qed.

(** ** NaI *)
Lemma flipd_nai {F} s (x : ditv F) : wf_dec x -> is_deco (snd x) -> exists x', flip_dec s x = ret x' /\ wf_dec x' /\ (snd x = ill -> snd x' = ill).
Proof.
intros W D. destruct (N.eq_dec (snd x) ill) as [E|E].
- destruct s; [|now exists x]. exists (empty_rep, ill). split; [apply returns_eq; exact (C17.C17_neg_dec F x W E)|]. split; [left; auto|reflexivity].
- pose proof (conj W (conj D E)) as P. exists (mird s x). split; [now apply flipd_eq|]. split; [now apply proper_mird|tauto].
Qed.
Lemma nai_out {F} o : returns (flip_dec o (@empty_rep F, ill)) (empty_rep, ill).
Proof. destruct o; [|now intros q]. apply (C17.C17_neg_dec F); [left; auto|reflexivity]. Qed.
Lemma law1_nai {F T} s o (opu opv : ditv F -> M (ditv T)) x : on_nai1 opu (empty_rep, ill) -> on_nai1 opv (empty_rep, ill) -> wf_dec x -> snd x = ill ->
  returns (y <- flip_dec s x; opu y) (empty_rep, ill) /\ returns (z <- opv x; flip_dec o z) (empty_rep, ill).
Proof.
intros U V W E. destruct (flipd_nai s x W) as (x' & E' & W' & I); [rewrite E; cbv; tauto|]. rewrite E'. mreds.
pose proof (V x W E) as H. apply returns_eq in H. rewrite H. mreds. split; [apply U; auto|apply nai_out].
Qed.
Lemma law2_nai {F G T} s t o (op op' : ditv F -> ditv G -> M (ditv T)) x y : on_nai2 op (empty_rep, ill) -> on_nai2 op' (empty_rep, ill) ->
  wf_dec x -> wf_dec y -> is_deco (snd x) -> is_deco (snd y) -> snd x = ill \/ snd y = ill ->
  returns (x' <- flip_dec s x; y' <- flip_dec t y; op x' y') (empty_rep, ill) /\ returns (z <- op' x y; flip_dec o z) (empty_rep, ill).
Proof.
intros U V Wx Wy Dx Dy E. destruct (flipd_nai s x Wx Dx) as (x' & E' & W' & I). destruct (flipd_nai t y Wy Dy) as (y' & F' & X' & J). rewrite E'. mreds. rewrite F'. mreds.
pose proof (V x y Wx Wy E) as H. apply returns_eq in H. rewrite H. mreds. split; [apply U; tauto|apply nai_out].
Qed.

(** ** Functions that are alike *)
Lemma pow_sg r n : (- r) ^ n = sg (Nat.odd n) (r ^ n).
Proof.
induction n as [|n IH]; [reflexivity|]. cbn [pow]. rewrite IH, Nat.odd_succ, <- Nat.negb_odd. destruct (Nat.odd n); cbn; ring.
Qed.
Lemma odd_pos p : Z.odd (Zpos p) = Nat.odd (Pos.to_nat p).
Proof.
destruct p as [p|p|]; [| |reflexivity]; cbn [Z.odd].
- rewrite Pos2Nat.inj_xI. symmetry. apply Nat.odd_spec. exists (Pos.to_nat p). lia.
- rewrite Pos2Nat.inj_xO. symmetry. apply not_true_is_false. intros K. apply Nat.odd_spec in K as [m K]. lia.
Qed.
Lemma sg_inv s r : / sg s r = sg s (/ r).
Proof. destruct s; cbn; [|reflexivity]. destruct (Req_dec r 0) as [->|N]; [rewrite Ropp_0, Rinv_0; ring|now apply Rinv_opp]. Qed.
Lemma powerRZ_sg r k : powerRZ (- r) k = sg (Z.odd k) (powerRZ r k).
Proof.
destruct k as [|p|p]; cbn [powerRZ]; [reflexivity| |].
- rewrite pow_sg, odd_pos. reflexivity.
- rewrite pow_sg, sg_inv. replace (Z.odd (Zneg p)) with (Z.odd (Zpos p)) by (destruct p; reflexivity). now rewrite odd_pos.
Qed.
Lemma pown_alike k : alike1 true (Z.odd k) (u_pown k) (u_pown k).
Proof. intros r. cbn [un_dom un_val sg]. split; [split; intros H L; specialize (H L); lra|]. intros _. apply powerRZ_sg. Qed.
Lemma odd_alike u : In u [u_pos; u_neg; u_recip; u_sin; u_tan; u_asin; u_atan; u_sinh; u_tanh; u_asinh; u_atanh; u_sign; u_trunc; u_rte; u_rta] -> alike1 true true u u.
Proof.
cbn [In]. intros H r. repeat (destruct H as [<-|H]); cbn [un_dom un_val sg]; try (split; [tauto|intros _]).
- reflexivity.
- reflexivity.
- split; [lra|]. intros K. now apply Rinv_opp.
- apply sin_neg.
- split; [now rewrite cos_neg|]. intros _. apply tan_neg.
- split; [lra|]. intros _. apply asin_opp.
- apply atan_opp.
- unfold sinh. rewrite Ropp_involutive. lra.
- unfold tanh, sinh, cosh. rewrite Ropp_involutive. pose proof (exp_pos r). pose proof (exp_pos (- r)). field. lra.
- apply arcsinh_opp.
- split; [lra|]. intros K. unfold atanhR. replace ((1 + - r) / (1 - - r)) with (/ ((1 + r) / (1 - r))) by (field; lra). rewrite ln_Rinv; [lra|]. apply Rdiv_lt_0_compat; lra.
- apply signR_opp.
- apply truncR_opp.
- apply rteR_opp.
- apply rtaR_opp.
- destruct H.
Qed.
Lemma even_alike u : In u [u_sqr; u_abs; u_cos; u_cosh] -> alike1 true false u u.
Proof.
cbn [In]. intros H r. repeat (destruct H as [<-|H]); cbn [un_dom un_val sg]; try (split; [tauto|intros _]).
- ring.
- apply Rabs_Ropp.
- apply cos_neg.
- unfold cosh. rewrite Ropp_involutive. lra.
- destruct H.
Qed.
Lemma floor_ceil_alike : alike1 true true u_floor u_ceil /\ alike1 true true u_ceil u_floor.
Proof. split; intros r; (split; [cbn; tauto|intros _]); [apply floor_opp|apply ceil_opp]. Qed.
Lemma same_alike : alike1 false false (u_pown 1) u_pos /\ alike1 false false (u_pown 2) u_sqr /\ alike1 false false (u_pown (-1)) u_recip /\
  alike1 true false u_pos u_neg /\ alike1 false true u_neg u_pos.
Proof.
split; [|split; [|split; [|split]]]; intros r; cbn [un_dom un_val sg].
- split; [split; [tauto|intros _ L; lia]|]. intros _. simpl. ring.
- split; [split; [tauto|intros _ L; lia]|]. intros _. simpl. ring.
- split; [split; [intros H; apply H; lia|tauto]|]. intros _. simpl. now rewrite Rmult_1_r.
- split; [tauto|]. reflexivity.
- split; [tauto|]. reflexivity.
Qed.
Lemma laws2_alike w s t o b c : In (w, s, t, o, b, c) laws2 -> alike2 w s t o b c.
Proof.
assert (Mn : forall p q, Rmin (- p) (- q) = - Rmax p q) by (intros; unfold Rmin, Rmax; destruct (Rle_dec (- p) (- q)), (Rle_dec p q); lra).
assert (Mx : forall p q, Rmax (- p) (- q) = - Rmin p q) by (intros; unfold Rmin, Rmax; destruct (Rle_dec (- p) (- q)), (Rle_dec p q); lra).
cbn [In laws2]. intros H p q. repeat (destruct H as [H|H]); try (destruct H; fail); injection H as <- <- <- <- <- <-; cbn [swap bin_dom bin_val sg]; (split; [lra || tauto|intros D]);
  try ring; try (field; lra); auto using Rmin_comm, Rmax_comm.
Qed.

(** ** Reverse functions *)
Lemma law_ct {F} o (m n : M (itv F)) S S' : computes_tightest m S -> computes_tightest n S' -> (forall r, S r <-> S' (sg o r)) -> agree m (z <- n; flip o z).
Proof.
intros (z & Z & Tz) (w & K & Tw) E. apply returns_eq in K. rewrite K. mreds. rewrite (flip_eq o w (proj1 Tw)). exists z, (mirror o w). split; [exact Z|]. split; [now intros q|].
apply (tight_same _ _ _ _ Tz (tightest_mirror o _ _ w Tw E)). reflexivity.
Qed.
Lemma rev_even {F G T} (op : itv F -> itv G -> M (itv T)) f c x : (forall t, f (- t) = f t) -> wf x ->
  (forall y, wf y -> computes_tightest (op c y) (preimage everywhere f c y)) -> agree (y <- neg x; op c y) (z <- op c x; neg z).
Proof.
intros Ev W H. pose proof (flip_eq true x W) as E. cbn [flip] in E. rewrite E. mreds.
apply (law_ct true _ _ (preimage everywhere f c (mirror true x)) (preimage everywhere f c x)); [apply H, wf_mirror, W|now apply H|].
intros r. unfold preimage. cbn [sg]. rewrite Ev, (mem_mirror true). reflexivity.
Qed.
Lemma unlimited_mirror {F} s (b : itv F) : unlimited b <-> unlimited (mirror s b).
Proof.
assert (A : forall t, Rabs (sg s t) = Rabs t) by (intros t; destruct s; [apply Rabs_Ropp|reflexivity]).
split; intros U B; destruct (U B) as (t & Ht & L); exists (sg s t); rewrite A; (split; [|exact L]).
- apply mem_mirror. now rewrite sg_sg.
- now apply mem_mirror.
Qed.
Lemma rev_mul_mirror {F G} s t (b : itv F) (c : itv G) r : rev_mul_lim (mirror s b) (mirror t c) r <-> rev_mul_lim b c (sg (xorb s t) r).
Proof.
assert (P : forall k, sg t (sg s k * r) = k * sg (xorb s t) r) by (intros k; destruct s, t; cbn; ring).
unfold rev_mul_lim, rev_mul. rewrite <- (unlimited_mirror s b).
assert (Z : r = 0 <-> sg (xorb s t) r = 0) by (destruct (xorb s t); cbn; lra). rewrite <- Z.
assert (X : (exists k, mem k (mirror t c)) <-> exists k, mem k c).
{ split; intros (k & K); exists (sg t k); [now apply mem_mirror|apply mem_mirror; now rewrite sg_sg]. }
rewrite X. apply or_iff_compat_r. split.
- intros (k & K1 & K2). exists (sg s k). apply mem_mirror in K1, K2. split; [exact K1|]. now rewrite <- P, sg_sg.
- intros (k & K1 & K2). exists (sg s k). split; apply mem_mirror; [now rewrite sg_sg|]. now rewrite P.
Qed.
Lemma mul_rev_alike {F G H T} s t (op : itv F -> itv G -> itv H -> M (itv T)) b c x : wf b -> wf c -> wf x ->
  (forall b c x, wf b -> wf c -> wf x -> computes_tightest (op b c x) (fun t => rev_mul_lim b c t /\ mem t x)) ->
  agree (b' <- flip s b; c' <- flip t c; x' <- flip (xorb s t) x; op b' c' x') (z <- op b c x; flip (xorb s t) z).
Proof.
intros Wb Wc Wx K. rewrite (flip_eq s b Wb). mreds. rewrite (flip_eq t c Wc). mreds. rewrite (flip_eq _ x Wx). mreds.
apply (law_ct _ _ _ _ _ (K _ _ _ (wf_mirror s b Wb) (wf_mirror t c Wc) (wf_mirror _ x Wx)) (K b c x Wb Wc Wx)).
intros r. rewrite rev_mul_mirror, mem_mirror. reflexivity.
Qed.
Lemma Rsqr_neg' t : (- t) * (- t) = t * t.
Proof. ring. Qed.
Lemma cosh_neg t : cosh (- t) = cosh t.
Proof. unfold cosh. rewrite Ropp_involutive. lra. Qed.
