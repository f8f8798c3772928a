(** * Proofs: exactly what the reverse integer power computes *)
From Coq Require Import ZArith NArith Reals Bool Lia Lra Psatz List.
From Flocq Require Import Core.Core Calc.Operations IEEE754.BinarySingleNaN.
From Verif Require Import Fmt Spec SpecElem FloatFacts Exc Deco SpecApi MBase PBase MBool MArith PArith PMul PFma PDiv PUnary
  PConv PBool PSetop PDec MNum PNumF PCancel MElem PElem MPow PPown MRev SpecRev PRev PMulRev PRevEven PPownRev PPownRev2 PPownRev3 PPownRev4 PPownRev5
  PRevW SpecPownRev.

Local Open Scope R_scope.

Section P.
Context {F : fmt} (q : BinNums.positive).
Implicit Types a b l u : float F.
Implicit Types x z c : itv F.
Notation n := (Pos.to_nat q).
Notation root r := (rootR (Zpos q) r).

(** ** Positive exponents *)
Definition adm0 (r : R) : Prop := oddq q \/ 0 <= r.
Lemma root_pow0 r : adm0 r -> root r ^ n = r.
Proof.
intros [O|[H|<-]]; [|apply root_pow; now left|rewrite root_0; apply pow_i, n_pos].
destruct (Rtotal_order r 0) as [L|[->|L]]; [apply root_pow; now right|rewrite root_0; apply pow_i, n_pos|apply root_pow; now left].
Qed.
Lemma root_adm r : adm0 r -> adm0 (root r).
Proof. intros [O|[H|<-]]; [now left|right; now apply Rlt_le, root_pos|right; rewrite root_0; lra]. Qed.
Lemma root_le r t : adm0 r -> adm0 t -> r <= t ^ n -> root r <= t.
Proof.
intros A B L. apply Rnot_lt_le. intros K. assert (t ^ n < root r ^ n) by (apply pow_strict; [destruct B; auto|easy]). rewrite root_pow0 in H by easy. lra.
Qed.
Lemma root_ge r t : adm0 r -> t ^ n <= r -> t <= root r.
Proof.
intros A L. apply Rnot_lt_le. intros K.
assert (root r ^ n < t ^ n) by (apply pow_strict; [destruct (root_adm r A); auto|easy]). rewrite root_pow0 in H by easy. lra.
Qed.
Lemma root_gt r t : adm0 r -> adm0 t -> t ^ n < r -> t < root r.
Proof.
intros A B L. apply Rnot_le_lt. intros K. assert (root r ^ n <= t ^ n) by (apply pow_weak; [destruct (root_adm r A); auto|easy]). rewrite root_pow0 in H by easy. lra.
Qed.
Lemma root_rnds0 m a : is_finite a = true -> adm0 (B2R a) -> rnds m (root (B2R a)) (mpfr_root m a (Zpos q)).
Proof.
intros Fa A. destruct (Req_dec (B2R a) 0) as [Z|Z].
- rewrite Z, root_0. destruct a as [s| | |s mm e H]; try easy; [apply rnds_zero|]. exfalso. simpl in Z. apply eq_0_F2R in Z. now destruct s.
- apply root_rnds; [easy|]. destruct A as [O|A]; [|left; lra]. destruct (Rdichotomy _ _ Z); [right|left]; easy.
Qed.

Lemma root_glow (S : R -> Prop) c : (forall t, S t -> adm0 t /\ mem (t ^ n) c) ->
  (low_end (fst c) c) -> (is_finite (fst c) = true -> adm0 (B2R (fst c)) /\ S (root (B2R (fst c)))) ->
  (fst c = fminf -> oddq q /\ unb_below S) -> glow S (mpfr_root mode_DN (fst c) (Zpos q)).
Proof.
intros H1 [(Fl & M & L)|(E & U)] H2 H3.
- destruct (H2 Fl) as [A HS]. apply glow_att with (root (B2R (fst c))); [easy| |now apply rnds_DN, root_rnds0].
  intros t St. destruct (H1 t St) as [B K]. apply root_le; auto.
- destruct (H3 E) as [O V]. rewrite E. replace (mpfr_root mode_DN (@fminf F) (Zpos q)) with (@fminf F) by (unfold mpfr_root, fminf; now rewrite O).
  now apply glow_unb.
Qed.
Lemma root_gupp (S : R -> Prop) c : (forall t, S t -> mem (t ^ n) c) ->
  (upp_end (snd c) c) -> (is_finite (snd c) = true -> adm0 (B2R (snd c)) /\ S (root (B2R (snd c)))) ->
  (snd c = finf -> unb_above S) -> gupp S (mpfr_root mode_UP (snd c) (Zpos q)).
Proof.
intros H1 [(Fl & M & L)|(E & U)] H2 H3.
- destruct (H2 Fl) as [A HS]. apply gupp_att with (root (B2R (snd c))); [easy| |now apply rnds_UP, root_rnds0].
  intros t St. apply root_ge; auto.
- rewrite E. replace (mpfr_root mode_UP (@finf F) (Zpos q)) with (@finf F) by reflexivity. now apply gupp_unb, H3.
Qed.
Lemma zero_glow (S : R -> Prop) : S 0 -> (forall t, S t -> 0 <= t) -> glow S (@f0 F).
Proof. intros H1 H2. apply glow_att with 0; [easy|easy|]. apply (is_RD_self f0). reflexivity. Qed.
Lemma zero_gupp (S : R -> Prop) : S 0 -> (forall t, S t -> t <= 0) -> gupp S (@f0 F).
Proof. intros H1 H2. apply gupp_att with 0; [easy|easy|]. apply (is_RU_self f0). reflexivity. Qed.

Definition SP c (t : R) : Prop := 0 <= t /\ mem (t ^ n) c.
Definition SN c (t : R) : Prop := t <= 0 /\ mem (t ^ n) c.

Lemma pos_unb c : unb_above (fun r => mem r c) -> unb_above (SP c).
Proof.
intros U B. pose proof (Rmax_l B 1). pose proof (Rmax_r B 1). set (t := Rmax B 1) in *.
destruct (U (t ^ n)) as (r & M & L). assert (0 < t ^ n) by (apply pow_lt; lra).
assert (K : t < root r) by (apply root_gt; [right|right|]; lra).
exists (root r). split; [|lra]. split; [lra|]. rewrite root_pow0 by (right; lra). easy.
Qed.
Lemma neg_unb c : oddq q -> unb_below (fun r => mem r c) -> unb_below (SN c).
Proof.
intros O U B. pose proof (Rmin_l B (-1)). pose proof (Rmin_r B (-1)). set (t := Rmin B (-1)) in *.
destruct (U (t ^ n)) as (r & M & L).
assert (K : root r < t).
{ apply Rnot_le_lt. intros K. assert (t ^ n <= root r ^ n) by (apply pow_weak; [now right|easy]). rewrite root_pow0 in H1 by now left. lra. }
exists (root r). split; [|lra]. split; [lra|]. rewrite root_pow0 by now left. easy.
Qed.

(** The solutions that are not negative. *)
Lemma pos_side c : wf c -> isnan (fst c) = false -> fle f0 (snd c) = true ->
  tightest (SP c) ((if fle (fst c) f0 then f0 else mpfr_root mode_DN (fst c) (Zpos q)), mpfr_root mode_UP (snd c) (Zpos q)).
Proof.
intros Wc Nc Cu.
pose proof (low_end_fst c (wf_view c Wc) Nc) as LE. pose proof (upp_end_snd c (wf_view c Wc) Nc) as UE.
assert (P0 : (0 : R) ^ n = 0) by apply pow_i, n_pos.
assert (K : (fle (fst c) f0 = true /\ mem 0 c) \/ (fle (fst c) f0 = false /\ is_finite (fst c) = true /\ 0 < B2R (fst c))).
{ destruct (wf_view c Wc) as [ | |b|a|a b]; cbn [fst snd] in *; try easy.
  - left. split; [reflexivity|easy].
  - left. split; [reflexivity|]. hcmp. rewrite ?B2R_f0 in *. split; cbn [fst snd]; [easy|rewrite ub_fin by easy; lra].
  - destruct (fle a f0) eqn:E; hcmp; rewrite ?B2R_f0 in *; [left|right]; (split; [easy|]); [split; cbn [fst snd]; [rewrite lb_fin by easy; lra|easy]|split; [easy|lra]].
  - destruct (fle a f0) eqn:E; hcmp; rewrite ?B2R_f0 in *; [left|right]; (split; [easy|]); [split; cbn [fst snd]; [rewrite lb_fin by easy; lra|rewrite ub_fin by easy; lra]|split; [easy|lra]]. }
assert (AU : is_finite (snd c) = true -> 0 <= B2R (snd c)).
{ intros Fu. revert Cu. rewrite fle_fin, B2R_f0 by easy. now case Rle_bool_spec. }
apply tightest_intro.
- destruct K as [[_ M]|(_ & Fl & Pl)].
  + exists 0. split; [lra|]. now rewrite P0.
  + destruct LE as [(_ & M & _)|(E & _)]; [|rewrite E in Fl; easy].
    exists (root (B2R (fst c))). split; [now apply Rlt_le, root_pos|]. rewrite root_pow0; [easy|right; lra].
- destruct K as [[-> M]|(-> & Fl & Pl)].
  + apply zero_glow; [split; [lra|now rewrite P0]|now intros t [H _]].
  + apply root_glow; [|easy| |].
    * intros t [H M]. split; [now right|easy].
    * intros _. split; [right; lra|]. split; [now apply Rlt_le, root_pos|]. rewrite root_pow0 by (right; lra).
      destruct LE as [(_ & M & _)|(E & _)]; [easy|rewrite E in Fl; easy].
    * intros E. now rewrite E in Fl.
- apply root_gupp; [|easy| |].
  + now intros t [_ H].
  + intros Fu. specialize (AU Fu). split; [now right|]. split.
    * destruct AU as [L|E]; [now apply Rlt_le, root_pos|rewrite <- E, root_0; lra].
    * rewrite root_pow0 by now right. destruct UE as [(_ & M & _)|(E & _)]; [easy|rewrite E in Fu; easy].
  + intros E. apply pos_unb. destruct UE as [(Fu & _)|(_ & U)]; [rewrite E in Fu; easy|easy].
Qed.
(** For odd exponents, those that are not positive. *)
Lemma neg_side c : oddq q -> wf c -> isnan (fst c) = false -> fle (fst c) f0 = true ->
  tightest (SN c) (mpfr_root mode_DN (fst c) (Zpos q), (if fle f0 (snd c) then f0 else mpfr_root mode_UP (snd c) (Zpos q))).
Proof.
intros O Wc Nc Cu.
pose proof (low_end_fst c (wf_view c Wc) Nc) as LE. pose proof (upp_end_snd c (wf_view c Wc) Nc) as UE.
assert (P0 : (0 : R) ^ n = 0) by apply pow_i, n_pos.
assert (K : (fle f0 (snd c) = true /\ mem 0 c) \/ (fle f0 (snd c) = false /\ is_finite (snd c) = true /\ B2R (snd c) < 0)).
{ destruct (wf_view c Wc) as [ | |b|a|a b]; cbn [fst snd] in *; try easy.
  - left. split; [reflexivity|easy].
  - destruct (fle f0 b) eqn:E; hcmp; rewrite ?B2R_f0 in *; [left|right]; (split; [easy|]); [split; cbn [fst snd]; [easy|rewrite ub_fin by easy; lra]|split; [easy|lra]].
  - left. split; [reflexivity|]. hcmp. rewrite ?B2R_f0 in *. split; cbn [fst snd]; [rewrite lb_fin by easy; lra|easy].
  - destruct (fle f0 b) eqn:E; hcmp; rewrite ?B2R_f0 in *; [left|right]; (split; [easy|]); [split; cbn [fst snd]; [rewrite lb_fin by easy; lra|rewrite ub_fin by easy; lra]|split; [easy|lra]]. }
assert (AL : is_finite (fst c) = true -> B2R (fst c) <= 0).
{ intros Fu. revert Cu. rewrite fle_fin, B2R_f0 by easy. now case Rle_bool_spec. }
apply tightest_intro.
- destruct K as [[_ M]|(_ & Fl & Pl)].
  + exists 0. split; [lra|]. now rewrite P0.
  + destruct UE as [(_ & M & _)|(E & _)]; [|rewrite E in Fl; easy].
    exists (root (B2R (snd c))). split; [now apply Rlt_le, root_neg|]. rewrite root_pow0; [easy|now left].
- apply root_glow; [|easy| |].
  + intros t [_ H]. split; [now left|easy].
  + intros Fu. specialize (AL Fu). split; [now left|]. split.
    * destruct AL as [L|E]; [now apply Rlt_le, root_neg|rewrite E, root_0; lra].
    * rewrite root_pow0 by now left. destruct LE as [(_ & M & _)|(E & _)]; [easy|rewrite E in Fu; easy].
  + intros E. split; [easy|]. apply neg_unb; [easy|]. destruct LE as [(Fu & _)|(_ & U)]; [rewrite E in Fu; easy|easy].
- destruct K as [[-> M]|(-> & Fl & Pl)].
  + apply zero_gupp; [split; [lra|now rewrite P0]|now intros t [H _]].
  + apply root_gupp; [|easy| |].
    * now intros t [H M].
    * intros _. split; [now left|]. split; [now apply Rlt_le, root_neg|]. rewrite root_pow0 by now left.
      destruct UE as [(_ & M & _)|(E & _)]; [easy|rewrite E in Fl; easy].
    * intros E. now rewrite E in Fl.
Qed.

Lemma inter_cut x z z1 z2 : wf x -> wf z -> (forall r, mem r z <-> mem r z1 \/ mem r z2) ->
  exists y, intersection x z = ret y /\ tightest (fun t => mem t x /\ (mem t z1 \/ mem t z2)) y.
Proof.
intros Wx Wz E. destruct (intersection_exact x z Wx Wz) as (y & Hy & Wy & Ey). exists y. split; [easy|].
split; [easy|]. split.
- intros r H. apply Ey. now rewrite E.
- intros z' _ H r Hr. apply H. apply Ey in Hr. now rewrite E in Hr.
Qed.
Lemma hull_cut x z1 z2 : wf x -> wf z1 -> wf z2 ->
  exists y, hull_of_l x z1 z2 = ret y /\ tightest (fun t => mem t x /\ (mem t z1 \/ mem t z2)) y.
Proof.
intros Wx W1 W2. apply (hull_l_tight z1 z2 x (fun t => mem t z1 /\ mem t x) (fun t => mem t z2 /\ mem t x)); try easy.
- intros y Wy E. split; [easy|]. split; [intros r; apply E|]. intros z' _ H r Hr. now apply H, E.
- intros y Wy E. split; [easy|]. split; [intros r; apply E|]. intros z' _ H r Hr. now apply H, E.
- intros r. tauto.
Qed.
Lemma sol_pos c t : solves (Zpos q) c t <-> mem (t ^ n) c.
Proof. unfold solves, pown_dom. split; [easy|]. intros H. split; [easy|exact H]. Qed.

Lemma pos_odd_cut c x : wf c -> wf x -> isnan (fst c) = false -> Z.even (Zpos q) = false ->
  exists z, intersection x (mpfr_root mode_DN (fst c) (Zpos q), mpfr_root mode_UP (snd c) (Zpos q)) = ret z /\ cut_sides (Zpos q) c x z.
Proof.
intros Wc Wx Nc O. assert (Oq : oddq q) by exact O.
assert (PS : forall t, 0 < t -> 0 < t ^ n) by (intros t H; now apply pow_lt).
assert (NS : forall t, t < 0 -> t ^ n < 0).
{ intros t H. pose proof (PS (- t) ltac:(lra)) as K. rewrite pow_opp_odd in K by easy. lra. }
assert (K : forall t, mem (t ^ n) c -> mem t (mpfr_root mode_DN (fst c) (Zpos q), mpfr_root mode_UP (snd c) (Zpos q))).
{ intros t [L U]. split; cbn [fst snd].
  - apply root_lb; try easy; now left.
  - apply root_ub; try easy; try (now left). now apply wf_nan_r. }
assert (W : wf (mpfr_root mode_DN (fst c) (Zpos q), mpfr_root mode_UP (snd c) (Zpos q))).
{ right. assert (NE : exists r, mem r c) by (destruct Wc as [->|Wc]; easy). destruct NE as [r Hr].
  exists (root r). apply K. rewrite root_pow0; [easy|now left]. }
assert (C : (fle (fst c) f0 = true /\ fle f0 (snd c) = true /\ mem 0 c) \/
  (fle (fst c) f0 = true /\ fle f0 (snd c) = false /\ is_finite (snd c) = true /\ B2R (snd c) < 0) \/
  (fle (fst c) f0 = false /\ fle f0 (snd c) = true /\ is_finite (fst c) = true /\ 0 < B2R (fst c))).
{ destruct (wf_view c Wc) as [ | |b|a|a b]; cbn [fst snd] in *; try easy.
  - left. now split.
  - destruct (fle f0 b) eqn:E; hcmp; rewrite ?B2R_f0 in *; [left|right; left]; (split; [reflexivity|]); (split; [easy|]); [split; cbn [fst snd]; [easy|rewrite ub_fin by easy; lra]|split; [easy|lra]].
  - destruct (fle a f0) eqn:E; hcmp; rewrite ?B2R_f0 in *; [left|right; right]; (split; [easy|]); (split; [reflexivity|]); [split; cbn [fst snd]; [rewrite lb_fin by easy; lra|easy]|split; [easy|lra]].
  - destruct (fle f0 b) eqn:E; destruct (fle a f0) eqn:E'; hcmp; rewrite ?B2R_f0 in *; try lra.
    + left. split; [easy|]. split; [easy|]. split; cbn [fst snd]; [rewrite lb_fin by easy; lra|rewrite ub_fin by easy; lra].
    + right; right. repeat (split; [easy|]). lra.
    + right; left. repeat (split; [easy|]). lra. }
destruct C as [(C1 & C2 & C3)|[(C1 & C2 & C3 & C4)|(C1 & C2 & C3 & C4)]].
- pose proof (neg_side c Oq Wc Nc C1) as T1. pose proof (pos_side c Wc Nc C2) as T2. rewrite C1 in T2. rewrite C2 in T1.
  destruct (inter_cut x (mpfr_root mode_DN (fst c) (Zpos q), mpfr_root mode_UP (snd c) (Zpos q))
    (mpfr_root mode_DN (fst c) (Zpos q), f0) (f0, mpfr_root mode_UP (snd c) (Zpos q)) Wx W) as (y & H1 & H2).
  { assert (M0 := K 0). rewrite pow_i in M0 by apply n_pos. specialize (M0 C3). destruct M0 as [L0 U0]. cbn [fst snd] in *.
    intros r. unfold mem. cbn [fst snd]. rewrite (ub_fin f0), (lb_fin f0), B2R_f0 by reflexivity. split.
    - intros [A B]. destruct (Rle_or_lt r 0); [left|right]; split; try easy; lra.
    - intros [[A B]|[A B]]; (split; [easy || (apply lb_mono with 0; easy)|easy || (apply ub_mono with 0; easy)]). }
  exists y. split; [easy|]. eexists. eexists. split; [|split; [|exact H2]].
  + eapply tightest_ext; [|exact T1]. intros t. now rewrite sol_pos.
  + eapply tightest_ext; [|exact T2]. intros t. now rewrite sol_pos.
- pose proof (neg_side c Oq Wc Nc C1) as T1. rewrite C2 in T1.
  destruct (inter_cut x _ (mpfr_root mode_DN (fst c) (Zpos q), mpfr_root mode_UP (snd c) (Zpos q)) empty Wx W) as (y & H1 & H2).
  { intros r. split; [now left|]. intros [H|H]; [easy|]. destruct H as [H _]; exact (False_ind _ H). }
  exists y. split; [easy|]. eexists. exists empty. split; [|split; [|exact H2]].
  + eapply tightest_ext; [|exact T1]. intros t. now rewrite sol_pos.
  + apply tightest_empty. intros t [H1' H2']. rewrite sol_pos in H2'. destruct H2' as [_ H2']. rewrite ub_fin in H2' by easy.
    destruct H1' as [L|<-]; [specialize (PS t L); lra|rewrite pow_i in H2' by apply n_pos; lra].
- pose proof (pos_side c Wc Nc C2) as T1. rewrite C1 in T1.
  destruct (inter_cut x _ empty (mpfr_root mode_DN (fst c) (Zpos q), mpfr_root mode_UP (snd c) (Zpos q)) Wx W) as (y & H1 & H2).
  { intros r. split; [now right|]. intros [H|H]; [|easy]. destruct H as [H _]; exact (False_ind _ H). }
  exists y. split; [easy|]. exists empty. eexists. split; [|split; [|exact H2]].
  + apply tightest_empty. intros t [H1' H2']. rewrite sol_pos in H2'. destruct H2' as [H2' _]. rewrite lb_fin in H2' by easy.
    destruct H1' as [L| ->]; [specialize (NS t L); lra|rewrite pow_i in H2' by apply n_pos; lra].
  + eapply tightest_ext; [|exact T1]. intros t. now rewrite sol_pos.
Qed.
Lemma tightest_neg (S : R -> Prop) l u : tightest S (l, u) -> tightest (fun t => S (- t)) (fneg u, fneg l).
Proof.
intros (W & E & H). assert (M : forall a b r, @mem F r (fneg b, fneg a) <-> mem (- r) (a, b)) by (intros; apply mem_neg).
assert (WW : forall a b, wf (a, b) -> wf (fneg b, fneg a)).
{ intros a b [X|X]; [left; injection X; now intros -> ->|right]. destruct X as [r Hr]. exists (- r). apply mem_neg. now rewrite Ropp_involutive. }
split; [now apply WW|]. split.
- intros r Hr. apply M. now apply E.
- intros [a b] W' E' r Hr. apply (proj1 (M l u r)) in Hr.
  assert (K : mem (- r) (fneg b, fneg a)).
  { apply H; [now apply WW| |easy]. intros s Hs. apply M. apply E'. now rewrite Ropp_involutive. }
  apply (proj1 (M a b (- r))) in K. now rewrite Ropp_involutive in K.
Qed.
Lemma pos_even_cut c x : wf c -> wf x -> isnan (fst c) = false -> Z.even (Zpos q) = true ->
  exists z, (if flt (snd c) f0 then ret empty else
       let u := mpfr_root mode_UP (snd c) (Zpos q) in
       if fle (fst c) f0 then intersection x (fneg u, u) else
       let l := mpfr_root mode_DN (fst c) (Zpos q) in
       hull_of_l x (fneg u, fneg l) (l, u)) = ret z /\ cut_sides (Zpos q) c x z.
Proof.
intros Wc Wx Nc Ev. destruct (even_pos q Ev) as [k Hk].
assert (PP : forall t : R, t ^ n = Rabs t ^ n) by (intros t; rewrite Hk; symmetry; apply pow_even_abs).
assert (PO : forall t : R, (- t) ^ n = t ^ n) by (intros t; rewrite PP, (PP t); now rewrite Rabs_Ropp).
destruct (flt (snd c) f0) eqn:Eu.
{ assert (N : forall t, ~ mem (t ^ n) c).
  { intros t [_ H]. assert (0 <= t ^ n) by (rewrite PP; apply pow_le, Rabs_pos).
    destruct (wf_view c Wc) as [ | |b|a|a b]; cbn [fst snd] in *; try easy; hcmp; rewrite ub_fin in H by easy; rewrite ?B2R_f0 in *; lra. }
  exists empty. split; [easy|]. exists empty, empty. split; [|split].
  - apply tightest_empty. intros t [_ H]. apply sol_pos in H. now apply N in H.
  - apply tightest_empty. intros t [_ H]. apply sol_pos in H. now apply N in H.
  - apply tightest_empty. intros t [_ [H|H]]; destruct H as [H _]; exact (False_ind _ H). }
assert (Cu : fle f0 (snd c) = true).
{ destruct (wf_view c Wc) as [ | |b|a|a b]; cbn [fst snd] in *; try easy; revert Eu; fcmp; repeat rcase; try easy; lra. }
pose proof (pos_side c Wc Nc Cu) as T. pose proof (tightest_neg _ _ _ T) as T'. cbv zeta.
set (u := mpfr_root mode_UP (snd c) (Zpos q)) in *.
assert (T2 : tightest (fun t => 0 <= t /\ solves (Zpos q) c t) ((if fle (fst c) f0 then f0 else mpfr_root mode_DN (fst c) (Zpos q)), u)).
{ eapply tightest_ext; [|exact T]. intros t. now rewrite sol_pos. }
assert (T1 : tightest (fun t => t <= 0 /\ solves (Zpos q) c t) (fneg u, fneg (if fle (fst c) f0 then f0 else mpfr_root mode_DN (fst c) (Zpos q)))).
{ eapply tightest_ext; [|exact T']. intros t. rewrite sol_pos. unfold SP. rewrite PO. split; intros [H1 H2]; (split; [lra|easy]). }
destruct (fle (fst c) f0) eqn:El.
- assert (U0 : ub u 0).
  { destruct T as (WT & E & _). destruct WT as [X|[r [R1 R2]]].
    - exfalso. injection X. intros X1. now destruct X1.
    - cbn [fst snd] in *. rewrite lb_fin, B2R_f0 in R1 by reflexivity. now apply ub_mono with r. }
  destruct (inter_cut x (fneg u, u) (fneg u, fneg f0) (f0, u) Wx) as (y & H1 & H2).
  { right. exists 0. split; cbn [fst snd]; [apply lb_fneg; now rewrite Ropp_0|easy]. }
  { intros r. rewrite mem_neg. unfold mem. cbn [fst snd]. rewrite lb_fneg, !(lb_fin f0), B2R_f0 by reflexivity. split.
    - intros [A B]. destruct (Rle_or_lt r 0); [left|right]; (split; [lra|easy]).
    - intros [[A B]|[A B]]; (split; [easy || (apply ub_mono with 0; [easy|lra])|easy || (apply ub_mono with 0; [easy|lra])]). }
  exists y. split; [easy|]. eexists. eexists. split; [exact T1|]. split; [exact T2|exact H2].
- destruct (hull_cut x _ _ Wx (proj1 T1) (proj1 T2)) as (y & H1 & H2). exists y. split; [exact H1|].
  eexists. eexists. split; [exact T1|]. split; [exact T2|exact H2].
Qed.
End P.
