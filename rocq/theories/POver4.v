(** * Proofs: the radius between two mixed calls, and decorated numeric and reverse functions *)
From Coq Require Import ZArith NArith Reals Bool Lra Lia List Setoid.
From Flocq Require Import Core.Core IEEE754.BinarySingleNaN.
From Verif Require Import Fmt Spec FloatFacts Exc Deco SpecApi SpecElem SpecMixed SpecAlg SpecNum SpecRev SpecMulRev SpecOver MBase PBase PConv MArith MTrig MMixed MNum PMixed PNumF MRev PIso POver POver3.
From Verif Require C21 C24 C25.
Local Open Scope R_scope.

Lemma rad_infinite T {F} (x : itv F) (m : float T) : comparable F T -> (exists r, mem r x) -> bounded_rep x -> returns (n_mid_mixed T x) m -> isinf m = true ->
  returns (n_rad_mixed T x) finf.
Proof.
intros HC Hx [B1 B2] Em Im. pose proof (mem_wf x Hx) as W. pose proof (mem_nnan x Hx) as E.
destruct (n_mid_mixed_ret T x W E) as (m' & Hm & _).
assert (m' = m) by (rewrite Hm in Em; apply (returns_one (ret m')); [intros s; reflexivity|exact Em]). subst m'.
destruct (within_pmax T F (comparable_sym _ _ HC)) as [WG WF].
destruct (fconv_exact (pmax T F) mode_DN (fst x) WF B1) as [F1 _]. destruct (fconv_exact (pmax T F) mode_UP (snd x) WF B2) as [F2 _].
unfold n_rad_mixed, n_mid_rad_mixed. rewrite is_valid_wf, is_empty_wf by easy. rewrite Hm. mreds. rewrite E. mreds.
destruct m as [|sm| |]; try discriminate Im.
destruct (fconv (pmax T F) mode_DN (fst x)) as [s1|s1| |s1 m1 e1 p1]; try discriminate F1;
destruct (fconv (pmax T F) mode_UP (snd x)) as [s2|s2| |s2 m2 e2 p2]; try discriminate F2; destruct sm; intros s; reflexivity.
Qed.
Lemma rad_mix_full T {F G} (x : itv F) (y : itv G) : comparable F T -> comparable G T -> wf x -> wf y -> same_numbers x y ->
  same_float (n_rad_mixed T x) (n_rad_mixed T y).
Proof.
intros C D Wx Wy E. destruct (both_cases x y Wx Wy E) as [[-> ->]|[Hx Hy]].
{ exists fnan. destruct (C21.C21_empty_mixed F T) as (_ & _ & _ & _ & A & _). destruct (C21.C21_empty_mixed G T) as (_ & _ & _ & _ & B & _). rewrite A, B. now split. }
destruct (mid_mix T x y Wx Wy E) as (m & Em & En).
destruct (is_finite m) eqn:Fin.
- destruct (C21.C21_rad_mixed F T x C Hx) as (m1 & r1 & _ & E1 & R1 & L1 & Z1). destruct (C21.C21_rad_mixed G T y D Hy) as (m2 & r2 & _ & E2 & R2 & L2 & Z2).
  rewrite (returns_one _ _ _ E1 Em) in *. rewrite (returns_one _ _ _ E2 En) in *.
  refine (num_above _ _ _ _ f0 (set_distances (B2R m) x y E) _ _); [exists r1|exists r2]; (split; [assumption|split; [auto|assumption]]).
- destruct (C21.C21_mid_mixed F T x Hx) as (m1 & E1 & _ & _ & U1 & N1). rewrite (returns_one _ _ _ E1 Em) in *.
  destruct (C21.C21_mid_mixed G T y Hy) as (m2 & E2 & _ & _ & U2 & N2). rewrite (returns_one _ _ _ E2 En) in *.
  assert (Bx : bounded_rep x) by (apply Classical_Prop.NNPP; intros K; apply U1 in K; congruence).
  assert (By : bounded_rep y) by (apply Classical_Prop.NNPP; intros K; apply U2 in K; congruence).
  assert (I : isinf m = true).
  { destruct (N1 Bx) as [[Q _]|(_ & Q1 & Q2)]; [congruence|]. destruct m; try easy.
    exfalso. destruct (Rtotal_order 0 ((B2R (fst x) + B2R (snd x)) / 2)) as [K|[K|K]]; [now specialize (Q1 K)| |now specialize (Q2 K)].
    destruct (N1 Bx) as [[Q _]|(Q & _)]; [discriminate|]. rewrite <- K, round_0 in Q by apply valid_rnd_N. rewrite Rabs_R0 in Q. pose proof (bpow_gt_0 radix2 (emax T)). lra. }
  exists finf. split; [exact (rad_infinite T x m C Hx Bx Em I)|exact (rad_infinite T y m D Hy By En I)].
Qed.

Lemma wf_fst {F} (x : ditv F) : wf_dec x -> wf (fst x).
Proof. intros [[H _]|[H _]]; [now left|now right]. Qed.
Lemma num_dec_over {F G} (f : itv F -> M (float F)) (g : itv G -> M (float F)) (x : ditv F) (y : ditv G) :
  wf_dec x -> wf_dec y -> same_dec x y -> (wf (fst x) -> wf (fst y) -> same_numbers (fst x) (fst y) -> same_float (f (fst x)) (g (fst y))) ->
  same_float (num_dec f x) (num_dec_mixed F g y).
Proof.
intros Wx Wy [E D] H. destruct (n_dec f x Wx) as [A1 A2]. destruct (n_dec_mixed F g y Wy) as [B1 B2].
destruct (N.eq_dec (snd x) ill) as [I|I].
- exists fnan. split; [now apply A1|]. apply B1. now rewrite <- D.
- rewrite A2, B2 by (try easy; now rewrite <- D). apply H; auto using @wf_fst.
Qed.
Lemma num_dec_mix T {F G} (f : itv F -> M (float T)) (g : itv G -> M (float T)) (x : ditv F) (y : ditv G) :
  wf_dec x -> wf_dec y -> same_dec x y -> (wf (fst x) -> wf (fst y) -> same_numbers (fst x) (fst y) -> same_float (f (fst x)) (g (fst y))) ->
  same_float (num_dec_mixed T f x) (num_dec_mixed T g y).
Proof.
intros Wx Wy [E D] H. destruct (n_dec_mixed T f x Wx) as [A1 A2]. destruct (n_dec_mixed T g y Wy) as [B1 B2].
destruct (N.eq_dec (snd x) ill) as [I|I].
- exists fnan. split; [now apply A1|]. apply B1. now rewrite <- D.
- rewrite A2, B2 by (try easy; now rewrite <- D). apply H; auto using @wf_fst.
Qed.
Lemma num_decs_over {F G} (x : ditv F) (y : ditv G) : comparable G F -> wf_dec x -> wf_dec y -> same_dec x y ->
  same_float (n_inf_dec x) (num_dec_mixed F (n_inf_mixed F) y) /\ same_float (n_sup_dec x) (num_dec_mixed F (n_sup_mixed F) y) /\
  same_float (n_mid_dec x) (num_dec_mixed F (n_mid_mixed F) y) /\ same_float (n_rad_dec x) (num_dec_mixed F (n_rad_mixed F) y) /\
  same_float (n_wid_dec x) (num_dec_mixed F (n_wid_mixed F) y) /\ same_float (n_mag_dec x) (num_dec_mixed F (n_mag_mixed F) y) /\
  same_float (n_mig_dec x) (num_dec_mixed F (n_mig_mixed F) y).
Proof.
intros C Wx Wy E. split; [|split; [|split; [|split; [|split; [|split]]]]]; apply num_dec_over; auto; intros V W S.
- now apply inf_over.
- now apply sup_over. - now apply mid_over. - now apply rad_over. - now apply wid_over. - now apply mag_over. - now apply mig_over.
Qed.
Lemma num_decs_mix T {F G} (x : ditv F) (y : ditv G) : comparable F T -> comparable G T -> wf_dec x -> wf_dec y -> same_dec x y ->
  same_float (num_dec_mixed T (n_inf_mixed T) x) (num_dec_mixed T (n_inf_mixed T) y) /\ same_float (num_dec_mixed T (n_sup_mixed T) x) (num_dec_mixed T (n_sup_mixed T) y) /\
  same_float (num_dec_mixed T (n_mid_mixed T) x) (num_dec_mixed T (n_mid_mixed T) y) /\ same_float (num_dec_mixed T (n_rad_mixed T) x) (num_dec_mixed T (n_rad_mixed T) y) /\
  same_float (num_dec_mixed T (n_wid_mixed T) x) (num_dec_mixed T (n_wid_mixed T) y) /\ same_float (num_dec_mixed T (n_mag_mixed T) x) (num_dec_mixed T (n_mag_mixed T) y) /\
  same_float (num_dec_mixed T (n_mig_mixed T) x) (num_dec_mixed T (n_mig_mixed T) y).
Proof.
intros C D Wx Wy E. split; [|split; [|split; [|split; [|split; [|split]]]]]; apply num_dec_mix; auto; intros V W S.
- now apply inf_mix.
- now apply sup_mix. - now apply mid_mix. - now apply rad_mix_full. - now apply wid_mix. - now apply mag_mix. - now apply mig_mix.
Qed.

Lemma trv_same {T} (m n : M (ditv T)) S S' : gives m (with_trv (tightest S)) -> gives n (with_trv (tightest S')) -> (forall r, S r <-> S' r) -> agree_dec m n.
Proof.
intros (z & Ez & Dz & _ & Tz) (w & Ew & Dw & _ & Tw) E. exists z, w. split; [exact Ez|]. split; [exact Ew|]. split; [exact (tight_num _ _ _ _ Tz Tw E)|congruence].
Qed.
Section Rev.
Context {F G H : fmt} (c x : ditv F) (c' : ditv G) (x' : ditv H) (C1 : comparable F G) (C2 : comparable F H) (C3 : comparable G H)
  (W1 : wf_dec c) (I1 : snd c <> ill) (W2 : wf_dec x) (I2 : snd x <> ill) (W3 : wf_dec c') (W4 : wf_dec x') (E : same_dec c c') (K : same_dec x x').
Lemma J3 : snd c' <> ill. Proof. destruct E as [_ <-]. exact I1. Qed.
Lemma J4 : snd x' <> ill. Proof. destruct K as [_ <-]. exact I2. Qed.
Lemma sqr_rev_dover : agree_dec (sqr_rev_dec c x) (sqr_rev_dec_mixed F c' x').
Proof. exact (trv_same _ _ _ _ (C25.C25_sqr_rev_dec F c x W1 I1 W2 I2) (C25.C25_sqr_rev_dec_mixed G H F c' x' C1 C2 C3 W3 J3 W4 J4) (pre_same _ _ _ _ _ _ (proj1 E) (proj1 K))). Qed.
Lemma abs_rev_dover : agree_dec (abs_rev_dec c x) (abs_rev_dec_mixed F c' x').
Proof. exact (trv_same _ _ _ _ (C25.C25_abs_rev_dec F c x W1 I1 W2 I2) (C25.C25_abs_rev_dec_mixed G H F c' x' C1 C2 C3 W3 J3 W4 J4) (pre_same _ _ _ _ _ _ (proj1 E) (proj1 K))). Qed.
Lemma cosh_rev_dover : agree_dec (cosh_rev_dec c x) (cosh_rev_dec_mixed F c' x').
Proof. exact (trv_same _ _ _ _ (C25.C25_cosh_rev_dec F c x W1 I1 W2 I2) (C25.C25_cosh_rev_dec_mixed G H F c' x' C1 C2 C3 W3 J3 W4 J4) (pre_same _ _ _ _ _ _ (proj1 E) (proj1 K))). Qed.
Lemma mul_rev_dover {I : fmt} (t : ditv F) (t' : ditv I) : comparable F I -> comparable G I -> comparable H I -> wf_dec t -> snd t <> ill -> wf_dec t' -> same_dec t t' ->
  agree_dec (mul_rev_dec c x t) (mul_rev_dec_mixed F c' x' t').
Proof.
intros D1 D2 D3 V It V' L. assert (It' : snd t' <> ill) by (destruct L as [_ <-]; exact It).
refine (trv_same _ _ _ _ (C24.C24_mul_rev_dec_exact F c x t W1 I1 W2 I2 V It) (C24.C24_mul_rev_dec_mixed_exact G H I F c' x' t' C1 C2 C3 D1 D2 D3 W3 J3 W4 J4 V' It') _).
intros r. rewrite (lim_same _ _ _ _ (proj1 E) (proj1 K) r). destruct L as [L _]. unfold same_numbers in L. rewrite L. tauto.
Qed.
End Rev.
Section Rev2.
Context (T : fmt) {F G F' G' : fmt} (c : ditv F) (x : ditv G) (c' : ditv F') (x' : ditv G')
  (C1 : comparable T F) (C2 : comparable T G) (C3 : comparable F G) (D1 : comparable T F') (D2 : comparable T G') (D3 : comparable F' G')
  (W1 : wf_dec c) (I1 : snd c <> ill) (W2 : wf_dec x) (I2 : snd x <> ill) (W3 : wf_dec c') (W4 : wf_dec x') (E : same_dec c c') (K : same_dec x x').
Lemma sqr_rev_dmix : agree_dec (sqr_rev_dec_mixed T c x) (sqr_rev_dec_mixed T c' x').
Proof. exact (trv_same _ _ _ _ (C25.C25_sqr_rev_dec_mixed F G T c x C1 C2 C3 W1 I1 W2 I2) (C25.C25_sqr_rev_dec_mixed F' G' T c' x' D1 D2 D3 W3 (eq_ind _ (fun d => d <> ill) I1 _ (proj2 E)) W4 (eq_ind _ (fun d => d <> ill) I2 _ (proj2 K))) (pre_same _ _ _ _ _ _ (proj1 E) (proj1 K))). Qed.
Lemma abs_rev_dmix : agree_dec (abs_rev_dec_mixed T c x) (abs_rev_dec_mixed T c' x').
Proof. exact (trv_same _ _ _ _ (C25.C25_abs_rev_dec_mixed F G T c x C1 C2 C3 W1 I1 W2 I2) (C25.C25_abs_rev_dec_mixed F' G' T c' x' D1 D2 D3 W3 (eq_ind _ (fun d => d <> ill) I1 _ (proj2 E)) W4 (eq_ind _ (fun d => d <> ill) I2 _ (proj2 K))) (pre_same _ _ _ _ _ _ (proj1 E) (proj1 K))). Qed.
Lemma cosh_rev_dmix : agree_dec (cosh_rev_dec_mixed T c x) (cosh_rev_dec_mixed T c' x').
Proof. exact (trv_same _ _ _ _ (C25.C25_cosh_rev_dec_mixed F G T c x C1 C2 C3 W1 I1 W2 I2) (C25.C25_cosh_rev_dec_mixed F' G' T c' x' D1 D2 D3 W3 (eq_ind _ (fun d => d <> ill) I1 _ (proj2 E)) W4 (eq_ind _ (fun d => d <> ill) I2 _ (proj2 K))) (pre_same _ _ _ _ _ _ (proj1 E) (proj1 K))). Qed.
End Rev2.
