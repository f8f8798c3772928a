(** * Proofs: the bounds found by the reverse integer power are the best ones *)
From Coq Require Import ZArith NArith Reals Bool Lia Lra Psatz List.
From Flocq Require Import Core.Core Calc.Operations IEEE754.BinarySingleNaN.
From Verif Require Import Fmt Spec SpecElem FloatFacts Exc Deco SpecApi MBase PBase MBool MArith PArith PMul PFma PDiv PUnary
  PConv PBool PSetop PDec MNum PNumF PCancel MElem PElem MPow PPown MRev SpecRev PRev PMulRev PRevEven PPownRev PPownRev2.

Local Open Scope R_scope.

Section Rnd.
Context {F : fmt}.
Implicit Types a b v w : float F.
Lemma RD_below y v : is_finite v = true -> B2R v <= y -> (forall b, is_finite b = true -> B2R v < B2R b -> y < B2R b) -> is_RD y v.
Proof.
intros Fv L H. split; [now rewrite lb_fin|]. intros l' H' t Ht. rewrite lb_fin in Ht by easy.
destruct (fviewP l') as [ | | |l' Fl]; simpl in *; try easy. rewrite lb_fin in * by easy.
destruct (Rle_or_lt (B2R l') (B2R v)); [lra|]. specialize (H l' Fl H0). lra.
Qed.
Lemma RU_above y v : is_finite v = true -> y <= B2R v -> (forall b, is_finite b = true -> B2R b < B2R v -> B2R b < y) -> is_RU y v.
Proof.
intros Fv L H. split; [now rewrite ub_fin|]. intros l' H' t Ht. rewrite ub_fin in Ht by easy.
destruct (fviewP l') as [ | | |l' Fl]; simpl in *; try easy. rewrite ub_fin in * by easy.
destruct (Rle_or_lt (B2R v) (B2R l')); [lra|]. specialize (H l' Fl H0). lra.
Qed.
Lemma RD_minf y : (forall b, is_finite b = true -> y < B2R b) -> is_RD y (@fminf F).
Proof.
intros H. split; [easy|]. intros l' H' t Ht. destruct (fviewP l') as [ | | |l' Fl]; simpl in *; try easy.
rewrite lb_fin in * by easy. specialize (H l' Fl). lra.
Qed.
Lemma RU_pinf y : (forall b, is_finite b = true -> B2R b < y) -> is_RU y (@finf F).
Proof.
intros H. split; [easy|]. intros l' H' t Ht. destruct (fviewP l') as [ | | |l' Fl]; simpl in *; try easy.
rewrite ub_fin in * by easy. specialize (H l' Fl). lra.
Qed.
Lemma RU_val y a v : is_finite a = true -> B2R a = y -> is_RU y v -> is_finite v = true /\ B2R v = y.
Proof.
intros Fa <- [H1 H2]. specialize (H2 a). rewrite ub_fin in H2 by easy. specialize (H2 (Rle_refl _)).
destruct (fviewP v) as [ | | |v Fv]; simpl in *; try easy.
- specialize (H2 (B2R a + 1) eq_refl). rewrite ub_fin in H2 by easy. lra.
- specialize (H2 (B2R v)). rewrite ub_fin in * by easy. rewrite ub_fin in H2 by easy. specialize (H2 (Rle_refl _)). split; [easy|lra].
Qed.
Lemma RD_val y a v : is_finite a = true -> B2R a = y -> is_RD y v -> is_finite v = true /\ B2R v = y.
Proof.
intros Fa <- [H1 H2]. specialize (H2 a). rewrite lb_fin in H2 by easy. specialize (H2 (Rle_refl _)).
destruct (fviewP v) as [ | | |v Fv]; simpl in *; try easy.
- specialize (H2 (B2R a - 1) eq_refl). rewrite lb_fin in H2 by easy. lra.
- specialize (H2 (B2R v)). rewrite lb_fin in * by easy. rewrite lb_fin in H2 by easy. specialize (H2 (Rle_refl _)). split; [easy|lra].
Qed.
End Rnd.

Section Loop.
Context {F : fmt} (q : BinNums.positive).
Implicit Types a b c l u v w : float F.
Notation n := (Pos.to_nat q).
Notation root r := (rootR (Zpos q) r).
Notation p := (Zneg q).
Section One.
Context (c : float F).
Hypothesis Fc : is_finite c = true.
Hypothesis Ac : adm q (B2R c).
Notation rho := (/ root (B2R c)).

Definition lo_ex (r : float F * bool) : Prop :=
  is_RD rho (fst r) /\ (snd r = false -> is_finite (fst r) = true -> B2R (fst r) = rho).
Definition up_ex (r : float F * bool) : Prop :=
  is_RU rho (fst r) /\ (snd r = false -> is_finite (fst r) = true -> B2R (fst r) = rho).

(** A number that is the reciprocal root is recognised. *)
Lemma step_hit m w : (m = mode_UP \/ m = mode_DN) -> is_finite w = true -> B2R w <> 0 -> same_sign q (B2R w) (B2R c) -> B2R w = rho ->
  let cm := mpfr_pow_si m w p in feq c cm && negb (pow_inexact w p cm) = true.
Proof.
intros Hm Fw Nw S E cm. destruct (side q (B2R w) (B2R c) S) as (_ & S2 & _). specialize (S2 E).
assert (V : is_finite cm = true /\ B2R cm = B2R c).
{ pose proof (pow_si_neg m w q Fw Nw) as K. rewrite powneg, <- S2 in K. fold cm in K. destruct Hm as [-> | ->].
  - now apply (RU_val _ c _ Fc eq_refl), rnds_UP.
  - now apply (RD_val _ c _ Fc eq_refl), rnds_DN. }
destruct V as [V1 V2]. rewrite feq_fin, Req_bool_true by easy. cbn [andb]. unfold pow_inexact, inexact.
rewrite Fw, V1, powneg, <- S2. cbn [andb]. rewrite negb_involutive, Req_bool_true by easy. easy.
Qed.

Definition lo_start v : Prop := (v = fminf /\ rho < 0) \/ (is_finite v = true /\ B2R v < rho /\ (0 < rho -> 0 <= B2R v)).
Definition up_start v : Prop := (v = finf /\ 0 < rho) \/ (is_finite v = true /\ rho < B2R v /\ (rho < 0 -> B2R v <= 0)).

Lemma inf_loop_exact k : forall v r, lo_start v -> inf_loop k c v p = Some r -> lo_ex r.
Proof.
pose proof (rho_sign q c Ac) as RS.
induction k as [|k IH]; [easy|]. intros v r St. cbn [inf_loop].
destruct St as [[-> Hr]|(Fv & L & P)].
- set (w := fneg (@fmaxv F)). assert (Fw : is_finite w = true) by reflexivity. rewrite Bsucc_minf. fold w.
  assert (Bw : B2R w = - B2R (@fmaxv F)) by apply B2R_Bopp. pose proof (@fmaxv_ge1 F) as G.
  assert (Low : forall b, is_finite b = true -> B2R w <= B2R b).
  { intros b _. pose proof (abs_le_fmaxv b) as K. apply Rabs_le_inv in K. lra. }
  assert (Pw : Bpred w = fminf).
  { destruct (Bpred_fin w Fw) as [(K1 & K2 & _)|[K _]]; [|easy]. specialize (Low _ K1). lra. }
  assert (Nw : B2R w <> 0) by (intros K; lra).
  assert (S : same_sign q (B2R w) (B2R c)).
  { destruct RS as [[R1 R2]|(R1 & R2 & O)]; [lra|right]. split; [exact O|]. split; [|exact R2]. rewrite Bw. clear -G. lra. }
  replace (regular w) with true by (symmetry; apply regular_spec; split; [easy|lra]). cbn [negb]. cbv zeta.
  destruct (up_step q c Fc w Fw Nw S) as [U1 U2]. cbv zeta in U1, U2. destruct (flt c _) eqn:E.
  + apply IH. right. split; [easy|]. split; [now apply U1|]. intros; lra.
  + assert (E1 : rho <= B2R w) by (apply Rnot_lt_le; intros K; apply U1 in K; discriminate).
    destruct (feq c _ && negb _) eqn:E2; intros H; injection H as <-.
    * specialize (U2 eq_refl). split; cbn [fst snd]; [rewrite <- U2; now apply is_RD_self|easy].
    * split; cbn [fst snd]; [|easy]. rewrite Pw. apply RD_minf. intros b Fb. specialize (Low b Fb).
      assert (B2R w <> rho). { intros K. pose proof (step_hit mode_UP w (or_introl eq_refl) Fw Nw S K) as Q. cbv zeta in Q. rewrite E2 in Q. discriminate. } lra.
- destruct (Bsucc_fin v Fv) as [(H1 & H2 & H3 & H4 & H5)|[H1 H2]].
  + assert (BK : rho < B2R (Bsucc v) -> lo_ex (Bpred (Bsucc v), true)).
    { intros K. split; cbn [fst snd]; [|easy]. apply RD_below; [easy|lra|]. intros b Fb Lb. rewrite H4 in Lb. specialize (H5 b Fb Lb). lra. }
    destruct (regular (Bsucc v)) eqn:Rw; cbn [negb].
    2:{ intros H. injection H as <-. apply BK. assert (Z : B2R (Bsucc v) = 0).
        { destruct (Req_dec (B2R (Bsucc v)) 0) as [Z|Z]; [easy|]. assert (regular (Bsucc v) = true) by (apply regular_spec; now split). congruence. }
        rewrite Z. destruct RS as [[R1 _]|(R1 & _)]; [specialize (P R1); lra|easy]. }
    apply regular_spec in Rw. destruct Rw as [_ Nw].
    assert (S : same_sign q (B2R (Bsucc v)) (B2R c)).
    { destruct RS as [[R1 R2]|(R1 & R2 & O)]; [left|right].
      - specialize (P R1). split; lra.
      - split; [easy|]. split; [|easy]. assert (B2R (Bsucc v) <= B2R (@f0 F)) by (apply H5; [easy|change (B2R (@f0 F)) with 0; lra]).
        change (B2R (@f0 F)) with 0 in *. lra. }
    destruct (up_step q c Fc (Bsucc v) H1 Nw S) as [U1 U2]. cbv zeta in U1, U2 |- *. destruct (flt c _) eqn:E.
    * apply IH. right. split; [easy|]. split; [now apply U1|]. intros R1. specialize (P R1). lra.
    * assert (E1 : rho <= B2R (Bsucc v)) by (apply Rnot_lt_le; intros K; apply U1 in K; discriminate).
      destruct (feq c _ && negb _) eqn:E2; intros H; injection H as <-.
      -- specialize (U2 eq_refl). split; cbn [fst snd]; [rewrite <- U2; now apply is_RD_self|easy].
      -- apply BK. assert (B2R (Bsucc v) <> rho).
         { intros K. pose proof (step_hit mode_UP (Bsucc v) (or_introl eq_refl) H1 Nw S K) as Q. cbv zeta in Q. rewrite E2 in Q. discriminate. } lra.
  + rewrite H1. cbn [regular is_finite andb negb finf]. intros H. injection H as <-.
    change (Bpred (B754_infinity false : float F)) with (@fmaxv F). split; cbn [fst snd]; [|easy].
    assert (K : B2R (@fmaxv F) < rho) by exact (Rle_lt_trans _ _ _ (H2 fmaxv is_finite_fmaxv) L).
    apply RD_below; [apply is_finite_fmaxv|apply Rlt_le; exact K|]. intros b Fb Lb. pose proof (abs_le_fmaxv b) as Q. apply Rabs_le_inv in Q. destruct (Rlt_not_le _ _ Lb (proj2 Q)).
Qed.
Lemma sup_loop_exact k : forall v r, up_start v -> sup_loop k c v p = Some r -> up_ex r.
Proof.
pose proof (rho_sign q c Ac) as RS.
induction k as [|k IH]; [easy|]. intros v r St. cbn [sup_loop].
destruct St as [[-> Hr]|(Fv & L & P)].
- set (w := @fmaxv F). assert (Fw : is_finite w = true) by apply is_finite_fmaxv. rewrite Bpred_pinf. fold w.
  pose proof (@fmaxv_ge1 F) as G. fold w in G.
  assert (Upp : forall b, is_finite b = true -> B2R b <= B2R w).
  { intros b _. pose proof (abs_le_fmaxv b) as K. apply Rabs_le_inv in K. unfold w. lra. }
  assert (Pw : Bsucc w = finf).
  { destruct (Bsucc_fin w Fw) as [(K1 & K2 & _)|[K _]]; [|easy]. specialize (Upp _ K1). lra. }
  assert (Nw : B2R w <> 0) by (intros K; lra).
  assert (S : same_sign q (B2R w) (B2R c)).
  { destruct RS as [[R1 R2]|(R1 & R2 & O)]; [left|lra]. split; lra. }
  replace (regular w) with true by (symmetry; apply regular_spec; split; [easy|lra]). cbn [negb]. cbv zeta.
  destruct (dn_step q c Fc w Fw Nw S) as [U1 U2]. cbv zeta in U1, U2. destruct (fgt c _) eqn:E.
  + apply IH. right. split; [easy|]. split; [now apply U1|]. intros; lra.
  + assert (E1 : B2R w <= rho) by (apply Rnot_lt_le; intros K; apply U1 in K; discriminate).
    destruct (feq c _ && negb _) eqn:E2; intros H; injection H as <-.
    * specialize (U2 eq_refl). split; cbn [fst snd]; [rewrite <- U2; now apply is_RU_self|easy].
    * split; cbn [fst snd]; [|easy]. change (is_RU rho (Bsucc w)). rewrite Pw. apply RU_pinf. intros b Fb. specialize (Upp b Fb).
      assert (B2R w <> rho). { intros K. pose proof (step_hit mode_DN w (or_intror eq_refl) Fw Nw S K) as Q. cbv zeta in Q. rewrite E2 in Q. discriminate. } lra.
- destruct (Bpred_fin v Fv) as [(H1 & H2 & H3 & H4 & H5)|[H1 H2]].
  + assert (BK : B2R (Bpred v) < rho -> up_ex (Bsucc (Bpred v), true)).
    { intros K. split; cbn [fst snd]; [|easy]. apply RU_above; [easy|lra|]. intros b Fb Lb. rewrite H4 in Lb. specialize (H5 b Fb Lb). lra. }
    destruct (regular (Bpred v)) eqn:Rw; cbn [negb].
    2:{ intros H. injection H as <-. apply BK. assert (Z : B2R (Bpred v) = 0).
        { destruct (Req_dec (B2R (Bpred v)) 0) as [Z|Z]; [easy|]. assert (regular (Bpred v) = true) by (apply regular_spec; now split). congruence. }
        rewrite Z. destruct RS as [[R1 _]|(R1 & _)]; [easy|specialize (P R1); lra]. }
    apply regular_spec in Rw. destruct Rw as [_ Nw].
    assert (S : same_sign q (B2R (Bpred v)) (B2R c)).
    { destruct RS as [[R1 R2]|(R1 & R2 & O)]; [left|right].
      - split; [|easy]. assert (B2R (@f0 F) <= B2R (Bpred v)) by (apply H5; [easy|change (B2R (@f0 F)) with 0; lra]).
        change (B2R (@f0 F)) with 0 in *. lra.
      - specialize (P R1). split; [easy|]. lra. }
    destruct (dn_step q c Fc (Bpred v) H1 Nw S) as [U1 U2]. cbv zeta in U1, U2 |- *. destruct (fgt c _) eqn:E.
    * apply IH. right. split; [easy|]. split; [now apply U1|]. intros R1. specialize (P R1). lra.
    * assert (E1 : B2R (Bpred v) <= rho) by (apply Rnot_lt_le; intros K; apply U1 in K; discriminate).
      destruct (feq c _ && negb _) eqn:E2; intros H; injection H as <-.
      -- specialize (U2 eq_refl). split; cbn [fst snd]; [rewrite <- U2; now apply is_RU_self|easy].
      -- apply BK. assert (B2R (Bpred v) <> rho).
         { intros K. pose proof (step_hit mode_DN (Bpred v) (or_intror eq_refl) H1 Nw S K) as Q. cbv zeta in Q. rewrite E2 in Q. discriminate. } lra.
  + rewrite H1. cbn [regular is_finite andb negb fminf]. intros H. injection H as <-.
    change (Bsucc (B754_infinity true : float F)) with (fneg (@fmaxv F)). split; cbn [fst snd]; [|easy].
    assert (Fw : is_finite (fneg (@fmaxv F)) = true) by reflexivity. assert (Bw : B2R (fneg (@fmaxv F)) = - B2R (@fmaxv F)) by apply B2R_Bopp.
    assert (K : rho < B2R (fneg (@fmaxv F))) by exact (Rlt_le_trans _ _ _ L (H2 _ Fw)).
    apply RU_above; [easy|apply Rlt_le; exact K|]. intros b Fb Lb. pose proof (abs_le_fmaxv b) as Q. apply Rabs_le_inv in Q. apply Rlt_not_le in Lb. destruct Lb. refine (Rle_trans _ _ _ (Req_le _ _ Bw) (proj1 Q)).
Qed.
End One.

Lemma root1 (c : R) : adm 1 c -> rootR 1 c = c.
Proof. intros A. pose proof (root_pow 1 c A) as K. change (Pos.to_nat 1) with 1%nat in K. now rewrite pow_1 in K. Qed.

Lemma pown_rev_inf_exact c : is_finite c = true -> adm q (B2R c) -> Zneg q <> int_min ->
  exists r k, (forall j, (k <= j)%nat -> pown_rev_inf j c p = ret r) /\ lo_res q c r /\ lo_ex c r.
Proof.
intros Fc A NP. destruct (pown_rev_inf_fin q c Fc A NP) as (r & k & H & HL). exists r, k. split; [easy|]. split; [easy|].
specialize (H k (le_n k)). revert H. unfold pown_rev_inf. rewrite (proj2 (Z.eqb_neq _ _) NP). change (- p)%Z with (Zpos q).
pose proof (rnds_UP _ _ (root_rnds q mode_UP c Fc A)) as RU. set (v := mpfr_root mode_UP c (Zpos q)) in *.
destruct (root_between q c v Fc A (or_introl RU)) as (Fv & Vp & Vn).
pose proof (root_nz q _ A) as Nr.
assert (Nv : B2R v <> 0) by (destruct A as [K|[_ K]]; [specialize (Vp K)|specialize (Vn K)]; lra).
pose proof (rnds_DN _ _ (rdiv_rnds mode_DN (@f1 F) v is_finite_f1 Fv Nv)) as RD. rewrite B2R_f1 in RD.
set (w := rdiv mode_DN f1 v) in *.
assert (SS : (0 < root (B2R c) /\ 0 < B2R v) \/ (root (B2R c) < 0 /\ B2R v < 0)).
{ destruct A as [K|[_ K]]; [left|right]; (split; [|auto]); [now apply root_pos|now apply root_neg]. }
assert (Hv : root (B2R c) <= B2R v) by (destruct RU as [K _]; now rewrite ub_fin in K).
pose proof (inv_le_same _ _ SS Hv) as Hi. unfold Rdiv in RD. rewrite Rmult_1_l in RD.
assert (Lw : lb w (/ root (B2R c))) by (apply lb_mono with (/ B2R v); [exact (proj1 RD)|exact Hi]).
set (t := div_inexact f1 v w || root_inexact c (Zpos q) v).
assert (Tf : t = false -> is_finite w = true -> B2R w = / root (B2R c)).
{ intros T Fw. unfold t in T. apply orb_false_iff in T. destruct T as [T1 T2].
  rewrite div_inexact_spec, Fw, B2R_f1 in T1 by (easy || apply is_finite_f1). cbn [andb] in T1. apply negb_false_iff in T1. revert T1.
  case Req_bool_spec; [|easy]. unfold Rdiv. rewrite Rmult_1_l. intros -> _. f_equal.
  unfold root_inexact, inexact in T2. rewrite Fc, Fv in T2. cbn [andb] in T2. apply negb_false_iff in T2. revert T2. now case Req_bool_spec. }
assert (Tw : t = true -> is_finite w = true -> B2R w < / root (B2R c)).
{ intros T Fw. assert (Lw' : B2R w <= / B2R v) by (destruct RD as [K _]; now rewrite lb_fin in K).
  unfold t in T. apply orb_prop in T. destruct T as [T|T].
  - rewrite div_inexact_spec, Fw, B2R_f1 in T by (easy || apply is_finite_f1). cbn [andb] in T. apply negb_true_iff in T. revert T.
    case Req_bool_spec; [easy|]. unfold Rdiv. rewrite Rmult_1_l. intros Ne _. lra.
  - unfold root_inexact, inexact in T. rewrite Fc, Fv in T. cbn [andb] in T. apply negb_true_iff in T. revert T.
    case Req_bool_spec; [easy|]. intros Ne _. assert (L : root (B2R c) < B2R v) by lra. pose proof (inv_lt_same _ _ SS L). lra. }
destruct (Z.eqb p (-1) || negb t) eqn:E.
{ intros H. assert (Er : r = (w, t)) by (assert (Q := f_equal (fun m => fst (m (Est 0%N 0%N))) H); now injection Q). subst r.
  split; cbn [fst snd]; [|easy].
  destruct (Z.eqb p (-1)) eqn:E1.
  - apply Z.eqb_eq in E1. assert (Eq : q = 1%positive) by (injection E1; easy).
    assert (V : B2R v = root (B2R c)).
    { apply (RU_val _ c v Fc); [|easy]. revert A. rewrite Eq. intros A. now rewrite root1. }
    now rewrite <- V.
  - cbn [orb] in E. apply negb_true_iff in E. unfold t in E. apply orb_false_iff in E. destruct E as [_ E].
    unfold root_inexact, inexact in E. rewrite Fc, Fv in E. cbn [andb] in E. apply negb_false_iff in E. revert E.
    case Req_bool_spec; [|easy]. intros <- _. easy. }
apply orb_false_iff in E. destruct E as [_ E]. apply negb_false_iff in E. specialize (Tw E).
destruct (inf_loop k c w p) as [r'|] eqn:El; [|intros H; assert (Q := f_equal (fun m => fst (m (Est 0%N 0%N))) H); discriminate].
intros H. assert (Er : r = r') by (assert (Q := f_equal (fun m => fst (m (Est 0%N 0%N))) H); now injection Q). subst r'.
apply (inf_loop_exact c Fc A k w); [|easy].
destruct (fviewP w) as [ | | |w0 Fw]; try easy.
- left. split; [easy|]. destruct (rho_sign q c A) as [[R1 R2]|(R1 & R2 & O)]; [|easy]. exfalso.
  destruct RD as [_ K]. specialize (K f0). assert (0 < / B2R v) by (apply Rinv_0_lt_compat; auto).
  rewrite lb_fin in K by easy. change (B2R (@f0 F)) with 0 in K. specialize (K ltac:(lra) (-1) eq_refl). rewrite lb_fin in K by easy. simpl in K. lra.
- right. split; [easy|]. split; [now apply Tw|]. intros R1.
  destruct (rho_sign q c A) as [[_ R2]|(R2 & _)]; [|lra].
  destruct RD as [_ K]. specialize (K f0). assert (0 < / B2R v) by (apply Rinv_0_lt_compat; auto).
  rewrite lb_fin in K by easy. change (B2R (@f0 F)) with 0 in K. specialize (K ltac:(lra) (B2R w0)). rewrite !lb_fin in K by easy. apply K. lra.
Qed.
Lemma pown_rev_sup_exact c : is_finite c = true -> adm q (B2R c) -> Zneg q <> int_min ->
  exists r k, (forall j, (k <= j)%nat -> pown_rev_sup j c p = ret r) /\ up_res q c r /\ up_ex c r.
Proof.
intros Fc A NP. destruct (pown_rev_sup_fin q c Fc A NP) as (r & k & H & HL). exists r, k. split; [easy|]. split; [easy|].
specialize (H k (le_n k)). revert H. unfold pown_rev_sup. rewrite (proj2 (Z.eqb_neq _ _) NP). change (- p)%Z with (Zpos q).
pose proof (rnds_DN _ _ (root_rnds q mode_DN c Fc A)) as RU. set (v := mpfr_root mode_DN c (Zpos q)) in *.
destruct (root_between q c v Fc A (or_intror RU)) as (Fv & Vp & Vn).
pose proof (root_nz q _ A) as Nr.
assert (Nv : B2R v <> 0) by (destruct A as [K|[_ K]]; [specialize (Vp K)|specialize (Vn K)]; lra).
pose proof (rnds_UP _ _ (rdiv_rnds mode_UP (@f1 F) v is_finite_f1 Fv Nv)) as RD. rewrite B2R_f1 in RD.
set (w := rdiv mode_UP f1 v) in *.
assert (SS : (0 < B2R v /\ 0 < root (B2R c)) \/ (B2R v < 0 /\ root (B2R c) < 0)).
{ destruct A as [K|[_ K]]; [left|right]; (split; [auto|]); [now apply root_pos|now apply root_neg]. }
assert (Hv : B2R v <= root (B2R c)) by (destruct RU as [K _]; now rewrite lb_fin in K).
pose proof (inv_le_same _ _ SS Hv) as Hi. unfold Rdiv in RD. rewrite Rmult_1_l in RD.
assert (Lw : ub w (/ root (B2R c))) by (apply ub_mono with (/ B2R v); [exact (proj1 RD)|exact Hi]).
set (t := div_inexact f1 v w || root_inexact c (Zpos q) v).
assert (Tf : t = false -> is_finite w = true -> B2R w = / root (B2R c)).
{ intros T Fw. unfold t in T. apply orb_false_iff in T. destruct T as [T1 T2].
  rewrite div_inexact_spec, Fw, B2R_f1 in T1 by (easy || apply is_finite_f1). cbn [andb] in T1. apply negb_false_iff in T1. revert T1.
  case Req_bool_spec; [|easy]. unfold Rdiv. rewrite Rmult_1_l. intros -> _. f_equal.
  unfold root_inexact, inexact in T2. rewrite Fc, Fv in T2. cbn [andb] in T2. apply negb_false_iff in T2. revert T2. now case Req_bool_spec. }
assert (Tw : t = true -> is_finite w = true -> / root (B2R c) < B2R w).
{ intros T Fw. assert (Lw' : / B2R v <= B2R w) by (destruct RD as [K _]; now rewrite ub_fin in K).
  unfold t in T. apply orb_prop in T. destruct T as [T|T].
  - rewrite div_inexact_spec, Fw, B2R_f1 in T by (easy || apply is_finite_f1). cbn [andb] in T. apply negb_true_iff in T. revert T.
    case Req_bool_spec; [easy|]. unfold Rdiv. rewrite Rmult_1_l. intros Ne _. lra.
  - unfold root_inexact, inexact in T. rewrite Fc, Fv in T. cbn [andb] in T. apply negb_true_iff in T. revert T.
    case Req_bool_spec; [easy|]. intros Ne _. assert (L : B2R v < root (B2R c)) by lra. pose proof (inv_lt_same _ _ SS L). lra. }
destruct (Z.eqb p (-1) || negb t) eqn:E.
{ intros H. assert (Er : r = (w, t)) by (assert (Q := f_equal (fun m => fst (m (Est 0%N 0%N))) H); now injection Q). subst r.
  split; cbn [fst snd]; [|easy].
  destruct (Z.eqb p (-1)) eqn:E1.
  - apply Z.eqb_eq in E1. assert (Eq : q = 1%positive) by (injection E1; easy).
    assert (V : B2R v = root (B2R c)).
    { apply (RD_val _ c v Fc); [|easy]. revert A. rewrite Eq. intros A. now rewrite root1. }
    now rewrite <- V.
  - cbn [orb] in E. apply negb_true_iff in E. unfold t in E. apply orb_false_iff in E. destruct E as [_ E].
    unfold root_inexact, inexact in E. rewrite Fc, Fv in E. cbn [andb] in E. apply negb_false_iff in E. revert E.
    case Req_bool_spec; [|easy]. intros <- _. easy. }
apply orb_false_iff in E. destruct E as [_ E]. apply negb_false_iff in E. specialize (Tw E).
destruct (sup_loop k c w p) as [r'|] eqn:El; [|intros H; assert (Q := f_equal (fun m => fst (m (Est 0%N 0%N))) H); discriminate].
intros H. assert (Er : r = r') by (assert (Q := f_equal (fun m => fst (m (Est 0%N 0%N))) H); now injection Q). subst r'.
apply (sup_loop_exact c Fc A k w); [|easy].
destruct (fviewP w) as [ | | |w0 Fw]; try easy.
- left. split; [easy|]. destruct (rho_sign q c A) as [[R1 R2]|(R1 & R2 & O)]; [easy|]. exfalso.
  destruct RD as [_ K]. specialize (K f0). assert (/ B2R v < 0) by (apply Rinv_lt_0_compat; auto).
  rewrite ub_fin in K by easy. change (B2R (@f0 F)) with 0 in K. specialize (K ltac:(lra) 1 eq_refl). rewrite ub_fin in K by easy. simpl in K. lra.
- right. split; [easy|]. split; [now apply Tw|]. intros R1.
  destruct (rho_sign q c A) as [[R2 _]|(_ & R2 & _)]; [lra|].
  destruct RD as [_ K]. specialize (K f0). assert (/ B2R v < 0) by (apply Rinv_lt_0_compat; auto).
  rewrite ub_fin in K by easy. change (B2R (@f0 F)) with 0 in K. specialize (K ltac:(lra) (B2R w0)). rewrite !ub_fin in K by easy. apply K. lra.
Qed.
End Loop.
