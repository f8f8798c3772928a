(** * Proofs: reverse integer power, the whole function *)
From Coq Require Import ZArith NArith Reals Bool Lia Lra Psatz List.
From Flocq Require Import Core.Core Calc.Operations IEEE754.BinarySingleNaN.
From Verif Require Import Fmt Spec SpecElem FloatFacts Exc Deco SpecApi MBase PBase MBool MArith PArith PMul PFma PDiv PUnary
  PConv PBool PSetop PDec MNum PNumF PCancel MElem PElem MPow PPown MRev SpecRev PRev PMulRev PRevEven PPownRev.

Local Open Scope R_scope.

Section B.
Context {F : fmt} (q : BinNums.positive).
Implicit Types a b c l u v w : float F.
Notation n := (Pos.to_nat q).
Notation root r := (rootR (Zpos q) r).
Notation p := (Zneg q).

Lemma root_rnds m c : is_finite c = true -> adm q (B2R c) -> rnds m (root (B2R c)) (mpfr_root m c (Zpos q)).
Proof.
intros Fc A. destruct c as [s| | |s mm e H]; try easy.
- exfalso. destruct A as [A|[_ A]]; simpl in A; lra.
- unfold mpfr_root. replace (s && Z.even (Zpos q)) with false; [apply rround_rnds|].
  destruct s; [|easy]. destruct A as [A|[O _]].
  + exfalso. revert A. apply Rle_not_lt. simpl. now apply F2R_le_0.
  + now rewrite O.
Qed.
Lemma root_opp_neg (r : R) : r < 0 -> root (- r) = - root r.
Proof. intros H. rewrite <- (Ropp_involutive r) at 2. rewrite (root_opp q (- r)) by lra. ring. Qed.
(** The rounded root has the sign of the argument and is finite. *)
Lemma root_between c v : is_finite c = true -> adm q (B2R c) -> is_RU (root (B2R c)) v \/ is_RD (root (B2R c)) v ->
  is_finite v = true /\ (0 < B2R c -> 0 < B2R v) /\ (B2R c < 0 -> B2R v < 0).
Proof.
intros Fc A H. assert (F1 := @is_finite_f1 F). assert (V1 := @B2R_f1 F). assert (Fm := @is_finite_fm1 F). assert (Vm := @B2R_fm1 F).
assert (LO : exists a, is_finite a = true /\ B2R a <= root (B2R c) /\ (0 < B2R c -> 0 < B2R a)).
{ destruct A as [A|[O A]].
  - pose proof (root_range q (B2R c) A) as [K _]. revert K. unfold Rmin. destruct Rle_dec; intros K; [exists c|exists f1]; rewrite ?V1; split; try easy; split; lra.
  - pose proof (root_range q (- B2R c) ltac:(lra)) as [_ K].
    revert K. replace (root (- B2R c)) with (- root (B2R c)) by (rewrite root_opp_neg by lra; ring).
    unfold Rmax. destruct Rle_dec; intros K; [exists fm1|exists c]; rewrite ?Vm; (split; [easy|split; lra]). }
assert (UP : exists a, is_finite a = true /\ root (B2R c) <= B2R a /\ (B2R c < 0 -> B2R a < 0)).
{ destruct A as [A|[O A]].
  - pose proof (root_range q (B2R c) A) as [_ K]. revert K. unfold Rmax. destruct Rle_dec; intros K; [exists f1|exists c]; rewrite ?V1; (split; [easy|split; lra]).
  - pose proof (root_range q (- B2R c) ltac:(lra)) as [K _].
    revert K. replace (root (- B2R c)) with (- root (B2R c)) by (rewrite root_opp_neg by lra; ring).
    unfold Rmin. destruct Rle_dec; intros K; [exists c|exists fm1]; rewrite ?Vm; (split; [easy|split; lra]). }
destruct LO as (a & Fa & La & Pa), UP as (b & Fb & Lb & Pb).
assert (Sg : (0 < B2R c -> 0 < root (B2R c)) /\ (B2R c < 0 -> root (B2R c) < 0)) by (split; [apply root_pos|apply root_neg]).
destruct Sg as [Sp Sn].
destruct H as [[H1 H2]|[H1 H2]].
- assert (Fv : is_finite v = true).
  { destruct (fviewP v) as [ | | |v Fv]; try easy. specialize (H2 b). rewrite ub_fin in H2 by easy. specialize (H2 Lb (B2R b + 1) eq_refl).
    rewrite ub_fin in H2 by easy. lra. }
  rewrite ub_fin in H1 by easy. split; [easy|]. split.
  + intros K. specialize (Sp K). lra.
  + intros K. specialize (H2 b). rewrite ub_fin in H2 by easy. specialize (H2 Lb (B2R v)). rewrite !ub_fin in H2 by easy.
    specialize (H2 (Rle_refl _)). specialize (Pb K). lra.
- assert (Fv : is_finite v = true).
  { destruct (fviewP v) as [ | | |v Fv]; try easy. specialize (H2 a). rewrite lb_fin in H2 by easy. specialize (H2 La (B2R a - 1) eq_refl).
    rewrite lb_fin in H2 by easy. lra. }
  rewrite lb_fin in H1 by easy. split; [easy|]. split.
  + intros K. specialize (H2 a). rewrite lb_fin in H2 by easy. specialize (H2 La (B2R v)). rewrite !lb_fin in H2 by easy.
    specialize (H2 (Rle_refl _)). specialize (Pa K). lra.
  + intros K. specialize (Sn K). lra.
Qed.
Lemma inv_le_same (a b : R) : (0 < a /\ 0 < b) \/ (a < 0 /\ b < 0) -> a <= b -> / b <= / a.
Proof.
intros S [L| ->]; [|lra]. apply Rlt_le, Rinv_lt_contravar; [|easy]. destruct S as [[]|[]]; nra.
Qed.
Lemma inv_lt_same (a b : R) : (0 < a /\ 0 < b) \/ (a < 0 /\ b < 0) -> a < b -> / b < / a.
Proof. intros S L. apply Rinv_lt_contravar; [|easy]. destruct S as [[]|[]]; nra. Qed.

(** Either the loop is not entered or it starts strictly below. *)
Lemma pown_rev_inf_fin c : is_finite c = true -> adm q (B2R c) -> Zneg q <> int_min ->
  exists r k, (forall j, (k <= j)%nat -> pown_rev_inf j c p = ret r) /\ lo_res q c r.
Proof.
intros Fc A NP. unfold pown_rev_inf. rewrite (proj2 (Z.eqb_neq _ _) NP). change (- p)%Z with (Zpos q).
pose proof (rnds_UP _ _ (root_rnds mode_UP c Fc A)) as RU. set (v := mpfr_root mode_UP c (Zpos q)) in *.
destruct (root_between c v Fc A (or_introl RU)) as (Fv & Vp & Vn).
pose proof (root_nz q _ A) as Nr.
assert (Nv : B2R v <> 0) by (destruct A as [K|[_ K]]; [specialize (Vp K)|specialize (Vn K)]; lra).
pose proof (rnds_DN _ _ (rdiv_rnds mode_DN (@f1 F) v is_finite_f1 Fv Nv)) as RD. rewrite B2R_f1 in RD.
set (w := rdiv mode_DN f1 v) in *.
assert (SS : (0 < root (B2R c) /\ 0 < B2R v) \/ (root (B2R c) < 0 /\ B2R v < 0)).
{ destruct A as [K|[_ K]]; [left|right]; (split; [|auto]); [now apply root_pos|now apply root_neg]. }
assert (Hv : root (B2R c) <= B2R v) by (destruct RU as [K _]; now rewrite ub_fin in K).
pose proof (inv_le_same _ _ SS Hv) as Hi. unfold Rdiv in RD. rewrite Rmult_1_l in RD.
assert (Lw : lb w (/ root (B2R c))) by (apply lb_mono with (/ B2R v); [exact (proj1 RD)|exact Hi]).
set (t := div_inexact f1 v w || root_inexact c (Zpos q) v).
assert (Tw : t = true -> is_finite w = true -> B2R w < / root (B2R c)).
{ intros T Fw. assert (Lw' : B2R w <= / B2R v) by (destruct RD as [K _]; now rewrite lb_fin in K).
  unfold t in T. apply orb_prop in T. destruct T as [T|T].
  - rewrite div_inexact_spec, Fw, B2R_f1 in T by (easy || apply is_finite_f1). cbn [andb] in T. apply negb_true_iff in T. revert T.
    case Req_bool_spec; [easy|]. unfold Rdiv. rewrite Rmult_1_l. intros Ne _. lra.
  - unfold root_inexact, inexact in T. rewrite Fc, Fv in T. cbn [andb] in T. apply negb_true_iff in T. revert T.
    case Req_bool_spec; [easy|]. intros Ne _. assert (L : root (B2R c) < B2R v) by lra. pose proof (inv_lt_same _ _ SS L). lra. }
destruct (Z.eqb p (-1) || negb t) eqn:E.
{ exists (w, t), 0%nat. split; [easy|]. now split. }
apply orb_false_iff in E. destruct E as [_ E]. apply negb_false_iff in E. specialize (Tw E).
destruct (inf_loop_ok q c Fc A w) as (r & k & H1 & H2).
{ destruct (fviewP w) as [ | | |w0 Fw]; try easy.
  - left. split; [easy|]. destruct (rho_sign q c A) as [[R1 R2]|(R1 & R2 & O)]; [|easy]. exfalso.
    destruct RD as [_ K]. specialize (K f0). assert (0 < / B2R v) by (apply Rinv_0_lt_compat; auto).
    rewrite lb_fin in K by easy. change (B2R (@f0 F)) with 0 in K. specialize (K ltac:(lra) (-1) eq_refl). rewrite lb_fin in K by easy. simpl in K. lra.
  - right. split; [easy|]. split; [now apply Tw|]. intros R1.
    destruct (rho_sign q c A) as [[_ R2]|(R2 & _)]; [|lra].
    destruct RD as [_ K]. specialize (K f0). assert (0 < / B2R v) by (apply Rinv_0_lt_compat; auto).
    rewrite lb_fin in K by easy. change (B2R (@f0 F)) with 0 in K. specialize (K ltac:(lra) (B2R w0)). rewrite !lb_fin in K by easy. apply K. lra. }
exists r, k. split; [|easy]. intros j Hj. now rewrite H1.
Qed.
Lemma pown_rev_sup_fin c : is_finite c = true -> adm q (B2R c) -> Zneg q <> int_min ->
  exists r k, (forall j, (k <= j)%nat -> pown_rev_sup j c p = ret r) /\ up_res q c r.
Proof.
intros Fc A NP. unfold pown_rev_sup. rewrite (proj2 (Z.eqb_neq _ _) NP). change (- p)%Z with (Zpos q).
pose proof (rnds_DN _ _ (root_rnds mode_DN c Fc A)) as RU. set (v := mpfr_root mode_DN c (Zpos q)) in *.
destruct (root_between c v Fc A (or_intror RU)) as (Fv & Vp & Vn).
pose proof (root_nz q _ A) as Nr.
assert (Nv : B2R v <> 0) by (destruct A as [K|[_ K]]; [specialize (Vp K)|specialize (Vn K)]; lra).
pose proof (rnds_UP _ _ (rdiv_rnds mode_UP (@f1 F) v is_finite_f1 Fv Nv)) as RD. rewrite B2R_f1 in RD.
set (w := rdiv mode_UP f1 v) in *.
assert (SS : (0 < B2R v /\ 0 < root (B2R c)) \/ (B2R v < 0 /\ root (B2R c) < 0)).
{ destruct A as [K|[_ K]]; [left|right]; (split; [auto|]); [now apply root_pos|now apply root_neg]. }
assert (Hv : B2R v <= root (B2R c)) by (destruct RU as [K _]; now rewrite lb_fin in K).
pose proof (inv_le_same _ _ SS Hv) as Hi. unfold Rdiv in RD. rewrite Rmult_1_l in RD.
assert (Lw : ub w (/ root (B2R c))) by (apply ub_mono with (/ B2R v); [exact (proj1 RD)|exact Hi]).
set (t := div_inexact f1 v w || root_inexact c (Zpos q) v).
assert (Tw : t = true -> is_finite w = true -> / root (B2R c) < B2R w).
{ intros T Fw. assert (Lw' : / B2R v <= B2R w) by (destruct RD as [K _]; now rewrite ub_fin in K).
  unfold t in T. apply orb_prop in T. destruct T as [T|T].
  - rewrite div_inexact_spec, Fw, B2R_f1 in T by (easy || apply is_finite_f1). cbn [andb] in T. apply negb_true_iff in T. revert T.
    case Req_bool_spec; [easy|]. unfold Rdiv. rewrite Rmult_1_l. intros Ne _. lra.
  - unfold root_inexact, inexact in T. rewrite Fc, Fv in T. cbn [andb] in T. apply negb_true_iff in T. revert T.
    case Req_bool_spec; [easy|]. intros Ne _. assert (L : B2R v < root (B2R c)) by lra. pose proof (inv_lt_same _ _ SS L). lra. }
destruct (Z.eqb p (-1) || negb t) eqn:E.
{ exists (w, t), 0%nat. split; [easy|]. now split. }
apply orb_false_iff in E. destruct E as [_ E]. apply negb_false_iff in E. specialize (Tw E).
destruct (sup_loop_ok q c Fc A w) as (r & k & H1 & H2).
{ destruct (fviewP w) as [ | | |w0 Fw]; try easy.
  - left. split; [easy|]. destruct (rho_sign q c A) as [[R1 R2]|(R1 & R2 & O)]; [easy|]. exfalso.
    destruct RD as [_ K]. specialize (K f0). assert (/ B2R v < 0) by (apply Rinv_lt_0_compat; auto).
    rewrite ub_fin in K by easy. change (B2R (@f0 F)) with 0 in K. specialize (K ltac:(lra) 1 eq_refl). rewrite ub_fin in K by easy. simpl in K. lra.
  - right. split; [easy|]. split; [now apply Tw|]. intros R1.
    destruct (rho_sign q c A) as [[R2 _]|(_ & R2 & _)]; [lra|].
    destruct RD as [_ K]. specialize (K f0). assert (/ B2R v < 0) by (apply Rinv_lt_0_compat; auto).
    rewrite ub_fin in K by easy. change (B2R (@f0 F)) with 0 in K. specialize (K ltac:(lra) (B2R w0)). rewrite !ub_fin in K by easy. apply K. lra. }
exists r, k. split; [|easy]. intros j Hj. now rewrite H1.
Qed.

Lemma f1_div_f0 m : rdiv m (@f1 F) f0 = finf.
Proof.
pose proof (@is_finite_f1 F) as H1. pose proof (@B2R_f1 F) as H2. destruct (@f1 F) as [[]|[]| |[] mm e H]; try easy; simpl in H2; try lra.
exfalso. assert (F2R (Float radix2 (Zneg mm) e) <= 0) by now apply F2R_le_0. lra.
Qed.
(** Bounds for the [s] with [s^p] below (above) [c]. *)
Definition samesgn (s : R) (c : float F) : Prop :=
  (0 < s /\ (c = finf \/ (is_finite c = true /\ 0 <= B2R c))) \/
  (oddq q /\ s < 0 /\ (c = fminf \/ (is_finite c = true /\ B2R c <= 0))).
Lemma inf_bound c : Zneg q <> int_min -> c = finf \/ (is_finite c = true /\ adm q (B2R c)) ->
  exists l t k, (forall j, (k <= j)%nat -> pown_rev_inf j c p = ret (l, t)) /\
    forall s, s <> 0 -> samesgn s c -> ub c (/ s ^ n) -> lb l s /\ (t = true -> is_finite l = true -> B2R l < s).
Proof.
intros NP [->|[Fc A]].
- destruct (rdiv_inf_r mode_DN (@f1 F) finf is_finite_f1 eq_refl) as [D1 D2].
  exists (rdiv mode_DN f1 finf), false, 0%nat. split.
  + intros j _. unfold pown_rev_inf. rewrite (proj2 (Z.eqb_neq _ _) NP).
    replace (mpfr_root mode_UP (@finf F) (- p)) with (@finf F) by reflexivity.
    unfold div_inexact, root_inexact. cbn [is_finite finf andb]. rewrite andb_false_r. cbn [orb negb andb].
    now rewrite orb_true_r.
  + intros s Ns [[S _]|(_ & _ & [H|[H _]])] _; try easy. split; [rewrite lb_fin, D2 by easy; lra|easy].
- destruct (pown_rev_inf_fin c Fc A NP) as ([l t] & k & H1 & H2 & H3). exists l, t, k. split; [easy|]. cbn [fst snd] in *.
  intros s Ns Ss Hs. rewrite ub_fin in Hs by easy.
  assert (K : same_sign q s (B2R c)).
  { destruct Ss as [[S1 [S2|[_ S2]]]|(O & S1 & [S2|[_ S2]])]; try (subst; easy).
    - left. split; [easy|]. destruct A; lra.
    - right. split; [easy|]. split; [easy|]. destruct A; lra. }
  pose proof (side_le q s (B2R c) K Hs) as L. split; [now apply lb_mono with (/ root (B2R c))|].
  intros T Fl. specialize (H3 T Fl). lra.
Qed.
Lemma sup_bound c : Zneg q <> int_min -> c = f0 \/ (c = fminf /\ oddq q) \/ (is_finite c = true /\ adm q (B2R c)) ->
  exists u t k, (forall j, (k <= j)%nat -> pown_rev_sup j c p = ret (u, t)) /\
    forall s, s <> 0 -> samesgn s c -> (c = f0 -> 0 < s) -> lb c (/ s ^ n) -> ub u s /\ (t = true -> is_finite u = true -> s < B2R u).
Proof.
intros NP [->|[[-> O]|[Fc A]]].
- exists finf, false, 0%nat. split.
  + intros j _. unfold pown_rev_sup. rewrite (proj2 (Z.eqb_neq _ _) NP).
    replace (mpfr_root mode_DN (@f0 F) (- p)) with (@f0 F) by reflexivity.
    rewrite f1_div_f0.
    unfold div_inexact, root_inexact, inexact. rewrite is_finite_f1. cbn [is_finite f0 andb].
    rewrite (feq_fin (@f0 F) f0) by easy. change (B2R (@f0 F)) with 0. change (B2R (B754_zero false : float F)) with 0. change (- p)%Z with (Zpos q). rewrite root_0, Req_bool_true by easy. cbn [andb negb orb].
    now rewrite orb_true_r.
  + now split.
- destruct (rdiv_inf_r mode_UP (@f1 F) fminf is_finite_f1 eq_refl) as [D1 D2].
  exists (rdiv mode_UP f1 fminf), false, 0%nat. split.
  + intros j _. unfold pown_rev_sup. rewrite (proj2 (Z.eqb_neq _ _) NP). change (- p)%Z with (Zpos q).
    replace (mpfr_root mode_DN (@fminf F) (Zpos q)) with (@fminf F) by (unfold mpfr_root, fminf; now rewrite O).
    unfold div_inexact, root_inexact. cbn [is_finite fminf andb]. rewrite andb_false_r. cbn [orb negb andb].
    now rewrite orb_true_r.
  + intros s Ns [[_ [H|[H _]]]|(_ & S & _)] _ _; try easy. split; [rewrite ub_fin, D2 by easy; lra|easy].
- destruct (pown_rev_sup_fin c Fc A NP) as ([u t] & k & H1 & H2 & H3). exists u, t, k. split; [easy|]. cbn [fst snd] in *.
  intros s Ns Ss _ Hs. rewrite lb_fin in Hs by easy.
  assert (K : same_sign q s (B2R c)).
  { destruct Ss as [[S1 [S2|[_ S2]]]|(O & S1 & [S2|[_ S2]])]; try (subst; easy).
    - left. split; [easy|]. destruct A; lra.
    - right. split; [easy|]. split; [easy|]. destruct A; lra. }
  pose proof (side_ge q s (B2R c) K Hs) as L. split; [now apply ub_mono with (/ root (B2R c))|].
  intros T Fl. specialize (H3 T Fl). lra.
Qed.

(** Roots of bounds for positive exponents. *)
Lemma root_ub c s : oddq q \/ 0 <= s -> (oddq q \/ fle f0 c = true) -> isnan c = false -> ub c (s ^ n) -> ub (mpfr_root mode_UP c (Zpos q)) s.
Proof.
intros Hs Hc Nc H. destruct (fviewP c) as [ | | |c Fc]; try easy.
rewrite ub_fin in H by easy. destruct (Req_dec (B2R c) 0) as [Z|Z].
- assert (s <= 0).
  { apply Rnot_lt_le. intros L. pose proof (pow_lt s n L). lra. }
  destruct c as [z| | |z m e Hb]; try easy.
  exfalso. simpl in Z. apply eq_0_F2R in Z. now destruct z.
- assert (A : adm q (B2R c)).
  { destruct Hc as [O|Hc]; [destruct (Rdichotomy _ _ Z); [right|left]; easy|]. left.
    rewrite fle_fin in Hc by easy. change (B2R (@f0 F)) with 0 in Hc. revert Hc. case Rle_bool_spec; [lra|easy]. }
  pose proof (rnds_UP _ _ (root_rnds mode_UP c Fc A)) as [RU _]. apply ub_mono with (root (B2R c)); [easy|].
  apply Rnot_lt_le. intros L. pose proof (root_pow q _ A) as E.
  assert (K : 0 <= root (B2R c) \/ oddq q). { destruct A as [A|[O _]]; [left; apply Rlt_le; now apply root_pos|now right]. }
  pose proof (pow_strict q _ _ K L). lra.
Qed.
Lemma root_lb c s : oddq q \/ 0 <= s -> (oddq q \/ fle f0 c = true) -> isnan c = false -> lb c (s ^ n) -> lb (mpfr_root mode_DN c (Zpos q)) s.
Proof.
intros Hs Hc Nc H. destruct (fviewP c) as [ | | |c Fc]; try easy.
- unfold mpfr_root, fminf. destruct Hc as [O|Hc]; [now rewrite O|easy].
- rewrite lb_fin in H by easy. destruct (Req_dec (B2R c) 0) as [Z|Z].
  + assert (0 <= s).
    { destruct Hs as [O|Hs]; [|easy]. apply Rnot_lt_le. intros L. pose proof (pow_lt (- s) n ltac:(lra)) as K. rewrite pow_opp_odd in K by easy. lra. }
    destruct c as [z| | |z m e Hb]; try easy.
    exfalso. simpl in Z. apply eq_0_F2R in Z. now destruct z.
  + assert (A : adm q (B2R c)).
    { destruct Hc as [O|Hc]; [destruct (Rdichotomy _ _ Z); [right|left]; easy|]. left.
      rewrite fle_fin in Hc by easy. change (B2R (@f0 F)) with 0 in Hc. revert Hc. case Rle_bool_spec; [lra|easy]. }
    pose proof (rnds_DN _ _ (root_rnds mode_DN c Fc A)) as [RD _]. apply lb_mono with (root (B2R c)); [easy|].
    apply Rnot_lt_le. intros L. pose proof (root_pow q _ A) as E.
    assert (K : 0 <= s \/ oddq q) by tauto.
    pose proof (pow_strict q _ _ K L). lra.
Qed.
End B.
