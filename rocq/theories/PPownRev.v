(** * Proofs: reverse integer power *)
From Coq Require Import ZArith NArith Reals Bool Lia Lra Psatz List.
From Flocq Require Import Core.Core Calc.Operations IEEE754.BinarySingleNaN.
From Verif Require Import Fmt Spec SpecElem FloatFacts Exc Deco SpecApi MBase PBase MBool MArith PArith PMul PFma PDiv PUnary
  PConv PBool PSetop PDec MNum PNumF PCancel MElem PElem MPow PPown MRev SpecRev PRev PMulRev PRevEven.

Local Open Scope R_scope.

(** ** Roots of real numbers *)
Section Real.
Context (q : BinNums.positive).
Notation n := (Pos.to_nat q).
Definition oddq : Prop := Z.even (Zpos q) = false.
(** Numbers with a root: positive, or negative if the order is odd. *)
Definition adm (r : R) : Prop := 0 < r \/ (oddq /\ r < 0).
Notation root r := (rootR (Zpos q) r).

Lemma pow_lt_strict s t (k : nat) : (0 < k)%nat -> 0 <= s < t -> s ^ k < t ^ k.
Proof.
intros Hk [H0 H]. induction k as [|k IH]; [lia|]. simpl. destruct k as [|k]; [simpl; lra|].
assert (IH' : s ^ S k < t ^ S k) by (apply IH; lia).
assert (0 <= s ^ S k) by now apply pow_le. nra.
Qed.
Lemma pow_opp_odd s : oddq -> (- s) ^ n = - s ^ n.
Proof.
intros O. destruct (odd_pos q O) as [k ->]. rewrite !pow_add, !pow_1.
replace (- s) with (-1 * s) by ring. rewrite Rpow_mult_distr, pow_1_even. ring.
Qed.
Lemma n_pos : (0 < n)%nat. Proof. apply Pos2Nat.is_pos. Qed.
Lemma pow_strict s t : 0 <= s \/ oddq -> s < t -> s ^ n < t ^ n.
Proof.
pose proof n_pos as Hn. intros [H|O] L; [now apply pow_lt_strict|].
destruct (Rle_or_lt 0 s) as [Hs|Hs]; [now apply pow_lt_strict|].
destruct (Rle_or_lt 0 t) as [Ht|Ht].
- assert (0 < (- s) ^ n) by (apply pow_lt; lra). rewrite pow_opp_odd in H by easy.
  assert (0 <= t ^ n) by now apply pow_le. lra.
- assert (K : (- t) ^ n < (- s) ^ n) by (apply pow_lt_strict; [easy|lra]). rewrite !pow_opp_odd in K by easy. lra.
Qed.
Lemma pow_weak s t : 0 <= s \/ oddq -> s <= t -> s ^ n <= t ^ n.
Proof. intros H [L| ->]; [apply Rlt_le; now apply pow_strict|lra]. Qed.

Lemma Rpower_root c : 0 < c -> Rpower c (/ IZR (Zpos q)) ^ n = c.
Proof.
intros H. rewrite <- Rpower_pow by apply exp_pos. rewrite Rpower_mult, INR_IZR_INZ, positive_nat_Z, Rinv_l, Rpower_1; [easy|easy|].
apply not_eq_sym, Rlt_not_eq. now apply IZR_lt.
Qed.
Lemma root_pos c : 0 < c -> 0 < root c.
Proof. intros H. unfold rootR. rewrite Rlt_bool_false, Req_bool_false by lra. apply exp_pos. Qed.
Lemma root_opp c : 0 < c -> root (- c) = - root c.
Proof.
intros H. unfold rootR. rewrite Rlt_bool_true, Rlt_bool_false, Req_bool_false by lra. now rewrite Ropp_involutive.
Qed.
Lemma root_neg c : c < 0 -> root c < 0.
Proof. intros H. rewrite <- (Ropp_involutive c), root_opp by lra. pose proof (root_pos (- c)). lra. Qed.
Lemma root_0 : root 0 = 0.
Proof. unfold rootR. rewrite Rlt_bool_false, Req_bool_true; lra. Qed.
Lemma root_pow c : adm c -> root c ^ n = c.
Proof.
intros [H|[O H]].
- unfold rootR. rewrite Rlt_bool_false, Req_bool_false by lra. now apply Rpower_root.
- rewrite <- (Ropp_involutive c) at 1. rewrite root_opp, pow_opp_odd by (easy || lra).
  unfold rootR. rewrite Rlt_bool_false, Req_bool_false by lra. rewrite Rpower_root by lra. lra.
Qed.
Lemma root_nz c : adm c -> root c <> 0.
Proof. intros [H|[_ H]]; [pose proof (root_pos c H)|pose proof (root_neg c H)]; lra. Qed.
Lemma root_range c : 0 < c -> Rmin c 1 <= root c <= Rmax c 1.
Proof.
intros H. pose proof (root_pos c H) as P. pose proof (root_pow c (or_introl H)) as E.
destruct (Rle_or_lt 1 (root c)) as [L|L].
- assert (root c <= c) by (rewrite <- E at 2; apply pow_ge1; [apply n_pos|easy]).
  split; [apply Rle_trans with 1; [apply Rmin_r|easy]|apply Rle_trans with c; [easy|apply Rmax_l]].
- assert (c <= root c).
  { rewrite <- E at 1. destruct n as [|k] eqn:En; [pose proof n_pos; lia|]. simpl.
    assert (root c ^ k <= 1) by (rewrite <- (pow1 k); apply pow_incr; lra). nra. }
  split; [apply Rle_trans with c; [apply Rmin_l|easy]|apply Rle_trans with 1; [lra|apply Rmax_r]].
Qed.

(** The side of the reciprocal root on which a number lies. *)
Definition same_sign (w c : R) : Prop := (0 < w /\ 0 < c) \/ (oddq /\ w < 0 /\ c < 0).
Lemma side w c : same_sign w c -> let r := / root c in
  (w < r -> c < / w ^ n) /\ (w = r -> c = / w ^ n) /\ (r < w -> / w ^ n < c).
Proof.
intros S r. assert (A : adm c) by (destruct S as [[]|(? & ? & ?)]; [now left|right; now split]).
pose proof (root_pow c A) as E. set (v := root c) in *. pose proof (root_nz c A) as Nv. fold v in Nv.
assert (Hw : w <> 0) by (destruct S; lra).
set (P := w * v).
assert (PP : 0 < P).
{ unfold P, v. destruct S as [[H1 H2]|(_ & H1 & H2)]; [pose proof (root_pos c H2)|pose proof (root_neg c H2)]; nra. }
assert (EP : P ^ n = w ^ n * c) by (unfold P; now rewrite Rpow_mult_distr, E).
assert (Nw : w ^ n <> 0) by now apply pow_nonzero.
assert (Ew : w = P * / v) by (unfold P; field; easy).
assert (K1 : P < 1 -> P ^ n < 1). { intros L. rewrite <- (pow1 n). apply pow_lt_strict; [apply n_pos|lra]. }
assert (K2 : 1 < P -> 1 < P ^ n). { intros L. rewrite <- (pow1 n). apply pow_lt_strict; [apply n_pos|lra]. }
assert (EI : / w ^ n = c * / P ^ n). { rewrite EP. field. split; [|easy]. destruct S; lra. }
assert (P0 : 0 < P ^ n) by now apply pow_lt.
assert (I1 : P ^ n < 1 -> 1 < / P ^ n) by (intros L; rewrite <- Rinv_1; apply Rinv_lt_contravar; lra).
assert (I2 : 1 < P ^ n -> / P ^ n < 1) by (intros L; rewrite <- Rinv_1; apply Rinv_lt_contravar; lra).
rewrite EI. unfold r.
assert (V : (0 < c /\ 0 < / v) \/ (c < 0 /\ / v < 0)).
{ destruct S as [[H1 H2]|(_ & H1 & H2)]; [left|right]; (split; [easy|]).
  - apply Rinv_0_lt_compat. now apply root_pos.
  - apply Rinv_lt_0_compat. now apply root_neg. }
split; [|split]; intros L.
- destruct V as [[Vc Vv]|[Vc Vv]].
  + assert (P < 1) by nra. specialize (I1 (K1 H)). nra.
  + assert (1 < P) by nra. specialize (I2 (K2 H)). nra.
- assert (P = 1) by (unfold P; rewrite L; field; easy). rewrite H, pow1. lra.
- destruct V as [[Vc Vv]|[Vc Vv]].
  + assert (1 < P) by nra. specialize (I2 (K2 H)). nra.
  + assert (P < 1) by nra. specialize (I1 (K1 H)). nra.
Qed.
Lemma side_le w c : same_sign w c -> / w ^ n <= c -> / root c <= w.
Proof.
intros S H. destruct (side w c S) as (A & _). destruct (Rle_or_lt (/ root c) w); [easy|]. specialize (A H0). lra.
Qed.
Lemma side_ge w c : same_sign w c -> c <= / w ^ n -> w <= / root c.
Proof.
intros S H. destruct (side w c S) as (_ & _ & A). destruct (Rle_or_lt w (/ root c)); [easy|]. specialize (A H0). lra.
Qed.
Lemma inv_sign s : s <> 0 -> 0 <= s \/ oddq -> same_sign s (/ s ^ n).
Proof.
intros N H. destruct (Rtotal_order 0 s) as [L|[L|L]]; [left|lra|right].
- split; [easy|]. now apply Rinv_0_lt_compat, pow_lt.
- destruct H as [H|O]; [lra|]. split; [easy|]. split; [easy|]. apply Rinv_lt_0_compat.
  assert (0 < (- s) ^ n) by (apply pow_lt; lra). rewrite pow_opp_odd in H by easy. lra.
Qed.
End Real.

Lemma INR_unb (r : R) : exists k : nat, r < INR k.
Proof.
exists (Z.to_nat (Z.max 0 (up r))). rewrite INR_IZR_INZ, Z2Nat.id by lia. destruct (archimed r) as [H _].
apply Rlt_le_trans with (IZR (up r)); [easy|]. apply IZR_le. lia.
Qed.

Section Fl.
Context {F : fmt}.
Implicit Types a b c l u v w : float F.
#[local] Instance fexpF_valid : Valid_exp (fexp F) := FLT_exp_valid (emin F) (prec F).
#[local] Instance fexpF_mono : Monotone_exp (fexp F) := FLT_exp_monotone (emin F) (prec F).

(** ** Neighbours *)
Lemma grid a : is_finite a = true -> exists k, B2R a = IZR k * bpow radix2 (emin F).
Proof.
destruct a as [s| | |s m e H]; try easy; intros _. { exists 0%Z. simpl. lra. }
exists (cond_Zopp s (Zpos m) * 2 ^ (e - emin F))%Z. simpl. unfold F2R; simpl.
assert (L : (emin F <= e)%Z).
{ unfold SpecFloat.bounded in H. apply andb_prop in H. destruct H as [H _]. apply Zeq_bool_eq in H.
  unfold SpecFloat.canonical_mantissa, SpecFloat.fexp, SpecFloat.emin in H. unfold emin. lia. }
rewrite mult_IZR. change 2%Z with (radix_val radix2). rewrite IZR_Zpower by lia. rewrite Rmult_assoc, <- bpow_plus.
do 2 f_equal. lia.
Qed.
Lemma gap a b : is_finite a = true -> is_finite b = true -> B2R a < B2R b -> B2R a + bpow radix2 (emin F) <= B2R b.
Proof.
intros Fa Fb L. destruct (grid a Fa) as [k Ek], (grid b Fb) as [j Ej]. rewrite Ek, Ej in *.
pose proof (bpow_gt_0 radix2 (emin F)). assert ((k < j)%Z) by (apply lt_IZR; nra).
assert (IZR k + 1 <= IZR j) by (rewrite <- plus_IZR; apply IZR_le; lia). nra.
Qed.
Lemma Bsucc_fin a : is_finite a = true ->
  (is_finite (Bsucc a) = true /\ B2R a < B2R (Bsucc a) /\ is_finite (Bpred (Bsucc a)) = true /\ B2R (Bpred (Bsucc a)) = B2R a /\
   forall b, is_finite b = true -> B2R a < B2R b -> B2R (Bsucc a) <= B2R b) \/
  (Bsucc a = finf /\ forall b, is_finite b = true -> B2R b <= B2R a).
Proof.
intros Fa. pose proof (Bsucc_correct _ _ (fmt_prec_gt_0 F) (fmt_prec_lt_emax F) a Fa) as H.
pose proof (B2R_format a) as Ga.
assert (K : forall b, is_finite b = true -> B2R a < B2R b -> succ radix2 (fexp F) (B2R a) <= B2R b).
{ intros b Fb L. apply succ_le_lt; [typeclasses eauto|easy|apply B2R_format|easy]. }
change (SpecFloat.fexp (prec F) (emax F)) with (fexp F) in H.
revert H. case Rlt_bool_spec; intros L H.
- left. destruct H as (E & Fs & _). split; [easy|]. rewrite E.
  split. { destruct (Req_dec (B2R a) 0) as [Z|Z]; [|now apply succ_gt_id]. rewrite Z, succ_0. change (fexp F) with (FLT_exp (emin F) (prec F)). rewrite ulp_FLT_0 by apply fmt_prec_gt_0. apply bpow_gt_0. }
  pose proof (Bpred_correct _ _ (fmt_prec_gt_0 F) (fmt_prec_lt_emax F) (Bsucc a) Fs) as P.
  change (SpecFloat.fexp (prec F) (emax F)) with (fexp F) in P. rewrite E, pred_succ in P by (typeclasses eauto || easy).
  pose proof (B2R_bound a) as Hb. apply Rabs_lt_inv in Hb. rewrite Rlt_bool_true in P by easy.
  destruct P as (P1 & P2 & _). split; [easy|]. split; [easy|]. exact K.
- right. split; [now apply B2SF_pinf|]. intros b Fb. destruct (Rle_or_lt (B2R b) (B2R a)) as [|Lb]; [easy|].
  specialize (K b Fb Lb). pose proof (B2R_bound b) as Hb. apply Rabs_lt_inv in Hb. lra.
Qed.
Lemma Bpred_fin a : is_finite a = true ->
  (is_finite (Bpred a) = true /\ B2R (Bpred a) < B2R a /\ is_finite (Bsucc (Bpred a)) = true /\ B2R (Bsucc (Bpred a)) = B2R a /\
   forall b, is_finite b = true -> B2R b < B2R a -> B2R b <= B2R (Bpred a)) \/
  (Bpred a = fminf /\ forall b, is_finite b = true -> B2R a <= B2R b).
Proof.
intros Fa. assert (Fo : is_finite (Bopp a) = true) by now rewrite is_finite_Bopp.
destruct (Bsucc_fin (Bopp a) Fo) as [(H1 & H2 & H3 & H4 & H5)|[H1 H2]]; [left|right].
- unfold Bpred. rewrite is_finite_Bopp. split; [easy|]. rewrite B2R_Bopp in *. split; [lra|].
  unfold Bpred in H3, H4. rewrite is_finite_Bopp in H3. rewrite B2R_Bopp in H4.
  split; [easy|]. split; [lra|]. intros b Fb L. specialize (H5 (Bopp b)). rewrite is_finite_Bopp, !B2R_Bopp in H5. specialize (H5 Fb). lra.
- unfold Bpred. rewrite H1. split; [easy|]. intros b Fb. specialize (H2 (Bopp b)). rewrite is_finite_Bopp, !B2R_Bopp in H2. specialize (H2 Fb). lra.
Qed.
Lemma Bsucc_minf : Bsucc (@fminf F) = fneg fmaxv. Proof. reflexivity. Qed.
Lemma Bpred_pinf : Bpred (@finf F) = fmaxv. Proof. reflexivity. Qed.

(** ** Rounded comparisons *)
Lemma flt_RU c (y : R) v : is_finite c = true -> is_RU y v -> (flt c v = true <-> B2R c < y).
Proof.
intros Fc [H1 H2]. destruct (fviewP v) as [ | | |v Fv]; try easy.
- rewrite flt_pinf_r by easy. split; [intros _|easy]. apply Rnot_le_lt. intros L.
  specialize (H2 c). rewrite ub_fin in H2 by easy. specialize (H2 L (B2R c + 1) eq_refl). rewrite ub_fin in H2 by easy. lra.
- rewrite flt_fin by easy. rewrite ub_fin in H1 by easy. case Rlt_bool_spec; intros L; split; intros K; try easy.
  + apply Rnot_le_lt. intros L'. specialize (H2 c). rewrite ub_fin in H2 by easy. specialize (H2 L' (B2R v)). rewrite !ub_fin in H2 by easy.
    specialize (H2 (Rle_refl _)). lra.
  + lra.
Qed.
Lemma fgt_RD c (y : R) v : is_finite c = true -> is_RD y v -> (fgt c v = true <-> y < B2R c).
Proof.
intros Fc [H1 H2]. change (fgt c v) with (flt v c). destruct (fviewP v) as [ | | |v Fv]; try easy.
- rewrite flt_minf_l by easy. split; [intros _|easy]. apply Rnot_le_lt. intros L.
  specialize (H2 c). rewrite lb_fin in H2 by easy. specialize (H2 L (B2R c - 1) eq_refl). rewrite lb_fin in H2 by easy. lra.
- rewrite flt_fin by easy. rewrite lb_fin in H1 by easy. case Rlt_bool_spec; intros L; split; intros K; try easy.
  + apply Rnot_le_lt. intros L'. specialize (H2 c). rewrite lb_fin in H2 by easy. specialize (H2 L' (B2R v)). rewrite !lb_fin in H2 by easy.
    specialize (H2 (Rle_refl _)). lra.
  + lra.
Qed.
Lemma feq_fin_l a b : is_finite a = true -> feq a b = true -> is_finite b = true /\ B2R a = B2R b.
Proof.
intros Fa H. destruct (fviewP b) as [ | | |b Fb].
- now rewrite feq_nan_r in H.
- now rewrite feq_minf_r in H.
- now rewrite feq_pinf_r in H.
- rewrite feq_fin in H by easy. revert H. case Req_bool_spec; easy.
Qed.
End Fl.

Section Loop.
Context {F : fmt} (q : BinNums.positive).
Implicit Types a b c l u v w : float F.
Notation n := (Pos.to_nat q).
Notation root r := (rootR (Zpos q) r).
Notation p := (Zneg q).

Lemma powneg w : powerRZ (B2R w) p = / B2R w ^ n. Proof. reflexivity. Qed.
Lemma regular_spec w : regular w = true <-> is_finite w = true /\ B2R w <> 0.
Proof.
unfold regular. destruct (is_finite w) eqn:Fw; cbn [andb]; [|easy]. rewrite feq_fin by easy. rewrite B2R_f0.
case Req_bool_spec; intros; cbn [negb]; split; intros; try easy; try tauto.
Qed.

Section One.
Context (c : float F).
Hypothesis Fc : is_finite c = true.
Hypothesis Ac : adm q (B2R c).
Notation rho := (/ root (B2R c)).

(** A lower bound found by the loop. *)
Definition lo_res (r : float F * bool) : Prop :=
  lb (fst r) rho /\ (snd r = true -> is_finite (fst r) = true -> B2R (fst r) < rho).
Definition up_res (r : float F * bool) : Prop :=
  ub (fst r) rho /\ (snd r = true -> is_finite (fst r) = true -> rho < B2R (fst r)).

Lemma rho_sign : (0 < rho /\ 0 < B2R c) \/ (rho < 0 /\ B2R c < 0 /\ oddq q).
Proof.
destruct Ac as [H|[O H]]; [left|right]; (split; [|easy]).
- now apply Rinv_0_lt_compat, root_pos.
- now apply Rinv_lt_0_compat, root_neg.
Qed.
Lemma up_step w : is_finite w = true -> B2R w <> 0 -> same_sign q (B2R w) (B2R c) ->
  let cm := mpfr_pow_si mode_UP w p in
  (flt c cm = true <-> B2R w < rho) /\
  (feq c cm && negb (pow_inexact w p cm) = true -> B2R w = rho).
Proof.
intros Fw Nw S cm. pose proof (rnds_UP _ _ (pow_si_neg mode_UP w q Fw Nw)) as RU. fold cm in RU. rewrite powneg in RU.
destruct (side q (B2R w) (B2R c) S) as (S1 & S2 & S3). split.
- rewrite (flt_RU c _ cm Fc RU). split; [|exact S1]. intros L.
  destruct (Rtotal_order (B2R w) rho) as [K|[K|K]]; [easy|specialize (S2 K); lra|specialize (S3 K); lra].
- intros H. apply andb_prop in H. destruct H as [H1 H2]. apply feq_fin_l in H1; [|easy]. destruct H1 as [H1 H3].
  unfold pow_inexact, inexact in H2. rewrite Fw, H1, powneg in H2. cbn [andb] in H2. rewrite negb_involutive in H2.
  revert H2. case Req_bool_spec; [|easy]. intros E _.
  destruct (Rtotal_order (B2R w) rho) as [K|[K|K]]; [specialize (S1 K); lra|easy|specialize (S3 K); lra].
Qed.
Lemma dn_step w : is_finite w = true -> B2R w <> 0 -> same_sign q (B2R w) (B2R c) ->
  let cm := mpfr_pow_si mode_DN w p in
  (fgt c cm = true <-> rho < B2R w) /\
  (feq c cm && negb (pow_inexact w p cm) = true -> B2R w = rho).
Proof.
intros Fw Nw S cm. pose proof (rnds_DN _ _ (pow_si_neg mode_DN w q Fw Nw)) as RD. fold cm in RD. rewrite powneg in RD.
destruct (side q (B2R w) (B2R c) S) as (S1 & S2 & S3). split.
- rewrite (fgt_RD c _ cm Fc RD). split; [|exact S3]. intros L.
  destruct (Rtotal_order (B2R w) rho) as [K|[K|K]]; [specialize (S1 K); lra|specialize (S2 K); lra|easy].
- intros H. apply andb_prop in H. destruct H as [H1 H2]. apply feq_fin_l in H1; [|easy]. destruct H1 as [H1 H3].
  unfold pow_inexact, inexact in H2. rewrite Fw, H1, powneg in H2. cbn [andb] in H2. rewrite negb_involutive in H2.
  revert H2. case Req_bool_spec; [|easy]. intros E _.
  destruct (Rtotal_order (B2R w) rho) as [K|[K|K]]; [specialize (S1 K); lra|easy|specialize (S3 K); lra].
Qed.

Lemma inf_loop_more k r v : inf_loop k c v p = Some r -> forall j, (k <= j)%nat -> inf_loop j c v p = Some r.
Proof.
revert v. induction k as [|k IH]; [easy|]. intros v H [|j] L; [lia|]. simpl in *.
destruct (negb (regular (Bsucc v))); [easy|]. destruct (flt c _); [|easy]. apply IH; [easy|lia].
Qed.
Lemma sup_loop_more k r v : sup_loop k c v p = Some r -> forall j, (k <= j)%nat -> sup_loop j c v p = Some r.
Proof.
revert v. induction k as [|k IH]; [easy|]. intros v H [|j] L; [lia|]. simpl in *.
destruct (negb (regular (Bpred v))); [easy|]. destruct (fgt c _); [|easy]. apply IH; [easy|lia].
Qed.

Lemma inf_loop_fin k : forall v, is_finite v = true -> B2R v < rho -> (0 < rho -> 0 <= B2R v) ->
  rho - B2R v < INR k * bpow radix2 (emin F) -> exists r, inf_loop k c v p = Some r /\ lo_res r.
Proof.
pose proof (bpow_gt_0 radix2 (emin F)) as D.
induction k as [|k IH]; intros v Fv L P H; [simpl in H; lra|]. cbn [inf_loop].
destruct (Bsucc_fin v Fv) as [(H1 & H2 & H3 & H4 & H5)|[H1 H2]].
- assert (BK : lo_res (Bpred (Bsucc v), true)).
  { unfold lo_res; cbn [fst snd]. rewrite lb_fin, H4 by easy. split; [lra|easy]. }
  destruct (regular (Bsucc v)) eqn:Rw; cbn [negb]; [|eexists; split; [reflexivity|exact BK]].
  apply regular_spec in Rw. destruct Rw as [_ Nw].
  assert (S : same_sign q (B2R (Bsucc v)) (B2R c)).
  { destruct rho_sign as [[R1 R2]|(R1 & R2 & O)]; [left|right].
    - specialize (P R1). split; lra.
    - split; [easy|]. split; [|easy]. assert (B2R (Bsucc v) <= B2R (@f0 F)) by (apply H5; [easy|change (B2R (@f0 F)) with 0; lra]).
      change (B2R (@f0 F)) with 0 in *. lra. }
  destruct (up_step (Bsucc v) H1 Nw S) as [U1 U2]. cbv zeta. destruct (flt c _) eqn:E.
  + destruct U1 as [U1 _]. specialize (U1 eq_refl). apply IH; [easy|easy|intros; specialize (P H0); lra|].
    pose proof (gap v (Bsucc v) Fv H1 H2). rewrite S_INR in H. lra.
  + destruct (feq c _ && negb _) eqn:E2.
    * eexists. split; [reflexivity|]. specialize (U2 eq_refl). unfold lo_res; cbn [fst snd]. rewrite lb_fin by easy. split; [lra|easy].
    * eexists. split; [reflexivity|]. exact BK.
- rewrite H1. cbn [regular is_finite andb negb finf]. eexists. split; [reflexivity|].
  change (Bpred (B754_infinity false : float F)) with (@fmaxv F). unfold lo_res; cbn [fst snd]. rewrite lb_fin by apply is_finite_fmaxv.
  assert (K : B2R (@fmaxv F) < rho) by exact (Rle_lt_trans _ _ _ (H2 fmaxv is_finite_fmaxv) L).
  split; [apply Rlt_le; exact K|intros _ _; exact K].
Qed.
Lemma inf_loop_ok v : (v = fminf /\ rho < 0) \/ (is_finite v = true /\ B2R v < rho /\ (0 < rho -> 0 <= B2R v)) ->
  exists r k, (forall j, (k <= j)%nat -> inf_loop j c v p = Some r) /\ lo_res r.
Proof.
pose proof (bpow_gt_0 radix2 (emin F)) as D.
assert (A : forall v, is_finite v = true -> B2R v < rho -> (0 < rho -> 0 <= B2R v) ->
  exists r k, inf_loop k c v p = Some r /\ lo_res r).
{ intros w Fw L P. destruct (INR_unb ((rho - B2R w) / bpow radix2 (emin F))) as [k Hk].
  destruct (inf_loop_fin k w Fw L P) as (r & H1 & H2); [|now exists r, k].
  apply Rmult_lt_reg_r with (/ bpow radix2 (emin F)); [now apply Rinv_0_lt_compat|].
  rewrite Rmult_assoc, Rinv_r, Rmult_1_r by lra. exact Hk. }
intros [[-> Hr]|(Fv & L & P)].
- set (w := fneg (@fmaxv F)). assert (Fw : is_finite w = true) by reflexivity.
  assert (Bw : B2R w = - B2R (@fmaxv F)) by apply B2R_Bopp. pose proof (@fmaxv_ge1 F) as G.
  assert (Low : forall b, is_finite b = true -> B2R w <= B2R b).
  { intros b _. pose proof (abs_le_fmaxv b) as K. apply Rabs_le_inv in K. lra. }
  assert (Pw : Bpred w = fminf).
  { destruct (Bpred_fin w Fw) as [(K1 & K2 & _)|[K _]]; [|easy]. specialize (Low _ K1). lra. }
  assert (St : forall k, inf_loop (Datatypes.S k) c fminf p =
     if flt c (mpfr_pow_si mode_UP w p) then inf_loop k c w p else
     if feq c (mpfr_pow_si mode_UP w p) && negb (pow_inexact w p (mpfr_pow_si mode_UP w p)) then Some (w, false) else Some (fminf, true)).
  { intros k. cbn [inf_loop]. rewrite Bsucc_minf. fold w. cbv zeta.
    replace (regular w) with true by (symmetry; apply regular_spec; split; [easy|lra]). cbn [negb]. now rewrite Pw. }
  assert (Nw : B2R w <> 0) by (intros K; lra).
  assert (S : same_sign q (B2R w) (B2R c)).
  { destruct rho_sign as [[R1 R2]|(R1 & R2 & O)]; [lra|right]. split; [exact O|]. split; [|exact R2]. rewrite Bw. clear -G. lra. }
  destruct (up_step w Fw Nw S) as [U1 U2]. destruct (flt c (mpfr_pow_si mode_UP w p)) eqn:E.
  + destruct (A w Fw (proj1 U1 eq_refl)) as (r & k & H1 & H2); [lra|]. exists r, (Datatypes.S k). split; [|easy].
    intros [|j] Hj; [lia|]. rewrite St. apply inf_loop_more with k; [easy|lia].
  + destruct (feq c _ && negb _) eqn:E2.
    * exists (w, false), 1%nat. split; [intros [|j] Hj; [lia|apply St]|]. specialize (U2 eq_refl).
      unfold lo_res; cbn [fst snd]. rewrite lb_fin by easy. split; [lra|easy].
    * exists (fminf, true), 1%nat. split; [intros [|j] Hj; [lia|apply St]|]. split; easy.
- destruct (A v Fv L P) as (r & k & H1 & H2). exists r, k. split; [|easy]. now apply inf_loop_more.
Qed.

Lemma sup_loop_fin k : forall v, is_finite v = true -> rho < B2R v -> (rho < 0 -> B2R v <= 0) ->
  B2R v - rho < INR k * bpow radix2 (emin F) -> exists r, sup_loop k c v p = Some r /\ up_res r.
Proof.
pose proof (bpow_gt_0 radix2 (emin F)) as D.
induction k as [|k IH]; intros v Fv L P H; [simpl in H; lra|]. cbn [sup_loop].
destruct (Bpred_fin v Fv) as [(H1 & H2 & H3 & H4 & H5)|[H1 H2]].
- assert (BK : up_res (Bsucc (Bpred v), true)).
  { unfold up_res; cbn [fst snd]. rewrite ub_fin, H4 by easy. split; [lra|easy]. }
  destruct (regular (Bpred v)) eqn:Rw; cbn [negb]; [|eexists; split; [reflexivity|exact BK]].
  apply regular_spec in Rw. destruct Rw as [_ Nw].
  assert (S : same_sign q (B2R (Bpred v)) (B2R c)).
  { destruct rho_sign as [[R1 R2]|(R1 & R2 & O)]; [left|right].
    - split; [|easy]. assert (B2R (@f0 F) <= B2R (Bpred v)) by (apply H5; [easy|change (B2R (@f0 F)) with 0; lra]).
      change (B2R (@f0 F)) with 0 in *. lra.
    - specialize (P R1). split; [easy|]. lra. }
  destruct (dn_step (Bpred v) H1 Nw S) as [U1 U2]. cbv zeta. destruct (fgt c _) eqn:E.
  + destruct U1 as [U1 _]. specialize (U1 eq_refl). apply IH; [easy|easy|intros; specialize (P H0); lra|].
    pose proof (gap (Bpred v) v H1 Fv H2). rewrite S_INR in H. lra.
  + destruct (feq c _ && negb _) eqn:E2.
    * eexists. split; [reflexivity|]. specialize (U2 eq_refl). unfold up_res; cbn [fst snd]. rewrite ub_fin by easy. split; [lra|easy].
    * eexists. split; [reflexivity|]. exact BK.
- rewrite H1. cbn [regular is_finite andb negb fminf]. eexists. split; [reflexivity|].
  change (Bsucc (B754_infinity true : float F)) with (fneg (@fmaxv F)). unfold up_res; cbn [fst snd].
  assert (Fw : is_finite (fneg (@fmaxv F)) = true) by reflexivity. rewrite ub_fin by easy.
  assert (K : rho < B2R (fneg (@fmaxv F))) by exact (Rlt_le_trans _ _ _ L (H2 _ Fw)).
  split; [apply Rlt_le; exact K|intros _ _; exact K].
Qed.
Lemma sup_loop_ok v : (v = finf /\ 0 < rho) \/ (is_finite v = true /\ rho < B2R v /\ (rho < 0 -> B2R v <= 0)) ->
  exists r k, (forall j, (k <= j)%nat -> sup_loop j c v p = Some r) /\ up_res r.
Proof.
pose proof (bpow_gt_0 radix2 (emin F)) as D.
assert (A : forall v, is_finite v = true -> rho < B2R v -> (rho < 0 -> B2R v <= 0) ->
  exists r k, sup_loop k c v p = Some r /\ up_res r).
{ intros w Fw L P. destruct (INR_unb ((B2R w - rho) / bpow radix2 (emin F))) as [k Hk].
  destruct (sup_loop_fin k w Fw L P) as (r & H1 & H2); [|now exists r, k].
  apply Rmult_lt_reg_r with (/ bpow radix2 (emin F)); [now apply Rinv_0_lt_compat|].
  rewrite Rmult_assoc, Rinv_r, Rmult_1_r by lra. exact Hk. }
intros [[-> Hr]|(Fv & L & P)].
- set (w := @fmaxv F). assert (Fw : is_finite w = true) by apply is_finite_fmaxv.
  pose proof (@fmaxv_ge1 F) as G. fold w in G.
  assert (Upp : forall b, is_finite b = true -> B2R b <= B2R w).
  { intros b _. pose proof (abs_le_fmaxv b) as K. apply Rabs_le_inv in K. unfold w. lra. }
  assert (Pw : Bsucc w = finf).
  { destruct (Bsucc_fin w Fw) as [(K1 & K2 & _)|[K _]]; [|easy]. specialize (Upp _ K1). lra. }
  assert (St : forall k, sup_loop (Datatypes.S k) c finf p =
     if fgt c (mpfr_pow_si mode_DN w p) then sup_loop k c w p else
     if feq c (mpfr_pow_si mode_DN w p) && negb (pow_inexact w p (mpfr_pow_si mode_DN w p)) then Some (w, false) else Some (finf, true)).
  { intros k. cbn [sup_loop]. rewrite Bpred_pinf. fold w. cbv zeta.
    replace (regular w) with true by (symmetry; apply regular_spec; split; [easy|lra]). cbn [negb]. now rewrite Pw. }
  assert (Nw : B2R w <> 0) by (intros K; lra).
  assert (S : same_sign q (B2R w) (B2R c)).
  { destruct rho_sign as [[R1 R2]|(R1 & R2 & O)]; [left|lra]. split; lra. }
  destruct (dn_step w Fw Nw S) as [U1 U2]. destruct (fgt c (mpfr_pow_si mode_DN w p)) eqn:E.
  + destruct (A w Fw (proj1 U1 eq_refl)) as (r & k & H1 & H2); [lra|]. exists r, (Datatypes.S k). split; [|easy].
    intros [|j] Hj; [lia|]. rewrite St. apply sup_loop_more with k; [easy|lia].
  + destruct (feq c _ && negb _) eqn:E2.
    * exists (w, false), 1%nat. split; [intros [|j] Hj; [lia|apply St]|]. specialize (U2 eq_refl).
      unfold up_res; cbn [fst snd]. rewrite ub_fin by easy. split; [lra|easy].
    * exists (finf, true), 1%nat. split; [intros [|j] Hj; [lia|apply St]|]. split; easy.
- destruct (A v Fv L P) as (r & k & H1 & H2). exists r, k. split; [|easy]. now apply sup_loop_more.
Qed.
End One.
End Loop.
