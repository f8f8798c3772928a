(** * Proofs: reverse sine, cosine and tangent enclose *)
From Coq Require Import ZArith NArith Reals Bool Lia Lra Psatz List.
From Flocq Require Import Core.Core Core.FTZ IEEE754.BinarySingleNaN.
From Verif Require Import Fmt Spec FloatFacts Exc Deco SpecApi SpecElem SpecNum MBase PBase MBool MArith PArith PMul PUnary
  PConv PBool PSetop PElem MTrig PTrigR PTrig PTan PTrigT PDec PDecF PNum MRev SpecRev PRev PRevEven MTrigRev PTrigRev MMixed PMixed PRevW.

Local Open Scope R_scope.

(** ** Every solution lies on a branch *)
Lemma sin_even m t : Z.even m = true -> sin (t + IZR m * PI) = sin t.
Proof. intros E. apply Z.even_spec in E as [q ->]. rewrite <- (sin_shift q t). f_equal. rewrite mult_IZR. ring. Qed.
Lemma cos_even m t : Z.even m = true -> cos (t + IZR m * PI) = cos t.
Proof. intros E. apply Z.even_spec in E as [q ->]. rewrite <- (cos_shift q t). f_equal. rewrite mult_IZR. ring. Qed.
Lemma sin_odd m t : Z.even m = false -> sin (t + IZR m * PI) = - sin t.
Proof.
intros E. assert (O : Z.odd m = true) by now rewrite <- Z.negb_even, E. apply Z.odd_spec in O as [q ->].
rewrite <- neg_sin, <- (sin_shift q (t + PI)). f_equal. rewrite plus_IZR, mult_IZR. ring.
Qed.
Lemma cos_odd m t : Z.even m = false -> cos (t + IZR m * PI) = - cos t.
Proof.
intros E. assert (O : Z.odd m = true) by now rewrite <- Z.negb_even, E. apply Z.odd_spec in O as [q ->].
rewrite <- neg_cos, <- (cos_shift q (t + PI)). f_equal. rewrite plus_IZR, mult_IZR. ring.
Qed.
Lemma split_pi t : exists m, IZR m * PI <= t < IZR (m + 1) * PI.
Proof.
exists (Zfloor (t / PI)). pose proof PI_RGT_0 as HP. assert (E : t / PI * PI = t) by (field; lra).
pose proof (Zfloor_lb (t / PI)). pose proof (Zfloor_ub (t / PI)). rewrite plus_IZR. nra.
Qed.
Lemma split_half t : exists m, IZR m * PI - PI / 2 <= t < IZR m * PI + PI / 2.
Proof. destruct (split_pi (t + PI / 2)) as [m H]. exists m. rewrite plus_IZR in H. lra. Qed.
Lemma IZR_step a b (p : R) : 0 < p -> IZR a * p < IZR b * p + p -> (a <= b)%Z.
Proof.
intros Hp H. assert (a < b + 1)%Z; [|lia]. apply lt_IZR. rewrite plus_IZR. apply Rmult_lt_reg_r with p; [easy|]. lra.
Qed.
Lemma step_half a b (p : R) : 0 < p -> IZR a * p <= IZR b * p + p / 2 -> (a <= b)%Z.
Proof. intros Hp H. apply IZR_step with p; [easy|lra]. Qed.

Lemma cos_branch lo hi t : -1 <= lo -> hi <= 1 -> lo <= cos t <= hi ->
  exists m, sol (Some 1%Z) (acos hi) (acos lo) m t /\ (forall n, IZR n * PI <= t -> (n <= m)%Z) /\ (forall n, t < IZR (n + 1) * PI -> (m <= n)%Z).
Proof.
intros H1 H2 H. pose proof PI_RGT_0 as HP. destruct (split_pi t) as [m Hm]. exists m. split; [|split].
- exists (acos (cos t)). split; [split; apply acos_le; lra|]. unfold eff, mirr, off.
  set (s := t - IZR m * PI). rewrite plus_IZR in Hm. assert (Hs : 0 <= s <= PI) by (unfold s; lra).
  replace t with (s + IZR m * PI) by (unfold s; lra). destruct (Z.even m) eqn:E; cbn [negb].
  + rewrite cos_even by easy. rewrite acos_cos by easy. lra.
  + rewrite cos_odd by easy. replace (- cos s) with (cos (PI - s)).
    * rewrite acos_cos by lra. rewrite plus_IZR. lra.
    * unfold Rminus. rewrite Rplus_comm, neg_cos, cos_neg. easy.
- intros n Hn. apply IZR_step with PI; [easy|]. rewrite plus_IZR in Hm. lra.
- intros n Hn. apply IZR_step with PI; [easy|]. rewrite plus_IZR in Hn. lra.
Qed.
Lemma sin_branch lo hi t : -1 <= lo -> hi <= 1 -> lo <= sin t <= hi ->
  exists m, sol (Some 0%Z) (asin lo) (asin hi) m t /\ (forall n, IZR n * PI <= t -> (n <= m)%Z) /\ (forall n, t <= IZR n * PI -> (m <= n)%Z).
Proof.
intros H1 H2 H. pose proof PI_RGT_0 as HP. destruct (split_half t) as [m Hm]. exists m. split; [|split].
- exists (asin (sin t)). split; [split; apply asin_le; lra|]. unfold eff, mirr, off.
  set (s := t - IZR m * PI). assert (Hs : - (PI / 2) <= s <= PI / 2) by (unfold s; lra).
  replace t with (s + IZR m * PI) by (unfold s; lra). destruct (Z.even m) eqn:E; cbn [negb].
  + rewrite sin_even by easy. rewrite asin_sin by easy. lra.
  + rewrite sin_odd by easy. rewrite <- sin_neg, asin_sin by lra. rewrite Z.add_0_r. lra.
- intros n Hn. apply step_half with PI; [easy|]. lra.
- intros n Hn. apply step_half with PI; [easy|]. lra.
Qed.
Lemma tan_branch lo hi t : cos t <> 0 -> lo <= atan (tan t) <= hi ->
  exists m, sol None lo hi m t /\ (forall n, IZR n * PI <= t -> (n <= m)%Z) /\ (forall n, t <= IZR n * PI -> (m <= n)%Z).
Proof.
intros Hc H. pose proof PI_RGT_0 as HP. destruct (reduce_pi t Hc) as [m Hm]. exists m. split; [|split].
- set (s := t - IZR m * PI) in *.
  assert (Es : atan (tan t) = s).
  { replace t with (s + IZR m * PI) by (unfold s; lra). rewrite tan_pi_shift.
    - apply atan_tan. lra.
    - assert (0 < cos s) by (apply cos_gt_0; lra). lra. }
  exists s. split; [lra|]. unfold eff, mirr, s. lra.
- intros n Hn. apply step_half with PI; [easy|]. lra.
- intros n Hn. apply step_half with PI; [easy|]. lra.
Qed.

Section T.
Context {F : fmt}.
Implicit Types x y z b c : itv F.

Lemma two_ok kind a1 a2 cl cu x : @base F kind a1 a2 cl cu -> wf x -> isnan (fst x) = false -> modest (prec F) x ->
  x = entire \/ around0 kind cl cu ->
  let up := match kind with Some 1%Z => false | _ => true end in
  exists z, two_boxes kind up cl cu x = ret z /\ wf z /\
    forall m t, sol kind a1 a2 m t -> (forall n, IZR n * PI <= t -> (n <= m)%Z) ->
      (forall n, (if up then t <= IZR n * PI else t < IZR (n + 1) * PI) -> (m <= n)%Z) -> mem t x -> mem t z.
Proof.
intros B Wx Nx [M1 M2] A up. destruct (wf_nonnan x Wx Nx) as [r0 Hr0].
assert (HL : exists z, left_box kind cl cu x = ret z /\ wf z /\
   forall m t, sol kind a1 a2 m t -> (forall n, IZR n * PI <= t -> (n <= m)%Z) -> mem t x -> exists s, mem s z /\ s <= t).
{ destruct (is_finite (fst x)) eqn:Fx.
  - apply left_ok; auto; [apply M1; easy|]. destruct A as [->|A]; [easy|exact A].
  - assert (E : fst x = fminf). { destruct Hr0 as [Hr0 _]. destruct (fst x) as [|[]| |]; easy. }
    exists (fminf, fneg fmaxv). unfold left_box. rewrite E. split; [easy|].
    assert (X : forall t, mem (Rmin t (- B2R (@fmaxv F))) (fminf, fneg (@fmaxv F))).
    { intros t. split; [easy|]. cbn [snd]. apply ub_fneg. rewrite lb_fin by apply is_finite_fmaxv. pose proof (Rmin_r t (- B2R (@fmaxv F))). lra. }
    split; [right; exists (Rmin 0 (- B2R (@fmaxv F))); apply X|]. intros m t _ _ _. exists (Rmin t (- B2R (@fmaxv F))). split; [apply X|apply Rmin_l]. }
assert (HR : exists z, right_box kind up cl cu x = ret z /\ wf z /\
   forall m t, sol kind a1 a2 m t -> (forall n, (if up then t <= IZR n * PI else t < IZR (n + 1) * PI) -> (m <= n)%Z) -> mem t x -> exists s, mem s z /\ t <= s).
{ destruct (is_finite (snd x)) eqn:Fx.
  - apply right_ok; auto; [apply M2; easy|]. destruct A as [->|A]; [easy|exact A].
  - assert (E : snd x = finf). { destruct Hr0 as [_ Hr0]. destruct (snd x) as [|[]| |]; easy. }
    exists (fmaxv, finf). unfold right_box. rewrite E. split; [easy|].
    assert (X : forall t, mem (Rmax t (B2R (@fmaxv F))) (@fmaxv F, finf)).
    { intros t. split; [|easy]. cbn [fst]. rewrite lb_fin by apply is_finite_fmaxv. apply Rmax_r. }
    split; [right; exists (Rmax 0 (B2R (@fmaxv F))); apply X|]. intros m t _ _ _. exists (Rmax t (B2R (@fmaxv F))). split; [apply X|apply Rmax_l]. }
destruct HL as (l & El & Wl & Hl), HR as (r & Er & Wr & Hr).
unfold two_boxes. rewrite El, Er. mreds.
destruct (hull_tightest l r Wl Wr) as (z & Ez & T). exists z. apply returns_eq in Ez. split; [easy|].
split; [now apply tightest_wf in T|]. intros m t St Hm Hm' Mt.
destruct (Hl m t St Hm Mt) as (s & Ms & Ls). destruct (Hr m t St Hm' Mt) as (s' & Ms' & Ls').
assert (I : forall v, mem v l \/ mem v r -> mem v z) by (destruct T as (_ & T & _); exact T).
apply mem_between with s s'; auto.
Qed.

(** ** Rounded inverse images *)
Lemma raw_bpow m e : (emin F + prec F - 1 <= e)%Z -> @raw F m (bpow radix2 e) = bpow radix2 e.
Proof.
intros H. pose proof (fmt_prec1 F). rewrite raw_flx.
- apply round_generic; [apply valid_rnd_round_mode|]. apply generic_format_bpow. unfold FLX_exp. lia.
- rewrite Rabs_pos_eq by apply bpow_ge_0. now apply bpow_le.
Qed.
Lemma raw_opp_dn v : @raw F mode_DN (- v) = - @raw F mode_UP v.
Proof. unfold raw. apply round_DN_opp. Qed.
Lemma raw_opp_up v : @raw F mode_UP (- v) = - @raw F mode_DN v.
Proof. unfold raw. apply round_UP_opp. Qed.
Lemma raw_2 m : @raw F m 2 = 2.
Proof. change 2 with (bpow radix2 1). apply raw_bpow. pose proof (@emin_small F). lia. Qed.
Lemma raw_4 m : @raw F m 4 = 4.
Proof. change 4 with (bpow radix2 2). apply raw_bpow. pose proof (@emin_small F). lia. Qed.
Lemma raw_in2 m v : m = mode_DN \/ m = mode_UP -> -2 <= v <= 2 -> -2 <= @raw F m v <= 2.
Proof.
intros Hm [H1 H2]. split.
- replace (-2) with (@raw F m (-2)); [now apply raw_le|].
  replace (-2) with (- (2)) by lra. destruct Hm as [-> | ->]; rewrite ?raw_opp_dn, ?raw_opp_up, raw_2; lra.
- rewrite <- (raw_2 m). now apply raw_le.
Qed.
Lemma base_sin lo hi : -1 <= lo -> lo <= hi -> hi <= 1 ->
  @base F (Some 0%Z) (asin lo) (asin hi) (@raw F mode_DN (asin lo)) (@raw F mode_UP (asin hi)).
Proof.
intros H1 H2 H3. pose proof (asin_bound lo). pose proof (asin_bound hi). pose proof pi34.
split; [now apply asin_le|]. split; [apply raw_dn|]. split; [apply raw_up|].
repeat split; try tauto; try lra; apply raw_in2; auto; lra.
Qed.
Lemma base_tan lo hi : - (PI / 2) <= lo -> lo <= hi -> hi <= PI / 2 ->
  @base F None lo hi (@raw F mode_DN lo) (@raw F mode_UP hi).
Proof.
intros H1 H2 H3. pose proof pi34.
split; [easy|]. split; [apply raw_dn|]. split; [apply raw_up|].
repeat split; try tauto; try lra; apply raw_in2; auto; lra.
Qed.
Lemma below_one (w : float F) : is_finite w = true -> B2R w < 1 -> bpow radix2 (- prec F) <= 1 - B2R w.
Proof.
intros Fw H. assert (P : Prec_gt_0 (prec F)) by (unfold Prec_gt_0; pose proof (fmt_prec1 F); lia).
assert (V : Valid_exp (fexp F)) by (apply (@FLT_exp_valid (emin F) (prec F) P)).
assert (L : B2R w <= pred radix2 (fexp F) 1).
{ apply pred_ge_gt; [exact V|apply generic_format_B2R| |easy]. apply fmt_one. }
change 1 with (bpow radix2 0) in L at 1. rewrite pred_bpow in L.
assert (E : fexp F 0 = (- prec F)%Z).
{ change (fexp F 0) with (FLT_exp (emin F) (prec F) 0). unfold FLT_exp. pose proof (@emin_prec F). pose proof (fmt_prec1 F).
  pose proof (fmt_emax F). unfold emin, SpecFloat.emin. lia. }
rewrite E in L. simpl (bpow radix2 0) in L. lra.
Qed.
Lemma cos_ge_sq a : 0 <= a -> 1 - a * a / 2 <= cos a.
Proof.
intros H. replace a with (2 * (a / 2)) at 3 by field. rewrite cos_2a_sin.
assert (S : Rabs (sin (a / 2)) <= a / 2).
{ destruct (Rle_or_lt a 2) as [L|L].
  - rewrite Rabs_pos_eq.
    + destruct H as [H|<-]; [left; apply sin_lt_x; lra|]. replace (0 / 2) with 0 by lra. rewrite sin_0. lra.
    + apply sin_ge_0; pose proof PI2_3_2; lra.
  - apply Rle_trans with 1; [|lra]. pose proof (SIN_bound (a / 2)). apply Rabs_le. lra. }
apply Rabs_le_inv in S. nra.
Qed.
Lemma acos_plain m (w : float F) : m = mode_DN \/ m = mode_UP -> is_finite w = true -> -1 <= B2R w <= 1 -> @plain F (@raw F m (acos (B2R w))).
Proof.
intros Hm Fw Hw. destruct (Req_dec (B2R w) 1) as [E|N].
- rewrite E, acos_1. left. apply raw_0.
- right. assert (L : B2R w < 1) by lra. pose proof (below_one w Fw L) as D. set (a := acos (B2R w)).
  pose proof (acos_bound (B2R w)) as Ba. fold a in Ba. pose proof (cos_ge_sq a (proj1 Ba)) as C.
  unfold a in C at 3. rewrite cos_acos in C by easy.
  assert (G : bpow radix2 (1 - prec F) <= a).
  { assert (E2 : bpow radix2 (1 - prec F) = 2 * bpow radix2 (- prec F)).
    { unfold Z.sub. rewrite bpow_plus. reflexivity. }
    assert (S : bpow radix2 (1 - prec F) <= 1).
    { change 1 with (bpow radix2 0). apply bpow_le. pose proof (fmt_prec1 F). lia. }
    pose proof (bpow_gt_0 radix2 (1 - prec F)). apply Rnot_lt_le. intros K. nra. }
  apply Rle_trans with (@raw F m (bpow radix2 (emin F + prec F - 1))).
  + rewrite raw_bpow by lia. lra.
  + apply Rle_trans with (@raw F m a); [|apply Rle_abs]. apply raw_le. apply Rle_trans with (2 := G). apply bpow_le, emin_prec.
Qed.
Lemma base_cos (lo hi : float F) : is_finite lo = true -> is_finite hi = true -> -1 <= B2R lo -> B2R lo <= B2R hi -> B2R hi <= 1 ->
  @base F (Some 1%Z) (acos (B2R hi)) (acos (B2R lo)) (@raw F mode_DN (acos (B2R hi))) (@raw F mode_UP (acos (B2R lo))).
Proof.
intros Fl Fh H1 H2 H3. pose proof (acos_bound (B2R lo)). pose proof (acos_bound (B2R hi)). pose proof pi34.
split; [now apply acos_le|]. split; [apply raw_dn|]. split; [apply raw_up|].
assert (Z : forall m v, 0 <= v -> 0 <= @raw F m v). { intros m v Hv. rewrite <- (@raw_0 F m). now apply raw_le. }
repeat split; try lra; try (apply Z; lra).
- apply raw_pid. lra.
- rewrite <- (raw_4 mode_UP). apply raw_le. lra.
- apply acos_plain; auto. lra.
- apply acos_plain; auto. lra.
Qed.

(** ** The operations *)
Lemma unit_wf : wf (@fm1 F, @f1 F).
Proof. right. exists 0. split; cbn [fst snd]; [rewrite lb_fin, B2R_fm1 by apply is_finite_fm1|rewrite ub_fin, B2R_f1 by apply is_finite_f1]; lra. Qed.
Lemma unit_mem r : mem r (@fm1 F, @f1 F) <-> -1 <= r <= 1.
Proof. unfold mem. cbn [fst snd]. rewrite lb_fin, B2R_fm1 by apply is_finite_fm1. rewrite ub_fin, B2R_f1 by apply is_finite_f1. tauto. Qed.
(** The intersection of [c] with [-1,1], nonempty. *)
Lemma unit_part c (cc : itv F) : wf cc -> isnan (fst cc) = false -> (forall r, mem r cc <-> mem r c /\ mem r (@fm1 F, @f1 F)) ->
  is_finite (fst cc) = true /\ is_finite (snd cc) = true /\ -1 <= B2R (fst cc) /\ B2R (fst cc) <= B2R (snd cc) /\ B2R (snd cc) <= 1.
Proof.
intros W N H. destruct (wf_nonnan cc W N) as [r Hr]. assert (S : forall r, mem r cc -> -1 <= r <= 1) by (intros s Hs; apply H in Hs; now apply unit_mem).
destruct cc as [l u]. cbn [fst snd] in *. destruct Hr as [R1 R2]. cbn [fst snd] in *.
assert (Fl : is_finite l = true).
{ destruct (fviewP l) as [ | | |l Fl]; try easy. assert (K : mem (Rmin r (-2)) (fminf, u)); [|apply S in K; pose proof (Rmin_r r (-2)); lra].
  split; [easy|]. apply ub_mono with r; [easy|apply Rmin_l]. }
assert (Fu : is_finite u = true).
{ destruct (fviewP u) as [ | | |u Fu]; try easy. assert (K : mem (Rmax r 2) (l, finf)); [|apply S in K; pose proof (Rmax_r r 2); lra].
  split; [|easy]. apply lb_mono with r; [easy|apply Rmax_l]. }
rewrite lb_fin in R1 by easy. rewrite ub_fin in R2 by easy.
assert (K1 : mem (B2R l) (l, u)) by (split; cbn [fst snd]; [rewrite lb_fin by easy|rewrite ub_fin by easy]; lra).
assert (K2 : mem (B2R u) (l, u)) by (split; cbn [fst snd]; [rewrite lb_fin by easy|rewrite ub_fin by easy]; lra).
apply S in K1, K2. repeat split; try easy; lra.
Qed.
Lemma encl_ret (m : M (itv F)) z (P : R -> Prop) : m = ret z -> wf z -> (forall t, P t -> mem t z) -> computes_enclosure m P.
Proof. intros E W H. exists z. split; [now apply returns_eq|]. now split. Qed.
Lemma cos_rev_encl c x : wf c -> wf x -> modest (prec F) x ->
  computes_enclosure (cos_rev c x) (preimage everywhere cos c x).
Proof.
intros Wc Wx M. unfold cos_rev. rewrite !is_valid_wf, !is_empty_wf by easy. mreds.
destruct (isnan (fst x)) eqn:Ex; mreds.
{ apply encl_ret with empty; [easy|now left|]. intros t (Mt & _). now apply (nan_no_mem x t) in Ex. }
destruct (intersection_exact c (fm1, f1) Wc unit_wf) as (cc & Ec & Wcc & Hcc). rewrite Ec. mreds. rewrite is_empty_wf by easy. mreds.
assert (In : forall t, mem (cos t) c -> mem (cos t) cc).
{ intros t Ht. apply Hcc. split; [easy|]. apply unit_mem. apply COS_bound. }
destruct (isnan (fst cc)) eqn:En; mreds.
{ apply encl_ret with cc; [easy|easy|]. intros t (_ & _ & Mt). apply In in Mt. now apply (nan_no_mem cc (cos t)) in En. }
destruct (unit_part c cc Wcc En Hcc) as (F1 & F2 & B1 & B2 & B3).
destruct (equal_decides cc (fm1, f1) Wcc unit_wf) as (e & Ee & _). apply returns_eq in Ee. rewrite Ee. mreds. destruct e; mreds.
{ apply encl_ret with x; [easy|easy|]. now intros t (Mt & _). }
destruct (two_ok _ _ _ _ _ x (base_cos _ _ F1 F2 B1 B2 B3) Wx Ex M) as (z & Ez & Wz & Hz); [now right|].
apply encl_ret with z; [easy|easy|]. intros t (Mt & _ & Mc). apply In in Mc as [C1 C2]. rewrite lb_fin in C1 by easy. rewrite ub_fin in C2 by easy.
destruct (cos_branch (B2R (fst cc)) (B2R (snd cc)) t B1 B3 (conj C1 C2)) as (m & S1 & S2 & S3).
now apply Hz with m.
Qed.
Lemma sin_rev_encl c x : wf c -> wf x -> modest (prec F) x -> x = entire \/ mem 0 c ->
  computes_enclosure (sin_rev c x) (preimage everywhere sin c x).
Proof.
intros Wc Wx M Z. unfold sin_rev. rewrite !is_valid_wf, !is_empty_wf by easy. mreds.
destruct (isnan (fst x)) eqn:Ex; mreds.
{ apply encl_ret with empty; [easy|now left|]. intros t (Mt & _). now apply (nan_no_mem x t) in Ex. }
destruct (intersection_exact c (fm1, f1) Wc unit_wf) as (cc & Ec & Wcc & Hcc). rewrite Ec. mreds. rewrite is_empty_wf by easy. mreds.
assert (In : forall t, mem (sin t) c -> mem (sin t) cc).
{ intros t Ht. apply Hcc. split; [easy|]. apply unit_mem. apply SIN_bound. }
destruct (isnan (fst cc)) eqn:En; mreds.
{ apply encl_ret with cc; [easy|easy|]. intros t (_ & _ & Mt). apply In in Mt. now apply (nan_no_mem cc (sin t)) in En. }
destruct (unit_part c cc Wcc En Hcc) as (F1 & F2 & B1 & B2 & B3).
destruct (equal_decides cc (fm1, f1) Wcc unit_wf) as (e & Ee & _). apply returns_eq in Ee. rewrite Ee. mreds. destruct e; mreds.
{ apply encl_ret with x; [easy|easy|]. now intros t (Mt & _). }
destruct (two_ok _ _ _ _ _ x (base_sin _ _ B1 B2 B3) Wx Ex M) as (z & Ez & Wz & Hz).
{ destruct Z as [Z|Z]; [now left|right]. cbn [around0]. assert (Z' : mem 0 cc). { apply Hcc. split; [easy|]. apply unit_mem. lra. }
  destruct Z' as [Z1 Z2]. rewrite lb_fin in Z1 by easy. rewrite ub_fin in Z2 by easy.
  split; (apply Rle_trans with 0; [|lra]) || apply Rle_trans with 0; try lra.
  - apply Rle_trans with (1 := raw_dn _). rewrite <- asin_0. apply asin_le; lra.
  - apply Rle_trans with (2 := raw_up _). rewrite <- asin_0. apply asin_le; lra. }
apply encl_ret with z; [easy|easy|]. intros t (Mt & _ & Mc). apply In in Mc as [C1 C2]. rewrite lb_fin in C1 by easy. rewrite ub_fin in C2 by easy.
destruct (sin_branch (B2R (fst cc)) (B2R (snd cc)) t B1 B3 (conj C1 C2)) as (m & S1 & S2 & S3).
now apply Hz with m.
Qed.
Lemma atan_of_bounds (a : float F) : - (PI / 2) <= atan_of a <= PI / 2.
Proof. pose proof PI_RGT_0. pose proof (atan_bound (B2R a)). destruct a as [|[]| |]; cbn [atan_of]; lra. Qed.
Lemma atan_of_lb (a : float F) r : lb a r -> atan_of a <= atan r.
Proof.
destruct (fviewP a) as [ | | |a Fa]; try easy; intros H.
- cbn. pose proof (atan_bound r). lra.
- rewrite lb_fin in H by easy. replace (atan_of a) with (atan (B2R a)) by (now destruct a).
  destruct H as [H| ->]; [|lra]. left. now apply atan_increasing.
Qed.
Lemma atan_of_ub (a : float F) r : ub a r -> atan r <= atan_of a.
Proof.
destruct (fviewP a) as [ | | |a Fa]; try easy; intros H.
- cbn. pose proof (atan_bound r). lra.
- rewrite ub_fin in H by easy. replace (atan_of a) with (atan (B2R a)) by (now destruct a).
  destruct H as [H| ->]; [|lra]. left. now apply atan_increasing.
Qed.
Lemma tan_rev_encl c x : wf c -> wf x -> modest (prec F) x -> x = entire \/ mem 0 c ->
  computes_enclosure (tan_rev c x) (preimage (fun t => cos t <> 0) tan c x).
Proof.
intros Wc Wx M Z. unfold tan_rev. rewrite !is_valid_wf, !is_empty_wf by easy. mreds.
destruct (isnan (fst c)) eqn:Ec; mreds.
{ apply encl_ret with empty; [easy|now left|]. intros t (_ & _ & Mt). now apply (nan_no_mem c (tan t)) in Ec. }
destruct (isnan (fst x)) eqn:Ex; mreds.
{ apply encl_ret with empty; [easy|now left|]. intros t (Mt & _). now apply (nan_no_mem x t) in Ex. }
destruct (wf_nonnan c Wc Ec) as [r [R1 R2]]. pose proof (atan_of_lb _ _ R1). pose proof (atan_of_ub _ _ R2).
assert (B : @base F None (atan_of (fst c)) (atan_of (snd c)) (@raw F mode_DN (atan_of (fst c))) (@raw F mode_UP (atan_of (snd c)))).
{ apply base_tan; try apply atan_of_bounds. lra. }
destruct (two_ok _ _ _ _ _ x B Wx Ex M) as (z & Ez & Wz & Hz).
{ destruct Z as [Z|[Z1 Z2]]; [now left|right]. cbn [around0]. apply atan_of_lb in Z1. apply atan_of_ub in Z2. rewrite atan_0 in Z1, Z2.
  split; [apply Rle_trans with (1 := raw_dn _)|apply Rle_trans with (2 := raw_up _)]; easy. }
apply encl_ret with z; [easy|easy|]. intros t (Mt & Dt & [C1 C2]). apply atan_of_lb in C1. apply atan_of_ub in C2.
destruct (tan_branch _ _ t Dt (conj C1 C2)) as (m & S1 & S2 & S3). now apply Hz with m.
Qed.
End T.

(** ** Decorated and mixed-type versions *)
Lemma modest_entire {F} p : modest p (@entire F).
Proof. now split. Qed.
Lemma encl_gives {F} (m : M (itv F)) S : computes_enclosure m S -> gives m (encl S).
Proof. intros (z & R & W & E). exists z. split; [easy|]. now split. Qed.
Lemma modest_ext {F G} p (x : itv F) (y : itv G) : (exists r, mem r x) -> (forall r, mem r x <-> mem r y) -> modest p x -> modest p y.
Proof.
intros [r0 R0] H [M1 M2]. pose proof (proj1 (H r0) R0) as R1. destruct x as [a b], y as [c d]. destruct R0 as [A1 A2], R1 as [B1 B2]. cbn [fst snd] in *. split; cbn [fst snd]; intros Fi.
- rewrite lb_fin in B1 by easy. assert (Mc : mem (B2R c) (a, b)). { apply H. split; cbn [fst snd]; [rewrite lb_fin by easy; lra|now apply ub_mono with r0]. }
  destruct Mc as [C1 _]. cbn [fst] in C1. destruct (fviewP a) as [ | | |a Fa]; try easy.
  + assert (K : mem (B2R c - 1) (c, d)). { apply H. split; [easy|]. cbn [snd]. apply ub_mono with r0; [easy|lra]. }
    destruct K as [K _]. cbn [fst] in K. rewrite lb_fin in K by easy. lra.
  + assert (K : mem (B2R a) (c, d)). { apply H. rewrite lb_fin in A1 by easy. split; cbn [fst snd]; [rewrite lb_fin by easy; lra|now apply ub_mono with r0]. }
    destruct K as [K _]. cbn [fst] in K. rewrite lb_fin in K by easy. rewrite lb_fin in C1 by easy. replace (B2R c) with (B2R a) by lra. auto.
- rewrite ub_fin in B2 by easy. assert (Mc : mem (B2R d) (a, b)). { apply H. split; cbn [fst snd]; [now apply lb_mono with r0|rewrite ub_fin by easy; lra]. }
  destruct Mc as [_ C1]. cbn [snd] in C1. destruct (fviewP b) as [ | | |b Fb]; try easy.
  + assert (K : mem (B2R d + 1) (c, d)). { apply H. split; [|easy]. cbn [fst]. apply lb_mono with r0; [easy|lra]. }
    destruct K as [_ K]. cbn [snd] in K. rewrite ub_fin in K by easy. lra.
  + assert (K : mem (B2R b) (c, d)). { apply H. rewrite ub_fin in A2 by easy. split; cbn [fst snd]; [now apply lb_mono with r0|rewrite ub_fin by easy; lra]. }
    destruct K as [_ K]. cbn [snd] in K. rewrite ub_fin in K by easy. rewrite ub_fin in C1 by easy. replace (B2R d) with (B2R b) by lra. auto.
Qed.
Lemma modest_mono {F} p q (x : itv F) : (p <= q)%Z -> modest p x -> modest q x.
Proof.
intros L [H1 H2]. assert (K : bpow radix2 (Z.min p 62) <= bpow radix2 (Z.min q 62)) by (apply bpow_le; lia).
split; intros Fi; (eapply Rle_trans; [|exact K]); auto.
Qed.
Lemma trig_mixed {F G} T (op : forall W, itv W -> itv W -> M (itv W)) dom f (P : forall W, itv W -> Prop) (c : itv F) (x : itv G) :
  comparable T F -> comparable T G -> comparable F G -> wf c -> wf x -> modest (prec G) x -> P F c ->
  (forall W (c' : itv W), (forall r, mem r c' <-> mem r c) -> P F c -> P W c') ->
  (forall W (c x : itv W), wf c -> wf x -> modest (prec W) x -> P W c -> computes_enclosure (op W c x) (preimage dom f c x)) ->
  gives (rev_mixed2 T op c x) (encl (preimage dom f c x)).
Proof.
intros C1 C2 C3 Wc Wx Mx Pc HP Hop. destruct (within_pmax3 T F G C1 C2 C3) as (A & B & C).
unfold rev_mixed2. cbv zeta. set (W := pmax (pmax T F) G) in *. rewrite !is_valid_wf, !is_empty_wf by easy. mreds.
destruct (isnan (fst c)) eqn:Ec; mreds.
{ exists empty. split; [now intros s|]. split; [now left|]. intros t (_ & _ & H). now apply nan_no_mem in H. }
destruct (isnan (fst x)) eqn:Ex; mreds.
{ exists empty. split; [now intros s|]. split; [now left|]. intros t (H & _). now apply nan_no_mem in H. }
assert (Ex' : forall r, mem r (convert_hull W x) <-> mem r x) by exact (convert_hull_exact W x C Wx).
assert (Ec' : forall r, mem r (convert_hull W c) <-> mem r c) by exact (convert_hull_exact W c B Wc).
assert (Mx' : modest (prec W) (convert_hull W x)).
{ apply modest_mono with (prec G); [apply C|]. apply modest_ext with x; [now apply wf_nonnan| |easy]. intros r. now rewrite Ex'. }
destruct (Hop W (convert_hull W c) (convert_hull W x) (wf_convert_hull W c Wc) (wf_convert_hull W x Wx) Mx' (HP _ _ Ec' Pc)) as (z & H1 & Wz & H2).
apply returns_eq in H1. rewrite H1. mreds. exists (convert_hull T z). split; [now intros s|]. split; [now apply wf_convert_hull|].
apply encloses_narrow; [easy|].
intros t (Mt & Dt & Mf). apply H2. split; [now apply Ex'|]. split; [easy|now apply Ec'].
Qed.
