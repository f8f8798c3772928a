(** * Proofs: tangent *)

From Coq Require Import ZArith NArith Reals Bool Lia Lra Psatz Ratan.
From Flocq Require Import Core.Core IEEE754.BinarySingleNaN.
From Verif Require Import Fmt Spec FloatFacts Exc Deco SpecApi SpecElem MBase PBase MBool MArith PArith
  PMul PFma PDiv PUnary PBool PSetop MElem PElem PElem2 MTrig PTrigR PTrig PIrr.

Local Open Scope R_scope.

(** ** Numbers of the format are not poles *)
Definition rational (r : R) : Prop := exists a b : Z, (0 < b)%Z /\ r = IZR a / IZR b.

Lemma rational_F2R (f : Defs.float radix2) : rational (F2R f).
Proof.
destruct f as [m e]. unfold F2R. cbn [Fnum Fexp]. destruct (Z_le_gt_dec 0 e) as [H|H].
- exists (m * 2 ^ e)%Z, 1%Z. split; [easy|]. rewrite mult_IZR. change 2%Z with (radix_val radix2).
  rewrite IZR_Zpower by easy. field.
- exists m, (2 ^ (- e))%Z. split; [apply Z.pow_pos_nonneg; lia|]. change 2%Z with (radix_val radix2).
  rewrite IZR_Zpower by lia. rewrite bpow_opp. field. apply Rgt_not_eq, bpow_gt_0.
Qed.
Lemma rational_B2R {F} (a : float F) : rational (B2R a).
Proof.
destruct a as [s|s| |s m e H]; try (exists 0%Z, 1%Z; split; [easy|simpl; lra]). apply rational_F2R.
Qed.
Lemma PI_not_rational : ~ rational PI.
Proof. intros (a & b & Hb & E). now apply (PI_irrational a b Hb). Qed.
Lemma cos_nz r : rational r -> cos r <> 0.
Proof.
intros (a & b & Hb & E) H. apply cos_eq_0_0 in H. destruct H as [k Hk].
assert (HB : IZR b <> 0) by (apply not_0_IZR; lia).
assert (HK : IZR (2 * k + 1) <> 0) by (apply not_0_IZR; lia).
assert (EP : PI = IZR (2 * a) / (IZR (2 * k + 1) * IZR b)).
{ rewrite mult_IZR. replace (2 * IZR a / (IZR (2 * k + 1) * IZR b)) with (2 * (IZR a / IZR b) / IZR (2 * k + 1)) by (field; easy).
  rewrite <- E, Hk. rewrite plus_IZR, mult_IZR in *. field. easy. }
apply PI_not_rational. destruct (Z_lt_le_dec 0 (2 * k + 1)) as [S|S].
- exists (2 * a)%Z, ((2 * k + 1) * b)%Z. split; [nia|]. now rewrite (mult_IZR (2 * k + 1)).
- exists (- (2 * a))%Z, (- ((2 * k + 1) * b))%Z. split; [nia|].
  rewrite (opp_IZR (2 * a)), (opp_IZR (_ * b)), (mult_IZR (2 * k + 1)). rewrite EP at 1. field. easy.
Qed.
Lemma sin_nz r : rational r -> r <> 0 -> sin r <> 0.
Proof.
intros (a & b & Hb & E) Hr H. apply sin_eq_0_0 in H. destruct H as [k Hk].
assert (HB : IZR b <> 0) by (apply not_0_IZR; lia).
assert (HK : IZR k <> 0) by (intros HK; rewrite HK in Hk; lra).
assert (Hk0 : k <> 0%Z) by (intros ->; lra).
assert (EP : PI = IZR a / (IZR k * IZR b)).
{ replace (IZR a / (IZR k * IZR b)) with ((IZR a / IZR b) / IZR k) by (field; easy). rewrite <- E, Hk. field. easy. }
apply PI_not_rational. destruct (Z_lt_le_dec 0 k) as [S|S].
- exists a, (k * b)%Z. split; [nia|]. now rewrite mult_IZR.
- exists (- a)%Z, (- (k * b))%Z. split; [nia|].
  rewrite !opp_IZR, mult_IZR. rewrite EP at 1. field. easy.
Qed.

(** ** The real tangent *)
Lemma tan_pi_shift k t : cos t <> 0 -> tan (t + IZR k * PI) = tan t.
Proof.
intros H. destruct (Z.Even_or_Odd k) as [[m ->]|[m ->]].
- rewrite mult_IZR.
  replace (t + 2 * IZR m * PI) with (t + IZR m * (2 * PI)) by lra. apply tan_shift.
- rewrite plus_IZR, mult_IZR.
  replace (t + (2 * IZR m + 1) * PI) with ((PI + t) + IZR m * (2 * PI)) by lra. rewrite tan_shift.
  now apply Rtrigo_facts.tan_pi_plus.
Qed.
Lemma cos_pi_shift k t : cos (t + IZR k * PI) = 0 <-> cos t = 0.
Proof.
destruct (Z.Even_or_Odd k) as [[m ->]|[m ->]].
- rewrite mult_IZR.
  replace (t + 2 * IZR m * PI) with (t + IZR m * (2 * PI)) by lra. now rewrite cos_shift.
- rewrite plus_IZR, mult_IZR.
  replace (t + (2 * IZR m + 1) * PI) with ((t + PI) + IZR m * (2 * PI)) by lra. rewrite cos_shift, neg_cos.
  split; lra.
Qed.
Lemma tan_le x y : - PI / 2 < x -> x <= y -> y < PI / 2 -> tan x <= tan y.
Proof. intros H1 [H2| ->] H3; [left; now apply tan_increasing|right; easy]. Qed.
Lemma tan_mvt y x : 0 <= y -> y <= x -> x < PI / 2 -> tan y + (x - y) * (1 + tan y * tan y) <= tan x.
Proof.
pose proof PI_RGT_0 as HP. intros H1 [H2| ->] H3; [|lra].
destruct (MVT_cor2 tan (fun c => 1 + tan c ^ 2) y x H2) as (c & E & Hc).
{ intros c Hc. assert (P : - PI / 2 < c < PI / 2) by lra.
  apply derive_pt_eq_1 with (derivable_pt_tan c P). apply derive_pt_tan. }
assert (T : tan y <= tan c) by (apply tan_le; lra).
assert (T0 : 0 <= tan y). { rewrite <- tan_0. apply tan_le; lra. }
assert (tan y * tan y <= tan c ^ 2) by (simpl; rewrite Rmult_1_r; apply Rmult_le_compat; lra).
nra.
Qed.

Lemma reduce_pi (a : R) : cos a <> 0 -> exists k, - PI / 2 < a - IZR k * PI < PI / 2.
Proof.
intros Hc. pose proof PI_RGT_0 as HP.
exists (Zfloor ((a + PI / 2) / PI)). set (q := (a + PI / 2) / PI).
pose proof (Zfloor_lb q) as H1. pose proof (Zfloor_ub q) as H2.
assert (E : a + PI / 2 = q * PI) by (unfold q; field; lra).
set (f := IZR (Zfloor q)) in *.
assert (Hne : a - f * PI <> - PI / 2).
{ intros E'. apply Hc. replace a with (- (PI / 2) + f * PI) by lra. apply cos_pi_shift. rewrite cos_neg. apply cos_PI2. }
assert (H : - PI / 2 <= a - f * PI < PI / 2) by nra. lra.
Qed.

(** Not wider than pi: no pole, or a pole and then the tangents are in reverse order. *)
Lemma tan_cases a b : cos a <> 0 -> cos b <> 0 -> a <= b -> b - a <= PI ->
  (forall t, a <= t <= b -> cos t <> 0 /\ tan a <= tan t <= tan b) \/
  (exists p, a <= p <= b /\ cos p = 0) /\
  (exists s t, - PI / 2 < s /\ s <= t /\ t < PI / 2 /\ t - s = PI - (b - a) /\ tan s = tan b /\ tan t = tan a).
Proof.
intros Ha Hb Hab Hw. pose proof PI_RGT_0 as HP. destruct (reduce_pi a Ha) as [k Hk]. set (d := IZR k * PI) in *.
assert (Ec : forall z, cos z = 0 <-> cos (z - d) = 0).
{ intros z. rewrite <- (cos_pi_shift k (z - d)). unfold d. replace (z - IZR k * PI + IZR k * PI) with z by lra. tauto. }
assert (Et : forall z, cos z <> 0 -> tan z = tan (z - d)).
{ intros z Hz. rewrite <- (tan_pi_shift k (z - d)) by now rewrite <- Ec. f_equal. unfold d. lra. }
assert (NZ : forall z, - PI / 2 < z - d < PI / 2 -> cos z <> 0).
{ intros z Hz H. apply Ec in H. pose proof (cos_gt_0 (z - d)). lra. }
destruct (Rlt_dec (b - d) (PI / 2)) as [B|B].
- left. intros t Ht. split; [apply NZ; lra|]. rewrite (Et a), (Et b), (Et t) by (easy || apply NZ; lra).
  split; apply tan_le; lra.
- right. assert (B' : PI / 2 < b - d).
  { destruct (Rle_lt_or_eq_dec (PI / 2) (b - d)) as [H|H]; [lra|easy|]. exfalso. apply Hb, Ec. rewrite <- H. apply cos_PI2. }
  split; [exists (PI / 2 + d); split; [lra|]; apply Ec; replace (PI / 2 + d - d) with (PI / 2) by lra; apply cos_PI2|].
  exists (b - d - PI), (a - d). repeat split; try lra; [|symmetry; now apply Et].
  rewrite (Et b) by easy. rewrite <- (tan_pi_shift 1 (b - d - PI)).
  + f_equal. lra.
  + rewrite <- (cos_pi_shift 1). replace (b - d - PI + 1 * PI) with (b - d) by lra. now rewrite <- Ec.
Qed.

(** ** Distinct numbers of the format between two tangents *)
Section Gap.
Context {F : fmt}.
#[local] Instance vexp2 : Valid_exp (fexp F) := FLT_exp_valid (emin F) (prec F).
Notation eta := (bpow radix2 (emin F)).
Notation q := (bpow radix2 (1 - prec F)).
Notation fmtF := (generic_format radix2 (fexp F)).

Definition two_between (s t : R) : Prop :=
  exists f g, fmtF f /\ fmtF g /\ f < g /\ s <= f /\ g <= t /\ Rabs f < bpow radix2 (emax F) /\ Rabs g < bpow radix2 (emax F).
Lemma two_between_opp s t : two_between s t -> two_between (- t) (- s).
Proof.
intros (f & g & H1 & H2 & H3 & H4 & H5 & H6 & H7). exists (- g), (- f). rewrite !Rabs_Ropp.
repeat split; try lra; now apply generic_format_opp.
Qed.
Lemma ulp_bound (x : R) : 0 <= x -> ulp radix2 (fexp F) x <= x * q + eta.
Proof.
intros Hx. change (fexp F) with (FLT_exp (emin F) (prec F)).
pose proof (bpow_gt_0 radix2 (1 - prec F)). pose proof (bpow_gt_0 radix2 (emin F)).
destruct (Rle_dec (bpow radix2 (emin F + prec F - 1)) x) as [H'|H'].
- pose proof (ulp_FLT_le radix2 (emin F) (prec F) x) as U. rewrite Rabs_pos_eq in U by easy. specialize (U H'). lra.
- rewrite ulp_FLT_small.
  + nra.
  + apply fmt_prec_gt_0.
  + rewrite Rabs_pos_eq by easy. apply Rlt_trans with (bpow radix2 (emin F + prec F - 1)); [lra|]. apply bpow_lt. lia.
Qed.
Hypothesis Hfmt : (prec F + 3 <= emax F)%Z.
Variable dlt : R.
Hypothesis Hdlt : q + q * q <= dlt.

Lemma eta_small : 4 * eta <= q * q.
Proof.
change 4 with (bpow radix2 2). rewrite <- !bpow_plus. apply bpow_le. unfold emin. lia.
Qed.
Lemma q_pos : 0 < q <= / 2.
Proof. split; [apply bpow_gt_0|]. change (/ 2) with (bpow radix2 (-1)). apply bpow_le. pose proof (fmt_prec1 F). lia. Qed.

Lemma gap_pos y x : 0 <= y -> dlt <= x - y -> x < PI / 2 -> two_between (tan y) (tan x).
Proof.
intros Hy Hxy Hx. pose proof q_pos as Hq. pose proof eta_small as He. pose proof (bpow_gt_0 radix2 (emin F)) as Hep.
pose proof PI_RGT_0 as HP.
assert (Hd : 0 < dlt) by nra.
set (s := tan y). assert (Hs : 0 <= s) by (unfold s; rewrite <- tan_0; apply tan_le; lra).
pose proof (tan_mvt y x Hy ltac:(lra) Hx) as HT. fold s in HT.
set (f := round radix2 (fexp F) Zceil s).
assert (Hsf : s <= f) by apply round_UP_pt, vexp2.
assert (Ff : fmtF f) by (apply generic_format_round; auto with typeclass_instances).
assert (Hf : f <= s * (1 + q) + eta).
{ destruct (Req_dec s 0) as [E|E].
  - unfold f. rewrite E, round_0 by auto with typeclass_instances. nra.
  - pose proof (error_lt_ulp radix2 (fexp F) Zceil s E) as U. fold f in U. pose proof (ulp_bound s Hs).
    rewrite Rabs_pos_eq in U by lra. lra. }
set (g := succ radix2 (fexp F) f).
assert (Hg : g <= f * (1 + q) + eta). { unfold g. rewrite succ_eq_pos by lra. pose proof (ulp_bound f). lra. }
assert (Hfg : f < g).
{ unfold g. rewrite succ_eq_pos by lra. pose proof (ulp_ge_0 radix2 (fexp F) f).
  assert (U : ulp radix2 (fexp F) 0 = eta) by apply ulp_FLT_0, fmt_prec_gt_0.
  assert (U' : ulp radix2 (fexp F) 0 <= ulp radix2 (fexp F) f)
    by (apply ulp_ge_ulp_0; [apply vexp2|apply monotone_exp_not_FTZ; [apply vexp2|apply (FLT_exp_monotone (emin F) (prec F))]]). lra. }
assert (Hg2 : g <= s * (1 + q) * (1 + q) + eta * (2 + q)) by nra.
assert (Hgt : g <= tan x).
{ apply Rle_trans with (2 := HT). apply Rle_trans with (1 := Hg2).
  apply Rle_trans with (s + (q + q * q) * (1 + s * s)).
  2:{ apply Rplus_le_compat_l. apply Rmult_le_compat_r; [nra|lra]. }
  assert (0 <= q * ((1 - s) * (1 - s))) by (apply Rmult_le_pos; [lra|]; apply Rle_0_sqr).
  assert (q * q * (3 / 4) <= q * q * (1 + s * s - s)).
  { apply Rmult_le_compat_l; [nra|]. pose proof (Rle_0_sqr (s - / 2)) as Q. unfold Rsqr in Q. lra. }
  nra. }
(* size: the tangent at y is below 1/dlt *)
assert (Hsb : s * q <= 1).
{ destruct (Req_dec s 0) as [E|E]; [rewrite E; lra|].
  assert (Hy2 : y <= PI / 2 - dlt) by lra.
  assert (L1 : s <= tan (PI / 2 - dlt)) by (apply tan_le; lra).
  assert (L2 : 0 + (dlt - 0) * (1 + 0 * 0) <= tan dlt). { pose proof (tan_mvt 0 dlt) as L. rewrite tan_0 in L. apply L; lra. }
  assert (Et : tan (PI / 2 - dlt) * tan dlt = 1).
  { unfold tan. rewrite Rtrigo1.sin_shift, Rtrigo1.cos_shift. field. split.
    - apply Rgt_not_eq, cos_gt_0; lra.
    - apply Rgt_not_eq, sin_gt_0; lra. }
  apply Rle_trans with (tan (PI / 2 - dlt) * tan dlt); [|lra]. apply Rmult_le_compat; lra. }
assert (Hgb : g < bpow radix2 (emax F)).
{ apply Rle_lt_trans with (1 := Hg2).
  assert (B : bpow radix2 3 * bpow radix2 (prec F) <= bpow radix2 (emax F)) by (rewrite <- bpow_plus; apply bpow_le; lia).
  assert (B2 : 2 = q * bpow radix2 (prec F)) by (rewrite <- bpow_plus; change 2 with (bpow radix2 1); f_equal; lia).
  change (bpow radix2 3) with 8 in B.
  assert (Bq : s <= / 2 * bpow radix2 (prec F)).
  { apply Rmult_le_reg_r with q; [lra|]. lra. }
  assert (4 <= bpow radix2 (prec F)) by (change 4 with (bpow radix2 2); apply bpow_le; pose proof (fmt_prec1 F); lia).
  nra. }
exists f, g. repeat split; try easy.
- apply generic_format_succ; [apply vexp2|easy].
- rewrite Rabs_pos_eq by lra. lra.
- rewrite Rabs_pos_eq by lra. lra.
Qed.

Lemma gap y x : - PI / 2 < y -> dlt <= x - y -> x < PI / 2 -> two_between (tan y) (tan x).
Proof.
intros Hy Hxy Hx. pose proof q_pos as Hq. pose proof eta_small as He. pose proof (bpow_gt_0 radix2 (emin F)) as Hep.
assert (Hd : 0 < dlt) by nra.
destruct (Rle_dec 0 y) as [Y|Y]; [now apply gap_pos|].
destruct (Rle_dec x 0) as [X|X].
{ replace (tan y) with (- tan (- y)) by (rewrite tan_neg; lra). replace (tan x) with (- tan (- x)) by (rewrite tan_neg; lra).
  apply two_between_opp. apply gap_pos; lra. }
assert (P : forall z, dlt / 2 <= z -> z < PI / 2 -> eta <= tan z).
{ intros z H1 H2. assert (L2 : 0 + (z - 0) * (1 + 0 * 0) <= tan z). { pose proof (tan_mvt 0 z) as L. rewrite tan_0 in L. apply L; lra. }
  nra. }
assert (E : eta < bpow radix2 (emax F)) by (apply bpow_lt; unfold emin; pose proof (fmt_prec1 F); lia).
assert (G : forall y x, - PI / 2 < y -> y < 0 -> 0 < x -> x < PI / 2 -> dlt / 2 <= x -> two_between (tan y) (tan x)).
{ intros y' x' H1 H2 H3 H4 H5. exists 0, eta. rewrite Rabs_R0, Rabs_pos_eq by lra. repeat split; try lra.
  - apply generic_format_0.
  - apply fmt_eta.
  - left. apply tan_lt_0; lra.
  - now apply P.
  }
destruct (Rle_dec (dlt / 2) x) as [H|H]; [apply G; lra|].
replace (tan y) with (- tan (- y)) by (rewrite tan_neg; lra). replace (tan x) with (- tan (- x)) by (rewrite tan_neg; lra).
apply two_between_opp. apply G; lra.
Qed.
End Gap.

Section Main.
Context {F : fmt}.
Implicit Types x z : itv F.

Lemma fmt_float (r : R) : generic_format radix2 (fexp F) r -> Rabs r < bpow radix2 (emax F) ->
  exists f : float F, is_finite f = true /\ B2R f = r.
Proof.
intros H1 H2. exists (rround mode_NE false r). pose proof (rround_rnds (F := F) mode_NE false r) as H. unfold rnds in H.
rewrite round_generic in H by (auto with typeclass_instances; easy). rewrite Rlt_bool_true in H by easy. easy.
Qed.
Lemma two_between_greater (s t : R) (f g : float F) : @two_between F s t -> is_RU s f -> is_RD t g -> mpfr_greater g f = true.
Proof.
intros (p & q & H1 & H2 & H3 & H4 & H5 & H6 & H7) [U1 U2] [D1 D2].
destruct (fmt_float p H1 H6) as (pf & P1 & P2). destruct (fmt_float q H2 H7) as (qf & Q1 & Q2).
specialize (U2 pf). specialize (D2 qf).
assert (UP : ub pf s) by (rewrite ub_fin by easy; lra). assert (LQ : lb qf t) by (rewrite lb_fin by easy; lra).
specialize (U2 UP). specialize (D2 LQ).
unfold mpfr_greater.
destruct (fviewP f) as [ | | |f Ff]; try easy.
- specialize (U2 (p + 1) eq_refl). rewrite ub_fin in U2 by easy. lra.
- destruct (fviewP g) as [ | | |g Fg]; try easy.
  + specialize (D2 (q - 1) eq_refl). rewrite lb_fin in D2 by easy. lra.
  + specialize (U2 (B2R f)). specialize (D2 (B2R g)). rewrite !ub_fin in U2 by easy. rewrite !lb_fin in D2 by easy.
    rewrite fgt_fin by easy. apply Rlt_bool_true. lra.
Qed.

Definition tan_dom (r : R) : Prop := cos r <> 0.

(** The general statement: the tangent is enclosed provided a pole is recognised. *)
Lemma tan_general x : wf x ->
  (bounded_rep x -> (exists p, mem p x /\ cos p = 0) ->
   B2R (snd x) - B2R (fst x) <= B2R (@mpfr_const_pi F mode_DN) ->
   @two_between F (tan (B2R (snd x))) (tan (B2R (fst x)))) ->
  exists z, returns (tan_itv x) z /\ wf z /\ encloses (image1 tan_dom tan x) z /\
    (bounded_rep x -> (forall r, mem r x -> cos r <> 0) ->
     B2R (snd x) - B2R (fst x) <= B2R (@mpfr_const_pi F mode_DN) -> tightest (image1 tan_dom tan x) z).
Proof.
intros W H.
assert (Hent : forall m, m = ret (@entire F) -> (bounded_rep x -> (forall r, mem r x -> cos r <> 0) ->
     B2R (snd x) - B2R (fst x) <= B2R (@mpfr_const_pi F mode_DN) -> False) ->
  exists z, returns m z /\ wf z /\ encloses (image1 tan_dom tan x) z /\
    (bounded_rep x -> (forall r, mem r x -> cos r <> 0) ->
     B2R (snd x) - B2R (fst x) <= B2R (@mpfr_const_pi F mode_DN) -> tightest (image1 tan_dom tan x) z)).
{ intros m -> Hno. exists entire. split; [easy|]. split; [right; now exists 0|]. split; [now intros r _|].
  intros B N L. now destruct (Hno B N L). }
unfold tan_itv. vred. destruct (isnan (fst x)) eqn:Ex; vred.
{ exists empty. assert (T : tightest (image1 tan_dom tan x) (@empty F))
   by (apply tightest_empty; intros r; now apply image1_empty).
  split; [easy|]. split; [apply T|]. split; [apply T|easy]. }
pose proof (wf_view _ W) as V. destruct (wview_nonempty x V Ex) as [r0 Hr0].
destruct (@pi_fin F) as [P1 P2]. set (p := mpfr_const_pi mode_DN) in *.
destruct (is_finite (fst x) && is_finite (snd x)) eqn:Ef.
2:{ rewrite (width_inf (fst x) (snd x) p); [|easy|].
    - apply Hent; [easy|]. intros [B1 B2]. now rewrite B1, B2 in Ef.
    - destruct V; cbn [fst snd] in *; try easy.
      + left. now repeat split.
      + left. repeat split; [|now apply isnan_fin]. now intros ->.
      + right. repeat split; [|now apply isnan_fin]. now intros ->.
      + rewrite H0, H1 in Ef. easy. }
apply andb_true_iff in Ef. destruct Ef as [F1 F2].
assert (Hm : forall r, mem r x <-> B2R (fst x) <= r <= B2R (snd x)).
{ intros r. unfold mem. now rewrite lb_fin, ub_fin. }
pose proof (width_le (fst x) (snd x) p F1 F2 P1) as Hw.
destruct (mpfr_greater (rsub mode_UP (snd x) (fst x)) p) eqn:Eg.
{ apply Hent; [easy|]. intros _ _ L. now apply Hw in L. }
assert (Hle : B2R (snd x) - B2R (fst x) <= B2R p) by now apply Hw.
assert (Ra : is_RD (tan (B2R (fst x))) (mpfr_tan mode_DN (fst x))) by (unfold mpfr_tan; rewrite F1; apply rround_RD).
assert (Rb : is_RU (tan (B2R (snd x))) (mpfr_tan mode_UP (snd x))) by (unfold mpfr_tan; rewrite F2; apply rround_RU).
assert (Hab : B2R (fst x) <= B2R (snd x)) by (apply Hm in Hr0; lra).
destruct (tan_cases (B2R (fst x)) (B2R (snd x))) as [Hmono|((pole & Hp & Cp) & _)]; [apply cos_nz, rational_B2R|apply cos_nz, rational_B2R|lra|lra| |].
- assert (T : tightest (image1 tan_dom tan x) (mpfr_tan mode_DN (fst x), mpfr_tan mode_UP (snd x))).
  { apply tightest_intro.
    - exists (tan r0), r0. split; [easy|split; [|easy]]. apply Hmono. now apply Hm.
    - apply glow_inc_att with (B2R (fst x)); [|intros r [Hr _]; apply Hmono; now apply Hm|easy].
      split; [apply Hm; lra|]. apply cos_nz, rational_B2R.
    - apply gupp_inc_att with (B2R (snd x)); [|intros r [Hr _]; apply Hmono; now apply Hm|easy].
      split; [apply Hm; lra|]. apply cos_nz, rational_B2R. }
  destruct (mpfr_greater (mpfr_tan mode_DN (fst x)) (mpfr_tan mode_UP (snd x))) eqn:E.
  { exfalso. assert (Hr1 : mem (tan r0) (mpfr_tan mode_DN (fst x), mpfr_tan mode_UP (snd x))).
    { apply (proj1 (proj2 T)). exists r0. split; [easy|split; [|easy]]. apply Hmono. now apply Hm. }
    destruct Hr1 as [L1 L2]. cbn [fst snd] in *. revert E L1 L2. unfold mpfr_greater.
    destruct (fviewP (mpfr_tan mode_DN (fst x))) as [ | | |g Fg]; try easy;
    destruct (fviewP (mpfr_tan mode_UP (snd x))) as [ | | |g' Fg']; try easy.
    - now destruct g' as [| | |[]].
    - now destruct g as [| | |[]].
    - rewrite fgt_fin, lb_fin, ub_fin by easy. case Rlt_bool_spec; [|easy]. intros; lra. }
  eexists. split; [now intros s|]. split; [apply T|]. split; [apply T|easy].
- rewrite (two_between_greater (tan (B2R (snd x))) (tan (B2R (fst x)))); try easy.
  + apply Hent; [easy|]. intros _ N _. apply (N pole); [now apply Hm|easy].
  + apply H; [easy| |easy]. exists pole. split; [now apply Hm|easy].
Qed.

(** Formats whose numbers below pi stay away from pi. *)
Definition pi_far (G : fmt) : Prop := (prec G + 3 <= emax G)%Z /\
  forall p : float G, is_finite p = true -> B2R p <= PI ->
    B2R p + (bpow radix2 (1 - prec G) + bpow radix2 (1 - prec G) * bpow radix2 (1 - prec G)) <= PI.
Lemma tan_far x : pi_far F -> wf x -> computes_enclosure (tan_itv x) (image1 tan_dom tan x).
Proof.
intros [H1 H2] W. destruct (tan_general x W) as (z & Z1 & Z2 & Z3 & _).
- intros [B1 B2] (pole & Hp & Cp) Hle. destruct (@pi_fin F) as [P1 P2].
  specialize (H2 _ P1 (proj2 P2)).
  assert (Hm : forall r, mem r x <-> B2R (fst x) <= r <= B2R (snd x)).
  { intros r. unfold mem. now rewrite lb_fin, ub_fin. }
  assert (Hab : B2R (fst x) <= B2R (snd x)) by (apply Hm in Hp; lra).
  destruct (tan_cases (B2R (fst x)) (B2R (snd x))) as [Hmono|(_ & s & t & S1 & S2 & S3 & S4 & S5 & S6)];
    [apply cos_nz, rational_B2R|apply cos_nz, rational_B2R|lra|lra| |].
  + exfalso. apply (proj1 (Hmono pole (proj1 (Hm pole) Hp))). easy.
  + rewrite <- S5, <- S6. apply gap with (PI - B2R (@mpfr_const_pi F mode_DN)); try easy; lra.
- now exists z.
Qed.
(** Any format: no pole between the bounds. *)
Lemma tan_no_pole x : wf x -> (forall r, mem r x -> cos r <> 0) -> computes_enclosure (tan_itv x) (image1 tan_dom tan x).
Proof.
intros W N. destruct (tan_general x W) as (z & Z1 & Z2 & Z3 & _); [|now exists z].
intros _ (p & Hp & Cp). now destruct (N p Hp).
Qed.
Lemma tan_no_pole_tight x (p : float F) : wf x -> (forall r, mem r x -> cos r <> 0) -> bounded_rep x ->
  is_finite p = true -> B2R p <= PI -> B2R (snd x) - B2R (fst x) <= B2R p ->
  computes_tightest (tan_itv x) (image1 tan_dom tan x).
Proof.
intros W N B Fp Hp Hw. destruct (tan_general x W) as (z & Z1 & Z2 & Z3 & Z4).
- intros _ (r & Hr & Cr). now destruct (N r Hr).
- exists z. split; [easy|]. apply Z4; try easy. apply Rle_trans with (1 := Hw).
  pose proof (rround_RD false PI : is_RD PI (@mpfr_const_pi F mode_DN)) as [_ H].
  assert (L : lb p PI) by now rewrite lb_fin.
  specialize (H p L (B2R (@mpfr_const_pi F mode_DN))). rewrite !lb_fin in H by (easy || apply pi_fin). apply H. lra.
Qed.
End Main.
