(** * Real functions of the elementary-function properties

    Only functions missing from the standard library are defined here, each with
    a sanity lemma against its usual characterisation. *)

From Coq Require Import ZArith Reals Lra Lia.
From Coq Require Import Ratan.
From Flocq Require Import Core.Core.

Local Open Scope R_scope.

Definition exp2R (r : R) : R := Rpower 2 r.
Definition exp10R (r : R) : R := Rpower 10 r.
Definition log2R (r : R) : R := ln r / ln 2.
Definition log10R (r : R) : R := ln r / ln 10.
Definition acoshR (r : R) : R := ln (r + sqrt (r * r - 1)).
Definition atanhR (r : R) : R := ln ((1 + r) / (1 - r)) / 2.
Definition positive (r : R) : Prop := 0 < r.
Definition within1 (r : R) : Prop := -1 <= r <= 1.
Definition inside1 (r : R) : Prop := -1 < r < 1.
Definition from1 (r : R) : Prop := 1 <= r.

Lemma ln2_pos : 0 < ln 2. Proof. rewrite <- ln_1. apply ln_increasing; lra. Qed.
Lemma ln10_pos : 0 < ln 10. Proof. rewrite <- ln_1. apply ln_increasing; lra. Qed.

Lemma exp2R_log2R r : 0 < r -> exp2R (log2R r) = r.
Proof.
intros H. unfold exp2R, log2R, Rpower. pose proof ln2_pos.
replace (ln r / ln 2 * ln 2) with (ln r) by (field; lra). now apply exp_ln.
Qed.
Lemma exp2R_IZR n : exp2R (IZR n) = bpow radix2 n.
Proof. unfold exp2R. rewrite bpow_powerRZ, powerRZ_Rpower by (simpl; lra). reflexivity. Qed.
Lemma exp10R_log10R r : 0 < r -> exp10R (log10R r) = r.
Proof.
intros H. unfold exp10R, log10R, Rpower. pose proof ln10_pos.
replace (ln r / ln 10 * ln 10) with (ln r) by (field; lra). now apply exp_ln.
Qed.

Lemma acoshR_arg r : 1 <= r -> 1 <= r + sqrt (r * r - 1).
Proof. intros H. pose proof (sqrt_pos (r * r - 1)). lra. Qed.
Lemma acoshR_nonneg r : 1 <= r -> 0 <= acoshR r.
Proof.
intros H. pose proof (acoshR_arg r H). unfold acoshR.
rewrite <- ln_1. destruct H0 as [H0|<-]; [left; apply ln_increasing; lra|now right].
Qed.
Lemma cosh_acoshR r : 1 <= r -> cosh (acoshR r) = r.
Proof.
intros H. pose proof (acoshR_arg r H) as H1. unfold cosh, acoshR.
rewrite exp_Ropp, exp_ln by lra.
assert (E : sqrt (r * r - 1) * sqrt (r * r - 1) = r * r - 1) by (apply sqrt_def; nra).
set (q := sqrt (r * r - 1)) in *.
apply Rmult_eq_reg_l with (2 * (r + q)); [|lra]. field_simplify; [|lra].
unfold pow; rewrite ?Rmult_1_r. nra.
Qed.
Lemma atanhR_arg r : -1 < r < 1 -> 0 < (1 + r) / (1 - r).
Proof. intros H. apply Rdiv_lt_0_compat; lra. Qed.
Lemma tanh_atanhR r : -1 < r < 1 -> tanh (atanhR r) = r.
Proof.
intros H. pose proof (atanhR_arg r H) as H1. unfold tanh, sinh, cosh, atanhR.
rewrite exp_Ropp. set (e := exp (ln ((1 + r) / (1 - r)) / 2)).
assert (He : 0 < e) by apply exp_pos.
assert (E : e * e = (1 + r) / (1 - r)).
{ unfold e. rewrite <- exp_plus. replace (_ / 2 + _ / 2) with (ln ((1 + r) / (1 - r))) by lra. now apply exp_ln. }
replace ((e - / e) / 2 / ((e + / e) / 2)) with ((e * e - 1) / (e * e + 1)).
- rewrite E. field. split; lra.
- field. assert (0 < e ^ 2) by (apply pow_lt; lra). repeat split; nra.
Qed.

(** ** Monotonicity and limits *)
Lemma exp_le r s : r <= s -> exp r <= exp s.
Proof. intros [H| ->]; [left; now apply exp_increasing|now right]. Qed.
Lemma ln_le r s : 0 < r -> r <= s -> ln r <= ln s.
Proof. intros H [H1| ->]; [left; now apply ln_increasing|now right]. Qed.
Lemma exp_big B : exists M, B < exp M.
Proof. exists (Rabs B). pose proof (exp_ineq1_le (Rabs B)). pose proof (Rle_abs B). lra. Qed.
Lemma exp_small e : 0 < e -> exists M, exp M < e.
Proof.
intros He. destruct (exp_big (/ e)) as [M HM]. exists (- M). rewrite exp_Ropp.
rewrite <- (Rinv_inv e). apply Rinv_lt_contravar; [|easy].
pose proof (exp_pos M). assert (0 < / e) by now apply Rinv_0_lt_compat. now apply Rmult_lt_0_compat.
Qed.

Lemma pow_base_mono b r s : 1 < b -> r <= s -> Rpower b r <= Rpower b s.
Proof. intros Hb H. apply Rle_Rpower; lra. Qed.
Lemma Rpower_big b B : 1 < b -> exists M, B < Rpower b M.
Proof.
intros Hb. assert (0 < ln b) by (rewrite <- ln_1; apply ln_increasing; lra).
destruct (exp_big B) as [M HM]. exists (M / ln b). unfold Rpower.
replace (M / ln b * ln b) with M by (field; lra). easy.
Qed.
Lemma Rpower_small b e : 1 < b -> 0 < e -> exists M, Rpower b M < e.
Proof.
intros Hb He. assert (0 < ln b) by (rewrite <- ln_1; apply ln_increasing; lra).
destruct (exp_small e He) as [M HM]. exists (M / ln b). unfold Rpower.
replace (M / ln b * ln b) with M by (field; lra). easy.
Qed.
Lemma Rpower_pos b r : 0 < Rpower b r. Proof. apply exp_pos. Qed.

Lemma atan_le r s : r <= s -> atan r <= atan s.
Proof. intros [H| ->]; [left; now apply atan_increasing|now right]. Qed.
Lemma atan_near_up e : 0 < e -> exists M, PI / 2 - e < atan M.
Proof.
intros He. pose proof PI_RGT_0.
set (a := Rmax (PI / 2 - e) 0).
assert (Ha : 0 <= a < PI / 2).
{ unfold a. split; [apply Rmax_r|]. apply Rmax_lub_lt; lra. }
exists (tan ((a + PI / 2) / 2)). rewrite atan_tan by lra.
pose proof (Rmax_l (PI / 2 - e) 0). fold a in H0. lra.
Qed.
Lemma atan_near_lo e : 0 < e -> exists M, atan M < - (PI / 2) + e.
Proof. intros He. destruct (atan_near_up e He) as [M HM]. exists (- M). rewrite atan_opp. lra. Qed.

Lemma sinh_le r s : r <= s -> sinh r <= sinh s.
Proof. intros [H| ->]; [left; now apply sinh_lt|now right]. Qed.
Lemma sinh_big B : exists M, B < sinh M.
Proof. exists (arcsinh (B + 1)). rewrite sinh_arcsinh. lra. Qed.
Lemma sinh_small B : exists M, sinh M < B.
Proof. exists (arcsinh (B - 1)). rewrite sinh_arcsinh. lra. Qed.
Lemma arcsinh_le' r s : r <= s -> arcsinh r <= arcsinh s.
Proof. intros [H| ->]; [left; now apply arcsinh_lt|now right]. Qed.

(** tanh r = 1 - 2 / (exp (2 r) + 1) *)
Lemma tanh_eq r : tanh r = 1 - 2 / (exp (2 * r) + 1).
Proof.
unfold tanh, sinh, cosh. rewrite exp_Ropp. replace (2 * r) with (r + r) by lra. rewrite exp_plus.
pose proof (exp_pos r). field. split; nra.
Qed.
Lemma tanh_le r s : r <= s -> tanh r <= tanh s.
Proof.
intros H. rewrite !tanh_eq. pose proof (exp_pos (2 * r)).
pose proof (exp_le (2 * r) (2 * s)).
assert (2 / (exp (2 * s) + 1) <= 2 / (exp (2 * r) + 1)); [|lra].
apply Rmult_le_compat_l; [lra|]. apply Rinv_le; lra.
Qed.
Lemma tanh_lt1 r : -1 < tanh r < 1.
Proof.
rewrite tanh_eq. pose proof (exp_pos (2 * r)).
assert (0 < 2 / (exp (2 * r) + 1)) by (apply Rdiv_lt_0_compat; lra).
assert (2 / (exp (2 * r) + 1) < 2); [|lra].
apply Rmult_lt_reg_r with (exp (2 * r) + 1); [lra|]. field_simplify; lra.
Qed.
Lemma tanh_near_up e : 0 < e -> exists M, 1 - e < tanh M.
Proof.
intros He. destruct (exp_big (2 / e)) as [M HM]. exists (M / 2). rewrite tanh_eq.
replace (2 * (M / 2)) with M by lra. pose proof (exp_pos M).
assert (2 / (exp M + 1) < e); [|lra].
assert (0 < 2 / e) by (apply Rdiv_lt_0_compat; lra).
apply Rmult_lt_reg_r with (exp M + 1); [lra|]. replace (2 / (exp M + 1) * (exp M + 1)) with 2 by (field; lra).
replace 2 with (e * (2 / e)) by (field; lra). apply Rmult_lt_compat_l; lra.
Qed.
Lemma tanh_opp r : tanh (- r) = - tanh r.
Proof. unfold tanh, sinh, cosh. rewrite Ropp_involutive. pose proof (exp_pos r). pose proof (exp_pos (- r)). field. lra. Qed.
Lemma tanh_near_lo e : 0 < e -> exists M, tanh M < -1 + e.
Proof. intros He. destruct (tanh_near_up e He) as [M HM]. exists (- M). rewrite tanh_opp. lra. Qed.

Lemma cosh_ge1 r : 1 <= cosh r.
Proof.
unfold cosh. rewrite exp_Ropp. pose proof (exp_pos r).
assert (0 <= (exp r - 1) * (exp r - 1) / exp r).
{ apply Rmult_le_pos; [apply Rle_0_sqr|]. left; now apply Rinv_0_lt_compat. }
replace ((exp r + / exp r) / 2) with (1 + (exp r - 1) * (exp r - 1) / exp r / 2) by (field; lra). lra.
Qed.
Lemma cosh_even r : cosh (- r) = cosh r.
Proof. unfold cosh. rewrite Ropp_involutive. lra. Qed.
Lemma cosh_0' : cosh 0 = 1. Proof. unfold cosh. rewrite Ropp_0, exp_0. lra. Qed.
Lemma sinh_nonneg r : 0 <= r -> 0 <= sinh r.
Proof. intros H. replace 0 with (sinh 0); [now apply sinh_le|]. unfold sinh. rewrite Ropp_0, exp_0. lra. Qed.
Lemma cosh_sqr r : cosh r * cosh r = 1 + sinh r * sinh r.
Proof.
unfold cosh, sinh. rewrite exp_Ropp. pose proof (exp_pos r). field. lra.
Qed.
Lemma cosh_le r s : 0 <= r -> r <= s -> cosh r <= cosh s.
Proof.
intros H0 H. pose proof (cosh_sqr r). pose proof (cosh_sqr s). pose proof (cosh_ge1 r). pose proof (cosh_ge1 s).
pose proof (sinh_nonneg r H0). pose proof (sinh_le r s H).
assert (sinh r * sinh r <= sinh s * sinh s) by (apply Rmult_le_compat; lra).
apply Rnot_lt_le. intros HH. assert (cosh s * cosh s < cosh r * cosh r) by (apply Rmult_le_0_lt_compat; lra). lra.
Qed.
Lemma cosh_Rabs r : cosh (Rabs r) = cosh r.
Proof. unfold Rabs. destruct Rcase_abs; [apply cosh_even|easy]. Qed.
Lemma cosh_lower r : Rabs r <= cosh r + cosh r.
Proof.
rewrite <- cosh_Rabs. set (a := Rabs r). pose proof (exp_ineq1_le a). pose proof (exp_pos (- a)).
unfold cosh. lra.
Qed.
Lemma cosh_big B r : 0 <= r -> 2 * B < r -> B < cosh r.
Proof. intros H H1. pose proof (cosh_lower r) as H0. rewrite Rabs_pos_eq in H0 by easy. lra. Qed.

Lemma acoshR_le r s : 1 <= r -> r <= s -> acoshR r <= acoshR s.
Proof.
intros H1 H. unfold acoshR. apply ln_le.
- pose proof (acoshR_arg r H1). lra.
- assert (sqrt (r * r - 1) <= sqrt (s * s - 1)) by (apply sqrt_le_1_alt; nra). lra.
Qed.
Lemma acoshR_cosh r : 0 <= r -> acoshR (cosh r) = r.
Proof.
intros H. unfold acoshR. rewrite cosh_sqr. replace (1 + sinh r * sinh r - 1) with (sinh r * sinh r) by lra.
rewrite sqrt_square by now apply sinh_nonneg.
replace (cosh r + sinh r) with (exp r) by (unfold cosh, sinh; lra). apply ln_exp.
Qed.
Lemma acoshR_1 : acoshR 1 = 0.
Proof. rewrite <- cosh_0'. apply acoshR_cosh. lra. Qed.
Lemma atanhR_tanh r : atanhR (tanh r) = r.
Proof.
unfold atanhR. rewrite tanh_eq. pose proof (exp_pos (2 * r)).
replace ((1 + (1 - 2 / (exp (2 * r) + 1))) / (1 - (1 - 2 / (exp (2 * r) + 1)))) with (exp (2 * r)) by (field; lra).
rewrite ln_exp. lra.
Qed.
Lemma atanhR_le r s : -1 < r -> s < 1 -> r <= s -> atanhR r <= atanhR s.
Proof.
intros H1 H2 H. unfold atanhR. apply Rmult_le_compat_r; [lra|]. apply ln_le; [apply atanhR_arg; lra|].
apply Rmult_le_reg_r with ((1 - r) * (1 - s)); [nra|].
replace ((1 + r) / (1 - r) * ((1 - r) * (1 - s))) with ((1 + r) * (1 - s)) by (field; lra).
replace ((1 + s) / (1 - s) * ((1 - r) * (1 - s))) with ((1 + s) * (1 - r)) by (field; lra). nra.
Qed.

Lemma asin_le r s : -1 <= r -> s <= 1 -> r <= s -> asin r <= asin s.
Proof.
intros H1 H2 H. apply Rnot_lt_le. intros HH.
pose proof (asin_bound r). pose proof (asin_bound s).
assert (sin (asin s) < sin (asin r)) by (apply sin_increasing_1; lra).
rewrite !sin_asin in H4 by lra. lra.
Qed.
Lemma acos_le r s : -1 <= r -> s <= 1 -> r <= s -> acos s <= acos r.
Proof. intros H1 H2 H. rewrite !acos_asin by lra. pose proof (asin_le r s H1 H2 H). lra. Qed.

(** ** Step functions, each with its characterisation *)
Definition signR (r : R) : R := if Rlt_dec r 0 then -1 else if Rlt_dec 0 r then 1 else 0.
Definition ceilR (r : R) : R := IZR (Zceil r).
Definition floorR (r : R) : R := IZR (Zfloor r).
Definition truncR (r : R) : R := if Rlt_dec r 0 then ceilR r else floorR r.
(** nearest integer, ties to even / away from zero *)
Definition rteR (r : R) : R := IZR (ZnearestE r).
Definition rtaR (r : R) : R := IZR (ZnearestA r).

Lemma floorR_char r : floorR r <= r < floorR r + 1.
Proof. split; [apply Zfloor_lb|apply Zfloor_ub]. Qed.
Lemma ceilR_char r : ceilR r - 1 < r <= ceilR r.
Proof.
split; [|apply Zceil_ub]. unfold ceilR, Zceil. rewrite opp_IZR. pose proof (Zfloor_ub (- r)). lra.
Qed.
Lemma Znearest_tie c r : Rabs (r - IZR (Znearest c r)) = /2 ->
  r - IZR (Zfloor r) = /2 /\ Zceil r = (Zfloor r + 1)%Z /\
  Znearest c r = if c (Zfloor r) then Zceil r else Zfloor r.
Proof.
intros H. pose proof (floorR_char r) as Hf. unfold floorR in Hf.
pose proof (ceilR_char r) as Hc. unfold ceilR in Hc. unfold Znearest in *.
destruct (Rcompare_spec (r - IZR (Zfloor r)) (/2)) as [H1|H1|H1].
- exfalso. rewrite Rabs_pos_eq in H by lra. lra.
- split; [easy|]. split; [|easy]. apply Zceil_floor_neq. lra.
- exfalso. destruct (Req_dec (IZR (Zfloor r)) r) as [E|E]; [lra|].
  rewrite (Zceil_floor_neq r E), plus_IZR in H. rewrite Rabs_left1 in H by lra. lra.
Qed.
Lemma rteR_char r : Rabs (r - rteR r) <= /2 /\
  (Rabs (r - rteR r) = /2 -> exists k : Z, rteR r = 2 * IZR k).
Proof.
split; [apply Znearest_half|]. intros H. destruct (Znearest_tie _ _ H) as (_ & H2 & H3).
unfold rteR. rewrite H3. destruct (Z.even (Zfloor r)) eqn:E; simpl.
- apply Z.even_spec in E. destruct E as [k ->]. exists k. now rewrite mult_IZR.
- rewrite H2. assert (O : Z.odd (Zfloor r) = true) by now rewrite <- Z.negb_even, E.
  apply Z.odd_spec in O. destruct O as [k ->]. exists (k + 1)%Z. rewrite <- mult_IZR. f_equal. ring.
Qed.
Lemma rtaR_char r : Rabs (r - rtaR r) <= /2 /\
  (Rabs (r - rtaR r) = /2 -> Rabs r < Rabs (rtaR r)).
Proof.
split; [apply Znearest_half|]. intros H. destruct (Znearest_tie _ _ H) as (H1 & H2 & H3).
unfold rtaR. rewrite H3. destruct (Z.leb_spec 0 (Zfloor r)) as [E|E].
- rewrite H2, plus_IZR. apply IZR_le in E. rewrite !Rabs_pos_eq; lra.
- assert (E' : (Zfloor r <= -1)%Z) by (apply Z.lt_le_pred in E; exact E). apply IZR_le in E'. rewrite !Rabs_left1; lra.
Qed.
Lemma signR_le r s : r <= s -> signR r <= signR s.
Proof. intros H. unfold signR. repeat destruct Rlt_dec; lra. Qed.

(** ** Powers *)
(** [r^p] is defined unless [p < 0] and [r = 0] *)
Definition pown_dom (p : Z) (r : R) : Prop := (p < 0)%Z -> r <> 0.
Definition pownR (p : Z) (r : R) : R := powerRZ r p.
(** [r^s] for a positive base, and [0^s = 0] for a positive exponent *)
Definition pow_dom (r s : R) : Prop := 0 < r \/ (r = 0 /\ 0 < s).
Definition powR (r s : R) : R := if Req_EM_T r 0 then 0 else Rpower r s.
