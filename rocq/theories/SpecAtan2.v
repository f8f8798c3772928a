(** * The angle of a point of the plane *)
From Coq Require Import ZArith Reals Lra Lia Psatz Ratan.
From Verif Require Import SpecElem.
Local Open Scope R_scope.

(** [t] is the angle in (-pi,pi] of the point with abscissa [x] and ordinate [y]
    (there is none for the origin). *)
Definition angle (y x t : R) : Prop :=
  - PI < t <= PI /\ exists rho, 0 < rho /\ x = rho * cos t /\ y = rho * sin t.

(** The same as a function, used as the value that MPFR's [atan2] rounds. *)
Definition ratan2 (y x : R) : R :=
  if Rlt_dec 0 y then PI / 2 - atan (x / y)
  else if Rlt_dec y 0 then - (PI / 2) - atan (x / y)
  else if Rlt_dec x 0 then PI else 0.
Definition not_origin (y x : R) : Prop := y <> 0 \/ x <> 0.

Lemma ratan2_pos y x : 0 < y -> ratan2 y x = PI / 2 - atan (x / y).
Proof. intros H. unfold ratan2. destruct Rlt_dec; lra. Qed.
Lemma ratan2_neg y x : y < 0 -> ratan2 y x = - (PI / 2) - atan (x / y).
Proof. intros H. unfold ratan2. destruct Rlt_dec; [lra|]. destruct Rlt_dec; lra. Qed.
Lemma ratan2_0r x : 0 <= x -> ratan2 0 x = 0.
Proof. intros H. unfold ratan2. repeat destruct Rlt_dec; lra. Qed.
Lemma ratan2_0l x : x < 0 -> ratan2 0 x = PI.
Proof. intros H. unfold ratan2. repeat destruct Rlt_dec; lra. Qed.
Lemma ratan2_opp y x : y <> 0 -> ratan2 (- y) x = - ratan2 y x.
Proof.
intros H. destruct (Rdichotomy _ _ H) as [H'|H'].
- rewrite (ratan2_pos (- y)), (ratan2_neg y) by lra. replace (x / - y) with (- (x / y)) by (field; lra). rewrite atan_opp. lra.
- rewrite (ratan2_neg (- y)), (ratan2_pos y) by lra. replace (x / - y) with (- (x / y)) by (field; lra). rewrite atan_opp. lra.
Qed.

Lemma cos_atan_pos z : 0 < cos (atan z).
Proof. pose proof (atan_bound z). apply cos_gt_0; lra. Qed.
Lemma sin_atan_cos z : sin (atan z) = z * cos (atan z).
Proof.
pose proof (cos_atan_pos z). rewrite <- (tan_atan z) at 2. unfold tan. field. lra.
Qed.

Lemma angle_ratan2_pos y x : 0 < y -> angle y x (ratan2 y x).
Proof.
intros H. rewrite ratan2_pos by easy. pose proof (atan_bound (x / y)). pose proof PI_RGT_0. split; [lra|].
set (z := x / y) in *. pose proof (cos_atan_pos z).
exists (y / cos (atan z)). split; [now apply Rdiv_lt_0_compat|].
rewrite cos_shift, sin_shift, sin_atan_cos. split; [|field; lra].
unfold z at 2. field. lra.
Qed.
Lemma angle_ratan2 y x : not_origin y x -> angle y x (ratan2 y x).
Proof.
intros H. pose proof PI_RGT_0. destruct (total_order_T 0 y) as [[Hy|Hy]|Hy].
- now apply angle_ratan2_pos.
- subst y. destruct (Rlt_or_le x 0).
  + rewrite ratan2_0l by easy. split; [lra|]. exists (- x). rewrite cos_PI, sin_PI. lra.
  + rewrite ratan2_0r by easy. split; [lra|]. exists x. rewrite cos_0, sin_0. destruct H as [H|H]; lra.
- destruct (angle_ratan2_pos (- y) x) as (H1 & rho & H2 & H3 & H4); [lra|].
  rewrite ratan2_opp in * by lra. rewrite cos_neg in H3. rewrite sin_neg in H4.
  split; [|exists rho; lra].
  rewrite ratan2_neg in * by easy. pose proof (atan_bound (x / y)). lra.
Qed.
Lemma angle_unique y x t t' : angle y x t -> angle y x t' -> t = t'.
Proof.
intros (H1 & rho & H2 & H3 & H4) (H1' & rho' & H2' & H3' & H4').
assert (E : rho = rho').
{ apply Rsqr_inj; try lra. unfold Rsqr.
  pose proof (sin2_cos2 t) as Q. pose proof (sin2_cos2 t') as Q'. unfold Rsqr in Q, Q'.
  replace (rho * rho) with (x * x + y * y) by (rewrite H3, H4; nra).
  replace (rho' * rho') with (x * x + y * y) by (rewrite H3', H4'; nra). easy. }
subst rho'.
assert (C : cos t = cos t') by (apply Rmult_eq_reg_l with rho; lra).
assert (S : sin t = sin t') by (apply Rmult_eq_reg_l with rho; lra).
assert (D : cos (t - t') = 1).
{ rewrite cos_minus, C, S. pose proof (sin2_cos2 t') as Q. unfold Rsqr in Q. lra. }
assert (D2 : cos (t - t') = 1 - 2 * sin ((t - t') / 2) * sin ((t - t') / 2)).
{ replace (t - t') with (2 * ((t - t') / 2)) at 1 by field. apply cos_2a_sin. }
assert (Z : sin ((t - t') / 2) = 0) by nra.
assert ((t - t') / 2 = 0); [|lra].
destruct (total_order_T ((t - t') / 2) 0) as [[L|L]|L]; [|easy|].
- assert (sin ((t - t') / 2) < 0) by (apply sin_lt_0_var; lra). lra.
- assert (0 < sin ((t - t') / 2)) by (apply sin_gt_0; lra). lra.
Qed.
Lemma angle_not_origin y x t : angle y x t -> not_origin y x.
Proof.
intros (_ & rho & H2 & H3 & H4). unfold not_origin.
destruct (Req_dec y 0) as [E|E]; [right|now left]. intros E'.
rewrite E in H4. rewrite E' in H3.
assert (S : sin t = 0) by (apply Rmult_eq_reg_l with rho; lra).
assert (C : cos t = 0) by (apply Rmult_eq_reg_l with rho; lra).
pose proof (sin2_cos2 t) as Q. unfold Rsqr in Q. rewrite S, C in Q. lra.
Qed.
Lemma angle_iff y x t : angle y x t <-> not_origin y x /\ t = ratan2 y x.
Proof.
split.
- intros H. pose proof (angle_not_origin _ _ _ H) as N. split; [easy|].
  apply angle_unique with (1 := H). now apply angle_ratan2.
- intros [N ->]. now apply angle_ratan2.
Qed.

(** ** Order *)
Lemma div_cross r s r' s' : 0 < r * r' -> s' * r <= s * r' -> s' / r' <= s / r.
Proof.
intros H1 H2. assert (r <> 0 /\ r' <> 0) as [N N'] by (split; intros ->; lra).
apply Rmult_le_reg_r with (r * r'); [easy|].
replace (s' / r' * (r * r')) with (s' * r) by (field; lra). replace (s / r * (r * r')) with (s * r') by (field; lra). easy.
Qed.
Lemma ratan2_up_le r s r' s' : 0 < r -> 0 < r' -> s' * r <= s * r' -> ratan2 r s <= ratan2 r' s'.
Proof.
intros H1 H2 H. rewrite !ratan2_pos by easy.
assert (s' / r' <= s / r) by (apply div_cross; nra). pose proof (atan_le _ _ H0). lra.
Qed.
Lemma ratan2_dn_le r s r' s' : r < 0 -> r' < 0 -> s' * r <= s * r' -> ratan2 r s <= ratan2 r' s'.
Proof.
intros H1 H2 H. rewrite !ratan2_neg by easy.
assert (s' / r' <= s / r) by (apply div_cross; nra). pose proof (atan_le _ _ H0). lra.
Qed.
Lemma ratan2_up r s : 0 < r -> 0 < ratan2 r s < PI /\ (0 <= s -> ratan2 r s <= PI / 2) /\ (s <= 0 -> PI / 2 <= ratan2 r s).
Proof.
intros H. rewrite ratan2_pos by easy. pose proof (atan_bound (s / r)). split; [lra|]. split; intros Hs.
- assert (0 <= s / r). { apply Rmult_le_pos; [easy|]. left. now apply Rinv_0_lt_compat. }
  pose proof (atan_le _ _ H1). rewrite atan_0 in H2. lra.
- assert (0 <= - s / r). { apply Rmult_le_pos; [lra|]. left. now apply Rinv_0_lt_compat. }
  replace (- s / r) with (- (s / r)) in H1 by (field; lra). pose proof (atan_le _ _ H1). rewrite atan_0, atan_opp in H2. lra.
Qed.
Lemma ratan2_dn r s : r < 0 -> - PI < ratan2 r s < 0 /\ (0 <= s -> - (PI / 2) <= ratan2 r s) /\ (s <= 0 -> ratan2 r s <= - (PI / 2)).
Proof.
intros H. destruct (ratan2_up (- r) s) as (H1 & H2 & H3); [lra|]. rewrite ratan2_opp in * by lra.
split; [lra|]. split; intros Hs; [apply H2 in Hs|apply H3 in Hs]; lra.
Qed.

(** ** Limits *)
Lemma atan_abs z : 0 <= z -> 0 <= atan z <= z.
Proof.
intros H. split; [rewrite <- atan_0; now apply atan_le|].
destruct (Req_dec z 0) as [->|N]; [rewrite atan_0; lra|]. assert (0 < z) by lra.
destruct (MVT_cor2 atan (fun x => / (1 + x ^ 2)) 0 z) as (c & Hc & Hc'); [lra|intros c _; apply derivable_pt_lim_atan|].
rewrite atan_0 in Hc. assert (0 < / (1 + c ^ 2) <= 1).
{ pose proof (pow2_ge_0 c). split; [apply Rinv_0_lt_compat; lra|]. rewrite <- Rinv_1. apply Rinv_le_contravar; lra. }
nra.
Qed.
(** far to the right, far to the left, far up *)
Lemma ratan2_right r e : 0 < r -> 0 < e -> exists B, forall s, B < s -> ratan2 r s < e.
Proof.
intros Hr He. destruct (atan_near_up e He) as [M HM]. exists (M * r). intros s Hs. rewrite ratan2_pos by easy.
assert (M <= s / r).
{ apply Rmult_le_reg_r with r; [easy|]. unfold Rdiv. rewrite Rmult_assoc, Rinv_l by lra. lra. }
pose proof (atan_le _ _ H). lra.
Qed.
Lemma ratan2_left r e : 0 < r -> 0 < e -> exists B, forall s, s < B -> PI - e < ratan2 r s.
Proof.
intros Hr He. destruct (atan_near_lo e He) as [M HM]. exists (M * r). intros s Hs. rewrite ratan2_pos by easy.
assert (s / r <= M).
{ apply Rmult_le_reg_r with r; [easy|]. unfold Rdiv. rewrite Rmult_assoc, Rinv_l by lra. lra. }
pose proof (atan_le _ _ H). lra.
Qed.
Lemma ratan2_far s e : 0 < e -> exists B, 0 < B /\ forall r, B < r -> PI / 2 - e < ratan2 r s < PI / 2 + e.
Proof.
intros He. exists ((Rabs s + 1) / e). pose proof (Rabs_pos s) as Ha.
assert (HB : 0 < (Rabs s + 1) / e) by (apply Rdiv_lt_0_compat; lra). split; [easy|]. intros r Hr.
rewrite ratan2_pos by lra.
assert (Hq : Rabs s / r < e).
{ apply Rmult_lt_reg_r with r; [lra|]. unfold Rdiv at 1. rewrite Rmult_assoc, Rinv_l, Rmult_1_r by lra.
  apply Rmult_lt_compat_r with (r := e) in Hr; [|easy]. unfold Rdiv in Hr. rewrite Rmult_assoc, Rinv_l in Hr by lra. lra. }
assert (Hp : 0 <= Rabs s / r) by (apply Rmult_le_pos; [easy|left; apply Rinv_0_lt_compat; lra]).
destruct (atan_abs _ Hp) as [P1 P2]. revert Hq P1 P2. unfold Rabs. destruct Rcase_abs; intros.
- replace (- s / r) with (- (s / r)) in * by (field; lra). rewrite atan_opp in *. lra.
- lra.
Qed.
(** just below the negative axis *)
Lemma ratan2_below s e : s < 0 -> 0 < e -> exists d, 0 < d /\ forall r, - d < r < 0 -> ratan2 r s < - PI + e.
Proof.
intros Hs He. destruct (atan_near_lo e He) as [M HM].
exists (- s / (Rabs M + 1)). pose proof (Rabs_pos M). split; [apply Rdiv_lt_0_compat; lra|].
intros r Hr. assert (0 < - r) by lra.
replace r with (- - r) by ring. rewrite ratan2_opp, ratan2_pos by lra.
assert (s / - r <= M).
{ apply Rmult_le_reg_r with (- r); [lra|]. unfold Rdiv. rewrite Rmult_assoc, Rinv_l by lra.
  assert (- r < - s / (Rabs M + 1)) by lra.
  apply Rmult_lt_compat_r with (r := Rabs M + 1) in H1; [|lra]. unfold Rdiv in H1. rewrite Rmult_assoc, Rinv_l in H1 by lra.
  assert (- Rabs M <= M) by (unfold Rabs; destruct Rcase_abs; lra). nra. }
pose proof (atan_le _ _ H1). lra.
Qed.
