(** * Facts about the real sine used for the interval sine and cosine *)
From Coq Require Import ZArith Reals Bool Lia Lra Psatz.
From Flocq Require Import Core.Raux.
Local Open Scope R_scope.

Lemma sin_shift k t : sin (t + IZR k * (2 * PI)) = sin t.
Proof.
destruct k as [|p|p].
- f_equal. lra.
- rewrite <- (sin_period t (Pos.to_nat p)). f_equal. rewrite INR_IZR_INZ, positive_nat_Z. lra.
- rewrite <- (sin_period _ (Pos.to_nat p)). f_equal. rewrite INR_IZR_INZ, positive_nat_Z.
  change (Z.neg p) with (- Z.pos p)%Z. rewrite opp_IZR. lra.
Qed.
Lemma cos_shift k t : cos (t + IZR k * (2 * PI)) = cos t.
Proof.
rewrite !cos_sin. rewrite <- (sin_shift k (PI / 2 + t)). f_equal. lra.
Qed.
Lemma tan_shift k t : tan (t + IZR k * (2 * PI)) = tan t.
Proof. unfold tan. now rewrite sin_shift, cos_shift. Qed.

(** Reduction of the left endpoint to one period. *)
Lemma reduce (a : R) : exists k, - (PI / 2) <= a - IZR k * (2 * PI) < 3 * (PI / 2).
Proof.
pose proof PI_RGT_0 as HP.
exists (Zfloor ((a + PI / 2) / (2 * PI))). set (q := (a + PI / 2) / (2 * PI)).
pose proof (Zfloor_lb q) as H1. pose proof (Zfloor_ub q) as H2.
assert (E : a + PI / 2 = q * (2 * PI)) by (unfold q; field; lra).
set (f := IZR (Zfloor q)) in *. nra.
Qed.

Lemma sin_inc x y : - (PI / 2) <= x -> x <= y -> y <= PI / 2 -> sin x <= sin y.
Proof. intros H1 H2 H3. apply sin_incr_1; lra. Qed.
Lemma sin_dec x y : PI / 2 <= x -> x <= y -> y <= 3 * (PI / 2) -> sin y <= sin x.
Proof. intros H1 H2 H3. apply sin_decr_1; lra. Qed.
Lemma sin_inc3 x y : 3 * (PI / 2) <= x -> x <= y -> y <= 5 * (PI / 2) -> sin x <= sin y.
Proof.
intros H1 H2 H3. rewrite <- (sin_shift (-1) x), <- (sin_shift (-1) y). simpl IZR.
apply sin_inc; lra.
Qed.
Lemma sin_dec3 x y : 5 * (PI / 2) <= x -> x <= y -> y <= 7 * (PI / 2) -> sin y <= sin x.
Proof.
intros H1 H2 H3. rewrite <- (sin_shift (-1) x), <- (sin_shift (-1) y). simpl IZR.
apply sin_dec; lra.
Qed.
Lemma cos_ge0 x : - (PI / 2) <= x -> x <= PI / 2 -> 0 <= cos x.
Proof. apply cos_ge_0. Qed.
Lemma cos_le0 x : PI / 2 <= x -> x <= 3 * (PI / 2) -> cos x <= 0.
Proof. apply cos_le_0. Qed.
Lemma cos_ge0' x : 3 * (PI / 2) <= x -> x <= 5 * (PI / 2) -> 0 <= cos x.
Proof. intros H1 H2. rewrite <- (cos_shift (-1) x). simpl IZR. apply cos_ge_0; lra. Qed.
Lemma cos_le0' x : 5 * (PI / 2) <= x -> x <= 7 * (PI / 2) -> cos x <= 0.
Proof. intros H1 H2. rewrite <- (cos_shift (-1) x). simpl IZR. apply cos_le_0; lra. Qed.
Lemma sin_half : sin (PI / 2) = 1. Proof. apply sin_PI2. Qed.
Lemma sin_3half : sin (3 * (PI / 2)) = -1.
Proof. replace (3 * (PI / 2)) with (PI / 2 + PI) by lra. rewrite neg_sin, sin_PI2. lra. Qed.

(** One maximum between the endpoints. *)
Lemma one_peak a b t : a <= t <= b -> b - a <= 2 * PI -> 0 < cos a -> cos b < 0 ->
  Rmin (sin a) (sin b) <= sin t /\ exists s, a <= s <= b /\ sin s = 1.
Proof.
pose proof PI_RGT_0 as HP. destruct (reduce a) as [k Hk]. intros Ht Hw Ha Hb.
set (d := IZR k * (2 * PI)) in *.
assert (E : forall z, sin z = sin (z - d))
  by (intros z; rewrite <- (sin_shift k (z - d)); f_equal; unfold d; lra).
assert (Ec : forall z, cos z = cos (z - d))
  by (intros z; rewrite <- (cos_shift k (z - d)); f_equal; unfold d; lra).
rewrite (E a), (E b), (E t). rewrite Ec in Ha, Hb.
assert (A : a - d <= PI / 2).
{ apply Rnot_lt_le. intros H. pose proof (cos_le0 (a - d)). lra. }
assert (B : PI / 2 <= b - d).
{ apply Rnot_lt_le. intros H. pose proof (cos_ge0 (b - d)). lra. }
assert (B' : b - d <= 3 * (PI / 2)).
{ apply Rnot_lt_le. intros H. pose proof (cos_ge0' (b - d)). lra. }
split.
- destruct (Rle_dec (t - d) (PI / 2)).
  + apply Rle_trans with (1 := Rmin_l _ _). apply sin_inc; lra.
  + apply Rle_trans with (1 := Rmin_r _ _). apply sin_dec; lra.
- exists (PI / 2 + d). split; [lra|]. rewrite E. replace (PI / 2 + d - d) with (PI / 2) by lra. apply sin_half.
Qed.
(** One minimum between the endpoints. *)
Lemma one_valley a b t : a <= t <= b -> b - a <= 2 * PI -> cos a < 0 -> 0 < cos b ->
  sin t <= Rmax (sin a) (sin b) /\ exists s, a <= s <= b /\ sin s = -1.
Proof.
intros Ht Hw Ha Hb.
destruct (one_peak (a + PI) (b + PI) (t + PI)) as [H (s & Hs & Es)]; [lra|lra|rewrite neg_cos; lra..|].
rewrite !neg_sin in H. split.
- unfold Rmin, Rmax in *. destruct (Rle_dec (sin a) (sin b)), (Rle_dec (- sin a) (- sin b)); lra.
- exists (s - PI). split; [lra|]. pose proof (neg_sin (s - PI)) as N. replace (s - PI + PI) with s in N by lra. lra.
Qed.

(** Less than half a period: the upper bound is at an endpoint, or there is a
    maximum inside, and then the endpoint nearest to it has the smaller
    derivative. *)
Lemma narrow_above a b t : a <= t <= b -> b - a <= PI ->
  sin t <= Rmax (sin a) (sin b) \/
  (0 < cos a /\ cos b < 0 /\ (0 <= sin a \/ (0 <= sin b /\ - cos b <= cos a)) /\
   (0 <= sin b \/ (0 <= sin a /\ cos a <= - cos b)) /\
   (exists s, a <= s <= b /\ sin s = 1)).
Proof.
pose proof PI_RGT_0 as HP. destruct (reduce a) as [k Hk]. intros Ht Hw.
set (d := IZR k * (2 * PI)) in *.
assert (E : forall z, sin z = sin (z - d))
  by (intros z; rewrite <- (sin_shift k (z - d)); f_equal; unfold d; lra).
assert (Ec : forall z, cos z = cos (z - d))
  by (intros z; rewrite <- (cos_shift k (z - d)); f_equal; unfold d; lra).
assert (G : forall a b, - (PI / 2) <= a < PI / 2 -> PI / 2 < b -> b - a <= PI ->
    0 < cos a /\ cos b < 0 /\ (0 <= sin a \/ (0 <= sin b /\ - cos b <= cos a)) /\
   (0 <= sin b \/ (0 <= sin a /\ cos a <= - cos b))).
{ clear. intros a b Ha Hb Hw. pose proof PI_RGT_0 as HP.
  split; [apply cos_gt_0; lra|]. split; [apply cos_lt_0; lra|]. 
  assert (N : - cos b = cos (PI - b)) by (rewrite Rtrigo_facts.cos_pi_minus; lra).
  assert (N' : - cos b = cos (b - PI)) by (rewrite N; rewrite <- cos_neg; f_equal; lra).
  split.
  - destruct (Rle_dec 0 a) as [P|P]; [left; apply sin_ge_0; lra|right].
    split; [apply sin_ge_0; lra|]. rewrite N, <- (cos_neg a).
    apply cos_decr_1; lra.
  - destruct (Rle_dec b PI) as [P|P]; [left; apply sin_ge_0; lra|right].
    split; [apply sin_ge_0; lra|]. rewrite N'. apply cos_decr_1; lra. }
destruct (Rlt_dec (a - d) (PI / 2)) as [A|A].
- destruct (Rle_dec (b - d) (PI / 2)) as [B|B].
  + left. apply Rle_trans with (2 := Rmax_r _ _). rewrite (E t), (E b). apply sin_inc; lra.
  + right. rewrite (Ec a), (Ec b), (E a), (E b).
    destruct (G (a - d) (b - d)) as (G1 & G2 & G3 & G4); [lra..|].
    repeat (split; [assumption|]).
    exists (PI / 2 + d). split; [lra|]. rewrite E. replace (PI / 2 + d - d) with (PI / 2) by lra. apply sin_half.
- destruct (Rle_dec (t - d) (3 * (PI / 2))) as [T|T].
  + left. apply Rle_trans with (2 := Rmax_l _ _). rewrite (E t), (E a). apply sin_dec; lra.
  + left. apply Rle_trans with (2 := Rmax_r _ _). rewrite (E t), (E b). apply sin_inc3; lra.
Qed.
Lemma narrow_below a b t : a <= t <= b -> b - a <= PI ->
  Rmin (sin a) (sin b) <= sin t \/
  (cos a < 0 /\ 0 < cos b /\ (sin a <= 0 \/ (sin b <= 0 /\ cos b <= - cos a)) /\
   (sin b <= 0 \/ (sin a <= 0 /\ - cos a <= cos b)) /\
   (exists s, a <= s <= b /\ sin s = -1)).
Proof.
intros Ht Hw.
destruct (narrow_above (a + PI) (b + PI) (t + PI)) as [H|(H1 & H2 & H3 & H4 & s & Hs & Es)]; [lra..| |].
- left. rewrite !neg_sin in H. unfold Rmin, Rmax in *.
  destruct (Rle_dec (sin a) (sin b)), (Rle_dec (- sin a) (- sin b)); lra.
- right. rewrite ?neg_cos, ?neg_sin in *. repeat (split; [lra|]).
  exists (s - PI). split; [lra|]. pose proof (neg_sin (s - PI)) as N. replace (s - PI + PI) with s in N by lra. lra.
Qed.
(** A whole period. *)
Lemma full_period a b : 2 * PI <= b - a -> (exists s, a <= s <= b /\ sin s = 1) /\ (exists s, a <= s <= b /\ sin s = -1).
Proof.
pose proof PI_RGT_0 as HP. destruct (reduce a) as [k Hk]. intros Hw.
set (d := IZR k * (2 * PI)) in *.
assert (S : forall j z, sin (z + d + IZR j * (2 * PI)) = sin z).
{ intros j z. rewrite sin_shift. unfold d. apply sin_shift. }
split.
- destruct (Rle_dec (a - d) (PI / 2)) as [A|A].
  + exists (PI / 2 + d + IZR 0 * (2 * PI)). rewrite S, sin_half. simpl IZR. lra.
  + exists (PI / 2 + d + IZR 1 * (2 * PI)). rewrite S, sin_half. simpl IZR. lra.
- exists (3 * (PI / 2) + d + IZR 0 * (2 * PI)). rewrite S, sin_3half. simpl IZR. lra.
Qed.
