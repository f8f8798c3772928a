(** * The numbers the texts stand for *)
From Coq Require Import ZArith NArith Reals Bool Ascii String List Lia Lra.
From Flocq Require Import Core.Core IEEE754.BinarySingleNaN.
From Verif Require Import Fmt MStream MText PText.
Import ListNotations.
Local Open Scope R_scope.

Definition ratio (n d : Z) : R := IZR n / IZR d.
Definition sgn (s : bool) (r : R) : R := if s then - r else r.
Lemma ratio_pos n d : (0 <= n)%Z -> (0 < d)%Z -> 0 <= ratio n d.
Proof. intros H1 H2. apply IZR_le in H1. apply IZR_lt in H2. apply Rmult_le_pos; [easy|]. left. now apply Rinv_0_lt_compat. Qed.
Lemma ratio_gt0 n d : (0 < n)%Z -> (0 < d)%Z -> 0 < ratio n d.
Proof. intros H1 H2. apply IZR_lt in H1. apply IZR_lt in H2. apply Rmult_lt_0_compat; [easy|]. now apply Rinv_0_lt_compat. Qed.
Lemma IZR_pow (b : radix) k : (0 <= k)%Z -> IZR (b ^ k) = bpow b k.
Proof. intros H. now rewrite IZR_Zpower. Qed.

Lemma shift_spec (b : radix) k n d : (0 <= n)%Z -> (0 < d)%Z ->
  let '(n', d') := shift b k n d in
  (0 <= n')%Z /\ (0 < d')%Z /\ ratio n' d' = ratio n d * bpow b k /\ ((0 < n)%Z -> (0 < n')%Z).
Proof.
intros Hn Hd. unfold shift. pose proof (radix_gt_0 b) as Hb. destruct (Z.leb_spec 0 k) as [L|L].
- assert (0 < b ^ k)%Z by (apply Z.pow_pos_nonneg; lia). repeat split; try nia. unfold ratio. rewrite mult_IZR, IZR_pow by easy. unfold Rdiv. ring.
- assert (0 < b ^ (- k))%Z by (apply Z.pow_pos_nonneg; lia). repeat split; try nia. unfold ratio. rewrite mult_IZR, IZR_pow by lia.
  rewrite bpow_opp. apply IZR_lt in Hd. assert (P := bpow_gt_0 b k). field. split; lra.
Qed.
Lemma pow_le_iff (b : radix) k n d : (0 <= n)%Z -> (0 < d)%Z -> pow_le b k n d <-> bpow b k <= ratio n d.
Proof.
intros Hn Hd. unfold pow_le. pose proof (shift_spec b (- k) n d Hn Hd) as H. destruct (shift b (- k) n d) as [n' d'].
destruct H as (_ & A & B & _). assert (P := bpow_gt_0 b k). assert (Q := IZR_lt _ _ A).
assert (E : ratio n d = ratio n' d' * bpow b k). { rewrite B, Rmult_assoc, <- bpow_plus. replace (- k + k)%Z with 0%Z by lia. cbn. ring. }
rewrite E. split; intros H.
- apply IZR_le in H. rewrite <- (Rmult_1_l (bpow b k)) at 1. apply Rmult_le_compat_r; [lra|]. unfold ratio. apply Rmult_le_reg_r with (IZR d'); [easy|]. unfold Rdiv. rewrite Rmult_assoc, Rinv_l by lra. lra.
- apply le_IZR. assert (1 <= ratio n' d') by (apply Rmult_le_reg_r with (bpow b k); lra).
  unfold ratio in H0. apply Rmult_le_compat_r with (r := IZR d') in H0; [|lra]. unfold Rdiv in H0. rewrite Rmult_assoc, Rinv_l in H0 by lra. lra.
Qed.
Lemma ilog_mag (b : radix) n d : (0 < n)%Z -> (0 < d)%Z ->
  bpow b (ilog b n d) <= ratio n d < bpow b (ilog b n d + 1) /\ mag_val b _ (mag b (ratio n d)) = (ilog b n d + 1)%Z.
Proof.
intros Hn Hd. pose proof (radix_gt_1 b) as Hb. destruct (ilog_spec b n d) as [A B]; [lia|easy|easy|].
apply pow_le_iff in A; [|lia|lia]. assert (C : ratio n d < bpow b (ilog b n d + 1)).
{ apply Rnot_le_lt. intros H. apply B. apply pow_le_iff; try lia. easy. }
split; [easy|]. apply mag_unique. rewrite Rabs_pos_eq by (apply ratio_pos; lia). replace (ilog b n d + 1 - 1)%Z with (ilog b n d) by ring. easy.
Qed.

(** Rounding of quotients *)
Lemma ratio_div n d : (0 < d)%Z -> ratio n d = IZR (n / d) + ratio (n mod d) d.
Proof. intros Hd. unfold ratio. rewrite (Z.div_mod n d) at 1 by lia. rewrite plus_IZR, mult_IZR. apply IZR_lt in Hd. field. lra. Qed.
Lemma ratio_mod n d : (0 < d)%Z -> 0 <= ratio (n mod d) d < 1.
Proof.
intros Hd. assert (0 <= n mod d < d)%Z by (apply Z.mod_pos_bound; easy). destruct H as [A B]. split; [now apply ratio_pos|].
apply IZR_lt in B. apply IZR_lt in Hd. unfold ratio. apply Rmult_lt_reg_r with (IZR d); [easy|]. unfold Rdiv. rewrite Rmult_assoc, Rinv_l; lra.
Qed.
Lemma ratio_floor n d : (0 < d)%Z -> Zfloor (ratio n d) = (n / d)%Z.
Proof. intros Hd. apply Zfloor_imp. rewrite plus_IZR. rewrite (ratio_div n d Hd). pose proof (ratio_mod n d Hd). lra. Qed.
Lemma ratio_ceil n d : (0 < d)%Z -> Zceil (ratio n d) = (if (n mod d =? 0)%Z then n / d else n / d + 1)%Z.
Proof.
intros Hd. apply Zceil_imp. pose proof (ratio_mod n d Hd) as H. rewrite (ratio_div n d Hd).
destruct (Z.eqb_spec (n mod d) 0) as [E|E].
- rewrite E. unfold ratio. replace (IZR 0 / IZR d) with 0 by (unfold Rdiv; ring). rewrite minus_IZR. lra.
- assert (0 < ratio (n mod d) d). { apply ratio_gt0; [|easy]. assert (0 <= n mod d < d)%Z by (apply Z.mod_pos_bound; easy). lia. }
  rewrite minus_IZR, plus_IZR. lra.
Qed.
Lemma rquo_floor n d : (0 <= n)%Z -> (0 < d)%Z -> forall m s, (n / d <= rquo m s n d <= n / d + 1)%Z.
Proof. intros Hn Hd m s. unfold rquo. destruct (match m with mode_NE => _ | _ => _ end); lia. Qed.
Lemma rquo_exact n d : (0 < d)%Z -> (n mod d = 0)%Z -> forall m s, rquo m s n d = (n / d)%Z.
Proof.
intros Hd E m s. unfold rquo. rewrite E. destruct m, s; cbn -[Z.mul Z.ltb Z.leb]; try easy.
all: try (destruct (Z.ltb_spec d (2 * 0)); [lia|]; destruct (Z.eqb_spec (2 * 0) d); [lia|]; easy).
all: destruct (Z.leb_spec d (2 * 0)); [lia|]; easy.
Qed.

Lemma half_ratio n d : (0 < d)%Z -> Rcompare (ratio n d - IZR (n / d)) (/ 2) = (2 * (n mod d) ?= d)%Z.
Proof.
intros Hd. rewrite (ratio_div n d Hd). replace (IZR (n / d) + ratio (n mod d) d - IZR (n / d)) with (ratio (n mod d) d) by ring.
assert (P := IZR_lt _ _ Hd). rewrite <- (Rcompare_mult_r (2 * IZR d)) by lra. unfold ratio.
replace (IZR (n mod d) / IZR d * (2 * IZR d)) with (IZR (2 * (n mod d))) by (rewrite mult_IZR; field; lra).
replace (/ 2 * (2 * IZR d)) with (IZR d) by field. apply Rcompare_IZR.
Qed.
Lemma nearest_ratio c n d : (0 < d)%Z -> Znearest c (ratio n d) =
  match (2 * (n mod d) ?= d)%Z with Lt => n / d | Gt => n / d + 1 | Eq => if c (n / d) then n / d + 1 else n / d end%Z.
Proof.
intros Hd. unfold Znearest. rewrite (ratio_floor n d Hd), half_ratio by easy.
destruct (Z.compare_spec (2 * (n mod d)) d) as [E|E|E]; try easy.
- rewrite ratio_ceil by easy. destruct (Z.eqb_spec (n mod d) 0); [lia|]. easy.
- rewrite ratio_ceil by easy. destruct (Z.eqb_spec (n mod d) 0); [lia|]. easy.
Qed.
Lemma rquo_spec m s n d : (0 <= n)%Z -> (0 < d)%Z ->
  round_mode m (sgn s (ratio n d)) = (if s then - rquo m s n d else rquo m s n d)%Z.
Proof.
intros Hn Hd. unfold rquo. assert (Hm : (0 <= n mod d < d)%Z) by (apply Z.mod_pos_bound; easy).
assert (Hq : (0 <= n / d)%Z) by (apply Z.div_pos; lia).
assert (A : forall c, (forall q, (0 <= q)%Z -> c q = match m with mode_NE => Z.odd q | _ => true end) -> (m = mode_NE \/ m = mode_NA) ->
  Znearest c (ratio n d) = (if match m with mode_NE => (d <? 2 * (n mod d)) || ((2 * (n mod d) =? d) && Z.odd (n / d)) | _ => d <=? 2 * (n mod d) end then n / d + 1 else n / d)%Z).
{ intros c Hc Hm'. rewrite nearest_ratio by easy. rewrite Hc by easy. destruct Hm' as [-> | ->].
  - destruct (Z.compare_spec (2 * (n mod d)) d) as [E|E|E].
    + destruct (Z.ltb_spec d (2 * (n mod d))); [lia|]. destruct (Z.eqb_spec (2 * (n mod d)) d); [|lia]. easy.
    + destruct (Z.ltb_spec d (2 * (n mod d))); [lia|]. destruct (Z.eqb_spec (2 * (n mod d)) d); [lia|]. easy.
    + destruct (Z.ltb_spec d (2 * (n mod d))); [|lia]. easy.
  - destruct (Z.compare_spec (2 * (n mod d)) d) as [E|E|E]; destruct (Z.leb_spec d (2 * (n mod d))); try lia. }
destruct m; cbn [round_mode].
- (* NE *) destruct s; cbn [sgn].
  + rewrite Znearest_opp. rewrite A; [easy| |now left]. intros q Hq'. rewrite negb_involutive. rewrite Z.even_opp, Z.even_add, <- Z.negb_odd. cbn. now destruct (Z.odd q).
  + rewrite A; [easy| |now left]. intros q Hq'. now rewrite Z.negb_even.
- (* ZR *) destruct s; cbn [sgn]; [rewrite Ztrunc_opp|]; (rewrite Ztrunc_floor by now apply ratio_pos); now rewrite ratio_floor.
- (* DN *) destruct s; cbn [sgn andb].
  + rewrite <- (Z.opp_involutive (Zfloor (- ratio n d))). change (- Zfloor (- ratio n d))%Z with (Zceil (ratio n d)).
    rewrite ratio_ceil by easy. now destruct (n mod d =? 0)%Z.
  + now apply ratio_floor.
- (* UP *) destruct s; cbn [sgn negb andb].
  + unfold Zceil. rewrite Ropp_involutive. now rewrite ratio_floor.
  + rewrite ratio_ceil by easy. now destruct (n mod d =? 0)%Z.
- (* NA *) destruct s; cbn [sgn].
  + rewrite Znearest_opp. rewrite A; [easy| |now right]. intros q Hq'. destruct (Z.leb_spec 0 (- (q + 1))); [lia|easy].
  + rewrite A; [easy| |now right]. intros q Hq'. apply Z.leb_le. easy.
Qed.

(** ** Scientific form is rounding to p+1 digits *)
Lemma sci_zero b m s p d : sci b m s p 0 d = (0, 0)%Z.
Proof. reflexivity. Qed.
Lemma sci_raw (b : radix) m s p n d : (0 < n)%Z -> (0 < d)%Z ->
  let k := ilog b n d in let '(n', d') := shift b (Z.of_nat p - k) n d in
  let N := rquo m s n' d' in
  (0 < d')%Z /\ (b ^ Z.of_nat p <= N <= b ^ (Z.of_nat p + 1))%Z /\
  sgn s (IZR N * bpow b (k - Z.of_nat p)) = round b (FLX_exp (Z.of_nat p + 1)) (round_mode m) (sgn s (ratio n d)).
Proof.
intros Hn Hd k. destruct (ilog_mag b n d Hn Hd) as [[A B] C]. fold k in A, B, C.
pose proof (shift_spec b (Z.of_nat p - k) n d) as H. destruct (shift b (Z.of_nat p - k) n d) as [n' d'].
destruct H as (P & Q & E & _); [lia|easy|]. intros N. split; [easy|].
assert (Hf : (b ^ Z.of_nat p <= n' / d' < b ^ (Z.of_nat p + 1))%Z).
{ rewrite <- ratio_floor by easy. split.
  - apply Zfloor_lub. rewrite IZR_pow, E by lia. replace (Z.of_nat p) with (k + (Z.of_nat p - k))%Z at 1 by lia. rewrite bpow_plus.
    apply Rmult_le_compat_r; [apply bpow_ge_0|easy].
  - apply lt_IZR. apply Rle_lt_trans with (1 := Zfloor_lb _). rewrite IZR_pow, E by lia. replace (Z.of_nat p + 1)%Z with (k + 1 + (Z.of_nat p - k))%Z by lia. rewrite (bpow_plus _ (k + 1)).
    apply Rmult_lt_compat_r; [apply bpow_gt_0|easy]. }
pose proof (rquo_floor n' d' P Q m s) as Hr. fold N in Hr. split; [lia|].
unfold round, scaled_mantissa, cexp, F2R; cbn [Fnum Fexp].
assert (M : mag_val b _ (mag b (sgn s (ratio n d))) = (k + 1)%Z). { destruct s; cbn [sgn]; [rewrite mag_opp|]; exact C. }
rewrite M. unfold FLX_exp. replace (k + 1 - (Z.of_nat p + 1))%Z with (k - Z.of_nat p)%Z by ring.
assert (S : sgn s (ratio n d) * bpow b (- (k - Z.of_nat p)) = sgn s (ratio n' d')).
{ rewrite E. replace (- (k - Z.of_nat p))%Z with (Z.of_nat p - k)%Z by ring. destruct s; cbn [sgn]; ring. }
rewrite S, (rquo_spec m s n' d' P Q). fold N. destruct s; cbn [sgn]; [rewrite opp_IZR|]; ring.
Qed.
Lemma sci_spec (b : radix) m s p n d : (0 < n)%Z -> (0 < d)%Z ->
  let '(N, k) := sci b m s p n d in
  (b ^ Z.of_nat p <= N < b ^ (Z.of_nat p + 1))%Z /\
  sgn s (IZR N * bpow b (k - Z.of_nat p)) = round b (FLX_exp (Z.of_nat p + 1)) (round_mode m) (sgn s (ratio n d)) /\
  (ilog b n d <= k <= ilog b n d + 1)%Z.
Proof.
intros Hn Hd. unfold sci. destruct (Z.eqb_spec n 0) as [|_]; [lia|].
pose proof (sci_raw b m s p n d Hn Hd) as H. cbv zeta in H. destruct (shift b (Z.of_nat p - ilog b n d) n d) as [n' d'].
destruct H as (_ & H1 & H2). destruct (Z.eqb_spec (rquo m s n' d') (b ^ (Z.of_nat p + 1))) as [E|E].
- pose proof (radix_gt_1 b). split; [|split; [|lia]].
  + split; [lia|]. apply Z.pow_lt_mono_r; lia.
  + rewrite <- H2. f_equal. rewrite E, !IZR_pow by lia. rewrite <- !bpow_plus. f_equal. ring.
- split; [lia|]. split; [easy|lia].
Qed.
(** Fixed form is rounding to p digits after the point. *)
Lemma fix_spec (b : radix) m s p n d : (0 <= n)%Z -> (0 < d)%Z ->
  sgn s (IZR (rquo m s (n * b ^ Z.of_nat p) d) * bpow b (- Z.of_nat p)) =
  round b (FIX_exp (- Z.of_nat p)) (round_mode m) (sgn s (ratio n d)).
Proof.
intros Hn Hd. unfold round, scaled_mantissa, cexp, F2R, FIX_exp; cbn [Fnum Fexp].
assert (P : (0 <= n * b ^ Z.of_nat p)%Z). { pose proof (radix_gt_0 b). assert (0 < b ^ Z.of_nat p)%Z by (apply Z.pow_pos_nonneg; lia). nia. }
assert (S : sgn s (ratio n d) * bpow b (- - Z.of_nat p) = sgn s (ratio (n * b ^ Z.of_nat p) d)).
{ unfold ratio. rewrite mult_IZR, IZR_pow by lia. rewrite Z.opp_involutive. destruct s; cbn [sgn]; unfold Rdiv; ring. }
rewrite S, (rquo_spec m s _ d P Hd). destruct s; cbn [sgn]; [rewrite opp_IZR|]; ring.
Qed.
