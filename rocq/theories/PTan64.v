(** * Tangent in binary64: the poles of every interval whose width is not the number below pi are seen *)
From Coq Require Import ZArith NArith QArith Qreals Reals Bool Lia Lra Psatz.
From Flocq Require Import Core.Core IEEE754.BinarySingleNaN.
From Verif Require Import Fmt Spec FloatFacts Exc Deco SpecApi SpecDeco SpecElem SpecMixed SpecIso SpecTan MBase PBase PArith PElem PConv MTrig PTrig PNum PTan PTrigT PTanF MDec PDecT MMixed PMixed Ex PTanOff.
Local Open Scope R_scope.

Notation fmt64 := (generic_format radix2 (fexp binary64)).
Notation big64 := (bpow radix2 (emax binary64)).
Notation pi64 := (7074237752028440 / 2251799813685248).

(** Numbers of at least 1/2 (1/4) are multiples of 2^-53 (2^-54). *)
Lemma multiple (k : Z) (x : float binary64) : (0 <= k <= 1000)%Z -> is_finite x = true -> bpow radix2 (- k) <= Rabs (B2R x) ->
  exists n : Z, B2R x = IZR n * bpow radix2 (- (k + 52)).
Proof.
intros Hk Fx H. pose proof (generic_format_B2R (prec binary64) (emax binary64) x) as G.
change (SpecFloat.fexp (prec binary64) (emax binary64)) with (fexp binary64) in G.
set (r := B2R x) in *. clearbody r. unfold generic_format in G.
assert (M : (- k + 1 <= mag radix2 r)%Z). { apply mag_ge_bpow. replace (- k + 1 - 1)%Z with (- k)%Z by lia. exact H. }
set (e := cexp radix2 (fexp binary64) r) in *.
assert (E : (- (k + 52) <= e)%Z). { unfold e, cexp. change (fexp binary64 (mag radix2 r)) with (Z.max (mag radix2 r - 53) (-1074)). lia. }
set (m := Ztrunc (scaled_mantissa radix2 (fexp binary64) r)) in *. clearbody m.
exists (m * 2 ^ (e + (k + 52)))%Z. rewrite G. unfold F2R. cbn [Fnum Fexp].
rewrite mult_IZR. change 2%Z with (radix_val radix2). rewrite IZR_Zpower by lia. rewrite Rmult_assoc, <- bpow_plus. f_equal. f_equal. lia.
Qed.
Lemma fmt_grid (m e : Z) : (Z.abs m < 2 ^ 53)%Z -> (-1074 <= e)%Z -> fmt64 (IZR m * bpow radix2 e).
Proof.
intros H1 H2. apply (generic_format_FLT radix2 (emin binary64) (prec binary64)). exists (Float radix2 m e); [reflexivity|exact H1|exact H2].
Qed.
Lemma small_big r : Rabs r < 2 -> Rabs r < big64.
Proof. intros H. apply Rlt_trans with (1 := H). change 2 with (bpow radix2 1). apply bpow_lt. easy. Qed.

(** Two neighbours of a grid. *)
Lemma grid (k : Z) a b : (0 <= k <= 1000)%Z -> 0 <= a -> a + 2 * bpow radix2 (- k) <= b -> a + 2 * bpow radix2 (- k) < bpow radix2 (53 - k) -> b < 1 ->
  @two_between binary64 a b.
Proof.
intros Hk Ha Hb Hm Hb1. set (u := bpow radix2 (- k)) in *. assert (Hu : 0 < u) by apply bpow_gt_0.
assert (EK : bpow radix2 (53 - k) = IZR (2 ^ 53) * u).
{ change (2 ^ 53)%Z with (Zpower radix2 53). rewrite IZR_Zpower by lia. unfold u. rewrite <- bpow_plus. f_equal. }
set (m := Zceil (a / u)). assert (M := Zceil_ub (a / u)). assert (M2 := Zceil_lb (a / u)). fold m in M, M2.
assert (A : a = a / u * u) by (field; lra).
assert (K1 : a <= IZR m * u) by (rewrite A; apply Rmult_le_compat_r; lra).
assert (K2 : IZR m * u < a + u). { rewrite A at 1. replace (a / u * u + u) with ((a / u + 1) * u) by ring. apply Rmult_lt_compat_r; lra. }
assert (K3 : IZR (m + 1) * u = IZR m * u + u) by (rewrite plus_IZR; ring).
assert (Pm : (0 <= m)%Z). { apply le_IZR. apply Rmult_le_reg_r with u; lra. }
assert (Lm : (m + 1 < 2 ^ 53)%Z). { apply lt_IZR. apply Rmult_lt_reg_r with u; [easy|]. rewrite K3, <- EK. lra. }
exists (IZR m * u), (IZR (m + 1) * u). split; [apply fmt_grid; lia|]. split; [apply fmt_grid; lia|].
rewrite K3. split; [lra|]. split; [easy|]. split; [lra|]. split; apply small_big; rewrite Rabs_pos_eq; lra.
Qed.

Lemma tan_bound y : 0 <= y -> y <= 26 / 100 -> 0 <= tan y <= 27 / 100.
Proof.
intros H1 H2. pose proof PI2_3_2 as HP. assert (C : 0 < cos y) by (apply cos_gt_0; lra).
assert (S : 0 <= sin y <= y). { split; [apply sin_ge_0; lra|]. destruct H1 as [H1|<-]; [left; now apply sin_lt_x|rewrite sin_0; lra]. }
pose proof (sin2_cos2 y) as SC. unfold Rsqr in SC.
assert (C2 : 965 / 1000 <= cos y). { destruct (Rle_or_lt (965 / 1000) (cos y)) as [?|K]; [easy|]. nra. }
unfold tan. split; [apply Rmult_le_pos; [lra|left; now apply Rinv_0_lt_compat]|].
apply Rmult_le_reg_r with (cos y); [easy|]. replace (sin y / cos y * cos y) with (sin y) by (field; lra). lra.
Qed.
Lemma tan_below1 y : 0 <= y -> y < 78 / 100 -> 0 <= tan y < 1.
Proof.
intros H1 H2. assert (HP : 314 / 100 < PI). { pose proof pi_bounds as [K _]. revert K. pib. lra. }
split.
- rewrite <- tan_0. apply tan_le; lra.
- rewrite <- tan_PI4. apply tan_increasing; lra.
Qed.

(** The tests of the tangents at distance [d]: closest to zero, and between 1/4 and 1/2. *)
Lemma close0 y x : 0 <= y -> y <= x -> x <= 26 / 100 -> / 9007199254740992 <= x - y -> @two_between binary64 (tan y) (tan x).
Proof.
intros H0 H1 H2 H3. pose proof PI2_3_2 as HP. pose proof (tan_mvt y x H0 H1 ltac:(lra)) as HT.
pose proof (tan_bound y H0 ltac:(lra)) as B. pose proof (tan_bound x ltac:(lra) H2) as B'.
set (a := tan y) in *. set (b := tan x) in *. clearbody a b.
assert (x - y <= (x - y) * (1 + a * a)) by nra.
apply (grid 54); [lia|lra| | |lra]; simpl bpow; change (Z.pow_pos 2 54) with 18014398509481984%Z; lra.
Qed.
Lemma close1 y x : 0 <= y -> y <= x -> x <= 51 / 100 -> 177967 / 1000000000000000000000 <= x - y -> @two_between binary64 (tan y) (tan x).
Proof.
intros H0 H1 H2 H3. pose proof PI2_3_2 as HP. pose proof (tan_mvt y x H0 H1 ltac:(lra)) as HT.
pose proof (tan_below1 y H0 ltac:(lra)) as B. pose proof (tan_below1 x ltac:(lra) ltac:(lra)) as B'.
set (a := tan y) in *. set (b := tan x) in *. clearbody a b.
assert (L : x - y <= (x - y) * (1 + a * a)) by nra.
destruct (Rlt_or_le (a + / 9007199254740992) (/ 2)) as [A|A].
{ apply (grid 54); [lia|lra| | |lra]; simpl bpow; change (Z.pow_pos 2 54) with 18014398509481984%Z; lra. }
destruct (Rle_or_lt (/ 2) a) as [A2|A2].
{ assert (L2 : (x - y) * (125 / 100) <= (x - y) * (1 + a * a)) by (apply Rmult_le_compat_l; nra).
  apply (grid 53); [lia|lra| | |lra]; simpl bpow; change (Z.pow_pos 2 53) with 9007199254740992%Z; lra. }
destruct (Rle_or_lt a (/ 2 - / 18014398509481984)) as [A3|A3].
- exists (IZR 9007199254740991 * bpow radix2 (-54)), (IZR 1 * bpow radix2 (-1)).
  split; [apply fmt_grid; lia|]. split; [apply fmt_grid; lia|].
  simpl bpow. change (Z.pow_pos 2 54) with 18014398509481984%Z. change (Z.pow_pos 2 1) with 2%Z.
  split; [lra|]. split; [lra|]. split; [lra|]. split; apply small_big; rewrite Rabs_pos_eq; lra.
- exists (IZR 1 * bpow radix2 (-1)), (IZR 4503599627370497 * bpow radix2 (-53)).
  split; [apply fmt_grid; lia|]. split; [apply fmt_grid; lia|].
  simpl bpow. change (Z.pow_pos 2 53) with 9007199254740992%Z. change (Z.pow_pos 2 1) with 2%Z.
  split; [lra|]. split; [lra|]. split; [lra|]. split; apply small_big; rewrite Rabs_pos_eq; lra.
Qed.
Lemma across y x : y < 0 -> 0 < x -> - (51 / 100) <= y -> x <= 51 / 100 -> / 9007199254740992 <= x - y -> @two_between binary64 (tan y) (tan x).
Proof.
pose proof PI2_3_2 as HP.
assert (K : forall y x, y < 0 -> 0 < x -> - (51 / 100) <= y -> x <= 51 / 100 -> / 18014398509481984 <= x -> @two_between binary64 (tan y) (tan x)).
{ intros y' x' H1 H2 H3 H4 H5. pose proof (tan_mvt 0 x' ltac:(lra) ltac:(lra) ltac:(lra)) as T. rewrite tan_0 in T.
  exists 0, (IZR 1 * bpow radix2 (-54)). split; [apply generic_format_0|]. split; [apply fmt_grid; lia|].
  simpl bpow. change (Z.pow_pos 2 54) with 18014398509481984%Z. split; [lra|]. split; [left; apply tan_lt_0; lra|]. split; [lra|].
  split; apply small_big; rewrite Rabs_pos_eq; lra. }
intros H1 H2 H3 H4 H5. destruct (Rle_or_lt (/ 18014398509481984) x) as [L|L]; [now apply K|].
replace (tan y) with (- tan (- y)) by (rewrite tan_neg; lra). replace (tan x) with (- tan (- x)) by (rewrite tan_neg; lra).
apply two_between_opp. apply K; lra.
Qed.
Lemma close0_all y x : y <= x -> - (26 / 100) <= y -> x <= 26 / 100 -> / 9007199254740992 <= x - y -> @two_between binary64 (tan y) (tan x).
Proof.
intros H0 H1 H2 H3. destruct (Rle_or_lt 0 y) as [Y|Y]; [now apply close0|].
destruct (Rle_or_lt x 0) as [X|X]; [|apply across; lra].
replace (tan y) with (- tan (- y)) by (rewrite tan_neg; lra). replace (tan x) with (- tan (- x)) by (rewrite tan_neg; lra).
apply two_between_opp. apply close0; lra.
Qed.
Lemma close1_all y x : y <= x -> - (51 / 100) <= y -> x <= 51 / 100 -> 177967 / 1000000000000000000000 <= x - y -> @two_between binary64 (tan y) (tan x).
Proof.
intros H0 H1 H2 H3. destruct (Rle_or_lt 0 y) as [Y|Y]; [now apply close1|].
destruct (Rle_or_lt x 0) as [X|X]; [|apply across; lra].
replace (tan y) with (- tan (- y)) by (rewrite tan_neg; lra). replace (tan x) with (- tan (- x)) by (rewrite tan_neg; lra).
apply two_between_opp. apply close1; lra.
Qed.

(** Both bounds on the grid: the width differs from pi64 by a step at least. *)
Lemma step (k : Z) (l u : float binary64) : (0 <= k <= 3)%Z -> is_finite l = true -> is_finite u = true ->
  bpow radix2 (- k) <= Rabs (B2R l) -> bpow radix2 (- k) <= Rabs (B2R u) -> B2R u - B2R l < pi64 ->
  bpow radix2 (- (k + 52)) <= pi64 - (B2R u - B2R l).
Proof.
intros Hk Fl Fu Hl Hu H. destruct (multiple k l ltac:(lia) Fl Hl) as [n En]. destruct (multiple k u ltac:(lia) Fu Hu) as [m Em].
rewrite En, Em in *. clear Hl Hu. set (g := bpow radix2 (- (k + 52))) in *. assert (Hg : 0 < g) by apply bpow_gt_0.
assert (EP : pi64 = IZR (7074237752028440 * 2 ^ (k + 1)) * g).
{ rewrite mult_IZR. change 2%Z with (radix_val radix2) at 1. rewrite IZR_Zpower by lia. unfold g. rewrite Rmult_assoc, <- bpow_plus.
  replace (k + 1 + - (k + 52))%Z with (-51)%Z by lia. simpl bpow. change (Z.pow_pos 2 51) with 2251799813685248%Z. lra. }
rewrite EP in *. set (p := (7074237752028440 * 2 ^ (k + 1))%Z) in *.
assert (L : (m - n < p)%Z). { apply lt_IZR. rewrite minus_IZR. apply Rmult_lt_reg_r with g; [easy|]. lra. }
replace (IZR p * g - (IZR m * g - IZR n * g)) with (IZR (p - (m - n)) * g) by (rewrite !minus_IZR; ring).
rewrite <- (Rmult_1_l g) at 1. apply Rmult_le_compat_r; [lra|]. apply IZR_le. lia.
Qed.

Lemma seen64 (x : itv binary64) : wf x -> width_not_pi64 x -> pole_seen x.
Proof.
intros W Ne BB (pole & Hp & Cp) Hle. specialize (Ne BB). cbv beta in Ne. assert (N : B2R (snd x) - B2R (fst x) <> pi64) by lra. clear Ne. rename N into Ne. destruct BB as [B1 B2]. destruct (@pi_fin binary64) as [P1 P2].
assert (HPI := pi_bounds). destruct HPI as [Hlo Hhi]. revert Hlo Hhi. pib. intros Hlo Hhi.
assert (Hm : forall r, mem r x <-> B2R (fst x) <= r <= B2R (snd x)).
{ intros r. unfold mem. now rewrite lb_fin, ub_fin. }
assert (Hab : B2R (fst x) <= B2R (snd x)) by (apply Hm in Hp; lra).
assert (Hw : B2R (snd x) - B2R (fst x) < pi64).
{ assert (L : B2R (@mpfr_const_pi binary64 mode_DN) <= pi64).
  { apply Rle_trans with (B2R (fl binary64 7074237752028440 (-51))).
    - apply below_pi with (fl binary64 7074237752028441 (-51)); try easy; try (vm_compute; reflexivity). litval. lra.
    - litval. lra. }
  lra. }
destruct (tan_cases (B2R (fst x)) (B2R (snd x))) as [Hmono|(_ & s & t & S1 & S2 & S3 & S4 & S5 & S6)];
  [apply cos_nz, rational_B2R|apply cos_nz, rational_B2R|lra|lra| |].
{ exfalso. apply (proj1 (Hmono pole (proj1 (Hm pole) Hp))). easy. }
rewrite <- S5, <- S6.
assert (Gap : / 9007199254740992 <= pi64 - (B2R (snd x) - B2R (fst x)) -> @two_between binary64 (tan s) (tan t)).
{ intros K. apply gap with (PI - (B2R (snd x) - B2R (fst x))); try easy; try lra.
  set (w := B2R (snd x) - B2R (fst x)) in *. clearbody w.
  change (prec binary64) with 53%Z. simpl bpow. change (Z.pow_pos 2 52) with 4503599627370496%Z.
  set (d := / 4503599627370496). assert (E : d = 1 / 4503599627370496) by (unfold d; lra). clearbody d.
  assert (d * d <= / 1000000000000 * d) by nra. lra. }
assert (St : forall k, (0 <= k <= 3)%Z -> bpow radix2 (- k) <= Rabs (B2R (fst x)) -> bpow radix2 (- k) <= Rabs (B2R (snd x)) ->
  bpow radix2 (- (k + 52)) <= pi64 - (B2R (snd x) - B2R (fst x))).
{ intros k Hk H1 H2. now apply step. }
destruct (Rle_or_lt (/ 9007199254740992) (pi64 - (B2R (snd x) - B2R (fst x)))) as [K|K]; [now apply Gap|].
assert (Sm : forall c, c <= / 2 -> Rabs (B2R (fst x)) < c \/ Rabs (B2R (snd x)) < c ->
  - (c + / 1000000000) <= s /\ t <= c + / 1000000000).
{ intros c Hc [H|H]; apply Rabs_lt_inv in H; pose proof PI2_3_2.
  - assert (t = B2R (fst x)) by (apply tan_is_inj; [lra|lra|easy]). lra.
  - assert (s = B2R (snd x)) by (apply tan_is_inj; [lra|lra|easy]). lra. }
assert (C : forall k, (0 <= k <= 3)%Z -> bpow radix2 (- (k + 52)) <= pi64 - (B2R (snd x) - B2R (fst x)) \/
  (Rabs (B2R (fst x)) < bpow radix2 (- k) \/ Rabs (B2R (snd x)) < bpow radix2 (- k))).
{ intros k Hk. destruct (Rle_or_lt (bpow radix2 (- k)) (Rabs (B2R (fst x)))); [|tauto].
  destruct (Rle_or_lt (bpow radix2 (- k)) (Rabs (B2R (snd x)))); [|tauto]. left. now apply St. }
destruct (C 1%Z ltac:(lia)) as [C1|C1].
{ exfalso. revert C1. simpl bpow. change (Z.pow_pos 2 53) with 9007199254740992%Z. lra. }
destruct (C 2%Z ltac:(lia)) as [C2|C2].
- apply Sm in C1. 2:{ simpl bpow. change (Z.pow_pos 2 1) with 2%Z. lra. }
  revert C1 C2. simpl bpow. change (Z.pow_pos 2 54) with 18014398509481984%Z. change (Z.pow_pos 2 1) with 2%Z. intros C1 C2.
  apply close1_all; lra.
- apply Sm in C2. 2:{ simpl bpow. change (Z.pow_pos 2 2) with 4%Z. lra. }
  revert C2. simpl bpow. change (Z.pow_pos 2 2) with 4%Z. intros C2.
  apply close0_all; lra.
Qed.

(** The largest number of the format below pi. *)
Lemma pi64_below : exists p : float binary64, is_finite p = true /\ B2R p = 884279719003555 / 281474976710656 /\ B2R p < PI /\
  forall q : float binary64, is_finite q = true -> B2R q <= PI -> B2R q <= B2R p.
Proof.
assert (HPI := pi_bounds). destruct HPI as [Hlo Hhi]. revert Hlo Hhi. pib. intros Hlo Hhi.
exists (fl binary64 7074237752028440 (-51)). assert (E : B2R (fl binary64 7074237752028440 (-51)) = 884279719003555 / 281474976710656) by (litval; lra).
split; [easy|]. split; [easy|]. split; [rewrite E; lra|]. intros q Fq Hq.
apply below_pi with (fl binary64 7074237752028441 (-51)); try easy; try (vm_compute; reflexivity). litval. lra.
Qed.
(** Widening to binary64. *)
Lemma hull_seen64 T {F} (x : itv F) : comparable T F -> pmax T F = binary64 -> wf x -> width_not_pi64 x -> pole_seen (convert_hull (pmax T F) x).
Proof.
intros HC E W O. destruct (within_pmax T F HC) as [_ B]. rewrite E in *. clear E.
destruct (Classical_Prop.classic (exists r, mem r x)) as [N|N].
- apply seen64; [now apply wf_convert_hull|]. intros Bh.
  destruct (bounds_of_set x (convert_hull binary64 x) W (wf_convert_hull _ x W) (convert_hull_exact _ x B W) Bh N) as (Bx & E1 & E2).
  rewrite E1, E2. now apply O.
- intros _ (p & Hp & _). exfalso. apply N. exists p. now apply (convert_hull_exact _ x B W).
Qed.
Lemma tan64 (x : itv binary64) : wf x -> width_not_pi64 x -> computes_enclosure (tan_itv x) (image1 tan_dom tan x).
Proof. intros W O. now apply tan_seen, seen64. Qed.
Lemma tan_dec64 (x : ditv binary64) : wf_dec x -> is_deco (snd x) -> snd x <> ill -> width_not_pi64 (fst x) ->
  exists z, returns (tan_dec x) z /\ wf_dec z /\ is_deco (snd z) /\ snd z <> ill /\
    returns (tan_itv (fst x)) (fst z) /\ (snd z <= snd x)%N /\
    honest near1 (box1 (fst x)) tan_dom (bounded_rep (fst x)) tan (fst z) (snd z).
Proof. intros W D N O. apply tan_dec_ok; try easy. apply seen64; try easy. now apply wf_dec_wf. Qed.
Lemma tan_mixed64 (T F : fmt) (x : itv F) : comparable T F -> pmax T F = binary64 -> wf x -> width_not_pi64 x ->
  computes_enclosure (tan_mixed T x) (image1 tan_dom tan x).
Proof. intros HC E W O. apply tan_mixed_seen; try easy. now apply hull_seen64. Qed.
Lemma tan_dec_mixed64 (T F : fmt) (x : ditv F) : comparable T F -> pmax T F = binary64 -> wf_dec x -> is_deco (snd x) -> snd x <> ill -> width_not_pi64 (fst x) ->
  exists z, returns (tan_dec_mixed T x) z /\ wf_dec z /\ is_deco (snd z) /\ snd z <> ill /\
    returns (tan_mixed T (fst x)) (fst z) /\ (snd z <= snd x)%N /\
    honest near1 (box1 (fst x)) tan_dom (bounded_rep (fst x)) tan (fst z) (snd z).
Proof. intros HC E W D N O. apply tan_dec_mixed_seen; try easy. apply hull_seen64; try easy. now apply wf_dec_wf. Qed.
Lemma tan_iso64 (x x' : itv binary64) : wf x -> wf x' -> width_not_pi64 x' -> included x x' ->
  exists z z', returns (tan_itv x) z /\ returns (tan_itv x') z' /\ included z z'.
Proof. intros W W' O. apply tan_seen_iso; try easy. now apply seen64. Qed.
Lemma tan_dec_iso64 (x x' : ditv binary64) : proper x -> proper x' -> width_not_pi64 (fst x') -> included (fst x) (fst x') ->
  exists z z', returns (tan_dec x) z /\ returns (tan_dec x') z' /\ included (fst z) (fst z').
Proof. intros W W' O. apply tan_dec_seen_iso; try easy. apply seen64; try easy. apply wf_dec_wf, W'. Qed.
Lemma tan_mixed_iso64 (T F : fmt) (x x' : itv F) : comparable T F -> pmax T F = binary64 -> wf x -> wf x' -> width_not_pi64 x' -> included x x' ->
  exists z z', returns (tan_mixed T x) z /\ returns (tan_mixed T x') z' /\ included z z'.
Proof. intros HC E W W' O. apply tan_mixed_seen_iso; try easy. now apply hull_seen64. Qed.
Lemma tan_dec_mixed_iso64 (T F : fmt) (x x' : ditv F) : comparable T F -> pmax T F = binary64 -> proper x -> proper x' ->
  width_not_pi64 (fst x') -> included (fst x) (fst x') ->
  exists z z', returns (tan_dec_mixed T x) z /\ returns (tan_dec_mixed T x') z' /\ included (fst z) (fst z').
Proof. intros HC E W W' O. apply tan_dec_mixed_seen_iso; try easy. apply hull_seen64; try easy. apply wf_dec_wf, W'. Qed.
