(** * Proofs: the MPFR pipeline is one IEEE 754 rounding *)
From Coq Require Import ZArith Reals Bool List Lia Lra Psatz.
From Flocq Require Import Core.Core IEEE754.BinarySingleNaN.
From Verif Require Import Fmt FloatFacts MMpfr.
Local Open Scope R_scope.

(** ** Rounding to integers after a finer rounding *)
Section Grid.
Variable N : Z.          (* bound of the grid *)
Variables w s : R.       (* exact and rounded value, in units of the grid *)
Hypothesis Hw : Rabs w <= IZR N.
Hypothesis Hup : forall j : Z, (Z.abs j <= 2 * N)%Z -> w <= IZR j / 2 -> s <= IZR j / 2.
Hypothesis Hdn : forall j : Z, (Z.abs j <= 2 * N)%Z -> IZR j / 2 <= w -> IZR j / 2 <= s.

Lemma upZ n : (Z.abs n <= N)%Z -> w <= IZR n -> s <= IZR n.
Proof. intros Hn H. specialize (Hup (2 * n)). rewrite mult_IZR in Hup. replace (IZR n) with (2 * IZR n / 2) by lra. apply Hup; [lia|lra]. Qed.
Lemma dnZ n : (Z.abs n <= N)%Z -> IZR n <= w -> IZR n <= s.
Proof. intros Hn H. specialize (Hdn (2 * n)). rewrite mult_IZR in Hdn. replace (IZR n) with (2 * IZR n / 2) by lra. apply Hdn; [lia|lra]. Qed.
Lemma upH n : (Z.abs (2 * n + 1) <= 2 * N)%Z -> w <= IZR n + / 2 -> s <= IZR n + / 2.
Proof.
intros Hn H. specialize (Hup (2 * n + 1)). rewrite plus_IZR, mult_IZR in Hup.
replace (IZR n + / 2) with ((2 * IZR n + 1) / 2) by lra. apply Hup; [lia|lra].
Qed.
Lemma dnH n : (Z.abs (2 * n + 1) <= 2 * N)%Z -> IZR n + / 2 <= w -> IZR n + / 2 <= s.
Proof.
intros Hn H. specialize (Hdn (2 * n + 1)). rewrite plus_IZR, mult_IZR in Hdn.
replace (IZR n + / 2) with ((2 * IZR n + 1) / 2) by lra. apply Hdn; [lia|lra].
Qed.
Lemma w_bounds : - IZR N <= w <= IZR N.
Proof. now apply Rabs_le_inv. Qed.
Lemma floor_b n : IZR n <= w < IZR n + 1 -> (- N <= n)%Z /\ (n <= N)%Z /\ (w < IZR N -> (n + 1 <= N)%Z).
Proof.
intros [H1 H2]. pose proof w_bounds as [B1 B2]. split; [|split].
- assert (IZR (- N) < IZR (n + 1)) by (rewrite opp_IZR, plus_IZR; lra). apply lt_IZR in H. lia.
- apply le_IZR. lra.
- intros H. assert (IZR n < IZR N) by lra. apply lt_IZR in H0. lia.
Qed.
Lemma w_int : w = IZR N \/ w < IZR N.
Proof. pose proof w_bounds. lra. Qed.
Lemma s_of_top : w = IZR N -> s = IZR N.
Proof.
intros E. pose proof w_bounds. assert (0 <= IZR N) by lra. apply le_IZR in H0.
apply Rle_antisym; [apply upZ|apply dnZ]; lia || lra.
Qed.

Lemma grid_DN : s <= w -> Zfloor s = Zfloor w.
Proof.
intros H. pose proof (Zfloor_lb w) as L. pose proof (Zfloor_ub w) as U.
destruct (floor_b _ (conj L U)) as (A & B & _). apply Zfloor_imp. rewrite plus_IZR.
split; [apply dnZ; [lia|easy]|]. lra.
Qed.
Lemma grid_UP : w <= s -> Zceil s = Zceil w.
Proof.
intros H. pose proof (Zceil_ub w) as U. pose proof (Zceil_lb w) as L. pose proof w_bounds as [B1 B2].
assert (- N <= Zceil w)%Z by (apply le_IZR; rewrite opp_IZR; lra).
assert (Zceil w <= N)%Z by (now apply Zceil_glb).
apply Zceil_imp. rewrite minus_IZR. split; [lra|]. apply upZ; [lia|easy].
Qed.
Lemma grid_ZR : (0 <= w -> s <= w) -> (w <= 0 -> w <= s) -> Ztrunc s = Ztrunc w.
Proof.
intros H1 H2. pose proof w_bounds. assert (HN : (0 <= N)%Z) by (apply le_IZR; lra).
destruct (Rle_or_lt 0 w) as [Hs|Hs].
- rewrite !Ztrunc_floor; [apply grid_DN; auto|easy|]. apply (dnZ 0); [lia|easy].
- rewrite !Ztrunc_ceil; [apply grid_UP; apply H2; lra|lra|]. apply (upZ 0); [lia|lra].
Qed.

Lemma nearest_lo r n : IZR n <= r < IZR n + / 2 -> ZnearestE r = n.
Proof.
intros [H1 H2]. assert (F : Zfloor r = n) by (apply Zfloor_imp; rewrite plus_IZR; lra).
unfold Znearest. rewrite F. rewrite Rcompare_Lt by lra. easy.
Qed.
Lemma nearest_hi r n : IZR n + / 2 < r <= IZR n + 1 -> ZnearestE r = (n + 1)%Z.
Proof.
intros [H1 [H2|H2]].
- assert (F : Zfloor r = n) by (apply Zfloor_imp; rewrite plus_IZR; lra).
  unfold Znearest. rewrite F. rewrite Rcompare_Gt by lra. apply Zceil_imp. rewrite minus_IZR, plus_IZR. lra.
- subst r. rewrite <- plus_IZR. apply (Zrnd_IZR ZnearestE).
Qed.
Lemma grid_NE : mid_up (Rcompare s w) s = ZnearestE w.
Proof.
destruct w_int as [E|E].
{ rewrite E, (s_of_top E), (Zrnd_IZR ZnearestE). unfold mid_up. case Req_bool_spec; intros H; [|apply (Zrnd_IZR ZnearestE)].
  rewrite Zfloor_IZR in H. lra. }
pose proof (Zfloor_lb w) as L. pose proof (Zfloor_ub w) as U. set (n := Zfloor w) in *.
destruct (floor_b n (conj L U)) as (A & _ & B). specialize (B E).
assert (S1 : IZR n <= s) by (apply dnZ; [lia|easy]).
assert (S2 : s <= IZR n + 1) by (rewrite <- plus_IZR; apply upZ; [lia|rewrite plus_IZR; lra]).
destruct (Rtotal_order w (IZR n + / 2)) as [H|[H|H]].
- rewrite (nearest_lo w n) by lra. assert (S3 : s <= IZR n + / 2) by (apply upH; [lia|lra]).
  destruct S3 as [S3|S3].
  + unfold mid_up. assert (F : Zfloor s = n) by (apply Zfloor_imp; rewrite plus_IZR; lra). rewrite F.
    case Req_bool_spec; intros K; [lra|]. apply nearest_lo. lra.
  + unfold mid_up. assert (F : Zfloor s = n) by (apply Zfloor_imp; rewrite plus_IZR; lra). rewrite F.
    case Req_bool_spec; intros K; [|lra]. now rewrite Rcompare_Gt by lra.
- assert (s = w). { apply Rle_antisym; [rewrite H; apply upH; [lia|lra]|rewrite H; apply dnH; [lia|lra]]. }
  rewrite H0. unfold mid_up. rewrite Rcompare_Eq by easy. now case Req_bool.
- rewrite (nearest_hi w n) by lra. assert (S3 : IZR n + / 2 <= s) by (apply dnH; [lia|lra]).
  destruct S3 as [S3|S3].
  + unfold mid_up. case Req_bool_spec; intros K; [|apply nearest_hi; lra].
    exfalso. destruct S2 as [S2|S2].
    * assert (F : Zfloor s = n) by (apply Zfloor_imp; rewrite plus_IZR; lra). rewrite F in K. lra.
    * rewrite S2, <- plus_IZR, Zfloor_IZR in K. lra.
  + unfold mid_up. assert (F : Zfloor s = n) by (apply Zfloor_imp; rewrite plus_IZR; lra). rewrite F.
    case Req_bool_spec; intros K; [|lra]. rewrite Rcompare_Lt by lra. apply Zceil_imp. rewrite minus_IZR, plus_IZR. lra.
Qed.
End Grid.

(** ** One call followed by subnormalize, below the normal range *)
Definition kfun (m : mode) (t : comparison) (s : R) : Z := match m with mode_NE => mid_up t s | _ => round_mode m s end.
Lemma mode_cases m t s w : m <> mode_NA -> (m = mode_NE -> mid_up t s = ZnearestE w) -> (m = mode_ZR -> Ztrunc s = Ztrunc w) ->
  (m = mode_DN -> Zfloor s = Zfloor w) -> (m = mode_UP -> Zceil s = Zceil w) -> kfun m t s = round_mode m w.
Proof. destruct m; simpl; auto. easy. Qed.
Lemma kfun_int m t n : kfun m t (IZR n) = n.
Proof.
unfold kfun. destruct m; simpl; try first [apply Ztrunc_IZR|apply Zfloor_IZR|apply Zceil_IZR].
- unfold mid_up. case Req_bool_spec; intros H; [|apply (Zrnd_IZR ZnearestE)]. rewrite Zfloor_IZR in H. lra.
- apply (Zrnd_IZR ZnearestA).
Qed.
Lemma sub_num E p m r t : r <> 0 -> Rabs r < bpow radix2 (g_emin E + p - 2) ->
  mp_subnormalize E p m (VNum r) t = VNum (IZR (kfun m t (r * bpow radix2 (- (g_emin E - 1)))) * bpow radix2 (g_emin E - 1)).
Proof.
intros H1 H2. unfold mp_subnormalize. rewrite (Req_bool_false r 0 H1), (Rle_bool_false _ _ H2). cbn [orb]. now destruct m.
Qed.
Lemma sub_skip E p m r t : r = 0 \/ bpow radix2 (g_emin E + p - 2) <= Rabs r -> mp_subnormalize E p m (VNum r) t = VNum r.
Proof.
unfold mp_subnormalize. intros [->|H]; [now rewrite Req_bool_true|]. rewrite (Rle_bool_true _ _ H). now rewrite orb_true_r.
Qed.
Section Sub.
Variables (E : genv) (p : Z) (m : mode) (v : R).
Hypothesis Hp : (1 < p)%Z.
Hypothesis Hm : m <> mode_NA.
Let e := (g_emin E - 1)%Z.
Hypothesis He : (e + p - 1 < g_emax E)%Z.
Hypothesis Hv : Rabs v <= bpow radix2 (e + p - 1).
Let y := round radix2 (FLX_exp p) (round_mode m) v.
Let t := Rcompare y v.
Let u := bpow radix2 e.
Let w := v * bpow radix2 (- e).
Let s := y * bpow radix2 (- e).
#[local] Instance p_pos : Prec_gt_0 p. Proof. unfold Prec_gt_0. lia. Qed.

Lemma u_pos : 0 < u. Proof. apply bpow_gt_0. Qed.
Lemma ui_pos : 0 < bpow radix2 (- e). Proof. apply bpow_gt_0. Qed.
Lemma u_ui : u * bpow radix2 (- e) = 1.
Proof. unfold u. rewrite <- bpow_plus. now replace (e + - e)%Z with 0%Z by lia. Qed.
Lemma sy : y = s * u.
Proof. unfold s. rewrite Rmult_assoc, (Rmult_comm _ u), u_ui. lra. Qed.
Lemma wv : v = w * u.
Proof. unfold w. rewrite Rmult_assoc, (Rmult_comm _ u), u_ui. lra. Qed.
Lemma half_format j : (Z.abs j <= 2 * 2 ^ (p - 1))%Z -> generic_format radix2 (FLX_exp p) (IZR j / 2 * u).
Proof.
intros Hj.
assert (Ej : IZR j / 2 * u = F2R (Float radix2 j (e - 1))).
{ unfold F2R; cbn [Fnum Fexp]. unfold Zminus. rewrite bpow_plus. fold u. change (bpow radix2 (- (1))) with (/ 2). unfold Rdiv. ring. }
rewrite Ej. apply generic_format_FLX_FLT with (emin := (e - 1)%Z). apply generic_format_FLT_FIX.
- apply p_pos.
- rewrite <- F2R_Zabs. unfold F2R; cbn [Fnum Fexp]. rewrite (Z.add_comm (e - 1)), bpow_plus. apply Rmult_le_compat_r; [apply bpow_ge_0|].
  rewrite <- (IZR_Zpower radix2) by lia. apply IZR_le. change (Z.pow 2) with (Zpower radix2) in Hj. 
  replace p with (1 + (p - 1))%Z by lia. rewrite Zpower_plus by lia. exact Hj.
- apply generic_format_FIX. now exists (Float radix2 j (e - 1)).
Qed.
Lemma bpow_N : IZR (2 ^ (p - 1)) = bpow radix2 (p - 1).
Proof. change (Z.pow 2) with (Zpower radix2). apply IZR_Zpower. lia. Qed.
Lemma w_N : Rabs w <= IZR (2 ^ (p - 1)).
Proof.
unfold w. rewrite Rabs_mult, (Rabs_pos_eq (bpow radix2 (- e))) by apply bpow_ge_0. rewrite bpow_N.
replace (p - 1)%Z with (e + p - 1 + - e)%Z by lia. rewrite (bpow_plus _ (e + p - 1)). apply Rmult_le_compat_r; [apply bpow_ge_0|easy].
Qed.
Lemma s_up j : (Z.abs j <= 2 * 2 ^ (p - 1))%Z -> w <= IZR j / 2 -> s <= IZR j / 2.
Proof.
intros Hj H. apply half_format in Hj. pose proof u_pos. pose proof sy. pose proof wv.
assert (y <= IZR j / 2 * u). { apply round_le_generic; auto with typeclass_instances. rewrite H2. apply Rmult_le_compat_r; lra. }
rewrite H1 in H3. apply Rmult_le_reg_r with u; easy.
Qed.
Lemma s_dn j : (Z.abs j <= 2 * 2 ^ (p - 1))%Z -> IZR j / 2 <= w -> IZR j / 2 <= s.
Proof.
intros Hj H. apply half_format in Hj. pose proof u_pos. pose proof sy. pose proof wv.
assert (IZR j / 2 * u <= y). { apply round_ge_generic; auto with typeclass_instances. rewrite H2. apply Rmult_le_compat_r; lra. }
rewrite H1 in H3. apply Rmult_le_reg_r with u; easy.
Qed.
Lemma s_N : Rabs s <= IZR (2 ^ (p - 1)).
Proof.
pose proof (Rabs_le_inv _ _ w_N) as [B1 B2]. apply Rabs_le. rewrite <- opp_IZR in *. split.
- apply (dnZ _ _ _ s_dn); [rewrite Z.abs_opp, Z.abs_eq; [lia|apply Z.pow_nonneg; lia]|easy].
- apply (upZ _ _ _ s_up); [rewrite Z.abs_eq; [lia|apply Z.pow_nonneg; lia]|easy].
Qed.
Lemma t_sw : t = Rcompare s w.
Proof. unfold t. rewrite sy, wv at 1. apply Rcompare_mult_r. apply u_pos. Qed.
Lemma s_le_w : y <= v -> s <= w.
Proof. intros H. unfold s, w. apply Rmult_le_compat_r; [apply bpow_ge_0|easy]. Qed.
Lemma w_le_s : v <= y -> w <= s.
Proof. intros H. unfold s, w. apply Rmult_le_compat_r; [apply bpow_ge_0|easy]. Qed.
Lemma w_sign : 0 <= w <-> 0 <= v.
Proof. rewrite wv at 1. pose proof u_pos. split; intros; [|nra]. nra. Qed.

Lemma K : kfun m t s = round_mode m w.
Proof.
apply mode_cases; [exact Hm|..]; intros Em.
- rewrite t_sw. exact (grid_NE _ _ _ w_N s_up s_dn).
- apply (grid_ZR _ _ _ w_N s_up s_dn).
  + intros H. apply s_le_w. unfold y. apply w_sign in H. rewrite Em. cbn [round_mode]. rewrite round_ZR_DN by easy.
    apply round_DN_pt. auto with typeclass_instances.
  + intros H. apply w_le_s. assert (v <= 0). { pose proof u_pos. pose proof wv. nra. }
    unfold y. rewrite Em. cbn [round_mode]. rewrite round_ZR_UP by easy. apply round_UP_pt. auto with typeclass_instances.
- apply (grid_DN _ _ _ w_N s_dn). apply s_le_w. unfold y. rewrite Em. apply round_DN_pt. auto with typeclass_instances.
- apply (grid_UP _ _ _ w_N s_up). apply w_le_s. unfold y. rewrite Em. apply round_UP_pt. auto with typeclass_instances.
Qed.

Lemma ui_half : bpow radix2 (g_emin E - 2) = / 2 * u.
Proof.
replace (g_emin E - 2)%Z with (-1 + e)%Z by (unfold e; lia). now rewrite bpow_plus.
Qed.
Lemma abs_y : Rabs y = Rabs s * u.
Proof. rewrite sy at 1. rewrite Rabs_mult, (Rabs_pos_eq u); [easy|]. apply bpow_ge_0. Qed.
Lemma s_pos : 0 < s -> 0 < w.
Proof.
intros H. destruct (Rle_or_lt w 0) as [Q|Q]; [|easy]. apply (upZ _ _ _ s_up 0) in Q; [lra|]. simpl. apply Z.pow_nonneg. lia.
Qed.
Lemma s_neg : s < 0 -> w < 0.
Proof.
intros H. destruct (Rle_or_lt 0 w) as [Q|Q]; [|easy]. apply (dnZ _ _ _ s_dn 0) in Q; [lra|]. simpl. apply Z.pow_nonneg. lia.
Qed.
Lemma N_ge2 : (2 <= 2 ^ (p - 1))%Z.
Proof. change 2%Z with (2 ^ 1)%Z at 1. apply Z.pow_le_mono_r; lia. Qed.
Lemma s_lt1 : s < 1 -> w < 1.
Proof. intros H. destruct (Rle_or_lt 1 w) as [Q|Q]; [|easy]. apply (dnZ _ _ _ s_dn 1) in Q; [lra|]. pose proof N_ge2. simpl. lia. Qed.
Lemma s_gtm1 : -1 < s -> -1 < w.
Proof. intros H. destruct (Rle_or_lt w (-1)) as [Q|Q]; [|easy]. apply (upZ _ _ _ s_up (-1)) in Q; [lra|]. pose proof N_ge2. simpl. lia. Qed.
Lemma s_lth : s < / 2 -> w < / 2.
Proof.
intros H. destruct (Rle_or_lt (/ 2) w) as [Q|Q]; [|easy]. pose proof N_ge2.
assert (IZR 0 + / 2 <= s) by (apply (dnH _ _ _ s_dn 0); [lia|lra]). lra.
Qed.
Lemma s_gth : / 2 < s -> / 2 < w.
Proof.
intros H. destruct (Rle_or_lt w (/ 2)) as [Q|Q]; [|easy]. pose proof N_ge2.
assert (s <= IZR 0 + / 2) by (apply (upH _ _ _ s_up 0); [lia|lra]). lra.
Qed.
Lemma s_gtmh : - / 2 < s -> - / 2 < w.
Proof.
intros H. destruct (Rle_or_lt w (- / 2)) as [Q|Q]; [|easy]. pose proof N_ge2.
assert (s <= IZR (-1) + / 2) by (apply (upH _ _ _ s_up (-1)); [lia|lra]). lra.
Qed.
Lemma s_ltmh : s < - / 2 -> w < - / 2.
Proof.
intros H. destruct (Rle_or_lt (- / 2) w) as [Q|Q]; [|easy]. pose proof N_ge2.
assert (IZR (-1) + / 2 <= s) by (apply (dnH _ _ _ s_dn (-1)); [lia|lra]). lra.
Qed.
Lemma y_s_sign : (y < 0 <-> s < 0) /\ (0 < y <-> 0 < s).
Proof. pose proof u_pos. pose proof sy. split; split; intros; nra. Qed.
Lemma ZnE_0 r : - / 2 <= r <= / 2 -> ZnearestE r = 0%Z.
Proof.
intros [[H1|H1] [H2|H2]]; try lra.
- destruct (Rle_or_lt 0 r) as [Q|Q]; [apply nearest_lo; lra|].
  replace 0%Z with (-1 + 1)%Z by lia. apply nearest_hi. lra.
- subst r. unfold Znearest. replace (Zfloor (/ 2)) with 0%Z by (symmetry; apply Zfloor_imp; simpl; lra).
  rewrite Rcompare_Eq by lra. easy.
- rewrite <- H1. unfold Znearest. replace (Zfloor (- / 2)) with (-1)%Z by (symmetry; apply Zfloor_imp; simpl; lra).
  rewrite Rcompare_Eq by lra. simpl. apply Zceil_imp. simpl. lra.
Qed.
Lemma ZnE_1 r : / 2 < r <= 1 -> ZnearestE r = 1%Z.
Proof. intros H. apply (nearest_hi r 0). lra. Qed.
Lemma ZnE_m1 r : -1 <= r < - / 2 -> ZnearestE r = (-1)%Z.
Proof. intros H. apply (nearest_lo r (-1)). lra. Qed.

Lemma sub_core : let c := check_range E p m y t in mp_subnormalize E p m (fst c) (snd c) = VNum (IZR (round_mode m w) * u).
Proof.
cbv zeta. pose proof u_pos as Hu. pose proof sy as Hs. pose proof abs_y as Ha. destruct y_s_sign as [Sn Sp].
unfold check_range. fold e. fold u. rewrite ui_half.
case Req_bool_spec; intros Hy0.
{ cbn [fst snd]. rewrite sub_skip by now left. rewrite <- K. assert (s = 0) by (rewrite Hs in Hy0; nra). rewrite H.
  rewrite (kfun_int m t 0). now rewrite Rmult_0_l. }
assert (Hs0 : s <> 0). { intros Q. apply Hy0. rewrite Hs, Q. lra. }
case Rlt_bool_spec; intros Hun.
- assert (S1 : Rabs s < 1). { rewrite Ha in Hun. nra. }
  apply Rabs_lt_inv in S1. destruct S1 as [S1 S2]. pose proof (s_gtm1 S1) as W1. pose proof (s_lt1 S2) as W2.
  set (tz := match m with mode_NE => _ | _ => _ end).
  assert (Tz : (tz = true -> round_mode m w = 0%Z) /\ (tz = false -> round_mode m w = if Rlt_bool y 0 then (-1)%Z else 1%Z)).
  { assert (T0 : t = Rcompare s w) by apply t_sw.
    unfold tz. clear tz. destruct (Rtotal_order s 0) as [Q|[Q|Q]]; [|easy|].
    - assert (Yn : y < 0) by now apply Sn. rewrite !(Rlt_bool_true y 0) by easy. rewrite (Rlt_bool_false 0 y) by lra.
      pose proof (s_neg Q) as Wn. rewrite Ha, (Rabs_left s) by easy.
      assert (A1 : (Zfloor w = -1)%Z) by (apply Zfloor_imp; simpl; lra).
      assert (A2 : (Zceil w = 0)%Z) by (apply Zceil_imp; simpl; lra).
      assert (A3 : (Ztrunc w = 0)%Z) by (rewrite Ztrunc_ceil; lra || easy).
      case_eq m; intros Em; cbn [round_mode]; try (split; intros; easy).
      split.
      + intros Hz. apply ZnE_0. split; [|lra]. apply orb_true_iff in Hz. destruct Hz as [Hz|Hz].
        * revert Hz. case Rlt_bool_spec; [|easy]. intros H _. assert (- / 2 < s) by nra. apply s_gtmh in H0. lra.
        * apply andb_true_iff in Hz. destruct Hz as [Hz Ht]. revert Hz. case Req_bool_spec; [|easy]. intros H _.
          assert (s = - / 2) by nra. rewrite T0 in Ht. revert Ht. unfold tern_le.
          case Rcompare_spec; intros; try easy; lra.
      + intros Hz. apply ZnE_m1. split; [lra|]. apply orb_false_iff in Hz. destruct Hz as [Hz1 Hz2]. revert Hz1. case Rlt_bool_spec; [easy|]. intros H _.
        destruct (Req_dec s (- / 2)) as [Q1|Q1]; [|apply s_ltmh; assert (/ 2 <= - s) by nra; lra].
        rewrite Req_bool_true in Hz2 by nra. revert Hz2. rewrite T0. unfold tern_le. case Rcompare_spec; intros; try easy. lra.
    - assert (Yn : 0 < y) by now apply Sp. rewrite !(Rlt_bool_false y 0) by lra. rewrite (Rlt_bool_true 0 y) by lra.
      pose proof (s_pos Q) as Wn. rewrite Ha, (Rabs_pos_eq s) by lra.
      assert (A1 : (Zfloor w = 0)%Z) by (apply Zfloor_imp; simpl; lra).
      assert (A2 : (Zceil w = 1)%Z) by (apply Zceil_imp; simpl; lra).
      assert (A3 : (Ztrunc w = 0)%Z) by (rewrite Ztrunc_floor; lra || easy).
      case_eq m; intros Em; cbn [round_mode]; try (split; intros; easy).
      split.
      + intros Hz. apply ZnE_0. split; [lra|]. apply orb_true_iff in Hz. destruct Hz as [Hz|Hz].
        * revert Hz. case Rlt_bool_spec; [|easy]. intros H _. assert (s < / 2) by nra. apply s_lth in H0. lra.
        * apply andb_true_iff in Hz. destruct Hz as [Hz Ht]. revert Hz. case Req_bool_spec; [|easy]. intros H _.
          assert (s = / 2) by nra. rewrite T0 in Ht. revert Ht. unfold tern_ge.
          case Rcompare_spec; intros; try easy; lra.
      + intros Hz. apply ZnE_1. split; [|lra]. apply orb_false_iff in Hz. destruct Hz as [Hz1 Hz2]. revert Hz1. case Rlt_bool_spec; [easy|]. intros H _.
        destruct (Req_dec s (/ 2)) as [Q1|Q1]; [|apply s_gth; assert (/ 2 <= s) by nra; lra].
        rewrite Req_bool_true in Hz2 by nra. revert Hz2. rewrite T0. unfold tern_ge. case Rcompare_spec; intros; try easy. lra. }
  destruct tz.
  + cbn [fst snd]. rewrite sub_skip by now left. rewrite (proj1 Tz) by easy. now rewrite Rmult_0_l.
  + rewrite (proj2 Tz) by easy. cbn [fst snd].
    assert (B : u < bpow radix2 (g_emin E + p - 2)) by (apply bpow_lt; unfold e; lia).
    unfold signed. destruct (Rlt_bool y 0).
    * rewrite sub_num; [|lra|rewrite Rabs_Ropp, Rabs_pos_eq by lra; easy]. fold e. fold u.
      replace (- u * bpow radix2 (- e)) with (IZR (-1)) by (rewrite Ropp_mult_distr_l_reverse, u_ui; easy). now rewrite kfun_int.
    * rewrite sub_num; [|lra|rewrite Rabs_pos_eq by lra; easy]. fold e. fold u.
      replace (u * bpow radix2 (- e)) with (IZR 1) by (now rewrite u_ui). now rewrite kfun_int.
- assert (Hb : Rabs y <= bpow radix2 (e + p - 1)).
  { rewrite Ha. replace (e + p - 1)%Z with (p - 1 + e)%Z by lia. rewrite bpow_plus. apply Rmult_le_compat_r; [apply bpow_ge_0|].
    rewrite <- bpow_N. apply s_N. }
  rewrite Rle_bool_false. 2:{ apply Rle_lt_trans with (1 := Hb). now apply bpow_lt. }
  cbn [fst snd].
  destruct (Rle_or_lt (bpow radix2 (e + p - 1)) (Rabs y)) as [Q|Q].
  + rewrite sub_skip; [|right; replace (g_emin E + p - 2)%Z with (e + p - 1)%Z by (unfold e; lia); easy].
    assert (Hy : Rabs s = IZR (2 ^ (p - 1))).
    { assert (Rabs y = bpow radix2 (e + p - 1)) by lra. rewrite bpow_N. rewrite Ha in H.
      replace (e + p - 1)%Z with (p - 1 + e)%Z in H by lia. rewrite bpow_plus in H. apply Rmult_eq_reg_r with u; [easy|lra]. }
    assert (exists n, s = IZR n) as [n Hn].
    { destruct (Rle_or_lt 0 s); [exists (2 ^ (p - 1))%Z; now rewrite <- Hy, Rabs_pos_eq|].
      exists (- 2 ^ (p - 1))%Z. rewrite opp_IZR, <- Hy, Rabs_left by easy. lra. }
    rewrite <- K, Hn, kfun_int. now rewrite Hs, Hn.
  + rewrite sub_num; [|easy|replace (g_emin E + p - 2)%Z with (e + p - 1)%Z by (unfold e; lia); easy].
    fold e. fold u. fold s. now rewrite K.
Qed.
End Sub.

(** ** The pipeline *)
Section Pipe.
Context {F : fmt}.
#[local] Instance fexpV : Valid_exp (fexp F) := FLT_exp_valid (emin F) (prec F).

Lemma get_exact m g : generic_format radix2 (fexp F) g -> Rabs g < bpow radix2 (emax F) ->
  B2R (get F m (VNum g)) = g /\ is_finite (get F m (VNum g)) = true.
Proof.
intros H1 H2. pose proof (@rround_rnds F m false g) as H. unfold rnds in H.
rewrite (round_generic radix2 (fexp F) (round_mode m) g H1) in H. rewrite Rlt_bool_true in H by easy. exact H.
Qed.
Lemma rnds_val m v z : generic_format radix2 (fexp F) (B2R z) -> is_finite z = true -> B2R z = round radix2 (fexp F) (round_mode m) v -> @rnds F m v z.
Proof.
intros H1 H2 H3. unfold rnds. rewrite <- H3, Rlt_bool_true; [easy|]. apply abs_B2R_lt_emax.
Qed.
Lemma round_fix m v : Rabs v <= bpow radix2 (emin F + prec F - 1) ->
  round radix2 (fexp F) (round_mode m) v = IZR (round_mode m (v * bpow radix2 (- emin F))) * bpow radix2 (emin F).
Proof.
intros H. destruct (Req_dec v 0) as [->|Hv].
- rewrite round_0 by auto with typeclass_instances. rewrite Rmult_0_l.
  replace (round_mode m 0) with 0%Z; [now rewrite Rmult_0_l|]. symmetry. apply (Zrnd_IZR (round_mode m) 0).
- change (fexp F) with (FLT_exp (emin F) (prec F)). unfold round, scaled_mantissa, F2R; cbn [Fnum Fexp].
  rewrite cexp_FLT_FIX; [easy|easy|]. apply Rle_lt_trans with (1 := H). apply bpow_lt. lia.
Qed.
Lemma fix_small m v : Rabs v <= bpow radix2 (emin F + prec F - 1) ->
  Rabs (round radix2 (fexp F) (round_mode m) v) <= bpow radix2 (emin F + prec F - 1).
Proof.
intros H. apply abs_round_le_generic; auto with typeclass_instances. apply generic_format_bpow.
unfold fexp, SpecFloat.fexp, SpecFloat.emin, emin. pose proof (fmt_prec1 F). lia.
Qed.
Lemma emax_big : (emin F + prec F - 1 < emax F)%Z.
Proof. unfold emin. pose proof (fmt_prec1 F). pose proof (fmt_emax F). lia. Qed.

(** The value delivered by a call and subnormalize, for every exact result. *)
Lemma get_max m s : B2SF (get F m (VNum (if s : bool then - ((1 - bpow radix2 (- prec F)) * bpow radix2 (emax F)) else (1 - bpow radix2 (- prec F)) * bpow radix2 (emax F)))) =
  SpecFloat.S754_finite s (Z.to_pos (Zpower 2 (prec F) - 1)) (emax F - prec F).
Proof.
assert (E : (1 - bpow radix2 (- prec F)) * bpow radix2 (emax F) = B2R (@fmaxv F)).
{ rewrite B2R_fmaxv, Rmult_minus_distr_r, <- bpow_plus, Rmult_1_l. f_equal. f_equal. lia. }
assert (M1 : forall q : bool, B2SF (if q then Bopp (@fmaxv F) else fmaxv) = SpecFloat.S754_finite q (Z.to_pos (Zpower 2 (prec F) - 1)) (emax F - prec F)).
{ assert (M0 : B2SF (@fmaxv F) = SpecFloat.S754_finite false (Z.to_pos (Zpower 2 (prec F) - 1)) (emax F - prec F)).
  { unfold fmaxv, Bmax_float. rewrite B2SF_SF2B. f_equal. rewrite Pos2Z.inj_iff || idtac.
    apply Pos2Z.inj. rewrite Z2Pos.id by (pose proof (fmt_prec1 F); apply Zlt_succ_pred; now apply (Zpower_gt_1 radix2); lia).
    pose proof (fmt_prec1 F). rewrite Pos2Z.inj_sub.
    - rewrite shift_pos_correct, Z.pow_pos_fold, Z2Pos.id by lia. change (Zpower 2) with (Z.pow 2). lia.
    - change (Z.pos 1 < Z.pos (shift_pos (Z.to_pos (prec F)) 1))%Z.
      rewrite shift_pos_correct, Z.pow_pos_fold, Z2Pos.id by lia.
      rewrite Z.mul_1_r. now apply (Zpower_gt_1 radix2); lia. }
  intros []; [|exact M0]. destruct (@fmaxv F); simpl in *; try discriminate. now injection M0 as -> -> ->. }
set (g := if s then _ else _).
assert (Hg : g = B2R (if s then Bopp (@fmaxv F) else fmaxv)). { unfold g. destruct s; [rewrite B2R_Bopp|]; now rewrite E. }
assert (Hg1 : 1 <= Rabs (B2R (if s then Bopp (@fmaxv F) else fmaxv))).
{ pose proof (@fmaxv_ge1 F). destruct s; [rewrite B2R_Bopp, Rabs_Ropp|]; rewrite Rabs_pos_eq; lra. }
destruct (get_exact m g) as [G1 G2].
{ rewrite Hg. apply generic_format_B2R. } { rewrite Hg. apply abs_B2R_lt_emax. }
rewrite Hg in G1 at 2. rewrite <- M1. f_equal. apply B2R_inj; [| |easy].
- destruct (get F m (VNum g)) eqn:Eg; try easy. exfalso. cbn [B2R] in G1. rewrite <- G1, Rabs_R0 in Hg1. lra.
- specialize (M1 s). destruct (if s then Bopp fmaxv else fmaxv); simpl in M1; easy.
Qed.
Lemma pipeline_rnds m v E : m <> mode_NA -> @rnds F m v (fst (pipeline F m v E)).
Proof.
intros Hm. unfold pipeline, mp_call, mp_round. cbv zeta. set (E1 := setup (var_of F) E).
set (y := round radix2 (FLX_exp (prec F)) (round_mode m) v). set (t := Rcompare y v).
pose proof (fmt_prec1 F) as Hp. pose proof emax_big as He.
assert (Ee : (g_emin E1 - 1)%Z = emin F) by (unfold E1, setup, var_of, emin; cbn; lia).
assert (Ex : g_emax E1 = emax F) by easy.
unfold subnormalize. cbn [v_sub var_of v_prec].
destruct (check_range E1 (prec F) m y t) as [c tc] eqn:Ec. cbn [fst].
destruct (Rle_or_lt (Rabs v) (bpow radix2 (emin F + prec F - 1))) as [Hs|Hs].
- pose proof (sub_core E1 (prec F) m v Hp Hm) as C. rewrite Ee, Ex in C. specialize (C He Hs). cbv zeta in C.
  fold y t in C. rewrite Ec in C. cbn [fst snd] in C. rewrite C. rewrite <- round_fix by easy.
  destruct (get_exact m (round radix2 (fexp F) (round_mode m) v)) as [G1 G2].
  + apply generic_format_round; auto with typeclass_instances.
  + apply Rle_lt_trans with (1 := fix_small m v Hs). now apply bpow_lt.
  + apply rnds_val; [apply generic_format_B2R|easy|easy].
- assert (Hy : y = round radix2 (fexp F) (round_mode m) v).
  { change (fexp F) with (FLT_exp (emin F) (prec F)). unfold y. symmetry. apply round_FLT_FLX. lra. }
  assert (Hb : bpow radix2 (emin F + prec F - 1) <= Rabs y).
  { rewrite Hy. apply abs_round_ge_generic; auto with typeclass_instances; [|lra]. apply generic_format_bpow.
    unfold fexp, SpecFloat.fexp, SpecFloat.emin, emin. lia. }
  assert (H0 : 0 < Rabs y). { apply Rlt_le_trans with (2 := Hb). apply bpow_gt_0. }
  assert (Hsg : Rlt_bool y 0 = Rlt_bool v 0).
  { assert (v <> 0). { intros Z0. rewrite Z0, Rabs_R0 in Hs. pose proof (bpow_gt_0 radix2 (emin F + prec F - 1)). lra. }
    assert (y <> 0) by (intros Z0; rewrite Z0, Rabs_R0 in H0; lra).
    assert (0 <= v -> 0 <= y) by (intros; rewrite Hy; apply round_ge_generic; auto with typeclass_instances; apply generic_format_0).
    assert (v <= 0 -> y <= 0) by (intros; rewrite Hy; apply round_le_generic; auto with typeclass_instances; apply generic_format_0).
    case Rlt_bool_spec; intros; case Rlt_bool_spec; intros; try easy; intuition lra. }
  revert Ec. unfold check_range. rewrite Ee, Ex.
  rewrite Req_bool_false by (intros Z0; rewrite Z0, Rabs_R0 in H0; lra).
  rewrite Rlt_bool_false. 2:{ apply Rle_trans with (2 := Hb). apply bpow_le. lia. }
  case Rle_bool_spec; intros Ho.
  + assert (Hr : forall z : float F, B2SF z = binary_overflow (prec F) (emax F) m (Rlt_bool v 0) -> rnds m v z).
    { intros z Hz. unfold rnds. rewrite <- Hy. now rewrite Rlt_bool_false. }
    unfold binary_overflow in Hr. rewrite Hsg. destruct (overflow_to_inf m (Rlt_bool v 0)) eqn:Eo; intros Ec; injection Ec as <- <-.
    * apply Hr. easy.
    * apply Hr. unfold signed. rewrite Hsg. rewrite sub_skip.
      -- pose proof (get_max m (Rlt_bool v 0)) as G. exact G.
      -- right. replace (g_emin E1 + prec F - 2)%Z with (emin F + prec F - 1)%Z by lia.
         assert (G : Rabs (if Rlt_bool v 0 then - ((1 - bpow radix2 (- prec F)) * bpow radix2 (emax F)) else (1 - bpow radix2 (- prec F)) * bpow radix2 (emax F)) =
            B2R (@fmaxv F)).
         { rewrite B2R_fmaxv. pose proof (@fmaxv_ge1 F) as G. rewrite B2R_fmaxv in G.
           assert (E2 : (1 - bpow radix2 (- prec F)) * bpow radix2 (emax F) = bpow radix2 (emax F) - bpow radix2 (emax F - prec F)).
           { rewrite Rmult_minus_distr_r, <- bpow_plus, Rmult_1_l. f_equal. f_equal. lia. }
           rewrite E2. case (Rlt_bool v 0); [rewrite Rabs_Ropp|]; apply Rabs_pos_eq; lra. }
         rewrite G. apply Rle_trans with 1; [|apply fmaxv_ge1]. change 1 with (bpow radix2 0). apply bpow_le. unfold emin.
         pose proof (fmt_emax F). lia.
  + intros Ec; injection Ec as <- <-. rewrite sub_skip.
    2:{ right. replace (g_emin E1 + prec F - 2)%Z with (emin F + prec F - 1)%Z by lia. easy. }
    destruct (get_exact m y) as [G1 G2]; [|easy|].
    * rewrite Hy. apply generic_format_round; auto with typeclass_instances.
    * apply rnds_val; [apply generic_format_B2R|easy|]. now rewrite G1.
Qed.
End Pipe.
