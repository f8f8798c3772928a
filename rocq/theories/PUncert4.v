(** * Proofs: the uncertain form as a literal *)
From Coq Require Import ZArith NArith Reals Bool Ascii String List Lia Lra.
From Flocq Require Import Core.Core IEEE754.BinarySingleNaN.
From Verif Require Import Fmt Spec FloatFacts Exc Deco SpecApi SpecNum SpecDeco MBase MBool MNum PBase PClass PNumF MStream MText PText PText2 PPrint PPrint2 MPrint MRead MUncertain SpecLiteral SpecUncertain PTrip PTrip2 PUncert PUncert2 PUncert3.
Import ListNotations.
Local Open Scope Z_scope.
Local Open Scope list_scope.
Local Open Scope m_scope.

Definition side_text (k : side) (up : bool) : text := match k with u_both => [] | u_up => txt (if up then "U" else "u") | u_down => txt (if up then "D" else "d") end.
Lemma side_direction k up : direction (side_text k up) (downwards k) (upwards k).
Proof. destruct k; [constructor|apply Up|apply Down]; now destruct up. Qed.
Lemma to_string_numeral n : 0 <= n -> numeral 10 (to_string n) n /\ to_string n <> [].
Proof.
  intros H. unfold to_string. destruct (Z.ltb_spec n 0); [lia|]. split; [apply digs_numeral; lia|]. intros E. pose proof (digs_length false 10 n) as L. rewrite E in L. pose proof (ndig_pos 10 n). cbn in L. lia.
Qed.

Section Body.
Variable F : fmt.
Hypothesis Hs : small_fmt F.

Lemma exponent_text up e : Z.abs (ex e) <= 2 ^ 26 -> uncertain_exponent int_exponent (etext up e) (ex e).
Proof.
  intros H. destruct e as [k|]; cbn [etext ex] in *; [|constructor]. apply With_exponent; [apply exp10_exponent|unfold int_exponent; lia].
Qed.
Lemma literal_units s p N up e k w u : 0 <= N -> Z.of_nat p <= 2 ^ 26 -> Z.abs (ex e) <= 2 ^ 26 -> 0 <= u ->
  bare (mant s p N ++ txt "?" ++ to_string u ++ side_text k w ++ etext up e) (band (downwards k) (upwards k) (IZR (sg s * N) * unit10 e p) (IZR u * unit10 e p)) com.
Proof.
  intros HN Hp He Hu. destruct (to_string_numeral u Hu) as [T1 T2]. unfold unit10. rewrite <- powerRZ_bpow.
  unfold mant. rewrite <- !app_assoc. replace (sign_text s ++ digs false 10 (N / 10 ^ Z.of_nat p) ++ txt "." ++ fixdigs false 10 p N ++ txt "?" ++ to_string u ++ side_text k w ++ etext up e)
    with (sign_text s ++ (digs false 10 (N / 10 ^ Z.of_nat p) ++ txt "." ++ fixdigs false 10 p N) ++ txt "?" ++ to_string u ++ side_text k w ++ etext up e) by now rewrite <- !app_assoc.
  apply (Uncertain no_plus int_exponent (sign_text s) (sg s) _ N p (to_string u) (Some (IZR u)) (side_text k w) (downwards k) (upwards k) (etext up e) (ex e)).
  - apply sign_no_plus.
  - now apply mant_mantissa.
  - now constructor.
  - apply side_direction.
  - now apply exponent_text.
  - unfold int_exponent. lia.
  - unfold int_exponent. lia.
Qed.
Lemma literal_infinite s p N up e k w : 0 <= N -> Z.of_nat p <= 2 ^ 26 -> Z.abs (ex e) <= 2 ^ 26 ->
  bare (mant s p N ++ txt "??" ++ side_text k w ++ etext up e)
    (between_bounds (if downwards k then None else Some (IZR (sg s * N) * unit10 e p)%R) (if upwards k then None else Some (IZR (sg s * N) * unit10 e p)%R)) dac.
Proof.
  intros HN Hp He. unfold unit10. rewrite <- powerRZ_bpow.
  unfold mant. rewrite <- !app_assoc. replace (sign_text s ++ digs false 10 (N / 10 ^ Z.of_nat p) ++ txt "." ++ fixdigs false 10 p N ++ txt "??" ++ side_text k w ++ etext up e)
    with (sign_text s ++ (digs false 10 (N / 10 ^ Z.of_nat p) ++ txt "." ++ fixdigs false 10 p N) ++ txt "?" ++ txt "?" ++ side_text k w ++ etext up e) by now rewrite <- !app_assoc.
  apply (Uncertain no_plus int_exponent (sign_text s) (sg s) _ N p (txt "?") None (side_text k w) (downwards k) (upwards k) (etext up e) (ex e)).
  - apply sign_no_plus.
  - now apply mant_mantissa.
  - constructor.
  - apply side_direction.
  - now apply exponent_text.
  - unfold int_exponent. lia.
  - unfold int_exponent. lia.
Qed.
Lemma put_mark_written s p N up e mark st t st' : put_mark (mant s p N ++ etext up e) mark st = (Ret t, st') -> st' = st /\ t = mant s p N ++ mark ++ etext up e.
Proof.
  unfold put_mark. rewrite exp_pos_written. destruct e as [k|]; cbn [etext].
  - rewrite (proj2 (Z.leb_le 0 _)) by apply size_nonneg. unfold insert. rewrite inside_app, size_to_nat, firstn_app_all, skipn_app_all. intros H. apply ret_inv in H. now destruct H as [<- ->].
  - cbn [Z.leb Z.compare]. intros H. apply ret_inv in H. destruct H as [<- ->]. now rewrite !app_nil_r.
Qed.

(** ** Bounded intervals *)
Lemma away_low sci p (x : float F) s N e : is_finite x = true -> shaped F sci mode_DN p x s N e -> s = true -> flt x f0 = true \/ N = 0.
Proof.
  intros Hx H E. rewrite flt_fin by easy. change (B2R (@f0 F)) with 0%R. destruct (Rtotal_order (B2R x) 0) as [L|[Z|G]].
  - left. now apply Rlt_bool_true.
  - right. now apply (sh_zero _ _ _ _ _ _ _ _ H).
  - pose proof (sh_pos _ _ _ _ _ _ _ _ H G). congruence.
Qed.
Lemma away_upp sci p (x : float F) s N e : is_finite x = true -> shaped F sci mode_UP p x s N e -> s = false -> flt f0 x = true \/ N = 0.
Proof.
  intros Hx H E. rewrite flt_fin by easy. change (B2R (@f0 F)) with 0%R. destruct (Rtotal_order (B2R x) 0) as [L|[Z|G]].
  - pose proof (sh_neg _ _ _ _ _ _ _ _ H L). congruence.
  - right. now apply (sh_zero _ _ _ _ _ _ _ _ H).
  - left. now apply Rlt_bool_true.
Qed.
Lemma unit10_pos e p : (0 < unit10 e p)%R. Proof. apply bpow_gt_0. Qed.
Lemma unit10_shift e e' p : (bpow radix10 (ex e - ex e') * unit10 e' p = unit10 e p)%R.
Proof. unfold unit10. rewrite <- bpow_plus. f_equal. ring. Qed.
Lemma aligned_below sci p x s N e e' v c : is_finite x = true -> shaped F sci mode_DN p x s N e -> aligned s N (ex e - ex e') (flt x f0) v c ->
  (IZR (v - c) * unit10 e' p <= B2R x)%R.
Proof.
  intros Hx H A. apply Rle_trans with (2 := shaped_low F _ _ _ _ _ _ H).
  pose proof (aligned_low _ _ _ _ _ _ (sh_nonneg _ _ _ _ _ _ _ _ H) A (away_low _ _ _ _ _ _ Hx H)) as L.
  replace (sgn s (IZR N * unit10 e p))%R with (sgn s (IZR N * bpow radix10 (ex e - ex e')) * unit10 e' p)%R.
  - apply Rmult_le_compat_r; [left; apply unit10_pos|easy].
  - rewrite <- (unit10_shift e e' p). destruct s; cbn [sgn]; ring.
Qed.
Lemma aligned_above sci p x s N e e' v c : is_finite x = true -> shaped F sci mode_UP p x s N e -> aligned s N (ex e - ex e') (flt f0 x) v c ->
  (B2R x <= IZR (v + c) * unit10 e' p)%R.
Proof.
  intros Hx H A. apply Rle_trans with (1 := shaped_upp F _ _ _ _ _ _ H).
  pose proof (aligned_upp _ _ _ _ _ _ (sh_nonneg _ _ _ _ _ _ _ _ H) A (away_upp _ _ _ _ _ _ Hx H)) as L.
  replace (sgn s (IZR N * unit10 e p))%R with (sgn s (IZR N * bpow radix10 (ex e - ex e')) * unit10 e' p)%R.
  - apply Rmult_le_compat_r; [left; apply unit10_pos|easy].
  - rewrite <- (unit10_shift e e' p). destruct s; cbn [sgn]; ring.
Qed.
(** Without an exponent the digits are a rounded integer. *)
Lemma fixed_val m p x s N : shaped F false m p x s N None -> sg s * N = round_mode m (B2R x * bpow radix10 (Z.of_nat p)).
Proof.
  intros H. pose proof (sh_val _ _ _ _ _ _ _ _ H) as V. unfold round, scaled_mantissa, cexp, FIX_exp, F2R in V. cbn [Fnum Fexp] in V. rewrite Z.opp_involutive in V.
  unfold unit10, ex in V. rewrite Z.sub_0_l in V. apply eq_IZR. apply Rmult_eq_reg_r with (bpow radix10 (- Z.of_nat p)); [|apply Rgt_not_eq, bpow_gt_0].
  rewrite <- V, IZR_sg. destruct s; cbn [sgn]; ring.
Qed.
Lemma fixed_exp m p x s N e : shaped F false m p x s N e -> e = None.
Proof. intros H. destruct (shaped_kind F _ _ _ _ _ _ _ H) as [[E _]|[_ E]]; easy. Qed.
Lemma pow_cancel p : (bpow radix10 (Z.of_nat p) * bpow radix10 (- Z.of_nat p) = 1)%R.
Proof. rewrite <- bpow_plus. replace (Z.of_nat p + - Z.of_nat p) with 0 by ring. easy. Qed.
Lemma unit_none p : unit10 None p = bpow radix10 (- Z.of_nat p). Proof. reflexivity. Qed.
Lemma floor_unit r p k : (IZR k * unit10 None p <= r)%R -> k <= Zfloor (r * bpow radix10 (Z.of_nat p)).
Proof.
  intros H. apply Zfloor_lub. rewrite unit_none in H. pose proof (bpow_gt_0 radix10 (Z.of_nat p)). pose proof (pow_cancel p).
  apply Rmult_le_compat_r with (r := bpow radix10 (Z.of_nat p)) in H; [|lra]. rewrite Rmult_assoc, (Rmult_comm (bpow radix10 (- _))), H1 in H. lra.
Qed.
Lemma ceil_unit r p k : (r <= IZR k * unit10 None p)%R -> Zceil (r * bpow radix10 (Z.of_nat p)) <= k.
Proof.
  intros H. apply Zceil_glb. rewrite unit_none in H. pose proof (bpow_gt_0 radix10 (Z.of_nat p)). pose proof (pow_cancel p).
  apply Rmult_le_compat_r with (r := bpow radix10 (Z.of_nat p)) in H; [|lra]. rewrite Rmult_assoc, (Rmult_comm (bpow radix10 (- _))), H1 in H. lra.
Qed.
(** The centre is the bound or the midpoint, rounded to p digits after the point. *)
Lemma bounded_mem (x : itv F) : is_finite (fst x) = true -> is_finite (snd x) = true -> forall r, mem r x <-> (B2R (fst x) <= r <= B2R (snd x))%R.
Proof. intros H1 H2 r. unfold mem. rewrite lb_fin, ub_fin by easy. tauto. Qed.
Lemma floor_near r p : (IZR (Zfloor (r * bpow radix10 (Z.of_nat p))) * bpow radix10 (- Z.of_nat p) <= r < IZR (Zfloor (r * bpow radix10 (Z.of_nat p))) * bpow radix10 (- Z.of_nat p) + bpow radix10 (- Z.of_nat p))%R.
Proof.
  set (a := (r * bpow radix10 (Z.of_nat p))%R). pose proof (Zfloor_lb a). pose proof (Zfloor_ub a). pose proof (bpow_gt_0 radix10 (- Z.of_nat p)) as U. pose proof (pow_cancel p) as C.
  assert (r = a * bpow radix10 (- Z.of_nat p))%R as E by (unfold a; rewrite Rmult_assoc, C; ring). clearbody a. rewrite E. split; [apply Rmult_le_compat_r; lra|].
  replace (IZR (Zfloor a) * bpow radix10 (- Z.of_nat p) + bpow radix10 (- Z.of_nat p))%R with ((IZR (Zfloor a) + 1) * bpow radix10 (- Z.of_nat p))%R by ring. apply Rmult_lt_compat_r; lra.
Qed.
Lemma ceil_near r p : (IZR (Zceil (r * bpow radix10 (Z.of_nat p))) * bpow radix10 (- Z.of_nat p) - bpow radix10 (- Z.of_nat p) < r <= IZR (Zceil (r * bpow radix10 (Z.of_nat p))) * bpow radix10 (- Z.of_nat p))%R.
Proof.
  pose proof (floor_near (- r) p) as H. unfold Zceil. rewrite opp_IZR. replace (- (r * bpow radix10 (Z.of_nat p)))%R with (- r * bpow radix10 (Z.of_nat p))%R by ring. lra.
Qed.
Lemma nearest_near r p : (Rabs (IZR (ZnearestE (r * bpow radix10 (Z.of_nat p))) * bpow radix10 (- Z.of_nat p) - r) <= bpow radix10 (- Z.of_nat p) / 2)%R.
Proof.
  set (a := (r * bpow radix10 (Z.of_nat p))%R). pose proof (Znearest_half (fun x => negb (Z.even x)) a) as H. pose proof (bpow_gt_0 radix10 (- Z.of_nat p)) as U. pose proof (pow_cancel p) as C.
  assert (r = a * bpow radix10 (- Z.of_nat p))%R as E by (unfold a; rewrite Rmult_assoc, C; ring). clearbody a. rewrite E.
  rewrite <- Rmult_minus_distr_r, Rabs_mult, (Rabs_pos_eq (bpow _ _)) by lra. rewrite Rabs_minus_sym in H. unfold Rdiv. rewrite (Rmult_comm _ (/ 2)). apply Rmult_le_compat_r; lra.
Qed.
Lemma ample_text m (sci : bool) p up (x : float F) : (p <> 0)%N ->
  ample_get m (if sci then r_scientific else r_decimal) p up x = ret (number_text (if sci then c_e else c_f) up m (Some (N.to_nat p)) x).
Proof.
  intros Hp. unfold ample_get, sprintf, padded, precision_of. assert ((0 <? p)%N = true) as -> by (apply N.ltb_lt; lia). now destruct sci.
Qed.
Lemma aligned_same s N (e : option Z) away v c : aligned s N (ex e - ex e) away v c -> v = sg s * N /\ c = 0.
Proof. intros [H _]. rewrite Z.sub_diag in H. destruct (H ltac:(lia)) as [-> ->]. rewrite Z.pow_0_r. split; ring. Qed.
Lemma le_units (a b u : R) : (0 < u)%R -> (a * u <= b * u)%R -> (a <= b)%R.
Proof. intros Hu H. now apply Rmult_le_reg_r with u. Qed.
Theorem bounded_body k sci p0 up (x : itv F) st t st' : is_finite (fst x) = true -> is_finite (snd x) = true -> (B2R (fst x) <= B2R (snd x))%R ->
  (p0 <= 2 ^ 26)%N -> (k = u_both -> roomy F sci (digits_of p0)) ->
  uncertain_body ample_get k sci p0 up x st = (Ret t, st') -> st' = st /\ bounded_text k sci (digits_of p0) x t.
Proof.
  intros F1 F2 Hle Hp Hr. unfold uncertain_body, digits_of in *. set (p := (if (p0 =? 0)%N then 6%N else p0)) in *.
  assert (Hp0 : (p <> 0)%N) by (unfold p; destruct (N.eqb_spec p0 0); lia). assert (Hp1 : Z.of_nat (N.to_nat p) <= 2 ^ 26) by (unfold p; destruct (p0 =? 0)%N; lia). assert (Hp2 : (0 < N.to_nat p)%nat) by lia. clearbody p.
  assert (W : wf x) by (right; exists (B2R (fst x)); apply bounded_mem; try easy; lra).
  assert (Ne : exists r, mem r x) by (exists (B2R (fst x)); apply bounded_mem; try easy; lra).
  rewrite is_entire_wf by easy. assert (feq (fst x) fminf = false) as -> by (destruct (fst x) as [|[]| |[]]; easy). mreds.
  assert (isinf (fst x) = false) as -> by now destruct (fst x). assert (isinf (snd x) = false) as -> by now destruct (snd x).
  rewrite !ample_text by easy. mreds. set (q := N.to_nat p) in *. replace p with (N.of_nat q) by (unfold q; lia).
  destruct (number_shape F sci up mode_DN q (fst x) F1 Hp2) as (sl & Nl & el & -> & Hl). destruct (number_shape F sci up mode_UP q (snd x) F2 Hp2) as (su & Nu & eu & -> & Hu).
  intros H. apply bind_inv in H. destruct H as ([[str u] es] & s1 & H1 & H). apply ret_inv in H. destruct H as [<- ->].
  pose proof (bounded_mem x F1 F2) as Mem.
  destruct k.
  - destruct (mid_ok x Ne) as (m & Hm & Fm & _ & _ & Nm'). unfold returns in Hm. apply bind_inv in H1. destruct H1 as (m' & s2 & H0 & H1). rewrite Hm in H0. injection H0 as <- <-.
    rewrite ample_text in H1 by lia. rewrite Nat2N.id in H1. revert H1. mreds. intros H1.
    destruct (number_shape F sci up mode_NE q m Fm Hp2) as (sm & Nm & em & E & Sm). rewrite E in H1.
    destruct (units_both_inv F Hs sci q up x sl Nl el su Nu eu Hl Hu m sm Nm em _ _ _ _ _ Sm (Hr eq_refl) H1) as (-> & -> & -> & lv & cl & uv & cu & A1 & A2 & ->). split; [easy|].
    pose proof (aligned_below sci q _ _ _ _ em _ _ F1 Hl A1) as B1. pose proof (aligned_above sci q _ _ _ _ em _ _ F2 Hu A2) as B2. pose proof (unit10_pos em q) as U.
    set (n := Z.max _ _). assert (N1 : sg sm * Nm - n <= lv - cl) by lia. assert (N2 : uv + cu <= sg sm * Nm + n) by lia.
    assert (lv - cl <= uv + cu) by (apply le_IZR, le_units with (unit10 em q); [easy|lra]).
    exists (IZR (sg sm * Nm) * unit10 em q)%R, (unit10 em q), n. split; [easy|]. split; [lia|]. split.
    { apply (literal_units sm q Nm up em u_both up); [apply (sh_nonneg _ _ _ _ _ _ _ _ Sm)|easy|apply (shaped_int F Hs _ _ _ _ _ _ _ Sm)|lia]. }
    split.
    + intros r Hr'. apply Mem in Hr'. apply IZR_le in N1, N2. rewrite minus_IZR in N1. rewrite (plus_IZR (sg sm * Nm)) in N2.
      apply Rmult_le_compat_r with (r := unit10 em q) in N1, N2; try lra. unfold band, between_bounds, downwards, upwards, moved_bound, option_map. split; lra.
    + intros ->. pose proof (fixed_exp _ _ _ _ _ _ Sm). subst em. pose proof (fixed_exp _ _ _ _ _ _ Hl). subst el. pose proof (fixed_exp _ _ _ _ _ _ Hu). subst eu.
      apply aligned_same in A1, A2. destruct A1 as [-> ->], A2 as [-> ->]. split; [easy|]. split; [now exists (sg sm * Nm)|]. split.
      * exists m. split; [exact Fm|]. split; [now apply Nm'|]. rewrite (fixed_val _ _ _ _ _ Sm), unit_none. apply nearest_near.
      * intros n' Hn'. cbn [downwards upwards] in Hn'. destruct (Hn' (B2R (fst x))) as [L _]; [apply Mem; lra|]. destruct (Hn' (B2R (snd x))) as [_ R]; [apply Mem; lra|]. cbn [moved_bound option_map between_bounds] in L, R.
        assert (sg sm * Nm - n' <= sg sl * Nl). { rewrite (fixed_val _ _ _ _ _ Hl). apply floor_unit. rewrite minus_IZR. lra. }
        assert (sg su * Nu <= sg sm * Nm + n'). { rewrite (fixed_val _ _ _ _ _ Hu). apply ceil_unit. rewrite plus_IZR. lra. }
        lia.
  - destruct (units_side_inv F Hs sci q up x sl Nl el su Nu eu Hl Hu true _ _ _ _ _ H1) as (-> & -> & -> & uv & cu & A2 & ->). split; [easy|].
    pose proof (aligned_above sci q _ _ _ _ el _ _ F2 Hu A2) as B2. pose proof (unit10_pos el q) as U. pose proof (shaped_low F _ _ _ _ _ _ Hl) as B1.
    replace (sgn sl (IZR Nl * unit10 el q)) with (IZR (sg sl * Nl) * unit10 el q)%R in B1 by (rewrite IZR_sg; destruct sl; cbn [sgn]; ring).
    assert (sg sl * Nl <= uv + cu) by (apply le_IZR, le_units with (unit10 el q); [easy|lra]).
    exists (IZR (sg sl * Nl) * unit10 el q)%R, (unit10 el q), (uv + cu - sg sl * Nl). split; [easy|]. split; [lia|]. split.
    { apply (literal_units sl q Nl up el u_up up); [apply (sh_nonneg _ _ _ _ _ _ _ _ Hl)|easy|apply (shaped_int F Hs _ _ _ _ _ _ _ Hl)|lia]. }
    split.
    + intros r Hr'. apply Mem in Hr'. rewrite minus_IZR. unfold band, between_bounds, downwards, upwards, moved_bound, option_map. split; lra.
    + intros ->. pose proof (fixed_exp _ _ _ _ _ _ Hl). subst el. pose proof (fixed_exp _ _ _ _ _ _ Hu). subst eu. apply aligned_same in A2. destruct A2 as [-> ->]. split; [easy|]. split; [now exists (sg sl * Nl)|]. split.
      * cbn [centre]. rewrite (fixed_val _ _ _ _ _ Hl), unit_none. apply floor_near.
      * intros n' Hn'. destruct (Hn' (B2R (snd x))) as [_ R]; [apply Mem; lra|]. cbn [moved_bound option_map between_bounds upwards] in R.
        assert (sg su * Nu <= sg sl * Nl + n'). { rewrite (fixed_val _ _ _ _ _ Hu). apply ceil_unit. rewrite plus_IZR. lra. }
        lia.
  - destruct (units_side_inv F Hs sci q up x sl Nl el su Nu eu Hl Hu false _ _ _ _ _ H1) as (-> & -> & -> & lv & cl & A1 & ->). split; [easy|].
    pose proof (aligned_below sci q _ _ _ _ eu _ _ F1 Hl A1) as B1. pose proof (unit10_pos eu q) as U. pose proof (shaped_upp F _ _ _ _ _ _ Hu) as B2.
    replace (sgn su (IZR Nu * unit10 eu q)) with (IZR (sg su * Nu) * unit10 eu q)%R in B2 by (rewrite IZR_sg; destruct su; cbn [sgn]; ring).
    assert (lv - cl <= sg su * Nu) by (apply le_IZR, le_units with (unit10 eu q); [easy|lra]).
    exists (IZR (sg su * Nu) * unit10 eu q)%R, (unit10 eu q), (sg su * Nu - (lv - cl)). split; [easy|]. split; [lia|]. split.
    { apply (literal_units su q Nu up eu u_down up); [apply (sh_nonneg _ _ _ _ _ _ _ _ Hu)|easy|apply (shaped_int F Hs _ _ _ _ _ _ _ Hu)|lia]. }
    split.
    + intros r Hr'. apply Mem in Hr'. rewrite minus_IZR. unfold band, between_bounds, downwards, upwards, moved_bound, option_map. split; lra.
    + intros ->. pose proof (fixed_exp _ _ _ _ _ _ Hl). subst el. pose proof (fixed_exp _ _ _ _ _ _ Hu). subst eu. apply aligned_same in A1. destruct A1 as [-> ->]. split; [easy|]. split; [now exists (sg su * Nu)|]. split.
      * cbn [centre]. rewrite (fixed_val _ _ _ _ _ Hu), unit_none. apply ceil_near.
      * intros n' Hn'. destruct (Hn' (B2R (fst x))) as [L _]; [apply Mem; lra|]. cbn [moved_bound option_map between_bounds downwards] in L.
        assert (sg su * Nu - n' <= sg sl * Nl). { rewrite (fixed_val _ _ _ _ _ Hl). apply floor_unit. rewrite minus_IZR. lra. }
        lia.
Qed.
End Body.
