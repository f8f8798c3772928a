(** * Proofs: the uncertain form as the code writes it; when it is written *)
From Coq Require Import ZArith NArith Reals Bool Ascii String List Lia Lra.
From Flocq Require Import Core.Core IEEE754.BinarySingleNaN.
From Verif Require Import Fmt Spec FloatFacts Exc Deco SpecApi SpecNum SpecDeco MBase MBool MNum PBase PClass PNumF MStream MDecoIo MText PText PText2 PPrint PPrint2 MPrint MRegex MRead SpecDecoText SpecRead PReadStr MUncertain SpecLiteral SpecUncertain PTrip PTrip2 PTrip3 PUncert PUncert2 PUncert3 PUncert4 PUncert5.
Import ListNotations.
Local Open Scope Z_scope.
Local Open Scope list_scope.
Local Open Scope m_scope.

Section When.
Variable F : fmt.

(** ** The code overruns its buffer *)
Lemma code_get_ub m (sci : bool) p up (x : float F) s : emax F <= 2 ^ 62 -> is_finite x = true -> (p < 2 ^ 32)%N ->
  code_get m (if sci then r_scientific else r_decimal) p up x s = (UB, s).
Proof. intros H1 H2 H3. unfold code_get. destruct sci; [apply scientific_overflow|apply decimal_overflow]; try easy; lia. Qed.
Lemma body_ub k sci p0 up (x : itv F) s : emax F <= 2 ^ 62 -> (p0 < 2 ^ 32)%N -> (exists r, mem r x) -> uncertain_body code_get k sci p0 up x s = (UB, s).
Proof.
  intros He Hp Ne. unfold uncertain_body. set (p := (if (p0 =? 0)%N then 6%N else p0)). assert (Hp1 : (p < 2 ^ 32)%N) by (unfold p; destruct (p0 =? 0)%N; lia). clearbody p.
  assert (W : wf x) by now right. rewrite is_entire_wf by easy. destruct (bounds_of x Ne) as [X1 X2]. destruct x as [a b]. cbn [fst snd] in *.
  destruct X1 as [X1| ->].
  - assert (feq a fminf = false) as -> by (destruct a as [|[]| |[]]; easy). mreds. assert (isinf a = false) as -> by now destruct a. cbn iota.
    destruct X2 as [X2| ->].
    + assert (isinf b = false) as -> by now destruct b. unfold bind at 1. rewrite code_get_ub by easy. reflexivity.
    + change (isinf (@finf F)) with true. cbn iota. unfold bind at 1. rewrite code_get_ub by easy. reflexivity.
  - change (feq fminf fminf) with true. destruct X2 as [X2| ->].
    + assert (feq b finf = false) as -> by (destruct b as [|[]| |[]]; easy). mreds. change (isinf (@fminf F)) with true. cbn iota. unfold bind at 1. rewrite code_get_ub by easy. reflexivity.
    + change (feq finf finf) with true. mreds. destruct (mid_ok (fminf, finf) Ne) as (m & Hm & Fm & _). unfold returns in Hm. unfold bind at 1. rewrite Hm. unfold bind at 1. rewrite code_get_ub by easy. reflexivity.
Qed.
Theorem uncertain_ub k sci o f (x : itv F) s : emax F <= 2 ^ 62 -> (m_precision f < 2 ^ 32)%N -> (exists r, mem r x) -> fst (write_any code_get (Some k) sci o f x s) = UB.
Proof.
  intros He Hp Ne. assert (W : wf x) by now right. unfold write_any. rewrite is_valid_wf, is_empty_wf, (mem_not_nan F x Ne) by easy. mreds. unfold bind at 1. now rewrite body_ub.
Qed.
Theorem uncertain_ub_dec k sci o f (x : ditv F) s : emax F <= 2 ^ 62 -> (m_precision f < 2 ^ 32)%N -> wf_dec x -> (exists r, mem r (fst x)) -> fst (write_ditv_any code_get (Some k) sci o f x s) = UB.
Proof.
  intros He Hp W Ne. unfold write_ditv_any. rewrite (is_valid_dec_wf x W), (is_nai_wf x W), (is_empty_dec_wf x W), (mem_not_nan F _ Ne).
  assert (D : snd x <> ill). { destruct W as [[H1 _]|[_ [H1 _]]]; [|easy]. destruct Ne as [r [H _]]. rewrite H1 in H. easy. }
  mreds. destruct (deq_spec (snd x) ill) as [|_]; [easy|]. mreds. set (f' := set_string_width _ f).
  pose proof (uncertain_ub k sci o f' (fst x) s He Hp Ne) as U. unfold bind at 1. destruct (write_any _ _ _ _ _ _ _) as [r' s']. cbn in U. now subst r'.
Qed.

(** ** The decimal form *)
Hypothesis Hs : small_fmt F.
Lemma stoll_written s p N : 0 <= N -> stoll (sign_text s ++ all_digits p N) = if (- llong_max - 1 <=? sg s * N) && (sg s * N <=? llong_max) then ret (sg s * N) else throw Out_of_range.
Proof. intros H. unfold stoll, sto. rewrite (strto_sign s _ N); [easy|now apply all_digits_numeral|apply all_digits_nonempty]. Qed.
Lemma stoll_fine s p N : 0 <= N -> Z.abs (sg s * N) <= 10 ^ 18 -> stoll (sign_text s ++ all_digits p N) = ret (sg s * N).
Proof. intros H B. rewrite stoll_written by easy. assert (_ && _ = true) as ->; [|easy]. apply andb_true_intro. split; apply Z.leb_le; unfold llong_max; lia. Qed.
Lemma stoll_limit s p N v st st' : 0 <= N -> stoll (sign_text s ++ all_digits p N) st = (Ret v, st') -> Z.abs (sg s * N) <= 2 ^ 63.
Proof. intros H. rewrite stoll_written by easy. destruct (_ && _) eqn:E; [|easy]. intros _. apply andb_prop in E. destruct E as [E1 E2]. apply Z.leb_le in E1, E2. unfold llong_max in *. lia. Qed.
Lemma lchk_ok {A} v (k : M A) : Z.abs v <= 4 * 10 ^ 18 -> lchk v k = k.
Proof. intros H. unfold lchk. assert (_ && _ = true) as ->; [|easy]. apply andb_true_intro. split; apply Z.leb_le; unfold llong_max; lia. Qed.

Definition scaled (p : nat) (x : float F) : R := (B2R x * bpow radix10 (Z.of_nat p))%R.
Lemma round_bound m r n : (Rabs r <= IZR n)%R -> Z.abs (round_mode m r) <= n.
Proof.
  intros H. apply Rabs_le_inv in H. pose proof (valid_rnd_round_mode m) as V.
  assert (round_mode m r <= n). { rewrite <- (@Zrnd_IZR (round_mode m) V n). apply (@Zrnd_le (round_mode m) V). lra. }
  assert (- n <= round_mode m r). { rewrite <- (@Zrnd_IZR (round_mode m) V (- n)). apply (@Zrnd_le (round_mode m) V). rewrite opp_IZR. lra. }
  lia.
Qed.
Lemma fixed_bound m p x s N e n : shaped F false m p x s N e -> (Rabs (scaled p x) <= IZR n)%R -> Z.abs (sg s * N) <= n.
Proof. intros Sh H. pose proof (fixed_exp F _ _ _ _ _ _ Sh). subst e. rewrite (fixed_val F _ _ _ _ _ Sh). now apply round_bound. Qed.
Lemma fixed_back m p x s N e n : shaped F false m p x s N e -> (IZR n < Rabs (scaled p x))%R -> n <= Z.abs (sg s * N).
Proof.
  intros Sh H. pose proof (fixed_exp F _ _ _ _ _ _ Sh). subst e. rewrite (fixed_val F _ _ _ _ _ Sh). fold (scaled p x). set (r := scaled p x) in *. pose proof (valid_rnd_round_mode m) as V.
  unfold Rabs in H. destruct (Rcase_abs r).
  - assert (round_mode m r <= - n); [|lia]. rewrite <- (@Zrnd_IZR (round_mode m) V (- n)). apply (@Zrnd_le (round_mode m) V). rewrite opp_IZR. lra.
  - assert (n <= round_mode m r); [|lia]. rewrite <- (@Zrnd_IZR (round_mode m) V n). apply (@Zrnd_le (round_mode m) V). lra.
Qed.
(** Setting out the form of a bounded interval. *)
Lemma body_bounded (get : mode -> number_rep -> N -> bool -> float F -> M text) (k : side) (sci : bool) (p0 : N) (up : bool) (x : itv F) : (exists r, mem r x) -> bounded_rep x ->
  let p := if (p0 =? 0)%N then 6%N else p0 in let r := if sci then r_scientific else r_decimal in forall st : est,
  uncertain_body get k sci p0 up x st =
   (tl <- get mode_DN r p up (fst x);
    tu <- get mode_UP r p up (snd x);
    res <- match k with
           | u_both => m <- n_mid x; tm <- get mode_NE r p up m; units_both p x tl tu tm
           | u_up => units_side true p x tl tu
           | u_down => units_side false p x tl tu
           end;
    let '(str, ulps, exp_str) := res in ret (str ++ txt "?" ++ to_string ulps ++ side_text k up ++ exp_str) : M text) st.
Proof.
  intros Ne [F1 F2] p r st. assert (W : wf x) by now right. unfold uncertain_body. fold p. fold r. rewrite is_entire_wf by easy. assert (feq (fst x) fminf = false) as -> by (destruct (fst x) as [|[]| |[]]; easy). mreds.
  assert (isinf (fst x) = false) as -> by now destruct (fst x). assert (isinf (snd x) = false) as -> by now destruct (snd x). reflexivity.
Qed.
Theorem decimal_returns k o f (x : itv F) : (exists r, mem r x) -> bounded_rep x ->
  (Rabs (scaled (digits_of (m_precision f)) (fst x)) <= 10 ^ 18)%R -> (Rabs (scaled (digits_of (m_precision f)) (snd x)) <= 10 ^ 18)%R ->
  exists t, returns (write_any ample_get (Some k) false o f x) t.
Proof.
  intros Ne Hb B1 B2. assert (W : wf x) by now right.
  assert (G : exists t0, forall st, uncertain_body ample_get k false (m_precision f) (o_upper_text o) x st = (Ret t0, st)).
  2: { destruct G as [t0 G]. eexists. intros st. unfold write_any. rewrite is_valid_wf, is_empty_wf, (mem_not_nan F x Ne) by easy. mreds. unfold bind at 1. rewrite G. reflexivity. }
  unfold digits_of in *. set (p := (if (m_precision f =? 0)%N then 6%N else m_precision f)) in *. assert (Hp0 : (p <> 0)%N) by (unfold p; destruct (N.eqb_spec (m_precision f) 0); lia). assert (Hp2 : (0 < N.to_nat p)%nat) by lia.
  destruct (number_shape F false (o_upper_text o) mode_DN (N.to_nat p) (fst x) (proj1 Hb) Hp2) as (sl & Nl & el & El & Hl). destruct (number_shape F false (o_upper_text o) mode_UP (N.to_nat p) (snd x) (proj2 Hb) Hp2) as (su & Nu & eu & Eu & Hu).
  destruct (mid_ok x Ne) as (m & Hm & Fm & Mm & _). destruct (number_shape F false (o_upper_text o) mode_NE (N.to_nat p) m Fm Hp2) as (sm & Nm & em & Em & Sm).
  assert (T : (10 ^ 18 = IZR (10 ^ 18))%R) by (replace (10 ^ 18)%Z with (Zpower_nat 10 18) by reflexivity; unfold Zpower_nat; cbn [nat_rect]; rewrite !mult_IZR; cbn [pow]; ring). rewrite T in *.
  assert (B3 : (Rabs (scaled (N.to_nat p) m) <= IZR (10 ^ 18))%R).
  { apply (bounded_mem F x (proj1 Hb) (proj2 Hb)) in Mm. pose proof (bpow_gt_0 radix10 (Z.of_nat (N.to_nat p))). apply Rabs_le_inv in B1, B2. apply Rabs_le. unfold scaled in *.
    assert (B2R (fst x) * bpow radix10 (Z.of_nat (N.to_nat p)) <= B2R m * bpow radix10 (Z.of_nat (N.to_nat p)))%R by (apply Rmult_le_compat_r; lra).
    assert (B2R m * bpow radix10 (Z.of_nat (N.to_nat p)) <= B2R (snd x) * bpow radix10 (Z.of_nat (N.to_nat p)))%R by (apply Rmult_le_compat_r; lra). lra. }
  pose proof (fixed_bound _ _ _ _ _ _ _ Hl B1) as Al. pose proof (fixed_bound _ _ _ _ _ _ _ Hu B2) as Au. pose proof (fixed_bound _ _ _ _ _ _ _ Sm B3) as Am.
  pose proof (sh_nonneg _ _ _ _ _ _ _ _ Hl) as Pl. pose proof (sh_nonneg _ _ _ _ _ _ _ _ Hu) as Pu. pose proof (sh_nonneg _ _ _ _ _ _ _ _ Sm) as Pm.
  pose proof (fixed_exp F _ _ _ _ _ _ Hl). pose proof (fixed_exp F _ _ _ _ _ _ Hu). pose proof (fixed_exp F _ _ _ _ _ _ Sm). subst el eu em. cbn [etext] in El, Eu, Em. rewrite app_nil_r in El, Eu, Em.
  assert (X : forall s N, exp_pos (mant s (N.to_nat p) N) = -1). { intros s N. pose proof (exp_pos_written s (N.to_nat p) N true None) as E. cbn [etext] in E. now rewrite app_nil_r in E. }
  assert (AT : forall (md : mode) (y : float F), ample_get md r_decimal p (o_upper_text o) y = ret (number_text c_f (o_upper_text o) md (Some (N.to_nat p)) y)) by (intros md y; exact (ample_text F md false p (o_upper_text o) y Hp0)).
  pose proof (body_bounded ample_get k false (m_precision f) (o_upper_text o) x Ne Hb) as BB. cbv zeta in BB. fold p in BB. cbn iota in BB. rewrite !AT in BB. rewrite El, Eu in BB. clearbody p.
  set (q := N.to_nat p) in *. assert (Ep : p = N.of_nat q) by (unfold q; lia). clearbody q.
  destruct k; eexists; intros st; rewrite BB; mreds.
  - unfold bind at 1 2. rewrite Hm. rewrite AT, Em. mreds. unfold units_both. rewrite !X. cbn [Z.leb Z.compare]. mreds. rewrite Ep, !no_point_mant. mreds. cbn [fst snd].
    rewrite !stoll_fine by easy. mreds. rewrite !lchk_ok by lia. unfold bind, ret. rewrite ?lchk_ok by lia. reflexivity.
  - unfold units_side. rewrite !X. cbn [Z.leb Z.compare]. mreds. rewrite ichk_ok by (cbn; lia). mreds. rewrite Ep, !no_point_mant. mreds. unfold align. cbn [Z.ltb Z.compare Z.opp Z.sub Z.add Z.to_nat spaces]. mreds. cbn [fst snd].
    change (spaces 0 "0") with (@nil ascii). rewrite app_nil_r. rewrite !stoll_fine by easy. mreds. rewrite !lchk_ok by lia. unfold bind, ret. rewrite ?lchk_ok by lia. reflexivity.
  - unfold units_side. rewrite !X. cbn [Z.leb Z.compare]. mreds. rewrite ichk_ok by (cbn; lia). mreds. rewrite Ep, !no_point_mant. mreds. unfold align. cbn [Z.ltb Z.compare Z.opp Z.sub Z.add Z.to_nat spaces]. mreds. cbn [fst snd].
    change (spaces 0 "0") with (@nil ascii). rewrite app_nil_r. rewrite !stoll_fine by easy. mreds. rewrite !lchk_ok by lia. unfold bind, ret. rewrite ?lchk_ok by lia. reflexivity.
Qed.
Theorem decimal_fails k o f (x : itv F) st t st' : (exists r, mem r x) -> bounded_rep x ->
  (10 ^ 19 < Rabs (scaled (digits_of (m_precision f)) (fst x)) \/ 10 ^ 19 < Rabs (scaled (digits_of (m_precision f)) (snd x)))%R ->
  write_any ample_get (Some k) false o f x st <> (Ret t, st').
Proof.
  intros Ne Hb B. assert (W : wf x) by now right. unfold write_any. rewrite is_valid_wf, is_empty_wf, (mem_not_nan F x Ne) by easy. mreds. intros H. apply bind_inv in H. destruct H as (t0 & s1 & H & _). revert H.
  unfold digits_of in *. set (p := (if (m_precision f =? 0)%N then 6%N else m_precision f)) in *. assert (Hp0 : (p <> 0)%N) by (unfold p; destruct (N.eqb_spec (m_precision f) 0); lia). assert (Hp2 : (0 < N.to_nat p)%nat) by lia.
  destruct (number_shape F false (o_upper_text o) mode_DN (N.to_nat p) (fst x) (proj1 Hb) Hp2) as (sl & Nl & el & El & Hl). destruct (number_shape F false (o_upper_text o) mode_UP (N.to_nat p) (snd x) (proj2 Hb) Hp2) as (su & Nu & eu & Eu & Hu).
  destruct (mid_ok x Ne) as (m & Hm & Fm & Mm & _). destruct (number_shape F false (o_upper_text o) mode_NE (N.to_nat p) m Fm Hp2) as (sm & Nm & em & Em & Sm).
  assert (T : (10 ^ 19 = IZR (10 ^ 19))%R) by (replace (10 ^ 19)%Z with (Zpower_nat 10 19) by reflexivity; unfold Zpower_nat; cbn [nat_rect]; rewrite !mult_IZR; cbn [pow]; ring). rewrite T in *.
  assert (A : 10 ^ 19 <= Z.abs (sg sl * Nl) \/ 10 ^ 19 <= Z.abs (sg su * Nu)) by (destruct B as [B|B]; [left; now apply (fixed_back _ _ _ _ _ _ _ Hl)|right; now apply (fixed_back _ _ _ _ _ _ _ Hu)]).
  pose proof (sh_nonneg _ _ _ _ _ _ _ _ Hl) as Pl. pose proof (sh_nonneg _ _ _ _ _ _ _ _ Hu) as Pu.
  pose proof (fixed_exp F _ _ _ _ _ _ Hl). pose proof (fixed_exp F _ _ _ _ _ _ Hu). pose proof (fixed_exp F _ _ _ _ _ _ Sm). subst el eu em. cbn [etext] in El, Eu, Em. rewrite app_nil_r in El, Eu, Em.
  assert (X : forall s N, exp_pos (mant s (N.to_nat p) N) = -1). { intros s N. pose proof (exp_pos_written s (N.to_nat p) N true None) as E. cbn [etext] in E. now rewrite app_nil_r in E. }
  assert (AT : forall (md : mode) (y : float F), ample_get md r_decimal p (o_upper_text o) y = ret (number_text c_f (o_upper_text o) md (Some (N.to_nat p)) y)) by (intros md y; exact (ample_text F md false p (o_upper_text o) y Hp0)).
  pose proof (body_bounded ample_get k false (m_precision f) (o_upper_text o) x Ne Hb) as BB. cbv zeta in BB. fold p in BB. cbn iota in BB. rewrite !AT in BB. rewrite El, Eu in BB. clearbody p.
  set (q := N.to_nat p) in *. assert (Ep : p = N.of_nat q) by (unfold q; lia). clearbody q.
  rewrite BB. mreds. intros H. apply bind_inv in H. destruct H as ([[str u] es] & s2 & H & _). revert H.
  assert (G : forall s' v, stoll (sign_text sl ++ all_digits q Nl) s' = (Ret v, s') -> forall s'' v', stoll (sign_text su ++ all_digits q Nu) s'' = (Ret v', s'') -> False).
  { intros s' v H1 s'' v' H2. apply stoll_limit in H1, H2; try easy. lia. }
  destruct k.
  - unfold bind at 1. rewrite Hm. rewrite AT, Em. mreds. unfold units_both. rewrite !X. cbn [Z.leb Z.compare]. mreds. rewrite Ep, !no_point_mant. mreds. cbn [fst snd].
    intros H. apply bind_inv in H. destruct H as (mv & s3 & A3 & H). apply bind_inv in H. destruct H as (lv & s4 & A4 & H).
    apply lchk_inv in H. destruct H as [H _]. apply lchk_inv in H. destruct H as [H _]. apply lchk_inv in H. destruct H as [H _]. apply lchk_inv in H. destruct H as [H _].
    apply bind_inv in H. destruct H as (uv & s5 & A5 & _). pose proof (proj1 (sto_inv _ _ _ _ _ A4)). pose proof (proj1 (sto_inv _ _ _ _ _ A5)). subst s4 s5. now apply (G _ _ A4 _ _ A5).
  - unfold units_side. rewrite !X. cbn [Z.leb Z.compare]. mreds. rewrite ichk_ok by (cbn; lia). mreds. rewrite Ep, !no_point_mant. mreds. unfold align. cbn [Z.ltb Z.compare Z.opp Z.sub Z.add Z.to_nat spaces]. mreds. cbn [fst snd].
    change (spaces 0 "0") with (@nil ascii). rewrite app_nil_r. intros H. apply bind_inv in H. destruct H as (lv & s4 & A4 & H). apply lchk_inv in H. destruct H as [H _].
    apply bind_inv in H. destruct H as (uv & s5 & A5 & _). pose proof (proj1 (sto_inv _ _ _ _ _ A4)). pose proof (proj1 (sto_inv _ _ _ _ _ A5)). subst s4 s5. now apply (G _ _ A4 _ _ A5).
  - unfold units_side. rewrite !X. cbn [Z.leb Z.compare]. mreds. rewrite ichk_ok by (cbn; lia). mreds. rewrite Ep, !no_point_mant. mreds. unfold align. cbn [Z.ltb Z.compare Z.opp Z.sub Z.add Z.to_nat spaces]. mreds. cbn [fst snd].
    change (spaces 0 "0") with (@nil ascii). rewrite app_nil_r. intros H. apply bind_inv in H. destruct H as (lv & s4 & A4 & H). apply lchk_inv in H. destruct H as [H _].
    apply bind_inv in H. destruct H as (uv & s5 & A5 & _). pose proof (proj1 (sto_inv _ _ _ _ _ A4)). pose proof (proj1 (sto_inv _ _ _ _ _ A5)). subst s4 s5. now apply (G _ _ A4 _ _ A5).
Qed.
(** The form of an interval without uncertain form is that of MPrint.v. *)
Theorem no_uncertain get sci o f (x : itv F) : write_any get None sci o f x = write_itv o f x. Proof. reflexivity. Qed.
Theorem no_uncertain_dec get sci o f (x : ditv F) s : wf_dec x -> write_ditv_any get None sci o f x s = write_ditv o f x s.
Proof.
  intros W. unfold write_ditv_any. rewrite (is_valid_dec_wf x W), (is_nai_wf x W). mreds. destruct (deq (snd x) ill) eqn:E; mreds; [easy|].
  unfold write_ditv. rewrite (is_valid_dec_wf x W), (is_nai_wf x W), E. mreds. reflexivity.
Qed.
End When.
