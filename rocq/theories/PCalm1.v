(** * Proofs: the reverse trigonometric functions return for all bounds of a narrow format

    The low 63 bits of the quotient of a large number by pi cannot be all ones: with at most 61
    digits the number is a multiple of 2^63 units in the last place of pi, and the remainder is
    at most pi / 2. *)
From Coq Require Import ZArith NArith Reals Bool Lra Lia List Classical.
From Flocq Require Import Core.Core IEEE754.BinarySingleNaN.
From Verif Require Import Fmt Spec FloatFacts Exc Deco SpecApi SpecElem SpecNum MBase PBase MBool MArith PArith PMul PUnary
  PConv PBool PSetop PElem MTrig PTrigR PTrig PTan PTrigT PDec PDecF PNum MRev SpecRev PRev PRevEven MTrigRev PTrigRev PTrigRev2 PTrigRev3 MMixed PMixed PRevW PCalm0 PTrigUB PValid SpecProg MDec MRev1 PCalm MProg SpecFar.
Local Open Scope R_scope.

Section T.
Context {F : fmt}.
Implicit Types x y z b c : itv F.
Local Notation base := (@base F).
Local Notation is_p := (@is_p F).

(** A number that is not small is a multiple of a power of two. *)
Lemma multiple (f : float F) j : is_finite f = true -> bpow radix2 j <= Rabs (B2R f) -> exists A, B2R f = IZR A * bpow radix2 (j + 1 - prec F).
Proof.
intros Ff H. destruct f as [s|s| |s m e Hb]; try discriminate.
- cbn [B2R] in H. rewrite Rabs_R0 in H. pose proof (bpow_gt_0 radix2 j). lra.
- cbn [B2R] in *.
  assert (D : (Z.pos m < 2 ^ prec F)%Z).
  { clear - Hb. pose proof (fmt_prec1 F). unfold SpecFloat.bounded in Hb. apply andb_true_iff in Hb. destruct Hb as [Hb _].
    unfold SpecFloat.canonical_mantissa in Hb. apply Zeq_bool_eq in Hb. rewrite Digits.Zpos_digits2_pos in Hb.
    unfold SpecFloat.fexp in Hb. change (Z.abs (Z.pos m) < Zpower radix2 (prec F))%Z. apply (Digits.Zpower_gt_Zdigits radix2). lia. }
  assert (E : (j + 1 - prec F <= e)%Z).
  { assert (L : bpow radix2 j < bpow radix2 (prec F + e)).
    { apply Rle_lt_trans with (1 := H). rewrite <- F2R_abs || rewrite <- F2R_Zabs. unfold F2R. cbn [Fnum Fexp].
      rewrite bpow_plus. apply Rmult_lt_compat_r; [apply bpow_gt_0|]. rewrite abs_cond_Zopp. cbn [Z.abs].
      rewrite <- (IZR_Zpower radix2) by (pose proof (fmt_prec1 F); lia). now apply IZR_lt. }
    apply lt_bpow in L. lia. }
  exists (SpecFloat.cond_Zopp s (Z.pos m) * 2 ^ (e - (j + 1 - prec F)))%Z. unfold F2R. cbn [Fnum Fexp].
  rewrite mult_IZR. change 2%Z with (radix_val radix2) at 1. rewrite IZR_Zpower by lia. rewrite Rmult_assoc, <- bpow_plus. do 2 f_equal. ring.
Qed.
Lemma p_multiple p : is_p p -> (prec F <= 61)%Z -> exists P, p = IZR P * bpow radix2 (2 - prec F) /\ (0 < P <= 2 ^ 61)%Z.
Proof.
intros Hp L. pose proof (is_p_bounds p Hp) as B. pose proof (fmt_prec1 F) as P1.
assert (X : exists P, p = IZR P * bpow radix2 (2 - prec F)).
{ replace (2 - prec F)%Z with (1 + 1 - prec F)%Z by ring. destruct Hp as [->| ->].
  - apply multiple; [|fold (@pid F); simpl; rewrite Rabs_pos_eq; lra].
    destruct (is_finite (@mpfr_const_pi F mode_DN)) eqn:E; [easy|]. exfalso. unfold pid in B. destruct (@mpfr_const_pi F mode_DN); try discriminate; cbn in B; lra.
  - apply multiple; [apply (@piu_fin F)|]. fold (@piu F). simpl. rewrite Rabs_pos_eq; lra. }
destruct X as (P & E). exists P. split; [exact E|]. pose proof (bpow_gt_0 radix2 (2 - prec F)) as G. split.
- apply lt_IZR. nra.
- apply le_IZR. change (2 ^ 61)%Z with (Zpower radix2 61). rewrite IZR_Zpower by lia.
  apply Rle_trans with (bpow radix2 (prec F)); [|apply bpow_le; lia].
  apply Rmult_le_reg_r with (1 := G). rewrite <- E, <- bpow_plus. replace (prec F + (2 - prec F))%Z with 2%Z by ring. simpl. lra.
Qed.
Lemma quo_narrow (f : float F) p : is_finite f = true -> (prec F <= 61)%Z -> is_p p ->
  let r := fst (remquo (B2R f) p) in let k := snd (remquo (B2R f) p) in
  Rabs r <= p / 2 /\ (Z.abs k <= 2 ^ 63 - 2)%Z /\ exists B, B2R f = IZR (2 ^ 63 * B + k) * p + r /\ (0 <= B * k)%Z /\ (k = 0%Z -> r <> 0 -> B = 0%Z).
Proof.
intros Ff L Hp. cbn zeta. unfold remquo. cbn [fst snd]. set (v := B2R f). set (q := ZnearestE (v / p)).
pose proof (is_p_bounds p Hp) as Bp.
assert (N : Rabs (v / p - IZR q) <= / 2) by apply Znearest_half.
assert (R : Rabs (v - IZR q * p) <= p / 2).
{ replace (v - IZR q * p) with ((v / p - IZR q) * p) by (field; lra). rewrite Rabs_mult, (Rabs_pos_eq p) by lra. nra. }
split; [exact R|].
pose proof (Z.quot_rem' q (2 ^ 63)) as Q. pose proof (Z.rem_bound_abs q (2 ^ 63) ltac:(easy)) as Rb. rewrite (Z.abs_eq (2 ^ 63)) in Rb by easy.
assert (Sg : (0 <= Z.quot q (2 ^ 63) * Z.rem q (2 ^ 63))%Z).
{ destruct (Z.le_ge_cases 0 q) as [G|G].
  - apply Z.mul_nonneg_nonneg; [apply Z.quot_pos; lia|apply Z.rem_nonneg; lia].
  - apply Z.mul_nonpos_nonpos; [|apply Z.rem_nonpos; lia]. rewrite <- (Z.opp_involutive q), Z.quot_opp_l by easy. pose proof (Z.quot_pos (- q) (2 ^ 63)). lia. }
set (k := Z.rem q (2 ^ 63)) in *. set (B := Z.quot q (2 ^ 63)) in *.
assert (K : (Z.abs k <= 2 ^ 63 - 2)%Z /\ (k = 0%Z -> v - IZR q * p <> 0 -> B = 0%Z)).
{ destruct (Rlt_or_le (Rabs v) (bpow radix2 64)) as [S|S].
  - assert (A : (Z.abs q <= 2 ^ 63 - 2)%Z).
    { apply le_IZR. rewrite abs_IZR. replace (IZR (2 ^ 63 - 2)) with (9223372036854775806) by reflexivity.
      assert (Rabs (v / p) <= Rabs v / 3).
      { unfold Rdiv. rewrite Rabs_mult, (Rabs_pos_eq (/ p)) by (left; apply Rinv_0_lt_compat; lra). apply Rmult_le_compat_l; [apply Rabs_pos|]. apply Rinv_le; lra. }
      replace (IZR q) with (v / p - (v / p - IZR q)) by ring. apply Rle_trans with (1 := Rabs_triang _ _). rewrite Rabs_Ropp.
      change (bpow radix2 64) with 18446744073709551616 in S. lra. }
    assert (Hz : B = 0%Z). { unfold B. apply Z.quot_small_iff; [easy|]. rewrite (Z.abs_eq (2 ^ 63)) by easy. lia. }
    split; [lia|easy].
  - destruct (p_multiple p Hp L) as (P & EP & HP). destruct (multiple f 64 Ff S) as (A & EA). fold v in EA.
    set (rho := (2 ^ 63 * A - q * P)%Z).
    assert (ER : v - IZR q * p = IZR rho * bpow radix2 (2 - prec F)).
    { unfold rho. rewrite minus_IZR, !mult_IZR, EA, EP. replace (64 + 1 - prec F)%Z with (63 + (2 - prec F))%Z by ring. rewrite bpow_plus.
      change (IZR (2 ^ 63)) with (bpow radix2 63). ring. }
    pose proof (bpow_gt_0 radix2 (2 - prec F)) as G.
    assert (Z2 : (2 * Z.abs rho <= P)%Z).
    { apply le_IZR. rewrite mult_IZR, abs_IZR. rewrite ER, Rabs_mult, (Rabs_pos_eq (bpow _ _)) in R by lra. rewrite EP in R. nra. }
    assert (E2 : rho = (2 ^ 63 * (A - B * P) - k * P)%Z) by (unfold rho; rewrite Q; ring).
    split.
    + destruct (Z.le_gt_cases (Z.abs k) (2 ^ 63 - 2)) as [H|H]; [exact H|exfalso].
      assert (k = 2 ^ 63 - 1 \/ k = 1 - 2 ^ 63)%Z as [Ek|Ek] by lia; rewrite Ek in E2.
      * assert (rho - P = 2 ^ 63 * (A - B * P - P))%Z by (rewrite E2; ring). lia.
      * assert (rho + P = 2 ^ 63 * (A - B * P + P))%Z by (rewrite E2; ring). lia.
    + intros Ek Nr. exfalso. apply Nr. rewrite ER. rewrite Ek in E2. assert (rho = 0)%Z by lia. rewrite H. lra. }
destruct K as [K1 K2]. split; [exact K1|]. exists B. split; [|split; [exact Sg|exact K2]]. rewrite <- Q. ring.
Qed.

(** ** A branch is a valid box *)
Lemma lchk_in {A} k (m : M A) : (-2 ^ 63 <= k <= 2 ^ 63 - 1)%Z -> lchk k m = m.
Proof. intros H. unfold lchk, in_long. destruct (Z.leb_spec (-2 ^ 63) k); [|lia]. destruct (Z.leb_spec k (2 ^ 63 - 1)); [easy|lia]. Qed.
Lemma tmp_sign k : ((0 <= k)%Z -> 0 <= @tmp_of F k) /\ ((k <= 0)%Z -> @tmp_of F k <= 0).
Proof.
assert (P : Prec_gt_0 (prec F)) by (pose proof (fmt_prec1 F); unfold Prec_gt_0; lia).
split; intros H; unfold tmp_of; rewrite <- (round_0 radix2 (FLX_exp (prec F)) ZnearestE); apply round_le; try apply FLX_exp_valid; try apply valid_rnd_N; try easy; now apply IZR_le.
Qed.
Lemma tmp_large k : (2 ^ prec F <= Z.abs k)%Z -> 2 <= Rabs (@tmp_of F k).
Proof.
intros H. pose proof (fmt_prec1 F). assert (P : Prec_gt_0 (prec F)) by (unfold Prec_gt_0; lia).
apply Rle_trans with (bpow radix2 (prec F)); [change 2 with (bpow radix2 1); apply bpow_le; lia|].
unfold tmp_of. apply abs_round_ge_generic; [apply FLX_exp_valid, P|apply valid_rnd_N| |].
- apply generic_format_bpow. unfold FLX_exp. lia.
- rewrite <- abs_IZR, <- (IZR_Zpower radix2) by lia. now apply IZR_le.
Qed.
Lemma plain_tmp kind a1 a2 cl cu m p (c : R) : base kind a1 a2 cl cu -> is_p p -> c = cl \/ c = cu -> mirr kind m = true ->
  @plain F (@tmp_of F (- eff kind m) * p + c).
Proof.
intros B Hp Hc Hm. destruct (Z.lt_ge_cases (Z.abs (- eff kind m)) (2 ^ prec F)) as [S|S].
- rewrite tmp_exact by easy. now apply plain_eff with a1 a2 cl cu.
- apply tmp_large in S. apply is_p_bounds in Hp. apply plain_one.
  assert (C : Rabs c <= 4).
  { pose proof (base_cases _ _ _ _ _ B) as D. destruct B as (_ & _ & _ & B). destruct D as [->|[->| ->]].
    - destruct B as (_ & _ & _ & B1 & B2). apply Rabs_le. destruct Hc; subst; lra.
    - destruct B as (_ & _ & _ & B1 & B2). apply Rabs_le. destruct Hc; subst; lra.
    - destruct B as (_ & _ & B1 & B2 & _). pose proof (@pid_ok F). pose proof pi34. apply Rabs_le. destruct Hc; subst; lra. }
  set (t := @tmp_of F (- eff kind m)) in *. assert (6 <= Rabs (t * p)) by (rewrite Rabs_mult, (Rabs_pos_eq p) by lra; nra).
  pose proof (Rabs_triang_inv (t * p) (- c)) as T. rewrite Rabs_Ropp in T. unfold Rminus in T. rewrite Ropp_involutive in T. lra.
Qed.
Lemma branch_wf kind a1 a2 pl pu cl cu n d : base kind a1 a2 cl cu -> is_p pl -> is_p pu ->
  (Z.abs n <= 2 ^ 63 - 1)%Z -> (-2 ^ 63 <= n + d <= 2 ^ 63 - 1)%Z -> (Z.abs d <= 1)%Z ->
  ((0 <= eff kind (n + d))%Z /\ pl <= pu) \/ ((eff kind (n + d) <= 0)%Z /\ pu <= pl) ->
  exists b, branch kind pl pu cl cu n d = ret b /\ wf b.
Proof.
intros B Hpl Hpu Hn Hm Hd Hs. pose proof (base_cases _ _ _ _ _ B) as D.
assert (O : (0 <= off kind <= 1)%Z) by (destruct D as [->|[->| ->]]; cbn; lia).
assert (C : cl <= cu) by (destruct B as (B1 & B2 & B3 & _); lra).
unfold branch. rewrite lchk_in by lia.
assert (MV : mirr kind (n + d) = false -> wf (@moved F pl pu cl cu (n + d))).
{ intros Em. unfold eff in Hs. rewrite Em in Hs. pose proof (tmp_sign (n + d)) as [T1 T2]. unfold moved.
  apply wf_between with (v := @tmp_of F (n + d) * pl + cl) (w := @tmp_of F (n + d) * pu + cu); [apply get_lb| |apply get_ub].
  destruct Hs as [[H1 H2]|[H1 H2]]; [specialize (T1 H1)|specialize (T2 H1)]; nra. }
assert (MR : mirr kind (n + d) = true -> wf (@mirrored F pl pu cl cu (- n - d - off kind))).
{ intros Em. pose proof (plain_tmp _ _ _ _ _ _ pl cu B Hpl (or_intror eq_refl) Em) as P1.
  pose proof (plain_tmp _ _ _ _ _ _ pu cl B Hpu (or_introl eq_refl) Em) as P2.
  unfold eff in *. rewrite Em in *. replace (- n - d - off kind)%Z with (- (n + d + off kind))%Z by ring.
  set (e := (n + d + off kind)%Z) in *. pose proof (tmp_sign (- e)) as [T1 T2]. unfold mirrored.
  apply wf_between with (v := - (@tmp_of F (- e) * pl + cu)) (w := - (@tmp_of F (- e) * pu + cl)).
  - apply lb_fneg. rewrite Ropp_involutive. now apply get_ub'.
  - destruct Hs as [[H1 H2]|[H1 H2]]; [specialize (T2 ltac:(lia))|specialize (T1 ltac:(lia))]; nra.
  - apply ub_fneg. rewrite Ropp_involutive. now apply get_lb'. }
destruct kind as [o|].
- unfold mirr, off in *. destruct (Z.even (n + d)) eqn:Ev.
  + eexists. split; [reflexivity|]. now apply MV.
  + assert (n + d <> -2 ^ 63)%Z by (intros E; rewrite E in Ev; discriminate).
    rewrite !lchk_in by lia. eexists. split; [reflexivity|]. now apply MR.
- eexists. split; [reflexivity|]. now apply MV.
Qed.

(** ** The boxes of the two bounds *)
Lemma quo_sign B k p v r : 3 <= p <= 4 -> v = IZR (2 ^ 63 * B + k) * p + r -> Rabs r <= p / 2 -> (0 <= B * k)%Z -> (Z.abs k <= 2 ^ 63 - 2)%Z ->
  (v <= 0 -> (k <= 0)%Z) /\ (0 <= v -> (0 <= k)%Z).
Proof.
intros Hp E Hr Hs Hk. apply Rabs_le_inv in Hr. set (q := (2 ^ 63 * B + k)%Z) in *. split; intros Hv.
- assert (q < 1)%Z by (apply lt_IZR; nra). destruct (Z.le_gt_cases k 0) as [H0|H0]; [easy|exfalso]. assert (0 <= B)%Z by nia. unfold q in H. lia.
- assert (-1 < q)%Z by (apply lt_IZR; nra). destruct (Z.le_gt_cases 0 k) as [H0|H0]; [easy|exfalso]. assert (B <= 0)%Z by nia. unfold q in H. lia.
Qed.
Definition far (v : R) : Prop := exists B, (0 < B)%Z /\ v = IZR (2 ^ 63 * B) * @pid F.
Lemma pid_piu : @pid F <= @piu F. Proof. pose proof (@pid_ok F). pose proof (@piu_ok F). lra. Qed.
Lemma left_narrow kind a1 a2 cl cu x : (prec F <= 61)%Z -> base kind a1 a2 cl cu -> wf x -> is_finite (fst x) = true -> ~ far (- B2R (fst x)) ->
  exists z, left_box kind cl cu x = ret z /\ wf z.
Proof.
intros L B Wx Fx Hf. unfold left_box.
assert (E1 : feq (fst x) fminf = false). { destruct (fst x) as [| | |]; easy. } rewrite E1. clear E1.
assert (N : flt (fst x) f0 = true <-> B2R (fst x) < 0).
{ rewrite flt_fin by easy. change (B2R f0) with 0. case Rlt_bool_spec; split; intros; try easy; lra. }
set (neg := flt (fst x) f0) in *. set (p := if neg then @pid F else @piu F). set (pl := if neg then @piu F else @pid F).
assert (Hp : is_p p) by (unfold p, is_p; destruct neg; tauto). assert (Hpl : is_p pl) by (unfold pl, is_p; destruct neg; tauto).
pose proof (is_p_bounds _ Hp) as Bp. destruct (quo_narrow (fst x) p Fx L Hp) as (Hr & Hk & Bq & Ev & Sg & Ze). cbn zeta.
set (rq := remquo (B2R (fst x)) p) in *. destruct rq as [r k]. cbn [fst snd] in *.
pose proof (quo_sign Bq k p _ r Bp Ev Hr Sg Hk) as [S1 S2].
set (n := if Rlt_bool r 0 then (k - 1)%Z else k).
assert (S : (neg = true /\ (- 2 ^ 63 + 1 <= n <= -1)%Z) \/ (neg = false /\ (0 <= n <= 2 ^ 63 - 2)%Z)).
{ unfold n. destruct neg eqn:En.
  - left. split; [easy|]. assert (V : B2R (fst x) < 0) by now apply N. specialize (S1 ltac:(lra)). case Rlt_bool_spec; intros Hr0; [lia|].
    destruct (Z.eq_dec k 0) as [Ek|Ek]; [exfalso|lia]. destruct (Req_dec r 0) as [R0|R0].
    + apply Hf. exists (- Bq)%Z. rewrite Ek, R0, Z.add_0_r in Ev. split.
      * apply lt_IZR. apply Rmult_lt_reg_r with (IZR (2 ^ 63)); [apply IZR_lt; lia|]. rewrite <- !mult_IZR. replace (- Bq * 2 ^ 63)%Z with (- (2 ^ 63 * Bq))%Z by ring. rewrite opp_IZR. simpl (0 * 2 ^ 63)%Z. nra.
      * rewrite Ev. replace (2 ^ 63 * - Bq)%Z with (- (2 ^ 63 * Bq))%Z by ring. rewrite opp_IZR. unfold p. ring.
    + specialize (Ze Ek R0). rewrite Ze, Ek in Ev. simpl (2 ^ 63 * 0 + 0)%Z in Ev. lra.
  - right. split; [easy|]. assert (V : 0 <= B2R (fst x)). { apply Rnot_lt_le. intros H. now apply N in H. } specialize (S2 V). case Rlt_bool_spec; intros Hr0; [|lia].
    destruct (Z.eq_dec k 0) as [Ek|Ek]; [exfalso|lia]. specialize (Ze Ek ltac:(lra)). rewrite Ze, Ek in Ev. simpl (2 ^ 63 * 0 + 0)%Z in Ev. lra. }
assert (Of : (0 <= off kind <= 1)%Z). { destruct (base_cases _ _ _ _ _ B) as [->|[->| ->]]; cbn; lia. }
rewrite lchk_in by lia. pose proof pid_piu as PP.
assert (T : forall m, (n <= m <= n + 1)%Z -> ((0 <= eff kind m)%Z /\ pl <= p) \/ ((eff kind m <= 0)%Z /\ p <= pl)).
{ intros m Hm. unfold pl, p. destruct S as [[-> S]|[-> S]].
  - right. split; [|easy]. unfold eff. destruct (mirr kind m) eqn:Em; [|lia]. assert (m <> 0)%Z by (intros ->; now destruct kind). lia.
  - left. split; [|easy]. unfold eff; destruct mirr; lia. }
destruct (branch_wf kind a1 a2 pl p cl cu n 0 B) as (b0 & E0 & W0); try easy; try lia.
{ apply T. lia. }
destruct (branch_wf kind a1 a2 pl p cl cu n 1 B) as (b1 & E1' & W1); try easy; try lia.
{ apply T. lia. }
rewrite E0, E1'. destruct (try_two_in b0 b1 x W0 W1 Wx) as (z & Ez & Wz & _). now exists z.
Qed.
Lemma right_narrow kind up a1 a2 cl cu x : (prec F <= 61)%Z -> base kind a1 a2 cl cu -> wf x -> is_finite (snd x) = true ->
  (kind <> Some 1%Z -> ~ far (B2R (snd x))) -> up = (match kind with Some 1%Z => false | _ => true end) ->
  exists z, right_box kind up cl cu x = ret z /\ wf z.
Proof.
intros L B Wx Fx Hf Hup. unfold right_box.
assert (E1 : feq (snd x) finf = false). { destruct (snd x) as [| | |]; easy. } rewrite E1. clear E1.
assert (N : fgt (snd x) f0 = true <-> 0 < B2R (snd x)).
{ change (fgt (snd x) f0) with (flt f0 (snd x)). rewrite flt_fin by easy. change (B2R f0) with 0. case Rlt_bool_spec; split; intros; try easy; lra. }
set (pos := fgt (snd x) f0) in *. set (p := if pos then @pid F else @piu F). set (pu := if pos then @piu F else @pid F).
assert (Hp : is_p p) by (unfold p, is_p; destruct pos; tauto). assert (Hpu : is_p pu) by (unfold pu, is_p; destruct pos; tauto).
pose proof (is_p_bounds _ Hp) as Bp. destruct (quo_narrow (snd x) p Fx L Hp) as (Hr & Hk & Bq & Ev & Sg & Ze). cbn zeta.
set (rq := remquo (B2R (snd x)) p) in *. destruct rq as [r k]. cbn [fst snd] in *.
pose proof (quo_sign Bq k p _ r Bp Ev Hr Sg Hk) as [S1 S2].
assert (Ofu : (up = true /\ off kind = 0 /\ kind <> Some 1)%Z \/ (up = false /\ off kind = 1 /\ kind = Some 1)%Z). { destruct (base_cases _ _ _ _ _ B) as [->|[->| ->]]; subst up; cbn; intuition easy. }
set (n := if up then _ else _).
assert (S : (pos = true /\ (if up then 1 <= n else 0 <= n)%Z /\ (n <= 2 ^ 63 - 1)%Z) \/ (pos = false /\ (- 2 ^ 63 + 1 <= n <= 0)%Z)).
{ unfold n. destruct pos eqn:En.
  - left. split; [easy|]. assert (V : 0 < B2R (snd x)) by now apply N. specialize (S2 ltac:(lra)).
    destruct Ofu as [(-> & O & K)|(-> & O & K)]; (case Rlt_bool_spec; intros Hr0; try lia); (destruct (Z.eq_dec k 0) as [Ek|Ek]; [exfalso|lia]).
    + destruct (Req_dec r 0) as [R0|R0].
      * apply (Hf K). exists Bq. rewrite Ek, R0, Z.add_0_r in Ev. split; [|rewrite Ev; unfold p; ring].
        apply lt_IZR. apply Rmult_lt_reg_r with (IZR (2 ^ 63)); [apply IZR_lt; lia|]. rewrite <- !mult_IZR. replace (Bq * 2 ^ 63)%Z with (2 ^ 63 * Bq)%Z by ring. simpl (0 * 2 ^ 63)%Z. nra.
      * specialize (Ze Ek R0). rewrite Ze, Ek in Ev. simpl (2 ^ 63 * 0 + 0)%Z in Ev. lra.
    + specialize (Ze Ek ltac:(lra)). rewrite Ze, Ek in Ev. simpl (2 ^ 63 * 0 + 0)%Z in Ev. lra.
  - right. split; [easy|]. assert (V : B2R (snd x) <= 0). { apply Rnot_lt_le. intros H. now apply N in H. } specialize (S1 V).
    destruct Ofu as [(-> & O & K)|(-> & O & K)]; (case Rlt_bool_spec; intros Hr0; try lia).
    destruct (Z.eq_dec k 0) as [Ek|Ek]; [exfalso|lia]. specialize (Ze Ek ltac:(lra)). rewrite Ze, Ek in Ev. simpl (2 ^ 63 * 0 + 0)%Z in Ev. lra. }
rewrite lchk_in by (destruct up; lia). pose proof pid_piu as PP. clearbody n.
assert (T : forall m, (n + -1 <= m <= n)%Z -> ((0 <= eff kind m)%Z /\ p <= pu) \/ ((eff kind m <= 0)%Z /\ pu <= p)).
{ intros m Hm. unfold pu, p. destruct S as [(-> & S & _)|[-> S]].
  - left. split; [|easy]. unfold eff. destruct Ofu as [(-> & O & _)|(-> & O & ->)]; rewrite ?O; [destruct mirr; lia|]. destruct (mirr (Some 1%Z) m) eqn:Em; [lia|].
    assert (m <> -1)%Z by (intros ->; easy). lia.
  - right. split; [|easy]. unfold eff. destruct (mirr kind m) eqn:Em; [|lia]. assert (m <> 0)%Z by (intros ->; now destruct kind). lia. }
destruct (branch_wf kind a1 a2 p pu cl cu n 0 B) as (b0 & E0 & W0); try easy; try (destruct up; lia).
{ apply T. lia. }
destruct (branch_wf kind a1 a2 p pu cl cu n (-1) B) as (b1 & E1' & W1); try easy; try (destruct up; lia).
{ apply T. lia. }
rewrite E0, E1'. destruct (try_two_in b0 b1 x W0 W1 Wx) as (z & Ez & Wz & _). now exists z.
Qed.
Definition near x : Prop := (is_finite (fst x) = true -> ~ far (- B2R (fst x))) /\ (is_finite (snd x) = true -> ~ far (B2R (snd x))).
Lemma two_narrow kind a1 a2 cl cu x : (prec F <= 61)%Z -> base kind a1 a2 cl cu -> wf x -> isnan (fst x) = false ->
  (is_finite (fst x) = true -> ~ far (- B2R (fst x))) -> (kind <> Some 1%Z -> is_finite (snd x) = true -> ~ far (B2R (snd x))) ->
  exists z, two_boxes kind (match kind with Some 1%Z => false | _ => true end) cl cu x = ret z /\ wf z.
Proof.
intros L B Wx Nx M1 M2. destruct (wf_nonnan x Wx Nx) as [r0 Hr0]. set (up := match kind with Some 1%Z => false | _ => true end).
assert (HL : exists z, left_box kind cl cu x = ret z /\ wf z).
{ destruct (is_finite (fst x)) eqn:Fx.
  - apply left_narrow with a1 a2; auto.
  - assert (E : fst x = fminf). { destruct Hr0 as [Hr0 _]. destruct (fst x) as [|[]| |]; easy. }
    exists (fminf, fneg fmaxv). unfold left_box. rewrite E. split; [easy|].
    right. exists (Rmin 0 (- B2R (@fmaxv F))). split; [easy|]. cbn [snd]. apply ub_fneg. rewrite lb_fin by apply is_finite_fmaxv.
    pose proof (Rmin_r 0 (- B2R (@fmaxv F))). lra. }
assert (HR : exists z, right_box kind up cl cu x = ret z /\ wf z).
{ destruct (is_finite (snd x)) eqn:Fx.
  - apply right_narrow with a1 a2; auto.
  - assert (E : snd x = finf). { destruct Hr0 as [_ Hr0]. destruct (snd x) as [|[]| |]; easy. }
    exists (fmaxv, finf). unfold right_box. rewrite E. split; [easy|].
    right. exists (Rmax 0 (B2R (@fmaxv F))). split; [|easy]. cbn [fst]. rewrite lb_fin by apply is_finite_fmaxv. apply Rmax_r. }
destruct HL as (l & El & Wl), HR as (r & Er & Wr).
unfold two_boxes. rewrite El, Er. mreds.
destruct (hull_tightest l r Wl Wr) as (z & Ez & T). exists z. apply returns_eq in Ez. split; [easy|]. now apply tightest_wf in T.
Qed.
Lemma sin_rev_narrow c x : (prec F <= 61)%Z -> near x -> wf c -> wf x -> gives (sin_rev c x) wf.
Proof.
intros L [N1 N2] Wc Wx. unfold sin_rev. rewrite !is_valid_wf, !is_empty_wf by easy. mreds.
destruct (isnan (fst x)) eqn:Ex; mreds; [apply gives_ret; now left|].
destruct (intersection_exact c (fm1, f1) Wc unit_wf) as (cc & Ec & Wcc & Hcc). rewrite Ec. mreds. rewrite is_empty_wf by easy. mreds.
destruct (isnan (fst cc)) eqn:En; mreds; [now apply gives_ret|].
destruct (unit_part c cc Wcc En Hcc) as (F1 & F2 & B1 & B2 & B3).
destruct (equal_decides cc (fm1, f1) Wcc unit_wf) as (e & Ee & _). apply returns_eq in Ee. rewrite Ee. mreds. destruct e; mreds; [now apply gives_ret|].
destruct (two_narrow _ _ _ _ _ x L (base_sin _ _ B1 B2 B3) Wx Ex N1 (fun _ => N2)) as (z & Ez & Wz). cbv beta iota in Ez. rewrite Ez. now apply gives_ret.
Qed.
Lemma tan_rev_narrow c x : (prec F <= 61)%Z -> near x -> wf c -> wf x -> gives (tan_rev c x) wf.
Proof.
intros L [N1 N2] Wc Wx. unfold tan_rev. rewrite !is_valid_wf, !is_empty_wf by easy. mreds.
destruct (isnan (fst c)) eqn:Ec; mreds; [apply gives_ret; now left|].
destruct (isnan (fst x)) eqn:Ex; mreds; [apply gives_ret; now left|].
destruct (wf_nonnan c Wc Ec) as [r [R1 R2]]. pose proof (atan_of_lb _ _ R1). pose proof (atan_of_ub _ _ R2).
assert (B : base None (atan_of (fst c)) (atan_of (snd c)) (@raw F mode_DN (atan_of (fst c))) (@raw F mode_UP (atan_of (snd c)))).
{ apply base_tan; try apply atan_of_bounds. lra. }
destruct (two_narrow _ _ _ _ _ x L B Wx Ex N1 (fun _ => N2)) as (z & Ez & Wz). cbv beta iota in Ez. rewrite Ez. now apply gives_ret.
Qed.
Lemma cos_rev_narrow c x : (prec F <= 61)%Z -> (is_finite (fst x) = true -> ~ far (- B2R (fst x))) -> wf c -> wf x -> gives (cos_rev c x) wf.
Proof.
intros L N1 Wc Wx. unfold cos_rev. rewrite !is_valid_wf, !is_empty_wf by easy. mreds.
destruct (isnan (fst x)) eqn:Ex; mreds; [apply gives_ret; now left|].
destruct (intersection_exact c (fm1, f1) Wc unit_wf) as (cc & Ec & Wcc & Hcc). rewrite Ec. mreds. rewrite is_empty_wf by easy. mreds.
destruct (isnan (fst cc)) eqn:En; mreds; [now apply gives_ret|].
destruct (unit_part c cc Wcc En Hcc) as (F1 & F2 & B1 & B2 & B3).
destruct (equal_decides cc (fm1, f1) Wcc unit_wf) as (e & Ee & _). apply returns_eq in Ee. rewrite Ee. mreds. destruct e; mreds; [now apply gives_ret|].
destruct (two_narrow _ _ _ _ _ x L (base_cos _ _ F1 F2 B1 B2 B3) Wx Ex N1) as (z & Ez & Wz); [now intros []|]. cbv beta iota in Ez. rewrite Ez. now apply gives_ret.
Qed.
(** The specification's multiples. *)
Lemma pid_trunc : trunc_pi F (@pid F).
Proof.
destruct (@pi_fin F) as [P1 P2]. split; [now exists (@mpfr_const_pi F mode_DN)|]. split; [apply P2|].
intros f Ff Hf. pose proof (rround_RD false PI : is_RD PI (@mpfr_const_pi F mode_DN)) as [_ H].
specialize (H f). rewrite lb_fin in H by easy. specialize (H Hf (@pid F)). rewrite !lb_fin in H by easy. apply H. apply Rle_refl.
Qed.
Lemma apart_near x : apart F x -> near x.
Proof.
intros H. split.
- intros Fx (B & HB & E). destruct (H (@pid F) B pid_trunc HB) as [H1 _]. apply (H1 Fx). lra.
- intros Fx (B & HB & E). destruct (H (@pid F) B pid_trunc HB) as [_ H1]. now apply (H1 Fx).
Qed.
End T.

(** ** All of them *)
Lemma apart_ext (W : fmt) {F G} (x : itv F) (y : itv G) : (exists r, mem r x) -> (forall r, mem r x <-> mem r y) -> apart W x -> apart W y.
Proof.
intros [r0 R0] H HA p B Tp HB. destruct (HA p B Tp HB) as [M1 M2]. clear HA Tp HB. revert M1 M2. generalize (IZR (2 ^ 63 * B) * p). clear p B. intros v M1 M2.
pose proof (proj1 (H r0) R0) as R1. destruct x as [a b], y as [c d]. destruct R0 as [A1 A2], R1 as [B1 B2]. cbn [fst snd] in *. split; intros Fi.
- rewrite lb_fin in B1 by easy. assert (Mc : mem (B2R c) (a, b)). { apply H. split; cbn [fst snd]; [rewrite lb_fin by easy; lra|now apply ub_mono with r0]. }
  destruct Mc as [C1 _]. cbn [fst] in C1. destruct (fviewP a) as [ | | |a Fa]; try easy.
  + assert (K : mem (B2R c - 1) (c, d)). { apply H. split; [easy|]. cbn [snd]. apply ub_mono with r0; [easy|lra]. }
    destruct K as [K _]. cbn [fst] in K. rewrite lb_fin in K by easy. lra.
  + assert (K : mem (B2R a) (c, d)). { apply H. rewrite lb_fin in A1 by easy. split; cbn [fst snd]; [rewrite lb_fin by easy; lra|now apply ub_mono with r0]. }
    destruct K as [K _]. cbn [fst] in K. rewrite lb_fin in K by easy. rewrite lb_fin in C1 by easy. replace (B2R c) with (B2R a) by lra. auto.
- rewrite ub_fin in B2 by easy. assert (Mc : mem (B2R d) (a, b)). { apply H. split; cbn [fst snd]; [now apply lb_mono with r0|rewrite ub_fin by easy; lra]. }
  destruct Mc as [_ C1]. cbn [snd] in C1. destruct (fviewP b) as [ | | |b Fb]; try easy.
  + assert (K : mem (B2R d + 1) (c, d)). { apply H. split; [|easy]. cbn [fst]. apply lb_mono with r0; [easy|lra]. }
    destruct K as [_ K]. cbn [snd] in K. rewrite ub_fin in K by easy. lra.
  + assert (K : mem (B2R b) (c, d)). { apply H. rewrite ub_fin in A2 by easy. split; cbn [fst snd]; [now apply lb_mono with r0|rewrite ub_fin by easy; lra]. }
    destruct K as [_ K]. cbn [snd] in K. rewrite ub_fin in K by easy. rewrite ub_fin in C1 by easy. replace (B2R d) with (B2R b) by lra. auto.
Qed.
Lemma pmax_either (P : fmt -> Prop) F G : P F -> P G -> P (pmax F G).
Proof. intros H1 H2. unfold pmax. now destruct Z.ltb. Qed.
(** The widest of the three types, in which the calculation is done. *)
Lemma trig_mixed_narrow {F G} T (op : forall W, itv W -> itv W -> M (itv W)) (c : itv F) (x : itv G) :
  comparable T F -> comparable T G -> comparable F G -> wf c -> wf x ->
  (prec (pmax (pmax T F) G) <= 61)%Z -> apart (pmax (pmax T F) G) x ->
  (forall W (c x : itv W), (prec W <= 61)%Z -> apart W x -> wf c -> wf x -> gives (op W c x) wf) ->
  gives (rev_mixed2 T op c x) wf.
Proof.
intros C1 C2 C3 Wc Wx L Ap Hop. destruct (within_pmax3 T F G C1 C2 C3) as (A & B & C).
unfold rev_mixed2. cbv zeta. set (W := pmax (pmax T F) G) in *. rewrite !is_valid_wf, !is_empty_wf by easy. mreds.
destruct (isnan (fst c)) eqn:Ec; mreds; [apply gives_ret; now left|].
destruct (isnan (fst x)) eqn:Ex; mreds; [apply gives_ret; now left|].
assert (Ex' : forall r, mem r (convert_hull W x) <-> mem r x) by exact (convert_hull_exact W x C Wx).
assert (Ap' : apart W (convert_hull W x)). { apply (apart_ext W x); [now apply wf_nonnan| |easy]. intros r. now rewrite Ex'. }
destruct (Hop W (convert_hull W c) (convert_hull W x) L Ap' (wf_convert_hull W c Wc) (wf_convert_hull W x Wx)) as (z & H1 & Wz).
apply returns_eq in H1. rewrite H1. mreds. apply gives_ret. now apply wf_convert_hull.
Qed.
Section All.
Variables F G T : fmt.
Hypotheses (C1 : comparable T F) (C2 : comparable T G) (C3 : comparable F G) (LF : (prec F <= 61)%Z) (LG : (prec G <= 61)%Z) (LT : (prec T <= 61)%Z).
Lemma prec3 : (prec (pmax (pmax T F) G) <= 61)%Z.
Proof. now repeat apply (pmax_either (fun W => (prec W <= 61)%Z)). Qed.
Lemma apart3 (x : itv G) : apart T x -> apart F x -> apart G x -> apart (pmax (pmax T F) G) x.
Proof. intros H1 H2 H3. now repeat apply (pmax_either (fun W => apart W x)). Qed.
End All.
Lemma sin_n W (c x : itv W) : (prec W <= 61)%Z -> apart W x -> wf c -> wf x -> gives (sin_rev c x) wf.
Proof. intros L A Wc Wx. apply sin_rev_narrow; try easy. now apply apart_near. Qed.
Lemma cos_n W (c x : itv W) : (prec W <= 61)%Z -> apart W x -> wf c -> wf x -> gives (cos_rev c x) wf.
Proof. intros L A Wc Wx. apply cos_rev_narrow; try easy. now apply apart_near. Qed.
Lemma tan_n W (c x : itv W) : (prec W <= 61)%Z -> apart W x -> wf c -> wf x -> gives (tan_rev c x) wf.
Proof. intros L A Wc Wx. apply tan_rev_narrow; try easy. now apply apart_near. Qed.
Lemma bint_narrow F G T f : bint F G T f -> comparable T F -> comparable T G -> comparable F G -> (prec F <= 61)%Z -> (prec G <= 61)%Z -> (prec T <= 61)%Z ->
  forall c x, apart T x -> apart F x -> apart G x -> wf c -> wf x -> gives (f c x) wf.
Proof.
destruct 1; intros C1 C2 C3 LF LG LT c x A1 A2 A3 Wc Wx.
- now apply sin_n.
- apply (trig_mixed_narrow T (@sin_rev)); try easy; [now apply prec3|now apply apart3|apply sin_n].
- now apply cos_n.
- apply (trig_mixed_narrow T (@cos_rev)); try easy; [now apply prec3|now apply apart3|apply cos_n].
- now apply tan_n.
- apply (trig_mixed_narrow T (@tan_rev)); try easy; [now apply prec3|now apply apart3|apply tan_n].
Qed.
Lemma dbint_narrow F G T f : dbint F G T f -> comparable T F -> comparable T G -> comparable F G -> (prec F <= 61)%Z -> (prec G <= 61)%Z -> (prec T <= 61)%Z ->
  forall c x, apart T (fst x) -> apart F (fst x) -> apart G (fst x) -> valid_dec c -> valid_dec x -> gives (f c x) valid_dec.
Proof.
destruct 1; intros C1 C2 C3 LF LG LT c x A1 A2 A3 Wc Wx.
- apply rev_dec2_one; try easy. apply sin_n; try easy; now apply vd_wf.
- apply rev_mixed_dec2_one; try easy. apply (trig_mixed_narrow T (@sin_rev)); try easy; try (now apply vd_wf); [now apply prec3|now apply apart3|apply sin_n].
- apply rev_dec2_one; try easy. apply cos_n; try easy; now apply vd_wf.
- apply rev_mixed_dec2_one; try easy. apply (trig_mixed_narrow T (@cos_rev)); try easy; try (now apply vd_wf); [now apply prec3|now apply apart3|apply cos_n].
- apply rev_dec2_one; try easy. apply tan_n; try easy; now apply vd_wf.
- apply rev_mixed_dec2_one; try easy. apply (trig_mixed_narrow T (@tan_rev)); try easy; try (now apply vd_wf); [now apply prec3|now apply apart3|apply tan_n].
Qed.
