(** * Proofs: the error-free sum *)
From Coq Require Import ZArith NArith Reals Bool Lia Lra.
From Flocq Require Import Core.Core IEEE754.BinarySingleNaN Pff.Pff2Flocq.
From Verif Require Import Fmt Spec FloatFacts Exc Deco SpecApi MBase PBase MBool MArith PArith SpecCancel MCancel.
Local Open Scope R_scope.

Ltac abs_lra :=
  repeat match goal with H : context [Rabs _] |- _ => revert H end; unfold Rabs;
  repeat match goal with |- context [Rcase_abs ?x] => destruct (Rcase_abs x) end; intros; lra.

Section T.
Context {F : fmt}.
Notation RN := (round radix2 (fexp F) ZnearestE).
Notation fmtd := (generic_format radix2 (fexp F)).
Notation MM := (bpow radix2 (emax F)).
Notation uu := (bpow radix2 (emax F - prec F)).
Notation OO := (B2R (@fmaxv F)).

Local Instance vexp : Valid_exp (fexp F) := FLT_exp_valid _ _.
Local Instance mexp : Monotone_exp (fexp F) := FLT_exp_monotone _ _.

Lemma fexp_eq e : fexp F e = Z.max (e - prec F) (emin F).
Proof. reflexivity. Qed.
Lemma emin_small : (emin F <= emax F - prec F - 1)%Z.
Proof. pose proof (fmt_prec1 F). pose proof (fmt_emax F). unfold emin. lia. Qed.
Lemma OO_eq : OO = MM - uu. Proof. apply B2R_fmaxv. Qed.
Lemma uu_pos : 0 < uu. Proof. apply bpow_gt_0. Qed.
Lemma uu_le : 4 * uu <= MM.
Proof.
change 4 with (bpow radix2 2). rewrite <- bpow_plus. apply bpow_le. pose proof (fmt_prec1 F). lia.
Qed.
Lemma fmt_OO : fmtd OO. Proof. apply B2R_format. Qed.
Lemma fmt_OOm : fmtd (- OO). Proof. apply generic_format_opp, fmt_OO. Qed.

Lemma RN_opp r : RN (- r) = - RN r. Proof. apply round_NE_opp. Qed.
Lemma RN_near r g : fmtd g -> Rabs (RN r - r) <= Rabs (g - r).
Proof. intros H. exact (proj2 (round_N_pt radix2 (fexp F) _ r) g H). Qed.
Lemma RN_le r : Rabs r <= OO -> Rabs (RN r) <= OO.
Proof. intros H. apply abs_round_le_generic; auto with typeclass_instances. apply fmt_OO. Qed.
(** Numbers of the format below 2^emax are at most the largest one. *)
Lemma fmt_lt r : fmtd r -> Rabs r < MM -> Rabs r <= OO.
Proof.
intros H1 H2. rewrite OO_eq. unfold Rminus.
assert (E : MM + - uu = pred radix2 (fexp F) MM).
{ rewrite pred_bpow, fexp_eq. rewrite Z.max_l by (pose proof emin_small; lia). reflexivity. }
rewrite E. apply pred_ge_gt; auto with typeclass_instances.
- now apply generic_format_abs.
- apply generic_format_bpow. rewrite fexp_eq. pose proof emin_small. pose proof (fmt_prec1 F). lia.
Qed.
Lemma RN_lt r : Rabs r < OO + uu / 2 -> Rabs (RN r) <= OO.
Proof.
intros H. destruct (Rle_or_lt (Rabs r) OO) as [L|L]; [now apply RN_le|].
apply fmt_lt; [apply generic_format_round; auto with typeclass_instances|].
pose proof OO_eq as E. pose proof uu_pos as U. pose proof (@fmaxv_ge1 F) as G.
unfold Rabs in H, L. destruct (Rcase_abs r).
- pose proof (RN_near r (- OO) fmt_OOm) as N.
  abs_lra.
- pose proof (RN_near r OO fmt_OO) as N.
  abs_lra.
Qed.
Lemma RN_err r : Rabs (RN r) <= OO -> Rabs (RN r - r) <= uu / 2.
Proof.
intros H. eapply Rle_trans; [apply error_le_half_ulp_round; auto with typeclass_instances|].
cut (ulp radix2 (fexp F) (RN r) <= uu); [lra|].
assert (K : ulp radix2 (fexp F) (bpow radix2 (emax F - 1)) = uu).
{ rewrite ulp_bpow, fexp_eq. f_equal. pose proof emin_small. lia. }
destruct (Req_dec (RN r) 0) as [E|E].
- rewrite <- K. apply ulp_le; auto with typeclass_instances. rewrite E, Rabs_R0. apply Rabs_pos.
- rewrite ulp_neq_0 by easy. apply bpow_le. unfold cexp. rewrite fexp_eq.
  assert (mag radix2 (RN r) <= emax F)%Z.
  { apply mag_le_bpow; [easy|]. pose proof OO_eq. pose proof uu_pos. lra. }
  pose proof emin_small. lia.
Qed.
(** Multiples of a power of two. *)
Lemma fmt_mult k e : (emin F <= e)%Z -> Rabs (IZR k * bpow radix2 e) <= bpow radix2 (e + prec F) ->
  fmtd (IZR k * bpow radix2 e).
Proof.
intros He H. destruct H as [H|H].
- change (fmtd (F2R (Float radix2 k e))). apply generic_format_FLT with (emin := emin F) (prec := prec F).
  exists (Float radix2 k e); [reflexivity| |exact He]. cbn [Fnum].
  rewrite Rabs_mult, (Rabs_pos_eq (bpow _ _)), Z.add_comm, bpow_plus in H by apply bpow_ge_0.
  apply Rmult_lt_reg_r in H; [|apply bpow_gt_0].
  rewrite <- abs_IZR, <- IZR_Zpower in H by (pose proof (fmt_prec1 F); lia). now apply lt_IZR.
- assert (G : fmtd (bpow radix2 (e + prec F))).
  { apply generic_format_bpow. rewrite fexp_eq. pose proof (fmt_prec1 F). lia. }
  unfold Rabs in H. destruct Rcase_abs.
  + replace (IZR k * bpow radix2 e) with (- bpow radix2 (e + prec F)) by lra. now apply generic_format_opp.
  + now rewrite H.
Qed.
Lemma mult_of x e : fmtd x -> bpow radix2 (e - 1) <= Rabs x -> exists k, x = IZR k * bpow radix2 (e - prec F).
Proof.
intros H L. assert (Hm : (e <= mag radix2 x)%Z).
{ apply mag_ge_bpow. exact L. }
exists (Ztrunc (scaled_mantissa radix2 (fexp F) x) * 2 ^ (cexp radix2 (fexp F) x - (e - prec F)))%Z.
assert (C : (e - prec F <= cexp radix2 (fexp F) x)%Z). { unfold cexp. rewrite fexp_eq. lia. }
rewrite mult_IZR. rewrite H at 1. unfold F2R. cbn [Fnum Fexp].
rewrite Rmult_assoc. f_equal. change (2 ^ ?n)%Z with (Zpower radix2 n).
rewrite IZR_Zpower by lia. rewrite <- bpow_plus. f_equal. lia.
Qed.
Lemma uu_half : bpow radix2 (emax F - 1 - prec F) = uu / 2.
Proof.
replace (emax F - prec F)%Z with (emax F - 1 - prec F + 1)%Z by lia. rewrite bpow_plus. change (bpow radix2 1) with 2. lra.
Qed.
Lemma MM_half e : bpow radix2 (e - 1) = bpow radix2 e / 2.
Proof. unfold Zminus. rewrite bpow_plus. change (bpow radix2 (-(1))) with (/ 2). lra. Qed.

(** The third step never overflows. *)
Lemma third_pos a : fmtd a -> Rabs a <= OO ->
  let s := RN (a + OO) in let a' := RN (s - OO) in Rabs s <= OO -> Rabs (RN (s - a')) <= OO.
Proof.
intros Fa Ba s a' Bs.
pose proof OO_eq as E. pose proof uu_pos as U. pose proof uu_le as U4. pose proof emin_small as Em.
destruct (Rle_or_lt (MM / 2) (a + OO)) as [L|L].
- assert (Ls : MM / 2 <= s).
  { unfold s. apply round_ge_generic; auto with typeclass_instances.
    rewrite <- MM_half. apply generic_format_bpow. rewrite fexp_eq. pose proof (fmt_prec1 F). lia. }
  assert (Hs : exists k, s = IZR k * uu).
  { apply mult_of; [apply generic_format_round; auto with typeclass_instances|].
    rewrite MM_half. rewrite Rabs_pos_eq; lra. }
  assert (Ho : exists k, OO = IZR k * uu).
  { apply mult_of; [apply fmt_OO|]. rewrite MM_half, Rabs_pos_eq; lra. }
  assert (Es : a' = s - OO).
  { unfold a'. apply round_generic; auto with typeclass_instances.
    assert (Hb : Rabs (s - OO) <= MM).
    { abs_lra. }
    clearbody s. destruct Hs as [k Hk], Ho as [j Hj]. rewrite Hk, Hj in Hb |- *.
    rewrite <- Rmult_minus_distr_r, <- minus_IZR in Hb |- *. apply fmt_mult; [lia|].
    now replace (emax F - prec F + prec F)%Z with (emax F) by lia. }
  rewrite Es. replace (s - (s - OO)) with OO by lra. apply RN_le. rewrite Rabs_pos_eq; lra.
- assert (Ha : exists k, a = IZR k * bpow radix2 (emax F - 1 - prec F)).
  { apply mult_of; [easy|]. rewrite MM_half, MM_half. abs_lra. }
  assert (Ho : exists k, OO = IZR k * bpow radix2 (emax F - 1 - prec F)).
  { apply mult_of; [apply fmt_OO|]. rewrite MM_half, MM_half, Rabs_pos_eq; lra. }
  assert (Es : s = a + OO).
  { unfold s. apply round_generic; auto with typeclass_instances.
    assert (Hb : Rabs (a + OO) <= MM / 2).
    { abs_lra. }
    destruct Ha as [k Hk], Ho as [j Hj]. rewrite Hk, Hj in Hb |- *.
    rewrite <- Rmult_plus_distr_r, <- plus_IZR in Hb |- *. apply fmt_mult; [lia|].
    replace (emax F - 1 - prec F + prec F)%Z with (emax F - 1)%Z by lia. now rewrite MM_half. }
  assert (Ea : a' = a).
  { unfold a'. rewrite Es. replace (a + OO - OO) with a by lra. apply round_generic; auto with typeclass_instances. }
  rewrite Ea, Es. replace (a + OO - a) with OO by lra. apply RN_le. rewrite Rabs_pos_eq; lra.
Qed.
Lemma third a b : fmtd a -> fmtd b -> Rabs a <= OO -> Rabs b <= OO ->
  let s := RN (a + b) in let a' := RN (s - b) in Rabs s <= OO -> Rabs a' <= OO -> Rabs (RN (s - a')) <= OO.
Proof.
intros Fa Fb Ba Bb s a' Bs Ba'.
destruct (Req_dec b OO) as [->|N1]; [now apply (third_pos a)|].
destruct (Req_dec b (- OO)) as [->|N2].
{ pose proof (third_pos (- a)) as T. cbv zeta in T.
  assert (E1 : RN (- a + OO) = - s). { unfold s. rewrite <- RN_opp. f_equal. lra. }
  rewrite E1 in T. assert (E2 : RN (- s - OO) = - a'). { unfold a'. rewrite <- RN_opp. f_equal. lra. }
  rewrite E2 in T. replace (- s - - a') with (- (s - a')) in T by lra. rewrite RN_opp, !Rabs_Ropp in T.
  apply T; [now apply generic_format_opp|easy|easy]. }
apply RN_lt.
pose proof (RN_err (s - b) Ba') as E. fold a' in E.
assert (Lb : Rabs b < OO).
{ unfold Rabs in *. destruct (Rcase_abs b); lra. }
(* the largest numbers are multiples of uu *)
assert (Gb : Rabs b <= OO - uu).
{ pose proof OO_eq as EO. pose proof uu_pos as U. pose proof uu_le as U4.
  destruct (Rle_or_lt (Rabs b) (MM / 2)) as [L|L]; [lra|].
  assert (exists k, Rabs b = IZR k * uu) as [k Hk].
  { apply mult_of; [now apply generic_format_abs|]. rewrite MM_half, Rabs_Rabsolu. lra. }
  assert (exists k, OO = IZR k * uu) as [j Hj].
  { apply mult_of; [apply fmt_OO|]. rewrite MM_half, Rabs_pos_eq; lra. }
  rewrite Hk, Hj in Lb |- *. apply Rmult_lt_reg_r in Lb; [|easy]. apply lt_IZR in Lb.
  replace (IZR j * uu - uu) with (IZR (j - 1) * uu) by (rewrite minus_IZR; ring).
  apply Rmult_le_compat_r; [lra|]. apply IZR_le. lia. }
pose proof uu_pos as U. abs_lra.
Qed.
(** Without the largest numbers the second step does not overflow either. *)
Lemma second a b : fmtd a -> fmtd b -> Rabs a < OO ->
  let s := RN (a + b) in Rabs s <= OO -> Rabs (RN (s - b)) <= OO.
Proof.
intros Fa Fb Ba s Bs. apply RN_lt. pose proof (RN_err (a + b) Bs) as E. fold s in E.
pose proof uu_pos as U. abs_lra.
Qed.
(** The remaining steps work on small numbers. *)
Lemma OO_big : 2 * uu <= OO.
Proof. rewrite OO_eq. pose proof uu_le. pose proof uu_pos. lra. Qed.

Lemma ts_exact a b : fmtd a -> fmtd b ->
  let s := RN (a + b) in let a' := RN (s - b) in let b' := RN (s - a') in
  s + RN (RN (a - a') + RN (b - b')) = a + b.
Proof.
intros Fa Fb s a' b'.
pose proof (TwoSum_correct (emin F) (prec F) (fun x => negb (Z.even x)) (fmt_prec1 F)) as T.
assert (E0 : (emin F <= 0)%Z). { pose proof (fmt_prec1 F). pose proof (fmt_emax F). unfold emin. lia. }
assert (C0 : forall x, negb (Z.even x) = negb (negb (Z.even (- (x + 1))))).
{ intros x. rewrite Z.even_opp, Z.even_add. change (Z.even 1) with false. now destruct (Z.even x). }
specialize (T E0 C0 b a Fb Fa). cbv zeta in T.
change (round radix2 (FLT_exp (emin F) (prec F)) ZnearestE) with RN in T.
rewrite (Rplus_comm b a) in T. fold s in T. fold a' in T. fold b' in T.
rewrite (Rplus_comm (RN (a - a'))). exact T.
Qed.

(** ** The float computation *)
Lemma rnds_NE_fin r (f : float F) : rnds mode_NE r f -> Rabs (RN r) <= OO -> is_finite f = true /\ B2R f = RN r.
Proof.
unfold rnds. cbn [round_mode]. intros H L. rewrite Rlt_bool_true in H; [tauto|].
pose proof OO_eq. pose proof uu_pos. lra.
Qed.
Lemma rnds_NE_cases r (f : float F) : rnds mode_NE r f ->
  (is_finite f = true /\ B2R f = RN r /\ Rabs (RN r) <= OO) \/
  (MM <= Rabs (RN r) /\ ((f = finf /\ 0 < r) \/ (f = fminf /\ r < 0))).
Proof.
intros H. pose proof H as H'. unfold rnds in H. cbn [round_mode] in H. revert H. case Rlt_bool_spec; intros L H.
- left. split; [tauto|]. split; [tauto|]. apply fmt_lt; [|easy]. apply generic_format_round; auto with typeclass_instances.
- right. split; [easy|].
  pose proof (round_sign_nz mode_NE r L) as N.
  revert H. case Rlt_bool_spec; intros S H.
  + right. split; [|easy]. now apply B2SF_minf.
  + left. split; [|lra]. now apply B2SF_pinf.
Qed.

Lemma two_sum_fst (a b : float F) : fst (two_sum a b) = radd mode_NE a b.
Proof. reflexivity. Qed.

Lemma B2R_le_OO (a : float F) : Rabs (B2R a) <= OO. Proof. apply abs_le_fmaxv. Qed.

(** The error term, given that the sum is finite: exact or NaN; NaN only if the second step overflows. *)
Lemma two_sum_cases (a b : float F) : is_finite a = true -> is_finite b = true ->
  let s := fst (two_sum a b) in let e := snd (two_sum a b) in
  (is_finite s = true /\ is_finite e = true /\ B2R s = RN (B2R a + B2R b) /\ B2R s + B2R e = B2R a + B2R b) \/
  (is_finite s = true /\ e = fnan /\ B2R s = RN (B2R a + B2R b) /\ ~ not_max a) \/
  (e = fnan /\ MM <= Rabs (RN (B2R a + B2R b)) /\
    ((s = finf /\ 0 < B2R a + B2R b) \/ (s = fminf /\ B2R a + B2R b < 0))).
Proof.
intros Fa Fb s e. unfold s, e, two_sum. cbn [fst snd]. clear s e.
pose proof (B2R_format a) as Ga. pose proof (B2R_format b) as Gb.
pose proof (B2R_le_OO a) as Ba. pose proof (B2R_le_OO b) as Bb.
destruct (rnds_NE_cases _ _ (radd_rnds mode_NE a b Fa Fb)) as [(Fs & Es & Bs)|(Hs & Cs)].
2:{ right. right. split; [|split; [exact Hs|exact Cs]].
    destruct Cs as [[E _]|[E _]]; rewrite E.
    - replace (rsub mode_NE finf b) with (@finf F) by now destruct b.
      replace (rsub mode_NE finf finf) with (@fnan F) by reflexivity.
      replace (rsub mode_NE b fnan) with (@fnan F) by now destruct b.
      now destruct (rsub mode_NE a finf).
    - replace (rsub mode_NE fminf b) with (@fminf F) by now destruct b.
      replace (rsub mode_NE fminf fminf) with (@fnan F) by reflexivity.
      replace (rsub mode_NE b fnan) with (@fnan F) by now destruct b.
      now destruct (rsub mode_NE a fminf). }
set (s := radd mode_NE a b) in *.
destruct (rnds_NE_cases _ _ (rsub_rnds mode_NE s b Fs Fb)) as [(Fa' & Ea' & Ba')|(Ha' & Ca')].
2:{ right. left. split; [exact Fs|]. split; [|split; [exact Es|]].
    - assert (H : forall sg, rsub mode_NE s b = B754_infinity sg ->
        radd mode_NE (rsub mode_NE a (rsub mode_NE s b)) (rsub mode_NE b (rsub mode_NE s (rsub mode_NE s b))) = fnan).
      { intros sg ->.
        replace (rsub mode_NE a (B754_infinity sg)) with (@B754_infinity (prec F) (emax F) (negb sg)) by now destruct a.
        replace (rsub mode_NE s (B754_infinity sg)) with (@B754_infinity (prec F) (emax F) (negb sg)) by now destruct s.
        replace (rsub mode_NE b (B754_infinity (negb sg))) with (@B754_infinity (prec F) (emax F) sg) by (destruct sg; now destruct b).
        now destruct sg. }
      destruct Ca' as [[E _]|[E _]]; exact (H _ E).
    - intros Hm. rewrite Es in Ha'. pose proof (second (B2R a) (B2R b) Ga Gb Hm) as S. cbv zeta in S.
      specialize (S Bs). pose proof OO_eq. pose proof uu_pos. lra. }
set (a' := rsub mode_NE s b) in *.
left. rewrite Es in Ea', Ba'.
pose proof Bs as Bs'.
assert (T := third (B2R a) (B2R b) Ga Gb Ba Bb). cbv zeta in T. specialize (T Bs' Ba').
assert (Hb' := rsub_rnds mode_NE s a' Fs Fa'). rewrite Es, Ea' in Hb'.
destruct (rnds_NE_fin _ _ Hb' T) as [Fb' Eb'].
set (b' := rsub mode_NE s a') in *.
pose proof (RN_err _ Bs') as E1. pose proof (RN_err _ Ba') as E2. pose proof (RN_err _ T) as E3.
pose proof OO_big as OB. pose proof uu_pos as U.
set (rs := RN (B2R a + B2R b)) in *. set (ra := RN (rs - B2R b)) in *. set (rb := RN (rs - ra)) in *.
assert (Hda := rsub_rnds mode_NE a a' Fa Fa'). rewrite Ea' in Hda.
assert (Hdb := rsub_rnds mode_NE b b' Fb Fb'). rewrite Eb' in Hdb.
assert (Fu : fmtd uu).
{ apply generic_format_bpow. rewrite fexp_eq. pose proof (fmt_prec1 F). pose proof emin_small. lia. }
assert (Ba1 : Rabs (B2R a - ra) <= uu).
{ clear - E1 E2. abs_lra. }
assert (Bb1 : Rabs (B2R b - rb) <= uu).
{ clear - E2 E3. abs_lra. }
assert (Ba2 : Rabs (RN (B2R a - ra)) <= uu) by (apply abs_round_le_generic; auto with typeclass_instances).
assert (Bb2 : Rabs (RN (B2R b - rb)) <= uu) by (apply abs_round_le_generic; auto with typeclass_instances).
destruct (rnds_NE_fin _ _ Hda ltac:(lra)) as [Fda Eda].
destruct (rnds_NE_fin _ _ Hdb ltac:(lra)) as [Fdb Edb].
assert (He := radd_rnds mode_NE (rsub mode_NE a a') (rsub mode_NE b b') Fda Fdb). rewrite Eda, Edb in He.
assert (Be : Rabs (RN (RN (B2R a - ra) + RN (B2R b - rb))) <= OO).
{ apply RN_le. clear - Ba2 Bb2 OB. abs_lra. }
destruct (rnds_NE_fin _ _ He Be) as [Fe Ee].
split; [easy|]. split; [exact Fe|]. split; [exact Es|].
rewrite Ee, Es. exact (ts_exact (B2R a) (B2R b) Ga Gb).
Qed.

Lemma RN_mono r r' : r <= r' -> RN r <= RN r'.
Proof. apply round_le; auto with typeclass_instances. Qed.

(** ** Comparing two sums through the pairs *)
Lemma pair_lt_sound (a b c d : float F) : is_finite a = true -> is_finite b = true -> is_finite c = true -> is_finite d = true ->
  pair_lt (two_sum a b) (two_sum c d) = true -> B2R a + B2R b < B2R c + B2R d.
Proof.
intros Fa Fb Fc Fd H. unfold pair_lt in H.
pose proof (two_sum_cases a b Fa Fb) as C1. pose proof (two_sum_cases c d Fc Fd) as C2. cbv zeta in C1, C2.
set (p := B2R a + B2R b) in *. set (q := B2R c + B2R d) in *.
destruct (Rlt_or_le p q) as [L|L]; [exact L|exfalso]. pose proof (RN_mono _ _ L) as RL.
pose proof OO_eq as EO. pose proof uu_pos as U.
destruct C1 as [(S1 & S2 & S3 & S4)|[(S1 & S2 & S3 & _)|(S2 & S3 & S4)]];
destruct C2 as [(T1 & T2 & T3 & T4)|[(T1 & T2 & T3 & _)|(T2 & T3 & T4)]];
set (sp := fst (two_sum a b)) in *; set (ep := snd (two_sum a b)) in *;
set (sq := fst (two_sum c d)) in *; set (eq := snd (two_sum c d)) in *; clearbody sp ep sq eq.
all: apply orb_prop in H; destruct H as [H|H]; [|apply andb_prop in H; destruct H as [H1 H2]].
all: try (rewrite flt_fin in H by easy; apply Rlt_bool_iff in H || (revert H; case Rlt_bool_spec; [intros H _|discriminate]); lra).
all: try (rewrite ?S2, ?T2 in *; first [rewrite flt_nan_l in H2|rewrite flt_nan_r in H2]; discriminate).
- rewrite feq_fin in H1 by easy. revert H1. case Req_bool_spec; [intros H1 _|discriminate].
  rewrite flt_fin in H2 by easy. revert H2. case Rlt_bool_spec; [intros H2 _|discriminate]. lra.
- assert (Rabs (RN p) <= OO). { rewrite <- S3. apply B2R_le_OO. }
  destruct T4 as [[-> T4]|[-> T4]].
  + assert (0 <= RN q). { apply round_ge_generic; auto with typeclass_instances. apply generic_format_0. lra. }
    abs_lra.
  + now rewrite flt_minf_r in H.
- assert (Rabs (RN p) <= OO). { rewrite <- S3. apply B2R_le_OO. }
  destruct T4 as [[-> T4]|[-> T4]].
  + assert (0 <= RN q). { apply round_ge_generic; auto with typeclass_instances. apply generic_format_0. lra. }
    abs_lra.
  + now rewrite flt_minf_r in H.
- assert (Rabs (RN q) <= OO). { rewrite <- T3. apply B2R_le_OO. }
  destruct S4 as [[-> S4]|[-> S4]].
  + now rewrite flt_pinf_l in H.
  + assert (RN p <= 0). { apply round_le_generic; auto with typeclass_instances. apply generic_format_0. lra. }
    abs_lra.
- assert (Rabs (RN q) <= OO). { rewrite <- T3. apply B2R_le_OO. }
  destruct S4 as [[-> S4]|[-> S4]].
  + now rewrite flt_pinf_l in H.
  + assert (RN p <= 0). { apply round_le_generic; auto with typeclass_instances. apply generic_format_0. lra. }
    abs_lra.
- destruct S4 as [[-> S4]|[-> S4]], T4 as [[-> T4]|[-> T4]]; try discriminate; lra.
Qed.

Lemma pair_lt_complete (a b c d : float F) : is_finite a = true -> is_finite b = true -> is_finite c = true -> is_finite d = true ->
  not_max a -> not_max c -> Rabs (B2R a + B2R b + (B2R c + B2R d)) <= 2 * OO \/ (B2R a + B2R b) * (B2R c + B2R d) <= 0 ->
  B2R a + B2R b < B2R c + B2R d -> pair_lt (two_sum a b) (two_sum c d) = true.
Proof.
intros Fa Fb Fc Fd Na Nc HB L. unfold pair_lt.
pose proof (two_sum_cases a b Fa Fb) as C1. pose proof (two_sum_cases c d Fc Fd) as C2. cbv zeta in C1, C2.
set (p := B2R a + B2R b) in *. set (q := B2R c + B2R d) in *.
pose proof (RN_mono _ _ (Rlt_le _ _ L)) as RL.
pose proof OO_eq as EO. pose proof uu_pos as U.
assert (K : forall r, MM <= Rabs (RN r) -> OO < Rabs r).
{ intros r Hr. apply Rnot_le_lt. intros Hl. apply RN_le in Hl. lra. }
destruct C1 as [(S1 & S2 & S3 & S4)|[(S1 & S2 & S3 & S4)|(S2 & S3 & S4)]]; [|contradiction|];
destruct C2 as [(T1 & T2 & T3 & T4)|[(T1 & T2 & T3 & T4)|(T2 & T3 & T4)]]; try contradiction;
set (sp := fst (two_sum a b)) in *; set (ep := snd (two_sum a b)) in *;
set (sq := fst (two_sum c d)) in *; set (eq := snd (two_sum c d)) in *; clearbody sp ep sq eq.
- rewrite flt_fin, feq_fin, flt_fin by easy. rewrite S3, T3.
  case Rlt_bool_spec; intros H1; [reflexivity|]. rewrite Req_bool_true by lra. apply Rlt_bool_true. lra.
- destruct T4 as [[-> T4]|[-> T4]].
  + now rewrite flt_pinf_r.
  + exfalso. assert (Rabs (RN p) <= OO). { rewrite <- S3. apply B2R_le_OO. }
    assert (RN q <= 0). { apply round_le_generic; auto with typeclass_instances. apply generic_format_0. lra. }
    abs_lra.
- destruct S4 as [[-> S4]|[-> S4]].
  + exfalso. assert (Rabs (RN q) <= OO). { rewrite <- T3. apply B2R_le_OO. }
    assert (0 <= RN p). { apply round_ge_generic; auto with typeclass_instances. apply generic_format_0. lra. }
    abs_lra.
  + now rewrite flt_minf_l.
- apply K in S3. apply K in T3.
  destruct S4 as [[-> S4]|[-> S4]], T4 as [[-> T4]|[-> T4]]; try reflexivity; exfalso.
  + destruct HB as [HB|HB]; [|nra]. abs_lra.
  + lra.
  + destruct HB as [HB|HB]; [|nra]. abs_lra.
Qed.
End T.

Lemma two_sum_never_wrong {F} (a b s e : float F) : is_finite a = true -> is_finite b = true ->
  two_sum a b = (s, e) ->
  (is_finite s = true -> B2R s = round radix2 (fexp F) ZnearestE (B2R a + B2R b)) /\
  (e <> fnan -> is_finite s = true /\ is_finite e = true /\ B2R s + B2R e = B2R a + B2R b).
Proof.
intros Fa Fb H. pose proof (two_sum_cases a b Fa Fb) as C. cbv zeta in C. rewrite H in C. cbn [fst snd] in C.
destruct C as [(H1 & H2 & H3 & H4)|[(H1 & H2 & H3 & _)|(H2 & H3 & H4)]]; split; try tauto.
intros Fs. destruct H4 as [[-> _]|[-> _]]; discriminate.
Qed.
Lemma two_sum_exact {F} (a b s e : float F) : is_finite a = true -> is_finite b = true ->
  not_max a -> two_sum a b = (s, e) -> is_finite s = true ->
  is_finite e = true /\ B2R s + B2R e = B2R a + B2R b.
Proof.
intros Fa Fb N H Fs. pose proof (two_sum_cases a b Fa Fb) as C. cbv zeta in C. rewrite H in C. cbn [fst snd] in C.
destruct C as [(H1 & H2 & H3 & H4)|[(H1 & H2 & H3 & H4)|(H2 & H3 & H4)]]; try tauto.
destruct H4 as [[-> _]|[-> _]]; discriminate.
Qed.
Lemma two_sum_overflow {F} (a b s e : float F) : is_finite a = true -> is_finite b = true ->
  two_sum a b = (s, e) -> is_finite s = false ->
  bpow radix2 (emax F) <= Rabs (round radix2 (fexp F) ZnearestE (B2R a + B2R b)) /\
  ((s = finf /\ 0 < B2R a + B2R b) \/ (s = fminf /\ B2R a + B2R b < 0)).
Proof.
intros Fa Fb H Fs. pose proof (two_sum_cases a b Fa Fb) as C. cbv zeta in C. rewrite H in C. cbn [fst snd] in C.
destruct C as [(H1 & H2 & H3 & H4)|[(H1 & H2 & H3 & H4)|(H2 & H3 & H4)]]; try congruence. now split.
Qed.
