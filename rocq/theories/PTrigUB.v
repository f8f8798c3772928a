(** * Refutation: the reverse sine, cosine and tangent of long double count branches beyond [long] *)
From Coq Require Import ZArith QArith Qreals NArith Reals Bool Lia Lra Psatz List.
From Flocq Require Import Core.Core Core.FTZ IEEE754.BinarySingleNaN.
From Verif Require Import Fmt Spec FloatFacts Exc Deco SpecApi SpecElem SpecNum MBase PBase Ex MBool MArith PArith PMul PUnary
  PConv PBool PSetop PElem MTrig PTrigR PTrig PTan PTanF PTrigT PDec PDecF PNum MRev SpecRev PRev PRevEven MTrigRev PTrigRev PTrigRev2 PRevW PTrigRev3.
Local Open Scope R_scope.

Notation b80 := (fl binary80).
(** pi rounded up. *)
Lemma piu80 : @piu binary80 = B2R (b80 14488038916154245685 (-62)).
Proof.
pose proof pi_bounds as [Hlo Hhi]. pib. unfold piu. destruct (@piu_fin binary80) as [Ff [H1 _]]. unfold piu in H1.
pose proof (rround_RU false PI : is_RU PI (@mpfr_const_pi binary80 mode_UP)) as [_ H].
specialize (H (b80 14488038916154245685 (-62))). rewrite ub_fin in H by reflexivity.
assert (P : PI <= B2R (b80 14488038916154245685 (-62))) by (litval; lra). specialize (H P).
apply Rle_antisym.
- specialize (H (B2R (@mpfr_const_pi binary80 mode_UP))). rewrite !ub_fin in H by easy. apply H. lra.
- apply Rnot_lt_le. intros L.
  assert (B : B2R (@mpfr_const_pi binary80 mode_UP) <= B2R (b80 14488038916154245684 (-62))).
  { apply below_next with (b80 14488038916154245685 (-62)); try easy; vm_compute; reflexivity. }
  assert (B' : B2R (b80 14488038916154245684 (-62)) < PI) by (litval; lra). lra.
Qed.
Definition xub : float binary80 := b80 11771531619375324619 5.
Definition qub : Z := 119903836479112085503.
Lemma xub_val : B2R xub = 376689011820010387808.
Proof. unfold xub. litval. lra. Qed.
Lemma piu80_val : @piu binary80 = 14488038916154245685 / 4611686018427387904.
Proof. rewrite piu80. litval. lra. Qed.
Lemma qub_near : ZnearestE (B2R xub / @piu binary80) = qub /\ 0 < B2R xub - IZR qub * @piu binary80.
Proof.
rewrite xub_val, piu80_val. unfold qub. split; [|lra]. apply Znearest_imp. apply Rabs_lt.
assert (E : 376689011820010387808 / (14488038916154245685 / 4611686018427387904) = 376689011820010387808 * 4611686018427387904 / 14488038916154245685) by (field; lra).
rewrite E. lra.
Qed.
(** The branch numbers: 2^63 - 1, and the next one is not a [long]. *)
Definition top : Z := (2 ^ 63 - 1)%Z.
Lemma rq_top : remquo (B2R xub) (@piu binary80) = (B2R xub - IZR qub * @piu binary80, top).
Proof. unfold remquo. destruct qub_near as [-> _]. f_equal. Qed.
Lemma next_undef {F} kind pl pu cl cu : @branch F kind pl pu cl cu top 1 = undef.
Proof. reflexivity. Qed.
(** The box of branch 2^63 - 1: valid, and far below [xub]. *)
Lemma tmp80 k : (Z.abs k < 2 ^ 64)%Z -> @tmp_of binary80 k = IZR k.
Proof. intros H. now apply tmp_exact. Qed.
Lemma wf_between {F} (a b : float F) v w : lb a v -> v <= w -> ub b w -> wf (a, b).
Proof. intros A L B. right. exists v. split; [exact A|]. now apply ub_mono with w. Qed.
Lemma top_box kind cl cu : kind = None \/ kind = Some 0%Z \/ kind = Some 1%Z -> 0 <= cl <= cu -> cu <= 4 ->
  exists b : itv binary80, branch kind (@pid binary80) (@piu binary80) cl cu top 0 = ret b /\ wf b /\
    is_finite (snd b) = true /\ B2R (snd b) <= bpow radix2 68.
Proof.
intros K Hc Hu. pose proof (@pid_ok binary80) as PD. pose proof (@piu_ok binary80) as PU. pose proof pi34 as P34.
assert (Hl4 : 0 <= cl <= 4) by lra. assert (Hu4 : 0 <= cu <= 4) by lra.
assert (Ipd : @is_p binary80 (@pid binary80)) by now left. assert (Ipu : @is_p binary80 (@piu binary80)) by now right.
assert (G : forall k m1 m2 p c, (Z.abs k <= 2 ^ 64)%Z -> @is_p binary80 p -> 0 <= c <= 4 ->
  Rabs (B2R (@get_after binary80 m1 m2 (@tmp_of binary80 k * p + c))) <= bpow radix2 68 /\ is_finite (@get_after binary80 m1 m2 (@tmp_of binary80 k * p + c)) = true).
{ intros k m1 m2 p c Hk Hp Hcc. apply get_small; [easy|]. now apply box_small. }
assert (Mv : exists b : itv binary80, ret (moved (@pid binary80) (@piu binary80) cl cu top) = ret b /\ wf b /\ is_finite (snd b) = true /\ B2R (snd b) <= bpow radix2 68).
{ eexists. split; [reflexivity|]. split.
  - apply wf_between with (1 := get_lb _) (3 := get_ub _). rewrite tmp80 by easy. unfold top. simpl (2 ^ 63 - 1)%Z. nra.
  - destruct (G top mode_UP mode_UP (@piu binary80) cu) as [S1 S2]; [easy|easy|easy|]. apply Rabs_le_inv in S1. cbn [snd moved]. split; [easy|lra]. }
assert (Mi : forall k, (k = - top \/ k = - top - 1)%Z ->
  exists b : itv binary80, ret (mirrored (@pid binary80) (@piu binary80) cl cu k) = ret b /\ wf b /\ is_finite (snd b) = true /\ B2R (snd b) <= bpow radix2 68).
{ intros k Hk. assert (Hk' : (Z.abs k < 2 ^ 64)%Z) by (unfold top in Hk; lia). eexists. split; [reflexivity|].
  assert (Kr : IZR k <= -1000). { apply (IZR_le k (-1000)). unfold top in Hk. lia. }
  assert (Pl : forall p c, @is_p binary80 p -> 0 <= c <= 4 -> @plain binary80 (@tmp_of binary80 k * p + c)).
  { intros p c Hp Hcc. apply plain_one. rewrite tmp80 by easy. pose proof (is_p_bounds _ Hp). rewrite Rabs_left1; nra. }
  split.
  - right. exists (- (IZR k * @pid binary80 + cu)). apply mem_neg. rewrite Ropp_involutive. split; cbn [fst snd].
    + apply lb_mono with (@tmp_of binary80 k * @piu binary80 + cl); [apply get_lb'; now apply Pl|]. rewrite tmp80 by easy. nra.
    + rewrite <- (tmp80 k) by easy. apply get_ub'. now apply Pl.
  - destruct (G k mode_DN mode_UP (@piu binary80) cl) as [S1 S2]; [lia|easy|easy|]. apply Rabs_le_inv in S1. unfold mirrored. cbn [snd]. rewrite fin_fneg. unfold fneg. rewrite B2R_Bopp. split; [easy|lra]. }
unfold branch. destruct K as [->|[->| ->]]; rewrite ?lchk_ok by (unfold top; lia).
- rewrite Z.add_0_r. exact Mv.
- change (Z.even (top + 0)) with false. cbv iota. rewrite ?lchk_ok by (unfold top; lia). apply Mi. left. unfold top. lia.
- change (Z.even (top + 0)) with false. cbv iota. rewrite ?(lchk_ok (- top)), ?(lchk_ok (- top - 0)) by (unfold top; lia).
  unfold lchk. change (in_long (- top - 0 - 1)) with true. cbv iota. apply Mi. right. unfold top. lia.
Qed.
Definition xp : itv binary80 := (xub, xub).
Lemma xp_fin : is_finite xub = true. Proof. reflexivity. Qed.
Lemma xp_wf : wf xp. Proof. right. exists (B2R xub). apply point_mem; try easy. lra. Qed.
Lemma two_undef kind up cl cu : kind = None \/ kind = Some 0%Z \/ kind = Some 1%Z -> 0 <= cl <= cu -> cu <= 4 ->
  two_boxes kind up cl cu xp = undef.
Proof.
intros K Hc Hu. unfold two_boxes, left_box.
assert (E1 : feq (fst xp) fminf = false) by (vm_compute; reflexivity). rewrite E1.
assert (E2 : flt (fst xp) f0 = false) by (vm_compute; reflexivity). rewrite E2. cbv zeta iota. cbn [fst xp]. rewrite rq_top. cbn [fst snd].
assert (E3 : Rlt_bool (B2R xub - IZR qub * @piu binary80) 0 = false). { apply Rlt_bool_false. destruct qub_near. lra. } rewrite E3.
rewrite lchk_ok by (unfold top; lia). destruct (top_box kind cl cu K Hc Hu) as (b & Eb & Wb & Fb & Sb).
unfold try_two. rewrite Eb, next_undef. mreds. rewrite (miss_box b xp Wb xp_wf Fb xp_fin).
- mreds. rewrite is_empty_wf by now left. mreds. reflexivity.
- apply Rle_lt_trans with (1 := Sb). cbn [fst xp]. rewrite xub_val. simpl bpow. lra.
Qed.
Definition c0 : itv binary80 := (f0, f0).
Lemma c0_wf : wf c0. Proof. right. exists 0. split; cbn; lra. Qed.
Lemma c0_unit : exists cc, intersection c0 (fm1, f1) = ret cc /\ is_empty cc = ret false /\ equal cc (fm1, f1) = ret false /\ B2R (fst cc) = 0 /\ B2R (snd cc) = 0.
Proof.
destruct (intersection_exact c0 (fm1, f1) c0_wf unit_wf) as (cc & Ec & Wcc & Hcc). exists cc. split; [easy|].
assert (Hcc' : forall r, mem r cc <-> 0 <= r <= 0). { intros r. rewrite Hcc, unit_mem. unfold c0. rewrite point_mem by easy. change (B2R f0) with 0. lra. }
assert (Ncc : isnan (fst cc) = false). { destruct (isnan (fst cc)) eqn:E; [|easy]. exfalso. apply (nan_no_mem cc 0 Wcc E). apply Hcc'. lra. }
rewrite is_empty_wf, Ncc by easy. split; [easy|]. rewrite (not_one cc Wcc); [|exists 1; split; [lra|rewrite Hcc'; lra]]. split; [easy|].
destruct (unit_part _ cc Wcc Ncc Hcc) as (F1 & F2 & B1 & B2 & B3). destruct cc as [l u]. cbn [fst snd] in *.
assert (M1 : mem (B2R l) (l, u)) by (apply point_mem; try easy; lra). assert (M2 : mem (B2R u) (l, u)) by (apply point_mem; try easy; lra).
apply Hcc' in M1, M2. lra.
Qed.
Lemma xp_nonempty : isnan (fst xp) = false. Proof. vm_compute. reflexivity. Qed.
Lemma sin_rev_undef : sin_rev c0 xp = undef.
Proof.
unfold sin_rev. rewrite !is_valid_wf, !is_empty_wf, xp_nonempty by (apply c0_wf || apply xp_wf). mreds.
destruct c0_unit as (cc & E1 & E2 & E3 & E4 & E5). rewrite E1. mreds. rewrite E2. mreds. rewrite E3. mreds. rewrite E4, E5, asin_0, !raw_0.
apply two_undef; [tauto|lra|lra].
Qed.
Lemma cos_rev_undef : cos_rev c0 xp = undef.
Proof.
unfold cos_rev. rewrite !is_valid_wf, !is_empty_wf, xp_nonempty by (apply c0_wf || apply xp_wf). mreds.
destruct c0_unit as (cc & E1 & E2 & E3 & E4 & E5). rewrite E1. mreds. rewrite E2. mreds. rewrite E3. mreds. rewrite E4, E5, acos_0.
pose proof pi34 as P34. apply two_undef; [tauto| |].
- pose proof (@raw_dn binary80 (PI / 2)). pose proof (@raw_up binary80 (PI / 2)). split; [|lra]. rewrite <- (@raw_0 binary80 mode_DN). apply raw_le. lra.
- destruct (@four binary80) as (B & FB & EB). apply Rle_trans with (IZR 4); [|lra]. rewrite <- (@raw_int binary80 mode_UP 4) by easy. apply raw_le. lra.
Qed.
Lemma tan_rev_undef : tan_rev c0 xp = undef.
Proof.
unfold tan_rev. rewrite !is_valid_wf, !is_empty_wf, xp_nonempty by (apply c0_wf || apply xp_wf).
change (isnan (fst c0)) with false. mreds. assert (E0 : @atan_of binary80 f0 = 0) by (cbn; apply atan_0). cbn [fst snd c0]. rewrite E0, !raw_0.
apply two_undef; [tauto|lra|lra].
Qed.
