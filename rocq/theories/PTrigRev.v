(** * Proofs: reverse sine, cosine and tangent *)
From Coq Require Import ZArith NArith Reals Bool Lia Lra Psatz List.
From Flocq Require Import Core.Core Core.FTZ IEEE754.BinarySingleNaN.
From Verif Require Import Fmt Spec FloatFacts Exc Deco SpecApi SpecElem MBase PBase MBool MArith PArith PMul PUnary
  PConv PBool PSetop PElem MTrig PTrigR PTrig PTan PTrigT PDec PDecF PNumF PNum MRev SpecRev PRev PRevEven MTrigRev.

Local Open Scope R_scope.

Section T.
Context {F : fmt}.
Implicit Types x y z b : itv F.

(** ** Rounding without subnormalize *)
Lemma ftz_valid : Valid_exp (FTZ_exp (emin F - prec F + 1) (prec F)).
Proof. apply FTZ_exp_valid. unfold Prec_gt_0. pose proof (fmt_prec1 F). lia. Qed.
Lemma raw_dn v : @raw F mode_DN v <= v.
Proof. unfold raw. apply (round_DN_pt radix2 _ (valid_exp_ := ftz_valid)). Qed.
Lemma raw_up v : v <= @raw F mode_UP v.
Proof. unfold raw. apply (round_UP_pt radix2 _ (valid_exp_ := ftz_valid)). Qed.
Lemma raw_le m v w : v <= w -> @raw F m v <= @raw F m w.
Proof. intros H. unfold raw. apply (@round_le radix2 _ ftz_valid); [apply valid_rnd_round_mode|easy]. Qed.
Lemma emin_small : (emin F + prec F - 1 <= -1)%Z.
Proof. pose proof (@emax3 F). unfold emin, SpecFloat.emin. lia. Qed.
Lemma emin_prec : (emin F + prec F - 1 <= 1 - prec F)%Z.
Proof. pose proof (fmt_emax F). unfold emin, SpecFloat.emin. lia. Qed.
Lemma raw_flx m v : bpow radix2 (emin F + prec F - 1) <= Rabs v -> @raw F m v = round radix2 (FLX_exp (prec F)) (round_mode m) v.
Proof.
intros H. unfold raw, round, scaled_mantissa. replace (cexp radix2 (FTZ_exp (emin F - prec F + 1) (prec F)) v) with (cexp radix2 (FLX_exp (prec F)) v); [easy|].
unfold cexp, FTZ_exp, FLX_exp. pose proof (mag_ge_bpow radix2 v _ H). pose proof (fmt_prec1 F).
replace (Zlt_bool _ _) with false; [easy|]. symmetry. apply Zlt_bool_false. lia.
Qed.
Lemma raw_int m k : (Z.abs k < 2 ^ prec F)%Z -> k <> 0%Z -> @raw F m (IZR k) = IZR k.
Proof.
intros H N. pose proof (fmt_prec1 F). assert (P : Prec_gt_0 (prec F)) by (unfold Prec_gt_0; lia).
rewrite raw_flx.
- apply round_generic; [apply valid_rnd_round_mode|]. apply generic_format_FLX. exists (Defs.Float radix2 k 0).
  + unfold F2R; simpl. lra.
  + exact H.
- apply Rle_trans with 1.
  + change 1 with (bpow radix2 0). apply bpow_le. pose proof emin_small. lia.
  + rewrite <- abs_IZR. apply IZR_le. lia.
Qed.
Lemma tmp_exact k : (Z.abs k < 2 ^ prec F)%Z -> @tmp_of F k = IZR k.
Proof.
intros H. unfold tmp_of. pose proof (fmt_prec1 F). assert (P : Prec_gt_0 (prec F)) by (unfold Prec_gt_0; lia).
apply round_generic; [apply valid_rnd_N|]. apply generic_format_FLX. exists (Defs.Float radix2 k 0).
- unfold F2R; simpl. lra.
- exact H.
Qed.
Lemma get_lb v : lb (@get_after F mode_DN mode_DN v) v.
Proof.
unfold get_after. destruct Rlt_bool; [|apply (proj1 (rround_RD false v))].
apply lb_mono with (@raw F mode_DN v); [apply (proj1 (rround_RD false _))|apply raw_dn].
Qed.
Lemma get_ub v : ub (@get_after F mode_UP mode_UP v) v.
Proof.
unfold get_after. destruct Rlt_bool; [|apply (proj1 (rround_RU false v))].
apply ub_mono with (@raw F mode_UP v); [apply (proj1 (rround_RU false _))|apply raw_up].
Qed.
(** Away from zero, or at zero, there is one rounding. *)
Definition plain v := v = 0 \/ bpow radix2 (emin F + prec F - 1) <= Rabs v.
Lemma raw_0 m : @raw F m 0 = 0.
Proof. unfold raw. apply round_0, valid_rnd_round_mode. Qed.
Lemma get_ub' v : plain v -> ub (@get_after F mode_UP mode_DN v) v.
Proof.
unfold get_after. case Rlt_bool_spec; intros L [E|P]; try lra; try apply (proj1 (rround_RU false v)).
subst v. rewrite raw_0.
pose proof (rround_rnds mode_DN false 0 : rnds mode_DN 0 (@rround F mode_DN false 0)) as H.
unfold rnds in H. rewrite round_0 in H by apply valid_rnd_round_mode. rewrite Rabs_R0, Rlt_bool_true in H by apply bpow_gt_0.
destruct H as [H1 H2]. rewrite ub_fin by easy. lra.
Qed.
Lemma get_lb' v : plain v -> lb (@get_after F mode_DN mode_UP v) v.
Proof.
unfold get_after. case Rlt_bool_spec; intros L [E|P]; try lra; try apply (proj1 (rround_RD false v)).
subst v. rewrite raw_0.
pose proof (rround_rnds mode_UP false 0 : rnds mode_UP 0 (@rround F mode_UP false 0)) as H.
unfold rnds in H. rewrite round_0 in H by apply valid_rnd_round_mode. rewrite Rabs_R0, Rlt_bool_true in H by apply bpow_gt_0.
destruct H as [H1 H2]. rewrite lb_fin by easy. lra.
Qed.

(** ** The constants *)
Lemma three : exists B : float F, is_finite B = true /\ B2R B = 3.
Proof.
apply fmt_float.
- apply generic_format_FLT. exists (Defs.Float radix2 3 0).
  + unfold F2R; simpl. lra.
  + pose proof (fmt_prec1 F). cbn [Defs.Fnum]. change (3 < 2 ^ prec F)%Z. apply Z.lt_le_trans with (2 ^ 2)%Z; [reflexivity|]. apply Z.pow_le_mono_r; lia.
  + cbn [Defs.Fexp]. change (emin F <= 0)%Z. pose proof emin_small. pose proof (fmt_prec1 F). lia.
- rewrite Rabs_pos_eq by lra. apply Rlt_le_trans with (bpow radix2 3); [simpl; lra|]. apply bpow_le. apply (@emax3 F).
Qed.
Lemma pi34 : 3.1415 < PI < 3.1416.
Proof. pose proof pi_bounds as [H1 H2]. unfold Q2R, pi_lo, pi_hi in *; simpl in *. lra. Qed.
Lemma pid_ok : 3 <= @pid F <= PI.
Proof.
unfold pid. destruct (@pi_fin F) as [P1 P2]. split; [|lra].
pose proof (rround_RD false PI : is_RD PI (@mpfr_const_pi F mode_DN)) as [_ H]. destruct three as (B & FB & EB).
specialize (H B). rewrite lb_fin, EB in H by easy. pose proof pi34.
specialize (H ltac:(lra) (B2R (@mpfr_const_pi F mode_DN))). rewrite !lb_fin, EB in H by easy. lra.
Qed.
Lemma piu_fin : is_finite (@mpfr_const_pi F mode_UP) = true /\ PI <= @piu F <= 4.
Proof.
unfold piu. pose proof (rround_RU false PI : is_RU PI (@mpfr_const_pi F mode_UP)) as [H1 H]. destruct (@four F) as (B & FB & EB).
specialize (H B). rewrite ub_fin, EB in H by easy. pose proof pi34. specialize (H ltac:(lra)).
destruct (fviewP (@mpfr_const_pi F mode_UP)) as [ | | |p Fp]; try easy.
- specialize (H 5 eq_refl). rewrite ub_fin, EB in H by easy. lra.
- split; [easy|]. rewrite ub_fin in H1 by easy. split; [easy|]. specialize (H (B2R p)). rewrite !ub_fin, EB in H by easy. lra.
Qed.
Lemma piu_ok : PI <= @piu F <= 4.
Proof. apply piu_fin. Qed.
(** A rounded-down value of something below pi is below the rounded-down pi. *)
Lemma raw_pid v : v <= PI -> @raw F mode_DN v <= @pid F.
Proof.
intros H. apply Rle_trans with (@raw F mode_DN PI); [now apply raw_le|].
pose proof pi34 as HP.
assert (B : bpow radix2 (emin F + prec F - 1) <= Rabs PI).
{ apply Rle_trans with 1; [change 1 with (bpow radix2 0); apply bpow_le; pose proof emin_small; lia|]. rewrite Rabs_pos_eq; lra. }
rewrite raw_flx by easy.
pose proof (rround_rnds mode_DN false PI : rnds mode_DN PI (@mpfr_const_pi F mode_DN)) as R.
unfold rnds in R. unfold pid. destruct (@pi_fin F) as [P1 P2].
revert R. case Rlt_bool_spec; intros L R.
- destruct R as [R _]. rewrite R. change (fexp F) with (FLT_exp (emin F) (prec F)). rewrite round_FLT_FLX by easy. lra.
- exfalso. revert L. apply Rlt_not_le. rewrite Rabs_pos_eq.
  + apply Rle_lt_trans with PI; [apply round_DN_pt, FLT_exp_valid|]. 1: { unfold Prec_gt_0. pose proof (fmt_prec1 F). lia. }
    apply Rlt_le_trans with (bpow radix2 3); [simpl; lra|]. apply bpow_le. apply (@emax3 F).
  + apply round_ge_generic; [apply FLT_exp_valid; unfold Prec_gt_0; pose proof (fmt_prec1 F); lia|apply valid_rnd_round_mode|apply generic_format_0|lra].
Qed.

(** ** The quotient *)
Definition fits (r : R) : Prop := Rabs r <= bpow radix2 (Z.min (prec F) 62).
Lemma fits_p r : fits r -> Rabs r <= IZR (2 ^ prec F).
Proof.
intros H. apply Rle_trans with (1 := H). rewrite <- (IZR_Zpower radix2) by (pose proof (fmt_prec1 F); lia).
apply IZR_le. change (Zpower radix2 (Z.min (prec F) 62)) with (2 ^ Z.min (prec F) 62)%Z. apply Z.pow_le_mono_r; lia.
Qed.
Lemma fits_l r : fits r -> Rabs r <= IZR (2 ^ 62).
Proof.
intros H. apply Rle_trans with (1 := H). rewrite <- (IZR_Zpower radix2) by (pose proof (fmt_prec1 F); lia).
apply IZR_le. change (Zpower radix2 (Z.min (prec F) 62)) with (2 ^ Z.min (prec F) 62)%Z. apply Z.pow_le_mono_r; lia.
Qed.
Lemma quo_small (r p : R) q : fits r -> 3 <= p -> Rabs (r / p - IZR q) <= / 2 -> (Z.abs q < 2 ^ 63)%Z.
Proof.
intros H Hp Hq. apply fits_l in H. apply lt_IZR. rewrite abs_IZR.
assert (E : Rabs (r / p) <= Rabs r / 3).
{ unfold Rdiv. rewrite Rabs_mult, (Rabs_pos_eq (/ p)) by (left; apply Rinv_0_lt_compat; lra).
  apply Rmult_le_compat_l; [apply Rabs_pos|]. apply Rinv_le; lra. }
assert (Rabs (IZR q) <= Rabs (r / p) + / 2).
{ replace (IZR q) with (r / p + - (r / p - IZR q)) by ring. apply Rle_trans with (1 := Rabs_triang _ _). rewrite Rabs_Ropp. lra. }
apply Rle_lt_trans with (IZR (2 ^ 62) / 3 + / 2); [lra|]. lra.
Qed.
Lemma rem_small q : (Z.abs q < 2 ^ 63)%Z -> Z.rem q (2 ^ 63) = q.
Proof. intros H. apply Z.rem_small_iff; [lia|]. lia. Qed.
(** Floor and ceiling of the quotient. *)
Lemma quo_floor (r p : R) : fits r -> 3 <= p ->
  let rq := remquo r p in let n := if Rlt_bool (fst rq) 0 then (snd rq - 1)%Z else snd rq in
  IZR n * p <= r < IZR (n + 1) * p.
Proof.
intros Hr Hp. cbn zeta. unfold remquo. cbn [fst snd].
pose proof (Znearest_half (fun k => negb (Z.even k)) (r / p)) as H. fold ZnearestE in H.
set (q := ZnearestE (r / p)) in *. rewrite rem_small by (apply quo_small with r p; assumption).
assert (E : r / p * p = r) by (field; lra). apply Rabs_le_inv in H.
case Rlt_bool_spec; intros L; rewrite ?plus_IZR, ?minus_IZR; nra.
Qed.
Lemma quo_ceil (r p : R) : fits r -> 3 <= p ->
  let rq := remquo r p in let n := if Rlt_bool 0 (fst rq) then (snd rq + 1)%Z else snd rq in
  IZR (n - 1) * p < r <= IZR n * p.
Proof.
intros Hr Hp. cbn zeta. unfold remquo. cbn [fst snd].
pose proof (Znearest_half (fun k => negb (Z.even k)) (r / p)) as H. fold ZnearestE in H.
set (q := ZnearestE (r / p)) in *. rewrite rem_small by (apply quo_small with r p; assumption).
assert (E : r / p * p = r) by (field; lra). apply Rabs_le_inv in H.
case Rlt_bool_spec; intros L; rewrite ?plus_IZR, ?minus_IZR, ?plus_IZR; nra.
Qed.

(** ** Two branches tried from the left, from the right *)
Lemma meet b x t : wf b -> wf x -> mem t b -> mem t x -> exists z, intersection b x = ret z /\ wf z /\ mem t z.
Proof. intros Wb Wx Hb Hx. destruct (intersection_exact b x Wb Wx) as (z & E & W & H). exists z. split; [easy|]. split; [easy|]. now apply H. Qed.
Definition ordered (B : Z -> R -> Prop) := forall m m' t t', (m < m')%Z -> B m t -> B m' t' -> t <= t'.
Lemma try_left (B : Z -> R -> Prop) n b0 b1 x : wf b0 -> wf b1 -> wf x -> ordered B ->
  (forall t, B n t -> mem t b0) -> (forall t, B (n + 1)%Z t -> mem t b1) -> (exists s, B n s) -> (exists s, B (n + 1)%Z s) ->
  (exists p, ub (snd b1) p /\ lb (fst x) p) ->
  exists z, try_two (ret b0) (ret b1) x = ret z /\ wf z /\
    forall m t, B m t -> (n <= m)%Z -> mem t x -> exists s, mem s z /\ s <= t.
Proof.
intros W0 W1 Wx O H0 H1 [s0 N0] [s1 N1] (p & P1 & P2).
unfold try_two. mreds. destruct (intersection_exact b0 x W0 Wx) as (z0 & E0 & Wz0 & M0).
destruct (intersection_exact b1 x W1 Wx) as (z1 & E1 & Wz1 & M1). rewrite E0, E1. mreds. rewrite is_empty_wf by easy. mreds.
destruct (isnan (fst z0)) eqn:I; mreds.
- exists z1. split; [easy|]. split; [easy|]. intros m t Bt L Mt.
  destruct (Z.eq_dec m n) as [->|Ne].
  { assert (mem t z0) by (apply M0; auto). exfalso. now apply (nan_no_mem z0 t). }
  destruct (Z.eq_dec m (n + 1)) as [->|Ne'].
  { exists t. split; [apply M1; auto|lra]. }
  assert (S : s1 <= t) by (apply (O (n + 1)%Z m); [lia|easy|easy]).
  pose proof (H1 _ N1) as [K1 K2].
  assert (D : lb (fst x) s1 \/ (is_finite (fst x) = true /\ s1 < B2R (fst x))).
  { destruct x as [l u]. cbn [fst] in *. destruct (fviewP l) as [ | | |l Fl]; try easy; [now left|].
    rewrite lb_fin by easy. destruct (Rle_or_lt (B2R l) s1); tauto. }
  destruct D as [D|[Fl D]].
  + exists s1. split; [|easy]. apply M1. split; [easy|]. split; [easy|]. apply ub_mono with t; [apply Mt|easy].
  + exists (B2R (fst x)). rewrite (lb_fin (fst x)) in P2 by easy. destruct Mt as [Mt1 Mt2]. rewrite lb_fin in Mt1 by easy. split; [|easy].
    apply M1. split; split.
    * apply lb_mono with s1; [easy|lra].
    * now apply ub_mono with p.
    * rewrite lb_fin by easy. lra.
    * now apply ub_mono with t.
- exists z0. split; [easy|]. split; [easy|]. intros m t Bt L Mt.
  destruct (wf_nonnan z0 Wz0 I) as [s Hs]. apply M0 in Hs as [Hs1 Hs2].
  destruct (Z.eq_dec m n) as [->|Ne]. { exists t. split; [apply M0; auto|lra]. }
  assert (S : s0 <= t) by (apply (O n m); [lia|easy|easy]).
  exists (Rmin s t). split; [|apply Rmin_r]. apply M0.
  destruct Mt as [Mt1 Mt2], Hs1 as [A1 A2], Hs2 as [A3 A4]. split; split.
  + apply Rmin_case; [easy|]. apply lb_mono with s0; [apply (H0 _ N0)|easy].
  + apply ub_mono with s; [easy|apply Rmin_l].
  + now apply Rmin_case.
  + apply ub_mono with s; [easy|apply Rmin_l].
Qed.
Lemma try_right (B : Z -> R -> Prop) n b0 b1 x : wf b0 -> wf b1 -> wf x -> ordered B ->
  (forall t, B n t -> mem t b0) -> (forall t, B (n + -1)%Z t -> mem t b1) -> (exists s, B n s) -> (exists s, B (n + -1)%Z s) ->
  (exists p, lb (fst b1) p /\ ub (snd x) p) ->
  exists z, try_two (ret b0) (ret b1) x = ret z /\ wf z /\
    forall m t, B m t -> (m <= n)%Z -> mem t x -> exists s, mem s z /\ t <= s.
Proof.
intros W0 W1 Wx O H0 H1 [s0 N0] [s1 N1] (p & P1 & P2).
unfold try_two. mreds. destruct (intersection_exact b0 x W0 Wx) as (z0 & E0 & Wz0 & M0).
destruct (intersection_exact b1 x W1 Wx) as (z1 & E1 & Wz1 & M1). rewrite E0, E1. mreds. rewrite is_empty_wf by easy. mreds.
destruct (isnan (fst z0)) eqn:I; mreds.
- exists z1. split; [easy|]. split; [easy|]. intros m t Bt L Mt.
  destruct (Z.eq_dec m n) as [->|Ne].
  { assert (mem t z0) by (apply M0; auto). exfalso. now apply (nan_no_mem z0 t). }
  destruct (Z.eq_dec m (n + -1)) as [->|Ne'].
  { exists t. split; [apply M1; auto|lra]. }
  assert (S : t <= s1) by (apply (O m (n + -1)%Z); [lia|easy|easy]).
  pose proof (H1 _ N1) as [K1 K2].
  assert (D : ub (snd x) s1 \/ (is_finite (snd x) = true /\ B2R (snd x) < s1)).
  { destruct x as [l u]. cbn [snd] in *. destruct (fviewP u) as [ | | |u Fu]; try easy; [now left|].
    rewrite ub_fin by easy. destruct (Rle_or_lt s1 (B2R u)); tauto. }
  destruct D as [D|[Fl D]].
  + exists s1. split; [|easy]. apply M1. split; [easy|]. split; [|easy]. apply lb_mono with t; [apply Mt|easy].
  + exists (B2R (snd x)). rewrite (ub_fin (snd x)) in P2 by easy. destruct Mt as [Mt1 Mt2]. rewrite ub_fin in Mt2 by easy. split; [|easy].
    apply M1. split; split.
    * now apply lb_mono with p.
    * apply ub_mono with s1; [easy|lra].
    * now apply lb_mono with t.
    * rewrite ub_fin by easy. lra.
- exists z0. split; [easy|]. split; [easy|]. intros m t Bt L Mt.
  destruct (wf_nonnan z0 Wz0 I) as [s Hs]. apply M0 in Hs as [Hs1 Hs2].
  destruct (Z.eq_dec m n) as [->|Ne]. { exists t. split; [apply M0; auto|lra]. }
  assert (S : t <= s0) by (apply (O m n); [lia|easy|easy]).
  exists (Rmax s t). split; [|apply Rmax_r]. apply M0.
  destruct Mt as [Mt1 Mt2], Hs1 as [A1 A2], Hs2 as [A3 A4]. split; split.
  + apply lb_mono with s; [easy|apply Rmax_l].
  + apply Rmax_case; [easy|]. apply ub_mono with s0; [apply (H0 _ N0)|easy].
  + apply lb_mono with s; [easy|apply Rmax_l].
  + now apply Rmax_case.
Qed.

(** ** The boxes of one branch *)
Definition mirr (kind : option Z) (m : Z) : bool := match kind with None => false | Some _ => negb (Z.even m) end.
Definition off (kind : option Z) : Z := match kind with None => 0%Z | Some o => o end.
Definition eff kind m : Z := if mirr kind m then (m + off kind)%Z else m.
Definition low kind (pl cl cu : R) m : R := IZR (eff kind m) * pl + (if mirr kind m then - cu else cl).
Definition upp kind (pu cl cu : R) m : R := IZR (eff kind m) * pu + (if mirr kind m then - cl else cu).
(** The solutions of branch [m]. *)
Definition sol kind (a1 a2 : R) m t : Prop :=
  exists a, a1 <= a <= a2 /\ t = IZR (eff kind m) * PI + (if mirr kind m then - a else a).
Definition is_p (p : R) : Prop := p = @pid F \/ p = @piu F.
Lemma is_p_bounds p : is_p p -> 3 <= p <= 4.
Proof. pose proof pid_ok. pose proof piu_ok. pose proof pi34. intros [->| ->]; lra. Qed.
(** What is needed of the inverse image [a1,a2] and its rounded bounds [cl,cu]. *)
Definition base kind (a1 a2 cl cu : R) : Prop := a1 <= a2 /\ cl <= a1 /\ a2 <= cu /\
  match kind with
  | Some 1%Z => 0 <= a1 /\ a2 <= PI /\ 0 <= cl <= @pid F /\ 0 <= cu <= 4 /\ plain cl /\ plain cu
  | _ => (kind = None \/ kind = Some 0%Z) /\ - (PI / 2) <= a1 /\ a2 <= PI / 2 /\ -2 <= cl <= 2 /\ -2 <= cu <= 2
  end.
Lemma base_cases kind a1 a2 cl cu : base kind a1 a2 cl cu -> kind = None \/ kind = Some 0%Z \/ kind = Some 1%Z.
Proof. intros (_ & _ & _ & H). destruct kind as [k|]; [|tauto]. destruct k as [|[k|k|]|k]; tauto. Qed.
Lemma plain_one v : 1 <= Rabs v -> plain v.
Proof. intros H. right. apply Rle_trans with 1; [|easy]. change 1 with (bpow radix2 0). apply bpow_le. pose proof emin_small. lia. Qed.
Lemma plain_eff kind a1 a2 cl cu m p c : base kind a1 a2 cl cu -> is_p p -> c = cl \/ c = cu -> mirr kind m = true ->
  plain (IZR (- eff kind m) * p + c).
Proof.
intros B Hp Hc Hm. apply is_p_bounds in Hp. pose proof (base_cases _ _ _ _ _ B) as D. destruct B as (_ & _ & _ & B).
unfold eff. rewrite Hm. destruct D as [->|[->| ->]]; [easy| |].
- destruct B as (_ & _ & _ & B1 & B2). unfold off, mirr in *. rewrite Z.add_0_r. assert (Hc' : -2 <= c <= 2) by (destruct Hc; subst; easy).
  assert (Z : (m <= -1 \/ 1 <= m)%Z). { destruct (Z.eq_dec m 0) as [->|]; [easy|lia]. }
  apply plain_one. rewrite opp_IZR. destruct Z as [Z|Z]; apply IZR_le in Z.
  + rewrite Rabs_pos_eq; nra.
  + rewrite Rabs_left1; nra.
- destruct B as (_ & _ & B1 & B2 & P1 & P2). unfold off, mirr in *.
  assert (Hc' : 0 <= c <= 4). { pose proof pid_ok. pose proof pi34. destruct Hc; subst; [lra|easy]. }
  destruct (Z.eq_dec m (-1)) as [->|N].
  { replace (IZR (- (-1 + 1)) * p + c) with c by (simpl; lra). destruct Hc; now subst. }
  assert (O : Z.Odd m). { apply Z.odd_spec. now rewrite <- Z.negb_even. } destruct O as [q ->].
  assert (Z : (q <= -2 \/ 0 <= q)%Z) by lia.
  apply plain_one. rewrite opp_IZR. replace (2 * q + 1 + 1)%Z with (2 * (q + 1))%Z by ring. rewrite mult_IZR, plus_IZR.
  destruct Z as [Z|Z]; apply IZR_le in Z.
  + rewrite Rabs_pos_eq; nra.
  + rewrite Rabs_left1; nra.
Qed.
Definition cap : Z := (2 ^ Z.min (prec F) 62)%Z.
Lemma cap_bounds : (4 <= cap /\ cap <= 2 ^ 62 /\ cap <= 2 ^ prec F)%Z.
Proof.
pose proof (fmt_prec1 F). unfold cap. split; [|split].
- change 4%Z with (2 ^ 2)%Z. apply Z.pow_le_mono_r; lia.
- apply Z.pow_le_mono_r; lia.
- apply Z.pow_le_mono_r; lia.
Qed.
Lemma lchk_ok {A} k (m : M A) : (Z.abs k < 2 ^ 63)%Z -> lchk k m = m.
Proof. intros H. unfold lchk, in_long. destruct (Z.leb_spec (-2 ^ 63) k); [|lia]. destruct (Z.leb_spec k (2 ^ 63 - 1)); [easy|lia]. Qed.
Lemma branch_ok kind a1 a2 pl pu cl cu n d : base kind a1 a2 cl cu -> is_p pl -> is_p pu ->
  (Z.abs (n + d) < cap)%Z -> (Z.abs (n + d + off kind) < cap)%Z -> (Z.abs d <= 1)%Z ->
  exists b, branch kind pl pu cl cu n d = ret b /\
    (forall t, low kind pl cl cu (n + d) <= t -> lb (fst b) t) /\ (forall t, t <= upp kind pu cl cu (n + d) -> ub (snd b) t).
Proof.
intros B Hpl Hpu Hm Ho Hd. pose proof cap_bounds as (C1 & C2 & C3). pose proof (base_cases _ _ _ _ _ B) as D.
unfold branch. rewrite lchk_ok by lia.
assert (MV : forall t, (mirr kind (n + d) = false ->
    (low kind pl cl cu (n + d) <= t -> lb (fst (@moved F pl pu cl cu (n + d))) t) /\
    (t <= upp kind pu cl cu (n + d) -> ub (snd (@moved F pl pu cl cu (n + d))) t))).
{ intros t Em. unfold low, upp, eff. rewrite Em. unfold moved. cbn [fst snd]. rewrite tmp_exact by lia. split; intros H.
  - apply lb_mono with (2 := H), get_lb.
  - apply ub_mono with (2 := H), get_ub. }
assert (MR : forall t, (mirr kind (n + d) = true ->
    (low kind pl cl cu (n + d) <= t -> lb (fst (@mirrored F pl pu cl cu (- n - d - off kind))) t) /\
    (t <= upp kind pu cl cu (n + d) -> ub (snd (@mirrored F pl pu cl cu (- n - d - off kind))) t))).
{ intros t Em. pose proof (plain_eff _ _ _ _ _ _ pl cu B Hpl (or_intror eq_refl) Em) as P1.
  pose proof (plain_eff _ _ _ _ _ _ pu cl B Hpu (or_introl eq_refl) Em) as P2.
  unfold low, upp. unfold eff in *. rewrite Em in *. unfold mirrored. cbn [fst snd]. rewrite tmp_exact by lia.
  replace (- n - d - off kind)%Z with (- (n + d + off kind))%Z by ring. rewrite opp_IZR in *. split; intros H.
  - apply lb_fneg. apply ub_mono with (1 := get_ub' _ P1). lra.
  - apply ub_fneg. apply lb_mono with (1 := get_lb' _ P2). lra. }
destruct kind as [o|].
- unfold mirr, off in *. destruct (Z.even (n + d)) eqn:Ev.
  + eexists. split; [reflexivity|]. split; intros t; now apply MV.
  + assert (O : (Z.abs o <= 1)%Z) by (destruct D as [D|[D|D]]; try easy; injection D as ->; lia).
    rewrite !lchk_ok by lia. eexists. split; [reflexivity|]. split; intros t; now apply MR.
- eexists. split; [reflexivity|]. split; intros t; now apply MV.
Qed.
Lemma sol_in kind a1 a2 pl pu cl cu m t : base kind a1 a2 cl cu ->
  IZR (eff kind m) * pl <= IZR (eff kind m) * PI <= IZR (eff kind m) * pu -> sol kind a1 a2 m t ->
  low kind pl cl cu m <= t <= upp kind pu cl cu m.
Proof. intros (B1 & B2 & B3 & _) H (a & Ha & ->). unfold low, upp. destruct (mirr kind m); lra. Qed.
Lemma sol_ordered kind a1 a2 cl cu : base kind a1 a2 cl cu -> ordered (sol kind a1 a2).
Proof.
intros B m m' t t' L (a & Ha & ->) (a' & Ha' & ->). pose proof (base_cases _ _ _ _ _ B) as D. destruct B as (B1 & _ & _ & B).
pose proof PI_RGT_0 as HP. assert (L' : IZR m + 1 <= IZR m') by (rewrite <- plus_IZR; apply IZR_le; lia).
assert (IZR m * PI + PI <= IZR m' * PI) by nra.
unfold eff. destruct D as [->|[->| ->]]; unfold off.
- cbn [mirr]. lra.
- rewrite !Z.add_0_r. destruct (mirr (Some 0%Z) m), (mirr (Some 0%Z) m'); lra.
- rewrite ?plus_IZR. destruct (mirr (Some 1%Z) m), (mirr (Some 1%Z) m'); rewrite ?plus_IZR; lra.
Qed.
Lemma sol_some kind a1 a2 cl cu m : base kind a1 a2 cl cu -> exists t, sol kind a1 a2 m t.
Proof. intros (B & _). eexists. exists a1. split; [lra|reflexivity]. Qed.
(** A box around its branch. *)
Lemma branch_in kind a1 a2 pl pu cl cu n d : base kind a1 a2 cl cu -> is_p pl -> is_p pu ->
  (Z.abs (n + d) < cap)%Z -> (Z.abs (n + d + off kind) < cap)%Z -> (Z.abs d <= 1)%Z ->
  IZR (eff kind (n + d)) * pl <= IZR (eff kind (n + d)) * PI <= IZR (eff kind (n + d)) * pu ->
  exists b, branch kind pl pu cl cu n d = ret b /\ wf b /\ (forall t, sol kind a1 a2 (n + d) t -> mem t b) /\
    (forall t, low kind pl cl cu (n + d) <= t -> lb (fst b) t) /\ (forall t, t <= upp kind pu cl cu (n + d) -> ub (snd b) t).
Proof.
intros B Hpl Hpu Hm Ho Hd Hs. destruct (branch_ok _ _ _ pl pu _ _ n d B) as (b & E & L & U); try easy.
assert (I : forall t, sol kind a1 a2 (n + d) t -> mem t b).
{ intros t Ht. destruct (sol_in _ _ _ pl pu _ _ _ t B Hs Ht). split; auto. }
exists b. split; [easy|]. split; [|easy]. right. destruct (sol_some _ _ _ _ _ (n + d) B) as [t Ht]. exists t. auto.
Qed.
Lemma quo_cap_floor (r p : R) n : fits r -> 3 <= p -> IZR n * p <= r < IZR (n + 1) * p -> (3 * n <= cap /\ - cap - 3 < 3 * n)%Z.
Proof.
intros Hr Hp [H1 H2]. unfold fits in Hr. rewrite <- (IZR_Zpower radix2) in Hr by (pose proof (fmt_prec1 F); lia).
change (Zpower radix2 (Z.min (prec F) 62)) with cap in Hr. apply Rabs_le_inv in Hr. pose proof cap_bounds as [C _]. apply IZR_le in C.
rewrite plus_IZR in H2. split.
- apply le_IZR. rewrite mult_IZR. destruct (Rle_or_lt (IZR n) 0); nra.
- apply lt_IZR. rewrite mult_IZR, minus_IZR, opp_IZR. destruct (Rle_or_lt 0 (IZR n + 1)); nra.
Qed.
Lemma quo_cap_ceil (r p : R) n : fits r -> 3 <= p -> IZR (n - 1) * p < r <= IZR n * p -> (3 * n < cap + 3 /\ - cap <= 3 * n)%Z.
Proof.
intros Hr Hp [H1 H2]. unfold fits in Hr. rewrite <- (IZR_Zpower radix2) in Hr by (pose proof (fmt_prec1 F); lia).
change (Zpower radix2 (Z.min (prec F) 62)) with cap in Hr. apply Rabs_le_inv in Hr. pose proof cap_bounds as [C _]. apply IZR_le in C.
rewrite minus_IZR in H1. split.
- apply lt_IZR. rewrite mult_IZR, plus_IZR. destruct (Rle_or_lt (IZR n - 1) 0); nra.
- apply le_IZR. rewrite mult_IZR, opp_IZR. destruct (Rle_or_lt 0 (IZR n)); nra.
Qed.

(** ** The left and the right end *)
Definition around0 kind (cl cu : R) : Prop := match kind with Some 1%Z => True | _ => cl <= 0 <= cu end.
Lemma left_ok kind a1 a2 cl cu x : base kind a1 a2 cl cu -> wf x -> is_finite (fst x) = true -> fits (B2R (fst x)) ->
  around0 kind cl cu ->
  exists z, left_box kind cl cu x = ret z /\ wf z /\
    forall m t, sol kind a1 a2 m t -> (forall n, IZR n * PI <= t -> (n <= m)%Z) -> mem t x -> exists s, mem s z /\ s <= t.
Proof.
intros B Wx Fx Hf A. unfold left_box.
assert (E1 : feq (fst x) fminf = false). { destruct (fst x) as [| | |]; easy. } rewrite E1.
set (neg := flt (fst x) f0). set (p := if neg then @pid F else @piu F). set (pl := if neg then @piu F else @pid F).
assert (Hp : is_p p) by (unfold p, is_p; destruct neg; tauto). assert (Hpl : is_p pl) by (unfold pl, is_p; destruct neg; tauto).
pose proof (is_p_bounds _ Hp) as Bp. pose proof (is_p_bounds _ Hpl) as Bpl. pose proof pid_ok as PD. pose proof piu_ok as PU.
pose proof (quo_floor (B2R (fst x)) p Hf (proj1 Bp)) as Q. cbn zeta in *.
set (rq := remquo (B2R (fst x)) p) in *. set (n := if Rlt_bool (fst rq) 0 then (snd rq - 1)%Z else snd rq) in *.
pose proof (quo_cap_floor _ _ _ Hf (proj1 Bp) Q) as [N1 N2]. pose proof cap_bounds as (C1 & C2 & C3).
assert (Of : (0 <= off kind <= 1)%Z). { destruct (base_cases _ _ _ _ _ B) as [->|[->| ->]]; cbn; lia. }
rewrite lchk_ok by lia.
(* the sign of the branch numbers *)
assert (S : (neg = true /\ (n <= -1)%Z) \/ (neg = false /\ (0 <= n)%Z)).
{ assert (N : neg = true <-> B2R (fst x) < 0).
  { unfold neg. rewrite flt_fin by easy. change (B2R f0) with 0. case Rlt_bool_spec; split; intros; try easy; lra. }
  rewrite plus_IZR in Q. destruct neg.
  - left. split; [easy|]. assert (n < 0)%Z; [|lia]. apply lt_IZR. assert (B2R (fst x) < 0) by now apply N. nra.
  - right. split; [easy|]. assert (0 < n + 1)%Z; [|lia]. apply lt_IZR. rewrite plus_IZR.
    assert (0 <= B2R (fst x)). { apply Rnot_lt_le. intros H. now apply N in H. } nra. }
assert (T : forall m, (n <= m <= n + 1)%Z -> IZR (eff kind m) * pl <= IZR (eff kind m) * PI <= IZR (eff kind m) * p).
{ intros m Hm. destruct S as [[S1 S2]|[S1 S2]]; unfold pl, p; rewrite S1.
  - assert (Z : (eff kind m <= 0)%Z).
    { unfold eff. destruct (mirr kind m) eqn:Em; [|lia]. assert (m <> 0)%Z by (intros ->; now destruct kind). lia. }
    apply IZR_le in Z. nra.
  - assert (Z : (0 <= eff kind m)%Z) by (unfold eff; destruct mirr; lia). apply IZR_le in Z. nra. }
destruct (branch_in kind a1 a2 pl p cl cu n 0 B) as (b0 & E0 & W0 & I0 & _); try easy; try lia.
{ apply T. lia. }
destruct (branch_in kind a1 a2 pl p cl cu n 1 B) as (b1 & E1' & W1 & I1 & _ & U1); try easy; try lia.
{ apply T. lia. }
rewrite E0, E1'. rewrite Z.add_0_r in *.
destruct (try_left (sol kind a1 a2) n b0 b1 x) as (z & Ez & Wz & Hz); try easy.
- now apply sol_ordered with cl cu.
- now apply sol_some with cl cu.
- now apply sol_some with cl cu.
- exists (B2R (fst x)). split; [|rewrite lb_fin by easy; lra]. apply U1. unfold upp, eff.
  pose proof (base_cases _ _ _ _ _ B) as D. destruct B as (B1 & B2 & B3 & B4). destruct Q as [_ Q]. destruct D as [->|[->| ->]]; unfold off in *; cbn [around0] in A.
  + cbn [mirr]. lra.
  + rewrite Z.add_0_r. destruct mirr; lra.
  + destruct mirr; [|lra]. rewrite (plus_IZR (n + 1)). unfold p in *. destruct neg; nra.
- exists z. split; [easy|]. split; [easy|]. intros m t St Hm Mt. apply Hz with m; try easy. apply Hm.
  destruct Mt as [Mt _]. rewrite lb_fin in Mt by easy. apply Rle_trans with (2 := Mt). apply Rle_trans with (2 := proj1 Q).
  destruct S as [[S1 S2]|[S1 S2]]; unfold p; rewrite S1; apply IZR_le in S2; nra.
Qed.
Lemma right_ok kind up a1 a2 cl cu x : base kind a1 a2 cl cu -> wf x -> is_finite (snd x) = true -> fits (B2R (snd x)) ->
  around0 kind cl cu -> up = (match kind with Some 1%Z => false | _ => true end) ->
  exists z, right_box kind up cl cu x = ret z /\ wf z /\
    forall m t, sol kind a1 a2 m t -> (forall n, (if up then t <= IZR n * PI else t < IZR (n + 1) * PI) -> (m <= n)%Z) -> mem t x -> exists s, mem s z /\ t <= s.
Proof.
intros B Wx Fx Hf A Hup. unfold right_box.
assert (E1 : feq (snd x) finf = false). { destruct (snd x) as [| | |]; easy. } rewrite E1.
set (pos := fgt (snd x) f0). set (p := if pos then @pid F else @piu F). set (pu := if pos then @piu F else @pid F).
assert (Hp : is_p p) by (unfold p, is_p; destruct pos; tauto). assert (Hpu : is_p pu) by (unfold pu, is_p; destruct pos; tauto).
pose proof (is_p_bounds _ Hp) as Bp. pose proof (is_p_bounds _ Hpu) as Bpu. pose proof pid_ok as PD. pose proof piu_ok as PU.
pose proof (quo_floor (B2R (snd x)) p Hf (proj1 Bp)) as QF. pose proof (quo_ceil (B2R (snd x)) p Hf (proj1 Bp)) as QC. cbn zeta in *.
set (rq := remquo (B2R (snd x)) p) in *.
set (n := if up then _ else _).
assert (Q : if up then IZR (n - 1) * p < B2R (snd x) <= IZR n * p else IZR n * p <= B2R (snd x) < IZR (n + 1) * p).
{ unfold n. destruct up; [exact QC|exact QF]. }
clear QF QC. clearbody n rq. pose proof cap_bounds as (C1 & C2 & C3).
assert (N : (- cap - 3 < 3 * n < cap + 3)%Z /\ (up = false -> 3 * n <= cap)%Z /\ (up = true -> - cap <= 3 * n)%Z).
{ destruct up; [pose proof (quo_cap_ceil _ _ _ Hf (proj1 Bp) Q)|pose proof (quo_cap_floor _ _ _ Hf (proj1 Bp) Q)]; repeat split; try lia; easy. }
assert (Ofu : (up = true /\ off kind = 0)%Z \/ (up = false /\ off kind = 1 /\ kind = Some 1)%Z). { destruct (base_cases _ _ _ _ _ B) as [->|[->| ->]]; subst up; cbn; tauto. }
rewrite lchk_ok by lia.
assert (S : (pos = true /\ (if up then 1 <= n else 0 <= n)%Z) \/ (pos = false /\ B2R (snd x) <= 0 /\ (n <= 0)%Z)).
{ assert (P : pos = true <-> 0 < B2R (snd x)).
  { unfold pos. change (fgt (snd x) f0) with (flt f0 (snd x)). rewrite flt_fin by easy. change (B2R f0) with 0. case Rlt_bool_spec; split; intros; try easy; lra. }
  destruct pos.
  - left. split; [easy|]. assert (0 < B2R (snd x)) by now apply P. destruct up.
    + assert (0 < n)%Z; [|lia]. apply lt_IZR. nra.
    + assert (0 < n + 1)%Z; [|lia]. apply lt_IZR. nra.
  - right. split; [easy|]. assert (B2R (snd x) <= 0). { apply Rnot_lt_le. intros H. now apply P in H. } split; [easy|]. destruct up.
    + assert (n - 1 < 0)%Z; [|lia]. apply lt_IZR. nra.
    + apply le_IZR. nra. }
assert (T : forall m, (n + -1 <= m <= n)%Z -> IZR (eff kind m) * p <= IZR (eff kind m) * PI <= IZR (eff kind m) * pu).
{ intros m Hm. destruct S as [[S1 S2]|(S1 & S2 & S3)]; unfold pu, p; rewrite S1.
  - assert (Z : (0 <= eff kind m)%Z).
    { unfold eff. destruct Ofu as [[-> O]|(-> & O & ->)]; rewrite ?O; [destruct mirr; lia|]. destruct (mirr (Some 1%Z) m) eqn:Em; [lia|].
      assert (m <> -1)%Z by (intros ->; easy). lia. }
    apply IZR_le in Z. nra.
  - assert (Z : (eff kind m <= 0)%Z).
    { unfold eff. destruct (mirr kind m) eqn:Em; [|lia]. assert (m <> 0)%Z by (intros ->; now destruct kind). lia. }
    apply IZR_le in Z. nra. }
destruct (branch_in kind a1 a2 p pu cl cu n 0 B) as (b0 & E0 & W0 & I0 & _); try easy; try lia.
{ apply T. lia. }
destruct (branch_in kind a1 a2 p pu cl cu n (-1) B) as (b1 & E1' & W1 & I1 & L1 & _); try easy; try lia.
{ apply T. lia. }
rewrite E0, E1'. rewrite Z.add_0_r in *.
destruct (try_right (sol kind a1 a2) n b0 b1 x) as (z & Ez & Wz & Hz); try easy.
- now apply sol_ordered with cl cu.
- now apply sol_some with cl cu.
- now apply sol_some with cl cu.
- exists (B2R (snd x)). split; [|rewrite ub_fin by easy; lra]. apply L1. unfold low, eff.
  pose proof (base_cases _ _ _ _ _ B) as D. destruct B as (B1 & B2 & B3 & B4). destruct D as [->|[->| ->]]; unfold off in *; cbn [around0] in A; subst up.
  + cbn [mirr]. unfold Z.sub in Q. change (- (1))%Z with (-1)%Z in Q. lra.
  + rewrite Z.add_0_r. unfold Z.sub in Q. change (- (1))%Z with (-1)%Z in Q. destruct mirr; lra.
  + destruct mirr; [|].
    * replace (n + -1 + 1)%Z with n by ring. lra.
    * rewrite plus_IZR. unfold p in *. destruct pos; nra.
- exists z. split; [easy|]. split; [easy|]. intros m t St Hm Mt. apply Hz with m; try easy. apply Hm.
  destruct Mt as [_ Mt]. rewrite ub_fin in Mt by easy.
  destruct up.
  + apply Rle_trans with (1 := Mt). apply Rle_trans with (1 := proj2 Q).
    destruct S as [[S1 S2]|(S1 & _ & S2)]; unfold p; rewrite S1; apply IZR_le in S2; nra.
  + apply Rle_lt_trans with (1 := Mt). destruct S as [[S1 S2]|(S1 & S0 & S2)].
    * apply Rlt_le_trans with (1 := proj2 Q). unfold p; rewrite S1. apply IZR_le in S2. rewrite plus_IZR. nra.
    * destruct (Z.eq_dec n 0) as [->|Nz]; [pose proof PI_RGT_0; simpl; lra|].
      apply Rlt_le_trans with (1 := proj2 Q). unfold p; rewrite S1. assert (Z : (n + 1 <= 0)%Z) by lia. apply IZR_le in Z. nra.
Qed.
End T.
