(** * Proofs: the tangent is tightest *)
From Coq Require Import ZArith QArith Qreals Reals Bool Lia Lra Classical.
From Flocq Require Import Core.Core Mult_error IEEE754.BinarySingleNaN.
From Verif Require Import Fmt Spec FloatFacts Exc Deco SpecApi SpecElem SpecTan SpecTan2 MBase PBase MArith PArith PMul PElem PElem2 MTrig PTrig PNum PTan PTanF PTanOff PTan64 PTanIff PDec PDecT PConv MMixed PMixed Ex.
Local Open Scope R_scope.

Lemma tan_pole_high k d B : 0 < d -> exists t, PI / 2 + IZR k * PI - d < t < PI / 2 + IZR k * PI /\ cos t <> 0 /\ B <= tan t.
Proof.
intros Hd. pose proof PI_RGT_0 as HP. set (th := Rmax (atan (Rmax B 1)) (PI / 2 - Rmin (d / 2) 1)).
assert (D1 := Rmin_l (d / 2) 1). assert (D2 := Rmin_r (d / 2) 1). assert (D3 : 0 < Rmin (d / 2) 1) by (apply Rmin_pos; lra).
pose proof (atan_bound (Rmax B 1)) as [A1 A2]. pose proof PI2_3_2.
assert (T1 : th < PI / 2) by (apply Rmax_lub_lt; lra).
pose proof (Rmax_l (atan (Rmax B 1)) (PI / 2 - Rmin (d / 2) 1)) as T2. fold th in T2.
pose proof (Rmax_r (atan (Rmax B 1)) (PI / 2 - Rmin (d / 2) 1)) as T3. fold th in T3.
assert (C : 0 < cos th) by (apply cos_gt_0; lra).
exists (th + IZR k * PI). split; [lra|]. split; [rewrite cos_pi_shift; lra|].
rewrite tan_pi_shift by lra. apply Rle_trans with (Rmax B 1); [apply Rmax_l|].
rewrite <- (tan_atan (Rmax B 1)). destruct (Rle_lt_or_eq_dec _ _ T2) as [L|L]; [left; apply tan_increasing; lra|rewrite <- L; lra].
Qed.
Lemma tan_pole_low k d B : 0 < d -> exists t, PI / 2 + IZR k * PI < t < PI / 2 + IZR k * PI + d /\ cos t <> 0 /\ tan t <= B.
Proof.
intros Hd. destruct (tan_pole_high (- k - 1) d (- B) Hd) as (t & H1 & H2 & H3). exists (- t).
rewrite minus_IZR, opp_IZR in H1. split; [lra|]. rewrite cos_neg, tan_neg. split; [easy|lra].
Qed.

Section W.
Context {F : fmt}.
Implicit Types x z : itv F.
(** A pole that is no end point: the tangents of the members are unbounded on both sides. *)
Lemma pole_entire x k d : 0 < d -> (forall t, PI / 2 + IZR k * PI - d < t < PI / 2 + IZR k * PI + d -> mem t x) ->
  tightest (image1 tan_dom tan x) (@entire F).
Proof.
intros Hd Hx. split; [right; now exists 0|]. split; [now intros r _|]. intros w _ Ew r _.
destruct (tan_pole_high k d r Hd) as (t & T1 & T2 & T3). destruct (tan_pole_low k d r Hd) as (s & S1 & S2 & S3).
assert (Mt : mem (tan t) w) by (apply Ew; exists t; split; [apply Hx; lra|now split]).
assert (Ms : mem (tan s) w) by (apply Ew; exists s; split; [apply Hx; lra|now split]).
split; [apply lb_mono with (1 := proj1 Ms)|apply ub_mono with (1 := proj2 Mt)]; easy.
Qed.
Lemma pole_inside x p : mem p x -> cos p = 0 -> tightest (image1 tan_dom tan x) (@entire F).
Proof.
intros [H1 H2] C. destruct x as [l u]; cbn [fst snd] in *. pose proof C as C'. apply cos_eq_0_0 in C'. destruct C' as [k Hk].
assert (L : exists d, 0 < d /\ lb l (p - d)).
{ destruct (fviewP l) as [ | | |l Fl]; try easy; [exists 1; split; [lra|easy]|]. rewrite lb_fin in H1 by easy.
  exists ((p - B2R l)). rewrite lb_fin by easy. split; [|lra]. destruct (Req_dec p (B2R l)) as [E|E]; [|lra].
  exfalso. apply (cos_nz (B2R l) (rational_B2R l)). now rewrite <- E. }
assert (U : exists d, 0 < d /\ ub u (p + d)).
{ destruct (fviewP u) as [ | | |u Fu]; try easy; [exists 1; split; [lra|easy]|]. rewrite ub_fin in H2 by easy.
  exists ((B2R u - p)). rewrite ub_fin by easy. split; [|lra]. destruct (Req_dec p (B2R u)) as [E|E]; [|lra].
  exfalso. apply (cos_nz (B2R u) (rational_B2R u)). now rewrite <- E. }
destruct L as (d1 & D1 & L), U as (d2 & D2 & U). apply (pole_entire _ k (Rmin d1 d2)); [now apply Rmin_pos|].
pose proof (Rmin_l d1 d2). pose proof (Rmin_r d1 d2). intros t Ht.
split; cbn [fst snd]; [apply lb_mono with (1 := L)|apply ub_mono with (1 := U)]; lra.
Qed.

(** ** No pole: not wider than the number below pi *)
Definition pi_low : Prop := forall a b : float F, is_finite a = true -> is_finite b = true ->
  PI / 2 < B2R a < 2 -> B2R b < 3 * (PI / 2) -> B2R b - B2R a <= B2R (@mpfr_const_pi F mode_DN).
Lemma pi_best (r : R) : generic_format radix2 (fexp F) r -> 0 <= r -> r <= PI -> r <= B2R (@mpfr_const_pi F mode_DN).
Proof.
intros G P L. pose proof PI_4. destruct (fmt_float r G) as (f & Ff & Ef).
{ rewrite Rabs_pos_eq by easy. apply Rle_lt_trans with (bpow radix2 2); [simpl; lra|]. apply bpow_lt. pose proof (@emax3 F). lia. }
pose proof (rround_RD false PI : is_RD PI (@mpfr_const_pi F mode_DN)) as [_ H2].
specialize (H2 f). rewrite lb_fin, Ef in H2 by easy. specialize (H2 L (B2R (@mpfr_const_pi F mode_DN))).
destruct (@pi_fin F) as [P1 _]. rewrite !lb_fin in H2 by easy. rewrite Ef in H2. apply H2. lra.
Qed.
(** Multiples of 2^(2-prec) up to 4 in size are numbers of the format. *)
Lemma grid_format (m : Z) : Rabs (IZR m * bpow radix2 (2 - prec F)) < 4 -> generic_format radix2 (fexp F) (IZR m * bpow radix2 (2 - prec F)).
Proof.
intros H. pose proof (fmt_prec1 F). pose proof (fmt_emax F). apply generic_format_FLT. exists (Float radix2 m (2 - prec F)).
- reflexivity.
- cbn [Fnum]. rewrite Rabs_mult, (Rabs_pos_eq (bpow _ _)) in H by apply bpow_ge_0. change 4 with (bpow radix2 2) in H.
  replace 2%Z with (prec F + (2 - prec F))%Z in H at 2 by lia. rewrite bpow_plus in H. apply Rmult_lt_reg_r in H; [|apply bpow_gt_0].
  rewrite <- abs_IZR, <- IZR_Zpower in H by lia. now apply lt_IZR in H.
- cbn [Fexp]. unfold emin, SpecFloat.emin. lia.
Qed.
Lemma big_grid (a : float F) : 2 <= Rabs (B2R a) -> exists m, B2R a = IZR m * bpow radix2 (2 - prec F).
Proof.
intros H. pose proof (B2R_format a) as G. unfold generic_format in G. set (e := cexp radix2 (fexp F) (B2R a)) in *.
assert (E : (2 - prec F <= e)%Z).
{ unfold e, cexp. assert (2 <= mag radix2 (B2R a))%Z. { apply mag_ge_bpow. simpl. lra. } unfold fexp, SpecFloat.fexp. lia. }
set (n := Ztrunc (scaled_mantissa radix2 (fexp F) (B2R a))) in *. exists (n * radix2 ^ (e - (2 - prec F)))%Z.
rewrite G. unfold F2R. cbn [Fnum Fexp]. rewrite mult_IZR, IZR_Zpower by lia. rewrite Rmult_assoc, <- bpow_plus. do 2 f_equal. lia.
Qed.
Lemma double_format (a : float F) : generic_format radix2 (fexp F) (2 * B2R a).
Proof.
replace (2 * B2R a) with (B2R a * bpow radix2 1) by (simpl; lra). apply (mult_bpow_pos_exact_FLT radix2 (SpecFloat.emin (prec F) (emax F)) (prec F)); [apply generic_format_B2R|lia].
Qed.
Lemma narrow_pos (a b : float F) k : pi_low -> is_finite a = true -> is_finite b = true -> (1 <= k)%Z ->
  PI / 2 + IZR (k - 1) * PI < B2R a -> B2R a <= B2R b -> B2R b < PI / 2 + IZR k * PI -> B2R b - B2R a <= B2R (@mpfr_const_pi F mode_DN).
Proof.
intros Lo Fa Fb Hk Ha Hab Hb. pose proof PI_RGT_0. pose proof PI_4. pose proof PI2_3_2. rewrite minus_IZR in Ha.
apply IZR_le in Hk. assert (A0 : PI / 2 < B2R a) by nra.
destruct (Rlt_or_le (B2R a) 2) as [A2|A2].
- apply Lo; try easy. assert (K2 : IZR k < 2). { apply Rnot_le_lt. intros K. nra. } apply (lt_IZR k 2) in K2. apply le_IZR in Hk.
  replace k with 1%Z in Hb by lia. lra.
- destruct (big_grid a) as [m Em]; [rewrite Rabs_pos_eq; lra|]. destruct (big_grid b) as [n En]; [rewrite Rabs_pos_eq; lra|].
  assert (E : B2R b - B2R a = IZR (n - m) * bpow radix2 (2 - prec F)) by (rewrite minus_IZR, Em, En; ring).
  apply pi_best; [|lra|nra]. rewrite E. apply grid_format. rewrite <- E. rewrite Rabs_pos_eq by lra. nra.
Qed.
Lemma narrow (a b : float F) : pi_low -> is_finite a = true -> is_finite b = true -> B2R a <= B2R b ->
  (forall t, B2R a <= t <= B2R b -> cos t <> 0) -> B2R b - B2R a <= B2R (@mpfr_const_pi F mode_DN).
Proof.
intros Lo Fa Fb Hab N. destruct (reduce_pi (B2R a)) as [k Hk]; [apply cos_nz, rational_B2R|].
assert (B : B2R b < PI / 2 + IZR k * PI).
{ apply Rnot_le_lt. intros L. apply (N (PI / 2 + IZR k * PI)); [lra|]. apply cos_pi_shift. apply cos_PI2. }
destruct (Z.lt_trichotomy k 0) as [K|[->|K]].
- assert (E : B2R b - B2R a = B2R (fneg a) - B2R (fneg b)) by (rewrite !B2R_fneg; ring). rewrite E.
  apply (narrow_pos (fneg b) (fneg a) (- k)); [exact Lo|now rewrite is_finite_fneg|now rewrite is_finite_fneg|lia|..].
  + rewrite B2R_fneg, minus_IZR, opp_IZR. lra.
  + rewrite !B2R_fneg. lra.
  + rewrite B2R_fneg, opp_IZR. lra.
- assert (H1 : B2R b <= B2R (@mpfr_const_pi F mode_DN) / 2).
  { destruct (Rle_or_lt (B2R b) 0) as [Q|Q]; [destruct (@pi_fin F) as [_ P2]; lra|].
    assert (2 * B2R b <= B2R (@mpfr_const_pi F mode_DN)); [|lra]. apply pi_best; [apply double_format|lra|lra]. }
  assert (H2 : - B2R a <= B2R (@mpfr_const_pi F mode_DN) / 2).
  { destruct (Rle_or_lt 0 (B2R a)) as [Q|Q]; [destruct (@pi_fin F) as [_ P2]; lra|].
    assert (2 * B2R (fneg a) <= B2R (@mpfr_const_pi F mode_DN)); [|rewrite B2R_fneg in *; lra].
    apply pi_best; [apply double_format|rewrite B2R_fneg; lra|rewrite B2R_fneg; lra]. }
  lra.
- apply (narrow_pos a b k); try easy; try lia. rewrite minus_IZR. lra.
Qed.

Lemma unbounded_pole x r : mem r x -> ~ bounded_rep x -> exists p, mem p x /\ cos p = 0.
Proof.
intros [H1 H2] NB. destruct x as [l u]; cbn [fst snd] in *. pose proof PI_RGT_0 as HP.
set (k := Zfloor (r / PI)). assert (K : IZR k * PI <= r < (IZR k + 1) * PI).
{ pose proof (Zfloor_lb (r / PI)). pose proof (Zfloor_ub (r / PI)). fold k in H, H0.
  assert (E : r = r / PI * PI) by (field; lra). split; rewrite E at 1; nra. }
destruct (fviewP l) as [ | | |l Fl]; try easy.
- exists (PI / 2 + IZR (k - 1) * PI). split; [|apply cos_pi_shift, cos_PI2]. split; cbn [fst snd]; [easy|].
  apply ub_mono with (1 := H2). rewrite minus_IZR. lra.
- destruct (fviewP u) as [ | | |u Fu]; try easy.
  + exists (PI / 2 + IZR (k + 1) * PI). split; [|apply cos_pi_shift, cos_PI2]. split; cbn [fst snd]; [|easy].
    apply lb_mono with (1 := H1). rewrite plus_IZR. lra.
  + exfalso. apply NB. now split.
Qed.

Lemma tan_tight x : pi_low -> wf x -> pole_seen x -> computes_tightest (tan_itv x) (image1 tan_dom tan x).
Proof.
intros Lo W Hs. destruct (tan_general x W Hs) as (z & Z1 & Z2 & Z3 & Z4).
destruct (classic (exists p, mem p x /\ cos p = 0)) as [(p & Hp & Cp)|N].
- exists z. split; [easy|]. pose proof (pole_inside x p Hp Cp) as T. split; [easy|]. split; [easy|].
  intros w Ww Ew r _. apply (proj2 (proj2 T) w Ww Ew). easy.
- assert (N' : forall r, mem r x -> cos r <> 0) by (intros r Hr C; apply N; now exists r).
  destruct (isnan (fst x)) eqn:Ex.
  { apply wf_nan_l in Ex; [|easy]. subst x. exists z. split; [easy|]. split; [easy|]. split; [easy|].
    assert (E : z = empty). { apply returns_eq in Z1. revert Z1. unfold tan_itv. vred. intros Z1. apply (f_equal (fun m => m (Est 0 0))) in Z1. now injection Z1 as <-. }
    subst z. intros w _ _ r Hr. now apply mem_empty in Hr. }
  destruct (wf_nonempty x W Ex) as [r Hr].
  assert (B : bounded_rep x) by (apply NNPP; intros NB; apply N; now apply (unbounded_pole x r)).
  exists z. split; [easy|]. apply Z4; try easy. destruct B as [B1 B2].
  assert (Hm : forall r, mem r x <-> B2R (fst x) <= r <= B2R (snd x)) by (intros t; unfold mem; now rewrite lb_fin, ub_fin).
  apply narrow; try easy; [apply Hm in Hr; lra|]. intros t Ht. apply N'. now apply Hm.
Qed.
End W.

Ltac low_tac := intros a b Fa Fb [Ha _] Hb; pose proof pi_bounds as [Hlo Hhi]; pib.
Lemma low32 : @pi_low binary32.
Proof.
low_tac.
assert (A : B2R (fl binary32 13176795 (-23)) <= B2R a).
{ assert (B2R (fneg a) <= B2R (fl binary32 (-13176795) (-23))).
  { apply below_next with (fl binary32 (-13176794) (-23)); rewrite ?is_finite_fneg; try easy; try (vm_compute; reflexivity). rewrite B2R_fneg. litval. lra. }
  rewrite B2R_fneg in H. revert H. litval. lra. }
assert (B : B2R b <= B2R (fl binary32 9882595 (-21))).
{ apply below_next with (fl binary32 9882596 (-21)); try easy; try (vm_compute; reflexivity). litval. lra. }
assert (P : B2R (fl binary32 13176794 (-22)) <= B2R (@mpfr_const_pi binary32 mode_DN)).
{ apply pi_best; [apply generic_format_B2R| |]; litval; lra. }
revert A B P. litval. lra.
Qed.
Lemma low64 : @pi_low binary64.
Proof.
low_tac.
assert (A : B2R (fl binary64 7074237752028441 (-52)) <= B2R a).
{ assert (B2R (fneg a) <= B2R (fl binary64 (-7074237752028441) (-52))).
  { apply below_next with (fl binary64 (-7074237752028440) (-52)); rewrite ?is_finite_fneg; try easy; try (vm_compute; reflexivity). rewrite B2R_fneg. litval. lra. }
  rewrite B2R_fneg in H. revert H. litval. lra. }
assert (B : B2R b <= B2R (fl binary64 5305678314021330 (-50))).
{ apply below_next with (fl binary64 5305678314021331 (-50)); try easy; try (vm_compute; reflexivity). litval. lra. }
assert (P : B2R (fl binary64 7074237752028440 (-51)) <= B2R (@mpfr_const_pi binary64 mode_DN)).
{ apply pi_best; [apply generic_format_B2R| |]; litval; lra. }
revert A B P. litval. lra.
Qed.
Lemma low80 : @pi_low binary80.
Proof.
low_tac.
assert (A : B2R (fl binary80 14488038916154245685 (-63)) <= B2R a).
{ assert (B2R (fneg a) <= B2R (fl binary80 (-14488038916154245685) (-63))).
  { apply below_next with (fl binary80 (-14488038916154245684) (-63)); rewrite ?is_finite_fneg; try easy; try (vm_compute; reflexivity). rewrite B2R_fneg. litval. lra. }
  rewrite B2R_fneg in H. revert H. litval. lra. }
assert (B : B2R b <= B2R (fl binary80 10866029187115684263 (-61))).
{ apply below_next with (fl binary80 10866029187115684264 (-61)); try easy; try (vm_compute; reflexivity). litval. lra. }
assert (P : B2R (fl binary80 14488038916154245684 (-62)) <= B2R (@mpfr_const_pi binary80 mode_DN)).
{ apply pi_best; [apply generic_format_B2R| |]; litval; lra. }
revert A B P. litval. lra.
Qed.

Definition std3 (F : fmt) : Prop := F = binary32 \/ F = binary64 \/ F = binary80.
Lemma low_std F : std3 F -> @pi_low F.
Proof. intros [-> |[-> | ->]]; [apply low32|apply low64|apply low80]. Qed.
Lemma tight_encl {F} (m : M (itv F)) S : computes_tightest m S -> computes_enclosure m S.
Proof. intros (z & H1 & H2 & H3 & _). now exists z. Qed.
Lemma tan_tight_iff F (x : itv F) : std3 F -> wf x -> (computes_tightest (tan_itv x) (image1 tan_dom tan x) <-> ~ pole_hidden F x).
Proof.
intros S W. split; [intros H; apply tan_iff; [easy|now apply tight_encl]|]. intros H. apply tan_tight; [now apply low_std|easy|now apply hidden_iff].
Qed.
Lemma tan_mixed_tight_iff (T F : fmt) (x : itv F) : comparable T F -> std3 (pmax T F) -> wf x ->
  (computes_tightest (tan_mixed T x) (image1 tan_dom tan x) <-> ~ pole_hidden (pmax T F) x).
Proof.
intros HC S Wx. split; [intros H; apply tan_mixed_iff; [easy|easy|now apply tight_encl]|]. intros H.
destruct (within_pmax T F HC) as [A B]. set (W := pmax T F) in *.
destruct (tan_tight (convert_hull W x)) as (z & H1 & H2); [now apply low_std|now apply wf_convert_hull| |].
- apply hidden_iff. now rewrite (hidden_widen W x B Wx).
- exists (convert_hull T z). split; [apply returns_eq; apply mixed1_ret; [easy|]; now apply returns_eq|].
  apply tightest_narrow; [easy|]. revert H2. apply tightest_ext. intros t.
  split; intros (r & R1 & R2 & ->); exists r; (split; [now apply (convert_hull_exact W x B Wx)|easy]).
Qed.
Lemma tan_tight_two F (x : itv F) : F = binary32 \/ F = binary80 -> wf x -> computes_tightest (tan_itv x) (image1 tan_dom tan x).
Proof. intros E W. apply tan_tight_iff; [unfold std3; tauto|easy|]. apply no_hidden_self; [easy|]. tauto. Qed.
