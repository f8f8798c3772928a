(** * Proofs: integer power is tightest *)

From Coq Require Import ZArith NArith Reals Bool Lia Lra Psatz.
From Flocq Require Import Core.Core IEEE754.BinarySingleNaN.
From Verif Require Import Fmt Spec FloatFacts Exc Deco SpecApi SpecElem MBase PBase MBool MArith PArith
  PMul PFma PDiv PUnary PBool PSetop MElem PElem PElem2 MPow.

Local Open Scope R_scope.

(** ** Real facts *)
Section Reals.
Variable n : nat.
Hypothesis Hn : (1 <= n)%nat.
Definition hinv (t : R) : R := / t ^ n.

Lemma pow_ge1 t : 1 <= t -> t <= t ^ n.
Proof.
intros H. destruct n as [|k]; [lia|]. simpl.
assert (1 <= t ^ k) by now apply pow_R1_Rle. nra.
Qed.
Lemma pow_pos_le s t : 0 <= s <= t -> s ^ n <= t ^ n. Proof. intros; now apply pow_incr. Qed.
Lemma hinv_pos t : 0 < t -> 0 < hinv t. Proof. intros. apply Rinv_0_lt_compat. now apply pow_lt. Qed.
Lemma hinv_le s t : 0 < s -> s <= t -> hinv t <= hinv s.
Proof. intros H1 H2. apply Rinv_le; [now apply pow_lt|]. apply pow_incr; lra. Qed.
Lemma hinv_small e : 0 < e -> exists M, 0 < M /\ forall t, M <= t -> hinv t < e.
Proof.
intros He. exists (Rmax 1 (2 / e)). assert (H1 := Rmax_l 1 (2 / e)). assert (H2 := Rmax_r 1 (2 / e)).
split; [lra|]. intros t Ht. apply Rle_lt_trans with (/ t).
- apply Rinv_le; [lra|]. apply pow_ge1; lra.
- assert (0 < 2 / e) by (apply Rdiv_lt_0_compat; lra).
  apply Rmult_lt_reg_l with t; [lra|]. rewrite Rinv_r by lra.
  apply Rlt_le_trans with (2 / e * e); [|apply Rmult_le_compat_r; lra].
  unfold Rdiv. rewrite Rmult_assoc, Rinv_l by lra. lra.
Qed.
Lemma hinv_big B : exists d, 0 < d /\ forall t, 0 < t <= d -> B < hinv t.
Proof.
exists (/ (Rmax 1 (B + 1))). assert (H1 := Rmax_l 1 (B + 1)). assert (H2 := Rmax_r 1 (B + 1)).
split; [apply Rinv_0_lt_compat; lra|]. intros t Ht.
apply Rlt_le_trans with (/ t).
- apply Rlt_le_trans with (Rmax 1 (B + 1)); [lra|]. rewrite <- (Rinv_inv (Rmax 1 (B + 1))). apply Rinv_le; lra.
- apply Rinv_le; [now apply pow_lt|].
  destruct n as [|k]; [lia|]. simpl.
  assert (t <= 1). { apply Rle_trans with (1 := proj2 Ht). apply Rle_trans with (/ 1); [apply Rinv_le; lra|lra]. }
  assert (0 < t ^ k <= 1). { split; [now apply pow_lt|]. rewrite <- (pow1 k). apply pow_incr. lra. }
  nra.
Qed.
End Reals.

Lemma pow_even_abs k r : (Rabs r) ^ (2 * k) = r ^ (2 * k).
Proof. rewrite !pow_mult. f_equal. apply pow2_abs. Qed.
Lemma pow_odd_abs k r : r < 0 -> r ^ (2 * k + 1) = - (Rabs r) ^ (2 * k + 1).
Proof. intros H. rewrite !pow_add, pow_even_abs, !pow_1, Rabs_left by easy. ring. Qed.
Lemma even_pos q : Z.even (Zpos q) = true -> exists k, Pos.to_nat q = (2 * k)%nat.
Proof. destruct q as [q|q|]; try easy. intros _. exists (Pos.to_nat q). lia. Qed.
Lemma odd_pos q : Z.even (Zpos q) = false -> exists k, Pos.to_nat q = (2 * k + 1)%nat.
Proof.
destruct q as [q|q|]; try easy; intros _; [exists (Pos.to_nat q)|exists 0%nat]; lia.
Qed.
Lemma odd_mono k r s : r <= s -> r ^ (2 * k + 1) <= s ^ (2 * k + 1).
Proof.
intros H. destruct (Rle_or_lt 0 r) as [Hr|Hr].
- apply pow_incr. lra.
- rewrite (pow_odd_abs k r Hr). destruct (Rle_or_lt 0 s) as [Hs|Hs].
  + assert (0 <= s ^ (2 * k + 1)) by now apply pow_le.
    assert (0 <= Rabs r ^ (2 * k + 1)) by apply pow_le, Rabs_pos. lra.
  + rewrite (pow_odd_abs k s Hs). apply Ropp_le_contravar. apply pow_incr.
    rewrite !Rabs_left by easy. lra.
Qed.

Section M.
Context {F : fmt}.
Implicit Types a c l u A : float F.
Implicit Types x y z : itv F.

Lemma mem_between x (l u r : R) : mem l x -> mem u x -> l <= r <= u -> mem r x.
Proof. intros [H1 _] [_ H2] H. split; [now apply lb_mono with l|now apply ub_mono with u]. Qed.

(** ** Ends of largest and smallest magnitude *)
Definition absmax A x : Prop :=
  (is_finite A = true /\ 0 <= B2R A /\ (exists r, mem r x /\ Rabs r = B2R A) /\ forall r, mem r x -> Rabs r <= B2R A) \/
  (A = finf /\ forall B, exists r, mem r x /\ B < Rabs r).
Definition absmin a x : Prop :=
  is_finite a = true /\ 0 <= B2R a /\ (exists r, mem r x /\ Rabs r = B2R a) /\ forall r, mem r x -> B2R a <= Rabs r.

Lemma fabs_pos a : fgt a f0 = true -> fabs a = a.
Proof. destruct a as [|[]| |[]]; easy. Qed.

Lemma pick_gt_absmax x : wf x -> isnan (fst x) = false -> absmax (pick_gt (fabs (fst x)) (fabs (snd x))) x.
Proof.
intros W E. pose proof (wf_view _ W) as V.
destruct (low_end_fst x V E) as [(A1 & A2 & A3)|(A1 & A2)].
- destruct (upp_end_snd x V E) as [(B1 & B2 & B3)|(B1 & B2)].
  + left. unfold pick_gt. rewrite fgt_fin by now rewrite is_finite_fabs.
    rewrite !B2R_fabs. case Rlt_bool_spec; intros H; rewrite is_finite_fabs, B2R_fabs; (split; [easy|]);
      (split; [apply Rabs_pos|]); (split; [first [exists (B2R (fst x)); split; [easy|reflexivity] | exists (B2R (snd x)); split; [easy|reflexivity]]|]);
      intros r Hr; specialize (A3 r Hr); specialize (B3 r Hr);
      unfold Rabs in *; repeat (destruct (Rcase_abs _)); lra.
  + right. rewrite B1. split; [revert A1; clear; now destruct (fst x) as [|[]| |[]]|].
    intros B. destruct (B2 (Rabs B)) as (r & Hr & Hlt). exists r. split; [easy|].
    unfold Rabs in *; repeat (destruct (Rcase_abs _)); lra.
- right. split.
  + rewrite A1. unfold pick_gt. destruct (upp_end_snd x V E) as [(B1 & B2 & B3)|(B1 & B2)].
    * revert B1. clear. now destruct (snd x) as [|[]| |[]].
    * now rewrite B1.
  + intros B. destruct (A2 (- Rabs B)) as (r & Hr & Hlt). exists r. split; [easy|].
    unfold Rabs in *; repeat (destruct (Rcase_abs _)); lra.
Qed.
Lemma mixed_iff x : wf x -> isnan (fst x) = false ->
  flt (fst x) f0 && fgt (snd x) f0 = true -> exists l u : R, l < 0 < u /\ mem l x /\ mem u x.
Proof.
intros W E H. pose proof (wf_view _ W) as V. apply andb_prop in H. destruct H as [H1 H2].
destruct (low_end_fst x V E) as [(A1 & A2 & A3)|(A1 & A2)].
- rewrite flt_fin, (@B2R_f0 F) in H1 by fin. revert H1. case Rlt_bool_spec; [|easy]. intros H1 _.
  destruct (upp_end_snd x V E) as [(B1 & B2 & B3)|(B1 & B2)].
  + rewrite fgt_fin, (@B2R_f0 F) in H2 by fin. revert H2. case Rlt_bool_spec; [|easy]. intros H2 _.
    now exists (B2R (fst x)), (B2R (snd x)).
  + destruct (B2 0) as (u & Hu & Hlt). now exists (B2R (fst x)), u.
- destruct (A2 0) as (l & Hl & Hlt). destruct (upp_end_snd x V E) as [(B1 & B2 & B3)|(B1 & B2)].
  + rewrite fgt_fin, (@B2R_f0 F) in H2 by fin. revert H2. case Rlt_bool_spec; [|easy]. intros H2 _.
    now exists l, (B2R (snd x)).
  + destruct (B2 0) as (u & Hu & Hlt'). now exists l, u.
Qed.
Lemma unmixed_iff x : wf x -> isnan (fst x) = false ->
  flt (fst x) f0 && fgt (snd x) f0 = false ->
  (is_finite (fst x) = true /\ 0 <= B2R (fst x)) \/ (is_finite (snd x) = true /\ B2R (snd x) <= 0).
Proof.
intros W E H. pose proof (wf_view _ W) as V. 
destruct (low_end_fst x V E) as [(A1 & A2 & A3)|(A1 & A2)].
- destruct (upp_end_snd x V E) as [(B1 & B2 & B3)|(B1 & B2)].
  + rewrite flt_fin, fgt_fin, (@B2R_f0 F) in H by fin. revert H.
    case Rlt_bool_spec; intros H1; [|now left]. case Rlt_bool_spec; intros H2; [easy|now right].
  + rewrite B1 in H. rewrite flt_fin, (@B2R_f0 F) in H by fin. revert H.
    case Rlt_bool_spec; intros H1; [easy|now left].
- rewrite A1, flt_minf_l in H by fin.
  destruct (upp_end_snd x V E) as [(B1 & B2 & B3)|(B1 & B2)].
  + rewrite fgt_fin, (@B2R_f0 F) in H by fin. revert H. case Rlt_bool_spec; intros H2; [easy|now right].
  + now rewrite B1 in H.
Qed.
Lemma pick_lt_absmin x : wf x -> isnan (fst x) = false -> flt (fst x) f0 && fgt (snd x) f0 = false ->
  absmin (pick_lt (fabs (fst x)) (fabs (snd x))) x.
Proof.
intros W E H. pose proof (wf_view _ W) as V. apply unmixed_iff in H; try easy.
destruct (low_end_fst x V E) as [(A1 & A2 & A3)|(A1 & A2)];
destruct (upp_end_snd x V E) as [(B1 & B2 & B3)|(B1 & B2)].
- unfold absmin, pick_lt. rewrite flt_fin by now rewrite is_finite_fabs.
  specialize (A3 _ B2) as Hlu.
  rewrite !B2R_fabs. case Rlt_bool_spec; intros H0; rewrite is_finite_fabs, B2R_fabs; (split; [easy|]);
    (split; [apply Rabs_pos|]); (split; [first [exists (B2R (fst x)); split; [easy|reflexivity] | exists (B2R (snd x)); split; [easy|reflexivity]]|]);
    intros r Hr; specialize (A3 r Hr); specialize (B3 r Hr); destruct H as [[_ H]|[_ H]];
    unfold Rabs in *; repeat (destruct (Rcase_abs _)); lra.
- destruct H as [[_ H]|[H _]]; [|now rewrite B1 in H]. rewrite B1. unfold pick_lt.
  change (fabs finf) with (@finf F). rewrite flt_pinf_r by now rewrite is_finite_fabs.
  unfold absmin. rewrite is_finite_fabs, B2R_fabs. (split; [easy|]);
    (split; [apply Rabs_pos|]); (split; [first [exists (B2R (fst x)); split; [easy|reflexivity] | exists (B2R (snd x)); split; [easy|reflexivity]]|]).
  intros r Hr. specialize (A3 r Hr). unfold Rabs in *; repeat (destruct (Rcase_abs _)); lra.
- destruct H as [[H _]|[_ H]]; [now rewrite A1 in H|]. rewrite A1. unfold pick_lt.
  change (fabs fminf) with (@finf F). rewrite flt_pinf_l.
  unfold absmin. rewrite is_finite_fabs, B2R_fabs. (split; [easy|]);
    (split; [apply Rabs_pos|]); (split; [first [exists (B2R (fst x)); split; [easy|reflexivity] | exists (B2R (snd x)); split; [easy|reflexivity]]|]).
  intros r Hr. specialize (B3 r Hr). unfold Rabs in *; repeat (destruct (Rcase_abs _)); lra.
- destruct H as [[H _]|[H _]]; [now rewrite A1 in H|now rewrite B1 in H].
Qed.

(** ** mpfr_pow_si *)
Lemma rnds_zero m s : rnds m 0 (B754_zero s : float F).
Proof.
unfold rnds. rewrite round_0 by apply valid_rnd_round_mode. rewrite Rabs_R0, Rlt_bool_true by apply bpow_gt_0. easy.
Qed.
Lemma pow_si_pos m a q : is_finite a = true -> rnds m (powerRZ (B2R a) (Zpos q)) (mpfr_pow_si m a (Zpos q)).
Proof.
intros Fa. destruct a as [s|s| |s mm e H]; try easy; cbn [mpfr_pow_si Z.eqb Z.ltb Z.compare].
- change (B2R (B754_zero s : float F)) with 0. replace (powerRZ 0 (Zpos q)) with 0.
  + apply rnds_zero.
  + simpl. rewrite pow_i; [easy|]. lia.
- apply rround_rnds.
Qed.
Lemma pow_si_neg m a q : is_finite a = true -> B2R a <> 0 ->
  rnds m (powerRZ (B2R a) (Zneg q)) (mpfr_pow_si m a (Zneg q)).
Proof. intros Fa Ha. destruct a as [s|s| |s mm e H]; try easy; apply rround_rnds. Qed.

(** ** Positive exponents *)
Section P.
Variable q : BinNums.positive.
Notation n := (Pos.to_nat q).
Let Hn : (1 <= n)%nat. Proof. lia. Qed.

Lemma pown_img_pos x t : image1 (pown_dom (Zpos q)) (pownR (Zpos q)) x t <-> exists r, mem r x /\ t = r ^ n.
Proof.
split; [intros (r & H1 & _ & ->); now exists r|]. intros (r & H & ->). exists r. now split; [|split].
Qed.

Lemma pown_pos_odd x : wf x -> Z.even (Zpos q) = false ->
  computes_tightest (pown x (Zpos q)) (image1 (pown_dom (Zpos q)) (pownR (Zpos q)) x).
Proof.
intros W Ho. destruct (odd_pos q Ho) as [k Hk].
assert (Od : Z.odd (Zpos q) = true) by (rewrite <- Z.negb_even; now rewrite Ho).
assert (T : computes_tightest (mif (mor (mnot (is_valid x)) (is_empty x)) (ret empty)
   (ret (mpfr_pow_si mode_DN (fst x) (Zpos q), mpfr_pow_si mode_UP (snd x) (Zpos q))))
   (image1 everywhere (fun r => r ^ n) x)).
{ apply (inc_tightest (fun r => r ^ n) (fun m a => mpfr_pow_si m a (Zpos q))).
  - intros r s H. rewrite Hk. now apply odd_mono.
  - intros m a Fa. now apply pow_si_pos.
  - left. split; [change (mpfr_pow_si mode_DN fminf (Zpos q)) with (B754_infinity (true && Z.odd (Zpos q)) : float F); now rewrite Od|]. intros B. exists (- (Rabs B + 1)).
    rewrite Hk. assert (0 <= Rabs B) by apply Rabs_pos. rewrite pow_odd_abs, <- Hk by lra.
    rewrite Rabs_Ropp. rewrite (Rabs_pos_eq (Rabs B + 1)) by lra.
    pose proof (pow_ge1 n Hn (Rabs B + 1)). rewrite <- (Rabs_Ropp B) in *. pose proof (Rle_abs (- B)). lra.
  - left. split; [easy|]. intros B. exists (Rabs B + 1). pose proof (Rabs_pos B).
    pose proof (pow_ge1 n Hn (Rabs B + 1)). pose proof (Rle_abs B). lra.
  - easy. }
revert T. unfold pown. vred. simpl Z.ltb. cbv iota. rewrite Ho. intros T.
eapply ct_ext; [|exact T]. intros t. rewrite pown_img_pos. split.
- intros (r & H1 & _ & ->). now exists r.
- intros (r & H1 & ->). now exists r.
Qed.

Lemma pown_pos_even x : wf x -> Z.even (Zpos q) = true ->
  computes_tightest (pown x (Zpos q)) (image1 (pown_dom (Zpos q)) (pownR (Zpos q)) x).
Proof.
intros W He. destruct (even_pos q He) as [k Hk].
assert (Od : Z.odd (Zpos q) = false) by (rewrite <- Z.negb_even; now rewrite He).
assert (EA : forall r, r ^ n = Rabs r ^ n) by (intros r; now rewrite Hk, pow_even_abs).
unfold pown. vred. destruct (isnan (fst x)) eqn:Ex; vred.
{ eapply ct_ret; [reflexivity|]. apply tightest_empty. intros r. now apply image1_empty. }
simpl Z.ltb. cbv iota. rewrite He.
pose proof (wf_view _ W) as V. destruct (wview_nonempty x V Ex) as [r0 Hr0].
assert (NE : exists t, image1 (pown_dom (Zpos q)) (pownR (Zpos q)) x t).
{ exists (r0 ^ n). rewrite pown_img_pos. now exists r0. }
assert (UP : forall A, absmax A x -> gupp (image1 (pown_dom (Zpos q)) (pownR (Zpos q)) x) (mpfr_pow_si mode_UP A (Zpos q))).
{ intros A [(H1 & H2 & (r & H3 & H4) & H5)|(-> & H)].
  - apply gupp_att with (B2R A ^ n).
    + rewrite pown_img_pos. exists r. split; [easy|]. now rewrite (EA r), H4.
    + intros t Ht. rewrite pown_img_pos in Ht. destruct Ht as (s & Hs & ->). rewrite EA. apply pow_incr.
      split; [apply Rabs_pos|auto].
    + apply rnds_UP. now apply pow_si_pos.
  - change (mpfr_pow_si mode_UP finf (Zpos q)) with (@finf F). apply gupp_unb. intros B. destruct (H (Rmax 1 B)) as (r & Hr & Hlt).
    exists (r ^ n). rewrite pown_img_pos. split; [now exists r|]. rewrite EA.
    assert (M1 := Rmax_l 1 B). assert (M2 := Rmax_r 1 B). pose proof (pow_ge1 n Hn (Rabs r)). lra. }
destruct (flt (fst x) f0 && fgt (snd x) f0) eqn:C; (eapply ct_ret; [reflexivity|]); apply tightest_intro; try easy.
- destruct (mixed_iff x W Ex C) as (l & u & H1 & Ml & Mu).
  apply glow_att with 0.
  + rewrite pown_img_pos. exists 0. split; [|rewrite pow_i; [easy|lia]].
    apply mem_between with l u; [easy|easy|lra].
  + intros t Ht. rewrite pown_img_pos in Ht. destruct Ht as (s & Hs & ->). rewrite EA. apply pow_le, Rabs_pos.
  + apply is_RD_0.
- apply UP. apply andb_prop in C. rewrite <- (fabs_pos _ (proj2 C)) at 1. now apply pick_gt_absmax.
- destruct (pick_lt_absmin x W Ex C) as (H1 & H2 & (r & H3 & H4) & H5).
  apply glow_att with (B2R (pick_lt (fabs (fst x)) (fabs (snd x))) ^ n).
  + rewrite pown_img_pos. exists r. split; [easy|]. now rewrite (EA r), H4.
  + intros t Ht. rewrite pown_img_pos in Ht. destruct Ht as (s & Hs & ->). rewrite (EA s). apply pow_incr. auto.
  + apply rnds_DN. now apply pow_si_pos.
- apply UP. now apply pick_gt_absmax.
Qed.

(** ** Negative exponents *)
Notation h := (hinv n).
Notation S x := (image1 (pown_dom (Zneg q)) (pownR (Zneg q)) x).
Lemma pown_img_neg x t : S x t <-> exists r, mem r x /\ r <> 0 /\ t = / r ^ n.
Proof.
split.
- intros (r & H1 & H2 & ->). exists r. split; [easy|split; [|easy]]. now apply H2.
- intros (r & H & H0 & ->). exists r. now split; [|split].
Qed.

Lemma nz_member x : wf x -> isnan (fst x) = false -> feq (fst x) f0 && feq (snd x) f0 = false ->
  exists r, mem r x /\ r <> 0.
Proof.
intros W E H. pose proof (wf_view _ W) as V.
destruct (low_end_fst x V E) as [(A1 & A2 & A3)|(A1 & A2)].
- destruct (upp_end_snd x V E) as [(B1 & B2 & B3)|(B1 & B2)].
  + rewrite !feq_fin, (@B2R_f0 F) in H by fin. revert H.
    case Req_bool_spec; intros H1; [|now exists (B2R (fst x))].
    case Req_bool_spec; intros H2; [easy|now exists (B2R (snd x))].
  + destruct (B2 0) as (u & Hu & Hlt). exists u. split; [easy|lra].
- destruct (A2 0) as (u & Hu & Hlt). exists u. split; [easy|lra].
Qed.
(** members near zero *)
Lemma near_pos x (u : R) d : mem 0 x -> 0 < u -> mem u x -> 0 < d -> exists r, mem r x /\ 0 < r <= d.
Proof.
intros M0 Hu Mu Hd. exists (Rmin u d). split.
- destruct M0 as [L0 _], Mu as [_ Uu]. split.
  + eapply lb_mono; [exact L0|]. apply Rmin_glb; lra.
  + eapply ub_mono; [exact Uu|]. apply Rmin_l.
- split; [apply Rmin_glb_lt; lra|apply Rmin_r].
Qed.
Lemma near_neg x (l : R) d : mem 0 x -> l < 0 -> mem l x -> 0 < d -> exists r, mem r x /\ - d <= r < 0.
Proof.
intros M0 Hu Mu Hd. exists (Rmax l (- d)). split.
- destruct M0 as [_ L0], Mu as [Uu _]. split.
  + eapply lb_mono; [exact Uu|]. apply Rmax_l.
  + eapply ub_mono; [exact L0|]. apply Rmax_lub; lra.
- split; [apply Rmax_r|apply Rmax_lub_lt; lra].
Qed.
(** lower and upper ends when the function is [h |r|] on the members *)
Lemma neg_low x A : (forall r, mem r x -> r <> 0 -> / r ^ n = h (Rabs r)) -> (exists r, mem r x /\ r <> 0) ->
  absmax A x -> glow (S x) (mpfr_pow_si mode_DN A (Zneg q)).
Proof.
intros EA (r1 & M1 & N1) [(H1 & H2 & (r & H3 & H4) & H5)|(-> & H)].
- assert (P : 0 < B2R A). { apply Rlt_le_trans with (Rabs r1); [now apply Rabs_pos_lt|auto]. }
  apply glow_att with (h (B2R A)).
  + rewrite pown_img_neg. exists r. split; [easy|]. split; [intros ->; rewrite Rabs_R0 in H4; lra|].
    rewrite EA, H4; try easy. intros ->. rewrite Rabs_R0 in H4. lra.
  + intros t Ht. rewrite pown_img_neg in Ht. destruct Ht as (s & Hs & Ns & ->). rewrite EA by easy.
    apply hinv_le; [now apply Rabs_pos_lt|auto].
  + apply rnds_DN. apply pow_si_neg; [easy|lra].
- change (mpfr_pow_si mode_DN finf (Zneg q)) with (@f0 F). apply glow_glb with 0; [|apply is_RD_0].
  apply glbR_eps.
  + intros t Ht. rewrite pown_img_neg in Ht. destruct Ht as (s & Hs & Ns & ->). rewrite EA by easy.
    apply Rlt_le, hinv_pos. now apply Rabs_pos_lt.
  + intros e He. destruct (hinv_small n Hn e He) as (M & HM & HM').
    destruct (H M) as (r & Hr & Hlt). exists (/ r ^ n). rewrite pown_img_neg.
    assert (r <> 0) by (intros ->; rewrite Rabs_R0 in Hlt; lra).
    split; [now exists r|]. rewrite EA by easy. specialize (HM' (Rabs r)). lra.
Qed.
Lemma neg_upp x a : (forall r, mem r x -> r <> 0 -> / r ^ n = h (Rabs r)) -> (exists r, mem r x /\ r <> 0) ->
  (Bsign a = false) -> absmin a x -> gupp (S x) (mpfr_pow_si mode_UP a (Zneg q)).
Proof.
intros EA (r1 & M1 & N1) Sa (H1 & H2 & (r & H3 & H4) & H5).
destruct (Rle_lt_or_eq_dec _ _ H2) as [P|P].
- apply gupp_att with (h (B2R a)).
  + rewrite pown_img_neg. exists r. split; [easy|]. split; [intros ->; rewrite Rabs_R0 in H4; lra|].
    rewrite EA, H4; try easy. intros ->. rewrite Rabs_R0 in H4. lra.
  + intros t Ht. rewrite pown_img_neg in Ht. destruct Ht as (s & Hs & Ns & ->). rewrite EA by easy.
    apply hinv_le; [easy|auto].
  + apply rnds_UP. apply pow_si_neg; [easy|lra].
- assert (r = 0). { destruct (Req_dec r 0) as [|N]; [easy|]. apply Rabs_pos_lt in N. lra. } subst r.
  replace (mpfr_pow_si mode_UP a (Zneg q)) with (@finf F).
  2:{ destruct a as [s| | |s mm e Hb]; try easy.
      - simpl in Sa. now subst s.
      - exfalso. simpl in P. symmetry in P. apply eq_0_F2R in P. destruct s; easy. }
  apply gupp_unb. intros B. destruct (hinv_big n Hn B) as (d & Hd & Hd').
  destruct (Rlt_or_le 0 r1) as [Hp|Hp].
  + destruct (near_pos x r1 d H3 Hp M1 Hd) as (t & Mt & Ht). exists (/ t ^ n). rewrite pown_img_neg.
    split; [exists t; split; [easy|split; [lra|easy]]|]. rewrite EA by (easy || lra). apply Hd'.
    rewrite Rabs_pos_eq; lra.
  + destruct (near_neg x r1 d H3) as (t & Mt & Ht); [lra|easy|easy|]. exists (/ t ^ n). rewrite pown_img_neg.
    split; [exists t; split; [easy|split; [lra|easy]]|]. rewrite EA by (easy || lra). apply Hd'.
    rewrite Rabs_left; lra.
Qed.

Lemma Bsign_pick_lt x : isnan (fst x) = false -> isnan (snd x) = false -> Bsign (pick_lt (fabs (fst x)) (fabs (snd x))) = false.
Proof.
intros H1 H2. unfold pick_lt. case flt; [now destruct (fst x)|now destruct (snd x)].
Qed.
Lemma wf_nan_r x : wf x -> isnan (fst x) = false -> isnan (snd x) = false.
Proof.
intros W E. pose proof (wf_view _ W) as V. destruct V; try easy; cbn [snd]; now apply isnan_fin.
Qed.

Lemma pown_neg_even x : wf x -> Z.even (Zneg q) = true ->
  computes_tightest (pown x (Zneg q)) (S x).
Proof.
intros W He. destruct (even_pos q) as [k Hk]; [easy|].
assert (EA : forall r, mem r x -> r <> 0 -> / r ^ n = h (Rabs r)).
{ intros r _ _. unfold hinv. now rewrite Hk, pow_even_abs. }
unfold pown. vred. destruct (isnan (fst x)) eqn:Ex; vred.
{ eapply ct_ret; [reflexivity|]. apply tightest_empty. intros r. now apply image1_empty. }
simpl Z.ltb. cbv iota. rewrite He.
pose proof (wf_view _ W) as V.
destruct (feq (fst x) f0 && feq (snd x) f0) eqn:Z0.
{ eapply ct_ret; [reflexivity|]. apply tightest_empty. intros t Ht. rewrite pown_img_neg in Ht.
  destruct Ht as (r & Hr & N & _). apply N. apply andb_prop in Z0. destruct Z0 as [Z1 Z2].
  destruct V as [ | |u Fu|l Fl|l u Fl Fu Hlu]; try easy; cbn [fst snd] in *.
  rewrite feq_fin, (@B2R_f0 F) in Z1, Z2 by fin. revert Z1 Z2. do 2 (case Req_bool_spec; [|easy]). intros Z2 Z1 _ _.
  pose proof (mem_fin_l _ _ _ Hr Fl). pose proof (mem_fin_u _ _ _ Hr Fu). simpl in *. lra. }
assert (NZ := nz_member x W Ex Z0).
assert (NE : exists t, S x t). { destruct NZ as (r & Hr & N). exists (/ r ^ n). rewrite pown_img_neg. now exists r. }
destruct (flt (fst x) f0 && fgt (snd x) f0) eqn:C; (eapply ct_ret; [reflexivity|]); apply tightest_intro; try easy.
- apply andb_prop in C. rewrite <- (fabs_pos _ (proj2 C)). apply neg_low; try easy. now apply pick_gt_absmax.
- destruct (mixed_iff x W Ex C) as (l & u & H1 & Ml & Mu).
  apply gupp_unb. intros B. destruct (hinv_big n Hn B) as (d & Hd & Hd').
  destruct (near_pos x u d) as (t & Mt & Ht); [now apply mem_between with l u; [..|lra]|lra|easy|easy|].
  exists (/ t ^ n). rewrite pown_img_neg. split; [exists t; split; [easy|split; [lra|easy]]|].
  rewrite EA by (easy || lra). apply Hd'. rewrite Rabs_pos_eq; lra.
- apply neg_low; try easy. now apply pick_gt_absmax.
- apply neg_upp; try easy; [|now apply pick_lt_absmin].
  apply Bsign_pick_lt; [easy|now apply wf_nan_r].
Qed.

(** odd exponent, interval on the right of zero *)
Lemma pown_neg_odd x : wf x -> Z.even (Zneg q) = false ->
  computes_tightest (pown x (Zneg q)) (S x).
Proof.
intros W Ho. destruct (odd_pos q) as [k Hk]; [easy|].
assert (Od : Z.odd (Zneg q) = true) by (rewrite <- Z.negb_even; now rewrite Ho).
assert (EP : forall r, 0 < r -> / r ^ n = h r) by easy.
assert (EN : forall r, r < 0 -> / r ^ n = - h (- r)).
{ intros r Hr. unfold hinv. rewrite Hk, pow_odd_abs by easy. rewrite Rabs_left by easy. rewrite Rinv_opp. easy. }
unfold pown. vred. destruct (isnan (fst x)) eqn:Ex; vred.
{ eapply ct_ret; [reflexivity|]. apply tightest_empty. intros r. now apply image1_empty. }
simpl Z.ltb. cbv iota. rewrite Ho.
pose proof (wf_view _ W) as V.
destruct (feq (fst x) f0 && feq (snd x) f0) eqn:Z0.
{ eapply ct_ret; [reflexivity|]. apply tightest_empty. intros t Ht. rewrite pown_img_neg in Ht.
  destruct Ht as (r & Hr & N & _). apply N. apply andb_prop in Z0. destruct Z0 as [Z1 Z2].
  destruct V as [ | |u Fu|l Fl|l u Fl Fu Hlu]; try easy; cbn [fst snd] in *.
  rewrite feq_fin, (@B2R_f0 F) in Z1, Z2 by fin. revert Z1 Z2. do 2 (case Req_bool_spec; [|easy]). intros Z2 Z1 _ _.
  pose proof (mem_fin_l _ _ _ Hr Fl). pose proof (mem_fin_u _ _ _ Hr Fu). simpl in *. lra. }
assert (NZ := nz_member x W Ex Z0).
assert (NE : exists t, S x t). { destruct NZ as (r & Hr & N). exists (/ r ^ n). rewrite pown_img_neg. now exists r. }
destruct (flt (fst x) f0 && fgt (snd x) f0) eqn:C.
{ destruct (mixed_iff x W Ex C) as (l & u & H1 & Ml & Mu).
  assert (M0 : mem 0 x) by now apply mem_between with l u; [..|lra].
  eapply ct_ret; [reflexivity|]. apply tightest_intro; try easy.
  - apply glow_unb. intros B. destruct (hinv_big n Hn (- B)) as (d & Hd & Hd').
    destruct (near_neg x l d) as (t & Mt & Ht); try easy.
    exists (/ t ^ n). rewrite pown_img_neg. split; [exists t; split; [easy|split; [lra|easy]]|].
    rewrite EN by lra. specialize (Hd' (- t)). lra.
  - apply gupp_unb. intros B. destruct (hinv_big n Hn B) as (d & Hd & Hd').
    destruct (near_pos x u d) as (t & Mt & Ht); try easy.
    exists (/ t ^ n). rewrite pown_img_neg. split; [exists t; split; [easy|split; [lra|easy]]|].
    rewrite EP by lra. now apply Hd'. }
assert (LOW : forall a, is_finite a = true -> mem (B2R a) x -> B2R a <> 0 ->
  (forall r, mem r x -> r <= B2R a) -> ((forall r, mem r x -> 0 <= r) \/ B2R a < 0) ->
  glow (S x) (mpfr_pow_si mode_DN a (Zneg q))).
{ intros a Fa Ma Na Ba HS. apply glow_att with (/ B2R a ^ n).
  - rewrite pown_img_neg. now exists (B2R a).
  - intros t Ht. rewrite pown_img_neg in Ht. destruct Ht as (r & Hr & Nr & ->). specialize (Ba r Hr).
    destruct HS as [HS|HS].
    + pose proof (HS _ Hr). pose proof (HS _ Ma). rewrite !EP by lra. apply hinv_le; lra.
    + rewrite !EN by lra. apply Ropp_le_contravar. apply hinv_le; lra.
  - apply rnds_DN. now apply pow_si_neg. }
assert (UPP : forall a, is_finite a = true -> mem (B2R a) x -> B2R a <> 0 ->
  (forall r, mem r x -> B2R a <= r) -> ((forall r, mem r x -> r <= 0) \/ 0 < B2R a) ->
  gupp (S x) (mpfr_pow_si mode_UP a (Zneg q))).
{ intros a Fa Ma Na Ba HS. apply gupp_att with (/ B2R a ^ n).
  - rewrite pown_img_neg. now exists (B2R a).
  - intros t Ht. rewrite pown_img_neg in Ht. destruct Ht as (r & Hr & Nr & ->). specialize (Ba r Hr).
    destruct HS as [HS|HS].
    + pose proof (HS _ Hr). pose proof (HS _ Ma). rewrite !EN by lra. apply Ropp_le_contravar. apply hinv_le; lra.
    + rewrite !EP by lra. apply hinv_le; lra.
  - apply rnds_UP. now apply pow_si_neg. }
assert (LOWI : snd x = finf -> (forall r, mem r x -> 0 <= r) -> unb_above (fun r => mem r x) ->
  glow (S x) (mpfr_pow_si mode_DN (snd x) (Zneg q))).
{ intros -> HS HU. change (mpfr_pow_si mode_DN finf (Zneg q)) with (@f0 F). apply glow_glb with 0; [|apply is_RD_0]. apply glbR_eps.
  - intros t Ht. rewrite pown_img_neg in Ht. destruct Ht as (r & Hr & Nr & ->). specialize (HS r Hr).
    rewrite EP by lra. apply Rlt_le, hinv_pos. lra.
  - intros e He. destruct (hinv_small n Hn e He) as (M & HM & HM').
    destruct (HU M) as (r & Hr & Hlt). exists (/ r ^ n). rewrite pown_img_neg.
    split; [exists r; split; [easy|split; [lra|easy]]|]. rewrite EP by lra. specialize (HM' r). lra. }
assert (UPPI : fst x = fminf -> (forall r, mem r x -> r <= 0) -> unb_below (fun r => mem r x) ->
  gupp (S x) (mpfr_pow_si mode_UP (fst x) (Zneg q))).
{ intros -> HS HU. change (mpfr_pow_si mode_UP fminf (Zneg q)) with (B754_zero (true && Z.odd (Zneg q)) : float F). rewrite Od. apply gupp_lub with 0; [|rewrite <- (@B2R_fm0 F); now apply is_RU_self].
  apply lubR_eps.
  - intros t Ht. rewrite pown_img_neg in Ht. destruct Ht as (r & Hr & Nr & ->). specialize (HS r Hr).
    rewrite EN by lra. pose proof (hinv_pos n (- r)). lra.
  - intros e He. destruct (hinv_small n Hn e He) as (M & HM & HM').
    destruct (HU (- M)) as (r & Hr & Hlt). exists (/ r ^ n). rewrite pown_img_neg.
    split; [exists r; split; [easy|split; [lra|easy]]|]. rewrite EN by lra. specialize (HM' (- r)). lra. }
destruct (unmixed_iff x W Ex C) as [[Ff Hf]|[Fs Hs]].
- (* right of zero *)
  destruct (low_end_fst x V Ex) as [(_ & A2 & A3)|(A1 & A2)]; [|now rewrite A1 in Ff].
  assert (PX : forall r, mem r x -> 0 <= r) by (intros r Hr; specialize (A3 r Hr); lra).
  assert (GL : feq (snd x) f0 = false -> glow (S x) (mpfr_pow_si mode_DN (snd x) (Zneg q))).
  { intros N. destruct (upp_end_snd x V Ex) as [(B1 & B2 & B3)|(B1 & B2)].
    - apply LOW; try easy; [|now left]. rewrite feq_fin, (@B2R_f0 F) in N by fin. revert N. now case Req_bool_spec.
    - now apply LOWI. }
  rewrite feq_fin, (@B2R_f0 F) by fin. rewrite feq_fin, (@B2R_f0 F) in Z0 by fin.
  revert Z0. case Req_bool_spec; intros E0 Z0.
  + simpl in Z0. eapply ct_ret; [reflexivity|]. apply tightest_intro; try easy; [now apply GL|].
    apply gupp_unb. intros B. destruct (hinv_big n Hn B) as (d & Hd & Hd').
    destruct NZ as (r1 & Mr1 & Nr1). rewrite E0 in A2. specialize (PX _ Mr1) as Pr1.
    destruct (near_pos x r1 d) as (t & Mt & Ht); try easy; [lra|].
    exists (/ t ^ n). rewrite pown_img_neg. split; [exists t; split; [easy|split; [lra|easy]]|].
    rewrite EP by lra. now apply Hd'.
  + assert (N0 : feq (snd x) f0 = false).
    { destruct (upp_end_snd x V Ex) as [(B1 & B2 & B3)|(B1 & B2)].
      - rewrite feq_fin, (@B2R_f0 F) by fin. apply Req_bool_false. specialize (A3 _ B2). lra.
      - rewrite B1. now apply feq_pinf_l. }
    rewrite N0. eapply ct_ret; [reflexivity|]. apply tightest_intro; try easy; [now apply GL|].
    apply UPP; try easy. right. lra.
- (* left of zero *)
  destruct (upp_end_snd x V Ex) as [(_ & B2 & B3)|(B1 & B2)]; [|now rewrite B1 in Fs].
  assert (NX : forall r, mem r x -> r <= 0) by (intros r Hr; specialize (B3 r Hr); lra).
  destruct (feq (fst x) f0) eqn:EF.
  { exfalso. destruct (low_end_fst x V Ex) as [(A1 & A2 & A3)|(A1 & A2)]; [|rewrite A1 in EF; now rewrite feq_minf_l in EF by fin].
    rewrite feq_fin, (@B2R_f0 F) in EF by fin. revert EF. case Req_bool_spec; [|easy]. intros EF _.
    destruct NZ as (r1 & Mr1 & Nr1). specialize (A3 _ Mr1). specialize (NX _ Mr1). lra. }
  assert (GU : gupp (S x) (mpfr_pow_si mode_UP (fst x) (Zneg q))).
  { destruct (low_end_fst x V Ex) as [(A1 & A2 & A3)|(A1 & A2)].
    - apply UPP; try easy; [|now left]. rewrite feq_fin, (@B2R_f0 F) in EF by fin. revert EF. now case Req_bool_spec.
    - now apply UPPI. }
  rewrite feq_fin, (@B2R_f0 F) by fin. case Req_bool_spec; intros E0.
  + eapply ct_ret; [reflexivity|]. apply tightest_intro; try easy.
    apply glow_unb. intros B. destruct (hinv_big n Hn (- B)) as (d & Hd & Hd').
    destruct NZ as (r1 & Mr1 & Nr1). rewrite E0 in B2. specialize (NX _ Mr1) as Pr1.
    destruct (near_neg x r1 d) as (t & Mt & Ht); try easy; [lra|].
    exists (/ t ^ n). rewrite pown_img_neg. split; [exists t; split; [easy|split; [lra|easy]]|].
    rewrite EN by lra. specialize (Hd' (- t)). lra.
  + eapply ct_ret; [reflexivity|]. apply tightest_intro; try easy.
    apply LOW; try easy. right. lra.
Qed.
End P.

Lemma pown_zero x : wf x -> computes_tightest (pown x 0) (image1 (pown_dom 0) (pownR 0) x).
Proof.
intros W. unfold pown. vred. destruct (isnan (fst x)) eqn:Ex; vred.
{ eapply ct_ret; [reflexivity|]. apply tightest_empty. intros r. now apply image1_empty. }
simpl Z.ltb. cbv iota. destruct (wview_nonempty x (wf_view _ W) Ex) as [r0 Hr0].
assert (I1 : image1 (pown_dom 0) (pownR 0) x 1) by now exists r0.
eapply ct_ret; [reflexivity|]. apply tightest_intro; [now exists 1| |].
- apply glow_att with 1; [easy| |apply is_RD_f1]. intros t (r & _ & _ & ->). simpl. lra.
- apply gupp_att with 1; [easy| |apply is_RU_f1]. intros t (r & _ & _ & ->). simpl. lra.
Qed.

Lemma pown_tightest x p : wf x -> computes_tightest (pown x p) (image1 (pown_dom p) (pownR p) x).
Proof.
intros W. destruct p as [|q|q].
- now apply pown_zero.
- destruct (Z.even (Zpos q)) eqn:E; [now apply pown_pos_even|now apply pown_pos_odd].
- destruct (Z.even (Zneg q)) eqn:E; [now apply pown_neg_even|now apply pown_neg_odd].
Qed.

End M.
