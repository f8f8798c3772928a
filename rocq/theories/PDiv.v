(** * Proofs: division and reciprocal are tightest *)

From Coq Require Import ZArith NArith Reals Bool Lia Lra Psatz.
From Flocq Require Import Core.Core IEEE754.BinarySingleNaN.
From Verif Require Import Fmt Spec FloatFacts Exc Deco SpecApi MBase PBase MBool MArith PArith PMul PFma.

Local Open Scope R_scope.

Lemma div_le a b r s : 0 < b * s -> a * s <= r * b -> a / b <= r / s.
Proof.
intros H1 H2. assert (b <> 0) by nra. assert (s <> 0) by nra.
apply Rmult_le_reg_r with (b * s); [easy|].
replace (a / b * (b * s)) with (a * s) by (field; easy).
replace (r / s * (b * s)) with (r * b) by (field; easy). easy.
Qed.
Lemma div_nonneg r s : s <> 0 -> 0 <= r * s -> 0 <= r / s.
Proof.
intros H1 H2. replace (r / s) with (r * s * / (s * s)) by (field; easy).
apply Rmult_le_pos; [easy|]. left. apply Rinv_0_lt_compat. destruct (Rdichotomy _ _ H1); nra.
Qed.
Lemma div_nonpos r s : s <> 0 -> r * s <= 0 -> r / s <= 0.
Proof.
intros H1 H2. generalize (div_nonneg (- r) s H1). unfold Rdiv. intros H. assert (0 <= - r * / s) by (apply H; lra). lra.
Qed.

Section M.
Context {F : fmt}.
Implicit Types a b c l u : float F.
Implicit Types x y z : itv F.

Definition nz2 (_ s : R) : Prop := s <> 0.
Notation SD x y := (image2 nz2 Rdiv x y).

Lemma rdiv_inf_r m a b : is_finite a = true -> isinf b = true -> is_finite (rdiv m a b) = true /\ B2R (rdiv m a b) = 0.
Proof. destruct a as [[]|[]| |[]], b as [[]|[]| |[]]; easy. Qed.
Lemma rdiv_pinf_pos m b : is_finite b = true -> pos_f b -> rdiv m finf b = finf.
Proof. destruct b as [[]|[]| |[]]; easy. Qed.
Lemma rdiv_pinf_neg m b : is_finite b = true -> neg_f b -> rdiv m finf b = fminf.
Proof. destruct b as [[]|[]| |[]]; easy. Qed.
Lemma rdiv_minf_pos m b : is_finite b = true -> pos_f b -> rdiv m fminf b = fminf.
Proof. destruct b as [[]|[]| |[]]; easy. Qed.
Lemma rdiv_minf_neg m b : is_finite b = true -> neg_f b -> rdiv m fminf b = finf.
Proof. destruct b as [[]|[]| |[]]; easy. Qed.

(** Quotients by an unbounded divisor come arbitrarily close to zero. *)
Lemma far_div a (Y : R -> Prop) e : 0 < e ->
  (forall B, exists s, Y s /\ s < B) \/ (forall B, exists s, Y s /\ B < s) ->
  exists s, Y s /\ s <> 0 /\ Rabs (B2R a / s) < e.
Proof.
intros He H. set (K := Rabs (B2R a) / e + 1).
assert (HK : 0 < K).
{ unfold K. assert (0 <= Rabs (B2R a) / e). { apply Rmult_le_pos; [apply Rabs_pos|]. left; now apply Rinv_0_lt_compat. } lra. }
assert (G : forall s, K < Rabs s -> s <> 0 /\ Rabs (B2R a / s) < e).
{ intros s Hs. assert (s <> 0). { intros ->. rewrite Rabs_R0 in Hs. lra. }
  split; [easy|]. unfold Rdiv. rewrite Rabs_mult, Rabs_inv.
  apply Rmult_lt_reg_r with (Rabs s); [lra|]. rewrite Rmult_assoc, Rinv_l, Rmult_1_r by lra.
  unfold K in Hs. replace (Rabs (B2R a)) with (e * (Rabs (B2R a) / e)) at 1 by (field; lra).
  apply Rmult_lt_compat_l; lra. }
destruct H as [H|H].
- destruct (H (- K)) as (s & Ys & Hs). exists s. split; [easy|]. apply G. rewrite Rabs_left; lra.
- destruct (H K) as (s & Ys & Hs). exists s. split; [easy|]. apply G. rewrite Rabs_right; lra.
Qed.

Lemma glow_div a b x y : endp a x -> endp b y ->
  (is_finite b = true -> B2R b <> 0) ->
  (is_finite a = true -> is_finite b = true -> forall r s, mem r x -> mem s y -> s <> 0 -> B2R a / B2R b <= r / s) ->
  (isinf b = true -> is_finite a = true /\ forall r s, mem r x -> mem s y -> s <> 0 -> 0 <= r / s) ->
  (a = finf -> neg_f b) -> (a = fminf -> pos_f b) ->
  glow (SD x y) (rdiv mode_DN a b).
Proof.
intros Ea Eb Hnz Hf Hi Hap Ham.
assert (IB : isinf b = true -> (forall B, exists s, mem s y /\ s < B) \/ (forall B, exists s, mem s y /\ B < s)).
{ intros H. destruct Eb as [[Fb _]|[[_ H1]|[_ H1]]]; [now rewrite isinf_fin in H|now left|now right]. }
assert (CB : isinf b = true \/ is_finite b = true /\ mem (B2R b) y).
{ destruct Eb as [H|[[-> _]|[-> _]]]; auto. }
destruct CB as [Ib|[Fb Mb]].
- destruct (Hi Ib) as [Fa Hs]. destruct (rdiv_inf_r mode_DN a b Fa Ib) as [F0 Z0].
  assert (Ma : mem (B2R a) x). { destruct Ea as [[_ H]|[[Ia _]|[Ia _]]]; [easy|subst; easy|subst; easy]. }
  apply glow_glb with 0; [|rewrite <- Z0; now apply is_RD_self].
  apply glbR_eps.
  + intros t (r & s & Hr & Hs' & Hd & ->). auto.
  + intros e He. destruct (far_div a (fun s => mem s y) e) as (s & Ys & Ns & As); [lra|auto|].
    exists (B2R a / s). split; [now exists (B2R a), s|]. apply Rabs_lt_inv in As. lra.
- specialize (Hnz Fb).
  pose proof Ea as [[Fa Ma]|[[Ia Ma]|[Ia Ma]]].
  + apply glow_glb with (B2R a / B2R b); [|now apply rnds_DN, rdiv_rnds].
    apply glbR_min; [now exists (B2R a), (B2R b)|].
    intros t (r & s & Hr & Hs & Hd & ->). auto.
  + specialize (Ham Ia). rewrite Ia, rdiv_minf_pos by easy. apply pos_f_fin in Ham; [|easy].
    apply glow_unb. intros B. destruct (Ma (B * B2R b)) as (r & Hr & Hr').
    exists (r / B2R b). split; [now exists r, (B2R b)|].
    replace B with (B * B2R b / B2R b) by (field; easy). apply Rmult_lt_compat_r; [now apply Rinv_0_lt_compat|easy].
  + specialize (Hap Ia). rewrite Ia, rdiv_pinf_neg by easy. apply neg_f_fin in Hap; [|easy].
    apply glow_unb. intros B. destruct (Ma (B * B2R b)) as (r & Hr & Hr').
    exists (r / B2R b). split; [now exists r, (B2R b)|].
    replace B with (B * B2R b / B2R b) by (field; easy). apply Rmult_lt_gt_compat_neg_l with (r:=/B2R b) in Hr'.
    * unfold Rdiv. rewrite (Rmult_comm r), (Rmult_comm (B * B2R b)). easy.
    * now apply Rinv_lt_0_compat.
Qed.

Lemma gupp_div a b x y : endp a x -> endp b y ->
  (is_finite b = true -> B2R b <> 0) ->
  (is_finite a = true -> is_finite b = true -> forall r s, mem r x -> mem s y -> s <> 0 -> r / s <= B2R a / B2R b) ->
  (isinf b = true -> is_finite a = true /\ forall r s, mem r x -> mem s y -> s <> 0 -> r / s <= 0) ->
  (a = finf -> pos_f b) -> (a = fminf -> neg_f b) ->
  gupp (SD x y) (rdiv mode_UP a b).
Proof.
intros Ea Eb Hnz Hf Hi Hap Ham.
assert (IB : isinf b = true -> (forall B, exists s, mem s y /\ s < B) \/ (forall B, exists s, mem s y /\ B < s)).
{ intros H. destruct Eb as [[Fb _]|[[_ H1]|[_ H1]]]; [now rewrite isinf_fin in H|now left|now right]. }
assert (CB : isinf b = true \/ is_finite b = true /\ mem (B2R b) y).
{ destruct Eb as [H|[[-> _]|[-> _]]]; auto. }
destruct CB as [Ib|[Fb Mb]].
- destruct (Hi Ib) as [Fa Hs]. destruct (rdiv_inf_r mode_UP a b Fa Ib) as [F0 Z0].
  assert (Ma : mem (B2R a) x). { destruct Ea as [[_ H]|[[Ia _]|[Ia _]]]; [easy|subst; easy|subst; easy]. }
  apply gupp_lub with 0; [|rewrite <- Z0; now apply is_RU_self].
  apply lubR_eps.
  + intros t (r & s & Hr & Hs' & Hd & ->). auto.
  + intros e He. destruct (far_div a (fun s => mem s y) e) as (s & Ys & Ns & As); [lra|auto|].
    exists (B2R a / s). split; [now exists (B2R a), s|]. apply Rabs_lt_inv in As. lra.
- specialize (Hnz Fb).
  pose proof Ea as [[Fa Ma]|[[Ia Ma]|[Ia Ma]]].
  + apply gupp_lub with (B2R a / B2R b); [|now apply rnds_UP, rdiv_rnds].
    apply lubR_max; [now exists (B2R a), (B2R b)|].
    intros t (r & s & Hr & Hs & Hd & ->). auto.
  + specialize (Ham Ia). rewrite Ia, rdiv_minf_neg by easy. apply neg_f_fin in Ham; [|easy].
    apply gupp_unb. intros B. destruct (Ma (B * B2R b)) as (r & Hr & Hr').
    exists (r / B2R b). split; [now exists r, (B2R b)|].
    replace B with (B * B2R b / B2R b) by (field; easy). apply Rmult_lt_gt_compat_neg_l with (r:=/B2R b) in Hr'.
    * unfold Rdiv. rewrite (Rmult_comm r), (Rmult_comm (B * B2R b)). easy.
    * now apply Rinv_lt_0_compat.
  + specialize (Hap Ia). rewrite Ia, rdiv_pinf_pos by easy. apply pos_f_fin in Hap; [|easy].
    apply gupp_unb. intros B. destruct (Ma (B * B2R b)) as (r & Hr & Hr').
    exists (r / B2R b). split; [now exists r, (B2R b)|].
    replace B with (B * B2R b / B2R b) by (field; easy). apply Rmult_lt_compat_r; [now apply Rinv_0_lt_compat|easy].
Qed.


Lemma unb_near x y r0 s1 : mem r0 x -> r0 <> 0 -> mem 0 y -> mem s1 y -> s1 <> 0 ->
  (0 < r0 * s1 -> unb_above (SD x y)) /\ (r0 * s1 < 0 -> unb_below (SD x y)).
Proof.
intros Mx Nr M0 M1 N1.
assert (H : forall K, 0 < K -> exists s, mem s y /\ s <> 0 /\ 0 < s * s1 /\ K < Rabs (r0 / s)).
{ intros K HK. pose (k := Rmin 1 (Rabs r0 / (2 * K * Rabs s1))).
  assert (0 < Rabs r0) by now apply Rabs_pos_lt. assert (0 < Rabs s1) by now apply Rabs_pos_lt.
  assert (Hk : 0 < k). { apply Rmin_glb_lt; [lra|]. apply Rdiv_lt_0_compat; [easy|]. nra. }
  assert (Hk1 : k <= 1) by apply Rmin_l.
  assert (N1' : 0 < s1 * s1) by (destruct (Rdichotomy _ _ N1); nra).
  exists (k * s1). repeat split.
  - apply lb_mono with (Rmin 0 s1).
    + unfold Rmin; destruct Rle_dec; [apply M0|apply M1].
    + unfold Rmin; destruct Rle_dec as [L|L]; [|apply Rnot_le_lt in L]; nra.
  - apply ub_mono with (Rmax 0 s1).
    + unfold Rmax; destruct Rle_dec; [apply M1|apply M0].
    + unfold Rmax; destruct Rle_dec as [L|L]; [|apply Rnot_le_lt in L]; nra.
  - nra.
  - nra.
  - unfold Rdiv. rewrite Rabs_mult, Rabs_inv, Rabs_mult, (Rabs_right k) by lra.
    apply Rmult_lt_reg_r with (k * Rabs s1); [nra|].
    rewrite Rmult_assoc, Rinv_l, Rmult_1_r by nra.
    assert (k <= Rabs r0 / (2 * K * Rabs s1)) by apply Rmin_r.
    assert (K * (k * Rabs s1) <= Rabs r0 / 2); [|lra].
    replace (Rabs r0 / 2) with (K * (Rabs r0 / (2 * K * Rabs s1) * Rabs s1)) by (field; lra).
    apply Rmult_le_compat_l; [lra|]. apply Rmult_le_compat_r; [lra|easy]. }
split; intros Hs B.
- destruct (H (Rabs B + 1)) as (s & Ms & Ns & Ss & As). { generalize (Rabs_pos B); lra. }
  exists (r0 / s). split; [now exists r0, s|].
  assert (0 <= r0 / s). { apply div_nonneg; [easy|].
    assert (N1' : 0 < s1 * s1) by (destruct (Rdichotomy _ _ N1); nra). nra. }
  rewrite (Rabs_right (r0 / s)) in As by lra. generalize (Rle_abs B). lra.
- destruct (H (Rabs B + 1)) as (s & Ms & Ns & Ss & As). { generalize (Rabs_pos B); lra. }
  exists (r0 / s). split; [now exists r0, s|].
  assert (r0 / s <= 0). { apply div_nonpos; [easy|].
    assert (N1' : 0 < s1 * s1) by (destruct (Rdichotomy _ _ N1); nra). nra. }
  rewrite (Rabs_left1 (r0 / s)) in As by lra. generalize (Rle_abs (- B)). rewrite Rabs_Ropp. lra.
Qed.


Lemma div_tightest x y : wf x -> wf y ->
  computes_tightest (div x y) (image2 (fun _ s => s <> 0) Rdiv x y).
Proof.
intros Wx Wy. unfold div. vred.
destruct (isnan (fst x)) eqn:Ex; vred.
{ eapply ct_ret; [reflexivity|]. apply tightest_empty. intros; now apply image2_empty_l. }
destruct (isnan (fst y)) eqn:Ey; vred.
{ eapply ct_ret; [reflexivity|]. apply tightest_empty. intros; now apply image2_empty_r. }
pose proof (wf_nonempty x Wx Ex) as [rx Hrx].
pose proof Wx as Wx'. pose proof Wy as Wy'.
apply wf_view in Wx. apply wf_view in Wy.
destruct (feq (fst y) f0 && feq (snd y) f0) eqn:Zy.
{ pose proof (wview_zero y Zy) as H.
  eapply ct_ret; [reflexivity|]. apply tightest_empty. intros t (r & s & Hr & Hs & Hd & _).
  now apply H in Hs. }
destruct (nonzero_mem y Wy Ey Zy) as (ry & Hry & Nry).
destruct (feq (fst x) f0 && feq (snd x) f0) eqn:Zx.
{ pose proof (wview_zero x Zx) as H.
  eapply ct_ret; [reflexivity|]. apply tightest_self; [easy|]. intros r. rewrite H. split.
  - intros (r1 & s & Hr & Hs & Ht & ->). apply H in Hr. subst. unfold Rdiv; ring.
  - intros ->. exists 0, ry. rewrite H. split; [easy|split; [easy|split; [easy|unfold Rdiv; ring]]]. }
assert (NE : exists r, SD x y r) by now exists (rx / ry), rx, ry.
pose proof (nonzero_mem x Wx Ex Zx) as (x0 & Hx0 & Nx0).
pose proof (endp_l x Wx Ex) as Lx. pose proof (endp_u x Wx Ex) as Ux.
pose proof (endp_l y Wy Ey) as Ly. pose proof (endp_u y Wy Ey) as Uy.
match goal with |- context [if ?c then ret entire else _] => destruct c eqn:Cs end.
{ eapply ct_ret; [reflexivity|].
  assert (H : exists a b c d : R, (mem a x /\ mem b y /\ 0 < a * b) /\ (mem c x /\ mem d y /\ c * d < 0) /\ mem 0 y).
  { apply orb_prop in Cs. destruct Cs as [C|C].
    - apply andb_prop in C. destruct C as [C1 C2].
      destruct (endp_neg _ _ Ly C1) as (s1 & M1 & N1). destruct (endp_pos _ _ Uy C2) as (s2 & M2 & N2).
      assert (mem 0 y). { split; [apply lb_mono with s1; [apply M1|lra]|apply ub_mono with s2; [apply M2|lra]]. }
      destruct (Rdichotomy _ _ Nx0).
      + exists x0, s1, x0, s2. (split; [split; [easy|split; [easy|nra]]|split; [split; [easy|split; [easy|nra]]|easy]]).
      + exists x0, s2, x0, s1. (split; [split; [easy|split; [easy|nra]]|split; [split; [easy|split; [easy|nra]]|easy]]).
    - apply andb_prop in C. destruct C as [C C3]. apply andb_prop in C. destruct C as [C1 C2].
      destruct (endp_neg _ _ Lx C1) as (s1 & M1 & N1). destruct (endp_pos _ _ Ux C2) as (s2 & M2 & N2).
      assert (mem 0 y).
      { apply orb_prop in C3. destruct C3 as [C3|C3]; apply feq_f0 in C3; destruct C3 as [C3 C4]; rewrite <- C4.
        - destruct Ly as [[_ ?]|[[E _]|[E _]]]; [easy|now rewrite E in C3|now rewrite E in C3].
        - destruct Uy as [[_ ?]|[[E _]|[E _]]]; [easy|now rewrite E in C3|now rewrite E in C3]. }
      destruct (Rdichotomy _ _ Nry).
      + exists s1, ry, s2, ry. (split; [split; [easy|split; [easy|nra]]|split; [split; [easy|split; [easy|nra]]|easy]]).
      + exists s2, ry, s1, ry. (split; [split; [easy|split; [easy|nra]]|split; [split; [easy|split; [easy|nra]]|easy]]). }
  destruct H as (a & b & c & d & (A1 & A2 & A3) & (B1 & B2 & B3) & M0).
  apply tightest_intro; [easy| |].
  - apply glow_unb. apply (unb_near x y c d); try easy; nra.
  - apply gupp_unb. apply (unb_near x y a b); try easy; nra. }
eapply ct_ret; [reflexivity|].
Ltac dcorner :=
  first [ apply glow_div | apply gupp_div ];
  [ assumption | assumption
  | intros ?; first [discriminate | assumption | apply Rlt_not_eq; lra | apply Rgt_not_eq; lra]
  | intros ? ? r s Hr Hs ?; first [discriminate | memx; apply div_le; nra]
  | intros ?; first [discriminate
     | match goal with H : isinf ?a = true |- _ => rewrite (isinf_fin a) in H by fin; discriminate H end
     | split; [assumption|intros r s Hr Hs ?; memx; first [apply div_nonneg|apply div_nonpos]; [assumption|nra]]]
  | intros; signs | intros; signs ].
clear Hrx rx. revert Cs.
destruct Wx as [ | |xu Fxu|xl Fxl|xl xu Fxl Fxu Hx], Wy as [ | |yu Fyu|yl Fyl|yl yu Fyl Fyu Hy];
  try discriminate; cbn [fst snd] in *; clear Wx' Wy' Zx Zy; fcmp;
  rewrite ?B2R_f0; repeat rcase; try discriminate; intros _; try (exfalso; lra).
all: apply tightest_intro; [assumption| |].
all: try dcorner.
all: try (first [apply glow_unb|apply gupp_unb]; apply (unb_near _ _ x0 ry); try assumption;
  [split; cbn [fst snd]; first [rewrite lb_fin by fin; lra|rewrite ub_fin by fin; lra|reflexivity] |
   memx; apply Rdichotomy in Nx0; apply Rdichotomy in Nry; destruct Nx0, Nry; try (exfalso; lra); nra]).
all: exfalso; apply Nry; memx; lra.
Qed.

Lemma mem_f1 r : mem r (@f1 F, f1) <-> r = 1.
Proof. unfold mem; simpl. rewrite lb_fin, ub_fin, B2R_f1 by apply is_finite_f1. lra. Qed.

Lemma recip_tightest x : wf x -> computes_tightest (recip x) (image1 (fun r => r <> 0) Rinv x).
Proof.
intros Wx. unfold recip. vred.
destruct (div_tightest (f1, f1) x) as (z & Hz & Tz); [|easy|].
- right. exists 1. now apply mem_f1.
- exists z. split; [easy|]. revert Tz. apply tightest_ext. intros r. split.
  + intros (s & t & Hs & Ht & Hd & ->). apply mem_f1 in Hs. subst s. exists t. split; [easy|split; [easy|]].
    unfold Rdiv. ring.
  + intros (t & Ht & Hd & ->). exists 1, t. split; [now apply mem_f1|split; [easy|split; [easy|]]]. unfold Rdiv. ring.
Qed.

End M.
