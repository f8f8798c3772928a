(** * Proofs: the two-argument arctangent is tightest *)
From Coq Require Import ZArith NArith Reals Bool Lia Lra Psatz.
From Flocq Require Import Core.Core IEEE754.BinarySingleNaN.
From Verif Require Import Fmt Spec FloatFacts Exc Deco SpecApi SpecElem SpecAtan2 MBase PBase MBool PArith PMul PUnary PElem PElem2 PPown
  MTrig PTrig MAtan2.
Local Open Scope R_scope.

Section A.
Context {F : fmt}.
Implicit Types x y z : itv F.
Implicit Types a b l u : float F.

(** The real value (or limit) at a corner. *)
Inductive av : float F -> float F -> R -> Prop :=
| av_fin a b : is_finite a = true -> is_finite b = true -> B2R a <> 0 -> av a b (ratan2 (B2R a) (B2R b))
| av_right a : is_finite a = true -> B2R a <> 0 -> av a finf 0
| av_left_up a : is_finite a = true -> 0 < B2R a -> av a fminf PI
| av_left_dn a : is_finite a = true -> B2R a < 0 -> av a fminf (- PI)
| av_up b : is_finite b = true -> av finf b (PI / 2)
| av_dn b : is_finite b = true -> av fminf b (- (PI / 2)).

Lemma av_rnds m a b v : av a b v -> rnds m v (mpfr_atan2 m a b).
Proof.
intros [a' b' Fa Fb Na|a' Fa Na|a' Fa Pa|a' Fa Na|b' Fb|b' Fb].
- destruct a' as [sa|[]| |sa ma ea Ea]; try easy.
  destruct b' as [sb|[]| |sb mb eb Eb]; try easy; apply rround_rnds.
- destruct a' as [sa|[]| |sa ma ea Ea]; try easy. apply rnds_zero.
- destruct a' as [sa|[]| |sa ma ea Ea]; try easy; [simpl in Pa; lra|].
  replace (mpfr_atan2 m (B754_finite sa ma ea Ea) fminf) with (@rround F m sa (signedR sa PI)) by easy.
  destruct sa; [|apply rround_rnds]. exfalso. revert Pa. apply Rle_not_lt. now apply F2R_le_0.
- destruct a' as [sa|[]| |sa ma ea Ea]; try easy; [simpl in Na; lra|].
  replace (mpfr_atan2 m (B754_finite sa ma ea Ea) fminf) with (@rround F m sa (signedR sa PI)) by easy.
  destruct sa; [apply rround_rnds|]. exfalso. revert Na. apply Rle_not_lt. now apply F2R_ge_0.
- destruct b' as [sb|[]| |sb mb eb Eb]; try easy; apply (rround_rnds m false (PI / 2)).
- destruct b' as [sb|[]| |sb mb eb Eb]; try easy; apply (rround_rnds m true (- (PI / 2))).
Qed.

Variables x y : itv F.
Notation S := (image2 not_origin ratan2 y x).

Lemma av_adh a b v e : av a b v -> endp a y -> endp b x -> 0 < e -> exists t, S t /\ v - e < t < v + e.
Proof.
intros V Ea Eb He.
assert (FIN : forall c (z : itv F), endp c z -> is_finite c = true -> mem (B2R c) z).
{ intros c z [[_ H]|[[-> _]|[-> _]]] Fc; easy. }
assert (UP : forall z : itv F, endp finf z -> forall B, exists r, mem r z /\ B < r).
{ intros z [[H _]|[[H _]|[_ H]]]; easy. }
assert (DN : forall z : itv F, endp fminf z -> forall B, exists r, mem r z /\ r < B).
{ intros z [[H _]|[[_ H]|[H _]]]; easy. }
destruct V as [a b Fa Fb Na|a Fa Na|a Fa Pa|a Fa Na|b Fb|b Fb].
- exists (ratan2 (B2R a) (B2R b)). split; [|lra]. exists (B2R a), (B2R b). split; [auto|]. split; [auto|]. split; [now left|easy].
- assert (H : exists B, forall s, B < s -> - e < ratan2 (B2R a) s < e).
  { destruct (Rdichotomy _ _ Na) as [H|H].
    - destruct (ratan2_right (- B2R a) e) as [B HB]; [lra|easy|]. exists B. intros s Hs. specialize (HB s Hs).
      rewrite ratan2_opp in HB by lra. pose proof (ratan2_dn (B2R a) s H). lra.
    - destruct (ratan2_right (B2R a) e) as [B HB]; [lra|easy|]. exists B. intros s Hs. specialize (HB s Hs).
      pose proof (ratan2_up (B2R a) s H). lra. }
  destruct H as [B HB]. destruct (UP x Eb B) as (s & Hs & Hs'). exists (ratan2 (B2R a) s).
  split; [|specialize (HB s Hs'); lra]. exists (B2R a), s. split; [auto|]. split; [auto|]. split; [now left|easy].
- destruct (ratan2_left (B2R a) e Pa He) as [B HB]. destruct (DN x Eb B) as (s & Hs & Hs').
  exists (ratan2 (B2R a) s). pose proof (ratan2_up (B2R a) s Pa). split; [|specialize (HB s Hs'); lra].
  exists (B2R a), s. split; [auto|]. split; [auto|]. split; [left; lra|easy].
- destruct (ratan2_left (- B2R a) e) as [B HB]; [lra|easy|]. destruct (DN x Eb B) as (s & Hs & Hs').
  specialize (HB s Hs'). rewrite ratan2_opp in HB by lra.
  exists (ratan2 (B2R a) s). pose proof (ratan2_dn (B2R a) s Na). split; [|lra].
  exists (B2R a), s. split; [auto|]. split; [auto|]. split; [left; lra|easy].
- destruct (ratan2_far (B2R b) e He) as (B & HB & H). destruct (UP y Ea B) as (r & Hr & Hr').
  exists (ratan2 r (B2R b)). split; [|specialize (H r Hr'); lra].
  exists r, (B2R b). split; [auto|]. split; [auto|]. split; [left; lra|easy].
- destruct (ratan2_far (B2R b) e He) as (B & HB & H). destruct (DN y Ea (- B)) as (r & Hr & Hr').
  exists (ratan2 r (B2R b)). specialize (H (- r) ltac:(lra)). rewrite ratan2_opp in H by lra. split; [|lra].
  exists r, (B2R b). split; [auto|]. split; [auto|]. split; [left; lra|easy].
Qed.
Lemma corner_low a b v : av a b v -> endp a y -> endp b x ->
  (forall r s, mem r y -> mem s x -> not_origin r s -> v <= ratan2 r s) -> glow S (mpfr_atan2 mode_DN a b).
Proof.
intros V Ea Eb H. apply glow_glb with v; [|now apply rnds_DN, av_rnds]. apply glbR_eps.
- intros t (r & s & Hr & Hs & D & ->). auto.
- intros e He. destruct (av_adh a b v e V Ea Eb He) as (t & Ht & Ht'). exists t. split; [easy|lra].
Qed.
Lemma corner_upp a b v : av a b v -> endp a y -> endp b x ->
  (forall r s, mem r y -> mem s x -> not_origin r s -> ratan2 r s <= v) -> gupp S (mpfr_atan2 mode_UP a b).
Proof.
intros V Ea Eb H. apply gupp_lub with v; [|now apply rnds_UP, av_rnds]. apply lubR_eps.
- intros t (r & s & Hr & Hs & D & ->). auto.
- intros e He. destruct (av_adh a b v e V Ea Eb He) as (t & Ht & Ht'). exists t. split; [easy|lra].
Qed.
(** A zero ordinate over a positive abscissa. *)
Lemma zero_low a b : is_finite a = true -> B2R a = 0 -> pos_f b -> endp b x -> mem 0 y ->
  (forall r s, mem r y -> mem s x -> not_origin r s -> 0 <= ratan2 r s) -> glow S (mpfr_atan2 mode_DN a b).
Proof.
intros Fa Za Pb Eb M0 H. destruct (endp_pos b x Eb Pb) as (s & Hs & Hs').
apply glow_att with 0.
- exists 0, s. split; [easy|]. split; [easy|]. split; [right; lra|]. now rewrite ratan2_0r by lra.
- intros t (r & s' & Hr & Hs2 & D & ->). auto.
- apply rnds_DN. destruct a as [sa|[]| |sa ma ea Ea]; try easy.
  + destruct b as [[]|[]| |[]]; try easy; apply rnds_zero.
  + exfalso. apply eq_0_F2R in Za. now destruct sa.
Qed.
Lemma zero_upp a b : is_finite a = true -> B2R a = 0 -> pos_f b -> endp b x -> mem 0 y ->
  (forall r s, mem r y -> mem s x -> not_origin r s -> ratan2 r s <= 0) -> gupp S (mpfr_atan2 mode_UP a b).
Proof.
intros Fa Za Pb Eb M0 H. destruct (endp_pos b x Eb Pb) as (s & Hs & Hs').
apply gupp_att with 0.
- exists 0, s. split; [easy|]. split; [easy|]. split; [right; lra|]. now rewrite ratan2_0r by lra.
- intros t (r & s' & Hr & Hs2 & D & ->). auto.
- apply rnds_UP. destruct a as [sa|[]| |sa ma ea Ea]; try easy.
  + destruct b as [[]|[]| |[]]; try easy; apply rnds_zero.
  + exfalso. apply eq_0_F2R in Za. now destruct sa.
Qed.
Lemma zero_low0 s : mem 0 y -> mem s x -> 0 < s ->
  (forall r s, mem r y -> mem s x -> not_origin r s -> 0 <= ratan2 r s) -> glow S (@f0 F).
Proof.
intros M0 Hs Hs' H. apply glow_att with 0; [| |apply is_RD_0].
- exists 0, s. split; [easy|]. split; [easy|]. split; [right; lra|]. now rewrite ratan2_0r by lra.
- intros t (r & s' & Hr & Hs2 & D & ->). auto.
Qed.
Lemma zero_upp0 s : mem 0 y -> mem s x -> 0 < s ->
  (forall r s, mem r y -> mem s x -> not_origin r s -> ratan2 r s <= 0) -> gupp S (@f0 F).
Proof.
intros M0 Hs Hs' H. apply gupp_att with 0; [| |apply is_RU_0].
- exists 0, s. split; [easy|]. split; [easy|]. split; [right; lra|]. now rewrite ratan2_0r by lra.
- intros t (r & s' & Hr & Hs2 & D & ->). auto.
Qed.
(** The negative axis belongs to the box. *)
Lemma ratan2_le_pi r s : ratan2 r s <= PI.
Proof.
pose proof PI_RGT_0. destruct (total_order_T r 0) as [[H1| ->]|H1].
- pose proof (ratan2_dn r s H1). lra.
- destruct (Rlt_or_le s 0); [rewrite ratan2_0l|rewrite ratan2_0r]; lra.
- pose proof (ratan2_up r s H1). lra.
Qed.
Lemma ratan2_ge_mpi r s : - PI <= ratan2 r s.
Proof.
pose proof PI_RGT_0. destruct (total_order_T r 0) as [[H1| ->]|H1].
- pose proof (ratan2_dn r s H1). lra.
- destruct (Rlt_or_le s 0); [rewrite ratan2_0l|rewrite ratan2_0r]; lra.
- pose proof (ratan2_up r s H1). lra.
Qed.
Lemma pi_upp s : mem 0 y -> mem s x -> s < 0 -> gupp S (@mpfr_const_pi F mode_UP).
Proof.
intros M0 Hs Hs'. apply gupp_att with PI; [| |apply rround_RU].
- exists 0, s. split; [easy|]. split; [easy|]. split; [right; lra|]. now rewrite ratan2_0l by lra.
- intros t (r & s' & Hr & Hs2 & D & ->). apply ratan2_le_pi.
Qed.
Lemma pi_low s : mem 0 y -> mem s x -> s < 0 -> (forall r s, mem r y -> mem s x -> not_origin r s -> r = 0 /\ s < 0) ->
  glow S (@mpfr_const_pi F mode_DN).
Proof.
intros M0 Hs Hs' H. apply glow_att with PI; [| |apply rround_RD].
- exists 0, s. split; [easy|]. split; [easy|]. split; [right; lra|]. now rewrite ratan2_0l by lra.
- intros t (r & s' & Hr & Hs2 & D & ->). destruct (H r s') as [-> E]; try easy. rewrite ratan2_0l; lra.
Qed.
Lemma is_RD_fneg (r : R) (f : float F) : is_RU r f -> is_RD (- r) (fneg f).
Proof.
intros [H1 H2]. split.
- apply lb_opp. now rewrite Ropp_involutive.
- intros l' Hl' t Ht. apply lb_opp in Ht.
  assert (U : ub (fneg l') r) by now apply ub_opp.
  specialize (H2 _ U _ Ht). apply ub_opp in H2. now rewrite Ropp_involutive in H2.
Qed.
Lemma mpi_low s d : mem s x -> s < 0 -> 0 < d -> (forall r, - d < r < 0 -> mem r y) -> glow S (fneg (@mpfr_const_pi F mode_UP)).
Proof.
intros Hs Hs' Hd H. apply glow_glb with (- PI); [|apply is_RD_fneg, rround_RU]. apply glbR_eps.
- intros t (r & s' & Hr & Hs2 & D & ->). apply ratan2_ge_mpi.
- intros e He. destruct (ratan2_below s e Hs' He) as (d' & Hd' & H'). 
  assert (Hm : 0 < Rmin d d' / 2) by (unfold Rmin; destruct Rle_dec; lra).
  assert (Rmin d d' <= d /\ Rmin d d' <= d') by (split; [apply Rmin_l|apply Rmin_r]).
  exists (ratan2 (- (Rmin d d' / 2)) s). split; [|apply H'; lra].
  exists (- (Rmin d d' / 2)), s. split; [apply H; lra|]. split; [easy|]. split; [left; lra|easy].
Qed.

Lemma mem_rng l u r : is_finite l = true -> is_finite u = true -> mem r (l, u) <-> B2R l <= r <= B2R u.
Proof. intros Fl Fu. unfold mem. cbn [fst snd]. now rewrite lb_fin, ub_fin. Qed.
Lemma mem_rng_l u r : is_finite u = true -> mem r (fminf, u) <-> r <= B2R u.
Proof. intros Fu. unfold mem. cbn [fst snd]. rewrite ub_fin by easy. simpl. tauto. Qed.
Lemma mem_rng_r l r : is_finite l = true -> mem r (l, finf) <-> B2R l <= r.
Proof. intros Fl. unfold mem. cbn [fst snd]. rewrite lb_fin by easy. simpl. tauto. Qed.
Lemma mem_rng_e r : mem r ((fminf, finf) : itv F) <-> True.
Proof. unfold mem. simpl. tauto. Qed.
End A.
Section A.
Context {F : fmt}.
Implicit Types x y z : itv F.
Lemma mpi_low' x y a b : endp a x -> neg_f a -> endp b y -> neg_f b -> mem 0 y ->
  glow (image2 not_origin ratan2 y x) (fneg (@mpfr_const_pi F mode_UP)).
Proof.
intros Ea Na Eb Nb [M1 M2]. destruct (endp_neg a x Ea Na) as (s & Hs & Hs'). destruct (endp_neg b y Eb Nb) as (r0 & Hr & Hr').
apply mpi_low with s (- r0); try easy; [lra|]. intros r Hr2. destruct Hr as [L1 L2].
split; [apply lb_mono with r0; [easy|lra]|apply ub_mono with 0; [easy|lra]].
Qed.
Lemma pi_upp' x y a : endp a x -> neg_f a -> mem 0 y -> gupp (image2 not_origin ratan2 y x) (@mpfr_const_pi F mode_UP).
Proof. intros Ea Na M. destruct (endp_neg a x Ea Na) as (s & Hs & Hs'). now apply pi_upp with s. Qed.
Lemma pi_low' x y a : endp a x -> neg_f a -> mem 0 y -> (forall r s, mem r y -> mem s x -> not_origin r s -> r = 0 /\ s < 0) ->
  glow (image2 not_origin ratan2 y x) (@mpfr_const_pi F mode_DN).
Proof. intros Ea Na M H. destruct (endp_neg a x Ea Na) as (s & Hs & Hs'). now apply pi_low with s. Qed.
Lemma zero_low0' x y a : endp a x -> pos_f a -> mem 0 y ->
  (forall r s, mem r y -> mem s x -> not_origin r s -> 0 <= ratan2 r s) -> glow (image2 not_origin ratan2 y x) (@f0 F).
Proof. intros Ea Na M H. destruct (endp_pos a x Ea Na) as (s & Hs & Hs'). now apply zero_low0 with s. Qed.
Lemma zero_upp0' x y a : endp a x -> pos_f a -> mem 0 y ->
  (forall r s, mem r y -> mem s x -> not_origin r s -> ratan2 r s <= 0) -> gupp (image2 not_origin ratan2 y x) (@f0 F).
Proof. intros Ea Na M H. destruct (endp_pos a x Ea Na) as (s & Hs & Hs'). now apply zero_upp0 with s. Qed.
End A.
Ltac rng := rewrite ?mem_rng, ?mem_rng_l, ?mem_rng_r, ?mem_rng_e by assumption.
Ltac rng_in H := rewrite ?mem_rng, ?mem_rng_l, ?mem_rng_r, ?mem_rng_e in H by assumption.

Ltac ang r s := (* facts about one angle, by the position of the point *)
  pose proof PI_RGT_0; destruct (total_order_T r 0) as [[?| ->]|?];
  [ pose proof (ratan2_dn r s ltac:(assumption)) as (? & ? & ?)
  | destruct (Rlt_or_le s 0); [rewrite (ratan2_0l s) by assumption|rewrite (ratan2_0r s) by assumption]
  | pose proof (ratan2_up r s ltac:(assumption)) as (? & ? & ?)].
Ltac angle_bound :=
  let r := fresh "r" in let s := fresh "s" in let Hr := fresh "Hr" in let Hs := fresh "Hs" in let D := fresh "D" in
  intros r s Hr Hs D; rng_in Hr; rng_in Hs; unfold not_origin in D; cbn [B2R f0] in *;
  first
  [ lra
  | ang r s; try lra;
    repeat match goal with H : ?P -> _ |- _ => match type of P with Prop => specialize (H ltac:(lra)) end end;
    try lra;
    first [ apply ratan2_up_le; nra | apply ratan2_dn_le; nra
          | match goal with |- context [ratan2 (B2R ?a) ?b] =>
              ang (B2R a) b; try lra end ] ].
Ltac sgn := first [reflexivity | apply neg_f_intro; [assumption|cbn [B2R f0] in *; lra] | apply pos_f_intro; [assumption|cbn [B2R f0] in *; lra]].
Ltac nz := cbn [B2R f0] in *; lra.
Ltac av_tac := first [apply av_fin; [assumption|assumption|nz] | apply av_right; [assumption|nz] | apply av_left_up; [assumption|nz]
  | apply av_left_dn; [assumption|nz] | apply av_up; assumption | apply av_dn; assumption].
Ltac mem0 := rng; first [exact I|cbn [B2R f0] in *; lra].
Ltac low_tac Exl Exu Eyl Eyu := first
 [ apply (mpi_low' _ _ _ _ Exl ltac:(sgn) Eyl ltac:(sgn)); mem0
 | apply (pi_low' _ _ _ Exl ltac:(sgn)); [mem0|angle_bound]
 | apply (zero_low0' _ _ _ Exu ltac:(sgn)); [mem0|angle_bound]
 | eapply corner_low; [av_tac|eassumption|eassumption|angle_bound]
 | apply zero_low; [assumption|nz|sgn|assumption|mem0|angle_bound] ].
Ltac upp_tac Exl Exu Eyl Eyu := first
 [ apply (pi_upp' _ _ _ Exl ltac:(sgn)); mem0
 | apply (zero_upp0' _ _ _ Exu ltac:(sgn)); [mem0|angle_bound]
 | eapply corner_upp; [av_tac|eassumption|eassumption|angle_bound]
 | apply zero_upp; [assumption|nz|sgn|assumption|mem0|angle_bound] ].
Section A.
Context {F : fmt}.
Implicit Types x y z : itv F.
Lemma atan2_tightest y x : wf y -> wf x -> computes_tightest (atan2_itv y x) (image2 not_origin ratan2 y x).
Proof.
intros Wy Wx. unfold atan2_itv. vred.
destruct (isnan (fst y)) eqn:Ey; vred.
{ eapply ct_ret; [reflexivity|]. apply tightest_empty. intros r. now apply image2_empty_l. }
destruct (isnan (fst x)) eqn:Ex; vred.
{ eapply ct_ret; [reflexivity|]. apply tightest_empty. intros r. now apply image2_empty_r. }
pose proof (wf_view _ Wx) as Vx. pose proof (wf_view _ Wy) as Vy.
pose proof (endp_l y Vy Ey) as Eyl. pose proof (endp_u y Vy Ey) as Eyu.
pose proof (endp_l x Vx Ex) as Exl. pose proof (endp_u x Vx Ex) as Exu.
destruct (feq (fst y) f0 && feq (snd y) f0 && feq (fst x) f0 && feq (snd x) f0) eqn:E0; vred.
{ eapply ct_ret; [reflexivity|]. apply tightest_empty.
  repeat (apply andb_true_iff in E0; destruct E0 as [E0 ?]).
  apply feq_f0 in E0, H, H0, H1. intros t (r & s & [Hr1 Hr2] & [Hs1 Hs2] & D & _).
  rewrite lb_fin in Hr1, Hs1 by easy. rewrite ub_fin in Hr2, Hs2 by easy. destruct D; lra. }
eapply ct_ret; [reflexivity|].
match goal with |- tightest _ ?w => set (z := w) end.
assert (N : exists t, image2 not_origin ratan2 y x t).
{ destruct (wview_nonempty y Vy Ey) as (r & Hr). destruct (wview_nonempty x Vx Ex) as (s & Hs).
  destruct (feq (fst y) f0 && feq (snd y) f0) eqn:E1.
  - destruct (nonzero_mem x Vx Ex) as (s' & Hs' & Ns).
    { rewrite <- E0. now destruct (feq (fst x) f0), (feq (snd x) f0). }
    exists (ratan2 r s'), r, s'. split; [easy|]. split; [easy|]. split; [now right|easy].
  - destruct (nonzero_mem y Vy Ey E1) as (r' & Hr' & Nr).
    exists (ratan2 r' s), r', s. split; [easy|]. split; [easy|]. split; [now left|easy]. }
assert (G : glow (image2 not_origin ratan2 y x) (fst z) /\ gupp (image2 not_origin ratan2 y x) (snd z));
  [|rewrite (surjective_pairing z); now apply tightest_intro].
subst z. revert E0.
destruct Vy as [ | |yu Fyu|yl Fyl|yl yu Fyl Fyu Lyu]; [easy|..];
destruct Vx as [ | |xu Fxu|xl Fxl|xl xu Fxl Fxu Lxu]; try easy; cbn [fst snd] in *.
all: fcmp.
all: repeat (rcase; try (exfalso; cbn [B2R f0] in *; lra)); intros E0; try discriminate E0; cbn [fst snd].
all: split; [try low_tac Exl Exu Eyl Eyu|try upp_tac Exl Exu Eyl Eyu].
all: match goal with |- context [mpfr_atan2 _ ?a _] =>
       destruct (total_order_T (B2R a) 0) as [[?|?]|?]; try (exfalso; cbn [B2R f0] in *; lra) end;
     try low_tac Exl Exu Eyl Eyu; try upp_tac Exl Exu Eyl Eyu.
Qed.

(** In terms of angles. *)
Lemma image_angle y x t : image2 not_origin ratan2 y x t <-> exists r s, mem r y /\ mem s x /\ angle r s t.
Proof.
split; intros (r & s & Hr & Hs & H); exists r, s; rewrite angle_iff in *; tauto.
Qed.
Lemma atan2_angle y x : wf y -> wf x -> computes_tightest (atan2_itv y x) (fun t => exists r s, mem r y /\ mem s x /\ angle r s t).
Proof.
intros Wy Wx. destruct (atan2_tightest y x Wy Wx) as (z & Hz & T). exists z. split; [easy|].
revert T. apply tightest_ext. intros t. apply image_angle.
Qed.
Lemma atan2_empty y x z : wf y -> wf x -> returns (atan2_itv y x) z ->
  z = empty_rep <-> (forall r s, mem r y -> mem s x -> r = 0 /\ s = 0).
Proof.
intros Wy Wx Hz. destruct (atan2_tightest y x Wy Wx) as (z' & Hz' & T).
assert (z' = z) by (pose proof (Hz' (Est 0 0)); pose proof (Hz (Est 0 0)); congruence). subst z'.
split.
- intros -> r s Hr Hs. destruct T as (_ & T & _).
  assert (N : ~ not_origin r s).
  { intros D. specialize (T (ratan2 r s)). apply (@mem_empty F (ratan2 r s)). apply T. now exists r, s. }
  unfold not_origin in N. split.
  + destruct (Req_dec r 0); tauto.
  + destruct (Req_dec s 0); tauto.
- intros H. destruct T as ([E|(q & Hq)] & _ & T); [easy|].
  exfalso. apply (@mem_empty F q). apply T; [now left| |easy]. intros t (r & s & Hr & Hs & D & _).
  destruct (H r s Hr Hs) as [-> ->]. destruct D; lra.
Qed.
End A.
