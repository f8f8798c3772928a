(** * Proofs: reverse multiplication *)
From Coq Require Import ZArith NArith Reals Bool Lia Lra Psatz List.
From Flocq Require Import Core.Core Calc.Operations IEEE754.BinarySingleNaN.
From Verif Require Import Fmt Spec FloatFacts Exc Deco SpecApi MBase PBase MBool MArith PArith PMul PFma PDiv PUnary
  PConv PBool PSetop PDec MNum PNumF MRev SpecRev PRev.

Local Open Scope R_scope.

Section M.
Context {F : fmt}.
Implicit Types a b c l u : float F.
Implicit Types x y z : itv F.
Notation SD x y := (image2 nz2 Rdiv x y).

Lemma mem_convex (x : itv F) : convexR (fun r => mem r x).
Proof. intros p q r [P1 P2] [Q1 Q2] [H1 H2]. split; [now apply lb_mono with p|now apply ub_mono with q]. Qed.
Lemma between_convex (x : itv F) r1 r2 w : mem r1 x -> mem r2 x -> 0 <= w <= 1 -> mem (w * r1 + (1 - w) * r2) x.
Proof.
intros H1 H2 Hw. destruct (Rle_or_lt r1 r2).
- apply (mem_convex x r1 r2); [easy|easy|nra].
- apply (mem_convex x r2 r1); [easy|easy|nra].
Qed.
Lemma SD_iff x y t : SD x y t <-> exists s, mem s y /\ s <> 0 /\ mem (s * t) x.
Proof.
split.
- intros (r & s & Hr & Hs & N & ->). exists s. split; [easy|]. split; [easy|].
  now replace (s * (r / s)) with r by (field; easy).
- intros (s & Hs & N & H). exists (s * t), s. repeat split; try easy; try apply H; try apply Hs. field; easy.
Qed.
Lemma SD_convex x y : (forall s, mem s y -> 0 <= s) \/ (forall s, mem s y -> s <= 0) -> convexR (SD x y).
Proof.
intros Sg p q t (r1 & s1 & R1 & S1 & N1 & ->) (r2 & s2 & R2 & S2 & N2 & ->) [Hp Hq]. red in N1, N2.
set (A := t * s1 - r1). set (D := r2 - t * s2).
assert (EA : A = s1 * (t - r1 / s1)) by (unfold A; field; easy).
assert (ED : D = s2 * (r2 / s2 - t)) by (unfold D; field; easy).
assert (Sgn : 0 < s1 * s2).
{ destruct Sg as [Sg|Sg]; pose proof (Sg _ S1); pose proof (Sg _ S2); apply Rdichotomy in N1, N2; destruct N1, N2; nra. }
destruct (Req_dec (A + D) 0) as [Z|Z].
- exists r1, s1. repeat split; try easy; try apply R1; try apply S1.
  assert (A * s2 = 0); [|assert (A = 0) by nra; rewrite H0 in EA; symmetry in EA; apply Rmult_integral in EA; lra].
  assert (0 <= (t - r1 / s1) * (s1 * s2)) by nra. assert (0 <= (r2 / s2 - t) * (s2 * s2)) by nra.
  assert (A * s2 + D * s2 = 0) by nra. assert (A * s2 = (t - r1 / s1) * (s1 * s2)) by (rewrite EA; ring).
  assert (D * s2 = (r2 / s2 - t) * (s2 * s2)) by (rewrite ED; ring). lra.
- set (w := D / (A + D)).
  assert (Hw : 0 <= w <= 1).
  { assert (H1 : 0 <= A * D).
    { rewrite EA, ED. replace (s1 * (t - r1 / s1) * (s2 * (r2 / s2 - t))) with ((s1 * s2) * ((t - r1 / s1) * (r2 / s2 - t))) by ring.
      apply Rmult_le_pos; [lra|]. apply Rmult_le_pos; lra. }
    assert (0 < (A + D) * (A + D)) by (apply Rdichotomy in Z; destruct Z; nra).
    assert (E : w = D * (A + D) * / ((A + D) * (A + D))) by (unfold w; field; easy).
    assert (E1 : 1 - w = A * (A + D) * / ((A + D) * (A + D))) by (unfold w; field; easy).
    assert (0 < / ((A + D) * (A + D))) by now apply Rinv_0_lt_compat.
    split; [rewrite E|cut (0 <= 1 - w); [lra|rewrite E1]]; apply Rmult_le_pos; try lra; nra. }
  apply SD_iff. exists (w * s1 + (1 - w) * s2). split; [now apply between_convex|]. split.
  + destruct Sg as [Sg|Sg]; pose proof (Sg _ S1); pose proof (Sg _ S2); apply Rdichotomy in N1, N2; destruct N1, N2; nra.
  + replace ((w * s1 + (1 - w) * s2) * t) with (w * r1 + (1 - w) * r2); [now apply between_convex|].
    assert (w * A = (1 - w) * D). { unfold w; field; easy. }
    unfold A, D in H. nra.
Qed.

(** A quotient of end points as a bound of a branch. *)
Lemma lo_div (B : Prop) a b x y : endp a x -> endp b y ->
  (is_finite b = true -> B2R b <> 0) ->
  (is_finite a = true -> is_finite b = true -> forall r s, mem r x -> mem s y -> s <> 0 -> B2R a / B2R b <= r / s) ->
  (isinf b = true -> is_finite a = true /\ forall r s, mem r x -> mem s y -> s <> 0 -> 0 <= r / s) ->
  (a = finf -> neg_f b) -> (a = fminf -> pos_f b) -> (B -> is_finite b = true) ->
  lo_ok B (SD x y) (fst (divd a b)) (snd (divd a b)).
Proof.
intros Ea Eb Hnz Hf Hi Hap Ham HB.
pose proof (glow_div a b x y Ea Eb Hnz Hf Hi Hap Ham) as G. cbn [divd fst snd].
split; [exact G|]. split.
- intros T Fl H. destruct (is_finite a) eqn:Fa; [|rewrite div_inexact_inf in T by auto; easy].
  destruct (is_finite b) eqn:Fb; [|rewrite div_inexact_inf in T by auto; easy].
  rewrite div_inexact_spec, Fl in T by auto. cbn [andb] in T. apply negb_true_iff in T. revert T.
  case Req_bool_spec; [easy|]. intros Ne _.
  assert (I : SD x y (B2R a / B2R b)).
  { destruct Ea as [[_ Ea]|[[-> _]|[-> _]]]; try easy. destruct Eb as [[_ Eb]|[[-> _]|[-> _]]]; try easy.
    exists (B2R a), (B2R b). repeat split; try apply Ea; try apply Eb. now apply Hnz. }
  pose proof (proj1 G _ I) as L. rewrite lb_fin in L by easy.
  destruct H as (r & s & Hr & Hs & N & E). pose proof (Hf eq_refl eq_refl r s Hr Hs N). lra.
- intros HB' T Fl.
  assert (Fb : is_finite b = true).
  { destruct HB' as [HB'|HB']; [auto|]. destruct Eb as [[Fb _]|[[Eb _]|[Eb _]]]; [easy| |];
      (destruct (Hi ltac:(now rewrite Eb)) as [Fa _]; destruct (rdiv_inf_r mode_DN a b Fa ltac:(now rewrite Eb)) as [_ Z]; easy). }
  clear HB HB'. rename Fb into HB.
  destruct Ea as [[Fa Ea]|[[-> _]|[-> _]]].
  + rewrite div_inexact_spec, Fl in T by auto. cbn [andb] in T. apply negb_false_iff in T. revert T.
    case Req_bool_spec; [|easy]. intros -> _.
    destruct Eb as [[_ Eb]|[[-> _]|[-> _]]]; try easy.
    exists (B2R a), (B2R b). repeat split; try apply Ea; try apply Eb. now apply Hnz.
  + rewrite rdiv_minf_pos in Fl by auto. easy.
  + rewrite rdiv_pinf_neg in Fl by auto. easy.
Qed.
Lemma up_div (B : Prop) a b x y : endp a x -> endp b y ->
  (is_finite b = true -> B2R b <> 0) ->
  (is_finite a = true -> is_finite b = true -> forall r s, mem r x -> mem s y -> s <> 0 -> r / s <= B2R a / B2R b) ->
  (isinf b = true -> is_finite a = true /\ forall r s, mem r x -> mem s y -> s <> 0 -> r / s <= 0) ->
  (a = finf -> pos_f b) -> (a = fminf -> neg_f b) -> (B -> is_finite b = true) ->
  up_ok B (SD x y) (fst (divu a b)) (snd (divu a b)).
Proof.
intros Ea Eb Hnz Hf Hi Hap Ham HB.
pose proof (gupp_div a b x y Ea Eb Hnz Hf Hi Hap Ham) as G. cbn [divu fst snd].
split; [exact G|]. split.
- intros T Fl H. destruct (is_finite a) eqn:Fa; [|rewrite div_inexact_inf in T by auto; easy].
  destruct (is_finite b) eqn:Fb; [|rewrite div_inexact_inf in T by auto; easy].
  rewrite div_inexact_spec, Fl in T by auto. cbn [andb] in T. apply negb_true_iff in T. revert T.
  case Req_bool_spec; [easy|]. intros Ne _.
  assert (I : SD x y (B2R a / B2R b)).
  { destruct Ea as [[_ Ea]|[[-> _]|[-> _]]]; try easy. destruct Eb as [[_ Eb]|[[-> _]|[-> _]]]; try easy.
    exists (B2R a), (B2R b). repeat split; try apply Ea; try apply Eb. now apply Hnz. }
  pose proof (proj1 G _ I) as L. rewrite ub_fin in L by easy.
  destruct H as (r & s & Hr & Hs & N & E). pose proof (Hf eq_refl eq_refl r s Hr Hs N). lra.
- intros HB' T Fl.
  assert (Fb : is_finite b = true).
  { destruct HB' as [HB'|HB']; [auto|]. destruct Eb as [[Fb _]|[[Eb _]|[Eb _]]]; [easy| |];
      (destruct (Hi ltac:(now rewrite Eb)) as [Fa _]; destruct (rdiv_inf_r mode_UP a b Fa ltac:(now rewrite Eb)) as [_ Z]; easy). }
  clear HB HB'. rename Fb into HB.
  destruct Ea as [[Fa Ea]|[[-> _]|[-> _]]].
  + rewrite div_inexact_spec, Fl in T by auto. cbn [andb] in T. apply negb_false_iff in T. revert T.
    case Req_bool_spec; [|easy]. intros -> _.
    destruct Eb as [[_ Eb]|[[-> _]|[-> _]]]; try easy.
    exists (B2R a), (B2R b). repeat split; try apply Ea; try apply Eb. now apply Hnz.
  + rewrite rdiv_minf_neg in Fl by auto. easy.
  + rewrite rdiv_pinf_pos in Fl by auto. easy.
Qed.
Lemma lo_unb B I : unb_below I -> lo_ok B I (@fminf F) false.
Proof. intros H. split; [now apply glow_unb|]. now split. Qed.
Lemma up_unb B I : unb_above I -> up_ok B I (@finf F) false.
Proof. intros H. split; [now apply gupp_unb|]. now split. Qed.
Lemma branch_all B (I : R -> Prop) : (forall r, I r) -> branch B I (@entire F) false false.
Proof.
intros H. split; [now intros p q r|]. split; [now exists 0|]. split; [apply lo_unb|apply up_unb].
- intros b. exists (b - 1). split; [easy|lra].
- intros b. exists (b + 1). split; [easy|lra].
Qed.
Lemma branch_zero B (I : R -> Prop) : (forall r, I r <-> r = 0) -> branch B I (@f0 F, f0) false false.
Proof.
intros H. split; [|split; [|split]].
- intros p q r. rewrite !H. lra.
- exists 0. now apply H.
- split; [|split; [easy|]]; [|intros _ _ _; now apply H].
  apply glow_att with 0; [now apply H| |apply is_RD_0]. intros r. rewrite H. lra.
- split; [|split; [easy|]]; [|intros _ _ _; now apply H].
  apply gupp_att with 0; [now apply H| |apply is_RU_0]. intros r. rewrite H. lra.
Qed.
End M.

Section P.
Context {F : fmt}.
Implicit Types a l u : float F.
Implicit Types b c x y z : itv F.
Notation SD x y := (image2 nz2 Rdiv x y).

Definition pair_spec b c (p : @pair_t F) : Prop :=
  let S := rev_mul b c in let B := bounded_rep b in
  (two_branches b c /\ branch B (fun t => S t /\ t < 0) (p_first p) (t_fl p) (t_fu p) /\
     branch B (fun t => S t /\ 0 < t) (p_second p) (t_sl p) (t_su p)) \/
  (~ two_branches b c /\ p_second p = empty /\
     (branch B S (p_first p) (t_fl p) (t_fu p) \/ (forall t, ~ S t) /\ p_first p = empty)).

Lemma spec_one b c z tl tu : ~ (mem 0 b /\ mem 0 c) ->
  (forall s, mem s b -> 0 <= s) \/ (forall s, mem s b -> s <= 0) -> (exists r, SD c b r) ->
  lo_ok (bounded_rep b) (SD c b) (fst z) tl -> up_ok (bounded_rep b) (SD c b) (snd z) tu ->
  pair_spec b c (one z tl tu).
Proof.
intros N0 Sg NE L U. right. split.
{ intros ((s & S1 & S2) & (s' & S1' & S2') & _). destruct Sg as [Sg|Sg]; [pose proof (Sg _ S1)|pose proof (Sg _ S1')]; lra. }
split; [easy|]. left. apply branch_ext with (SD c b).
{ intros t. rewrite SD_iff. split.
  - intros (s & Hs & _ & H). now exists s.
  - intros (s & Hs & H). exists s. split; [easy|]. split; [|easy]. intros ->. apply N0. split; [easy|].
    now rewrite Rmult_0_l in H. }
split; [now apply SD_convex|]. now split.
Qed.
Lemma spec_all b c : mem 0 b -> mem 0 c -> pair_spec b c (only entire).
Proof.
intros Hb Hc. right. split. { now intros (_ & _ & _ & H). }
split; [easy|]. left. apply branch_all. intros t. exists 0. split; [easy|]. now rewrite Rmult_0_l.
Qed.
Lemma spec_two_neg b c (u l : float F * bool) (bn bp : itv F) : two_branches b c -> (forall r, mem r c -> r < 0) ->
  (forall s, mem s bn <-> mem s b /\ s <= 0) -> (forall s, mem s bp <-> mem s b /\ 0 <= s) ->
  up_ok (bounded_rep b) (SD c bp) (fst u) (snd u) -> unb_below (SD c bp) ->
  lo_ok (bounded_rep b) (SD c bn) (fst l) (snd l) -> unb_above (SD c bn) ->
  pair_spec b c (split u l).
Proof.
intros T Nc Hn Hp Uu Ub Ll La. left. split; [easy|]. split.
- apply branch_ext with (SD c bp).
  { intros t. rewrite SD_iff. split.
    - intros (s & Hs & N & H). apply Hp in Hs. split; [now exists s|]. pose proof (Nc _ H). nra.
    - intros ((s & Hs & H) & Ht). pose proof (Nc _ H). assert (0 < s) by nra. exists s.
      split; [apply Hp; split; [easy|lra]|]. split; [lra|easy]. }
  split; [apply SD_convex; left; intros s Hs; now apply Hp in Hs|]. split.
  { destruct (Ub 0) as (r & Hr & _). now exists r. }
  split; [now apply lo_unb|easy].
- apply branch_ext with (SD c bn).
  { intros t. rewrite SD_iff. split.
    - intros (s & Hs & N & H). apply Hn in Hs. split; [now exists s|]. pose proof (Nc _ H). nra.
    - intros ((s & Hs & H) & Ht). pose proof (Nc _ H). assert (s < 0) by nra. exists s.
      split; [apply Hn; split; [easy|lra]|]. split; [lra|easy]. }
  split; [apply SD_convex; right; intros s Hs; now apply Hn in Hs|]. split.
  { destruct (La 0) as (r & Hr & _). now exists r. }
  split; [easy|now apply up_unb].
Qed.
Lemma spec_two_pos b c (u l : float F * bool) (bn bp : itv F) : two_branches b c -> (forall r, mem r c -> 0 < r) ->
  (forall s, mem s bn <-> mem s b /\ s <= 0) -> (forall s, mem s bp <-> mem s b /\ 0 <= s) ->
  up_ok (bounded_rep b) (SD c bn) (fst u) (snd u) -> unb_below (SD c bn) ->
  lo_ok (bounded_rep b) (SD c bp) (fst l) (snd l) -> unb_above (SD c bp) ->
  pair_spec b c (split u l).
Proof.
intros T Nc Hn Hp Uu Ub Ll La. left. split; [easy|]. split.
- apply branch_ext with (SD c bn).
  { intros t. rewrite SD_iff. split.
    - intros (s & Hs & N & H). apply Hn in Hs. split; [now exists s|]. pose proof (Nc _ H). nra.
    - intros ((s & Hs & H) & Ht). pose proof (Nc _ H). assert (s < 0) by nra. exists s.
      split; [apply Hn; split; [easy|lra]|]. split; [lra|easy]. }
  split; [apply SD_convex; right; intros s Hs; now apply Hn in Hs|]. split.
  { destruct (Ub 0) as (r & Hr & _). now exists r. }
  split; [now apply lo_unb|easy].
- apply branch_ext with (SD c bp).
  { intros t. rewrite SD_iff. split.
    - intros (s & Hs & N & H). apply Hp in Hs. split; [now exists s|]. pose proof (Nc _ H). nra.
    - intros ((s & Hs & H) & Ht). pose proof (Nc _ H). assert (0 < s) by nra. exists s.
      split; [apply Hp; split; [easy|lra]|]. split; [lra|easy]. }
  split; [apply SD_convex; left; intros s Hs; now apply Hp in Hs|]. split.
  { destruct (La 0) as (r & Hr & _). now exists r. }
  split; [easy|now apply up_unb].
Qed.

Lemma split_neg b c : wview b -> wview c -> isnan (fst b) = false -> isnan (fst c) = false ->
  neg_f (fst b) -> pos_f (snd b) -> neg_f (snd c) -> pair_spec b c (split (divu (snd c) (snd b)) (divd (snd c) (fst b))).
Proof.
intros Wb Wc Eb Ec Nb Pb Nc.
assert (L0 : lb (fst b) 0). { destruct (endp_neg _ _ (endp_l b Wb Eb) Nb) as (s & [H _] & ?). apply lb_mono with s; [easy|lra]. }
assert (U0 : ub (snd b) 0). { destruct (endp_pos _ _ (endp_u b Wb Eb) Pb) as (s & [_ H] & ?). apply ub_mono with s; [easy|lra]. }
pose proof (wview_left0 b Wb Eb L0) as Wn. pose proof (wview_right0 b Wb Eb U0) as Wp.
pose proof (endp_l _ Wn Eb) as En. pose proof (endp_u _ Wp eq_refl) as Ep. cbn [fst snd] in En, Ep.
assert (Hn : forall s, mem s (fst b, @f0 F) <-> mem s b /\ s <= 0).
{ intros s. unfold mem; cbn [fst snd]. rewrite (ub_fin f0), B2R_f0 by easy. split; [|tauto].
  intros [H1 H2]. split; [|easy]. split; [easy|]. now apply ub_mono with 0. }
assert (Hp : forall s, mem s (@f0 F, snd b) <-> mem s b /\ 0 <= s).
{ intros s. unfold mem; cbn [fst snd]. rewrite (lb_fin f0), B2R_f0 by easy. split; [|tauto].
  intros [H1 H2]. split; [|easy]. split; [|easy]. now apply lb_mono with 0. }
destruct (endp_neg _ _ (endp_l b Wb Eb) Nb) as (s1 & S1 & N1).
destruct (endp_pos _ _ (endp_u b Wb Eb) Pb) as (s2 & S2 & N2).
assert (Cc : forall r, mem r c -> r < 0).
{ intros r [Hl Hu]. destruct Wc as [ | |cu Fcu|cl Fcl|cl cu Fcl Fcu Hc]; cbn [fst snd] in *; try easy;
  first [apply neg_f_fin in Nc|apply pos_f_fin in Nc]; try easy; memx; lra. }
destruct (wview_nonempty c Wc Ec) as (r0 & Hr0). pose proof (Cc r0 Hr0) as Nr0.
pose proof (endp_u c Wc Ec) as Eu.
assert (Tb : two_branches b c).
{ split; [now exists s1|]. split; [now exists s2|]. split; [now exists r0|]. intros H0. pose proof (Cc _ H0). lra. }
apply spec_two_neg with (fst b, @f0 F) (@f0 F, snd b); try easy.
- clear - En Ep Eu Nb Pb Nc Cc Wc Wb Eb Ec Hn Hp. apply up_div; try assumption.
  + intros Fb. apply pos_f_fin in Pb; try easy; try lra.
  + intros Fc Fb r s Hr Hs Ns. pose proof (Cc r Hr). apply Hp in Hs. apply pos_f_fin in Pb; try easy; try lra. assert (r <= B2R (snd c)).
    { destruct Hr as [Hr1 Hr2]. first [now rewrite ub_fin in Hr2 | now rewrite lb_fin in Hr1]. }
    assert (s <= B2R (snd b)).
    { destruct Hs as [[Hs1 Hs2] _]. first [now rewrite ub_fin in Hs2 by easy | now rewrite lb_fin in Hs1 by easy]. }
    assert (B2R (snd c) < 0) by (apply neg_f_fin in Nc; easy). apply div_le; nra.
  + intros Ib. split.
    * destruct Wc; cbn [fst snd] in *; try easy.
    * intros r s Hr Hs Ns. pose proof (Cc r Hr). apply Hp in Hs. first [apply div_nonneg; [easy|nra]|apply div_nonpos; [easy|nra]].
  + intros E. exfalso. clear - E Wc Ec Nc. destruct Wc; cbn [fst snd] in *; try easy; subst; easy.
  + intros E. exfalso. clear - E Wc Ec Nc. destruct Wc; cbn [fst snd] in *; try easy; subst; easy.
  + now intros [? ?].
- apply (unb_near c (@f0 F, snd b) r0 s2); [easy|lra|apply Hp; split; [now split|lra]|now apply Hp; split; [|lra]|lra|nra].
- clear - En Ep Eu Nb Pb Nc Cc Wc Wb Eb Ec Hn Hp. apply lo_div; try assumption.
  + intros Fb. apply neg_f_fin in Nb; try easy; try lra.
  + intros Fc Fb r s Hr Hs Ns. pose proof (Cc r Hr). apply Hn in Hs. apply neg_f_fin in Nb; try easy; try lra. assert (r <= B2R (snd c)).
    { destruct Hr as [Hr1 Hr2]. first [now rewrite ub_fin in Hr2 | now rewrite lb_fin in Hr1]. }
    assert (B2R (fst b) <= s).
    { destruct Hs as [[Hs1 Hs2] _]. first [now rewrite ub_fin in Hs2 by easy | now rewrite lb_fin in Hs1 by easy]. }
    assert (B2R (snd c) < 0) by (apply neg_f_fin in Nc; easy). apply div_le; nra.
  + intros Ib. split.
    * destruct Wc; cbn [fst snd] in *; try easy.
    * intros r s Hr Hs Ns. pose proof (Cc r Hr). apply Hn in Hs. first [apply div_nonneg; [easy|nra]|apply div_nonpos; [easy|nra]].
  + intros E. exfalso. clear - E Wc Ec Nc. destruct Wc; cbn [fst snd] in *; try easy; subst; easy.
  + intros E. exfalso. clear - E Wc Ec Nc. destruct Wc; cbn [fst snd] in *; try easy; subst; easy.
  + now intros [? ?].
- apply (unb_near c (fst b, @f0 F) r0 s1); [easy|lra|apply Hn; split; [now split|lra]|now apply Hn; split; [|lra]|lra|nra].
Qed.
Lemma split_pos b c : wview b -> wview c -> isnan (fst b) = false -> isnan (fst c) = false ->
  neg_f (fst b) -> pos_f (snd b) -> pos_f (fst c) -> pair_spec b c (split (divu (fst c) (fst b)) (divd (fst c) (snd b))).
Proof.
intros Wb Wc Eb Ec Nb Pb Nc.
assert (L0 : lb (fst b) 0). { destruct (endp_neg _ _ (endp_l b Wb Eb) Nb) as (s & [H _] & ?). apply lb_mono with s; [easy|lra]. }
assert (U0 : ub (snd b) 0). { destruct (endp_pos _ _ (endp_u b Wb Eb) Pb) as (s & [_ H] & ?). apply ub_mono with s; [easy|lra]. }
pose proof (wview_left0 b Wb Eb L0) as Wn. pose proof (wview_right0 b Wb Eb U0) as Wp.
pose proof (endp_l _ Wn Eb) as En. pose proof (endp_u _ Wp eq_refl) as Ep. cbn [fst snd] in En, Ep.
assert (Hn : forall s, mem s (fst b, @f0 F) <-> mem s b /\ s <= 0).
{ intros s. unfold mem; cbn [fst snd]. rewrite (ub_fin f0), B2R_f0 by easy. split; [|tauto].
  intros [H1 H2]. split; [|easy]. split; [easy|]. now apply ub_mono with 0. }
assert (Hp : forall s, mem s (@f0 F, snd b) <-> mem s b /\ 0 <= s).
{ intros s. unfold mem; cbn [fst snd]. rewrite (lb_fin f0), B2R_f0 by easy. split; [|tauto].
  intros [H1 H2]. split; [|easy]. split; [|easy]. now apply lb_mono with 0. }
destruct (endp_neg _ _ (endp_l b Wb Eb) Nb) as (s1 & S1 & N1).
destruct (endp_pos _ _ (endp_u b Wb Eb) Pb) as (s2 & S2 & N2).
assert (Cc : forall r, mem r c -> 0 < r).
{ intros r [Hl Hu]. destruct Wc as [ | |cu Fcu|cl Fcl|cl cu Fcl Fcu Hc]; cbn [fst snd] in *; try easy;
  first [apply neg_f_fin in Nc|apply pos_f_fin in Nc]; try easy; memx; lra. }
destruct (wview_nonempty c Wc Ec) as (r0 & Hr0). pose proof (Cc r0 Hr0) as Nr0.
pose proof (endp_l c Wc Ec) as Eu.
assert (Tb : two_branches b c).
{ split; [now exists s1|]. split; [now exists s2|]. split; [now exists r0|]. intros H0. pose proof (Cc _ H0). lra. }
apply spec_two_pos with (fst b, @f0 F) (@f0 F, snd b); try easy.
- clear - En Ep Eu Nb Pb Nc Cc Wc Wb Eb Ec Hn Hp. apply up_div; try assumption.
  + intros Fb. apply neg_f_fin in Nb; try easy; try lra.
  + intros Fc Fb r s Hr Hs Ns. pose proof (Cc r Hr). apply Hn in Hs. apply neg_f_fin in Nb; try easy; try lra. assert (B2R (fst c) <= r).
    { destruct Hr as [Hr1 Hr2]. first [now rewrite ub_fin in Hr2 | now rewrite lb_fin in Hr1]. }
    assert (B2R (fst b) <= s).
    { destruct Hs as [[Hs1 Hs2] _]. first [now rewrite ub_fin in Hs2 by easy | now rewrite lb_fin in Hs1 by easy]. }
    assert (0 < B2R (fst c)) by (apply pos_f_fin in Nc; easy). apply div_le; nra.
  + intros Ib. split.
    * destruct Wc; cbn [fst snd] in *; try easy.
    * intros r s Hr Hs Ns. pose proof (Cc r Hr). apply Hn in Hs. first [apply div_nonneg; [easy|nra]|apply div_nonpos; [easy|nra]].
  + intros E. exfalso. clear - E Wc Ec Nc. destruct Wc; cbn [fst snd] in *; try easy; subst; easy.
  + intros E. exfalso. clear - E Wc Ec Nc. destruct Wc; cbn [fst snd] in *; try easy; subst; easy.
  + now intros [? ?].
- apply (unb_near c (fst b, @f0 F) r0 s1); [easy|lra|apply Hn; split; [now split|lra]|now apply Hn; split; [|lra]|lra|nra].
- clear - En Ep Eu Nb Pb Nc Cc Wc Wb Eb Ec Hn Hp. apply lo_div; try assumption.
  + intros Fb. apply pos_f_fin in Pb; try easy; try lra.
  + intros Fc Fb r s Hr Hs Ns. pose proof (Cc r Hr). apply Hp in Hs. apply pos_f_fin in Pb; try easy; try lra. assert (B2R (fst c) <= r).
    { destruct Hr as [Hr1 Hr2]. first [now rewrite ub_fin in Hr2 | now rewrite lb_fin in Hr1]. }
    assert (s <= B2R (snd b)).
    { destruct Hs as [[Hs1 Hs2] _]. first [now rewrite ub_fin in Hs2 by easy | now rewrite lb_fin in Hs1 by easy]. }
    assert (0 < B2R (fst c)) by (apply pos_f_fin in Nc; easy). apply div_le; nra.
  + intros Ib. split.
    * destruct Wc; cbn [fst snd] in *; try easy.
    * intros r s Hr Hs Ns. pose proof (Cc r Hr). apply Hp in Hs. first [apply div_nonneg; [easy|nra]|apply div_nonpos; [easy|nra]].
  + intros E. exfalso. clear - E Wc Ec Nc. destruct Wc; cbn [fst snd] in *; try easy; subst; easy.
  + intros E. exfalso. clear - E Wc Ec Nc. destruct Wc; cbn [fst snd] in *; try easy; subst; easy.
  + now intros [? ?].
- apply (unb_near c (@f0 F, snd b) r0 s2); [easy|lra|apply Hp; split; [now split|lra]|now apply Hp; split; [|lra]|lra|nra].
Qed.
Lemma is_member_f0 b : wf b -> exists v, is_member f0 b = ret v /\ (v = true <-> mem 0 b).
Proof.
intros W. destruct (is_member_decides (@f0 F) b W) as (v & H1 & H2). apply returns_eq in H1.
exists v. split; [easy|]. rewrite H2. change (B2R (@f0 F)) with 0. tauto.
Qed.

Ltac mcorner :=
  first [ apply lo_div | apply up_div ];
  [ assumption | assumption
  | intros ?; first [discriminate | assumption | apply Rlt_not_eq; lra | apply Rgt_not_eq; lra]
  | intros ? ? r s Hr Hs ?; first [discriminate | memx; apply div_le; nra]
  | intros ?; first [discriminate
     | match goal with H : isinf ?a = true |- _ => rewrite (isinf_fin a) in H by fin; discriminate H end
     | split; [assumption|intros r s Hr Hs ?; memx; first [apply div_nonneg|apply div_nonpos]; [assumption|nra]]]
  | intros; signs | intros; signs | intros [? ?]; cbn [fst snd] in *; fin ].
Ltac mm := split; cbn [fst snd]; first [rewrite lb_fin by fin; rewrite ?B2R_f0; lra|rewrite ub_fin by fin; rewrite ?B2R_f0; lra|reflexivity].
Ltac sgn_b := first
  [ left; intros s Hs; memx; lra | right; intros s Hs; memx; lra ].
Ltac unbx r0 s0 Nr0 Ns0 := first [apply lo_unb|apply up_unb]; apply (unb_near _ _ r0 s0); try assumption;
  [mm|memx; apply Rdichotomy in Nr0, Ns0; destruct Nr0, Ns0; try (exfalso; lra); nra].
Ltac unb r0 s0 := first [apply lo_unb|apply up_unb|idtac]; apply (unb_near _ _ r0 s0);
  [ mm | lra | mm | mm | lra | nra ].

Lemma pair_main b c : wf b -> wf c -> exists p, mul_rev_to_pair_t b c = ret p /\ pair_spec b c p.
Proof.
intros Wb Wc. unfold mul_rev_to_pair_t. vred.
destruct (isnan (fst b)) eqn:Eb; vred.
{ eexists. split; [reflexivity|]. apply wf_nan_l in Eb; [|easy]. subst b. right. split; [|split; [easy|right; split; [|easy]]].
  - now intros ((s & [] & _) & _).
  - now intros t (s & [] & _). }
destruct (isnan (fst c)) eqn:Ec; vred.
{ eexists. split; [reflexivity|]. apply wf_nan_l in Ec; [|easy]. subst c. right. split; [|split; [easy|right; split; [|easy]]].
  - now intros (_ & _ & (r & [] & _) & _).
  - now intros t (s & _ & [] & _). }

pose proof (wf_nonempty b Wb Eb) as [rb Hrb]. pose proof (wf_nonempty c Wc Ec) as [rc Hrc].
destruct (feq (fst c) fminf && feq (snd c) finf) eqn:Ent.
{ eexists. split; [reflexivity|].
  assert (A : forall r, mem r c).
  { apply andb_prop in Ent. destruct Ent as [E1 E2]. intros r.
    destruct c as [cl cu]; cbn [fst snd] in *. destruct cl as [|[]| |[]], cu as [|[]| |[]]; try easy. }
  right. split. { intros (_ & _ & _ & H). now apply H. }
  split; [easy|]. left. apply branch_all. intros t. exists rb. split; [easy|]. apply A. }
destruct (is_member_f0 b Wb) as (vb & Eb0 & Mb). rewrite Eb0.
destruct (is_member_f0 c Wc) as (vc & Ec0 & Mc). rewrite Ec0. vred.
destruct (feq (fst c) f0 && feq (snd c) f0) eqn:Zc.
{ pose proof (wview_zero c Zc) as H. destruct vb; (eexists; split; [reflexivity|]).
  - apply spec_all; [now apply Mb|now apply H].
  - right. split. { intros (_ & _ & _ & N). now apply N, H. }
    split; [easy|]. left. apply branch_zero. intros t. split.
    + intros (s & Hs & Ht). apply H in Ht. apply Rmult_integral in Ht. destruct Ht as [->|]; [|easy].
      now apply Mb in Hs.
    + intros ->. exists rb. split; [easy|]. apply H. ring. }
destruct (feq (fst b) f0 && feq (snd b) f0) eqn:Zb.
{ pose proof (wview_zero b Zb) as H.
  assert (Q : exists p, ret p = (if vc then ret (only entire) else ret (only empty)) /\ pair_spec b c p).
  { destruct vc; (eexists; split; [reflexivity|]).
    - apply spec_all; [now apply H|now apply Mc].
    - right. split. { intros ((s & Hs & Ns) & _). apply H in Hs. lra. }
      split; [easy|]. right. split; [|easy]. intros t (s & Hs & Ht). apply H in Hs. subst s.
      rewrite Rmult_0_l in Ht. now apply Mc in Ht. }
  destruct Q as (p & Ep & Sp). exists p. split; [|easy]. rewrite Ep. symmetry.
  destruct (fle (snd c) f0) eqn:L1; [easy|]. destruct (fge (fst c) f0) eqn:L2; [easy|].
  assert (vc = true) as ->; [|easy]. apply Mc. clear - Wc L1 L2 Ec. apply wf_view in Wc.
  destruct Wc as [ | |u Fu|l Fl|l u Fl Fu H]; cbn [fst snd] in *; try easy.
  all: revert L1 L2; fcmp; rewrite ?B2R_f0; repeat rcase; try discriminate; intros _ _; mm. }
clear Ec0 Mc Eb0 Mb vb vc.
assert (Q : exists p, pair_spec b c p /\ p =
  (if fle (snd c) f0 then
     if flt (fst b) f0 && fgt (snd b) f0 && flt (snd c) f0 then split (divu (snd c) (snd b)) (divd (snd c) (fst b))
          else if flt (snd b) f0 then both (divd (snd c) (fst b)) (divu (fst c) (snd b))
          else if feq (snd b) f0 && flt (snd c) f0 then above (divd (snd c) (fst b))
          else if fgt (fst b) f0 then both (divd (fst c) (fst b)) (divu (snd c) (snd b))
          else if feq (fst b) f0 && flt (snd c) f0 then below (divu (snd c) (snd b))
          else only entire
   else if fge (fst c) f0 then
          if flt (fst b) f0 && fgt (snd b) f0 && fgt (fst c) f0 then split (divu (fst c) (fst b)) (divd (fst c) (snd b))
          else if flt (snd b) f0 then both (divd (snd c) (snd b)) (divu (fst c) (fst b))
          else if feq (snd b) f0 && fgt (fst c) f0 then below (divu (fst c) (fst b))
          else if fgt (fst b) f0 then both (divd (fst c) (snd b)) (divu (snd c) (fst b))
          else if feq (fst b) f0 && fgt (fst c) f0 then above (divd (fst c) (snd b))
          else only entire
   else   if flt (snd b) f0 then both (divd (snd c) (snd b)) (divu (fst c) (snd b))
          else if fgt (fst b) f0 then both (divd (fst c) (fst b)) (divu (snd c) (fst b))
          else only entire)).
2:{ destruct Q as (p & Hp & Ep). exists p. split; [|easy]. rewrite Ep.
    destruct (fle (snd c) f0); [easy|]. now destruct (fge (fst c) f0). }
eexists. split; [|reflexivity].
apply wf_view in Wb. apply wf_view in Wc.
destruct (nonzero_mem b Wb Eb Zb) as (s0 & Hs0 & Ns0).
pose proof (nonzero_mem c Wc Ec Zc) as (r0 & Hr0 & Nr0).
assert (NE : exists r, SD c b r) by now exists (r0 / s0), r0, s0.
pose proof (endp_l c Wc Ec) as Lx. pose proof (endp_u c Wc Ec) as Ux.
pose proof (endp_l b Wb Eb) as Ly. pose proof (endp_u b Wb Eb) as Uy.
revert Ent.
destruct Wc as [ | |cu Fcu|cl Fcl|cl cu Fcl Fcu Hc], Wb as [ | |bu Fbu|bl Fbl|bl bu Fbl Fbu Hb];
  try discriminate; cbn [fst snd] in *; clear Zb Zc Eb Ec; fcmp; try discriminate; intros _;
  rewrite ?B2R_f0; repeat rcase; try (exfalso; memx; lra).
all: try (apply spec_all; mm).
all: try (match goal with |- pair_spec ?b ?c (split _ _) => apply (split_neg b c); cbn [fst snd]; [now constructor|now constructor|first [reflexivity|apply isnan_fin; fin]|first [reflexivity|apply isnan_fin; fin]|signs|signs|signs] end).
all: try (match goal with |- pair_spec ?b ?c (split _ _) => apply (split_pos b c); cbn [fst snd]; [now constructor|now constructor|first [reflexivity|apply isnan_fin; fin]|first [reflexivity|apply isnan_fin; fin]|signs|signs|signs] end).
all: try (apply spec_one; cbn [fst snd]; [intros [? ?]; memx; lra|sgn_b|assumption|first [mcorner|unbx r0 s0 Nr0 Ns0]|first [mcorner|unbx r0 s0 Nr0 Ns0]]).
Qed.

(** ** What the functions compute *)
Lemma mul_rev_to_pair_ok b c : wf b -> wf c -> exists z1 z2, returns (mul_rev_to_pair b c) (z1, z2) /\
  both_branches b c z1 z2.
Proof.
intros Wb Wc. destruct (pair_main b c Wb Wc) as (p & Ep & Sp).
exists (p_first p), (p_second p). split. { apply returns_eq. unfold mul_rev_to_pair. rewrite Ep. now mreds. }
destruct Sp as [(T & B1 & B2)|(T & E2 & B1)].
- pose proof (branch_tightest _ _ _ _ _ B1) as T1. pose proof (branch_tightest _ _ _ _ _ B2) as T2.
  destruct B1 as (_ & (r1 & N1) & _), B2 as (_ & (r2 & N2) & _).
  split; [|split; [|split; [|now intros H; destruct (H T)]]].
  + intros t Ht. destruct (Rtotal_order t 0) as [L|[->|L]].
    * left. now apply (proj1 (proj2 T1)).
    * destruct Ht as (s & _ & H). rewrite Rmult_0_r in H. now destruct T as (_ & _ & _ & T).
    * right. now apply (proj1 (proj2 T2)).
  + intros t1 t2 H1 H2. destruct T1 as (_ & _ & T1), T2 as (_ & _ & T2).
    assert (t1 <= 0).
    { apply (T1 (fminf, f0)) in H1; [now destruct H1|right; exists 0; split; cbn; [easy|lra]|].
      intros r [_ Hr]. split; cbn; [easy|lra]. }
    assert (0 <= t2).
    { apply (T2 (f0, finf)) in H2; [now destruct H2|right; exists 0; split; cbn; [lra|easy]|].
      intros r [_ Hr]. split; cbn; [lra|easy]. }
    lra.
  + intros _. split; [exists r1; now apply (proj1 (proj2 T1))|]. split; [exists r2; now apply (proj1 (proj2 T2))|]. now split.
- assert (T1 : tightest (rev_mul b c) (p_first p)).
  { destruct B1 as [B1|[N E]]; [now apply branch_tightest in B1|]. rewrite E. now apply tightest_empty. }
  rewrite E2. split; [|split; [|split; [now intros H; destruct (T H)|easy]]].
  + intros t Ht. left. now apply (proj1 (proj2 T1)).
  + now intros t1 t2 _ [[] _].
Qed.

Lemma empty_tight (I : R -> Prop) x y : (forall r, I r -> mem r x -> False) -> wf y ->
  (forall r, mem r y <-> mem r (@empty F) /\ mem r x) -> tightest (fun r => I r /\ mem r x) y.
Proof.
intros N Wy E. destruct Wy as [->|[r Hr]]; [|apply E in Hr; now destruct Hr as [[[] _] _]].
apply tightest_empty. intros r [H1 H2]. eauto.
Qed.
Lemma trim_empty tl tu x : trim (@empty F) tl tu x = empty.
Proof. unfold trim. now destruct (_ || _). Qed.

Lemma mul_rev_tight b c x : wf b -> wf c -> wf x ->
  bounded_rep b \/ (is_finite (fst x) = true -> B2R (fst x) <> 0) /\ (is_finite (snd x) = true -> B2R (snd x) <> 0) ->
  computes_tightest (mul_rev b c x) (fun t => rev_mul b c t /\ mem t x).
Proof.
intros Wb Wc Wx HB. unfold mul_rev. vred.
destruct (pair_main b c Wb Wc) as (p & -> & Sp). mreds.
destruct Sp as [(T & B1 & B2)|(T & E2 & B1)].
- apply hull_of_tight with (fun t => (rev_mul b c t /\ t < 0) /\ mem t x) (fun t => (rev_mul b c t /\ 0 < t) /\ mem t x).
  + easy.
  + now apply (trim_encloses _ _ _ _ _ x B1 Wx).
  + now apply (trim_encloses _ _ _ _ _ x B2 Wx).
  + intros y Wy Ey. now apply trim_tight with (2 := B1).
  + intros y Wy Ey. now apply trim_tight with (2 := B2).
  + intros r. split; [|tauto]. intros [H M]. destruct (Rtotal_order r 0) as [L|[->|L]]; [tauto| |tauto].
    destruct H as (s & _ & H). rewrite Rmult_0_r in H. now destruct T as (_ & _ & _ & T).
- rewrite E2, trim_empty.
  apply hull_of_tight with (fun t => rev_mul b c t /\ mem t x) (fun t : R => False /\ mem t x).
  + easy.
  + destruct B1 as [B1|[N ->]]; [now apply (trim_encloses _ _ _ _ _ x B1 Wx)|rewrite trim_empty; now left].
  + now left.
  + intros y Wy Ey. destruct B1 as [B1|[N E]]; [now apply trim_tight with (2 := B1)|].
    rewrite E, trim_empty in Ey. apply empty_tight; [|easy|easy]. intros r H _. now apply N in H.
  + intros y Wy Ey. now apply empty_tight.
  + tauto.
Qed.
Lemma mul_rev_encl b c x : wf b -> wf c -> wf x ->
  computes_enclosure (mul_rev b c x) (fun t => rev_mul b c t /\ mem t x).
Proof.
intros Wb Wc Wx. unfold mul_rev. vred.
destruct (pair_main b c Wb Wc) as (p & -> & Sp). mreds.
destruct Sp as [(T & B1 & B2)|(T & E2 & B1)].
- destruct (trim_encloses _ _ _ _ _ x B1 Wx) as [W1 H1], (trim_encloses _ _ _ _ _ x B2 Wx) as [W2 H2].
  apply hull_of_encl; try easy. intros r [H M]. split; [easy|].
  destruct (Rtotal_order r 0) as [L|[->|L]]; [left; now apply H1| |right; now apply H2].
  destruct H as (s & _ & H). rewrite Rmult_0_r in H. now destruct T as (_ & _ & _ & T).
- rewrite E2, trim_empty. destruct B1 as [B1|[N E]].
  + destruct (trim_encloses _ _ _ _ _ x B1 Wx) as [W1 H1]. apply hull_of_encl; try easy; [now left|].
    intros r [H M]. split; [easy|]. left. now apply H1.
  + rewrite E, trim_empty. apply hull_of_encl; [easy|now left|now left|]. intros r [H M]. now apply N in H.
Qed.
End P.
