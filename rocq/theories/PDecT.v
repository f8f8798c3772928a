(** * Proofs: the decorated tangent *)
From Coq Require Import ZArith NArith Reals Bool Lia Lra List QArith Qreals.
From Flocq Require Import Core.Core IEEE754.BinarySingleNaN.
From Verif Require Import Fmt Spec FloatFacts Exc Deco SpecApi SpecElem SpecDeco MBase PBase MBool PArith SpecRel PBool
  MElem PElem MTrig PTrig PTan PTanF PTrigT MDec PCont PDec Ex.
Import ListNotations.
Local Open Scope R_scope.

Section T.
Context {F : fmt}.

Definition pole_seen (x : itv F) : Prop :=
  bounded_rep x -> (exists p, mem p x /\ cos p = 0) ->
  B2R (snd x) - B2R (fst x) <= B2R (@mpfr_const_pi F mode_DN) ->
  @two_between F (tan (B2R (snd x))) (tan (B2R (fst x))).

Lemma far_pole_seen x : pi_far F -> wf x -> pole_seen x.
Proof.
intros [H1 H2] W [B1 B2] (pole & Hp & Cp) Hle. destruct (@pi_fin F) as [P1 P2].
specialize (H2 _ P1 (proj2 P2)).
assert (Hm : forall r, mem r x <-> B2R (fst x) <= r <= B2R (snd x)).
{ intros r. unfold mem. now rewrite lb_fin, ub_fin. }
assert (Hab : B2R (fst x) <= B2R (snd x)) by (apply Hm in Hp; lra).
destruct (tan_cases (B2R (fst x)) (B2R (snd x))) as [Hmono|(_ & s & t & S1 & S2 & S3 & S4 & S5 & S6)];
  [apply cos_nz, rational_B2R|apply cos_nz, rational_B2R|lra|lra| |].
- exfalso. apply (proj1 (Hmono pole (proj1 (Hm pole) Hp))). easy.
- rewrite <- S5, <- S6. apply gap with (PI - B2R (@mpfr_const_pi F mode_DN)); try easy; lra.
Qed.
Lemma free_pole_seen (x : itv F) : (forall r, mem r x -> cos r <> 0) -> pole_seen x.
Proof. intros N _ (p & Hp & Cp). now destruct (N p Hp). Qed.

(** When the code does not return the whole line there is no pole. *)
Lemma tan_split x : wf x -> pole_seen x -> isnan (fst x) = false ->
  mpfr_greater (rsub mode_UP (snd x) (fst x)) (@mpfr_const_pi F mode_DN) = false ->
  mpfr_greater (mpfr_tan mode_DN (fst x)) (mpfr_tan mode_UP (snd x)) = false ->
  bounded_rep x /\ forall r, mem r x -> tan_dom r.
Proof.
intros W Hs Ex G1 G2. pose proof (wf_view _ W) as V. destruct (wview_nonempty x V Ex) as [r0 Hr0].
destruct (@pi_fin F) as [P1 P2]. set (p := mpfr_const_pi mode_DN) in *.
destruct (is_finite (fst x) && is_finite (snd x)) eqn:Ef.
2:{ rewrite (width_inf (fst x) (snd x) p) in G1; [easy|easy|].
    destruct V; cbn [fst snd] in *; try easy.
    - left. now repeat split.
    - left. repeat split; [|now apply isnan_fin]. now intros ->.
    - right. repeat split; [|now apply isnan_fin]. now intros ->.
    - rewrite H, H0 in Ef. easy. }
apply andb_true_iff in Ef. destruct Ef as [F1 F2]. split; [easy|].
assert (Hm : forall r, mem r x <-> B2R (fst x) <= r <= B2R (snd x)).
{ intros r. unfold mem. now rewrite lb_fin, ub_fin. }
pose proof (width_le (fst x) (snd x) p F1 F2 P1) as Hw.
assert (Hle : B2R (snd x) - B2R (fst x) <= B2R p) by now apply Hw.
assert (Ra : is_RD (tan (B2R (fst x))) (mpfr_tan mode_DN (fst x))) by (unfold mpfr_tan; rewrite F1; apply rround_RD).
assert (Rb : is_RU (tan (B2R (snd x))) (mpfr_tan mode_UP (snd x))) by (unfold mpfr_tan; rewrite F2; apply rround_RU).
assert (Hab : B2R (fst x) <= B2R (snd x)) by (apply Hm in Hr0; lra).
destruct (tan_cases (B2R (fst x)) (B2R (snd x))) as [Hmono|((pole & Hp & Cp) & _)];
  [apply cos_nz, rational_B2R|apply cos_nz, rational_B2R|lra|lra| |].
- intros r Hr. apply Hmono. now apply Hm.
- exfalso. rewrite (two_between_greater (tan (B2R (snd x))) (tan (B2R (fst x)))) in G2; try easy.
  apply Hs; [easy| |easy]. exists pole. split; [now apply Hm|easy].
Qed.

Lemma tan_dec_ok (x : ditv F) : wf_dec x -> is_deco (snd x) -> snd x <> ill -> pole_seen (fst x) ->
  exists z, returns (tan_dec x) z /\ wf_dec z /\ is_deco (snd z) /\ snd z <> ill /\
    returns (tan_itv (fst x)) (fst z) /\ (snd z <= snd x)%N /\
    honest near1 (box1 (fst x)) tan_dom (bounded_rep (fst x)) tan (fst z) (snd z).
Proof.
intros Wx Dx Nx Hs. pose proof (wf_dec_wf x Wx) as W. pose proof (deco_cases _ Dx Nx) as Hd.
destruct (tan_general (fst x) W Hs) as (z & Z1 & Z2 & Z3 & _). apply returns_eq in Z1.
assert (K : exists d, tan_dec x = ret (z, dmin (snd x) d) /\ ((exists r, mem r z) -> exists r, box1 (fst x) r) /\
   local near1 (box1 (fst x)) tan_dom (bounded_rep (fst x)) tan z d).
{ revert Z1. unfold tan_itv, tan_dec.
  rewrite is_valid_dec_wf, is_nai_wf, is_empty_dec_wf, is_valid_wf, is_empty_wf by easy.
  destruct (deq_spec (snd x) ill) as [C|_]; [easy|]. mreds.
  assert (Tr : dmin (snd x) trv = trv). { pose proof (deco_ge _ Hd) as (_ & _ & G). unfold dmin. destruct (N.ltb_spec trv (snd x)); [easy|lia]. }
  destruct (isnan (fst (fst x))) eqn:Ex; mreds.
  - intros Z1. exists trv. apply (f_equal (fun m => m (Est 0 0))) in Z1. injection Z1 as <-. rewrite Tr.
    split; [easy|]. split; [intros [r Hr]; now apply mem_empty in Hr|apply local_trv].
  - pose proof (wf_nonempty _ W Ex) as Hn.
    destruct (mpfr_greater (rsub mode_UP (snd (fst x)) (fst (fst x))) (mpfr_const_pi mode_DN)) eqn:G1.
    + intros Z1. apply (f_equal (fun m => m (Est 0 0))) in Z1. injection Z1 as <-. exists trv. rewrite Tr.
      split; [easy|]. split; [easy|apply local_trv].
    + destruct (mpfr_greater (mpfr_tan mode_DN (fst (fst x))) (mpfr_tan mode_UP (snd (fst x)))) eqn:G2.
      * intros Z1. apply (f_equal (fun m => m (Est 0 0))) in Z1. injection Z1 as <-. exists trv. rewrite Tr.
        split; [easy|]. split; [easy|apply local_trv].
      * destruct (tan_split (fst x) W Hs Ex G1 G2) as [B D].
        intros Z1. apply (f_equal (fun m => m (Est 0 0))) in Z1. injection Z1 as <-.
        rewrite is_common_wf by easy. mreds. cbn [fst snd].
        assert (Hz : exists r, mem r (mpfr_tan mode_DN (fst (fst x)), mpfr_tan mode_UP (snd (fst x)))).
        { destruct Hn as [r Hr]. exists (tan r). apply Z3. exists r. auto. }
        assert (Hc : forall p, box1 (fst x) p -> cont_at near1 tan_dom tan p) by (intros p Hp; now apply c_tan, D).
        destruct (is_finite _ && is_finite _) eqn:Fz; eexists; (split; [reflexivity|]); (split; [easy|]).
        -- apply local_com; auto. intros _. now apply andb_true_iff in Fz.
        -- apply local_dac; auto. intros p Hp. apply cont_sub with tan_dom; auto. }
destruct K as (d & K1 & K2 & K3). exists (z, dmin (snd x) d). split; [now apply returns_eq|].
destruct (local_honest near1 (box1 (fst x)) tan_dom (bounded_rep (fst x)) tan z d (snd x)) as (A1 & A2 & A3 & A4 & A5); auto.
{ intros E. now apply wf_dec_com. }
split; [easy|]. split; [easy|]. split; [easy|]. split; [now apply returns_eq|]. split; easy.
Qed.

Lemma tan_decorates : pi_far F -> decorates1 (@tan_dec F) tan_itv tan_dom tan.
Proof. intros H x W D N. apply tan_dec_ok; try easy. apply far_pole_seen; [easy|]. now apply wf_dec_wf. Qed.
End T.

Lemma not_greater_wf {F} (g g' : float F) (a b : R) : lb g a -> ub g' b -> mpfr_greater g g' = false -> wf (g, g').
Proof.
intros H1 H2. unfold mpfr_greater. destruct (fviewP g) as [ | | |g Fg]; try easy; destruct (fviewP g') as [ | | |g' Fg']; try easy; intros E; right.
- now exists 0.
- exists b. now split.
- exists a. now split.
- rewrite fgt_fin in E by easy. exists (B2R g). split; cbn [fst snd]; [rewrite lb_fin by easy; lra|]. rewrite ub_fin by easy.
  revert E. case Rlt_bool_spec; [easy|]. intros; lra.
Qed.
(** In [double] the decorated tangent claims more than it may. *)
Lemma tan64_dec : exists z, returns (@tan_dec binary64 ((tl64, tu64), com)) z /\ (def <= snd z)%N.
Proof.
destruct tan64_result as (z & Hz & Ez). apply returns_eq in Hz. revert Hz. unfold tan_itv, tan_dec.
assert (W : wf (tl64, tu64)) by wf_tac.
assert (F1 : is_finite tl64 = true) by (vm_compute; reflexivity).
assert (F2 : is_finite tu64 = true) by (vm_compute; reflexivity).
assert (Wd : wf_dec ((tl64, tu64), com)) by (right; split; [destruct W as [K|K]; [discriminate (f_equal (fun z => isnan (fst z)) K)|exact K]|split; [easy|intros _; now split]]).
rewrite is_valid_dec_wf, is_nai_wf, is_empty_dec_wf, is_valid_wf, is_empty_wf by easy. cbn [fst snd].
destruct (deq_spec com ill) as [C|_]; [easy|]. mreds.
replace (isnan tl64) with false by (vm_compute; reflexivity). mreds.
assert (Ra : is_RD (tan (B2R tl64)) (@mpfr_tan binary64 mode_DN tl64)) by (unfold mpfr_tan; rewrite F1; apply rround_RD).
assert (Rb : is_RU (tan (B2R tu64)) (@mpfr_tan binary64 mode_UP tu64)) by (unfold mpfr_tan; rewrite F2; apply rround_RU).
assert (Hne : @mpfr_tan binary64 mode_UP tu64 <> finf).
{ destruct Rb as [_ B2]. rewrite tu64_val in B2. specialize (B2 fm1).
  rewrite ub_fin, B2R_fm1 in B2 by apply is_finite_fm1. specialize (B2 (proj2 xu64_tan) 0).
  rewrite (ub_fin fm1), B2R_fm1 in B2 by apply is_finite_fm1. intros E. rewrite E in B2. assert (0 <= -1) by now apply B2. lra. }
destruct mpfr_greater.
{ intros Z1. apply (f_equal (fun m => m (Est 0 0))) in Z1. injection Z1 as <-. now rewrite <- Ez in Hne. }
destruct mpfr_greater eqn:G2.
{ intros Z1. apply (f_equal (fun m => m (Est 0 0))) in Z1. injection Z1 as <-. now rewrite <- Ez in Hne. }
intros _. rewrite is_common_wf by (apply not_greater_wf with (3 := G2) (1 := proj1 Ra) (2 := proj1 Rb)). mreds.
eexists. split; [now intros s|]. cbn [snd]. now destruct (is_finite _ && is_finite _).
Qed.
Lemma tan64_dec_refuted : exists (x z : ditv binary64) r, wf_dec x /\ is_deco (snd x) /\ snd x <> ill /\
  returns (tan_dec x) z /\ (def <= snd z)%N /\ mem r (fst x) /\ cos r = 0.
Proof.
destruct tan64_dec as (z & Hz & Dz). exists ((tl64, tu64), com), z, (PI / 2).
assert (W : wf (tl64, tu64)) by wf_tac.
split; [right; split; [destruct W as [K|K]; [discriminate (f_equal (fun z => isnan (fst z)) K)|exact K]|split; [easy|intros _; now split]]|].
split; [unfold is_deco; simpl; tauto|]. split; [easy|]. split; [easy|]. split; [easy|]. split; [|apply cos_PI2].
pose proof PI2_3_2. pose proof PI_4. pose proof PTrigT.PI_315.
split; cbn [fst snd]; [rewrite lb_fin, tl64_val by (vm_compute; reflexivity)|rewrite ub_fin, tu64_val by (vm_compute; reflexivity)];
    unfold al64, xu64, Q2R, Qnum, Qden; lra.
Qed.
