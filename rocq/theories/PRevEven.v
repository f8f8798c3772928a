(** * Proofs: reverse square, absolute value and cosh are tightest *)
From Coq Require Import ZArith NArith Reals Bool Lia Lra Psatz List.
From Flocq Require Import Core.Core Calc.Operations IEEE754.BinarySingleNaN.
From Verif Require Import Fmt Spec SpecElem FloatFacts Exc Deco SpecApi MBase PBase MBool MArith PArith PMul PFma PDiv PUnary
  PConv PBool PSetop PDec MNum PNumF PCancel MElem PElem PElem2 MRev SpecRev PRev PMulRev.

Local Open Scope R_scope.

Ltac hcmp := cbn [fst snd] in *;
  repeat match goal with
  | H : flt _ _ = _ |- _ => revert H
  | H : fle _ _ = _ |- _ => revert H
  end; fcmp; repeat rcase; intros; try discriminate; rewrite ?B2R_f0 in *.
Ltac mm := split; cbn [fst snd]; rewrite ?lb_fin, ?ub_fin by fin; rewrite ?B2R_f0; try reflexivity; try lra.

Section E.
Context {F : fmt}.
Implicit Types a b l u : float F.
Implicit Types c x y z : itv F.

Lemma lb_fneg a r : lb (fneg a) r <-> ub a (- r).
Proof. apply lb_opp. Qed.
Lemma ub_fneg a r : ub (fneg a) r <-> lb a (- r).
Proof. apply ub_opp. Qed.
Lemma fneg_invol a : fneg (fneg a) = a. Proof. now destruct a as [[]|[]| |[]]. Qed.
Lemma glow_neg (I : R -> Prop) u : gupp I u -> glow (fun t => I (- t)) (fneg u).
Proof.
intros [G1 G2]. split.
- intros r Ir. apply lb_fneg. now apply G1.
- intros l' H t Ht. apply lb_fneg in Ht. rewrite <- (fneg_invol l'). apply lb_fneg.
  apply G2; [|easy]. intros r Ir. apply ub_fneg. apply H. now rewrite Ropp_involutive.
Qed.
Lemma gupp_neg (I : R -> Prop) l : glow I l -> gupp (fun t => I (- t)) (fneg l).
Proof.
intros [G1 G2]. split.
- intros r Ir. apply ub_fneg. now apply G1.
- intros l' H t Ht. apply ub_fneg in Ht. rewrite <- (fneg_invol l'). apply ub_fneg.
  apply G2; [|easy]. intros r Ir. apply lb_fneg. apply H. now rewrite Ropp_involutive.
Qed.
Lemma fin_fneg a : is_finite (fneg a) = is_finite a. Proof. now destruct a. Qed.
Lemma branch_neg B I z tl tu : branch B I z tl tu -> branch B (fun t => I (- t)) (fneg (snd z), fneg (fst z)) tu tl.
Proof.
intros (C & (r & N) & (G1 & L1 & L2) & (G2 & U1 & U2)).
split; [|split; [|split; split; [|split| |split]]]; cbn [fst snd].
- intros p q s P Q [H1 H2]. apply (C (- q) (- p)); [easy|easy|lra].
- exists (- r). now rewrite Ropp_involutive.
- now apply glow_neg.
- rewrite fin_fneg, B2R_fneg, Ropp_involutive. auto.
- rewrite fin_fneg, B2R_fneg, Ropp_involutive. intros H. apply U2. destruct H; [now left|right]. lra.
- now apply gupp_neg.
- rewrite fin_fneg, B2R_fneg, Ropp_involutive. auto.
- rewrite fin_fneg, B2R_fneg, Ropp_involutive. intros H. apply L2. destruct H; [now left|right]. lra.
Qed.
Lemma even_rev_tight I l u tl tu x : branch True I (l, u) tl tu -> wf x ->
  computes_tightest (even_rev l u tl tu x) (fun t => (I t \/ I (- t)) /\ mem t x).
Proof.
intros H Wx. pose proof (branch_tightest _ _ _ _ _ H) as (W & _). unfold even_rev.
destruct (neg_ret _ W) as (n & -> & _ & _ & ->). mreds. cbn [fst snd].
pose proof (branch_neg _ _ _ _ _ H) as H'. cbn [fst snd] in H'.
apply hull_of_tight with (fun t => I t /\ mem t x) (fun t => I (- t) /\ mem t x).
- easy.
- now apply (trim_encloses _ _ _ _ _ x H).
- now apply (trim_encloses _ _ _ _ _ x H').
- intros y Wy Ey. apply trim_tight with (2 := H); auto.
- intros y Wy Ey. apply trim_tight with (2 := H'); auto.
- tauto.
Qed.

(** An even function increasing on the right of zero, with inverse [g] there. *)
Context (f g : R -> R) (b0 : float F).
Hypothesis Fb0 : is_finite b0 = true.
Hypothesis f_0 : f 0 = B2R b0.
Hypothesis f_inc : forall s t, 0 <= s -> s < t -> f s < f t.
Hypothesis g_ok : forall r, B2R b0 <= r -> 0 <= g r /\ f (g r) = r.
Let f_le s t : 0 <= s -> s <= t -> f s <= f t.
Proof. intros H [L| ->]; [apply Rlt_le; now apply f_inc|lra]. Qed.
Let f_ge t : 0 <= t -> B2R b0 <= f t.
Proof. intros H. rewrite <- f_0. apply f_le; lra. Qed.
Let g_le r t : B2R b0 <= r -> 0 <= t -> r <= f t -> g r <= t.
Proof.
intros H Ht L. destruct (Rle_or_lt (g r) t) as [|K]; [easy|]. pose proof (f_inc t (g r) Ht K).
rewrite (proj2 (g_ok r H)) in *. lra.
Qed.
Let g_ge r t : B2R b0 <= r -> 0 <= t -> f t <= r -> t <= g r.
Proof.
intros H Ht L. destruct (Rle_or_lt t (g r)) as [|K]; [easy|].
pose proof (f_inc (g r) t (proj1 (g_ok r H)) K). rewrite (proj2 (g_ok r H)) in *. lra.
Qed.
Notation I c := (fun t => 0 <= t /\ mem (f t) c).

Lemma even_branch c l u tl tu : wf c -> isnan (fst c) = false -> flt (snd c) b0 = false ->
  ((flt (fst c) b0 = true /\ l = f0 /\ tl = false) \/
   (flt (fst c) b0 = false /\ is_RD (g (B2R (fst c))) l /\ tl = negb (is_finite l && Req_bool (B2R l) (g (B2R (fst c)))))) ->
  ((snd c = finf /\ u = finf /\ tu = false) \/
   (is_finite (snd c) = true /\ is_RU (g (B2R (snd c))) u /\ tu = negb (is_finite u && Req_bool (B2R u) (g (B2R (snd c)))))) ->
  branch True (I c) (l, u) tl tu.
Proof.
intros W E Hu L U.
assert (Cc : convexR (I c)).
{ intros p q r [P1 P2] [Q1 Q2] [H1 H2]. split; [lra|]. apply (mem_convex c (f p) (f q)); [easy|easy|].
  split; apply f_le; lra. }
assert (LO : (exists t, I c t) /\ lo_ok True (I c) l tl).
{ destruct L as [(L1 & -> & ->)|(L1 & L2 & ->)].
  - assert (M0 : I c 0).
    { split; [lra|]. rewrite f_0. destruct (wf_view c W) as [ | |b|a|a b]; hcmp; mm. }
    split; [now exists 0|]. split; [|split; [easy|intros _ _ _; exact M0]].
    apply glow_att with 0; [easy|now intros r []|apply is_RD_0].
  - assert (K : is_finite (fst c) = true /\ B2R b0 <= B2R (fst c) /\ mem (B2R (fst c)) c).
    { destruct (wf_view c W) as [ | |b|a|a b]; hcmp; (split; [easy|split; [lra|mm]]). }
    destruct K as (K1 & K2 & K3). destruct (g_ok _ K2) as [G1 G2].
    assert (M0 : I c (g (B2R (fst c)))) by (split; [easy|now rewrite G2]).
    assert (LB : forall r, I c r -> g (B2R (fst c)) <= r).
    { intros r [R1 [R2 _]]. rewrite lb_fin in R2 by easy. now apply g_le. }
    split; [eexists; exact M0|]. split; [now apply glow_att with (g (B2R (fst c)))|]. split.
    + intros T Fl H. rewrite Fl in T. cbn [andb] in T. apply negb_true_iff in T. revert T. case Req_bool_spec; [easy|].
      intros Ne _. apply LB in H. destruct L2 as [L2 _]. rewrite lb_fin in L2 by easy. lra.
    + intros _ T Fl. rewrite Fl in T. cbn [andb] in T. apply negb_false_iff in T. revert T. case Req_bool_spec; [|easy].
      intros -> _. exact M0. }
destruct LO as [NE LO]. split; [easy|]. split; [easy|]. split; [easy|]. cbn [fst snd].
destruct U as [(U1 & -> & ->)|(U1 & U2 & ->)].
- apply up_unb. intros B.
  assert (K : exists r, mem r c /\ Rmax (f (Rmax B 0)) (B2R b0) < r).
  { destruct (wf_view c W) as [ | |b|a|a b]; cbn [fst snd] in *; subst; try easy.
    - eexists. split; [split; easy|]. apply Rlt_plus_1.
    - exists (Rmax (Rmax (f (Rmax B 0)) (B2R b0)) (B2R a) + 1). split; [|].
      + split; cbn [fst snd]; [|easy]. rewrite lb_fin by easy. pose proof (Rmax_r (Rmax (f (Rmax B 0)) (B2R b0)) (B2R a)). lra.
      + pose proof (Rmax_l (Rmax (f (Rmax B 0)) (B2R b0)) (B2R a)). lra. }
  destruct K as (r & Mr & Hr). pose proof (Rmax_l (f (Rmax B 0)) (B2R b0)). pose proof (Rmax_r (f (Rmax B 0)) (B2R b0)).
  destruct (g_ok r) as [G1 G2]; [lra|]. exists (g r). split; [split; [easy|now rewrite G2]|].
  destruct (Rlt_or_le B (g r)) as [K|K]; [easy|]. pose proof (f_le (g r) (Rmax B 0) G1).
  pose proof (Rmax_l B 0). rewrite G2 in *. lra.
- assert (K : B2R b0 <= B2R (snd c) /\ mem (B2R (snd c)) c).
  { destruct (wf_view c W) as [ | |b|a|a b]; hcmp; (split; [lra|mm]). }
  destruct K as (K2 & K3). destruct (g_ok _ K2) as [G1 G2].
  assert (M0 : I c (g (B2R (snd c)))) by (split; [easy|now rewrite G2]).
  assert (UB : forall r, I c r -> r <= g (B2R (snd c))).
  { intros r [R1 [_ R2]]. rewrite ub_fin in R2 by easy. now apply g_ge. }
  split; [now apply gupp_att with (g (B2R (snd c)))|]. split.
  + intros T Fl H. rewrite Fl in T. cbn [andb] in T. apply negb_true_iff in T. revert T. case Req_bool_spec; [easy|].
    intros Ne _. apply UB in H. destruct U2 as [U2 _]. rewrite ub_fin in U2 by easy. lra.
  + intros _ T Fl. rewrite Fl in T. cbn [andb] in T. apply negb_false_iff in T. revert T. case Req_bool_spec; [|easy].
    intros -> _. exact M0.
Qed.
Hypothesis f_even : forall t, f (- t) = f t.
Lemma even_union c x t : preimage everywhere f c x t <-> ((0 <= t /\ mem (f t) c) \/ (0 <= - t /\ mem (f (- t)) c)) /\ mem t x.
Proof.
rewrite f_even. unfold preimage, everywhere. destruct (Rle_or_lt 0 t); [tauto|]. assert (0 <= - t) by lra. tauto.
Qed.
End E.

Lemma ct_ext {F} (m : M (itv F)) S S' : (forall t, S t <-> S' t) -> computes_tightest m S -> computes_tightest m S'.
Proof. intros H (z & H1 & H2). exists z. split; [easy|]. revert H2. now apply tightest_ext. Qed.
Lemma ct_empty {F} (S : R -> Prop) : (forall t, ~ S t) -> computes_tightest (ret (@empty F)) S.
Proof. intros H. exists empty. split; [now intros s|now apply tightest_empty]. Qed.

Lemma cosh_lt s t : 0 <= s -> s < t -> cosh s < cosh t.
Proof.
intros H L. destruct (cosh_le s t H (Rlt_le _ _ L)) as [K|K]; [easy|]. apply (f_equal acoshR) in K.
rewrite !acoshR_cosh in K by lra. lra.
Qed.
Lemma acoshR_ge0 r : 1 <= r -> 0 <= acoshR r.
Proof. intros H. rewrite <- (acoshR_cosh 0) by lra. apply acoshR_le; [apply cosh_ge1|now rewrite cosh_0']. Qed.

Section R.
Context {F : fmt}.
Implicit Types c x : itv F.
Lemma nan_no_mem c r : wf c -> isnan (fst c) = true -> ~ mem r c.
Proof. intros W E. apply wf_nan_l in E; [|easy]. subst. now intros []. Qed.

Lemma sqr_rev_tight c x : wf c -> wf x -> computes_tightest (sqr_rev c x) (preimage everywhere (fun t => t * t) c x).
Proof.
intros Wc Wx. unfold sqr_rev. vred.
destruct (isnan (fst c)) eqn:Ec; vred. { apply ct_empty. intros t (_ & _ & H). now apply nan_no_mem in H. }
destruct (isnan (fst x)) eqn:Ex; vred. { apply ct_empty. intros t (H & _). now apply nan_no_mem in H. }
destruct (flt (snd c) f0) eqn:Eu; vred.
{ apply ct_empty. intros t (_ & _ & H). destruct (wf_view c Wc) as [ | |b|a|a b]; hcmp; destruct H as [_ H];
  cbn [snd] in H; rewrite ub_fin in H by easy; nra. }
cbv zeta. set (u := rsqrt mode_UP (snd c)).
assert (E : exists l tl, (if flt (fst c) f0 then even_rev f0 u false (sqrt_inexact (snd c) u) x
   else even_rev (rsqrt mode_DN (fst c)) u (sqrt_inexact (fst c) (rsqrt mode_DN (fst c))) (sqrt_inexact (snd c) u) x) = even_rev l u tl (sqrt_inexact (snd c) u) x /\
  ((flt (fst c) f0 = true /\ l = f0 /\ tl = false) \/
   (flt (fst c) f0 = false /\ is_RD (R_sqrt.sqrt (B2R (fst c))) l /\ tl = negb (is_finite l && Req_bool (B2R l) (R_sqrt.sqrt (B2R (fst c))))))).
{ destruct (flt (fst c) f0) eqn:El.
  - exists f0, false. split; [easy|]. now left.
  - eexists _, _. split; [reflexivity|]. right. split; [easy|].
    assert (K : is_finite (fst c) = true /\ 0 <= B2R (fst c)).
    { destruct (wf_view c Wc) as [ | |b|a|a b]; hcmp; (split; [easy|lra]). }
    destruct K as [K1 K2]. assert (RD := rnds_DN _ _ (rsqrt_rnds mode_DN (fst c) K1 K2)). split; [easy|].
    apply sqrt_inexact_spec; [easy|easy|]. intros Fl.
    pose proof (proj2 RD f0) as H. specialize (H (sqrt_pos _) (B2R (rsqrt mode_DN (fst c)))).
    rewrite lb_fin in H by easy. specialize (H (Rle_refl _)). exact H. }
destruct E as (l & tl & -> & HL). eapply ct_ext; [intros t; symmetry; apply (even_union (fun t => t * t)); intros s; ring|].
apply even_rev_tight; [|easy].
apply (even_branch (fun t => t * t) R_sqrt.sqrt f0); try easy.
- simpl. ring.
- intros s t H1 H2. nra.
- change (B2R f0) with 0. intros r Hr. split; [apply sqrt_pos|now apply sqrt_sqrt].
- destruct (is_finite (snd c)) eqn:Fu.
  + right. assert (K : 0 <= B2R (snd c)) by (rewrite flt_fin in Eu by easy; revert Eu; rewrite B2R_f0; rcase; lra || easy).
    split; [easy|]. assert (RU := rnds_UP _ _ (rsqrt_rnds mode_UP (snd c) Fu K)). split; [easy|].
    apply sqrt_inexact_spec; [easy|easy|]. intros Fl. pose proof (proj1 RU) as H. unfold u in *. rewrite ub_fin in H by easy.
    pose proof (sqrt_pos (B2R (snd c))). lra.
  + left. assert (E : snd c = finf) by (destruct (wf_view c Wc) as [ | |b|a|a b]; cbn [fst snd] in *; congruence || easy).
    unfold u. rewrite E. easy.
Qed.
Lemma cosh_rev_tight c x : wf c -> wf x -> computes_tightest (cosh_rev c x) (preimage everywhere cosh c x).
Proof.
intros Wc Wx. unfold cosh_rev. vred.
destruct (isnan (fst c)) eqn:Ec; vred. { apply ct_empty. intros t (_ & _ & H). now apply nan_no_mem in H. }
destruct (isnan (fst x)) eqn:Ex; vred. { apply ct_empty. intros t (H & _). now apply nan_no_mem in H. }
assert (F1 := @is_finite_f1 F). assert (V1 := @B2R_f1 F).
destruct (flt (snd c) f1) eqn:Eu; vred.
{ apply ct_empty. intros t (_ & _ & H). pose proof (cosh_ge1 t). destruct (wf_view c Wc) as [ | |b|a|a b]; hcmp; destruct H as [_ H];
  cbn [snd] in H; rewrite ub_fin in H by easy; lra. }
cbv zeta. set (u := mpfr_acosh mode_UP (snd c)).
assert (E : exists l tl, (if flt (fst c) f1 then even_rev f0 u false (acosh_inexact (snd c) u) x
   else even_rev (mpfr_acosh mode_DN (fst c)) u (acosh_inexact (fst c) (mpfr_acosh mode_DN (fst c))) (acosh_inexact (snd c) u) x) = even_rev l u tl (acosh_inexact (snd c) u) x /\
  ((flt (fst c) f1 = true /\ l = f0 /\ tl = false) \/
   (flt (fst c) f1 = false /\ is_RD (acoshR (B2R (fst c))) l /\ tl = negb (is_finite l && Req_bool (B2R l) (acoshR (B2R (fst c))))))).
{ destruct (flt (fst c) f1) eqn:El.
  - exists f0, false. split; [easy|]. now left.
  - eexists _, _. split; [reflexivity|]. right. split; [easy|].
    assert (K : is_finite (fst c) = true /\ 1 <= B2R (fst c)).
    { destruct (wf_view c Wc) as [ | |b|a|a b]; hcmp; (split; [easy|lra]). }
    destruct K as [K1 K2]. split; [now apply acosh_RD|]. unfold acosh_inexact. now rewrite K1. }
destruct E as (l & tl & -> & HL). eapply ct_ext; [intros t; symmetry; apply (even_union cosh); apply cosh_even|].
apply even_rev_tight; [|easy].
apply (even_branch cosh acoshR f1); try easy.
- rewrite V1. apply cosh_0'.
- intros s t H1 H2. now apply cosh_lt.
- rewrite V1. intros r Hr. split; [now apply acoshR_ge0|now apply cosh_acoshR].
- destruct (is_finite (snd c)) eqn:Fu.
  + right. assert (K : 1 <= B2R (snd c)) by (rewrite flt_fin in Eu by easy; revert Eu; rewrite V1; rcase; lra || easy).
    split; [easy|]. split; [now apply acosh_RU|]. unfold acosh_inexact. now rewrite Fu.
  + left. assert (E : snd c = finf) by (destruct (wf_view c Wc) as [ | |b|a|a b]; cbn [fst snd] in *; congruence || easy).
    unfold u. rewrite E. easy.
Qed.
Lemma abs_rev_tight c x : wf c -> wf x -> computes_tightest (abs_rev c x) (preimage everywhere Rabs c x).
Proof.
intros Wc Wx. unfold abs_rev. vred.
destruct (isnan (fst c)) eqn:Ec; vred. { apply ct_empty. intros t (_ & _ & H). now apply nan_no_mem in H. }
destruct (isnan (fst x)) eqn:Ex; vred. { apply ct_empty. intros t (H & _). now apply nan_no_mem in H. }
destruct (flt (snd c) f0) eqn:Eu; vred.
{ apply ct_empty. intros t (_ & _ & H). pose proof (Rabs_pos t). destruct (wf_view c Wc) as [ | |b|a|a b]; hcmp; destruct H as [_ H];
  cbn [snd] in H; rewrite ub_fin in H by easy; simpl in *; lra. }
set (p := ((if flt f0 (fst c) then fst c else f0), snd c)).
assert (Mp : forall r, mem r p <-> mem r c /\ 0 <= r).
{ intros r. unfold p. destruct (wf_view c Wc) as [ | |b|a|a b]; hcmp; unfold mem, fst, snd;
  rewrite ?lb_fin, ?ub_fin by easy; simpl (B2R f0) in *; split; intros; intuition (try lra); easy. }
assert (Wp : wf p).
{ right. destruct (wf_view c Wc) as [ | |b|a|a b]; cbn [fst snd] in *; try easy.
  - exists 0. apply Mp. split; [easy|lra].
  - exists (B2R b). apply Mp. hcmp. split; [mm|lra].
  - exists (Rmax 0 (B2R a)). apply Mp. pose proof (Rmax_l 0 (B2R a)); pose proof (Rmax_r 0 (B2R a)).
    split; [split; cbn [fst snd]; [rewrite lb_fin by easy; lra|easy]|lra].
  - exists (B2R b). apply Mp. hcmp. split; [mm|lra]. }
destruct (neg_ret _ Wp) as (n & -> & Wn & Mn & _). mreds.
apply hull_of_tight with (fun t => mem t p /\ mem t x) (fun t => mem t n /\ mem t x); try easy.
- intros y Wy Ey. split; [easy|split; [|now intros z' _ H r Hr; apply H, Ey]]. intros r Hr. now apply Ey.
- intros y Wy Ey. split; [easy|split; [|now intros z' _ H r Hr; apply H, Ey]]. intros r Hr. now apply Ey.
- intros r. rewrite Mn, !Mp. unfold preimage, everywhere. destruct (Rle_or_lt 0 r) as [L|L].
  + rewrite Rabs_pos_eq by easy. split; [tauto|]. intros [H|[[H L'] M]]; [tauto|].
    replace r with 0 in * by lra. rewrite Ropp_0 in H. tauto.
  + rewrite Rabs_left by easy. split; [intros (H1 & H2 & H3); right; repeat split; try easy; try apply H3; try apply H1; lra|].
    intros [[[_ H] _]|[[H _] M]]; [lra|tauto].
Qed.
End R.
