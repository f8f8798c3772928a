(** * Proofs: general power is tightest *)

From Coq Require Import ZArith NArith Reals Bool Lia Lra Psatz.
From Flocq Require Import Core.Core IEEE754.BinarySingleNaN.
From Verif Require Import Fmt Spec FloatFacts Exc Deco SpecApi SpecElem MBase PBase MBool MArith PArith
  PMul PFma PDiv PUnary PBool PSetop MElem PElem PElem2 MPow PPown.

Local Open Scope R_scope.

Lemma powR_exp r s : 0 < r -> powR r s = exp (s * ln r).
Proof. intros H. unfold powR. destruct Req_EM_T; [lra|]. reflexivity. Qed.
Lemma powR_0 s : powR 0 s = 0.
Proof. unfold powR. destruct Req_EM_T; [easy|lra]. Qed.
Lemma powR_nonneg r s : 0 <= r -> 0 <= powR r s.
Proof.
intros [H|H]; [rewrite powR_exp by easy; apply Rlt_le, exp_pos|]. rewrite <- H, powR_0. lra.
Qed.
Lemma exp_gt B g : B <= g -> B < exp g.
Proof.
intros H. destruct (Req_dec g 0) as [->|N]; [rewrite exp_0; lra|].
pose proof (exp_ineq1 g N). lra.
Qed.
Lemma exp_lt_ln e g : 0 < e -> g < ln e -> exp g < e.
Proof. intros He H. rewrite <- (exp_ln e He). now apply exp_increasing. Qed.
Lemma ln_nonneg r : 1 <= r -> 0 <= ln r.
Proof. intros H. rewrite <- ln_1. apply ln_le; lra. Qed.
Lemma ln_nonpos r : 0 < r -> r <= 1 -> ln r <= 0.
Proof. intros H1 H2. rewrite <- ln_1. now apply ln_le. Qed.
Lemma ln_neg r : 0 < r < 1 -> ln r < 0.
Proof. intros [H1 H2]. rewrite <- ln_1. now apply ln_increasing. Qed.
Lemma ln_gt0 r : 1 < r -> 0 < ln r.
Proof. intros H. rewrite <- ln_1. apply ln_increasing; lra. Qed.
Lemma ln_ge_of r (B : R) : exp B <= r -> B <= ln r.
Proof. intros H. rewrite <- (ln_exp B). apply ln_le; [apply exp_pos|easy]. Qed.
Lemma ln_gt_of r (B : R) : exp B < r -> B < ln r.
Proof. intros H. rewrite <- (ln_exp B). apply ln_increasing; [apply exp_pos|easy]. Qed.
Lemma ln_le_of r (B : R) : 0 < r -> r <= exp B -> ln r <= B.
Proof. intros H0 H. rewrite <- (ln_exp B). now apply ln_le. Qed.
Lemma div_pos_le a b c : 0 < c -> a / c <= b -> a <= c * b.
Proof.
intros Hc H. apply Rmult_le_reg_l with (/ c); [now apply Rinv_0_lt_compat|].
rewrite <- Rmult_assoc, Rinv_l, Rmult_1_l by lra. unfold Rdiv in H. lra.
Qed.
Lemma div_neg_le a b c : c < 0 -> b <= a / c -> a <= c * b.
Proof.
intros Hc H. pose proof (div_pos_le a (- b) (- c)) as G.
replace (c * b) with (- c * - b) by ring. apply G; [lra|].
unfold Rdiv in *. rewrite Rinv_opp. lra.
Qed.
Lemma div_pos_lt a b c : 0 < c -> b < a / c -> c * b < a.
Proof.
intros Hc H. apply Rmult_lt_reg_l with (/ c); [now apply Rinv_0_lt_compat|].
rewrite <- Rmult_assoc, Rinv_l, Rmult_1_l by lra. unfold Rdiv in H. lra.
Qed.
Lemma div_neg_lt a b c : c < 0 -> a / c < b -> c * b < a.
Proof.
intros Hc H. pose proof (div_pos_lt a (- b) (- c)) as G.
replace (c * b) with (- c * - b) by ring. apply G; [lra|].
unfold Rdiv in *. rewrite Rinv_opp. lra.
Qed.

Section M.
Context {F : fmt}.
Implicit Types a c l u p : float F.
Implicit Types x y z : itv F.

(** ** Values of mpfr_pow at a corner *)
Definition cpos c : Prop := c = finf \/ (is_finite c = true /\ 0 < B2R c).
Definition cneg c : Prop := c = fminf \/ (is_finite c = true /\ B2R c < 0).
Inductive pview a c : option R -> Prop :=
| pv_c0 : is_finite c = true -> B2R c = 0 -> pview a c (Some 1)
| pv_a1 : is_finite a = true -> B2R a = 1 -> pview a c (Some 1)
| pv_0pos : is_finite a = true -> B2R a = 0 -> cpos c -> pview a c (Some 0)
| pv_0neg : is_finite a = true -> B2R a = 0 -> cneg c -> pview a c None
| pv_ipos : a = finf -> cpos c -> pview a c None
| pv_ineg : a = finf -> cneg c -> pview a c (Some 0)
| pv_sp : is_finite a = true -> 0 < B2R a < 1 -> c = finf -> pview a c (Some 0)
| pv_sn : is_finite a = true -> 0 < B2R a < 1 -> c = fminf -> pview a c None
| pv_bp : is_finite a = true -> 1 < B2R a -> c = finf -> pview a c None
| pv_bn : is_finite a = true -> 1 < B2R a -> c = fminf -> pview a c (Some 0)
| pv_fin : is_finite a = true -> 0 < B2R a -> is_finite c = true -> pview a c (Some (Rpower (B2R a) (B2R c))).

Lemma rnds_one m : rnds m 1 (@f1 F).
Proof.
unfold rnds. rewrite round_generic; [|apply valid_rnd_round_mode|rewrite <- (@B2R_f1 F); apply B2R_format].
rewrite Rlt_bool_true.
- split; [apply B2R_f1|apply is_finite_f1].
- rewrite <- (@B2R_f1 F). apply B2R_bound.
Qed.

Lemma mpfr_pow_view a c : a = finf \/ (is_finite a = true /\ 0 <= B2R a) -> isnan c = false ->
  exists o, pview a c o /\
    forall m, match o with Some v => rnds m v (mpfr_pow m a c) | None => mpfr_pow m a c = finf end.
Proof.
intros Ha Hc. unfold mpfr_pow.
destruct (fviewP c) as [ | | |c Fc]; try easy.
- (* c = -oo *)
  change (feq fminf f0) with false. cbv iota. change (fgt fminf f0) with false.
  destruct Ha as [->|[Fa Ha]].
  + rewrite feq_pinf_l by fin. exists (Some 0). split; [apply pv_ineg; [easy|now left]|]. intros m. apply (rnds_zero m false).
  + rewrite feq_fin, flt_fin, (@B2R_f1 F) by fin. case Req_bool_spec; intros H1.
    * exists (Some 1). split; [now apply pv_a1|]. intros m. apply rnds_one.
    * destruct a as [s| | |s mm e Hb]; try easy.
      -- exists None. split; [apply pv_0neg; try easy; now left|easy].
      -- destruct s; [exfalso; apply (Rlt_not_le 0 _ (F2R_lt_0 radix2 (Float radix2 (Z.neg mm) e) eq_refl)); exact Ha|].
         assert (P : 0 < B2R (B754_finite false mm e Hb)) by (apply F2R_gt_0; easy).
         case Rlt_bool_spec; intros H2; cbn [Bool.eqb].
         ++ exists None. split; [now apply pv_sn|]. easy.
         ++ exists (Some 0). split; [apply pv_bn; try easy; lra|]. intros m. apply (rnds_zero m false).
- (* c = +oo *)
  change (feq finf f0) with false. cbv iota. change (fgt finf f0) with true.
  destruct Ha as [->|[Fa Ha]].
  + rewrite feq_pinf_l by fin. exists None. split; [apply pv_ipos; [easy|now left]|easy].
  + rewrite feq_fin, flt_fin, (@B2R_f1 F) by fin. case Req_bool_spec; intros H1.
    * exists (Some 1). split; [now apply pv_a1|]. intros m. apply rnds_one.
    * destruct a as [s| | |s mm e Hb]; try easy.
      -- exists (Some 0). split; [apply pv_0pos; try easy; now left|]. intros m. apply (rnds_zero m false).
      -- destruct s; [exfalso; apply (Rlt_not_le 0 _ (F2R_lt_0 radix2 (Float radix2 (Z.neg mm) e) eq_refl)); exact Ha|].
         assert (P : 0 < B2R (B754_finite false mm e Hb)) by (apply F2R_gt_0; easy).
         case Rlt_bool_spec; intros H2; cbn [Bool.eqb].
         ++ exists (Some 0). split; [now apply pv_sp|]. intros m. apply (rnds_zero m false).
         ++ exists None. split; [apply pv_bp; try easy; lra|easy].
- (* c finite *)
  rewrite feq_fin, fgt_fin, (@B2R_f0 F) by fin. case Req_bool_spec; intros H0.
  { exists (Some 1). split; [now apply pv_c0|]. intros m. apply rnds_one. }
  destruct Ha as [->|[Fa Ha]].
  + rewrite feq_pinf_l by fin. case Rlt_bool_spec; intros H2.
    * exists None. split; [apply pv_ipos; [easy|now right]|]. intros m. now destruct c as [| | |].
    * exists (Some 0). split; [apply pv_ineg; [easy|right; split; [easy|lra]]|]. intros m.
      destruct c as [| | |]; try easy; apply (rnds_zero m false).
  + rewrite feq_fin, (@B2R_f1 F) by fin. case Req_bool_spec; intros H1.
    * exists (Some 1). split; [now apply pv_a1|]. intros m. apply rnds_one.
    * destruct a as [s| | |s mm e Hb]; try easy.
      -- case Rlt_bool_spec; intros H2.
         ++ exists (Some 0). split; [apply pv_0pos; try easy; now right|]. intros m. destruct c; try easy; apply (rnds_zero m false).
         ++ exists None. split; [apply pv_0neg; try easy; right; split; [easy|lra]|]. intros m. now destruct c.
      -- destruct s; [exfalso; apply (Rlt_not_le 0 _ (F2R_lt_0 radix2 (Float radix2 (Z.neg mm) e) eq_refl)); exact Ha|].
         assert (P : 0 < B2R (B754_finite false mm e Hb)) by (apply F2R_gt_0; easy).
         exists (Some (Rpower (B2R (B754_finite false mm e Hb)) (B2R c))). split; [now apply pv_fin|].
         intros m. destruct c; try easy; apply rround_rnds.
Qed.

(** ** Adherent values *)
Section S.
Variable S : R -> Prop.
Hypothesis NE : exists t, S t.
Definition cl_low p : Prop := forall l', (forall t, S t -> lb l' t) -> forall t, lb p t -> lb l' t.
Definition cl_upp p : Prop := forall l', (forall t, S t -> ub l' t) -> forall t, ub p t -> ub l' t.
Definition adh (v : R) : Prop := forall e, 0 < e -> exists t, S t /\ v - e < t < v + e.

Lemma adh_in v : S v -> adh v. Proof. intros H e He. exists v. split; [easy|lra]. Qed.
Lemma cl_low_adh v p : adh v -> is_RD v p -> cl_low p.
Proof.
intros H [H1 H2] l' Hl t Ht. apply H2; [|easy]. destruct NE as [t0 St0].
destruct (fviewP l') as [ | | |l' Hf]; try easy.
- apply (Hl _ St0).
- specialize (Hl _ St0). easy.
- rewrite lb_fin by easy. apply Rnot_lt_le. intros Hlt. destruct (H (B2R l' - v)) as (t1 & S1 & Ht1); [lra|].
  specialize (Hl _ S1). rewrite lb_fin in Hl by easy. lra.
Qed.
Lemma cl_upp_adh v p : adh v -> is_RU v p -> cl_upp p.
Proof.
intros H [H1 H2] l' Hl t Ht. apply H2; [|easy]. destruct NE as [t0 St0].
destruct (fviewP l') as [ | | |l' Hf]; try easy.
- apply (Hl _ St0).
- specialize (Hl _ St0). easy.
- rewrite ub_fin by easy. apply Rnot_lt_le. intros Hlt. destruct (H (v - B2R l')) as (t1 & S1 & Ht1); [lra|].
  specialize (Hl _ S1). rewrite ub_fin in Hl by easy. lra.
Qed.
Lemma cl_upp_unb : unb_above S -> cl_upp finf.
Proof. intros H. exact (proj2 (gupp_unb S H)). Qed.

Definition LBv (o : option R) (t : R) : Prop := exists v, o = Some v /\ v <= t.
Definition UBv (o : option R) (t : R) : Prop := match o with Some v => t <= v | None => True end.

(** what a corner provides for either rounding direction *)
Definition lowc p (o : option R) : Prop :=
  forall t, LBv o t -> lb p t /\ cl_low p /\ isnan p = false.
Definition uppc p (o : option R) : Prop :=
  cl_upp p /\ isnan p = false /\ forall t, UBv o t -> ub p t.
Lemma glow_corner p o : lowc p o -> (forall t, S t -> LBv o t) -> glow S p.
Proof.
intros H1 H2. destruct NE as [t0 H0]. split.
- intros t Ht. now apply H1, H2.
- now apply (H1 t0), H2.
Qed.
Lemma gupp_corner p o : uppc p o -> (forall t, S t -> UBv o t) -> gupp S p.
Proof. intros (H1 & H2 & H3) H. split; [|easy]. intros t Ht. now apply H3, H. Qed.
Lemma glow_corner2 p1 o1 p2 o2 : lowc p1 o1 -> lowc p2 o2 -> (exists t, LBv o1 t) -> (exists t, LBv o2 t) ->
  (forall t, S t -> LBv o1 t \/ LBv o2 t) -> glow S (mpfr_min p1 p2).
Proof.
intros H1 H2 [t1 G1] [t2 G2] H.
destruct (H1 _ G1) as (_ & C1 & N1). destruct (H2 _ G2) as (_ & C2 & N2).
destruct (mpfr_min_cases p1 p2 N1 N2) as [[-> L]|[-> L]]; (split; [|easy]); intros t Ht; destruct (H t Ht) as [K|K].
- now apply H1.
- apply lb_fle with (1 := L). now apply H2.
- apply lb_fle with (1 := L). now apply H1.
- now apply H2.
Qed.
Lemma gupp_corner2 p1 o1 p2 o2 : uppc p1 o1 -> uppc p2 o2 ->
  (forall t, S t -> UBv o1 t \/ UBv o2 t) -> gupp S (mpfr_max p1 p2).
Proof.
intros (C1 & N1 & H1) (C2 & N2 & H2) H.
destruct (mpfr_max_cases p1 p2 N1 N2) as [[-> L]|[-> L]]; (split; [|easy]); intros t Ht; destruct (H t Ht) as [K|K].
- now apply H1.
- apply ub_fle with (1 := L). now apply H2.
- apply ub_fle with (1 := L). now apply H1.
- now apply H2.
Qed.
Lemma lb_nan p t : lb p t -> isnan p = false. Proof. now destruct p. Qed.
Lemma ub_nan p t : ub p t -> isnan p = false. Proof. now destruct p. Qed.
Lemma lowc_intro p o : (forall v, o = Some v -> adh v /\ is_RD v p) -> lowc p o.
Proof.
intros H t (v & -> & Hv). destruct (H v eq_refl) as [A D].
pose proof (proj1 D) as D1. split; [now apply lb_mono with v|split; [now apply cl_low_adh with v|now apply lb_nan with v]].
Qed.
Lemma uppc_intro p o : (match o with Some v => adh v /\ is_RU v p | None => p = finf /\ unb_above S end) -> uppc p o.
Proof.
destruct o as [v|].
- intros [A D]. pose proof (proj1 D) as D1.
  split; [now apply cl_upp_adh with v|split; [now apply ub_nan with v|]]. intros t Ht. now apply ub_mono with v.
- intros [-> U]. split; [now apply cl_upp_unb|easy].
Qed.
End S.

(** ** The box *)
Section Box.
Variables x y xx : itv F.
Hypothesis Wx : wf x.
Hypothesis Wy : wf y.
Hypothesis Wxx : wf xx.
Hypothesis Hxx : forall r, mem r xx <-> mem r x /\ 0 <= r.
Hypothesis Ny : isnan (fst y) = false.
Variable r1 : R.
Hypothesis Mr1 : mem r1 xx.
Hypothesis Pr1 : 0 < r1.
Notation S := (image2 pow_dom powR x y).

Lemma S_in r s : mem r xx -> mem s y -> pow_dom r s -> S (powR r s).
Proof. intros H1 H2 H3. apply Hxx in H1. exists r, s. easy. Qed.
Lemma S_out t : S t -> exists r s, mem r xx /\ mem s y /\ pow_dom r s /\ t = powR r s.
Proof.
intros (r & s & H1 & H2 & H3 & ->). exists r, s. split; [|easy]. apply Hxx. split; [easy|].
destruct H3 as [H3|[-> H3]]; lra.
Qed.
Let s0 : exists s, mem s y.
Proof. apply (wview_nonempty y (wf_view _ Wy) Ny). Qed.
Lemma S_ne : exists t, S t.
Proof. destruct s0 as [s Hs]. exists (powR r1 s). apply S_in; try easy. now left. Qed.

Definition xend a : Prop := (is_finite a = true /\ mem (B2R a) xx) \/ (a = finf /\ unb_above (fun r => mem r xx)).

Lemma adh_corner a c o : xend a -> endp c y -> pview a c o ->
  match o with Some v => adh S v | None => unb_above S end.
Proof.
intros Ea Ec V.
assert (CP : cpos c -> exists s, mem s y /\ 0 < s).
{ intros [->|[Fc Hc]].
  - destruct Ec as [[Fc Hc]|[[Fc Hc]|[_ Hc]]]; try easy; destruct (Hc 0) as (s & H1 & H2); now exists s.
  - destruct Ec as [[_ Mc]|[[-> _]|[-> _]]]; try easy. now exists (B2R c). }
assert (CN : cneg c -> exists s, mem s y /\ s < 0).
{ intros [->|[Fc Hc]].
  - destruct Ec as [[Fc Hc]|[[Fc Hc]|[Fc Hc]]]; try easy; destruct (Hc 0) as (s & H1 & H2); now exists s.
  - destruct Ec as [[_ Mc]|[[-> _]|[-> _]]]; try easy. now exists (B2R c). }
assert (CI : c = finf -> forall B, exists s, mem s y /\ B < s).
{ intros ->. destruct Ec as [[Fc Hc]|[[Fc Hc]|[Fc Hc]]]; easy. }
assert (CM : c = fminf -> forall B, exists s, mem s y /\ s < B).
{ intros ->. destruct Ec as [[Fc Hc]|[[Fc Hc]|[Fc Hc]]]; easy. }
assert (AF : is_finite a = true -> mem (B2R a) xx).
{ intros Fa. destruct Ea as [[_ H]|[-> _]]; easy. }
assert (CF : is_finite c = true -> mem (B2R c) y).
{ intros Fc. destruct Ec as [[_ H]|[[-> _]|[-> _]]]; easy. }
assert (AI : a = finf -> unb_above (fun r => mem r xx)).
{ intros ->. destruct Ea as [[H _]|[_ H]]; easy. }
assert (P1 : forall r s, mem r xx -> mem s y -> 0 < r -> S (exp (s * ln r))).
{ intros r s H1 H2 H3. rewrite <- powR_exp by easy. apply S_in; try easy. now left. }
destruct V as [Fc Hc|Fa Ha|Fa Ha Hc|Fa Ha Hc|Ha Hc|Ha Hc|Fa Ha Hc|Fa Ha Hc|Fa Ha Hc|Fa Ha Hc|Fa Ha Fc].
- apply adh_in. replace 1 with (exp (B2R c * ln r1)) by (rewrite Hc, Rmult_0_l; apply exp_0). auto.
- apply adh_in. destruct s0 as [s Hs]. replace 1 with (exp (s * ln (B2R a))) by (rewrite Ha, ln_1, Rmult_0_r; apply exp_0).
  apply P1; auto. lra.
- apply adh_in. destruct (CP Hc) as (s & Ms & Hs). rewrite <- (powR_0 s). apply S_in; [rewrite <- Ha; auto|easy|now right].
- destruct (CN Hc) as (s & Ms & Hs). intros B. specialize (AF Fa). rewrite Ha in AF.
  destruct (near_pos xx r1 (exp (B / s)) AF Pr1 Mr1 (exp_pos _)) as (r & Mr & Hr).
  exists (exp (s * ln r)). split; [apply P1; easy|]. apply exp_gt.
  apply div_neg_le; [easy|]. now apply ln_le_of.
- destruct (CP Hc) as (s & Ms & Hs). intros B. destruct (AI Ha (exp (B / s))) as (r & Mr & Hr).
  pose proof (exp_pos (B / s)). exists (exp (s * ln r)). split; [apply P1; try easy; lra|]. apply exp_gt.
  apply div_pos_le; [easy|]. now apply ln_ge_of, Rlt_le.
- destruct (CN Hc) as (s & Ms & Hs). intros e He. destruct (AI Ha (exp (ln e / s))) as (r & Mr & Hr).
  pose proof (exp_pos (ln e / s)). exists (exp (s * ln r)). split; [apply P1; try easy; lra|].
  pose proof (exp_pos (s * ln r)). split; [lra|]. rewrite Rplus_0_l. apply exp_lt_ln; [easy|].
  apply div_neg_lt; [easy|]. now apply ln_gt_of.
- intros e He. pose proof (ln_neg _ Ha) as Hl. destruct (CI Hc (ln e / ln (B2R a))) as (s & Ms & Hs).
  exists (exp (s * ln (B2R a))). split; [apply P1; auto; lra|].
  pose proof (exp_pos (s * ln (B2R a))). split; [lra|]. rewrite Rplus_0_l. apply exp_lt_ln; [easy|].
  rewrite Rmult_comm. now apply div_neg_lt.
- intros B. pose proof (ln_neg _ Ha) as Hl. destruct (CM Hc (B / ln (B2R a))) as (s & Ms & Hs).
  exists (exp (s * ln (B2R a))). split; [apply P1; auto; lra|]. apply exp_gt.
  rewrite Rmult_comm. apply div_neg_le; [easy|lra].
- intros B. pose proof (ln_gt0 _ Ha) as Hl. destruct (CI Hc (B / ln (B2R a))) as (s & Ms & Hs).
  exists (exp (s * ln (B2R a))). split; [apply P1; auto; lra|]. apply exp_gt.
  rewrite Rmult_comm. apply div_pos_le; [easy|lra].
- intros e He. pose proof (ln_gt0 _ Ha) as Hl. destruct (CM Hc (ln e / ln (B2R a))) as (s & Ms & Hs).
  exists (exp (s * ln (B2R a))). split; [apply P1; auto; lra|].
  pose proof (exp_pos (s * ln (B2R a))). split; [lra|]. rewrite Rplus_0_l. apply exp_lt_ln; [easy|].
  rewrite Rmult_comm. now apply div_pos_lt.
- apply adh_in. apply P1; auto.
Qed.

Lemma xx_nonneg r : mem r xx -> 0 <= r. Proof. intros H. now apply Hxx in H. Qed.

(** both corners with their value *)
Lemma corner a c : xend a -> endp c y -> exists o, pview a c o /\
  lowc S (mpfr_pow mode_DN a c) o /\ uppc S (mpfr_pow mode_UP a c) o.
Proof.
intros Ea Ec. destruct (mpfr_pow_view a c) as (o & V & R).
- destruct Ea as [[Fa Ma]|[-> _]]; [right; split; [easy|now apply xx_nonneg]|now left].
- destruct Ec as [[Fc _]|[[-> _]|[-> _]]]; try easy. now apply isnan_fin.
- exists o. split; [easy|]. pose proof (adh_corner a c o Ea Ec V) as A. split.
  + apply lowc_intro; [apply S_ne|]. intros v ->. split; [easy|]. now apply rnds_DN.
  + apply uppc_intro; [apply S_ne|]. destruct o as [v|]; split; try easy. now apply rnds_UP.
Qed.

(** ** Bounds: one lemma per kind of corner *)
Ltac pv V := destruct V as [Fc Hc|Fa Ha|Fa Ha Hc|Fa Ha Hc|Ha Hc|Ha Hc|Fa Ha Hc|Fa Ha Hc|Fa Ha Hc|Fa Ha Hc|Fa Ha Fc].
Lemma exp_le1 g : g <= 0 -> exp g <= 1. Proof. intros H. rewrite <- exp_0. now apply exp_le. Qed.
Lemma exp_ge1 g : 0 <= g -> 1 <= exp g. Proof. intros H. rewrite <- exp_0. now apply exp_le. Qed.
Lemma lb_of a r : is_finite a = true -> lb a r -> B2R a <= r. Proof. intros H. now rewrite lb_fin. Qed.
Lemma ub_of a r : is_finite a = true -> ub a r -> r <= B2R a. Proof. intros H. now rewrite ub_fin. Qed.

(** lower bound at (xl, yu): [a <= 1], [0 <= s] *)
Lemma L1 a c o r s : pview a c o -> is_finite a = true -> 0 <= B2R a <= 1 -> B2R a <= r -> ub c s ->
  0 <= s -> pow_dom r s -> LBv o (powR r s).
Proof.
intros V Fa0 Ha1 Hr Hs Hs0 D. pv V.
- apply ub_of in Hs; [|easy]. assert (s = 0) by lra. subst s. destruct D as [D|[_ D]]; [|lra].
  rewrite powR_exp, Rmult_0_l, exp_0 by easy. exists 1. split; [easy|lra].
- exists 1. split; [easy|]. rewrite powR_exp by lra. apply exp_ge1. apply Rmult_le_pos; [easy|apply ln_nonneg; lra].
- exists 0. split; [easy|]. apply powR_nonneg. lra.
- exfalso. destruct Hc as [->|[Fc Hc]]; [easy|]. apply ub_of in Hs; [lra|easy].
- now subst a.
- now subst a.
- exists 0. split; [easy|]. apply powR_nonneg. lra.
- now subst c.
- lra.
- now subst c.
- exists (Rpower (B2R a) (B2R c)). split; [easy|]. apply ub_of in Hs; [|easy]. rewrite powR_exp by lra.
  apply exp_le. pose proof (ln_nonpos _ Ha (proj2 Ha1)). pose proof (ln_le _ _ Ha Hr). nra.
Qed.
(** lower bound at (xl, yl): [1 <= a], [0 <= c] *)
Lemma L2 a c o r s : pview a c o -> is_finite a = true -> 1 <= B2R a -> B2R a <= r -> is_finite c = true ->
  0 <= B2R c <= s -> LBv o (powR r s).
Proof.
intros V Fa0 Ha1 Hr Fc0 Hs.
assert (Q : 1 <= powR r s).
{ rewrite powR_exp by lra. apply exp_ge1. apply Rmult_le_pos; [lra|apply ln_nonneg; lra]. }
pv V; try (now subst c); try (now subst a); try lra.
- exists 1. easy.
- exists 1. easy.
- exists (Rpower (B2R a) (B2R c)). split; [easy|]. rewrite powR_exp by lra.
  apply exp_le. pose proof (ln_nonneg _ Ha1). pose proof (ln_le _ _ Ha Hr). nra.
Qed.
(** lower bound at (xu, yu): [a <= 1], [c <= 0] *)
Lemma L4 a c o r s : pview a c o -> is_finite a = true -> B2R a <= 1 -> 0 < r <= B2R a -> is_finite c = true ->
  s <= B2R c <= 0 -> LBv o (powR r s).
Proof.
intros V Fa0 Ha1 Hr Fc0 Hs.
assert (L : ln r <= 0) by (apply ln_nonpos; lra).
assert (Q : 1 <= powR r s).
{ rewrite powR_exp by lra. apply exp_ge1. nra. }
pv V; try (now subst c); try (now subst a); try lra.
- exists 1. easy.
- exists 1. easy.
- exists (Rpower (B2R a) (B2R c)). split; [easy|]. rewrite powR_exp by lra.
  apply exp_le. pose proof (ln_nonpos _ Ha Ha1). pose proof (ln_le _ _ (proj1 Hr) (proj2 Hr)). nra.
Qed.
(** lower bound at (xu, yl): [1 <= a], [s <= 0] *)
Lemma L5 a c o r s : pview a c o -> (is_finite a = true -> 1 <= B2R a) -> ub a r -> lb c s ->
  s <= 0 -> 0 < r -> LBv o (powR r s).
Proof.
intros V Ha1 Hr Hs Hs0 D. pv V.
- apply lb_of in Hs; [|easy]. assert (s = 0) by lra. subst s.
  rewrite powR_exp, Rmult_0_l, exp_0 by easy. exists 1. split; [easy|lra].
- exists 1. split; [easy|]. apply ub_of in Hr; [|easy]. rewrite powR_exp by lra. apply exp_ge1.
  assert (ln r <= 0) by (apply ln_nonpos; lra). nra.
- specialize (Ha1 Fa). lra.
- specialize (Ha1 Fa). lra.
- exfalso. destruct Hc as [->|[Fc Hc]]; [easy|]. apply lb_of in Hs; [lra|easy].
- exists 0. split; [easy|]. apply powR_nonneg. lra.
- specialize (Ha1 Fa). lra.
- specialize (Ha1 Fa). lra.
- now subst c.
- exists 0. split; [easy|]. apply powR_nonneg. lra.
- exists (Rpower (B2R a) (B2R c)). split; [easy|]. apply lb_of in Hs; [|easy]. apply ub_of in Hr; [|easy].
  rewrite powR_exp by lra. apply exp_le. pose proof (ln_nonneg _ (Ha1 Fa)). pose proof (ln_le _ _ D Hr). nra.
Qed.
(** upper bound at (xu, yl): [a <= 1], [0 <= c] *)
Lemma U1 a c o r s : pview a c o -> is_finite a = true -> 0 < B2R a <= 1 -> 0 <= r <= B2R a -> is_finite c = true ->
  0 <= B2R c <= s -> pow_dom r s -> UBv o (powR r s).
Proof.
intros V Fa0 Ha1 Hr Fc0 Hs D.
assert (Q : powR r s <= 1).
{ destruct D as [D|[-> D]]; [|rewrite powR_0; lra].
  rewrite powR_exp by lra. apply exp_le1. assert (ln r <= 0) by (apply ln_nonpos; lra). nra. }
pv V; try (now subst c); try (now subst a); try lra; try easy.
simpl. destruct D as [D|[-> D]]; [|rewrite powR_0; apply Rlt_le, exp_pos].
rewrite powR_exp by lra. apply exp_le. assert (ln r <= 0) by (apply ln_nonpos; lra).
pose proof (ln_le _ _ D (proj2 Hr)). nra.
Qed.
(** upper bound at (xu, yu): [1 <= a], [0 <= s] *)
Lemma U2 a c o r s : pview a c o -> (is_finite a = true -> 1 <= B2R a) -> ub a r -> ub c s ->
  0 <= s -> 0 <= r -> pow_dom r s -> UBv o (powR r s).
Proof.
intros V Ha1 Hr Hs Hs0 Hr0 D. pv V; try easy; try (specialize (Ha1 Fa); lra); simpl.
- apply ub_of in Hs; [|easy]. assert (s = 0) by lra. subst s. destruct D as [D|[_ D]]; [|lra].
  rewrite powR_exp, Rmult_0_l, exp_0 by easy. lra.
- apply ub_of in Hr; [|easy]. destruct D as [D|[-> D]]; [|rewrite powR_0; lra].
  rewrite powR_exp by easy. apply exp_le1. assert (ln r <= 0) by (apply ln_nonpos; lra). nra.
- exfalso. destruct Hc as [->|[Fc Hc]]; [easy|]. apply ub_of in Hs; [lra|easy].
- now subst c.
- apply ub_of in Hr; [|easy]. apply ub_of in Hs; [|easy].
  destruct D as [D|[-> D]]; [|rewrite powR_0; apply Rlt_le, exp_pos].
  rewrite powR_exp by easy. apply exp_le. pose proof (ln_nonneg _ (Ha1 Fa)). pose proof (ln_le _ _ D Hr). nra.
Qed.
(** upper bound at (xl, yl): [a <= 1], [s <= 0] *)
Lemma U4 a c o r s : pview a c o -> is_finite a = true -> 0 <= B2R a <= 1 -> B2R a <= r -> lb c s ->
  s <= 0 -> 0 < r -> UBv o (powR r s).
Proof.
intros V Fa0 Ha1 Hr Hs Hs0 D. pv V; try easy; try (now subst a); try lra; simpl.
- apply lb_of in Hs; [|easy]. assert (s = 0) by lra. subst s.
  rewrite powR_exp, Rmult_0_l, exp_0 by easy. lra.
- rewrite powR_exp by easy. apply exp_le1. assert (0 <= ln r) by (apply ln_nonneg; lra). nra.
- exfalso. destruct Hc as [->|[Fc Hc]]; [easy|]. apply lb_of in Hs; [lra|easy].
- now subst c.
- apply lb_of in Hs; [|easy]. rewrite powR_exp by easy. apply exp_le.
  pose proof (ln_nonpos _ Ha (proj2 Ha1)). pose proof (ln_le _ _ Ha Hr). nra.
Qed.
(** upper bound at (xl, yu): [1 <= a], [c <= 0] *)
Lemma U5 a c o r s : pview a c o -> is_finite a = true -> 1 <= B2R a <= r -> is_finite c = true ->
  s <= B2R c <= 0 -> UBv o (powR r s).
Proof.
intros V Fa0 Hr Fc0 Hs. assert (L : 0 <= ln r) by (apply ln_nonneg; lra).
assert (Q : powR r s <= 1). { rewrite powR_exp by lra. apply exp_le1. nra. }
pv V; try (now subst c); try (now subst a); try lra; try easy. simpl.
rewrite powR_exp by lra. apply exp_le. pose proof (ln_nonneg _ (proj1 Hr)). pose proof (ln_le _ _ Ha (proj2 Hr)). nra.
Qed.

End Box.

Lemma mem_nn r : mem r ((f0, finf) : itv F) <-> 0 <= r.
Proof. split; [now intros [H _]|]. intros H. now split. Qed.

Lemma B2R_xl a : B2R (if feq a fm0 then f0 else a) = B2R a.
Proof. destruct (feq a fm0) eqn:E; [|easy]. destruct a as [[]|[]| |[] ]; try easy. Qed.
Lemma fin_xl a : is_finite a = true -> is_finite (if feq a fm0 then f0 else a) = true.
Proof. now destruct (feq a fm0). Qed.

Lemma pow_tightest x y : wf x -> wf y -> computes_tightest (pow x y) (image2 pow_dom powR x y).
Proof.
intros Wx Wy. unfold pow. vred.
destruct (isnan (fst y)) eqn:Ey; vred.
{ eapply ct_ret; [reflexivity|]. apply tightest_empty. intros r. now apply image2_empty_r. }
destruct (intersection_exact x (f0, finf) Wx wf_nn) as (xx & -> & Wxx & Hxx'). mred.
assert (Hxx : forall r, mem r xx <-> mem r x /\ 0 <= r) by (intros r; rewrite Hxx', mem_nn; tauto).
vred. destruct (isnan (fst xx)) eqn:Exx; vred.
{ eapply ct_ret; [reflexivity|]. rewrite (wf_nan_l xx) by easy. apply tightest_empty.
  intros t (r & s & Hr & _ & D & _). assert (M : mem r xx) by (apply Hxx; split; [easy|destruct D as [|[-> _]]; lra]).
  rewrite (wf_nan_l xx Wxx Exx) in M. now apply mem_empty in M. }
pose proof (wf_view _ Wxx) as Vx. pose proof (wf_view _ Wy) as Vy.
destruct (low_end_fst xx Vx Exx) as [(A1 & A2 & A3)|(A1 & A2)].
2:{ exfalso. destruct (A2 0) as (r & Hr & Hlt). apply Hxx in Hr. lra. }
assert (A0 : 0 <= B2R (fst xx)) by (apply Hxx in A2; lra).
destruct (feq (snd xx) f0) eqn:E0.
{ assert (X0 : is_finite (snd xx) = true /\ B2R (snd xx) = 0).
  { now apply feq_f0. }
  destruct X0 as [F0 B0].
  assert (M0 : mem 0 xx).
  { rewrite <- B0. destruct (upp_end_snd xx Vx Exx) as [(B1 & B2 & B3)|(B1 & B2)]; [easy|]. now rewrite B1 in F0. }
  assert (X1 : forall r, mem r xx -> r = 0).
  { intros r Hr. pose proof (proj1 (Hxx r) Hr) as [_ G]. destruct Hr as [_ Hr]. rewrite ub_fin in Hr by easy. lra. }
  assert (X2 : forall t, image2 pow_dom powR x y t -> t = 0 /\ exists s, mem s y /\ 0 < s).
  { intros t (r & s & Hr & Hs & D & ->). assert (M : mem r xx) by (apply Hxx; split; [easy|destruct D as [|[-> _]]; lra]).
    apply X1 in M. subst r. split; [apply powR_0|]. exists s. destruct D as [D|[_ D]]; [lra|easy]. }
  assert (X3 : forall s, mem s y -> 0 < s -> image2 pow_dom powR x y 0).
  { intros s Hs Ps. apply Hxx in M0. exists 0, s. rewrite powR_0. split; [easy|split; [easy|split; [now right|easy]]]. }
  destruct (upp_end_snd y Vy Ey) as [(B1 & B2 & B3)|(B1 & B2)].
  - rewrite fle_fin, (@B2R_f0 F) by fin. case Rle_bool_spec; intros Hy.
    + eapply ct_ret; [reflexivity|]. apply tightest_empty. intros t Ht. apply X2 in Ht.
      destruct Ht as (_ & s & Hs & Ps). specialize (B3 s Hs). lra.
    + eapply ct_ret; [reflexivity|]. apply tightest_intro; [exists 0; now apply (X3 _ B2)| |].
      * apply glow_att with 0; [now apply (X3 _ B2)|intros t Ht; apply X2 in Ht; lra|apply is_RD_0].
      * apply gupp_att with 0; [now apply (X3 _ B2)|intros t Ht; apply X2 in Ht; lra|apply is_RU_0].
  - rewrite B1, fle_pinf_l by fin. destruct (B2 0) as (s & Hs & Ps).
    eapply ct_ret; [reflexivity|]. apply tightest_intro; [exists 0; now apply (X3 s)| |].
    * apply glow_att with 0; [now apply (X3 s)|intros t Ht; apply X2 in Ht; lra|apply is_RD_0].
    * apply gupp_att with 0; [now apply (X3 s)|intros t Ht; apply X2 in Ht; lra|apply is_RU_0]. }
assert (R1 : exists r1, mem r1 xx /\ 0 < r1).
{ destruct (upp_end_snd xx Vx Exx) as [(B1 & B2 & B3)|(B1 & B2)].
  - exists (B2R (snd xx)). split; [easy|]. rewrite feq_fin, (@B2R_f0 F) in E0 by fin. revert E0.
    case Req_bool_spec; [easy|]. intros N _. apply Hxx in B2. lra.
  - destruct (B2 0) as (r & Hr & Hlt). now exists r. }
destruct R1 as (r1 & Mr1 & Pr1).
set (S := image2 pow_dom powR x y).
assert (NE : exists t, S t) by now apply (S_ne x y xx Wy Hxx Ey r1).
set (xl := if feq (fst xx) fm0 then f0 else fst xx).
assert (Fl : is_finite xl = true) by now apply fin_xl.
assert (Bl : B2R xl = B2R (fst xx)) by apply B2R_xl.
assert (El : xend xx xl) by (left; rewrite Bl; now split).
assert (Eu : xend xx (snd xx)).
{ destruct (upp_end_snd xx Vx Exx) as [(B1 & B2 & B3)|(B1 & B2)]; [now left|now right]. }
assert (Fu : is_finite (snd xx) = true -> 0 < B2R (snd xx)).
{ intros Fu. destruct Mr1 as [_ U1]. rewrite ub_fin in U1 by easy. lra. }
assert (Eyl : endp (fst y) y) by now apply endp_l.
assert (Eyu : endp (snd y) y) by now apply endp_u.
assert (CO := fun a c => corner x y xx Wy Hxx Ey r1 Mr1 Pr1 a c). fold S in CO.
destruct (CO xl (fst y) El Eyl) as (oll & Vll & LLl & LLu).
destruct (CO xl (snd y) El Eyu) as (olu & Vlu & LUl & LUu).
destruct (CO (snd xx) (fst y) Eu Eyl) as (oul & Vul & ULl & ULu).
destruct (CO (snd xx) (snd y) Eu Eyu) as (ouu & Vuu & UUl & UUu).
assert (OUT : forall t, S t -> exists r s, (B2R xl <= r /\ ub (snd xx) r /\ 0 <= r) /\ (lb (fst y) s /\ ub (snd y) s)
   /\ pow_dom r s /\ t = powR r s).
{ intros t Ht. destruct (S_out x y xx Hxx t Ht) as (r & s & Hr & Hs & D & ->). exists r, s.
  rewrite Bl. pose proof (proj1 (Hxx r) Hr). split; [split; [auto|split; [now destruct Hr|easy]]|].
  split; [easy|split; easy]. }
(* comparisons with 0 and 1 *)
assert (K0 : fle f0 (fst y) = true -> is_finite (fst y) = true /\ 0 <= B2R (fst y)).
{ intros H. destruct (low_end_fst y Vy Ey) as [(C1 & _)|(C1 & _)]; [|now rewrite C1, fle_minf_r in H by fin].
  split; [easy|]. rewrite fle_fin in H by fin. revert H. now case Rle_bool_spec. }
assert (K0' : fle f0 (fst y) = false -> lb (fst y) 0).
{ intros H. destruct (low_end_fst y Vy Ey) as [(C1 & _)|(C1 & _)]; [|now rewrite C1].
  rewrite fle_fin in H by fin. revert H. rewrite lb_fin by easy. case Rle_bool_spec; [easy|]. simpl. lra. }
assert (K1 : fle (snd y) f0 = true -> is_finite (snd y) = true /\ B2R (snd y) <= 0).
{ intros H. destruct (upp_end_snd y Vy Ey) as [(C1 & _)|(C1 & _)]; [|now rewrite C1, fle_pinf_l in H by fin].
  split; [easy|]. rewrite fle_fin in H by fin. revert H. now case Rle_bool_spec. }
assert (K1' : fle (snd y) f0 = false -> ub (snd y) 0).
{ intros H. destruct (upp_end_snd y Vy Ey) as [(C1 & _)|(C1 & _)]; [|now rewrite C1].
  rewrite fle_fin in H by fin. revert H. rewrite ub_fin by easy. case Rle_bool_spec; [easy|]. simpl. lra. }
assert (K2 : fle (snd xx) f1 = true -> is_finite (snd xx) = true /\ B2R (snd xx) <= 1).
{ intros H. destruct (upp_end_snd xx Vx Exx) as [(C1 & _)|(C1 & _)]; [|now rewrite C1, fle_pinf_l in H by fin].
  split; [easy|]. rewrite fle_fin, (@B2R_f1 F) in H by fin. revert H. now case Rle_bool_spec. }
assert (K2' : fle (snd xx) f1 = false -> is_finite (snd xx) = true -> 1 <= B2R (snd xx)).
{ intros H C1. rewrite fle_fin, (@B2R_f1 F) in H by fin. revert H. case Rle_bool_spec; [easy|lra]. }
assert (K3 : fle f1 (fst xx) = true -> 1 <= B2R xl).
{ intros H. rewrite Bl. rewrite fle_fin, (@B2R_f1 F) in H by fin. revert H. now case Rle_bool_spec. }
assert (K3' : fle f1 (fst xx) = false -> 0 <= B2R xl <= 1).
{ intros H. rewrite Bl. rewrite fle_fin, (@B2R_f1 F) in H by fin. revert H. case Rle_bool_spec; [easy|lra]. }
assert (K4 : B2R xl <= r1) by (rewrite Bl; auto).
assert (K4' : ub (snd xx) r1) by now destruct Mr1.
assert (D1 : pow_dom r1 0) by now left.
assert (P1 : powR r1 0 = 1) by (rewrite powR_exp, Rmult_0_l by easy; apply exp_0).
assert (PD : forall r s, pow_dom r s -> s <= 0 -> 0 < r) by (intros r s [D|[_ D]] Hs; lra).
destruct (fle f0 (fst y)) eqn:Q0; [|destruct (fle (snd y) f0) eqn:Q1].
- destruct (K0 eq_refl) as [Fyl Byl].
  assert (SB : forall s, lb (fst y) s -> B2R (fst y) <= s /\ 0 <= s) by (intros s Hs; rewrite lb_fin in Hs by easy; lra).
  destruct (fle (snd xx) f1) eqn:Q2; [|destruct (fle f1 (fst xx)) eqn:Q3];
    (eapply ct_ret; [reflexivity|]); apply tightest_intro; try easy.
  + destruct (K2 eq_refl) as [Fu' Bu']. apply glow_corner with olu; [easy|easy|].
    intros t Ht. destruct (OUT t Ht) as (r & s & (H1 & H2 & H3) & (H4 & H5) & D & ->).
    pose proof (SB s H4). rewrite ub_fin in H2 by easy. apply (L1 xl (snd y)); try easy; lra.
  + destruct (K2 eq_refl) as [Fu' Bu']. apply gupp_corner with oul; [easy|].
    intros t Ht. destruct (OUT t Ht) as (r & s & (H1 & H2 & H3) & (H4 & H5) & D & ->).
    pose proof (SB s H4). specialize (Fu Fu'). rewrite ub_fin in H2 by easy. apply (U1 (snd xx) (fst y)); try easy; lra.
  + specialize (K3 eq_refl). apply glow_corner with oll; [easy|easy|].
    intros t Ht. destruct (OUT t Ht) as (r & s & (H1 & H2 & H3) & (H4 & H5) & D & ->).
    pose proof (SB s H4). apply (L2 xl (fst y)); try easy; lra.
  + apply gupp_corner with ouu; [easy|].
    intros t Ht. destruct (OUT t Ht) as (r & s & (H1 & H2 & H3) & (H4 & H5) & D & ->).
    pose proof (SB s H4). apply (U2 (snd xx) (snd y)); try easy; auto; lra.
  + specialize (K3' eq_refl). apply glow_corner with olu; [easy|easy|].
    intros t Ht. destruct (OUT t Ht) as (r & s & (H1 & H2 & H3) & (H4 & H5) & D & ->).
    pose proof (SB s H4). apply (L1 xl (snd y)); try easy; lra.
  + apply gupp_corner with ouu; [easy|].
    intros t Ht. destruct (OUT t Ht) as (r & s & (H1 & H2 & H3) & (H4 & H5) & D & ->).
    pose proof (SB s H4). apply (U2 (snd xx) (snd y)); try easy; auto; lra.
- destruct (K1 eq_refl) as [Fyu Byu].
  assert (SB : forall s, ub (snd y) s -> s <= B2R (snd y) /\ s <= 0) by (intros s Hs; rewrite ub_fin in Hs by easy; lra).
  destruct (fle (snd xx) f1) eqn:Q2; [|destruct (fle f1 (fst xx)) eqn:Q3];
    (eapply ct_ret; [reflexivity|]); apply tightest_intro; try easy.
  + destruct (K2 eq_refl) as [Fu' Bu']. apply glow_corner with ouu; [easy|easy|].
    intros t Ht. destruct (OUT t Ht) as (r & s & (H1 & H2 & H3) & (H4 & H5) & D & ->).
    pose proof (SB s H5). rewrite ub_fin in H2 by easy. pose proof (PD r s D). apply (L4 (snd xx) (snd y)); try easy; lra.
  + assert (B1 : 0 <= B2R xl <= 1). { destruct (K2 eq_refl) as [Fu' Bu']. rewrite ub_fin in K4' by easy. rewrite Bl in *. lra. }
    apply gupp_corner with oll; [easy|].
    intros t Ht. destruct (OUT t Ht) as (r & s & (H1 & H2 & H3) & (H4 & H5) & D & ->).
    pose proof (SB s H5). pose proof (PD r s D). apply (U4 xl (fst y)); try easy; lra.
  + apply glow_corner with oul; [easy|easy|].
    intros t Ht. destruct (OUT t Ht) as (r & s & (H1 & H2 & H3) & (H4 & H5) & D & ->).
    pose proof (SB s H5). pose proof (PD r s D). apply (L5 (snd xx) (fst y)); try easy; auto; lra.
  + specialize (K3 eq_refl). apply gupp_corner with olu; [easy|].
    intros t Ht. destruct (OUT t Ht) as (r & s & (H1 & H2 & H3) & (H4 & H5) & D & ->).
    pose proof (SB s H5). apply (U5 xl (snd y)); try easy; lra.
  + apply glow_corner with oul; [easy|easy|].
    intros t Ht. destruct (OUT t Ht) as (r & s & (H1 & H2 & H3) & (H4 & H5) & D & ->).
    pose proof (SB s H5). pose proof (PD r s D). apply (L5 (snd xx) (fst y)); try easy; auto; lra.
  + specialize (K3' eq_refl). apply gupp_corner with oll; [easy|].
    intros t Ht. destruct (OUT t Ht) as (r & s & (H1 & H2 & H3) & (H4 & H5) & D & ->).
    pose proof (SB s H5). pose proof (PD r s D). apply (U4 xl (fst y)); try easy; lra.
- specialize (K0' eq_refl). specialize (K1' eq_refl).
  destruct (fle (snd xx) f1) eqn:Q2; [|destruct (fle f1 (fst xx)) eqn:Q3];
    (eapply ct_ret; [reflexivity|]); apply tightest_intro; try easy.
  + destruct (K2 eq_refl) as [Fu' Bu'].
    assert (B1 : 0 <= B2R xl <= 1) by (rewrite ub_fin in K4' by easy; rewrite Bl in *; lra).
    apply glow_corner with olu; [easy|easy|].
    intros t Ht. destruct (OUT t Ht) as (r & s & (H1 & H2 & H3) & (H4 & H5) & D & ->).
    rewrite ub_fin in H2 by easy. destruct (Rle_or_lt 0 s) as [Hs|Hs]; [apply (L1 xl (snd y)); easy|].
    destruct (L1 xl (snd y) olu r1 0) as (v & -> & Hv); try easy; [lra|]. exists v. split; [easy|].
    pose proof (PD r s D). rewrite P1 in Hv. rewrite powR_exp by lra.
    assert (1 <= exp (s * ln r)); [|lra]. apply exp_ge1. assert (ln r <= 0) by (apply ln_nonpos; lra). nra.
  + destruct (K2 eq_refl) as [Fu' Bu'].
    assert (B1 : 0 <= B2R xl <= 1) by (rewrite ub_fin in K4' by easy; rewrite Bl in *; lra).
    apply gupp_corner with oll; [easy|].
    intros t Ht. destruct (OUT t Ht) as (r & s & (H1 & H2 & H3) & (H4 & H5) & D & ->).
    rewrite ub_fin in H2 by easy.
    destruct (Rle_or_lt s 0) as [Hs|Hs]; [apply (U4 xl (fst y)); try easy; now apply (PD r s)|].
    pose proof (U4 xl (fst y) oll r1 0 Vll Fl B1 K4 K0' (Rle_refl 0) Pr1) as Q. rewrite P1 in Q.
    destruct oll as [v|]; [|easy]. simpl in *. apply Rle_trans with 1; [|easy].
    destruct D as [D|[-> D]]; [|rewrite powR_0; lra]. rewrite powR_exp by easy. apply exp_le1.
    assert (ln r <= 0) by (apply ln_nonpos; lra). nra.
  + specialize (K3 eq_refl). apply glow_corner with oul; [easy|easy|].
    intros t Ht. destruct (OUT t Ht) as (r & s & (H1 & H2 & H3) & (H4 & H5) & D & ->).
    destruct (Rle_or_lt s 0) as [Hs|Hs]; [apply (L5 (snd xx) (fst y)); try easy; auto; lra|].
    destruct (L5 (snd xx) (fst y) oul r1 0) as (v & -> & Hv); try easy; auto; [lra|]. exists v. split; [easy|].
    rewrite P1 in Hv. rewrite powR_exp by lra. assert (1 <= exp (s * ln r)); [|lra]. apply exp_ge1.
    assert (0 <= ln r) by (apply ln_nonneg; lra). nra.
  + specialize (K3 eq_refl). apply gupp_corner with ouu; [easy|].
    intros t Ht. destruct (OUT t Ht) as (r & s & (H1 & H2 & H3) & (H4 & H5) & D & ->).
    destruct (Rle_or_lt 0 s) as [Hs|Hs]; [apply (U2 (snd xx) (snd y)); auto; lra|].
    pose proof (U2 (snd xx) (snd y) ouu r1 0 Vuu (K2' eq_refl) K4' K1' (Rle_refl 0) (Rlt_le _ _ Pr1) D1) as Q. rewrite P1 in Q.
    destruct ouu as [v|]; [|easy]. simpl in *. apply Rle_trans with 1; [|easy].
    rewrite powR_exp by lra. apply exp_le1. assert (0 <= ln r) by (apply ln_nonneg; lra). nra.
  + specialize (K3' eq_refl). apply glow_corner2 with oul olu; try easy.
    * exists (powR r1 0). apply (L5 (snd xx) (fst y)); try easy; auto; lra.
    * exists (powR r1 0). apply (L1 xl (snd y)); try easy; lra.
    * intros t Ht. destruct (OUT t Ht) as (r & s & (H1 & H2 & H3) & (H4 & H5) & D & ->).
      destruct (Rle_or_lt 0 s) as [Hs|Hs].
      -- right. apply (L1 xl (snd y)); easy.
      -- left. apply (L5 (snd xx) (fst y)); auto; [lra|]. apply (PD r s); [easy|lra].
  + specialize (K3' eq_refl). apply gupp_corner2 with ouu oll; try easy.
    intros t Ht. destruct (OUT t Ht) as (r & s & (H1 & H2 & H3) & (H4 & H5) & D & ->).
    destruct (Rle_or_lt 0 s) as [Hs|Hs].
    * left. apply (U2 (snd xx) (snd y)); auto.
    * right. apply (U4 xl (fst y)); auto; [lra|]. apply (PD r s); [easy|lra].
Qed.

End M.
