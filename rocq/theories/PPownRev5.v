(** * Proofs: the reverse integer power is tight *)
From Coq Require Import ZArith NArith Reals Bool Lia Lra Psatz List.
From Flocq Require Import Core.Core Calc.Operations IEEE754.BinarySingleNaN.
From Verif Require Import Fmt Spec SpecElem FloatFacts Exc Deco SpecApi MBase PBase MBool MArith PArith PMul PFma PDiv PUnary
  PConv PBool PSetop PDec MNum PNumF PCancel MElem PElem MPow PPown MRev SpecRev PRev PMulRev PRevEven PPownRev PPownRev2 PPownRev3 PPownRev4 SpecPownRev.

Local Open Scope R_scope.

Section N.
Context {F : fmt} (q : BinNums.positive).
Implicit Types a b l u v w : float F.
Implicit Types x z c : itv F.
Notation n := (Pos.to_nat q).
Notation root r := (rootR (Zpos q) r).
Notation p := (Zneg q).

Lemma inv_mono t s : (0 < t /\ 0 < s) \/ (oddq q /\ t < 0 /\ s < 0) -> t <= s -> / s ^ n <= / t ^ n.
Proof.
intros S L. assert (W : t ^ n <= s ^ n) by (apply pow_weak; [destruct S as [[]|[]]; [left; lra|now right]|easy]).
apply inv_le_same; [|easy]. destruct S as [[S1 S2]|(O & S1 & S2)]; [left|right].
- split; now apply pow_lt.
- assert (0 < (- t) ^ n /\ 0 < (- s) ^ n) as [A B] by (split; apply pow_lt; lra).
  rewrite pow_opp_odd in A by easy. rewrite pow_opp_odd in B by easy. split; lra.
Qed.
Lemma rho_inv (c : R) : adm q c -> / (/ root c) ^ n = c.
Proof. intros A. rewrite pow_inv, Rinv_inv. now apply root_pow. Qed.

Lemma lo_fin (I : R -> Prop) (c : float F) l (t : bool) : adm q (B2R c) -> I (/ root (B2R c)) -> (forall s, I s -> / root (B2R c) <= s) ->
  lo_res q c (l, t) -> lo_ex q c (l, t) -> lo_ok True I l t.
Proof.
intros A HI HL [R1 R2] [E1 E2]. cbn [fst snd] in *. split; [now apply glow_att with (/ root (B2R c))|]. split.
- intros T Fl K. specialize (R2 T Fl). specialize (HL _ K). lra.
- intros _ T Fl. now rewrite (E2 T Fl).
Qed.
Lemma up_fin (I : R -> Prop) (c : float F) l (t : bool) : adm q (B2R c) -> I (/ root (B2R c)) -> (forall s, I s -> s <= / root (B2R c)) ->
  up_res q c (l, t) -> up_ex q c (l, t) -> up_ok True I l t.
Proof.
intros A HI HL [R1 R2] [E1 E2]. cbn [fst snd] in *. split; [now apply gupp_att with (/ root (B2R c))|]. split.
- intros T Fl K. specialize (R2 T Fl). specialize (HL _ K). lra.
- intros _ T Fl. now rewrite (E2 T Fl).
Qed.
Lemma lo_zero (I : R -> Prop) l : I 0 -> (forall s, I s -> 0 <= s) -> is_finite l = true -> B2R l = 0 -> lo_ok True I l false.
Proof.
intros H0 H Fl Z. split; [apply glow_att with 0; [easy|easy|rewrite <- Z; now apply is_RD_self]|]. split; [easy|]. intros _ _ _. now rewrite Z.
Qed.
Lemma up_zero (I : R -> Prop) l : I 0 -> (forall s, I s -> s <= 0) -> is_finite l = true -> B2R l = 0 -> up_ok True I l false.
Proof.
intros H0 H Fl Z. split; [apply gupp_att with 0; [easy|easy|rewrite <- Z; now apply is_RU_self]|]. split; [easy|]. intros _ _ _. now rewrite Z.
Qed.

Definition POS c (t : R) : Prop := (0 < t /\ mem (/ t ^ n) c) \/ (t = 0 /\ snd c = finf).
Definition NEG c (t : R) : Prop := (t < 0 /\ mem (/ t ^ n) c) \/ (t = 0 /\ fst c = fminf).

Lemma pos_inv t : 0 < t -> 0 < / t ^ n.
Proof. intros H. now apply Rinv_0_lt_compat, pow_lt. Qed.
Lemma neg_inv t : oddq q -> t < 0 -> / t ^ n < 0.
Proof.
intros O H. apply Rinv_lt_0_compat. assert (A : 0 < (- t) ^ n) by (apply pow_lt; lra). rewrite pow_opp_odd in A by easy. lra.
Qed.

Lemma pos_branch c l u tl tu : wf c -> isnan (fst c) = false -> fle (snd c) f0 = false ->
  ((fle (fst c) f0 = true /\ u = finf /\ tu = false) \/
   (is_finite (fst c) = true /\ 0 < B2R (fst c) /\ up_res q (fst c) (u, tu) /\ up_ex q (fst c) (u, tu))) ->
  ((snd c = finf /\ is_finite l = true /\ B2R l = 0 /\ tl = false) \/
   (is_finite (snd c) = true /\ 0 < B2R (snd c) /\ lo_res q (snd c) (l, tl) /\ lo_ex q (snd c) (l, tl))) ->
  branch True (POS c) (l, u) tl tu.
Proof.
intros Wc Nc Eu HU HL.
assert (PP : forall t, POS c t -> 0 <= t) by (intros t [[K _]|[K _]]; lra).
assert (MU : is_finite (snd c) = true -> mem (B2R (snd c)) c).
{ intros Fu. destruct (wf_view c Wc) as [ | |b|a|a b]; cbn [fst snd] in *; try easy; mm. }
assert (ML : is_finite (fst c) = true -> mem (B2R (fst c)) c).
{ intros Fu. destruct (wf_view c Wc) as [ | |b|a|a b]; cbn [fst snd] in *; try easy; mm. }
assert (NE : exists t, 0 < t /\ mem (/ t ^ n) c).
{ assert (K : exists r, mem r c /\ 0 < r).
  { destruct (wf_view c Wc) as [ | |b|a|a b]; cbn [fst snd] in *; try easy.
    - exists 1. split; [mm|lra].
    - exists (B2R b). hcmp. split; [mm|lra].
    - exists (Rmax (B2R a) 1). split; [|pose proof (Rmax_r (B2R a) 1); lra]. split; cbn [fst snd]; [rewrite lb_fin by easy; apply Rmax_l|easy].
    - exists (B2R b). hcmp. split; [mm|lra]. }
  destruct K as (r & Hr & L). exists (/ root r). split; [now apply Rinv_0_lt_compat, root_pos|]. rewrite rho_inv; [easy|now left]. }
split; [|split; [|split]].
- intros t1 t2 t [[H1 M1]|[H1 M1]] [[H2 M2]|[H2 M2]] [L1 L2]; try (right; split; [lra|easy]).
  + left. split; [lra|]. split; [apply lb_mono with (/ t2 ^ n); [apply M2|]|apply ub_mono with (/ t1 ^ n); [apply M1|]]; apply inv_mono; try lra; left; split; lra.
  + destruct (Rle_lt_or_eq_dec t1 t L1) as [L|L]; [left|right; split; [lra|easy]]. split; [lra|].
    split; [apply lb_mono with (/ t2 ^ n); [apply M2|]; apply inv_mono; try lra; left; split; lra|now rewrite M1].
- destruct NE as [t Ht]. exists t. now left.
- cbn [fst snd]. destruct HL as [(E & Fl & Zl & ->)|(Fu & Pu & R & X)].
  + apply lo_zero; [now right|easy|easy|easy].
  + apply (lo_fin _ (snd c)); [now left| | |easy|easy].
    * left. split; [now apply Rinv_0_lt_compat, root_pos|]. rewrite rho_inv by now left. auto.
    * intros s [[H [_ M]]|[_ K]]; [|rewrite K in Fu; easy]. rewrite ub_fin in M by easy. apply side_le; [now left|easy].
- cbn [fst snd]. destruct HU as [(E & -> & ->)|(Fu & Pu & R & X)].
  + apply up_unb. intros B. destruct NE as (t0 & P0 & M0). exists (Rmax (B + 1) t0).
    pose proof (Rmax_l (B + 1) t0). pose proof (Rmax_r (B + 1) t0). split; [|lra]. left. split; [lra|].
    split; [|apply ub_mono with (/ t0 ^ n); [apply M0|]; apply inv_mono; [left|]; lra].
    assert (K : 0 < / Rmax (B + 1) t0 ^ n) by (apply pos_inv; lra).
    destruct (wf_view c Wc) as [ | |b|a|a b]; cbn [fst snd] in *; try easy; hcmp; rewrite lb_fin by easy; lra.
  + apply (up_fin _ (fst c)); [now left| | |easy|easy].
    * left. split; [now apply Rinv_0_lt_compat, root_pos|]. rewrite rho_inv by now left. auto.
    * assert (0 < / root (B2R (fst c))) by now apply Rinv_0_lt_compat, root_pos.
      intros s [[H' [M _]]|[-> K]]; [|lra]. rewrite lb_fin in M by easy. apply side_ge; [now left|easy].
Qed.
Lemma neg_branch c l u tl tu : oddq q -> wf c -> isnan (fst c) = false -> fle f0 (fst c) = false ->
  ((fle f0 (snd c) = true /\ l = fminf /\ tl = false) \/
   (is_finite (snd c) = true /\ B2R (snd c) < 0 /\ lo_res q (snd c) (l, tl) /\ lo_ex q (snd c) (l, tl))) ->
  ((fst c = fminf /\ is_finite u = true /\ B2R u = 0 /\ tu = false) \/
   (is_finite (fst c) = true /\ B2R (fst c) < 0 /\ up_res q (fst c) (u, tu) /\ up_ex q (fst c) (u, tu))) ->
  branch True (NEG c) (l, u) tl tu.
Proof.
intros O Wc Nc Eu HL HU.
assert (PP : forall t, NEG c t -> t <= 0) by (intros t [[K _]|[K _]]; lra).
assert (MU : is_finite (snd c) = true -> mem (B2R (snd c)) c).
{ intros Fu. destruct (wf_view c Wc) as [ | |b|a|a b]; cbn [fst snd] in *; try easy; mm. }
assert (ML : is_finite (fst c) = true -> mem (B2R (fst c)) c).
{ intros Fu. destruct (wf_view c Wc) as [ | |b|a|a b]; cbn [fst snd] in *; try easy; mm. }
assert (NE : exists t, t < 0 /\ mem (/ t ^ n) c).
{ assert (K : exists r, mem r c /\ r < 0).
  { destruct (wf_view c Wc) as [ | |b|a|a b]; cbn [fst snd] in *; try easy.
    - exists (-1). split; [mm|lra].
    - exists (Rmin (B2R b) (-1)). split; [|pose proof (Rmin_r (B2R b) (-1)); lra]. split; cbn [fst snd]; [easy|rewrite ub_fin by easy; apply Rmin_l].
    - exists (B2R a). hcmp. split; [mm|lra].
    - exists (B2R a). hcmp. split; [mm|lra]. }
  destruct K as (r & Hr & L). exists (/ root r). split; [now apply Rinv_lt_0_compat, root_neg|]. rewrite rho_inv; [easy|now right]. }
split; [|split; [|split]].
- intros t1 t2 t [[H1 M1]|[H1 M1]] [[H2 M2]|[H2 M2]] [L1 L2]; try (right; split; [lra|easy]).
  + left. split; [lra|]. split; [apply lb_mono with (/ t2 ^ n); [apply M2|]|apply ub_mono with (/ t1 ^ n); [apply M1|]]; apply inv_mono; try lra; right; (split; [easy|split; lra]).
  + destruct (Rle_lt_or_eq_dec t t2 L2) as [L|L]; [left|right; split; [lra|easy]]. split; [lra|].
    split; [now rewrite M2|apply ub_mono with (/ t1 ^ n); [apply M1|]; apply inv_mono; try lra; right; (split; [easy|split; lra])].
- destruct NE as [t Ht]. exists t. now left.
- cbn [fst snd]. destruct HL as [(E & -> & ->)|(Fu & Pu & R & X)].
  + apply lo_unb. intros B. destruct NE as (t0 & P0 & M0). exists (Rmin (B - 1) t0).
    pose proof (Rmin_l (B - 1) t0). pose proof (Rmin_r (B - 1) t0). split; [|lra]. left. split; [lra|].
    split; [apply lb_mono with (/ t0 ^ n); [apply M0|]; apply inv_mono; [right; split; [easy|]|]; lra|].
    assert (K : / Rmin (B - 1) t0 ^ n < 0) by (apply neg_inv; [easy|lra]).
    destruct (wf_view c Wc) as [ | |b|a|a b]; cbn [fst snd] in *; try easy; hcmp; rewrite ub_fin by easy; lra.
  + apply (lo_fin _ (snd c)); [now right| | |easy|easy].
    * left. split; [now apply Rinv_lt_0_compat, root_neg|]. rewrite rho_inv by now right. auto.
    * assert (/ root (B2R (snd c)) < 0) by now apply Rinv_lt_0_compat, root_neg.
      intros s [[H' [_ M]]|[-> K]]; [|lra]. rewrite ub_fin in M by easy. apply side_le; [now right|easy].
- cbn [fst snd]. destruct HU as [(E & Fl & Zl & ->)|(Fu & Pu & R & X)].
  + apply up_zero; [now right|easy|easy|easy].
  + apply (up_fin _ (fst c)); [now right| | |easy|easy].
    * left. split; [now apply Rinv_lt_0_compat, root_neg|]. rewrite rho_inv by now right. auto.
    * intros s [[H [M _]]|[_ K]]; [|rewrite K in Fu; easy]. rewrite lb_fin in M by easy. apply side_ge; [now right|easy].
Qed.

(** ** The bounds *)
Context (NP : Zneg q <> int_min).
Lemma inf_pinf : exists l, is_finite l = true /\ B2R l = 0 /\ forall j, pown_rev_inf j finf p = ret (l, false).
Proof.
destruct (rdiv_inf_r mode_DN (@f1 F) finf is_finite_f1 eq_refl) as [D1 D2]. exists (rdiv mode_DN f1 finf). split; [easy|]. split; [easy|].
intros j. unfold pown_rev_inf. rewrite (proj2 (Z.eqb_neq _ _) NP).
replace (mpfr_root mode_UP (@finf F) (- p)) with (@finf F) by reflexivity.
unfold div_inexact, root_inexact. cbn [is_finite finf andb]. rewrite andb_false_r. cbn [orb negb andb]. now rewrite orb_true_r.
Qed.
Lemma sup_minf : oddq q -> exists l, is_finite l = true /\ B2R l = 0 /\ forall j, pown_rev_sup j fminf p = ret (l, false).
Proof.
intros O. destruct (rdiv_inf_r mode_UP (@f1 F) fminf is_finite_f1 eq_refl) as [D1 D2]. exists (rdiv mode_UP f1 fminf). split; [easy|]. split; [easy|].
intros j. unfold pown_rev_sup. rewrite (proj2 (Z.eqb_neq _ _) NP). change (- p)%Z with (Zpos q).
replace (mpfr_root mode_DN (@fminf F) (Zpos q)) with (@fminf F) by (unfold mpfr_root, fminf; now rewrite O).
unfold div_inexact, root_inexact. cbn [is_finite fminf andb]. rewrite andb_false_r. cbn [orb negb andb]. now rewrite orb_true_r.
Qed.
Lemma sup_zero j : pown_rev_sup j (@f0 F) p = ret (finf, false).
Proof.
unfold pown_rev_sup. rewrite (proj2 (Z.eqb_neq _ _) NP).
replace (mpfr_root mode_DN (@f0 F) (- p)) with (@f0 F) by reflexivity.
rewrite f1_div_f0. unfold div_inexact, root_inexact, inexact. rewrite is_finite_f1. cbn [is_finite f0 andb].
rewrite (feq_fin (@f0 F) f0) by easy. change (B2R (@f0 F)) with 0. change (B2R (B754_zero false : float F)) with 0. change (- p)%Z with (Zpos q). rewrite root_0, Req_bool_true by easy. cbn [andb negb orb].
now rewrite orb_true_r.
Qed.
(** Lower bound of the positive solutions. *)
Lemma inf_pos cu : cu = finf \/ (is_finite cu = true /\ 0 < B2R cu) -> exists l tl k, (forall j, (k <= j)%nat -> pown_rev_inf j cu p = ret (l, tl)) /\
  ((cu = finf /\ is_finite l = true /\ B2R l = 0 /\ tl = false) \/
   (is_finite cu = true /\ 0 < B2R cu /\ lo_res q cu (l, tl) /\ lo_ex q cu (l, tl))).
Proof.
intros [->|[Fc Pc]].
- destruct inf_pinf as (l & H1 & H2 & H3). exists l, false, 0%nat. split; [auto|]. now left.
- destruct (pown_rev_inf_exact q cu Fc (or_introl Pc) NP) as ([l tl] & k & H1 & H2 & H3). exists l, tl, k. split; [easy|]. now right.
Qed.
Lemma sup_neg cl : oddq q -> cl = fminf \/ (is_finite cl = true /\ B2R cl < 0) -> exists u tu k, (forall j, (k <= j)%nat -> pown_rev_sup j cl p = ret (u, tu)) /\
  ((cl = fminf /\ is_finite u = true /\ B2R u = 0 /\ tu = false) \/
   (is_finite cl = true /\ B2R cl < 0 /\ up_res q cl (u, tu) /\ up_ex q cl (u, tu))).
Proof.
intros O [->|[Fc Pc]].
- destruct (sup_minf O) as (l & H1 & H2 & H3). exists l, false, 0%nat. split; [auto|]. now left.
- destruct (pown_rev_sup_exact q cl Fc (or_intror (conj O Pc)) NP) as ([l tl] & k & H1 & H2 & H3). exists l, tl, k. split; [easy|]. now right.
Qed.

Definition settles_tight (f : nat -> M (itv F)) (S : R -> Prop) : Prop :=
  exists z k, (forall j, (k <= j)%nat -> f j = ret z) /\ tightest S z.

Lemma hull_l_tight z1 z2 x (S1 S2 S : R -> Prop) : wf x -> wf z1 -> wf z2 ->
  (forall y : itv F, wf y -> (forall r, mem r y <-> mem r z1 /\ mem r x) -> tightest S1 y) ->
  (forall y : itv F, wf y -> (forall r, mem r y <-> mem r z2 /\ mem r x) -> tightest S2 y) ->
  (forall r, S r <-> S1 r \/ S2 r) -> exists z, hull_of_l x z1 z2 = ret z /\ tightest S z.
Proof.
intros Wx W1 W2 H1 H2 H. unfold hull_of_l.
destruct (intersection_exact x z1 Wx W1) as (i & -> & Wi & Ei).
destruct (intersection_exact x z2 Wx W2) as (j & -> & Wj & Ej). mreds.
destruct (hull_union i j S1 S2 S) as (w & Hw & Tw); [apply H1; [easy|intros r; rewrite Ei; tauto]|apply H2; [easy|intros r; rewrite Ej; tauto]|easy|].
exists w. split; [now apply returns_eq|easy].
Qed.

Lemma neg_even_tight c x : wf c -> wf x -> isnan (fst c) = false -> Z.even p = true ->
  settles_tight (fun fuel => if fle (snd c) f0 then ret empty else
       bind (pown_rev_sup fuel (if fle (fst c) f0 then f0 else fst c) p) (fun u : float F * bool =>
       bind (pown_rev_inf fuel (snd c) p) (fun l : float F * bool =>
       even_rev (fst l) (fst u) (snd l) (snd u) x)))
    (fun t => mem t x /\ ((t <> 0 /\ mem (/ t ^ n) c) \/ (t = 0 /\ snd c = finf))).
Proof.
intros Wc Wx Nc Ev. destruct (even_pos q Ev) as [k0 Hk].
assert (PA : forall t : R, t ^ n = Rabs t ^ n) by (intros t; rewrite Hk; symmetry; apply pow_even_abs).
assert (PO : forall t : R, (- t) ^ n = t ^ n) by (intros t; rewrite PA, (PA t); now rewrite Rabs_Ropp).
assert (PI : forall t : R, t <> 0 -> 0 < / t ^ n).
{ intros t Nt. rewrite PA. apply Rinv_0_lt_compat, pow_lt. now apply Rabs_pos_lt. }
destruct (fle (snd c) f0) eqn:Eu.
{ exists empty, 0%nat. split; [easy|]. apply tightest_empty. intros t (_ & [[D [_ H]]|[_ H]]).
  - specialize (PI t D). destruct (wf_view c Wc) as [ | |b|a|a b]; cbn [fst snd] in *; try easy; hcmp; rewrite ub_fin in H by easy; lra.
  - now rewrite H in Eu. }
assert (HU : exists u tu k, (forall j, (k <= j)%nat -> pown_rev_sup j (if fle (fst c) f0 then f0 else fst c) p = ret (u, tu)) /\
  ((fle (fst c) f0 = true /\ u = finf /\ tu = false) \/
   (is_finite (fst c) = true /\ 0 < B2R (fst c) /\ up_res q (fst c) (u, tu) /\ up_ex q (fst c) (u, tu)))).
{ destruct (fle (fst c) f0) eqn:El.
  - exists finf, false, 0%nat. split; [intros j _; apply sup_zero|]. now left.
  - assert (K : is_finite (fst c) = true /\ 0 < B2R (fst c)).
    { destruct (wf_view c Wc) as [ | |b|a|a b]; cbn [fst snd] in *; try easy; hcmp; (split; [easy|lra]). }
    destruct K as [Fc Pc]. destruct (pown_rev_sup_exact q (fst c) Fc (or_introl Pc) NP) as ([u tu] & k & H1 & H2 & H3).
    exists u, tu, k. split; [easy|]. now right. }
assert (HC : snd c = finf \/ (is_finite (snd c) = true /\ 0 < B2R (snd c))).
{ destruct (wf_view c Wc) as [ | |b|a|a b]; cbn [fst snd] in *; try easy; try (now left); right; hcmp; (split; [easy|lra]). }
destruct HU as (u & tu & k1 & R1 & HU). destruct (inf_pos (snd c) HC) as (l & tl & k2 & R2 & HL).
pose proof (pos_branch c l u tl tu Wc Nc Eu HU HL) as HB.
destruct (even_rev_tight (POS c) l u tl tu x HB Wx) as (z & Hz & Tz). apply returns_eq in Hz.
exists z, (Nat.max k1 k2). split.
- intros j Hj. rewrite R1 by lia. mreds. rewrite R2 by lia. mreds. exact Hz.
- revert Tz. apply tightest_ext. intros t. unfold POS. rewrite PO. split.
  + intros [[[[H1 H2]|[H1 H2]]|[[H1 H2]|[H1 H2]]] H3]; (split; [easy|]); [left|right|left|right]; (split; [lra|easy]).
  + intros [H3 [[H1 H2]|[-> H2]]]; (split; [|easy]); [|left; right; now split].
    destruct (Rdichotomy _ _ H1); [right; left|left; left]; (split; [lra|easy]).
Qed.
Lemma neg_odd_tight c x : wf c -> wf x -> isnan (fst c) = false -> Z.even p = false ->
  settles_tight (fun fuel => 
       if feq (fst c) f0 && feq (snd c) f0 then ret empty else
       if fge (fst c) f0 || fle (snd c) f0 then
         bind (if fne (fst c) f0 then pown_rev_sup fuel (fst c) p else ret (finf, false)) (fun u : float F * bool =>
         bind (if fne (snd c) f0 then pown_rev_inf fuel (snd c) p else ret (fminf, false)) (fun l : float F * bool =>
         intersection x (trim (fst l, fst u) (snd l) (snd u) x)))
       else
         bind (pown_rev_sup fuel (fst c) p) (fun u : float F * bool =>
         bind (pown_rev_inf fuel (snd c) p) (fun l : float F * bool =>
         hull_of_l x (trim (fminf, fst u) false (snd u) x) (trim (fst l, finf) (snd l) false x))))
    (fun t => mem t x /\ ((t <> 0 /\ mem (/ t ^ n) c) \/ (t = 0 /\ (snd c = finf \/ fst c = fminf)))).
Proof.
intros Wc Wx Nc O. assert (Oq : oddq q) by exact O.
assert (SG : forall t, t <> 0 -> same_sign q t (/ t ^ n)) by (intros t Nt; apply inv_sign; auto).
destruct (feq (fst c) f0 && feq (snd c) f0) eqn:E0.
{ exists empty, 0%nat. split; [easy|]. apply tightest_empty. apply andb_prop in E0. destruct E0 as [E1 E2].
  intros t (_ & [[D [H1 H2]]|[_ [H|H]]]); [|rewrite H in E2; easy|rewrite H in E1; easy].
  specialize (SG t D).
  destruct (wf_view c Wc) as [ | |b|a|a b]; cbn [fst snd] in *; try easy.
  revert E1 E2. fcmp. repeat rcase; try easy. intros _ _. rewrite lb_fin in H1 by easy. rewrite ub_fin in H2 by easy. simpl (B2R f0) in *.
  destruct SG as [[_ S]|(_ & _ & S)]; lra. }
destruct (fge (fst c) f0 || fle (snd c) f0) eqn:E1.
- destruct (fle (snd c) f0) eqn:E2.
  + (* c below zero *)
    assert (K : fle f0 (fst c) = false /\ (fst c = fminf \/ (is_finite (fst c) = true /\ B2R (fst c) < 0)) /\ is_finite (snd c) = true /\ B2R (snd c) <= 0).
    { destruct (wf_view c Wc) as [ | |b|a|a b]; cbn [fst snd] in *; try easy.
      - split; [reflexivity|]. hcmp. split; [now left|easy].
      - revert E0 E2. fcmp. repeat rcase; try easy; intros; rewrite ?B2R_f0 in *; try lra; (split; [easy|]); (split; [right; split; [easy|lra]|split; [easy|lra]]). }
    destruct K as (K1 & K2 & K3 & K4).
    assert (Q1 : fne (fst c) f0 = true).
    { destruct K2 as [->|[K2 K2']]; [reflexivity|]. unfold fne. change (Beqb (fst c) f0) with (feq (fst c) f0). rewrite feq_fin, Req_bool_false by (easy || rewrite B2R_f0; lra). easy. }
    rewrite Q1. destruct (sup_neg (fst c) Oq K2) as (u & tu & k1 & R1 & HU).
    assert (HL : exists l tl k, (forall j, (k <= j)%nat -> (if fne (snd c) f0 then pown_rev_inf j (snd c) p else ret (fminf, false)) = ret (l, tl)) /\
      ((fle f0 (snd c) = true /\ l = fminf /\ tl = false) \/
       (is_finite (snd c) = true /\ B2R (snd c) < 0 /\ lo_res q (snd c) (l, tl) /\ lo_ex q (snd c) (l, tl)))).
    { unfold fne. change (Beqb (snd c) f0) with (feq (snd c) f0). rewrite feq_fin, B2R_f0 by easy. case Req_bool_spec; intros Z; cbn [negb].
      - exists fminf, false, 0%nat. split; [easy|]. left. split; [|easy]. rewrite fle_fin, B2R_f0 by easy. apply Rle_bool_true. lra.
      - assert (Pc : B2R (snd c) < 0) by lra.
        destruct (pown_rev_inf_exact q (snd c) K3 (or_intror (conj Oq Pc)) NP) as ([l tl] & k & H1 & H2 & H3). exists l, tl, k. split; [easy|]. now right. }
    destruct HL as (l & tl & k2 & R2 & HL).
    pose proof (neg_branch c l u tl tu Oq Wc Nc K1 HL HU) as HB.
    destruct (trim_encloses _ _ _ _ _ x HB Wx) as [Wt _].
    destruct (intersection_exact x _ Wx Wt) as (y & Hy & Wy & Ey).
    exists y, (Nat.max k1 k2). split; [intros j Hj; rewrite R1 by lia; mreds; rewrite R2 by lia; mreds; exact Hy|].
    assert (T : tightest (fun r => NEG c r /\ mem r x) y).
    { apply (trim_tight True) with (2 := HB); [now left|easy|easy|]. intros r. rewrite Ey. tauto. }
    revert T. apply tightest_ext. intros t. unfold NEG. split.
    * intros [[[H1 H2]|[H1 H2]] H3]; (split; [easy|]); [left|right]; (split; [lra|auto]).
    * intros [H3 [[H1 H2]|[H1 H2]]]; (split; [|easy]).
      -- left. split; [|easy]. specialize (SG t H1). destruct SG as [[_ S]|(_ & S & _)]; [|easy]. destruct H2 as [_ H2]. rewrite ub_fin in H2 by easy. lra.
      -- right. split; [easy|]. destruct H2 as [H2|H2]; [rewrite H2 in K3; easy|easy].
  + rewrite orb_false_r in E1.
    assert (K : is_finite (fst c) = true /\ 0 <= B2R (fst c) /\ (snd c = finf \/ (is_finite (snd c) = true /\ 0 < B2R (snd c)))).
    { destruct (wf_view c Wc) as [ | |b|a|a b]; cbn [fst snd] in *; try easy; revert E1 E2; fcmp; repeat rcase; try easy; intros; rewrite ?B2R_f0 in *; (split; [easy|]); (split; [lra|]); [now left|right; split; [easy|lra]]. }
    destruct K as (K1 & K2 & K3).
    assert (Q1 : fne (snd c) f0 = true).
    { destruct K3 as [->|[K3 K3']]; [reflexivity|]. unfold fne. change (Beqb (snd c) f0) with (feq (snd c) f0). rewrite feq_fin, Req_bool_false by (easy || rewrite B2R_f0; lra). easy. }
    rewrite Q1. destruct (inf_pos (snd c) K3) as (l & tl & k2 & R2 & HL).
    assert (HU : exists u tu k, (forall j, (k <= j)%nat -> (if fne (fst c) f0 then pown_rev_sup j (fst c) p else ret (finf, false)) = ret (u, tu)) /\
      ((fle (fst c) f0 = true /\ u = finf /\ tu = false) \/
       (is_finite (fst c) = true /\ 0 < B2R (fst c) /\ up_res q (fst c) (u, tu) /\ up_ex q (fst c) (u, tu)))).
    { unfold fne. change (Beqb (fst c) f0) with (feq (fst c) f0). rewrite feq_fin, B2R_f0 by easy. case Req_bool_spec; intros Z; cbn [negb].
      - exists finf, false, 0%nat. split; [easy|]. left. split; [|easy]. rewrite fle_fin, B2R_f0 by easy. apply Rle_bool_true. lra.
      - assert (Pc : 0 < B2R (fst c)) by lra.
        destruct (pown_rev_sup_exact q (fst c) K1 (or_introl Pc) NP) as ([u tu] & k & H1 & H2 & H3). exists u, tu, k. split; [easy|]. now right. }
    destruct HU as (u & tu & k1 & R1 & HU).
    pose proof (pos_branch c l u tl tu Wc Nc E2 HU HL) as HB.
    destruct (trim_encloses _ _ _ _ _ x HB Wx) as [Wt _].
    destruct (intersection_exact x _ Wx Wt) as (y & Hy & Wy & Ey).
    exists y, (Nat.max k1 k2). split; [intros j Hj; rewrite R1 by lia; mreds; rewrite R2 by lia; mreds; exact Hy|].
    assert (T : tightest (fun r => POS c r /\ mem r x) y).
    { apply (trim_tight True) with (2 := HB); [now left|easy|easy|]. intros r. rewrite Ey. tauto. }
    revert T. apply tightest_ext. intros t. unfold POS. split.
    * intros [[[H1 H2]|[H1 H2]] H3]; (split; [easy|]); [left|right]; (split; [lra|auto]).
    * intros [H3 [[H1 H2]|[H1 H2]]]; (split; [|easy]).
      -- left. split; [|easy]. specialize (SG t H1). destruct SG as [[S _]|(_ & _ & S)]; [easy|]. destruct H2 as [H2 _]. rewrite lb_fin in H2 by easy. lra.
      -- right. split; [easy|]. destruct H2 as [H2|H2]; [easy|rewrite H2 in K1; easy].
- (* two branches *)
  apply orb_false_iff in E1. destruct E1 as [E1 E2].
  assert (K : (fst c = fminf \/ (is_finite (fst c) = true /\ B2R (fst c) < 0)) /\ (snd c = finf \/ (is_finite (snd c) = true /\ 0 < B2R (snd c)))).
  { destruct (wf_view c Wc) as [ | |b|a|a b]; cbn [fst snd] in *; try easy; revert E1 E2; fcmp; repeat rcase; intros; try easy; simpl (B2R f0) in *;
    (split; [first [now left|right; now split]|first [now left|right; now split]]). }
  destruct K as [K1 K2].
  destruct (sup_neg (fst c) Oq K1) as (u & tu & k1 & R1 & HU). destruct (inf_pos (snd c) K2) as (l & tl & k2 & R2 & HL).
  assert (E1' : fle f0 (fst c) = false) by exact E1.
  assert (L1 : fle (fst c) f0 = true).
  { destruct K1 as [->|[K1 K1']]; [reflexivity|]. rewrite fle_fin, B2R_f0 by easy. apply Rle_bool_true. lra. }
  assert (L2 : fle f0 (snd c) = true).
  { destruct K2 as [->|[K2 K2']]; [reflexivity|]. rewrite fle_fin, B2R_f0 by easy. apply Rle_bool_true. lra. }
  assert (HB1 : branch True (NEG c) (fminf, u) false tu) by (apply neg_branch; auto).
  assert (HB2 : branch True (POS c) (l, finf) tl false) by (apply pos_branch; auto).
  destruct (trim_encloses _ _ _ _ _ x HB1 Wx) as [W1 _]. destruct (trim_encloses _ _ _ _ _ x HB2 Wx) as [W2 _].
  destruct (hull_l_tight _ _ x (fun r => NEG c r /\ mem r x) (fun r => POS c r /\ mem r x)
    (fun t => mem t x /\ ((t <> 0 /\ mem (/ t ^ n) c) \/ (t = 0 /\ (snd c = finf \/ fst c = fminf)))) Wx W1 W2) as (z & Hz & Tz).
  + intros y Wy Ey. apply (trim_tight True) with (2 := HB1); auto.
  + intros y Wy Ey. apply (trim_tight True) with (2 := HB2); auto.
  + intros t. unfold NEG, POS. split.
    * intros [H3 [[H1 H2]|[H1 [H2|H2]]]]; [|tauto|tauto]. destruct (Rdichotomy _ _ H1); [left|right]; (split; [left|]; easy).
    * intros [[[[H1 H2]|[H1 H2]] H3]|[[[H1 H2]|[H1 H2]] H3]]; (split; [easy|]); first [left; split; [lra|easy]|right; tauto].
  + exists z, (Nat.max k1 k2). split; [intros j Hj; rewrite R1 by lia; mreds; rewrite R2 by lia; mreds; exact Hz|easy].
Qed.
End N.
