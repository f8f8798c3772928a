(** * Proofs: reverse integer power encloses all preimages *)
From Coq Require Import ZArith NArith Reals Bool Lia Lra Psatz List.
From Flocq Require Import Core.Core Calc.Operations IEEE754.BinarySingleNaN.
From Verif Require Import Fmt Spec SpecElem FloatFacts Exc Deco SpecApi MBase PBase MBool MArith PArith PMul PFma PDiv PUnary
  PConv PBool PSetop PDec MNum PNumF PCancel MElem PElem MPow PPown MRev SpecRev PRev PMulRev PRevEven PPownRev PPownRev2.

Local Open Scope R_scope.

Section C.
Context {F : fmt}.
Implicit Types x z c : itv F.
Lemma trim_cover (I : R -> Prop) z tl tu x : (forall r, I r -> mem r z) -> wf z ->
  (tl = true -> is_finite (fst z) = true -> ~ I (B2R (fst z))) ->
  (tu = true -> is_finite (snd z) = true -> ~ I (B2R (snd z))) ->
  wf (trim z tl tu x) /\ forall r, I r -> mem r x -> mem r (trim z tl tu x).
Proof.
intros Hz Wz L U. unfold trim. destruct (feq (snd z) (fst x) && tu) eqn:E1; cbn [orb].
- split; [now left|]. intros r Ir [Ml _]. exfalso. apply andb_prop in E1. destruct E1 as [E1 ->].
  destruct (Hz r Ir) as [_ Zu].
  assert (Fz : is_finite (snd z) = true).
  { destruct (fviewP (snd z)) as [ | | |v Fv]; try easy. destruct (fviewP (fst x)) as [ | | |v Fv]; try easy. now rewrite feq_pinf_l in E1. }
  destruct (feq_fin_l _ _ Fz E1) as [Fx Ex]. rewrite lb_fin in Ml by easy. rewrite ub_fin in Zu by easy.
  apply (U eq_refl Fz). now replace (B2R (snd z)) with r by lra.
- destruct (feq (snd x) (fst z) && tl) eqn:E2.
  + split; [now left|]. intros r Ir [_ Mu]. exfalso. apply andb_prop in E2. destruct E2 as [E2 ->].
    destruct (Hz r Ir) as [Zl _].
    assert (Fx : is_finite (snd x) = true).
    { destruct (fviewP (snd x)) as [ | | |v Fv]; try easy. destruct (fviewP (fst z)) as [ | | |v Fv]; try easy. now rewrite feq_pinf_l in E2. }
    destruct (feq_fin_l _ _ Fx E2) as [Fz Ez]. rewrite ub_fin in Mu by easy. rewrite lb_fin in Zl by easy.
    apply (L eq_refl Fz). now replace (B2R (fst z)) with r by lra.
  + split; [easy|]. auto.
Qed.
Lemma hull_l_encl x z1 z2 (S : R -> Prop) : wf x -> wf z1 -> wf z2 ->
  (forall r, S r -> mem r x /\ (mem r z1 \/ mem r z2)) -> exists z, hull_of_l x z1 z2 = ret z /\ wf z /\ encloses S z.
Proof.
intros Wx W1 W2 H. unfold hull_of_l.
destruct (intersection_exact x z1 Wx W1) as (i & -> & Wi & Ei).
destruct (intersection_exact x z2 Wx W2) as (j & -> & Wj & Ej). mreds.
destruct (hull_tightest i j Wi Wj) as (w & Hw & Ww & Ew & _).
exists w. apply returns_eq in Hw. split; [easy|]. split; [easy|]. intros r Sr. apply Ew. destruct (H r Sr) as [Mx [M|M]].
- left. now apply Ei.
- right. now apply Ej.
Qed.
Lemma inter_encl x z (S : R -> Prop) : wf x -> wf z -> (forall r, S r -> mem r x /\ mem r z) ->
  exists y, intersection x z = ret y /\ wf y /\ encloses S y.
Proof.
intros Wx Wz H. destruct (intersection_exact x z Wx Wz) as (i & -> & Wi & Ei). exists i. split; [easy|]. split; [easy|].
intros r Sr. now apply Ei, H.
Qed.

(** What is to be shown: the result does not depend on the fuel once that is large. *)
Definition settles (f : nat -> M (itv F)) (S : R -> Prop) : Prop :=
  exists z k, (forall j, (k <= j)%nat -> f j = ret z) /\ wf z /\ encloses S z.
Lemma settles_const (m : M (itv F)) S : (exists z, m = ret z /\ wf z /\ encloses S z) -> settles (fun _ => m) S.
Proof. intros (z & E & H). exists z, 0%nat. split; [now intros; rewrite E|easy]. Qed.
Lemma settles_empty (S : R -> Prop) : (forall t, ~ S t) -> settles (fun _ => ret empty) S.
Proof. intros H. apply settles_const. exists empty. split; [easy|]. split; [now left|]. intros r Sr. now apply H in Sr. Qed.

Section Pos.
Context (q : BinNums.positive).
Notation n := (Pos.to_nat q).
Lemma pown_rev_pos_odd c x : wf c -> wf x -> isnan (fst c) = false -> Z.even (Zpos q) = false ->
  settles (fun _ => intersection x (mpfr_root mode_DN (fst c) (Zpos q), mpfr_root mode_UP (snd c) (Zpos q)))
    (preimage (pown_dom (Zpos q)) (pownR (Zpos q)) c x).
Proof.
intros Wc Wx Nc O. apply settles_const.
assert (K : forall t, mem (t ^ n) c -> mem t (mpfr_root mode_DN (fst c) (Zpos q), mpfr_root mode_UP (snd c) (Zpos q))).
{ intros t [L U]. split; cbn [fst snd].
  - apply root_lb; try easy; now left.
  - apply root_ub; try easy; try (now left). now apply wf_nan_r. }
apply inter_encl; [easy| |].
- right. assert (NE : exists r, mem r c) by (destruct Wc as [->|Wc]; easy). destruct NE as [r Hr].
  exists (rootR (Zpos q) r). apply K. destruct (Req_dec r 0) as [->|N].
  + rewrite root_0, pow_i by apply n_pos. easy.
  + rewrite root_pow; [easy|]. destruct (Rdichotomy _ _ N); [right|left]; easy.
- intros r (H1 & _ & H2). split; [easy|]. apply K. exact H2.
Qed.
Lemma pown_rev_pos_even c x : wf c -> wf x -> isnan (fst c) = false -> Z.even (Zpos q) = true ->
  settles (fun _ => if flt (snd c) f0 then ret empty else
       let u := mpfr_root mode_UP (snd c) (Zpos q) in
       if fle (fst c) f0 then intersection x (fneg u, u) else
       let l := mpfr_root mode_DN (fst c) (Zpos q) in
       hull_of_l x (fneg u, fneg l) (l, u))
    (preimage (pown_dom (Zpos q)) (pownR (Zpos q)) c x).
Proof.
intros Wc Wx Nc Ev. destruct (even_pos q Ev) as [k Hk].
assert (PP : forall t : R, t ^ n = Rabs t ^ n) by (intros t; rewrite Hk; symmetry; apply pow_even_abs).
pose proof (wf_nan_r c Wc Nc) as Nu.
destruct (flt (snd c) f0) eqn:Eu.
{ apply settles_empty. intros t (_ & _ & H). destruct H as [_ H].
  assert (0 <= pownR (Zpos q) t) by (unfold pownR; simpl; rewrite PP; apply pow_le, Rabs_pos).
  destruct (wf_view c Wc) as [ | |b|a|a b]; cbn [fst snd] in *; try easy; hcmp; rewrite ub_fin in H by easy; lra. }
assert (Cu : fle f0 (snd c) = true).
{ destruct (wf_view c Wc) as [ | |b|a|a b]; cbn [fst snd] in *; try easy; revert Eu; fcmp; repeat rcase; try easy; lra. }
apply settles_const. cbv zeta.
assert (UB : forall t, mem (t ^ n) c -> ub (mpfr_root mode_UP (snd c) (Zpos q)) (Rabs t)).
{ intros t [_ U]. rewrite PP in U. apply root_ub; auto using Rabs_pos. }
set (u := mpfr_root mode_UP (snd c) (Zpos q)) in *.
assert (NE : exists t, mem (t ^ n) c).
{ assert (K : exists r, mem r c /\ 0 <= r).
  { destruct (wf_view c Wc) as [ | |b|a|a b]; cbn [fst snd] in *; try easy.
    - exists 0. split; [mm|lra].
    - exists (B2R b). hcmp. split; [mm|lra].
    - exists (Rmax (B2R a) 0). split; [|apply Rmax_r]. split; cbn [fst snd]; [rewrite lb_fin by easy; apply Rmax_l|easy].
    - exists (B2R b). hcmp. split; [mm|lra]. }
  destruct K as (r & Hr & [L|<-]).
  - exists (rootR (Zpos q) r). rewrite root_pow; [easy|now left].
  - exists 0. rewrite pow_i by apply n_pos. easy. }
destruct NE as [t0 Ht0].
destruct (fle (fst c) f0) eqn:El.
- assert (K : forall t, mem (t ^ n) c -> mem t (fneg u, u)).
  { intros t Ht. specialize (UB t Ht). split; cbn [fst snd].
    - apply lb_fneg. apply ub_mono with (Rabs t); [easy|]. rewrite <- Rabs_Ropp. apply Rle_abs.
    - apply ub_mono with (Rabs t); [easy|]. apply Rle_abs. }
  apply inter_encl; [easy|right; exists t0; now apply K|]. intros r (H1 & _ & H2). split; [easy|]. now apply K.
- assert (Cl : fle f0 (fst c) = true).
  { destruct (wf_view c Wc) as [ | |b|a|a b]; cbn [fst snd] in *; try easy; revert El; fcmp; repeat rcase; try easy; lra. }
  assert (LB : forall t, mem (t ^ n) c -> lb (mpfr_root mode_DN (fst c) (Zpos q)) (Rabs t)).
  { intros t [L _]. rewrite PP in L. apply root_lb; auto using Rabs_pos. }
  set (l := mpfr_root mode_DN (fst c) (Zpos q)) in *.
  assert (K : forall t, mem (t ^ n) c -> mem (Rabs t) (l, u)) by (intros t Ht; split; cbn [fst snd]; auto).
  assert (Kn : forall t, mem (t ^ n) c -> mem (- Rabs t) (fneg u, fneg l)).
  { intros t Ht. apply mem_neg. rewrite Ropp_involutive. auto. }
  apply hull_l_encl; [easy|right; exists (- Rabs t0); auto|right; exists (Rabs t0); auto|].
  intros r (H1 & _ & H2). split; [easy|]. destruct (Rle_or_lt 0 r) as [L|L].
  + right. specialize (K r H2). now rewrite Rabs_pos_eq in K.
  + left. specialize (Kn r H2). now rewrite Rabs_left, Ropp_involutive in Kn.
Qed.
End Pos.

Section Neg.
Context (q : BinNums.positive) (NP : Zneg q <> int_min).
Notation n := (Pos.to_nat q).
Notation p := (Zneg q).
Lemma neg_ext (m m' : nat -> M (itv F)) (S : R -> Prop) : (forall j, m j = m' j) -> settles m S -> settles m' S.
Proof. intros E (z & k & H & H'). exists z, k. split; [|easy]. intros j Hj. rewrite <- E. auto. Qed.

Lemma pown_rev_neg_even c x : wf c -> wf x -> isnan (fst c) = false -> Z.even p = true ->
  settles (fun fuel => if fle (snd c) f0 then ret empty else
       bind (pown_rev_sup fuel (if fle (fst c) f0 then f0 else fst c) p) (fun u =>
       bind (pown_rev_inf fuel (snd c) p) (fun l =>
       even_rev (fst l) (fst u) (snd l) (snd u) x)))
    (preimage (pown_dom p) (pownR p) c x).
Proof.
intros Wc Wx Nc Ev. destruct (even_pos q Ev) as [k0 Hk].
assert (PP : forall t : R, t ^ n = Rabs t ^ n) by (intros t; rewrite Hk; symmetry; apply pow_even_abs).
assert (PI : forall t : R, t <> 0 -> 0 < / t ^ n).
{ intros t Nt. rewrite PP. apply Rinv_0_lt_compat, pow_lt. now apply Rabs_pos_lt. }
destruct (fle (snd c) f0) eqn:Eu.
{ apply settles_empty. intros t (_ & D & H). destruct H as [_ H]. specialize (PI t (D eq_refl)). change (pownR p t) with (/ t ^ n) in H.
  destruct (wf_view c Wc) as [ | |b|a|a b]; cbn [fst snd] in *; try easy; hcmp; rewrite ub_fin in H by easy; lra. }
set (cl := if fle (fst c) f0 then f0 else fst c).
assert (Hcl : cl = f0 \/ (cl = fminf /\ oddq q) \/ (is_finite cl = true /\ adm q (B2R cl))).
{ unfold cl. destruct (fle (fst c) f0) eqn:El; [now left|]. right. right.
  destruct (wf_view c Wc) as [ | |b|a|a b]; cbn [fst snd] in *; try easy; hcmp; (split; [easy|left; lra]). }
assert (Hcu : snd c = finf \/ (is_finite (snd c) = true /\ adm q (B2R (snd c)))).
{ destruct (wf_view c Wc) as [ | |b|a|a b]; cbn [fst snd] in *; try easy; try (now left); right; hcmp; (split; [easy|left; lra]). }
destruct (sup_bound q cl NP Hcl) as (u & tu & k1 & R1 & B1). destruct (inf_bound q (snd c) NP Hcu) as (l & tl & k2 & R2 & B2).
set (I := fun t => 0 < t /\ mem (/ t ^ n) c).
assert (BU : forall t, I t -> ub u t /\ (tu = true -> is_finite u = true -> t < B2R u)).
{ intros t [Pt [Ml _]]. apply B1; [lra| |easy|].
  - left. split; [easy|]. right. unfold cl. destruct (wf_view c Wc) as [ | |b|a|a b]; cbn [fst snd] in *; try easy; fcmp; repeat rcase; simpl (is_finite f0); simpl (B2R f0) in *; split; try easy; lra.
  - unfold cl. destruct (fle (fst c) f0); [|easy]. rewrite lb_fin by easy. simpl. apply Rlt_le, PI. lra. }
assert (BL : forall t, I t -> lb l t /\ (tl = true -> is_finite l = true -> B2R l < t)).
{ intros t [Pt [_ Mu]]. apply B2; [lra| |easy]. left. split; [easy|].
  destruct (wf_view c Wc) as [ | |b|a|a b]; cbn [fst snd] in *; try easy; try (now left); right; hcmp; split; try easy; lra. }
assert (NE : exists t, I t).
{ assert (K : exists r, mem r c /\ 0 < r).
  { destruct (wf_view c Wc) as [ | |b|a|a b]; cbn [fst snd] in *; try easy.
    - exists 1. split; [mm|lra].
    - exists (B2R b). hcmp. split; [mm|lra].
    - exists (Rmax (B2R a) 1). split; [|pose proof (Rmax_r (B2R a) 1); lra]. split; cbn [fst snd]; [rewrite lb_fin by easy; apply Rmax_l|easy].
    - exists (B2R b). hcmp. split; [mm|lra]. }
  destruct K as (r & Hr & L). exists (/ rootR (Zpos q) r).
  pose proof (root_pos q r L). split; [now apply Rinv_0_lt_compat|].
  rewrite pow_inv, Rinv_inv, root_pow; [easy|now left]. }
assert (Mz : forall t, I t -> mem t (l, u)) by (intros t It; split; cbn [fst snd]; [now apply BL|now apply BU]).
destruct NE as [t0 I0]. assert (Wz : wf (l, u)) by (right; exists t0; now apply Mz).
destruct (neg_ret (l, u) Wz) as (z' & En & Wn & Mn & Ez). cbn [fst snd] in Ez.
assert (C1 : wf (trim (l, u) tl tu x) /\ forall r, I r -> mem r x -> mem r (trim (l, u) tl tu x)).
{ apply trim_cover; [easy|easy| |]; cbn [fst snd]; intros T Fb Ib.
  - destruct (BL _ Ib) as [_ K]. specialize (K T Fb). lra.
  - destruct (BU _ Ib) as [_ K]. specialize (K T Fb). lra. }
assert (C2 : wf (trim z' tu tl x) /\ forall r, I (- r) -> mem r x -> mem r (trim z' tu tl x)).
{ apply (trim_cover (fun r => I (- r))); [intros r Ir; apply Mn; auto|easy| |]; rewrite Ez; cbn [fst snd]; intros T Fb; rewrite B2R_fneg, Ropp_involutive; rewrite fin_fneg in Fb; intros Ib.
  - destruct (BU _ Ib) as [_ K]. specialize (K T Fb). lra.
  - destruct (BL _ Ib) as [_ K]. specialize (K T Fb). lra. }
destruct C1 as [W1 C1], C2 as [W2 C2].
destruct (hull_of_encl (trim (l, u) tl tu x) (trim z' tu tl x) x (preimage (pown_dom p) (pownR p) c x)) as (z & Hz & Wz' & Ezz); try easy.
{ intros r (Mx & D & Mc). split; [easy|]. specialize (D eq_refl). change (pownR p r) with (/ r ^ n) in Mc.
  destruct (Rdichotomy _ _ D) as [L|L].
  - right. apply C2; [|easy]. split; [lra|]. rewrite PP in *. now rewrite Rabs_Ropp.
  - left. now apply C1. }
apply returns_eq in Hz. exists z, (Nat.max k1 k2). split; [|easy]. intros j Hj.
rewrite R1 by lia. mreds. rewrite R2 by lia. mreds. cbn [fst snd]. unfold even_rev. rewrite En. mreds. exact Hz.
Qed.

Lemma pown_rev_neg_odd c x : wf c -> wf x -> isnan (fst c) = false -> Z.even p = false ->
  settles (fun fuel => 
       if feq (fst c) f0 && feq (snd c) f0 then ret empty else
       if fge (fst c) f0 || fle (snd c) f0 then
         bind (if fne (fst c) f0 then pown_rev_sup fuel (fst c) p else ret (finf, false)) (fun u =>
         bind (if fne (snd c) f0 then pown_rev_inf fuel (snd c) p else ret (fminf, false)) (fun l =>
         intersection x (trim (fst l, fst u) (snd l) (snd u) x)))
       else
         bind (pown_rev_sup fuel (fst c) p) (fun u =>
         bind (pown_rev_inf fuel (snd c) p) (fun l =>
         hull_of_l x (trim (fminf, fst u) false (snd u) x) (trim (fst l, finf) (snd l) false x))))
    (preimage (pown_dom p) (pownR p) c x).
Proof.
intros Wc Wx Nc O. assert (Oq : oddq q) by exact O.
assert (SG : forall t, t <> 0 -> same_sign q t (/ t ^ n)) by (intros t Nt; apply inv_sign; auto).
destruct (feq (fst c) f0 && feq (snd c) f0) eqn:E0.
{ apply settles_empty. intros t (_ & D & [H1 H2]). specialize (SG t (D eq_refl)). change (pownR p t) with (/ t ^ n) in *.
  apply andb_prop in E0. destruct E0 as [E1 E2].
  destruct (wf_view c Wc) as [ | |b|a|a b]; cbn [fst snd] in *; try easy.
  revert E1 E2. fcmp. repeat rcase; try easy. intros _ _. rewrite lb_fin in H1 by easy. rewrite ub_fin in H2 by easy. simpl (B2R f0) in *.
  destruct SG as [[_ S]|(_ & _ & S)]; lra. }
set (I := fun t => t <> 0 /\ mem (/ t ^ n) c).
assert (HU : is_finite (fst c) = true -> B2R (fst c) = 0 -> fne (fst c) f0 = false).
{ intros Ff Z. unfold fne. change (Beqb (fst c) f0) with (feq (fst c) f0). rewrite feq_fin, Req_bool_true; easy. }
assert (Hcl : fne (fst c) f0 = true -> fst c = f0 \/ (fst c = fminf /\ oddq q) \/ (is_finite (fst c) = true /\ adm q (B2R (fst c)))).
{ intros N. right. destruct (wf_view c Wc) as [ | |b|a|a b]; cbn [fst snd] in *; try easy; try (now left); right; (split; [easy|]);
  (destruct (Req_dec (B2R a) 0) as [Z|Z]; [now rewrite HU in N|]); (destruct (Rdichotomy _ _ Z); [right|left]; easy). }
assert (HL : is_finite (snd c) = true -> B2R (snd c) = 0 -> fne (snd c) f0 = false).
{ intros Ff Z. unfold fne. change (Beqb (snd c) f0) with (feq (snd c) f0). rewrite feq_fin, Req_bool_true; easy. }
assert (Hcu : fne (snd c) f0 = true -> snd c = finf \/ (is_finite (snd c) = true /\ adm q (B2R (snd c)))).
{ intros N. destruct (wf_view c Wc) as [ | |b|a|a b]; cbn [fst snd] in *; try easy; try (now left); right; (split; [easy|]);
  (destruct (Req_dec (B2R b) 0) as [Z|Z]; [now rewrite HL in N|]); (destruct (Rdichotomy _ _ Z); [right|left]; easy). }
assert (NI : forall r, mem r c -> r <> 0 -> exists t, I t /\ same_sign q t r).
{ intros r Hr Nr. assert (A : adm q r) by (destruct (Rdichotomy _ _ Nr); [right|left]; easy).
  pose proof (root_nz q r A) as Nz. assert (E : / (/ rootR (Zpos q) r) ^ n = r) by (rewrite pow_inv, Rinv_inv; now apply root_pow).
  exists (/ rootR (Zpos q) r). assert (Nt : / rootR (Zpos q) r <> 0) by now apply Rinv_neq_0_compat.
  split; [split; [easy|now rewrite E]|]. specialize (SG _ Nt). now rewrite E in SG. }
destruct (fge (fst c) f0 || fle (snd c) f0) eqn:E1.
- (* one branch *)
  assert (UU : exists u tu k, (forall j, (k <= j)%nat -> (if fne (fst c) f0 then pown_rev_sup j (fst c) p else ret (finf, false)) = ret (u, tu)) /\
     forall t, I t -> ub u t /\ (tu = true -> is_finite u = true -> t < B2R u)).
  { destruct (fne (fst c) f0) eqn:N; [|exists finf, false, 0%nat; split; [easy|now split]].
    destruct (sup_bound q (fst c) NP (Hcl eq_refl)) as (u & tu & k & R1 & B1). exists u, tu, k. split; [easy|].
    intros t [Nt [Ml Mu]]. apply B1; [easy| | |easy].
    - specialize (SG t Nt). unfold samesgn. destruct (wf_view c Wc) as [ | |b|a|a b]; cbn [fst snd] in *; try easy; rewrite ?lb_fin, ?ub_fin in * by easy.
      + right. split; [easy|]. revert E1. fcmp. repeat rcase; try easy. intros _. simpl (B2R f0) in *.
        destruct SG as [[_ S]|(_ & S & _)]; [lra|]. split; [easy|now left].
      + left. revert E1. fcmp. repeat rcase; try easy. intros _. simpl (B2R f0) in *.
        destruct SG as [[S1 S2]|(_ & S1 & S2)]; [|lra]. split; [easy|]. right. split; [easy|lra].
      + revert E1. fcmp. repeat rcase; try easy; intros _; simpl (B2R f0) in *;
        (destruct SG as [[S1 S2]|(_ & S1 & S2)]; [left|right; split; [easy|]]; (split; [easy|]); right; (split; [easy|lra])).
    - intros E. exfalso. assert (Q : true = false) by (apply HU; now rewrite E). easy. }
  assert (LL : exists l tl k, (forall j, (k <= j)%nat -> (if fne (snd c) f0 then pown_rev_inf j (snd c) p else ret (fminf, false)) = ret (l, tl)) /\
     forall t, I t -> lb l t /\ (tl = true -> is_finite l = true -> B2R l < t)).
  { destruct (fne (snd c) f0) eqn:N; [|exists fminf, false, 0%nat; split; [easy|now split]].
    destruct (inf_bound q (snd c) NP (Hcu eq_refl)) as (l & tl & k & R1 & B1). exists l, tl, k. split; [easy|].
    intros t [Nt [Ml Mu]]. apply B1; [easy| |easy].
    specialize (SG t Nt). unfold samesgn. destruct (wf_view c Wc) as [ | |b|a|a b]; cbn [fst snd] in *; try easy; rewrite ?lb_fin, ?ub_fin in * by easy.
    + right. split; [easy|]. revert E1. fcmp. repeat rcase; try easy. intros _. simpl (B2R f0) in *.
      destruct SG as [[_ S]|(_ & S & _)]; [lra|]. split; [easy|]. right. split; [easy|lra].
    + left. revert E1. fcmp. repeat rcase; try easy. intros _. simpl (B2R f0) in *.
      destruct SG as [[S1 S2]|(_ & S1 & S2)]; [|lra]. split; [easy|]. now left.
    + revert E1. fcmp. repeat rcase; try easy; intros _; simpl (B2R f0) in *;
      (destruct SG as [[S1 S2]|(_ & S1 & S2)]; [left|right; split; [easy|]]; (split; [easy|]); right; (split; [easy|lra])). }
  destruct UU as (u & tu & k1 & R1 & BU), LL as (l & tl & k2 & R2 & BL).
  assert (NE : exists r, mem r c /\ r <> 0).
  { apply nz_member; easy. }
  destruct NE as (r0 & M0 & N0). destruct (NI r0 M0 N0) as (t0 & I0 & _).
  assert (Mz : forall t, I t -> mem t (l, u)) by (intros t It; split; cbn [fst snd]; [now apply BL|now apply BU]).
  assert (Wz : wf (l, u)) by (right; exists t0; now apply Mz).
  assert (C1 : wf (trim (l, u) tl tu x) /\ forall r, I r -> mem r x -> mem r (trim (l, u) tl tu x)).
  { apply trim_cover; [easy|easy| |]; cbn [fst snd]; intros T Fb Ib.
    - destruct (BL _ Ib) as [_ K]. specialize (K T Fb). lra.
    - destruct (BU _ Ib) as [_ K]. specialize (K T Fb). lra. }
  destruct C1 as [W1 C1].
  destruct (inter_encl x (trim (l, u) tl tu x) (preimage (pown_dom p) (pownR p) c x)) as (z & Hz & Wz' & Ezz); try easy.
  { intros r (Mx & D & Mc). split; [easy|]. apply C1; [|easy]. split; [now apply D|exact Mc]. }
  exists z, (Nat.max k1 k2). split; [|easy]. intros j Hj.
  rewrite R1 by lia. mreds. rewrite R2 by lia. mreds. exact Hz.
- (* two branches *)
  apply orb_false_iff in E1. destruct E1 as [E1 E2].
  assert (K : (fst c = fminf \/ (is_finite (fst c) = true /\ B2R (fst c) < 0)) /\ (snd c = finf \/ (is_finite (snd c) = true /\ 0 < B2R (snd c)))).
  { destruct (wf_view c Wc) as [ | |b|a|a b]; cbn [fst snd] in *; try easy; revert E1 E2; fcmp; repeat rcase; intros; try easy; simpl (B2R f0) in *;
    (split; [first [now left|right; now split]|first [now left|right; now split]]). }
  destruct K as [K1 K2].
  assert (Hcl' : fst c = f0 \/ (fst c = fminf /\ oddq q) \/ (is_finite (fst c) = true /\ adm q (B2R (fst c)))).
  { right. destruct K1 as [K1|[K1 K1']]; [now left|right]. split; [easy|]. right. now split. }
  assert (Hcu' : snd c = finf \/ (is_finite (snd c) = true /\ adm q (B2R (snd c)))).
  { destruct K2 as [K2|[K2 K2']]; [now left|right]. split; [easy|]. now left. }
  destruct (sup_bound q (fst c) NP Hcl') as (u & tu & k1 & R1 & B1). destruct (inf_bound q (snd c) NP Hcu') as (l & tl & k2 & R2 & B2).
  assert (BU : forall t, I t /\ t < 0 -> ub u t /\ (tu = true -> is_finite u = true -> t < B2R u)).
  { intros t [[Nt [Ml Mu]] Lt]. apply B1; [easy| | |easy].
    - right. split; [easy|]. split; [easy|]. destruct K1 as [K1|[K1 K1']]; [now left|right]. split; [easy|lra].
    - intros E. rewrite E in K1. destruct K1 as [K1|[_ K1]]; [easy|simpl in K1; lra]. }
  assert (BL : forall t, I t /\ 0 < t -> lb l t /\ (tl = true -> is_finite l = true -> B2R l < t)).
  { intros t [[Nt [Ml Mu]] Lt]. apply B2; [easy| |easy].
    left. split; [easy|]. destruct K2 as [K2|[K2 K2']]; [now left|right]. split; [easy|lra]. }
  assert (NE : (exists r, mem r c /\ r < 0) /\ (exists r, mem r c /\ 0 < r)).
  { destruct (wf_view c Wc) as [ | |b|a|a b]; cbn [fst snd] in *; try easy.
    - split; [exists (-1)|exists 1]; (split; [mm|lra]).
    - destruct K2 as [K2|[_ K2]]; [subst; easy|]. split; [exists (-1)|exists (B2R b)]; (split; [mm|lra]).
    - destruct K1 as [K1|[_ K1]]; [subst; easy|]. split; [exists (B2R a)|exists 1]; (split; [mm|lra]).
    - destruct K1 as [K1|[_ K1]]; [subst; easy|]. destruct K2 as [K2|[_ K2]]; [subst; easy|]. split; [exists (B2R a)|exists (B2R b)]; (split; [mm|lra]). }
  destruct NE as [(r1 & M1 & L1) (r2 & M2 & L2)].
  destruct (NI r1 M1 ltac:(lra)) as (t1 & I1 & S1). destruct (NI r2 M2 ltac:(lra)) as (t2 & I2 & S2).
  assert (Lt1 : t1 < 0) by (destruct S1 as [[]|(_ & ? & _)]; lra). assert (Lt2 : 0 < t2) by (destruct S2 as [[]|(_ & ? & ?)]; lra).
  assert (C1 : wf (trim (fminf, u) false tu x) /\ forall r, I r /\ r < 0 -> mem r x -> mem r (trim (fminf, u) false tu x)).
  { apply trim_cover; cbn [fst snd]; [| |easy|].
    - intros r Ir. split; cbn [fst snd]; [easy|now apply BU].
    - right. exists t1. split; cbn [fst snd]; [easy|now apply BU].
    - intros T Fb Ib. destruct (BU _ Ib) as [_ K]. specialize (K T Fb). lra. }
  assert (C2 : wf (trim (l, finf) tl false x) /\ forall r, I r /\ 0 < r -> mem r x -> mem r (trim (l, finf) tl false x)).
  { apply trim_cover; cbn [fst snd]; [| | |easy].
    - intros r Ir. split; cbn [fst snd]; [now apply BL|easy].
    - right. exists t2. split; cbn [fst snd]; [now apply BL|easy].
    - intros T Fb Ib. destruct (BL _ Ib) as [_ K]. specialize (K T Fb). lra. }
  destruct C1 as [W1 C1], C2 as [W2 C2].
  destruct (hull_l_encl x _ _ (preimage (pown_dom p) (pownR p) c x) Wx W1 W2) as (z & Hz & Wz' & Ezz).
  { intros r (Mx & D & Mc). split; [easy|]. specialize (D eq_refl). assert (Ir : I r) by (split; [easy|exact Mc]).
    destruct (Rdichotomy _ _ D) as [L|L]; [left; now apply C1|right; now apply C2]. }
  exists z, (Nat.max k1 k2). split; [|easy]. intros j Hj.
  rewrite R1 by lia. mreds. rewrite R2 by lia. mreds. exact Hz.
Qed.
End Neg.

Lemma pown_rev_settles c x (p : Z) : wf c -> wf x -> p <> int_min ->
  settles (fun fuel => pown_rev fuel c x p) (preimage (pown_dom p) (pownR p) c x).
Proof.
intros Wc Wx NP. unfold pown_rev.
destruct (isnan (fst c)) eqn:Ec.
{ eapply neg_ext; [|apply settles_empty; intros t (_ & _ & H); now apply nan_no_mem in H]. intros j. cbv zeta. vred. rewrite Ec. now vred. }
destruct (isnan (fst x)) eqn:Ex.
{ eapply neg_ext; [|apply settles_empty; intros t (H & _); now apply nan_no_mem in H]. intros j. cbv zeta. vred. rewrite Ec, Ex. now vred. }
destruct p as [|q|q].
- destruct (is_member_decides (@f1 F) c Wc) as (b & H1 & H2). apply returns_eq in H1.
  apply neg_ext with (fun _ => if b then ret x else ret empty).
  { intros j. cbv zeta. vred. rewrite Ec, Ex. vred. cbn [Z.eqb]. rewrite H1. now destruct b; mreds. }
  assert (F1 := @is_finite_f1 F). rewrite B2R_f1 in H2.
  destruct b.
  + apply settles_const. exists x. split; [easy|]. split; [easy|]. now intros r [H _].
  + apply settles_empty. intros t (_ & _ & H). change (pownR 0 t) with 1 in H. assert (false = true) by tauto. easy.
- destruct (Pos.eq_dec q 1) as [->|Nq].
  + eapply neg_ext; [|apply settles_const, (inter_encl x c (preimage (pown_dom 1) (pownR 1) c x)); [easy|easy|]].
    { intros j. cbv zeta. vred. rewrite Ec, Ex. vred. reflexivity. }
    intros r (H1 & _ & H2). split; [easy|]. unfold pownR in H2. change (powerRZ r 1) with (r ^ 1) in H2. now rewrite pow_1 in H2.
  + assert (E1 : Z.eqb (Zpos q) 1 = false) by (apply Z.eqb_neq; congruence).
    destruct (Z.even (Zpos q)) eqn:Ev.
    * eapply neg_ext; [|now apply (pown_rev_pos_even q)].
      intros j. cbv zeta. vred. rewrite Ec, Ex. vred. change (Z.eqb (Zpos q) 0) with false. rewrite E1. reflexivity.
    * eapply neg_ext; [|now apply (pown_rev_pos_odd q)].
      intros j. cbv zeta. vred. rewrite Ec, Ex. vred. change (Z.eqb (Zpos q) 0) with false. rewrite E1. reflexivity.
- destruct (Z.even (Zneg q)) eqn:Ev.
  + eapply neg_ext; [|now apply (pown_rev_neg_even q)].
    intros j. cbv zeta. vred. rewrite Ec, Ex. vred. reflexivity.
  + eapply neg_ext; [|now apply (pown_rev_neg_odd q)].
    intros j. cbv zeta. vred. rewrite Ec, Ex. vred. reflexivity.
Qed.
Lemma pown_rev_encl c x (p : Z) : wf c -> wf x -> p <> int_min -> exists (z : itv F) (k : nat),
  (forall fuel, (k <= fuel)%nat -> returns (pown_rev fuel c x p) z) /\
  wf z /\ encloses (preimage (pown_dom p) (pownR p) c x) z.
Proof.
intros Wc Wx NP. destruct (pown_rev_settles c x p Wc Wx NP) as (z & k & H1 & H2). exists z, k. split; [|easy].
intros j Hj. apply returns_eq. auto.
Qed.
End C.
