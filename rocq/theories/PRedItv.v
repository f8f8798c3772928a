(** * Proofs: the bounds of a sum of intervals by directed reductions *)
From Coq Require Import ZArith Reals Bool List Lia Lra.
From Flocq Require Import Core.Core IEEE754.BinarySingleNaN.
From Verif Require Import Fmt Spec FloatFacts Exc SpecApi MBase MArith PBase PArith SpecRound MMpfr PMpfr PMpfr2 MRed SpecRed PRed PRedPerm SpecRedItv.
Import ListNotations.
Local Open Scope R_scope.

Section P.
Context {F : fmt}.
Implicit Types (x z : itv F) (xs : list (itv F)).

Lemma rounded_is_RD r (z : float F) : rounded mode_DN r z -> is_RD r z.
Proof.
intros H. pose proof (rround_rnds (F:=F) mode_DN false r) as K. pose proof (rnds_DN _ _ K) as [L1 L2]. apply rnds_rounded in K.
destruct (rounded_num _ _ _ _ H K) as [(F1 & F2 & E)| ->]; [|easy].
split.
- rewrite lb_fin in * by easy. now rewrite E.
- intros l' Hl t Ht. apply (L2 l' Hl t). rewrite lb_fin in * by easy. now rewrite <- E.
Qed.
Lemma rounded_is_RU r (z : float F) : rounded mode_UP r z -> is_RU r z.
Proof.
intros H. pose proof (rround_rnds (F:=F) mode_UP false r) as K. pose proof (rnds_UP _ _ K) as [L1 L2]. apply rnds_rounded in K.
destruct (rounded_num _ _ _ _ H K) as [(F1 & F2 & E)| ->]; [|easy].
split.
- rewrite ub_fin in * by easy. now rewrite E.
- intros l' Hl t Ht. apply (L2 l' Hl t). rewrite ub_fin in * by easy. now rewrite <- E.
Qed.

Definition inhab x := exists r, mem r x.
Lemma sums_nil t : sums (F:=F) [] t <-> t = 0.
Proof. split; [intros (rs & H & ->); inversion H; reflexivity|intros ->; exists []; split; [constructor|reflexivity]]. Qed.
Lemma sums_cons x xs t : sums (x :: xs) t <-> exists r s, mem r x /\ sums xs s /\ t = r + s.
Proof.
split.
- intros (rs & H & ->). inversion H as [|r x' rs' xs' H1 H2]; subst. exists r, (fold_right Rplus 0 rs'). split; [easy|]. split; [now exists rs'|reflexivity].
- intros (r & s & H & (rs & H1 & ->) & ->). exists (r :: rs). split; [now constructor|reflexivity].
Qed.
Lemma sums_inhab xs : Forall inhab xs -> exists t, sums xs t.
Proof.
induction 1 as [|x xs [r Hr] H [s Hs]]; [exists 0; now apply sums_nil|]. exists (r + s). apply sums_cons. now exists r, s.
Qed.

Lemma low_cases (x : itv F) : inhab x -> fst x = fminf \/ is_finite (fst x) = true.
Proof. intros (r & H & _). destruct (fst x) as [|[]| |]; cbn in H; try easy; auto. Qed.
Lemma upp_cases (x : itv F) : inhab x -> snd x = finf \/ is_finite (snd x) = true.
Proof. intros (r & _ & H). destruct (snd x) as [|[]| |]; cbn in H; try easy; auto. Qed.
Lemma low_attained x : inhab x -> is_finite (fst x) = true -> mem (B2R (fst x)) x.
Proof. intros (r & H1 & H2) Fx. rewrite lb_fin in H1 by easy. split; [rewrite lb_fin by easy; lra|now apply ub_mono with (1 := H2)]. Qed.
Lemma upp_attained x : inhab x -> is_finite (snd x) = true -> mem (B2R (snd x)) x.
Proof. intros (r & H1 & H2) Fx. rewrite ub_fin in H2 by easy. split; [now apply lb_mono with (1 := H1)|rewrite ub_fin by easy; lra]. Qed.

Lemma values_fin (l : list (float F)) : Forall (fun v => is_finite v = true) l -> map value l = map Real (map B2R l).
Proof. induction 1 as [|v l H _ IH]; [easy|]. cbn [map]. now rewrite IH, value_fin. Qed.
Lemma low_all xs : Forall inhab xs -> Forall (fun v => is_finite v = true) (map fst xs) ->
  glbR (sums xs) (fold_right Rplus 0 (map B2R (map fst xs))).
Proof.
intros H K. apply glbR_min.
- induction H as [|x xs Hx H IH]; [now apply sums_nil|]. inversion K; subst. apply sums_cons.
  exists (B2R (fst x)), (fold_right Rplus 0 (map B2R (map fst xs))). split; [now apply low_attained|]. split; [now apply IH|reflexivity].
- induction H as [|x xs Hx H IH]; intros t Ht.
  + apply sums_nil in Ht. subst. cbn. lra.
  + inversion K; subst. apply sums_cons in Ht. destruct Ht as (r & s & [Hr _] & Hs & ->). cbn. rewrite lb_fin in Hr by easy. specialize (IH H3 s Hs). lra.
Qed.
Lemma upp_all xs : Forall inhab xs -> Forall (fun v => is_finite v = true) (map snd xs) ->
  lubR (sums xs) (fold_right Rplus 0 (map B2R (map snd xs))).
Proof.
intros H K. apply lubR_max.
- induction H as [|x xs Hx H IH]; [now apply sums_nil|]. inversion K; subst. apply sums_cons.
  exists (B2R (snd x)), (fold_right Rplus 0 (map B2R (map snd xs))). split; [now apply upp_attained|]. split; [now apply IH|reflexivity].
- induction H as [|x xs Hx H IH]; intros t Ht.
  + apply sums_nil in Ht. subst. cbn. lra.
  + inversion K; subst. apply sums_cons in Ht. destruct Ht as (r & s & [_ Hr] & Hs & ->). cbn. rewrite ub_fin in Hr by easy. specialize (IH H3 s Hs). lra.
Qed.
Lemma low_unb xs : Forall inhab xs -> In fminf (map fst xs) -> unb_below (sums xs).
Proof.
induction 1 as [|x xs Hx H IH]; [easy|]. intros [E|I] b.
- destruct (sums_inhab xs H) as [s Hs]. destruct Hx as (r & Hr1 & Hr2).
  exists (Rmin r (b - s - 1) + s). split; [|pose proof (Rmin_r r (b - s - 1)); lra]. apply sums_cons. exists (Rmin r (b - s - 1)), s.
  split; [|easy]. split; [now rewrite E|]. apply ub_mono with (1 := Hr2). apply Rmin_l.
- destruct Hx as (r & Hr). destruct (IH I (b - r)) as (s & Hs & L). exists (r + s). split; [|lra]. apply sums_cons. now exists r, s.
Qed.
Lemma upp_unb xs : Forall inhab xs -> In finf (map snd xs) -> unb_above (sums xs).
Proof.
induction 1 as [|x xs Hx H IH]; [easy|]. intros [E|I] b.
- destruct (sums_inhab xs H) as [s Hs]. destruct Hx as (r & Hr1 & Hr2).
  exists (Rmax r (b - s + 1) + s). split; [|pose proof (Rmax_r r (b - s + 1)); lra]. apply sums_cons. exists (Rmax r (b - s + 1)), s.
  split; [|easy]. split; [|now rewrite E]. apply lb_mono with (1 := Hr1). apply Rmax_l.
- destruct Hx as (r & Hr). destruct (IH I (b - r)) as (s & Hs & L). exists (r + s). split; [|lra]. apply sums_cons. now exists r, s.
Qed.
Lemma split_inf (w : float F) (l : list (float F)) : (forall v, In v l -> v = w \/ is_finite v = true) -> In w l \/ Forall (fun v => is_finite v = true) l.
Proof.
induction l as [|v l IH]; intros H; [right; constructor|].
destruct (H v (or_introl eq_refl)) as [->|Hv]; [now left; left|]. destruct IH as [I|I]; [intros; apply H; now right|left; now right|right; now constructor].
Qed.
Lemma total_one_inf s (l : list (float F)) : In (B754_infinity s) l -> (forall v, In v l -> v = B754_infinity s \/ is_finite v = true) ->
  total (map value l) (Infinite s).
Proof.
intros I H. apply total_inf.
- apply (in_map value) in I. exact I.
- intros K. apply in_map_iff in K. destruct K as (v & E & K). destruct (H v K) as [->|Fv]; [easy|]. rewrite value_fin in E by easy. easy.
- intros K. apply in_map_iff in K. destruct K as (v & E & K). destruct (H v K) as [->|Fv]; [|rewrite value_fin in E by easy; easy].
  cbn in E. injection E as E. now destruct s.
Qed.

Lemma sum_low xs E : Forall inhab xs -> glow (sums xs) (fst (sum (map fst xs) downward E)).
Proof.
intros H. pose proof (sum_reduces (map fst xs) downward E) as K.
assert (C : forall v, In v (map fst xs) -> v = fminf \/ is_finite v = true).
{ intros v I. apply in_map_iff in I. destruct I as (x & <- & I). apply low_cases. rewrite Forall_forall in H. now apply H. }
destruct (split_inf fminf _ C) as [I|A].
- specialize (K _ (total_one_inf true _ I C)). cbv beta iota in K. rewrite K. now apply glow_unb, low_unb.
- rewrite (values_fin _ A) in K. specialize (K _ (total_real _)). destruct K as [K _].
  apply glow_glb with (1 := low_all xs H A). now apply rounded_is_RD.
Qed.
Lemma sum_upp xs E : Forall inhab xs -> gupp (sums xs) (fst (sum (map snd xs) upward E)).
Proof.
intros H. pose proof (sum_reduces (map snd xs) upward E) as K.
assert (C : forall v, In v (map snd xs) -> v = finf \/ is_finite v = true).
{ intros v I. apply in_map_iff in I. destruct I as (x & <- & I). apply upp_cases. rewrite Forall_forall in H. now apply H. }
destruct (split_inf finf _ C) as [I|A].
- specialize (K _ (total_one_inf false _ I C)). cbv beta iota in K. rewrite K. now apply gupp_unb, upp_unb.
- rewrite (values_fin _ A) in K. specialize (K _ (total_real _)). destruct K as [K _].
  apply gupp_lub with (1 := upp_all xs H A). now apply rounded_is_RU.
Qed.
Lemma sum_nan (l : list (float F)) rnd E : In fnan l -> fst (sum l rnd E) = fnan.
Proof. intros I. apply (sum_reduces l rnd E Undefined). apply total_nan. now apply (in_map value) in I. Qed.
Lemma wf_cases xs : Forall wf xs -> In empty_rep xs \/ Forall inhab xs.
Proof.
induction 1 as [|x xs [->|Hx] H IH]; [now right|now left; left|]. destruct IH; [left; now right|right; now constructor].
Qed.
Lemma sums_empty xs t : In empty_rep xs -> ~ sums xs t.
Proof.
revert t. induction xs as [|x xs IH]; [easy|]. intros t I H. apply sums_cons in H. destruct H as (r & s & Hr & Hs & _).
destruct I as [->|I]; [now destruct Hr|]. now apply (IH s).
Qed.
Lemma interval_sum xs E E' : Forall wf xs ->
  tightest (sums xs) (fst (sum (map fst xs) downward E), fst (sum (map snd xs) upward E')).
Proof.
intros H. destruct (wf_cases xs H) as [I|A].
- rewrite !sum_nan by (apply in_map_iff; now exists empty_rep). apply tightest_empty. intros r. now apply sums_empty.
- apply tightest_intro; [now apply sums_inhab|now apply sum_low|now apply sum_upp].
Qed.
Lemma adds_enclose xs z : wf z -> Forall wf xs -> computes_enclosure (adds z xs) (fun t => exists r s, mem r z /\ sums xs s /\ t = r + s).
Proof.
intros Wz W. revert z Wz. induction W as [|x xs Wx W IH]; intros z Wz.
- exists z. split; [now intros st|]. split; [easy|]. intros t (r & s & Hr & Hs & ->). apply sums_nil in Hs. subst s. now rewrite Rplus_0_r.
- destruct (add_tightest z x Wz Wx) as (a & Ra & Wa & Ea & _). destruct (IH a Wa) as (b & Rb & Wb & Eb).
  exists b. split; [intros st; cbn [adds]; unfold bind; rewrite Ra; apply Rb|]. split; [easy|].
  intros t (r & s & Hr & Hs & ->). apply sums_cons in Hs. destruct Hs as (r' & s' & Hr' & Hs' & ->).
  apply Eb. exists (r + r'), s'. split; [|split; [easy|lra]]. apply Ea. exists r, r'. exact (conj Hr (conj Hr' (conj I eq_refl))).
Qed.
Lemma within_adds x xs E E' : wf x -> Forall wf xs -> exists z, returns (adds x xs) z /\
  included (fst (sum (map fst (x :: xs)) downward E), fst (sum (map snd (x :: xs)) upward E')) z.
Proof.
intros Wx W. destruct (adds_enclose xs x Wx W) as (z & Rz & Wz & Ez). exists z. split; [easy|].
destruct (interval_sum (x :: xs) E E' (Forall_cons _ Wx W)) as (_ & _ & T). apply T; [easy|]. intros t Ht. apply Ez. now apply sums_cons.
Qed.
End P.

(** ** One addition after the other is not tightest *)
Lemma feq_true {F : fmt} (a b : float F) : feq a b = true -> (is_finite a = true /\ is_finite b = true /\ B2R a = B2R b) \/ (exists s, a = B754_infinity s /\ b = B754_infinity s).
Proof.
unfold feq. destruct (is_finite a && is_finite b) eqn:E.
- apply andb_prop in E. destruct E as [E1 E2]. rewrite Beqb_correct by easy. case Req_bool_spec; [intros; now left|easy].
- destruct a as [|[]| |], b as [|[]| |]; cbn in *; try easy; intros; right; eauto.
Qed.
Lemma adds_not_tightest : exists (x : itv binary32) (xs : list (itv binary32)) z t, wf x /\ Forall wf xs /\ returns (adds x xs) z /\
  mem t z /\ forall E E', ~ mem t (fst (sum (map fst (x :: xs)) downward E), fst (sum (map snd (x :: xs)) upward E')).
Proof.
set (p := fun v : float binary32 => (v, v)).
assert (Wp : forall v, is_finite v = true -> wf (p v)).
{ intros v Hv. right. exists (B2R v). split; unfold p; cbn [fst snd]; [rewrite lb_fin by easy; lra|rewrite ub_fin by easy; lra]. }
pose (x := p fmaxv). pose (xs := [p f1; p (fneg fmaxv)]).
assert (Wx : wf x) by now apply Wp. assert (Wxs : Forall wf xs) by (constructor; [now apply Wp|constructor; [now apply Wp|constructor]]).
destruct (within_adds x xs (Genv 0 0) (Genv 0 0) Wx Wxs) as (z & Rz & _).
exists x, xs, z, 5. split; [easy|]. split; [easy|]. split; [easy|].
assert (B : match fst (adds x xs (Est 0 0)) with Ret z => feq (fst z) f0 && feq (snd z) finf | _ => false end = true) by (vm_compute; reflexivity).
rewrite Rz in B. cbn [fst] in B. apply andb_prop in B. destruct B as [B1 B2]. split.
- destruct (feq_true _ _ B1) as [(F1 & _ & E1)|(s & _ & E)]; [|easy]. destruct (feq_true _ _ B2) as [(_ & E & _)|(s & E2 & E)]; [easy|].
  injection E as <-. split; [rewrite lb_fin by easy; rewrite E1; cbn; lra|now rewrite E2].
- intros E E'. destruct (interval_sum (x :: xs) E E' (Forall_cons _ Wx Wxs)) as (_ & _ & T). intros M.
  specialize (T (p f1)). assert (K : mem 5 (p (@f1 binary32))).
  { apply T; [now apply Wp| |easy]. intros t (rs & H & ->).
    inversion H as [|r1 x1 rs1 xs1 H1 K1]; subst. inversion K1 as [|r2 x2 rs2 xs2 H2 K2]; subst. inversion K2 as [|r3 x3 rs3 xs3 H3 K3]; subst. inversion K3; subst.
    assert (PM : forall v r, is_finite v = true -> mem r (p v) -> r = B2R v).
    { intros v r Hv [A1 A2]. unfold p in A1, A2. cbn [fst snd] in A1, A2. rewrite lb_fin in A1 by easy. rewrite ub_fin in A2 by easy. lra. }
    assert (G1 : r1 = B2R (@fmaxv binary32)) by now apply PM. assert (G2 : r2 = 1) by (rewrite <- (@B2R_f1 binary32); now apply PM).
    assert (G3 : r3 = - B2R (@fmaxv binary32)) by (rewrite <- B2R_Bopp; now apply PM).
    assert (S1 : fold_right Rplus 0 [r1; r2; r3] = 1) by (cbn [fold_right]; lra). rewrite S1.
    split; unfold p; cbn [fst snd]; [rewrite lb_fin, B2R_f1 by easy; lra|rewrite ub_fin, B2R_f1 by easy; lra]. }
  destruct K as [_ K]. unfold p in K. cbn [snd] in K. rewrite ub_fin, B2R_f1 in K by easy. lra.
Qed.
