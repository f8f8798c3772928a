(** * Proofs: how far sum_sqr and dot may be from the rounded exact value without overflow *)
From Coq Require Import ZArith Reals Bool List Lia Lra.
From Flocq Require Import Core.Core IEEE754.BinarySingleNaN.
From Verif Require Import Fmt FloatFacts Exc SpecRound MMpfr PMpfr PMpfr2 MRed SpecRed PRed SpecRedX PRedX SpecRedPerm PRedDir.
Import ListNotations.
Local Open Scope R_scope.

Section E.
Context {F : fmt}.
Lemma limited_near (r : R) : Rabs r < bpow radix2 (emax F) -> exists s, limited F (Real r) (Real s) /\ Rabs (s - r) <= least F / 2.
Proof.
intros H. pose proof (@least_pos F) as P.
destruct (Rle_or_lt (Rabs r) (least F / 2)) as [A|A].
- exists 0. split; [now apply lim_small|]. now rewrite Rminus_0_l, Rabs_Ropp.
- destruct (Rle_or_lt (least F) (Rabs r)) as [B|B].
  + exists r. split; [now apply lim_same|]. replace (r - r) with 0 by ring. rewrite Rabs_R0. lra.
  + destruct (Rle_or_lt 0 r) as [S|S].
    * rewrite Rabs_pos_eq in A, B by easy. exists (least F). split; [now apply lim_least|]. rewrite Rabs_pos_eq; lra.
    * rewrite Rabs_left in A, B by easy. exists (- least F). split; [apply lim_least_neg; lra|]. rewrite Rabs_left; lra.
Qed.
Lemma limited_list (l : list R) : Forall (fun r => Rabs r < bpow radix2 (emax F)) l ->
  exists k, Forall2 (limited F) (map Real l) (map Real k) /\
  Rabs (fold_right Rplus 0 k - fold_right Rplus 0 l) <= INR (length l) * (least F / 2).
Proof.
induction 1 as [|r l H _ (k & K1 & K2)].
- exists []. split; [constructor|]. cbn. rewrite Rminus_0_r, Rabs_R0. lra.
- destruct (limited_near r H) as (s & S1 & S2). exists (s :: k). split; [now constructor|]. cbn [fold_right]. change (length (r :: l)) with (S (length l)). rewrite S_INR.
  replace (s + fold_right Rplus 0 k - (r + fold_right Rplus 0 l)) with ((s - r) + (fold_right Rplus 0 k - fold_right Rplus 0 l)) by ring.
  apply Rle_trans with (1 := Rabs_triang _ _). lra.
Qed.
Definition prods (ab : list (float F * float F)) : list R := map (fun xy => B2R (fst xy) * B2R (snd xy)) ab.
Lemma products_real ab : Forall (fun xy => is_finite (fst xy) = true /\ is_finite (snd xy) = true) ab ->
  Forall2 (fun xy t => product (value (fst xy)) (value (snd xy)) t) ab (map Real (prods ab)).
Proof. induction 1 as [|[x y] ab [H1 H2] _ IH]; cbn; constructor; [|easy]. cbn in *. rewrite !value_fin by easy. constructor. Qed.
Lemma dot_near (a b : list (float F)) rnd E : (length a <= length b)%nat ->
  Forall (fun xy => is_finite (fst xy) = true /\ is_finite (snd xy) = true /\ Rabs (B2R (fst xy) * B2R (snd xy)) < bpow radix2 (emax F)) (combine a b) ->
  exists z E' s, dot a b rnd E = Ret (z, E') /\ rounded (direction rnd) s z /\
  Rabs (s - fold_right Rplus 0 (map (fun xy => B2R (fst xy) * B2R (snd xy)) (combine a b))) <= INR (length a) * (least F / 2).
Proof.
intros L H.
assert (H1 : Forall (fun xy => is_finite (fst xy) = true /\ is_finite (snd xy) = true) (combine a b)) by (revert H; apply Forall_impl; tauto).
assert (H2 : Forall (fun r => Rabs r < bpow radix2 (emax F)) (prods (combine a b))).
{ unfold prods. rewrite Forall_forall in *. intros r I. apply in_map_iff in I. destruct I as (xy & <- & I). now apply H. }
destruct (limited_list _ H2) as (k & K1 & K2).
destruct (dot_direction a b _ _ rnd E L (products_real _ H1) K1) as (z & E' & D & R). destruct (R _ (total_real k)) as [R1 _].
exists z, E', (fold_right Rplus 0 k). split; [easy|]. split; [easy|]. unfold prods in K2. rewrite map_length, combine_length, Nat.min_l in K2 by easy. exact K2.
Qed.
Lemma sum_sqr_near (l : list (float F)) rnd E :
  Forall (fun x => is_finite x = true /\ B2R x * B2R x < bpow radix2 (emax F)) l ->
  exists s, rounded (direction rnd) s (fst (sum_sqr l rnd E)) /\
  Rabs (s - fold_right Rplus 0 (map (fun x => B2R x * B2R x) l)) <= INR (length l) * (least F / 2).
Proof.
intros H.
assert (H2 : Forall (fun r => Rabs r < bpow radix2 (emax F)) (map (fun x : float F => B2R x * B2R x) l)).
{ rewrite Forall_forall in *. intros r I. apply in_map_iff in I. destruct I as (x & <- & I). rewrite Rabs_pos_eq by apply Rle_0_sqr. now apply H. }
destruct (limited_list _ H2) as (k & K1 & K2).
assert (P : Forall2 (fun x t => product (value x) (value x) t) l (map Real (map (fun x : float F => B2R x * B2R x) l))).
{ clear - H. induction H as [|x l [Hx _] _ IH]; cbn [map]; constructor; [|easy]. rewrite !value_fin by easy. constructor. }
destruct (sum_sqr_direction l _ _ rnd E P K1 _ (total_real k)) as [R1 _].
exists (fold_right Rplus 0 k). split; [easy|]. rewrite map_length in K2. exact K2.
Qed.
End E.
