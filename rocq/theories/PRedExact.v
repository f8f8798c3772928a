(** * Proofs: sums that are numbers of the format *)
From Coq Require Import ZArith Reals Bool List Lia Lra.
From Flocq Require Import Core.Core IEEE754.BinarySingleNaN.
From Verif Require Import Fmt Spec FloatFacts Exc SpecRound MMpfr PMpfr PMpfr2 MRed SpecRed PRed PRedPerm PRedItv.
Import ListNotations.
Local Open Scope R_scope.

Section E.
Context {F : fmt}.
Implicit Types (l : list (float F)) (v : float F).
Definition exact l : R := fold_right Rplus 0 (map B2R l).

Lemma sum_rounded l rnd E : Forall (fun x => is_finite x = true) l -> rounded (get_mpfr_rnd_mode rnd) (exact l) (fst (sum l rnd E)).
Proof.
intros H. pose proof (sum_reduces l rnd E) as K. rewrite (values_fin l H) in K. specialize (K _ (total_real _)). now destruct K.
Qed.
Lemma rounded_self m v : is_finite v = true -> rounded m (B2R v) v.
Proof.
intros H. unfold rounded. cbv zeta. rewrite round_generic; [|apply valid_rnd_round_mode|apply generic_format_B2R].
pose proof (abs_B2R_lt_emax _ _ v). split; [easy|intros; lra].
Qed.
Lemma sum_exact l v rnd E : Forall (fun x => is_finite x = true) l -> is_finite v = true -> exact l = B2R v ->
  same_number (fst (sum l rnd E)) v.
Proof.
intros H Fv EQ. pose proof (sum_rounded l rnd E H) as K. rewrite EQ in K.
destruct (rounded_num _ _ _ _ K (rounded_self (get_mpfr_rnd_mode rnd) v Fv)) as [(F1 & _ & Q)|Q]; [|now left].
destruct (Req_dec (B2R v) 0) as [Z|Z]; [right; repeat split; congruence|left]. apply fin_eq; congruence.
Qed.
Lemma sum_exact_iff l E E' : Forall (fun x => is_finite x = true) l ->
  let d := fst (sum l downward E) in let u := fst (sum l upward E') in
  (is_finite d = true /\ is_finite u = true /\ B2R d = B2R u) <-> (exists v : float F, is_finite v = true /\ exact l = B2R v).
Proof.
intros H d u. split.
- intros (Fd & Fu & Q). exists d. split; [easy|].
  destruct (rounded_is_RD _ _ (sum_rounded l downward E H)) as [A _]. destruct (rounded_is_RU _ _ (sum_rounded l upward E' H)) as [B _].
  fold d in A. fold u in B. rewrite lb_fin in A by easy. rewrite ub_fin in B by easy. lra.
- intros (v & Fv & Q).
  assert (K : forall z, same_number z v -> is_finite z = true /\ B2R z = B2R v) by (intros z [->|(A & B & C & D)]; [easy|split; [easy|congruence]]).
  destruct (K d (sum_exact l v downward E H Fv Q)) as [D1 D2]. destruct (K u (sum_exact l v upward E' H Fv Q)) as [U1 U2].
  split; [easy|]. split; [easy|congruence].
Qed.
Lemma sum_single v rnd E : same_number (fst (sum [v] rnd E)) v.
Proof.
destruct (is_finite v) eqn:Fv.
- apply sum_exact; [now constructor|easy|]. unfold exact. cbn. lra.
- left. destruct v as [|s| |]; try easy.
  apply (sum_reduces [B754_infinity s] rnd E (Infinite s)). apply total_inf; cbn; [now left|intros [K|[]]; easy|intros [K|[]]]. injection K. now destruct s.
Qed.
End E.
