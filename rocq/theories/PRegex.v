(** * Proofs: the backtracking matcher finds a match exactly when there is one *)
From Coq Require Import ZArith NArith Bool Ascii String List Lia.
From Verif Require Import MStream MRegex.
Import ListNotations.
Local Open Scope list_scope.

(** The text [s] matches [r]; the captured texts change from [c] to [c']. *)
Fixpoint sem (r : re) (s : text) (c c' : caps) : Prop :=
  match r with
  | Eps => s = [] /\ c' = c
  | Chr p => exists x, s = [x] /\ p x = true /\ c' = c
  | Star p => forallb p s = true /\ c' = c
  | Cat a b => exists s1 s2 c1, s = s1 ++ s2 /\ sem a s1 c c1 /\ sem b s2 c1 c'
  | Alt a b => sem a s c c' \/ sem b s c c'
  | Grp n a => exists c1, sem a s c c1 /\ c' = (n, s) :: c1
  end.

Lemma mstar_sound {A} p (s : text) (k : text -> option A) d :
  mstar p s k = Some d -> exists s1 s2, s = s1 ++ s2 /\ forallb p s1 = true /\ k s2 = Some d.
Proof.
  induction s as [|x s IH]; cbn.
  - intros H. now exists [], [].
  - destruct (p x) eqn:px.
    + destruct (mstar p s k) eqn:E.
      * intros [= <-]. destruct (IH eq_refl) as (s1 & s2 & -> & H1 & H2).
        exists (x :: s1), s2. cbn. now rewrite px, H1.
      * intros H. now exists [], (x :: s).
    + intros H. now exists [], (x :: s).
Qed.

Lemma mre_sound {A} r : forall (s : text) c (k : text -> caps -> option A) d,
  mre r s c k = Some d -> exists s1 s2 c', s = s1 ++ s2 /\ sem r s1 c c' /\ k s2 c' = Some d.
Proof.
  induction r as [|p|p|a IHa b IHb|a IHa b IHb|n a IH]; intros s c k d; cbn [mre sem].
  - intros H. exists [], s, c. auto.
  - destruct s as [|x s]; [easy|]. destruct (p x) eqn:px; [|easy]. intros H. exists [x], s, c. split; [easy|]. split; [|easy]. now exists x.
  - intros H. destruct (mstar_sound _ _ _ _ H) as (s1 & s2 & -> & H1 & H2). exists s1, s2, c. auto.
  - intros H. destruct (IHa _ _ _ _ H) as (s1 & s2 & c1 & -> & H1 & H2).
    destruct (IHb _ _ _ _ H2) as (s3 & s4 & c2 & -> & H3 & H4).
    exists (s1 ++ s3), s4, c2. rewrite app_assoc. repeat split; auto. exists s1, s3, c1. auto.
  - destruct (mre a s c k) eqn:E.
    + intros [= <-]. destruct (IHa _ _ _ _ E) as (s1 & s2 & c1 & -> & H1 & H2). exists s1, s2, c1. auto.
    + intros H. destruct (IHb _ _ _ _ H) as (s1 & s2 & c1 & -> & H1 & H2). exists s1, s2, c1. auto.
  - intros H. destruct (IH _ _ _ _ H) as (s1 & s2 & c1 & -> & H1 & H2).
    rewrite app_length, Nat.add_sub, firstn_app, Nat.sub_diag, firstn_all, firstn_O, app_nil_r in H2.
    exists s1, s2, ((n, s1) :: c1). repeat split; auto. now exists c1.
Qed.

Lemma mstar_complete {A} p (s1 s2 : text) (k : text -> option A) :
  forallb p s1 = true -> k s2 <> None -> mstar p (s1 ++ s2) k <> None.
Proof.
  intros H K. induction s1 as [|x s1 IH]; cbn.
  - destruct s2 as [|x s2]; cbn; [easy|]. destruct (p x); [|easy]. now destruct (mstar p s2 k).
  - cbn in H. apply andb_prop in H. destruct H as [-> H]. specialize (IH H). now destruct (mstar p (s1 ++ s2) k).
Qed.

Lemma mre_complete {A} r : forall (s1 s2 : text) c c' (k : text -> caps -> option A),
  sem r s1 c c' -> k s2 c' <> None -> mre r (s1 ++ s2) c k <> None.
Proof.
  induction r as [|p|p|a IHa b IHb|a IHa b IHb|n a IH]; intros s1 s2 c c' k; cbn [mre sem].
  - intros [-> ->]. easy.
  - intros (x & -> & px & ->). cbn. now rewrite px.
  - intros (H & ->) K. now apply mstar_complete.
  - intros (s3 & s4 & c1 & -> & H1 & H2) K. rewrite <- app_assoc. eapply IHa; [exact H1|]. cbn. eapply IHb; eauto.
  - intros [H|H] K.
    + specialize (IHa _ _ _ _ k H K). now destruct (mre a (s1 ++ s2) c k).
    + specialize (IHb _ _ _ _ k H K). now destruct (mre a (s1 ++ s2) c k).
  - intros (c1 & H & ->) K. eapply IH; [exact H|].
    rewrite app_length, Nat.add_sub, firstn_app, Nat.sub_diag, firstn_all, firstn_O, app_nil_r. easy.
Qed.

Lemma regex_match_sound r s c : regex_match r s = Some c -> sem r s [] c.
Proof.
  intros H. destruct (mre_sound _ _ _ _ _ H) as (s1 & s2 & c' & -> & H1 & H2).
  destruct s2; [|easy]. rewrite app_nil_r. now injection H2 as <-.
Qed.
Lemma regex_match_complete r s c : sem r s [] c -> exists c', regex_match r s = Some c'.
Proof.
  intros H. assert (K : regex_match r s <> None).
  { unfold regex_match. rewrite <- (app_nil_r s). eapply mre_complete; [exact H|easy]. }
  destruct (regex_match r s); [eauto|easy].
Qed.
