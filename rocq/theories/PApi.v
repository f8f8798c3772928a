(** * Proofs about the relations of the public classes *)
From Coq Require Import NArith Bool.
From Verif Require Import Fmt Spec Exc Deco SpecApi MBase PBase MBool MApi.
Local Open Scope m_scope.

Lemma decides_swap (m : M bool) (P Q R : Prop) : decides m (P /\ Q /\ R) -> decides m (Q /\ P /\ R).
Proof. intros (b & H & K). exists b. split; [easy|tauto]. Qed.
Lemma decides_ne (m : M bool) (a b : N) (R : Prop) : decides m (a <> ill /\ b <> ill /\ R) -> decides (mnot m) (a = ill \/ b = ill \/ ~ R).
Proof.
intros (v & H & K). exists (negb v). split.
- intros s. unfold mnot, bind. now rewrite H.
- destruct (N.eq_dec a ill), (N.eq_dec b ill); destruct v; cbn; intuition congruence.
Qed.
