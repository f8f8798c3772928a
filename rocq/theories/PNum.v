(** * Rational bounds for sine, cosine and pi, by computation *)
From Coq Require Import ZArith QArith Qreals Reals Bool Lia Lra Ratan Machin.
Local Open Scope R_scope.

Fixpoint qpow (x : Q) (n : nat) : Q := match n with O => 1%Q | S n => Qmult x (qpow x n) end.
Fixpoint zfact (n : nat) : Z := match n with O => 1%Z | S m => (Z.of_nat n * zfact m)%Z end.
Fixpoint qsum (f : nat -> Q) (n : nat) : Q := match n with O => f O | S m => Qred (Qplus (qsum f m) (f n)) end.
Definition qsgn (i : nat) : Q := if Nat.even i then 1%Q else (-1)%Q.

Lemma Q2R_qpow x n : Q2R (qpow x n) = Q2R x ^ n.
Proof. induction n as [|n IH]; simpl; [unfold Q2R; simpl; lra|]. now rewrite Q2R_mult, IH. Qed.
Lemma zfact_INR n : IZR (zfact n) = INR (fact n).
Proof.
induction n as [|n IH]; [reflexivity|].
cbn [zfact fact]. change (fact n + n * fact n)%nat with (S n * fact n)%nat.
now rewrite mult_IZR, mult_INR, IH, <- INR_IZR_INZ.
Qed.
Lemma zfact_pos n : (0 < zfact n)%Z.
Proof. apply lt_IZR. rewrite zfact_INR. apply INR_fact_lt_0. Qed.
Lemma Q2R_inject z : Q2R (inject_Z z) = IZR z.
Proof. unfold Q2R. simpl. lra. Qed.
Lemma Q2R_red q : Q2R (Qred q) = Q2R q.
Proof. apply Qeq_eqR, Qred_correct. Qed.
Lemma Q2R_qsum f g n : (forall i, Q2R (f i) = g i) -> Q2R (qsum f n) = sum_f_R0 g n.
Proof.
intros H. induction n as [|n IH]; [apply H|]. cbn [qsum sum_f_R0]. now rewrite Q2R_red, Q2R_plus, IH, H.
Qed.
Lemma Q2R_qsgn i : Q2R (qsgn i) = (-1) ^ i.
Proof.
unfold qsgn. destruct (Nat.even i) eqn:E.
- apply Nat.even_spec in E. destruct E as [k ->]. rewrite pow_1_even. unfold Q2R; simpl; lra.
- assert (O : Nat.odd i = true) by now rewrite <- Nat.negb_even, E.
  apply Nat.odd_spec in O. destruct O as [k ->]. replace (2 * k + 1)%nat with (S (2 * k)) by lia.
  rewrite pow_1_odd. unfold Q2R; simpl; lra.
Qed.
Lemma inject_nz z : (0 < z)%Z -> ~ (inject_Z z == 0)%Q.
Proof. intros H E. unfold Qeq in E. simpl in E. lia. Qed.

(** Partial sums of sum f i with [f (S i) = - f i * A2 / (D2 * m i)] over one
    common denominator (no gcd): numerator of the sum, of the last term, denominator. *)
Fixpoint zacc (A2 D2 : Z) (m : nat -> Z) (st : Z * Z * Z) (n : nat) : Z * Z * Z :=
  match n with
  | O => st
  | S n => let '(N, P, E) := zacc A2 D2 m st n in
           let k := (D2 * m n)%Z in let P' := (- (P * A2))%Z in ((N * k + P')%Z, P', (E * k)%Z)
  end.
Lemma zacc_sum A2 D2 m f N0 P0 E0 n : (0 < D2)%Z -> (forall i, 0 < m i)%Z -> (0 < E0)%Z ->
  f O = IZR N0 / IZR E0 -> f O = IZR P0 / IZR E0 ->
  (forall i, f (S i) = - f i * IZR A2 / (IZR D2 * IZR (m i))) ->
  let '(N, P, E) := zacc A2 D2 m (N0, P0, E0) n in
  (0 < E)%Z /\ f n = IZR P / IZR E /\ sum_f_R0 f n = IZR N / IZR E.
Proof.
intros HD Hm HE H1 H2 HS. induction n as [|n IH]; [easy|].
cbn [zacc]. destruct (zacc A2 D2 m (N0, P0, E0) n) as [[N P] E]. destruct IH as (I1 & I2 & I3).
specialize (Hm n). assert (0 < D2 * m n)%Z by now apply Z.mul_pos_pos.
assert (R1 : 0 < IZR E) by now apply IZR_lt. assert (R2 : 0 < IZR D2) by now apply IZR_lt.
assert (R3 : 0 < IZR (m n)) by now apply IZR_lt.
split; [now apply Z.mul_pos_pos|]. cbn [sum_f_R0]. rewrite HS, I3, I2.
rewrite plus_IZR, opp_IZR, !mult_IZR. split; field; lra.
Qed.
Definition zq (t : Z * Z * Z) : Q := let '(N, P, E) := t in N # Z.to_pos E.
Lemma zq_sum A2 D2 m f N0 P0 E0 n : (0 < D2)%Z -> (forall i, 0 < m i)%Z -> (0 < E0)%Z ->
  f O = IZR N0 / IZR E0 -> f O = IZR P0 / IZR E0 ->
  (forall i, f (S i) = - f i * IZR A2 / (IZR D2 * IZR (m i))) ->
  Q2R (zq (zacc A2 D2 m (N0, P0, E0) n)) = sum_f_R0 f n.
Proof.
intros HD Hm HE H1 H2 HS. pose proof (zacc_sum A2 D2 m f N0 P0 E0 n HD Hm HE H1 H2 HS) as H.
destruct (zacc A2 D2 m (N0, P0, E0) n) as [[N P] E]. destruct H as (I1 & _ & ->).
unfold zq, Q2R. cbn [Qnum Qden]. now rewrite Z2Pos.id.
Qed.

Definition qsin (a : Q) (n : nat) : Q :=
  zq (zacc (Qnum a * Qnum a) (QDen a * QDen a) (fun i => (2 * Z.of_nat i + 2) * (2 * Z.of_nat i + 3))%Z (Qnum a, Qnum a, QDen a) n).
Definition qcos (a : Q) (n : nat) : Q :=
  zq (zacc (Qnum a * Qnum a) (QDen a * QDen a) (fun i => (2 * Z.of_nat i + 1) * (2 * Z.of_nat i + 2))%Z (1, 1, 1)%Z n).
Lemma fact_SS n : INR (fact (S (S n))) = INR (fact n) * (IZR (Z.of_nat n + 1) * IZR (Z.of_nat n + 2)).
Proof.
cbn [fact]. change (fact n + n * fact n)%nat with (S n * fact n)%nat.
change (S n * fact n + S n * (S n * fact n))%nat with (S (S n) * (S n * fact n))%nat.
rewrite !mult_INR, !S_INR, !plus_IZR, <- !INR_IZR_INZ. ring.
Qed.
Lemma Q2R_qsin a n : Q2R (qsin a n) = sin_approx (Q2R a) n.
Proof.
unfold qsin, sin_approx. apply zq_sum; try lia.
- unfold sin_term, Q2R. simpl. field. apply IZR_neq. lia.
- unfold sin_term, Q2R. simpl. field. apply IZR_neq. lia.
- intros i. unfold sin_term. replace (2 * S i + 1)%nat with (S (S (2 * i + 1))) by lia.
  rewrite fact_SS. rewrite !mult_IZR.
  replace (Z.of_nat (2 * i + 1) + 1)%Z with (2 * Z.of_nat i + 2)%Z by lia.
  replace (Z.of_nat (2 * i + 1) + 2)%Z with (2 * Z.of_nat i + 3)%Z by lia.
  assert (0 < IZR (2 * Z.of_nat i + 2)) by (apply IZR_lt; lia).
  assert (0 < IZR (2 * Z.of_nat i + 3)) by (apply IZR_lt; lia).
  assert (0 < IZR (QDen a)) by (apply IZR_lt; lia). pose proof (INR_fact_lt_0 (2 * i + 1)).
  cbn [pow]. unfold Q2R. field. lra.
Qed.
Lemma Q2R_qcos a n : Q2R (qcos a n) = cos_approx (Q2R a) n.
Proof.
unfold qcos, cos_approx. apply zq_sum; try lia.
- unfold cos_term. simpl. field.
- unfold cos_term. simpl. field.
- intros i. unfold cos_term. replace (2 * S i)%nat with (S (S (2 * i))) by lia.
  rewrite fact_SS. rewrite !mult_IZR.
  replace (Z.of_nat (2 * i) + 1)%Z with (2 * Z.of_nat i + 1)%Z by lia.
  replace (Z.of_nat (2 * i) + 2)%Z with (2 * Z.of_nat i + 2)%Z by lia.
  assert (0 < IZR (2 * Z.of_nat i + 1)) by (apply IZR_lt; lia).
  assert (0 < IZR (2 * Z.of_nat i + 2)) by (apply IZR_lt; lia).
  assert (0 < IZR (QDen a)) by (apply IZR_lt; lia). pose proof (INR_fact_lt_0 (2 * i)).
  cbn [pow]. unfold Q2R. field. lra.
Qed.
Lemma sin_q a n : 0 <= Q2R a <= 4 -> Q2R (qsin a (2 * n + 1)) <= sin (Q2R a) <= Q2R (qsin a (2 * (n + 1))).
Proof. intros [H1 H2]. rewrite !Q2R_qsin. now apply pre_sin_bound. Qed.
Lemma cos_q a n : 0 <= Q2R a <= 2 -> Q2R (qcos a (2 * n + 1)) <= cos (Q2R a) <= Q2R (qcos a (2 * (n + 1))).
Proof. intros [H1 H2]. rewrite !Q2R_qcos. apply pre_cos_bound; lra. Qed.

Definition qatan (x : Q) (i : nat) : Q := Qdiv (qpow x (2 * i + 1)) (inject_Z (Z.of_nat (2 * i + 1))).
Definition qpi4 (n : nat) : Q :=
  qsum (fun i => Qmult (qsgn i) (Qplus (Qmult 2 (qatan (1 # 3) i)) (qatan (1 # 7) i))) n.
Lemma Q2R_qatan x i : Q2R (qatan x i) = Ratan_seq (Q2R x) i.
Proof.
unfold qatan, Ratan_seq. rewrite Q2R_div by (apply inject_nz; lia).
now rewrite Q2R_qpow, Q2R_inject, INR_IZR_INZ.
Qed.
Lemma Q2R_qpi4 n : Q2R (qpi4 n) = sum_f_R0 (tg_alt PI_2_3_7_tg) n.
Proof.
unfold qpi4. apply Q2R_qsum. intros i. unfold tg_alt, PI_2_3_7_tg.
rewrite Q2R_mult, Q2R_qsgn, Q2R_plus, Q2R_mult, !Q2R_qatan.
replace (Q2R (1 # 3)) with (/ 3) by (unfold Q2R; simpl; lra).
replace (Q2R (1 # 7)) with (/ 7) by (unfold Q2R; simpl; lra).
replace (Q2R 2) with 2 by (unfold Q2R; simpl; lra). reflexivity.
Qed.
Lemma pi_q n : 4 * Q2R (qpi4 (S (2 * n))) <= PI <= 4 * Q2R (qpi4 (2 * n)).
Proof. rewrite !Q2R_qpi4. pose proof (PI_2_3_7_ineq n). lra. Qed.

(** Comparison with rationals, decided by computation. *)
Lemma q_le a b : Qle_bool a b = true -> Q2R a <= Q2R b.
Proof. intros H. apply Qle_Rle. now apply Qle_bool_iff. Qed.
Definition Qlt_bool (a b : Q) : bool := negb (Qle_bool b a).
Lemma q_lt a b : Qlt_bool a b = true -> Q2R a < Q2R b.
Proof.
intros H. apply Qlt_Rlt. unfold Qlt_bool in H. apply Qnot_le_lt. intros L. apply Qle_bool_iff in L. now rewrite L in H.
Qed.
Lemma Q2R_make (n : Z) (d : BinNums.positive) : Q2R (n # d) = IZR n / IZR (Zpos d).
Proof. reflexivity. Qed.

(** 25 digits of pi. *)
Definition pi_lo : Q := 31415926535897932384626433 # 10000000000000000000000000.
Definition pi_hi : Q := 31415926535897932384626434 # 10000000000000000000000000.
Lemma pi_bounds : Q2R pi_lo < PI < Q2R pi_hi.
Proof.
pose proof (pi_q 14) as [H1 H2]. split.
- apply Rlt_le_trans with (2 := H1). replace 4 with (Q2R 4) by (unfold Q2R; simpl; lra).
  rewrite <- Q2R_mult. apply q_lt. vm_compute. reflexivity.
- apply Rle_lt_trans with (1 := H2). replace 4 with (Q2R 4) by (unfold Q2R; simpl; lra).
  rewrite <- Q2R_mult. apply q_lt. vm_compute. reflexivity.
Qed.
