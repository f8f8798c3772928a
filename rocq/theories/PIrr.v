(** * Pi is irrational (Niven's proof), hence no floating-point number is a pole of
      the tangent *)
From Coq Require Import ZArith Reals Bool List Lia Lra Psatz.
Import ListNotations.
Local Open Scope R_scope.

(** ** Integer polynomials, low-order coefficient first *)
Fixpoint peval (p : list Z) (x : R) : R := match p with [] => 0 | c :: q => IZR c + x * peval q x end.
Fixpoint padd (p q : list Z) : list Z :=
  match p, q with
  | [], _ => q
  | _, [] => p
  | c :: p', d :: q' => (c + d)%Z :: padd p' q'
  end.
Fixpoint pder (p : list Z) : list Z :=
  match p with
  | [] => []
  | _ :: q => match q with [] => [] | _ => padd q (0%Z :: pder q) end
  end.
Definition pscale (a : Z) (p : list Z) : list Z := map (Z.mul a) p.

Lemma pder_eq c d q : pder (c :: d :: q) = padd (d :: q) (0%Z :: pder (d :: q)).
Proof. reflexivity. Qed.
Lemma peval_add p q x : peval (padd p q) x = peval p x + peval q x.
Proof.
revert q. induction p as [|c p IH]; intros [|d q]; simpl; try lra. rewrite plus_IZR, IH. lra.
Qed.
Lemma peval_scale a p x : peval (pscale a p) x = IZR a * peval p x.
Proof. induction p as [|c p IH]; [simpl; lra|]. change (pscale a (c :: p)) with ((a * c)%Z :: pscale a p). cbn [peval]. rewrite mult_IZR, IH. lra. Qed.
Lemma pder_cons c q x : peval (pder (c :: q)) x = peval q x + x * peval (pder q) x.
Proof. destruct q as [|d q]; [simpl; lra|]. rewrite pder_eq, peval_add. cbn [peval]. lra. Qed.
Lemma length_add p q : length (padd p q) = Nat.max (length p) (length q).
Proof. revert q. induction p as [|c p IH]; intros [|d q]; simpl; try lia. now rewrite IH. Qed.
Lemma length_der p : length (pder p) = pred (length p).
Proof.
induction p as [|c q IH]; [reflexivity|]. destruct q as [|d q]; [reflexivity|].
rewrite pder_eq, length_add. change (length (0%Z :: pder (d :: q))) with (S (length (pder (d :: q)))). rewrite IH. simpl. lia.
Qed.
Lemma nth_add p q i : nth i (padd p q) 0%Z = (nth i p 0 + nth i q 0)%Z.
Proof.
revert q i. induction p as [|c p IH]; intros [|d q] [|i]; simpl; try lia. apply IH.
Qed.
Lemma nth_der p i : nth i (pder p) 0%Z = (Z.of_nat (S i) * nth (S i) p 0)%Z.
Proof.
revert i. induction p as [|c q IH]; intros i; [destruct i; simpl; lia|].
destruct q as [|d q].
- simpl. destruct i; lia.
- rewrite pder_eq, nth_add. change (nth (S i) (c :: d :: q) 0%Z) with (nth i (d :: q) 0%Z).
  destruct i as [|i]; [cbn [nth]; lia|].
  change (nth (S i) (0%Z :: pder (d :: q)) 0%Z) with (nth i (pder (d :: q)) 0%Z). rewrite IH. lia.
Qed.
Lemma peval_0 p : peval p 0 = IZR (nth 0 p 0%Z).
Proof. destruct p; simpl; lra. Qed.
Lemma derive_peval p x : derivable_pt_lim (peval p) x (peval (pder p) x).
Proof.
induction p as [|c q IH].
- simpl. apply (derivable_pt_lim_const 0).
- rewrite pder_cons. 
  replace (peval q x + x * peval (pder q) x) with (0 + (1 * peval q x + x * peval (pder q) x)) by lra.
  change (peval (c :: q)) with (plus_fct (fct_cte (IZR c)) (mult_fct id (peval q))).
  apply derivable_pt_lim_plus; [apply derivable_pt_lim_const|].
  apply (derivable_pt_lim_mult id (peval q) x 1); [apply derivable_pt_lim_id|exact IH].
Qed.

(** ** Values of the derivatives at 0 *)
Fixpoint ders (j : nat) (p : list Z) : list Z := match j with O => p | S j => ders j (pder p) end.
Lemma nth_ders j p i : exists k, nth i (ders j p) 0%Z = (k * nth (i + j) p 0)%Z /\ (Z.of_nat (fact i) * k)%Z = Z.of_nat (fact (i + j)).
Proof.
revert p i. induction j as [|j IH]; intros p i; cbn [ders].
- exists 1%Z. rewrite Nat.add_0_r. lia.
- destruct (IH (pder p) i) as (k & E1 & E2). exists (k * Z.of_nat (S (i + j)))%Z. rewrite E1, nth_der.
  replace (i + S j)%nat with (S (i + j)) by lia. split; [lia|].
  change (fact (S (i + j))) with (S (i + j) * fact (i + j))%nat. rewrite Nat2Z.inj_mul, <- E2. lia.
Qed.
Lemma fact_divides n j : (n <= j)%nat -> exists k, Z.of_nat (fact j) = (k * Z.of_nat (fact n))%Z.
Proof.
induction 1 as [|j _ [k IH]]; [exists 1%Z; lia|].
exists (Z.of_nat (S j) * k)%Z. change (fact (S j)) with (S j * fact j)%nat. rewrite Nat2Z.inj_mul, IH. lia.
Qed.
Lemma ders_0 n q j : exists k, peval (ders j (repeat 0%Z n ++ q)) 0 = IZR (k * Z.of_nat (fact n)).
Proof.
rewrite peval_0. destruct (nth_ders j (repeat 0%Z n ++ q) 0) as (k & E1 & E2). simpl (0 + j)%nat in *.
destruct (le_lt_dec n j) as [H|H].
- destruct (fact_divides n j H) as [d D]. exists (d * nth j (repeat 0%Z n ++ q) 0)%Z. f_equal. rewrite E1.
  change (fact 0) with 1%nat in E2. replace k with (Z.of_nat (fact j)) by lia. rewrite D. lia.
- exists 0%Z. f_equal. rewrite E1. rewrite app_nth1 by now rewrite repeat_length.
  rewrite nth_repeat. lia.
Qed.

(** ** Symmetry *)
Lemma sym_der c s p : (forall x, peval p (c - x) = s * peval p x) -> forall x, peval (pder p) (c - x) = - s * peval (pder p) x.
Proof.
intros H x.
assert (D1 : derivable_pt_lim (fun y => peval p (c - y)) x (peval (pder p) (c - x) * (0 - 1))).
{ apply (derivable_pt_lim_comp (fun y => c - y) (peval p)).
  - apply derivable_pt_lim_minus; [apply derivable_pt_lim_const|apply derivable_pt_lim_id].
  - apply derive_peval. }
assert (D2 : derivable_pt_lim (fun y => s * peval p y) x (s * peval (pder p) x)).
{ apply (derivable_pt_lim_scal (peval p) s x). apply derive_peval. }
assert (D3 : derivable_pt_lim (fun y => peval p (c - y)) x (s * peval (pder p) x)).
{ intros e He. destruct (D2 e He) as [d Hd]. exists d. intros h H1 H2. rewrite !H. now apply Hd. }
pose proof (uniqueness_limite _ _ _ _ D1 D3). lra.
Qed.
Lemma sym_ders c j : forall p, (forall x, peval p (c - x) = peval p x) -> forall x, peval (ders (2 * j) p) (c - x) = peval (ders (2 * j) p) x.
Proof.
induction j as [|j IH]; intros p H x; [apply H|].
replace (2 * S j)%nat with (S (S (2 * j))) by lia. cbn [ders]. apply IH.
intros y. rewrite (sym_der c (-1)); [lra|]. intros z. rewrite (sym_der c 1); [lra|]. intros w. rewrite H. lra.
Qed.

(** ** The alternating sum of the even derivatives *)
Fixpoint alt (N : nat) (p : list Z) (x : R) : R :=
  match N with O => 0 | S N => peval p x - alt N (pder (pder p)) x end.
Fixpoint altd (N : nat) (p : list Z) (x : R) : R :=
  match N with O => 0 | S N => peval (pder p) x - altd N (pder (pder p)) x end.
Fixpoint altdd (N : nat) (p : list Z) (x : R) : R :=
  match N with O => 0 | S N => peval (pder (pder p)) x - altdd N (pder (pder p)) x end.
Lemma alt_d N : forall p x, derivable_pt_lim (alt N p) x (altd N p x).
Proof.
induction N as [|N IH]; intros p x; [apply (derivable_pt_lim_const 0)|].
change (alt (S N) p) with (minus_fct (peval p) (alt N (pder (pder p)))). cbn [altd].
apply derivable_pt_lim_minus; [apply derive_peval|apply IH].
Qed.
Lemma altd_d N : forall p x, derivable_pt_lim (altd N p) x (altdd N p x).
Proof.
induction N as [|N IH]; intros p x; [apply (derivable_pt_lim_const 0)|].
change (altd (S N) p) with (minus_fct (peval (pder p)) (altd N (pder (pder p)))). cbn [altdd].
apply derivable_pt_lim_minus; [apply derive_peval|apply IH].
Qed.
Lemma alt_sum N : forall p x, (length p <= 2 * N)%nat -> altdd N p x + alt N p x = peval p x.
Proof.
induction N as [|N IH]; intros p x H.
- destruct p; simpl in *; [lra|lia].
- cbn [altdd alt]. specialize (IH (pder (pder p)) x). rewrite !length_der in IH. specialize (IH ltac:(lia)). lra.
Qed.
Lemma alt_mult N z (x : R) : forall p, (forall j, exists k, peval (ders (2 * j) p) x = IZR (k * z)) ->
  exists k, alt N p x = IZR (k * z).
Proof.
induction N as [|N IH]; intros p H; [exists 0%Z; reflexivity|].
destruct (H 0%nat) as [k Hk]. destruct (IH (pder (pder p))) as [k' Hk'].
{ intros j. destruct (H (S j)) as [d Hd]. exists d. rewrite <- Hd. replace (2 * S j)%nat with (S (S (2 * j))) by lia. reflexivity. }
exists (k - k')%Z. cbn [alt]. rewrite Hk'. simpl in Hk. rewrite Hk, <- minus_IZR. f_equal. lia.
Qed.

(** ** x^n (a - b x)^n *)
Fixpoint lin (a b : Z) (n : nat) : list Z :=
  match n with O => [1%Z] | S n => padd (pscale a (lin a b n)) (0%Z :: pscale (- b) (lin a b n)) end.
Lemma peval_lin a b n x : peval (lin a b n) x = (IZR a - IZR b * x) ^ n.
Proof.
induction n as [|n IH]; [simpl; lra|]. cbn [lin]. rewrite peval_add, peval_scale. cbn [peval].
rewrite peval_scale, IH, opp_IZR. simpl. lra.
Qed.
Lemma length_lin a b n : length (lin a b n) = S n.
Proof.
induction n as [|n IH]; [reflexivity|]. cbn [lin]. rewrite length_add. cbn [length]. unfold pscale. rewrite !map_length, IH. lia.
Qed.
Lemma peval_rep n q x : peval (repeat 0%Z n ++ q) x = x ^ n * peval q x.
Proof. induction n as [|n IH]; simpl; [lra|]. rewrite IH. lra. Qed.

Theorem PI_irrational (a b : Z) : (0 < b)%Z -> PI <> IZR a / IZR b.
Proof.
intros Hb E. pose proof PI_RGT_0 as HP.
assert (HB : 0 < IZR b) by now apply IZR_lt.
assert (Ea : IZR a = IZR b * PI) by (rewrite E; field; lra).
assert (HA : 0 < IZR a) by (rewrite Ea; now apply Rmult_lt_0_compat).
assert (K : forall n, INR (fact n) <= PI * (PI * IZR a) ^ n).
{ intros n. set (g := repeat 0%Z n ++ lin a b n). set (N := S n).
  assert (Lg : (length g <= 2 * N)%nat) by (unfold g, N; rewrite app_length, repeat_length, length_lin; lia).
  assert (Eg : forall x, peval g x = x ^ n * (IZR a - IZR b * x) ^ n) by (intros; unfold g; now rewrite peval_rep, peval_lin).
  assert (Sg : forall x, peval g (PI - x) = peval g x).
  { intros x. rewrite !Eg, <- !Rpow_mult_distr. f_equal. rewrite Ea. ring. }
  destruct (alt_mult N (Z.of_nat (fact n)) 0 g) as [k0 K0]; [intros j; apply ders_0|].
  destruct (alt_mult N (Z.of_nat (fact n)) PI g) as [k1 K1].
  { intros j. replace PI with (PI - 0) by lra. rewrite sym_ders by easy. apply ders_0. }
  set (G := fun x => altd N g x * sin x - alt N g x * cos x).
  destruct (MVT_cor2 G (fun x => peval g x * sin x) 0 PI HP) as (c & Ec & Hc).
  { intros x _.
    assert (D : derivable_pt_lim G x ((altdd N g x * sin x + altd N g x * cos x) - (altd N g x * cos x + alt N g x * (- sin x)))).
    { apply (derivable_pt_lim_minus (fun x => altd N g x * sin x) (fun x => alt N g x * cos x)).
      - apply (derivable_pt_lim_mult (altd N g) sin); [apply altd_d|apply derivable_pt_lim_sin].
      - apply (derivable_pt_lim_mult (alt N g) cos); [apply alt_d|apply derivable_pt_lim_cos]. }
    rewrite <- (alt_sum N g x Lg). now match goal with |- derivable_pt_lim _ _ ?t => replace t with
      ((altdd N g x * sin x + altd N g x * cos x) - (altd N g x * cos x + alt N g x * (- sin x))) by ring end. }
  unfold G in Ec. rewrite sin_PI, cos_PI, sin_0, cos_0, K0, K1 in Ec.
  assert (Hs : 0 < sin c <= 1) by (split; [apply sin_gt_0; lra|apply SIN_bound]).
  assert (Hac : 0 < IZR a - IZR b * c < IZR a) by (rewrite Ea; nra).
  assert (Hg : 0 < peval g c <= (PI * IZR a) ^ n).
  { rewrite Eg, <- Rpow_mult_distr. split; [apply pow_lt; apply Rmult_lt_0_compat; lra|].
    apply pow_incr. split; [apply Rmult_le_pos; lra|]. apply Rmult_le_compat; lra. }
  assert (Ek : IZR ((k1 + k0) * Z.of_nat (fact n)) = peval g c * sin c * PI).
  { replace (peval g c * sin c * PI) with (peval g c * sin c * (PI - 0)) by ring. rewrite <- Ec.
    rewrite Z.mul_add_distr_r, plus_IZR. ring. }
  assert (Hpos : 0 < peval g c * sin c * PI) by (apply Rmult_lt_0_compat; [apply Rmult_lt_0_compat|]; lra).
  rewrite <- Ek in Hpos. apply lt_IZR in Hpos.
  assert (Hk : (1 <= k1 + k0)%Z) by (pose proof (lt_O_fact n); nia).
  assert (L1 : INR (fact n) <= IZR ((k1 + k0) * Z.of_nat (fact n))).
  { rewrite INR_IZR_INZ. apply IZR_le. pose proof (lt_O_fact n). nia. }
  rewrite Ek in L1. apply Rle_trans with (1 := L1). rewrite (Rmult_comm _ PI). apply Rmult_le_compat_l; [lra|].
  rewrite <- (Rmult_1_r ((PI * IZR a) ^ n)). apply Rmult_le_compat; lra. }
destruct (cv_speed_pow_fact (PI * IZR a) (/ PI)) as [n Hn]; [now apply Rinv_0_lt_compat|].
specialize (Hn n (le_n n)). specialize (K n). unfold R_dist in Hn. rewrite Rminus_0_r in Hn.
pose proof (INR_fact_lt_0 n) as Hf.
assert (Nf : INR (fact n) <> 0) by lra. assert (NP : PI <> 0) by lra.
assert (Hq : 0 < (PI * IZR a) ^ n / INR (fact n)).
{ apply Rdiv_lt_0_compat; [|easy]. apply pow_lt. now apply Rmult_lt_0_compat. }
rewrite Rabs_pos_eq in Hn by lra.
apply (Rmult_lt_compat_r (INR (fact n) * PI)) in Hn; [|now apply Rmult_lt_0_compat].
replace ((PI * IZR a) ^ n / INR (fact n) * (INR (fact n) * PI)) with (PI * (PI * IZR a) ^ n) in Hn by (field; easy).
replace (/ PI * (INR (fact n) * PI)) with (INR (fact n)) in Hn by (field; easy). lra.
Qed.
