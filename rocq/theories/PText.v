(** * Facts about the text of numbers *)
From Coq Require Import ZArith NArith Reals Bool Ascii String List Lia Lra Zquot Zdiv.
From Flocq Require Import Core.Core IEEE754.BinarySingleNaN.
From Verif Require Import Fmt MStream MText.
Import ListNotations.
Local Open Scope Z_scope.

(** ** Digits *)
Lemma log2_div_lt b n : 2 <= b -> b <= n -> Z.log2 (n / b) < Z.log2 n.
Proof.
intros Hb Hn. assert (0 < n / b) by (apply Z.div_str_pos; lia).
apply (Z.log2_lt_pow2 _ _ H). assert (n / b <= n / 2) by (apply Z.div_le_compat_l; lia).
assert (n < 2 ^ (Z.succ (Z.log2 n))) by (apply Z.log2_spec; lia).
assert (0 <= Z.log2 n) by apply Z.log2_nonneg. rewrite Z.pow_succ_r in H1 by easy.
assert (n / 2 < 2 ^ Z.log2 n) by (apply Z.div_lt_upper_bound; lia). lia.
Qed.
Lemma ndig_from_spec b : 2 <= b -> forall fuel n, 0 <= n -> Z.log2 n <= Z.of_nat fuel ->
  let k := ndig_from fuel b n in
  (1 <= k)%nat /\ n < b ^ Z.of_nat k /\ ((1 < k)%nat -> b ^ (Z.of_nat k - 1) <= n).
Proof.
intros Hb. induction fuel as [|f IH]; intros n Hn HL.
- cbn -[Z.pow]. split; [lia|]. split; [|lia]. destruct (Z.eq_dec n 0) as [->|]; [lia|].
  assert (n < 2) by (apply Z.log2_lt_cancel; cbn; lia). change (Z.of_nat 1) with 1. lia.
- cbn -[Z.pow Z.of_nat]. destruct (Z.ltb_spec n b) as [L|L].
  + split; [lia|]. change (Z.of_nat 1) with 1. rewrite Z.pow_1_r. lia.
  + assert (H1 := log2_div_lt b n Hb L).
    destruct (IH (n / b)) as (A & B & C); [apply Z.div_pos; lia|lia|].
    set (k := ndig_from f b (n / b)) in *. split; [lia|]. split.
    * rewrite Nat2Z.inj_succ, Z.pow_succ_r by lia.
      assert (n = b * (n / b) + n mod b) by (apply Z.div_mod; lia).
      assert (n mod b < b) by (apply Z.mod_pos_bound; lia). nia.
    * intros _. rewrite Nat2Z.inj_succ. replace (Z.succ (Z.of_nat k) - 1) with (Z.of_nat k) by lia.
      assert (b * (n / b) <= n) by (apply Z.mul_div_le; lia).
      destruct (Nat.eq_dec k 1) as [->|]; [change (Z.of_nat 1) with 1; lia|].
      replace (Z.of_nat k) with (Z.succ (Z.of_nat k - 1)) by lia. rewrite Z.pow_succ_r by lia.
      assert (b ^ (Z.of_nat k - 1) <= n / b) by (apply C; lia). nia.
Qed.
Lemma ndig_spec b n : 2 <= b -> 0 <= n ->
  (1 <= ndig b n)%nat /\ n < b ^ Z.of_nat (ndig b n) /\ ((1 < ndig b n)%nat -> b ^ (Z.of_nat (ndig b n) - 1) <= n).
Proof. intros Hb Hn. apply (ndig_from_spec b Hb); [easy|]. assert (0 <= Z.log2 n) by apply Z.log2_nonneg. lia. Qed.
Lemma ndig_pos b n : (1 <= ndig b n)%nat.
Proof. unfold ndig. generalize (Z.to_nat (Z.log2 n)). intros [|f]; cbn; [lia|]. destruct (n <? b); lia. Qed.
Lemma ndig_le b n k : 2 <= b -> 0 <= n -> 1 <= k -> n < b ^ k -> Z.of_nat (ndig b n) <= k.
Proof.
intros Hb Hn Hk H. destruct (ndig_spec b n Hb Hn) as (A & B & C).
destruct (Nat.eq_dec (ndig b n) 1) as [->|E]; [lia|]. assert (b ^ (Z.of_nat (ndig b n) - 1) < b ^ k) by (assert (1 < ndig b n)%nat by lia; specialize (C H0); lia).
apply Z.pow_lt_mono_r_iff in H0; lia.
Qed.
Lemma fixdigs_length up b k : forall n, length (fixdigs up b k n) = k.
Proof. induction k; intros n; cbn; [easy|]. rewrite app_length, IHk. cbn. lia. Qed.
Lemma digs_length up b n : length (digs up b n) = ndig b n.
Proof. apply fixdigs_length. Qed.

(** ** Lengths *)
Lemma strip_length l : (length (strip l) <= length l)%nat.
Proof. induction l as [|c l IH]; [easy|]. cbn. destruct (strip l); [destruct (ceq c "0")|]; cbn in *; lia. Qed.
Lemma point_length l : l <> [] -> length (point l) = S (length l).
Proof. now destruct l. Qed.
Lemma point_length_le l : (length (point l) <= S (length l))%nat.
Proof. destruct l; cbn; lia. Qed.
Lemma keep_length up b p N : (0 < p)%nat -> length (body up b p N keep) = (ndig b (N / b ^ Z.of_nat p) + 1 + p)%nat.
Proof.
intros Hp. unfold body, keep. rewrite app_length, digs_length, point_length, fixdigs_length; [lia|].
intros H. apply (f_equal (@length _)) in H. rewrite fixdigs_length in H. cbn in H. lia.
Qed.
Lemma strip_body_length up b p N : (length (body up b p N strip) <= ndig b (N / b ^ Z.of_nat p) + 1 + p)%nat.
Proof.
unfold body. rewrite app_length, digs_length. pose proof (point_length_le (strip (fixdigs up b p N))) as H.
pose proof (strip_length (fixdigs up b p N)) as H1. rewrite fixdigs_length in H1. lia.
Qed.
Lemma exp10_length up k : (4 <= length (exp10 up k))%nat.
Proof.
unfold exp10, esign. rewrite !app_length, fixdigs_length. pose proof (Nat.le_max_l 2 (ndig 10 (Z.abs k))) as H.
set (a := Nat.max 2 _) in *. clearbody a. destruct up, (k <? 0); cbn; lia.
Qed.
Lemma exp2_length up k : length (exp2 up k) = (2 + ndig 10 (Z.abs k))%nat.
Proof. unfold exp2, esign. rewrite !app_length, digs_length. destruct up, (k <? 0); cbn; lia. Qed.
Lemma body_pos up b p N z : (1 <= length (body up b p N z))%nat.
Proof. unfold body. rewrite app_length, digs_length. pose proof (ndig_pos b (N / b ^ Z.of_nat p)). lia. Qed.

(** ** Logarithm: b^k <= n/d < b^(k+1), without fractions *)
Definition pow_le (b k n d : Z) : Prop := let '(n', d') := shift b (- k) n d in d' <= n'.    (* b^k <= n/d *)
Lemma ilog_spec b n d : 2 <= b -> 0 < n -> 0 < d -> pow_le b (ilog b n d) n d /\ ~ pow_le b (ilog b n d + 1) n d.
Proof.
intros Hb Hn Hd. unfold ilog, pow_le, shift. destruct (Z.leb_spec d n) as [L|L].
- assert (H0 : 0 < n / d) by (apply Z.div_str_pos; lia).
  destruct (ndig_spec b (n / d) Hb) as (A & B & C); [lia|]. set (k := ndig b (n / d)) in *.
  assert (C' : b ^ (Z.of_nat k - 1) <= n / d).
  { destruct (Nat.eq_dec k 1) as [E|E]; [rewrite E; cbn; lia|apply C; lia]. }
  assert (D : d * (n / d) <= n) by (apply Z.mul_div_le; lia).
  split.
  + destruct (Z.leb_spec 0 (- (Z.of_nat k - 1))) as [P|P].
    * replace (Z.of_nat k - 1) with 0 by lia. cbn. lia.
    * replace (- - (Z.of_nat k - 1)) with (Z.of_nat k - 1) by lia. nia.
  + replace (Z.of_nat k - 1 + 1) with (Z.of_nat k) by lia.
    destruct (Z.leb_spec 0 (- Z.of_nat k)) as [P|P]; [lia|].
    rewrite Z.opp_involutive. intros H. assert (b ^ Z.of_nat k <= n / d) by (apply Z.div_le_lower_bound; lia). lia.
- assert (H0 : 0 < (d - 1) / n) by (apply Z.div_str_pos; lia).
  destruct (ndig_spec b ((d - 1) / n) Hb) as (A & B & C); [lia|]. set (k := ndig b ((d - 1) / n)) in *.
  assert (C' : b ^ (Z.of_nat k - 1) <= (d - 1) / n).
  { destruct (Nat.eq_dec k 1) as [E|E]; [rewrite E; cbn; lia|apply C; lia]. }
  assert (D : n * ((d - 1) / n) <= d - 1) by (apply Z.mul_div_le; lia).
  split.
  + rewrite Z.opp_involutive. destruct (Z.leb_spec 0 (Z.of_nat k)) as [P|P]; [|lia].
    assert (d - 1 = n * ((d - 1) / n) + (d - 1) mod n) by (apply Z.div_mod; lia).
    assert ((d - 1) mod n < n) by (apply Z.mod_pos_bound; lia). nia.
  + replace (- (- Z.of_nat k + 1)) with (Z.of_nat k - 1) by lia. destruct (Z.leb_spec 0 (Z.of_nat k - 1)); [|lia]. nia.
Qed.
