(** * Proofs: the texts of numbers are literals *)
From Coq Require Import ZArith NArith Reals Bool Ascii String List Lia Lra.
From Flocq Require Import Core.Core IEEE754.BinarySingleNaN.
From Verif Require Import Fmt Spec MStream MText PText PText2 PPrint PPrint2 SpecLiteral.
Import ListNotations.
Local Open Scope Z_scope.
Local Open Scope list_scope.

(** ** Digits *)
Lemma dchar_digit up b d : b <= 16 -> 0 <= d < b -> is_digit b (dchar up d) d.
Proof.
  intros Hb Hd. split; [lia|]. unfold dchar.
  assert (d = 0 \/ d = 1 \/ d = 2 \/ d = 3 \/ d = 4 \/ d = 5 \/ d = 6 \/ d = 7 \/ d = 8 \/ d = 9 \/ d = 10 \/ d = 11 \/ d = 12 \/ d = 13 \/ d = 14 \/ d = 15) as H by lia.
  destruct up; repeat (destruct H as [-> | H]; [vm_compute; auto 6; intuition congruence|]); subst d; vm_compute; intuition congruence.
Qed.
Lemma fixdigs_numeral up b k : 2 <= b <= 16 -> forall n, 0 <= n -> numeral b (fixdigs up b k n) (n mod b ^ Z.of_nat k).
Proof.
  intros Hb. induction k as [|k IH]; intros n Hn.
  - cbn [fixdigs]. change (b ^ Z.of_nat 0) with 1. rewrite Z.mod_1_r. constructor.
  - cbn [fixdigs]. rewrite Nat2Z.inj_succ, Z.pow_succ_r by lia. rewrite Z.rem_mul_r by (try apply Z.pow_pos_nonneg; lia).
    replace (n mod b + b * ((n / b) mod b ^ Z.of_nat k)) with ((n / b) mod b ^ Z.of_nat k * b + n mod b) by ring.
    constructor; [apply IH, Z.div_pos; lia|]. apply dchar_digit; [lia|]. apply Z.mod_pos_bound; lia.
Qed.
Lemma digs_numeral up b n : 2 <= b <= 16 -> 0 <= n -> numeral b (digs up b n) n.
Proof.
  intros Hb Hn. unfold digs. pose proof (fixdigs_numeral up b (ndig b n) Hb n Hn) as H.
  destruct (ndig_spec b n) as (_ & B & _); try lia. now rewrite Z.mod_small in H by lia.
Qed.
Lemma numeral_app b i n f m : numeral b i n -> numeral b f m -> numeral b (i ++ f) (n * b ^ Z.of_nat (length f) + m).
Proof.
  intros Hi. induction 1 as [|l m' c d H IH Hd].
  - rewrite app_nil_r. cbn. replace (n * 1 + 0) with n by ring. easy.
  - rewrite app_assoc, app_length, Nat.add_1_r, Nat2Z.inj_succ, Z.pow_succ_r by lia.
    replace (n * (b * b ^ Z.of_nat (length l)) + (m' * b + d)) with ((n * b ^ Z.of_nat (length l) + m') * b + d) by ring. now constructor.
Qed.
Lemma numeral_zeros b l j : forall n, numeral b (l ++ repeat "0"%char j) n -> exists n', numeral b l n' /\ n = n' * b ^ Z.of_nat j.
Proof.
  induction j as [|j IH]; intros n H.
  - exists n. cbn in *. rewrite app_nil_r in H. split; [easy|ring].
  - replace (l ++ repeat "0"%char (S j)) with ((l ++ repeat "0"%char j) ++ ["0"%char]) in H by (rewrite <- app_assoc; f_equal; cbn [app]; now rewrite <- repeat_cons).
    inversion H as [E|l' n0 c d H1 H2 E]; [now destruct (l ++ repeat "0"%char j)|].
    apply app_inj_tail in E. destruct E as [-> ->]. destruct (IH _ H1) as (n' & N1 & ->). exists n'. split; [easy|].
    assert (d = 0) as -> by (destruct H2 as [Ha Hb]; change (Z.of_N (code "0"%char)) with 48 in Hb; lia).
    rewrite Nat2Z.inj_succ, Z.pow_succ_r by lia. ring.
Qed.
Lemma strip_zeros l : exists j, l = strip l ++ repeat "0"%char j.
Proof.
  induction l as [|c l (j & IH)]; [now exists 0%nat|]. cbn [strip]. destruct (strip l) as [|d r] eqn:E.
  - destruct (ceq c "0") eqn:Ec; [|exists j; cbn in *; now f_equal].
    exists (S j). cbn in *. rewrite <- IH. f_equal. unfold ceq in Ec. apply N.eqb_eq in Ec. unfold code in Ec.
    rewrite <- (ascii_N_embedding c), Ec. reflexivity.
  - exists j. cbn [app] in *. now f_equal.
Qed.
Lemma powerRZ_bpow (b : radix) k : powerRZ (IZR b) k = bpow b k.
Proof. symmetry. apply bpow_powerRZ. Qed.
(** The value of a mantissa. *)
Definition mval (b : radix) (n : Z) (k : nat) : R := (IZR n * bpow b (- Z.of_nat k))%R.
Lemma mval_zeros b n k j : mval b (n * b ^ Z.of_nat j) (k + j) = mval b n k.
Proof.
  unfold mval. rewrite mult_IZR, IZR_pow by lia. rewrite Rmult_assoc, <- bpow_plus. do 2 f_equal. lia.
Qed.
Lemma body_mantissa (b : radix) up p N z : b <= 16 -> 0 <= N -> z = keep \/ z = strip ->
  exists n k, mantissa b (body up b p N z) n k /\ mval b n k = mval b N p /\ (k <= p)%nat.
Proof.
  intros Hb HN Hz. assert (H2 : 2 <= b <= 16) by (pose proof (radix_gt_1 b); lia). assert (P : 0 < b ^ Z.of_nat p) by (apply Z.pow_pos_nonneg; lia).
  set (i := digs up b (N / b ^ Z.of_nat p)). set (f := fixdigs up b p N).
  assert (Hi : numeral b i (N / b ^ Z.of_nat p)) by (apply digs_numeral; [easy|apply Z.div_pos; lia]).
  assert (Hi0 : i <> []) by (intros E; assert (L := digs_length up b (N / b ^ Z.of_nat p)); fold i in L; rewrite E in L; pose proof (ndig_pos b (N / b ^ Z.of_nat p)); cbn in L; lia).
  assert (Hf : numeral b f (N mod b ^ Z.of_nat p)) by (apply fixdigs_numeral; easy).
  assert (Lf : length f = p) by apply fixdigs_length.
  assert (Hif : numeral b (i ++ f) N).
  { pose proof (numeral_app _ _ _ _ _ Hi Hf) as H. rewrite Lf in H. rewrite Z.mul_comm, <- Z.div_mod in H by lia. easy. }
  assert (exists g j, z f = g /\ f = g ++ repeat "0"%char j) as (g & j & Eg & Ef).
  { destruct Hz as [-> | ->]; [exists f, 0%nat; split; [easy|cbn; now rewrite app_nil_r]|]. destruct (strip_zeros f) as [j E]. now exists (strip f), j. }
  assert (exists n, numeral b (i ++ g) n /\ N = n * b ^ Z.of_nat j) as (n & Hn & En).
  { apply numeral_zeros. rewrite <- app_assoc, <- Ef. easy. }
  assert (Lg : (length g + j = p)%nat) by (rewrite <- Lf, Ef, app_length, repeat_length; easy).
  exists n, (length g). split; [|split; [|lia]].
  - unfold body. fold i f. rewrite Eg. unfold point. destruct g as [|c g]; [rewrite app_nil_r in *; now constructor|].
    apply Mant_point; [easy|]. intros E. apply app_eq_nil in E. easy.
  - rewrite En, <- Lg. symmetry. apply mval_zeros.
Qed.

(** ** Signs and exponents *)
Definition sg (s : bool) : Z := if s then -1 else 1.
Lemma sign_no_plus s : no_plus (sign_text s) (sg s). Proof. destruct s; constructor. Qed.
Lemma sg_sgn s n (r : R) : (IZR (sg s * n) * r = sgn s (IZR n * r))%R.
Proof. destruct s; cbn [sg sgn]; rewrite mult_IZR; ring. Qed.
Lemma esign_any k : any_sign (esign k) (if k <? 0 then -1 else 1).
Proof. unfold esign. destruct (k <? 0); constructor. Qed.
Lemma fixdigs_full up b k n : 2 <= b <= 16 -> 0 <= n -> (ndig b n <= k)%nat -> numeral b (fixdigs up b k n) n.
Proof.
  intros Hb Hn Hk. pose proof (fixdigs_numeral up b k Hb n Hn) as H. destruct (ndig_spec b n) as (_ & B & _); try lia.
  rewrite Z.mod_small in H; [easy|]. split; [easy|]. apply Z.lt_le_trans with (1 := B). apply Z.pow_le_mono_r; lia.
Qed.
Lemma exp10_exponent up k : exponent "e" (exp10 up k) k.
Proof.
  assert (E : (if k <? 0 then -1 else 1) * Z.abs k = k) by (destruct (Z.ltb_spec k 0); lia). rewrite <- E at 2. clear E. unfold exp10.
  apply Exponent; [now destruct up|apply esign_any| |].
  - apply fixdigs_full; lia.
  - intros E. pose proof (fixdigs_length false 10 (Nat.max 2 (ndig 10 (Z.abs k))) (Z.abs k)) as H. rewrite E in H. cbn [length] in H. lia.
Qed.
Lemma exp2_exponent up k : exponent "p" (exp2 up k) k.
Proof.
  assert (E : (if k <? 0 then -1 else 1) * Z.abs k = k) by (destruct (Z.ltb_spec k 0); lia). rewrite <- E at 2. clear E. unfold exp2.
  apply Exponent; [now destruct up|apply esign_any| |].
  - apply digs_numeral; lia.
  - intros E. pose proof (digs_length false 10 (Z.abs k)) as H. rewrite E in H. pose proof (ndig_pos 10 (Z.abs k)). cbn [length] in H. lia.
Qed.

(** ** Numbers *)
Local Notation num := (number no_plus int_exponent).
Lemma decimal_num up s p N z : 0 <= N -> z = keep \/ z = strip -> Z.of_nat p <= 2 ^ 30 ->
  num (sign_text s ++ body up 10 p N z) (sgn s (mval radix10 N p)).
Proof.
  intros HN Hz Hp. destruct (body_mantissa radix10 up p N z) as (n & k & M & V & K); try easy.
  rewrite <- V. unfold mval. rewrite <- sg_sgn, <- powerRZ_bpow.
  apply (Decimal no_plus int_exponent _ (sg s)); [apply sign_no_plus|exact M|]. unfold int_exponent. lia.
Qed.
Lemma scientific_num up u s p N z k : 0 <= N -> z = keep \/ z = strip -> Z.of_nat p <= 2 ^ 30 -> Z.abs k <= 2 ^ 30 - 1 ->
  num (sign_text s ++ body up 10 p N z ++ exp10 u k) (sgn s (IZR N * bpow radix10 (k - Z.of_nat p))).
Proof.
  intros HN Hz Hp Hk. destruct (body_mantissa radix10 up p N z) as (n & j & M & V & K); try easy.
  replace (IZR N * bpow radix10 (k - Z.of_nat p))%R with (IZR n * bpow radix10 (k - Z.of_nat j))%R.
  - rewrite <- sg_sgn, <- powerRZ_bpow.
    apply (Decimal_e no_plus int_exponent _ (sg s)); [apply sign_no_plus|exact M|apply exp10_exponent|unfold int_exponent; lia|unfold int_exponent; lia].
  - unfold mval in V. unfold Z.sub. rewrite !(Z.add_comm k), !bpow_plus, <- !Rmult_assoc. now rewrite V.
Qed.
Lemma hex_num (up s : bool) p N z k : 0 <= N -> z = keep \/ z = strip -> Z.of_nat p <= 2 ^ 28 -> Z.abs k <= 2 ^ 30 - 1 ->
  num (sign_text s ++ txt (if up then "0X" else "0x") ++ body up 16 p N z ++ exp2 up k) (sgn s (IZR N * bpow radix2 (k - 4 * Z.of_nat p))).
Proof.
  intros HN Hz Hp Hk. destruct (body_mantissa radix16 up p N z) as (n & j & M & V & K); try easy.
  replace (IZR N * bpow radix2 (k - 4 * Z.of_nat p))%R with (IZR n * bpow radix2 (k - 4 * Z.of_nat j))%R.
  - rewrite <- sg_sgn, <- powerRZ_bpow.
    apply (Hexadecimal no_plus int_exponent _ (sg s)); [apply sign_no_plus|now destruct up|exact M|apply exp2_exponent|unfold int_exponent; lia|unfold int_exponent; lia].
  - unfold mval in V. rewrite !bpow16 in V. unfold Z.sub. rewrite !(Z.add_comm k), !bpow_plus, <- !Rmult_assoc.
    replace (- (4 * Z.of_nat j)) with (4 * - Z.of_nat j) by ring. replace (- (4 * Z.of_nat p)) with (4 * - Z.of_nat p) by ring. now rewrite V.
Qed.

(** ** mpfr_sprintf *)
(** The text is on the right side of the number. *)
Definition directed (m : mode) (r x : R) : Prop :=
  match m with mode_DN => (r <= x)%R | mode_UP => (x <= r)%R | _ => True end.
Lemma directed_round (b : radix) fexp (V : Valid_exp fexp) m x : directed m (round b fexp (round_mode m) x) x.
Proof. destruct m; cbn; try exact I; [apply round_DN_pt|apply round_UP_pt]; exact V. Qed.
Lemma directed_refl m x : directed m x x. Proof. destruct m; cbn; auto; lra. Qed.
Section Conv.
Variable F : fmt.
Definition small_fmt : Prop := emax F + prec F <= 2 ^ 26.
Hypothesis Hs : small_fmt.
Lemma sci_range (b : radix) m s p n d ma e : 0 <= n -> 0 < d -> ratio n d = (IZR ma * bpow radix2 e)%R -> 0 <= ma -> regular F ma e ->
  let '(N, k) := sci b m s p n d in 0 <= N /\ Z.abs k <= 2 ^ 26 /\
    exists k', sgn s (IZR N * bpow b (k - Z.of_nat p)) = k' /\ directed m k' (sgn s (ratio n d)).
Proof.
  intros A B C Hma Hr. pose proof (fmt_prec1 F). pose proof (fmt_emax F). unfold small_fmt in Hs.
  destruct (Z.eq_dec n 0) as [->|Nn].
  { rewrite sci_zero. split; [lia|]. split; [lia|]. eexists. split; [reflexivity|]. unfold ratio, Rdiv. rewrite !Rmult_0_l. apply directed_refl. }
  assert (Hn : 0 < n) by lia. pose proof (sci_spec b m s p n d Hn B) as S. pose proof (radix_gt_1 b) as Hb. destruct (sci b m s p n d) as [N k]. destruct S as (S1 & S3 & S2).
  assert (0 < b ^ Z.of_nat p) by (apply Z.pow_pos_nonneg; lia).
  split; [lia|]. split.
  - destruct (ilog_mag b n d Hn B) as [[I1 I2] _]. rewrite C in I1, I2.
    assert (Hm : (0 < ma)%Z). { destruct (Z.eq_dec ma 0) as [->|]; [|lia]. exfalso. rewrite Rmult_0_l in I1. pose proof (bpow_gt_0 b (ilog b n d)). lra. }
    destruct (regular_range F ma e Hr Hm) as [G1 G2]. set (i := ilog b n d) in *.
    assert (P2 : forall k, 0 <= k -> (bpow radix2 k <= bpow b k)%R).
    { intros k' Hk'. rewrite <- !IZR_pow by easy. apply IZR_le. apply Z.pow_le_mono_l. cbn. lia. }
    assert (i < emax F).
    { destruct (Z_lt_le_dec i 0); [lia|]. apply (lt_bpow radix2). pose proof (P2 i ltac:(lia)). lra. }
    assert (emin F <= i + 1).
    { destruct (Z_lt_le_dec (i + 1) 0) as [L|L]; [|unfold emin; lia]. apply Z.lt_le_incl. apply (lt_bpow radix2).
      apply Rle_lt_trans with (1 := G1). apply Rlt_le_trans with (1 := I2).
      replace (i + 1)%Z with (- (- (i + 1)))%Z by lia. rewrite !(bpow_opp _ (- (i + 1))). apply Rinv_le; [apply bpow_gt_0|]. apply P2. lia. }
    unfold emin in *. lia.
  - eexists. split; [reflexivity|]. rewrite S3. apply directed_round. apply FLX_exp_valid. unfold Prec_gt_0. lia.
Qed.

Lemma conv_num c up m p s ma e : 0 <= ma -> regular F ma e -> (forall q, p = Some q -> Z.of_nat q <= 2 ^ 26) ->
  exists r, num (sign_text s ++ conv c up m p s ma e) r /\ directed m r (sgn s (IZR ma * bpow radix2 e)) /\
    (c = c_a -> p = None -> r = sgn s (IZR ma * bpow radix2 e)).
Proof.
  intros Hma Hr Hp. unfold conv. pose proof (frac_spec ma e Hma) as HF. destruct (frac ma e) as [n d]. destruct HF as (A & B & C & D).
  set (q := match p with Some q => q | None => 6%nat end). assert (Hq : Z.of_nat q <= 2 ^ 26) by (unfold q; destruct p; [now apply Hp|lia]).
  assert (Fix : forall j, 0 <= rquo m s (n * 10 ^ Z.of_nat j) d).
  { intros j. assert (0 < 10 ^ Z.of_nat j) by (apply Z.pow_pos_nonneg; lia). pose proof (rquo_floor (n * 10 ^ Z.of_nat j) d ltac:(nia) B m s) as H1.
    assert (0 <= n * 10 ^ Z.of_nat j / d) by (apply Z.div_pos; nia). lia. }
  assert (Fix2 : forall j, directed m (sgn s (mval radix10 (rquo m s (n * 10 ^ Z.of_nat j) d) j)) (sgn s (ratio n d))).
  { intros j. unfold mval. pose proof (fix_spec radix10 m s j n d A B) as E. change (radix_val radix10) with 10 in E. rewrite E. apply directed_round, FIX_exp_valid. }
  destruct c.
  - exists (sgn s (mval radix10 (rquo m s (n * 10 ^ Z.of_nat q) d) q)). split; [|split; [|easy]]; [unfold conv_f; apply decimal_num; [apply Fix|now left|lia]|]. rewrite <- C. apply Fix2.
  - unfold conv_e. pose proof (sci_range radix10 m s q n d ma e A B C Hma Hr) as H. change (radix_val radix10) with 10 in H. destruct (sci 10 m s q n d) as [N k].
    destruct H as (H1 & H2 & r & H3 & H4). exists r. split; [|split; [now rewrite <- C|easy]]. rewrite <- H3. apply scientific_num; [easy|now left|lia|lia].
  - unfold conv_g. pose proof (sci_range radix10 m s (Nat.pred q) n d ma e A B C Hma Hr) as H. change (radix_val radix10) with 10 in H. destruct (sci 10 m s (Nat.pred q) n d) as [N k].
    destruct H as (H1 & H2 & r & H3 & H4). destruct ((-4 <=? k) && (k <? Z.of_nat q)) eqn:G.
    + cbv zeta. set (j := Z.to_nat (Z.of_nat (Nat.pred q) - k)). exists (sgn s (mval radix10 (rquo m s (n * 10 ^ Z.of_nat j) d) j)). split; [|split; [|easy]]; [apply decimal_num; [apply Fix|now right|unfold j; lia]|]. rewrite <- C. apply Fix2.
    + exists r. split; [|split; [now rewrite <- C|easy]]. rewrite <- H3. apply scientific_num; [easy|now right|lia|lia].
  - destruct p as [q'|].
    + unfold conv_a. pose proof (sci_range radix16 m s q' n d ma e A B C Hma Hr) as H. change (radix_val radix16) with 16 in H. destruct (sci 16 m s q' n d) as [N k].
      destruct H as (H1 & H2 & r & H3 & H4). exists r. split; [|split; [now rewrite <- C|easy]]. rewrite <- H3.
      replace (IZR N * bpow radix16 (k - Z.of_nat q'))%R with (IZR N * bpow radix2 (4 * k - 4 * Z.of_nat q'))%R by (rewrite bpow16; do 2 f_equal; ring).
      apply hex_num; [easy|now left|unfold q in Hq; lia|lia].
    + exists (sgn s (IZR ma * bpow radix2 e)). split; [|split; [apply directed_refl|easy]]. unfold conv_a_exact.
      set (k := if (ma =? 0)%Z then 0%Z else _). cbv zeta. set (j := Z.max 0 _).
      pose proof (fmt_prec1 F) as P1. pose proof (fmt_emax F) as P2. unfold small_fmt in Hs.
      assert (Hk : (4 * k <= Z.log2 ma + e < 4 * k + 4)%Z /\ (emin F - 3 <= 4 * k <= emax F + 3)%Z /\ (4 * k - e <= prec F - 1)%Z).
      { destruct Hr as [[-> ->]|Hc]; unfold k.
        - rewrite Z.eqb_refl. cbn [Z.log2]. unfold emin. lia.
        - destruct (Z.eqb_spec ma 0) as [->|Nz]; [lia|].
          assert (D1 := Z.div_mod (Z.log2 ma + e) 4 ltac:(lia)). assert (D2 := Z.mod_pos_bound (Z.log2 ma + e) 4 ltac:(lia)). lia. }
      destruct Hk as (K1 & K2 & K3).
      assert (D1 := Z.div_mod (4 * k - e + 3) 4 ltac:(lia)). assert (D2 := Z.mod_pos_bound (4 * k - e + 3) 4 ltac:(lia)).
      assert (X : (0 <= e + 4 * (j - k))%Z) by lia.
      replace (IZR ma * bpow radix2 e)%R with (IZR (ma * 2 ^ (e + 4 * (j - k))) * bpow radix2 (4 * k - 4 * Z.of_nat (Z.to_nat j)))%R.
      * apply hex_num; [apply Z.mul_nonneg_nonneg; [easy|]; apply Z.pow_nonneg; lia|now right|unfold emin in *; lia|unfold emin in *; lia].
      * rewrite mult_IZR. change 2 with (radix_val radix2) at 1. rewrite IZR_pow by easy. rewrite Rmult_assoc, <- bpow_plus. do 2 f_equal. rewrite Z2Nat.id by lia. ring.
Qed.
(** The text of a finite number. *)
Lemma finite_num c up m p (x : float F) : is_finite x = true -> (forall q, p = Some q -> Z.of_nat q <= 2 ^ 26) ->
  exists r, num (number_text c up m p x) r /\ directed m r (B2R x) /\ (c = c_a -> p = None -> r = B2R x).
Proof.
  intros Hx Hp. destruct (finite_cases F x Hx) as (s & ma & e & Hv & Hma & Ht & Hr). rewrite Ht, Hv. now apply conv_num.
Qed.
End Conv.
