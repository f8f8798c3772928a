(** * Proofs: the uncertain form, texts *)
From Coq Require Import ZArith NArith Reals Bool Ascii String List Lia Lra.
From Flocq Require Import Core.Core IEEE754.BinarySingleNaN.
From Verif Require Import Fmt Spec Exc MBase PBase MStream MText PText PText2 PPrint PPrint2 MPrint MRead MUncertain SpecLiteral PTrip PTrip2.
Import ListNotations.
Local Open Scope Z_scope.
Local Open Scope list_scope.
Local Open Scope m_scope.

(** ** Characters *)
Definition numeric (c : ascii) : bool := isdigit c || ceq c "." || ceq c "-" || ceq c "+".
Lemma dchar_isdigit up d : 0 <= d < 10 -> isdigit (dchar up d) = true.
Proof.
  intros H. assert (d = 0 \/ d = 1 \/ d = 2 \/ d = 3 \/ d = 4 \/ d = 5 \/ d = 6 \/ d = 7 \/ d = 8 \/ d = 9) as Hd by lia.
  repeat (destruct Hd as [-> | Hd]; [reflexivity|]). subst d. reflexivity.
Qed.
Lemma fixdigs_isdigit up k : forall n, forallb isdigit (fixdigs up 10 k n) = true.
Proof.
  induction k as [|k IH]; intros n; [easy|]. cbn [fixdigs]. rewrite forallb_app, IH. cbn [forallb andb].
  rewrite dchar_isdigit; [easy|]. apply Z.mod_pos_bound. lia.
Qed.
Lemma digs_isdigit up n : forallb isdigit (digs up 10 n) = true.
Proof. apply fixdigs_isdigit. Qed.
Lemma digit_numeric l : forallb isdigit l = true -> forallb numeric l = true.
Proof. intros H. apply forallb_forall. intros c Hc. rewrite forallb_forall in H. unfold numeric. now rewrite (H c Hc). Qed.
Lemma sign_numeric s : forallb numeric (sign_text s) = true. Proof. now destruct s. Qed.

(** ** find *)
Lemma find_none c t : forallb (fun a => negb (ceq a c)) t = true -> find c t = -1.
Proof.
  induction t as [|a t IH]; [easy|]. cbn [forallb find]. intros H. apply andb_prop in H. destruct H as [H1 H2].
  destruct (ceq a c); [easy|]. now rewrite (IH H2).
Qed.
Lemma find_app c t u : find c t = -1 -> find c (t ++ u) = if find c u <? 0 then find c u else find c u + size t.
Proof.
  unfold size. induction t as [|a t IH].
  - intros _. cbn. destruct (find c u <? 0); lia.
  - cbn [find app length]. destruct (ceq a c); [easy|]. intros H. destruct (Z.ltb_spec (find c t) 0) as [L|L]; [|lia].
    rewrite (IH H). destruct (Z.ltb_spec (find c u) 0) as [U|U].
    + destruct (Z.ltb_spec (find c u) 0); lia.
    + destruct (Z.ltb_spec (find c u + Z.of_nat (length t)) 0); lia.
Qed.
Lemma numeric_none c t : negb (numeric c) = true -> forallb numeric t = true -> find c t = -1.
Proof.
  intros Hc H. apply find_none. apply forallb_forall. intros a Ha. rewrite forallb_forall in H. specialize (H a Ha).
  destruct (ceq a c) eqn:E; [|easy]. exfalso. unfold ceq in E. apply N.eqb_eq in E. unfold code in E.
  assert (a = c) by now rewrite <- (ascii_N_embedding a), E, ascii_N_embedding. subst a. now rewrite H in Hc.
Qed.

(** ** std::stoi and std::stoll *)
Lemma digits_val_app b l m : forall acc, digits_val b acc (l ++ m) = match digits_val b acc l with Some v => digits_val b v m | None => None end.
Proof. induction l as [|c l IH]; intros acc; [easy|]. cbn [app digits_val]. destruct (digit c) as [d|]; [|easy]. destruct (_ <? b); [apply IH|easy]. Qed.
Lemma is_digit10 c d : is_digit 10 c d -> digit c = Some (Z.to_N d) /\ isdigit c = true.
Proof.
  intros [H1 H2]. assert (E : code c = (48 + Z.to_N d)%N) by lia. unfold digit, isdigit, between. rewrite E.
  assert ((48 <=? 48 + Z.to_N d)%N = true) as -> by (apply N.leb_le; lia). assert ((48 + Z.to_N d <=? 57)%N = true) as -> by (apply N.leb_le; lia).
  cbn [andb]. split; [f_equal; lia|easy].
Qed.
Lemma numeral_val l n : numeral 10 l n -> 0 <= n /\ forallb isdigit l = true /\ forall acc, digits_val 10 acc l = Some (acc * 10 ^ Z.of_nat (length l) + n).
Proof.
  induction 1 as [|l n c d H (I1 & I2 & I3) Hd].
  - split; [lia|]. split; [easy|]. intros acc. cbn. f_equal. ring.
  - destruct (is_digit10 c d Hd) as [E1 E2]. destruct Hd as [Hd _]. split; [lia|]. split; [now rewrite forallb_app, I2; cbn; rewrite E2|].
    intros acc. rewrite digits_val_app, I3. cbn [digits_val]. rewrite E1, Z2N.id by lia. assert (d <? 10 = true) as -> by (apply Z.ltb_lt; lia).
    f_equal. rewrite app_length, Nat.add_1_r, Nat2Z.inj_succ, Z.pow_succ_r by lia. ring.
Qed.
Lemma leading_all l : forallb isdigit l = true -> leading_digits l = l.
Proof. induction l as [|c l IH]; [easy|]. cbn. intros H. apply andb_prop in H. destruct H as [-> H]. now rewrite IH. Qed.
Lemma nat_val_numeral l n : numeral 10 l n -> l <> [] -> nat_val 10 (leading_digits l) = Some n.
Proof.
  intros H Hl. destruct (numeral_val l n H) as (_ & H1 & H2). rewrite leading_all by easy. unfold nat_val. destruct l; [easy|]. rewrite H2. f_equal.
Qed.
Lemma ceq_digit a c : isdigit a = true -> isdigit c = false -> ceq a c = false.
Proof.
  intros Ha Hc. destruct (ceq a c) eqn:E; [|easy]. unfold ceq in E. apply N.eqb_eq in E. unfold isdigit, between in *. now rewrite E, Hc in Ha.
Qed.
Lemma strto_sign s l n : numeral 10 l n -> l <> [] -> strto (sign_text s ++ l) = Some (sg s * n).
Proof.
  intros H Hl. destruct s; cbn [sign_text sg].
  - cbn [txt list_ascii_of_string app strto]. change (ceq "-" "-") with true. cbn iota. rewrite (nat_val_numeral l n) by easy. cbn [option_map]. reflexivity.
  - destruct (numeral_val l n H) as (_ & H1 & _). destruct l as [|c l]; [easy|]. cbn [app]. unfold strto.
    assert (isdigit c = true) as Hc by (cbn in H1; apply andb_prop in H1; tauto). rewrite !(ceq_digit c) by easy. rewrite (nat_val_numeral _ n) by easy. now rewrite Z.mul_1_l.
Qed.
Lemma strto_esign k l : numeral 10 l (Z.abs k) -> l <> [] -> strto (esign k ++ l) = Some k.
Proof.
  intros H Hl. unfold esign. destruct (Z.ltb_spec k 0) as [L|L].
  - change (txt "-") with (sign_text true). rewrite (strto_sign true l (Z.abs k)) by easy. cbn [sg]. f_equal. lia.
  - cbn [txt list_ascii_of_string app strto]. change (ceq "+" "-") with false. change (ceq "+" "+") with true. cbn iota. rewrite (nat_val_numeral l _ H Hl). f_equal. lia.
Qed.
Lemma sto_inv L t v s s' : sto L t s = (Ret v, s') -> s' = s /\ strto t = Some v /\ - L - 1 <= v <= L.
Proof.
  unfold sto. destruct (strto t) as [n|]; [|easy]. destruct (_ && _) eqn:E; [|easy]. intros [= <- <-]. split; [easy|]. split; [easy|].
  apply andb_prop in E. destruct E as [E1 E2]. apply Z.leb_le in E1, E2. lia.
Qed.
Lemma sto_some L t v : strto t = Some v -> - L - 1 <= v <= L -> sto L t = ret v.
Proof.
  intros E H. unfold sto. rewrite E. assert ((- L - 1 <=? v) && (v <=? L) = true) as -> by (apply andb_true_intro; split; apply Z.leb_le; lia). easy.
Qed.

(** ** Written numbers *)
Definition mant (s : bool) (p : nat) (N : Z) : text := sign_text s ++ digs false 10 (N / 10 ^ Z.of_nat p) ++ txt "." ++ fixdigs false 10 p N.
Definition etext (up : bool) (e : option Z) : text := match e with Some k => exp10 up k | None => [] end.
Definition all_digits (p : nat) (N : Z) : text := digs false 10 (N / 10 ^ Z.of_nat p) ++ fixdigs false 10 p N.
Lemma all_digits_numeral p N : 0 <= N -> numeral 10 (all_digits p N) N.
Proof.
  intros HN. assert (P : 0 < 10 ^ Z.of_nat p) by (apply Z.pow_pos_nonneg; lia). unfold all_digits.
  pose proof (numeral_app 10 _ _ _ _ (digs_numeral false 10 (N / 10 ^ Z.of_nat p) ltac:(lia) ltac:(apply Z.div_pos; lia)) (fixdigs_numeral false 10 p ltac:(lia) N HN)) as H.
  rewrite fixdigs_length in H. now rewrite Z.mul_comm, <- Z.div_mod in H by lia.
Qed.
Lemma all_digits_length p N : length (all_digits p N) = (ndig 10 (N / 10 ^ Z.of_nat p) + p)%nat.
Proof. unfold all_digits. now rewrite app_length, digs_length, fixdigs_length. Qed.
Lemma mant_mantissa p N : 0 <= N -> mantissa 10 (digs false 10 (N / 10 ^ Z.of_nat p) ++ txt "." ++ fixdigs false 10 p N) N p.
Proof.
  intros HN. pose proof (Mant_point 10 _ (fixdigs false 10 p N) N (all_digits_numeral p N HN)) as M. rewrite fixdigs_length in M. apply M.
  intros E. pose proof (all_digits_length p N) as L. unfold all_digits in L. rewrite E in L. pose proof (ndig_pos 10 (N / 10 ^ Z.of_nat p)). cbn in L. lia.
Qed.
Lemma mant_numeric s p N : forallb numeric (mant s p N) = true.
Proof.
  unfold mant. rewrite !forallb_app, sign_numeric, (digit_numeric (digs _ _ _)) by apply digs_isdigit. rewrite (digit_numeric (fixdigs _ _ _ _)) by apply fixdigs_isdigit. reflexivity.
Qed.
Lemma exp10_find up k : exp_pos (exp10 up k) = 0.
Proof.
  unfold exp_pos, exp10. set (r := esign k ++ fixdigs false 10 (Nat.max 2 (ndig 10 (Z.abs k))) (Z.abs k)).
  assert (R : forallb numeric r = true). { unfold r. rewrite forallb_app, (digit_numeric (fixdigs _ _ _ _)) by apply fixdigs_isdigit. unfold esign. now destruct (k <? 0). }
  assert (N1 : find "E" r = -1) by now apply numeric_none. assert (N2 : find "e" r = -1) by now apply numeric_none.
  destruct up; cbn [txt list_ascii_of_string app find]; [change (ceq "E" "E") with true; change (ceq "E" "e") with false|change (ceq "e" "E") with false; change (ceq "e" "e") with true]; cbn iota; [rewrite N2|rewrite N1]; reflexivity.
Qed.
Lemma exp_pos_app t u : forallb numeric t = true -> 0 <= exp_pos u -> exp_pos (t ++ u) = exp_pos u + size t.
Proof.
  intros H Hu. unfold exp_pos in *. rewrite !find_app by now apply numeric_none.
  assert (A : forall c u, -1 <= find c u). { clear. intros c u. induction u as [|a u IH]; cbn [find]; [lia|]. destruct (ceq a c); [lia|]. destruct (find c u <? 0); lia. }
  pose proof (A "E"%char u). pose proof (A "e"%char u). assert (0 <= size t) by (unfold size; lia).
  destruct (Z.ltb_spec (find "E" u) 0), (Z.ltb_spec (find "e" u) 0); lia.
Qed.
Lemma exp_pos_written s p N up e : exp_pos (mant s p N ++ etext up e) = match e with Some _ => size (mant s p N) | None => -1 end.
Proof.
  destruct e as [k|]; cbn [etext].
  - rewrite exp_pos_app; [now rewrite exp10_find|apply mant_numeric|now rewrite exp10_find].
  - rewrite app_nil_r. unfold exp_pos. pose proof (mant_numeric s p N). now rewrite !numeric_none.
Qed.

(** ** Operations on them *)
Lemma inside_app t u : inside (size t) (t ++ u) = true.
Proof. unfold inside, size. rewrite app_length. apply andb_true_intro. split; apply Z.leb_le; lia. Qed.
Lemma size_app t u : size (t ++ u) = size t + size u. Proof. unfold size. rewrite app_length. lia. Qed.
Lemma size_nonneg t : 0 <= size t. Proof. unfold size. lia. Qed.
Lemma size_to_nat t : Z.to_nat (size t) = length t. Proof. unfold size. lia. Qed.
Lemma skipn_app_all {A} (t u : list A) : skipn (length t) (t ++ u) = u.
Proof. now rewrite skipn_app, skipn_all, Nat.sub_diag. Qed.
Lemma firstn_app_all {A} (t u : list A) : firstn (length t) (t ++ u) = t.
Proof. now rewrite firstn_app, firstn_all, Nat.sub_diag, app_nil_r. Qed.
Lemma substr_from_app t u : substr_from (t ++ u) (size t) = ret u.
Proof. unfold substr_from. now rewrite inside_app, size_to_nat, skipn_app_all. Qed.
Lemma substr_rest t u : substr (t ++ u) (size t) (size (t ++ u) - size t) = ret u.
Proof. unfold substr. rewrite substr_from_app. mreds. rewrite size_app. replace (size t + size u - size t) with (size u) by ring. now rewrite size_to_nat, firstn_all. Qed.
Lemma substr_front t u : substr (t ++ u) 0 (size t) = ret t.
Proof.
  unfold substr, substr_from. assert (inside 0 (t ++ u) = true) as -> by (unfold inside; pose proof (size_nonneg (t ++ u)); apply andb_true_intro; split; apply Z.leb_le; lia).
  mreds. cbn [Z.to_nat skipn]. now rewrite size_to_nat, firstn_app_all.
Qed.
Lemma erase_from_app t u : erase_from (t ++ u) (size t) = ret t.
Proof. unfold erase_from. now rewrite inside_app, size_to_nat, firstn_app_all. Qed.
Lemma no_point_mant s p N : no_point (N.of_nat p) (mant s p N) = ret (sign_text s ++ all_digits p N).
Proof.
  unfold no_point, erase1, mant, all_digits. set (a := sign_text s ++ digs false 10 (N / 10 ^ Z.of_nat p)). set (f := fixdigs false 10 p N).
  assert (Lf : length f = p) by apply fixdigs_length.
  replace (sign_text s ++ digs false 10 (N / 10 ^ Z.of_nat p) ++ txt "." ++ f) with (a ++ txt "." ++ f) by (unfold a; now rewrite <- app_assoc).
  assert (E : size (a ++ txt "." ++ f) - Z.of_N (N.of_nat p) - 1 = size a) by (rewrite !size_app; unfold size; rewrite Lf; cbn [txt list_ascii_of_string length]; lia).
  rewrite E, inside_app, size_to_nat, firstn_app_all. replace (Z.to_nat (size a + 1)) with (length (a ++ txt ".")) by (unfold size; rewrite app_length; cbn; lia).
  rewrite app_assoc, skipn_app_all. unfold a. now rewrite <- app_assoc.
Qed.
Definition edigits (k : Z) : text := fixdigs false 10 (Nat.max 2 (ndig 10 (Z.abs k))) (Z.abs k).
Lemma edigits_numeral k : numeral 10 (edigits k) (Z.abs k) /\ edigits k <> [].
Proof.
  split; [apply fixdigs_full; lia|]. intros E. pose proof (fixdigs_length false 10 (Nat.max 2 (ndig 10 (Z.abs k))) (Z.abs k)) as L. fold (edigits k) in L. rewrite E in L. cbn [length] in L. lia.
Qed.
Lemma exp10_eq up k : exp10 up k = txt (if up then "E" else "e") ++ esign k ++ edigits k. Proof. reflexivity. Qed.
Lemma exp_of_written s p N up k : Z.abs k <= int_max -> exp_of (mant s p N ++ exp10 up k) (size (mant s p N)) = ret k.
Proof.
  intros H. unfold exp_of. rewrite exp10_eq. set (a := mant s p N). set (b := txt (if up then "E" else "e")). set (r := esign k ++ edigits k).
  assert (Hb : size b = 1) by (unfold b; now destruct up). replace (size a + 1) with (size (a ++ b)) by (rewrite size_app; lia).
  rewrite app_assoc. replace (size ((a ++ b) ++ r) - size a - 1) with (size ((a ++ b) ++ r) - size (a ++ b)) by (rewrite !size_app; lia).
  rewrite substr_rest. mreds. destruct (edigits_numeral k) as [E1 E2]. unfold stoi'. apply sto_some; [now apply strto_esign|unfold int_max in *; lia].
Qed.
(** The exponent of the midpoint, cut to n characters. *)
Lemma exp_cut up k n : Z.abs k <= int_max -> 1 + size (edigits k) <= n -> (u <- substr (exp10 up k) 1 n; stoi' u) = ret k.
Proof.
  intros H Hn. rewrite exp10_eq. unfold substr. set (b := txt (if up then "E" else "e")).
  assert (Hb : size b = 1) by (unfold b; now destruct up). rewrite <- Hb. rewrite substr_from_app. mreds.
  rewrite firstn_all2; [|rewrite app_length; unfold size in Hn; unfold esign; destruct (k <? 0); cbn [txt list_ascii_of_string length]; lia].
  destruct (edigits_numeral k) as [E1 E2]. unfold stoi'. apply sto_some; [now apply strto_esign|unfold int_max in *; lia].
Qed.
(** Taking digits away. *)
Lemma numeral_split l n j : numeral 10 l n -> (j <= length l)%nat ->
  numeral 10 (firstn (length l - j) l) (n / 10 ^ Z.of_nat j) /\ numeral 10 (skipn (length l - j) l) (n mod 10 ^ Z.of_nat j).
Proof.
  intros H. revert j. induction H as [|l n c d H IH Hd]; intros j Hj.
  - replace j with 0%nat by (cbn in Hj; lia). cbn. split; constructor.
  - rewrite app_length in *. cbn [length] in *. destruct j as [|j].
    + replace (length l + 1 - 0)%nat with (length (l ++ [c])) by (rewrite app_length; cbn; lia). rewrite firstn_all, skipn_all. change (10 ^ Z.of_nat 0) with 1. rewrite Z.div_1_r, Z.mod_1_r. split; [now constructor|constructor].
    + replace (length l + 1 - S j)%nat with (length l - j)%nat by lia. destruct (IH j) as [I1 I2]; [lia|]. destruct Hd as [Hd Hc].
      rewrite Nat2Z.inj_succ, Z.pow_succ_r by lia. assert (P : 0 < 10 ^ Z.of_nat j) by (apply Z.pow_pos_nonneg; lia).
      rewrite firstn_app, skipn_app. replace (length l - j - length l)%nat with 0%nat by lia. cbn [firstn skipn]. rewrite app_nil_r.
      assert (Q : (n * 10 + d) / 10 = n) by (rewrite Z.div_add_l by lia; rewrite Z.div_small; lia).
      assert (R : (n * 10 + d) mod 10 = d) by (rewrite Z.add_comm, Z.mod_add by lia; apply Z.mod_small; lia).
      rewrite <- Z.div_div, Q by lia. split; [easy|]. rewrite Z.rem_mul_r by lia. rewrite Q, R.
      replace (d + 10 * (n mod 10 ^ Z.of_nat j)) with (n mod 10 ^ Z.of_nat j * 10 + d) by ring. now constructor.
Qed.
Lemma zeros_numeral j : numeral 10 (spaces j "0") 0.
Proof.
  unfold spaces. induction j as [|j IH]; [constructor|]. cbn [repeat]. rewrite repeat_cons. change 0 with (0 * 10 + 0). constructor; [easy|]. split; [lia|]. left. split; [reflexivity|lia].
Qed.
Lemma numeral_nonneg l n : numeral 10 l n -> 0 <= n. Proof. intros H. now destruct (numeral_val l n H). Qed.
Lemma strto_signonly s : strto (sign_text s) = None. Proof. now destruct s. Qed.
Lemma align_digits s D N e away t' c v st st' st2 : numeral 10 D N -> D <> [] ->
  align (sign_text s ++ D) e away st = (Ret (t', c), st') -> stoll t' st' = (Ret v, st2) -> st' = st /\ st2 = st /\
  (0 <= e -> v = sg s * (N * 10 ^ e) /\ c = 0) /\
  (e < 0 -> v = sg s * (N / 10 ^ (- e)) /\ c = if negb (N mod 10 ^ (- e) =? 0) && away then 1 else 0).
Proof.
  intros HN HD. unfold align. destruct (Z.ltb_spec e 0) as [L|L]; intros H1 H2.
  - apply bind_inv in H1. destruct H1 as (u & s1 & H1 & H3). apply bind_inv in H3. destruct H3 as (w & s2 & H3 & H4). apply bind_inv in H4. destruct H4 as (t1 & s3 & H4 & H5).
    apply ret_inv in H5. destruct H5 as [[= <- <-] <-].
    unfold substr_from in H1. unfold resize in H4. set (j := Z.to_nat (- e)) in *.
    assert (Ej : e = - Z.of_nat j) by lia.
    destruct (inside (size (sign_text s ++ D) + e) (sign_text s ++ D)) eqn:I; [|easy]. apply ret_inv in H1. destruct H1 as [<- <-]. apply ret_inv in H4. destruct H4 as [<- <-].
    apply sto_inv in H2. destruct H2 as (-> & H2 & _). apply sto_inv in H3. destruct H3 as (-> & H3 & _).
    split; [easy|]. split; [easy|]. split; [lia|]. intros _.
    unfold inside in I. apply andb_prop in I. destruct I as [I1 I2]. apply Z.leb_le in I1, I2. unfold size in I1, I2, H2, H3. rewrite app_length in I1, I2, H2, H3.
    destruct (le_lt_dec (length D) j) as [Hj|Hj].
    { exfalso. assert (Z : exists b, firstn (Z.to_nat (Z.of_nat (length (sign_text s) + length D) + e)) (sign_text s ++ D) = sign_text b).
      { replace (Z.to_nat (Z.of_nat (length (sign_text s) + length D) + e)) with (length (sign_text s) - (j - length D))%nat by lia.
        rewrite firstn_app. replace (length (sign_text s) - (j - length D) - length (sign_text s))%nat with 0%nat by lia. cbn [firstn]. rewrite app_nil_r.
        destruct s; cbn [sign_text txt list_ascii_of_string length]; [|exists false; now rewrite firstn_nil].
        destruct (j - length D)%nat; [now exists true|exists false; now cbn]. }
      destruct Z as [b Z]. rewrite Z, strto_signonly in H2. easy. }
    replace (Z.to_nat (Z.of_nat (length (sign_text s) + length D) + e)) with (length (sign_text s) + (length D - j))%nat in H2, H3 by lia.
    rewrite firstn_app_2 in H2. rewrite skipn_app in H3. rewrite skipn_all2 in H3 by lia. replace (length (sign_text s) + (length D - j) - length (sign_text s))%nat with (length D - j)%nat in H3 by lia. cbn [app] in H3.
    destruct (numeral_split D N j HN ltac:(lia)) as [S1 S2].
    rewrite (strto_sign s _ _ S1) in H2 by (intros E; apply (f_equal (@length _)) in E; rewrite firstn_length in E; cbn [length] in E; lia).
    assert (Hs : strto (sign_text false ++ skipn (length D - j) D) = Some w) by exact H3.
    rewrite (strto_sign false _ _ S2) in Hs by (intros E; apply (f_equal (@length _)) in E; rewrite skipn_length in E; cbn [length] in E; lia).
    injection H2 as <-. rewrite Z.mul_1_l in Hs; injection Hs as <-. rewrite Ej, Z.opp_involutive. now split.
  - apply ret_inv in H1. destruct H1 as [[= <- <-] ->]. apply sto_inv in H2. destruct H2 as (-> & H2 & _). split; [easy|]. split; [easy|]. split; [|lia]. intros _. split; [|easy].
    rewrite <- app_assoc in H2. pose proof (numeral_app 10 _ _ _ _ HN (zeros_numeral (Z.to_nat e))) as A. unfold spaces in A at 2. rewrite repeat_length, Z.add_0_r, Z2Nat.id in A by easy.
    rewrite (strto_sign s _ _ A) in H2; [now injection H2 as <-|]. intros E. apply app_eq_nil in E. easy.
Qed.
(** In the other direction: when the call returns. *)
Lemma align_up s D N e away v : numeral 10 D N -> D <> [] -> 0 <= e -> v = sg s * (N * 10 ^ e) -> - llong_max - 1 <= v <= llong_max ->
  exists t', align (sign_text s ++ D) e away = ret (t', 0) /\ stoll t' = ret v.
Proof.
  intros HN HD He Hv Hr. exists ((sign_text s ++ D) ++ spaces (Z.to_nat e) "0"). unfold align. destruct (Z.ltb_spec e 0); [lia|]. split; [easy|].
  apply sto_some; [|easy]. rewrite <- app_assoc. pose proof (numeral_app 10 _ _ _ _ HN (zeros_numeral (Z.to_nat e))) as A. unfold spaces in A at 2. rewrite repeat_length, Z.add_0_r, Z2Nat.id in A by easy.
  rewrite (strto_sign s _ _ A); [now rewrite Hv|]. intros E. apply app_eq_nil in E. easy.
Qed.
