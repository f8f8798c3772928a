(** * Which calls of get_str stay inside their buffer *)
From Coq Require Import ZArith NArith Reals Bool Ascii String List Lia Lra.
From Flocq Require Import Core.Core IEEE754.BinarySingleNaN.
From Verif Require Import Fmt Spec Exc Deco SpecApi SpecRel MBase PBase MBool PBool MNum MStream MDecoIo MText MMpfr MPrint PText PText2 PPrint FloatFacts.
Import ListNotations.
Local Open Scope R_scope.

Section Get.
Context (F : fmt).
Notation E := (setup_env (F := F)).

Lemma get_str_ok m r w p up (x : float F) :
  (N.of_nat (length (sprintf (N.to_nat w) (conversion_of r) up m (precision_of r p) x)) <= N.max w (req_width E r p x))%N ->
  returns (get_str E m r w p up x) (sprintf (N.to_nat w) (conversion_of r) up m (precision_of r p) x).
Proof. intros H s. unfold get_str, buffer_size. destruct (N.leb_spec (N.of_nat (length (sprintf (N.to_nat w) (conversion_of r) up m (precision_of r p) x)) + 1) (N.max w (req_width E r p x) + 1)); [easy|lia]. Qed.
Lemma get_str_ub m r w p up (x : float F) s :
  (N.max w (req_width E r p x) < N.of_nat (length (number_text (conversion_of r) up m (precision_of r p) x)))%N ->
  get_str E m r w p up x s = (UB, s).
Proof.
intros H. unfold get_str, buffer_size, sprintf. rewrite padded_length.
destruct (N.leb_spec (N.of_nat (Nat.max (N.to_nat w) (length (number_text (conversion_of r) up m (precision_of r p) x))) + 1) (N.max w (req_width E r p x) + 1)); [lia|easy].
Qed.
Lemma get_str_wide m r w p up (x : float F) :
  (length (number_text (conversion_of r) up m (precision_of r p) x) <= N.to_nat w)%nat ->
  returns (get_str E m r w p up x) (sprintf (N.to_nat w) (conversion_of r) up m (precision_of r p) x).
Proof. intros H. apply get_str_ok. unfold sprintf. rewrite padded_length. lia. Qed.

(** Hexadecimal *)
Lemma hex_number_length m up p (x : float F) : (emax F <= 2 ^ 62)%Z -> (4 * Z.of_N p <= prec F + 3)%Z ->
  (Z.of_nat (length (number_text c_a up m (precision_of r_hex p) x)) <= Z.of_N (req_prec (F := F) E) + Z.of_N (req_exp (F := F) E) + 9)%Z.
Proof.
intros H62 Hp. destruct (is_finite x) eqn:Hx.
- destruct (finite_cases F x Hx) as (s & ma & e & _ & Hma & Ht & Hr). rewrite Ht. unfold conv. pose proof (hex_prec_length F up m s (N.to_nat p) ma e H62 Hr) as HP.
  destruct (frac ma e) as [n d]. rewrite !app_length. pose proof (sign_length s) as HS.
  assert (H2 : length (txt (if up then "0X" else "0x")) = 2%nat) by now destruct up. rewrite H2.
  unfold precision_of. destruct (N.ltb_spec 0 p).
  + assert (G : (4 * Z.of_nat (N.to_nat p) <= prec F + 3)%Z) by lia. specialize (HP G). lia.
  + pose proof (hex_exact_length F up ma e H62 Hr). lia.
- destruct x as [s|s| |s ma e Hb]; try easy; cbn [number_text].
  + rewrite app_length. pose proof (sign_length s). destruct up; cbn -[Z.add]; lia.
  + destruct up; cbn -[Z.add]; lia.
Qed.
Lemma hex_fits m w p up (x : float F) : (emax F <= 2 ^ 62)%Z -> (4 * Z.of_N p <= prec F + 3)%Z ->
  returns (get_str E m r_hex w p up x) (sprintf (N.to_nat w) c_a up m (precision_of r_hex p) x).
Proof.
intros H62 Hp. apply (get_str_ok m r_hex). unfold sprintf. rewrite padded_length. cbn [conversion_of].
pose proof (hex_number_length m up p x H62 Hp) as H. pose proof (hex_width F p x H62) as W. lia.
Qed.
Lemma hex_overflow m w p up (x : float F) s : (emax F <= 2 ^ 62)%Z -> is_finite x = true ->
  (2 * prec F + 69 <= Z.of_N p)%Z -> (w <= p)%N -> get_str E m r_hex w p up x s = (UB, s).
Proof.
intros H62 Hx Hp Hw. apply get_str_ub. pose proof (hex_width F p x H62) as W. destruct (req_exp_spec F H62) as [R1 _]. destruct (req_prec_spec F H62) as [_ R2].
pose proof (fmt_prec1 F) as P1.
destruct (finite_cases F x Hx) as (sg & ma & e & _ & Hma & Ht & Hr). cbn [conversion_of]. rewrite Ht. unfold conv, precision_of. destruct (frac ma e) as [n d].
destruct (N.ltb_spec 0 p); [|lia]. rewrite !app_length. unfold conv_a. destruct (sci 16 m sg (N.to_nat p) n d) as [N k]. rewrite app_length.
rewrite keep_length by lia. rewrite exp2_length.
assert (H2 : length (txt (if up then "0X" else "0x")) = 2%nat) by now destruct up.
match goal with |- context [ndig 16 ?b] => pose proof (ndig_pos 16 b) end. lia.
Qed.

(** Decimal forms: the buffer has room for the digits after the point only. *)
Lemma width_decimal p (x : float F) : (emax F <= 2 ^ 62)%Z -> is_finite x = true -> (p < 2 ^ 32)%N -> req_width E r_decimal p x = p /\ req_width E r_decsci p x = p.
Proof.
intros H62 Hx Hp. pose proof (req_digits_small F x H62 Hx) as H. cbn [req_width]. unfold ulong.
rewrite N.mod_small. 2: { apply N2Z.inj_lt. rewrite N2Z.inj_pow. lia. }
destruct (N.ltb_spec 0 (1 + req_digits E x + 1 + 3 + p)); [easy|lia].
Qed.
Lemma width_scientific p (x : float F) : (p < 2 ^ 32)%N -> req_width E r_scientific p x = p.
Proof. intros Hp. cbn [req_width]. unfold ulong. rewrite N.mod_small by lia. destruct (N.ltb_spec 0 (3 + p)); [easy|lia]. Qed.

Definition digits_after (p : N) : N := if (0 <? p)%N then p else 6.
Lemma precision_dec r p : r <> r_hex -> precision_of r p = Some (N.to_nat (digits_after p)).
Proof. unfold precision_of, digits_after. destruct (0 <? p)%N; [easy|]. now destruct r. Qed.
Lemma digits_after_pos p : (0 < digits_after p)%N /\ (p <= digits_after p)%N.
Proof. unfold digits_after. destruct (N.ltb_spec 0 p); lia. Qed.

Lemma decimal_overflow m w p up (x : float F) s : (emax F <= 2 ^ 62)%Z -> is_finite x = true -> (p < 2 ^ 32)%N ->
  (w <= digits_after p + 1)%N -> get_str E m r_decimal w p up x s = (UB, s).
Proof.
intros H62 Hx Hp Hw. apply get_str_ub. destruct (width_decimal p x H62 Hx Hp) as [-> _]. rewrite precision_dec by easy.
destruct (finite_cases F x Hx) as (sg & ma & e & _ & Hma & Ht & Hr). cbn [conversion_of]. rewrite Ht. unfold conv. destruct (frac ma e) as [n d].
destruct (digits_after_pos p) as [D1 D2]. rewrite app_length. unfold conv_f. rewrite keep_length by lia.
match goal with |- context [ndig ?a ?b] => pose proof (ndig_pos a b) end. lia.
Qed.
Lemma scientific_overflow m w p up (x : float F) s : is_finite x = true -> (p < 2 ^ 32)%N ->
  (w <= digits_after p + 5)%N -> get_str E m r_scientific w p up x s = (UB, s).
Proof.
intros Hx Hp Hw. apply get_str_ub. rewrite (width_scientific p x Hp). rewrite precision_dec by easy.
destruct (finite_cases F x Hx) as (sg & ma & e & _ & Hma & Ht & Hr). cbn [conversion_of]. rewrite Ht. unfold conv. destruct (frac ma e) as [n d].
destruct (digits_after_pos p) as [D1 D2]. rewrite app_length. unfold conv_e. destruct (sci 10 m sg _ n d) as [N k]. rewrite app_length, keep_length by lia.
match goal with |- context [ndig ?a ?b] => pose proof (ndig_pos a b) end. pose proof (exp10_length up k). lia.
Qed.
Lemma number_text_pos c up m p (x : float F) : (1 <= length (number_text c up m p x))%nat.
Proof.
destruct x as [s|s| |s ma e Hb]; cbn [number_text]; rewrite ?app_length; try (destruct up; cbn; lia).
all: match goal with |- context [conv ?c ?u ?m ?p ?s ?ma ?e] => assert (1 <= length (conv c u m p s ma e))%nat; [|lia] end.
all: unfold conv; destruct (frac _ _) as [n d]; destruct c; rewrite ?app_length.
all: unfold conv_f, conv_e, conv_g; try apply body_pos; try (destruct (sci _ _ _ _ _ _)).
all: try (destruct (_ && _)); rewrite ?app_length; try (match goal with |- context [body ?a ?b ?c ?d ?e] => pose proof (body_pos a b c d e) end; lia).
all: destruct up; cbn; lia.
Qed.
(** With the default width and precision nothing fits. *)
Lemma default_overflow m up (x : float F) s : (emax F <= 2 ^ 62)%Z -> get_str E m r_decsci 0 0 up x s = (UB, s).
Proof.
intros H62. apply get_str_ub. pose proof (number_text_pos (conversion_of r_decsci) up m (precision_of r_decsci 0) x).
assert (W : req_width E r_decsci 0 x = 0%N); [|lia]. destruct (is_finite x) eqn:Hx; [apply width_decimal; easy|].
destruct x as [sg|sg| |sg ma e Hb]; try easy.
Qed.
(** Sufficient widths. *)
Lemma ndig_mono b n n' : (2 <= b)%Z -> (0 <= n <= n')%Z -> (ndig b n <= ndig b n')%nat.
Proof.
intros Hb Hn. destruct (ndig_spec b n' Hb) as (A & B & _); [lia|].
assert (Z.of_nat (ndig b n) <= Z.of_nat (ndig b n'))%Z; [|lia]. apply ndig_le; lia.
Qed.
Lemma regular_range (ma e : Z) : regular F ma e -> (0 < ma)%Z ->
  bpow radix2 (emin F) <= IZR ma * bpow radix2 e < bpow radix2 (emax F).
Proof.
intros [H|(_ & H1 & H2)] Hp; [lia|]. destruct (Z.log2_spec ma Hp) as [Hm1 Hm2]. assert (L0 := Z.log2_nonneg ma). assert (Pe := bpow_gt_0 radix2 e). split.
- apply Rle_trans with (bpow radix2 (Z.log2 ma + e)); [apply bpow_le; lia|]. rewrite bpow_plus. apply Rmult_le_compat_r; [lra|]. rewrite <- IZR_pow by easy. now apply IZR_le.
- apply Rlt_le_trans with (bpow radix2 (Z.log2 ma + 1 + e)); [|apply bpow_le; lia]. rewrite bpow_plus. apply Rmult_lt_compat_r; [lra|]. rewrite <- IZR_pow by lia. apply IZR_lt. rewrite Z.add_1_r. exact Hm2.
Qed.
Lemma finite_length c up m p (x : float F) k : is_finite x = true ->
  (forall s ma e, (0 <= ma)%Z -> regular F ma e -> (length (conv c up m p s ma e) <= k)%nat) ->
  (length (number_text c up m p x) <= k + 1)%nat.
Proof.
intros Hx H. destruct (finite_cases F x Hx) as (sg & ma & e & Hv & Hma & Ht & Hr). rewrite Ht, app_length. pose proof (sign_length sg).
specialize (H sg ma e Hma Hr). lia.
Qed.
Lemma decimal_length m p up (x : float F) : (0 < p)%nat -> is_finite x = true ->
  (length (number_text c_f up m (Some p) x) <= ndig 10 (2 ^ emax F) + p + 2)%nat.
Proof.
intros Hp Hx. replace (ndig 10 (2 ^ emax F) + p + 2)%nat with (ndig 10 (2 ^ emax F) + 1 + p + 1)%nat by lia. apply finite_length; [easy|].
intros sg ma e Hma Hr. unfold conv. pose proof (frac_spec ma e Hma) as HF. destruct (frac ma e) as [n d]. destruct HF as (A & B & C & D).
unfold conv_f. rewrite keep_length by easy. assert (T : (0 < 10 ^ Z.of_nat p)%Z) by (apply Z.pow_pos_nonneg; lia).
pose proof (fmt_prec1 F). pose proof (fmt_emax F).
assert (HN : (n < d * 2 ^ emax F)%Z).
{ assert (HR : ratio n d < bpow radix2 (emax F)).
  { rewrite C. destruct (Z.eq_dec ma 0) as [->|]; [rewrite Rmult_0_l; apply bpow_gt_0|]. apply regular_range; [easy|lia]. }
  apply lt_IZR. rewrite mult_IZR. change 2%Z with (radix_val radix2). rewrite IZR_pow by lia. apply IZR_lt in B. unfold ratio in HR.
  apply Rmult_lt_compat_l with (r := IZR d) in HR; [|easy]. replace (IZR d * (IZR n / IZR d)) with (IZR n) in HR by (field; lra). easy. }
pose proof (rquo_floor (n * 10 ^ Z.of_nat p) d ltac:(nia) B m sg) as HQ.
assert (HD : (n * 10 ^ Z.of_nat p / d < 2 ^ emax F * 10 ^ Z.of_nat p)%Z) by (apply Z.div_lt_upper_bound; nia).
assert (Hq0 : (0 <= n * 10 ^ Z.of_nat p / d)%Z) by (apply Z.div_pos; nia).
assert (ndig 10 (rquo m sg (n * 10 ^ Z.of_nat p) d / 10 ^ Z.of_nat p) <= ndig 10 (2 ^ emax F))%nat; [|lia].
apply ndig_mono; [lia|]. split; [apply Z.div_pos; lia|]. apply Z.div_le_upper_bound; [easy|]. lia.
Qed.
Lemma decimal_wide m w p up (x : float F) : is_finite x = true -> (ndig 10 (2 ^ emax F) + N.to_nat (digits_after p) + 2 <= N.to_nat w)%nat ->
  returns (get_str E m r_decimal w p up x) (sprintf (N.to_nat w) c_f up m (precision_of r_decimal p) x).
Proof.
intros Hx Hw. apply (get_str_wide m r_decimal). rewrite precision_dec by easy. cbn [conversion_of].
pose proof (decimal_length m (N.to_nat (digits_after p)) up x). destruct (digits_after_pos p). assert (0 < N.to_nat (digits_after p))%nat by lia. specialize (H H2 Hx). lia.
Qed.
Lemma pow10_2 k : (0 <= k)%Z -> bpow radix2 k <= bpow radix10 k.
Proof. intros H. rewrite <- !IZR_pow by easy. apply IZR_le. apply Z.pow_le_mono_l. cbn. lia. Qed.
Lemma scientific_length m p up (x : float F) : (0 < p)%nat -> is_finite x = true ->
  (length (number_text c_e up m (Some p) x) <= Nat.max 2 (ndig 10 (emax F + prec F)) + p + 5)%nat.
Proof.
intros Hp Hx. replace (Nat.max 2 (ndig 10 (emax F + prec F)) + p + 5)%nat with (Nat.max 2 (ndig 10 (emax F + prec F)) + p + 4 + 1)%nat by lia. apply finite_length; [easy|].
intros sg ma e Hma Hr. unfold conv. pose proof (frac_spec ma e Hma) as HF. destruct (frac ma e) as [n d]. destruct HF as (A & B & C & D).
pose proof (fmt_prec1 F). pose proof (fmt_emax F). assert (T : (0 < 10 ^ Z.of_nat p)%Z) by (apply Z.pow_pos_nonneg; lia).
unfold conv_e.
assert (HK : let '(N, k) := sci 10 m sg p n d in (0 <= N < 10 ^ (Z.of_nat p + 1))%Z /\ (Z.abs k <= emax F + prec F)%Z).
{ destruct (Z.eq_dec n 0) as [->|Nn]; [rewrite sci_zero; rewrite Z.pow_add_r by lia; lia|]. assert (Hn : (0 < n)%Z) by lia.
  pose proof (sci_spec radix10 m sg p n d Hn B) as S. change (radix_val radix10) with 10%Z in S. destruct (sci 10 m sg p n d) as [N k]. destruct S as (S1 & _ & S2).
  split; [lia|]. destruct (ilog_mag radix10 n d Hn B) as [[I1 I2] _]. change (radix_val radix10) with 10%Z in I1, I2. rewrite C in I1, I2.
  assert (Hm : (0 < ma)%Z). { destruct (Z.eq_dec ma 0) as [->|]; [|lia]. exfalso. rewrite Rmult_0_l in I1. pose proof (bpow_gt_0 radix10 (ilog 10 n d)). lra. }
  destruct (regular_range ma e Hr Hm) as [G1 G2]. set (i := ilog 10 n d) in *.
  assert (i < emax F)%Z.
  { destruct (Z_lt_le_dec i 0); [lia|]. apply (lt_bpow radix2). pose proof (pow10_2 i ltac:(lia)). lra. }
  assert (emin F <= i + 1)%Z.
  { destruct (Z_lt_le_dec (i + 1) 0) as [L|L]; [|unfold emin; lia]. apply Z.lt_le_incl. apply (lt_bpow radix2).
    apply Rle_lt_trans with (1 := G1). apply Rlt_le_trans with (1 := I2).
    replace (i + 1)%Z with (- (- (i + 1)))%Z by lia. rewrite !(bpow_opp _ (- (i + 1))). apply Rinv_le; [apply bpow_gt_0|]. apply pow10_2. lia. }
  unfold emin in *. lia. }
destruct (sci 10 m sg p n d) as [N k]. destruct HK as [HN HK]. rewrite app_length, keep_length by easy.
assert (N1 : (Z.of_nat (ndig 10 (N / 10 ^ Z.of_nat p)) <= 1)%Z).
{ apply ndig_le; [lia|apply Z.div_pos; lia|lia|]. apply Z.div_lt_upper_bound; [easy|]. rewrite Z.pow_add_r in HN by lia. lia. }
assert (N2 : (ndig 10 (Z.abs k) <= ndig 10 (emax F + prec F))%nat) by (apply ndig_mono; lia).
unfold exp10. rewrite !app_length, fixdigs_length.
assert (L1 : length (txt (if up then "E" else "e")) = 1%nat) by now destruct up.
assert (L2 : length (esign k) = 1%nat) by (unfold esign; now destruct (k <? 0)%Z). lia.
Qed.
Lemma scientific_wide m w p up (x : float F) : is_finite x = true -> (Nat.max 2 (ndig 10 (emax F + prec F)) + N.to_nat (digits_after p) + 5 <= N.to_nat w)%nat ->
  returns (get_str E m r_scientific w p up x) (sprintf (N.to_nat w) c_e up m (precision_of r_scientific p) x).
Proof.
intros Hx Hw. apply (get_str_wide m r_scientific). rewrite precision_dec by easy. cbn [conversion_of].
pose proof (scientific_length m (N.to_nat (digits_after p)) up x). destruct (digits_after_pos p). assert (0 < N.to_nat (digits_after p))%nat by lia. specialize (H H2 Hx). lia.
Qed.
End Get.

(** ** Output of intervals with the default manipulators *)
Definition default_manip : manip := Manip r_decsci 0 0 s_text true 0.
Lemma default_output_ub {F : fmt} (o : ostream) (x : itv F) s : (emax F <= 2 ^ 62)%Z ->
  (exists r, mem r x) -> (exists r, ~ mem r x) -> fst (write_itv o default_manip x s) = UB.
Proof.
intros H62 He Hn. assert (Hw : wf x) by now right.
assert (A : isnan (fst x) = false).
{ destruct (is_empty_decides x Hw) as (b & Hb & Hd). specialize (Hb s). rewrite (is_empty_wf x Hw) in Hb. injection Hb as ->.
  destruct b; [|easy]. destruct He as [r Hr]. exfalso. now apply (proj1 Hd eq_refl r). }
assert (B : (feq (fst x) fminf && feq (snd x) finf)%bool = false).
{ destruct (is_entire_decides x Hw) as (b & Hb & Hd). specialize (Hb s). rewrite (is_entire_wf x Hw) in Hb. injection Hb as ->.
  destruct b; [|easy]. destruct Hn as [r Hr]. exfalso. now apply Hr, (proj1 Hd eq_refl). }
unfold write_itv, parts, n_inf, n_sup. rewrite (is_valid_wf x Hw), (is_empty_wf x Hw), (is_entire_wf x Hw), A, B.
unfold mif, mnot, mor, mand, bind, ret. cbn [negb]. cbn [m_number m_width m_precision default_manip]. rewrite default_overflow by easy. reflexivity.
Qed.
