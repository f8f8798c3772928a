(** * Proofs: the uncertain form encloses *)
From Coq Require Import ZArith NArith Reals Bool Ascii String List Lia Lra.
From Flocq Require Import Core.Core IEEE754.BinarySingleNaN.
From Verif Require Import Fmt Spec FloatFacts Exc Deco SpecApi MBase MBool MNum PBase PClass MStream MText PText PText2 PPrint PPrint2 MPrint MRead MUncertain SpecLiteral SpecUncertain PTrip PTrip2 PUncert PUncert2.
Import ListNotations.
Local Open Scope Z_scope.
Local Open Scope list_scope.
Local Open Scope m_scope.

Lemma lchk_inv {A} v (k : M A) st a st' : lchk v k st = (Ret a, st') -> k st = (Ret a, st') /\ - llong_max - 1 <= v <= llong_max.
Proof. unfold lchk. destruct (_ && _) eqn:E; [|easy]. intros H. split; [easy|]. apply andb_prop in E. destruct E as [E1 E2]. apply Z.leb_le in E1, E2. lia. Qed.
Lemma ichk_ok {A} v (k : M A) : Z.abs v <= 2 ^ 30 -> ichk v k = k.
Proof. intros H. unfold ichk. assert (is_int v = true) as ->; [|easy]. unfold is_int, int_max. apply andb_true_intro. split; apply Z.leb_le; lia. Qed.
Lemma all_digits_nonempty p N : all_digits p N <> [].
Proof. intros E. pose proof (all_digits_length p N) as L. rewrite E in L. pose proof (ndig_pos 10 (N / 10 ^ Z.of_nat p)). cbn in L. lia. Qed.

Lemma align_state t e away r st st' : align t e away st = (Ret r, st') -> st' = st.
Proof.
  unfold align. destruct (_ <? 0); intros A1; [|now apply ret_inv in A1].
  apply bind_inv in A1. destruct A1 as (a & t1 & B1 & A1). apply bind_inv in A1. destruct A1 as (b & t2 & B2 & A1). apply bind_inv in A1. destruct A1 as (c & t3 & B3 & A1). apply ret_inv in A1. destruct A1 as [_ ->].
  unfold substr_from in B1. destruct (inside _ _); [|easy]. apply ret_inv in B1. destruct B1 as [_ ->]. apply sto_inv in B2. destruct B2 as [-> _]. unfold resize in B3. destruct (inside _ _); [|easy]. now apply ret_inv in B3.
Qed.

Section Units.
Variable F : fmt.
Hypothesis Hs : small_fmt F.
Notation roomy := (roomy F).
Lemma edigits_room k p : (3 <= p)%nat -> 3 * Z.abs k < 3 * 10 ^ (Z.of_nat p - 1) -> 1 + size (edigits k) <= Z.of_nat p.
Proof.
  intros Hp Hk. unfold size, edigits. rewrite fixdigs_length. destruct (ndig_spec 10 (Z.abs k)) as (_ & _ & H); try lia.
  assert (ndig 10 (Z.abs k) <= p - 1)%nat; [|lia]. destruct (le_lt_dec (ndig 10 (Z.abs k)) (p - 1)) as [|L]; [easy|]. exfalso.
  assert (10 ^ (Z.of_nat p - 1) <= 10 ^ (Z.of_nat (ndig 10 (Z.abs k)) - 1)) by (apply Z.pow_le_mono_r; lia). specialize (H ltac:(lia)). lia.
Qed.
Lemma stoll_digits s D N v st st' : numeral 10 D N -> D <> [] -> stoll (sign_text s ++ D) st = (Ret v, st') -> st' = st /\ v = sg s * N.
Proof. intros HN HD H. apply sto_inv in H. destruct H as (-> & H & _). split; [easy|]. rewrite (strto_sign s D N HN HD) in H. now injection H as <-. Qed.

Section Both.
Variables (sci : bool) (p : nat) (up : bool) (x : itv F).
Variables (sl : bool) (Nl : Z) (el : option Z) (su : bool) (Nu : Z) (eu : option Z).
Hypothesis Hl : shaped F sci mode_DN p (fst x) sl Nl el.
Hypothesis Hu : shaped F sci mode_UP p (snd x) su Nu eu.
Notation tl := (mant sl p Nl ++ etext up el).
Notation tu := (mant su p Nu ++ etext up eu).
Lemma two_exps : (sci = true /\ (exists k, el = Some k) /\ exists k, eu = Some k) \/ (sci = false /\ el = None /\ eu = None).
Proof.
  destruct (shaped_kind F _ _ _ _ _ _ _ Hl) as [[E A]|[E A]], (shaped_kind F _ _ _ _ _ _ _ Hu) as [[E' B]|[E' B]]; try congruence; [left|right]; easy.
Qed.
Lemma units_both_inv m sm Nm em st str u es st' : shaped F sci mode_NE p m sm Nm em -> roomy sci p ->
  units_both (N.of_nat p) x tl tu (mant sm p Nm ++ etext up em) st = (Ret (str, u, es), st') ->
  st' = st /\ str = mant sm p Nm /\ es = etext up em /\ exists lv cl uv cu,
    aligned sl Nl (ex el - ex em) (flt (fst x) f0) lv cl /\ aligned su Nu (ex eu - ex em) (flt f0 (snd x)) uv cu /\
    u = Z.max (sg sm * Nm - (lv - cl)) (uv + cu - sg sm * Nm).
Proof.
  intros Hm Hr. pose proof (shaped_int F Hs _ _ _ _ _ _ _ Hl) as Il. pose proof (shaped_int F Hs _ _ _ _ _ _ _ Hu) as Iu. pose proof (shaped_int F Hs _ _ _ _ _ _ _ Hm) as Im.
  pose proof (all_digits_numeral p Nl (sh_nonneg _ _ _ _ _ _ _ _ Hl)) as Dl. pose proof (all_digits_numeral p Nu (sh_nonneg _ _ _ _ _ _ _ _ Hu)) as Du. pose proof (all_digits_numeral p Nm (sh_nonneg _ _ _ _ _ _ _ _ Hm)) as Dm.
  unfold units_both. rewrite !exp_pos_written.
  destruct two_exps as [(Hsci & (kl & Ekl) & (ku & Eku))|(Hsci & Ekl & Eku)].
  - destruct (shaped_kind F _ _ _ _ _ _ _ Hm) as [[_ (km & Ekm)]|[E _]]; [|congruence]. subst el eu em. cbn [etext ex] in *.
    rewrite !(proj2 (Z.leb_le 0 _)) by apply size_nonneg.
    rewrite substr_front. mreds. rewrite substr_rest. mreds. rewrite no_point_mant. mreds.
    destruct (Hr Hsci) as [Hp Hr']. pose proof (sh_exp _ _ _ _ _ _ _ _ Hm) as (_ & Km & _).
    rewrite exp_cut; [|unfold int_max; lia|].
    2: { rewrite size_app. unfold size at 2 3. rewrite all_digits_length. pose proof (ndig_pos 10 (Nm / 10 ^ Z.of_nat p)). pose proof (edigits_room km p Hp ltac:(lia)). lia. }
    mreds. rewrite !exp_of_written by (unfold int_max; lia). mreds. rewrite !ichk_ok by lia. rewrite !erase_from_app. mreds. rewrite !no_point_mant. mreds.
    intros H. apply bind_inv in H. destruct H as ([l3 cl] & s1 & A1 & H). apply bind_inv in H. destruct H as ([u3 cu] & s2 & A2 & H). apply bind_inv in H. destruct H as (mv & s3 & A3 & H). apply bind_inv in H. destruct H as (lv & s4 & A4 & H). cbn [fst snd] in *.
    apply stoll_digits with (N := Nm) in A3; [|easy|apply all_digits_nonempty]. destruct A3 as [-> ->].
    apply lchk_inv in H. destruct H as [H _]. apply lchk_inv in H. destruct H as [H _]. apply lchk_inv in H. destruct H as [H _]. apply lchk_inv in H. destruct H as [H _].
    apply bind_inv in H. destruct H as (uv & s5 & A5 & H). apply lchk_inv in H. destruct H as [H _]. apply lchk_inv in H. destruct H as [H _]. apply ret_inv in H. destruct H as [[= <- <- <-] ->].
    assert (s1 = st) by exact (align_state _ _ _ _ _ _ A1). assert (s2 = s1) by exact (align_state _ _ _ _ _ _ A2). subst s1 s2.
    destruct (align_digits sl _ Nl _ _ _ _ _ _ _ _ Dl (all_digits_nonempty _ _) A1 A4) as (_ & -> & L1 & L2).
    destruct (align_digits su _ Nu _ _ _ _ _ _ _ _ Du (all_digits_nonempty _ _) A2 A5) as (_ & -> & U1 & U2).
    split; [easy|]. split; [easy|]. split; [easy|]. exists lv, cl, uv, cu. split; [now split|].
    replace (ku - km) with (- (km - ku)) by ring. split; [now split|]. lia.
  - destruct (shaped_kind F _ _ _ _ _ _ _ Hm) as [[E _]|[_ Ekm]]; [congruence|]. subst el eu em. cbn [etext ex Z.leb Z.compare] in *. rewrite !app_nil_r. mreds. rewrite !no_point_mant. mreds. cbn [fst snd].
    intros H. apply bind_inv in H. destruct H as (mv & s3 & A3 & H). apply bind_inv in H. destruct H as (lv & s4 & A4 & H).
    apply stoll_digits with (N := Nm) in A3; [|easy|apply all_digits_nonempty]. destruct A3 as [-> ->].
    apply lchk_inv in H. destruct H as [H _]. apply lchk_inv in H. destruct H as [H _]. apply lchk_inv in H. destruct H as [H _]. apply lchk_inv in H. destruct H as [H _].
    apply bind_inv in H. destruct H as (uv & s5 & A5 & H). apply lchk_inv in H. destruct H as [H _]. apply lchk_inv in H. destruct H as [H _]. apply ret_inv in H. destruct H as [[= <- <- <-] ->].
    apply stoll_digits with (N := Nl) in A4; [|easy|apply all_digits_nonempty]. destruct A4 as [-> ->]. apply stoll_digits with (N := Nu) in A5; [|easy|apply all_digits_nonempty]. destruct A5 as [-> ->].
    split; [easy|]. split; [easy|]. split; [easy|]. exists (sg sl * Nl), 0, (sg su * Nu), 0.
    split; [split; [intros _; cbn; lia|lia]|]. split; [split; [intros _; cbn; lia|lia]|]. lia.
Qed.
Lemma units_side_inv (dir : bool) st str u es st' :
  units_side dir (N.of_nat p) x tl tu st = (Ret (str, u, es), st') ->
  st' = st /\ (if dir
   then str = mant sl p Nl /\ es = etext up el /\ exists uv cu, aligned su Nu (ex eu - ex el) (flt f0 (snd x)) uv cu /\ u = uv + cu - sg sl * Nl
   else str = mant su p Nu /\ es = etext up eu /\ exists lv cl, aligned sl Nl (ex el - ex eu) (flt (fst x) f0) lv cl /\ u = sg su * Nu - (lv - cl)).
Proof.
  pose proof (shaped_int F Hs _ _ _ _ _ _ _ Hl) as Il. pose proof (shaped_int F Hs _ _ _ _ _ _ _ Hu) as Iu.
  pose proof (all_digits_numeral p Nl (sh_nonneg _ _ _ _ _ _ _ _ Hl)) as Dl. pose proof (all_digits_numeral p Nu (sh_nonneg _ _ _ _ _ _ _ _ Hu)) as Du.
  pose proof (all_digits_nonempty p Nl) as Zl. pose proof (all_digits_nonempty p Nu) as Zu.
  unfold units_side. rewrite !exp_pos_written.
  destruct two_exps as [(Hsci & (kl & Ekl) & (ku & Eku))|(Hsci & Ekl & Eku)]; subst el eu.
  - cbn [etext ex] in *. rewrite !(proj2 (Z.leb_le 0 (size _))) by apply size_nonneg.
    destruct dir; rewrite ?(proj2 (Z.leb_le 0 (size _))) by apply size_nonneg; rewrite substr_front; mreds; rewrite substr_rest; mreds; rewrite exp_of_written by (unfold int_max; lia); mreds; rewrite erase_from_app; mreds; rewrite exp_of_written by (unfold int_max; lia); mreds; rewrite ichk_ok by lia; rewrite erase_from_app; mreds; rewrite !no_point_mant; mreds;
    intros H; apply bind_inv in H; destruct H as ([[l3 u3] c] & s1 & A1 & H); apply bind_inv in A1; destruct A1 as ([t3 c'] & s2 & A1 & A2); apply ret_inv in A2; destruct A2 as [[= <- <- <-] ->]; cbn [fst snd] in *;
    pose proof (align_state _ _ _ _ _ _ A1); subst s2;
    apply bind_inv in H; destruct H as (lv & s3 & A3 & H); apply lchk_inv in H; destruct H as [H _]; apply bind_inv in H; destruct H as (uv & s4 & A4 & H);
    apply lchk_inv in H; destruct H as [H _]; apply lchk_inv in H; destruct H as [H _]; apply ret_inv in H; destruct H as [[= <- <- <-] ->].
    + apply stoll_digits with (N := Nl) in A3; try easy. destruct A3 as [-> ->].
      destruct (align_digits su _ Nu _ _ _ _ _ _ _ _ Du Zu A1 A4) as (_ & -> & U1 & U2). split; [easy|]. split; [easy|]. split; [easy|].
      exists uv, c'. replace (ku - kl) with (- (kl - ku)) by ring. split; [now split|lia].
    + pose proof A3 as A3'. unfold stoll in A3'. apply sto_inv in A3'. destruct A3' as [E _]. subst s3. destruct (align_digits sl _ Nl _ _ _ _ _ _ _ _ Dl Zl A1 A3) as (_ & _ & U1 & U2).
      apply stoll_digits with (N := Nu) in A4; try easy. destruct A4 as [-> ->].
      split; [easy|]. split; [easy|]. split; [easy|]. exists lv, c'. split; [now split|lia].
  - cbn [etext ex Z.leb Z.compare] in *. rewrite !app_nil_r.
    assert (A0 : forall s N e, aligned s N (0 - 0) e (sg s * N) 0) by (intros s N e; split; [intros _; cbn; lia|lia]).
    destruct dir; mreds; cbn [Z.leb Z.compare]; mreds; rewrite ichk_ok by (cbn; lia); rewrite !no_point_mant; mreds; change (- (0 - 0)) with 0; change (0 - 0) with 0; unfold align; cbn [Z.ltb Z.compare]; mreds; cbn [fst snd]; rewrite ?app_nil_r;
    intros H; apply bind_inv in H; destruct H as (lv & s3 & A3 & H); apply lchk_inv in H; destruct H as [H _]; apply bind_inv in H; destruct H as (uv & s4 & A4 & H);
    apply lchk_inv in H; destruct H as [H _]; apply lchk_inv in H; destruct H as [H _]; apply ret_inv in H; destruct H as [[= <- <- <-] ->].
    + change (spaces (Z.to_nat 0) "0") with (@nil ascii) in A4. rewrite ?app_nil_r in A4.
      apply stoll_digits with (N := Nl) in A3; try easy. destruct A3 as [-> ->]. apply stoll_digits with (N := Nu) in A4; try easy. destruct A4 as [-> ->].
      split; [easy|]. split; [easy|]. split; [easy|]. exists (sg su * Nu), 0. split; [apply A0|lia].
    + change (spaces (Z.to_nat 0) "0") with (@nil ascii) in A3. rewrite ?app_nil_r in A3.
      apply stoll_digits with (N := Nl) in A3; try easy. destruct A3 as [-> ->]. apply stoll_digits with (N := Nu) in A4; try easy. destruct A4 as [-> ->].
      split; [easy|]. split; [easy|]. split; [easy|]. exists (sg sl * Nl), 0. split; [apply A0|lia].
Qed.
End Both.
End Units.
