(** * Proofs: the numbers in interval literals: texts, captured groups and values *)
From Coq Require Import ZArith NArith Reals Bool Ascii String List Lia Lra.
From Flocq Require Import Core.Core.
From Verif Require Import Exc Deco MStream MText MRegex MRead PRegex SpecLiteral.
Import ListNotations.
Local Open Scope list_scope.

Ltac chars c := destruct c as [[] [] [] [] [] [] [] []]; try reflexivity; try discriminate.

(** ** Spans *)
Definition stops (p : ascii -> bool) (l : text) : Prop := match l with [] => True | c :: _ => p c = false end.
Lemma span_unique p (a b x y : text) : forallb p a = true -> forallb p b = true -> stops p x -> stops p y ->
  a ++ x = b ++ y -> a = b /\ x = y.
Proof.
  revert b. induction a as [|c a IH]; intros [|d b] Ha Hb Hx Hy E; cbn in *.
  - auto.
  - subst x. cbn in Hx. now rewrite Hx in Hb.
  - subst y. cbn in Hy. now rewrite Hy in Ha.
  - apply andb_prop in Ha, Hb. injection E as <- E. destruct (IH b) as [-> ->]; tauto.
Qed.

(** ** Characters *)
Lemma digit_not_sign c : isdigit c = true -> is_sign c = false. Proof. chars c. Qed.
Lemma point_not_sign c : is_point c = true -> is_sign c = false. Proof. chars c. Qed.
Lemma digit_hex c : isdigit c = true -> is_hex c = true. Proof. chars c. Qed.
Lemma hex_not_point c : is_hex c = true -> is_point c = false. Proof. chars c. Qed.
Lemma digit_not_point c : isdigit c = true -> is_point c = false. Proof. chars c. Qed.
Lemma is_sign_cases c : is_sign c = true -> c = "+"%char \/ c = "-"%char. Proof. chars c; auto. Qed.
Lemma is_point_eq c : is_point c = true -> c = "."%char. Proof. chars c. Qed.
Lemma same_slash c : same "/" c = true -> c = "/"%char. Proof. chars c. Qed.
Lemma space_not_digit c : isspace c = true -> isdigit c = false. Proof. chars c. Qed.
Lemma mark_e c : same "e" c = true -> isdigit c = false /\ is_point c = false. Proof. chars c; now split. Qed.
Lemma mark_p c : same "p" c = true -> is_hex c = false /\ is_point c = false. Proof. chars c; now split. Qed.
Lemma same_0 c : same "0" c = true -> c = "0"%char. Proof. chars c. Qed.
Lemma same_x c : same "x" c = true -> is_x c = true /\ isdigit c = false /\ is_point c = false /\ same "e" c = false /\ isspace c = false /\ same "/" c = false.
Proof. chars c; now repeat split. Qed.
Lemma forallb_impl (p q : ascii -> bool) l : (forall c, p c = true -> q c = true) -> forallb p l = true -> forallb q l = true.
Proof. rewrite !forallb_forall. auto. Qed.

(** ** Parts of a number *)
Inductive sg : Type := Sn | Sp | Sm.
Definition stext (s : sg) : text := match s with Sn => [] | Sp => txt "+" | Sm => txt "-" end.
Definition sval (s : sg) : Z := match s with Sm => -1 | _ => 1 end.
Definition mtext (i : text) (f : option text) : text := i ++ match f with Some f => txt "." ++ f | None => [] end.
Definition mdigits (i : text) (f : option text) : text := i ++ match f with Some f => f | None => [] end.
Definition mlen (f : option text) : Z := match f with Some f => Z.of_nat (length f) | None => 0 end.
Definition mshape (p : ascii -> bool) (i : text) (f : option text) : Prop :=
  forallb p (mdigits i f) = true /\ mdigits i f <> [].

Inductive num : Type :=
| Dec (s : sg) (i : text) (f : option text)
| DecE (s : sg) (i : text) (f : option text) (m : ascii) (t : sg) (l : text)
| Hexa (s : sg) (z x : ascii) (i : text) (f : option text) (m : ascii) (t : sg) (l : text)
| Rat (s : sg) (i a b j : text).
Definition nsign (p : num) : sg := match p with Dec s _ _ | DecE s _ _ _ _ _ | Hexa s _ _ _ _ _ _ _ | Rat s _ _ _ _ => s end.
Definition ntext (p : num) : text :=
  match p with
  | Dec s i f => stext s ++ mtext i f
  | DecE s i f m t l => (stext s ++ mtext i f) ++ m :: stext t ++ l
  | Hexa s z x i f m t l => (stext s ++ z :: x :: mtext i f) ++ m :: stext t ++ l
  | Rat s i a b j => (stext s ++ i) ++ a ++ txt "/" ++ b ++ j
  end.
Definition den_shape (j : text) : Prop := exists z c r, j = z ++ c :: r /\
  forallb is_zero z = true /\ is_nonzero c = true /\ forallb isdigit r = true.
Definition nshape (p : num) : Prop :=
  match p with
  | Dec s i f => mshape isdigit i f
  | DecE s i f m t l => mshape isdigit i f /\ same "e" m = true /\ forallb isdigit l = true /\ l <> []
  | Hexa s z x i f m t l => same "0" z = true /\ same "x" x = true /\ mshape is_hex i f /\ same "p" m = true
                           /\ forallb isdigit l = true /\ l <> []
  | Rat s i a b j => forallb isdigit i = true /\ i <> [] /\ forallb isspace a = true /\ forallb isspace b = true /\ den_shape j
  end.
(** The groups it sets, the last first. *)
Definition ncaps (n : nat) (p : num) : caps :=
  match p with
  | Dec s i f => [(n, stext s ++ mtext i f)]
  | DecE s i f m t l => [(n + 1, stext t ++ l); (n, stext s ++ mtext i f)]
  | Hexa s z x i f m t l => [(n + 2 + 1, stext t ++ l); (n + 2, stext s ++ z :: x :: mtext i f)]
  | Rat s i a b j => [(n + 4 + 1, j); (n + 4, stext s ++ i)]
  end%nat.

(** ** Matches *)
Lemma sem_opt_sign s c c' : sem (Opt (Chr is_sign)) s c c' <-> exists g, s = stext g /\ c' = c.
Proof.
  cbn. split.
  - intros [(x & -> & H & ->) | [-> ->]]; [|now exists Sn].
    destruct (is_sign_cases _ H) as [-> | ->]; [now exists Sp | now exists Sm].
  - intros (g & -> & ->). destruct g; [right; auto | left; now exists "+"%char | left; now exists "-"%char].
Qed.
Lemma sem_plus p s c c' : sem (Plus p) s c c' <-> forallb p s = true /\ s <> [] /\ c' = c.
Proof.
  cbn. split.
  - intros (s1 & s2 & c1 & -> & (x & -> & H & ->) & H2 & ->). cbn. now rewrite H, H2.
  - intros (H & H1 & ->). destruct s as [|x s]; [easy|]. cbn in H. apply andb_prop in H.
    exists [x], s, c. repeat split; try tauto. exists x. tauto.
Qed.
Lemma sem_mant p s c c' : sem (Mant p) s c c' <-> exists i f, s = mtext i f /\ mshape p i f /\ c' = c.
Proof.
  split.
  - intros [H | [H | H]].
    + destruct H as (s1 & s2 & c1 & -> & (H1 & ->) & s3 & s4 & c2 & -> & (x & -> & H2 & ->) & H3).
      apply sem_plus in H3. destruct H3 as (H3 & H4 & ->). apply is_point_eq in H2. subst x.
      exists s1, (Some s4). split; [reflexivity|]. split; [|easy]. split; unfold mdigits.
      * now rewrite forallb_app, H1, H3.
      * destruct s1; [exact H4|easy].
    + destruct H as (s1 & s2 & c1 & -> & H1 & x & -> & H2 & ->).
      apply sem_plus in H1. destruct H1 as (H3 & H4 & ->). apply is_point_eq in H2. subst x.
      exists s1, (Some []). split; [reflexivity|]. split; [|easy]. split; unfold mdigits; now rewrite app_nil_r.
    + apply sem_plus in H. destruct H as (H3 & H4 & ->). exists s, None. unfold mtext, mshape, mdigits. now rewrite !app_nil_r.
  - intros (i & f & -> & (H1 & H2) & ->). destruct f as [f|].
    + unfold mdigits in H1, H2. rewrite forallb_app in H1. apply andb_prop in H1. destruct f as [|d f].
      * right. left. exists i, (txt "."), c. split; [now unfold mtext; rewrite app_nil_r|]. split.
        -- apply sem_plus. rewrite app_nil_r in H2. tauto.
        -- now exists "."%char.
      * left. exists i, (txt "." ++ d :: f), c. split; [reflexivity|]. split; [split; tauto|].
        exists (txt "."), (d :: f), c. split; [reflexivity|]. split; [now exists "."%char|]. apply sem_plus. repeat split; [tauto|easy].
    + right. right. unfold mtext, mdigits in *. rewrite app_nil_r in *. apply sem_plus. auto.
Qed.
Lemma sem_int s c c' : sem Int s c c' <-> exists g l, s = stext g ++ l /\ forallb isdigit l = true /\ l <> [] /\ c' = c.
Proof.
  split.
  - intros (s1 & s2 & c1 & -> & H1 & H2). apply sem_opt_sign in H1. destruct H1 as (g & -> & ->).
    apply sem_plus in H2. exists g, s2. tauto.
  - intros (g & l & -> & H1 & H2 & ->). exists (stext g), l, c. split; [easy|]. split; [apply sem_opt_sign; eauto | apply sem_plus; auto].
Qed.

Lemma sem_float n x c c' : sem (Float n) x c c' <->
  exists p, match p with Dec _ _ _ | DecE _ _ _ _ _ _ => True | _ => False end /\ nshape p /\ x = ntext p /\ c' = ncaps n p ++ c.
Proof.
  split.
  - intros (s1 & s2 & c1 & -> & (c2 & (s3 & s4 & c3 & -> & H1 & H2) & ->) & H3).
    apply sem_opt_sign in H1. destruct H1 as (g & -> & ->). apply sem_mant in H2. destruct H2 as (i & f & -> & H2 & ->).
    destruct H3 as [(s5 & s6 & c4 & -> & (m & -> & Hm & ->) & c5 & H4 & ->) | [-> ->]].
    + apply sem_int in H4. destruct H4 as (t & l & -> & H5 & H6 & ->).
      exists (DecE g i f m t l). cbn. auto 7.
    + exists (Dec g i f). cbn. rewrite app_nil_r. auto.
  - intros ([s i f | s i f m t l | |] & Hp & H & -> & ->); try easy.
    + exists (stext s ++ mtext i f), [], ((n, stext s ++ mtext i f) :: c). split; [cbn; now rewrite app_nil_r|]. split.
      * exists c. split; [|easy]. exists (stext s), (mtext i f), c. split; [easy|].
        split; [apply sem_opt_sign; eauto | apply sem_mant; eauto].
      * right. now split.
    + destruct H as (H1 & H2 & H3 & H4).
      exists (stext s ++ mtext i f), (m :: stext t ++ l), ((n, stext s ++ mtext i f) :: c). split; [easy|]. split.
      * exists c. split; [|easy]. exists (stext s), (mtext i f), c. split; [easy|].
        split; [apply sem_opt_sign; eauto | apply sem_mant; eauto].
      * left. exists [m], (stext t ++ l), ((n, stext s ++ mtext i f) :: c). split; [easy|]. split; [now exists m|].
        exists ((n, stext s ++ mtext i f) :: c). split; [|easy]. apply sem_int. eauto 7.
Qed.
Lemma sem_hex n x c c' : sem (Hex (n + 2)) x c c' <->
  exists p, match p with Hexa _ _ _ _ _ _ _ _ => True | _ => False end /\ nshape p /\ x = ntext p /\ c' = ncaps n p ++ c.
Proof.
  split.
  - intros (s1 & s2 & c1 & -> & (c2 & (s3 & s4 & c3 & -> & H1 & s5 & s6 & c4 & -> & H2 & H3) & ->) & H4).
    apply sem_opt_sign in H1. destruct H1 as (g & -> & ->).
    destruct H2 as (s7 & s8 & c5 & -> & (z & -> & Hz & ->) & s9 & s10 & c6 & -> & (y & -> & Hy & ->) & -> & ->).
    apply sem_mant in H3. destruct H3 as (i & f & -> & H3 & ->).
    destruct H4 as (s11 & s12 & c7 & -> & (m & -> & Hm & ->) & c8 & H5 & ->).
    apply sem_int in H5. destruct H5 as (t & l & -> & H6 & H7 & ->).
    exists (Hexa g z y i f m t l). cbn. auto 9.
  - intros ([| | s z y i f m t l |] & Hp & H & -> & ->); try easy. destruct H as (H1 & H2 & H3 & H4 & H5 & H6).
    set (num := stext s ++ z :: y :: mtext i f).
    exists num, (m :: stext t ++ l), (((n + 2)%nat, num) :: c). split; [easy|]. split.
    + exists c. split; [|easy]. exists (stext s), (z :: y :: mtext i f), c. split; [easy|].
      split; [apply sem_opt_sign; eauto|]. exists [z; y], (mtext i f), c. split; [easy|]. split; [|apply sem_mant; eauto].
      exists [z], [y], c. split; [easy|]. split; [now exists z|]. exists [y], [], c. split; [easy|]. split; [now exists y|]. now split.
    + exists [m], (stext t ++ l), (((n + 2)%nat, num) :: c). split; [easy|]. split; [now exists m|].
      exists (((n + 2)%nat, num) :: c). split; [|easy]. apply sem_int. eauto 7.
Qed.
Lemma sem_rational n x c c' : sem (MRegex.Rational (n + 4)) x c c' <->
  exists p, match p with Rat _ _ _ _ _ => True | _ => False end /\ nshape p /\ x = ntext p /\ c' = ncaps n p ++ c.
Proof.
  split.
  - intros (s1 & s2 & c1 & -> & (c2 & H1 & ->) & a & s4 & c3 & -> & (H2 & ->) & s5 & s6 & c4 & -> & (m & -> & Hm & ->) &
      b & j & c5 & -> & (H3 & ->) & c6 & (z & s7 & c7 & -> & (H4 & ->) & s8 & r & c8 & -> & (y & -> & Hy & ->) & H5 & ->) & ->).
    apply sem_int in H1. destruct H1 as (g & i & -> & H6 & H7 & ->). apply same_slash in Hm. subst m.
    exists (Rat g i a b (z ++ y :: r)). cbn. repeat split; auto. exists z, y, r. auto.
  - intros ([| | | s i a b j] & Hp & H & -> & ->); try easy. destruct H as (H1 & H2 & H3 & H4 & z & y & r & -> & H5 & H6 & H7).
    set (c1 := ((n + 4)%nat, stext s ++ i) :: c).
    exists (stext s ++ i), (a ++ txt "/" ++ b ++ z ++ y :: r), c1. split; [easy|]. split.
    { exists c. split; [|easy]. apply sem_int. eauto 7. }
    exists a, (txt "/" ++ b ++ z ++ y :: r), c1. split; [easy|]. split; [now split|].
    exists (txt "/"), (b ++ z ++ y :: r), c1. split; [easy|]. split; [now exists "/"%char|].
    exists b, (z ++ y :: r), c1. split; [easy|]. split; [now split|].
    exists c1. split; [|easy]. exists z, (y :: r), c1. split; [easy|]. split; [now split|].
    exists [y], r, c1. split; [easy|]. split; [now exists y|]. now split.
Qed.
Lemma sem_number n r x c c' : sem (Number n r) x c c' <->
  x = [] /\ c' = c \/ (exists p, nshape p /\ x = ntext p /\ c' = ncaps n p ++ c) \/ sem r x c c'.
Proof.
  unfold Number. split.
  - intros [[-> ->] | [H | [H | [H | H]]]]; auto.
    + apply sem_float in H. destruct H as (p & _ & H). right. left. eauto.
    + apply sem_hex in H. destruct H as (p & _ & H). right. left. eauto.
    + apply sem_rational in H. destruct H as (p & _ & H). right. left. eauto.
  - intros [[-> ->] | [(p & H) | H]].
    + left. now split.
    + right. destruct p.
      1,2: left; apply sem_float; eexists; split; [|exact H]; exact I.
      * right. left. apply sem_hex; eexists; split; [|exact H]; exact I.
      * right. right. left. apply sem_rational; eexists; split; [|exact H]; exact I.
    + right. right. right. now right.
Qed.

(** ** Values of digits *)
Definition dok (b : Z) (c : ascii) : bool := match digit c with Some d => (Z.of_N d <? b)%Z | None => false end.
Lemma dok_digit b c : (10 <= b)%Z -> isdigit c = true -> dok b c = true.
Proof. intros H. unfold dok. chars c; intros _; apply Z.ltb_lt; cbn; lia. Qed.
Lemma dok_10 c : dok 10 c = isdigit c. Proof. chars c. Qed.
Lemma dok_16 c : dok 16 c = is_hex c. Proof. chars c. Qed.
Lemma is_digit_dok b c d : (b <= 16)%Z -> is_digit b c d <-> dok b c = true /\ (exists n, digit c = Some n /\ d = Z.of_N n).
Proof.
  intros Hb. unfold is_digit, dok, digit, isdigit, between. set (k := code c).
  destruct (N.leb_spec 48 k), (N.leb_spec k 57), (N.leb_spec 97 k), (N.leb_spec k 102), (N.leb_spec 65 k), (N.leb_spec k 70);
    cbn [andb]; try lia; split; try (intros; lia).
  all: try (intros [H5 (n & E & ->)]; injection E as <-; apply Z.ltb_lt in H5; rewrite N2Z.inj_sub in * by lia; lia).
  all: try (intros [H5 (n & E & ->)]; discriminate).
  all: intros H5; split; [apply Z.ltb_lt; rewrite N2Z.inj_sub by lia; lia|eexists; split; [reflexivity|rewrite N2Z.inj_sub by lia; lia]].
Qed.
Definition value (b : Z) (l : text) : Z := match digits_val b 0 l with Some n => n | None => 0%Z end.
Lemma digits_val_some b l : forallb (dok b) l = true -> forall acc, exists n, digits_val b acc l = Some n.
Proof.
  induction l as [|c l IH]; intros H acc; cbn in *; [eauto|].
  apply andb_prop in H. destruct H as [H1 H2]. unfold dok in H1. destruct (digit c) as [d|]; [|easy]. rewrite H1. now apply IH.
Qed.
Lemma digits_val_dok b l acc n : digits_val b acc l = Some n -> forallb (dok b) l = true.
Proof.
  revert acc. induction l as [|c l IH]; intros acc H; cbn in *; [easy|]. unfold dok at 1.
  destruct (digit c) as [d|]; [|easy]. destruct (Z.ltb_spec (Z.of_N d) b); [|easy]. cbn. eapply IH, H.
Qed.
Lemma digits_val_value b l : forallb (dok b) l = true -> digits_val b 0 l = Some (value b l).
Proof. intros H. unfold value. destruct (digits_val_some b l H 0) as [n ->]. reflexivity. Qed.
Lemma digits_val_snoc b l c acc : digits_val b acc (l ++ [c]) =
  match digits_val b acc l with
  | Some n => match digit c with Some d => if (Z.of_N d <? b)%Z then Some (n * b + Z.of_N d)%Z else None | None => None end
  | None => None end.
Proof.
  revert acc. induction l as [|x l IH]; intros acc; cbn.
  - destruct (digit c) as [d|]; [|easy]. now destruct (Z.ltb_spec (Z.of_N d) b).
  - destruct (digit x) as [d|]; [|easy]. destruct (Z.ltb_spec (Z.of_N d) b); [apply IH|easy].
Qed.
Lemma numeral_val b l n : (b <= 16)%Z -> numeral b l n <-> digits_val b 0 l = Some n.
Proof.
  intros Hb. split.
  - induction 1 as [|l n c d H IH H1]; [easy|]. rewrite digits_val_snoc, IH.
    apply is_digit_dok in H1; [|easy]. destruct H1 as (H1 & d' & E & ->). unfold dok in H1. rewrite E in *. now rewrite H1.
  - revert n. induction l as [|c l IH] using rev_ind; intros n E.
    + injection E as <-. constructor.
    + rewrite digits_val_snoc in E. destruct (digits_val b 0 l) as [m|]; [|easy]. destruct (digit c) as [d|] eqn:Ed; [|easy].
      destruct (Z.of_N d <? b)%Z eqn:Eb; [|easy]. injection E as <-. constructor; [now apply IH|]. apply is_digit_dok; [easy|].
      unfold dok. rewrite Ed. eauto.
Qed.
Lemma numeral_value b l : (b <= 16)%Z -> forallb (dok b) l = true -> numeral b l (value b l).
Proof. intros Hb H. apply numeral_val; [easy|]. now apply digits_val_value. Qed.
Lemma numeral_inv b l n : (b <= 16)%Z -> numeral b l n -> forallb (dok b) l = true /\ n = value b l.
Proof. intros Hb H. apply numeral_val in H; [|easy]. split; [eapply digits_val_dok, H|]. unfold value. now rewrite H. Qed.
Lemma value_nonneg b l : (0 < b)%Z -> (0 <= value b l)%Z.
Proof.
  intros Hb. unfold value. cut (forall acc n, (0 <= acc)%Z -> digits_val b acc l = Some n -> (0 <= n)%Z).
  { intros H. destruct (digits_val b 0 l) eqn:E; [|easy]. eapply H, E. lia. }
  induction l as [|c l IH]; cbn; intros acc n H E; [congruence|].
  destruct (digit c) as [d|]; [|easy]. destruct (Z.of_N d <? b)%Z; [|easy]. eapply IH, E. nia.
Qed.
Lemma value_mono b l acc n : (1 <= b)%Z -> (0 <= acc)%Z -> digits_val b acc l = Some n -> (acc <= n)%Z.
Proof.
  intros Hb. revert acc. induction l as [|c l IH]; cbn; intros acc H E; [injection E; lia|].
  destruct (digit c) as [d|]; [|easy]. destruct (Z.of_N d <? b)%Z; [|easy]. apply IH in E; nia.
Qed.
Lemma den_shape_pos j : den_shape j <-> forallb isdigit j = true /\ (0 < value 10 j)%Z.
Proof.
  split.
  - intros (z & c & r & -> & H1 & H2 & H3).
    assert (Hz : forallb isdigit z = true) by (eapply forallb_impl, H1; intros x; chars x).
    assert (Hc : isdigit c = true) by (revert H2; chars c).
    split; [rewrite forallb_app; cbn; now rewrite Hz, Hc|].
    unfold value. assert (E : forall y, digits_val 10 0 (z ++ y) = digits_val 10 0 y).
    { intros y. clear -H1. induction z as [|x z IH]; [easy|]. cbn in H1. apply andb_prop in H1. destruct H1 as [H1 H2].
      cbn [app digits_val]. rewrite <- IH by easy. revert H1. chars x. }
    rewrite E. cbn [digits_val].
    assert (H4 : exists d, digit c = Some d /\ (0 < d)%N /\ (Z.of_N d <? 10)%Z = true).
    { revert H2. clear. chars c; intros _; eexists; repeat split; lia. }
    destruct H4 as (d & -> & H5 & ->).
    destruct (digits_val_some 10 r) with (acc := (0 * 10 + Z.of_N d)%Z) as [n En].
    { eapply forallb_impl, H3. intros x. now rewrite dok_10. }
    rewrite En. apply value_mono in En; lia.
  - intros [H1 H2]. revert H2. unfold value. induction j as [|c j IH]; [cbn; lia|].
    cbn in H1. apply andb_prop in H1. destruct H1 as [H1 H3]. cbn [digits_val]. intros H4.
    destruct (is_zero c) eqn:Ez.
    + destruct IH as (z & c' & r & -> & H5 & H6 & H7); [easy|revert H4 Ez; chars c; easy|].
      exists (c :: z), c', r. cbn. now rewrite Ez, H5.
    + exists [], c, j. repeat split; try easy. revert H1 Ez. clear. chars c.
Qed.

Local Open Scope Z_scope.
Lemma find_point_none l : forallb (fun c => negb (is_point c)) l = true -> find_point l = None.
Proof. induction l as [|c l IH]; cbn; [easy|]. destruct (is_point c); [easy|]. intros H. now rewrite IH. Qed.
Lemma find_point_some l f : forallb (fun c => negb (is_point c)) l = true -> find_point (l ++ "."%char :: f) = Some (length l).
Proof. induction l as [|c l IH]; cbn; [easy|]. destruct (is_point c); [easy|]. intros H. now rewrite IH. Qed.
Definition short (t : text) : Prop := Z.of_nat (length t) < 2 ^ 29.
Lemma to_int_id v : - 2 ^ 31 <= v < 2 ^ 31 -> to_int v = v.
Proof. intros H. unfold to_int. rewrite Z.mod_small; lia. Qed.
Lemma remove_point_some a f : forallb (fun c => negb (is_point c)) a = true -> short (a ++ "."%char :: f) ->
  remove_point (a ++ "."%char :: f) = (a ++ f, - Z.of_nat (length f)).
Proof.
  intros H1 H2. unfold short in H2. rewrite app_length in H2. cbn [length] in H2. unfold remove_point. rewrite find_point_some by easy.
  rewrite to_int_id by lia. destruct (Z.leb_spec 0 (Z.of_nat (length a))); [|lia].
  rewrite Nat2Z.id. unfold erase.
  assert (E : firstn (length a) (a ++ "."%char :: f) ++ skipn (S (length a)) (a ++ "."%char :: f) = a ++ f).
  { rewrite firstn_app, Nat.sub_diag, firstn_all, firstn_O, app_nil_r. f_equal.
    replace (S (length a)) with (length a + 1)%nat by lia. now rewrite skipn_app, skipn_all2, Nat.add_comm, Nat.add_sub by lia. }
  rewrite E, app_length. f_equal. rewrite to_int_id by lia. lia.
Qed.
Lemma remove_point_none a : forallb (fun c => negb (is_point c)) a = true -> remove_point a = (a, 0).
Proof. intros H. unfold remove_point. now rewrite find_point_none. Qed.
Lemma remove_point_mtext pre i f : forallb (fun c => negb (is_point c)) pre = true ->
  forallb (fun c => negb (is_point c)) (mdigits i f) = true -> short (pre ++ mtext i f) ->
  remove_point (pre ++ mtext i f) = (pre ++ mdigits i f, - mlen f).
Proof.
  unfold mtext, mdigits. intros H1 H2 H3. rewrite forallb_app in H2. apply andb_prop in H2. destruct f as [f|]; cbn [mlen].
  - change (txt "." ++ f) with ("."%char :: f) in *. rewrite !(app_assoc pre) in *. apply remove_point_some; [|easy]. rewrite forallb_app, H1. tauto.
  - apply remove_point_none. rewrite !forallb_app, H1. now destruct H2 as [-> _].
Qed.

Lemma no_point_digit c : isdigit c = true -> negb (is_point c) = true. Proof. chars c. Qed.
Lemma no_point_hex c : is_hex c = true -> negb (is_point c) = true. Proof. chars c. Qed.
Lemma nat_val_value b l : forallb (dok b) l = true -> l <> [] -> nat_val b l = Some (value b l).
Proof. intros H1 H2. unfold nat_val. destruct l; [easy|]. now apply digits_val_value. Qed.
Lemma forallb_dok10 l : forallb isdigit l = true -> forallb (dok 10) l = true.
Proof. apply forallb_impl. intros c. now rewrite dok_10. Qed.
Lemma forallb_dok16 l : forallb is_hex l = true -> forallb (dok 16) l = true.
Proof. apply forallb_impl. intros c. now rewrite dok_16. Qed.

Lemma set_str10_digits g l : forallb isdigit l = true -> l <> [] ->
  mpz_set_str10 (stext g ++ l) = match g with Sp => None | _ => Some (sval g * value 10 l) end.
Proof.
  intros H1 H2. unfold mpz_set_str10, with_minus. destruct g; cbn [stext].
  - destruct l as [|c l]; [easy|]. cbn [app].
    assert (ceq c "-" = false) as -> by (cbn in H1; apply andb_prop in H1; destruct H1 as [H1 _]; revert H1; clear; chars c).
    rewrite nat_val_value by (auto using forallb_dok10). cbn [sval]. now rewrite Z.mul_1_l.
  - reflexivity.
  - cbn [app txt list_ascii_of_string]. change (ceq "-" "-") with true. cbn [app]. rewrite nat_val_value by auto using forallb_dok10.
    cbn [option_map sval]. f_equal; lia.
Qed.
Lemma set_str0_hex g z x l : same "0" z = true -> same "x" x = true -> forallb is_hex l = true -> l <> [] ->
  mpz_set_str0 (stext g ++ z :: x :: l) = match g with Sp => None | _ => Some (sval g * value 16 l) end.
Proof.
  intros Hz Hx H1 H2. apply same_0 in Hz. subst z. apply same_x in Hx. destruct Hx as [Hx _].
  assert (E : nat_val0 ("0"%char :: x :: l) = Some (value 16 l)).
  { unfold nat_val0. change (ceq "0" "0") with true. cbn [andb]. rewrite Hx. apply nat_val_value; [now apply forallb_dok16|easy]. }
  unfold mpz_set_str0, with_minus. destruct g; cbn [stext].
  - cbn [app]. change (ceq "0" "-") with false. cbn iota. rewrite E. cbn [sval]. now rewrite Z.mul_1_l.
  - reflexivity.
  - cbn [txt list_ascii_of_string app]. change (ceq "-" "-") with true. cbn iota. rewrite E. cbn [option_map sval]. f_equal; lia.
Qed.
Lemma stoi_digits g l : forallb isdigit l = true -> l <> [] ->
  stoi (stext g ++ l) = if is_int (sval g * value 10 l) then ret (sval g * value 10 l) else fun s => (Throw Out_of_range, s).
Proof.
  intros H1 H2. unfold stoi. destruct g; cbn [stext].
  - destruct l as [|c l]; [easy|]. cbn [app].
    assert (isdigit c = true) as Hc by (cbn in H1; apply andb_prop in H1; tauto).
    assert (ceq c "-" = false) as -> by (revert Hc; clear; chars c).
    assert (ceq c "+" = false) as -> by (revert Hc; clear; chars c).
    rewrite nat_val_value by (auto using forallb_dok10). cbn [sval]. now rewrite Z.mul_1_l.
  - cbn [txt list_ascii_of_string app]. change (ceq "+" "-") with false. change (ceq "+" "+") with true. cbn iota.
    rewrite nat_val_value by (auto using forallb_dok10). cbn [sval]. now rewrite Z.mul_1_l.
  - cbn [txt list_ascii_of_string app]. change (ceq "-" "-") with true. cbn iota.
    rewrite nat_val_value by (auto using forallb_dok10). cbn [option_map sval].
    now replace (-1 * value 10 l) with (- value 10 l) by lia.
Qed.

(** ** The value of a number and how it is read *)
Definition nval (p : num) : R :=
  match p with
  | Dec s i f => IZR (sval s * value 10 (mdigits i f)) * powerRZ 10 (- mlen f)
  | DecE s i f m t l => IZR (sval s * value 10 (mdigits i f)) * powerRZ 10 (sval t * value 10 l - mlen f)
  | Hexa s z x i f m t l => IZR (sval s * value 16 (mdigits i f)) * powerRZ 2 (sval t * value 10 l - 4 * mlen f)
  | Rat s i a b j => IZR (sval s * value 10 i) / IZR (value 10 j)
  end.
Definition nsmall (p : num) : Prop :=
  match p with
  | DecE s i f m t l => int_exponent (sval t * value 10 l) /\ int_exponent (sval t * value 10 l - mlen f)
  | Hexa s z x i f m t l => int_exponent (sval t * value 10 l) /\ int_exponent (sval t * value 10 l - 4 * mlen f)
  | _ => True
  end.
Definition nread (p : num) : M (option mpq) :=
  match p with
  | Dec s i f => read_float (stext s ++ mtext i f) []
  | DecE s i f m t l => read_float (stext s ++ mtext i f) (stext t ++ l)
  | Hexa s z x i f m t l => read_hex (stext s ++ z :: x :: mtext i f) (stext t ++ l)
  | Rat s i a b j => read_rational (stext s ++ i) j
  end.

Lemma shift_val b p n : (0 < b) -> let q := shift b p n 1 in 0 < snd q /\ mpq_val q = (IZR n * powerRZ (IZR b) p)%R.
Proof.
  intros Hb. cbn zeta. unfold shift, mpq_val. destruct (Z.leb_spec 0 p) as [H|H]; cbn [fst snd].
  - split; [lia|]. rewrite mult_IZR, <- (Z2Nat.id p) by easy. rewrite <- pow_powerRZ, <- pow_IZR. field.
  - split; [apply Z.mul_pos_pos; [lia|apply Z.pow_pos_nonneg; lia]|]. rewrite mult_IZR.
    replace p with (- Z.of_nat (Z.to_nat (- p))) at 2 by lia. rewrite powerRZ_neg'.
    rewrite <- pow_powerRZ. replace (- p) with (Z.of_nat (Z.to_nat (- p))) at 1 by lia.
    rewrite <- pow_IZR. field. apply pow_nonzero, IZR_neq. lia.
Qed.
Lemma is_int_spec v : is_int v = true <-> -2147483648 <= v <= 2147483647.
Proof. unfold is_int, int_max. rewrite andb_true_iff, !Z.leb_le. lia. Qed.
Lemma is_int_not v : ~ (-2147483648 <= v <= 2147483647) -> is_int v = false.
Proof. intros H. destruct (is_int v) eqn:E; [|easy]. now apply is_int_spec in E. Qed.
Lemma ichk_ok {A} v (k : M A) : -2147483648 <= v <= 2147483647 -> ichk v k = k.
Proof. intros H. unfold ichk. apply is_int_spec in H. now rewrite H. Qed.
Lemma scaled_spec b n p : 0 < b -> int_exponent p ->
  exists q, 0 < snd q /\ mpq_val q = (IZR n * powerRZ (IZR b) p)%R /\ forall s, scaled b n p s = (Ret q, s).
Proof.
  intros Hb Hp. exists (shift b p n 1). destruct (shift_val b p n Hb) as [H1 H2]. repeat split; [easy|easy|].
  intros s. unfold scaled, ichk. rewrite (proj2 (is_int_spec _)); [reflexivity|]. unfold int_exponent in Hp. lia.
Qed.
Lemma scaled_bad b n p s : ~ int_exponent p -> scaled b n p s = (UB, s).
Proof.
  intros Hp. unfold scaled, ichk. rewrite is_int_not; [reflexivity|]. unfold int_exponent in Hp. lia.
Qed.
Definition refuses {A} (m : M A) : Prop := forall s, m s = (Throw Out_of_range, s) \/ m s = (UB, s).
Lemma exponent_spec (e k b n : Z) : 0 < b -> 0 <= k ->
  let r := ((if is_int e then ret e else fun s => (Throw Out_of_range, s)) : M Z) in
  let m := bind r (fun e => ichk (- k + e) (bind (scaled b n (- k + e)) (fun q => ret (Some q)))) in
  (int_exponent e /\ int_exponent (e - k) -> exists q, 0 < snd q /\ mpq_val q = (IZR n * powerRZ (IZR b) (e - k))%R
     /\ forall s, m s = (Ret (Some q), s)) /\
  (~ (int_exponent e /\ int_exponent (e - k)) -> refuses m).
Proof.
  intros Hb Hk. cbn zeta. replace (- k + e) with (e - k) by lia. split.
  - intros [H1 H2]. destruct (scaled_spec b n (e - k) Hb H2) as (q & H3 & H4 & H5). exists q. repeat split; try easy.
    intros s. unfold bind at 1. unfold int_exponent in *. rewrite (proj2 (is_int_spec e)) by lia.
    unfold ret at 1. unfold ichk. replace (- k + e) with (e - k) by lia. rewrite (proj2 (is_int_spec (e - k))) by lia.
    unfold bind. now rewrite H5.
  - intros H s. destruct (is_int e) eqn:Ei; [|now left]. right. apply is_int_spec in Ei. unfold bind at 1. unfold ret at 1. unfold ichk. replace (- k + e) with (e - k) by lia.
    destruct (is_int (e - k)) eqn:E; [|easy]. unfold bind. rewrite scaled_bad; [easy|].
    intros H2. apply H. split; [|easy]. unfold int_exponent in *. lia.
Qed.

Lemma short_app a b : short (a ++ b) -> short a /\ short b.
Proof. unfold short. rewrite app_length. lia. Qed.
Lemma mlen_short pre i f : short (pre ++ mtext i f) -> 0 <= mlen f < 2 ^ 29.
Proof.
  unfold short, mtext. destruct f as [f|]; cbn [mlen]; [|lia]. rewrite !app_length. cbn. lia.
Qed.
Lemma stext_no_point g : forallb (fun c => negb (is_point c)) (stext g) = true. Proof. now destruct g. Qed.

Lemma nread_spec p : nshape p -> short (ntext p) ->
  match nsign p with
  | Sp => forall s, nread p s = (Ret None, s)
  | _ => (nsmall p -> exists q, 0 < snd q /\ mpq_val q = nval p /\ forall s, nread p s = (Ret (Some q), s)) /\
         (~ nsmall p -> refuses (nread p))
  end.
Proof.
  intros Hs Hl. destruct p as [s i f | s i f m t l | s z x i f m t l | s i a b j]; cbn [nsign ntext nshape nread nval nsmall] in *.
  - destruct Hs as [H1 H2]. unfold read_float.
    pose proof (mlen_short _ _ _ Hl) as Hm. rewrite remove_point_mtext; [|apply stext_no_point|eapply forallb_impl, H1; apply no_point_digit|easy].
    rewrite set_str10_digits by easy. destruct s; [|intros s; reflexivity|]; (split; [|intros H; now elim H]); intros _.
    all: match goal with |- context [scaled 10 ?n ?e] => destruct (scaled_spec 10 n e) as (q & H3 & H4 & H5);
      [easy | unfold int_exponent; lia |] end; exists q; repeat split; [easy|exact H4|]; intros s; unfold bind; now rewrite H5.
  - destruct Hs as ((H1 & H2) & Hm & H3 & H4). apply short_app in Hl. destruct Hl as [Hl _]. unfold read_float.
    pose proof (mlen_short _ _ _ Hl) as Hk. rewrite remove_point_mtext; [|apply stext_no_point|eapply forallb_impl, H1; apply no_point_digit|easy].
    rewrite set_str10_digits by easy.
    assert (E : stext t ++ l <> []) by (destruct t, l; easy).
    pose proof (stoi_digits t l H3 H4) as E2. destruct (stext t ++ l) as [|c0 x0]; [easy|]. rewrite E2.
    destruct s; [|intros s; reflexivity|]; (apply exponent_spec; [lia|lia]).
  - destruct Hs as (Hz & Hx & (H1 & H2) & Hm & H3 & H4). apply short_app in Hl. destruct Hl as [Hl _]. unfold read_hex.
    assert (Hl' : short ((stext s ++ [z; x]) ++ mtext i f)) by now rewrite <- app_assoc.
    pose proof (mlen_short _ _ _ Hl') as Hk.
    replace (stext s ++ z :: x :: mtext i f) with ((stext s ++ [z; x]) ++ mtext i f) by now rewrite <- app_assoc.
    rewrite remove_point_mtext; [| |eapply forallb_impl, H1; apply no_point_hex|easy].
    2:{ rewrite forallb_app, stext_no_point. apply same_0 in Hz. subst z. apply same_x in Hx. cbn. destruct Hx as (_ & _ & -> & _). easy. }
    rewrite <- app_assoc. cbn [app]. rewrite set_str0_hex by easy.
    rewrite ichk_ok by lia.
    rewrite stoi_digits by easy. replace (- mlen f * 4) with (- (4 * mlen f)) by lia.
    assert (Hk4 : 0 <= 4 * mlen f) by lia. revert Hk4. generalize (4 * mlen f) (sval t * value 10 l) (sval s * value 16 (mdigits i f)).
    intros k e n Hk4. destruct s; [|intros s; reflexivity|]; cbn iota; exact (exponent_spec e k 2 n eq_refl Hk4).
  - destruct Hs as (H1 & H2 & H3 & H4 & H5). apply den_shape_pos in H5. destruct H5 as [H5 H6]. unfold read_rational.
    rewrite set_str10_digits by easy. replace j with (stext Sn ++ j) by easy. rewrite set_str10_digits; [|easy|now intros ->].
    cbn [sval stext app]. rewrite Z.mul_1_l.
    destruct s; [|intros s; reflexivity|]; (split; [|intros H; now elim H]); intros _; eexists (_, _); (split; [|split; [|reflexivity]]); easy.
Qed.

(** ** Numbers of the specification *)
Lemma word_cons w a t : word (String w a) t -> exists c t', t = c :: t' /\ tolower c = w /\ word a t'.
Proof. unfold word. destruct t as [|c t]; [easy|]. cbn. intros E. injection E as E1 E2. exists c, t. auto. Qed.
Lemma word_nil t : word EmptyString t -> t = []. Proof. now destruct t. Qed.
Lemma same_tolower a c : same a c = true <-> tolower a = tolower c.
Proof.
  unfold same, ceq, code. rewrite N.eqb_eq. split; [|now intros ->].
  intros H. rewrite <- (ascii_N_embedding (tolower a)), <- (ascii_N_embedding (tolower c)). now rewrite H.
Qed.
Lemma mantissa_parts b t n k : (b <= 16) -> mantissa b t n k <->
  exists i f, t = mtext i f /\ forallb (dok b) (mdigits i f) = true /\ mdigits i f <> [] /\ n = value b (mdigits i f) /\ Z.of_nat k = mlen f.
Proof.
  intros Hb. split.
  - intros [i n' H1 H2 | i f n' H1 H2]; apply numeral_inv in H1; try easy; destruct H1 as [H1 ->].
    + exists i, None. unfold mtext, mdigits. now rewrite !app_nil_r.
    + exists i, (Some f). repeat split; easy.
  - intros (i & [f|] & -> & H1 & H2 & -> & Hk); unfold mtext, mdigits in *; cbn in Hk.
    + replace k with (length f) by lia. constructor; [now apply numeral_value|easy].
    + replace k with 0%nat by lia. rewrite !app_nil_r in *. constructor; [now apply numeral_value|easy].
Qed.
Lemma any_sign_parts t g : any_sign t g <-> exists s, t = stext s /\ g = sval s.
Proof.
  split.
  - intros []; [now exists Sn | now exists Sp | now exists Sm].
  - intros (s & -> & ->). destruct s; constructor.
Qed.
Lemma no_plus_parts t g : no_plus t g <-> exists s, s <> Sp /\ t = stext s /\ g = sval s.
Proof.
  split.
  - intros []; [now exists Sn | now exists Sm].
  - intros (s & H & -> & ->). destruct s; [constructor | easy | constructor].
Qed.
Lemma exponent_parts w c0 x e : txt w = [c0] -> tolower c0 = c0 -> exponent w x e <->
  exists m t l, x = m :: stext t ++ l /\ same c0 m = true /\ forallb isdigit l = true /\ l <> [] /\ e = sval t * value 10 l.
Proof.
  intros Hw H0. split.
  - intros [m s sg l n H1 H2 H3 H4]. unfold word in H1. rewrite Hw in H1.
    destruct m as [|c [|c' m]]; try easy. injection H1 as H1.
    apply any_sign_parts in H2. destruct H2 as (g & -> & ->). apply numeral_inv in H3; [|easy]. destruct H3 as [H3 ->].
    exists c, g, l. repeat split; try easy; [apply same_tolower; congruence|]. eapply forallb_impl, H3. intros y. now rewrite dok_10.
  - intros (m & t & l & -> & H1 & H2 & H3 & ->). apply same_tolower in H1.
    change (m :: stext t ++ l) with ([m] ++ stext t ++ l). constructor; [|now destruct t; constructor| |easy].
    + unfold word. rewrite Hw. cbn. now rewrite <- H1, H0.
    + apply numeral_value; [easy|]. now apply forallb_dok10.
Qed.
Lemma blank_isspace c : blank c <-> isspace c = true.
Proof. unfold blank, isspace, between. rewrite orb_true_iff, andb_true_iff, !N.leb_le, N.eqb_eq. tauto. Qed.
Lemma blanks_isspace t : blanks t <-> forallb isspace t = true.
Proof. unfold blanks. rewrite Forall_forall, forallb_forall. split; intros H c Hc; apply blank_isspace; auto. Qed.
Lemma mshape10 i f : forallb (dok 10) (mdigits i f) = true -> mdigits i f <> [] -> mshape isdigit i f.
Proof. intros H. split; [|easy]. eapply forallb_impl, H. intros y. now rewrite dok_10. Qed.
Lemma mshape16 i f : forallb (dok 16) (mdigits i f) = true -> mdigits i f <> [] -> mshape is_hex i f.
Proof. intros H. split; [|easy]. eapply forallb_impl, H. intros y. now rewrite dok_16. Qed.
Lemma word_0x z : word "0x" z <-> exists c x, z = [c; x] /\ same "0" c = true /\ same "x" x = true.
Proof.
  split.
  - intros H. apply word_cons in H. destruct H as (c & t & -> & H1 & H). apply word_cons in H. destruct H as (x & t' & -> & H2 & H).
    apply word_nil in H. subst t'. exists c, x. repeat split; apply same_tolower; [rewrite H1 | rewrite H2]; reflexivity.
  - intros (c & x & -> & H1 & H2). apply same_tolower in H1, H2. unfold word. cbn. now rewrite <- H1, <- H2.
Qed.

(** The numbers with signs in [S] and exponents in [sm]. *)
Definition nsmall_in (sm : Z -> Prop) (p : num) : Prop :=
  match p with
  | Dec s i f => sm (- mlen f)
  | DecE s i f m t l => sm (sval t * value 10 l) /\ sm (sval t * value 10 l - mlen f)
  | Hexa s z x i f m t l => sm (sval t * value 10 l) /\ sm (sval t * value 10 l - 4 * mlen f)
  | Rat _ _ _ _ _ => True
  end.
Lemma number_parts (S : text -> Z -> Prop) sm t r : (forall x g, S x g -> any_sign x g) ->
  number S sm t r <-> exists p, nshape p /\ t = ntext p /\ r = nval p /\ S (stext (nsign p)) (sval (nsign p)) /\ nsmall_in sm p.
Proof.
  intros HS. split.
  - intros [s sg m n k H1 H2 H3 | s sg m n k x e H1 H2 H3 H4 H5 | s sg z m n k x e H1 Hz H2 H3 H4 H5 | s sg i n a b j d H1 H2 Hi Ha Hb H3 H4].
    all: pose proof H1 as H0; apply HS in H0; apply any_sign_parts in H0; destruct H0 as (g & -> & ->).
    + apply mantissa_parts in H2; [|easy]. destruct H2 as (i & f & -> & H4 & H5 & -> & Hk). rewrite Hk in *.
      exists (Dec g i f). repeat split; try easy. now apply mshape10.
    + apply mantissa_parts in H2; [|easy]. destruct H2 as (i & f & -> & H6 & H7 & -> & Hk). rewrite Hk in *.
      apply (exponent_parts "e" "e") in H3; try easy. destruct H3 as (c & h & l & -> & H8 & H9 & H10 & ->).
      exists (DecE g i f c h l). repeat split; try easy; [now apply mshape10|]. cbn. now rewrite app_assoc.
    + apply mantissa_parts in H2; [|easy]. destruct H2 as (i & f & -> & H6 & H7 & -> & Hk). rewrite Hk in *.
      apply (exponent_parts "p" "p") in H3; try easy. destruct H3 as (c & h & l & -> & H8 & H9 & H10 & ->).
      apply word_0x in Hz. destruct Hz as (y & y' & -> & Hy & Hy').
      exists (Hexa g y y' i f c h l). repeat split; try easy; [now apply mshape16|]. cbn. now rewrite <- app_assoc.
    + apply numeral_inv in H2; [|easy]. destruct H2 as [H2 ->]. apply numeral_inv in H3; [|easy]. destruct H3 as [H3 ->].
      apply blanks_isspace in Ha, Hb. exists (Rat g i a b j). cbn. rewrite <- app_assoc. repeat split; try easy.
      * eapply forallb_impl, H2. intros y. now rewrite dok_10.
      * apply den_shape_pos. split; [|easy]. eapply forallb_impl, H3. intros y. now rewrite dok_10.
  - intros (p & H & -> & -> & H1 & H2). destruct p as [s i f | s i f m t l | s z x i f m t l | s i a b j]; cbn in H, H1, H2 |- *.
    + destruct H as [H3 H4]. assert (Ek : exists k, Z.of_nat k = mlen f) by (destruct f; [now eexists | now exists 0%nat]).
      destruct Ek as [k Ek]. rewrite <- Ek in *. constructor; [easy| |easy]. apply mantissa_parts; [easy|].
      exists i, f. repeat split; try easy. now apply forallb_dok10.
    + destruct H as ([H3 H4] & H5 & H6 & H7). assert (Ek : exists k, Z.of_nat k = mlen f) by (destruct f; [now eexists | now exists 0%nat]).
      destruct Ek as [k Ek]. rewrite <- Ek in *. rewrite <- app_assoc. constructor; try easy.
      * apply mantissa_parts; [easy|]. exists i, f. repeat split; try easy. now apply forallb_dok10.
      * apply (exponent_parts "e" "e"); try easy. exists m, t, l. auto.
    + destruct H as (H5 & H6 & [H3 H4] & H7 & H8 & H9). assert (Ek : exists k, Z.of_nat k = mlen f) by (destruct f; [now eexists | now exists 0%nat]).
      destruct Ek as [k Ek]. rewrite <- Ek in *. rewrite <- app_assoc.
      change ((z :: x :: mtext i f) ++ m :: stext t ++ l) with ([z; x] ++ mtext i f ++ m :: stext t ++ l). constructor; try easy.
      * apply word_0x. eauto.
      * apply mantissa_parts; [easy|]. exists i, f. repeat split; try easy. now apply forallb_dok16.
      * apply (exponent_parts "p" "p"); try easy. exists m, t, l. auto.
    + destruct H as (H3 & H4 & H5 & H6 & H7). apply den_shape_pos in H7. destruct H7 as [H7 H8]. rewrite <- app_assoc.
      constructor; try easy; try (apply numeral_value; [easy | now apply forallb_dok10]); now apply blanks_isspace.
Qed.
