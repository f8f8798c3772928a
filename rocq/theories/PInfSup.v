(** * Proofs: literals in brackets: which texts match, and that a text has one reading *)
From Coq Require Import ZArith NArith Reals Bool Ascii String List Lia.
From Flocq Require Import Core.Core IEEE754.BinarySingleNaN.
From Verif Require Import Fmt Spec Exc Deco MBase MStream MText MRegex MRead PRegex SpecLiteral PLiteral.
Import ListNotations.
Local Open Scope list_scope.

(** ** The parts of a number are determined by its text *)
Lemma stext_sign s : forallb is_sign (stext s) = true. Proof. now destruct s. Qed.
Lemma stext_inj s s' : stext s = stext s' -> s = s'. Proof. now destruct s, s'. Qed.
Lemma sign_split s s' x x' : stops is_sign x -> stops is_sign x' -> stext s ++ x = stext s' ++ x' -> s = s' /\ x = x'.
Proof.
  intros H1 H2 E. apply (span_unique is_sign) in E; auto using stext_sign. destruct E as [E ->]. split; [now apply stext_inj|easy].
Qed.
(** What follows the sign. *)
Definition nbody (p : num) : text :=
  match p with
  | Dec s i f => mtext i f
  | DecE s i f m t l => mtext i f ++ m :: stext t ++ l
  | Hexa s z x i f m t l => z :: x :: mtext i f ++ m :: stext t ++ l
  | Rat s i a b j => i ++ a ++ txt "/" ++ b ++ j
  end.
Lemma ntext_body p : ntext p = stext (nsign p) ++ nbody p.
Proof. destruct p; cbn; now rewrite <- ?app_assoc. Qed.
Definition starts (p : ascii -> bool) (l : text) : Prop := match l with [] => False | c :: _ => p c = true end.
Definition num_start (c : ascii) : bool := isdigit c || is_point c.
Lemma mtext_starts (p : ascii -> bool) i f : (forall c, isdigit c = true -> p c = true) -> p "."%char = true -> mshape isdigit i f -> starts p (mtext i f).
Proof.
  unfold mshape, mtext, mdigits. intros Hp Hd [H1 H2]. destruct i as [|c i].
  - destruct f as [f|]; [exact Hd|easy].
  - cbn in *. apply andb_prop in H1. apply Hp. tauto.
Qed.
Lemma starts_app p a b : starts p a -> starts p (a ++ b). Proof. now destruct a. Qed.
Lemma nbody_starts p : nshape p -> starts num_start (nbody p).
Proof.
  assert (Hm : forall i f, mshape isdigit i f -> starts num_start (mtext i f)).
  { intros i f. apply mtext_starts; [|reflexivity]. intros c H. unfold num_start. now rewrite H. }
  destruct p as [s i f | s i f m t l | s z x i f m t l | s i a b j]; cbn [nshape nbody].
  - apply Hm.
  - intros (H & _). now apply starts_app, Hm.
  - intros (H & _). apply same_0 in H. now subst z.
  - intros (H & H1 & _). destruct i as [|c i]; [easy|]. cbn in *. apply andb_prop in H. unfold num_start. now destruct H as [-> _].
Qed.
Lemma num_start_not_sign c : num_start c = true -> is_sign c = false. Proof. chars c. Qed.
Lemma starts_stops (p q : ascii -> bool) l : (forall c, p c = true -> q c = false) -> starts p l -> stops q l.
Proof. intros H. destruct l; [easy|]. cbn. auto. Qed.

(** Decimal digits and what follows them. *)
Definition nint (p : num) : text :=
  match p with Dec _ i _ => i | DecE _ i _ _ _ _ => i | Hexa _ z _ _ _ _ _ _ => [z] | Rat _ i _ _ _ => i end.
Definition nrest (p : num) : text :=
  let point f := match f with Some f => txt "." ++ f | None => [] end in
  match p with
  | Dec s i f => point f
  | DecE s i f m t l => point f ++ m :: stext t ++ l
  | Hexa s z x i f m t l => x :: mtext i f ++ m :: stext t ++ l
  | Rat s i a b j => a ++ txt "/" ++ b ++ j
  end.
Lemma nbody_split p : nbody p = nint p ++ nrest p.
Proof. destruct p; cbn; unfold mtext; now rewrite <- ?app_assoc. Qed.
Lemma mshape_i p i f : mshape p i f -> forallb p i = true.
Proof. intros [H _]. unfold mdigits in H. rewrite forallb_app in H. apply andb_prop in H. tauto. Qed.
Lemma mshape_f p i f : mshape p i (Some f) -> forallb p f = true.
Proof. intros [H _]. unfold mdigits in H. rewrite forallb_app in H. apply andb_prop in H. tauto. Qed.
Lemma nint_digits p : nshape p -> forallb isdigit (nint p) = true.
Proof.
  destruct p; cbn; intros H.
  - now apply mshape_i in H.
  - destruct H as [H _]. now apply mshape_i in H.
  - destruct H as [H _]. apply same_0 in H. now subst.
  - tauto.
Qed.
Lemma space_stops a b : forallb isspace a = true -> stops isdigit (a ++ "/"%char :: b).
Proof. destruct a as [|c a]; cbn; [easy|]. intros H. apply andb_prop in H. destruct H as [H _]. revert H. chars c. Qed.
Lemma nrest_stops p : nshape p -> stops isdigit (nrest p).
Proof.
  destruct p as [s i f | s i f m t l | s z x i f m t l | s i a b j]; cbn [nshape nrest]; intros H.
  - now destruct f.
  - destruct H as (_ & H & _). apply mark_e in H. destruct f; cbn; [easy|tauto].
  - destruct H as (_ & H & _). apply same_x in H. cbn. tauto.
  - apply space_stops. tauto.
Qed.

(** The exponent of a number: mark, sign, digits. *)
Lemma exponent_split m t l m' t' l' : forallb isdigit l = true -> l <> [] -> forallb isdigit l' = true -> l' <> [] ->
  m :: stext t ++ l = m' :: stext t' ++ l' -> m = m' /\ t = t' /\ l = l'.
Proof.
  intros H1 H2 H3 H4 E. injection E as -> E. split; [easy|]. apply sign_split in E; [easy| |].
  - destruct l as [|c l]; [easy|]. cbn in *. apply andb_prop in H1. now apply digit_not_sign.
  - destruct l' as [|c l']; [easy|]. cbn in *. apply andb_prop in H3. now apply digit_not_sign.
Qed.
(** A mantissa and what follows it. *)
Lemma mant_split p i f i' f' x x' : mshape p i f -> mshape p i' f' -> (forall c, p c = true -> is_point c = false) ->
  stops p x -> stops p x' -> stops is_point x -> stops is_point x' ->
  mtext i f ++ x = mtext i' f' ++ x' -> i = i' /\ f = f' /\ x = x'.
Proof.
  intros H H' Hp H1 H2 H3 H4 E. unfold mtext in E. rewrite <- !app_assoc in E.
  pose proof (mshape_i _ _ _ H) as A. pose proof (mshape_i _ _ _ H') as A'.
  assert (Hd : p "."%char = false) by (destruct (p "."%char) eqn:Ed; [now apply Hp in Ed|easy]).
  apply (span_unique p) in E; [| easy | easy | destruct f; cbn; easy | destruct f'; cbn; easy].
  destruct E as [-> E]. split; [easy|]. destruct f as [f|], f' as [f'|].
  - apply mshape_f in H, H'. cbn in E. injection E as E. apply (span_unique p) in E; try easy. now destruct E as [-> ->].
  - cbn in E. subst x'. cbn in H4. easy.
  - cbn in E. subst x. cbn in H3. easy.
  - easy.
Qed.
Lemma space_split a b j a' b' j' : forallb isspace a = true -> forallb isspace a' = true -> forallb isspace b = true -> forallb isspace b' = true ->
  stops isspace j -> stops isspace j' -> a ++ "/"%char :: b ++ j = a' ++ "/"%char :: b' ++ j' -> a = a' /\ b = b' /\ j = j'.
Proof.
  intros H1 H2 H3 H4 H5 H6 E. apply (span_unique isspace) in E; try easy. destruct E as [-> E]. injection E as E.
  apply (span_unique isspace) in E; [|easy..]. now destruct E as [-> ->].
Qed.
Lemma den_stops j : den_shape j -> stops isspace j.
Proof.
  intros H. apply den_shape_pos in H. destruct H as [H _]. destruct j as [|c j]; [easy|]. cbn in *. apply andb_prop in H.
  destruct H as [H _]. revert H. chars c.
Qed.

Lemma mark_e_space c : same "e" c = true -> isspace c = false. Proof. chars c. Qed.
(** A letter that tells which kind of number it is: the first character after the digits. *)
Lemma ntext_inj p p' : nshape p -> nshape p' -> ntext p = ntext p' -> p = p'.
Proof.
  intros H H' E. rewrite !ntext_body in E.
  assert (B : forall q, nshape q -> stops is_sign (nbody q)).
  { intros q Hq. eapply starts_stops, nbody_starts, Hq. apply num_start_not_sign. }
  apply sign_split in E; auto. destruct E as [Es E]. rewrite !nbody_split in E.
  pose proof E as E0. apply (span_unique isdigit) in E; auto using nint_digits, nrest_stops. destruct E as [Ei Er].
  destruct p as [s i f | s i f m t l | s z x i f m t l | s i a b j], p' as [s' i' f' | s' i' f' m' t' l' | s' z' x' i' f' m' t' l' | s' i' a' b' j'];
    cbn [nsign nint nrest] in *; subst.
  - destruct f as [f|], f' as [f'|]; try easy. cbn in Er. now injection Er as ->.
  - destruct H' as (H1 & H2 & H3 & H4). apply mark_e in H2. destruct f as [f|], f' as [f'|]; cbn in Er; try easy.
    + injection Er as ->. exfalso. apply mshape_f in H. rewrite forallb_app in H. apply andb_prop in H. destruct H as [_ H]. cbn [forallb] in H.
      apply andb_prop in H. destruct H2, H. congruence.
    + injection Er as <- _. easy.
  - destruct H' as (_ & H2 & _). apply same_x in H2. destruct f; cbn in Er; [|easy]. injection Er as <- _. easy.
  - destruct H' as (_ & _ & H2 & _). destruct f; cbn in Er; [|now destruct a']. destruct a'; cbn in Er, H2; [easy|]; injection Er; intros; subst; easy.
  - destruct H as (H1 & H2 & H3 & H4). apply mark_e in H2. destruct f as [f|], f' as [f'|]; cbn in Er; try easy.
    + injection Er as <-. exfalso. apply mshape_f in H'. rewrite forallb_app in H'. apply andb_prop in H'. destruct H' as [_ H']. cbn [forallb] in H'.
      apply andb_prop in H'. destruct H2, H'. congruence.
    + injection Er as -> _. easy.
  - destruct H as (H1 & H2 & H3 & H4), H' as (H1' & H2' & H3' & H4').
    apply mark_e in H2, H2'. destruct (mant_split isdigit i' f i' f' (m :: stext t ++ l) (m' :: stext t' ++ l')) as (_ & -> & E); try easy.
    { intros c. apply digit_not_point. }
    { unfold mtext. rewrite <- !app_assoc. now f_equal. }
    apply exponent_split in E; try easy. now destruct E as (-> & -> & ->).
  - destruct H as (_ & H1 & _), H' as (_ & H2 & _). apply same_x in H2. destruct f; cbn in Er; injection Er; intros; subst; [easy|].
    exfalso. destruct H2 as (_ & _ & _ & H2 & _). congruence.
  - destruct H as (_ & H1 & _), H' as (_ & _ & H2 & _).
    destruct f, a'; cbn [app txt list_ascii_of_string forallb] in Er, H2; try discriminate; injection Er; intros; subst; try easy.
    now rewrite (mark_e_space _ H1) in H2.
  - destruct H as (_ & H2 & _). apply same_x in H2. destruct f'; cbn in Er; [|easy]. injection Er as -> _. easy.
  - destruct H' as (_ & H1 & _), H as (_ & H2 & _). apply same_x in H2. destruct f'; cbn in Er; injection Er; intros; subst; [easy|].
    exfalso. destruct H2 as (_ & _ & _ & H2 & _). congruence.
  - destruct H as (_ & _ & H1 & H2 & H3 & H4), H' as (_ & _ & H1' & H2' & H3' & H4'). injection Ei as ->. injection Er as -> Er.
    apply mark_p in H2, H2'. destruct (mant_split is_hex i f i' f' (m :: stext t ++ l) (m' :: stext t' ++ l')) as (-> & -> & E); try easy.
    { intros c. apply hex_not_point. }
    apply exponent_split in E; try easy. now destruct E as (-> & -> & ->).
  - destruct H as (_ & H1 & _), H' as (_ & _ & H2 & _). apply same_x in H1. destruct a'; cbn in Er, H2; injection Er; intros; subst; [easy|].
    destruct H1 as (_ & _ & _ & _ & H1 & _). now rewrite H1 in H2.
  - destruct H as (_ & _ & H2 & _). destruct f'; cbn in Er; [|now destruct a]. destruct a; cbn in Er, H2; [easy|]; injection Er; intros; subst; easy.
  - destruct H' as (_ & H1 & _), H as (_ & _ & H2 & _).
    destruct f', a; cbn [app txt list_ascii_of_string forallb] in Er, H2; try discriminate; injection Er; intros; subst; try easy.
    now rewrite (mark_e_space _ H1) in H2.
  - destruct H' as (_ & H1 & _), H as (_ & _ & H2 & _). apply same_x in H1. destruct a; cbn in Er, H2; injection Er; intros; subst; [easy|].
    destruct H1 as (_ & _ & _ & _ & H1 & _). now rewrite H1 in H2.
  - destruct H as (_ & _ & H1 & H2 & H3), H' as (_ & _ & H1' & H2' & H3').
    destruct (space_split a b j a' b' j') as (-> & -> & ->); auto using den_stops.
Qed.

(** ** Characters of numbers and words *)
Definition plainc (c : ascii) : bool := negb (ceq c ",") && negb (ceq c "]").
Definition wordc (c : ascii) : bool := between 97 122 c || is_sign c.
Lemma plain_space c : isspace c = true -> plainc c = true. Proof. chars c. Qed.
Lemma plain_digit c : isdigit c = true -> plainc c = true. Proof. chars c. Qed.
Lemma plain_hex c : is_hex c = true -> plainc c = true. Proof. chars c. Qed.
Lemma plain_e c : same "e" c = true -> plainc c = true. Proof. chars c. Qed.
Lemma plain_p c : same "p" c = true -> plainc c = true. Proof. chars c. Qed.
Lemma plain_x c : same "x" c = true -> plainc c = true. Proof. chars c. Qed.
Lemma plain_0 c : same "0" c = true -> plainc c = true. Proof. chars c. Qed.
Lemma plain_sign s : forallb plainc (stext s) = true. Proof. now destruct s. Qed.
Lemma plain_mtext p i f : (forall c, p c = true -> plainc c = true) -> mshape p i f -> forallb plainc (mtext i f) = true.
Proof.
  intros Hp [H _]. unfold mtext, mdigits in *. rewrite forallb_app in *. apply andb_prop in H. destruct H as [H1 H2].
  rewrite (forallb_impl p plainc i Hp H1). destruct f as [f|]; [|easy]. cbn [andb app txt list_ascii_of_string forallb].
  now rewrite (forallb_impl p plainc f Hp H2).
Qed.
Lemma ntext_plain p : nshape p -> forallb plainc (ntext p) = true.
Proof.
  destruct p as [s i f | s i f m t l | s z x i f m t l | s i a b j]; cbn [nshape ntext]; intros H.
  - rewrite forallb_app, plain_sign. now rewrite (plain_mtext _ _ _ plain_digit H).
  - destruct H as (H1 & H2 & H3 & _). rewrite !forallb_app, plain_sign, (plain_mtext _ _ _ plain_digit H1). cbn [forallb andb].
    rewrite (plain_e _ H2), forallb_app, plain_sign, (forallb_impl _ plainc l plain_digit H3). easy.
  - destruct H as (H1 & H2 & H3 & H4 & H5 & _). rewrite !forallb_app, plain_sign. cbn [forallb andb].
    rewrite (plain_0 _ H1), (plain_x _ H2), (plain_mtext _ _ _ plain_hex H3), (plain_p _ H4). cbn [andb].
    rewrite forallb_app, plain_sign. now rewrite (forallb_impl _ plainc l plain_digit H5).
  - destruct H as (H1 & _ & H2 & H3 & H4). apply den_shape_pos in H4. destruct H4 as [H4 _].
    rewrite !forallb_app, plain_sign. now rewrite (forallb_impl _ plainc i plain_digit H1), (forallb_impl _ plainc a plain_space H2),
      (forallb_impl _ plainc b plain_space H3), (forallb_impl _ plainc j plain_digit H4).
Qed.
Definition edges (x : text) : Prop := stops isspace x /\ stops isspace (rev x).
Lemma last_stops q (p : ascii -> bool) y (l : text) : (forall c, p c = true -> q c = false) -> l <> [] -> forallb p l = true -> stops q (rev (y ++ l)).
Proof.
  intros Hp H1 H2. destruct (exists_last H1) as (l' & c & ->). rewrite forallb_app in H2. apply andb_prop in H2. destruct H2 as [_ H2].
  cbn in H2. rewrite app_assoc, rev_app_distr. cbn. apply Hp. now destruct (p c).
Qed.
Lemma hex_not_space c : is_hex c = true -> isspace c = false. Proof. chars c. Qed.
Lemma digit_not_space c : isdigit c = true -> isspace c = false. Proof. chars c. Qed.
Lemma mtext_last y i f : mshape isdigit i f -> stops isspace (rev (y ++ mtext i f)).
Proof.
  intros [H1 H2]. unfold mtext, mdigits in *. rewrite forallb_app in H1. apply andb_prop in H1. destruct H1 as [H1 H3].
  destruct f as [[|d f]|].
  - now rewrite app_assoc, rev_app_distr.
  - rewrite !app_assoc. now apply (last_stops _ isdigit _ _ digit_not_space).
  - rewrite app_nil_r in *. now apply (last_stops _ isdigit _ _ digit_not_space).
Qed.
Lemma ntext_edges p : nshape p -> edges (ntext p).
Proof.
  intros H. split.
  - rewrite ntext_body. destruct (nsign p); cbn; try easy. eapply starts_stops, nbody_starts, H. intros c. chars c.
  - destruct p as [s i f | s i f m t l | s z x i f m t l | s i a b j]; cbn [nshape ntext] in *.
    + now apply mtext_last.
    + destruct H as (H1 & H2 & H3 & H4). rewrite app_comm_cons, app_assoc. now apply (last_stops _ isdigit _ _ digit_not_space).
    + destruct H as (_ & _ & H1 & H2 & H3 & H4). rewrite app_comm_cons, app_assoc. now apply (last_stops _ isdigit _ _ digit_not_space).
    + destruct H as (_ & _ & _ & _ & H4). apply den_shape_pos in H4. destruct H4 as [H4 H5]. rewrite !app_assoc.
      apply (last_stops _ isdigit _ _ digit_not_space); [now intros ->|easy].
Qed.
Lemma wordc_plain c : wordc (tolower c) = true -> plainc c = true. Proof. chars c. Qed.
Lemma wordc_nonspace c : wordc (tolower c) = true -> isspace c = false. Proof. chars c. Qed.
Lemma word_forallb w t : forallb wordc (txt w) = true -> word w t -> forallb (fun c => wordc (tolower c)) t = true.
Proof.
  unfold word. intros H E. rewrite <- E in H. clear E. induction t as [|c t IH]; [easy|]. cbn [map forallb] in *. apply andb_prop in H.
  rewrite IH; [|easy]. now destruct H as [-> _].
Qed.
Lemma word_plain w t : forallb wordc (txt w) = true -> word w t -> forallb plainc t = true /\ edges t.
Proof.
  intros H1 H2. pose proof (word_forallb w t H1 H2) as H. split; [eapply forallb_impl, H; apply wordc_plain|]. split.
  - destruct t as [|c t]; [easy|]. cbn in *. apply andb_prop in H. now apply wordc_nonspace.
  - destruct t as [|c t]; [easy|]. apply (last_stops isspace _ [] (c :: t)  wordc_nonspace); easy.
Qed.
Lemma trim_unique a x b a' x' b' : forallb isspace a = true -> forallb isspace b = true -> forallb isspace a' = true -> forallb isspace b' = true ->
  edges x -> edges x' -> a ++ x ++ b = a' ++ x' ++ b' -> x = x'.
Proof.
  intros Ha Hb Ha' Hb' [H1 H2] [H1' H2'] E.
  assert (N : forall y a b a' x' b' : text, forallb isspace a = true -> forallb isspace b = true -> stops isspace x' ->
    a ++ b = a' ++ x' ++ b' -> x' = []).
  { clear. intros _ a b a' x' b' Ha Hb Hx E. destruct x' as [|c x']; [easy|]. assert (H : forallb isspace (a ++ b) = true) by now rewrite forallb_app, Ha, Hb.
    rewrite E, forallb_app in H. apply andb_prop in H. destruct H as [_ H]. cbn in H, Hx. now rewrite Hx in H. }
  destruct x as [|c x].
  - symmetry. eapply (N [] a b a' x' b'); easy.
  - destruct x' as [|c' x'].
    + eapply (N [] a' b' a (c :: x) b); easy.
    + apply (span_unique isspace) in E; try easy. destruct E as [_ E]. apply (f_equal (@rev ascii)) in E. rewrite !rev_app_distr in E.
      apply (span_unique isspace) in E; try easy.
      * destruct E as [_ E]. apply (f_equal (@rev ascii)) in E. now rewrite !rev_involutive in E.
      * rewrite forallb_forall in *. intros y Hy. apply in_rev in Hy. auto.
      * rewrite forallb_forall in *. intros y Hy. apply in_rev in Hy. auto.
Qed.

(** ** Arguments *)
Inductive arg : Type := Absent | Numb (p : num) | Wrd (w : string) (t : text).
Definition atext (a : arg) : text := match a with Absent => [] | Numb p => ntext p | Wrd w t => t end.
Definition ashape (ws : list string) (a : arg) : Prop :=
  match a with Absent => True | Numb p => nshape p | Wrd w t => In w ws /\ word w t end.
Definition one_words : list string := ["empty"; "entire"; "nai"]%string.
Definition low_words : list string := ["-inf"; "-infinity"]%string.
Definition upp_words : list string := ["inf"; "infinity"; "+inf"; "+infinity"]%string.
Definition known (ws : list string) : Prop := ws = one_words \/ ws = low_words \/ ws = upp_words.
Lemma known_word ws w : known ws -> In w ws -> forallb wordc (txt w) = true /\ w <> ""%string.
Proof. intros [->|[->| ->]] H; cbn in H; repeat (destruct H as [<-|H]); now try split. Qed.
Lemma atext_plain ws a : known ws -> ashape ws a -> forallb plainc (atext a) = true /\ edges (atext a).
Proof.
  intros K. destruct a as [|p|w t]; cbn.
  - now repeat split.
  - intros H. split; [now apply ntext_plain|now apply ntext_edges].
  - intros [H1 H2]. apply (word_plain w); [now apply (known_word ws)|easy].
Qed.
Lemma word_not_num ws w t p : known ws -> In w ws -> word w t -> nshape p -> t <> ntext p.
Proof.
  intros K Hw H Hp ->. rewrite ntext_body in H. pose proof (nbody_starts p Hp) as Hs. destruct (nbody p) as [|c l]; [easy|]. cbn [starts] in Hs.
  unfold word in H. rewrite map_app in H. cbn [map] in H.
  assert (Hc : forall d, tolower c = d -> num_start d = true) by (intros d <-; revert Hs; chars c).
  destruct K as [->|[->| ->]]; cbn in Hw; repeat (destruct Hw as [<-|Hw]); try easy; destruct (nsign p); cbn in H; try easy; injection H as H _;
    apply Hc in H; easy.
Qed.
Lemma word_nonempty ws w t : known ws -> In w ws -> word w t -> t <> [].
Proof. intros K Hw H ->. destruct (known_word ws w K Hw) as [_ H1]. unfold word in H. now destruct w. Qed.
Lemma starts_nonempty p : nshape p -> ntext p <> [].
Proof. intros H E. rewrite ntext_body in E. apply nbody_starts in H. destruct (nbody p); [easy|]. now destruct (stext (nsign p)). Qed.
Lemma txt_inj w w' : txt w = txt w' -> w = w'.
Proof. intros H. apply (f_equal string_of_list_ascii) in H. unfold txt in H. now rewrite !string_of_list_ascii_of_string in H. Qed.
Lemma atext_inj ws a a' : known ws -> ashape ws a -> ashape ws a' -> atext a = atext a' -> a = a'.
Proof.
  intros K. destruct a as [|p|w t], a' as [|p'|w' t']; cbn; intros H H' E; try easy.
  - symmetry in E. now apply starts_nonempty in E.
  - destruct H' as [H1 H2]. symmetry in E. exfalso. exact (word_nonempty ws w' t' K H1 H2 E).
  - now apply starts_nonempty in E.
  - f_equal. now apply ntext_inj.
  - destruct H' as [H1 H2]. symmetry in E. exfalso. exact (word_not_num ws w' t' p K H1 H2 H E).
  - destruct H as [H1 H2]. exfalso. exact (word_nonempty ws w t K H1 H2 E).
  - destruct H as [H1 H2]. exfalso. exact (word_not_num ws w t p' K H1 H2 H' E).
  - destruct H as [_ H], H' as [_ H']. subst t'. f_equal. unfold word in *. apply txt_inj. congruence.
Qed.

(** ** Literals in brackets *)
Inductive lit : Type := L1 (a : text) (x : arg) (b : text) | L2 (a : text) (x : arg) (b c : text) (y : arg) (d : text).
Definition ltext (l : lit) : text :=
  match l with
  | L1 a x b => txt "[" ++ (a ++ atext x ++ b) ++ txt "]"
  | L2 a x b c y d => txt "[" ++ ((a ++ atext x ++ b) ++ txt "," ++ (c ++ atext y ++ d)) ++ txt "]"
  end.
Definition sp (t : text) : Prop := forallb isspace t = true.
Definition lshape (l : lit) : Prop :=
  match l with
  | L1 a x b => sp a /\ sp b /\ ashape one_words x
  | L2 a x b c y d => sp a /\ sp b /\ sp c /\ sp d /\ ashape low_words x /\ ashape upp_words y
  end.
Definition core (l : lit) : arg * option arg := match l with L1 _ x _ => (x, None) | L2 _ x _ _ y _ => (x, Some y) end.
Lemma k1 : known one_words. Proof. now left. Qed.
Lemma k2 : known low_words. Proof. now right; left. Qed.
Lemma k3 : known upp_words. Proof. now right; right. Qed.
Lemma arg_plain ws a x b : known ws -> sp a -> sp b -> ashape ws x -> forallb plainc (a ++ atext x ++ b) = true.
Proof.
  intros K Ha Hb Hx. apply (atext_plain ws x K) in Hx. rewrite !forallb_app. destruct Hx as [-> _].
  rewrite (forallb_impl _ plainc a plain_space Ha), (forallb_impl _ plainc b plain_space Hb). easy.
Qed.
Lemma ltext_inj l l' : lshape l -> lshape l' -> ltext l = ltext l' -> core l = core l'.
Proof.
  intros H H' E.
  assert (P : forall x y, forallb plainc x = true -> forallb plainc y = true -> x ++ ","%char :: y = x ++ ","%char :: y -> True) by easy.
  destruct l as [a x b | a x b c y d], l' as [a' x' b' | a' x' b' c' y' d']; cbn [ltext lshape core] in *;
    apply app_inv_head in E; apply app_inv_tail in E.
  - destruct H as (H1 & H2 & H3), H' as (H1' & H2' & H3'). f_equal. apply (atext_inj one_words); try easy; [apply k1|].
    eapply trim_unique; [exact H1|exact H2|exact H1'|exact H2'| | |exact E]; now apply (atext_plain one_words _ k1).
  - exfalso. destruct H as (H1 & H2 & H3). pose proof (arg_plain _ a x b k1 H1 H2 H3) as H. rewrite E, forallb_app in H.
    apply andb_prop in H. destruct H as [_ H]. easy.
  - exfalso. destruct H' as (H1 & H2 & H3). pose proof (arg_plain _ a' x' b' k1 H1 H2 H3) as H'. rewrite <- E, forallb_app in H'.
    apply andb_prop in H'. destruct H' as [_ H']. easy.
  - destruct H as (H1 & H2 & H3 & H4 & H5 & H6), H' as (H1' & H2' & H3' & H4' & H5' & H6').
    apply (span_unique plainc) in E; [| now apply (arg_plain _ _ _ _ k2) | now apply (arg_plain _ _ _ _ k2) | easy | easy].
    destruct E as [E E']. apply app_inv_head in E'. f_equal; [|f_equal].
    + apply (atext_inj low_words); try easy; [apply k2|].
      eapply trim_unique; [exact H1|exact H2|exact H1'|exact H2'| | |exact E]; now apply (atext_plain low_words _ k2).
    + apply (atext_inj upp_words); try easy; [apply k3|].
      eapply trim_unique; [exact H3|exact H4|exact H3'|exact H4'| | |exact E']; now apply (atext_plain upp_words _ k3).
Qed.

(** ** Matches and the values read from them *)
Lemma sem_lits l : forall s c c', sem (Lits l) s c c' <-> map tolower s = map tolower l /\ c' = c.
Proof.
  induction l as [|a l IH]; intros s c c'; cbn [Lits sem].
  - destruct s; cbn; [tauto|]. split; [now intros []|now intros []].
  - split.
    + intros (s1 & s2 & c1 & -> & (x & -> & Hx & ->) & H). apply IH in H. destruct H as [H ->].
      apply same_tolower in Hx. cbn. now rewrite H, Hx.
    + intros [H ->]. destruct s as [|x s]; [easy|]. cbn in H. injection H as Hx H. exists [x], s, c. split; [easy|].
      split; [exists x; repeat split; now apply same_tolower|]. now apply IH.
Qed.
Lemma sem_word w s c c' : map tolower (txt w) = txt w -> sem (Lits (txt w)) s c c' <-> word w s /\ c' = c.
Proof. intros H. rewrite sem_lits. now rewrite H. Qed.
Lemma sem_inf s c c' : sem Inf s c c' <-> (word "inf" s \/ word "infinity" s) /\ c' = c.
Proof.
  unfold Inf. cbn [sem]. rewrite (sem_word "inf"), (sem_word "infinity") by easy. tauto.
Qed.

Local Open Scope m_scope.
Section Values.
Context {F : fmt}.
Definition num_itv (q : option mpq) : itv F := match q with Some v => (rnd_q mode_DN v, rnd_q mode_UP v) | None => (f1, fm1) end.
Definition value1 (x : arg) : M (itv F * deco) :=
  match x with
  | Absent => ret (empty, trv)
  | Numb p => q <- nread p; ret (num_itv q, com)
  | Wrd w _ => ret (if String.eqb w "empty" then (empty, trv) else if String.eqb w "entire" then (entire, dac) else (empty, ill))
  end.
Definition is_num (x : arg) : bool := match x with Numb _ => true | _ => false end.
Definition arg_read (x : arg) : M (option mpq) := match x with Numb p => nread p | _ => ret None end.
Definition value2 (x y : arg) : M (itv F * deco) :=
  (ql <- arg_read x; qu <- arg_read y;
   let l := if is_num x then match ql with Some q => rnd_q mode_DN q | None => finf end else fminf in
   let u := if is_num y then match qu with Some q => rnd_q mode_UP q | None => fminf end else finf in
   let zero := (0, 1)%Z in
   let ordered := mpq_le (match ql with Some q => q | None => zero end) (match qu with Some q => q | None => zero end) in
   ret (if fle l u && (negb (is_num x) || negb (is_num y) || ordered) then (l, u) else (f1, fm1),
        if negb (is_num x) || negb (is_num y) then dac else com)).
Definition lvalue (k : arg * option arg) : M (itv F * deco) :=
  match k with (x, None) => value1 x | (x, Some y) => value2 x y end.

(** The groups of an argument. *)
Inductive acaps (n m : nat) (k : arg -> caps) : arg -> caps -> Prop :=
| AC_none : acaps n m k Absent []
| AC_eps : acaps n m k Absent [(n, [])]
| AC_num : forall p, acaps n m k (Numb p) ((n, ntext p) :: ncaps m p)
| AC_word : forall w t, acaps n m k (Wrd w t) ((n, t) :: k (Wrd w t)).
Definition one_caps (x : arg) : caps :=
  match x with Wrd w t => if String.eqb w "empty" then [(8%nat, t)] else if String.eqb w "entire" then [(9%nat, t)] else [(10%nat, t)] | _ => [] end.
Definition low_caps (x : arg) : caps := match x with Wrd w (_ :: t) => [(18%nat, t)] | _ => [] end.
Definition upp_caps (x : arg) : caps :=
  match x with
  | Wrd w t => if String.eqb w "inf" then [(27%nat, t)] else if String.eqb w "infinity" then [(27%nat, t)] else [(27%nat, tl t)]
  | _ => []
  end.

Lemma sem_arg n m r ws k s c c' :
  (forall s c', sem r s c c' <-> exists w, In w ws /\ word w s /\ c' = k (Wrd w s) ++ c) ->
  sem (Opt (Grp n (Number m r))) s c c' <-> exists x c1, ashape ws x /\ s = atext x /\ acaps n m k x c1 /\ c' = c1 ++ c.
Proof.
  intros Hr. unfold Opt. cbn [sem]. split.
  - intros [(c1 & H & ->) | [-> ->]].
    + apply sem_number in H. destruct H as [[-> ->] | [(p & Hp & -> & ->) | H]].
      * exists Absent, [(n, [])]. repeat split; constructor.
      * exists (Numb p), ((n, ntext p) :: ncaps m p). repeat split; [easy|constructor].
      * apply Hr in H. destruct H as (w & Hw & H & ->). exists (Wrd w s), ((n, s) :: k (Wrd w s)). repeat split; [easy|easy|constructor].
    + exists Absent, []. repeat split; constructor.
  - intros (x & c1 & H & -> & Hc & ->). destruct Hc as [| | p | w t].
    + right. easy.
    + left. exists c. split; [|easy]. apply sem_number. now left.
    + left. exists (ncaps m p ++ c). split; [|easy]. apply sem_number. right. left. now exists p.
    + left. exists (k (Wrd w t) ++ c). split; [|easy]. apply sem_number. right. right. apply Hr. destruct H. now exists w.
Qed.
Lemma sem_Words s c c' : sem Words s c c' <-> exists w, In w one_words /\ word w s /\ c' = one_caps (Wrd w s) ++ c.
Proof.
  unfold Words. cbn [sem]. split.
  - intros [(c1 & H & ->) | [(c1 & H & ->) | (c1 & H & ->)]]; apply sem_word in H; try easy; destruct H as [H ->].
    + exists "empty"%string. cbn. auto.
    + exists "entire"%string. cbn. auto.
    + exists "nai"%string. cbn. auto.
  - intros (w & Hw & H & ->). cbn in Hw. destruct Hw as [<-|[<-|[<-|[]]]].
    + left. exists c. split; [|easy]. now apply sem_word.
    + right. left. exists c. split; [|easy]. now apply sem_word.
    + right. right. exists c. split; [|easy]. now apply sem_word.
Qed.
Lemma lit_eq a s c c' : (forall d, tolower a = tolower d -> d = a) -> sem (Lit a) s c c' <-> s = [a] /\ c' = c.
Proof.
  intros H. unfold Lit. cbn. split.
  - intros (x & -> & Hx & ->). apply same_tolower in Hx. now rewrite (H x Hx).
  - intros [-> ->]. exists a. repeat split. now apply same_tolower.
Qed.
Ltac lower_eq := let d := fresh in intros d; chars d.
Lemma sem_low s c c' : sem (Cat (Lit "-") (Grp 18 Inf)) s c c' <-> exists w, In w low_words /\ word w s /\ c' = low_caps (Wrd w s) ++ c.
Proof.
  split.
  - intros (s1 & s2 & c1 & -> & H1 & c2 & H2 & ->). apply lit_eq in H1; [|lower_eq]. destruct H1 as [-> ->].
    apply sem_inf in H2. destruct H2 as [[H|H] ->].
    + exists "-inf"%string. repeat split; [now left|]. unfold word in *. cbn. now rewrite H.
    + exists "-infinity"%string. repeat split; [now right; left|]. unfold word in *. cbn. now rewrite H.
  - intros (w & Hw & H & ->). cbn in Hw.
    assert (E : exists d t, s = d :: t /\ tolower d = "-"%char /\ (word "inf" t \/ word "infinity" t)).
    { destruct Hw as [<-|[<-|[]]]; apply word_cons in H; destruct H as (d & t & -> & H1 & H2); exists d, t; auto. }
    destruct E as (d & t & -> & Hd & Ht). assert (d = "-"%char) as -> by (revert Hd; clear; chars d).
    exists ["-"%char], t, c. split; [easy|]. split; [apply lit_eq; [lower_eq|easy]|]. exists c. split; [now apply sem_inf|easy].
Qed.
Lemma sem_upp s c c' : sem (Cat (Opt (Lit "+")) (Grp 27 Inf)) s c c' <-> exists w, In w upp_words /\ word w s /\ c' = upp_caps (Wrd w s) ++ c.
Proof.
  split.
  - intros (s1 & s2 & c1 & -> & [H1 | [-> ->]] & c2 & H2 & ->).
    + apply lit_eq in H1; [|lower_eq]. destruct H1 as [-> ->]. apply sem_inf in H2. destruct H2 as [[H|H] ->].
      * exists "+inf"%string. repeat split; [cbn; auto|]. unfold word in *. cbn. now rewrite H.
      * exists "+infinity"%string. repeat split; [cbn; auto|]. unfold word in *. cbn. now rewrite H.
    + apply sem_inf in H2. destruct H2 as [[H|H] ->].
      * exists "inf"%string. repeat split; [cbn; auto|easy].
      * exists "infinity"%string. repeat split; [cbn; auto|easy].
  - intros (w & Hw & H & ->). cbn in Hw.
    destruct Hw as [<-|[<-|Hw]].
    + exists [], s, c. split; [easy|]. split; [now right|]. exists c. split; [|easy]. apply sem_inf. auto.
    + exists [], s, c. split; [easy|]. split; [now right|]. exists c. split; [|easy]. apply sem_inf. auto.
    + assert (E : exists d t, s = d :: t /\ tolower d = "+"%char /\ (word "inf" t \/ word "infinity" t)).
      { destruct Hw as [<-|[<-|[]]]; apply word_cons in H; destruct H as (d & t & -> & H1 & H2); exists d, t; auto. }
      destruct E as (d & t & -> & Hd & Ht). assert (d = "+"%char) as -> by (revert Hd; clear; chars d).
      exists ["+"%char], t, c. split; [easy|]. split; [left; apply lit_eq; [lower_eq|easy]|]. exists c. split; [now apply sem_inf|].
      destruct Hw as [<-|[<-|[]]]; easy.
Qed.
Lemma sem_ws s c c' : sem Ws s c c' <-> sp s /\ c' = c. Proof. reflexivity. Qed.

(** Looking up the groups of a number. *)
Lemma read_number_caps c n p : nshape p -> (forall k, (n <= k <= n + 5)%nat -> cap c k = cap (ncaps n p) k) -> read_number c n = nread p.
Proof.
  intros Hp H. unfold read_number, matched. rewrite !H by lia. clear H.
  assert (E : forall k, (k =? k)%nat = true) by (intros; apply Nat.eqb_refl).
  destruct p as [s i f | s i f m t l | s z x i f m t l | s i a b j]; cbn [ncaps cap nread nshape] in *.
  - rewrite E. replace (n =? n + 1)%nat with false by (symmetry; apply Nat.eqb_neq; lia).
    assert (N : stext s ++ mtext i f <> []) by (intros N; apply (starts_nonempty (Dec s i f)); [easy|exact N]).
    destruct (stext s ++ mtext i f); easy.
  - rewrite !E. replace (n + 1 =? n)%nat with false by (symmetry; apply Nat.eqb_neq; lia).
    assert (N : stext s ++ mtext i f <> []) by (intros N; apply (starts_nonempty (Dec s i f)); [easy|exact N]).
    destruct (stext s ++ mtext i f); easy.
  - replace (n + 2 + 1 =? n)%nat with false by (symmetry; apply Nat.eqb_neq; lia). replace (n + 2 =? n)%nat with false by (symmetry; apply Nat.eqb_neq; lia).
    replace (n + 2 + 1 =? n + 2)%nat with false by (symmetry; apply Nat.eqb_neq; lia). rewrite !E.
    replace (n + 2 + 1 =? n + 3)%nat with true by (symmetry; apply Nat.eqb_eq; lia). now destruct s.
  - replace (n + 4 + 1 =? n)%nat with false by (symmetry; apply Nat.eqb_neq; lia). replace (n + 4 =? n)%nat with false by (symmetry; apply Nat.eqb_neq; lia).
    replace (n + 4 + 1 =? n + 2)%nat with false by (symmetry; apply Nat.eqb_neq; lia). replace (n + 4 =? n + 2)%nat with false by (symmetry; apply Nat.eqb_neq; lia).
    replace (n + 4 + 1 =? n + 4)%nat with false by (symmetry; apply Nat.eqb_neq; lia). rewrite !E.
    replace (n + 4 + 1 =? n + 5)%nat with true by (symmetry; apply Nat.eqb_eq; lia).
    destruct Hp as (H1 & H2 & _). destruct (stext s ++ i) as [|c0 x0] eqn:Es; [destruct s, i; easy|easy].
Qed.
Lemma cap_app c c' k : cap (c ++ c') k = if existsb (fun e => Nat.eqb (fst e) k) c then cap c k else cap c' k.
Proof. induction c as [|[m t] c IH]; cbn; [easy|]. destruct (Nat.eqb m k); [easy|]. exact IH. Qed.
(** The groups of a number are n, ..., n + 5. *)
Lemma ncaps_range n p k : (k < n \/ n + 5 < k)%nat -> existsb (fun e => Nat.eqb (fst e) k) (ncaps n p) = false.
Proof.
  intros H. destruct p; cbn [ncaps existsb fst]; repeat match goal with |- context [Nat.eqb ?a ?b] => replace (Nat.eqb a b) with false by (symmetry; apply Nat.eqb_neq; lia) end; easy.
Qed.

Lemma one_value x c1 : ashape one_words x -> acaps 1 2 one_caps x c1 -> @literal_value F (c1 ++ []) = value1 x.
Proof.
  intros Hx H. rewrite app_nil_r. destruct H as [| | p | w t].
  - reflexivity.
  - reflexivity.
  - unfold literal_value, one_argument, matched.
    assert (E : forall k, (k <> 1)%nat -> cap ((1%nat, ntext p) :: ncaps 2 p) k = cap (ncaps 2 p) k).
    { intros k Hk. cbn [cap]. now destruct k as [|[|k]]. }
    assert (E' : forall k, (k < 2 \/ 7 < k)%nat -> cap (ncaps 2 p) k = []).
    { intros k Hk. rewrite <- (app_nil_r (ncaps 2 p)), cap_app, ncaps_range by lia. easy. }
    rewrite (E 19), (E 8), (E 9), (E 10) by lia. rewrite (E' 19), (E' 8), (E' 9), (E' 10) by lia. cbn [cap Nat.eqb]. destruct (ntext p) as [|h l] eqn:En; [now apply starts_nonempty in En|].
    cbn [orb negb]. rewrite <- En. rewrite (read_number_caps _ 2 p); [|easy|]; [reflexivity|]. intros k Hk. rewrite En. apply E. lia.
  - destruct Hx as [H1 H2]. cbn in H1. pose proof (word_nonempty _ _ _ k1 (proj1 (conj H1 I)) H2) as Hn.
    destruct t as [|h t]; [easy|]. destruct H1 as [<-|[<-|[<-|[]]]]; reflexivity.
Qed.
Lemma two_value x y c1 c2 : ashape low_words x -> ashape upp_words y -> acaps 11 12 low_caps x c1 -> acaps 20 21 upp_caps y c2 ->
  @literal_value F (c2 ++ (19%nat, txt ",") :: c1 ++ []) = value2 x y.
Proof.
  intros Hx Hy H1 H2. rewrite app_nil_r.
  set (c := c2 ++ (19%nat, txt ",") :: c1).
  assert (R2 : forall k, (k < 20)%nat -> existsb (fun e => Nat.eqb (fst e) k) c2 = false).
  { intros k Hk. destruct H2 as [| | p | w t]; cbn [existsb fst].
    - easy.
    - replace (20 =? k)%nat with false by (symmetry; apply Nat.eqb_neq; lia). easy.
    - replace (20 =? k)%nat with false by (symmetry; apply Nat.eqb_neq; lia). apply ncaps_range. lia.
    - replace (20 =? k)%nat with false by (symmetry; apply Nat.eqb_neq; lia). cbn [orb upp_caps].
      replace (existsb (fun e => Nat.eqb (fst e) k) _) with ((27 =? k)%nat || false);
        [replace (27 =? k)%nat with false by (symmetry; apply Nat.eqb_neq; lia); easy|].
      now destruct (String.eqb w "inf"), (String.eqb w "infinity"). }
  assert (R1 : forall k, (19 < k)%nat -> cap c1 k = []).
  { intros k Hk. destruct H1 as [| | p | w t]; cbn [cap].
    - easy.
    - replace (11 =? k)%nat with false by (symmetry; apply Nat.eqb_neq; lia). easy.
    - replace (11 =? k)%nat with false by (symmetry; apply Nat.eqb_neq; lia). rewrite <- (app_nil_r (ncaps 12 p)), cap_app, ncaps_range by lia. easy.
    - replace (11 =? k)%nat with false by (symmetry; apply Nat.eqb_neq; lia). destruct t as [|h t]; [easy|]. cbn [low_caps cap].
      replace (18 =? k)%nat with false by (symmetry; apply Nat.eqb_neq; lia). easy. }
  assert (E1 : forall k, (k < 19)%nat -> cap c k = cap c1 k).
  { intros k Hk. unfold c. rewrite cap_app, R2 by lia. cbn [cap]. replace (19 =? k)%nat with false by (symmetry; apply Nat.eqb_neq; lia). easy. }
  assert (E2 : forall k, (19 < k)%nat -> cap c k = cap c2 k).
  { intros k Hk. unfold c. rewrite cap_app. destruct (existsb (fun e => Nat.eqb (fst e) k) c2) eqn:Ex; [easy|]. cbn [cap].
    replace (19 =? k)%nat with false by (symmetry; apply Nat.eqb_neq; lia). rewrite R1 by easy.
    rewrite <- (app_nil_r c2), cap_app, Ex. easy. }
  assert (E19 : cap c 19 = txt ",") by (unfold c; now rewrite cap_app, R2 by lia).
  clearbody c. clear R1 R2. unfold literal_value. unfold matched at 1. rewrite E19. unfold two_arguments.
  assert (A1 : matched c 18 || negb (matched c 11) = negb (is_num x) /\ (is_num x = true -> read_number c 12 = arg_read x)).
  { unfold matched. rewrite !E1 by lia. destruct H1 as [| | p | w t].
    - easy.
    - easy.
    - cbn [cap Nat.eqb]. rewrite <- (app_nil_r (ncaps 12 p)), cap_app, ncaps_range by lia. cbn [cap].
      destruct (ntext p) eqn:En; [now apply starts_nonempty in En|]. split; [easy|]. intros _. apply read_number_caps; [easy|].
      intros k Hk. rewrite E1 by lia. cbn [cap]. now replace (11 =? k)%nat with false by (symmetry; apply Nat.eqb_neq; lia).
    - split; [|easy]. destruct Hx as [Hw Hx]. pose proof (word_nonempty _ _ _ k2 Hw Hx). destruct t as [|h t]; [easy|].
      cbn [cap Nat.eqb low_caps is_num]. destruct t; [|easy].
      destruct Hw as [<-|[<-|[]]]; apply word_cons in Hx; destruct Hx as (? & ? & Hx & _ & Hx'); injection Hx as _ <-; easy. }
  assert (A2 : matched c 27 || negb (matched c 20) = negb (is_num y) /\ (is_num y = true -> read_number c 21 = arg_read y)).
  { unfold matched. rewrite !E2 by lia. destruct H2 as [| | p | w t].
    - easy.
    - easy.
    - cbn [cap Nat.eqb]. rewrite <- (app_nil_r (ncaps 21 p)), cap_app, ncaps_range by lia. cbn [cap].
      destruct (ntext p) eqn:En; [now apply starts_nonempty in En|]. split; [easy|]. intros _. apply read_number_caps; [easy|].
      intros k Hk. rewrite E2 by lia. cbn [cap]. now replace (20 =? k)%nat with false by (symmetry; apply Nat.eqb_neq; lia).
    - split; [|easy]. destruct Hy as [Hw Hy]. pose proof (word_nonempty _ _ _ k3 Hw Hy). destruct t as [|h t]; [easy|].
      destruct Hw as [<-|[<-|[<-|[<-|[]]]]]; try reflexivity; cbn; destruct t; try easy;
        apply word_cons in Hy; destruct Hy as (? & ? & Hx' & _ & Hy); injection Hx' as _ <-; easy. }
  destruct A1 as [A1 B1], A2 as [A2 B2]. cbn iota. cbv zeta. rewrite A1, A2. unfold value2, arg_read in *.
  destruct x, y; cbn [is_num negb orb] in *; rewrite ?B1, ?B2 by easy; reflexivity.
Qed.

Lemma sem_lit s c : sem inf_sup_regex s [] c -> exists l, lshape l /\ s = ltext l /\ @literal_value F c = lvalue (core l).
Proof.
  intros [H | H].
  - destruct H as (s1 & s2 & d1 & -> & H1 & a & s3 & d2 & -> & H2 & x & s4 & d3 & -> & H3 & b & s5 & d4 & -> & H4 & H5).
    apply lit_eq in H1; [|lower_eq]. destruct H1 as [-> ->]. apply sem_ws in H2. destruct H2 as [Ha ->].
    apply (sem_arg 1 2 Words one_words one_caps) in H3; [|intros; apply sem_Words]. destruct H3 as (A & c1 & H6 & -> & H7 & ->).
    apply sem_ws in H4. destruct H4 as [Hb ->]. apply lit_eq in H5; [|lower_eq]. destruct H5 as [-> ->].
    exists (L1 a A b). split; [easy|]. split; [cbn [ltext]; rewrite <- !app_assoc; reflexivity|]. now apply one_value.
  - destruct H as (s1 & s2 & d1 & -> & H1 & a & s3 & d2 & -> & H2 & x & s4 & d3 & -> & H3 & b & s5 & d4 & -> & H4 &
      s6 & s7 & d5 & -> & (d6 & H5 & ->) & e & s8 & d7 & -> & H6 & y & s9 & d8 & -> & H7 & f & s10 & d9 & -> & H8 & H9).
    apply lit_eq in H1; [|lower_eq]. destruct H1 as [-> ->]. apply sem_ws in H2. destruct H2 as [Ha ->].
    apply (sem_arg 11 12 _ low_words low_caps) in H3; [|intros; apply sem_low]. destruct H3 as (A & c1 & HA & -> & HA' & ->).
    apply sem_ws in H4. destruct H4 as [Hb ->]. apply lit_eq in H5; [|lower_eq]. destruct H5 as [-> ->].
    apply sem_ws in H6. destruct H6 as [He ->].
    apply (sem_arg 20 21 _ upp_words upp_caps) in H7; [|intros; apply sem_upp]. destruct H7 as (B & c2 & HB & -> & HB' & ->).
    apply sem_ws in H8. destruct H8 as [Hf ->]. apply lit_eq in H9; [|lower_eq]. destruct H9 as [-> ->].
    exists (L2 a A b e B f). split; [easy|]. split; [cbn [ltext]; rewrite <- !app_assoc; reflexivity|]. now apply two_value.
Qed.
Lemma acaps_exists n m k x : exists c, acaps n m k x c.
Proof. destruct x; eexists; constructor. Qed.
Lemma lit_sem l : lshape l -> exists c, sem inf_sup_regex (ltext l) [] c.
Proof.
  destruct l as [a x b | a x b e y f]; cbn [lshape ltext]; intros H.
  - destruct H as (Ha & Hb & Hx). destruct (acaps_exists 1 2 one_caps x) as [c1 Hc]. exists (c1 ++ []). left.
    exists (txt "["), ((a ++ atext x ++ b) ++ txt "]"), []. split; [easy|]. split; [apply lit_eq; [lower_eq|easy]|].
    exists a, (atext x ++ b ++ txt "]"), []. split; [now rewrite <- !app_assoc|]. split; [now apply sem_ws|].
    exists (atext x), (b ++ txt "]"), (c1 ++ []). split; [easy|].
    split; [apply (sem_arg 1 2 Words one_words one_caps); [intros; apply sem_Words|eauto 7]|].
    exists b, (txt "]"), (c1 ++ []). split; [easy|]. split; [now apply sem_ws|]. apply lit_eq; [lower_eq|easy].
  - destruct H as (Ha & Hb & He & Hf & Hx & Hy). destruct (acaps_exists 11 12 low_caps x) as [c1 Hc], (acaps_exists 20 21 upp_caps y) as [c2 Hd].
    exists (c2 ++ (19%nat, txt ",") :: c1 ++ []). right.
    exists (txt "["), (((a ++ atext x ++ b) ++ txt "," ++ (e ++ atext y ++ f)) ++ txt "]"), []. split; [easy|]. split; [apply lit_eq; [lower_eq|easy]|].
    exists a, (atext x ++ b ++ txt "," ++ e ++ atext y ++ f ++ txt "]"), []. split; [now rewrite <- !app_assoc|]. split; [now apply sem_ws|].
    exists (atext x), (b ++ txt "," ++ e ++ atext y ++ f ++ txt "]"), (c1 ++ []). split; [easy|].
    split; [apply (sem_arg 11 12 _ low_words low_caps); [intros; apply sem_low|eauto 7]|].
    exists b, (txt "," ++ e ++ atext y ++ f ++ txt "]"), (c1 ++ []). split; [easy|]. split; [now apply sem_ws|].
    exists (txt ","), (e ++ atext y ++ f ++ txt "]"), ((19%nat, txt ",") :: c1 ++ []). split; [easy|].
    split; [exists (c1 ++ []); split; [apply lit_eq; [lower_eq|easy]|easy]|].
    exists e, (atext y ++ f ++ txt "]"), ((19%nat, txt ",") :: c1 ++ []). split; [easy|]. split; [now apply sem_ws|].
    exists (atext y), (f ++ txt "]"), (c2 ++ (19%nat, txt ",") :: c1 ++ []). split; [easy|].
    split; [apply (sem_arg 20 21 _ upp_words upp_caps); [intros; apply sem_upp|eauto 7]|].
    exists f, (txt "]"), (c2 ++ (19%nat, txt ",") :: c1 ++ []). split; [easy|]. split; [now apply sem_ws|]. apply lit_eq; [lower_eq|easy].
Qed.

(** What the expression makes of a literal. *)
Lemma regex_lit l : lshape l -> exists c, regex_match inf_sup_regex (ltext l) = Some c /\ @literal_value F c = lvalue (core l).
Proof.
  intros H. destruct (lit_sem l H) as [c0 H0]. apply regex_match_complete in H0. destruct H0 as [c Hc]. exists c. split; [easy|].
  apply regex_match_sound in Hc. apply sem_lit in Hc. destruct Hc as (l' & H' & E & ->). f_equal. symmetry. now apply ltext_inj.
Qed.
Lemma lit_regex s c : regex_match inf_sup_regex s = Some c -> exists l, lshape l /\ s = ltext l /\ @literal_value F c = lvalue (core l).
Proof. intros H. apply regex_match_sound in H. now apply sem_lit. Qed.
End Values.
