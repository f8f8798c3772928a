(** * Proofs: decorations and their texts *)
From Coq Require Import ZArith NArith Bool Ascii String List Lia.
From Verif Require Import Deco MStream MDecoIo SpecDecoText.
Import ListNotations.
Local Open Scope N_scope.

(** ** Order *)
Definition of_spec (d : decoration) : deco := byte d.
Lemma byte_order a b : N.ltb (byte a) (byte b) = Nat.ltb (rank a) (rank b).
Proof. now destruct a, b. Qed.
Lemma dmin_rank a b : dmin (byte a) (byte b) = byte (if (rank a <=? rank b)%nat then a else b).
Proof. now destruct a, b. Qed.
Lemma dmin_list_rank l : forall a, exists m, dmin_list (byte a) (map byte l) = byte m /\ In m (a :: l) /\ Forall (fun b => (rank m <= rank b)%nat) (a :: l).
Proof.
induction l as [|b l IH]; intros a.
- exists a. split; [easy|]. split; [now left|]. now constructor.
- cbn [map]. unfold dmin_list. cbn [fold_left]. rewrite dmin_rank.
  destruct (IH (if (rank a <=? rank b)%nat then a else b)) as [m [H1 [H2 H3]]]. exists m. split; [exact H1|]. inversion H3 as [|? ? L1 L2]; subst.
  destruct (Nat.leb_spec (rank a) (rank b)) as [L|L].
  + split; [destruct H2 as [->|H2]; [now left|now right; right]|]. repeat constructor; try easy. lia.
  + split; [destruct H2 as [->|H2]; [now right; left|now right; right]|]. repeat constructor; try easy. lia.
Qed.

(** ** Streams *)
Lemma good_ok s : good s = true -> ok s = true.
Proof. unfold good, ok. destruct (eofbit s), (failbit s), (badbit s); easy. Qed.
Lemma good_setrest l s : good (setrest l s) = good s. Proof. easy. Qed.
Lemma setrest_same s : setrest (rest s) s = s. Proof. now destruct s. Qed.
Lemma setrest_setrest l l' s : setrest l (setrest l' s) = setrest l s. Proof. easy. Qed.

(** Skipping white space leaves a good stream, or one at its end. *)
Definition at_end (l : text) (s : istream) : istream := match l with [] => seteof (setrest [] s) | _ => setrest l s end.
Lemma remove_ws_spec l : forall s, good s = true -> remove_ws_from l (setrest l s) = at_end (drop_ws l) s.
Proof.
induction l as [|c l IH]; intros s H.
- cbn. unfold peek. rewrite (good_ok (setrest [] s)) by easy. rewrite good_setrest, H. reflexivity.
- cbn [remove_ws_from drop_ws]. rewrite (good_ok (setrest _ s)) by easy. unfold peek. rewrite good_setrest, H. cbn [rest setrest].
  destruct (isspace c) eqn:E; [|reflexivity]. unfold get. rewrite good_setrest, H. cbn [rest setrest snd]. apply (IH s H).
Qed.
Definition visible (s : istream) : text := if skipws s then drop_ws (rest s) else rest s.
Definition after_ws (s : istream) : istream := if skipws s then remove_ws s else s.
Lemma after_ws_spec s : good s = true -> after_ws s = if skipws s then at_end (visible s) s else s.
Proof.
intros H. unfold after_ws, visible. destruct (skipws s) eqn:E; [|easy]. unfold remove_ws.
rewrite <- (setrest_same s) at 2. now apply remove_ws_spec.
Qed.
Lemma after_ws_ok s : good s = true -> ok (after_ws s) = true.
Proof.
intros H. rewrite after_ws_spec by easy. destruct (skipws s); [|now apply good_ok]. apply good_ok in H. unfold at_end. now destruct (visible s).
Qed.
Lemma after_ws_cons s c l : good s = true -> visible s = c :: l ->
  after_ws s = setrest (c :: l) s.
Proof.
intros H E. rewrite after_ws_spec by easy. rewrite E. unfold visible in E. destruct (skipws s); [easy|]. rewrite <- E. now rewrite setrest_same.
Qed.
Lemma drop_ws_idem l : drop_ws (drop_ws l) = drop_ws l.
Proof. induction l as [|c l IH]; [easy|]. cbn. destruct (isspace c) eqn:E; [easy|]. cbn. now rewrite E. Qed.

(** ** Characters *)
Lemma digit_dec c : isdigit c = true <-> is_decimal c.
Proof. unfold isdigit, between, is_decimal, code. rewrite andb_true_iff, !N.leb_le. tauto. Qed.
Lemma digit_not_space c : isdigit c = true -> isspace c = false.
Proof.
unfold isdigit, isspace, between. rewrite andb_true_iff, !N.leb_le. intros [H1 H2]. apply orb_false_iff. split.
- apply andb_false_iff. right. apply N.leb_gt. lia.
- apply N.eqb_neq. lia.
Qed.
Lemma ceq_eq a b : ceq a b = true <-> a = b.
Proof.
unfold ceq. rewrite N.eqb_eq. unfold code. split; [|now intros ->]. intros H.
rewrite <- (ascii_N_embedding a), <- (ascii_N_embedding b). now rewrite H.
Qed.
Lemma teq_eq s : forall t, teq s t = true <-> s = t.
Proof.
induction s as [|a s IH]; intros [|b t]; cbn; try easy. rewrite andb_true_iff, ceq_eq, IH. split; [now intros [-> ->]|]. intros H. now injection H.
Qed.
Lemma lower_letter c l : (97 <= code l <= 122) -> (if code c <? 128 then tolower c else c) = l <-> same_letter l c.
Proof.
intros Hl. unfold same_letter, tolower, isupper, between. fold (code c) (code l).
assert (E : forall n, n < 256 -> code (ascii_of_N n) = n) by (intros n Hn; apply N_ascii_embedding; lia).
assert (I : forall a b, code a = code b -> a = b) by (intros a b H; apply ceq_eq; now apply N.eqb_eq).
destruct (N.ltb_spec (code c) 128) as [L|L].
- destruct ((65 <=? code c) && (code c <=? 90)) eqn:B.
  + apply andb_true_iff in B. rewrite !N.leb_le in B. split.
    * intros <-. right. rewrite E by lia. lia.
    * intros [->|H]; [lia|]. apply I. rewrite E by lia. easy.
  + split; [now left|]. intros [H|H]; [easy|]. apply andb_false_iff in B. rewrite !N.leb_gt in B. lia.
- split; [now left|]. intros [H|H]; [easy|lia].
Qed.

Lemma lower_name w d : ascii_to_lower w = list_ascii_of_string (name d) <-> Forall2 same_letter (list_ascii_of_string (name d)) w.
Proof.
assert (G : forall l, Forall (fun c => 97 <= code c <= 122) l -> forall w, ascii_to_lower w = l <-> Forall2 same_letter l w).
{ clear. induction l as [|a l IH]; intros H w.
  - destruct w; split; intros G; try easy; now inversion G.
  - inversion H as [|? ? H1 H2]; subst. destruct w as [|c w]; [split; intros G; [easy|now inversion G]|].
    cbn [ascii_to_lower map]. split.
    + intros G. injection G as G1 G2. constructor; [now apply lower_letter|now apply IH].
    + intros G. inversion G; subst. f_equal; [now apply lower_letter|now apply IH]. }
apply G. destruct d; repeat constructor; cbn; lia.
Qed.

(** ** Numbers *)
Lemma digits10 l : forall acc seen,
  exists w r, l = w ++ r /\ Forall is_decimal w /\ (forall c r', r = c :: r' -> ~ is_decimal c) /\
  digits_from 10 acc seen l = (if seen || negb (match w with [] => true | _ => false end)
     then Some (fold_left (fun a c => a * 10 + (N_of_ascii c - 48)) w acc) else None, r).
Proof.
induction l as [|c l IH]; intros acc seen.
- exists [], []. cbn. rewrite orb_false_r. repeat split; try easy; constructor.
- cbn [digits_from]. destruct (isdigit c) eqn:E.
  + assert (D : digit c = Some (code c - 48)) by (unfold digit; now rewrite E). rewrite D.
    assert (L : code c - 48 <? 10 = true). { apply N.ltb_lt. apply digit_dec in E. unfold is_decimal in E. unfold code. lia. }
    rewrite L. destruct (IH (acc * 10 + (code c - 48)) true) as [w [r [H1 [H2 [H3 H4]]]]]. exists (c :: w), r. rewrite H4. cbn. rewrite orb_true_r.
    repeat split; try easy; [now rewrite H1|]. constructor; [now apply digit_dec|easy].
  + exists [], (c :: l). cbn. rewrite orb_false_r. split; [easy|]. split; [constructor|]. split.
    { intros c' r' H. injection H as <- <-. rewrite <- digit_dec, E. easy. }
    unfold digit. rewrite E. destruct (between 97 102 c) eqn:E1; [|destruct (between 65 70 c) eqn:E2; [|easy]].
    * replace (code c - 87 <? 10) with false; [easy|]. symmetry. apply N.ltb_ge. unfold between in E1. rewrite andb_true_iff, !N.leb_le in E1. lia.
    * replace (code c - 55 <? 10) with false; [easy|]. symmetry. apply N.ltb_ge. unfold between in E2. rewrite andb_true_iff, !N.leb_le in E2. lia.
Qed.
Lemma digits10_exact w : forall r acc seen, Forall is_decimal w -> (forall c r', r = c :: r' -> ~ is_decimal c) ->
  digits_from 10 acc seen (w ++ r) = (if seen || negb (match w with [] => true | _ => false end)
     then Some (fold_left (fun a c => a * 10 + (N_of_ascii c - 48)) w acc) else None, r).
Proof.
induction w as [|c w IH]; intros r acc seen H1 H2.
- cbn. rewrite orb_false_r. destruct (digits10 r acc seen) as [w [r' [E1 [E2 [E3 E4]]]]]. destruct w as [|c w].
  + cbn in *. subst r'. now rewrite E4, orb_false_r.
  + exfalso. inversion E2; subst. now apply (H2 c (w ++ r')).
- inversion H1; subst. cbn [app digits_from]. assert (D : digit c = Some (code c - 48)) by (unfold digit; now rewrite (proj2 (digit_dec c))). rewrite D.
  replace (code c - 48 <? 10) with true by (symmetry; apply N.ltb_lt; unfold is_decimal in *; unfold code; lia).
  rewrite IH by easy. cbn. now rewrite orb_true_r.
Qed.

(** ** Reading *)
Definition pick (v : N) : option decoration :=
  if v =? 0 then Some d_ill else if v =? 4 then Some d_trv else if v =? 8 then Some d_def else if v =? 12 then Some d_dac else if v =? 16 then Some d_com else None.
Lemma pick_byte v d : pick v = Some d <-> v = byte d.
Proof.
unfold pick. split.
- destruct (N.eqb_spec v 0) as [->|]; [now intros H; injection H as <-|]. destruct (N.eqb_spec v 4) as [->|]; [now intros H; injection H as <-|].
  destruct (N.eqb_spec v 8) as [->|]; [now intros H; injection H as <-|]. destruct (N.eqb_spec v 12) as [->|]; [now intros H; injection H as <-|].
  destruct (N.eqb_spec v 16) as [->|]; [now intros H; injection H as <-|]. easy.
- intros ->. now destruct d.
Qed.
Definition pick_name (w : text) : option decoration :=
  if teq w (txt "ill") then Some d_ill else if teq w (txt "trv") then Some d_trv else if teq w (txt "def") then Some d_def
  else if teq w (txt "dac") then Some d_dac else if teq w (txt "com") then Some d_com else None.
Lemma pick_name_spec w d : pick_name w = Some d <-> w = list_ascii_of_string (name d).
Proof.
unfold pick_name. split.
- destruct (teq w (txt "ill")) eqn:E1; [apply teq_eq in E1; subst; now intros H; injection H as <-|].
  destruct (teq w (txt "trv")) eqn:E2; [apply teq_eq in E2; subst; now intros H; injection H as <-|].
  destruct (teq w (txt "def")) eqn:E3; [apply teq_eq in E3; subst; now intros H; injection H as <-|].
  destruct (teq w (txt "dac")) eqn:E4; [apply teq_eq in E4; subst; now intros H; injection H as <-|].
  destruct (teq w (txt "com")) eqn:E5; [apply teq_eq in E5; subst; now intros H; injection H as <-|]. easy.
- intros ->. now destruct d.
Qed.
Definition result (d : option decoration) (s : istream) : option deco * istream :=
  match d with Some x => (Some (byte x), s) | None => (None, setfail s) end.
Lemma read_deco_eq s : read_deco s =
  let s1 := after_ws s in
  if ok s1 then
    let '(c, s2) := peek s1 in
    if match c with Some a => isdigit a | None => false end then
      let '(n, s3) := read_unsigned s2 in result (match n with Some v => if ok s3 then pick v else None | None => None end) s3
    else let '(l, s3) := read 3 s2 in result (if ok s3 then pick_name (ascii_to_lower l) else None) s3
  else (None, setfail s1).
Proof.
unfold read_deco. cbv zeta. fold (after_ws s). destruct (ok (after_ws s)); [|easy]. destruct (peek (after_ws s)) as [c s2].
destruct (match c with Some a => isdigit a | None => false end).
- destruct (read_unsigned s2) as [[v|] s3]; [|easy]. destruct (ok s3); [|easy]. unfold pick.
  now repeat (match goal with |- context [if (?a =? ?b) then _ else _] => destruct (a =? b) end).
- destruct (read 3 s2) as [l s3]. destruct (ok s3); [|easy]. unfold pick_name.
  now repeat (match goal with |- context [if (teq ?a ?b) then _ else _] => destruct (teq a b) end).
Qed.

(** What is read, in terms of the characters after white space. *)
Definition parse (l : text) : option decoration * text :=
  match l with
  | [] => (None, [])
  | c :: _ =>
    if isdigit c then
      let '(n, r) := digits_from 10 0 false l in (match n with Some v => pick v | None => None end, r)
    else (if (length l <? 3)%nat then None else pick_name (ascii_to_lower (firstn 3 l)), skipn 3 l)
  end.
Lemma read_deco_parse s : good s = true -> basef s = b_dec ->
  exists s', read_deco s = (option_map byte (fst (parse (visible s))), s') /\
  (fst (parse (visible s)) = None -> failbit s' = true) /\
  (fst (parse (visible s)) <> None -> ok s' = true /\ rest s' = snd (parse (visible s)) /\ skipws s' = skipws s /\ basef s' = b_dec).
Proof.
intros H HB. rewrite read_deco_eq. cbv zeta. rewrite after_ws_ok by easy.
destruct (visible s) as [|c l] eqn:E.
- (* nothing left *)
  assert (P : exists s2, peek (after_ws s) = (None, s2) /\ good s2 = false).
  { rewrite after_ws_spec by easy. rewrite E. unfold visible in E. destruct (skipws s).
    - unfold peek, at_end. cbn. eexists. split; [reflexivity|]. unfold good. cbn. easy.
    - unfold peek. rewrite H, E. eexists. split; [reflexivity|]. easy. }
  destruct P as [s2 [P G]]. rewrite P. unfold read. rewrite G. cbn. eexists. split; [reflexivity|]. split; [easy|]. now intros [].
- rewrite (after_ws_cons s c l H E). unfold peek. rewrite good_setrest, H. cbn [rest setrest].
  unfold parse. destruct (isdigit c) eqn:D.
  + unfold read_unsigned. rewrite good_setrest, H. cbn [rest setrest skipws basef]. rewrite HB.
    assert (W : (if skipws s then drop_ws (c :: l) else c :: l) = c :: l).
    { destruct (skipws s); [|easy]. cbn. now rewrite (digit_not_space c D). }
    rewrite W. unfold num_get. destruct (digits_from 10 0 false (c :: l)) as [[v|] r] eqn:Ed.
    * set (s2 := match r with [] => seteof _ | _ => _ end).
      assert (K : ok s2 = true). { unfold s2. apply good_ok in H. now destruct r. }
      assert (KR : rest s2 = r /\ skipws s2 = skipws s /\ basef s2 = b_dec) by (unfold s2; rewrite <- HB; now destruct r).
      destruct (v <? 2 ^ 32) eqn:L.
      -- rewrite K. destruct (pick v) as [d|] eqn:P; cbn [result fst snd option_map].
         ++ exists s2. split; [easy|]. split; [easy|]. intros _. split; [exact K|exact KR].
         ++ eexists. split; [reflexivity|]. split; [easy|]. now intros [].
      -- cbn [result]. assert (P : pick v = None).
         { destruct (pick v) as [d|] eqn:P; [|easy]. apply pick_byte in P. subst v. now destruct d. }
         rewrite P. eexists. split; [reflexivity|]. split; [easy|]. now intros [].
    * cbn. eexists. split; [reflexivity|]. split; [easy|]. now intros [].
  + unfold read. rewrite good_setrest, H. cbn [rest setrest].
    assert (LL : (length (firstn 3 (c :: l)) <? 3)%nat = (length (c :: l) <? 3)%nat) by (destruct l as [|? [|? [|? ?]]]; reflexivity).
    rewrite LL. destruct (length (c :: l) <? 3)%nat eqn:L3.
    * cbn [result]. unfold ok at 1. cbn. eexists. split; [reflexivity|]. split; [easy|]. now intros [].
    * rewrite (good_ok (setrest (skipn 3 (c :: l)) (setrest (c :: l) s))) by exact H.
      destruct (pick_name (ascii_to_lower (firstn 3 (c :: l)))) as [d|] eqn:P; cbn [result fst snd option_map].
      -- eexists. split; [reflexivity|]. split; [easy|]. intros _. now apply good_ok in H.
      -- eexists. split; [reflexivity|]. split; [easy|]. now intros [].
Qed.

Lemma F2_length {A B} (P : A -> B -> Prop) l m : Forall2 P l m -> length l = length m.
Proof. induction 1; cbn; congruence. Qed.
Lemma name_not_digit d w c l : Forall2 same_letter (list_ascii_of_string (name d)) w -> w = c :: l -> isdigit c = false.
Proof.
intros H ->. apply not_true_is_false. intros D. apply digit_dec in D. unfold is_decimal in D.
destruct d; inversion H as [|? ? ? ? H1 H2]; subst; destruct H1 as [->|H1]; cbn in *; lia.
Qed.
Lemma parse_denotes l d r : parse l = (Some d, r) <-> denotes l d r.
Proof.
split.
- destruct l as [|c l]; [easy|]. unfold parse. destruct (isdigit c) eqn:D.
  + destruct (digits10 (c :: l) 0 false) as [w [r' [H1 [H2 [H3 H4]]]]]. rewrite H4.
    destruct w as [|c' w].
    { exfalso. cbn in H1. subst r'. apply (H3 c l); [easy|]. now apply digit_dec. }
    cbn [orb negb]. intros P. injection P as P1 P2. subst r'. rewrite H1. apply denotes_number; try easy. now apply pick_byte.
  + destruct (length (c :: l) <? 3)%nat eqn:L; [easy|]. intros P. apply pair_equal_spec in P. destruct P as [P1 P2]. subst r.
    apply pick_name_spec in P1. apply lower_name in P1. rewrite <- (firstn_skipn 3 (c :: l)) at 1. now apply denotes_name.
- intros H. destruct H as [d w r H|d w r H1 H2 H3 H4].
  + assert (LW : length w = 3%nat) by (rewrite <- (F2_length _ _ _ H); now destruct d).
    destruct w as [|c [|c2 [|c3 [|c4 w]]]]; try easy. pose proof (name_not_digit d _ _ _ H eq_refl) as D.
    unfold parse. cbn [app]. rewrite D. cbn [length Nat.ltb Nat.leb firstn skipn].
    apply lower_name, pick_name_spec in H. now rewrite H.
  + destruct w as [|c w]; [easy|]. unfold parse. cbn [app]. inversion H2; subst. rewrite (proj2 (digit_dec c)) by easy.
    change (c :: w ++ r) with ((c :: w) ++ r). rewrite digits10_exact by easy. cbn [orb negb].
    rewrite (proj2 (pick_byte _ d)); [easy|]. exact H4.
Qed.

Lemma read_deco_denotes s d r : good s = true -> basef s = b_dec -> denotes (visible s) d r ->
  exists s', read_deco s = (Some (byte d), s') /\ ok s' = true /\ rest s' = r.
Proof.
intros H HB HD. apply parse_denotes in HD. destruct (read_deco_parse s H HB) as [s' [H1 [_ H3]]]. exists s'. rewrite HD in *. cbn in *.
split; [easy|]. now destruct H3 as [? [? _]].
Qed.
Lemma read_deco_fails s : good s = true -> basef s = b_dec -> (forall d r, ~ denotes (visible s) d r) ->
  exists s', read_deco s = (None, s') /\ failbit s' = true.
Proof.
intros H HB HD. destruct (read_deco_parse s H HB) as [s' [H1 [H2 _]]]. exists s'.
assert (P : fst (parse (visible s)) = None).
{ destruct (parse (visible s)) as [[d|] r] eqn:E; [|easy]. exfalso. now apply (HD d r), parse_denotes. }
rewrite P in *. cbn in H1. split; [easy|now apply H2].
Qed.
(** Never assigned without success, never successful without a value. *)
Lemma read_deco_state s : match read_deco s with (Some _, s') => ok s' = true | (None, s') => failbit s' = true end.
Proof.
rewrite read_deco_eq. cbv zeta. destruct (ok (after_ws s)); [|easy]. destruct (peek (after_ws s)) as [c s2].
destruct (match c with Some a => isdigit a | None => false end).
- destruct (read_unsigned s2) as [[v|] s3]; [|easy]. destruct (ok s3) eqn:K; [|easy]. now destruct (pick v).
- destruct (read 3 s2) as [l s3]. destruct (ok s3) eqn:K; [|easy]. now destruct (pick_name _).
Qed.

(** ** Writing, then reading *)
(** What follows does not continue a number. *)
Definition stops (r : text) : Prop := match r with [] => True | c :: _ => digit c = None /\ is_x c = false end.
Lemma digits_stop b acc r : stops r -> digits_from b acc true r = (Some acc, r).
Proof. destruct r as [|c r]; [easy|]. intros [H _]. cbn. now rewrite H. Qed.
Lemma drop_spaces n c l : isspace c = true -> drop_ws (repeat c n ++ l) = drop_ws l.
Proof. intros H. induction n as [|n IH]; [easy|]. cbn. now rewrite H. Qed.

(** The width set on the stream is harmless: small, or padding with white space in front. *)
Definition harmless (o : ostream) (sk : bool) : Prop :=
  o_width o <= 1 \/ (o_adjust o = a_right /\ isspace (o_fill o) = true /\ sk = true).
Lemma pad_visible o sk pre body r c l : harmless o sk -> pre ++ body = c :: l -> isspace c = false ->
  (if sk then drop_ws (pad o pre body ++ r) else pad o pre body ++ r) = (pre ++ body) ++ r.
Proof.
intros H E Hc. unfold pad. assert (D : (if sk then drop_ws ((pre ++ body) ++ r) else (pre ++ body) ++ r) = (pre ++ body) ++ r).
{ rewrite E. cbn. rewrite Hc. now destruct sk. }
destruct H as [H|[H1 [H2 ->]]].
- replace (spaces (N.to_nat (o_width o) - length (pre ++ body)) (o_fill o)) with (@nil ascii).
  + cbn [app]. rewrite app_nil_r. now destruct (o_adjust o).
  + rewrite E. cbn [length]. replace (N.to_nat (o_width o) - S (length l))%nat with 0%nat by lia. easy.
- rewrite H1. unfold spaces. rewrite <- app_assoc. rewrite drop_spaces by easy. exact D.
Qed.

Definition istate (bf : basefield) (sk : bool) (l : text) : istream := Istream l false false false sk bf.
Lemma visible_istate bf sk l : visible (istate bf sk l) = if sk then drop_ws l else l. Proof. easy. Qed.

Lemma read_number bf (sk : bool) l c t v r : (if sk then drop_ws l else l) = c :: t -> isdigit c = true -> num_get bf (c :: t) = (Some v, r) -> v < 2 ^ 32 ->
  exists s', read_deco (istate bf sk l) = result (pick v) s' /\ ok s' = true /\ rest s' = r.
Proof.
intros E D HN L. rewrite read_deco_eq. cbv zeta. rewrite after_ws_ok by easy.
rewrite (after_ws_cons (istate bf sk l) c t) by easy. unfold peek. rewrite good_setrest. change (good (istate bf sk l)) with true. cbn [rest setrest].
rewrite D. unfold read_unsigned. rewrite good_setrest. change (good (istate bf sk l)) with true. cbn [rest setrest skipws basef istate].
assert (W : (if sk then drop_ws (c :: t) else c :: t) = c :: t). { destruct sk; [|easy]. cbn. now rewrite (digit_not_space c D). }
rewrite W, HN. rewrite (proj2 (N.ltb_lt v (2 ^ 32))) by easy.
set (s2 := match r with [] => seteof _ | _ => _ end). assert (K : ok s2 = true) by (unfold s2; now destruct r). rewrite K.
exists s2. split; [easy|]. split; [easy|]. unfold s2. now destruct r.
Qed.

(** Numeric form: read with the base it was written in. *)
Lemma numeric_roundtrip o d sk r : o_dec_numeric o = true -> harmless o sk -> stops r ->
  (o_base o = b_hex -> d <> d_dac) ->
  exists s', read_deco (istate (o_base o) sk (write_deco o (byte d) ++ r)) = (Some (byte d), s') /\ ok s' = true /\ rest s' = r.
Proof.
intros HN HH HR HX. unfold write_deco. rewrite HN. unfold put_unsigned.
assert (S1 : forall b acc, digits_from b acc true r = (Some acc, r)) by (intros; now apply digits_stop).
assert (X : forall c r', r = c :: r' -> is_x c = false) by (intros c0 r0 E0; rewrite E0 in HR; apply HR).
assert (P : pick (byte d) = Some d) by now apply pick_byte.
assert (G : forall (pre body : text) (v : N) (c : ascii) (t : text), pre ++ body = c :: t -> isdigit c = true -> num_get (o_base o) ((c :: t) ++ r) = (Some v, r) -> v = byte d ->
  exists s', read_deco (istate (o_base o) sk (pad o pre body ++ r)) = (Some (byte d), s') /\ ok s' = true /\ rest s' = r).
{ intros pre body v c t E D N1 ->. destruct (read_number (o_base o) sk (pad o pre body ++ r) c (t ++ r) (byte d) r) as [s' [R1 R2]].
  - rewrite (pad_visible o sk pre body r c t HH E) by now apply digit_not_space. now rewrite E.
  - easy.
  - exact N1.
  - now destruct d.
  - exists s'. rewrite R1, P. easy. }
destruct (o_base o) eqn:EB.
- destruct d; (eapply G; [reflexivity|reflexivity|cbn; rewrite ?S1; reflexivity|reflexivity]).
- destruct d, (o_showbase o); (eapply G; [reflexivity|reflexivity|cbn; rewrite ?S1; reflexivity|reflexivity]).
- destruct d, (o_showbase o), (o_upper o); try (now destruct HX); (eapply G; [reflexivity|reflexivity| |reflexivity]);
  (destruct r as [|c r']; [reflexivity|]; destruct HR as [Hd Hx]; cbn; rewrite ?Hx; cbn; rewrite ?Hd; reflexivity).
- destruct d; (eapply G; [reflexivity|reflexivity| |reflexivity]);
  (destruct r as [|c r']; [reflexivity|]; destruct HR as [Hd Hx]; cbn; rewrite ?Hx; cbn; rewrite ?Hd; reflexivity).
Qed.

Lemma alpha_roundtrip o d bf sk r : o_dec_numeric o = false -> harmless o sk ->
  exists s', read_deco (istate bf sk (write_deco o (byte d) ++ r)) = (Some (byte d), s') /\ ok s' = true /\ rest s' = r.
Proof.
intros HN HH. unfold write_deco. rewrite HN.
assert (G : forall w c c2 c3, txt w = [c; c2; c3] -> isdigit c = false -> isspace c = false -> pick_name (ascii_to_lower (txt w)) = Some d ->
  exists s', read_deco (istate bf sk (put_text o w ++ r)) = (Some (byte d), s') /\ ok s' = true /\ rest s' = r).
{ intros w c c2 c3 E D S P. unfold put_text. rewrite read_deco_eq. cbv zeta. rewrite after_ws_ok by easy.
  pose proof (pad_visible o sk [] (txt w) r c [c2; c3] HH E S) as V. rewrite E in *. cbn [app] in *.
  rewrite (after_ws_cons _ c (c2 :: c3 :: r)); [|easy|exact V]. unfold peek. rewrite good_setrest. change (good (istate bf sk _)) with true.
  cbn [rest setrest]. rewrite D. unfold read. rewrite good_setrest. change (good (istate bf sk _)) with true. cbn [rest setrest firstn skipn length Nat.ltb Nat.leb].
  rewrite P. unfold ok at 1. cbn [negb orb failbit badbit setrest istate result]. eexists. split; [reflexivity|]. easy. }
destruct d, (o_upper_text o); cbn [byte deq]; (eapply G; [reflexivity|reflexivity|reflexivity|reflexivity]).
Qed.

Lemma into_denotes s old d r : good s = true -> basef s = b_dec -> denotes (visible s) d r ->
  exists s', read_into old s = (byte d, s') /\ ok s' = true /\ rest s' = r.
Proof. intros H1 H2 H3. destruct (read_deco_denotes s d r H1 H2 H3) as [s' [E H]]. exists s'. unfold read_into. now rewrite E. Qed.
Lemma into_fails s old : good s = true -> basef s = b_dec -> (forall d r, ~ denotes (visible s) d r) ->
  exists s', read_into old s = (old, s') /\ failbit s' = true.
Proof. intros H1 H2 H3. destruct (read_deco_fails s H1 H2 H3) as [s' [E H]]. exists s'. unfold read_into. now rewrite E. Qed.
Lemma into_failed s old : failbit (snd (read_into old s)) = true -> fst (read_into old s) = old.
Proof.
unfold read_into. pose proof (read_deco_state s) as H. destruct (read_deco s) as [[d|] s']; [|easy]. cbn. intros F. unfold ok in H. now rewrite F in H.
Qed.
Lemma into_valid s old : (exists d, old = byte d) -> exists d, fst (read_into old s) = byte d.
Proof.
intros [d ->]. unfold read_into. rewrite read_deco_eq. cbv zeta. destruct (ok (after_ws s)); [|now exists d].
destruct (peek (after_ws s)) as [c s2]. destruct (match c with Some a => isdigit a | None => false end).
- destruct (read_unsigned s2) as [[v|] s3]; [|now exists d]. destruct (ok s3); [|now exists d]. destruct (pick v) as [d'|]; [now exists d'|now exists d].
- destruct (read 3 s2) as [l s3]. destruct (ok s3); [|now exists d]. destruct (pick_name _) as [d'|]; [now exists d'|now exists d].
Qed.
