(** * Proofs: intervals from strings *)
From Coq Require Import ZArith NArith Reals Bool Ascii String List Lia Lra.
From Flocq Require Import Core.Core IEEE754.BinarySingleNaN.
From Verif Require Import Fmt Spec FloatFacts Exc Deco SpecApi MBase PBase PArith PClass PElem MStream MDecoIo SpecDecoText PDecoIo MText MRegex MRead PRegex SpecLiteral SpecRead PLiteral PInfSup PReadVal PUncertain PRead PReadMain PReadAll.
Import ListNotations.
Local Open Scope list_scope.
Local Open Scope m_scope.

Lemma read_deco_rest s d s' : read_deco s = (Some d, s') -> good s' = true \/ rest s' = [].
Proof.
  intros H. rewrite read_deco_eq in H. cbv zeta in H. destruct (ok (after_ws s)); [|easy].
  destruct (peek (after_ws s)) as [c s2]. destruct (match c with Some a => isdigit a | None => false end).
  - destruct (read_unsigned s2) as [n s3] eqn:E. destruct n as [v|]; [|easy]. destruct (ok s3) eqn:K; [|easy]. destruct (pick v) as [k|]; [|easy]. injection H as <- <-.
    unfold read_unsigned in E. destruct (good s2) eqn:G; [|easy]. destruct (num_get (basef s2) _) as [[n|] l']; [|easy]. destruct (n <? 2 ^ 32)%N; [|easy].
    injection E as <- <-. destruct l'; [now right|now left].
  - destruct (read 3 s2) as [l s3] eqn:E. destruct (ok s3) eqn:K; [|easy]. destruct (pick_name _) as [k|]; [|easy]. injection H as <- <-.
    unfold read in E. destruct (good s2) eqn:G; [|injection E as <- <-; unfold ok in K; now rewrite orb_true_l in K].
    destruct (length (firstn 3 (rest s2)) <? 3)%nat; injection E as <- <-; [unfold ok in K; cbn in K; easy|now left].
Qed.
Lemma blanks_only l : blanks l -> yields (only_blanks l) true.
Proof.
  induction 1 as [|c l H _ IH]; intros e; cbn [only_blanks]; [easy|]. apply blank_isspace in H. rewrite H.
  assert (code c <? 128 = true)%N as -> by (revert H; clear; chars c). apply IH.
Qed.
Lemma only_blanks_ascii l : ascii_text l -> (blanks l /\ yields (only_blanks l) true) \/ (~ blanks l /\ yields (only_blanks l) false).
Proof.
  induction 1 as [|c l H _ IH]; [left; split; [constructor|now intros e]|]. cbn [only_blanks]. apply N.ltb_lt in H. rewrite H.
  destruct (isspace c) eqn:E.
  - destruct IH as [[H1 H2]|[H1 H2]]; [left|right]; (split; [|easy]); [constructor; [now apply blank_isspace|easy]|]. intros H3. now inversion H3.
  - right. split; [|now intros e]. intros H3. inversion H3 as [|? ? H4]. apply blank_isspace in H4. congruence.
Qed.
Lemma drop_blanks a l : blanks a -> drop_ws (a ++ l) = drop_ws l.
Proof. induction 1 as [|c a H _ IH]; [easy|]. cbn. apply blank_isspace in H. now rewrite H. Qed.
Lemma drop_ws_split l : exists a, blanks a /\ l = a ++ drop_ws l.
Proof.
  induction l as [|c l (a & H1 & H2)]; [exists []; split; [constructor|easy]|]. cbn. destruct (isspace c) eqn:E; [|exists []; split; [constructor|easy]].
  exists (c :: a). split; [constructor; [now apply blank_isspace|easy]|]. cbn. now rewrite <- H2.
Qed.
Lemma bare_begins t S d r : bare_literal no_plus int_exponent t S d -> drop_ws (t ++ r) = t ++ r.
Proof.
  assert (P : forall c l, isspace c = false -> drop_ws (c :: l) = c :: l) by (intros c l H; cbn; now rewrite H).
  intros H. apply bare_parts in H. destruct H as [(L & H & -> & _) | (u & H & -> & _)].
  - destruct (ltext_split L H) as (a & -> & _). now apply P.
  - unfold utext. assert (starts num_start (mtext (u_i u) (u_f u))) as M.
    { apply mtext_starts; [intros c; unfold num_start; now intros ->|easy|apply H]. }
    destruct (u_s u); cbn [stext txt list_ascii_of_string app]; try now apply P.
    destruct (mtext (u_i u) (u_f u)) as [|c m]; [easy|]. cbn [app starts] in *. apply P. revert M. clear. chars c.
Qed.
Lemma literal_begins t S given r : literal no_plus int_exponent t S given -> drop_ws (t ++ r) = t ++ r.
Proof. intros [t' S' d B D | t' S' d w d' B D Hw Hd]; [|rewrite <- app_assoc]; eapply bare_begins, B. Qed.
Lemma follows_blanks given b : blanks b -> follows given b.
Proof.
  intros H. destruct given; [exact I|]. intros c r' ->. inversion H as [|? ? H1]. apply blank_isspace in H1. revert H1. clear.
  destruct c as [[] [] [] [] [] [] [] []]; try discriminate; intros _ H; cbn in H; repeat (destruct H as [H|H]; [discriminate|]); exact H.
Qed.

Section Str.
Context {F : fmt}.
Lemma good_string t : good (string_stream t) = true. Proof. easy. Qed.
(** A literal with white space around it. *)
Theorem string_read t a t0 b S given : t = a ++ t0 ++ b -> blanks a -> blanks b -> literal no_plus int_exponent t0 S given -> short t0 ->
  exists x, yields (text_to_decorated_interval (F := F) t) x /\ reading S given x.
Proof.
  intros -> Ha Hb L Hs. assert (V : visible (string_stream (a ++ t0 ++ b)) = t0 ++ b).
  { unfold visible. cbn [skipws rest string_stream]. rewrite drop_blanks by easy. eapply literal_begins, L. }
  destruct (literal_read (F := F) t0 S given b _ (good_string _) V L Hs (follows_blanks _ _ Hb)) as (x & Y & R).
  exists x. split; [|easy]. intros e. unfold text_to_decorated_interval. rewrite (bind_yields _ _ _ Y). cbn [setrest]. unfold ok, unread, good. cbn [eofbit failbit badbit rest setrest string_stream orb negb].
  unfold mif. rewrite (bind_yields _ _ _ (blanks_only _ Hb)). reflexivity.
Qed.
Theorem string_read_nai t a t0 b : t = a ++ t0 ++ b -> blanks a -> blanks b -> nai_literal no_plus int_exponent t0 -> short t0 ->
  yields (text_to_decorated_interval (F := F) t) nai.
Proof.
  intros -> Ha Hb L Hs. assert (V : visible (string_stream (a ++ t0 ++ b)) = t0 ++ b).
  { unfold visible. cbn [skipws rest string_stream]. rewrite drop_blanks by easy. destruct L as [t' S B]. eapply bare_begins, B. }
  pose proof (nai_read (F := F) t0 b _ (good_string _) V L Hs (follows_blanks None _ Hb)) as Y.
  intros e. unfold text_to_decorated_interval. rewrite (bind_yields _ _ _ Y). unfold ok, unread, good. cbn [eofbit failbit badbit rest setrest string_stream orb negb].
  unfold mif. rewrite (bind_yields _ _ _ (blanks_only _ Hb)). reflexivity.
Qed.
Lemma reading_wf_dec S given (x : ditv F) : reading S given x -> match given with Some d => d <> ill | None => True end -> wf_dec x /\ snd x <> ill.
Proof.
  intros [(W & E & T) (e & b & He & Hb & Hd)] Hg. assert (D : snd x <> ill).
  { rewrite Hd. unfold literal_decoration. destruct e; [easy|]. set (d := match given with Some d => d | None => com end).
    assert (d <> ill) by (unfold d; now destruct given). destruct b; [easy|]. unfold ill, dac in *. lia. }
  split; [|easy]. destruct x as [z d]. cbn [fst snd] in *. destruct W as [->|N].
  - left. split; [easy|]. right. cbn [snd]. rewrite Hd. assert (e = true) as ->; [|easy]. apply He. intros r Hr. apply (mem_empty (F := F) r). now apply E.
  - right. cbn [fst snd]. split; [easy|]. split; [easy|]. intros Hc. rewrite Hd in Hc. apply Hb. unfold literal_decoration in Hc. destruct e; [easy|]. destruct b; [easy|].
    unfold dac, com in Hc. lia.
Qed.
Lemma undef_reports {A} (m : M A) a : (forall e, m e = bind signal_undefined_operation (fun _ => ret a) e) -> reports_undefined m a.
Proof. intros H s. rewrite H. apply reports_signal. Qed.
Lemma visible_blanks s : exists a, blanks a /\ rest s = a ++ visible s.
Proof. unfold visible. destruct (skipws s); [apply drop_ws_split|]. exists []. split; [constructor|easy]. Qed.
Lemma visible_after s a l : rest s = a ++ l -> blanks a -> (skipws s = true \/ a = []) -> drop_ws l = l -> visible s = l.
Proof. unfold visible. intros -> Ha [->| ->] Hl; [now rewrite drop_blanks|]. cbn. now destruct (skipws s). Qed.
Lemma tiny_visible s : tiny (rest s) -> tiny (visible s).
Proof. intros H. destruct (visible_blanks s) as (a & _ & E). apply (small_inside (rest s) a _ []); [now rewrite app_nil_r|easy]. Qed.

(** ** Reading a decorated interval *)
Theorem stream_read t S given a r s : good s = true -> rest s = a ++ t ++ r -> blanks a -> (skipws s = true \/ a = []) ->
  literal no_plus int_exponent t S given -> moderate t -> follows given r ->
  exists x, returns (read_ditv (F := F) s) (Some x, setrest r s) /\ reading S given x.
Proof.
  intros Hg E Ha Hk L Hm Hf. apply (literal_read t S given r s Hg); try easy; [|unfold moderate, short in *; lia].
  apply (visible_after s a); try easy. eapply literal_begins, L.
Qed.
Theorem stream_read_nai t a r s : good s = true -> rest s = a ++ t ++ r -> blanks a -> (skipws s = true \/ a = []) ->
  nai_literal no_plus int_exponent t -> moderate t -> follows None r ->
  returns (read_ditv (F := F) s) (Some nai, setrest r s).
Proof.
  intros Hg E Ha Hk L Hm Hf. apply (nai_read t r s Hg); try easy; [|unfold moderate, short in *; lia].
  apply (visible_after s a); try easy. destruct L as [t' S B]. eapply bare_begins, B.
Qed.
Lemma stops_no_under r : stops underscore r -> forall r', r <> txt "_" ++ r'.
Proof. intros H r' ->. easy. Qed.
Theorem stream_outcome s : good s = true -> basef s = b_dec -> moderate (rest s) -> small_exponents (rest s) ->
  (exists s', returns (read_ditv (F := F) s) (None, s') /\ failbit s' = true) \/
  (exists a l S given r x s', rest s = a ++ l /\ blanks a /\ accepted l S given r /\
     returns (read_ditv (F := F) s) (Some x, s') /\ ok s' = true /\ rest s' = r /\ (good s' = true \/ r = []) /\ reading S given x) \/
  (exists a t r, rest s = a ++ t ++ r /\ blanks a /\ nai_literal no_plus any_exponent t /\
     returns (read_ditv (F := F) s) (Some nai, setrest r s)).
Proof.
  intros Hg Hb Hm He. pose proof (tiny_visible s (conj Hm He)) as Ht. destruct (visible_blanks s) as (a & Ha & Ea).
  destruct (ditv_outcome (F := F) s Hg (tiny_short _ Ht)) as
    [(s' & Y & K)|[(t0 & r & S & d & E & B & U & x & Y & R)|[(t0 & r & S & d & d' & s3 & E & B & D & K & L & D' & x & Y & R)|[N _]]]]; [| | |easy].
  - left. now exists s'.
  - right. rewrite E in Ea. destruct R as [[-> ->]|[D R]].
    + right. exists a, t0, r. split; [easy|]. split; [easy|]. split; [now exists S|]. easy.
    + left. exists a, (t0 ++ r), S, None, r, x, (setrest r s). split; [easy|]. split; [easy|]. split; [apply (Accepted_plain t0 S d r B D), stops_no_under, U|].
      split; [easy|]. split; [now apply good_ok|]. split; [easy|]. split; [now left|easy].
  - right; left. rewrite E in Ea. destruct (read_deco_parse (setrest r s) Hg Hb) as (s4 & E4 & H4 & H5). rewrite K in E4.
    destruct (parse (visible (setrest r s))) as [[k|] rr] eqn:P; [|easy]. cbn [fst snd option_map] in *. injection E4 as -> <-.
    destruct H5 as (H5 & H6 & _); [easy|]. apply parse_denotes in P. destruct (visible_blanks (setrest r s)) as (b & Hbl & Eb). cbn [rest setrest] in Eb.
    exists a, (t0 ++ "_"%char :: r), S, (Some (byte k)), rr, x, s3. split; [easy|]. split; [easy|].
    split. { rewrite Eb. apply (Accepted_decorated t0 S d b _ k rr); try easy. now intros ->. }
    split; [easy|]. split; [easy|]. split; [easy|]. split; [|easy]. destruct (read_deco_rest _ _ _ K) as [G|G]; [now left|right]. congruence.
Qed.
(** ** Decorated intervals from strings *)
Lemma accepted_ascii l S given r : accepted l S given r -> ascii_text l -> ascii_text r.
Proof.
  intros H A. destruct H as [t S d r _ _ _ | t S d a w k r _ _ _ Hd _ _].
  - now apply Forall_app in A.
  - apply Forall_app in A. destruct A as [_ A]. apply Forall_app in A. destruct A as [_ A]. apply Forall_app in A. destruct A as [_ A].
    destruct Hd as [d' w' r0 _|d' w' r0 _ _ _ _]; now apply Forall_app in A.
Qed.
Theorem string_outcome t : moderate t -> small_exponents t -> ascii_text t ->
  reports_undefined (text_to_decorated_interval (F := F) t) nai \/
  (exists a l S given b x, t = a ++ l /\ blanks a /\ blanks b /\ accepted l S given b /\
     returns (text_to_decorated_interval (F := F) t) x /\ reading S given x) \/
  (exists a t0 b, t = a ++ t0 ++ b /\ blanks a /\ blanks b /\ nai_literal no_plus any_exponent t0 /\
     returns (text_to_decorated_interval (F := F) t) nai).
Proof.
  intros Hm He Ha.
  destruct (stream_outcome (string_stream t) eq_refl eq_refl Hm He) as
    [(s' & Y & K)|[(a & l & S & given & r & x & s' & E & Hb & A & Y & K & Er & Hg & R)|(a & t0 & r & E & Hb & A & Y)]].
  - left. apply undef_reports. intros e. unfold text_to_decorated_interval. now rewrite (bind_yields _ _ _ Y).
  - cbn [rest string_stream] in E. assert (Ar : ascii_text r) by (eapply accepted_ascii; [exact A|]; rewrite E in Ha; now apply Forall_app in Ha).
    assert (Q : forall e, text_to_decorated_interval (F := F) t e = mif (only_blanks r) (ret x) (signal_undefined_operation ;; ret nai) e).
    { intros e. unfold text_to_decorated_interval. rewrite (bind_yields _ _ _ Y), K. unfold unread. rewrite Er. destruct Hg as [-> | ->]; [easy|]. now destruct (good s'). }
    destruct (only_blanks_ascii r Ar) as [[H1 H2]|[H1 H2]].
    + right; left. exists a, l, S, given, r, x. repeat (split; [easy|]). split; [|easy]. intros e. rewrite Q. unfold mif. now rewrite (bind_yields _ _ _ H2).
    + left. apply undef_reports. intros e. rewrite Q. unfold mif. now rewrite (bind_yields _ _ _ H2).
  - cbn [rest string_stream] in E. assert (Ar : ascii_text r) by (rewrite E in Ha; apply Forall_app in Ha; destruct Ha as [_ Ha]; now apply Forall_app in Ha).
    assert (Q : forall e, text_to_decorated_interval (F := F) t e = mif (only_blanks r) (ret nai) (signal_undefined_operation ;; ret nai) e).
    { intros e. unfold text_to_decorated_interval. rewrite (bind_yields _ _ _ Y). reflexivity. }
    destruct (only_blanks_ascii r Ar) as [[H1 H2]|[H1 H2]].
    + right; right. exists a, t0, r. repeat (split; [easy|]). intros e. rewrite Q. unfold mif. now rewrite (bind_yields _ _ _ H2).
    + left. apply undef_reports. intros e. rewrite Q. unfold mif. now rewrite (bind_yields _ _ _ H2).
Qed.

(** ** Bare intervals *)
Lemma wf_dec_part (x : ditv F) : wf_dec x -> snd x <> ill -> yields (interval_part x) (fst x).
Proof. intros H1 H2 e. now rewrite interval_part_ok. Qed.
Lemma literal_given t S given : literal no_plus int_exponent t S given -> match given with Some d => d <> ill | None => True end.
Proof. intros [|t' S' d w d' B D Hw Hd]; [exact I|]. apply decoration_name_word in Hw. now destruct Hw as (k & _ & _ & Hw). Qed.
Theorem bare_interval_read t S given r s : good s = true -> visible s = t ++ r -> literal no_plus int_exponent t S given -> short t -> follows given r ->
  exists z, yields (read_itv (F := F) s) (Some z, setrest r s) /\ tightest S z.
Proof.
  intros Hg V L Hs Hf. destruct (literal_read (F := F) t S given r s Hg V L Hs Hf) as (x & Y & R). exists (fst x). split; [|apply R].
  destruct (reading_wf_dec _ _ _ R (literal_given _ _ _ L)) as [W D]. intros e. unfold read_itv. rewrite (bind_yields _ _ _ Y).
  rewrite (good_ok (setrest r s)) by easy. rewrite (bind_yields _ _ _ (wf_dec_part x W D)). reflexivity.
Qed.
Theorem bare_string_read t a t0 b S given : t = a ++ t0 ++ b -> blanks a -> blanks b -> literal no_plus int_exponent t0 S given -> short t0 ->
  exists z, yields (text_to_interval (F := F) t) z /\ tightest S z.
Proof.
  intros -> Ha Hb L Hs. assert (V : visible (string_stream (a ++ t0 ++ b)) = t0 ++ b).
  { unfold visible. cbn [skipws rest string_stream]. rewrite drop_blanks by easy. eapply literal_begins, L. }
  destruct (bare_interval_read t0 S given b _ (good_string _) V L Hs (follows_blanks _ _ Hb)) as (z & Y & R).
  exists z. split; [|easy]. intros e. unfold text_to_interval. rewrite (bind_yields _ _ _ Y). unfold ok, unread, good. cbn [eofbit failbit badbit rest setrest string_stream orb negb].
  unfold mif. rewrite (bind_yields _ _ _ (blanks_only _ Hb)). reflexivity.
Qed.
Lemma accepted_given l S given r : accepted l S given r -> match given with Some d => d <> ill | None => True end.
Proof. intros [t S' d r' B D U | t S' d a w k r' B D Ha Hd Hk Hl]; [exact I|]. now destruct k. Qed.
Theorem bare_stream_read t S given a r s : good s = true -> rest s = a ++ t ++ r -> blanks a -> (skipws s = true \/ a = []) ->
  literal no_plus int_exponent t S given -> moderate t -> follows given r ->
  exists z, returns (read_itv (F := F) s) (Some z, setrest r s) /\ tightest S z.
Proof.
  intros Hg E Ha Hk L Hm Hf. apply (bare_interval_read t S given r s Hg); try easy; [|unfold moderate, short in *; lia].
  apply (visible_after s a); try easy. eapply literal_begins, L.
Qed.
Definition reports_nai {A} := @reports A interval_part_of_nai_bit Interval_part_of_nai_exception.
Theorem bare_stream_outcome s : good s = true -> basef s = b_dec -> moderate (rest s) -> small_exponents (rest s) ->
  (exists s', returns (read_itv (F := F) s) (None, s') /\ failbit s' = true) \/
  (exists a l S given r z s', rest s = a ++ l /\ blanks a /\ accepted l S given r /\
     returns (read_itv (F := F) s) (Some z, s') /\ ok s' = true /\ rest s' = r /\ (good s' = true \/ r = []) /\ tightest S z) \/
  (exists a t r, rest s = a ++ t ++ r /\ blanks a /\ nai_literal no_plus any_exponent t /\
     reports_nai (read_itv (F := F) s) (Some empty, setrest r s)).
Proof.
  intros Hg Hd Hm He.
  destruct (stream_outcome s Hg Hd Hm He) as
    [(s' & Y & K)|[(a & l & S & given & r & x & s' & E & Hb & A & Y & K & Er & Hr & R)|(a & t0 & r & E & Hb & A & Y)]].
  - left. exists s'. split; [|easy]. intros e. unfold read_itv. rewrite (bind_yields _ _ _ Y). unfold ok. now rewrite K.
  - right; left. destruct (reading_wf_dec _ _ _ R (accepted_given _ _ _ _ A)) as [W D2]. exists a, l, S, given, r, (fst x), s'. repeat (split; [easy|]).
    split; [|repeat (split; [easy|]); apply R]. intros e. unfold read_itv. rewrite (bind_yields _ _ _ Y). rewrite K. rewrite (bind_yields _ _ _ (wf_dec_part x W D2)). reflexivity.
  - right; right. exists a, t0, r. repeat (split; [easy|]). intros e. unfold read_itv. rewrite (bind_yields _ _ _ Y). rewrite (good_ok (setrest r s)) by easy.
    pose proof (interval_part_nai (F := F) nai (or_introl (conj eq_refl (or_introl eq_refl))) eq_refl e) as P. unfold bind. rewrite P. now destruct (masked _ e).
Qed.
(** An interval from a string; [nai] is reported, and again as an undefined operation if more
    than white space follows it. *)
Theorem bare_string_outcome t : moderate t -> small_exponents t -> ascii_text t ->
  reports_undefined (text_to_interval (F := F) t) empty \/
  (exists a l S given b z, t = a ++ l /\ blanks a /\ blanks b /\ accepted l S given b /\
     returns (text_to_interval (F := F) t) z /\ tightest S z) \/
  (exists a t0 b, t = a ++ t0 ++ b /\ blanks a /\ nai_literal no_plus any_exponent t0 /\
     (blanks b /\ reports_nai (text_to_interval (F := F) t) empty \/
      ~ blanks b /\ exists m, reports_undefined m empty /\ forall e, text_to_interval (F := F) t e =
        if masked interval_part_of_nai_bit e then (Throw Interval_part_of_nai_exception, set_flag interval_part_of_nai_bit e)
        else m (set_flag interval_part_of_nai_bit e))).
Proof.
  intros Hm He Ha.
  destruct (bare_stream_outcome (string_stream t) eq_refl eq_refl Hm He) as
    [(s' & Y & K)|[(a & l & S & given & r & x & s' & E & Hb & A & Y & K & Er & Hg & R)|(a & t0 & r & E & Hb & A & Y)]].
  - left. apply undef_reports. intros e. unfold text_to_interval. now rewrite (bind_yields _ _ _ Y).
  - cbn [rest string_stream] in E. assert (Ar : ascii_text r) by (eapply accepted_ascii; [exact A|]; rewrite E in Ha; now apply Forall_app in Ha).
    assert (Q : forall e, text_to_interval (F := F) t e = mif (only_blanks r) (ret x) (signal_undefined_operation ;; ret empty) e).
    { intros e. unfold text_to_interval. rewrite (bind_yields _ _ _ Y), K. unfold unread. rewrite Er. destruct Hg as [-> | ->]; [easy|]. now destruct (good s'). }
    destruct (only_blanks_ascii r Ar) as [[H1 H2]|[H1 H2]].
    + right; left. exists a, l, S, given, r, x. repeat (split; [easy|]). split; [|easy]. intros e. rewrite Q. unfold mif. now rewrite (bind_yields _ _ _ H2).
    + left. apply undef_reports. intros e. rewrite Q. unfold mif. now rewrite (bind_yields _ _ _ H2).
  - cbn [rest string_stream] in E. assert (Ar : ascii_text r) by (rewrite E in Ha; apply Forall_app in Ha; destruct Ha as [_ Ha]; now apply Forall_app in Ha).
    right; right. exists a, t0, r. repeat (split; [easy|]).
    assert (Q : forall e, text_to_interval (F := F) t e = if masked interval_part_of_nai_bit e then (Throw Interval_part_of_nai_exception, set_flag interval_part_of_nai_bit e)
        else mif (only_blanks r) (ret empty) (signal_undefined_operation ;; ret empty) (set_flag interval_part_of_nai_bit e)).
    { intros e. unfold text_to_interval. unfold bind at 1. rewrite (Y e). now destruct (masked _ e). }
    destruct (only_blanks_ascii r Ar) as [[H1 H2]|[H1 H2]]; [left|right]; (split; [easy|]).
    + intros e. rewrite Q. unfold mif. rewrite (bind_yields _ _ _ H2). now destruct (masked _ e).
    + eexists. split; [|exact Q]. apply undef_reports. intros e. unfold mif. now rewrite (bind_yields _ _ _ H2).
Qed.

Theorem string_read_m t a t0 b S given : t = a ++ t0 ++ b -> blanks a -> blanks b -> literal no_plus int_exponent t0 S given -> moderate t0 ->
  exists x, returns (text_to_decorated_interval (F := F) t) x /\ reading S given x.
Proof. intros E Ha Hb L H. eapply string_read; eauto. unfold moderate, short in *; lia. Qed.
Theorem string_read_nai_m t a t0 b : t = a ++ t0 ++ b -> blanks a -> blanks b -> nai_literal no_plus int_exponent t0 -> moderate t0 ->
  returns (text_to_decorated_interval (F := F) t) nai.
Proof. intros E Ha Hb L H. eapply string_read_nai; eauto. unfold moderate, short in *; lia. Qed.
Theorem bare_string_read_m t a t0 b S given : t = a ++ t0 ++ b -> blanks a -> blanks b -> literal no_plus int_exponent t0 S given -> moderate t0 ->
  exists z, returns (text_to_interval (F := F) t) z /\ tightest S z.
Proof. intros E Ha Hb L H. eapply bare_string_read; eauto. unfold moderate, short in *; lia. Qed.
End Str.

(** ** Witnesses *)
Section Witness.
Context {F : fmt}.
Lemma bracket_eq t l s1 c : remove_ws (string_stream t) = string_stream t -> peek_is (ceq "[") (string_stream t) = (true, string_stream t) ->
  read_bracket t [] (string_stream t) = (l, s1) -> ok s1 = true -> regex_match inf_sup_regex l = Some c ->
  read_ditv (F := F) (string_stream t) =
   (v <- literal_value c;
    if (isnan (fst (fst v)) && isnan (snd (fst v))) || bounds_ok (fst v) then with_decoration (fst v) (snd v) s1 else failed s1).
Proof.
  intros H1 H2 H3 H4 H5. unfold read_ditv. cbn [skipws string_stream]. rewrite H1. change (ok (string_stream t)) with true. cbv beta iota zeta. rewrite H2.
  unfold read_inf_sup. cbn [rest string_stream]. rewrite H3, H4, H5. reflexivity.
Qed.
End Witness.
Ltac bracket := erewrite bracket_eq by (vm_compute; reflexivity).
Lemma plus_refuted : exists t S given, literal any_sign int_exponent t S given /\
  forall F : fmt, reports_undefined (text_to_decorated_interval (F := F) t) nai.
Proof.
  exists (txt "[+1]"). do 2 eexists. split.
  - eapply Plain; [|shelve]. apply (Point any_sign int_exponent [] (txt "+1") []); [constructor|constructor|].
    apply (Decimal any_sign int_exponent (txt "+") 1 (txt "1") 1 0); [constructor| |easy].
    apply Mant_int; [|easy]. apply (Num_snoc 10 [] 0 "1"%char 1); [constructor|]. split; [lia|]. left. cbn. lia.
    Unshelve. easy.
  - intros F. apply undef_reports. intros e. unfold text_to_decorated_interval. bracket.
    match goal with |- bind (bind ?m _) _ _ = _ => assert (Y : yields m ((f1, fm1), com)) by (intros e'; lazy -[f1 fm1 rnd_q]; reflexivity) end.
    unfold bind at 1. rewrite (bind_yields _ _ _ Y). cbn [fst snd]. rewrite f1_not_nan, crossed_bad. reflexivity.
Qed.
Lemma literal_exponent t m n : word "e" m -> numeral 10 t n -> t <> [] ->
  exists S, literal no_plus any_exponent (txt "[1" ++ m ++ txt "-" ++ t ++ txt "]") S None /\ 
   exists S', literal no_plus any_exponent (txt "[1" ++ m ++ t ++ txt "]") S' None.
Proof.
  intros H1 H2 H3. eexists. split; [|eexists].
  - eapply Plain; [|shelve]. pose proof (Point no_plus any_exponent [] (txt "1" ++ m ++ txt "-" ++ t) []) as P. cbn in P. rewrite <- app_assoc in P. apply P; [constructor|constructor|].
    apply (Decimal_e no_plus any_exponent [] 1 (txt "1") 1 0); try easy; [constructor| |now apply (Exponent "e" m (txt "-") (-1) t n); try constructor].
    apply Mant_int; [|easy]. apply (Num_snoc 10 [] 0 "1"%char 1); [constructor|]. split; [lia|]. left. cbn. lia.
  - eapply Plain; [|shelve]. pose proof (Point no_plus any_exponent [] (txt "1" ++ m ++ t) []) as P. cbn in P. rewrite <- app_assoc in P. apply P; [constructor|constructor|].
    apply (Decimal_e no_plus any_exponent [] 1 (txt "1") 1 0); try easy; [constructor| |now apply (Exponent "e" m [] 1 t n); try constructor].
    apply Mant_int; [|easy]. apply (Num_snoc 10 [] 0 "1"%char 1); [constructor|]. split; [lia|]. left. cbn. lia.
  Unshelve. easy. easy.
Qed.
Ltac numeral_tac := match goal with
  | |- numeral ?b ?l ?n => let l' := eval cbv in l in let n' := eval cbv in n in change (numeral b l' n');
      let init := eval cbv in (removelast l') in let c := eval cbv in (last l' "0"%char) in
      let d := eval cbv in (Z.of_N (match digit c with Some d => d | None => 0%N end)) in
      let q := eval cbv in (n' / b)%Z in
      match init with [] => exact (Num_snoc b [] 0 c d (Num_nil b) ltac:(unfold is_digit; cbn; lia))
      | _ => apply (Num_snoc b init q c d); [numeral_tac | unfold is_digit; cbn; lia] end
  end.
Lemma exponent_refuted : exists t S given, literal no_plus any_exponent t S given /\
  forall (F : fmt) (s : est), text_to_decorated_interval (F := F) t s = (Throw Out_of_range, s).
Proof.
  destruct (literal_exponent (txt "2147483648") (txt "e") 2147483648) as (_ & _ & S & L); try easy; [numeral_tac|].
  exists (txt "[1e2147483648]"), S, None. split; [exact L|]. intros F s. unfold text_to_decorated_interval. bracket.
  match goal with |- bind (bind ?m _) _ _ = _ => assert (Y : forall e, m e = (Throw Out_of_range, e)) by (intros e'; lazy -[f1 fm1 rnd_q]; reflexivity) end.
  unfold bind. now rewrite Y.
Qed.
Lemma overflow_refuted : exists t S given, literal no_plus any_exponent t S given /\
  forall (F : fmt) (s : est), text_to_decorated_interval (F := F) t s = (UB, s).
Proof.
  destruct (literal_exponent (txt "2147483648") (txt "e") 2147483648) as (S & L & _); try easy; [numeral_tac|].
  exists (txt "[1e-2147483648]"), S, None. split; [exact L|]. intros F s. unfold text_to_decorated_interval. bracket.
  match goal with |- bind (bind ?m _) _ _ = _ => assert (Y : forall e, m e = (UB, e)) by (intros e'; lazy -[f1 fm1 rnd_q]; reflexivity) end.
  unfold bind. now rewrite Y.
Qed.
(** Texts that are no literals. *)
Lemma numeral_first b l n : (b <= 16)%Z -> numeral b l n -> forall c l', l = c :: l' -> exists d, is_digit b c d.
Proof.
  intros Hb. induction 1 as [|l n c d H IH Hd]; [easy|]. intros c' l' E. destruct l as [|c0 l]; [injection E as <- _; now exists d|].
  injection E as <- _. now apply (IH c0 l).
Qed.
Lemma mantissa_first m n k : mantissa 10 m n k -> exists c m', m = c :: m' /\ (c = "."%char \/ exists d, is_digit 10 c d).
Proof.
  intros [i n' H1 H2 | i f n' H1 H2].
  - destruct i as [|c i]; [easy|]. exists c, i. split; [easy|]. right. now apply (numeral_first 10 (c :: i) n') with i.
  - destruct i as [|c i]; [cbn; now exists "."%char, f; auto|]. exists c, (i ++ txt "." ++ f). split; [easy|]. right. now apply (numeral_first 10 ((c :: i) ++ f) n') with (i ++ f).
Qed.
Lemma bare_last t S d l : bare_literal any_sign any_exponent t S d -> t = "["%char :: l -> exists t', t = t' ++ ["]"%char].
Proof.
  intros H. destruct H; intros E; try (eexists; change (txt "]") with ["]"%char]; rewrite ?app_assoc; reflexivity). exfalso.
  apply mantissa_first in H0. destruct H0 as (ch & m' & -> & M). destruct H; cbn in E; try easy. injection E as -> _. 
  destruct M as [M|[dd (M1 & M2)]]; [easy|]. change (Z.of_N (code "["%char)) with 91%Z in M2. lia.
Qed.
(** A text that starts with a bracket and ends with neither a bracket nor a letter is no literal. *)
Lemma not_literal a c : c <> "]"%char -> ~ In (tolower c) (txt "vfcm") ->
  forall S given, ~ literal any_sign any_exponent ("["%char :: a ++ [c]) S given.
Proof.
  intros H1 H2 S given H. remember ("["%char :: a ++ [c]) as t eqn:E. destruct H as [t S d B D | t S d w d' B D W L].
  - destruct (bare_last _ _ _ _ B E) as [t' E']. rewrite E' in E. change ("["%char :: a ++ [c]) with (("["%char :: a) ++ [c]) in E. apply app_inj_tail in E. destruct E as [_ E]. congruence.
  - assert (exists w' e, w = w' ++ [e] /\ In (tolower e) (txt "vfcm")) as (w' & e & -> & He).
    { destruct W as [w W|w W|w W|w W]; unfold word in W; (destruct w as [|c0 [|c1 [|c2 [|]]]]; [discriminate..| |discriminate]);
        exists [c0; c1], c2; (split; [easy|]); cbn in W; injection W as _ _ ->; cbn; tauto. }
    change ("["%char :: a ++ [c]) with (("["%char :: a) ++ [c]) in E. rewrite !app_assoc in E. apply app_inj_tail in E. destruct E as [_ ->]. easy.
Qed.
Lemma decoration_refuted : exists t, (forall S given, ~ literal any_sign any_exponent t S given) /\
  forall F : fmt, returns (text_to_decorated_interval (F := F) t) (empty, trv).
Proof.
  exists (txt "[empty]_4"). split.
  - apply (not_literal (txt "empty]_") "4"%char); [easy|]. cbn. intros [H|[H|[H|[H|[]]]]]; discriminate.
  - intros F e. unfold text_to_decorated_interval. bracket. lazy -[empty]. reflexivity.
Qed.
Lemma ascii_refuted : exists t, (forall S given, ~ literal any_sign any_exponent t S given) /\
  forall (F : fmt) (s : est), text_to_decorated_interval (F := F) t s = (UB, s).
Proof.
  exists (txt "[empty]" ++ [ascii_of_N 200]). split.
  - apply (not_literal (txt "empty]") (ascii_of_N 200)); [easy|]. cbn. intros [H|[H|[H|[H|[]]]]]; discriminate.
  - intros F e. unfold text_to_decorated_interval. bracket. lazy -[empty]. reflexivity.
Qed.
