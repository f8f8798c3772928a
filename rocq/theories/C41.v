(** * C41: an interval that is written can be read back

    [write_itv o f x]: the text [os << x] writes for the state [o] of the stream and the
    manipulators [f] of the library; UB when it does not fit in the buffer (see C36).
    Hypotheses: exponents and precisions small for an int, texts below 128 MiB, brackets
    ([m_punct]) and padding with white space if any. *)
From Coq Require Import ZArith NArith Reals Bool Ascii String List Lia Lra.
From Flocq Require Import Core.Core IEEE754.BinarySingleNaN.
From Verif Require Import Fmt Spec Exc Deco SpecApi MBase MStream MDecoIo MText MPrint MRegex MRead SpecDecoText SpecLiteral SpecRead PPrint2 PTrip3 PTrip4 Ex.
Import ListNotations.
Local Open Scope list_scope.

(** The decoration read back: com becomes dac when a bound that was rounded outwards for the
    text is beyond the greatest number of the format. *)
Definition decoration_kept {F : fmt} (x y : ditv F) : Prop :=
  snd y = snd x \/ (snd x = com /\ snd y = dac /\ ~ bounded_rep (fst y)).
(** What is lossless: hexadecimal without a precision, the empty set, the real line. *)
Definition lossless {F : fmt} (f : manip) (x : itv F) : Prop :=
  (m_number f = r_hex /\ m_precision f = 0%N) \/ x = empty \/ forall r, mem r x.
Definition blank_padding (o : ostream) : Prop := (o_width o <= 1)%N \/ blank (o_fill o).
Definition blank_padding_right (o : ostream) : Prop := (o_width o <= 1)%N \/ (o_adjust o = a_left /\ blank (o_fill o)).

(** ** Bare intervals.  Missing in the theorems called partial: the cases refuted below, and
    the texts that do not fit in the buffer. *)
Theorem C41_interval_partial : forall (F : fmt) (o : ostream) (f : manip) (x : itv F) (t : text) (e e' : est),
  (emax F + prec F <= 2 ^ 26)%Z -> wf x -> (m_precision f <= 2 ^ 26)%N -> m_punct f = true -> blank_padding o ->
  (m_special f = s_bounds -> x <> empty) -> write_itv o f x e = (Ret t, e') -> moderate t ->
  e' = e /\ exists z, returns (text_to_interval t) z /\ wf z /\ included x z /\ (lossless f x -> same_set x z).
Proof. exact (fun F o f x t e e' Hs => back_bare Hs o f x t e e'). Qed.
Print Assumptions C41_interval_partial.
(** The same from a stream, whatever follows that does not continue the literal. *)
Theorem C41_interval_stream_partial : forall (F : fmt) (o : ostream) (f : manip) (x : itv F) (t : text) (e e' : est) (r : text) (s : istream),
  (emax F + prec F <= 2 ^ 26)%Z -> wf x -> (m_precision f <= 2 ^ 26)%N -> m_punct f = true -> blank_padding o ->
  (m_special f = s_bounds -> x <> empty) -> write_itv o f x e = (Ret t, e') -> moderate t ->
  good s = true -> skipws s = true -> rest s = t ++ r -> follows None r ->
  exists z, returns (read_itv s) (Some z, setrest r s) /\ wf z /\ included x z /\ (lossless f x -> same_set x z).
Proof. exact (fun F o f x t e e' r s Hs => back_bare_stream Hs o f x t e e' r s). Qed.
Print Assumptions C41_interval_stream_partial.
(** Hexadecimal output without a precision always fits and is read back exactly. *)
Theorem C41_interval_hex_partial : forall (F : fmt) (o : ostream) (f : manip) (x : itv F),
  (emax F + prec F <= 2 ^ 26)%Z -> wf x -> m_number f = r_hex /\ m_precision f = 0%N -> m_punct f = true -> blank_padding o ->
  (m_special f = s_bounds -> x <> empty) ->
  exists t, returns (write_itv o f x) t /\ (moderate t -> exists z, returns (text_to_interval t) z /\ wf z /\ same_set x z).
Proof. exact (fun F o f x Hs => hex_back Hs o f x). Qed.
Print Assumptions C41_interval_hex_partial.

(** ** Decorated intervals *)
Theorem C41_decorated_partial : forall (F : fmt) (o : ostream) (f : manip) (x : ditv F) (t : text) (e e' : est),
  (emax F + prec F <= 2 ^ 26)%Z -> wf_dec x -> (exists k, snd x = byte k) -> (m_precision f <= 2 ^ 26)%N -> m_punct f = true -> blank_padding o ->
  ((exists r, mem r (fst x)) -> blank_padding_right o /\ (o_dec_numeric o = true -> o_base o = b_dec)) ->
  (m_special f = s_bounds -> x <> (empty, trv)) -> write_ditv o f x e = (Ret t, e') -> moderate t ->
  e' = e /\ exists y, returns (text_to_decorated_interval t) y /\
    (snd x = ill -> y = nai) /\
    (snd x <> ill -> included (fst x) (fst y) /\ decoration_kept x y /\ (lossless f (fst x) -> same_set (fst x) (fst y) /\ snd y = snd x)).
Proof. exact (fun F o f x t e e' Hs => back_dec Hs o f x t e e'). Qed.
Print Assumptions C41_decorated_partial.
Theorem C41_decorated_stream_partial : forall (F : fmt) (o : ostream) (f : manip) (x : ditv F) (t : text) (e e' : est) (r : text) (s : istream),
  (emax F + prec F <= 2 ^ 26)%Z -> wf_dec x -> (exists k, snd x = byte k) -> (m_precision f <= 2 ^ 26)%N -> m_punct f = true -> blank_padding o ->
  ((exists r, mem r (fst x)) -> blank_padding_right o /\ (o_dec_numeric o = true -> o_base o = b_dec)) ->
  (m_special f = s_bounds -> x <> (empty, trv)) -> write_ditv o f x e = (Ret t, e') -> moderate t ->
  good s = true -> skipws s = true -> basef s = b_dec -> rest s = t ++ r -> follows None r ->
  exists y s', returns (read_ditv s) (Some y, s') /\ ok s' = true /\ rest s' = r /\ (good s' = true \/ r = []) /\
    (snd x = ill -> y = nai) /\
    (snd x <> ill -> included (fst x) (fst y) /\ decoration_kept x y /\ (lossless f (fst x) -> same_set (fst x) (fst y) /\ snd y = snd x)).
Proof. exact (fun F o f x t e e' r s Hs => back_dec_stream Hs o f x t e e' r s). Qed.
Print Assumptions C41_decorated_stream_partial.
Theorem C41_decorated_hex_partial : forall (F : fmt) (o : ostream) (f : manip) (x : ditv F),
  (emax F + prec F <= 2 ^ 26)%Z -> wf_dec x -> (exists k, snd x = byte k) -> m_number f = r_hex /\ m_precision f = 0%N -> m_punct f = true -> blank_padding o ->
  ((exists r, mem r (fst x)) -> blank_padding_right o /\ (o_dec_numeric o = true -> o_base o = b_dec)) ->
  (m_special f = s_bounds -> x <> (empty, trv)) ->
  exists t, returns (write_ditv o f x) t /\
    (moderate t -> exists y, returns (text_to_decorated_interval t) y /\ same_set (fst x) (fst y) /\ snd y = snd x).
Proof. exact (fun F o f x Hs => hex_back_dec Hs o f x). Qed.
Print Assumptions C41_decorated_hex_partial.

(** ** Cases that are not read back *)
(** The empty set as bounds is "[inf,-inf]". *)
Theorem C41_empty_bounds_refuted : forall F : fmt, (emax F + prec F <= 2 ^ 26)%Z -> exists t,
  returns (write_itv plain_o bounds_f (@empty F)) t /\ reports_undefined (text_to_interval (F := F) t) empty.
Proof. exact empty_bounds_refuted. Qed.
Print Assumptions C41_empty_bounds_refuted.
(** std::setw also moves the decoration away from its interval: a string is refused, and from
    a stream [entire]_trv is silently read as [entire]_dac. *)
Theorem C41_width_refuted : forall F : fmt, exists t,
  returns (write_ditv wide_o plain_f (((fminf, finf), trv) : ditv F)) t /\
  reports_undefined (text_to_decorated_interval (F := F) t) nai /\
  exists s', returns (read_ditv (F := F) (string_stream t)) (Some ((fminf, finf), dac), s') /\ ok s' = true.
Proof. exact width_refuted. Qed.
Print Assumptions C41_width_refuted.
Theorem C41_punctuation_refuted : forall F : fmt, exists t,
  returns (write_itv plain_o (Manip r_hex 0 0 s_text false 0) ((fminf, finf) : itv F)) t /\ reports_undefined (text_to_interval (F := F) t) empty.
Proof. exact punctuation_refuted. Qed.
Print Assumptions C41_punctuation_refuted.
Theorem C41_base_refuted : forall F : fmt, exists t,
  returns (write_ditv (Ostream b_hex false false 0 " " a_right true false) plain_f (((fminf, finf), dac) : ditv F)) t /\
  reports_undefined (text_to_decorated_interval (F := F) t) nai.
Proof. exact base_refuted. Qed.
Print Assumptions C41_base_refuted.

(** ** Examples *)
Definition example_x : itv binary64 := (fl binary64 (-3) (-1), fl binary64 7 2).
Definition example_t : text := txt "[-0x1.8p+0,0x1.cp+4]".
Lemma example_mem : mem 1%R example_x.
Proof. apply mem_pt; try reflexivity; cbn; unfold F2R; cbn; lra. Qed.
Lemma example_small : (emax binary64 + prec binary64 <= 2 ^ 26)%Z.
Proof. apply Z.leb_le. reflexivity. Qed.
Example C41_example_text : returns (write_itv plain_o plain_f example_x) example_t.
Proof.
assert (W : wf example_x) by (right; exists 1%R; apply example_mem).
intros e. unfold write_itv, parts, MNum.n_inf, MNum.n_sup. rewrite (PBase.is_valid_wf _ W), (PBase.is_empty_wf _ W), (PBase.is_entire_wf _ W).
unfold mif, mnot, mand, mor, bind, ret. change (isnan (fst example_x)) with false. change (feq (fst example_x) fminf && feq (snd example_x) finf) with false.
cbv beta iota zeta. change (feq (fst example_x) f0) with false. change (feq (snd example_x) f0) with false. cbv iota. cbn [m_number m_width m_precision plain_f o_upper_text plain_o negb].
rewrite !hex_fits; [|apply Z.leb_le; reflexivity..].
change (sprintf (N.to_nat 0) c_a false mode_DN (precision_of r_hex 0) (fst example_x)) with (txt "-0x1.8p+0").
change (sprintf (N.to_nat 0) c_a false mode_UP (precision_of r_hex 0) (snd example_x)) with (txt "0x1.cp+4").
reflexivity.
Qed.
Example C41_example : wf example_x /\ moderate example_t /\ lossless plain_f example_x /\
  exists z, returns (text_to_interval example_t) z /\ same_set example_x z.
Proof.
assert (W : wf example_x) by (right; exists 1%R; apply example_mem).
assert (M : moderate example_t) by reflexivity. split; [easy|]. split; [easy|]. split; [now left|].
destruct (C41_interval_partial binary64 plain_o plain_f example_x example_t (Est 0 0) (Est 0 0)) as (_ & z & H1 & _ & _ & H2); try easy.
- now left.
- apply C41_example_text.
- exists z. split; [easy|]. apply H2. now left.
Qed.
Example C41_example_decorated : wf_dec (example_x, def) /\ exists t, returns (write_ditv plain_o plain_f (example_x, def)) t.
Proof.
assert (W : wf_dec (example_x, def)).
{ right. split; [exists 1%R; apply example_mem|]. split; [easy|discriminate]. }
split; [easy|]. destruct (C41_decorated_hex_partial binary64 plain_o plain_f (example_x, def)) as (t & H & _); try easy.
- now exists d_def.
- now left.
- intros _. split; [now left|easy].
- now exists t.
Qed.
