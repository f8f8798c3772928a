(** * C35: reading interval literals from text

    [literal sign small t S given] (SpecLiteral): the text [t] is an interval literal for the
    set [S] with the decoration [given]; [reading S given x]: [x] is the smallest interval of
    the type that contains [S], with the right decoration. *)
From Coq Require Import ZArith NArith Reals Bool Ascii String List Lia Lra.
From Flocq Require Import Core.Core IEEE754.BinarySingleNaN.
From Verif Require Import Fmt Spec Exc Deco SpecApi MBase MStream MRead SpecDecoText SpecLiteral SpecRead PReadStr PTrip3.
Import ListNotations.
Local Open Scope list_scope.

(** ** Literals are accepted.  Missing: plus signs before numbers and exponents an int cannot
    hold; for both it is false (below). *)
Theorem C35_read_partial : forall (F : fmt) (t : text) (S : R -> Prop) (given : option deco) (a r : text) (s : istream),
  good s = true -> rest s = a ++ t ++ r -> blanks a -> (skipws s = true \/ a = []) ->
  literal no_plus int_exponent t S given -> moderate t -> follows given r ->
  exists x, returns (read_ditv (F := F) s) (Some x, setrest r s) /\ reading S given x.
Proof. exact @stream_read. Qed.
Print Assumptions C35_read_partial.
Theorem C35_read_nai_partial : forall (F : fmt) (t a r : text) (s : istream),
  good s = true -> rest s = a ++ t ++ r -> blanks a -> (skipws s = true \/ a = []) ->
  nai_literal no_plus int_exponent t -> moderate t -> follows None r ->
  returns (read_ditv (F := F) s) (Some nai, setrest r s).
Proof. exact @stream_read_nai. Qed.
Print Assumptions C35_read_nai_partial.
Theorem C35_read_bare_partial : forall (F : fmt) (t : text) (S : R -> Prop) (given : option deco) (a r : text) (s : istream),
  good s = true -> rest s = a ++ t ++ r -> blanks a -> (skipws s = true \/ a = []) ->
  literal no_plus int_exponent t S given -> moderate t -> follows given r ->
  exists z, returns (read_itv (F := F) s) (Some z, setrest r s) /\ tightest S z.
Proof. exact @bare_stream_read. Qed.
Print Assumptions C35_read_bare_partial.
Theorem C35_string_partial : forall (F : fmt) (t a t0 b : text) (S : R -> Prop) (given : option deco),
  t = a ++ t0 ++ b -> blanks a -> blanks b -> literal no_plus int_exponent t0 S given -> moderate t0 ->
  exists x, returns (text_to_decorated_interval (F := F) t) x /\ reading S given x.
Proof. exact @string_read_m. Qed.
Print Assumptions C35_string_partial.
Theorem C35_string_nai_partial : forall (F : fmt) (t a t0 b : text),
  t = a ++ t0 ++ b -> blanks a -> blanks b -> nai_literal no_plus int_exponent t0 -> moderate t0 ->
  returns (text_to_decorated_interval (F := F) t) nai.
Proof. exact @string_read_nai_m. Qed.
Print Assumptions C35_string_nai_partial.
Theorem C35_string_bare_partial : forall (F : fmt) (t a t0 b : text) (S : R -> Prop) (given : option deco),
  t = a ++ t0 ++ b -> blanks a -> blanks b -> literal no_plus int_exponent t0 S given -> moderate t0 ->
  exists z, returns (text_to_interval (F := F) t) z /\ tightest S z.
Proof. exact @bare_string_read_m. Qed.
Print Assumptions C35_string_bare_partial.

(** Decorations may also be preceded by white space or be decimal numbers: together with the
    two theorems on outcomes below this is exactly what is accepted. *)
Theorem C35_read_decoration_partial : forall (F : fmt) (t : text) (S : R -> Prop) (d : deco) (b w : text) (k : decoration) (r a : text) (s : istream),
  good s = true -> basef s = b_dec -> rest s = a ++ t ++ txt "_" ++ b ++ w -> blanks a -> (skipws s = true \/ a = [] /\ b = []) ->
  bare_literal no_plus int_exponent t S d -> d <> ill -> moderate t -> blanks b -> denotes w k r -> k <> d_ill -> (byte k <= d)%N ->
  exists x s', returns (read_ditv (F := F) s) (Some x, s') /\ ok s' = true /\ rest s' = r /\ (good s' = true \/ r = []) /\
    reading S (Some (byte k)) x.
Proof. exact @decorated_read. Qed.
Print Assumptions C35_read_decoration_partial.

(** ** Nothing else is accepted, with [accepted] a little more than the literals (decorations
    after white space or as numbers).  What is not accepted sets failbit and assigns nothing
    (None); the exception state is left alone.  The exponents in the text are at most 10^9. *)
Theorem C35_outcome_partial : forall (F : fmt) (s : istream),
  good s = true -> basef s = b_dec -> moderate (rest s) -> small_exponents (rest s) ->
  (exists s', returns (read_ditv (F := F) s) (None, s') /\ failbit s' = true) \/
  (exists a l S given r x s', rest s = a ++ l /\ blanks a /\ accepted l S given r /\
     returns (read_ditv (F := F) s) (Some x, s') /\ ok s' = true /\ rest s' = r /\ (good s' = true \/ r = []) /\ reading S given x) \/
  (exists a t r, rest s = a ++ t ++ r /\ blanks a /\ nai_literal no_plus any_exponent t /\
     returns (read_ditv (F := F) s) (Some nai, setrest r s)).
Proof. exact @stream_outcome. Qed.
Print Assumptions C35_outcome_partial.
Theorem C35_outcome_bare_partial : forall (F : fmt) (s : istream),
  good s = true -> basef s = b_dec -> moderate (rest s) -> small_exponents (rest s) ->
  (exists s', returns (read_itv (F := F) s) (None, s') /\ failbit s' = true) \/
  (exists a l S given r z s', rest s = a ++ l /\ blanks a /\ accepted l S given r /\
     returns (read_itv (F := F) s) (Some z, s') /\ ok s' = true /\ rest s' = r /\ (good s' = true \/ r = []) /\ tightest S z) \/
  (exists a t r, rest s = a ++ t ++ r /\ blanks a /\ nai_literal no_plus any_exponent t /\
     reports interval_part_of_nai_bit Interval_part_of_nai_exception (read_itv (F := F) s) (Some empty, setrest r s)).
Proof. exact @bare_stream_outcome. Qed.
Print Assumptions C35_outcome_bare_partial.
Theorem C35_string_outcome_partial : forall (F : fmt) (t : text), moderate t -> small_exponents t -> ascii_text t ->
  reports_undefined (text_to_decorated_interval (F := F) t) nai \/
  (exists a l S given b x, t = a ++ l /\ blanks a /\ blanks b /\ accepted l S given b /\
     returns (text_to_decorated_interval (F := F) t) x /\ reading S given x) \/
  (exists a t0 b, t = a ++ t0 ++ b /\ blanks a /\ blanks b /\ nai_literal no_plus any_exponent t0 /\
     returns (text_to_decorated_interval (F := F) t) nai).
Proof. exact @string_outcome. Qed.
Print Assumptions C35_string_outcome_partial.
Theorem C35_string_outcome_bare_partial : forall (F : fmt) (t : text), moderate t -> small_exponents t -> ascii_text t ->
  reports_undefined (text_to_interval (F := F) t) empty \/
  (exists a l S given b z, t = a ++ l /\ blanks a /\ blanks b /\ accepted l S given b /\
     returns (text_to_interval (F := F) t) z /\ tightest S z) \/
  (exists a t0 b, t = a ++ t0 ++ b /\ blanks a /\ nai_literal no_plus any_exponent t0 /\
     (blanks b /\ reports interval_part_of_nai_bit Interval_part_of_nai_exception (text_to_interval (F := F) t) empty \/
      ~ blanks b /\ exists m, reports_undefined m empty /\ forall e, text_to_interval (F := F) t e =
        if masked interval_part_of_nai_bit e then (Throw Interval_part_of_nai_exception, set_flag interval_part_of_nai_bit e)
        else m (set_flag interval_part_of_nai_bit e))).
Proof. exact @bare_string_outcome. Qed.
Print Assumptions C35_string_outcome_bare_partial.

(** ** The property as stated is false. *)
(** A plus sign before a number is not understood. *)
Theorem C35_plus_refuted : exists t S given, literal any_sign int_exponent t S given /\
  forall F : fmt, reports_undefined (text_to_decorated_interval (F := F) t) nai.
Proof. exact plus_refuted. Qed.
Print Assumptions C35_plus_refuted.
(** An exponent an int cannot hold makes std::stoi throw std::out_of_range. *)
Theorem C35_exponent_refuted : exists t S given, literal no_plus any_exponent t S given /\
  forall (F : fmt) (s : est), text_to_decorated_interval (F := F) t s = (Throw Out_of_range, s).
Proof. exact exponent_refuted. Qed.
Print Assumptions C35_exponent_refuted.
(** The absolute value of the least int overflows. *)
Theorem C35_overflow_refuted : exists t S given, literal no_plus any_exponent t S given /\
  forall (F : fmt) (s : est), text_to_decorated_interval (F := F) t s = (UB, s).
Proof. exact overflow_refuted. Qed.
Print Assumptions C35_overflow_refuted.
(** Numbers are taken for decorations. *)
Theorem C35_decoration_refuted : exists t, (forall S given, ~ literal any_sign any_exponent t S given) /\
  forall F : fmt, returns (text_to_decorated_interval (F := F) t) (empty, trv).
Proof. exact decoration_refuted. Qed.
Print Assumptions C35_decoration_refuted.
(** A character beyond ASCII after a literal: std::isspace is called with a negative char. *)
Theorem C35_ascii_refuted : exists t, (forall S given, ~ literal any_sign any_exponent t S given) /\
  forall (F : fmt) (s : est), text_to_decorated_interval (F := F) t s = (UB, s).
Proof. exact ascii_refuted. Qed.
Print Assumptions C35_ascii_refuted.

(** ** Examples *)
Definition example_set : R -> Prop := between_bounds (Some (IZR (-1) / IZR 3)%R) (Some (IZR 24 * powerRZ 2 (1 - 4 * 1))%R).
Example C35_example_literal : literal no_plus int_exponent (txt "[ -1/3,0x1.8P+1]_dEf") example_set (Some def).
Proof.
apply (Decorated no_plus int_exponent (txt "[ -1/3,0x1.8P+1]") example_set com (txt "dEf") def); [|easy|now constructor|easy].
apply (Bounds no_plus int_exponent (txt " ") (txt "-1/3") [] [] (txt "0x1.8P+1") []); try constructor.
- now right.
- constructor.
- apply (Rational no_plus int_exponent (txt "-") (-1) (txt "1") 1 [] [] (txt "3") 3); try constructor; try easy; numeral_tac.
- apply (Hexadecimal no_plus int_exponent [] 1 (txt "0x") (txt "1.8") 24 1 (txt "P+1") 1); try easy; try constructor.
  + apply (Mant_point 16 (txt "1") (txt "8") 24); [|easy]. numeral_tac.
  + apply (Exponent "p" (txt "P") (txt "+") 1 (txt "1") 1); try easy; [constructor|numeral_tac].
- unfold ordered. assert (powerRZ 2 (-3) = / 8)%R as E by (change (powerRZ 2 (-3)) with (/ 2 ^ 3)%R; f_equal; lra). change (1 - 4 * 1)%Z with (-3)%Z. rewrite E. cbn [Z.mul Pos.mul]. lra.
Qed.
Example C35_example_read : exists x, returns (text_to_decorated_interval (F := binary64) (txt "  [ -1/3,0x1.8P+1]_dEf ")) x /\ reading example_set (Some def) x.
Proof.
apply (C35_string_partial binary64 _ (txt "  ") (txt "[ -1/3,0x1.8P+1]_dEf") (txt " ")); try easy; [| |apply C35_example_literal].
- repeat constructor; now right.
- repeat constructor; now right.
Qed.
Definition uncertain_set : R -> Prop := between_bounds (Some (IZR (-15) * powerRZ 10 2)%R) (Some (IZR (-15) * powerRZ 10 2 + IZR 2 * powerRZ 10 2)%R).
Example C35_example_uncertain : literal no_plus int_exponent (txt "-1.5?2ue3") uncertain_set None.
Proof.
apply Plain with com; [|easy].
apply (Uncertain no_plus int_exponent (txt "-") (-1) (txt "1.5") 15 1 (txt "2") (Some 2%R) (txt "u") false true (txt "e3") 3); try easy; try constructor; try easy.
- apply (Mant_point 10 (txt "1") (txt "5") 15); [|easy]. numeral_tac.
- numeral_tac.
- apply (Exponent "e" (txt "e") [] 1 (txt "3") 3); try easy; [constructor|numeral_tac].
Qed.
Example C35_example_stream : exists z, returns (read_itv (F := binary32) (Istream (txt "-1.5?2ue3 more") false false false false b_dec))
  (Some z, Istream (txt " more") false false false false b_dec) /\ tightest uncertain_set z.
Proof.
apply (C35_read_bare_partial binary32 (txt "-1.5?2ue3") uncertain_set None [] (txt " more")); try easy; [constructor|now right|apply C35_example_uncertain|].
intros c r' [= <- <-] H. cbn in H. repeat destruct H as [H|H]; easy.
Qed.
Example C35_example_reject : reports_undefined (text_to_decorated_interval (F := binary64) (txt "[1,2")) nai.
Proof. apply undef_reports. reflexivity. Qed.
