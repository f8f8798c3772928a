(** * C37: decorations are ordered and round-trip through text *)
From Coq Require Import ZArith NArith Bool Ascii String List.
From Verif Require Import Deco MStream MDecoIo SpecDecoText PDecoIo.
Import ListNotations.

(** ** Order: [<] of the code is the order ill < trv < def < dac < com, std::min its minimum. *)
Theorem C37_order : forall a b : decoration, N.ltb (byte a) (byte b) = Nat.ltb (rank a) (rank b).
Proof. exact byte_order. Qed.
Print Assumptions C37_order.
Theorem C37_constants : byte d_ill = ill /\ byte d_trv = trv /\ byte d_def = def /\ byte d_dac = dac /\ byte d_com = com.
Proof. repeat split. Qed.
Theorem C37_minimum : forall a b : decoration, dmin (byte a) (byte b) = byte (if (rank a <=? rank b)%nat then a else b).
Proof. exact dmin_rank. Qed.
Print Assumptions C37_minimum.
(** The minimum of a list, std::min({...}), is the least of its elements. *)
Theorem C37_minimum_list : forall (l : list decoration) (a : decoration),
  exists m, dmin_list (byte a) (map byte l) = byte m /\ In m (a :: l) /\ Forall (fun b => (rank m <= rank b)%nat) (a :: l).
Proof. exact dmin_list_rank. Qed.
Print Assumptions C37_minimum_list.

(** ** Reading: exactly the texts that denote a decoration are read; [visible s] are the
    characters after white space if that is skipped. *)
Theorem C37_read : forall (s : istream) (old : deco) (d : decoration) (r : text),
  good s = true -> basef s = b_dec -> denotes (visible s) d r ->
  exists s', read_into old s = (byte d, s') /\ ok s' = true /\ rest s' = r.
Proof. exact into_denotes. Qed.
Print Assumptions C37_read.
Theorem C37_read_other : forall (s : istream) (old : deco),
  good s = true -> basef s = b_dec -> (forall d r, ~ denotes (visible s) d r) ->
  exists s', read_into old s = (old, s') /\ failbit s' = true.
Proof. exact into_fails. Qed.
Print Assumptions C37_read_other.
(** Whatever the stream, base and state: a failed read leaves the argument alone, and only
    decorations are ever stored. *)
Theorem C37_failed_unchanged : forall (s : istream) (old : deco),
  failbit (snd (read_into old s)) = true -> fst (read_into old s) = old.
Proof. exact into_failed. Qed.
Theorem C37_read_valid : forall (s : istream) (old : deco), (exists d, old = byte d) -> exists d, fst (read_into old s) = byte d.
Proof. exact into_valid. Qed.
(** The documentation (decoration.hpp:171-173) promises ill in this case. *)
Theorem C37_failed_is_ill_refuted : exists (s : istream) (old : deco),
  good s = true /\ failbit (snd (read_into old s)) = true /\ fst (read_into old s) <> ill.
Proof. exists (istate b_dec true (txt "xyz")), com. easy. Qed.
Print Assumptions C37_failed_is_ill_refuted.

(** ** Round trip, for every manipulator state with harmless padding and any text that
    follows and does not continue the number. *)
Theorem C37_roundtrip_alphabetic : forall (o : ostream) (d : decoration) (bf : basefield) (sk : bool) (r : text),
  o_dec_numeric o = false -> harmless o sk ->
  exists s', read_deco (istate bf sk (write_deco o (byte d) ++ r)) = (Some (byte d), s') /\ ok s' = true /\ rest s' = r.
Proof. exact alpha_roundtrip. Qed.
Print Assumptions C37_roundtrip_alphabetic.
(** Numeric form.  Missing: dac with the hexadecimal base, which is false (below). *)
Theorem C37_roundtrip_numeric_partial : forall (o : ostream) (d : decoration) (sk : bool) (r : text),
  o_dec_numeric o = true -> harmless o sk -> stops r -> (o_base o = b_hex -> d <> d_dac) ->
  exists s', read_deco (istate (o_base o) sk (write_deco o (byte d) ++ r)) = (Some (byte d), s') /\ ok s' = true /\ rest s' = r.
Proof. exact numeric_roundtrip. Qed.
Print Assumptions C37_roundtrip_numeric_partial.
(** With std::hex, dac is written "c" and not recognized as a number. *)
Theorem C37_roundtrip_hex_refuted : exists (o : ostream) (sk : bool),
  o_dec_numeric o = true /\ harmless o sk /\
  fst (read_deco (istate (o_base o) sk (write_deco o (byte d_dac)))) = None.
Proof. exists (Ostream b_hex false false 0 " " a_right true false), true. split; [easy|]. split; [now left|easy]. Qed.
Print Assumptions C37_roundtrip_hex_refuted.
(** Padding with another fill character is not skipped. *)
Theorem C37_roundtrip_fill_refuted : exists (o : ostream) (sk : bool),
  fst (read_deco (istate (o_base o) sk (write_deco o (byte d_com)))) = None.
Proof. exists (Ostream b_dec false false 8 "*" a_right false false), true. easy. Qed.

Example C37_example_read : read_into ill (istate b_dec true (txt "  DaC rest")) = (dac, istate b_dec true (txt " rest")).
Proof. reflexivity. Qed.
Example C37_example_denotes : denotes (txt "016_") d_com (txt "_").
Proof.
apply (denotes_number d_com (txt "016") (txt "_")); try easy.
- cbn. repeat constructor; cbn; discriminate.
- intros c r' H. injection H as <- <-. unfold is_decimal. cbn. intros [_ H]. now apply H.
Qed.
Example C37_example_not : forall d r, ~ denotes (txt "17") d r.
Proof. intros d r H. apply parse_denotes in H. discriminate. Qed.
Example C37_example_write : write_deco (Ostream b_hex true true 6 " " a_internal true false) com = txt "0X  10".
Proof. reflexivity. Qed.
