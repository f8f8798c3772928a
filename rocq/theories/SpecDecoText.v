(** * Decorations and their texts: specification *)
From Coq Require Import NArith Bool Ascii String List.
Import ListNotations.

(** The five decorations of IEEE 1788 in ascending order. *)
Inductive decoration : Type := d_ill | d_trv | d_def | d_dac | d_com.
Definition rank (d : decoration) : nat :=
  match d with d_ill => 0 | d_trv => 1 | d_def => 2 | d_dac => 3 | d_com => 4 end.
(** Bit pattern of a decoration (IEEE 1788-2015, 14.4). *)
Definition byte (d : decoration) : N :=
  match d with d_ill => 0 | d_trv => 4 | d_def => 8 | d_dac => 12 | d_com => 16 end%N.
Definition name (d : decoration) : string :=
  match d with d_ill => "ill" | d_trv => "trv" | d_def => "def" | d_dac => "dac" | d_com => "com" end.

(** [c] is the letter [l], small or capital. *)
Definition same_letter (l c : ascii) : Prop := c = l \/ (N_of_ascii c + 32 = N_of_ascii l)%N.
Definition is_decimal (c : ascii) : Prop := (48 <= N_of_ascii c <= 57)%N.
Definition decimal_value (l : list ascii) : N := fold_left (fun a c => (a * 10 + (N_of_ascii c - 48))%N) l 0%N.

(** The text starts with a decoration, [r] follows. *)
Inductive denotes : list ascii -> decoration -> list ascii -> Prop :=
  | denotes_name d w r : Forall2 same_letter (list_ascii_of_string (name d)) w -> denotes (w ++ r) d r
  | denotes_number d w r : w <> [] -> Forall is_decimal w -> (forall c r', r = c :: r' -> ~ is_decimal c) ->
      decimal_value w = byte d -> denotes (w ++ r) d r.
