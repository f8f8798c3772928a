(** * Model: output manipulators, writing through a stream, writing overlapping states

    C++ side: p1788/io/io_manip.hpp, p1788/overlapping/overlapping.hpp:64-233 and the
    accesses to the manipulators in mpfr_bin_ieee754_flavor_io_impl.hpp:43-485 (io_impl.hpp).
    Simplifications: iword() never fails; the ids are those of one translation unit (each
    has its own, see [unit_ids]); widths and precisions of numbers are below 2^31. *)
From Coq Require Import ZArith NArith Bool Ascii String List.
From Flocq Require Import Core.Core IEEE754.BinarySingleNaN.
From Verif Require Import Fmt Spec Exc Deco MBase MBool MNum MStream MDecoIo MText MPrint MUncertain MOverlap.
Import ListNotations.
Local Open Scope Z_scope.

(** ** Streams *)
(** The array behind ios_base::iword (elements of type long, zero in a new stream) and the
    other formatting fields; [o_dec_numeric] and [o_upper_text] of [s_fmt] are not used. *)
Record stream : Type := Stream { s_words : Z -> Z; s_fmt : ostream }.
Definition fresh (o : ostream) : stream := Stream (fun _ => 0) o.
Definition set_word (i v : Z) (s : stream) : stream :=
  Stream (fun j => if j =? i then v else s_words s j) (s_fmt s).

(** ** The ids *)
(** io_manip.hpp:38, 80, 108, 173, 238, 268, 297, 350, 392, 437, 484: constants with internal
    linkage, initialised in this order with xalloc(), which returns each index once.  [k] is
    the first index the translation unit got. *)
Definition text_representation_id (k : Z) : Z := k.
Definition string_width_id (k : Z) : Z := k + 1.
Definition representation_id (k : Z) : Z := k + 2.
Definition number_representation_id (k : Z) : Z := k + 3.
Definition width_id (k : Z) : Z := k + 4.
Definition precision_id (k : Z) : Z := k + 5.
Definition special_representation_id (k : Z) : Z := k + 6.
Definition punctuation_id (k : Z) : Z := k + 7.
Definition uncertain_exponent_id (k : Z) : Z := k + 8.
Definition dec_id (k : Z) : Z := k + 9.
Definition overlapping_id (k : Z) : Z := k + 10.
(** The next unit gets the next eleven. *)
Definition unit_ids (n : Z) : Z := 11 * n.

(** ** The manipulators *)
Inductive manipulator : Type :=
| p_lower_case | p_upper_case
| p_string_width (n : N)
| p_inf_sup_form | p_uncertain_form | p_uncertain_up_form | p_uncertain_down_form
| p_decimal_scientific | p_decimal | p_scientific | p_hex
| p_width (n : N)
| p_precision (n : N)
| p_special_text | p_special_bounds | p_special_no_bounds
| p_punctuation | p_no_punctuation
| p_no_uncertain_exponent | p_uncertain_exponent
| p_dec_alpha | p_dec_numeric
| p_overlapping_alpha | p_overlapping_numeric.

(** io_manip.hpp:55-520 [os << m] *)
Definition manipulate (k : Z) (m : manipulator) (s : stream) : stream :=
  match m with
  | p_lower_case => set_word (text_representation_id k) 0 s
  | p_upper_case => set_word (text_representation_id k) 1 s
  | p_string_width n => set_word (string_width_id k) (Z.of_N n) s
  | p_inf_sup_form => set_word (representation_id k) 0 s
  | p_uncertain_form => set_word (representation_id k) 1 s
  | p_uncertain_up_form => set_word (representation_id k) 2 s
  | p_uncertain_down_form => set_word (representation_id k) 3 s
  | p_decimal_scientific => set_word (number_representation_id k) 0 s
  | p_decimal => set_word (number_representation_id k) 1 s
  | p_scientific => set_word (number_representation_id k) 2 s
  | p_hex => set_word (number_representation_id k) 3 s
  | p_width n => set_word (width_id k) (Z.of_N n) s
  | p_precision n => set_word (precision_id k) (Z.of_N n) s
  | p_special_text => set_word (special_representation_id k) 0 s
  | p_special_bounds => set_word (special_representation_id k) 1 s
  | p_special_no_bounds => set_word (special_representation_id k) 2 s
  | p_punctuation => set_word (punctuation_id k) 0 s
  | p_no_punctuation => set_word (punctuation_id k) 1 s
  | p_no_uncertain_exponent => set_word (uncertain_exponent_id k) 0 s
  | p_uncertain_exponent => set_word (uncertain_exponent_id k) 1 s
  | p_dec_alpha => set_word (dec_id k) 0 s
  | p_dec_numeric => set_word (dec_id k) 1 s
  | p_overlapping_alpha => set_word (overlapping_id k) 0 s
  | p_overlapping_numeric => set_word (overlapping_id k) 1 s
  end.
(** os << m1 << m2 << ... *)
Definition manipulate_all (k : Z) (ms : list manipulator) (s : stream) : stream :=
  fold_left (fun s m => manipulate k m s) ms s.

(** ** Reading the manipulators *)
(** io_impl.hpp:356-365, decoration.hpp:102-159, overlapping.hpp:91-230 *)
Definition is_upper (k : Z) (s : stream) : bool := s_words s (text_representation_id k) =? 1.
(** io_impl.hpp:57-59, 171-319 *)
Definition form (k : Z) (s : stream) : option side :=
  let v := s_words s (representation_id k) in
  if v =? 1 then Some u_both else if v =? 2 then Some u_up else if v =? 3 then Some u_down else None.
(** mpfr_var_impl.hpp:239-336: the switch *)
Definition number (k : Z) (s : stream) : number_rep :=
  let v := s_words s (number_representation_id k) in
  if v =? 1 then r_decimal else if v =? 2 then r_scientific else if v =? 3 then r_hex else r_decsci.
(** io_impl.hpp:344-350; the last case of [special_rep] is taken for every other value *)
Definition special (k : Z) (s : stream) : special_rep :=
  let v := s_words s (special_representation_id k) in
  if v =? 1 then s_bounds else if v =? 2 then s_no_bounds else s_text.
(** io_impl.hpp:337-341 *)
Definition punct (k : Z) (s : stream) : bool := negb (s_words s (punctuation_id k) =? 1).
(** io_impl.hpp:65, 81 ... *)
Definition exponent (k : Z) (s : stream) : bool := s_words s (uncertain_exponent_id k) =? 1.
(** decoration.hpp:107 *)
Definition dec_num (k : Z) (s : stream) : bool := s_words s (dec_id k) =? 1.
(** overlapping.hpp:84 *)
Definition overlapping_num (k : Z) (s : stream) : bool := s_words s (overlapping_id k) =? 1.
Definition string_width_of (k : Z) (s : stream) : Z := s_words s (string_width_id k).
Definition width_of (k : Z) (s : stream) : N := Z.to_N (s_words s (width_id k)).
Definition precision_word (k : Z) (s : stream) : N := Z.to_N (s_words s (precision_id k)).

(** The stream as MPrint.v and MDecoIo.v see it. *)
Definition view (k : Z) (s : stream) : ostream :=
  let o := s_fmt s in
  Ostream (o_base o) (o_showbase o) (o_upper o) (o_width o) (o_fill o) (o_adjust o) (dec_num k s) (is_upper k s).
Definition manip_of (k : Z) (s : stream) : manip :=
  Manip (number k s) (width_of k s) (precision_word k s) (special k s) (punct k s) (Z.to_N (string_width_of k s)).

(** ** Writing intervals *)
(** Conversion to int (modulo 2^32) *)
Definition to_int (z : Z) : Z := (z + 2 ^ 31) mod 2 ^ 32 - 2 ^ 31.
(** io_impl.hpp:325-329, 394-398: int w = os.iword(string_width) - sizes; the blanks added *)
Definition gap (sw n : Z) : nat := Z.to_nat (to_int (sw - n)).

Local Open Scope string_scope.
Local Open Scope list_scope.
Local Open Scope m_scope.
(** Every formatted output sets the field width to 0. *)
Definition reset_width (s : stream) : stream := Stream (s_words s) (no_width (s_fmt s)).
(** Statements that change the stream: outcome, environment and stream afterwards. *)
Definition SM (A : Type) : Type := stream -> est -> outcome A * est * stream.
Definition lift {A} (m : M A) : SM A := fun s e => let '(r, e') := m e in (r, e', s).
Definition sret {A} (a : A) : SM A := lift (ret a).
Definition sbind {A B} (m : SM A) (f : A -> SM B) : SM B := fun s e =>
  match m s e with
  | (Ret a, e', s') => f a s' e'
  | (Throw x, e', s') => (Throw x, e', s')
  | (UB, e', s') => (UB, e', s')
  end.
Definition update (f : stream -> stream) : SM unit := fun s e => (Ret tt, e, f s).
Definition sif {A} (c : M bool) (t e : SM A) : SM A := sbind (lift c) (fun b => if b then t else e).
(** A local object whose destructor changes the stream: it runs also when [m] throws. *)
Definition finally {A} (m : SM A) (f : stream -> stream) : SM A := fun s e =>
  let '(r, e', s') := m s e in (r, e', f s').

Section Write.
Context {F : fmt}.
Variable get : mode -> number_rep -> N -> bool -> float F -> M text.
Variable k : Z.

(** os << t1 << t2 << ...: the characters; the field width is 0 afterwards *)
Definition output (l : list text) : SM text := fun s =>
  sbind (update reset_width) (fun _ => sret (put_parts (view k s) l)) s.

(** io_impl.hpp:334-403 *)
Definition put_inf_sup (x : itv F) : SM text := fun s =>
  sbind (lift (parts (view k s) (manip_of k s) x)) (fun '(p1, p2, p3, p4, p5) =>
  let width := gap (string_width_of k s) (size (p1 ++ p2 ++ p3 ++ p4 ++ p5)) in
  output [p1; blanks (width / 2); p2; p3; blanks (width - width / 2); p4; p5]) s.
(** io_impl.hpp:62-331 *)
Definition put_uncertain (u : side) (x : itv F) : SM text := fun s =>
  sbind (lift (uncertain_body get u (exponent k s) (precision_word k s) (is_upper k s) x)) (fun str =>
  output [blanks (gap (string_width_of k s) (size str)) ++ str]) s.
(** io_impl.hpp:43-404 *)
Definition put_bare (x : itv F) : SM text := fun s =>
  sif (mnot (is_valid x)) (sret [])
  (match form k s with
   | Some u => sif (mnot (is_empty x)) (put_uncertain u x) (put_inf_sup x)
   | None => put_inf_sup x
   end) s.

(** io_impl.hpp:420-441 *)
Definition put_nai : SM text := fun s =>
  let w := N.to_nat (width_of k s) in
  let part1 := txt (if punct k s then "[" else "") ++ blanks (w - 1) in
  let part2 := txt (if is_upper k s then "NAI" else "nai") in
  let part3 := blanks (w - 1) ++ txt (if punct k s then "]" else "") in
  let width := gap (string_width_of k s) (size (part1 ++ part2 ++ part3)) in
  output [part1; blanks (width / 2); part2; blanks (width - width / 2); part3] s.
(** io_impl.hpp:453-456: the separator and the decoration, written to a stringstream with the
    same format *)
Definition dec_text (s : stream) (d : deco) : text :=
  put_parts (view k s) [txt (if punct k s then "_" else " ")] ++ write_deco (no_width (view k s)) d.
(** io_impl.hpp:458-484.  string_width_helper keeps the string width in an int, sets it to a
    difference of ints, and its destructor writes the int back. *)
Definition put_with_dec (x : ditv F) : SM text := fun s =>
  let buf := dec_text s (snd x) in
  let size_ := to_int (string_width_of k s) in
  let dec_width := to_int (size buf) in
  if ((- 2 ^ 31 <=? size_ - dec_width) && (size_ - dec_width <? 2 ^ 31))%Z then
    sbind (update (set_word (string_width_id k) (size_ - dec_width)%Z)) (fun _ =>
    finally (sbind (put_bare (fst x)) (fun t => sbind (output [buf]) (fun t' => sret (t ++ t'))))
            (set_word (string_width_id k) size_)) s
  else lift undef s.
(** io_impl.hpp:407-485 *)
Definition put_dec (x : ditv F) : SM text :=
  sif (mnot (is_valid_dec x)) (sret [])
  (sif (is_nai x) put_nai
  (sif (is_empty_dec x) (put_bare (fst x)) (put_with_dec x))).
End Write.

(** ** Overlapping states *)
(** overlapping.hpp:80-231 [operator<<]: the characters written for the value [c] *)
Definition write_overlap (k : Z) (s : stream) (c : N) : text :=
  if overlapping_num k s then put_unsigned (view k s) c
  else
    let word lo up := put_text (view k s) (if is_upper k s then up else lo) in
    if (c =? 1)%N then word "both_empty" "BOTH_EMPTY"
    else if (c =? 2)%N then word "first_empty" "FIRST_EMPTY"
    else if (c =? 4)%N then word "second_empty" "SECOND_EMPTY"
    else if (c =? 8)%N then word "before" "BEFORE"
    else if (c =? 16)%N then word "meets" "MEETS"
    else if (c =? 32)%N then word "overlaps" "OVERLAPS"
    else if (c =? 64)%N then word "starts" "STARTS"
    else if (c =? 128)%N then word "contained_by" "CONTAINED_BY"
    else if (c =? 256)%N then word "finishes" "FINISHES"
    else if (c =? 512)%N then word "equal" "EQUAL"
    else if (c =? 1024)%N then word "finished_by" "FINISHED_BY"
    else if (c =? 2048)%N then word "contains" "CONTAINS"
    else if (c =? 4096)%N then word "started_by" "STARTED_BY"
    else if (c =? 8192)%N then word "overlapped_by" "OVERLAPPED_BY"
    else if (c =? 16384)%N then word "met_by" "MET_BY"
    else if (c =? 32768)%N then word "after" "AFTER"
    else word "undefined" "UNDEFINED".
Definition put_overlap (k : Z) (o : ostate) : SM text := fun s =>
  sbind (update reset_width) (fun _ => sret (write_overlap k s (ostate_code o))) s.
