(** * Specification: output manipulators *)
From Coq Require Import ZArith NArith Ascii String List.
From Verif Require Import Fmt Spec Exc MStream MPrint MUncertain MOverlap MManip.
Import ListNotations.

(** ** What is documented for each group: the last manipulator of the group counts *)
Fixpoint latest {A} (sets : manipulator -> option A) (ms : list manipulator) (before : A) : A :=
  match ms with
  | [] => before
  | m :: ms' => latest sets ms' (match sets m with Some a => a | None => before end)
  end.
Definition chooses_case m := match m with p_lower_case => Some false | p_upper_case => Some true | _ => None end.
Definition chooses_string_width m := match m with p_string_width n => Some (Z.of_N n) | _ => None end.
Definition chooses_form m :=
  match m with
  | p_inf_sup_form => Some None | p_uncertain_form => Some (Some u_both)
  | p_uncertain_up_form => Some (Some u_up) | p_uncertain_down_form => Some (Some u_down) | _ => None
  end.
Definition chooses_number m :=
  match m with
  | p_decimal_scientific => Some r_decsci | p_decimal => Some r_decimal | p_scientific => Some r_scientific
  | p_hex => Some r_hex | _ => None
  end.
Definition chooses_width m := match m with p_width n => Some n | _ => None end.
Definition chooses_precision m := match m with p_precision n => Some n | _ => None end.
Definition chooses_special m :=
  match m with
  | p_special_text => Some s_text | p_special_bounds => Some s_bounds | p_special_no_bounds => Some s_no_bounds
  | _ => None
  end.
Definition chooses_punctuation m :=
  match m with p_punctuation => Some true | p_no_punctuation => Some false | _ => None end.
Definition chooses_exponent m :=
  match m with p_no_uncertain_exponent => Some false | p_uncertain_exponent => Some true | _ => None end.
Definition chooses_dec m := match m with p_dec_alpha => Some false | p_dec_numeric => Some true | _ => None end.
Definition chooses_overlapping m :=
  match m with p_overlapping_alpha => Some false | p_overlapping_numeric => Some true | _ => None end.

(** All that the functions that write ask a stream for. *)
Definition same_settings (k : Z) (s s' : stream) : Prop :=
  view k s = view k s' /\ form k s = form k s' /\ number k s = number k s' /\ width_of k s = width_of k s' /\
  precision_word k s = precision_word k s' /\ special k s = special k s' /\ punct k s = punct k s' /\
  exponent k s = exponent k s' /\ overlapping_num k s = overlapping_num k s' /\
  string_width_of k s = string_width_of k s'.

(** ** Output *)
(** [m] in the stream [s] writes [t]; the stream is [s'] afterwards. *)
Definition writes {A} (m : SM A) (s : stream) (e : est) (t : A) (e' : est) (s' : stream) : Prop :=
  m s e = (Ret t, e', s').
Definition same_words (s s' : stream) : Prop := forall i, s_words s' i = s_words s i.
(** A string width an int can hold. *)
Definition int_width (k : Z) (s : stream) : Prop := (0 <= string_width_of k s < 2 ^ 31)%Z.
(** [t] is [t0] with blanks put in at two places so that it has [n] characters, or [t0]
    itself if that is long enough. *)
Definition widened (n : Z) (t0 t : text) : Prop :=
  Z.of_nat (length t) = Z.max n (Z.of_nat (length t0)) /\
  exists a i b j c, t0 = a ++ b ++ c /\ t = a ++ repeat " "%char i ++ b ++ repeat " "%char j ++ c.

(** ** Names of the overlapping states (as in the standard and in the enumeration) *)
Definition state_name (o : ostate) : string :=
  match o with
  | o_undefined => "undefined" | o_both_empty => "both_empty" | o_first_empty => "first_empty"
  | o_second_empty => "second_empty" | o_before => "before" | o_meets => "meets" | o_overlaps => "overlaps"
  | o_starts => "starts" | o_contained_by => "contained_by" | o_finishes => "finishes" | o_equal => "equal"
  | o_finished_by => "finished_by" | o_contains => "contains" | o_started_by => "started_by"
  | o_overlapped_by => "overlapped_by" | o_met_by => "met_by" | o_after => "after"
  end.
Definition capital (c : ascii) : ascii :=
  if between 97 122 c then ascii_of_N (code c - 32) else c.
(** Fill characters that do not occur in a number. *)
Definition clear_fill (c : ascii) : Prop := digit c = None /\ is_x c = false.
