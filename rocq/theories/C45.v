(** * C45: output manipulators *)
From Coq Require Import ZArith NArith Bool Ascii String List Lia.
From Flocq Require Import Core.Core IEEE754.BinarySingleNaN.
From Verif Require Import Fmt Spec Exc Deco SpecApi SpecDeco MBase PBase MStream MDecoIo MText MPrint MUncertain MOverlap MManip SpecManip PManip PManip2 PManip3 PManip4 Ex.
Import ListNotations.
Local Open Scope Z_scope.

(** ** Settings *)
(** After any sequence of manipulators each group has the setting of its last one, or the one
    it had before; whatever was in the stream, whatever ids xalloc() returned. *)
Theorem C45_latest : forall (k : Z) (ms : list manipulator) (s : stream), let s' := manipulate_all k ms s in
  is_upper k s' = latest chooses_case ms (is_upper k s) /\
  string_width_of k s' = latest chooses_string_width ms (string_width_of k s) /\
  form k s' = latest chooses_form ms (form k s) /\
  number k s' = latest chooses_number ms (number k s) /\
  width_of k s' = latest chooses_width ms (width_of k s) /\
  precision_word k s' = latest chooses_precision ms (precision_word k s) /\
  special k s' = latest chooses_special ms (special k s) /\
  punct k s' = latest chooses_punctuation ms (punct k s) /\
  exponent k s' = latest chooses_exponent ms (exponent k s) /\
  dec_num k s' = latest chooses_dec ms (dec_num k s) /\
  overlapping_num k s' = latest chooses_overlapping ms (overlapping_num k s) /\
  s_fmt s' = s_fmt s.
Proof.
exact (fun k ms s => conj (latest_case k ms s) (conj (latest_string_width k ms s) (conj (latest_form k ms s) (conj (latest_number k ms s)
 (conj (latest_width k ms s) (conj (latest_precision k ms s) (conj (latest_special k ms s) (conj (latest_punct k ms s) (conj (latest_exponent k ms s)
 (conj (latest_dec k ms s) (conj (latest_overlapping k ms s) (fmt_kept k ms s)))))))))))).
Qed.
Print Assumptions C45_latest.
(** The documented defaults. *)
Theorem C45_defaults : forall (k : Z) (o : ostream), let s := fresh o in
  is_upper k s = false /\ string_width_of k s = 0 /\ form k s = None /\ number k s = r_decsci /\
  width_of k s = 0%N /\ precision_word k s = 0%N /\ special k s = s_text /\ punct k s = true /\
  exponent k s = false /\ dec_num k s = false /\ overlapping_num k s = false.
Proof. exact fresh_settings. Qed.
Print Assumptions C45_defaults.
(** The ids belong to a translation unit: manipulators used in one never change what
    another one sees. *)
Theorem C45_other_unit : forall (a b : Z) (ms : list manipulator) (s : stream), a <> b ->
  same_settings (unit_ids b) s (manipulate_all (unit_ids a) ms s).
Proof. exact other_unit. Qed.
Print Assumptions C45_other_unit.
(** So a manipulator need not have an effect on the output that follows. *)
Theorem C45_any_unit_refuted : exists (a b : Z) (s : stream), is_upper (unit_ids b) (manipulate (unit_ids a) p_upper_case s) <> true.
Proof. exists 0, 1, (fresh (Ostream b_dec false false 0 " " a_right false false)). easy. Qed.
Print Assumptions C45_any_unit_refuted.

(** ** Output leaves the settings *)
(** Writing a decorated interval changes nothing but the field width, even if it throws. *)
Theorem C45_restores : forall (F : fmt) get (k : Z) (x : ditv F) (s : stream) (e : est) r e' s',
  int_width k s -> put_dec get k x s e = (r, e', s') ->
  same_words s s' /\ (s_fmt s' = s_fmt s \/ s_fmt s' = no_width (s_fmt s)).
Proof. exact (fun F get k x s e r e' s' => restores_dec get k x s e r e' s'). Qed.
Print Assumptions C45_restores.
Theorem C45_restores_bare : forall (F : fmt) get (k : Z) (x : itv F) (s : stream) (e : est) r e' s',
  put_bare get k x s e = (r, e', s') ->
  same_words s s' /\ (s_fmt s' = s_fmt s \/ s_fmt s' = no_width (s_fmt s)).
Proof. exact (fun F get k x s e r e' s' => steady_bare get k x s e r e' s'). Qed.
Print Assumptions C45_restores_bare.
Definition plain : ostream := Ostream b_dec false false 0 " " a_right false false.
Definition wide (n : N) : stream := manipulate 0 (p_string_width n) (fresh plain).
(** A string width above the range of int is changed by the output (here to -1) ... *)
Theorem C45_restores_refuted : exists (n : N) (x : ditv binary64) t s', (n < 2 ^ 32)%N /\ wf_dec x /\
  writes (put_dec code_get 0 x) (wide n) (Est 0 0) t (Est 0 0) s' /\
  string_width_of 0 (wide n) = Z.of_N n /\ string_width_of 0 s' = -1.
Proof.
exists 4294967295%N, entire_dec, (txt "[entire]_dac"), (set_word 1 (-1) (reset_width (set_word 1 (-5) (wide 4294967295)))).
split; [easy|]. split; [wf_tac|]. now split; [vm_compute|].
Qed.
Print Assumptions C45_restores_refuted.
(** ... or the subtraction overflows. *)
Theorem C45_defined_refuted : exists (n : N) (x : ditv binary64), (n < 2 ^ 32)%N /\ wf_dec x /\
  exists e' s', put_dec code_get 0 x (wide n) (Est 0 0) = (UB, e', s').
Proof.
exists 2147483648%N, entire_dec. split; [easy|]. split; [wf_tac|]. now exists (Est 0 0), (wide 2147483648).
Qed.
Print Assumptions C45_defined_refuted.

(** ** Width of the whole text *)
(** A valid interval is written with at least [string_width] characters. *)
Theorem C45_string_width : forall (F : fmt) get (k : Z) (x : itv F) (s : stream) (e : est) t e' s',
  wf x -> int_width k s -> writes (put_bare get k x) s e t e' s' -> string_width_of k s <= Z.of_nat (length t).
Proof. exact (fun F get k x s e t e' s' Hx Hw => bare_long get k x s e t e' s' Hx (proj2 Hw)). Qed.
Print Assumptions C45_string_width.
Theorem C45_string_width_dec : forall (F : fmt) get (k : Z) (x : ditv F) (s : stream) (e : est) t e' s',
  wf_dec x -> int_width k s -> writes (put_dec get k x) s e t e' s' -> string_width_of k s <= Z.of_nat (length t).
Proof. exact (fun F get k x s e t e' s' => dec_long get k x s e t e' s'). Qed.
Print Assumptions C45_string_width_dec.
(** A larger one is not respected. *)
Theorem C45_string_width_refuted : exists (n : N) (x : itv binary64) t s', (n < 2 ^ 32)%N /\ wf x /\
  writes (put_bare code_get 0 x) (wide n) (Est 0 0) t (Est 0 0) s' /\ Z.of_nat (length t) < Z.of_N n.
Proof.
exists 4294967295%N, empty, (txt "[empty]"), (reset_width (wide 4294967295)). split; [easy|]. split; [wf_tac|]. now split; [vm_compute|].
Qed.
Print Assumptions C45_string_width_refuted.
(** It only adds blanks, in two places, and only as many as necessary. *)
Theorem C45_blanks : forall (F : fmt) get (k : Z) (x : itv F) (s : stream) (n : N) (e : est) t0 e' s',
  wf x -> o_width (s_fmt s) = 0%N -> Z.of_N n < 2 ^ 31 -> Z.of_nat (length t0) < 2 ^ 30 ->
  writes (put_bare get k x) (manipulate k (p_string_width 0) s) e t0 e' s' ->
  exists t s'', writes (put_bare get k x) (manipulate k (p_string_width n) s) e t e' s'' /\ widened (Z.of_N n) t0 t.
Proof. exact (fun F get k x s n e t0 e' s' => bare_wide_n get k x s n e t0 e' s'). Qed.
Print Assumptions C45_blanks.
Theorem C45_blanks_dec : forall (F : fmt) get (k : Z) (x : ditv F) (s : stream) (n : N) (e : est) t0 e' s',
  wf_dec x -> o_width (s_fmt s) = 0%N -> Z.of_N n < 2 ^ 31 -> Z.of_nat (length t0) < 2 ^ 30 ->
  writes (put_dec get k x) (manipulate k (p_string_width 0) s) e t0 e' s' ->
  exists t s'', writes (put_dec get k x) (manipulate k (p_string_width n) s) e t e' s'' /\ widened (Z.of_N n) t0 t.
Proof. exact (fun F get k x s n e t0 e' s' => dec_wide get k x s n e t0 e' s'). Qed.
Print Assumptions C45_blanks_dec.

(** ** Width of the numbers *)
(** The text has room for two numbers of the given width and the punctuation (inf-sup form,
    and the special intervals in all forms). *)
Theorem C45_width : forall (F : fmt) get (k : Z) (x : itv F) (s : stream) (e : est) t e' s',
  wf x -> form k s = None \/ x = empty -> writes (put_bare get k x) s e t e' s' ->
  2 * Z.of_N (width_of k s) + (if punct k s then 3 else 1) <= Z.of_nat (length t).
Proof. exact (fun F get k x s e t e' s' => bare_frame get k x s e t e' s'). Qed.
Print Assumptions C45_width.
Theorem C45_width_dec : forall (F : fmt) get (k : Z) (x : ditv F) (s : stream) (e : est) t e' s',
  wf_dec x -> form k s = None \/ isnan (fst (fst x)) = true -> writes (put_dec get k x) s e t e' s' ->
  2 * Z.of_N (width_of k s) + (if punct k s then 3 else 1) <= Z.of_nat (length t).
Proof. exact (fun F get k x s e t e' s' => dec_frame get k x s e t e' s'). Qed.
Print Assumptions C45_width_dec.
(** Empty and Entire in words take exactly that room, if the numbers have at least three
    characters. *)
Theorem C45_special_width : forall (F : fmt) get (k : Z) (x : itv F) (s : stream) (e : est),
  wf x -> x = empty \/ x = entire -> special k s <> s_bounds -> form k s = None \/ x = empty ->
  (3 <= width_of k s < 2 ^ 29)%N -> o_width (s_fmt s) = 0%N -> int_width k s ->
  exists t, writes (put_bare get k x) s e t e (reset_width s) /\
    Z.of_nat (length t) = Z.max (string_width_of k s) (2 * Z.of_N (width_of k s) + (if punct k s then 3 else 1)).
Proof. exact (fun F get k x s e => special_exact get k x s e). Qed.
Print Assumptions C45_special_width.

(** ** The text itself *)
(** What is written through the stream is the text of the models of C36, C41 and C42. *)
Theorem C45_text : forall (F : fmt) get (k : Z) (x : itv F) (s : stream) (e : est) t e',
  wf x -> int_width k s -> Z.of_nat (length t) < 2 ^ 31 ->
  write_any get (form k s) (exponent k s) (view k s) (manip_of k s) x e = (Ret t, e') ->
  writes (put_bare get k x) s e t e' (reset_width s).
Proof.
intros F get k x s e t e' Hx [Hw1 Hw2] Ht. apply bare_text; [exact Hx|exact Hw2|]. unfold size. lia.
Qed.
Print Assumptions C45_text.
Theorem C45_text_dec : forall (F : fmt) get (k : Z) (x : ditv F) (s : stream) (e : est) t e',
  wf_dec x -> int_width k s -> Z.of_nat (length t) < 2 ^ 31 ->
  write_ditv_any get (form k s) (exponent k s) (view k s) (manip_of k s) x e = (Ret t, e') ->
  exists s', writes (put_dec get k x) s e t e' s'.
Proof. exact (fun F get k x s e t e' => dec_text_eq get k x s e t e'). Qed.
Print Assumptions C45_text_dec.

(** ** Overlapping states *)
(** Alphabetic: the name of the state, in capital letters after upper_case. *)
Theorem C45_overlap_names : forall (k : Z) (s : stream) (e : est) (o : ostate), overlapping_num k s = false -> o_width (s_fmt s) = 0%N ->
  writes (put_overlap k o) s e (if is_upper k s then map capital (txt (state_name o)) else txt (state_name o)) e (reset_width s).
Proof.
intros k s e o H Hw. unfold writes. rewrite overlap_put, overlap_word by exact H. rewrite pad_plain by exact Hw. reflexivity.
Qed.
Print Assumptions C45_overlap_names.
(** The reference says that upper_case capitalises the first character only. *)
Theorem C45_first_character_refuted : exists (o : ostate) t s', let s := manipulate 0 p_upper_case (fresh plain) in
  writes (put_overlap 0 o) s (Est 0 0) t (Est 0 0) s' /\
  t <> match txt (state_name o) with c :: l => capital c :: l | [] => [] end.
Proof. exists o_meets, (txt "MEETS"), (reset_width (manipulate 0 p_upper_case (fresh plain))). now split. Qed.
Print Assumptions C45_first_character_refuted.
(** Different states give different texts, with any width, fill and adjustment. *)
Theorem C45_overlap_distinct : forall (k : Z) (s : stream) (e : est) (o o' : ostate) t s' s'', overlapping_num k s = false ->
  writes (put_overlap k o) s e t e s' -> writes (put_overlap k o') s e t e s'' -> o = o'.
Proof.
intros k s e o o' t s' s'' H. unfold writes. rewrite !overlap_put. intros [= H1 _] [= H2 _].
exact (overlap_word_inj k s o o' H (eq_trans H1 (eq_sym H2))).
Qed.
Print Assumptions C45_overlap_distinct.
(** Numeric: also in any base, unless the fill character looks like part of a number. *)
Theorem C45_overlap_distinct_numeric : forall (k : Z) (s : stream) (e : est) (o o' : ostate) t s' s'', clear_fill (o_fill (s_fmt s)) ->
  writes (put_overlap k o) s e t e s' -> writes (put_overlap k o') s e t e s'' -> o = o'.
Proof.
intros k s e o o' t s' s'' Hf. destruct (overlapping_num k s) eqn:H; [|exact (C45_overlap_distinct k s e o o' t s' s'' H)].
unfold writes. rewrite !overlap_put. intros [= H1 _] [= H2 _]. exact (overlap_number_inj k s o o' H Hf (eq_trans H1 (eq_sym H2))).
Qed.
Print Assumptions C45_overlap_distinct_numeric.
Theorem C45_overlap_fill_refuted : exists (s : stream) (o o' : ostate) t s' s'', o <> o' /\
  writes (put_overlap 0 o) s (Est 0 0) t (Est 0 0) s' /\ writes (put_overlap 0 o') s (Est 0 0) t (Est 0 0) s''.
Proof.
set (s := manipulate 0 p_overlapping_numeric (fresh (Ostream b_dec false false 3 "6" a_right false false))).
exists s, o_second_empty, o_starts, (txt "664"), (reset_width s), (reset_width s). now split; [|split; vm_compute].
Qed.
Print Assumptions C45_overlap_fill_refuted.

(** ** Examples *)
Definition busy : stream := manipulate_all 4
  [p_upper_case; p_string_width 30; p_width 10; p_no_punctuation; p_uncertain_up_form; p_punctuation; p_width 8; p_hex] (fresh plain).
Example C45_ex_settings : is_upper 4 busy = true /\ width_of 4 busy = 8%N /\ punct 4 busy = true /\ form 4 busy = Some u_up /\
  number 4 busy = r_hex /\ string_width_of 4 busy = 30 /\ int_width 4 busy.
Proof. repeat split; vm_compute; congruence. Qed.
Example C45_ex_empty : match put_bare (F := binary64) code_get 4 empty busy (Est 0 0) with
  | (Ret t, _, s') => t = txt "[           EMPTY            ]" /\ string_width_of 4 s' = 30
  | _ => False end.
Proof. vm_compute. now split. Qed.
Example C45_ex_nai : match put_dec (F := binary64) code_get 4 nai busy (Est 0 0) with
  | (Ret t, _, s') => t = txt "[            NAI             ]" /\ string_width_of 4 s' = 30
  | _ => False end.
Proof. vm_compute. now split. Qed.
Example C45_ex_dec : match put_dec (F := binary64) code_get 0 entire_dec (wide 20) (Est 0 0) with
  | (Ret t, _, s') => t = txt "[    entire    ]_dac" /\ string_width_of 0 s' = 20
  | _ => False end.
Proof. vm_compute. now split. Qed.
Example C45_ex_narrow : match put_dec (F := binary64) code_get 0 entire_dec (wide 0) (Est 0 0) with
  | (Ret t, _, _) => t = txt "[entire]_dac" | _ => False end.
Proof. vm_compute. reflexivity. Qed.
Example C45_ex_special : match put_bare (F := binary64) code_get 0 entire (manipulate_all 0 [p_width 5; p_no_punctuation] (fresh plain)) (Est 0 0) with
  | (Ret t, _, _) => t = txt "   entire  " /\ length t = 11%nat | _ => False end.
Proof. vm_compute. now split. Qed.
Example C45_ex_overlap : let s := manipulate 0 p_overlapping_numeric (fresh (Ostream b_hex true false 8 "*" a_internal false false)) in
  clear_fill (o_fill (s_fmt s)) /\ writes (put_overlap 0 o_equal) s (Est 0 0) (txt "0x***200") (Est 0 0) (reset_width s).
Proof. cbv zeta. now split; [|vm_compute]. Qed.
