(** * Proofs: writing overlapping states *)
From Coq Require Import ZArith NArith Bool Ascii String List Lia.
From Verif Require Import Fmt Spec Exc Deco MStream MDecoIo MText MPrint MUncertain MOverlap MManip SpecManip.
Import ListNotations.
Local Open Scope list_scope.
Local Open Scope Z_scope.

Definition states : list ostate :=
  [o_undefined; o_both_empty; o_first_empty; o_second_empty; o_before; o_meets; o_overlaps; o_starts; o_contained_by; o_finishes; o_equal;
   o_finished_by; o_contains; o_started_by; o_overlapped_by; o_met_by; o_after].
Lemma all_states o : In o states. Proof. destruct o; cbn; tauto. Qed.
Lemma each (P : ostate -> bool) : forallb P states = true -> forall o, P o = true.
Proof. intros H o. rewrite forallb_forall in H. apply H, all_states. Qed.
Lemma each2 (P : ostate -> ostate -> bool) : forallb (fun o => forallb (P o) states) states = true -> forall o o', P o o' = true.
Proof. intros H o. apply (each (P o)). revert o. now apply each. Qed.

Definition word (up : bool) (o : ostate) : text :=
  if up then map capital (txt (state_name o)) else txt (state_name o).
Lemma overlap_word k s o : overlapping_num k s = false ->
  write_overlap k s (ostate_code o) = pad (view k s) [] (word (is_upper k s) o).
Proof. intros H. unfold write_overlap. rewrite H. unfold put_text. destruct o, (is_upper k s); reflexivity. Qed.
Lemma overlap_number k s o : overlapping_num k s = true -> write_overlap k s (ostate_code o) = put_unsigned (view k s) (ostate_code o).
Proof. intros H. unfold write_overlap. now rewrite H. Qed.

(** ** Padding loses nothing *)
Fixpoint ends (a b : text) : bool := teq a b || match b with [] => false | _ :: b' => ends a b' end.
Fixpoint begins (a b : text) : bool :=
  match a, b with [], _ => true | x :: a', y :: b' => ceq x y && begins a' b' | _, _ => false end.
Lemma teq_refl a : teq a a = true.
Proof. induction a as [|x a IH]; [easy|]. cbn. rewrite IH, andb_true_r. unfold ceq. apply N.eqb_refl. Qed.
Lemma ends_app a b : ends a (b ++ a) = true.
Proof. induction b as [|x b IH]; [cbn [app]; destruct a as [|y a]; [easy|]; cbn [ends]; now rewrite teq_refl|]. cbn [app ends]. rewrite IH. apply orb_true_r. Qed.
Lemma begins_app a b : begins a (a ++ b) = true.
Proof. induction a as [|x a IH]; [easy|]. cbn. rewrite IH, andb_true_r. unfold ceq. apply N.eqb_refl. Qed.
Lemma app_len {A} (a b c d : list A) : a ++ b = c ++ d -> (length b <= length d)%nat -> exists x, d = x ++ b.
Proof.
  intros H L. pose proof (f_equal (@length A) H) as E. rewrite !app_length in E.
  exists (skipn (length c) a). assert (K : skipn (length c) (a ++ b) = d) by (rewrite H, skipn_app, skipn_all, Nat.sub_diag; reflexivity).
  rewrite <- K, skipn_app. replace (length c - length a)%nat with 0%nat by lia. reflexivity.
Qed.
Lemma app_len' {A} (a b c d : list A) : a ++ b = c ++ d -> (length a <= length c)%nat -> exists x, c = a ++ x.
Proof.
  intros H L. exists (firstn (length c - length a) b). assert (K : firstn (length c) (a ++ b) = c) by (rewrite H, firstn_app, firstn_all, Nat.sub_diag; cbn; apply app_nil_r).
  rewrite <- K at 1. rewrite firstn_app, firstn_all2 by lia. reflexivity.
Qed.
Definition apart (u v : text) : bool := negb (ends u v) && negb (ends v u) && negb (begins u v) && negb (begins v u).
Lemma ends_ex a b : (exists x, b = x ++ a) -> ends a b = true. Proof. intros [x ->]. apply ends_app. Qed.
Lemma begins_ex a b : (exists x, b = a ++ x) -> begins a b = true. Proof. intros [x ->]. apply begins_app. Qed.
Lemma pad_apart o u v : apart u v = true -> pad o [] u <> pad o [] v.
Proof.
  intros H. unfold apart in H. rewrite !andb_true_iff, !negb_true_iff in H. destruct H as [[[H1 H2] H3] H4].
  unfold pad. cbn [app]. intros E.
  assert (K : ends u v = true \/ ends v u = true \/ begins u v = true \/ begins v u = true).
  { destruct (o_adjust o).
    - destruct (Nat.le_ge_cases (length u) (length v)) as [L|L]; [left; apply ends_ex, (app_len _ _ _ _ E L)|right; left; apply ends_ex, (app_len _ _ _ _ (eq_sym E) L)].
    - destruct (Nat.le_ge_cases (length u) (length v)) as [L|L]; [do 2 right; left; apply begins_ex, (app_len' _ _ _ _ E L)|do 3 right; apply begins_ex, (app_len' _ _ _ _ (eq_sym E) L)].
    - destruct (Nat.le_ge_cases (length u) (length v)) as [L|L]; [left; apply ends_ex, (app_len _ _ _ _ E L)|right; left; apply ends_ex, (app_len _ _ _ _ (eq_sym E) L)]. }
  destruct K as [K|[K|[K|K]]]; congruence.
Qed.
Definition same_state (o o' : ostate) : bool := (ostate_code o =? ostate_code o')%N.
Lemma same_state_eq o o' : same_state o o' = true -> o = o'.
Proof. destruct o, o'; easy. Qed.
Lemma words_apart up o o' : same_state o o' || apart (word up o) (word up o') = true.
Proof. revert o o'. destruct up; apply each2; vm_compute; reflexivity. Qed.
Lemma overlap_word_inj k s o o' : overlapping_num k s = false ->
  write_overlap k s (ostate_code o) = write_overlap k s (ostate_code o') -> o = o'.
Proof.
  intros H. rewrite !overlap_word by easy. intros E. pose proof (words_apart (is_upper k s) o o') as K. apply orb_true_iff in K.
  destruct K as [K|K]; [now apply same_state_eq|]. now apply (pad_apart (view k s)) in K.
Qed.

(** ** Numbers *)
Definition number_chars (o : ostream) (n : N) : text * text :=
  match o_base o with
  | b_hex => (if o_showbase o && negb (n =? 0)%N then txt (if o_upper o then "0X" else "0x") else [], digits_of 32 16 (o_upper o) n [])
  | b_oct => ([], (if o_showbase o && negb (n =? 0)%N then txt "0" else []) ++ digits_of 32 8 (o_upper o) n [])
  | _ => ([], digits_of 32 10 (o_upper o) n [])
  end.
Lemma put_unsigned_chars o n : put_unsigned o n = pad o (fst (number_chars o n)) (snd (number_chars o n)).
Proof. unfold put_unsigned, number_chars. destruct (o_base o); reflexivity. Qed.
Definition plain_char (c : ascii) : bool := match digit c with Some _ => true | None => is_x c end.
Lemma filter_spaces (c : ascii) n : filter plain_char (spaces n c) = if plain_char c then spaces n c else [].
Proof. unfold spaces. destruct (plain_char c) eqn:E; (induction n as [|n IH]; [reflexivity|]; cbn [repeat filter]; rewrite E; now rewrite IH). Qed.
Lemma filter_pad o pre t : clear_fill (o_fill o) -> filter plain_char (pad o pre t) = filter plain_char (pre ++ t).
Proof.
  intros [H1 H2]. assert (E : plain_char (o_fill o) = false) by (unfold plain_char; now rewrite H1).
  unfold pad. destruct (o_adjust o); rewrite ?filter_app, filter_spaces, E, ?filter_app, ?app_nil_r; reflexivity.
Qed.
Definition some_streams : list ostream :=
  flat_map (fun b => flat_map (fun sb => map (fun up => Ostream b sb up 0 " " a_right false false) [true; false]) [true; false]) [b_dec; b_oct; b_hex; b_none].
Definition simple (o : ostream) : ostream := Ostream (o_base o) (o_showbase o) (o_upper o) 0 " " a_right false false.
Lemma simple_in o : In (simple o) some_streams.
Proof. destruct o as [b sb up w f a d u]. unfold simple. cbn [o_base o_showbase o_upper]. destruct b, sb, up; cbn; tauto. Qed.
Definition chars (o : ostream) (n : N) : text := filter plain_char (fst (number_chars o n) ++ snd (number_chars o n)).
Lemma chars_simple o n : chars o n = chars (simple o) n.
Proof. reflexivity. Qed.
Lemma numbers_apart : forallb (fun o => forallb (fun a => forallb (fun b => same_state a b || negb (teq (chars o (ostate_code a)) (chars o (ostate_code b)))) states) states) some_streams = true.
Proof. vm_compute. reflexivity. Qed.
Lemma overlap_number_inj k s o o' : overlapping_num k s = true -> clear_fill (o_fill (s_fmt s)) ->
  write_overlap k s (ostate_code o) = write_overlap k s (ostate_code o') -> o = o'.
Proof.
  intros H Hf. rewrite !overlap_number, !put_unsigned_chars by easy. intros E. apply (f_equal (filter plain_char)) in E. rewrite !filter_pad in E by easy.
  fold (chars (view k s) (ostate_code o)) in E. fold (chars (view k s) (ostate_code o')) in E. rewrite (chars_simple _ (ostate_code o)), (chars_simple _ (ostate_code o')) in E.
  pose proof numbers_apart as K. rewrite forallb_forall in K. specialize (K _ (simple_in (view k s))). pose proof (each2 (fun a b => same_state a b || negb (teq (chars (simple (view k s)) (ostate_code a)) (chars (simple (view k s)) (ostate_code b)))) K o o') as J.
  cbv beta in J. rewrite E, teq_refl in J. cbn in J. rewrite orb_false_r in J. now apply same_state_eq.
Qed.
Lemma overlap_put k o s e : put_overlap k o s e = (Ret (write_overlap k s (ostate_code o)), e, reset_width s).
Proof. reflexivity. Qed.
