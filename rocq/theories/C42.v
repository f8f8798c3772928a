(** * C42: an interval written in the uncertain form is enclosed by what the text denotes

    [write_any get (Some k) sci o f x]: the text [os << x] writes in the uncertain form [k]
    (both sides, up, down), scientific or decimal, for the state [o] of the stream and the
    manipulators [f].  [code_get] is the conversion of a number as it is in the code;
    [ample_get] is the same with a buffer that is long enough. *)
From Coq Require Import ZArith NArith Reals Bool Ascii String List Lia Lra.
From Flocq Require Import Core.Core IEEE754.BinarySingleNaN.
From Verif Require Import Fmt Spec Exc Deco SpecApi MBase MStream MDecoIo MText MPrint MRegex MRead MUncertain SpecDecoText SpecLiteral SpecUncertain SpecRead PPrint PPrint2 PTrip4 PUncert PUncert2 PUncert4 PUncert5 PUncert6 Ex.
Import ListNotations.
Local Open Scope list_scope.

Definition decoration_kept {F : fmt} (x y : ditv F) : Prop :=
  snd y = snd x \/ (snd x = com /\ snd y = dac /\ ~ bounded_rep (fst y)).
Definition blank_padding (o : ostream) : Prop := (o_width o <= 1)%N \/ blank (o_fill o).

(** ** The code: every interval that is not empty overruns a buffer (see C36) *)
Theorem C42_refuted : forall (F : fmt) (k : side) (sci : bool) (o : ostream) (f : manip) (x : itv F) (e : est),
  (emax F <= 2 ^ 62)%Z -> (m_precision f < 2 ^ 32)%N -> (exists r, mem r x) ->
  fst (write_any code_get (Some k) sci o f x e) = UB.
Proof. exact uncertain_ub. Qed.
Print Assumptions C42_refuted.
Theorem C42_decorated_refuted : forall (F : fmt) (k : side) (sci : bool) (o : ostream) (f : manip) (x : ditv F) (e : est),
  (emax F <= 2 ^ 62)%Z -> (m_precision f < 2 ^ 32)%N -> wf_dec x -> (exists r, mem r (fst x)) ->
  fst (write_ditv_any code_get (Some k) sci o f x e) = UB.
Proof. exact uncertain_ub_dec. Qed.
Print Assumptions C42_decorated_refuted.

(** ** With a buffer that is long enough *)
(** The text is a literal, between blanks, that encloses x.  Missing: the buffer, and for both
    sides in scientific form a precision too small for the exponents of the format ([roomy]),
    where it is false (below). *)
Theorem C42_encloses_partial : forall (F : fmt) (k : side) (sci : bool) (o : ostream) (f : manip) (x : itv F) (t : text) (e e' : est),
  (emax F + prec F <= 2 ^ 26)%Z -> (exists r, mem r x) -> (m_precision f <= 2 ^ 26)%N -> blank_padding o ->
  (k = u_both -> roomy F sci (digits_of (m_precision f))) ->
  write_any ample_get (Some k) sci o f x e = (Ret t, e') ->
  e' = e /\ exists a t0 b, t = a ++ t0 ++ b /\ SpecLiteral.blanks a /\ SpecLiteral.blanks b /\
    (bounded_rep x -> bounded_text k sci (digits_of (m_precision f)) x t0) /\
    (~ bounded_rep x -> unbounded_text sci (digits_of (m_precision f)) x t0).
Proof. exact (fun F k sci o f x t e e' Hs => write_any_text F Hs k sci o f x t e e'). Qed.
Print Assumptions C42_encloses_partial.
(** The library reads it back as an interval that encloses x. *)
Theorem C42_read_back_partial : forall (F : fmt) (k : side) (sci : bool) (o : ostream) (f : manip) (x : itv F) (t : text) (e e' : est),
  (emax F + prec F <= 2 ^ 26)%Z -> (exists r, mem r x) -> (m_precision f <= 2 ^ 26)%N -> blank_padding o ->
  (k = u_both -> roomy F sci (digits_of (m_precision f))) ->
  write_any ample_get (Some k) sci o f x e = (Ret t, e') -> moderate t ->
  exists z, returns (text_to_interval t) z /\ wf z /\ included x z /\ ((forall r, mem r x) -> same_set x z).
Proof. exact (fun F k sci o f x t e e' Hs => uncertain_back F Hs k sci o f x t e e'). Qed.
Print Assumptions C42_read_back_partial.
Theorem C42_decorated_read_back_partial : forall (F : fmt) (k : side) (sci : bool) (o : ostream) (f : manip) (x : ditv F) (t : text) (e e' : est),
  (emax F + prec F <= 2 ^ 26)%Z -> wf_dec x -> (exists r, mem r (fst x)) -> (exists j, snd x = byte j) -> (m_precision f <= 2 ^ 26)%N ->
  m_punct f = true -> (o_width o <= 1)%N -> (o_dec_numeric o = true -> o_base o = b_dec) ->
  (k = u_both -> roomy F sci (digits_of (m_precision f))) ->
  write_ditv_any ample_get (Some k) sci o f x e = (Ret t, e') -> moderate t ->
  exists y, returns (text_to_decorated_interval t) y /\ included (fst x) (fst y) /\ decoration_kept x y /\
    ((forall r, mem r (fst x)) -> same_set (fst x) (fst y) /\ snd y = snd x).
Proof. exact (fun F k sci o f x t e e' Hs => uncertain_back_dec F Hs k sci o f x t e e'). Qed.
Print Assumptions C42_decorated_read_back_partial.

(** When the decimal form is written: the bounds with all digits asked for are numbers of at
    most 18 digits; with 20 digits or more there is no text (std::stoll). *)
Theorem C42_decimal_returns_partial : forall (F : fmt) (k : side) (o : ostream) (f : manip) (x : itv F),
  (exists r, mem r x) -> bounded_rep x ->
  (Rabs (B2R (fst x) * bpow radix10 (Z.of_nat (digits_of (m_precision f)))) <= 10 ^ 18)%R ->
  (Rabs (B2R (snd x) * bpow radix10 (Z.of_nat (digits_of (m_precision f)))) <= 10 ^ 18)%R ->
  exists t, returns (write_any ample_get (Some k) false o f x) t.
Proof. exact decimal_returns. Qed.
Print Assumptions C42_decimal_returns_partial.
Theorem C42_decimal_fails : forall (F : fmt) (k : side) (o : ostream) (f : manip) (x : itv F) (t : text) (e e' : est),
  (exists r, mem r x) -> bounded_rep x ->
  (10 ^ 19 < Rabs (B2R (fst x) * bpow radix10 (Z.of_nat (digits_of (m_precision f)))) \/
   10 ^ 19 < Rabs (B2R (snd x) * bpow radix10 (Z.of_nat (digits_of (m_precision f)))))%R ->
  write_any ample_get (Some k) false o f x e <> (Ret t, e').
Proof. exact (fun F k o f x t e e' => decimal_fails F k o f x e t e'). Qed.
Print Assumptions C42_decimal_fails.
(** Without the uncertain form the output is that of C41. *)
Theorem C42_none : forall (F : fmt) get (sci : bool) (o : ostream) (f : manip) (x : itv F) (y : ditv F) (e : est), wf_dec y ->
  write_any get None sci o f x = write_itv o f x /\ write_ditv_any get None sci o f y e = write_ditv o f y e.
Proof. intros F get sci o f x y e W. split; [apply no_uncertain|now apply no_uncertain_dec]. Qed.
Print Assumptions C42_none.

(** ** What is wrong apart from the buffer *)
Definition fp (p : N) : manip := Manip r_decimal 0 p s_text true 0.
Definition iv (m e n d : Z) : itv binary64 := (fl binary64 m e, fl binary64 n d).
(** Precision 2, both sides, scientific: [-1/64, 3/64] is written as 1.56?158e-02, the
    interval [-0.0002, 0.0314], which contains neither bound. *)
Theorem C42_scientific_refuted : exists (x : itv binary64) (t : text) (c w : R),
  returns (write_any ample_get (Some u_both) true plain_o (fp 2) x) t /\ bare t (band true true c w) com /\
  bounded_rep x /\ ~ band true true c w (B2R (fst x)) /\ ~ band true true c w (B2R (snd x)).
Proof.
exists (iv (-1) (-6) 3 (-6)), (txt "1.56?158e-02"), (IZR (1 * 156) * unit10 (Some (-2)%Z) 2)%R, (IZR 158 * unit10 (Some (-2)%Z) 2)%R.
split; [|split; [|split]].
- intros e. reflexivity.
- apply (literal_units false 2 156 false (Some (-2)%Z) u_both false 158); cbn; lia.
- now split.
- unfold unit10, bpow, ex, band, between_bounds, moved_bound, option_map. cbn. unfold F2R. cbn. lra.
Qed.
Print Assumptions C42_scientific_refuted.
(** Precision 1: std::stoi is called on "+". *)
Theorem C42_precision_refuted : exists x : itv binary64, bounded_rep x /\ (exists r, mem r x) /\ forall e,
  write_any ample_get (Some u_both) true plain_o (fp 1) x e = (Throw Invalid_argument, e).
Proof.
exists (iv 1 0 2 0). split; [now split|]. split; [|intros e; reflexivity]. exists 1%R. apply mem_pt; try reflexivity. cbn. unfold F2R; cbn. lra.
Qed.
Print Assumptions C42_precision_refuted.
(** Bounds of very different size, default precision: an exception (no digit is left). *)
Theorem C42_exponents_refuted : exists x : itv binary64, bounded_rep x /\ (exists r, mem r x) /\ forall e,
  write_any ample_get (Some u_both) true plain_o (fp 0) x e = (Throw Invalid_argument, e) /\
  write_any ample_get (Some u_down) true plain_o (fp 0) x e = (Throw Invalid_argument, e).
Proof.
exists (iv (-1) (-24) 1 0). split; [now split|]. split; [|intros e; split; reflexivity]. exists 1%R. apply mem_pt; try reflexivity. cbn. unfold F2R; cbn. lra.
Qed.
Print Assumptions C42_exponents_refuted.

(** ** Examples *)
Definition example_x : itv binary64 := iv 1 (-3) 3 0.
Lemma example_mem : mem 1%R example_x.
Proof. apply mem_pt; try reflexivity. cbn. unfold F2R; cbn. lra. Qed.
Lemma example_small : (emax binary64 + prec binary64 <= 2 ^ 26)%Z.
Proof. apply Z.leb_le. reflexivity. Qed.
Example C42_example_texts :
  returns (write_any ample_get (Some u_both) false plain_o (fp 2) example_x) (txt "1.56?144") /\
  returns (write_any ample_get (Some u_up) false plain_o (fp 2) example_x) (txt "0.12?288u") /\
  returns (write_any ample_get (Some u_down) false plain_o (fp 2) example_x) (txt "3.00?288d") /\
  returns (write_any ample_get (Some u_both) true plain_o (fp 4) example_x) (txt "1.5625?14375e+00") /\
  returns (write_any ample_get (Some u_up) true plain_o (fp 0) (fl binary64 1 0, finf)) (txt "1.000000??ue+00") /\
  returns (write_any ample_get (Some u_both) false plain_o (fp 0) ((fminf, finf) : itv binary64)) (txt "0.000000??") /\
  returns (write_ditv_any ample_get (Some u_both) false plain_o (fp 2) (example_x, com)) (txt "1.56?144_com").
Proof. repeat split; intros e; reflexivity. Qed.
Example C42_example_roomy : roomy binary64 true (digits_of 4).
Proof. intros _. split; [cbn; lia|]. apply Z.ltb_lt. reflexivity. Qed.
Example C42_example_read : exists z, returns (text_to_interval (F := binary64) (txt "1.5625?14375e+00")) z /\ included example_x z.
Proof.
destruct (C42_read_back_partial binary64 u_both true plain_o (fp 4) example_x (txt "1.5625?14375e+00") (Est 0 0) (Est 0 0) example_small) as (z & Y & _ & I & _).
- exists 1%R. apply example_mem.
- cbn; lia.
- now left.
- intros _. apply C42_example_roomy.
- reflexivity.
- unfold moderate. cbn. lia.
- now exists z.
Qed.
Example C42_example_least : bounded_text u_both false 2 example_x (txt "1.56?144").
Proof.
destruct (C42_encloses_partial binary64 u_both false plain_o (fp 2) example_x (txt "1.56?144") (Est 0 0) (Est 0 0) example_small) as (_ & a & t0 & b & E & A & B & H & _).
- exists 1%R. apply example_mem.
- cbn; lia.
- now left.
- intros _. easy.
- reflexivity.
- assert (t0 = txt "1.56?144") as <-; [|apply H; now split].
  assert (Bd : bounded_text u_both false (digits_of (m_precision (fp 2))) example_x t0) by (apply H; now split). pose proof (bounded_nonempty binary64 _ _ _ _ _ Bd) as Nt.
  destruct a as [|c a]; [|injection E as <- _; inversion A as [|? ? K]; subst; cbn in K; now (repeat destruct K as [K|K])].
  cbn [app] in E. destruct b as [|c b]; [now rewrite app_nil_r in E|].
  exfalso. assert (L : last (txt "1.56?144") "0"%char = last (c :: b) "0"%char). { rewrite E. clear. induction t0 as [|d t0 IH]; [easy|]. cbn [app]. rewrite <- IH. now destruct (t0 ++ c :: b) eqn:Q; [destruct t0|]. }
  clear -B L. assert (I : In (last (c :: b) "0"%char) (c :: b)) by (clear; generalize c; induction b as [|d b IH]; intros c'; [now left|right; apply IH]).
  unfold SpecLiteral.blanks in B. rewrite Forall_forall in B. apply B in I. rewrite <- L in I. cbn in I. now (repeat destruct I as [I|I]).
Qed.
Example C42_example_fails : (10 ^ 19 < Rabs (B2R (fst (iv 1 44 1 44)) * bpow radix10 (Z.of_nat (digits_of 0))))%R /\
  write_any ample_get (Some u_both) false plain_o (fp 0) (iv 1 44 1 44) (Est 0 0) = (Throw Out_of_range, Est 0 0).
Proof. split; [|vm_compute; reflexivity]. change (Z.of_nat (digits_of 0)) with 6%Z. cbn. unfold F2R; cbn. rewrite Rabs_pos_eq; lra. Qed.
