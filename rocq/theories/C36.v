(** * C36: printing a number never writes outside its buffer

    [returns]: the call stays inside the buffer and delivers the text of mpfr_sprintf.  An
    access behind the buffer is the outcome [UB].  Exponents of MPFR are below 2^62. *)
From Coq Require Import ZArith NArith Reals Bool Ascii String List.
From Flocq Require Import Core.Core IEEE754.BinarySingleNaN.
From Verif Require Import Fmt Spec Exc SpecApi MBase MStream MText MPrint PPrint PPrint2 SpecPrec PPrec Ex.
Import ListNotations.
Notation env F := (@setup_env F).

(** Hexadecimal form, all values, widths, directions: without a precision (0), or with one that
    does not exceed the digits of the format.  Missing: greater precisions and the other
    forms, for which it is false (below). *)
Theorem C36_hex_partial : forall (F : fmt) (m : mode) (w p : N) (up : bool) (x : float F),
  (emax F <= 2 ^ 62)%Z -> (4 * Z.of_N p <= prec F + 3)%Z ->
  returns (get_str (env F) m r_hex w p up x) (sprintf (N.to_nat w) c_a up m (asked None p) x).
Proof. exact hex_asked. Qed.
Print Assumptions C36_hex_partial.
(** All forms, when the width asked for is large enough for every number of the format. *)
Theorem C36_decimal_wide_partial : forall (F : fmt) (m : mode) (w p : N) (up : bool) (x : float F),
  is_finite x = true -> (ndig 10 (2 ^ emax F) + N.to_nat (digits_after p) + 2 <= N.to_nat w)%nat ->
  returns (get_str (env F) m r_decimal w p up x) (sprintf (N.to_nat w) c_f up m (asked (Some 6%nat) p) x).
Proof. exact decimal_asked. Qed.
Print Assumptions C36_decimal_wide_partial.
Theorem C36_scientific_wide_partial : forall (F : fmt) (m : mode) (w p : N) (up : bool) (x : float F),
  is_finite x = true -> (Nat.max 2 (ndig 10 (emax F + prec F)) + N.to_nat (digits_after p) + 5 <= N.to_nat w)%nat ->
  returns (get_str (env F) m r_scientific w p up x) (sprintf (N.to_nat w) c_e up m (asked (Some 6%nat) p) x).
Proof. exact scientific_asked. Qed.
Print Assumptions C36_scientific_wide_partial.

(** In the decimal and the scientific form every finite number overruns the buffer, unless
    the width asked for is larger than the precision. *)
Theorem C36_decimal_overrun : forall (F : fmt) (m : mode) (w p : N) (up : bool) (x : float F) (s : est),
  (emax F <= 2 ^ 62)%Z -> is_finite x = true -> (p < 2 ^ 32)%N -> (w <= digits_after p + 1)%N ->
  get_str (env F) m r_decimal w p up x s = (UB, s).
Proof. exact decimal_overflow. Qed.
Print Assumptions C36_decimal_overrun.
Theorem C36_scientific_overrun : forall (F : fmt) (m : mode) (w p : N) (up : bool) (x : float F) (s : est),
  is_finite x = true -> (p < 2 ^ 32)%N -> (w <= digits_after p + 5)%N ->
  get_str (env F) m r_scientific w p up x s = (UB, s).
Proof. exact scientific_overflow. Qed.
Print Assumptions C36_scientific_overrun.
Theorem C36_hex_overrun : forall (F : fmt) (m : mode) (w p : N) (up : bool) (x : float F) (s : est),
  (emax F <= 2 ^ 62)%Z -> is_finite x = true -> (2 * prec F + 69 <= Z.of_N p)%Z -> (w <= p)%N ->
  get_str (env F) m r_hex w p up x s = (UB, s).
Proof. exact hex_overflow. Qed.
Print Assumptions C36_hex_overrun.
(** Writing an interval with the default manipulators overruns the buffer whatever the
    interval, unless it is empty or entire. *)
Theorem C36_default_output_refuted : forall (F : fmt) (o : ostream) (x : itv F) (s : est),
  (emax F <= 2 ^ 62)%Z -> (exists r, mem r x) -> (exists r, ~ mem r x) ->
  fst (write_itv o default_manip x s) = UB.
Proof. exact @default_output_ub. Qed.
Print Assumptions C36_default_output_refuted.

(** The property as stated is false of every form. *)
Theorem C36_refuted : forall r : number_rep, exists (w p : N) (up : bool) (x : float binary64),
  forall m s, get_str (env binary64) m r w p up x s = (UB, s).
Proof.
intros [ | | | ].
- exists 0%N, 0%N, false, (fl binary64 1 0). intros m s. now apply default_overflow.
- exists 0%N, 0%N, false, (fl binary64 1 0). intros m s. now apply decimal_overflow.
- exists 0%N, 0%N, false, (fl binary64 1 0). intros m s. now apply scientific_overflow.
- exists 0%N, 200%N, false, (fl binary64 1 0). intros m s. now apply hex_overflow.
Qed.
Print Assumptions C36_refuted.

Example C36_example_hex : sprintf 0 c_a true mode_DN (asked None 0) (fl binary64 (-1) (-1074)) = txt "-0X4P-1076".
Proof. vm_compute. reflexivity. Qed.
Example C36_example_hex_fits : returns (get_str (env binary64) mode_DN r_hex 0 0 true (fl binary64 (-1) (-1074))) (txt "-0X4P-1076").
Proof. rewrite <- C36_example_hex. now apply C36_hex_partial. Qed.
Example C36_example_wide : returns (get_str (env binary64) mode_UP r_decimal 400 3 true (fl binary64 3 (-1)))
  (sprintf 400 c_f true mode_UP (Some 3%nat) (fl binary64 3 (-1))).
Proof. apply (C36_decimal_wide_partial binary64 mode_UP 400 3); [reflexivity|]. apply Nat.leb_le. vm_compute. reflexivity. Qed.
Example C36_example_default : exists r, mem (F := binary64) r (fl binary64 1 0, fl binary64 2 0).
Proof. exists 1%R. apply mem_pt; try reflexivity. cbn. unfold F2R; cbn. Lra.lra. Qed.
