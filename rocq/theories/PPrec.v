(** * Proofs: the precision asked of the printing functions *)
From Coq Require Import ZArith NArith Reals Bool Ascii String List.
From Flocq Require Import Core.Core IEEE754.BinarySingleNaN.
From Verif Require Import Fmt Spec Exc SpecApi MBase MStream MText MPrint PPrint PPrint2 SpecPrec.

Lemma asked_hex p : asked None p = precision_of r_hex p. Proof. now destruct p. Qed.
Lemma asked_decimal p : asked (Some 6%nat) p = precision_of r_decimal p. Proof. now destruct p. Qed.
Lemma asked_scientific p : asked (Some 6%nat) p = precision_of r_scientific p. Proof. now destruct p. Qed.
Lemma hex_asked (F : fmt) (m : mode) (w p : N) (up : bool) (x : float F) :
  (emax F <= 2 ^ 62)%Z -> (4 * Z.of_N p <= prec F + 3)%Z ->
  returns (get_str (@setup_env F) m r_hex w p up x) (sprintf (N.to_nat w) c_a up m (asked None p) x).
Proof. rewrite asked_hex. apply hex_fits. Qed.
Lemma decimal_asked (F : fmt) (m : mode) (w p : N) (up : bool) (x : float F) :
  is_finite x = true -> (ndig 10 (2 ^ emax F) + N.to_nat (digits_after p) + 2 <= N.to_nat w)%nat ->
  returns (get_str (@setup_env F) m r_decimal w p up x) (sprintf (N.to_nat w) c_f up m (asked (Some 6%nat) p) x).
Proof. rewrite asked_decimal. apply decimal_wide. Qed.
Lemma scientific_asked (F : fmt) (m : mode) (w p : N) (up : bool) (x : float F) :
  is_finite x = true -> (Nat.max 2 (ndig 10 (emax F + prec F)) + N.to_nat (digits_after p) + 5 <= N.to_nat w)%nat ->
  returns (get_str (@setup_env F) m r_scientific w p up x) (sprintf (N.to_nat w) c_e up m (asked (Some 6%nat) p) x).
Proof. rewrite asked_scientific. apply scientific_wide. Qed.
