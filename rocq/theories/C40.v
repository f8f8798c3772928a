(** * C40: the error-free sum *)
From Coq Require Import ZArith NArith Reals Bool Lra.
From Flocq Require Import Core.Core IEEE754.BinarySingleNaN.
From Verif Require Import Fmt Spec FloatFacts Exc Deco SpecApi MBase PBase Ex SpecCancel MCancel PTwoSum PTwoSumX.
Local Open Scope R_scope.

(** For all finite operands: the first component is the sum rounded to nearest
    even; the second component is the exact error or NaN, never a wrong number. *)
Theorem C40_never_wrong : forall (F : fmt) (a b s e : float F), is_finite a = true -> is_finite b = true ->
  two_sum a b = (s, e) ->
  (is_finite s = true -> B2R s = round radix2 (fexp F) ZnearestE (B2R a + B2R b)) /\
  (e <> fnan -> is_finite s = true /\ is_finite e = true /\ B2R s + B2R e = B2R a + B2R b).
Proof. exact @two_sum_never_wrong. Qed.
Print Assumptions C40_never_wrong.

(** The property with one case missing: the first operand is the largest finite
    number of the format or its negative. *)
Theorem C40_exact_partial : forall (F : fmt) (a b s e : float F), is_finite a = true -> is_finite b = true ->
  not_max a -> two_sum a b = (s, e) -> is_finite s = true ->
  is_finite e = true /\ B2R s + B2R e = B2R a + B2R b.
Proof. exact @two_sum_exact. Qed.
Print Assumptions C40_exact_partial.

(** When the rounded sum is not finite it is the infinity of the right sign. *)
Theorem C40_overflow : forall (F : fmt) (a b s e : float F), is_finite a = true -> is_finite b = true ->
  two_sum a b = (s, e) -> is_finite s = false ->
  bpow radix2 (emax F) <= Rabs (round radix2 (fexp F) ZnearestE (B2R a + B2R b)) /\
  ((s = finf /\ 0 < B2R a + B2R b) \/ (s = fminf /\ B2R a + B2R b < 0)).
Proof. exact @two_sum_overflow. Qed.
Print Assumptions C40_overflow.

(** In the missing case the error term can be NaN although the sum is finite:
    a = DBL_MAX, b = -1.5 ulp(DBL_MAX).  The second step s - b overflows. *)
Theorem C40_exact_refuted : exists a b s : float binary64, is_finite a = true /\ is_finite b = true /\
  two_sum a b = (s, fnan) /\ is_finite s = true.
Proof.
exists (@fmaxv binary64), (fl binary64 (-3) 970), (fl binary64 (2^53 - 2) 971).
split; [reflexivity|]. split; [reflexivity|]. split; [|reflexivity].
unfold two_sum. f_equal; apply B2SF_inj; vm_compute; reflexivity.
Qed.
Print Assumptions C40_exact_refuted.

(** The same in the other two formats. *)
Theorem C40_exact_refuted_32_80 :
  (exists a b s : float binary32, is_finite a = true /\ is_finite b = true /\ two_sum a b = (s, fnan) /\ is_finite s = true) /\
  (exists a b s : float binary80, is_finite a = true /\ is_finite b = true /\ two_sum a b = (s, fnan) /\ is_finite s = true).
Proof.
split.
- exists (@fmaxv binary32), (fl binary32 (-3) 103), (fl binary32 (2^24 - 2) 104).
  split; [reflexivity|]. split; [reflexivity|]. split; [|reflexivity].
  unfold two_sum. f_equal; apply B2SF_inj; vm_compute; reflexivity.
- exists (@fmaxv binary80), (fl binary80 (-3) 16319), (fl binary80 (2^64 - 2) 16320).
  split; [reflexivity|]. split; [reflexivity|]. split; [|reflexivity].
  unfold two_sum. f_equal; apply B2SF_inj; vm_compute; reflexivity.
Qed.
Print Assumptions C40_exact_refuted_32_80.

(** Exactly when it is exact, for every format: the error term of a finite sum is lost if and only if
    the first operand is the largest number (or its negative) and the second an odd multiple of
    half its last place, opposite in sign, of the form 2k + 3/2 places, at which the sum is a
    tie that is rounded away from the second operand. *)
Theorem C40_exact_iff : forall (F : fmt) (a b s e : float F), is_finite a = true -> is_finite b = true ->
  two_sum a b = (s, e) -> is_finite s = true ->
  (is_finite e = true /\ B2R s + B2R e = B2R a + B2R b <->
   ~ exists k, (0 <= k /\ 2 * k + 2 < 2 ^ (prec F - 1))%Z /\
    (B2R a = B2R (@fmaxv F) /\ B2R b = - (2 * IZR k + 3 / 2) * bpow radix2 (emax F - prec F) \/
     B2R a = - B2R (@fmaxv F) /\ B2R b = (2 * IZR k + 3 / 2) * bpow radix2 (emax F - prec F))).
Proof. exact @two_sum_exact_iff. Qed.
Print Assumptions C40_exact_iff.

Example C40_ex :
  sf2 (two_sum (fl binary64 1 0) (fl binary64 1 (-60))) = sf2 (fl binary64 1 0, fl binary64 1 (-60))
  /\ sf2 (two_sum (fl binary64 1 (-60)) (fl binary64 1 0)) = sf2 (fl binary64 1 0, fl binary64 1 (-60))
  /\ sf2 (two_sum (fl binary64 (2^53-1) 0) (fl binary64 3 (-1))) = sf2 (fl binary64 (2^53) 0, fl binary64 1 (-1))
  /\ sf2 (two_sum (fl binary64 1 (-1074)) (fl binary64 3 (-1074))) = sf2 (fl binary64 4 (-1074), @f0 binary64)
  /\ sf2 (two_sum (@fmaxv binary64) (@fmaxv binary64)) = (B2SF (@finf binary64), B2SF (@fnan binary64)).
Proof. repeat (split; [vm_compute; reflexivity|]). vm_compute; reflexivity. Qed.
Example C40_ex_not_max : not_max (fl binary64 1 (-60)).
Proof. unfold not_max. rewrite Rabs_pos_eq by b2r. b2r. Qed.
