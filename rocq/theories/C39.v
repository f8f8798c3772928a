(** * C39: each bound is rounded once, whatever happened before *)
From Coq Require Import ZArith Reals Bool List Lia Lra.
From Flocq Require Import Core.Core IEEE754.BinarySingleNaN.
From Verif Require Import Fmt FloatFacts SpecRound MMpfr PMpfr PMpfr2 PConv MNum.
Import ListNotations.
Local Open Scope R_scope.

(** setup(); function; subnormalize(); get(): one rounding of the exact result.
    (The library never uses rounding to nearest with ties away.) *)
Theorem C39_pipeline : forall (F : fmt) (m : mode) (v : R) (E : genv), m <> mode_NA ->
  rounded m v (fst (pipeline F m v E)).
Proof. exact @pipeline_rounded. Qed.
Print Assumptions C39_pipeline.

(** Any program of such calls, with any formats, from any global exponent range. *)
Theorem C39_history : forall (l : list call) (E : genv), (forall c, In c l -> c_mode c <> mode_NA) ->
  Forall2 (fun c z => exists y : float (c_fmt c), z = existT _ (c_fmt c) y /\ rounded (c_mode c) (c_val c) y)
    l (fst (calls l E)).
Proof. exact calls_rounded. Qed.
Print Assumptions C39_history.

(** The result does not depend on the state left behind by other calls. *)
Theorem C39_independent : forall (F : fmt) (m : mode) (v : R) (l : list call) (E E' : genv),
  fst (pipeline F m v (snd (calls l E))) = fst (pipeline F m v E').
Proof. exact @pipeline_indep. Qed.
Print Assumptions C39_independent.

(** Without subnormalize (cancel_minus): directed rounding only. *)
Theorem C39_no_subnormalize : forall (F : fmt) (m : mode) (v : R) (E : genv), m <> mode_NA -> m <> mode_NE ->
  rounded m v (fst (pipeline_raw F m v E)).
Proof. exact @pipeline_raw_rounded. Qed.
Print Assumptions C39_no_subnormalize.
(** Rounding to nearest would be rounded twice: 2^emin * (3/2 - 2^-p) lies nearest to 2^emin. *)
Theorem C39_subnormalize_needed : forall (F : fmt) (E : genv),
  let v := bpow radix2 (emin F) * (3 / 2 - bpow radix2 (- prec F - 1)) in
  ~ rounded mode_NE v (fst (pipeline_raw F mode_NE v E)).
Proof. exact @raw_double_rounding. Qed.
Print Assumptions C39_subnormalize_needed.

(** mid: three operations in a wider exponent range, one rounding altogether. *)
Theorem C39_mid : forall (F : fmt) (a b : float F) (E : genv), is_finite a = true -> is_finite b = true ->
  rounded mode_NE ((B2R a + B2R b) / 2) (fst (mid_pipeline F (B2R a) (B2R b) E)).
Proof. exact @mid_rounded. Qed.
Print Assumptions C39_mid.
Theorem C39_mid_mixed : forall (F G : fmt) (a b : float G) (E : genv), comparable F G ->
  is_finite a = true -> is_finite b = true ->
  rounded mode_NE ((B2R a + B2R b) / 2) (fst (mid_pipeline_mixed F G (B2R a) (B2R b) E)).
Proof. exact @mid_mixed_rounded. Qed.
Print Assumptions C39_mid_mixed.

(** The operations of the model of the flavor are these pipelines. *)
Theorem C39_add : forall (F : fmt) (m : mode) (a b : float F) (E : genv), m <> mode_NA ->
  is_finite a = true -> is_finite b = true -> same_number (radd m a b) (fst (pipeline F m (B2R a + B2R b) E)).
Proof. exact @add_pipeline. Qed.
Theorem C39_sub : forall (F : fmt) (m : mode) (a b : float F) (E : genv), m <> mode_NA ->
  is_finite a = true -> is_finite b = true -> same_number (rsub m a b) (fst (pipeline F m (B2R a - B2R b) E)).
Proof. exact @sub_pipeline. Qed.
Theorem C39_mul : forall (F : fmt) (m : mode) (a b : float F) (E : genv), m <> mode_NA ->
  is_finite a = true -> is_finite b = true -> same_number (rmul m a b) (fst (pipeline F m (B2R a * B2R b) E)).
Proof. exact @mul_pipeline. Qed.
Theorem C39_div : forall (F : fmt) (m : mode) (a b : float F) (E : genv), m <> mode_NA ->
  is_finite a = true -> is_finite b = true -> B2R b <> 0 -> same_number (rdiv m a b) (fst (pipeline F m (B2R a / B2R b) E)).
Proof. exact @div_pipeline. Qed.
Theorem C39_fma : forall (F : fmt) (m : mode) (a b c : float F) (E : genv), m <> mode_NA ->
  is_finite a = true -> is_finite b = true -> is_finite c = true ->
  same_number (rfma m a b c) (fst (pipeline F m (B2R a * B2R b + B2R c) E)).
Proof. exact @fma_pipeline. Qed.
Theorem C39_sqrt : forall (F : fmt) (m : mode) (a : float F) (E : genv), m <> mode_NA ->
  is_finite a = true -> 0 <= B2R a -> same_number (rsqrt m a) (fst (pipeline F m (sqrt (B2R a)) E)).
Proof. exact @sqrt_pipeline. Qed.
Theorem C39_function : forall (F : fmt) (m : mode) (sz : bool) (r : R) (E : genv), m <> mode_NA ->
  same_number (rround m sz r) (fst (pipeline F m r E)).
Proof. exact @rround_pipeline. Qed.
Theorem C39_half_sum : forall (F : fmt) (a b : float F) (E : genv),
  is_finite a = true -> is_finite b = true -> same_number (half_sum F a b) (fst (mid_pipeline F (B2R a) (B2R b) E)).
Proof. exact @half_sum_pipeline. Qed.
Theorem C39_half_sum_mixed : forall (F G : fmt) (a b : float G) (E : genv), comparable F G ->
  is_finite a = true -> is_finite b = true -> same_number (half_sum F a b) (fst (mid_pipeline_mixed F G (B2R a) (B2R b) E)).
Proof. exact @half_sum_mixed_pipeline. Qed.
Print Assumptions C39_div.
Print Assumptions C39_fma.
Print Assumptions C39_function.
Print Assumptions C39_half_sum_mixed.

(** 2^-200 in binary32 after a double computation: upward the least subnormal number, downward zero. *)
Example C39_example : forall E,
  exists y z w, fst (calls [Call binary64 mode_NE 3; Call binary32 mode_UP (bpow radix2 (-200)); Call binary32 mode_DN (bpow radix2 (-200))] E) =
    [existT _ binary64 y; existT _ binary32 z; existT _ binary32 w] /\ B2R z = bpow radix2 (-149) /\ B2R w = 0.
Proof. exact example_tiny. Qed.
