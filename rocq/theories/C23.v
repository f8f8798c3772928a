(** * C23: cancellative subtraction and addition *)
From Coq Require Import ZArith NArith Reals Bool Lra.
From Flocq Require Import Core.Core IEEE754.BinarySingleNaN.
From Verif Require Import Fmt Spec FloatFacts Exc Deco SpecApi SpecRel MBase PBase Ex MBool MArith PArith PConv MMixed SpecCancel MCancel PTwoSum PCancel SpecBlind PBlind.
Local Open Scope R_scope.

(** Whenever a solution [a,b] of y + [a,b] = x exists the result is the tightest
    interval around it; unbounded and empty operands as documented. *)
Theorem C23_cancel_minus : forall (F : fmt) (x y : itv F), wf x -> wf y ->
  cancel_spec (solves_minus x y) x y (cancel_minus x y).
Proof. exact @cancel_minus_ok. Qed.
Print Assumptions C23_cancel_minus.

(** If no solution exists the result is entire; missing: operands with a bound
    equal to the largest finite number. *)
Theorem C23_cancel_minus_no_solution_partial : forall (F : fmt) (x y : itv F), wf x -> wf y ->
  not_max (snd x) -> not_max (fst y) -> not_max (snd y) ->
  no_solution_entire (solves_minus x y) x y (cancel_minus x y).
Proof. exact @cancel_minus_no. Qed.
Print Assumptions C23_cancel_minus_no_solution_partial.

(** Solutions exist exactly if x is at least as wide as y. *)
Theorem C23_solution_iff : forall (F : fmt) (xl xu yl yu : float F),
  is_finite xl = true -> is_finite xu = true -> is_finite yl = true -> is_finite yu = true ->
  B2R xl <= B2R xu -> B2R yl <= B2R yu ->
  ((exists a b, solves_minus (xl, xu) (yl, yu) a b) <-> B2R yu - B2R yl <= B2R xu - B2R xl) /\
  (forall a b, solves_minus (xl, xu) (yl, yu) a b -> a = B2R xl - B2R yl /\ b = B2R xu - B2R yu).
Proof. exact @solution_iff. Qed.
Print Assumptions C23_solution_iff.

(** In the missing case the result can be wrong: u = ulp(DBL_MAX),
    x = [1.5u, DBL_MAX], y = [-(DBL_MAX-u), 0]: x is narrower than y but the
    result is [DBL_MAX, DBL_MAX]. *)
Theorem C23_no_solution_refuted : exists x y : itv binary64,
  wf x /\ wf y /\ s_nonempty x /\ s_nonempty y /\ set_bounded x /\ set_bounded y /\
  (forall a b, ~ solves_minus x y a b) /\ returns (cancel_minus x y) (@fmaxv binary64, @fmaxv binary64).
Proof. exact cancel_max_refuted. Qed.
Print Assumptions C23_no_solution_refuted.

(** Exactly the operands for which it fails: the compared sums agree after rounding and
    the error term of one of them is lost in the overflow of an intermediate step. *)
Theorem C23_cancel_minus_no_solution_iff : forall (F : fmt) (x y : itv F), wf x -> wf y ->
  s_nonempty x -> s_nonempty y -> set_bounded x -> set_bounded y -> (forall a b, ~ solves_minus x y a b) ->
  (returns (cancel_minus x y) (fminf, finf) <-> ~ blind F x y).
Proof. exact @cancel_minus_entire_iff. Qed.
Print Assumptions C23_cancel_minus_no_solution_iff.
Theorem C23_cancel_plus_no_solution_iff : forall (F : fmt) (x y : itv F), wf x -> wf y ->
  s_nonempty x -> s_nonempty y -> set_bounded x -> set_bounded y -> (forall a b, ~ solves_plus x y a b) ->
  (returns (cancel_plus x y) (fminf, finf) <-> ~ blind F x ((Bopp (snd y), Bopp (fst y)) : itv F)).
Proof. exact @cancel_plus_entire_iff. Qed.
Print Assumptions C23_cancel_plus_no_solution_iff.
(** Mixed bound types: the sums are formed in the widest of the three types. *)
Theorem C23_cancel_minus_mixed_no_solution_iff : forall (T F G : fmt) (x : itv F) (y : itv G),
  comparable T F -> comparable T G -> comparable F G -> wf x -> wf y ->
  s_nonempty x -> s_nonempty y -> set_bounded x -> set_bounded y -> (forall a b, ~ solves_minus x y a b) ->
  (returns (cancel_minus_mixed T x y) (fminf, finf) <-> ~ blind (pmax (pmax T F) G) x y).
Proof. exact @cancel_minus_mixed_entire_iff. Qed.
Print Assumptions C23_cancel_minus_mixed_no_solution_iff.

(** ** Cancellative addition *)
Theorem C23_cancel_plus : forall (F : fmt) (x y : itv F), wf x -> wf y ->
  cancel_spec (solves_plus x y) x y (cancel_plus x y).
Proof. exact @cancel_plus_ok. Qed.
Print Assumptions C23_cancel_plus.
Theorem C23_cancel_plus_no_solution_partial : forall (F : fmt) (x y : itv F), wf x -> wf y ->
  not_max (snd x) -> not_max (fst y) -> not_max (snd y) ->
  no_solution_entire (solves_plus x y) x y (cancel_plus x y).
Proof. exact @cancel_plus_no. Qed.
Print Assumptions C23_cancel_plus_no_solution_partial.
Theorem C23_plus_is_minus_neg : forall (F : fmt) (x y : itv F), wf x -> wf y ->
  exists y', returns (neg y) y' /\ cancel_plus x y = cancel_minus x y'.
Proof. exact @cancel_plus_neg. Qed.
Print Assumptions C23_plus_is_minus_neg.

(** ** Mixed bound types *)
Theorem C23_cancel_minus_mixed : forall (T F G : fmt) (x : itv F) (y : itv G),
  comparable T F -> comparable T G -> comparable F G -> wf x -> wf y ->
  cancel_spec (solves_minus x y) x y (cancel_minus_mixed T x y).
Proof. exact @cancel_minus_mixed_ok. Qed.
Print Assumptions C23_cancel_minus_mixed.
Theorem C23_cancel_minus_mixed_no_solution_partial : forall (T F G : fmt) (x : itv F) (y : itv G),
  comparable T F -> comparable T G -> comparable F G -> wf x -> wf y ->
  not_max (snd x) -> not_max (fst y) -> not_max (snd y) ->
  no_solution_entire (solves_minus x y) x y (cancel_minus_mixed T x y).
Proof. exact @cancel_minus_mixed_no. Qed.
Print Assumptions C23_cancel_minus_mixed_no_solution_partial.
(** Missing: a second operand whose type is wider than the result type. *)
Theorem C23_cancel_plus_mixed_partial : forall (T F G : fmt) (x : itv F) (y : itv G),
  comparable T F -> within G T -> wf x -> wf y ->
  cancel_spec (solves_plus x y) x y (cancel_plus_mixed T x y).
Proof. exact @cancel_plus_mixed_ok. Qed.
Print Assumptions C23_cancel_plus_mixed_partial.
(** There the second operand is rounded outward before the cancellation and the
    result does not even contain the solution: float result, x = [3,4],
    y = [1+2^-40, 1+2^-40] of type double gives [4,5], exact is [4+2^-40, 5+2^-40]. *)
Theorem C23_cancel_plus_mixed_refuted : exists (x : itv binary32) (y : itv binary64) (a b : R) (z : itv binary32),
  wf x /\ wf y /\ set_bounded x /\ solves_plus x y a b /\ returns (cancel_plus_mixed binary32 x y) z /\
  ~ encloses (segment a b) z.
Proof. exact cancel_plus_mixed_refuted. Qed.
Print Assumptions C23_cancel_plus_mixed_refuted.

(** ** Decorated versions: the bare result with decoration trv, NaI from NaI *)
Theorem C23_cancel_minus_dec : forall (F : fmt) (x y : ditv F), wf_dec x -> wf_dec y ->
  (snd x = ill \/ snd y = ill -> returns (cancel_minus_dec x y) nai) /\
  (snd x <> ill -> snd y <> ill -> forall z, returns (cancel_minus (fst x) (fst y)) z ->
   returns (cancel_minus_dec x y) (z, trv)).
Proof. exact @cancel_minus_dec_ok. Qed.
Print Assumptions C23_cancel_minus_dec.
Theorem C23_cancel_plus_dec : forall (F : fmt) (x y : ditv F), wf_dec x -> wf_dec y ->
  (snd x = ill \/ snd y = ill -> returns (cancel_plus_dec x y) nai) /\
  (snd x <> ill -> snd y <> ill -> forall z, returns (cancel_plus (fst x) (fst y)) z ->
   returns (cancel_plus_dec x y) (z, trv)).
Proof. exact @cancel_plus_dec_ok. Qed.
Print Assumptions C23_cancel_plus_dec.
Theorem C23_cancel_minus_dec_mixed_nai : forall (T F G : fmt) (x : ditv F) (y : ditv G), wf_dec x -> wf_dec y ->
  snd x = ill \/ snd y = ill -> returns (cancel_minus_dec_mixed T x y) nai.
Proof. exact @cancel_minus_dec_mixed_nai. Qed.
Print Assumptions C23_cancel_minus_dec_mixed_nai.
Theorem C23_cancel_minus_dec_mixed : forall (T F G : fmt) (x : ditv F) (y : ditv G) (a b : R),
  comparable T F -> comparable T G -> comparable F G -> wf_dec x -> wf_dec y -> snd x <> ill -> snd y <> ill ->
  s_nonempty (fst x) -> set_bounded (fst x) -> solves_minus (fst x) (fst y) a b ->
  exists z, returns (cancel_minus_dec_mixed T x y) (z, trv) /\ tightest (segment a b) z.
Proof. exact @cancel_minus_dec_mixed_val. Qed.
Print Assumptions C23_cancel_minus_dec_mixed.

(** ** Examples *)
Notation b64 := (fl binary64).
Example C23_ex :
  run (cancel_minus (b64 (-5) 0, b64 7 0) (b64 1 0, b64 3 0)) = okz (b64 (-6) 0) (b64 4 0)
  /\ run (cancel_minus (b64 1 0, b64 3 0) (b64 (-5) 0, b64 7 0)) = okz (@fminf binary64) finf
  /\ run (cancel_minus (b64 1 0, b64 3 0) (b64 10 0, b64 12 0)) = okz (b64 (-9) 0) (b64 (-9) 0)
  /\ run (cancel_minus (b64 1 0, b64 3 0) (b64 2 0, b64 4 0)) = okz (b64 (-1) 0) (b64 (-1) 0)
  /\ run (cancel_minus (b64 1 0, b64 (2^53) (-51)) (b64 1 (-60), b64 (2^53+1) (-52))) = okz (b64 (2^53-1) (-53)) (b64 (2^53) (-52))
  /\ run (cancel_minus (b64 1 0, b64 3 0) (b64 (-4) 0, b64 (-3 * 2^50 - 1) (-51)))  = okz (@fminf binary64) finf
  /\ run (cancel_minus (b64 1 0, b64 3 0) empty) = okz (@fminf binary64) finf
  /\ run (cancel_minus (@empty binary64) (b64 1 0, b64 3 0)) = okz (@fnan binary64) fnan
  /\ run (cancel_minus (@empty binary64) (b64 1 0, finf)) = okz (@fminf binary64) finf
  /\ run (cancel_plus (b64 (-5) 0, b64 7 0) (b64 1 0, b64 3 0)) = okz (b64 (-2) 0) (b64 8 0)
  /\ rund (cancel_minus_dec ((b64 (-5) 0, b64 7 0), com) ((b64 1 0, b64 3 0), com)) = okd (b64 (-6) 0) (b64 4 0) trv
  /\ rund (cancel_plus_dec (@nai binary64) ((b64 1 0, b64 3 0), com)) = okd (@fnan binary64) fnan ill
  /\ run (cancel_minus_mixed binary32 (b64 (-5) 0, b64 7 0) (fl binary32 1 0, fl binary32 3 0)) = okz (fl binary32 (-6) 0) (fl binary32 4 0)
  /\ wf (b64 (-5) 0, b64 7 0).
Proof. repeat (split; [first [wf_tac|vm_compute; reflexivity]|]). wf_tac. Qed.
Example C23_ex_solution : exists a b, solves_minus (b64 (-5) 0, b64 7 0) (b64 1 0, b64 3 0) a b.
Proof. apply (proj1 (C23_solution_iff binary64 (b64 (-5) 0) (b64 7 0) (b64 1 0) (b64 3 0) eq_refl eq_refl eq_refl eq_refl ltac:(b2r) ltac:(b2r))). b2r. Qed.
(** Some operands are blind. *)
Example C23_ex_blind : exists x y : itv binary64, ~ ~ blind binary64 x y.
Proof.
destruct C23_no_solution_refuted as (x & y & Wx & Wy & Nx & Ny & Bx & By & H & R). exists x, y. intros N.
apply (C23_cancel_minus_no_solution_iff binary64 x y) in N; try easy.
specialize (R (Est 0 0)). specialize (N (Est 0 0)). rewrite R in N. discriminate.
Qed.
