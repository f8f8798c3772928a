(** * C12: tangent *)
From Coq Require Import ZArith Reals Bool Lra.
From Flocq Require Import Core.Core IEEE754.BinarySingleNaN.
From Verif Require Import Fmt Spec FloatFacts Exc Deco SpecApi SpecElem SpecMixed SpecTan SpecTan2 MBase PBase PConv MMixed MTrig PTan PTanF PTanOff PTan64 PTanIff PTanW Ex.

Local Open Scope R_scope.

(** The full claim, for one format. *)
Definition tan_claim (F : fmt) : Prop := forall x : itv F, wf x ->
  computes_enclosure (tan_itv x) (image1 (fun r => cos r <> 0) tan x).

(** It holds for [float] and x87 [long double] ... *)
Theorem C12_tan_binary32 : tan_claim binary32.
Proof. exact (fun x => @tan_far binary32 x far32). Qed.
Print Assumptions C12_tan_binary32.

Theorem C12_tan_binary80 : tan_claim binary80.
Proof. exact (fun x => @tan_far binary80 x far80). Qed.
Print Assumptions C12_tan_binary80.

(** ... and for every format in which pi is not too close to the number below it. *)
Theorem C12_tan_partial : forall F : fmt, (prec F + 3 <= emax F)%Z ->
  (forall p : float F, is_finite p = true -> B2R p <= PI ->
    B2R p + (bpow radix2 (1 - prec F) + bpow radix2 (1 - prec F) * bpow radix2 (1 - prec F)) <= PI) ->
  tan_claim F.
Proof. exact (fun F H1 H2 x => @tan_far F x (conj H1 H2)). Qed.
Print Assumptions C12_tan_partial.

(** [double] is not such a format: the claim is false there.  The returned
    interval misses tan 0 = 0 although 0 is a member of the argument. *)
Theorem C12_tan_binary64_refuted : exists (x : itv binary64) z r,
  wf x /\ returns (tan_itv x) z /\ mem r x /\ cos r <> 0 /\ ~ mem (tan r) z.
Proof. exact tan64_refuted. Qed.
Print Assumptions C12_tan_binary64_refuted.

(** In every format the tangent is enclosed when the argument has no pole,
    and then tightly when it is not wider than a number of the format below pi. *)
Theorem C12_tan_no_pole_partial : forall (F : fmt) (x : itv F), wf x -> (forall r, mem r x -> cos r <> 0) ->
  computes_enclosure (tan_itv x) (image1 (fun r => cos r <> 0) tan x).
Proof. exact @tan_no_pole. Qed.
Print Assumptions C12_tan_no_pole_partial.

Theorem C12_tan_no_pole_tightest : forall (F : fmt) (x : itv F) (p : float F), wf x ->
  (forall r, mem r x -> cos r <> 0) -> bounded_rep x ->
  is_finite p = true -> B2R p <= PI -> B2R (snd x) - B2R (fst x) <= B2R p ->
  computes_tightest (tan_itv x) (image1 (fun r => cos r <> 0) tan x).
Proof. exact @tan_no_pole_tight. Qed.
Print Assumptions C12_tan_no_pole_tightest.

(** In every format the tangent is enclosed, pole or not, when the width is not about pi.  Missing:
    the widths between, where [C12_tan_binary64_refuted] lies. *)
Theorem C12_tan_off_pi_partial : forall (F : fmt) (x : itv F), (prec F + 3 <= emax F)%Z -> wf x -> off_pi F x ->
  computes_enclosure (tan_itv x) (image1 (fun r => cos r <> 0) tan x).
Proof. exact @tan_off. Qed.
Print Assumptions C12_tan_off_pi_partial.
(** binary64: every interval except those exactly as wide as the number below pi, the width of the
    witness of [C12_tan_binary64_refuted]. *)
Theorem C12_tan_binary64_partial : forall x : itv binary64, wf x -> width_not_pi64 x ->
  computes_enclosure (tan_itv x) (image1 (fun r => cos r <> 0) tan x).
Proof. exact tan64. Qed.
Print Assumptions C12_tan_binary64_partial.

(** Exactly, in every format: the tangent is enclosed if and only if no pole is hidden (see [pole_hidden]), ... *)
Theorem C12_tan_exact : forall (F : fmt) (x : itv F), wf x ->
  (computes_enclosure (tan_itv x) (image1 (fun r => cos r <> 0) tan x) <-> ~ pole_hidden F x).
Proof. exact @tan_iff. Qed.
Print Assumptions C12_tan_exact.
(** ... and otherwise the tangent of some member is outside of the interval returned. *)
Theorem C12_tan_hidden_refuted : forall (F : fmt) (x : itv F), wf x -> pole_hidden F x ->
  exists z r, returns (tan_itv x) z /\ mem r x /\ cos r <> 0 /\ ~ mem (tan r) z.
Proof. exact @hidden_misses. Qed.
Print Assumptions C12_tan_hidden_refuted.
(** Nothing is hidden in binary32, in binary80, in binary64 if the width is not that of the number below pi,
    in any format if the width is not about pi, or if there is no pole. *)
Theorem C12_no_hidden : forall (F : fmt) (x : itv F), wf x ->
  F = binary32 \/ F = binary80 \/ (F = binary64 /\ width_not_pi64 x) \/
  ((prec F + 3 <= emax F)%Z /\ off_pi F x) \/ (forall r, mem r x -> cos r <> 0) -> ~ pole_hidden F x.
Proof. exact @no_hidden_self. Qed.
Print Assumptions C12_no_hidden.
Example C12_ex_hidden : exists x : itv binary64, wf x /\ pole_hidden binary64 x.
Proof. exact hidden_ex. Qed.

(** In the three C++ formats the enclosure is then the tightest one: an interval without a pole is never wider
    than the number below pi, so the width test costs nothing. *)
Theorem C12_tan_tightest : forall (F : fmt) (x : itv F), F = binary32 \/ F = binary64 \/ F = binary80 -> wf x ->
  (computes_tightest (tan_itv x) (image1 (fun r => cos r <> 0) tan x) <-> ~ pole_hidden F x).
Proof. exact tan_tight_iff. Qed.
Print Assumptions C12_tan_tightest.
(** Without exception in binary32 and binary80. *)
Theorem C12_tan_tightest_binary32_binary80 : forall (F : fmt) (x : itv F), F = binary32 \/ F = binary80 -> wf x ->
  computes_tightest (tan_itv x) (image1 (fun r => cos r <> 0) tan x).
Proof. exact tan_tight_two. Qed.
Print Assumptions C12_tan_tightest_binary32_binary80.

(** [1,2] has a pole. *)
Example C12_ex_pole : wf (fl binary32 1 0, fl binary32 2 0) /\
  exists r, mem r (fl binary32 1 0, fl binary32 2 0) /\ cos r = 0.
Proof.
split; [wf_tac|]. exists (PI / 2). split; [|apply cos_PI2]. pose proof PI2_3_2. pose proof PI_4.
apply mem_pt; [reflexivity..|].
assert (B1 : B2R (fl binary32 1 0) = 1) by b2r. assert (B2 : B2R (fl binary32 2 0) = 2) by b2r. rewrite B1, B2. lra.
Qed.
(** [-1,1] has none. *)
Example C12_ex_no_pole : computes_tightest (tan_itv (fl binary64 (-1) 0, fl binary64 1 0))
  (image1 (fun r => cos r <> 0) tan (fl binary64 (-1) 0, fl binary64 1 0)).
Proof.
assert (B1 : B2R (fl binary64 1 0) = 1) by b2r. assert (B2 : B2R (fl binary64 (-1) 0) = -1) by b2r.
assert (B3 : B2R (fl binary64 2 0) = 2) by b2r. pose proof PI2_3_2.
apply C12_tan_no_pole_tightest with (p := fl binary64 2 0).
- wf_tac.
- intros r [H1 H2]. apply Rgt_not_eq, cos_gt_0;
    rewrite ub_fin in H2 by reflexivity; rewrite lb_fin in H1 by reflexivity; cbn [fst snd] in *;
    rewrite ?B1, ?B2 in *; lra.
- split; reflexivity.
- reflexivity.
- rewrite B3. lra.
- cbn [fst snd]. rewrite B1, B2, B3. lra.
Qed.
(** [1,2] in binary64 has a pole and width 1. *)
Example C12_ex_off : wf (fl binary64 1 0, fl binary64 2 0) /\ off_pi binary64 (fl binary64 1 0, fl binary64 2 0) /\
  width_not_pi64 (fl binary64 1 0, fl binary64 2 0) /\
  exists r, mem r (fl binary64 1 0, fl binary64 2 0) /\ cos r = 0.
Proof.
assert (B1 : B2R (fl binary64 1 0) = 1) by b2r. assert (B2 : B2R (fl binary64 2 0) = 2) by b2r.
split; [wf_tac|]. split; [|split; [intros _; cbn [fst snd]; rewrite B1, B2; lra|]].
- apply off64. left. cbn [fst snd]. rewrite B1, B2. lra.
- exists (PI / 2). split; [|apply cos_PI2]. pose proof PI2_3_2. pose proof PI_4.
  apply mem_pt; [reflexivity..|]. rewrite B1, B2. lra.
Qed.
(** The excluded width is that of the number of binary64 next below pi. *)
Example C12_ex_pi64 : exists p : float binary64, is_finite p = true /\ B2R p = 884279719003555 / 281474976710656 /\ B2R p < PI /\
  forall q : float binary64, is_finite q = true -> B2R q <= PI -> B2R q <= B2R p.
Proof. exact pi64_below. Qed.
