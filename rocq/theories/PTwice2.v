(** * Proofs: the tangent and rounding in two steps *)
From Coq Require Import ZArith NArith Reals Bool Lra Lia List.
From Flocq Require Import Core.Core IEEE754.BinarySingleNaN.
From Verif Require Import Fmt Spec FloatFacts Exc Deco SpecApi SpecElem SpecMixed SpecExpr SpecAlg SpecPoint SpecOver SpecTan2 MBase PBase PConv MTrig MMixed MExpr PDec PMixed POver POver2 POver3 PTanIff PMirror3 PTwice.
From Verif Require C12 C28.
Local Open Scope R_scope.
Local Open Scope m_scope.

Lemma tan_mixed_hidden T {F} (x : itv F) : comparable T F -> wf x -> pole_hidden (pmax T F) x ->
  let z := tans (convert_hull (pmax T F) x) in tan_mixed T x = ret (convert_hull T z) /\ wf z.
Proof.
intros C W H z. destruct (within_pmax T F C) as [_ B]. apply (hidden_widen _ x B W) in H. split; [|exact (hidden_wf _ H)].
apply mixed1_ret; [exact W|]. apply hidden_result; [now apply wf_convert_hull|exact H].
Qed.
(** The tangents are computed in the same type: the same result, also if a pole is hidden. *)
Lemma tan_twice_same T V {F} (x : itv F) : within T V -> comparable T F -> comparable V F -> pmax T F = pmax V F -> three (pmax T F) -> wf x ->
  agree (z <- tan_mixed V x; convert_type T z) (tan_mixed T x).
Proof.
intros H C1 C2 E H3 W. destruct (Classical_Prop.classic (pole_hidden (pmax T F) x)) as [K|K].
- pose proof K as K'. rewrite E in K'. destruct (tan_mixed_hidden T x C1 W K) as [-> _]. destruct (tan_mixed_hidden V x C2 W K') as [-> Wz]. rewrite E. mreds.
  rewrite <- (convert_type_wf T _ Wz). pose proof (convert_twice T V H _ Wz) as A. rewrite (convert_type_wf V _ Wz) in A. revert A. now mreds.
- apply (un_twice T V H u_tan x C1 C2 W); intros _; [now split|]. rewrite <- E. now split.
Qed.
(** A hidden pole of binary64 is not hidden from binary80. *)
Lemma tan_twice_differs (x : itv binary64) : wf x -> pole_hidden binary64 x ->
  ~ agree (z <- un_bare_mixed binary80 u_tan x; convert_type binary64 z) (un_bare_mixed binary64 u_tan x).
Proof.
intros W Hx (z & w & Z & V & E).
assert (K : computes_enclosure (un_bare_mixed binary80 u_tan x) (image1 (fun r => cos r <> 0) tan x)).
{ apply (C28.C28_tan_exact binary80 binary64 x (comparable_sym _ _ cmp64_80) W). apply (no_hidden binary80 binary64 x (comparable_sym _ _ cmp64_80) W). right. left. reflexivity. }
destruct K as (v & V1 & V2 & V3). apply returns_eq in V1. rewrite V1 in Z. revert Z. mreds. rewrite (convert_type_wf binary64 v V2). intros Z.
assert (Ez : z = convert_hull binary64 v) by (specialize (Z (Est 0 0)); cbv [ret] in Z; congruence). subst z.
destruct (encloses_narrow binary64 _ v V2 V3) as [_ I].
assert (C : comparable binary64 binary64) by now left.
destruct (proj1 (C28.C28_tan_exact binary64 binary64 x C W)); [|exact Hx].
destruct (tan_mixed_hidden binary64 x C W Hx) as [R' W']. pose proof (returns_one _ _ _ V (proj2 (returns_eq _ _) R')) as Ew.
exists w. split; [exact V|]. split; [rewrite Ew; now apply wf_convert_hull|]. intros r Hr. apply E. now apply I.
Qed.
