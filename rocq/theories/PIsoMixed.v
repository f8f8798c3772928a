(** * Isotonicity of mixed-type operations from that of the widest type *)
From Coq Require Import ZArith NArith Reals Bool List Lra Lia.
From Flocq Require Import Core.Core IEEE754.BinarySingleNaN.
From Verif Require Import Fmt Spec FloatFacts Exc Deco SpecApi SpecDeco SpecMixed SpecIso MBase PBase PConv PDec MTrig PTan PTanF MMixed PMixed PIso.
Import ListNotations.
Local Open Scope R_scope.

Lemma hull_mono {F} G (x x' : itv F) : wf x -> wf x' -> included x x' -> included (convert_hull G x) (convert_hull G x').
Proof.
intros W W' I. destruct (convert_hull_tightest G x W) as (_ & _ & T). destruct (convert_hull_tightest G x' W') as (V & E & _).
apply T; [easy|]. intros r Hr. apply E. now apply I.
Qed.
Lemma mixed1_iso T {F} (op : forall W, itv W -> M (itv W)) :
  (forall y, wf y -> exists z, returns (op (pmax T F) y) z /\ wf z) ->
  isotonic1 (op (pmax T F)) -> isotonic1 (fun x : itv F => mixed1 T op x).
Proof.
intros K H x x' W W' I. set (y := convert_hull (pmax T F) x). set (y' := convert_hull (pmax T F) x').
assert (Wy : wf y) by now apply wf_convert_hull. assert (Wy' : wf y') by now apply wf_convert_hull.
destruct (H y y' Wy Wy') as (z & z' & E & E' & J). { now apply hull_mono. }
destruct (K y Wy) as (z1 & E1 & V). destruct (K y' Wy') as (z2 & E2 & V').
assert (z1 = z) by (specialize (E (Est 0 0)); rewrite E1 in E; congruence).
assert (z2 = z') by (specialize (E' (Est 0 0)); rewrite E2 in E'; congruence). subst z1 z2.
exists (convert_hull T z), (convert_hull T z'). split; [|split].
- apply returns_eq. apply mixed1_ret; [easy|]. now apply returns_eq.
- apply returns_eq. apply mixed1_ret; [easy|]. now apply returns_eq.
- now apply hull_mono.
Qed.
Lemma tan_mixed_iso (T F : fmt) : pi_far (pmax T F) -> isotonic1 (fun x : itv F => tan_mixed T x).
Proof.
intros P. apply mixed1_iso.
- intros y W. destruct (tan_far y P W) as (z & A & B & _). now exists z.
- now apply tan_isotonic.
Qed.

Notation std := [binary32; binary64; binary80].
Lemma c80 F : In F std -> comparable binary80 F.
Proof. intros H. apply std_comparable; [cbn; auto|easy]. Qed.
Lemma c80' F : In F std -> comparable F binary80.
Proof. intros H. apply std_comparable; [easy|cbn; auto]. Qed.
Lemma far_pmax1 F : In F std -> pi_far (pmax binary80 F).
Proof. intros [<-|[<-|[<-|[]]]]; exact far80. Qed.
Lemma far_pmax2 F : In F std -> pi_far (pmax F binary80).
Proof. intros [<-|[<-|[<-|[]]]]; exact far80. Qed.
