(** * Proofs: the decoration of the tangent is the strongest one; mixed types; better operands *)
From Coq Require Import ZArith NArith Reals Bool Lia Lra List Classical.
From Flocq Require Import Core.Core IEEE754.BinarySingleNaN.
From Verif Require Import Fmt Spec FloatFacts Exc Deco SpecApi SpecElem SpecAtan2 SpecDeco SpecStrong MBase PBase MBool MArith PArith
  PMul PFma PDiv PUnary PConv SpecRel PBool PSetop MElem PElem PElem2 MPow PPown PPow MTrig PTrig PTan PTrigT MAtan2 PAtan2 MDec PCont PDec PDecF PDecT
  PTanF PTanW PStrong.
Import ListNotations.
Local Open Scope R_scope.

Section T.
Context {F : fmt}.
Lemma tan_strong : @pi_low F -> strongest1 (@tan_dec F) tan_dom tan.
Proof.
intros Lo x Wx Dx Nx z Hz d D L H. pose proof (wf_dec_wf x Wx) as W. apply returns_eq in Hz. revert Hz. unfold tan_dec.
rewrite is_valid_dec_wf, is_nai_wf, is_empty_dec_wf by easy. destruct (deq_spec (snd x) ill) as [C|_]; [easy|]. mreds.
assert (Pole : (exists p, mem p (fst x) /\ cos p = 0) -> (d <= trv)%N).
{ intros (p & Hp & Cp). apply (sharp_trv near1 (box1 (fst x)) tan_dom (bounded_rep (fst x)) tan (fst z)); [|easy|easy].
  intros (_ & A). now apply (A p). }
destruct (isnan (fst (fst x))) eqn:Ex; mreds.
{ intros Hz. apply ret_inj in Hz. subst z. cbn [fst snd] in *. apply (sharp_trv near1 (box1 (fst x)) tan_dom (bounded_rep (fst x)) tan (@empty F)); [|easy|easy].
  intros ((p & Hp) & _). now apply (isnan_empty (fst x) W Ex p). }
destruct (wf_nonempty _ W Ex) as [r0 Hr0]. destruct (@pi_fin F) as [P1 P2].
assert (Hm : bounded_rep (fst x) -> forall r, mem r (fst x) <-> B2R (fst (fst x)) <= r <= B2R (snd (fst x))).
{ intros [B1 B2] r. unfold mem. now rewrite lb_fin, ub_fin. }
destruct (mpfr_greater (rsub mode_UP (snd (fst x)) (fst (fst x))) (mpfr_const_pi mode_DN)) eqn:G1.
{ intros Hz. apply ret_inj in Hz. subst z. cbn [fst snd] in *. apply Pole.
  destruct (classic (bounded_rep (fst x))) as [B|B]; [|now apply (unbounded_pole (fst x) r0)].
  apply NNPP. intros N. assert (G : B2R (snd (fst x)) - B2R (fst (fst x)) <= B2R (@mpfr_const_pi F mode_DN)).
  { destruct B as [B1 B2]. apply narrow; try easy; [apply (Hm (conj B1 B2)) in Hr0; lra|].
    intros t Ht C. apply N. exists t. split; [now apply Hm|easy]. }
  destruct B as [B1 B2]. apply (width_le _ _ _ B1 B2 P1) in G. congruence. }
destruct (mpfr_greater (mpfr_tan mode_DN (fst (fst x))) (mpfr_tan mode_UP (snd (fst x)))) eqn:G2.
{ intros Hz. apply ret_inj in Hz. subst z. cbn [fst snd] in *. apply Pole.
  destruct (classic (bounded_rep (fst x))) as [B|B]; [|now apply (unbounded_pole (fst x) r0)].
  pose proof (Hm B) as Hm'. destruct B as [F1 F2]. pose proof (proj1 (width_le _ _ _ F1 F2 P1) G1) as Hle.
  assert (Hab : B2R (fst (fst x)) <= B2R (snd (fst x))) by (apply Hm' in Hr0; lra).
  destruct (tan_cases (B2R (fst (fst x))) (B2R (snd (fst x)))) as [Hmono|((pole & Hp & Cp) & _)];
    [apply cos_nz, rational_B2R|apply cos_nz, rational_B2R|lra|lra| |exists pole; split; [now apply Hm'|easy]].
  exfalso.
  assert (Ra : is_RD (tan (B2R (fst (fst x)))) (mpfr_tan mode_DN (fst (fst x)))) by (unfold mpfr_tan; rewrite F1; apply rround_RD).
  assert (Rb : is_RU (tan (B2R (snd (fst x)))) (mpfr_tan mode_UP (snd (fst x)))) by (unfold mpfr_tan; rewrite F2; apply rround_RU).
  assert (Hl : lb (mpfr_tan mode_DN (fst (fst x))) (tan r0)) by (apply lb_mono with (1 := proj1 Ra); apply Hmono; now apply Hm').
  assert (Hu : ub (mpfr_tan mode_UP (snd (fst x))) (tan r0)) by (apply ub_mono with (1 := proj1 Rb); apply Hmono; now apply Hm').
  revert G2 Hl Hu. unfold mpfr_greater.
  destruct (fviewP (mpfr_tan mode_DN (fst (fst x)))) as [ | | |g Fg]; try easy;
  destruct (fviewP (mpfr_tan mode_UP (snd (fst x)))) as [ | | |g' Fg']; try easy.
  - now destruct g' as [| | |[]].
  - now destruct g as [| | |[]].
  - rewrite fgt_fin, lb_fin, ub_fin by easy. case Rlt_bool_spec; [|easy]. intros; lra. }
assert (Wz : wf (mpfr_tan mode_DN (fst (fst x)), mpfr_tan mode_UP (snd (fst x)))).
{ destruct (classic (bounded_rep (fst x))) as [[F1 F2]|B].
  - apply not_greater_wf with (3 := G2) (a := tan (B2R (fst (fst x)))) (b := tan (B2R (snd (fst x)))).
    + unfold mpfr_tan. rewrite F1. apply rround_RD.
    + unfold mpfr_tan. rewrite F2. apply rround_RU.
  - exfalso. assert (K : mpfr_greater (rsub mode_UP (snd (fst x)) (fst (fst x))) (mpfr_const_pi mode_DN) = true); [|congruence].
    apply width_inf; [easy|]. destruct (wf_view _ W) as [ | |u Hu|l Hl|l u Hl Hu Hlu]; cbn [fst snd] in *; try easy.
    + left. now repeat split.
    + left. repeat split; [|now apply isnan_fin]. now intros ->.
    + right. repeat split; [|now apply isnan_fin]. now intros ->.
    + exfalso. apply B. now split. }
rewrite is_common_wf by easy. mreds. cbn [fst snd].
destruct (is_finite _ && is_finite _) eqn:Fz; intros Hz; apply ret_inj in Hz; subst z; cbn [fst snd] in *; rewrite dmin_min.
- pose proof (sharp_com near1 (box1 (fst x)) tan_dom (bounded_rep (fst x)) tan _ d D H). lia.
- assert (d <= dac)%N; [|lia]. apply (sharp_dac near1 (box1 (fst x)) tan_dom (bounded_rep (fst x)) tan (mpfr_tan mode_DN (fst (fst x)), mpfr_tan mode_UP (snd (fst x)))); [|easy|exact H].
  intros (_ & [B1 B2] & _). cbn [fst snd] in *. now rewrite B1, B2 in Fz.
Qed.
End T.
