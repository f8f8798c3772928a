(** * Proofs: the overlapping state *)

From Coq Require Import ZArith NArith Reals Bool Lia Lra Classical.
From Flocq Require Import Core.Core IEEE754.BinarySingleNaN.
From Verif Require Import Fmt Spec FloatFacts Exc Deco SpecApi SpecRel MBase PBase MBool MArith PArith PMul PUnary PConv PBool MOverlap SpecOverlap.

Local Open Scope R_scope.

(** An order embedding of the non-NaN numbers into the reals. *)
Definition emb {F} (a : float F) : R :=
  match a with
  | B754_infinity true => - (PI / 2)
  | B754_infinity false => PI / 2
  | _ => atan (B2R a)
  end.
Lemma emb_fin {F} (a : float F) : is_finite a = true -> emb a = atan (B2R a).
Proof. now destruct a as [|[]| |]. Qed.

Lemma atan_le_iff a b : atan a <= atan b <-> a <= b.
Proof.
split; intros H.
- apply Rnot_lt_le. intros L. apply atan_increasing in L. lra.
- destruct H as [H| ->]; [|lra]. left. now apply atan_increasing.
Qed.

Lemma fle2_emb {F G} (C : comparable F G) (a : float F) (b : float G) : isnan a = false -> isnan b = false ->
  fle2 a b = Rle_bool (emb a) (emb b).
Proof.
pose proof PI_RGT_0 as P.
destruct (fviewP a) as [ | | |a Fa], (fviewP b) as [ | | |b Fb]; try easy; intros _ _; cbn [emb fminf finf].
- change (fle2 _ _) with true. rewrite Rle_bool_true; [easy|lra].
- change (fle2 _ _) with true. rewrite Rle_bool_true; [easy|lra].
- rewrite (proj1 (cmp2_minf_fin C b Fb)), emb_fin by easy. pose proof (atan_bound (B2R b)). rewrite Rle_bool_true; [easy|lra].
- change (fle2 _ _) with false. rewrite Rle_bool_false; [easy|lra].
- change (fle2 _ _) with true. rewrite Rle_bool_true; [easy|lra].
- rewrite (proj1 (cmp2_pinf_fin C b Fb)), emb_fin by easy. pose proof (atan_bound (B2R b)). rewrite Rle_bool_false; [easy|lra].
- rewrite (proj1 (cmp2_fin_minf C a Fa)), emb_fin by easy. pose proof (atan_bound (B2R a)). rewrite Rle_bool_false; [easy|lra].
- rewrite (proj1 (cmp2_fin_pinf C a Fa)), emb_fin by easy. pose proof (atan_bound (B2R a)). rewrite Rle_bool_true; [easy|lra].
- rewrite (fle2_fin C), !emb_fin by easy.
  pose proof (atan_le_iff (B2R a) (B2R b)).
  case Rle_bool_spec; case Rle_bool_spec; try easy; intros; lra.
Qed.
Lemma flt2_emb {F G} (C : comparable F G) (a : float F) (b : float G) : isnan a = false -> isnan b = false ->
  flt2 a b = Rlt_bool (emb a) (emb b).
Proof.
intros Ha Hb. rewrite <- negb_Rlt_bool.
rewrite <- (fle2_emb (comparable_sym _ _ C) b a) by easy.
destruct (fviewP a) as [ | | |a Fa], (fviewP b) as [ | | |b Fb]; try easy;
pose proof (comparable_sym _ _ C) as C'.
- now rewrite (proj1 (proj2 (cmp2_minf_fin C b Fb))), (proj1 (cmp2_fin_minf C' b Fb)).
- now rewrite (proj1 (proj2 (cmp2_pinf_fin C b Fb))), (proj1 (cmp2_fin_pinf C' b Fb)).
- now rewrite (proj1 (proj2 (cmp2_fin_minf C a Fa))), (proj1 (cmp2_minf_fin C' a Fa)).
- now rewrite (proj1 (proj2 (cmp2_fin_pinf C a Fa))), (proj1 (cmp2_pinf_fin C' a Fa)).
- rewrite (fle2_fin C'), (flt2_fin C) by easy. now rewrite negb_Rlt_bool.
Qed.
Lemma feq2_emb {F G} (C : comparable F G) (a : float F) (b : float G) : isnan a = false -> isnan b = false ->
  feq2 a b = Req_bool (emb a) (emb b).
Proof.
intros Ha Hb. pose proof (feq2_le C a b Ha Hb) as H.
rewrite (fle2_emb C), (fle2_emb (comparable_sym _ _ C)), !Rle_bool_iff in H by easy.
destruct (feq2 a b).
- rewrite Req_bool_true; [easy|]. apply proj1 in H. specialize (H eq_refl). lra.
- rewrite Req_bool_false; [easy|]. intros E. rewrite E in H. destruct H as [_ H]. discriminate H. lra.
Qed.

Section O.
Context {F G : fmt} (C : comparable F G) (x : itv F) (y : itv G) (Wx : wf x) (Wy : wf y).
Let C' := comparable_sym _ _ C.
Hypotheses (Nx : isnan (fst x) = false) (Ny : isnan (fst y) = false).
Let Lx := low_end_fst x (wf_view x Wx) Nx.
Let Ux := upp_end_snd x (wf_view x Wx) Nx.
Let Ly := low_end_fst y (wf_view y Wy) Ny.
Let Uy := upp_end_snd y (wf_view y Wy) Ny.
Let Nx2 := upp_end_nan _ _ Ux.
Let Ny2 := upp_end_nan _ _ Uy.
Let xl := emb (fst x).
Let xu := emb (snd x).
Let yl := emb (fst y).
Let yu := emb (snd y).

Lemma not_all_ex (P : R -> Prop) (Q : R -> Prop) : ~ (forall a, P a -> Q a) <-> exists a, P a /\ ~ Q a.
Proof.
split; [|now intros (a & H1 & H2) H; auto].
intros H. apply not_all_ex_not in H. destruct H as [a H]. exists a. apply imply_to_and in H. easy.
Qed.
Lemma not_ex_le (P : R -> Prop) a : ~ (exists b, P b /\ b <= a) <-> forall b, P b -> a < b.
Proof.
split.
- intros H b Hb. apply Rnot_le_lt. intros L. apply H. eauto.
- intros H (b & Hb & L). specialize (H b Hb). lra.
Qed.
Lemma not_ex_ge (P : R -> Prop) a : ~ (exists b, P b /\ a <= b) <-> forall b, P b -> b < a.
Proof.
split.
- intros H b Hb. apply Rnot_le_lt. intros L. apply H. eauto.
- intros H (b & Hb & L). specialize (H b Hb). lra.
Qed.

Lemma e_starts_before : starts_before x y <-> xl < yl.
Proof.
assert (H := low_le C' y x _ _ Ly Lx). rewrite (fle2_emb C'), Rle_bool_iff in H by easy. fold xl yl in H.
assert (H2 : xl < yl <-> ~ yl <= xl) by lra. rewrite H2, H, not_all_ex. unfold starts_before.
split; intros (a & Ha & Hb); exists a; (split; [easy|]); now apply not_ex_le.
Qed.
Lemma e_starts_after : starts_after x y <-> yl < xl.
Proof.
assert (H := low_le C x y _ _ Lx Ly). rewrite (fle2_emb C), Rle_bool_iff in H by easy. fold xl yl in H.
assert (H2 : yl < xl <-> ~ xl <= yl) by lra. rewrite H2, H, not_all_ex. unfold starts_after.
split; intros (a & Ha & Hb); exists a; (split; [easy|]); now apply not_ex_le.
Qed.
Lemma e_ends_before : ends_before x y <-> xu < yu.
Proof.
assert (H := upp_le C' y x _ _ Uy Ux). rewrite (fle2_emb C'), Rle_bool_iff in H by easy. fold xu yu in H.
assert (H2 : xu < yu <-> ~ yu <= xu) by lra. rewrite H2, H, not_all_ex. unfold ends_before.
split; intros (a & Ha & Hb); exists a; (split; [easy|]); now apply not_ex_ge.
Qed.
Lemma e_ends_after : ends_after x y <-> yu < xu.
Proof.
assert (H := upp_le C x y _ _ Ux Uy). rewrite (fle2_emb C), Rle_bool_iff in H by easy. fold xu yu in H.
assert (H2 : yu < xu <-> ~ xu <= yu) by lra. rewrite H2, H, not_all_ex. unfold ends_after.
split; intros (a & Ha & Hb); exists a; (split; [easy|]); now apply not_ex_ge.
Qed.
Lemma e_start_together : start_together x y <-> xl = yl.
Proof.
assert (H := low_le C x y _ _ Lx Ly). rewrite (fle2_emb C), Rle_bool_iff in H by easy. fold xl yl in H.
assert (H' := low_le C' y x _ _ Ly Lx). rewrite (fle2_emb C'), Rle_bool_iff in H' by easy. fold xl yl in H'.
unfold start_together. rewrite <- H, <- H'. lra.
Qed.
Lemma e_end_together : end_together x y <-> xu = yu.
Proof.
assert (H := upp_le C x y _ _ Ux Uy). rewrite (fle2_emb C), Rle_bool_iff in H by easy. fold xu yu in H.
assert (H' := upp_le C' y x _ _ Uy Ux). rewrite (fle2_emb C'), Rle_bool_iff in H' by easy. fold xu yu in H'.
unfold end_together. rewrite <- H, <- H'. lra.
Qed.
Lemma e_equal : s_equal x y <-> xl = yl /\ xu = yu.
Proof.
rewrite <- e_start_together, <- e_end_together. unfold start_together, end_together.
pose proof (s_subset_ends x y). pose proof (s_subset_ends y x).
assert (s_equal x y <-> s_subset x y /\ s_subset y x).
{ unfold s_equal, s_subset. split; [|intros [H1 H2] r; split; auto]. intros E. split; intros r; apply E. }
tauto.
Qed.
Lemma e_precedes : s_precedes x y <-> xu <= yl.
Proof. rewrite <- (ul_le C x y _ _ Ux Ly), (fle2_emb C), Rle_bool_iff by easy. easy. Qed.
Lemma e_precedes' : s_precedes y x <-> yu <= xl.
Proof. rewrite <- (ul_le C' y x _ _ Uy Lx), (fle2_emb C'), Rle_bool_iff by easy. easy. Qed.
Lemma e_sprecedes : s_strictly_precedes x y <-> xu < yl.
Proof. rewrite <- (ul_lt C x y _ _ Ux Ly), (flt2_emb C), Rlt_bool_iff by easy. easy. Qed.
Lemma e_sprecedes' : s_strictly_precedes y x <-> yu < xl.
Proof. rewrite <- (ul_lt C' y x _ _ Uy Lx), (flt2_emb C'), Rlt_bool_iff by easy. easy. Qed.
Lemma e_ne : s_nonempty x. Proof. now apply wf_nonempty. Qed.
Lemma e_ne' : s_nonempty y. Proof. now apply wf_nonempty. Qed.
Lemma e_touch : touch x y <-> yl <= xu /\ xl <= yu.
Proof.
pose proof (disjoint_split x y e_ne e_ne') as H.
assert (H1 : touch x y <-> ~ s_disjoint x y).
{ unfold touch, s_disjoint. split; [now intros [r Hr] H1; apply (H1 r)|].
  intros H1. apply not_all_not_ex. exact H1. }
rewrite H1, H, e_sprecedes, e_sprecedes'. lra.
Qed.
Lemma e_sop : strictly_ordered_pair x y <-> yl < xu.
Proof.
assert (strictly_ordered_pair x y <-> ~ s_precedes x y).
{ unfold strictly_ordered_pair, s_precedes. split; [intros (a & b & H1 & H2 & H3) H; specialize (H a b H1 H2); lra|].
  intros H. apply NNPP. intros H1. apply H. intros a b Ha Hb. apply Rnot_lt_le. intros L. apply H1. now exists a, b. }
rewrite H, e_precedes. lra.
Qed.
Lemma e_sop' : strictly_ordered_pair' x y <-> xl < yu.
Proof.
assert (strictly_ordered_pair' x y <-> ~ s_precedes y x).
{ unfold strictly_ordered_pair', s_precedes. split; [intros (a & b & H1 & H2 & H3) H; specialize (H b a H2 H1); lra|].
  intros H. apply NNPP. intros H1. apply H. intros a b Ha Hb. apply Rnot_lt_le. intros L. apply H1. now exists b, a. }
rewrite H, e_precedes'. lra.
Qed.
Lemma e_x : xl <= xu.
Proof.
assert (H := ul_lt (comparable_refl F) x x _ _ Ux Lx). rewrite (flt2_emb (comparable_refl F)), Rlt_bool_iff in H by easy.
apply Rnot_lt_le. intros L. apply H in L. destruct e_ne as [r Hr]. specialize (L r r Hr Hr). lra.
Qed.
Lemma e_y : yl <= yu.
Proof.
assert (H := ul_lt (comparable_refl G) y y _ _ Uy Ly). rewrite (flt2_emb (comparable_refl G)), Rlt_bool_iff in H by easy.
apply Rnot_lt_le. intros L. apply H in L. destruct e_ne' as [r Hr]. specialize (L r r Hr Hr). lra.
Qed.

Lemma overlap_nonempty : exists o, overlap x y = ret o /\ forall o', o = o' <-> overlap_spec x y o'.
Proof.
unfold overlap. vred. rewrite Nx. vred. rewrite Ny. vred.
eexists; split; [reflexivity|].
rewrite !(fle2_emb C'), !(fle2_emb C), !(flt2_emb C), !(flt2_emb C'), !(feq2_emb C) by easy.
fold xl xu yl yu.
assert (S : forall o', overlap_spec x y o' <->
  match o' with
  | o_undefined => False
  | o_both_empty | o_first_empty | o_second_empty => False
  | o_before => xu < yl
  | o_meets => xu <= yl /\ (yl <= xu /\ xl <= yu) /\ xl < yl /\ xu < yu
  | o_overlaps => xl < yl /\ xu < yu /\ yl < xu
  | o_starts => xl = yl /\ xu < yu
  | o_contained_by => yl < xl /\ xu < yu
  | o_finishes => yl < xl /\ xu = yu
  | o_equal => xl = yl /\ xu = yu
  | o_finished_by => xl < yl /\ xu = yu
  | o_contains => xl < yl /\ yu < xu
  | o_started_by => xl = yl /\ yu < xu
  | o_overlapped_by => yl < xl /\ yu < xu /\ xl < yu
  | o_met_by => yu <= xl /\ (yl <= xu /\ xl <= yu) /\ yl < xl /\ yu < xu
  | o_after => yu < xl
  end).
{ pose proof e_ne. pose proof e_ne'.
  intros []; cbn [overlap_spec]; rewrite ?e_starts_before, ?e_starts_after, ?e_ends_before, ?e_ends_after,
   ?e_start_together, ?e_end_together, ?e_equal, ?e_precedes, ?e_precedes', ?e_sprecedes, ?e_sprecedes', ?e_touch, ?e_sop, ?e_sop'; tauto. }
intros o'. rewrite S. clear S. pose proof e_x as Hx. pose proof e_y as Hy. clearbody xl xu yl yu.
repeat match goal with
| |- context [Rle_bool ?a ?b] => case (Rle_bool_spec a b); intros
| |- context [Rlt_bool ?a ?b] => case (Rlt_bool_spec a b); intros
| |- context [Req_bool ?a ?b] => case (Req_bool_spec a b); intros
end; destruct o'; (split; [first [discriminate|intros _; lra]|intros; first [reflexivity|exfalso; lra]]).
Qed.
End O.

Lemma overlap_correct {F G} (C : comparable F G) (x : itv F) (y : itv G) : wf x -> wf y ->
  exists o, returns (overlap x y) o /\ forall o', o = o' <-> overlap_spec x y o'.
Proof.
intros Wx Wy.
assert (E : forall {H} (z : itv H), wf z -> isnan (fst z) = true -> forall r, ~ mem r z).
{ intros H z Wz E r. apply wf_nan_l in E; [|easy]. subst z. apply mem_empty. }
destruct (isnan (fst x)) eqn:Nx; [|destruct (isnan (fst y)) eqn:Ny].
- pose proof (E _ x Wx Nx) as Ex. unfold overlap. vred. rewrite Nx. vred.
  assert (Ex' : ~ s_nonempty x) by (intros [r Hr]; exact (Ex r Hr)).
  assert (K1 : ~ starts_before x y) by (intros (a & Ha & _); exact (Ex a Ha)).
  assert (K2 : ~ ends_after x y) by (intros (a & Ha & _); exact (Ex a Ha)).
  assert (K3 : ~ touch x y) by (intros (a & Ha & _); exact (Ex a Ha)).
  assert (K4 : s_nonempty y -> ~ start_together x y).
  { intros [b Hb] [_ H]. destruct (H b Hb) as (a & Ha & _). exact (Ex a Ha). }
  assert (K5 : s_nonempty y -> ~ end_together x y).
  { intros [b Hb] [_ H]. destruct (H b Hb) as (a & Ha & _). exact (Ex a Ha). }
  destruct (isnan (fst y)) eqn:Ny; vred.
  + pose proof (E _ y Wy Ny) as Ey. exists o_both_empty. split; [easy|].
    assert (Ey' : ~ s_nonempty y) by (intros [r Hr]; exact (Ey r Hr)).
    intros o. destruct o; cbn [overlap_spec]; (split; [first [discriminate|tauto]|first [reflexivity|intros; exfalso; tauto]]).
  + pose proof (wf_nonempty y Wy Ny) as Ey. fold (s_nonempty y) in Ey. exists o_first_empty. split; [easy|].
    intros o. destruct o; cbn [overlap_spec]; (split; [first [discriminate|tauto]|first [reflexivity|intros; exfalso; tauto]]).
- pose proof (wf_nonempty x Wx Nx) as Ex. fold (s_nonempty x) in Ex.
  pose proof (E _ y Wy Ny) as Ey. unfold overlap. vred. rewrite Nx. vred. rewrite Ny. vred.
  assert (Ey' : ~ s_nonempty y) by (intros [r Hr]; exact (Ey r Hr)).
  assert (K1 : ~ starts_after x y) by (intros (a & Ha & _); exact (Ey a Ha)).
  assert (K2 : ~ ends_before x y) by (intros (a & Ha & _); exact (Ey a Ha)).
  assert (K3 : ~ touch x y) by (intros (a & _ & Ha); exact (Ey a Ha)).
  assert (K4 : ~ start_together x y).
  { destruct Ex as [b Hb]. intros [H _]. destruct (H b Hb) as (a & Ha & _). exact (Ey a Ha). }
  assert (K5 : ~ end_together x y).
  { destruct Ex as [b Hb]. intros [H _]. destruct (H b Hb) as (a & Ha & _). exact (Ey a Ha). }
  assert (K6 : ~ s_equal x y).
  { destruct Ex as [b Hb]. intros H. apply (Ey b). now apply H. }
  exists o_second_empty. split; [easy|].
  intros o. destruct o; cbn [overlap_spec]; (split; [first [discriminate|tauto]|first [reflexivity|intros; exfalso; tauto]]).
- destruct (overlap_nonempty C x y Wx Wy Nx Ny) as (o & -> & H). now exists o.
Qed.

Lemma overlap_spec_converse {F G} (x : itv F) (y : itv G) o : overlap_spec x y o <-> overlap_spec y x (converse o).
Proof.
assert (T : touch x y <-> touch y x) by (unfold touch; split; intros [r [H1 H2]]; now exists r).
assert (Q : s_equal x y <-> s_equal y x) by (unfold s_equal; split; intros H r; symmetry; apply H).
assert (P1 : strictly_ordered_pair x y <-> strictly_ordered_pair' y x) by (unfold strictly_ordered_pair, strictly_ordered_pair'; split; intros (a & b & H1 & H2 & H3); now exists b, a).
assert (P2 : strictly_ordered_pair' x y <-> strictly_ordered_pair y x) by (unfold strictly_ordered_pair, strictly_ordered_pair'; split; intros (a & b & H1 & H2 & H3); now exists b, a).
assert (S1 : starts_before x y <-> starts_after y x) by (unfold starts_before, starts_after; tauto).
assert (S2 : starts_before y x <-> starts_after x y) by (unfold starts_before, starts_after; tauto).
assert (S3 : ends_before x y <-> ends_after y x) by (unfold ends_before, ends_after; tauto).
assert (S4 : ends_before y x <-> ends_after x y) by (unfold ends_before, ends_after; tauto).
assert (S5 : start_together x y <-> start_together y x) by (unfold start_together; tauto).
assert (S6 : end_together x y <-> end_together y x) by (unfold end_together; tauto).
assert (N : s_equal x y -> s_nonempty x <-> s_nonempty y).
{ intros H. unfold s_nonempty. split; intros [r Hr]; exists r; now apply H. }
destruct o; cbn [overlap_spec converse]; tauto.
Qed.

Lemma overlap_converse {F G} (C : comparable F G) (x : itv F) (y : itv G) : wf x -> wf y ->
  exists o, returns (overlap x y) o /\ returns (overlap y x) (converse o).
Proof.
intros Wx Wy. destruct (overlap_correct C x y Wx Wy) as (o & H1 & H2).
destruct (overlap_correct (comparable_sym _ _ C) y x Wy Wx) as (o' & H3 & H4).
exists o. split; [easy|]. replace (converse o) with o'; [easy|].
apply H4, (proj1 (overlap_spec_converse x y o)). now apply H2.
Qed.

Lemma overlap_dec_correct {F G} (C : comparable F G) (x : ditv F) (y : ditv G) : wf_dec x -> wf_dec y ->
  exists o, returns (overlap_dec x y) o /\
  (o = o_undefined <-> snd x = ill \/ snd y = ill) /\
  forall o', o' <> o_undefined -> o = o' <-> snd x <> ill /\ snd y <> ill /\ overlap_spec (fst x) (fst y) o'.
Proof.
intros Wx Wy. unfold overlap_dec. vred.
destruct (deq_spec (snd x) ill) as [E|E]; vred.
{ exists o_undefined. split; [easy|]. split; [tauto|]. intros o' H. split; [now intros <-|tauto]. }
destruct (deq_spec (snd y) ill) as [E'|E']; vred.
{ exists o_undefined. split; [easy|]. split; [tauto|]. intros o' H. split; [now intros <-|tauto]. }
destruct (overlap_correct C (fst x) (fst y)) as (o & H1 & H2); [now apply wf_dec_wf..|].
exists o. split; [easy|]. split.
- rewrite H2. simpl. tauto.
- intros o' _. rewrite H2. tauto.
Qed.
