(** * Proofs: multiplication and fused multiply-add are tightest *)

From Coq Require Import ZArith NArith Reals Bool Lia Lra Psatz.
From Flocq Require Import Core.Core IEEE754.BinarySingleNaN.
From Verif Require Import Fmt Spec FloatFacts Exc Deco SpecApi MBase PBase MBool MArith PArith.

Local Open Scope R_scope.

(** Simplify float comparisons to real ones. *)
Ltac fin := solve [assumption | reflexivity | apply is_finite_f1 | apply is_finite_fm1 ].
Ltac fcmp_in H :=
  rewrite ?fle_fin, ?flt_fin, ?feq_fin, ?fge_fin, ?fgt_fin, ?fne_fin,
    ?flt_pinf_l, ?flt_minf_r, ?feq_minf_l, ?feq_minf_r, ?feq_pinf_l, ?feq_pinf_r,
    ?flt_minf_l, ?flt_pinf_r, ?fle_pinf_l, ?fle_minf_r in H by fin.
Ltac rcase :=
  match goal with
  | |- context [Rle_bool ?a ?b] => destruct (Rle_bool_spec a b)
  | |- context [Rlt_bool ?a ?b] => destruct (Rlt_bool_spec a b)
  | |- context [Req_bool ?a ?b] => destruct (Req_bool_spec a b)
  end; cbn [andb orb negb].
Ltac fcmp :=
  unfold fge, fgt, fne;
  rewrite ?fle_nan_l, ?fle_nan_r, ?flt_nan_l, ?flt_nan_r, ?feq_nan_l, ?feq_nan_r;
  repeat match goal with
  | |- context [Bleb ?a ?b] => change (Bleb a b) with (fle a b)
  | |- context [Bltb ?a ?b] => change (Bltb a b) with (flt a b)
  | |- context [Beqb ?a ?b] => change (Beqb a b) with (feq a b)
  | |- context [fle ?a ?b] => first
      [ rewrite (fle_fin a b) by fin | rewrite (fle_minf_l b) by (apply isnan_fin; fin)
      | rewrite (fle_pinf_r a) by (apply isnan_fin; fin)
      | rewrite (fle_pinf_l b) by fin | rewrite (fle_minf_r a) by fin
      | change (fle a b) with true | change (fle a b) with false ]
  | |- context [flt ?a ?b] => first
      [ rewrite (flt_fin a b) by fin | rewrite (flt_minf_l b) by fin
      | rewrite (flt_pinf_r a) by fin | rewrite (flt_pinf_l b) | rewrite (flt_minf_r a)
      | change (flt a b) with true | change (flt a b) with false ]
  | |- context [feq ?a ?b] => first
      [ rewrite (feq_fin a b) by fin | rewrite (feq_minf_l b) by fin | rewrite (feq_minf_r a) by fin
      | rewrite (feq_pinf_l b) by fin | rewrite (feq_pinf_r a) by fin
      | change (feq a b) with true | change (feq a b) with false ]
  end; cbn [andb orb negb].

Section M.
Context {F : fmt}.
Implicit Types a b c l u : float F.
Implicit Types x y z : itv F.

Definition neg_f a := flt a f0 = true.
Definition pos_f a := flt f0 a = true.

Lemma neg_f_fin a : is_finite a = true -> neg_f a -> B2R a < 0.
Proof.
unfold neg_f. intros H. rewrite flt_fin by fin. simpl B2R.
case Rlt_bool_spec; [easy|discriminate].
Qed.
Lemma pos_f_fin a : is_finite a = true -> pos_f a -> 0 < B2R a.
Proof.
unfold pos_f. intros H. rewrite flt_fin by fin. simpl B2R.
case Rlt_bool_spec; [easy|discriminate].
Qed.
Lemma neg_f_intro a : is_finite a = true -> B2R a < 0 -> neg_f a.
Proof. intros H1 H2. unfold neg_f. rewrite flt_fin by fin. now apply Rlt_bool_true. Qed.
Lemma pos_f_intro a : is_finite a = true -> 0 < B2R a -> pos_f a.
Proof. intros H1 H2. unfold pos_f. rewrite flt_fin by fin. now apply Rlt_bool_true. Qed.
Lemma neg_f_minf : neg_f (@fminf F). Proof. reflexivity. Qed.
Lemma pos_f_pinf : pos_f (@finf F). Proof. reflexivity. Qed.

Lemma rmul_sym m a b : rmul m a b = rmul m b a.
Proof.
destruct (is_finite a) eqn:Ha, (is_finite b) eqn:Hb.
2-4: destruct a as [sa|sa| |sa ma ea Ea], b as [sb|sb| |sb mb eb Eb]; simpl in *; try discriminate; try easy;
  unfold rmul; simpl; now rewrite xorb_comm.
apply B2SF_inj.
destruct a as [sa|sa| |sa ma ea Ea], b as [sb|sb| |sb mb eb Eb]; simpl in *; try discriminate; try easy;
try now rewrite xorb_comm.
rewrite !B2SF_SF2B. rewrite Pos.mul_comm, Z.add_comm, xorb_comm. easy.
Qed.

Lemma rmul_pinf_pos m b : pos_f b -> rmul m finf b = finf.
Proof. destruct b as [[]|[]| |[]]; easy. Qed.
Lemma rmul_pinf_neg m b : neg_f b -> rmul m finf b = fminf.
Proof. destruct b as [[]|[]| |[]]; easy. Qed.
Lemma rmul_minf_pos m b : pos_f b -> rmul m fminf b = fminf.
Proof. destruct b as [[]|[]| |[]]; easy. Qed.
Lemma rmul_minf_neg m b : neg_f b -> rmul m fminf b = finf.
Proof. destruct b as [[]|[]| |[]]; easy. Qed.

Lemma rmul_RD a b : is_finite a = true -> is_finite b = true -> is_RD (B2R a * B2R b) (rmul mode_DN a b).
Proof. intros; now apply rnds_DN, rmul_rnds. Qed.
Lemma rmul_RU a b : is_finite a = true -> is_finite b = true -> is_RU (B2R a * B2R b) (rmul mode_UP a b).
Proof. intros; now apply rnds_UP, rmul_rnds. Qed.

(** An end point with a sign has members of that sign. *)
Lemma endp_neg a x : endp a x -> neg_f a -> exists r, mem r x /\ r < 0.
Proof.
intros [[H1 H2]|[[H1 H2]|[H1 H2]]] Hn.
- exists (B2R a). split; [easy|]. now apply neg_f_fin.
- apply (H2 0).
- now subst.
Qed.
Lemma endp_pos a x : endp a x -> pos_f a -> exists r, mem r x /\ 0 < r.
Proof.
intros [[H1 H2]|[[H1 H2]|[H1 H2]]] Hn.
- exists (B2R a). split; [easy|]. now apply pos_f_fin.
- now subst.
- apply (H2 0).
Qed.

Notation SM x y := (image2 everywhere2 Rmult x y).

Lemma image2_sym x y t : SM x y t <-> SM y x t.
Proof. split; intros (r & s & H1 & H2 & _ & ->); exists s, r; (split; [easy|split; [easy|split; [easy|apply Rmult_comm]]]). Qed.

Lemma unb_mul x y s0 B : mem s0 y -> s0 <> 0 -> (forall B, exists r, mem r x /\ (if Rlt_bool 0 s0 then r < B else B < r)) ->
  exists t, SM x y t /\ t < B.
Proof.
intros Hs Hs0 H. destruct (H (B / s0)) as (r & Hr & Hr').
exists (r * s0). split; [now exists r, s0|].
replace B with (B / s0 * s0) at 1 by (field; easy).
revert Hr'. case Rlt_bool_spec; intros; nra.
Qed.
Lemma unb_mul_up x y s0 B : mem s0 y -> s0 <> 0 -> (forall B, exists r, mem r x /\ (if Rlt_bool 0 s0 then B < r else r < B)) ->
  exists t, SM x y t /\ B < t.
Proof.
intros Hs Hs0 H. destruct (H (B / s0)) as (r & Hr & Hr').
exists (r * s0). split; [now exists r, s0|].
replace B with (B / s0 * s0) at 1 by (field; easy).
revert Hr'. case Rlt_bool_spec; intros; nra.
Qed.

Lemma glow_mul a b x y : endp a x -> endp b y ->
  (is_finite a = true -> is_finite b = true -> forall r s, mem r x -> mem s y -> B2R a * B2R b <= r * s) ->
  (a = finf -> neg_f b) -> (a = fminf -> pos_f b) ->
  (b = finf -> neg_f a) -> (b = fminf -> pos_f a) ->
  glow (SM x y) (rmul mode_DN a b).
Proof.
intros Ea Eb Hf Hap Ham Hbp Hbm.
pose proof Ea as [[Fa Ma]|[[Ia Ma]|[Ia Ma]]].
- pose proof Eb as [[Fb Mb]|[[Ib Mb]|[Ib Mb]]].
  + apply glow_glb with (B2R a * B2R b); [|now apply rmul_RD].
    apply glbR_min; [now exists (B2R a), (B2R b)|].
    intros t (r & s & Hr & Hs & _ & ->). auto.
  + rewrite rmul_sym, Ib, rmul_minf_pos by auto. apply glow_unb. intros B.
    apply Hbm, pos_f_fin in Ib; [|easy].
    destruct (unb_mul y x (B2R a) B Ma) as (t & Ht & Ht'); [lra| |].
    * rewrite Rlt_bool_true by easy. apply Mb.
    * exists t. split; [now apply image2_sym|easy].
  + rewrite rmul_sym, Ib, rmul_pinf_neg by auto. apply glow_unb. intros B.
    apply Hbp, neg_f_fin in Ib; [|easy].
    destruct (unb_mul y x (B2R a) B Ma) as (t & Ht & Ht'); [lra| |].
    * rewrite Rlt_bool_false by lra. apply Mb.
    * exists t. split; [now apply image2_sym|easy].
- rewrite Ia, rmul_minf_pos by auto. apply glow_unb. intros B.
  destruct (endp_pos b y) as (s & Hs & Hs'); auto.
  apply unb_mul with s; [easy|lra|]. rewrite Rlt_bool_true by easy. apply Ma.
- rewrite Ia, rmul_pinf_neg by auto. apply glow_unb. intros B.
  destruct (endp_neg b y) as (s & Hs & Hs'); auto.
  apply unb_mul with s; [easy|lra|]. rewrite Rlt_bool_false by lra. apply Ma.
Qed.

Lemma gupp_mul a b x y : endp a x -> endp b y ->
  (is_finite a = true -> is_finite b = true -> forall r s, mem r x -> mem s y -> r * s <= B2R a * B2R b) ->
  (a = finf -> pos_f b) -> (a = fminf -> neg_f b) ->
  (b = finf -> pos_f a) -> (b = fminf -> neg_f a) ->
  gupp (SM x y) (rmul mode_UP a b).
Proof.
intros Ea Eb Hf Hap Ham Hbp Hbm.
pose proof Ea as [[Fa Ma]|[[Ia Ma]|[Ia Ma]]].
- pose proof Eb as [[Fb Mb]|[[Ib Mb]|[Ib Mb]]].
  + apply gupp_lub with (B2R a * B2R b); [|now apply rmul_RU].
    apply lubR_max; [now exists (B2R a), (B2R b)|].
    intros t (r & s & Hr & Hs & _ & ->). auto.
  + rewrite rmul_sym, Ib, rmul_minf_neg by auto. apply gupp_unb. intros B.
    apply Hbm, neg_f_fin in Ib; [|easy].
    destruct (unb_mul_up y x (B2R a) B Ma) as (t & Ht & Ht'); [lra| |].
    * rewrite Rlt_bool_false by lra. apply Mb.
    * exists t. split; [now apply image2_sym|easy].
  + rewrite rmul_sym, Ib, rmul_pinf_pos by auto. apply gupp_unb. intros B.
    apply Hbp, pos_f_fin in Ib; [|easy].
    destruct (unb_mul_up y x (B2R a) B Ma) as (t & Ht & Ht'); [lra| |].
    * rewrite Rlt_bool_true by lra. apply Mb.
    * exists t. split; [now apply image2_sym|easy].
- rewrite Ia, rmul_minf_neg by auto. apply gupp_unb. intros B.
  destruct (endp_neg b y) as (s & Hs & Hs'); auto.
  apply unb_mul_up with s; [easy|lra|]. rewrite Rlt_bool_false by lra. apply Ma.
- rewrite Ia, rmul_pinf_pos by auto. apply gupp_unb. intros B.
  destruct (endp_pos b y) as (s & Hs & Hs'); auto.
  apply unb_mul_up with s; [easy|lra|]. rewrite Rlt_bool_true by lra. apply Ma.
Qed.

(** ** Union of two sets *)
Lemma lb_isnan a r : lb a r -> isnan a = false.
Proof. now destruct a. Qed.
Lemma ub_isnan a r : ub a r -> isnan a = false.
Proof. now destruct a. Qed.
Lemma lb_fle a b r : fle a b = true -> lb b r -> lb a r.
Proof.
destruct (fviewP a) as [ | | |a Fa], (fviewP b) as [ | | |b Fb]; try easy.
all: try (rewrite ?fle_nan_r, ?fle_pinf_l, ?fle_minf_r by easy; easy).
rewrite fle_fin by easy. rewrite !lb_fin by easy. case Rle_bool_spec; [lra|easy].
Qed.
Lemma ub_fle a b r : fle a b = true -> ub a r -> ub b r.
Proof.
destruct (fviewP a) as [ | | |a Fa], (fviewP b) as [ | | |b Fb]; try easy.
all: try (rewrite ?fle_nan_r, ?fle_pinf_l, ?fle_minf_r by easy; easy).
rewrite fle_fin by easy. rewrite !ub_fin by easy. case Rle_bool_spec; [lra|easy].
Qed.
Lemma fle_total a b : isnan a = false -> isnan b = false -> fle a b = false -> fle b a = true.
Proof.
destruct (fviewP a) as [ | | |a Fa], (fviewP b) as [ | | |b Fb]; try easy;
intros Ha Hb; try (rewrite ?fle_minf_l, ?fle_pinf_r by easy; easy).
rewrite !fle_fin by easy. case Rle_bool_spec; [easy|intros H _]. apply Rle_bool_true. lra.
Qed.
Lemma feq_f0 a : feq a f0 = true -> is_finite a = true /\ B2R a = 0.
Proof.
destruct (fviewP a) as [ | | |a Fa]; try easy.
rewrite feq_fin by fin. simpl. case Req_bool_spec; easy.
Qed.

Lemma mpfr_min_cases a b : isnan a = false -> isnan b = false ->
  (mpfr_min a b = a /\ fle a b = true) \/ (mpfr_min a b = b /\ fle b a = true).
Proof.
intros Ha Hb. unfold mpfr_min. rewrite Ha, Hb.
destruct (feq a f0) eqn:Ea; destruct (feq b f0) eqn:Eb; simpl.
- apply feq_f0 in Ea; destruct Ea as [Fa Za]. apply feq_f0 in Eb; destruct Eb as [Fb Zb].
  rewrite !fle_fin by easy. rewrite Za, Zb, !Rle_bool_true by lra.
  destruct (Bsign a); [left|right]; easy.
- destruct (fle a b) eqn:E; [left|right]; auto using fle_total.
- destruct (fle a b) eqn:E; [left|right]; auto using fle_total.
- destruct (fle a b) eqn:E; [left|right]; auto using fle_total.
Qed.
Lemma mpfr_max_cases a b : isnan a = false -> isnan b = false ->
  (mpfr_max a b = a /\ fle b a = true) \/ (mpfr_max a b = b /\ fle a b = true).
Proof.
intros Ha Hb. unfold mpfr_max. rewrite Ha, Hb.
destruct (feq a f0) eqn:Ea; destruct (feq b f0) eqn:Eb; simpl.
- apply feq_f0 in Ea; destruct Ea as [Fa Za]. apply feq_f0 in Eb; destruct Eb as [Fb Zb].
  rewrite !fle_fin by easy. rewrite Za, Zb, !Rle_bool_true by lra.
  destruct (Bsign a); [right|left]; easy.
- destruct (fle a b) eqn:E; [right|left]; auto using fle_total.
- destruct (fle a b) eqn:E; [right|left]; auto using fle_total.
- destruct (fle a b) eqn:E; [right|left]; auto using fle_total.
Qed.

Lemma glow_union (S S1 S2 : R -> Prop) l1 l2 :
  (forall r, S r <-> S1 r \/ S2 r) -> (exists r, S1 r) -> (exists r, S2 r) ->
  glow S1 l1 -> glow S2 l2 -> glow S (mpfr_min l1 l2).
Proof.
intros HS [r1 H1] [r2 H2] [A1 B1] [A2 B2].
destruct (mpfr_min_cases l1 l2) as [[E H]|[E H]].
- now apply lb_isnan with r1, A1.
- now apply lb_isnan with r2, A2.
- rewrite E. split.
  + intros r Hr. apply HS in Hr. destruct Hr as [Hr|Hr]; [auto|]. apply lb_fle with l2; auto.
  + intros l' Hl'. apply B1. intros r Hr. apply Hl', HS; auto.
- rewrite E. split.
  + intros r Hr. apply HS in Hr. destruct Hr as [Hr|Hr]; [apply lb_fle with l1|]; auto.
  + intros l' Hl'. apply B2. intros r Hr. apply Hl', HS; auto.
Qed.
Lemma gupp_union (S S1 S2 : R -> Prop) l1 l2 :
  (forall r, S r <-> S1 r \/ S2 r) -> (exists r, S1 r) -> (exists r, S2 r) ->
  gupp S1 l1 -> gupp S2 l2 -> gupp S (mpfr_max l1 l2).
Proof.
intros HS [r1 H1] [r2 H2] [A1 B1] [A2 B2].
destruct (mpfr_max_cases l1 l2) as [[E H]|[E H]].
- now apply ub_isnan with r1, A1.
- now apply ub_isnan with r2, A2.
- rewrite E. split.
  + intros r Hr. apply HS in Hr. destruct Hr as [Hr|Hr]; [auto|]. apply ub_fle with l2; auto.
  + intros l' Hl'. apply B1. intros r Hr. apply Hl', HS; auto.
- rewrite E. split.
  + intros r Hr. apply HS in Hr. destruct Hr as [Hr|Hr]; [apply ub_fle with l1|]; auto.
  + intros l' Hl'. apply B2. intros r Hr. apply Hl', HS; auto.
Qed.

End M.

Ltac signs := first [ exact neg_f_minf | exact pos_f_pinf
  | apply neg_f_intro; [assumption|lra] | apply pos_f_intro; [assumption|lra]
  | exfalso; lra | discriminate
  | match goal with H : is_finite ?a = true |- _ => subst a; discriminate H end].
Ltac memx :=
  repeat match goal with
  | H : mem _ _ |- _ => destruct H as [? ?]
  end; cbn [fst snd] in *;
  repeat match goal with
  | H : lb _ _ |- _ => first [rewrite lb_fin in H by fin | clear H]
  | H : ub _ _ |- _ => first [rewrite ub_fin in H by fin | clear H]
  end; rewrite ?B2R_f0 in *.

Section P.
Context {F : fmt}.
Implicit Types a b c l u : float F.
Implicit Types x y z : itv F.

Lemma image2_split_l (dom : R -> R -> Prop) f (x x1 x2 y : itv F) t :
  (forall r, mem r x <-> mem r x1 \/ mem r x2) ->
  image2 dom f x y t <-> image2 dom f x1 y t \/ image2 dom f x2 y t.
Proof.
intros H. split.
- intros (r & s & Hr & Hs & Hd & ->). apply H in Hr. destruct Hr; [left|right]; now exists r, s.
- intros [(r & s & Hr & Hs & Hd & ->)|(r & s & Hr & Hs & Hd & ->)]; exists r, s; rewrite H; auto.
Qed.

Lemma mem_split0 x : wview x -> isnan (fst x) = false -> lb (fst x) 0 -> ub (snd x) 0 ->
  forall r, mem r x <-> mem r (fst x, f0) \/ mem r (f0, snd x).
Proof.
intros W N Hl Hu r. unfold mem; simpl. split.
- intros [H1 H2]. destruct (Rle_or_lt r 0); [left|right]; split; try easy; lra.
- intros [[H1 H2]|[H1 H2]]; split; try easy.
  + now apply ub_mono with 0.
  + now apply lb_mono with 0.
Qed.
Lemma wview_left0 x : wview x -> isnan (fst x) = false -> lb (fst x) 0 -> wview (fst x, @f0 F).
Proof.
intros [ | |u Hu|l Hl|l u Hl Hu Hlu] N H; simpl in *; try easy.
- now apply W_left.
- now apply W_left.
- rewrite lb_fin in H by easy. now apply W_bnd.
- rewrite lb_fin in H by easy. now apply W_bnd.
Qed.
Lemma wview_right0 x : wview x -> isnan (fst x) = false -> ub (snd x) 0 -> wview (@f0 F, snd x).
Proof.
intros [ | |u Hu|l Hl|l u Hl Hu Hlu] N H; simpl in *; try easy.
- now apply W_right.
- rewrite ub_fin in H by easy. now apply W_bnd.
- now apply W_right.
- rewrite ub_fin in H by easy. now apply W_bnd.
Qed.

Lemma nonzero_mem x : wview x -> isnan (fst x) = false -> feq (fst x) f0 && feq (snd x) f0 = false ->
  exists r, mem r x /\ r <> 0.
Proof.
intros W N Z. pose proof (endp_l x W N) as Hl. pose proof (endp_u x W N) as Hu.
destruct Hl as [[H1 H2]|[[H1 H2]|[H1 H2]]].
- destruct (Req_dec (B2R (fst x)) 0) as [E|E]; [|now exists (B2R (fst x))].
  destruct Hu as [[H3 H4]|[[H3 H4]|[H3 H4]]].
  + exists (B2R (snd x)). split; [easy|]. intros E'. revert Z.
    rewrite !feq_fin by fin. rewrite E, E'. simpl. now rewrite Req_bool_true.
  + destruct (H4 0) as (r & Hr & Hr'). exists r. split; [easy|lra].
  + destruct (H4 0) as (r & Hr & Hr'). exists r. split; [easy|lra].
- destruct (H2 0) as (r & Hr & Hr'). exists r. split; [easy|lra].
- destruct (H2 0) as (r & Hr & Hr'). exists r. split; [easy|lra].
Qed.

(** The nine-way case distinction shared by [mul] and [fma]. *)
Section Gen.
Variables (SS : itv F -> itv F -> R -> Prop) (L U : float F -> float F -> float F).
Hypothesis HL : forall a b x y, endp a x -> endp b y ->
  (is_finite a = true -> is_finite b = true -> forall r s, mem r x -> mem s y -> B2R a * B2R b <= r * s) ->
  (a = finf -> neg_f b) -> (a = fminf -> pos_f b) ->
  (b = finf -> neg_f a) -> (b = fminf -> pos_f a) -> glow (SS x y) (L a b).
Hypothesis HU : forall a b x y, endp a x -> endp b y ->
  (is_finite a = true -> is_finite b = true -> forall r s, mem r x -> mem s y -> r * s <= B2R a * B2R b) ->
  (a = finf -> pos_f b) -> (a = fminf -> neg_f b) ->
  (b = finf -> pos_f a) -> (b = fminf -> neg_f a) -> gupp (SS x y) (U a b).
Hypothesis Hsplit : forall x x1 x2 y t, (forall r, mem r x <-> mem r x1 \/ mem r x2) ->
  (SS x y t <-> SS x1 y t \/ SS x2 y t).
Hypothesis Hne : forall x y r s, mem r x -> mem s y -> exists t, SS x y t.

Ltac corner :=
  first [ apply HL | apply HU ];
  [ assumption | assumption
  | intros ? ? r s Hr Hs; try discriminate; memx; try lra; nra
  | intros; signs | intros; signs | intros; signs | intros; signs ].

Lemma body_tightest x y : wview x -> wview y -> isnan (fst x) = false -> isnan (fst y) = false ->
  feq (fst x) f0 && feq (snd x) f0 = false -> feq (fst y) f0 && feq (snd y) f0 = false ->
  feq (fst x) fminf && feq (snd x) finf = false -> feq (fst y) fminf && feq (snd y) finf = false ->
  tightest (SS x y)
   (let xl := fst x in let xu := snd x in let yl := fst y in let yu := snd y in
    if fle yu f0 then
      if fle xu f0 then (L xu yu, U xl yl)
      else if fge xl f0 then (L xu yl, U xl yu)
      else (L xu yl, U xl yl)
    else if fge yl f0 then
      if fle xu f0 then (L xl yu, U xu yl)
      else if fge xl f0 then (L xl yl, U xu yu)
      else (L xl yu, U xu yu)
    else
      if fle xu f0 then (L xl yu, U xl yl)
      else if fge xl f0 then (L xu yl, U xu yu)
      else (mpfr_min (L xl yu) (L xu yl), mpfr_max (U xl yl) (U xu yu))).
Proof.
intros Wx Wy Ex Ey Zx Zy Ix Iy.
pose proof (wview_nonempty x Wx Ex) as [rx Hrx]. pose proof (wview_nonempty y Wy Ey) as [ry Hry].
pose proof (endp_l x Wx Ex) as Lx. pose proof (endp_u x Wx Ex) as Ux.
pose proof (endp_l y Wy Ey) as Ly. pose proof (endp_u y Wy Ey) as Uy.
assert (NE : exists r, SS x y r) by now apply Hne with rx ry.
cbv zeta.
pose proof (nonzero_mem x Wx Ex Zx) as NX. pose proof (nonzero_mem y Wy Ey Zy) as NY.
(* splitting [x] at zero, for the case where both straddle zero *)
pose proof (mem_split0 x Wx Ex) as SP.
pose proof (wview_left0 x Wx Ex) as WL. pose proof (wview_right0 x Wx Ex) as WR.
destruct Wx as [ | |xu Fxu|xl Fxl|xl xu Fxl Fxu Hx], Wy as [ | |yu Fyu|yl Fyl|yl yu Fyl Fyu Hy];
  try discriminate; cbn [fst snd] in *; clear Zx Zy Ix Iy; fcmp;
  rewrite ?B2R_f0; repeat rcase; try (exfalso; lra);
  apply tightest_intro; try assumption; try corner.
all: try (destruct NX as (x0 & [X1 X2] & NX); destruct NY as (y0 & [Y1 Y2] & NY);
  apply Rdichotomy in NX; apply Rdichotomy in NY; cbn [fst snd] in *;
  try rewrite lb_fin in X1 by fin; try rewrite lb_fin in Y1 by fin; try rewrite ub_fin in X2 by fin; try rewrite ub_fin in Y2 by fin;
  destruct NX, NY; corner).
all: assert (SP' := SP ltac:(simpl fst; try rewrite lb_fin by fin; try easy; lra) ltac:(simpl snd; try rewrite ub_fin by fin; try easy; lra));
  assert (WL' := WL ltac:(simpl fst; try rewrite lb_fin by fin; try easy; lra));
  assert (WR' := WR ltac:(simpl snd; try rewrite ub_fin by fin; try easy; lra));
  clear SP WL WR;
  pose proof (endp_l _ WL' ltac:(first [apply isnan_fin; fin|reflexivity])) as L1;
  pose proof (endp_u _ WL' ltac:(first [apply isnan_fin; fin|reflexivity])) as U1;
  pose proof (endp_l _ WR' ltac:(first [apply isnan_fin; fin|reflexivity])) as L2;
  pose proof (endp_u _ WR' ltac:(first [apply isnan_fin; fin|reflexivity])) as U2;
  cbn [fst snd] in *.
all: destruct (wview_nonempty _ WL' ltac:(first [apply isnan_fin; fin|reflexivity])) as [r1 Hr1];
  destruct (wview_nonempty _ WR' ltac:(first [apply isnan_fin; fin|reflexivity])) as [r2 Hr2];
  match goal with
  | |- glow (SS (?xl,?xu) ?y) _ =>
     apply (glow_union _ (SS (xl, f0) y) (SS (f0, xu) y))
  | |- gupp (SS (?xl,?xu) ?y) _ =>
     apply (gupp_union _ (SS (xl, f0) y) (SS (f0, xu) y))
  end;
  [ intros t; apply Hsplit; apply SP' | now apply Hne with r1 ry | now apply Hne with r2 ry | | ];
  corner.
Qed.
End Gen.

Lemma mul_tightest x y : wf x -> wf y ->
  computes_tightest (mul x y) (image2 everywhere2 Rmult x y).
Proof.
intros Wx Wy. unfold mul. vred.
destruct (isnan (fst x)) eqn:Ex; vred.
{ eapply ct_ret; [reflexivity|]. apply tightest_empty. intros; now apply image2_empty_l. }
destruct (isnan (fst y)) eqn:Ey; vred.
{ eapply ct_ret; [reflexivity|]. apply tightest_empty. intros; now apply image2_empty_r. }
pose proof (wf_nonempty x Wx Ex) as [rx Hrx]. pose proof (wf_nonempty y Wy Ey) as [ry Hry].
pose proof Wx as Wx'. pose proof Wy as Wy'.
apply wf_view in Wx. apply wf_view in Wy.
destruct (feq (fst x) f0 && feq (snd x) f0) eqn:Zx.
{ apply andb_prop in Zx. destruct Zx as [Z1 Z2]. apply feq_f0 in Z1. apply feq_f0 in Z2.
  eapply ct_ret; [reflexivity|]. apply tightest_self; [easy|].
  assert (H : forall r, mem r x <-> r = 0).
  { intros r. unfold mem. rewrite lb_fin, ub_fin by easy. lra. }
  intros r. rewrite H. split.
  - intros (r1 & s & Hr & Hs & _ & ->). apply H in Hr. subst. ring.
  - intros ->. exists 0, ry. rewrite H. split; [easy|split; [easy|split; [easy|ring]]]. }
destruct (feq (fst y) f0 && feq (snd y) f0) eqn:Zy.
{ apply andb_prop in Zy. destruct Zy as [Z1 Z2]. apply feq_f0 in Z1. apply feq_f0 in Z2.
  eapply ct_ret; [reflexivity|]. apply tightest_self; [easy|].
  assert (H : forall r, mem r y <-> r = 0).
  { intros r. unfold mem. rewrite lb_fin, ub_fin by easy. lra. }
  intros r. rewrite H. split.
  - intros (r1 & s & Hr & Hs & _ & ->). apply H in Hs. subst. ring.
  - intros ->. exists rx, 0. rewrite H. split; [easy|split; [easy|split; [easy|ring]]]. }
destruct (feq (fst x) fminf && feq (snd x) finf) eqn:Ix.
{ apply andb_prop in Ix. destruct Ix as [I1 I2].
  assert (x = (fminf, finf)) as ->.
  { inversion Wx; subst; simpl in I1, I2; try easy; [now rewrite feq_pinf_r in I2 | now rewrite feq_minf_r in I1 |now rewrite feq_minf_r in I1]. }
  destruct (nonzero_mem y Wy Ey Zy) as (s0 & Hs0 & Ns0).
  eapply ct_ret; [reflexivity|]. apply tightest_intro.
  - now exists (rx * ry), rx, ry.
  - apply glow_unb. intros B. apply unb_mul with s0; try easy. intros B'.
    destruct Rlt_bool; [exists (B' - 1)|exists (B' + 1)]; (split; [now split|lra]).
  - apply gupp_unb. intros B. apply unb_mul_up with s0; try easy. intros B'.
    destruct Rlt_bool; [exists (B' + 1)|exists (B' - 1)]; (split; [now split|lra]). }
destruct (feq (fst y) fminf && feq (snd y) finf) eqn:Iy.
{ apply andb_prop in Iy. destruct Iy as [I1 I2].
  assert (y = (fminf, finf)) as ->.
  { inversion Wy; subst; simpl in I1, I2; try easy; [now rewrite feq_pinf_r in I2 | now rewrite feq_minf_r in I1 |now rewrite feq_minf_r in I1]. }
  destruct (nonzero_mem x Wx Ex Zx) as (s0 & Hs0 & Ns0).
  eapply ct_ret; [reflexivity|]. apply tightest_intro.
  - now exists (rx * ry), rx, ry.
  - apply glow_unb. intros B. destruct (unb_mul (fminf, finf) x s0 B) as (t & Ht & Ht'); try easy.
    2: exists t; split; [now apply image2_sym|easy].
    intros B'. destruct Rlt_bool; [exists (B' - 1)|exists (B' + 1)]; (split; [now split|lra]).
  - apply gupp_unb. intros B. destruct (unb_mul_up (fminf, finf) x s0 B) as (t & Ht & Ht'); try easy.
    2: exists t; split; [now apply image2_sym|easy].
    intros B'. destruct Rlt_bool; [exists (B' + 1)|exists (B' - 1)]; (split; [now split|lra]). }
eapply ct_ret; [reflexivity|].
apply (body_tightest (fun x y => image2 everywhere2 Rmult x y) (rmul mode_DN) (rmul mode_UP)); try easy.
- intros; now apply glow_mul.
- intros; now apply gupp_mul.
- intros; now apply image2_split_l.
- intros x' y' r s Hr Hs. now exists (r * s), r, s.
Qed.
End P.
