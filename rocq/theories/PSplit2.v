(** * Cutting operands: tangents with a hidden pole, functions of three operands, expressions *)
From Coq Require Import ZArith NArith QArith Reals Bool Lra Lia List.
From Flocq Require Import Core.Core IEEE754.BinarySingleNaN.
From Verif Require Import Fmt Spec FloatFacts Exc Deco SpecApi SpecDeco SpecTan SpecTan2 SpecMixed SpecExpr SpecSplit MBase PBase PConv PElem MTrig MArith MMixed MExpr SpecPoint PPoint POver Ex PTanF PIso POver3 PSplit.
From Verif Require C06 C12.
Local Open Scope R_scope.

Lemma tan_hidden_cut {F} (x x1 x2 : itv F) : wf x -> wf x1 -> wf x2 -> cut x x1 x2 -> pole_hidden F x ->
  ~ pole_hidden F x1 -> ~ pole_hidden F x2 -> ~ joins (un_bare u_tan x) (un_bare u_tan x1) (un_bare u_tan x2).
Proof.
intros W W1 W2 C H H1 H2 (z & z1 & z2 & Z & Z1 & Z2 & _ & E & _).
destruct (C12.C12_tan_hidden_refuted F x W H) as (z' & r & R1 & R2 & R3 & R4). apply R4. rewrite <- (returns_one _ _ _ Z R1). apply E.
apply C in R2 as [R2|R2].
- left. destruct (proj2 (C12.C12_tan_exact F x1 W1) H1) as (v & V & _ & K). rewrite (returns_one _ _ _ Z1 V). apply K. now exists r.
- right. destruct (proj2 (C12.C12_tan_exact F x2 W2) H2) as (v & V & _ & K). rewrite (returns_one _ _ _ Z2 V). apply K. now exists r.
Qed.
Definition c64 : float binary64 := fl binary64 0 0.
Lemma hidden64 : wf (tl64, tu64) /\ pole_hidden binary64 (tl64, tu64).
Proof.
split; [wf_tac|]. apply Classical_Prop.NNPP. intros N.
apply (C12.C12_tan_exact binary64 (tl64, tu64)) in N; [|wf_tac]. destruct N as (y & Y1 & _ & Y3).
destruct tan64_result as (z & Hz & Ez). rewrite <- (returns_one _ _ _ Hz Y1) in Y3.
assert (H0 : mem 0 z).
{ apply Y3. exists 0. split; [|split; [rewrite cos_0; lra|now rewrite tan_0]].
  split; cbn [fst snd]; [rewrite lb_fin, tl64_val by (vm_compute; reflexivity)|rewrite ub_fin, tu64_val by (vm_compute; reflexivity)];
    unfold al64, xu64, Q2R, Qnum, Qden; lra. }
destruct H0 as [_ H]. rewrite Ez in H.
assert (F2 : is_finite tu64 = true) by (vm_compute; reflexivity).
assert (Rb : is_RU (tan (B2R tu64)) (@mpfr_tan binary64 mode_UP tu64)) by (unfold mpfr_tan; rewrite F2; apply rround_RU).
destruct Rb as [_ B2]. rewrite tu64_val in B2. specialize (B2 fm1).
rewrite ub_fin, B2R_fm1 in B2 by apply is_finite_fm1. specialize (B2 (proj2 xu64_tan) 0 H).
rewrite ub_fin, B2R_fm1 in B2 by apply is_finite_fm1. lra.
Qed.
Lemma tan_cut_refuted : exists x x1 x2 : itv binary64, wf x /\ wf x1 /\ wf x2 /\ cut x x1 x2 /\
  ~ joins (un_bare u_tan x) (un_bare u_tan x1) (un_bare u_tan x2).
Proof.
destruct hidden64 as [W H]. exists (tl64, tu64), (tl64, c64), (c64, tu64).
assert (W1 : wf (tl64, c64)) by wf_tac. assert (W2 : wf (c64, tu64)) by wf_tac.
assert (B0 : B2R c64 = 0) by (unfold c64; b2r).
assert (C : cut (tl64, tu64) (tl64, c64) (c64, tu64)).
{ intros r. unfold mem. cbn [fst snd]. rewrite !lb_fin, !ub_fin by (vm_compute; reflexivity). rewrite tl64_val, tu64_val, B0.
  unfold al64, xu64, Q2R, Qnum, Qden. destruct (Rle_or_lt r 0); split; intros K; try lra. }
split; [exact W|]. split; [exact W1|]. split; [exact W2|]. split; [exact C|]. apply tan_hidden_cut; try assumption.
- apply C12.C12_no_hidden; [exact W1|]. right. right. left. split; [reflexivity|]. intros _. cbn [fst snd]. rewrite B0, tl64_val. unfold al64, Q2R, Qnum, Qden. lra.
- apply C12.C12_no_hidden; [exact W2|]. right. right. left. split; [reflexivity|]. intros _. cbn [fst snd]. rewrite B0, tu64_val. unfold xu64, Q2R, Qnum, Qden. lra.
Qed.

(** ** A box of operands that is the union of two boxes *)
Lemma bin_box {F} b (x x1 x2 y y1 y2 : itv F) : wf x -> wf x1 -> wf x2 -> wf y -> wf y1 -> wf y2 ->
  (forall p, box2 x y p <-> box2 x1 y1 p \/ box2 x2 y2 p) -> joins (bin_bare b x y) (bin_bare b x1 y1) (bin_bare b x2 y2).
Proof.
intros W W1 W2 V V1 V2 C. refine (join_tight _ _ _ _ _ _ (bin_tight b x y W V) (bin_tight b x1 y1 W1 V1) (bin_tight b x2 y2 W2 V2) _).
intros r. unfold image2. split.
- intros (s & t & H & K & D). destruct (proj1 (C (s, t)) (conj H K)) as [[P Q]|[P Q]]; [left|right]; exists s, t; now split.
- intros [(s & t & H & K & D)|(s & t & H & K & D)]; exists s, t; [destruct (proj2 (C (s, t)) (or_introl (conj H K))) as [P Q]|destruct (proj2 (C (s, t)) (or_intror (conj H K))) as [P Q]]; now split.
Qed.
Lemma bin_box_mixed T {F G} b (x x1 x2 : itv F) (y y1 y2 : itv G) : comparable T F -> comparable T G -> comparable F G ->
  wf x -> wf x1 -> wf x2 -> wf y -> wf y1 -> wf y2 ->
  (forall p, box2 x y p <-> box2 x1 y1 p \/ box2 x2 y2 p) -> joins (bin_bare_mixed T b x y) (bin_bare_mixed T b x1 y1) (bin_bare_mixed T b x2 y2).
Proof.
intros A B E W W1 W2 V V1 V2 C. refine (join_tight _ _ _ _ _ _ (bin_tight_mixed T b x y A B E W V) (bin_tight_mixed T b x1 y1 A B E W1 V1) (bin_tight_mixed T b x2 y2 A B E W2 V2) _).
intros r. unfold image2. split.
- intros (s & t & H & K & D). destruct (proj1 (C (s, t)) (conj H K)) as [[P Q]|[P Q]]; [left|right]; exists s, t; now split.
- intros [(s & t & H & K & D)|(s & t & H & K & D)]; exists s, t; [destruct (proj2 (C (s, t)) (or_introl (conj H K))) as [P Q]|destruct (proj2 (C (s, t)) (or_intror (conj H K))) as [P Q]]; now split.
Qed.
Lemma img3_box {F G H} f (x x1 x2 : itv F) (y y1 y2 : itv G) (w w1 w2 : itv H) : (forall p, box3 x y w p <-> box3 x1 y1 w1 p \/ box3 x2 y2 w2 p) ->
  forall r, image3 f x y w r <-> image3 f x1 y1 w1 r \/ image3 f x2 y2 w2 r.
Proof.
intros C r. unfold image3. split.
- intros (s & t & v & A & B & D & E). destruct (proj1 (C (s, t, v)) (conj (conj A B) D)) as [[[P Q] S]|[[P Q] S]]; [left|right]; exists s, t, v; exact (conj P (conj Q (conj S E))).
- intros [(s & t & v & A & B & D & E)|(s & t & v & A & B & D & E)]; exists s, t, v;
    [destruct (proj2 (C (s, t, v)) (or_introl (conj (conj A B) D))) as [[P Q] S]|destruct (proj2 (C (s, t, v)) (or_intror (conj (conj A B) D))) as [[P Q] S]]; exact (conj P (conj Q (conj S E))).
Qed.
Lemma fma_box {F} (x x1 x2 y y1 y2 w w1 w2 : itv F) : wf x -> wf x1 -> wf x2 -> wf y -> wf y1 -> wf y2 -> wf w -> wf w1 -> wf w2 ->
  (forall p, box3 x y w p <-> box3 x1 y1 w1 p \/ box3 x2 y2 w2 p) -> joins (fma x y w) (fma x1 y1 w1) (fma x2 y2 w2).
Proof.
intros W W1 W2 V V1 V2 U U1 U2 C.
exact (join_tight _ _ _ _ _ _ (C06.C06_fma_tightest F x y w W V U) (C06.C06_fma_tightest F x1 y1 w1 W1 V1 U1) (C06.C06_fma_tightest F x2 y2 w2 W2 V2 U2) (img3_box _ _ _ _ _ _ _ _ _ _ C)).
Qed.
Lemma fma_box_mixed T {F G H} (x x1 x2 : itv F) (y y1 y2 : itv G) (w w1 w2 : itv H) :
  comparable T F -> comparable T G -> comparable F G -> comparable T H -> comparable F H -> comparable G H ->
  wf x -> wf x1 -> wf x2 -> wf y -> wf y1 -> wf y2 -> wf w -> wf w1 -> wf w2 ->
  (forall p, box3 x y w p <-> box3 x1 y1 w1 p \/ box3 x2 y2 w2 p) -> joins (fma_mixed T x y w) (fma_mixed T x1 y1 w1) (fma_mixed T x2 y2 w2).
Proof.
intros A1 A2 A3 A4 A5 A6 W W1 W2 V V1 V2 U U1 U2 C. assert (A : comp3 T F G H) by (unfold comp3; tauto).
exact (join_tight _ _ _ _ _ _ (fma_m T x y w A W V U) (fma_m T x1 y1 w1 A W1 V1 U1) (fma_m T x2 y2 w2 A W2 V2 U2) (img3_box _ _ _ _ _ _ _ _ _ _ C)).
Qed.

(** ** In expressions with a repeated variable the whole box may give more than its parts *)
Definition cvf (_ : nat) : fmt := binary64.
Definition ce : expr cvf binary64 := Bin b_sub (@Var cvf 0) (@Var cvf 0).
Definition cX (l u e : Z) : ienv cvf := fun _ => (fl binary64 l e, fl binary64 u e).
Lemma expr_split_refuted : covered ce (cX 0 2 (-1)) (cX 0 1 (-1) :: cX 1 2 (-1) :: nil) /\ (forall i, wf (cX 0 2 (-1) i)) /\ (forall i, wf (cX 0 1 (-1) i)) /\ (forall i, wf (cX 1 2 (-1) i)) /\
  ~ joins (beval (cX 0 2 (-1)) ce) (beval (cX 0 1 (-1)) ce) (beval (cX 1 2 (-1)) ce).
Proof.
assert (B0 : B2R (fl binary64 0 (-1)) = 0) by b2r. assert (B1 : B2R (fl binary64 1 (-1)) = 1/2) by b2r. assert (B2 : B2R (fl binary64 2 (-1)) = 1) by b2r.
assert (Bm : B2R (fl binary64 (-1) (-1)) = -(1/2)) by b2r.
assert (M02 : forall r i, mem r (cX 0 2 (-1) i) <-> 0 <= r <= 1).
{ intros r i. unfold cX, mem, cvf. cbn [fst snd]. rewrite lb_fin, ub_fin by (vm_compute; reflexivity). now rewrite B0, B2. }
assert (M01 : forall r i, mem r (cX 0 1 (-1) i) <-> 0 <= r <= 1/2).
{ intros r i. unfold cX, mem, cvf. cbn [fst snd]. rewrite lb_fin, ub_fin by (vm_compute; reflexivity). now rewrite B0, B1. }
assert (M12 : forall r i, mem r (cX 1 2 (-1) i) <-> 1/2 <= r <= 1).
{ intros r i. unfold cX, mem, cvf. cbn [fst snd]. rewrite lb_fin, ub_fin by (vm_compute; reflexivity). now rewrite B1, B2. }
assert (W02 : forall i, wf (cX 0 2 (-1) i)) by (intros i; right; exists (1/2); apply M02; lra).
assert (W01 : forall i, wf (cX 0 1 (-1) i)) by (intros i; right; exists (1/2); apply M01; lra).
assert (W12 : forall i, wf (cX 1 2 (-1) i)) by (intros i; right; exists (1/2); apply M12; lra).
split.
- split.
  + intros Y [<-|[<-|[]]] i _ r H; apply M02; [apply M01 in H|apply M12 in H]; lra.
  + intros p Hp. assert (H0 : 0 <= p 0%nat <= 1) by (apply (M02 _ 0%nat), Hp; reflexivity).
    destruct (Rle_or_lt (p 0%nat) (1/2)) as [L|L].
    * exists (cX 0 1 (-1)). split; [now left|]. intros i Hi. destruct i as [|i]; [|discriminate Hi]. apply M01. lra.
    * exists (cX 1 2 (-1)). split; [right; now left|]. intros i Hi. destruct i as [|i]; [|discriminate Hi]. apply M12. lra.
- split; [exact W02|]. split; [exact W01|]. split; [exact W12|].
  intros (z & z1 & z2 & Z & Z1 & Z2 & Wz & En & Mi).
  destruct (bin_tight b_sub (cX 0 2 (-1) 0%nat) (cX 0 2 (-1) 0%nat) (W02 _) (W02 _)) as (v & V & _ & E & _).
  destruct (bin_tight b_sub (cX 0 1 (-1) 0%nat) (cX 0 1 (-1) 0%nat) (W01 _) (W01 _)) as (v1 & V1 & _ & _ & E1).
  destruct (bin_tight b_sub (cX 1 2 (-1) 0%nat) (cX 1 2 (-1) 0%nat) (W12 _) (W12 _)) as (v2 & V2 & _ & _ & E2).
  set (w := (fl binary64 (-1) (-1), fl binary64 1 (-1)) : itv binary64).
  assert (Mw : forall r, mem r w <-> -(1/2) <= r <= 1/2).
  { intros r. unfold w, mem. cbn [fst snd]. rewrite lb_fin, ub_fin by (vm_compute; reflexivity). now rewrite Bm, B1. }
  assert (Ww : wf w) by (right; exists 0; apply Mw; lra).
  assert (H : mem 1 w).
  { apply (Mi w Ww); [|replace z with v by (exact (returns_one _ _ _ V Z))].
    - intros r [K|K]; [replace z1 with v1 in K by (exact (returns_one _ _ _ V1 Z1)); revert K; apply (E1 w Ww)|replace z2 with v2 in K by (exact (returns_one _ _ _ V2 Z2)); revert K; apply (E2 w Ww)];
        intros t (a & c & Ha & Hc & _ & ->); apply Mw; cbn [bin_val]; [apply M01 in Ha, Hc|apply M12 in Ha, Hc]; lra.
    - apply E. exists 1, 0. split; [apply M02; lra|]. split; [apply M02; lra|]. split; [easy|]. cbn [bin_val]. lra. }
  apply Mw in H. lra.
Qed.
