(** * Proofs: mixed-type operations *)

From Coq Require Import ZArith NArith Reals Bool Lia Lra.
From Flocq Require Import Core.Core IEEE754.BinarySingleNaN.
From Verif Require Import Fmt Spec FloatFacts Exc Deco SpecApi SpecElem SpecDeco SpecMixed MBase PBase MBool MArith PArith PConv
  MElem MPow MTrig MAtan2 MDec PDec PDecF PSetop MMixed.

Local Open Scope R_scope.

(** ** The wide type contains all others *)
Lemma within_trans F G H : within F G -> within G H -> within F H.
Proof. unfold within. lia. Qed.
Lemma pmax_cases F G : pmax F G = F \/ pmax F G = G.
Proof. unfold pmax. destruct Z.ltb; auto. Qed.
Lemma within_pmax F G : comparable F G -> within F (pmax F G) /\ within G (pmax F G).
Proof.
unfold pmax. intros H. destruct (Z.ltb_spec (prec G) (prec F)) as [L|L].
- destruct H as [->|[[H1 H2]|[H1 H2]]]; [lia|lia|]. split; [apply within_refl|split; lia].
- destruct H as [->|[[H1 H2]|[H1 H2]]]; [|split; [split; lia|apply within_refl]|lia].
  split; apply within_refl.
Qed.
Lemma comparable_pmax T F G : comparable T G -> comparable F G -> comparable (pmax T F) G.
Proof. intros H1 H2. destruct (pmax_cases T F) as [-> | ->]; assumption. Qed.
Lemma within_pmax3 T F G : comparable T F -> comparable T G -> comparable F G ->
  let W := pmax (pmax T F) G in within T W /\ within F W /\ within G W.
Proof.
intros H1 H2 H3 W. destruct (within_pmax T F H1) as [A B].
destruct (within_pmax (pmax T F) G (comparable_pmax T F G H2 H3)) as [C D].
split; [|split]; [| |exact D]; eapply within_trans; eauto.
Qed.
Lemma within_pmax4 T F G H : comparable T F -> comparable T G -> comparable F G ->
  comparable T H -> comparable F H -> comparable G H ->
  let W := pmax (pmax (pmax T F) G) H in within T W /\ within F W /\ within G W /\ within H W.
Proof.
intros H1 H2 H3 H4 H5 H6 W. destruct (within_pmax3 T F G H1 H2 H3) as (A & B & C).
destruct (within_pmax (pmax (pmax T F) G) H) as [D E].
{ apply comparable_pmax; [now apply comparable_pmax|easy]. }
split; [|split; [|split]]; [| | |exact E]; eapply within_trans; eauto.
Qed.

(** ** Tightness is kept by the final conversion *)
Lemma tightest_narrow {W} T (S : R -> Prop) (z : itv W) : within T W -> tightest S z -> tightest S (convert_hull T z).
Proof.
intros HW (Wz & Ez & Tz). destruct (convert_hull_tightest T z Wz) as (A & B & C). split; [easy|]. split.
- intros r Hr. now apply B, Ez.
- intros z' Wz' Hz'. apply C; [easy|]. intros r Hr.
  apply (convert_hull_exact W z' HW Wz' r). apply (Tz (convert_hull W z')); [now apply wf_convert_hull| |easy].
  intros s Hs. apply (convert_hull_exact W z' HW Wz' s). now apply Hz'.
Qed.
Lemma encloses_narrow {W} T (S : R -> Prop) (z : itv W) : wf z -> encloses S z ->
  wf (convert_hull T z) /\ encloses S (convert_hull T z).
Proof.
intros Wz H. destruct (convert_hull_tightest T z Wz) as (A & B & _). split; [easy|]. intros r Hr. now apply B, H.
Qed.

Section Bare.
Context (T : fmt).

Lemma mixed1_ret {F} (op : forall W, itv W -> M (itv W)) (x : itv F) z : wf x -> op (pmax T F) (convert_hull (pmax T F) x) = ret z ->
  mixed1 T op x = ret (convert_hull T z).
Proof. intros W H. unfold mixed1. rewrite is_valid_wf by easy. mreds. cbv zeta. rewrite H. now mreds. Qed.
Lemma mixed2_ret {F G} (op : forall W, itv W -> itv W -> M (itv W)) (x : itv F) (y : itv G) z : wf x -> wf y -> let W := pmax (pmax T F) G in
  op W (convert_hull W x) (convert_hull W y) = ret z -> mixed2 T op x y = ret (convert_hull T z).
Proof.
intros Wx Wy W H. unfold mixed2. rewrite !is_valid_wf by easy. mreds. cbv zeta. fold W. rewrite H. now mreds.
Qed.
Lemma mixed3_ret {F G H} (op : forall W, itv W -> itv W -> itv W -> M (itv W)) (x : itv F) (y : itv G) (w : itv H) z : wf x -> wf y -> wf w ->
  let W := pmax (pmax (pmax T F) G) H in
  op W (convert_hull W x) (convert_hull W y) (convert_hull W w) = ret z -> mixed3 T op x y w = ret (convert_hull T z).
Proof.
intros Wx Wy Ww W E. unfold mixed3. rewrite !is_valid_wf by easy. mreds. cbv zeta. fold W. rewrite E. now mreds.
Qed.

Lemma mixed1_tightest {F} (op : forall W, itv W -> M (itv W)) (x : itv F) (S : forall W, itv W -> R -> Prop) :
  comparable T F -> wf x ->
  (forall W (y : itv W), (forall r, mem r y <-> mem r x) -> forall t, S W y t <-> S F x t) ->
  (forall W (y : itv W), wf y -> computes_tightest (op W y) (S W y)) ->
  computes_tightest (mixed1 T op x) (S F x).
Proof.
intros HC Wx Hext Hop. destruct (within_pmax T F HC) as [A B]. set (W := pmax T F) in *.
destruct (Hop W (convert_hull W x) (wf_convert_hull W x Wx)) as (z & H1 & H2).
exists (convert_hull T z). split.
- apply returns_eq. apply mixed1_ret; [easy|]. now apply returns_eq.
- apply tightest_narrow; [easy|]. revert H2. apply tightest_ext. apply Hext. now apply convert_hull_exact.
Qed.
Lemma mixed1_image {F} (op : forall W, itv W -> M (itv W)) dom f (x : itv F) : comparable T F -> wf x ->
  (forall W (y : itv W), wf y -> computes_tightest (op W y) (image1 dom f y)) ->
  computes_tightest (mixed1 T op x) (image1 dom f x).
Proof.
intros HC Wx Hop. apply (mixed1_tightest op x (fun W y => image1 dom f y)); try easy.
intros W y H t. split; intros (r & H1 & H2 & ->); exists r; rewrite ?H in *; auto; split; auto; now apply H.
Qed.
Lemma mixed2_tightest {F G} (op : forall W, itv W -> itv W -> M (itv W)) (x : itv F) (y : itv G) (S : forall V W, itv V -> itv W -> R -> Prop) :
  comparable T F -> comparable T G -> comparable F G -> wf x -> wf y ->
  (forall W (x' y' : itv W), (forall r, mem r x' <-> mem r x) -> (forall r, mem r y' <-> mem r y) ->
     forall t, S W W x' y' t <-> S F G x y t) ->
  (forall W (x' y' : itv W), wf x' -> wf y' -> computes_tightest (op W x' y') (S W W x' y')) ->
  computes_tightest (mixed2 T op x y) (S F G x y).
Proof.
intros C1 C2 C3 Wx Wy Hext Hop. destruct (within_pmax3 T F G C1 C2 C3) as (A & B & C).
set (W := pmax (pmax T F) G) in *.
destruct (Hop W (convert_hull W x) (convert_hull W y) (wf_convert_hull W x Wx) (wf_convert_hull W y Wy)) as (z & H1 & H2).
exists (convert_hull T z). split.
- apply returns_eq. apply mixed2_ret; [easy|easy|]. now apply returns_eq.
- apply tightest_narrow; [easy|]. revert H2. apply tightest_ext. apply Hext; now apply convert_hull_exact.
Qed.
Lemma mixed2_image {F G} (op : forall W, itv W -> itv W -> M (itv W)) dom f (x : itv F) (y : itv G) : comparable T F -> comparable T G -> comparable F G ->
  wf x -> wf y ->
  (forall W (x' y' : itv W), wf x' -> wf y' -> computes_tightest (op W x' y') (image2 dom f x' y')) ->
  computes_tightest (mixed2 T op x y) (image2 dom f x y).
Proof.
intros C1 C2 C3 Wx Wy Hop. apply (mixed2_tightest op x y (fun V W x' y' => image2 dom f x' y')); try easy.
intros W x' y' H H' t. split; intros (r & s & H1 & H2 & H3 & ->); exists r, s; rewrite H, H' in *; auto.
Qed.
Lemma mixed3_image {F G H} (op : forall W, itv W -> itv W -> itv W -> M (itv W)) f (x : itv F) (y : itv G) (w : itv H) :
  comparable T F -> comparable T G -> comparable F G -> comparable T H -> comparable F H -> comparable G H ->
  wf x -> wf y -> wf w ->
  (forall W (x' y' w' : itv W), wf x' -> wf y' -> wf w' -> computes_tightest (op W x' y' w') (image3 f x' y' w')) ->
  computes_tightest (mixed3 T op x y w) (image3 f x y w).
Proof.
intros C1 C2 C3 C4 C5 C6 Wx Wy Ww Hop. destruct (within_pmax4 T F G H C1 C2 C3 C4 C5 C6) as (A & B & C & D).
set (W := pmax (pmax (pmax T F) G) H) in *.
destruct (Hop W (convert_hull W x) (convert_hull W y) (convert_hull W w) (wf_convert_hull W x Wx) (wf_convert_hull W y Wy)
  (wf_convert_hull W w Ww)) as (z & H1 & H2).
exists (convert_hull T z). split.
- apply returns_eq. apply mixed3_ret; try easy. now apply returns_eq.
- apply tightest_narrow; [easy|]. revert H2. apply tightest_ext.
  intros t. split; intros (r & s & u & M1 & M2 & M3 & ->); exists r, s, u;
  rewrite (convert_hull_exact W x B Wx), (convert_hull_exact W y C Wy), (convert_hull_exact W w D Ww) in *; auto.
Qed.
Lemma mixed1_encl {F} (op : forall W, itv W -> M (itv W)) dom f (x : itv F) : comparable T F -> wf x ->
  (forall y : itv (pmax T F), wf y -> computes_enclosure (op (pmax T F) y) (image1 dom f y)) ->
  computes_enclosure (mixed1 T op x) (image1 dom f x).
Proof.
intros HC Wx Hop. destruct (within_pmax T F HC) as [A B]. set (W := pmax T F) in *.
destruct (Hop (convert_hull W x) (wf_convert_hull W x Wx)) as (z & H1 & H2 & H3).
exists (convert_hull T z). split.
- apply returns_eq. apply mixed1_ret; [easy|]. now apply returns_eq.
- apply encloses_narrow; [easy|]. intros t (r & Hr & Hd & ->). apply H3. exists r. split; [|easy].
  now apply convert_hull_exact.
Qed.

Lemma pos_mixed_tightest {F} (x : itv F) : wf x -> computes_tightest (pos_mixed T x) (image1 everywhere (fun r => r) x).
Proof.
intros W. exists (convert_hull T x). split.
- apply returns_eq. unfold pos_mixed. rewrite is_valid_wf by easy. now mreds.
- eapply tightest_ext; [|apply (convert_hull_tightest T x W)]. intros t. split.
  + intros H. now exists t.
  + now intros (r & H & _ & ->).
Qed.
Lemma neg_mixed_tightest {F} (x : itv F) : wf x -> computes_tightest (neg_mixed T x) (image1 everywhere Ropp x).
Proof.
intros W. destruct (neg_tightest x W) as (z & H1 & H2). apply returns_eq in H1.
exists (convert_hull T z). split.
- apply returns_eq. unfold neg_mixed. rewrite is_valid_wf by easy. mreds. rewrite H1. now mreds.
- assert (E : z = (fneg (snd x), fneg (fst x)) \/ z = empty_rep).
  { revert H1. unfold neg. rewrite is_valid_wf, is_empty_wf by easy. mreds.
    destruct (isnan (fst x)) eqn:E; intros H1; apply (f_equal (fun m => m (Est 0 0))) in H1; injection H1 as <-; auto. }
  eapply tightest_ext; [|apply (convert_hull_tightest T z (proj1 H2))]. intros t. split.
  + destruct E as [-> | ->]; [|now intros []]. intros H. exists (- t). split; [|split; [easy|ring]].
    destruct x as [l u]. now apply mem_neg.
  + intros H. now apply (proj1 (proj2 H2)).
Qed.
End Bare.

(** ** Decorated versions *)
Lemma honest_ext {F : fmt} {P : Type} near (box box' dom : P -> Prop) (bb bb' : Prop) f (z : itv F) d :
  (forall p, box p <-> box' p) -> (bb -> bb') -> honest near box dom bb f z d -> honest near box' dom bb' f z d.
Proof.
intros E B (H1 & H2 & H3). split; [|split].
- intros L. destruct (H1 L) as [[p Hp] H]. split; [exists p; now apply E|]. intros q Hq. now apply H, E.
- intros L p Hp e He. destruct (H2 L p (proj2 (E p) Hp) e He) as (dl & D1 & D2). exists dl. split; [easy|].
  intros q Hq. now apply D2, E.
- intros L. destruct (H3 L) as (A1 & A2 & A3). split; [auto|]. split; [easy|]. intros p Hp. now apply A3, E.
Qed.

Section Dec.
(** Widening a decorated operand keeps set, boundedness and decoration. *)
Lemma widen_dec {F} W (x : ditv F) : within F W -> wf_dec x -> snd x <> ill ->
  convert_hull_dec W x = ret (convert_hull W (fst x), snd x) /\ wf_dec (convert_hull W (fst x), snd x) /\
  (forall r, mem r (convert_hull W (fst x)) <-> mem r (fst x)) /\
  (bounded_rep (fst x) <-> bounded_rep (convert_hull W (fst x))).
Proof.
intros HW Wx N. pose proof (wf_dec_wf x Wx) as Wb.
assert (M := convert_hull_exact W (fst x) HW Wb).
assert (B : bounded_rep (fst x) <-> bounded_rep (convert_hull W (fst x))).
{ clear M. destruct x as [[l u] d]. unfold bounded_rep, convert_hull, convert_rndd, convert_rndu; cbn [fst snd] in *.
  assert (A : forall m (a : float F) (z : float W), is_finite z = true ->
    (is_finite a = true <-> is_finite (if feq (fconv W m a) f0 then z else fconv W m a) = true)).
  { intros m a z Fz. destruct (fviewP a) as [ | | |a Fa]; try easy.
    destruct (fconv_exact W m a HW Fa) as [H1 _]. split; [intros _|easy]. now destruct feq. }
  rewrite (A mode_DN l fm0 eq_refl), (A mode_UP u f0 eq_refl). easy. }
split; [|split; [|now split]].
- unfold convert_hull_dec. rewrite is_nai_wf by easy. destruct (deq_spec (snd x) ill) as [E|_]; [easy|]. mreds.
  destruct (deq_spec (snd x) com) as [E|_]; [|now mreds]. cbn [andb].
  assert (Bx : bounded_rep (fst x)). { destruct Wx as [[_ [H|H]]|(_ & _ & H)]; [easy|rewrite E in H; easy|now apply H]. }
  apply B in Bx. destruct Bx as [B1 B2].
  rewrite feq_minf_r, feq_pinf_r by easy. reflexivity.
- destruct Wx as [[E D]|(H & _ & D)].
  + left. cbn [fst snd]. rewrite E. split; [reflexivity|exact D].
  + right. cbn [fst snd]. split; [|split; [easy|]].
    * destruct H as [r Hr]. exists r. now apply M.
    * intros E. apply B. now apply D.
Qed.

(** Narrowing the result keeps the promise of the decoration. *)
Lemma narrow_dec {W} T {P : Type} near (box dom : P -> Prop) (bb : Prop) f (z : ditv W) :
  wf_dec z -> is_deco (snd z) -> snd z <> ill -> honest near box dom bb f (fst z) (snd z) ->
  exists v, convert_hull_dec T z = ret v /\ fst v = convert_hull T (fst z) /\ wf_dec v /\ is_deco (snd v) /\ snd v <> ill /\
    (snd v <= snd z)%N /\ honest near box dom bb f (fst v) (snd v).
Proof.
intros Wz Dz Nz (H1 & H2 & H3). pose proof (wf_dec_wf z Wz) as Wb.
unfold convert_hull_dec. rewrite is_nai_wf by easy. destruct (deq_spec (snd z) ill) as [E|_]; [easy|]. mreds.
assert (Ne : (exists r, mem r (fst z)) -> exists r, mem r (convert_hull T (fst z))).
{ intros [r Hr]. exists r. now apply (proj1 (proj2 (convert_hull_tightest T (fst z) Wb))). }
destruct (deq_spec (snd z) com) as [E|E]; cbn [andb].
- assert (Hne : exists r, mem r (fst z)).
  { destruct Wz as [[_ [H|H]]|(H & _)]; [easy|rewrite E in H; easy|easy]. }
  specialize (Ne Hne).
  destruct (feq (fst (convert_hull T (fst z))) fminf || feq (snd (convert_hull T (fst z))) finf) eqn:Q.
  + exists (convert_hull T (fst z), dac). cbn [fst snd]. split; [easy|]. split; [easy|]. split; [|split; [|split; [|split]]].
    * right. cbn [fst snd]. split; [easy|]. split; easy.
    * unfold is_deco; simpl; tauto.
    * easy.
    * rewrite E. unfold dac, com; lia.
    * rewrite E in *. split; [intros _; apply H1; unfold def, com; lia|]. split; [intros _; apply H2; unfold dac, com; lia|].
      unfold com, dac. intros L. lia.
  + assert (B : bounded_rep (convert_hull T (fst z))).
    { apply orb_false_iff in Q as [Q1 Q2]. destruct Ne as [r [N1 N2]]. destruct (convert_hull T (fst z)) as [l u]; cbn [fst snd] in *.
      split; [clear - Q1 N1|clear - Q2 N2]; cbn [fst snd].
      - destruct (fviewP l) as [ | | |l Fl]; try easy.
      - destruct (fviewP u) as [ | | |u Fu]; try easy. }
    exists (convert_hull T (fst z), snd z). cbn [fst snd]. split; [easy|]. split; [easy|]. split; [|split; [|split; [|split]]]; try easy; try lia.
    * right. cbn [fst snd]. split; [easy|]. split; easy.
    * split; [easy|]. split; [easy|]. intros L. destruct (H3 L) as (A1 & _ & A3). now split.
- exists (convert_hull T (fst z), snd z). cbn [fst snd]. split; [easy|]. split; [easy|]. split; [|split; [|split; [|split]]]; try easy; try lia.
  + destruct Wz as [[Ez D]|(H & _ & D)].
    * left. cbn [fst snd]. rewrite Ez. split; [reflexivity|exact D].
    * right. cbn [fst snd]. split; [now apply Ne|]. split; [easy|]. now intros.
  + split; [easy|]. split; [easy|]. intros L. exfalso. apply E. unfold is_deco in Dz. simpl in Dz.
    unfold com, ill, trv, def, dac in *. destruct Dz as [D|[D|[D|[D|[D|[]]]]]]; lia.
Qed.

Context (T : fmt).
Lemma mixed_dec1_ok {F} (opd : forall W, ditv W -> M (ditv W)) (op : forall W, itv W -> M (itv W)) dom f : comparable T F ->
  decorates1 (opd (pmax T F)) (op (pmax T F)) dom f ->
  mixed_decorates1 (@mixed_dec1 T F opd) (@mixed1 T F op) dom f.
Proof.
intros HC Hop x Wx Dx Nx. destruct (within_pmax T F HC) as [A B]. set (W := pmax T F) in *.
destruct (widen_dec W x B Wx Nx) as (E1 & E2 & E3 & E4).
destruct (Hop (convert_hull W (fst x), snd x) E2 Dx Nx) as (z & R1 & R2 & R3 & R4 & R5 & R6 & R7).
apply returns_eq in R1. apply returns_eq in R5. cbn [fst snd] in *.
assert (H : honest near1 (box1 (fst x)) dom (bounded_rep (fst x)) f (fst z) (snd z)).
{ revert R7. apply honest_ext; [intros p; apply E3|apply E4]. }
destruct (narrow_dec T _ _ _ _ _ z R2 R3 R4 H) as (v & V1 & V2 & V3 & V4 & V5 & V6 & V7).
exists v. split; [|split; [easy|split; [easy|split; [easy|split; [|split; [lia|easy]]]]]].
- apply returns_eq. unfold mixed_dec1. cbv zeta. fold W. rewrite is_valid_dec_wf, is_nai_wf by easy. mreds.
  destruct (deq_spec (snd x) ill) as [E|_]; [easy|]. mreds. rewrite E1. mreds. rewrite R1. mreds. exact V1.
- apply returns_eq. rewrite V2. apply mixed1_ret; [now apply wf_dec_wf|]. fold W. exact R5.
Qed.
Lemma mixed_dec2_ok {F G} (opd : forall W, ditv W -> ditv W -> M (ditv W)) (op : forall W, itv W -> itv W -> M (itv W)) dom f : comparable T F -> comparable T G -> comparable F G ->
  (let W := pmax (pmax T F) G in decorates2 (opd W) (op W) dom f) ->
  mixed_decorates2 (@mixed_dec2 T F G opd) (@mixed2 T F G op) dom f.
Proof.
intros C1 C2 C3 Hop x y Wx Dx Nx Wy Dy Ny. destruct (within_pmax3 T F G C1 C2 C3) as (A & B & C).
cbv zeta in Hop. set (W := pmax (pmax T F) G) in *.
destruct (widen_dec W x B Wx Nx) as (E1 & E2 & E3 & E4).
destruct (widen_dec W y C Wy Ny) as (F1 & F2 & F3 & F4).
destruct (Hop _ _ E2 Dx Nx F2 Dy Ny) as (z & R1 & R2 & R3 & R4 & R5 & R6 & R6' & R7).
apply returns_eq in R1. apply returns_eq in R5. cbn [fst snd] in *.
assert (H : honest near2 (box2 (fst x) (fst y)) (fun p => dom (fst p) (snd p)) (bounded_rep (fst x) /\ bounded_rep (fst y))
   (fun p => f (fst p) (snd p)) (fst z) (snd z)).
{ revert R7. apply honest_ext; [intros p; unfold box2; now rewrite E3, F3|rewrite E4, F4; easy]. }
destruct (narrow_dec T _ _ _ _ _ z R2 R3 R4 H) as (v & V1 & V2 & V3 & V4 & V5 & V6 & V7).
exists v. split; [|split; [easy|split; [easy|split; [easy|split; [|split; [lia|split; [lia|easy]]]]]]].
- apply returns_eq. unfold mixed_dec2. cbv zeta. fold W. rewrite !is_valid_dec_wf, !is_nai_wf by easy. mreds.
  destruct (deq_spec (snd x) ill) as [E|_]; [easy|]. destruct (deq_spec (snd y) ill) as [E|_]; [easy|].
  mreds. rewrite E1. mreds. rewrite F1. mreds. rewrite R1. mreds. exact V1.
- apply returns_eq. rewrite V2. apply mixed2_ret; [now apply wf_dec_wf|now apply wf_dec_wf|]. fold W. exact R5.
Qed.
Lemma mixed_dec3_ok {F G H} (opd : forall W, ditv W -> ditv W -> ditv W -> M (ditv W)) (op : forall W, itv W -> itv W -> itv W -> M (itv W)) f : comparable T F -> comparable T G -> comparable F G ->
  comparable T H -> comparable F H -> comparable G H ->
  (let W := pmax (pmax (pmax T F) G) H in decorates3 (opd W) (op W) f) ->
  mixed_decorates3 (@mixed_dec3 T F G H opd) (@mixed3 T F G H op) f.
Proof.
intros C1 C2 C3 C4 C5 C6 Hop x y w Wx Dx Nx Wy Dy Ny Ww Dw Nw.
destruct (within_pmax4 T F G H C1 C2 C3 C4 C5 C6) as (A & B & C & D).
cbv zeta in Hop. set (W := pmax (pmax (pmax T F) G) H) in *.
destruct (widen_dec W x B Wx Nx) as (E1 & E2 & E3 & E4).
destruct (widen_dec W y C Wy Ny) as (F1 & F2 & F3 & F4).
destruct (widen_dec W w D Ww Nw) as (G1 & G2 & G3 & G4).
destruct (Hop _ _ _ E2 Dx Nx F2 Dy Ny G2 Dw Nw) as (z & R1 & R2 & R3 & R4 & R5 & R6 & R6' & R6'' & R7).
apply returns_eq in R1. apply returns_eq in R5. cbn [fst snd] in *.
assert (HH : honest near3 (box3 (fst x) (fst y) (fst w)) (fun _ => True)
   (bounded_rep (fst x) /\ bounded_rep (fst y) /\ bounded_rep (fst w))
   (fun p => f (fst (fst p)) (snd (fst p)) (snd p)) (fst z) (snd z)).
{ revert R7. apply honest_ext; [intros p; unfold box3, box2; now rewrite E3, F3, G3|rewrite E4, F4, G4; easy]. }
destruct (narrow_dec T _ _ _ _ _ z R2 R3 R4 HH) as (v & V1 & V2 & V3 & V4 & V5 & V6 & V7).
exists v. split; [|split; [easy|split; [easy|split; [easy|split; [|split; [lia|split; [lia|split; [lia|easy]]]]]]]].
- apply returns_eq. unfold mixed_dec3. cbv zeta. fold W. rewrite !is_valid_dec_wf, !is_nai_wf by easy. mreds.
  destruct (deq_spec (snd x) ill) as [E|_]; [easy|]. destruct (deq_spec (snd y) ill) as [E|_]; [easy|].
  destruct (deq_spec (snd w) ill) as [E|_]; [easy|].
  mreds. rewrite E1. mreds. rewrite F1. mreds. rewrite G1. mreds. rewrite R1. mreds. exact V1.
- apply returns_eq. rewrite V2. apply mixed3_ret; [now apply wf_dec_wf..|]. fold W. exact R5.
Qed.
End Dec.

(** ** Operations with their own text *)
Lemma pos_dec_mixed_ok T F : @mixed_decorates1 F T (pos_dec_mixed T) (pos_mixed T) everywhere (fun r => r).
Proof.
intros x Wx Dx Nx.
assert (Hop := pos_decorates (F := F) x Wx Dx Nx). destruct Hop as (z & R1 & R2 & R3 & R4 & R5 & R6 & R7).
assert (z = x).
{ apply returns_eq in R1. unfold pos_dec in R1. rewrite is_valid_dec_wf, is_nai_wf in R1 by easy.
  destruct (deq_spec (snd x) ill) as [E|_]; [easy|]. revert R1. mreds. intros R1.
  apply (f_equal (fun m => m (Est 0 0))) in R1. now injection R1. }
subst z. destruct (narrow_dec T _ _ _ _ _ x R2 R3 R4 R7) as (v & V1 & V2 & V3 & V4 & V5 & V6 & V7).
exists v. split; [|split; [easy|split; [easy|split; [easy|split; [|split; [lia|easy]]]]]].
- apply returns_eq. unfold pos_dec_mixed. rewrite is_valid_dec_wf, is_nai_wf by easy. mreds.
  destruct (deq_spec (snd x) ill) as [E|_]; [easy|]. mreds. exact V1.
- apply returns_eq. rewrite V2. unfold pos_mixed. rewrite is_valid_wf by now apply wf_dec_wf. now mreds.
Qed.
Lemma neg_dec_mixed_ok T F : @mixed_decorates1 F T (neg_dec_mixed T) (neg_mixed T) everywhere Ropp.
Proof.
intros x Wx Dx Nx.
destruct (neg_decorates (F := F) x Wx Dx Nx) as (z & R1 & R2 & R3 & R4 & R5 & R6 & R7).
apply returns_eq in R1. apply returns_eq in R5.
destruct (narrow_dec T _ _ _ _ _ z R2 R3 R4 R7) as (v & V1 & V2 & V3 & V4 & V5 & V6 & V7).
exists v. split; [|split; [easy|split; [easy|split; [easy|split; [|split; [lia|easy]]]]]].
- apply returns_eq. unfold neg_dec_mixed. rewrite is_valid_dec_wf, is_nai_wf by easy. mreds.
  destruct (deq_spec (snd x) ill) as [E|_]; [easy|]. mreds. rewrite R1. mreds. exact V1.
- apply returns_eq. rewrite V2. unfold neg_mixed. rewrite is_valid_wf by now apply wf_dec_wf. mreds. rewrite R5. now mreds.
Qed.
Lemma intersection_mixed_tightest T F G (x : itv F) (y : itv G) : comparable T F -> comparable T G -> comparable F G ->
  wf x -> wf y -> computes_tightest (intersection_mixed T x y) (fun r => mem r x /\ mem r y).
Proof.
intros C1 C2 C3 Wx Wy.
apply (mixed2_tightest T (@intersection) x y (fun V W x' y' r => mem r x' /\ mem r y')); try easy.
- intros W x' y' H H' t. now rewrite H, H'.
- intros W x' y' Wx' Wy'. destruct (intersection_exact x' y' Wx' Wy') as (z & H1 & H2 & H3).
  exists z. split; [now apply returns_eq|]. apply tightest_self; [easy|]. intros r. now rewrite H3.
Qed.
Lemma hull_mixed_tightest T F G (x : itv F) (y : itv G) : comparable T F -> comparable T G -> comparable F G ->
  wf x -> wf y -> computes_tightest (convex_hull_mixed T x y) (fun r => mem r x \/ mem r y).
Proof.
intros C1 C2 C3 Wx Wy.
apply (mixed2_tightest T (@convex_hull) x y (fun V W x' y' r => mem r x' \/ mem r y')); try easy.
- intros W x' y' H H' t. now rewrite H, H'.
- intros W x' y' Wx' Wy'. now apply hull_tightest.
Qed.
Lemma std_comparable F G : List.In F (binary32 :: binary64 :: binary80 :: nil) ->
  List.In G (binary32 :: binary64 :: binary80 :: nil) -> comparable F G.
Proof.
intros [<-|[<-|[<-|[]]]] [<-|[<-|[<-|[]]]]; unfold comparable, nested; simpl; first [now left|right; left; lia|right; right; lia].
Qed.
