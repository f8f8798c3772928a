(** * Proofs: strongest decorations of the mixed-type functions; better operands *)
From Coq Require Import ZArith NArith Reals Bool Lia Lra List Classical.
From Flocq Require Import Core.Core IEEE754.BinarySingleNaN.
From Verif Require Import Fmt Spec FloatFacts Exc Deco SpecApi SpecElem SpecAtan2 SpecDeco SpecMixed SpecTan SpecTan2 SpecIso SpecStrong MBase PBase MBool MArith PArith
  PMul PFma PDiv PUnary PConv SpecRel PBool PSetop MElem PElem PElem2 MPow PPown PPow MTrig PTrig PTan PTrigT MAtan2 PAtan2 MDec PCont PDec PDecF PDecT
  PTanF PTanW PClass MMixed PMixed PIso PStrong PStrong2 PStrong3 SpecExpr MExpr PExpr.
Import ListNotations.
Local Open Scope R_scope.

Lemma bounded_under {F G} (x : itv F) (y : itv G) : wf x -> (exists r, mem r x) -> (forall r, mem r x -> mem r y) -> bounded_rep y -> bounded_rep x.
Proof.
intros W [r Hr] S [B1 B2]. destruct y as [l u]; cbn [fst snd] in *.
assert (L : forall s, mem s x -> B2R l <= s <= B2R u).
{ intros s Hs. specialize (S s Hs). destruct S as [S1 S2]; cbn [fst snd] in *. rewrite lb_fin in S1 by easy. rewrite ub_fin in S2 by easy. easy. }
destruct (wf_view x W) as [ | |v Hv|w Hw|w v Hw Hv Hwv].
- now apply mem_empty in Hr.
- exfalso. specialize (L (B2R l - 1)). lapply L; [lra|]. split; easy.
- exfalso. specialize (L (Rmin (B2R l - 1) (B2R v))). lapply L; [intros (A & _); assert (C := Rmin_l (B2R l - 1) (B2R v)); lra|]. split; [easy|]; cbn [snd]. rewrite ub_fin by easy. apply Rmin_r.
- exfalso. specialize (L (Rmax (B2R u + 1) (B2R w))). lapply L; [intros (_ & A); assert (C := Rmax_l (B2R u + 1) (B2R w)); lra|]. split; [|easy]; cbn [fst]. rewrite lb_fin by easy. apply Rmax_r.
- now split.
Qed.

(** Narrowing keeps a decoration the strongest one. *)
Lemma narrow_sharp {W} T {P : Type} near (box dom : P -> Prop) (bb : Prop) f (z : ditv W) v d :
  wf_dec z -> is_deco (snd z) -> snd z <> ill -> convert_hull_dec T z = ret v -> is_deco d ->
  honest near box dom bb f (fst v) d ->
  (honest near box dom bb f (fst z) d -> (d <= snd z)%N) -> (d <= snd v)%N.
Proof.
intros Wz Dz Nz E D H K. pose proof (wf_dec_wf z Wz) as Wb.
assert (C : fst v = convert_hull T (fst z) /\ (snd v = snd z \/ (snd v = dac /\ ~ bounded_rep (fst v)))).
{ unfold convert_hull_dec in E. rewrite is_nai_wf in E by easy. destruct (deq_spec (snd z) ill) as [E'|_]; [easy|]. revert E. mreds. cbv zeta.
  destruct (deq (snd z) com && (feq (fst (convert_hull T (fst z))) fminf || feq (snd (convert_hull T (fst z))) finf)) eqn:Q; intros E; apply ret_inj in E; subst v; cbn [fst snd]; (split; [easy|]).
  - right. split; [easy|]. apply andb_true_iff in Q as [_ Q]. intros [B1 B2]. rewrite feq_minf_r, feq_pinf_r in Q by easy. easy.
  - now left. }
destruct C as [C1 C2].
assert (Hz : honest near box dom bb f (fst z) d).
{ destruct H as (H1 & H2 & H3). split; [easy|]. split; [easy|]. intros L. destruct (H3 L) as (A1 & A2 & A3). split; [easy|]. split; [|easy].
  destruct (classic (exists r, mem r (fst z))) as [N|N].
  - apply (bounded_under (fst z) (fst v)); try easy. rewrite C1. intros r Hr. now apply (proj1 (proj2 (convert_hull_tightest T (fst z) Wb))).
  - exfalso. assert (Z : fst z = empty_rep).
    { destruct (wf_view (fst z) Wb) as [ | |v0 Hv|w Hw|w v0 Hw Hv Hwv]; [easy|exfalso; apply N..].
      - exists 0. split; easy.
      - exists (B2R v0). split; [easy|]; cbn [snd]. rewrite ub_fin by easy. lra.
      - exists (B2R w). split; [|easy]; cbn [fst]. rewrite lb_fin by easy. lra.
      - exists (B2R w). split; cbn [fst snd]; [rewrite lb_fin by easy; lra|rewrite ub_fin by easy; easy]. }
    rewrite C1, Z in A2. now destruct A2. }
specialize (K Hz). destruct C2 as [-> |[-> U]]; [easy|].
destruct (N.le_gt_cases d dac) as [L|L]; [easy|]. exfalso. apply U. apply H. clear - D L. unfold is_deco in D. simpl in D. unfold dac, com, ill, trv, def in *. decompose [or] D; try contradiction; lia.
Qed.

Section Mixed.
Context (T : fmt).
Lemma mixed_strong1 {F} (opd : forall W, ditv W -> M (ditv W)) dom f : comparable T F ->
  (forall x : ditv (pmax T F), proper x -> exists z, returns (opd _ x) z /\ proper z) ->
  strongest1 (opd (pmax T F)) dom f -> strongest1 (@mixed_dec1 T F opd) dom f.
Proof.
intros HC Ht Hs x Wx Dx Nx v Hv d D L H. destruct (within_pmax T F HC) as [A B]. set (W := pmax T F) in *.
destruct (widen_dec W x B Wx Nx) as (E1 & E2 & E3 & E4).
destruct (Ht (convert_hull W (fst x), snd x)) as (z & R1 & R2 & R3 & R4); [now split|]. pose proof R1 as R1'. apply returns_eq in R1.
apply returns_eq in Hv. unfold mixed_dec1 in Hv. cbv zeta in Hv. fold W in Hv. rewrite is_valid_dec_wf, is_nai_wf in Hv by easy.
destruct (deq_spec (snd x) ill) as [E|_]; [easy|]. revert Hv. mreds. rewrite E1. mreds. rewrite R1. mreds. intros Hv.
apply (narrow_sharp T _ _ _ _ _ z v d R2 R3 R4 Hv D H). intros Hz.
apply (Hs _ E2 Dx Nx z R1' d D L). cbn [fst snd]. revert Hz. apply honest_ext; [intros p; unfold box1; now rewrite E3|apply E4].
Qed.
Lemma mixed_strong2 {F G} (opd : forall W, ditv W -> ditv W -> M (ditv W)) dom f : comparable T F -> comparable T G -> comparable F G ->
  (forall x y : ditv (pmax (pmax T F) G), proper x -> proper y -> exists z, returns (opd _ x y) z /\ proper z) ->
  strongest2 (opd (pmax (pmax T F) G)) dom f -> strongest2 (@mixed_dec2 T F G opd) dom f.
Proof.
intros C1 C2 C3 Ht Hs x y Wx Dx Nx Wy Dy Ny v Hv d D L L' H. destruct (within_pmax3 T F G C1 C2 C3) as (A & B & C). set (W := pmax (pmax T F) G) in *.
destruct (widen_dec W x B Wx Nx) as (E1 & E2 & E3 & E4). destruct (widen_dec W y C Wy Ny) as (F1 & F2 & F3 & F4).
destruct (Ht (convert_hull W (fst x), snd x) (convert_hull W (fst y), snd y)) as (z & R1 & R2 & R3 & R4); [now split|now split|]. pose proof R1 as R1'. apply returns_eq in R1.
apply returns_eq in Hv. unfold mixed_dec2 in Hv. cbv zeta in Hv. fold W in Hv. rewrite !is_valid_dec_wf, !is_nai_wf in Hv by easy.
destruct (deq_spec (snd x) ill) as [E|_]; [easy|]. destruct (deq_spec (snd y) ill) as [E|_]; [easy|]. revert Hv. mreds. rewrite E1. mreds. rewrite F1. mreds. rewrite R1. mreds. intros Hv.
apply (narrow_sharp T _ _ _ _ _ z v d R2 R3 R4 Hv D H). intros Hz.
apply (Hs _ _ E2 Dx Nx F2 Dy Ny z R1' d D L L'). cbn [fst snd]. revert Hz. apply honest_ext; [intros p; unfold box2; now rewrite E3, F3|rewrite E4, F4; easy].
Qed.
Lemma mixed_strong3 {F G H} (opd : forall W, ditv W -> ditv W -> ditv W -> M (ditv W)) f : comparable T F -> comparable T G -> comparable F G ->
  comparable T H -> comparable F H -> comparable G H ->
  (forall x y w : ditv (pmax (pmax (pmax T F) G) H), proper x -> proper y -> proper w -> exists z, returns (opd _ x y w) z /\ proper z) ->
  strongest3 (opd (pmax (pmax (pmax T F) G) H)) f -> strongest3 (@mixed_dec3 T F G H opd) f.
Proof.
intros C1 C2 C3 C4 C5 C6 Ht Hs x y w Wx Dx Nx Wy Dy Ny Ww Dw Nw v Hv d D L L' L'' HH. destruct (within_pmax4 T F G H C1 C2 C3 C4 C5 C6) as (A & B & C & C').
set (W := pmax (pmax (pmax T F) G) H) in *.
destruct (widen_dec W x B Wx Nx) as (E1 & E2 & E3 & E4). destruct (widen_dec W y C Wy Ny) as (F1 & F2 & F3 & F4). destruct (widen_dec W w C' Ww Nw) as (G1 & G2 & G3 & G4).
destruct (Ht (convert_hull W (fst x), snd x) (convert_hull W (fst y), snd y) (convert_hull W (fst w), snd w)) as (z & R1 & R2 & R3 & R4); [now split|now split|now split|]. pose proof R1 as R1'. apply returns_eq in R1.
apply returns_eq in Hv. unfold mixed_dec3 in Hv. cbv zeta in Hv. fold W in Hv. rewrite !is_valid_dec_wf, !is_nai_wf in Hv by easy.
destruct (deq_spec (snd x) ill) as [E|_]; [easy|]. destruct (deq_spec (snd y) ill) as [E|_]; [easy|]. destruct (deq_spec (snd w) ill) as [E|_]; [easy|].
revert Hv. mreds. rewrite E1. mreds. rewrite F1. mreds. rewrite G1. mreds. rewrite R1. mreds. intros Hv.
apply (narrow_sharp T _ _ _ _ _ z v d R2 R3 R4 Hv D HH). intros Hz.
apply (Hs _ _ _ E2 Dx Nx F2 Dy Ny G2 Dw Nw z R1' d D L L' L''). cbn [fst snd]. revert Hz.
apply honest_ext; [intros p; unfold box3, box2; now rewrite E3, F3, G3|rewrite E4, F4, G4; easy].
Qed.
Lemma pos_mixed_strong {F} : strongest1 (@pos_dec_mixed T F) everywhere (fun r => r).
Proof.
intros x Wx Dx Nx v Hv d D L H. apply returns_eq in Hv. unfold pos_dec_mixed in Hv. rewrite is_valid_dec_wf, is_nai_wf in Hv by easy.
destruct (deq_spec (snd x) ill) as [E|_]; [easy|]. revert Hv. mreds. intros Hv.
now apply (narrow_sharp T _ _ _ _ _ x v d Wx Dx Nx Hv D H).
Qed.
Lemma neg_mixed_strong {F} : strongest1 (@neg_dec_mixed T F) everywhere Ropp.
Proof.
intros x Wx Dx Nx v Hv d D L H. destruct (neg_decorates (F := F) x Wx Dx Nx) as (z & R1 & R2 & R3 & R4 & _). pose proof R1 as R1'. apply returns_eq in R1.
apply returns_eq in Hv. unfold neg_dec_mixed in Hv. rewrite is_valid_dec_wf, is_nai_wf in Hv by easy.
destruct (deq_spec (snd x) ill) as [E|_]; [easy|]. revert Hv. mreds. rewrite R1. mreds. intros Hv.
apply (narrow_sharp T _ _ _ _ _ z v d R2 R3 R4 Hv D H). now apply (neg_strong (F := F) x Wx Dx Nx z R1').
Qed.
End Mixed.

(** ** All functions *)
Lemma un_strong F u : (u = u_tan -> std3 F) -> strongest1 (@un_decd F u) (un_dom u) (un_val u).
Proof.
intros S. destruct u.
- apply pos_strong.
- apply neg_strong.
- apply recip_strong.
- apply sqr_strong.
- apply sqrt_strong.
- apply abs_strong.
- apply exp_strong.
- apply exp2_strong.
- apply exp10_strong.
- apply log_strong.
- apply log2_strong.
- apply log10_strong.
- apply sin_strong.
- apply cos_strong.
- apply tan_strong. now apply low_std, S.
- apply asin_strong.
- apply acos_strong.
- apply atan_strong.
- apply sinh_strong.
- apply cosh_strong.
- apply tanh_strong.
- apply asinh_strong.
- apply acosh_strong.
- apply atanh_strong.
- apply sign_strong.
- apply ceil_strong.
- apply floor_strong.
- apply trunc_strong.
- apply rte_strong.
- apply rta_strong.
- apply pown_strong.
Qed.
Lemma bin_strong F b : strongest2 (@bin_decd F b) (bin_dom b) (bin_val b).
Proof.
destruct b; [apply add_strong|apply sub_strong|apply mul_strong|apply div_strong|apply min_strong|apply max_strong|apply pow_strong|apply atan2_strong].
Qed.
Lemma un_tot' {F} u (x : ditv F) : proper x -> exists z, returns (un_decd u x) z /\ proper z.
Proof. intros P. destruct (un_tot u x P) as (z & Z1 & Z2 & _). now exists z. Qed.
Lemma bin_tot' {F} b (x y : ditv F) : proper x -> proper y -> exists z, returns (bin_decd b x y) z /\ proper z.
Proof. intros P Q. destruct (bin_node b x y P Q) as (z & Z1 & Z2 & _). now exists z. Qed.
Lemma un_strong_mixed T F u : comparable T F -> (u = u_tan -> std3 (pmax T F)) -> strongest1 (@un_decd_mixed T F u) (un_dom u) (un_val u).
Proof.
intros C S. assert (G := mixed_strong1 T (F := F) (fun W x => un_decd u x) (un_dom u) (un_val u) C (fun x => un_tot' u x) (un_strong _ u S)).
destruct u; try exact G; [apply pos_mixed_strong|apply neg_mixed_strong].
Qed.
Lemma bin_strong_mixed T F G b : comparable T F -> comparable T G -> comparable F G -> strongest2 (@bin_decd_mixed T F G b) (bin_dom b) (bin_val b).
Proof.
intros C1 C2 C3. assert (K := mixed_strong2 T (F := F) (G := G) (fun W x y => bin_decd b x y) (bin_dom b) (bin_val b) C1 C2 C3 (fun x y => bin_tot' b x y) (bin_strong _ b)).
destruct b; exact K.
Qed.
Lemma fma_tot' {F} (x y w : ditv F) : proper x -> proper y -> proper w -> exists z, returns (fma_dec x y w) z /\ proper z.
Proof.
intros P Q K. destruct (mk3 _ _ _ x y w (C16.C16_fma F) (fun u v t U V T => fma_tightest u v t U V T) P Q K) as (z & Z1 & Z2 & _). now exists z.
Qed.
Lemma fma_strong_mixed T F G H : comparable T F -> comparable T G -> comparable F G -> comparable T H -> comparable F H -> comparable G H ->
  strongest3 (@fma_dec_mixed T F G H) (fun r s t => r * s + t).
Proof. intros. apply mixed_strong3; try easy; [intros; now apply fma_tot'|apply fma_strong]. Qed.

(** ** Better operands *)
Lemma over_trv d : is_deco d -> ~ (d <= trv)%N -> (def <= d)%N.
Proof. unfold is_deco, ill, trv, def, dac, com. simpl. intros D L. decompose [or] D; try contradiction; lia. Qed.
Lemma better_core {T : fmt} {P : Type} near (box box' dom : P -> Prop) (bb bb' : Prop) f (z z' : ditv T) :
  (forall p, box p -> box' p) -> ((def <= snd z')%N -> exists p, box p) -> ((exists p, box p) -> bb' -> bb) ->
  included (fst z) (fst z') -> wf (fst z) -> is_deco (snd z') ->
  ((forall p, box p -> dom p) -> forall p, box p -> mem (f p) (fst z)) ->
  honest near box' dom bb' f (fst z') (snd z') ->
  honest near box dom bb f (fst z) (snd z') /\ ((forall r, ~ mem r (fst z)) -> (snd z' <= trv)%N).
Proof.
intros S N B J Wz D A (H1 & H2 & H3).
assert (Q : (def <= snd z')%N -> exists r, mem r (fst z)).
{ intros L. destruct (N L) as [p Hp]. exists (f p). apply A; [|easy]. intros q Hq. now apply H1, S. }
split; [split; [|split]|].
- intros L. split; [now apply N|]. intros p Hp. now apply H1, S.
- intros L p Hp e He. destruct (H2 L p (S p Hp) e He) as (dl & D1 & D2). exists dl. split; [easy|]. intros q Hq. now apply D2, S.
- intros L. assert (L' : (def <= snd z')%N) by (unfold def, com in *; lia). destruct (H3 L) as (A1 & A2 & A3).
  split; [apply B; [now apply N|easy]|]. split; [|intros p Hp; now apply A3, S]. apply (bounded_under (fst z) (fst z')); try easy. now apply Q.
- intros E. destruct (N.le_gt_cases (snd z') trv) as [L|L]; [easy|]. exfalso. destruct Q as [r Hr]; [|now apply (E r)].
  apply over_trv; [easy|lia].
Qed.
Lemma better_some {F} (x x' : ditv F) : better x x' -> (def <= snd x')%N -> exists r, mem r (fst x).
Proof.
intros (_ & _ & E) L. destruct (classic (exists r, mem r (fst x))) as [H|H]; [easy|]. exfalso.
assert (C : (snd x' <= trv)%N) by (apply E; intros r Hr; apply H; now exists r). unfold def, trv in *. lia.
Qed.
Lemma better1 {F T} (opd : ditv F -> M (ditv T)) op dm f (x x' z : ditv _) : strongest1 opd dm f -> proper x -> proper x' -> better x x' ->
  returns (opd x) z -> proper z -> returns (op (fst x)) (fst z) -> node1 opd op dm f x' ->
  (forall v v', returns (op (fst x)) v -> returns (op (fst x')) v' -> included v v') ->
  ((forall r, mem r (fst x) -> dm r) -> forall r, mem r (fst x) -> mem (f r) (fst z)) ->
  exists z', returns (opd x') z' /\ proper z' /\ better z z'.
Proof.
intros S Px Px' B Rz Pz Bz (z' & R' & P' & B' & L' & _ & H') Iso A. exists z'. split; [easy|]. split; [easy|].
assert (J : included (fst z) (fst z')) by now apply Iso. pose proof B as (B1 & B2 & B3).
destruct (better_core near1 (box1 (fst x)) (box1 (fst x')) dm (bounded_rep (fst x)) (bounded_rep (fst x')) f z z') as [K1 K2]; try easy.
- intros L. apply (better_some x x' B). lia.
- intros N. apply bounded_under; [now apply proper_wf|easy|easy].
- now apply proper_wf.
- apply P'.
- split; [easy|]. split; [|easy]. destruct Px as (W & D & N). apply (S x W D N z Rz); [apply P'|lia|easy].
Qed.
Lemma better2 {F G T} (opd : ditv F -> ditv G -> M (ditv T)) op dm f (x x' : ditv F) (y y' : ditv G) z : strongest2 opd dm f ->
  proper x -> proper x' -> better x x' -> proper y -> proper y' -> better y y' ->
  returns (opd x y) z -> node2 opd op dm f x y -> node2 opd op dm f x' y' -> isotonic2 op ->
  exists z', returns (opd x' y') z' /\ proper z' /\ better z z'.
Proof.
intros S Px Px' B Py Py' C Rz (v & Rv & Pv & Bv & _ & _ & Av & _) (z' & R' & P' & B' & L' & M' & _ & H') Iso. exists z'. split; [easy|]. split; [easy|].
rewrite (returns_same _ _ _ Rv Rz) in *. pose proof B as (B1 & B2 & B3). pose proof C as (C1 & C2 & C3).
assert (J : included (fst z) (fst z')).
{ destruct (Iso (fst x) (fst x') (fst y) (fst y')) as (u & u' & U & U' & K); try easy; try now apply proper_wf.
  now rewrite (returns_same _ _ _ Bv U), (returns_same _ _ _ B' U'). }
destruct (better_core near2 (box2 (fst x) (fst y)) (box2 (fst x') (fst y')) (fun p => dm (fst p) (snd p)) (bounded_rep (fst x) /\ bounded_rep (fst y))
  (bounded_rep (fst x') /\ bounded_rep (fst y')) (fun p => f (fst p) (snd p)) z z') as [K1 K2]; try easy.
- intros p [H1 H2]. split; [now apply B1|now apply C1].
- intros L. destruct (better_some x x' B) as [r Hr]; [lia|]. destruct (better_some y y' C) as [s Hs]; [lia|]. now exists (r, s).
- intros [[r s] [Hr Hs]] [U V]. split; [apply (bounded_under (fst x) (fst x'))|apply (bounded_under (fst y) (fst y'))]; try easy; try (now apply proper_wf); first [now exists r|now exists s].
- now apply proper_wf.
- apply P'.
- intros Q p Hp. destruct (Hp) as [Hr Hs]. apply Av; try easy. now apply (Q p).
- split; [easy|]. split; [|easy]. destruct Px as (W & D & N), Py as (V & E & M). apply (S x y W D N V E M z Rz); [apply P'|lia|lia|easy].
Qed.
Lemma better3 {F G H T} (opd : ditv F -> ditv G -> ditv H -> M (ditv T)) op f (x x' : ditv F) (y y' : ditv G) (w w' : ditv H) z : strongest3 opd f ->
  proper x -> proper x' -> better x x' -> proper y -> proper y' -> better y y' -> proper w -> proper w' -> better w w' ->
  returns (opd x y w) z -> node3 opd op f x y w -> node3 opd op f x' y' w' -> isotonic3 op ->
  exists z', returns (opd x' y' w') z' /\ proper z' /\ better z z'.
Proof.
intros S Px Px' B Py Py' C Pw Pw' D Rz (v & Rv & Pv & Bv & _ & _ & _ & Av & _) (z' & R' & P' & B' & L' & M' & N' & _ & H') Iso. exists z'. split; [easy|]. split; [easy|].
rewrite (returns_same _ _ _ Rv Rz) in *. pose proof B as (B1 & B2 & B3). pose proof C as (C1 & C2 & C3). pose proof D as (D1 & D2 & D3).
assert (J : included (fst z) (fst z')).
{ destruct (Iso (fst x) (fst x') (fst y) (fst y') (fst w) (fst w')) as (u & u' & U & U' & K); try easy; try now apply proper_wf.
  now rewrite (returns_same _ _ _ Bv U), (returns_same _ _ _ B' U'). }
destruct (better_core near3 (box3 (fst x) (fst y) (fst w)) (box3 (fst x') (fst y') (fst w')) (fun _ => True) (bounded_rep (fst x) /\ bounded_rep (fst y) /\ bounded_rep (fst w))
  (bounded_rep (fst x') /\ bounded_rep (fst y') /\ bounded_rep (fst w')) (fun p => f (fst (fst p)) (snd (fst p)) (snd p)) z z') as [K1 K2]; try easy.
- intros p [[H1 H2] H3]. split; [split; [now apply B1|now apply C1]|now apply D1].
- intros L. destruct (better_some x x' B) as [r Hr]; [lia|]. destruct (better_some y y' C) as [s Hs]; [lia|]. destruct (better_some w w' D) as [t Ht]; [lia|]. now exists (r, s, t).
- intros [[[r s] t] [[Hr Hs] Ht]] (U & V & W). split; [|split]; [apply (bounded_under (fst x) (fst x'))|apply (bounded_under (fst y) (fst y'))|apply (bounded_under (fst w) (fst w'))];
    try easy; try (now apply proper_wf); first [now exists r|now exists s|now exists t].
- now apply proper_wf.
- apply P'.
- intros _ p [[Hr Hs] Ht]. now apply Av.
- split; [easy|]. split; [|easy]. destruct Px as (W & E & N), Py as (V & E' & N1), Pw as (V' & E'' & N2). apply (S x y w W E N V E' N1 V' E'' N2 z Rz); [apply P'|lia|lia|lia|easy].
Qed.

Lemma dom_sure W {F} (x : itv F) : (forall r, mem r x -> tan_dom r) -> tan_sure W x.
Proof. intros A (_ & (p & Hp & C) & _). now apply (A p Hp). Qed.
Lemma un_better {F} u (x x' : ditv F) : proper x -> proper x' -> (u = u_tan -> std3 F /\ tan_sure F (fst x')) -> better x x' ->
  exists z z', returns (un_decd u x) z /\ returns (un_decd u x') z' /\ proper z /\ proper z' /\ better z z'.
Proof.
intros P P' S B. destruct (un_tot u x P) as (z & Z1 & Z2 & Z3). exists z.
destruct (better1 (un_decd u) (un_bare u) (un_dom u) (un_val u) x x' z) as (z' & H1 & H2 & H3); try easy; [apply un_strong; intros E; apply (S E)|apply un_node; [easy|intros E; apply (S E)]| | |now exists z'].
- intros v v' V V'. destruct (un_iso u (fst x) (fst x')) as (w & w' & W & W' & J); [now apply proper_wf|now apply proper_wf|intros E; apply (S E)|apply B|].
  now rewrite (returns_same _ _ _ V W), (returns_same _ _ _ V' W').
- intros A r Hr. destruct (un_node u x P) as (v & V1 & _ & _ & _ & V2 & _).
  { intros ->. now apply dom_sure. }
  rewrite (returns_same _ _ _ Z1 V1). apply V2; auto.
Qed.
Lemma un_better_mixed T {F} u (x x' : ditv F) : comparable T F -> proper x -> proper x' -> (u = u_tan -> std3 (pmax T F) /\ tan_sure (pmax T F) (fst x')) -> better x x' ->
  exists z z', returns (un_decd_mixed T u x) z /\ returns (un_decd_mixed T u x') z' /\ proper z /\ proper z' /\ better z z'.
Proof.
intros C P P' S B. destruct (un_tot_mixed T u x C P) as (z & Z1 & Z2 & Z3). exists z.
destruct (better1 (un_decd_mixed T u) (un_bare_mixed T u) (un_dom u) (un_val u) x x' z) as (z' & H1 & H2 & H3); try easy; [apply un_strong_mixed; [easy|intros E; apply (S E)]|apply un_node_mixed; [easy|easy|intros E; apply (S E)]| | |now exists z'].
- intros v v' V V'. destruct (un_iso_mixed T u (fst x) (fst x') C) as (w & w' & W & W' & J); [now apply proper_wf|now apply proper_wf|intros E; apply (S E)|apply B|].
  now rewrite (returns_same _ _ _ V W), (returns_same _ _ _ V' W').
- intros A r Hr. destruct (un_node_mixed T u x C P) as (v & V1 & _ & _ & _ & V2 & _).
  { intros ->. now apply dom_sure. }
  rewrite (returns_same _ _ _ Z1 V1). apply V2; auto.
Qed.
Lemma bin_better {F} b (x x' y y' : ditv F) : proper x -> proper x' -> better x x' -> proper y -> proper y' -> better y y' ->
  exists z z', returns (bin_decd b x y) z /\ returns (bin_decd b x' y') z' /\ proper z /\ proper z' /\ better z z'.
Proof.
intros P P' B Q Q' C. destruct (bin_tot' b x y P Q) as (z & Z1 & Z2). exists z.
destruct (better2 (bin_decd b) (bin_bare b) (bin_dom b) (bin_val b) x x' y y' z) as (z' & H1 & H2 & H3); try easy;
  [apply bin_strong|now apply bin_node|now apply bin_node|apply bin_iso|now exists z'].
Qed.
Lemma bin_better_mixed T {F G} b (x x' : ditv F) (y y' : ditv G) : comparable T F -> comparable T G -> comparable F G ->
  proper x -> proper x' -> better x x' -> proper y -> proper y' -> better y y' ->
  exists z z', returns (bin_decd_mixed T b x y) z /\ returns (bin_decd_mixed T b x' y') z' /\ proper z /\ proper z' /\ better z z'.
Proof.
intros C1 C2 C3 P P' B Q Q' C. pose proof (bin_node_mixed T b x y C1 C2 C3 P Q) as K. pose proof K as (z & Z1 & Z2 & _). exists z.
destruct (better2 (bin_decd_mixed T b) (bin_bare_mixed T b) (bin_dom b) (bin_val b) x x' y y' z) as (z' & H1 & H2 & H3); try easy;
  [now apply bin_strong_mixed|now apply bin_node_mixed|now apply bin_iso_mixed|now exists z'].
Qed.
Lemma fma_better {F} (x x' y y' w w' : ditv F) : proper x -> proper x' -> better x x' -> proper y -> proper y' -> better y y' -> proper w -> proper w' -> better w w' ->
  exists z z', returns (fma_dec x y w) z /\ returns (fma_dec x' y' w') z' /\ proper z /\ proper z' /\ better z z'.
Proof.
intros P P' B Q Q' C K K' D.
pose proof (fun a b c A B C => mk3 _ _ _ a b c (C16.C16_fma F) (fun u v t U V T => fma_tightest u v t U V T) A B C) as N.
pose proof (N x y w P Q K) as (z & Z1 & Z2 & _). exists z.
destruct (better3 fma_dec fma (fun r s t => r * s + t) x x' y y' w w' z) as (z' & H1 & H2 & H3); try easy;
  [apply fma_strong|now apply N|now apply N|apply C33.C33_fma|now exists z'].
Qed.
Lemma fma_better_mixed T {F G H} (x x' : ditv F) (y y' : ditv G) (w w' : ditv H) : comparable T F -> comparable T G -> comparable F G -> comparable T H -> comparable F H -> comparable G H ->
  proper x -> proper x' -> better x x' -> proper y -> proper y' -> better y y' -> proper w -> proper w' -> better w w' ->
  exists z z', returns (fma_dec_mixed T x y w) z /\ returns (fma_dec_mixed T x' y' w') z' /\ proper z /\ proper z' /\ better z z'.
Proof.
intros C1 C2 C3 C4 C5 C6 P P' B Q Q' C K K' D.
pose proof (fun a b c A B C => mk3 _ _ _ a b c (C28.C28_fma_dec T F G H C1 C2 C3 C4 C5 C6) (fun u v t U V W => C28.C28_fma T F G H u v t C1 C2 C3 C4 C5 C6 U V W) A B C) as N.
pose proof (N x y w P Q K) as (z & Z1 & Z2 & _). exists z.
destruct (better3 (fma_dec_mixed T) (fma_mixed T) (fun r s t => r * s + t) x x' y y' w w' z) as (z' & H1 & H2 & H3); try easy;
  [now apply fma_strong_mixed|now apply N|now apply N|now apply C33.C33_fma_mixed|now exists z'].
Qed.

(** ** Expressions *)
Section Ex.
Context {vf : nat -> fmt}.
Lemma expr_better (I I' : denv vf) {F} (e : expr vf F) :
  (forall i, occurs i e = true -> proper (I i) /\ proper (I' i) /\ better (I i) (I' i)) ->
  typed e -> tan_types std3 e -> tan_fine (fun F a z => returns (beval (parts I') a) z) e ->
  exists z z', returns (deval I e) z /\ returns (deval I' e) z' /\ proper z /\ proper z' /\ better z z'.
Proof.
induction e as [i|F u a IHa|F b a IHa c IHc|F a IHa c IHc d IHd|T F u a IHa|T F G b a IHa c IHc|T F G H a IHa c IHc d IHd]; intros W TY TT TF;
  cbn [typed tan_types tan_fine] in TY, TT, TF.
- exists (I i), (I' i). destruct (W i) as (W1 & W2 & W3); [cbn [occurs]; apply Nat.eqb_refl|]. easy.
- destruct TF as [TF1 TF2], TT as [TT1 TT2]. destruct (IHa W TY TT1 TF1) as (v & v' & V & V' & P & P' & B).
  destruct (total I' a) as (t & T1 & _ & T2); [intros i O; now apply W|easy|]. rewrite (returns_same _ _ _ T1 V') in T2.
  destruct (un_better u v v' P P') as (y & y' & Y & Y' & K); [intros E; split; [now apply TT2|now apply TF2]|easy|].
  exists y, y'. split; [now apply (ret_bind _ _ v)|]. split; [now apply (ret_bind _ _ v')|easy].
- destruct TY as [TY1 TY2], TF as [TF1 TF2], TT as [TT1 TT2].
  destruct (IHa) as (v & v' & V & V' & P & P' & B); [intros i Hi; apply W; cbn [occurs]; now rewrite Hi|easy|easy|easy|].
  destruct (IHc) as (w & w' & U & U' & Q & Q' & C); [intros i Hi; apply W; cbn [occurs]; now rewrite Hi, orb_true_r|easy|easy|easy|].
  destruct (bin_better b v v' w w' P P' B Q Q' C) as (y & y' & Y & Y' & K).
  exists y, y'. split; [apply (ret_bind _ _ v); [easy|]; now apply (ret_bind _ _ w)|]. split; [apply (ret_bind _ _ v'); [easy|]; now apply (ret_bind _ _ w')|easy].
- destruct TY as (TY1 & TY2 & TY3), TF as (TF1 & TF2 & TF3), TT as (TT1 & TT2 & TT3).
  destruct (IHa) as (v & v' & V & V' & P & P' & B); [intros i Hi; apply W; cbn [occurs]; now rewrite Hi|easy|easy|easy|].
  destruct (IHc) as (w & w' & U & U' & Q & Q' & C); [intros i Hi; apply W; cbn [occurs]; now rewrite Hi, orb_true_r|easy|easy|easy|].
  destruct (IHd) as (t & t' & T & T' & R & R' & D); [intros i Hi; apply W; cbn [occurs]; now rewrite Hi, orb_true_r|easy|easy|easy|].
  destruct (fma_better v v' w w' t t' P P' B Q Q' C R R' D) as (y & y' & Y & Y' & K).
  exists y, y'. split; [apply (ret_bind _ _ v); [easy|]; apply (ret_bind _ _ w); [easy|]; now apply (ret_bind _ _ t)|].
  split; [apply (ret_bind _ _ v'); [easy|]; apply (ret_bind _ _ w'); [easy|]; now apply (ret_bind _ _ t')|easy].
- destruct TY as [TY C], TF as [TF1 TF2], TT as [TT1 TT2]. destruct (IHa W TY TT1 TF1) as (v & v' & V & V' & P & P' & B).
  destruct (total I' a) as (t & T1 & _ & T2); [intros i O; now apply W|easy|]. rewrite (returns_same _ _ _ T1 V') in T2.
  destruct (un_better_mixed T u v v' C P P') as (y & y' & Y & Y' & K); [intros E; split; [now apply TT2|now apply TF2]|easy|].
  exists y, y'. split; [now apply (ret_bind _ _ v)|]. split; [now apply (ret_bind _ _ v')|easy].
- destruct TY as (TY1 & TY2 & C1 & C2 & C3), TF as [TF1 TF2], TT as [TT1 TT2].
  destruct (IHa) as (v & v' & V & V' & P & P' & B); [intros i Hi; apply W; cbn [occurs]; now rewrite Hi|easy|easy|easy|].
  destruct (IHc) as (w & w' & U & U' & Q & Q' & C); [intros i Hi; apply W; cbn [occurs]; now rewrite Hi, orb_true_r|easy|easy|easy|].
  destruct (bin_better_mixed T b v v' w w' C1 C2 C3 P P' B Q Q' C) as (y & y' & Y & Y' & K).
  exists y, y'. split; [apply (ret_bind _ _ v); [easy|]; now apply (ret_bind _ _ w)|]. split; [apply (ret_bind _ _ v'); [easy|]; now apply (ret_bind _ _ w')|easy].
- destruct TY as (TY1 & TY2 & TY3 & C1 & C2 & C3 & C4 & C5 & C6), TF as (TF1 & TF2 & TF3), TT as (TT1 & TT2 & TT3).
  destruct (IHa) as (v & v' & V & V' & P & P' & B); [intros i Hi; apply W; cbn [occurs]; now rewrite Hi|easy|easy|easy|].
  destruct (IHc) as (w & w' & U & U' & Q & Q' & C); [intros i Hi; apply W; cbn [occurs]; now rewrite Hi, orb_true_r|easy|easy|easy|].
  destruct (IHd) as (t & t' & K0 & K' & R & R' & D); [intros i Hi; apply W; cbn [occurs]; now rewrite Hi, orb_true_r|easy|easy|easy|].
  destruct (fma_better_mixed T v v' w w' t t' C1 C2 C3 C4 C5 C6 P P' B Q Q' C R R' D) as (y & y' & Y & Y' & K).
  exists y, y'. split; [apply (ret_bind _ _ v); [easy|]; apply (ret_bind _ _ w); [easy|]; now apply (ret_bind _ _ t)|].
  split; [apply (ret_bind _ _ v'); [easy|]; apply (ret_bind _ _ w'); [easy|]; now apply (ret_bind _ _ t')|easy].
Qed.
End Ex.

(** Operands decorated by [new_dec]. *)
Lemma new_better {F} (x x' : itv F) : wf x' -> (exists r, mem r x) -> included x x' ->
  exists y y', returns (new_dec x) y /\ returns (new_dec x') y' /\ proper y /\ proper y' /\ fst y = x /\ fst y' = x' /\ better y y'.
Proof.
intros W' N J. assert (W : wf x) by now right. assert (N' : exists r, mem r x') by (destruct N as [r Hr]; exists r; now apply J).
assert (PR : forall z : itv F, (exists r, mem r z) -> exists y, returns (new_dec z) y /\ proper y /\ fst y = z /\ snd y = (if bounded_dec z then com else dac)).
{ intros z Nz. assert (Wz : wf z) by now right. destruct (new_dec_wf_dec z Wz) as (y & Y1 & Y2 & Y3 & Y4). rewrite (new_dec_nonempty z Nz) in Y1. apply ret_inj in Y1. subst y.
  exists (z, if bounded_dec z then com else dac). split; [apply returns_eq, new_dec_nonempty, Nz|]. split; [|easy]. split; [easy|]. split; [|easy].
  cbn [snd]. destruct (bounded_dec z); unfold is_deco; simpl; tauto. }
destruct (PR x N) as (y & Y1 & Y2 & Y3 & Y4). destruct (PR x' N') as (y' & Z1 & Z2 & Z3 & Z4).
exists y, y'. split; [easy|]. split; [easy|]. split; [easy|]. split; [easy|]. split; [easy|]. split; [easy|].
split; [now rewrite Y3, Z3|]. rewrite Y4, Z4. split.
- destruct (bounded_dec x) as [B|B], (bounded_dec x') as [B'|B']; unfold com, dac; try lia. exfalso. apply B. now apply (bounded_under x x').
- intros E. exfalso. destruct N as [r Hr]. apply (E r). now rewrite Y3.
Qed.
Lemma expr_refine {vf : nat -> fmt} (X X' : ienv vf) (I I' : denv vf) {F} (e : expr vf F) :
  (forall i, occurs i e = true -> wf (X' i) /\ (exists r, mem r (X i)) /\ included (X i) (X' i) /\ returns (new_dec (X i)) (I i) /\ returns (new_dec (X' i)) (I' i)) ->
  typed e -> tan_types std3 e -> tan_fine (fun F a z => returns (beval (parts I') a) z) e ->
  exists z z', returns (deval I e) z /\ returns (deval I' e) z' /\ included (fst z) (fst z') /\ (snd z' <= snd z)%N.
Proof.
intros H TY TT TF. destruct (expr_better I I' e) as (z & z' & Z1 & Z2 & _ & _ & Z3 & Z4 & _); try easy; [|now exists z, z'].
intros i O. destruct (H i O) as (W & N & J & R & R'). destruct (new_better (X i) (X' i) W N J) as (y & y' & Y & Y' & P & P' & _ & _ & B).
now rewrite (returns_same _ _ _ R Y), (returns_same _ _ _ R' Y').
Qed.
