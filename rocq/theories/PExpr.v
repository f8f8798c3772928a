(** * Proofs: evaluation of expressions *)
From Coq Require Import ZArith NArith Reals Bool List PeanoNat Lia Lra.
From Flocq Require Import Core.Core IEEE754.BinarySingleNaN.
From Verif Require Import Fmt Spec FloatFacts Exc Deco SpecApi SpecElem SpecAtan2 SpecDeco SpecMixed SpecTan SpecTan2 SpecIso SpecNai SpecProg MBase PBase PClass MBool MArith PArith PMul PDiv
  PFma PUnary PConv PSetop MElem PElem PElem2 MPow PPown PPow MTrig PTan PTrigT PTanF MAtan2 PAtan2 MDec PDec PDecF PDecT MMixed PMixed PTanOff PTan64 PTanIff
  PIso PIsoMixed PNai PValid2 PValid4 SpecExpr MExpr.
From Verif Require C16 C17 C28 C33.
Local Open Scope R_scope.

(** ** Operands of the tangent *)
Lemma sure_seen {F} (x : itv F) : wf x -> tan_sure F x -> pole_seen x.
Proof. intros _ H. now apply hidden_iff. Qed.
Lemma sure_seen_mixed T {F} (x : itv F) : comparable T F -> wf x -> tan_sure (pmax T F) x -> pole_seen (convert_hull (pmax T F) x).
Proof. intros HC W H. now apply unhidden_widen. Qed.
Lemma tan_tot {F} (x : ditv F) : proper x -> exists z, returns (tan_dec x) z /\ proper z /\ returns (tan_itv (fst x)) (fst z).
Proof.
intros (W & D & N). destruct (tan_wf (fst x) (wf_dec_wf x W)) as (v & V1 & _).
destruct (tan_dec_total x v W D N V1) as (y & Y1 & Y2 & Y3). exists y. split; [easy|]. rewrite <- Y2. split; [|easy].
destruct (tan_dec_del x (conj W D) (Est 0 0) y _ (Y1 (Est 0 0))) as [U1 U2]. now split.
Qed.
Lemma tan_tot_mixed T {F} (x : ditv F) : comparable T F -> proper x ->
  exists z, returns (tan_dec_mixed T x) z /\ proper z /\ returns (tan_mixed T (fst x)) (fst z).
Proof.
intros HC (Wx & Dx & Nx).
assert (T1 : exists y, returns (tan_dec_mixed T x) y /\ returns (tan_mixed T (fst x)) (fst y)).
{ set (W := pmax T F) in *. destruct (within_pmax T F HC) as [A B]. fold W in A, B.
  destruct (widen_dec W x B Wx Nx) as (E1 & E2 & _ & _).
  destruct (tan_tot (convert_hull W (fst x), snd x)) as (y & K1 & (V & K3 & K4) & K2); [now split|].
  assert (C : exists c, convert_hull_dec T y = ret c /\ fst c = convert_hull T (fst y)).
  { unfold convert_hull_dec. rewrite is_nai_wf by easy. destruct (deq_spec (snd y) ill) as [E|_]; [easy|]. mreds. cbv zeta.
    destruct (_ && _)%bool; eexists; now split. }
  destruct C as (c & C1 & C2).
  exists c. split; [|rewrite C2].
  - apply returns_eq in K1. apply returns_eq. unfold tan_dec_mixed, mixed_dec1. cbv zeta. fold W. rewrite is_valid_dec_wf, is_nai_wf by easy. mreds.
    destruct (deq_spec (snd x) ill) as [E|_]; [easy|]. mreds. rewrite E1. mreds. rewrite K1. mreds. exact C1.
  - apply returns_eq. apply mixed1_ret; [now apply wf_dec_wf|]. fold W. apply returns_eq. exact K2. }
destruct T1 as (y & Y1 & Y2). exists y. split; [easy|]. split; [|easy].
destruct (mixed_dec1_del T (@tan_dec) (fun V y Wy => tan_dec_del y Wy) x (conj Wx Dx) (Est 0 0) y _ (Y1 (Est 0 0))) as [U1 U2].
split; [easy|]. split; [easy|].
destruct (tan_mixed_no_nai T F HC x (conj Wx (conj Dx Nx))) as (y' & E & N). now rewrite (returns_same _ _ _ Y1 E).
Qed.

(** ** One node *)
Definition node1 {F T} (opd : ditv F -> M (ditv T)) (op : itv F -> M (itv T)) (dm : R -> Prop) (f : R -> R) (x : ditv F) : Prop :=
  exists z, returns (opd x) z /\ proper z /\ returns (op (fst x)) (fst z) /\ (snd z <= snd x)%N /\
    (forall r, mem r (fst x) -> dm r -> mem (f r) (fst z)) /\
    honest near1 (box1 (fst x)) dm (bounded_rep (fst x)) f (fst z) (snd z).
Definition node2 {F G T} (opd : ditv F -> ditv G -> M (ditv T)) (op : itv F -> itv G -> M (itv T)) (dm : R -> R -> Prop) (f : R -> R -> R)
    (x : ditv F) (y : ditv G) : Prop :=
  exists z, returns (opd x y) z /\ proper z /\ returns (op (fst x) (fst y)) (fst z) /\ (snd z <= snd x)%N /\ (snd z <= snd y)%N /\
    (forall r s, mem r (fst x) -> mem s (fst y) -> dm r s -> mem (f r s) (fst z)) /\
    honest near2 (box2 (fst x) (fst y)) (fun p => dm (fst p) (snd p))
      (bounded_rep (fst x) /\ bounded_rep (fst y)) (fun p => f (fst p) (snd p)) (fst z) (snd z).
Definition node3 {F G H T} (opd : ditv F -> ditv G -> ditv H -> M (ditv T)) (op : itv F -> itv G -> itv H -> M (itv T)) (f : R -> R -> R -> R)
    (x : ditv F) (y : ditv G) (w : ditv H) : Prop :=
  exists z, returns (opd x y w) z /\ proper z /\ returns (op (fst x) (fst y) (fst w)) (fst z) /\
    (snd z <= snd x)%N /\ (snd z <= snd y)%N /\ (snd z <= snd w)%N /\
    (forall r s t, mem r (fst x) -> mem s (fst y) -> mem t (fst w) -> mem (f r s t) (fst z)) /\
    honest near3 (box3 (fst x) (fst y) (fst w)) (fun _ => True)
      (bounded_rep (fst x) /\ bounded_rep (fst y) /\ bounded_rep (fst w))
      (fun p => f (fst (fst p)) (snd (fst p)) (snd p)) (fst z) (snd z).

Lemma mk1' {F T} (opd : ditv F -> M (ditv T)) op dm f x :
  proper x -> (exists z, returns (opd x) z /\ wf_dec z /\ is_deco (snd z) /\ snd z <> ill /\
    returns (op (fst x)) (fst z) /\ (snd z <= snd x)%N /\
    honest near1 (box1 (fst x)) dm (bounded_rep (fst x)) f (fst z) (snd z)) ->
  computes_enclosure (op (fst x)) (image1 dm f (fst x)) -> node1 opd op dm f x.
Proof.
intros P (z & Z1 & Z2 & Z3 & Z4 & Z5 & Z6 & Z7) (v & V1 & _ & V2). exists z. rewrite (returns_same _ _ _ V1 Z5) in V2.
split; [easy|]. split; [now split|]. split; [easy|]. split; [easy|]. split; [|easy].
intros r Hr Dr. apply V2. now exists r.
Qed.
Lemma tight_encl {F} (m : M (itv F)) S : computes_tightest m S -> computes_enclosure m S.
Proof. intros (z & H1 & H2 & H3 & _). now exists z. Qed.
Lemma mk1 {F T} (opd : ditv F -> M (ditv T)) op dm f x : mixed_decorates1 opd op dm f ->
  (forall y, wf y -> computes_tightest (op y) (image1 dm f y)) -> proper x -> node1 opd op dm f x.
Proof.
intros D C P. pose proof (proper_wf x P) as W. apply mk1'; [easy| |now apply tight_encl, C]. destruct P as (P1 & P2 & P3). now apply D.
Qed.
Lemma mk2 {F G T} (opd : ditv F -> ditv G -> M (ditv T)) op dm f x y : mixed_decorates2 opd op dm f ->
  (forall u v, wf u -> wf v -> computes_tightest (op u v) (image2 dm f u v)) -> proper x -> proper y -> node2 opd op dm f x y.
Proof.
intros D C P Q. destruct (C (fst x) (fst y)) as (v & V1 & _ & V2 & _); [now apply proper_wf|now apply proper_wf|].
destruct P as (P1 & P2 & P3), Q as (Q1 & Q2 & Q3). destruct (D x y P1 P2 P3 Q1 Q2 Q3) as (z & Z1 & Z2 & Z3 & Z4 & Z5 & Z6 & Z7 & Z8).
rewrite (returns_same _ _ _ V1 Z5) in V2. exists z. split; [easy|]. split; [now split|]. split; [easy|]. split; [easy|]. split; [easy|]. split; [|easy].
intros r s Hr Hs Ds. apply V2. now exists r, s.
Qed.
Lemma mk3 {F G H T} (opd : ditv F -> ditv G -> ditv H -> M (ditv T)) op f x y w : mixed_decorates3 opd op f ->
  (forall u v t, wf u -> wf v -> wf t -> computes_tightest (op u v t) (image3 f u v t)) -> proper x -> proper y -> proper w -> node3 opd op f x y w.
Proof.
intros D C P Q K. destruct (C (fst x) (fst y) (fst w)) as (v & V1 & _ & V2 & _); [now apply proper_wf|now apply proper_wf|now apply proper_wf|].
destruct P as (P1 & P2 & P3), Q as (Q1 & Q2 & Q3), K as (K1 & K2 & K3).
destruct (D x y w P1 P2 P3 Q1 Q2 Q3 K1 K2 K3) as (z & Z1 & Z2 & Z3 & Z4 & Z5 & Z6 & Z7 & Z8 & Z9).
rewrite (returns_same _ _ _ V1 Z5) in V2. exists z. split; [easy|]. split; [now split|]. split; [easy|]. split; [easy|]. split; [easy|]. split; [easy|]. split; [|easy].
intros r s t Hr Hs Ht. apply V2. now exists r, s, t.
Qed.

Lemma un_node {F} (u : un) (x : ditv F) : proper x -> (u = u_tan -> tan_sure F (fst x)) ->
  node1 (un_decd u) (un_bare u) (un_dom u) (un_val u) x.
Proof.
intros P S. pose proof (proper_wf x P) as W. destruct u.
- exact (mk1 _ _ _ _ x (C16.C16_pos F) (fun y V => pos_tightest y V) P).
- exact (mk1 _ _ _ _ x (C16.C16_neg F) (fun y V => neg_tightest y V) P).
- exact (mk1 _ _ _ _ x (C16.C16_recip F) (fun y V => recip_tightest y V) P).
- exact (mk1 _ _ _ _ x (C16.C16_sqr F) (fun y V => sqr_tightest y V) P).
- exact (mk1 _ _ _ _ x (C16.C16_sqrt F) (fun y V => sqrt_tightest y V) P).
- exact (mk1 _ _ _ _ x (C16.C16_abs F) (fun y V => abs_tightest y V) P).
- exact (mk1 _ _ _ _ x (C16.C16_exp F) (fun y V => exp_tightest y V) P).
- exact (mk1 _ _ _ _ x (C16.C16_exp2 F) (fun y V => exp2_tightest y V) P).
- exact (mk1 _ _ _ _ x (C16.C16_exp10 F) (fun y V => exp10_tightest y V) P).
- exact (mk1 _ _ _ _ x (C16.C16_log F) (fun y V => log_tightest y V) P).
- exact (mk1 _ _ _ _ x (C16.C16_log2 F) (fun y V => log2_tightest y V) P).
- exact (mk1 _ _ _ _ x (C16.C16_log10 F) (fun y V => log10_tightest y V) P).
- exact (mk1 _ _ _ _ x (C16.C16_sin F) (fun y V => sin_tightest y V) P).
- exact (mk1 _ _ _ _ x (C16.C16_cos F) (fun y V => cos_tightest y V) P).
- pose proof (sure_seen (fst x) W (S eq_refl)) as O. apply mk1'; [easy| |exact (tan_seen (fst x) W O)].
  destruct P as (P1 & P2 & P3). exact (tan_dec_ok x P1 P2 P3 O).
- exact (mk1 _ _ _ _ x (C16.C16_asin F) (fun y V => asin_tightest y V) P).
- exact (mk1 _ _ _ _ x (C16.C16_acos F) (fun y V => acos_tightest y V) P).
- exact (mk1 _ _ _ _ x (C16.C16_atan F) (fun y V => atan_tightest y V) P).
- exact (mk1 _ _ _ _ x (C16.C16_sinh F) (fun y V => sinh_tightest y V) P).
- exact (mk1 _ _ _ _ x (C16.C16_cosh F) (fun y V => cosh_tightest y V) P).
- exact (mk1 _ _ _ _ x (C16.C16_tanh F) (fun y V => tanh_tightest y V) P).
- exact (mk1 _ _ _ _ x (C16.C16_asinh F) (fun y V => asinh_tightest y V) P).
- exact (mk1 _ _ _ _ x (C16.C16_acosh F) (fun y V => acosh_tightest y V) P).
- exact (mk1 _ _ _ _ x (C16.C16_atanh F) (fun y V => atanh_tightest y V) P).
- exact (mk1 _ _ _ _ x (C16.C16_sign F) (fun y V => sign_tightest y V) P).
- exact (mk1 _ _ _ _ x (C16.C16_ceil F) (fun y V => ceil_tightest y V) P).
- exact (mk1 _ _ _ _ x (C16.C16_floor F) (fun y V => floor_tightest y V) P).
- exact (mk1 _ _ _ _ x (C16.C16_trunc F) (fun y V => trunc_tightest y V) P).
- exact (mk1 _ _ _ _ x (C16.C16_rte F) (fun y V => rte_tightest y V) P).
- exact (mk1 _ _ _ _ x (C16.C16_rta F) (fun y V => rta_tightest y V) P).
- exact (mk1 _ _ _ _ x (C16.C16_pown F k) (fun y V => pown_tightest y k V) P).
Qed.
Lemma un_node_mixed T {F} (u : un) (x : ditv F) : comparable T F -> proper x -> (u = u_tan -> tan_sure (pmax T F) (fst x)) ->
  node1 (un_decd_mixed T u) (un_bare_mixed T u) (un_dom u) (un_val u) x.
Proof.
intros C P S. pose proof (proper_wf x P) as W. destruct u.
- exact (mk1 _ _ _ _ x (C28.C28_pos_dec T F) (fun y V => C28.C28_pos T F y V) P).
- exact (mk1 _ _ _ _ x (C28.C28_neg_dec T F) (fun y V => C28.C28_neg T F y V) P).
- exact (mk1 _ _ _ _ x (C28.C28_recip_dec T F C) (fun y V => C28.C28_recip T F y C V) P).
- exact (mk1 _ _ _ _ x (C28.C28_sqr_dec T F C) (fun y V => C28.C28_sqr T F y C V) P).
- exact (mk1 _ _ _ _ x (C28.C28_sqrt_dec T F C) (fun y V => C28.C28_sqrt T F y C V) P).
- exact (mk1 _ _ _ _ x (C28.C28_abs_dec T F C) (fun y V => C28.C28_abs T F y C V) P).
- exact (mk1 _ _ _ _ x (C28.C28_exp_dec T F C) (fun y V => C28.C28_exp T F y C V) P).
- exact (mk1 _ _ _ _ x (C28.C28_exp2_dec T F C) (fun y V => C28.C28_exp2 T F y C V) P).
- exact (mk1 _ _ _ _ x (C28.C28_exp10_dec T F C) (fun y V => C28.C28_exp10 T F y C V) P).
- exact (mk1 _ _ _ _ x (C28.C28_log_dec T F C) (fun y V => C28.C28_log T F y C V) P).
- exact (mk1 _ _ _ _ x (C28.C28_log2_dec T F C) (fun y V => C28.C28_log2 T F y C V) P).
- exact (mk1 _ _ _ _ x (C28.C28_log10_dec T F C) (fun y V => C28.C28_log10 T F y C V) P).
- exact (mk1 _ _ _ _ x (C28.C28_sin_dec T F C) (fun y V => C28.C28_sin T F y C V) P).
- exact (mk1 _ _ _ _ x (C28.C28_cos_dec T F C) (fun y V => C28.C28_cos T F y C V) P).
- pose proof (sure_seen_mixed T (fst x) C W (S eq_refl)) as O. apply mk1'; [easy| |exact (tan_mixed_seen T (fst x) C W O)].
  destruct P as (P1 & P2 & P3). exact (tan_dec_mixed_seen T x C P1 P2 P3 O).
- exact (mk1 _ _ _ _ x (C28.C28_asin_dec T F C) (fun y V => C28.C28_asin T F y C V) P).
- exact (mk1 _ _ _ _ x (C28.C28_acos_dec T F C) (fun y V => C28.C28_acos T F y C V) P).
- exact (mk1 _ _ _ _ x (C28.C28_atan_dec T F C) (fun y V => C28.C28_atan T F y C V) P).
- exact (mk1 _ _ _ _ x (C28.C28_sinh_dec T F C) (fun y V => C28.C28_sinh T F y C V) P).
- exact (mk1 _ _ _ _ x (C28.C28_cosh_dec T F C) (fun y V => C28.C28_cosh T F y C V) P).
- exact (mk1 _ _ _ _ x (C28.C28_tanh_dec T F C) (fun y V => C28.C28_tanh T F y C V) P).
- exact (mk1 _ _ _ _ x (C28.C28_asinh_dec T F C) (fun y V => C28.C28_asinh T F y C V) P).
- exact (mk1 _ _ _ _ x (C28.C28_acosh_dec T F C) (fun y V => C28.C28_acosh T F y C V) P).
- exact (mk1 _ _ _ _ x (C28.C28_atanh_dec T F C) (fun y V => C28.C28_atanh T F y C V) P).
- exact (mk1 _ _ _ _ x (C28.C28_sign_dec T F C) (fun y V => C28.C28_sign T F y C V) P).
- exact (mk1 _ _ _ _ x (C28.C28_ceil_dec T F C) (fun y V => C28.C28_ceil T F y C V) P).
- exact (mk1 _ _ _ _ x (C28.C28_floor_dec T F C) (fun y V => C28.C28_floor T F y C V) P).
- exact (mk1 _ _ _ _ x (C28.C28_trunc_dec T F C) (fun y V => C28.C28_trunc T F y C V) P).
- exact (mk1 _ _ _ _ x (C28.C28_rte_dec T F C) (fun y V => C28.C28_rte T F y C V) P).
- exact (mk1 _ _ _ _ x (C28.C28_rta_dec T F C) (fun y V => C28.C28_rta T F y C V) P).
- exact (mk1 _ _ _ _ x (C28.C28_pown_dec T F k C) (fun y V => C28.C28_pown T F y k C V) P).
Qed.
Lemma bin_node {F} (b : bin) (x y : ditv F) : proper x -> proper y -> node2 (bin_decd b) (bin_bare b) (bin_dom b) (bin_val b) x y.
Proof.
intros P Q. destruct b.
- exact (mk2 _ _ _ _ x y (C16.C16_add F) (fun u v U V => add_tightest u v U V) P Q).
- exact (mk2 _ _ _ _ x y (C16.C16_sub F) (fun u v U V => sub_tightest u v U V) P Q).
- exact (mk2 _ _ _ _ x y (C16.C16_mul F) (fun u v U V => mul_tightest u v U V) P Q).
- exact (mk2 _ _ _ _ x y (C16.C16_div F) (fun u v U V => div_tightest u v U V) P Q).
- exact (mk2 _ _ _ _ x y (C16.C16_min F) (fun u v U V => min_tightest u v U V) P Q).
- exact (mk2 _ _ _ _ x y (C16.C16_max F) (fun u v U V => max_tightest u v U V) P Q).
- exact (mk2 _ _ _ _ x y (C16.C16_pow F) (fun u v U V => pow_tightest u v U V) P Q).
- exact (mk2 _ _ _ _ x y (C16.C16_atan2 F) (fun u v U V => atan2_tightest u v U V) P Q).
Qed.
Lemma bin_node_mixed T {F G} (b : bin) (x : ditv F) (y : ditv G) : comparable T F -> comparable T G -> comparable F G -> proper x -> proper y ->
  node2 (bin_decd_mixed T b) (bin_bare_mixed T b) (bin_dom b) (bin_val b) x y.
Proof.
intros C1 C2 C3 P Q. destruct b.
- exact (mk2 _ _ _ _ x y (C28.C28_add_dec T F G C1 C2 C3) (fun u v U V => C28.C28_add T F G u v C1 C2 C3 U V) P Q).
- exact (mk2 _ _ _ _ x y (C28.C28_sub_dec T F G C1 C2 C3) (fun u v U V => C28.C28_sub T F G u v C1 C2 C3 U V) P Q).
- exact (mk2 _ _ _ _ x y (C28.C28_mul_dec T F G C1 C2 C3) (fun u v U V => C28.C28_mul T F G u v C1 C2 C3 U V) P Q).
- exact (mk2 _ _ _ _ x y (C28.C28_div_dec T F G C1 C2 C3) (fun u v U V => C28.C28_div T F G u v C1 C2 C3 U V) P Q).
- exact (mk2 _ _ _ _ x y (C28.C28_min_dec T F G C1 C2 C3) (fun u v U V => C28.C28_min T F G u v C1 C2 C3 U V) P Q).
- exact (mk2 _ _ _ _ x y (C28.C28_max_dec T F G C1 C2 C3) (fun u v U V => C28.C28_max T F G u v C1 C2 C3 U V) P Q).
- exact (mk2 _ _ _ _ x y (C28.C28_pow_dec T F G C1 C2 C3) (fun u v U V => C28.C28_pow T F G u v C1 C2 C3 U V) P Q).
- exact (mk2 _ _ _ _ x y (C28.C28_atan2_dec T F G C1 C2 C3) (fun u v U V => C28.C28_atan2 T F G u v C1 C2 C3 U V) P Q).
Qed.

(** Totality, without any condition on the tangent. *)
Lemma un_tot {F} (u : un) (x : ditv F) : proper x -> exists z, returns (un_decd u x) z /\ proper z /\ returns (un_bare u (fst x)) (fst z).
Proof.
intros P. assert (D : u = u_tan \/ u <> u_tan) by (destruct u; (now left) || (now right)). destruct D as [->|D]; [now apply tan_tot|].
destruct (un_node u x P) as (z & Z1 & Z2 & Z3 & _); [easy|]. now exists z.
Qed.
Lemma un_tot_mixed T {F} (u : un) (x : ditv F) : comparable T F -> proper x ->
  exists z, returns (un_decd_mixed T u x) z /\ proper z /\ returns (un_bare_mixed T u (fst x)) (fst z).
Proof.
intros C P. assert (D : u = u_tan \/ u <> u_tan) by (destruct u; (now left) || (now right)). destruct D as [->|D]; [now apply tan_tot_mixed|].
destruct (un_node_mixed T u x C P) as (z & Z1 & Z2 & Z3 & _); [easy|]. now exists z.
Qed.

(** NaI. *)
Lemma un_nai {F} (u : un) : on_nai1 (@un_decd F u) (empty_rep, ill).
Proof.
destruct u.
- exact (C17.C17_pos_dec F).
- exact (C17.C17_neg_dec F).
- exact (C17.C17_recip_dec F).
- exact (C17.C17_sqr_dec F).
- exact (C17.C17_sqrt_dec F).
- exact (C17.C17_abs_dec F).
- exact (C17.C17_exp_dec F).
- exact (C17.C17_exp2_dec F).
- exact (C17.C17_exp10_dec F).
- exact (C17.C17_log_dec F).
- exact (C17.C17_log2_dec F).
- exact (C17.C17_log10_dec F).
- exact (C17.C17_sin_dec F).
- exact (C17.C17_cos_dec F).
- exact (C17.C17_tan_dec F).
- exact (C17.C17_asin_dec F).
- exact (C17.C17_acos_dec F).
- exact (C17.C17_atan_dec F).
- exact (C17.C17_sinh_dec F).
- exact (C17.C17_cosh_dec F).
- exact (C17.C17_tanh_dec F).
- exact (C17.C17_asinh_dec F).
- exact (C17.C17_acosh_dec F).
- exact (C17.C17_atanh_dec F).
- exact (C17.C17_sign_dec F).
- exact (C17.C17_ceil_dec F).
- exact (C17.C17_floor_dec F).
- exact (C17.C17_trunc_dec F).
- exact (C17.C17_round_ties_to_even_dec F).
- exact (C17.C17_round_ties_to_away_dec F).
- exact (C17.C17_pown_dec F k).
Qed.
Lemma un_nai_mixed T {F} (u : un) : on_nai1 (@un_decd_mixed T F u) (empty_rep, ill).
Proof.
destruct u.
- exact (C17.C17_pos_dec_mixed T F).
- exact (C17.C17_neg_dec_mixed T F).
- exact (C17.C17_recip_dec_mixed T F).
- exact (C17.C17_sqr_dec_mixed T F).
- exact (C17.C17_sqrt_dec_mixed T F).
- exact (C17.C17_abs_dec_mixed T F).
- exact (C17.C17_exp_dec_mixed T F).
- exact (C17.C17_exp2_dec_mixed T F).
- exact (C17.C17_exp10_dec_mixed T F).
- exact (C17.C17_log_dec_mixed T F).
- exact (C17.C17_log2_dec_mixed T F).
- exact (C17.C17_log10_dec_mixed T F).
- exact (C17.C17_sin_dec_mixed T F).
- exact (C17.C17_cos_dec_mixed T F).
- exact (C17.C17_tan_dec_mixed T F).
- exact (C17.C17_asin_dec_mixed T F).
- exact (C17.C17_acos_dec_mixed T F).
- exact (C17.C17_atan_dec_mixed T F).
- exact (C17.C17_sinh_dec_mixed T F).
- exact (C17.C17_cosh_dec_mixed T F).
- exact (C17.C17_tanh_dec_mixed T F).
- exact (C17.C17_asinh_dec_mixed T F).
- exact (C17.C17_acosh_dec_mixed T F).
- exact (C17.C17_atanh_dec_mixed T F).
- exact (C17.C17_sign_dec_mixed T F).
- exact (C17.C17_ceil_dec_mixed T F).
- exact (C17.C17_floor_dec_mixed T F).
- exact (C17.C17_trunc_dec_mixed T F).
- exact (C17.C17_round_ties_to_even_dec_mixed T F).
- exact (C17.C17_round_ties_to_away_dec_mixed T F).
- exact (C17.C17_pown_dec_mixed T F k).
Qed.
Lemma bin_nai {F} (b : bin) : on_nai2 (@bin_decd F b) (empty_rep, ill).
Proof.
destruct b.
- exact (C17.C17_add_dec F).
- exact (C17.C17_sub_dec F).
- exact (C17.C17_mul_dec F).
- exact (C17.C17_div_dec F).
- exact (C17.C17_min_dec F).
- exact (C17.C17_max_dec F).
- exact (C17.C17_pow_dec F).
- exact (C17.C17_atan2_dec F).
Qed.
Lemma bin_nai_mixed T {F G} (b : bin) : on_nai2 (@bin_decd_mixed T F G b) (empty_rep, ill).
Proof.
destruct b.
- exact (C17.C17_add_dec_mixed T F G).
- exact (C17.C17_sub_dec_mixed T F G).
- exact (C17.C17_mul_dec_mixed T F G).
- exact (C17.C17_div_dec_mixed T F G).
- exact (C17.C17_min_dec_mixed T F G).
- exact (C17.C17_max_dec_mixed T F G).
- exact (C17.C17_pow_dec_mixed T F G).
- exact (C17.C17_atan2_dec_mixed T F G).
Qed.

(** Isotonicity. *)
Lemma un_iso {F} (u : un) (x x' : itv F) : wf x -> wf x' -> (u = u_tan -> tan_sure F x') -> included x x' ->
  exists z z', returns (un_bare u x) z /\ returns (un_bare u x') z' /\ included z z'.
Proof.
intros W W' S I. destruct u.
- exact (C33.C33_pos F x x' W W' I).
- exact (C33.C33_neg F x x' W W' I).
- exact (C33.C33_recip F x x' W W' I).
- exact (C33.C33_sqr F x x' W W' I).
- exact (C33.C33_sqrt F x x' W W' I).
- exact (C33.C33_abs F x x' W W' I).
- exact (C33.C33_exp F x x' W W' I).
- exact (C33.C33_exp2 F x x' W W' I).
- exact (C33.C33_exp10 F x x' W W' I).
- exact (C33.C33_log F x x' W W' I).
- exact (C33.C33_log2 F x x' W W' I).
- exact (C33.C33_log10 F x x' W W' I).
- exact (C33.C33_sin F x x' W W' I).
- exact (C33.C33_cos F x x' W W' I).
- exact (tan_seen_iso x x' W W' (sure_seen x' W' (S eq_refl)) I).
- exact (C33.C33_asin F x x' W W' I).
- exact (C33.C33_acos F x x' W W' I).
- exact (C33.C33_atan F x x' W W' I).
- exact (C33.C33_sinh F x x' W W' I).
- exact (C33.C33_cosh F x x' W W' I).
- exact (C33.C33_tanh F x x' W W' I).
- exact (C33.C33_asinh F x x' W W' I).
- exact (C33.C33_acosh F x x' W W' I).
- exact (C33.C33_atanh F x x' W W' I).
- exact (C33.C33_sign F x x' W W' I).
- exact (C33.C33_ceil F x x' W W' I).
- exact (C33.C33_floor F x x' W W' I).
- exact (C33.C33_trunc F x x' W W' I).
- exact (C33.C33_rte F x x' W W' I).
- exact (C33.C33_rta F x x' W W' I).
- exact (C33.C33_pown F k x x' W W' I).
Qed.
Lemma un_iso_mixed T {F} (u : un) (x x' : itv F) : comparable T F -> wf x -> wf x' -> (u = u_tan -> tan_sure (pmax T F) x') -> included x x' ->
  exists z z', returns (un_bare_mixed T u x) z /\ returns (un_bare_mixed T u x') z' /\ included z z'.
Proof.
intros C W W' S I. destruct u.
- exact (C33.C33_pos_mixed T F x x' W W' I).
- exact (C33.C33_neg_mixed T F x x' W W' I).
- exact (C33.C33_recip_mixed T F C x x' W W' I).
- exact (C33.C33_sqr_mixed T F C x x' W W' I).
- exact (C33.C33_sqrt_mixed T F C x x' W W' I).
- exact (C33.C33_abs_mixed T F C x x' W W' I).
- exact (C33.C33_exp_mixed T F C x x' W W' I).
- exact (C33.C33_exp2_mixed T F C x x' W W' I).
- exact (C33.C33_exp10_mixed T F C x x' W W' I).
- exact (C33.C33_log_mixed T F C x x' W W' I).
- exact (C33.C33_log2_mixed T F C x x' W W' I).
- exact (C33.C33_log10_mixed T F C x x' W W' I).
- exact (C33.C33_sin_mixed T F C x x' W W' I).
- exact (C33.C33_cos_mixed T F C x x' W W' I).
- exact (tan_mixed_seen_iso T x x' C W W' (sure_seen_mixed T x' C W' (S eq_refl)) I).
- exact (C33.C33_asin_mixed T F C x x' W W' I).
- exact (C33.C33_acos_mixed T F C x x' W W' I).
- exact (C33.C33_atan_mixed T F C x x' W W' I).
- exact (C33.C33_sinh_mixed T F C x x' W W' I).
- exact (C33.C33_cosh_mixed T F C x x' W W' I).
- exact (C33.C33_tanh_mixed T F C x x' W W' I).
- exact (C33.C33_asinh_mixed T F C x x' W W' I).
- exact (C33.C33_acosh_mixed T F C x x' W W' I).
- exact (C33.C33_atanh_mixed T F C x x' W W' I).
- exact (C33.C33_sign_mixed T F C x x' W W' I).
- exact (C33.C33_ceil_mixed T F C x x' W W' I).
- exact (C33.C33_floor_mixed T F C x x' W W' I).
- exact (C33.C33_trunc_mixed T F C x x' W W' I).
- exact (C33.C33_rte_mixed T F C x x' W W' I).
- exact (C33.C33_rta_mixed T F C x x' W W' I).
- exact (C33.C33_pown_mixed T F k C x x' W W' I).
Qed.
Lemma bin_iso {F} (b : bin) : isotonic2 (@bin_bare F b).
Proof.
destruct b.
- exact (C33.C33_add F).
- exact (C33.C33_sub F).
- exact (C33.C33_mul F).
- exact (C33.C33_div F).
- exact (C33.C33_min F).
- exact (C33.C33_max F).
- exact (C33.C33_pow F).
- exact (C33.C33_atan2 F).
Qed.
Lemma bin_iso_mixed T {F G} (b : bin) : comparable T F -> comparable T G -> comparable F G -> isotonic2 (@bin_bare_mixed T F G b).
Proof.
intros C1 C2 C3. destruct b.
- exact (C33.C33_add_mixed T F G C1 C2 C3).
- exact (C33.C33_sub_mixed T F G C1 C2 C3).
- exact (C33.C33_mul_mixed T F G C1 C2 C3).
- exact (C33.C33_div_mixed T F G C1 C2 C3).
- exact (C33.C33_min_mixed T F G C1 C2 C3).
- exact (C33.C33_max_mixed T F G C1 C2 C3).
- exact (C33.C33_pow_mixed T F G C1 C2 C3).
- exact (C33.C33_atan2_mixed T F G C1 C2 C3).
Qed.

(** ** Composition *)
Section Comp.
Context {P : Type} (near : R -> P -> P -> Prop).
Hypothesis near_le : forall d d' p q, d <= d' -> near d p q -> near d' p q.

(** What is to be shown of an evaluation result. *)
Definition good {F} (box dm : P -> Prop) (bb : Prop) (f : P -> R) (z : ditv F) : Prop :=
  (forall p, box p -> dm p -> mem (f p) (fst z)) /\ honest near box dm bb f (fst z) (snd z).

Lemma good_in {F} box dm bb f (z : ditv F) p : good box dm bb f z -> (def <= snd z)%N -> box p -> mem (f p) (fst z).
Proof. intros [G1 [G2 _]] H Hp. apply G1; [easy|]. now apply G2. Qed.

Lemma comp1 {F T} (box dm : P -> Prop) bb f (za : ditv F) (D : R -> Prop) g (z : ditv T) :
  good box dm bb f za -> (snd z <= snd za)%N ->
  (forall r, mem r (fst za) -> D r -> mem (g r) (fst z)) ->
  honest near1 (box1 (fst za)) D (bounded_rep (fst za)) g (fst z) (snd z) ->
  good box (fun p => dm p /\ D (f p)) bb (fun p => g (f p)) z.
Proof.
intros G L En (H1 & H2 & H3).
pose proof (fun p => good_in box dm bb f za p G) as GI. destruct G as (Ga & Gb & Gc & Gd).
split; [|split; [|split]].
- intros p Bp [Dp Dg]. apply En; [now apply Ga|easy].
- intros K. destruct (H1 K) as (_ & N). destruct Gb as (E & M); [lia|]. split; [easy|].
  intros p Bp. split; [now apply M|]. apply N. apply GI; [lia|easy].
- intros K p Bp e He. assert (K' : (def <= snd za)%N) by (unfold def, dac in *; lia).
  destruct (H2 K (f p) (GI p K' Bp) e He) as (d & Hd & C1). destruct (Gc ltac:(lia) p Bp d Hd) as (d' & Hd' & C2).
  exists d'. split; [easy|]. intros q Bq Nq. apply C1; [now apply GI|]. now apply C2.
- intros K. destruct (H3 K) as (_ & B & C). destruct Gd as (B' & _ & C'); [lia|]. split; [easy|]. split; [easy|].
  intros p Bp e He. assert (K' : (def <= snd za)%N) by (unfold def, com in *; lia).
  destruct (C (f p) (GI p K' Bp) e He) as (d & Hd & C1). destruct (C' p Bp d Hd) as (d' & Hd' & C2).
  exists d'. split; [easy|]. intros q [Dq Dg] Nq. apply C1; [easy|]. now apply C2.
Qed.

Lemma comp2 {F G T} (bx1 dm1 bx2 dm2 box : P -> Prop) (bb1 bb2 bb : Prop) f1 f2 (z1 : ditv F) (z2 : ditv G) (D : R -> R -> Prop) g (z : ditv T) :
  (forall p, box p -> bx1 p /\ bx2 p) -> ((exists p, bx1 p) -> (exists p, bx2 p) -> exists p, box p) -> (bb1 -> bb2 -> bb) ->
  good bx1 dm1 bb1 f1 z1 -> good bx2 dm2 bb2 f2 z2 -> (snd z <= snd z1)%N -> (snd z <= snd z2)%N ->
  (forall r s, mem r (fst z1) -> mem s (fst z2) -> D r s -> mem (g r s) (fst z)) ->
  honest near2 (box2 (fst z1) (fst z2)) (fun p => D (fst p) (snd p)) (bounded_rep (fst z1) /\ bounded_rep (fst z2))
    (fun p => g (fst p) (snd p)) (fst z) (snd z) ->
  good box (fun p => dm1 p /\ dm2 p /\ D (f1 p) (f2 p)) bb (fun p => g (f1 p) (f2 p)) z.
Proof.
intros S X BB G1 G2 L1 L2 En (H1 & H2 & H3).
pose proof (fun p => good_in bx1 dm1 bb1 f1 z1 p G1) as GI1. pose proof (fun p => good_in bx2 dm2 bb2 f2 z2 p G2) as GI2.
destruct G1 as (A1 & A2 & A3 & A4), G2 as (B1 & B2 & B3 & B4).
split; [|split; [|split]].
- intros p Bp (Da & Db & Dg). destruct (S p Bp). apply En; [now apply A1|now apply B1|easy].
- intros K. destruct (H1 K) as (_ & N). destruct A2 as (E1 & M1); [lia|]. destruct B2 as (E2 & M2); [lia|]. split; [now apply X|].
  intros p Bp. destruct (S p Bp) as [Sa Sb]. split; [now apply M1|]. split; [now apply M2|]. apply (N (f1 p, f2 p)).
  split; [apply GI1; [lia|easy]|apply GI2; [lia|easy]].
- intros K p Bp e He. destruct (S p Bp) as [Sa Sb].
  assert (K1 : (def <= snd z1)%N) by (unfold def, dac in *; lia). assert (K2 : (def <= snd z2)%N) by (unfold def, dac in *; lia).
  destruct (H2 K (f1 p, f2 p) (conj (GI1 p K1 Sa) (GI2 p K2 Sb)) e He) as (d & Hd & C).
  destruct (A3 ltac:(lia) p Sa d Hd) as (d1 & Hd1 & C1). destruct (B3 ltac:(lia) p Sb d Hd) as (d2 & Hd2 & C2).
  exists (Rmin d1 d2). split; [now apply Rmin_glb_lt|]. intros q Bq Nq. destruct (S q Bq) as [Ta Tb].
  apply (C (f1 q, f2 q)); [split; [now apply GI1|now apply GI2]|].
  split; [apply C1; [easy|]|apply C2; [easy|]]; revert Nq; apply near_le; [apply Rmin_l|apply Rmin_r].
- intros K. destruct (H3 K) as (_ & B & C). destruct A4 as (Ba & _ & Ca); [lia|]. destruct B4 as (Bb & _ & Cb); [lia|].
  split; [now apply BB|]. split; [easy|]. intros p Bp e He. destruct (S p Bp) as [Sa Sb].
  assert (K1 : (def <= snd z1)%N) by (unfold def, com in *; lia). assert (K2 : (def <= snd z2)%N) by (unfold def, com in *; lia).
  destruct (C (f1 p, f2 p) (conj (GI1 p K1 Sa) (GI2 p K2 Sb)) e He) as (d & Hd & C0).
  destruct (Ca p Sa d Hd) as (d1 & Hd1 & C1). destruct (Cb p Sb d Hd) as (d2 & Hd2 & C2).
  exists (Rmin d1 d2). split; [now apply Rmin_glb_lt|]. intros q (Da & Db & Dg) Nq.
  apply (C0 (f1 q, f2 q)); [easy|].
  split; [apply C1; [easy|]|apply C2; [easy|]]; revert Nq; apply near_le; [apply Rmin_l|apply Rmin_r].
Qed.

Lemma comp3 {F G H T} (bx1 dm1 bx2 dm2 bx3 dm3 box : P -> Prop) (bb1 bb2 bb3 bb : Prop) f1 f2 f3
    (z1 : ditv F) (z2 : ditv G) (z3 : ditv H) g (z : ditv T) :
  (forall p, box p -> bx1 p /\ bx2 p /\ bx3 p) -> ((exists p, bx1 p) -> (exists p, bx2 p) -> (exists p, bx3 p) -> exists p, box p) ->
  (bb1 -> bb2 -> bb3 -> bb) ->
  good bx1 dm1 bb1 f1 z1 -> good bx2 dm2 bb2 f2 z2 -> good bx3 dm3 bb3 f3 z3 ->
  (snd z <= snd z1)%N -> (snd z <= snd z2)%N -> (snd z <= snd z3)%N ->
  (forall r s t, mem r (fst z1) -> mem s (fst z2) -> mem t (fst z3) -> mem (g r s t) (fst z)) ->
  honest near3 (box3 (fst z1) (fst z2) (fst z3)) (fun _ => True) (bounded_rep (fst z1) /\ bounded_rep (fst z2) /\ bounded_rep (fst z3))
    (fun p => g (fst (fst p)) (snd (fst p)) (snd p)) (fst z) (snd z) ->
  good box (fun p => dm1 p /\ dm2 p /\ dm3 p) bb (fun p => g (f1 p) (f2 p) (f3 p)) z.
Proof.
intros S X BB G1 G2 G3 L1 L2 L3 En (_ & H2 & H3).
pose proof (fun p => good_in bx1 dm1 bb1 f1 z1 p G1) as GI1. pose proof (fun p => good_in bx2 dm2 bb2 f2 z2 p G2) as GI2.
pose proof (fun p => good_in bx3 dm3 bb3 f3 z3 p G3) as GI3.
destruct G1 as (A1 & A2 & A3 & A4), G2 as (B1 & B2 & B3 & B4), G3 as (E1 & E2 & E3 & E4).
assert (MM : forall d1 d2 d3, 0 < d1 -> 0 < d2 -> 0 < d3 -> exists d, 0 < d /\ d <= d1 /\ d <= d2 /\ d <= d3).
{ intros d1 d2 d3 P1 P2 P3. exists (Rmin d1 (Rmin d2 d3)). split; [repeat apply Rmin_glb_lt; easy|].
  split; [apply Rmin_l|]. split; [eapply Rle_trans; [apply Rmin_r|apply Rmin_l]|eapply Rle_trans; [apply Rmin_r|apply Rmin_r]]. }
split; [|split; [|split]].
- intros p Bp (Da & Db & Dc). destruct (S p Bp) as (Sa & Sb & Sc). apply En; [now apply A1|now apply B1|now apply E1].
- intros K. destruct A2 as (X1 & M1); [lia|]. destruct B2 as (X2 & M2); [lia|]. destruct E2 as (X3 & M3); [lia|]. split; [now apply X|].
  intros p Bp. destruct (S p Bp) as (Sa & Sb & Sc). split; [now apply M1|]. split; [now apply M2|now apply M3].
- intros K p Bp e He. destruct (S p Bp) as (Sa & Sb & Sc).
  assert (K1 : (def <= snd z1)%N) by (unfold def, dac in *; lia). assert (K2 : (def <= snd z2)%N) by (unfold def, dac in *; lia).
  assert (K3 : (def <= snd z3)%N) by (unfold def, dac in *; lia).
  destruct (H2 K (f1 p, f2 p, f3 p) (conj (conj (GI1 p K1 Sa) (GI2 p K2 Sb)) (GI3 p K3 Sc)) e He) as (d & Hd & C).
  destruct (A3 ltac:(lia) p Sa d Hd) as (d1 & Hd1 & C1). destruct (B3 ltac:(lia) p Sb d Hd) as (d2 & Hd2 & C2).
  destruct (E3 ltac:(lia) p Sc d Hd) as (d3 & Hd3 & C3). destruct (MM d1 d2 d3 Hd1 Hd2 Hd3) as (d0 & P0 & P1 & P2 & P3).
  exists d0. split; [easy|]. intros q Bq Nq. destruct (S q Bq) as (Ta & Tb & Tc).
  apply (C (f1 q, f2 q, f3 q)); [split; [split; [now apply GI1|now apply GI2]|now apply GI3]|].
  split; [split; [apply C1|apply C2]|apply C3]; try easy; revert Nq; now apply near_le.
- intros K. destruct (H3 K) as (_ & B & C). destruct A4 as (Ba & _ & Ca); [lia|]. destruct B4 as (Bb & _ & Cb); [lia|]. destruct E4 as (Bc & _ & Cc); [lia|].
  split; [now apply BB|]. split; [easy|]. intros p Bp e He. destruct (S p Bp) as (Sa & Sb & Sc).
  assert (K1 : (def <= snd z1)%N) by (unfold def, com in *; lia). assert (K2 : (def <= snd z2)%N) by (unfold def, com in *; lia).
  assert (K3 : (def <= snd z3)%N) by (unfold def, com in *; lia).
  destruct (C (f1 p, f2 p, f3 p) (conj (conj (GI1 p K1 Sa) (GI2 p K2 Sb)) (GI3 p K3 Sc)) e He) as (d & Hd & C0).
  destruct (Ca p Sa d Hd) as (d1 & Hd1 & C1). destruct (Cb p Sb d Hd) as (d2 & Hd2 & C2).
  destruct (Cc p Sc d Hd) as (d3 & Hd3 & C3). destruct (MM d1 d2 d3 Hd1 Hd2 Hd3) as (d0 & P0 & P1 & P2 & P3).
  exists d0. split; [easy|]. intros q (Da & Db & Dc) Nq.
  apply (C0 (f1 q, f2 q, f3 q)); [easy|].
  split; [split; [apply C1|apply C2]|apply C3]; try easy; revert Nq; now apply near_le.
Qed.
End Comp.

Lemma near_env_le d d' p q : d <= d' -> near_env d p q -> near_env d' p q.
Proof. intros H N i. specialize (N i). unfold near1 in *. lra. Qed.

Lemma deco_com d : is_deco d -> (com <= d)%N -> d = com.
Proof. unfold is_deco. cbn [In]. intros [<-|[<-|[<-|[<-|[<-|[]]]]]] K; try easy; now destruct K. Qed.

(** Sequencing. *)
Lemma ret_bind {A B} (m : M A) (k : A -> M B) a b : returns m a -> returns (k a) b -> returns (bind m k) b.
Proof. intros H1 H2 s. unfold bind. now rewrite H1, H2. Qed.

(** ** Expressions *)
Section Main.
Context {vf : nat -> fmt}.
Implicit Type I : denv vf.

Definition bev (I : denv vf) F (e : expr vf F) (z : itv F) : Prop := returns (beval (parts I) e) z.

(** Boxes of subexpressions. *)
Lemma box_union {F G H} (e : expr vf F) (a : expr vf G) (c : expr vf H) X :
  (forall i, occurs i e = (occurs i a || occurs i c)%bool) ->
  (forall p, in_box e X p -> in_box a X p /\ in_box c X p) /\
  ((exists p, in_box a X p) -> (exists p, in_box c X p) -> exists p, in_box e X p) /\
  (bounded_box a X -> bounded_box c X -> bounded_box e X).
Proof.
intros O. split; [|split].
- intros p B. split; intros i Hi; apply B; rewrite O, Hi; [easy|]. now destruct (occurs i a).
- intros [p Hp] [q Hq]. exists (fun i => if occurs i a then p i else q i). intros i Hi. rewrite O in Hi.
  destruct (occurs i a) eqn:E; [now apply Hp|now apply Hq].
- intros A C i Hi. rewrite O in Hi. destruct (occurs i a) eqn:E; [now apply A|now apply C].
Qed.

(** The result of an evaluation. *)
Definition result (I : denv vf) {F} (e : expr vf F) (z : ditv F) : Prop :=
  returns (deval I e) z /\ proper z /\ returns (beval (parts I) e) (fst z) /\
  (forall i, occurs i e = true -> (snd z <= snd (I i))%N) /\
  good near_env (in_box e (parts I)) (fun p => dom p e) (bounded_box e (parts I)) (fun p => val p e) z.

Lemma var_result I i : proper (I i) -> result I (Var i) (I i).
Proof.
intros (W & D & N). split; [easy|]. split; [easy|]. split; [easy|].
split. { intros j Hj. cbn [occurs] in Hj. apply Nat.eqb_eq in Hj. subst j. lia. }
assert (O : occurs i (@Var vf i) = true) by (cbn [occurs]; apply Nat.eqb_refl).
split; [|split; [|split]].
- intros p B _. now apply (B i).
- intros K. split; [|easy]. destruct W as [[_ [W|W]]|[[r Hr] _]]; [easy|now rewrite W in K|].
  exists (fun _ => r). intros j Hj. cbn [occurs] in Hj. apply Nat.eqb_eq in Hj. now subst j.
- intros _ p Bp e He. exists e. split; [easy|]. intros q _ Nq. exact (Nq i).
- intros K. split; [|split].
  + intros j Hj. cbn [occurs] in Hj. apply Nat.eqb_eq in Hj. subst j.
    destruct W as [[_ [W|W]]|(_ & _ & W)]; [easy|now rewrite W in K|]. apply W.
    now apply deco_com.
  + destruct W as [[_ [W|W]]|(_ & _ & W)]; [easy|now rewrite W in K|]. apply W.
    now apply deco_com.
  + intros p Bp e He. exists e. split; [easy|]. intros q _ Nq. exact (Nq i).
Qed.

Theorem ftdia I {F} (e : expr vf F) : (forall i, occurs i e = true -> proper (I i)) -> typed e -> tan_fine (bev I) e -> exists z, result I e z.
Proof.
induction e as [i|F u a IHa|F b a IHa c IHc|F a IHa c IHc d IHd|T F u a IHa|T F G b a IHa c IHc|T F G H a IHa c IHc d IHd]; intros PR TY TF.
- exists (I i). apply var_result, PR. cbn [occurs]. apply Nat.eqb_refl.
- cbn [typed tan_fine] in *. destruct TF as [TF1 TF2]. destruct (IHa PR TY TF1) as (za & A1 & A2 & A3 & A4 & A5).
  destruct (un_node u za A2) as (z & Z1 & Z2 & Z3 & Z4 & Z5 & Z6). { intros E. now apply (TF2 E). }
  exists z. split; [now apply (ret_bind _ _ za)|]. split; [easy|]. split; [now apply (ret_bind _ _ (fst za))|]. split.
  + intros i Hi. specialize (A4 i Hi). lia.
  + now apply (comp1 near_env _ _ _ _ za).
- cbn [typed tan_fine] in *. destruct TY as [TY1 TY2], TF as [TF1 TF2].
  destruct (box_union (Bin b a c) a c (parts I) (fun i => eq_refl)) as (U1 & U2 & U3).
  destruct (IHa) as (za & A1 & A2 & A3 & A4 & A5); [intros i Hi; apply PR; cbn [occurs]; now rewrite Hi|easy|easy|].
  destruct (IHc) as (zc & B1 & B2 & B3 & B4 & B5); [intros i Hi; apply PR; cbn [occurs]; rewrite Hi; apply orb_true_r|easy|easy|].
  destruct (bin_node b za zc A2 B2) as (z & Z1 & Z2 & Z3 & Z4 & Z5 & Z6 & Z7).
  exists z. split; [apply (ret_bind _ _ za); [easy|]; now apply (ret_bind _ _ zc)|]. split; [easy|].
  split; [apply (ret_bind _ _ (fst za)); [easy|]; now apply (ret_bind _ _ (fst zc))|]. split.
  + intros i Hi. cbn [occurs] in Hi. apply orb_prop in Hi. destruct Hi as [Hi|Hi]; [specialize (A4 i Hi)|specialize (B4 i Hi)]; lia.
  + exact (comp2 near_env near_env_le _ _ _ _ _ _ _ _ _ _ za zc _ _ z U1 U2 U3 A5 B5 Z4 Z5 Z6 Z7).
- cbn [typed tan_fine] in *. destruct TY as (TY1 & TY2 & TY3), TF as (TF1 & TF2 & TF3).
  destruct (box_union (Fma a c d) (Bin b_add a c) d (parts I) (fun i => eq_refl)) as (U1 & U2 & U3).
  destruct (box_union (Bin b_add a c) a c (parts I) (fun i => eq_refl)) as (V1 & V2 & V3).
  destruct (IHa) as (za & A1 & A2 & A3 & A4 & A5); [intros i Hi; apply PR; cbn [occurs]; now rewrite Hi|easy|easy|].
  destruct (IHc) as (zc & B1 & B2 & B3 & B4 & B5); [intros i Hi; apply PR; cbn [occurs]; rewrite Hi; now rewrite orb_true_r|easy|easy|].
  destruct (IHd) as (zd & D1 & D2 & D3 & D4 & D5); [intros i Hi; apply PR; cbn [occurs]; rewrite Hi; apply orb_true_r|easy|easy|].
  destruct (mk3 _ _ _ za zc zd (C16.C16_fma F) (fun u v t U V T => fma_tightest u v t U V T) A2 B2 D2) as (z & Z1 & Z2 & Z3 & Z4 & Z5 & Z6 & Z7 & Z8).
  exists z. split; [apply (ret_bind _ _ za); [easy|]; apply (ret_bind _ _ zc); [easy|]; now apply (ret_bind _ _ zd)|]. split; [easy|].
  split; [apply (ret_bind _ _ (fst za)); [easy|]; apply (ret_bind _ _ (fst zc)); [easy|]; now apply (ret_bind _ _ (fst zd))|]. split.
  + intros i Hi. cbn [occurs] in Hi. apply orb_prop in Hi. destruct Hi as [Hi|Hi]; [apply orb_prop in Hi; destruct Hi as [Hi|Hi]|];
      [specialize (A4 i Hi)|specialize (B4 i Hi)|specialize (D4 i Hi)]; lia.
  + refine (comp3 near_env near_env_le _ _ _ _ _ _ _ _ _ _ _ _ _ _ za zc zd _ z _ _ _ A5 B5 D5 Z4 Z5 Z6 Z7 Z8).
    * intros p Bp. destruct (U1 p Bp) as [Q1 Q2]. destruct (V1 p Q1). easy.
    * intros. apply U2; [now apply V2|easy].
    * intros. apply U3; [now apply V3|easy].
- cbn [typed tan_fine] in *. destruct TY as [TY C], TF as [TF1 TF2]. destruct (IHa PR TY TF1) as (za & A1 & A2 & A3 & A4 & A5).
  destruct (un_node_mixed T u za C A2) as (z & Z1 & Z2 & Z3 & Z4 & Z5 & Z6). { intros E. now apply (TF2 E). }
  exists z. split; [now apply (ret_bind _ _ za)|]. split; [easy|]. split; [now apply (ret_bind _ _ (fst za))|]. split.
  + intros i Hi. specialize (A4 i Hi). lia.
  + now apply (comp1 near_env _ _ _ _ za).
- cbn [typed tan_fine] in *. destruct TY as (TY1 & TY2 & C1 & C2 & C3), TF as [TF1 TF2].
  destruct (box_union (MBin T b a c) a c (parts I) (fun i => eq_refl)) as (U1 & U2 & U3).
  destruct (IHa) as (za & A1 & A2 & A3 & A4 & A5); [intros i Hi; apply PR; cbn [occurs]; now rewrite Hi|easy|easy|].
  destruct (IHc) as (zc & B1 & B2 & B3 & B4 & B5); [intros i Hi; apply PR; cbn [occurs]; rewrite Hi; apply orb_true_r|easy|easy|].
  destruct (bin_node_mixed T b za zc C1 C2 C3 A2 B2) as (z & Z1 & Z2 & Z3 & Z4 & Z5 & Z6 & Z7).
  exists z. split; [apply (ret_bind _ _ za); [easy|]; now apply (ret_bind _ _ zc)|]. split; [easy|].
  split; [apply (ret_bind _ _ (fst za)); [easy|]; now apply (ret_bind _ _ (fst zc))|]. split.
  + intros i Hi. cbn [occurs] in Hi. apply orb_prop in Hi. destruct Hi as [Hi|Hi]; [specialize (A4 i Hi)|specialize (B4 i Hi)]; lia.
  + exact (comp2 near_env near_env_le _ _ _ _ _ _ _ _ _ _ za zc _ _ z U1 U2 U3 A5 B5 Z4 Z5 Z6 Z7).
- cbn [typed tan_fine] in *. destruct TY as (TY1 & TY2 & TY3 & C1 & C2 & C3 & C4 & C5 & C6), TF as (TF1 & TF2 & TF3).
  destruct (box_union (MFma T a c d) (MBin T b_add a c) d (parts I) (fun i => eq_refl)) as (U1 & U2 & U3).
  destruct (box_union (MBin T b_add a c) a c (parts I) (fun i => eq_refl)) as (V1 & V2 & V3).
  destruct (IHa) as (za & A1 & A2 & A3 & A4 & A5); [intros i Hi; apply PR; cbn [occurs]; now rewrite Hi|easy|easy|].
  destruct (IHc) as (zc & B1 & B2 & B3 & B4 & B5); [intros i Hi; apply PR; cbn [occurs]; rewrite Hi; now rewrite orb_true_r|easy|easy|].
  destruct (IHd) as (zd & D1 & D2 & D3 & D4 & D5); [intros i Hi; apply PR; cbn [occurs]; rewrite Hi; apply orb_true_r|easy|easy|].
  destruct (mk3 _ _ _ za zc zd (C28.C28_fma_dec T F G H C1 C2 C3 C4 C5 C6) (fun u v t U V W => C28.C28_fma T F G H u v t C1 C2 C3 C4 C5 C6 U V W) A2 B2 D2) as (z & Z1 & Z2 & Z3 & Z4 & Z5 & Z6 & Z7 & Z8).
  exists z. split; [apply (ret_bind _ _ za); [easy|]; apply (ret_bind _ _ zc); [easy|]; now apply (ret_bind _ _ zd)|]. split; [easy|].
  split; [apply (ret_bind _ _ (fst za)); [easy|]; apply (ret_bind _ _ (fst zc)); [easy|]; now apply (ret_bind _ _ (fst zd))|]. split.
  + intros i Hi. cbn [occurs] in Hi. apply orb_prop in Hi. destruct Hi as [Hi|Hi]; [apply orb_prop in Hi; destruct Hi as [Hi|Hi]|];
      [specialize (A4 i Hi)|specialize (B4 i Hi)|specialize (D4 i Hi)]; lia.
  + refine (comp3 near_env near_env_le _ _ _ _ _ _ _ _ _ _ _ _ _ _ za zc zd _ z _ _ _ A5 B5 D5 Z4 Z5 Z6 Z7 Z8).
    * intros p Bp. destruct (U1 p Bp) as [Q1 Q2]. destruct (V1 p Q1). easy.
    * intros. apply U2; [now apply V2|easy].
    * intros. apply U3; [now apply V3|easy].
Qed.
End Main.

(** ** Totality, NaI, isotonicity *)
Section More.
Context {vf : nat -> fmt}.

Lemma total (I : denv vf) {F} (e : expr vf F) : (forall i, occurs i e = true -> proper (I i)) -> typed e ->
  exists z, returns (deval I e) z /\ proper z /\ returns (beval (parts I) e) (fst z).
Proof.
induction e as [i|F u a IHa|F b a IHa c IHc|F a IHa c IHc d IHd|T F u a IHa|T F G b a IHa c IHc|T F G H a IHa c IHc d IHd]; intros PR TY; cbn [typed] in TY.
- exists (I i). split; [easy|]. split; [|easy]. apply PR. cbn [occurs]. apply Nat.eqb_refl.
- destruct (IHa PR TY) as (za & A1 & A2 & A3). destruct (un_tot u za A2) as (z & Z1 & Z2 & Z3).
  exists z. split; [now apply (ret_bind _ _ za)|]. split; [easy|now apply (ret_bind _ _ (fst za))].
- destruct TY as [TY1 TY2].
  destruct (IHa) as (za & A1 & A2 & A3); [intros i Hi; apply PR; cbn [occurs]; now rewrite Hi|easy|].
  destruct (IHc) as (zc & B1 & B2 & B3); [intros i Hi; apply PR; cbn [occurs]; rewrite Hi; apply orb_true_r|easy|].
  destruct (bin_node b za zc A2 B2) as (z & Z1 & Z2 & Z3 & _).
  exists z. split; [apply (ret_bind _ _ za); [easy|]; now apply (ret_bind _ _ zc)|]. split; [easy|].
  apply (ret_bind _ _ (fst za)); [easy|]; now apply (ret_bind _ _ (fst zc)).
- destruct TY as (TY1 & TY2 & TY3).
  destruct (IHa) as (za & A1 & A2 & A3); [intros i Hi; apply PR; cbn [occurs]; now rewrite Hi|easy|].
  destruct (IHc) as (zc & B1 & B2 & B3); [intros i Hi; apply PR; cbn [occurs]; rewrite Hi; now rewrite orb_true_r|easy|].
  destruct (IHd) as (zd & D1 & D2 & D3); [intros i Hi; apply PR; cbn [occurs]; rewrite Hi; apply orb_true_r|easy|].
  destruct (mk3 _ _ _ za zc zd (C16.C16_fma F) (fun u v t U V T => fma_tightest u v t U V T) A2 B2 D2) as (z & Z1 & Z2 & Z3 & _).
  exists z. split; [apply (ret_bind _ _ za); [easy|]; apply (ret_bind _ _ zc); [easy|]; now apply (ret_bind _ _ zd)|]. split; [easy|].
  apply (ret_bind _ _ (fst za)); [easy|]; apply (ret_bind _ _ (fst zc)); [easy|]; now apply (ret_bind _ _ (fst zd)).
- destruct TY as [TY C]. destruct (IHa PR TY) as (za & A1 & A2 & A3). destruct (un_tot_mixed T u za C A2) as (z & Z1 & Z2 & Z3).
  exists z. split; [now apply (ret_bind _ _ za)|]. split; [easy|now apply (ret_bind _ _ (fst za))].
- destruct TY as (TY1 & TY2 & C1 & C2 & C3).
  destruct (IHa) as (za & A1 & A2 & A3); [intros i Hi; apply PR; cbn [occurs]; now rewrite Hi|easy|].
  destruct (IHc) as (zc & B1 & B2 & B3); [intros i Hi; apply PR; cbn [occurs]; rewrite Hi; apply orb_true_r|easy|].
  destruct (bin_node_mixed T b za zc C1 C2 C3 A2 B2) as (z & Z1 & Z2 & Z3 & _).
  exists z. split; [apply (ret_bind _ _ za); [easy|]; now apply (ret_bind _ _ zc)|]. split; [easy|].
  apply (ret_bind _ _ (fst za)); [easy|]; now apply (ret_bind _ _ (fst zc)).
- destruct TY as (TY1 & TY2 & TY3 & C1 & C2 & C3 & C4 & C5 & C6).
  destruct (IHa) as (za & A1 & A2 & A3); [intros i Hi; apply PR; cbn [occurs]; now rewrite Hi|easy|].
  destruct (IHc) as (zc & B1 & B2 & B3); [intros i Hi; apply PR; cbn [occurs]; rewrite Hi; now rewrite orb_true_r|easy|].
  destruct (IHd) as (zd & D1 & D2 & D3); [intros i Hi; apply PR; cbn [occurs]; rewrite Hi; apply orb_true_r|easy|].
  destruct (mk3 _ _ _ za zc zd (C28.C28_fma_dec T F G H C1 C2 C3 C4 C5 C6) (fun u v t U V W => C28.C28_fma T F G H u v t C1 C2 C3 C4 C5 C6 U V W) A2 B2 D2) as (z & Z1 & Z2 & Z3 & _).
  exists z. split; [apply (ret_bind _ _ za); [easy|]; apply (ret_bind _ _ zc); [easy|]; now apply (ret_bind _ _ zd)|]. split; [easy|].
  apply (ret_bind _ _ (fst za)); [easy|]; apply (ret_bind _ _ (fst zc)); [easy|]; now apply (ret_bind _ _ (fst zd)).
Qed.

(** A NaI variable. *)
Definition nai_in (I : denv vf) {F} (e : expr vf F) : Prop := exists i, occurs i e = true /\ snd (I i) = ill.
Lemma nai_valid {F} : wf_dec (@empty_rep F, ill) /\ is_deco ill.
Proof. split; [left; split; [reflexivity|now left]|unfold is_deco; cbn; tauto]. Qed.
Lemma nai_cases (I : denv vf) {F} (e : expr vf F) : (forall i, occurs i e = true -> valid_dec (I i)) ->
  nai_in I e \/ (forall i, occurs i e = true -> proper (I i)).
Proof.
induction e as [i|F u a IHa|F b a IHa c IHc|F a IHa c IHc d IHd|T F u a IHa|T F G b a IHa c IHc|T F G H a IHa c IHc d IHd]; intros V.
- assert (O : occurs i (@Var vf i) = true) by (cbn [occurs]; apply Nat.eqb_refl). destruct (V i O) as [V1 V2].
  destruct (N.eq_dec (snd (I i)) ill) as [E|E]; [left; now exists i|right].
  intros j Hj. cbn [occurs] in Hj. apply Nat.eqb_eq in Hj. now subst j.
- exact (IHa V).
- destruct IHa as [(i & O & N)|IHa]; [intros i Hi; apply V; cbn [occurs]; now rewrite Hi|left; exists i; cbn [occurs]; now rewrite O|].
  destruct IHc as [(i & O & N)|IHc]; [intros i Hi; apply V; cbn [occurs]; rewrite Hi; apply orb_true_r|left; exists i; cbn [occurs]; now rewrite O, orb_true_r|].
  right. intros i Hi. cbn [occurs] in Hi. apply orb_prop in Hi. destruct Hi as [Hi|Hi]; [now apply IHa|now apply IHc].
- destruct IHa as [(i & O & N)|IHa]; [intros i Hi; apply V; cbn [occurs]; now rewrite Hi|left; exists i; cbn [occurs]; now rewrite O|].
  destruct IHc as [(i & O & N)|IHc]; [intros i Hi; apply V; cbn [occurs]; now rewrite Hi, orb_true_r|left; exists i; cbn [occurs]; now rewrite O, orb_true_r|].
  destruct IHd as [(i & O & N)|IHd]; [intros i Hi; apply V; cbn [occurs]; now rewrite Hi, orb_true_r|left; exists i; cbn [occurs]; now rewrite O, orb_true_r|].
  right. intros i Hi. cbn [occurs] in Hi. apply orb_prop in Hi. destruct Hi as [Hi|Hi]; [apply orb_prop in Hi; destruct Hi as [Hi|Hi]|]; [now apply IHa|now apply IHc|now apply IHd].
- exact (IHa V).
- destruct IHa as [(i & O & N)|IHa]; [intros i Hi; apply V; cbn [occurs]; now rewrite Hi|left; exists i; cbn [occurs]; now rewrite O|].
  destruct IHc as [(i & O & N)|IHc]; [intros i Hi; apply V; cbn [occurs]; rewrite Hi; apply orb_true_r|left; exists i; cbn [occurs]; now rewrite O, orb_true_r|].
  right. intros i Hi. cbn [occurs] in Hi. apply orb_prop in Hi. destruct Hi as [Hi|Hi]; [now apply IHa|now apply IHc].
- destruct IHa as [(i & O & N)|IHa]; [intros i Hi; apply V; cbn [occurs]; now rewrite Hi|left; exists i; cbn [occurs]; now rewrite O|].
  destruct IHc as [(i & O & N)|IHc]; [intros i Hi; apply V; cbn [occurs]; now rewrite Hi, orb_true_r|left; exists i; cbn [occurs]; now rewrite O, orb_true_r|].
  destruct IHd as [(i & O & N)|IHd]; [intros i Hi; apply V; cbn [occurs]; now rewrite Hi, orb_true_r|left; exists i; cbn [occurs]; now rewrite O, orb_true_r|].
  right. intros i Hi. cbn [occurs] in Hi. apply orb_prop in Hi. destruct Hi as [Hi|Hi]; [apply orb_prop in Hi; destruct Hi as [Hi|Hi]|]; [now apply IHa|now apply IHc|now apply IHd].
Qed.

(** Operands: NaI, or proper and free of NaI. *)
Definition half (I : denv vf) {F} (e : expr vf F) : Prop :=
  exists z, returns (deval I e) z /\ wf_dec z /\ (nai_in I e -> z = (empty_rep, ill)).
Lemma half_of (I : denv vf) {F} (e : expr vf F) : (forall i, occurs i e = true -> valid_dec (I i)) -> typed e ->
  (nai_in I e -> returns (deval I e) (empty_rep, ill)) -> half I e.
Proof.
intros V T H. destruct (nai_cases I e V) as [N|P].
- exists (empty_rep, ill). split; [now apply H|]. split; [apply nai_valid|easy].
- destruct (total I e P T) as (z & Z1 & Z2 & _). exists z. split; [easy|]. split; [apply Z2|].
  intros N. apply (returns_same _ _ _ Z1). now apply H.
Qed.
Lemma nai_result (I : denv vf) {F} (e : expr vf F) : (forall i, occurs i e = true -> valid_dec (I i)) -> typed e ->
  nai_in I e -> returns (deval I e) (empty_rep, ill).
Proof.
induction e as [i|F u a IHa|F b a IHa c IHc|F a IHa c IHc d IHd|T F u a IHa|T F G b a IHa c IHc|T F G H a IHa c IHc d IHd]; intros V TY N; cbn [typed] in TY.
- assert (O : occurs i (@Var vf i) = true) by (cbn [occurs]; apply Nat.eqb_refl). destruct (V i O) as [[[E _]|[_ [E _]]] _];
    destruct N as (j & Hj & N); cbn [occurs] in Hj; apply Nat.eqb_eq in Hj; subst j; [|easy].
  intros s. cbn. unfold ret. destruct (I i) as [x d]. cbn in *. now subst.
- apply (ret_bind _ _ (empty_rep, ill)); [now apply IHa|]. apply un_nai; [apply nai_valid|easy].
- destruct TY as [TY1 TY2].
  destruct (half_of I a) as (za & A1 & A2 & A3); [intros i Hi; apply V; cbn [occurs]; now rewrite Hi|easy|apply IHa; [intros i Hi; apply V; cbn [occurs]; now rewrite Hi|easy]|].
  destruct (half_of I c) as (zc & B1 & B2 & B3); [intros i Hi; apply V; cbn [occurs]; now rewrite Hi, orb_true_r|easy|apply IHc; [intros i Hi; apply V; cbn [occurs]; now rewrite Hi, orb_true_r|easy]|].
  apply (ret_bind _ _ za); [easy|]. apply (ret_bind _ _ zc); [easy|]. apply bin_nai; [easy|easy|].
  destruct N as (i & O & N). cbn [occurs] in O. apply orb_prop in O. destruct O as [O|O]; [left; rewrite A3|right; rewrite B3]; try easy; now exists i.
- destruct TY as (TY1 & TY2 & TY3).
  destruct (half_of I a) as (za & A1 & A2 & A3); [intros i Hi; apply V; cbn [occurs]; now rewrite Hi|easy|apply IHa; [intros i Hi; apply V; cbn [occurs]; now rewrite Hi|easy]|].
  destruct (half_of I c) as (zc & B1 & B2 & B3); [intros i Hi; apply V; cbn [occurs]; now rewrite Hi, orb_true_r|easy|apply IHc; [intros i Hi; apply V; cbn [occurs]; now rewrite Hi, orb_true_r|easy]|].
  destruct (half_of I d) as (zd & D1 & D2 & D3); [intros i Hi; apply V; cbn [occurs]; now rewrite Hi, orb_true_r|easy|apply IHd; [intros i Hi; apply V; cbn [occurs]; now rewrite Hi, orb_true_r|easy]|].
  apply (ret_bind _ _ za); [easy|]. apply (ret_bind _ _ zc); [easy|]. apply (ret_bind _ _ zd); [easy|]. apply (C17.C17_fma_dec F); try easy.
  destruct N as (i & O & N). cbn [occurs] in O. apply orb_prop in O. destruct O as [O|O]; [apply orb_prop in O; destruct O as [O|O]|];
    [left; rewrite A3|right; left; rewrite B3|right; right; rewrite D3]; try easy; now exists i.
- destruct TY as [TY C]. apply (ret_bind _ _ (empty_rep, ill)); [now apply IHa|]. apply un_nai_mixed; [apply nai_valid|easy].
- destruct TY as (TY1 & TY2 & C1 & C2 & C3).
  destruct (half_of I a) as (za & A1 & A2 & A3); [intros i Hi; apply V; cbn [occurs]; now rewrite Hi|easy|apply IHa; [intros i Hi; apply V; cbn [occurs]; now rewrite Hi|easy]|].
  destruct (half_of I c) as (zc & B1 & B2 & B3); [intros i Hi; apply V; cbn [occurs]; now rewrite Hi, orb_true_r|easy|apply IHc; [intros i Hi; apply V; cbn [occurs]; now rewrite Hi, orb_true_r|easy]|].
  apply (ret_bind _ _ za); [easy|]. apply (ret_bind _ _ zc); [easy|]. apply bin_nai_mixed; [easy|easy|].
  destruct N as (i & O & N). cbn [occurs] in O. apply orb_prop in O. destruct O as [O|O]; [left; rewrite A3|right; rewrite B3]; try easy; now exists i.
- destruct TY as (TY1 & TY2 & TY3 & C1 & C2 & C3 & C4 & C5 & C6).
  destruct (half_of I a) as (za & A1 & A2 & A3); [intros i Hi; apply V; cbn [occurs]; now rewrite Hi|easy|apply IHa; [intros i Hi; apply V; cbn [occurs]; now rewrite Hi|easy]|].
  destruct (half_of I c) as (zc & B1 & B2 & B3); [intros i Hi; apply V; cbn [occurs]; now rewrite Hi, orb_true_r|easy|apply IHc; [intros i Hi; apply V; cbn [occurs]; now rewrite Hi, orb_true_r|easy]|].
  destruct (half_of I d) as (zd & D1 & D2 & D3); [intros i Hi; apply V; cbn [occurs]; now rewrite Hi, orb_true_r|easy|apply IHd; [intros i Hi; apply V; cbn [occurs]; now rewrite Hi, orb_true_r|easy]|].
  apply (ret_bind _ _ za); [easy|]. apply (ret_bind _ _ zc); [easy|]. apply (ret_bind _ _ zd); [easy|]. apply (C17.C17_fma_dec_mixed T F G H); try easy.
  destruct N as (i & O & N). cbn [occurs] in O. apply orb_prop in O. destruct O as [O|O]; [apply orb_prop in O; destruct O as [O|O]|];
    [left; rewrite A3|right; left; rewrite B3|right; right; rewrite D3]; try easy; now exists i.
Qed.

(** Isotonicity of the bare evaluation. *)
Definition bev' (X : ienv vf) F (e : expr vf F) (z : itv F) : Prop := returns (beval X e) z.
Definition mono (X X' : ienv vf) {F} (e : expr vf F) : Prop :=
  exists z z', returns (beval X e) z /\ returns (beval X' e) z' /\ wf z /\ wf z' /\ included z z'.
Lemma btotal (X : ienv vf) {F} (e : expr vf F) : (forall i, occurs i e = true -> wf (X i)) -> typed e -> exists z, returns (beval X e) z /\ wf z.
Proof.
intros W T. set (I := (fun i => (X i, trv)) : denv vf).
destruct (total I e) as (z & _ & Z2 & Z3); [|easy|exists (fst z); split; [exact Z3|now apply proper_wf]].
intros i O. specialize (W i O). unfold I. split; [|split; [cbn; unfold is_deco; cbn; tauto|easy]].
destruct W as [->|W]; [left; split; [easy|now right]|right; cbn [fst snd]]. split; [easy|]. easy.
Qed.
Definition smaller (X X' : ienv vf) {F} (e : expr vf F) : Prop :=
  forall i, occurs i e = true -> wf (X i) /\ wf (X' i) /\ included (X i) (X' i).
Lemma mono_intro (X X' : ienv vf) {F} (e : expr vf F) z z' : smaller X X' e -> typed e ->
  returns (beval X e) z -> returns (beval X' e) z' -> included z z' -> mono X X' e.
Proof.
intros W T R R' I. destruct (btotal X e) as (v & V1 & V2); [intros i O; now apply W|easy|]. destruct (btotal X' e) as (v' & V1' & V2'); [intros i O; now apply W|easy|].
exists z, z'. rewrite (returns_same _ _ _ V1 R) in V2. rewrite (returns_same _ _ _ V1' R') in V2'. easy.
Qed.
Lemma monotone (X X' : ienv vf) {F} (e : expr vf F) : smaller X X' e -> typed e -> tan_fine (bev' X') e -> mono X X' e.
Proof.
induction e as [i|F u a IHa|F b a IHa c IHc|F a IHa c IHc d IHd|T F u a IHa|T F G b a IHa c IHc|T F G H a IHa c IHc d IHd]; intros W TY TF;
  pose proof TY as TY0; cbn [typed tan_fine] in TY, TF.
- apply (mono_intro X X' (Var i) (X i) (X' i)); try easy. apply W. cbn [occurs]. apply Nat.eqb_refl.
- destruct TF as [TF1 TF2]. destruct (IHa W TY TF1) as (v & v' & V & V' & V2 & V2' & J).
  destruct (un_iso u v v' V2 V2' (fun E => TF2 E v' V') J) as (y & y' & Y & Y' & JJ).
  apply (mono_intro X X' (Un u a) y y'); try easy; [now apply (ret_bind _ _ v)|now apply (ret_bind _ _ v')].
- destruct TY as [TY1 TY2], TF as [TF1 TF2].
  destruct (IHa) as (v & v' & V & V' & V2 & V2' & J); [intros i Hi; apply W; cbn [occurs]; now rewrite Hi|easy|easy|].
  destruct (IHc) as (w & w' & U & U' & U2 & U2' & L); [intros i Hi; apply W; cbn [occurs]; now rewrite Hi, orb_true_r|easy|easy|].
  destruct (bin_iso b v v' w w' V2 V2' U2 U2' J L) as (y & y' & Y & Y' & JJ).
  apply (mono_intro X X' (Bin b a c) y y'); try easy; [apply (ret_bind _ _ v); [easy|]; now apply (ret_bind _ _ w)|apply (ret_bind _ _ v'); [easy|]; now apply (ret_bind _ _ w')].
- destruct TY as (TY1 & TY2 & TY3), TF as (TF1 & TF2 & TF3).
  destruct (IHa) as (v & v' & V & V' & V2 & V2' & J); [intros i Hi; apply W; cbn [occurs]; now rewrite Hi|easy|easy|].
  destruct (IHc) as (w & w' & U & U' & U2 & U2' & L); [intros i Hi; apply W; cbn [occurs]; now rewrite Hi, orb_true_r|easy|easy|].
  destruct (IHd) as (t & t' & T & T' & T2 & T2' & N); [intros i Hi; apply W; cbn [occurs]; now rewrite Hi, orb_true_r|easy|easy|].
  destruct (C33.C33_fma F v v' w w' t t' V2 V2' U2 U2' T2 T2' J L N) as (y & y' & Y & Y' & JJ).
  apply (mono_intro X X' (Fma a c d) y y'); try easy;
    [apply (ret_bind _ _ v); [easy|]; apply (ret_bind _ _ w); [easy|]; now apply (ret_bind _ _ t)|apply (ret_bind _ _ v'); [easy|]; apply (ret_bind _ _ w'); [easy|]; now apply (ret_bind _ _ t')].
- destruct TY as [TY C], TF as [TF1 TF2]. destruct (IHa W TY TF1) as (v & v' & V & V' & V2 & V2' & J).
  destruct (un_iso_mixed T u v v' C V2 V2' (fun E => TF2 E v' V') J) as (y & y' & Y & Y' & JJ).
  apply (mono_intro X X' (MUn T u a) y y'); try easy; [now apply (ret_bind _ _ v)|now apply (ret_bind _ _ v')].
- destruct TY as (TY1 & TY2 & C1 & C2 & C3), TF as [TF1 TF2].
  destruct (IHa) as (v & v' & V & V' & V2 & V2' & J); [intros i Hi; apply W; cbn [occurs]; now rewrite Hi|easy|easy|].
  destruct (IHc) as (w & w' & U & U' & U2 & U2' & L); [intros i Hi; apply W; cbn [occurs]; now rewrite Hi, orb_true_r|easy|easy|].
  destruct (bin_iso_mixed T b C1 C2 C3 v v' w w' V2 V2' U2 U2' J L) as (y & y' & Y & Y' & JJ).
  apply (mono_intro X X' (MBin T b a c) y y'); try easy; [apply (ret_bind _ _ v); [easy|]; now apply (ret_bind _ _ w)|apply (ret_bind _ _ v'); [easy|]; now apply (ret_bind _ _ w')].
- destruct TY as (TY1 & TY2 & TY3 & C1 & C2 & C3 & C4 & C5 & C6), TF as (TF1 & TF2 & TF3).
  destruct (IHa) as (v & v' & V & V' & V2 & V2' & J); [intros i Hi; apply W; cbn [occurs]; now rewrite Hi|easy|easy|].
  destruct (IHc) as (w & w' & U & U' & U2 & U2' & L); [intros i Hi; apply W; cbn [occurs]; now rewrite Hi, orb_true_r|easy|easy|].
  destruct (IHd) as (t & t' & K & K' & K2 & K2' & N); [intros i Hi; apply W; cbn [occurs]; now rewrite Hi, orb_true_r|easy|easy|].
  destruct (C33.C33_fma_mixed T F G H C1 C2 C3 C4 C5 C6 v v' w w' t t' V2 V2' U2 U2' K2 K2' J L N) as (y & y' & Y & Y' & JJ).
  apply (mono_intro X X' (MFma T a c d) y y'); try easy;
    [apply (ret_bind _ _ v); [easy|]; apply (ret_bind _ _ w); [easy|]; now apply (ret_bind _ _ t)|apply (ret_bind _ _ v'); [easy|]; apply (ret_bind _ _ w'); [easy|]; now apply (ret_bind _ _ t')].
Qed.

(** Expressions without tangents. *)
Lemma no_tan_fine ev {F} (e : expr vf F) : no_tan e -> tan_fine ev e.
Proof. induction e; cbn [no_tan tan_fine]; tauto. Qed.

(** ** As stated *)
Lemma decorated_ok (I : denv vf) {F} (e : expr vf F) : (forall i, occurs i e = true -> proper (I i)) -> typed e ->
  tan_fine (fun F a z => returns (beval (parts I) a) z) e ->
  exists z, returns (deval I e) z /\ proper z /\ returns (beval (parts I) e) (fst z) /\
    (forall i, occurs i e = true -> (snd z <= snd (I i))%N) /\
    (forall p, in_box e (parts I) p -> dom p e -> mem (val p e) (fst z)) /\
    honest near_env (in_box e (parts I)) (fun p => dom p e) (bounded_box e (parts I)) (fun p => val p e) (fst z) (snd z).
Proof. intros P T H. destruct (ftdia I e P T H) as (z & Z1 & Z2 & Z3 & Z4 & Z5 & Z6). exists z. tauto. Qed.
Lemma bare_ok (X : ienv vf) {F} (e : expr vf F) : (forall i, occurs i e = true -> wf (X i)) -> typed e ->
  tan_fine (fun F a z => returns (beval X a) z) e ->
  exists z, returns (beval X e) z /\ wf z /\ forall p, in_box e X p -> dom p e -> mem (val p e) z.
Proof.
intros W T H. set (I := (fun i => (X i, trv)) : denv vf).
destruct (decorated_ok I e) as (z & _ & Z2 & Z3 & _ & Z4 & _); [|easy|exact H|exists (fst z); split; [exact Z3|split; [now apply proper_wf|exact Z4]]].
intros i O. specialize (W i O). unfold I. split; [|split; [cbn; unfold is_deco; cbn; tauto|easy]].
destruct W as [->|W]; [left; split; [easy|now right]|right; cbn [fst snd]]. split; [easy|]. easy.
Qed.
(** Tangents that work in binary32 and binary80 see every pole. *)
Lemma total_bare (X : ienv vf) {F} (e : expr vf F) : (forall i, occurs i e = true -> wf (X i)) -> typed e ->
  forall z, returns (beval X e) z -> wf z.
Proof.
intros W T z R. set (I := (fun i => (X i, trv)) : denv vf). destruct (total I e) as (y & _ & Y1 & Y2); [|easy|].
- intros i O. specialize (W i O). unfold I. split; [|split; [cbn; unfold is_deco; cbn; tauto|easy]].
  destruct W as [->|W]; [left; split; [easy|now right]|right; cbn [fst snd]]. split; [easy|]. easy.
- rewrite (returns_same _ _ _ R Y2). now apply proper_wf.
Qed.
Lemma tan_types_fine (X : ienv vf) {F} (e : expr vf F) : (forall i, occurs i e = true -> wf (X i)) -> typed e ->
  tan_types (fun G => G = binary32 \/ G = binary80) e -> tan_fine (fun F a z => returns (beval X a) z) e.
Proof.
induction e as [i|F u a IHa|F b a IHa c IHc|F a IHa c IHc d IHd|T F u a IHa|T F G b a IHa c IHc|T F G H a IHa c IHc d IHd];
  cbn [occurs typed tan_types tan_fine]; intros W Ty K.
- exact I.
- destruct K as [K1 K2]. split; [now apply IHa|]. intros E z Hz. pose proof (total_bare X a W Ty z Hz) as Wz.
  apply no_hidden_self; [easy|]. destruct (K2 E); auto.
- split; [apply IHa|apply IHc]; try tauto; intros i O; apply W; rewrite O; now rewrite ?orb_true_r.
- split; [apply IHa|split; [apply IHc|apply IHd]]; try tauto; intros i O; apply W; rewrite O; now rewrite ?orb_true_r.
- destruct K as [K1 K2]. destruct Ty as [Ty C]. split; [now apply IHa|]. intros E z Hz. pose proof (total_bare X a W Ty z Hz) as Wz.
  apply no_hidden; [easy|easy|]. destruct (K2 E); auto.
- split; [apply IHa|apply IHc]; try tauto; intros i O; apply W; rewrite O; now rewrite ?orb_true_r.
- split; [apply IHa|split; [apply IHc|apply IHd]]; try tauto; intros i O; apply W; rewrite O; now rewrite ?orb_true_r.
Qed.
Lemma bare_iso (X X' : ienv vf) {F} (e : expr vf F) : (forall i, occurs i e = true -> wf (X i) /\ wf (X' i) /\ included (X i) (X' i)) ->
  typed e -> tan_fine (fun F a z => returns (beval X' a) z) e ->
  exists z z', returns (beval X e) z /\ returns (beval X' e) z' /\ included z z'.
Proof. intros W T H. destruct (monotone X X' e W T H) as (z & z' & R & R' & _ & _ & J). now exists z, z'. Qed.
Lemma decorated_iso (I I' : denv vf) {F} (e : expr vf F) :
  (forall i, occurs i e = true -> proper (I i) /\ proper (I' i) /\ included (fst (I i)) (fst (I' i))) ->
  typed e -> tan_fine (fun F a z => returns (beval (parts I') a) z) e ->
  exists z z', returns (deval I e) z /\ returns (deval I' e) z' /\ included (fst z) (fst z').
Proof.
intros W T H. destruct (bare_iso (parts I) (parts I') e) as (z & z' & R & R' & J); [|easy|easy|].
{ intros i O. destruct (W i O) as (W1 & W2 & W3). split; [now apply proper_wf|]. split; [now apply proper_wf|easy]. }
destruct (total I e) as (y & Y1 & _ & Y2); [intros i O; now apply W|easy|].
destruct (total I' e) as (y' & Y1' & _ & Y2'); [intros i O; now apply W|easy|].
exists y, y'. split; [easy|]. split; [easy|]. now rewrite (returns_same _ _ _ Y2 R), (returns_same _ _ _ Y2' R').
Qed.
Lemma nai_ok (I : denv vf) {F} (e : expr vf F) : (forall i, occurs i e = true -> valid_dec (I i)) -> typed e ->
  exists z, returns (deval I e) z /\ valid_dec z /\ (snd z = ill <-> exists i, occurs i e = true /\ snd (I i) = ill).
Proof.
intros V T. destruct (nai_cases I e V) as [N|P].
- exists (empty_rep, ill). split; [now apply nai_result|]. split; [apply nai_valid|]. easy.
- destruct (total I e P T) as (z & Z1 & (Z2 & Z3 & Z4) & _). exists z. split; [easy|]. split; [easy|]. split; [easy|].
  intros (i & O & N). exfalso. now apply (P i O).
Qed.
End More.
