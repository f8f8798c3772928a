(** * Proofs: the decorations of step functions and of atan2 are the strongest ones *)
From Coq Require Import ZArith NArith Reals Bool Lia Lra List Classical.
From Flocq Require Import Core.Core IEEE754.BinarySingleNaN.
From Verif Require Import Fmt Spec FloatFacts Exc Deco SpecApi SpecElem SpecAtan2 SpecDeco SpecStrong MBase PBase MBool MArith PArith
  PMul PFma PDiv PUnary PConv SpecRel PBool PSetop MElem PElem PElem2 MPow PPown PPow MTrig PTrig PTrigT MAtan2 PAtan2 MDec PCont PDec PDecF PStrong.
Import ListNotations.
Local Open Scope R_scope.

Section Int.
Variable f : R -> R.
Hypothesis Hf : forall r, exists k, f r = IZR k.
Lemma int_close r s : Rabs (f r - f s) < 1 -> f r = f s.
Proof.
intros H. destruct (Hf r) as [j Ej], (Hf s) as [k Ek]. rewrite Ej, Ek in *. rewrite <- minus_IZR in H. apply Rabs_def2 in H. destruct H as [H1 H2].
f_equal. apply (lt_IZR _ 1) in H1. assert (H2' : IZR (-1) < IZR (j - k)) by (simpl; lra). apply lt_IZR in H2'. lia.
Qed.
Lemma int_local D p : cont_at near1 D f p -> exists d, 0 < d /\ forall q, D q -> Rabs (q - p) < d -> f q = f p.
Proof. intros C. destruct (C 1 Rlt_0_1) as (d & Hd & H). exists d. split; [easy|]. intros q Dq N. apply int_close. now apply H. Qed.
Lemma int_const (D : R -> Prop) : (forall r s t, D r -> D t -> r <= s <= t -> D s) -> (forall p, D p -> cont_at near1 D f p) ->
  forall r s, D r -> D s -> r <= s -> f r = f s.
Proof.
intros Cv C r s Dr Ds L. set (E := fun t => r <= t <= s /\ f t = f r).
assert (B : bound E) by (exists s; intros t [H _]; lra).
assert (N : exists t, E t) by (exists r; split; [lra|easy]).
destruct (completeness E B N) as [m [M1 M2]].
assert (Rm : r <= m <= s). { split; [apply M1; split; [lra|easy]|]. apply M2. intros t [H _]. lra. }
assert (Dm : D m) by (apply (Cv r m s); easy).
destruct (int_local D m (C m Dm)) as (d & Hd & Hl).
assert (Em : f m = f r).
{ destruct (classic (exists t, E t /\ m - d < t)) as [(t & [Ht Et] & Lt)|N'].
  - rewrite <- Et. symmetry. apply Hl; [now apply (Cv r t s)|]. assert (t <= m) by (apply M1; now split). apply Rabs_def1; lra.
  - exfalso. assert (m <= m - d); [|lra]. apply M2. intros t Ht. destruct (Rle_or_lt t (m - d)) as [K|K]; [easy|]. exfalso. apply N'. now exists t. }
destruct (Rle_lt_dec s m) as [K|K]; [replace s with m by lra; easy|]. exfalso.
set (t := Rmin (m + d / 2) s). pose proof (Rmin_l (m + d / 2) s). pose proof (Rmin_r (m + d / 2) s). fold t in H, H0.
assert (m < t) by (apply Rmin_glb_lt; lra).
assert (t <= m); [|lra]. apply M1. split; [lra|]. rewrite <- Em. apply Hl; [apply (Cv r t s); try easy; lra|]. apply Rabs_def1; lra.
Qed.
End Int.

Section S.
Context {F : fmt}.
Lemma mem_convex (x : itv F) r s t : mem r x -> mem t x -> r <= s <= t -> mem s x.
Proof. intros [H1 H2] [H3 H4] H. split; [apply lb_mono with (1 := H1)|apply ub_mono with (1 := H4)]; lra. Qed.
Lemma mem_exact (v : float F) r : is_finite v = true -> mem r (v, v) <-> r = B2R v.
Proof. intros H. unfold mem. cbn [fst snd]. rewrite lb_fin, ub_fin by easy. lra. Qed.

Lemma s_step1 (op : itv F -> M (itv F)) (c : ditv F -> itv F -> M bool) f :
  (forall x, wf x -> computes_tightest (op x) (image1 everywhere f x)) ->
  (forall r, exists k, f r = IZR k) ->
  (forall (x : itv F) n, wf x -> s_nonempty x -> (forall r, mem r x -> f r = n) -> exists v : float F, is_finite v = true /\ B2R v = n) ->
  (forall (x : ditv F) (z : itv F), wf_dec x -> snd x <> ill -> wf z -> exists b, c x z = ret b /\
     (b = true -> forall n, s_nonempty (fst x) -> (forall t, mem t z <-> t = n) -> (forall r, mem r (fst x) -> f r = n) ->
      exists p, mem p (fst x) /\ forall d, 0 < d -> exists q, Rabs (q - p) < d /\ f q <> f p)) ->
  strongest1 (dec1 op (fun x z => t_step (c x z) z)) everywhere f.
Proof.
intros H1 Hi Hv Hc. apply dec1_sharp; [easy|]. intros x z Wx Nx E T. pose proof (proj1 T) as Wz. pose proof (wf_dec_wf x Wx) as W.
destruct (Hc x z Wx Nx Wz) as (b & -> & Hb). destruct (t_step_some b z Wz) as [d Ed]. exists d. split; [easy|].
pose proof (around1 _ _ _ _ T) as A.
assert (Nx' : s_nonempty z -> s_nonempty (fst x)).
{ intros N. destruct (tight_seen _ _ T N) as (t & p & Hp & _). now exists p. }
apply (sharp_step _ _ _ _ _ z b); try easy.
- intros N NS C. apply NS. destruct (Nx' N) as [p Hp].
  assert (K : forall r, mem r (fst x) -> f r = f p).
  { intros r Hr. destruct (Rle_or_lt r p) as [L|L].
    - apply (int_const f Hi (box1 (fst x))); try easy. intros; now apply (mem_convex _ r0 s t).
    - symmetry. apply (int_const f Hi (box1 (fst x))); try easy; [intros; now apply (mem_convex _ r0 s t)|lra]. }
  destruct (Hv (fst x) (f p) W (ex_intro _ p Hp) K) as (v & Fv & Ev).
  exists (f p). intros t. split; [|intros ->; now apply A].
  intros Ht. rewrite <- Ev. apply (mem_exact v); [easy|]. apply (proj2 (proj2 T) (v, v)); [right; exists (B2R v); now apply mem_exact| |easy].
  intros s (r & Hr & _ & ->). apply mem_exact; [easy|]. rewrite Ev. now apply K.
- intros Eb [n Hs] C. assert (N : s_nonempty z) by (exists n; now apply Hs).
  destruct (Hb Eb n (Nx' N) Hs) as (p & Hp & J); [intros r Hr; apply Hs; now apply A|].
  destruct (int_local f Hi everywhere p (C p Hp)) as (e & He & Hl). destruct (J e He) as (q & Hq & Nq). apply Nq. now apply Hl.
Qed.

Lemma sign_int r : exists k, signR r = IZR k.
Proof. unfold signR. repeat destruct Rlt_dec; [now exists (-1)%Z|now exists 1%Z|now exists 0%Z]. Qed.
Lemma sign_strong : strongest1 (@sign_dec F) everywhere signR.
Proof.
apply (s_step1 sign_itv (fun x _ => is_member_dec (@f0 F) x)); [apply sign_tightest|apply sign_int| |].
- intros x n _ [r Hr] H. rewrite <- (H r Hr). unfold signR. destruct Rlt_dec; [|destruct Rlt_dec].
  + exists fm1. split; [apply is_finite_fm1|apply B2R_fm1].
  + exists f1. split; [apply is_finite_f1|apply B2R_f1].
  + exists f0. now split.
- intros x z Wx Nx Wz. destruct (member0 x Wx Nx) as (c & E & H). exists c. split; [easy|].
  intros -> n _ _ _. exists 0. split; [now apply H|]. intros d Hd. exists (d / 2). split; [apply Rabs_def1; lra|].
  unfold signR. repeat destruct Rlt_dec; lra.
Qed.

Lemma nb_const (g : R -> Z) m : (forall r, round_mode m r = g r) -> g 0 <> g 2 ->
  forall (x : itv F) n, wf x -> s_nonempty x -> (forall r, mem r x -> IZR (g r) = n) -> exists v : float F, is_finite v = true /\ B2R v = n.
Proof.
intros Hm H02 x n W N H. destruct (wf_view x W) as [ | |u Hu|l Hl|l u Hl Hu Hlu].
- destruct N as [r Hr]. now apply mem_empty in Hr.
- exfalso. apply H02. apply eq_IZR. now rewrite (H 0), (H 2).
- destruct (nearbyint_fin m u Hu) as [F1 E1]. exists (Bnearbyint m u). split; [easy|]. rewrite E1, Hm. apply H. split; [easy|]. cbn [snd]. rewrite ub_fin by easy. lra.
- destruct (nearbyint_fin m l Hl) as [F1 E1]. exists (Bnearbyint m l). split; [easy|]. rewrite E1, Hm. apply H. split; [|easy]. cbn [fst]. rewrite lb_fin by easy. lra.
- destruct (nearbyint_fin m l Hl) as [F1 E1]. exists (Bnearbyint m l). split; [easy|]. rewrite E1, Hm. apply H.
  split; cbn [fst snd]; [rewrite lb_fin by easy|rewrite ub_fin by easy]; lra.
Qed.
(** A bound that is a finite number is a member. *)
Lemma upp_mem (x : itv F) : s_nonempty x -> is_finite (snd x) = true -> mem (B2R (snd x)) x.
Proof. intros [r [H1 H2]] Fx. split; [apply lb_mono with (1 := H1)|rewrite ub_fin by easy; lra]. now rewrite ub_fin in H2. Qed.
Lemma low_mem (x : itv F) : s_nonempty x -> is_finite (fst x) = true -> mem (B2R (fst x)) x.
Proof. intros [r [H1 H2]] Fx. split; [rewrite lb_fin by easy; lra|apply ub_mono with (1 := H2)]. now rewrite lb_fin in H1. Qed.
Lemma feq_fin_val (a b : float F) n : is_finite b = true -> B2R b = n -> feq a b = true -> is_finite a = true /\ B2R a = n.
Proof.
intros Fb Eb H. destruct (fviewP a) as [ | | |a Fa].
1-3: destruct b as [s|s| |s m e B]; try easy; destruct s; easy.
split; [easy|]. rewrite feq_fin in H by easy. revert H. case Req_bool_spec; [|easy]. congruence.
Qed.

Lemma ceil_strong : strongest1 (@ceil_dec F) everywhere ceilR.
Proof.
apply (s_step1 ceil_itv (fun x b => ret (feq (snd (fst x)) (snd b)))); [apply ceil_tightest|intros r; now exists (Zceil r)| |].
- apply (nb_const Zceil mode_UP); [easy|]. rewrite (Zceil_IZR 0), (Zceil_IZR 2). easy.
- intros x z _ _ _. eexists. split; [reflexivity|]. intros Hc n N Hz Hn.
  destruct (single_bounds z n Hz) as [_ [F2 E2]]. destruct (feq_fin_val _ _ n F2 E2 Hc) as [F1 E1].
  pose proof (upp_mem _ N F1) as Mu. rewrite E1 in Mu. exists n. split; [easy|]. intros d Hd. exists (n + d / 2). split; [apply Rabs_def1; lra|].
  rewrite (Hn n Mu). pose proof (ceilR_char (n + d / 2)). lra.
Qed.
Lemma floor_strong : strongest1 (@floor_dec F) everywhere floorR.
Proof.
apply (s_step1 floor_itv (fun x b => ret (feq (fst (fst x)) (fst b)))); [apply floor_tightest|intros r; now exists (Zfloor r)| |].
- apply (nb_const Zfloor mode_DN); [easy|]. rewrite (Zfloor_IZR 0), (Zfloor_IZR 2). easy.
- intros x z _ _ _. eexists. split; [reflexivity|]. intros Hc n N Hz Hn.
  destruct (single_bounds z n Hz) as [[F2 E2] _]. destruct (feq_fin_val _ _ n F2 E2 Hc) as [F1 E1].
  pose proof (low_mem _ N F1) as Mu. rewrite E1 in Mu. exists n. split; [easy|]. intros d Hd. exists (n - d / 2). split; [apply Rabs_def1; lra|].
  rewrite (Hn n Mu). pose proof (floorR_char (n - d / 2)). lra.
Qed.
Lemma fne_val' (a : float F) : is_finite a = true -> fne a f0 = true -> B2R a <> 0.
Proof.
intros Fa. change (fne a f0) with (negb (feq a f0)). rewrite feq_fin by easy. change (B2R (@f0 F)) with 0. case Req_bool_spec; easy.
Qed.
Lemma trunc_jump k d : (k <> 0)%Z -> 0 < d -> exists q, Rabs (q - IZR k) < d /\ truncR q <> IZR k.
Proof.
intros K Hd. destruct (Z.lt_trichotomy k 0) as [L|[L|L]]; [|lia|].
- exists (IZR k + d / 2). split; [apply Rabs_def1; lra|]. intros E. apply truncR_neg_iff in E; [lra|lia].
- exists (IZR k - d / 2). split; [apply Rabs_def1; lra|]. intros E. apply truncR_pos_iff in E; [lra|lia].
Qed.
Lemma trunc_strong : strongest1 (@trunc_dec F) everywhere truncR.
Proof.
apply (s_step1 trunc_itv (fun x b => ret ((fne (fst (fst x)) f0 && feq (fst (fst x)) (fst b)) ||
               (fne (snd (fst x)) f0 && feq (snd (fst x)) (snd b)))%bool)); [apply trunc_tightest|intros r; rewrite truncR_Ztrunc; eauto| |].
- intros x n W N H. apply (nb_const Ztrunc mode_ZR) with x; try easy; [rewrite (Ztrunc_IZR 0), (Ztrunc_IZR 2); easy|].
  intros r Hr. rewrite <- truncR_Ztrunc. now apply H.
- intros x z _ _ _. eexists. split; [reflexivity|]. intros Hc n N Hz Hn.
  destruct (single_bounds z n Hz) as [[F1 E1] [F2 E2]].
  assert (K : mem n (fst x) /\ n <> 0).
  { apply orb_true_iff in Hc. destruct Hc as [Hc|Hc]; apply andb_true_iff in Hc; destruct Hc as [C1 C2].
    - destruct (feq_fin_val _ _ n F1 E1 C2) as [F3 E3]. rewrite <- E3. split; [now apply low_mem|now apply fne_val'].
    - destruct (feq_fin_val _ _ n F2 E2 C2) as [F3 E3]. rewrite <- E3. split; [now apply upp_mem|now apply fne_val']. }
  destruct K as [Mn Nn]. exists n. split; [easy|]. intros d Hd. rewrite (Hn n Mn).
  assert (exists k, n = IZR k) as [k ->] by (rewrite <- (Hn n Mn), truncR_Ztrunc; eauto).
  apply trunc_jump; [|easy]. intros ->. now apply Nn.
Qed.

Lemma frac_format (a : float F) : is_finite a = true -> 0 <= B2R a ->
  generic_format radix2 (SpecFloat.fexp (prec F) (emax F)) (B2R a - IZR (Zfloor (B2R a))).
Proof.
intros Fa P. set (r := B2R a) in *. destruct (Req_dec (r - IZR (Zfloor r)) 0) as [->|N]; [apply generic_format_0|].
pose proof (Zfloor_lb r) as L1. pose proof (Zfloor_ub r) as L2.
assert (L0 : 0 <= IZR (Zfloor r)) by (apply IZR_le, Zfloor_lub; easy).
pose proof (B2R_format a) as G. fold r in G. unfold generic_format in G.
set (fexp := SpecFloat.fexp (prec F) (emax F)) in *. set (e := cexp radix2 fexp r) in *.
destruct (Z_le_gt_dec 0 e) as [He|He].
- exfalso. apply N. unfold F2R in G. simpl in G. rewrite <- (IZR_Zpower radix2) in G by easy. rewrite <- mult_IZR in G. rewrite G, Zfloor_IZR. lra.
- assert (E : r - IZR (Zfloor r) = F2R (Float radix2 (Ztrunc (scaled_mantissa radix2 fexp r) - Zfloor r * radix2 ^ (- e)) e)).
  { unfold F2R. cbn [Fnum Fexp]. rewrite minus_IZR, mult_IZR, IZR_Zpower by lia. rewrite Rmult_minus_distr_r. rewrite Rmult_assoc, <- bpow_plus.
    replace (- e + e)%Z with 0%Z by lia. change (bpow radix2 0) with 1. rewrite Rmult_1_r. f_equal. exact G. }
  rewrite E. apply generic_format_F2R. intros _. rewrite <- E. unfold e, cexp.
  assert (Hm : (mag radix2 (r - IZR (Zfloor r)) <= mag radix2 r)%Z) by (apply mag_le; lra).
  unfold fexp, SpecFloat.fexp. lia.
Qed.
Lemma is_tie_inv (a : float F) : is_tie a = true -> is_finite a = true /\ exists k, B2R a = IZR k + / 2.
Proof.
intros H. assert (Fa : is_finite a = true).
{ destruct (fviewP a) as [ | | |a Fa]; try easy. }
split; [easy|]. revert H. unfold is_tie, std_trunc.
assert (Fb : is_finite (fabs a) = true) by now rewrite is_finite_fabs.
destruct (nearbyint_fin mode_ZR (fabs a) Fb) as [F1 E1].
pose proof (rsub_rnds mode_NE (fabs a) (Bnearbyint mode_ZR (fabs a)) Fb F1) as R.
assert (P : 0 <= B2R (fabs a)) by (rewrite B2R_fabs; apply Rabs_pos).
cbn [round_mode] in E1. rewrite Ztrunc_floor in E1 by easy. rewrite E1 in R.
pose proof (frac_format (fabs a) Fb P) as G. pose proof (Zfloor_lb (B2R (fabs a))). pose proof (Zfloor_ub (B2R (fabs a))).
assert (S : is_finite (rsub mode_NE (fabs a) (Bnearbyint mode_ZR (fabs a))) = true /\
            B2R (rsub mode_NE (fabs a) (Bnearbyint mode_ZR (fabs a))) = B2R (fabs a) - IZR (Zfloor (B2R (fabs a)))).
{ revert R. unfold rnds. rewrite round_generic; [|auto with typeclass_instances|exact G].
  rewrite Rlt_bool_true; [intros [R1 R2]; auto|]. apply Rle_lt_trans with 1; [apply Rabs_le; lra|].
  change 1 with (bpow radix2 0). apply bpow_lt. pose proof (@emax3 F). lia. }
destruct S as [S1 S2]. destruct (@B2R_fhalf F) as [H1 H2]. intros H'. apply (feq_fin_val _ _ (/ 2)) in H'; [|easy|easy]. destruct H' as [_ H'].
rewrite S2 in H'. rewrite B2R_fabs in *. set (j := Zfloor (Rabs (B2R a))) in *.
destruct (Rle_or_lt 0 (B2R a)) as [Q|Q].
- exists j. rewrite Rabs_pos_eq in * by easy. lra.
- exists (- j - 1)%Z. rewrite Rabs_left in * by easy. rewrite minus_IZR, opp_IZR. lra.
Qed.
Lemma nearest_jump c k d : 0 < d -> exists q, Rabs (q - (IZR k + / 2)) < d /\ IZR (Znearest c q) <> IZR (Znearest c (IZR k + / 2)).
Proof.
intros Hd. set (e := Rmin d (/ 4)). assert (0 < e) by (apply Rmin_pos; lra). pose proof (Rmin_l d (/ 4)). pose proof (Rmin_r d (/ 4)). fold e in H0, H1.
assert (L : Znearest c (IZR k + / 2 - e / 2) = k) by (apply Znearest_imp; apply Rabs_def1; lra).
assert (U : Znearest c (IZR k + / 2 + e / 2) = (k + 1)%Z) by (apply Znearest_imp; rewrite plus_IZR; apply Rabs_def1; lra).
destruct (Z.eq_dec (Znearest c (IZR k + / 2)) k) as [->|N].
- exists (IZR k + / 2 + e / 2). split; [apply Rabs_def1; lra|]. rewrite U, plus_IZR. lra.
- exists (IZR k + / 2 - e / 2). split; [apply Rabs_def1; lra|]. rewrite L. intros E. apply eq_IZR in E. now apply N.
Qed.
Lemma nearest_strong c (op : itv F -> M (itv F)) m : (forall r, round_mode m r = Znearest c r) ->
  (forall x, op x = mif (mor (mnot (is_valid x)) (is_empty x)) (ret empty) (ret (Bnearbyint m (fst x), Bnearbyint m (snd x)))) ->
  strongest1 (dec1 op (fun x => t_step (ret (is_tie (fst (fst x)) || is_tie (snd (fst x)))%bool))) everywhere (fun r => IZR (Znearest c r)).
Proof.
intros Hm Ho.
apply (s_step1 op (fun x _ => ret (is_tie (fst (fst x)) || is_tie (snd (fst x)))%bool)).
- intros x W. rewrite Ho. apply (int_step_tightest (Znearest c) m); [|easy]. intros r. now rewrite Hm.
- eauto.
- apply (nb_const (Znearest c) m Hm). rewrite (Znearest_imp c 0 0), (Znearest_imp c 2 2); [easy|apply Rabs_def1; lra..].
- intros x z _ _ _. eexists. split; [reflexivity|]. intros Hc n N Hz Hn.
  apply orb_true_iff in Hc. destruct Hc as [Hc|Hc]; destruct (is_tie_inv _ Hc) as (Fx & k & Ek).
  + exists (IZR k + / 2). split; [rewrite <- Ek; now apply low_mem|]. intros d Hd. now apply nearest_jump.
  + exists (IZR k + / 2). split; [rewrite <- Ek; now apply upp_mem|]. intros d Hd. now apply nearest_jump.
Qed.
Lemma rte_strong : strongest1 (@round_ties_to_even_dec F) everywhere rteR.
Proof. now apply (nearest_strong (fun n => negb (Z.even n)) round_ties_to_even_itv mode_NE). Qed.
Lemma rta_strong : strongest1 (@round_ties_to_away_dec F) everywhere rtaR.
Proof. now apply (nearest_strong (Zle_bool 0) round_ties_to_away_itv mode_NA). Qed.

(** ** atan2 *)
Lemma cut_jump (D : R * R -> Prop) s : s < 0 -> (forall d, 0 < d -> exists r, - d < r < 0 /\ D (r, s)) ->
  ~ cont_at near2 D (fun p => ratan2 (fst p) (snd p)) (0, s).
Proof.
intros Hs HD C. destruct (C PI PI_RGT_0) as (d & Hd & H). destruct (HD d Hd) as (r & Hr & Dr).
specialize (H (r, s) Dr). cbn [fst snd] in H.
assert (N : near2 d (0, s) (r, s)) by (split; cbn [fst snd]; unfold near1; apply Rabs_def1; lra).
specialize (H N). destruct (ratan2_dn r s) as (A & _); [lra|].
assert (E : ratan2 0 s = PI). { unfold ratan2. repeat destruct Rlt_dec; lra. }
rewrite E in H. apply Rabs_def2 in H. lra.
Qed.
Lemma atan2_strong : strongest2 (@atan2_dec F) not_origin ratan2.
Proof.
apply dec2_sharp; [apply atan2_tightest|].
intros y x z Wy Ny Wx Nx E T. pose proof (proj1 T) as Wz.
destruct (member0 y Wy Ny) as (cy & Ey & Hy). destruct (member0 x Wx Nx) as (cx & Ex & Hx).
rewrite Ey, Ex, is_empty_wf, is_common_wf by easy.
replace (mor (mand (ret cy) (ret cx)) (ret (isnan (fst z)))) with (ret ((cy && cx) || isnan (fst z))%bool)
  by (now destruct cy, cx).
mreds. pose proof (around2 _ _ _ _ _ T) as A.
destruct ((cy && cx) || isnan (fst z))%bool eqn:E1.
{ exists trv. split; [easy|]. apply sharp_trv. apply orb_true_iff in E1. destruct E1 as [E1|E1].
  - apply andb_true_iff in E1. destruct E1 as [-> ->]. intros (_ & H). specialize (H (0, 0)). destruct H as [H|H]; [|now apply H..].
    split; cbn [fst snd]; [now apply Hy|now apply Hx].
  - apply (empty_none _ _ _ z A). now apply isnan_empty. }
apply orb_false_iff in E1. destruct E1 as [E1 E1'].
assert (NN : s_nonempty (fst y) /\ s_nonempty (fst x)).
{ destruct (tight_seen _ _ T (wf_nonempty _ Wz E1')) as (t & r & s & Hr & Hs & _). split; [now exists r|now exists s]. }
destruct NN as [Ny' Nx'].
destruct (flt (fst (fst y)) f0 && fge (snd (fst y)) f0 && flt (fst (fst x)) f0)%bool eqn:E2.
{ exists def. split; [easy|]. apply sharp_def. intros C. apply andb_true_iff in E2. destruct E2 as [E2 E3]. apply andb_true_iff in E2. destruct E2 as [E2 E4].
  destruct (low_lt _ (@f0 F) eq_refl Ny' E2) as (r & Hr & Lr). change (B2R (@f0 F)) with 0 in Lr.
  destruct (low_lt _ (@f0 F) eq_refl Nx' E3) as (s & Hs & Ls). change (B2R (@f0 F)) with 0 in Ls.
  assert (M0 : mem 0 (fst y)). { split; [apply lb_mono with (1 := proj1 Hr); lra|]. exact (fge_ub _ (@f0 F) r eq_refl (proj2 Hr) E4). }
  specialize (C (0, s) (conj M0 Hs)). revert C. apply cut_jump; [easy|].
  intros d Hd. exists (Rmax (- d / 2) r). pose proof (Rmax_l (- d / 2) r). pose proof (Rmax_r (- d / 2) r).
  assert (Rmax (- d / 2) r < 0) by (apply Rmax_lub_lt; lra). split; [lra|]. split; [|easy]. cbn [fst]. apply (mem_convex (fst y) r _ 0); try easy; lra. }
destruct (feq (fst (fst y)) f0 && flt (fst (fst x)) f0)%bool eqn:E3; mreds.
- apply andb_true_iff in E3. destruct E3 as [E3 E4].
  destruct (low_lt _ (@f0 F) eq_refl Nx' E4) as (s & Hs & Ls). change (B2R (@f0 F)) with 0 in Ls.
  destruct (feq_fin_val _ _ 0 (eq_refl : is_finite (@f0 F) = true) eq_refl E3) as [Fy Vy].
  pose proof (low_mem _ Ny' Fy) as M0. rewrite Vy in M0.
  destruct (is_finite (fst z) && is_finite (snd z)) eqn:B; mreds.
  all: exists dac; split; [easy|]; apply sharp_dac; intros (_ & _ & C); specialize (C (0, s) (conj M0 Hs)); revert C; apply cut_jump; [easy|];
    intros d Hd; exists (- d / 2); split; [lra|]; left; cbn [fst]; lra.
- destruct (is_finite (fst z) && is_finite (snd z)) eqn:B; mreds.
  + exists com. split; [easy|]. apply sharp_com.
  + exists dac. split; [easy|]. apply sharp_dac. intros (_ & [B1 B2] & _). now rewrite B1, B2 in B.
Qed.
End S.
