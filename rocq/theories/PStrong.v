(** * Proofs: the decorations are the strongest ones *)
From Coq Require Import ZArith NArith Reals Bool Lia Lra List Classical.
From Flocq Require Import Core.Core IEEE754.BinarySingleNaN.
From Verif Require Import Fmt Spec FloatFacts Exc Deco SpecApi SpecElem SpecAtan2 SpecDeco SpecStrong MBase PBase MBool MArith PArith
  PMul PFma PDiv PUnary PConv SpecRel PBool PSetop MElem PElem PElem2 MPow PPown PPow MTrig PTrig PTrigT MAtan2 PAtan2 MDec PCont PDec PDecF.
Import ListNotations.
Local Open Scope R_scope.

Lemma ret_inj {A} (a b : A) : ret a = ret b -> a = b.
Proof. intros E. apply (f_equal (fun m => m (Est 0 0))) in E. now injection E. Qed.

(** No honest decoration is greater than [d]. *)
Definition sharp {F : fmt} {P : Type} (near : R -> P -> P -> Prop) (box dom : P -> Prop) (bx : Prop)
    (f : P -> R) (z : itv F) (d : deco) : Prop :=
  forall d', is_deco d' -> honest near box dom bx f z d' -> (d' <= d)%N.

Section Tests.
Context {F : fmt} {P : Type} (near : R -> P -> P -> Prop) (box dom : P -> Prop) (bx : Prop) (f : P -> R).
Implicit Types z : itv F.
Lemma deco_le d d' : is_deco d' -> In d [trv; def; dac; com] -> (d = trv -> ~ (def <= d')%N) -> (d = def -> ~ (dac <= d')%N) -> (d = dac -> ~ (com <= d')%N) -> (d' <= d)%N.
Proof.
unfold is_deco, ill, trv, def, dac, com. simpl. intros H1 H2 A B C. decompose [or] H2; try contradiction; subst d; decompose [or] H1; try contradiction; subst d'; try lia;
  first [exfalso; apply A; [easy|lia]|exfalso; apply B; [easy|lia]|exfalso; apply C; [easy|lia]].
Qed.
Lemma sharp_trv z : ~ ((exists p, box p) /\ forall p, box p -> dom p) -> sharp near box dom bx f z trv.
Proof. intros N d' D (H & _). apply deco_le; [easy|simpl; tauto| |easy|easy]. intros _ L. now apply N, H. Qed.
Lemma sharp_def z : ~ (forall p, box p -> cont_at near box f p) -> sharp near box dom bx f z def.
Proof. intros N d' D (_ & H & _). apply deco_le; [easy|simpl; tauto|easy| |easy]. intros _ L. now apply N, H. Qed.
Lemma sharp_dac z : ~ (bx /\ bounded_rep z /\ forall p, box p -> cont_at near dom f p) -> sharp near box dom bx f z dac.
Proof. intros N d' D (_ & _ & H). apply deco_le; [easy|simpl; tauto|easy|easy|]. intros _ L. now apply N, H. Qed.
Lemma sharp_com z : sharp near box dom bx f z com.
Proof. intros d' D _. apply deco_le; [easy|simpl; tauto|easy..]. Qed.

(** [z] contains the values of [f]. *)
Definition around z := forall p, box p -> dom p -> mem (f p) z.
Lemma empty_none z : around z -> (forall r, ~ mem r z) -> ~ ((exists p, box p) /\ forall p, box p -> dom p).
Proof. intros A N ([p Hp] & H). apply (N (f p)). apply A; auto. Qed.
Lemma isnan_empty z : wf z -> isnan (fst z) = true -> forall r, ~ mem r z.
Proof. intros W E r Hr. apply wf_nan_l in E; [|easy]. subst z. now apply mem_empty in Hr. Qed.
Lemma sharp_cond z (c : bool) d : wf z -> around z -> (c = true -> (exists p, box p) -> exists p, box p /\ ~ dom p) ->
  t_cond (ret c) z = ret d -> sharp near box dom bx f z d.
Proof.
intros W A Hc. unfold t_cond. rewrite is_empty_wf, is_common_wf by easy.
destruct c; mreds.
{ intros E. apply ret_inj in E. subst d. apply sharp_trv. intros (H1 & H2). destruct (Hc eq_refl H1) as (p & Hp & N). auto. }
destruct (isnan (fst z)) eqn:E; mreds.
{ intros E'. apply ret_inj in E'. subst d. apply sharp_trv. apply (empty_none z A). now apply isnan_empty. }
destruct (is_finite (fst z) && is_finite (snd z)) eqn:B; mreds; intros E'; apply ret_inj in E'; subst d.
- apply sharp_com.
- apply sharp_dac. intros (_ & [B1 B2] & _). now rewrite B1, B2 in B.
Qed.
Lemma sharp_total z d : wf z -> around z -> t_total z = ret d -> sharp near box dom bx f z d.
Proof. intros W A. apply (sharp_cond z false d W A). easy. Qed.
Lemma sharp_ring z d : wf z -> around z -> t_ring z = ret d -> sharp near box dom bx f z d.
Proof.
intros W A E. apply sharp_total; [easy..|]. rewrite <- E.
unfold t_ring, t_total. rewrite is_empty_wf, is_common_wf by easy. mreds.
destruct (wf_view z W) as [ | |u Hu|l Hl|l u Hl Hu Hlu]; cbn [fst snd]; [easy|easy|easy| |].
- rewrite Hl, isnan_fin by easy. easy.
- rewrite Hl, Hu, isnan_fin by easy. easy.
Qed.
Lemma sharp_bounded z (c : bool) d : wf z -> around z -> (c = true -> (exists p, box p) -> exists p, box p /\ ~ dom p) ->
  t_bounded (ret c) z = ret d -> sharp near box dom bx f z d.
Proof.
intros W A Hc. unfold t_bounded. rewrite is_empty_wf by easy.
destruct c; mreds.
{ intros E. apply ret_inj in E. subst d. apply sharp_trv. intros (H1 & H2). destruct (Hc eq_refl H1) as (p & Hp & N). auto. }
destruct (isnan (fst z)) eqn:E; mreds; intros E'; apply ret_inj in E'; subst d.
- apply sharp_trv. apply (empty_none z A). now apply isnan_empty.
- apply sharp_com.
Qed.
Lemma sharp_step z (c : bool) d : wf z -> around z ->
  ((exists r, mem r z) -> ~ s_singleton z -> ~ (forall p, box p -> cont_at near box f p)) ->
  (c = true -> s_singleton z -> ~ (forall p, box p -> cont_at near dom f p)) ->
  t_step (ret c) z = ret d -> sharp near box dom bx f z d.
Proof.
intros W A Hn Hc. unfold t_step. rewrite is_empty_wf by easy.
destruct (isnan (fst z)) eqn:E; mreds.
{ intros E'. apply ret_inj in E'. subst d. apply sharp_trv. apply (empty_none z A). now apply isnan_empty. }
destruct (is_singleton_decides z W) as (s & H1 & H2). apply returns_eq in H1. rewrite H1. mreds.
destruct s; mreds.
- destruct c; mreds; intros E'; apply ret_inj in E'; subst d; [|apply sharp_com].
  apply sharp_dac. intros (_ & _ & H). apply Hc; [easy|now apply H2|easy].
- intros E'. apply ret_inj in E'. subst d. apply sharp_def. apply Hn; [now apply wf_nonempty|]. intros S. apply H2 in S. discriminate S.
Qed.
End Tests.

(** ** The common text *)
Section Common.
Context {F : fmt}.
Lemma dec1_sharp (op : itv F -> M (itv F)) test dom f : (forall x, wf x -> computes_tightest (op x) (image1 dom f x)) ->
  (forall x z, wf_dec x -> snd x <> ill -> op (fst x) = ret z -> tightest (image1 dom f (fst x)) z ->
     exists d, test x z = ret d /\ sharp near1 (box1 (fst x)) dom (bounded_rep (fst x)) f z d) ->
  strongest1 (dec1 op test) dom f.
Proof.
intros Hop Ht x Wx Dx Nx z Hz d' D' L' H'. pose proof (wf_dec_wf x Wx) as W.
destruct (Hop (fst x) W) as (b & Eb & Tb). apply returns_eq in Eb.
destruct (Ht x b Wx Nx Eb Tb) as (d & Ed & Hd).
assert (E : dec1 op test x = ret (b, dmin (snd x) d)).
{ unfold dec1. rewrite is_valid_dec_wf, is_nai_wf by easy. mreds. destruct (deq_spec (snd x) ill) as [C|_]; [easy|]. mreds. rewrite Eb. mreds. now rewrite Ed. }
apply returns_eq in Hz. rewrite E in Hz. apply ret_inj in Hz. subst z. cbn [fst snd] in *. rewrite dmin_min. specialize (Hd d' D' H'). lia.
Qed.
Lemma dec2_sharp (op : itv F -> itv F -> M (itv F)) test dom f : (forall x y, wf x -> wf y -> computes_tightest (op x y) (image2 dom f x y)) ->
  (forall x y z, wf_dec x -> snd x <> ill -> wf_dec y -> snd y <> ill -> op (fst x) (fst y) = ret z -> tightest (image2 dom f (fst x) (fst y)) z ->
     exists d, test x y z = ret d /\ sharp near2 (box2 (fst x) (fst y)) (fun p => dom (fst p) (snd p))
       (bounded_rep (fst x) /\ bounded_rep (fst y)) (fun p => f (fst p) (snd p)) z d) ->
  strongest2 (dec2 op test) dom f.
Proof.
intros Hop Ht x y Wx Dx Nx Wy Dy Ny z Hz d' D' L1 L2 H'. pose proof (wf_dec_wf x Wx) as W. pose proof (wf_dec_wf y Wy) as V.
destruct (Hop (fst x) (fst y) W V) as (b & Eb & Tb). apply returns_eq in Eb.
destruct (Ht x y b Wx Nx Wy Ny Eb Tb) as (d & Ed & Hd).
assert (E : dec2 op test x y = ret (b, dmin (dmin (snd x) (snd y)) d)).
{ unfold dec2. rewrite !is_valid_dec_wf, !is_nai_wf by easy. mreds. destruct (deq_spec (snd x) ill) as [C|_]; [easy|]. destruct (deq_spec (snd y) ill) as [C|_]; [easy|]. mreds. rewrite Eb. mreds. now rewrite Ed. }
apply returns_eq in Hz. rewrite E in Hz. apply ret_inj in Hz. subst z. cbn [fst snd] in *. rewrite !dmin_min. specialize (Hd d' D' H'). lia.
Qed.
Lemma dec3_sharp (op : itv F -> itv F -> itv F -> M (itv F)) test f :
  (forall x y w, wf x -> wf y -> wf w -> exists b, op x y w = ret b /\ wf b /\ forall r s t, mem r x -> mem s y -> mem t w -> mem (f r s t) b) ->
  (forall (x y w : ditv F) (z : itv F), wf_dec x -> snd x <> ill -> wf_dec y -> snd y <> ill -> wf_dec w -> snd w <> ill -> wf z ->
     (forall r s t, mem r (fst x) -> mem s (fst y) -> mem t (fst w) -> mem (f r s t) z) ->
     exists d, test z = ret d /\ sharp near3 (box3 (fst x) (fst y) (fst w)) (fun _ => True)
       (bounded_rep (fst x) /\ bounded_rep (fst y) /\ bounded_rep (fst w)) (fun p => f (fst (fst p)) (snd (fst p)) (snd p)) z d) ->
  strongest3 (dec3 op test) f.
Proof.
intros Hop Ht x y w Wx Dx Nx Wy Dy Ny Ww Dw Nw z Hz d' D' L1 L2 L3 H'.
pose proof (wf_dec_wf x Wx) as W. pose proof (wf_dec_wf y Wy) as V. pose proof (wf_dec_wf w Ww) as U.
destruct (Hop (fst x) (fst y) (fst w) W V U) as (b & Eb & Wb & Tb).
destruct (Ht x y w b Wx Nx Wy Ny Ww Nw Wb Tb) as (d & Ed & Hd).
assert (E : dec3 op test x y w = ret (b, dmin (dmin (dmin (snd x) (snd y)) (snd w)) d)).
{ unfold dec3. rewrite !is_valid_dec_wf, !is_nai_wf by easy. mreds. destruct (deq_spec (snd x) ill) as [C|_]; [easy|]. destruct (deq_spec (snd y) ill) as [C|_]; [easy|].
  destruct (deq_spec (snd w) ill) as [C|_]; [easy|]. mreds. rewrite Eb. mreds. now rewrite Ed. }
apply returns_eq in Hz. rewrite E in Hz. apply ret_inj in Hz. subst z. cbn [fst snd] in *. rewrite !dmin_min. specialize (Hd d' D' H'). lia.
Qed.
Lemma around1 dom f (x z : itv F) : tightest (image1 dom f x) z -> around (box1 x) dom f z.
Proof. intros (_ & E & _) p Hp Dp. apply E. now exists p. Qed.
Lemma around2 dom f (x y z : itv F) : tightest (image2 dom f x y) z -> around (box2 x y) (fun p => dom (fst p) (snd p)) (fun p => f (fst p) (snd p)) z.
Proof. intros (_ & E & _) p [Hp Hq] Dp. apply E. now exists (fst p), (snd p). Qed.

Lemma t_cond_some (c : bool) (z : itv F) : wf z -> exists d, t_cond (ret c) z = ret d.
Proof.
intros W. unfold t_cond. rewrite is_empty_wf, is_common_wf by easy. destruct c; mreds; [now eexists|].
destruct (isnan (fst z)); mreds; [now eexists|]. destruct (is_finite (fst z) && is_finite (snd z))%bool; mreds; now eexists.
Qed.
Lemma t_bounded_some (c : bool) (z : itv F) : wf z -> exists d, t_bounded (ret c) z = ret d.
Proof.
intros W. unfold t_bounded. rewrite is_empty_wf by easy. destruct c; mreds; [now eexists|].
destruct (isnan (fst z)); mreds; now eexists.
Qed.
Lemma t_ring_some (z : itv F) : wf z -> exists d, t_ring z = ret d.
Proof.
intros W. unfold t_ring. rewrite is_empty_wf, is_common_wf by easy. mreds.
destruct (is_finite (fst z) && is_finite (snd z))%bool; mreds; [now eexists|]. destruct (isnan (fst z)); mreds; now eexists.
Qed.
Lemma t_step_some (c : bool) (z : itv F) : wf z -> exists d, t_step (ret c) z = ret d.
Proof.
intros W. unfold t_step. rewrite is_empty_wf by easy. destruct (isnan (fst z)); mreds; [now eexists|].
destruct (is_singleton_decides z W) as (s & H1 & H2). apply returns_eq in H1. rewrite H1. mreds. destruct s; mreds; [|now eexists]. destruct c; mreds; now eexists.
Qed.

Lemma s_smooth1 (op : itv F -> M (itv F)) (c : ditv F -> M bool) dom f :
  (forall x, wf x -> computes_tightest (op x) (image1 dom f x)) ->
  (forall x, wf_dec x -> snd x <> ill -> exists b, c x = ret b /\ (b = true -> s_nonempty (fst x) -> exists p, mem p (fst x) /\ ~ dom p)) ->
  strongest1 (dec1 op (fun x => t_cond (c x))) dom f.
Proof.
intros H1 H2. apply dec1_sharp; [easy|]. intros x z Wx Nx E T. destruct (H2 x Wx Nx) as (b & -> & Hb).
pose proof (proj1 T) as Wz. destruct (t_cond_some b z Wz) as [d Ed]. exists d. split; [easy|]. apply (sharp_cond _ _ _ _ _ z b); try easy. now apply around1.
Qed.
Lemma s_total1 (op : itv F -> M (itv F)) f : (forall x, wf x -> computes_tightest (op x) (image1 everywhere f x)) ->
  strongest1 (dec1 op (fun _ => t_total)) everywhere f.
Proof. intros H1. apply (s_smooth1 op (fun _ => ret false)); [easy|]. intros x _ _. exists false. now split. Qed.
Lemma s_bounded1 (op : itv F -> M (itv F)) (c : ditv F -> M bool) dom f :
  (forall x, wf x -> computes_tightest (op x) (image1 dom f x)) ->
  (forall x, wf_dec x -> snd x <> ill -> exists b, c x = ret b /\ (b = true -> s_nonempty (fst x) -> exists p, mem p (fst x) /\ ~ dom p)) ->
  strongest1 (dec1 op (fun x => t_bounded (c x))) dom f.
Proof.
intros H1 H2. apply dec1_sharp; [easy|]. intros x z Wx Nx E T. destruct (H2 x Wx Nx) as (b & -> & Hb).
pose proof (proj1 T) as Wz. destruct (t_bounded_some b z Wz) as [d Ed]. exists d. split; [easy|]. apply (sharp_bounded _ _ _ _ _ z b); try easy. now apply around1.
Qed.
Lemma s_ring2 (op : itv F -> itv F -> M (itv F)) f : (forall x y, wf x -> wf y -> computes_tightest (op x y) (image2 everywhere2 f x y)) ->
  strongest2 (dec2 op (fun _ _ => t_ring)) everywhere2 f.
Proof.
intros H1. apply dec2_sharp; [easy|]. intros x y z Wx Nx Wy Ny E T. pose proof (proj1 T) as Wz.
destruct (t_ring_some z Wz) as [d Ed]. exists d. split; [easy|]. apply (sharp_ring _ _ _ _ _ z); try easy. now apply around2.
Qed.
Lemma s_smooth2 (op : itv F -> itv F -> M (itv F)) (c : ditv F -> ditv F -> M bool) dom f :
  (forall x y, wf x -> wf y -> computes_tightest (op x y) (image2 dom f x y)) ->
  (forall x y, wf_dec x -> snd x <> ill -> wf_dec y -> snd y <> ill -> exists b, c x y = ret b /\
     (b = true -> s_nonempty (fst x) -> s_nonempty (fst y) -> exists r s, mem r (fst x) /\ mem s (fst y) /\ ~ dom r s)) ->
  strongest2 (dec2 op (fun x y => t_cond (c x y))) dom f.
Proof.
intros H1 H2. apply dec2_sharp; [easy|]. intros x y z Wx Nx Wy Ny E T. destruct (H2 x y Wx Nx Wy Ny) as (b & -> & Hb).
pose proof (proj1 T) as Wz. destruct (t_cond_some b z Wz) as [d Ed]. exists d. split; [easy|]. apply (sharp_cond _ _ _ _ _ z b); try easy; [now apply around2|].
intros Eb ([p q] & Hp & Hq). destruct (Hb Eb) as (r & s & Hr & Hs & N); [now exists p|now exists q|]. exists (r, s). split; [now split|easy].
Qed.
Lemma s_total2 (op : itv F -> itv F -> M (itv F)) f : (forall x y, wf x -> wf y -> computes_tightest (op x y) (image2 everywhere2 f x y)) ->
  strongest2 (dec2 op (fun _ _ => t_total)) everywhere2 f.
Proof. intros H1. apply (s_smooth2 op (fun _ _ => ret false)); [easy|]. intros x y _ _ _ _. exists false. now split. Qed.

(** ** Witnesses of the conditions *)

Lemma low_lt (x : itv F) (c : float F) : is_finite c = true -> s_nonempty x -> flt (fst x) c = true -> exists p, mem p x /\ p < B2R c.
Proof.
intros Fc [r Hr] H. destruct (Rlt_or_le r (B2R c)) as [L|L]; [now exists r|]. destruct Hr as [H1 H2].
destruct x as [l u]; cbn [fst snd] in *. destruct (fviewP l) as [ | | |l Fl]; try easy.
- exists (B2R c - 1). split; [|lra]. split; [easy|]. cbn [snd]. apply ub_mono with (1 := H2). lra.
- rewrite flt_fin in H by easy. revert H. case Rlt_bool_spec; [|easy]. intros K _. exists (B2R l). split; [|easy].
  split; cbn [fst snd]; [rewrite lb_fin by easy; lra|]. apply ub_mono with (1 := H2). lra.
Qed.
Lemma low_le (x : itv F) (c : float F) : is_finite c = true -> s_nonempty x -> fle (fst x) c = true -> exists p, mem p x /\ p <= B2R c.
Proof.
intros Fc [r Hr] H. destruct (Rle_or_lt r (B2R c)) as [L|L]; [now exists r|]. destruct Hr as [H1 H2].
destruct x as [l u]; cbn [fst snd] in *. destruct (fviewP l) as [ | | |l Fl]; try easy.
- exists (B2R c). split; [|lra]. split; [easy|]. cbn [snd]. apply ub_mono with (1 := H2). lra.
- rewrite fle_fin in H by easy. revert H. case Rle_bool_spec; [|easy]. intros K _. exists (B2R l). split; [|easy].
  split; cbn [fst snd]; [rewrite lb_fin by easy; lra|]. apply ub_mono with (1 := H2). lra.
Qed.
Lemma upp_gt (x : itv F) (c : float F) : is_finite c = true -> s_nonempty x -> fgt (snd x) c = true -> exists p, mem p x /\ B2R c < p.
Proof.
intros Fc [r Hr] H. change (fgt (snd x) c) with (flt c (snd x)) in H.
destruct (Rlt_or_le (B2R c) r) as [L|L]; [now exists r|]. destruct Hr as [H1 H2].
destruct x as [l u]; cbn [fst snd] in *. destruct (fviewP u) as [ | | |u Fu]; try easy.
- exists (B2R c + 1). split; [|lra]. split; [|easy]. cbn [fst]. apply lb_mono with (1 := H1). lra.
- rewrite flt_fin in H by easy. revert H. case Rlt_bool_spec; [|easy]. intros K _. exists (B2R u). split; [|easy].
  split; cbn [fst snd]; [|rewrite ub_fin by easy; lra]. apply lb_mono with (1 := H1). lra.
Qed.
Lemma upp_ge (x : itv F) (c : float F) : is_finite c = true -> s_nonempty x -> fge (snd x) c = true -> exists p, mem p x /\ B2R c <= p.
Proof.
intros Fc [r Hr] H. change (fge (snd x) c) with (fle c (snd x)) in H.
destruct (Rle_or_lt (B2R c) r) as [L|L]; [now exists r|]. destruct Hr as [H1 H2].
destruct x as [l u]; cbn [fst snd] in *. destruct (fviewP u) as [ | | |u Fu]; try easy.
- exists (B2R c). split; [|lra]. split; [|easy]. cbn [fst]. apply lb_mono with (1 := H1). lra.
- rewrite fle_fin in H by easy. revert H. case Rle_bool_spec; [|easy]. intros K _. exists (B2R u). split; [|easy].
  split; cbn [fst snd]; [|rewrite ub_fin by easy; lra]. apply lb_mono with (1 := H1). lra.
Qed.

(** ** Function by function *)
Lemma s_keep (op : itv F -> M (itv F)) dom f : (forall x, wf x -> computes_tightest (op x) (image1 dom f x)) ->
  strongest1 (fun x => mif (mor (mnot (is_valid_dec x)) (is_nai x)) (ret nai) (bind (op (fst x)) (fun b => ret (b, snd x)))) dom f.
Proof.
intros H x Wx Dx Nx z Hz d D L _. destruct (H (fst x) (wf_dec_wf x Wx)) as (b & Eb & _). apply returns_eq in Eb.
apply returns_eq in Hz. rewrite is_valid_dec_wf, is_nai_wf in Hz by easy. revert Hz. mreds.
destruct (deq_spec (snd x) ill) as [C|_]; [easy|]. mreds. rewrite Eb. mreds. intros Hz. apply ret_inj in Hz. now subst z.
Qed.
Lemma neg_strong : strongest1 (@neg_dec F) everywhere Ropp.
Proof. apply (s_keep neg). apply neg_tightest. Qed.
Lemma pos_strong : strongest1 (@pos_dec F) everywhere (fun r => r).
Proof.
intros x Wx Dx Nx z Hz d D L _. apply returns_eq in Hz. revert Hz. unfold pos_dec. rewrite is_valid_dec_wf, is_nai_wf by easy. mreds.
destruct (deq_spec (snd x) ill) as [C|_]; [easy|]. mreds. intros Hz. apply ret_inj in Hz. now subst z.
Qed.
Lemma add_strong : strongest2 (@add_dec F) everywhere2 Rplus. Proof. apply s_ring2, add_tightest. Qed.
Lemma sub_strong : strongest2 (@sub_dec F) everywhere2 Rminus. Proof. apply s_ring2, sub_tightest. Qed.
Lemma mul_strong : strongest2 (@mul_dec F) everywhere2 Rmult. Proof. apply s_ring2, mul_tightest. Qed.
Lemma div_strong : strongest2 (@div_dec F) (fun _ s => s <> 0) Rdiv.
Proof.
apply s_smooth2; [apply div_tightest|]. intros x y Wx Nx Wy Ny. destruct (member0 y Wy Ny) as (c & E & H). exists c. split; [easy|].
intros -> [r Hr] _. exists r, 0. split; [easy|]. split; [now apply H|]. now intros N.
Qed.
Lemma recip_strong : strongest1 (@recip_dec F) (fun r => r <> 0) Rinv.
Proof.
apply s_smooth1; [apply recip_tightest|]. intros x Wx Nx. destruct (member0 x Wx Nx) as (c & E & H). exists c. split; [easy|].
intros -> _. exists 0. split; [now apply H|]. now intros N.
Qed.
Lemma sqr_strong : strongest1 (@sqr_dec F) everywhere (fun r => r * r). Proof. apply s_total1, sqr_tightest. Qed.
Lemma fma_strong : strongest3 (@fma_dec F) (fun r s t => r * s + t).
Proof.
apply dec3_sharp.
- intros x y w W1 W2 W3. destruct (fma_tightest x y w W1 W2 W3) as (z & H1 & H2). exists z.
  split; [now apply returns_eq|]. split; [apply H2|]. intros r s t Hr Hs Ht. apply (proj1 (proj2 H2)). now exists r, s, t.
- intros x y w z _ _ _ _ _ _ Wz A. destruct (t_cond_some false z Wz) as [d Ed]. exists d. split; [exact Ed|].
  apply (sharp_total _ _ _ _ _ z d Wz); [|exact Ed]. intros p [[H1 H2] H3] _. now apply A.
Qed.
Lemma abs_strong : strongest1 (@abs_dec F) everywhere Rabs. Proof. apply s_total1, abs_tightest. Qed.
Lemma min_strong : strongest2 (@min_dec F) everywhere2 Rmin. Proof. apply s_total2, min_tightest. Qed.
Lemma max_strong : strongest2 (@max_dec F) everywhere2 Rmax. Proof. apply s_total2, max_tightest. Qed.
Lemma sqrt_strong : strongest1 (@sqrt_dec F) (fun r => 0 <= r) R_sqrt.sqrt.
Proof.
apply s_smooth1; [apply sqrt_tightest|]. intros x Wx Nx. eexists. split; [reflexivity|]. intros E N.
destruct (low_lt _ (@f0 F) eq_refl N E) as (p & Hp & L). exists p. split; [easy|]. change (B2R (@f0 F)) with 0 in L. lra.
Qed.
Lemma exp_strong : strongest1 (@exp_dec F) everywhere exp. Proof. apply s_total1, exp_tightest. Qed.
Lemma exp2_strong : strongest1 (@exp2_dec F) everywhere exp2R. Proof. apply s_total1, exp2_tightest. Qed.
Lemma exp10_strong : strongest1 (@exp10_dec F) everywhere exp10R. Proof. apply s_total1, exp10_tightest. Qed.
Lemma s_pos_cond (x : ditv F) : wf_dec x -> snd x <> ill -> exists b, ret (fle (fst (fst x)) (@f0 F)) = ret b /\
  (b = true -> s_nonempty (fst x) -> exists p, mem p (fst x) /\ ~ positive p).
Proof.
intros. eexists. split; [reflexivity|]. intros E N. destruct (low_le _ (@f0 F) eq_refl N E) as (p & Hp & L). exists p. split; [easy|].
change (B2R (@f0 F)) with 0 in L. unfold positive. lra.
Qed.
Lemma log_strong : strongest1 (@log_dec F) positive ln. Proof. apply s_smooth1; [apply log_tightest|apply s_pos_cond]. Qed.
Lemma log2_strong : strongest1 (@log2_dec F) positive log2R. Proof. apply s_smooth1; [apply log2_tightest|apply s_pos_cond]. Qed.
Lemma log10_strong : strongest1 (@log10_dec F) positive log10R. Proof. apply s_smooth1; [apply log10_tightest|apply s_pos_cond]. Qed.
Lemma sin_strong : strongest1 (@sin_dec F) everywhere sin. Proof. apply s_total1, sin_tightest. Qed.
Lemma cos_strong : strongest1 (@cos_dec F) everywhere cos. Proof. apply s_total1, cos_tightest. Qed.
Lemma sinh_strong : strongest1 (@sinh_dec F) everywhere sinh. Proof. apply s_total1, sinh_tightest. Qed.
Lemma cosh_strong : strongest1 (@cosh_dec F) everywhere cosh. Proof. apply s_total1, cosh_tightest. Qed.
Lemma asinh_strong : strongest1 (@asinh_dec F) everywhere arcsinh. Proof. apply s_total1, asinh_tightest. Qed.
Lemma acosh_strong : strongest1 (@acosh_dec F) from1 acoshR.
Proof.
apply s_smooth1; [apply acosh_tightest|]. intros x _ _. eexists. split; [reflexivity|]. intros E N.
destruct (low_lt _ _ (@is_finite_f1 F) N E) as (p & Hp & L). exists p. split; [easy|]. rewrite B2R_f1 in L. unfold from1. lra.
Qed.
Lemma atanh_strong : strongest1 (@atanh_dec F) inside1 atanhR.
Proof.
apply s_smooth1; [apply atanh_tightest|]. intros x _ _. eexists. split; [reflexivity|]. intros E N. unfold inside1.
apply orb_true_iff in E. destruct E as [E|E].
- destruct (low_le _ _ (@is_finite_fm1 F) N E) as (p & Hp & L). exists p. split; [easy|]. rewrite B2R_fm1 in L. lra.
- destruct (upp_ge _ _ (@is_finite_f1 F) N E) as (p & Hp & L). exists p. split; [easy|]. rewrite B2R_f1 in L. lra.
Qed.
Lemma s_unit_cond (x : ditv F) : wf_dec x -> snd x <> ill ->
  exists b, ret (flt (fst (fst x)) (@fm1 F) || fgt (snd (fst x)) (@f1 F)) = ret b /\
    (b = true -> s_nonempty (fst x) -> exists p, mem p (fst x) /\ ~ within1 p).
Proof.
intros _ _. eexists. split; [reflexivity|]. intros E N. unfold within1.
apply orb_true_iff in E. destruct E as [E|E].
- destruct (low_lt _ _ (@is_finite_fm1 F) N E) as (p & Hp & L). exists p. split; [easy|]. rewrite B2R_fm1 in L. lra.
- destruct (upp_gt _ _ (@is_finite_f1 F) N E) as (p & Hp & L). exists p. split; [easy|]. rewrite B2R_f1 in L. lra.
Qed.
Lemma asin_strong : strongest1 (@asin_dec F) within1 asin. Proof. apply s_bounded1; [apply asin_tightest|apply s_unit_cond]. Qed.
Lemma acos_strong : strongest1 (@acos_dec F) within1 acos. Proof. apply s_bounded1; [apply acos_tightest|apply s_unit_cond]. Qed.
Lemma s_none (x : ditv F) : wf_dec x -> snd x <> ill -> exists b, ret false = ret b /\ (b = true -> s_nonempty (fst x) -> exists p, mem p (fst x) /\ ~ everywhere p).
Proof. intros _ _. now exists false. Qed.
Lemma atan_strong : strongest1 (@atan_dec F) everywhere atan. Proof. apply s_bounded1; [apply atan_tightest|apply s_none]. Qed.
Lemma tanh_strong : strongest1 (@tanh_dec F) everywhere tanh. Proof. apply s_bounded1; [apply tanh_tightest|apply s_none]. Qed.
Lemma pown_strong k : strongest1 (fun x : ditv F => pown_dec x k) (pown_dom k) (pownR k).
Proof.
unfold pown_dec. apply s_smooth1; [intros; now apply pown_tightest|].
intros x Wx Nx. destruct (member0 x Wx Nx) as (c & E & H). exists ((k <? 0)%Z && c)%bool. split.
- rewrite E. now destruct (k <? 0)%Z.
- intros Eb _. apply andb_true_iff in Eb. destruct Eb as [K ->]. apply Z.ltb_lt in K. exists 0. split; [now apply H|].
  intros P. now apply (P K).
Qed.
Lemma pow_strong : strongest2 (@pow_dec F) pow_dom powR.
Proof.
apply s_smooth2; [apply pow_tightest|]. intros x y Wx Nx Wy Ny. destruct (member0 x Wx Nx) as (c & E & H).
exists (flt (fst (fst x)) f0 || (c && fle (fst (fst y)) f0))%bool. split.
- rewrite E. destruct (flt _ _); [easy|]. now destruct c.
- intros Eb N1 N2. apply orb_true_iff in Eb. destruct Eb as [E1|E1].
  + destruct (low_lt _ (@f0 F) eq_refl N1 E1) as (p & Hp & L). destruct N2 as [s Hs]. exists p, s. split; [easy|]. split; [easy|].
    change (B2R (@f0 F)) with 0 in L. unfold pow_dom. lra.
  + apply andb_true_iff in E1. destruct E1 as [-> E1]. destruct (low_le _ (@f0 F) eq_refl N2 E1) as (s & Hs & L).
    exists 0, s. split; [now apply H|]. split; [easy|]. change (B2R (@f0 F)) with 0 in L. unfold pow_dom. lra.
Qed.
End Common.
