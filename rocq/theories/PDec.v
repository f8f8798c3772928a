(** * Proofs: decorated forward functions *)
From Coq Require Import ZArith NArith Reals Bool Lia Lra List FunctionalExtensionality.
From Flocq Require Import Core.Core IEEE754.BinarySingleNaN.
From Verif Require Import Fmt Spec FloatFacts Exc Deco SpecApi SpecElem SpecAtan2 SpecDeco MBase PBase MBool MArith PArith
  PMul PFma PDiv PUnary PConv SpecRel PBool PSetop MElem PElem PElem2 MPow PPown PPow MTrig PTrig PTrigT MAtan2 PAtan2 MDec PCont.
Import ListNotations.
Local Open Scope R_scope.

Lemma returns_eq {A} (m : M A) a : returns m a <-> m = ret a.
Proof.
split; [intros H; extensionality s; now rewrite H|intros ->; now intros s].
Qed.

(** What the local decoration has to guarantee. *)
Definition local {F : fmt} {P : Type} (near : R -> P -> P -> Prop) (box dom : P -> Prop) (bx : Prop)
    (f : P -> R) (z : itv F) (d : deco) : Prop :=
  In d [trv; def; dac; com] /\
  ((def <= d)%N -> (exists r, mem r z) /\ forall p, box p -> dom p) /\
  ((dac <= d)%N -> forall p, box p -> cont_at near box f p) /\
  ((com <= d)%N -> bx -> bounded_rep z /\ forall p, box p -> cont_at near dom f p).

Lemma dmin_min d e : dmin d e = N.min d e.
Proof. unfold dmin. destruct (N.ltb_spec e d); lia. Qed.
Lemma deco_cases d : is_deco d -> d <> ill -> In d [trv; def; dac; com].
Proof. unfold is_deco. simpl. intuition congruence. Qed.
Lemma deco_ge d : In d [trv; def; dac; com] -> is_deco d /\ d <> ill /\ (trv <= d)%N.
Proof. unfold is_deco, ill, trv, def, dac, com. simpl. intuition (try (subst d; easy)). Qed.
Lemma dmin_in d e : In d [trv; def; dac; com] -> In e [trv; def; dac; com] -> In (dmin d e) [trv; def; dac; com].
Proof. intros H1 H2. unfold dmin. now destruct N.ltb. Qed.
Lemma com_eq d : is_deco d -> (com <= d)%N -> d = com.
Proof. unfold is_deco, ill, trv, def, dac, com. simpl. intuition (subst d; try lia; easy). Qed.
Lemma deco_trv d : In d [trv; def; dac; com] -> ~ (def <= d)%N -> d = trv.
Proof. unfold trv, def, dac, com. simpl. intuition (subst d; try lia; easy). Qed.
Lemma wf_dec_com {F} (x : ditv F) : wf_dec x -> snd x = com -> bounded_rep (fst x).
Proof. intros [[_ [H|H]]|(_ & _ & H)] E; [rewrite H in E; easy|rewrite H in E; easy|auto]. Qed.

(** Combining the local decoration with those of the operands. *)
Lemma local_honest {F P} near (box dom : P -> Prop) (bx : Prop) (f : P -> R) (z : itv F) (d din : deco) :
  wf z -> ((exists r, mem r z) -> exists p, box p) ->
  In din [trv; def; dac; com] -> (din = com -> bx) ->
  local near box dom bx f z d ->
  wf_dec (z, dmin din d) /\ is_deco (dmin din d) /\ dmin din d <> ill /\
  (dmin din d <= din)%N /\ honest near box dom bx f z (dmin din d).
Proof.
intros W Hs Hd Hb (L0 & L1 & L2 & L3).
pose proof (dmin_in _ _ Hd L0) as Hi. pose proof (deco_ge _ Hi) as (G1 & G2 & G3). pose proof (deco_ge _ Hd) as (Gd & _ & _).
assert (Hle : (dmin din d <= din)%N /\ (dmin din d <= d)%N) by (rewrite dmin_min; lia).
assert (Hc : (com <= dmin din d)%N -> bx) by (intros H; apply Hb, com_eq; [easy|lia]).
split; [|split; [easy|split; [easy|split; [lia|]]]].
- destruct W as [->|W].
  + left. split; [easy|]. right. cbn [snd]. apply deco_trv; [easy|]. intros H.
    destruct L1 as [[r Hr] _]; [lia|]. now apply (@mem_empty F r) in Hr.
  + right. cbn [fst snd]. split; [easy|]. split; [easy|]. intros E.
    assert ((com <= dmin din d)%N) by (rewrite E; lia). apply L3; [lia|auto].
- split; [|split].
  + intros H. destruct L1 as [A B]; [lia|]. auto.
  + intros H. apply L2. lia.
  + intros H. specialize (Hc H). destruct L3 as [A B]; [lia|easy|auto].
Qed.

(** ** The local decorations of the code *)
Section Tests.
Context {F : fmt} {P : Type} (near : R -> P -> P -> Prop) (box dom : P -> Prop) (bx : Prop) (f : P -> R).
Implicit Types z : itv F.

Lemma wf_nonnan z : wf z -> isnan (fst z) = false -> exists r, mem r z.
Proof. intros. now apply wf_nonempty. Qed.

Lemma local_trv z : local near box dom bx f z trv.
Proof. repeat split; try (now left); intros; unfold trv, def, dac, com in *; lia. Qed.
Lemma local_dac z : (exists r, mem r z) -> (forall p, box p -> dom p) -> (forall p, box p -> cont_at near box f p) ->
  local near box dom bx f z dac.
Proof. intros H1 H2 H3. split; [simpl; tauto|]. split; [easy|]. split; [easy|]. intros H. unfold com, dac in H. lia. Qed.
Lemma local_com z : (exists r, mem r z) -> (bx -> bounded_rep z) -> (forall p, box p -> dom p) -> (forall p, box p -> cont_at near dom f p) ->
  local near box dom bx f z com.
Proof.
intros H1 H2 H3 H4. split; [simpl; tauto|]. split; [easy|]. split; [|auto].
intros _ p Hp. apply cont_sub with dom; auto.
Qed.

Lemma local_smooth z (c : bool) : wf z ->
  (c = false -> (exists r, mem r z) -> forall p, box p -> dom p) -> (forall p, dom p -> cont_at near dom f p) ->
  exists d, t_cond (ret c) z = ret d /\ local near box dom bx f z d.
Proof.
intros W Hc Hf. unfold t_cond. rewrite is_empty_wf, is_common_wf by easy.
destruct c; mreds; [exists trv; split; [easy|apply local_trv]|].
destruct (isnan (fst z)) eqn:E; mreds; [exists trv; split; [easy|apply local_trv]|].
pose proof (wf_nonnan z W E) as Hn. specialize (Hc eq_refl Hn).
destruct (is_finite (fst z) && is_finite (snd z)) eqn:B; mreds.
- exists com. split; [easy|]. apply local_com; auto. intros _. now apply andb_true_iff in B.
- exists dac. split; [easy|]. apply local_dac; auto. intros p Hp. apply cont_sub with dom; auto.
Qed.
Lemma local_total z : wf z -> (forall p, dom p) -> (forall p, dom p -> cont_at near dom f p) ->
  exists d, t_total z = ret d /\ local near box dom bx f z d.
Proof. intros W Hc Hf. apply (local_smooth z false W); auto. Qed.
Lemma local_ring z : wf z -> (forall p, dom p) -> (forall p, dom p -> cont_at near dom f p) ->
  exists d, t_ring z = ret d /\ local near box dom bx f z d.
Proof.
intros W Hc Hf. destruct (local_total z W Hc Hf) as (d & H1 & H2). exists d. split; [|easy]. rewrite <- H1.
unfold t_ring, t_total. rewrite is_empty_wf, is_common_wf by easy. mreds.
destruct (wf_view z W) as [ | |u Hu|l Hl|l u Hl Hu Hlu]; cbn [fst snd]; [easy|easy|easy| |].
- rewrite Hl, isnan_fin by easy. easy.
- rewrite Hl, Hu, isnan_fin by easy. easy.
Qed.
Lemma local_bounded z (c : bool) : wf z -> (bx -> (exists r, mem r z) -> bounded_rep z) ->
  (c = false -> (exists r, mem r z) -> forall p, box p -> dom p) -> (forall p, dom p -> cont_at near dom f p) ->
  exists d, t_bounded (ret c) z = ret d /\ local near box dom bx f z d.
Proof.
intros W Hb Hc Hf. unfold t_bounded. rewrite is_empty_wf by easy.
destruct c; mreds; [exists trv; split; [easy|apply local_trv]|].
destruct (isnan (fst z)) eqn:E; mreds; [exists trv; split; [easy|apply local_trv]|].
pose proof (wf_nonnan z W E) as Hn. exists com. split; [easy|]. apply local_com; auto.
Qed.
Lemma local_step z (c : bool) : wf z -> (forall p, dom p) -> (bx -> (exists r, mem r z) -> bounded_rep z) ->
  encloses (fun t => exists p, box p /\ t = f p) z ->
  (c = false -> s_singleton z -> forall p, box p -> cont_at near dom f p) ->
  exists d, t_step (ret c) z = ret d /\ local near box dom bx f z d.
Proof.
intros W Hd Hb He Hc. unfold t_step. rewrite is_empty_wf by easy.
destruct (isnan (fst z)) eqn:E; mreds; [exists trv; split; [easy|apply local_trv]|].
pose proof (wf_nonnan z W E) as Hn.
destruct (is_singleton_decides z W) as (s & H1 & H2). apply returns_eq in H1. rewrite H1. mreds.
destruct s; mreds.
- destruct c; mreds.
  + exists dac. split; [easy|]. apply local_dac; auto. intros p Hp e Hpos. exists 1. split; [lra|].
    intros q Hq _. destruct (proj1 H2 eq_refl) as [r Hr].
    assert (f q = r) by (apply Hr, He; eauto). assert (f p = r) by (apply Hr, He; eauto).
    rewrite Rminus_diag_eq, Rabs_R0; [easy|congruence].
  + exists com. split; [easy|]. apply local_com; auto. apply Hc; [easy|now apply H2].
- exists def. split; [easy|]. split; [simpl; tauto|]. split; [auto|]. unfold def, dac, com. split; intros; lia.
Qed.
End Tests.

(** ** The common text *)
Definition seen1 {F} (op : itv F -> M (itv F)) : Prop :=
  forall x, wf x -> exists z, op x = ret z /\ wf z /\ ((exists r, mem r z) -> exists r, mem r x).
Lemma dec1_ok {F} (op : itv F -> M (itv F)) test dom f : seen1 op ->
  (forall x z, wf_dec x -> snd x <> ill -> op (fst x) = ret z -> wf z ->
     exists d, test x z = ret d /\ local near1 (box1 (fst x)) dom (bounded_rep (fst x)) f z d) ->
  decorates1 (dec1 op test) op dom f.
Proof.
intros Hop Ht x Wx Dx Nx. pose proof (wf_dec_wf x Wx) as W.
destruct (Hop (fst x) W) as (z & H1 & H2 & H3).
destruct (Ht x z Wx Nx H1 H2) as (d & H4 & H5).
exists (z, dmin (snd x) d). cbn [fst snd].
destruct (local_honest near1 (box1 (fst x)) dom (bounded_rep (fst x)) f z d (snd x) H2 H3 (deco_cases _ Dx Nx) (wf_dec_com x Wx) H5)
  as (A1 & A2 & A3 & A4 & A5).
split; [|split; [easy|split; [easy|split; [easy|split; [now apply returns_eq|split; easy]]]]].
- apply returns_eq. unfold dec1. rewrite is_valid_dec_wf, is_nai_wf by easy. mreds.
  destruct (deq_spec (snd x) ill) as [E|_]; [easy|]. mreds. rewrite H1. mreds. now rewrite H4.
Qed.
Definition seen2 {F} (op : itv F -> itv F -> M (itv F)) : Prop :=
  forall x y, wf x -> wf y -> exists z, op x y = ret z /\ wf z /\ ((exists r, mem r z) -> exists p, box2 x y p).
Lemma dmin_com2 {F} (x y : ditv F) : wf_dec x -> wf_dec y -> is_deco (snd x) -> is_deco (snd y) -> dmin (snd x) (snd y) = com ->
  snd x = com /\ snd y = com.
Proof. intros Wx Wy Dx Dy E. rewrite dmin_min in E. split; apply com_eq; try easy; lia. Qed.
Lemma dec2_ok {F} (op : itv F -> itv F -> M (itv F)) test dom f : seen2 op ->
  (forall x y z, wf_dec x -> snd x <> ill -> wf_dec y -> snd y <> ill -> op (fst x) (fst y) = ret z -> wf z ->
     exists d, test x y z = ret d /\ local near2 (box2 (fst x) (fst y)) (fun p => dom (fst p) (snd p))
       (bounded_rep (fst x) /\ bounded_rep (fst y)) (fun p => f (fst p) (snd p)) z d) ->
  decorates2 (dec2 op test) op dom f.
Proof.
intros Hop Ht x y Wx Dx Nx Wy Dy Ny. pose proof (wf_dec_wf x Wx) as W. pose proof (wf_dec_wf y Wy) as W'.
destruct (Hop (fst x) (fst y) W W') as (z & H1 & H2 & H3).
destruct (Ht x y z Wx Nx Wy Ny H1 H2) as (d & H4 & H5).
exists (z, dmin (dmin (snd x) (snd y)) d). cbn [fst snd].
pose proof (deco_cases _ Dx Nx) as Ix. pose proof (deco_cases _ Dy Ny) as Iy.
assert (Hc : dmin (snd x) (snd y) = com -> bounded_rep (fst x) /\ bounded_rep (fst y)).
{ intros E. destruct (dmin_com2 x y Wx Wy Dx Dy E). split; now apply wf_dec_com. }
destruct (local_honest _ _ _ _ _ z d (dmin (snd x) (snd y)) H2 H3 (dmin_in _ _ Ix Iy) Hc H5)
  as (A1 & A2 & A3 & A4 & A5).
split; [|split; [easy|split; [easy|split; [easy|split; [now apply returns_eq|split; [|split; [|easy]]]]]]].
- apply returns_eq. unfold dec2. rewrite !is_valid_dec_wf, !is_nai_wf by easy. mreds.
  destruct (deq_spec (snd x) ill) as [E|_]; [easy|]. destruct (deq_spec (snd y) ill) as [E|_]; [easy|].
  mreds. rewrite H1. mreds. now rewrite H4.
- rewrite !dmin_min in *. lia.
- rewrite !dmin_min in *. lia.
Qed.
Definition seen3 {F} (op : itv F -> itv F -> itv F -> M (itv F)) : Prop :=
  forall x y w, wf x -> wf y -> wf w -> exists z, op x y w = ret z /\ wf z /\ ((exists r, mem r z) -> exists p, box3 x y w p).
Lemma dec3_ok {F} (op : itv F -> itv F -> itv F -> M (itv F)) test f : seen3 op ->
  (forall x y w z, wf_dec x -> snd x <> ill -> wf_dec y -> snd y <> ill -> wf_dec w -> snd w <> ill ->
     op (fst x) (fst y) (fst w) = ret z -> wf z ->
     exists d, test z = ret d /\ local near3 (box3 (fst x) (fst y) (fst w)) (fun _ => True)
       (bounded_rep (fst x) /\ bounded_rep (fst y) /\ bounded_rep (fst w)) (fun p => f (fst (fst p)) (snd (fst p)) (snd p)) z d) ->
  decorates3 (dec3 op test) op f.
Proof.
intros Hop Ht x y w Wx Dx Nx Wy Dy Ny Ww Dw Nw.
pose proof (wf_dec_wf x Wx) as W. pose proof (wf_dec_wf y Wy) as W'. pose proof (wf_dec_wf w Ww) as W''.
destruct (Hop (fst x) (fst y) (fst w) W W' W'') as (z & H1 & H2 & H3).
destruct (Ht x y w z Wx Nx Wy Ny Ww Nw H1 H2) as (d & H4 & H5).
exists (z, dmin (dmin (dmin (snd x) (snd y)) (snd w)) d). cbn [fst snd].
pose proof (deco_cases _ Dx Nx) as Ix. pose proof (deco_cases _ Dy Ny) as Iy. pose proof (deco_cases _ Dw Nw) as Iw.
assert (Hc : dmin (dmin (snd x) (snd y)) (snd w) = com -> bounded_rep (fst x) /\ bounded_rep (fst y) /\ bounded_rep (fst w)).
{ intros E. rewrite !dmin_min in E.
  split; [|split]; apply wf_dec_com; try easy; apply com_eq; try easy; lia. }
destruct (local_honest _ _ _ _ _ z d (dmin (dmin (snd x) (snd y)) (snd w)) H2 H3 (dmin_in _ _ (dmin_in _ _ Ix Iy) Iw) Hc H5)
  as (A1 & A2 & A3 & A4 & A5).
split; [|split; [easy|split; [easy|split; [easy|split; [now apply returns_eq|split; [|split; [|split; [|easy]]]]]]]].
- apply returns_eq. unfold dec3. rewrite !is_valid_dec_wf, !is_nai_wf by easy. mreds.
  destruct (deq_spec (snd x) ill) as [E|_]; [easy|]. destruct (deq_spec (snd y) ill) as [E|_]; [easy|].
  destruct (deq_spec (snd w) ill) as [E|_]; [easy|].
  mreds. rewrite H1. mreds. now rewrite H4.
- rewrite !dmin_min in *. lia.
- rewrite !dmin_min in *. lia.
- rewrite !dmin_min in *. lia.
Qed.

Lemma tight_seen {F} (S : R -> Prop) (z : itv F) : tightest S z -> (exists r, mem r z) -> exists t, S t.
Proof.
intros (W & E & T) [r Hr]. apply Classical_Prop.NNPP. intros N.
apply (@mem_empty F r). apply (T empty_rep); [now left| |easy]. intros t Ht. exfalso. eauto.
Qed.
Lemma ct_seen1 {F} (op : itv F -> M (itv F)) dom f :
  (forall x, wf x -> computes_tightest (op x) (image1 dom f x)) -> seen1 op.
Proof.
intros H x W. destruct (H x W) as (z & H1 & H2). exists z. split; [now apply returns_eq|]. split; [apply H2|].
intros Hr. destruct (tight_seen _ _ H2 Hr) as (t & r & Ht & _). eauto.
Qed.
Lemma ct_seen2 {F} (op : itv F -> itv F -> M (itv F)) dom f :
  (forall x y, wf x -> wf y -> computes_tightest (op x y) (image2 dom f x y)) -> seen2 op.
Proof.
intros H x y W W'. destruct (H x y W W') as (z & H1 & H2). exists z. split; [now apply returns_eq|]. split; [apply H2|].
intros Hr. destruct (tight_seen _ _ H2 Hr) as (t & r & s & Ht & Hs & _). exists (r, s). now split.
Qed.
Lemma ct_tight1 {F} (op : itv F -> M (itv F)) S x z : computes_tightest (op x) S -> op x = ret z -> tightest S z.
Proof.
intros (z' & H1 & H2) E. apply returns_eq in H1. replace z with z'; [easy|].
assert (E' : ret z' = ret z) by congruence. apply (f_equal (fun m => m (Est 0 0))) in E'. now inversion E'.
Qed.

(** ** Reading the conditions of the code *)
Section Conds.
Context {F : fmt}.
Implicit Types x y : ditv F.
Lemma member0 x : wf_dec x -> snd x <> ill -> exists c, is_member_dec (@f0 F) x = ret c /\ (c = true <-> mem 0 (fst x)).
Proof.
intros W N. unfold is_member_dec. rewrite is_valid_dec_wf, is_nai_wf by easy. mreds.
destruct (deq_spec (snd x) ill) as [E|_]; [easy|]. mreds.
destruct (is_member_mixed_decides (comparable_refl F) (@f0 F) (fst x) (wf_dec_wf x W)) as (c & H1 & H2).
exists c. split; [now apply returns_eq|]. rewrite H2. change (B2R (@f0 F)) with 0. intuition easy.
Qed.
Lemma flt_low (l c : float F) (r : R) : is_finite c = true -> lb l r -> flt l c = false -> B2R c <= r.
Proof.
intros Fc L H. destruct (fviewP l) as [ | | |l Fl]; try easy.
- now rewrite flt_minf_l in H.
- rewrite flt_fin in H by easy. rewrite lb_fin in L by easy. revert H. case Rlt_bool_spec; [easy|intros; lra].
Qed.
Lemma fle_low (l c : float F) (r : R) : is_finite c = true -> lb l r -> fle l c = false -> B2R c < r.
Proof.
intros Fc L H. destruct (fviewP l) as [ | | |l Fl]; try easy.
- now rewrite fle_minf_l in H by now apply isnan_fin.
- rewrite fle_fin in H by easy. rewrite lb_fin in L by easy. revert H. case Rle_bool_spec; [easy|intros; lra].
Qed.
Lemma fgt_upp (u c : float F) (r : R) : is_finite c = true -> ub u r -> fgt u c = false -> r <= B2R c.
Proof.
intros Fc L H. change (fgt u c) with (flt c u) in H. destruct (fviewP u) as [ | | |u Fu]; try easy.
- now rewrite flt_pinf_r in H.
- rewrite flt_fin in H by easy. rewrite ub_fin in L by easy. revert H. case Rlt_bool_spec; [easy|intros; lra].
Qed.
Lemma fge_upp (u c : float F) (r : R) : is_finite c = true -> ub u r -> fge u c = false -> r < B2R c.
Proof.
intros Fc L H. change (fge u c) with (fle c u) in H. destruct (fviewP u) as [ | | |u Fu]; try easy.
- now rewrite fle_pinf_r in H by now apply isnan_fin.
- rewrite fle_fin in H by easy. rewrite ub_fin in L by easy. revert H. case Rle_bool_spec; [easy|intros; lra].
Qed.
Lemma flt_lb (l c : float F) (r : R) : is_finite c = true -> lb l r -> flt l c = true -> lb l (B2R c).
Proof.
intros Fc L H. destruct (fviewP l) as [ | | |l Fl]; try easy.
rewrite flt_fin in H by easy. rewrite lb_fin by easy. revert H. case Rlt_bool_spec; [intros; lra|easy].
Qed.
Lemma fge_ub (u c : float F) (r : R) : is_finite c = true -> ub u r -> fge u c = true -> ub u (B2R c).
Proof.
intros Fc L H. change (fge u c) with (fle c u) in H. destruct (fviewP u) as [ | | |u Fu]; try easy.
rewrite fle_fin in H by easy. rewrite ub_fin by easy. revert H. case Rle_bool_spec; [intros; lra|easy].
Qed.
End Conds.
