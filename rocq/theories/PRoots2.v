(** * Newton's method: proofs *)
From Coq Require Import ZArith Reals Bool List Lia Lra Classical.
From Flocq Require Import Core.Core IEEE754.BinarySingleNaN.
From Verif Require Import Fmt FloatFacts Spec Exc SpecApi SpecNum SpecRel SpecRev SpecRoots MBase MBool MArith MNum MRev MRoots PBase PConv PBool PClass PDec PNumF PArith PSetop PRevW PRoots.
Import ListNotations.
Local Open Scope R_scope.
Local Open Scope list_scope.

Section N.
Context {F : fmt} (C : comparable F binary64).
Implicit Types x y v : itv F.
Context (f df : itv F -> M (itv F)) (pf pd : R -> R -> Prop) (Hf : extends f pf) (Hd : extends df pd) (eps : float F).

Definition rec k v := ia_newton k f df v eps.

Lemma mean_value (g g' : R -> R) x r m : mem r x -> mem m x ->
  (forall t, mem t x -> derivable_pt_lim g t (g' t)) -> exists t, mem t x /\ g m - g r = g' t * (m - r).
Proof.
intros Hr Hm D. destruct (total_order_T r m) as [[L|E]|L].
- destruct (MVT_cor2 g g' r m L) as (t & E & T).
  { intros t T. apply D. now apply mem_between with r m. }
  exists t. split; [apply mem_between with r m; try easy; lra|easy].
- subst m. exists r. split; [easy|]. lra.
- destruct (MVT_cor2 g g' m r L) as (t & E & T).
  { intros t T. apply D. now apply mem_between with m r. }
  exists t. split; [apply mem_between with m r; try easy; lra|]. lra.
Qed.

(** The parts in which the next level searches. *)
Definition parts x : M (itv F * itv F) :=
  (m <- n_mid x; c <- nums_to_interval m m; d <- df x; fc <- f c; z <- mul_rev_to_pair d fc;
   t1 <- sub c (fst z); v1 <- intersection x t1; t2 <- sub c (snd z); v2 <- intersection x t2;
   mif (equal v1 x) (a <- n_inf x; v1 <- nums_to_interval a m; b <- n_sup x; v2 <- nums_to_interval m b; ret (v1, v2))
     (ret (v1, v2)))%M.

Lemma newton_cases x : inhabited_itv x ->
  (forall k, ia_newton (S k) f df x eps = ret (Some [])) /\ (y <- f x; zero_in y)%M = ret false /\ (forall r, mem r x -> ~ pf r 0) \/
  exists v1 v2,
    (forall k, ia_newton (S k) f df x eps = then_out (newton_out (rec k) v1 eps) (newton_out (rec k) v2 eps)) /\
    parts x = ret (v1, v2) /\
    wf v1 /\ wf v2 /\ included v1 x /\ included v2 x /\
    (forall g g', (forall r, mem r x -> pf r (g r) /\ pd r (g' r) /\ derivable_pt_lim g r (g' r)) ->
       forall r, mem r x -> g r = 0 -> mem r v1 \/ mem r v2) /\
    (~ thin x -> (exists r, mem r x /\ ~ mem r v1) /\ (exists r, mem r x /\ ~ mem r v2)).
Proof.
intros Hx. pose proof (mem_wf x Hx) as W.
destruct (Hf x W) as (y & Ey & Wy & Iy). apply returns_eq in Ey.
destruct (zero_decides C y Wy) as (b & Eb & Hb). apply returns_eq in Eb.
destruct b; cycle 1.
{ left. split.
  - intros k. simpl. rewrite Ey. mreds. rewrite Eb. mreds. easy.
  - split; [rewrite Ey; exact Eb|]. intros r Hr Hp. apply (Iy r 0 Hr) in Hp. apply Hb in Hp. discriminate. }
right.
destruct (halves x Hx) as (a & m & u & Ea & Em & Eu & N1 & N2 & N3 & Fm & Mm & A & B & T).
assert (Mc : forall r, mem r (m, m) <-> r = B2R m).
{ intros r. unfold mem. cbn [fst snd]. rewrite lb_fin, ub_fin by easy. split; [lra|intros ->; lra]. }
assert (Wc : wf (m, m)) by (right; exists (B2R m); now apply Mc).
destruct (Hd x W) as (d & Ed & Wd & Id). apply returns_eq in Ed.
destruct (Hf (m, m) Wc) as (fc & Ec & Wfc & Ic). apply returns_eq in Ec.
destruct (mul_rev_to_pair_gives d fc Wd Wfc) as ([z1 z2] & Ez & Z1 & Z2 & Z3 & Z4). apply returns_eq in Ez. cbn [fst snd] in *.
assert (Wz : wf z1 /\ wf z2 /\ forall t, mem t z2 -> 0 <= t).
{ destruct (classic (two_branches d fc)) as [P|P].
  - destruct (Z3 P) as (_ & _ & (W1 & _ & _) & (W2 & _ & T2)). split; [easy|]. split; [easy|]. intros t Ht.
    apply (T2 (f0, finf)) in Ht.
    + destruct Ht as [H _]. cbn in H. lra.
    + right. exists 0. split; cbn; [lra|easy].
    + intros s [_ Hs]. split; cbn; [lra|easy].
  - destruct (Z4 P) as ((W1 & _ & _) & ->). split; [easy|]. split; [now left|]. intros t Ht. now apply mem_empty in Ht. }
destruct Wz as (W1 & W2 & P2).
destruct (sub_tightest (m, m) z1 Wc W1) as (t1 & E1 & (Wt1 & I1 & _)). apply returns_eq in E1.
destruct (sub_tightest (m, m) z2 Wc W2) as (t2 & E2 & (Wt2 & I2 & T2)). apply returns_eq in E2.
destruct (intersection_exact x t1 W Wt1) as (v1 & V1 & Wv1 & H1).
destruct (intersection_exact x t2 W Wt2) as (v2 & V2 & Wv2 & H2).
destruct (equal_decides v1 x Wv1 W) as (q & Eq & Hq). apply returns_eq in Eq.
assert (U2 : forall t, mem t t2 -> t <= B2R m).
{ intros t Ht. apply (T2 (fminf, m)) in Ht.
  - destruct Ht as [_ H]. cbn [snd] in H. now rewrite ub_fin in H.
  - right. exists (B2R m). split; cbn [fst snd]; [easy|]. rewrite ub_fin by easy. lra.
  - intros s (r & s' & Hr & Hs & _ & ->). apply Mc in Hr. subst r. apply P2 in Hs. split; cbn [fst snd]; [easy|].
    rewrite ub_fin by easy. lra. }
exists (if q then (a, m) else v1), (if q then (m, u) else v2). split; [|split; [|split; [|split; [|split; [|split; [|split]]]]]].
- intros k. simpl. rewrite Ey. mreds. rewrite Eb. mreds. rewrite Em. mreds. rewrite N3. mreds. rewrite Ed. mreds. rewrite Ec. mreds.
  rewrite Ez. mreds. cbn [fst snd]. rewrite E1. mreds. rewrite V1. mreds. rewrite E2. mreds. rewrite V2. mreds. rewrite Eq. mreds.
  destruct q; mreds.
  + rewrite Ea. mreds. rewrite N1. mreds. rewrite Eu. mreds. rewrite N2. mreds. reflexivity.
  + reflexivity.
- unfold parts. rewrite Em. mreds. rewrite N3. mreds. rewrite Ed. mreds. rewrite Ec. mreds.
  rewrite Ez. mreds. cbn [fst snd]. rewrite E1. mreds. rewrite V1. mreds. rewrite E2. mreds. rewrite V2. mreds. rewrite Eq. mreds.
  destruct q; mreds.
  + rewrite Ea. mreds. rewrite N1. mreds. rewrite Eu. mreds. rewrite N2. mreds. reflexivity.
  + reflexivity.
- destruct q; [|easy]. right. exists (B2R m). apply A. split; [easy|lra].
- destruct q; [|easy]. right. exists (B2R m). apply B. split; [easy|lra].
- intros r Hr. destruct q; [now apply A in Hr|now apply H1 in Hr].
- intros r Hr. destruct q; [now apply B in Hr|now apply H2 in Hr].
- intros g g' D r Hr Zr. destruct q.
  + destruct (Rle_or_lt r (B2R m)); [left; apply A|right; apply B]; (split; [easy|lra]).
  + destruct (mean_value g g' x r (B2R m) Hr Mm (fun t Ht => proj2 (proj2 (D t Ht)))) as (s & Hs & E).
    rewrite Zr, Rminus_0_r in E.
    assert (R : rev_mul d fc (B2R m - r)).
    { exists (g' s). split; [apply (Id s); [easy|apply (D s Hs)]|].
      assert (Q : mem (g (B2R m)) fc) by (apply (Ic (B2R m)); [now apply Mc|apply (D _ Mm)]).
      rewrite E in Q. first [exact Q | rewrite Rmult_comm in Q; exact Q]. }
    destruct (Z1 _ R) as [Q|Q]; [left; apply H1|right; apply H2]; (split; [easy|]); [apply I1|apply I2];
      exists (B2R m), (B2R m - r); (split; [now apply Mc|]); (split; [easy|]); (split; [easy|]); lra.
- intros NT. destruct (T NT) as [(r1 & R1 & L1) (r2 & R2 & L2)]. destruct q.
  + split; [exists r2|exists r1]; (split; [easy|]); intros H; [apply A in H|apply B in H]; lra.
  + split.
    * apply NNPP. intros N. assert (X : s_equal v1 x).
      { intros r. split; [intros Hr; now apply H1 in Hr|]. intros Hr. apply NNPP. intros Q. apply N. now exists r. }
      apply Hq in X. discriminate.
    * exists r2. split; [easy|]. intros H. apply H2 in H. destruct H as [_ H]. apply U2 in H. lra.
Qed.

Lemma out_cases v (k : nat) : wf v ->
  (forall k, newton_out (rec k) v eps = ret (Some [])) /\ (forall r, ~ mem r v) \/
  inhabited_itv v /\ (forall k, newton_out (rec k) v eps = ret (Some [v])) /\ (forall r s, mem r v -> mem s v -> smaller_than eps (r - s)) \/
  inhabited_itv v /\ (forall k, newton_out (rec k) v eps = rec k v) /\ exists w, returns (n_wid v) w /\ flt w eps = false.
Proof.
intros W. unfold newton_out. rewrite is_empty_wf by easy. destruct W as [->|H].
- left. split; [intros; reflexivity|]. intros r. apply mem_empty.
- right. rewrite (mem_nnan v H). destruct (wid_below v eps H) as (w & Ew & Hw). destruct (flt w eps) eqn:E.
  + left. split; [easy|]. split; [|now apply Hw]. intros j. mreds. rewrite Ew. mreds. now rewrite E.
  + right. split; [easy|]. split; [|exists w; now rewrite returns_eq]. intros j. mreds. rewrite Ew. mreds. now rewrite E.
Qed.

(** What one level reports for a part [v] of [x]. *)
Lemma out_sound (P : itv F -> list (itv F) -> Prop) v k : wf v ->
  ((forall r, ~ mem r v) -> P v []) -> (inhabited_itv v -> (forall r s, mem r v -> mem s v -> smaller_than eps (r - s)) -> P v [v]) ->
  (inhabited_itv v -> exists o, returns (rec k v) o /\ forall l, o = Some l -> P v l) ->
  exists o, newton_out (rec k) v eps = ret o /\ forall l, o = Some l -> P v l.
Proof.
intros W P0 P1 P2. destruct (out_cases v k W) as [[E H]|[(I & E & H)|(I & E & _)]]; rewrite E.
- exists (Some []). split; [easy|]. intros l [= <-]. now apply P0.
- exists (Some [v]). split; [easy|]. intros l [= <-]. now apply P1.
- destruct (P2 I) as (o & Eo & Ho). apply returns_eq in Eo. now exists o.
Qed.

Lemma newton_total x k : inhabited_itv x -> exists o, returns (rec k x) o.
Proof.
revert x. induction k as [|k IH]; intros x Hx.
{ now exists None. }
unfold rec. destruct (newton_cases x Hx) as [[E [_ H]]|(v1 & v2 & E & _ & W1 & W2 & _)]; rewrite E.
- now exists (Some []).
- destruct (out_sound (fun _ _ => True) v1 k) as (o1 & E1 & _); try easy.
  { intros I. destruct (IH v1 I) as [o Ho]. now exists o. }
  destruct (out_sound (fun _ _ => True) v2 k) as (o2 & E2 & _); try easy.
  { intros I. destruct (IH v2 I) as [o Ho]. now exists o. }
  rewrite (then_out_ret _ _ _ _ E1 E2). eexists. now intros s.
Qed.

Lemma newton_sound x g g' : inhabited_itv x ->
  (forall r, mem r x -> pf r (g r) /\ pd r (g' r) /\ derivable_pt_lim g r (g' r)) ->
  stops_only_with (fun n => ia_newton n f df x eps) (finds_narrow (graph g) x eps).
Proof.
intros Hx D n. revert x Hx D. induction n as [|n IH]; intros x Hx D.
{ exists None. split; [easy|discriminate]. }
destruct (newton_cases x Hx) as [[E [_ H]]|(v1 & v2 & E & _ & W1 & W2 & I1 & I2 & Z & _)]; rewrite E.
{ exists (Some []). split; [easy|]. intros l [= <-]. split; [|easy]. intros r [H1 H2]. exfalso.
  apply (H r H1). rewrite H2. now apply D. }
assert (G : forall v, wf v -> included v x ->
  exists o, newton_out (rec n) v eps = ret o /\ forall l, o = Some l -> finds_narrow (graph g) v eps l).
{ intros v W I. apply (out_sound (fun v l => finds_narrow (graph g) v eps l) v n W).
  - intros N. split; [intros r [Hr _]; now apply N in Hr|easy].
  - intros Iv S. split; [intros r [Hr _]; exists v; now split; [left|]|].
    intros v' [<-|[]]. split; [easy|]. split; [now intros r|easy].
  - intros Iv. apply IH; [easy|]. intros r Hr. now apply D, I. }
destruct (G v1 W1 I1) as (o1 & E1 & P1), (G v2 W2 I2) as (o2 & E2 & P2).
rewrite (then_out_ret _ _ _ _ E1 E2). eexists. split; [now intros s|].
intros l. destruct o1 as [l1|]; [|discriminate]. destruct o2 as [l2|]; [|discriminate]. intros [= <-].
destruct (P1 l1 eq_refl) as [C1 Q1], (P2 l2 eq_refl) as [C2 Q2]. split.
- apply covers_app with (1 := C1) (2 := C2). intros r [H1 H2].
  destruct (Z g g' D r H1 (eq_sym H2)) as [H|H]; [left|right]; easy.
- intros v V. apply in_app_or in V. destruct V as [V|V]; [destruct (Q1 v V) as (I & S & Q)|destruct (Q2 v V) as (I & S & Q)];
  (split; [easy|split; [|easy]]); intros r Hr; apply S in Hr; auto.
Qed.

Lemma newton_more n k x l : inhabited_itv x -> ia_newton n f df x eps = ret (Some l) -> (n <= k)%nat -> ia_newton k f df x eps = ret (Some l).
Proof.
revert k x l. induction n as [|n IH]; intros k x l Hx E L.
{ simpl in E. apply (f_equal (fun m => m (Est 0 0))) in E. discriminate. }
destruct k as [|k]; [lia|].
destruct (newton_cases x Hx) as [[E' [_ H]]|(v1 & v2 & E' & _ & W1 & W2 & _)]; rewrite E' in E |- *; [easy|].
assert (G : forall v, wf v -> exists o, newton_out (rec n) v eps = ret o /\ forall l, o = Some l -> newton_out (rec k) v eps = ret (Some l)).
{ intros v W. destruct (out_cases v n W) as [[Q _]|[(I & Q & _)|(I & Q & _)]]; rewrite !Q.
  - exists (Some []). now split; [|intros ? [= <-]].
  - exists (Some [v]). now split; [|intros ? [= <-]].
  - destruct (newton_total v n I) as [o Ho]. apply returns_eq in Ho. exists o. split; [easy|]. intros l' ->.
    apply (IH k v l'); try easy. lia. }
destruct (G v1 W1) as (o1 & E1 & P1), (G v2 W2) as (o2 & E2 & P2). rewrite (then_out_ret _ _ _ _ E1 E2) in E.
apply (f_equal (fun m => m (Est 0 0))) in E. injection E as E.
destruct o1 as [l1|]; [|discriminate]. destruct o2 as [l2|]; [|discriminate]. injection E as <-.
now rewrite (then_out_ret _ _ _ _ (P1 l1 eq_refl) (P2 l2 eq_refl)).
Qed.

Lemma newton_halts x : inhabited_itv x ->
  (forall v, inhabited_itv v -> included v x -> thin v -> forall w, returns (n_wid v) w -> flt w eps = true) ->
  exists n l, ia_newton n f df x eps = ret (Some l).
Proof.
intros Hx T.
assert (Q : forall v, inhabited_itv v -> included v x -> thin v \/ ~ thin v) by (intros; apply classic).
assert (G : ~ thin x -> exists n l, ia_newton n f df x eps = ret (Some l)).
{ clear Q. remember (steps x) as k eqn:K. revert x Hx T K. induction k as [k IH] using lt_wf_ind. intros x Hx T -> NT.
  destruct (newton_cases x Hx) as [[E _]|(v1 & v2 & E & _ & W1 & W2 & I1 & I2 & _ & N)]; [now exists 1%nat, []|].
  destruct (N NT) as [(r1 & R1 & S1) (r2 & R2 & S2)].
  assert (G : forall v r, wf v -> included v x -> mem r x -> ~ mem r v ->
    exists n l, forall k, (n <= k)%nat -> newton_out (rec k) v eps = ret (Some l)).
  { intros v r W I Hr Nr. destruct (out_cases v 0 W) as [[Q _]|[(Iv & Q & _)|(Iv & Q & w & Ew & Hw)]].
    - exists O, []. intros k _. now rewrite Q.
    - exists O, [v]. intros k _. now rewrite Q.
    - destruct (IH (steps v)) with (x := v) as (n & l & El); try easy.
      + now apply steps_lt with r.
      + intros v' I' S'. apply T; [easy|]. intros t Ht. now apply I, S'.
      + intros TH. rewrite (T v Iv I TH w Ew) in Hw. discriminate.
      + exists n, l. intros k L. rewrite Q. now apply newton_more with n. }
  destruct (G v1 r1 W1 I1 R1 S1) as (n1 & l1 & G1), (G v2 r2 W2 I2 R2 S2) as (n2 & l2 & G2).
  exists (S (n1 + n2)), (l1 ++ l2). rewrite E.
  now rewrite (then_out_ret _ _ _ _ (G1 (n1 + n2)%nat ltac:(lia)) (G2 (n1 + n2)%nat ltac:(lia))). }
destruct (classic (thin x)) as [TX|TX]; [|now apply G].
destruct (newton_cases x Hx) as [[E _]|(v1 & v2 & E & _ & W1 & W2 & I1 & I2 & _ & N)]; [now exists 1%nat, []|].
assert (Th : forall v, wf v -> included v x -> exists l, newton_out (rec O) v eps = ret (Some l)).
{ intros v W I. destruct (out_cases v 0 W) as [[P _]|[(Iv & P & _)|(Iv & P & w & Ew & Hw)]].
  - exists []. now rewrite P.
  - exists [v]. now rewrite P.
  - exfalso. assert (TV : thin v).
    { intros c Fc Mc. destruct (TX c Fc (I _ Mc)) as [H|H]; [left|right]; intros r Hr; apply H, I, Hr. }
    rewrite (T v Iv I TV w Ew) in Hw. discriminate. }
destruct (Th v1 W1 I1) as [l1 L1], (Th v2 W2 I2) as [l2 L2].
exists 1%nat, (l1 ++ l2). rewrite E. now rewrite (then_out_ret _ _ _ _ L1 L2).
Qed.

Lemma newton_stops x : inhabited_itv x ->
  (forall v, inhabited_itv v -> included v x -> thin v -> forall w, returns (n_wid v) w -> flt w eps = true) ->
  stops_with (fun n => ia_newton n f df x eps) (fun _ => True).
Proof.
intros Hx T. destruct (newton_halts x Hx T) as (n & l & E). exists l, n. split; [|easy].
intros k L. apply returns_eq. now apply newton_more with n.
Qed.
End N.

Lemma newton_stops_sound {F} (C : comparable F binary64) (f df : itv F -> M (itv F)) pf pd (Hf : extends f pf) (Hd : extends df pd)
  (eps : float F) (x : itv F) g g' : inhabited_itv x ->
  (forall v, inhabited_itv v -> included v x -> thin v -> forall w, returns (n_wid v) w -> flt w eps = true) ->
  (forall r, mem r x -> pf r (g r) /\ pd r (g' r) /\ derivable_pt_lim g r (g' r)) ->
  stops_with (fun n => ia_newton n f df x eps) (finds_narrow (graph g) x eps).
Proof.
intros Hx T D. destruct (newton_stops C f df pf pd Hf Hd eps x Hx T) as (l & n & E & _). exists l, n. split; [easy|].
destruct (newton_sound C f df pf pd Hf Hd eps x g g' Hx D n) as (o & Eo & Ho).
apply Ho. pose proof (E n ltac:(lia) (Est 0 0)) as E1. pose proof (Eo (Est 0 0)) as E2. rewrite E1 in E2. congruence.
Qed.
