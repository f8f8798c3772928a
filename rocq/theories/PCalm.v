(** * Proofs: functions on valid operands return *)
From Coq Require Import ZArith NArith Reals Bool Lra Lia List Classical.
From Flocq Require Import Core.Core IEEE754.BinarySingleNaN.
From Verif Require Import Fmt Spec FloatFacts Exc Deco SpecApi SpecElem SpecAtan2 SpecDeco SpecMixed SpecNum SpecNai SpecRel SpecRev SpecCancel SpecProg MBase PBase MBool MOverlap MArith PArith
  MElem MPow MTrig MAtan2 MDec MMixed MCancel MRev MTrigRev MRev1 MStream MDecoIo MText MRegex MRead
  PConv PBool PSetop PClass PAtan2 PDec PDecF PDecT PDiv PElem PElem2 PFma PMul PPow PPown PTan PTanF PTrig PTrigT PUnary PMixed PRevW PRevEven PMulRev PTrigRev2 PNai PCancel
  PValid PValid2 PCalm0 MProg SpecCalm.
Import ListNotations.
Local Open Scope R_scope.
Local Open Scope m_scope.

(** ** The monad *)
Lemma g_ret {A} (a : A) (P : A -> Prop) : P a -> gives (ret a) P.
Proof. intros H. exists a. split; [now intros s|easy]. Qed.
Lemma g_bind {A B} (m : M A) (k : A -> M B) (Q : A -> Prop) (P : B -> Prop) :
  gives m Q -> (forall a, Q a -> gives (k a) P) -> gives (bind m k) P.
Proof. intros (a & H1 & H2) H3. apply returns_eq in H1. rewrite H1. mreds. now apply H3. Qed.
Definition calm {A} (m : M A) : Prop := gives m (fun _ => True).
Lemma g_mif {A} c (t e : M A) (P : A -> Prop) : calm c -> gives t P -> gives e P -> gives (mif c t e) P.
Proof. intros H1 H2 H3. unfold mif. apply g_bind with (1 := H1). now intros []. Qed.
Lemma g_then {A B} (m : M A) (k : A -> M B) (P : B -> Prop) : calm m -> (forall a, gives (k a) P) -> gives (bind m k) P.
Proof. intros H1 H2. apply g_bind with (1 := H1). auto. Qed.
Lemma g_if {A} (b : bool) (t e : M A) (P : A -> Prop) : (b = true -> gives t P) -> (b = false -> gives e P) -> gives (if b then t else e) P.
Proof. destruct b; auto. Qed.
Lemma g_returns {A} (m : M A) a (P : A -> Prop) : returns m a -> P a -> gives m P.
Proof. intros H1 H2. now exists a. Qed.
Lemma g_tight {F} (m : M (itv F)) S : computes_tightest m S -> gives m wf.
Proof. intros (z & H1 & H2). exists z. split; [easy|]. now apply tightest_wf in H2. Qed.
Lemma calm_not c : calm c -> calm (mnot c).
Proof. intros (b & H & _). apply returns_eq in H. rewrite H. exists (negb b). split; [now intros s|easy]. Qed.
Lemma calm_or c d : calm c -> calm d -> calm (c ||| d).
Proof.
intros (b & H & _) (b' & H' & _). apply returns_eq in H, H'. rewrite H, H'. exists (b || b')%bool. split; [now intros s; destruct b|easy].
Qed.
Lemma calm_valid {F} (x : itv F) : wf x -> calm (is_valid x).
Proof. intros W. rewrite is_valid_wf by easy. now apply g_ret. Qed.
Lemma calm_empty {F} (x : itv F) : wf x -> calm (is_empty x).
Proof. intros W. rewrite is_empty_wf by easy. now apply g_ret. Qed.
Lemma calm_valid_dec {F} (x : ditv F) : valid_dec x -> calm (is_valid_dec x).
Proof. intros [W _]. rewrite is_valid_dec_wf by easy. now apply g_ret. Qed.
Lemma calm_nai {F} (x : ditv F) : valid_dec x -> calm (is_nai x).
Proof. intros [W _]. rewrite is_nai_wf by easy. now apply g_ret. Qed.
Ltac cond := repeat first [apply calm_or | apply calm_not]; try solve [first [apply calm_valid | apply calm_empty | apply calm_valid_dec | apply calm_nai]; first [easy | apply wf_entire | apply vd_entire]].
Lemma g_inter {F} (x y : itv F) : wf x -> wf y -> gives (intersection x y) wf.
Proof. intros Wx Wy. apply g_tight with (1 := intersection_tightest x y Wx Wy). Qed.
Lemma g_hull {F} (x y : itv F) : wf x -> wf y -> gives (convex_hull x y) wf.
Proof. intros Wx Wy. apply g_tight with (1 := hull_tightest x y Wx Wy). Qed.

(** ** Wrappers *)
Lemma gconv_dec {F} T (x : ditv F) : valid_dec x -> gives (convert_hull_dec T x) valid_dec.
Proof.
intros [W D]. destruct (N.eq_dec (snd x) ill) as [E|E].
- rewrite (convert_hull_dec_nai T x W E). apply g_ret, vd_nai.
- pose proof (convert_type_dec_ok T x W E) as (z & d & H1 & _ & H2 & H3 & _).
  assert (H : convert_hull_dec T x = ret (z, d)).
  { apply returns_eq in H1. unfold convert_type_dec in H1. rewrite is_valid_dec_wf in H1 by easy. revert H1. now mreds. }
  rewrite H. apply g_ret. split; [easy|]. cbn [snd]. destruct H3 as [->|[_ ->]]; [easy|]. do 3 right. now left.
Qed.
Lemma g1 {F} (opd : ditv F -> M (ditv F)) op dom f v : decorates1 opd op dom f -> on_nai1 opd v -> valid_dec v ->
  forall x, valid_dec x -> gives (opd x) valid_dec.
Proof.
intros H N V x [W D]. destruct (N.eq_dec (snd x) ill) as [E|E].
- now apply g_returns with (1 := N x W E).
- destruct (H x W D E) as (z & H1 & H2 & H3 & _). now apply g_returns with (1 := H1).
Qed.
Lemma g2 {F} (opd : ditv F -> ditv F -> M (ditv F)) op dom f v : decorates2 opd op dom f -> on_nai2 opd v -> valid_dec v ->
  forall x y, valid_dec x -> valid_dec y -> gives (opd x y) valid_dec.
Proof.
intros H N V x y [W D] [W' D']. destruct (N.eq_dec (snd x) ill) as [E|E]; [|destruct (N.eq_dec (snd y) ill) as [E'|E']].
- apply g_returns with (2 := V). apply N; auto.
- apply g_returns with (2 := V). apply N; auto.
- destruct (H x y W D E W' D' E') as (z & H1 & H2 & H3 & _). now apply g_returns with (1 := H1).
Qed.
Lemma g3 {F} (opd : ditv F -> ditv F -> ditv F -> M (ditv F)) op f v : decorates3 opd op f -> on_nai3 opd v -> valid_dec v ->
  forall x y w, valid_dec x -> valid_dec y -> valid_dec w -> gives (opd x y w) valid_dec.
Proof.
intros H N V x y w [W D] [W' D'] [W'' D'']. destruct (N.eq_dec (snd x) ill) as [E|E]; [|destruct (N.eq_dec (snd y) ill) as [E'|E']];
  [| |destruct (N.eq_dec (snd w) ill) as [E''|E'']].
- apply g_returns with (2 := V). apply N; auto.
- apply g_returns with (2 := V). apply N; auto.
- apply g_returns with (2 := V). apply N; auto.
- destruct (H x y w W D E W' D' E' W'' D'' E'') as (z & H1 & H2 & H3 & _). now apply g_returns with (1 := H1).
Qed.
(** ** Mixed types *)
Section Mixed.
Context (T : fmt).
Lemma g_conv {W} (m : M (itv W)) : gives m wf -> gives (z <- m; ret (convert_hull T z)) wf.
Proof. intros H. apply g_bind with (1 := H). intros z Hz. apply g_ret. now apply wf_convert_hull. Qed.
Lemma g_conv_dec {W} (m : M (ditv W)) : gives m valid_dec -> gives (z <- m; convert_hull_dec T z) valid_dec.
Proof. intros H. apply g_bind with (1 := H). intros z Hz. now apply gconv_dec. Qed.
Lemma mixed1_giv {F} (op : forall W, itv W -> M (itv W)) : (forall W x, wf x -> gives (op W x) wf) ->
  forall x : itv F, wf x -> gives (mixed1 T op x) wf.
Proof. intros H x Wx. apply g_mif; [cond|apply g_ret, wf_empty|]. apply g_conv, H. now apply wf_convert_hull. Qed.
Lemma mixed2_giv {F G} (op : forall W, itv W -> itv W -> M (itv W)) : (forall W x y, wf x -> wf y -> gives (op W x y) wf) ->
  forall (x : itv F) (y : itv G), wf x -> wf y -> gives (mixed2 T op x y) wf.
Proof. intros H x y Wx Wy. apply g_mif; [cond|apply g_ret, wf_empty|]. apply g_conv, H; now apply wf_convert_hull. Qed.
Lemma mixed3_giv {F G H} (op : forall W, itv W -> itv W -> itv W -> M (itv W)) :
  (forall W x y w, wf x -> wf y -> wf w -> gives (op W x y w) wf) ->
  forall (x : itv F) (y : itv G) (w : itv H), wf x -> wf y -> wf w -> gives (mixed3 T op x y w) wf.
Proof. intros E x y w Wx Wy Ww. apply g_mif; [cond|apply g_ret, wf_empty|]. apply g_conv, E; now apply wf_convert_hull. Qed.
Lemma rev_mixed2_giv {F G} (op : forall W, itv W -> itv W -> M (itv W)) : (forall W x y, wf x -> wf y -> gives (op W x y) wf) ->
  forall (x : itv F) (y : itv G), wf x -> wf y -> gives (rev_mixed2 T op x y) wf.
Proof. intros H x y Wx Wy. apply g_mif; [cond|apply g_ret, wf_empty|]. apply g_conv, H; now apply wf_convert_hull. Qed.
Lemma mixed_dec1_giv {F} (op : forall W, ditv W -> M (ditv W)) : (forall W x, valid_dec x -> gives (op W x) valid_dec) ->
  forall x : ditv F, valid_dec x -> gives (mixed_dec1 T op x) valid_dec.
Proof.
intros H x Wx. apply g_mif; [cond|apply g_ret, vd_nai|]. eapply g_bind; [now apply gconv_dec|]. intros x' Hx. cbv beta.
apply g_conv_dec. now apply H.
Qed.
Lemma mixed_dec2_giv {F G} (op : forall W, ditv W -> ditv W -> M (ditv W)) :
  (forall W x y, valid_dec x -> valid_dec y -> gives (op W x y) valid_dec) ->
  forall (x : ditv F) (y : ditv G), valid_dec x -> valid_dec y -> gives (mixed_dec2 T op x y) valid_dec.
Proof.
intros H x y Wx Wy. apply g_mif; [cond|apply g_ret, vd_nai|]. eapply g_bind; [now apply gconv_dec|]. intros x' Hx. cbv beta.
eapply g_bind; [now apply gconv_dec|]. intros y' Hy. cbv beta. apply g_conv_dec. now apply H.
Qed.
Lemma mixed_dec3_giv {F G H} (op : forall W, ditv W -> ditv W -> ditv W -> M (ditv W)) :
  (forall W x y w, valid_dec x -> valid_dec y -> valid_dec w -> gives (op W x y w) valid_dec) ->
  forall (x : ditv F) (y : ditv G) (w : ditv H), valid_dec x -> valid_dec y -> valid_dec w -> gives (mixed_dec3 T op x y w) valid_dec.
Proof.
intros E x y w Wx Wy Ww. apply g_mif; [cond|apply g_ret, vd_nai|]. eapply g_bind; [now apply gconv_dec|]. intros x' Hx. cbv beta.
eapply g_bind; [now apply gconv_dec|]. intros y' Hy. cbv beta.
eapply g_bind; [now apply gconv_dec|]. intros w' Hw. cbv beta. apply g_conv_dec. now apply E.
Qed.
End Mixed.
Lemma g_trv {F} (m : M (itv F)) : gives m wf -> gives (b <- m; ret (b, trv)) valid_dec.
Proof. intros H. apply g_bind with (1 := H). intros z Hz. apply g_ret. now apply vd_trv. Qed.
Lemma rev_dec2_giv {F} (op : itv F -> itv F -> M (itv F)) : (forall c x, wf c -> wf x -> gives (op c x) wf) ->
  forall c x, valid_dec c -> valid_dec x -> gives (rev_dec2 op c x) valid_dec.
Proof. intros H c x Wc Wx. apply g_mif; [cond|apply g_ret, vd_nai|]. apply g_trv, H; now apply vd_wf. Qed.
Lemma rev_mixed_dec2_giv T {F G} (op : itv F -> itv G -> M (itv T)) : (forall c x, wf c -> wf x -> gives (op c x) wf) ->
  forall c x, valid_dec c -> valid_dec x -> gives (rev_mixed_dec2 T op c x) valid_dec.
Proof. intros H c x Wc Wx. apply g_mif; [cond|apply g_ret, vd_nai|]. apply g_trv, H; now apply vd_wf. Qed.


Lemma rev_dec2_one {F} (op : itv F -> itv F -> M (itv F)) (c x : ditv F) : valid_dec c -> valid_dec x -> gives (op (fst c) (fst x)) wf -> gives (rev_dec2 op c x) valid_dec.
Proof. intros Wc Wx H. apply g_mif; [cond|apply g_ret, vd_nai|]. now apply g_trv. Qed.
Lemma rev_mixed_dec2_one T {F G} (op : itv F -> itv G -> M (itv T)) (c : ditv F) (x : ditv G) : valid_dec c -> valid_dec x ->
  gives (op (fst c) (fst x)) wf -> gives (rev_mixed_dec2 T op c x) valid_dec.
Proof. intros Wc Wx H. apply g_mif; [cond|apply g_ret, vd_nai|]. now apply g_trv. Qed.

(** ** Single functions *)
Lemma tan_giv F (x : itv F) : wf x -> gives (tan_itv x) wf.
Proof.
intros W. unfold tan_itv. rewrite is_valid_wf, is_empty_wf by easy. mreds.
destruct (isnan (fst x)) eqn:N; [apply g_ret, wf_empty|]. cbv zeta.
apply g_if; intros E; [apply g_ret, wf_entire|]. destruct (finite_of_width x W N E) as [F1 F2].
apply g_if; intros E'; [apply g_ret, wf_entire|]. apply g_ret. now apply tan_pair.
Qed.
Lemma gives_del {A} (m : M A) (P Q : A -> Prop) : gives m Q -> delivers m P -> gives m P.
Proof. intros (a & H1 & _) H2. exists a. split; [easy|]. exact (H2 (Est 0 0) a _ (H1 (Est 0 0))). Qed.
Lemma tan_dec_giv F (x : ditv F) : valid_dec x -> gives (tan_dec x) valid_dec.
Proof.
intros V. apply gives_del with (2 := tan_dec_del x V) (Q := fun _ => True). destruct V as [W D].
unfold tan_dec. rewrite is_valid_dec_wf, is_nai_wf, is_empty_dec_wf by easy. mreds.
destruct (deq_spec (snd x) ill) as [E|E]; [now apply g_ret|]. cbn [negb andb]. mreds.
destruct (isnan (fst (fst x))) eqn:N; [now apply g_ret|]. cbv zeta.
pose proof (wf_dec_wf x W) as Wb.
apply g_if; intros E1; [now apply g_ret|]. destruct (finite_of_width _ Wb N E1) as [F1 F2].
apply g_if; intros E2; [now apply g_ret|]. destruct (tan_pair _ _ F1 F2 E2) as [N' W'].
rewrite is_common_wf by easy. mreds. now apply g_ret.
Qed.
Lemma sqr_rev_giv F (c x : itv F) : wf c -> wf x -> gives (sqr_rev c x) wf. Proof. intros A B. exact (g_tight _ _ (sqr_rev_tight c x A B)). Qed.
Lemma abs_rev_giv F (c x : itv F) : wf c -> wf x -> gives (abs_rev c x) wf. Proof. intros A B. exact (g_tight _ _ (abs_rev_tight c x A B)). Qed.
Lemma cosh_rev_giv F (c x : itv F) : wf c -> wf x -> gives (cosh_rev c x) wf. Proof. intros A B. exact (g_tight _ _ (cosh_rev_tight c x A B)). Qed.
Lemma mul_rev_giv F (b c x : itv F) : wf b -> wf c -> wf x -> gives (mul_rev b c x) wf.
Proof. intros A B C. destruct (mul_rev_encl b c x A B C) as (z & H1 & H2 & _). now exists z. Qed.

Lemma mul_rev_dec_giv {F} (b c x : ditv F) : valid_dec b -> valid_dec c -> valid_dec x -> gives (mul_rev_dec b c x) valid_dec.
Proof.
intros Wb Wc Wx. unfold mul_rev_dec, rev_dec3. apply g_mif; [cond|apply g_ret, vd_nai|]. apply g_trv, mul_rev_giv; now apply vd_wf.
Qed.
Lemma mul_rev_dec_mixed_giv T {F G H} (b : ditv F) (c : ditv G) (x : ditv H) : valid_dec b -> valid_dec c -> valid_dec x ->
  gives (mul_rev_dec_mixed T b c x) valid_dec.
Proof.
intros Wb Wc Wx. unfold mul_rev_dec_mixed. apply g_mif; [cond|apply g_ret, vd_nai|]. apply g_trv. unfold mul_rev_mixed.
apply vd_wf in Wb, Wc, Wx. apply g_mif; [cond|apply g_ret, wf_empty|]. apply g_conv, mul_rev_giv; now apply wf_convert_hull.
Qed.
Lemma pair_giv {F} (b c : itv F) : wf b -> wf c -> gives (mul_rev_to_pair b c) (fun z => wf (fst z) /\ wf (snd z)).
Proof.
intros Wb Wc. destruct (mul_rev_to_pair_ok b c Wb Wc) as (z1 & z2 & H1 & H2). apply g_returns with (1 := H1).
now apply (bb_wf _ _ _ _ H2).
Qed.
Lemma pair_mixed_giv T {F G} (b : itv F) (c : itv G) : wf b -> wf c ->
  gives (mul_rev_to_pair_mixed T b c) (fun z => wf (fst z) /\ wf (snd z)).
Proof.
intros Wb Wc. unfold mul_rev_to_pair_mixed. cbv zeta. apply g_then; [cond|]. intros _.
eapply g_bind; [apply pair_giv; now apply wf_convert_hull|]. intros p [H1 H2]. apply g_ret. cbn [fst snd].
split; now apply wf_convert_hull.
Qed.
Lemma pair_dec_giv {F} (b c : ditv F) : valid_dec b -> valid_dec c -> gives (mul_rev_to_pair_dec b c) both_valid_dec.
Proof.
intros [Wb Db] [Wc Dc]. destruct (N.eq_dec (snd b) ill) as [E|E]; [|destruct (N.eq_dec (snd c) ill) as [E'|E']].
- eapply g_returns; [apply nai_mul_rev_to_pair_dec; auto|]. split; apply vd_nai.
- eapply g_returns; [apply nai_mul_rev_to_pair_dec; auto|]. split; apply vd_nai.
- destruct (mul_rev_to_pair_dec_ok b c Wb Db E Wc Dc E') as (z & H1 & _ & H2 & H3 & _ & H4 & H5 & _). apply g_returns with (1 := H1).
  split; split; try easy. rewrite H5. right. now left.
Qed.
Lemma pair_dec_mixed_giv T {F G} (b : ditv F) (c : ditv G) : valid_dec b -> valid_dec c ->
  gives (mul_rev_to_pair_dec_mixed T b c) both_valid_dec.
Proof.
intros Wb Wc. unfold mul_rev_to_pair_dec_mixed. cbv zeta. apply g_then; [cond|]. intros _.
eapply g_bind; [now apply gconv_dec|]. intros b' Hb. cbv beta. eapply g_bind; [now apply gconv_dec|]. intros c' Hc. cbv beta.
eapply g_bind; [now apply pair_dec_giv|]. intros p [H1 H2]. cbv beta.
eapply g_bind; [apply gconv_dec, H1|]. intros u Hu. cbv beta. eapply g_bind; [apply gconv_dec, H2|]. intros v Hv. cbv beta.
now apply g_ret.
Qed.
(** ** Bare functions *)
Lemma pos_giv F (x : itv F) : wf x -> gives (pos x) wf. Proof. intros W. exact (g_tight _ _ (pos_tightest x W)). Qed.
Lemma neg_giv F (x : itv F) : wf x -> gives (neg x) wf. Proof. intros W. exact (g_tight _ _ (neg_tightest x W)). Qed.
Lemma recip_giv F (x : itv F) : wf x -> gives (recip x) wf. Proof. intros W. exact (g_tight _ _ (recip_tightest x W)). Qed.
Lemma sqr_giv F (x : itv F) : wf x -> gives (sqr x) wf. Proof. intros W. exact (g_tight _ _ (sqr_tightest x W)). Qed.
Lemma sqrt_giv F (x : itv F) : wf x -> gives (sqrt x) wf. Proof. intros W. exact (g_tight _ _ (sqrt_tightest x W)). Qed.
Lemma abs_giv F (x : itv F) : wf x -> gives (abs x) wf. Proof. intros W. exact (g_tight _ _ (abs_tightest x W)). Qed.
Lemma exp_giv F (x : itv F) : wf x -> gives (exp_itv x) wf. Proof. intros W. exact (g_tight _ _ (exp_tightest x W)). Qed.
Lemma exp2_giv F (x : itv F) : wf x -> gives (exp2_itv x) wf. Proof. intros W. exact (g_tight _ _ (exp2_tightest x W)). Qed.
Lemma exp10_giv F (x : itv F) : wf x -> gives (exp10_itv x) wf. Proof. intros W. exact (g_tight _ _ (exp10_tightest x W)). Qed.
Lemma log_giv F (x : itv F) : wf x -> gives (log_itv x) wf. Proof. intros W. exact (g_tight _ _ (log_tightest x W)). Qed.
Lemma log2_giv F (x : itv F) : wf x -> gives (log2_itv x) wf. Proof. intros W. exact (g_tight _ _ (log2_tightest x W)). Qed.
Lemma log10_giv F (x : itv F) : wf x -> gives (log10_itv x) wf. Proof. intros W. exact (g_tight _ _ (log10_tightest x W)). Qed.
Lemma sin_giv F (x : itv F) : wf x -> gives (sin_itv x) wf. Proof. intros W. exact (g_tight _ _ (sin_tightest x W)). Qed.
Lemma cos_giv F (x : itv F) : wf x -> gives (cos_itv x) wf. Proof. intros W. exact (g_tight _ _ (cos_tightest x W)). Qed.
Lemma asin_giv F (x : itv F) : wf x -> gives (asin_itv x) wf. Proof. intros W. exact (g_tight _ _ (asin_tightest x W)). Qed.
Lemma acos_giv F (x : itv F) : wf x -> gives (acos_itv x) wf. Proof. intros W. exact (g_tight _ _ (acos_tightest x W)). Qed.
Lemma atan_giv F (x : itv F) : wf x -> gives (atan_itv x) wf. Proof. intros W. exact (g_tight _ _ (atan_tightest x W)). Qed.
Lemma sinh_giv F (x : itv F) : wf x -> gives (sinh_itv x) wf. Proof. intros W. exact (g_tight _ _ (sinh_tightest x W)). Qed.
Lemma cosh_giv F (x : itv F) : wf x -> gives (cosh_itv x) wf. Proof. intros W. exact (g_tight _ _ (cosh_tightest x W)). Qed.
Lemma tanh_giv F (x : itv F) : wf x -> gives (tanh_itv x) wf. Proof. intros W. exact (g_tight _ _ (tanh_tightest x W)). Qed.
Lemma asinh_giv F (x : itv F) : wf x -> gives (asinh_itv x) wf. Proof. intros W. exact (g_tight _ _ (asinh_tightest x W)). Qed.
Lemma acosh_giv F (x : itv F) : wf x -> gives (acosh_itv x) wf. Proof. intros W. exact (g_tight _ _ (acosh_tightest x W)). Qed.
Lemma atanh_giv F (x : itv F) : wf x -> gives (atanh_itv x) wf. Proof. intros W. exact (g_tight _ _ (atanh_tightest x W)). Qed.
Lemma sign_giv F (x : itv F) : wf x -> gives (sign_itv x) wf. Proof. intros W. exact (g_tight _ _ (sign_tightest x W)). Qed.
Lemma ceil_giv F (x : itv F) : wf x -> gives (ceil_itv x) wf. Proof. intros W. exact (g_tight _ _ (ceil_tightest x W)). Qed.
Lemma floor_giv F (x : itv F) : wf x -> gives (floor_itv x) wf. Proof. intros W. exact (g_tight _ _ (floor_tightest x W)). Qed.
Lemma trunc_giv F (x : itv F) : wf x -> gives (trunc_itv x) wf. Proof. intros W. exact (g_tight _ _ (trunc_tightest x W)). Qed.
Lemma rte_giv F (x : itv F) : wf x -> gives (round_ties_to_even_itv x) wf. Proof. intros W. exact (g_tight _ _ (rte_tightest x W)). Qed.
Lemma rta_giv F (x : itv F) : wf x -> gives (round_ties_to_away_itv x) wf. Proof. intros W. exact (g_tight _ _ (rta_tightest x W)). Qed.
Lemma pown_giv F p (x : itv F) : wf x -> gives (pown x p) wf. Proof. intros W. exact (g_tight _ _ (pown_tightest x p W)). Qed.
Lemma add_giv F (x y : itv F) : wf x -> wf y -> gives (add x y) wf. Proof. intros W V. exact (g_tight _ _ (add_tightest x y W V)). Qed.
Lemma sub_giv F (x y : itv F) : wf x -> wf y -> gives (sub x y) wf. Proof. intros W V. exact (g_tight _ _ (sub_tightest x y W V)). Qed.
Lemma mul_giv F (x y : itv F) : wf x -> wf y -> gives (mul x y) wf. Proof. intros W V. exact (g_tight _ _ (mul_tightest x y W V)). Qed.
Lemma div_giv F (x y : itv F) : wf x -> wf y -> gives (div x y) wf. Proof. intros W V. exact (g_tight _ _ (div_tightest x y W V)). Qed.
Lemma min_giv F (x y : itv F) : wf x -> wf y -> gives (min x y) wf. Proof. intros W V. exact (g_tight _ _ (min_tightest x y W V)). Qed.
Lemma max_giv F (x y : itv F) : wf x -> wf y -> gives (max x y) wf. Proof. intros W V. exact (g_tight _ _ (max_tightest x y W V)). Qed.
Lemma pow_giv F (x y : itv F) : wf x -> wf y -> gives (pow x y) wf. Proof. intros W V. exact (g_tight _ _ (pow_tightest x y W V)). Qed.
Lemma atan2_giv F (x y : itv F) : wf x -> wf y -> gives (atan2_itv x y) wf. Proof. intros W V. exact (g_tight _ _ (atan2_tightest x y W V)). Qed.
Lemma intersection_giv F (x y : itv F) : wf x -> wf y -> gives (intersection x y) wf. Proof. intros; now apply g_inter. Qed.
Lemma convex_hull_giv F (x y : itv F) : wf x -> wf y -> gives (convex_hull x y) wf. Proof. intros; now apply g_hull. Qed.
Lemma fma_giv F (x y w : itv F) : wf x -> wf y -> wf w -> gives (fma x y w) wf. Proof. intros A B C. exact (g_tight _ _ (fma_tightest x y w A B C)). Qed.

Lemma un0_giv F T f : un0 F T f -> forall x, wf x -> gives (f x) wf.
Proof.
destruct 1; intros x W.
- now apply pos_giv.
- unfold pos_mixed. apply g_mif; [cond|apply g_ret, wf_empty|]. apply g_ret. now apply wf_convert_hull.
- now apply neg_giv.
- unfold neg_mixed. apply g_mif; [cond|apply g_ret, wf_empty|]. apply g_conv. now apply neg_giv.
- now apply recip_giv.
- apply (mixed1_giv T (@recip)); [|easy]. intros V y Wy. now apply recip_giv.
- now apply sqr_giv.
- apply (mixed1_giv T (@sqr)); [|easy]. intros V y Wy. now apply sqr_giv.
- now apply sqrt_giv.
- apply (mixed1_giv T (@sqrt)); [|easy]. intros V y Wy. now apply sqrt_giv.
- now apply abs_giv.
- apply (mixed1_giv T (@abs)); [|easy]. intros V y Wy. now apply abs_giv.
- now apply exp_giv.
- apply (mixed1_giv T (@exp_itv)); [|easy]. intros V y Wy. now apply exp_giv.
- now apply exp2_giv.
- apply (mixed1_giv T (@exp2_itv)); [|easy]. intros V y Wy. now apply exp2_giv.
- now apply exp10_giv.
- apply (mixed1_giv T (@exp10_itv)); [|easy]. intros V y Wy. now apply exp10_giv.
- now apply log_giv.
- apply (mixed1_giv T (@log_itv)); [|easy]. intros V y Wy. now apply log_giv.
- now apply log2_giv.
- apply (mixed1_giv T (@log2_itv)); [|easy]. intros V y Wy. now apply log2_giv.
- now apply log10_giv.
- apply (mixed1_giv T (@log10_itv)); [|easy]. intros V y Wy. now apply log10_giv.
- now apply sin_giv.
- apply (mixed1_giv T (@sin_itv)); [|easy]. intros V y Wy. now apply sin_giv.
- now apply cos_giv.
- apply (mixed1_giv T (@cos_itv)); [|easy]. intros V y Wy. now apply cos_giv.
- now apply tan_giv.
- apply (mixed1_giv T (@tan_itv)); [|easy]. intros V y Wy. now apply tan_giv.
- now apply asin_giv.
- apply (mixed1_giv T (@asin_itv)); [|easy]. intros V y Wy. now apply asin_giv.
- now apply acos_giv.
- apply (mixed1_giv T (@acos_itv)); [|easy]. intros V y Wy. now apply acos_giv.
- now apply atan_giv.
- apply (mixed1_giv T (@atan_itv)); [|easy]. intros V y Wy. now apply atan_giv.
- now apply sinh_giv.
- apply (mixed1_giv T (@sinh_itv)); [|easy]. intros V y Wy. now apply sinh_giv.
- now apply cosh_giv.
- apply (mixed1_giv T (@cosh_itv)); [|easy]. intros V y Wy. now apply cosh_giv.
- now apply tanh_giv.
- apply (mixed1_giv T (@tanh_itv)); [|easy]. intros V y Wy. now apply tanh_giv.
- now apply asinh_giv.
- apply (mixed1_giv T (@asinh_itv)); [|easy]. intros V y Wy. now apply asinh_giv.
- now apply acosh_giv.
- apply (mixed1_giv T (@acosh_itv)); [|easy]. intros V y Wy. now apply acosh_giv.
- now apply atanh_giv.
- apply (mixed1_giv T (@atanh_itv)); [|easy]. intros V y Wy. now apply atanh_giv.
- now apply sign_giv.
- apply (mixed1_giv T (@sign_itv)); [|easy]. intros V y Wy. now apply sign_giv.
- now apply ceil_giv.
- apply (mixed1_giv T (@ceil_itv)); [|easy]. intros V y Wy. now apply ceil_giv.
- now apply floor_giv.
- apply (mixed1_giv T (@floor_itv)); [|easy]. intros V y Wy. now apply floor_giv.
- now apply trunc_giv.
- apply (mixed1_giv T (@trunc_itv)); [|easy]. intros V y Wy. now apply trunc_giv.
- now apply rte_giv.
- apply (mixed1_giv T (@round_ties_to_even_itv)); [|easy]. intros V y Wy. now apply rte_giv.
- now apply rta_giv.
- apply (mixed1_giv T (@round_ties_to_away_itv)); [|easy]. intros V y Wy. now apply rta_giv.
- now apply pown_giv.
- apply (mixed1_giv T (fun V v => @pown V v p)); [|easy]. intros V y Wy. now apply pown_giv.
- unfold copy. apply g_mif; [cond|apply g_ret, wf_empty|now apply g_ret].
- unfold convert_type. apply g_mif; [cond|apply g_ret, wf_empty|]. apply g_ret. now apply wf_convert_hull.
- apply sqr_rev_giv; [easy|apply wf_entire].
- apply abs_rev_giv; [easy|apply wf_entire].
- apply cosh_rev_giv; [easy|apply wf_entire].
- apply sin_rev_total; [easy|apply wf_entire|apply modest_entire].
- apply cos_rev_total; [easy|apply wf_entire|apply modest_entire].
- apply tan_rev_total; [easy|apply wf_entire|apply modest_entire].
- apply (rev_mixed2_giv T (@sqr_rev)); [|easy|apply wf_entire]. intros V a b Wa Wb. now apply sqr_rev_giv.
- apply (rev_mixed2_giv T (@abs_rev)); [|easy|apply wf_entire]. intros V a b Wa Wb. now apply abs_rev_giv.
- apply (rev_mixed2_giv T (@cosh_rev)); [|easy|apply wf_entire]. intros V a b Wa Wb. now apply cosh_rev_giv.
- apply (trig_mixed1_total T (@sin_rev)); [easy|]. intros V a b Wa Wb. now apply sin_rev_total.
- apply (trig_mixed1_total T (@cos_rev)); [easy|]. intros V a b Wa Wb. now apply cos_rev_total.
- apply (trig_mixed1_total T (@tan_rev)); [easy|]. intros V a b Wa Wb. now apply tan_rev_total.
Qed.
Lemma bin0_giv F G T f : bin0 F G T f -> forall x y, wf x -> wf y -> gives (f x y) wf.
Proof.
destruct 1; intros x y Wx Wy.
- now apply add_giv.
- apply (mixed2_giv T (@add)); [|easy..]. intros V a b Wa Wb. now apply add_giv.
- now apply sub_giv.
- apply (mixed2_giv T (@sub)); [|easy..]. intros V a b Wa Wb. now apply sub_giv.
- now apply mul_giv.
- apply (mixed2_giv T (@mul)); [|easy..]. intros V a b Wa Wb. now apply mul_giv.
- now apply div_giv.
- apply (mixed2_giv T (@div)); [|easy..]. intros V a b Wa Wb. now apply div_giv.
- now apply min_giv.
- apply (mixed2_giv T (@min)); [|easy..]. intros V a b Wa Wb. now apply min_giv.
- now apply max_giv.
- apply (mixed2_giv T (@max)); [|easy..]. intros V a b Wa Wb. now apply max_giv.
- now apply pow_giv.
- apply (mixed2_giv T (@pow)); [|easy..]. intros V a b Wa Wb. now apply pow_giv.
- now apply atan2_giv.
- apply (mixed2_giv T (@atan2_itv)); [|easy..]. intros V a b Wa Wb. now apply atan2_giv.
- now apply intersection_giv.
- apply (mixed2_giv T (@intersection)); [|easy..]. intros V a b Wa Wb. now apply intersection_giv.
- now apply convex_hull_giv.
- apply (mixed2_giv T (@convex_hull)); [|easy..]. intros V a b Wa Wb. now apply convex_hull_giv.
- now apply sqr_rev_giv.
- apply (rev_mixed2_giv T (@sqr_rev)); [|easy..]. intros V a b Wa Wb. now apply sqr_rev_giv.
- now apply abs_rev_giv.
- apply (rev_mixed2_giv T (@abs_rev)); [|easy..]. intros V a b Wa Wb. now apply abs_rev_giv.
- now apply cosh_rev_giv.
- apply (rev_mixed2_giv T (@cosh_rev)); [|easy..]. intros V a b Wa Wb. now apply cosh_rev_giv.
- apply mul_rev_giv; [easy|easy|apply wf_entire].
- apply (mixed3_giv T (@mul_rev)); [|easy|easy|apply wf_entire]. intros V a b c Wa Wb Wc. now apply mul_rev_giv.
Qed.
Lemma bint_giv F G T f : bint F G T f -> comparable T F -> comparable T G -> comparable F G ->
  forall x y, modest (prec G) y -> wf x -> wf y -> gives (f x y) wf.
Proof.
destruct 1; intros C1 C2 C3 x y MM Wx Wy.
- apply sin_rev_total; try easy.
- apply (trig_mixed_total T (@sin_rev)); try easy. intros V a b Wa Wb. now apply sin_rev_total.
- apply cos_rev_total; try easy.
- apply (trig_mixed_total T (@cos_rev)); try easy. intros V a b Wa Wb. now apply cos_rev_total.
- apply tan_rev_total; try easy.
- apply (trig_mixed_total T (@tan_rev)); try easy. intros V a b Wa Wb. now apply tan_rev_total.
Qed.
Lemma tern_giv F G H T f : tern F G H T f -> forall x y w, wf x -> wf y -> wf w -> gives (f x y w) wf.
Proof.
destruct 1; intros x y w Wx Wy Ww.
- now apply fma_giv.
- apply (mixed3_giv T (@fma)); [|easy..]. intros V a b c Wa Wb Wc. now apply fma_giv.
- now apply mul_rev_giv.
- apply (mixed3_giv T (@mul_rev)); [|easy..]. intros V a b c Wa Wb Wc. now apply mul_rev_giv.
Qed.
Lemma two_giv F G T f : two F G T f -> forall x y, wf x -> wf y -> gives (f x y) (fun z => wf (fst z) /\ wf (snd z)).
Proof. destruct 1; intros x y Wx Wy; [now apply pair_giv|now apply pair_mixed_giv]. Qed.

(** ** Decorated functions *)
Lemma pos_dec_giv F (x : ditv F) : valid_dec x -> gives (pos_dec x) valid_dec. Proof. exact (g1 _ _ _ _ _ (@pos_decorates F) (nai_pos_dec F) vd_nai x). Qed.
Lemma neg_dec_giv F (x : ditv F) : valid_dec x -> gives (neg_dec x) valid_dec. Proof. exact (g1 _ _ _ _ _ (@neg_decorates F) (nai_neg_dec F) vd_nai x). Qed.
Lemma recip_dec_giv F (x : ditv F) : valid_dec x -> gives (recip_dec x) valid_dec. Proof. exact (g1 _ _ _ _ _ (@recip_decorates F) (nai_recip_dec F) vd_nai x). Qed.
Lemma sqr_dec_giv F (x : ditv F) : valid_dec x -> gives (sqr_dec x) valid_dec. Proof. exact (g1 _ _ _ _ _ (@sqr_decorates F) (nai_sqr_dec F) vd_nai x). Qed.
Lemma sqrt_dec_giv F (x : ditv F) : valid_dec x -> gives (sqrt_dec x) valid_dec. Proof. exact (g1 _ _ _ _ _ (@sqrt_decorates F) (nai_sqrt_dec F) vd_nai x). Qed.
Lemma abs_dec_giv F (x : ditv F) : valid_dec x -> gives (abs_dec x) valid_dec. Proof. exact (g1 _ _ _ _ _ (@abs_decorates F) (nai_abs_dec F) vd_nai x). Qed.
Lemma exp_dec_giv F (x : ditv F) : valid_dec x -> gives (exp_dec x) valid_dec. Proof. exact (g1 _ _ _ _ _ (@exp_decorates F) (nai_exp_dec F) vd_nai x). Qed.
Lemma exp2_dec_giv F (x : ditv F) : valid_dec x -> gives (exp2_dec x) valid_dec. Proof. exact (g1 _ _ _ _ _ (@exp2_decorates F) (nai_exp2_dec F) vd_nai x). Qed.
Lemma exp10_dec_giv F (x : ditv F) : valid_dec x -> gives (exp10_dec x) valid_dec. Proof. exact (g1 _ _ _ _ _ (@exp10_decorates F) (nai_exp10_dec F) vd_nai x). Qed.
Lemma log_dec_giv F (x : ditv F) : valid_dec x -> gives (log_dec x) valid_dec. Proof. exact (g1 _ _ _ _ _ (@log_decorates F) (nai_log_dec F) vd_nai x). Qed.
Lemma log2_dec_giv F (x : ditv F) : valid_dec x -> gives (log2_dec x) valid_dec. Proof. exact (g1 _ _ _ _ _ (@log2_decorates F) (nai_log2_dec F) vd_nai x). Qed.
Lemma log10_dec_giv F (x : ditv F) : valid_dec x -> gives (log10_dec x) valid_dec. Proof. exact (g1 _ _ _ _ _ (@log10_decorates F) (nai_log10_dec F) vd_nai x). Qed.
Lemma sin_dec_giv F (x : ditv F) : valid_dec x -> gives (sin_dec x) valid_dec. Proof. exact (g1 _ _ _ _ _ (@sin_decorates F) (nai_sin_dec F) vd_nai x). Qed.
Lemma cos_dec_giv F (x : ditv F) : valid_dec x -> gives (cos_dec x) valid_dec. Proof. exact (g1 _ _ _ _ _ (@cos_decorates F) (nai_cos_dec F) vd_nai x). Qed.
Lemma asin_dec_giv F (x : ditv F) : valid_dec x -> gives (asin_dec x) valid_dec. Proof. exact (g1 _ _ _ _ _ (@asin_decorates F) (nai_asin_dec F) vd_nai x). Qed.
Lemma acos_dec_giv F (x : ditv F) : valid_dec x -> gives (acos_dec x) valid_dec. Proof. exact (g1 _ _ _ _ _ (@acos_decorates F) (nai_acos_dec F) vd_nai x). Qed.
Lemma atan_dec_giv F (x : ditv F) : valid_dec x -> gives (atan_dec x) valid_dec. Proof. exact (g1 _ _ _ _ _ (@atan_decorates F) (nai_atan_dec F) vd_nai x). Qed.
Lemma sinh_dec_giv F (x : ditv F) : valid_dec x -> gives (sinh_dec x) valid_dec. Proof. exact (g1 _ _ _ _ _ (@sinh_decorates F) (nai_sinh_dec F) vd_nai x). Qed.
Lemma cosh_dec_giv F (x : ditv F) : valid_dec x -> gives (cosh_dec x) valid_dec. Proof. exact (g1 _ _ _ _ _ (@cosh_decorates F) (nai_cosh_dec F) vd_nai x). Qed.
Lemma tanh_dec_giv F (x : ditv F) : valid_dec x -> gives (tanh_dec x) valid_dec. Proof. exact (g1 _ _ _ _ _ (@tanh_decorates F) (nai_tanh_dec F) vd_nai x). Qed.
Lemma asinh_dec_giv F (x : ditv F) : valid_dec x -> gives (asinh_dec x) valid_dec. Proof. exact (g1 _ _ _ _ _ (@asinh_decorates F) (nai_asinh_dec F) vd_nai x). Qed.
Lemma acosh_dec_giv F (x : ditv F) : valid_dec x -> gives (acosh_dec x) valid_dec. Proof. exact (g1 _ _ _ _ _ (@acosh_decorates F) (nai_acosh_dec F) vd_nai x). Qed.
Lemma atanh_dec_giv F (x : ditv F) : valid_dec x -> gives (atanh_dec x) valid_dec. Proof. exact (g1 _ _ _ _ _ (@atanh_decorates F) (nai_atanh_dec F) vd_nai x). Qed.
Lemma sign_dec_giv F (x : ditv F) : valid_dec x -> gives (sign_dec x) valid_dec. Proof. exact (g1 _ _ _ _ _ (@sign_decorates F) (nai_sign_dec F) vd_nai x). Qed.
Lemma ceil_dec_giv F (x : ditv F) : valid_dec x -> gives (ceil_dec x) valid_dec. Proof. exact (g1 _ _ _ _ _ (@ceil_decorates F) (nai_ceil_dec F) vd_nai x). Qed.
Lemma floor_dec_giv F (x : ditv F) : valid_dec x -> gives (floor_dec x) valid_dec. Proof. exact (g1 _ _ _ _ _ (@floor_decorates F) (nai_floor_dec F) vd_nai x). Qed.
Lemma trunc_dec_giv F (x : ditv F) : valid_dec x -> gives (trunc_dec x) valid_dec. Proof. exact (g1 _ _ _ _ _ (@trunc_decorates F) (nai_trunc_dec F) vd_nai x). Qed.
Lemma rte_dec_giv F (x : ditv F) : valid_dec x -> gives (round_ties_to_even_dec x) valid_dec. Proof. exact (g1 _ _ _ _ _ (@rte_decorates F) (nai_round_ties_to_even_dec F) vd_nai x). Qed.
Lemma rta_dec_giv F (x : ditv F) : valid_dec x -> gives (round_ties_to_away_dec x) valid_dec. Proof. exact (g1 _ _ _ _ _ (@rta_decorates F) (nai_round_ties_to_away_dec F) vd_nai x). Qed.
Lemma pown_dec_giv F p (x : ditv F) : valid_dec x -> gives (pown_dec x p) valid_dec. Proof. exact (g1 _ _ _ _ _ (@pown_decorates F p) (nai_pown_dec F p) vd_nai x). Qed.
Lemma add_dec_giv F (x y : ditv F) : valid_dec x -> valid_dec y -> gives (add_dec x y) valid_dec. Proof. exact (g2 _ _ _ _ _ (@add_decorates F) (nai_add_dec F) vd_nai x y). Qed.
Lemma sub_dec_giv F (x y : ditv F) : valid_dec x -> valid_dec y -> gives (sub_dec x y) valid_dec. Proof. exact (g2 _ _ _ _ _ (@sub_decorates F) (nai_sub_dec F) vd_nai x y). Qed.
Lemma mul_dec_giv F (x y : ditv F) : valid_dec x -> valid_dec y -> gives (mul_dec x y) valid_dec. Proof. exact (g2 _ _ _ _ _ (@mul_decorates F) (nai_mul_dec F) vd_nai x y). Qed.
Lemma div_dec_giv F (x y : ditv F) : valid_dec x -> valid_dec y -> gives (div_dec x y) valid_dec. Proof. exact (g2 _ _ _ _ _ (@div_decorates F) (nai_div_dec F) vd_nai x y). Qed.
Lemma min_dec_giv F (x y : ditv F) : valid_dec x -> valid_dec y -> gives (min_dec x y) valid_dec. Proof. exact (g2 _ _ _ _ _ (@min_decorates F) (nai_min_dec F) vd_nai x y). Qed.
Lemma max_dec_giv F (x y : ditv F) : valid_dec x -> valid_dec y -> gives (max_dec x y) valid_dec. Proof. exact (g2 _ _ _ _ _ (@max_decorates F) (nai_max_dec F) vd_nai x y). Qed.
Lemma pow_dec_giv F (x y : ditv F) : valid_dec x -> valid_dec y -> gives (pow_dec x y) valid_dec. Proof. exact (g2 _ _ _ _ _ (@pow_decorates F) (nai_pow_dec F) vd_nai x y). Qed.
Lemma atan2_dec_giv F (x y : ditv F) : valid_dec x -> valid_dec y -> gives (atan2_dec x y) valid_dec. Proof. exact (g2 _ _ _ _ _ (@atan2_decorates F) (nai_atan2_dec F) vd_nai x y). Qed.
Lemma intersection_dec_giv F (x y : ditv F) : valid_dec x -> valid_dec y -> gives (intersection_dec x y) valid_dec.
Proof. intros Wx Wy. unfold intersection_dec. apply g_mif; [cond|apply g_ret, vd_nai|]. apply g_trv, g_inter; now apply vd_wf. Qed.
Lemma convex_hull_dec_giv F (x y : ditv F) : valid_dec x -> valid_dec y -> gives (convex_hull_dec x y) valid_dec.
Proof. intros Wx Wy. unfold convex_hull_dec. apply g_mif; [cond|apply g_ret, vd_nai|]. apply g_trv, g_hull; now apply vd_wf. Qed.
Lemma fma_dec_giv F (x y w : ditv F) : valid_dec x -> valid_dec y -> valid_dec w -> gives (fma_dec x y w) valid_dec.
Proof. exact (g3 _ _ _ _ (@fma_decorates F) (nai_fma_dec F) vd_nai x y w). Qed.

Lemma sqr_rev_dec_giv F (c x : ditv F) : valid_dec c -> valid_dec x -> gives (sqr_rev_dec c x) valid_dec. Proof. apply rev_dec2_giv. intros; now apply sqr_rev_giv. Qed.
Lemma abs_rev_dec_giv F (c x : ditv F) : valid_dec c -> valid_dec x -> gives (abs_rev_dec c x) valid_dec. Proof. apply rev_dec2_giv. intros; now apply abs_rev_giv. Qed.
Lemma cosh_rev_dec_giv F (c x : ditv F) : valid_dec c -> valid_dec x -> gives (cosh_rev_dec c x) valid_dec. Proof. apply rev_dec2_giv. intros; now apply cosh_rev_giv. Qed.
Lemma dun0_giv F T f : dun0 F T f -> forall x, valid_dec x -> gives (f x) valid_dec.
Proof.
destruct 1; intros x W.
- now apply pos_dec_giv.
- unfold pos_dec_mixed. apply g_mif; [cond|apply g_ret, vd_nai|]. now apply gconv_dec.
- now apply neg_dec_giv.
- unfold neg_dec_mixed. apply g_mif; [cond|apply g_ret, vd_nai|]. apply g_conv_dec. now apply neg_dec_giv.
- now apply recip_dec_giv.
- apply (mixed_dec1_giv T (@recip_dec)); [|easy]. intros V y Wy. now apply recip_dec_giv.
- now apply sqr_dec_giv.
- apply (mixed_dec1_giv T (@sqr_dec)); [|easy]. intros V y Wy. now apply sqr_dec_giv.
- now apply sqrt_dec_giv.
- apply (mixed_dec1_giv T (@sqrt_dec)); [|easy]. intros V y Wy. now apply sqrt_dec_giv.
- now apply abs_dec_giv.
- apply (mixed_dec1_giv T (@abs_dec)); [|easy]. intros V y Wy. now apply abs_dec_giv.
- now apply exp_dec_giv.
- apply (mixed_dec1_giv T (@exp_dec)); [|easy]. intros V y Wy. now apply exp_dec_giv.
- now apply exp2_dec_giv.
- apply (mixed_dec1_giv T (@exp2_dec)); [|easy]. intros V y Wy. now apply exp2_dec_giv.
- now apply exp10_dec_giv.
- apply (mixed_dec1_giv T (@exp10_dec)); [|easy]. intros V y Wy. now apply exp10_dec_giv.
- now apply log_dec_giv.
- apply (mixed_dec1_giv T (@log_dec)); [|easy]. intros V y Wy. now apply log_dec_giv.
- now apply log2_dec_giv.
- apply (mixed_dec1_giv T (@log2_dec)); [|easy]. intros V y Wy. now apply log2_dec_giv.
- now apply log10_dec_giv.
- apply (mixed_dec1_giv T (@log10_dec)); [|easy]. intros V y Wy. now apply log10_dec_giv.
- now apply sin_dec_giv.
- apply (mixed_dec1_giv T (@sin_dec)); [|easy]. intros V y Wy. now apply sin_dec_giv.
- now apply cos_dec_giv.
- apply (mixed_dec1_giv T (@cos_dec)); [|easy]. intros V y Wy. now apply cos_dec_giv.
- now apply tan_dec_giv.
- apply (mixed_dec1_giv T (@tan_dec)); [|easy]. intros V y Wy. now apply tan_dec_giv.
- now apply asin_dec_giv.
- apply (mixed_dec1_giv T (@asin_dec)); [|easy]. intros V y Wy. now apply asin_dec_giv.
- now apply acos_dec_giv.
- apply (mixed_dec1_giv T (@acos_dec)); [|easy]. intros V y Wy. now apply acos_dec_giv.
- now apply atan_dec_giv.
- apply (mixed_dec1_giv T (@atan_dec)); [|easy]. intros V y Wy. now apply atan_dec_giv.
- now apply sinh_dec_giv.
- apply (mixed_dec1_giv T (@sinh_dec)); [|easy]. intros V y Wy. now apply sinh_dec_giv.
- now apply cosh_dec_giv.
- apply (mixed_dec1_giv T (@cosh_dec)); [|easy]. intros V y Wy. now apply cosh_dec_giv.
- now apply tanh_dec_giv.
- apply (mixed_dec1_giv T (@tanh_dec)); [|easy]. intros V y Wy. now apply tanh_dec_giv.
- now apply asinh_dec_giv.
- apply (mixed_dec1_giv T (@asinh_dec)); [|easy]. intros V y Wy. now apply asinh_dec_giv.
- now apply acosh_dec_giv.
- apply (mixed_dec1_giv T (@acosh_dec)); [|easy]. intros V y Wy. now apply acosh_dec_giv.
- now apply atanh_dec_giv.
- apply (mixed_dec1_giv T (@atanh_dec)); [|easy]. intros V y Wy. now apply atanh_dec_giv.
- now apply sign_dec_giv.
- apply (mixed_dec1_giv T (@sign_dec)); [|easy]. intros V y Wy. now apply sign_dec_giv.
- now apply ceil_dec_giv.
- apply (mixed_dec1_giv T (@ceil_dec)); [|easy]. intros V y Wy. now apply ceil_dec_giv.
- now apply floor_dec_giv.
- apply (mixed_dec1_giv T (@floor_dec)); [|easy]. intros V y Wy. now apply floor_dec_giv.
- now apply trunc_dec_giv.
- apply (mixed_dec1_giv T (@trunc_dec)); [|easy]. intros V y Wy. now apply trunc_dec_giv.
- now apply rte_dec_giv.
- apply (mixed_dec1_giv T (@round_ties_to_even_dec)); [|easy]. intros V y Wy. now apply rte_dec_giv.
- now apply rta_dec_giv.
- apply (mixed_dec1_giv T (@round_ties_to_away_dec)); [|easy]. intros V y Wy. now apply rta_dec_giv.
- now apply pown_dec_giv.
- apply (mixed_dec1_giv T (fun V v => @pown_dec V v p)); [|easy]. intros V y Wy. now apply pown_dec_giv.
- unfold copy_dec. apply g_mif; [cond|apply g_ret, vd_nai|now apply g_ret].
- unfold convert_type_dec. apply g_mif; [cond|apply g_ret, vd_nai|]. now apply gconv_dec.
- apply sqr_rev_dec_giv; [easy|apply vd_entire].
- apply abs_rev_dec_giv; [easy|apply vd_entire].
- apply cosh_rev_dec_giv; [easy|apply vd_entire].
- apply rev_dec2_one; [easy|apply vd_entire|]. apply sin_rev_total; [now apply vd_wf|apply wf_entire|apply modest_entire].
- apply rev_dec2_one; [easy|apply vd_entire|]. apply cos_rev_total; [now apply vd_wf|apply wf_entire|apply modest_entire].
- apply rev_dec2_one; [easy|apply vd_entire|]. apply tan_rev_total; [now apply vd_wf|apply wf_entire|apply modest_entire].
- apply rev_mixed_dec2_giv; [|easy|apply vd_entire]. intros a b Wa Wb. apply (rev_mixed2_giv T (@sqr_rev)); try easy. intros V; intros. now apply sqr_rev_giv.
- apply rev_mixed_dec2_giv; [|easy|apply vd_entire]. intros a b Wa Wb. apply (rev_mixed2_giv T (@abs_rev)); try easy. intros V; intros. now apply abs_rev_giv.
- apply rev_mixed_dec2_giv; [|easy|apply vd_entire]. intros a b Wa Wb. apply (rev_mixed2_giv T (@cosh_rev)); try easy. intros V; intros. now apply cosh_rev_giv.
- apply rev_mixed_dec2_one; [easy|apply vd_entire|]. apply (trig_mixed1_total T (@sin_rev)); [now apply vd_wf|]. intros V a b Wa Wb. now apply sin_rev_total.
- apply rev_mixed_dec2_one; [easy|apply vd_entire|]. apply (trig_mixed1_total T (@cos_rev)); [now apply vd_wf|]. intros V a b Wa Wb. now apply cos_rev_total.
- apply rev_mixed_dec2_one; [easy|apply vd_entire|]. apply (trig_mixed1_total T (@tan_rev)); [now apply vd_wf|]. intros V a b Wa Wb. now apply tan_rev_total.
Qed.
Lemma dbin0_giv F G T f : dbin0 F G T f -> forall x y, valid_dec x -> valid_dec y -> gives (f x y) valid_dec.
Proof.
destruct 1; intros x y Wx Wy.
- now apply add_dec_giv.
- apply (mixed_dec2_giv T (@add_dec)); [|easy..]. intros V a b Wa Wb. now apply add_dec_giv.
- now apply sub_dec_giv.
- apply (mixed_dec2_giv T (@sub_dec)); [|easy..]. intros V a b Wa Wb. now apply sub_dec_giv.
- now apply mul_dec_giv.
- apply (mixed_dec2_giv T (@mul_dec)); [|easy..]. intros V a b Wa Wb. now apply mul_dec_giv.
- now apply div_dec_giv.
- apply (mixed_dec2_giv T (@div_dec)); [|easy..]. intros V a b Wa Wb. now apply div_dec_giv.
- now apply min_dec_giv.
- apply (mixed_dec2_giv T (@min_dec)); [|easy..]. intros V a b Wa Wb. now apply min_dec_giv.
- now apply max_dec_giv.
- apply (mixed_dec2_giv T (@max_dec)); [|easy..]. intros V a b Wa Wb. now apply max_dec_giv.
- now apply pow_dec_giv.
- apply (mixed_dec2_giv T (@pow_dec)); [|easy..]. intros V a b Wa Wb. now apply pow_dec_giv.
- now apply atan2_dec_giv.
- apply (mixed_dec2_giv T (@atan2_dec)); [|easy..]. intros V a b Wa Wb. now apply atan2_dec_giv.
- now apply intersection_dec_giv.
- apply (mixed_dec2_giv T (@intersection_dec)); [|easy..]. intros V a b Wa Wb. now apply intersection_dec_giv.
- now apply convex_hull_dec_giv.
- apply (mixed_dec2_giv T (@convex_hull_dec)); [|easy..]. intros V a b Wa Wb. now apply convex_hull_dec_giv.
- now apply sqr_rev_dec_giv.
- apply rev_mixed_dec2_giv; [|easy..]. intros a b Wa Wb. apply (rev_mixed2_giv T (@sqr_rev)); try easy. intros V; intros. now apply sqr_rev_giv.
- now apply abs_rev_dec_giv.
- apply rev_mixed_dec2_giv; [|easy..]. intros a b Wa Wb. apply (rev_mixed2_giv T (@abs_rev)); try easy. intros V; intros. now apply abs_rev_giv.
- now apply cosh_rev_dec_giv.
- apply rev_mixed_dec2_giv; [|easy..]. intros a b Wa Wb. apply (rev_mixed2_giv T (@cosh_rev)); try easy. intros V; intros. now apply cosh_rev_giv.
- apply mul_rev_dec_giv; [easy|easy|apply vd_entire].
- apply mul_rev_dec_mixed_giv; [easy|easy|apply vd_entire].
Qed.
Lemma dbint_giv F G T f : dbint F G T f -> comparable T F -> comparable T G -> comparable F G ->
  forall x y, modest (prec G) (fst y) -> valid_dec x -> valid_dec y -> gives (f x y) valid_dec.
Proof.
destruct 1; intros C1 C2 C3 x y MM Wx Wy.
- apply rev_dec2_one; try easy. apply sin_rev_total; try easy; now apply vd_wf.
- apply rev_mixed_dec2_one; try easy. apply (trig_mixed_total T (@sin_rev)); try easy; try now apply vd_wf. intros V a b Wa Wb. now apply sin_rev_total.
- apply rev_dec2_one; try easy. apply cos_rev_total; try easy; now apply vd_wf.
- apply rev_mixed_dec2_one; try easy. apply (trig_mixed_total T (@cos_rev)); try easy; try now apply vd_wf. intros V a b Wa Wb. now apply cos_rev_total.
- apply rev_dec2_one; try easy. apply tan_rev_total; try easy; now apply vd_wf.
- apply rev_mixed_dec2_one; try easy. apply (trig_mixed_total T (@tan_rev)); try easy; try now apply vd_wf. intros V a b Wa Wb. now apply tan_rev_total.
Qed.
Lemma dtern_giv F G H T f : dtern F G H T f -> forall x y w, valid_dec x -> valid_dec y -> valid_dec w -> gives (f x y w) valid_dec.
Proof.
destruct 1; intros x y w Wx Wy Ww.
- now apply fma_dec_giv.
- apply (mixed_dec3_giv T (@fma_dec)); [|easy..]. intros V a b c Wa Wb Wc. now apply fma_dec_giv.
- now apply mul_rev_dec_giv.
- now apply mul_rev_dec_mixed_giv.
Qed.
Lemma dtwo_giv F G T f : dtwo F G T f -> forall x y, valid_dec x -> valid_dec y -> gives (f x y) both_valid_dec.
Proof. destruct 1; intros x y Wx Wy; [now apply pair_dec_giv|now apply pair_dec_mixed_giv]. Qed.

