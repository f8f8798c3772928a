(** * Proofs: validity of the results of the remaining functions *)
From Coq Require Import ZArith NArith Reals Bool Lra Lia List Classical.
From Flocq Require Import Core.Core IEEE754.BinarySingleNaN.
From Verif Require Import Fmt Spec FloatFacts Exc Deco SpecApi SpecElem SpecDeco SpecMixed SpecNum SpecNai SpecRel SpecRev SpecCancel SpecProg MBase PBase MBool MOverlap MArith PArith
  MElem MPow MTrig MAtan2 MDec MMixed MCancel MRev MTrigRev
  PConv PBool PSetop PClass PDec PMixed PRevW PNai PElem PTrig PTan PTwoSum PCancel PMulRev PRevEven PPownRev3 PValid.
Import ListNotations.
Local Open Scope R_scope.
Local Open Scope m_scope.

(** ** Mixed types *)
Section Mixed.
Context (T : fmt).
Lemma del_conv {W} (m : M (itv W)) : delivers m wf -> delivers (z <- m; ret (convert_hull T z)) wf.
Proof. intros H. apply del_bind with (1 := H). intros z Hz. apply del_ret. now apply wf_convert_hull. Qed.
Lemma del_conv_dec {W} (m : M (ditv W)) : delivers m valid_dec -> delivers (z <- m; convert_hull_dec T z) valid_dec.
Proof. intros H. apply del_bind with (1 := H). intros z Hz. now apply conv_dec. Qed.
Lemma mixed1_del {F} (op : forall W, itv W -> M (itv W)) : (forall W x, wf x -> delivers (op W x) wf) ->
  forall x : itv F, wf x -> delivers (mixed1 T op x) wf.
Proof. intros H x Wx. apply del_mif; [apply del_ret, wf_empty|]. apply del_conv, H. now apply wf_convert_hull. Qed.
Lemma mixed2_del {F G} (op : forall W, itv W -> itv W -> M (itv W)) : (forall W x y, wf x -> wf y -> delivers (op W x y) wf) ->
  forall (x : itv F) (y : itv G), wf x -> wf y -> delivers (mixed2 T op x y) wf.
Proof. intros H x y Wx Wy. apply del_mif; [apply del_ret, wf_empty|]. apply del_conv, H; now apply wf_convert_hull. Qed.
Lemma mixed3_del {F G H} (op : forall W, itv W -> itv W -> itv W -> M (itv W)) :
  (forall W x y w, wf x -> wf y -> wf w -> delivers (op W x y w) wf) ->
  forall (x : itv F) (y : itv G) (w : itv H), wf x -> wf y -> wf w -> delivers (mixed3 T op x y w) wf.
Proof. intros E x y w Wx Wy Ww. apply del_mif; [apply del_ret, wf_empty|]. apply del_conv, E; now apply wf_convert_hull. Qed.
Lemma rev_mixed2_del {F G} (op : forall W, itv W -> itv W -> M (itv W)) : (forall W x y, wf x -> wf y -> delivers (op W x y) wf) ->
  forall (x : itv F) (y : itv G), wf x -> wf y -> delivers (rev_mixed2 T op x y) wf.
Proof. intros H x y Wx Wy. apply del_mif; [apply del_ret, wf_empty|]. apply del_conv, H; now apply wf_convert_hull. Qed.
Lemma mixed_dec1_del {F} (op : forall W, ditv W -> M (ditv W)) : (forall W x, valid_dec x -> delivers (op W x) valid_dec) ->
  forall x : ditv F, valid_dec x -> delivers (mixed_dec1 T op x) valid_dec.
Proof.
intros H x Wx. apply del_mif; [apply del_ret, vd_nai|]. eapply del_bind; [now apply conv_dec|]. intros x' Hx. cbv beta.
apply del_conv_dec. now apply H.
Qed.
Lemma mixed_dec2_del {F G} (op : forall W, ditv W -> ditv W -> M (ditv W)) :
  (forall W x y, valid_dec x -> valid_dec y -> delivers (op W x y) valid_dec) ->
  forall (x : ditv F) (y : ditv G), valid_dec x -> valid_dec y -> delivers (mixed_dec2 T op x y) valid_dec.
Proof.
intros H x y Wx Wy. apply del_mif; [apply del_ret, vd_nai|]. eapply del_bind; [now apply conv_dec|]. intros x' Hx. cbv beta.
eapply del_bind; [now apply conv_dec|]. intros y' Hy. cbv beta. apply del_conv_dec. now apply H.
Qed.
Lemma mixed_dec3_del {F G H} (op : forall W, ditv W -> ditv W -> ditv W -> M (ditv W)) :
  (forall W x y w, valid_dec x -> valid_dec y -> valid_dec w -> delivers (op W x y w) valid_dec) ->
  forall (x : ditv F) (y : ditv G) (w : ditv H), valid_dec x -> valid_dec y -> valid_dec w -> delivers (mixed_dec3 T op x y w) valid_dec.
Proof.
intros E x y w Wx Wy Ww. apply del_mif; [apply del_ret, vd_nai|]. eapply del_bind; [now apply conv_dec|]. intros x' Hx. cbv beta.
eapply del_bind; [now apply conv_dec|]. intros y' Hy. cbv beta.
eapply del_bind; [now apply conv_dec|]. intros w' Hw. cbv beta. apply del_conv_dec. now apply E.
Qed.
End Mixed.
Lemma del_trv {F} (m : M (itv F)) : delivers m wf -> delivers (b <- m; ret (b, trv)) valid_dec.
Proof. intros H. apply del_bind with (1 := H). intros z Hz. apply del_ret. now apply vd_trv. Qed.
Lemma rev_dec2_del {F} (op : itv F -> itv F -> M (itv F)) : (forall c x, wf c -> wf x -> delivers (op c x) wf) ->
  forall c x, valid_dec c -> valid_dec x -> delivers (rev_dec2 op c x) valid_dec.
Proof. intros H c x Wc Wx. apply del_mif; [apply del_ret, vd_nai|]. apply del_trv, H; now apply vd_wf. Qed.
Lemma rev_mixed_dec2_del T {F G} (op : itv F -> itv G -> M (itv T)) : (forall c x, wf c -> wf x -> delivers (op c x) wf) ->
  forall c x, valid_dec c -> valid_dec x -> delivers (rev_mixed_dec2 T op c x) valid_dec.
Proof. intros H c x Wc Wx. apply del_mif; [apply del_ret, vd_nai|]. apply del_trv, H; now apply vd_wf. Qed.

(** ** Tangent: the order of the two values is tested *)
Section Tan.
Context {F : fmt}.
Implicit Types x : itv F.
Lemma tan_pair (a b : float F) : is_finite a = true -> is_finite b = true ->
  mpfr_greater (mpfr_tan mode_DN a) (mpfr_tan mode_UP b) = false ->
  isnan (mpfr_tan mode_DN a) = false /\ wf (mpfr_tan mode_DN a, mpfr_tan mode_UP b).
Proof.
intros Fa Fb H.
assert (A : lb (mpfr_tan mode_DN a) (tan (B2R a))) by (unfold mpfr_tan; rewrite Fa; apply rround_RD).
assert (B : ub (mpfr_tan mode_UP b) (tan (B2R b))) by (unfold mpfr_tan; rewrite Fb; apply rround_RU).
assert (N : isnan (mpfr_tan mode_DN a) = false) by (destruct (mpfr_tan mode_DN a); easy).
split; [easy|]. apply bounds_wf; try easy.
- destruct (mpfr_tan mode_UP b); easy.
- intros E. now rewrite E in A.
- intros E. now rewrite E in B.
Qed.
Lemma finite_of_width x : wf x -> isnan (fst x) = false ->
  mpfr_greater (rsub mode_UP (snd x) (fst x)) (mpfr_const_pi mode_DN) = false -> is_finite (fst x) = true /\ is_finite (snd x) = true.
Proof.
intros W N H. destruct (is_finite (fst x) && is_finite (snd x)) eqn:Ef; [now apply andb_true_iff in Ef|]. exfalso.
pose proof (wf_view _ W) as V. destruct (@pi_fin F) as [P1 P2].
rewrite (width_inf (fst x) (snd x) (mpfr_const_pi mode_DN)) in H; [easy|easy|].
destruct V; cbn [fst snd] in *; try easy.
- left. now repeat split.
- left. repeat split; [|now apply isnan_fin]. now intros ->.
- right. repeat split; [|now apply isnan_fin]. now intros ->.
- rewrite H0, H1 in Ef. easy.
Qed.
Lemma tan_del x : wf x -> delivers (tan_itv x) wf.
Proof.
intros W. unfold tan_itv. rewrite is_valid_wf, is_empty_wf by easy. mreds.
destruct (isnan (fst x)) eqn:N; [apply del_ret, wf_empty|]. cbv zeta.
apply del_if; intros E; [apply del_ret, wf_entire|]. destruct (finite_of_width x W N E) as [F1 F2].
apply del_if; intros E'; [apply del_ret, wf_entire|]. apply del_ret. now apply tan_pair.
Qed.
Lemma tan_dec_del (x : ditv F) : valid_dec x -> delivers (tan_dec x) valid_dec.
Proof.
intros [W D]. unfold tan_dec. rewrite is_valid_dec_wf, is_nai_wf, is_empty_dec_wf by easy. mreds.
destruct (deq_spec (snd x) ill) as [E|E]; [apply del_ret, vd_nai|]. cbn [negb andb]. mreds.
destruct (isnan (fst (fst x))) eqn:N; [apply del_ret, vd_empty|]. cbv zeta.
pose proof (wf_dec_wf x W) as Wb.
apply del_if; intros E1; [apply del_ret, vd_trv, wf_entire|]. destruct (finite_of_width _ Wb N E1) as [F1 F2].
apply del_if; intros E2; [apply del_ret, vd_trv, wf_entire|]. destruct (tan_pair _ _ F1 F2 E2) as [N' W'].
set (b := (mpfr_tan mode_DN (fst (fst x)), mpfr_tan mode_UP (snd (fst x)))) in *.
rewrite (is_common_wf b W'). mreds. apply del_ret. set (v := is_finite (fst b) && is_finite (snd b)).
assert (I : In (dmin (snd x) (if v then com else dac)) [trv; def; dac; com]).
{ apply dmin_in; [now apply deco_cases|]. destruct v; cbn; tauto. }
apply deco_ge in I. destruct I as (I1 & I2 & _). split; [|easy]. right. cbn [fst snd]. split; [now apply wf_nonempty|].
split; [easy|]. intros Ec. destruct v eqn:Ev; [now apply andb_true_iff in Ev|]. exfalso. rewrite dmin_min in Ec. revert Ec. unfold dac, com. lia.
Qed.
End Tan.

(** ** Reverse functions *)
Section Rev.
Context {F : fmt}.
Implicit Types x c b : itv F.
Lemma two_boxes_del kind up cl cu x : delivers (two_boxes kind up cl cu x) wf.
Proof. unfold two_boxes. apply del_then. intros l. apply del_then. intros r. apply del_hull. Qed.
Lemma sin_rev_del c x : wf x -> delivers (sin_rev c x) wf.
Proof.
intros W. unfold sin_rev. apply del_mif; [apply del_ret, wf_empty|]. eapply del_bind; [apply del_inter|]. intros cc Hc. cbv beta.
apply del_mif; [now apply del_ret|]. apply del_mif; [now apply del_ret|]. apply two_boxes_del.
Qed.
Lemma cos_rev_del c x : wf x -> delivers (cos_rev c x) wf.
Proof.
intros W. unfold cos_rev. apply del_mif; [apply del_ret, wf_empty|]. eapply del_bind; [apply del_inter|]. intros cc Hc. cbv beta.
apply del_mif; [now apply del_ret|]. apply del_mif; [now apply del_ret|]. apply two_boxes_del.
Qed.
Lemma tan_rev_del c x : delivers (tan_rev c x) wf.
Proof. unfold tan_rev. apply del_mif; [apply del_ret, wf_empty|]. apply two_boxes_del. Qed.
Lemma hull_of_del p n x : delivers (hull_of p n x) wf.
Proof. unfold hull_of. apply del_then. intros i. apply del_then. intros j. apply del_hull. Qed.
Lemma hull_of_l_del p n x : delivers (hull_of_l p n x) wf.
Proof. unfold hull_of_l. apply del_then. intros i. apply del_then. intros j. apply del_hull. Qed.
Lemma even_rev_del l u tl tu x : delivers (even_rev l u tl tu x) wf.
Proof. unfold even_rev. apply del_then. intros n. apply hull_of_del. Qed.
Lemma mul_rev_del b c x : delivers (mul_rev b c x) wf.
Proof. unfold mul_rev. apply del_mif; [apply del_ret, wf_empty|]. apply del_then. intros n. apply hull_of_del. Qed.
Lemma sqr_rev_del c x : delivers (sqr_rev c x) wf.
Proof. unfold sqr_rev. apply del_mif; [apply del_ret, wf_empty|]. cbv zeta. apply del_if; intros _; apply even_rev_del. Qed.
Lemma cosh_rev_del c x : delivers (cosh_rev c x) wf.
Proof. unfold cosh_rev. apply del_mif; [apply del_ret, wf_empty|]. cbv zeta. apply del_if; intros _; apply even_rev_del. Qed.
Lemma abs_rev_del c x : delivers (abs_rev c x) wf.
Proof.
unfold abs_rev. apply del_mif; [apply del_ret, wf_empty|]. apply del_if; intros _; [apply del_ret, wf_empty|]. cbv zeta.
apply del_then. intros n. apply hull_of_del.
Qed.
Lemma pown_rev_del fuel c x p : wf x -> delivers (pown_rev fuel c x p) wf.
Proof.
intros W. unfold pown_rev. cbv zeta. apply del_mif; [apply del_ret, wf_empty|].
apply del_if; intros _; [apply del_mif; [now apply del_ret|apply del_ret, wf_empty]|].
apply del_if; intros _; [apply del_inter|].
repeat first [apply del_inter | apply hull_of_l_del | apply even_rev_del | apply del_ret, wf_empty
  | (apply del_if; intros _) | (apply del_then; intros ?)].
Qed.
Lemma pair_del b c : wf b -> wf c -> delivers (mul_rev_to_pair b c) (fun z => wf (fst z) /\ wf (snd z)).
Proof.
intros Wb Wc. destruct (mul_rev_to_pair_ok b c Wb Wc) as (z1 & z2 & H1 & H2). apply del_returns with (1 := H1).
now apply (bb_wf _ _ _ _ H2).
Qed.
End Rev.
Lemma mul_rev_dec_del {F} (b c x : ditv F) : delivers (mul_rev_dec b c x) valid_dec.
Proof. unfold mul_rev_dec, rev_dec3. apply del_mif; [apply del_ret, vd_nai|]. apply del_trv, mul_rev_del. Qed.
Lemma mul_rev_dec_mixed_del T {F G H} (b : ditv F) (c : ditv G) (x : ditv H) : delivers (mul_rev_dec_mixed T b c x) valid_dec.
Proof.
unfold mul_rev_dec_mixed. apply del_mif; [apply del_ret, vd_nai|]. apply del_trv. unfold mul_rev_mixed.
apply del_mif; [apply del_ret, wf_empty|]. apply del_conv, mul_rev_del.
Qed.
Lemma pair_mixed_del T {F G} (b : itv F) (c : itv G) : wf b -> wf c ->
  delivers (mul_rev_to_pair_mixed T b c) (fun z => wf (fst z) /\ wf (snd z)).
Proof.
intros Wb Wc. unfold mul_rev_to_pair_mixed. cbv zeta. apply del_then. intros _.
eapply del_bind; [apply pair_del; now apply wf_convert_hull|]. intros p [H1 H2]. apply del_ret. cbn [fst snd].
split; now apply wf_convert_hull.
Qed.
Definition both_valid_dec {F} (z : ditv F * ditv F) : Prop := valid_dec (fst z) /\ valid_dec (snd z).
Lemma pair_dec_del {F} (b c : ditv F) : valid_dec b -> valid_dec c -> delivers (mul_rev_to_pair_dec b c) both_valid_dec.
Proof.
intros [Wb Db] [Wc Dc]. destruct (N.eq_dec (snd b) ill) as [E|E]; [|destruct (N.eq_dec (snd c) ill) as [E'|E']].
- eapply del_returns; [apply nai_mul_rev_to_pair_dec; auto|]. split; apply vd_nai.
- eapply del_returns; [apply nai_mul_rev_to_pair_dec; auto|]. split; apply vd_nai.
- destruct (mul_rev_to_pair_dec_ok b c Wb Db E Wc Dc E') as (z & H1 & _ & H2 & H3 & _ & H4 & H5 & _). apply del_returns with (1 := H1).
  split; split; try easy. rewrite H5. right. now left.
Qed.
Lemma pair_dec_mixed_del T {F G} (b : ditv F) (c : ditv G) : valid_dec b -> valid_dec c ->
  delivers (mul_rev_to_pair_dec_mixed T b c) both_valid_dec.
Proof.
intros Wb Wc. unfold mul_rev_to_pair_dec_mixed. cbv zeta. apply del_then. intros _.
eapply del_bind; [now apply conv_dec|]. intros b' Hb. cbv beta. eapply del_bind; [now apply conv_dec|]. intros c' Hc. cbv beta.
eapply del_bind; [now apply pair_dec_del|]. intros p [H1 H2]. cbv beta.
eapply del_bind; [apply conv_dec, H1|]. intros u Hu. cbv beta. eapply del_bind; [apply conv_dec, H2|]. intros v Hv. cbv beta.
now apply del_ret.
Qed.
