(** * Proofs: validity of cancellative results, of constructed intervals and of read ones *)
From Coq Require Import ZArith NArith Reals Bool Lra Lia List Classical.
From Flocq Require Import Core.Core IEEE754.BinarySingleNaN.
From Verif Require Import Fmt Spec FloatFacts Exc Deco SpecApi SpecElem SpecDeco SpecMixed SpecNum SpecNai SpecRel SpecRev SpecCancel SpecProg MBase PBase MBool MOverlap MArith PArith
  MElem MPow MTrig MAtan2 MDec MMixed MCancel MRev MTrigRev MStream MDecoIo MText MRegex MRead
  PConv PBool PSetop PClass PDec PMixed PRevW PNai PElem PTrig PTan PTwoSum PCancel PMulRev PRevEven PPownRev3 PValid PValid2.
Import ListNotations.
Local Open Scope R_scope.
Local Open Scope m_scope.

(** ** Cancellative operations *)
Lemma cancel_del {T F G} sol (x : itv F) (y : itv G) (m : M (itv T)) :
  cancel_spec sol x y m -> no_solution_entire sol x y m -> delivers m wf.
Proof.
intros (K1 & K2 & K3 & K4) N.
assert (We : wf ((fminf, finf) : itv T)) by apply wf_entire.
destruct (classic (set_bounded x)) as [Bx|Bx]; [|now apply (del_returns _ _ _ (K2 (or_introl Bx)))].
destruct (classic (set_bounded y)) as [By|By]; [|now apply (del_returns _ _ _ (K2 (or_intror By)))].
destruct (classic (s_nonempty x)) as [Nx|Nx]; [|apply (del_returns _ _ _ (K3 Nx By)), wf_empty].
destruct (classic (s_nonempty y)) as [Ny|Ny]; [|now apply (del_returns _ _ _ (K4 Nx Ny))].
destruct (classic (exists a b, sol a b)) as [(a & b & S)|S].
- exact (del_tight _ _ (K1 Nx Bx a b S)).
- apply (del_returns _ _ _ (N Nx Ny Bx By ltac:(intros a b H; apply S; now exists a, b))). easy.
Qed.
Lemma minus_del {F} (x y : itv F) : wf x -> wf y -> not_max (snd x) -> not_max (fst y) -> not_max (snd y) ->
  delivers (cancel_minus x y) wf.
Proof. intros Wx Wy M1 M2 M3. eapply cancel_del; [now apply cancel_minus_ok|now apply cancel_minus_no]. Qed.
Lemma plus_del {F} (x y : itv F) : wf x -> wf y -> not_max (snd x) -> not_max (fst y) -> not_max (snd y) ->
  delivers (cancel_plus x y) wf.
Proof. intros Wx Wy M1 M2 M3. eapply cancel_del; [now apply cancel_plus_ok|now apply cancel_plus_no]. Qed.
Section Mixed.
Context (T F G : fmt) (C1 : comparable T F) (C2 : comparable T G) (C3 : comparable F G).
Lemma minus_mixed_del (x : itv F) (y : itv G) : wf x -> wf y -> not_max (snd x) -> not_max (fst y) -> not_max (snd y) ->
  delivers (cancel_minus_mixed T x y) wf.
Proof. intros Wx Wy M1 M2 M3. eapply cancel_del; [now apply cancel_minus_mixed_ok|now apply cancel_minus_mixed_no]. Qed.
Lemma minus_dec_del {V} (x y : ditv V) : valid_dec x -> valid_dec y -> not_max (snd (fst x)) -> not_max (fst (fst y)) -> not_max (snd (fst y)) ->
  delivers (cancel_minus_dec x y) valid_dec.
Proof.
intros Wx Wy M1 M2 M3. unfold cancel_minus_dec. apply del_mif; [apply del_ret, vd_nai|]. apply del_trv. apply minus_del; auto using vd_wf.
Qed.
Lemma minus_dec_mixed_del (x : ditv F) (y : ditv G) : valid_dec x -> valid_dec y ->
  not_max (snd (fst x)) -> not_max (fst (fst y)) -> not_max (snd (fst y)) -> delivers (cancel_minus_dec_mixed T x y) valid_dec.
Proof.
intros [Wx Dx] [Wy Dy] M1 M2 M3.
destruct (N.eq_dec (snd x) ill) as [E|E]; [|destruct (N.eq_dec (snd y) ill) as [E'|E']].
- eapply del_returns; [apply cancel_minus_dec_mixed_nai; auto|]. apply vd_nai.
- eapply del_returns; [apply cancel_minus_dec_mixed_nai; auto|]. apply vd_nai.
- destruct (within_pmax3 T F G C1 C2 C3) as (A & B & C).
  unfold cancel_minus_dec_mixed, mixed_dec2. cbv zeta. set (W := pmax (pmax T F) G) in *.
  destruct (widen_dec W x B Wx E) as (Cx & Wx' & _). destruct (widen_dec W y C Wy E') as (Cy & Wy' & _).
  apply del_mif; [apply del_ret, vd_nai|]. rewrite Cx. mreds. rewrite Cy. mreds. apply del_conv_dec.
  apply minus_dec_del; try easy; cbn [fst snd convert_hull]; auto using not_max_conv_d, not_max_conv_u.
Qed.
End Mixed.
Section Neg.
Context {T G : fmt}.
(** The negated tightest interval. *)
Lemma tightest_neg (y : itv G) (z : itv T) : tightest (image1 everywhere Ropp y) z ->
  tightest (fun r => mem r y) (fneg (snd z), fneg (fst z)).
Proof.
intros (W & E & L). assert (M : forall (v : itv T) r, mem r (fneg (snd v), fneg (fst v)) <-> mem (- r) v).
{ intros [l u] r. apply mem_neg. }
assert (N : forall v : itv T, wf v -> wf (fneg (snd v), fneg (fst v))).
{ intros v [->|[r Hr]]; [left; reflexivity|]. right. exists (- r). apply M. now rewrite Ropp_involutive. }
split; [now apply N|]. split.
- intros r Hr. apply M, E. exists r. now split.
- intros z' Wz' Ez' r Hr. apply (proj1 (M z r)) in Hr.
  assert (K : included z (fneg (snd z'), fneg (fst z'))).
  { apply L; [now apply N|]. intros t (s & Hs & _ & ->). apply M. rewrite Ropp_involutive. now apply Ez'. }
  apply K in Hr. apply (proj1 (M z' (- r))) in Hr. now rewrite Ropp_involutive in Hr.
Qed.
Definition fits (y : itv G) : Prop := forall z : itv T, tightest (fun r => mem r y) z -> not_max (fst z) /\ not_max (snd z).
Lemma neg_mixed_not_max (y : itv G) : wf y -> fits y ->
  delivers (neg_mixed T y) (fun z => wf z /\ not_max (fst z) /\ not_max (snd z)).
Proof.
intros Wy H. destruct (neg_mixed_tightest T y Wy) as (z & R & Tz). apply (del_returns _ _ _ R).
split; [now destruct Tz|]. apply tightest_neg in Tz. apply H in Tz. cbn [fst snd] in Tz. destruct Tz as [A B].
apply not_max_neg in A, B. unfold not_max in *. now rewrite !B2R_fneg, !Ropp_involutive in A, B.
Qed.
End Neg.
Lemma plus_mixed_del T {F G} (x : itv F) (y : itv G) : comparable T F -> wf x -> wf y -> not_max (snd x) -> @fits T G y ->
  delivers (cancel_plus_mixed T x y) wf.
Proof.
intros C Wx Wy M1 H. unfold cancel_plus_mixed. eapply del_bind; [now apply neg_mixed_not_max|]. intros y' (W' & A & B). cbv beta.
apply minus_mixed_del; auto using comparable_refl, comparable_sym.
Qed.
Lemma neg_dec_shape {F} (y : ditv F) : valid_dec y -> exists y', neg_dec y = ret y' /\ valid_dec y' /\
  (snd y = ill -> y' = nai) /\ (snd y <> ill -> fst y' = (fneg (snd (fst y)), fneg (fst (fst y)))).
Proof.
intros [Wy Dy]. destruct (neg_dec_ret y Wy) as (y' & E & W' & I & N). exists y'. split; [easy|].
destruct (N.eq_dec (snd y) ill) as [D|D].
- rewrite (I D). split; [apply vd_nai|]. now split.
- destruct (N D) as [R S]. split; [split; [easy|now rewrite S]|]. split; [easy|]. intros _.
  destruct (neg_ret (fst y) (wf_dec_wf y Wy)) as (v & Rv & _ & _ & Ev). rewrite Rv in R. rewrite <- Ev.
  assert (K : forall s, ret v s = ret (fst y') s) by (intros; now rewrite R). specialize (K (Est 0 0)). now injection K.
Qed.
Lemma plus_dec_del {F} (x y : ditv F) : valid_dec x -> valid_dec y ->
  not_max (snd (fst x)) -> not_max (fst (fst y)) -> not_max (snd (fst y)) -> delivers (cancel_plus_dec x y) valid_dec.
Proof.
intros Vx Vy M1 M2 M3. destruct (neg_dec_shape y Vy) as (y' & E & V' & I & N). unfold cancel_plus_dec. rewrite E. mreds.
destruct (N.eq_dec (snd y) ill) as [D|D].
- rewrite (I D). destruct (cancel_minus_dec_ok x nai ltac:(now destruct Vx) wf_dec_nai) as [K _]. apply (del_returns _ _ _ (K ltac:(now right))), vd_nai.
- apply minus_dec_del; try easy; rewrite (N D); cbn [fst snd]; now apply not_max_neg.
Qed.
Lemma plus_dec_mixed_del T {F G} (x : ditv F) (y : ditv G) : comparable T F -> valid_dec x -> valid_dec y ->
  not_max (snd (fst x)) -> @fits T G (fst y) -> delivers (cancel_plus_dec_mixed T x y) valid_dec.
Proof.
intros C Vx Vy M1 H. unfold cancel_plus_dec_mixed.
destruct (N.eq_dec (snd y) ill) as [D|D].
- assert (E : neg_dec_mixed T y = ret nai).
  { unfold neg_dec_mixed. destruct Vy as [Wy Dy]. rewrite is_valid_dec_wf, is_nai_wf, D by easy. now mreds. }
  rewrite E. mreds. eapply del_returns; [apply cancel_minus_dec_mixed_nai|apply vd_nai]; [now destruct Vx|apply wf_dec_nai|now right].
- apply del_bind with (Q := fun v => valid_dec v /\ not_max (fst (fst v)) /\ not_max (snd (fst v))).
  + unfold neg_dec_mixed. apply del_mif; [apply del_ret; split; [apply vd_nai|]|].
    { cbn. unfold not_max. cbn. rewrite Rabs_R0. pose proof (@fmaxv_ge1 T). cbn in *. lra. }
    destruct (neg_dec_shape y Vy) as (y' & E & V' & _ & N). specialize (N D). rewrite E. mreds.
    assert (K : delivers (neg_mixed T (fst y)) (fun z => wf z /\ not_max (fst z) /\ not_max (snd z))).
    { apply neg_mixed_not_max; [now apply vd_wf|easy]. }
    assert (R : neg_mixed T (fst y) = ret (convert_hull T (fst y'))).
    { unfold neg_mixed. destruct (neg_ret (fst y) (vd_wf y Vy)) as (v & Rv & _ & _ & Ev).
      rewrite is_valid_wf by now apply vd_wf. mreds. rewrite Rv. mreds. now rewrite Ev, N. }
    rewrite R in K. destruct (K (Est 0 0) _ _ eq_refl) as (Wz & A & B).
    intros s v s' Hv. split; [exact (conv_dec T y' V' s v s' Hv)|].
    revert Hv. unfold convert_hull_dec. rewrite is_nai_wf by now destruct V'.
    destruct (deq (snd y') ill); mreds.
    * intros Hv. injection Hv as <- _. cbn. unfold not_max. cbn. rewrite Rabs_R0. pose proof (@fmaxv_ge1 T). cbn in *. lra.
    * cbv zeta. destruct (deq (snd y') com && _); intros Hv; injection Hv as <- _; now split.
  + intros v (Vv & A & B). apply minus_dec_mixed_del; auto using comparable_refl, comparable_sym.
Qed.

(** ** Construction *)
Section Constr.
Context {F : fmt}.
Lemma is_valid_del (x : itv F) : delivers (is_valid x) (fun b => b = true -> wf x).
Proof.
destruct (wf_dec_em x) as [W|W].
- rewrite is_valid_wf by easy. now apply del_ret.
- intros s a s' H. rewrite (is_valid_reports x W s) in H. destruct masked; [easy|]. now injection H as <- _.
Qed.
Lemma new_dec_del (x : itv F) : delivers (new_dec x) valid_dec.
Proof.
destruct (wf_dec_em x) as [W|W]; [|exact (del_reports _ _ _ _ _ (new_dec_invalid x W) vd_nai)].
destruct W as [->|N]; [rewrite new_dec_empty; apply del_ret, vd_empty|]. rewrite (new_dec_nonempty x N). apply del_ret.
split; [|destruct bounded_dec; cbn; tauto]. right. cbn [fst snd]. split; [easy|]. destruct bounded_dec; now split.
Qed.
Lemma is_deco_valid d : valid_deco d -> is_deco d. Proof. intros [->|[->|[->|[->| ->]]]]; cbn; tauto. Qed.
Lemma valid_deco_em d : valid_deco d \/ ~ valid_deco d. Proof. apply classic. Qed.
Lemma set_dec_del (x : itv F) d : delivers (set_dec x d) valid_dec.
Proof.
destruct (valid_deco_em d) as [V|V]; [|exact (del_reports _ _ _ _ _ (set_dec_bad_deco x d V) vd_nai)].
destruct (wf_dec_em x) as [W|W]; [|exact (del_reports _ _ _ _ _ (set_dec_invalid x d V W) vd_nai)].
destruct (N.eq_dec d ill) as [->|D]; [rewrite (set_dec_ill x W); apply del_ret, vd_nai|].
destruct W as [->|N]; [rewrite (set_dec_empty d V D); apply del_ret, vd_empty|]. rewrite (set_dec_nonempty x d N V D). apply del_ret.
split; [|cbn [snd]; destruct bounded_dec; [now apply is_deco_valid|]; destruct V as [->|[->|[->|[->| ->]]]]; cbn; tauto].
right. cbn [fst snd]. split; [easy|]. destruct bounded_dec; [now split|]. destruct V as [->|[->|[->|[->| ->]]]]; easy.
Qed.
Lemma interval_part_del (x : ditv F) : valid_dec x -> delivers (interval_part x) wf.
Proof.
intros V. unfold interval_part. apply del_mif; [apply del_ret, wf_empty|]. apply del_mif; [apply del_then; intros; apply del_ret, wf_empty|].
apply del_ret. now apply vd_wf.
Qed.
Lemma nums_del (l u : float F) : delivers (nums_to_interval l u) wf.
Proof.
unfold nums_to_interval. apply del_if; intros E; [|apply del_then; intros; apply del_ret, wf_empty].
apply del_ret. right. now apply nums_cond.
Qed.
Lemma nums_d_del (l u : float F) : delivers (nums_to_decorated_interval l u) valid_dec.
Proof.
unfold nums_to_decorated_interval. apply del_if; intros E; [|apply del_then; intros; apply del_ret, vd_nai]. apply new_dec_del.
Qed.
Lemma nums_dec_del (l u : float F) d : delivers (nums_dec_to_decorated_interval l u d) valid_dec.
Proof.
destruct (valid_deco_em d) as [V|V]; [|exact (del_reports _ _ _ _ _ (nums_dec_bad_deco l u d V) vd_nai)].
unfold nums_dec_to_decorated_interval. apply del_mif; [|apply del_ret, vd_nai].
apply del_if; intros E; [|apply del_then; intros; apply del_ret, vd_nai].
apply andb_true_iff in E. destruct E as [E1 E]. apply andb_true_iff in E. destruct E as [E2 E3].
destruct (deq_spec d ill) as [|D]; [easy|]. apply nums_cond in E2. apply del_ret.
split; [|now apply is_deco_valid]. right. cbn [fst snd]. split; [easy|]. split; [easy|]. now apply com_cond.
Qed.
End Constr.
Section ConstrMixed.
Context (T : fmt).
Lemma new_dec_mixed_del {F} (x : itv F) : wf x -> delivers (new_dec_mixed T x) valid_dec.
Proof.
intros W. unfold new_dec_mixed. apply del_mif; [apply del_ret, vd_nai|]. cbv zeta.
pose proof (@new_dec_del T (convert_hull T x)) as H. unfold new_dec in H. rewrite (is_valid_wf _ (wf_convert_hull T x W)) in H.
revert H. now mreds.
Qed.
Lemma set_dec_mixed_del {F} (x : itv F) d : delivers (set_dec_mixed T x d) valid_dec.
Proof. unfold set_dec_mixed. eapply del_bind; [apply set_dec_del|]. intros v Hv. now apply conv_dec. Qed.
Lemma interval_part_mixed_del {F} (x : ditv F) : valid_dec x -> delivers (interval_part_mixed T x) wf.
Proof.
intros V. unfold interval_part_mixed. apply del_mif; [apply del_ret, wf_empty|].
apply del_mif; [apply del_then; intros; apply del_ret, wf_empty|]. apply del_ret. apply wf_convert_hull. now apply vd_wf.
Qed.
Context {L U : fmt} (C : comparable L U).
Lemma nums_mixed_del (l : float L) (u : float U) : delivers (nums_to_interval_mixed T l u) wf.
Proof.
unfold nums_to_interval_mixed. apply del_if; intros E; [|apply del_then; intros; apply del_ret, wf_empty].
apply del_ret. apply nums_mixed_cond in E; [|easy]. now destruct (conv_between T l u E).
Qed.
Lemma nums_d_mixed_del (l : float L) (u : float U) : delivers (nums_to_decorated_interval_mixed T l u) valid_dec.
Proof.
unfold nums_to_decorated_interval_mixed. apply del_if; intros E; [|apply del_then; intros; apply del_ret, vd_nai]. apply new_dec_del.
Qed.
Lemma nums_dec_mixed_del (l : float L) (u : float U) d : delivers (nums_dec_to_decorated_interval_mixed T l u d) valid_dec.
Proof.
destruct (valid_deco_em d) as [V|V]; [|exact (del_reports _ _ _ _ _ (nums_dec_mixed_bad_deco T l u d V) vd_nai)].
unfold nums_dec_to_decorated_interval_mixed. apply del_mif; [|apply del_ret, vd_nai].
apply del_if; intros E; [|apply del_then; intros; apply del_ret, vd_nai].
apply andb_true_iff in E. destruct E as [E1 E]. apply andb_true_iff in E. destruct E as [E2 E3].
destruct (deq_spec d ill) as [|D]; [easy|]. apply nums_mixed_cond in E2; [|easy]. cbv zeta. apply del_ret.
pose proof (conv_between T l u E2) as Z. pose proof (tightest_nonempty _ _ E2 Z) as Nz.
set (z := (convert_rndd T l, convert_rndu T u)) in *.
assert (B : isinf (fst z) || isinf (snd z) = false -> bounded_rep z).
{ intros H. apply orb_false_iff in H. destruct H as [H1 H2]. destruct Z as (Wz & _). unfold bounded_rep.
  destruct (wf_view z Wz); cbn [fst snd] in *; try easy. destruct Nz as [r Nr]. now apply mem_empty in Nr. }
split.
- right. cbn [fst snd]. split; [easy|]. destruct V as [->|[->|[->|[->| ->]]]]; destruct (isinf (fst z) || isinf (snd z)) eqn:Ei; try easy;
    split; try easy; intros _; now apply B.
- cbn [snd]. destruct V as [->|[->|[->|[->| ->]]]]; destruct (isinf (fst z) || isinf (snd z)); cbn; tauto.
Qed.
End ConstrMixed.

(** ** Reading *)
Section Read.
Context {F : fmt}.
Definition read_valid {A} (P : A -> Prop) (r : option A * istream) : Prop := forall a, fst r = Some a -> P a.
Lemma failed_del (s : istream) : delivers (@failed F s) (read_valid valid_dec).
Proof. now apply del_ret. Qed.
Lemma with_decoration_del (bare : itv F) dec s : delivers (with_decoration bare dec s) (read_valid valid_dec).
Proof.
unfold with_decoration. destruct (if ok s then _ else _) as [b s1]. apply del_if; intros _.
- apply del_if; intros _; [|apply failed_del]. destruct (read_deco _) as [[d|] s3]; [|apply failed_del].
  apply del_if; intros _; [|apply failed_del]. eapply del_bind; [apply set_dec_del|]. intros x Hx. apply del_ret.
  intros a E. injection E as <-. exact Hx.
- apply del_bind with (Q := valid_dec).
  + apply del_if; intros _; [apply del_ret, vd_nai|apply new_dec_del].
  + intros x Hx. apply del_ret. intros a E. injection E as <-. exact Hx.
Qed.
Lemma read_ditv_del s : delivers (@read_ditv F s) (read_valid valid_dec).
Proof.
unfold read_ditv. cbv zeta. apply del_if; intros _; [|apply failed_del]. destruct (peek_is _ _) as [b s2].
apply del_if; intros _.
- unfold read_inf_sup. destruct (read_bracket _ _ _) as [input s3]. apply del_if; intros _; [|apply failed_del].
  destruct (regex_match _ _); [|apply failed_del]. apply del_then. intros v. apply del_if; intros _; [apply with_decoration_del|apply failed_del].
- unfold read_uncertain. destruct (if ok s2 then _ else _) as [b3 s3]. destruct (if b3 then _ else _) as [b4 s4].
  apply del_if; intros _; [|apply failed_del]. destruct (read_uncertain_text s4) as [input s5].
  apply del_if; intros _; [|apply failed_del].
  destruct (regex_match _ _); [|apply failed_del]. apply del_then. intros [v|]; [|apply failed_del].
  apply del_if; intros _; [apply with_decoration_del|apply failed_del].
Qed.
Lemma read_itv_del s : delivers (@read_itv F s) (read_valid wf).
Proof.
unfold read_itv. eapply del_bind; [apply read_ditv_del|]. intros [[x|] s1] H; cbv beta iota.
- apply del_if; intros _; [|now apply del_ret]. specialize (H x eq_refl). eapply del_bind; [now apply interval_part_del|].
  intros z Hz. apply del_ret. intros a E. injection E as <-. exact Hz.
- apply del_if; intros _; [apply del_undef|now apply del_ret].
Qed.
Lemma text_ditv_del t : delivers (@text_to_decorated_interval F t) valid_dec.
Proof.
unfold text_to_decorated_interval. eapply del_bind; [apply read_ditv_del|].
assert (K : delivers (signal_undefined_operation ;; ret (@nai F)) valid_dec) by (apply del_then; intros; apply del_ret, vd_nai).
intros [[x|] s1] H; cbv beta iota; [|exact K].
apply del_if; intros _; [|exact K]. apply del_mif; [|exact K]. apply del_ret. now apply H.
Qed.
Lemma text_itv_del t : delivers (@text_to_interval F t) wf.
Proof.
unfold text_to_interval. eapply del_bind; [apply read_itv_del|].
assert (K : delivers (signal_undefined_operation ;; ret (@empty F)) wf) by (apply del_then; intros; apply del_ret, wf_empty).
intros [[x|] s1] H; cbv beta iota; [|exact K].
apply del_if; intros _; [|exact K]. apply del_mif; [|exact K]. apply del_ret. now apply H.
Qed.
End Read.
