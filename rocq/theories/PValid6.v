(** * Proofs: programs that cancel only operands for which the test of the widths is exact *)
From Coq Require Import ZArith NArith Reals Bool Lra Lia List Classical.
From Flocq Require Import Core.Core IEEE754.BinarySingleNaN.
From Verif Require Import Fmt Spec FloatFacts Exc Deco SpecApi SpecElem SpecDeco SpecMixed SpecNum SpecNai SpecRel SpecRev SpecCancel SpecProg MBase PBase MBool MOverlap MArith PArith
  MElem MPow MTrig MAtan2 MDec MMixed MCancel MRev MTrigRev
  PConv PBool PSetop PClass PDec PMixed PRevW PNai PElem PTrig PTwoSum PCancel PMul PMulRev PValid PValid2 PValid3 PValid4 MProg SpecBlind PBlind.
Local Open Scope R_scope.
Local Open Scope m_scope.

Lemma pmax_same F : pmax F F = F.
Proof. unfold pmax. now destruct Z.ltb. Qed.
Lemma pmax_twice T F : comparable T F -> pmax (pmax T F) T = pmax T F.
Proof.
intros C. unfold pmax. destruct (Z.ltb_spec (prec F) (prec T)) as [H|H].
- now destruct Z.ltb.
- destruct (Z.ltb_spec (prec T) (prec F)) as [H1|H1]; [reflexivity|].
  destruct C as [C|[C|C]]; [easy| |]; unfold nested in C; exfalso; lia.
Qed.
Lemma B2R_conv_d V W (a : float V) : within V W -> B2R (convert_rndd W a) = B2R a.
Proof.
intros H. destruct (fviewP a) as [| | |a Fa]; [reflexivity|reflexivity|reflexivity|]. now apply conv_d_val.
Qed.
Lemma B2R_conv_u V W (a : float V) : within V W -> B2R (convert_rndu W a) = B2R a.
Proof.
intros H. destruct (fviewP a) as [| | |a Fa]; [reflexivity|reflexivity|reflexivity|]. now apply conv_u_val.
Qed.
Lemma blind_conv V F G (x : itv F) (y : itv G) : within F V -> within G V ->
  blind V (convert_hull V x) (convert_hull V y) <-> blind V x y.
Proof.
intros A B. unfold blind, convert_hull. cbv zeta. cbn [fst snd]. rewrite !B2R_conv_d, !B2R_conv_u by easy. reflexivity.
Qed.

(** ** Single operations *)
Lemma minus_clear {F} (x y : itv F) : wf x -> wf y -> ~ blind F x y -> delivers (cancel_minus x y) wf.
Proof.
intros Wx Wy N. eapply cancel_del; [now apply cancel_minus_ok|]. intros Nx Ny Bx By H. now apply cancel_minus_entire_iff.
Qed.
Lemma minus_mixed_clear T {F G} (x : itv F) (y : itv G) : comparable T F -> comparable T G -> comparable F G -> wf x -> wf y ->
  ~ blind (pmax (pmax T F) G) x y -> delivers (cancel_minus_mixed T x y) wf.
Proof.
intros C1 C2 C3 Wx Wy N. eapply cancel_del; [now apply cancel_minus_mixed_ok|]. intros Nx Ny Bx By H.
now apply cancel_minus_mixed_entire_iff.
Qed.
Lemma minus_dec_clear {V} (x y : ditv V) : valid_dec x -> valid_dec y -> ~ blind V (fst x) (fst y) ->
  delivers (cancel_minus_dec x y) valid_dec.
Proof.
intros Wx Wy N. unfold cancel_minus_dec. apply del_mif; [apply del_ret, vd_nai|]. apply del_trv. apply minus_clear; auto using vd_wf.
Qed.
Lemma minus_dec_mixed_clear T {F G} (x : ditv F) (y : ditv G) : comparable T F -> comparable T G -> comparable F G ->
  valid_dec x -> valid_dec y -> ~ blind (pmax (pmax T F) G) (fst x) (fst y) -> delivers (cancel_minus_dec_mixed T x y) valid_dec.
Proof.
intros C1 C2 C3 [Wx Dx] [Wy Dy] N.
destruct (N.eq_dec (snd x) ill) as [E|E]; [|destruct (N.eq_dec (snd y) ill) as [E'|E']].
- eapply del_returns; [apply cancel_minus_dec_mixed_nai; auto|]. apply vd_nai.
- eapply del_returns; [apply cancel_minus_dec_mixed_nai; auto|]. apply vd_nai.
- destruct (within_pmax3 T F G C1 C2 C3) as (A & B & C).
  unfold cancel_minus_dec_mixed, mixed_dec2. cbv zeta. set (W := pmax (pmax T F) G) in *.
  destruct (widen_dec W x B Wx E) as (Cx & Wx' & _). destruct (widen_dec W y C Wy E') as (Cy & Wy' & _).
  apply del_mif; [apply del_ret, vd_nai|]. rewrite Cx. mreds. rewrite Cy. mreds. apply del_conv_dec.
  apply minus_dec_clear; try easy. cbn [fst snd]. now rewrite blind_conv.
Qed.

(** The negated second operand. *)
Section Neg.
Context {T F G : fmt} (x : itv F) (y : itv G).
Definition neg_clear : Prop := forall z : itv T, tightest (fun r => mem (- r) y) z -> ~ blind (pmax T F) x z.
Lemma neg_mixed_clear : wf y -> neg_clear -> delivers (neg_mixed T y) (fun z => wf z /\ ~ blind (pmax T F) x z).
Proof.
intros Wy H. destruct (neg_mixed_tightest T y Wy) as (z & R & Tz). apply (del_returns _ _ _ R).
split; [now destruct Tz|]. apply H. destruct Tz as (W & E & L). split; [easy|]. split.
- intros r Hr. apply E. exists (- r). now rewrite Ropp_involutive.
- intros z' Wz' Ez'. apply L; [easy|]. intros t (s & Hs & _ & ->). apply Ez'. now rewrite Ropp_involutive.
Qed.
End Neg.
Lemma neg_tightest_same {F} (y : itv F) : wf y -> tightest (fun r => mem (- r) y) ((fneg (snd y), fneg (fst y)) : itv F).
Proof.
intros Wy. destruct (neg_ret y Wy) as (y' & _ & W' & M & ->). split; [easy|]. split.
- intros r Hr. now apply M.
- intros z Wz Ez r Hr. apply Ez. now apply M.
Qed.
Lemma plus_clear {F} (x y : itv F) : wf x -> wf y -> ~ blind F x ((fneg (snd y), fneg (fst y)) : itv F) ->
  delivers (cancel_plus x y) wf.
Proof.
intros Wx Wy N. destruct (neg_ret y Wy) as (y' & E & Wy' & M & Ey). rewrite (cancel_plus_ret x y y' E). subst y'. now apply minus_clear.
Qed.
Lemma plus_mixed_clear T {F G} (x : itv F) (y : itv G) : comparable T F -> wf x -> wf y -> @neg_clear T F G x y ->
  delivers (cancel_plus_mixed T x y) wf.
Proof.
intros C Wx Wy H. unfold cancel_plus_mixed. eapply del_bind; [exact (neg_mixed_clear (T := T) x y Wy H)|]. intros y' (W' & A). cbv beta.
apply minus_mixed_clear; auto using comparable_refl, comparable_sym. now rewrite pmax_twice.
Qed.
Lemma plus_dec_clear {F} (x y : ditv F) : valid_dec x -> valid_dec y ->
  ~ blind F (fst x) ((fneg (snd (fst y)), fneg (fst (fst y))) : itv F) -> delivers (cancel_plus_dec x y) valid_dec.
Proof.
intros Vx Vy B. destruct (neg_dec_shape y Vy) as (y' & E & V' & I & N). unfold cancel_plus_dec. rewrite E. mreds.
destruct (N.eq_dec (snd y) ill) as [D|D].
- rewrite (I D). destruct (cancel_minus_dec_ok x nai ltac:(now destruct Vx) wf_dec_nai) as [K _]. apply (del_returns _ _ _ (K ltac:(now right))), vd_nai.
- apply minus_dec_clear; try easy; now rewrite (N D).
Qed.
Lemma plus_dec_mixed_clear T {F G} (x : ditv F) (y : ditv G) : comparable T F -> valid_dec x -> valid_dec y ->
  @neg_clear T F G (fst x) (fst y) -> delivers (cancel_plus_dec_mixed T x y) valid_dec.
Proof.
intros C Vx Vy H. unfold cancel_plus_dec_mixed.
destruct (N.eq_dec (snd y) ill) as [D|D].
- assert (E : neg_dec_mixed T y = ret nai).
  { unfold neg_dec_mixed. destruct Vy as [Wy Dy]. rewrite is_valid_dec_wf, is_nai_wf, D by easy. now mreds. }
  rewrite E. mreds. eapply del_returns; [apply cancel_minus_dec_mixed_nai|apply vd_nai]; [now destruct Vx|apply wf_dec_nai|now right].
- apply del_bind with (Q := fun v => valid_dec v /\ (snd v = ill \/ ~ blind (pmax T F) (fst x) (fst v))).
  + unfold neg_dec_mixed. apply del_mif; [apply del_ret; split; [apply vd_nai|now left]|].
    destruct (neg_dec_shape y Vy) as (y' & E & V' & _ & N). specialize (N D). rewrite E. mreds.
    pose proof (neg_mixed_clear (T := T) (fst x) (fst y) (vd_wf y Vy) H) as K.
    assert (R : neg_mixed T (fst y) = ret (convert_hull T (fst y'))).
    { unfold neg_mixed. destruct (neg_ret (fst y) (vd_wf y Vy)) as (v & Rv & _ & _ & Ev).
      rewrite is_valid_wf by now apply vd_wf. mreds. rewrite Rv. mreds. now rewrite Ev, N. }
    rewrite R in K. destruct (K (Est 0 0) _ _ eq_refl) as (Wz & A).
    intros s v s' Hv. split; [exact (conv_dec T y' V' s v s' Hv)|].
    revert Hv. unfold convert_hull_dec. rewrite is_nai_wf by now destruct V'.
    destruct (deq (snd y') ill); mreds.
    * intros Hv. injection Hv as <- _. now left.
    * cbv zeta. destruct (deq (snd y') com && _); intros Hv; injection Hv as <- _; now right.
  + intros v (Vv & [A|A]).
    * eapply del_returns; [apply cancel_minus_dec_mixed_nai|apply vd_nai]; [now destruct Vx|now destruct Vv|now right].
    * apply minus_dec_mixed_clear; auto using comparable_refl, comparable_sym. now rewrite pmax_twice.
Qed.

(** ** All of them *)
Lemma canc_clear F G T f : canc F G T f -> forall x y, clear T F G x y -> wf x -> wf y -> delivers (f x y) wf.
Proof.
destruct 1; intros x y (C1 & C2 & C3 & N & P) Wx Wy.
- rewrite !pmax_same in N. now apply minus_clear.
- now apply minus_mixed_clear.
- apply plus_clear; try easy. specialize (P _ (neg_tightest_same y Wy)). now rewrite pmax_same in P.
- now apply plus_mixed_clear.
Qed.
Lemma dcanc_clear F G T f : dcanc F G T f -> forall x y, clear T F G (fst x) (fst y) -> valid_dec x -> valid_dec y -> delivers (f x y) valid_dec.
Proof.
destruct 1; intros x y (C1 & C2 & C3 & N & P) Wx Wy.
- rewrite !pmax_same in N. now apply minus_dec_clear.
- now apply minus_dec_mixed_clear.
- apply plus_dec_clear; try easy. specialize (P _ (neg_tightest_same (fst y) (vd_wf y Wy))). now rewrite pmax_same in P.
- now apply plus_dec_mixed_clear.
Qed.
Lemma built_clear : forall F x, built clear F x -> wf x.
Proof. exact (proj1 (built_gen clear canc_clear dcanc_clear)). Qed.
Lemma dbuilt_clear : forall F x, dbuilt clear F x -> valid_dec x.
Proof. exact (proj2 (built_gen clear canc_clear dcanc_clear)). Qed.

(** ** Operands without the largest number are clear *)
Lemma lost_max F a b : lost F a b -> Rabs a = B2R (@fmaxv F).
Proof.
pose proof (@fmaxv_ge1 F). intros (k & _ & [[-> _]|[-> _]]); [|rewrite Rabs_Ropp]; apply Rabs_pos_eq; lra.
Qed.
Lemma not_max_clear W {F G} (x : itv F) (y : itv G) : within F W -> within G W ->
  not_max (snd x) -> not_max (fst y) -> not_max (snd y) -> ~ blind W x y.
Proof.
intros A B M1 M2 M3. pose proof (not_max_max F W A) as L1. pose proof (not_max_max G W B) as L2. unfold not_max in *.
intros [(_ & _ & [H|H])|(_ & _ & [H|H])]; apply lost_max in H; lra.
Qed.
Lemma tame_clear T F G (x : itv F) (y : itv G) : tame T F G x y -> clear T F G x y.
Proof.
intros (C1 & C2 & C3 & M1 & M2 & M3 & M4). split; [easy|]. split; [easy|]. split; [easy|].
destruct (within_pmax3 T F G C1 C2 C3) as (A & B & C). split; [now apply not_max_clear|].
intros z Tz. destruct (within_pmax T F C1) as [A' B'].
assert (Tn : tightest (fun r => mem r y) ((fneg (snd z), fneg (fst z)) : itv T)).
{ apply (tightest_neg y z). destruct Tz as (W & E & L). split; [easy|]. split.
  - intros r (s & Hs & _ & ->). apply E. now rewrite Ropp_involutive.
  - intros z' Wz' Ez'. apply L; [easy|]. intros t Ht. apply Ez'. exists (- t). now rewrite Ropp_involutive. }
apply M4 in Tn. cbn [fst snd] in Tn. destruct Tn as [N1 N2]. apply not_max_neg in N1, N2.
unfold not_max in N1, N2. rewrite !B2R_fneg, !Ropp_involutive in N1, N2. now apply not_max_clear.
Qed.
