(** * Proofs: arithmetic operations return the tightest enclosure *)

From Coq Require Import ZArith NArith Reals Bool Lia Lra Psatz.
From Flocq Require Import Core.Core IEEE754.BinarySingleNaN.
From Verif Require Import Fmt Spec FloatFacts Exc Deco SpecApi MBase PBase MBool MArith.

Local Open Scope R_scope.

(** The simple cases of [computes_tightest]. *)
Lemma ct_ret {F} (m : M (itv F)) z S : m = ret z -> tightest S z -> computes_tightest m S.
Proof. intros -> H. exists z. now split. Qed.

Section E.
Context {F : fmt}.
Implicit Types a b c l u : float F.
Implicit Types x y z : itv F.

(** ** End points *)
Definition endp a x : Prop :=
  (is_finite a = true /\ mem (B2R a) x) \/
  (a = fminf /\ forall B, exists r, mem r x /\ r < B) \/
  (a = finf /\ forall B, exists r, mem r x /\ B < r).

Lemma endp_l x : wview x -> isnan (fst x) = false -> endp (fst x) x.
Proof.
intros [ | |u Hu|l Hl|l u Hl Hu Hlu] E; simpl in *; try easy.
- right; left. split; [easy|]. intros B. exists (B - 1). split; [now split|lra].
- right; left. split; [easy|]. intros B. exists (Rmin (B - 1) (B2R u)).
  split; [split; simpl; [easy|rewrite ub_fin by easy; apply Rmin_r]|].
  generalize (Rmin_l (B - 1) (B2R u)). lra.
- left. split; [easy|]. split; simpl; [rewrite lb_fin by easy; lra|easy].
- left. split; [easy|]. split; simpl; [rewrite lb_fin by easy; lra|rewrite ub_fin by easy; lra].
Qed.
Lemma endp_u x : wview x -> isnan (fst x) = false -> endp (snd x) x.
Proof.
intros [ | |u Hu|l Hl|l u Hl Hu Hlu] E; simpl in *; try easy.
- right; right. split; [easy|]. intros B. exists (B + 1). split; [now split|lra].
- left. split; [easy|]. split; simpl; [easy|rewrite ub_fin by easy; lra].
- right; right. split; [easy|]. intros B. exists (Rmax (B + 1) (B2R l)).
  split; [split; simpl; [rewrite lb_fin by easy; apply Rmax_r|easy]|].
  generalize (Rmax_l (B + 1) (B2R l)). lra.
- left. split; [easy|]. split; simpl; [rewrite lb_fin by easy; lra|rewrite ub_fin by easy; lra].
Qed.

Lemma wview_nonempty x : wview x -> isnan (fst x) = false -> exists r, mem r x.
Proof. intros H. apply wview_wf in H. now apply wf_nonempty. Qed.

Lemma mem_fin_l l u r : mem r (l, u) -> is_finite l = true -> B2R l <= r.
Proof. intros [H _] Hl. simpl in H. now rewrite lb_fin in H. Qed.
Lemma mem_fin_u l u r : mem r (l, u) -> is_finite u = true -> r <= B2R u.
Proof. intros [_ H] Hl. simpl in H. now rewrite ub_fin in H. Qed.

(** ** Arithmetic with infinities *)
Lemma radd_minf_l m b : is_finite b = true \/ b = fminf -> radd m fminf b = fminf.
Proof. intros [H| ->]; [destruct b as [|[]| |]|]; easy. Qed.
Lemma radd_minf_r m b : is_finite b = true -> radd m b fminf = fminf.
Proof. intros H; destruct b as [|[]| |]; easy. Qed.
Lemma radd_pinf_l m b : is_finite b = true \/ b = finf -> radd m finf b = finf.
Proof. intros [H| ->]; [destruct b as [|[]| |]|]; easy. Qed.
Lemma radd_pinf_r m b : is_finite b = true -> radd m b finf = finf.
Proof. intros H; destruct b as [|[]| |]; easy. Qed.
Lemma rsub_minf_l m b : is_finite b = true \/ b = finf -> rsub m fminf b = fminf.
Proof. intros [H| ->]; [destruct b as [|[]| |]|]; easy. Qed.
Lemma rsub_pinf_r m b : is_finite b = true -> rsub m b finf = fminf.
Proof. intros H; destruct b as [|[]| |]; easy. Qed.
Lemma rsub_pinf_l m b : is_finite b = true \/ b = fminf -> rsub m finf b = finf.
Proof. intros [H| ->]; [destruct b as [|[]| |]|]; easy. Qed.
Lemma rsub_minf_r m b : is_finite b = true -> rsub m b fminf = finf.
Proof. intros H; destruct b as [|[]| |]; easy. Qed.

Lemma radd_RD a b : is_finite a = true -> is_finite b = true -> is_RD (B2R a + B2R b) (radd mode_DN a b).
Proof. intros; now apply rnds_DN, radd_rnds. Qed.
Lemma radd_RU a b : is_finite a = true -> is_finite b = true -> is_RU (B2R a + B2R b) (radd mode_UP a b).
Proof. intros; now apply rnds_UP, radd_rnds. Qed.
Lemma rsub_RD a b : is_finite a = true -> is_finite b = true -> is_RD (B2R a - B2R b) (rsub mode_DN a b).
Proof. intros; now apply rnds_DN, rsub_rnds. Qed.
Lemma rsub_RU a b : is_finite a = true -> is_finite b = true -> is_RU (B2R a - B2R b) (rsub mode_UP a b).
Proof. intros; now apply rnds_UP, rsub_rnds. Qed.

(** The lower end of a non-empty interval. *)
Definition low_end a x : Prop :=
  (is_finite a = true /\ mem (B2R a) x /\ forall r, mem r x -> B2R a <= r) \/
  (a = fminf /\ unb_below (fun r => mem r x)).
Definition upp_end a x : Prop :=
  (is_finite a = true /\ mem (B2R a) x /\ forall r, mem r x -> r <= B2R a) \/
  (a = finf /\ unb_above (fun r => mem r x)).

Lemma low_end_fst x : wview x -> isnan (fst x) = false -> low_end (fst x) x.
Proof.
intros W E. destruct (endp_l x W E) as [[H1 H2]|[H|[H1 H2]]].
- left. split; [easy|split; [easy|]]. intros r [Hr _]. now rewrite lb_fin in Hr.
- now right.
- destruct W; simpl in H1; subst; easy.
Qed.
Lemma upp_end_snd x : wview x -> isnan (fst x) = false -> upp_end (snd x) x.
Proof.
intros W E. destruct (endp_u x W E) as [[H1 H2]|[[H1 H2]|H]].
- left. split; [easy|split; [easy|]]. intros r [_ Hr]. now rewrite ub_fin in Hr.
- destruct W; simpl in H1; subst; easy.
- now right.
Qed.

(** ** Addition and subtraction *)
Lemma glow_add a b x y : low_end a x -> low_end b y -> (exists r, mem r x) -> (exists s, mem s y) ->
  glow (image2 everywhere2 Rplus x y) (radd mode_DN a b).
Proof.
intros [(Fa & Ma & La)|(-> & Ua)] [(Fb & Mb & Lb)|(-> & Ub)] [r0 Hr0] [s0 Hs0].
- apply glow_glb with (B2R a + B2R b); [|now apply radd_RD].
  apply glbR_min.
  + now exists (B2R a), (B2R b).
  + intros t (r & s & Hr & Hs & _ & ->). specialize (La r Hr). specialize (Lb s Hs). lra.
- rewrite radd_minf_r by easy. apply glow_unb. intros B.
  destruct (Ub (B - r0)) as (s & Hs & Hs'). exists (r0 + s). split; [now exists r0, s|lra].
- rewrite radd_minf_l by now left. apply glow_unb. intros B.
  destruct (Ua (B - s0)) as (r & Hs & Hs'). exists (r + s0). split; [now exists r, s0|lra].
- rewrite radd_minf_l by now right. apply glow_unb. intros B.
  destruct (Ua (B - s0)) as (r & Hs & Hs'). exists (r + s0). split; [now exists r, s0|lra].
Qed.
Lemma gupp_add a b x y : upp_end a x -> upp_end b y -> (exists r, mem r x) -> (exists s, mem s y) ->
  gupp (image2 everywhere2 Rplus x y) (radd mode_UP a b).
Proof.
intros [(Fa & Ma & La)|(-> & Ua)] [(Fb & Mb & Lb)|(-> & Ub)] [r0 Hr0] [s0 Hs0].
- apply gupp_lub with (B2R a + B2R b); [|now apply radd_RU].
  apply lubR_max.
  + now exists (B2R a), (B2R b).
  + intros t (r & s & Hr & Hs & _ & ->). specialize (La r Hr). specialize (Lb s Hs). lra.
- rewrite radd_pinf_r by easy. apply gupp_unb. intros B.
  destruct (Ub (B - r0)) as (s & Hs & Hs'). exists (r0 + s). split; [now exists r0, s|lra].
- rewrite radd_pinf_l by now left. apply gupp_unb. intros B.
  destruct (Ua (B - s0)) as (r & Hs & Hs'). exists (r + s0). split; [now exists r, s0|lra].
- rewrite radd_pinf_l by now right. apply gupp_unb. intros B.
  destruct (Ua (B - s0)) as (r & Hs & Hs'). exists (r + s0). split; [now exists r, s0|lra].
Qed.
Lemma glow_sub a b x y : low_end a x -> upp_end b y -> (exists r, mem r x) -> (exists s, mem s y) ->
  glow (image2 everywhere2 Rminus x y) (rsub mode_DN a b).
Proof.
intros [(Fa & Ma & La)|(-> & Ua)] [(Fb & Mb & Lb)|(-> & Ub)] [r0 Hr0] [s0 Hs0].
- apply glow_glb with (B2R a - B2R b); [|now apply rsub_RD].
  apply glbR_min.
  + now exists (B2R a), (B2R b).
  + intros t (r & s & Hr & Hs & _ & ->). specialize (La r Hr). specialize (Lb s Hs). lra.
- rewrite rsub_pinf_r by easy. apply glow_unb. intros B.
  destruct (Ub (r0 - B)) as (s & Hs & Hs'). exists (r0 - s). split; [now exists r0, s|lra].
- rewrite rsub_minf_l by now left. apply glow_unb. intros B.
  destruct (Ua (B + s0)) as (r & Hs & Hs'). exists (r - s0). split; [now exists r, s0|lra].
- rewrite rsub_minf_l by now right. apply glow_unb. intros B.
  destruct (Ua (B + s0)) as (r & Hs & Hs'). exists (r - s0). split; [now exists r, s0|lra].
Qed.
Lemma gupp_sub a b x y : upp_end a x -> low_end b y -> (exists r, mem r x) -> (exists s, mem s y) ->
  gupp (image2 everywhere2 Rminus x y) (rsub mode_UP a b).
Proof.
intros [(Fa & Ma & La)|(-> & Ua)] [(Fb & Mb & Lb)|(-> & Ub)] [r0 Hr0] [s0 Hs0].
- apply gupp_lub with (B2R a - B2R b); [|now apply rsub_RU].
  apply lubR_max.
  + now exists (B2R a), (B2R b).
  + intros t (r & s & Hr & Hs & _ & ->). specialize (La r Hr). specialize (Lb s Hs). lra.
- rewrite rsub_minf_r by easy. apply gupp_unb. intros B.
  destruct (Ub (r0 - B)) as (s & Hs & Hs'). exists (r0 - s). split; [now exists r0, s|lra].
- rewrite rsub_pinf_l by now left. apply gupp_unb. intros B.
  destruct (Ua (B + s0)) as (r & Hs & Hs'). exists (r - s0). split; [now exists r, s0|lra].
- rewrite rsub_pinf_l by now right. apply gupp_unb. intros B.
  destruct (Ua (B + s0)) as (r & Hs & Hs'). exists (r - s0). split; [now exists r, s0|lra].
Qed.

Lemma image2_empty_l dom f (x y : itv F) r : isnan (fst x) = true -> wf x -> ~ image2 dom f x y r.
Proof. intros E W (s & t & Hs & _). apply wf_nan_l in E; [|easy]. subst x. now apply mem_empty in Hs. Qed.
Lemma image2_empty_r dom f (x y : itv F) r : isnan (fst y) = true -> wf y -> ~ image2 dom f x y r.
Proof. intros E W (s & t & _ & Hs & _). apply wf_nan_l in E; [|easy]. subst y. now apply mem_empty in Hs. Qed.
Lemma image1_empty dom f (x : itv F) r : isnan (fst x) = true -> wf x -> ~ image1 dom f x r.
Proof. intros E W (s & Hs & _). apply wf_nan_l in E; [|easy]. subst x. now apply mem_empty in Hs. Qed.

Lemma add_tightest x y : wf x -> wf y ->
  computes_tightest (add x y) (image2 everywhere2 Rplus x y).
Proof.
intros Wx Wy. unfold add. vred.
destruct (isnan (fst x)) eqn:Ex; vred.
{ eapply ct_ret; [reflexivity|]. apply tightest_empty. intros; now apply image2_empty_l. }
destruct (isnan (fst y)) eqn:Ey; vred.
{ eapply ct_ret; [reflexivity|]. apply tightest_empty. intros; now apply image2_empty_r. }
eapply ct_ret; [reflexivity|].
pose proof (wf_nonempty x Wx Ex) as [r Hr]. pose proof (wf_nonempty y Wy Ey) as [s Hs].
apply wf_view in Wx. apply wf_view in Wy.
apply tightest_intro.
- now exists (r + s), r, s.
- apply glow_add; auto using low_end_fst; eauto.
- apply gupp_add; auto using upp_end_snd; eauto.
Qed.

Lemma sub_tightest x y : wf x -> wf y ->
  computes_tightest (sub x y) (image2 everywhere2 Rminus x y).
Proof.
intros Wx Wy. unfold sub. vred.
destruct (isnan (fst x)) eqn:Ex; vred.
{ eapply ct_ret; [reflexivity|]. apply tightest_empty. intros; now apply image2_empty_l. }
destruct (isnan (fst y)) eqn:Ey; vred.
{ eapply ct_ret; [reflexivity|]. apply tightest_empty. intros; now apply image2_empty_r. }
eapply ct_ret; [reflexivity|].
pose proof (wf_nonempty x Wx Ex) as [r Hr]. pose proof (wf_nonempty y Wy Ey) as [s Hs].
apply wf_view in Wx. apply wf_view in Wy.
apply tightest_intro.
- now exists (r - s), r, s.
- apply glow_sub; auto using low_end_fst, upp_end_snd; eauto.
- apply gupp_sub; auto using low_end_fst, upp_end_snd; eauto.
Qed.

(** ** Negation and identity *)
Lemma tightest_self x S : wf x -> (forall r, S r <-> mem r x) -> tightest S x.
Proof.
intros W H. split; [easy|split].
- intros r Hr. now apply H.
- intros z Wz Hz r Hr. apply Hz. now apply H.
Qed.

Lemma pos_tightest x : wf x -> computes_tightest (pos x) (image1 everywhere (fun r => r) x).
Proof.
intros W. unfold pos. vred. eapply ct_ret; [reflexivity|].
apply tightest_self; [easy|]. intros r. split.
- now intros (s & Hs & _ & ->).
- intros H. now exists r.
Qed.

Lemma mem_neg l u r : mem r (fneg u, fneg l) <-> mem (- r) (l, u).
Proof. unfold mem, fneg; simpl. rewrite lb_opp, ub_opp. tauto. Qed.

Lemma neg_tightest x : wf x -> computes_tightest (neg x) (image1 everywhere Ropp x).
Proof.
intros W. unfold neg. vred.
destruct (isnan (fst x)) eqn:Ex; vred.
{ eapply ct_ret; [reflexivity|]. apply tightest_empty. intros; now apply image1_empty. }
eapply ct_ret; [reflexivity|].
pose proof (wf_nonempty x W Ex) as [r0 Hr0].
assert (H : forall r, mem r (fneg (snd x), fneg (fst x)) <-> mem (- r) x).
{ intros r. destruct x as [l u]. apply mem_neg. }
apply tightest_self.
- right. exists (- r0). apply H. now rewrite Ropp_involutive.
- intros r. rewrite H. split.
  + intros (s & Hs & _ & ->). now rewrite Ropp_involutive.
  + intros Hr. exists (- r). now rewrite Ropp_involutive.
Qed.

End E.
