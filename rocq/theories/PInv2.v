(** * Proofs: invalid operands, the operations of another shape *)
From Coq Require Import ZArith NArith Reals Bool List Lra.
From Flocq Require Import Core.Core IEEE754.BinarySingleNaN.
From Verif Require Import Fmt Spec FloatFacts Exc Deco SpecApi MBase PBase MBool MOverlap MArith MElem MPow MTrig MAtan2 MDec MMixed MNum MCancel MRev
  MTrigRev PClass PConv PMixed PDec PCancel PMul PInv PInvOps Ex.
Local Open Scope R_scope.

(** ** Decoration setters *)
Lemma inv_set_dec F (x : itv F) d : ~ wf x \/ ~ valid_deco d -> reports_invalid (set_dec x d) (empty_rep, ill).
Proof.
intros H. apply inv_eq. unfold set_dec.
destruct (Classical_Prop.classic (valid_deco d)) as [V|V].
- rewrite is_valid_deco_ok by easy. destruct H as [H|H]; [|contradiction]. now ired.
- rewrite inv_valid_deco by easy. now ired.
Qed.
Lemma inv_set_dec_mixed G F (x : itv F) d : ~ wf x \/ ~ valid_deco d -> reports_invalid (set_dec_mixed G x d) (empty_rep, ill).
Proof.
intros H. apply inv_set_dec in H. apply inv_eq in H. apply inv_eq. unfold set_dec_mixed. rewrite H.
apply bind_inv_ret. unfold convert_hull_dec. change (@pair (itv F) deco empty_rep ill) with (@nai F). now rewrite nai_nai.
Qed.

(** ** Conversion keeps invalid representations invalid *)
Lemma not_wf_convert {F} W (x : itv F) : within F W -> ~ wf x -> ~ wf (convert_hull W x).
Proof.
intros Wi N [E|[r Hr]]; apply N.
- left. unfold convert_hull, empty_rep in E. injection E as E1 E2. destruct x as [a b]. cbn [fst snd] in *.
  unfold empty_rep. f_equal.
  + revert E1. unfold convert_rndd. destruct feq eqn:E; [easy|]. destruct (fviewP a) as [ | | |a Fa]; try easy.
    intros E1. destruct (fconv_exact W mode_DN a Wi Fa) as [H _]. now rewrite E1 in H.
  + revert E2. unfold convert_rndu. destruct (feq (fconv W mode_UP b) f0) eqn:E; [easy|]. destruct (fviewP b) as [ | | |b Fb]; try easy.
    intros E2. destruct (fconv_exact W mode_UP b Wi Fb) as [H _]. now rewrite E2 in H.
- right. exists r. revert Hr. unfold convert_hull, mem; simpl.
  assert (L : lb (convert_rndd W (fst x)) r <-> lb (fst x) r).
  { unfold convert_rndd. destruct feq eqn:E; [|now apply lb_exact].
    apply feq_f0 in E. rewrite <- (lb_exact W mode_DN (fst x)) by easy. now rewrite !lb_fin, (proj2 E) by easy. }
  assert (U : ub (convert_rndu W (snd x)) r <-> ub (snd x) r).
  { unfold convert_rndu. destruct feq eqn:E; [|now apply ub_exact].
    apply feq_f0 in E. rewrite <- (ub_exact W mode_UP (snd x)) by easy. now rewrite !ub_fin, (proj2 E) by easy. }
  now rewrite L, U.
Qed.
Lemma inv_mul_rev_to_pair_mixed T F G (b : itv F) (c : itv G) : comparable T F -> comparable T G -> comparable F G ->
  ~ wf b \/ ~ wf c -> reports_invalid (mul_rev_to_pair_mixed T b c) (empty_rep, empty_rep).
Proof.
intros C1 C2 C3 H. destruct (within_pmax3 T F G C1 C2 C3) as (WT & WF & WG). apply inv_eq. unfold mul_rev_to_pair_mixed.
cbv zeta. set (W := pmax (pmax T F) G) in *.
assert (E : mul_rev_to_pair (convert_hull W b) (convert_hull W c) = inv (empty_rep, empty_rep)).
{ apply inv_eq. apply inv_mul_rev_to_pair. destruct H as [H|H]; [left|right]; now apply not_wf_convert. }
rewrite E.
destruct (wf_em b) as [Wb|Wb]; destruct (wf_em c) as [Wc|Wc]; [now destruct H| | |]; ired;
apply bind_inv_inv; now apply bind_inv_ret.
Qed.
Lemma convert_hull_dec_inv {F} W (x : ditv F) : ~ wf_dec x ->
  convert_hull_dec W x = inv (convert_hull W (fst x),
    if deq (snd x) com && (feq (fst (convert_hull W (fst x))) fminf || feq (snd (convert_hull W (fst x))) finf) then dac else snd x).
Proof.
intros H. unfold convert_hull_dec. rewrite nai_inv by easy. apply mif_inv_ret. cbv zeta. now destruct (_ && _).
Qed.
(** The decorated version changes com to dac when it converts, which can make an invalid operand valid. *)
Lemma mul_rev_to_pair_dec_mixed_bad : exists (b c : ditv binary64) z, ~ wf_dec b /\ wf_dec c /\
  reports_invalid (mul_rev_to_pair_dec_mixed binary64 b c) z /\ z <> ((empty_rep, ill), (empty_rep, ill)).
Proof.
assert (N : ~ wf_dec (((fminf, @f0 binary64), com) : ditv binary64)).
{ intros [[E _]|(_ & _ & E)]; [discriminate|]. now destruct (E eq_refl). }
assert (W : wf_dec (((@f0 binary64, f0), com) : ditv binary64)) by wf_tac.
set (b := ((fminf, @f0 binary64), com) : ditv binary64) in *. set (c := ((@f0 binary64, f0), com) : ditv binary64) in *.
exists b, c, ((entire, trv), (empty, trv)). split; [easy|]. split; [easy|]. split; [|easy].
apply inv_eq. unfold mul_rev_to_pair_dec_mixed. cbv zeta. ired. apply bind_inv_inv.
rewrite convert_hull_dec_inv by easy. apply bind_inv_ret. vm_compute. reflexivity.
Qed.

(** ** Cancellative operations *)
Lemma inv_cancel_minus_x F (x y : itv F) : ~ wf x -> reports_invalid (cancel_minus x y) empty_rep.
Proof. intros H. apply inv_eq. unfold cancel_minus. now ired. Qed.
Lemma cancel_minus_silent F (x : itv F) : wf x -> ~ wf (@finf F, @finf F) /\ returns (cancel_minus x (finf, finf)) entire.
Proof.
intros W. split; [intros [E|[r [H _]]]; easy|]. apply returns_eq. unfold cancel_minus. ired. cbn [fst snd].
replace (feq (@finf F) finf) with true by reflexivity. now rewrite !orb_true_r.
Qed.
Lemma cancel_minus_bad : exists (x y z : itv binary64), wf x /\ ~ wf y /\ reports_invalid (cancel_minus x y) z /\ z <> empty_rep.
Proof.
set (x := (@f0 binary64, @f0 binary64)). set (y := (@fnan binary64, @f0 binary64)).
assert (W : wf x) by wf_tac.
assert (N : ~ wf y).
{ intros [E|[r [H1 _]]]; [discriminate|easy]. }
exists x, y, (fnan, f0). split; [easy|]. split; [easy|]. split; [|easy].
apply inv_eq. unfold cancel_minus. ired.
assert (E : overlap x y = inv o_undefined) by (apply inv_eq, inv_overlap; now right). rewrite E.
replace (feq (fst x) fminf || feq (snd x) finf || feq (fst y) fminf || feq (snd y) finf) with false by reflexivity.
apply bind_inv_ret. vm_compute. reflexivity.
Qed.
Lemma inv_cancel_plus_x F (x y : itv F) : ~ wf x -> reports_invalid (cancel_plus x y) empty_rep.
Proof.
intros H. apply inv_eq. unfold cancel_plus. destruct (wf_em y) as [W|W].
- destruct (neg_ret y W) as (y' & R & _). rewrite R. mreds. now apply inv_eq, inv_cancel_minus_x.
- assert (E : neg y = inv empty_rep) by (apply inv_eq; now apply inv_neg). rewrite E.
  apply bind_inv_inv. now apply inv_eq, inv_cancel_minus_x.
Qed.
Lemma cancel_plus_bad F (y : itv F) : ~ wf y -> reports_invalid (cancel_plus (f0, f0) y) entire.
Proof.
intros H. apply inv_eq. unfold cancel_plus.
assert (E : neg y = inv empty_rep) by (apply inv_eq; now apply inv_neg). rewrite E. apply bind_inv_ret.
unfold cancel_minus. assert (W0 : wf (@f0 F, @f0 F)) by (right; exists 0; split; [|]; cbn [fst snd]; rewrite ?lb_fin, ?ub_fin by easy; change (B2R f0) with 0; lra).
ired. reflexivity.
Qed.
Lemma inv_cancel_plus_dec F (x y : ditv F) : ~ wf_dec x \/ ~ wf_dec y -> reports_invalid (cancel_plus_dec x y) (empty_rep, ill).
Proof.
intros H. apply inv_eq. unfold cancel_plus_dec. destruct (wfd_em y) as [W|W].
- destruct (neg_dec_ret y W) as (y' & R & _). rewrite R. mreds. apply inv_eq, inv_cancel_minus_dec. now destruct H; [left|].
- assert (E : neg_dec y = inv nai) by (apply inv_eq; now apply inv_neg_dec). rewrite E.
  destruct (wfd_em x) as [V|V].
  + apply bind_inv_ret. unfold cancel_minus_dec. pose proof (@wf_nai F). ired. rewrite is_nai_wf by easy. now destruct deq.
  + apply bind_inv_inv. apply inv_eq, inv_cancel_minus_dec. now left.
Qed.
Lemma neg_dec_mixed_ret T {F} (y : ditv F) : wf_dec y -> exists y', neg_dec_mixed T y = ret y' /\ wf_dec y'.
Proof.
intros W. destruct (neg_dec_ret y W) as (y' & R & W' & I & _). unfold neg_dec_mixed. ired. rewrite is_nai_wf by easy. mreds.
destruct (deq_spec (snd y) ill) as [E|E]; mreds; [exists nai; split; [easy|apply wf_nai]|].
rewrite R. mreds. destruct (deq_spec (snd y') ill) as [E'|E'].
- exists nai. split; [now apply convert_hull_dec_nai|apply wf_nai].
- destruct (convert_type_dec_ok T y' W' E') as (z & d & Rz & _ & Wz & _). exists (z, d). split; [|easy].
  apply returns_eq in Rz. rewrite <- Rz. unfold convert_type_dec. now ired.
Qed.
Lemma inv_cancel_plus_dec_mixed T F G (x : ditv F) (y : ditv G) : ~ wf_dec x \/ ~ wf_dec y ->
  reports_invalid (cancel_plus_dec_mixed T x y) (empty_rep, ill).
Proof.
intros H. apply inv_eq. unfold cancel_plus_dec_mixed. destruct (wfd_em y) as [W|W].
- destruct (neg_dec_mixed_ret T y W) as (y' & R & _). rewrite R. mreds. apply inv_eq, inv_cancel_minus_dec_mixed. now destruct H; [left|].
- assert (E : neg_dec_mixed T y = inv nai) by (apply inv_eq; now apply inv_neg_dec_mixed). rewrite E.
  destruct (wfd_em x) as [V|V].
  + apply bind_inv_ret. unfold cancel_minus_dec_mixed, mixed_dec2. cbv zeta. pose proof (@wf_nai T). ired. rewrite is_nai_wf by easy. now destruct deq.
  + apply bind_inv_inv. apply inv_eq, inv_cancel_minus_dec_mixed. now left.
Qed.
Lemma inv_cancel_plus_mixed_x T F G (x : itv F) (y : itv G) : ~ wf x -> reports_invalid (cancel_plus_mixed T x y) empty_rep.
Proof.
intros H. apply inv_eq. unfold cancel_plus_mixed. destruct (wf_em y) as [W|W].
- destruct (neg_ret y W) as (y' & R & _). unfold neg_mixed. ired. rewrite R. mreds. apply inv_eq, inv_cancel_minus_mixed. now left.
- assert (E : neg_mixed T y = inv empty_rep) by (apply inv_eq; now apply inv_neg_mixed). rewrite E.
  apply bind_inv_inv. apply inv_eq, inv_cancel_minus_mixed. now left.
Qed.
Lemma cancel_plus_mixed_bad (y : itv binary32) : ~ wf y ->
  reports_invalid (cancel_plus_mixed binary64 (@f0 binary64, @f0 binary64) y) entire.
Proof.
intros H. apply inv_eq. unfold cancel_plus_mixed.
assert (E : neg_mixed binary64 y = inv empty_rep) by (apply inv_eq; now apply inv_neg_mixed). rewrite E. apply bind_inv_ret.
vm_compute. reflexivity.
Qed.

(** operator!= negates. *)
Lemma inv_op_ne F G (x : itv F) (y : itv G) : ~ wf x \/ ~ wf y -> reports_invalid (op_ne x y) true.
Proof.
intros H. apply inv_eq. unfold op_ne. assert (E : op_eq x y = inv false) by now apply inv_eq, inv_op_eq.
rewrite E. now rewrite mnot_inv.
Qed.

(** The decoration byte is not looked at. *)
Lemma bad_byte F : wf_dec (((@f0 F, @f0 F), 7%N) : ditv F) /\ ~ valid_deco 7%N /\
  returns (neg_dec (((@f0 F, @f0 F), 7%N) : ditv F)) ((fneg f0, fneg f0), 7%N).
Proof.
assert (W : wf_dec (((@f0 F, @f0 F), 7%N) : ditv F)).
{ right. cbn [fst snd]. split; [|split; easy]. exists 0. split; cbn [fst snd]; rewrite ?lb_fin, ?ub_fin by easy; change (B2R f0) with 0; lra. }
split; [easy|]. split.
- unfold valid_deco, ill, trv, def, dac, com. intros H. repeat (destruct H as [H|H]; [discriminate|]). discriminate.
- apply returns_eq. unfold neg_dec. ired. rewrite is_nai_wf by easy. mreds. unfold neg.
  pose proof (wf_dec_wf _ W) as W0. cbn [fst] in W0. now ired.
Qed.

(** Pairs of the decorated mixed-type reverse multiplication: correct unless an invalid operand is decorated com. *)
Lemma not_wf_dec_convert {F} W (x : ditv F) : within F W -> ~ wf_dec x -> snd x <> com ->
  ~ wf_dec (convert_hull W (fst x), snd x).
Proof.
intros Wi N D H. destruct (wf_em (fst x)) as [Wf|Wf].
- apply N. destruct H as [[E1 E2]|(E1 & E2 & _)]; cbn [fst snd] in *.
  + left. split; [|easy]. destruct Wf as [Wf|[r Hr]]; [easy|]. exfalso.
    apply (convert_hull_exact W _ Wi (or_intror (ex_intro _ r Hr)) r) in Hr. rewrite E1 in Hr. now destruct Hr.
  + right. split; [|split; [easy|now intros]]. destruct E1 as [r Hr]. exists r. now apply (convert_hull_exact W (fst x) Wi Wf) in Hr.
- apply (not_wf_convert W _ Wi Wf). destruct H as [[E1 _]|(E1 & _)]; cbn [fst snd] in *; [now left|now right].
Qed.
Lemma convert_hull_dec_valid {F} W (x : ditv F) : wf_dec x -> exists x', convert_hull_dec W x = ret x' /\ wf_dec x'.
Proof.
intros V. destruct (deq_spec (snd x) ill) as [E|E].
- exists nai. split; [now apply convert_hull_dec_nai|apply wf_nai].
- destruct (convert_type_dec_ok W x V E) as (z & d & Rz & _ & Wz & _). exists (z, d). split; [|easy].
  apply returns_eq in Rz. rewrite <- Rz. unfold convert_type_dec. now ired.
Qed.
Lemma inv_mul_rev_to_pair_dec_mixed T F G (b : ditv F) (c : ditv G) : comparable T F -> comparable T G -> comparable F G ->
  (wf_dec b \/ snd b <> com) -> (wf_dec c \/ snd c <> com) ->
  ~ wf_dec b \/ ~ wf_dec c -> reports_invalid (mul_rev_to_pair_dec_mixed T b c) ((empty_rep, ill), (empty_rep, ill)).
Proof.
intros C1 C2 C3 Db Dc H. destruct (within_pmax3 T F G C1 C2 C3) as (WT & WF & WG). apply inv_eq. unfold mul_rev_to_pair_dec_mixed.
cbv zeta. set (W := pmax (pmax T F) G) in *.
assert (E : forall b' c' : ditv W, ~ wf_dec b' \/ ~ wf_dec c' -> bind (mul_rev_to_pair_dec b' c') (fun p =>
  bind (convert_hull_dec T (fst p)) (fun u => bind (convert_hull_dec T (snd p)) (fun v => ret (u, v))))
  = inv (((@empty_rep T, ill), (@empty_rep T, ill)))).
{ intros b' c' K. assert (E : mul_rev_to_pair_dec b' c' = inv (@nai W, @nai W)) by (apply inv_eq; now apply inv_mul_rev_to_pair_dec).
  rewrite E. apply bind_inv_ret. cbn [fst snd]. rewrite (convert_hull_dec_nai T (@nai W)) by (easy || apply wf_nai). reflexivity. }
destruct (wfd_em b) as [Wb|Wb]; destruct (wfd_em c) as [Wc|Wc]; [now destruct H| | |]; ired;
try (destruct Db as [Db|Db]; [contradiction|]); try (destruct Dc as [Dc|Dc]; [contradiction|]).
- apply bind_inv_inv. destruct (convert_hull_dec_valid W b Wb) as (b' & Eb & Vb). rewrite Eb. mreds.
  rewrite convert_hull_dec_inv by easy. apply bind_inv_inv. apply E. right.
  destruct (deq_spec (snd c) com); [easy|]. cbn [andb]. now apply not_wf_dec_convert.
- apply bind_inv_inv. rewrite convert_hull_dec_inv by easy. apply bind_inv_inv.
  destruct (convert_hull_dec_valid W c Wc) as (c' & Ec & Vc). rewrite Ec. mreds. apply E. left.
  destruct (deq_spec (snd b) com); [easy|]. cbn [andb]. now apply not_wf_dec_convert.
- apply bind_inv_inv. rewrite convert_hull_dec_inv by easy. apply bind_inv_inv.
  rewrite convert_hull_dec_inv by easy. apply bind_inv_inv. apply E. left.
  destruct (deq_spec (snd b) com); [easy|]. cbn [andb]. now apply not_wf_dec_convert.
Qed.
