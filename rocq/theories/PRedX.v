(** * Proofs: exactly what sum_sqr and dot compute *)
From Coq Require Import ZArith Reals Bool List Lia Lra.
From Flocq Require Import Core.Core IEEE754.BinarySingleNaN.
From Verif Require Import Fmt FloatFacts Exc SpecRound MMpfr PMpfr PMpfr2 MRed SpecRed PRed SpecRedX.
Import ListNotations.
Local Open Scope R_scope.

Section X.
Context {F : fmt}.
Lemma least_emin : least F = bpow radix2 (emin F). Proof. unfold least, emin. f_equal. Qed.
Lemma least_pos : 0 < least F. Proof. apply bpow_gt_0. Qed.
Lemma least_half : bpow radix2 (emin F - 1) = least F / 2.
Proof. rewrite least_emin. unfold Zminus. rewrite bpow_plus. change (bpow radix2 (-(1))) with (/ 2). unfold Rdiv. reflexivity. Qed.
Lemma least_emax : least F < bpow radix2 (emax F).
Proof. rewrite least_emin. apply bpow_lt. pose proof (@emax_big F). pose proof (fmt_prec1 F). lia. Qed.

Lemma limited_total t : exists u, limited F t u.
Proof.
destruct t as [|s|r]; [eexists; constructor|eexists; constructor|].
pose proof least_pos. pose proof least_emax.
destruct (Rle_or_lt (bpow radix2 (emax F)) r); [eexists; now apply lim_above|].
destruct (Rle_or_lt r (- bpow radix2 (emax F))); [eexists; now apply lim_below|].
destruct (Rle_or_lt (least F) (Rabs r)) as [A|A].
- eexists. apply lim_same. split; [easy|]. apply Rabs_lt. lra.
- apply Rabs_lt_inv in A. destruct (Rle_or_lt (Rabs r) (least F / 2)) as [B|B]; [eexists; now apply lim_small|].
  destruct (Rle_or_lt 0 r) as [P|P].
  + rewrite Rabs_pos_eq in B by easy. eexists. apply lim_least. lra.
  + rewrite Rabs_left in B by easy. eexists. apply lim_least_neg. lra.
Qed.
Lemma limited_fun t u u' : limited F t u -> limited F t u' -> u = u'.
Proof.
pose proof least_pos. pose proof least_emax.
intros H1 H2. destruct H1; inversion H2; subst; try reflexivity; exfalso;
repeat match goal with
| H : context [Rabs ?r] |- _ => revert H; unfold Rabs; destruct (Rcase_abs r); intros end; lra.
Qed.

Section E.
Variable E0 : genv.
Let E := setup (var_of F) E0.
Lemma call_small q v : (0 < q)%Z -> generic_format radix2 (FLX_exp q) v -> Rabs v <= bpow radix2 (emin F - 1) ->
  fst (mp_call E q mode_NE v) = VNum 0.
Proof.
intros Hq Hf Hv. assert (P0 : Prec_gt_0 q) by easy.
unfold mp_call, mp_round. rewrite round_generic by auto with typeclass_instances. unfold check_range.
case Req_bool_spec; intros Z; [easy|]. pose proof (@Eemin F E0) as Ee. fold E in Ee. rewrite Ee. replace (g_emin E - 2)%Z with (emin F - 1)%Z by lia.
rewrite Rlt_bool_true. 2:{ apply Rle_lt_trans with (1 := Hv). apply bpow_lt. lia. }
rewrite Rcompare_Eq by easy. cbn [tern_le tern_ge]. 
destruct (Rle_lt_or_eq_dec _ _ Hv) as [L|L].
- rewrite Rlt_bool_true by easy. reflexivity.
- rewrite L. rewrite Rlt_bool_false by lra. rewrite Req_bool_true by easy. destruct (Rlt_bool v 0); reflexivity.
Qed.
Lemma call_least q v : (0 < q)%Z -> generic_format radix2 (FLX_exp q) v -> bpow radix2 (emin F - 1) < Rabs v < bpow radix2 (emin F) ->
  fst (mp_call E q mode_NE v) = VNum (signed v (bpow radix2 (emin F))).
Proof.
intros Hq Hf Hv. assert (P0 : Prec_gt_0 q) by easy. pose proof (bpow_gt_0 radix2 (emin F - 1)).
unfold mp_call, mp_round. rewrite round_generic by auto with typeclass_instances. unfold check_range.
rewrite Req_bool_false by (intros ->; rewrite Rabs_R0 in Hv; lra).
pose proof (@Eemin F E0) as Ee. fold E in Ee. rewrite Ee. replace (g_emin E - 2)%Z with (emin F - 1)%Z by lia.
rewrite Rlt_bool_true by easy. rewrite Rlt_bool_false by lra. rewrite Req_bool_false by lra. reflexivity.
Qed.
Lemma elem_limited (x y : float F) t u : product (value x) (value y) t -> limited F t u ->
  x_of (mp_set E (2 * prec F) (mp_mul E (2 * prec F) (mp_of E (2 * prec F) x) (mp_of E (2 * prec F) y))) = u.
Proof.
intros HP HL. pose proof (fmt_prec1 F) as Hp.
assert (S : (exists r, t = Real r) \/ (u = t /\ forall r, t <> Real r)).
{ destruct HL; eauto; right; easy. }
destruct S as [[r ->]|[-> N]].
2:{ apply elem_mul; [easy|]. intros r ->. now destruct (N r). }
assert (V : is_finite x = true /\ is_finite y = true /\ r = B2R x * B2R y).
{ destruct x, y; inversion HP; subst; easy. }
destruct V as (Fx & Fy & ->).
assert (G : generic_format radix2 (FLX_exp (2 * prec F)) (B2R x * B2R y)) by (apply prod_flx; [lia|apply float_flx|apply float_flx]).
pose proof (bpow_gt_0 radix2 (emax F)) as PX. pose proof least_pos as PL. pose proof least_half as LH. pose proof least_emin as LE. pose proof least_emax as LX.
assert (K : forall v, (v = 0 \/ Rabs v = least F) -> fst (mp_call E (2 * prec F) mode_NE v) = VNum v).
{ intros v Hv. apply set_exact; [lia| |].
  - destruct Hv as [->|Hv]; [apply generic_format_0|].
    assert (B : generic_format radix2 (FLX_exp (2 * prec F)) (least F)).
    { unfold least. apply generic_format_bpow. unfold FLX_exp. lia. }
    destruct (Rcase_abs v) as [H|H].
    + rewrite Rabs_left in Hv by easy. replace v with (- least F) by lra. now apply generic_format_opp.
    + rewrite Rabs_pos_eq in Hv by lra. now rewrite Hv.
  - destruct Hv as [->|Hv]; [now left|right]. rewrite Hv, <- LE. lra. }
inversion HL as [|s|r R Er|r R Er|r R Er|r R Er|r R Er|r R Er]; subst; clear HL.
- apply elem_mul; [easy|]. intros r Hr. injection Hr as <-. right. now rewrite <- LE.
- unfold E. rewrite prod_big; try easy; [|rewrite Rabs_pos_eq; lra]. rewrite Rlt_bool_false by lra. easy.
- unfold E. rewrite prod_big; try easy; [|rewrite Rabs_left; lra]. rewrite Rlt_bool_true by lra. easy.
- unfold E. rewrite !mp_of_fin by (easy || lia). fold E. unfold mp_mul. rewrite call_small; [|lia|easy|now rewrite LH].
  unfold mp_set. rewrite K by now left. easy.
- unfold E. rewrite !mp_of_fin by (easy || lia). fold E. unfold mp_mul. rewrite call_least; [|lia|easy|rewrite LH, <- LE, Rabs_pos_eq; lra].
  unfold signed. rewrite Rlt_bool_false by lra. rewrite <- LE. unfold mp_set. rewrite K; [easy|]. right. apply Rabs_pos_eq. lra.
- unfold E. rewrite !mp_of_fin by (easy || lia). fold E. unfold mp_mul. rewrite call_least; [|lia|easy|rewrite LH, <- LE, Rabs_left; lra].
  unfold signed. rewrite Rlt_bool_true by lra. rewrite <- LE. unfold mp_set. rewrite K; [easy|]. right. rewrite Rabs_Ropp. apply Rabs_pos_eq. lra.
Qed.
End E.

Lemma sum_sqr_exact (l : list (float F)) ts us rnd E : Forall2 (fun x t => product (value x) (value x) t) l ts -> Forall2 (limited F) ts us ->
  reduces (get_mpfr_rnd_mode rnd) us (fst (sum_sqr l rnd E)).
Proof.
intros H. revert us. intros us HR. apply red_core. rewrite map_map. revert us HR. induction H as [|x t l ts H1 H2 IH]; intros us HR; inversion HR; subst; [easy|].
cbn [map]. f_equal; [eapply elem_limited; eassumption|now apply IH].
Qed.
Lemma dot_exact (a b : list (float F)) ts us rnd E : (length a <= length b)%nat ->
  Forall2 (fun xy t => product (value (fst xy)) (value (snd xy)) t) (combine a b) ts -> Forall2 (limited F) ts us ->
  exists z E', dot a b rnd E = Ret (z, E') /\ reduces (get_mpfr_rnd_mode rnd) us z.
Proof.
intros HL H HR. unfold dot. replace (length b <? length a)%nat with false by (symmetry; apply Nat.ltb_ge; easy).
eexists _, _. split; [apply f_equal, surjective_pairing|]. apply red_core. rewrite map_map.
revert us HR. induction H as [|x t l ts H1 H2 IH]; intros us HR; inversion HR; subst; [easy|].
cbn [map]. f_equal; [eapply elem_limited; eassumption|now apply IH].
Qed.

(** ** Squares that do not underflow *)
Lemma square_cases (x : float F) t : product (value x) (value x) t ->
  (is_finite x = true /\ t = Real (B2R x * B2R x)) \/ (is_finite x = false /\ (t = Undefined \/ t = Infinite false)).
Proof.
destruct x as [s|s| |s m e B]; intros H; inversion H; subst; try (left; easy); right; split; try easy; try (now left); right.
now destruct s.
Qed.
Lemma squares_exist (l : list (float F)) : exists ts, Forall2 (fun x t => product (value x) (value x) t) l ts.
Proof.
induction l as [|x l [ts H]]; [now exists []|].
assert (P : exists t, product (value x) (value x) t).
{ destruct x; cbn [value]; eexists; constructor. }
destruct P as [t P]. exists (t :: ts). now constructor.
Qed.
Definition no_underflow (l : list (float F)) : Prop := forall x, In x l -> is_finite x = true -> B2R x = 0 \/ least F <= B2R x * B2R x.

Lemma limit_squares (l : list (float F)) ts us : no_underflow l -> Forall2 (fun x t => product (value x) (value x) t) l ts -> Forall2 (limited F) ts us ->
  ~ In (Infinite true) us /\ ~ In (Infinite true) ts /\ (In Undefined ts <-> In Undefined us) /\ (In (Infinite false) ts -> In (Infinite false) us) /\
  ((forall x, In x l -> is_finite x = true -> B2R x * B2R x < bpow radix2 (emax F)) -> us = ts) /\
  ((exists x, In x l /\ is_finite x = true /\ bpow radix2 (emax F) <= B2R x * B2R x) -> In (Infinite false) us) /\
  ((forall x, In x l -> is_finite x = true) -> ts = map Real (map (fun x => B2R x * B2R x) l) /\ ~ In Undefined ts) /\
  ((exists x, In x l /\ is_finite x = false) -> In Undefined ts \/ In (Infinite false) ts).
Proof.
pose proof least_pos as PL. pose proof least_emax as LX.
intros HU H. revert us. induction H as [|x t l ts H1 H2 IH]; intros us HR; inversion HR as [|t' u ts' us' L1 L2]; subst.
- repeat split; try easy; intros (x & [] & _).
- destruct (IH ltac:(intros y Hy; apply HU; now right) us' L2) as (I1 & I2 & I3 & I4 & I5 & I6 & I7 & I8). clear IH.
  destruct (square_cases x t H1) as [[Fx ->]|[Fx Ht]].
  + assert (S : 0 <= B2R x * B2R x) by apply Rle_0_sqr.
    assert (D : (B2R x * B2R x < bpow radix2 (emax F) /\ u = Real (B2R x * B2R x)) \/ (bpow radix2 (emax F) <= B2R x * B2R x /\ u = Infinite false)).
    { destruct (Rlt_or_le (B2R x * B2R x) (bpow radix2 (emax F))) as [A|A]; [left|right]; (split; [easy|]); apply (limited_fun _ _ _ L1).
      - destruct (HU x (or_introl eq_refl) Fx) as [Z|Z].
        + rewrite Z, Rmult_0_l. apply lim_small. rewrite Rabs_R0. lra.
        + apply lim_same. rewrite Rabs_pos_eq; lra.
      - now apply lim_above. }
    destruct D as [[D ->]|[D ->]].
    * split; [intros [Q|Q]; [discriminate|now apply I1]|]. split; [intros [Q|Q]; [discriminate|now apply I2]|].
      split; [split; (intros [Q|Q]; [discriminate|right; now apply I3])|]. split; [intros [Q|Q]; [discriminate|right; now apply I4]|].
      split; [intros Q; f_equal; apply I5; intros y Hy; apply Q; now right|].
      split; [intros (y & [<-|Hy] & Fy & By); [lra|right; apply I6; now exists y]|].
      split; [intros Q; destruct (I7 ltac:(intros y Hy; apply Q; now right)) as [-> I7']; split; [easy|intros [Z|Z]; [discriminate|now apply I7']]|].
      intros (y & [<-|Hy] & Fy); [congruence|]. destruct (I8 ltac:(now exists y)) as [Q|Q]; [left|right]; now right.
    * split; [intros [Q|Q]; [discriminate|now apply I1]|]. split; [intros [Q|Q]; [discriminate|now apply I2]|].
      split; [split; (intros [Q|Q]; [discriminate|right; now apply I3])|]. split; [intros _; now left|].
      split; [intros Q; specialize (Q x (or_introl eq_refl) Fx); lra|].
      split; [intros _; now left|].
      split; [intros Q; destruct (I7 ltac:(intros y Hy; apply Q; now right)) as [-> I7']; split; [easy|intros [Z|Z]; [discriminate|now apply I7']]|].
      intros (y & [<-|Hy] & Fy); [congruence|]. destruct (I8 ltac:(now exists y)) as [Q|Q]; [left|right]; now right.
  + assert (U : u = t) by (destruct Ht as [-> | ->]; inversion L1; easy). subst u.
    split; [intros [Q|Q]; [destruct Ht as [-> | ->]; discriminate|now apply I1]|].
    split; [intros [Q|Q]; [destruct Ht as [-> | ->]; discriminate|now apply I2]|].
    split; [split; (intros [Q|Q]; [now left|right; now apply I3])|]. split; [intros [Q|Q]; [now left|right; now apply I4]|].
    split; [intros Q; f_equal; apply I5; intros y Hy; apply Q; now right|].
    split; [intros (y & [<-|Hy] & Fy & By); [congruence|right; apply I6; now exists y]|].
    split; [intros Q; specialize (Q x (or_introl eq_refl)); congruence|].
    intros _. destruct Ht as [-> | ->]; [left|right]; now left.
Qed.

Lemma sum_ge (f : float F -> R) l x : (forall y, 0 <= f y) -> In x l -> f x <= fold_right Rplus 0 (map f l).
Proof.
intros P. assert (Q : forall l, 0 <= fold_right Rplus 0 (map f l)) by (intros l'; induction l' as [|y l' IH]; cbn; [lra|specialize (P y); lra]).
induction l as [|y l IH]; intros [].
- subst y. cbn. specialize (Q l). lra.
- cbn. specialize (IH H). specialize (P y). lra.
Qed.
Lemma total_fun_inf l t s : In (Infinite s) l -> ~ In Undefined l -> ~ In (Infinite (negb s)) l -> total l t -> t = Infinite s.
Proof.
intros A B C H. destruct H as [l H|l H1 H2|l s' H1 H2 H3|l].
- contradiction.
- destruct s; contradiction.
- destruct s, s'; try easy; contradiction.
- now apply real_nin in A.
Qed.
Lemma total_fun_undef l t : In Undefined l -> total l t -> t = Undefined.
Proof.
intros A H. destruct H as [l H|l H1 H2|l s' H1 H2 H3|l]; try easy. now apply real_nin in A.
Qed.
Lemma total_fun_real l t : total (map Real l) t -> t = Real (fold_right Rplus 0 l).
Proof.
intros H. remember (map Real l) as l' eqn:El. destruct H as [l' H|l' H1 H2|l' s' H1 H2 H3|l'].
- subst. now apply real_nin in H.
- subst. now apply real_nin in H1.
- subst. now apply real_nin in H1.
- do 2 f_equal. revert l El. induction l' as [|a l' IH]; intros [|b l] El; try easy. injection El as -> El. f_equal. now apply IH.
Qed.
Lemma sum_sqr_iff (l : list (float F)) ts rnd E : no_underflow l -> Forall2 (fun x t => product (value x) (value x) t) l ts ->
  (reduces (get_mpfr_rnd_mode rnd) ts (fst (sum_sqr l rnd E)) <->
   rnd = upward \/ rnd = to_nearest \/ (exists x, In x l /\ is_finite x = false) \/
   (forall x, In x l -> B2R x * B2R x < bpow radix2 (emax F))).
Proof.
intros HU H.
assert (EU : exists us, Forall2 (limited F) ts us).
{ clear. induction ts as [|t ts [us H]]; [now exists []|]. destruct (limited_total t) as [u Hu]. exists (u :: us). now constructor. }
destruct EU as [us HL].
pose proof (sum_sqr_exact l ts us rnd E H HL) as K.
destruct (limit_squares l ts us HU H HL) as (I1 & I2 & I3 & I4 & I5 & I6 & I7 & I8).
set (z := fst (sum_sqr l rnd E)) in *. clearbody z.
assert (D1 : (exists x, In x l /\ is_finite x = false) \/ (forall x, In x l -> is_finite x = true)).
{ clear. induction l as [|x l [(y & Hy & Fy)|IH]]; [right; easy|left; exists y; split; [now right|easy]|].
  destruct (is_finite x) eqn:Ex; [right|left; exists x; split; [now left|easy]]. intros y [<-|Hy]; auto. }
destruct D1 as [N|N].
- split; [intros _; right; right; now left|]. intros _.
  destruct (I8 N) as [A|A].
  + intros t Ht. rewrite (total_fun_undef ts t A Ht). destruct (total_exists us) as [u Hu]. specialize (K u Hu).
    now rewrite (total_fun_undef us u (proj1 I3 A) Hu) in K.
  + destruct (total_exists us) as [u Hu]. specialize (K u Hu).
    assert (D : In Undefined us \/ ~ In Undefined us).
    { clear. induction us as [|u us [IH|IH]]; [now right|left; now right|]. destruct u; [left; now left|right|right]; intros [|]; easy. }
    destruct D as [D|D].
    * intros t Ht. rewrite (total_fun_undef ts t (proj2 I3 D) Ht). now rewrite (total_fun_undef us u D Hu) in K.
    * rewrite (total_fun_inf us u false (I4 A) D I1 Hu) in K. intros t Ht.
      rewrite (total_fun_inf ts t false A ltac:(now rewrite I3) I2 Ht). exact K.
- destruct (I7 N) as [Ets NU].
  assert (D2 : (exists x, In x l /\ bpow radix2 (emax F) <= B2R x * B2R x) \/ (forall x, In x l -> B2R x * B2R x < bpow radix2 (emax F))).
  { clear. induction l as [|x l [(y & Hy & Fy)|IH]]; [right; easy|left; exists y; split; [now right|easy]|].
    destruct (Rlt_or_le (B2R x * B2R x) (bpow radix2 (emax F))) as [Ex|Ex]; [right|left; exists x; split; [now left|easy]].
    intros y [<-|Hy]; auto. }
  destruct D2 as [(x & Hx & Bx)|D2].
  + assert (A : In (Infinite false) us) by (apply I6; exists x; auto).
    assert (D : ~ In Undefined us) by now rewrite <- I3.
    destruct (total_exists us) as [u Hu]. specialize (K u Hu). rewrite (total_fun_inf us u false A D I1 Hu) in K. cbv beta iota in K. subst z.
    set (S := fold_right Rplus 0 (map (fun x => B2R x * B2R x) l)).
    assert (HS : bpow radix2 (emax F) <= S).
    { apply Rle_trans with (1 := Bx). apply (sum_ge (fun x => B2R x * B2R x)); [intros y; apply Rle_0_sqr|easy]. }
    pose proof (bpow_gt_0 radix2 (emax F)) as P.
    assert (HY : bpow radix2 (emax F) <= round radix2 (FLT_exp (3 - emax F - prec F) (prec F)) (round_mode (get_mpfr_rnd_mode rnd)) S).
    { assert (Pr : Prec_gt_0 (prec F)) by (pose proof (fmt_prec1 F); unfold Prec_gt_0; lia).
      apply round_ge_generic; auto with typeclass_instances. apply generic_format_bpow. unfold FLT_exp. pose proof (fmt_prec1 F). pose proof (fmt_emax F). lia. }
    assert (R : reduces (get_mpfr_rnd_mode rnd) ts (B754_infinity false : float F) <-> (rnd = upward \/ rnd = to_nearest)).
    { split.
      - intros R. specialize (R (Real S)). rewrite Ets in R. specialize (R (total_real _)). cbv beta iota in R. destruct R as [[_ R] _]. cbv zeta in R.
        fold S in R. rewrite Rabs_pos_eq in R by lra. specialize (R HY). rewrite Rlt_bool_false in R by lra.
        destruct rnd; cbn [get_mpfr_rnd_mode] in R; auto; destruct R; discriminate.
      - intros R t Ht. rewrite Ets in Ht. apply total_fun_real in Ht. subst t. fold S. split; [|easy]. unfold rounded. cbv zeta.
        rewrite (Rabs_pos_eq (round _ _ _ _)) by lra. split; [intros; exfalso; lra|]. intros _. rewrite Rlt_bool_false by lra.
        destruct R as [-> | ->]; reflexivity. }
    rewrite R. split; [tauto|]. intros [Q|[Q|[(y & Hy & Fy)|Q]]]; auto; [|specialize (Q x Hx); lra].
    rewrite N in Fy by easy. discriminate.
  + split; [auto|]. intros _. rewrite <- I5; [exact K|]. intros; auto.
Qed.
End X.
