(** * Proofs: reductions *)
From Coq Require Import ZArith Reals Bool List Lia Lra.
From Flocq Require Import Core.Core IEEE754.BinarySingleNaN.
From Verif Require Import Fmt FloatFacts Exc SpecRound MMpfr PMpfr PMpfr2 MRed SpecRed.
Import ListNotations.
Local Open Scope R_scope.

Definition x_of (y : mval) : xreal := match y with VNaN => Undefined | VInf s => Infinite s | VNum r => Real r end.

Lemma in_x_nan l : In Undefined (map x_of l) -> existsb is_vnan l = true.
Proof. intros H. apply in_map_iff in H. destruct H as [y [E H]]. apply existsb_exists. exists y. split; [easy|]. now destruct y. Qed.
Lemma in_x_inf s l : In (Infinite s) (map x_of l) -> existsb (is_vinf s) l = true.
Proof.
intros H. apply in_map_iff in H. destruct H as [y [E H]]. apply existsb_exists. exists y. split; [easy|].
destruct y; try easy. injection E as ->. apply eqb_reflx.
Qed.
Lemma nin_x_nan l : ~ In Undefined (map x_of l) -> existsb is_vnan l = false.
Proof.
intros H. apply not_true_is_false. intros E. apply H. apply existsb_exists in E. destruct E as [y [E1 E2]].
apply in_map_iff. exists y. split; [|easy]. now destruct y.
Qed.
Lemma nin_x_inf s l : ~ In (Infinite s) (map x_of l) -> existsb (is_vinf s) l = false.
Proof.
intros H. apply not_true_is_false. intros E. apply H. apply existsb_exists in E. destruct E as [y [E1 E2]].
apply in_map_iff. exists y. split; [|easy]. destruct y; try easy. now apply eqb_prop in E2; subst.
Qed.
Lemma all_real l l' : map x_of l = map Real l' -> map num l = l'.
Proof.
revert l'. induction l as [|y l IH]; intros [|r l'] H; try easy. injection H as H1 H2. simpl. rewrite (IH l') by easy.
destruct y; try easy. now injection H1 as ->.
Qed.
Lemma real_nin l x : (forall r, x <> Real r) -> ~ In x (map Real l).
Proof. intros H I. apply in_map_iff in I. destruct I as [r [E _]]. now apply (H r). Qed.

Lemma total_exists l : exists t, total l t.
Proof.
assert (D : forall x y : xreal, (forall r, x <> Real r) -> {x = y} + {x <> y}).
{ intros x y H. destruct x as [|[]|r], y as [|[]|r']; try (now left); try (now right); now destruct (H r). }
assert (ID : forall x, (forall r, x <> Real r) -> In x l \/ ~ In x l).
{ intros x H. clear - D H. induction l as [|y l IH]; [now right|]. destruct (D x y H) as [->|N]; [now left; left|].
  destruct IH as [I|I]; [now left; right|right]. intros [E|E]; [now apply N|easy]. }
destruct (ID Undefined) as [H|H]; [easy|exists Undefined; now constructor|].
destruct (ID (Infinite true)) as [H1|H1]; [easy| |]; destruct (ID (Infinite false)) as [H2|H2]; try easy.
- exists Undefined. now apply total_both.
- exists (Infinite true). now constructor.
- exists (Infinite false). now constructor.
- assert (E : exists l', l = map Real l').
  { clear - H H1 H2. induction l as [|y l IH]; [now exists []|]. destruct IH as [l' ->]; [intros I; apply H; now right|intros I; apply H1; now right|intros I; apply H2; now right|].
    destruct y as [|[]|r]; [destruct H; now left|destruct H1; now left|destruct H2; now left|]. now exists (r :: l'). }
  destruct E as [l' ->]. eexists. apply total_real.
Qed.

Section Red.
Context {F : fmt}.
Lemma feq_f0_iff (z : float F) : feq z f0 = true <-> is_finite z = true /\ B2R z = 0.
Proof.
destruct z as [s|s| |s m e H]; try easy.
- now destruct s.
- split; [|intros [_ G]].
  + now destruct s.
  + exfalso. revert G. simpl. unfold F2R; simpl. intros G. apply Rmult_integral in G. destruct G as [G|G]; [now apply eq_IZR in G; destruct s|].
    pose proof (bpow_gt_0 radix2 e). lra.
Qed.
Lemma rnd_mode_na r : get_mpfr_rnd_mode r <> mode_NA. Proof. now destruct r. Qed.

Lemma red_core ops l rnd E : map x_of (ops (setup (var_of F) E)) = l ->
  reduces (get_mpfr_rnd_mode rnd) l (fst (reduction_sum_op F ops rnd E)).
Proof.
intros HL t HT. unfold reduction_sum_op. cbv zeta. set (E1 := setup (var_of F) E) in *. set (o := ops E1) in *. set (m := get_mpfr_rnd_mode rnd).
unfold mp_sum. destruct HT as [l H|l H1 H2|l s H H1 H2|l].
- rewrite <- HL in H. rewrite (in_x_nan o) by easy. reflexivity.
- rewrite <- HL in H1, H2. rewrite (in_x_inf true o), (in_x_inf false o) by easy. rewrite orb_true_r. reflexivity.
- rewrite <- HL in *. rewrite (nin_x_nan o) by easy. destruct s; simpl in H2.
  + rewrite (nin_x_inf false o), (in_x_inf true o) by easy. reflexivity.
  + rewrite (nin_x_inf true o), (in_x_inf false o) by easy. reflexivity.
- rewrite (nin_x_nan o) by (rewrite HL; now apply real_nin).
  rewrite (nin_x_inf true o), (nin_x_inf false o) by (rewrite HL; now apply real_nin). cbn [orb andb].
  rewrite (all_real o l HL). set (v := fold_right Rplus 0 l).
  pose proof (@pipeline_rounded F m v E (rnd_mode_na rnd)) as P. revert P. unfold pipeline. fold E1. cbv zeta.
  destruct (mp_call E1 (prec F) m v) as [y c]. cbn [fst]. set (z := get F m (subnormalize (var_of F) E1 m y c)). intros P.
  set (z' := match rnd with downward => fm0 | _ => f0 end).
  assert (Z' : z' = B754_zero (match m with mode_DN => true | _ => false end)) by now destruct rnd.
  destruct (feq z f0) eqn:Ez.
  + apply feq_f0_iff in Ez. destruct Ez as [Z1 Z2]. split; [|now intros _ _].
    destruct P as [P1 P2]. split.
    * intros B. destruct (P1 B) as [_ P3]. rewrite Z'. split; [easy|]. rewrite <- P3, Z2. easy.
    * intros B. exfalso. specialize (P2 B). cbv zeta in P2. unfold largest in P2. rewrite <- B2R_fmaxv in P2.
      pose proof (@fmaxv_ge1 F) as Q. destruct m, (Rlt_bool v 0); try (rewrite P2 in Z1; easy); lra.
  + split; [easy|]. intros Z1 Z2. rewrite (proj2 (feq_f0_iff z)) in Ez; easy.
Qed.

Section Elem.
Variable E0 : genv.
Let E := setup (var_of F) E0.
Lemma Eemin : (g_emin E - 1)%Z = emin F. Proof. unfold E, setup, var_of, emin; cbn; lia. Qed.
Lemma Eemax : g_emax E = emax F. Proof. reflexivity. Qed.
Lemma flx_wider p q r : (p <= q)%Z -> generic_format radix2 (FLX_exp p) r -> generic_format radix2 (FLX_exp q) r.
Proof. intros H. apply generic_inclusion_mag. intros _. unfold FLX_exp. lia. Qed.
Lemma sub_exact q m r : (exists k, r = IZR k * bpow radix2 (emin F)) -> mp_subnormalize E q m (VNum r) Eq = VNum r.
Proof.
intros [k ->]. destruct (Req_dec (IZR k * bpow radix2 (emin F)) 0) as [Z|Z]; [now apply sub_skip; left|].
destruct (Rle_or_lt (bpow radix2 (g_emin E + q - 2)) (Rabs (IZR k * bpow radix2 (emin F)))) as [H|H]; [now apply sub_skip; right|].
rewrite sub_num by easy. rewrite Eemin. rewrite Rmult_assoc, <- bpow_plus. replace (emin F + - emin F)%Z with 0%Z by lia.
rewrite Rmult_1_r, kfun_int. reflexivity.
Qed.
Lemma mp_of_exact q (x : float F) : (prec F <= q)%Z -> x_of (mp_of E q x) = value x.
Proof.
intros Hq. destruct (is_finite x) eqn:Fx.
- assert (M : mp_of E q x = VNum (B2R x)).
  { replace (mp_of E q x) with (let '(y, t) := mp_call E q mode_NE (B2R x) in mp_subnormalize E q mode_NE y t) by now destruct x.
    rewrite call_exact.
    - apply sub_exact. apply float_grid.
    - pose proof (fmt_prec1 F). lia.
    - apply flx_wider with (prec F); [easy|]. apply float_flx.
    - rewrite Eemin. destruct (float_grid x) as [k ->]. destruct (Z.eq_dec k 0) as [->|Hk]; [left; lra|right]. now apply grid_big.
    - rewrite Eemax. apply abs_B2R_lt_emax. }
  rewrite M. now destruct x.
- now destruct x.
Qed.
Lemma set_exact q r : (0 < q)%Z -> generic_format radix2 (FLX_exp q) r -> r = 0 \/ bpow radix2 (emin F) <= Rabs r < bpow radix2 (emax F) ->
  fst (mp_call E q mode_NE r) = VNum r.
Proof.
intros Hq Hf Hr. rewrite call_exact; try easy.
- rewrite Eemin. destruct Hr as [H|[H _]]; [now left|now right].
- rewrite Eemax. destruct Hr as [->|[_ H]]; [rewrite Rabs_R0; apply bpow_gt_0|easy].
Qed.
Lemma float_range (x : float F) : B2R x = 0 \/ bpow radix2 (emin F) <= Rabs (B2R x) < bpow radix2 (emax F).
Proof.
destruct (float_grid x) as [k Hk]. destruct (Z.eq_dec k 0) as [->|Hk0]; [left; rewrite Hk; lra|right]. split; [|apply abs_B2R_lt_emax].
rewrite Hk. now apply grid_big.
Qed.
Lemma value_inv (y : mval) (x : float F) : x_of y = value x ->
  (y = VNaN /\ value x = Undefined) \/ (exists s, y = VInf s /\ value x = Infinite s) \/ (y = VNum (B2R x) /\ value x = Real (B2R x)).
Proof.
intros H. destruct x as [s|s| |s m e B]; simpl in H; destruct y; try easy.
- right; right. simpl. now injection H as ->.
- right; left. exists neg. simpl. injection H as ->. easy.
- now left.
- right; right. injection H as ->. easy.
Qed.
Lemma elem_sum (x : float F) : x_of (mp_set E (prec F) (mp_of E (prec F) x)) = value x.
Proof.
pose proof (fmt_prec1 F) as Hp. pose proof (mp_of_exact (prec F) x ltac:(lia)) as H. revert H. generalize (mp_of E (prec F) x) as y. intros y H.
destruct (value_inv y x H) as [[-> ->]|[[s [-> ->]]|[-> ->]]]; try easy.
unfold mp_set. rewrite set_exact; [easy|lia|apply float_flx|apply float_range].
Qed.
Lemma elem_abs (x : float F) : x_of (mp_set E (prec F) (mp_abs E (prec F) (mp_of E (prec F) x))) = absolute (value x).
Proof.
pose proof (fmt_prec1 F) as Hp. pose proof (mp_of_exact (prec F) x ltac:(lia)) as H. revert H. generalize (mp_of E (prec F) x) as y. intros y H.
destruct (value_inv y x H) as [[-> ->]|[[s [-> ->]]|[-> ->]]]; try easy.
assert (A : fst (mp_call E (prec F) mode_NE (Rabs (B2R x))) = VNum (Rabs (B2R x))).
{ apply set_exact; [lia|apply generic_format_abs, float_flx|]. rewrite Rabs_Rabsolu. destruct (float_range x) as [->|H1]; [left; apply Rabs_R0|now right]. }
unfold mp_abs. rewrite A. unfold mp_set. rewrite A. reflexivity.
Qed.
Lemma prod_flx p r s : (0 < p)%Z -> generic_format radix2 (FLX_exp p) r -> generic_format radix2 (FLX_exp p) s ->
  generic_format radix2 (FLX_exp (2 * p)) (r * s).
Proof.
intros Hp Hr Hs. assert (P0 : Prec_gt_0 p) by easy. apply FLX_format_generic in Hr; [|easy]. apply FLX_format_generic in Hs; [|easy].
destruct Hr as [f -> Hf], Hs as [g -> Hg].
assert (P1 : Prec_gt_0 (2 * p)) by (unfold Prec_gt_0; lia). apply generic_format_FLX.
exists (Defs.Float radix2 (Fnum f * Fnum g) (Fexp f + Fexp g)).
- unfold F2R; cbn [Fnum Fexp]. rewrite mult_IZR, bpow_plus. ring.
- cbn [Fnum]. rewrite Z.abs_mul. replace (2 * p)%Z with (p + p)%Z by lia. rewrite Zpower_plus by lia. apply Z.mul_lt_mono_nonneg; lia.
Qed.
Lemma elem_mul (x y : float F) t : product (value x) (value y) t -> (forall r, t = Real r -> r = 0 \/ bpow radix2 (emin F) <= Rabs r < bpow radix2 (emax F)) ->
  x_of (mp_set E (2 * prec F) (mp_mul E (2 * prec F) (mp_of E (2 * prec F) x) (mp_of E (2 * prec F) y))) = t.
Proof.
pose proof (fmt_prec1 F) as Hp. pose proof (mp_of_exact (2 * prec F) x ltac:(lia)) as H1. pose proof (mp_of_exact (2 * prec F) y ltac:(lia)) as H2.
revert H1 H2. generalize (mp_of E (2 * prec F) x) as a. generalize (mp_of E (2 * prec F) y) as b. intros b a Ha Hb.
destruct (value_inv a x Ha) as [[-> ->]|[[s [-> ->]]|[-> ->]]]; destruct (value_inv b y Hb) as [[-> ->]|[[s' [-> ->]]|[-> ->]]]; intros HP HR; inversion HP; subst; try easy; unfold mp_mul.
- rewrite Req_bool_true by easy. easy.
- rewrite Req_bool_false by lra. rewrite Rlt_bool_false by lra. now rewrite xorb_false_r.
- rewrite Req_bool_false by lra. rewrite Rlt_bool_true by lra. now rewrite xorb_true_r.
- rewrite Req_bool_true by easy. easy.
- rewrite Req_bool_false by lra. rewrite Rlt_bool_false by lra. now rewrite xorb_false_r.
- rewrite Req_bool_false by lra. rewrite Rlt_bool_true by lra. now rewrite xorb_true_r.
- assert (A : fst (mp_call E (2 * prec F) mode_NE (B2R x * B2R y)) = VNum (B2R x * B2R y)).
  { apply set_exact; [lia|apply prod_flx; [lia|apply float_flx|apply float_flx]|]. now apply HR. }
  rewrite A. unfold mp_set. rewrite A. easy.
Qed.
End Elem.

Lemma sum_reduces (l : list (float F)) rnd E : reduces (get_mpfr_rnd_mode rnd) (map value l) (fst (sum l rnd E)).
Proof. apply red_core. rewrite map_map. apply map_ext. intros x. apply elem_sum. Qed.
Lemma sum_abs_reduces (l : list (float F)) rnd E :
  reduces (get_mpfr_rnd_mode rnd) (map (fun x => absolute (value x)) l) (fst (sum_abs l rnd E)).
Proof. apply red_core. rewrite map_map. apply map_ext. intros x. apply elem_abs. Qed.
Definition representable (t : xreal) : Prop :=
  forall r, t = Real r -> r = 0 \/ bpow radix2 (emin F) <= Rabs r < bpow radix2 (emax F).
Lemma sum_sqr_reduces (l : list (float F)) ts rnd E : Forall2 (fun x t => product (value x) (value x) t) l ts -> Forall representable ts ->
  reduces (get_mpfr_rnd_mode rnd) ts (fst (sum_sqr l rnd E)).
Proof.
intros H HR. apply red_core. rewrite map_map. induction H as [|x t l ts H1 H2 IH]; [easy|]. inversion HR; subst.
cbn [map]. f_equal; [now apply elem_mul|now apply IH].
Qed.
Lemma dot_reduces (a b : list (float F)) ts rnd E : (length a <= length b)%nat ->
  Forall2 (fun xy t => product (value (fst xy)) (value (snd xy)) t) (combine a b) ts -> Forall representable ts ->
  exists z E', dot a b rnd E = Ret (z, E') /\ reduces (get_mpfr_rnd_mode rnd) ts z.
Proof.
intros HL H HR. unfold dot. replace (length b <? length a)%nat with false by (symmetry; apply Nat.ltb_ge; easy).
eexists _, _. split; [apply f_equal, surjective_pairing|]. apply red_core. rewrite map_map.
induction H as [|x t l ts H1 H2 IH]; [easy|]. inversion HR; subst.
cbn [map]. f_equal; [now apply elem_mul|now apply IH].
Qed.
Lemma dot_short (a b : list (float F)) rnd E : (length b < length a)%nat -> dot a b rnd E = UB.
Proof. intros H. unfold dot. now rewrite (proj2 (Nat.ltb_lt _ _) H). Qed.
End Red.

(** ** Products outside the exponent range of the element type *)
Section Out.
Context {F : fmt}.
Definition big : float F := rround mode_NE false (bpow radix2 (emax F - 1)).
Definition tiny : float F := rround mode_NE false (bpow radix2 (emin F)).
Lemma big_val : B2R big = bpow radix2 (emax F - 1) /\ is_finite big = true.
Proof.
apply (@get_exact F mode_NE (bpow radix2 (emax F - 1))).
- apply generic_format_bpow. unfold fexp, SpecFloat.fexp, SpecFloat.emin. pose proof (fmt_prec1 F). pose proof (fmt_emax F). lia.
- rewrite Rabs_pos_eq by apply bpow_ge_0. apply bpow_lt. lia.
Qed.
Lemma tiny_val : B2R tiny = bpow radix2 (emin F) /\ is_finite tiny = true.
Proof.
apply (@get_exact F mode_NE (bpow radix2 (emin F))).
- apply generic_format_bpow. unfold fexp, SpecFloat.fexp, SpecFloat.emin, emin. pose proof (fmt_prec1 F). pose proof (fmt_emax F). lia.
- rewrite Rabs_pos_eq by apply bpow_ge_0. apply bpow_lt. unfold emin. pose proof (fmt_prec1 F). pose proof (fmt_emax F). lia.
Qed.
Lemma value_fin (x : float F) : is_finite x = true -> value x = Real (B2R x). Proof. now destruct x. Qed.
Lemma mp_of_fin E0 q (x : float F) : (prec F <= q)%Z -> is_finite x = true -> mp_of (setup (var_of F) E0) q x = VNum (B2R x).
Proof.
intros Hq Fx. pose proof (mp_of_exact E0 q x Hq) as H. rewrite value_fin in H by easy.
destruct (mp_of (setup (var_of F) E0) q x); try easy. now injection H as ->.
Qed.
Variable E0 : genv.
Let E := setup (var_of F) E0.
Lemma call_over q v : (0 < q)%Z -> generic_format radix2 (FLX_exp q) v -> bpow radix2 (emax F) <= Rabs v ->
  fst (mp_call E q mode_NE v) = VInf (Rlt_bool v 0).
Proof.
intros Hq Hf Hv. assert (P0 : Prec_gt_0 q) by easy. pose proof (bpow_gt_0 radix2 (emax F)).
unfold mp_call, mp_round. rewrite round_generic by auto with typeclass_instances. unfold check_range.
rewrite Req_bool_false by (intros ->; rewrite Rabs_R0 in Hv; lra). rewrite (Rlt_bool_false (Rabs v) (bpow radix2 (g_emin E - 1))).
- change (g_emax E) with (emax F). rewrite Rle_bool_true by easy. reflexivity.
- apply Rle_trans with (2 := Hv). apply bpow_le. unfold E. rewrite Eemin. pose proof (@emax_big F). pose proof (fmt_prec1 F). lia.
Qed.
Lemma call_under q v : (0 < q)%Z -> generic_format radix2 (FLX_exp q) v -> Rabs v < bpow radix2 (emin F - 1) ->
  fst (mp_call E q mode_NE v) = VNum 0.
Proof.
intros Hq Hf Hv. assert (P0 : Prec_gt_0 q) by easy.
unfold mp_call, mp_round. rewrite round_generic by auto with typeclass_instances. unfold check_range.
case Req_bool_spec; intros Z; [easy|]. pose proof (@Eemin F E0) as Ee. fold E in Ee. rewrite Ee. replace (g_emin E - 2)%Z with (emin F - 1)%Z by lia.
rewrite Rlt_bool_true. 2:{ apply Rlt_le_trans with (1 := Hv). apply bpow_le. lia. }
rewrite Rlt_bool_true by easy. reflexivity.
Qed.
Lemma big_sqr : bpow radix2 (emax F) <= B2R big * B2R big.
Proof. rewrite (proj1 big_val), <- bpow_plus. apply bpow_le. pose proof (fmt_prec1 F). pose proof (fmt_emax F). lia. Qed.
Lemma tiny_sqr : 0 < B2R tiny * B2R tiny < bpow radix2 (emin F - 1).
Proof.
rewrite (proj1 tiny_val), <- bpow_plus. split; [apply bpow_gt_0|]. apply bpow_lt. unfold emin. pose proof (fmt_prec1 F). pose proof (fmt_emax F). lia.
Qed.
Lemma prod_big (x y : float F) : is_finite x = true -> is_finite y = true -> bpow radix2 (emax F) <= Rabs (B2R x * B2R y) ->
  mp_set E (2 * prec F) (mp_mul E (2 * prec F) (mp_of E (2 * prec F) x) (mp_of E (2 * prec F) y)) = VInf (Rlt_bool (B2R x * B2R y) 0).
Proof.
intros Fx Fy H. pose proof (fmt_prec1 F). unfold E. rewrite !mp_of_fin by (easy || lia). fold E. unfold mp_mul.
rewrite call_over; [easy|lia|apply prod_flx; [lia|apply float_flx|apply float_flx]|easy].
Qed.
Lemma prod_tiny (x y : float F) : is_finite x = true -> is_finite y = true -> Rabs (B2R x * B2R y) < bpow radix2 (emin F - 1) ->
  mp_set E (2 * prec F) (mp_mul E (2 * prec F) (mp_of E (2 * prec F) x) (mp_of E (2 * prec F) y)) = VNum 0.
Proof.
intros Fx Fy H. pose proof (fmt_prec1 F). unfold E. rewrite !mp_of_fin by (easy || lia). fold E. unfold mp_mul.
rewrite call_under; [|lia|apply prod_flx; [lia|apply float_flx|apply float_flx]|easy].
unfold mp_set. apply call_under; [lia|apply generic_format_0|rewrite Rabs_R0; apply bpow_gt_0].
Qed.
Lemma neg_big : B2R (fneg big) = - B2R big /\ is_finite (fneg big) = true.
Proof. split; [apply B2R_Bopp|]. rewrite <- (proj2 big_val). apply is_finite_Bopp. Qed.

(** big * big + big * (-big) = NaN *)
Lemma dot_cancel rnd : exists z E', dot [big; big] [big; fneg big] rnd E0 = Ret (z, E') /\ z = B754_nan.
Proof.
eexists _, _. split; [unfold dot; cbn [length Nat.ltb Nat.leb]; apply f_equal, surjective_pairing|].
unfold reduction_sum_op. cbv zeta. cbn [map combine fst snd]. fold E.
destruct big_val as [B1 B2]. destruct neg_big as [N1 N2]. pose proof big_sqr as S. pose proof (bpow_gt_0 radix2 (emax F)).
rewrite (prod_big big big); [|easy|easy|rewrite Rabs_pos_eq; lra].
rewrite (prod_big big (fneg big)); [|easy|easy|rewrite N1, Ropp_mult_distr_r_reverse, Rabs_Ropp, Rabs_pos_eq; lra].
rewrite Rlt_bool_false by lra. rewrite Rlt_bool_true by (rewrite N1; lra). reflexivity.
Qed.
Lemma sqr_over : fst (sum_sqr [big] to_zero E0) = B754_infinity false.
Proof.
unfold sum_sqr, reduction_sum_op. cbv zeta. cbn [map]. fold E.
destruct big_val as [B1 B2]. pose proof big_sqr as S. pose proof (bpow_gt_0 radix2 (emax F)).
rewrite (prod_big big big); [|easy|easy|rewrite Rabs_pos_eq; lra]. rewrite Rlt_bool_false by lra. reflexivity.
Qed.
Lemma sqr_under : fst (sum_sqr [tiny] upward E0) = f0.
Proof.
unfold sum_sqr, reduction_sum_op. cbv zeta. cbn [map]. fold E.
destruct tiny_val as [B1 B2]. pose proof tiny_sqr as S.
rewrite (prod_tiny tiny tiny); [|easy|easy|rewrite Rabs_pos_eq; lra].
unfold mp_sum. cbn [existsb is_vnan is_vinf orb andb map num fold_right get_mpfr_rnd_mode]. rewrite Rplus_0_r.
rewrite call_exact; [|pose proof (fmt_prec1 F); lia|apply generic_format_0|now left|rewrite Rabs_R0; apply bpow_gt_0].
unfold subnormalize. cbn [v_sub var_of]. rewrite sub_skip by now left.
destruct (@get_exact F mode_UP 0) as [G1 G2]; [apply generic_format_0|rewrite Rabs_R0; apply bpow_gt_0|].
rewrite (proj2 (feq_f0_iff _)) by easy. reflexivity.
Qed.
End Out.

Lemma dot_refuted (F : fmt) rnd E : exists (a b : list (float F)) r z E', (length a <= length b)%nat /\
  Forall2 (fun xy t => product (value (fst xy)) (value (snd xy)) t) (combine a b) [Real r; Real (- r)] /\
  dot a b rnd E = Ret (z, E') /\ ~ reduces (get_mpfr_rnd_mode rnd) [Real r; Real (- r)] z.
Proof.
destruct (@dot_cancel F E rnd) as [z [E' [H1 H2]]]. exists [@big F; big], [@big F; fneg big], (B2R (@big F) * B2R (@big F)), z, E'.
split; [easy|]. destruct (@big_val F) as [B1 B2]. destruct (@neg_big F) as [N1 N2]. split; [|split; [easy|]].
- repeat constructor; cbn [fst snd]; rewrite !value_fin by easy; [constructor|]. rewrite N1, Ropp_mult_distr_r. constructor.
- intros H. specialize (H _ (total_real [B2R (@big F) * B2R (@big F); - (B2R (@big F) * B2R (@big F))])). cbv beta iota in H. destruct H as [[H _] _].
  cbn [fold_right] in H. replace (B2R (@big F) * B2R (@big F) + (- (B2R (@big F) * B2R (@big F)) + 0)) with 0 in H by ring.
  rewrite round_0 in H by (destruct rnd; apply valid_rnd_round_mode). rewrite Rabs_R0 in H. destruct H as [H _]; [apply bpow_gt_0|]. now rewrite H2 in H.
Qed.
Lemma sqr_over_refuted (F : fmt) E : exists (l : list (float F)) r,
  Forall2 (fun x t => product (value x) (value x) t) l [Real r] /\ ~ reduces mode_ZR [Real r] (fst (sum_sqr l to_zero E)).
Proof.
exists [@big F], (B2R (@big F) * B2R (@big F)). destruct (@big_val F) as [B1 B2]. split.
- repeat constructor. rewrite !value_fin by easy. constructor.
- intros H. specialize (H _ (total_real [B2R (@big F) * B2R (@big F)])). cbv beta iota in H. destruct H as [[H1 H2] _]. rewrite sqr_over in H1, H2.
  destruct (Rlt_or_le (Rabs (round radix2 (FLT_exp (3 - emax F - prec F) (prec F)) (round_mode mode_ZR) (fold_right Rplus 0 [B2R (@big F) * B2R (@big F)]))) (bpow radix2 (emax F))) as [Q|Q].
  + now destruct (H1 Q).
  + now destruct (H2 Q).
Qed.
Lemma sqr_under_refuted (F : fmt) E : exists (l : list (float F)) r,
  Forall2 (fun x t => product (value x) (value x) t) l [Real r] /\ ~ reduces mode_UP [Real r] (fst (sum_sqr l upward E)).
Proof.
exists [@tiny F], (B2R (@tiny F) * B2R (@tiny F)). destruct (@tiny_val F) as [B1 B2]. split.
- repeat constructor. rewrite !value_fin by easy. constructor.
- intros H. specialize (H _ (total_real [B2R (@tiny F) * B2R (@tiny F)])). cbv beta iota in H. destruct H as [[H1 H2] _]. rewrite sqr_under in H1, H2.
  cbn [fold_right] in *. rewrite Rplus_0_r in *. pose proof (@tiny_sqr F) as S. set (v := B2R (@tiny F) * B2R (@tiny F)) in *.
  assert (V : Valid_exp (FLT_exp (3 - emax F - prec F) (prec F))) by (apply FLT_exp_valid; apply fmt_prec_gt_0).
  assert (Y : v <= round radix2 (FLT_exp (3 - emax F - prec F) (prec F)) (round_mode mode_UP) v) by (apply round_UP_pt; easy).
  set (y := round _ _ _ _) in *.
  destruct (Rlt_or_le (Rabs y) (bpow radix2 (emax F))) as [Q|Q].
  + destruct (H1 Q) as [_ H3]. simpl in H3. lra.
  + specialize (H2 Q). rewrite Rlt_bool_false in H2 by lra. easy.
Qed.
