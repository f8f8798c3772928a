(** * Proofs: reductions are monotone *)
From Coq Require Import ZArith Reals Bool List Lia Lra.
From Flocq Require Import Core.Core IEEE754.BinarySingleNaN.
From Verif Require Import Fmt FloatFacts Exc SpecRound MMpfr PMpfr PMpfr2 MRed SpecRed PRed SpecRedPerm SpecRedX PRedX PRedPerm PRedOrd.
Import ListNotations.
Local Open Scope R_scope.

(** The order of the terms. *)
Definition xle (a b : xreal) : Prop :=
  match a, b with
  | Undefined, _ | _, Undefined => False
  | Infinite true, _ | _, Infinite false => True
  | Real r, Real s => r <= s
  | _, _ => False
  end.
Lemma xle_top b : xle (Infinite false) b -> b = Infinite false.
Proof. now destruct b as [|[]|]. Qed.
Lemma xle_bot a : xle a (Infinite true) -> a = Infinite true.
Proof. now destruct a as [|[]|]. Qed.
Lemma in_top ts us : Forall2 xle ts us -> In (Infinite false) ts -> In (Infinite false) us.
Proof. induction 1 as [|a b ts us H _ IH]; [easy|]. intros [->|I]; [left; now apply xle_top|right; auto]. Qed.
Lemma in_bot ts us : Forall2 xle ts us -> In (Infinite true) us -> In (Infinite true) ts.
Proof. induction 1 as [|a b ts us H _ IH]; [easy|]. intros [->|I]; [left; now apply xle_bot|right; auto]. Qed.
Lemma real_le k k' : Forall2 xle (map Real k) (map Real k') -> fold_right Rplus 0 k <= fold_right Rplus 0 k'.
Proof.
revert k'. induction k as [|x k IH]; intros [|y k'] H; inversion H; subst; cbn; [lra|]. specialize (IH k' H5). cbn in H3. lra.
Qed.
Lemma total_in l t : total l t -> match t with Undefined => True | Infinite s => In (Infinite s) l /\ ~ In (Infinite (negb s)) l
  | Real r => exists k, l = map Real k /\ r = fold_right Rplus 0 k end.
Proof. destruct 1; try easy. now exists l. Qed.
Lemma real_no_inf s k : ~ In (Infinite s) (map Real k).
Proof. intros H. apply in_map_iff in H. now destruct H as (r & E & _). Qed.
Lemma total_mono ts us t u : Forall2 xle ts us -> total ts t -> total us u -> t = Undefined \/ u = Undefined \/ xle t u.
Proof.
intros H T U. apply total_in in T. apply total_in in U. destruct t as [|s|r]; [now left| |]; (destruct u as [|s'|r']; [now right; left| |]); right; right.
- destruct T as [T1 T2], U as [U1 U2]. destruct s, s'; try easy. apply (in_bot _ _ H) in U1. now destruct T2.
- destruct T as [T1 T2], U as (k & -> & ->). destruct s; [easy|]. apply (in_top _ _ H) in T1. now apply real_no_inf in T1.
- destruct U as [U1 U2], T as (k & -> & ->). destruct s'; [|easy]. apply (in_bot _ _ H) in U1. now apply real_no_inf in U1.
- destruct T as (k & -> & ->), U as (k' & -> & ->). now apply real_le.
Qed.

Section O.
Context {F : fmt}.
Implicit Types (x y z : float F) (l : list (float F)).
#[local] Instance fexpV4 : Valid_exp (FLT_exp (3 - emax F - prec F) (prec F)).
Proof. apply FLT_exp_valid. apply fmt_prec_gt_0. Qed.

Lemma rounded_mono rnd r r' z z' : r <= r' -> rounded (get_mpfr_rnd_mode rnd) r z -> rounded (get_mpfr_rnd_mode rnd) r' z' -> fle z z' = true.
Proof.
intros L Z Z'. pose proof (rounded_nan _ _ _ Z) as N. pose proof (rounded_nan _ _ _ Z') as N'.
revert Z Z'. unfold rounded. cbv zeta. set (m := get_mpfr_rnd_mode rnd).
set (fe := FLT_exp (3 - emax F - prec F) (prec F)). assert (V : Valid_exp fe) by apply fexpV4.
set (y := round radix2 fe (round_mode m) r). set (y' := round radix2 fe (round_mode m) r').
assert (LY : y <= y') by (apply round_le; [exact V|apply valid_rnd_round_mode|easy]).
assert (P : forall q, 0 <= q -> 0 <= round radix2 fe (round_mode m) q) by (intros; apply round_ge_generic; [exact V|apply valid_rnd_round_mode|apply generic_format_0|easy]).
assert (Q : forall q, q <= 0 -> round radix2 fe (round_mode m) q <= 0) by (intros; apply round_le_generic; [exact V|apply valid_rnd_round_mode|apply generic_format_0|easy]).
pose proof (bpow_gt_0 radix2 (emax F)) as M0. set (M := bpow radix2 (emax F)) in *.
assert (SN : forall q, round radix2 fe (round_mode m) q <= - M -> Rlt_bool q 0 = true).
{ intros q H. apply Rlt_bool_true. apply Rnot_le_lt. intros K. specialize (P q K). lra. }
assert (SP : forall q, M <= round radix2 fe (round_mode m) q -> Rlt_bool q 0 = false).
{ intros q H. apply Rlt_bool_false. apply Rnot_lt_le. intros K. specialize (Q q ltac:(lra)). lra. }
assert (SM : forall v : float F, - largest F <= B2R v <= largest F).
{ intros v. rewrite largest_fmaxv. apply Rabs_le_inv. apply abs_le_fmaxv. }
assert (C : forall q (v : float F),
  (Rabs (round radix2 fe (round_mode m) q) < M -> is_finite v = true /\ B2R v = round radix2 fe (round_mode m) q) /\
  (M <= Rabs (round radix2 fe (round_mode m) q) ->
    let max_of := is_finite v = true /\ B2R v = (if Rlt_bool q 0 then - largest F else largest F) in
    match m with
    | mode_NE | mode_NA => v = B754_infinity (Rlt_bool q 0)
    | mode_ZR => max_of
    | mode_DN => if Rlt_bool q 0 then v = B754_infinity true else max_of
    | mode_UP => if Rlt_bool q 0 then max_of else v = B754_infinity false
    end) ->
  let w := round radix2 fe (round_mode m) q in
  (- M < w < M /\ is_finite v = true /\ B2R v = w) \/
  (w <= - M /\ match m with mode_ZR | mode_UP => is_finite v = true /\ B2R v = - largest F | _ => v = B754_infinity true end) \/
  (M <= w /\ match m with mode_ZR | mode_DN => is_finite v = true /\ B2R v = largest F | _ => v = B754_infinity false end)).
{ intros q v [A B]. cbv zeta in *. destruct (Rlt_or_le (Rabs (round radix2 fe (round_mode m) q)) M) as [H|H].
  - left. pose proof (Rabs_def2 _ _ H). destruct (A H). repeat split; try easy; lra.
  - right. specialize (B H). destruct (Rle_or_lt 0 (round radix2 fe (round_mode m) q)) as [K|K].
    + right. rewrite Rabs_pos_eq in H by easy. split; [easy|]. rewrite (SP q H) in B. now destruct m.
    + left. rewrite Rabs_left in H by easy. assert (H' : round radix2 fe (round_mode m) q <= - M) by lra. split; [easy|]. rewrite (SN q H') in B. now destruct m. }
intros Z Z'. apply C in Z. apply C in Z'. clear C SN SP P Q. cbv zeta in Z, Z'. fold y in Z. fold y' in Z'.
destruct Z as [(B & Fz & E)|[(B & E)|(B & E)]], Z' as [(B' & Fz' & E')|[(B' & E')|(B' & E')]]; try lra.
- apply fle_fin; [easy..|]. lra.
- destruct rnd; cbn in *; try (subst z'; now apply fle_pinf); destruct E' as [Fz' E']; (apply fle_fin; [easy..|]; specialize (SM z); lra).
- destruct rnd; cbn in *; try (subst z; now apply fle_minf); destruct E as [Fz E]; (apply fle_fin; [easy..|]; specialize (SM z'); lra).
- destruct rnd; cbn in *; try (subst z; now apply fle_minf); destruct E as [Fz E], E' as [Fz' E']; (apply fle_fin; [easy..|]; lra).
- destruct rnd; cbn in *; try (subst z; now apply fle_minf); try (subst z'; now apply fle_pinf); destruct E as [Fz E], E' as [Fz' E'].
  apply fle_fin; [easy..|]. specialize (SM z). lra.
- destruct rnd; cbn in *; try (subst z'; now apply fle_pinf); destruct E as [Fz E], E' as [Fz' E']; (apply fle_fin; [easy..|]; lra).
Qed.
Lemma reduces_mono rnd ts us z z' : Forall2 xle ts us -> reduces (get_mpfr_rnd_mode rnd) ts z -> reduces (get_mpfr_rnd_mode rnd) us z' ->
  z = fnan \/ z' = fnan \/ fle z z' = true.
Proof.
intros H Z Z'. destruct (total_exists ts) as [t T]. destruct (total_exists us) as [u U]. specialize (Z t T). specialize (Z' u U).
destruct (total_mono _ _ _ _ H T U) as [->|[->|K]]; [now left|now right; left|]. right; right.
destruct t as [|s|r]; [easy| |].
- subst z. destruct s; [|apply xle_top in K; subst u z'; reflexivity]. apply fle_minf. destruct u as [|s'|r']; [easy|now subst z'|]. now apply (rounded_nan (get_mpfr_rnd_mode rnd) r').
- destruct u as [|s'|r']; [easy| |].
  + destruct s'; [easy|]. subst z'. apply fle_pinf. now apply (rounded_nan (get_mpfr_rnd_mode rnd) r).
  + now apply (rounded_mono rnd r r').
Qed.
Lemma fle_xle x y : fle x y = true -> xle (value x) (value y).
Proof.
destruct (is_finite x) eqn:Fx; [destruct (is_finite y) eqn:Fy|].
- unfold fle. rewrite Bleb_correct, !value_fin by easy. case Rle_bool_spec; easy.
- rewrite (value_fin x) by easy. destruct y as [|[]| |]; try easy; destruct x as [|[]| |]; easy.
- destruct x as [|[]| |]; try easy; destruct y as [|[]| |]; easy.
Qed.
Lemma fle_xles l l' : Forall2 (fun x y => fle x y = true) l l' -> Forall2 xle (map value l) (map value l').
Proof. induction 1; cbn; constructor; [now apply fle_xle|easy]. Qed.
Lemma sum_mono l l' rnd E E' : Forall2 (fun x y => fle x y = true) l l' ->
  let z := fst (sum l rnd E) in let z' := fst (sum l' rnd E') in z = fnan \/ z' = fnan \/ fle z z' = true.
Proof. intros H. exact (reduces_mono rnd _ _ _ _ (fle_xles _ _ H) (sum_reduces l rnd E) (sum_reduces l' rnd E')). Qed.
Lemma sum_abs_mono l l' rnd E E' : Forall2 (fun x y => fle (Babs x) (Babs y) = true) l l' ->
  let z := fst (sum_abs l rnd E) in let z' := fst (sum_abs l' rnd E') in z = fnan \/ z' = fnan \/ fle z z' = true.
Proof.
intros H. cbv zeta. rewrite (sum_abs_sum l rnd E E), (sum_abs_sum l' rnd E' E'). apply sum_mono.
induction H; cbn; now constructor.
Qed.

Lemma limited_mono t t' u u' : xle t t' -> limited F t u -> limited F t' u' -> xle u u'.
Proof.
pose proof (@least_pos F) as LP. pose proof (@least_emax F) as LE.
assert (A : forall r, least F <= Rabs r < bpow radix2 (emax F) -> (least F <= r < bpow radix2 (emax F)) \/ (- bpow radix2 (emax F) < r <= - least F)).
{ intros r. unfold Rabs. case Rcase_abs; lra. }
assert (A' : forall r, Rabs r <= least F / 2 -> - (least F / 2) <= r <= least F / 2) by (intros; now apply Rabs_le_inv).
intros H L L'. destruct L as [|s|r B|r B|r B|r B|r B|r B]; destruct L' as [|s'|r' B'|r' B'|r' B'|r' B'|r' B'|r' B']; cbn [xle] in *; try easy;
try (now destruct s); try (now destruct s'); try apply A in B; try apply A in B'; try apply A' in B; try apply A' in B'; try lra.
Qed.
Lemma sqr_term_mono x y u v : fle (Babs x) (Babs y) = true -> term (x, x) u -> term (y, y) v -> xle u v.
Proof.
intros H (t & P & L) (t' & P' & L'). cbn [fst snd] in *. apply (limited_mono t t'); [|easy..]. clear L L'.
apply fle_xle in H. rewrite !value_abs in H.
destruct (value x) as [|a|r], (value y) as [|b|s]; cbn in H; try easy; inversion P; subst; inversion P'; subst; cbn; rewrite ?xorb_nilpotent; try easy.
apply Rsqr_le_abs_1 in H. exact H.
Qed.
Lemma terms_self_mono l l' us us' : Forall2 (fun x y => fle (Babs x) (Babs y) = true) l l' ->
  Forall2 term (combine l l) us -> Forall2 term (combine l' l') us' -> Forall2 xle us us'.
Proof.
intros H. revert us us'. induction H as [|x y l l' H _ IH]; cbn; intros us us' K K'; inversion K; subst; inversion K'; subst; constructor.
- now apply (sqr_term_mono x y).
- now apply IH.
Qed.
Lemma sum_sqr_mono_nan l l' rnd E E' : Forall2 (fun x y => fle (Babs x) (Babs y) = true) l l' ->
  let z := fst (sum_sqr l rnd E) in let z' := fst (sum_sqr l' rnd E') in z = fnan \/ z' = fnan \/ fle z z' = true.
Proof.
intros H. destruct (terms_ex (combine l l)) as [us K]. destruct (terms_ex (combine l' l')) as [us' K'].
exact (reduces_mono rnd us us' _ _ (terms_self_mono _ _ _ _ H K K') (sqr_terms l us rnd E K) (sqr_terms l' us' rnd E' K')).
Qed.

Lemma nonneg_number rnd ts z : Forall (xle (Real 0)) ts -> reduces (get_mpfr_rnd_mode rnd) ts z -> z <> fnan.
Proof.
intros H Z. destruct (total_exists ts) as [t T]. specialize (Z t T). rewrite Forall_forall in H. destruct t as [|s|r].
- inversion T as [l0 I|l0 I _| |]; subst; now apply H in I.
- now subst z.
- destruct Z as [Z _]. apply rounded_nan in Z. now intros ->.
Qed.
Lemma abs_defined (v : xreal) : v <> Undefined -> xle (Real 0) (absolute v).
Proof. destruct v; cbn; try easy. intros _. apply Rabs_pos. Qed.
Lemma fle_defined x y : fle (Babs x) (Babs y) = true -> value x <> Undefined /\ value y <> Undefined.
Proof. intros H. apply fle_xle in H. rewrite !value_abs in H. destruct (value x) as [|[]|], (value y) as [|[]|]; easy. Qed.
Lemma defined_all l l' : Forall2 (fun x y => fle (Babs x) (Babs y) = true) l l' -> Forall (fun x => value x <> Undefined) l /\ Forall (fun x => value x <> Undefined) l'.
Proof. induction 1 as [|x y l l' H _ [IH1 IH2]]; [now split|]. apply fle_defined in H. destruct H. split; now constructor. Qed.
Lemma sum_abs_number l rnd E : Forall (fun x => value x <> Undefined) l -> fst (sum_abs l rnd E) <> fnan.
Proof.
intros H. apply (nonneg_number rnd (map (fun x => absolute (value x)) l)); [|apply sum_abs_reduces].
induction H; cbn; constructor; [now apply abs_defined|easy].
Qed.
Lemma sum_sqr_number l rnd E : Forall (fun x => value x <> Undefined) l -> fst (sum_sqr l rnd E) <> fnan.
Proof.
intros H. destruct (terms_ex (combine l l)) as [us K]. apply (nonneg_number rnd us); [|now apply sqr_terms].
revert us K. induction H as [|x l Hx _ IH]; cbn; intros us K; inversion K as [|p u ps us' (t & P & L) K']; subst; constructor; [|now apply IH].
apply (limited_mono (Real 0) t (Real 0)); [|apply lim_small; rewrite Rabs_R0; pose proof (@least_pos F); lra|easy].
cbn [fst snd] in P. destruct (value x) as [|a|r]; [easy| |]; inversion P; subst; cbn; [now rewrite xorb_nilpotent|]. apply (Rle_0_sqr r).
Qed.
Lemma sum_abs_fle l l' rnd E E' : Forall2 (fun x y => fle (Babs x) (Babs y) = true) l l' ->
  fle (fst (sum_abs l rnd E)) (fst (sum_abs l' rnd E')) = true.
Proof.
intros H. destruct (defined_all _ _ H) as [D D']. destruct (sum_abs_mono l l' rnd E E' H) as [K|[K|K]]; [|  |easy]; now apply sum_abs_number in K.
Qed.
Lemma sum_sqr_fle l l' rnd E E' : Forall2 (fun x y => fle (Babs x) (Babs y) = true) l l' ->
  fle (fst (sum_sqr l rnd E)) (fst (sum_sqr l' rnd E')) = true.
Proof.
intros H. destruct (defined_all _ _ H) as [D D']. destruct (sum_sqr_mono_nan l l' rnd E E' H) as [K|[K|K]]; [|  |easy]; now apply sum_sqr_number in K.
Qed.

(** ** Triangle inequality: the sum of absolute values bounds the absolute value of the sum *)
Lemma xle_abs (v : xreal) : v <> Undefined -> xle v (absolute v).
Proof. destruct v as [|[]|]; cbn; try easy. intros _. apply Rle_abs. Qed.
Lemma sum_le_abs l rnd E E' : Forall (fun x => value x <> Undefined) l ->
  let z := fst (sum l rnd E) in z = fnan \/ fle z (fst (sum_abs l rnd E')) = true.
Proof.
intros H. cbv zeta.
destruct (reduces_mono rnd (map value l) (map (fun x => absolute (value x)) l) (fst (sum l rnd E)) (fst (sum_abs l rnd E'))) as [K|[K|K]];
  [|apply sum_reduces|apply sum_abs_reduces|now left|now apply sum_abs_number in K|now right].
induction H; cbn; constructor; [now apply xle_abs|easy].
Qed.
Lemma sum_abs_opp l rnd E E' : fst (sum_abs (map Bopp l) rnd E) = fst (sum_abs l rnd E').
Proof.
rewrite (sum_abs_sum (map Bopp l) rnd E E), (sum_abs_sum l rnd E' E). rewrite map_map. f_equal. f_equal.
apply map_ext. intros x. now destruct x.
Qed.
Lemma not_nan_value x : isnan x = false <-> value x <> Undefined.
Proof. now destruct x. Qed.
Lemma not_nan_values l : Forall (fun x => isnan x = false) l -> Forall (fun x => value x <> Undefined) l.
Proof. apply Forall_impl. intros x. now apply not_nan_value. Qed.
Lemma fle_same_number x y z : same_number x y -> fle x z = true -> fle y z = true.
Proof.
intros [->|(Fx & Fy & X0 & Y0)]; [easy|]. destruct (is_finite z) eqn:Fz.
- unfold fle. rewrite !Bleb_correct by easy. now rewrite X0, Y0.
- destruct z as [|[]| |]; try easy; destruct x as [|[]| |], y as [|[]| |]; easy.
Qed.
Lemma triangle l rnd E E' : rnd = to_nearest \/ rnd = to_zero -> Forall (fun x => isnan x = false) l ->
  let z := fst (sum l rnd E) in z = fnan \/ fle (Babs z) (fst (sum_abs l rnd E')) = true.
Proof.
intros O H. cbv zeta.
assert (H' : Forall (fun x => isnan x = false) (map Bopp l)) by (induction H as [|x l Hx H IH]; cbn; constructor; [now destruct x|easy]).
assert (OP : opposite rnd = rnd) by (now destruct O as [->| ->]).
apply not_nan_values in H. apply not_nan_values in H'.
pose proof (sum_le_abs l rnd E E' H) as [K|K]; [now left|]. pose proof (sum_le_abs (map Bopp l) rnd E E' H') as [K'|K'].
- left. pose proof (sum_opp_eq l rnd E E) as S. rewrite OP, K' in S. destruct S as [S|(S & _)]; [|easy]. now destruct (fst (sum l rnd E)).
- right. rewrite (sum_abs_opp l rnd E' E') in K'. pose proof (sum_opp_eq l rnd E E) as S. rewrite OP in S.
  apply (fle_same_number _ _ _ S) in K'. set (z := fst (sum l rnd E)) in *. clearbody z. clear S.
  destruct z as [[]|[]| |[] m e B]; try exact K; try exact K'.
Qed.
Lemma sum_le_abs_nan l rnd E E' : Forall (fun x => isnan x = false) l ->
  let z := fst (sum l rnd E) in z = fnan \/ fle z (fst (sum_abs l rnd E')) = true.
Proof. intros H. apply sum_le_abs. now apply not_nan_values. Qed.
End O.
