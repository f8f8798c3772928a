(** * Proofs: reductions depend neither on the order of the elements nor on earlier calls *)
From Coq Require Import ZArith Reals Bool List Lia Lra Permutation.
From Flocq Require Import Core.Core IEEE754.BinarySingleNaN.
From Verif Require Import Fmt FloatFacts Exc SpecRound MMpfr PMpfr PMpfr2 MRed SpecRed PRed SpecRedX PRedX SpecRedPerm.
Import ListNotations.
Local Open Scope R_scope.

(** ** Sums of terms *)
Lemma sum_perm (l l' : list R) : Permutation l l' -> fold_right Rplus 0 l = fold_right Rplus 0 l'.
Proof. induction 1; cbn; lra. Qed.
Lemma total_perm l l' t : Permutation l l' -> total l t -> total l' t.
Proof.
intros P T. assert (I : forall x, In x l -> In x l') by (intro; now apply Permutation_in).
assert (I' : forall x, In x l' -> In x l) by (intro; apply Permutation_in; now apply Permutation_sym).
destruct T as [l H|l H1 H2|l s H1 H2 H3|k].
- apply total_nan; auto.
- apply total_both; auto.
- apply total_inf; auto.
- destruct (Permutation_map_inv _ _ (Permutation_sym P)) as (k' & -> & P').
  rewrite (sum_perm _ _ P'). apply total_real.
Qed.
Lemma real_cons (x : R) l k : Real x :: l = map Real k -> exists k', k = x :: k' /\ l = map Real k'.
Proof. destruct k as [|y k]; [easy|]. cbn. intros [= -> ->]. now exists k. Qed.
Lemma total_zero l t : total (Real 0 :: l) t -> total l t.
Proof.
intros T. inversion T as [l0 H E1 E2|l0 H1 H2 E1 E2|l0 s H1 H2 H3 E1 E2|k E1 E2]; subst.
- destruct H as [H|H]; [easy|]. now apply total_nan.
- destruct H1 as [H1|H1], H2 as [H2|H2]; try easy. now apply total_both.
- destruct H1 as [H1|H1]; [easy|]. apply total_inf; [easy| |]; intro; [apply H2|apply H3]; now right.
- destruct (real_cons 0 l k (eq_sym E1)) as (k' & -> & ->). cbn. rewrite Rplus_0_l. apply total_real.
Qed.

(** ** The opposite of a sum *)
Definition xopp (x : xreal) : xreal := match x with Undefined => Undefined | Infinite s => Infinite (negb s) | Real r => Real (- r) end.
Lemma xopp_xopp x : xopp (xopp x) = x.
Proof. destruct x; cbn; [easy|now rewrite negb_involutive|now rewrite Ropp_involutive]. Qed.
Lemma in_xopp x l : In x (map xopp l) <-> In (xopp x) l.
Proof.
rewrite in_map_iff. split; [intros (y & <- & H); now rewrite xopp_xopp|intros H; exists (xopp x); split; [apply xopp_xopp|easy]].
Qed.
Lemma total_opp l t : total l t -> total (map xopp l) (xopp t).
Proof.
destruct 1 as [l H|l H1 H2|l s H1 H2 H3|k].
- apply total_nan. now apply in_xopp.
- apply total_both; now apply in_xopp.
- apply total_inf; rewrite in_xopp; cbn; now rewrite ?negb_involutive.
- rewrite map_map. cbn. replace (map (fun x => Real (- x)) k) with (map Real (map Ropp k)) by now rewrite map_map.
  replace (- fold_right Rplus 0 k) with (fold_right Rplus 0 (map Ropp k)); [apply total_real|].
  induction k as [|x k IH]; cbn; [lra|]. rewrite IH. lra.
Qed.

Section P.
Context {F : fmt}.
Implicit Types (x y z : float F) (l : list (float F)) (m : mode).

(** ** One total, one result *)
Lemma fin_eq (x y : float F) : is_finite x = true -> is_finite y = true -> B2R x = B2R y -> B2R x <> 0 -> x = y.
Proof.
intros Fx Fy E N. apply B2R_Bsign_inj; [easy..|].
destruct x as [s|s| |s a e B], y as [s'|s'| |s' a' e' B']; try easy; try (now destruct N).
cbn [B2R] in E. cbn. clear - E.
assert (P : forall (s : bool) (a : positive) (e : Z), if s then F2R (Float radix2 (cond_Zopp s (Z.pos a)) e) < 0 else 0 < F2R (Float radix2 (cond_Zopp s (Z.pos a)) e)).
{ intros [] b f; cbn; [now apply F2R_lt_0|now apply F2R_gt_0]. }
pose proof (P s a e) as P1. pose proof (P s' a' e') as P2. destruct s, s'; try reflexivity; lra.
Qed.
Lemma rounded_num m r x y : rounded m r x -> rounded m r y ->
  (is_finite x = true /\ is_finite y = true /\ B2R x = B2R y) \/ x = y.
Proof.
unfold rounded. cbv zeta. intros [A B] [A' B'].
destruct (Rlt_or_le (Rabs (round radix2 (FLT_exp (3 - emax F - prec F) (prec F)) (round_mode m) r)) (bpow radix2 (emax F))) as [H|H].
- destruct (A H) as [-> ->], (A' H) as [-> ->]. now left.
- specialize (B H). specialize (B' H). destruct m, (Rlt_bool r 0); try (right; congruence); left;
  destruct B as [-> ->], B' as [-> ->]; easy.
Qed.
Lemma reduces_eq m ts us x y : (forall t, total ts t -> total us t) -> reduces m ts x -> reduces m us y -> x = y.
Proof.
intros T X Y. destruct (total_exists ts) as [t Ht]. specialize (X t Ht). specialize (Y t (T t Ht)).
destruct t as [|s|r]; [congruence..|]. destruct X as [X X0], Y as [Y Y0].
destruct (rounded_num m r x y X Y) as [(Fx & Fy & E)|]; [|easy].
destruct (Req_dec (B2R x) 0) as [Z|Z]; [|now apply fin_eq].
rewrite (X0 Fx Z). symmetry. apply Y0; congruence.
Qed.

Lemma sum_perm_eq l l' rnd E E' : Permutation l l' -> fst (sum l rnd E) = fst (sum l' rnd E').
Proof.
intros P. apply (reduces_eq (get_mpfr_rnd_mode rnd) (map value l) (map value l')); [|apply sum_reduces..].
intros t. apply total_perm. now apply Permutation_map.
Qed.
Lemma sum_abs_perm_eq l l' rnd E E' : Permutation l l' -> fst (sum_abs l rnd E) = fst (sum_abs l' rnd E').
Proof.
intros P. apply (reduces_eq (get_mpfr_rnd_mode rnd) (map (fun x => absolute (value x)) l) (map (fun x => absolute (value x)) l')); [|apply sum_abs_reduces..].
intros t. apply total_perm. now apply Permutation_map.
Qed.
Lemma value_abs x : value (Babs x) = absolute (value x).
Proof. destruct x as [| | |s a e B]; cbn [value Babs absolute]; try easy; [cbn; now rewrite Rabs_R0|]. f_equal. exact (B2R_Babs _ _ (B754_finite s a e B)). Qed.
Lemma sum_abs_sum l rnd E E' : fst (sum_abs l rnd E) = fst (sum (map Babs l) rnd E').
Proof.
apply (reduces_eq (get_mpfr_rnd_mode rnd) (map (fun x => absolute (value x)) l) (map value (map Babs l))); [|apply sum_abs_reduces|apply sum_reduces].
intros t. rewrite map_map. now rewrite (map_ext _ _ value_abs).
Qed.
Lemma sum_zero l s rnd E E' : fst (sum (B754_zero s :: l) rnd E) = fst (sum l rnd E').
Proof.
apply (reduces_eq (get_mpfr_rnd_mode rnd) (map value (B754_zero s :: l)) (map value l)); [|apply sum_reduces..].
apply total_zero.
Qed.

(** ** Products *)
Lemma product_ex x y : exists t, product (value x) (value y) t.
Proof.
destruct (value x) as [|a|r], (value y) as [|b|s]; try (eexists; now constructor).
- destruct (Rtotal_order s 0) as [H|[H|H]]; eexists; [now apply product_neg_r|now apply product_zero_r|now apply product_pos_r].
- destruct (Rtotal_order r 0) as [H|[H|H]]; eexists; [now apply product_neg_l|now apply product_zero_l|now apply product_pos_l].
Qed.
Lemma product_sym a b t : product a b t -> product b a t.
Proof. destruct 1; try (now constructor). - rewrite Rmult_comm. constructor. - rewrite xorb_comm. constructor. Qed.
Definition term (ab : float F * float F) (u : xreal) : Prop := exists t, product (value (fst ab)) (value (snd ab)) t /\ limited F t u.
Lemma terms_ex ab : exists us, Forall2 term ab us.
Proof.
induction ab as [|[x y] ab [us H]]; [now exists []|]. destruct (product_ex x y) as [t Ht]. destruct (@limited_total F t) as [u Hu].
exists (u :: us). constructor; [now exists t|easy].
Qed.
Lemma terms_split ab us : Forall2 term ab us -> exists ts, Forall2 (fun xy t => product (value (fst xy)) (value (snd xy)) t) ab ts /\ Forall2 (limited F) ts us.
Proof.
induction 1 as [|x u ab us (t & H1 & H2) H (ts & I1 & I2)]; [now exists []|]. exists (t :: ts). split; now constructor.
Qed.
Lemma dot_terms a b us rnd E : (length a <= length b)%nat -> Forall2 term (combine a b) us ->
  exists z E1, dot a b rnd E = Ret (z, E1) /\ reduces (get_mpfr_rnd_mode rnd) us z.
Proof. intros L H. destruct (terms_split _ _ H) as (ts & H1 & H2). now apply (dot_exact a b ts us). Qed.
Lemma sqr_terms l us rnd E : Forall2 term (combine l l) us -> reduces (get_mpfr_rnd_mode rnd) us (fst (sum_sqr l rnd E)).
Proof.
intros H. destruct (terms_split _ _ H) as (ts & H1 & H2). apply (sum_sqr_exact l ts us); [|easy].
clear - H1. revert ts H1. induction l as [|x l IH]; cbn; intros ts H; inversion H; subst; constructor; auto.
Qed.
Lemma dot_perm_eq a b a' b' rnd E E' : (length a <= length b)%nat -> (length a' <= length b')%nat ->
  Permutation (combine a b) (combine a' b') ->
  exists z E1 E1', dot a b rnd E = Ret (z, E1) /\ dot a' b' rnd E' = Ret (z, E1').
Proof.
intros L L' P. destruct (terms_ex (combine a b)) as [us H].
destruct (Permutation_Forall2 P H) as (us' & PU & H').
destruct (dot_terms a b us rnd E L H) as (z & E1 & D & R). destruct (dot_terms a' b' us' rnd E' L' H') as (z' & E1' & D' & R').
exists z, E1, E1'. split; [easy|]. rewrite D'. do 2 f_equal.
apply (reduces_eq _ us' us _ _ (fun t => total_perm _ _ t (Permutation_sym PU)) R' R).
Qed.
Lemma terms_swap a b us : Forall2 term (combine a b) us -> Forall2 term (combine b a) us.
Proof.
revert b us. induction a as [|x a IH]; intros [|y b] us H; cbn in *; try easy.
inversion H as [|p u ps us' (t & H1 & H2) H3]; subst. constructor; [|now apply IH]. exists t. split; [now apply product_sym|easy].
Qed.
Lemma dot_swap_eq a b rnd E E' : length a = length b ->
  exists z E1 E1', dot a b rnd E = Ret (z, E1) /\ dot b a rnd E' = Ret (z, E1').
Proof.
intros L. destruct (terms_ex (combine a b)) as [us H].
destruct (dot_terms a b us rnd E ltac:(lia) H) as (z & E1 & D & R). destruct (dot_terms b a us rnd E' ltac:(lia) (terms_swap _ _ _ H)) as (z' & E1' & D' & R').
exists z, E1, E1'. split; [easy|]. rewrite D'. do 2 f_equal. now apply (reduces_eq _ us us _ _ (fun t H => H) R' R).
Qed.
Lemma dot_self l rnd E E' : exists E1, dot l l rnd E = Ret (fst (sum_sqr l rnd E'), E1).
Proof.
destruct (terms_ex (combine l l)) as [us H]. destruct (dot_terms l l us rnd E (le_n _) H) as (z & E1 & D & R).
exists E1. rewrite D. do 2 f_equal. now apply (reduces_eq _ us us _ _ (fun t H => H) R (sqr_terms _ _ _ _ H)).
Qed.
Lemma combine_self_perm l l' : Permutation l l' -> Permutation (combine l l) (combine l' l').
Proof.
assert (C : forall k, combine k k = map (fun x => (x, x)) k :> list (float F * float F)) by (induction k; cbn; congruence).
intros P. rewrite !C. now apply Permutation_map.
Qed.
Lemma sum_sqr_perm_eq l l' rnd E E' : Permutation l l' -> fst (sum_sqr l rnd E) = fst (sum_sqr l' rnd E').
Proof.
intros P. destruct (dot_perm_eq l l l' l' rnd E E' (le_n _) (le_n _) (combine_self_perm _ _ P)) as (z & E1 & E1' & D & D').
destruct (dot_self l rnd E E) as [E2 D2]. destruct (dot_self l' rnd E' E') as [E2' D2']. congruence.
Qed.

(** ** Opposite elements *)
Lemma Rlt_bool_opp r : r <> 0 -> Rlt_bool (- r) 0 = negb (Rlt_bool r 0).
Proof. intros N. destruct (Rlt_bool_spec r 0), (Rlt_bool_spec (- r) 0); cbn; try easy; lra. Qed.
Lemma round_opposite rnd r :
  round radix2 (FLT_exp (3 - emax F - prec F) (prec F)) (round_mode (get_mpfr_rnd_mode (opposite rnd))) (- r) =
  - round radix2 (FLT_exp (3 - emax F - prec F) (prec F)) (round_mode (get_mpfr_rnd_mode rnd)) r.
Proof. destruct rnd; cbn; [apply round_UP_opp|apply round_DN_opp|apply round_NE_opp|apply round_ZR_opp]. Qed.
Lemma rounded_opposite rnd r z : rounded (get_mpfr_rnd_mode rnd) r z -> rounded (get_mpfr_rnd_mode (opposite rnd)) (- r) (Bopp z).
Proof.
unfold rounded. cbv zeta. rewrite round_opposite, Rabs_Ropp. intros [A B]. split; intros H.
- destruct (A H) as [Fz E]. now rewrite is_finite_Bopp, B2R_Bopp, E.
- specialize (B H). assert (N : r <> 0).
  { intros ->. rewrite round_0, Rabs_R0 in H; [|apply valid_rnd_round_mode]. pose proof (bpow_gt_0 radix2 (emax F)). lra. }
  rewrite (Rlt_bool_opp _ N), is_finite_Bopp, B2R_Bopp.
  destruct rnd, (Rlt_bool r 0); cbn in *; try (now rewrite B); destruct B as [Fz ->]; split; try easy; lra.
Qed.
Lemma value_opp x : value (Bopp x) = xopp (value x).
Proof. destruct x as [| | |s a e B]; cbn [value Bopp xopp]; try easy; [cbn; now rewrite Ropp_0|]. f_equal. exact (B2R_Bopp _ _ (B754_finite s a e B)). Qed.
Lemma reduces_opp rnd ts z y : reduces (get_mpfr_rnd_mode rnd) ts z -> reduces (get_mpfr_rnd_mode (opposite rnd)) (map xopp ts) y ->
  same_number y (Bopp z).
Proof.
intros Z Y. destruct (total_exists ts) as [t Ht]. specialize (Z t Ht). specialize (Y _ (total_opp _ _ Ht)).
destruct t as [|s|r]; cbn in Y; [left; now subst..|]. destruct Z as [Z _], Y as [Y _]. apply rounded_opposite in Z.
destruct (rounded_num _ _ _ _ Y Z) as [(Fy & Fz & E)|]; [|now left].
destruct (Req_dec (B2R y) 0) as [H|H]; [right; repeat split; congruence|left; now apply fin_eq].
Qed.
Lemma sum_opp_eq l rnd E E' : same_number (fst (sum (map Bopp l) (opposite rnd) E)) (Bopp (fst (sum l rnd E'))).
Proof.
apply (reduces_opp rnd (map value l)); [apply sum_reduces|].
replace (map xopp (map value l)) with (map value (map Bopp l)); [apply sum_reduces|].
rewrite !map_map. apply map_ext. apply value_opp.
Qed.
Lemma product_opp x y t : product (value x) (value y) t -> product (value (Bopp x)) (value y) (xopp t).
Proof.
rewrite value_opp. destruct 1; cbn.
- constructor.
- constructor.
- rewrite Ropp_mult_distr_l. constructor.
- replace (negb (xorb a b)) with (xorb (negb a) b) by now destruct a, b. constructor.
- apply product_zero_l. lra.
- now apply product_zero_r.
- apply product_neg_l. lra.
- now apply product_pos_r.
- rewrite negb_involutive. apply product_pos_l. lra.
- now apply product_neg_r.
Qed.
Lemma limited_opp t u : limited F t u -> limited F (xopp t) (xopp u).
Proof.
destruct 1; cbn; try rewrite Ropp_0; try rewrite Ropp_involutive; try (constructor; rewrite ?Rabs_Ropp; lra); try (now constructor).
Qed.
Lemma terms_opp a b us : Forall2 term (combine a b) us -> Forall2 term (combine (map Bopp a) b) (map xopp us).
Proof.
revert b us. induction a as [|x a IH]; intros [|y b] us H; cbn in *; [inversion H; constructor..|].
inversion H as [|p u ps us' (t & H1 & H2) H3]; subst. constructor; [|now apply IH].
exists (xopp t). split; [now apply product_opp|now apply limited_opp].
Qed.
Lemma dot_opp_eq a b rnd E E' : (length a <= length b)%nat ->
  exists z E1 z' E1', dot (map Bopp a) b (opposite rnd) E = Ret (z, E1) /\ dot a b rnd E' = Ret (z', E1') /\ same_number z (Bopp z').
Proof.
intros L. destruct (terms_ex (combine a b)) as [us H].
destruct (dot_terms a b us rnd E' L H) as (z' & E1' & D' & R').
destruct (dot_terms (map Bopp a) b (map xopp us) (opposite rnd) E ltac:(now rewrite map_length) (terms_opp _ _ _ H)) as (z & E1 & D & R).
exists z, E1, z', E1'. split; [easy|split; [easy|]]. now apply (reduces_opp rnd us).
Qed.
End P.
Lemma sum_without_zero {F : fmt} (l l' : list (float F)) s rnd E E' :
  Permutation l' (B754_zero s :: l) -> fst (sum l' rnd E) = fst (sum l rnd E').
Proof. intros P. rewrite (sum_perm_eq _ _ rnd E E' P). apply sum_zero. Qed.
Lemma sum_signs_refuted : exists (l : list (float binary64)) rnd E, fst (sum (map fneg l) (opposite rnd) E) <> fneg (fst (sum l rnd E)).
Proof.
exists [], to_nearest, (Genv 0 0). cbn [map opposite].
pose proof (sum_reduces (F:=binary64) [] to_nearest (Genv 0 0)) as H. specialize (H _ (total_real [])). cbn [fold_right get_mpfr_rnd_mode] in H.
destruct H as [[H _] Z]. cbv zeta in H. rewrite round_0, Rabs_R0 in H by apply valid_rnd_round_mode.
destruct (H (bpow_gt_0 _ _)) as [A B]. rewrite (Z A B). discriminate.
Qed.
Lemma state_after {F : fmt} (l a b : list (float F)) rnd E : let G := Genv (4 - emax F - prec F) (emax F) in
  snd (sum l rnd E) = G /\ snd (sum_abs l rnd E) = G /\ snd (sum_sqr l rnd E) = G /\ forall z E', dot a b rnd E = Ret (z, E') -> E' = G.
Proof.
assert (H : forall ops, snd (reduction_sum_op F ops rnd E) = Genv (4 - emax F - prec F) (emax F)).
{ intros ops. unfold reduction_sum_op. destruct (mp_sum _ _ _ _). cbn [snd]. unfold setup, var_of. cbn [v_emin v_emax]. f_equal. lia. }
split; [apply H|]. split; [apply H|]. split; [apply H|]. intros z E'. unfold dot. destruct (_ <? _)%nat; [easy|]. intros K. injection K as K. apply (f_equal snd) in K. rewrite H in K. now symmetry.
Qed.
