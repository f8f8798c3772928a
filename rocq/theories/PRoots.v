(** * The bisection example: proofs *)
From Coq Require Import ZArith Reals Bool List Lia Lra Classical.
From Flocq Require Import Core.Core IEEE754.BinarySingleNaN.
From Verif Require Import Fmt FloatFacts Spec Exc SpecApi SpecNum SpecRoots MBase MBool MArith MNum MRev MRoots PBase PConv PBool PClass PDec PNumF.
Import ListNotations.
Local Open Scope R_scope.
Local Open Scope list_scope.

Section P.
Context {F : fmt}.
Implicit Types x y v : itv F.

(** ** Integer index of a bound *)
Definition idx (a : float F) : Z :=
  match a with
  | B754_nan => 0
  | B754_infinity s => cond_Zopp s (2 ^ (emax F - emin F))
  | _ => Ztrunc (B2R a * bpow radix2 (- emin F))
  end.
Lemma emm : (emin F < emax F)%Z.
Proof. unfold emin. pose proof (fmt_prec1 F). pose proof (fmt_emax F). lia. Qed.
Lemma idx_fin a : is_finite a = true -> IZR (idx a) = B2R a * bpow radix2 (- emin F).
Proof.
intros Fa. replace (idx a) with (Ztrunc (B2R a * bpow radix2 (- emin F))) by now destruct a.
pose proof (B2R_format a) as G. unfold generic_format in G.
set (m := Ztrunc _) in G. set (e := cexp _ _ _) in G.
assert (He : (emin F <= e)%Z).
{ unfold e, cexp, fexp, SpecFloat.fexp, emin, SpecFloat.emin. lia. }
assert (E : B2R a * bpow radix2 (- emin F) = IZR (m * 2 ^ (e - emin F))).
{ rewrite G. unfold F2R. simpl Fnum. simpl Fexp. rewrite Rmult_assoc, <- bpow_plus, mult_IZR.
  f_equal. symmetry. change 2%Z with (radix_val radix2). apply IZR_Zpower. lia. }
rewrite E. now rewrite Ztrunc_IZR.
Qed.
Lemma idx_lt a b : is_finite a = true -> is_finite b = true -> B2R a < B2R b -> (idx a < idx b)%Z.
Proof.
intros Fa Fb H. apply lt_IZR. rewrite !idx_fin by easy. apply Rmult_lt_compat_r; [apply bpow_gt_0|easy].
Qed.
Lemma idx_le a b : is_finite a = true -> is_finite b = true -> B2R a <= B2R b -> (idx a <= idx b)%Z.
Proof.
intros Fa Fb H. apply le_IZR. rewrite !idx_fin by easy. apply Rmult_le_compat_r; [apply bpow_ge_0|easy].
Qed.
Lemma idx_bound a : is_finite a = true -> (- 2 ^ (emax F - emin F) < idx a < 2 ^ (emax F - emin F))%Z.
Proof.
intros Fa. pose proof emm as EM.
assert (H : Rabs (IZR (idx a)) < IZR (2 ^ (emax F - emin F))).
{ rewrite idx_fin by easy. rewrite Rabs_mult, (Rabs_pos_eq (bpow _ _)) by apply bpow_ge_0.
  change 2%Z with (radix_val radix2). rewrite IZR_Zpower by lia.
  unfold Z.sub. rewrite bpow_plus. apply Rmult_lt_compat_r; [apply bpow_gt_0|].
  apply Rle_lt_trans with (1 := abs_le_fmaxv a). apply fmaxv_lt. }
apply Rabs_lt_inv in H. rewrite <- opp_IZR in H. split; apply lt_IZR; easy.
Qed.
Lemma idx_big : (0 < 2 ^ (emax F - emin F))%Z.
Proof. apply Z.pow_pos_nonneg; [easy|]. pose proof emm. lia. Qed.

Lemma lb_idx_lt (a b : float F) t : isnan a = false -> lb b t -> ~ lb a t -> (idx b < idx a)%Z.
Proof.
pose proof idx_big as B. intros Na Hb Ha.
destruct (fviewP a) as [| | |a Fa]; [easy|now elim Ha| |]; destruct (fviewP b) as [| | |b Fb]; try easy.
- simpl. lia.
- pose proof (idx_bound _ Fb). simpl. lia.
- pose proof (idx_bound _ Fa). simpl. lia.
- rewrite lb_fin in Ha, Hb by easy. apply idx_lt; try easy. lra.
Qed.
Lemma ub_idx_lt (a b : float F) t : isnan a = false -> ub b t -> ~ ub a t -> (idx a < idx b)%Z.
Proof.
pose proof idx_big as B. intros Na Hb Ha.
destruct (fviewP a) as [| | |a Fa]; [easy| |now elim Ha|]; destruct (fviewP b) as [| | |b Fb]; try easy.
- simpl. lia.
- pose proof (idx_bound _ Fb). simpl. lia.
- pose proof (idx_bound _ Fa). simpl. lia.
- rewrite ub_fin in Ha, Hb by easy. apply idx_lt; try easy. lra.
Qed.
Lemma lb_idx (a b : float F) : isnan b = false -> (forall t, lb a t -> lb b t) -> (exists t, lb a t) -> (idx b <= idx a)%Z.
Proof.
pose proof idx_big as B.
intros Nb H [t0 H0]. destruct (fviewP a) as [| | |a Fa]; try easy; destruct (fviewP b) as [| | |b Fb]; try easy.
- now specialize (H 0 eq_refl).
- specialize (H (B2R b - 1) eq_refl). rewrite lb_fin in H by easy. lra.
- pose proof (idx_bound _ Fa). simpl. lia.
- specialize (H _ H0). easy.
- specialize (H (B2R a)). rewrite !lb_fin in H by easy. apply idx_le; try easy. apply H. lra.
Qed.
Lemma ub_idx (a b : float F) : isnan b = false -> (forall t, ub a t -> ub b t) -> (exists t, ub a t) -> (idx a <= idx b)%Z.
Proof.
pose proof idx_big as B.
intros Nb H [t0 H0]. destruct (fviewP a) as [| | |a Fa]; try easy; destruct (fviewP b) as [| | |b Fb]; try easy.
- now specialize (H 0 eq_refl).
- specialize (H (B2R b + 1) eq_refl). rewrite ub_fin in H by easy. lra.
- specialize (H _ H0). easy.
- pose proof (idx_bound _ Fa). simpl. lia.
- specialize (H (B2R a)). rewrite !ub_fin in H by easy. apply idx_le; try easy. apply H. lra.
Qed.

(** ** The number of representable steps between the bounds *)
Definition steps x : nat := Z.to_nat (idx (snd x) - idx (fst x)).
Lemma lb_total (a : float F) r s : lb a r -> lb a s \/ s <= r.
Proof. destruct (Rle_or_lt r s); [left; now apply lb_mono with r|right; lra]. Qed.
Lemma incl_lb v x : inhabited_itv v -> included v x -> forall t, lb (fst v) t -> lb (fst x) t.
Proof.
intros [r [H1 H2]] I t Ht. apply lb_mono with (Rmin r t); [|apply Rmin_r].
apply I. split; [unfold Rmin; now destruct Rle_dec|]. apply ub_mono with r; [easy|apply Rmin_l].
Qed.
Lemma incl_ub v x : inhabited_itv v -> included v x -> forall t, ub (snd v) t -> ub (snd x) t.
Proof.
intros [r [H1 H2]] I t Ht. apply ub_mono with (Rmax r t); [|apply Rmax_r].
apply I. split; [|unfold Rmax; now destruct Rle_dec]. apply lb_mono with r; [easy|apply Rmax_l].
Qed.
Lemma idx_inh x : inhabited_itv x -> (idx (fst x) <= idx (snd x))%Z.
Proof.
pose proof idx_big as B. intros [r [H1 H2]].
destruct (fviewP (fst x)) as [| | |a Fa], (fviewP (snd x)) as [| | |b Fb]; try easy.
- simpl. lia.
- pose proof (idx_bound _ Fb). simpl. lia.
- pose proof (idx_bound _ Fa). simpl. lia.
- rewrite lb_fin in H1 by easy. rewrite ub_fin in H2 by easy. apply idx_le; try easy. lra.
Qed.
Lemma steps_lt v x r : inhabited_itv v -> included v x -> mem r x -> ~ mem r v -> (steps v < steps x)%nat.
Proof.
intros Hv I Hr Nr.
assert (Hx : inhabited_itv x) by now exists r.
pose proof (idx_inh v Hv). pose proof (idx_inh x Hx).
pose proof (incl_lb v x Hv I) as IL. pose proof (incl_ub v x Hv I) as IU.
destruct Hv as [q [Q1 Q2]], Hr as [R1 R2].
assert (L : (idx (fst x) <= idx (fst v))%Z) by (apply lb_idx; [destruct (fst x); easy|easy|now exists q]).
assert (U : (idx (snd v) <= idx (snd x))%Z) by (apply ub_idx; [destruct (snd x); easy|easy|now exists q]).
unfold steps. apply Z2Nat.inj_lt; try lia.
destruct (classic (lb (fst v) r)) as [E|E].
- assert (N : ~ ub (snd v) r) by (intros N; now apply Nr).
  pose proof (ub_idx_lt (snd v) (snd x) r ltac:(destruct (snd v); easy) R2 N). lia.
- pose proof (lb_idx_lt (fst v) (fst x) r ltac:(destruct (fst v); easy) R1 E). lia.
Qed.

(** ** The two halves *)
Lemma halves x : inhabited_itv x -> exists a m b,
  n_inf x = ret a /\ n_mid x = ret m /\ n_sup x = ret b /\
  nums_to_interval a m = ret (a, m) /\ nums_to_interval m b = ret (m, b) /\ nums_to_interval m m = ret (m, m) /\
  is_finite m = true /\ mem (B2R m) x /\
  (forall r, mem r (a, m) <-> mem r x /\ r <= B2R m) /\
  (forall r, mem r (m, b) <-> mem r x /\ B2R m <= r) /\
  (~ thin x -> (exists r, mem r x /\ r < B2R m) /\ (exists r, mem r x /\ B2R m < r)).
Proof.
intros Hx. pose proof (mem_wf x Hx) as W.
destruct (n_inf_spec x W) as (a & Ea & (Na & La & Ma) & _).
destruct (n_sup_spec x W) as (b & Eb & (Nb & Ub & Mb) & _).
destruct (mid_ok x Hx) as (m & Em & Fm & Mm & _ & Near).
destruct (mid_unbounded F x Hx) as (m' & Em' & U1 & U2 & U3).
rewrite <- n_mid_same in Em'.
assert (m' = m). { pose proof (Em (Est 0 0)) as E1. rewrite (Em' (Est 0 0)) in E1. congruence. } subst m'.
apply returns_eq in Ea, Eb, Em.
exists a, m, b. split; [easy|]. split; [easy|]. split; [easy|].
assert (A : forall r, mem r (a, m) <-> mem r x /\ r <= B2R m).
{ intros r. split.
  - intros [H1 H2]. cbn [fst snd] in H1, H2. rewrite ub_fin in H2 by easy. split; [|easy]. split.
    + apply (Ma (fst x)); [|easy]. intros t. apply lbmem.
    + apply ub_mono with (B2R m); [|easy]. now apply ubmem.
  - intros [H1 H2]. split; cbn [fst snd]; [now apply La|now rewrite ub_fin]. }
assert (B : forall r, mem r (m, b) <-> mem r x /\ B2R m <= r).
{ intros r. split.
  - intros [H1 H2]. cbn [fst snd] in H1, H2. rewrite lb_fin in H1 by easy. split; [|easy]. split.
    + apply lb_mono with (B2R m); [|easy]. now apply lbmem.
    + apply (Mb (snd x)); [|easy]. intros t. apply ubmem.
  - intros [H1 H2]. split; cbn [fst snd]; [now rewrite lb_fin|now apply Ub]. }
split; [apply nums_ok; exists (B2R m); apply A; split; [easy|lra]|].
split; [apply nums_ok; exists (B2R m); apply B; split; [easy|lra]|].
split; [apply nums_ok; exists (B2R m); split; cbn [fst snd]; [rewrite lb_fin by easy|rewrite ub_fin by easy]; lra|].
split; [easy|]. split; [easy|]. split; [easy|]. split; [easy|].
intros NT. unfold thin in NT.
assert (C : exists c : float F, is_finite c = true /\ mem (B2R c) x /\ (exists r, mem r x /\ r < B2R c) /\ exists r, mem r x /\ B2R c < r).
{ apply NNPP. intros N. apply NT. intros c Fc Mc.
  destruct (classic (forall r, mem r x -> B2R c <= r)) as [E|E]; [now left|].
  destruct (classic (forall r, mem r x -> r <= B2R c)) as [E'|E']; [now right|]. exfalso.
  apply not_all_ex_not in E. destruct E as [r E]. apply imply_to_and in E.
  apply not_all_ex_not in E'. destruct E' as [r' E']. apply imply_to_and in E'.
  apply N. exists c. split; [easy|]. split; [easy|]. split; [exists r|exists r']; (split; [easy|lra]). }
destruct C as (c & Fc & Mc & (r1 & R1 & L1) & (r2 & R2 & L2)).
pose proof (abs_le_fmaxv c) as MX. apply Rabs_le_inv in MX.
destruct x as [l u]. cbn [fst snd] in *.
destruct R1 as [R1 R1'], R2 as [R2 R2'], Mm as [M1 M2]. cbn [fst snd] in *.
destruct (fviewP l) as [| | |l Fl], (fviewP u) as [| | |u Fu]; try easy.
- split; [exists (B2R m - 1)|exists (B2R m + 1)]; (split; [easy|lra]).
- rewrite U2 by (try easy; intros ->; easy). unfold fneg. rewrite B2R_Bopp.
  split; [exists (r1 - B2R (@fmaxv F) - 1 - Rabs r1); pose proof (Rle_abs r1); pose proof (Rabs_pos r1); split|exists r2; split; [easy|lra]].
  + split; [easy|]. cbn [snd]. apply ub_mono with r1; [easy|]. pose proof (@fmaxv_ge1 F). lra.
  + lra.
- rewrite U3 by (try easy; intros ->; easy).
  split; [exists r1; split; [easy|lra]|]. exists (r2 + B2R (@fmaxv F) + 1 + Rabs r2).
  pose proof (Rle_abs (- r2)). rewrite Rabs_Ropp in H. pose proof (Rabs_pos r2). pose proof (@fmaxv_ge1 F). split; [|lra].
  split; [|easy]. cbn [fst]. apply lb_mono with r2; [easy|]. lra.
- destruct (Near (conj Fl Fu)) as [_ N]. rewrite lb_fin in R1, R2, M1 by easy. rewrite ub_fin in R1', R2', M2 by easy.
  assert (D : Rabs (B2R m - (B2R l + B2R u) / 2) <= Rabs (B2R c - (B2R l + B2R u) / 2)).
  { rewrite N. apply (round_N_pt radix2 (fexp F) (fun t => negb (Z.even t)) ((B2R l + B2R u) / 2)). apply B2R_format. }
  assert (D2 : Rabs (B2R c - (B2R l + B2R u) / 2) < (B2R u - B2R l) / 2) by (apply Rabs_lt; lra).
  apply Rle_lt_trans with (1 := D) in D2. apply Rabs_lt_inv in D2.
  split; [exists (B2R l)|exists (B2R u)]; (split; [split; cbn [fst snd]; [rewrite lb_fin by easy|rewrite ub_fin by easy]; lra|lra]).
Qed.

Lemma zero_decides (C : comparable F binary64) y : wf y -> decides (zero_in y) (mem 0 y).
Proof.
intros W. destruct (is_member_mixed_decides C (@f0 binary64) y W) as (b & E & H).
exists b. split; [exact E|]. rewrite H. cbn. tauto.
Qed.
Lemma wid_below y (eps : float F) : inhabited_itv y -> exists w, n_wid y = ret w /\
  (flt w eps = true -> forall r s, mem r y -> mem s y -> smaller_than eps (r - s)).
Proof.
intros H. destruct (n_wid_spec y (mem_wf y H) (mem_nnan y H)) as (w & E & (Nw & U & _) & _).
apply returns_eq in E. exists w. split; [easy|]. intros L r s Hr Hs.
assert (A : ub w (Rabs (r - s))).
{ unfold Rabs. destruct Rcase_abs; [apply U; exists s, r|apply U; exists r, s]; (split; [easy|split; [easy|lra]]). }
destruct (fviewP w) as [| | |w Fw]; try easy; [now rewrite flt_pinf_l in L|].
rewrite ub_fin in A by easy.
destruct (fviewP eps) as [| | |e Fe]; try easy; [now rewrite flt_nan_r in L|now rewrite flt_minf_r in L|].
rewrite flt_fin in L by easy. assert (B2R w < B2R e) by (destruct (Rlt_bool_spec (B2R w) (B2R e)); [easy|discriminate]).
destruct e; try easy; cbn [smaller_than]; lra.
Qed.

Lemma zero_same (y : itv binary64) : wf y -> is_member f0 y = zero_in y.
Proof. intros W. unfold is_member, zero_in. rewrite is_valid_wf by easy. reflexivity. Qed.

Lemma covers_app l l' (S S' S'' : R -> Prop) : covers l S -> covers l' S' -> (forall r, S'' r -> S r \/ S' r) -> @covers F (l ++ l') S''.
Proof.
intros H H' I r Hr. destruct (I r Hr) as [E|E]; [apply H in E|apply H' in E]; destruct E as (v & E & M); exists v; (split; [|easy]); apply in_or_app; tauto.
Qed.
Lemma then_out_ret p q o o' : p = ret o -> q = ret o' ->
  @then_out F p q = ret (match o with None => None | Some l => match o' with None => None | Some l' => Some (l ++ l') end end).
Proof. intros -> ->. unfold then_out. mreds. destruct o; mreds; easy. Qed.

(** ** Bisection *)
Section B.
Context (C : comparable F binary64) (f : itv F -> M (itv F)) (phi : R -> R -> Prop) (Hf : extends f phi) (eps : float F).

(** One level. *)
Lemma bisect_cases x : inhabited_itv x ->
  (forall k, ia_bisect (S k) f x eps = ret (Some [])) /\ (forall r, mem r x -> ~ phi r 0) \/
  (forall k, ia_bisect (S k) f x eps = ret (Some [x])) /\ (forall r s, mem r x -> phi r s -> smaller_than eps s) \/
  exists a m b, (forall k, ia_bisect (S k) f x eps = then_out (ia_bisect k f (a, m) eps) (ia_bisect k f (m, b) eps)) /\
  n_inf x = ret a /\ n_mid x = ret m /\ n_sup x = ret b /\
  mem (B2R m) x /\ (forall r, mem r (a, m) <-> mem r x /\ r <= B2R m) /\ (forall r, mem r (m, b) <-> mem r x /\ B2R m <= r) /\
  (~ thin x -> (exists r, mem r x /\ r < B2R m) /\ (exists r, mem r x /\ B2R m < r)) /\
  exists y w, returns (f x) y /\ mem 0 y /\ returns (n_wid y) w /\ flt w eps = false.
Proof.
intros Hx. destruct (Hf x (mem_wf x Hx)) as (y & Ey & Wy & I). apply returns_eq in Ey.
destruct (zero_decides C y Wy) as (b & Eb & Hb). apply returns_eq in Eb.
destruct (halves x Hx) as (a & m & u & Ea & Em & Eu & N1 & N2 & _ & Fm & Mm & A & B & T).
destruct b.
- assert (Z : mem 0 y) by now apply Hb. destruct (wid_below y eps) as (w & Ew & Hw); [now exists 0|].
  destruct (flt w eps) eqn:E.
  + right. left. split.
    * intros k. simpl. rewrite Ey. mreds. rewrite Eb. mreds. rewrite Ew. mreds. now rewrite E.
    * intros r s Hr Hs. specialize (Hw eq_refl s 0 (I r s Hr Hs) Z). now rewrite Rminus_0_r in Hw.
  + right. right. exists a, m, u. split.
    * intros k. simpl. rewrite Ey. mreds. rewrite Eb. mreds. rewrite Ew. mreds. rewrite E, Ea. mreds. rewrite Em. mreds.
      rewrite N1, Eu. mreds. now rewrite N2.
    * repeat (split; [easy|]). exists y, w. rewrite !returns_eq. auto.
- left. split.
  + intros k. simpl. rewrite Ey. mreds. now rewrite Eb.
  + intros r Hr Hp. apply (I r 0 Hr) in Hp. apply Hb in Hp. discriminate.
Qed.

Lemma fop_app (R : itv F -> itv F -> Prop) l l' : ForallOrdPairs R l -> ForallOrdPairs R l' ->
  (forall v v', In v l -> In v' l' -> R v v') -> ForallOrdPairs R (l ++ l').
Proof.
induction 1 as [|v l Hv Hl IH]; intros Hl' H; [easy|]. simpl. constructor.
- apply Forall_app. split; [easy|]. apply Forall_forall. intros v' Hv'. apply H; [now left|easy].
- apply IH; [easy|]. intros. apply H; [now right|easy].
Qed.

Lemma bisect_sound x : inhabited_itv x -> stops_only_with (fun n => ia_bisect n f x eps) (finds_small phi x eps).
Proof.
intros Hx n. revert x Hx. induction n as [|n IH]; intros x Hx.
{ exists None. split; [easy|discriminate]. }
destruct (bisect_cases x Hx) as [[E H]|[[E H]|(a & m & b & E & _ & _ & _ & Mm & A & B & _)]].
- exists (Some []). rewrite E. split; [easy|]. intros l [= <-]. split; [|split; [constructor|easy]].
  intros r [H1 H2]. now apply H in H2.
- exists (Some [x]). rewrite E. split; [easy|]. intros l [= <-]. split; [|split].
  + intros r [H1 H2]. exists x. now split; [left|].
  + repeat constructor.
  + intros v [<-|[]]. split; [easy|]. split; [now intros r|easy].
- destruct (IH (a, m)) as (o & Eo & Ho); [exists (B2R m); apply A; split; [easy|lra]|].
  destruct (IH (m, b)) as (o' & Eo' & Ho'); [exists (B2R m); apply B; split; [easy|lra]|].
  apply returns_eq in Eo, Eo'. eexists. rewrite returns_eq, E. split; [apply then_out_ret; [exact Eo|exact Eo']|].
  intros l. destruct o as [l1|]; [|discriminate]. destruct o' as [l2|]; [|discriminate]. intros [= <-].
  destruct (Ho l1 eq_refl) as (C1 & A1 & P1), (Ho' l2 eq_refl) as (C2 & A2 & P2). split; [|split].
  + apply covers_app with (1 := C1) (2 := C2). intros r [H1 H2].
    destruct (Rle_or_lt r (B2R m)); [left|right]; (split; [|easy]); [apply A|apply B]; split; try easy; lra.
  + apply fop_app; try easy. intros v v' V V' r s Hr Hs.
    apply (proj1 (proj2 (P1 v V))) in Hr. apply (proj1 (proj2 (P2 v' V'))) in Hs. apply A in Hr. apply B in Hs. lra.
  + intros v V. apply in_app_or in V. destruct V as [V|V]; [destruct (P1 v V) as (I & S & Q)|destruct (P2 v V) as (I & S & Q)];
    (split; [easy|split; [|easy]]); intros r Hr; apply S in Hr; [apply A in Hr|apply B in Hr]; easy.
Qed.

Lemma bisect_more n k x l : ia_bisect n f x eps = ret (Some l) -> inhabited_itv x -> (n <= k)%nat -> ia_bisect k f x eps = ret (Some l).
Proof.
revert k x l. induction n as [|n IH]; intros k x l E Hx L.
{ simpl in E. apply (f_equal (fun m => m (Est 0 0))) in E. discriminate. }
destruct k as [|k]; [lia|].
destruct (bisect_cases x Hx) as [[E' _]|[[E' _]|(a & m & b & E' & _ & _ & _ & Mm & A & B & _)]]; rewrite E' in E |- *; try easy.
assert (Ia : inhabited_itv (a, m)) by (exists (B2R m); apply A; split; [easy|lra]).
assert (Ib : inhabited_itv (m, b)) by (exists (B2R m); apply B; split; [easy|lra]).
destruct (bisect_sound (a, m) Ia n) as (o & Eo & _), (bisect_sound (m, b) Ib n) as (o' & Eo' & _).
apply returns_eq in Eo, Eo'. rewrite (then_out_ret _ _ _ _ Eo Eo') in E.
apply (f_equal (fun m => m (Est 0 0))) in E. injection E as E.
destruct o as [l1|]; [|discriminate]. destruct o' as [l2|]; [|discriminate]. injection E as <-.
erewrite then_out_ret; [|eapply IH; [exact Eo|easy|lia]|eapply IH; [exact Eo'|easy|lia]]. reflexivity.
Qed.

Lemma bisect_stops x : inhabited_itv x ->
  (forall v, inhabited_itv v -> included v x -> thin v ->
     forall y w, returns (f v) y -> mem 0 y -> returns (n_wid y) w -> flt w eps = true) ->
  stops_with (fun n => ia_bisect n f x eps) (finds_small phi x eps).
Proof.
intros Hx T.
assert (G : exists n l, ia_bisect n f x eps = ret (Some l)).
{ remember (steps x) as k eqn:K. revert x Hx T K. induction k as [k IH] using lt_wf_ind. intros x Hx T ->.
  destruct (bisect_cases x Hx) as [[E _]|[[E _]|(a & m & b & E & _ & _ & _ & Mm & A & B & NT & y & w & Ey & Zy & Ew & Hw)]].
  - now exists 1%nat, [].
  - now exists 1%nat, [x].
  - assert (N : ~ thin x).
    { intros H. specialize (T x Hx (fun r h => h) H y w Ey Zy Ew). congruence. }
    destruct (NT N) as [(r1 & R1 & L1) (r2 & R2 & L2)].
    assert (Ia : inhabited_itv (a, m)) by (exists (B2R m); apply A; split; [easy|lra]).
    assert (Ib : inhabited_itv (m, b)) by (exists (B2R m); apply B; split; [easy|lra]).
    assert (Sa : included (a, m) x) by (intros r Hr; now apply A in Hr).
    assert (Sb : included (m, b) x) by (intros r Hr; now apply B in Hr).
    destruct (IH (steps (a, m))) with (x := (a, m)) as (n1 & l1 & E1); try easy.
    { apply steps_lt with r2; try easy. intros H. apply A in H. lra. }
    { intros v Iv Sv. apply T; [easy|]. intros r Hr. now apply Sa, Sv. }
    destruct (IH (steps (m, b))) with (x := (m, b)) as (n2 & l2 & E2); try easy.
    { apply steps_lt with r1; try easy. intros H. apply B in H. lra. }
    { intros v Iv Sv. apply T; [easy|]. intros r Hr. now apply Sb, Sv. }
    exists (S (n1 + n2)), (l1 ++ l2). rewrite E.
    erewrite then_out_ret; [|eapply bisect_more; [exact E1|easy|lia]|eapply bisect_more; [exact E2|easy|lia]]. reflexivity. }
destruct G as (n & l & E). exists l, n. split.
- intros k L. apply returns_eq. now apply bisect_more with n.
- destruct (bisect_sound x Hx n) as (o & Eo & Ho). rewrite returns_eq, E in Eo.
  apply (f_equal (fun m => m (Est 0 0))) in Eo. injection Eo as Eo. now apply Ho.
Qed.
End B.
End P.
