(** * Refutations: reverse sine, cosine and tangent can miss solutions *)
From Coq Require Import ZArith NArith Reals Bool Lia Lra Psatz List.
From Flocq Require Import Core.Core Core.FTZ IEEE754.BinarySingleNaN.
From Verif Require Import Fmt Spec FloatFacts Exc Deco SpecApi SpecElem SpecNum MBase PBase MBool MArith PArith PMul PUnary
  PConv PBool PSetop PElem MTrig PTrigR PTrig PTan PTrigT PDec PDecF PNum MRev SpecRev PRev PRevEven MTrigRev PTrigRev PTrigRev2 PRevW.

Local Open Scope R_scope.

Lemma ret_inj {A} (a b : A) : ret a = ret b -> a = b.
Proof. intros H. apply (f_equal (fun m => fst (m (Est 0 0)))) in H. now injection H. Qed.

(** What a computation that gets to its end may return. *)
Definition yields {A} (m : M A) (P : A -> Prop) : Prop := forall s a s', m s = (Ret a, s') -> P a.
Lemma yields_ret {A} (a : A) (P : A -> Prop) : P a -> yields (ret a) P.
Proof. intros H s b s' E. now injection E as <- _. Qed.
Lemma yields_undef {A} (P : A -> Prop) : yields undef P.
Proof. now intros s b s' E. Qed.
Lemma yields_bind {A B} (m : M A) (k : A -> M B) (P : A -> Prop) (Q : B -> Prop) :
  yields m P -> (forall a, P a -> yields (k a) Q) -> yields (bind m k) Q.
Proof.
intros H1 H2 s b s' E. unfold bind in E. destruct (m s) as [[a| |] s1] eqn:Em; try easy. apply H1 in Em. now apply (H2 a Em) in E.
Qed.
Lemma yields_eq {A} (m : M A) a (P : A -> Prop) : yields m P -> m = ret a -> P a.
Proof. intros H ->. now apply (H (Est 0 0) a (Est 0 0)). Qed.
Lemma lchk_yields {A} k (m : M A) P : yields m P -> yields (lchk k m) P.
Proof. intros H. unfold lchk. destruct in_long; [easy|apply yields_undef]. Qed.

Section T.
Context {F : fmt}.
Implicit Types x y z b c : itv F.
Hypothesis HP : (8 <= prec F)%Z.
(** Numbers k / 16 with few digits. *)
Lemma sixteenth k : (Z.abs k < 2 ^ 8)%Z -> exists B : float F, is_finite B = true /\ B2R B = IZR k / 16.
Proof.
intros H. pose proof (fmt_emax F). apply fmt_float.
- apply generic_format_FLT. exists (Defs.Float radix2 k (-4)).
  + unfold F2R; simpl. lra.
  + cbn [Defs.Fnum]. change (Z.abs k < 2 ^ prec F)%Z. apply Z.lt_le_trans with (1 := H). apply Z.pow_le_mono_r; lia.
  + cbn [Defs.Fexp]. unfold emin, SpecFloat.emin. lia.
- apply Rlt_le_trans with (bpow radix2 4); [|apply bpow_le; lia].
  unfold Rdiv. rewrite Rabs_mult, (Rabs_pos_eq (/ 16)) by lra. rewrite <- abs_IZR. apply IZR_lt in H. simpl in *. lra.
Qed.
Lemma half_min : bpow radix2 (emin F + prec F - 1) <= / 2.
Proof. change (/ 2) with (bpow radix2 (-1)). apply bpow_le. apply emin_small. Qed.
Lemma get_dn_ge m2 v k t : (Z.abs k < 2 ^ 8)%Z -> IZR k / 16 <= v -> / 2 <= Rabs v -> lb (@get_after F mode_DN m2 v) t -> IZR k / 16 <= t.
Proof.
intros H K V L. destruct (sixteenth k H) as (B & FB & EB). unfold get_after in L. pose proof half_min.
rewrite Rlt_bool_false in L by lra. destruct (rround_RD false v : is_RD v (@rround F mode_DN false v)) as [_ R].
specialize (R B). rewrite lb_fin, EB in R by easy. specialize (R K t L). rewrite lb_fin, EB in R by easy. exact R.
Qed.
Lemma get_up_le m2 v k t : (Z.abs k < 2 ^ 8)%Z -> v <= IZR k / 16 -> / 2 <= Rabs v -> ub (@get_after F mode_UP m2 v) t -> t <= IZR k / 16.
Proof.
intros H K V L. destruct (sixteenth k H) as (B & FB & EB). unfold get_after in L. pose proof half_min.
rewrite Rlt_bool_false in L by lra. destruct (rround_RU false v : is_RU v (@rround F mode_UP false v)) as [_ R].
specialize (R B). rewrite ub_fin, EB in R by easy. specialize (R K t L). rewrite ub_fin, EB in R by easy. exact R.
Qed.
Lemma pid_25 : 25 / 8 <= @pid F.
Proof.
unfold pid. destruct (@pi_fin F) as [P1 P2]. destruct (sixteenth 50) as (B & FB & EB); [easy|].
destruct (rround_RD false PI : is_RD PI (@mpfr_const_pi F mode_DN)) as [_ R]. pose proof pi34.
specialize (R B). rewrite lb_fin, EB in R by easy. specialize (R ltac:(lra) (B2R (@mpfr_const_pi F mode_DN))). rewrite !lb_fin, EB in R by easy. lra.
Qed.
Lemma fits_100 r : Rabs r <= 100 -> @fits F r.
Proof. intros H. apply Rle_trans with (1 := H). apply Rle_trans with (bpow radix2 8); [simpl; lra|]. apply bpow_le. lia. Qed.
Lemma floor_eq (p r : R) n k : 0 < p -> IZR n * p <= r < IZR (n + 1) * p -> IZR k * p <= r < IZR (k + 1) * p -> n = k.
Proof.
intros Hp [A1 A2] [B1 B2]. rewrite plus_IZR in *. assert (n <= k /\ k <= n)%Z; [|lia]. split; apply IZR_step with p; try easy; lra.
Qed.
Lemma ceil_eq (p r : R) n k : 0 < p -> IZR (n - 1) * p < r <= IZR n * p -> IZR (k - 1) * p < r <= IZR k * p -> n = k.
Proof.
intros Hp [A1 A2] [B1 B2]. rewrite minus_IZR in *. assert (n <= k /\ k <= n)%Z; [|lia]. split; apply IZR_step with p; try easy; lra.
Qed.
Lemma left_quarter kind cl cu x : is_finite (fst x) = true -> B2R (fst x) = -1 / 4 ->
  left_box kind cl cu x = try_two (branch kind (@piu F) (@pid F) cl cu (-1) 0) (branch kind (@piu F) (@pid F) cl cu (-1) 1) x.
Proof.
intros Fx Ex. unfold left_box. assert (E1 : feq (fst x) fminf = false) by (destruct (fst x) as [| | |]; easy). rewrite E1.
assert (E2 : flt (fst x) f0 = true). { rewrite flt_fin by easy. change (B2R f0) with 0. rewrite Ex. apply Rlt_bool_true. lra. } rewrite E2.
pose proof (@pid_ok F) as Hp. pose proof (quo_floor (F := F) (B2R (fst x)) (@pid F)) as Q. cbn zeta in *. rewrite Ex in *.
specialize (Q ltac:(apply fits_100; apply Rabs_le; lra) (proj1 Hp)). set (n := if Rlt_bool _ _ then _ else _) in *.
assert (n = -1)%Z as ->. { apply floor_eq with (@pid F) (-1 / 4); [lra|easy|simpl; lra]. }
now rewrite lchk_ok by lia.
Qed.
Lemma right_four kind cl cu x : is_finite (snd x) = true -> 19 / 2 <= B2R (snd x) <= 10 ->
  right_box kind true cl cu x = try_two (branch kind (@pid F) (@piu F) cl cu 4 0) (branch kind (@pid F) (@piu F) cl cu 4 (-1)) x.
Proof.
intros Fx Ex. unfold right_box. assert (E1 : feq (snd x) finf = false) by (destruct (snd x) as [| | |]; easy). rewrite E1.
assert (E2 : fgt (snd x) f0 = true). { change (fgt (snd x) f0) with (flt f0 (snd x)). rewrite flt_fin by easy. change (B2R f0) with 0. apply Rlt_bool_true. lra. } rewrite E2.
pose proof (@pid_ok F) as Hp. pose proof pi34. pose proof (quo_ceil (F := F) (B2R (snd x)) (@pid F)) as Q. cbn zeta in *.
specialize (Q ltac:(apply fits_100; apply Rabs_le; lra) (proj1 Hp)). set (n := if Rlt_bool _ _ then _ else _) in *.
assert (n = 4)%Z as ->. { apply ceil_eq with (@pid F) (B2R (snd x)); [lra|easy|simpl; lra]. }
now rewrite lchk_ok by lia.
Qed.
Lemma wf_none z : wf z -> (forall t, ~ mem t z) -> z = empty.
Proof. intros [->|[t H]] N; [easy|]. now apply N in H. Qed.
(** The two tries: all members of the result are members of one of the boxes. *)
Lemma try_two_in b0 b1 x : wf b0 -> wf b1 -> wf x -> exists z, try_two (ret b0) (ret b1) x = ret z /\ wf z /\
  forall t, mem t z -> mem t x /\ (mem t b0 \/ mem t b1).
Proof.
intros W0 W1 Wx. unfold try_two. mreds. destruct (intersection_exact b0 x W0 Wx) as (z0 & E0 & Wz0 & M0).
destruct (intersection_exact b1 x W1 Wx) as (z1 & E1 & Wz1 & M1). rewrite E0, E1. mreds. rewrite is_empty_wf by easy. mreds.
destruct (isnan (fst z0)); mreds.
- exists z1. split; [easy|]. split; [easy|]. intros t Ht. apply M1 in Ht. tauto.
- exists z0. split; [easy|]. split; [easy|]. intros t Ht. apply M0 in Ht. tauto.
Qed.
Lemma hull_of_left (l r : itv F) : wf l -> wf r -> (forall t, ~ mem t l) -> convex_hull l r = ret r.
Proof. intros Wl Wr N. apply wf_none in N; [|easy]. subst l. rewrite hull_ret by easy. reflexivity. Qed.
Lemma returned (m : M (itv F)) (z w : itv F) : m = ret z -> returns m w -> w = z.
Proof. intros -> H. apply returns_eq in H. now apply ret_inj in H. Qed.

(** ** Sine *)
Lemma not_one (cc : itv F) : wf cc -> (exists r, -1 <= r <= 1 /\ ~ mem r cc) -> equal cc (fm1, f1) = ret false.
Proof.
intros W (r & Hr & N). destruct (equal_decides cc (fm1, f1) W unit_wf) as (e & Ee & De). apply returns_eq in Ee. rewrite Ee. f_equal.
destruct e; [|easy]. exfalso. apply N. apply De; [easy|]. now apply unit_mem.
Qed.
Lemma point_mem (l u : float F) r : is_finite l = true -> is_finite u = true -> mem r (l, u) <-> B2R l <= r <= B2R u.
Proof. intros Fl Fu. unfold mem. cbn [fst snd]. rewrite lb_fin, ub_fin by easy. tauto. Qed.
Lemma same_bounds (l u : float F) z : is_finite l = true -> is_finite u = true -> B2R l <= B2R u -> is_finite (fst z) = true -> is_finite (snd z) = true ->
  (forall r, mem r z <-> B2R l <= r <= B2R u) -> B2R (fst z) = B2R l /\ B2R (snd z) = B2R u.
Proof.
intros Fl Fu L F1 F2 H. destruct z as [a b]. cbn [fst snd] in *.
pose proof (proj2 (H (B2R l)) ltac:(lra)) as A. pose proof (proj2 (H (B2R u)) ltac:(lra)) as B. apply point_mem in A, B; try easy.
pose proof (proj1 (H (B2R a))) as C. pose proof (proj1 (H (B2R b))) as D. rewrite point_mem in C, D by easy. lra.
Qed.
Lemma asin_m1 : asin (-1) = - (PI / 2).
Proof. replace (-1) with (- (1)) by lra. rewrite asin_opp, asin_1. reflexivity. Qed.
Lemma sin_half_lt : asin (-1 / 2) <= -1 / 2.
Proof.
assert (H : sin (/ 2) < / 2) by (apply sin_lt_x; lra). replace (-1 / 2) with (- / 2) by lra. rewrite asin_opp.
assert (/ 2 <= asin (/ 2)); [|lra]. rewrite <- (asin_sin (/ 2)) at 1 by (pose proof pi34; lra). apply asin_le; [|lra|lra]. pose proof (SIN_bound (/ 2)). lra.
Qed.
Lemma sin_rev_misses_at : exists c x, wf c /\ wf x /\ modest (prec F) x /\ preimage everywhere sin c x (3 * (PI / 2)) /\
  (forall r, mem r x <-> -1 / 4 <= r <= 19 / 2) /\ returns (sin_rev c x) empty.
Proof.
destruct (sixteenth (-16)) as (c1 & Fc1 & Ec1); [easy|]. destruct (sixteenth (-8)) as (c2 & Fc2 & Ec2); [easy|].
destruct (sixteenth (-4)) as (x1 & Fx1 & Ex1); [easy|]. destruct (sixteenth 152) as (x2 & Fx2 & Ex2); [easy|].
exists (c1, c2), (x1, x2). pose proof pi34 as HPI. pose proof (@pid_ok F) as PD. pose proof pid_25 as P25. pose proof (@piu_ok F) as PU.
assert (Wc : wf (c1, c2)) by (right; exists (-1 / 2); apply point_mem; try easy; lra).
assert (Wx : wf (x1, x2)) by (right; exists 0; apply point_mem; try easy; lra).
split; [easy|]. split; [easy|]. split.
{ split; intros _; cbn [fst snd]; apply fits_100; apply Rabs_le; lra. }
split.
{ split; [apply point_mem; try easy; lra|]. split; [easy|]. rewrite sin_3PI2. apply point_mem; try easy; lra. }
split; [intros r; rewrite point_mem by easy; lra|].
apply returns_eq. unfold sin_rev. rewrite !is_valid_wf, !is_empty_wf by easy.
assert (Nx : isnan (fst (x1, x2)) = false) by (cbn [fst]; destruct x1; easy). rewrite Nx. mreds.
destruct (intersection_exact (c1, c2) (fm1, f1) Wc unit_wf) as (cc & Ec & Wcc & Hcc). rewrite Ec. mreds.
assert (Hcc' : forall r, mem r cc <-> B2R c1 <= r <= B2R c2). { intros r. rewrite Hcc, unit_mem, point_mem by easy. rewrite Ec1, Ec2. lra. }
assert (Ncc : isnan (fst cc) = false). { destruct (isnan (fst cc)) eqn:E; [|easy]. exfalso. apply (nan_no_mem cc (-1) Wcc E). apply Hcc'. lra. }
rewrite is_empty_wf, Ncc by easy. mreds. rewrite (not_one cc Wcc); [|exists 1; split; [lra|rewrite Hcc'; lra]]. mreds.
destruct (unit_part _ cc Wcc Ncc Hcc) as (F1 & F2 & B1 & B2 & B3).
destruct (same_bounds c1 c2 cc Fc1 Fc2 ltac:(lra) F1 F2 Hcc') as [V1 V2].
pose proof (base_sin (F := F) _ _ B1 B2 B3) as B.
set (cl := raw mode_DN (asin (B2R (fst cc)))) in *. set (cu := raw mode_UP (asin (B2R (snd cc)))) in *.
assert (Hcl : -2 <= cl <= 2) by apply B. assert (Hcu : -2 <= cu <= -1 / 2).
{ split; [apply B|]. unfold cu. replace (-1 / 2) with (@raw F mode_UP (-1 / 2)).
  - apply raw_le. rewrite V2, Ec2. replace (-8 / 16) with (-1 / 2) by lra. apply sin_half_lt.
  - replace (-1 / 2) with (- (1 / 2)) by lra. rewrite raw_opp_up. f_equal. replace (1 / 2) with (bpow radix2 (-1)) by (simpl; lra).
    apply raw_bpow, emin_small. }
unfold two_boxes. rewrite left_quarter by (cbn [fst]; try easy; lra). rewrite right_four by (cbn [snd]; try easy; lra).
destruct (@cap_bounds F) as (C1 & C2 & C3).
assert (C8 : (2 ^ 8 <= @cap F)%Z) by (unfold cap; apply Z.pow_le_mono_r; lia).
assert (IP : forall p : R, p = @pid F \/ p = @piu F -> @is_p F p) by easy.
assert (L0 : exists b, branch (Some 0%Z) (@piu F) (@pid F) cl cu (-1) 0 = ret b /\ wf b /\ forall t, mem t b -> t <= -1).
{ destruct (branch_in (Some 0%Z) _ _ (@piu F) (@pid F) _ _ (-1) 0 B) as (b & E & W & _); try (now apply IP; auto); try (cbn; lia).
  { cbn. lra. }
  exists b. split; [easy|]. split; [easy|]. unfold branch in E. rewrite !lchk_ok in E by lia. change (-1 + 0)%Z with (-1)%Z in E. cbn [Z.even] in E. apply ret_inj in E. subst b.
  intros t [_ H]. unfold mirrored in H. cbn [fst snd] in H. apply ub_fneg in H. rewrite tmp_exact in H by (cbn; lia).
  change (- -1 - 0 - 0)%Z with 1%Z in H. apply (get_dn_ge _ _ 16) in H; [lra|easy|lra|]. rewrite Rabs_pos_eq; lra. }
assert (L1 : exists b, branch (Some 0%Z) (@piu F) (@pid F) cl cu (-1) 1 = ret b /\ wf b /\ forall t, mem t b -> t <= -1 / 2).
{ destruct (branch_in (Some 0%Z) _ _ (@piu F) (@pid F) _ _ (-1) 1 B) as (b & E & W & _); try (now apply IP; auto); try (cbn; lia).
  { cbn. lra. }
  exists b. split; [easy|]. split; [easy|]. unfold branch in E. rewrite !lchk_ok in E by lia. change (-1 + 1)%Z with 0%Z in E. cbn [Z.even] in E. apply ret_inj in E. subst b.
  intros t [_ H]. unfold moved in H. cbn [fst snd] in H.  rewrite tmp_exact in H by (cbn; lia).
  apply (get_up_le _ _ (-8)) in H; [lra|easy|lra|]. rewrite Rabs_left1; lra. }
assert (R0 : exists b, branch (Some 0%Z) (@pid F) (@piu F) cl cu 4 0 = ret b /\ wf b /\ forall t, mem t b -> 10 <= t).
{ destruct (branch_in (Some 0%Z) _ _ (@pid F) (@piu F) _ _ 4 0 B) as (b & E & W & _); try (now apply IP; auto); try (cbn; lia).
  { cbn. lra. }
  exists b. split; [easy|]. split; [easy|]. unfold branch in E. rewrite !lchk_ok in E by lia. change (4 + 0)%Z with 4%Z in E. cbn [Z.even] in E. apply ret_inj in E. subst b.
  intros t [H _]. unfold moved in H. cbn [fst snd] in H. rewrite tmp_exact in H by (cbn; lia).
  apply (get_dn_ge _ _ 160) in H; [lra|easy|lra|]. rewrite Rabs_pos_eq; lra. }
assert (R1 : exists b, branch (Some 0%Z) (@pid F) (@piu F) cl cu 4 (-1) = ret b /\ wf b /\ forall t, mem t b -> 39 / 4 <= t).
{ destruct (branch_in (Some 0%Z) _ _ (@pid F) (@piu F) _ _ 4 (-1) B) as (b & E & W & _); try (now apply IP; auto); try (cbn; lia).
  { cbn. lra. }
  exists b. split; [easy|]. split; [easy|]. unfold branch in E. rewrite !lchk_ok in E by lia. change (4 + -1)%Z with 3%Z in E. cbn [Z.even] in E. apply ret_inj in E. subst b.
  intros t [H _]. unfold mirrored in H. cbn [fst snd] in H. apply lb_fneg in H. rewrite tmp_exact in H by (cbn; lia).
  change (Z.opp 4 - -1 - 0)%Z with (-3)%Z in H. apply (get_up_le _ _ (-156)) in H; [lra|easy|lra|]. rewrite Rabs_left1; lra. }
destruct L0 as (l0 & -> & Wl0 & Hl0), L1 as (l1 & -> & Wl1 & Hl1), R0 as (r0 & -> & Wr0 & Hr0), R1 as (r1 & -> & Wr1 & Hr1).
destruct (try_two_in l0 l1 (x1, x2) Wl0 Wl1 Wx) as (zl & El & Wzl & Hzl). destruct (try_two_in r0 r1 (x1, x2) Wr0 Wr1 Wx) as (zr & Er & Wzr & Hzr).
rewrite El, Er. mreds. rewrite hull_of_left; try easy.
- f_equal. apply wf_none; [easy|]. intros t Ht. apply Hzr in Ht as [Mx Mb]. apply point_mem in Mx; try easy.
  destruct Mb as [Mb|Mb]; [apply Hr0 in Mb|apply Hr1 in Mb]; lra.
- intros t Ht. apply Hzl in Ht as [Mx Mb]. apply point_mem in Mx; try easy.
  destruct Mb as [Mb|Mb]; [apply Hl0 in Mb|apply Hl1 in Mb]; lra.
Qed.
Lemma sin_rev_misses : exists c x, wf c /\ wf x /\ modest (prec F) x /\ (exists t, preimage everywhere sin c x t) /\ returns (sin_rev c x) empty.
Proof. destruct sin_rev_misses_at as (c & x & H1 & H2 & H3 & H4 & _ & H5). exists c, x. repeat (split; [easy|]). split; [now exists (3 * (PI / 2))|easy]. Qed.

(** ** Tangent *)
Lemma atan_m1_le : atan (-1) <= -3 / 4.
Proof. replace (-1) with (- (1)) by lra. rewrite atan_opp, atan_1. pose proof pi34. lra. Qed.
Lemma tan_rev_misses : exists c x, wf c /\ wf x /\ modest (prec F) x /\
  exists t z, preimage (fun t => cos t <> 0) tan c x t /\ returns (tan_rev c x) z /\ ~ mem t z.
Proof.
destruct (sixteenth (-32)) as (c1 & Fc1 & Ec1); [easy|]. destruct (sixteenth (-16)) as (c2 & Fc2 & Ec2); [easy|].
destruct (sixteenth (-4)) as (x1 & Fx1 & Ex1); [easy|]. destruct (sixteenth 160) as (x2 & Fx2 & Ex2); [easy|].
exists (c1, c2), (x1, x2). pose proof pi34 as HPI. pose proof (@pid_ok F) as PD. pose proof pid_25 as P25. pose proof (@piu_ok F) as PU.
assert (Wc : wf (c1, c2)) by (right; exists (-1); apply point_mem; try easy; lra).
assert (Wx : wf (x1, x2)) by (right; exists 0; apply point_mem; try easy; lra).
split; [easy|]. split; [easy|]. split.
{ split; intros _; cbn [fst snd]; apply fits_100; apply Rabs_le; lra. }
set (cl := @raw F mode_DN (atan_of (fst (c1, c2)))). set (cu := @raw F mode_UP (atan_of (snd (c1, c2)))).
assert (B : @base F None (atan_of c1) (atan_of c2) cl cu).
{ apply base_tan; try apply atan_of_bounds. apply Rle_trans with (atan (-1)); [apply atan_of_lb; cbn [fst]; rewrite lb_fin by easy; lra|apply atan_of_ub; cbn [snd]; rewrite ub_fin by easy; lra]. }
assert (Hcl : -2 <= cl <= 2) by apply B. assert (Hcu : -2 <= cu <= -3 / 4).
{ split; [apply B|]. unfold cu. cbn [snd]. replace (-3 / 4) with (@raw F mode_UP (-3 / 4)).
  - apply raw_le. apply Rle_trans with (2 := atan_m1_le). replace (-1) with (B2R c2) by lra. apply Req_le. now destruct c2.
  - replace (-3 / 4) with (- (3 / 4)) by lra. rewrite raw_opp_up. f_equal. pose proof (@emin_small F). rewrite raw_flx.
    + apply round_generic; [apply valid_rnd_round_mode|]. apply generic_format_FLX. exists (Defs.Float radix2 3 (-2)).
      * unfold F2R; simpl. lra.
      * cbn [Defs.Fnum]. change (3 < 2 ^ prec F)%Z. apply Z.lt_le_trans with (2 ^ 8)%Z; [reflexivity|]. apply Z.pow_le_mono_r; lia.
    + rewrite Rabs_pos_eq by lra. pose proof half_min. lra. }
destruct (@cap_bounds F) as (C1 & C2 & C3).
assert (C8 : (2 ^ 8 <= @cap F)%Z) by (unfold cap; apply Z.pow_le_mono_r; lia).
assert (IP : forall p : R, p = @pid F \/ p = @piu F -> @is_p F p) by easy.
assert (L0 : exists b, branch None (@piu F) (@pid F) cl cu (-1) 0 = ret b /\ wf b /\ forall t, mem t b -> t <= -3).
{ destruct (branch_in None _ _ (@piu F) (@pid F) _ _ (-1) 0 B) as (b & E & W & _); try (now apply IP; auto); try (cbn; lia).
  { cbn. lra. }
  exists b. split; [easy|]. split; [easy|]. unfold branch in E. rewrite !lchk_ok in E by lia. change (-1 + 0)%Z with (-1)%Z in E. apply ret_inj in E. subst b.
  intros t [_ H]. unfold moved in H. cbn [fst snd] in H. rewrite tmp_exact in H by (cbn; lia).
  apply (get_up_le _ _ (-48)) in H; [lra|easy|lra|]. rewrite Rabs_left1; lra. }
assert (L1 : exists b, branch None (@piu F) (@pid F) cl cu (-1) 1 = ret b /\ wf b /\ forall t, mem t b -> t <= -1 / 2).
{ destruct (branch_in None _ _ (@piu F) (@pid F) _ _ (-1) 1 B) as (b & E & W & _); try (now apply IP; auto); try (cbn; lia).
  { cbn. lra. }
  exists b. split; [easy|]. split; [easy|]. unfold branch in E. rewrite !lchk_ok in E by lia. change (-1 + 1)%Z with 0%Z in E. apply ret_inj in E. subst b.
  intros t [_ H]. unfold moved in H. cbn [fst snd] in H. rewrite tmp_exact in H by (cbn; lia).
  apply (get_up_le _ _ (-8)) in H; [lra|easy|lra|]. rewrite Rabs_left1; lra. }
assert (R0 : exists b, branch None (@pid F) (@piu F) cl cu 4 0 = ret b /\ wf b /\ forall t, mem t b -> 7 <= t).
{ destruct (branch_in None _ _ (@pid F) (@piu F) _ _ 4 0 B) as (b & E & W & _); try (now apply IP; auto); try (cbn; lia).
  { cbn. lra. }
  exists b. split; [easy|]. split; [easy|]. unfold branch in E. rewrite !lchk_ok in E by lia. change (4 + 0)%Z with 4%Z in E. apply ret_inj in E. subst b.
  intros t [H _]. unfold moved in H. cbn [fst snd] in H. rewrite tmp_exact in H by (cbn; lia).
  apply (get_dn_ge _ _ 112) in H; [lra|easy|lra|]. rewrite Rabs_pos_eq; lra. }
assert (R1 : exists b, branch None (@pid F) (@piu F) cl cu 4 (-1) = ret b /\ wf b /\ forall t, mem t b -> 7 <= t).
{ destruct (branch_in None _ _ (@pid F) (@piu F) _ _ 4 (-1) B) as (b & E & W & _); try (now apply IP; auto); try (cbn; lia).
  { cbn. lra. }
  exists b. split; [easy|]. split; [easy|]. unfold branch in E. rewrite !lchk_ok in E by lia. change (4 + -1)%Z with 3%Z in E. apply ret_inj in E. subst b.
  intros t [H _]. unfold moved in H. cbn [fst snd] in H. rewrite tmp_exact in H by (cbn; lia).
  apply (get_dn_ge _ _ 112) in H; [lra|easy|lra|]. rewrite Rabs_pos_eq; lra. }
destruct L0 as (l0 & El0 & Wl0 & Hl0), L1 as (l1 & El1 & Wl1 & Hl1), R0 as (r0 & Er0 & Wr0 & Hr0), R1 as (r1 & Er1 & Wr1 & Hr1).
destruct (try_two_in l0 l1 (x1, x2) Wl0 Wl1 Wx) as (zl & El & Wzl & Hzl). destruct (try_two_in r0 r1 (x1, x2) Wr0 Wr1 Wx) as (zr & Er & Wzr & Hzr).
exists (3 * (PI / 4)), zr. split; [|split].
- split; [apply point_mem; try easy; lra|]. assert (E : 3 * (PI / 4) = - (PI / 4) + IZR 1 * PI) by lra.
  assert (N : cos (PI / 4) <> 0). { assert (0 < cos (PI / 4)) by (apply cos_gt_0; lra). lra. }
  split.
  + rewrite E, cos_pi_shift, cos_neg. exact N.
  + rewrite E, tan_pi_shift by now rewrite cos_neg. rewrite tan_neg, tan_PI4. apply point_mem; try easy; lra.
- apply returns_eq. unfold tan_rev. rewrite !is_valid_wf, !is_empty_wf by easy.
  assert (Nx : isnan (fst (x1, x2)) = false) by (cbn [fst]; destruct x1; easy). assert (Nc : isnan (fst (c1, c2)) = false) by (cbn [fst]; destruct c1; easy).
  rewrite Nx, Nc. mreds. fold cl cu. unfold two_boxes. rewrite left_quarter by (cbn [fst]; try easy; lra). rewrite right_four by (cbn [snd]; try easy; lra).
  rewrite El0, El1, Er0, Er1, El, Er. mreds. apply hull_of_left; try easy.
  intros t Ht. apply Hzl in Ht as [Mx Mb]. apply point_mem in Mx; try easy.
  destruct Mb as [Mb|Mb]; [apply Hl0 in Mb|apply Hl1 in Mb]; lra.
- intros Ht. apply Hzr in Ht as [_ [Mb|Mb]]; [apply Hr0 in Mb|apply Hr1 in Mb]; lra.
Qed.
End T.

(** ** Cosine of a large interval *)
Section Big.
Context {F : fmt}.
Implicit Types x y z b c : itv F.
Hypothesis HE : (110 <= emax F)%Z.
Lemma pow_fl e : (0 <= e <= 105)%Z -> exists B : float F, is_finite B = true /\ B2R B = bpow radix2 e.
Proof.
intros H. apply fmt_float.
- apply generic_format_FLT_bpow; [unfold Prec_gt_0; pose proof (fmt_prec1 F); lia|]. change (emin F <= e)%Z. pose proof (@emin_small F). pose proof (fmt_prec1 F). lia.
- rewrite Rabs_pos_eq by apply bpow_ge_0. apply bpow_lt. lia.
Qed.
Lemma tmp_small k : (Z.abs k <= 2 ^ 64)%Z -> Rabs (@tmp_of F k) <= bpow radix2 64.
Proof.
intros H. unfold tmp_of. assert (P : Prec_gt_0 (prec F)) by (unfold Prec_gt_0; pose proof (fmt_prec1 F); lia).
apply abs_round_le_generic; [now apply FLX_exp_valid|apply valid_rnd_N|apply generic_format_bpow; unfold FLX_exp; pose proof (fmt_prec1 F); lia|].
rewrite <- abs_IZR, <- (IZR_Zpower radix2) by lia. apply IZR_le. exact H.
Qed.
(** No get exceeds 2^68 in magnitude. *)
Lemma raw_small m v : Rabs v <= bpow radix2 68 -> Rabs (@raw F m v) <= bpow radix2 68.
Proof.
intros H. unfold raw. apply abs_round_le_generic; [apply ftz_valid|apply valid_rnd_round_mode| |easy].
apply generic_format_bpow. unfold FTZ_exp. pose proof (@emin_small F). pose proof (fmt_prec1 F). destruct (Zlt_bool_spec (68 + 1 - prec F) (emin F - prec F + 1)); lia.
Qed.
Lemma rround_small m v : Rabs v <= bpow radix2 68 -> Rabs (B2R (@rround F m false v)) <= bpow radix2 68 /\ is_finite (@rround F m false v) = true.
Proof.
intros H. pose proof (rround_rnds m false v : rnds m v (@rround F m false v)) as R. unfold rnds in R.
assert (S : Rabs (round radix2 (fexp F) (round_mode m) v) <= bpow radix2 68).
{ assert (P : Prec_gt_0 (prec F)) by (unfold Prec_gt_0; pose proof (fmt_prec1 F); lia).
  apply abs_round_le_generic; [apply (@FLT_exp_valid (emin F) (prec F) P)|apply valid_rnd_round_mode| |easy].
  apply generic_format_FLT_bpow; [easy|]. change (emin F <= 68)%Z. pose proof (@emin_small F). pose proof (fmt_prec1 F). lia. }
rewrite Rlt_bool_true in R.
- destruct R as [-> R]. now split.
- apply Rle_lt_trans with (1 := S). apply bpow_lt. lia.
Qed.
Lemma get_small m1 m2 v : Rabs v <= bpow radix2 68 -> Rabs (B2R (@get_after F m1 m2 v)) <= bpow radix2 68 /\ is_finite (@get_after F m1 m2 v) = true.
Proof. intros H. unfold get_after. destruct Rlt_bool; apply rround_small; [now apply raw_small|easy]. Qed.
Lemma box_small (p c : R) k : (Z.abs k <= 2 ^ 64)%Z -> @is_p F p -> 0 <= c <= 4 -> Rabs (@tmp_of F k * p + c) <= bpow radix2 68.
Proof.
intros Hk Hp Hc. apply is_p_bounds in Hp. apply tmp_small in Hk. apply Rabs_le_inv in Hk.
apply Rabs_le. set (t := @tmp_of F k) in *. change (bpow radix2 64) with (IZR (2 ^ 64)) in Hk. change (bpow radix2 68) with (IZR (2 ^ 68)).
change (2 ^ 64)%Z with 18446744073709551616%Z in Hk. change (2 ^ 68)%Z with 295147905179352825856%Z. nra.
Qed.
Lemma in_long_abs k : in_long k = true -> (Z.abs k <= 2 ^ 63)%Z.
Proof. unfold in_long. rewrite andb_true_iff, !Z.leb_le. lia. Qed.
(** Whatever the branch number: undefined behaviour or a small box. *)
Lemma branch_small pl pu cl cu n d : @is_p F pl -> @is_p F pu -> 0 <= cl <= 4 -> 0 <= cu <= 4 ->
  yields (branch (Some 1%Z) pl pu cl cu n d)
    (fun b : itv F => is_finite (snd b) = true /\ is_finite (fst b) = true /\ B2R (snd b) <= bpow radix2 68).
Proof.
intros Hl Hu Hcl Hcu. unfold branch. unfold lchk at 1. destruct (in_long (n + d)) eqn:E1; [|apply yields_undef].
apply in_long_abs in E1. destruct (Z.even (n + d)).
- apply yields_ret. unfold moved. cbn [fst snd].
  destruct (get_small mode_UP mode_UP (@tmp_of F (n + d) * pu + cu)) as [S1 S2]; [apply box_small; try easy; lia|].
  destruct (get_small mode_DN mode_DN (@tmp_of F (n + d) * pl + cl)) as [_ S3]; [apply box_small; try easy; lia|].
  apply Rabs_le_inv in S1. repeat split; try easy; lra.
- do 2 apply lchk_yields. unfold lchk. destruct (in_long (- n - d - 1)) eqn:E; [|apply yields_undef]. apply in_long_abs in E.
  apply yields_ret. unfold mirrored. cbn [fst snd].
  destruct (get_small mode_DN mode_UP (@tmp_of F (- n - d - 1) * pu + cl)) as [S1 S2]; [apply box_small; try easy; lia|].
  destruct (get_small mode_UP mode_DN (@tmp_of F (- n - d - 1) * pl + cu)) as [_ S3]; [apply box_small; try easy; lia|].
  rewrite !fin_fneg. unfold fneg. rewrite B2R_Bopp. apply Rabs_le_inv in S1. repeat split; try easy; lra.
Qed.
Lemma miss_box b x : wf b -> wf x -> is_finite (snd b) = true -> is_finite (fst x) = true -> B2R (snd b) < B2R (fst x) -> intersection b x = ret empty.
Proof.
intros Wb Wx Fb Fx L. destruct (intersection_exact b x Wb Wx) as (z & E & W & H). rewrite E. f_equal. apply wf_none; [easy|].
intros t Ht. apply H in Ht as [[_ A] [B _]]. rewrite ub_fin in A by easy. rewrite lb_fin in B by easy. lra.
Qed.
Lemma miss_any b x : wf x -> is_finite (snd b) = true -> is_finite (fst x) = true -> B2R (snd b) < B2R (fst x) ->
  yields (intersection b x) (fun z => z = empty).
Proof.
intros Wx Fb Fx L. destruct (wf_dec_em b) as [Wb|Nb].
- rewrite miss_box by easy. now apply yields_ret.
- unfold intersection. apply yields_bind with (fun v => v = true).
  + apply yields_bind with (fun v => v = true); [|intros v ->; now apply yields_ret].
    apply yields_bind with (fun v => v = false); [|intros v ->; now apply yields_ret].
    rewrite (is_valid_not_wf b Nb). intros s v s' E. unfold not_signal_invalid, bind, signal_invalid_operand, signal in E.
    destruct (negb _) in E; try easy; injection E as <- _; apply N.eqb_neq; intros K; apply N.lor_eq_0_iff in K; easy.
  + intros v ->. now apply yields_ret.
Qed.
Lemma try_miss (b0 b1 : M (itv F)) x (Pb : itv F -> Prop) : wf x -> is_finite (fst x) = true ->
  (forall b, Pb b -> is_finite (snd b) = true /\ B2R (snd b) < B2R (fst x)) -> yields b0 Pb -> yields b1 Pb ->
  yields (try_two b0 b1 x) (fun z => z = empty).
Proof.
intros Wx Fx H Y0 Y1. unfold try_two. apply yields_bind with (1 := Y0). intros b Pb0. destruct (H b Pb0).
apply yields_bind with (fun z => z = empty); [now apply miss_any|]. intros z ->.
apply yields_bind with (fun v => v = true); [rewrite is_empty_wf by (now left); now apply yields_ret|]. intros v ->.
apply yields_bind with (1 := Y1). intros b' Pb1. destruct (H b' Pb1). now apply miss_any.
Qed.
Lemma cos_rev_big : exists c x, wf c /\ wf x /\ bounded_rep x /\ (exists t, preimage everywhere cos c x t) /\
  yields (cos_rev c x) (fun z => z = empty).
Proof.
destruct (pow_fl 100) as (x1 & Fx1 & Ex1); [lia|]. destruct (pow_fl 101) as (x2 & Fx2 & Ex2); [lia|].
exists (f0, f0), (x1, x2).
assert (V1 : B2R x1 = 1267650600228229401496703205376) by (rewrite Ex1; reflexivity).
assert (V2 : B2R x2 = 2535301200456458802993406410752) by (rewrite Ex2; reflexivity).
assert (Wc : wf (@f0 F, @f0 F)). { right. exists 0. split; cbn; lra. }
assert (Wx : wf (x1, x2)). { right. exists (B2R x1). apply point_mem; try easy; lra. }
split; [easy|]. split; [easy|]. split; [now split|]. split.
{ destruct (split_pi (B2R x1)) as [m Hm]. exists (PI / 2 + IZR (m + 1) * PI). pose proof pi34. rewrite plus_IZR in *. split; [apply point_mem; try easy; lra|].
  split; [easy|]. replace (cos (PI / 2 + (IZR m + 1) * PI)) with 0; [split; cbn; lra|]. symmetry.
  rewrite <- plus_IZR. apply cos_pi_shift. apply cos_PI2. }
unfold cos_rev. rewrite !is_valid_wf, !is_empty_wf by easy.
assert (Nx : isnan (fst (x1, x2)) = false) by (cbn [fst]; destruct x1; easy). rewrite Nx. mreds.
destruct (intersection_exact (f0, f0) (fm1, f1) Wc unit_wf) as (cc & Ec & Wcc & Hcc). rewrite Ec. mreds.
assert (Hcc' : forall r, mem r cc <-> 0 <= r <= 0). { intros r. rewrite Hcc, unit_mem, point_mem by easy. change (B2R f0) with 0. lra. }
assert (Ncc : isnan (fst cc) = false). { destruct (isnan (fst cc)) eqn:E; [|easy]. exfalso. apply (nan_no_mem cc 0 Wcc E). apply Hcc'. lra. }
rewrite is_empty_wf, Ncc by easy. mreds. rewrite (not_one cc Wcc); [|exists 1; split; [lra|rewrite Hcc'; lra]]. mreds.
destruct (unit_part _ cc Wcc Ncc Hcc) as (F1 & F2 & B1 & B2 & B3).
pose proof (base_cos (F := F) _ _ F1 F2 B1 B2 B3) as B.
set (cl := raw mode_DN (acos (B2R (snd cc)))) in *. set (cu := raw mode_UP (acos (B2R (fst cc)))) in *.
assert (Hcl : 0 <= cl <= 4) by (pose proof (@pid_ok F); pose proof pi34; destruct B as (_ & _ & _ & _ & _ & B & _); lra).
assert (Hcu : 0 <= cu <= 4) by apply B.
set (Pb := fun b : itv F => is_finite (snd b) = true /\ is_finite (fst b) = true /\ B2R (snd b) <= bpow radix2 68).
assert (HPb : forall b, Pb b -> is_finite (snd b) = true /\ B2R (snd b) < B2R (fst (x1, x2))).
{ intros b (H1 & _ & H2). split; [easy|]. apply Rle_lt_trans with (1 := H2). cbn [fst]. rewrite Ex1. apply bpow_lt. lia. }
assert (YB : forall p q n d, @is_p F p -> @is_p F q -> yields (branch (Some 1%Z) p q cl cu n d) Pb).
{ intros p q n d Hp Hq. now apply branch_small. }
unfold two_boxes. apply yields_bind with (fun z => z = empty).
{ unfold left_box. destruct (feq (fst (x1, x2)) fminf) eqn:E; [cbn [fst] in E; now destruct x1|]. apply lchk_yields.
  apply try_miss with Pb; try easy; apply YB; unfold is_p; destruct flt; tauto. }
intros l ->. apply yields_bind with (fun z => z = empty).
{ unfold right_box. destruct (feq (snd (x1, x2)) finf) eqn:E; [cbn [snd] in E; now destruct x2|]. apply lchk_yields.
  apply try_miss with Pb; try easy; apply YB; unfold is_p; destruct fgt; tauto. }
intros r ->. rewrite hull_ret by (now left). now apply yields_ret.
Qed.
Lemma cos_rev_not : exists c x, wf c /\ wf x /\ bounded_rep x /\ (exists t, preimage everywhere cos c x t) /\
  ~ computes_enclosure (cos_rev c x) (preimage everywhere cos c x).
Proof.
destruct cos_rev_big as (c & x & Wc & Wx & Bx & [t Ht] & Y). exists c, x. repeat (split; [easy|]). split; [now exists t|].
intros (z & R & _ & E). apply returns_eq in R. apply (yields_eq _ _ _ Y) in R. subst z. apply E in Ht. now destruct Ht.
Qed.
End Big.
