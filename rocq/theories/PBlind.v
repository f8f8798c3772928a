(** * Proofs: exactly when a cancellative operation misses that there is no solution *)
From Coq Require Import ZArith NArith Reals Bool Lia Lra.
From Flocq Require Import Core.Core Plus_error IEEE754.BinarySingleNaN.
From Verif Require Import Fmt Spec FloatFacts Exc Deco SpecApi SpecRel MBase PBase MBool MArith PArith PConv MDec PDec MMixed PMixed MOverlap PMul
  SpecRel SpecElem SpecMixed SpecCancel MCancel PTwoSum PTwoSumX PCancel SpecBlind.
Local Open Scope R_scope.

Section B.
Context {F : fmt}.
Notation RN := (round radix2 (fexp F) ZnearestE).

Lemma two_sum_lost (a b : float F) : is_finite a = true -> is_finite b = true -> is_finite (fst (two_sum a b)) = true ->
  (snd (two_sum a b) = fnan <-> lost F (B2R a) (B2R b)).
Proof. intros Fa Fb Fs. apply two_sum_gap with (fst (two_sum a b)); easy. Qed.

(** The comparison through the pairs, exactly. *)
Lemma pair_lt_exact (a b c d : float F) : is_finite a = true -> is_finite b = true -> is_finite c = true -> is_finite d = true ->
  Rabs (B2R a + B2R b + (B2R c + B2R d)) <= 2 * B2R (@fmaxv F) ->
  B2R a + B2R b < B2R c + B2R d ->
  (pair_lt (two_sum a b) (two_sum c d) = true <->
   ~ (RN (B2R a + B2R b) = RN (B2R c + B2R d) /\ (lost F (B2R a) (B2R b) \/ lost F (B2R c) (B2R d)))).
Proof.
intros Fa Fb Fc Fd HB L. unfold pair_lt.
pose proof (two_sum_cases a b Fa Fb) as C1. pose proof (two_sum_cases c d Fc Fd) as C2. cbv zeta in C1, C2.
pose proof (two_sum_lost a b Fa Fb) as L1. pose proof (two_sum_lost c d Fc Fd) as L2.
set (p := B2R a + B2R b) in *. set (q := B2R c + B2R d) in *.
pose proof (@RN_mono F _ _ (Rlt_le _ _ L)) as RL.
pose proof (@OO_eq F) as EO. pose proof (@uu_pos F) as U.
assert (K : forall r, bpow radix2 (emax F) <= Rabs (RN r) -> B2R (@fmaxv F) < Rabs r).
{ intros r Hr. apply Rnot_le_lt. intros Hl. apply RN_le in Hl. lra. }
assert (RNp : forall r, 0 <= r -> 0 <= RN r).
{ intros r Hr. rewrite <- (round_0 radix2 (fexp F) ZnearestE). now apply RN_mono. }
assert (RNn : forall r, r <= 0 -> RN r <= 0).
{ intros r Hr. rewrite <- (round_0 radix2 (fexp F) ZnearestE). now apply RN_mono. }
destruct C1 as [(S1 & S2 & S3 & S4)|[(S1 & S2 & S3 & S4)|(S2 & S3 & S4)]];
destruct C2 as [(T1 & T2 & T3 & T4)|[(T1 & T2 & T3 & T4)|(T2 & T3 & T4)]];
set (sp := fst (two_sum a b)) in *; set (ep := snd (two_sum a b)) in *;
set (sq := fst (two_sum c d)) in *; set (eq := snd (two_sum c d)) in *; clearbody sp ep sq eq.
- (* both exact *)
  assert (N1 : ~ lost F (B2R a) (B2R b)). { rewrite <- (L1 S1). intros E. rewrite E in S2. discriminate. }
  assert (N2 : ~ lost F (B2R c) (B2R d)). { rewrite <- (L2 T1). intros E. rewrite E in T2. discriminate. }
  split; [tauto|]. intros _. rewrite flt_fin, feq_fin, flt_fin by easy. rewrite S3, T3.
  case Rlt_bool_spec; intros H1; [reflexivity|]. rewrite Req_bool_true by lra. apply Rlt_bool_true. lra.
- assert (N2 : lost F (B2R c) (B2R d)) by now apply L2.
  rewrite T2, flt_nan_r, andb_false_r, orb_false_r, flt_fin, S3, T3 by easy. case Rlt_bool_spec; intros H1.
  + split; [|easy]. intros _ [E _]. lra.
  + split; [easy|]. intros H. destruct H. split; [lra|now right].
- assert (Rabs (RN p) <= B2R (@fmaxv F)). { rewrite <- S3. apply B2R_le_OO. }
  destruct T4 as [[-> T4]|[-> T4]].
  + rewrite flt_pinf_r by easy. split; [|easy]. intros _ [E _]. rewrite <- E in T3. lra.
  + exfalso. pose proof (RNn q ltac:(lra)). abs_lra.
- assert (N1 : lost F (B2R a) (B2R b)) by now apply L1.
  rewrite S2, flt_nan_l, andb_false_r, orb_false_r, flt_fin, S3, T3 by easy. case Rlt_bool_spec; intros H1.
  + split; [|easy]. intros _ [E _]. lra.
  + split; [easy|]. intros H. destruct H. split; [lra|now left].
- assert (N1 : lost F (B2R a) (B2R b)) by now apply L1.
  rewrite S2, flt_nan_l, andb_false_r, orb_false_r, flt_fin, S3, T3 by easy. case Rlt_bool_spec; intros H1.
  + split; [|easy]. intros _ [E _]. lra.
  + split; [easy|]. intros H. destruct H. split; [lra|now left].
- assert (Rabs (RN p) <= B2R (@fmaxv F)). { rewrite <- S3. apply B2R_le_OO. }
  destruct T4 as [[-> T4]|[-> T4]].
  + rewrite flt_pinf_r by easy. split; [|easy]. intros _ [E _]. rewrite <- E in T3. lra.
  + exfalso. pose proof (RNn q ltac:(lra)). abs_lra.
- destruct S4 as [[-> S4]|[-> S4]].
  + exfalso. assert (Rabs (RN q) <= B2R (@fmaxv F)). { rewrite <- T3. apply B2R_le_OO. }
    pose proof (RNp p ltac:(lra)). abs_lra.
  + rewrite flt_minf_l by easy. split; [|easy]. intros _ [E _]. rewrite E, <- T3 in S3. pose proof (B2R_le_OO sq). lra.
- destruct S4 as [[-> S4]|[-> S4]].
  + exfalso. assert (Rabs (RN q) <= B2R (@fmaxv F)). { rewrite <- T3. apply B2R_le_OO. }
    pose proof (RNp p ltac:(lra)). abs_lra.
  + rewrite flt_minf_l by easy. split; [|easy]. intros _ [E _]. rewrite E, <- T3 in S3. pose proof (B2R_le_OO sq). lra.
- pose proof (K p S3) as K1. pose proof (K q T3) as K2.
  destruct S4 as [[-> S4]|[-> S4]], T4 as [[-> T4]|[-> T4]].
  + exfalso. abs_lra.
  + exfalso. lra.
  + split; [|reflexivity]. intros _ [E _]. pose proof (RNn p ltac:(lra)). pose proof (RNp q ltac:(lra)).
    assert (RN p = 0) by lra. rewrite H1, Rabs_R0 in S3. pose proof (bpow_gt_0 radix2 (emax F)). lra.
  + exfalso. abs_lra.
Qed.

Lemma RN_neq_0 (a b : float F) : B2R a - B2R b <> 0 -> RN (B2R a - B2R b) <> 0.
Proof.
intros H E. apply H. unfold Rminus. apply (round_plus_eq_0 radix2 (fexp F) ZnearestE); auto with typeclass_instances.
- apply B2R_format.
- apply generic_format_opp, B2R_format.
Qed.

Section C.
Variables xl xu yl yu : float F.
Hypothesis Fxl : is_finite xl = true.
Hypothesis Fxu : is_finite xu = true.
Hypothesis Fyl : is_finite yl = true.
Hypothesis Fyu : is_finite yu = true.
Hypothesis Hx : B2R xl <= B2R xu.
Hypothesis Hy : B2R yl <= B2R yu.
Hypothesis W : B2R xu - B2R xl < B2R yu - B2R yl.
Let x : itv F := (xl, xu).
Let y : itv F := (yl, yu).

Lemma wid_exact : B2R xu <= B2R yl \/ B2R yu <= B2R xl ->
  (pair_lt (two_sum xu (fneg xl)) (two_sum yu (fneg yl)) = true <->
   ~ (RN (B2R xu - B2R xl) = RN (B2R yu - B2R yl) /\ (lost F (B2R xu) (- B2R xl) \/ lost F (B2R yu) (- B2R yl)))).
Proof.
intros D. rewrite pair_lt_exact; auto using fneg_fin; rewrite !B2R_fneg; [reflexivity| |lra].
pose proof (max_range xl). pose proof (max_range xu). pose proof (max_range yl). pose proof (max_range yu).
apply Rabs_le. lra.
Qed.
Lemma dist_exact : (B2R xl < B2R yl < B2R xu /\ B2R xu < B2R yu) \/ (B2R yl < B2R xl < B2R yu /\ B2R yu < B2R xu) ->
  (pair_lt (two_sum yl (fneg xl)) (two_sum yu (fneg xu)) = true <->
   ~ (RN (B2R yl - B2R xl) = RN (B2R yu - B2R xu) /\ (lost F (B2R yl) (- B2R xl) \/ lost F (B2R yu) (- B2R xu)))).
Proof.
intros D. rewrite pair_lt_exact; auto using fneg_fin; rewrite !B2R_fneg; [reflexivity| |lra].
pose proof (max_range xl). pose proof (max_range xu). pose proof (max_range yl). pose proof (max_range yu).
apply Rabs_le. lra.
Qed.

Lemma cancel_blind : (~ blind F x y -> cancel_minus x y = ret entire) /\ (blind F x y -> cancel_minus x y = ret (cancel_bounds x y)).
Proof.
unfold cancel_minus. rewrite (is_valid_wf x (wfx xl xu Fxl Fxu Hx)). mreds. unfold x, y. cbn [fst snd].
rewrite !feq_minf_r, !feq_pinf_r by easy. cbn [orb].
unfold overlap. fold x y. rewrite (is_valid_wf x (wfx xl xu Fxl Fxu Hx)), (is_valid_wf y (wfy yl yu Fyl Fyu Hy)). mreds.
rewrite (is_empty_wf x (wfx xl xu Fxl Fxu Hx)), (is_empty_wf y (wfy yl yu Fyl Fyu Hy)). unfold x, y. cbn [fst snd].
rewrite !isnan_fin by easy. mreds. cbn [fst snd].
pose proof (comparable_refl F) as C.
rewrite !fle2_fin, !flt2_fin, !feq2_fin by easy.
unfold blind. cbv zeta. cbn [fst snd].
pose proof (wid_exact) as WE. pose proof (dist_exact) as DE.
assert (Q : B2R xl = B2R xu -> ~ RN (B2R xu - B2R xl) = RN (B2R yu - B2R yl)).
{ intros E. replace (B2R xu - B2R xl) with 0 by lra. rewrite round_0 by auto with typeclass_instances. intros E0. symmetry in E0. apply RN_neq_0 in E0; [easy|lra]. }
repeat match goal with
| |- context [Rle_bool ?a ?b] => case (Rle_bool_spec a b); intros
| |- context [Rlt_bool ?a ?b] => case (Rlt_bool_spec a b); intros
| |- context [Req_bool ?a ?b] => case (Req_bool_spec a b); intros
end; cbv iota; try (exfalso; lra);
try (split; [reflexivity|intros [(D & E & _)|(D & _)]; exfalso; [first [lra|now apply Q; [lra|]]|lra]]).
all: match goal with |- context [pair_lt ?p ?q] =>
  match p with
  | two_sum xu _ => specialize (WE ltac:(lra)); destruct (pair_lt p q); split; try reflexivity;
     [intros [(_ & N)|(N & _)]; [exfalso; now apply WE in N|exfalso; lra]
     |intros N; exfalso; cut (false = true); [discriminate|]; apply WE; intros N'; apply N; left; split; [lra|exact N']]
  | two_sum yl _ => specialize (DE ltac:(lra)); destruct (pair_lt p q); split; try reflexivity;
     [intros [(N & _)|(_ & N)]; [exfalso; lra|exfalso; now apply DE in N]
     |intros N; exfalso; cut (false = true); [discriminate|]; apply DE; intros N'; apply N; right; split; [lra|exact N']]
  end end.
Qed.

(** Entire is never the pair of rounded differences. *)
Lemma bounds_not_entire : cancel_bounds x y <> entire.
Proof.
unfold cancel_bounds, x, y. cbn [fst snd]. intros E. injection E as E1 E2.
pose proof (rsub_RD xl yl Fxl Fyl) as D. pose proof (rsub_RU xu yu Fxu Fyu) as U. rewrite E1 in D. rewrite E2 in U.
destruct D as [_ D]. destruct U as [_ U].
assert (A : B2R xl - B2R yl < - B2R (@fmaxv F)).
{ apply Rnot_le_lt. intros L. specialize (D (fneg fmaxv)). rewrite lb_fin in D by (now apply fneg_fin, is_finite_fmaxv).
  rewrite B2R_fneg in D. specialize (D L (- B2R (@fmaxv F) - 1) eq_refl).
  rewrite lb_fin in D by (now apply fneg_fin, is_finite_fmaxv). rewrite B2R_fneg in D. lra. }
assert (B : B2R (@fmaxv F) < B2R xu - B2R yu).
{ apply Rnot_le_lt. intros L. specialize (U fmaxv). rewrite ub_fin in U by apply is_finite_fmaxv.
  specialize (U L (B2R (@fmaxv F) + 1) eq_refl). rewrite ub_fin in U by apply is_finite_fmaxv. lra. }
pose proof (max_range xl). pose proof (max_range xu). pose proof (max_range yl). pose proof (max_range yu). lra.
Qed.
End C.

Lemma cancel_minus_entire_iff (x y : itv F) : wf x -> wf y -> s_nonempty x -> s_nonempty y -> set_bounded x -> set_bounded y ->
  (forall a b, ~ solves_minus x y a b) -> (returns (cancel_minus x y) entire <-> ~ blind F x y).
Proof.
intros Wx Wy Nx Ny Bx By H. rewrite returns_eq.
destruct (wf_view x Wx) as [| |u Hu|l Hl|l u Hl Hu L].
- destruct Nx as [r Hr]. now apply mem_empty in Hr.
- now apply unb_l in Bx; [|right].
- now apply unb_l in Bx; [|left].
- now apply unb_u in Bx.
- destruct (wf_view y Wy) as [| |u' Hu'|l' Hl'|l' u' Hl' Hu' L'].
  + destruct Ny as [r Hr]. now apply mem_empty in Hr.
  + now apply unb_l in By; [|right].
  + now apply unb_l in By; [|left].
  + now apply unb_u in By.
  + destruct (Rlt_or_le (B2R u - B2R l) (B2R u' - B2R l')) as [W|W].
    * destruct (cancel_blind l u l' u') as [C1 C2]; try easy. cbv zeta in C1, C2. split; [|exact C1].
      intros E0 B. pose proof (eq_trans (eq_sym E0) (C2 B)) as E. apply (bounds_not_entire l u l' u'); try easy.
      apply (f_equal (fun m : M (itv F) => fst (m (Est 0 0)))) in E. cbn in E. injection E as E1 E2. unfold cancel_bounds, entire; cbn [fst snd]. now rewrite E1, E2.
    * destruct (H (B2R l - B2R l') (B2R u - B2R u')). now apply solution_exists.
Qed.
End B.

Lemma cancel_minus_blind {F} (x y : itv F) : wf x -> wf y -> s_nonempty x -> s_nonempty y -> set_bounded x -> set_bounded y ->
  (forall a b, ~ solves_minus x y a b) -> exists xl xu yl yu, x = (xl, xu) /\ y = (yl, yu) /\
  is_finite xl = true /\ is_finite xu = true /\ is_finite yl = true /\ is_finite yu = true /\
  B2R xl <= B2R xu /\ B2R yl <= B2R yu /\ B2R xu - B2R xl < B2R yu - B2R yl.
Proof.
intros Wx Wy Nx Ny Bx By H.
destruct (wf_view x Wx) as [| |u Hu|l Hl|l u Hl Hu L].
- destruct Nx as [r Hr]. now apply mem_empty in Hr.
- now apply unb_l in Bx; [|right].
- now apply unb_l in Bx; [|left].
- now apply unb_u in Bx.
- destruct (wf_view y Wy) as [| |u' Hu'|l' Hl'|l' u' Hl' Hu' L'].
  + destruct Ny as [r Hr]. now apply mem_empty in Hr.
  + now apply unb_l in By; [|right].
  + now apply unb_l in By; [|left].
  + now apply unb_u in By.
  + exists l, u, l', u'. repeat (split; [easy|]).
    destruct (Rlt_or_le (B2R u - B2R l) (B2R u' - B2R l')) as [W|W]; [exact W|].
    destruct (H (B2R l - B2R l') (B2R u - B2R u')). now apply solution_exists.
Qed.

(** Mixed types. *)
Lemma rd_not_minf T W r (z : float W) : within T W -> is_RD r z -> - B2R (@fmaxv T) <= r -> convert_rndd T z <> fminf.
Proof.
intros H [D1 D] L E.
destruct (fconv_exact W mode_NE (fneg (@fmaxv T)) H (fneg_fin _ (@is_finite_fmaxv T))) as [Ff Ef].
set (g := fconv W mode_NE (fneg (@fmaxv T))) in *. clearbody g. rewrite B2R_fneg in Ef.
specialize (D g). rewrite lb_fin in D by easy. rewrite Ef in D. specialize (D L).
destruct (fviewP z) as [| | |z Fz].
- exact D1.
- specialize (D (- B2R (@fmaxv T) - 1) eq_refl). rewrite lb_fin in D by easy. lra.
- discriminate D1.
- specialize (D (B2R z)). rewrite !lb_fin in D by easy. rewrite Ef in D. specialize (D (Rle_refl _)).
  destruct (@convert_rndd_fin W T z Fz) as [_ K]. rewrite E in K.
  specialize (K (fneg fmaxv)). rewrite lb_fin in K by (apply fneg_fin, is_finite_fmaxv). rewrite B2R_fneg in K.
  specialize (K D (- B2R (@fmaxv T) - 1) eq_refl). rewrite lb_fin in K by (apply fneg_fin, is_finite_fmaxv). rewrite B2R_fneg in K. lra.
Qed.
Lemma ru_not_pinf T W r (z : float W) : within T W -> is_RU r z -> r <= B2R (@fmaxv T) -> convert_rndu T z <> finf.
Proof.
intros H [D1 D] L E.
destruct (fconv_exact W mode_NE (@fmaxv T) H (@is_finite_fmaxv T)) as [Ff Ef].
set (g := fconv W mode_NE (@fmaxv T)) in *. clearbody g.
specialize (D g). rewrite ub_fin in D by easy. rewrite Ef in D. specialize (D L).
destruct (fviewP z) as [| | |z Fz].
- exact D1.
- discriminate D1.
- specialize (D (B2R (@fmaxv T) + 1) eq_refl). rewrite ub_fin in D by easy. lra.
- specialize (D (B2R z)). rewrite !ub_fin in D by easy. rewrite Ef in D. specialize (D (Rle_refl _)).
  destruct (@convert_rndu_fin W T z Fz) as [_ K]. rewrite E in K.
  specialize (K fmaxv). rewrite ub_fin in K by apply is_finite_fmaxv.
  specialize (K D (B2R (@fmaxv T) + 1) eq_refl). rewrite ub_fin in K by apply is_finite_fmaxv. lra.
Qed.
Lemma conv_d_val V (a : float V) W : within V W -> is_finite a = true -> is_finite (convert_rndd W a) = true /\ B2R (convert_rndd W a) = B2R a.
Proof.
intros H Fa. unfold convert_rndd. destruct (fconv_exact W mode_DN a H Fa) as [Ff Ef].
destruct feq eqn:E; [|easy]. apply feq_f0 in E. split; [easy|]. rewrite <- Ef, (proj2 E). easy.
Qed.
Lemma conv_u_val V (a : float V) W : within V W -> is_finite a = true -> is_finite (convert_rndu W a) = true /\ B2R (convert_rndu W a) = B2R a.
Proof.
intros H Fa. unfold convert_rndu. destruct (fconv_exact W mode_UP a H Fa) as [Ff Ef].
destruct feq eqn:E; [|easy]. apply feq_f0 in E. split; [easy|]. rewrite <- Ef, (proj2 E). easy.
Qed.
Lemma cancel_minus_mixed_entire_iff T {F G} (x : itv F) (y : itv G) : comparable T F -> comparable T G -> comparable F G -> wf x -> wf y ->
  s_nonempty x -> s_nonempty y -> set_bounded x -> set_bounded y -> (forall a b, ~ solves_minus x y a b) ->
  (returns (cancel_minus_mixed T x y) entire <-> ~ blind (pmax (pmax T F) G) x y).
Proof.
intros C1 C2 C3 Wx Wy Nx Ny Bx By H.
destruct (within_pmax3 T F G C1 C2 C3) as (A & B & C).
pose proof (mixed2_ret T (@cancel_minus) x y) as MR. cbv zeta in MR.
set (W := pmax (pmax T F) G) in *.
destruct (cancel_minus_blind (convert_hull W x) (convert_hull W y)) as (xl & xu & yl & yu & Ex & Ey & Fxl & Fxu & Fyl & Fyu & Lx & Ly & L).
{ now apply wf_convert_hull. }
{ now apply wf_convert_hull. }
{ now apply (nonempty_ext _ x (convert_hull_exact W x B Wx)). }
{ now apply (nonempty_ext _ y (convert_hull_exact W y C Wy)). }
{ now apply (set_bounded_ext _ x (convert_hull_exact W x B Wx)). }
{ now apply (set_bounded_ext _ y (convert_hull_exact W y C Wy)). }
{ intros a b S. apply (H a b). revert S. now apply (solves_ext T x y C1 C2 C3). }
assert (K : blind W x y <-> blind W ((xl, xu) : itv W) ((yl, yu) : itv W)).
{ rewrite <- Ex, <- Ey. clear - Wx Wy Nx Ny Bx By B C.
  assert (Q : forall V (z : itv V), wf z -> within V W -> s_nonempty z -> set_bounded z ->
    B2R (fst (convert_hull W z)) = B2R (fst z) /\ B2R (snd (convert_hull W z)) = B2R (snd z)).
  { intros V z Wz HW Nz Bz. destruct (wf_view z Wz) as [| |u Hu|l Hl|l u Hl Hu L].
    - destruct Nz as [r Hr]. now apply mem_empty in Hr.
    - now apply unb_l in Bz; [|right].
    - now apply unb_l in Bz; [|left].
    - now apply unb_u in Bz.
    - split; cbn [convert_hull fst snd]; [now apply conv_d_val|now apply conv_u_val]. }
  unfold blind. cbv zeta. destruct (Q F x Wx B Nx Bx) as [-> ->]. destruct (Q G y Wy C Ny By) as [-> ->]. reflexivity. }
rewrite K. rewrite Ex, Ey in MR.
destruct (cancel_blind xl xu yl yu) as [Q1 Q2]; try easy. cbv zeta in Q1, Q2.
split.
- intros E N. specialize (MR _ Wx Wy (Q2 N)). unfold cancel_minus_mixed in E. rewrite MR in E. specialize (E (Est 0 0)).
  injection E as E1 E2. cbn [cancel_bounds fst snd] in E1, E2.
  pose proof (rsub_RD xl yl Fxl Fyl) as D. pose proof (rsub_RU xu yu Fxu Fyu) as U.
  destruct (Rle_or_lt (- B2R (@fmaxv T)) (B2R xl - B2R yl)) as [P|P].
  + now apply (rd_not_minf T W _ _ A D P).
  + apply (ru_not_pinf T W _ _ A U); [|easy]. pose proof (@fmaxv_ge1 T). lra.
- intros N. specialize (MR _ Wx Wy (Q1 N)). apply returns_eq. exact MR.
Qed.

(** Cancellative addition. *)
Lemma cancel_plus_entire_iff {F} (x y : itv F) : wf x -> wf y -> s_nonempty x -> s_nonempty y -> set_bounded x -> set_bounded y ->
  (forall a b, ~ solves_plus x y a b) -> (returns (cancel_plus x y) entire <-> ~ blind F x ((Bopp (snd y), Bopp (fst y)) : itv F)).
Proof.
intros Wx Wy Nx Ny Bx By H. destruct (neg_ret y Wy) as (y' & E & Wy' & M & Ey). rewrite (cancel_plus_ret x y y' E).
change (Bopp (snd y), Bopp (fst y)) with (fneg (snd y), fneg (fst y)). rewrite <- Ey.
apply cancel_minus_entire_iff; try easy.
- now apply (neg_nonempty y y').
- now apply (neg_bounded y y').
- intros a b S. apply (H a b). now apply (solves_plus_minus x y y').
Qed.
