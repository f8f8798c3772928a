(** * Proofs: cancellative addition and subtraction *)
From Coq Require Import ZArith NArith Reals Bool Lia Lra.
From Flocq Require Import Core.Core IEEE754.BinarySingleNaN.
From Verif Require Import Fmt Spec FloatFacts Exc Deco SpecApi SpecRel SpecElem SpecMixed MBase PBase MBool MArith PArith PConv MOverlap
  MDec PDec MMixed PMixed SpecCancel MCancel PTwoSum.
Local Open Scope R_scope.

Section C.
Context {F : fmt}.
Implicit Types x y : itv F.

Lemma fneg_fin (a : float F) : is_finite a = true -> is_finite (fneg a) = true.
Proof. intros H. unfold fneg. now rewrite is_finite_Bopp. Qed.
Lemma B2R_fneg (a : float F) : B2R (fneg a) = - B2R a.
Proof. apply B2R_Bopp. Qed.

Section B.
Variables xl xu yl yu : float F.
Hypothesis Fxl : is_finite xl = true.
Hypothesis Fxu : is_finite xu = true.
Hypothesis Fyl : is_finite yl = true.
Hypothesis Fyu : is_finite yu = true.
Hypothesis Hx : B2R xl <= B2R xu.
Hypothesis Hy : B2R yl <= B2R yu.

Let x : itv F := (xl, xu).
Let y : itv F := (yl, yu).
Lemma wfx : wf x. Proof. apply wview_wf. now constructor. Qed.
Lemma wfy : wf y. Proof. apply wview_wf. now constructor. Qed.

Lemma wid_sound : pair_lt (two_sum xu (fneg xl)) (two_sum yu (fneg yl)) = true -> B2R xu - B2R xl < B2R yu - B2R yl.
Proof. intros H. apply pair_lt_sound in H; auto using fneg_fin. rewrite !B2R_fneg in H. lra. Qed.
Lemma dist_sound : pair_lt (two_sum yl (fneg xl)) (two_sum yu (fneg xu)) = true -> B2R xu - B2R xl < B2R yu - B2R yl.
Proof. intros H. apply pair_lt_sound in H; auto using fneg_fin. rewrite !B2R_fneg in H. lra. Qed.

Lemma max_range (a : float F) : - B2R (@fmaxv F) <= B2R a <= B2R (@fmaxv F).
Proof. apply Rabs_le_inv, abs_le_fmaxv. Qed.

Lemma wid_complete : not_max xu -> not_max yu -> B2R xu <= B2R yl \/ B2R yu <= B2R xl ->
  B2R xu - B2R xl < B2R yu - B2R yl -> pair_lt (two_sum xu (fneg xl)) (two_sum yu (fneg yl)) = true.
Proof.
intros N1 N2 D L. apply pair_lt_complete; auto using fneg_fin; rewrite !B2R_fneg; [|lra].
left. pose proof (max_range xl). pose proof (max_range xu). pose proof (max_range yl). pose proof (max_range yu).
apply Rabs_le. lra.
Qed.
Lemma dist_complete : not_max yl -> not_max yu ->
  (B2R xl < B2R yl < B2R xu /\ B2R xu < B2R yu) \/ (B2R yl < B2R xl < B2R yu /\ B2R yu < B2R xu) ->
  B2R xu - B2R xl < B2R yu - B2R yl -> pair_lt (two_sum yl (fneg xl)) (two_sum yu (fneg xu)) = true.
Proof.
intros N1 N2 D L. apply pair_lt_complete; auto using fneg_fin; rewrite !B2R_fneg; [|lra].
left. pose proof (max_range xl). pose proof (max_range xu). pose proof (max_range yl). pose proof (max_range yu).
apply Rabs_le. lra.
Qed.

Lemma cancel_fin :
  (B2R yu - B2R yl <= B2R xu - B2R xl -> cancel_minus x y = ret (cancel_bounds x y)) /\
  (B2R xu - B2R xl < B2R yu - B2R yl -> not_max xu -> not_max yl -> not_max yu -> cancel_minus x y = ret entire) /\
  (cancel_minus x y = ret (cancel_bounds x y) \/ cancel_minus x y = ret entire).
Proof.
unfold cancel_minus. rewrite (is_valid_wf x wfx). mreds. unfold x, y. cbn [fst snd].
rewrite !feq_minf_r, !feq_pinf_r by easy. cbn [orb].
unfold overlap. fold x y. rewrite (is_valid_wf x wfx), (is_valid_wf y wfy). mreds.
rewrite (is_empty_wf x wfx), (is_empty_wf y wfy). unfold x, y. cbn [fst snd].
rewrite !isnan_fin by easy. mreds. cbn [fst snd].
pose proof (comparable_refl F) as C.
rewrite !fle2_fin, !flt2_fin, !feq2_fin by easy.
repeat match goal with
| |- context [Rle_bool ?a ?b] => case (Rle_bool_spec a b); intros
| |- context [Rlt_bool ?a ?b] => case (Rlt_bool_spec a b); intros
| |- context [Req_bool ?a ?b] => case (Req_bool_spec a b); intros
end; cbv iota;
try (split; [intros; exfalso; lra|split; [reflexivity|now right]]);
try (split; [reflexivity|split; [intros; exfalso; lra|now left]]);
match goal with |- context [if ?c then _ else _] => destruct c eqn:E end;
try (split; [intros L; first [pose proof (wid_sound E)|pose proof (dist_sound E)]; exfalso; lra|split; [reflexivity|now right]]);
(split; [reflexivity|split; [intros L N1 N2 N3; exfalso|now left]]);
first [rewrite wid_complete in E by (easy || lra); discriminate|rewrite dist_complete in E by (easy || lra); discriminate].
Qed.
End B.

(** What a solution must be. *)
Lemma solution_ends xl xu yl yu a b : is_finite xl = true -> is_finite xu = true -> is_finite yl = true -> is_finite yu = true ->
  B2R xl <= B2R xu -> B2R yl <= B2R yu -> solves_minus ((xl, xu) : itv F) ((yl, yu) : itv F) a b ->
  a = B2R xl - B2R yl /\ b = B2R xu - B2R yu.
Proof.
intros Fxl Fxu Fyl Fyu Hx Hy [Hab H].
assert (Mx : forall t, mem t ((xl, xu) : itv F) <-> B2R xl <= t <= B2R xu).
{ intros t. unfold mem. cbn [fst snd]. now rewrite lb_fin, ub_fin. }
assert (My : forall t, mem t ((yl, yu) : itv F) <-> B2R yl <= t <= B2R yu).
{ intros t. unfold mem. cbn [fst snd]. now rewrite lb_fin, ub_fin. }
destruct (proj1 (H (B2R xl)) (proj2 (Mx (B2R xl)) (conj (Rle_refl _) Hx))) as (r1 & z1 & R1 & Z1 & E1).
destruct (proj1 (H (B2R xu)) (proj2 (Mx (B2R xu)) (conj Hx (Rle_refl _)))) as (r2 & z2 & R2 & Z2 & E2).
rewrite My in R1, R2.
assert (G1 : B2R xl <= B2R yl + a <= B2R xu).
{ apply Mx, H. exists (B2R yl), a. rewrite My. lra. }
assert (G2 : B2R xl <= B2R yu + b <= B2R xu).
{ apply Mx, H. exists (B2R yu), b. rewrite My. lra. }
lra.
Qed.
Lemma solution_exists xl xu yl yu : is_finite xl = true -> is_finite xu = true -> is_finite yl = true -> is_finite yu = true ->
  B2R xl <= B2R xu -> B2R yl <= B2R yu -> B2R yu - B2R yl <= B2R xu - B2R xl ->
  solves_minus ((xl, xu) : itv F) ((yl, yu) : itv F) (B2R xl - B2R yl) (B2R xu - B2R yu).
Proof.
intros Fxl Fxu Fyl Fyu Hx Hy W. split; [lra|]. intros t. unfold mem. cbn [fst snd]. rewrite lb_fin, ub_fin by easy. split.
- intros T.
  destruct (Rle_or_lt (t - B2R yl) (B2R xu - B2R yu)) as [L|L].
  + exists (B2R yl), (t - B2R yl). cbn [fst snd]. rewrite lb_fin, ub_fin by easy. lra.
  + exists (t - (B2R xu - B2R yu)), (B2R xu - B2R yu). rewrite lb_fin, ub_fin by easy. lra.
- intros (r & z & R & Z & ->). rewrite lb_fin, ub_fin in R by easy. lra.
Qed.
Lemma bounds_tightest xl xu yl yu : is_finite xl = true -> is_finite xu = true -> is_finite yl = true -> is_finite yu = true ->
  B2R yu - B2R yl <= B2R xu - B2R xl ->
  tightest (segment (B2R xl - B2R yl) (B2R xu - B2R yu)) (cancel_bounds ((xl, xu) : itv F) (yl, yu)).
Proof.
intros Fxl Fxu Fyl Fyu W. unfold cancel_bounds. cbn [fst snd]. apply tightest_intro.
- exists (B2R xl - B2R yl). unfold segment. lra.
- apply glow_glb with (g := B2R xl - B2R yl); [|now apply rsub_RD].
  apply glbR_min; unfold segment; [|intros]; lra.
- apply gupp_lub with (g := B2R xu - B2R yu); [|now apply rsub_RU].
  apply lubR_max; unfold segment; [|intros]; lra.
Qed.

Lemma sol_bounded x y a b : (exists r, mem r x) -> solves_minus x y a b ->
  (exists B, forall r, mem r x -> Rabs r <= B) -> exists B, forall r, mem r y -> Rabs r <= B.
Proof.
intros _ [Hab H] [B HB]. exists (B + Rabs a). intros r Hr.
assert (mem (r + a) x) by (apply H; exists r, a; split; [easy|lra]).
specialize (HB _ H0). replace r with ((r + a) + - a) by lra.
eapply Rle_trans; [apply Rabs_triang|]. rewrite Rabs_Ropp. lra.
Qed.
Lemma sol_bounded' x y a b : solves_minus x y a b ->
  (exists B, forall r, mem r y -> Rabs r <= B) -> exists B, forall r, mem r x -> Rabs r <= B.
Proof.
intros [Hab H] [B HB]. exists (B + (Rabs a + Rabs b)). intros r Hr.
apply H in Hr. destruct Hr as (s & z & Hs & Hz & ->). specialize (HB _ Hs).
eapply Rle_trans; [apply Rabs_triang|]. apply Rplus_le_compat; [easy|].
abs_lra.
Qed.
Lemma unb_l u : is_finite u = true \/ u = finf -> ~ set_bounded ((fminf, u) : itv F).
Proof.
intros Hu [B HB]. destruct Hu as [Hu | ->].
- specialize (HB (Rmin (B2R u) (- Rabs B - 1))). cut (Rabs (Rmin (B2R u) (- Rabs B - 1)) <= B).
  + unfold Rmin. destruct Rle_dec; abs_lra.
  + apply HB. split; cbn [fst snd]; [easy|]. rewrite ub_fin by easy. apply Rmin_l.
- specialize (HB (- Rabs B - 1)). cut (Rabs (- Rabs B - 1) <= B); [abs_lra|]. now apply HB.
Qed.
Lemma unb_u l : is_finite l = true -> ~ set_bounded ((l, finf) : itv F).
Proof.
intros Hl [B HB].
specialize (HB (Rmax (B2R l) (Rabs B + 1))). cut (Rabs (Rmax (B2R l) (Rabs B + 1)) <= B).
+ unfold Rmax. destruct Rle_dec; abs_lra.
+ apply HB. split; cbn [fst snd]; [|easy]. rewrite lb_fin by easy. apply Rmax_l.
Qed.

(** Unbounded operands. *)
Lemma cancel_unbounded x y : wf x -> wf y -> ~ set_bounded x \/ ~ set_bounded y -> cancel_minus x y = ret entire.
Proof.
intros Wx Wy H. unfold cancel_minus. rewrite (is_valid_wf x Wx). mreds.
cut (feq (fst x) fminf || feq (snd x) finf || feq (fst y) fminf || feq (snd y) finf = true); [now intros ->|].
assert (K : forall z : itv F, wf z -> ~ set_bounded z -> feq (fst z) fminf || feq (snd z) finf = true).
{ intros z Wz Hz. destruct (wf_view z Wz) as [| |u Hu|l Hl|l u Hl Hu L]; try reflexivity.
  - destruct Hz. exists 0. intros r Hr. now apply mem_empty in Hr.
  - now rewrite orb_true_r.
  - destruct Hz. exists (Rabs (B2R l) + Rabs (B2R u)). intros r [H1 H2]. cbn [fst snd] in *.
    rewrite lb_fin in H1 by easy. rewrite ub_fin in H2 by easy. abs_lra. }
destruct H as [H|H]; apply K in H; try easy; apply orb_prop in H; destruct H as [-> | ->]; now rewrite ?orb_true_r.
Qed.

Lemma cancel_minus_tightest x y a b : wf x -> wf y -> s_nonempty x -> solves_minus x y a b -> set_bounded x ->
  computes_tightest (cancel_minus x y) (segment a b).
Proof.
intros Wx Wy Nx H Bx.
pose proof (sol_bounded x y a b Nx H Bx) as By.
destruct (wf_view x Wx) as [| |u Hu|l Hl|l u Hl Hu L].
- destruct Nx as [r Hr]. now apply mem_empty in Hr.
- now apply unb_l in Bx; [|right].
- now apply unb_l in Bx; [|left].
- now apply unb_u in Bx.
- destruct (wf_view y Wy) as [| |u' Hu'|l' Hl'|l' u' Hl' Hu' L'].
  + destruct Nx as [r Hr]. apply H in Hr. destruct Hr as (? & ? & Hr & _). now apply mem_empty in Hr.
  + now apply unb_l in By; [|right].
  + now apply unb_l in By; [|left].
  + now apply unb_u in By.
  + destruct (solution_ends l u l' u' a b) as [-> ->]; try easy.
    destruct (cancel_fin l u l' u') as [C _]; try easy.
    assert (W : B2R u' - B2R l' <= B2R u - B2R l).
    { destruct H as [H _]. lra. }
    apply ct_ret with (1 := C W). now apply bounds_tightest.
Qed.
Lemma solution_bounded x y a b : (exists r, mem r x) -> wf x -> wf y -> solves_minus x y a b -> set_bounded y -> set_bounded x.
Proof. intros _ _ _ H B. exact (sol_bounded' x y a b H B). Qed.

Lemma cancel_minus_entire x y : wf x -> wf y -> s_nonempty x -> s_nonempty y -> set_bounded x -> set_bounded y ->
  (forall a b, ~ solves_minus x y a b) -> not_max (snd x) -> not_max (fst y) -> not_max (snd y) ->
  returns (cancel_minus x y) entire.
Proof.
intros Wx Wy Nx Ny Bx By H M1 M2 M3. apply returns_eq.
destruct (wf_view x Wx) as [| |u Hu|l Hl|l u Hl Hu L].
- destruct Nx as [r Hr]. now apply mem_empty in Hr.
- now apply unb_l in Bx; [|right].
- now apply unb_l in Bx; [|left].
- now apply unb_u in Bx.
- destruct (wf_view y Wy) as [| |u' Hu'|l' Hl'|l' u' Hl' Hu' L'].
  + destruct Ny as [r Hr]. now apply mem_empty in Hr.
  + now apply unb_l in By; [|right].
  + now apply unb_l in By; [|left].
  + now apply unb_u in By.
  + destruct (cancel_fin l u l' u') as (_ & C & _); try easy.
    destruct (Rlt_or_le (B2R u - B2R l) (B2R u' - B2R l')) as [W|W]; [now apply C|].
    destruct (H (B2R l - B2R l') (B2R u - B2R u')). now apply solution_exists.
Qed.
Lemma cancel_minus_unbounded x y : wf x -> wf y -> ~ set_bounded x \/ ~ set_bounded y ->
  returns (cancel_minus x y) entire.
Proof. intros Wx Wy H. apply returns_eq. now apply cancel_unbounded. Qed.
Lemma empty_nonempty x : wf x -> ~ s_nonempty x -> x = empty.
Proof. intros [->|H] N; [reflexivity|contradiction]. Qed.
Lemma cancel_minus_empty x y : wf x -> wf y -> ~ s_nonempty x -> set_bounded y -> returns (cancel_minus x y) empty.
Proof.
intros Wx Wy Nx By. apply returns_eq. rewrite (empty_nonempty x Wx Nx). unfold cancel_minus.
rewrite (is_valid_wf empty wf_empty). mreds. cbn [fst snd empty]. rewrite !feq_nan_l. cbn [orb].
assert (E : feq (fst y) fminf || feq (snd y) finf = false).
{ destruct (wf_view y Wy) as [| |u' Hu'|l' Hl'|l' u' Hl' Hu' L']; cbn [fst snd].
  - reflexivity.
  - now apply unb_l in By; [|right].
  - now apply unb_l in By; [|left].
  - now apply unb_u in By.
  - now rewrite feq_minf_r, feq_pinf_r. }
rewrite E. unfold overlap. rewrite (is_valid_wf empty wf_empty), (is_valid_wf y Wy). mreds.
rewrite (is_empty_wf empty wf_empty), (is_empty_wf y Wy). mreds. cbn [fst empty]. change (isnan (@fnan F)) with true. mreds.
destruct (isnan (fst y)); mreds; reflexivity.
Qed.
Lemma cancel_minus_empty_r x : wf x -> s_nonempty x -> returns (cancel_minus x empty) entire.
Proof.
intros Wx Nx. apply returns_eq. unfold cancel_minus.
rewrite (is_valid_wf x Wx). mreds. cbn [fst snd empty]. rewrite !feq_nan_l, !orb_false_r.
destruct (feq (fst x) fminf || feq (snd x) finf); [reflexivity|].
unfold overlap. rewrite (is_valid_wf empty wf_empty), (is_valid_wf x Wx). mreds.
rewrite (is_empty_wf empty wf_empty), (is_empty_wf x Wx). mreds. cbn [fst empty]. change (isnan (@fnan F)) with true. mreds.
destruct (isnan (fst x)) eqn:N; [|mreds; reflexivity].
apply wf_nan_l in N; [|easy]. subst x. destruct Nx as [r Hr]. now apply mem_empty in Hr.
Qed.
End C.

Lemma set_bounded_ext {F G} (x : itv F) (y : itv G) : (forall r, mem r x <-> mem r y) -> set_bounded x <-> set_bounded y.
Proof. intros H. split; intros [B HB]; exists B; intros r Hr; apply HB, H, Hr. Qed.
Lemma nonempty_ext {F G} (x : itv F) (y : itv G) : (forall r, mem r x <-> mem r y) -> s_nonempty x <-> s_nonempty y.
Proof. intros H. split; intros [r Hr]; exists r; apply H, Hr. Qed.

Lemma cancel_minus_ok {F} (x y : itv F) : wf x -> wf y -> cancel_spec (solves_minus x y) x y (cancel_minus x y).
Proof.
intros Wx Wy. split; [|split; [|split]].
- intros Nx Bx a b H. now apply cancel_minus_tightest.
- now apply cancel_minus_unbounded.
- now apply cancel_minus_empty.
- intros Nx Ny. rewrite (empty_nonempty y Wy Ny). now apply cancel_minus_empty_r.
Qed.
Lemma cancel_minus_no {F} (x y : itv F) : wf x -> wf y -> not_max (snd x) -> not_max (fst y) -> not_max (snd y) ->
  no_solution_entire (solves_minus x y) x y (cancel_minus x y).
Proof. intros Wx Wy M1 M2 M3 Nx Ny Bx By H. now apply cancel_minus_entire. Qed.

(** Mixed types. *)
Section Mixed.
Context (T : fmt) {F G : fmt} (x : itv F) (y : itv G).
Hypotheses (C1 : comparable T F) (C2 : comparable T G) (C3 : comparable F G) (Wx : wf x) (Wy : wf y).
Let W := pmax (pmax T F) G.
Let x' := convert_hull W x.
Let y' := convert_hull W y.
Lemma mx r : mem r x' <-> mem r x.
Proof. apply convert_hull_exact; [|easy]. apply (within_pmax3 T F G C1 C2 C3). Qed.
Lemma my r : mem r y' <-> mem r y.
Proof. apply convert_hull_exact; [|easy]. apply (within_pmax3 T F G C1 C2 C3). Qed.
Lemma solves_ext a b : solves_minus x' y' a b <-> solves_minus x y a b.
Proof.
unfold solves_minus. split; intros [H1 H2]; (split; [easy|]); intros t; specialize (H2 t).
- rewrite <- mx, H2. split; intros (r & z & A & B); exists r, z; (split; [now apply my|easy]).
- rewrite mx, H2. split; intros (r & z & A & B); exists r, z; (split; [now apply my|easy]).
Qed.
Lemma cm_ret z : returns (cancel_minus x' y') z -> returns (cancel_minus_mixed T x y) (convert_hull T z).
Proof. intros H. apply returns_eq. apply mixed2_ret; [easy|easy|]. now apply returns_eq. Qed.
Lemma not_max_max V V' : within V V' -> B2R (@fmaxv V) <= B2R (@fmaxv V').
Proof.
intros H. destruct (fconv_exact V' mode_NE (@fmaxv V) H (is_finite_fmaxv)) as [Hf E].
rewrite <- E. eapply Rle_trans; [apply Rle_abs|apply abs_le_fmaxv].
Qed.
Lemma not_max_conv_d V V' (a : float V) : within V V' -> not_max a -> not_max (convert_rndd V' a).
Proof.
intros H N. unfold not_max, convert_rndd in *. pose proof (not_max_max V V' H) as L. pose proof (@fmaxv_ge1 V') as G1.
destruct feq; [cbn [B2R fm0]; rewrite Rabs_R0; lra|].
destruct (fviewP a) as [| | |a Fa]; try (change (Rabs 0 < B2R (@fmaxv V')); rewrite Rabs_R0; lra).
destruct (fconv_exact V' mode_DN a H Fa) as [_ ->]. lra.
Qed.
Lemma not_max_conv_u V V' (a : float V) : within V V' -> not_max a -> not_max (convert_rndu V' a).
Proof.
intros H N. unfold not_max, convert_rndu in *. pose proof (not_max_max V V' H) as L. pose proof (@fmaxv_ge1 V') as G1.
destruct feq; [cbn [B2R f0]; rewrite Rabs_R0; lra|].
destruct (fviewP a) as [| | |a Fa]; try (change (Rabs 0 < B2R (@fmaxv V')); rewrite Rabs_R0; lra).
destruct (fconv_exact V' mode_UP a H Fa) as [_ ->]. lra.
Qed.
Lemma cancel_minus_mixed_ok : cancel_spec (solves_minus x y) x y (cancel_minus_mixed T x y).
Proof.
destruct (cancel_minus_ok x' y' (wf_convert_hull W x Wx) (wf_convert_hull W y Wy)) as (K1 & K2 & K3 & K4).
pose proof (set_bounded_ext x' x mx) as Bx. pose proof (set_bounded_ext y' y my) as By.
pose proof (nonempty_ext x' x mx) as Nx. pose proof (nonempty_ext y' y my) as Ny.
split; [|split; [|split]].
- intros Hn Hb a b Hs. destruct (K1 (proj2 Nx Hn) (proj2 Bx Hb) a b (proj2 (solves_ext a b) Hs)) as (z & R & Tz).
  exists (convert_hull T z). split; [now apply cm_ret|]. apply tightest_narrow; [|easy].
  apply (within_pmax3 T F G C1 C2 C3).
- intros H. rewrite Bx, By in K2. apply K2 in H. now apply cm_ret in H.
- intros H1 H2. rewrite Nx, By in K3. now apply cm_ret in K3.
- intros H1 H2. rewrite Nx, Ny in K4. specialize (K4 H1 H2). now apply cm_ret in K4.
Qed.
Lemma cancel_minus_mixed_no : not_max (snd x) -> not_max (fst y) -> not_max (snd y) ->
  no_solution_entire (solves_minus x y) x y (cancel_minus_mixed T x y).
Proof.
intros M1 M2 M3 Hx Hy Hbx Hby Hs.
pose proof (set_bounded_ext x' x mx) as Bx. pose proof (set_bounded_ext y' y my) as By.
pose proof (nonempty_ext x' x mx) as Nx. pose proof (nonempty_ext y' y my) as Ny.
destruct (within_pmax3 T F G C1 C2 C3) as (A & B & C).
assert (K : returns (cancel_minus x' y') (fminf, finf)).
{ apply (cancel_minus_no x' y' (wf_convert_hull W x Wx) (wf_convert_hull W y Wy)).
  - now apply not_max_conv_u.
  - now apply not_max_conv_d.
  - now apply not_max_conv_u.
  - now apply Nx.
  - now apply Ny.
  - now apply Bx.
  - now apply By.
  - intros a b H. apply (Hs a b). now apply solves_ext. }
now apply cm_ret in K.
Qed.
End Mixed.

(** Cancellative addition. *)
Lemma neg_ret {F} (y : itv F) : wf y -> exists y', neg y = ret y' /\ wf y' /\ (forall r, mem r y' <-> mem (- r) y) /\
  y' = (fneg (snd y), fneg (fst y)).
Proof.
intros Wy. assert (M : forall r, mem r (fneg (snd y), fneg (fst y)) <-> mem (- r) y).
{ intros r. destruct y as [l u]. apply mem_neg. }
exists (fneg (snd y), fneg (fst y)). split; [|split; [|split; [exact M|reflexivity]]].
- unfold neg. rewrite is_valid_wf, is_empty_wf by easy. mreds. destruct (isnan (fst y)) eqn:E; [|now mreds].
  apply wf_nan_l in E; [|easy]. subst y. reflexivity.
- destruct Wy as [->|[r Hr]]; [left; reflexivity|]. right. exists (- r). apply M. now rewrite Ropp_involutive.
Qed.
Lemma solves_plus_minus {F G H} (x : itv F) (y : itv G) (y' : itv H) a b : (forall r, mem r y' <-> mem (- r) y) ->
  solves_minus x y' a b <-> solves_plus x y a b.
Proof.
intros M. unfold solves_minus, solves_plus. split; intros [H1 H2]; (split; [easy|]); intros t; rewrite H2; split;
  intros (r & z & A & B & E); exists (- r), z; (split; [|split; [easy|lra]]).
- now apply M.
- apply M. now rewrite Ropp_involutive.
- apply M. now rewrite Ropp_involutive.
- now apply M.
Qed.
Lemma neg_bounded {G H} (y : itv G) (y' : itv H) : (forall r, mem r y' <-> mem (- r) y) -> set_bounded y' <-> set_bounded y.
Proof.
intros M. split; intros [B HB]; exists B; intros r Hr; rewrite <- Rabs_Ropp; apply HB, M; [now rewrite Ropp_involutive|easy].
Qed.
Lemma neg_nonempty {G H} (y : itv G) (y' : itv H) : (forall r, mem r y' <-> mem (- r) y) -> s_nonempty y' <-> s_nonempty y.
Proof.
intros M. split; intros [r Hr]; exists (- r); apply M; [easy|]. now rewrite Ropp_involutive.
Qed.
Lemma cancel_spec_neg {T F G H} (x : itv F) (y : itv G) (y' : itv H) (m : M (itv T)) : (forall r, mem r y' <-> mem (- r) y) ->
  cancel_spec (solves_minus x y') x y' m -> cancel_spec (solves_plus x y) x y m.
Proof.
intros E (K1 & K2 & K3 & K4). pose proof (neg_bounded y y' E) as B. pose proof (neg_nonempty y y' E) as N.
split; [|split; [|split]].
- intros A1 A2 a b A3. apply K1; [easy|easy|]. now apply (solves_plus_minus x y y').
- now rewrite <- B.
- now rewrite <- B.
- now rewrite <- N.
Qed.
Lemma no_solution_neg {T F G H} (x : itv F) (y : itv G) (y' : itv H) (m : M (itv T)) : (forall r, mem r y' <-> mem (- r) y) ->
  no_solution_entire (solves_minus x y') x y' m -> no_solution_entire (solves_plus x y) x y m.
Proof.
intros E K A1 A2 A3 A4 A5. apply K; [easy|now apply (neg_nonempty y y')|easy|now apply (neg_bounded y y')|].
intros a b S. apply (A5 a b). now apply (solves_plus_minus x y y').
Qed.
Lemma cancel_plus_ret {F} (x y y' : itv F) : neg y = ret y' -> cancel_plus x y = cancel_minus x y'.
Proof. intros H. unfold cancel_plus. rewrite H. now mreds. Qed.
Lemma cancel_plus_ok {F} (x y : itv F) : wf x -> wf y -> cancel_spec (solves_plus x y) x y (cancel_plus x y).
Proof.
intros Wx Wy. destruct (neg_ret y Wy) as (y' & E & Wy' & M & _). rewrite (cancel_plus_ret x y y' E).
apply (cancel_spec_neg x y y'); [easy|]. now apply cancel_minus_ok.
Qed.
Lemma not_max_neg {F} (a : float F) : not_max a -> not_max (fneg a).
Proof. unfold not_max. now rewrite B2R_fneg, Rabs_Ropp. Qed.
Lemma cancel_plus_no {F} (x y : itv F) : wf x -> wf y -> not_max (snd x) -> not_max (fst y) -> not_max (snd y) ->
  no_solution_entire (solves_plus x y) x y (cancel_plus x y).
Proof.
intros Wx Wy M1 M2 M3. destruct (neg_ret y Wy) as (y' & E & Wy' & M & Ey). rewrite (cancel_plus_ret x y y' E).
apply (no_solution_neg x y y'); [easy|]. subst y'. apply cancel_minus_no; cbn [fst snd]; try easy; now apply not_max_neg.
Qed.
(** [cancel_plus x y] is [cancel_minus] with the negated operand. *)
Lemma cancel_plus_neg {F} (x y : itv F) : wf x -> wf y -> exists y', returns (neg y) y' /\ cancel_plus x y = cancel_minus x y'.
Proof.
intros Wx Wy. destruct (neg_ret y Wy) as (y' & E & _). exists y'. split; [now apply returns_eq|]. now apply cancel_plus_ret.
Qed.
(** Mixed: the operand has to fit into the result type. *)
Lemma neg_mixed_ret T {G} (y : itv G) : within G T -> wf y -> exists y' : itv T, neg_mixed T y = ret y' /\ wf y' /\
  (forall r, mem r y' <-> mem (- r) y).
Proof.
intros HW Wy. destruct (neg_ret y Wy) as (y' & E & Wy' & M & _).
exists (convert_hull T y'). split; [|split].
- unfold neg_mixed. rewrite is_valid_wf, E by easy. now mreds.
- now apply wf_convert_hull.
- intros r. rewrite <- M. now apply convert_hull_exact.
Qed.
Lemma cancel_plus_mixed_ok T {F G} (x : itv F) (y : itv G) : comparable T F -> within G T -> wf x -> wf y ->
  cancel_spec (solves_plus x y) x y (cancel_plus_mixed T x y).
Proof.
intros C HW Wx Wy. destruct (neg_mixed_ret T y HW Wy) as (y' & E & Wy' & M).
unfold cancel_plus_mixed. rewrite E. mreds. apply (cancel_spec_neg x y y'); [easy|].
apply cancel_minus_mixed_ok; auto using comparable_refl, comparable_sym.
Qed.

(** Decorated versions. *)
Lemma cancel_minus_dec_ok {F} (x y : ditv F) : wf_dec x -> wf_dec y ->
  (snd x = ill \/ snd y = ill -> returns (cancel_minus_dec x y) nai) /\
  (snd x <> ill -> snd y <> ill -> forall z, returns (cancel_minus (fst x) (fst y)) z ->
   returns (cancel_minus_dec x y) (z, trv)).
Proof.
intros Wx Wy. split.
- intros H. apply returns_eq. unfold cancel_minus_dec. rewrite !is_valid_dec_wf, !is_nai_wf by easy. mreds.
  destruct H as [-> | ->]; [now mreds|]. destruct (deq (snd x) ill); now mreds.
- intros Nx Ny z Hz. apply returns_eq in Hz. apply returns_eq. unfold cancel_minus_dec.
  rewrite !is_valid_dec_wf, !is_nai_wf by easy. mreds.
  destruct (deq_spec (snd x) ill); [easy|]. destruct (deq_spec (snd y) ill); [easy|]. mreds. rewrite Hz. now mreds.
Qed.
Lemma neg_dec_ret {F} (y : ditv F) : wf_dec y -> exists y', neg_dec y = ret y' /\ wf_dec y' /\
  (snd y = ill -> y' = nai) /\ (snd y <> ill -> neg (fst y) = ret (fst y') /\ snd y' = snd y).
Proof.
intros Wy. unfold neg_dec. rewrite is_valid_dec_wf, is_nai_wf by easy. mreds.
destruct (deq_spec (snd y) ill) as [E|E]; mreds.
{ exists nai. split; [easy|]. split; [apply wf_dec_nai|]. split; [easy|]. intros; contradiction. }
destruct (neg_ret (fst y) (wf_dec_wf y Wy)) as (y' & R & Wy' & M & Ey). rewrite R. mreds.
exists (y', snd y). split; [easy|]. split; [|split; [easy|intros _; now split]].
destruct Wy as [[A B]|(A & B & C)].
- left. cbn [fst snd]. split; [|easy]. rewrite Ey, A. reflexivity.
- right. cbn [fst snd]. split; [|split; [easy|]].
  + destruct A as [r Hr]. exists (- r). apply M. now rewrite Ropp_involutive.
  + intros D. destruct (C D) as [H1 H2]. subst y'. now split; apply fneg_fin.
Qed.
Lemma cancel_plus_dec_ok {F} (x y : ditv F) : wf_dec x -> wf_dec y ->
  (snd x = ill \/ snd y = ill -> returns (cancel_plus_dec x y) nai) /\
  (snd x <> ill -> snd y <> ill -> forall z, returns (cancel_plus (fst x) (fst y)) z ->
   returns (cancel_plus_dec x y) (z, trv)).
Proof.
intros Wx Wy. destruct (neg_dec_ret y Wy) as (y' & E & Wy' & I & N). unfold cancel_plus_dec. rewrite E. mreds.
destruct (cancel_minus_dec_ok x y' Wx Wy') as [K1 K2]. split.
- intros [H|H]; apply K1; [now left|]. right. now rewrite (I H).
- intros Nx Ny z Hz. destruct (N Ny) as [R S]. apply K2; [easy|now rewrite S|].
  now rewrite (cancel_plus_ret _ _ _ R) in Hz.
Qed.

Lemma cancel_minus_dec_mixed_nai T {F G} (x : ditv F) (y : ditv G) : wf_dec x -> wf_dec y -> snd x = ill \/ snd y = ill ->
  returns (cancel_minus_dec_mixed T x y) nai.
Proof.
intros Wx Wy H. apply returns_eq. unfold cancel_minus_dec_mixed, mixed_dec2. rewrite !is_valid_dec_wf, !is_nai_wf by easy. mreds.
destruct H as [-> | ->]; [now mreds|]. destruct (deq (snd x) ill); now mreds.
Qed.
Lemma cancel_minus_dec_mixed_val T {F G} (x : ditv F) (y : ditv G) a b : comparable T F -> comparable T G -> comparable F G ->
  wf_dec x -> wf_dec y -> snd x <> ill -> snd y <> ill ->
  s_nonempty (fst x) -> set_bounded (fst x) -> solves_minus (fst x) (fst y) a b ->
  exists z, returns (cancel_minus_dec_mixed T x y) (z, trv) /\ tightest (segment a b) z.
Proof.
intros C1 C2 C3 Wx Wy Nx Ny Ex Bx S. destruct (within_pmax3 T F G C1 C2 C3) as (A & B & C).
set (W := pmax (pmax T F) G) in *.
pose proof (wf_dec_wf x Wx) as Wx0. pose proof (wf_dec_wf y Wy) as Wy0.
destruct (widen_dec W x B Wx Nx) as (Cx & Wx' & Mx & _). destruct (widen_dec W y C Wy Ny) as (Cy & Wy' & My & _).
destruct (cancel_minus_ok (convert_hull W (fst x)) (convert_hull W (fst y))) as (K & _); [exact (wf_dec_wf _ Wx')|exact (wf_dec_wf _ Wy')|].
destruct (K (proj2 (nonempty_ext _ _ Mx) Ex) (proj2 (set_bounded_ext _ _ Mx) Bx) a b) as (z & R & Tz).
{ now apply (solves_ext T (fst x) (fst y)). }
exists (convert_hull T z). split; [|now apply tightest_narrow].
destruct (cancel_minus_dec_ok _ _ Wx' Wy') as [_ D]. specialize (D Nx Ny z R). apply returns_eq in D.
apply returns_eq. unfold cancel_minus_dec_mixed, mixed_dec2. rewrite !is_valid_dec_wf, !is_nai_wf by easy. mreds.
destruct (deq_spec (snd x) ill); [easy|]. destruct (deq_spec (snd y) ill); [easy|]. mreds.
fold W. cbv zeta. rewrite Cx. mreds. rewrite Cy. mreds. rewrite D. mreds.
unfold convert_hull_dec. assert (Wz : wf_dec (z, trv)).
{ destruct Tz as (Wz & Ez & _). right. cbn [fst snd]. split; [|split; easy]. exists a. apply Ez. destruct S as [S _]. unfold segment. lra. }
rewrite is_nai_wf by easy. mreds. reflexivity.
Qed.

Lemma solution_iff {F} (xl xu yl yu : float F) :
  is_finite xl = true -> is_finite xu = true -> is_finite yl = true -> is_finite yu = true ->
  B2R xl <= B2R xu -> B2R yl <= B2R yu ->
  ((exists a b, solves_minus ((xl, xu) : itv F) ((yl, yu) : itv F) a b) <-> B2R yu - B2R yl <= B2R xu - B2R xl) /\
  (forall a b, solves_minus ((xl, xu) : itv F) ((yl, yu) : itv F) a b -> a = B2R xl - B2R yl /\ b = B2R xu - B2R yu).
Proof.
intros Fxl Fxu Fyl Fyu Hx Hy.
assert (E := fun a b => solution_ends xl xu yl yu a b Fxl Fxu Fyl Fyu Hx Hy). split; [|exact E]. split.
- intros (a & b & H). destruct (E a b H) as [-> ->]. destruct H as [H _]. lra.
- intros H. exists (B2R xl - B2R yl), (B2R xu - B2R yu). now apply solution_exists.
Qed.

Lemma bounded_bnd {F} (l u : float F) : is_finite l = true -> is_finite u = true -> set_bounded ((l, u) : itv F).
Proof.
intros Hl Hu. exists (Rabs (B2R l) + Rabs (B2R u)). intros r [H1 H2]. cbn [fst snd] in *.
rewrite lb_fin in H1 by easy. rewrite ub_fin in H2 by easy. abs_lra.
Qed.
Lemma nonempty_bnd {F} (l u : float F) : is_finite l = true -> is_finite u = true -> B2R l <= B2R u -> s_nonempty ((l, u) : itv F).
Proof. intros Hl Hu L. exists (B2R l). unfold mem. cbn [fst snd]. rewrite lb_fin, ub_fin by easy. lra. Qed.

From Verif Require Import Ex.
Lemma cancel_max_refuted : exists x y : itv binary64,
  wf x /\ wf y /\ s_nonempty x /\ s_nonempty y /\ set_bounded x /\ set_bounded y /\
  (forall a b, ~ solves_minus x y a b) /\ returns (cancel_minus x y) (@fmaxv binary64, @fmaxv binary64).
Proof.
set (xl := fl binary64 3 970). set (yl := fl binary64 (- (2^53 - 2)) 971).
assert (Hx : B2R xl <= B2R (@fmaxv binary64)) by b2r.
assert (Hy : B2R yl <= B2R (@f0 binary64)) by b2r.
exists (xl, @fmaxv binary64), (yl, f0).
split; [wf_tac|]. split; [wf_tac|].
split; [now apply nonempty_bnd|]. split; [now apply nonempty_bnd|].
split; [now apply bounded_bnd|]. split; [now apply bounded_bnd|]. split.
- intros a b H.
  assert (K : exists a b, solves_minus ((xl, @fmaxv binary64) : itv binary64) ((yl, f0) : itv binary64) a b) by eauto.
  apply (proj1 (solution_iff xl (@fmaxv binary64) yl f0 eq_refl eq_refl eq_refl eq_refl Hx Hy)) in K.
  revert K. apply Rlt_not_le. b2r.
- apply returns_eq. destruct (cancel_fin xl (@fmaxv binary64) yl f0 eq_refl eq_refl eq_refl eq_refl Hx Hy) as (_ & _ & [C|C]).
  + rewrite C. f_equal. unfold cancel_bounds. f_equal; apply B2SF_inj; vm_compute; reflexivity.
  + exfalso. apply (f_equal run) in C. vm_compute in C. discriminate.
Qed.
Lemma cancel_plus_mixed_refuted : exists (x : itv binary32) (y : itv binary64) (a b : R) (z : itv binary32),
  wf x /\ wf y /\ set_bounded x /\ solves_plus x y a b /\ returns (cancel_plus_mixed binary32 x y) z /\
  ~ encloses (segment a b) z.
Proof.
set (xl := fl binary32 3 0). set (xu := fl binary32 4 0). set (yl := fl binary64 (2^40 + 1) (-40)).
assert (X1 : B2R xl = 3) by b2r. assert (X2 : B2R xu = 4) by b2r.
assert (Y1 : B2R yl = 1 + / 1099511627776) by b2r.
exists (xl, xu), (yl, yl), (4 + / 1099511627776), (5 + / 1099511627776), (fl binary32 4 0, fl binary32 5 0).
split; [wf_tac|]. split; [wf_tac|]. split; [now apply bounded_bnd|]. split; [|split].
- split; [lra|]. intros t. unfold mem. cbn [fst snd]. rewrite lb_fin, ub_fin by easy. rewrite X1, X2. split.
  + intros H. exists (1 + / 1099511627776), (t + (1 + / 1099511627776)). rewrite lb_fin, ub_fin by easy. rewrite Y1. lra.
  + intros (r & z & H & Hz & ->). rewrite lb_fin, ub_fin in H by easy. rewrite Y1 in H. lra.
- apply returns_eq.
  assert (H : exists z, cancel_plus_mixed binary32 ((xl, xu) : itv binary32) ((yl, yl) : itv binary64) = ret z /\ sf2 z = sf2 (fl binary32 4 0, fl binary32 5 0)).
  { eexists. split; [apply returns_eq; intros s; reflexivity|]. vm_compute. reflexivity. }
  destruct H as ([zl zu] & -> & E). f_equal. f_equal; apply B2SF_inj; [exact (f_equal fst E)|exact (f_equal snd E)].
- intros H. specialize (H (5 + / 1099511627776)). unfold segment in H. destruct H as [_ H]; [lra|]. cbn [fst snd] in H.
  rewrite ub_fin in H by easy. assert (B2R (fl binary32 5 0) = 5) by b2r. lra.
Qed.
