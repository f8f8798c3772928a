(** * Proofs: single numbers *)
From Coq Require Import ZArith NArith Reals Bool List PeanoNat Lia Lra.
From Flocq Require Import Core.Core IEEE754.BinarySingleNaN.
From Verif Require Import Fmt Spec FloatFacts Exc Deco SpecApi SpecElem SpecAtan2 SpecDeco SpecMixed SpecTan SpecTan2 SpecIso SpecNai SpecProg MBase PBase PClass MBool MArith PArith PMul PDiv
  PFma PUnary PConv PSetop MElem PElem PElem2 MPow PPown PPow MTrig PTan PTrigT PTanF MAtan2 PAtan2 MDec PDec PDecF PDecT MMixed PMixed PTanOff PTan64 PTanIff
  PIso PIsoMixed PNai PValid2 PValid4 SpecExpr MExpr PExpr SpecFp PFp SpecPoint.
From Verif Require C12 C16 C28.
Local Open Scope R_scope.

(** ** The tightest interval around one real number *)
Section Pt.
Context {F : fmt}.
Implicit Types (z : itv F) (v w : float F).
Lemma mem_fin r (l u : float F) : is_finite l = true -> is_finite u = true -> mem r (l, u) <-> B2R l <= r <= B2R u.
Proof. intros A B. unfold mem; cbn [fst snd]. now rewrite lb_fin, ub_fin by easy. Qed.
Lemma point_mem t z r : is_point t z -> mem r z <-> r = t.
Proof. intros (A & B & C & D). destruct z as [l u]; cbn [fst snd] in *. rewrite mem_fin by easy. lra. Qed.
Lemma point_wf t z : is_point t z -> wf z.
Proof. intros P. right. exists t. now apply (point_mem t z). Qed.
Lemma single_point t z : mem t z -> (forall r, mem r z -> r = t) -> is_point t z.
Proof.
intros [H1 H2] U. destruct z as [l u]; cbn [fst snd] in *. unfold is_point; cbn [fst snd].
destruct (fviewP l) as [ | | |l Fl]; try easy.
{ exfalso. assert (t - 1 = t); [|lra]. apply U. split; cbn [fst snd]; [easy|]. destruct (fviewP u) as [ | | |u Fu]; try easy. rewrite ub_fin in * by easy. lra. }
destruct (fviewP u) as [ | | |u Fu]; try easy.
{ exfalso. assert (t + 1 = t); [|lra]. apply U. split; cbn [fst snd]; [|easy]. rewrite lb_fin in * by easy. lra. }
rewrite lb_fin in H1 by easy. rewrite ub_fin in H2 by easy. split; [easy|]. split; [easy|].
split; apply U; apply mem_fin; try easy; lra.
Qed.
Lemma tight_faithful t z : tightest (fun r => r = t) z -> only_faithful t z.
Proof.
intros (W & E & B). assert (T : mem t z) by now apply E. split; [easy|]. split; [easy|]. intros v Fv. split.
- intros H. split; [easy|]. intros w Fw. split; intros L.
  + assert (I : included z (w, finf)). { apply B. { right. exists t. split; [now rewrite lb_fin|easy]. } intros r ->. split; [now rewrite lb_fin|easy]. }
    apply I in H. destruct H as [H _]. cbn [fst] in H. now rewrite lb_fin in H.
  + assert (I : included z (fminf, w)). { apply B. { right. exists t. split; [easy|now rewrite ub_fin]. } intros r ->. split; [easy|now rewrite ub_fin]. }
    apply I in H. destruct H as [_ H]. cbn [snd] in H. now rewrite ub_fin in H.
- intros H. now apply (mem_faithful t).
Qed.
Lemma number_faithful t v : number F t -> faithful t v -> B2R v = t.
Proof. intros (w & Fw & <-) [_ H]. destruct (H w Fw) as [A B]. specialize (A (Rle_refl _)). specialize (B (Rle_refl _)). lra. Qed.
Lemma faithful_number t v : is_finite v = true -> B2R v = t -> faithful t v.
Proof. intros A <-. split; [easy|]. tauto. Qed.
(** Exact results are points; others are not. *)
Lemma tight_exact t z : tightest (fun r => r = t) z -> (is_point t z <-> number F t) /\ ((exists r, is_point r z) <-> number F t).
Proof.
intros T. assert (O := tight_faithful t z T). destruct O as (W & Mt & O). destruct T as (_ & E & B).
assert (N : number F t -> is_point t z).
{ intros (w & Fw & Ew). apply single_point; [easy|]. intros r Hr. assert (I : included z (w, w)).
  { apply B; [right; exists t; apply mem_fin; lra || easy|]. intros s ->. apply mem_fin; lra || easy. }
  apply I in Hr. apply mem_fin in Hr; try easy. lra. }
assert (K : forall r, is_point r z -> number F t).
{ intros r P. exists (fst z). destruct P as (A & A' & C & D). split; [easy|]. rewrite C. symmetry. apply (point_mem r z); [|easy]. now split. }
split; split; try easy; [apply K|intros [r P]; now apply (K r)|intros H; exists t; now apply N].
Qed.
(** Inexact results are one unit in the last place wide. *)
Lemma format_in z r : bounded_rep z -> mem r z -> generic_format radix2 (fexp F) r -> number F r.
Proof.
intros Bz Hr G. destruct (range_round mode_NE r (rround mode_NE false r) (bounded_range r z Bz Hr) (rround_rnds _ _ _)) as [A C].
exists (rround mode_NE false r). split; [easy|]. rewrite C. apply round_generic; [apply valid_rnd_round_mode|easy].
Qed.
Lemma tight_ulp t z : tightest (fun r => r = t) z -> bounded_rep z -> ~ number F t -> B2R (snd z) - B2R (fst z) = ulp radix2 (fexp F) t.
Proof.
intros T Bz N. assert (O := tight_faithful t z T). destruct O as (W & Mt & O). destruct Bz as [Fl Fu].
assert (Bz : bounded_rep z) by now split.
destruct z as [l u]; cbn [fst snd] in *. assert (Mt' := Mt). apply mem_fin in Mt; try easy.
assert (NG : ~ generic_format radix2 (fexp F) t) by (intros G; apply N; now apply (format_in (l, u))).
assert (Ol : faithful t l) by (apply O; [easy|]; apply mem_fin; lra || easy). assert (Ou : faithful t u) by (apply O; [easy|]; apply mem_fin; lra || easy).
assert (DN : round radix2 (fexp F) Zfloor t = B2R l).
{ symmetry. apply (Rnd_DN_pt_unique (generic_format radix2 (fexp F)) t); [|apply round_DN_pt; typeclasses eauto].
  split; [apply B2R_format|]. split; [lra|]. intros g G Lg. destruct (Rle_or_lt g (B2R l)) as [K|K]; [easy|].
  destruct (format_in (l, u) g Bz) as (w & Fw & <-); [apply mem_fin; lra || easy|easy|]. now apply Ol. }
assert (UP : round radix2 (fexp F) Zceil t = B2R u).
{ symmetry. apply (Rnd_UP_pt_unique (generic_format radix2 (fexp F)) t); [|apply round_UP_pt; typeclasses eauto].
  split; [apply B2R_format|]. split; [lra|]. intros g G Lg. destruct (Rle_or_lt (B2R u) g) as [K|K]; [easy|].
  destruct (format_in (l, u) g Bz) as (w & Fw & <-); [apply mem_fin; lra || easy|easy|]. now apply Ou. }
rewrite <- UP, <- DN. rewrite round_UP_DN_ulp by (try typeclasses eauto; easy). ring.
Qed.
End Pt.

(** ** Tightest results of all functions *)
Lemma un_tight0 {F} (u : un) (x : itv F) : u <> u_tan -> wf x -> computes_tightest (un_bare u x) (image1 (un_dom u) (un_val u) x).
Proof.
intros N W. destruct u.
- exact (pos_tightest x W).
- exact (neg_tightest x W).
- exact (recip_tightest x W).
- exact (sqr_tightest x W).
- exact (sqrt_tightest x W).
- exact (abs_tightest x W).
- exact (exp_tightest x W).
- exact (exp2_tightest x W).
- exact (exp10_tightest x W).
- exact (log_tightest x W).
- exact (log2_tightest x W).
- exact (log10_tightest x W).
- exact (sin_tightest x W).
- exact (cos_tightest x W).
- now destruct N.
- exact (asin_tightest x W).
- exact (acos_tightest x W).
- exact (atan_tightest x W).
- exact (sinh_tightest x W).
- exact (cosh_tightest x W).
- exact (tanh_tightest x W).
- exact (asinh_tightest x W).
- exact (acosh_tightest x W).
- exact (atanh_tightest x W).
- exact (sign_tightest x W).
- exact (ceil_tightest x W).
- exact (floor_tightest x W).
- exact (trunc_tightest x W).
- exact (rte_tightest x W).
- exact (rta_tightest x W).
- exact (pown_tightest x k W).
Qed.
Lemma un_tight0_mixed T {F} (u : un) (x : itv F) : comparable T F -> u <> u_tan -> wf x -> computes_tightest (un_bare_mixed T u x) (image1 (un_dom u) (un_val u) x).
Proof.
intros C N W. destruct u.
- exact (C28.C28_pos T F x W).
- exact (C28.C28_neg T F x W).
- exact (C28.C28_recip T F x C W).
- exact (C28.C28_sqr T F x C W).
- exact (C28.C28_sqrt T F x C W).
- exact (C28.C28_abs T F x C W).
- exact (C28.C28_exp T F x C W).
- exact (C28.C28_exp2 T F x C W).
- exact (C28.C28_exp10 T F x C W).
- exact (C28.C28_log T F x C W).
- exact (C28.C28_log2 T F x C W).
- exact (C28.C28_log10 T F x C W).
- exact (C28.C28_sin T F x C W).
- exact (C28.C28_cos T F x C W).
- now destruct N.
- exact (C28.C28_asin T F x C W).
- exact (C28.C28_acos T F x C W).
- exact (C28.C28_atan T F x C W).
- exact (C28.C28_sinh T F x C W).
- exact (C28.C28_cosh T F x C W).
- exact (C28.C28_tanh T F x C W).
- exact (C28.C28_asinh T F x C W).
- exact (C28.C28_acosh T F x C W).
- exact (C28.C28_atanh T F x C W).
- exact (C28.C28_sign T F x C W).
- exact (C28.C28_ceil T F x C W).
- exact (C28.C28_floor T F x C W).
- exact (C28.C28_trunc T F x C W).
- exact (C28.C28_rte T F x C W).
- exact (C28.C28_rta T F x C W).
- exact (C28.C28_pown T F x k C W).
Qed.
Lemma bin_tight {F} (b : bin) (x y : itv F) : wf x -> wf y -> computes_tightest (bin_bare b x y) (image2 (bin_dom b) (bin_val b) x y).
Proof.
intros P Q. destruct b.
- exact (add_tightest x y P Q).
- exact (sub_tightest x y P Q).
- exact (mul_tightest x y P Q).
- exact (div_tightest x y P Q).
- exact (min_tightest x y P Q).
- exact (max_tightest x y P Q).
- exact (pow_tightest x y P Q).
- exact (atan2_tightest x y P Q).
Qed.
Lemma bin_tight_mixed T {F G} (b : bin) (x : itv F) (y : itv G) : comparable T F -> comparable T G -> comparable F G -> wf x -> wf y ->
  computes_tightest (bin_bare_mixed T b x y) (image2 (bin_dom b) (bin_val b) x y).
Proof.
intros C1 C2 C3 P Q. destruct b.
- exact (C28.C28_add T F G x y C1 C2 C3 P Q).
- exact (C28.C28_sub T F G x y C1 C2 C3 P Q).
- exact (C28.C28_mul T F G x y C1 C2 C3 P Q).
- exact (C28.C28_div T F G x y C1 C2 C3 P Q).
- exact (C28.C28_min T F G x y C1 C2 C3 P Q).
- exact (C28.C28_max T F G x y C1 C2 C3 P Q).
- exact (C28.C28_pow T F G x y C1 C2 C3 P Q).
- exact (C28.C28_atan2 T F G x y C1 C2 C3 P Q).
Qed.
Lemma un_tight {F} (u : un) (x : itv F) t : is_point t x -> un_dom u t -> (u = u_tan -> three F) -> computes_tightest (un_bare u x) (image1 (un_dom u) (un_val u) x).
Proof.
intros P D S. assert (W := point_wf t x P). assert (E : u = u_tan \/ u <> u_tan) by (destruct u; (now left) || (now right)). destruct E as [->|E]; [|now apply un_tight0].
apply (proj2 (C12.C12_tan_tightest F x (S eq_refl) W)). apply C12.C12_no_hidden; [easy|]. right. right. right. right. intros r Hr. apply (point_mem t x r P) in Hr. now subst r.
Qed.
Lemma un_tight_mixed T {F} (u : un) (x : itv F) t : comparable T F -> is_point t x -> un_dom u t -> (u = u_tan -> three (pmax T F)) ->
  computes_tightest (un_bare_mixed T u x) (image1 (un_dom u) (un_val u) x).
Proof.
intros C P D S. assert (W := point_wf t x P). assert (E : u = u_tan \/ u <> u_tan) by (destruct u; (now left) || (now right)). destruct E as [->|E]; [|now apply un_tight0_mixed].
apply (proj2 (C28.C28_tan_tightest T F x C (S eq_refl) W)). intros (_ & (p & Hp & Kp) & _). apply (point_mem t x p P) in Hp. subst p. now apply D.
Qed.

(** ** At points *)
Lemma tight_ext {F} (S S' : R -> Prop) (z : itv F) : (forall r, S r <-> S' r) -> tightest S z -> tightest S' z.
Proof. intros E (A & B & C). split; [easy|]. split; [intros r Hr; apply B; now apply E|]. intros z' W K. apply C; [easy|]. intros r Hr. apply K. now apply E. Qed.
Lemma at1 {F T} (m : M (itv T)) (dm : R -> Prop) f (x : itv F) t : is_point t x -> dm t -> computes_tightest m (image1 dm f x) -> exists z, returns m z /\ tightest (fun r => r = f t) z.
Proof.
intros P D (z & Z & K). exists z. split; [easy|]. revert K. apply tight_ext. intros r. split.
- intros (s & Hs & _ & ->). apply (point_mem t x s P) in Hs. now subst s.
- intros ->. exists t. split; [now apply (point_mem t x t P)|easy].
Qed.
Lemma at2 {F G T} (m : M (itv T)) (dm : R -> R -> Prop) f (x : itv F) (y : itv G) t s : is_point t x -> is_point s y -> dm t s -> computes_tightest m (image2 dm f x y) ->
  exists z, returns m z /\ tightest (fun r => r = f t s) z.
Proof.
intros P Q D (z & Z & K). exists z. split; [easy|]. revert K. apply tight_ext. intros r. split.
- intros (a & b & Ha & Hb & _ & ->). apply (point_mem t x a P) in Ha. apply (point_mem s y b Q) in Hb. now subst a b.
- intros ->. exists t, s. split; [now apply (point_mem t x t P)|]. split; [now apply (point_mem s y s Q)|easy].
Qed.
Lemma at3 {F G H T} (m : M (itv T)) f (x : itv F) (y : itv G) (w : itv H) t s q : is_point t x -> is_point s y -> is_point q w -> computes_tightest m (image3 f x y w) ->
  exists z, returns m z /\ tightest (fun r => r = f t s q) z.
Proof.
intros P Q U (z & Z & K). exists z. split; [easy|]. revert K. apply tight_ext. intros r. split.
- intros (a & b & c & Ha & Hb & Hc & ->). apply (point_mem t x a P) in Ha. apply (point_mem s y b Q) in Hb. apply (point_mem q w c U) in Hc. now subst a b c.
- intros ->. exists t, s, q. split; [now apply (point_mem t x t P)|]. split; [now apply (point_mem s y s Q)|]. split; [now apply (point_mem q w q U)|easy].
Qed.
Lemma tight_sharp {F} t (z : itv F) : tightest (fun r => r = t) z -> sharp t z.
Proof. intros T. split; [now apply tight_faithful|]. split; [apply (tight_exact t z T)|now apply tight_ulp]. Qed.
Lemma gives_sharp {F} (m : M (itv F)) t : (exists z, returns m z /\ tightest (fun r => r = t) z) -> exists z, returns m z /\ sharp t z.
Proof. intros (z & A & B). exists z. split; [easy|now apply tight_sharp]. Qed.
Lemma pt_un {F} (u : un) (x : itv F) t : is_point t x -> un_dom u t -> (u = u_tan -> three F) -> exists z, returns (un_bare u x) z /\ sharp (un_val u t) z.
Proof. intros P D S. apply gives_sharp. apply (at1 _ (un_dom u) _ x); [easy..|]. now apply (un_tight u x t). Qed.
Lemma pt_un_mixed T {F} (u : un) (x : itv F) t : comparable T F -> is_point t x -> un_dom u t -> (u = u_tan -> three (pmax T F)) -> exists z, returns (un_bare_mixed T u x) z /\ sharp (un_val u t) z.
Proof. intros C P D S. apply gives_sharp. apply (at1 _ (un_dom u) _ x); [easy..|]. now apply (un_tight_mixed T u x t). Qed.
Lemma pt_bin {F} (b : bin) (x y : itv F) t s : is_point t x -> is_point s y -> bin_dom b t s -> exists z, returns (bin_bare b x y) z /\ sharp (bin_val b t s) z.
Proof. intros P Q D. apply gives_sharp. apply (at2 _ (bin_dom b) _ x y); [easy..|]. apply bin_tight; [now apply (point_wf t)|now apply (point_wf s)]. Qed.
Lemma pt_bin_mixed T {F G} (b : bin) (x : itv F) (y : itv G) t s : comparable T F -> comparable T G -> comparable F G -> is_point t x -> is_point s y -> bin_dom b t s ->
  exists z, returns (bin_bare_mixed T b x y) z /\ sharp (bin_val b t s) z.
Proof. intros C1 C2 C3 P Q D. apply gives_sharp. apply (at2 _ (bin_dom b) _ x y); [easy..|]. apply bin_tight_mixed; try easy; [now apply (point_wf t)|now apply (point_wf s)]. Qed.
Lemma pt_fma {F} (x y w : itv F) t s q : is_point t x -> is_point s y -> is_point q w -> exists z, returns (fma x y w) z /\ sharp (t * s + q) z.
Proof. intros P Q U. apply gives_sharp. apply (at3 _ (fun a b c => a * b + c) x y w); [easy..|]. apply fma_tightest; [now apply (point_wf t)|now apply (point_wf s)|now apply (point_wf q)]. Qed.
Lemma pt_fma_mixed T {F G H} (x : itv F) (y : itv G) (w : itv H) t s q : comparable T F -> comparable T G -> comparable F G -> comparable T H -> comparable F H -> comparable G H ->
  is_point t x -> is_point s y -> is_point q w -> exists z, returns (fma_mixed T x y w) z /\ sharp (t * s + q) z.
Proof.
intros C1 C2 C3 C4 C5 C6 P Q U. apply gives_sharp. apply (at3 _ (fun a b c => a * b + c) x y w); [easy..|]. apply C28.C28_fma; try easy; [now apply (point_wf t)|now apply (point_wf s)|now apply (point_wf q)].
Qed.
(** ** Exact expressions *)
Lemma exact_expr {vf : nat -> fmt} (X : ienv vf) (p : nat -> R) {F} (e : expr vf F) : (forall i, occurs i e = true -> is_point (p i) (X i)) -> typed e ->
  tan_types three e -> exact_at p e -> exists z, returns (beval X e) z /\ is_point (val p e) z.
Proof.
induction e as [i|F u a IHa|F b a IHa c IHc|F a IHa c IHc d IHd|T F u a IHa|T F G b a IHa c IHc|T F G H a IHa c IHc d IHd]; intros PT TY TF EX; cbn [typed tan_types exact_at val] in *.
- exists (X i). split; [easy|]. apply PT. cbn [occurs]. apply Nat.eqb_refl.
- destruct EX as (E1 & E2 & E3), TF as [TF1 TF2]. destruct (IHa PT TY TF1 E1) as (za & A1 & A2). destruct (pt_un u za _ A2 E2 TF2) as (z & Z & _ & (_ & Z2) & _).
  exists z. split; [now apply (ret_bind _ _ za)|now apply Z2].
- destruct EX as (E1 & E2 & E3 & E4), TY as [TY1 TY2], TF as [TF1 TF2].
  destruct IHa as (za & A1 & A2); [intros i Hi; apply PT; cbn [occurs]; now rewrite Hi|easy..|].
  destruct IHc as (zc & B1 & B2); [intros i Hi; apply PT; cbn [occurs]; rewrite Hi; apply orb_true_r|easy..|].
  destruct (pt_bin b za zc _ _ A2 B2 E3) as (z & Z & _ & (_ & Z2) & _). exists z. split; [apply (ret_bind _ _ za); [easy|]; now apply (ret_bind _ _ zc)|now apply Z2].
- destruct EX as (E1 & E2 & E3 & E4), TY as (TY1 & TY2 & TY3), TF as (TF1 & TF2 & TF3).
  destruct IHa as (za & A1 & A2); [intros i Hi; apply PT; cbn [occurs]; now rewrite Hi|easy..|].
  destruct IHc as (zc & B1 & B2); [intros i Hi; apply PT; cbn [occurs]; rewrite Hi; now rewrite orb_true_r|easy..|].
  destruct IHd as (zd & D1 & D2); [intros i Hi; apply PT; cbn [occurs]; rewrite Hi; apply orb_true_r|easy..|].
  destruct (pt_fma za zc zd _ _ _ A2 B2 D2) as (z & Z & _ & (_ & Z2) & _). exists z. split; [apply (ret_bind _ _ za); [easy|]; apply (ret_bind _ _ zc); [easy|]; now apply (ret_bind _ _ zd)|now apply Z2].
- destruct EX as (E1 & E2 & E3), TY as [TY1 C], TF as [TF1 TF2]. destruct (IHa PT TY1 TF1 E1) as (za & A1 & A2). destruct (pt_un_mixed T u za _ C A2 E2 TF2) as (z & Z & _ & (_ & Z2) & _).
  exists z. split; [now apply (ret_bind _ _ za)|now apply Z2].
- destruct EX as (E1 & E2 & E3 & E4), TY as (TY1 & TY2 & C1 & C2 & C3), TF as [TF1 TF2].
  destruct IHa as (za & A1 & A2); [intros i Hi; apply PT; cbn [occurs]; now rewrite Hi|easy..|].
  destruct IHc as (zc & B1 & B2); [intros i Hi; apply PT; cbn [occurs]; rewrite Hi; apply orb_true_r|easy..|].
  destruct (pt_bin_mixed T b za zc _ _ C1 C2 C3 A2 B2 E3) as (z & Z & _ & (_ & Z2) & _). exists z. split; [apply (ret_bind _ _ za); [easy|]; now apply (ret_bind _ _ zc)|now apply Z2].
- destruct EX as (E1 & E2 & E3 & E4), TY as (TY1 & TY2 & TY3 & C1 & C2 & C3 & C4 & C5 & C6), TF as (TF1 & TF2 & TF3).
  destruct IHa as (za & A1 & A2); [intros i Hi; apply PT; cbn [occurs]; now rewrite Hi|easy..|].
  destruct IHc as (zc & B1 & B2); [intros i Hi; apply PT; cbn [occurs]; rewrite Hi; now rewrite orb_true_r|easy..|].
  destruct IHd as (zd & D1 & D2); [intros i Hi; apply PT; cbn [occurs]; rewrite Hi; apply orb_true_r|easy..|].
  destruct (pt_fma_mixed T za zc zd _ _ _ C1 C2 C3 C4 C5 C6 A2 B2 D2) as (z & Z & _ & (_ & Z2) & _).
  exists z. split; [apply (ret_bind _ _ za); [easy|]; apply (ret_bind _ _ zc); [easy|]; now apply (ret_bind _ _ zd)|now apply Z2].
Qed.
(** ** Decorated *)
Lemma dpt_un {F} (u : un) (x : ditv F) t : proper x -> is_point t (fst x) -> un_dom u t -> (u = u_tan -> three F) -> exists z, returns (un_decd u x) z /\ sharp (un_val u t) (fst z).
Proof.
intros P Q D S. destruct (un_tot u x P) as (z & Z1 & _ & Z2). destruct (pt_un u (fst x) t Q D S) as (z' & Z3 & K). exists z. split; [easy|]. now rewrite (returns_same _ _ _ Z2 Z3).
Qed.
Lemma dpt_un_mixed T {F} (u : un) (x : ditv F) t : comparable T F -> proper x -> is_point t (fst x) -> un_dom u t -> (u = u_tan -> three (pmax T F)) ->
  exists z, returns (un_decd_mixed T u x) z /\ sharp (un_val u t) (fst z).
Proof.
intros C P Q D S. destruct (un_tot_mixed T u x C P) as (z & Z1 & _ & Z2). destruct (pt_un_mixed T u (fst x) t C Q D S) as (z' & Z3 & K). exists z. split; [easy|]. now rewrite (returns_same _ _ _ Z2 Z3).
Qed.
Lemma dpt_bin {F} (b : bin) (x y : ditv F) t s : proper x -> proper y -> is_point t (fst x) -> is_point s (fst y) -> bin_dom b t s ->
  exists z, returns (bin_decd b x y) z /\ sharp (bin_val b t s) (fst z).
Proof.
intros P P' Q Q' D. destruct (bin_node b x y P P') as (z & Z1 & _ & Z2 & _). destruct (pt_bin b (fst x) (fst y) t s Q Q' D) as (z' & Z3 & K). exists z. split; [easy|]. now rewrite (returns_same _ _ _ Z2 Z3).
Qed.
Lemma dpt_bin_mixed T {F G} (b : bin) (x : ditv F) (y : ditv G) t s : comparable T F -> comparable T G -> comparable F G -> proper x -> proper y ->
  is_point t (fst x) -> is_point s (fst y) -> bin_dom b t s -> exists z, returns (bin_decd_mixed T b x y) z /\ sharp (bin_val b t s) (fst z).
Proof.
intros C1 C2 C3 P P' Q Q' D. destruct (bin_node_mixed T b x y C1 C2 C3 P P') as (z & Z1 & _ & Z2 & _). destruct (pt_bin_mixed T b (fst x) (fst y) t s C1 C2 C3 Q Q' D) as (z' & Z3 & K).
exists z. split; [easy|]. now rewrite (returns_same _ _ _ Z2 Z3).
Qed.
Lemma exact_expr_dec {vf : nat -> fmt} (I : denv vf) (p : nat -> R) {F} (e : expr vf F) : (forall i, occurs i e = true -> proper (I i) /\ is_point (p i) (fst (I i))) -> typed e ->
  tan_types three e -> exact_at p e -> exists z, returns (deval I e) z /\ is_point (val p e) (fst z).
Proof.
intros PT TY TF EX. destruct (total I e) as (z & Z1 & _ & Z2); [intros i O; now apply PT|easy|].
destruct (exact_expr (parts I) p e) as (z' & Z3 & K); [intros i O; now apply PT|easy..|]. exists z. split; [easy|]. now rewrite (returns_same _ _ _ Z2 Z3).
Qed.
