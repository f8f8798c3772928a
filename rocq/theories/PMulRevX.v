(** * Proofs: exactly what reverse multiplication computes *)
From Coq Require Import ZArith NArith Reals Bool Lia Lra Psatz List.
From Flocq Require Import Core.Core Calc.Operations IEEE754.BinarySingleNaN.
From Verif Require Import Fmt Spec FloatFacts Exc Deco SpecApi SpecNum MBase PBase MBool MArith PArith PMul PFma PDiv PUnary
  PConv PBool PSetop PDec MNum PNumF MRev SpecRev SpecMulRev PRev PMulRev PIso PMixed MMixed PRevW.
Local Open Scope R_scope.

Section X.
Context {F : fmt}.
Implicit Types l u : float F.
Implicit Types b c x y z : itv F.

(** A clipped branch lies in every interval around the clipped set and zero. *)
Lemma trim_in B I z tl tu x z' : branch B I z tl tu -> wf x -> wf z' ->
  (forall r, I r /\ mem r x -> mem r z') -> mem 0 z' -> forall r, mem r (trim z tl tu x) -> mem r x -> mem r z'.
Proof.
intros H Wx Wz' Ez' Z0 r Mz Mx.
destruct (trim_cases _ _ _ _ _ _ H Wx) as [(T & T1 & T2)|[T K]]; rewrite T in Mz; [|now destruct Mz as [[] _]].
destruct H as (C & (i0 & Ni) & (G1 & L1 & L2) & (G2 & U1 & U2)).
destruct (Req_dec r 0) as [->|Q0]; [easy|].
destruct (Classical_Prop.classic (I r)) as [Ir|Nr]. { now apply Ez'. }
destruct (Classical_Prop.classic (exists i, I i /\ i <= r)) as [(i & Ii & Hi)|Hlow].
- (* r is above I *)
  assert (Hab : forall j, I j -> j < r).
  { intros j Ij. destruct (Rlt_or_le j r) as [L|L]; [easy|]. destruct Nr. now apply (C i j r). }
  assert (K : exists j, I j /\ lb (fst x) j).
  { apply Classical_Prop.NNPP. intros NK.
    assert (Fx : is_finite (fst x) = true).
    { destruct Mx as [Mx _]. destruct (fst x) as [|[]| |] eqn:Ex; simpl in Mx; try easy.
      destruct NK. exists i0. split; [easy|reflexivity]. }
    assert (Q : forall j, I j -> ub (fst x) j).
    { intros j Ij. rewrite ub_fin by easy. apply Rnot_lt_le. intros L. apply NK. exists j. split; [easy|].
      rewrite lb_fin by easy. lra. }
    pose proof (proj2 G2 (fst x) Q r (proj2 Mz)) as Hr. rewrite ub_fin in Hr by easy.
    destruct Mx as [Mx _]. rewrite lb_fin in Mx by easy.
    destruct (gupp_view _ _ _ G2 Ni) as [E|E].
    { pose proof (proj2 G2 (fst x) Q (B2R (fst x) + 1)) as Q'. rewrite E in Q'. specialize (Q' eq_refl).
      rewrite ub_fin in Q' by easy. lra. }
    pose proof (proj2 G2 (fst x) Q (B2R (snd z))) as Q'. rewrite !ub_fin in Q' by easy. specialize (Q' (Rle_refl _)).
    destruct Mz as [_ Mz]. rewrite ub_fin in Mz by easy.
    destruct tu.
    - apply T1. split; [|easy]. rewrite feq_fin by easy. apply Req_bool_true. lra.
    - destruct (Req_dec (B2R (snd z)) 0) as [E0|E0].
      + apply Q0. lra.
      + pose proof (Hab _ (U2 (or_intror E0) eq_refl E)). lra. }
  destruct K as (j & Ij & Hj).
  assert (Mj : mem j x). { split; [easy|]. apply ub_mono with r; [apply Mx|]. pose proof (Hab j Ij). lra. }
  pose proof (Ez' j (conj Ij Mj)) as Zj. split.
  + apply lb_mono with j; [apply Zj|]. pose proof (Hab j Ij). lra.
  + apply (proj2 G2); [|apply Mz]. intros k Ik.
    destruct (Rlt_or_le k j) as [L|L]; [apply ub_mono with j; [apply Zj|lra]|].
    apply Ez'. split; [easy|]. split; [now apply lb_mono with j|].
    apply ub_mono with r; [apply Mx|]. pose proof (Hab k Ik). lra.
- assert (Hab : forall j, I j -> r < j).
  { intros j Ij. destruct (Rlt_or_le r j) as [L|L]; [easy|]. destruct Hlow. now exists j. }
  assert (K : exists j, I j /\ ub (snd x) j).
  { apply Classical_Prop.NNPP. intros NK.
    assert (Fx : is_finite (snd x) = true).
    { destruct Mx as [_ Mx]. destruct (snd x) as [|[]| |] eqn:Ex; simpl in Mx; try easy.
      destruct NK. exists i0. split; [easy|reflexivity]. }
    assert (Q : forall j, I j -> lb (snd x) j).
    { intros j Ij. rewrite lb_fin by easy. apply Rnot_lt_le. intros L. apply NK. exists j. split; [easy|].
      rewrite ub_fin by easy. lra. }
    pose proof (proj2 G1 (snd x) Q r (proj1 Mz)) as Hr. rewrite lb_fin in Hr by easy.
    destruct Mx as [_ Mx]. rewrite ub_fin in Mx by easy.
    destruct (glow_view _ _ _ G1 Ni) as [E|E].
    { pose proof (proj2 G1 (snd x) Q (B2R (snd x) - 1)) as Q'. rewrite E in Q'. specialize (Q' eq_refl).
      rewrite lb_fin in Q' by easy. lra. }
    pose proof (proj2 G1 (snd x) Q (B2R (fst z))) as Q'. rewrite !lb_fin in Q' by easy. specialize (Q' (Rle_refl _)).
    destruct Mz as [Mz _]. rewrite lb_fin in Mz by easy.
    destruct tl.
    - apply T2. split; [|easy]. rewrite feq_fin by easy. apply Req_bool_true. lra.
    - destruct (Req_dec (B2R (fst z)) 0) as [E0|E0].
      + apply Q0. lra.
      + pose proof (Hab _ (L2 (or_intror E0) eq_refl E)). lra. }
  destruct K as (j & Ij & Hj).
  assert (Mj : mem j x). { split; [|easy]. apply lb_mono with r; [apply Mx|]. pose proof (Hab j Ij). lra. }
  pose proof (Ez' j (conj Ij Mj)) as Zj. split.
  + apply (proj2 G1); [|apply Mz]. intros k Ik.
    destruct (Rlt_or_le j k) as [L|L]; [apply lb_mono with j; [apply Zj|lra]|].
    apply Ez'. split; [easy|]. split; [|now apply ub_mono with j].
    apply lb_mono with r; [apply Mx|]. pose proof (Hab k Ik). lra.
  + apply ub_mono with j; [apply Zj|]. pose proof (Hab j Ij). lra.
Qed.


Definition zero l : Prop := is_finite l = true /\ B2R l = 0.
(** The side on which the branch approaches zero is reported as exact. *)
Definition touch (p : @pair_t F) : Prop :=
  (zero (fst (p_first p)) /\ t_fl p = false) \/ (zero (snd (p_first p)) /\ t_fu p = false) \/
  (zero (fst (p_second p)) /\ t_sl p = false) \/ (zero (snd (p_second p)) /\ t_su p = false).

Ltac mm := split; cbn [fst snd]; rewrite ?lb_fin, ?ub_fin by fin; rewrite ?B2R_f0; try reflexivity; try lra.
Lemma pair_touch b c : wf b -> wf c -> isnan (fst b) = false -> isnan (fst c) = false -> ~ bounded_rep b -> ~ mem 0 c ->
  exists p, mul_rev_to_pair_t b c = ret p /\ touch p.
Proof.
intros Wb Wc Eb Ec Ub N0. unfold mul_rev_to_pair_t. vred.
destruct (is_member_f0 b Wb) as (vb & Eb0 & Mb). rewrite Eb0.
destruct (is_member_f0 c Wc) as (vc & Ec0 & Mc). rewrite Ec0. vred.
assert (vc = false) as -> by (destruct vc; [now destruct N0; apply Mc|easy]).
clear Eb0 Mb Ec0 Mc. rewrite ?Eb, ?Ec. vred.
apply wf_view in Wb. apply wf_view in Wc. revert Ub N0.
destruct Wc as [ | |cu Fcu|cl Fcl|cl cu Fcl Fcu Hc]; try discriminate; cbn [fst snd] in *.
all: destruct Wb as [ | |bu Fbu|bl Fbl|bl bu Fbl Fbu Hb]; try discriminate; cbn [fst snd] in *; intros Ub N0; unfold bounded_rep in Ub; cbn [fst snd] in Ub; try tauto.
all: fcmp; rewrite ?B2R_f0; repeat rcase; try solve [exfalso; apply N0; mm]; try lra.
all: eexists; (split; [reflexivity|]); unfold touch, zero, both, MRev.split, above, MRev.below, one, divd, divu; cbn [fst snd p_first p_second t_fl t_fu t_sl t_su].
all: try solve [first
  [ left; split; [now apply rdiv_inf_r|apply div_inexact_inf; now right]
  | right; left; split; [now apply rdiv_inf_r|apply div_inexact_inf; now right]
  | right; right; left; split; [now apply rdiv_inf_r|apply div_inexact_inf; now right]
  | right; right; right; split; [now apply rdiv_inf_r|apply div_inexact_inf; now right] ]].
Qed.

Lemma unlimited_rep b : wf b -> isnan (fst b) = false -> (unlimited b <-> ~ bounded_rep b).
Proof.
intros Wb Eb. apply wf_view in Wb. unfold bounded_rep.
destruct Wb as [ | |u Fu|l Fl|l u Fl Fu H]; try discriminate; cbn [fst snd] in *.
- split; [now intros _ []|]. intros _ B. exists (Rabs B + 1). split; [easy|]. rewrite (Rabs_pos_eq (Rabs B + 1)); pose proof (Rle_abs B); pose proof (Rabs_pos B); lra.
- split; [now intros _ []|]. intros _ B. exists (- (Rabs B + Rabs (B2R u) + 1)).
  pose proof (Rle_abs B). pose proof (Rle_abs (- B2R u)) as Q. rewrite Rabs_Ropp in Q. pose proof (Rabs_pos B). pose proof (Rabs_pos (B2R u)). split.
  + split; cbn [fst snd]; [easy|]. rewrite ub_fin by easy. lra.
  + rewrite Rabs_Ropp, Rabs_pos_eq; lra.
- split; [now intros _ []|]. intros _ B. exists (Rabs B + Rabs (B2R l) + 1).
  pose proof (Rle_abs B). pose proof (Rle_abs (B2R l)) as Q. pose proof (Rabs_pos B). pose proof (Rabs_pos (B2R l)). split.
  + split; cbn [fst snd]; [|easy]. rewrite lb_fin by easy. lra.
  + rewrite Rabs_pos_eq; lra.
- split; [|tauto]. intros H' _. destruct (H' (Rmax (Rabs (B2R l)) (Rabs (B2R u)))) as (s & [M1 M2] & L).
  cbn [fst snd] in *. rewrite lb_fin in M1 by easy. rewrite ub_fin in M2 by easy.
  pose proof (Rmax_l (Rabs (B2R l)) (Rabs (B2R u))). pose proof (Rmax_r (Rabs (B2R l)) (Rabs (B2R u))).
  revert L H0 H1. unfold Rabs. repeat destruct Rcase_abs; lra.
Qed.

(** Nothing is clipped at a side reported as exact. *)
Lemma trim_touch B (I : R -> Prop) z tl tu x : branch B I z tl tu -> ~ I 0 -> mem 0 x ->
  (zero (fst z) /\ tl = false) \/ (zero (snd z) /\ tu = false) -> mem 0 (trim z tl tu x).
Proof.
intros H N0 [Mx1 Mx2] T. pose proof (branch_tightest _ _ _ _ _ H) as (_ & Ez & _).
destruct H as (_ & (i & Ii) & _ & _). pose proof (Ez i Ii) as [M1 M2].
assert (Ni : i <> 0) by (intros ->; easy).
assert (K : mem 0 z /\ (feq (snd z) (fst x) && tu) || (feq (snd x) (fst z) && tl) = false).
{ destruct T as [[[Fz Zz] ->]|[[Fz Zz] ->]].
  - rewrite lb_fin in M1 by easy. rewrite andb_false_r, orb_false_r.
    split; [split; [rewrite lb_fin by easy; lra|apply ub_mono with i; [easy|lra]]|].
    destruct tu; [|apply andb_false_r]. rewrite andb_true_r.
    destruct (is_finite (fst x)) eqn:Fx.
    + destruct (is_finite (snd z)) eqn:Fu.
      * rewrite feq_fin by easy. apply Req_bool_false. rewrite ub_fin in M2 by easy. rewrite lb_fin in Mx1 by easy. lra.
      * destruct (snd z) as [|[]| |], (fst x) as [|[]| |[]]; easy.
    + destruct (fst x) as [|[]| |], (snd z) as [|[]| |[]]; easy.
  - rewrite ub_fin in M2 by easy. rewrite andb_false_r. cbn [orb].
    split; [split; [apply lb_mono with i; [easy|lra]|rewrite ub_fin by easy; lra]|].
    destruct tl; [|apply andb_false_r]. rewrite andb_true_r.
    destruct (is_finite (snd x)) eqn:Fx.
    + destruct (is_finite (fst z)) eqn:Fu.
      * rewrite feq_fin by easy. apply Req_bool_false. rewrite lb_fin in M1 by easy. rewrite ub_fin in Mx2 by easy. lra.
      * destruct (fst z) as [|[]| |], (snd x) as [|[]| |[]]; easy.
    + destruct (snd x) as [|[]| |], (fst z) as [|[]| |[]]; easy. }
destruct K as [K1 K2]. unfold trim. now rewrite K2.
Qed.

Lemma ct_ext (m : M (itv F)) (S S' : R -> Prop) : (forall r, S r <-> S' r) -> computes_tightest m S -> computes_tightest m S'.
Proof.
intros E (z & H & W & A & B). exists z. split; [easy|]. split; [easy|]. split.
- intros r Hr. apply A. now apply E.
- intros z' Wz Ez. apply B; [easy|]. intros r Hr. apply Ez. now apply E.
Qed.

Lemma mul_rev_exact b c x : wf b -> wf c -> wf x ->
  computes_tightest (mul_rev b c x) (fun t => rev_mul_lim b c t /\ mem t x).
Proof.
intros Wb Wc Wx.
destruct (Classical_Prop.classic (forall t, ~ rev_mul_lim b c t)) as [N|N].
{ unfold mul_rev. vred. destruct (pair_main b c Wb Wc) as (p & -> & Sp). mreds.
  assert (E : p_first p = empty /\ p_second p = empty).
  { destruct Sp as [(_ & (_ & (r & Hr & _) & _) & _)|(_ & E2 & [(_ & (r & Hr) & _)|[_ E]])]; [| |now split];
    exfalso; apply (N r); now left. }
  destruct E as [-> ->]. rewrite !trim_empty.
  apply hull_of_tight with (fun t : R => False /\ mem t x) (fun t : R => False /\ mem t x); try easy; try now left.
  - intros y Wy Ey. now apply empty_tight.
  - intros y Wy Ey. now apply empty_tight.
  - intros r. split; [intros [H _]; now apply N in H|tauto]. }
apply Classical_Pred_Type.not_all_not_ex in N. destruct N as [t0 T0].
assert (NE : (exists s, mem s b) /\ exists r, mem r c).
{ destruct T0 as [(s & H1 & H2)|(_ & H1 & H2)]; [split; eauto|]. split; [|easy]. destruct (H1 0) as (s & H & _). eauto. }
destruct NE as [[sb Hsb] [rc Hrc]].
assert (Eb : isnan (fst b) = false). { destruct Hsb as [Hsb _]. now destruct (fst b) as [|[]| |]. }
assert (Ec : isnan (fst c) = false). { destruct Hrc as [Hrc _]. now destruct (fst c) as [|[]| |]. }
destruct (Classical_Prop.classic (unlimited b /\ mem 0 x)) as [[Ub M0]|NU].
2:{ apply ct_ext with (fun t => rev_mul b c t /\ mem t x).
    { intros r. split; [intros [H1 H2]; split; [now left|easy]|].
      intros [[H|(-> & H & _)] H2]; [easy|]. now destruct NU. }
    apply mul_rev_tight; try easy.
    destruct (Classical_Prop.classic (bounded_rep b)) as [B|B]; [now left|right].
    assert (Mx : ~ mem 0 x) by (intros Mx; apply NU; split; [now apply unlimited_rep|easy]).
    destruct Wx as [->|[r [R1 R2]]]; [now split|]. split; intros Fx Zx; apply Mx.
    - split; [rewrite lb_fin by easy; lra|]. rewrite lb_fin in R1 by easy. apply ub_mono with r; [easy|lra].
    - split; [|rewrite ub_fin by easy; lra]. rewrite ub_fin in R2 by easy. apply lb_mono with r; [easy|lra]. }
destruct (mul_rev_encl b c x Wb Wc Wx) as (w & Hw & Ww & Ew).
exists w. split; [easy|]. split; [easy|].
unfold mul_rev in Hw. destruct (pair_main b c Wb Wc) as (p & Ep & Sp).
assert (Hw' : returns (hull_of (trim (p_first p) (t_fl p) (t_fu p) x) (trim (p_second p) (t_sl p) (t_su p) x) x) w).
{ revert Hw. vred. rewrite Ep. now mreds. }
clear Hw. unfold hull_of in Hw'.
assert (W1 : wf (trim (p_first p) (t_fl p) (t_fu p) x)).
{ destruct Sp as [(T & B1 & B2)|(T & E2 & [B1|[_ E1]])]; [now apply (trim_encloses _ _ _ _ _ x B1 Wx)|now apply (trim_encloses _ _ _ _ _ x B1 Wx)|].
  rewrite E1, trim_empty. now left. }
assert (W2 : wf (trim (p_second p) (t_sl p) (t_su p) x)).
{ destruct Sp as [(T & B1 & B2)|(T & E2 & _)]; [now apply (trim_encloses _ _ _ _ _ x B2 Wx)|].
  rewrite E2, trim_empty. now left. }
destruct (intersection_exact _ x W1 Wx) as (i & Hi & Wi & Ei).
destruct (intersection_exact _ x W2 Wx) as (j & Hj & Wj & Ej).
destruct (hull_tightest i j Wi Wj) as (w' & Hw & _ & Ei' & Mw).
assert (w' = w) as ->.
{ revert Hw'. rewrite Hi, Hj. mreds. intros Hw'. now apply (returns_same _ _ _ Hw Hw'). }
split.
- intros r [[Hr|(-> & _ & _)] Mr]; [now apply Ew|].
  destruct (Classical_Prop.classic (rev_mul b c 0)) as [R0|R0]; [now apply Ew|].
  assert (C0 : ~ mem 0 c). { intros C0. apply R0. exists sb. split; [easy|]. now rewrite Rmult_0_r. }
  destruct (pair_touch b c Wb Wc Eb Ec) as (q & Eq & Tq); [now apply unlimited_rep|easy|].
  assert (q = p) as ->.
  { apply (returns_same (mul_rev_to_pair_t b c)); [rewrite Eq|rewrite Ep]; now apply returns_eq. }
  assert (Q : mem 0 (trim (p_first p) (t_fl p) (t_fu p) x) \/ mem 0 (trim (p_second p) (t_sl p) (t_su p) x)).
  { destruct Sp as [(T & B1 & B2)|(T & E2 & [B1|[N1 E1]])].
    - destruct Tq as [Tq|[Tq|[Tq|Tq]]].
      + left. apply (trim_touch _ _ _ _ _ _ B1); [intros [_ ?]; lra|easy|now left].
      + left. apply (trim_touch _ _ _ _ _ _ B1); [intros [_ ?]; lra|easy|now right].
      + right. apply (trim_touch _ _ _ _ _ _ B2); [intros [_ ?]; lra|easy|now left].
      + right. apply (trim_touch _ _ _ _ _ _ B2); [intros [_ ?]; lra|easy|now right].
    - left. unfold touch in Tq. rewrite E2 in Tq. destruct Tq as [Tq|[Tq|[[[Tq _] _]|[[Tq _] _]]]]; try discriminate.
      + apply (trim_touch _ _ _ _ _ _ B1); [easy|easy|now left].
      + apply (trim_touch _ _ _ _ _ _ B1); [easy|easy|now right].
    - unfold touch in Tq. rewrite E1, E2 in Tq. destruct Tq as [[[Tq _] _]|[[[Tq _] _]|[[[Tq _] _]|[[Tq _] _]]]]; discriminate. }
  apply Ei'. destruct Q as [Q|Q]; [left; now apply Ei|right; now apply Ej].
- intros z' Wz Ez. apply Mw; [easy|].
  assert (Z0 : mem 0 z'). { apply Ez. split; [|easy]. right. split; [easy|]. split; [easy|]. now exists rc. }
  intros r [Hr|Hr].
  + apply Ei in Hr. destruct Hr as [H1 H2].
    destruct Sp as [(T & B1 & B2)|(T & E2 & [B1|[N1 E1]])].
    * apply (trim_in _ _ _ _ _ x z' B1); try easy. intros k [[Hk _] Mk]. apply Ez. split; [now left|easy].
    * apply (trim_in _ _ _ _ _ x z' B1); try easy. intros k [Hk Mk]. apply Ez. split; [now left|easy].
    * rewrite E1, trim_empty in H1. now destruct H1 as [[] _].
  + apply Ej in Hr. destruct Hr as [H1 H2].
    destruct Sp as [(T & B1 & B2)|(T & E2 & _)].
    * apply (trim_in _ _ _ _ _ x z' B2); try easy. intros k [[Hk _] Mk]. apply Ez. split; [now left|easy].
    * rewrite E2, trim_empty in H1. now destruct H1 as [[] _].
Qed.
End X.

Lemma rev_mul_lim_ext {F G W} (b : itv F) (c : itv G) (b' c' : itv W) :
  (forall r, mem r b' <-> mem r b) -> (forall r, mem r c' <-> mem r c) -> forall t, rev_mul_lim b' c' t <-> rev_mul_lim b c t.
Proof.
intros Hb Hc t. unfold rev_mul_lim, unlimited. rewrite (rev_mul_ext b c b' c' Hb Hc t). split; (intros [H|(H1 & H2 & r & H3)]; [now left|right]).
- split; [easy|]. split; [|exists r; now apply Hc]. intros B. destruct (H2 B) as (s & Hs & L). exists s. split; [now apply Hb|easy].
- split; [easy|]. split; [|exists r; now apply Hc]. intros B. destruct (H2 B) as (s & Hs & L). exists s. split; [now apply Hb|easy].
Qed.

Lemma mul_rev_mixed_exact {F G H} T (b : itv F) (c : itv G) (x : itv H) :
  comparable T F -> comparable T G -> comparable F G -> comparable T H -> comparable F H -> comparable G H ->
  wf b -> wf c -> wf x ->
  computes_tightest (mul_rev_mixed T b c x) (fun t => rev_mul_lim b c t /\ mem t x).
Proof.
intros C1 C2 C3 C4 C5 C6 Wb Wc Wx. destruct (within_pmax4 T F G H C1 C2 C3 C4 C5 C6) as (A & B & C & D).
set (W := pmax (pmax (pmax T F) G) H) in *.
destruct (mul_rev_exact (convert_hull W b) (convert_hull W c) (convert_hull W x) (wf_convert_hull W b Wb) (wf_convert_hull W c Wc)
  (wf_convert_hull W x Wx)) as (z & H1 & H2).
exists (convert_hull T z). split.
- apply returns_eq. apply mixed3_ret; try easy. now apply returns_eq.
- apply tightest_narrow; [easy|]. revert H2. apply tightest_ext. intros t.
  rewrite (convert_hull_exact W x D Wx). now rewrite (rev_mul_lim_ext b c _ _ (convert_hull_exact W b B Wb) (convert_hull_exact W c C Wc)).
Qed.
Lemma mul_rev_dec_exact {F} (b c x : ditv F) : wf_dec b -> snd b <> ill -> wf_dec c -> snd c <> ill -> wf_dec x -> snd x <> ill ->
  gives (mul_rev_dec b c x) (with_trv (tightest (fun t => rev_mul_lim (fst b) (fst c) t /\ mem t (fst x)))).
Proof.
intros Wb Nb Wc Nc Wx Nx. apply (rev_dec3_ok mul_rev _ b c x Wb Nb Wc Nc Wx Nx (tightest_wf _)).
apply mul_rev_exact; now apply wf_dec_wf.
Qed.
Lemma mul_rev_dec_mixed_exact {F G H} T (b : ditv F) (c : ditv G) (x : ditv H) :
  comparable T F -> comparable T G -> comparable F G -> comparable T H -> comparable F H -> comparable G H ->
  wf_dec b -> snd b <> ill -> wf_dec c -> snd c <> ill -> wf_dec x -> snd x <> ill ->
  gives (mul_rev_dec_mixed T b c x) (with_trv (tightest (fun t => rev_mul_lim (fst b) (fst c) t /\ mem t (fst x)))).
Proof.
intros C1 C2 C3 C4 C5 C6 Wb Nb Wc Nc Wx Nx. apply (rev_dec3_ok (mul_rev_mixed T) _ b c x Wb Nb Wc Nc Wx Nx (tightest_wf _)).
apply mul_rev_mixed_exact; try easy; now apply wf_dec_wf.
Qed.

(** Exactly when zero is one too many. *)
Lemma lim_iff {T F G H} (m : M (itv T)) (b : itv F) (c : itv G) (x : itv H) :
  computes_tightest m (fun t => rev_mul_lim b c t /\ mem t x) ->
  (computes_tightest m (fun t => rev_mul b c t /\ mem t x) <->
   ~ (unlimited b /\ (exists r, mem r c) /\ mem 0 x /\
      exists y : itv T, wf y /\ (forall t, rev_mul b c t -> mem t x -> mem t y) /\ ~ mem 0 y)).
Proof.
intros (z & H1 & W & E & M). split.
- intros (z2 & K1 & K2 & K3 & K4) (U & C & X & y & Y1 & Y2 & Y3).
  rewrite (returns_same _ _ _ K1 H1) in K4. apply Y3. apply (K4 y Y1).
  + intros t [T1 T2]. auto.
  + apply E. split; [|easy]. right. auto.
- intros N. exists z. split; [easy|]. split; [easy|]. split.
  + intros t [T1 T2]. apply E. split; [now left|easy].
  + intros z' Wz Ez. apply M; [easy|]. intros t [[T1|(-> & T2 & T3)] T4]; [now apply Ez|].
    apply Classical_Prop.NNPP. intros Nz. apply N. split; [easy|]. split; [easy|]. split; [easy|].
    exists z'. split; [easy|]. split; [|easy]. intros t S1 S2. now apply Ez.
Qed.
Lemma mul_rev_tight_iff {F} (b c x : itv F) : wf b -> wf c -> wf x ->
  (computes_tightest (mul_rev b c x) (fun t => rev_mul b c t /\ mem t x) <->
   ~ (unlimited b /\ (exists r, mem r c) /\ mem 0 x /\
      exists y : itv F, wf y /\ (forall t, rev_mul b c t -> mem t x -> mem t y) /\ ~ mem 0 y)).
Proof. intros Wb Wc Wx. now apply lim_iff, mul_rev_exact. Qed.
Lemma mul_rev_mixed_tight_iff {F G H} T (b : itv F) (c : itv G) (x : itv H) :
  comparable T F -> comparable T G -> comparable F G -> comparable T H -> comparable F H -> comparable G H ->
  wf b -> wf c -> wf x ->
  (computes_tightest (mul_rev_mixed T b c x) (fun t => rev_mul b c t /\ mem t x) <->
   ~ (unlimited b /\ (exists r, mem r c) /\ mem 0 x /\
      exists y : itv T, wf y /\ (forall t, rev_mul b c t -> mem t x -> mem t y) /\ ~ mem 0 y)).
Proof. intros C1 C2 C3 C4 C5 C6 Wb Wc Wx. now apply lim_iff, mul_rev_mixed_exact. Qed.
