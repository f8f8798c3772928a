(** * Proofs: the reverse trigonometric functions return when the argument interval is modest *)
From Coq Require Import ZArith NArith Reals Bool Lia Lra Psatz List.
From Flocq Require Import Core.Core Core.FTZ IEEE754.BinarySingleNaN.
From Verif Require Import Fmt Spec FloatFacts Exc Deco SpecApi SpecElem SpecNum MBase PBase MBool MArith PArith PMul PUnary
  PConv PBool PSetop PElem MTrig PTrigR PTrig PTan PTrigT PDec PDecF PNum MRev SpecRev PRev PRevEven MTrigRev PTrigRev PTrigRev2 PTrigRev3 MMixed PMixed PRevW.

Local Open Scope R_scope.

Section T.
Context {F : fmt}.
Implicit Types x y z b c : itv F.
Local Notation base := (@base F).
Local Notation fits := (@fits F).
Local Notation is_p := (@is_p F).
Local Notation cap := (@cap F).
(* The proofs follow [left_ok] and [right_ok] up to the two tries; what the tries miss does not matter here. *)
Lemma left_total kind a1 a2 cl cu x : base kind a1 a2 cl cu -> wf x -> is_finite (fst x) = true -> fits (B2R (fst x)) ->
  exists z, left_box kind cl cu x = ret z /\ wf z.
Proof.
intros B Wx Fx Hf. unfold left_box.
assert (E1 : feq (fst x) fminf = false). { destruct (fst x) as [| | |]; easy. } rewrite E1.
set (neg := flt (fst x) f0). set (p := if neg then @pid F else @piu F). set (pl := if neg then @piu F else @pid F).
assert (Hp : is_p p) by (unfold p, is_p; destruct neg; tauto). assert (Hpl : is_p pl) by (unfold pl, is_p; destruct neg; tauto).
pose proof (is_p_bounds _ Hp) as Bp. pose proof (is_p_bounds _ Hpl) as Bpl. pose proof (@pid_ok F) as PD. pose proof (@piu_ok F) as PU.
pose proof (quo_floor (B2R (fst x)) p Hf (proj1 Bp)) as Q. cbn zeta in *.
set (rq := remquo (B2R (fst x)) p) in *. set (n := if Rlt_bool (fst rq) 0 then (snd rq - 1)%Z else snd rq) in *.
pose proof (quo_cap_floor _ _ _ Hf (proj1 Bp) Q) as [N1 N2]. pose proof (@cap_bounds F) as (C1 & C2 & C3).
assert (Of : (0 <= off kind <= 1)%Z). { destruct (base_cases _ _ _ _ _ B) as [->|[->| ->]]; cbn; lia. }
rewrite lchk_ok by lia.
(* the sign of the branch numbers *)
assert (S : (neg = true /\ (n <= -1)%Z) \/ (neg = false /\ (0 <= n)%Z)).
{ assert (N : neg = true <-> B2R (fst x) < 0).
  { unfold neg. rewrite flt_fin by easy. change (B2R f0) with 0. case Rlt_bool_spec; split; intros; try easy; lra. }
  rewrite plus_IZR in Q. destruct neg.
  - left. split; [easy|]. assert (n < 0)%Z; [|lia]. apply lt_IZR. assert (B2R (fst x) < 0) by now apply N. nra.
  - right. split; [easy|]. assert (0 < n + 1)%Z; [|lia]. apply lt_IZR. rewrite plus_IZR.
    assert (0 <= B2R (fst x)). { apply Rnot_lt_le. intros H. now apply N in H. } nra. }
assert (T : forall m, (n <= m <= n + 1)%Z -> IZR (eff kind m) * pl <= IZR (eff kind m) * PI <= IZR (eff kind m) * p).
{ intros m Hm. destruct S as [[S1 S2]|[S1 S2]]; unfold pl, p; rewrite S1.
  - assert (Z : (eff kind m <= 0)%Z).
    { unfold eff. destruct (mirr kind m) eqn:Em; [|lia]. assert (m <> 0)%Z by (intros ->; now destruct kind). lia. }
    apply IZR_le in Z. nra.
  - assert (Z : (0 <= eff kind m)%Z) by (unfold eff; destruct mirr; lia). apply IZR_le in Z. nra. }
destruct (branch_in kind a1 a2 pl p cl cu n 0 B) as (b0 & E0 & W0 & I0 & _); try easy; try lia.
{ apply T. lia. }
destruct (branch_in kind a1 a2 pl p cl cu n 1 B) as (b1 & E1' & W1 & I1 & _ & U1); try easy; try lia.
{ apply T. lia. }
rewrite E0, E1'. destruct (try_two_in b0 b1 x W0 W1 Wx) as (z & Ez & Wz & _). now exists z.
Qed.
Lemma right_total kind up a1 a2 cl cu x : base kind a1 a2 cl cu -> wf x -> is_finite (snd x) = true -> fits (B2R (snd x)) ->
  up = (match kind with Some 1%Z => false | _ => true end) ->
  exists z, right_box kind up cl cu x = ret z /\ wf z.
Proof.
intros B Wx Fx Hf Hup. unfold right_box.
assert (E1 : feq (snd x) finf = false). { destruct (snd x) as [| | |]; easy. } rewrite E1.
set (pos := fgt (snd x) f0). set (p := if pos then @pid F else @piu F). set (pu := if pos then @piu F else @pid F).
assert (Hp : is_p p) by (unfold p, is_p; destruct pos; tauto). assert (Hpu : is_p pu) by (unfold pu, is_p; destruct pos; tauto).
pose proof (is_p_bounds _ Hp) as Bp. pose proof (is_p_bounds _ Hpu) as Bpu. pose proof (@pid_ok F) as PD. pose proof (@piu_ok F) as PU.
pose proof (quo_floor (B2R (snd x)) p Hf (proj1 Bp)) as QF. pose proof (quo_ceil (B2R (snd x)) p Hf (proj1 Bp)) as QC. cbn zeta in *.
set (rq := remquo (B2R (snd x)) p) in *.
set (n := if up then _ else _).
assert (Q : if up then IZR (n - 1) * p < B2R (snd x) <= IZR n * p else IZR n * p <= B2R (snd x) < IZR (n + 1) * p).
{ unfold n. destruct up; [exact QC|exact QF]. }
clear QF QC. clearbody n rq. pose proof (@cap_bounds F) as (C1 & C2 & C3).
assert (N : (- cap - 3 < 3 * n < cap + 3)%Z /\ (up = false -> 3 * n <= cap)%Z /\ (up = true -> - cap <= 3 * n)%Z).
{ destruct up; [pose proof (quo_cap_ceil _ _ _ Hf (proj1 Bp) Q)|pose proof (quo_cap_floor _ _ _ Hf (proj1 Bp) Q)]; repeat split; try lia; easy. }
assert (Ofu : (up = true /\ off kind = 0)%Z \/ (up = false /\ off kind = 1 /\ kind = Some 1)%Z). { destruct (base_cases _ _ _ _ _ B) as [->|[->| ->]]; subst up; cbn; tauto. }
rewrite lchk_ok by lia.
assert (S : (pos = true /\ (if up then 1 <= n else 0 <= n)%Z) \/ (pos = false /\ B2R (snd x) <= 0 /\ (n <= 0)%Z)).
{ assert (P : pos = true <-> 0 < B2R (snd x)).
  { unfold pos. change (fgt (snd x) f0) with (flt f0 (snd x)). rewrite flt_fin by easy. change (B2R f0) with 0. case Rlt_bool_spec; split; intros; try easy; lra. }
  destruct pos.
  - left. split; [easy|]. assert (0 < B2R (snd x)) by now apply P. destruct up.
    + assert (0 < n)%Z; [|lia]. apply lt_IZR. nra.
    + assert (0 < n + 1)%Z; [|lia]. apply lt_IZR. nra.
  - right. split; [easy|]. assert (B2R (snd x) <= 0). { apply Rnot_lt_le. intros H. now apply P in H. } split; [easy|]. destruct up.
    + assert (n - 1 < 0)%Z; [|lia]. apply lt_IZR. nra.
    + apply le_IZR. nra. }
assert (T : forall m, (n + -1 <= m <= n)%Z -> IZR (eff kind m) * p <= IZR (eff kind m) * PI <= IZR (eff kind m) * pu).
{ intros m Hm. destruct S as [[S1 S2]|(S1 & S2 & S3)]; unfold pu, p; rewrite S1.
  - assert (Z : (0 <= eff kind m)%Z).
    { unfold eff. destruct Ofu as [[-> O]|(-> & O & ->)]; rewrite ?O; [destruct mirr; lia|]. destruct (mirr (Some 1%Z) m) eqn:Em; [lia|].
      assert (m <> -1)%Z by (intros ->; easy). lia. }
    apply IZR_le in Z. nra.
  - assert (Z : (eff kind m <= 0)%Z).
    { unfold eff. destruct (mirr kind m) eqn:Em; [|lia]. assert (m <> 0)%Z by (intros ->; now destruct kind). lia. }
    apply IZR_le in Z. nra. }
destruct (branch_in kind a1 a2 p pu cl cu n 0 B) as (b0 & E0 & W0 & I0 & _); try easy; try lia.
{ apply T. lia. }
destruct (branch_in kind a1 a2 p pu cl cu n (-1) B) as (b1 & E1' & W1 & I1 & L1 & _); try easy; try lia.
{ apply T. lia. }
rewrite E0, E1'. destruct (try_two_in b0 b1 x W0 W1 Wx) as (z & Ez & Wz & _). now exists z.
Qed.

Lemma two_total kind a1 a2 cl cu x : base kind a1 a2 cl cu -> wf x -> isnan (fst x) = false -> modest (prec F) x ->
  exists z, two_boxes kind (match kind with Some 1%Z => false | _ => true end) cl cu x = ret z /\ wf z.
Proof.
intros B Wx Nx [M1 M2]. destruct (wf_nonnan x Wx Nx) as [r0 Hr0]. set (up := match kind with Some 1%Z => false | _ => true end).
assert (HL : exists z, left_box kind cl cu x = ret z /\ wf z).
{ destruct (is_finite (fst x)) eqn:Fx.
  - apply left_total with a1 a2; auto. apply M1; easy.
  - assert (E : fst x = fminf). { destruct Hr0 as [Hr0 _]. destruct (fst x) as [|[]| |]; easy. }
    exists (fminf, fneg fmaxv). unfold left_box. rewrite E. split; [easy|].
    right. exists (Rmin 0 (- B2R (@fmaxv F))). split; [easy|]. cbn [snd]. apply ub_fneg. rewrite lb_fin by apply is_finite_fmaxv.
    pose proof (Rmin_r 0 (- B2R (@fmaxv F))). lra. }
assert (HR : exists z, right_box kind up cl cu x = ret z /\ wf z).
{ destruct (is_finite (snd x)) eqn:Fx.
  - apply right_total with a1 a2; auto. apply M2; easy.
  - assert (E : snd x = finf). { destruct Hr0 as [_ Hr0]. destruct (snd x) as [|[]| |]; easy. }
    exists (fmaxv, finf). unfold right_box. rewrite E. split; [easy|].
    right. exists (Rmax 0 (B2R (@fmaxv F))). split; [|easy]. cbn [fst]. rewrite lb_fin by apply is_finite_fmaxv. apply Rmax_r. }
destruct HL as (l & El & Wl), HR as (r & Er & Wr).
unfold two_boxes. rewrite El, Er. mreds.
destruct (hull_tightest l r Wl Wr) as (z & Ez & T). exists z. apply returns_eq in Ez. split; [easy|]. now apply tightest_wf in T.
Qed.
Lemma gives_ret (z : itv F) : wf z -> gives (ret z) wf.
Proof. intros W. exists z. split; [now intros s|easy]. Qed.
Lemma sin_rev_total c x : wf c -> wf x -> modest (prec F) x -> gives (sin_rev c x) wf.
Proof.
intros Wc Wx M. unfold sin_rev. rewrite !is_valid_wf, !is_empty_wf by easy. mreds.
destruct (isnan (fst x)) eqn:Ex; mreds; [apply gives_ret; now left|].
destruct (intersection_exact c (fm1, f1) Wc unit_wf) as (cc & Ec & Wcc & Hcc). rewrite Ec. mreds. rewrite is_empty_wf by easy. mreds.
destruct (isnan (fst cc)) eqn:En; mreds; [now apply gives_ret|].
destruct (unit_part c cc Wcc En Hcc) as (F1 & F2 & B1 & B2 & B3).
destruct (equal_decides cc (fm1, f1) Wcc unit_wf) as (e & Ee & _). apply returns_eq in Ee. rewrite Ee. mreds. destruct e; mreds; [now apply gives_ret|].
destruct (two_total _ _ _ _ _ x (base_sin _ _ B1 B2 B3) Wx Ex M) as (z & Ez & Wz). cbv beta iota in Ez. rewrite Ez. now apply gives_ret.
Qed.
Lemma cos_rev_total c x : wf c -> wf x -> modest (prec F) x -> gives (cos_rev c x) wf.
Proof. intros Wc Wx M. destruct (cos_rev_encl c x Wc Wx M) as (z & E & W & _). now exists z. Qed.
Lemma tan_rev_total c x : wf c -> wf x -> modest (prec F) x -> gives (tan_rev c x) wf.
Proof.
intros Wc Wx M. unfold tan_rev. rewrite !is_valid_wf, !is_empty_wf by easy. mreds.
destruct (isnan (fst c)) eqn:Ec; mreds; [apply gives_ret; now left|].
destruct (isnan (fst x)) eqn:Ex; mreds; [apply gives_ret; now left|].
destruct (wf_nonnan c Wc Ec) as [r [R1 R2]]. pose proof (atan_of_lb _ _ R1). pose proof (atan_of_ub _ _ R2).
assert (B : base None (atan_of (fst c)) (atan_of (snd c)) (@raw F mode_DN (atan_of (fst c))) (@raw F mode_UP (atan_of (snd c)))).
{ apply base_tan; try apply atan_of_bounds. lra. }
destruct (two_total _ _ _ _ _ x B Wx Ex M) as (z & Ez & Wz). cbv beta iota in Ez. rewrite Ez. now apply gives_ret.
Qed.
End T.
(** Mixed types. *)
Lemma trig_mixed_total {F G} T (op : forall W, itv W -> itv W -> M (itv W)) (c : itv F) (x : itv G) :
  comparable T F -> comparable T G -> comparable F G -> wf c -> wf x -> modest (prec G) x ->
  (forall W (c x : itv W), wf c -> wf x -> modest (prec W) x -> gives (op W c x) wf) ->
  gives (rev_mixed2 T op c x) wf.
Proof.
intros C1 C2 C3 Wc Wx Mx Hop. destruct (within_pmax3 T F G C1 C2 C3) as (A & B & C).
unfold rev_mixed2. cbv zeta. set (W := pmax (pmax T F) G) in *. rewrite !is_valid_wf, !is_empty_wf by easy. mreds.
destruct (isnan (fst c)) eqn:Ec; mreds; [apply gives_ret; now left|].
destruct (isnan (fst x)) eqn:Ex; mreds; [apply gives_ret; now left|].
assert (Ex' : forall r, mem r (convert_hull W x) <-> mem r x) by exact (convert_hull_exact W x C Wx).
assert (Mx' : modest (prec W) (convert_hull W x)).
{ apply modest_mono with (prec G); [apply C|]. apply modest_ext with x; [now apply wf_nonnan| |easy]. intros r. now rewrite Ex'. }
destruct (Hop W (convert_hull W c) (convert_hull W x) (wf_convert_hull W c Wc) (wf_convert_hull W x Wx) Mx') as (z & H1 & Wz).
apply returns_eq in H1. rewrite H1. mreds. apply gives_ret. now apply wf_convert_hull.
Qed.
(** Without an argument interval. *)
Lemma trig_mixed1_total {F} T (op : forall W, itv W -> itv W -> M (itv W)) (c : itv F) : wf c ->
  (forall W (c x : itv W), wf c -> wf x -> modest (prec W) x -> gives (op W c x) wf) ->
  gives (rev_mixed2 T op c (@entire T)) wf.
Proof.
intros Wc Hop. unfold rev_mixed2. cbv zeta. set (W := pmax (pmax T F) T) in *. rewrite !is_valid_wf, !is_empty_wf by (easy || apply wf_entire). mreds.
destruct (isnan (fst c)) eqn:Ec; mreds; [apply gives_ret; now left|].
destruct (Hop W (convert_hull W c) (convert_hull W (@entire T)) (wf_convert_hull W c Wc) (wf_convert_hull W _ wf_entire)) as (z & H1 & Wz).
{ replace (convert_hull W (@entire T)) with (@entire W) by reflexivity. apply modest_entire. }
apply returns_eq in H1. rewrite H1. mreds. apply gives_ret. now apply wf_convert_hull.
Qed.
