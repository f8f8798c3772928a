(** * Proofs: the tangent is odd, hidden poles included *)
From Coq Require Import ZArith NArith Reals Bool Lra Lia List.
From Flocq Require Import Core.Core IEEE754.BinarySingleNaN.
From Verif Require Import Fmt Spec FloatFacts Exc Deco SpecApi SpecDeco SpecIso SpecElem SpecMixed SpecExpr SpecAlg SpecPoint SpecOver SpecTan2 SpecMirror MBase PBase PConv MBool PBool MArith MTrig MDec MMixed MExpr PArith PTrig PAtan2 PAlg PCancel PIso PMixed PExpr POver POver3 PSplit PDec PTanIff PMirror PMirror2.
Local Open Scope R_scope.
Local Open Scope m_scope.

(** What the code returns at a hidden pole. *)
Definition tans {W} (x : itv W) : itv W := (mpfr_tan mode_DN (fst x), mpfr_tan mode_UP (snd x)).
Lemma hidden_mirror W {F} (x : itv F) : pole_hidden W (mirror true x) <-> pole_hidden W x.
Proof.
unfold pole_hidden. rewrite (bounded_mirror true x). cbn [mirror fst snd]. rewrite !B2R_fneg, !tan_neg. apply and_iff_compat_l. split.
- intros ((p & Hp & Cp) & (q & Fq & Q1 & Q2) & X). split; [exists (- p); split; [now apply (mem_mirror true)|now rewrite cos_neg]|].
  split; [exists q; split; [exact Fq|split; [exact Q1|lra]]|].
  intros (f & g & Ff & Fg & H1 & H2 & H3). apply X. exists (fneg g), (fneg f). rewrite !B2R_fneg. repeat split; try (now apply fneg_fin); lra.
- intros ((p & Hp & Cp) & (q & Fq & Q1 & Q2) & X). split; [exists (- p); split; [apply (mem_mirror true); cbn; now rewrite Ropp_involutive|now rewrite cos_neg]|].
  split; [exists q; split; [exact Fq|split; [exact Q1|lra]]|].
  intros (f & g & Ff & Fg & H1 & H2 & H3). apply X. exists (fneg g), (fneg f). rewrite !B2R_fneg. repeat split; try (now apply fneg_fin); lra.
Qed.
Lemma tans_mirror {W} (a b : itv W) : pole_hidden W a -> pole_hidden W b -> (forall r, mem r b <-> mem (- r) a) -> forall r, mem r (tans b) <-> mem (- r) (tans a).
Proof.
intros Ha Hb E. destruct (hidden_tests a Ha) as (_ & _ & _ & Ra & Rb). destruct (hidden_tests b Hb) as (_ & _ & _ & Rc & Rd).
destruct Ha as ((A1 & A2) & (p & Hp & _) & _), Hb as ((B1 & B2) & _ & _).
assert (Ma : forall r, mem r a <-> B2R (fst a) <= r <= B2R (snd a)) by (intros r; unfold mem; now rewrite lb_fin, ub_fin).
assert (Mb : forall r, mem r b <-> B2R (fst b) <= r <= B2R (snd b)) by (intros r; unfold mem; now rewrite lb_fin, ub_fin).
assert (Hq : mem (- p) b) by (apply E; now rewrite Ropp_involutive). apply Ma in Hp. apply Mb in Hq.
assert (E1 : B2R (fst b) = - B2R (snd a)).
{ pose proof (proj1 (E (B2R (fst b))) ltac:(apply Mb; lra)) as K. apply Ma in K.
  pose proof (proj2 (E (- B2R (snd a))) ltac:(rewrite Ropp_involutive; apply Ma; lra)) as L. apply Mb in L. lra. }
assert (E2 : B2R (snd b) = - B2R (fst a)).
{ pose proof (proj1 (E (B2R (snd b))) ltac:(apply Mb; lra)) as K. apply Ma in K.
  pose proof (proj2 (E (- B2R (fst a))) ltac:(rewrite Ropp_involutive; apply Ma; lra)) as L. apply Mb in L. lra. }
rewrite E1, tan_neg in Rc. rewrite E2, tan_neg in Rd.
pose proof (is_RD_fneg _ _ Rb) as Rc'. pose proof (is_RU_fneg _ _ Ra) as Rd'.
intros r. unfold mem, tans. cbn [fst snd].
assert (L : lb (mpfr_tan mode_DN (fst b)) r <-> lb (fneg (mpfr_tan mode_UP (snd a))) r).
{ split; intros K; [exact (proj2 Rc _ (proj1 Rc') r K)|exact (proj2 Rc' _ (proj1 Rc) r K)]. }
assert (U : ub (mpfr_tan mode_UP (snd b)) r <-> ub (fneg (mpfr_tan mode_DN (fst a))) r).
{ split; intros K; [exact (proj2 Rd _ (proj1 Rd') r K)|exact (proj2 Rd' _ (proj1 Rd) r K)]. }
rewrite L, U. unfold fneg. rewrite lb_opp, ub_opp. tauto.
Qed.
Lemma tan_hidden_odd {F} (x : itv F) : wf x -> pole_hidden F x -> agree (y <- neg x; tan_itv y) (z <- tan_itv x; neg z).
Proof.
intros W H. pose proof (flip_eq true x W) as E. cbn [flip] in E. rewrite E. mreds. pose proof (proj2 (hidden_mirror F x) H) as H'.
rewrite (hidden_result x W H). mreds. rewrite (hidden_result _ (wf_mirror true x W) H'). pose proof (flip_eq true _ (hidden_wf x H)) as E'. cbn [flip] in E'. rewrite E'.
eexists _, _. split; [now intros q|]. split; [now intros q|]. intros r. rewrite (mem_mirror true). apply (tans_mirror x (mirror true x) H H'). intros t. apply (mem_mirror true).
Qed.
Lemma tan_hidden_odd_mixed T {F} (x : itv F) : comparable T F -> wf x -> pole_hidden (pmax T F) x -> agree (y <- neg x; tan_mixed T y) (z <- tan_mixed T x; neg z).
Proof.
intros HC Wx H. pose proof (flip_eq true x Wx) as E. cbn [flip] in E. rewrite E. mreds. pose proof (proj2 (hidden_mirror _ x) H) as H'.
destruct (within_pmax T F HC) as [A B]. set (W := pmax T F) in *. pose proof (wf_mirror true x Wx) as Wy.
apply (hidden_widen W x B Wx) in H. apply (hidden_widen W _ B Wy) in H'. set (cx := convert_hull W x) in *. set (cy := convert_hull W (mirror true x)) in *.
assert (R : forall v : itv F, wf v -> pole_hidden W (convert_hull W v) -> tan_mixed T v = ret (convert_hull T (tans (convert_hull W v)))).
{ intros v Wv Hv. apply mixed1_ret; [easy|]. apply hidden_result; [now apply wf_convert_hull|exact Hv]. }
rewrite (R _ Wy H'), (R _ Wx H). mreds. fold cx cy. pose proof (hidden_wf _ H) as Vx. pose proof (hidden_wf _ H') as Vy.
pose proof (flip_eq true (convert_hull T (tans cx)) (wf_convert_hull T _ Vx)) as E'. cbn [flip] in E'. rewrite E'.
eexists _, _. split; [now intros q|]. split; [now intros q|].
pose proof (convert_hull_tightest T (tans cx) Vx) as Tx. pose proof (convert_hull_tightest T (tans cy) Vy) as Ty.
apply (tight_same _ _ _ _ Ty (tightest_mirror true _ (fun r => mem (- r) (tans cx)) _ Tx (fun r => iff_refl _))).
apply tans_mirror; auto. intros r. unfold cx, cy. rewrite (convert_hull_exact W _ B Wy), (convert_hull_exact W _ B Wx). apply (mem_mirror true).
Qed.

(** Decorated. *)
Definition tans_dec {W} (x : itv W) (d : deco) : deco := dmin d (if is_finite (fst (tans x)) && is_finite (snd (tans x)) then com else dac).
Lemma hidden_dec_eq {F} (x : ditv F) : proper x -> pole_hidden F (fst x) -> tan_dec x = ret (tans (fst x), tans_dec (fst x) (snd x)).
Proof.
intros (Wx & Dx & Nx) H. pose proof (wf_dec_wf x Wx) as W. pose proof (hidden_wf _ H) as Wz. fold (tans (fst x)) in Wz.
destruct (hidden_tests _ H) as (Ex & G1 & G2 & Ra & Rb).
unfold tan_dec. rewrite is_valid_dec_wf, is_nai_wf, is_empty_dec_wf by easy.
destruct (deq_spec (snd x) ill) as [C|_]; [easy|]. mreds. rewrite Ex. mreds. rewrite G1, G2. fold (tans (fst x)).
rewrite is_common_wf by easy. mreds. reflexivity.
Qed.
Lemma tans_some {W} (x : itv W) : pole_hidden W x -> exists r, mem r (tans x).
Proof.
intros H. pose proof (hidden_wf _ H) as Wz. fold (tans x) in Wz. destruct (hidden_tests _ H) as (_ & _ & _ & Ra & _).
destruct Wz as [E|E]; [|exact E]. exfalso. destruct Ra as [Ra _]. apply (f_equal fst) in E. cbn [tans fst empty_rep] in E. rewrite E in Ra. exact Ra.
Qed.
Lemma fin_bounded {W} (x : itv W) : is_finite (fst x) && is_finite (snd x) = true <-> bounded_rep x.
Proof. unfold bounded_rep. now rewrite andb_true_iff. Qed.
Lemma proper_tans {F} (x : ditv F) : proper x -> pole_hidden F (fst x) -> proper (tans (fst x), tans_dec (fst x) (snd x)).
Proof.
intros (Wx & Dx & Nx) H. unfold tans_dec. destruct (is_finite (fst (tans (fst x))) && is_finite (snd (tans (fst x)))) eqn:E.
- split; [right; cbn [fst snd]; split; [now apply tans_some|]|]; (destruct (deco_cases _ Dx Nx) as [K|[K|[K|[K|[]]]]]; rewrite <- K); (split; [cbv; tauto || easy|]); try (intros _; now apply fin_bounded); easy.
- split; [right; cbn [fst snd]; split; [now apply tans_some|]|]; (destruct (deco_cases _ Dx Nx) as [K|[K|[K|[K|[]]]]]; rewrite <- K); (split; [cbv; tauto || easy|]); easy.
Qed.
Lemma fin_same {W} (a b : itv W) : wf a -> wf b -> (forall r, mem r b <-> mem (- r) a) -> is_finite (fst b) && is_finite (snd b) = is_finite (fst a) && is_finite (snd a).
Proof.
intros Wa Wb E. pose proof (wf_mirror true a Wa) as Wm. apply eq_true_iff_eq. rewrite !fin_bounded, <- (bounded_mirror true a).
split; apply bounded_same; try easy; intros r; rewrite (mem_mirror true), (E r); reflexivity.
Qed.
Lemma proper_mird {F} (x : ditv F) : proper x -> proper (mird true x).
Proof.
intros (Wx & Dx & Nx). split; [|easy]. destruct Wx as [[E1 E2]|[[r Hr] [_ H]]].
- left. split; [|exact E2]. cbn. now rewrite E1.
- right. cbn [mird fst snd]. split; [exists (- r); apply (mem_mirror true); cbn; now rewrite Ropp_involutive|]. split; [easy|]. intros E. apply (bounded_mirror true). now apply H.
Qed.
Lemma tan_hidden_odd_dec {F} (x : ditv F) : proper x -> pole_hidden F (fst x) -> agree_dec (y <- neg_dec x; tan_dec y) (z <- tan_dec x; neg_dec z).
Proof.
intros Px H. pose proof (flipd_eq true x Px) as E. cbn [flip_dec] in E. rewrite E. mreds. pose proof (proj2 (hidden_mirror F (fst x)) H) as H'.
rewrite (hidden_dec_eq x Px H). mreds. rewrite (hidden_dec_eq _ (proper_mird x Px) H'). cbn [mird fst snd].
pose proof (flipd_eq true _ (proper_tans x Px H)) as E'. cbn [flip_dec] in E'. rewrite E'.
assert (S : forall r, mem r (tans (mirror true (fst x))) <-> mem (- r) (tans (fst x))).
{ apply tans_mirror; auto. intros t. apply (mem_mirror true). }
eexists _, _. split; [now intros q|]. split; [now intros q|]. split.
- intros r. cbn [mird fst snd]. rewrite (mem_mirror true). apply S.
- cbn [mird fst snd]. unfold tans_dec. now rewrite (fin_same (tans (fst x)) (tans (mirror true (fst x))) (hidden_wf _ H) (hidden_wf _ H') S).
Qed.

(** Decorated, mixed types. *)
Lemma feq_unbounded {T} (z : itv T) : wf z -> (exists r, mem r z) -> (feq (fst z) fminf || feq (snd z) finf) = negb (is_finite (fst z) && is_finite (snd z)).
Proof.
intros _ [r [H1 H2]]. destruct z as [l u]. cbn [fst snd] in *. destruct (fviewP l) as [ | | |l Fl]; try easy; destruct (fviewP u) as [ | | |u Fu]; try easy;
  try (destruct l as [[]|[]| |[] ? ? ?]; try easy); try (destruct u as [[]|[]| |[] ? ? ?]; easy).
Qed.
Definition down_dec {T} (z : itv T) (d : deco) : deco := if deq d com && negb (is_finite (fst z) && is_finite (snd z)) then dac else d.
Lemma narrow_dec T {W} (z : ditv W) : proper z -> (exists r, mem r (fst z)) -> convert_hull_dec T z = ret (convert_hull T (fst z), down_dec (convert_hull T (fst z)) (snd z)).
Proof.
intros (Wz & Dz & Nz) [r Hr]. pose proof (wf_dec_wf z Wz) as V. unfold convert_hull_dec. rewrite is_nai_wf by easy. destruct (deq_spec (snd z) ill) as [C|_]; [easy|]. mreds. cbv zeta.
rewrite feq_unbounded; [|now apply wf_convert_hull|exists r; apply (proj1 (proj2 (convert_hull_tightest T (fst z) V))); exact Hr].
unfold down_dec. now destruct (deq (snd z) com && _).
Qed.
Lemma tan_hidden_mixed_eq T {F} (x : ditv F) : comparable T F -> proper x -> let W := pmax T F in pole_hidden W (fst x) ->
  let z := convert_hull T (tans (convert_hull W (fst x))) in
  pole_hidden W (convert_hull W (fst x)) /\ tan_dec_mixed T x = ret (z, down_dec z (tans_dec (convert_hull W (fst x)) (snd x))).
Proof.
intros HC Px W H z. destruct (within_pmax T F HC) as [A B]. fold W in A, B. destruct Px as (Wx & Dx & Nx). pose proof (wf_dec_wf x Wx) as V.
apply (hidden_widen W _ B V) in H. split; [exact H|]. destruct (widen_dec W x B Wx Nx) as (E & Wc & _ & _).
assert (Pc : proper (convert_hull W (fst x), snd x)) by (split; [exact Wc|split; [exact Dx|exact Nx]]).
unfold tan_dec_mixed, mixed_dec1. rewrite is_valid_dec_wf, is_nai_wf by easy. destruct (deq_spec (snd x) ill) as [C|_]; [easy|]. mreds. cbv zeta. fold W. rewrite E. mreds.
rewrite (hidden_dec_eq _ Pc H). mreds. cbn [fst snd]. exact (narrow_dec T _ (proper_tans _ Pc H) (tans_some _ H)).
Qed.
Lemma tan_hidden_odd_dec_mixed T {F} (x : ditv F) : comparable T F -> proper x -> pole_hidden (pmax T F) (fst x) ->
  agree_dec (y <- neg_dec x; tan_dec_mixed T y) (z <- tan_dec_mixed T x; neg_dec z).
Proof.
intros HC Px H. pose proof (flipd_eq true x Px) as E. cbn [flip_dec] in E. rewrite E. mreds. pose proof (proj2 (hidden_mirror _ (fst x)) H) as H'.
pose proof (proper_mird x Px) as Py. destruct (tan_hidden_mixed_eq T x HC Px H) as (Hx & Ex). destruct (tan_hidden_mixed_eq T (mird true x) HC Py H') as (Hy & Ey).
rewrite Ex, Ey. mreds. cbn [mird fst snd] in Hy |- *. destruct (within_pmax T F HC) as [A B]. set (W := pmax T F) in *.
pose proof (proper_wf x Px) as Wx. pose proof (wf_mirror true _ Wx) as Wy.
set (cx := convert_hull W (fst x)) in *. set (cy := convert_hull W (mirror true (fst x))) in *.
pose proof (hidden_wf _ Hx) as Vx. pose proof (hidden_wf _ Hy) as Vy. fold (tans cx) in Vx. fold (tans cy) in Vy.
pose proof (convert_hull_tightest T (tans cx) Vx) as Tx. pose proof (convert_hull_tightest T (tans cy) Vy) as Ty.
assert (S : forall r, mem r (tans cy) <-> mem (- r) (tans cx)).
{ apply tans_mirror; auto. intros r. unfold cx, cy. rewrite (convert_hull_exact W _ B Wy), (convert_hull_exact W _ B Wx). apply (mem_mirror true). }
pose proof (fin_same _ _ Vx Vy S) as F1.
assert (N : same_numbers (convert_hull T (tans cy)) (mirror true (convert_hull T (tans cx)))).
{ apply (tight_same _ _ _ _ Ty (tightest_mirror true _ (fun r => mem (- r) (tans cx)) _ Tx (fun r => iff_refl _))). exact S. }
assert (S' : forall r, mem r (convert_hull T (tans cy)) <-> mem (- r) (convert_hull T (tans cx))) by (intros r; rewrite (N r); apply (mem_mirror true)).
pose proof (fin_same _ _ (wf_convert_hull T _ Vx) (wf_convert_hull T _ Vy) S') as F2.
set (zx := convert_hull T (tans cx)) in *. set (zy := convert_hull T (tans cy)) in *.
assert (D : down_dec zy (tans_dec cy (snd x)) = down_dec zx (tans_dec cx (snd x))) by (unfold down_dec, tans_dec; now rewrite F1, F2).
assert (Pz : proper (zx, down_dec zx (tans_dec cx (snd x)))).
{ destruct (within_pmax T F HC) as [_ B']. destruct (widen_dec W x B (proj1 Px) (proj2 (proj2 Px))) as (_ & Wc & _ & _).
  assert (Pc : proper (cx, snd x)) by (split; [exact Wc|exact (proj2 Px)]).
  destruct (proper_tans _ Pc Hx) as (_ & D2 & D3). cbn [fst snd] in D2, D3. destruct (tans_some _ Hx) as [r Hr].
  assert (Hz : mem r zx) by (apply (proj1 (proj2 Tx)); exact Hr).
  unfold down_dec. destruct (deq_spec (tans_dec cx (snd x)) com) as [C|C]; destruct (is_finite (fst zx) && is_finite (snd zx)) eqn:Fz; cbn [andb negb];
    (split; [right; cbn [fst snd]; split; [now exists r|split; [easy|intros K; try easy; now apply fin_bounded]]|split; [cbn [snd]; try easy; cbv; tauto|easy]]). }
pose proof (flipd_eq true _ Pz) as E'. cbn [flip_dec] in E'. rewrite E'.
eexists _, _. split; [now intros q|]. split; [now intros q|]. split; [exact N|exact D].
Qed.

(** The tangent, with hidden poles and without. *)
Lemma tan_odd {F} (x : itv F) : three F -> wf x -> agree (y <- neg x; tan_itv y) (z <- tan_itv x; neg z).
Proof.
intros H3 W. destruct (Classical_Prop.classic (pole_hidden F x)) as [H|H]; [now apply tan_hidden_odd|].
apply (un_alike true true u_tan u_tan x); [apply odd_alike; cbn; tauto|easy|exact W|now intros _].
Qed.
Lemma tan_odd_mixed T {F} (x : itv F) : comparable T F -> three (pmax T F) -> wf x -> agree (y <- neg x; tan_mixed T y) (z <- tan_mixed T x; neg z).
Proof.
intros HC H3 W. destruct (Classical_Prop.classic (pole_hidden (pmax T F) x)) as [H|H]; [now apply tan_hidden_odd_mixed|].
apply (un_alike_mixed T true true u_tan u_tan x HC); [apply odd_alike; cbn; tauto|easy|exact W|now intros _].
Qed.
Lemma tan_odd_dec {F} (x : ditv F) : three F -> proper x -> agree_dec (y <- neg_dec x; tan_dec y) (z <- tan_dec x; neg_dec z).
Proof.
intros H3 W. destruct (Classical_Prop.classic (pole_hidden F (fst x))) as [H|H]; [now apply tan_hidden_odd_dec|].
apply (dun_alike true true u_tan u_tan x); [apply odd_alike; cbn; tauto|easy|exact W|now intros _].
Qed.
Lemma tan_odd_dec_mixed T {F} (x : ditv F) : comparable T F -> three (pmax T F) -> proper x -> agree_dec (y <- neg_dec x; tan_dec_mixed T y) (z <- tan_dec_mixed T x; neg_dec z).
Proof.
intros HC H3 W. destruct (Classical_Prop.classic (pole_hidden (pmax T F) (fst x))) as [H|H]; [now apply tan_hidden_odd_dec_mixed|].
apply (dun_alike_mixed T true true u_tan u_tan x HC); [apply odd_alike; cbn; tauto|easy|exact W|now intros _].
Qed.
