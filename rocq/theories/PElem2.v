(** * Proofs: cosh, acosh, atanh and the step functions are tightest *)

From Coq Require Import ZArith NArith Reals Bool Lia Lra Psatz Ratan.
From Flocq Require Import Core.Core IEEE754.BinarySingleNaN.
From Verif Require Import Fmt Spec FloatFacts Exc Deco SpecApi SpecElem MBase PBase MBool MArith PArith
  PMul PFma PDiv PUnary PBool PSetop MElem PElem.

Local Open Scope R_scope.

Section M.
Context {F : fmt}.
Implicit Types a b c l u : float F.
Implicit Types x y z : itv F.
Ltac rabs := cbn [fst snd] in *; unfold Rabs in *; repeat (destruct (Rcase_abs _)); lra.

(** ** cosh *)
Lemma cosh_RD a : is_finite a = true -> is_RD (cosh (B2R a)) (mpfr_cosh mode_DN a).
Proof. intros Fa. destruct a; try easy; apply rround_RD. Qed.
Lemma cosh_RU a : is_finite a = true -> is_RU (cosh (B2R a)) (mpfr_cosh mode_UP a).
Proof. intros Fa. destruct a; try easy; apply rround_RU. Qed.

Notation CH x := (image1 everywhere cosh x).
Lemma glow_cosh a x : is_finite a = true -> 0 <= B2R a -> (exists r, mem r x /\ Rabs r = B2R a) ->
  (forall r, mem r x -> B2R a <= Rabs r) -> glow (CH x) (mpfr_cosh mode_DN a).
Proof.
intros Fa H0 (r0 & M0 & E0) H. apply glow_att with (cosh (B2R a)).
- exists r0. split; [easy|split; [easy|]]. now rewrite <- E0, cosh_Rabs.
- intros t (r & Mr & _ & ->). rewrite <- (cosh_Rabs r). apply cosh_le; auto.
- now apply cosh_RD.
Qed.
Lemma gupp_cosh a x : is_finite a = true -> (exists r, mem r x /\ Rabs r = B2R a) ->
  (forall r, mem r x -> Rabs r <= B2R a) -> gupp (CH x) (mpfr_cosh mode_UP a).
Proof.
intros Fa (r0 & M0 & E0) H. apply gupp_att with (cosh (B2R a)).
- exists r0. split; [easy|split; [easy|]]. now rewrite <- E0, cosh_Rabs.
- intros t (r & Mr & _ & ->). rewrite <- (cosh_Rabs r). apply cosh_le; auto. apply Rabs_pos.
- now apply cosh_RU.
Qed.
Lemma gupp_cosh_unb x : (forall B, exists r, mem r x /\ B < Rabs r) -> gupp (CH x) (mpfr_cosh mode_UP (@finf F)).
Proof.
intros H. apply gupp_unb. intros B. destruct (H (2 * B)) as (r & Mr & Hr).
exists (cosh r). split; [now exists r|]. rewrite <- cosh_Rabs. apply cosh_big; [apply Rabs_pos|easy].
Qed.

Lemma is_finite_fneg a : is_finite (fneg a) = is_finite a. Proof. apply is_finite_Bopp. Qed.
Lemma B2R_fneg a : B2R (fneg a) = - B2R a. Proof. apply B2R_Bopp. Qed.

Lemma fmax_fin a b : is_finite a = true -> is_finite b = true ->
  is_finite (fmax a b) = true /\ B2R (fmax a b) = Rmax (B2R a) (B2R b).
Proof.
intros Fa Fb. unfold fmax. rewrite flt_fin by easy. case Rlt_bool_spec; intros H; split; try easy.
- now rewrite Rmax_right by lra. - now rewrite Rmax_left by lra.
Qed.
Lemma fmin_fin a b : is_finite a = true -> is_finite b = true ->
  is_finite (fmin a b) = true /\ B2R (fmin a b) = Rmin (B2R a) (B2R b).
Proof.
intros Fa Fb. unfold fmin. rewrite flt_fin by easy. case Rlt_bool_spec; intros H; split; try easy.
- now rewrite Rmin_right by lra. - now rewrite Rmin_left by lra.
Qed.
Lemma fmax_inf_l a : isnan a = false -> fmax finf a = finf.
Proof. intros H. unfold fmax. now rewrite flt_pinf_l. Qed.
Lemma fmax_inf_r a : isnan a = false -> fmax a finf = finf.
Proof. intros H. unfold fmax. destruct a as [|[]| |[]]; easy. Qed.
Lemma fmin_inf_l a : is_finite a = true -> fmin finf a = a.
Proof. intros H. unfold fmin. now rewrite flt_pinf_r. Qed.
Lemma fmin_inf_r a : isnan a = false -> fmin a finf = a.
Proof. intros H. unfold fmin. now rewrite flt_pinf_l. Qed.

Lemma cosh_tightest x : wf x -> computes_tightest (cosh_itv x) (CH x).
Proof.
intros W. unfold cosh_itv. vred.
destruct (isnan (fst x)) eqn:Ex; vred.
{ eapply ct_ret; [reflexivity|]. apply tightest_empty. intros r. now apply image1_empty. }
pose proof (wf_view _ W) as V. destruct (wview_nonempty x V Ex) as [r0 Hr0].
assert (NE : exists t, CH x t) by now exists (cosh r0), r0.
assert (G1 : mem 0 x -> glow (CH x) (@f1 F)).
{ intros M0. apply glow_att with 1.
  - exists 0. split; [easy|split; [easy|]]. now rewrite cosh_0'.
  - intros t (r & _ & _ & ->). apply cosh_ge1.
  - apply is_RD_f1. }
assert (UL : fst x = fminf -> forall B, exists r, mem r x /\ B < Rabs r).
{ intros E. apply (endp_abs_unb (fst x)); [now apply endp_l|now rewrite E]. }
assert (UU : snd x = finf -> forall B, exists r, mem r x /\ B < Rabs r).
{ intros E. apply (endp_abs_unb (snd x)); [now apply endp_u|now rewrite E]. }
destruct (flt (fst x) f0 && fgt (snd x) f0) eqn:C; (eapply ct_ret; [reflexivity|]); apply tightest_intro; try easy.
- apply G1. apply andb_prop in C. destruct C as [C1 C2].
  destruct V as [ | |u Fu|l Fl|l u Fl Fu Hlu]; try easy; cbn [fst snd] in *;
    unfold fgt in C2; fold (flt f0 u) in C2 || idtac.
  + split; [easy|]. rewrite ub_fin by easy. change (Bltb f0 u) with (flt f0 u) in C2.
    rewrite flt_fin in C2 by easy. simpl in C2. revert C2. case Rlt_bool_spec; [|easy]. intros; simpl in *; lra.
  + split; [|easy]. rewrite lb_fin by easy. rewrite flt_fin in C1 by easy. simpl in C1. revert C1. case Rlt_bool_spec; [|easy]. intros; simpl in *; lra.
  + change (Bltb f0 u) with (flt f0 u) in C2. rewrite flt_fin in C1, C2 by easy. simpl in C1, C2.
    revert C1 C2. case Rlt_bool_spec; [|easy]. case Rlt_bool_spec; [|easy]. intros.
    split; [rewrite lb_fin by easy|rewrite ub_fin by easy]; simpl in *; lra.
- destruct V as [ | |u Fu|l Fl|l u Fl Fu Hlu]; try easy; cbn [fst snd] in *.
  + change (fneg (@fminf F)) with (@finf F). rewrite fmax_inf_l by easy. now apply gupp_cosh_unb, UL.
  + change (fneg (@fminf F)) with (@finf F). rewrite fmax_inf_l by now apply isnan_fin. now apply gupp_cosh_unb, UL.
  + rewrite fmax_inf_r by (apply isnan_fin; now rewrite is_finite_fneg). now apply gupp_cosh_unb, UU.
  + apply andb_prop in C. destruct C as [C1 C2]. unfold fgt in C2. change (Bltb f0 u) with (flt f0 u) in C2.
    rewrite flt_fin in C1, C2 by easy. simpl in C1, C2.
    revert C1 C2. case Rlt_bool_spec; [|easy]. case Rlt_bool_spec; [|easy]. intros H1 H2 _ _.
    destruct (fmax_fin (fneg l) u) as [F1 E1]; [now rewrite is_finite_fneg|easy|]. rewrite B2R_fneg in E1.
    apply gupp_cosh; [easy| |].
    * rewrite E1. destruct (Rle_or_lt (- B2R l) (B2R u)).
      -- exists (B2R u). rewrite Rmax_right by easy. split; [|apply Rabs_pos_eq; lra].
         split; [rewrite lb_fin by easy|rewrite ub_fin by easy]; cbn [fst snd]; lra.
      -- exists (B2R l). rewrite Rmax_left by lra. split; [|rewrite Rabs_left; lra].
         split; [rewrite lb_fin by easy|rewrite ub_fin by easy]; cbn [fst snd]; lra.
    * intros r Hr. rewrite E1. pose proof (mem_fin_l _ _ _ Hr Fl). pose proof (mem_fin_u _ _ _ Hr Fu).
      pose proof (Rmax_l (- B2R l) (B2R u)). pose proof (Rmax_r (- B2R l) (B2R u)). apply Rabs_le. lra.
- destruct V as [ | |u Fu|l Fl|l u Fl Fu Hlu]; try easy; cbn [fst snd] in *.
  + rewrite flt_minf_l in C by easy. unfold fgt in C. change (Bltb f0 u) with (flt f0 u) in C. rewrite flt_fin in C by easy.
    simpl in C. revert C. case Rlt_bool_spec; [easy|]. intros H _.
    change (fabs (@fminf F)) with (@finf F). rewrite fmin_inf_l by now rewrite is_finite_fabs.
    apply glow_cosh.
    * now rewrite is_finite_fabs.
    * rewrite B2R_fabs. apply Rabs_pos.
    * exists (B2R u). split; [split; [easy|rewrite ub_fin by easy; cbn [snd]; lra]|now rewrite B2R_fabs].
    * intros r Hr. rewrite B2R_fabs. pose proof (mem_fin_u _ _ _ Hr Fu). simpl in *. rabs.
  + rewrite andb_comm in C. unfold fgt in C. change (Bltb f0 finf) with true in C. simpl in C. rewrite flt_fin in C by easy.
    simpl in C. revert C. case Rlt_bool_spec; [easy|]. intros H _.
    change (fabs (@finf F)) with (@finf F). rewrite fmin_inf_r by (apply isnan_fin; now rewrite is_finite_fabs).
    apply glow_cosh.
    * now rewrite is_finite_fabs.
    * rewrite B2R_fabs. apply Rabs_pos.
    * exists (B2R l). split; [split; [rewrite lb_fin by easy; cbn [fst]; lra|easy]|now rewrite B2R_fabs].
    * intros r Hr. rewrite B2R_fabs. pose proof (mem_fin_l _ _ _ Hr Fl). simpl in *. rabs.
  + destruct (fmin_fin (fabs l) (fabs u)) as [F1 E1]; [now rewrite is_finite_fabs|now rewrite is_finite_fabs|].
    rewrite !B2R_fabs in E1.
    unfold fgt in C. change (Bltb f0 u) with (flt f0 u) in C. rewrite !flt_fin in C by easy. simpl in C.
    assert (HC : 0 <= B2R l \/ B2R u <= 0).
    { revert C. case Rlt_bool_spec; [|now left]. case Rlt_bool_spec; [easy|now right]. }
    apply glow_cosh; [easy| | |].
    * rewrite E1. apply Rmin_glb; apply Rabs_pos.
    * rewrite E1. destruct HC.
      -- exists (B2R l). split; [split; [rewrite lb_fin by easy|rewrite ub_fin by easy]; cbn [fst snd]; lra|].
         rewrite Rmin_left; [easy|]. rabs.
      -- exists (B2R u). split; [split; [rewrite lb_fin by easy|rewrite ub_fin by easy]; cbn [fst snd]; lra|].
         rewrite Rmin_right; [easy|]. rabs.
    * intros r Hr. rewrite E1. pose proof (mem_fin_l _ _ _ Hr Fl). pose proof (mem_fin_u _ _ _ Hr Fu).
      destruct HC; [apply Rle_trans with (1 := Rmin_l _ _)|apply Rle_trans with (1 := Rmin_r _ _)]; rabs.
- destruct V as [ | |u Fu|l Fl|l u Fl Fu Hlu]; try easy; cbn [fst snd] in *.
  + change (fabs (@fminf F)) with (@finf F). rewrite fmax_inf_l by (apply isnan_fin; now rewrite is_finite_fabs). now apply gupp_cosh_unb, UL.
  + change (fabs (@finf F)) with (@finf F). rewrite fmax_inf_r by (apply isnan_fin; now rewrite is_finite_fabs). now apply gupp_cosh_unb, UU.
  + destruct (fmax_fin (fabs l) (fabs u)) as [F1 E1]; [now rewrite is_finite_fabs|now rewrite is_finite_fabs|].
    rewrite !B2R_fabs in E1. apply gupp_cosh; [easy| |].
    * rewrite E1. destruct (Rle_or_lt (Rabs (B2R l)) (Rabs (B2R u))).
      -- exists (B2R u). rewrite Rmax_right by easy. split; [|easy].
         split; [rewrite lb_fin by easy|rewrite ub_fin by easy]; cbn [fst snd]; lra.
      -- exists (B2R l). rewrite Rmax_left by lra. split; [|easy].
         split; [rewrite lb_fin by easy|rewrite ub_fin by easy]; cbn [fst snd]; lra.
    * intros r Hr. rewrite E1. pose proof (mem_fin_l _ _ _ Hr Fl). pose proof (mem_fin_u _ _ _ Hr Fu).
      pose proof (Rmax_l (Rabs (B2R l)) (Rabs (B2R u))). pose proof (Rmax_r (Rabs (B2R l)) (Rabs (B2R u))). rabs.
Qed.

(** ** acosh *)
Lemma acosh_RD a : is_finite a = true -> 1 <= B2R a -> is_RD (acoshR (B2R a)) (mpfr_acosh mode_DN a).
Proof.
intros Fa H. unfold mpfr_acosh. rewrite Rle_bool_true by easy. destruct a; try easy; apply rround_RD.
Qed.
Lemma acosh_RU a : is_finite a = true -> 1 <= B2R a -> is_RU (acoshR (B2R a)) (mpfr_acosh mode_UP a).
Proof.
intros Fa H. unfold mpfr_acosh. rewrite Rle_bool_true by easy. destruct a; try easy; apply rround_RU.
Qed.

Lemma acosh_tightest x : wf x -> computes_tightest (acosh_itv x) (image1 from1 acoshR x).
Proof.
intros W. unfold acosh_itv. vred.
destruct (isnan (fst x)) eqn:Ex; vred.
{ eapply ct_ret; [reflexivity|]. apply tightest_empty. intros r. now apply image1_empty. }
pose proof (wf_view _ W) as V. destruct (wview_nonempty x V Ex) as [r0 Hr0].
destruct (low_end_fst x V Ex) as [(A1 & A2 & A3)|(A1 & A2)];
destruct (upp_end_snd x V Ex) as [(B1 & B2 & B3)|(B1 & B2)].
- rewrite !flt_fin, B2R_f1 by fin. case (Rlt_bool_spec (B2R (snd x))); intros Hs; vred.
  { eapply ct_ret; [reflexivity|]. apply tightest_empty. intros t (r & Hr & Hd & _). specialize (B3 r Hr). unfold from1 in Hd. lra. }
  eapply ct_ret; [reflexivity|]. apply tightest_intro; [now exists (acoshR (B2R (snd x))), (B2R (snd x))| |].
  + case Rlt_bool_spec; intros Hf.
    * apply glow_inc_att with 1.
      -- split; [|unfold from1; lra]. split; [rewrite lb_fin by easy|rewrite ub_fin by easy]; lra.
      -- intros r [Hr Hd]. now apply acoshR_le; [lra|].
      -- rewrite <- (@B2R_f1 F) at 1. apply acosh_RD; [fin|rewrite B2R_f1; lra].
    * apply glow_inc_att with (B2R (fst x)); [easy| |now apply acosh_RD].
      intros r [Hr Hd]. apply acoshR_le; auto.
  + apply gupp_inc_att with (B2R (snd x)); [easy| |now apply acosh_RU].
    intros r [Hr Hd]. apply acoshR_le; auto.
- rewrite B1. rewrite flt_pinf_l. rewrite !flt_fin, B2R_f1 by fin. vred.
  eapply ct_ret; [reflexivity|].
  destruct (B2 1) as (r1 & Hr1 & Hlt). apply tightest_intro; [exists (acoshR r1), r1; split; [easy|split; [unfold from1; lra|easy]]| |].
  + case Rlt_bool_spec; intros Hf.
    * apply glow_inc_att with 1.
      -- split; [|unfold from1; lra]. split; [rewrite lb_fin by easy; lra|now rewrite B1].
      -- intros r [Hr Hd]. now apply acoshR_le; [lra|].
      -- rewrite <- (@B2R_f1 F) at 1. apply acosh_RD; [fin|rewrite B2R_f1; lra].
    * apply glow_inc_att with (B2R (fst x)); [easy| |now apply acosh_RD].
      intros r [Hr Hd]. apply acoshR_le; auto.
  + change (mpfr_acosh mode_UP finf) with (@finf F). apply gupp_inc_unb. intros B.
    destruct (B2 (Rmax 1 (cosh (Rmax B 0 + 1)))) as (r & Hr & Hl).
    assert (M1 := Rmax_l 1 (cosh (Rmax B 0 + 1))). assert (M2 := Rmax_r 1 (cosh (Rmax B 0 + 1))).
    assert (N1 := Rmax_l B 0). assert (N2 := Rmax_r B 0).
    exists r. split; [split; [easy|unfold from1; lra]|].
    apply Rlt_le_trans with (Rmax B 0 + 1); [lra|]. rewrite <- (acoshR_cosh (Rmax B 0 + 1)) by lra.
    apply acoshR_le; [apply cosh_ge1|lra].
- rewrite A1. rewrite flt_minf_l by fin. rewrite !flt_fin, B2R_f1 by fin. case Rlt_bool_spec; intros Hs; vred.
  { eapply ct_ret; [reflexivity|]. apply tightest_empty. intros t (r & Hr & Hd & _). specialize (B3 r Hr). unfold from1 in Hd. lra. }
  eapply ct_ret; [reflexivity|]. apply tightest_intro; [now exists (acoshR (B2R (snd x))), (B2R (snd x))| |].
  + apply glow_inc_att with 1.
    * split; [|unfold from1; lra]. split; [now rewrite A1|rewrite ub_fin by easy; lra].
    * intros r [Hr Hd]. now apply acoshR_le; [lra|].
    * rewrite <- (@B2R_f1 F) at 1. apply acosh_RD; [fin|rewrite B2R_f1; lra].
  + apply gupp_inc_att with (B2R (snd x)); [easy| |now apply acosh_RU].
    intros r [Hr Hd]. apply acoshR_le; auto.
- rewrite A1, B1. rewrite flt_minf_l by fin. rewrite flt_pinf_l. vred.
  eapply ct_ret; [reflexivity|].
  destruct (B2 1) as (r1 & Hr1 & Hlt). apply tightest_intro; [exists (acoshR r1), r1; split; [easy|split; [unfold from1; lra|easy]]| |].
  + apply glow_inc_att with 1.
    * split; [|unfold from1; lra]. split; [now rewrite A1|now rewrite B1].
    * intros r [Hr Hd]. now apply acoshR_le; [lra|].
    * rewrite <- (@B2R_f1 F) at 1. apply acosh_RD; [fin|rewrite B2R_f1; lra].
  + change (mpfr_acosh mode_UP finf) with (@finf F). apply gupp_inc_unb. intros B.
    destruct (B2 (Rmax 1 (cosh (Rmax B 0 + 1)))) as (r & Hr & Hl).
    assert (M1 := Rmax_l 1 (cosh (Rmax B 0 + 1))). assert (M2 := Rmax_r 1 (cosh (Rmax B 0 + 1))).
    assert (N1 := Rmax_l B 0). assert (N2 := Rmax_r B 0).
    exists r. split; [split; [easy|unfold from1; lra]|].
    apply Rlt_le_trans with (Rmax B 0 + 1); [lra|]. rewrite <- (acoshR_cosh (Rmax B 0 + 1)) by lra.
    apply acoshR_le; [apply cosh_ge1|lra].
Qed.

(** ** atanh *)
Lemma atanh_low a x : is_finite a = true -> -1 <= B2R a < 1 ->
  (forall r, mem r x /\ inside1 r -> B2R a <= r) ->
  (-1 < B2R a -> mem (B2R a) x) ->
  (B2R a = -1 -> forall e, 0 < e -> exists r, (mem r x /\ inside1 r) /\ r < -1 + e) ->
  glow (image1 inside1 atanhR x) (mpfr_atanh mode_DN a).
Proof.
intros Fa H1 H2 H3 H4. unfold mpfr_atanh. rewrite Fa.
destruct (Rle_lt_or_eq_dec _ _ (proj1 H1)) as [Hlt|Heq].
- rewrite Rlt_bool_true by (apply Rabs_lt; lra).
  apply glow_inc_att with (B2R a); [split; [auto|unfold inside1; lra]| |apply rround_RD].
  intros r Hr. specialize (H2 r Hr). destruct Hr as [_ [_ Hr]]. now apply atanhR_le.
- rewrite Rlt_bool_false by (rewrite <- Heq, Rabs_left; lra). rewrite Req_bool_false by lra.
  rewrite Req_bool_true by easy. apply glow_inc_unb. intros B.
  pose proof (tanh_lt1 (B - 1)) as T. apply Rabs_def2 in T || idtac.
  destruct (H4 (eq_sym Heq) (tanh (B - 1) + 1)) as (r & (Hm & Hr) & Hl); [lra|].
  exists r. split; [easy|]. apply Rle_lt_trans with (B - 1); [|lra].
  rewrite <- (atanhR_tanh (B - 1)). unfold inside1 in Hr. apply atanhR_le; lra.
Qed.
Lemma atanh_upp a x : is_finite a = true -> -1 < B2R a <= 1 ->
  (forall r, mem r x /\ inside1 r -> r <= B2R a) ->
  (B2R a < 1 -> mem (B2R a) x) ->
  (B2R a = 1 -> forall e, 0 < e -> exists r, (mem r x /\ inside1 r) /\ 1 - e < r) ->
  gupp (image1 inside1 atanhR x) (mpfr_atanh mode_UP a).
Proof.
intros Fa H1 H2 H3 H4. unfold mpfr_atanh. rewrite Fa.
destruct (Rle_lt_or_eq_dec _ _ (proj2 H1)) as [Hlt|Heq].
- rewrite Rlt_bool_true by (apply Rabs_lt; lra).
  apply gupp_inc_att with (B2R a); [split; [auto|unfold inside1; lra]| |apply rround_RU].
  intros r Hr. specialize (H2 r Hr). destruct Hr as [_ [Hr _]]. now apply atanhR_le.
- rewrite Rlt_bool_false by (rewrite Heq, Rabs_pos_eq; lra). rewrite Req_bool_true by easy.
  apply gupp_inc_unb. intros B.
  pose proof (tanh_lt1 (B + 1)) as T. apply Rabs_def2 in T || idtac.
  destruct (H4 Heq (1 - tanh (B + 1))) as (r & (Hm & Hr) & Hl); [lra|].
  exists r. split; [easy|]. apply Rlt_le_trans with (B + 1); [lra|].
  rewrite <- (atanhR_tanh (B + 1)). unfold inside1 in Hr. apply atanhR_le; lra.
Qed.

Lemma clip_l a : a = fminf \/ is_finite a = true -> fge a f1 = false ->
  let c := if flt a fm1 then fm1 else a in
  is_finite c = true /\ -1 <= B2R c < 1 /\ forall r, -1 <= r -> lb a r <-> B2R c <= r.
Proof.
intros [->|Fa] H.
- rewrite flt_minf_l by fin. cbv zeta. rewrite (@B2R_fm1 F). split; [fin|split; [lra|]]. intros r Hr. now split.
- rewrite fge_fin, (@B2R_f1 F) in H by fin. revert H. case Rle_bool_spec; [easy|]. intros H _.
  rewrite flt_fin, (@B2R_fm1 F) by fin. case Rlt_bool_spec; intros H1; cbv zeta.
  + rewrite (@B2R_fm1 F). split; [fin|split; [lra|]]. intros r Hr. rewrite lb_fin by easy. lra.
  + split; [easy|split; [lra|]]. intros r Hr. now rewrite lb_fin.
Qed.
Lemma clip_u a : a = finf \/ is_finite a = true -> fle a fm1 = false ->
  let c := if fgt a f1 then f1 else a in
  is_finite c = true /\ -1 < B2R c <= 1 /\ forall r, r <= 1 -> ub a r <-> r <= B2R c.
Proof.
intros [->|Fa] H.
- change (fgt finf f1) with (flt (@f1 F) finf). rewrite flt_pinf_r by fin. cbv zeta. rewrite (@B2R_f1 F).
  split; [fin|split; [lra|]]. intros r Hr. now split.
- rewrite fle_fin, (@B2R_fm1 F) in H by fin. revert H. case Rle_bool_spec; [easy|]. intros H _.
  rewrite fgt_fin, (@B2R_f1 F) by fin. case Rlt_bool_spec; intros H1; cbv zeta.
  + rewrite (@B2R_f1 F). split; [fin|split; [lra|]]. intros r Hr. rewrite ub_fin by easy. lra.
  + split; [easy|split; [lra|]]. intros r Hr. now rewrite ub_fin.
Qed.

Lemma atanh_tightest x : wf x -> computes_tightest (atanh_itv x) (image1 inside1 atanhR x).
Proof.
intros W. unfold atanh_itv. vred.
destruct (isnan (fst x)) eqn:Ex; vred.
{ eapply ct_ret; [reflexivity|]. apply tightest_empty. intros r. now apply image1_empty. }
pose proof (wf_view _ W) as V. destruct (wview_nonempty x V Ex) as [r0 Hr0].
assert (KL : fst x = fminf \/ is_finite (fst x) = true) by (destruct (low_end_fst x V Ex) as [[]|[]]; tauto).
assert (KU : snd x = finf \/ is_finite (snd x) = true) by (destruct (upp_end_snd x V Ex) as [[]|[]]; tauto).
destruct (fle (snd x) fm1) eqn:E1; vred.
{ eapply ct_ret; [reflexivity|]. apply tightest_empty. intros t (r & [_ Hr] & [Hd _] & _).
  destruct KU as [E|KU]; [rewrite E in E1; now rewrite fle_pinf_l in E1 by fin|].
  rewrite fle_fin, (@B2R_fm1 F) in E1 by fin. revert E1. case Rle_bool_spec; [|easy]. intros H _.
  rewrite ub_fin in Hr by easy. lra. }
destruct (fge (fst x) f1) eqn:E2; vred.
{ eapply ct_ret; [reflexivity|]. apply tightest_empty. intros t (r & [Hr _] & [_ Hd] & _).
  destruct KL as [E|KL]; [rewrite E in E2; change (fge fminf f1) with (fle (@f1 F) fminf) in E2; now rewrite fle_minf_r in E2 by fin|].
  rewrite fge_fin, (@B2R_f1 F) in E2 by fin. revert E2. case Rle_bool_spec; [|easy]. intros H _.
  rewrite lb_fin in Hr by easy. lra. }
eapply ct_ret; [reflexivity|].
destruct (clip_l _ KL E2) as (Fl & Bl & Ml). destruct (clip_u _ KU E1) as (Fu & Bu & Mu).
set (l := if flt (fst x) fm1 then fm1 else fst x) in *. set (u := if fgt (snd x) f1 then f1 else snd x) in *.
assert (Mm : forall r, -1 <= r <= 1 -> mem r x <-> B2R l <= r <= B2R u).
{ intros r Hr. unfold mem. rewrite Ml, Mu by lra. tauto. }
assert (Llu : B2R l <= B2R u).
{ destruct KL as [E|KL]; [unfold l; rewrite E, flt_minf_l, (@B2R_fm1 F) by fin; lra|].
  destruct KU as [E|KU]; [unfold u; rewrite E; change (fgt finf f1) with (flt (@f1 F) finf); rewrite flt_pinf_r, (@B2R_f1 F) by fin; lra|].
  assert (H : B2R (fst x) <= B2R (snd x)).
  { destruct Hr0 as [H1 H2]. rewrite lb_fin in H1 by easy. rewrite ub_fin in H2 by easy. lra. }
  unfold l, u. rewrite flt_fin, fgt_fin, (@B2R_fm1 F), (@B2R_f1 F) by fin.
  unfold l, u in Bl, Bu. rewrite flt_fin, (@B2R_fm1 F) in Bl by fin. rewrite fgt_fin, (@B2R_f1 F) in Bu by fin.
  revert Bl Bu. case Rlt_bool_spec; case Rlt_bool_spec; rewrite ?(@B2R_f1 F), ?(@B2R_fm1 F); lra. }
assert (NE : exists r, mem r x /\ inside1 r).
{ destruct (Rle_lt_or_eq_dec _ _ (proj1 Bl)) as [H|H].
  - exists (B2R l). split; [apply Mm|unfold inside1]; lra.
  - destruct (Rle_lt_or_eq_dec _ _ (proj2 Bu)) as [H'|H'].
    + exists (B2R u). split; [apply Mm|unfold inside1]; lra.
    + exists 0. split; [apply Mm|unfold inside1]; lra. }
apply tightest_intro.
- destruct NE as (r & H1 & H2). now exists (atanhR r), r.
- apply atanh_low; try easy.
  + intros r [Hr Hi]. unfold inside1 in Hi. apply Mm in Hr; lra.
  + intros H. apply Mm; lra.
  + intros H e He. exists (Rmin (-1 + e / 2) (Rmin 0 (B2R u / 2 - /2))).
    unfold inside1. rewrite Mm; unfold Rmin; repeat destruct Rle_dec; lra.
- apply atanh_upp; try easy.
  + intros r [Hr Hi]. unfold inside1 in Hi. apply Mm in Hr; lra.
  + intros H. apply Mm; lra.
  + intros H e He. exists (Rmax (1 - e / 2) (Rmax 0 (B2R l / 2 + /2))).
    unfold inside1. rewrite Mm; unfold Rmax; repeat destruct Rle_dec; lra.
Qed.

(** ** Step functions *)
Lemma step_tightest (f : R -> R) (ev : float F -> float F) x :
  (forall r s, r <= s -> f r <= f s) ->
  (forall a, is_finite a = true -> is_finite (ev a) = true /\ B2R (ev a) = f (B2R a)) ->
  lim_lo f (ev fminf) -> lim_up f (ev finf) -> wf x ->
  computes_tightest (mif (mor (mnot (is_valid x)) (is_empty x)) (ret empty)
                      (ret (ev (fst x), ev (snd x)))) (image1 everywhere f x).
Proof.
intros Hf Hev HL HU W. vred.
destruct (isnan (fst x)) eqn:Ex; vred.
{ eapply ct_ret; [reflexivity|]. apply tightest_empty. intros r. now apply image1_empty. }
eapply ct_ret; [reflexivity|].
pose proof (wf_view _ W) as V. destruct (wview_nonempty x V Ex) as [r0 Hr0].
apply tightest_intro; [exists (f r0), r0; easy| |].
- destruct (low_end_fst x V Ex) as [(H1 & H2 & H3)|(H1 & H2)].
  + apply glow_inc_att with (B2R (fst x)); [easy|intros r [Hr _]; now apply Hf, H3|].
    destruct (Hev _ H1) as [G1 G2]. rewrite <- G2. now apply is_RD_self.
  + rewrite H1. destruct HL as [(E & H)|(g & Hg & Hb & He)].
    * rewrite E. apply glow_inc_unb. intros B. destruct (H B) as [M HM].
      destruct (H2 M) as (r & Hr & Hlt). exists r. split; [easy|].
      pose proof (Hf r M). lra.
    * apply glow_inc_lim with g; [now intros r _| |easy].
      intros e Hpos. destruct (He e Hpos) as [M HM]. destruct (H2 M) as (r & Hr & Hlt).
      exists r. split; [easy|]. pose proof (Hf r M). lra.
- destruct (upp_end_snd x V Ex) as [(H1 & H2 & H3)|(H1 & H2)].
  + apply gupp_inc_att with (B2R (snd x)); [easy|intros r [Hr _]; now apply Hf, H3|].
    destruct (Hev _ H1) as [G1 G2]. rewrite <- G2. now apply is_RU_self.
  + rewrite H1. destruct HU as [(E & H)|(g & Hg & Hb & He)].
    * rewrite E. apply gupp_inc_unb. intros B. destruct (H B) as [M HM].
      destruct (H2 M) as (r & Hr & Hlt). exists r. split; [easy|].
      pose proof (Hf M r). lra.
    * apply gupp_inc_lim with g; [now intros r _| |easy].
      intros e Hpos. destruct (He e Hpos) as [M HM]. destruct (H2 M) as (r & Hr & Hlt).
      exists r. split; [easy|]. pose proof (Hf M r). lra.
Qed.

Lemma sign_tightest x : wf x -> computes_tightest (sign_itv x) (image1 everywhere signR x).
Proof.
apply (step_tightest signR (fun a => if flt a f0 then fm1 else if feq a f0 then f0 else f1)).
- apply signR_le.
- intros a Fa. rewrite flt_fin, feq_fin, (@B2R_f0 F) by fin. unfold signR.
  case Rlt_bool_spec; intros H1; [|case Req_bool_spec; intros H2]; (split; [fin|]);
    rewrite ?(@B2R_fm1 F), ?(@B2R_f1 F), ?(@B2R_f0 F); repeat destruct Rlt_dec; try lra.
- rewrite flt_minf_l by fin. right. exists (-1). split; [apply is_RD_fm1|]. split.
  + intros r. unfold signR. repeat destruct Rlt_dec; lra.
  + intros e He. exists (-1). unfold signR. repeat destruct Rlt_dec; lra.
- rewrite flt_pinf_l, feq_pinf_l by fin. right. exists 1. split; [apply is_RU_f1|]. split.
  + intros r. unfold signR. repeat destruct Rlt_dec; lra.
  + intros e He. exists 1. unfold signR. repeat destruct Rlt_dec; lra.
Qed.

Lemma nearbyint_fin m a : is_finite a = true ->
  is_finite (Bnearbyint m a) = true /\ B2R (Bnearbyint m a) = IZR (round_mode m (B2R a)).
Proof.
intros Fa. destruct (Bnearbyint_correct _ _ _ m a) as (H1 & H2 & _). split; [now rewrite H2|].
rewrite H1. unfold round, F2R, scaled_mantissa, cexp, FIX_exp. simpl. now rewrite 2!Rmult_1_r.
Qed.
Lemma int_step_tightest (g : R -> Z) m x : (forall r, g r = round_mode m r) -> wf x ->
  computes_tightest (mif (mor (mnot (is_valid x)) (is_empty x)) (ret empty)
                      (ret (Bnearbyint m (fst x), Bnearbyint m (snd x)))) (image1 everywhere (fun r => IZR (g r)) x).
Proof.
intros Hg. apply (step_tightest (fun r => IZR (g r)) (Bnearbyint m)).
- intros r s H. apply IZR_le. rewrite !Hg. now apply Zrnd_le; [apply valid_rnd_round_mode|].
- intros a Fa. rewrite Hg. now apply nearbyint_fin.
- left. split; [easy|]. intros B. exists (IZR (Zfloor B - 1)). rewrite Hg, Zrnd_IZR by apply valid_rnd_round_mode.
  rewrite minus_IZR. pose proof (Zfloor_lb B). lra.
- left. split; [easy|]. intros B. exists (IZR (Zceil B + 1)). rewrite Hg, Zrnd_IZR by apply valid_rnd_round_mode.
  rewrite plus_IZR. pose proof (Zceil_ub B). lra.
Qed.
Lemma ceil_tightest x : wf x -> computes_tightest (ceil_itv x) (image1 everywhere ceilR x).
Proof. now apply (int_step_tightest Zceil mode_UP). Qed.
Lemma floor_tightest x : wf x -> computes_tightest (floor_itv x) (image1 everywhere floorR x).
Proof. now apply (int_step_tightest Zfloor mode_DN). Qed.
Lemma truncR_Ztrunc r : truncR r = IZR (Ztrunc r).
Proof. unfold truncR, Ztrunc, ceilR, floorR. case Rlt_bool_spec; destruct Rlt_dec; intros; try easy; lra. Qed.
Lemma image1_fext (d : R -> Prop) f g x t : (forall r, f r = g r) -> image1 d f x t <-> image1 d g x t.
Proof. intros E. split; intros (r & H1 & H2 & ->); exists r; rewrite ?E; easy. Qed.
Lemma ct_ext (m : M (itv F)) (S S' : R -> Prop) : (forall r, S r <-> S' r) ->
  computes_tightest m S -> computes_tightest m S'.
Proof. intros E (z & H1 & H2). exists z. split; [easy|]. now apply (tightest_ext S). Qed.
Lemma trunc_tightest x : wf x -> computes_tightest (trunc_itv x) (image1 everywhere truncR x).
Proof.
intros W. eapply ct_ext; [|now apply (int_step_tightest Ztrunc mode_ZR)].
intros t. apply image1_fext. intros r. now rewrite truncR_Ztrunc.
Qed.
Lemma rte_tightest x : wf x -> computes_tightest (round_ties_to_even_itv x) (image1 everywhere rteR x).
Proof. now apply (int_step_tightest ZnearestE mode_NE). Qed.
Lemma rta_tightest x : wf x -> computes_tightest (round_ties_to_away_itv x) (image1 everywhere rtaR x).
Proof. now apply (int_step_tightest ZnearestA mode_NA). Qed.

End M.
