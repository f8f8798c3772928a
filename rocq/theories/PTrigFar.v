(** * Refutation: the reverse sine, cosine and tangent report valid operands as invalid

    At a multiple of 2^63 times pi rounded down the branch number is zero, the next branch lies on
    the other side of zero, and its bounds, computed with pi rounded the wrong way, are exchanged. *)
From Coq Require Import ZArith NArith Reals Bool Lra Lia List.
From Flocq Require Import Core.Core Mult_error IEEE754.BinarySingleNaN.
From Verif Require Import Fmt Spec FloatFacts Exc Deco SpecApi SpecElem SpecNum MBase PBase MBool MArith PArith PMul PUnary
  PConv PBool PSetop PElem MTrig PTrigR PTrig PTan PTrigT PDec PDecF PNum MRev SpecRev PRev PRevEven MTrigRev PTrigRev PTrigRev2 PTrigRev3 PRevW PCalm0 PTrigUB PInv PInvOps PCalm1.
Local Open Scope R_scope.

Section T.
Context {F : fmt}.
Implicit Types x y z b c : itv F.
(** ** Numbers *)
Lemma rround_fix m (f : float F) : is_finite f = true -> is_finite (@rround F m false (B2R f)) = true /\ B2R (@rround F m false (B2R f)) = B2R f.
Proof.
intros Ff. pose proof (rround_rnds m false (B2R f) : rnds m (B2R f) (@rround F m false (B2R f))) as H. unfold rnds in H.
rewrite round_generic in H by (apply valid_rnd_round_mode || apply generic_format_B2R).
rewrite Rlt_bool_true in H by apply abs_B2R_lt_emax. tauto.
Qed.
Lemma scaled (f : float F) j : is_finite f = true -> Rabs (B2R f) <= 4 -> (0 <= j)%Z -> (j + 2 < emax F)%Z -> exists g : float F, is_finite g = true /\ B2R g = B2R f * bpow radix2 j.
Proof.
intros Ff L J E. pose proof (rround_rnds mode_DN false (B2R f * bpow radix2 j) : rnds mode_DN _ (@rround F mode_DN false (B2R f * bpow radix2 j))) as H. unfold rnds in H.
rewrite round_generic in H.
- exists (@rround F mode_DN false (B2R f * bpow radix2 j)). rewrite Rlt_bool_true in H; [tauto|].
  rewrite Rabs_mult, (Rabs_pos_eq (bpow _ _)) by apply bpow_ge_0. apply Rle_lt_trans with (bpow radix2 (2 + j)).
  + rewrite bpow_plus. apply Rmult_le_compat_r; [apply bpow_ge_0|]. simpl. lra.
  + apply bpow_lt. lia.
- apply valid_rnd_round_mode.
- apply (mult_bpow_pos_exact_FLT radix2 (SpecFloat.emin (prec F) (emax F)) (prec F)); [apply generic_format_B2R|lia].
Qed.
Lemma get_fix m1 m2 (f : float F) : is_finite f = true -> B2R f = 0 \/ 1 <= Rabs (B2R f) ->
  is_finite (@get_after F m1 m2 (B2R f)) = true /\ B2R (@get_after F m1 m2 (B2R f)) = B2R f.
Proof.
intros Ff H. unfold get_after. case Rlt_bool_spec; intros L.
- destruct H as [H|H]; [|exfalso].
  + rewrite H, raw_0. rewrite <- H. now apply rround_fix.
  + assert (bpow radix2 (emin F + prec F - 1) <= 1); [|lra]. change 1 with (bpow radix2 0). apply bpow_le. pose proof (@emin_small F). lia.
- now apply rround_fix.
Qed.
Lemma exchanged (l u : float F) : is_finite l = true -> is_finite u = true -> B2R u < B2R l -> ~ wf (l, u).
Proof.
intros Fl Fu L [E|(t & T1 & T2)].
- unfold empty_rep in E. injection E as E _. now rewrite E in Fl.
- cbn [fst snd] in *. rewrite lb_fin in T1 by easy. rewrite ub_fin in T2 by easy. lra.
Qed.
Lemma pid_lt : @pid F < @piu F.
Proof.
pose proof (@pid_ok F) as P1. pose proof (@piu_ok F) as P2. destruct (Req_dec (@pid F) PI) as [E|E]; [|lra].
exfalso. apply PI_not_rational. rewrite <- E. apply rational_B2R.
Qed.
Lemma pid_finite : is_finite (@mpfr_const_pi F mode_DN) = true. Proof. apply (@pi_fin F). Qed.
Lemma piu_finite : is_finite (@mpfr_const_pi F mode_UP) = true. Proof. apply (@piu_fin F). Qed.
Lemma fneg_val (f : float F) : B2R (fneg f) = - B2R f. Proof. unfold fneg. now rewrite B2R_Bopp. Qed.

(** ** The first branch is zero, the second one has exchanged bounds *)
Lemma box0 pl pu : exists b, @moved F pl pu 0 0 0 = b /\ wf b /\ is_finite (fst b) = true /\ is_finite (snd b) = true /\ B2R (fst b) = 0 /\ B2R (snd b) = 0.
Proof.
eexists. split; [reflexivity|]. unfold moved. rewrite tmp_exact by (apply Z.pow_pos_nonneg; pose proof (fmt_prec1 F); lia).
replace (0 * pl + 0) with (B2R (@f0 F)) by (change (B2R f0) with 0; ring). replace (0 * pu + 0) with (B2R (@f0 F)) by (change (B2R f0) with 0; ring).
destruct (get_fix mode_DN mode_DN f0 eq_refl (or_introl eq_refl)) as [A1 A2]. destruct (get_fix mode_UP mode_UP f0 eq_refl (or_introl eq_refl)) as [B1 B2].
cbn [fst snd]. rewrite A2, B2. split; [|easy]. right. exists 0. split; cbn [fst snd]; [rewrite lb_fin by easy|rewrite ub_fin by easy]; rewrite ?A2, ?B2; change (B2R f0) with 0; lra.
Qed.
Lemma small_tmp k : (Z.abs k <= 2)%Z -> @tmp_of F k = IZR k.
Proof. intros H. apply tmp_exact. apply Z.le_lt_trans with (1 := H). pose proof (fmt_prec1 F). change 2%Z with (2 ^ 1)%Z at 1. apply Z.pow_lt_mono_r; lia. Qed.
Lemma bad_moved : ~ wf (@moved F (@pid F) (@piu F) 0 0 (-1)).
Proof.
unfold moved. rewrite small_tmp by lia. pose proof pid_lt as L. pose proof (@pid_ok F) as P1. pose proof (@piu_ok F) as P2. pose proof pi34 as P3.
assert (E1 : -1 * @pid F + 0 = B2R (fneg (@mpfr_const_pi F mode_DN))) by (rewrite fneg_val; unfold pid; ring).
assert (E2 : -1 * @piu F + 0 = B2R (fneg (@mpfr_const_pi F mode_UP))) by (rewrite fneg_val; unfold piu; ring).
rewrite E1, E2. destruct (get_fix mode_DN mode_DN (fneg (@mpfr_const_pi F mode_DN))) as [A1 A2].
{ rewrite fin_fneg. apply pid_finite. } { right. rewrite <- E1, Rabs_left1; lra. }
destruct (get_fix mode_UP mode_UP (fneg (@mpfr_const_pi F mode_UP))) as [B1 B2].
{ rewrite fin_fneg. apply piu_finite. } { right. rewrite <- E2, Rabs_left1; lra. }
apply exchanged; try easy. rewrite A2, B2, <- E1, <- E2. lra.
Qed.
Lemma bad_moved' : ~ wf (@moved F (@piu F) (@pid F) 0 0 1).
Proof.
unfold moved. rewrite small_tmp by lia. pose proof pid_lt as L. pose proof (@pid_ok F) as P1. pose proof (@piu_ok F) as P2. pose proof pi34 as P3.
assert (E1 : 1 * @pid F + 0 = B2R (@mpfr_const_pi F mode_DN)) by (unfold pid; ring).
assert (E2 : 1 * @piu F + 0 = B2R (@mpfr_const_pi F mode_UP)) by (unfold piu; ring).
rewrite E1, E2. destruct (get_fix mode_UP mode_UP (@mpfr_const_pi F mode_DN)) as [A1 A2].
{ apply pid_finite. } { right. rewrite <- E1, Rabs_pos_eq; lra. }
destruct (get_fix mode_DN mode_DN (@mpfr_const_pi F mode_UP)) as [B1 B2].
{ apply piu_finite. } { right. rewrite <- E2, Rabs_pos_eq; lra. }
apply exchanged; try easy. rewrite A2, B2, <- E1, <- E2. lra.
Qed.
Lemma bad_mirrored : ~ wf (@mirrored F (@pid F) (@piu F) 0 0 1).
Proof.
unfold mirrored. rewrite small_tmp by lia. pose proof pid_lt as L. pose proof (@pid_ok F) as P1. pose proof (@piu_ok F) as P2. pose proof pi34 as P3.
assert (E1 : 1 * @pid F + 0 = B2R (@mpfr_const_pi F mode_DN)) by (unfold pid; ring).
assert (E2 : 1 * @piu F + 0 = B2R (@mpfr_const_pi F mode_UP)) by (unfold piu; ring).
rewrite E1, E2. destruct (get_fix mode_UP mode_DN (@mpfr_const_pi F mode_DN)) as [A1 A2].
{ apply pid_finite. } { right. rewrite <- E1, Rabs_pos_eq; lra. }
destruct (get_fix mode_DN mode_UP (@mpfr_const_pi F mode_UP)) as [B1 B2].
{ apply piu_finite. } { right. rewrite <- E2, Rabs_pos_eq; lra. }
apply exchanged; rewrite ?fin_fneg, ?fneg_val, ?A2, ?B2; try easy. rewrite <- E1, <- E2. lra.
Qed.
(** The cosine: branch 1 is moved by two periods. *)
Lemma bad_mirrored2 : (4 < emax F)%Z -> ~ wf (@mirrored F (@piu F) (@pid F) 0 0 (-2)).
Proof.
intros HE. unfold mirrored. rewrite small_tmp by lia. pose proof pid_lt as L. pose proof (@pid_ok F) as P1. pose proof (@piu_ok F) as P2. pose proof pi34 as P3. pose proof (@piu_fin F) as [_ P4].
destruct (scaled (fneg (@mpfr_const_pi F mode_DN)) 1) as (g & Fg & Eg); try lia.
{ rewrite fin_fneg. apply pid_finite. } { rewrite fneg_val, Rabs_Ropp. fold (@pid F). rewrite Rabs_pos_eq; lra. }
destruct (scaled (fneg (@mpfr_const_pi F mode_UP)) 1) as (h & Fh & Eh); try lia.
{ rewrite fin_fneg. apply piu_finite. } { rewrite fneg_val, Rabs_Ropp. fold (@piu F). rewrite Rabs_pos_eq; lra. }
assert (E1 : -2 * @pid F + 0 = B2R g) by (rewrite Eg, fneg_val; unfold pid; change (bpow radix2 1) with 2; ring).
assert (E2 : -2 * @piu F + 0 = B2R h) by (rewrite Eh, fneg_val; unfold piu; change (bpow radix2 1) with 2; ring).
rewrite E1, E2. destruct (get_fix mode_DN mode_UP g Fg) as [A1 A2].
{ right. rewrite <- E1, Rabs_left1; lra. }
destruct (get_fix mode_UP mode_DN h Fh) as [B1 B2].
{ right. rewrite <- E2, Rabs_left1; lra. }
apply exchanged; rewrite ?fin_fneg, ?fneg_val, ?A2, ?B2; try easy. rewrite <- E1, <- E2. lra.
Qed.

(** ** The argument interval *)
Lemma far_bound : (65 < emax F)%Z -> exists X : float F, is_finite X = true /\ B2R X = IZR (2 ^ 63) * @pid F.
Proof.
intros HE. destruct (scaled (@mpfr_const_pi F mode_DN) 63) as (g & Fg & Eg); try lia.
{ apply pid_finite. } { fold (@pid F). pose proof (@pid_ok F). pose proof pi34. rewrite Rabs_pos_eq; lra. }
exists g. split; [easy|]. rewrite Eg. fold (@pid F). change (bpow radix2 63) with (IZR (2 ^ 63)). ring.
Qed.
Lemma rq_far s : s = 1%Z \/ s = (-1)%Z -> remquo (IZR (s * 2 ^ 63) * @pid F) (@pid F) = (0, 0%Z).
Proof.
intros Hs. pose proof (@pid_ok F). pose proof pi34. unfold remquo. replace (IZR (s * 2 ^ 63) * @pid F / @pid F) with (IZR (s * 2 ^ 63)) by (field; lra).
rewrite (Znearest_imp _ (IZR (s * 2 ^ 63)) (s * 2 ^ 63)) by (unfold Rminus; rewrite Rplus_opp_r, Rabs_R0; lra).
f_equal; [ring|]. destruct Hs as [->| ->]; reflexivity.
Qed.
Variable X : float F.
Hypotheses (FX : is_finite X = true) (EX : B2R X = IZR (2 ^ 63) * @pid F).
Lemma X_big : 100 <= B2R X.
Proof. rewrite EX. pose proof (@pid_ok F). pose proof pi34. assert (100 <= IZR (2 ^ 63)) by (apply IZR_le; lia). nra. Qed.
Definition xr : itv F := (f1, X).
Definition xl : itv F := (fneg X, fm1).
Lemma xr_wf : wf xr.
Proof. right. exists 1. pose proof X_big. split; cbn [fst snd xr]; [rewrite lb_fin, B2R_f1 by apply is_finite_f1; lra|rewrite ub_fin by easy; lra]. Qed.
Lemma xl_wf : wf xl.
Proof.
right. exists (-1). pose proof X_big. split; cbn [fst snd xl].
- rewrite lb_fin, fneg_val by (now rewrite fin_fneg). lra.
- rewrite ub_fin, B2R_fm1 by apply is_finite_fm1. lra.
Qed.
Lemma hit_box b x : wf b -> wf x -> is_finite (fst b) = true -> is_finite (snd x) = true -> B2R (snd x) < B2R (fst b) -> intersection b x = ret empty.
Proof.
intros Wb Wx Fb Fx L. destruct (intersection_exact b x Wb Wx) as (z & E & W & H). rewrite E. f_equal. apply wf_none; [easy|].
intros t Ht. apply H in Ht as [[A _] [_ B]]. rewrite lb_fin in A by easy. rewrite ub_fin in B by easy. lra.
Qed.
Lemma try_bad b0 b1 x : intersection b0 x = ret empty -> ~ wf b1 -> try_two (ret b0) (ret b1) x = inv empty_rep.
Proof.
intros E N. unfold try_two. mreds. rewrite E. mreds. rewrite is_empty_wf by now left. mreds. apply inv_eq. apply inv_intersection. now left.
Qed.
Lemma right_bad kind : kind = None \/ kind = Some 0%Z -> right_box kind true 0 0 xr = inv empty_rep.
Proof.
intros K. pose proof X_big as XB. unfold right_box. cbn [fst snd xr].
assert (E1 : feq X finf = false) by now destruct X. rewrite E1.
assert (E2 : fgt X f0 = true). { change (flt f0 X = true). rewrite flt_fin by easy. apply Rlt_bool_true. change (B2R f0) with 0. lra. } rewrite E2. cbv zeta iota.
rewrite EX. pose proof (rq_far 1 (or_introl eq_refl)) as RQ. rewrite Z.mul_1_l in RQ. rewrite RQ. cbn [fst snd]. rewrite Rlt_bool_false by lra.
rewrite lchk_ok by lia. destruct (box0 (@pid F) (@piu F)) as (b & Eb & Wb & B1 & B2 & B3 & B4).
assert (EB : branch kind (@pid F) (@piu F) 0 0 0 0 = ret b). { unfold branch. rewrite lchk_ok by lia. simpl (0 + 0)%Z. rewrite Eb. now destruct K as [->| ->]. }
assert (MB : intersection b xr = ret empty). { apply miss_box; try easy; [apply xr_wf|apply is_finite_f1|]. cbn [fst xr]. rewrite B2R_f1, B4. lra. }
assert (NB : exists b1, branch kind (@pid F) (@piu F) 0 0 0 (-1) = ret b1 /\ ~ wf b1).
{ unfold branch. rewrite lchk_ok by lia. destruct K as [->| ->].
  - eexists. split; [reflexivity|]. apply bad_moved.
  - change (Z.even (0 + -1)) with false. cbv iota. rewrite !lchk_ok by lia. eexists. split; [reflexivity|]. apply bad_mirrored. }
destruct NB as (b1 & EB1 & NB). rewrite EB, EB1. now apply try_bad.
Qed.
Lemma left_bad kind : (4 < emax F)%Z -> kind = None \/ kind = Some 1%Z -> left_box kind 0 0 xl = inv empty_rep.
Proof.
intros HE K. pose proof X_big as XB. unfold left_box. cbn [fst snd xl].
assert (E1 : feq (fneg X) fminf = false) by now destruct X. rewrite E1.
assert (E2 : flt (fneg X) f0 = true). { rewrite flt_fin by (easy || now rewrite fin_fneg). apply Rlt_bool_true. rewrite fneg_val. change (B2R f0) with 0. lra. } rewrite E2. cbv zeta iota.
rewrite fneg_val, EX. pose proof (rq_far (-1) (or_intror eq_refl)) as RQ.
replace (- (IZR (2 ^ 63) * @pid F)) with (IZR (-1 * 2 ^ 63) * @pid F) by (rewrite (mult_IZR (-1)); ring). rewrite RQ. cbn [fst snd]. rewrite Rlt_bool_false by lra.
rewrite lchk_ok by lia. destruct (box0 (@piu F) (@pid F)) as (b & Eb & Wb & B1 & B2 & B3 & B4).
assert (EB : branch kind (@piu F) (@pid F) 0 0 0 0 = ret b). { unfold branch. rewrite lchk_ok by lia. simpl (0 + 0)%Z. rewrite Eb. now destruct K as [->| ->]. }
assert (MB : intersection b xl = ret empty). { apply hit_box; try easy; [apply xl_wf|apply is_finite_fm1|]. cbn [snd xl]. rewrite B2R_fm1, B3. lra. }
assert (NB : exists b1, branch kind (@piu F) (@pid F) 0 0 0 1 = ret b1 /\ ~ wf b1).
{ unfold branch. rewrite lchk_ok by lia. destruct K as [->| ->].
  - eexists. split; [reflexivity|]. apply bad_moved'.
  - change (Z.even (0 + 1)) with false. cbv iota. rewrite !lchk_ok by lia. eexists. split; [reflexivity|]. now apply bad_mirrored2. }
destruct NB as (b1 & EB1 & NB). rewrite EB, EB1. now apply try_bad.
Qed.
Lemma fits_1 v : Rabs v <= 1 -> @fits F v.
Proof. intros H. apply Rle_trans with (1 := H). change 1 with (bpow radix2 0). apply bpow_le. pose proof (fmt_prec1 F). lia. Qed.
Lemma base_zero kind : kind = None \/ kind = Some 0%Z \/ kind = Some 1%Z -> @base F kind 0 0 0 0.
Proof.
pose proof pi34. pose proof (@pid_ok F). intros [->|[->| ->]]; (split; [lra|]); (split; [lra|]); (split; [lra|]).
- split; [now left|]. repeat split; lra.
- split; [now right|]. repeat split; lra.
- assert (0 <= @pid F) by lra. split; [lra|]. split; [lra|]. split; [split; lra|]. split; [split; lra|]. split; now left.
Qed.
Lemma two_bad_right kind : kind = None \/ kind = Some 0%Z -> exists v, two_boxes kind true 0 0 xr = inv v.
Proof.
intros K. unfold two_boxes. rewrite right_bad by easy.
destruct (@left_total F kind 0 0 0 0 xr) as (l & El & Wl).
{ apply base_zero. tauto. } { apply xr_wf. } { apply is_finite_f1. } { apply fits_1. cbn [fst xr]. rewrite B2R_f1, Rabs_R1. lra. }
rewrite El. mreds. destruct (hull_tightest l empty_rep Wl (or_introl eq_refl)) as (z & Ez & _). apply returns_eq in Ez. exists z. now apply bind_inv_ret.
Qed.
Lemma two_bad_left kind up : (4 < emax F)%Z -> kind = None \/ kind = Some 1%Z -> up = (match kind with Some 1%Z => false | _ => true end) -> exists v, two_boxes kind up 0 0 xl = inv v.
Proof.
intros HE K Hup. unfold two_boxes. rewrite left_bad by easy.
destruct (@right_total F kind up 0 0 0 0 xl) as (l & El & Wl).
{ apply base_zero. tauto. } { apply xl_wf. } { apply is_finite_fm1. } { apply fits_1. cbn [snd xl]. rewrite B2R_fm1, Rabs_left1; lra. } { exact Hup. }
destruct (hull_tightest empty_rep l (or_introl eq_refl) Wl) as (z & Ez & _). apply returns_eq in Ez. exists z. apply bind_inv_ret. rewrite El. mreds. exact Ez.
Qed.
Definition cz : itv F := (f0, f0).
Definition co : itv F := (f1, f1).
Lemma cz_wf : wf cz. Proof. right. exists 0. split; cbn; lra. Qed.
Lemma co_wf : wf co. Proof. right. exists 1. apply point_mem; try apply is_finite_f1. rewrite B2R_f1. lra. Qed.
(** A point within [-1,1]. *)
Lemma unit_point (f : float F) : is_finite f = true -> -1 <= B2R f <= 1 ->
  exists cc, intersection (f, f) (fm1, f1) = ret cc /\ is_empty cc = ret false /\ equal cc (fm1, f1) = ret false /\ B2R (fst cc) = B2R f /\ B2R (snd cc) = B2R f.
Proof.
intros Ff Bf. assert (W : wf (f, f)) by (right; exists (B2R f); apply point_mem; try easy; lra).
destruct (intersection_exact (f, f) (fm1, f1) W unit_wf) as (cc & Ec & Wcc & Hcc). exists cc. split; [easy|].
assert (Hcc' : forall r, mem r cc <-> B2R f <= r <= B2R f). { intros r. rewrite Hcc, unit_mem, point_mem by easy. lra. }
assert (Ncc : isnan (fst cc) = false). { destruct (isnan (fst cc)) eqn:E; [|easy]. exfalso. apply (nan_no_mem cc (B2R f) Wcc E). apply Hcc'. lra. }
rewrite is_empty_wf, Ncc by easy. split; [easy|]. rewrite (not_one cc Wcc).
2:{ destruct (Rle_or_lt (B2R f) 0); [exists 1|exists (-1)]; rewrite Hcc'; lra. }
split; [easy|].
destruct (unit_part _ cc Wcc Ncc Hcc) as (F1 & F2 & B1 & B2 & B3). destruct cc as [l u]. cbn [fst snd] in *.
assert (M1 : mem (B2R l) (l, u)) by (apply point_mem; try easy; lra). assert (M2 : mem (B2R u) (l, u)) by (apply point_mem; try easy; lra).
apply Hcc' in M1, M2. lra.
Qed.
Lemma xr_nonempty : isnan (fst xr) = false. Proof. pose proof (@is_finite_f1 F). cbn [fst xr]. now destruct (@f1 F). Qed.
Lemma xl_nonempty : isnan (fst xl) = false. Proof. cbn [fst xl]. now destruct X. Qed.
Lemma sin_rev_reports : exists v, reports_invalid (sin_rev cz xr) v.
Proof.
destruct (two_bad_right (Some 0%Z) (or_intror eq_refl)) as (v & E). exists v. apply inv_eq.
unfold sin_rev. rewrite !is_valid_wf, !is_empty_wf, xr_nonempty by (apply cz_wf || apply xr_wf). mreds.
destruct (unit_point f0 eq_refl ltac:(change (B2R f0) with 0; lra)) as (cc & E1 & E2 & E3 & E4 & E5). unfold cz. rewrite E1. mreds. rewrite E2. mreds. rewrite E3. mreds.
rewrite E4, E5. change (B2R f0) with 0. rewrite asin_0, !raw_0. exact E.
Qed.
Lemma tan_rev_reports : exists v, reports_invalid (tan_rev cz xr) v.
Proof.
destruct (two_bad_right None (or_introl eq_refl)) as (v & E). exists v. apply inv_eq.
unfold tan_rev. rewrite !is_valid_wf, !is_empty_wf, xr_nonempty by (apply cz_wf || apply xr_wf). change (isnan (fst cz)) with false. mreds.
assert (E0 : @atan_of F f0 = 0) by (cbn; apply atan_0). cbn [fst snd cz]. rewrite E0, !raw_0. exact E.
Qed.
Lemma cos_rev_reports : (4 < emax F)%Z -> exists v, reports_invalid (cos_rev co xl) v.
Proof.
intros HE. destruct (two_bad_left (Some 1%Z) false HE (or_intror eq_refl) eq_refl) as (v & E). exists v. apply inv_eq.
unfold cos_rev. rewrite !is_valid_wf, !is_empty_wf, xl_nonempty by (apply co_wf || apply xl_wf). mreds.
destruct (unit_point f1 is_finite_f1 ltac:(rewrite B2R_f1; lra)) as (cc & E1 & E2 & E3 & E4 & E5). unfold co. rewrite E1. mreds. rewrite E2. mreds. rewrite E3. mreds.
rewrite E4, E5, B2R_f1, acos_1, !raw_0. exact E.
Qed.
End T.
