(** * Root finding: checkable conditions, the two programs, and runs that never stop *)
From Coq Require Import ZArith Reals Bool List Lia Lra Classical.
From Flocq Require Import Core.Core IEEE754.BinarySingleNaN.
From Verif Require Import Fmt FloatFacts Spec Exc SpecApi SpecNum SpecRel SpecRev SpecRoots MBase MBool MArith MNum MRev MRoots PBase PConv PBool PClass PDec PNumF PArith PMul PSetop PRevW PTan PRoots PRoots2 Ex.
Import ListNotations.
Local Open Scope R_scope.
Local Open Scope list_scope.

(** ** Thin intervals are narrow *)
Section W.
Context {F : fmt}.
Implicit Types x v : itv F.

Lemma grid_float (k e : Z) : (emin F <= e)%Z -> Rabs (IZR k) <= bpow radix2 (prec F) -> Rabs (IZR k * bpow radix2 e) <= B2R (@fmaxv F) ->
  exists c : float F, is_finite c = true /\ B2R c = IZR k * bpow radix2 e.
Proof.
intros He Hk Hm. apply fmt_float.
- destruct (Rle_lt_or_eq_dec _ _ Hk) as [L|E].
  + apply (generic_format_FLT radix2 (emin F) (prec F)). exists (Float radix2 k e); [easy| |easy].
    simpl. apply lt_IZR. rewrite abs_IZR. change 2%Z with (radix_val radix2). now rewrite IZR_Zpower by (pose proof (fmt_prec1 F); lia).
  + assert (P : k = (2 ^ prec F)%Z \/ k = (- 2 ^ prec F)%Z).
    { rewrite <- abs_IZR, <- IZR_Zpower in E by (pose proof (fmt_prec1 F); lia). apply eq_IZR in E. simpl in E. lia. }
    assert (G : generic_format radix2 (fexp F) (bpow radix2 (prec F + e))).
    { apply generic_format_bpow. unfold fexp, SpecFloat.fexp. unfold SpecFloat.emin, emin in *. pose proof (fmt_prec1 F). lia. }
    destruct P as [-> | ->]; [|rewrite opp_IZR, Ropp_mult_distr_l_reverse; apply generic_format_opp];
    change 2%Z with (radix_val radix2); rewrite IZR_Zpower, <- bpow_plus by (pose proof (fmt_prec1 F); lia); exact G.
- apply Rle_lt_trans with (1 := Hm). apply fmaxv_lt.
Qed.
Lemma pow_float (e : Z) : (emin F <= e < emax F)%Z -> exists c : float F, is_finite c = true /\ B2R c = bpow radix2 e.
Proof.
intros [H1 H2]. apply fmt_float.
- apply generic_format_bpow. unfold fexp, SpecFloat.fexp. unfold SpecFloat.emin, emin in *. pose proof (fmt_prec1 F). lia.
- rewrite Rabs_pos_eq by apply bpow_ge_0. now apply bpow_lt.
Qed.

Lemma thin_narrow v e : (emin F <= e)%Z -> inhabited_itv v -> thin v ->
  (forall r, mem r v -> Rabs r <= bpow radix2 (e + prec F)) -> forall r s, mem r v -> mem s v -> r - s <= bpow radix2 e.
Proof.
intros He [q Hq] T B r s Hr Hs.
destruct v as [a b].
assert (Fa : is_finite a = true).
{ destruct (fviewP a) as [| | |a Fa]; try easy; try (destruct Hq; easy). exfalso.
  assert (Q : mem (q - Rabs q - bpow radix2 (e + prec F) - 1) (@fminf F, b)).
  { split; [easy|]. apply ub_mono with q; [apply Hq|]. pose proof (Rabs_pos q). pose proof (bpow_ge_0 radix2 (e + prec F)). lra. }
  apply B in Q. apply Rabs_le_inv in Q. pose proof (Rle_abs q). lra. }
assert (Fb : is_finite b = true).
{ destruct (fviewP b) as [| | |b Fb]; try easy; try (destruct Hq; easy). exfalso.
  assert (Q : mem (q + Rabs q + bpow radix2 (e + prec F) + 1) (a, @finf F)).
  { split; [|easy]. apply lb_mono with q; [apply Hq|]. pose proof (Rabs_pos q). pose proof (bpow_ge_0 radix2 (e + prec F)). lra. }
  apply B in Q. apply Rabs_le_inv in Q. pose proof (Rle_abs (- q)). rewrite Rabs_Ropp in H. lra. }
assert (M : forall t, mem t (a, b) <-> B2R a <= t <= B2R b).
{ intros t. unfold mem. cbn [fst snd]. now rewrite lb_fin, ub_fin. }
apply M in Hr, Hs, Hq. destruct (Rle_or_lt (r - s) (bpow radix2 e)) as [|L]; [easy|]. exfalso.
pose proof (bpow_gt_0 radix2 e) as P.
set (k := (Zfloor (B2R a / bpow radix2 e) + 1)%Z).
assert (K1 : B2R a < IZR k * bpow radix2 e <= B2R a + bpow radix2 e).
{ pose proof (Zfloor_lb (B2R a / bpow radix2 e)) as L1. pose proof (Zfloor_ub (B2R a / bpow radix2 e)) as L2.
  unfold k. rewrite plus_IZR. apply Rmult_le_compat_r with (r := bpow radix2 e) in L1; [|lra].
  apply Rmult_lt_compat_r with (r := bpow radix2 e) in L2; [|lra].
  unfold Rdiv in L1, L2. rewrite Rmult_assoc, Rinv_l, Rmult_1_r in L1, L2 by lra. lra. }
set (c0 := IZR k * bpow radix2 e) in *.
assert (C0 : B2R a < c0 < B2R b) by lra.
assert (BB : Rabs c0 <= bpow radix2 (e + prec F)) by (apply B, M; lra).
destruct (grid_float k e He) as (c & Fc & Ec).
{ unfold c0 in BB. rewrite Rabs_mult, (Rabs_pos_eq (bpow _ _)), Z.add_comm, bpow_plus in BB by lra.
  now apply Rmult_le_reg_r in BB. }
{ fold c0. pose proof (abs_le_fmaxv a) as A. pose proof (abs_le_fmaxv b) as A'. apply Rabs_le_inv in A, A'. apply Rabs_le. lra. }
fold c0 in Ec. destruct (T c Fc) as [H|H].
- apply M. lra.
- specialize (H (B2R a)). rewrite M in H. lra.
- specialize (H (B2R b)). rewrite M in H. lra.
Qed.
Lemma thin_wid v e (eps : float F) : (emin F <= e < emax F)%Z -> is_finite eps = true -> bpow radix2 e < B2R eps ->
  inhabited_itv v -> thin v ->
  (forall r, mem r v -> Rabs r <= bpow radix2 (e + prec F)) -> forall w, returns (n_wid v) w -> flt w eps = true.
Proof.
intros He Fe Le I T B w Hw.
destruct (n_wid_spec v (mem_wf v I) (mem_nnan v I)) as (w' & E & (Nw & _ & U) & _).
assert (w' = w). { pose proof (Hw (Est 0 0)) as E1. rewrite (E (Est 0 0)) in E1. congruence. } subst w'.
destruct (pow_float e He) as (c & Fc & Ec).
assert (Q : forall t, ub w t -> t <= bpow radix2 e).
{ intros t Ht. rewrite <- Ec. apply (U c) in Ht; [now rewrite ub_fin in Ht|].
  intros r (p & q & Hp & Hq & ->). rewrite ub_fin, Ec by easy. now apply (thin_narrow v e). }
destruct (fviewP w) as [| | |w Fw]; try easy.
- destruct eps; easy.
- specialize (Q (bpow radix2 e + 1) eq_refl). lra.
- rewrite flt_fin by easy. apply Rlt_bool_true. specialize (Q (B2R w)). rewrite ub_fin in Q by easy. lra.
Qed.
End W.

Lemma newton_stops_bounded {F} (C : comparable F binary64) (f df : itv F -> M (itv F)) (eps : float F) (x : itv F) e :
  valid_fun f -> valid_fun df -> inhabited_itv x -> (emin F <= e < emax F)%Z ->
  (forall r, mem r x -> Rabs r <= bpow radix2 (e + prec F)) -> is_finite eps = true -> bpow radix2 e < B2R eps ->
  stops_with (fun n => ia_newton n f df x eps) (fun _ => True).
Proof.
intros Hf Hd Hx He B Fe Le. apply (newton_stops C f df _ _ Hf Hd eps x Hx).
intros v Iv Sv T. apply (thin_wid v e); try easy. intros r Hr. now apply B, Sv.
Qed.

(** ** The functions of the programs *)
Lemma lit_two : nums_to_interval two64 two64 = ret (two64, two64).
Proof. reflexivity. Qed.
Lemma lit_start : nums_to_interval mtwo64 two64 = ret (mtwo64, two64).
Proof. reflexivity. Qed.
Lemma B2R_two : B2R two64 = 2. Proof. b2r. Qed.
Lemma B2R_mtwo : B2R mtwo64 = -2. Proof. b2r. Qed.
Lemma mem_two r : mem r (two64, two64) <-> r = 2.
Proof. unfold mem. cbn [fst snd]. rewrite lb_fin, ub_fin, B2R_two by reflexivity. lra. Qed.
Lemma mem_start r : mem r (mtwo64, two64) <-> -2 <= r <= 2.
Proof. unfold mem. cbn [fst snd]. rewrite lb_fin, ub_fin, B2R_two, B2R_mtwo by reflexivity. lra. Qed.
Lemma wf_two : wf (two64, two64). Proof. right. exists 2. now apply mem_two. Qed.
Lemma start_inh : inhabited_itv (mtwo64, two64). Proof. exists 0. apply mem_start. lra. Qed.
Lemma ex_f_extends : extends ex_f (graph (fun r => r * r - 2)).
Proof.
intros x W. destruct (mul_tightest x x W W) as (p & Ep & Wp & Ip & _).
destruct (sub_tightest p (two64, two64) Wp wf_two) as (y & Ey & Wy & Iy & _). apply returns_eq in Ep, Ey.
exists y. split; [|split; [easy|]].
- apply returns_eq. unfold ex_f. rewrite Ep. mreds. rewrite lit_two. mreds. exact Ey.
- intros r s Hr ->. apply Iy. exists (r * r), 2. split; [apply Ip; now exists r, r|]. split; [now apply mem_two|]. now split.
Qed.
Lemma ex_df_extends : extends ex_df (graph (fun r => 2 * r)).
Proof.
intros x W. destruct (mul_tightest (two64, two64) x wf_two W) as (p & Ep & Wp & Ip & _). apply returns_eq in Ep.
exists p. split; [|split; [easy|]].
- apply returns_eq. unfold ex_df. rewrite lit_two. mreds. exact Ep.
- intros r s Hr ->. apply Ip. exists 2, r. split; [now apply mem_two|]. now repeat split; try apply Hr.
Qed.
Lemma ex_derivative r : derivable_pt_lim (fun r => r * r - 2) r (2 * r).
Proof.
replace (2 * r) with ((1 * r + r * 1) - 0) by lra.
apply (derivable_pt_lim_minus (fun r => r * r) (fun _ => 2)); [|apply derivable_pt_lim_const].
apply (derivable_pt_lim_mult id id); apply derivable_pt_lim_id.
Qed.

(** ** Runs that never stop *)
Definition val {A} (m : M A) (a : A) : A := match m (Est 0 0) with (Ret b, _) => b | _ => a end.
Lemma val_ret {A} (m : M A) a b : m = ret b -> val m a = b. Proof. now intros ->. Qed.
Section Never.
Context {F : fmt} (C : comparable F binary64).
Implicit Types x v : itv F.
Definition stuck (m : M (option (list (itv F)))) : bool := match m (Est 0 0) with (Ret None, _) => true | _ => false end.
Definition same_bits x v : bool :=
  match Bcompare (fst x) (fst v), Bcompare (snd x) (snd v) with Some Eq, Some Eq => true | _, _ => false end.

Context (f : itv F -> M (itv F)) (phi : R -> R -> Prop) (Hf : extends f phi) (eps : float F).
Definition lhalf x : itv F := (val (n_inf x) fnan, val (n_mid x) fnan).
Definition rhalf x : itv F := (val (n_mid x) fnan, val (n_sup x) fnan).
Fixpoint walk (ds : list bool) x : itv F :=
  match ds with [] => x | d :: ds => walk ds (if d then rhalf x else lhalf x) end.
Fixpoint busy (ds : list bool) x : bool :=
  stuck (ia_bisect 1 f x eps) && match ds with [] => true | d :: ds => busy ds (if d then rhalf x else lhalf x) end.

Lemma busy_level x : inhabited_itv x -> stuck (ia_bisect 1 f x eps) = true ->
  inhabited_itv (lhalf x) /\ inhabited_itv (rhalf x) /\
  forall k, ia_bisect (S k) f x eps = then_out (ia_bisect k f (lhalf x) eps) (ia_bisect k f (rhalf x) eps).
Proof.
intros Hx S. destruct (bisect_cases C f phi Hf eps x Hx) as [[E _]|[[E _]|(a & m & b & E & Ea & Em & Eb & Mm & A & B & _)]].
- now rewrite E in S.
- now rewrite E in S.
- unfold lhalf, rhalf. rewrite (val_ret _ _ _ Ea), (val_ret _ _ _ Em), (val_ret _ _ _ Eb).
  split; [exists (B2R m); apply A; split; [easy|lra]|]. split; [exists (B2R m); apply B; split; [easy|lra]|]. easy.
Qed.
Lemma never_child x : inhabited_itv x -> stuck (ia_bisect 1 f x eps) = true ->
  never_stops (fun n => ia_bisect n f (lhalf x) eps) \/ never_stops (fun n => ia_bisect n f (rhalf x) eps) ->
  never_stops (fun n => ia_bisect n f x eps).
Proof.
intros Hx S H n. destruct n as [|n]; [easy|]. destruct (busy_level x Hx S) as (I1 & I2 & E). rewrite E.
destruct (bisect_sound C f phi Hf eps _ I1 n) as (o1 & E1 & _), (bisect_sound C f phi Hf eps _ I2 n) as (o2 & E2 & _).
apply returns_eq in E1, E2. rewrite (then_out_ret _ _ _ _ E1 E2).
assert (Q : forall A (p q : A), ret p = ret q -> p = q).
{ intros A p q Q. apply (f_equal (fun m => m (Est 0 0))) in Q. now injection Q. }
destruct H as [H|H]; specialize (H n); apply returns_eq in H.
- rewrite E1 in H. apply Q in H. now subst o1.
- rewrite E2 in H. apply Q in H. subst o2. now destruct o1.
Qed.
Lemma never_loop x : inhabited_itv x -> stuck (ia_bisect 1 f x eps) = true -> lhalf x = x \/ rhalf x = x ->
  never_stops (fun n => ia_bisect n f x eps).
Proof.
intros Hx S H n. apply returns_eq. induction n as [|n IH]; [easy|].
destruct (busy_level x Hx S) as (I1 & I2 & E). rewrite E.
destruct (bisect_sound C f phi Hf eps _ I1 n) as (o1 & E1 & _). apply returns_eq in E1.
destruct H as [H|H]; rewrite H.
- unfold then_out. rewrite IH. reflexivity.
- unfold then_out. rewrite E1, IH. mreds. now destruct o1.
Qed.
Lemma never_walk ds x : inhabited_itv x -> busy ds x = true ->
  lhalf (walk ds x) = walk ds x \/ rhalf (walk ds x) = walk ds x -> never_stops (fun n => ia_bisect n f x eps).
Proof.
revert x. induction ds as [|d ds IH]; intros x Hx B H; simpl in B; apply andb_prop in B; destruct B as [S B].
- now apply never_loop.
- destruct (busy_level x Hx S) as (I1 & I2 & _). apply never_child; [easy|easy|].
  destruct d; [right|left]; apply IH; easy.
Qed.

(** Newton *)
Context (df : itv F -> M (itv F)) (psi : R -> R -> Prop) (Hd : extends df psi).
Definition part (d : bool) x : itv F := let p := val (parts f df x) (empty_rep, empty_rep) in if d then snd p else fst p.
Fixpoint nwalk (ds : list bool) x : itv F := match ds with [] => x | d :: ds => nwalk ds (part d x) end.
(** 0 is in the range, and the chosen part is searched further *)
Definition nlevel (d : bool) x : bool :=
  val (y <- f x; zero_in y)%M false && stuck (newton_out (fun _ => ret None) (part d x) eps).
Fixpoint nbusy (ds : list bool) x : bool :=
  match ds with [] => true | d :: ds => nlevel d x && nbusy ds (part d x) end.

Lemma nlevel_ok d x : inhabited_itv x -> nlevel d x = true ->
  inhabited_itv (part d x) /\ forall k, ia_newton k f df (part d x) eps = ret None -> ia_newton (S k) f df x eps = ret None.
Proof.
intros Hx H. apply andb_prop in H. destruct H as [Z S].
destruct (newton_cases C f df phi psi Hf Hd eps x Hx) as [[E [N _]]|(v1 & v2 & E & P & W1 & W2 & _)].
{ rewrite (val_ret _ _ _ N) in Z. discriminate. }
assert (P1 : part false x = v1) by (unfold part; now rewrite (val_ret _ _ _ P)).
assert (P2 : part true x = v2) by (unfold part; now rewrite (val_ret _ _ _ P)).
assert (T : forall v k, wf v -> exists o, newton_out (rec f df eps k) v eps = ret o).
{ intros v k W. destruct (out_sound f df eps (fun _ _ => True) v k W) as (o & Eo & _); try easy; [|now exists o].
  intros I. destruct (newton_total C f df phi psi Hf Hd eps v k I) as [o Ho]. now exists o. }
assert (G : forall v, wf v -> stuck (newton_out (fun _ => ret None) v eps) = true ->
  inhabited_itv v /\ forall k, newton_out (rec f df eps k) v eps = ia_newton k f df v eps).
{ clear S. intros v W S. unfold newton_out in *. rewrite is_empty_wf in * by easy. destruct W as [->|I]; [easy|].
  split; [easy|]. rewrite (mem_nnan v I) in *. destruct (wid_below v eps I) as (w & Ew & _).
  intros k. revert S. mreds. rewrite Ew. mreds. now destruct (flt w eps). }
destruct d.
- rewrite P2 in *. destruct (G v2 W2 S) as [I Q]. split; [easy|]. intros k Hk. rewrite E.
  destruct (T v1 k W1) as [o1 E1]. rewrite <- Q in Hk. rewrite (then_out_ret _ _ _ _ E1 Hk). now destruct o1.
- rewrite P1 in *. destruct (G v1 W1 S) as [I Q]. split; [easy|]. intros k Hk. rewrite E.
  destruct (T v2 k W2) as [o2 E2]. rewrite <- Q in Hk. now rewrite (then_out_ret _ _ _ _ Hk E2).
Qed.
Lemma nnever_walk ds x : inhabited_itv x -> nbusy ds x = true ->
  (exists d, nlevel d (nwalk ds x) = true /\ part d (nwalk ds x) = nwalk ds x) ->
  never_stops (fun n => ia_newton n f df x eps).
Proof.
revert x. induction ds as [|d ds IH]; intros x Hx B H n; apply returns_eq; simpl in B, H.
- destruct H as (d & L & E). destruct (nlevel_ok d x Hx L) as [_ G].
  induction n as [|n IH]; [easy|]. apply G. now rewrite E.
- apply andb_prop in B. destruct B as [L B]. destruct (nlevel_ok d x Hx L) as [I G].
  destruct n as [|n]; [easy|]. apply G. apply returns_eq. now apply (IH (part d x)).
Qed.
End Never.

(** ** The two programs *)
Lemma c64 : comparable binary64 binary64. Proof. apply comparable_refl. Qed.
Lemma itv_bits {F} (x v : itv F) : sf2 x = sf2 v -> x = v.
Proof.
destruct x as [a b], v as [c d]. unfold sf2. cbn [fst snd]. intros H.
pose proof (f_equal fst H) as H1. pose proof (f_equal snd H) as H2. cbn [fst snd] in H1, H2.
apply B2SF_inj in H1, H2. now subst.
Qed.
Lemma some_of {A} (m : nat -> M (option A)) (P : A -> Prop) (Q : option A -> bool) n :
  stops_only_with m P -> (forall k a, m n = ret (Some a) -> (n <= k)%nat -> m k = ret (Some a)) ->
  match m n (Est 0 0) with (Ret o, _) => Q o | _ => false end = true -> Q None = false ->
  stops_with m (fun a => P a /\ Q (Some a) = true).
Proof.
intros S Mo E N. destruct (S n) as (o & Eo & Ho). rewrite Eo in E. destruct o as [a|]; [|congruence].
apply returns_eq in Eo. exists a, n. split; [|split; [now apply Ho|easy]]. intros k L. apply returns_eq. now apply Mo.
Qed.

(** The output as pairs of numerators over 2^52 ([None] if it has another form). *)
Definition over52 (a : float binary64) : option Z :=
  match a with
  | B754_finite s m e _ => if (e =? -52)%Z then Some (cond_Zopp s (Zpos m)) else None
  | _ => None
  end.
Definition out52 (l : list (itv binary64)) : list (option Z * option Z) := map (fun v => (over52 (fst v), over52 (snd v))) l.
Definition oz_eqb (a b : option Z) : bool := match a, b with Some p, Some q => (p =? q)%Z | None, None => true | _, _ => false end.
Fixpoint out_eqb (l l' : list (option Z * option Z)) : bool :=
  match l, l' with
  | [], [] => true
  | p :: l, q :: l' => oz_eqb (fst p) (fst q) && oz_eqb (snd p) (snd q) && out_eqb l l'
  | _, _ => false
  end.
Lemma oz_eqb_ok a b : oz_eqb a b = true -> a = b.
Proof. destruct a, b; simpl; try easy. intros H. apply Z.eqb_eq in H. now subst. Qed.
Lemma out_eqb_ok l l' : out_eqb l l' = true -> l = l'.
Proof.
revert l'. induction l as [|[a b] l IH]; intros [|[c d] l'] H; try easy. simpl in H. apply andb_prop in H. destruct H as [H H2].
apply andb_prop in H. destruct H as [H0 H1]. apply oz_eqb_ok in H0, H1. apply IH in H2. now subst.
Qed.

Lemma main15_ok : stops_with main15 (fun l =>
  finds_small (graph (fun r => r * r - 2)) (mtwo64, two64) eps64 l /\
  out52 l = [(Some (-6369058542845952), Some (-6369049952911360)); (Some 6369049952911360, Some 6369058542845952)]%Z).
Proof.
assert (E : forall n, main15 n = ia_bisect n ex_f (mtwo64, two64) eps64) by reflexivity.
destruct (some_of main15 (finds_small (graph (fun r => r * r - 2)) (mtwo64, two64) eps64)
  (fun o => match o with Some l => out_eqb (out52 l) [(Some (-6369058542845952), Some (-6369049952911360)); (Some 6369049952911360, Some 6369058542845952)]%Z | None => false end) 60) as (l & k & H & P & Q).
- intros n. rewrite E. apply (bisect_sound c64 ex_f _ ex_f_extends eps64 _ start_inh n).
- intros k a. rewrite !E. intros Ha L. now apply (bisect_more c64 ex_f _ ex_f_extends eps64 60 k _ a Ha start_inh).
- vm_compute. reflexivity.
- reflexivity.
- exists l, k. split; [easy|]. split; [easy|]. now apply out_eqb_ok.
Qed.
Lemma main16_ok : stops_with main16 (fun l =>
  finds_narrow (graph (fun r => r * r - 2)) (mtwo64, two64) eps64 l /\
  out52 l = [(Some 6369051672371777, Some 6369051672697478); (Some (-6369051672697478), Some (-6369051672371777))]%Z).
Proof.
assert (E : forall n, main16 n = ia_newton n ex_f ex_df (mtwo64, two64) eps64) by reflexivity.
destruct (some_of main16 (finds_narrow (graph (fun r => r * r - 2)) (mtwo64, two64) eps64)
  (fun o => match o with Some l => out_eqb (out52 l) [(Some 6369051672371777, Some 6369051672697478); (Some (-6369051672697478), Some (-6369051672371777))]%Z | None => false end) 60) as (l & k & H & P & Q).
- intros n. rewrite E. apply (newton_sound c64 ex_f ex_df _ _ ex_f_extends ex_df_extends eps64 _ (fun r => r * r - 2) (fun r => 2 * r) start_inh).
  intros r _. split; [easy|]. split; [easy|apply ex_derivative].
- intros k a. rewrite !E. intros Ha L. now apply (newton_more c64 ex_f ex_df _ _ ex_f_extends ex_df_extends eps64 60 k _ a start_inh).
- vm_compute. reflexivity.
- reflexivity.
- exists l, k. split; [easy|]. split; [easy|]. now apply out_eqb_ok.
Qed.

(** With a smaller tolerance neither program stops. *)
Definition tiny53 : float binary64 := fl binary64 1 (-53).
Definition tiny52 : float binary64 := fl binary64 1 (-52).
Fixpoint find_busy (n : nat) (x : itv binary64) : list bool :=
  match n with
  | O => []
  | S n => if stuck (ia_bisect 1 ex_f (lhalf x) tiny53) then false :: find_busy n (lhalf x) else true :: find_busy n (rhalf x)
  end.
Lemma bisect_never : never_stops (fun n => ia_bisect n ex_f (mtwo64, two64) tiny53).
Proof.
apply (never_walk c64 ex_f _ ex_f_extends tiny53 (find_busy 60 (mtwo64, two64)) _ start_inh).
- vm_compute. reflexivity.
- right. apply itv_bits. vm_compute. reflexivity.
Qed.
Lemma newton_never : never_stops (fun n => ia_newton n ex_f ex_df (mtwo64, two64) tiny52).
Proof.
apply (nnever_walk c64 ex_f _ ex_f_extends tiny52 ex_df _ ex_df_extends [false; false; false; false; false; false] _ start_inh).
- vm_compute. reflexivity.
- exists true. split; [vm_compute; reflexivity|]. apply itv_bits. vm_compute. reflexivity.
Qed.
Lemma tiny_pos : 0 < B2R tiny53 /\ 0 < B2R tiny52.
Proof. split; b2r. Qed.

(** ** Reports without a zero *)
Definition near2 : float binary64 := fl binary64 6369051672525773 (-52).
Lemma near2_out : (fun n => ia_bisect (S n) ex_f (near2, near2) f1) = (fun n => ret (Some [(near2, near2)])).
Proof.
apply FunctionalExtensionality.functional_extensionality. intros n.
assert (I : inhabited_itv (near2, near2)).
{ exists (B2R near2). split; cbn [fst snd]; [rewrite lb_fin by reflexivity|rewrite ub_fin by reflexivity]; apply Rle_refl. }
destruct (bisect_cases c64 ex_f _ ex_f_extends f1 _ I) as [[E _]|[[E _]|(a & m & b & E & _)]].
- specialize (E O). apply (f_equal (fun m => match m (Est 0 0) with (Ret (Some []), _) => true | _ => false end)) in E.
  vm_compute in E. discriminate.
- apply E.
- specialize (E O). apply (f_equal (fun m => match m (Est 0 0) with (Ret None, _) => true | _ => false end)) in E.
  vm_compute in E. discriminate.
Qed.
Lemma near2_no_zero r : mem r (near2, near2) -> r * r - 2 <> 0.
Proof.
intros [H1 H2] E. cbn [fst snd] in H1, H2. rewrite lb_fin in H1 by reflexivity. rewrite ub_fin in H2 by reflexivity.
assert (R : r = B2R near2) by lra. clear H1 H2. subst r.
assert (B : B2R near2 = IZR 6369051672525773 / IZR (2 ^ 52)) by b2r.
rewrite B in E. assert (Q : IZR (6369051672525773 * 6369051672525773) = IZR (2 * 2 ^ 104)).
{ rewrite !mult_IZR. change (2 ^ 104)%Z with (2 ^ 52 * 2 ^ 52)%Z. rewrite mult_IZR.
  assert (N : IZR (2 ^ 52) <> 0) by (apply not_0_IZR; easy).
  apply (f_equal (fun t => (t + 2) * (IZR (2 ^ 52) * IZR (2 ^ 52)))) in E. field_simplify in E; [|easy].
  ring_simplify. ring_simplify in E. lra. }
apply eq_IZR in Q. vm_compute in Q. discriminate.
Qed.
