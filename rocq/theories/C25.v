(** * C25: reverse square, absolute value, power and hyperbolic cosine *)
From Coq Require Import ZArith NArith Reals Bool Lra.
From Flocq Require Import Core.Core IEEE754.BinarySingleNaN.
From Verif Require Import Fmt Spec FloatFacts Exc Deco SpecApi SpecElem SpecDeco SpecNum MBase PBase Ex MBool MArith PArith PConv MMixed MRev SpecRev PRev PRevEven PPownRev PPownRev3 PRevW SpecPownRev PPownRev7 MRev1 PRev1.
Local Open Scope R_scope.

(** Three of them even return the tightest enclosure of the preimage. *)
Theorem C25_sqr_rev : forall (F : fmt) (c x : itv F), wf c -> wf x ->
  computes_tightest (sqr_rev c x) (preimage everywhere (fun t => t * t) c x).
Proof. exact @sqr_rev_tight. Qed.
Print Assumptions C25_sqr_rev.
Theorem C25_abs_rev : forall (F : fmt) (c x : itv F), wf c -> wf x ->
  computes_tightest (abs_rev c x) (preimage everywhere Rabs c x).
Proof. exact @abs_rev_tight. Qed.
Print Assumptions C25_abs_rev.
Theorem C25_cosh_rev : forall (F : fmt) (c x : itv F), wf c -> wf x ->
  computes_tightest (cosh_rev c x) (preimage everywhere cosh c x).
Proof. exact @cosh_rev_tight. Qed.
Print Assumptions C25_cosh_rev.
(** The power: terminates and encloses.  Missing: the exponent INT_MIN. *)
Theorem C25_pown_rev_partial : forall (F : fmt) (c x : itv F) (p : Z), wf c -> wf x -> p <> int_min ->
  finally (fun fuel => pown_rev fuel c x p) (encl (preimage (pown_dom p) (pownR p) c x)).
Proof. exact @finally_pown. Qed.
Print Assumptions C25_pown_rev_partial.
(** There the code negates INT_MIN, which is undefined behaviour. *)
Theorem C25_pown_rev_intmin_refuted : exists c x : itv binary64, wf c /\ wf x /\
  forall fuel s, fst (pown_rev fuel c x int_min s) = UB.
Proof.
exists (fl binary64 1 0, fl binary64 2 0), entire. split; [wf_tac|]. split; [wf_tac|].
intros fuel s. vm_compute. reflexivity.
Qed.
Print Assumptions C25_pown_rev_intmin_refuted.

(** Exactly what it computes.  A negative exponent gives the tightest interval of the
    solutions in [x], together with zero if [x] contains it and it is a limit of solutions;
    a positive one cuts [x] with the tightest intervals of the solutions of either sign. *)
Theorem C25_pown_rev_neg_exact : forall (F : fmt) (c x : itv F) (p : Z), wf c -> wf x -> (p < 0)%Z -> p <> int_min ->
  finally (fun fuel => pown_rev fuel c x p) (tightest (fun t => mem t x /\ (solves p c t \/ (t = 0 /\ limit_zero p c)))).
Proof. exact @pown_rev_neg_tight. Qed.
Print Assumptions C25_pown_rev_neg_exact.
Theorem C25_pown_rev_pos_exact : forall (F : fmt) (c x : itv F) (p : Z), wf c -> wf x -> (0 <= p)%Z ->
  finally (fun fuel => pown_rev fuel c x p) (cut_sides p c x).
Proof. exact @pown_rev_pos_cut. Qed.
Print Assumptions C25_pown_rev_pos_exact.
(** So it is not the tightest enclosure: [x] is a number next to the square root of two
    and contains no solution, the result is [x] nevertheless. *)
Theorem C25_pown_rev_tight_refuted : exists (c x z : itv binary64), wf c /\ wf x /\
  (exists k, forall fuel, (k <= fuel)%nat -> returns (pown_rev fuel c x 2) z) /\
  (exists t, mem t z) /\ forall t, mem t x -> ~ solves 2 c t.
Proof.
set (u := fl binary64 6369051672525773 (-52)).
set (c := (fl binary64 2 0, fl binary64 2 0)).
assert (Wc : wf c) by (unfold c; wf_tac). assert (Wx : wf (u, u)) by (unfold u; wf_tac).
destruct (C25_pown_rev_pos_exact binary64 c (u, u) 2 Wc Wx ltac:(easy)) as (z & k & H1 & z1 & z2 & T1 & T2 & T3).
assert (Fu : is_finite u = true) by (vm_compute; reflexivity).
assert (Vu : B2R u = 6369051672525773 * / 4503599627370496) by (unfold u, B2R, F2R; vm_compute; lra).
assert (Fp : is_finite (Bpred u) = true) by (vm_compute; reflexivity).
assert (Vp : B2R (Bpred u) = 6369051672525772 * / 4503599627370496) by (unfold u, B2R, F2R; vm_compute; lra).
assert (V2 : B2R (fl binary64 2 0) = 2) by b2r.
assert (F2 : is_finite (fl binary64 2 0) = true) by (vm_compute; reflexivity).
assert (S2 : solves 2 c (R_sqrt.sqrt 2)).
{ split; [easy|]. unfold pownR. change (powerRZ (R_sqrt.sqrt 2) 2) with (R_sqrt.sqrt 2 ^ 2). rewrite pow2_sqrt by lra. apply mem_pt; [easy|easy|lra]. }
assert (Q2 : R_sqrt.sqrt 2 * R_sqrt.sqrt 2 = 2) by (apply sqrt_sqrt; lra). assert (Q0 : 0 <= R_sqrt.sqrt 2) by apply sqrt_pos.
exists c, (u, u), z. split; [easy|]. split; [easy|]. split; [now exists k|]. split.
- exists (B2R u). destruct T3 as (_ & T3 & _). apply T3. split; [apply mem_pt; [easy|easy|lra]|]. right.
  destruct T2 as (_ & T2 & _). specialize (T2 (R_sqrt.sqrt 2) (conj Q0 S2)). destruct T2 as [L U]. split.
  + apply lb_mono with (R_sqrt.sqrt 2); [easy|]. apply Rnot_lt_le. intros K. nra.
  + destruct (fviewP (snd z2)) as [ | | |v Fv]; try easy. rewrite ub_fin in * by easy. apply Rnot_lt_le. intros K.
    destruct (Bpred_fin u Fu) as [(_ & _ & _ & _ & H)|[E _]]; [|now rewrite E in Fp].
    specialize (H v Fv K). nra.
- intros t [L U] [_ [L' U']]. unfold c in L', U'. cbn [fst snd] in L, U, L', U'. rewrite lb_fin in L, L' by easy. rewrite ub_fin in U, U' by easy.
  unfold pownR in *. change (powerRZ t 2) with (t ^ 2) in *. assert (E : t = B2R u) by lra. rewrite E, Vu in *. rewrite V2 in *. lra.
Qed.
Print Assumptions C25_pown_rev_tight_refuted.

(** ** Without [x] *)
Theorem C25_sqr_rev1 : forall (F : fmt) (c : itv F), wf c -> computes_tightest (sqr_rev1 c) (fun t => mem (t * t) c).
Proof. exact @sqr_rev1_tight. Qed.
Print Assumptions C25_sqr_rev1.
Theorem C25_abs_rev1 : forall (F : fmt) (c : itv F), wf c -> computes_tightest (abs_rev1 c) (fun t => mem (Rabs t) c).
Proof. exact @abs_rev1_tight. Qed.
Print Assumptions C25_abs_rev1.
Theorem C25_cosh_rev1 : forall (F : fmt) (c : itv F), wf c -> computes_tightest (cosh_rev1 c) (fun t => mem (cosh t) c).
Proof. exact @cosh_rev1_tight. Qed.
Print Assumptions C25_cosh_rev1.
Theorem C25_pown_rev1_partial : forall (F : fmt) (c : itv F) (p : Z), wf c -> p <> int_min ->
  finally (fun fuel => pown_rev1 fuel c p) (tightest (solves p c)).
Proof. exact @pown_rev1_tight. Qed.
Print Assumptions C25_pown_rev1_partial.

(** ** Mixed types *)
Theorem C25_sqr_rev_mixed : forall (F G T : fmt) (c : itv F) (x : itv G),
  comparable T F -> comparable T G -> comparable F G -> wf c -> wf x ->
  computes_tightest (sqr_rev_mixed T c x) (preimage everywhere (fun t => t * t) c x).
Proof. intros. apply rev_mixed2_ok; try easy. intros. now apply sqr_rev_tight. Qed.
Print Assumptions C25_sqr_rev_mixed.
Theorem C25_abs_rev_mixed : forall (F G T : fmt) (c : itv F) (x : itv G),
  comparable T F -> comparable T G -> comparable F G -> wf c -> wf x ->
  computes_tightest (abs_rev_mixed T c x) (preimage everywhere Rabs c x).
Proof. intros. apply rev_mixed2_ok; try easy. intros. now apply abs_rev_tight. Qed.
Print Assumptions C25_abs_rev_mixed.
Theorem C25_cosh_rev_mixed : forall (F G T : fmt) (c : itv F) (x : itv G),
  comparable T F -> comparable T G -> comparable F G -> wf c -> wf x ->
  computes_tightest (cosh_rev_mixed T c x) (preimage everywhere cosh c x).
Proof. intros. apply rev_mixed2_ok; try easy. intros. now apply cosh_rev_tight. Qed.
Print Assumptions C25_cosh_rev_mixed.
Theorem C25_pown_rev_mixed_partial : forall (F G T : fmt) (c : itv F) (x : itv G) (p : Z),
  comparable T F -> comparable T G -> comparable F G -> wf c -> wf x -> p <> int_min ->
  finally (fun fuel => pown_rev_mixed T fuel c x p) (encl (preimage (pown_dom p) (pownR p) c x)).
Proof. exact @finally_pown_mixed. Qed.
Print Assumptions C25_pown_rev_mixed_partial.

Theorem C25_pown_rev_mixed_neg_exact : forall (F G T : fmt) (c : itv F) (x : itv G) (p : Z),
  comparable T F -> comparable T G -> comparable F G -> wf c -> wf x -> (p < 0)%Z -> p <> int_min ->
  finally (fun fuel => pown_rev_mixed T fuel c x p) (tightest (fun t => mem t x /\ (solves p c t \/ (t = 0 /\ limit_zero p c)))).
Proof. intros F G T. exact (pown_rev_mixed_neg T). Qed.
Print Assumptions C25_pown_rev_mixed_neg_exact.
Theorem C25_pown_rev_mixed_pos_exact : forall (F G T : fmt) (c : itv F) (x : itv G) (p : Z),
  comparable T F -> comparable T G -> comparable F G -> wf c -> wf x -> (0 <= p)%Z ->
  finally (fun fuel => pown_rev_mixed T fuel c x p) (cut_sides_mixed (pmax (pmax T F) G) p c x).
Proof. intros F G T. exact (pown_rev_mixed_pos T). Qed.
Print Assumptions C25_pown_rev_mixed_pos_exact.

(** ** Decorated *)
Theorem C25_sqr_rev_dec : forall (F : fmt) (c x : ditv F), wf_dec c -> snd c <> ill -> wf_dec x -> snd x <> ill ->
  gives (sqr_rev_dec c x) (with_trv (tightest (preimage everywhere (fun t => t * t) (fst c) (fst x)))).
Proof. intros. apply rev_dec2_tight; try easy. exact sqr_rev_tight. Qed.
Print Assumptions C25_sqr_rev_dec.
Theorem C25_abs_rev_dec : forall (F : fmt) (c x : ditv F), wf_dec c -> snd c <> ill -> wf_dec x -> snd x <> ill ->
  gives (abs_rev_dec c x) (with_trv (tightest (preimage everywhere Rabs (fst c) (fst x)))).
Proof. intros. apply rev_dec2_tight; try easy. exact abs_rev_tight. Qed.
Print Assumptions C25_abs_rev_dec.
Theorem C25_cosh_rev_dec : forall (F : fmt) (c x : ditv F), wf_dec c -> snd c <> ill -> wf_dec x -> snd x <> ill ->
  gives (cosh_rev_dec c x) (with_trv (tightest (preimage everywhere cosh (fst c) (fst x)))).
Proof. intros. apply rev_dec2_tight; try easy. exact cosh_rev_tight. Qed.
Print Assumptions C25_cosh_rev_dec.
Theorem C25_pown_rev_dec_partial : forall (F : fmt) (c x : ditv F) (p : Z),
  wf_dec c -> snd c <> ill -> wf_dec x -> snd x <> ill -> p <> int_min ->
  finally (fun fuel => pown_rev_dec fuel c x p) (with_trv (encl (preimage (pown_dom p) (pownR p) (fst c) (fst x)))).
Proof. exact @pown_rev_dec_encl. Qed.
Print Assumptions C25_pown_rev_dec_partial.
Theorem C25_sqr_rev1_dec : forall (F : fmt) (c : ditv F), wf_dec c -> snd c <> ill ->
  gives (sqr_rev1_dec c) (with_trv (tightest (fun t => mem (t * t) (fst c)))).
Proof. intros F c. apply (rev_dec1_tight sqr_rev (fun t => t * t)). exact sqr_rev_tight. Qed.
Print Assumptions C25_sqr_rev1_dec.
Theorem C25_abs_rev1_dec : forall (F : fmt) (c : ditv F), wf_dec c -> snd c <> ill ->
  gives (abs_rev1_dec c) (with_trv (tightest (fun t => mem (Rabs t) (fst c)))).
Proof. intros F c. apply (rev_dec1_tight abs_rev Rabs). exact abs_rev_tight. Qed.
Print Assumptions C25_abs_rev1_dec.
Theorem C25_cosh_rev1_dec : forall (F : fmt) (c : ditv F), wf_dec c -> snd c <> ill ->
  gives (cosh_rev1_dec c) (with_trv (tightest (fun t => mem (cosh t) (fst c)))).
Proof. intros F c. apply (rev_dec1_tight cosh_rev cosh). exact cosh_rev_tight. Qed.
Print Assumptions C25_cosh_rev1_dec.
Theorem C25_sqr_rev_dec_mixed : forall (F G T : fmt) (c : ditv F) (x : ditv G),
  comparable T F -> comparable T G -> comparable F G -> wf_dec c -> snd c <> ill -> wf_dec x -> snd x <> ill ->
  gives (sqr_rev_dec_mixed T c x) (with_trv (tightest (preimage everywhere (fun t => t * t) (fst c) (fst x)))).
Proof. intros. apply rev_mixed_dec2_tight; try easy. intros. now apply C25_sqr_rev_mixed. Qed.
Print Assumptions C25_sqr_rev_dec_mixed.
Theorem C25_abs_rev_dec_mixed : forall (F G T : fmt) (c : ditv F) (x : ditv G),
  comparable T F -> comparable T G -> comparable F G -> wf_dec c -> snd c <> ill -> wf_dec x -> snd x <> ill ->
  gives (abs_rev_dec_mixed T c x) (with_trv (tightest (preimage everywhere Rabs (fst c) (fst x)))).
Proof. intros. apply rev_mixed_dec2_tight; try easy. intros. now apply C25_abs_rev_mixed. Qed.
Print Assumptions C25_abs_rev_dec_mixed.
Theorem C25_cosh_rev_dec_mixed : forall (F G T : fmt) (c : ditv F) (x : ditv G),
  comparable T F -> comparable T G -> comparable F G -> wf_dec c -> snd c <> ill -> wf_dec x -> snd x <> ill ->
  gives (cosh_rev_dec_mixed T c x) (with_trv (tightest (preimage everywhere cosh (fst c) (fst x)))).
Proof. intros. apply rev_mixed_dec2_tight; try easy. intros. now apply C25_cosh_rev_mixed. Qed.
Print Assumptions C25_cosh_rev_dec_mixed.
Theorem C25_pown_rev_dec_mixed_partial : forall (F G T : fmt) (c : ditv F) (x : ditv G) (p : Z),
  comparable T F -> comparable T G -> comparable F G ->
  wf_dec c -> snd c <> ill -> wf_dec x -> snd x <> ill -> p <> int_min ->
  finally (fun fuel => pown_rev_dec_mixed T fuel c x p) (with_trv (encl (preimage (pown_dom p) (pownR p) (fst c) (fst x)))).
Proof. exact @pown_rev_dec_mixed_encl. Qed.
Print Assumptions C25_pown_rev_dec_mixed_partial.

Theorem C25_pown_rev_dec_neg_exact : forall (F : fmt) (c x : ditv F) (p : Z),
  wf_dec c -> snd c <> ill -> wf_dec x -> snd x <> ill -> (p < 0)%Z -> p <> int_min ->
  finally (fun fuel => pown_rev_dec fuel c x p)
    (with_trv (tightest (fun t => mem t (fst x) /\ (solves p (fst c) t \/ (t = 0 /\ limit_zero p (fst c)))))).
Proof. exact @pown_rev_dec_neg. Qed.
Print Assumptions C25_pown_rev_dec_neg_exact.
Theorem C25_pown_rev_dec_pos_exact : forall (F : fmt) (c x : ditv F) (p : Z),
  wf_dec c -> snd c <> ill -> wf_dec x -> snd x <> ill -> (0 <= p)%Z ->
  finally (fun fuel => pown_rev_dec fuel c x p) (with_trv (cut_sides p (fst c) (fst x))).
Proof. exact @pown_rev_dec_pos. Qed.
Print Assumptions C25_pown_rev_dec_pos_exact.
Theorem C25_pown_rev1_dec_partial : forall (F : fmt) (c : ditv F) (p : Z), wf_dec c -> snd c <> ill -> p <> int_min ->
  finally (fun fuel => pown_rev1_dec fuel c p) (with_trv (tightest (solves p (fst c)))).
Proof. exact @pown_rev1_dec_tight. Qed.
Print Assumptions C25_pown_rev1_dec_partial.
Theorem C25_pown_rev_dec_mixed_neg_exact : forall (F G T : fmt) (c : ditv F) (x : ditv G) (p : Z),
  comparable T F -> comparable T G -> comparable F G ->
  wf_dec c -> snd c <> ill -> wf_dec x -> snd x <> ill -> (p < 0)%Z -> p <> int_min ->
  finally (fun fuel => pown_rev_dec_mixed T fuel c x p)
    (with_trv (tightest (fun t => mem t (fst x) /\ (solves p (fst c) t \/ (t = 0 /\ limit_zero p (fst c)))))).
Proof. intros F G T. exact (pown_rev_dec_mixed_neg T). Qed.
Print Assumptions C25_pown_rev_dec_mixed_neg_exact.
Theorem C25_pown_rev_dec_mixed_pos_exact : forall (F G T : fmt) (c : ditv F) (x : ditv G) (p : Z),
  comparable T F -> comparable T G -> comparable F G -> wf_dec c -> snd c <> ill -> wf_dec x -> snd x <> ill -> (0 <= p)%Z ->
  finally (fun fuel => pown_rev_dec_mixed T fuel c x p) (with_trv (cut_sides_mixed (pmax (pmax T F) G) p (fst c) (fst x))).
Proof. intros F G T. exact (pown_rev_dec_mixed_pos T). Qed.
Print Assumptions C25_pown_rev_dec_mixed_pos_exact.

(** ** Examples *)
Notation b64 := (fl binary64).
Example C25_ex :
  run (sqr_rev (b64 4 0, b64 9 0) (b64 (-10) 0, b64 1 0)) = okz (b64 (-3) 0) (b64 (-2) 0)
  /\ run (sqr_rev (b64 4 0, b64 9 0) (b64 (-10) 0, b64 10 0)) = okz (b64 (-3) 0) (b64 3 0)
  /\ run (sqr_rev (b64 (-4) 0, b64 (-1) 0) (b64 (-10) 0, b64 10 0)) = okz (@fnan binary64) fnan
  /\ run (abs_rev (b64 (-1) 0, b64 3 0) (b64 (-10) 0, b64 1 0)) = okz (b64 (-3) 0) (b64 1 0)
  /\ run (sqr_rev1 (b64 4 0, b64 9 0)) = okz (b64 (-3) 0) (b64 3 0)
  /\ rund (sqr_rev_dec ((b64 4 0, b64 9 0), com) ((b64 (-10) 0, b64 1 0), com)) = okd (b64 (-3) 0) (b64 (-2) 0) trv
  /\ rund (abs_rev1_dec ((b64 (-1) 0, b64 3 0), com)) = okd (b64 (-3) 0) (b64 3 0) trv
  /\ run (sqr_rev_mixed binary32 (b64 4 0, b64 9 0) (fl binary32 (-10) 0, fl binary32 1 0)) = okz (fl binary32 (-3) 0) (fl binary32 (-2) 0)
  /\ wf (b64 4 0, b64 9 0).
Proof. repeat (split; [first [wf_tac|vm_compute; reflexivity]|]). wf_tac. Qed.
(** The cube root of -8 is found in x = [-3,-1]. *)
Example C25_ex_pown : exists z, (exists fuel, returns (pown_rev fuel (b64 (-8) 0, b64 1 0) (b64 (-3) 0, b64 (-1) 0) 3) z) /\ mem (-2) z.
Proof.
destruct (C25_pown_rev_partial binary64 (b64 (-8) 0, b64 1 0) (b64 (-3) 0, b64 (-1) 0) 3 ltac:(wf_tac) ltac:(wf_tac) ltac:(easy))
  as (z & k & H1 & H2 & H3).
exists z. split; [exists k; now apply H1|]. apply H3.
assert (B2R (b64 (-8) 0) = -8) by b2r. assert (B2R (b64 1 0) = 1) by b2r. assert (B2R (b64 (-3) 0) = -3) by b2r. assert (B2R (b64 (-1) 0) = -1) by b2r.
split; [apply mem_pt; [easy|easy|lra]|]. split; [easy|]. replace (pownR 3 (-2)) with (-8) by (unfold pownR; simpl; lra). apply mem_pt; [easy|easy|lra].
Qed.
Example C25_ex_pown_neg : exists z, (exists fuel, returns (pown_rev fuel (b64 1 (-3), b64 1 0) (b64 1 0, b64 9 0) (-3)) z) /\ mem 2 z.
Proof.
destruct (C25_pown_rev_partial binary64 (b64 1 (-3), b64 1 0) (b64 1 0, b64 9 0) (-3) ltac:(wf_tac) ltac:(wf_tac) ltac:(easy))
  as (z & k & H1 & H2 & H3).
exists z. split; [exists k; now apply H1|]. apply H3.
assert (B2R (b64 1 (-3)) = /8) by b2r. assert (B2R (b64 1 0) = 1) by b2r. assert (B2R (b64 9 0) = 9) by b2r.
split; [apply mem_pt; [easy|easy|lra]|]. split; [intros _; lra|]. replace (pownR (-3) 2) with (/8) by (unfold pownR; simpl; lra). apply mem_pt; [easy|easy|lra].
Qed.
Example C25_ex_cosh : exists z, returns (cosh_rev (b64 1 0, b64 9 0) (b64 (-1) 0, b64 3 0)) z /\ mem 0 z.
Proof.
apply (ct_has _ _ 0 (C25_cosh_rev binary64 (b64 1 0, b64 9 0) (b64 (-1) 0, b64 3 0) ltac:(wf_tac) ltac:(wf_tac))).
assert (B2R (b64 (-1) 0) = -1) by b2r. assert (B2R (b64 3 0) = 3) by b2r. assert (B2R (b64 9 0) = 9) by b2r. assert (B2R (b64 1 0) = 1) by b2r.
split; [apply mem_pt; [easy|easy|lra]|]. split; [easy|]. rewrite cosh_0. apply mem_pt; [easy|easy|lra].
Qed.
(** Zero is returned although 1/t^2 lies in [1,+oo] for no t of [0,0]: it is a limit of solutions. *)
Example C25_ex_limit : exists z, (exists fuel, returns (pown_rev fuel (b64 1 0, @finf binary64) (b64 0 0, b64 0 0) (-2)) z) /\ mem 0 z /\
  forall t, mem t z -> t = 0.
Proof.
assert (Z : B2R (b64 0 0) = 0) by b2r. assert (E1 : B2R (b64 1 0) = 1) by b2r.
assert (Fz : is_finite (b64 0 0) = true) by easy. assert (F1 : is_finite (b64 1 0) = true) by easy.
assert (Wx : wf (b64 0 0, b64 0 0)) by wf_tac.
destruct (C25_pown_rev_neg_exact binary64 (b64 1 0, @finf binary64) (b64 0 0, b64 0 0) (-2) ltac:(wf_tac) Wx ltac:(easy) ltac:(easy))
  as (z & k & H1 & _ & H2 & H3).
exists z. split; [exists k; now apply H1|]. split.
- apply H2. split; [apply mem_pt; [easy|easy|lra]|]. right. split; [easy|]. left. intros B. exists (Rmax 1 (B + 1)).
  pose proof (Rmax_l 1 (B + 1)). pose proof (Rmax_r 1 (B + 1)). split; [|lra]. split; cbn [fst snd]; [rewrite lb_fin by easy; lra|easy].
- intros t Ht. apply (H3 _ Wx) in Ht; [|now intros s [H _]]. destruct Ht as [L U]. cbn [fst snd] in *. rewrite lb_fin in L by easy. rewrite ub_fin in U by easy. lra.
Qed.

(** Mixed types without [x]. *)
Theorem C25_sqr_rev1_mixed : forall (F T : fmt) (c : itv F), comparable T F -> wf c ->
  computes_tightest (sqr_rev1_mixed T c) (fun t => mem (t * t) c).
Proof. exact (fun F T c C => sqr_rev1_mixed_tight T C c). Qed.
Print Assumptions C25_sqr_rev1_mixed.
Theorem C25_sqr_rev1_dec_mixed : forall (F T : fmt) (c : ditv F), comparable T F -> wf_dec c -> snd c <> ill ->
  gives (sqr_rev1_dec_mixed T c) (with_trv (tightest (fun t => mem (t * t) (fst c)))).
Proof. exact (fun F T c C => sqr_rev1_dec_mixed_tight T C c). Qed.
Print Assumptions C25_sqr_rev1_dec_mixed.
Theorem C25_abs_rev1_mixed : forall (F T : fmt) (c : itv F), comparable T F -> wf c ->
  computes_tightest (abs_rev1_mixed T c) (fun t => mem (Rabs t) c).
Proof. exact (fun F T c C => abs_rev1_mixed_tight T C c). Qed.
Print Assumptions C25_abs_rev1_mixed.
Theorem C25_abs_rev1_dec_mixed : forall (F T : fmt) (c : ditv F), comparable T F -> wf_dec c -> snd c <> ill ->
  gives (abs_rev1_dec_mixed T c) (with_trv (tightest (fun t => mem (Rabs t) (fst c)))).
Proof. exact (fun F T c C => abs_rev1_dec_mixed_tight T C c). Qed.
Print Assumptions C25_abs_rev1_dec_mixed.
Theorem C25_cosh_rev1_mixed : forall (F T : fmt) (c : itv F), comparable T F -> wf c ->
  computes_tightest (cosh_rev1_mixed T c) (fun t => mem (cosh t) c).
Proof. exact (fun F T c C => cosh_rev1_mixed_tight T C c). Qed.
Print Assumptions C25_cosh_rev1_mixed.
Theorem C25_cosh_rev1_dec_mixed : forall (F T : fmt) (c : ditv F), comparable T F -> wf_dec c -> snd c <> ill ->
  gives (cosh_rev1_dec_mixed T c) (with_trv (tightest (fun t => mem (cosh t) (fst c)))).
Proof. exact (fun F T c C => cosh_rev1_dec_mixed_tight T C c). Qed.
Print Assumptions C25_cosh_rev1_dec_mixed.
Theorem C25_pown_rev1_mixed_partial : forall (F T : fmt) (c : itv F) (p : Z), comparable T F -> wf c -> p <> int_min ->
  finally (fun fuel => pown_rev1_mixed T fuel c p) (tightest (solves p c)).
Proof. exact (fun F T c p C => pown_rev1_mixed_tight T C c p). Qed.
Print Assumptions C25_pown_rev1_mixed_partial.
Theorem C25_pown_rev1_dec_mixed_partial : forall (F T : fmt) (c : ditv F) (p : Z), comparable T F -> wf_dec c -> snd c <> ill -> p <> int_min ->
  finally (fun fuel => pown_rev1_dec_mixed T fuel c p) (with_trv (tightest (solves p (fst c)))).
Proof. exact (fun F T c p C => pown_rev1_dec_mixed_tight T C c p). Qed.
Print Assumptions C25_pown_rev1_dec_mixed_partial.
(** |t| in [-1, 1 + 2^-52] in double: outward rounded in float. *)
Example C25_ex_abs_mixed : run (abs_rev1_mixed binary32 (fl binary64 (-1) 0, fl binary64 4503599627370497 (-52))) = okz (fl binary32 (-8388609) (-23)) (fl binary32 8388609 (-23)).
Proof. vm_compute. reflexivity. Qed.
(** The exponent excluded above is the least number of a 32 bit int. *)
Example C25_ex_int_min : int_min = (- 2 ^ 31)%Z.
Proof. reflexivity. Qed.
