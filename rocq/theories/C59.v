(** * C59: signs and the order of operands

    Claimed: if two functions differ by the signs of their arguments and of the result and by the
    order of their arguments only (odd and even functions, commutativity, a subtraction and the
    addition of the negated operand, ...), the operations for them agree in the same way, bare and
    decorated, for operands of one and of several types: negating (neg is exact) or exchanging
    operands before or the result after gives the same numbers and the same decoration. *)
From Coq Require Import ZArith NArith Reals Bool List Lra.
From Flocq Require Import Core.Core IEEE754.BinarySingleNaN.
From Verif Require Import Fmt Spec FloatFacts Exc Deco SpecApi SpecElem SpecMixed SpecDeco SpecIso SpecExpr SpecAlg SpecOver SpecNai SpecRev SpecAtan2 SpecPoint SpecTan2 SpecMirror MBase PBase PConv Ex MBool MArith MDec MMixed MExpr MRev PExpr MTrig PTanIff PSplit2 PMirror PMirror2 PMirror3 SpecRel SpecAgree MOverlap MNum SpecMirror2 PMirror4.
From Verif Require C24 C25.
Import ListNotations.
Local Open Scope R_scope.
Local Open Scope m_scope.

(** ** One operand *)
Theorem C59_unary : forall (F : fmt) (s o : bool) (u v : un) (x : itv F), alike1 s o u v -> (u = u_tan -> v = u_tan) -> wf x -> tan_good F v x ->
  agree (y <- flip s x; un_bare u y) (z <- un_bare v x; flip o z).
Proof. exact @un_alike. Qed.
Print Assumptions C59_unary.
Theorem C59_unary_mixed : forall (T F : fmt) (s o : bool) (u v : un) (x : itv F), comparable T F -> alike1 s o u v -> (u = u_tan -> v = u_tan) -> wf x ->
  tan_good (pmax T F) v x -> agree (y <- flip s x; un_bare_mixed T u y) (z <- un_bare_mixed T v x; flip o z).
Proof. exact un_alike_mixed. Qed.
Print Assumptions C59_unary_mixed.
Theorem C59_unary_dec : forall (F : fmt) (s o : bool) (u v : un) (x : ditv F), alike1 s o u v -> (u = u_tan -> v = u_tan) -> proper x -> tan_good F v (fst x) ->
  agree_dec (y <- flip_dec s x; un_decd u y) (z <- un_decd v x; flip_dec o z).
Proof. exact @dun_alike. Qed.
Print Assumptions C59_unary_dec.
Theorem C59_unary_dec_mixed : forall (T F : fmt) (s o : bool) (u v : un) (x : ditv F), comparable T F -> alike1 s o u v -> (u = u_tan -> v = u_tan) -> proper x ->
  tan_good (pmax T F) v (fst x) -> agree_dec (y <- flip_dec s x; un_decd_mixed T u y) (z <- un_decd_mixed T v x; flip_dec o z).
Proof. exact dun_alike_mixed. Qed.
Print Assumptions C59_unary_dec_mixed.
(** The tangent, also where a pole is hidden (C12): there the result is wrong, and it is wrong in the same way on both sides. *)
Theorem C59_tan : forall (F : fmt) (x : itv F), three F -> wf x -> agree (y <- neg x; tan_itv y) (z <- tan_itv x; neg z).
Proof. exact @tan_odd. Qed.
Print Assumptions C59_tan.
Theorem C59_tan_mixed : forall (T F : fmt) (x : itv F), comparable T F -> three (pmax T F) -> wf x ->
  agree (y <- neg x; tan_mixed T y) (z <- tan_mixed T x; neg z).
Proof. exact tan_odd_mixed. Qed.
Print Assumptions C59_tan_mixed.
Theorem C59_tan_dec : forall (F : fmt) (x : ditv F), three F -> proper x -> agree_dec (y <- neg_dec x; tan_dec y) (z <- tan_dec x; neg_dec z).
Proof. exact @tan_odd_dec. Qed.
Print Assumptions C59_tan_dec.
Theorem C59_tan_dec_mixed : forall (T F : fmt) (x : ditv F), comparable T F -> three (pmax T F) -> proper x ->
  agree_dec (y <- neg_dec x; tan_dec_mixed T y) (z <- tan_dec_mixed T x; neg_dec z).
Proof. exact tan_odd_dec_mixed. Qed.
Print Assumptions C59_tan_dec_mixed.
Example C59_ex_tan : exists x : itv binary64, three binary64 /\ wf x /\ pole_hidden binary64 x.
Proof. destruct hidden_ex as (x & W & H). exists x. split; [right; left; reflexivity|]. now split. Qed.
(** ** Two operands *)
Theorem C59_binary : forall (F : fmt) (w s t o : bool) (b c : bin) (x y : itv F), alike2 w s t o b c -> wf x -> wf y ->
  agree (x' <- flip s x; y' <- flip t y; swap w (bin_bare b) x' y') (z <- bin_bare c x y; flip o z).
Proof. exact @bin_alike. Qed.
Print Assumptions C59_binary.
Theorem C59_binary_dec : forall (F : fmt) (w s t o : bool) (b c : bin) (x y : ditv F), alike2 w s t o b c -> proper x -> proper y ->
  agree_dec (x' <- flip_dec s x; y' <- flip_dec t y; swap w (bin_decd b) x' y') (z <- bin_decd c x y; flip_dec o z).
Proof. exact @dbin_alike. Qed.
Print Assumptions C59_binary_dec.
Theorem C59_binary_mixed : forall (T F G : fmt) (w s t o : bool) (b c : bin) (x : itv F) (y : itv G),
  comparable T F -> comparable T G -> comparable F G -> alike2 w s t o b c -> wf x -> wf y ->
  agree (x' <- flip s x; y' <- flip t y; if w then bin_bare_mixed T b y' x' else bin_bare_mixed T b x' y') (z <- bin_bare_mixed T c x y; flip o z).
Proof. exact bin_alike_mixed. Qed.
Print Assumptions C59_binary_mixed.
Theorem C59_binary_dec_mixed : forall (T F G : fmt) (w s t o : bool) (b c : bin) (x : ditv F) (y : ditv G),
  comparable T F -> comparable T G -> comparable F G -> alike2 w s t o b c -> proper x -> proper y ->
  agree_dec (x' <- flip_dec s x; y' <- flip_dec t y; if w then bin_decd_mixed T b y' x' else bin_decd_mixed T b x' y')
    (z <- bin_decd_mixed T c x y; flip_dec o z).
Proof. exact dbin_alike_mixed. Qed.
Print Assumptions C59_binary_dec_mixed.
(** ** Fused multiply-add *)
Theorem C59_fma : forall (F : fmt) (w s t : bool) (x y v : itv F), wf x -> wf y -> wf v ->
  agree (x' <- flip s x; y' <- flip t y; v' <- flip (xorb s t) v; if w then fma y' x' v' else fma x' y' v') (z <- fma x y v; flip (xorb s t) z).
Proof. exact @fma_alike. Qed.
Print Assumptions C59_fma.
Theorem C59_fma_dec : forall (F : fmt) (w s t : bool) (x y v : ditv F), proper x -> proper y -> proper v ->
  agree_dec (x' <- flip_dec s x; y' <- flip_dec t y; v' <- flip_dec (xorb s t) v; if w then fma_dec y' x' v' else fma_dec x' y' v')
    (z <- fma_dec x y v; flip_dec (xorb s t) z).
Proof. exact @dfma_alike. Qed.
Print Assumptions C59_fma_dec.
Theorem C59_fma_mixed : forall (T F G H : fmt) (w s t : bool) (x : itv F) (y : itv G) (v : itv H),
  comparable T F -> comparable T G -> comparable F G -> comparable T H -> comparable F H -> comparable G H -> wf x -> wf y -> wf v ->
  agree (x' <- flip s x; y' <- flip t y; v' <- flip (xorb s t) v; if w then fma_mixed T y' x' v' else fma_mixed T x' y' v') (z <- fma_mixed T x y v; flip (xorb s t) z).
Proof. exact fma_alike_mixed. Qed.
Print Assumptions C59_fma_mixed.
Theorem C59_fma_dec_mixed : forall (T F G H : fmt) (w s t : bool) (x : ditv F) (y : ditv G) (v : ditv H),
  comparable T F -> comparable T G -> comparable F G -> comparable T H -> comparable F H -> comparable G H -> proper x -> proper y -> proper v ->
  agree_dec (x' <- flip_dec s x; y' <- flip_dec t y; v' <- flip_dec (xorb s t) v; if w then fma_dec_mixed T y' x' v' else fma_dec_mixed T x' y' v')
    (z <- fma_dec_mixed T x y v; flip_dec (xorb s t) z).
Proof. exact dfma_alike_mixed. Qed.
Print Assumptions C59_fma_dec_mixed.
(** ** Which functions are alike *)
Theorem C59_odd : forall u, In u [u_pos; u_neg; u_recip; u_sin; u_tan; u_asin; u_atan; u_sinh; u_tanh; u_asinh; u_atanh; u_sign; u_trunc; u_rte; u_rta] ->
  alike1 true true u u.
Proof. exact odd_alike. Qed.
Print Assumptions C59_odd.
Theorem C59_even : forall u, In u [u_sqr; u_abs; u_cos; u_cosh] -> alike1 true false u u.
Proof. exact even_alike. Qed.
Print Assumptions C59_even.
Theorem C59_pown : forall k, alike1 true (Z.odd k) (u_pown k) (u_pown k).
Proof. exact pown_alike. Qed.
Print Assumptions C59_pown.
Theorem C59_floor_ceil : alike1 true true u_floor u_ceil /\ alike1 true true u_ceil u_floor.
Proof. exact floor_ceil_alike. Qed.
Print Assumptions C59_floor_ceil.
Theorem C59_same : alike1 false false (u_pown 1) u_pos /\ alike1 false false (u_pown 2) u_sqr /\ alike1 false false (u_pown (-1)) u_recip /\
  alike1 true false u_pos u_neg /\ alike1 false true u_neg u_pos.
Proof. exact same_alike. Qed.
Print Assumptions C59_same.
Theorem C59_laws : forall w s t o b c, In (w, s, t, o, b, c) laws2 -> alike2 w s t o b c.
Proof. exact laws2_alike. Qed.
Print Assumptions C59_laws.
(** ** NaI stays NaI on both sides *)
Theorem C59_nai : forall (F : fmt) (s o : bool) (u v : un) (x : ditv F), wf_dec x -> snd x = ill ->
  returns (y <- flip_dec s x; un_decd u y) (empty_rep, ill) /\ returns (z <- un_decd v x; flip_dec o z) (empty_rep, ill).
Proof. exact (fun F s o u v x => law1_nai s o (un_decd u) (un_decd v) x (un_nai u) (un_nai v)). Qed.
Print Assumptions C59_nai.
Theorem C59_nai2 : forall (F : fmt) (s t o : bool) (b c : bin) (x y : ditv F), wf_dec x -> wf_dec y -> is_deco (snd x) -> is_deco (snd y) -> snd x = ill \/ snd y = ill ->
  returns (x' <- flip_dec s x; y' <- flip_dec t y; bin_decd b x' y') (empty_rep, ill) /\ returns (z <- bin_decd c x y; flip_dec o z) (empty_rep, ill).
Proof. exact (fun F s t o b c x y => law2_nai s t o (bin_decd b) (bin_decd c) x y (bin_nai b) (bin_nai c)). Qed.
Print Assumptions C59_nai2.
(** ** Reverse functions *)
Theorem C59_sqr_rev : forall (F : fmt) (c x : itv F), wf c -> wf x -> agree (y <- neg x; sqr_rev c y) (z <- sqr_rev c x; neg z).
Proof. exact (fun F c x Wc Wx => rev_even sqr_rev (fun t => t * t) c x Rsqr_neg' Wx (fun y => C25.C25_sqr_rev F c y Wc)). Qed.
Print Assumptions C59_sqr_rev.
Theorem C59_abs_rev : forall (F : fmt) (c x : itv F), wf c -> wf x -> agree (y <- neg x; abs_rev c y) (z <- abs_rev c x; neg z).
Proof. exact (fun F c x Wc Wx => rev_even abs_rev Rabs c x Rabs_Ropp Wx (fun y => C25.C25_abs_rev F c y Wc)). Qed.
Print Assumptions C59_abs_rev.
Theorem C59_cosh_rev : forall (F : fmt) (c x : itv F), wf c -> wf x -> agree (y <- neg x; cosh_rev c y) (z <- cosh_rev c x; neg z).
Proof. exact (fun F c x Wc Wx => rev_even cosh_rev cosh c x cosh_neg Wx (fun y => C25.C25_cosh_rev F c y Wc)). Qed.
Print Assumptions C59_cosh_rev.
Theorem C59_mul_rev : forall (F : fmt) (s t : bool) (b c x : itv F), wf b -> wf c -> wf x ->
  agree (b' <- flip s b; c' <- flip t c; x' <- flip (xorb s t) x; mul_rev b' c' x') (z <- mul_rev b c x; flip (xorb s t) z).
Proof. exact (fun F s t b c x Wb Wc Wx => mul_rev_alike s t mul_rev b c x Wb Wc Wx (C24.C24_mul_rev_exact F)). Qed.
Print Assumptions C59_mul_rev.
Theorem C59_mul_rev_mixed : forall (T F G H : fmt) (s t : bool) (b : itv F) (c : itv G) (x : itv H),
  comparable T F -> comparable T G -> comparable F G -> comparable T H -> comparable F H -> comparable G H -> wf b -> wf c -> wf x ->
  agree (b' <- flip s b; c' <- flip t c; x' <- flip (xorb s t) x; mul_rev_mixed T b' c' x') (z <- mul_rev_mixed T b c x; flip (xorb s t) z).
Proof.
exact (fun T F G H s t b c x C1 C2 C3 C4 C5 C6 Wb Wc Wx => mul_rev_alike s t (mul_rev_mixed T) b c x Wb Wc Wx
  (fun b c x => C24.C24_mul_rev_mixed_exact F G H T b c x C1 C2 C3 C4 C5 C6)).
Qed.
Print Assumptions C59_mul_rev_mixed.
(** The arctangent of two arguments is not odd in the first: both [atan2 0 (-1)] and [atan2 (-0) (-1)] are pi. *)
Theorem C59_atan2_refuted : ~ alike2 false true false true b_atan2 b_atan2.
Proof.
intros A. destruct (A 0 (-1)) as [_ H]. cbn [swap sg bin_dom bin_val] in H. assert (K : not_origin 0 (-1)) by (unfold not_origin; lra). specialize (H K).
rewrite Ropp_0 in H. unfold ratan2 in H. pose proof PI_RGT_0. destruct (Rlt_dec 0 0); [lra|]. destruct (Rlt_dec (-1) 0); lra.
Qed.
Print Assumptions C59_atan2_refuted.

(** ** Examples *)
(** ** Relations and overlapping states of negated operands *)
Theorem C59_relations : forall (F G : fmt) (x : itv F) (y : itv G), comparable F G -> wf x -> wf y ->
  same_answer (a <- neg x; b <- neg y; equal_mixed a b) (equal_mixed x y) /\
  same_answer (a <- neg x; b <- neg y; subset_mixed a b) (subset_mixed x y) /\
  same_answer (a <- neg x; b <- neg y; interior_mixed a b) (interior_mixed x y) /\
  same_answer (a <- neg x; b <- neg y; disjoint_mixed a b) (disjoint_mixed x y) /\
  same_answer (a <- neg x; b <- neg y; less_mixed b a) (less_mixed x y) /\
  same_answer (a <- neg x; b <- neg y; strictly_less_mixed b a) (strictly_less_mixed x y) /\
  same_answer (a <- neg x; b <- neg y; precedes_mixed b a) (precedes_mixed x y) /\
  same_answer (a <- neg x; b <- neg y; strictly_precedes_mixed b a) (strictly_precedes_mixed x y).
Proof.
exact (fun F G x y C Wx Wy => conj (neg_equal C x y Wx Wy) (conj (neg_subset C x y Wx Wy) (conj (neg_interior C x y Wx Wy) (conj (neg_disjoint C x y Wx Wy) (conj (neg_less C x y Wx Wy) (conj (neg_sless C x y Wx Wy) (conj (neg_precedes C x y Wx Wy) (neg_sprecedes C x y Wx Wy)))))))).
Qed.
Print Assumptions C59_relations.
Theorem C59_relations_dec : forall (F G : fmt) (x : ditv F) (y : ditv G), comparable F G -> wf_dec x -> wf_dec y ->
  same_answer (a <- neg_dec x; b <- neg_dec y; rel_dec equal_mixed a b) (rel_dec equal_mixed x y) /\
  same_answer (a <- neg_dec x; b <- neg_dec y; rel_dec subset_mixed a b) (rel_dec subset_mixed x y) /\
  same_answer (a <- neg_dec x; b <- neg_dec y; rel_dec interior_mixed a b) (rel_dec interior_mixed x y) /\
  same_answer (a <- neg_dec x; b <- neg_dec y; rel_dec disjoint_mixed a b) (rel_dec disjoint_mixed x y) /\
  same_answer (a <- neg_dec x; b <- neg_dec y; rel_dec less_mixed b a) (rel_dec less_mixed x y) /\
  same_answer (a <- neg_dec x; b <- neg_dec y; rel_dec strictly_less_mixed b a) (rel_dec strictly_less_mixed x y) /\
  same_answer (a <- neg_dec x; b <- neg_dec y; rel_dec precedes_mixed b a) (rel_dec precedes_mixed x y) /\
  same_answer (a <- neg_dec x; b <- neg_dec y; rel_dec strictly_precedes_mixed b a) (rel_dec strictly_precedes_mixed x y).
Proof.
exact (fun F G x y C Wx Wy => conj (dneg_equal C x y Wx Wy) (conj (dneg_subset C x y Wx Wy) (conj (dneg_interior C x y Wx Wy) (conj (dneg_disjoint C x y Wx Wy) (conj (dneg_less C x y Wx Wy) (conj (dneg_sless C x y Wx Wy) (conj (dneg_precedes C x y Wx Wy) (dneg_sprecedes C x y Wx Wy)))))))).
Qed.
Print Assumptions C59_relations_dec.
Theorem C59_overlap : forall (F G : fmt) (x : itv F) (y : itv G), comparable F G -> wf x -> wf y ->
  exists o, returns (overlap x y) o /\ returns (a <- neg x; b <- neg y; overlap a b) (reflected o).
Proof. exact (fun F G x y C => neg_overlap C x y). Qed.
Print Assumptions C59_overlap.
Theorem C59_overlap_dec : forall (F G : fmt) (x : ditv F) (y : ditv G), comparable F G -> wf_dec x -> wf_dec y ->
  exists o, returns (overlap_dec x y) o /\ returns (a <- neg_dec x; b <- neg_dec y; overlap_dec a b) (reflected o).
Proof. exact (fun F G x y C => dneg_overlap C x y). Qed.
Print Assumptions C59_overlap_dec.
(** ** Set operations and numeric functions of negated operands *)
Theorem C59_set_operations : forall (F : fmt) (x y : itv F), wf x -> wf y ->
  agree (a <- neg x; b <- neg y; intersection a b) (z <- intersection x y; neg z) /\
  agree (a <- neg x; b <- neg y; convex_hull a b) (z <- convex_hull x y; neg z).
Proof. exact (fun F x y Wx Wy => conj (neg_intersection x y Wx Wy) (neg_hull x y Wx Wy)). Qed.
Print Assumptions C59_set_operations.
Theorem C59_set_operations_mixed : forall (T F G : fmt) (x : itv F) (y : itv G), comparable T F -> comparable T G -> comparable F G -> wf x -> wf y ->
  agree (a <- neg x; b <- neg y; intersection_mixed T a b) (z <- intersection_mixed T x y; neg z) /\
  agree (a <- neg x; b <- neg y; convex_hull_mixed T a b) (z <- convex_hull_mixed T x y; neg z).
Proof. exact (fun T F G x y C1 C2 C3 Wx Wy => conj (neg_intersection_mixed T x y C1 C2 C3 Wx Wy) (neg_hull_mixed T x y C1 C2 C3 Wx Wy)). Qed.
Print Assumptions C59_set_operations_mixed.
Theorem C59_numeric : forall (F T : fmt) (x : itv F), comparable F T -> s_nonempty x ->
  compare eq (a <- neg x; n_wid_mixed T a) (n_wid_mixed T x) /\
  compare eq (a <- neg x; n_mag_mixed T a) (n_mag_mixed T x) /\
  compare eq (a <- neg x; n_mig_mixed T a) (n_mig_mixed T x) /\
  compare opposite (a <- neg x; n_mid_mixed T a) (n_mid_mixed T x).
Proof. exact (fun F T x C N => conj (neg_wid T x C N) (conj (neg_mag T x C N) (conj (neg_mig T x C N) (neg_mid T x N)))). Qed.
Print Assumptions C59_numeric.
Theorem C59_rad : forall (F : fmt) (x : itv F), s_nonempty x -> compare eq (a <- neg x; n_rad a) (n_rad x).
Proof. exact @neg_rad. Qed.
Print Assumptions C59_rad.
Notation b := (fl binary64).
Example C59_ex_recip : let x := ((b 1 0, b 2 0), com) in proper x /\ alike1 true true u_recip u_recip /\
  rund (y <- flip_dec true x; un_decd u_recip y) = okd (b (-1) 0) (b (-1) (-1)) com /\
  rund (z <- un_decd u_recip x; flip_dec true z) = okd (b (-1) 0) (b (-1) (-1)) com.
Proof.
intros x. split; [|split; [apply odd_alike; cbn; tauto|vm_compute; split; reflexivity]].
split; [|split; [cbv; tauto|discriminate]]. right. split; [|split; [discriminate|intros _; split; reflexivity]].
exists 1. split; cbn [x fst snd]; [rewrite lb_fin by reflexivity|rewrite ub_fin by reflexivity]; assert (B2R (b 1 0) = 1) by b2r; assert (B2R (b 2 0) = 2) by b2r; lra.
Qed.
Example C59_ex_sub : let x := (b 1 0, b 2 0) in let y := (b (-3) 0, b 5 0) in wf x /\ wf y /\ alike2 true false false true b_sub b_sub /\
  run (swap true (bin_bare b_sub) x y) = okz (b (-5) 0) (b 4 0) /\ run (z <- bin_bare b_sub x y; flip true z) = okz (b (-5) 0) (b 4 0).
Proof. intros x y. split; [wf_tac|]. split; [wf_tac|]. split; [apply laws2_alike; cbn; tauto|]. vm_compute. split; reflexivity. Qed.
Example C59_ex_rev : let b' := (b 1 0, b 2 0) in let c := (b 2 0, b 4 0) in let x := (b 0 0, b 3 0) in wf b' /\ wf c /\ wf x /\
  run (d <- flip true b'; y <- flip true x; mul_rev d c y) = okz (b (-3) 0) (b (-1) 0) /\ run (z <- mul_rev b' c x; flip true z) = okz (b (-3) 0) (b (-1) 0).
Proof. intros b' c x. split; [wf_tac|]. split; [wf_tac|]. split; [wf_tac|]. vm_compute. split; reflexivity. Qed.
Example C59_ex_overlap : let x := (b 1 0, b 2 0) in let y := (b 1 0, b 5 0) in wf x /\ wf y /\
  fst (overlap x y (Est 0 0)) = Ret o_starts /\ fst ((a <- neg x; b <- neg y; overlap a b) (Est 0 0)) = Ret o_finishes.
Proof. intros x y. split; [wf_tac|]. split; [wf_tac|]. vm_compute. split; reflexivity. Qed.
Example C59_ex_less : let x := (b 1 0, b 2 0) in let y := (b 1 0, b 5 0) in
  fst ((a <- neg x; b <- neg y; less_mixed b a) (Est 0 0)) = Ret true /\ fst ((a <- neg x; b <- neg y; less_mixed a b) (Est 0 0)) = Ret false.
Proof. vm_compute. split; reflexivity. Qed.
