(** * C24: extended division *)
From Coq Require Import ZArith NArith Reals Bool Lra.
From Flocq Require Import Core.Core IEEE754.BinarySingleNaN.
From Verif Require Import Fmt Spec FloatFacts Exc Deco SpecApi SpecElem SpecDeco SpecNum MBase PBase Ex MBool MArith PArith PConv MMixed MRev SpecRev PRev PMulRev PRevW SpecMulRev PMulRevX MRev1 PRev1.
Local Open Scope R_scope.

(** Both branches, ascending, each tightest. *)
Theorem C24_mul_rev_to_pair : forall (F : fmt) (b c : itv F), wf b -> wf c ->
  gives (mul_rev_to_pair b c) (fun z => both_branches b c (fst z) (snd z)).
Proof. exact @mul_rev_to_pair_gives. Qed.
Print Assumptions C24_mul_rev_to_pair.
Theorem C24_mul_rev_to_pair_mixed : forall (F G T : fmt) (b : itv F) (c : itv G),
  comparable T F -> comparable T G -> comparable F G -> wf b -> wf c ->
  gives (mul_rev_to_pair_mixed T b c) (fun z => both_branches b c (fst z) (snd z)).
Proof. exact @mul_rev_to_pair_mixed_ok. Qed.
Print Assumptions C24_mul_rev_to_pair_mixed.
Theorem C24_mul_rev_to_pair_dec : forall (F : fmt) (b c : ditv F), wf_dec b -> is_deco (snd b) -> snd b <> ill ->
  wf_dec c -> is_deco (snd c) -> snd c <> ill ->
  gives (mul_rev_to_pair_dec b c) (pair_decorated b c).
Proof. exact @mul_rev_to_pair_dec_ok. Qed.
Print Assumptions C24_mul_rev_to_pair_dec.
Theorem C24_mul_rev_to_pair_dec_mixed : forall (F G T : fmt) (b : ditv F) (c : ditv G),
  comparable T F -> comparable T G -> comparable F G -> wf_dec b -> is_deco (snd b) -> snd b <> ill ->
  wf_dec c -> is_deco (snd c) -> snd c <> ill ->
  gives (mul_rev_to_pair_dec_mixed T b c) (pair_decorated b c).
Proof. exact @mul_rev_to_pair_dec_mixed_ok. Qed.
Print Assumptions C24_mul_rev_to_pair_dec_mixed.

(** The ternary function contains every solution in [x]. *)
Theorem C24_mul_rev_encloses : forall (F : fmt) (b c x : itv F), wf b -> wf c -> wf x ->
  computes_enclosure (mul_rev b c x) (fun t => rev_mul b c t /\ mem t x).
Proof. exact @mul_rev_encl. Qed.
Print Assumptions C24_mul_rev_encloses.
(** It is the tightest such interval; missing: [b] unbounded and [x] with a bound zero. *)
Theorem C24_mul_rev_tightest_partial : forall (F : fmt) (b c x : itv F), wf b -> wf c -> wf x ->
  bounded_rep b \/ (is_finite (fst x) = true -> B2R (fst x) <> 0) /\ (is_finite (snd x) = true -> B2R (snd x) <> 0) ->
  computes_tightest (mul_rev b c x) (fun t => rev_mul b c t /\ mem t x).
Proof. exact @mul_rev_tight. Qed.
Print Assumptions C24_mul_rev_tightest_partial.
(** There it is not: a quotient by an infinite bound is an exact zero for the code, but
    no solution is zero.  b = [-oo,-1], c = [-2,-1], x = [-1,0] gives [0,0]. *)
Theorem C24_mul_rev_tightest_refuted : exists b c x : itv binary64, wf b /\ wf c /\ wf x /\
  (forall t, ~ (rev_mul b c t /\ mem t x)) /\
  exists z, returns (mul_rev b c x) z /\ mem 0 z /\ ~ tightest (fun t => rev_mul b c t /\ mem t x) z.
Proof.
exists (fminf, fl binary64 (-1) 0), (fl binary64 (-2) 0, fl binary64 (-1) 0), (fl binary64 (-1) 0, f0).
split; [wf_tac|]. split; [wf_tac|]. split; [wf_tac|].
assert (N : forall t, ~ (rev_mul (fminf, fl binary64 (-1) 0) (fl binary64 (-2) 0, fl binary64 (-1) 0) t /\ mem t (fl binary64 (-1) 0, f0))).
{ intros t [(s & [_ S1] & [_ S2]) [_ S3]]. cbn [fst snd] in *.
  assert (E : B2R (fl binary64 (-1) 0) = -1) by b2r.
  assert (s <= -1) by (rewrite <- E; exact S1). assert (s * t <= -1) by (rewrite <- E; exact S2).
  assert (t <= 0) by exact S3. nra. }
split; [exact N|].
destruct (mul_rev_encl (fminf, fl binary64 (-1) 0) (fl binary64 (-2) 0, fl binary64 (-1) 0) (fl binary64 (-1) 0, f0)
  ltac:(wf_tac) ltac:(wf_tac) ltac:(wf_tac)) as (z & H1 & H2 & H3).
assert (E : run (mul_rev (fminf, fl binary64 (-1) 0) (fl binary64 (-2) 0, fl binary64 (-1) 0) (fl binary64 (-1) 0, f0))
   = okz (@f0 binary64) (@f0 binary64)) by (vm_compute; reflexivity).
unfold run in E. rewrite H1 in E. unfold okz, sf2 in E.
assert (E1 : B2SF (fst z) = B2SF (@f0 binary64)) by congruence. assert (E2 : B2SF (snd z) = B2SF (@f0 binary64)) by congruence.
apply B2SF_inj in E1. apply B2SF_inj in E2. destruct z as [l u]; cbn [fst snd] in *. subst l u.
assert (M : mem 0 (@f0 binary64, @f0 binary64)) by (split; cbn; lra).
exists (f0, f0). split; [easy|]. split; [easy|]. intros (_ & _ & T).
apply (T empty_rep) in M; [now destruct M as [[] _]|now left|]. intros r Hr. now apply N in Hr.
Qed.
Print Assumptions C24_mul_rev_tightest_refuted.

(** What it computes, for all operands: the tightest interval around the solutions in [x] and around zero,
    if [b] is unlimited and zero is in [x]. *)
Theorem C24_mul_rev_exact : forall (F : fmt) (b c x : itv F), wf b -> wf c -> wf x ->
  computes_tightest (mul_rev b c x) (fun t => rev_mul_lim b c t /\ mem t x).
Proof. exact @mul_rev_exact. Qed.
Print Assumptions C24_mul_rev_exact.
(** Hence it is the tightest interval around the solutions unless zero is in [x], [b] unlimited and some
    interval holds the solutions in [x] but not zero. *)
Theorem C24_mul_rev_tightest_iff : forall (F : fmt) (b c x : itv F), wf b -> wf c -> wf x ->
  (computes_tightest (mul_rev b c x) (fun t => rev_mul b c t /\ mem t x) <->
   ~ (unlimited b /\ (exists r, mem r c) /\ mem 0 x /\
      exists y : itv F, wf y /\ (forall t, rev_mul b c t -> mem t x -> mem t y) /\ ~ mem 0 y)).
Proof. exact @mul_rev_tight_iff. Qed.
Print Assumptions C24_mul_rev_tightest_iff.
(** The same with mixed types and decorations. *)
Theorem C24_mul_rev_mixed_exact : forall (F G H T : fmt) (b : itv F) (c : itv G) (x : itv H),
  comparable T F -> comparable T G -> comparable F G -> comparable T H -> comparable F H -> comparable G H ->
  wf b -> wf c -> wf x ->
  computes_tightest (mul_rev_mixed T b c x) (fun t => rev_mul_lim b c t /\ mem t x).
Proof. intros F G H T. apply @mul_rev_mixed_exact. Qed.
Print Assumptions C24_mul_rev_mixed_exact.
Theorem C24_mul_rev_mixed_tightest_iff : forall (F G H T : fmt) (b : itv F) (c : itv G) (x : itv H),
  comparable T F -> comparable T G -> comparable F G -> comparable T H -> comparable F H -> comparable G H ->
  wf b -> wf c -> wf x ->
  (computes_tightest (mul_rev_mixed T b c x) (fun t => rev_mul b c t /\ mem t x) <->
   ~ (unlimited b /\ (exists r, mem r c) /\ mem 0 x /\
      exists y : itv T, wf y /\ (forall t, rev_mul b c t -> mem t x -> mem t y) /\ ~ mem 0 y)).
Proof. intros F G H T. apply @mul_rev_mixed_tight_iff. Qed.
Print Assumptions C24_mul_rev_mixed_tightest_iff.
Theorem C24_mul_rev_dec_exact : forall (F : fmt) (b c x : ditv F),
  wf_dec b -> snd b <> ill -> wf_dec c -> snd c <> ill -> wf_dec x -> snd x <> ill ->
  gives (mul_rev_dec b c x) (with_trv (tightest (fun t => rev_mul_lim (fst b) (fst c) t /\ mem t (fst x)))).
Proof. exact @mul_rev_dec_exact. Qed.
Print Assumptions C24_mul_rev_dec_exact.
Theorem C24_mul_rev_dec_mixed_exact : forall (F G H T : fmt) (b : ditv F) (c : ditv G) (x : ditv H),
  comparable T F -> comparable T G -> comparable F G -> comparable T H -> comparable F H -> comparable G H ->
  wf_dec b -> snd b <> ill -> wf_dec c -> snd c <> ill -> wf_dec x -> snd x <> ill ->
  gives (mul_rev_dec_mixed T b c x) (with_trv (tightest (fun t => rev_mul_lim (fst b) (fst c) t /\ mem t (fst x)))).
Proof. intros F G H T. apply @mul_rev_dec_mixed_exact. Qed.
Print Assumptions C24_mul_rev_dec_mixed_exact.

(** Without [x] it is the tightest interval around all solutions. *)
Theorem C24_mul_rev2 : forall (F : fmt) (b c : itv F), wf b -> wf c -> computes_tightest (mul_rev2 b c) (rev_mul b c).
Proof. exact @mul_rev2_tight. Qed.
Print Assumptions C24_mul_rev2.

(** Mixed types. *)
Theorem C24_mul_rev_mixed_encloses : forall (F G H T : fmt) (b : itv F) (c : itv G) (x : itv H),
  comparable T F -> comparable T G -> comparable F G -> comparable T H -> comparable F H -> comparable G H ->
  wf b -> wf c -> wf x ->
  computes_enclosure (mul_rev_mixed T b c x) (fun t => rev_mul b c t /\ mem t x).
Proof. exact @mul_rev_mixed_encl. Qed.
Print Assumptions C24_mul_rev_mixed_encloses.
(** Missing: [b] unbounded. *)
Theorem C24_mul_rev_mixed_tightest_partial : forall (F G H T : fmt) (b : itv F) (c : itv G) (x : itv H),
  comparable T F -> comparable T G -> comparable F G -> comparable T H -> comparable F H -> comparable G H ->
  wf b -> wf c -> wf x -> bounded_rep b ->
  computes_tightest (mul_rev_mixed T b c x) (fun t => rev_mul b c t /\ mem t x).
Proof. exact @mul_rev_mixed_tight. Qed.
Print Assumptions C24_mul_rev_mixed_tightest_partial.

(** Decorated: the same sets, decoration trv. *)
Theorem C24_mul_rev_dec_encloses : forall (F : fmt) (b c x : ditv F),
  wf_dec b -> snd b <> ill -> wf_dec c -> snd c <> ill -> wf_dec x -> snd x <> ill ->
  gives (mul_rev_dec b c x) (with_trv (encl (fun t => rev_mul (fst b) (fst c) t /\ mem t (fst x)))).
Proof. exact @mul_rev_dec_encl. Qed.
Print Assumptions C24_mul_rev_dec_encloses.
(** Missing: [b] unbounded. *)
Theorem C24_mul_rev_dec_tightest_partial : forall (F : fmt) (b c x : ditv F),
  wf_dec b -> snd b <> ill -> wf_dec c -> snd c <> ill -> wf_dec x -> snd x <> ill -> bounded_rep (fst b) ->
  gives (mul_rev_dec b c x) (with_trv (tightest (fun t => rev_mul (fst b) (fst c) t /\ mem t (fst x)))).
Proof. exact @mul_rev_dec_tight. Qed.
Print Assumptions C24_mul_rev_dec_tightest_partial.
Theorem C24_mul_rev2_dec : forall (F : fmt) (b c : ditv F), wf_dec b -> snd b <> ill -> wf_dec c -> snd c <> ill ->
  gives (mul_rev2_dec b c) (with_trv (tightest (rev_mul (fst b) (fst c)))).
Proof. exact @mul_rev2_dec_tight. Qed.
Print Assumptions C24_mul_rev2_dec.
Theorem C24_mul_rev_dec_mixed_encloses : forall (F G H T : fmt) (b : ditv F) (c : ditv G) (x : ditv H),
  comparable T F -> comparable T G -> comparable F G -> comparable T H -> comparable F H -> comparable G H ->
  wf_dec b -> snd b <> ill -> wf_dec c -> snd c <> ill -> wf_dec x -> snd x <> ill ->
  gives (mul_rev_dec_mixed T b c x) (with_trv (encl (fun t => rev_mul (fst b) (fst c) t /\ mem t (fst x)))).
Proof. exact @mul_rev_dec_mixed_encl. Qed.
Print Assumptions C24_mul_rev_dec_mixed_encloses.

(** ** Examples *)
Notation b64 := (fl binary64).
Definition fst_of {F} (m : M (itv F * itv F)) : M (itv F) := bind m (fun p => ret (fst p)).
Definition snd_of {F} (m : M (itv F * itv F)) : M (itv F) := bind m (fun p => ret (snd p)).
Definition dfst_of {F} (m : M (ditv F * ditv F)) : M (ditv F) := bind m (fun p => ret (fst p)).
Definition dsnd_of {F} (m : M (ditv F * ditv F)) : M (ditv F) := bind m (fun p => ret (snd p)).
Example C24_ex_pair :
  run (fst_of (mul_rev_to_pair (b64 (-2) 0, b64 4 0) (b64 1 0, b64 8 0))) = okz (@fminf binary64) (b64 (-1) (-1))
  /\ run (snd_of (mul_rev_to_pair (b64 (-2) 0, b64 4 0) (b64 1 0, b64 8 0))) = okz (b64 1 (-2)) (@finf binary64)
  /\ run (fst_of (mul_rev_to_pair (b64 2 0, b64 4 0) (b64 1 0, b64 8 0))) = okz (b64 1 (-2)) (b64 4 0)
  /\ run (snd_of (mul_rev_to_pair (b64 2 0, b64 4 0) (b64 1 0, b64 8 0))) = okz (@fnan binary64) fnan
  /\ run (fst_of (mul_rev_to_pair (@f0 binary64, f0) (b64 1 0, b64 8 0))) = okz (@fnan binary64) fnan
  /\ run (fst_of (mul_rev_to_pair (b64 (-2) 0, b64 4 0) (f0, b64 8 0))) = okz (@fminf binary64) finf
  /\ run (fst_of (mul_rev_to_pair_mixed binary32 (b64 (-2) 0, b64 4 0) (fl binary32 1 0, fl binary32 8 0))) = okz (@fminf binary32) (fl binary32 (-1) (-1))
  /\ rund (dfst_of (mul_rev_to_pair_dec ((b64 2 0, b64 4 0), com) ((b64 1 0, b64 8 0), com))) = okd (b64 1 (-2)) (b64 4 0) com
  /\ rund (dsnd_of (mul_rev_to_pair_dec ((b64 2 0, b64 4 0), com) ((b64 1 0, b64 8 0), com))) = okd (@fnan binary64) fnan trv
  /\ rund (dfst_of (mul_rev_to_pair_dec ((b64 2 0, finf), dac) ((b64 1 0, b64 8 0), com))) = okd (@f0 binary64) (b64 4 0) dac
  /\ wf (b64 (-2) 0, b64 4 0) /\ wf (b64 1 0, b64 8 0).
Proof. repeat (split; [first [wf_tac|vm_compute; reflexivity]|]). wf_tac. Qed.
Example C24_ex_two : two_branches (b64 (-2) 0, b64 4 0) (b64 1 0, b64 8 0).
Proof.
assert (E1 : B2R (b64 (-2) 0) = -2) by b2r. assert (E2 : B2R (b64 4 0) = 4) by b2r.
assert (E3 : B2R (b64 1 0) = 1) by b2r. assert (E4 : B2R (b64 8 0) = 8) by b2r.
split; [exists (-1); split; [apply mem_pt; [easy|easy|lra]|lra]|].
split; [exists 1; split; [apply mem_pt; [easy|easy|lra]|lra]|].
split; [exists 1; apply mem_pt; [easy|easy|lra]|].
intros [H _]. cbn [fst] in H. assert (B2R (b64 1 0) <= 0) by exact H. lra.
Qed.
Example C24_ex :
  run (mul_rev (b64 (-2) 0, b64 4 0) (b64 1 0, b64 8 0) (b64 (-3) 0, b64 (-1) 0)) = okz (b64 (-3) 0) (b64 (-1) 0)
  /\ run (mul_rev (b64 (-2) 0, b64 4 0) (b64 1 0, b64 8 0) (b64 (-3) 0, b64 3 0)) = okz (b64 (-3) 0) (b64 3 0)
  /\ run (mul_rev (b64 (-2) 0, b64 4 0) (b64 1 0, b64 8 0) (b64 0 0, b64 3 0)) = okz (b64 1 (-2)) (b64 3 0)
  /\ run (mul_rev2 (b64 (-2) 0, b64 (-2) 0) (b64 1 0, b64 8 0)) = okz (b64 (-4) 0) (b64 (-1) (-1))
  /\ rund (mul_rev_dec ((b64 (-2) 0, b64 4 0), com) ((b64 1 0, b64 8 0), com) ((b64 0 0, b64 3 0), def)) = okd (b64 1 (-2)) (b64 3 0) trv
  /\ rund (mul_rev2_dec ((b64 (-2) 0, b64 (-2) 0), com) ((b64 1 0, b64 8 0), com)) = okd (b64 (-4) 0) (b64 (-1) (-1)) trv
  /\ run (mul_rev_mixed binary32 (b64 (-2) 0, b64 4 0) (fl binary32 1 0, fl binary32 8 0) (b64 0 0, b64 3 0)) = okz (fl binary32 1 (-2)) (fl binary32 3 0)
  /\ wf (b64 (-3) 0, b64 (-1) 0).
Proof. repeat (split; [first [wf_tac|vm_compute; reflexivity]|]). wf_tac. Qed.
(** An unlimited [b] without and with the phantom zero. *)
Example C24_ex_unlimited :
  run (mul_rev (b64 2 0, @finf binary64) (b64 1 0, b64 8 0) (@f0 binary64, b64 1 0)) = okz (@f0 binary64) (b64 1 0)
  /\ run (mul_rev (@fminf binary64, b64 2 0) (b64 1 0, b64 8 0) (@f0 binary64, b64 3 0)) = okz (@f0 binary64) (b64 3 0)
  /\ unlimited (b64 2 0, @finf binary64) /\ mem 0 (@f0 binary64, b64 1 0).
Proof.
split; [vm_compute; reflexivity|]. split; [vm_compute; reflexivity|].
assert (E : B2R (b64 2 0) = 2) by b2r. assert (E1 : B2R (b64 1 0) = 1) by b2r. split.
- intros B. exists (Rabs B + 2). pose proof (Rabs_pos B). pose proof (Rle_abs B). split; [|rewrite (Rabs_pos_eq (Rabs B + 2)); lra].
  split; cbn [fst snd]; [|easy]. rewrite lb_fin by reflexivity. lra.
- split; cbn [fst snd]; [rewrite lb_fin by reflexivity; cbn; lra|rewrite ub_fin by reflexivity; lra].
Qed.

(** Mixed types without [x]. *)
Theorem C24_mul_rev2_mixed : forall (F G T : fmt) (b : itv F) (c : itv G), comparable T F -> comparable T G -> comparable F G ->
  wf b -> wf c -> computes_tightest (mul_rev2_mixed T b c) (rev_mul b c).
Proof. exact (fun F G T => @mul_rev2_mixed_tight F G T). Qed.
Print Assumptions C24_mul_rev2_mixed.
Theorem C24_mul_rev2_dec_mixed : forall (F G T : fmt) (b : ditv F) (c : ditv G), comparable T F -> comparable T G -> comparable F G ->
  wf_dec b -> snd b <> ill -> wf_dec c -> snd c <> ill ->
  gives (mul_rev2_dec_mixed T b c) (with_trv (tightest (rev_mul (fst b) (fst c)))).
Proof. exact (fun F G T => @mul_rev2_dec_mixed_tight F G T). Qed.
Print Assumptions C24_mul_rev2_dec_mixed.
(** [2,4] in double, [1,3] in float: [1/4, 3/2] in float. *)
Example C24_ex_mixed2 : run (mul_rev2_mixed binary32 (b64 2 0, b64 4 0) (fl binary32 1 0, fl binary32 3 0)) = okz (fl binary32 1 (-2)) (fl binary32 3 (-1)).
Proof. vm_compute. reflexivity. Qed.
