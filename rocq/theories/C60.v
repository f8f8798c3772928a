(** * C60: rounding outward in two steps is rounding in one step

    Claimed: an operation whose result is computed in a wider type and then converted to a narrower
    one gives the same numbers and the same decoration as the operation called for the narrower type
    directly (no double rounding), and the result in the wider type lies in the one in the narrower
    type and has a decoration at least as strong.  Refuted for tangents with a hidden pole only. *)
From Coq Require Import ZArith NArith Reals Bool List Lra.
From Flocq Require Import Core.Core IEEE754.BinarySingleNaN.
From Verif Require Import Fmt Spec FloatFacts Exc Deco SpecApi SpecElem SpecMixed SpecDeco SpecIso SpecExpr SpecAlg SpecOver SpecRev SpecPoint MBase PBase PConv Ex MBool MArith MDec MMixed MExpr MRev PExpr POver SpecTan2 PTanIff PTwice PTwice2.
Local Open Scope R_scope.
Local Open Scope m_scope.

(** ** Bare *)
Theorem C60_unary : forall (T V F : fmt) (u : un) (x : itv F), within T V -> comparable T F -> comparable V F -> wf x -> tan_good (pmax T F) u x -> tan_good (pmax V F) u x ->
  agree (z <- un_bare_mixed V u x; convert_type T z) (un_bare_mixed T u x).
Proof. exact (fun T V F u x H => un_twice T V H u x). Qed.
Print Assumptions C60_unary.
Theorem C60_binary : forall (T V F G : fmt) (b : bin) (x : itv F) (y : itv G), within T V -> comparable T F -> comparable T G -> comparable V F -> comparable V G -> comparable F G -> wf x -> wf y ->
  agree (z <- bin_bare_mixed V b x y; convert_type T z) (bin_bare_mixed T b x y).
Proof. exact (fun T V F G b x y H => bin_twice T V H b x y). Qed.
Print Assumptions C60_binary.
Theorem C60_fma : forall (T V F G K : fmt) (x : itv F) (y : itv G) (v : itv K), within T V -> comp3 T F G K -> comp3 V F G K -> wf x -> wf y -> wf v ->
  agree (z <- fma_mixed V x y v; convert_type T z) (fma_mixed T x y v).
Proof. exact (fun T V F G K x y v H => fma_twice T V H x y v). Qed.
Print Assumptions C60_fma.
Theorem C60_reverse : forall (T V F G : fmt) (c : itv F) (x : itv G), within T V -> comparable T F -> comparable T G -> comparable V F -> comparable V G -> comparable F G -> wf c -> wf x ->
  agree (z <- sqr_rev_mixed V c x; convert_type T z) (sqr_rev_mixed T c x) /\
  agree (z <- abs_rev_mixed V c x; convert_type T z) (abs_rev_mixed T c x) /\
  agree (z <- cosh_rev_mixed V c x; convert_type T z) (cosh_rev_mixed T c x).
Proof. exact (fun T V F G c x H => rev_twice T V H c x). Qed.
Print Assumptions C60_reverse.
Theorem C60_mul_rev : forall (T V F G K : fmt) (b : itv F) (c : itv G) (x : itv K), within T V -> comp3 T F G K -> comp3 V F G K -> wf b -> wf c -> wf x ->
  agree (z <- mul_rev_mixed V b c x; convert_type T z) (mul_rev_mixed T b c x).
Proof. exact (fun T V F G K b c x H => mul_rev_twice T V H b c x). Qed.
Print Assumptions C60_mul_rev.
Theorem C60_set_operations : forall (T V F G : fmt) (x : itv F) (y : itv G), within T V -> comparable T F -> comparable T G -> comparable V F -> comparable V G -> comparable F G -> wf x -> wf y ->
  agree (z <- intersection_mixed V x y; convert_type T z) (intersection_mixed T x y) /\
  agree (z <- convex_hull_mixed V x y; convert_type T z) (convex_hull_mixed T x y).
Proof. exact (fun T V F G x y H => set_twice T V H x y). Qed.
Print Assumptions C60_set_operations.
Theorem C60_convert : forall (T V F : fmt) (x : itv F), within T V -> wf x -> agree (z <- convert_type V x; convert_type T z) (convert_type T x).
Proof. exact (fun T V F x H => convert_twice T V H x). Qed.
Print Assumptions C60_convert.
(** ** Decorated *)
Theorem C60_unary_dec : forall (T V F : fmt) (u : un) (x : ditv F), within T V -> comparable T F -> comparable V F -> proper x ->
  tan_good (pmax T F) u (fst x) -> tan_good (pmax V F) u (fst x) ->
  agree_dec (z <- un_decd_mixed V u x; convert_type_dec T z) (un_decd_mixed T u x).
Proof. exact (fun T V F u x H C D P A B => proj1 (dun_twice T V H u x C D P A B)). Qed.
Print Assumptions C60_unary_dec.
Theorem C60_binary_dec : forall (T V F G : fmt) (b : bin) (x : ditv F) (y : ditv G), within T V -> comparable T F -> comparable T G -> comparable V F -> comparable V G -> comparable F G -> proper x -> proper y ->
  agree_dec (z <- bin_decd_mixed V b x y; convert_type_dec T z) (bin_decd_mixed T b x y).
Proof. exact (fun T V F G b x y H A B C D E P Q => proj1 (dbin_twice T V H b x y A B C D E P Q)). Qed.
Print Assumptions C60_binary_dec.
Theorem C60_fma_dec : forall (T V F G K : fmt) (x : ditv F) (y : ditv G) (v : ditv K), within T V -> comp3 T F G K -> comp3 V F G K -> proper x -> proper y -> proper v ->
  agree_dec (z <- fma_dec_mixed V x y v; convert_type_dec T z) (fma_dec_mixed T x y v).
Proof. exact (fun T V F G K x y v H A B P Q R => proj1 (dfma_twice T V H x y v A B P Q R)). Qed.
Print Assumptions C60_fma_dec.
(** ** The functions for one type, and a conversion afterwards *)
Theorem C60_unary_one : forall (T F : fmt) (u : un) (x : itv F), within T F -> comparable T F -> wf x -> tan_good (pmax T F) u x -> tan_good F u x ->
  agree (z <- un_bare u x; convert_type T z) (un_bare_mixed T u x).
Proof. exact (fun T F u x H C => un_twice1 T F H C u x). Qed.
Print Assumptions C60_unary_one.
Theorem C60_binary_one : forall (T F : fmt) (b : bin) (x y : itv F), within T F -> comparable T F -> wf x -> wf y ->
  agree (z <- bin_bare b x y; convert_type T z) (bin_bare_mixed T b x y).
Proof. exact (fun T F b x y H C => bin_twice1 T F H C b x y). Qed.
Print Assumptions C60_binary_one.
Theorem C60_unary_one_dec : forall (T F : fmt) (u : un) (x : ditv F), within T F -> comparable T F -> proper x -> tan_good (pmax T F) u (fst x) -> tan_good F u (fst x) ->
  agree_dec (z <- un_decd u x; convert_type_dec T z) (un_decd_mixed T u x).
Proof. exact (fun T F u x H C => dun_twice1 T F H C u x). Qed.
Print Assumptions C60_unary_one_dec.
Theorem C60_binary_one_dec : forall (T F : fmt) (b : bin) (x y : ditv F), within T F -> comparable T F -> proper x -> proper y ->
  agree_dec (z <- bin_decd b x y; convert_type_dec T z) (bin_decd_mixed T b x y).
Proof. exact (fun T F b x y H C => dbin_twice1 T F H C b x y). Qed.
Print Assumptions C60_binary_one_dec.
(** ** A wider result type gives a smaller result and no weaker decoration *)
Theorem C60_unary_finer : forall (T V F : fmt) (u : un) (x : itv F), within T V -> comparable T F -> comparable V F -> wf x -> tan_good (pmax T F) u x -> tan_good (pmax V F) u x ->
  exists z w, returns (un_bare_mixed V u x) z /\ returns (un_bare_mixed T u x) w /\ forall r, mem r z -> mem r w.
Proof. exact (fun T V F u x H => un_finer T V H u x). Qed.
Print Assumptions C60_unary_finer.
Theorem C60_binary_finer : forall (T V F G : fmt) (b : bin) (x : itv F) (y : itv G), within T V -> comparable T F -> comparable T G -> comparable V F -> comparable V G -> comparable F G -> wf x -> wf y ->
  exists z w, returns (bin_bare_mixed V b x y) z /\ returns (bin_bare_mixed T b x y) w /\ forall r, mem r z -> mem r w.
Proof. exact (fun T V F G b x y H => bin_finer T V H b x y). Qed.
Print Assumptions C60_binary_finer.
Theorem C60_fma_finer : forall (T V F G K : fmt) (x : itv F) (y : itv G) (v : itv K), within T V -> comp3 T F G K -> comp3 V F G K -> wf x -> wf y -> wf v ->
  exists z w, returns (fma_mixed V x y v) z /\ returns (fma_mixed T x y v) w /\ forall r, mem r z -> mem r w.
Proof. exact (fun T V F G K x y v H => fma_finer T V H x y v). Qed.
Print Assumptions C60_fma_finer.
Theorem C60_unary_finer_dec : forall (T V F : fmt) (u : un) (x : ditv F), within T V -> comparable T F -> comparable V F -> proper x ->
  tan_good (pmax T F) u (fst x) -> tan_good (pmax V F) u (fst x) ->
  exists z w, returns (un_decd_mixed V u x) z /\ returns (un_decd_mixed T u x) w /\ (snd w <= snd z)%N.
Proof. exact (fun T V F u x H C D P A B => proj2 (dun_twice T V H u x C D P A B)). Qed.
Print Assumptions C60_unary_finer_dec.
Theorem C60_binary_finer_dec : forall (T V F G : fmt) (b : bin) (x : ditv F) (y : ditv G), within T V -> comparable T F -> comparable T G -> comparable V F -> comparable V G -> comparable F G -> proper x -> proper y ->
  exists z w, returns (bin_decd_mixed V b x y) z /\ returns (bin_decd_mixed T b x y) w /\ (snd w <= snd z)%N.
Proof. exact (fun T V F G b x y H A B C D E P Q => proj2 (dbin_twice T V H b x y A B C D E P Q)). Qed.
Print Assumptions C60_binary_finer_dec.
Theorem C60_fma_finer_dec : forall (T V F G K : fmt) (x : ditv F) (y : ditv G) (v : ditv K), within T V -> comp3 T F G K -> comp3 V F G K -> proper x -> proper y -> proper v ->
  exists z w, returns (fma_dec_mixed V x y v) z /\ returns (fma_dec_mixed T x y v) w /\ (snd w <= snd z)%N.
Proof. exact (fun T V F G K x y v H A B P Q R => proj2 (dfma_twice T V H x y v A B P Q R)). Qed.
Print Assumptions C60_fma_finer_dec.
(** ** The tangent with a hidden pole (C12) *)
Theorem C60_tan_same : forall (T V F : fmt) (x : itv F), within T V -> comparable T F -> comparable V F -> pmax T F = pmax V F -> three (pmax T F) -> wf x ->
  agree (z <- tan_mixed V x; convert_type T z) (tan_mixed T x).
Proof. exact (fun T V F => @tan_twice_same T V F). Qed.
Print Assumptions C60_tan_same.
(** The pole is hidden from binary64 and not from binary80. *)
Theorem C60_tan_hidden_refuted : forall x : itv binary64, wf x -> pole_hidden binary64 x ->
  ~ agree (z <- un_bare_mixed binary80 u_tan x; convert_type binary64 z) (un_bare_mixed binary64 u_tan x).
Proof. exact tan_twice_differs. Qed.
Print Assumptions C60_tan_hidden_refuted.
Theorem C60_tan_refuted : exists x : itv binary64, wf x /\
  ~ agree (z <- un_bare_mixed binary80 u_tan x; convert_type binary64 z) (un_bare_mixed binary64 u_tan x).
Proof. exact (match hidden_ex with ex_intro x (conj W H) => ex_intro _ x (conj W (tan_twice_differs x W H)) end). Qed.
Print Assumptions C60_tan_refuted.

Notation b := (fl binary64).
Notation s := (fl binary32).
(** 1/3 in double and then in single precision: rounded differently, and converted the same. *)
Example C60_ex_div : let x := (b 1 0, b 1 0) in let y := (b 3 0, b 3 0) in wf x /\ wf y /\ within binary32 binary64 /\
  run (bin_bare b_div x y) = okz (b 6004799503160661 (-54)) (b 6004799503160662 (-54)) /\
  run (z <- bin_bare b_div x y; convert_type binary32 z) = okz (s 11184810 (-25)) (s 11184811 (-25)) /\
  run (bin_bare_mixed binary32 b_div x y) = okz (s 11184810 (-25)) (s 11184811 (-25)).
Proof. intros x y. split; [wf_tac|]. split; [wf_tac|]. split; [split; vm_compute; easy|]. vm_compute. repeat split; reflexivity. Qed.
(** The square of 2^100 is a double, but not a single number: com becomes dac, on both ways. *)
Example C60_ex_sqr : let x := ((b 1 100, b 1 100), com) in proper x /\
  rund (un_decd u_sqr x) = okd (b 1 200) (b 1 200) com /\
  rund (z <- un_decd u_sqr x; convert_type_dec binary32 z) = okd (s 16777215 104) finf dac /\
  rund (un_decd_mixed binary32 u_sqr x) = okd (s 16777215 104) finf dac.
Proof.
intros x. split; [|vm_compute; repeat split; reflexivity].
split; [|split; [cbv; tauto|discriminate]]. right. split; [|split; [discriminate|intros _; split; reflexivity]].
exists (B2R (b 1 100)). split; cbn [x fst snd]; [rewrite lb_fin by reflexivity|rewrite ub_fin by reflexivity]; apply Rle_refl.
Qed.
