(** * C58: cutting an operand into parts loses nothing

    Claimed: let an operand be the union of two intervals.  Then the result of a function at the operand is the
    tightest interval around the results at the two parts; the decoration is the worse one of the two, if the
    decoration of the operand is.  So a single function gains nothing and loses nothing when its operand is cut.
    (Tangent: where it is right, see C12; with a hidden pole the claim is false.)  The same holds for reverse functions
    and the intersection.
    For an expression, the results over boxes that cover a box lie in the result over the box, and together they
    contain all values over the box.  There the parts may be tighter than the whole. *)
From Coq Require Import ZArith NArith Reals Bool Lra Lia List.
From Flocq Require Import Core.Core IEEE754.BinarySingleNaN.
From Verif Require Import Fmt Spec FloatFacts Exc Deco SpecApi SpecDeco SpecIso SpecTan2 SpecMixed SpecExpr SpecOver SpecSplit MBase PBase PConv MBool MArith MDec MMixed MRev MExpr Ex PSplit PSplit2 PSplit3.
Local Open Scope R_scope.

(** ** Functions of one operand *)
Theorem C58_un : forall (F : fmt) u (x x1 x2 : itv F), wf x -> wf x1 -> wf x2 -> cut x x1 x2 ->
  tan_good F u x -> tan_good F u x1 -> tan_good F u x2 -> joins (un_bare u x) (un_bare u x1) (un_bare u x2).
Proof. exact @un_cut. Qed.
Print Assumptions C58_un.
Theorem C58_un_mixed : forall (T F : fmt) u (x x1 x2 : itv F), comparable T F -> wf x -> wf x1 -> wf x2 -> cut x x1 x2 ->
  tan_good (pmax T F) u x -> tan_good (pmax T F) u x1 -> tan_good (pmax T F) u x2 ->
  joins (un_bare_mixed T u x) (un_bare_mixed T u x1) (un_bare_mixed T u x2).
Proof. exact @un_cut_mixed. Qed.
Print Assumptions C58_un_mixed.
Theorem C58_un_dec : forall (F : fmt) u (x x1 x2 : ditv F), proper x -> proper x1 -> proper x2 -> cut_dec x x1 x2 ->
  tan_good F u (fst x) -> tan_good F u (fst x1) -> tan_good F u (fst x2) -> joins_dec (un_decd u x) (un_decd u x1) (un_decd u x2).
Proof. exact @dun_cut. Qed.
Print Assumptions C58_un_dec.
Theorem C58_un_dec_mixed : forall (T F : fmt) u (x x1 x2 : ditv F), comparable T F -> proper x -> proper x1 -> proper x2 -> cut_dec x x1 x2 ->
  tan_good (pmax T F) u (fst x) -> tan_good (pmax T F) u (fst x1) -> tan_good (pmax T F) u (fst x2) ->
  joins_dec (un_decd_mixed T u x) (un_decd_mixed T u x1) (un_decd_mixed T u x2).
Proof. exact @dun_cut_mixed. Qed.
Print Assumptions C58_un_dec_mixed.

(** The tangent over a hidden pole misses values that the tangents over the parts contain. *)
Theorem C58_tan_hidden_refuted : forall (F : fmt) (x x1 x2 : itv F), wf x -> wf x1 -> wf x2 -> cut x x1 x2 -> pole_hidden F x ->
  ~ pole_hidden F x1 -> ~ pole_hidden F x2 -> ~ joins (un_bare u_tan x) (un_bare u_tan x1) (un_bare u_tan x2).
Proof. exact @tan_hidden_cut. Qed.
Print Assumptions C58_tan_hidden_refuted.
Theorem C58_tan_refuted : exists x x1 x2 : itv binary64, wf x /\ wf x1 /\ wf x2 /\ cut x x1 x2 /\
  ~ joins (un_bare u_tan x) (un_bare u_tan x1) (un_bare u_tan x2).
Proof. exact tan_cut_refuted. Qed.
Print Assumptions C58_tan_refuted.

(** ** Functions of two operands: a box that is the union of two boxes, and decorated, one operand cut *)
Theorem C58_bin : forall (F : fmt) b (x x1 x2 y y1 y2 : itv F), wf x -> wf x1 -> wf x2 -> wf y -> wf y1 -> wf y2 ->
  (forall p, box2 x y p <-> box2 x1 y1 p \/ box2 x2 y2 p) -> joins (bin_bare b x y) (bin_bare b x1 y1) (bin_bare b x2 y2).
Proof. exact @bin_box. Qed.
Print Assumptions C58_bin.
Theorem C58_bin_mixed : forall (T F G : fmt) b (x x1 x2 : itv F) (y y1 y2 : itv G), comparable T F -> comparable T G -> comparable F G ->
  wf x -> wf x1 -> wf x2 -> wf y -> wf y1 -> wf y2 ->
  (forall p, box2 x y p <-> box2 x1 y1 p \/ box2 x2 y2 p) -> joins (bin_bare_mixed T b x y) (bin_bare_mixed T b x1 y1) (bin_bare_mixed T b x2 y2).
Proof. exact @bin_box_mixed. Qed.
Print Assumptions C58_bin_mixed.
Theorem C58_bin_dec_first : forall (F : fmt) b (x x1 x2 y : ditv F), proper x -> proper x1 -> proper x2 -> proper y -> cut_dec x x1 x2 ->
  joins_dec (bin_decd b x y) (bin_decd b x1 y) (bin_decd b x2 y).
Proof. exact @dbin_cut1. Qed.
Print Assumptions C58_bin_dec_first.
Theorem C58_bin_dec_second : forall (F : fmt) b (x y y1 y2 : ditv F), proper x -> proper y -> proper y1 -> proper y2 -> cut_dec y y1 y2 ->
  joins_dec (bin_decd b x y) (bin_decd b x y1) (bin_decd b x y2).
Proof. exact @dbin_cut2. Qed.
Print Assumptions C58_bin_dec_second.
Theorem C58_bin_dec_first_mixed : forall (T F G : fmt) b (x x1 x2 : ditv F) (y : ditv G), comparable T F -> comparable T G -> comparable F G ->
  proper x -> proper x1 -> proper x2 -> proper y -> cut_dec x x1 x2 ->
  joins_dec (bin_decd_mixed T b x y) (bin_decd_mixed T b x1 y) (bin_decd_mixed T b x2 y).
Proof. exact @dbin_cut1_mixed. Qed.
Print Assumptions C58_bin_dec_first_mixed.
Theorem C58_bin_dec_second_mixed : forall (T F G : fmt) b (x : ditv F) (y y1 y2 : ditv G), comparable T F -> comparable T G -> comparable F G ->
  proper x -> proper y -> proper y1 -> proper y2 -> cut_dec y y1 y2 ->
  joins_dec (bin_decd_mixed T b x y) (bin_decd_mixed T b x y1) (bin_decd_mixed T b x y2).
Proof. exact @dbin_cut2_mixed. Qed.
Print Assumptions C58_bin_dec_second_mixed.

(** ** fma *)
Theorem C58_fma : forall (F : fmt) (x x1 x2 y y1 y2 w w1 w2 : itv F), wf x -> wf x1 -> wf x2 -> wf y -> wf y1 -> wf y2 -> wf w -> wf w1 -> wf w2 ->
  (forall p, box3 x y w p <-> box3 x1 y1 w1 p \/ box3 x2 y2 w2 p) -> joins (fma x y w) (fma x1 y1 w1) (fma x2 y2 w2).
Proof. exact @fma_box. Qed.
Print Assumptions C58_fma.
Theorem C58_fma_mixed : forall (T F G H : fmt) (x x1 x2 : itv F) (y y1 y2 : itv G) (w w1 w2 : itv H),
  comparable T F -> comparable T G -> comparable F G -> comparable T H -> comparable F H -> comparable G H ->
  wf x -> wf x1 -> wf x2 -> wf y -> wf y1 -> wf y2 -> wf w -> wf w1 -> wf w2 ->
  (forall p, box3 x y w p <-> box3 x1 y1 w1 p \/ box3 x2 y2 w2 p) -> joins (fma_mixed T x y w) (fma_mixed T x1 y1 w1) (fma_mixed T x2 y2 w2).
Proof. exact @fma_box_mixed. Qed.
Print Assumptions C58_fma_mixed.
Theorem C58_fma_dec : forall (F : fmt) (x x1 x2 y y1 y2 w w1 w2 : ditv F),
  proper x -> proper x1 -> proper x2 -> proper y -> proper y1 -> proper y2 -> proper w -> proper w1 -> proper w2 ->
  cut_dec x x1 x2 -> cut_dec y y1 y2 -> cut_dec w w1 w2 ->
  (forall p, box3 (fst x) (fst y) (fst w) p <-> box3 (fst x1) (fst y1) (fst w1) p \/ box3 (fst x2) (fst y2) (fst w2) p) ->
  joins_dec (fma_dec x y w) (fma_dec x1 y1 w1) (fma_dec x2 y2 w2).
Proof. exact @dfma_cut. Qed.
Print Assumptions C58_fma_dec.
Theorem C58_fma_dec_mixed : forall (T F G H : fmt) (x x1 x2 : ditv F) (y y1 y2 : ditv G) (w w1 w2 : ditv H),
  comparable T F -> comparable T G -> comparable F G -> comparable T H -> comparable F H -> comparable G H ->
  proper x -> proper x1 -> proper x2 -> proper y -> proper y1 -> proper y2 -> proper w -> proper w1 -> proper w2 ->
  cut_dec x x1 x2 -> cut_dec y y1 y2 -> cut_dec w w1 w2 ->
  (forall p, box3 (fst x) (fst y) (fst w) p <-> box3 (fst x1) (fst y1) (fst w1) p \/ box3 (fst x2) (fst y2) (fst w2) p) ->
  joins_dec (fma_dec_mixed T x y w) (fma_dec_mixed T x1 y1 w1) (fma_dec_mixed T x2 y2 w2).
Proof. exact @dfma_cut_mixed. Qed.
Print Assumptions C58_fma_dec_mixed.

(** ** Reverse functions: constraint and box cut *)
Theorem C58_sqr_rev : forall (F : fmt) (c c1 c2 x x1 x2 : itv F), wf c -> wf c1 -> wf c2 -> wf x -> wf x1 -> wf x2 ->
  (forall p, box2 c x p <-> box2 c1 x1 p \/ box2 c2 x2 p) -> joins (sqr_rev c x) (sqr_rev c1 x1) (sqr_rev c2 x2).
Proof. exact @sqr_rev_box. Qed.
Print Assumptions C58_sqr_rev.
Theorem C58_sqr_rev_mixed : forall (T F G : fmt) (c c1 c2 : itv F) (x x1 x2 : itv G), comparable T F -> comparable T G -> comparable F G ->
  wf c -> wf c1 -> wf c2 -> wf x -> wf x1 -> wf x2 ->
  (forall p, box2 c x p <-> box2 c1 x1 p \/ box2 c2 x2 p) -> joins (sqr_rev_mixed T c x) (sqr_rev_mixed T c1 x1) (sqr_rev_mixed T c2 x2).
Proof. exact sqr_rev_box_mixed. Qed.
Print Assumptions C58_sqr_rev_mixed.
Theorem C58_sqr_rev_dec : forall (F : fmt) (c c1 c2 x x1 x2 : ditv F), proper c -> proper c1 -> proper c2 -> proper x -> proper x1 -> proper x2 ->
  (forall p, box2 (fst c) (fst x) p <-> box2 (fst c1) (fst x1) p \/ box2 (fst c2) (fst x2) p) -> joins_dec (sqr_rev_dec c x) (sqr_rev_dec c1 x1) (sqr_rev_dec c2 x2).
Proof. exact @dsqr_rev_box. Qed.
Print Assumptions C58_sqr_rev_dec.
Theorem C58_sqr_rev_dec_mixed : forall (T F G : fmt) (c c1 c2 : ditv F) (x x1 x2 : ditv G), comparable T F -> comparable T G -> comparable F G ->
  proper c -> proper c1 -> proper c2 -> proper x -> proper x1 -> proper x2 ->
  (forall p, box2 (fst c) (fst x) p <-> box2 (fst c1) (fst x1) p \/ box2 (fst c2) (fst x2) p) -> joins_dec (sqr_rev_dec_mixed T c x) (sqr_rev_dec_mixed T c1 x1) (sqr_rev_dec_mixed T c2 x2).
Proof. exact @dsqr_rev_box_mixed. Qed.
Print Assumptions C58_sqr_rev_dec_mixed.
Theorem C58_abs_rev : forall (F : fmt) (c c1 c2 x x1 x2 : itv F), wf c -> wf c1 -> wf c2 -> wf x -> wf x1 -> wf x2 ->
  (forall p, box2 c x p <-> box2 c1 x1 p \/ box2 c2 x2 p) -> joins (abs_rev c x) (abs_rev c1 x1) (abs_rev c2 x2).
Proof. exact @abs_rev_box. Qed.
Print Assumptions C58_abs_rev.
Theorem C58_abs_rev_mixed : forall (T F G : fmt) (c c1 c2 : itv F) (x x1 x2 : itv G), comparable T F -> comparable T G -> comparable F G ->
  wf c -> wf c1 -> wf c2 -> wf x -> wf x1 -> wf x2 ->
  (forall p, box2 c x p <-> box2 c1 x1 p \/ box2 c2 x2 p) -> joins (abs_rev_mixed T c x) (abs_rev_mixed T c1 x1) (abs_rev_mixed T c2 x2).
Proof. exact abs_rev_box_mixed. Qed.
Print Assumptions C58_abs_rev_mixed.
Theorem C58_abs_rev_dec : forall (F : fmt) (c c1 c2 x x1 x2 : ditv F), proper c -> proper c1 -> proper c2 -> proper x -> proper x1 -> proper x2 ->
  (forall p, box2 (fst c) (fst x) p <-> box2 (fst c1) (fst x1) p \/ box2 (fst c2) (fst x2) p) -> joins_dec (abs_rev_dec c x) (abs_rev_dec c1 x1) (abs_rev_dec c2 x2).
Proof. exact @dabs_rev_box. Qed.
Print Assumptions C58_abs_rev_dec.
Theorem C58_abs_rev_dec_mixed : forall (T F G : fmt) (c c1 c2 : ditv F) (x x1 x2 : ditv G), comparable T F -> comparable T G -> comparable F G ->
  proper c -> proper c1 -> proper c2 -> proper x -> proper x1 -> proper x2 ->
  (forall p, box2 (fst c) (fst x) p <-> box2 (fst c1) (fst x1) p \/ box2 (fst c2) (fst x2) p) -> joins_dec (abs_rev_dec_mixed T c x) (abs_rev_dec_mixed T c1 x1) (abs_rev_dec_mixed T c2 x2).
Proof. exact @dabs_rev_box_mixed. Qed.
Print Assumptions C58_abs_rev_dec_mixed.
Theorem C58_cosh_rev : forall (F : fmt) (c c1 c2 x x1 x2 : itv F), wf c -> wf c1 -> wf c2 -> wf x -> wf x1 -> wf x2 ->
  (forall p, box2 c x p <-> box2 c1 x1 p \/ box2 c2 x2 p) -> joins (cosh_rev c x) (cosh_rev c1 x1) (cosh_rev c2 x2).
Proof. exact @cosh_rev_box. Qed.
Print Assumptions C58_cosh_rev.
Theorem C58_cosh_rev_mixed : forall (T F G : fmt) (c c1 c2 : itv F) (x x1 x2 : itv G), comparable T F -> comparable T G -> comparable F G ->
  wf c -> wf c1 -> wf c2 -> wf x -> wf x1 -> wf x2 ->
  (forall p, box2 c x p <-> box2 c1 x1 p \/ box2 c2 x2 p) -> joins (cosh_rev_mixed T c x) (cosh_rev_mixed T c1 x1) (cosh_rev_mixed T c2 x2).
Proof. exact cosh_rev_box_mixed. Qed.
Print Assumptions C58_cosh_rev_mixed.
Theorem C58_cosh_rev_dec : forall (F : fmt) (c c1 c2 x x1 x2 : ditv F), proper c -> proper c1 -> proper c2 -> proper x -> proper x1 -> proper x2 ->
  (forall p, box2 (fst c) (fst x) p <-> box2 (fst c1) (fst x1) p \/ box2 (fst c2) (fst x2) p) -> joins_dec (cosh_rev_dec c x) (cosh_rev_dec c1 x1) (cosh_rev_dec c2 x2).
Proof. exact @dcosh_rev_box. Qed.
Print Assumptions C58_cosh_rev_dec.
Theorem C58_cosh_rev_dec_mixed : forall (T F G : fmt) (c c1 c2 : ditv F) (x x1 x2 : ditv G), comparable T F -> comparable T G -> comparable F G ->
  proper c -> proper c1 -> proper c2 -> proper x -> proper x1 -> proper x2 ->
  (forall p, box2 (fst c) (fst x) p <-> box2 (fst c1) (fst x1) p \/ box2 (fst c2) (fst x2) p) -> joins_dec (cosh_rev_dec_mixed T c x) (cosh_rev_dec_mixed T c1 x1) (cosh_rev_dec_mixed T c2 x2).
Proof. exact @dcosh_rev_box_mixed. Qed.
Print Assumptions C58_cosh_rev_dec_mixed.
Theorem C58_mul_rev : forall (F : fmt) (b b1 b2 c c1 c2 x x1 x2 : itv F), wf b -> wf b1 -> wf b2 -> wf c -> wf c1 -> wf c2 -> wf x -> wf x1 -> wf x2 ->
  (forall p, box3 b c x p <-> box3 b1 c1 x1 p \/ box3 b2 c2 x2 p) -> joins (mul_rev b c x) (mul_rev b1 c1 x1) (mul_rev b2 c2 x2).
Proof. exact @mul_rev_box. Qed.
Print Assumptions C58_mul_rev.
Theorem C58_mul_rev_mixed : forall (T F G H : fmt) (b b1 b2 : itv F) (c c1 c2 : itv G) (x x1 x2 : itv H),
  comparable T F -> comparable T G -> comparable F G -> comparable T H -> comparable F H -> comparable G H -> wf b -> wf b1 -> wf b2 -> wf c -> wf c1 -> wf c2 -> wf x -> wf x1 -> wf x2 ->
  (forall p, box3 b c x p <-> box3 b1 c1 x1 p \/ box3 b2 c2 x2 p) -> joins (mul_rev_mixed T b c x) (mul_rev_mixed T b1 c1 x1) (mul_rev_mixed T b2 c2 x2).
Proof. exact @mul_rev_box_mixed. Qed.
Print Assumptions C58_mul_rev_mixed.
Theorem C58_mul_rev_dec : forall (F : fmt) (b b1 b2 c c1 c2 x x1 x2 : ditv F), proper b -> proper b1 -> proper b2 -> proper c -> proper c1 -> proper c2 -> proper x -> proper x1 -> proper x2 ->
  (forall p, box3 (fst b) (fst c) (fst x) p <-> box3 (fst b1) (fst c1) (fst x1) p \/ box3 (fst b2) (fst c2) (fst x2) p) -> joins_dec (mul_rev_dec b c x) (mul_rev_dec b1 c1 x1) (mul_rev_dec b2 c2 x2).
Proof. exact @dmul_rev_box. Qed.
Print Assumptions C58_mul_rev_dec.
Theorem C58_mul_rev_dec_mixed : forall (T F G H : fmt) (b b1 b2 : ditv F) (c c1 c2 : ditv G) (x x1 x2 : ditv H),
  comparable T F -> comparable T G -> comparable F G -> comparable T H -> comparable F H -> comparable G H -> proper b -> proper b1 -> proper b2 -> proper c -> proper c1 -> proper c2 -> proper x -> proper x1 -> proper x2 ->
  (forall p, box3 (fst b) (fst c) (fst x) p <-> box3 (fst b1) (fst c1) (fst x1) p \/ box3 (fst b2) (fst c2) (fst x2) p) -> joins_dec (mul_rev_dec_mixed T b c x) (mul_rev_dec_mixed T b1 c1 x1) (mul_rev_dec_mixed T b2 c2 x2).
Proof. exact @dmul_rev_box_mixed. Qed.
Print Assumptions C58_mul_rev_dec_mixed.
(** The reverse power, with the box cut; at the exponent INT_MIN the code is undefined (C25). *)
Theorem C58_pown_rev : forall (F : fmt) (c x x1 x2 : itv F) (p : Z), wf c -> wf x -> wf x1 -> wf x2 -> p <> int_min -> cut x x1 x2 ->
  exists k, forall fuel, (k <= fuel)%nat -> joins (pown_rev fuel c x p) (pown_rev fuel c x1 p) (pown_rev fuel c x2 p).
Proof. exact @pown_rev_cut. Qed.
Print Assumptions C58_pown_rev.
Theorem C58_pown_rev_mixed : forall (T F G : fmt) (c : itv F) (x x1 x2 : itv G) (p : Z), comparable T F -> comparable T G -> comparable F G ->
  wf c -> wf x -> wf x1 -> wf x2 -> p <> int_min -> cut x x1 x2 ->
  exists k, forall fuel, (k <= fuel)%nat -> joins (pown_rev_mixed T fuel c x p) (pown_rev_mixed T fuel c x1 p) (pown_rev_mixed T fuel c x2 p).
Proof. exact @pown_rev_cut_mixed. Qed.
Print Assumptions C58_pown_rev_mixed.

(** ** Intersection *)
Theorem C58_intersection : forall (F : fmt) (x x1 x2 y : itv F), wf x -> wf x1 -> wf x2 -> wf y -> cut x x1 x2 ->
  joins (intersection x y) (intersection x1 y) (intersection x2 y).
Proof. exact @inter_cut. Qed.
Print Assumptions C58_intersection.
Theorem C58_intersection_mixed : forall (T F G : fmt) (x x1 x2 : itv F) (y : itv G), comparable T F -> comparable T G -> comparable F G ->
  wf x -> wf x1 -> wf x2 -> wf y -> cut x x1 x2 -> joins (intersection_mixed T x y) (intersection_mixed T x1 y) (intersection_mixed T x2 y).
Proof. exact @inter_cut_mixed. Qed.
Print Assumptions C58_intersection_mixed.

(** ** Expressions over a covered box *)
Theorem C58_expressions : forall (vf : nat -> fmt) (X : ienv vf) (l : list (ienv vf)) (F : fmt) (e : expr vf F), covered e X l ->
  (forall i, occurs i e = true -> wf (X i)) -> (forall Y, In Y l -> forall i, occurs i e = true -> wf (Y i)) -> typed e ->
  tan_fine (fun F a z => returns (beval X a) z) e -> (forall Y, In Y l -> tan_fine (fun F a z => returns (beval Y a) z) e) ->
  exists z, returns (beval X e) z /\ (forall Y, In Y l -> exists y, returns (beval Y e) y /\ included y z) /\
  forall p, in_box e X p -> dom p e -> exists Y y, In Y l /\ returns (beval Y e) y /\ mem (val p e) y /\ included y z.
Proof. exact expr_cover. Qed.
Print Assumptions C58_expressions.
(** The whole may be wider than the parts together: x - x over [0,1] and over the two halves. *)
Theorem C58_expressions_equal_refuted : exists (vf : nat -> fmt) (F : fmt) (e : expr vf F) (X Y1 Y2 : ienv vf),
  covered e X (Y1 :: Y2 :: nil) /\ (forall i, wf (X i)) /\ (forall i, wf (Y1 i)) /\ (forall i, wf (Y2 i)) /\
  ~ joins (beval X e) (beval Y1 e) (beval Y2 e).
Proof. exact (ex_intro _ cvf (ex_intro _ binary64 (ex_intro _ ce (ex_intro _ (cX 0 2 (-1)) (ex_intro _ (cX 0 1 (-1)) (ex_intro _ (cX 1 2 (-1)) expr_split_refuted)))))). Qed.
Print Assumptions C58_expressions_equal_refuted.

(** ** Examples *)
Notation b n e := (fl binary64 n e).
(** The square over [-2,4] and over [-2,1] and [0,4]; 1 / x over [0,2] (decoration trv) and over [0,1] (trv) and [1,2] (com). *)
Example C58_ex_sqr : run (un_bare u_sqr (b (-2) 0, b 4 0)) = okz (b 0 0) (b 16 0) /\
  run (un_bare u_sqr (b (-2) 0, b 1 0)) = okz (b 0 0) (b 4 0) /\ run (un_bare u_sqr (b 0 0, b 4 0)) = okz (b 0 0) (b 16 0).
Proof. vm_compute. repeat split; reflexivity. Qed.
Example C58_ex_cut : let x := ((b 0 0, b 2 0), com) in let x1 := ((b 0 0, b 1 0), com) in let x2 := ((b 1 0, b 2 0), com) in
  proper x /\ proper x1 /\ proper x2 /\ cut_dec x x1 x2 /\
  rund (un_decd u_recip x) = okd (b 1 (-1)) (B754_infinity false) trv /\ rund (un_decd u_recip x1) = okd (b 1 0) (B754_infinity false) trv /\
  rund (un_decd u_recip x2) = okd (b 1 (-1)) (b 1 0) com.
Proof.
intros x x1 x2.
assert (B0 : B2R (b 0 0) = 0) by b2r. assert (B1 : B2R (b 1 0) = 1) by b2r. assert (B2 : B2R (b 2 0) = 2) by b2r.
assert (M : forall r, mem r (fst x) <-> 0 <= r <= 2) by (intros r; unfold x, mem; cbn [fst snd]; rewrite lb_fin, ub_fin, B0, B2 by (vm_compute; reflexivity); reflexivity).
assert (M1 : forall r, mem r (fst x1) <-> 0 <= r <= 1) by (intros r; unfold x1, mem; cbn [fst snd]; rewrite lb_fin, ub_fin, B0, B1 by (vm_compute; reflexivity); reflexivity).
assert (M2 : forall r, mem r (fst x2) <-> 1 <= r <= 2) by (intros r; unfold x2, mem; cbn [fst snd]; rewrite lb_fin, ub_fin, B1, B2 by (vm_compute; reflexivity); reflexivity).
assert (P : forall y : itv binary64, mem 1 y -> bounded_rep y -> proper (y, com)).
{ intros y H B. split; [right; split; [now exists 1|now split]|]. split; [cbv; tauto|discriminate]. }
split; [apply P; [apply M; lra|vm_compute; now split]|]. split; [apply P; [apply M1; lra|vm_compute; now split]|]. split; [apply P; [apply M2; lra|vm_compute; now split]|].
split; [|vm_compute; repeat split; reflexivity]. split; [|split; [exists 1; apply M1; lra|split; [exists 1; apply M2; lra|reflexivity]]].
intros r. rewrite M, M1, M2. destruct (Rle_or_lt r 1); lra.
Qed.
(** The square roots of [1,4] in [-3,3], in [-3,0] and in [0,3]. *)
Example C58_ex_rev : run (sqr_rev (b 1 0, b 4 0) (b (-3) 0, b 3 0)) = okz (b (-2) 0) (b 2 0) /\
  run (sqr_rev (b 1 0, b 4 0) (b (-3) 0, b 0 0)) = okz (b (-2) 0) (b (-1) 0) /\ run (sqr_rev (b 1 0, b 4 0) (b 0 0, b 3 0)) = okz (b 1 0) (b 2 0).
Proof. vm_compute. repeat split; reflexivity. Qed.
(** A square cut along its first side. *)
Example C58_ex_box : let x := (b 0 0, b 2 0) in let x1 := (b 0 0, b 1 0) in let x2 := (b 1 0, b 2 0) in let y := (b 1 0, b 2 0) in
  wf x /\ wf x1 /\ wf x2 /\ wf y /\ (forall p, box2 x y p <-> box2 x1 y p \/ box2 x2 y p).
Proof.
intros x x1 x2 y. split; [wf_tac|]. split; [wf_tac|]. split; [wf_tac|]. split; [wf_tac|].
destruct C58_ex_cut as (_ & _ & _ & [C _] & _). intros p. specialize (C (fst p)). cbn [fst] in C. unfold box2. tauto.
Qed.
Example C58_ex_expr : covered ce (cX 0 2 (-1)) (cX 0 1 (-1) :: cX 1 2 (-1) :: nil) /\ typed ce /\
  (forall X, tan_fine (fun F a z => returns (beval X a) z) ce).
Proof. split; [apply expr_split_refuted|]. split; [easy|]. intros X. cbn. easy. Qed.
Example C58_ex_fma : let x := ((b 0 0, b 2 0), com) in let x1 := ((b 0 0, b 1 0), com) in let x2 := ((b 1 0, b 2 0), com) in
  cut_dec x x1 x2 /\ cut_dec x2 x2 x2 /\
  (forall p, box3 (fst x) (fst x2) (fst x2) p <-> box3 (fst x1) (fst x2) (fst x2) p \/ box3 (fst x2) (fst x2) (fst x2) p).
Proof.
intros x x1 x2. destruct C58_ex_cut as (_ & _ & _ & C & _). fold x x1 x2 in C. split; [exact C|].
destruct C as (C & E1 & E2 & _). split.
- split; [intros r; tauto|]. split; [exact E2|]. split; [exact E2|]. reflexivity.
- intros p. specialize (C (fst (fst p))). unfold box3, box2. tauto.
Qed.
