(** * C57: a result depends on the sets given and on the result type, not on the overload

    Claimed: let a forward function, a relation or a set operation be called twice, with operands that are the
    same sets of real numbers (and have the same decorations) but may be stored in different types, or with
    differently signed zeros as bounds, and through the version for one type or the one for mixed types.  If the
    result type is the same, the two results are the same set with the same decoration, and both calls raise
    nothing.  So the types in which the inputs of an expression are stored and the choice between the versions do not matter, as
    long as the result types of the functions stay.  (Tangent: where it is right, see C12 and C28.)
    Numeric functions return the same number then, with the same sign if it is zero; reverse functions the same
    sets.  The reverse power is an exception: there the work type shows. *)
From Coq Require Import ZArith NArith Reals Bool Lra Lia List.
From Flocq Require Import Core.Core IEEE754.BinarySingleNaN.
From Verif Require Import Fmt Spec FloatFacts Exc Deco SpecApi SpecDeco SpecIso SpecTan2 SpecMixed SpecExpr SpecAlg SpecPoint SpecNum SpecRev SpecMulRev SpecPownRev SpecOver MBase PBase PConv MBool MArith MDec MMixed MNum MRev MExpr Ex POver POver2 POver3 POver4.
From Verif Require C21 C25 C28.
Local Open Scope R_scope.

(** ** Functions of one operand *)
Theorem C57_un : forall (F : fmt) u (x y : itv F), wf x -> wf y -> same_numbers x y -> tan_good F u x -> tan_good F u y ->
  agree (un_bare u x) (un_bare u y).
Proof. exact @un_same. Qed.
Print Assumptions C57_un.
Theorem C57_un_overload : forall (F G : fmt) u (x : itv F) (y : itv G), comparable F G -> wf x -> wf y -> same_numbers x y ->
  tan_good F u x -> tan_good (pmax F G) u y -> agree (un_bare u x) (un_bare_mixed F u y).
Proof. exact @un_same_mixed. Qed.
Print Assumptions C57_un_overload.
Theorem C57_un_mixed : forall (T F G : fmt) u (x : itv F) (y : itv G), comparable T F -> comparable T G -> wf x -> wf y ->
  same_numbers x y -> tan_good (pmax T F) u x -> tan_good (pmax T G) u y -> agree (un_bare_mixed T u x) (un_bare_mixed T u y).
Proof. exact @un_mixed_same. Qed.
Print Assumptions C57_un_mixed.
Theorem C57_un_dec : forall (F : fmt) u (x y : ditv F), proper x -> proper y -> same_dec x y ->
  tan_good F u (fst x) -> tan_good F u (fst y) -> agree_dec (un_decd u x) (un_decd u y).
Proof. exact @dun_same. Qed.
Print Assumptions C57_un_dec.
Theorem C57_un_dec_overload : forall (F G : fmt) u (x : ditv F) (y : ditv G), comparable F G -> proper x -> proper y -> same_dec x y ->
  tan_good F u (fst x) -> tan_good (pmax F G) u (fst y) -> agree_dec (un_decd u x) (un_decd_mixed F u y).
Proof. exact @dun_same_mixed. Qed.
Print Assumptions C57_un_dec_overload.
Theorem C57_un_dec_mixed : forall (T F G : fmt) u (x : ditv F) (y : ditv G), comparable T F -> comparable T G -> proper x -> proper y ->
  same_dec x y -> tan_good (pmax T F) u (fst x) -> tan_good (pmax T G) u (fst y) -> agree_dec (un_decd_mixed T u x) (un_decd_mixed T u y).
Proof. exact @dun_mixed_same. Qed.
Print Assumptions C57_un_dec_mixed.

(** The tangent of an operand of binary64 with a hidden pole is another one if the operand is stored in binary80. *)
Theorem C57_tan_hidden_refuted : forall x : itv binary64, wf x -> pole_hidden binary64 x ->
  exists x' : itv binary80, wf x' /\ same_numbers x x' /\ ~ agree (un_bare u_tan x) (un_bare_mixed binary64 u_tan x').
Proof. exact (fun x W Hx => ex_intro (fun x' : itv binary80 => wf x' /\ same_numbers x x' /\ ~ agree (un_bare u_tan x) (un_bare_mixed binary64 u_tan x')) (convert_hull binary80 x) (tan_overload_differs x W Hx)). Qed.
Print Assumptions C57_tan_hidden_refuted.
Theorem C57_tan_refuted : exists (x : itv binary64) (x' : itv binary80), wf x /\ wf x' /\ same_numbers x x' /\
  ~ agree (un_bare u_tan x) (un_bare_mixed binary64 u_tan x').
Proof. exact tan_overload_refuted. Qed.
Print Assumptions C57_tan_refuted.

(** ** Functions of two and three operands *)
Theorem C57_bin : forall (F : fmt) b (x y x' y' : itv F), wf x -> wf y -> wf x' -> wf y' -> same_numbers x x' -> same_numbers y y' ->
  agree (bin_bare b x y) (bin_bare b x' y').
Proof. exact @bin_same. Qed.
Print Assumptions C57_bin.
Theorem C57_bin_overload : forall (F G K : fmt) b (x y : itv F) (x' : itv G) (y' : itv K), comparable F G -> comparable F K -> comparable G K ->
  wf x -> wf y -> wf x' -> wf y' -> same_numbers x x' -> same_numbers y y' -> agree (bin_bare b x y) (bin_bare_mixed F b x' y').
Proof. exact @bin_same_mixed. Qed.
Print Assumptions C57_bin_overload.
Theorem C57_bin_mixed : forall (T F G F' G' : fmt) b (x : itv F) (y : itv G) (x' : itv F') (y' : itv G'),
  comparable T F -> comparable T G -> comparable F G -> comparable T F' -> comparable T G' -> comparable F' G' ->
  wf x -> wf y -> wf x' -> wf y' -> same_numbers x x' -> same_numbers y y' -> agree (bin_bare_mixed T b x y) (bin_bare_mixed T b x' y').
Proof. exact @bin_mixed_same. Qed.
Print Assumptions C57_bin_mixed.
Theorem C57_bin_dec : forall (F : fmt) b (x y x' y' : ditv F), proper x -> proper y -> proper x' -> proper y' ->
  same_dec x x' -> same_dec y y' -> agree_dec (bin_decd b x y) (bin_decd b x' y').
Proof. exact @dbin_same. Qed.
Print Assumptions C57_bin_dec.
Theorem C57_bin_dec_overload : forall (F G K : fmt) b (x y : ditv F) (x' : ditv G) (y' : ditv K), comparable F G -> comparable F K -> comparable G K ->
  proper x -> proper y -> proper x' -> proper y' -> same_dec x x' -> same_dec y y' -> agree_dec (bin_decd b x y) (bin_decd_mixed F b x' y').
Proof. exact @dbin_same_mixed. Qed.
Print Assumptions C57_bin_dec_overload.
Theorem C57_bin_dec_mixed : forall (T F G F' G' : fmt) b (x : ditv F) (y : ditv G) (x' : ditv F') (y' : ditv G'),
  comparable T F -> comparable T G -> comparable F G -> comparable T F' -> comparable T G' -> comparable F' G' ->
  proper x -> proper y -> proper x' -> proper y' -> same_dec x x' -> same_dec y y' -> agree_dec (bin_decd_mixed T b x y) (bin_decd_mixed T b x' y').
Proof. exact @dbin_mixed_same. Qed.
Print Assumptions C57_bin_dec_mixed.
Theorem C57_fma_overload : forall (F G H K : fmt) (x y w : itv F) (x' : itv G) (y' : itv H) (w' : itv K),
  comparable F G /\ comparable F H /\ comparable G H /\ comparable F K /\ comparable G K /\ comparable H K ->
  wf x -> wf y -> wf w -> wf x' -> wf y' -> wf w' -> same_numbers x x' -> same_numbers y y' -> same_numbers w w' ->
  agree (fma x y w) (fma_mixed F x' y' w').
Proof. exact @fma_same_mixed. Qed.
Print Assumptions C57_fma_overload.
Theorem C57_fma_mixed : forall (T F G H F' G' H' : fmt) (x : itv F) (y : itv G) (w : itv H) (x' : itv F') (y' : itv G') (w' : itv H'),
  comparable T F /\ comparable T G /\ comparable F G /\ comparable T H /\ comparable F H /\ comparable G H ->
  comparable T F' /\ comparable T G' /\ comparable F' G' /\ comparable T H' /\ comparable F' H' /\ comparable G' H' ->
  wf x -> wf y -> wf w -> wf x' -> wf y' -> wf w' -> same_numbers x x' -> same_numbers y y' -> same_numbers w w' ->
  agree (fma_mixed T x y w) (fma_mixed T x' y' w').
Proof. exact @fma_mixed_same. Qed.
Print Assumptions C57_fma_mixed.
Theorem C57_fma_dec_overload : forall (F G H K : fmt) (x y w : ditv F) (x' : ditv G) (y' : ditv H) (w' : ditv K),
  comparable F G /\ comparable F H /\ comparable G H /\ comparable F K /\ comparable G K /\ comparable H K ->
  proper x -> proper y -> proper w -> proper x' -> proper y' -> proper w' -> same_dec x x' -> same_dec y y' -> same_dec w w' ->
  agree_dec (fma_dec x y w) (fma_dec_mixed F x' y' w').
Proof. exact @dfma_same_mixed. Qed.
Print Assumptions C57_fma_dec_overload.
Theorem C57_fma_dec_mixed : forall (T F G H F' G' H' : fmt) (x : ditv F) (y : ditv G) (w : ditv H) (x' : ditv F') (y' : ditv G') (w' : ditv H'),
  comparable T F /\ comparable T G /\ comparable F G /\ comparable T H /\ comparable F H /\ comparable G H ->
  comparable T F' /\ comparable T G' /\ comparable F' G' /\ comparable T H' /\ comparable F' H' /\ comparable G' H' ->
  proper x -> proper y -> proper w -> proper x' -> proper y' -> proper w' -> same_dec x x' -> same_dec y y' -> same_dec w w' ->
  agree_dec (fma_dec_mixed T x y w) (fma_dec_mixed T x' y' w').
Proof. exact @dfma_mixed_same. Qed.
Print Assumptions C57_fma_dec_mixed.

(** ** Relations and set operations *)
Theorem C57_relations :
  set_relation (@equal) (@equal_mixed) /\ set_relation (@subset) (@subset_mixed) /\
  set_relation (@less) (@less_mixed) /\ set_relation (@precedes) (@precedes_mixed) /\
  set_relation (@interior) (@interior_mixed) /\ set_relation (@strictly_less) (@strictly_less_mixed) /\
  set_relation (@strictly_precedes) (@strictly_precedes_mixed) /\ set_relation (@disjoint) (@disjoint_mixed).
Proof.
exact (conj same_equal (conj same_subset (conj same_less (conj same_precedes (conj same_interior (conj same_strictly_less
  (conj same_strictly_precedes same_disjoint))))))).
Qed.
Print Assumptions C57_relations.
Theorem C57_intersection_overload : forall (F : fmt) (x y : itv F) (G H : fmt) (x' : itv G) (y' : itv H), comparable F G -> comparable F H -> comparable G H ->
  wf x -> wf y -> wf x' -> wf y' -> same_numbers x x' -> same_numbers y y' -> agree (intersection x y) (intersection_mixed F x' y').
Proof. exact same_intersection. Qed.
Print Assumptions C57_intersection_overload.
Theorem C57_intersection_mixed : forall (T F G : fmt) (x : itv F) (y : itv G) (F' G' : fmt) (x' : itv F') (y' : itv G'),
  comparable T F -> comparable T G -> comparable F G -> comparable T F' -> comparable T G' -> comparable F' G' ->
  wf x -> wf y -> wf x' -> wf y' -> same_numbers x x' -> same_numbers y y' -> agree (intersection_mixed T x y) (intersection_mixed T x' y').
Proof. exact same_intersection_mixed. Qed.
Print Assumptions C57_intersection_mixed.
Theorem C57_hull_overload : forall (F : fmt) (x y : itv F) (G H : fmt) (x' : itv G) (y' : itv H), comparable F G -> comparable F H -> comparable G H ->
  wf x -> wf y -> wf x' -> wf y' -> same_numbers x x' -> same_numbers y y' -> agree (convex_hull x y) (convex_hull_mixed F x' y').
Proof. exact same_hull. Qed.
Print Assumptions C57_hull_overload.
Theorem C57_hull_mixed : forall (T F G : fmt) (x : itv F) (y : itv G) (F' G' : fmt) (x' : itv F') (y' : itv G'),
  comparable T F -> comparable T G -> comparable F G -> comparable T F' -> comparable T G' -> comparable F' G' ->
  wf x -> wf y -> wf x' -> wf y' -> same_numbers x x' -> same_numbers y y' -> agree (convex_hull_mixed T x y) (convex_hull_mixed T x' y').
Proof. exact same_hull_mixed. Qed.
Print Assumptions C57_hull_mixed.

(** ** Numeric functions *)
Theorem C57_inf_overload : forall (F G : fmt) (x : itv F) (y : itv G), comparable G F -> wf x -> wf y -> same_numbers x y ->
  same_float (n_inf x) (n_inf_mixed F y).
Proof. exact @inf_over. Qed.
Print Assumptions C57_inf_overload.
Theorem C57_inf_mixed : forall (T F G : fmt) (x : itv F) (y : itv G), comparable F T -> comparable G T -> wf x -> wf y -> same_numbers x y ->
  same_float (n_inf_mixed T x) (n_inf_mixed T y).
Proof. exact @inf_mix. Qed.
Print Assumptions C57_inf_mixed.
Theorem C57_sup_overload : forall (F G : fmt) (x : itv F) (y : itv G), comparable G F -> wf x -> wf y -> same_numbers x y ->
  same_float (n_sup x) (n_sup_mixed F y).
Proof. exact @sup_over. Qed.
Print Assumptions C57_sup_overload.
Theorem C57_sup_mixed : forall (T F G : fmt) (x : itv F) (y : itv G), comparable F T -> comparable G T -> wf x -> wf y -> same_numbers x y ->
  same_float (n_sup_mixed T x) (n_sup_mixed T y).
Proof. exact @sup_mix. Qed.
Print Assumptions C57_sup_mixed.
Theorem C57_wid_overload : forall (F G : fmt) (x : itv F) (y : itv G), comparable G F -> wf x -> wf y -> same_numbers x y ->
  same_float (n_wid x) (n_wid_mixed F y).
Proof. exact @wid_over. Qed.
Print Assumptions C57_wid_overload.
Theorem C57_wid_mixed : forall (T F G : fmt) (x : itv F) (y : itv G), comparable F T -> comparable G T -> wf x -> wf y -> same_numbers x y ->
  same_float (n_wid_mixed T x) (n_wid_mixed T y).
Proof. exact @wid_mix. Qed.
Print Assumptions C57_wid_mixed.
Theorem C57_mag_overload : forall (F G : fmt) (x : itv F) (y : itv G), comparable G F -> wf x -> wf y -> same_numbers x y ->
  same_float (n_mag x) (n_mag_mixed F y).
Proof. exact @mag_over. Qed.
Print Assumptions C57_mag_overload.
Theorem C57_mag_mixed : forall (T F G : fmt) (x : itv F) (y : itv G), comparable F T -> comparable G T -> wf x -> wf y -> same_numbers x y ->
  same_float (n_mag_mixed T x) (n_mag_mixed T y).
Proof. exact @mag_mix. Qed.
Print Assumptions C57_mag_mixed.
Theorem C57_mig_overload : forall (F G : fmt) (x : itv F) (y : itv G), comparable G F -> wf x -> wf y -> same_numbers x y ->
  same_float (n_mig x) (n_mig_mixed F y).
Proof. exact @mig_over. Qed.
Print Assumptions C57_mig_overload.
Theorem C57_mig_mixed : forall (T F G : fmt) (x : itv F) (y : itv G), comparable F T -> comparable G T -> wf x -> wf y -> same_numbers x y ->
  same_float (n_mig_mixed T x) (n_mig_mixed T y).
Proof. exact @mig_mix. Qed.
Print Assumptions C57_mig_mixed.
Theorem C57_mid_overload : forall (F G : fmt) (x : itv F) (y : itv G), wf x -> wf y -> same_numbers x y ->
  same_float (n_mid x) (n_mid_mixed F y).
Proof. exact @mid_over. Qed.
Print Assumptions C57_mid_overload.
Theorem C57_mid_mixed : forall (T F G : fmt) (x : itv F) (y : itv G), wf x -> wf y -> same_numbers x y ->
  same_float (n_mid_mixed T x) (n_mid_mixed T y).
Proof. exact @mid_mix. Qed.
Print Assumptions C57_mid_mixed.
Theorem C57_rad_overload : forall (F G : fmt) (x : itv F) (y : itv G), comparable G F -> wf x -> wf y -> same_numbers x y ->
  same_float (n_rad x) (n_rad_mixed F y).
Proof. exact @rad_over. Qed.
Print Assumptions C57_rad_overload.
Theorem C57_rad_mixed : forall (T F G : fmt) (x : itv F) (y : itv G), comparable F T -> comparable G T -> wf x -> wf y -> same_numbers x y ->
  same_float (n_rad_mixed T x) (n_rad_mixed T y).
Proof. exact @rad_mix_full. Qed.
Print Assumptions C57_rad_mixed.
Theorem C57_num_dec_overload : forall (F G : fmt) (x : ditv F) (y : ditv G), comparable G F -> wf_dec x -> wf_dec y -> same_dec x y ->
  same_float (n_inf_dec x) (num_dec_mixed F (n_inf_mixed F) y) /\ same_float (n_sup_dec x) (num_dec_mixed F (n_sup_mixed F) y) /\
  same_float (n_mid_dec x) (num_dec_mixed F (n_mid_mixed F) y) /\ same_float (n_rad_dec x) (num_dec_mixed F (n_rad_mixed F) y) /\
  same_float (n_wid_dec x) (num_dec_mixed F (n_wid_mixed F) y) /\ same_float (n_mag_dec x) (num_dec_mixed F (n_mag_mixed F) y) /\
  same_float (n_mig_dec x) (num_dec_mixed F (n_mig_mixed F) y).
Proof. exact @num_decs_over. Qed.
Print Assumptions C57_num_dec_overload.
Theorem C57_num_dec_mixed : forall (T F G : fmt) (x : ditv F) (y : ditv G), comparable F T -> comparable G T -> wf_dec x -> wf_dec y -> same_dec x y ->
  same_float (num_dec_mixed T (n_inf_mixed T) x) (num_dec_mixed T (n_inf_mixed T) y) /\ same_float (num_dec_mixed T (n_sup_mixed T) x) (num_dec_mixed T (n_sup_mixed T) y) /\
  same_float (num_dec_mixed T (n_mid_mixed T) x) (num_dec_mixed T (n_mid_mixed T) y) /\ same_float (num_dec_mixed T (n_rad_mixed T) x) (num_dec_mixed T (n_rad_mixed T) y) /\
  same_float (num_dec_mixed T (n_wid_mixed T) x) (num_dec_mixed T (n_wid_mixed T) y) /\ same_float (num_dec_mixed T (n_mag_mixed T) x) (num_dec_mixed T (n_mag_mixed T) y) /\
  same_float (num_dec_mixed T (n_mig_mixed T) x) (num_dec_mixed T (n_mig_mixed T) y).
Proof. exact @num_decs_mix. Qed.
Print Assumptions C57_num_dec_mixed.

(** ** Reverse functions *)
Theorem C57_sqr_rev_overload : forall (F G H : fmt) (c x : itv F) (c' : itv G) (x' : itv H), comparable F G -> comparable F H -> comparable G H ->
  wf c -> wf x -> wf c' -> wf x' -> same_numbers c c' -> same_numbers x x' -> agree (sqr_rev c x) (sqr_rev_mixed F c' x').
Proof. exact @sqr_rev_over. Qed.
Print Assumptions C57_sqr_rev_overload.
Theorem C57_sqr_rev_mixed : forall (T F G F' G' : fmt) (c : itv F) (x : itv G) (c' : itv F') (x' : itv G'),
  comparable T F -> comparable T G -> comparable F G -> comparable T F' -> comparable T G' -> comparable F' G' ->
  wf c -> wf x -> wf c' -> wf x' -> same_numbers c c' -> same_numbers x x' -> agree (sqr_rev_mixed T c x) (sqr_rev_mixed T c' x').
Proof. exact @sqr_rev_mix. Qed.
Print Assumptions C57_sqr_rev_mixed.
Theorem C57_abs_rev_overload : forall (F G H : fmt) (c x : itv F) (c' : itv G) (x' : itv H), comparable F G -> comparable F H -> comparable G H ->
  wf c -> wf x -> wf c' -> wf x' -> same_numbers c c' -> same_numbers x x' -> agree (abs_rev c x) (abs_rev_mixed F c' x').
Proof. exact @abs_rev_over. Qed.
Print Assumptions C57_abs_rev_overload.
Theorem C57_abs_rev_mixed : forall (T F G F' G' : fmt) (c : itv F) (x : itv G) (c' : itv F') (x' : itv G'),
  comparable T F -> comparable T G -> comparable F G -> comparable T F' -> comparable T G' -> comparable F' G' ->
  wf c -> wf x -> wf c' -> wf x' -> same_numbers c c' -> same_numbers x x' -> agree (abs_rev_mixed T c x) (abs_rev_mixed T c' x').
Proof. exact @abs_rev_mix. Qed.
Print Assumptions C57_abs_rev_mixed.
Theorem C57_cosh_rev_overload : forall (F G H : fmt) (c x : itv F) (c' : itv G) (x' : itv H), comparable F G -> comparable F H -> comparable G H ->
  wf c -> wf x -> wf c' -> wf x' -> same_numbers c c' -> same_numbers x x' -> agree (cosh_rev c x) (cosh_rev_mixed F c' x').
Proof. exact @cosh_rev_over. Qed.
Print Assumptions C57_cosh_rev_overload.
Theorem C57_cosh_rev_mixed : forall (T F G F' G' : fmt) (c : itv F) (x : itv G) (c' : itv F') (x' : itv G'),
  comparable T F -> comparable T G -> comparable F G -> comparable T F' -> comparable T G' -> comparable F' G' ->
  wf c -> wf x -> wf c' -> wf x' -> same_numbers c c' -> same_numbers x x' -> agree (cosh_rev_mixed T c x) (cosh_rev_mixed T c' x').
Proof. exact @cosh_rev_mix. Qed.
Print Assumptions C57_cosh_rev_mixed.
Theorem C57_mul_rev_to_pair_overload : forall (F G H : fmt) (b c : itv F) (b' : itv G) (c' : itv H), comparable F G -> comparable F H -> comparable G H ->
  wf b -> wf c -> wf b' -> wf c' -> same_numbers b b' -> same_numbers c c' -> agree_pair (mul_rev_to_pair b c) (mul_rev_to_pair_mixed F b' c').
Proof. exact @pair_over. Qed.
Print Assumptions C57_mul_rev_to_pair_overload.
Theorem C57_mul_rev_to_pair_mixed : forall (T F G F' G' : fmt) (b : itv F) (c : itv G) (b' : itv F') (c' : itv G'),
  comparable T F -> comparable T G -> comparable F G -> comparable T F' -> comparable T G' -> comparable F' G' ->
  wf b -> wf c -> wf b' -> wf c' -> same_numbers b b' -> same_numbers c c' -> agree_pair (mul_rev_to_pair_mixed T b c) (mul_rev_to_pair_mixed T b' c').
Proof. exact @pair_mix. Qed.
Print Assumptions C57_mul_rev_to_pair_mixed.
Theorem C57_mul_rev_overload : forall (F G H I : fmt) (b c x : itv F) (b' : itv G) (c' : itv H) (x' : itv I),
  comparable F G -> comparable F H -> comparable G H -> comparable F I -> comparable G I -> comparable H I ->
  wf b -> wf c -> wf b' -> wf c' -> wf x -> wf x' -> same_numbers b b' -> same_numbers c c' -> same_numbers x x' ->
  agree (mul_rev b c x) (mul_rev_mixed F b' c' x').
Proof. exact (fun F G H I b c x b' c' x' C1 C2 C3 D1 D2 D3 W1 W2 W3 W4 V V' E K L => mul_rev_over b c b' c' C1 C2 C3 W1 W2 W3 W4 E K x x' D1 D2 D3 V V' L). Qed.
Print Assumptions C57_mul_rev_overload.
Theorem C57_mul_rev_mixed : forall (T F G I F' G' I' : fmt) (b : itv F) (c : itv G) (x : itv I) (b' : itv F') (c' : itv G') (x' : itv I'),
  comparable T F -> comparable T G -> comparable F G -> comparable T I -> comparable F I -> comparable G I ->
  comparable T F' -> comparable T G' -> comparable F' G' -> comparable T I' -> comparable F' I' -> comparable G' I' ->
  wf b -> wf c -> wf b' -> wf c' -> wf x -> wf x' -> same_numbers b b' -> same_numbers c c' -> same_numbers x x' ->
  agree (mul_rev_mixed T b c x) (mul_rev_mixed T b' c' x').
Proof. exact (fun T F G I F' G' I' b c x b' c' x' C1 C2 C3 A1 A2 A3 D1 D2 D3 B1 B2 B3 W1 W2 W3 W4 V V' E K L => mul_rev_mix T b c b' c' C1 C2 C3 D1 D2 D3 W1 W2 W3 W4 E K x x' A1 A2 A3 B1 B2 B3 V V' L). Qed.
Print Assumptions C57_mul_rev_mixed.
(** Decorated. *)
Theorem C57_sqr_rev_dec_overload : forall (F G H : fmt) (c x : ditv F) (c' : ditv G) (x' : ditv H), comparable F G -> comparable F H -> comparable G H ->
  wf_dec c -> snd c <> ill -> wf_dec x -> snd x <> ill -> wf_dec c' -> wf_dec x' -> same_dec c c' -> same_dec x x' ->
  agree_dec (sqr_rev_dec c x) (sqr_rev_dec_mixed F c' x').
Proof. exact @sqr_rev_dover. Qed.
Print Assumptions C57_sqr_rev_dec_overload.
Theorem C57_sqr_rev_dec_mixed : forall (T F G F' G' : fmt) (c : ditv F) (x : ditv G) (c' : ditv F') (x' : ditv G'),
  comparable T F -> comparable T G -> comparable F G -> comparable T F' -> comparable T G' -> comparable F' G' ->
  wf_dec c -> snd c <> ill -> wf_dec x -> snd x <> ill -> wf_dec c' -> wf_dec x' -> same_dec c c' -> same_dec x x' ->
  agree_dec (sqr_rev_dec_mixed T c x) (sqr_rev_dec_mixed T c' x').
Proof. exact @sqr_rev_dmix. Qed.
Print Assumptions C57_sqr_rev_dec_mixed.
Theorem C57_abs_rev_dec_overload : forall (F G H : fmt) (c x : ditv F) (c' : ditv G) (x' : ditv H), comparable F G -> comparable F H -> comparable G H ->
  wf_dec c -> snd c <> ill -> wf_dec x -> snd x <> ill -> wf_dec c' -> wf_dec x' -> same_dec c c' -> same_dec x x' ->
  agree_dec (abs_rev_dec c x) (abs_rev_dec_mixed F c' x').
Proof. exact @abs_rev_dover. Qed.
Print Assumptions C57_abs_rev_dec_overload.
Theorem C57_abs_rev_dec_mixed : forall (T F G F' G' : fmt) (c : ditv F) (x : ditv G) (c' : ditv F') (x' : ditv G'),
  comparable T F -> comparable T G -> comparable F G -> comparable T F' -> comparable T G' -> comparable F' G' ->
  wf_dec c -> snd c <> ill -> wf_dec x -> snd x <> ill -> wf_dec c' -> wf_dec x' -> same_dec c c' -> same_dec x x' ->
  agree_dec (abs_rev_dec_mixed T c x) (abs_rev_dec_mixed T c' x').
Proof. exact @abs_rev_dmix. Qed.
Print Assumptions C57_abs_rev_dec_mixed.
Theorem C57_cosh_rev_dec_overload : forall (F G H : fmt) (c x : ditv F) (c' : ditv G) (x' : ditv H), comparable F G -> comparable F H -> comparable G H ->
  wf_dec c -> snd c <> ill -> wf_dec x -> snd x <> ill -> wf_dec c' -> wf_dec x' -> same_dec c c' -> same_dec x x' ->
  agree_dec (cosh_rev_dec c x) (cosh_rev_dec_mixed F c' x').
Proof. exact @cosh_rev_dover. Qed.
Print Assumptions C57_cosh_rev_dec_overload.
Theorem C57_cosh_rev_dec_mixed : forall (T F G F' G' : fmt) (c : ditv F) (x : ditv G) (c' : ditv F') (x' : ditv G'),
  comparable T F -> comparable T G -> comparable F G -> comparable T F' -> comparable T G' -> comparable F' G' ->
  wf_dec c -> snd c <> ill -> wf_dec x -> snd x <> ill -> wf_dec c' -> wf_dec x' -> same_dec c c' -> same_dec x x' ->
  agree_dec (cosh_rev_dec_mixed T c x) (cosh_rev_dec_mixed T c' x').
Proof. exact @cosh_rev_dmix. Qed.
Print Assumptions C57_cosh_rev_dec_mixed.
Theorem C57_mul_rev_dec_overload : forall (F G H I : fmt) (b c x : ditv F) (b' : ditv G) (c' : ditv H) (x' : ditv I),
  comparable F G -> comparable F H -> comparable G H -> comparable F I -> comparable G I -> comparable H I ->
  wf_dec b -> snd b <> ill -> wf_dec c -> snd c <> ill -> wf_dec b' -> wf_dec c' -> wf_dec x -> snd x <> ill -> wf_dec x' ->
  same_dec b b' -> same_dec c c' -> same_dec x x' -> agree_dec (mul_rev_dec b c x) (mul_rev_dec_mixed F b' c' x').
Proof. exact (fun F G H I b c x b' c' x' C1 C2 C3 D1 D2 D3 W1 I1 W2 I2 W3 W4 V J V' E K L => mul_rev_dover b c b' c' C1 C2 C3 W1 I1 W2 I2 W3 W4 E K x x' D1 D2 D3 V J V' L). Qed.
Print Assumptions C57_mul_rev_dec_overload.
(** The reverse square by [pown_rev] cuts the roots, rounded in the work type, with [x]: with 2 and the binary64 number above its root
    the call for binary64 returns an interval that holds a number, the call with that number stored in binary80 the empty set. *)
Theorem C57_pown_rev_refuted : exists (c x z w : itv binary64) (x' : itv binary80), wf c /\ wf x /\ wf x' /\ same_numbers x x' /\
  (exists k, forall fuel, (k <= fuel)%nat -> returns (pown_rev fuel c x 2) z) /\
  (exists k, forall fuel, (k <= fuel)%nat -> returns (pown_rev_mixed binary64 fuel c x' 2) w) /\
  (exists t, mem t z) /\ w = empty_rep.
Proof. exact pown_rev_differs. Qed.
Print Assumptions C57_pown_rev_refuted.

(** ** Expressions *)
Theorem C57_expressions : forall (vf vf' : nat -> fmt) (X : ienv vf) (X' : ienv vf') (F G : fmt) (e : expr vf F) (e' : expr vf' G),
  recast e e' -> (forall i, occurs i e = true -> wf (X i) /\ wf (X' i) /\ same_numbers (X i) (X' i)) ->
  typed e -> tan_types three e -> tan_fine (fun F a z => returns (beval X a) z) e ->
  typed e' -> tan_types three e' -> tan_fine (fun F a z => returns (beval X' a) z) e' ->
  exists z w, returns (beval X e) z /\ returns (beval X' e') w /\ same_numbers z w.
Proof. exact @expr_same_full. Qed.
Print Assumptions C57_expressions.
Theorem C57_expressions_dec : forall (vf vf' : nat -> fmt) (X : denv vf) (X' : denv vf') (F G : fmt) (e : expr vf F) (e' : expr vf' G),
  recast e e' -> (forall i, occurs i e = true -> proper (X i) /\ proper (X' i) /\ same_dec (X i) (X' i)) ->
  typed e -> tan_types three e -> tan_fine (fun F a z => returns (beval (parts X) a) z) e ->
  typed e' -> tan_types three e' -> tan_fine (fun F a z => returns (beval (parts X') a) z) e' ->
  exists z w, returns (deval X e) z /\ returns (deval X' e') w /\ same_dec z w.
Proof. exact @dexpr_same_full. Qed.
Print Assumptions C57_expressions_dec.

(** ** Examples *)
(** [0,4] in binary64 with lower bound +0, and in binary32 with lower bound -0: the reciprocals are both [1/4,oo]. *)
Definition ex_x : itv binary64 := (B754_zero false, fl binary64 4 0).
Definition ex_y : itv binary32 := (B754_zero true, fl binary32 4 0).
Lemma ex_same : same_numbers ex_x ex_y.
Proof.
assert (B : B2R (fl binary64 4 0) = 4) by b2r. assert (B' : B2R (fl binary32 4 0) = 4) by b2r.
assert (K : is_finite (fl binary64 4 0) = true) by reflexivity. assert (K' : is_finite (fl binary32 4 0) = true) by reflexivity.
intros r. unfold ex_x, ex_y, mem, lb, ub. cbn [fst snd]. destruct (fl binary64 4 0), (fl binary32 4 0); try easy; rewrite B, B'; cbn; tauto.
Qed.
Example C57_ex : ex_x <> (B754_zero true, fl binary64 4 0) /\ wf ex_x /\ wf ex_y /\ same_numbers ex_x ex_y /\ comparable binary64 binary32 /\ tan_good binary64 u_recip ex_x /\
  run (un_bare u_recip ex_x) = okz (fl binary64 1 (-2)) (B754_infinity false) /\
  run (un_bare_mixed binary64 u_recip ex_y) = okz (fl binary64 1 (-2)) (B754_infinity false).
Proof.
split; [discriminate|]. split; [wf_tac|]. split; [wf_tac|]. split; [exact ex_same|]. split; [apply C28.C28_formats; simpl; auto|]. split; [easy|].
split; vm_compute; reflexivity.
Qed.
(** x * x + 1/x with x in binary64, and with x in binary32. *)
Definition v64 := fun _ : nat => binary64. Definition v32 := fun _ : nat => binary32.
Definition ex_e : expr v64 binary64 := Bin b_add (Bin b_mul (@Var v64 0) (@Var v64 0)) (Un u_recip (@Var v64 0)).
Definition ex_e' : expr v32 binary64 := Bin b_add (MBin binary64 b_mul (@Var v32 0) (@Var v32 0)) (MUn binary64 u_recip (@Var v32 0)).
Example C57_ex_expr : recast ex_e ex_e' /\ typed ex_e /\ typed ex_e' /\
  same_dec (ex_x, dac) (ex_y, dac) /\ proper (ex_x, dac) /\ proper (ex_y, dac) /\
  rund (deval (fun _ : nat => (ex_x, dac) : ditv (v64 0)) ex_e) = okd (fl binary64 1 (-2)) (B754_infinity false) trv /\
  rund (deval (fun _ : nat => (ex_y, dac) : ditv (v32 0)) ex_e') = okd (fl binary64 1 (-2)) (B754_infinity false) trv.
Proof.
split; [apply (rc_bin binary64); [apply (rc_bin_m (vf := v64) (vf' := v32) binary64 binary32 binary32); apply (rc_var (vf := v64) (vf' := v32))|apply (rc_un_m (vf := v64) (vf' := v32) binary64 binary32); apply (rc_var (vf := v64) (vf' := v32))]|].
split; [cbn; tauto|]. split; [cbn; assert (comparable binary64 binary32) by (apply C28.C28_formats; simpl; auto); assert (comparable binary32 binary32) by (apply C28.C28_formats; simpl; auto); tauto|].
split; [split; [exact ex_same|easy]|]. split; [split; [wf_tac|split; [cbn; tauto|easy]]|]. split; [split; [wf_tac|split; [cbn; tauto|easy]]|].
split; vm_compute; reflexivity.
Qed.
(** [0,4] again: the same midpoint 2, the same radius, the same reverse square of [0,16] in it. *)
Definition ex_c : itv binary64 := (B754_zero true, fl binary64 16 0).
Example C57_ex_num : wf ex_x /\ wf ex_y /\ same_numbers ex_x ex_y /\ comparable binary32 binary64 /\
  C21.runf (n_mid ex_x) = C21.okf (fl binary64 2 0) /\ C21.runf (n_mid_mixed binary64 ex_y) = C21.okf (fl binary64 2 0) /\
  run (sqr_rev ex_c ex_x) = okz (B754_zero true) (fl binary64 4 0) /\ run (sqr_rev_mixed binary64 ex_c ex_y) = okz (B754_zero true) (fl binary64 4 0).
Proof.
split; [wf_tac|]. split; [wf_tac|]. split; [exact ex_same|]. split; [apply C28.C28_formats; simpl; auto|].
split; [vm_compute; reflexivity|]. split; [vm_compute; reflexivity|]. split; vm_compute; reflexivity.
Qed.
