(** * Model: mixed-type operations

    C++ side: mpfr_bin_ieee754_flavor_elem_func_impl.hpp and ..._set_op_impl.hpp,
    the versions whose operands have bound types T1, T2, ... other than T.
    They all have the same text: reject invalid operands, convert the operands
    to T_MAX, call the same-type operation there and convert the result to T.
    That text is [mixed1], [mixed2], [mixed3] (bare) and [mixed_dec1],
    [mixed_dec2], [mixed_dec3] (decorated). *)
From Coq Require Import ZArith List.
From Verif Require Import Fmt Spec Exc Deco MBase MBool MArith MElem MPow MTrig MAtan2 MDec.

Local Open Scope m_scope.

(** util/mixed_type_traits.hpp:59-90 [max_precision_type] (a left fold over
    the type list which keeps the first type only if it is strictly wider). *)
Definition pmax (F G : fmt) : fmt := if Z.ltb (prec G) (prec F) then F else G.

Section Mixed.
Context (T : fmt).
(** e.g. 812-833, 180-204, 1252-1281. *)
Definition mixed1 {F} (op : forall W, itv W -> M (itv W)) (x : itv F) : M (itv T) :=
  let W := pmax T F in
  mif (mnot (is_valid x)) (ret empty) (z <- op W (convert_hull W x); ret (convert_hull T z)).
Definition mixed2 {F G} (op : forall W, itv W -> itv W -> M (itv W)) (x : itv F) (y : itv G) : M (itv T) :=
  let W := pmax (pmax T F) G in
  mif (mnot (is_valid x) ||| mnot (is_valid y)) (ret empty)
  (z <- op W (convert_hull W x) (convert_hull W y); ret (convert_hull T z)).
Definition mixed3 {F G H} (op : forall W, itv W -> itv W -> itv W -> M (itv W)) (x : itv F) (y : itv G) (w : itv H) : M (itv T) :=
  let W := pmax (pmax (pmax T F) G) H in
  mif (mnot (is_valid x) ||| mnot (is_valid y) ||| mnot (is_valid w)) (ret empty)
  (z <- op W (convert_hull W x) (convert_hull W y) (convert_hull W w); ret (convert_hull T z)).
(** e.g. 856-878, 228-256, 1307-1341. *)
Definition mixed_dec1 {F} (op : forall W, ditv W -> M (ditv W)) (x : ditv F) : M (ditv T) :=
  let W := pmax T F in
  mif (mnot (is_valid_dec x) ||| is_nai x) (ret nai)
  (x' <- convert_hull_dec W x; z <- op W x'; convert_hull_dec T z).
Definition mixed_dec2 {F G} (op : forall W, ditv W -> ditv W -> M (ditv W)) (x : ditv F) (y : ditv G) : M (ditv T) :=
  let W := pmax (pmax T F) G in
  mif (mnot (is_valid_dec x) ||| mnot (is_valid_dec y) ||| is_nai x ||| is_nai y) (ret nai)
  (x' <- convert_hull_dec W x; y' <- convert_hull_dec W y; z <- op W x' y'; convert_hull_dec T z).
Definition mixed_dec3 {F G H} (op : forall W, ditv W -> ditv W -> ditv W -> M (ditv W)) (x : ditv F) (y : ditv G) (w : ditv H) : M (ditv T) :=
  let W := pmax (pmax (pmax T F) G) H in
  mif (mnot (is_valid_dec x) ||| mnot (is_valid_dec y) ||| mnot (is_valid_dec w) ||| is_nai x ||| is_nai y ||| is_nai w) (ret nai)
  (x' <- convert_hull_dec W x; y' <- convert_hull_dec W y; w' <- convert_hull_dec W w; z <- op W x' y' w'; convert_hull_dec T z).

(** 57-68 and 82-95: no operation in the wide type. *)
Definition pos_mixed {F} (x : itv F) : M (itv T) := mif (mnot (is_valid x)) (ret empty) (ret (convert_hull T x)).
Definition pos_dec_mixed {F} (x : ditv F) : M (ditv T) :=
  mif (mnot (is_valid_dec x) ||| is_nai x) (ret nai) (convert_hull_dec T x).
(** 111-122 and 136-151: the operation in the type of the operand. *)
Definition neg_mixed {F} (x : itv F) : M (itv T) :=
  mif (mnot (is_valid x)) (ret empty) (z <- neg x; ret (convert_hull T z)).
Definition neg_dec_mixed {F} (x : ditv F) : M (ditv T) :=
  mif (mnot (is_valid_dec x) ||| is_nai x) (ret nai) (z <- neg_dec x; convert_hull_dec T z).
(** 812-833 and 856-878. *)
Definition recip_mixed {F} := @mixed1 F (@recip).
Definition recip_dec_mixed {F} := @mixed_dec1 F (@recip_dec).
(** 910-931 and 954-976. *)
Definition sqr_mixed {F} := @mixed1 F (@sqr).
Definition sqr_dec_mixed {F} := @mixed_dec1 F (@sqr_dec).
(** 4277-4298 and 4321-4343. *)
Definition abs_mixed {F} := @mixed1 F (@abs).
Definition abs_dec_mixed {F} := @mixed_dec1 F (@abs_dec).
(** 1010-1031 and 1054-1076. *)
Definition sqrt_mixed {F} := @mixed1 F (@sqrt).
Definition sqrt_dec_mixed {F} := @mixed_dec1 F (@sqrt_dec).
(** 1741-1762 and 1785-1807. *)
Definition exp_mixed {F} := @mixed1 F (@exp_itv).
Definition exp_dec_mixed {F} := @mixed_dec1 F (@exp_dec).
(** 1829-1850 and 1873-1895. *)
Definition exp2_mixed {F} := @mixed1 F (@exp2_itv).
Definition exp2_dec_mixed {F} := @mixed_dec1 F (@exp2_dec).
(** 1917-1938 and 1961-1983. *)
Definition exp10_mixed {F} := @mixed1 F (@exp10_itv).
Definition exp10_dec_mixed {F} := @mixed_dec1 F (@exp10_dec).
(** 2014-2035 and 2058-2080. *)
Definition log_mixed {F} := @mixed1 F (@log_itv).
Definition log_dec_mixed {F} := @mixed_dec1 F (@log_dec).
(** 2111-2132 and 2155-2177. *)
Definition log2_mixed {F} := @mixed1 F (@log2_itv).
Definition log2_dec_mixed {F} := @mixed_dec1 F (@log2_dec).
(** 2207-2228 and 2251-2273. *)
Definition log10_mixed {F} := @mixed1 F (@log10_itv).
Definition log10_dec_mixed {F} := @mixed_dec1 F (@log10_dec).
(** 2367-2388 and 2411-2433. *)
Definition sin_mixed {F} := @mixed1 F (@sin_itv).
Definition sin_dec_mixed {F} := @mixed_dec1 F (@sin_dec).
(** 2526-2547 and 2570-2592. *)
Definition cos_mixed {F} := @mixed1 F (@cos_itv).
Definition cos_dec_mixed {F} := @mixed_dec1 F (@cos_dec).
(** 2741-2762 and 2785-2807. *)
Definition asin_mixed {F} := @mixed1 F (@asin_itv).
Definition asin_dec_mixed {F} := @mixed_dec1 F (@asin_dec).
(** 2836-2857 and 2880-2902. *)
Definition acos_mixed {F} := @mixed1 F (@acos_itv).
Definition acos_dec_mixed {F} := @mixed_dec1 F (@acos_dec).
(** 2926-2947 and 2969-2991. *)
Definition atan_mixed {F} := @mixed1 F (@atan_itv).
Definition atan_dec_mixed {F} := @mixed_dec1 F (@atan_dec).
(** 3225-3246 and 3269-3291. *)
Definition sinh_mixed {F} := @mixed1 F (@sinh_itv).
Definition sinh_dec_mixed {F} := @mixed_dec1 F (@sinh_dec).
(** 3323-3344 and 3367-3389. *)
Definition cosh_mixed {F} := @mixed1 F (@cosh_itv).
Definition cosh_dec_mixed {F} := @mixed_dec1 F (@cosh_dec).
(** 3412-3433 and 3455-3477. *)
Definition tanh_mixed {F} := @mixed1 F (@tanh_itv).
Definition tanh_dec_mixed {F} := @mixed_dec1 F (@tanh_dec).
(** 3500-3521 and 3544-3566. *)
Definition asinh_mixed {F} := @mixed1 F (@asinh_itv).
Definition asinh_dec_mixed {F} := @mixed_dec1 F (@asinh_dec).
(** 3589-3610 and 3633-3655. *)
Definition acosh_mixed {F} := @mixed1 F (@acosh_itv).
Definition acosh_dec_mixed {F} := @mixed_dec1 F (@acosh_dec).
(** 3678-3699 and 3722-3744. *)
Definition atanh_mixed {F} := @mixed1 F (@atanh_itv).
Definition atanh_dec_mixed {F} := @mixed_dec1 F (@atanh_dec).
(** 3760-3781 and 3805-3827. *)
Definition sign_mixed {F} := @mixed1 F (@sign_itv).
Definition sign_dec_mixed {F} := @mixed_dec1 F (@sign_dec).
(** 3843-3864 and 3888-3910. *)
Definition ceil_mixed {F} := @mixed1 F (@ceil_itv).
Definition ceil_dec_mixed {F} := @mixed_dec1 F (@ceil_dec).
(** 3925-3946 and 3970-3992. *)
Definition floor_mixed {F} := @mixed1 F (@floor_itv).
Definition floor_dec_mixed {F} := @mixed_dec1 F (@floor_dec).
(** 4007-4028 and 4053-4075. *)
Definition trunc_mixed {F} := @mixed1 F (@trunc_itv).
Definition trunc_dec_mixed {F} := @mixed_dec1 F (@trunc_dec).
(** 4105-4126 and 4151-4173. *)
Definition rte_mixed {F} := @mixed1 F (@round_ties_to_even_itv).
Definition rte_dec_mixed {F} := @mixed_dec1 F (@round_ties_to_even_dec).
(** 4188-4209 and 4234-4256. *)
Definition rta_mixed {F} := @mixed1 F (@round_ties_to_away_itv).
Definition rta_dec_mixed {F} := @mixed_dec1 F (@round_ties_to_away_dec).
(** 2628-2649 and 2691-2713. *)
Definition tan_mixed {F} := @mixed1 F (@tan_itv).
Definition tan_dec_mixed {F} := @mixed_dec1 F (@tan_dec).
(** 180-204 and 228-255. *)
Definition add_mixed {F G} := @mixed2 F G (@add).
Definition add_dec_mixed {F G} := @mixed_dec2 F G (@add_dec).
(** 285-309 and 333-360. *)
Definition sub_mixed {F G} := @mixed2 F G (@sub).
Definition sub_dec_mixed {F G} := @mixed_dec2 F G (@sub_dec).
(** 505-529 and 553-580. *)
Definition mul_mixed {F G} := @mixed2 F G (@mul).
Definition mul_dec_mixed {F G} := @mixed_dec2 F G (@mul_dec).
(** 723-747 and 771-798. *)
Definition div_mixed {F G} := @mixed2 F G (@div).
Definition div_dec_mixed {F G} := @mixed_dec2 F G (@div_dec).
(** 4359-4383 and 4407-4434. *)
Definition min_mixed {F G} := @mixed2 F G (@min).
Definition min_dec_mixed {F G} := @mixed_dec2 F G (@min_dec).
(** 4450-4474 and 4498-4525. *)
Definition max_mixed {F G} := @mixed2 F G (@max).
Definition max_dec_mixed {F G} := @mixed_dec2 F G (@max_dec).
(** 1644-1668 and 1692-1719. *)
Definition pow_mixed {F G} := @mixed2 F G (@pow).
Definition pow_dec_mixed {F G} := @mixed_dec2 F G (@pow_dec).
(** 3126-3150 and 3175-3202. *)
Definition atan2_mixed {F G} := @mixed2 F G (@atan2_itv).
Definition atan2_dec_mixed {F G} := @mixed_dec2 F G (@atan2_dec).
(** 1452-1475 and 1499-1523. *)
Definition pown_mixed {F} (x : itv F) (p : Z) : M (itv T) := mixed1 (fun W x => @pown W x p) x.
Definition pown_dec_mixed {F} (x : ditv F) (p : Z) : M (ditv T) := mixed_dec1 (fun W x => @pown_dec W x p) x.
(** 1252-1281 and 1307-1341. *)
Definition fma_mixed {F G H} := @mixed3 F G H (@fma).
Definition fma_dec_mixed {F G H} := @mixed_dec3 F G H (@fma_dec).
(** set_op_impl.hpp:61-81, 144-164 (bare), 99-120, 182-203 (decorated). *)
Definition intersection_mixed {F G} := @mixed2 F G (@intersection).
Definition convex_hull_mixed {F G} := @mixed2 F G (@convex_hull).
Definition intersection_dec_mixed {F G} := @mixed_dec2 F G (@intersection_dec).
Definition convex_hull_dec_mixed {F G} := @mixed_dec2 F G (@convex_hull_dec).
End Mixed.
