(** * Model: decorated forward functions (same type)

    C++ side: mpfr_bin_ieee754_flavor_elem_func_impl.hpp.  All have the same
    text up to the bare operation and the local decoration; the common text is
    [dec1], [dec2], [dec3], the local decorations are the [t_*] functions.
    Simplification: the literals 0.0, 0.5, 1.0 are taken in the format of the
    bounds (they are exact in every format). *)

From Coq Require Import ZArith NArith Reals Bool.
From Flocq Require Import Core.Core IEEE754.BinarySingleNaN.
From Verif Require Import Fmt Spec Exc Deco MBase MBool MArith MElem MPow MTrig MAtan2.

Local Open Scope m_scope.

Section Dec.
Context {F : fmt}.
Implicit Types x y z : ditv F.
Implicit Types b : itv F.

(** Common text, e.g. 934-950 (one operand), 207-224 (two), 1284-1303 (three). *)
Definition dec1 (op : itv F -> M (itv F)) (test : ditv F -> itv F -> M deco) x : M (ditv F) :=
  mif (mnot (is_valid_dec x) ||| is_nai x) (ret nai)
  (b <- op (fst x); d <- test x b; ret (b, dmin (snd x) d)).
Definition dec2 (op : itv F -> itv F -> M (itv F)) (test : ditv F -> ditv F -> itv F -> M deco) x y : M (ditv F) :=
  mif (mnot (is_valid_dec x) ||| mnot (is_valid_dec y) ||| is_nai x ||| is_nai y) (ret nai)
  (b <- op (fst x) (fst y); d <- test x y b; ret (b, dmin (dmin (snd x) (snd y)) d)).
Definition dec3 (op : itv F -> itv F -> itv F -> M (itv F)) (test : itv F -> M deco) x y z : M (ditv F) :=
  mif (mnot (is_valid_dec x) ||| mnot (is_valid_dec y) ||| mnot (is_valid_dec z) ||| is_nai x ||| is_nai y ||| is_nai z) (ret nai)
  (b <- op (fst x) (fst y) (fst z); d <- test b; ret (b, dmin (dmin (dmin (snd x) (snd y)) (snd z)) d)).

(** is_common_interval(bare) ? com : is_empty(bare) ? trv : dac *)
Definition t_ring b : M deco := mif (is_common_interval b) (ret com) (mif (is_empty b) (ret trv) (ret dac)).
(** is_empty(bare) ? trv : is_common_interval(bare) ? com : dac *)
Definition t_total b : M deco := mif (is_empty b) (ret trv) (mif (is_common_interval b) (ret com) (ret dac)).
(** cond || is_empty(bare) ? trv : is_common_interval(bare) ? com : dac *)
Definition t_cond (c : M bool) b : M deco :=
  mif (c ||| is_empty b) (ret trv) (mif (is_common_interval b) (ret com) (ret dac)).
(** cond || is_empty(bare) ? trv : com *)
Definition t_bounded (c : M bool) b : M deco := mif (c ||| is_empty b) (ret trv) (ret com).
(** is_empty(bare) ? trv : !is_singleton(bare) ? def : cond ? dac : com *)
Definition t_step (c : M bool) b : M deco :=
  mif (is_empty b) (ret trv) (mif (mnot (is_singleton b)) (ret def) (mif c (ret dac) (ret com))).

(** 71-78 and 125-132. *)
Definition pos_dec x : M (ditv F) := mif (mnot (is_valid_dec x) ||| is_nai x) (ret nai) (ret x).
Definition neg_dec x : M (ditv F) :=
  mif (mnot (is_valid_dec x) ||| is_nai x) (ret nai) (b <- neg (fst x); ret (b, snd x)).
(** 207-224, 312-329, 532-549. *)
Definition add_dec := dec2 add (fun _ _ => t_ring).
Definition sub_dec := dec2 sub (fun _ _ => t_ring).
Definition mul_dec := dec2 mul (fun _ _ => t_ring).
(** 750-767, 836-852. *)
Definition div_dec := dec2 div (fun _ y => t_cond (is_member_dec (@f0 F) y)).
Definition recip_dec := dec1 recip (fun x => t_cond (is_member_dec (@f0 F) x)).
(** 934-950, 1034-1050, 1284-1303. *)
Definition sqr_dec := dec1 sqr (fun _ => t_total).
Definition sqrt_dec := dec1 sqrt (fun x => t_cond (ret (flt (fst (fst x)) f0))).
Definition fma_dec := dec3 fma t_total.
(** 1478-1495, 1671-1688. *)
Definition pown_dec x (p : Z) : M (ditv F) :=
  dec1 (fun b => pown b p) (fun x => t_cond (ret (Z.ltb p 0) &&& is_member_dec (@f0 F) x)) x.
Definition pow_dec := dec2 pow (fun x y =>
  t_cond (ret (flt (fst (fst x)) f0) ||| (is_member_dec (@f0 F) x &&& ret (fle (fst (fst y)) f0)))).
(** 1765-1781, 1853-1869, 1941-1957. *)
Definition exp_dec := dec1 exp_itv (fun _ => t_total).
Definition exp2_dec := dec1 exp2_itv (fun _ => t_total).
Definition exp10_dec := dec1 exp10_itv (fun _ => t_total).
(** 2038-2054, 2135-2151, 2231-2247. *)
Definition log_dec := dec1 log_itv (fun x => t_cond (ret (fle (fst (fst x)) f0))).
Definition log2_dec := dec1 log2_itv (fun x => t_cond (ret (fle (fst (fst x)) f0))).
Definition log10_dec := dec1 log10_itv (fun x => t_cond (ret (fle (fst (fst x)) f0))).
(** 2391-2407, 2550-2566. *)
Definition sin_dec := dec1 sin_itv (fun _ => t_total).
Definition cos_dec := dec1 cos_itv (fun _ => t_total).
(** 2652-2687 [tan]: repeats the code of the bare version. *)
Definition tan_dec x : M (ditv F) :=
  mif (mnot (is_valid_dec x) ||| is_nai x) (ret nai)
  (mif (is_empty_dec x) (ret empty_dec)
   (let xl := fst (fst x) in let xu := snd (fst x) in
    let pi := mpfr_const_pi mode_DN in
    let w := rsub mode_UP xu xl in
    if mpfr_greater w pi then ret (entire, trv)
    else
      let tl := mpfr_tan mode_DN xl in
      let tu := mpfr_tan mode_UP xu in
      if mpfr_greater tl tu then ret (entire, trv)
      else
        let b := (tl, tu) in
        c <- is_common_interval b;
        ret (b, dmin (snd x) (if c then com else dac)))).
(** 2765-2781, 2860-2876, 2950-2965. *)
Definition asin_dec := dec1 asin_itv (fun x => t_bounded (ret (flt (fst (fst x)) fm1 || fgt (snd (fst x)) f1))).
Definition acos_dec := dec1 acos_itv (fun x => t_bounded (ret (flt (fst (fst x)) fm1 || fgt (snd (fst x)) f1))).
Definition atan_dec := dec1 atan_itv (fun _ => t_bounded (ret false)).
(** 3153-3171. *)
Definition atan2_dec := dec2 atan2_itv (fun y x b =>
  mif ((is_member_dec (@f0 F) y &&& is_member_dec (@f0 F) x) ||| is_empty b) (ret trv)
  (if flt (fst (fst y)) f0 && fge (snd (fst y)) f0 && flt (fst (fst x)) f0 then ret def
   else mif (ret (feq (fst (fst y)) f0 && flt (fst (fst x)) f0) ||| mnot (is_common_interval b)) (ret dac) (ret com))).
(** 3249-3265, 3347-3363, 3436-3451, 3524-3540, 3613-3629, 3702-3718. *)
Definition sinh_dec := dec1 sinh_itv (fun _ => t_total).
Definition cosh_dec := dec1 cosh_itv (fun _ => t_total).
Definition tanh_dec := dec1 tanh_itv (fun _ => t_bounded (ret false)).
Definition asinh_dec := dec1 asinh_itv (fun _ => t_total).
Definition acosh_dec := dec1 acosh_itv (fun x => t_cond (ret (flt (fst (fst x)) f1))).
Definition atanh_dec := dec1 atanh_itv (fun x => t_cond (ret (fle (fst (fst x)) fm1 || fge (snd (fst x)) f1))).
(** 3784-3801, 3867-3884, 3949-3966, 4031-4049, 4129-4147, 4212-4230. *)
Definition sign_dec := dec1 sign_itv (fun x => t_step (is_member_dec (@f0 F) x)).
Definition ceil_dec := dec1 ceil_itv (fun x b => t_step (ret (feq (snd (fst x)) (snd b))) b).
Definition floor_dec := dec1 floor_itv (fun x b => t_step (ret (feq (fst (fst x)) (fst b))) b).
Definition trunc_dec := dec1 trunc_itv (fun x b =>
  t_step (ret ((fne (fst (fst x)) f0 && feq (fst (fst x)) (fst b)) ||
               (fne (snd (fst x)) f0 && feq (snd (fst x)) (snd b)))) b).
(** std::abs(a) - std::trunc(std::abs(a)) == 0.5 *)
Definition is_tie (a : float F) : bool := feq (rsub mode_NE (fabs a) (std_trunc (fabs a))) fhalf.
Definition round_ties_to_even_dec := dec1 round_ties_to_even_itv (fun x =>
  t_step (ret (is_tie (fst (fst x)) || is_tie (snd (fst x))))).
Definition round_ties_to_away_dec := dec1 round_ties_to_away_itv (fun x =>
  t_step (ret (is_tie (fst (fst x)) || is_tie (snd (fst x))))).
(** 4301-4317, 4386-4403, 4477-4494. *)
Definition abs_dec := dec1 abs (fun _ => t_total).
Definition min_dec := dec2 min (fun _ _ => t_total).
Definition max_dec := dec2 max (fun _ _ => t_total).

End Dec.
