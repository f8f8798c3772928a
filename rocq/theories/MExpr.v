(** * Model: evaluating whole expressions with the functions of the library *)
From Coq Require Import ZArith NArith Reals Bool.
From Verif Require Import Fmt Spec Exc Deco MBase MBool MArith MElem MPow MTrig MAtan2 MDec MMixed SpecElem SpecExpr.
Local Open Scope m_scope.

(** A C++ expression of calls, as in examples/e08_elem_func.cpp: each node is one call of a static
    function of interval<T> or decorated_interval<T> (p1788/infsup/base_interval_elem_func_impl.hpp:38-1581),
    which hands the representations to the function of the same name of the flavor
    (mpfr_bin_ieee754_flavor_elem_func_impl.hpp, modelled in MArith, MElem, MPow, MTrig, MAtan2, MDec and MMixed)
    and wraps the result.  C++ leaves the order in which operands are evaluated open; here it is
    left to right. *)

(** base_interval_elem_func_impl.hpp:38-1581, functions of one operand, operand and result of one
    type, interval and decorated_interval. *)
Definition un_bare {F} (u : un) (x : itv F) : M (itv F) :=
  match u with
  | u_pos => pos x
  | u_neg => neg x
  | u_recip => recip x
  | u_sqr => sqr x
  | u_sqrt => sqrt x
  | u_abs => abs x
  | u_exp => exp_itv x
  | u_exp2 => exp2_itv x
  | u_exp10 => exp10_itv x
  | u_log => log_itv x
  | u_log2 => log2_itv x
  | u_log10 => log10_itv x
  | u_sin => sin_itv x
  | u_cos => cos_itv x
  | u_tan => tan_itv x
  | u_asin => asin_itv x
  | u_acos => acos_itv x
  | u_atan => atan_itv x
  | u_sinh => sinh_itv x
  | u_cosh => cosh_itv x
  | u_tanh => tanh_itv x
  | u_asinh => asinh_itv x
  | u_acosh => acosh_itv x
  | u_atanh => atanh_itv x
  | u_sign => sign_itv x
  | u_ceil => ceil_itv x
  | u_floor => floor_itv x
  | u_trunc => trunc_itv x
  | u_rte => round_ties_to_even_itv x
  | u_rta => round_ties_to_away_itv x
  | u_pown k => pown x k
  end.
Definition un_decd {F} (u : un) (x : ditv F) : M (ditv F) :=
  match u with
  | u_pos => pos_dec x
  | u_neg => neg_dec x
  | u_recip => recip_dec x
  | u_sqr => sqr_dec x
  | u_sqrt => sqrt_dec x
  | u_abs => abs_dec x
  | u_exp => exp_dec x
  | u_exp2 => exp2_dec x
  | u_exp10 => exp10_dec x
  | u_log => log_dec x
  | u_log2 => log2_dec x
  | u_log10 => log10_dec x
  | u_sin => sin_dec x
  | u_cos => cos_dec x
  | u_tan => tan_dec x
  | u_asin => asin_dec x
  | u_acos => acos_dec x
  | u_atan => atan_dec x
  | u_sinh => sinh_dec x
  | u_cosh => cosh_dec x
  | u_tanh => tanh_dec x
  | u_asinh => asinh_dec x
  | u_acosh => acosh_dec x
  | u_atanh => atanh_dec x
  | u_sign => sign_dec x
  | u_ceil => ceil_dec x
  | u_floor => floor_dec x
  | u_trunc => trunc_dec x
  | u_rte => round_ties_to_even_dec x
  | u_rta => round_ties_to_away_dec x
  | u_pown k => pown_dec x k
  end.
(** The versions with result type T and an operand of type T_. *)
Definition un_bare_mixed (T : fmt) {F} (u : un) (x : itv F) : M (itv T) :=
  match u with
  | u_pos => pos_mixed T x
  | u_neg => neg_mixed T x
  | u_recip => recip_mixed T x
  | u_sqr => sqr_mixed T x
  | u_sqrt => sqrt_mixed T x
  | u_abs => abs_mixed T x
  | u_exp => exp_mixed T x
  | u_exp2 => exp2_mixed T x
  | u_exp10 => exp10_mixed T x
  | u_log => log_mixed T x
  | u_log2 => log2_mixed T x
  | u_log10 => log10_mixed T x
  | u_sin => sin_mixed T x
  | u_cos => cos_mixed T x
  | u_tan => tan_mixed T x
  | u_asin => asin_mixed T x
  | u_acos => acos_mixed T x
  | u_atan => atan_mixed T x
  | u_sinh => sinh_mixed T x
  | u_cosh => cosh_mixed T x
  | u_tanh => tanh_mixed T x
  | u_asinh => asinh_mixed T x
  | u_acosh => acosh_mixed T x
  | u_atanh => atanh_mixed T x
  | u_sign => sign_mixed T x
  | u_ceil => ceil_mixed T x
  | u_floor => floor_mixed T x
  | u_trunc => trunc_mixed T x
  | u_rte => rte_mixed T x
  | u_rta => rta_mixed T x
  | u_pown k => pown_mixed T x k
  end.
Definition un_decd_mixed (T : fmt) {F} (u : un) (x : ditv F) : M (ditv T) :=
  match u with
  | u_pos => pos_dec_mixed T x
  | u_neg => neg_dec_mixed T x
  | u_recip => recip_dec_mixed T x
  | u_sqr => sqr_dec_mixed T x
  | u_sqrt => sqrt_dec_mixed T x
  | u_abs => abs_dec_mixed T x
  | u_exp => exp_dec_mixed T x
  | u_exp2 => exp2_dec_mixed T x
  | u_exp10 => exp10_dec_mixed T x
  | u_log => log_dec_mixed T x
  | u_log2 => log2_dec_mixed T x
  | u_log10 => log10_dec_mixed T x
  | u_sin => sin_dec_mixed T x
  | u_cos => cos_dec_mixed T x
  | u_tan => tan_dec_mixed T x
  | u_asin => asin_dec_mixed T x
  | u_acos => acos_dec_mixed T x
  | u_atan => atan_dec_mixed T x
  | u_sinh => sinh_dec_mixed T x
  | u_cosh => cosh_dec_mixed T x
  | u_tanh => tanh_dec_mixed T x
  | u_asinh => asinh_dec_mixed T x
  | u_acosh => acosh_dec_mixed T x
  | u_atanh => atanh_dec_mixed T x
  | u_sign => sign_dec_mixed T x
  | u_ceil => ceil_dec_mixed T x
  | u_floor => floor_dec_mixed T x
  | u_trunc => trunc_dec_mixed T x
  | u_rte => rte_dec_mixed T x
  | u_rta => rta_dec_mixed T x
  | u_pown k => pown_dec_mixed T x k
  end.
(** Functions of two operands. *)
Definition bin_bare {F} (b : bin) (x y : itv F) : M (itv F) :=
  match b with
  | b_add => add x y
  | b_sub => sub x y
  | b_mul => mul x y
  | b_div => div x y
  | b_min => min x y
  | b_max => max x y
  | b_pow => pow x y
  | b_atan2 => atan2_itv x y
  end.
Definition bin_decd {F} (b : bin) (x y : ditv F) : M (ditv F) :=
  match b with
  | b_add => add_dec x y
  | b_sub => sub_dec x y
  | b_mul => mul_dec x y
  | b_div => div_dec x y
  | b_min => min_dec x y
  | b_max => max_dec x y
  | b_pow => pow_dec x y
  | b_atan2 => atan2_dec x y
  end.
(** The versions with result type T. *)
Definition bin_bare_mixed (T : fmt) {F G} (b : bin) (x : itv F) (y : itv G) : M (itv T) :=
  match b with
  | b_add => add_mixed T x y
  | b_sub => sub_mixed T x y
  | b_mul => mul_mixed T x y
  | b_div => div_mixed T x y
  | b_min => min_mixed T x y
  | b_max => max_mixed T x y
  | b_pow => pow_mixed T x y
  | b_atan2 => atan2_mixed T x y
  end.
Definition bin_decd_mixed (T : fmt) {F G} (b : bin) (x : ditv F) (y : ditv G) : M (ditv T) :=
  match b with
  | b_add => add_dec_mixed T x y
  | b_sub => sub_dec_mixed T x y
  | b_mul => mul_dec_mixed T x y
  | b_div => div_dec_mixed T x y
  | b_min => min_dec_mixed T x y
  | b_max => max_dec_mixed T x y
  | b_pow => pow_dec_mixed T x y
  | b_atan2 => atan2_dec_mixed T x y
  end.

(** Bare evaluation: nested calls of the functions above and of fma. *)
Fixpoint beval {vf} (X : forall i, itv (vf i)) {F} (e : expr vf F) : M (itv F) :=
  match e with
  | Var i => ret (X i)
  | Un u a => x <- beval X a ; un_bare u x
  | Bin b a c => x <- beval X a ; y <- beval X c ; bin_bare b x y
  | Fma a c d => x <- beval X a ; y <- beval X c ; w <- beval X d ; fma x y w
  | MUn T u a => x <- beval X a ; un_bare_mixed T u x
  | MBin T b a c => x <- beval X a ; y <- beval X c ; bin_bare_mixed T b x y
  | MFma T a c d => x <- beval X a ; y <- beval X c ; w <- beval X d ; fma_mixed T x y w
  end.

(** Decorated evaluation: the same calls with decorated_interval. *)
Fixpoint deval {vf} (I : forall i, ditv (vf i)) {F} (e : expr vf F) : M (ditv F) :=
  match e with
  | Var i => ret (I i)
  | Un u a => x <- deval I a ; un_decd u x
  | Bin b a c => x <- deval I a ; y <- deval I c ; bin_decd b x y
  | Fma a c d => x <- deval I a ; y <- deval I c ; w <- deval I d ; fma_dec x y w
  | MUn T u a => x <- deval I a ; un_decd_mixed T u x
  | MBin T b a c => x <- deval I a ; y <- deval I c ; bin_decd_mixed T b x y
  | MFma T a c d => x <- deval I a ; y <- deval I c ; w <- deval I d ; fma_dec_mixed T x y w
  end.
