(** * Model: programs that assign expressions of the elementary functions to objects

    The expressions of MExpr.v as expressions of the class layer (MClass.v), and the programs
    made of assignments of such expressions, conditionals and loops.  The conditions are any
    tests of the objects.  The functions are those of base_interval_elem_func_impl.hpp:38-1581 (examples/e08_elem_func.cpp). *)
From Coq Require Import ZArith NArith Reals Bool List.
From Verif Require Import Fmt Spec Exc Deco MBase MBool MArith MElem MPow MTrig MAtan2 MDec MMixed SpecElem SpecExpr MExpr MClass.
From Verif Require MProg.

(** Every function of MExpr.v is an operation of MProg.v (base_interval_elem_func_impl.hpp:38-1581). *)
Definition un_is (F : fmt) (u : un) : MProg.un0 F F (@un_bare F u) :=
  match u with
  | u_pos => MProg.u_pos F
  | u_neg => MProg.u_neg F
  | u_recip => MProg.u_recip F
  | u_sqr => MProg.u_sqr F
  | u_sqrt => MProg.u_sqrt F
  | u_abs => MProg.u_abs F
  | u_exp => MProg.u_exp F
  | u_exp2 => MProg.u_exp2 F
  | u_exp10 => MProg.u_exp10 F
  | u_log => MProg.u_log F
  | u_log2 => MProg.u_log2 F
  | u_log10 => MProg.u_log10 F
  | u_sin => MProg.u_sin F
  | u_cos => MProg.u_cos F
  | u_tan => MProg.u_tan F
  | u_asin => MProg.u_asin F
  | u_acos => MProg.u_acos F
  | u_atan => MProg.u_atan F
  | u_sinh => MProg.u_sinh F
  | u_cosh => MProg.u_cosh F
  | u_tanh => MProg.u_tanh F
  | u_asinh => MProg.u_asinh F
  | u_acosh => MProg.u_acosh F
  | u_atanh => MProg.u_atanh F
  | u_sign => MProg.u_sign F
  | u_ceil => MProg.u_ceil F
  | u_floor => MProg.u_floor F
  | u_trunc => MProg.u_trunc F
  | u_rte => MProg.u_rte F
  | u_rta => MProg.u_rta F
  | u_pown k => MProg.u_pown F k
  end.

Definition un_is_mixed (T F : fmt) (u : un) : MProg.un0 F T (@un_bare_mixed T F u) :=
  match u with
  | u_pos => MProg.u_pos_mixed T F
  | u_neg => MProg.u_neg_mixed T F
  | u_recip => MProg.u_recip_mixed T F
  | u_sqr => MProg.u_sqr_mixed T F
  | u_sqrt => MProg.u_sqrt_mixed T F
  | u_abs => MProg.u_abs_mixed T F
  | u_exp => MProg.u_exp_mixed T F
  | u_exp2 => MProg.u_exp2_mixed T F
  | u_exp10 => MProg.u_exp10_mixed T F
  | u_log => MProg.u_log_mixed T F
  | u_log2 => MProg.u_log2_mixed T F
  | u_log10 => MProg.u_log10_mixed T F
  | u_sin => MProg.u_sin_mixed T F
  | u_cos => MProg.u_cos_mixed T F
  | u_tan => MProg.u_tan_mixed T F
  | u_asin => MProg.u_asin_mixed T F
  | u_acos => MProg.u_acos_mixed T F
  | u_atan => MProg.u_atan_mixed T F
  | u_sinh => MProg.u_sinh_mixed T F
  | u_cosh => MProg.u_cosh_mixed T F
  | u_tanh => MProg.u_tanh_mixed T F
  | u_asinh => MProg.u_asinh_mixed T F
  | u_acosh => MProg.u_acosh_mixed T F
  | u_atanh => MProg.u_atanh_mixed T F
  | u_sign => MProg.u_sign_mixed T F
  | u_ceil => MProg.u_ceil_mixed T F
  | u_floor => MProg.u_floor_mixed T F
  | u_trunc => MProg.u_trunc_mixed T F
  | u_rte => MProg.u_rte_mixed T F
  | u_rta => MProg.u_rta_mixed T F
  | u_pown k => MProg.u_pown_mixed T F k
  end.

Definition bin_is (F : fmt) (b : bin) : MProg.bin0 F F F (@bin_bare F b) :=
  match b with
  | b_add => MProg.b_add F
  | b_sub => MProg.b_sub F
  | b_mul => MProg.b_mul F
  | b_div => MProg.b_div F
  | b_min => MProg.b_min F
  | b_max => MProg.b_max F
  | b_pow => MProg.b_pow F
  | b_atan2 => MProg.b_atan2 F
  end.

Definition bin_is_mixed (T F G : fmt) (b : bin) : MProg.bin0 F G T (@bin_bare_mixed T F G b) :=
  match b with
  | b_add => MProg.b_add_mixed T F G
  | b_sub => MProg.b_sub_mixed T F G
  | b_mul => MProg.b_mul_mixed T F G
  | b_div => MProg.b_div_mixed T F G
  | b_min => MProg.b_min_mixed T F G
  | b_max => MProg.b_max_mixed T F G
  | b_pow => MProg.b_pow_mixed T F G
  | b_atan2 => MProg.b_atan2_mixed T F G
  end.

Definition dun_is (F : fmt) (u : un) : MProg.dun0 F F (@un_decd F u) :=
  match u with
  | u_pos => MProg.du_pos F
  | u_neg => MProg.du_neg F
  | u_recip => MProg.du_recip F
  | u_sqr => MProg.du_sqr F
  | u_sqrt => MProg.du_sqrt F
  | u_abs => MProg.du_abs F
  | u_exp => MProg.du_exp F
  | u_exp2 => MProg.du_exp2 F
  | u_exp10 => MProg.du_exp10 F
  | u_log => MProg.du_log F
  | u_log2 => MProg.du_log2 F
  | u_log10 => MProg.du_log10 F
  | u_sin => MProg.du_sin F
  | u_cos => MProg.du_cos F
  | u_tan => MProg.du_tan F
  | u_asin => MProg.du_asin F
  | u_acos => MProg.du_acos F
  | u_atan => MProg.du_atan F
  | u_sinh => MProg.du_sinh F
  | u_cosh => MProg.du_cosh F
  | u_tanh => MProg.du_tanh F
  | u_asinh => MProg.du_asinh F
  | u_acosh => MProg.du_acosh F
  | u_atanh => MProg.du_atanh F
  | u_sign => MProg.du_sign F
  | u_ceil => MProg.du_ceil F
  | u_floor => MProg.du_floor F
  | u_trunc => MProg.du_trunc F
  | u_rte => MProg.du_rte F
  | u_rta => MProg.du_rta F
  | u_pown k => MProg.du_pown F k
  end.

Definition dun_is_mixed (T F : fmt) (u : un) : MProg.dun0 F T (@un_decd_mixed T F u) :=
  match u with
  | u_pos => MProg.du_pos_mixed T F
  | u_neg => MProg.du_neg_mixed T F
  | u_recip => MProg.du_recip_mixed T F
  | u_sqr => MProg.du_sqr_mixed T F
  | u_sqrt => MProg.du_sqrt_mixed T F
  | u_abs => MProg.du_abs_mixed T F
  | u_exp => MProg.du_exp_mixed T F
  | u_exp2 => MProg.du_exp2_mixed T F
  | u_exp10 => MProg.du_exp10_mixed T F
  | u_log => MProg.du_log_mixed T F
  | u_log2 => MProg.du_log2_mixed T F
  | u_log10 => MProg.du_log10_mixed T F
  | u_sin => MProg.du_sin_mixed T F
  | u_cos => MProg.du_cos_mixed T F
  | u_tan => MProg.du_tan_mixed T F
  | u_asin => MProg.du_asin_mixed T F
  | u_acos => MProg.du_acos_mixed T F
  | u_atan => MProg.du_atan_mixed T F
  | u_sinh => MProg.du_sinh_mixed T F
  | u_cosh => MProg.du_cosh_mixed T F
  | u_tanh => MProg.du_tanh_mixed T F
  | u_asinh => MProg.du_asinh_mixed T F
  | u_acosh => MProg.du_acosh_mixed T F
  | u_atanh => MProg.du_atanh_mixed T F
  | u_sign => MProg.du_sign_mixed T F
  | u_ceil => MProg.du_ceil_mixed T F
  | u_floor => MProg.du_floor_mixed T F
  | u_trunc => MProg.du_trunc_mixed T F
  | u_rte => MProg.du_rte_mixed T F
  | u_rta => MProg.du_rta_mixed T F
  | u_pown k => MProg.du_pown_mixed T F k
  end.

Definition dbin_is (F : fmt) (b : bin) : MProg.dbin0 F F F (@bin_decd F b) :=
  match b with
  | b_add => MProg.db_add F
  | b_sub => MProg.db_sub F
  | b_mul => MProg.db_mul F
  | b_div => MProg.db_div F
  | b_min => MProg.db_min F
  | b_max => MProg.db_max F
  | b_pow => MProg.db_pow F
  | b_atan2 => MProg.db_atan2 F
  end.

Definition dbin_is_mixed (T F G : fmt) (b : bin) : MProg.dbin0 F G T (@bin_decd_mixed T F G b) :=
  match b with
  | b_add => MProg.db_add_mixed T F G
  | b_sub => MProg.db_sub_mixed T F G
  | b_mul => MProg.db_mul_mixed T F G
  | b_div => MProg.db_div_mixed T F G
  | b_min => MProg.db_min_mixed T F G
  | b_max => MProg.db_max_mixed T F G
  | b_pow => MProg.db_pow_mixed T F G
  | b_atan2 => MProg.db_atan2_mixed T F G
  end.


Section Programs.
Variable vf : nat -> fmt.
Definition bare_vars : nat -> ty := fun i => Bare (vf i).
Definition deco_vars : nat -> ty := fun i => Deco (vf i).
(** The expression with objects of interval and of decorated_interval; the compiler makes [k]
    copies of every temporary. *)
Fixpoint bare_term (k : nat) {F} (e : expr vf F) : term bare_vars (Bare F) :=
  match e in expr _ F return term bare_vars (Bare F) with
  | Var i => @Obj bare_vars i
  | @Un _ F u a => Ap1 _ (o_un _ _ _ (MProg.u_fun _ _ _ (un_is F u))) (bare_term k a) k
  | @Bin _ F b a c => Ap2 _ (o_bin _ _ _ _ (MProg.b_fun _ _ _ _ (bin_is F b))) (bare_term k a) (bare_term k c) k
  | @Fma _ F a c d => Ap3 _ (o_tern _ _ _ _ _ (MProg.t_fma F)) (bare_term k a) (bare_term k c) (bare_term k d) k
  | @MUn _ T F u a => Ap1 _ (o_un _ _ _ (MProg.u_fun _ _ _ (un_is_mixed T F u))) (bare_term k a) k
  | @MBin _ T F G b a c => Ap2 _ (o_bin _ _ _ _ (MProg.b_fun _ _ _ _ (bin_is_mixed T F G b))) (bare_term k a) (bare_term k c) k
  | @MFma _ T F G H a c d => Ap3 _ (o_tern _ _ _ _ _ (MProg.t_fma_mixed T F G H)) (bare_term k a) (bare_term k c) (bare_term k d) k
  end.
Fixpoint deco_term (k : nat) {F} (e : expr vf F) : term deco_vars (Deco F) :=
  match e in expr _ F return term deco_vars (Deco F) with
  | Var i => @Obj deco_vars i
  | @Un _ F u a => Ap1 _ (o_dun _ _ _ (MProg.du_fun _ _ _ (dun_is F u))) (deco_term k a) k
  | @Bin _ F b a c => Ap2 _ (o_dbin _ _ _ _ (MProg.db_fun _ _ _ _ (dbin_is F b))) (deco_term k a) (deco_term k c) k
  | @Fma _ F a c d => Ap3 _ (o_dtern _ _ _ _ _ (MProg.dt_fma F)) (deco_term k a) (deco_term k c) (deco_term k d) k
  | @MUn _ T F u a => Ap1 _ (o_dun _ _ _ (MProg.du_fun _ _ _ (dun_is_mixed T F u))) (deco_term k a) k
  | @MBin _ T F G b a c => Ap2 _ (o_dbin _ _ _ _ (MProg.db_fun _ _ _ _ (dbin_is_mixed T F G b))) (deco_term k a) (deco_term k c) k
  | @MFma _ T F G H a c d => Ap3 _ (o_dtern _ _ _ _ _ (MProg.dt_fma_mixed T F G H)) (deco_term k a) (deco_term k c) (deco_term k d) k
  end.

(** Programs; [Q] are the conditions. *)
Inductive prog (Q : Type) : Type :=
| Done
| Let (i : nat) (e : expr vf (vf i)) (k : nat)
| Then (p q : prog Q)
| Cond (t : Q) (p q : prog Q)
| Loop (t : Q) (p : prog Q).
(** The same as programs of the class layer. *)
Fixpoint bare_cmd (p : prog (store bare_vars -> M bool)) : cmd bare_vars :=
  match p with
  | Done _ => Skip
  | Let _ i e k => @Assign bare_vars i (bare_term k e)
  | Then _ p q => Seq (bare_cmd p) (bare_cmd q)
  | Cond _ t p q => If t (bare_cmd p) (bare_cmd q)
  | Loop _ t p => While t (bare_cmd p)
  end.
Fixpoint deco_cmd (p : prog (store deco_vars -> M bool)) : cmd deco_vars :=
  match p with
  | Done _ => Skip
  | Let _ i e k => @Assign deco_vars i (deco_term k e)
  | Then _ p q => Seq (deco_cmd p) (deco_cmd q)
  | Cond _ t p q => If t (deco_cmd p) (deco_cmd q)
  | Loop _ t p => While t (deco_cmd p)
  end.
End Programs.
Arguments Done {vf Q}. Arguments Let {vf Q} i e k. Arguments Then {vf Q} p q. Arguments Cond {vf Q} t p q. Arguments Loop {vf Q} t p.
Arguments bare_term {vf} k {F} e. Arguments deco_term {vf} k {F} e. Arguments bare_cmd {vf} p. Arguments deco_cmd {vf} p.
