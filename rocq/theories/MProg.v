(** * What a program can build through the public functions

    C++ side: the classes of p1788/infsup/interval.hpp and decorated_interval.hpp keep
    their representation private and forward to the flavor; a program obtains intervals
    only from the functions below.  Numbers, texts, streams, exponents, decoration bytes
    and the state of the exception flags and of the throw mask are arbitrary at every call. *)
From Coq Require Import ZArith NArith Reals Bool List Ascii.
From Flocq Require Import Core.Core IEEE754.BinarySingleNaN.
From Verif Require Import Fmt Spec Exc Deco MBase MBool MArith MElem MTrig MPow MAtan2 MDec MMixed MCancel MRev MTrigRev MRev1 MStream MRead PConv.

(** Bounds of two types are compared in the wider one: the types have to be [comparable]
    (PConv), as float, double and long double are. *)

(** The functions that recurse ([pown_rev]) or count branches in a [long] (the reverse
    trigonometric functions with [x]) are listed apart, see C52. *)

(** ** Functions of one bare interval
    base_interval_elem_func_impl.hpp (all functions of one interval), interval.hpp:158-176
    (copy and conversion), base_interval_rev_func_impl.hpp (without [x]). *)
Inductive un0 : forall F T : fmt, (itv F -> M (itv T)) -> Prop :=
| u_pos F : un0 F F (@pos F) | u_pos_mixed T F : un0 F T (@pos_mixed T F)
| u_neg F : un0 F F (@neg F) | u_neg_mixed T F : un0 F T (@neg_mixed T F)
| u_recip F : un0 F F (@recip F) | u_recip_mixed T F : un0 F T (@recip_mixed T F)
| u_sqr F : un0 F F (@sqr F) | u_sqr_mixed T F : un0 F T (@sqr_mixed T F)
| u_sqrt F : un0 F F (@sqrt F) | u_sqrt_mixed T F : un0 F T (@sqrt_mixed T F)
| u_abs F : un0 F F (@abs F) | u_abs_mixed T F : un0 F T (@abs_mixed T F)
| u_exp F : un0 F F (@exp_itv F) | u_exp_mixed T F : un0 F T (@exp_mixed T F)
| u_exp2 F : un0 F F (@exp2_itv F) | u_exp2_mixed T F : un0 F T (@exp2_mixed T F)
| u_exp10 F : un0 F F (@exp10_itv F) | u_exp10_mixed T F : un0 F T (@exp10_mixed T F)
| u_log F : un0 F F (@log_itv F) | u_log_mixed T F : un0 F T (@log_mixed T F)
| u_log2 F : un0 F F (@log2_itv F) | u_log2_mixed T F : un0 F T (@log2_mixed T F)
| u_log10 F : un0 F F (@log10_itv F) | u_log10_mixed T F : un0 F T (@log10_mixed T F)
| u_sin F : un0 F F (@sin_itv F) | u_sin_mixed T F : un0 F T (@sin_mixed T F)
| u_cos F : un0 F F (@cos_itv F) | u_cos_mixed T F : un0 F T (@cos_mixed T F)
| u_tan F : un0 F F (@tan_itv F) | u_tan_mixed T F : un0 F T (@tan_mixed T F)
| u_asin F : un0 F F (@asin_itv F) | u_asin_mixed T F : un0 F T (@asin_mixed T F)
| u_acos F : un0 F F (@acos_itv F) | u_acos_mixed T F : un0 F T (@acos_mixed T F)
| u_atan F : un0 F F (@atan_itv F) | u_atan_mixed T F : un0 F T (@atan_mixed T F)
| u_sinh F : un0 F F (@sinh_itv F) | u_sinh_mixed T F : un0 F T (@sinh_mixed T F)
| u_cosh F : un0 F F (@cosh_itv F) | u_cosh_mixed T F : un0 F T (@cosh_mixed T F)
| u_tanh F : un0 F F (@tanh_itv F) | u_tanh_mixed T F : un0 F T (@tanh_mixed T F)
| u_asinh F : un0 F F (@asinh_itv F) | u_asinh_mixed T F : un0 F T (@asinh_mixed T F)
| u_acosh F : un0 F F (@acosh_itv F) | u_acosh_mixed T F : un0 F T (@acosh_mixed T F)
| u_atanh F : un0 F F (@atanh_itv F) | u_atanh_mixed T F : un0 F T (@atanh_mixed T F)
| u_sign F : un0 F F (@sign_itv F) | u_sign_mixed T F : un0 F T (@sign_mixed T F)
| u_ceil F : un0 F F (@ceil_itv F) | u_ceil_mixed T F : un0 F T (@ceil_mixed T F)
| u_floor F : un0 F F (@floor_itv F) | u_floor_mixed T F : un0 F T (@floor_mixed T F)
| u_trunc F : un0 F F (@trunc_itv F) | u_trunc_mixed T F : un0 F T (@trunc_mixed T F)
| u_rte F : un0 F F (@round_ties_to_even_itv F) | u_rte_mixed T F : un0 F T (@rte_mixed T F)
| u_rta F : un0 F F (@round_ties_to_away_itv F) | u_rta_mixed T F : un0 F T (@rta_mixed T F)
| u_pown F p : un0 F F (fun x => @pown F x p) | u_pown_mixed T F p : un0 F T (fun x => @pown_mixed T F x p)
| u_copy F : un0 F F (@copy F) | u_convert T F : un0 F T (@convert_type F T)
| u_sqr_rev F : un0 F F (@sqr_rev1 F)
| u_abs_rev F : un0 F F (@abs_rev1 F)
| u_cosh_rev F : un0 F F (@cosh_rev1 F)
| u_sin_rev F : un0 F F (@sin_rev1 F)
| u_cos_rev F : un0 F F (@cos_rev1 F)
| u_tan_rev F : un0 F F (@tan_rev1 F)
| u_sqr_rev_mixed T F : un0 F T (@sqr_rev1_mixed T F)
| u_abs_rev_mixed T F : un0 F T (@abs_rev1_mixed T F)
| u_cosh_rev_mixed T F : un0 F T (@cosh_rev1_mixed T F)
| u_sin_rev_mixed T F : un0 F T (@sin_rev1_mixed T F)
| u_cos_rev_mixed T F : un0 F T (@cos_rev1_mixed T F)
| u_tan_rev_mixed T F : un0 F T (@tan_rev1_mixed T F).
Inductive un : forall F T : fmt, (itv F -> M (itv T)) -> Prop :=
| u_fun F T f : un0 F T f -> un F T f
| u_pown_rev F fuel p : un F F (fun c => @pown_rev1 F fuel c p)
| u_pown_rev_mixed T F fuel p : un F T (fun c => @pown_rev1_mixed T F fuel c p).
(** ** Functions of two and three bare intervals
    base_interval_elem_func_impl.hpp, base_interval_set_op_impl.hpp,
    base_interval_rev_func_impl.hpp. *)
Inductive bin0 : forall F G T : fmt, (itv F -> itv G -> M (itv T)) -> Prop :=
| b_add F : bin0 F F F (@add F) | b_add_mixed T F G : bin0 F G T (@add_mixed T F G)
| b_sub F : bin0 F F F (@sub F) | b_sub_mixed T F G : bin0 F G T (@sub_mixed T F G)
| b_mul F : bin0 F F F (@mul F) | b_mul_mixed T F G : bin0 F G T (@mul_mixed T F G)
| b_div F : bin0 F F F (@div F) | b_div_mixed T F G : bin0 F G T (@div_mixed T F G)
| b_min F : bin0 F F F (@min F) | b_min_mixed T F G : bin0 F G T (@min_mixed T F G)
| b_max F : bin0 F F F (@max F) | b_max_mixed T F G : bin0 F G T (@max_mixed T F G)
| b_pow F : bin0 F F F (@pow F) | b_pow_mixed T F G : bin0 F G T (@pow_mixed T F G)
| b_atan2 F : bin0 F F F (@atan2_itv F) | b_atan2_mixed T F G : bin0 F G T (@atan2_mixed T F G)
| b_intersection F : bin0 F F F (@intersection F) | b_intersection_mixed T F G : bin0 F G T (@intersection_mixed T F G)
| b_convex_hull F : bin0 F F F (@convex_hull F) | b_convex_hull_mixed T F G : bin0 F G T (@convex_hull_mixed T F G)
| b_sqr_rev F : bin0 F F F (@sqr_rev F) | b_sqr_rev_mixed T F G : bin0 F G T (@sqr_rev_mixed T F G)
| b_abs_rev F : bin0 F F F (@abs_rev F) | b_abs_rev_mixed T F G : bin0 F G T (@abs_rev_mixed T F G)
| b_cosh_rev F : bin0 F F F (@cosh_rev F) | b_cosh_rev_mixed T F G : bin0 F G T (@cosh_rev_mixed T F G)
| b_mul_rev F : bin0 F F F (@mul_rev2 F) | b_mul_rev_mixed T F G : bin0 F G T (@mul_rev2_mixed T F G).
Inductive bint : forall F G T : fmt, (itv F -> itv G -> M (itv T)) -> Prop :=
| b_sin_rev F : bint F F F (@sin_rev F) | b_sin_rev_mixed T F G : bint F G T (@sin_rev_mixed T F G)
| b_cos_rev F : bint F F F (@cos_rev F) | b_cos_rev_mixed T F G : bint F G T (@cos_rev_mixed T F G)
| b_tan_rev F : bint F F F (@tan_rev F) | b_tan_rev_mixed T F G : bint F G T (@tan_rev_mixed T F G).
Inductive bin : forall F G T : fmt, (itv F -> itv G -> M (itv T)) -> Prop :=
| b_fun F G T f : bin0 F G T f -> bin F G T f
| b_trig F G T f : bint F G T f -> bin F G T f
| b_pown_rev F fuel p : bin F F F (fun c x => @pown_rev F fuel c x p)
| b_pown_rev_mixed T F G fuel p : bin F G T (fun c x => @pown_rev_mixed T F G fuel c x p).
Inductive tern : forall F G H T : fmt, (itv F -> itv G -> itv H -> M (itv T)) -> Prop :=
| t_fma F : tern F F F F (@fma F) | t_fma_mixed T F G H : tern F G H T (@fma_mixed T F G H)
| t_mul_rev F : tern F F F F (@mul_rev F) | t_mul_rev_mixed T F G H : tern F G H T (@mul_rev_mixed T F G H).
(** mul_rev_to_pair: two results. *)
Inductive two : forall F G T : fmt, (itv F -> itv G -> M (itv T * itv T)) -> Prop :=
| w_pair F : two F F F (@mul_rev_to_pair F) | w_pair_mixed T F G : two F G T (@mul_rev_to_pair_mixed T F G).
(** base_interval_cancel_func (FL_cancel_func_impl.hpp). *)
Inductive canc : forall F G T : fmt, (itv F -> itv G -> M (itv T)) -> Prop :=
| c_minus F : canc F F F (@cancel_minus F) | c_minus_mixed T F G : canc F G T (@cancel_minus_mixed T F G)
| c_plus F : canc F F F (@cancel_plus F) | c_plus_mixed T F G : canc F G T (@cancel_plus_mixed T F G).

(** ** The same for decorated intervals
    decorated_interval.hpp and the same implementation files. *)
Inductive dun0 : forall F T : fmt, (ditv F -> M (ditv T)) -> Prop :=
| du_pos F : dun0 F F (@pos_dec F) | du_pos_mixed T F : dun0 F T (@pos_dec_mixed T F)
| du_neg F : dun0 F F (@neg_dec F) | du_neg_mixed T F : dun0 F T (@neg_dec_mixed T F)
| du_recip F : dun0 F F (@recip_dec F) | du_recip_mixed T F : dun0 F T (@recip_dec_mixed T F)
| du_sqr F : dun0 F F (@sqr_dec F) | du_sqr_mixed T F : dun0 F T (@sqr_dec_mixed T F)
| du_sqrt F : dun0 F F (@sqrt_dec F) | du_sqrt_mixed T F : dun0 F T (@sqrt_dec_mixed T F)
| du_abs F : dun0 F F (@abs_dec F) | du_abs_mixed T F : dun0 F T (@abs_dec_mixed T F)
| du_exp F : dun0 F F (@exp_dec F) | du_exp_mixed T F : dun0 F T (@exp_dec_mixed T F)
| du_exp2 F : dun0 F F (@exp2_dec F) | du_exp2_mixed T F : dun0 F T (@exp2_dec_mixed T F)
| du_exp10 F : dun0 F F (@exp10_dec F) | du_exp10_mixed T F : dun0 F T (@exp10_dec_mixed T F)
| du_log F : dun0 F F (@log_dec F) | du_log_mixed T F : dun0 F T (@log_dec_mixed T F)
| du_log2 F : dun0 F F (@log2_dec F) | du_log2_mixed T F : dun0 F T (@log2_dec_mixed T F)
| du_log10 F : dun0 F F (@log10_dec F) | du_log10_mixed T F : dun0 F T (@log10_dec_mixed T F)
| du_sin F : dun0 F F (@sin_dec F) | du_sin_mixed T F : dun0 F T (@sin_dec_mixed T F)
| du_cos F : dun0 F F (@cos_dec F) | du_cos_mixed T F : dun0 F T (@cos_dec_mixed T F)
| du_tan F : dun0 F F (@tan_dec F) | du_tan_mixed T F : dun0 F T (@tan_dec_mixed T F)
| du_asin F : dun0 F F (@asin_dec F) | du_asin_mixed T F : dun0 F T (@asin_dec_mixed T F)
| du_acos F : dun0 F F (@acos_dec F) | du_acos_mixed T F : dun0 F T (@acos_dec_mixed T F)
| du_atan F : dun0 F F (@atan_dec F) | du_atan_mixed T F : dun0 F T (@atan_dec_mixed T F)
| du_sinh F : dun0 F F (@sinh_dec F) | du_sinh_mixed T F : dun0 F T (@sinh_dec_mixed T F)
| du_cosh F : dun0 F F (@cosh_dec F) | du_cosh_mixed T F : dun0 F T (@cosh_dec_mixed T F)
| du_tanh F : dun0 F F (@tanh_dec F) | du_tanh_mixed T F : dun0 F T (@tanh_dec_mixed T F)
| du_asinh F : dun0 F F (@asinh_dec F) | du_asinh_mixed T F : dun0 F T (@asinh_dec_mixed T F)
| du_acosh F : dun0 F F (@acosh_dec F) | du_acosh_mixed T F : dun0 F T (@acosh_dec_mixed T F)
| du_atanh F : dun0 F F (@atanh_dec F) | du_atanh_mixed T F : dun0 F T (@atanh_dec_mixed T F)
| du_sign F : dun0 F F (@sign_dec F) | du_sign_mixed T F : dun0 F T (@sign_dec_mixed T F)
| du_ceil F : dun0 F F (@ceil_dec F) | du_ceil_mixed T F : dun0 F T (@ceil_dec_mixed T F)
| du_floor F : dun0 F F (@floor_dec F) | du_floor_mixed T F : dun0 F T (@floor_dec_mixed T F)
| du_trunc F : dun0 F F (@trunc_dec F) | du_trunc_mixed T F : dun0 F T (@trunc_dec_mixed T F)
| du_rte F : dun0 F F (@round_ties_to_even_dec F) | du_rte_mixed T F : dun0 F T (@rte_dec_mixed T F)
| du_rta F : dun0 F F (@round_ties_to_away_dec F) | du_rta_mixed T F : dun0 F T (@rta_dec_mixed T F)
| du_pown F p : dun0 F F (fun x => @pown_dec F x p) | du_pown_mixed T F p : dun0 F T (fun x => @pown_dec_mixed T F x p)
| du_copy F : dun0 F F (@copy_dec F) | du_convert T F : dun0 F T (@convert_type_dec F T)
| du_sqr_rev F : dun0 F F (@sqr_rev1_dec F)
| du_abs_rev F : dun0 F F (@abs_rev1_dec F)
| du_cosh_rev F : dun0 F F (@cosh_rev1_dec F)
| du_sin_rev F : dun0 F F (@sin_rev1_dec F)
| du_cos_rev F : dun0 F F (@cos_rev1_dec F)
| du_tan_rev F : dun0 F F (@tan_rev1_dec F)
| du_sqr_rev_mixed T F : dun0 F T (@sqr_rev1_dec_mixed T F)
| du_abs_rev_mixed T F : dun0 F T (@abs_rev1_dec_mixed T F)
| du_cosh_rev_mixed T F : dun0 F T (@cosh_rev1_dec_mixed T F)
| du_sin_rev_mixed T F : dun0 F T (@sin_rev1_dec_mixed T F)
| du_cos_rev_mixed T F : dun0 F T (@cos_rev1_dec_mixed T F)
| du_tan_rev_mixed T F : dun0 F T (@tan_rev1_dec_mixed T F).
Inductive dun : forall F T : fmt, (ditv F -> M (ditv T)) -> Prop :=
| du_fun F T f : dun0 F T f -> dun F T f
| du_pown_rev F fuel p : dun F F (fun c => @pown_rev1_dec F fuel c p)
| du_pown_rev_mixed T F fuel p : dun F T (fun c => @pown_rev1_dec_mixed T F fuel c p).
Inductive dbin0 : forall F G T : fmt, (ditv F -> ditv G -> M (ditv T)) -> Prop :=
| db_add F : dbin0 F F F (@add_dec F) | db_add_mixed T F G : dbin0 F G T (@add_dec_mixed T F G)
| db_sub F : dbin0 F F F (@sub_dec F) | db_sub_mixed T F G : dbin0 F G T (@sub_dec_mixed T F G)
| db_mul F : dbin0 F F F (@mul_dec F) | db_mul_mixed T F G : dbin0 F G T (@mul_dec_mixed T F G)
| db_div F : dbin0 F F F (@div_dec F) | db_div_mixed T F G : dbin0 F G T (@div_dec_mixed T F G)
| db_min F : dbin0 F F F (@min_dec F) | db_min_mixed T F G : dbin0 F G T (@min_dec_mixed T F G)
| db_max F : dbin0 F F F (@max_dec F) | db_max_mixed T F G : dbin0 F G T (@max_dec_mixed T F G)
| db_pow F : dbin0 F F F (@pow_dec F) | db_pow_mixed T F G : dbin0 F G T (@pow_dec_mixed T F G)
| db_atan2 F : dbin0 F F F (@atan2_dec F) | db_atan2_mixed T F G : dbin0 F G T (@atan2_dec_mixed T F G)
| db_intersection F : dbin0 F F F (@intersection_dec F) | db_intersection_mixed T F G : dbin0 F G T (@intersection_dec_mixed T F G)
| db_convex_hull F : dbin0 F F F (@convex_hull_dec F) | db_convex_hull_mixed T F G : dbin0 F G T (@convex_hull_dec_mixed T F G)
| db_sqr_rev F : dbin0 F F F (@sqr_rev_dec F) | db_sqr_rev_mixed T F G : dbin0 F G T (@sqr_rev_dec_mixed T F G)
| db_abs_rev F : dbin0 F F F (@abs_rev_dec F) | db_abs_rev_mixed T F G : dbin0 F G T (@abs_rev_dec_mixed T F G)
| db_cosh_rev F : dbin0 F F F (@cosh_rev_dec F) | db_cosh_rev_mixed T F G : dbin0 F G T (@cosh_rev_dec_mixed T F G)
| db_mul_rev F : dbin0 F F F (@mul_rev2_dec F) | db_mul_rev_mixed T F G : dbin0 F G T (@mul_rev2_dec_mixed T F G).
Inductive dbint : forall F G T : fmt, (ditv F -> ditv G -> M (ditv T)) -> Prop :=
| db_sin_rev F : dbint F F F (@sin_rev_dec F) | db_sin_rev_mixed T F G : dbint F G T (@sin_rev_dec_mixed T F G)
| db_cos_rev F : dbint F F F (@cos_rev_dec F) | db_cos_rev_mixed T F G : dbint F G T (@cos_rev_dec_mixed T F G)
| db_tan_rev F : dbint F F F (@tan_rev_dec F) | db_tan_rev_mixed T F G : dbint F G T (@tan_rev_dec_mixed T F G).
Inductive dbin : forall F G T : fmt, (ditv F -> ditv G -> M (ditv T)) -> Prop :=
| db_fun F G T f : dbin0 F G T f -> dbin F G T f
| db_trig F G T f : dbint F G T f -> dbin F G T f
| db_pown_rev F fuel p : dbin F F F (fun c x => @pown_rev_dec F fuel c x p)
| db_pown_rev_mixed T F G fuel p : dbin F G T (fun c x => @pown_rev_dec_mixed T F G fuel c x p).
Inductive dtern : forall F G H T : fmt, (ditv F -> ditv G -> ditv H -> M (ditv T)) -> Prop :=
| dt_fma F : dtern F F F F (@fma_dec F) | dt_fma_mixed T F G H : dtern F G H T (@fma_dec_mixed T F G H)
| dt_mul_rev F : dtern F F F F (@mul_rev_dec F) | dt_mul_rev_mixed T F G H : dtern F G H T (@mul_rev_dec_mixed T F G H).
Inductive dtwo : forall F G T : fmt, (ditv F -> ditv G -> M (ditv T * ditv T)) -> Prop :=
| dw_pair F : dtwo F F F (@mul_rev_to_pair_dec F) | dw_pair_mixed T F G : dtwo F G T (@mul_rev_to_pair_dec_mixed T F G).
Inductive dcanc : forall F G T : fmt, (ditv F -> ditv G -> M (ditv T)) -> Prop :=
| dc_minus F : dcanc F F F (@cancel_minus_dec F) | dc_minus_mixed T F G : dcanc F G T (@cancel_minus_dec_mixed T F G)
| dc_plus F : dcanc F F F (@cancel_plus_dec F) | dc_plus_mixed T F G : dcanc F G T (@cancel_plus_dec_mixed T F G).

(** ** Everything a program can hold *)
Section Built.
(** Which operands may be given to the cancellative operations with result type T. *)
Variable may_cancel : forall (T F G : fmt), itv F -> itv G -> Prop.
(** class interval: default constructor, empty, entire (interval.hpp:88-91, 229-246), from
    bounds (106-126), from text (142-143), from a decorated interval (189-207), operator>>
    (base_interval_io_impl.hpp). *)
Inductive built : forall F : fmt, itv F -> Prop :=
| bl_empty F : built F empty
| bl_entire F : built F entire
| bl_nums F l u s z s' : @nums_to_interval F l u s = (Ret z, s') -> built F z
| bl_nums_mixed T L U l u s z s' : comparable L U -> @nums_to_interval_mixed L U T l u s = (Ret z, s') -> built T z
| bl_text F t s z s' : @text_to_interval F t s = (Ret z, s') -> built F z
| bl_read F i s z i' s' : @read_itv F i s = (Ret (Some z, i'), s') -> built F z
| bl_un F T f x s z s' : un F T f -> built F x -> f x s = (Ret z, s') -> built T z
| bl_bin F G T f x y s z s' : bin F G T f -> built F x -> built G y -> f x y s = (Ret z, s') -> built T z
| bl_tern F G H T f x y w s z s' : tern F G H T f -> built F x -> built G y -> built H w -> f x y w s = (Ret z, s') -> built T z
| bl_fst F G T f x y s z1 z2 s' : two F G T f -> built F x -> built G y -> f x y s = (Ret (z1, z2), s') -> built T z1
| bl_snd F G T f x y s z1 z2 s' : two F G T f -> built F x -> built G y -> f x y s = (Ret (z1, z2), s') -> built T z2
| bl_canc F G T f x y s z s' : canc F G T f -> may_cancel T F G x y -> built F x -> built G y -> f x y s = (Ret z, s') -> built T z
| bl_part F x s z s' : dbuilt F x -> @interval_part F x s = (Ret z, s') -> built F z
| bl_part_mixed T F x s z s' : dbuilt F x -> @interval_part_mixed F T x s = (Ret z, s') -> built T z
(** class decorated_interval: default constructor and the constants
    (decorated_interval.hpp:90-94, 312-343), from bounds (110-169), from text (186-187), from
    a bare interval (234-290), operator>>. *)
with dbuilt : forall F : fmt, ditv F -> Prop :=
| dl_nai F : dbuilt F nai
| dl_empty F : dbuilt F empty_dec
| dl_entire F : dbuilt F entire_dec
| dl_new F x s z s' : built F x -> @new_dec F x s = (Ret z, s') -> dbuilt F z
| dl_new_mixed T F x s z s' : built F x -> @new_dec_mixed F T x s = (Ret z, s') -> dbuilt T z
| dl_set F x d s z s' : built F x -> @set_dec F x d s = (Ret z, s') -> dbuilt F z
| dl_set_mixed T F x d s z s' : built F x -> @set_dec_mixed F T x d s = (Ret z, s') -> dbuilt T z
| dl_nums F l u s z s' : @nums_to_decorated_interval F l u s = (Ret z, s') -> dbuilt F z
| dl_nums_mixed T L U l u s z s' : comparable L U -> @nums_to_decorated_interval_mixed L U T l u s = (Ret z, s') -> dbuilt T z
| dl_nums_dec F l u d s z s' : @nums_dec_to_decorated_interval F l u d s = (Ret z, s') -> dbuilt F z
| dl_nums_dec_mixed T L U l u d s z s' : comparable L U -> @nums_dec_to_decorated_interval_mixed L U T l u d s = (Ret z, s') -> dbuilt T z
| dl_text F t s z s' : @text_to_decorated_interval F t s = (Ret z, s') -> dbuilt F z
| dl_read F i s z i' s' : @read_ditv F i s = (Ret (Some z, i'), s') -> dbuilt F z
| dl_un F T f x s z s' : dun F T f -> dbuilt F x -> f x s = (Ret z, s') -> dbuilt T z
| dl_bin F G T f x y s z s' : dbin F G T f -> dbuilt F x -> dbuilt G y -> f x y s = (Ret z, s') -> dbuilt T z
| dl_tern F G H T f x y w s z s' : dtern F G H T f -> dbuilt F x -> dbuilt G y -> dbuilt H w -> f x y w s = (Ret z, s') -> dbuilt T z
| dl_fst F G T f x y s z1 z2 s' : dtwo F G T f -> dbuilt F x -> dbuilt G y -> f x y s = (Ret (z1, z2), s') -> dbuilt T z1
| dl_snd F G T f x y s z1 z2 s' : dtwo F G T f -> dbuilt F x -> dbuilt G y -> f x y s = (Ret (z1, z2), s') -> dbuilt T z2
| dl_canc F G T f x y s z s' : dcanc F G T f -> may_cancel T F G (fst x) (fst y) -> dbuilt F x -> dbuilt G y -> f x y s = (Ret z, s') -> dbuilt T z.
End Built.
