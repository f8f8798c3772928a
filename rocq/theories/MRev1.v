(** * Model: mixed-type reverse functions without [x]

    mpfr_bin_ieee754_flavor_rev_func_impl.hpp: sqr_rev 166-172 and 184-191, abs_rev 289-295 and
    307-314, pown_rev 634-640 and 652-659, sin_rev 880-886 and 898-905, cos_rev 1127-1133 and
    1145-1152, tan_rev 1338-1344 and 1356-1362, cosh_rev 1492-1498 and 1510-1517, mul_rev 1627-1639
    and 1650-1662 (bare, decorated): each calls the version with [x], whose type is the result type,
    with [x] = entire() or entire_dec(). *)
From Coq Require Import ZArith NArith Reals Bool.
From Verif Require Import Fmt Spec Exc Deco MBase MArith MDec MMixed MRev MTrigRev.

Definition sqr_rev1_mixed T {F} (c : itv F) := sqr_rev_mixed T c (@entire T).
Definition abs_rev1_mixed T {F} (c : itv F) := abs_rev_mixed T c (@entire T).
Definition cosh_rev1_mixed T {F} (c : itv F) := cosh_rev_mixed T c (@entire T).
Definition pown_rev1_mixed T {F} fuel (c : itv F) p := pown_rev_mixed T fuel c (@entire T) p.
Definition sin_rev1_mixed T {F} (c : itv F) := sin_rev_mixed T c (@entire T).
Definition cos_rev1_mixed T {F} (c : itv F) := cos_rev_mixed T c (@entire T).
Definition tan_rev1_mixed T {F} (c : itv F) := tan_rev_mixed T c (@entire T).
Definition mul_rev2_mixed T {F G} (b : itv F) (c : itv G) := mul_rev_mixed T b c (@entire T).
Definition sqr_rev1_dec_mixed T {F} (c : ditv F) := sqr_rev_dec_mixed T c (@entire_dec T).
Definition abs_rev1_dec_mixed T {F} (c : ditv F) := abs_rev_dec_mixed T c (@entire_dec T).
Definition cosh_rev1_dec_mixed T {F} (c : ditv F) := cosh_rev_dec_mixed T c (@entire_dec T).
Definition pown_rev1_dec_mixed T {F} fuel (c : ditv F) p := pown_rev_dec_mixed T fuel c (@entire_dec T) p.
Definition sin_rev1_dec_mixed T {F} (c : ditv F) := sin_rev_dec_mixed T c (@entire_dec T).
Definition cos_rev1_dec_mixed T {F} (c : ditv F) := cos_rev_dec_mixed T c (@entire_dec T).
Definition tan_rev1_dec_mixed T {F} (c : ditv F) := tan_rev_dec_mixed T c (@entire_dec T).
Definition mul_rev2_dec_mixed T {F G} (b : ditv F) (c : ditv G) := mul_rev_dec_mixed T b c (@entire_dec T).
