(** * Model: reverse sine, cosine and tangent

    C++ side: mpfr_bin_ieee754_flavor_rev_func_impl.hpp:665-1362. *)
From Coq Require Import ZArith NArith Reals Bool List.
From Flocq Require Import Core.Core Core.FTZ IEEE754.BinarySingleNaN.
From Verif Require Import Fmt Spec SpecElem Exc Deco MBase MBool MArith MElem MTrig MMixed MRev.

Local Open Scope m_scope.

(** Arithmetic in [long] (64 bits): overflow is undefined behaviour. *)
Definition in_long (z : Z) : bool := Z.leb (-2^63) z && Z.leb z (2^63 - 1).
Definition lchk {A} (z : Z) (m : M A) : M A := if in_long z then m else undef.

Section Core.
Context {F : fmt}.
Implicit Types x c : itv F.

(** ** MPFR *)
(** The value of an mpfr_var after an operation that is not followed by subnormalize:
    PREC bits, smallest positive number 2^emin.  For results of bounded functions. *)
Definition raw (m : mode) (v : R) : R :=
  round radix2 (FTZ_exp (emin F - prec F + 1) (prec F)) (round_mode m) v.
(** An operation with rounding [m1] followed by get<T>(m2).  In the normal range and
    beyond it the value is one of T; below it get rounds once more.  The sign of a zero
    is not modelled. *)
Definition get_after (m1 m2 : mode) (v : R) : float F :=
  if Rlt_bool (Rabs v) (bpow radix2 (emin F + prec F - 1)) then rround m2 false (raw m1 v) else rround m1 false v.
(** tmp.set(k, MPFR_RNDN) *)
Definition tmp_of (k : Z) : R := round radix2 (FLX_exp (prec F)) ZnearestE (IZR k).
(** mpfr_remquo(r, q, x, y): MPFR manual: r = x - n y with n the integer nearest x / y,
    ties to even; q receives the low 63 bits of n with the sign of n.  The remainder of
    two numbers of the format is a number of the format; only its sign is used. *)
Definition remquo (x y : R) : R * Z :=
  let q := ZnearestE (x / y) in ((x - IZR q * y)%R, Z.rem q (2^63)).

Definition pid : R := B2R (@mpfr_const_pi F mode_DN).
Definition piu : R := B2R (@mpfr_const_pi F mode_UP).

(** ** Moving the inverse image to a branch *)
(** e.g. 725-731: k pi + [cl,cu]. *)
Definition moved (pl pu cl cu : R) (k : Z) : itv F :=
  (get_after mode_DN mode_DN (tmp_of k * pl + cl), get_after mode_UP mode_UP (tmp_of k * pu + cu)).
(** e.g. 735-741: -(k pi + [cl,cu]). *)
Definition mirrored (pl pu cl cu : R) (k : Z) : itv F :=
  (fneg (get_after mode_UP mode_DN (tmp_of k * pl + cu)), fneg (get_after mode_DN mode_UP (tmp_of k * pu + cl))).
(** The loop body: [n] and the step [d] (i or -i) to the branch.
    [kind] None: tan, no mirroring (1207-1215); Some 0: sin (723-742, 775-794);
    Some 1: cos (971-990, 1023-1042), where one more is subtracted. *)
Definition branch (kind : option Z) (pl pu cl cu : R) (n d : Z) : M (itv F) :=
  lchk (n + d)
  (match kind with
   | None => ret (moved pl pu cl cu (n + d))
   | Some off =>
     if Z.even (n + d) then ret (moved pl pu cl cu (n + d))
     else lchk (- n) (lchk (- n - d) (lchk (- n - d - off) (ret (mirrored pl pu cl cu (- n - d - off)))))
   end).
(** The loop: the first of two branches that meets [x]. *)
Definition try_two (b0 b1 : M (itv F)) x : M (itv F) :=
  z <- b0; z <- intersection z x; mif (is_empty z) (z <- b1; intersection z x) (ret z).

(** 706-745, 954-993, 1192-1218. *)
Definition left_box kind (cl cu : R) x : M (itv F) :=
  if feq (fst x) fminf then ret (fminf, fneg fmaxv) else
  let neg := flt (fst x) f0 in
  let rq := remquo (B2R (fst x)) (if neg then pid else piu) in
  let n := if Rlt_bool (fst rq) 0 then (snd rq - 1)%Z else snd rq in
  let b := branch kind (if neg then piu else pid) (if neg then pid else piu) cl cu n in
  lchk n (try_two (b 0%Z) (b 1%Z) x).
(** 758-797, 1006-1045, 1231-1257.  [up]: n is the ceiling (sin, tan) or the floor (cos)
    of the quotient. *)
Definition right_box kind (up : bool) (cl cu : R) x : M (itv F) :=
  if feq (snd x) finf then ret (fmaxv, finf) else
  let pos := fgt (snd x) f0 in
  let rq := remquo (B2R (snd x)) (if pos then pid else piu) in
  let n := if up then (if Rlt_bool 0 (fst rq) then (snd rq + 1)%Z else snd rq)
           else (if Rlt_bool (fst rq) 0 then (snd rq - 1)%Z else snd rq) in
  let b := branch kind (if pos then pid else piu) (if pos then piu else pid) cl cu n in
  lchk n (try_two (b 0%Z) (b (-1)%Z) x).
Definition two_boxes kind up (cl cu : R) x : M (itv F) :=
  l <- left_box kind cl cu x; r <- right_box kind up cl cu x; convex_hull l r.

(** 669-801. *)
Definition sin_rev c x : M (itv F) :=
  mif (mnot (is_valid c) ||| mnot (is_valid x) ||| is_empty x) (ret empty)
  (cc <- intersection c (fm1, f1);
   mif (is_empty cc) (ret cc)
   (mif (equal cc (fm1, f1)) (ret x)
   (two_boxes (Some 0%Z) true (raw mode_DN (asin (B2R (fst cc)))) (raw mode_UP (asin (B2R (snd cc)))) x))).
(** 917-1049. *)
Definition cos_rev c x : M (itv F) :=
  mif (mnot (is_valid c) ||| mnot (is_valid x) ||| is_empty x) (ret empty)
  (cc <- intersection c (fm1, f1);
   mif (is_empty cc) (ret cc)
   (mif (equal cc (fm1, f1)) (ret x)
   (two_boxes (Some 1%Z) false (raw mode_DN (acos (B2R (snd cc)))) (raw mode_UP (acos (B2R (fst cc)))) x))).
(** mpfr_atan: half pi at the infinities. *)
Definition atan_of (a : float F) : R :=
  match a with B754_infinity s => if s then (- (PI / 2))%R else (PI / 2)%R | _ => atan (B2R a) end.
(** 1159-1261. *)
Definition tan_rev c x : M (itv F) :=
  mif (mnot (is_valid c) ||| mnot (is_valid x) ||| is_empty c ||| is_empty x) (ret empty)
  (two_boxes None true (raw mode_DN (atan_of (fst c))) (raw mode_UP (atan_of (snd c))) x).
End Core.

(** Decorated: sin_rev 836-845, cos_rev 1084-1093, tan_rev 1295-1304. *)
Definition sin_rev_dec {F} := rev_dec2 (@sin_rev F).
Definition cos_rev_dec {F} := rev_dec2 (@cos_rev F).
Definition tan_rev_dec {F} := rev_dec2 (@tan_rev F).
(** Without [x]: sin_rev 867-905, cos_rev 1114-1152, tan_rev 1325-1362. *)
Definition sin_rev1 {F} (c : itv F) := sin_rev c entire.
Definition cos_rev1 {F} (c : itv F) := cos_rev c entire.
Definition tan_rev1 {F} (c : itv F) := tan_rev c entire.
Definition sin_rev1_dec {F} (c : ditv F) := sin_rev_dec c entire_dec.
Definition cos_rev1_dec {F} (c : ditv F) := cos_rev_dec c entire_dec.
Definition tan_rev1_dec {F} (c : ditv F) := tan_rev_dec c entire_dec.
(** Mixed types: sin_rev 804-832, cos_rev 1052-1080, tan_rev 1264-1291; decorated
    848-863, 1096-1111, 1307-1322. *)
Definition sin_rev_mixed T {F G} := @rev_mixed2 T F G (@sin_rev).
Definition cos_rev_mixed T {F G} := @rev_mixed2 T F G (@cos_rev).
Definition tan_rev_mixed T {F G} := @rev_mixed2 T F G (@tan_rev).
Definition sin_rev_dec_mixed T {F G} := rev_mixed_dec2 T (@sin_rev_mixed T F G).
Definition cos_rev_dec_mixed T {F G} := rev_mixed_dec2 T (@cos_rev_mixed T F G).
Definition tan_rev_dec_mixed T {F G} := rev_mixed_dec2 T (@tan_rev_mixed T F G).
