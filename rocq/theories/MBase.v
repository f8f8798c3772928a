(** * Model: validity, constants, constructors, conversions

    C++ side: mpfr_bin_ieee754_flavor_validation_func_impl.hpp,
    mpfr_bin_ieee754_flavor_class_impl.hpp, mpfr_bin_ieee754_flavor_util_func_impl.hpp,
    decoration/decoration.hpp:56-82, util/mixed_type_traits.hpp,
    and the predicates is_empty / is_entire / is_nai of
    mpfr_bin_ieee754_flavor_bool_func_impl.hpp:43-102.
    ("FL" abbreviates mpfr_bin_ieee754_flavor.) *)

From Coq Require Import ZArith NArith Reals Bool.
From Flocq Require Import Core.Core IEEE754.BinarySingleNaN.
From Verif Require Import Fmt Spec Exc Deco.

Local Open Scope m_scope.

(** decoration.hpp:67-82 [is_valid(decoration)] ([!state] is the negation of the
    returned int). *)
Definition not_signal_invalid : M bool := b <- signal_invalid_operand; ret (N.eqb b 0).
Definition is_valid_deco (d : deco) : M bool :=
  if deq d ill || deq d trv || deq d def || deq d dac || deq d com
  then ret true else not_signal_invalid.

Section Base.
Context {F : fmt}.

(** FL_validation_func_impl.hpp:43-56 [is_valid(representation)]. *)
Definition is_valid (x : itv F) : M bool :=
  if (isnan (fst x) && isnan (snd x))
     || (fle (fst x) (snd x) && fne (fst x) finf && fne (snd x) fminf)
  then ret true else not_signal_invalid.

(** FL_validation_func_impl.hpp:59-80 [is_valid(representation_dec)]. *)
Definition is_valid_dec (x : ditv F) : M bool :=
  let l := fst (fst x) in let u := snd (fst x) in let d := snd x in
  if (isnan l && isnan u && (deq d ill || deq d trv))
     || (negb (deq d ill)
         && (fle l u && fne l finf && fne u fminf
             && (negb (deq d com) || (fne l fminf && fne u finf))))
  then ret true else not_signal_invalid.

(** FL_class_impl.hpp:48-92: the constants. *)
Definition empty : itv F := (fnan, fnan).
Definition empty_dec : ditv F := ((fnan, fnan), trv).
Definition entire : itv F := (fminf, finf).
Definition entire_dec : ditv F := ((fminf, finf), dac).
Definition nai : ditv F := ((fnan, fnan), ill).

(** FL_bool_func_impl.hpp:43-51 [is_empty(representation)]. *)
Definition is_empty (x : itv F) : M bool :=
  mif (mnot (is_valid x)) (ret false) (ret (isnan (fst x) && isnan (snd x))).
(** FL_bool_func_impl.hpp:94-102 [is_nai]. *)
Definition is_nai (x : ditv F) : M bool :=
  mif (mnot (is_valid_dec x)) (ret false)
      (ret (isnan (fst (fst x)) && isnan (snd (fst x)) && deq (snd x) ill)).
(** FL_bool_func_impl.hpp:54-63 [is_empty(representation_dec)]. *)
Definition is_empty_dec (x : ditv F) : M bool :=
  mif (mnot (is_valid_dec x) ||| is_nai x) (ret false) (is_empty (fst x)).
(** FL_bool_func_impl.hpp:68-89 [is_entire]. *)
Definition is_entire (x : itv F) : M bool :=
  mif (mnot (is_valid x)) (ret false) (ret (feq (fst x) fminf && feq (snd x) finf)).
Definition is_entire_dec (x : ditv F) : M bool :=
  mif (mnot (is_valid_dec x) ||| is_nai x) (ret false) (is_entire (fst x)).

(** FL_class_impl.hpp:312-336 [copy]. *)
Definition copy (x : itv F) : M (itv F) := mif (mnot (is_valid x)) (ret empty) (ret x).
Definition copy_dec (x : ditv F) : M (ditv F) := mif (mnot (is_valid_dec x)) (ret nai) (ret x).

(** FL_class_impl.hpp:376-392 [interval_part]. *)
Definition interval_part (x : ditv F) : M (itv F) :=
  mif (mnot (is_valid_dec x)) (ret empty)
  (mif (is_nai x) (signal_interval_part_of_nai ;; ret empty) (ret (fst x))).

(** FL_class_impl.hpp:415-436 [new_dec]. *)
Definition new_dec (x : itv F) : M (ditv F) :=
  mif (mnot (is_valid x)) (ret nai)
  (mif (is_empty x) (ret (x, trv))
   (if feq (fst x) fminf || feq (snd x) finf then ret (x, dac) else ret (x, com))).

(** FL_class_impl.hpp:467-489 [set_dec]. *)
Definition set_dec (x : itv F) (d : deco) : M (ditv F) :=
  mif (mnot (is_valid_deco d) ||| mnot (is_valid x) ||| ret (deq d ill)) (ret nai)
  (mif (is_empty x) (ret empty_dec)
   (if deq d com && (feq (fst x) fminf || feq (snd x) finf) then ret (x, dac)
    else ret (x, d))).

(** FL_class_impl.hpp:503-514 [decoration_part]. *)
Definition decoration_part (x : ditv F) : M deco :=
  mif (mnot (is_valid_dec x)) (ret ill) (ret (snd x)).

(** FL_class_impl.hpp:103-139 [nums_to_interval], [nums_to_decorated_interval]. *)
Definition nums_to_interval (l u : float F) : M (itv F) :=
  if fle l u && fne l finf && fne u fminf then ret (l, u)
  else signal_undefined_operation ;; ret empty.
Definition nums_to_decorated_interval (l u : float F) : M (ditv F) :=
  if fle l u && fne l finf && fne u fminf then new_dec (l, u)
  else signal_undefined_operation ;; ret nai.

(** FL_class_impl.hpp:188-215 [nums_dec_to_decorated_interval]. *)
Definition nums_dec_to_decorated_interval (l u : float F) (d : deco) : M (ditv F) :=
  mif (is_valid_deco d)
    (if negb (deq d ill)
        && (fle l u && fne l finf && fne u fminf
            && (negb (deq d com) || (fne l fminf && fne u finf)))
     then ret ((l, u), d)
     else signal_undefined_operation ;; ret nai)
    (ret nai).

End Base.

Section Mixed.
(** util/mixed_type_traits.hpp: the wider of two bound types (order float <
    double < long double). *)
Definition pw (F G : fmt) : fmt := if Z.ltb (prec F) (prec G) then G else F.

(** C++ comparisons between values of different floating-point types: both are
    promoted to the wider type (usual arithmetic conversions), which is exact. *)
Definition feq2 {F G} (x : float F) (y : float G) : bool :=
  feq (fconv (pw F G) mode_NE x) (fconv (pw F G) mode_NE y).
Definition flt2 {F G} (x : float F) (y : float G) : bool :=
  flt (fconv (pw F G) mode_NE x) (fconv (pw F G) mode_NE y).
Definition fle2 {F G} (x : float F) (y : float G) : bool :=
  fle (fconv (pw F G) mode_NE x) (fconv (pw F G) mode_NE y).

Context {F : fmt} (G : fmt).

(** FL_util_func_impl.hpp:41-87: [convert_rndd], [convert_rndn], [convert_rndu].
    [G] is the target type T, [F] the source type T_. *)
Definition convert_rndd (x : float F) : float G :=
  let r := fconv G mode_DN x in if feq r f0 then fm0 else r.
Definition convert_rndn (x : float F) : float G :=
  let r := fconv G mode_NE x in if feq r f0 then f0 else r.
Definition convert_rndu (x : float F) : float G :=
  let r := fconv G mode_UP x in if feq r f0 then f0 else r.

(** FL_util_func_impl.hpp:90-123 [convert_hull]. *)
Definition convert_hull (x : itv F) : itv G := (convert_rndd (fst x), convert_rndu (snd x)).
Definition convert_hull_dec (x : ditv F) : M (ditv G) :=
  mif (is_nai x) (ret nai)
  (let bare := convert_hull (fst x) in
   if deq (snd x) com && (feq (fst bare) fminf || feq (snd bare) finf)
   then ret (bare, dac) else ret (bare, snd x)).

(** FL_class_impl.hpp:343-373 [convert_type]. *)
Definition convert_type (x : itv F) : M (itv G) :=
  mif (mnot (is_valid x)) (ret empty) (ret (convert_hull x)).
Definition convert_type_dec (x : ditv F) : M (ditv G) :=
  mif (mnot (is_valid_dec x)) (ret nai) (convert_hull_dec x).

(** FL_class_impl.hpp:394-413 [interval_part] mixed type. *)
Definition interval_part_mixed (x : ditv F) : M (itv G) :=
  mif (mnot (is_valid_dec x)) (ret empty)
  (mif (is_nai x) (signal_interval_part_of_nai ;; ret empty)
       (ret (convert_hull (fst x)))).

(** FL_class_impl.hpp:438-465 [new_dec] mixed type. *)
Definition new_dec_mixed (x : itv F) : M (ditv G) :=
  mif (mnot (is_valid x)) (ret nai)
  (let r := convert_hull x in
   mif (is_empty r) (ret (r, trv))
   (if feq (fst r) fminf || feq (snd r) finf then ret (r, dac) else ret (r, com))).

(** FL_class_impl.hpp:491-500 [set_dec] mixed type. *)
Definition set_dec_mixed (x : itv F) (d : deco) : M (ditv G) :=
  r <- set_dec x d; convert_hull_dec r.

End Mixed.

(** FL_class_impl.hpp:141-185 and 218-254: mixed-type constructors; [T] the target,
    [L], [U] the types of the bounds. *)
Definition nums_ok_mixed {L U : fmt} (l : float L) (u : float U) : bool :=
  fle2 l u && fne l finf && fne u fminf.
Definition nums_to_interval_mixed {L U : fmt} (T : fmt) (l : float L) (u : float U) : M (itv T) :=
  if nums_ok_mixed l u then ret (convert_rndd T l, convert_rndu T u)
  else signal_undefined_operation ;; ret empty.
Definition nums_to_decorated_interval_mixed {L U : fmt} (T : fmt) (l : float L) (u : float U)
  : M (ditv T) :=
  if nums_ok_mixed l u then new_dec (convert_rndd T l, convert_rndu T u)
  else signal_undefined_operation ;; ret nai.
Definition nums_dec_to_decorated_interval_mixed {L U : fmt} (T : fmt)
    (l : float L) (u : float U) (d : deco) : M (ditv T) :=
  mif (is_valid_deco d)
    (if negb (deq d ill)
        && (nums_ok_mixed l u && (negb (deq d com) || (fne l fminf && fne u finf)))
     then let tmp := (convert_rndd T l, convert_rndu T u) in
          ret (tmp, dmin d (if isinf (fst tmp) || isinf (snd tmp) then dac else com))
     else signal_undefined_operation ;; ret nai)
    (ret nai).
