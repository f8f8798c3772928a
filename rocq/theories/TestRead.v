(** * Reading in the unit tests *)

From Coq Require Import NArith Bool Ascii String List.
From Flocq Require Import IEEE754.BinarySingleNaN.
From Verif Require Import Fmt Spec Exc Deco MBase MStream MText MRead.

(** [std::istringstream is(t); F<T>::operator_text_to_interval(is, x);]: the value of the variable
    afterwards, which was [x0] before, and whether the stream is good for more (operator bool). *)
Definition read_d {F} (t : text) (x0 : ditv F) : M (ditv F * bool) :=
  bind (read_ditv (string_stream t)) (fun r =>
  ret (match fst r with Some x => x | None => x0 end, ok (snd r))).
Definition read_b {F} (t : text) (x0 : itv F) : M (itv F * bool) :=
  bind (read_itv (string_stream t)) (fun r =>
  ret (match fst r with Some x => x | None => x0 end, ok (snd r))).
