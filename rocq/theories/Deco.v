(** * Decorations

    C++ side: p1788/decoration/decoration.hpp:56-63. *)

From Coq Require Import NArith Bool List.
From Verif Require Import Fmt Spec.

(** decoration.hpp:56-63: [enum class decoration : uint8_t]; a decoration byte. *)
Definition deco : Type := N.
Definition ill : deco := 0%N.
Definition trv : deco := 4%N.
Definition def : deco := 8%N.
Definition dac : deco := 12%N.
Definition com : deco := 16%N.
Definition deq (d e : deco) : bool := N.eqb d e.
(** [std::min] on decorations: (b < a) ? b : a. *)
Definition dmin (a b : deco) : deco := if N.ltb b a then b else a.
Definition dmin_list (d : deco) (l : list deco) : deco :=
  List.fold_left dmin l d.

(** A decorated interval representation. *)
Definition ditv (F : fmt) : Type := (itv F * deco)%type.

