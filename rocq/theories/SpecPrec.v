(** * Specification: the precision asked of the printing functions *)
From Coq Require Import NArith.
(** A precision 0 asks for the default. *)
Definition asked (default : option nat) (p : N) : option nat :=
  match p with N0 => default | Npos q => Some (Pos.to_nat q) end.
