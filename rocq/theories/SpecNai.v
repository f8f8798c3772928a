(** * NaI ("not an interval"): the empty representation decorated ill *)
From Coq Require Import NArith Reals.
From Verif Require Import Fmt Spec Deco Exc SpecApi SpecDeco SpecIso.

(** Valid operands of which one is NaI give [v], without any signal. *)
Definition on_nai1 {F A} (op : ditv F -> M A) (v : A) : Prop :=
  forall x, wf_dec x -> snd x = ill -> returns (op x) v.
Definition on_nai2 {F G A} (op : ditv F -> ditv G -> M A) (v : A) : Prop :=
  forall x y, wf_dec x -> wf_dec y -> snd x = ill \/ snd y = ill -> returns (op x y) v.
Definition on_nai3 {F G H A} (op : ditv F -> ditv G -> ditv H -> M A) (v : A) : Prop :=
  forall x y w, wf_dec x -> wf_dec y -> wf_dec w -> snd x = ill \/ snd y = ill \/ snd w = ill -> returns (op x y w) v.

(** Operands that are valid and not NaI do not give NaI. *)
Definition no_nai1 {F T} (op : ditv F -> M (ditv T)) : Prop :=
  forall x, proper x -> exists z, returns (op x) z /\ snd z <> ill.
Definition no_nai2 {F G T} (op : ditv F -> ditv G -> M (ditv T)) : Prop :=
  forall x y, proper x -> proper y -> exists z, returns (op x y) z /\ snd z <> ill.
Definition no_nai3 {F G H T} (op : ditv F -> ditv G -> ditv H -> M (ditv T)) : Prop :=
  forall x y w, proper x -> proper y -> proper w -> exists z, returns (op x y w) z /\ snd z <> ill.
