(** * C19: the overlapping state *)
From Coq Require Import ZArith NArith Reals Bool Lra.
From Flocq Require Import Core.Core IEEE754.BinarySingleNaN.
From Verif Require Import Fmt Spec Exc Deco SpecApi SpecRel MBase PBase MBool PConv MOverlap SpecOverlap POverlap Ex.

Local Open Scope R_scope.

(** overlap returns one state, and it is the only state whose definition holds. *)
Theorem C19_overlap_correct : forall (F G : fmt) (x : itv F) (y : itv G), comparable F G -> wf x -> wf y ->
  exists o, returns (overlap x y) o /\ forall o', o = o' <-> overlap_spec x y o'.
Proof. intros F G x y C. now apply overlap_correct. Qed.
Print Assumptions C19_overlap_correct.

Theorem C19_overlap_converse : forall (F G : fmt) (x : itv F) (y : itv G), comparable F G -> wf x -> wf y ->
  exists o, returns (overlap x y) o /\ returns (overlap y x) (converse o).
Proof. intros F G x y C. now apply overlap_converse. Qed.
Print Assumptions C19_overlap_converse.

Theorem C19_overlap_decorated : forall (F G : fmt) (x : ditv F) (y : ditv G), comparable F G -> wf_dec x -> wf_dec y ->
  exists o, returns (overlap_dec x y) o /\
  (o = o_undefined <-> snd x = ill \/ snd y = ill) /\
  forall o', o' <> o_undefined ->
    o = o' <-> snd x <> ill /\ snd y <> ill /\ overlap_spec (fst x) (fst y) o'.
Proof. intros F G x y C. now apply overlap_dec_correct. Qed.
Print Assumptions C19_overlap_decorated.

(** [1,2] meets [2,3]; [1,2] finished_by [2,2]; [-oo,2] starts [-oo,3]; [0,5] contains [1,2]. *)
Example C19_ex :
  overlap (fl binary64 1 0, fl binary64 2 0) (fl binary64 2 0, fl binary64 3 0) (Est 0 0) = (Ret o_meets, Est 0 0)
  /\ overlap (fl binary64 1 0, fl binary64 2 0) (fl binary64 2 0, fl binary64 2 0) (Est 0 0) = (Ret o_finished_by, Est 0 0)
  /\ overlap (fminf, fl binary64 2 0) (fminf, fl binary32 3 0) (Est 0 0) = (Ret o_starts, Est 0 0)
  /\ overlap (fl binary64 0 0, fl binary64 5 0) (fl binary64 1 0, fl binary64 2 0) (Est 0 0) = (Ret o_contains, Est 0 0)
  /\ wf ((fl binary64 1 0, fl binary64 2 0) : itv binary64)
  /\ wf ((fl binary64 2 0, fl binary64 3 0) : itv binary64).
Proof. repeat (split; [first [wf_tac|vm_compute; reflexivity]|]). wf_tac. Qed.
