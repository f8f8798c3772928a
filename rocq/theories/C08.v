(** * C08: integer power *)
From Coq Require Import ZArith NArith Reals Bool Lra.
From Flocq Require Import Core.Core IEEE754.BinarySingleNaN.
From Verif Require Import Fmt Spec Exc Deco SpecApi SpecElem MBase PBase MPow PPown Ex.

Local Open Scope R_scope.

Theorem C08_pown_tightest : forall (F : fmt) (x : itv F) (p : Z), wf x ->
  computes_tightest (pown x p) (image1 (pown_dom p) (pownR p) x).
Proof. exact @pown_tightest. Qed.
Print Assumptions C08_pown_tightest.

(** [-oo,+oo]^2 = [0,+oo], [-2,3]^-1 = whole line, [0,0]^-3 = empty, [-2,3]^0 = [1,1],
    [-oo,+oo]^INT_MIN = [0,+oo]; [-2,3] is valid and its cube contains -8 and 27. *)
Example C08_ex :
  run (pown ((fminf, finf) : itv binary64) 2) = okz (@f0 binary64) finf
  /\ run (pown (fl binary64 (-2) 0, fl binary64 3 0) (-1)) = okz (@fminf binary64) finf
  /\ run (pown (fl binary64 0 0, fl binary64 0 0) (-3)) = okz (@fnan binary64) fnan
  /\ run (pown (fl binary64 (-2) 0, fl binary64 3 0) 0) = okz (@f1 binary64) f1
  /\ run (pown ((fminf, finf) : itv binary64) (-2147483648)) = okz (@f0 binary64) finf
  /\ wf ((fl binary64 (-2) 0, fl binary64 3 0) : itv binary64).
Proof. repeat (split; [first [wf_tac|vm_compute; reflexivity]|]). wf_tac. Qed.
Example C08_ex_mem :
  (exists z, returns (pown ((fl binary64 (-2) 0, fl binary64 3 0) : itv binary64) 3) z /\ mem (-8) z)
  /\ (exists z, returns (pown ((fl binary64 (-2) 0, fl binary64 3 0) : itv binary64) 3) z /\ mem 27 z).
Proof.
assert (B : B2R (fl binary64 (-2) 0) = -2) by b2r. assert (B' : B2R (fl binary64 3 0) = 3) by b2r.
split; (eapply ct_has; [apply C08_pown_tightest; wf_tac|]).
- exists (-2). split; [apply mem_pt; [easy|easy|lra]|split; [easy|unfold pownR; simpl; lra]].
- exists 3. split; [apply mem_pt; [easy|easy|lra]|split; [easy|unfold pownR; simpl; lra]].
Qed.
