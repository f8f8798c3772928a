(** * C46: memory of the MPFR variables and of the reductions

    Claimed: a call gives back all memory it asked for, exactly once, and uses none of it
    afterwards, whether it returns or is left by std::bad_alloc, however many requests
    for memory succeed.  True of the functions that only use automatic variables and of
    get_str.  False of the reductions, see the refutations: no mpfr_t made with new is
    ever deleted. *)
From Coq Require Import List Arith Lia.
From Verif Require Import MMem SpecMem PMem.
Import ListNotations.

(** ** Automatic variables and get_str *)
Theorem C46_flavor : forall (avail : nat -> bool) (k : nat) (h : heap), fresh h -> balanced (flavor_mem avail k []) h.
Proof. exact (fun avail k h F => keeps_balanced _ _ (flavor_keeps avail k [] h F (Forall_nil _))). Qed.
Print Assumptions C46_flavor.
Theorem C46_two_sum : forall (avail : nat -> bool) (h : heap), fresh h -> balanced (two_sum_mem avail) h.
Proof. exact (fun avail h F => keeps_balanced _ _ (two_sum_keeps avail h F)). Qed.
Print Assumptions C46_two_sum.
Theorem C46_get_str : forall (avail : nat -> bool) (vars : nat) (copied : bool) (var : nat) (h : heap),
  fresh h -> cont h var = Some Limb -> balanced (get_str_mem avail vars copied var) h.
Proof. exact (fun avail vars copied var h F V => keeps_balanced _ _ (get_str_keeps avail vars copied var h F V)). Qed.
Print Assumptions C46_get_str.
(** A copy of a variable is cleared twice: the class can be copied, but must not. *)
Theorem C46_copy_refuted : forall (avail : nat -> bool) (h : heap), avail (brk h) = true -> fst (copy_mem avail h) = Undef.
Proof. exact copy_undef. Qed.
Print Assumptions C46_copy_refuted.

(** ** Reductions of [n] elements *)
(** Nothing is used after it was released or released twice. *)
Theorem C46_reduction_defined : forall (avail : nat -> bool) (two : bool) (n : nat) (h : heap), fresh h ->
  fst (reduction_mem avail two n h) <> Undef.
Proof. exact (fun avail two n h F => wp_safe _ _ _ (reduction_leaks avail two n h F)). Qed.
Print Assumptions C46_reduction_defined.
(** On return all digits and the array are released; what is left are [n] mpfr_t objects
    without digits.  Missing for the claim: that they are released. *)
Theorem C46_reduction_partial : forall (avail : nat -> bool) (two : bool) (n : nat) (h h' : heap), fresh h ->
  reduction_mem avail two n h = (Done tt, h') ->
  exists ps, length ps = n /\ NoDup ps /\ (forall a, left_over h h' a <-> In a ps) /\
    (forall a, In a ps -> cont h' a = Some (Obj None)) /\ (forall a, ~ In a ps -> cont h' a = cont h a).
Proof.
exact (fun avail two n h h' F E => leaks_spec h h' n (proj2 (wp_done _ _ _ _ _ (reduction_leaks avail two n h F) E))).
Qed.
Print Assumptions C46_reduction_partial.
(** Every reduction of at least one element leaves memory behind. *)
Theorem C46_reduction_refuted : forall (two : bool) (n : nat) (h : heap), 0 < n -> fresh h ->
  fst (reduction_mem (fun _ => true) two n h) = Done tt /\ ~ same_blocks h (snd (reduction_mem (fun _ => true) two n h)).
Proof. exact reduction_unbalanced. Qed.
Print Assumptions C46_reduction_refuted.
(** It adds up over the calls of a program. *)
Theorem C46_reductions_accumulate : forall (avail : nat -> bool) (two : bool) (ns : list nat) (h h' : heap), fresh h ->
  calls avail two ns h = (Done tt, h') ->
  exists ps, length ps = fold_right Nat.add 0 ns /\ NoDup ps /\ (forall a, left_over h h' a <-> In a ps) /\
    (forall a, In a ps -> cont h' a = Some (Obj None)) /\ (forall a, ~ In a ps -> cont h' a = cont h a).
Proof.
exact (fun avail two ns h h' F E => leaks_spec h h' _ (proj2 (wp_done _ _ _ _ _ (calls_leak avail two ns h F) E))).
Qed.
Print Assumptions C46_reductions_accumulate.
(** An exception during the construction leaves the array and digits too: the destructor
    is not run. *)
Theorem C46_reduction_throw_refuted : exists (avail : nat -> bool) (h : heap) (t l : nat), fresh h /\
  let r := reduction_mem avail false 2 h in
  fst r = Thrown /\ left_over h (snd r) t /\ cont (snd r) t = Some (Tab [Some 1; None]) /\
  left_over h (snd r) l /\ cont (snd r) l = Some Limb.
Proof. exists (fun n => negb (n =? 4)), (Heap 0 (fun _ => None)), 0, 2. vm_compute. repeat split; discriminate. Qed.
Print Assumptions C46_reduction_throw_refuted.
(** If there is no memory for the array nothing is left. *)
Theorem C46_reduction_no_array : forall (avail : nat -> bool) (two : bool) (n : nat) (h : heap), avail (brk h) = false ->
  fst (reduction_mem avail two n h) = Thrown /\ same_blocks h (snd (reduction_mem avail two n h)).
Proof. exact no_array. Qed.
Print Assumptions C46_reduction_no_array.

(** ** Examples *)
Definition h0 : heap := Heap 1 (fun a => if a =? 0 then Some Limb else None).
Example C46_ex : fresh h0 /\ cont h0 0 = Some Limb
  /\ fst (get_str_mem (fun _ => true) 2 true 0 h0) = Done tt
  /\ fst (get_str_mem (fun _ => true) 2 false 0 h0) = Thrown
  /\ fst (get_str_mem (fun n => n <? 2) 2 true 0 h0) = Abort
  /\ fst (two_sum_mem (fun _ => true) h0) = Done tt
  /\ fst (reduction_mem (fun _ => true) true 3 h0) = Done tt
  /\ map (cont (snd (reduction_mem (fun _ => true) true 2 h0))) (seq 0 12) =
     [Some Limb; None; Some (Obj None); None; None; None; Some (Obj None); None; None; None; None; None]
  /\ fst (calls (fun _ => true) false [1; 0; 2] h0) = Done tt.
Proof.
split. { intros [|a] H; [cbn in H; lia|easy]. }
vm_compute. repeat split.
Qed.
