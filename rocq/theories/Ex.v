(** * Helpers for the concrete examples *)
From Coq Require Import ZArith NArith Reals Bool.
From Flocq Require Import Core.Core IEEE754.BinarySingleNaN.
From Verif Require Import Fmt Spec Exc Deco SpecApi MBase PBase.

(** The number [m * 2^e] (rounded to nearest) of a format. *)
Definition fl (F : fmt) (m e : Z) : float F :=
  binary_normalize (prec F) (emax F) _ _ mode_NE m e false.

(** Forget the proofs inside floats, so that results can be compared by computation. *)
Definition sf2 {F} (x : itv F) : SpecFloat.spec_float * SpecFloat.spec_float :=
  (B2SF (fst x), B2SF (snd x)).
Definition run {F} (m : M (itv F)) : outcome (SpecFloat.spec_float * SpecFloat.spec_float) * est :=
  match m (Est 0 0) with
  | (Ret z, s) => (Ret (sf2 z), s) | (Throw e, s) => (Throw e, s) | (UB, s) => (UB, s)
  end.
Definition rund {F} (m : M (ditv F)) :
  outcome ((SpecFloat.spec_float * SpecFloat.spec_float) * deco) * est :=
  match m (Est 0 0) with
  | (Ret z, s) => (Ret (sf2 (fst z), snd z), s) | (Throw e, s) => (Throw e, s) | (UB, s) => (UB, s)
  end.
Definition okz {F} (l u : float F) :
  outcome (SpecFloat.spec_float * SpecFloat.spec_float) * est := (Ret (B2SF l, B2SF u), Est 0 0).
Definition okd {F} (l u : float F) (d : deco) :
  outcome ((SpecFloat.spec_float * SpecFloat.spec_float) * deco) * est :=
  (Ret ((B2SF l, B2SF u), d), Est 0 0).

Lemma wf_compute {F} (x : itv F) : vcond x = true -> wf x.
Proof. apply vcond_wf. Qed.
Lemma wf_dec_compute {F} (x : ditv F) : vdcond x = true -> wf_dec x.
Proof. apply vdcond_wf. Qed.
Ltac wf_tac := first [apply wf_compute | apply wf_dec_compute]; vm_compute; reflexivity.

(** Consequence of tightness used by examples over functions that do not compute. *)
Lemma ct_has {F} (m : M (itv F)) (S : R -> Prop) r : computes_tightest m S -> S r ->
  exists z, returns m z /\ mem r z.
Proof. intros (z & H1 & _ & H2 & _) H. exists z. auto. Qed.
(** [fl F m e] really is [m * 2^e] (small numbers only). *)
Lemma mem_pt {F} (l u : float F) r : is_finite l = true -> is_finite u = true ->
  (B2R l <= r <= B2R u)%R -> mem r (l, u).
Proof.
intros Fl Fu [H1 H2]. split; cbn [fst snd]; [destruct l|destruct u]; easy.
Qed.
Ltac b2r := unfold B2R, F2R; vm_compute; Lra.lra.
