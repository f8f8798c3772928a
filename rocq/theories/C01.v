(** * C01: validity of representations *)
From Coq Require Import ZArith NArith Reals Bool Lra.
From Flocq Require Import Core.Core IEEE754.BinarySingleNaN.
From Verif Require Import Fmt Spec Exc Deco SpecApi MBase PBase.

Theorem C01_is_valid_iff : forall (F : fmt) (x : itv F) (s : est),
  is_valid x s = (Ret true, s) <-> wf x.
Proof. exact @is_valid_iff. Qed.
Print Assumptions C01_is_valid_iff.

Theorem C01_is_valid_reports : forall (F : fmt) (x : itv F),
  ~ wf x -> reports_invalid (is_valid x) false.
Proof. exact @is_valid_reports. Qed.
Print Assumptions C01_is_valid_reports.

Theorem C01_is_valid_dec_iff : forall (F : fmt) (x : ditv F) (s : est),
  is_valid_dec x s = (Ret true, s) <-> wf_dec x.
Proof. exact @is_valid_dec_iff. Qed.
Print Assumptions C01_is_valid_dec_iff.

Theorem C01_is_valid_dec_reports : forall (F : fmt) (x : ditv F),
  ~ wf_dec x -> reports_invalid (is_valid_dec x) false.
Proof. exact @is_valid_dec_reports. Qed.
Print Assumptions C01_is_valid_dec_reports.

(** The half-bounded interval [1, +oo) is well formed, [+oo,+oo] is not. *)
Example C01_ex_wf : wf ((f1, finf) : itv binary64).
Proof. right. exists 2%R. split; simpl; [|reflexivity]. unfold Defs.F2R; simpl. lra. Qed.
Example C01_ex_not_wf : ~ wf ((finf, finf) : itv binary64).
Proof. intros [H|[r [H _]]]; discriminate H. Qed.
Example C01_ex_com_unbounded : ~ wf_dec (((f1, finf), com) : ditv binary64).
Proof. intros [[H _]|[_ [_ H]]]; [discriminate H|]. destruct (H eq_refl) as [_ H1]. discriminate H1. Qed.
