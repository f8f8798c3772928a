(** * Proofs: invalid operands are reported, NaI is absorbing *)
From Coq Require Import ZArith NArith Reals Bool FunctionalExtensionality.
From Flocq Require Import Core.Core IEEE754.BinarySingleNaN.
From Verif Require Import Fmt Spec FloatFacts Exc Deco SpecApi MBase PBase PDec.
Local Open Scope m_scope.

(** The computation that reports an invalid operand and then gives [a]. *)
Definition inv {A} (a : A) : M A := fun s =>
  ((if masked invalid_operand_bit s then Throw Invalid_operand_exception else Ret a), set_flag invalid_operand_bit s).
Lemma inv_eq {A} (m : M A) a : reports_invalid m a <-> m = inv a.
Proof.
split; [|now intros ->]. intros H. apply functional_extensionality. intros s. apply H.
Qed.
Lemma inv_reports {A} (m : M A) a : m = inv a -> reports_invalid m a.
Proof. apply inv_eq. Qed.
Lemma inv_valid {F} (x : itv F) : ~ wf x -> is_valid x = inv false.
Proof. intros H. apply inv_eq. now apply is_valid_reports. Qed.
Lemma inv_valid_dec {F} (x : ditv F) : ~ wf_dec x -> is_valid_dec x = inv false.
Proof. intros H. apply inv_eq. now apply is_valid_dec_reports. Qed.
Lemma bind_inv_ret {A B} (a : A) (k : A -> M B) b : k a = ret b -> bind (inv a) k = inv b.
Proof.
intros H. apply functional_extensionality. intros s. unfold bind, inv.
destruct (masked _ s); [easy|]. now rewrite H.
Qed.
(** Reporting twice is reporting once. *)
Lemma bind_inv_inv {A B} (a : A) (k : A -> M B) b : k a = inv b -> bind (inv a) k = inv b.
Proof.
intros H. apply functional_extensionality. intros s. unfold bind, inv.
destruct (masked invalid_operand_bit s) eqn:E; [easy|]. rewrite H. unfold inv.
replace (masked invalid_operand_bit (set_flag invalid_operand_bit s)) with false.
unfold set_flag. cbn [flags cwd]. now rewrite <- N.lor_assoc, N.lor_diag.
Qed.
Lemma mnot_inv (b : bool) : mnot (inv b) = inv (negb b).
Proof. unfold mnot. now apply bind_inv_ret. Qed.
Lemma mor_inv_true (c : M bool) : mor (inv true) c = inv true.
Proof. unfold mor. now apply bind_inv_ret. Qed.
Lemma mor_inv_inv b : mor (inv false) (inv b) = inv b.
Proof. unfold mor. now apply bind_inv_inv. Qed.
Lemma mor_inv_ret b : mor (inv false) (ret b) = inv b.
Proof. unfold mor. now apply bind_inv_ret. Qed.
Lemma mif_inv_ret {A} (b : bool) (t e : M A) a : (if b then t else e) = ret a -> mif (inv b) t e = inv a.
Proof. intros H. unfold mif. now apply bind_inv_ret. Qed.
Lemma mif_inv_inv {A} (b : bool) (t e : M A) a : (if b then t else e) = inv a -> mif (inv b) t e = inv a.
Proof. intros H. unfold mif. now apply bind_inv_inv. Qed.
Lemma mif_inv_true {A} (a : A) (e : M A) : mif (inv true) (ret a) e = inv a.
Proof. now apply mif_inv_ret. Qed.
Lemma mif_inv_false {A} (a : A) (t : M A) : mif (inv false) t (ret a) = inv a.
Proof. now apply mif_inv_ret. Qed.

Lemma nai_inv {F} (x : ditv F) : ~ wf_dec x -> is_nai x = inv false.
Proof. intros H. unfold is_nai. rewrite inv_valid_dec by easy. rewrite mnot_inv. now apply mif_inv_ret. Qed.
Lemma empty_inv {F} (x : itv F) : ~ wf x -> is_empty x = inv false.
Proof. intros H. unfold is_empty. rewrite inv_valid by easy. rewrite mnot_inv. now apply mif_inv_ret. Qed.

(** Operands that are NaI. *)
Definition is_NaI {F} (x : ditv F) : Prop := x = (empty_rep, ill).
Lemma NaI_iff {F} (x : ditv F) : wf_dec x -> (x = (empty_rep, ill) <-> snd x = ill).
Proof.
destruct x as [b d]. intros [[E _]|[_ [E _]]]; cbn [fst snd] in *; split; try congruence.
Qed.
Lemma nai_nai {F} : @is_nai F nai = ret true.
Proof. rewrite is_nai_wf; [reflexivity|]. left. now split; [|left]. Qed.
Lemma wf_nai {F} : wf_dec (@nai F).
Proof. left. now split; [|left]. Qed.
Lemma is_nai_not {F} (x : ditv F) : wf_dec x -> x <> nai -> is_nai x = ret false.
Proof.
intros W H. rewrite is_nai_wf by easy. f_equal.
destruct (deq (snd x) ill) eqn:E; [|easy]. exfalso. apply H.
apply NaI_iff; [easy|]. now apply N.eqb_eq in E.
Qed.
Lemma wf_em {F} (x : itv F) : wf x \/ ~ wf x.
Proof. destruct (wf_dec_em x); auto. Qed.
Lemma wfd_em {F} (x : ditv F) : wf_dec x \/ ~ wf_dec x.
Proof. apply Classical_Prop.classic. Qed.

Ltac ired := repeat first
  [ progress mred
  | rewrite is_valid_wf by assumption
  | rewrite inv_valid by assumption
  | rewrite is_valid_dec_wf by assumption
  | rewrite inv_valid_dec by assumption
  | rewrite nai_nai
  | rewrite mnot_inv; cbn [negb]
  | rewrite mor_inv_true
  | rewrite mif_inv_true
  | rewrite mif_inv_false ].
(** [H] says which operands may be invalid. *)
Ltac winv H := repeat match type of H with _ \/ _ => destruct H as [H|H] end.
Ltac ems := repeat match goal with
  | x : itv ?F |- _ => lazymatch goal with
      | _ : wf x |- _ => fail | _ : ~ wf x |- _ => fail
      | _ => destruct (wf_em x) end
  | x : ditv ?F |- _ => lazymatch goal with
      | _ : wf_dec x |- _ => fail | _ : ~ wf_dec x |- _ => fail
      | _ => destruct (wfd_em x) end end.
Ltac inv_op H := winv H; ems; try contradiction; apply inv_reports; ired; reflexivity.
