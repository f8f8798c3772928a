(** * Specification: what programs may rely on for their objects *)
From Coq Require Import NArith Reals Bool.
From Verif Require Import Fmt Spec Exc Deco SpecApi SpecDeco SpecProg SpecBlind MClass.

(** A valid object. *)
Definition good_obj (t : ty) : vl t -> Prop := match t with Bare F => @wf F | Deco F => @valid_dec F end.
Definition good_store {vt} (st : store vt) : Prop := forall i, good_obj (vt i) (st i).
(** The number format and the interval of an object. *)
Definition fmt_of (t : ty) : fmt := match t with Bare F => F | Deco F => F end.
Definition itv_of (t : ty) : vl t -> itv (fmt_of t) := match t with Bare F => fun v => v | Deco F => fun v => fst v end.

Section Terms.
Context {vt : nat -> ty}.
(** No cancellative operation of the expression gets operands for which its test of the widths is
    not exact ([clear], SpecBlind.v), whatever the exception flags. *)
Fixpoint careful (st : store vt) (t : ty) (e : term vt t) : Prop :=
  match e with
  | Obj _ => True
  | Src _ _ _ => True
  | Ap1 _ _ x _ => careful st _ x
  | Ap2 _ _ x y _ => careful st _ x /\ careful st _ y
  | Ap3 _ _ x y z _ => careful st _ x /\ careful st _ y /\ careful st _ z
  | @Canc _ a b c f _ x y _ => careful st _ x /\ careful st _ y /\
      forall s v s1 w s2, ev st x s = (Ret v, s1) -> ev st y s1 = (Ret w, s2) ->
        clear (fmt_of c) (fmt_of a) (fmt_of b) (itv_of a v) (itv_of b w)
  end.
(** No cancellative operation at all. *)
Fixpoint no_cancel {t} (e : term vt t) : Prop :=
  match e with
  | Obj _ => True
  | Src _ _ _ => True
  | Ap1 _ _ x _ => no_cancel x
  | Ap2 _ _ x y _ => no_cancel x /\ no_cancel y
  | Ap3 _ _ x y z _ => no_cancel x /\ no_cancel y /\ no_cancel z
  | Canc _ _ _ _ _ => False
  end.
(** No restriction. *)
Definition anyhow (st : store vt) (t : ty) (e : term vt t) : Prop := True.

(** The objects after a statement, if it ended normally or by an exception. *)
Definition after (r : ending vt) (P : store vt -> Prop) : Prop :=
  match r with Normal s => P (objs s) | Raised _ s => P (objs s) | Undefined => True end.
(** The object [i] is the target of some statement of [c]. *)
Fixpoint target (i : nat) (c : cmd vt) : Prop :=
  match c with
  | Assign j _ => i = j
  | Extract j => i = j
  | Seq c d => target i c \/ target i d
  | If _ c d => target i c \/ target i d
  | While _ c => target i c
  | Try c h => target i c \/ exists e, target i (h e)
  | _ => False
  end.
(** The program compiled without copies of temporaries. *)
Fixpoint elide_cmd (c : cmd vt) : cmd vt :=
  match c with
  | Assign i e => Assign i (elide e)
  | Seq c d => Seq (elide_cmd c) (elide_cmd d)
  | If q c d => If q (elide_cmd c) (elide_cmd d)
  | While q c => While q (elide_cmd c)
  | Try c h => Try (elide_cmd c) (fun e => elide_cmd (h e))
  | Skip => Skip
  | Extract i => Extract i
  | Env f => Env f
  | Raise e => Raise e
  end.
(** No input. *)
Fixpoint no_input (c : cmd vt) : Prop :=
  match c with
  | Extract _ => False
  | Seq c d => no_input c /\ no_input d
  | If _ c d => no_input c /\ no_input d
  | While _ c => no_input c
  | Try c h => no_input c /\ forall e, no_input (h e)
  | _ => True
  end.
(** No cancellative operation anywhere in the program. *)
Fixpoint no_cancel_cmd (c : cmd vt) : Prop :=
  match c with
  | Assign _ e => no_cancel e
  | Seq c d => no_cancel_cmd c /\ no_cancel_cmd d
  | If _ c d => no_cancel_cmd c /\ no_cancel_cmd d
  | While _ c => no_cancel_cmd c
  | Try c h => no_cancel_cmd c /\ forall e, no_cancel_cmd (h e)
  | _ => True
  end.
End Terms.
