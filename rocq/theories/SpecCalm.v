(** * Specification: programs without exceptions

    The functions [un0], [bin0], [dun0], [dbin0] (MProg) and those of three operands on valid
    operands return: no exception, no flag, no undefined behaviour.  The reverse powers recurse
    (they come with a bound on the depth), and the reverse sine, cosine and tangent count
    branches in a [long]; they are left out here, as are the cancellative operations. *)
From Verif Require Import Fmt Spec Exc Deco MBase SpecApi MProg MClass SpecClass.
(** ** Programs of such functions *)
Inductive quiet1 : forall a b : ty, (vl a -> M (vl b)) -> Prop :=
| q_un F T f : un0 F T f -> quiet1 (Bare F) (Bare T) f
| q_dun F T f : dun0 F T f -> quiet1 (Deco F) (Deco T) f
| q_new F : quiet1 (Bare F) (Deco F) (@new_dec F)
| q_new_mixed T F : quiet1 (Bare F) (Deco T) (@new_dec_mixed F T).
Inductive quiet2 : forall a b c : ty, (vl a -> vl b -> M (vl c)) -> Prop :=
| q_bin F G T f : bin0 F G T f -> quiet2 (Bare F) (Bare G) (Bare T) f
| q_dbin F G T f : dbin0 F G T f -> quiet2 (Deco F) (Deco G) (Deco T) f
| q_first F G T f : two F G T f -> quiet2 (Bare F) (Bare G) (Bare T) (fun x y => bind (f x y) (fun z => ret (fst z)))
| q_second F G T f : two F G T f -> quiet2 (Bare F) (Bare G) (Bare T) (fun x y => bind (f x y) (fun z => ret (snd z)))
| q_dfirst F G T f : dtwo F G T f -> quiet2 (Deco F) (Deco G) (Deco T) (fun x y => bind (f x y) (fun z => ret (fst z)))
| q_dsecond F G T f : dtwo F G T f -> quiet2 (Deco F) (Deco G) (Deco T) (fun x y => bind (f x y) (fun z => ret (snd z))).
(** All functions of an expression are quiet, and its constants exist (bounds in order, text
    readable); no cancellative operations. *)
Fixpoint quiet {vt t} (e : term vt t) : Prop :=
  match e with
  | Obj _ => True
  | Src c _ _ => exists v, returns c v
  | @Ap1 _ a b f _ x _ => quiet1 a b f /\ quiet x
  | @Ap2 _ a b c f _ x y _ => quiet2 a b c f /\ quiet x /\ quiet y
  | Ap3 _ _ x y z _ => quiet x /\ quiet y /\ quiet z
  | Canc _ _ _ _ _ => False
  end.
(** Statements that neither read input, nor touch the flags, nor throw themselves; their tests
    return for valid objects. *)
Fixpoint quiet_cmd {vt} (c : cmd vt) : Prop :=
  match c with
  | Skip => True
  | Assign _ e => quiet e
  | Seq c d => quiet_cmd c /\ quiet_cmd d
  | If q c d => (forall st, good_store st -> exists b, returns (q st) b) /\ quiet_cmd c /\ quiet_cmd d
  | While q c => (forall st, good_store st -> exists b, returns (q st) b) /\ quiet_cmd c
  | Try c _ => quiet_cmd c
  | _ => False
  end.
(** Without loops. *)
Fixpoint straight {vt} (c : cmd vt) : Prop :=
  match c with
  | Seq c d | If _ c d => straight c /\ straight d
  | While _ _ => False
  | Try c _ => straight c
  | _ => True
  end.
