(** * C54: decorations are the strongest possible, and refining operands never weakens them

    Beside C16 and C28 (every decoration is true): it is the greatest true one that the decorations
    of the operands allow, and so smaller operands with better decorations give better results. *)
From Coq Require Import ZArith NArith Reals Bool List Lra Lia PeanoNat.
From Flocq Require Import Core.Core IEEE754.BinarySingleNaN.
From Verif Require Import Fmt Spec FloatFacts Exc Deco SpecApi SpecElem SpecAtan2 SpecDeco SpecMixed SpecTan SpecTan2 SpecIso SpecProg SpecExpr SpecStrong
  MBase PBase PConv MArith MElem MPow MTrig MAtan2 MDec MMixed MExpr PTanW PStrong PStrong2 PStrong3 PStrong4 Ex.
From Verif Require C12 C28.
Local Open Scope R_scope.

(** ** Every forward function of one operand, of two operands, and fma.  The tangent: in binary32, binary64, binary80. *)
Theorem C54_unary : forall (F : fmt) (u : un), (u = u_tan -> F = binary32 \/ F = binary64 \/ F = binary80) ->
  strongest1 (@un_decd F u) (un_dom u) (un_val u).
Proof. exact un_strong. Qed.
Print Assumptions C54_unary.
Theorem C54_binary : forall (F : fmt) (b : bin), strongest2 (@bin_decd F b) (bin_dom b) (bin_val b).
Proof. exact bin_strong. Qed.
Print Assumptions C54_binary.
Theorem C54_fma : forall F : fmt, strongest3 (@fma_dec F) (fun r s t => r * s + t).
Proof. exact @fma_strong. Qed.
Print Assumptions C54_fma.
(** With result type [T]. *)
Theorem C54_unary_mixed : forall (T F : fmt) (u : un), comparable T F ->
  (u = u_tan -> pmax T F = binary32 \/ pmax T F = binary64 \/ pmax T F = binary80) ->
  strongest1 (@un_decd_mixed T F u) (un_dom u) (un_val u).
Proof. exact un_strong_mixed. Qed.
Print Assumptions C54_unary_mixed.
Theorem C54_binary_mixed : forall (T F G : fmt) (b : bin), comparable T F -> comparable T G -> comparable F G ->
  strongest2 (@bin_decd_mixed T F G b) (bin_dom b) (bin_val b).
Proof. exact bin_strong_mixed. Qed.
Print Assumptions C54_binary_mixed.
Theorem C54_fma_mixed : forall T F G H : fmt, comparable T F -> comparable T G -> comparable F G ->
  comparable T H -> comparable F H -> comparable G H ->
  strongest3 (@fma_dec_mixed T F G H) (fun r s t => r * s + t).
Proof. exact fma_strong_mixed. Qed.
Print Assumptions C54_fma_mixed.

(** ** Better operands give better results *)
Theorem C54_better_unary : forall (F : fmt) (u : un) (x x' : ditv F), proper x -> proper x' ->
  (u = u_tan -> (F = binary32 \/ F = binary64 \/ F = binary80) /\ ~ pole_hidden F (fst x')) -> better x x' ->
  exists z z', returns (un_decd u x) z /\ returns (un_decd u x') z' /\ proper z /\ proper z' /\ better z z'.
Proof. exact (fun F u x x' => un_better u x x'). Qed.
Print Assumptions C54_better_unary.
Theorem C54_better_binary : forall (F : fmt) (b : bin) (x x' y y' : ditv F), proper x -> proper x' -> better x x' ->
  proper y -> proper y' -> better y y' ->
  exists z z', returns (bin_decd b x y) z /\ returns (bin_decd b x' y') z' /\ proper z /\ proper z' /\ better z z'.
Proof. exact (fun F b x x' y y' => bin_better b x x' y y'). Qed.
Print Assumptions C54_better_binary.
Theorem C54_better_fma : forall (F : fmt) (x x' y y' w w' : ditv F), proper x -> proper x' -> better x x' ->
  proper y -> proper y' -> better y y' -> proper w -> proper w' -> better w w' ->
  exists z z', returns (fma_dec x y w) z /\ returns (fma_dec x' y' w') z' /\ proper z /\ proper z' /\ better z z'.
Proof. exact (fun F x x' y y' w w' => fma_better x x' y y' w w'). Qed.
Print Assumptions C54_better_fma.
Theorem C54_better_unary_mixed : forall (T F : fmt) (u : un) (x x' : ditv F), comparable T F -> proper x -> proper x' ->
  (u = u_tan -> (pmax T F = binary32 \/ pmax T F = binary64 \/ pmax T F = binary80) /\ ~ pole_hidden (pmax T F) (fst x')) -> better x x' ->
  exists z z', returns (un_decd_mixed T u x) z /\ returns (un_decd_mixed T u x') z' /\ proper z /\ proper z' /\ better z z'.
Proof. exact (fun T F u x x' => un_better_mixed T u x x'). Qed.
Print Assumptions C54_better_unary_mixed.
Theorem C54_better_binary_mixed : forall (T F G : fmt) (b : bin) (x x' : ditv F) (y y' : ditv G),
  comparable T F -> comparable T G -> comparable F G ->
  proper x -> proper x' -> better x x' -> proper y -> proper y' -> better y y' ->
  exists z z', returns (bin_decd_mixed T b x y) z /\ returns (bin_decd_mixed T b x' y') z' /\ proper z /\ proper z' /\ better z z'.
Proof. exact (fun T F G b x x' y y' => bin_better_mixed T b x x' y y'). Qed.
Print Assumptions C54_better_binary_mixed.
Theorem C54_better_fma_mixed : forall (T F G H : fmt) (x x' : ditv F) (y y' : ditv G) (w w' : ditv H),
  comparable T F -> comparable T G -> comparable F G -> comparable T H -> comparable F H -> comparable G H ->
  proper x -> proper x' -> better x x' -> proper y -> proper y' -> better y y' -> proper w -> proper w' -> better w w' ->
  exists z z', returns (fma_dec_mixed T x y w) z /\ returns (fma_dec_mixed T x' y' w') z' /\ proper z /\ proper z' /\ better z z'.
Proof. exact (fun T F G H x x' y y' w w' => fma_better_mixed T x x' y y' w w'). Qed.
Print Assumptions C54_better_fma_mixed.

(** ** Expressions *)
Theorem C54_expressions : forall (vf : nat -> fmt) (I I' : denv vf) (F : fmt) (e : expr vf F),
  (forall i, occurs i e = true -> proper (I i) /\ proper (I' i) /\ better (I i) (I' i)) ->
  typed e -> tan_types (fun G => G = binary32 \/ G = binary64 \/ G = binary80) e ->
  tan_fine (fun F a z => returns (beval (parts I') a) z) e ->
  exists z z', returns (deval I e) z /\ returns (deval I' e) z' /\ proper z /\ proper z' /\ better z z'.
Proof. exact (fun vf I I' F e => expr_better I I' e). Qed.
Print Assumptions C54_expressions.
(** Evaluating over a smaller nonempty box, decorated by [new_dec], encloses less and promises more. *)
Theorem C54_refine : forall (vf : nat -> fmt) (X X' : ienv vf) (I I' : denv vf) (F : fmt) (e : expr vf F),
  (forall i, occurs i e = true -> wf (X' i) /\ (exists r, mem r (X i)) /\ included (X i) (X' i) /\
     returns (new_dec (X i)) (I i) /\ returns (new_dec (X' i)) (I' i)) ->
  typed e -> tan_types (fun G => G = binary32 \/ G = binary64 \/ G = binary80) e ->
  tan_fine (fun F a z => returns (beval (parts I') a) z) e ->
  exists z z', returns (deval I e) z /\ returns (deval I' e) z' /\ included (fst z) (fst z') /\ (snd z' <= snd z)%N.
Proof. exact (fun vf X X' I I' F e => expr_refine X X' I I' e). Qed.
Print Assumptions C54_refine.

(** ** Examples *)
Notation b n e := (fl binary64 n e).
(** floor: [2.5,2.75] com, [2,2.5] dac, [1.5,2.5] def; sqrt: [1,2] com, [-1,2] trv; 1/x over [0,1] trv, over [1,2] com. *)
Example C54_ex_run :
  rund (floor_dec ((b 5 (-1), b 11 (-2)), com)) = okd (b 2 0) (b 2 0) com
  /\ rund (floor_dec ((b 2 0, b 5 (-1)), com)) = okd (b 2 0) (b 2 0) dac
  /\ rund (floor_dec ((b 3 (-1), b 5 (-1)), com)) = okd (b 1 0) (b 2 0) def
  /\ rund (recip_dec ((b 1 0, b 2 0), com)) = okd (b 1 (-1)) (b 1 0) com
  /\ rund (recip_dec ((b 0 0, b 2 0), com)) = okd (b 1 (-1)) finf trv.
Proof. repeat apply conj; vm_compute; reflexivity. Qed.
(** [2.5,2.75] com is better than [2,3] dac. *)
Example C54_ex_better : let x := ((b 5 (-1), b 11 (-2)), com) in let x' := ((b 2 0, b 3 0), dac) in
  proper x /\ proper x' /\ better x x' /\ ~ better x' x.
Proof.
intros x x'. assert (B1 : B2R (b 5 (-1)) = 5 / 2) by b2r. assert (B2 : B2R (b 11 (-2)) = 11 / 4) by b2r.
assert (B3 : B2R (b 2 0) = 2) by b2r. assert (B4 : B2R (b 3 0) = 3) by b2r.
split; [split; [wf_tac|split; [unfold is_deco; simpl; tauto|easy]]|]. split; [split; [wf_tac|split; [unfold is_deco; simpl; tauto|easy]]|].
split.
- split; [|split; [unfold x, x', com, dac; simpl; lia|]].
  + intros r [H1 H2]. unfold x, x' in *. cbn [fst snd] in *. rewrite lb_fin in H1 by reflexivity. rewrite ub_fin in H2 by reflexivity.
    apply mem_pt; [reflexivity..|]. lra.
  + intros E. exfalso. apply (E (5 / 2)). apply mem_pt; [reflexivity..|]. unfold x; cbn [fst snd]. lra.
- intros (_ & H & _). unfold x, x', com, dac in H; simpl in H. lia.
Qed.
(** An expression: 1 / x - x over [1,2], inside [-1,2]. *)
Definition ex_e : expr (fun _ => binary64) binary64 := Bin b_sub (Un u_recip (@Var (fun _ => binary64) 0)) (@Var (fun _ => binary64) 0).
Definition ex_X (l : Z) : ienv (fun _ => binary64) := fun _ => (b l 0, b 2 0).
Definition ex_I (l : Z) : denv (fun _ => binary64) := fun i => (ex_X l i, com).
Example C54_ex_expr :
  (forall i, occurs i ex_e = true -> wf (ex_X (-1) i) /\ (exists r, mem r (ex_X 1 i)) /\ included (ex_X 1 i) (ex_X (-1) i) /\
     returns (new_dec (ex_X 1 i)) (ex_I 1 i) /\ returns (new_dec (ex_X (-1) i)) (ex_I (-1) i)) /\
  typed ex_e /\ tan_types (fun G => G = binary32 \/ G = binary64 \/ G = binary80) ex_e /\ no_tan ex_e /\
  rund (deval (ex_I 1) ex_e) = okd (b (-3) (-1)) (b 0 0) com /\ rund (deval (ex_I (-1)) ex_e) = okd (@fminf binary64) finf trv.
Proof.
assert (B1 : B2R (b 1 0) = 1) by b2r. assert (B2 : B2R (b 2 0) = 2) by b2r. assert (B3 : B2R (b (-1) 0) = -1) by b2r.
split; [|split; [easy|split; [cbn; easy|split; [cbn; easy|split; vm_compute; reflexivity]]]].
intros i _. unfold ex_I, ex_X. split; [wf_tac|]. split; [exists 1; apply mem_pt; [reflexivity..|lra]|]. split.
- intros r [H1 H2]. cbn [fst snd] in *. rewrite lb_fin in H1 by reflexivity. rewrite ub_fin in H2 by reflexivity. apply mem_pt; [reflexivity..|]. lra.
- split; intros s; reflexivity.
Qed.
