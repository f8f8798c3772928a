(** * C56: results at single numbers are as sharp as the type permits

    Claimed: if the operands of a forward function are single numbers at which it is defined, the numbers
    of the resulting interval are exactly the faithful roundings of the exact value: the value itself if it
    is a number of the type, and then the result is that single number, otherwise its two neighbours, one
    unit in the last place apart (or the largest number and infinity).  For bare and decorated intervals,
    one type and mixed types.  Hence an expression all of whose intermediate values are numbers of their types
    is evaluated without any error.  (Tangent: in binary32, binary64 and binary80.) *)
From Coq Require Import ZArith NArith Reals Bool Lra Lia List.
From Flocq Require Import Core.Core IEEE754.BinarySingleNaN.
From Verif Require Import Fmt Spec FloatFacts Exc Deco SpecApi SpecDeco SpecIso SpecTan2 SpecMixed SpecExpr SpecFp SpecPoint MBase PBase PConv MArith MMixed MExpr Ex PExpr PPoint.
From Verif Require C28 C55.
Local Open Scope R_scope.

(** ** Single functions *)
Theorem C56_un : forall (F : fmt) u (x : itv F) t, is_point t x -> un_dom u t -> (u = u_tan -> three F) ->
  exists z, returns (un_bare u x) z /\ sharp (un_val u t) z.
Proof. exact @pt_un. Qed.
Print Assumptions C56_un.
Theorem C56_un_mixed : forall (T F : fmt) u (x : itv F) t, comparable T F -> is_point t x -> un_dom u t -> (u = u_tan -> three (pmax T F)) ->
  exists z, returns (un_bare_mixed T u x) z /\ sharp (un_val u t) z.
Proof. exact @pt_un_mixed. Qed.
Print Assumptions C56_un_mixed.
Theorem C56_bin : forall (F : fmt) b (x y : itv F) t s, is_point t x -> is_point s y -> bin_dom b t s ->
  exists z, returns (bin_bare b x y) z /\ sharp (bin_val b t s) z.
Proof. exact @pt_bin. Qed.
Print Assumptions C56_bin.
Theorem C56_bin_mixed : forall (T F G : fmt) b (x : itv F) (y : itv G) t s, comparable T F -> comparable T G -> comparable F G ->
  is_point t x -> is_point s y -> bin_dom b t s ->
  exists z, returns (bin_bare_mixed T b x y) z /\ sharp (bin_val b t s) z.
Proof. exact @pt_bin_mixed. Qed.
Print Assumptions C56_bin_mixed.
Theorem C56_fma : forall (F : fmt) (x y w : itv F) t s q, is_point t x -> is_point s y -> is_point q w ->
  exists z, returns (fma x y w) z /\ sharp (t * s + q) z.
Proof. exact @pt_fma. Qed.
Print Assumptions C56_fma.
Theorem C56_fma_mixed : forall (T F G H : fmt) (x : itv F) (y : itv G) (w : itv H) t s q,
  comparable T F -> comparable T G -> comparable F G -> comparable T H -> comparable F H -> comparable G H ->
  is_point t x -> is_point s y -> is_point q w ->
  exists z, returns (fma_mixed T x y w) z /\ sharp (t * s + q) z.
Proof. exact @pt_fma_mixed. Qed.
Print Assumptions C56_fma_mixed.

(** ** Decorated *)
Theorem C56_un_dec : forall (F : fmt) u (x : ditv F) t, proper x -> is_point t (fst x) -> un_dom u t -> (u = u_tan -> three F) ->
  exists z, returns (un_decd u x) z /\ sharp (un_val u t) (fst z).
Proof. exact @dpt_un. Qed.
Print Assumptions C56_un_dec.
Theorem C56_un_dec_mixed : forall (T F : fmt) u (x : ditv F) t, comparable T F -> proper x -> is_point t (fst x) -> un_dom u t ->
  (u = u_tan -> three (pmax T F)) -> exists z, returns (un_decd_mixed T u x) z /\ sharp (un_val u t) (fst z).
Proof. exact @dpt_un_mixed. Qed.
Print Assumptions C56_un_dec_mixed.
Theorem C56_bin_dec : forall (F : fmt) b (x y : ditv F) t s, proper x -> proper y -> is_point t (fst x) -> is_point s (fst y) -> bin_dom b t s ->
  exists z, returns (bin_decd b x y) z /\ sharp (bin_val b t s) (fst z).
Proof. exact @dpt_bin. Qed.
Print Assumptions C56_bin_dec.
Theorem C56_bin_dec_mixed : forall (T F G : fmt) b (x : ditv F) (y : ditv G) t s, comparable T F -> comparable T G -> comparable F G ->
  proper x -> proper y -> is_point t (fst x) -> is_point s (fst y) -> bin_dom b t s ->
  exists z, returns (bin_decd_mixed T b x y) z /\ sharp (bin_val b t s) (fst z).
Proof. exact @dpt_bin_mixed. Qed.
Print Assumptions C56_bin_dec_mixed.

(** ** Exact expressions *)
Theorem C56_exact : forall (vf : nat -> fmt) (X : ienv vf) p (F : fmt) (e : expr vf F), (forall i, occurs i e = true -> is_point (p i) (X i)) -> typed e ->
  tan_types three e -> exact_at p e -> exists z, returns (beval X e) z /\ is_point (val p e) z.
Proof. exact (fun vf X p F e => exact_expr X p e). Qed.
Print Assumptions C56_exact.
Theorem C56_exact_dec : forall (vf : nat -> fmt) (I : denv vf) p (F : fmt) (e : expr vf F),
  (forall i, occurs i e = true -> proper (I i) /\ is_point (p i) (fst (I i))) -> typed e ->
  tan_types three e -> exact_at p e -> exists z, returns (deval I e) z /\ is_point (val p e) (fst z).
Proof. exact (fun vf I p F e => exact_expr_dec I p e). Qed.
Print Assumptions C56_exact_dec.

(** ** Examples *)
Notation b n e := (fl binary64 n e).
Definition ex_pt (n e : Z) : itv binary64 := (b n e, b n e).
(** 1/3 is not a number: the neighbours in binary64, and in binary32 by the mixed-type function; 1/4 is one. *)
Example C56_ex : is_point 3 (ex_pt 3 0) /\ un_dom u_recip 3 /\ comparable binary32 binary64 /\
  run (recip (ex_pt 3 0)) = okz (b 6004799503160661 (-54)) (b 6004799503160662 (-54)) /\
  run (un_bare_mixed binary32 u_recip (ex_pt 3 0)) = okz (fl binary32 11184810 (-25)) (fl binary32 11184811 (-25)) /\
  run (recip (ex_pt 4 0)) = okz (b 1 (-2)) (b 1 (-2)).
Proof.
assert (B3 : B2R (b 3 0) = 3) by b2r. split; [now repeat split|]. split; [cbn; lra|]. split; [apply C28.C28_formats; simpl; auto|].
split; [vm_compute; reflexivity|]. split; vm_compute; reflexivity.
Qed.
(** x * x - 1/2 at x = 3/2 is exact, 7/4. *)
Definition ex_e : expr (fun _ => binary64) binary64 := Bin b_sub (Bin b_mul (@Var (fun _ => binary64) 0) (@Var (fun _ => binary64) 0)) (@Var (fun _ => binary64) 1).
Definition ex_r (i : nat) : R := match i with O => 3 / 2 | _ => 1 / 2 end.
Definition ex_X (i : nat) : itv binary64 := match i with O => ex_pt 3 (-1) | _ => ex_pt 1 (-1) end.
Example C56_ex_exact : (forall i, occurs i ex_e = true -> is_point (ex_r i) (ex_X i)) /\ typed ex_e /\ tan_types three ex_e /\ exact_at ex_r ex_e.
Proof.
assert (B1 : B2R (b 3 (-1)) = 3 / 2) by b2r. assert (B2 : B2R (b 1 (-1)) = 1 / 2) by b2r. assert (B3 : B2R (b 9 (-2)) = 9 / 4) by b2r. assert (B4 : B2R (b 7 (-2)) = 7 / 4) by b2r.
split; [intros i _; destruct i; now repeat split|]. split; [cbn; tauto|]. split; [cbn; tauto|]. cbn. split; [split; [easy|split; [easy|split; [easy|]]]|split; [easy|split; [easy|]]].
- exists (b 9 (-2)). split; [easy|]. rewrite B3. cbn. lra.
- exists (b 7 (-2)). split; [easy|]. rewrite B4. cbn. lra.
Qed.
