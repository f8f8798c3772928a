(** * Proofs: validity, constants, monad laws *)

From Coq Require Import ZArith NArith Reals Bool Lia Lra.
From Flocq Require Import Core.Core IEEE754.BinarySingleNaN.
From Verif Require Import Fmt Spec FloatFacts Exc Deco SpecApi MBase.

Local Open Scope R_scope.

(** ** Monad laws (all hold definitionally) *)
Lemma bind_ret {A B} (a : A) (k : A -> M B) : bind (ret a) k = k a.
Proof. reflexivity. Qed.
Lemma mif_ret {A} b (t e : M A) : mif (ret b) t e = if b then t else e.
Proof. reflexivity. Qed.
Lemma mnot_ret b : mnot (ret b) = ret (negb b).
Proof. reflexivity. Qed.
Lemma mor_ret a b : mor (ret a) b = if a then ret true else b.
Proof. reflexivity. Qed.
Lemma mand_ret a b : mand (ret a) b = if a then b else ret false.
Proof. reflexivity. Qed.
Lemma ret_eq {A} (a : A) s : ret a s = (Ret a, s).
Proof. reflexivity. Qed.

Ltac mred := rewrite ?bind_ret, ?mnot_ret, ?mor_ret, ?mand_ret, ?mif_ret; cbv beta iota; cbn [negb orb andb].
Ltac mreds := repeat (progress mred).

(** ** Effect of signalling an invalid operand *)
Lemma lor_neq_0 a b : b <> 0%N -> N.eqb (N.lor a b) 0 = false.
Proof. intros H. apply N.eqb_neq. intros E. apply N.lor_eq_0_iff in E. easy. Qed.

Lemma signal_reports (b : N) (e : exn) s :
  signal b e s = ((if masked b s then Throw e else Ret (N.lor (flags s) b)), set_flag b s).
Proof. unfold signal, masked, set_flag. simpl. now destruct (negb _). Qed.

Lemma not_signal_invalid_eq : reports_invalid not_signal_invalid false.
Proof.
intros s. unfold not_signal_invalid, signal_invalid_operand, bind.
rewrite signal_reports. destruct (masked _ s); [easy|].
unfold ret. now rewrite lor_neq_0.
Qed.

Lemma reports_bind {A B} (b : N) (e : exn) (m : M A) a (k : A -> M B) a' :
  reports b e m a -> (forall s, k a (set_flag b s) = (Ret a', set_flag b s)) ->
  reports b e (bind m k) a'.
Proof.
intros H1 H2 s. unfold bind. rewrite H1. destruct (masked b s); [easy|]. apply H2.
Qed.

Lemma reports_mif {A} (b : N) (e : exn) (c : M bool) (v : bool) (t f : M A) (a : A) :
  reports b e c v -> (if v then t else f) = ret a -> reports b e (mif c t f) a.
Proof.
intros H1 H2. unfold mif. apply reports_bind with (1 := H1).
intros s. rewrite H2. easy.
Qed.
Lemma reports_mnot (b : N) (e : exn) (c : M bool) v : reports b e c v -> reports b e (mnot c) (negb v).
Proof. intros H. unfold mnot. apply reports_bind with (1 := H). easy. Qed.
Lemma reports_mor_true (b : N) (e : exn) (c d : M bool) : reports b e c true -> reports b e (mor c d) true.
Proof. intros H. unfold mor. apply reports_bind with (1 := H). easy. Qed.
Lemma reports_ext {A} (b : N) (e : exn) (m : M A) a : reports b e m a -> forall m', m' = m -> reports b e m' a.
Proof. now intros H m' ->. Qed.

Lemma reports_signal {A} (b : N) (e : exn) (a : A) : reports b e (bind (signal b e) (fun _ => ret a)) a.
Proof. intros s. unfold bind. rewrite signal_reports. now destruct (masked b s). Qed.

Section P.
Context {F : fmt}.
Implicit Types x y : itv F.

(** ** Shapes of well-formed representations *)
Inductive wview : itv F -> Prop :=
| W_empty : wview (fnan, fnan)
| W_entire : wview (fminf, finf)
| W_left u : is_finite u = true -> wview (fminf, u)
| W_right l : is_finite l = true -> wview (l, finf)
| W_bnd l u : is_finite l = true -> is_finite u = true -> B2R l <= B2R u -> wview (l, u).

Lemma wf_view x : wf x -> wview x.
Proof.
intros [->|[r [Hl Hu]]]; [constructor|].
destruct x as [l u]; simpl in *.
destruct (fviewP l) as [ | | |l Fl]; try easy;
destruct (fviewP u) as [ | | |u Fu]; try easy.
- constructor.
- now constructor.
- now constructor.
- rewrite lb_fin in Hl by easy. rewrite ub_fin in Hu by easy. constructor; try easy. lra.
Qed.

Lemma wview_wf x : wview x -> wf x.
Proof.
intros [ | |u Hu|l Hl|l u Hl Hu Hlu]; [now left| | | |]; right.
- now exists 0.
- exists (B2R u). split; simpl; [easy|]. now rewrite ub_fin; [right|].
- exists (B2R l). split; simpl; [|easy]. now rewrite lb_fin; [right|].
- exists (B2R l). split; simpl; [rewrite lb_fin by easy|rewrite ub_fin by easy]; lra.
Qed.

(** The validity condition of the code. *)
Definition vcond x := (isnan (fst x) && isnan (snd x))
     || (fle (fst x) (snd x) && fne (fst x) finf && fne (snd x) fminf).

Lemma vcond_wf x : vcond x = true <-> wf x.
Proof.
split.
- intros H. apply wview_wf. revert H. unfold vcond, fne. destruct x as [l u]; simpl.
  destruct (fviewP l) as [ | | |l Fl]; simpl; destruct (fviewP u) as [ | | |u Fu];
  rewrite ?isnan_fin, ?fle_pinf_l, ?fle_minf_r, ?fle_nan_r, ?fle_nan_l by easy; simpl; try easy; intros H;
  try now constructor.
  rewrite fle_fin in H by easy.
  constructor; try easy. revert H. case Rle_bool_spec; simpl; try easy.
- intros H. apply wf_view in H. destruct H as [ | |u Hu|l Hl|l u Hl Hu Hlu]; unfold vcond, fne; simpl; try easy.
  + now destruct u.
  + now destruct l as [|[]| |[]].
  + rewrite fle_fin by easy. rewrite Rle_bool_true by easy.
    fold (@finf F) (@fminf F).
    change (Beqb l finf) with (feq l finf). change (Beqb u fminf) with (feq u fminf).
    rewrite feq_pinf_r, feq_minf_r by easy. simpl. apply orb_true_r.
Qed.

Lemma is_valid_wf x : wf x -> is_valid x = ret true.
Proof. intros H. apply vcond_wf in H. unfold is_valid. unfold vcond in H. now rewrite H. Qed.
Lemma is_valid_not_wf x : ~ wf x -> is_valid x = not_signal_invalid.
Proof.
intros H. unfold is_valid. fold (vcond x).
destruct (vcond x) eqn:E; [|easy]. now apply vcond_wf in E.
Qed.
Lemma wf_dec_em x : wf x \/ ~ wf x.
Proof.
destruct (vcond x) eqn:E; [left; now apply vcond_wf|right].
intros H. apply vcond_wf in H. congruence.
Qed.

Lemma is_empty_wf x : wf x -> is_empty x = ret (isnan (fst x)).
Proof.
intros H. unfold is_empty. rewrite is_valid_wf by easy.
apply wf_view in H. destruct H as [ | |u Hu|l Hl|l u Hl Hu Hlu]; mreds; simpl; try easy.
- now rewrite isnan_fin.
- now rewrite (isnan_fin l).
Qed.

Lemma wf_empty : wf (@empty F). Proof. now left. Qed.
Lemma wf_entire : wf (@entire F). Proof. right. now exists 0. Qed.

Lemma mem_empty r : ~ mem r (@empty F). Proof. now intros []. Qed.
Lemma wf_nan_l x : wf x -> isnan (fst x) = true -> x = empty.
Proof.
intros H. apply wf_view in H. destruct H as [ | |u Hu|l Hl|l u Hl Hu Hlu]; simpl; try easy;
rewrite isnan_fin by easy; easy.
Qed.
Lemma wf_nonempty x : wf x -> isnan (fst x) = false -> exists r, mem r x.
Proof. now intros [->|H] E. Qed.

(** ** Decorated representations *)
Definition vdcond (x : ditv F) :=
  let l := fst (fst x) in let u := snd (fst x) in let d := snd x in
  (isnan l && isnan u && (deq d ill || deq d trv))
     || (negb (deq d ill)
         && (fle l u && fne l finf && fne u fminf
             && (negb (deq d com) || (fne l fminf && fne u finf)))).

Lemma deq_spec d e : reflect (d = e) (deq d e).
Proof. apply N.eqb_spec. Qed.

Lemma vdcond_wf (x : ditv F) : vdcond x = true <-> wf_dec x.
Proof.
destruct x as [x d].
assert (Hb : fle (fst x) (snd x) && fne (fst x) finf && fne (snd x) fminf = true <-> exists r, mem r x).
{ split.
  - intros H. assert (W : wf x) by (apply vcond_wf; unfold vcond; rewrite H; apply orb_true_r).
    destruct W as [->|W]; [|easy]. easy.
  - intros H. assert (W : vcond x = true) by (apply vcond_wf; now right).
    unfold vcond in W. apply orb_prop in W. destruct W as [W|W]; [|easy].
    apply andb_prop in W. destruct H as [r [H _]]. destruct (fst x); try easy. }
unfold vdcond, wf_dec; simpl.
assert (Hc : (exists r, mem r x) -> (fne (fst x) fminf && fne (snd x) finf = true <-> bounded_rep x)).
{ intros H. assert (W : wf x) by now right. apply wf_view in W. unfold bounded_rep.
  destruct H as [r [H1 H2]]. unfold fne.
  destruct W as [ | |u Hu|l Hl|l u Hl Hu Hlu]; simpl; split; try easy.
  - intros. apply andb_prop in H. destruct H as [_ H]; easy.
  - intros _. change (Beqb l fminf) with (feq l fminf). change (Beqb u finf) with (feq u finf).
    now rewrite feq_minf_r, feq_pinf_r. }
split.
- intros H. apply orb_prop in H. destruct H as [H|H].
  + left. apply andb_prop in H. destruct H as [H H']. apply andb_prop in H. destruct H as [H1 H2].
    split.
    * destruct x as [[] []]; easy.
    * apply orb_prop in H'. destruct H' as [H'|H']; [left|right]; now apply N.eqb_eq in H'.
  + right. apply andb_prop in H. destruct H as [H1 H2]. apply andb_prop in H2. destruct H2 as [H2 H3].
    apply Hb in H2. split; [easy|split].
    * intros ->. easy.
    * intros ->. simpl in H3. now apply Hc in H3.
- intros [[-> [->| ->]]|[H1 [H2 H3]]]; [easy|easy|].
  rewrite (proj2 Hb H1). destruct (deq_spec d ill) as [E|_]; [easy|].
  destruct (deq_spec d com) as [E|_]; simpl; [|apply orb_true_r].
  rewrite (proj2 (Hc H1) (H3 E)). apply orb_true_r.
Qed.

Lemma is_valid_dec_wf (x : ditv F) : wf_dec x -> is_valid_dec x = ret true.
Proof. intros H. apply vdcond_wf in H. unfold is_valid_dec. unfold vdcond in H. now rewrite H. Qed.
Lemma is_valid_dec_not_wf (x : ditv F) : ~ wf_dec x -> is_valid_dec x = not_signal_invalid.
Proof.
intros H. unfold is_valid_dec. fold (vdcond x).
destruct (vdcond x) eqn:E; [|easy]. now apply vdcond_wf in E.
Qed.
Lemma wf_dec_wf (x : ditv F) : wf_dec x -> wf (fst x).
Proof. intros [[H _]|[H _]]; [now left|now right]. Qed.

Lemma is_nai_wf (x : ditv F) : wf_dec x -> is_nai x = ret (deq (snd x) ill).
Proof.
intros H. unfold is_nai. rewrite is_valid_dec_wf by easy. mreds.
destruct H as [[H1 H2]|[[r H1] [H2 H3]]].
- rewrite H1. now destruct (deq _ _).
- destruct (deq_spec (snd x) ill) as [E|_]; [easy|]. now rewrite andb_false_r.
Qed.
Lemma is_empty_dec_wf (x : ditv F) : wf_dec x -> is_empty_dec x = ret (negb (deq (snd x) ill) && isnan (fst (fst x))).
Proof.
intros H. unfold is_empty_dec. rewrite is_valid_dec_wf, is_nai_wf by easy. mreds.
rewrite is_empty_wf by now apply wf_dec_wf.
destruct (deq _ _); easy.
Qed.

(** [nai] is the only valid representation decorated ill. *)
Lemma wf_dec_ill (x : ditv F) : wf_dec x -> snd x = ill -> x = nai.
Proof. destruct x as [x d]. intros [[H1 H2]|[H1 [H2 H3]]] E; simpl in *; [|easy]. now subst. Qed.
Lemma wf_dec_nai : wf_dec (@nai F). Proof. left. now split; [|left]. Qed.
Lemma wf_dec_empty : wf_dec (@empty_dec F). Proof. left. now split; [|right]. Qed.

Lemma is_entire_wf x : wf x -> is_entire x = ret (feq (fst x) fminf && feq (snd x) finf).
Proof. intros H. unfold is_entire. now rewrite is_valid_wf. Qed.

End P.

(** Rewriting under validity hypotheses. *)
Ltac vred :=
  repeat (first [ rewrite is_valid_wf by assumption
                | rewrite is_empty_wf by assumption
                | rewrite is_entire_wf by assumption
                | rewrite is_valid_dec_wf by assumption
                | rewrite is_nai_wf by assumption
                | rewrite is_empty_dec_wf by assumption
                | progress mred ]).

(** ** Validity check: full description *)
Lemma is_valid_iff {F} (x : itv F) s : is_valid x s = (Ret true, s) <-> wf x.
Proof.
split; intros H.
- destruct (wf_dec_em x) as [W|W]; [easy|].
  rewrite is_valid_not_wf in H by easy. rewrite not_signal_invalid_eq in H.
  destruct (masked _ s); discriminate.
- now rewrite is_valid_wf.
Qed.
Lemma is_valid_reports {F} (x : itv F) : ~ wf x -> reports_invalid (is_valid x) false.
Proof. intros H. rewrite is_valid_not_wf by easy. apply not_signal_invalid_eq. Qed.
Lemma is_valid_dec_iff {F} (x : ditv F) s : is_valid_dec x s = (Ret true, s) <-> wf_dec x.
Proof.
split; intros H.
- destruct (vdcond x) eqn:E; [now apply vdcond_wf|].
  unfold is_valid_dec in H. fold (vdcond x) in H. rewrite E in H. rewrite not_signal_invalid_eq in H.
  destruct (masked _ s); discriminate.
- now rewrite is_valid_dec_wf.
Qed.
Lemma is_valid_dec_reports {F} (x : ditv F) : ~ wf_dec x -> reports_invalid (is_valid_dec x) false.
Proof. intros H. rewrite is_valid_dec_not_wf by easy. apply not_signal_invalid_eq. Qed.
