(** * Proofs: programs on objects *)
From Coq Require Import ZArith NArith Reals Bool List Lia PeanoNat Eqdep_dec Ascii.
From Flocq Require Import Core.Core IEEE754.BinarySingleNaN.
From Verif Require Import Fmt Spec FloatFacts Exc Deco SpecApi SpecDeco SpecRel SpecCancel SpecProg MBase PBase MBool MArith MDec MMixed MCancel MRev MTrigRev MDecoIo MStream MText MRegex MRead PConv
  PClass PDec PValid PValid2 PValid3 PValid4 PValid5 MProg SpecBlind PValid6 MClass SpecClass.
Local Open Scope m_scope.

(** ** Copies *)
Lemma copyv_good t (v : vl t) : good_obj t v -> copyv t v = ret v.
Proof.
destruct t as [F|F]; cbn [good_obj copyv].
- intros W. unfold copy. rewrite (is_valid_wf v W). now mreds.
- intros [W _]. unfold copy_dec. rewrite (is_valid_dec_wf v W). now mreds.
Qed.
Lemma copies_good t k (v : vl t) : good_obj t v -> copies k v = ret v.
Proof. intros W. induction k as [|k IH]; [reflexivity|]. cbn [copies]. rewrite (copyv_good t v W). mreds. exact IH. Qed.
Lemma dflt_good t : good_obj t (dflt t).
Proof. destruct t; cbn; [apply wf_empty|]. apply vd_empty. Qed.

(** ** Sources and operations deliver good objects *)
Lemma source_del t c : source t c -> delivers c (good_obj t).
Proof.
destruct 1; cbn [good_obj].
- apply del_ret, dflt_good.
- apply del_ret, wf_empty.
- apply del_ret, wf_entire.
- apply nums_del.
- now apply nums_mixed_del.
- apply text_itv_del.
- apply del_ret, vd_empty.
- apply del_ret, vd_entire.
- apply del_ret, vd_nai.
- apply nums_d_del.
- now apply nums_d_mixed_del.
- apply nums_dec_del.
- now apply nums_dec_mixed_del.
- apply text_ditv_del.
Qed.
Lemma op1_del a b f : op1 a b f -> forall v, good_obj a v -> delivers (f v) (good_obj b).
Proof.
destruct 1; cbn [good_obj vl]; intros v V.
- now apply (un_del F T).
- now apply (dun_del F T).
- now apply interval_part_del.
- now apply interval_part_mixed_del.
- apply new_dec_del.
- now apply new_dec_mixed_del.
- apply set_dec_del.
- apply set_dec_mixed_del.
Qed.
Lemma op2_del a b c f : op2 a b c f -> forall v w, good_obj a v -> good_obj b w -> delivers (f v w) (good_obj c).
Proof.
destruct 1; cbn [good_obj vl]; intros v w V W.
- now apply (bin_del F G T).
- now apply (dbin_del F G T).
- eapply del_bind; [exact (two_del F G T f H v w V W)|]. intros z [Hz _]. now apply del_ret.
- eapply del_bind; [exact (two_del F G T f H v w V W)|]. intros z [_ Hz]. now apply del_ret.
- eapply del_bind; [exact (dtwo_del F G T f H v w V W)|]. intros z [Hz _]. now apply del_ret.
- eapply del_bind; [exact (dtwo_del F G T f H v w V W)|]. intros z [_ Hz]. now apply del_ret.
Qed.
Lemma op3_del a b c d f : op3 a b c d f -> forall v w u, good_obj a v -> good_obj b w -> good_obj c u -> delivers (f v w u) (good_obj d).
Proof.
destruct 1; cbn [good_obj vl]; intros v w u V W U.
- now apply (tern_del F G H T).
- now apply (dtern_del F G H T).
Qed.
Lemma opc_del a b c f : opc a b c f -> forall v w, clear (fmt_of c) (fmt_of a) (fmt_of b) (itv_of a v) (itv_of b w) ->
  good_obj a v -> good_obj b w -> delivers (f v w) (good_obj c).
Proof.
destruct 1; cbn [good_obj vl fmt_of itv_of]; intros v w K V W.
- now apply (canc_clear F G T).
- now apply (dcanc_clear F G T).
Qed.

(** ** Input: an object is assigned if and only if the stream is not left in a failed state *)
Definition agrees {A} (r : option A * istream) : Prop := (exists a, fst r = Some a) <-> ok (snd r) = true.
Section Agree.
Context {F : fmt}.
Lemma agrees_some {A} (x : A) s : ok s = true -> agrees (Some x, s).
Proof. intros E. split; [now intros _|]. intros _. now exists x. Qed.
Lemma agrees_none {A} s : agrees ((None : option A), setfail s).
Proof. split; [now intros [a Ha]|]. cbn. intros H. discriminate H. Qed.
Lemma failed_agrees s : delivers (@failed F s) agrees.
Proof. apply del_ret. apply agrees_none. Qed.
Lemma with_decoration_agrees (bare : itv F) dec s : ok s = true \/ eofbit s = true -> delivers (with_decoration bare dec s) agrees.
Proof.
intros K. unfold with_decoration.
assert (P : forall b s1, (if ok s then peek_is (ceq "_"%char) s else (false, s)) = (b, s1) -> ok s1 = true \/ eofbit s1 = true).
{ intros b s1 E. destruct (ok s) eqn:Eo; [|injection E as <- <-; destruct K; [congruence|now right]].
  unfold peek_is, peek in E. destruct (good s) eqn:Eg.
  - destruct (rest s); injection E as <- <-; [now right|now left].
  - injection E as <- <-. right. cbn. unfold good in Eg. unfold ok in Eo. destruct (eofbit s); [easy|].
    cbn [orb] in Eg. rewrite Eg in Eo. discriminate Eo. }
destruct (if ok s then _ else _) as [b s1]. specialize (P b s1 eq_refl). apply del_if; intros _.
- apply del_if; intros _; [|apply failed_agrees]. destruct (read_deco _) as [[d|] s3]; [|apply failed_agrees].
  apply del_if; intros E; [|apply failed_agrees]. apply del_then. intros x. apply del_ret. apply agrees_some.
  apply andb_true_iff in E. destruct E as [E _]. apply andb_true_iff in E. easy.
- apply del_then. intros x. apply del_ret. apply agrees_some. destruct (eofbit s1) eqn:E; [reflexivity|]. destruct P; [easy|congruence].
Qed.
Lemma read_ditv_agrees s : delivers (@read_ditv F s) agrees.
Proof.
unfold read_ditv. cbv zeta. apply del_if; intros _; [|apply failed_agrees]. destruct (peek_is _ _) as [b s2].
apply del_if; intros _.
- unfold read_inf_sup. destruct (read_bracket _ _ _) as [input s3]. apply del_if; intros E; [|apply failed_agrees].
  destruct (regex_match _ _); [|apply failed_agrees]. apply del_then. intros v.
  apply del_if; intros _; [apply with_decoration_agrees; now left|apply failed_agrees].
- unfold read_uncertain. destruct (if ok s2 then _ else _) as [b3 s3]. destruct (if b3 then _ else _) as [b4 s4].
  apply del_if; intros _; [|apply failed_agrees]. destruct (read_uncertain_text s4) as [input s5].
  apply del_if; intros E; [|apply failed_agrees].
  destruct (regex_match _ _); [|apply failed_agrees]. apply del_then. intros [v|]; [|apply failed_agrees].
  apply del_if; intros _; [apply with_decoration_agrees|apply failed_agrees]. now apply orb_true_iff.
Qed.
Lemma read_itv_agrees s : delivers (@read_itv F s) agrees.
Proof.
unfold read_itv. eapply del_bind; [apply read_ditv_agrees|]. intros [[x|] s1] H; cbv beta iota.
- assert (E : ok s1 = true) by (apply H; now exists x). rewrite E. apply del_then. intros z. apply del_ret. now apply agrees_some.
- apply del_if; intros E; [apply del_undef|]. apply del_ret. split; [now intros [a Ha]|]. cbn [snd]. congruence.
Qed.
End Agree.
Lemma extract_agrees t i : delivers (extract t i) agrees.
Proof. destruct t; [apply read_itv_agrees|apply read_ditv_agrees]. Qed.
Lemma extract_good t i : delivers (extract t i) (fun r => forall a, fst r = Some a -> good_obj t a).
Proof. destruct t; [apply read_itv_del|apply read_ditv_del]. Qed.

(** ** Expressions *)
Section Terms.
Context {vt : nat -> ty}.
Implicit Types st : store vt.
Lemma del_copies t k (v : vl t) : good_obj t v -> delivers (copies k v) (good_obj t).
Proof. intros G. rewrite copies_good by easy. now apply del_ret. Qed.
Lemma bind_ext {A B} (m : M A) (k k' : A -> M B) (P : A -> Prop) s : delivers m P -> (forall a s', P a -> k a s' = k' a s') ->
  bind m k s = bind m k' s.
Proof. intros D E. unfold bind. destruct (m s) as [[a| |] s'] eqn:Em; try reflexivity. apply E. exact (D _ _ _ Em). Qed.
Lemma bind_both {A B} (m m' : M A) (k k' : A -> M B) (P : A -> Prop) s : m s = m' s -> delivers m P -> (forall a s', P a -> k a s' = k' a s') ->
  bind m k s = bind m' k' s.
Proof. intros Em D E. unfold bind. rewrite <- Em. destruct (m s) as [[a| |] s'] eqn:Es; try reflexivity. apply E. exact (D _ _ _ Es). Qed.
Lemma bind_ret_r {A} (m : M A) s : bind m (fun a => ret a) s = m s.
Proof. unfold bind, ret. now destruct (m s) as [[a| |] s']. Qed.

Lemma canc_step st {a b c} f (H : opc a b c f) (x : term vt a) (y : term vt b) :
  delivers (ev st x) (good_obj a) -> delivers (ev st y) (good_obj b) ->
  (forall s v s1 w s2, ev st x s = (Ret v, s1) -> ev st y s1 = (Ret w, s2) -> clear (fmt_of c) (fmt_of a) (fmt_of b) (itv_of a v) (itv_of b w)) ->
  delivers (v <- ev st x; w <- ev st y; f v w) (good_obj c).
Proof.
intros Gx Gy K s z s' E. unfold bind in E.
destruct (ev st x s) as [[v| |] s1] eqn:Ex; try discriminate E. destruct (ev st y s1) as [[w| |] s2] eqn:Ey; try discriminate E.
exact (opc_del a b c f H v w (K _ _ _ _ _ Ex Ey) (Gx _ _ _ Ex) (Gy _ _ _ Ey) _ _ _ E).
Qed.
Lemma canc_assoc st {a b c} f (x : term vt a) (y : term vt b) (k : vl c -> M (vl c)) s :
  (v <- ev st x; w <- ev st y; z <- f v w; k z) s = (z <- (v <- ev st x; w <- ev st y; f v w); k z) s.
Proof.
unfold bind. destruct (ev st x s) as [[v| |] s1]; try reflexivity. now destruct (ev st y s1) as [[w| |] s2].
Qed.
Lemma del_eq {A} (m m' : M A) P : (forall s, m s = m' s) -> delivers m' P -> delivers m P.
Proof. intros E D s a s' H. rewrite E in H. exact (D _ _ _ H). Qed.

Lemma ev_good st {t} (e : term vt t) : good_store st -> careful st t e -> delivers (ev st e) (good_obj t).
Proof.
intros G. induction e as [i|t c H k|a b f H x IHx k|a b c f H x IHx y IHy k|a b c d f H x IHx y IHy u IHu k|a b c f H x IHx y IHy k]; cbn [careful ev].
- intros _. apply del_ret. apply G.
- intros _. eapply del_bind; [apply (source_del t c H)|]. intros v V. now apply del_copies.
- intros Cx. eapply del_bind; [now apply IHx|]. intros v V. eapply del_bind; [now apply (op1_del a b)|]. intros z Z. now apply del_copies.
- intros [Cx Cy]. eapply del_bind; [now apply IHx|]. intros v V. eapply del_bind; [now apply IHy|]. intros w W.
  eapply del_bind; [now apply (op2_del a b c)|]. intros z Z. now apply del_copies.
- intros (Cx & Cy & Cu). eapply del_bind; [now apply IHx|]. intros v V. eapply del_bind; [now apply IHy|]. intros w W.
  eapply del_bind; [now apply IHu|]. intros r R.
  eapply del_bind; [now apply (op3_del a b c d)|]. intros z Z. now apply del_copies.
- intros (Cx & Cy & K). eapply del_eq; [apply canc_assoc|]. eapply del_bind; [now apply canc_step; [|apply IHx|apply IHy|]|].
  intros z Z. now apply del_copies.
Qed.
(** Whether temporaries are copied makes no difference. *)
Lemma ev_elide st {t} (e : term vt t) : good_store st -> careful st t e -> forall s, ev st e s = ev st (elide e) s.
Proof.
intros G. induction e as [i|t c H k|a b f H x IHx k|a b c f H x IHx y IHy k|a b c d f H x IHx y IHy u IHu k|a b c f H x IHx y IHy k]; cbn [careful ev elide].
- reflexivity.
- intros _ s. apply (bind_ext _ _ _ (good_obj t)); [now apply source_del|]. intros v s' V. now rewrite !copies_good.
- intros Cx s. apply (bind_both _ _ _ _ (good_obj a)); [now apply IHx|now apply ev_good|]. intros v s1 V.
  apply (bind_ext _ _ _ (good_obj b)); [now apply (op1_del a b)|]. intros z s' Z. now rewrite !copies_good.
- intros [Cx Cy] s. apply (bind_both _ _ _ _ (good_obj a)); [now apply IHx|now apply ev_good|]. intros v s1 V.
  apply (bind_both _ _ _ _ (good_obj b)); [now apply IHy|now apply ev_good|]. intros w s2 W.
  apply (bind_ext _ _ _ (good_obj c)); [now apply (op2_del a b c)|]. intros z s' Z. now rewrite !copies_good.
- intros (Cx & Cy & Cu) s. apply (bind_both _ _ _ _ (good_obj a)); [now apply IHx|now apply ev_good|]. intros v s1 V.
  apply (bind_both _ _ _ _ (good_obj b)); [now apply IHy|now apply ev_good|]. intros w s2 W.
  apply (bind_both _ _ _ _ (good_obj c)); [now apply IHu|now apply ev_good|]. intros r s3 R.
  apply (bind_ext _ _ _ (good_obj d)); [now apply (op3_del a b c d)|]. intros z s' Z. now rewrite !copies_good.
- intros (Cx & Cy & K) s. rewrite !canc_assoc. apply (bind_both _ _ _ _ (good_obj c)).
  + apply (bind_both _ _ _ _ (good_obj a)); [now apply IHx|now apply ev_good|]. intros v s1 V.
    apply (bind_both _ _ _ _ (good_obj b)); [now apply IHy|now apply ev_good|]. reflexivity.
  + apply canc_step; try easy; now apply ev_good.
  + intros z s' Z. now rewrite !copies_good.
Qed.
Lemma careful_elide st {t} (e : term vt t) : good_store st -> careful st t e <-> careful st t (elide e).
Proof.
intros G. induction e as [i|t c H k|a b f H x IHx k|a b c f H x IHx y IHy k|a b c d f H x IHx y IHy u IHu k|a b c f H x IHx y IHy k]; cbn [careful elide]; try tauto.
split; intros (Cx & Cy & K).
- split; [tauto|]. split; [tauto|]. intros s v s1 w s2. rewrite <- (ev_elide st x G Cx), <- (ev_elide st y G Cy). apply K.
- assert (Cx' : careful st a x) by tauto. assert (Cy' : careful st b y) by tauto. split; [easy|]. split; [easy|].
  intros s v s1 w s2. rewrite (ev_elide st x G Cx'), (ev_elide st y G Cy'). apply K.
Qed.
Lemma no_cancel_careful st {t} (e : term vt t) : no_cancel e -> careful st t e.
Proof. induction e; cbn [no_cancel careful]; tauto. Qed.

(** ** Stores *)
Lemma write_same st i v : write st i v i = v.
Proof. unfold write. destruct (Nat.eq_dec i i) as [e|n]; [|easy]. now rewrite (UIP_dec Nat.eq_dec e eq_refl). Qed.
Lemma write_other st i v j : j <> i -> write st i v j = st j.
Proof. intros N. unfold write. destruct (Nat.eq_dec i j) as [e|n]; [congruence|reflexivity]. Qed.
Lemma write_good st i v : good_store st -> good_obj (vt i) v -> good_store (write st i v).
Proof.
intros G V j. destruct (Nat.eq_dec j i) as [->|N]; [now rewrite write_same|now rewrite write_other].
Qed.

(** ** Statements *)
Lemma exec_good (c : cmd vt) s (r : ending vt) : exec careful c s r -> good_store (objs s) -> after r good_store.
Proof.
intros X. induction X; intros G; cbn [after objs] in *; auto.
- apply write_good; [easy|]. match goal with K : careful _ _ _, E : ev _ _ _ = _ |- _ => exact (ev_good _ _ G K _ _ _ E) end.
- apply write_good; [easy|]. match goal with E : extract _ _ _ = _ |- _ => exact (extract_good _ _ _ _ _ E v eq_refl) end.
Qed.
Lemma exec_frame may (c : cmd vt) s (r : ending vt) i : exec may c s r -> ~ target i c -> after r (fun st => st i = objs s i).
Proof.
intros X. induction X; intros N; cbn [after objs target] in *; auto.
- now apply write_other.
- now apply write_other.
- specialize (IHX1 ltac:(tauto)). specialize (IHX2 ltac:(tauto)). destruct r; cbn [after] in *; congruence.
- destruct b; apply IHX; tauto.
- apply IHX. tauto.
- specialize (IHX1 ltac:(tauto)). assert (N2 : ~ target i (h x)) by (intros T; apply N; right; now exists x).
  specialize (IHX2 N2). destruct r; cbn [after] in *; congruence.
Qed.

Lemma exec_elide (c : cmd vt) s r : exec careful c s r -> good_store (objs s) -> exec careful (elide_cmd c) s r.
Proof.
intros X. induction X; intros G; cbn [elide_cmd].
- constructor.
- apply x_assign; [now apply -> careful_elide|]. now rewrite <- (ev_elide _ e).
- apply x_assign_throw; [now apply -> careful_elide|]. now rewrite <- (ev_elide _ e).
- apply (x_assign_ub _ _ _ _ _ f); [now apply -> careful_elide|]. now rewrite <- (ev_elide _ e).
- now apply x_extract.
- now apply x_extract_none.
- now apply x_extract_throw.
- eapply x_extract_ub. eassumption.
- constructor.
- pose proof (exec_good _ _ _ X1 G) as G1. cbn [after] in G1. eapply x_seq; eauto.
- apply x_seq_throw; auto.
- apply x_seq_ub; auto.
- eapply x_if; [eassumption|]. specialize (IHX G). now destruct b.
- eapply x_if_throw. eassumption.
- eapply x_if_ub. eassumption.
- apply x_while. exact (IHX G).
- constructor.
- apply x_try; auto.
- pose proof (exec_good _ _ _ X1 G) as G1. cbn [after] in G1. eapply x_catch; eauto.
- apply x_try_ub; auto.
Qed.
(** Inversion without equalities between types. *)
Definition exec_inv (may : store vt -> forall t, term vt t -> Prop) (c : cmd vt) (s : state vt) (r : ending vt) : Prop :=
  match c with
  | Skip => r = Normal s
  | Assign i e => may (objs s) _ e /\
      ((exists v f, ev (objs s) e (env s) = (Ret v, f) /\ r = Normal (State (write (objs s) i v) (inp s) f)) \/
       (exists x f, ev (objs s) e (env s) = (Throw x, f) /\ r = Raised x (State (objs s) (inp s) f)) \/
       (exists f, ev (objs s) e (env s) = (UB, f) /\ r = Undefined))
  | Extract i =>
      (exists v p f, extract (vt i) (inp s) (env s) = (Ret (Some v, p), f) /\ r = Normal (State (write (objs s) i v) p f)) \/
      (exists p f, extract (vt i) (inp s) (env s) = (Ret (None, p), f) /\ r = Normal (State (objs s) p f)) \/
      (exists x f p, extract (vt i) (inp s) (env s) = (Throw x, f) /\ r = Raised x (State (objs s) p f)) \/
      (exists f, extract (vt i) (inp s) (env s) = (UB, f) /\ r = Undefined)
  | Env g => r = Normal (State (objs s) (inp s) (g (env s)))
  | Seq c d => (exists s1, exec may c s (Normal s1) /\ exec may d s1 r) \/ (exists x s1, exec may c s (Raised x s1) /\ r = Raised x s1) \/
      (exec may c s Undefined /\ r = Undefined)
  | If q c d => (exists b f, q (objs s) (env s) = (Ret b, f) /\ exec may (if b : bool then c else d) (State (objs s) (inp s) f) r) \/
      (exists x f, q (objs s) (env s) = (Throw x, f) /\ r = Raised x (State (objs s) (inp s) f)) \/
      (exists f, q (objs s) (env s) = (UB, f) /\ r = Undefined)
  | While q c => exec may (If q (Seq c (While q c)) Skip) s r
  | Raise x => r = Raised x s
  | Try c h => (exists s1, exec may c s (Normal s1) /\ r = Normal s1) \/ (exists x s1, exec may c s (Raised x s1) /\ exec may (h x) s1 r) \/
      (exec may c s Undefined /\ r = Undefined)
  end.
Lemma exec_invert may (c : cmd vt) s r : exec may c s r -> exec_inv may c s r.
Proof. destruct 1; cbn [exec_inv]; eauto 10. Qed.

Lemma exec_unelide (c' : cmd vt) s r : exec careful c' s r -> forall c, c' = elide_cmd c -> good_store (objs s) -> exec careful c s r.
Proof.
intros X. induction X; intros c0 E G; destruct c0; cbn [elide_cmd] in E; try discriminate E.
- constructor.
- apply (f_equal (fun c => exec_inv careful c s (Normal (State (write (objs s) i v) (inp s) f)))) in E.
  assert (K : exec_inv careful (Assign i0 (elide e0)) s (Normal (State (write (objs s) i v) (inp s) f))).
  { rewrite <- E. cbn [exec_inv]. eauto 10. }
  cbn [exec_inv] in K. destruct K as (K1 & K). apply <- careful_elide in K1; [|easy].
  destruct K as [(v' & f' & A & B)|[(x & f' & A & B)|(f' & A & B)]]; try discriminate B.
  rewrite <- (ev_elide _ e0) in A by easy. rewrite B. now apply x_assign.
- apply (f_equal (fun c => exec_inv careful c s (Raised x (State (objs s) (inp s) f)))) in E.
  assert (K : exec_inv careful (Assign i0 (elide e0)) s (Raised x (State (objs s) (inp s) f))).
  { rewrite <- E. cbn [exec_inv]. eauto 10. }
  cbn [exec_inv] in K. destruct K as (K1 & K). apply <- careful_elide in K1; [|easy].
  destruct K as [(v' & f' & A & B)|[(x' & f' & A & B)|(f' & A & B)]]; try discriminate B.
  rewrite <- (ev_elide _ e0) in A by easy. rewrite B. now apply x_assign_throw.
- apply (f_equal (fun c => exec_inv careful c s Undefined)) in E.
  assert (K : exec_inv careful (Assign i0 (elide e0)) s Undefined).
  { rewrite <- E. cbn [exec_inv]. eauto 10. }
  cbn [exec_inv] in K. destruct K as (K1 & K). apply <- careful_elide in K1; [|easy].
  destruct K as [(v' & f' & A & B)|[(x' & f' & A & B)|(f' & A & B)]]; try discriminate B.
  rewrite <- (ev_elide _ e0) in A by easy. eapply x_assign_ub; eassumption.
- injection E as <-. now apply x_extract.
- injection E as <-. now apply x_extract_none.
- injection E as <-. now apply x_extract_throw.
- injection E as <-. eapply x_extract_ub. eassumption.
- injection E as <-. constructor.
- injection E as -> ->. specialize (IHX1 _ eq_refl G). pose proof (exec_good _ _ _ IHX1 G) as G1. cbn [after] in G1. eapply x_seq; eauto.
- injection E as -> ->. apply x_seq_throw; auto.
- injection E as -> ->. apply x_seq_ub; auto.
- injection E as -> -> ->. eapply x_if; [eassumption|]. destruct b; apply IHX; easy.
- injection E as -> -> ->. eapply x_if_throw. eassumption.
- injection E as -> -> ->. eapply x_if_ub. eassumption.
- injection E as -> ->. apply x_while. now apply IHX.
- injection E as ->. constructor.
- injection E as -> ->. apply x_try; auto.
- injection E as -> ->. specialize (IHX1 _ eq_refl G). pose proof (exec_good _ _ _ IHX1 G) as G1. cbn [after] in G1. eapply x_catch; eauto.
- injection E as -> ->. apply x_try_ub; auto.
Qed.
Lemma exec_elide_iff (c : cmd vt) s r : good_store (objs s) -> exec careful c s r <-> exec careful (elide_cmd c) s r.
Proof. intros G. split; intros X; [now apply exec_elide|now apply (exec_unelide _ _ _ X c)]. Qed.

(** Programs without input have one outcome. *)
Lemma exec_det may (c : cmd vt) s r : exec may c s r -> no_input c -> forall r', exec may c s r' -> r' = r.
Proof.
intros X. induction X; intros N r' Y; apply exec_invert in Y; cbn [exec_inv no_input] in *; try tauto; try easy.
- destruct Y as (_ & [(v' & f' & A & B)|[(x & f' & A & B)|(f' & A & B)]]); congruence.
- destruct Y as (_ & [(v' & f' & A & B)|[(x' & f' & A & B)|(f' & A & B)]]); congruence.
- destruct Y as (_ & [(v' & f' & A & B)|[(x' & f' & A & B)|(f' & A & B)]]); congruence.
- destruct N as [N1 N2]. destruct Y as [(s2 & A & B)|[(x & s2 & A & B)|(A & B)]]; specialize (IHX1 N1 _ A); try discriminate IHX1.
  injection IHX1 as ->. auto.
- destruct N as [N1 N2]. destruct Y as [(s2 & A & B)|[(x' & s2 & A & B)|(A & B)]]; specialize (IHX N1 _ A); congruence.
- destruct N as [N1 N2]. destruct Y as [(s2 & A & B)|[(x' & s2 & A & B)|(A & B)]]; specialize (IHX N1 _ A); congruence.
- destruct Y as [(b' & f' & A & B)|[(x' & f' & A & B)|(f' & A & B)]]; try congruence.
  assert (b' = b) as -> by congruence. assert (f' = f) as -> by congruence. apply IHX; [|exact B]. destruct b; tauto.
- destruct Y as [(b' & f' & A & B)|[(x' & f' & A & B)|(f' & A & B)]]; congruence.
- destruct Y as [(b' & f' & A & B)|[(x' & f' & A & B)|(f' & A & B)]]; congruence.
- apply IHX; [tauto|exact Y].
- destruct N as [N1 N2]. destruct Y as [(s2 & A & B)|[(x' & s2 & A & B)|(A & B)]]; specialize (IHX N1 _ A); congruence.
- destruct N as [N1 N2]. destruct Y as [(s2 & A & B)|[(x' & s2 & A & B)|(A & B)]]; specialize (IHX1 N1 _ A); try discriminate IHX1.
  injection IHX1 as -> ->. auto.
- destruct N as [N1 N2]. destruct Y as [(s2 & A & B)|[(x' & s2 & A & B)|(A & B)]]; specialize (IHX N1 _ A); congruence.
Qed.
(** ** Single statements *)
Lemma assign_atomic may i (e : term vt (vt i)) (s : state vt) x (s' : state vt) : exec may (Assign i e) s (Raised x s') -> objs s' = objs s.
Proof.
intros X. apply exec_invert in X. cbn [exec_inv] in X. destruct X as (_ & [(v & f & _ & B)|[(y & f & _ & B)|(f & _ & B)]]); try discriminate B.
injection B as -> ->. reflexivity.
Qed.
Lemma extract_atomic may i (s : state vt) x (s' : state vt) : exec may (Extract i) s (Raised x s') -> objs s' = objs s.
Proof.
intros X. apply exec_invert in X. cbn [exec_inv] in X.
destruct X as [(v & p & f & _ & B)|[(p & f & _ & B)|[(y & f & p & _ & B)|(f & _ & B)]]]; try discriminate B.
injection B as -> ->. reflexivity.
Qed.
Lemma extract_effect may i (s s' : state vt) : exec may (Extract i) s (Normal s') ->
  if ok (inp s') then good_obj (vt i) (objs s' i) else objs s' = objs s.
Proof.
intros X. apply exec_invert in X. cbn [exec_inv] in X.
destruct X as [(v & p & f & A & B)|[(p & f & A & B)|[(y & f & p & _ & B)|(f & _ & B)]]]; try discriminate B; injection B as ->; cbn [inp objs].
- pose proof (extract_agrees _ _ _ _ _ A) as K. unfold agrees in K. cbn [fst snd] in K. rewrite (proj1 K) by now exists v.
  rewrite write_same. exact (extract_good _ _ _ _ _ A v eq_refl).
- pose proof (extract_agrees _ _ _ _ _ A) as K. unfold agrees in K. cbn [fst snd] in K. destruct (ok p); [|reflexivity].
  destruct (proj2 K eq_refl) as [a Ha]. discriminate Ha.
Qed.
End Terms.
