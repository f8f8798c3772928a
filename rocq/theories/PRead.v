(** * Proofs: reading intervals from a stream *)
From Coq Require Import ZArith NArith Reals Bool Ascii String List Lia Lra.
From Flocq Require Import Core.Core IEEE754.BinarySingleNaN.
From Verif Require Import Fmt Spec FloatFacts Exc Deco SpecApi MBase PBase PArith PClass PElem MStream MDecoIo SpecDecoText PDecoIo MText MRegex MRead PRegex SpecLiteral PLiteral PInfSup PReadVal PUncertain.
Import ListNotations.
Local Open Scope list_scope.

(** ** Streams: [s2] is [s] with [r] left to read, the end of the input possibly noticed. *)
Definition upto (r : text) (s s2 : istream) : Prop :=
  s2 = setrest r s \/ (r = [] /\ eofbit s2 = true /\ MStream.clear s2 = setrest [] s /\ good s = true).
Lemma clear_good r s : good s = true -> MStream.clear (setrest r s) = setrest r s.
Proof. unfold good, MStream.clear, setrest; cbn. destruct s as [l e f b k bf]; cbn. now destruct e, f, b. Qed.
Lemma good_noeof s : good s = true -> eofbit s = false.
Proof. unfold good. now destruct (eofbit s). Qed.
Lemma upto_fail s s2 : eofbit s2 = true -> MStream.clear s2 = setrest [] s -> good s = true -> upto [] s (setfail s2).
Proof. intros H1 H2 H3. right. repeat split; easy. Qed.
Lemma upto_rest r s s2 : upto r s s2 -> rest s2 = r.
Proof. intros [-> | (-> & H1 & H2 & H3)]; [easy|]. now apply (f_equal rest) in H2. Qed.

Lemma peek_upto r s s2 : good s = true -> upto r s s2 ->
  fst (peek s2) = match r with [] => None | c :: _ => Some c end /\ upto r s (snd (peek s2)) /\ (r <> [] -> peek s2 = (Some (hd "0"%char r), setrest r s)).
Proof.
  intros Hg [-> | (-> & H1 & H2 & H3)].
  - unfold peek. rewrite good_setrest, Hg. cbn [rest setrest]. destruct r as [|c r]; cbn [fst snd].
    + split; [easy|]. split; [|easy]. right. repeat split; try easy. unfold MStream.clear, seteof, setrest; cbn. f_equal; symmetry.
      all: revert Hg; unfold good; destruct (eofbit s), (failbit s), (badbit s); easy.
    + split; [easy|]. split; [now left|]. easy.
  - unfold peek, good. rewrite H1. cbn. split; [easy|]. split; [now apply upto_fail|easy].
Qed.
Lemma peek_is_upto p r s s2 : good s = true -> upto r s s2 ->
  exists s3, peek_is p s2 = (match r with [] => false | c :: _ => p c end, s3) /\ upto r s s3.
Proof.
  intros Hg H. destruct (peek_upto _ _ _ Hg H) as (H1 & H2 & _). unfold peek_is. destruct (peek s2) as [c s3]. cbn [fst snd] in *. subst c.
  exists s3. split; [|easy]. now destruct r.
Qed.
Definition one_of (set : text) (c : ascii) : bool := existsb (fun a => ceq a c) set.
Lemma peek_any_upto set r s : good s = true -> forall s2, upto r s s2 ->
  exists s3, peek_any set s2 = (match r with [] => false | c :: _ => one_of set c end, s3) /\ upto r s s3.
Proof.
  intros Hg. induction set as [|a set IH]; intros s2 H; cbn [peek_any].
  - exists s2. split; [now destruct r|easy].
  - destruct (peek_is_upto (ceq a) _ _ _ Hg H) as (s3 & -> & H3). destruct r as [|c r].
    + apply IH, H3.
    + unfold one_of. cbn [existsb]. destruct (ceq a c); cbn [orb]; [now exists s3|]. apply IH, H3.
Qed.
Lemma get_upto c r s s2 : good s = true -> upto (c :: r) s s2 -> get s2 = (Some c, setrest r s).
Proof. intros Hg [-> | (H & _)]; [|easy]. unfold get. rewrite good_setrest, Hg. reflexivity. Qed.
(** The conditions used: the stream is good, or at least did not fail. *)
Definition usual (cond : istream -> bool) : Prop := forall s, good s = true -> cond s = true.
Lemma usual_ok : usual ok. Proof. intros s. apply good_ok. Qed.
Lemma usual_good : usual good. Proof. now intros s. Qed.

Definition p_one (set l : text) : bool * text * text :=
  match l with c :: l' => if one_of set c then (true, [c], l') else (false, [], l) | [] => (false, [], []) end.
Lemma read_one_upto cond set acc r s s2 : usual cond -> good s = true -> upto r s s2 ->
  exists s3, read_one cond set acc s2 = (fst (fst (p_one set r)), acc ++ snd (fst (p_one set r)), s3) /\ upto (snd (p_one set r)) s s3.
Proof.
  intros Hc Hg H. unfold read_one.
  destruct (peek_any_upto set _ _ Hg _ H) as (s3 & H3 & U3). rewrite H3. destruct r as [|c r]; cbn [p_one fst snd].
  - destruct (cond s2); [exists s3 | exists s2]; rewrite app_nil_r; easy.
  - assert (cond s2 = true) as ->. { apply Hc. destruct H as [-> | (H & _)]; [now rewrite good_setrest|easy]. }
    destruct (one_of set c); cbn [fst snd].
    + rewrite (get_upto c r s s3) by easy. eexists. split; [reflexivity|now left].
    + exists s3. rewrite app_nil_r. easy.
Qed.
Fixpoint span (p : ascii -> bool) (l : text) : text * text :=
  match l with c :: l' => if p c then (c :: fst (span p l'), snd (span p l')) else ([], l) | [] => ([], []) end.
Lemma read_digits_upto cond : usual cond -> forall r acc s s2, good s = true -> upto r s s2 ->
  exists s3, read_digits cond r acc s2 = (acc ++ fst (span isdigit r), s3) /\ upto (snd (span isdigit r)) s s3.
Proof.
  intros Hc r. induction r as [|c r IH]; intros acc s s2 Hg H.
  - cbn [read_digits span fst snd]. rewrite app_nil_r. destruct (cond s2); [|now exists s2].
    destruct (peek_upto _ _ _ Hg H) as (H1 & H2 & _). destruct (peek s2) as [c s3]. cbn [fst snd] in *. subst c. now exists s3.
  - destruct (peek_upto _ _ _ Hg H) as (_ & _ & H3). cbn [read_digits span]. rewrite H3 by easy.
    assert (cond s2 = true) as ->. { apply Hc. destruct H as [-> | (H & _)]; [now rewrite good_setrest|easy]. }
    cbn [hd]. destruct (isdigit c); cbn [fst snd].
    + unfold get. rewrite good_setrest, Hg. cbn [rest setrest snd]. rewrite setrest_setrest.
      destruct (IH (acc ++ [c]) s (setrest r s) Hg (or_introl eq_refl)) as (s3 & E & U). exists s3. rewrite <- app_assoc in E. easy.
    + exists (setrest (c :: r) s). rewrite app_nil_r. split; [easy|now left].
Qed.
Fixpoint p_num (l : text) : text * text :=
  match l with c :: l' => if in_number c then if ceq c "?" then ([c], l') else (c :: fst (p_num l'), snd (p_num l')) else ([], l) | [] => ([], []) end.
Lemma read_number_upto : forall r acc s s2, good s = true -> upto r s s2 ->
  exists s3, read_uncertain_number r acc s2 = (acc ++ fst (p_num r), s3) /\ upto (snd (p_num r)) s s3.
Proof.
  intros r. induction r as [|c r IH]; intros acc s s2 Hg H.
  - cbn [read_uncertain_number p_num fst snd]. rewrite app_nil_r.
    destruct (peek_upto _ _ _ Hg H) as (H1 & H2 & _). destruct (peek s2) as [c s3]. cbn [fst snd] in *. subst c. now exists s3.
  - destruct (peek_upto _ _ _ Hg H) as (_ & _ & H3). cbn [read_uncertain_number p_num]. rewrite H3 by easy.
    rewrite (good_ok (setrest (c :: r) s)) by easy. cbn [hd andb]. destruct (in_number c); cbn [fst snd].
    + unfold get. rewrite good_setrest, Hg. cbn [rest setrest snd]. rewrite setrest_setrest.
      destruct (ceq c "?"); cbn [fst snd]; [eexists; split; [reflexivity|now left]|].
      destruct (IH (acc ++ [c]) s (setrest r s) Hg (or_introl eq_refl)) as (s3 & E & U). exists s3. rewrite <- app_assoc in E. easy.
    + exists (setrest (c :: r) s). rewrite app_nil_r. split; [easy|now left].
Qed.
(** What the reading of an uncertain form takes from the text. *)
Definition p_text (l : text) : text * text :=
  let '(n, l) := p_num l in
  let '(b, q, l) := p_one (txt "?") l in
  let '(u, l) := if b then ([], l) else span isdigit l in
  let '(_, d, l) := p_one (txt "dDuU") l in
  let '(b, e, l) := p_one (txt "eE") l in
  let '(x, l) := if b then let '(_, g, l) := p_one (txt "-+") l in let '(k, l) := span isdigit l in (g ++ k, l) else ([], l) in
  (n ++ q ++ u ++ d ++ e ++ x, l).
Lemma read_text_upto r s s2 : good s = true -> upto r s s2 ->
  exists s3, read_uncertain_text s2 = (fst (p_text r), s3) /\ upto (snd (p_text r)) s s3.
Proof.
  intros Hg H. unfold read_uncertain_text, p_text. rewrite (upto_rest _ _ _ H).
  destruct (read_number_upto r [] s s2 Hg H) as (s3 & -> & U3). destruct (p_num r) as [n l]. cbn [fst snd app] in *. cbv beta iota.
  destruct (read_one_upto ok (txt "?") n l s s3 usual_ok Hg U3) as (s4 & -> & U4). destruct (p_one (txt "?") l) as [[b q] l4]. cbn [fst snd] in *. cbv beta iota.
  assert (A : exists s5, (if b then (n ++ q, s4) else read_digits ok (rest s4) (n ++ q) s4) = ((n ++ q) ++ fst (if b then ([], l4) else span isdigit l4), s5) /\
    upto (snd (if b then ([], l4) else span isdigit l4)) s s5).
  { destruct b; cbn [fst snd]; [exists s4; now rewrite app_nil_r|]. rewrite (upto_rest _ _ _ U4). now apply read_digits_upto; [apply usual_ok| |]. }
  destruct A as (s5 & A1 & U5).
  match goal with |- context [if b then @pair ?A ?B (n ++ q) s4 else ?e] => change (if b then @pair A B (n ++ q) s4 else e) with (if b then (n ++ q, s4) else read_digits ok (rest s4) (n ++ q) s4) end.
  rewrite A1. clear A1. destruct (if b then ([], l4) else span isdigit l4) as [u l5]. cbn [fst snd] in *. cbv beta iota.
  destruct (read_one_upto ok (txt "dDuU") ((n ++ q) ++ u) l5 s s5 usual_ok Hg U5) as (s6 & -> & U6). destruct (p_one (txt "dDuU") l5) as [[b6 d] l6]. cbn [fst snd] in *. cbv beta iota.
  destruct (read_one_upto ok (txt "eE") (((n ++ q) ++ u) ++ d) l6 s s6 usual_ok Hg U6) as (s7 & -> & U7). destruct (p_one (txt "eE") l6) as [[b7 e] l7]. cbn [fst snd] in *. cbv beta iota.
  cbv beta iota. destruct b7.
  - destruct (read_one_upto good (txt "-+") ((((n ++ q) ++ u) ++ d) ++ e) l7 s s7 usual_good Hg U7) as (s8 & -> & U8).
    destruct (p_one (txt "-+") l7) as [[b8 g] l8]. cbn [fst snd] in *. cbv beta iota. rewrite (upto_rest _ _ _ U8).
    destruct (read_digits_upto good usual_good l8 (((((n ++ q) ++ u) ++ d) ++ e) ++ g) s s8 Hg U8) as (s9 & -> & U9).
    destruct (span isdigit l8) as [k l9]. cbn [fst snd] in *. cbv beta iota. exists s9. split; [|easy]. now rewrite !app_assoc.
  - exists s7. rewrite app_nil_r, !app_assoc. easy.
Qed.
Lemma p_one_app set l : snd (fst (p_one set l)) ++ snd (p_one set l) = l.
Proof. destruct l as [|c l]; cbn; [easy|]. now destruct (one_of set c). Qed.
Lemma span_app p l : fst (span p l) ++ snd (span p l) = l.
Proof. induction l as [|c l IH]; cbn; [easy|]. destruct (p c); cbn; [now rewrite IH|easy]. Qed.
Lemma p_num_app l : fst (p_num l) ++ snd (p_num l) = l.
Proof. induction l as [|c l IH]; cbn [p_num]; [easy|]. destruct (in_number c); [|easy]. destruct (ceq c "?"); cbn; [easy|now rewrite IH]. Qed.
Lemma p_text_app l : fst (p_text l) ++ snd (p_text l) = l.
Proof.
  unfold p_text. pose proof (p_num_app l) as A. destruct (p_num l) as [n l1]. cbn [fst snd] in A.
  pose proof (p_one_app (txt "?") l1) as A1. destruct (p_one (txt "?") l1) as [[b q] l2]. cbn [fst snd] in A1.
  assert (A2 : fst (if b then ([], l2) else span isdigit l2) ++ snd (if b then ([], l2) else span isdigit l2) = l2) by (destruct b; [easy|apply span_app]).
  destruct (if b then ([], l2) else span isdigit l2) as [u l3]. cbn [fst snd] in A2.
  pose proof (p_one_app (txt "dDuU") l3) as A3. destruct (p_one (txt "dDuU") l3) as [[b4 d] l4]. cbn [fst snd] in A3.
  pose proof (p_one_app (txt "eE") l4) as A4. destruct (p_one (txt "eE") l4) as [[b5 e] l5]. cbn [fst snd] in A4.
  destruct b5; [|cbn [fst snd]; subst; now rewrite <- !app_assoc].
  pose proof (p_one_app (txt "-+") l5) as A5. destruct (p_one (txt "-+") l5) as [[b6 g] l6]. cbn [fst snd] in A5.
  pose proof (span_app isdigit l6) as A6. destruct (span isdigit l6) as [k l7]. cbn [fst snd] in *. subst. now rewrite <- !app_assoc.
Qed.

(** A literal in uncertain form is taken whole if nothing that could belong to it follows. *)
Definition continues (c : ascii) : bool := isdigit c || one_of (txt "?dDuUeE") c.
Lemma span_exact (p : ascii -> bool) l r : forallb p l = true -> stops p r -> span p (l ++ r) = (l, r).
Proof.
  intros H1 H2. induction l as [|c l IH]; cbn.
  - destruct r as [|c r]; cbn; [easy|]. cbn in H2. now rewrite H2.
  - cbn in H1. apply andb_prop in H1. destruct H1 as [-> H1]. now rewrite IH.
Qed.
Lemma p_num_exact n r : forallb (fun c => in_number c && negb (ceq c "?")) n = true -> p_num (n ++ "?"%char :: r) = (n ++ txt "?", r).
Proof.
  intros H. induction n as [|c n IH]; cbn [app p_num]; [easy|]. cbn [forallb] in H. apply andb_prop in H. destruct H as [H1 H2]. apply andb_prop in H1.
  destruct H1 as [-> H1]. apply negb_true_iff in H1. rewrite H1, IH by easy. easy.
Qed.
Lemma p_one_no set l : stops (one_of set) l -> p_one set l = (false, [], l).
Proof. destruct l as [|c l]; cbn; [easy|]. intros ->. easy. Qed.
Lemma p_one_yes set c l : one_of set c = true -> p_one set (c :: l) = (true, [c], l).
Proof. cbn. intros ->. easy. Qed.
Lemma stops_impl (p q : ascii -> bool) l : (forall c, q c = true -> p c = true) -> stops p l -> stops q l.
Proof. intros H. destruct l as [|c l]; cbn; [easy|]. intros H1. specialize (H c). destruct (q c); [|easy]. rewrite H in H1; easy. Qed.
Lemma number_chars s i f : mshape isdigit i f -> forallb (fun c => in_number c && negb (ceq c "?")) (stext s ++ mtext i f) = true.
Proof.
  intros [H _]. rewrite forallb_app. apply andb_true_intro. split; [now destruct s|]. unfold mdigits, mtext in *.
  assert (D : forall l, forallb isdigit l = true -> forallb (fun c => in_number c && negb (ceq c "?")) l = true).
  { intros l. apply forallb_impl. intros c. chars c. }
  rewrite forallb_app in H. apply andb_prop in H. destruct H as [H1 H2]. rewrite forallb_app, D by easy. destruct f as [f|]; [|easy]. cbn. now apply D.
Qed.
Lemma p_text_exact u r : ushape u -> stops continues r -> p_text (utext u ++ r) = (utext u, r).
Proof.
  destruct u as [g i f ra d e]. unfold ushape, utext; cbn [u_s u_i u_f u_r u_d u_e]. intros (H1 & H2 & H3 & H4) Hr.
  assert (R1 : stops isdigit r) by (eapply stops_impl, Hr; unfold continues; intros c ->; easy).
  assert (R2 : stops (one_of (txt "dDuU")) r) by (eapply stops_impl, Hr; intros c; chars c).
  assert (R3 : stops (one_of (txt "eE")) r) by (eapply stops_impl, Hr; intros c; chars c).
  assert (R4 : stops (one_of (txt "?")) r) by (eapply stops_impl, Hr; intros c; chars c).
  unfold p_text. rewrite <- !app_assoc. rewrite !(app_assoc (stext g)).
  match goal with |- context [p_num (_ ++ txt "?" ++ ?x)] => change (txt "?" ++ x) with ("?"%char :: x) end.
  rewrite p_num_exact by now apply number_chars.
  set (n := stext g ++ mtext i f). clearbody n.
  (* the exponent *)
  assert (X : stops isdigit (xtext e ++ r) /\ stops (one_of (txt "dDuU")) (xtext e ++ r) /\ stops (one_of (txt "?")) (xtext e ++ r)).
  { destruct e as [[[m t] l]|]; [|easy]. destruct H4 as (H5 & _). cbn [xtext app stops]. split; [|split]; revert H5; chars m. }
  destruct X as (X1 & X2 & X3).
  assert (Xe : exists b x l', p_one (txt "eE") (xtext e ++ r) = (b, x, l') /\ 
    exists y, (if b then let '(_, g, l) := p_one (txt "-+") l' in let '(k, l) := span isdigit l in (g ++ k, l) else ([], l')) = (y, r) /\ x ++ y = xtext e).
  { destruct e as [[[m t] l]|]; cbn [xtext].
    - destruct H4 as (H5 & H6 & H7). cbn [app]. rewrite p_one_yes by (revert H5; chars m).
      eexists true, [m], _. split; [reflexivity|]. destruct t; cbn [stext txt list_ascii_of_string app].
      + rewrite p_one_no. 2:{ destruct l as [|c l]; [easy|]. cbn in H6. apply andb_prop in H6. destruct H6 as [H6 _]. revert H6. clear. cbn. chars c. }
        rewrite span_exact by easy. exists l. easy.
      + rewrite p_one_yes by easy. rewrite span_exact by easy. eexists. easy.
      + rewrite p_one_yes by easy. rewrite span_exact by easy. eexists. easy.
    - exists false, [], r. split; [now apply p_one_no|]. now exists []. }
  destruct Xe as (b & x & l' & E1 & y & E2 & E3).
  (* the direction *)
  assert (D : exists b x, p_one (txt "dDuU") (dtext d ++ xtext e ++ r) = (b, x, xtext e ++ r) /\ x = dtext d).
  { destruct d as [|c|c]; cbn [dtext app].
    - rewrite p_one_no by easy. eauto.
    - rewrite p_one_yes by (cbn in H3; revert H3; chars c). eauto.
    - rewrite p_one_yes by (cbn in H3; revert H3; chars c). eauto. }
  destruct D as (b6 & x6 & E6 & ->).
  assert (Y : stops isdigit (dtext d ++ xtext e ++ r) /\ stops (one_of (txt "?")) (dtext d ++ xtext e ++ r)).
  { destruct d as [|c|c]; cbn [dtext app]; [easy| |]; cbn [dshape] in H3; cbn [stops]; (split; revert H3; chars c). }
  destruct Y as [Y1 Y2].
  destruct ra as [| |l]; cbn [rtext app].
  - rewrite p_one_no by easy. pose proof (span_exact isdigit [] _ eq_refl Y1) as E0. cbn [app] in E0. rewrite E0, E6, E1, E2, <- E3.
    f_equal. now rewrite <- !app_assoc.
  - match goal with |- context [p_one ?l (txt "?" ++ ?x)] => change (p_one l (txt "?" ++ x)) with (true, txt "?", x) end. cbv beta iota. rewrite E6, E1, E2, <- E3. f_equal. now rewrite <- !app_assoc.
  - destruct H2 as [H5 H6]. rewrite p_one_no. 2:{ destruct l as [|c l]; [easy|]. cbn in H5. apply andb_prop in H5. destruct H5 as [H5 _]. revert H5. clear. cbn. chars c. }
    rewrite span_exact by easy. rewrite E6, E1, E2, <- E3. f_equal. now rewrite <- !app_assoc.
Qed.

(** ** Brackets *)
Definition closing (c : ascii) : bool := ceq c "]".
Lemma read_bracket_exact a : forall r acc s, good s = true -> forallb (fun c => negb (closing c)) a = true ->
  read_bracket (a ++ "]"%char :: r) acc (setrest (a ++ "]"%char :: r) s) = (acc ++ a ++ txt "]", setrest r s).
Proof.
  induction a as [|c a IH]; intros r acc s Hg H.
  - cbn [app read_bracket]. unfold peek. rewrite good_setrest, Hg. cbn [rest setrest]. rewrite (good_ok (setrest _ s)) by easy.
    unfold get. rewrite good_setrest, Hg. reflexivity.
  - cbn [app read_bracket]. unfold peek. rewrite good_setrest, Hg. cbn [rest setrest]. rewrite (good_ok (setrest _ s)) by easy.
    unfold get. rewrite good_setrest, Hg. cbn [rest setrest]. rewrite setrest_setrest. cbn [forallb] in H. apply andb_prop in H. destruct H as [H1 H2].
    apply negb_true_iff in H1. unfold closing in H1. rewrite H1, IH by easy. now rewrite <- app_assoc.
Qed.
Lemma read_bracket_open a : forall acc s, good s = true -> forallb (fun c => negb (closing c)) a = true ->
  exists s', read_bracket a acc (setrest a s) = (acc ++ a, s') /\ ok s' = false.
Proof.
  induction a as [|c a IH]; intros acc s Hg H.
  - cbn [read_bracket]. unfold peek at 1. rewrite good_setrest, Hg. cbn [rest setrest].
    assert (ok (seteof (setrest [] s)) = true) as -> by (apply good_ok in Hg; easy).
    destruct (get (seteof (setrest [] s))) as [g s2] eqn:E. rewrite app_nil_r. eexists. split; [reflexivity|].
    unfold get, good in E. cbn in E. injection E as <- <-. reflexivity.
  - cbn [read_bracket]. unfold peek. rewrite good_setrest, Hg. cbn [rest setrest]. rewrite (good_ok (setrest _ s)) by easy.
    unfold get. rewrite good_setrest, Hg. cbn [rest setrest]. rewrite setrest_setrest. cbn [forallb] in H. apply andb_prop in H. destruct H as [H1 H2].
    apply negb_true_iff in H1. unfold closing in H1. rewrite H1. destruct (IH (acc ++ [c]) s Hg H2) as (s' & E & K). exists s'. rewrite <- app_assoc in E. easy.
Qed.
Lemma bracket_cases l : (exists a r, l = a ++ "]"%char :: r /\ forallb (fun c => negb (closing c)) a = true) \/ forallb (fun c => negb (closing c)) l = true.
Proof.
  induction l as [|c l IH]; [now right|]. destruct (closing c) eqn:E.
  - left. exists [], l. split; [|easy]. unfold closing in E. apply ceq_eq in E. now subst.
  - destruct IH as [(a & r & -> & H)|H]; [left; exists (c :: a), r | right]; cbn; now rewrite E.
Qed.
