(** * Proofs: reading intervals *)
From Coq Require Import ZArith NArith Reals Bool Ascii String List Lia Lra.
From Flocq Require Import Core.Core IEEE754.BinarySingleNaN.
From Verif Require Import Fmt Spec FloatFacts Exc Deco SpecApi MBase PBase PArith PClass PElem MStream MDecoIo SpecDecoText PDecoIo MText MRegex MRead PRegex SpecLiteral SpecRead PLiteral PInfSup PReadVal PUncertain PRead PReadMain.
Import ListNotations.
Local Open Scope list_scope.
Local Open Scope m_scope.

Section All.
Context {F : fmt}.
Definition accepted_value (v : itv F) : bool := (isnan (fst v) && isnan (snd v)) || bounds_ok v.
Lemma tightest_accepted S (v : itv F) : tightest S v -> accepted_value v = true.
Proof. intros (W & _). unfold accepted_value. destruct W as [->|H]; [easy|]. apply bounds_ok_mem in H. rewrite H. apply orb_true_r. Qed.
Lemma read_inf_sup_exact a r s : good s = true -> forallb (fun c => negb (closing c)) a = true ->
  @read_inf_sup F (setrest (a ++ "]"%char :: r) s) =
    match regex_match inf_sup_regex (a ++ txt "]") with
    | Some c => v <- literal_value c; if accepted_value (fst v) then with_decoration (fst v) (snd v) (setrest r s) else failed (setrest r s)
    | None => failed (setrest r s)
    end.
Proof.
  intros Hg H. unfold read_inf_sup. cbn [rest setrest]. rewrite read_bracket_exact by easy. cbn [app]. rewrite (good_ok (setrest r s)) by easy. reflexivity.
Qed.
Lemma inf_sup_outcome l s : good s = true -> short l -> outcome l s (@read_inf_sup F (setrest l s)).
Proof.
  intros Hg Hl. destruct (bracket_cases l) as [(a & r & -> & H)|H].
  - rewrite read_inf_sup_exact by easy. destruct (regex_match inf_sup_regex (a ++ txt "]")) as [c|] eqn:Ec; [|left; apply failed_fails].
    apply (@lit_regex F) in Ec. destruct Ec as (L & HL & E & ->). change (a ++ "]"%char :: r) with (a ++ txt "]" ++ r) in *. rewrite app_assoc in *. rewrite E in *.
    assert (Hs : short (ltext L)) by now apply (short_inside _ [] _ r eq_refl).
    destruct (lvalue_spec (F := F) (core L) (lit_kshape _ HL) (short_lit _ Hs)) as [(v & d & Hv & G)|[Hn Hr]].
    + eapply outcome_ext; [intros e; symmetry; apply (bind_yields _ _ (v, d)); exact Hv|]. cbn [fst snd]. destruct G as [(G1 & G2 & G3 & ->)|(G1 & G2 & G3)].
      * rewrite (tightest_accepted _ _ G3). destruct (lit_bare L HL (conj G1 G2)) as (S & B & HS).
        apply (wd_outcome _ _ S); [easy|now left|easy|]. eapply tightest_ext, G3. intros x. symmetry. apply HS.
      * unfold accepted_value. rewrite G2, G3. left. apply failed_fails.
    + right; right; right. split; [|now apply refuses_bind]. intros T. apply Hn, tiny_lit; [easy|]. now apply (small_inside _ [] _ r eq_refl).
  - left. unfold read_inf_sup. cbn [rest setrest]. destruct (read_bracket_open l [] s Hg H) as (s' & -> & K). rewrite K. apply failed_fails.
Qed.
Lemma uncertain_text l s : good s = true ->
  exists s1, read_uncertain (F := F) (setrest l s) =
    (if match l with [] => false | c :: _ => one_of (txt "+-.") c || isdigit c end
     then let (input, r) := p_text l in
       match regex_match uncertain_regex input with
       | Some c => v <- uncertain_value c;
           match v with Some v => if bounds_ok (fst v) then with_decoration (fst v) (snd v) s1 else failed s1 | None => failed s1 end
       | None => failed s1
       end
     else failed s1) /\ (match l with [] => false | c :: _ => one_of (txt "+-.") c || isdigit c end = true -> upto (snd (p_text l)) s s1).
Proof.
  intros Hg. unfold read_uncertain. rewrite (good_ok (setrest l s)) by easy.
  destruct (peek_any_upto (txt "+-.") l s Hg (setrest l s) (or_introl eq_refl)) as (s2 & -> & U2).
  assert (A : exists s3, (if match l with [] => false | c :: _ => one_of (txt "+-.") c end then (match l with [] => false | c :: _ => one_of (txt "+-.") c end, s2)
     else peek_is isdigit s2) = (match l with [] => false | c :: _ => one_of (txt "+-.") c || isdigit c end, s3) /\ upto l s s3).
  { destruct (peek_is_upto isdigit l s s2 Hg U2) as (s3 & E3 & U3). destruct l as [|c l].
    - exists s3. now rewrite E3.
    - destruct (one_of (txt "+-.") c); [now exists s2|]. exists s3. now rewrite E3. }
  destruct A as (s3 & A & U3). rewrite A. clear A.
  destruct (match l with [] => false | c :: _ => one_of (txt "+-.") c || isdigit c end).
  - destruct (read_text_upto l s s3 Hg U3) as (s4 & -> & U4). exists s4. split; [|easy]. destruct (p_text l) as [input r]. cbn [fst snd] in *.
    assert (ok s4 || eofbit s4 = true) as ->; [|easy]. destruct U4 as [-> | (_ & H & _)]; [now rewrite (good_ok (setrest r s))|]. rewrite H. apply orb_true_r.
  - exists s3. easy.
Qed.
Lemma uncertain_outcome l s : good s = true -> short l -> outcome l s (read_uncertain (F := F) (setrest l s)).
Proof.
  intros Hg Hl. destruct (uncertain_text l s Hg) as (s1 & -> & U). destruct (match l with [] => false | c :: _ => one_of (txt "+-.") c || isdigit c end); [|left; apply failed_fails].
  specialize (U eq_refl). pose proof (p_text_app l) as E. destruct (p_text l) as [input r]. cbn [fst snd] in *. subst l.
  destruct (regex_match uncertain_regex input) as [c|] eqn:Ec; [|left; apply failed_fails].
  apply unc_regex in Ec. destruct Ec as (u & Hu & -> & ->).
  assert (Hs : short (utext u)) by now apply (short_inside _ [] _ r eq_refl).
  assert (Q : forall k e, bind (@uncertain_value F (ucaps u)) k e = (bind (uvalue u) k : M (option (ditv F) * istream)) e) by (intros k e; unfold bind; now rewrite uncertain_eq by easy).
  eapply outcome_ext; [intros e; symmetry; apply Q|].
  destruct (uvalue_spec (F := F) u Hu Hs) as [[H1 H2] | [(H1 & H2 & v & H3 & H4) | (H1 & H2 & H3)]].
  - left. eapply fails_ext; [intros e; symmetry; apply (bind_yields _ _ None); exact H2|]. apply failed_fails.
  - eapply outcome_ext; [intros e; symmetry; apply (bind_yields _ _ (Some (v, ustrong u))); exact H4|]. cbn [fst snd].
    rewrite (tightest_bounds_ok _ _ (between_nonempty _ _ (u_ordered u Hu)) H3).
    apply (wd_outcome _ _ (uset u)); [easy|easy|now apply unc_bare|easy].
  - right; right; right. split; [|now apply refuses_bind]. intros T. apply H2, tiny_unc; [easy|]. now apply (small_inside _ [] _ r eq_refl).
Qed.
Lemma ditv_text s : good s = true -> 
  match visible s with
  | [] => fails (read_ditv (F := F) s)
  | c :: l => read_ditv (F := F) s = if ceq "[" c then read_inf_sup (setrest (c :: l) s) else read_uncertain (setrest (c :: l) s)
  end.
Proof.
  intros Hg. unfold read_ditv. fold (after_ws s). rewrite after_ws_ok by easy. destruct (visible s) as [|c l] eqn:E.
  - assert (B : ok (snd (peek (after_ws s))) = false \/ eofbit (snd (peek (after_ws s))) = true /\ rest (snd (peek (after_ws s))) = [] /\ fst (peek (after_ws s)) = None).
    { right. rewrite after_ws_spec by easy. rewrite E. unfold visible in E. destruct (skipws s).
      - cbn. easy.
      - unfold peek. rewrite Hg, E. cbn. easy. }
    unfold peek_is. destruct (peek (after_ws s)) as [c s2] eqn:P. cbn [fst snd] in B.
    assert (c = None) as ->. { destruct B as [B|B]; [|easy]. rewrite after_ws_spec in P by easy. rewrite E in P. unfold visible in E. destruct (skipws s); [|unfold peek in P; rewrite Hg, E in P]; now injection P. }
    destruct B as [B | (B1 & B2 & _)].
    + unfold read_uncertain. rewrite B. apply failed_fails.
    + assert (N : forall p s, eofbit s = true -> peek_is p s = (false, setfail s)) by (clear; intros p s H; unfold peek_is, peek, good; now rewrite H).
      unfold read_uncertain. destruct (ok s2); [|apply failed_fails]. cbn [peek_any txt list_ascii_of_string].
      rewrite N by easy. rewrite N by easy. rewrite N by easy. rewrite N by easy. apply failed_fails.
  - rewrite (after_ws_cons _ c l) by easy. unfold peek_is, peek. rewrite good_setrest, Hg. cbn [rest setrest]. reflexivity.
Qed.
(** Every outcome of reading. *)
Lemma ditv_outcome s : good s = true -> short (visible s) -> outcome (visible s) s (read_ditv (F := F) s).
Proof.
  intros Hg Hs. pose proof (ditv_text s Hg) as H. destruct (visible s) as [|c l]; [now left|]. rewrite H.
  destruct (ceq "[" c); [now apply inf_sup_outcome | now apply uncertain_outcome].
Qed.

(** ** Literals are read *)
Definition begins (l : text) : Prop := match l with c :: _ => isspace c = false | [] => False end.
Lemma lit_value L : lshape L -> lit_ok L -> ksmall (core L) -> short (ltext L) ->
  exists v, yields (@lvalue F (core L)) (v, lstrong (core L)) /\ tightest (lset (core L)) v.
Proof.
  intros H1 H2 H3 H4. destruct (lvalue_spec (F := F) (core L) (lit_kshape _ H1) (short_lit _ H4)) as [(v & d & Hv & [(G1 & G2 & G3 & ->)|(G1 & _)])|[Hn _]].
  - now exists v.
  - now elim G1.
  - easy.
Qed.
Lemma ltext_split L : lshape L -> exists a, ltext L = "["%char :: a ++ txt "]" /\ forallb (fun c => negb (closing c)) ("["%char :: a) = true.
Proof.
  intros H. assert (P : forall a, forallb plainc a = true -> forallb (fun c => negb (closing c)) a = true).
  { intros a. apply forallb_impl. intros c. unfold plainc, closing. rewrite andb_true_iff. tauto. }
  destruct L as [a x b | a x b c y d]; cbn [ltext lshape] in *.
  - exists (a ++ atext x ++ b). split; [easy|]. cbn. apply P. apply (arg_plain one_words); try easy. apply k1.
  - exists ((a ++ atext x ++ b) ++ txt "," ++ c ++ atext y ++ d). split; [easy|]. destruct H as (H1 & H2 & H3 & H4 & H5 & H6).
    cbn [forallb]. rewrite (forallb_app _ (a ++ atext x ++ b)), (forallb_app _ (txt ",")).
    rewrite (P (a ++ atext x ++ b)) by (apply (arg_plain low_words); [apply k2|easy..]). rewrite (P (c ++ atext y ++ d)) by (apply (arg_plain upp_words); [apply k3|easy..]). easy.
Qed.
(** Reading [t ++ r], where [t] is a literal, comes to its decoration. *)
Lemma bare_read t S d r s : good s = true -> visible s = t ++ r -> bare_literal no_plus int_exponent t S d -> short t ->
  stops continues r ->
  exists v s2, upto r s s2 /\ tightest S v /\ forall e, read_ditv (F := F) s e = with_decoration v d s2 e.
Proof.
  intros Hg V B Hs Hr. pose proof (ditv_text s Hg) as D. destruct (bare_parts t S d B) as [(L & H1 & -> & HS & -> & H2 & H3) | (u & H1 & -> & HS & -> & H2 & H3)].
  - destruct (ltext_split L H1) as (a & E & Ha). rewrite V, E in D. cbn [app] in D. change (ceq "[" "[") with true in D. rewrite D.
    destruct (lit_value L H1 H2 H3 Hs) as (v & Y & T). exists v, (setrest r s). split; [now left|]. split; [eapply tightest_ext, T; intros x; symmetry; apply HS|].
    intros e. change ("["%char :: (a ++ txt "]") ++ r) with (("["%char :: a ++ txt "]") ++ r).
    replace (("["%char :: a ++ txt "]") ++ r) with (("["%char :: a) ++ "]"%char :: r) by (cbn; now rewrite <- app_assoc).
    rewrite read_inf_sup_exact by easy. change (("["%char :: a) ++ txt "]") with ("["%char :: a ++ txt "]"). rewrite <- E.
    destruct (@regex_lit F L H1) as (c & -> & ->). rewrite (bind_yields _ _ _ Y). cbn [fst snd]. now rewrite (tightest_accepted _ _ T).
  - assert (Hc : exists c l, utext u ++ r = c :: l /\ ceq "[" c = false /\ one_of (txt "+-.") c || isdigit c = true).
    { unfold utext. pose proof (mtext_starts num_start (u_i u) (u_f u)) as M. assert (starts num_start (mtext (u_i u) (u_f u))) as M'.
      { apply M; [intros c; unfold num_start; now intros ->|easy|apply H1]. }
      destruct (u_s u); cbn [stext txt list_ascii_of_string app]; try (eexists _, _; split; [reflexivity|easy]).
      destruct (mtext (u_i u) (u_f u)) as [|c m]; [easy|]. cbn [starts] in M'. eexists c, _. split; [reflexivity|]. revert M'. clear. chars c; easy. }
    destruct Hc as (c & l & E & Hc1 & Hc2). rewrite V, E, Hc1 in D. rewrite D. clear D.
    destruct (uncertain_text (c :: l) s Hg) as (s1 & -> & U). rewrite Hc2 in *. specialize (U eq_refl). rewrite <- E in *.
    assert (P : p_text (utext u ++ r) = (utext u, r)) by now apply p_text_exact.
    rewrite P in *. cbn [snd] in U. destruct (uvalue_spec (F := F) u H1 Hs) as [[G1 G2] | [(G1 & G2 & v & G3 & G4) | (G1 & G2 & G3)]]; [easy| |easy].
    exists v, s1. split; [easy|]. split; [eapply tightest_ext, G3; intros x; symmetry; apply HS|]. intros e.
    destruct (@regex_unc F u H1 Hs) as (c' & -> & Q). unfold bind. rewrite Q, G4. cbn [fst snd].
    now rewrite (tightest_bounds_ok _ _ (between_nonempty _ _ (u_ordered u H1)) G3).
Qed.

Lemma follows_stops given r : follows given r -> given = None -> stops continues r /\ stops underscore r.
Proof.
  intros H ->. destruct r as [|c r]; [easy|]. specialize (H c r eq_refl). cbn [stops]. revert H. clear.
  destruct c as [[] [] [] [] [] [] [] []]; intros H; try (split; reflexivity); exfalso; apply H; cbn; tauto.
Qed.
(** Literals of the grammar with a minus sign at most and exponents that fit in an int. *)
Theorem literal_read t S given r s : good s = true -> visible s = t ++ r -> literal no_plus int_exponent t S given -> short t -> follows given r ->
  exists x, yields (read_ditv (F := F) s) (Some x, setrest r s) /\ reading S given x.
Proof.
  intros Hg V H Hs Hf. destruct H as [t' S' d B D | t' S' d w d' B D Hw Hd].
  - destruct (follows_stops _ _ Hf eq_refl) as [C1 C2]. destruct (bare_read t' S' d r s Hg V B Hs C1) as (v & s2 & U & T & E).
    destruct (wd_plain S' v d r s s2 Hg U C2 T D) as (x & Y & R). exists x. split; [|easy]. intros e. rewrite E. apply Y.
  - rewrite <- app_assoc in V. assert (Hs' : short t') by now apply (short_inside _ [] _ (txt "_" ++ w) eq_refl).
    destruct (bare_read t' S' d _ s Hg V B Hs') as (v & s2 & U & T & E); [easy|].
    apply decoration_name_word in Hw. destruct Hw as (k & -> & Hw & D').
    destruct (set_dec_reading S' v (byte k) T (byte_valid k) D') as (x & E2 & R). exists x. split; [|easy]. intros e. rewrite E.
    rewrite (wd_under v d (w ++ r) s s2 Hg U). destruct (deq_spec d ill) as [|_]; [easy|]. rewrite (read_deco_name s k w r Hg Hw).
    destruct (N.leb_spec (byte k) d) as [_|L]; [|exfalso; apply (N.lt_irrefl d); now apply N.lt_le_trans with (byte k)].
    destruct (deq_spec (byte k) ill) as [|_]; [easy|]. cbn [andb negb]. rewrite E2. reflexivity.
Qed.
Theorem nai_read t r s : good s = true -> visible s = t ++ r -> nai_literal no_plus int_exponent t -> short t -> follows None r ->
  yields (read_ditv (F := F) s) (Some nai, setrest r s).
Proof.
  intros Hg V H Hs Hf. destruct H as [t' S B]. destruct (follows_stops _ _ Hf eq_refl) as [C1 C2]. destruct (bare_read t' S ill r s Hg V B Hs C1) as (v & s2 & U & T & E).
  intros e. rewrite E. now apply wd_nai.
Qed.
End All.
