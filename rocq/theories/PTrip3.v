(** * Proofs: reading back decorated intervals *)
From Coq Require Import ZArith NArith Reals Bool Ascii String List Lia Lra.
From Flocq Require Import Core.Core IEEE754.BinarySingleNaN.
From Verif Require Import Fmt Spec FloatFacts Exc Deco SpecApi SpecDeco MBase MBool MNum PBase PClass MStream MDecoIo PDecoIo MText MPrint PText PText2 PPrint PPrint2 MRegex MRead SpecDecoText SpecLiteral SpecRead PLiteral PInfSup PReadVal PUncertain PRead PReadMain PReadAll PReadStr PTrip PTrip2.
Import ListNotations.
Local Open Scope list_scope.
Local Open Scope m_scope.
Local Notation bare := (bare_literal no_plus int_exponent).
Local Notation blanks := SpecLiteral.blanks.

Section Deco.
Context {F : fmt}.
(** ** A literal and any text that is read as a decoration *)
Lemma decorated_read t S d b w k r a s : good s = true -> basef s = b_dec -> rest s = a ++ t ++ txt "_" ++ b ++ w -> blanks a ->
  (skipws s = true \/ a = [] /\ b = []) -> bare t S d -> d <> ill -> moderate t -> blanks b -> denotes w k r -> k <> d_ill -> (byte k <= d)%N ->
  exists x s', returns (read_ditv (F := F) s) (Some x, s') /\ ok s' = true /\ rest s' = r /\ (good s' = true \/ r = []) /\ reading S (Some (byte k)) x.
Proof.
  intros Hg Hb E Ha Hk B D Hm Hbb Hw K L.
  assert (V : visible s = t ++ txt "_" ++ b ++ w).
  { apply (visible_after s a); try easy; [tauto|]. eapply bare_begins, B. }
  destruct (bare_read (F := F) t S d _ s Hg V B) as (v & s2 & U & T & R); [unfold moderate, short in *; lia|easy|].
  assert (W : denotes (visible (setrest (b ++ w) s)) k r).
  { unfold visible. cbn [skipws rest setrest].
    assert (N : drop_ws w = w).
    { destruct Hw as [k' w' r' H|k' w' r' H1 H2 H3 H4].
      - assert (G : exists c1 c2, w' = c1 :: c2 /\ isspace c1 = false); [|destruct G as (c1 & c2 & -> & G); cbn; now rewrite G].
        assert (K' : exists c l, list_ascii_of_string (name k') = c :: l /\ In c (txt "itdc")) by (destruct k'; eexists _, _; (split; [reflexivity|]); cbn; tauto).
        destruct K' as (c & l & E0 & I). rewrite E0 in H. destruct w' as [|c1 c2]; [inversion H|]. exists c1, c2. split; [easy|].
        assert (G : same_letter c c1) by now inversion H. clear - G I. unfold same_letter in G.
        assert (G' : N_of_ascii c1 = N_of_ascii c \/ (N_of_ascii c1 + 32 = N_of_ascii c)%N) by (destruct G as [->|G]; auto). clear G.
        cbn in I. destruct I as [<-|[<-|[<-|[<-|[]]]]]; revert G'; chars c1; try easy; cbn; lia.
      - destruct w' as [|c w']; [easy|]. inversion H2 as [|? ? G]. cbn. assert (isspace c = false) as ->; [|easy]. revert G. unfold is_decimal. clear. chars c; try easy; cbn; lia. }
    destruct (skipws s); [rewrite drop_blanks by easy; now rewrite N|]. destruct Hk as [|[_ ->]]; easy. }
  destruct (read_deco_denotes (setrest (b ++ w) s) k r) as (s3 & E3 & O3 & R3); try easy.
  assert (D' : byte k <> ill) by now destruct k.
  destruct (set_dec_reading S v (byte k) T (byte_valid k) D') as (x & E2 & RD). exists x, s3. split; [|split; [easy|split; [easy|split; [|easy]]]].
  - intros e. rewrite R. rewrite (wd_under v d (b ++ w) s s2 Hg U). destruct (deq_spec d ill) as [|_]; [easy|]. rewrite E3.
    destruct (N.leb_spec (byte k) d) as [_|L']; [|exfalso; apply (N.lt_irrefl d); now apply N.lt_le_trans with (byte k)].
    destruct (deq_spec (byte k) ill) as [|_]; [easy|]. cbn [andb negb]. rewrite E2. reflexivity.
  - rewrite <- R3. eapply read_deco_rest, E3.
Qed.
Lemma decorated_string t a t0 S d b w k r : t = a ++ t0 ++ txt "_" ++ b ++ w -> blanks a -> bare t0 S d -> d <> ill -> moderate t0 ->
  blanks b -> denotes w k r -> blanks r -> k <> d_ill -> (byte k <= d)%N ->
  exists x, returns (text_to_decorated_interval (F := F) t) x /\ reading S (Some (byte k)) x.
Proof.
  intros E Ha B D Hm Hb Hw Hr K L.
  destruct (decorated_read t0 S d b w k r a (string_stream t)) as (x & s' & Y & O & R & G & Q); try easy; [now left|].
  exists x. split; [|easy]. intros e. unfold text_to_decorated_interval. rewrite (bind_yields _ _ _ Y), O.
  assert (H : unread s' = r) by (unfold unread; rewrite R; destruct G as [-> | ->]; [easy|now destruct (good s')]). rewrite H. unfold mif. now rewrite (bind_yields _ _ _ (blanks_only _ Hr)).
Qed.
End Deco.

(** ** The text of a decorated interval *)
Lemma write_deco_denotes o k r : (o_dec_numeric o = true -> o_base o = b_dec) -> follows None r -> denotes (write_deco (no_width o) (byte k) ++ r) k r.
Proof.
  intros Hn Hr. unfold write_deco. cbn [o_dec_numeric no_width o_upper_text]. destruct (o_dec_numeric o).
  - unfold put_unsigned. cbn [o_base no_width]. rewrite Hn by easy. rewrite pad_none by (cbn [o_width no_width]; lia).
    apply denotes_number; try now destruct k.
    + destruct k; repeat constructor; easy.
    + intros c r' E D. apply (Hr c r' E). revert D. unfold is_decimal. clear. chars c; cbn; try tauto; lia.
  - assert (G : forall s, Forall2 same_letter (list_ascii_of_string (name k)) (txt s) -> denotes (put_text (no_width o) s ++ r) k r).
    { intros s H. unfold put_text. rewrite pad_none by (cbn [o_width no_width]; lia). now apply denotes_name. }
    destruct k, (o_upper_text o); cbn [byte deq]; apply G; cbn; repeat (apply Forall2_cons; [first [left; reflexivity | right; reflexivity]|]); apply Forall2_nil.
Qed.

Section Back.
Context {F : fmt}.
Hypothesis Hs : small_fmt F.
Lemma fits_reading f (x z : itv F) S d : wf x -> fits f x S d -> tightest S z -> included x z /\ (exact_form f \/ x = empty \/ (forall r, mem r x) -> same_set x z).
Proof.
  intros W (_ & H1 & H2 & _) (T1 & T2 & T3). assert (I : included x z) by (intros r Hr; now apply T2, H1). split; [easy|].
  intros H r. split; [apply I|]. apply T3; [easy|]. intros r' Hr'. now apply H2.
Qed.
Lemma follows_nil : follows None []. Proof. intros c r' H. discriminate H. Qed.
Lemma moderate_part t a b c : t = a ++ b ++ c -> moderate t -> moderate b.
Proof. intros ->. unfold moderate. rewrite !app_length. lia. Qed.
(** ** Bare intervals *)
Theorem back_bare o f (x : itv F) t e e' : wf x -> precise f -> m_punct f = true -> blank_fill o ->
  (m_special f = s_bounds -> x <> empty) -> write_itv o f x e = (Ret t, e') -> moderate t ->
  e' = e /\ exists z, returns (text_to_interval t) z /\ wf z /\ included x z /\ (exact_form f \/ x = empty \/ (forall r, mem r x) -> same_set x z).
Proof.
  intros W P M B E H Hm. destruct (write_wrote Hs o f x t e e' W P M B E H) as (-> & a & t0 & S & d & -> & A & L & Hf). split; [easy|].
  assert (N : d <> ill) by apply Hf.
  destruct (bare_string_read_m (F := F) (a ++ t0) a t0 [] S None) as (z & Y & T); try easy; [now rewrite app_nil_r|constructor|now apply Plain with d|apply (moderate_part _ a t0 [] eq_refl); now rewrite app_nil_r|].
  exists z. split; [easy|]. split; [apply T|]. now apply (fits_reading f x z S d).
Qed.
Theorem back_bare_stream o f (x : itv F) t e e' r s : wf x -> precise f -> m_punct f = true -> blank_fill o ->
  (m_special f = s_bounds -> x <> empty) -> write_itv o f x e = (Ret t, e') -> moderate t ->
  good s = true -> skipws s = true -> rest s = t ++ r -> follows None r ->
  exists z, returns (read_itv s) (Some z, setrest r s) /\ wf z /\ included x z /\ (exact_form f \/ x = empty \/ (forall r, mem r x) -> same_set x z).
Proof.
  intros W P M B E H Hm G K R Fo. destruct (write_wrote Hs o f x t e e' W P M B E H) as (-> & a & t0 & S & d & -> & A & L & Hf).
  assert (N : d <> ill) by apply Hf. rewrite <- app_assoc in R.
  destruct (bare_stream_read (F := F) t0 S None a r s) as (z & Y & T); try easy; [now left|now apply Plain with d|apply (moderate_part _ a t0 [] eq_refl); now rewrite app_nil_r|].
  exists z. split; [easy|]. split; [apply T|]. now apply (fits_reading f x z S d).
Qed.

(** ** Decorated intervals *)
(** "_" is not preceded by padding. *)
Definition under_fill (o : ostream) : Prop := (o_width o <= 1)%N \/ (o_adjust o = a_left /\ blank (o_fill o)).
Lemma pad_under o : under_fill o -> exists g, pad o [] (txt "_") = txt "_" ++ g /\ blanks g.
Proof.
  intros [H|[H1 H2]].
  - exists []. split; [|constructor]. rewrite pad_none; [easy|]. cbn. lia.
  - unfold pad. rewrite H1. cbn [app]. eexists. split; [reflexivity|]. unfold spaces. apply Forall_forall. intros c Hc. apply repeat_spec in Hc. now subst c.
Qed.
Lemma under_blank o : under_fill o -> blank_fill o. Proof. intros [H|[_ H]]; [now left|now right]. Qed.
Definition same_form (f g : manip) : Prop := m_number f = m_number g /\ m_precision f = m_precision g.
Lemma fits_width n f (x : itv F) S d : fits (set_string_width n f) x S d -> fits f x S d.
Proof. intros H. exact H. Qed.
Inductive wrote (o : ostream) (f : manip) (x : ditv F) (t : text) : Prop :=
| Wrote_nai : forall a t0, x = nai -> t = a ++ t0 -> blanks a -> nai_literal no_plus int_exponent t0 -> wrote o f x t
| Wrote_empty : forall a t0 S d, x = (empty, trv) -> t = a ++ t0 -> blanks a -> bare t0 S d -> fits f (fst x) S d -> wrote o f x t
| Wrote : forall a t0 S d b k, (exists r, mem r (fst x)) -> snd x = byte k -> k <> d_ill -> t = a ++ t0 ++ txt "_" ++ b ++ write_deco (no_width o) (snd x) ->
    blanks a -> blanks b -> bare t0 S d -> fits f (fst x) S d -> wrote o f x t.
Lemma put_nai o f w v p : blank_fill o -> blanks w -> blanks v -> word "nai" p -> forall n m, exists a t0,
  put_parts o [txt "[" ++ w; MPrint.blanks n; p; MPrint.blanks m; v ++ txt "]"] = a ++ t0 /\ blanks a /\ nai_literal no_plus int_exponent t0 /\ f = f :> manip.
Proof.
  intros B Hw Hv Hp n m. destruct (pad_blank o (txt "[" ++ w) B) as (u & g & E & H1 & H2); [cbn; lia|].
  exists u, (txt "[" ++ (w ++ g ++ MPrint.blanks n) ++ p ++ (MPrint.blanks m ++ v) ++ txt "]"). split; [|split; [easy|split; [|easy]]].
  - unfold put_parts. rewrite E. cbn [concat]. now rewrite app_nil_r, <- !app_assoc.
  - econstructor. apply Nai_word; [|apply blanks_app; [apply spaces_blanks|easy]|easy]. repeat apply blanks_app; try easy. apply spaces_blanks.
Qed.
Lemma write_ditv_wrote o f (x : ditv F) t e e' : wf_dec x -> (exists k, snd x = byte k) -> precise f -> m_punct f = true -> blank_fill o ->
  ((exists r, mem r (fst x)) -> under_fill o) ->
  (m_special f = s_bounds -> x <> (empty, trv)) -> write_ditv o f x e = (Ret t, e') -> e' = e /\ wrote o f x t.
Proof.
  intros W [k Hk] P M B U E. unfold write_ditv. rewrite (is_valid_dec_wf x W), (is_nai_wf x W), (is_empty_dec_wf x W). mreds.
  destruct (deq_spec (snd x) ill) as [D|D].
  - mreds. rewrite M. intros H. apply ret_inv in H. destruct H as [<- ->]. split; [easy|].
    assert (Ex : x = nai) by (rewrite (surjective_pairing x), D; destruct W as [[-> _]|[_ [H2 _]]]; [reflexivity|contradiction]).
    set (n := (N.to_nat (m_string_width f) - _)%nat).
    destruct (put_nai o f (MPrint.blanks (N.to_nat (m_width f) - 1)) (MPrint.blanks (N.to_nat (m_width f) - 1)) (txt (if o_upper_text o then "NAI" else "nai")) B (spaces_blanks _) (spaces_blanks _)) with (n := (n / 2)%nat) (m := (n - n / 2)%nat) as (a & t0 & E1 & E2 & E3 & _); [now destruct (o_upper_text o)|].
    now apply Wrote_nai with a t0.
  - mreds. destruct (isnan (fst (fst x))) eqn:N; mreds.
    + assert (Ex : x = (empty, trv)). { rewrite (surjective_pairing x). destruct W as [[H1 [H2|H2]]|[[r [H1 _]] _]]; [contradiction|now rewrite H1, H2|]. now destruct (fst (fst x)). }
      intros H. apply (write_wrote Hs) in H; try easy; [|now left; rewrite Ex|intros Hm Hx; apply (E Hm); now rewrite Ex].
      destruct H as (-> & a & t0 & S & d & E1 & E2 & E3 & E4). split; [easy|]. now apply Wrote_empty with a t0 S d.
    + assert (Ne : exists r, mem r (fst x)). { destruct W as [[H1 _]|[H1 _]]; [|easy]. now rewrite H1 in N. }
      intros H. apply bind_inv in H. destruct H as (t1 & e1 & H1 & H2). apply ret_inv in H2. destruct H2 as [<- ->].
      apply (write_wrote Hs) in H1; try easy; [|now right|intros _ Hx; rewrite Hx in N; easy].
      destruct H1 as (-> & a & t0 & S & d & -> & E2 & E3 & E4). split; [easy|]. rewrite M. unfold put_parts. cbn [concat]. rewrite app_nil_r.
      destruct (pad_under o (U Ne)) as (g & -> & Bg). apply Wrote with a t0 S d g k; try easy; [intros ->; now apply D|]. now rewrite <- !app_assoc.
Qed.
(** The decoration read back: com becomes dac when the bounds read overflow. *)
Definition same_deco (d : deco) (y : ditv F) : Prop := snd y = d \/ (d = com /\ snd y = dac /\ ~ bounded_rep (fst y)).
Definition back (f : manip) (x y : ditv F) : Prop :=
  (snd x = ill -> y = nai) /\ (snd x <> ill -> included (fst x) (fst y) /\ same_deco (snd x) y /\
  (exact_form f \/ fst x = empty \/ (forall r, mem r (fst x)) -> same_set (fst x) (fst y) /\ snd y = snd x)).
Lemma tightest_same_bounded (x z : itv F) : wf z -> (exists r, mem r x) -> same_set x z -> bounded_rep x -> bounded_rep z.
Proof.
  intros Wz [r Hr] H [B1 B2].
  destruct (bounds_of z) as [[Z1|Z1] [Z2|Z2]]; [exists r; now apply H|easy|exfalso..].
  - destruct (proj2 (H (Rmax r (B2R (snd x)) + 1)%R)) as [_ Hu]; [|rewrite ub_fin in Hu by easy; pose proof (Rmax_r r (B2R (snd x))); lra].
    destruct (proj1 (H r) Hr) as [L _]. split; [|now rewrite Z2]. rewrite lb_fin in * by easy. pose proof (Rmax_l r (B2R (snd x))). lra.
  - destruct (proj2 (H (Rmin r (B2R (fst x)) - 1)%R)) as [Hl _]; [|rewrite lb_fin in Hl by easy; pose proof (Rmin_r r (B2R (fst x))); lra].
    destruct (proj1 (H r) Hr) as [_ U]. split; [now rewrite Z1|]. rewrite ub_fin in * by easy. pose proof (Rmin_l r (B2R (fst x))). lra.
  - destruct (proj2 (H (B2R (fst x) - 1)%R)) as [Hl _]; [split; [now rewrite Z1|now rewrite Z2]|]. rewrite lb_fin in Hl by easy. lra.
Qed.
Lemma back_reading f (x y : ditv F) S d k : wf_dec x -> (exists r, mem r (fst x)) -> snd x = byte k -> k <> d_ill -> fits f (fst x) S d -> reading S (Some (byte k)) y -> back f x y.
Proof.
  intros W Ne Hk K Hf [T (e & b & He & Hb & Hd)].
  assert (Dn : snd x <> ill) by (rewrite Hk; now destruct k). split; [easy|]. intros _.
  assert (Wx : wf (fst x)) by (now right). destruct (fits_reading f (fst x) (fst y) S d Wx Hf T) as [I Sm].
  assert (e = false) as ->. { destruct e; [|easy]. destruct Ne as [r Hr]. destruct Hf as (_ & H1 & _). exfalso. apply (proj1 He eq_refl r). now apply H1. }
  unfold literal_decoration in Hd. split; [easy|].
  assert (Q : b = true \/ byte k <> com -> snd y = snd x).
  { rewrite Hd, Hk. destruct b; [easy|]. intros [?|H]; [easy|]. destruct k; easy. }
  split.
  - destruct b; [left; now apply Q; left|]. destruct (N.eq_dec (byte k) com) as [Ek|Ek]; [|left; now apply Q; right].
    right. rewrite Hk, Hd, Ek. split; [easy|]. split; [easy|]. intros Hy. now apply Hb in Hy.
  - intros Hx. specialize (Sm Hx). split; [easy|]. apply Q. destruct (N.eq_dec (byte k) com) as [Ek|Ek]; [left|now right]. apply Hb.
    apply (tightest_same_bounded (fst x)); try easy; [apply T|]. destruct W as [[H1 [H2|H2]]|[_ [_ H]]]; [easy|rewrite Hk, Ek in H2; easy|]. apply H. now rewrite Hk.
Qed.
Lemma fits_deco f (x : ditv F) S d k : wf_dec x -> (exists r, mem r (fst x)) -> snd x = byte k -> fits f (fst x) S d -> (byte k <= d)%N.
Proof.
  intros W Ne Hk (_ & _ & _ & Hf). destruct (Hf Ne) as [H1 H2]. destruct W as [[H3 [H4|H4]]|[_ [_ H]]].
  - rewrite Hk in H4. rewrite H4. unfold ill. lia.
  - rewrite Hk in H4. rewrite H4. unfold trv, dac in *. lia.
  - destruct k; cbn [byte]; unfold dac in *; try lia. rewrite H2; [unfold com; lia|]. now apply H.
Qed.
Theorem back_dec o f (x : ditv F) t e e' : wf_dec x -> (exists k, snd x = byte k) -> precise f -> m_punct f = true -> blank_fill o ->
  ((exists r, mem r (fst x)) -> under_fill o /\ (o_dec_numeric o = true -> o_base o = b_dec)) ->
  (m_special f = s_bounds -> x <> (empty, trv)) -> write_ditv o f x e = (Ret t, e') -> moderate t ->
  e' = e /\ exists y, returns (text_to_decorated_interval t) y /\ back f x y.
Proof.
  intros W Hk P M B U E H Hm. destruct (write_ditv_wrote o f x t e e' W Hk P M B (fun h => proj1 (U h)) E H) as [-> Wr]. split; [easy|].
  destruct Wr as [a t0 -> -> A L | a t0 S d -> -> A L Hf | a t0 S d b k Ne Ek K -> A Bb L Hf].
  - exists nai. split; [|now split]. apply (string_read_nai_m (a ++ t0) a t0 []); [now rewrite app_nil_r|easy|constructor|easy|apply (moderate_part _ a t0 [] eq_refl); now rewrite app_nil_r].
  - assert (N : d <> ill) by apply Hf.
    destruct (string_read_m (F := F) (a ++ t0) a t0 [] S None) as (y & Y & R); [now rewrite app_nil_r|easy|constructor|now apply Plain with d|apply (moderate_part _ a t0 [] eq_refl); now rewrite app_nil_r|].
    exists y. split; [easy|]. split; [easy|]. intros _. cbn [fst snd] in *. destruct R as [T (e0 & b0 & He & Hb & Hd)].
    destruct (fits_reading f empty (fst y) S d) as [I Sm]; try easy; [now left|].
    assert (e0 = true) as ->. { apply He. intros r Hr. destruct Hf as (_ & _ & Hf & _). now destruct (Hf (or_intror (or_introl eq_refl)) r Hr) as [? _]. }
    split; [easy|]. split; [now left|]. intros _. split; [|easy]. apply Sm. tauto.
  - assert (N : d <> ill) by apply Hf. destruct (decorated_string (F := F) (a ++ t0 ++ txt "_" ++ b ++ write_deco (no_width o) (snd x)) a t0 S d b (write_deco (no_width o) (snd x) ++ []) k []) as (y & Y & R); try easy.
    + now rewrite app_nil_r.
    + eapply moderate_part, Hm. reflexivity.
    + rewrite Ek. apply write_deco_denotes; [apply (U Ne)|apply follows_nil].
    + constructor.
    + now apply (fits_deco f x S).
    + exists y. split; [easy|]. now apply (back_reading f x y S d k).
Qed.
Theorem back_dec_stream o f (x : ditv F) t e e' r s : wf_dec x -> (exists k, snd x = byte k) -> precise f -> m_punct f = true -> blank_fill o ->
  ((exists r, mem r (fst x)) -> under_fill o /\ (o_dec_numeric o = true -> o_base o = b_dec)) ->
  (m_special f = s_bounds -> x <> (empty, trv)) -> write_ditv o f x e = (Ret t, e') -> moderate t ->
  good s = true -> skipws s = true -> basef s = b_dec -> rest s = t ++ r -> follows None r ->
  exists y s', returns (read_ditv s) (Some y, s') /\ ok s' = true /\ rest s' = r /\ (good s' = true \/ r = []) /\ back f x y.
Proof.
  intros W Hk P M B U E H Hm G Ks Hb0 R0 Fo. destruct (write_ditv_wrote o f x t e e' W Hk P M B (fun h => proj1 (U h)) E H) as [-> Wr].
  destruct Wr as [a t0 -> -> A L | a t0 S d -> -> A L Hf | a t0 S d b k Ne Ek K -> A Bb L Hf].
  - exists nai, (setrest r s). rewrite <- app_assoc in R0. split; [apply (stream_read_nai t0 a r s); try easy; [now left|apply (moderate_part _ a t0 [] eq_refl); now rewrite app_nil_r]|].
    split; [now apply good_ok|]. split; [easy|]. split; [now left|now split].
  - assert (N : d <> ill) by apply Hf. rewrite <- app_assoc in R0.
    destruct (stream_read (F := F) t0 S None a r s) as (y & Y & R); try easy; [now left|now apply Plain with d|apply (moderate_part _ a t0 [] eq_refl); now rewrite app_nil_r|].
    exists y, (setrest r s). split; [easy|]. split; [now apply good_ok|]. split; [easy|]. split; [now left|]. split; [easy|]. intros _. cbn [fst snd] in *. destruct R as [T (e0 & b0 & He & Hb & Hd)].
    destruct (fits_reading f empty (fst y) S d) as [I Sm]; try easy; [now left|].
    assert (e0 = true) as ->. { apply He. intros q Hr. destruct Hf as (_ & _ & Hf & _). now destruct (Hf (or_intror (or_introl eq_refl)) q Hr) as [? _]. }
    split; [easy|]. split; [now left|]. intros _. split; [|easy]. apply Sm. tauto.
  - assert (N : d <> ill) by apply Hf. destruct (decorated_read (F := F) t0 S d b (write_deco (no_width o) (snd x) ++ r) k r a s) as (y & s' & Y & O & R & Gs & Rd); try easy.
    + rewrite R0. now rewrite <- !app_assoc.
    + now left.
    + eapply moderate_part, Hm. reflexivity.
    + rewrite Ek. apply write_deco_denotes; [apply (U Ne)|easy].
    + now apply (fits_deco f x S).
    + exists y, s'. split; [easy|]. split; [easy|]. split; [easy|]. split; [easy|]. now apply (back_reading f x y S d k).
Qed.
End Back.
