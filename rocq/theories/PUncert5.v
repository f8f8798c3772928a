(** * Proofs: writing and reading back the uncertain form *)
From Coq Require Import ZArith NArith Reals Bool Ascii String List Lia Lra.
From Flocq Require Import Core.Core IEEE754.BinarySingleNaN.
From Verif Require Import Fmt Spec FloatFacts Exc Deco SpecApi SpecNum SpecDeco MBase MBool MNum PBase PClass PNumF MStream MDecoIo MText PText PText2 PPrint PPrint2 MPrint MRegex MRead SpecDecoText SpecRead PReadStr MUncertain SpecLiteral SpecUncertain PTrip PTrip2 PTrip3 PUncert PUncert2 PUncert3 PUncert4.
Import ListNotations.
Local Open Scope Z_scope.
Local Open Scope list_scope.
Local Open Scope m_scope.
Local Notation blanks := SpecLiteral.blanks.

Section Write.
Variable F : fmt.
Hypothesis Hs : small_fmt F.

(** ** Unbounded intervals *)
Theorem unbounded_body k sci p0 up (x : itv F) st t st' : (exists r, mem r x) -> ~ bounded_rep x -> (p0 <= 2 ^ 26)%N ->
  uncertain_body ample_get k sci p0 up x st = (Ret t, st') -> st' = st /\ unbounded_text sci (digits_of p0) x t.
Proof.
  intros Ne Hb Hp. unfold uncertain_body, digits_of in *. set (p := (if (p0 =? 0)%N then 6%N else p0)) in *.
  assert (Hp0 : (p <> 0)%N) by (unfold p; destruct (N.eqb_spec p0 0); lia). assert (Hp1 : Z.of_nat (N.to_nat p) <= 2 ^ 26) by (unfold p; destruct (p0 =? 0)%N; lia). assert (Hp2 : (0 < N.to_nat p)%nat) by lia. clearbody p.
  assert (W : wf x) by now right. rewrite is_entire_wf by easy. rewrite !ample_text by easy. set (q := N.to_nat p) in *.
  destruct (bounds_of x Ne) as [X1 X2]. destruct x as [a b]. cbn [fst snd] in *.
  destruct X1 as [X1| ->].
  - destruct X2 as [X2| ->]; [exfalso; apply Hb; now split|].
    assert (feq a fminf = false) as -> by (destruct a as [|[]| |[]]; easy). mreds. assert (isinf a = false) as -> by now destruct a. change (isinf (@finf F)) with true. cbn iota.
    destruct (number_shape F sci up mode_DN q a X1 Hp2) as (s & N & e & -> & Sh). intros H. apply put_mark_written in H. destruct H as [-> ->]. split; [easy|].
    exists (Some (IZR (sg s * N) * unit10 e q)%R), None. split.
    { pose proof (literal_infinite s q N up e u_up up (sh_nonneg _ _ _ _ _ _ _ _ Sh) Hp1 (shaped_int F Hs _ _ _ _ _ _ _ Sh)) as L. cbn [downwards upwards side_text] in L. destruct up; exact L. }
    cbn [fst snd]. rewrite X1. split; [|easy]. eexists. split; [reflexivity|]. split.
    + pose proof (shaped_low F _ _ _ _ _ _ Sh) as L. replace (sgn s (IZR N * unit10 e q)) with (IZR (sg s * N) * unit10 e q)%R in L by (rewrite IZR_sg; destruct s; cbn [sgn]; ring). exact L.
    + intros ->. pose proof (fixed_exp F _ _ _ _ _ _ Sh). subst e. rewrite (fixed_val F _ _ _ _ _ Sh), unit_none. apply floor_near.
  - change (feq fminf fminf) with true. destruct X2 as [X2| ->].
    + assert (feq b finf = false) as -> by (destruct b as [|[]| |[]]; easy). mreds. change (isinf (@fminf F)) with true. cbn iota.
      destruct (number_shape F sci up mode_UP q b X2 Hp2) as (s & N & e & -> & Sh). intros H. apply put_mark_written in H. destruct H as [-> ->]. split; [easy|].
      exists None, (Some (IZR (sg s * N) * unit10 e q)%R). split.
      { pose proof (literal_infinite s q N up e u_down up (sh_nonneg _ _ _ _ _ _ _ _ Sh) Hp1 (shaped_int F Hs _ _ _ _ _ _ _ Sh)) as L. cbn [downwards upwards side_text] in L. destruct up; exact L. }
      cbn [fst snd]. rewrite X2. split; [easy|]. eexists. split; [reflexivity|]. split.
      * pose proof (shaped_upp F _ _ _ _ _ _ Sh) as L. replace (sgn s (IZR N * unit10 e q)) with (IZR (sg s * N) * unit10 e q)%R in L by (rewrite IZR_sg; destruct s; cbn [sgn]; ring). exact L.
      * intros ->. pose proof (fixed_exp F _ _ _ _ _ _ Sh). subst e. rewrite (fixed_val F _ _ _ _ _ Sh), unit_none. apply ceil_near.
    + change (feq finf finf) with true. mreds. intros H. destruct (mid_ok (fminf, finf) Ne) as (m & Hm & Fm & _). unfold returns in Hm. apply bind_inv in H. destruct H as (m' & s2 & H0 & H). rewrite Hm in H0. injection H0 as <- <-.
      rewrite ample_text in H by easy. fold q in H. destruct (number_shape F sci up mode_NE q m Fm Hp2) as (s & N & e & E & Sh). revert H. mreds. rewrite E. intros H. apply put_mark_written in H. destruct H as [-> ->]. split; [easy|].
      exists None, None. split; [|easy].
      pose proof (literal_infinite s q N up e u_both up (sh_nonneg _ _ _ _ _ _ _ _ Sh) Hp1 (shaped_int F Hs _ _ _ _ _ _ _ Sh)) as L. exact L.
Qed.

(** ** The text written *)
Definition decimal_manip : manip := Manip r_decimal 0 0 s_text true 0.
Lemma bounded_bounds (x : itv F) : (exists r, mem r x) -> bounded_rep x -> (B2R (fst x) <= B2R (snd x))%R.
Proof. intros [r [H1 H2]] [B1 B2]. rewrite lb_fin in H1 by easy. rewrite ub_fin in H2 by easy. lra. Qed.
Lemma bounded_fits k sci p (x : itv F) t : (exists r, mem r x) -> bounded_rep x -> bounded_text k sci p x t -> exists S d, bare t S d /\ fits decimal_manip x S d.
Proof.
  intros Ne Hb (c & u & n & _ & _ & B & I & _). eexists; eexists; split; [exact B|]. split; [easy|]. split; [exact I|]. split.
  - intros [[H _]|[H|H]]; [easy|subst x; now destruct Ne as [r [H _]]|]. exfalso. now apply (entire_unbounded x).
  - intros _. split; [unfold dac, com; lia|easy].
Qed.
Lemma unbounded_fits sci p (x : itv F) t : (exists r, mem r x) -> ~ bounded_rep x -> unbounded_text sci p x t -> exists S d, bare t S d /\ fits decimal_manip x S d.
Proof.
  intros Ne Hb (l & u & B & L & U). eexists; eexists; split; [exact B|]. split; [easy|]. split; [|split].
  - intros r [M1 M2]. destruct (bounds_of x Ne) as [X1 X2]. split.
    + destruct (is_finite (fst x)) eqn:E; [|now subst l]. destruct L as (a & -> & L & _). rewrite lb_fin in M1 by easy. lra.
    + destruct (is_finite (snd x)) eqn:E; [|now subst u]. destruct U as (a & -> & U & _). rewrite ub_fin in M2 by easy. lra.
  - intros [[H _]|[H|H]]; [easy|subst x; now destruct Ne as [r [H _]]|]. intros r _. apply H.
  - intros _. split; [unfold dac; lia|]. now intros H.
Qed.
Lemma bounded_dec (x : itv F) : bounded_rep x \/ ~ bounded_rep x.
Proof. unfold bounded_rep. destruct (is_finite (fst x)), (is_finite (snd x)); [left|right|right|right]; easy. Qed.
Lemma bare_nonempty t S d : bare t S d -> t <> [].
Proof.
  intros H E. destruct H as [a A|a w b A B C|a w b A B C|a w b A B C|a t b r A B C|a t b c t' e l u A B C D G H I|s g m n k t rad w dn up x e A B C D G H I]; try discriminate E.
  apply app_eq_nil in E. destruct E as [_ E]. apply app_eq_nil in E. destruct E as [_ E]. discriminate E.
Qed.
Theorem body_fits k sci p0 up (x : itv F) st t st' : (exists r, mem r x) -> (p0 <= 2 ^ 26)%N -> (k = u_both -> roomy F sci (digits_of p0)) ->
  uncertain_body ample_get k sci p0 up x st = (Ret t, st') -> st' = st /\ exists S d, bare t S d /\ fits decimal_manip x S d.
Proof.
  intros Ne Hp Hr H. destruct (bounded_dec x) as [B|B].
  - apply (bounded_body F Hs) in H; try easy; try apply B; [|now apply bounded_bounds]. destruct H as [-> H]. split; [easy|]. now apply bounded_fits with k sci (digits_of p0).
  - apply unbounded_body in H; try easy. destruct H as [-> H]. split; [easy|]. now apply unbounded_fits with sci (digits_of p0).
Qed.
Lemma mem_not_nan (x : itv F) : (exists r, mem r x) -> isnan (fst x) = false.
Proof. intros [r [H _]]. now destruct (fst x). Qed.
(** The text is the padded text of the body. *)
Lemma write_body k sci o f (x : itv F) t st st' : (exists r, mem r x) -> blank_fill o ->
  write_any ample_get (Some k) sci o f x st = (Ret t, st') ->
  exists t0 s1, uncertain_body ample_get k sci (m_precision f) (o_upper_text o) x st = (Ret t0, s1) /\ s1 = st' /\
    (t0 <> [] -> exists a b, t = a ++ t0 ++ b /\ blanks a /\ blanks b /\ ((o_width o <= 1)%N -> b = [])).
Proof.
  intros Ne Ho H. assert (W : wf x) by now right. unfold write_any in H. rewrite is_valid_wf, is_empty_wf, (mem_not_nan x Ne) in H by easy. revert H. mreds. intros H.
  apply bind_inv in H. destruct H as (t0 & s1 & H1 & H). apply ret_inv in H. destruct H as [<- ->]. exists t0, s1. split; [easy|]. split; [easy|]. intros Nt.
  set (sp := MPrint.blanks (N.to_nat (m_string_width f) - length t0)).
  assert (L : (1 <= length (sp ++ t0))%nat) by (rewrite app_length; destruct t0; [easy|cbn; lia]).
  destruct (N.leb_spec (o_width o) 1) as [L1|L1].
  - exists sp, []. rewrite pad_none by lia. rewrite app_nil_r. split; [easy|]. split; [apply spaces_blanks|]. split; [constructor|easy].
  - destruct (pad_blank o (sp ++ t0) Ho L) as (f0 & g & -> & B1 & B2). exists (f0 ++ sp), g. split; [now rewrite <- !app_assoc|]. split; [apply blanks_app; [easy|apply spaces_blanks]|]. split; [easy|lia].
Qed.
Theorem write_any_wrote k sci o f (x : itv F) t st st' : (exists r, mem r x) -> precise f -> blank_fill o -> (k = u_both -> roomy F sci (digits_of (m_precision f))) ->
  write_any ample_get (Some k) sci o f x st = (Ret t, st') ->
  st' = st /\ exists a t0 b S d, t = a ++ t0 ++ b /\ blanks a /\ blanks b /\ ((o_width o <= 1)%N -> b = []) /\ bare t0 S d /\ fits decimal_manip x S d.
Proof.
  intros Ne Hp Ho Hr H. destruct (write_body _ _ _ _ _ _ _ _ Ne Ho H) as (t0 & s1 & B & -> & Q). apply body_fits in B; try easy. destruct B as (-> & S & d & B1 & B2). split; [easy|].
  destruct (Q (bare_nonempty _ _ _ B1)) as (a & b & -> & A & B & C). now exists a, t0, b, S, d.
Qed.
Lemma bounded_nonempty k sci p (x : itv F) t : bounded_text k sci p x t -> t <> [].
Proof. intros (c & u & n & _ & _ & B & _). now apply bare_nonempty in B. Qed.
Lemma unbounded_nonempty sci p (x : itv F) t : unbounded_text sci p x t -> t <> [].
Proof. intros (c & u & B & _). now apply bare_nonempty in B. Qed.
Theorem write_any_text k sci o f (x : itv F) t st st' : (exists r, mem r x) -> precise f -> blank_fill o -> (k = u_both -> roomy F sci (digits_of (m_precision f))) ->
  write_any ample_get (Some k) sci o f x st = (Ret t, st') ->
  st' = st /\ exists a t0 b, t = a ++ t0 ++ b /\ blanks a /\ blanks b /\
    (bounded_rep x -> bounded_text k sci (digits_of (m_precision f)) x t0) /\ (~ bounded_rep x -> unbounded_text sci (digits_of (m_precision f)) x t0).
Proof.
  intros Ne Hp Ho Hr H. destruct (write_body _ _ _ _ _ _ _ _ Ne Ho H) as (t0 & s1 & B & -> & Q). destruct (bounded_dec x) as [Hb|Hb].
  - apply (bounded_body F Hs) in B; try easy; try apply Hb; [|now apply bounded_bounds]. destruct B as [-> B]. split; [easy|]. destruct (Q (bounded_nonempty _ _ _ _ _ B)) as (a & b & -> & A & A' & _). now exists a, t0, b.
  - apply unbounded_body in B; try easy. destruct B as [-> B]. split; [easy|]. destruct (Q (unbounded_nonempty _ _ _ _ B)) as (a & b & -> & A & A' & _). now exists a, t0, b.
Qed.
(** ** What is read back *)
Theorem uncertain_back k sci o f (x : itv F) t st st' : (exists r, mem r x) -> precise f -> blank_fill o -> (k = u_both -> roomy F sci (digits_of (m_precision f))) ->
  write_any ample_get (Some k) sci o f x st = (Ret t, st') -> moderate t ->
  exists z, returns (text_to_interval t) z /\ wf z /\ included x z /\ ((forall r, mem r x) -> same_set x z).
Proof.
  intros Ne Hp Ho Hr H Hm. destruct (write_any_wrote _ _ _ _ _ _ _ _ Ne Hp Ho Hr H) as (-> & a & t0 & b & S & d & E & A & B & _ & L & Hf).
  assert (N : d <> ill) by apply Hf.
  destruct (bare_string_read_m (F := F) t a t0 b S None) as (z & Y & T); try easy; [now apply Plain with d|now apply (moderate_part t a t0 b)|].
  exists z. split; [easy|]. split; [apply T|]. destruct (fits_reading decimal_manip x z S d) as [I Sm]; try easy; [now right|]. split; [easy|]. intros Hx. apply Sm. tauto.
Qed.
Theorem uncertain_back_dec k sci o f (x : ditv F) t st st' : wf_dec x -> (exists r, mem r (fst x)) -> (exists j, snd x = byte j) -> precise f -> m_punct f = true -> (o_width o <= 1)%N ->
  (o_dec_numeric o = true -> o_base o = b_dec) -> (k = u_both -> roomy F sci (digits_of (m_precision f))) ->
  write_ditv_any ample_get (Some k) sci o f x st = (Ret t, st') -> moderate t ->
  exists y, returns (text_to_decorated_interval t) y /\ included (fst x) (fst y) /\ same_deco (snd x) y /\ ((forall r, mem r (fst x)) -> same_set (fst x) (fst y) /\ snd y = snd x).
Proof.
  intros W Ne [j Hj] Hp M Ho Hn Hr H Hm. unfold write_ditv_any in H. rewrite (is_valid_dec_wf x W), (is_nai_wf x W), (is_empty_dec_wf x W), (mem_not_nan _ Ne) in H. revert H. mreds.
  assert (D : snd x <> ill). { destruct W as [[H1 _]|[_ [H1 _]]]; [|easy]. destruct Ne as [r [H _]]. rewrite H1 in H. easy. }
  destruct (deq_spec (snd x) ill) as [|_]; [easy|]. mreds. intros H. apply bind_inv in H. destruct H as (t1 & s1 & H1 & H). apply ret_inv in H. destruct H as [<- ->].
  set (f' := set_string_width _ f) in H1. destruct (write_any_wrote k sci o f' (fst x) t1 st s1 Ne) as (-> & a & t0 & b & S & d & E & A & B & C & L & Hf); try easy; [now left|]. rewrite (C Ho), app_nil_r in E. subst t1.
  assert (J : j <> d_ill) by (intros ->; now apply D). assert (N : d <> ill) by apply Hf.
  rewrite M in *. unfold put_parts in *. cbn [concat] in *. rewrite app_nil_r in *. rewrite pad_none in * by (cbn; lia).
  destruct (decorated_string (F := F) ((a ++ t0) ++ txt "_" ++ write_deco (no_width o) (snd x)) a t0 S d [] (write_deco (no_width o) (snd x) ++ []) j []) as (y & Y & R); try easy.
  - rewrite app_nil_r. cbn [app]. now rewrite <- app_assoc.
  - eapply (moderate_part _ a t0), Hm. now rewrite <- app_assoc.
  - constructor.
  - rewrite Hj. apply write_deco_denotes; [easy|apply follows_nil].
  - constructor.
  - now apply (fits_deco decimal_manip x S).
  - exists y. split; [easy|]. destruct (back_reading decimal_manip x y S d j) as [_ Bk]; try easy. destruct (Bk D) as (B1 & B2 & B3). split; [easy|]. split; [easy|]. intros Hx. apply B3. tauto.
Qed.
End Write.
