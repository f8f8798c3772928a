(** * Proofs: written intervals are read back *)
From Coq Require Import ZArith NArith Reals Bool Ascii String List Lia Lra.
From Flocq Require Import Core.Core IEEE754.BinarySingleNaN.
From Verif Require Import Fmt Spec FloatFacts Exc Deco SpecApi SpecDeco MBase MBool MNum PBase PClass MStream MDecoIo MText MPrint PText PText2 PPrint PPrint2 MRegex MRead SpecDecoText SpecLiteral SpecRead PReadStr PTrip.
Import ListNotations.
Local Open Scope list_scope.
Local Open Scope m_scope.

(** ** White space *)
Lemma spaces_blanks n : SpecLiteral.blanks (spaces n " "%char).
Proof. unfold spaces. apply Forall_forall. intros c H. apply repeat_spec in H. subst c. now right. Qed.
Lemma blanks_app a b : SpecLiteral.blanks a -> SpecLiteral.blanks b -> SpecLiteral.blanks (a ++ b).
Proof. intros H1 H2. now apply Forall_app. Qed.
(** Padding is white space. *)
Definition blank_fill (o : ostream) : Prop := (o_width o <= 1)%N \/ blank (o_fill o).
Lemma pad_blank o a : blank_fill o -> (1 <= length a)%nat -> exists f g, pad o [] a = f ++ a ++ g /\ SpecLiteral.blanks f /\ SpecLiteral.blanks g.
Proof.
  intros H L. unfold pad. cbn [app]. set (n := (N.to_nat (o_width o) - length a)%nat).
  assert (B : SpecLiteral.blanks (spaces n (o_fill o))).
  { unfold spaces. destruct H as [H|H]; [replace n with 0%nat by (unfold n; lia); constructor|]. apply Forall_forall. intros c Hc. apply repeat_spec in Hc. now subst c. }
  destruct (o_adjust o).
  - exists (spaces n (o_fill o)), []. rewrite app_nil_r. split; [easy|]. split; [easy|constructor].
  - exists [], (spaces n (o_fill o)). split; [easy|]. split; [constructor|easy].
  - exists (spaces n (o_fill o)), []. rewrite app_nil_r. split; [easy|]. split; [easy|constructor].
Qed.
Lemma pad_none o a : (o_width o <= N.of_nat (length a))%N -> pad o [] a = a.
Proof.
  intros H. unfold pad. cbn [app]. replace (N.to_nat (o_width o) - length a)%nat with 0%nat by lia. cbn. rewrite app_nil_r. now destruct (o_adjust o).
Qed.
Local Notation bare := (bare_literal no_plus int_exponent).

Section Trip.
Context {F : fmt}.
Hypothesis Hs : small_fmt F.
(** The written bounds. *)
Definition written (m : mode) (f : manip) (up : bool) (x : float F) : text :=
  number_text (conversion_of (m_number f)) up m (precision_of (m_number f) (m_precision f)) x.
Definition precise (f : manip) : Prop := (m_precision f <= 2 ^ 26)%N.
Definition exact_form (f : manip) : Prop := m_number f = r_hex /\ m_precision f = 0%N.
Lemma written_num m f up x : precise f -> is_finite x = true ->
  exists r, number no_plus int_exponent (written m f up x) r /\ directed m r (B2R x) /\ (exact_form f -> r = B2R x).
Proof.
  intros Hp Hx. unfold written.
  destruct (finite_num F Hs (conversion_of (m_number f)) up m (precision_of (m_number f) (m_precision f)) x Hx) as (r & H1 & H2 & H3).
  { intros q. unfold precision_of, precise in *. destruct (0 <? m_precision f)%N; [intros [= <-]; lia|]. destruct (m_number f); intros [= <-]; lia. }
  exists r. split; [easy|]. split; [easy|]. intros [E1 E2]. apply H3; [now rewrite E1|]. unfold precision_of. now rewrite E1, E2.
Qed.
Lemma written_low f up x : precise f -> (is_finite x = true \/ x = fminf) ->
  exists l, lower_bound no_plus int_exponent (written mode_DN f up x) l /\ (l = None <-> x = fminf) /\
    (forall r, lb x r -> match l with Some a => (a <= r)%R | None => True end) /\
    (exact_form f -> forall r, match l with Some a => (a <= r)%R | None => True end -> lb x r).
Proof.
  intros Hp [Hx| ->].
  - destruct (written_num mode_DN f up x Hp Hx) as (a & H1 & H2 & H3). exists (Some a). split; [now constructor|]. split; [split; [easy|now intros ->]|].
    cbn in H2. split.
    + intros r Hr. rewrite lb_fin in Hr by easy. lra.
    + intros Hf r Hr. rewrite lb_fin by easy. now rewrite <- (H3 Hf).
  - exists None. split; [|easy]. apply Lower_inf. left. unfold written. now destruct up.
Qed.
Lemma written_upp f up x : precise f -> (is_finite x = true \/ x = finf) ->
  exists u, upper_bound no_plus int_exponent (written mode_UP f up x) u /\ (u = None <-> x = finf) /\
    (forall r, ub x r -> match u with Some a => (r <= a)%R | None => True end) /\
    (exact_form f -> forall r, match u with Some a => (r <= a)%R | None => True end -> ub x r).
Proof.
  intros Hp [Hx| ->].
  - destruct (written_num mode_UP f up x Hp Hx) as (a & H1 & H2 & H3). exists (Some a). split; [now constructor|]. split; [split; [easy|now intros ->]|].
    cbn in H2. split.
    + intros r Hr. rewrite ub_fin in Hr by easy. lra.
    + intros Hf r Hr. rewrite ub_fin by easy. now rewrite <- (H3 Hf).
  - exists None. split; [|easy]. apply Upper_inf. left. unfold written. now destruct up.
Qed.
Lemma get_str_text E m f up (x : float F) t s s' : get_str E m (m_number f) (m_width f) (m_precision f) up x s = (Ret t, s') ->
  s' = s /\ exists w, SpecLiteral.blanks w /\ t = w ++ written m f up x.
Proof.
  unfold get_str. destruct (_ <=? _)%N; [|easy]. intros [= <- <-]. split; [easy|]. unfold sprintf, padded, written. eexists. split; [|reflexivity]. apply spaces_blanks.
Qed.
(** ** What is written *)
Lemma bounds_of (x : itv F) : (exists r, mem r x) -> (is_finite (fst x) = true \/ fst x = fminf) /\ (is_finite (snd x) = true \/ snd x = finf).
Proof.
  intros (r & H1 & H2). destruct x as [a b]. cbn [fst snd] in *. split.
  - destruct a as [s|s| |s ma e H]; cbn in H1; try easy; [now left|right; now subst s|now left].
  - destruct b as [s|s| |s ma e H]; cbn in H2; try easy; [now left|right; now subst s|now left].
Qed.
Lemma put7 o b1 p2 p3 b2 p4 : blank_fill o -> SpecLiteral.blanks b1 -> exists f g, SpecLiteral.blanks f /\ SpecLiteral.blanks g /\
  put_parts o [txt "["; b1; p2; p3; b2; p4; txt "]"] = f ++ txt "[" ++ (g ++ b1) ++ p2 ++ p3 ++ b2 ++ p4 ++ txt "]".
Proof.
  intros Hf Hb. destruct (pad_blank o (txt "[") Hf) as (u & v & E & H1 & H2); [cbn; lia|]. exists u, v. split; [easy|]. split; [easy|].
  unfold put_parts. rewrite E. cbn [concat]. rewrite app_nil_r, <- !app_assoc. reflexivity.
Qed.
Lemma empty_nan (x : itv F) : wf x -> isnan (fst x) = true -> x = empty.
Proof. intros [->|[r [H _]]] E; [easy|]. destruct (fst x); easy. Qed.
Lemma entire_mem (x : itv F) : feq (fst x) fminf && feq (snd x) finf = true -> forall r, mem r x.
Proof.
  intros E r. apply andb_prop in E. destruct E as [E1 E2]. destruct x as [a b]. cbn [fst snd] in *. split; cbn [fst snd].
  - destruct a as [s|s| |s ma e H]; try destruct s; now cbn in *.
  - destruct b as [s|s| |s ma e H]; try destruct s; now cbn in *.
Qed.
(** The set of the literal against x. *)
Definition fits (f : manip) (x : itv F) (S : R -> Prop) (d : deco) : Prop :=
  d <> ill /\ (forall r, mem r x -> S r) /\ (exact_form f \/ x = empty \/ (forall r, mem r x) -> forall r, S r -> mem r x) /\
  ((exists r, mem r x) -> (dac <= d)%N /\ (bounded_rep x -> d = com)).
Definition body_of (f : manip) (x : itv F) (p2 p3 p4 : text) : Prop :=
  forall g h, SpecLiteral.blanks g -> SpecLiteral.blanks h ->
  exists S d, bare (txt "[" ++ g ++ p2 ++ p3 ++ h ++ p4 ++ txt "]") S d /\ fits f x S d.
Lemma body_empty f (b p3 c : text) : SpecLiteral.blanks b -> SpecLiteral.blanks c -> p3 = txt " " \/ word "empty" p3 -> body_of f (@empty F) b p3 c.
Proof.
  intros Hb Hc Hp g h Hg Hh. exists (fun _ => False), trv. split.
  - destruct Hp as [->|Hp].
    + replace (txt "[" ++ g ++ b ++ txt " " ++ h ++ c ++ txt "]") with (txt "[" ++ (g ++ b ++ txt " " ++ h ++ c) ++ txt "]") by now rewrite <- !app_assoc.
      apply Empty_brackets. repeat apply blanks_app; try easy. constructor; [now right|constructor].
    + replace (txt "[" ++ g ++ b ++ p3 ++ h ++ c ++ txt "]") with (txt "[" ++ (g ++ b) ++ p3 ++ (h ++ c) ++ txt "]") by now rewrite <- !app_assoc.
      apply Empty_word; try apply blanks_app; easy.
  - split; [easy|]. split; [now intros r [H _]|]. split; [easy|]. now intros [r [H _]].
Qed.
Lemma body_entire f (x : itv F) (b p3 c : text) : (forall r, mem r x) -> ~ bounded_rep x -> SpecLiteral.blanks b -> SpecLiteral.blanks c -> p3 = txt "," \/ word "entire" p3 -> body_of f x b p3 c.
Proof.
  intros Hx Hu Hb Hc Hp g h Hg Hh.
  assert (G : forall S : R -> Prop, (forall r, S r) -> fits f x S dac).
  { intros S HS. split; [easy|]. split; [easy|]. split; [easy|]. intros _. split; [easy|]. intros B. contradiction. }
  destruct Hp as [->|Hp].
  - exists (between_bounds None None), dac. split; [|now apply G].
    pose proof (Bounds no_plus int_exponent (g ++ b) [] [] [] [] (h ++ c) None None) as V. cbn [app] in V. rewrite <- !app_assoc in V. apply V; try constructor; now apply blanks_app.
  - exists (fun _ => True), dac. split; [|now apply G].
    replace (txt "[" ++ g ++ b ++ p3 ++ h ++ c ++ txt "]") with (txt "[" ++ (g ++ b) ++ p3 ++ (h ++ c) ++ txt "]") by now rewrite <- !app_assoc.
    apply Entire_word; try apply blanks_app; easy.
Qed.
Lemma entire_unbounded (x : itv F) : (forall r, mem r x) -> ~ bounded_rep x.
Proof.
  intros H [B1 B2]. destruct (H (B2R (fst x) - 1)%R) as [H0 _]. rewrite lb_fin in H0 by easy. lra.
Qed.
Lemma zadj_low (a : float F) (z := if feq a f0 then fm0 else a) : (is_finite a = true \/ a = fminf) ->
  (is_finite z = true \/ z = fminf) /\ (z = fminf <-> a = fminf) /\ (forall r, lb z r <-> lb a r) /\ is_finite z = is_finite a.
Proof. intros H. unfold z. destruct a as [s|s| |s ma e Ha]; try destruct s; cbn; tauto || (split; [now left|]; easy). Qed.
Lemma zadj_upp (a : float F) (z := if feq a f0 then f0 else a) : (is_finite a = true \/ a = finf) ->
  (is_finite z = true \/ z = finf) /\ (z = finf <-> a = finf) /\ (forall r, ub z r <-> ub a r) /\ is_finite z = is_finite a.
Proof. intros H. unfold z. destruct a as [s|s| |s ma e Ha]; try destruct s; cbn; tauto || (split; [now left|]; easy). Qed.
Lemma bounds_body f (x : itv F) l u w v up : (exists r, mem r x) -> precise f ->
  (is_finite l = true \/ l = fminf) -> (is_finite u = true \/ u = finf) ->
  (forall r, lb l r <-> lb (fst x) r) -> (forall r, ub u r <-> ub (snd x) r) ->
  is_finite l = is_finite (fst x) -> is_finite u = is_finite (snd x) ->
  SpecLiteral.blanks w -> SpecLiteral.blanks v ->
  body_of f x (w ++ written mode_DN f up l) (txt ",") (v ++ written mode_UP f up u).
Proof.
  intros (r0 & R1 & R2) Hp Hl Hu El Eu Fl Fu Hw Hv g h Hg Hh.
  destruct (written_low f up l Hp Hl) as (lo & L1 & L2 & L3 & L4). destruct (written_upp f up u Hp Hu) as (hi & U1 & U2 & U3 & U4).
  exists (between_bounds lo hi), (strongest lo hi). split.
  - replace (txt "[" ++ g ++ (w ++ written mode_DN f up l) ++ txt "," ++ h ++ (v ++ written mode_UP f up u) ++ txt "]")
      with (txt "[" ++ (g ++ w) ++ written mode_DN f up l ++ [] ++ txt "," ++ (h ++ v) ++ written mode_UP f up u ++ [] ++ txt "]") by (cbn [app]; now rewrite <- !app_assoc).
    apply Bounds; try (now apply blanks_app); try constructor; try easy.
    apply El, L3 in R1. apply Eu, U3 in R2. unfold ordered. destruct lo, hi; try easy. lra.
  - split; [destruct lo, hi; easy|]. split; [|split].
    + intros r [M1 M2]. split; [now apply L3, El|now apply U3, Eu].
    + intros [Hf|[E|E]] r [S1 S2].
      * split; [now apply El, L4|now apply Eu, U4].
      * subst x. now cbn in R1.
      * apply E.
    + intros _. split; [now destruct lo, hi|]. intros [B1 B2]. rewrite <- Fl in B1. rewrite <- Fu in B2.
      destruct lo; [|destruct L2 as [L2 _]; now rewrite L2 in B1]. destruct hi; [easy|]. destruct U2 as [U2 _]. now rewrite U2 in B2.
Qed.
Lemma bind_inv {A B} (m : M A) (k : A -> M B) s b s' : bind m k s = (Ret b, s') -> exists a s1, m s = (Ret a, s1) /\ k a s1 = (Ret b, s').
Proof. unfold bind. destruct (m s) as [[a|x|] s1]; try easy. intros H. now exists a, s1. Qed.
Lemma ret_inv {A} (a b : A) s s' : ret a s = (Ret b, s') -> a = b /\ s' = s.
Proof. now intros [= -> ->]. Qed.
Lemma parts_body o f (x : itv F) e ps e' : wf x -> precise f -> m_punct f = true -> (m_special f = s_bounds -> x <> empty) ->
  parts o f x e = (Ret ps, e') -> e' = e /\ exists p2 p3 p4, ps = (txt "[", p2, p3, p4, txt "]") /\ body_of f x p2 p3 p4.
Proof.
  intros Hw Hp Hm Hb. unfold parts, n_inf, n_sup. rewrite (is_valid_wf x Hw), (is_empty_wf x Hw), (is_entire_wf x Hw), Hm. mreds.
  destruct (isnan (fst x)) eqn:E1.
  - pose proof (empty_nan x Hw E1) as ->. destruct (m_special f) eqn:Em; [mreds|exfalso; now apply Hb|mreds];
    intros H; apply ret_inv in H; destruct H as [<- ->]; (split; [easy|]); (eexists; eexists; eexists; split; [reflexivity|]); apply body_empty; try apply spaces_blanks; try (now left); destruct (o_upper_text o); now right.
  - mreds. assert (Hx : exists r, mem r x) by (destruct Hw as [->|Hw]; easy).
    assert (C : forall k, k e = (Ret ps, e') -> k = (l <- get_str (setup_env (F:=F)) mode_DN (m_number f) (m_width f) (m_precision f) (o_upper_text o) (if feq (fst x) f0 then fm0 else fst x);
       u <- get_str (setup_env (F:=F)) mode_UP (m_number f) (m_width f) (m_precision f) (o_upper_text o) (if feq (snd x) f0 then f0 else snd x); ret (txt "[", l, txt ",", u, txt "]")) ->
       e' = e /\ exists p2 p3 p4, ps = (txt "[", p2, p3, p4, txt "]") /\ body_of f x p2 p3 p4).
    { intros k H ->. apply bind_inv in H. destruct H as (l & s1 & H1 & H). apply bind_inv in H. destruct H as (u & s2 & H2 & H). apply ret_inv in H. destruct H as [<- ->].
      apply get_str_text in H1. destruct H1 as [-> (w & Bw & ->)]. apply get_str_text in H2. destruct H2 as [-> (v & Bv & ->)]. split; [easy|].
      eexists; eexists; eexists; split; [reflexivity|]. destruct (bounds_of x Hx) as [X1 X2]. destruct (zadj_low _ X1) as (Z1 & Z2 & Z3 & Z4). destruct (zadj_upp _ X2) as (Y1 & Y2 & Y3 & Y4).
      now apply bounds_body. }
    destruct (feq (fst x) fminf && feq (snd x) finf) eqn:E2.
    + pose proof (entire_mem x E2) as Em. pose proof (entire_unbounded x Em) as Eu.
      destruct (m_special f) eqn:Es; mreds; [|intros H; apply (C _ H); reflexivity|];
      intros H; apply ret_inv in H; destruct H as [<- ->]; (split; [easy|]); (eexists; eexists; eexists; split; [reflexivity|]); apply body_entire; try easy; try apply spaces_blanks; try (now left); destruct (o_upper_text o); now right.
    + mreds. intros H. apply (C _ H). reflexivity.
Qed.
Lemma write_wrote o f (x : itv F) t e e' : wf x -> precise f -> m_punct f = true -> blank_fill o ->
  (m_special f = s_bounds -> x <> empty) -> write_itv o f x e = (Ret t, e') ->
  e' = e /\ exists a t0 S d, t = a ++ t0 /\ SpecLiteral.blanks a /\ bare t0 S d /\ fits f x S d.
Proof.
  intros Hw Hp Hm Ho Hb. unfold write_itv. rewrite (is_valid_wf x Hw). mreds. intros H. apply bind_inv in H. destruct H as (ps & e1 & H1 & H).
  apply parts_body in H1; try easy. destruct H1 as (-> & p2 & p3 & p4 & -> & HB). apply ret_inv in H. destruct H as [<- ->]. split; [easy|].
  set (n := (_ - _)%nat). destruct (put7 o (MPrint.blanks (n / 2)) p2 p3 (MPrint.blanks (n - n / 2)) p4 Ho (spaces_blanks _)) as (a & g & A1 & A2 & ->).
  destruct (HB (g ++ MPrint.blanks (n / 2)) (MPrint.blanks (n - n / 2))) as (S & d & S1 & S2); [apply blanks_app; [easy|apply spaces_blanks]|apply spaces_blanks|].
  exists a. eexists. exists S, d. split; [reflexivity|]. now split.
Qed.
End Trip.
