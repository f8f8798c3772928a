(** * Proofs: output manipulators, padding and widths *)
From Coq Require Import ZArith NArith Reals Bool Ascii String List Lia.
From Flocq Require Import Core.Core IEEE754.BinarySingleNaN.
From Verif Require Import Fmt Spec FloatFacts Exc Deco SpecApi SpecDeco MBase MBool MNum PBase PClass MStream MDecoIo MText MPrint MUncertain MOverlap PPrint MManip SpecManip PManip.
Import ListNotations.
Local Open Scope list_scope.
Local Open Scope Z_scope.

Lemma bind_inv {A B} (m : M A) (f : A -> M B) e r e' : bind m f e = (Ret r, e') -> exists a e1, m e = (Ret a, e1) /\ f a e1 = (Ret r, e').
Proof. unfold bind. destruct (m e) as [[a|x|] e1]; [|easy|easy]. intros H. now exists a, e1. Qed.
Lemma pad_plain o a : o_width o = 0%N -> pad o [] a = a.
Proof. intros H. unfold pad. cbn [app]. rewrite H. cbn. rewrite app_nil_r. now destruct (o_adjust o). Qed.
Lemma parts_plain o l : o_width o = 0%N -> put_parts o l = concat l.
Proof. intros H. destruct l as [|a l]; [easy|]. cbn [put_parts concat]. now rewrite pad_plain. Qed.

Section Write.
Context {F : fmt}.
Variable get : mode -> number_rep -> N -> bool -> float F -> M text.
Variable k : Z.
Local Notation put_inf_sup := (@put_inf_sup F k).
Local Notation put_bare := (@put_bare F get k).
Local Notation put_dec := (@put_dec F get k).
Local Notation put_with_dec := (@put_with_dec F get k).
Local Notation put_uncertain := (@put_uncertain F get k).

(** Everything but the string width is the same. *)
Definition alike (s s' : stream) : Prop := view k s = view k s' /\ form k s = form k s' /\ number k s = number k s' /\
  width_of k s = width_of k s' /\ precision_word k s = precision_word k s' /\ special k s = special k s' /\
  punct k s = punct k s' /\ exponent k s = exponent k s' /\ is_upper k s = is_upper k s'.
Lemma alike_set v s : alike (set_word (string_width_id k) v s) s.
Proof. split; [apply view_set|]. readers. cbn [set_word s_words]. words. now repeat split. Qed.
Lemma alike_sym s s' : alike s s' -> alike s' s.
Proof. intros (E1 & E2 & E3 & E4 & E5 & E6 & E7 & E8 & E9). now repeat split. Qed.
Lemma alike_trans s s' s'' : alike s s' -> alike s' s'' -> alike s s''.
Proof.
  intros (E1 & E2 & E3 & E4 & E5 & E6 & E7 & E8 & E9) (D1 & D2 & D3 & D4 & D5 & D6 & D7 & D8 & D9).
  unfold alike. now rewrite E1, E2, E3, E4, E5, E6, E7, E8, E9.
Qed.
Lemma parts_alike s s' (x : itv F) : alike s s' -> parts (view k s) (manip_of k s) x = parts (view k s') (manip_of k s') x.
Proof.
  intros (E1 & E2 & E3 & E4 & E5 & E6 & E7 & E8 & E9). unfold parts, manip_of. cbn [m_number m_width m_precision m_special m_punct].
  now rewrite E1, E3, E4, E5, E6, E7.
Qed.
Lemma dec_text_alike s s' d : alike s s' -> dec_text k s d = dec_text k s' d.
Proof. intros (E1 & E2 & E3 & E4 & E5 & E6 & E7 & E8 & E9). unfold dec_text. now rewrite E1, E7. Qed.
Lemma view_width s : o_width (view k s) = o_width (s_fmt s). Proof. reflexivity. Qed.
Lemma alike_width s s' : alike s s' -> o_width (s_fmt s) = o_width (s_fmt s').
Proof. intros (E1 & _). now rewrite <- !view_width, E1. Qed.

Lemma wide_three sw a b c g t0 : t0 = a ++ b ++ c -> Z.of_nat (length t0) + Z.of_nat g = Z.max sw (Z.of_nat (length t0)) ->
  widened sw t0 (a ++ blanks (g / 2) ++ b ++ blanks (g - g / 2) ++ c).
Proof.
  intros -> E. split; [|now exists a, (g / 2)%nat, b, (g - g / 2)%nat, c]. rewrite <- E. pose proof (half_sum g).
  rewrite !app_length. unfold blanks, spaces. rewrite !repeat_length. lia.
Qed.
Definition short (t : text) : Prop := size t < 2 ^ 30.

Lemma gap_neg d n : d <= 0 -> 0 <= n -> - 2 ^ 31 <= d - n -> gap d n = 0%nat.
Proof. intros H1 H2 H3. unfold gap. rewrite to_int_id by lia. lia. Qed.

(** From a string width that is not positive to another one *)
Definition grows (s s1 : stream) : Prop := alike s s1 /\ o_width (s_fmt s) = 0%N /\ - 2 ^ 30 <= string_width_of k s <= 0 /\
  string_width_of k s <= string_width_of k s1 < 2 ^ 31.
Definition widens (m : SM text) : Prop := forall s s1 e t0 e' s', grows s s1 -> short t0 -> writes m s e t0 e' s' ->
  exists t, writes m s1 e t e' (reset_width s1) /\ widened (string_width_of k s1) t0 t.
Lemma inf_sup_wide x : widens (put_inf_sup x).
Proof.
  intros s s1 e t0 e' s' (Ha & Ho & Hv0 & Hv) Ht H. unfold writes, MManip.put_inf_sup in *. rewrite (parts_alike s s1 x Ha) in H.
  apply sbind_inv in H. destruct H as (r1 & e1 & s2 & E1 & E2).
  destruct r1 as [[[[[p1 p2] p3] p4] p5]|ex|]; [|now destruct E2 as [E2 _]|now destruct E2 as [E2 _]].
  apply lift_inv in E1. destruct E1 as [E1 ->]. apply output_writes in E2. destruct E2 as (-> & -> & ->).
  unfold sbind at 1, lift at 1. rewrite E1.
  rewrite parts_plain in * by (rewrite view_width; exact Ho). set (t := p1 ++ p2 ++ p3 ++ p4 ++ p5) in *.
  set (g0 := gap (string_width_of k s) (size t)) in *.
  assert (Hs : size t < 2 ^ 30).
  { unfold short in Ht. cbn [concat] in Ht. unfold t. rewrite !size_app, !blanks_size in *. change (size []) with 0 in Ht. lia. }
  pose proof (size_nonneg t).
  assert (G0 : g0 = 0%nat) by (apply gap_neg; lia).
  assert (T0 : concat [p1; blanks (g0 / 2); p2; p3; blanks (g0 - g0 / 2); p4; p5] = t).
  { rewrite G0. unfold t. cbn. now rewrite app_nil_r. }
  rewrite T0. unfold output, sbind, update, sret, lift. cbn [ret]. eexists. split; [reflexivity|].
  rewrite parts_plain by (rewrite view_width, <- (alike_width s s1); easy). cbn [concat]. rewrite app_nil_r.
  set (g := gap (string_width_of k s1) (size t)). replace (p2 ++ p3 ++ blanks (g - g / 2) ++ p4 ++ p5) with ((p2 ++ p3) ++ blanks (g - g / 2) ++ p4 ++ p5) by now rewrite <- !app_assoc.
  apply wide_three; [unfold t; now rewrite <- !app_assoc|]. fold (size t). apply gap_exact; lia.
Qed.
Lemma uncertain_wide u x : widens (put_uncertain u x).
Proof.
  intros s s1 e t0 e' s' (Ha & Ho & Hv0 & Hv) Ht H. unfold writes, MManip.put_uncertain in *.
  pose proof Ha as (_ & _ & _ & _ & E5 & _ & _ & E8 & E9). rewrite E5, E8, E9 in H.
  apply sbind_inv in H. destruct H as (r1 & e1 & s2 & E1 & E2).
  destruct r1 as [str|ex|]; [|now destruct E2 as [E2 _]|now destruct E2 as [E2 _]].
  apply lift_inv in E1. destruct E1 as [E1 ->]. apply output_writes in E2. destruct E2 as (-> & -> & ->).
  unfold sbind at 1, lift at 1. rewrite E1.
  rewrite parts_plain in * by (rewrite view_width; exact Ho). cbn [concat] in *. rewrite app_nil_r in *.
  assert (Hs : size str < 2 ^ 30). { unfold short in Ht. rewrite size_app, blanks_size in Ht. lia. }
  pose proof (size_nonneg str).
  rewrite (gap_neg (string_width_of k s) (size str)) by lia. cbn [blanks spaces repeat app].
  unfold output, sbind, update, sret, lift. cbn [ret]. eexists. split; [reflexivity|].
  rewrite parts_plain by (rewrite view_width, <- (alike_width s s1); easy). cbn [concat]. rewrite app_nil_r. split.
  - rewrite app_length. unfold blanks, spaces. cbn [repeat]. rewrite repeat_length. pose proof (gap_exact (string_width_of k s1) (size str)). change ([] ++ str) with str. unfold size in *. lia.
  - exists [], (gap (string_width_of k s1) (size str)), str, 0%nat, []. cbn. rewrite !app_nil_r. now split.
Qed.
Lemma bare_wide x : wf x -> widens (put_bare x).
Proof.
  intros Hx s s1 e t0 e' s' Hg Ht. unfold writes. rewrite !bare_eq by easy. pose proof Hg as ((_ & -> & _) & _).
  destruct (form k s1) as [u|]; [destruct (isnan (fst x))|]; intros H;
   [now apply (inf_sup_wide x s s1 e t0 e' s')|now apply (uncertain_wide u x s s1 e t0 e' s')|now apply (inf_sup_wide x s s1 e t0 e' s')].
Qed.
Lemma nai_wide : widens (put_nai k).
Proof.
  intros s s1 e t0 e' s' (Ha & Ho & Hv0 & Hv) Ht H. unfold writes, put_nai in *.
  pose proof Ha as (_ & _ & _ & E4 & _ & _ & E7 & _ & E9). rewrite E4, E7, E9 in H. apply output_writes in H. destruct H as (-> & -> & ->).
  set (p1 := txt (if punct k s1 then "[" else "") ++ blanks _) in *. set (p2 := txt (if is_upper k s1 then _ else _)) in *.
  set (p3 := blanks _ ++ txt (if punct k s1 then "]" else "")) in *. set (t := p1 ++ p2 ++ p3) in *.
  rewrite parts_plain in * by (rewrite view_width; exact Ho). cbn [concat] in *. rewrite app_nil_r in *.
  set (g0 := gap (string_width_of k s) (size t)) in *.
  assert (Hs : size t < 2 ^ 30). { unfold short in Ht. unfold t. rewrite !size_app in *. pose proof (size_nonneg (blanks (g0 / 2))). pose proof (size_nonneg (blanks (g0 - g0 / 2))). lia. }
  pose proof (size_nonneg t). assert (G0 : g0 = 0%nat) by (apply gap_neg; lia). rewrite G0.
  change (p1 ++ blanks (0 / 2) ++ p2 ++ blanks (0 - 0 / 2) ++ p3) with t.
  unfold output, sbind, update, sret, lift. cbn [ret]. eexists. split; [reflexivity|].
  rewrite parts_plain by (rewrite view_width, <- (alike_width s s1); easy). cbn [concat]. rewrite app_nil_r. apply wide_three; [easy|]. fold (size t). apply gap_exact; lia.
Qed.
Lemma with_dec_wide x s s1 e t0 e' s' : wf (fst x) -> grows s s1 -> string_width_of k s = 0 -> short t0 ->
  writes (put_with_dec x) s e t0 e' s' ->
  exists t s2, writes (put_with_dec x) s1 e t e' s2 /\ widened (string_width_of k s1) t0 t.
Proof.
  intros Hx (Ha & Ho & Hv0 & Hv) Hz Ht H. apply with_dec_inv in H. cbv zeta in H. rewrite Hz, (dec_text_alike s s1 _ Ha) in H. destruct H as (Hd & t1 & s2 & t2 & H1 & H2 & ->).
  set (buf := dec_text k s1 (snd x)) in *. rewrite (to_int_id 0) in * by lia.
  apply output_writes in H2. destruct H2 as (-> & _ & _).
  assert (Hb : size buf < 2 ^ 30 /\ short t1).
  { unfold short in *. rewrite size_app in Ht. pose proof (parts_size (view k s2) [buf]) as K. cbn [concat] in K. rewrite app_nil_r in K. pose proof (size_nonneg t1). pose proof (size_nonneg buf). lia. }
  destruct Hb as [Hb Ht1]. pose proof (size_nonneg buf). rewrite (to_int_id (size buf)) in * by lia.
  set (v := string_width_of k s1) in *. set (s3 := set_word (string_width_id k) (v - size buf) s1).
  assert (H2 : o_width (s_fmt s2) = 0%N).
  { unfold writes in H1. apply steady_bare in H1. cbn [set_word s_fmt] in H1. destruct H1 as [_ [->| ->]]; easy. }
  apply (bare_wide (fst x) Hx _ s3) in H1; [| |easy].
  2:{ split; [|split; [exact Ho|]].
      - refine (alike_trans _ _ _ (alike_set _ _) (alike_trans _ _ _ Ha (alike_sym _ _ (alike_set _ _)))).
      - unfold s3. rewrite !string_width_set. lia. }
  destruct H1 as (t & H1 & H3). unfold s3 in H3 at 1. rewrite string_width_set in H3.
  rewrite parts_plain by exact H2. cbn [concat]. rewrite app_nil_r.
  exists (t ++ buf). eexists. split.
  - unfold writes, MManip.put_with_dec. fold v. fold buf. rewrite (to_int_id v), (to_int_id (size buf)) by lia.
    destruct (_ && _) eqn:E; [|exfalso; apply andb_false_iff in E; destruct E as [E|E]; [apply Z.leb_gt in E|apply Z.ltb_ge in E]; lia].
    unfold sbind at 1, update at 1, finally. unfold sbind at 1. fold s3. rewrite H1. unfold sbind, output, update, sret, lift. cbn -[s3].
    rewrite pad_plain by reflexivity. rewrite app_nil_r. reflexivity.
  - destruct H3 as (L & a & i & b & j & c & -> & ->). split.
    + rewrite !app_length in *. unfold size in *. rewrite !Nat2Z.inj_add in *. lia.
    + exists a, i, b, j, (c ++ buf). rewrite <- !app_assoc. now split.
Qed.
Lemma dec_wide x s n e t0 e' s' : wf_dec x -> o_width (s_fmt s) = 0%N -> (Z.of_N n < 2 ^ 31) -> short t0 ->
  writes (put_dec x) (manipulate k (p_string_width 0) s) e t0 e' s' ->
  exists t s2, writes (put_dec x) (manipulate k (p_string_width n) s) e t e' s2 /\ widened (Z.of_N n) t0 t.
Proof.
  intros Hx Ho Hn Ht. cbn [manipulate]. set (s0 := set_word _ _ s). set (s1 := set_word _ _ s).
  assert (G : grows s0 s1). { split; [|split; [exact Ho|]]; [exact (alike_trans _ _ _ (alike_set _ _) (alike_sym _ _ (alike_set _ _)))|]. unfold s0, s1. rewrite !string_width_set. lia. }
  assert (V : string_width_of k s1 = Z.of_N n) by apply string_width_set. rewrite <- V. unfold writes. rewrite !dec_eq by easy.
  destruct (deq (snd x) ill); [|destruct (isnan (fst (fst x)))]; intros H.
  - destruct (nai_wide s0 s1 e t0 e' s' G Ht H) as (t & K1 & K2). now exists t, (reset_width s1).
  - destruct (bare_wide (fst x) (wf_dec_wf x Hx) s0 s1 e t0 e' s' G Ht H) as (t & K1 & K2). now exists t, (reset_width s1).
  - refine (with_dec_wide x s0 s1 e t0 e' s' (wf_dec_wf x Hx) G _ Ht H). apply string_width_set.
Qed.
Lemma bare_wide_n x s n e t0 e' s' : wf x -> o_width (s_fmt s) = 0%N -> (Z.of_N n < 2 ^ 31) -> short t0 ->
  writes (put_bare x) (manipulate k (p_string_width 0) s) e t0 e' s' ->
  exists t s2, writes (put_bare x) (manipulate k (p_string_width n) s) e t e' s2 /\ widened (Z.of_N n) t0 t.
Proof.
  intros Hx Ho Hn Ht. cbn [manipulate]. set (s0 := set_word _ _ s). set (s1 := set_word _ _ s).
  assert (G : grows s0 s1). { split; [|split; [exact Ho|]]; [exact (alike_trans _ _ _ (alike_set _ _) (alike_sym _ _ (alike_set _ _)))|]. unfold s0, s1. rewrite !string_width_set. lia. }
  assert (V : string_width_of k s1 = Z.of_N n) by apply string_width_set. rewrite <- V. intros H.
  destruct (bare_wide x Hx s0 s1 e t0 e' s' G Ht H) as (t & K1 & K2). now exists t, (reset_width s1).
Qed.
End Write.
