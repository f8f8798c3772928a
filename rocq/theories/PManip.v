(** * Proofs: output manipulators *)
From Coq Require Import ZArith NArith Reals Bool Ascii String List Lia.
From Flocq Require Import Core.Core IEEE754.BinarySingleNaN.
From Verif Require Import Fmt Spec FloatFacts Exc Deco SpecApi SpecDeco MBase MBool MNum PBase PClass MStream MDecoIo MText MPrint MUncertain MOverlap PPrint MManip SpecManip.
Import ListNotations.
Local Open Scope list_scope.
Local Open Scope Z_scope.

(** ** Settings *)
Definition ids := (text_representation_id, string_width_id, representation_id, number_representation_id, width_id, precision_id,
  special_representation_id, punctuation_id, uncertain_exponent_id, dec_id, overlapping_id).
Ltac ids_tac := unfold text_representation_id, string_width_id, representation_id, number_representation_id, width_id, precision_id,
  special_representation_id, punctuation_id, uncertain_exponent_id, dec_id, overlapping_id in *.
Ltac words := ids_tac; repeat match goal with
  | |- context [?a =? ?b] => first [rewrite (proj2 (Z.eqb_neq a b)) by lia | rewrite (proj2 (Z.eqb_eq a b)) by lia]
  end.
Ltac readers := unfold is_upper, form, number, special, punct, exponent, dec_num, overlapping_num, string_width_of, width_of, precision_word.

Lemma latest_one {A} (get : stream -> A) (sets : manipulator -> option A) k :
  (forall m s, get (manipulate k m s) = match sets m with Some a => a | None => get s end) ->
  forall ms s, get (manipulate_all k ms s) = latest sets ms (get s).
Proof.
  intros H ms. induction ms as [|m ms IH]; intros s; [reflexivity|]. cbn [latest]. unfold manipulate_all. cbn [fold_left].
  change (get (manipulate_all k ms (manipulate k m s)) = latest sets ms match sets m with Some a => a | None => get s end). now rewrite IH, H.
Qed.
Ltac group g := apply (latest_one g); intros mm st; destruct mm; cbn [manipulate set_word s_words]; readers; cbn [set_word s_words]; words; try reflexivity; try now rewrite N2Z.id.
Lemma latest_case k ms s : is_upper k (manipulate_all k ms s) = latest chooses_case ms (is_upper k s).
Proof. group (is_upper k). Qed.
Lemma latest_string_width k ms s : string_width_of k (manipulate_all k ms s) = latest chooses_string_width ms (string_width_of k s).
Proof. group (string_width_of k). Qed.
Lemma latest_form k ms s : form k (manipulate_all k ms s) = latest chooses_form ms (form k s).
Proof. group (form k). Qed.
Lemma latest_number k ms s : number k (manipulate_all k ms s) = latest chooses_number ms (number k s).
Proof. group (number k). Qed.
Lemma latest_width k ms s : width_of k (manipulate_all k ms s) = latest chooses_width ms (width_of k s).
Proof. group (width_of k). Qed.
Lemma latest_precision k ms s : precision_word k (manipulate_all k ms s) = latest chooses_precision ms (precision_word k s).
Proof. group (precision_word k). Qed.
Lemma latest_special k ms s : special k (manipulate_all k ms s) = latest chooses_special ms (special k s).
Proof. group (special k). Qed.
Lemma latest_punct k ms s : punct k (manipulate_all k ms s) = latest chooses_punctuation ms (punct k s).
Proof. group (punct k). Qed.
Lemma latest_exponent k ms s : exponent k (manipulate_all k ms s) = latest chooses_exponent ms (exponent k s).
Proof. group (exponent k). Qed.
Lemma latest_dec k ms s : dec_num k (manipulate_all k ms s) = latest chooses_dec ms (dec_num k s).
Proof. group (dec_num k). Qed.
Lemma latest_overlapping k ms s : overlapping_num k (manipulate_all k ms s) = latest chooses_overlapping ms (overlapping_num k s).
Proof. group (overlapping_num k). Qed.
Lemma fmt_kept k ms s : s_fmt (manipulate_all k ms s) = s_fmt s.
Proof.
  revert s. induction ms as [|m ms IH]; intros s; [reflexivity|]. unfold manipulate_all. cbn [fold_left].
  change (s_fmt (manipulate_all k ms (manipulate k m s)) = s_fmt s). rewrite IH. now destruct m.
Qed.
Lemma word_kept k m s i : (i < k \/ k + 11 <= i)%Z -> s_words (manipulate k m s) i = s_words s i.
Proof. intros H. destruct m; cbn [manipulate set_word s_words]; words; reflexivity. Qed.
Lemma words_kept k ms s i : (i < k \/ k + 11 <= i)%Z -> s_words (manipulate_all k ms s) i = s_words s i.
Proof.
  intros H. revert s. induction ms as [|m ms IH]; intros s; [reflexivity|]. unfold manipulate_all. cbn [fold_left].
  change (s_words (manipulate_all k ms (manipulate k m s)) i = s_words s i). rewrite IH. now apply word_kept.
Qed.
Lemma same_settings_words k s s' : s_fmt s = s_fmt s' -> (forall i, k <= i < k + 11 -> s_words s i = s_words s' i) -> same_settings k s s'.
Proof.
  intros E H. unfold same_settings, view. readers. ids_tac.
  rewrite E. rewrite !H by lia. now repeat split.
Qed.
Lemma other_unit a b ms s : a <> b -> same_settings (unit_ids b) s (manipulate_all (unit_ids a) ms s).
Proof.
  intros H. apply same_settings_words; [now rewrite fmt_kept|]. intros i Hi. symmetry. apply words_kept. unfold unit_ids in *. lia.
Qed.
Lemma fresh_settings k o :
  is_upper k (fresh o) = false /\ string_width_of k (fresh o) = 0 /\ form k (fresh o) = None /\ number k (fresh o) = r_decsci /\
  width_of k (fresh o) = 0%N /\ precision_word k (fresh o) = 0%N /\ special k (fresh o) = s_text /\ punct k (fresh o) = true /\
  exponent k (fresh o) = false /\ dec_num k (fresh o) = false /\ overlapping_num k (fresh o) = false.
Proof. now repeat split. Qed.

(** ** Statements on streams *)
Lemma lift_inv {A} (m : M A) s e r e' s' : lift m s e = (r, e', s') -> m e = (r, e') /\ s' = s.
Proof. unfold lift. destruct (m e) as [r1 e1]. now intros [= <- <- <-]. Qed.
Lemma sbind_inv {A B} (m : SM A) (f : A -> SM B) s e r e' s' : sbind m f s e = (r, e', s') ->
  exists r1 e1 s1, m s e = (r1, e1, s1) /\
   match r1 with Ret a => f a s1 e1 = (r, e', s') | Throw x => r = Throw x /\ e' = e1 /\ s' = s1 | UB => r = UB /\ e' = e1 /\ s' = s1 end.
Proof.
  unfold sbind. destruct (m s e) as [[[a|x|] e1] s1]; intros H; eexists _, e1, s1; (split; [reflexivity|]); cbn; try easy.
  - injection H as <- <- <-. now repeat split.
  - injection H as <- <- <-. now repeat split.
Qed.
Lemma sif_ret {A} b (t u : SM A) : forall s e, sif (ret b) t u s e = (if b then t else u) s e.
Proof. intros s e. unfold sif, sbind, lift. cbn. now destruct b. Qed.

(** Nothing but the field width changes. *)
Definition steady {A} (m : SM A) : Prop := forall s e r e' s', m s e = (r, e', s') ->
  same_words s s' /\ (s_fmt s' = s_fmt s \/ s_fmt s' = no_width (s_fmt s)).
Lemma no_width_twice o : no_width (no_width o) = no_width o. Proof. reflexivity. Qed.
Lemma steady_lift {A} (m : M A) : steady (lift m).
Proof. intros s e r e' s' H. apply lift_inv in H. destruct H as [_ ->]. split; [easy|now left]. Qed.
Lemma steady_bind {A B} (m : SM A) (f : A -> SM B) : steady m -> (forall a, steady (f a)) -> steady (sbind m f).
Proof.
  intros H1 H2 s e r e' s' H. apply sbind_inv in H. destruct H as (r1 & e1 & s1 & E1 & E2). apply H1 in E1. destruct E1 as [E1 E1'].
  destruct r1 as [a|x|].
  - apply H2 in E2. destruct E2 as [E2 E2']. split; [intros i; now rewrite E2, E1|].
    destruct E2' as [->| ->]; [easy|]. right. destruct E1' as [->| ->]; reflexivity.
  - destruct E2 as (-> & -> & ->). now split.
  - destruct E2 as (-> & -> & ->). now split.
Qed.
Lemma steady_if {A} c (t u : SM A) : steady t -> steady u -> steady (sif c t u).
Proof. intros H1 H2. apply steady_bind; [apply steady_lift|]. now intros []. Qed.
Lemma steady_at {A} (m : stream -> SM A) : (forall s, steady (m s)) -> steady (fun s => m s s).
Proof. intros H s e r e' s'. apply H. Qed.
Lemma steady_output k l : steady (output k l).
Proof.
  unfold output. apply (steady_at (fun s => sbind (update reset_width) (fun _ => sret (put_parts (view k s) l)))). intros s0. apply steady_bind; [|intros _; apply steady_lift].
  intros s e r e' s'. unfold update, reset_width. intros [= <- <- <-]. split; [easy|now right].
Qed.
Section Write.
Context {F : fmt}.
Variable get : mode -> number_rep -> N -> bool -> float F -> M text.
Variable k : Z.
Local Notation put_inf_sup := (@put_inf_sup F k).
Local Notation put_bare := (@put_bare F get k).
Local Notation put_dec := (@put_dec F get k).
Local Notation put_with_dec := (@put_with_dec F get k).
Lemma steady_inf_sup x : steady (put_inf_sup x).
Proof.
  refine (steady_at (fun s => _) _). intros s0. apply steady_bind; [apply steady_lift|]. intros [[[[p1 p2] p3] p4] p5]. apply steady_output.
Qed.
Lemma steady_uncertain u x : steady (put_uncertain get k u x).
Proof. refine (steady_at (fun s => _) _). intros s0. apply steady_bind; [apply steady_lift|]. intros str. apply steady_output. Qed.
Lemma steady_bare x : steady (put_bare x).
Proof.
  refine (steady_at (fun s => _) _). intros s0. apply steady_if; [apply steady_lift|].
  destruct (form k s0); [apply steady_if; [apply steady_uncertain|apply steady_inf_sup]|apply steady_inf_sup].
Qed.
Lemma steady_nai : steady (put_nai k).
Proof. refine (steady_at (fun s => _) _). intros s0. apply steady_output. Qed.

Lemma to_int_id z : - 2 ^ 31 <= z < 2 ^ 31 -> to_int z = z.
Proof. intros H. unfold to_int. rewrite Z.mod_small by lia. lia. Qed.
Lemma to_int_range z : - 2 ^ 31 <= to_int z < 2 ^ 31.
Proof. unfold to_int. pose proof (Z.mod_pos_bound (z + 2 ^ 31) (2 ^ 32)). lia. Qed.

(** As [steady], for streams whose string width is an int *)
Definition restores {A} (m : SM A) : Prop := forall s e r e' s', int_width k s -> m s e = (r, e', s') ->
  same_words s s' /\ (s_fmt s' = s_fmt s \/ s_fmt s' = no_width (s_fmt s)).
Lemma restores_steady {A} (m : SM A) : steady m -> restores m.
Proof. intros H s e r e' s' _. apply H. Qed.
Lemma restores_if {A} c (t u : SM A) : restores t -> restores u -> restores (sif c t u).
Proof.
  intros H1 H2 s e r e' s' Hw H. apply sbind_inv in H. destruct H as (r1 & e1 & s1 & E1 & E2). apply lift_inv in E1. destruct E1 as [_ ->].
  destruct r1 as [[]|ex|]; [now apply (H1 _ _ _ _ _ Hw E2)|now apply (H2 _ _ _ _ _ Hw E2)| |]; destruct E2 as (-> & -> & ->); (split; [easy|now left]).
Qed.
Lemma restores_with_dec x : restores (put_with_dec x).
Proof.
  intros s e r e' s' Hw. unfold MManip.put_with_dec. rewrite (to_int_id (string_width_of k s)) by (unfold int_width in Hw; lia).
  set (buf := dec_text k s (snd x)). destruct (_ && _) eqn:E; [|intros H; apply lift_inv in H; destruct H as [_ ->]; split; [easy|now left]].
  unfold sbind at 1, update at 1, finally. set (s1 := set_word _ _ s).
  destruct (sbind _ _ s1 e) as [[r1 e1] s2] eqn:E2. intros [= <- <- <-].
  assert (K : steady (sbind (put_bare (fst x)) (fun t => sbind (output k [buf]) (fun t' => sret (t ++ t'))))).
  { apply steady_bind; [apply steady_bare|]. intros t. apply steady_bind; [apply steady_output|]. intros t'. apply steady_lift. }
  apply K in E2. destruct E2 as [E2 E2']. split.
  - intros i. cbn [set_word s_words]. destruct (i =? string_width_id k) eqn:Ei; [apply Z.eqb_eq in Ei; now subst i|]. rewrite E2. unfold s1. cbn [set_word s_words]. now rewrite Ei.
  - cbn [set_word s_fmt]. now destruct E2' as [->| ->]; [left|right].
Qed.
Lemma restores_dec x : restores (put_dec x).
Proof.
  apply restores_if; [apply restores_steady, steady_lift|]. apply restores_if; [apply restores_steady, steady_nai|].
  apply restores_if; [apply restores_steady, steady_bare|apply restores_with_dec].
Qed.

(** ** Lengths *)
Lemma size_nonneg t : 0 <= size t. Proof. unfold size. lia. Qed.
Lemma pad_size o pre t : size t <= size (pad o pre t).
Proof. unfold size, pad. destruct (o_adjust o); rewrite ?app_length; lia. Qed.
Lemma parts_size o l : size (concat l) <= size (put_parts o l).
Proof. destruct l as [|a l]; [easy|]. cbn [put_parts concat]. pose proof (pad_size o [] a). unfold size in *. rewrite !app_length. lia. Qed.
Lemma blanks_size n : size (blanks n) = Z.of_nat n. Proof. unfold size, blanks, spaces. now rewrite repeat_length. Qed.
Lemma size_app t u : size (t ++ u) = size t + size u. Proof. unfold size. rewrite app_length. lia. Qed.
(** The blanks fill the text up to the width. *)
Lemma gap_enough sw n : 0 <= n -> sw < 2 ^ 31 -> sw <= n + Z.of_nat (gap sw n).
Proof.
  intros Hn Hs. unfold gap. destruct (Z.le_gt_cases sw n); [lia|]. rewrite to_int_id by lia. lia.
Qed.
Lemma gap_exact sw n : 0 <= n < 2 ^ 31 -> 0 <= sw + (2 ^ 31 - 1 - n) -> sw < 2 ^ 31 -> n + Z.of_nat (gap sw n) = Z.max sw n.
Proof. intros Hn Hs Hs'. unfold gap. rewrite to_int_id by lia. lia. Qed.
Lemma half_sum n : (Nat.div n 2 + (n - Nat.div n 2) = n)%nat.
Proof. pose proof (Nat.div_le_upper_bound n 2 n). lia. Qed.

Lemma output_writes l s e t e' s' : writes (output k l) s e t e' s' -> t = put_parts (view k s) l /\ s' = reset_width s /\ e' = e.
Proof. unfold writes, output, sbind, update, sret, lift. cbn. now intros [= <- <- <-]. Qed.
Lemma five_size sw o p1 p2 p3 p4 p5 : sw < 2 ^ 31 -> sw <= size (put_parts o
   [p1; blanks (gap sw (size (p1 ++ p2 ++ p3 ++ p4 ++ p5)) / 2); p2; p3;
    blanks (gap sw (size (p1 ++ p2 ++ p3 ++ p4 ++ p5)) - gap sw (size (p1 ++ p2 ++ p3 ++ p4 ++ p5)) / 2); p4; p5]).
Proof.
  intros H. set (t := p1 ++ p2 ++ p3 ++ p4 ++ p5). pose proof (gap_enough sw (size t) (size_nonneg t) H) as K. set (g := gap sw (size t)) in *.
  refine (Z.le_trans _ _ _ K (Z.le_trans _ _ _ _ (parts_size _ _))). unfold t. cbn [concat]. rewrite !size_app, !blanks_size. pose proof (half_sum g). change (size []) with 0. lia.
Qed.
Lemma inf_sup_long x s e t e' s' : string_width_of k s < 2 ^ 31 -> writes (put_inf_sup x) s e t e' s' -> string_width_of k s <= size t.
Proof.
  intros Hw H. unfold writes, MManip.put_inf_sup in H. apply sbind_inv in H. destruct H as (r1 & e1 & s1 & E1 & E2).
  destruct r1 as [[[[[p1 p2] p3] p4] p5]|ex|]; [|now destruct E2 as [E2 _]|now destruct E2 as [E2 _]].
  apply lift_inv in E1. destruct E1 as [_ ->]. apply output_writes in E2. destruct E2 as (-> & _ & _). now apply five_size.
Qed.
Lemma uncertain_long u x s e t e' s' : string_width_of k s < 2 ^ 31 -> writes (put_uncertain get k u x) s e t e' s' -> string_width_of k s <= size t.
Proof.
  intros Hw H. unfold writes, MManip.put_uncertain in H. apply sbind_inv in H. destruct H as (r1 & e1 & s1 & E1 & E2).
  destruct r1 as [str|ex|]; [|now destruct E2 as [E2 _]|now destruct E2 as [E2 _]].
  apply lift_inv in E1. destruct E1 as [_ ->]. apply output_writes in E2. destruct E2 as (-> & _ & _).
  pose proof (gap_enough _ (size str) (size_nonneg str) Hw) as K. refine (Z.le_trans _ _ _ K (Z.le_trans _ _ _ _ (parts_size _ _))).
  cbn [concat]. rewrite !size_app, blanks_size. change (size []) with 0. lia.
Qed.
Lemma bare_eq x s e : wf x -> put_bare x s e =
  match form k s with Some u => if isnan (fst x) then put_inf_sup x s e else put_uncertain get k u x s e | None => put_inf_sup x s e end.
Proof.
  intros Hx. unfold MManip.put_bare. rewrite (is_valid_wf x Hx), mnot_ret, sif_ret. cbn [negb]. destruct (form k s); [|easy].
  rewrite (is_empty_wf x Hx), mnot_ret, sif_ret. now destruct (isnan (fst x)).
Qed.
Lemma bare_long x s e t e' s' : wf x -> string_width_of k s < 2 ^ 31 -> writes (put_bare x) s e t e' s' -> string_width_of k s <= size t.
Proof.
  intros Hx Hw. unfold writes. rewrite bare_eq by easy. destruct (form k s); [destruct (isnan (fst x))|]; intros H;
   [now apply (inf_sup_long _ _ _ _ _ _ Hw H)|now apply (uncertain_long _ _ _ _ _ _ _ Hw H)|now apply (inf_sup_long _ _ _ _ _ _ Hw H)].
Qed.
Lemma nai_long s e t e' s' : string_width_of k s < 2 ^ 31 -> writes (put_nai k) s e t e' s' -> string_width_of k s <= size t.
Proof.
  intros Hw H. unfold writes, put_nai in H. apply output_writes in H. destruct H as (-> & _ & _).
  set (p1 := txt _ ++ blanks _). set (p2 := txt _). set (p3 := blanks _ ++ txt _).
  pose proof (gap_enough _ (size (p1 ++ p2 ++ p3)) (size_nonneg _) Hw) as K. set (g := gap _ _) in *.
  refine (Z.le_trans _ _ _ K (Z.le_trans _ _ _ _ (parts_size _ _))). cbn [concat]. rewrite !size_app, !blanks_size. pose proof (half_sum g). change (size []) with 0. lia.
Qed.
Lemma string_width_set v s : string_width_of k (set_word (string_width_id k) v s) = v.
Proof. unfold string_width_of. cbn. now rewrite Z.eqb_refl. Qed.
Lemma view_set v s : view k (set_word (string_width_id k) v s) = view k s.
Proof. unfold view. readers. cbn [set_word s_words s_fmt]. words. reflexivity. Qed.
Lemma view_words s s' : s_words s' = s_words s -> s_fmt s' = s_fmt s -> view k s' = view k s.
Proof. intros H1 H2. unfold view. readers. now rewrite H1, H2. Qed.

Lemma with_dec_inv x s e t e' s' : writes (put_with_dec x) s e t e' s' ->
  let buf := dec_text k s (snd x) in let d := to_int (string_width_of k s) - to_int (size buf) in
  - 2 ^ 31 <= d < 2 ^ 31 /\
  exists t1 s1 s2, writes (put_bare (fst x)) (set_word (string_width_id k) d s) e t1 e' s1 /\
    writes (output k [buf]) s1 e' s2 e' (reset_width s1) /\ t = t1 ++ s2.
Proof.
  unfold writes, MManip.put_with_dec. cbv zeta. set (buf := dec_text k s (snd x)). set (d := _ - _).
  destruct (_ && _) eqn:E; [|now intros H; apply lift_inv in H]. apply andb_true_iff in E. destruct E as [E1 E2]. apply Z.leb_le in E1. apply Z.ltb_lt in E2.
  intros H. split; [easy|]. unfold sbind at 1, update, finally in H.
  destruct (sbind _ _ _ e) as [[r1 e1] s3] eqn:E3. injection H as -> <- _.
  apply sbind_inv in E3. destruct E3 as (r2 & e2 & s4 & E3 & E4). destruct r2 as [t1|ex|]; [|now destruct E4 as [E4 _]|now destruct E4 as [E4 _]].
  apply sbind_inv in E4. destruct E4 as (r5 & e5 & s5 & E5 & E6). destruct r5 as [t2|ex|]; [|now destruct E6 as [E6 _]|now destruct E6 as [E6 _]].
  destruct (output_writes _ _ _ _ _ _ E5) as (_ & -> & ->). apply lift_inv in E6. destruct E6 as [[= E6 E7] _]. subst t e1. exists t1, s4, t2. now split.
Qed.
Lemma with_dec_long x s e t e' s' : wf (fst x) -> int_width k s -> writes (put_with_dec x) s e t e' s' -> string_width_of k s <= size t.
Proof.
  intros Hx Hw H. apply with_dec_inv in H. cbv zeta in H. destruct H as (Hd & t1 & s1 & t2 & H1 & H2 & ->).
  set (buf := dec_text k s (snd x)) in *. unfold int_width in Hw. rewrite (to_int_id (string_width_of k s)) in * by lia. set (d := _ - _) in *.
  apply bare_long in H1; [|easy|now rewrite string_width_set]. rewrite string_width_set in H1.
  apply output_writes in H2. destruct H2 as (-> & _ & _). pose proof (parts_size (view k s1) [buf]) as K. cbn [concat] in K. rewrite app_nil_r in K.
  rewrite size_app. pose proof (size_nonneg t1). pose proof (size_nonneg buf).
  destruct (Z.le_gt_cases (2 ^ 31) (size buf)); [lia|]. unfold d in H1. rewrite (to_int_id (size buf)) in H1 by lia. lia.
Qed.
Lemma dec_eq (x : ditv F) s e : wf_dec x -> put_dec x s e =
  if deq (snd x) ill then put_nai k s e else if isnan (fst (fst x)) then put_bare (fst x) s e else put_with_dec x s e.
Proof.
  intros Hx. unfold MManip.put_dec. rewrite (is_valid_dec_wf x Hx), mnot_ret, sif_ret. cbn [negb].
  rewrite (is_nai_wf x Hx), sif_ret. destruct (deq (snd x) ill) eqn:E; [easy|]. rewrite (is_empty_dec_wf x Hx), sif_ret, E. cbn [negb andb]. now destruct (isnan _).
Qed.
Lemma dec_long x s e t e' s' : wf_dec x -> int_width k s -> writes (put_dec x) s e t e' s' -> string_width_of k s <= size t.
Proof.
  intros Hx Hw. unfold writes. rewrite dec_eq by easy. pose proof (wf_dec_wf x Hx) as Hx'. destruct (deq (snd x) ill).
  - intros H. refine (nai_long _ _ _ _ _ _ H). apply Hw.
  - destruct (isnan (fst (fst x))); intros H; [refine (bare_long _ _ _ _ _ _ Hx' _ H); apply Hw|now apply (with_dec_long x _ _ _ _ _ Hx' Hw H)].
Qed.
End Write.
