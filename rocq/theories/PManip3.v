(** * Proofs: output manipulators, widths of numbers, the streams of the other files, overlapping states *)
From Coq Require Import ZArith NArith Reals Bool Ascii String List Lia.
From Flocq Require Import Core.Core IEEE754.BinarySingleNaN.
From Verif Require Import Fmt Spec FloatFacts Exc Deco SpecApi SpecDeco MBase MBool MNum PBase PClass MStream MDecoIo MText MPrint MUncertain MOverlap PPrint MManip SpecManip PManip PManip2.
Import ListNotations.
Local Open Scope string_scope.
Local Open Scope list_scope.
Local Open Scope m_scope.
Local Open Scope Z_scope.

Lemma ret_inv {A} (a b : A) e e' : ret a e = (Ret b, e') -> a = b /\ e = e'.
Proof. now intros [= -> ->]. Qed.
Section Write.
Context {F : fmt}.
Variable get : mode -> number_rep -> N -> bool -> float F -> M text.
Variable k : Z.
Local Notation put_inf_sup := (@put_inf_sup F k).
Local Notation put_bare := (@put_bare F get k).
Local Notation put_dec := (@put_dec F get k).
Local Notation put_with_dec := (@put_with_dec F get k).

(** ** The width of numbers *)
Definition frame (s : stream) : Z := if punct k s then 3 else 1.
Lemma get_str_size (x : float F) E m r w p up e t e' : get_str E m r w p up x e = (Ret t, e') -> Z.of_N w <= size t.
Proof.
  unfold get_str. set (u := sprintf _ _ _ _ _ _). destruct (_ <=? _)%N; [|easy]. intros [= <- _]. unfold u, sprintf, size. rewrite padded_length. lia.
Qed.
Lemma half_n n : (Nat.div n 2 <= n)%nat. Proof. apply Nat.div_le_upper_bound; lia. Qed.
Definition special_word (s : stream) (e : bool) : text :=
  let words := txt (if is_upper k s then (if e then "EMPTY" else "ENTIRE") else (if e then "empty" else "entire")) in
  match special k s, punct k s with s_no_bounds, true => txt (if e then " " else ",") | _, _ => words end.
Lemma parts_cases (x : itv F) s : wf x -> parts (view k s) (manip_of k s) x =
  (let e := isnan (fst x) in
   let lit a b := txt (if punct k s then a else b) in
   let part3 := special_word s e in
   let n := (length part3 - 1)%nat in let w := N.to_nat (width_of k s) in
   if (e || (feq (fst x) fminf && feq (snd x) finf)) && (match special k s with s_bounds => false | _ => true end)
   then ret (lit "[" "", blanks (w - n / 2), part3, blanks (w - (n - n / 2)), lit "]" "")
   else (a <- n_inf x;
    l <- get_str (setup_env (F := F)) mode_DN (number k s) (width_of k s) (precision_word k s) (is_upper k s) a;
    b <- n_sup x;
    u <- get_str (setup_env (F := F)) mode_UP (number k s) (width_of k s) (precision_word k s) (is_upper k s) b;
    ret (lit "[" "", l, lit "," " ", u, lit "]" ""))).
Proof.
  intros Hx. unfold parts. rewrite (is_empty_wf x Hx), (is_entire_wf x Hx), mor_ret.
  cbn [m_punct m_special m_width m_number m_precision manip_of view o_upper_text]. destruct (isnan (fst x)) eqn:E; cbn [orb].
  - rewrite mand_ret, mif_ret. destruct (match special k s with s_bounds => false | _ => true end); [|reflexivity]. now rewrite bind_ret.
  - rewrite mand_ret. destruct (feq (fst x) fminf && feq (snd x) finf); rewrite mif_ret; cbn [andb]; [|reflexivity].
    destruct (match special k s with s_bounds => false | _ => true end); [|reflexivity]. now rewrite bind_ret.
Qed.
Lemma special_size s (e1 : bool) : (1 <= length (special_word s e1) <= 6)%nat.
Proof. unfold special_word. destruct (special k s), (punct k s), (is_upper k s), e1; cbn; lia. Qed.
Lemma lit_size (b : bool) (c : ascii) : size (txt (if b then String c EmptyString else ""%string)) = if b then 1 else 0.
Proof. now destruct b. Qed.
Lemma parts_min (x : itv F) s e p1 p2 p3 p4 p5 e' : wf x -> parts (view k s) (manip_of k s) x e = (Ret (p1, p2, p3, p4, p5), e') ->
  2 * Z.of_N (width_of k s) + frame s <= size (p1 ++ p2 ++ p3 ++ p4 ++ p5).
Proof.
  intros Hx H. rewrite parts_cases in H by easy. cbv zeta in H. pose proof (special_size s (isnan (fst x))) as L.
  set (part3 := special_word _ _) in *. unfold frame. destruct (_ && _).
  - injection H as <- <- <- <- <- _. rewrite !size_app, !blanks_size, !lit_size. pose proof (half_n (length part3 - 1)).
    change (size part3) with (Z.of_nat (length part3)). unfold Nat.div in *. cbn [Nat.sub] in *. destruct (punct k s); lia.
  - apply bind_inv in H. destruct H as (a & e1 & _ & H). apply bind_inv in H. destruct H as (l & e2 & Hl & H).
    apply bind_inv in H. destruct H as (b & e3 & _ & H). apply bind_inv in H. destruct H as (u & e4 & Hu & H). injection H as <- <- <- <- <- _.
    apply get_str_size in Hl. apply get_str_size in Hu. rewrite !size_app, !lit_size. destruct (punct k s); cbn [txt list_ascii_of_string]; unfold size at 2; cbn [length]; lia.
Qed.
Lemma inf_sup_frame (x : itv F) s e t e' s' : wf x -> writes (put_inf_sup x) s e t e' s' -> 2 * Z.of_N (width_of k s) + frame s <= size t.
Proof.
  intros Hx H. unfold writes, MManip.put_inf_sup in H. apply sbind_inv in H. destruct H as (r1 & e1 & s1 & E1 & E2).
  destruct r1 as [[[[[p1 p2] p3] p4] p5]|ex|]; [|now destruct E2 as [E2 _]|now destruct E2 as [E2 _]].
  apply lift_inv in E1. destruct E1 as [E1 ->]. apply parts_min in E1; [|easy]. apply output_writes in E2. destruct E2 as (-> & _ & _).
  refine (Z.le_trans _ _ _ E1 (Z.le_trans _ _ _ _ (parts_size _ _))). cbn [concat]. rewrite !size_app, !blanks_size. change (size []) with 0. lia.
Qed.
Lemma bare_frame (x : itv F) s e t e' s' : wf x -> form k s = None \/ x = empty -> writes (put_bare x) s e t e' s' ->
  2 * Z.of_N (width_of k s) + frame s <= size t.
Proof.
  intros Hx Hf H. unfold writes in H. rewrite bare_eq in H by easy.
  destruct Hf as [E| ->]; [rewrite E in H; now apply inf_sup_frame in H|]. cbn [fst empty isnan] in H. destruct (form k s); now apply inf_sup_frame in H.
Qed.
Lemma dec_frame (x : ditv F) s e t e' s' : wf_dec x -> form k s = None \/ isnan (fst (fst x)) = true -> writes (put_dec x) s e t e' s' ->
  2 * Z.of_N (width_of k s) + frame s <= size t.
Proof.
  intros Hx Hf H. unfold writes in H. rewrite dec_eq in H by easy. destruct (deq (snd x) ill).
  - unfold put_nai in H. apply output_writes in H. destruct H as (-> & _ & _). refine (Z.le_trans _ _ _ _ (parts_size _ _)). cbn [concat].
    rewrite !size_app, !blanks_size, !lit_size. unfold frame. change (size []) with 0. replace (size (txt (if is_upper k s then "NAI" else "nai"))) with 3 by now destruct (is_upper k s). destruct (punct k s); lia.
  - destruct (isnan (fst (fst x))) eqn:En.
    + apply bare_frame in H; [easy|now apply wf_dec_wf|]. right. apply wf_nan_l; [now apply wf_dec_wf|easy].
    + destruct Hf as [Hf|Hf]; [|easy]. apply with_dec_inv in H. cbv zeta in H. destruct H as (_ & t1 & s1 & t2 & H & _ & ->).
      set (s2 := set_word _ _ s) in H. pose proof (alike_set k (to_int (string_width_of k s) - to_int (size (dec_text k s (snd x)))) s) as (_ & E2 & _ & E4 & _ & _ & E7 & _).
      fold s2 in E2, E4, E7. apply bare_frame in H; [|now apply wf_dec_wf|left; now rewrite E2]. unfold frame in *. rewrite E4, E7 in H. rewrite size_app. pose proof (size_nonneg t2). lia.
Qed.
(** Special intervals take the room of two numbers. *)
Lemma special_exact (x : itv F) s e : wf x -> x = empty \/ x = entire -> special k s <> s_bounds -> form k s = None \/ x = empty ->
  (3 <= width_of k s < 2 ^ 29)%N -> o_width (s_fmt s) = 0%N -> int_width k s ->
  exists t, writes (put_bare x) s e t e (reset_width s) /\ size t = Z.max (string_width_of k s) (2 * Z.of_N (width_of k s) + frame s).
Proof.
  intros Hx Hs Hb Hf Hw Ho Hi. unfold writes. rewrite bare_eq by easy.
  assert (E0 : (match form k s with Some u => if isnan (fst x) then put_inf_sup x s e else put_uncertain get k u x s e | None => put_inf_sup x s e end) = put_inf_sup x s e).
  { destruct Hf as [->| ->]; [easy|]. now destruct (form k s). }
  rewrite E0. clear E0. unfold MManip.put_inf_sup. rewrite parts_cases by easy. cbv zeta. pose proof (special_size s (isnan (fst x))) as L.
  set (part3 := special_word _ _) in *.
  assert (E1 : (isnan (fst x) || feq (fst x) fminf && feq (snd x) finf) && match special k s with s_bounds => false | _ => true end = true).
  { apply andb_true_iff. split; [now destruct Hs as [->| ->]|now destruct (special k s)]. }
  rewrite E1. unfold sbind at 1, lift at 1. cbn [ret]. set (p1 := txt (if punct k s then "["%string else _)). set (p5 := txt (if punct k s then "]"%string else _)).
  set (p2 := blanks (N.to_nat (width_of k s) - (length part3 - 1) / 2)). set (p4 := blanks (N.to_nat (width_of k s) - (length part3 - 1 - (length part3 - 1) / 2))). set (T := p1 ++ p2 ++ part3 ++ p4 ++ p5).
  assert (HT : size T = 2 * Z.of_N (width_of k s) + frame s).
  { unfold T, p1, p2, p4, p5. rewrite !size_app, !blanks_size, !lit_size. unfold frame. change (size part3) with (Z.of_nat (length part3)).
    assert (length part3 - 1 - Nat.div (length part3 - 1) 2 <= 3 /\ Nat.div (length part3 - 1) 2 <= 3)%nat.
    { clear - L. destruct (length part3) as [|[|[|[|[|[|[|]]]]]]]; cbn; lia. }
    pose proof (half_n (length part3 - 1)). destruct (punct k s); lia. }
  unfold output, sbind, update, sret, lift. cbn [ret]. eexists. split; [reflexivity|]. rewrite parts_plain by exact Ho. cbn [concat]. rewrite app_nil_r.
  set (g := gap _ _). rewrite <- HT. unfold int_width in Hi. pose proof (gap_exact (string_width_of k s) (size T)) as G. fold g in G.
  rewrite !size_app, !blanks_size. pose proof (half_sum g). unfold T in HT, G |- *. rewrite !size_app in *. unfold frame in HT. destruct (punct k s); lia.
Qed.

(** ** The text is that of MPrint.v and MUncertain.v *)
Lemma gap_nat sw n : 0 <= n -> - 2 ^ 31 <= sw - n -> sw < 2 ^ 31 -> gap sw n = (N.to_nat (Z.to_N sw) - Z.to_nat n)%nat.
Proof. intros H1 H2 H3. unfold gap. rewrite to_int_id by lia. lia. Qed.
Lemma gap_size sw t : - 2 ^ 31 <= sw - size t -> sw < 2 ^ 31 -> gap sw (size t) = (N.to_nat (Z.to_N sw) - length t)%nat.
Proof. intros H1 H2. pose proof (size_nonneg t). rewrite gap_nat by easy. unfold size. now rewrite Nat2Z.id. Qed.
Lemma inf_sup_text (x : itv F) s e t e' : wf x -> string_width_of k s < 2 ^ 31 -> - 2 ^ 31 <= string_width_of k s - size t ->
  write_itv (view k s) (manip_of k s) x e = (Ret t, e') -> writes (put_inf_sup x) s e t e' (reset_width s).
Proof.
  intros Hx Hw Ht H. unfold write_itv in H. rewrite (is_valid_wf x Hx), mnot_ret, mif_ret in H. cbn [negb] in H.
  apply bind_inv in H. destruct H as ([[[[p1 p2] p3] p4] p5] & e1 & E1 & H). apply ret_inv in H. destruct H as [H <-]. unfold writes, MManip.put_inf_sup, sbind at 1, lift at 1. rewrite E1.
  set (T := p1 ++ p2 ++ p3 ++ p4 ++ p5) in *. cbn [m_string_width manip_of] in H.
  assert (HT : size T <= size t).
  { rewrite <- H. refine (Z.le_trans _ _ _ _ (parts_size _ _)). unfold T. cbn [concat]. rewrite !size_app, !blanks_size. change (size []) with 0. lia. }
  rewrite gap_size by lia. unfold output, sbind, update, sret, lift. cbn [ret]. now rewrite H.
Qed.
Lemma bare_text (x : itv F) s e t e' : wf x -> string_width_of k s < 2 ^ 31 -> - 2 ^ 31 <= string_width_of k s - size t ->
  write_any get (form k s) (exponent k s) (view k s) (manip_of k s) x e = (Ret t, e') -> writes (put_bare x) s e t e' (reset_width s).
Proof.
  intros Hx Hw Ht H. unfold writes. rewrite bare_eq by easy. unfold write_any in H. destruct (form k s) as [u|]; [|now apply inf_sup_text].
  rewrite (is_valid_wf x Hx), mnot_ret, mif_ret in H. cbn [negb] in H. rewrite (is_empty_wf x Hx), mif_ret in H. destruct (isnan (fst x)); [now apply inf_sup_text|].
  apply bind_inv in H. destruct H as (str & e1 & E1 & H). apply ret_inv in H. destruct H as [H <-]. unfold MManip.put_uncertain, sbind at 1, lift at 1.
  cbn [m_precision m_string_width manip_of view o_upper_text] in *. rewrite E1.
  assert (HT : size str <= size t).
  { rewrite <- H. refine (Z.le_trans _ _ _ _ (pad_size _ _ _)). rewrite size_app. pose proof (size_nonneg (blanks (N.to_nat (Z.to_N (string_width_of k s)) - length str))). lia. }
  rewrite gap_size by lia. unfold output, sbind, update, sret, lift. cbn [ret put_parts concat]. now rewrite app_nil_r, H.
Qed.
Lemma dec_text_eq (x : ditv F) s e t e' : wf_dec x -> int_width k s -> size t < 2 ^ 31 ->
  write_ditv_any get (form k s) (exponent k s) (view k s) (manip_of k s) x e = (Ret t, e') -> exists s', writes (put_dec x) s e t e' s'.
Proof.
  intros Hx Hw Ht H. pose proof (wf_dec_wf x Hx) as Hx'. unfold int_width in Hw. unfold writes. unfold write_ditv_any in H. rewrite (is_valid_dec_wf x Hx), mnot_ret, mif_ret in H. cbn [negb] in H.
  rewrite (is_nai_wf x Hx), mif_ret in H. pose proof (size_nonneg t). setoid_rewrite dec_eq; [|easy]. destruct (deq (snd x) ill) eqn:Ei.
  - unfold write_ditv in H. rewrite (is_valid_dec_wf x Hx), mnot_ret, mif_ret in H. cbn [negb] in H. rewrite (is_nai_wf x Hx), mif_ret, Ei in H.
    cbn [m_width m_punct m_string_width manip_of view o_upper_text] in H. apply ret_inv in H. destruct H as [H <-]. exists (reset_width s). unfold put_nai.
    set (p1 := txt (if punct k s then "[" else "") ++ blanks _) in *. set (p2 := txt (if is_upper k s then _ else _)) in *.
    set (p3 := blanks _ ++ txt (if punct k s then "]" else "")) in *. set (T := p1 ++ p2 ++ p3) in *.
    assert (HT : size T <= size t).
    { rewrite <- H. refine (Z.le_trans _ _ _ _ (parts_size _ _)). unfold T. cbn [concat]. rewrite !size_app, !blanks_size. change (size []) with 0. lia. }
    pose proof (size_nonneg T). rewrite gap_size by lia. unfold output, sbind, update, sret, lift. cbn [ret]. now rewrite H.
  - rewrite (is_empty_dec_wf x Hx), mif_ret, Ei in H. cbn [negb andb] in H. destruct (isnan (fst (fst x))).
    + exists (reset_width s). apply bare_text; [easy|lia|lia|easy].
    + apply bind_inv in H. destruct H as (t1 & e1 & H1 & H). apply ret_inv in H. destruct H as [H <-]. cbn [m_string_width m_punct manip_of] in *.
      change (put_parts (view k s) [txt (if punct k s then "_" else " ")] ++ write_deco (no_width (view k s)) (snd x)) with (dec_text k s (snd x)) in *.
      set (buf := dec_text k s (snd x)) in *. subst t. rewrite size_app in Ht. pose proof (size_nonneg t1). pose proof (size_nonneg buf).
      set (v := string_width_of k s) in *. set (s1 := set_word (string_width_id k) (v - size buf) s).
      pose proof (alike_set k (v - size buf) s) as (E1 & E2 & E3 & E4 & E5 & E6 & E7 & E8 & E9). fold s1 in E1, E2, E3, E4, E5, E6, E7, E8, E9.
      assert (V : string_width_of k s1 = v - size buf) by apply string_width_set.
      assert (K : writes (put_bare (fst x)) s1 e t1 e1 (reset_width s1)).
      { apply bare_text; [easy|lia|lia|]. rewrite E1, E2, E8. unfold manip_of. rewrite E3, E4, E5, E6, E7, V.
        unfold set_string_width in H1. cbn [m_number m_width m_precision m_special m_punct manip_of] in H1.
        replace (Z.to_N (v - size buf)) with (Z.to_N v - N.of_nat (length buf))%N by (unfold size; lia). exact H1. }
      unfold MManip.put_with_dec. fold v. fold buf. rewrite (to_int_id v), (to_int_id (size buf)) by lia.
      destruct (_ && _) eqn:E; [|exfalso; apply andb_false_iff in E; destruct E as [E|E]; [apply Z.leb_gt in E|apply Z.ltb_ge in E]; lia].
      unfold sbind at 1, update at 1, finally. unfold sbind at 1. fold s1. rewrite K. unfold sbind, output, update, sret, lift. cbn -[s1].
      rewrite pad_plain by reflexivity. rewrite app_nil_r. eexists. reflexivity.
Qed.
End Write.
