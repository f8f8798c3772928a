(** * Proofs: literals in uncertain form *)
From Coq Require Import ZArith NArith Reals Bool Ascii String List Lia Lra.
From Flocq Require Import Core.Core IEEE754.BinarySingleNaN.
From Verif Require Import Fmt Spec FloatFacts Exc Deco SpecApi MBase PBase PArith PClass PElem MStream MText MRegex MRead PQround PRegex SpecLiteral PLiteral PInfSup PReadVal.
Import ListNotations.
Local Open Scope list_scope.

(** ** Parts *)
Inductive rad : Type := RHalf | RInf | RUnits (l : text).
Inductive dirn : Type := DBoth | DUp (c : ascii) | DDown (c : ascii).
Record unc : Type := Unc { u_s : sg; u_i : text; u_f : option text; u_r : rad; u_d : dirn; u_e : option (ascii * sg * text) }.
Definition rtext (r : rad) : text := match r with RHalf => [] | RInf => txt "?" | RUnits l => l end.
Definition dtext (d : dirn) : text := match d with DBoth => [] | DUp c | DDown c => [c] end.
Definition xtext (e : option (ascii * sg * text)) : text := match e with None => [] | Some (m, t, l) => m :: stext t ++ l end.
Definition utext (u : unc) : text := (stext (u_s u) ++ mtext (u_i u) (u_f u)) ++ txt "?" ++ rtext (u_r u) ++ dtext (u_d u) ++ xtext (u_e u).
Definition rshape (r : rad) : Prop := match r with RUnits l => forallb isdigit l = true /\ l <> [] | _ => True end.
Definition dshape (d : dirn) : Prop := match d with DBoth => True | DUp c => same "u" c = true | DDown c => same "d" c = true end.
Definition xshape (e : option (ascii * sg * text)) : Prop :=
  match e with None => True | Some (m, t, l) => same "e" m = true /\ forallb isdigit l = true /\ l <> [] end.
Definition ushape (u : unc) : Prop := mshape isdigit (u_i u) (u_f u) /\ rshape (u_r u) /\ dshape (u_d u) /\ xshape (u_e u).
(** The groups it sets, the last first. *)
Definition rcaps (r : rad) : caps := match r with RHalf => [] | RInf => [(2%nat, txt "?")] | RUnits l => [(3%nat, l)] end.
Definition dcaps (d : dirn) : caps := match d with DBoth => [] | DUp c => [(4%nat, [c])] | DDown c => [(5%nat, [c])] end.
Definition xcaps (e : option (ascii * sg * text)) : caps := match e with None => [] | Some (m, t, l) => [(6%nat, stext t ++ l)] end.
Definition ucaps (u : unc) : caps := xcaps (u_e u) ++ dcaps (u_d u) ++ rcaps (u_r u) ++ [(1%nat, stext (u_s u) ++ mtext (u_i u) (u_f u))].

Lemma same_q c : same "?" c = true -> c = "?"%char. Proof. chars c. Qed.
Lemma same_uU c : same "U" c = same "u" c. Proof. reflexivity. Qed.
Lemma sem_rad s c c' : sem (Opt (Alt (Grp 2 (Lit "?")) (Grp 3 (Plus isdigit)))) s c c' <-> exists r, rshape r /\ s = rtext r /\ c' = rcaps r ++ c.
Proof.
  split.
  - intros [[(c1 & (x & -> & Hx & ->) & ->) | (c1 & H & ->)] | [-> ->]].
    + apply same_q in Hx. subst x. now exists RInf.
    + apply sem_plus in H. destruct H as (H1 & H2 & ->). now exists (RUnits s).
    + now exists RHalf.
  - intros (r & Hr & -> & ->). destruct r as [| |l].
    + right. easy.
    + left. left. exists c. split; [|easy]. now exists "?"%char.
    + left. right. exists c. split; [|easy]. apply sem_plus. now destruct Hr.
Qed.
Lemma sem_dir s c c' : sem (Opt (Alt (Grp 4 (Alt (Lit "u") (Lit "U"))) (Grp 5 (Alt (Lit "d") (Lit "D"))))) s c c' <->
  exists d, dshape d /\ s = dtext d /\ c' = dcaps d ++ c.
Proof.
  split.
  - intros [[(c1 & [(x & -> & Hx & ->)|(x & -> & Hx & ->)] & ->) | (c1 & [(x & -> & Hx & ->)|(x & -> & Hx & ->)] & ->)] | [-> ->]].
    + now exists (DUp x).
    + now exists (DUp x).
    + now exists (DDown x).
    + now exists (DDown x).
    + now exists DBoth.
  - intros (d & Hd & -> & ->). destruct d as [|x|x].
    + right. easy.
    + left. left. exists c. split; [|easy]. left. now exists x.
    + left. right. exists c. split; [|easy]. left. now exists x.
Qed.
Lemma sem_exp s c c' : sem (Opt (Cat (Alt (Lit "e") (Lit "E")) (Grp 6 Int))) s c c' <-> exists e, xshape e /\ s = xtext e /\ c' = xcaps e ++ c.
Proof.
  split.
  - intros [(s1 & s2 & c1 & -> & H & c2 & H2 & ->) | [-> ->]]; [|now exists None].
    apply sem_int in H2. destruct H2 as (t & l & -> & H3 & H4 & ->).
    destruct H as [(x & -> & Hx & ->)|(x & -> & Hx & ->)]; now exists (Some (x, t, l)).
  - intros (e & He & -> & ->). destruct e as [[[m t] l]|]; [|now right]. left. destruct He as (H1 & H2 & H3).
    exists [m], (stext t ++ l), c. split; [easy|]. split; [left; now exists m|]. exists c. split; [|easy]. apply sem_int. eauto 7.
Qed.
Lemma sem_unc s c : sem uncertain_regex s [] c <-> exists u, ushape u /\ s = utext u /\ c = ucaps u.
Proof.
  unfold uncertain_regex. split.
  - intros (s1 & s2 & c1 & -> & (c2 & (s3 & s4 & c3 & -> & H1 & H2) & ->) & s5 & s6 & c4 & -> & (q & -> & Hq & ->) &
      s7 & s8 & c5 & -> & H3 & s9 & s10 & c6 & -> & H4 & H5).
    apply sem_opt_sign in H1. destruct H1 as (g & -> & ->). apply sem_mant in H2. destruct H2 as (i & f & -> & H2 & ->).
    apply same_q in Hq. subst q. apply sem_rad in H3. destruct H3 as (r & Hr & -> & ->).
    apply sem_dir in H4. destruct H4 as (d & Hd & -> & ->). apply sem_exp in H5. destruct H5 as (e & He & -> & ->).
    exists (Unc g i f r d e). easy.
  - intros ([g i f r d e] & (H1 & H2 & H3 & H4) & -> & ->). cbn [u_s u_i u_f u_r u_d u_e] in *. unfold utext, ucaps; cbn [u_s u_i u_f u_r u_d u_e].
    set (num := stext g ++ mtext i f). exists num, (txt "?" ++ rtext r ++ dtext d ++ xtext e), [(1%nat, num)].
    split; [easy|]. split.
    { exists []. split; [|easy]. exists (stext g), (mtext i f), []. split; [easy|]. split; [apply sem_opt_sign; eauto | apply sem_mant; eauto]. }
    exists (txt "?"), (rtext r ++ dtext d ++ xtext e), [(1%nat, num)]. split; [easy|]. split; [now exists "?"%char|].
    exists (rtext r), (dtext d ++ xtext e), (rcaps r ++ [(1%nat, num)]). split; [easy|]. split; [apply sem_rad; eauto|].
    exists (dtext d), (xtext e), (dcaps d ++ rcaps r ++ [(1%nat, num)]). split; [easy|]. split; [apply sem_dir; eauto|]. apply sem_exp. eauto.
Qed.

(** ** The parts are determined by the text *)
Lemma mark_d c : dshape (DUp c) \/ dshape (DDown c) -> isdigit c = false /\ same "e" c = false /\ c <> "?"%char.
Proof. intros [H|H]; revert H; cbn; chars c; intros _; repeat split; congruence. Qed.
Lemma mark_e3 c : same "e" c = true -> isdigit c = false /\ c <> "?"%char.
Proof. chars c; intros _; repeat split; congruence. Qed.
Lemma dx_stops d e : dshape d -> xshape e -> stops isdigit (dtext d ++ xtext e) /\ match dtext d ++ xtext e with [] => True | c :: _ => c <> "?"%char end.
Proof.
  destruct d as [|c|c]; cbn [dtext app].
  - intros _. destruct e as [[[m t] l]|]; cbn; [|easy]. intros (H & _). now apply mark_e3 in H.
  - intros H _. apply (or_introl (B := dshape (DDown c))) in H. now apply mark_d in H.
  - intros H _. apply (or_intror (A := dshape (DUp c))) in H. now apply mark_d in H.
Qed.
Lemma utext_inj u u' : ushape u -> ushape u' -> utext u = utext u' -> u = u'.
Proof.
  destruct u as [g i f r d e], u' as [g' i' f' r' d' e']. unfold ushape, utext; cbn [u_s u_i u_f u_r u_d u_e].
  intros (H1 & H2 & H3 & H4) (H1' & H2' & H3' & H4') E. rewrite <- !app_assoc in E.
  assert (B : forall i f x, mshape isdigit i f -> stops is_sign (mtext i f ++ x)).
  { intros a b x H. eapply starts_stops; [apply num_start_not_sign|]. apply starts_app. apply mtext_starts; [|easy|easy].
    intros c Hc. unfold num_start. now rewrite Hc. }
  apply sign_split in E; auto. destruct E as [<- E].
  apply (mant_split isdigit) in E; [| easy | easy | intros c; apply digit_not_point | easy | easy | easy | easy].
  destruct E as (<- & <- & E). injection E as E.
  destruct (dx_stops d e H3 H4) as [S1 S2], (dx_stops d' e' H3' H4') as [S1' S2'].
  assert (Er : r = r' /\ dtext d ++ xtext e = dtext d' ++ xtext e').
  { destruct r as [| |l], r' as [| |l']; cbn [rtext] in E.
    - easy.
    - exfalso. cbn in E. rewrite E in S2. easy.
    - exfalso. cbn in E. rewrite E in S1. destruct H2' as [H5 H6]. destruct l' as [|c l']; [easy|]. cbn in S1, H5. now rewrite S1 in H5.
    - exfalso. cbn in E. rewrite <- E in S2'. easy.
    - split; [easy|]. now injection E.
    - exfalso. destruct H2' as [H5 H6]. destruct l' as [|c l']; [easy|]. injection E as <- _. easy.
    - exfalso. cbn in E. rewrite <- E in S1'. destruct H2 as [H5 H6]. destruct l as [|c l]; [easy|]. cbn in S1', H5. now rewrite S1' in H5.
    - exfalso. destruct H2 as [H5 H6]. destruct l as [|c l]; [easy|]. injection E as -> _. easy.
    - destruct H2 as [H5 _], H2' as [H6 _]. apply (span_unique isdigit) in E; try easy. now destruct E as [<- ->]. }
  destruct Er as [<- Ed]. clear E S1 S2 S1' S2'.
  assert (Ex : d = d' /\ xtext e = xtext e').
  { assert (Y : forall c (x : text) e, (dshape (DUp c) \/ dshape (DDown c)) -> xshape e -> c :: x = xtext e -> False).
    { clear. intros c x [[[m t] l]|] Hc He E; [|easy]. injection E as -> _. destruct He as (He & _). apply mark_d in Hc. destruct Hc as (_ & Hc & _). congruence. }
    destruct d as [|c|c], d' as [|c'|c']; cbn [dtext app] in Ed; try easy.
    - exfalso. eapply (Y c'); [left; exact H3'|exact H4|symmetry; exact Ed].
    - exfalso. eapply (Y c'); [right; exact H3'|exact H4|symmetry; exact Ed].
    - exfalso. eapply (Y c); [left; exact H3|exact H4'|exact Ed].
    - injection Ed as <- Ed. easy.
    - injection Ed as <- Ed. cbn in H3, H3'. exfalso. revert H3 H3'. clear. chars c.
    - exfalso. eapply (Y c); [right; exact H3|exact H4'|exact Ed].
    - injection Ed as <- Ed. cbn in H3, H3'. exfalso. revert H3 H3'. clear. chars c.
    - injection Ed as <- Ed. easy. }
  destruct Ex as [<- Ee]. f_equal.
  destruct e as [[[m t] l]|], e' as [[[m' t'] l']|]; try easy. cbn [xtext] in Ee. destruct H4 as (_ & H5 & H6), H4' as (_ & H7 & H8).
  apply exponent_split in Ee; try easy. now destruct Ee as (<- & <- & <-).
Qed.

(** ** Values *)
Local Open Scope m_scope.
Local Open Scope Z_scope.
Definition u_units (u : unc) : Z := match u_r u with RUnits l => value 10 l | _ => 5 end.
Definition u_shift (u : unc) : Z := match u_r u with RUnits l => 0 | _ => 1 end.
Definition u_mant (u : unc) : Z := sval (u_s u) * value 10 (mdigits (u_i u) (u_f u)).
Definition u_exp (u : unc) : Z := match u_e u with Some (_, t, l) => sval t * value 10 l | None => 0 end.
Definition u_m (u : unc) : Z := match u_r u with RUnits l => u_mant u | _ => u_mant u * 10 end.
Definition usmall (u : unc) : Prop := int_exponent (u_exp u) /\ int_exponent (u_exp u - mlen (u_f u) - u_shift u).
Section V.
Context {F : fmt}.
Definition uvalue (u : unc) : M (option (itv F * deco)) :=
  match u_s u with
  | Sp => ret None
  | _ =>
    p <- match u_e u with
         | Some (_, t, l) => e <- stoi (stext t ++ l); ichk (- mlen (u_f u) - u_shift u + e) (ret (- mlen (u_f u) - u_shift u + e))
         | None => ret (- mlen (u_f u) - u_shift u)
         end;
    match u_r u with
    | RInf => q <- scaled 10 (u_m u) p;
              ret (Some (match u_d u with DUp _ => (rnd_q mode_DN q, finf) | DDown _ => (fminf, rnd_q mode_UP q) | DBoth => entire end, dac))
    | _ => ql <- scaled 10 (match u_d u with DUp _ => u_m u | _ => u_m u - u_units u end) p;
           qu <- scaled 10 (match u_d u with DDown _ => u_m u | _ => u_m u + u_units u end) p;
           ret (Some ((rnd_q mode_DN ql, rnd_q mode_UP qu), com))
    end
  end.

Lemma mtext_nonempty p s i f : mshape p i f -> stext s ++ mtext i f <> [].
Proof. intros [_ H] E. apply H. unfold mtext, mdigits in *. destruct s; try easy. cbn in E. destruct i; [|easy]. cbn in *. now destruct f. Qed.
Lemma bind_ext {A B} (m : M A) (k k' : A -> M B) : (forall a s, k a s = k' a s) -> forall s, bind m k s = bind m k' s.
Proof. intros H s. unfold bind. now destruct (m s) as [[a| |] s1]. Qed.
Lemma uncertain_eq u : ushape u -> short (utext u) -> forall s, @uncertain_value F (ucaps u) s = uvalue u s.
Proof.
  destruct u as [g i f r d e]. unfold ushape, utext; cbn [u_s u_i u_f u_r u_d u_e]. intros (H1 & H2 & H3 & H4) Hl.
  apply short_app in Hl. destruct Hl as [Hl _]. pose proof (mlen_short _ _ _ Hl) as Hk. destruct H1 as [H1 H1'].
  unfold uncertain_value, uvalue. cbn [u_s u_i u_f u_r u_d u_e].
  assert (C1 : cap (ucaps (Unc g i f r d e)) 1 = stext g ++ mtext i f) by (destruct e as [[[m t] l]|], d, r; reflexivity).
  assert (C3 : cap (ucaps (Unc g i f r d e)) 3 = match r with RUnits l => l | _ => [] end) by (destruct e as [[[m t] l]|], d, r; reflexivity).
  assert (M3 : matched (ucaps (Unc g i f r d e)) 3 = match r with RUnits l => true | _ => false end).
  { unfold matched. rewrite C3. destruct r as [| |[|]]; try easy. now destruct H2. }
  assert (M2 : matched (ucaps (Unc g i f r d e)) 2 = match r with RInf => true | _ => false end) by (destruct e as [[[m t] l]|], d, r; reflexivity).
  assert (M4 : matched (ucaps (Unc g i f r d e)) 4 = match d with DUp _ => true | _ => false end) by (destruct e as [[[m t] l]|], d, r; reflexivity).
  assert (M5 : matched (ucaps (Unc g i f r d e)) 5 = match d with DDown _ => true | _ => false end) by (destruct e as [[[m t] l]|], d, r; reflexivity).
  assert (C6 : cap (ucaps (Unc g i f r d e)) 6 = match e with Some (m, t, l) => stext t ++ l | None => [] end) by (destruct e as [[[m t] l]|], d, r; reflexivity).
  assert (M6 : matched (ucaps (Unc g i f r d e)) 6 = match e with Some _ => true | None => false end).
  { unfold matched. rewrite C6. destruct e as [[[m t] l]|]; [|easy]. destruct H4 as (_ & _ & H5). destruct t, l; easy. }
  rewrite C1, C3, C6, M2, M3, M4, M5, M6. clear C1 C3 C6 M2 M3 M4 M5 M6.
  rewrite remove_point_mtext; [|apply stext_no_point|eapply forallb_impl, H1; apply no_point_digit|easy].
  rewrite set_str10_digits by easy. intros s.
  assert (I3 : (if match r with RUnits l => true | _ => false end then mpz_set_str10 (match r with RUnits l => l | _ => [] end) else Some 5) = Some (u_units (Unc g i f r d e))).
  { destruct r as [| |l]; try easy. unfold u_units; cbn [u_r]. destruct H2 as [H5 H6].
    change l with (stext Sn ++ l) at 1. rewrite set_str10_digits by easy. cbn [sval]. now rewrite Z.mul_1_l. }
  rewrite I3. clear I3. unfold u_shift, u_m, u_mant; cbn [u_s u_i u_f u_r u_d u_e].
  destruct g; cbn [sval].
  - destruct r; cbn iota; rewrite ?ichk_ok by lia; rewrite ?Z.sub_0_r; destruct e as [[[m t] l']|]; apply bind_ext; intros; destruct d; reflexivity.
  - destruct r; cbn iota; rewrite ?ichk_ok by lia; easy.
  - destruct r; cbn iota; rewrite ?ichk_ok by lia; rewrite ?Z.sub_0_r; destruct e as [[[m t] l']|]; apply bind_ext; intros; destruct d; reflexivity.
Qed.

(** ** The set denoted *)
Definition u_unit (u : unc) : R := powerRZ 10 (u_exp u - mlen (u_f u)).
Definition u_center (u : unc) : R := (IZR (u_mant u) * u_unit u)%R.
Definition u_rad (u : unc) : option R := match u_r u with RHalf => Some (/ 2)%R | RInf => None | RUnits l => Some (IZR (value 10 l)) end.
Definition u_down (u : unc) : bool := match u_d u with DUp _ => false | _ => true end.
Definition u_up (u : unc) : bool := match u_d u with DDown _ => false | _ => true end.
Definition u_dist (u : unc) : option R := option_map (fun r => (r * u_unit u)%R) (u_rad u).
Definition u_low (u : unc) : option R := moved_bound (u_down u) (u_center u) (option_map Ropp (u_dist u)).
Definition u_upp (u : unc) : option R := moved_bound (u_up u) (u_center u) (u_dist u).
Definition uset (u : unc) : R -> Prop := between_bounds (u_low u) (u_upp u).
Definition ustrong (u : unc) : deco := match u_rad u with Some _ => com | None => dac end.

Lemma unit_pos u : (0 < u_unit u)%R. Proof. apply powerRZ_lt. lra. Qed.
Lemma u_ordered u : ushape u -> ordered (u_low u) (u_upp u).
Proof.
  intros (_ & H & _). pose proof (unit_pos u) as Hu. unfold u_low, u_upp, u_dist.
  assert (Hr : match u_rad u with Some r => (0 <= r)%R | None => True end).
  { unfold u_rad. destruct (u_r u) as [| |l]; [lra|easy|]. apply IZR_le. now apply PLiteral.value_nonneg. }
  destruct (u_rad u) as [r|]; cbn [option_map].
  - assert (0 <= r * u_unit u)%R by (apply Rmult_le_pos; lra). destruct (u_down u), (u_up u); cbn; lra.
  - destruct (u_down u), (u_up u); cbn; try exact I. lra.
Qed.
Lemma u_at u n : (IZR n * powerRZ 10 (u_exp u - mlen (u_f u) - u_shift u) =
  match u_r u with RUnits _ => IZR n * u_unit u | _ => IZR n / 10 * u_unit u end)%R.
Proof.
  unfold u_unit, u_shift. destruct (u_r u); rewrite ?Z.sub_0_r; try easy;
    unfold Z.sub at 1; rewrite powerRZ_add by lra; change (powerRZ 10 (- (1))) with (/ (10 * 1))%R; field.
Qed.
Lemma usmall_dec u : usmall u \/ ~ usmall u.
Proof. unfold usmall. destruct (int_exponent_dec (u_exp u)), (int_exponent_dec (u_exp u - mlen (u_f u) - u_shift u)); tauto. Qed.
Definition u_power (u : unc) : M Z :=
  match u_e u with
  | Some (_, t, l) => e <- stoi (stext t ++ l); ichk (- mlen (u_f u) - u_shift u + e) (ret (- mlen (u_f u) - u_shift u + e))
  | None => ret (- mlen (u_f u) - u_shift u)
  end.
Lemma u_power_spec u : xshape (u_e u) -> 0 <= mlen (u_f u) < 2 ^ 29 ->
  (-2147483648 <= u_exp u <= 2147483647 /\ forall s, u_power u s = (Ret (u_exp u - mlen (u_f u) - u_shift u), s)) \/ (~ usmall u /\ refuses (u_power u)).
Proof.
  intros Hx Hk. unfold u_power, usmall, u_exp. assert (Hd : 0 <= u_shift u <= 1) by (unfold u_shift; destruct (u_r u); lia).
  destruct (u_e u) as [[[m t] l]|].
  - destruct Hx as (_ & H1 & H2). rewrite stoi_digits by easy. set (e := sval t * value 10 l). clearbody e. destruct (is_int e) eqn:Ei.
    + pose proof (proj1 (is_int_spec e) Ei) as Hi. destruct (is_int (- mlen (u_f u) - u_shift u + e)) eqn:Ep.
      * left. split; [easy|]. intros s. unfold bind, ret, ichk. rewrite Ep. replace (- mlen (u_f u) - u_shift u + e) with (e - mlen (u_f u) - u_shift u) by lia. reflexivity.
      * right. split; [|intros s; right; unfold bind, ret, ichk; rewrite Ep; reflexivity].
        intros [_ H]. unfold int_exponent in H. assert (is_int (- mlen (u_f u) - u_shift u + e) = true) by (apply is_int_spec; lia). congruence.
    + right. split; [|intros s; left; reflexivity]. intros [H _]. unfold int_exponent in H.
      assert (is_int e = true) by (apply is_int_spec; lia). congruence.
  - left. split; [lia|]. intros s. reflexivity.
Qed.
Lemma scaled_refuses b n p : ~ int_exponent p -> refuses (scaled b n p).
Proof. intros H s. right. now apply scaled_bad. Qed.
Lemma uvalue_power u : u_s u <> Sp -> uvalue u =
  (p <- u_power u;
    match u_r u with
    | RInf => q <- scaled 10 (u_m u) p;
              ret (Some (match u_d u with DUp _ => (rnd_q mode_DN q, finf) | DDown _ => (fminf, rnd_q mode_UP q) | DBoth => entire end, dac))
    | _ => ql <- scaled 10 (match u_d u with DUp _ => u_m u | _ => u_m u - u_units u end) p;
           qu <- scaled 10 (match u_d u with DDown _ => u_m u | _ => u_m u + u_units u end) p;
           ret (Some ((rnd_q mode_DN ql, rnd_q mode_UP qu), com))
    end).
Proof. intros H. unfold uvalue. now destruct (u_s u). Qed.
Lemma rnd_q_val m q : 0 < snd q -> @rnd_q F m q = rround m false (mpq_val q).
Proof. intros _. apply rnd_q_rround. Qed.
Lemma uvalue_spec u : ushape u -> short (utext u) ->
  (u_s u = Sp /\ forall s, uvalue u s = (Ret None, s)) \/
  (u_s u <> Sp /\ usmall u /\ exists v, tightest (uset u) v /\ forall s, uvalue u s = (Ret (Some (v, ustrong u)), s)) \/
  (u_s u <> Sp /\ ~ usmall u /\ refuses (uvalue u)).
Proof.
  intros Hs Hl. pose proof Hs as (H1 & H2 & H3 & H4).
  assert (Hk : 0 <= mlen (u_f u) < 2 ^ 29) by (apply short_app in Hl; destruct Hl as [Hl _]; apply (mlen_short _ _ _ Hl)).
  assert (D : u_s u = Sp \/ u_s u <> Sp) by (destruct (u_s u); auto; right; easy).
  destruct D as [Es|Es]; [left; split; [easy|]; intros s; unfold uvalue; now rewrite Es|right].
  rewrite uvalue_power by easy. assert (Hd : 0 <= u_shift u <= 1) by (unfold u_shift; destruct (u_r u); lia).
  destruct (u_power_spec u H4 Hk) as [[He Hp] | [Hn Hr]]; [|right; split; [easy|]; split; [easy|]; now apply refuses_bind].
  destruct (int_exponent_dec (u_exp u - mlen (u_f u) - u_shift u)) as [Hi|Hi].
  2: { right. split; [easy|]. split; [unfold usmall; tauto|]. eapply ret_bind_refuses; [exact Hp|].
    destruct (u_r u); apply refuses_bind, scaled_refuses, Hi. }
  left. split; [easy|]. split; [split; [unfold int_exponent in *; lia|easy]|].
  exists (lowf (u_low u), uppf (u_upp u)). split; [now apply between_tightest, u_ordered|]. intros s. unfold bind at 1. rewrite Hp.
  assert (Sc : forall n, exists q, @mpq_val q = match u_r u with RUnits _ => (IZR n * u_unit u)%R | _ => (IZR n / 10 * u_unit u)%R end /\ 
     forall s, scaled 10 n (u_exp u - mlen (u_f u) - u_shift u) s = (Ret q, s)).
  { intros n. destruct (scaled_spec 10 n _ eq_refl Hi) as (q & _ & Q1 & Q2). exists q. split; [|exact Q2]. rewrite Q1. apply u_at. }
  unfold ustrong, u_rad, u_low, u_upp, u_dist, u_down, u_up, u_center, u_m, u_units, u_rad. destruct (u_r u) as [| |l] eqn:Er.
  - destruct (Sc (match u_d u with DUp _ => u_mant u * 10 | _ => u_mant u * 10 - 5 end)) as (q & Q1 & Q2).
    destruct (Sc (match u_d u with DDown _ => u_mant u * 10 | _ => u_mant u * 10 + 5 end)) as (q' & Q1' & Q2').
    unfold bind. rewrite Q2, Q2'. unfold ret. rewrite ?rnd_q_rround. rewrite Q1, Q1'. do 4 f_equal.
    destruct (u_d u); cbn [moved_bound option_map lowf uppf]; f_equal; f_equal; rewrite ?plus_IZR, ?minus_IZR, ?mult_IZR; field.
  - destruct (Sc (u_mant u * 10)) as (q & Q1 & Q2). unfold bind. rewrite Q2. unfold ret. rewrite ?rnd_q_rround. rewrite Q1. do 4 f_equal.
    destruct (u_d u); cbn [moved_bound option_map lowf uppf]; try easy; f_equal; f_equal; rewrite mult_IZR; field.
  - destruct (Sc (match u_d u with DUp _ => u_mant u | _ => u_mant u - value 10 l end)) as (q & Q1 & Q2).
    destruct (Sc (match u_d u with DDown _ => u_mant u | _ => u_mant u + value 10 l end)) as (q' & Q1' & Q2').
    unfold bind. rewrite Q2, Q2'. unfold ret. rewrite ?rnd_q_rround. rewrite Q1, Q1'. do 4 f_equal.
    destruct (u_d u); cbn [moved_bound option_map lowf uppf]; f_equal; f_equal; rewrite ?plus_IZR, ?minus_IZR; ring.
Qed.

(** ** Matching *)
Lemma regex_unc u : ushape u -> short (utext u) -> exists c, regex_match uncertain_regex (utext u) = Some c /\ forall s, @uncertain_value F c s = uvalue u s.
Proof.
  intros H Hl. assert (H0 : sem uncertain_regex (utext u) [] (ucaps u)) by (apply sem_unc; eauto).
  apply regex_match_complete in H0. destruct H0 as [c Hc]. exists c. split; [easy|]. apply regex_match_sound in Hc. apply sem_unc in Hc.
  destruct Hc as (u' & H' & E & ->). apply utext_inj in E; [|easy|easy]. subst u'. now apply uncertain_eq.
Qed.
Lemma unc_regex s c : regex_match uncertain_regex s = Some c -> exists u, ushape u /\ s = utext u /\ c = ucaps u.
Proof. intros H. apply regex_match_sound in H. now apply sem_unc. Qed.
End V.
