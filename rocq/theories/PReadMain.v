(** * Proofs: what reading an interval yields *)
From Coq Require Import ZArith NArith Reals Bool Ascii String List Lia Lra.
From Flocq Require Import Core.Core IEEE754.BinarySingleNaN.
From Verif Require Import Fmt Spec FloatFacts Exc Deco SpecApi MBase PBase PArith PClass PElem MStream MDecoIo SpecDecoText PDecoIo MText MRegex MRead PRegex SpecLiteral SpecRead PLiteral PInfSup PReadVal PUncertain PRead.
Import ListNotations.
Local Open Scope list_scope.

(** ** Literals and their parts *)
Lemma no_plus_any x g : no_plus x g -> any_sign x g. Proof. intros []; constructor. Qed.
Lemma no_plus_sg s : no_plus (stext s) (sval s) <-> s <> Sp.
Proof. split; [now intros H ->|]. destruct s; [constructor|easy|constructor]. Qed.
Lemma nsmall_of p : nsmall_in int_exponent p -> nsmall p.
Proof. destruct p; cbn; tauto. Qed.
Lemma nsmall_any p : nsmall_in any_exponent p. Proof. destruct p; cbn; unfold any_exponent; tauto. Qed.
Definition lit_ok (l : lit) : Prop := kplain (core l) /\ kordered (core l).

Lemma lower_parts t l : lower_bound no_plus int_exponent t l -> exists x, ashape low_words x /\ t = atext x /\ l = abound x /\ aplain x /\ asmall x.
Proof.
  intros [t' r H | | t' H].
  - apply number_parts in H; [|apply no_plus_any]. destruct H as (p & H1 & -> & -> & H2 & H3). apply no_plus_sg in H2. apply nsmall_of in H3. now exists (Numb p).
  - now exists Absent.
  - destruct H as [H|H]; [exists (Wrd "-inf" t') | exists (Wrd "-infinity" t')]; repeat split; cbn; auto.
Qed.
Lemma upper_parts t l : upper_bound no_plus int_exponent t l -> exists x, ashape upp_words x /\ t = atext x /\ l = abound x /\ aplain x /\ asmall x.
Proof.
  intros [t' r H | | t' H].
  - apply number_parts in H; [|apply no_plus_any]. destruct H as (p & H1 & -> & -> & H2 & H3). apply no_plus_sg in H2. apply nsmall_of in H3. now exists (Numb p).
  - now exists Absent.
  - destruct H as [H|[H|[H|H]]]; [exists (Wrd "inf" t') | exists (Wrd "infinity" t') | exists (Wrd "+inf" t') | exists (Wrd "+infinity" t')]; repeat split; cbn; auto.
Qed.
Lemma word_1 w0 c0 t : txt w0 = [c0] -> tolower c0 = c0 -> word w0 t <-> exists c, t = [c] /\ same c0 c = true.
Proof.
  intros Hw H0. unfold word. rewrite Hw. split.
  - destruct t as [|c [|]]; try easy. intros H. injection H as H. exists c. split; [easy|]. apply same_tolower. congruence.
  - intros (c & -> & H). apply same_tolower in H. cbn. now rewrite <- H, H0.
Qed.
Lemma bare_parts t S d : bare_literal no_plus int_exponent t S d ->
  (exists l, lshape l /\ t = ltext l /\ (forall r, S r <-> lset (core l) r) /\ d = lstrong (core l) /\ lit_ok l /\ ksmall (core l)) \/
  (exists u, ushape u /\ t = utext u /\ (forall r, S r <-> uset u r) /\ d = ustrong u /\ u_s u <> Sp /\ usmall u).
Proof.
  intros [a H | a w b H1 H2 H3 | a w b H1 H2 H3 | a w b H1 H2 H3 | a t' b r H1 H2 H3 | a t1 b c t2 e l u H1 H2 H3 H4 H5 H6 H7 | s g m n k ra rad w dn up x e H1 H2 H3 H4 H5 H6 H7].
  - left. apply blanks_isspace in H. exists (L1 a Absent []). cbn [lshape ltext atext core lset lstrong app]. rewrite !app_nil_r. repeat split; try easy.
  - left. apply blanks_isspace in H1, H2. exists (L1 a (Wrd "empty" w) b). cbn [ltext atext]. rewrite <- !app_assoc. repeat split; try easy. now left.
  - left. apply blanks_isspace in H1, H2. exists (L1 a (Wrd "entire" w) b). cbn [ltext atext]. rewrite <- !app_assoc. repeat split; try easy. now right; left.
  - left. apply blanks_isspace in H1, H2. exists (L1 a (Wrd "nai" w) b). cbn [ltext atext]. rewrite <- !app_assoc. repeat split; try easy. now right; right; left.
  - left. apply blanks_isspace in H1, H2. apply number_parts in H3; [|apply no_plus_any]. destruct H3 as (p & H4 & -> & -> & H5 & H6).
    apply no_plus_sg in H5. apply nsmall_of in H6. exists (L1 a (Numb p) b). cbn [ltext atext]. rewrite <- !app_assoc. repeat split; easy.
  - left. apply blanks_isspace in H1, H2, H3, H4. apply lower_parts in H5. destruct H5 as (p & P1 & -> & -> & P2 & P3).
    apply upper_parts in H6. destruct H6 as (q & Q1 & -> & -> & Q2 & Q3). exists (L2 a p b c q e). cbn [ltext]. rewrite <- !app_assoc.
    split; [easy|]. split; [easy|]. split; [cbn [core]; now destruct p|]. split; [cbn [core]; now destruct p|]. split; easy.
  - right. pose proof H1 as H0. apply no_plus_any, any_sign_parts in H0. destruct H0 as (sg & -> & ->). apply no_plus_sg in H1.
    apply mantissa_parts in H2; [|easy]. destruct H2 as (i & f & -> & M1 & M2 & -> & Hk). rewrite Hk in *.
    assert (Hr : exists q, rshape q /\ ra = rtext q /\ rad = match q with RHalf => Some (/ 2)%R | RInf => None | RUnits l => Some (IZR (value 10 l)) end).
    { destruct H3 as [| | t' n' H3 H3']; [now exists RHalf | now exists RInf |]. apply numeral_inv in H3; [|easy]. destruct H3 as [H3 ->].
      exists (RUnits t'). repeat split; try easy. eapply forallb_impl, H3. intros y. now rewrite dok_10. }
    destruct Hr as (q & Q1 & -> & ->).
    assert (Hd : exists q, dshape q /\ w = dtext q /\ dn = match q with DUp _ => false | _ => true end /\ up = match q with DDown _ => false | _ => true end).
    { destruct H4 as [| t' H4 | t' H4]; [now exists DBoth | |].
      - apply (word_1 "u" "u") in H4; try easy. destruct H4 as (ch & -> & H4). now exists (DUp ch).
      - apply (word_1 "d" "d") in H4; try easy. destruct H4 as (ch & -> & H4). now exists (DDown ch). }
    destruct Hd as (q' & Q1' & -> & -> & ->).
    assert (He : exists q, xshape q /\ x = xtext q /\ e = match q with Some (_, t, l) => (sval t * value 10 l)%Z | None => 0%Z end /\ int_exponent e).
    { destruct H5 as [|x e H5 H5']; [now exists None|]. apply (exponent_parts "e" "e") in H5; try easy. destruct H5 as (ch & t' & k' & -> & E1 & E2 & E3 & ->).
      now exists (Some (ch, t', k')). }
    destruct He as (q2 & Q2 & -> & He & Hi).
    exists (Unc sg i f q q' q2). split; [split; [now apply mshape10|]; easy|]. split; [unfold utext; cbn [u_s u_i u_f u_r u_d u_e]; now rewrite <- !app_assoc|].
    unfold usmall, u_exp, u_shift, ustrong, u_rad. cbn [u_s u_i u_f u_r u_d u_e]. rewrite <- He.
    split; [|split; [now destruct q|split; [easy|split; [easy|destruct q; [easy|easy|now rewrite Z.sub_0_r]]]]].
    intros r. unfold uset, u_low, u_upp, u_dist, u_center, u_unit, u_mant, u_exp, u_down, u_up, u_rad. cbn [u_s u_i u_f u_r u_d u_e]. rewrite <- He, <- Hk. reflexivity.
Qed.
Lemma arg_lower x : ashape low_words x -> aplain x -> lower_bound no_plus any_exponent (atext x) (abound x).
Proof.
  destruct x as [|p|w t]; cbn [atext abound ashape aplain]; [constructor| |].
  - intros H1 H2. constructor. apply number_parts; [apply no_plus_any|]. exists p. repeat split; try easy; [now apply no_plus_sg | apply nsmall_any].
  - intros [[<-|[<-|[]]] H] _; constructor; auto.
Qed.
Lemma arg_upper x : ashape upp_words x -> aplain x -> upper_bound no_plus any_exponent (atext x) (abound x).
Proof.
  destruct x as [|p|w t]; cbn [atext abound ashape aplain]; [constructor| |].
  - intros H1 H2. constructor. apply number_parts; [apply no_plus_any|]. exists p. repeat split; try easy; [now apply no_plus_sg | apply nsmall_any].
  - intros [[<-|[<-|[<-|[<-|[]]]]] H] _; constructor; auto.
Qed.
Lemma blanks_app a b : blanks a -> blanks b -> blanks (a ++ b). Proof. intros. now apply Forall_app. Qed.
Lemma lit_bare l : lshape l -> lit_ok l -> exists S, bare_literal no_plus any_exponent (ltext l) S (lstrong (core l)) /\ forall r, S r <-> lset (core l) r.
Proof.
  destruct l as [a x b | a x b c y d]; cbn [lshape ltext core]; unfold lit_ok, kplain, kordered; cbn [core fst snd].
  - intros (H1 & H2 & H3) [[H4 _] _]. apply blanks_isspace in H1, H2. rewrite <- !app_assoc. destruct x as [|p|w t]; cbn [atext ashape aplain] in *.
    + exists (fun _ => False). split; [|easy]. cbn [app lstrong]. rewrite (app_assoc a). apply Empty_brackets. now apply blanks_app.
    + exists (fun r => r = nval p). split; [|easy]. constructor; try easy. apply number_parts; [apply no_plus_any|].
      exists p. repeat split; try easy; [now apply no_plus_sg | apply nsmall_any].
    + destruct H3 as [[<-|[<-|[<-|[]]]] H]; eexists; (split; [constructor; eassumption|easy]).
  - intros (H1 & H2 & H3 & H4 & H5 & H6) [[H7 H8] H9]. apply blanks_isspace in H1, H2, H3, H4. rewrite <- !app_assoc.
    exists (between_bounds (abound x) (abound y)). split; [|now destruct x]. replace (lstrong (x, Some y)) with (strongest (abound x) (abound y)) by now destruct x.
    constructor; try easy; [now apply arg_lower | now apply arg_upper].
Qed.
Lemma unc_bare u : ushape u -> u_s u <> Sp -> bare_literal no_plus any_exponent (utext u) (uset u) (ustrong u).
Proof.
  destruct u as [g i f ra d e]. intros ([M1 M2] & H2 & H3 & H4) H5. unfold utext. cbn [u_s u_i u_f u_r u_d u_e] in *. rewrite <- app_assoc.
  assert (Ek : exists k, Z.of_nat k = mlen f) by (destruct f; [now eexists | now exists 0%nat]). destruct Ek as [k Ek].
  unfold uset, u_low, u_upp, u_dist, u_center, u_unit, u_mant, ustrong. cbn [u_s u_i u_f u_r u_d u_e]. rewrite <- Ek.
  apply Uncertain with (dn := u_down (Unc g i f ra d e)) (up := u_up (Unc g i f ra d e)); try easy.
  - now apply no_plus_sg.
  - apply mantissa_parts; [easy|]. exists i, f. repeat split; try easy. now apply forallb_dok10.
  - unfold u_rad; cbn [u_r]. destruct ra as [| |l]; [constructor|constructor|]. destruct H2 as [H6 H7]. constructor; [|easy]. apply numeral_value; [easy|]. now apply forallb_dok10.
  - unfold u_down, u_up; cbn [u_d]. destruct d as [|c|c]; constructor; [apply (word_1 "u" "u") | apply (word_1 "d" "d")]; try easy; now exists c.
  - unfold u_exp; cbn [u_e]. destruct e as [[[m t] l]|]; constructor; [|easy]. apply (exponent_parts "e" "e"); try easy. destruct H4 as (H6 & H7 & H8). exists m, t, l. auto.
Qed.

(** ** Decorations *)
Lemma read_deco_valid s d s' : read_deco s = (Some d, s') -> exists k, d = byte k.
Proof.
  intros H. rewrite read_deco_eq in H. cbv zeta in H. destruct (ok (after_ws s)); [|easy].
  destruct (peek (after_ws s)) as [c s2]. destruct (match c with Some a => isdigit a | None => false end).
  - destruct (read_unsigned s2) as [n s3]. destruct (match n with Some v => if ok s3 then pick v else None | None => None end) as [k|]; [|easy]. exists k. now injection H.
  - destruct (read 3 s2) as [l s3]. destruct (if ok s3 then pick_name (ascii_to_lower l) else None) as [k|]; [|easy]. exists k. now injection H.
Qed.
Lemma byte_valid k : valid_deco (byte k). Proof. unfold valid_deco. destruct k; cbn; auto. Qed.
Lemma name_lower w t : txt w = [nth 0 (txt w) "0"%char; nth 1 (txt w) "0"%char; nth 2 (txt w) "0"%char] -> word w t -> exists a b c, t = [a; b; c].
Proof. intros E H. unfold word in H. rewrite E in H. destruct t as [|a [|b [|c [|]]]]; try easy. eauto. Qed.
Lemma lower_word w t : word w t -> ascii_to_lower t = txt w.
Proof.
  intros H. rewrite <- H. unfold ascii_to_lower. apply map_ext. intros c. destruct (code c <? 128)%N eqn:E; [easy|].
  unfold tolower, isupper, between. apply N.ltb_ge in E. destruct (N.leb_spec 65 (code c)), (N.leb_spec (code c) 90); cbn; try easy. lia.
Qed.
Lemma read_deco_name s k t r : good s = true -> word (name k) t -> read_deco (setrest (t ++ r) s) = (Some (byte k), setrest r s).
Proof.
  intros Hg H. assert (L : exists a b c, t = [a; b; c]) by (apply (name_lower (name k)); [now destruct k|easy]). destruct L as (a & b & c & ->).
  pose proof (lower_word _ _ H) as Hl. assert (Ha : isspace a = false /\ isdigit a = false).
  { unfold word in H. destruct k; injection H as H _ _; revert H; chars a; easy. }
  destruct Ha as [Ha1 Ha2]. rewrite read_deco_eq. cbv zeta. rewrite after_ws_ok by easy.
  rewrite (after_ws_cons _ a (b :: c :: r)); [|easy|]. 2:{ unfold visible. cbn [skipws rest setrest app drop_ws]. rewrite Ha1. now destruct (skipws s). }
  rewrite setrest_setrest. unfold peek. rewrite good_setrest, Hg. cbn [rest setrest app]. rewrite Ha2.
  unfold read. rewrite good_setrest, Hg. cbn [rest setrest firstn skipn length Nat.ltb Nat.leb]. rewrite setrest_setrest.
  rewrite (good_ok (setrest r s)) by easy. rewrite Hl. rewrite (proj2 (pick_name_spec _ k)) by easy. reflexivity.
Qed.
Lemma decoration_name_word t d : decoration_name t d -> exists k, d = byte k /\ word (name k) t /\ d <> ill.
Proof. intros [t' H|t' H|t' H|t' H]; [exists d_trv | exists d_def | exists d_dac | exists d_com]; repeat split; easy. Qed.

Lemma dmin_Nmin (a b : N) : dmin a b = N.min a b.
Proof. unfold dmin. destruct (N.ltb_spec b a); lia. Qed.
Section Main.
Context {F : fmt}.
Lemma reading_empty S given : tightest S (@empty F) -> reading S given (@empty_dec F).
Proof.
  intros T. split; [exact T|]. exists true, (if bounded_dec (@empty F) then true else false). split; [|split; [now destruct bounded_dec|easy]].
  split; [|easy]. intros _ r Hr. destruct T as (_ & E & _). apply (mem_empty (F := F) r). now apply E.
Qed.
Lemma reading_nonempty S given (v : itv F) : (exists r, mem r v) -> tightest S v ->
  reading S given (v, let d := match given with Some d => d | None => com end in if bounded_dec v then d else dmin d dac).
Proof.
  intros [r Hr] T. split; [easy|]. exists false, (if bounded_dec v then true else false). split.
  { split; [easy|]. intros H. exfalso. destruct T as (_ & _ & T). apply (mem_empty (F := F) r), (T empty); [now left| |easy]. intros r' Hr'. now elim (H r'). }
  split; [cbn [fst]; now destruct (bounded_dec v)|]. cbn [snd]. unfold literal_decoration. destruct (bounded_dec v); [easy|].
  apply dmin_Nmin.
Qed.
Lemma dmin_twice d : dmin (dmin d dac) dac = dmin d dac.
Proof. unfold dmin. destruct (N.ltb_spec dac d); [easy|]. destruct (N.ltb_spec dac d); [lia|easy]. Qed.

Lemma isinf_bounded (v : itv F) : (exists r, mem r v) -> isinf (fst v) || isinf (snd v) = if bounded_dec v then false else true.
Proof.
  intros H. assert (W : wf v) by now right. rewrite isinf_test; [|easy|].
  - destruct (bounded_dec v) as [[H1 H2]|H1]; [now rewrite H1, H2|]. unfold bounded_rep in H1. destruct (is_finite (fst v)), (is_finite (snd v)); try easy. now elim H1.
  - destruct (isnan (fst v)) eqn:E; [|easy]. apply wf_nan_l in E; [|easy]. subst v. destruct H as [r H]. now apply mem_empty in H.
Qed.

(** The value [v] of a literal denoting [S] with strongest decoration [d]. *)
Lemma set_dec_reading S (v : itv F) d : tightest S v -> valid_deco d -> d <> ill ->
  exists x, set_dec v (if isinf (fst v) || isinf (snd v) then dmin d dac else d) = ret x /\ reading S (Some d) x.
Proof.
  intros T V D. assert (V' : forall b : bool, valid_deco (if b then dmin d dac else d) /\ (if b then dmin d dac else d) <> ill).
  { intros []; [|easy]. destruct V as [->|[->|[->|[->| ->]]]]; try easy; (split; [unfold valid_deco; auto 6|easy]). }
  destruct (proj1 T) as [->|N].
  2: rewrite isinf_bounded by easy; rewrite set_dec_nonempty; [|easy|apply V'|apply V'].
  2:{
    eexists. split; [reflexivity|]. pose proof (reading_nonempty S (Some d) v N T) as H. cbv zeta in H. destruct (bounded_dec v); [exact H|]. now rewrite dmin_twice. }
  rewrite set_dec_empty by apply V'. exists empty_dec. split; [easy|]. now apply reading_empty.
Qed.
Lemma new_dec_reading S (v : itv F) : tightest S v -> exists x, new_dec v = ret x /\ reading S None x.
Proof.
  intros T. destruct (proj1 T) as [->|N].
  - rewrite new_dec_empty. exists empty_dec. split; [easy|]. now apply reading_empty.
  - rewrite new_dec_nonempty by easy. eexists. split; [reflexivity|]. exact (reading_nonempty S None v N T).
Qed.
Definition yields {A} (m : M A) (a : A) : Prop := forall e, m e = (Ret a, e).
Definition fails (m : M (option (ditv F) * istream)) : Prop := exists s', yields m (None, s') /\ failbit s' = true.
Lemma failed_fails s : fails (failed s). Proof. now exists (setfail s). Qed.

Definition underscore (c : ascii) : bool := ceq "_" c.
Lemma yields_bind {A B} (m : M A) (k : A -> M B) a b : yields m a -> yields (k a) b -> yields (bind m k) b.
Proof. intros H1 H2 e. unfold bind. now rewrite H1. Qed.
Lemma wd_not (v : itv F) d r s s2 : good s = true -> upto r s s2 -> stops underscore r ->
  forall e, with_decoration v d s2 e = (bind (if deq d ill then ret nai else new_dec v) (fun x => ret (Some x, setrest r s))) e.
Proof.
  intros Hg U Hr e. unfold with_decoration.
  assert (A : exists s1, (if ok s2 then peek_is (ceq "_") s2 else (false, s2)) = (false, s1) /\ (if eofbit s1 then MStream.clear s1 else s1) = setrest r s).
  { assert (B : forall s1, upto r s s1 -> (if eofbit s1 then MStream.clear s1 else s1) = setrest r s).
    { intros s1 [-> | (-> & H1 & H2 & H3)]; [|now rewrite H1]. cbn [eofbit setrest]. now rewrite good_noeof. }
    destruct (ok s2); [|exists s2; auto]. destruct (peek_is_upto (ceq "_") _ _ _ Hg U) as (s3 & E & U3). exists s3. rewrite E. split; [|auto].
    f_equal. destruct r as [|c r]; [easy|]. exact Hr. }
  destruct A as (s1 & -> & E). rewrite E. reflexivity.
Qed.
Lemma wd_plain S (v : itv F) d r s s2 : good s = true -> upto r s s2 -> stops underscore r -> tightest S v -> d <> ill ->
  exists x, yields (with_decoration v d s2) (Some x, setrest r s) /\ reading S None x.
Proof.
  intros Hg U Hr T D. destruct (new_dec_reading S v T) as (x & E & R). exists x. split; [|easy]. intros e. rewrite (wd_not v d r s s2) by easy.
  destruct (deq_spec d ill); [easy|]. rewrite E. reflexivity.
Qed.
Lemma wd_nai (v : itv F) r s s2 : good s = true -> upto r s s2 -> stops underscore r -> yields (with_decoration v ill s2) (Some nai, setrest r s).
Proof. intros Hg U Hr e. rewrite (wd_not v ill r s s2) by easy. reflexivity. Qed.
Lemma wd_under (v : itv F) d r s s2 : good s = true -> upto ("_"%char :: r) s s2 ->
  with_decoration v d s2 =
    if deq d ill then failed (setrest ("_"%char :: r) s)
    else match read_deco (setrest r s) with
         | (Some d', s3) => if N.leb d' d && negb (deq d' ill)
             then bind (set_dec v (if isinf (fst v) || isinf (snd v) then dmin d' dac else d')) (fun x => ret (Some x, s3)) else failed s3
         | (None, s3) => failed s3
         end.
Proof.
  intros Hg [-> | (H & _)]; [|easy]. unfold with_decoration. rewrite (good_ok (setrest _ s)) by easy.
  unfold peek_is, peek. rewrite good_setrest, Hg. cbn [rest setrest]. change (ceq "_" "_") with true. cbv beta iota.
  rewrite (good_ok (setrest _ s)) by easy. unfold get. rewrite good_setrest, Hg. cbn [rest setrest snd andb]. rewrite setrest_setrest.
  destruct (deq d ill); [easy|]. cbn [negb]. pose proof (read_deco_state (setrest r s)) as K. destruct (read_deco (setrest r s)) as [[d'|] s3]; [|easy]. now rewrite K.
Qed.

(** ** The outcomes of reading *)
Definition tiny (l : text) : Prop := moderate l /\ small_exponents l.
Definition outcome (l : text) (s : istream) (m : M (option (ditv F) * istream)) : Prop :=
  fails m \/
  (exists t r S d, l = t ++ r /\ bare_literal no_plus any_exponent t S d /\ stops underscore r /\
     exists x, yields m (Some x, setrest r s) /\ (d = ill /\ x = nai \/ d <> ill /\ reading S None x)) \/
  (exists t r S d d' s3, l = t ++ "_"%char :: r /\ bare_literal no_plus any_exponent t S d /\ d <> ill /\
     read_deco (setrest r s) = (Some d', s3) /\ (d' <= d)%N /\ d' <> ill /\
     exists x, yields m (Some x, s3) /\ reading S (Some d') x) \/
  (~ tiny l /\ refuses m).
Lemma fails_ext m m' : (forall e, m e = m' e) -> fails m -> fails m'.
Proof. intros H (s' & H1 & H2). exists s'. split; [|easy]. intros e. now rewrite <- H. Qed.
Lemma outcome_ext l s m m' : (forall e, m e = m' e) -> outcome l s m -> outcome l s m'.
Proof.
  intros H. assert (Y : forall a, yields m a -> yields m' a) by (intros a Y e; now rewrite <- H).
  intros [H1|[(t & r & S & d & H1 & H2 & H3 & x & H4 & H5)|[(t & r & S & d & d' & s3 & H1 & H2 & H3 & H4 & H5 & H6 & x & H7 & H8)|[H1 H2]]]].
  - left. eapply fails_ext; eauto.
  - right; left. exists t, r, S, d. repeat split; auto. exists x. auto.
  - right; right; left. exists t, r, S, d, d', s3. repeat split; auto. exists x. auto.
  - right; right; right. split; [easy|]. intros e. rewrite <- H. apply H2.
Qed.
Lemma wd_outcome t r S d (v : itv F) s s2 : good s = true -> upto r s s2 -> bare_literal no_plus any_exponent t S d -> tightest S v ->
  outcome (t ++ r) s (with_decoration v d s2).
Proof.
  intros Hg U B T. destruct r as [|c r].
  - right; left. exists t, [], S, d. repeat split; try easy. destruct (N.eq_dec d ill) as [->|D].
    + exists nai. split; [now apply wd_nai|]. now left.
    + destruct (wd_plain S v d [] s s2) as (x & Y & R); try easy. exists x. split; [easy|]. now right.
  - destruct (ceq "_" c) eqn:E.
    + apply ceq_eq in E. subst c. destruct (N.eq_dec d ill) as [->|D].
      * left. rewrite (wd_under v ill r s s2) by easy. apply failed_fails.
      * rewrite (wd_under v d r s s2) by easy. destruct (deq_spec d ill) as [|_]; [easy|].
        destruct (read_deco (setrest r s)) as [[d'|] s3] eqn:R; [|left; apply failed_fails].
        destruct (N.leb_spec d' d) as [L|L]; [|left; apply failed_fails]. destruct (deq_spec d' ill) as [->|D']; [left; apply failed_fails|]. cbn [andb negb].
        destruct (read_deco_valid _ _ _ R) as [k ->]. destruct (set_dec_reading S v (byte k) T (byte_valid k) D') as (x & E & RD).
        right; right; left. exists t, r, S, d, (byte k), s3. repeat split; try easy. exists x. split; [|easy]. intros e. rewrite E. reflexivity.
    + right; left. exists t, (c :: r), S, d. repeat split; try easy. destruct (N.eq_dec d ill) as [->|D].
      * exists nai. split; [now apply wd_nai|]. now left.
      * destruct (wd_plain S v d (c :: r) s s2) as (x & Y & R); try easy. exists x. split; [easy|]. now right.
Qed.
Lemma bind_yields {A B} (m : M A) (k : A -> M B) a : yields m a -> forall e, bind m k e = k a e.
Proof. intros H e. unfold bind. now rewrite H. Qed.

(** ** Small literals *)
Lemma small_inside l a t b : l = a ++ t ++ b -> tiny l -> tiny t.
Proof.
  intros -> [H1 H2]. split.
  - unfold moderate in *. rewrite !app_length in H1. lia.
  - intros a' m s g k n b' -> H3 H4 H5. apply (H2 (a ++ a') m s g k n (b' ++ b)); try easy. now rewrite <- !app_assoc.
Qed.
Lemma tiny_short t : tiny t -> short t. Proof. intros [H _]. unfold moderate, short in *. lia. Qed.
Lemma tiny_exp l a m s k b : tiny l -> l = a ++ m :: stext s ++ k ++ b -> same "e" m = true \/ same "p" m = true -> forallb isdigit k = true ->
  (0 <= value 10 k <= 1000000000)%Z.
Proof.
  intros [_ H] -> Hm Hk. split; [now apply PLiteral.value_nonneg|]. eapply (H a [m] (stext s) (sval s) k _ b).
  - reflexivity.
  - destruct Hm as [Hm|Hm]; [left; apply (word_1 "e" "e") | right; apply (word_1 "p" "p")]; try easy; now exists m.
  - apply any_sign_parts. eauto.
  - apply numeral_value; [easy|]. now apply forallb_dok10.
Qed.
Lemma mtext_length i f : (mlen f <= Z.of_nat (length (mtext i f)))%Z.
Proof. unfold mtext, mlen. destruct f as [f|]; rewrite app_length; cbn; lia. Qed.
Lemma tiny_num p : nshape p -> tiny (ntext p) -> nsmall p.
Proof.
  intros H T. destruct p as [s i f | s i f m t l | s z x i f m t l | s i a b j]; cbn [nsmall]; try exact I; cbn [ntext nshape] in *.
  - destruct H as (_ & H1 & H2 & _). assert (E := tiny_exp _ (stext s ++ mtext i f) m t l [] T). rewrite app_nil_r in E. specialize (E eq_refl (or_introl H1) H2).
    destruct T as [T _]. unfold moderate in T. rewrite !app_length in T. pose proof (mtext_length i f). assert (0 <= mlen f)%Z by (destruct f; cbn; lia).
    unfold int_exponent. destruct t; cbn [sval]; lia.
  - destruct H as (_ & _ & _ & H1 & H2 & _). assert (E := tiny_exp _ (stext s ++ z :: x :: mtext i f) m t l [] T). rewrite app_nil_r in E. specialize (E eq_refl (or_intror H1) H2).
    destruct T as [T _]. unfold moderate in T. rewrite !app_length in T. cbn [length] in T. pose proof (mtext_length i f). assert (0 <= mlen f)%Z by (destruct f; cbn; lia).
    unfold int_exponent. destruct t; cbn [sval]; lia.
Qed.
Lemma tiny_arg ws x : ashape ws x -> tiny (atext x) -> asmall x.
Proof. destruct x as [|p|w t]; cbn; try easy. apply tiny_num. Qed.
Lemma tiny_lit l : lshape l -> tiny (ltext l) -> ksmall (core l).
Proof.
  destruct l as [a x b | a x b c y d]; cbn [lshape ltext core]; unfold ksmall; cbn [fst snd].
  - intros (_ & _ & H) T. split; [|easy]. apply (tiny_arg one_words); [easy|]. eapply (small_inside _ (txt "[" ++ a) _ (b ++ txt "]")), T. now rewrite <- !app_assoc.
  - intros (_ & _ & _ & _ & H1 & H2) T. split.
    + apply (tiny_arg low_words); [easy|]. eapply (small_inside _ (txt "[" ++ a) _ (b ++ txt "," ++ c ++ atext y ++ d ++ txt "]")), T. now rewrite <- !app_assoc.
    + apply (tiny_arg upp_words); [easy|]. eapply (small_inside _ (txt "[" ++ a ++ atext x ++ b ++ txt "," ++ c) _ (d ++ txt "]")), T. now rewrite <- !app_assoc.
Qed.
Lemma short_inside l a t b : l = a ++ t ++ b -> short l -> short t.
Proof. intros ->. unfold short. rewrite !app_length. lia. Qed.
Lemma short_lit l : short (ltext l) -> kshort (core l).
Proof.
  destruct l as [a x b | a x b c y d]; cbn [ltext core]; unfold kshort, ashort; cbn [fst snd]; intros T.
  - split; [|easy]. eapply (short_inside _ (txt "[" ++ a) _ (b ++ txt "]")), T. now rewrite <- !app_assoc.
  - split.
    + eapply (short_inside _ (txt "[" ++ a) _ (b ++ txt "," ++ c ++ atext y ++ d ++ txt "]")), T. now rewrite <- !app_assoc.
    + eapply (short_inside _ (txt "[" ++ a ++ atext x ++ b ++ txt "," ++ c) _ (d ++ txt "]")), T. now rewrite <- !app_assoc.
Qed.
Lemma lit_kshape l : lshape l -> kshape (core l). Proof. destruct l; cbn; tauto. Qed.
Lemma tiny_unc u : ushape u -> tiny (utext u) -> usmall u.
Proof.
  destruct u as [g i f r d e]. unfold ushape, utext, usmall, u_exp, u_shift; cbn [u_s u_i u_f u_r u_d u_e]. intros (_ & _ & _ & H) T.
  assert (E : match e with Some (_, t, l) => (0 <= value 10 l <= 1000000000)%Z | None => True end).
  { destruct e as [[[m t] l]|]; [|easy]. destruct H as (H1 & H2 & _). cbn [xtext] in T.
    assert (E := tiny_exp _ ((stext g ++ mtext i f) ++ txt "?" ++ rtext r ++ dtext d) m t l [] T). apply E; [|now left|easy]. rewrite app_nil_r, <- !app_assoc. reflexivity. }
  destruct T as [T _]. unfold moderate in T. rewrite !app_length in T. pose proof (mtext_length i f). assert (0 <= mlen f)%Z by (destruct f; cbn; lia).
  unfold int_exponent. destruct e as [[[m t] l]|]; [|destruct r; lia]. destruct t, r; cbn [sval]; lia.
Qed.
End Main.
