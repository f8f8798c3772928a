(** * Proofs: hexadecimal output is always possible; texts that are not read back *)
From Coq Require Import ZArith NArith Reals Bool Ascii String List Lia Lra.
From Flocq Require Import Core.Core IEEE754.BinarySingleNaN.
From Verif Require Import Fmt Spec FloatFacts Exc Deco SpecApi SpecDeco MBase MBool MNum PBase PClass MStream MDecoIo MText MPrint PText PText2 PPrint PPrint2 MRegex MRead SpecDecoText SpecLiteral SpecRead PReadVal PRead PReadMain PReadStr PTrip PTrip2 PTrip3.
Import ListNotations.
Local Open Scope list_scope.
Local Open Scope m_scope.

Section Hex.
Context {F : fmt}.
Hypothesis Hs : small_fmt F.
Definition silent {A} (m : M A) : Prop := exists a, returns m a.
Lemma silent_ret {A} (a : A) : silent (ret a). Proof. now exists a. Qed.
Lemma silent_bind {A B} (m : M A) (k : A -> M B) : silent m -> (forall a, silent (k a)) -> silent (bind m k).
Proof. intros [a Ha] H. destruct (H a) as [b Hb]. exists b. intros s. unfold bind. rewrite Ha. apply Hb. Qed.
Lemma silent_if {A} (b : bool) (m n : M A) : silent m -> silent n -> silent (if b then m else n).
Proof. now destruct b. Qed.
Lemma silent_get m f up (x : float F) : exact_form f -> silent (get_str (@setup_env F) m (m_number f) (m_width f) (m_precision f) up x).
Proof.
  intros [E1 E2]. rewrite E1, E2. eexists. apply hex_fits; [unfold small_fmt in Hs; pose proof (fmt_prec1 F); lia|]. pose proof (fmt_prec1 F). lia.
Qed.
Lemma silent_write o f (x : itv F) : wf x -> exact_form f -> silent (write_itv o f x).
Proof.
  intros W Hf. unfold write_itv, parts, n_inf, n_sup. rewrite (is_valid_wf x W), (is_empty_wf x W), (is_entire_wf x W). mreds. apply silent_bind.
  - destruct (isnan (fst x)), (feq (fst x) fminf && feq (snd x) finf), (match m_special f with s_bounds => false | _ => true end); mreds; try apply silent_ret; (apply silent_bind; [now apply silent_get|]); intros l; mreds; (apply silent_bind; [now apply silent_get|]); intros u; apply silent_ret.
  - intros [[[[p1 p2] p3] p4] p5]. apply silent_ret.
Qed.
Lemma silent_write_dec o f (x : ditv F) : wf_dec x -> exact_form f -> silent (write_ditv o f x).
Proof.
  intros W Hf. assert (W' : wf (fst x)) by now apply wf_dec_wf. unfold write_ditv. rewrite (is_valid_dec_wf x W), (is_nai_wf x W), (is_empty_dec_wf x W). mreds.
  apply silent_if; [apply silent_ret|]. apply silent_if; [now apply silent_write|]. apply silent_bind; [now apply silent_write|]. intros t. apply silent_ret.
Qed.
Lemma exact_precise f : exact_form f -> precise f. Proof. intros [_ E]. unfold precise. rewrite E. easy. Qed.
Theorem hex_back o f (x : itv F) : wf x -> exact_form f -> m_punct f = true -> blank_fill o -> (m_special f = s_bounds -> x <> empty) ->
  exists t, returns (write_itv o f x) t /\ (moderate t -> exists z, returns (text_to_interval t) z /\ wf z /\ same_set x z).
Proof.
  intros W Hf M B E. destruct (silent_write o f x W Hf) as [t Ht]. exists t. split; [easy|]. intros Hm.
  destruct (back_bare Hs o f x t (Est 0 0) (Est 0 0) W (exact_precise f Hf) M B E (Ht _) Hm) as (_ & z & Z1 & Z2 & Z3 & Z4). exists z. split; [easy|]. split; [easy|]. apply Z4. now left.
Qed.
Theorem hex_back_dec o f (x : ditv F) : wf_dec x -> (exists k, snd x = byte k) -> exact_form f -> m_punct f = true -> blank_fill o ->
  ((exists r, mem r (fst x)) -> under_fill o /\ (o_dec_numeric o = true -> o_base o = b_dec)) -> (m_special f = s_bounds -> x <> (empty, trv)) ->
  exists t, returns (write_ditv o f x) t /\ (moderate t -> exists y, returns (text_to_decorated_interval t) y /\ same_set (fst x) (fst y) /\ snd y = snd x).
Proof.
  intros W K Hf M B U E. destruct (silent_write_dec o f x W Hf) as [t Ht]. exists t. split; [easy|]. intros Hm.
  destruct (back_dec Hs o f x t (Est 0 0) (Est 0 0) W K (exact_precise f Hf) M B U E (Ht _) Hm) as (_ & y & Y1 & Y2 & Y3). exists y. split; [easy|].
  destruct (N.eq_dec (snd x) ill) as [D|D].
  - rewrite (Y2 D). destruct W as [[-> _]|[_ [H _]]]; [|contradiction]. split; [easy|now rewrite D].
  - apply Y3; [easy|]. now left.
Qed.
End Hex.

(** ** What is not read back *)
Definition plain_o : ostream := Ostream b_dec false false 0 " " a_right false false.
Definition plain_f : manip := Manip r_hex 0 0 s_text true 0.
Lemma wf_empty (F : fmt) : wf (@empty F). Proof. now left. Qed.
Lemma wf_entire (F : fmt) : wf ((fminf, finf) : itv F). Proof. right. exists 0%R. now split. Qed.
Definition bounds_f : manip := Manip r_hex 0 0 s_bounds true 0.
Lemma empty_bounds_refuted (F : fmt) : small_fmt F -> exists t, returns (write_itv plain_o bounds_f (@empty F)) t /\ reports_undefined (text_to_interval (F := F) t) empty.
Proof.
  intros Hs. exists (txt "[inf,-inf]"). split.
  - destruct (silent_write Hs plain_o bounds_f (@empty F) (wf_empty F)) as [t Ht]; [easy|].
    intros e. rewrite Ht. specialize (Ht e). revert Ht. unfold write_itv, parts, n_inf, n_sup.
    rewrite (is_valid_wf _ (wf_empty F)), (is_empty_wf _ (wf_empty F)), (is_entire_wf _ (wf_empty F)). mreds.
    change (isnan (fst (@empty F))) with true. cbn [m_special m_punct bounds_f]. mreds. unfold get_str, bind, ret, undef.
    repeat match goal with |- context [(?a <=? ?b)%N] => destruct (a <=? b)%N; [|easy] end. intros [= <-]. reflexivity.
  - apply undef_reports. intros e. reflexivity.
Qed.
(** The width set on the stream comes before "_": the decoration is lost. *)
Definition wide_o : ostream := Ostream b_dec false false 4 " " a_right false false.
Lemma width_refuted (F : fmt) : exists t,
  returns (write_ditv wide_o plain_f (((fminf, finf), trv) : ditv F)) t /\
  reports_undefined (text_to_decorated_interval (F := F) t) nai /\
  exists s', returns (read_ditv (F := F) (string_stream t)) (Some ((fminf, finf), dac), s') /\ ok s' = true.
Proof.
  exists (txt "   [entire]   _trv"). split; [|split].
  - intros e. reflexivity.
  - apply undef_reports. intros e. reflexivity.
  - eexists. split; [intros e; reflexivity|easy].
Qed.
(** Without punctuation. *)
Lemma punctuation_refuted (F : fmt) : exists t,
  returns (write_itv plain_o (Manip r_hex 0 0 s_text false 0) ((fminf, finf) : itv F)) t /\ reports_undefined (text_to_interval (F := F) t) empty.
Proof. exists (txt "entire"). split; [intros e; reflexivity|]. apply undef_reports. intros e. reflexivity. Qed.
(** Numeric decorations in another base. *)
Lemma base_refuted (F : fmt) : exists t,
  returns (write_ditv (Ostream b_hex false false 0 " " a_right true false) plain_f (((fminf, finf), dac) : ditv F)) t /\
  reports_undefined (text_to_decorated_interval (F := F) t) nai.
Proof. exists (txt "[entire]_c"). split; [intros e; reflexivity|]. apply undef_reports. intros e. reflexivity. Qed.
