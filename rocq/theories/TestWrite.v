(** * Writing in the unit tests

    The tests of the repository write numbers into buffers that are too short (C36), which is
    undefined behaviour in the model.  To compare the texts, the functions of MPrint.v and MManip.v
    are repeated here with buffers that are long enough; [ample_dec] and [ample_bare] show that
    they differ in nothing else. *)

From Coq Require Import ZArith NArith Bool Ascii String List Lia.
From Flocq Require Import IEEE754.BinarySingleNaN.
From Verif Require Import Fmt Spec Exc Deco MBase MBool MNum MStream MDecoIo MText MPrint MUncertain MManip.
Import ListNotations.
Local Open Scope m_scope.
Local Open Scope string_scope.
Local Open Scope list_scope.

Section Ample.
Context {F : fmt}.
Variable k : Z.
(** mpfr_var_impl.hpp:226-365 *)
Definition a_str (m : mode) (r : number_rep) (w p : N) (up : bool) (x : float F) : M text :=
  ret (sprintf (N.to_nat w) (conversion_of r) up m (precision_of r p) x).
(** io_impl.hpp:337-390 *)
Definition a_parts (o : ostream) (f : manip) (x : itv F) : M (text * text * text * text * text) :=
  let lit a b := txt (if m_punct f then a else b) in
  mif ((is_empty x ||| is_entire x) &&& ret (match m_special f with s_bounds => false | _ => true end))
   (e <- is_empty x;
    let words := txt (if o_upper_text o then (if (e : bool) then "EMPTY" else "ENTIRE")
                      else (if e then "empty" else "entire")) in
    let part3 := match m_special f, m_punct f with
      | s_no_bounds, true => txt (if e then " " else ",")
      | _, _ => words end in
    let n := (length part3 - 1)%nat in
    let w := N.to_nat (m_width f) in
    ret (lit "[" "", blanks (w - n / 2), part3, blanks (w - (n - n / 2)), lit "]" ""))
   (a <- n_inf x;
    l <- a_str mode_DN (m_number f) (m_width f) (m_precision f) (o_upper_text o) a;
    b <- n_sup x;
    u <- a_str mode_UP (m_number f) (m_width f) (m_precision f) (o_upper_text o) b;
    ret (lit "[" "", l, lit "," " ", u, lit "]" "")).
(** io_impl.hpp:334-403 *)
Definition a_put_inf_sup (x : itv F) : SM text := fun s =>
  sbind (lift (a_parts (view k s) (manip_of k s) x)) (fun '(p1, p2, p3, p4, p5) =>
  let width := gap (string_width_of k s) (size (p1 ++ p2 ++ p3 ++ p4 ++ p5)) in
  output k [p1; blanks (width / 2); p2; p3; blanks (width - width / 2); p4; p5]) s.
(** io_impl.hpp:43-404 *)
Definition a_put_bare (x : itv F) : SM text := fun s =>
  sif (mnot (is_valid x)) (sret [])
  (match form k s with
   | Some u => sif (mnot (is_empty x)) (put_uncertain ample_get k u x) (a_put_inf_sup x)
   | None => a_put_inf_sup x
   end) s.
(** io_impl.hpp:458-484 *)
Definition a_put_with_dec (x : ditv F) : SM text := fun s =>
  let buf := dec_text k s (snd x) in
  let size_ := to_int (string_width_of k s) in
  let dec_width := to_int (size buf) in
  if ((- 2 ^ 31 <=? size_ - dec_width) && (size_ - dec_width <? 2 ^ 31))%Z then
    sbind (update (set_word (string_width_id k) (size_ - dec_width)%Z)) (fun _ =>
    finally (sbind (a_put_bare (fst x)) (fun t => sbind (output k [buf]) (fun t' => sret (t ++ t'))))
            (set_word (string_width_id k) size_)) s
  else lift undef s.
(** io_impl.hpp:407-485 *)
Definition a_put_dec (x : ditv F) : SM text :=
  sif (mnot (is_valid_dec x)) (sret [])
  (sif (is_nai x) (put_nai k)
  (sif (is_empty_dec x) (a_put_bare (fst x)) (a_put_with_dec x))).

(** ** The model without its undefined behaviour *)
Definition m_refines {A} (m m' : M A) : Prop := forall e, fst (m e) = UB \/ m e = m' e.
Definition s_refines {A} (m m' : SM A) : Prop := forall s e, fst (fst (m s e)) = UB \/ m s e = m' s e.

Lemma m_refl {A} (m : M A) : m_refines m m. Proof. now right. Qed.
Lemma s_refl {A} (m : SM A) : s_refines m m. Proof. now right. Qed.
Lemma m_bind {A B} (m m' : M A) (f f' : A -> M B) :
  m_refines m m' -> (forall a, m_refines (f a) (f' a)) -> m_refines (bind m f) (bind m' f').
Proof.
intros H G e. unfold bind. destruct (H e) as [U|E].
- left. destruct (m e) as [[a|x|] e']; cbn in U; try easy.
- rewrite <- E. destruct (m e) as [[a|x|] e']; [apply G|now right|now left].
Qed.
Lemma m_if {A} (c : M bool) (t t' u u' : M A) :
  m_refines t t' -> m_refines u u' -> m_refines (mif c t u) (mif c t' u').
Proof. intros H G. apply m_bind; [apply m_refl|]. now intros []. Qed.
Lemma s_bind {A B} (m m' : SM A) (f f' : A -> SM B) :
  s_refines m m' -> (forall a, s_refines (f a) (f' a)) -> s_refines (sbind m f) (sbind m' f').
Proof.
intros H G s e. unfold sbind. destruct (H s e) as [U|E].
- left. destruct (m s e) as [[[a|x|] e'] s']; cbn in U; try easy.
- rewrite <- E. destruct (m s e) as [[[a|x|] e'] s']; [apply G|now right|now left].
Qed.
Lemma s_lift {A} (m m' : M A) : m_refines m m' -> s_refines (lift m) (lift m').
Proof.
intros H s e. unfold lift. destruct (H e) as [U|E].
- left. now destruct (m e).
- right. now rewrite E.
Qed.
Lemma s_if {A} (c : M bool) (t t' u u' : SM A) :
  s_refines t t' -> s_refines u u' -> s_refines (sif c t u) (sif c t' u').
Proof. intros H G. apply s_bind; [apply s_refl|]. now intros []. Qed.
Lemma s_finally {A} (m m' : SM A) f : s_refines m m' -> s_refines (finally m f) (finally m' f).
Proof.
intros H s e. unfold finally. destruct (H s e) as [U|E].
- left. now destruct (m s e) as [[r e'] s'].
- right. now rewrite E.
Qed.

Lemma str_refines m r w p up x : m_refines (@get_str F (setup_env (F := F)) m r w p up x) (a_str m r w p up x).
Proof. unfold get_str, a_str. destruct (_ <=? _)%N; [apply m_refl|]. intros e. now left. Qed.
Lemma parts_refines o f x : m_refines (@parts F o f x) (a_parts o f x).
Proof.
unfold parts, a_parts. apply m_if; [apply m_refl|].
apply m_bind; [apply m_refl|intros a]. apply m_bind; [apply str_refines|intros l].
apply m_bind; [apply m_refl|intros b]. apply m_bind; [apply str_refines|intros u]. apply m_refl.
Qed.
Lemma get_refines m r p up x : m_refines (@code_get F m r p up x) (ample_get m r p up x).
Proof. apply str_refines. Qed.
Lemma body_refines u sci p up x : m_refines (@uncertain_body F code_get u sci p up x) (uncertain_body ample_get u sci p up x).
Proof.
unfold uncertain_body. apply m_if.
- apply m_bind; [apply m_refl|intros a]. apply m_bind; [apply get_refines|intros t; apply m_refl].
- destruct (isinf (fst x)); [apply m_bind; [apply get_refines|intros t; apply m_refl]|].
  destruct (isinf (snd x)); [apply m_bind; [apply get_refines|intros t; apply m_refl]|].
  apply m_bind; [apply get_refines|intros tl]. apply m_bind; [apply get_refines|intros tu].
  apply m_bind; [|intros; apply m_refl].
  destruct u; try apply m_refl.
  apply m_bind; [apply m_refl|intros a]. apply m_bind; [apply get_refines|intros t; apply m_refl].
Qed.
Lemma inf_sup_refines x : s_refines (@put_inf_sup F k x) (a_put_inf_sup x).
Proof.
intros s. unfold put_inf_sup, a_put_inf_sup.
apply (s_bind _ _ _ _ (s_lift _ _ (parts_refines _ _ _)) (fun a => s_refl _)).
Qed.

(** Where the model returns or throws, the functions above do the same. *)
Theorem ample_bare x : s_refines (@put_bare F code_get k x) (a_put_bare x).
Proof.
intros s. unfold put_bare, a_put_bare. revert s.
assert (H : forall f : option side, s_refines
  (sif (mnot (is_valid x)) (sret []) (match f with Some u => sif (mnot (is_empty x)) (put_uncertain code_get k u x) (put_inf_sup k x) | None => put_inf_sup k x end))
  (sif (mnot (is_valid x)) (sret []) (match f with Some u => sif (mnot (is_empty x)) (put_uncertain ample_get k u x) (a_put_inf_sup x) | None => a_put_inf_sup x end))).
{ intros [u|]; apply s_if; try apply s_refl; [|apply inf_sup_refines]. apply s_if; [|apply inf_sup_refines].
  intros s. unfold put_uncertain. apply (s_bind _ _ _ _ (s_lift _ _ (body_refines _ _ _ _ _)) (fun a => s_refl _)). }
intros s. apply H.
Qed.
Theorem ample_dec x : s_refines (@put_dec F code_get k x) (a_put_dec x).
Proof.
unfold put_dec, a_put_dec. apply s_if; [apply s_refl|]. apply s_if; [apply s_refl|].
apply s_if; [apply ample_bare|]. intros s. unfold put_with_dec, a_put_with_dec.
destruct (_ && _); [|apply s_refl].
apply (s_bind _ _ _ _ (s_refl _)). intros _. apply s_finally. apply s_bind; [apply ample_bare|intros; apply s_refl].
Qed.
End Ample.

(** ** Running the tests *)
(** boost::test_tools::output_test_stream: [output << m], writing, and [output.is_equal(t)], which
    compares all that was written since the last comparison. *)
Inductive action : Type := Do (m : manipulator) | Put (w : SM text) | Is_equal (n : N) (t : string).
Fixpoint unequal (k : Z) (buf : text) (s : stream) (l : list action) : list N :=
  match l with
  | [] => []
  | Do m :: l' => unequal k buf (manipulate k m s) l'
  | Put w :: l' => match w s (Est 0 0) with
                   | (Ret t, _, s') => unequal k (buf ++ t) s' l'
                   | (_, _, s') => unequal k buf s' l'
                   end
  | Is_equal n t :: l' => if teq buf (txt t) then unequal k [] s l' else n :: unequal k [] s l'
  end.
Definition new_stream : stream := fresh (Ostream b_dec false false 0 " " a_right false false).
Definition wrong_lines (l : list action) : list N := unequal 0 [] new_stream l.
