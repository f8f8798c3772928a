(** * Proofs: the values read from literals are the tightest enclosures *)
From Coq Require Import ZArith NArith Reals Bool Ascii String List Lia Lra.
From Flocq Require Import Core.Core IEEE754.BinarySingleNaN.
From Verif Require Import Fmt Spec FloatFacts Exc Deco SpecApi MBase PBase PArith PClass PElem MStream MText MRegex MRead PQround PRegex SpecLiteral PLiteral PInfSup.
Import ListNotations.
Local Open Scope list_scope.
Local Open Scope R_scope.

Lemma between_glb up r : ordered (Some r) up -> glbR (between_bounds (Some r) up) r.
Proof.
  intros H. apply glbR_min; [split; [lra|]|now intros x []]. destruct up; [exact H|easy].
Qed.
Lemma between_lub lo r : ordered lo (Some r) -> lubR (between_bounds lo (Some r)) r.
Proof.
  intros H. apply lubR_max; [split; [|lra]|now intros x []]. destruct lo; [exact H|easy].
Qed.
Lemma between_nonempty lo up : ordered lo up -> exists r, between_bounds lo up r.
Proof.
  destruct lo as [a|], up as [b|]; cbn; intros H.
  - exists a. split; lra.
  - exists a. split; [lra|easy].
  - exists b. split; [easy|lra].
  - now exists 0.
Qed.

Lemma frac_le a b c d : 0 < b -> 0 < d -> a / b <= c / d <-> a * d <= c * b.
Proof.
  intros Hb Hd. assert (E : a / b <= c / d <-> a / b * (b * d) <= c / d * (b * d)).
  { split; intros H; [apply Rmult_le_compat_r; [nra|easy] | apply Rmult_le_reg_r with (b * d); [nra|easy]]. }
  rewrite E. replace (a / b * (b * d)) with (a * d) by (field; lra). replace (c / d * (b * d)) with (c * b) by (field; lra). easy.
Qed.

Section V.
Context {F : fmt}.
Definition lowf (lo : option R) : float F := match lo with Some r => rround mode_DN false r | None => fminf end.
Definition uppf (up : option R) : float F := match up with Some r => rround mode_UP false r | None => finf end.
Lemma between_tightest lo up : ordered lo up -> tightest (between_bounds lo up) (lowf lo, uppf up).
Proof.
  intros H. apply tightest_intro; [now apply between_nonempty| |].
  - destruct lo as [a|]; cbn [lowf].
    + eapply glow_glb; [now apply between_glb|apply rround_RD].
    + apply glow_unb. intros b. destruct up as [u|].
      * exists (Rmin u (b - 1)). pose proof (Rmin_l u (b - 1)). pose proof (Rmin_r u (b - 1)). repeat split; lra.
      * exists (b - 1). repeat split. lra.
  - destruct up as [u|]; cbn [uppf].
    + eapply gupp_lub; [now apply between_lub|apply rround_RU].
    + apply gupp_unb. intros b. destruct lo as [a|].
      * exists (Rmax a (b + 1)). pose proof (Rmax_l a (b + 1)). pose proof (Rmax_r a (b + 1)). repeat split; lra.
      * exists (b + 1). repeat split. lra.
Qed.
Lemma tightest_ext (S S' : R -> Prop) (z : itv F) : (forall r, S r <-> S' r) -> tightest S z -> tightest S' z.
Proof.
  intros H (W & E & T). split; [easy|]. split; [intros r Hr; apply E; now apply H|].
  intros z' W' E'. apply T; [easy|]. intros r Hr. apply E'. now apply H.
Qed.
Lemma bounds_ok_mem (v : itv F) : bounds_ok v = true <-> exists r, mem r v.
Proof. destruct v as [l u]. apply nums_cond. Qed.
Lemma tightest_bounds_ok S (v : itv F) : (exists r, S r) -> tightest S v -> bounds_ok v = true.
Proof. intros H1 H2. apply bounds_ok_mem. eapply tightest_nonempty; eauto. Qed.
Lemma empty_tightest : tightest (fun _ => False) (@empty F).
Proof. split; [now left|]. split; [now intros r []|]. intros z' _ _ r []. easy. Qed.
Lemma entire_tightest : tightest (fun _ => True) (@entire F).
Proof.
  eapply tightest_ext; [|apply (between_tightest None None I)]. intros r. now split.
Qed.
Lemma crossed_bad : bounds_ok (@f1 F, @fm1 F) = false.
Proof.
  destruct (bounds_ok (@f1 F, @fm1 F)) eqn:E; [|easy]. apply bounds_ok_mem in E. destruct E as [r [H1 H2]]. cbn [fst snd] in *.
  rewrite lb_fin in H1 by apply is_finite_f1. rewrite ub_fin in H2 by apply is_finite_fm1. rewrite B2R_f1 in H1. rewrite B2R_fm1 in H2. lra.
Qed.

(** ** Bounds in brackets *)
Definition abound (x : arg) : option R := match x with Numb p => Some (nval p) | _ => None end.
Definition aplain (x : arg) : Prop := match x with Numb p => nsign p <> Sp | _ => True end.
Definition asmall (x : arg) : Prop := match x with Numb p => nsmall p | _ => True end.
Definition ashort (x : arg) : Prop := short (atext x).
Definition lset (k : arg * option arg) : R -> Prop :=
  match k with
  | (Absent, None) => fun _ => False
  | (Numb p, None) => fun r => r = nval p
  | (Wrd w _, None) => if String.eqb w "entire" then fun _ => True else fun _ => False
  | (x, Some y) => between_bounds (abound x) (abound y)
  end.
Definition lstrong (k : arg * option arg) : deco :=
  match k with
  | (Absent, None) => trv
  | (Numb p, None) => com
  | (Wrd w _, None) => if String.eqb w "empty" then trv else if String.eqb w "entire" then dac else ill
  | (x, Some y) => strongest (abound x) (abound y)
  end.
Definition kplain (k : arg * option arg) : Prop := aplain (fst k) /\ match snd k with Some y => aplain y | None => True end.
Definition ksmall (k : arg * option arg) : Prop := asmall (fst k) /\ match snd k with Some y => asmall y | None => True end.
Definition kshort (k : arg * option arg) : Prop := ashort (fst k) /\ match snd k with Some y => ashort y | None => True end.
Definition kordered (k : arg * option arg) : Prop := match snd k with Some y => ordered (abound (fst k)) (abound y) | None => True end.
Definition kshape (k : arg * option arg) : Prop :=
  match k with (x, None) => ashape one_words x | (x, Some y) => ashape low_words x /\ ashape upp_words y end.

Lemma int_exponent_dec e : int_exponent e \/ ~ int_exponent e. Proof. unfold int_exponent. lia. Qed.
Lemma nsmall_dec p : nsmall p \/ ~ nsmall p.
Proof.
  destruct p as [s i f | s i f m t l | s z x i f m t l | s i a b j]; cbn [nsmall]; auto;
    match goal with |- context [int_exponent ?a /\ int_exponent ?b] => destruct (int_exponent_dec a), (int_exponent_dec b); tauto end.
Qed.
Lemma nread_cases p : nshape p -> short (ntext p) ->
  (nsign p = Sp /\ forall s, nread p s = (Ret None, s)) \/
  (nsign p <> Sp /\ nsmall p /\ exists q, (0 < snd q)%Z /\ mpq_val q = nval p /\ forall s, nread p s = (Ret (Some q), s)) \/
  (~ nsmall p /\ refuses (nread p)).
Proof.
  intros H1 H2. pose proof (nread_spec p H1 H2) as H. destruct (nsign p); [|now left|].
  - right. destruct H as [H3 H4]. destruct (nsmall_dec p) as [H5|H5]; [left|right]; auto. split; [easy|]. auto.
  - right. destruct H as [H3 H4]. destruct (nsmall_dec p) as [H5|H5]; [left|right]; auto. split; [easy|]. auto.
Qed.
Lemma refuses_bind {A B} (m : M A) (k : A -> M B) : refuses m -> refuses (bind m k).
Proof. intros H s. unfold bind. destruct (H s) as [-> | ->]; auto. Qed.
Lemma ret_bind_refuses {A B} (m : M A) (a : A) (k : A -> M B) : (forall s, m s = (Ret a, s)) -> refuses (k a) -> refuses (bind m k).
Proof. intros H1 H2 s. unfold bind. rewrite H1. apply H2. Qed.
Lemma mpq_le_val a b : (0 < snd a)%Z -> (0 < snd b)%Z -> mpq_le a b = true <-> mpq_val a <= mpq_val b.
Proof.
  intros Ha Hb. unfold mpq_le, mpq_val. rewrite Z.leb_le.
  assert (Ha' : 0 < IZR (snd a)) by now apply IZR_lt. assert (Hb' : 0 < IZR (snd b)) by now apply IZR_lt.
  rewrite (frac_le (IZR (fst a)) (IZR (snd a)) (IZR (fst b)) (IZR (snd b))) by easy.
  rewrite <- !mult_IZR. split; [apply IZR_le|apply le_IZR].
Qed.
Lemma point_between r x : x = r <-> between_bounds (Some r) (Some r) x.
Proof. cbn. split; [intros ->; split; lra | intros []; lra]. Qed.
Lemma bad_l (u : float F) : bounds_ok (finf, u) = false.
Proof. destruct (bounds_ok (finf, u)) eqn:E; [|easy]. apply bounds_ok_mem in E. now destruct E as [r [H _]]. Qed.
Lemma bad_u (l : float F) : bounds_ok (l, fminf) = false.
Proof. destruct (bounds_ok (l, fminf)) eqn:E; [|easy]. apply bounds_ok_mem in E. now destruct E as [r [_ H]]. Qed.
Lemma f1_not_nan : isnan (@f1 F) = false. Proof. pose proof (@is_finite_f1 F). now destruct (@f1 F). Qed.
Lemma ordered_dec lo up : ordered lo up \/ ~ ordered lo up.
Proof. destruct lo as [a|], up as [b|]; cbn; auto. destruct (Rle_dec a b); auto. Qed.

(** A value and decoration [r] is right for [k], or it is not accepted. *)
Definition good_value (k : arg * option arg) (v : itv F) (d : deco) : Prop :=
  (kplain k /\ kordered k /\ tightest (lset k) v /\ d = lstrong k) \/
  (~ (kplain k /\ kordered k) /\ bounds_ok v = false /\ isnan (fst v) = false).

Lemma value2_ok x y (ql qu : option mpq) :
  (is_num x = true -> match ql with Some q => (0 < snd q)%Z /\ Some (mpq_val q) = abound x /\ aplain x | None => ~ aplain x end) ->
  (is_num y = true -> match qu with Some q => (0 < snd q)%Z /\ Some (mpq_val q) = abound y /\ aplain y | None => ~ aplain y end) ->
  let l : float F := if is_num x then match ql with Some q => rnd_q mode_DN q | None => finf end else fminf in
  let u : float F := if is_num y then match qu with Some q => rnd_q mode_UP q | None => fminf end else finf in
  let zero := (0, 1)%Z in
  let ordered := mpq_le (match ql with Some q => q | None => zero end) (match qu with Some q => q | None => zero end) in
  good_value (x, Some y) (if fle l u && (negb (is_num x) || negb (is_num y) || ordered) then (l, u) else (f1, fm1))
    (if negb (is_num x) || negb (is_num y) then dac else com).
Proof.
  intros Hx Hy. cbv zeta.
  assert (Bad : forall b (v : itv F), bounds_ok v = false -> isnan (fst v) = false ->
    bounds_ok (if b : bool then v else (f1, fm1)) = false /\ isnan (fst (if b : bool then v else (f1, fm1))) = false).
  { intros [] v H1 H2; [easy|]. split; [apply crossed_bad|apply f1_not_nan]. }
  assert (Good : ordered (abound x) (abound y) -> fle (lowf (abound x)) (uppf (abound y)) = true /\ tightest (lset (x, Some y)) (lowf (abound x), uppf (abound y))).
  { intros H. pose proof (between_tightest _ _ H) as T. pose proof (tightest_bounds_ok _ _ (between_nonempty _ _ H) T) as B.
    unfold bounds_ok in B. cbn [fst snd] in B. apply andb_prop in B. destruct B as [B _]. apply andb_prop in B. split; [easy|].
    destruct x; exact T. }
  destruct x as [|p|w t], y as [|p'|w' t']; cbn [is_num negb orb] in *;
    try specialize (Hx eq_refl); try specialize (Hy eq_refl).
  all: try (left; split; [now split|]; split; [exact I|]; destruct (Good I) as [G1 G2]; cbn [abound lowf uppf] in *; rewrite G1; split; [exact G2|easy]).
  all: try match type of Hx with false = true -> _ => clear Hx end; try match type of Hy with false = true -> _ => clear Hy end.
  all: try destruct ql as [q|]; try destruct qu as [q'|].
  (* a number that is not accepted *)
  all: try (right; split; [unfold kplain; cbn [fst snd]; tauto|]; apply Bad; [first [apply bad_l|apply bad_u]|easy]).
  all: try (right; split; [unfold kplain; cbn [fst snd]; tauto|]; apply Bad; [first [apply bad_l|apply bad_u]|]; rewrite ?rnd_q_rround; destruct (@rround_RD F false (mpq_val q)) as [Hn _]; cbn [fst]; destruct (rround mode_DN false (mpq_val q)); easy).
  all: try (destruct Hx as (Hx1 & Hx2 & Hx3)); try (destruct Hy as (Hy1 & Hy2 & Hy3)).
  all: try (left; split; [now split|]; split; [exact I|]; destruct (Good I) as [G1 G2]; cbn [abound] in *;
    first [rewrite <- Hx2 in * | rewrite <- Hy2 in *]; cbn [lowf uppf] in *; rewrite ?rnd_q_rround; rewrite G1; split; [exact G2|easy]).
  - destruct (mpq_le q q') eqn:E.
    + apply mpq_le_val in E; [|easy|easy]. assert (O : ordered (abound (Numb p)) (abound (Numb p'))) by now rewrite <- Hx2, <- Hy2.
      left. split; [now split|]. split; [exact O|]. destruct (Good O) as [G1 G2]. rewrite <- Hx2, <- Hy2 in *. cbn [lowf uppf] in *. rewrite ?rnd_q_rround. rewrite G1. split; [exact G2|easy].
    + right. split.
      * intros [_ O]. cbn [kordered fst snd] in O. rewrite <- Hx2, <- Hy2 in O. cbn [ordered] in O. apply (mpq_le_val q q') in O; [congruence|easy|easy].
      * rewrite andb_false_r. split; [apply crossed_bad|apply f1_not_nan].
Qed.

Lemma arg_read_cases ws x : ashape ws x -> ashort x ->
  (exists q, (forall s, arg_read x s = (Ret q, s)) /\
     (is_num x = true -> match q with Some q => (0 < snd q)%Z /\ Some (mpq_val q) = abound x /\ aplain x | None => ~ aplain x end)) \/
  (~ asmall x /\ refuses (arg_read x)).
Proof.
  intros H1 H2. destruct x as [|p|w t].
  - left. now exists None.
  - cbn in *. destruct (nread_cases p H1 H2) as [[H3 H4] | [(H3 & H4 & q & H5 & H6 & H7) | H3]].
    + left. exists None. split; [easy|]. intros _ H. now apply H.
    + left. exists (Some q). split; [easy|]. intros _. now rewrite H6.
    + now right.
  - left. now exists None.
Qed.
Lemma lvalue_spec k : kshape k -> kshort k ->
  (exists v d, (forall s, @lvalue F k s = (Ret (v, d), s)) /\ good_value k v d) \/ (~ ksmall k /\ refuses (@lvalue F k)).
Proof.
  destruct k as [x [y|]]; intros H1 [H2 H3].
  - destruct H1 as [Hx Hy]. cbn [fst snd] in *. cbn [lvalue].
    destruct (arg_read_cases _ _ Hx H2) as [(ql & A1 & A2) | [A1 A2]].
    + destruct (arg_read_cases _ _ Hy H3) as [(qu & B1 & B2) | [B1 B2]].
      * left. eexists _, _. split; [|exact (value2_ok x y ql qu A2 B2)]. intros s. unfold value2, bind. now rewrite A1, B1.
      * right. split; [unfold ksmall; cbn; tauto|]. unfold value2. eapply ret_bind_refuses; [exact A1|]. now apply refuses_bind.
    + right. split; [unfold ksmall; cbn; tauto|]. now apply refuses_bind.
  - cbn [fst snd] in *. destruct x as [|p|w t]; cbn [lvalue value1].
    + left. exists empty, trv. split; [easy|]. left. split; [easy|]. split; [easy|]. split; [apply empty_tightest|easy].
    + destruct (nread_cases p H1 H2) as [[H4 H5] | [(H4 & H5 & q & H6 & H7 & H8) | [H4 H5]]].
      * left. exists (f1, fm1), com. split; [intros s; unfold bind; now rewrite H5|]. right. split.
        -- intros [[H _] _]. cbn in H. auto.
        -- split; [apply crossed_bad|apply f1_not_nan].
      * left. exists (rnd_q mode_DN q, rnd_q mode_UP q), com. split; [intros s; unfold bind; now rewrite H8|].
        left. split; [now split|]. split; [exact I|]. split; [|easy]. cbn [lset].
        eapply tightest_ext; [intros r; symmetry; apply point_between|]. rewrite <- H7, !rnd_q_rround.
        apply (between_tightest (Some (mpq_val q)) (Some (mpq_val q))). cbn. lra.
      * right. split; [unfold ksmall; cbn; tauto|]. now apply refuses_bind.
    + left. destruct H1 as [H1 _]. cbn in H1. destruct H1 as [<-|[<-|[<-|[]]]]; cbn [String.eqb Ascii.eqb Bool.eqb lset lstrong].
      * exists empty, trv. split; [easy|]. left. split; [easy|]. split; [easy|]. split; [apply empty_tightest|easy].
      * exists entire, dac. split; [easy|]. left. split; [easy|]. split; [easy|]. split; [apply entire_tightest|easy].
      * exists empty, ill. split; [easy|]. left. split; [easy|]. split; [easy|]. split; [apply empty_tightest|easy].
Qed.
End V.
