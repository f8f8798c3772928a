(** * C44: the root finding examples find all zeros *)
From Coq Require Import ZArith NArith Reals Bool Lra List.
From Flocq Require Import Core.Core IEEE754.BinarySingleNaN.
From Verif Require Import Fmt Spec FloatFacts Exc SpecApi SpecNum SpecRoots MBase MBool MArith MNum MRoots PConv PRoots PRoots2 PRoots3 Ex.
Import ListNotations.
Local Open Scope R_scope.

(** ** Bisection *)
(** Whenever the bisection stops, the intervals it has written cover all zeros; they are
    non-empty parts of the start interval in ascending order, and the function is smaller
    than [eps] on each.  No exception flag is touched. *)
Theorem C44_bisect_sound : forall (F : fmt) (f : itv F -> M (itv F)) (phi : R -> R -> Prop) (eps : float F) (x : itv F),
  comparable F binary64 -> extends f phi -> inhabited_itv x ->
  stops_only_with (fun n => ia_bisect n f x eps) (finds_small phi x eps).
Proof. exact (fun F f phi eps x C Hf Hx => bisect_sound C f phi Hf eps x Hx). Qed.
Print Assumptions C44_bisect_sound.
(** It stops if the range is narrow on every part without an interior number. *)
Theorem C44_bisect_stops_partial : forall (F : fmt) (f : itv F -> M (itv F)) (phi : R -> R -> Prop) (eps : float F) (x : itv F),
  comparable F binary64 -> extends f phi -> inhabited_itv x ->
  (forall v, inhabited_itv v -> included v x -> thin v ->
     forall y w, returns (f v) y -> mem 0 y -> returns (n_wid y) w -> flt w eps = true) ->
  stops_with (fun n => ia_bisect n f x eps) (finds_small phi x eps).
Proof. exact (fun F f phi eps x C Hf Hx => bisect_stops C f phi Hf eps x Hx). Qed.
Print Assumptions C44_bisect_stops_partial.
(** In general it need not stop: f and start interval of the example, [eps] = 2^-53. *)
Theorem C44_bisect_stops_refuted : exists (f : itv binary64 -> M (itv binary64)) (phi : R -> R -> Prop) (eps : float binary64) (x : itv binary64),
  extends f phi /\ inhabited_itv x /\ bounded_rep x /\ is_finite eps = true /\ 0 < B2R eps /\
  never_stops (fun n => ia_bisect n f x eps).
Proof.
exists ex_f, (graph (fun r => r * r - 2)), tiny53, (mtwo64, two64).
exact (conj ex_f_extends (conj start_inh (conj (conj eq_refl eq_refl) (conj eq_refl (conj (proj1 tiny_pos) bisect_never))))).
Qed.
Print Assumptions C44_bisect_stops_refuted.
(** A reported interval need not contain a zero. *)
Theorem C44_bisect_only_zeros_refuted : exists (f : itv binary64 -> M (itv binary64)) (g : R -> R) (eps : float binary64) (x : itv binary64),
  extends f (graph g) /\ stops_with (fun n => ia_bisect n f x eps) (fun l => exists v, In v l /\ forall r, mem r v -> g r <> 0).
Proof.
exists ex_f, (fun r => r * r - 2), f1, (near2, near2). split; [exact ex_f_extends|].
exists [(near2, near2)], 1%nat. split.
- intros [|n] L; [inversion L|]. exact (fun s => f_equal (fun h => h n s) near2_out).
- exact (ex_intro _ _ (conj (or_introl eq_refl) near2_no_zero)).
Qed.
Print Assumptions C44_bisect_only_zeros_refuted.

(** ** Newton's method *)
(** Whenever it stops, the intervals cover all zeros of a differentiable function; they are
    non-empty parts of the start interval and narrower than [eps].  [f] and [df] may be
    extensions of partial functions that are defined on the start interval. *)
Theorem C44_newton_sound : forall (F : fmt) (f df : itv F -> M (itv F)) (pf pd : R -> R -> Prop) (eps : float F) (x : itv F) (g g' : R -> R),
  comparable F binary64 -> extends f pf -> extends df pd -> inhabited_itv x ->
  (forall r, mem r x -> pf r (g r) /\ pd r (g' r) /\ derivable_pt_lim g r (g' r)) ->
  stops_only_with (fun n => ia_newton n f df x eps) (finds_narrow (graph g) x eps).
Proof. exact (fun F f df pf pd eps x g g' C Hf Hd Hx => newton_sound C f df pf pd Hf Hd eps x g g' Hx). Qed.
Print Assumptions C44_newton_sound.
(** It stops if every part without an interior number is narrower than [eps]. *)
Theorem C44_newton_stops_partial : forall (F : fmt) (f df : itv F -> M (itv F)) (pf pd : R -> R -> Prop) (eps : float F) (x : itv F) (g g' : R -> R),
  comparable F binary64 -> extends f pf -> extends df pd -> inhabited_itv x ->
  (forall v, inhabited_itv v -> included v x -> thin v -> forall w, returns (n_wid v) w -> flt w eps = true) ->
  (forall r, mem r x -> pf r (g r) /\ pd r (g' r) /\ derivable_pt_lim g r (g' r)) ->
  stops_with (fun n => ia_newton n f df x eps) (finds_narrow (graph g) x eps).
Proof. exact (fun F f df pf pd eps x g g' C Hf Hd Hx => newton_stops_sound C f df pf pd Hf Hd eps x g g' Hx). Qed.
Print Assumptions C44_newton_stops_partial.
(** So it stops, for any functions that return valid intervals, on every start interval in
    [-2^(e+p), 2^(e+p)] when [eps] > 2^e (p: the precision of the type). *)
Theorem C44_newton_stops_bounded_partial : forall (F : fmt) (f df : itv F -> M (itv F)) (eps : float F) (x : itv F) (e : Z),
  comparable F binary64 -> valid_fun f -> valid_fun df -> inhabited_itv x -> (emin F <= e < emax F)%Z ->
  (forall r, mem r x -> Rabs r <= bpow radix2 (e + prec F)) -> is_finite eps = true -> bpow radix2 e < B2R eps ->
  stops_with (fun n => ia_newton n f df x eps) (fun _ => True).
Proof. exact (fun F f df eps x e C => newton_stops_bounded C f df eps x e). Qed.
Print Assumptions C44_newton_stops_bounded_partial.
(** At [eps] = 2^e it need not: the example, e = -52. *)
Theorem C44_newton_stops_refuted : exists (f df : itv binary64 -> M (itv binary64)) (g g' : R -> R) (eps : float binary64) (x : itv binary64),
  extends f (graph g) /\ extends df (graph g') /\ (forall r, derivable_pt_lim g r (g' r)) /\
  inhabited_itv x /\ (forall r, mem r x -> Rabs r <= bpow radix2 (-52 + prec binary64)) /\
  is_finite eps = true /\ B2R eps = bpow radix2 (-52) /\ never_stops (fun n => ia_newton n f df x eps).
Proof.
exists ex_f, ex_df, (fun r => r * r - 2), (fun r => 2 * r), tiny52, (mtwo64, two64).
split; [exact ex_f_extends|]. split; [exact ex_df_extends|]. split; [exact ex_derivative|]. split; [exact start_inh|].
split; [|split; [reflexivity|split; [b2r|exact newton_never]]].
intros r Hr. apply mem_start in Hr. apply Rabs_le. simpl. lra.
Qed.
Print Assumptions C44_newton_stops_refuted.

(** ** The programs *)
(** [out52]: the bounds as numerators over 2^52. *)
Theorem C44_main15 : stops_with main15 (fun l =>
  finds_small (graph (fun r => r * r - 2)) (mtwo64, two64) eps64 l /\
  out52 l = [(Some (-6369058542845952), Some (-6369049952911360)); (Some 6369049952911360, Some 6369058542845952)]%Z).
Proof. exact main15_ok. Qed.
Print Assumptions C44_main15.
Theorem C44_main16 : stops_with main16 (fun l =>
  finds_narrow (graph (fun r => r * r - 2)) (mtwo64, two64) eps64 l /\
  out52 l = [(Some 6369051672371777, Some 6369051672697478); (Some (-6369051672697478), Some (-6369051672371777))]%Z).
Proof. exact main16_ok. Qed.
Print Assumptions C44_main16.

(** The hypotheses are met by the functions of the examples; the square roots of 2 are in
    the output. *)
Example C44_ex : extends ex_f (graph (fun r => r * r - 2)) /\ extends ex_df (graph (fun r => 2 * r)) /\
  inhabited_itv (mtwo64, two64) /\ (emin binary64 <= -52 < emax binary64)%Z /\ bpow radix2 (-52) < B2R eps64 /\
  stops_with main16 (fun l => length l = 2%nat /\ (exists v, In v l /\ mem (R_sqrt.sqrt 2) v) /\ exists v, In v l /\ mem (- R_sqrt.sqrt 2) v).
Proof.
split; [exact ex_f_extends|]. split; [exact ex_df_extends|]. split; [exact start_inh|]. split; [easy|]. split; [b2r|].
destruct C44_main16 as (l & k & H & [C _] & O). exists l, k. split; [exact H|].
assert (S0 : 0 <= R_sqrt.sqrt 2) by apply R_sqrt.sqrt_pos. assert (S2 : R_sqrt.sqrt 2 * R_sqrt.sqrt 2 = 2) by (apply R_sqrt.sqrt_def; lra).
split; [|split; (apply C; split; [apply mem_start|unfold graph]; nra)].
apply (f_equal (@length _)) in O. unfold out52 in O. rewrite map_length in O. exact O.
Qed.
