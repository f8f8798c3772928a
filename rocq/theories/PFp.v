(** * Proofs: floating-point evaluation stays inside *)
From Coq Require Import ZArith NArith Reals Bool List PeanoNat Lia Lra.
From Flocq Require Import Core.Core IEEE754.BinarySingleNaN.
From Verif Require Import Fmt Spec FloatFacts Exc Deco SpecApi SpecElem SpecAtan2 SpecDeco SpecMixed SpecTan SpecTan2 SpecIso SpecNai SpecProg MBase PBase PClass MBool MArith PArith PMul PDiv
  PFma PUnary PConv PSetop MElem PElem PElem2 MPow PPown PPow MTrig PTan PTrigT PTanF MAtan2 PAtan2 MDec PDec PDecF PDecT MMixed PMixed PTanOff PTan64 PTanIff
  PIso PIsoMixed PNai PValid2 PValid4 SpecExpr MExpr PExpr SpecFp.
From Verif Require Import MNum SpecNum.
From Verif Require C16 C21 C28 Ex.
Local Open Scope R_scope.

(** ** Rounding *)
Section Round.
Context {F : fmt}.
Lemma range_round m r (f : float F) : in_range F r -> rnds m r f -> is_finite f = true /\ B2R f = round radix2 (fexp F) (round_mode m) r.
Proof.
intros (lo & hi & Flo & Fhi & L) H. unfold rnds in H. rewrite Rlt_bool_true in H; [easy|].
assert (A : B2R lo <= round radix2 (fexp F) (round_mode m) r <= B2R hi).
{ split; [apply round_ge_generic|apply round_le_generic]; try apply valid_rnd_round_mode; try apply B2R_format; try typeclasses eauto; apply L. }
pose proof (abs_B2R_lt_emax _ _ lo) as B1. pose proof (abs_B2R_lt_emax _ _ hi) as B2. apply Rabs_lt_inv in B1. apply Rabs_lt_inv in B2. apply Rabs_lt. lra.
Qed.
Lemma overflow_cases m s (f : float F) : is_finite f = true -> B2SF f = binary_overflow (prec F) (emax F) m s -> B2R f = if s then - B2R (@fmaxv F) else B2R (@fmaxv F).
Proof.
intros Ff E. unfold binary_overflow in E. destruct (overflow_to_inf m s).
- now destruct f.
- destruct s.
  + assert (E' : B2SF f = B2SF (Bopp (@fmaxv F))) by (rewrite E; symmetry; apply B2SF_Bopp_pos, B2SF_fmaxv). apply B2SF_inj in E'. subst f. apply B2R_Bopp.
  + rewrite <- B2SF_fmaxv in E. apply B2SF_inj in E. now subst f.
Qed.
Lemma round_faithful m r (f : float F) : rnds m r f -> is_finite f = true -> faithful r f.
Proof.
intros H Ff. split; [easy|]. intros w Fw. unfold rnds in H.
assert (RL : B2R w <= r -> B2R w <= round radix2 (fexp F) (round_mode m) r).
{ intros L. apply round_ge_generic; try apply valid_rnd_round_mode; try apply B2R_format; try typeclasses eauto; easy. }
assert (RU : r <= B2R w -> round radix2 (fexp F) (round_mode m) r <= B2R w).
{ intros L. apply round_le_generic; try apply valid_rnd_round_mode; try apply B2R_format; try typeclasses eauto; easy. }
revert H. case Rlt_bool_spec; intros Hb H.
- now destruct H as [-> _].
- pose proof (abs_le_fmaxv w) as MX. pose proof (@fmaxv_lt F) as ML. apply Rabs_le_inv in MX. apply overflow_cases in H; [|easy].
  rewrite H. assert (Z : (r <= 0 -> round radix2 (fexp F) (round_mode m) r <= 0) /\ (0 <= r -> 0 <= round radix2 (fexp F) (round_mode m) r)).
  { split; intros L; [apply round_le_generic|apply round_ge_generic]; try apply valid_rnd_round_mode; try apply generic_format_0; try typeclasses eauto; easy. }
  destruct Z as (Z1 & Z2). revert Hb. unfold Rabs. destruct (Rlt_bool_spec r 0); destruct Rcase_abs; intros Hb; split; intros L; try lra;
  try (specialize (RL L); lra); try (specialize (RU L); lra).
Qed.
Lemma mem_faithful r (v : float F) (z : itv F) : wf z -> mem r z -> faithful r v -> mem (B2R v) z.
Proof.
intros W [H1 H2] (Fv & H). destruct z as [l u]; cbn [fst snd] in *. split; cbn [fst snd].
- destruct (fviewP l) as [ | | |l Fl]; try easy. rewrite lb_fin in H1 |- * by easy. now apply H.
- destruct (fviewP u) as [ | | |u Fu]; try easy. rewrite ub_fin in H2 |- * by easy. now apply H.
Qed.
Lemma bounded_range r (z : itv F) : bounded_rep z -> mem r z -> in_range F r.
Proof.
intros [B1 B2] [H1 H2]. exists (fst z), (snd z). rewrite lb_fin in H1 by easy. rewrite ub_fin in H2 by easy. easy.
Qed.
Lemma range_some r : in_range F r -> exists v : float F, faithful r v.
Proof.
intros H. destruct (range_round mode_NE r (rround mode_NE false r) H (rround_rnds _ _ _)) as [H1 _].
exists (rround mode_NE false r). apply (round_faithful mode_NE); [apply rround_rnds|easy].
Qed.
End Round.

(** ** Expressions *)
Section Ex.
Context {vf : nat -> fmt}.
(** What is shown for each subexpression. *)
Definition follows (p : fenv vf) {F} (e : expr vf F) (z : ditv F) : Prop :=
  (forall v, feval p e v -> mem (B2R v) (fst z)) /\ ((def <= snd z)%N -> never_invalid p e) /\ ((com <= snd z)%N -> never_overflow p e).
Definition inside (p : fenv vf) (X : ienv vf) {F} (e : expr vf F) : Prop := forall i, occurs i e = true -> mem (B2R (p i)) (X i).
Lemma com_def d : (com <= d)%N -> (def <= d)%N. Proof. unfold com, def. lia. Qed.

Lemma step1 {F T} (opd : ditv F -> M (ditv T)) op dm f x z (p : fenv vf) (a : expr vf F) :
  node1 opd op dm f x -> returns (opd x) z -> follows p a x ->
  (forall (v : float T) r, feval p a r -> dm (B2R r) -> faithful (f (B2R r)) v -> mem (B2R v) (fst z)) /\
  ((def <= snd z)%N -> never_invalid p a /\ forall r, feval p a r -> dm (B2R r)) /\
  ((com <= snd z)%N -> never_overflow p a /\ forall r, feval p a r -> in_range T (f (B2R r))).
Proof.
intros (z' & R & P & _ & L & E & H1 & H2 & H3) Rz (A1 & A2 & A3). rewrite (returns_same _ _ _ R Rz) in *. clear z' R.
split; [|split].
- intros v r Hr D Hv. apply (mem_faithful (f (B2R r)) v); [now apply proper_wf|apply E; auto|easy].
- intros K. split; [apply A2; lia|]. intros r Hr. apply H1; [easy|]. now apply A1.
- intros K. split; [apply A3; lia|]. intros r Hr. apply (bounded_range _ (fst z)); [now apply H3|]. apply E; [now apply A1|]. apply H1; [now apply com_def|now apply A1].
Qed.
Lemma step2 {F G T} (opd : ditv F -> ditv G -> M (ditv T)) op dm f x y z (p : fenv vf) (a : expr vf F) (c : expr vf G) :
  node2 opd op dm f x y -> returns (opd x y) z -> follows p a x -> follows p c y ->
  (forall (v : float T) r s, feval p a r -> feval p c s -> dm (B2R r) (B2R s) -> faithful (f (B2R r) (B2R s)) v -> mem (B2R v) (fst z)) /\
  ((def <= snd z)%N -> never_invalid p a /\ never_invalid p c /\ forall r s, feval p a r -> feval p c s -> dm (B2R r) (B2R s)) /\
  ((com <= snd z)%N -> never_overflow p a /\ never_overflow p c /\ forall r s, feval p a r -> feval p c s -> in_range T (f (B2R r) (B2R s))).
Proof.
intros (z' & R & P & _ & L & L' & E & H1 & H2 & H3) Rz (A1 & A2 & A3) (B1 & B2 & B3). rewrite (returns_same _ _ _ R Rz) in *. clear z' R.
split; [|split].
- intros v r s Hr Hs D Hv. apply (mem_faithful (f (B2R r) (B2R s)) v); [now apply proper_wf|apply E; auto|easy].
- intros K. split; [apply A2; lia|]. split; [apply B2; lia|]. intros r s Hr Hs. apply (proj2 (H1 K) (B2R r, B2R s)). split; [now apply A1|now apply B1].
- intros K. split; [apply A3; lia|]. split; [apply B3; lia|]. intros r s Hr Hs. apply (bounded_range _ (fst z)); [now apply H3|]. apply E; [now apply A1|now apply B1|].
  apply (proj2 (H1 (com_def _ K)) (B2R r, B2R s)). split; [now apply A1|now apply B1].
Qed.
Lemma step3 {F G H T} (opd : ditv F -> ditv G -> ditv H -> M (ditv T)) op f x y w z (p : fenv vf) (a : expr vf F) (c : expr vf G) (d : expr vf H) :
  node3 opd op f x y w -> returns (opd x y w) z -> follows p a x -> follows p c y -> follows p d w ->
  (forall (v : float T) r s t, feval p a r -> feval p c s -> feval p d t -> faithful (f (B2R r) (B2R s) (B2R t)) v -> mem (B2R v) (fst z)) /\
  ((def <= snd z)%N -> never_invalid p a /\ never_invalid p c /\ never_invalid p d) /\
  ((com <= snd z)%N -> never_overflow p a /\ never_overflow p c /\ never_overflow p d /\
     forall r s t, feval p a r -> feval p c s -> feval p d t -> in_range T (f (B2R r) (B2R s) (B2R t))).
Proof.
intros (z' & R & P & _ & L & L' & L'' & E & H1 & H2 & H3) Rz (A1 & A2 & A3) (B1 & B2 & B3) (C1 & C2 & C3). rewrite (returns_same _ _ _ R Rz) in *. clear z' R.
split; [|split].
- intros v r s t Hr Hs Ht Hv. apply (mem_faithful (f (B2R r) (B2R s) (B2R t)) v); [now apply proper_wf|apply E; auto|easy].
- intros K. split; [apply A2; lia|]. split; [apply B2; lia|]. apply C2; lia.
- intros K. split; [apply A3; lia|]. split; [apply B3; lia|]. split; [apply C3; lia|].
  intros r s t Hr Hs Ht. apply (bounded_range _ (fst z)); [now apply H3|]. apply E; [now apply A1|now apply B1|now apply C1].
Qed.
Theorem fp_main (I : denv vf) (p : fenv vf) {F} (e : expr vf F) : (forall i, occurs i e = true -> proper (I i)) -> typed e ->
  tan_fine (fun F a z => returns (beval (parts I) a) z) e -> inside p (parts I) e ->
  exists z, returns (deval I e) z /\ proper z /\ returns (beval (parts I) e) (fst z) /\ follows p e z.
Proof.
induction e as [i|F u a IHa|F b a IHa c IHc|F a IHa c IHc d IHd|T F u a IHa|T F G b a IHa c IHc|T F G H a IHa c IHc d IHd]; intros PR TY TF IN; cbn [typed tan_fine] in *.
- exists (I i). assert (O : occurs i (Var i : expr vf (vf i)) = true) by (cbn [occurs]; apply Nat.eqb_refl).
  split; [easy|]. split; [now apply PR|]. split; [easy|]. split; [|easy]. intros v Hv. cbn [feval] in Hv. subst v. now apply IN.
- destruct TF as [TF1 TF2]. destruct (IHa PR TY TF1 IN) as (za & A1 & A2 & A3 & A4).
  assert (N := un_node u za A2 (fun E => TF2 E _ A3)). pose proof N as (z & Z1 & Z2 & Z3 & _).
  destruct (step1 _ _ _ _ za z p a N Z1 A4) as (S1 & S2 & S3).
  exists z. split; [now apply (ret_bind _ _ za)|]. split; [easy|]. split; [now apply (ret_bind _ _ (fst za))|]. split; [|now split].
  intros v (r & H1 & H2 & H3). now apply (S1 v r).
- destruct TY as [TY1 TY2], TF as [TF1 TF2].
  destruct (IHa) as (za & A1 & A2 & A3 & A4); [intros i Hi; apply PR; cbn [occurs]; now rewrite Hi|easy|easy|intros i Hi; apply IN; cbn [occurs]; now rewrite Hi|].
  destruct (IHc) as (zc & B1 & B2 & B3 & B4); [intros i Hi; apply PR; cbn [occurs]; rewrite Hi; apply orb_true_r|easy|easy|intros i Hi; apply IN; cbn [occurs]; rewrite Hi; apply orb_true_r|].
  assert (N := bin_node b za zc A2 B2). pose proof N as (z & Z1 & Z2 & Z3 & _). destruct (step2 _ _ _ _ za zc z p a c N Z1 A4 B4) as (S1 & S2 & S3).
  exists z. split; [apply (ret_bind _ _ za); [easy|]; now apply (ret_bind _ _ zc)|]. split; [easy|].
  split; [apply (ret_bind _ _ (fst za)); [easy|]; now apply (ret_bind _ _ (fst zc))|]. split; [|now split].
  intros v (r & s & H1 & H2 & H3 & H4). now apply (S1 v r s).
- destruct TY as (TY1 & TY2 & TY3), TF as (TF1 & TF2 & TF3).
  destruct (IHa) as (za & A1 & A2 & A3 & A4); [intros i Hi; apply PR; cbn [occurs]; now rewrite Hi|easy|easy|intros i Hi; apply IN; cbn [occurs]; now rewrite Hi|].
  destruct (IHc) as (zc & B1 & B2 & B3 & B4); [intros i Hi; apply PR; cbn [occurs]; rewrite Hi; now rewrite orb_true_r|easy|easy|intros i Hi; apply IN; cbn [occurs]; rewrite Hi; now rewrite orb_true_r|].
  destruct (IHd) as (zd & D1 & D2 & D3 & D4); [intros i Hi; apply PR; cbn [occurs]; rewrite Hi; apply orb_true_r|easy|easy|intros i Hi; apply IN; cbn [occurs]; rewrite Hi; apply orb_true_r|].
  assert (N := mk3 _ _ _ za zc zd (C16.C16_fma F) (fun u v t U V T => fma_tightest u v t U V T) A2 B2 D2). pose proof N as (z & Z1 & Z2 & Z3 & _).
  destruct (step3 _ _ _ za zc zd z p a c d N Z1 A4 B4 D4) as (S1 & S2 & S3).
  exists z. split; [apply (ret_bind _ _ za); [easy|]; apply (ret_bind _ _ zc); [easy|]; now apply (ret_bind _ _ zd)|]. split; [easy|].
  split; [apply (ret_bind _ _ (fst za)); [easy|]; apply (ret_bind _ _ (fst zc)); [easy|]; now apply (ret_bind _ _ (fst zd))|]. split; [|now split].
  intros v (r & s & t & H1 & H2 & H3 & H4). now apply (S1 v r s t).
- destruct TY as [TY C], TF as [TF1 TF2]. destruct (IHa PR TY TF1 IN) as (za & A1 & A2 & A3 & A4).
  assert (N := un_node_mixed T u za C A2 (fun E => TF2 E _ A3)). pose proof N as (z & Z1 & Z2 & Z3 & _).
  destruct (step1 _ _ _ _ za z p a N Z1 A4) as (S1 & S2 & S3).
  exists z. split; [now apply (ret_bind _ _ za)|]. split; [easy|]. split; [now apply (ret_bind _ _ (fst za))|]. split; [|now split].
  intros v (r & H1 & H2 & H3). now apply (S1 v r).
- destruct TY as (TY1 & TY2 & C1 & C2 & C3), TF as [TF1 TF2].
  destruct (IHa) as (za & A1 & A2 & A3 & A4); [intros i Hi; apply PR; cbn [occurs]; now rewrite Hi|easy|easy|intros i Hi; apply IN; cbn [occurs]; now rewrite Hi|].
  destruct (IHc) as (zc & B1 & B2 & B3 & B4); [intros i Hi; apply PR; cbn [occurs]; rewrite Hi; apply orb_true_r|easy|easy|intros i Hi; apply IN; cbn [occurs]; rewrite Hi; apply orb_true_r|].
  assert (N := bin_node_mixed T b za zc C1 C2 C3 A2 B2). pose proof N as (z & Z1 & Z2 & Z3 & _). destruct (step2 _ _ _ _ za zc z p a c N Z1 A4 B4) as (S1 & S2 & S3).
  exists z. split; [apply (ret_bind _ _ za); [easy|]; now apply (ret_bind _ _ zc)|]. split; [easy|].
  split; [apply (ret_bind _ _ (fst za)); [easy|]; now apply (ret_bind _ _ (fst zc))|]. split; [|now split].
  intros v (r & s & H1 & H2 & H3 & H4). now apply (S1 v r s).
- destruct TY as (TY1 & TY2 & TY3 & C1 & C2 & C3 & C4 & C5 & C6), TF as (TF1 & TF2 & TF3).
  destruct (IHa) as (za & A1 & A2 & A3 & A4); [intros i Hi; apply PR; cbn [occurs]; now rewrite Hi|easy|easy|intros i Hi; apply IN; cbn [occurs]; now rewrite Hi|].
  destruct (IHc) as (zc & B1 & B2 & B3 & B4); [intros i Hi; apply PR; cbn [occurs]; rewrite Hi; now rewrite orb_true_r|easy|easy|intros i Hi; apply IN; cbn [occurs]; rewrite Hi; now rewrite orb_true_r|].
  destruct (IHd) as (zd & D1 & D2 & D3 & D4); [intros i Hi; apply PR; cbn [occurs]; rewrite Hi; apply orb_true_r|easy|easy|intros i Hi; apply IN; cbn [occurs]; rewrite Hi; apply orb_true_r|].
  assert (N := mk3 _ _ _ za zc zd (C28.C28_fma_dec T F G H C1 C2 C3 C4 C5 C6) (fun u v t U V W => C28.C28_fma T F G H u v t C1 C2 C3 C4 C5 C6 U V W) A2 B2 D2). pose proof N as (z & Z1 & Z2 & Z3 & _).
  destruct (step3 _ _ _ za zc zd z p a c d N Z1 A4 B4 D4) as (S1 & S2 & S3).
  exists z. split; [apply (ret_bind _ _ za); [easy|]; apply (ret_bind _ _ zc); [easy|]; now apply (ret_bind _ _ zd)|]. split; [easy|].
  split; [apply (ret_bind _ _ (fst za)); [easy|]; apply (ret_bind _ _ (fst zc)); [easy|]; now apply (ret_bind _ _ (fst zd))|]. split; [|now split].
  intros v (r & s & t & H1 & H2 & H3 & H4). now apply (S1 v r s t).
Qed.
(** Without invalid operations and overflow the evaluation has a result. *)
Lemma fp_some (p : fenv vf) {F} (e : expr vf F) : never_invalid p e -> never_overflow p e -> exists v, feval p e v.
Proof.
induction e as [i|F u a IHa|F b a IHa c IHc|F a IHa c IHc d IHd|T F u a IHa|T F G b a IHa c IHc|T F G H a IHa c IHc d IHd]; cbn [never_invalid never_overflow feval]; intros NI NO.
- now exists (p i).
- destruct NI as [N1 N2], NO as [O1 O2]. destruct (IHa N1 O1) as [r Hr]. destruct (range_some _ (O2 r Hr)) as [v Hv]. exists v, r. auto.
- destruct NI as (N1 & N2 & N3), NO as (O1 & O2 & O3). destruct (IHa N1 O1) as [r Hr]. destruct (IHc N2 O2) as [s Hs]. destruct (range_some _ (O3 r s Hr Hs)) as [v Hv]. exists v, r, s. auto.
- destruct NI as (N1 & N2 & N3), NO as (O1 & O2 & O3 & O4). destruct (IHa N1 O1) as [r Hr]. destruct (IHc N2 O2) as [s Hs]. destruct (IHd N3 O3) as [t Ht].
  destruct (range_some _ (O4 r s t Hr Hs Ht)) as [v Hv]. exists v, r, s, t. auto.
- destruct NI as [N1 N2], NO as [O1 O2]. destruct (IHa N1 O1) as [r Hr]. destruct (range_some _ (O2 r Hr)) as [v Hv]. exists v, r. auto.
- destruct NI as (N1 & N2 & N3), NO as (O1 & O2 & O3). destruct (IHa N1 O1) as [r Hr]. destruct (IHc N2 O2) as [s Hs]. destruct (range_some _ (O3 r s Hr Hs)) as [v Hv]. exists v, r, s. auto.
- destruct NI as (N1 & N2 & N3), NO as (O1 & O2 & O3 & O4). destruct (IHa N1 O1) as [r Hr]. destruct (IHc N2 O2) as [s Hs]. destruct (IHd N3 O3) as [t Ht].
  destruct (range_some _ (O4 r s t Hr Hs Ht)) as [v Hv]. exists v, r, s, t. auto.
Qed.
(** ** As stated *)
Lemma fp_bare (X : ienv vf) (p : fenv vf) {F} (e : expr vf F) : (forall i, occurs i e = true -> wf (X i)) -> typed e ->
  tan_fine (fun F a z => returns (beval X a) z) e -> inside p X e ->
  exists z, returns (beval X e) z /\ forall v, feval p e v -> mem (B2R v) z.
Proof.
intros W T TF IN. set (I := (fun i => (X i, trv)) : denv vf). destruct (fp_main I p e) as (z & _ & _ & Z & S & _); [|easy|exact TF|exact IN|exists (fst z); now split].
intros i O. specialize (W i O). unfold I. split; [|split; [cbn; unfold is_deco; cbn; tauto|easy]].
destruct W as [->|W]; [left; split; [easy|now right]|right; cbn [fst snd]]. split; [easy|]. easy.
Qed.
Lemma fp_deco (I : denv vf) (p : fenv vf) {F} (e : expr vf F) : (forall i, occurs i e = true -> proper (I i)) -> typed e ->
  tan_fine (fun F a z => returns (beval (parts I) a) z) e -> inside p (parts I) e ->
  exists z, returns (deval I e) z /\ (forall v, feval p e v -> mem (B2R v) (fst z)) /\
    ((def <= snd z)%N -> never_invalid p e) /\ ((com <= snd z)%N -> never_overflow p e /\ exists v, feval p e v).
Proof.
intros P T TF IN. destruct (fp_main I p e P T TF IN) as (z & Z1 & _ & _ & Z2 & Z3 & Z4). exists z. split; [easy|]. split; [easy|]. split; [easy|].
intros K. split; [now apply Z4|]. apply fp_some; [apply Z3; now apply com_def|now apply Z4].
Qed.
End Ex.
(** ** How far the computed number is from the exact value *)
Section Err.
Context {vf : nat -> fmt}.
Lemma fp_error (X : ienv vf) (p : fenv vf) {F} (e : expr vf F) : (forall i, occurs i e = true -> wf (X i)) -> typed e ->
  tan_fine (fun F a z => returns (beval X a) z) e -> inside p X e -> (exists v, feval p e v) ->
  exists z w, returns (beval X e) z /\ returns (n_wid z) w /\
    forall v, feval p e v -> dom (fun i => B2R (p i)) e -> ub w (Rabs (B2R v - val (fun i => B2R (p i)) e)).
Proof.
intros W T TF IN [v0 V0]. destruct (fp_bare X p e W T TF IN) as (z & Z1 & Z2). destruct (bare_ok X e W T TF) as (z' & Z1' & Z3 & Z4).
rewrite (returns_same _ _ _ Z1' Z1) in *. clear z' Z1'. destruct (C21.C21_wid F z (ex_intro (fun r => mem r z) _ (Z2 _ V0))) as (w & Hw & ((_ & Hw2 & _) & _)).
exists z, w. split; [easy|]. split; [easy|]. intros v Hv D. specialize (Z2 v Hv). specialize (Z4 (fun i => B2R (p i)) IN D).
unfold Rabs. destruct Rcase_abs.
- apply Hw2. exists (val (fun i => B2R (p i)) e), (B2R v). split; [easy|]. split; [easy|lra].
- apply Hw2. exists (B2R v), (val (fun i => B2R (p i)) e). now split.
Qed.
Lemma fp_finite (p : fenv vf) {F} (e : expr vf F) v : (forall i, occurs i e = true -> is_finite (p i) = true) -> feval p e v -> is_finite v = true.
Proof.
destruct e; cbn [feval occurs]; intros FIN.
- intros ->. apply FIN. apply Nat.eqb_refl.
- intros (r & _ & _ & K & _); exact K.
- intros (r & s & _ & _ & _ & K & _); exact K.
- intros (r & s & t & _ & _ & _ & K & _); exact K.
- intros (r & _ & _ & K & _); exact K.
- intros (r & s & _ & _ & _ & K & _); exact K.
- intros (r & s & t & _ & _ & _ & K & _); exact K.
Qed.
End Err.
(** ** The operations of the hardware *)
Section Hw.
Context {F : fmt}.
Implicit Types x y z : float F.
Lemma hw_add m x y : is_finite x = true -> is_finite y = true -> is_finite (Bplus m x y) = true -> faithful (B2R x + B2R y) (Bplus m x y).
Proof. intros. apply (round_faithful m); [now apply radd_rnds|easy]. Qed.
Lemma hw_sub m x y : is_finite x = true -> is_finite y = true -> is_finite (Bminus m x y) = true -> faithful (B2R x - B2R y) (Bminus m x y).
Proof. intros. apply (round_faithful m); [now apply rsub_rnds|easy]. Qed.
Lemma hw_mul m x y : is_finite x = true -> is_finite y = true -> is_finite (Bmult m x y) = true -> faithful (B2R x * B2R y) (Bmult m x y).
Proof. intros. apply (round_faithful m); [now apply rmul_rnds|easy]. Qed.
Lemma hw_div m x y : is_finite x = true -> is_finite y = true -> B2R y <> 0 -> is_finite (Bdiv m x y) = true -> faithful (B2R x / B2R y) (Bdiv m x y).
Proof. intros. apply (round_faithful m); [now apply rdiv_rnds|easy]. Qed.
Lemma hw_fma m x y z : is_finite x = true -> is_finite y = true -> is_finite z = true -> is_finite (Bfma m x y z) = true -> faithful (B2R x * B2R y + B2R z) (Bfma m x y z).
Proof. intros. apply (round_faithful m); [now apply rfma_rnds|easy]. Qed.
Lemma hw_sqrt m x : is_finite x = true -> 0 <= B2R x -> is_finite (Bsqrt m x) = true -> faithful (R_sqrt.sqrt (B2R x)) (Bsqrt m x).
Proof. intros. apply (round_faithful m); [now apply rsqrt_rnds|easy]. Qed.
End Hw.
(** ** An invalid operation *)
Lemma fp_trv : exists (I : denv (fun _ => binary64)) (p : fenv (fun _ => binary64)) (e : expr (fun _ => binary64) binary64) z,
  (forall i, proper (I i)) /\ (forall i, mem (B2R (p i)) (parts I i)) /\ typed e /\ no_tan e /\
  returns (deval I e) z /\ snd z = trv /\ ~ never_invalid p e /\ ~ (exists v, feval p e v).
Proof.
assert (B0 : B2R (Ex.fl binary64 0 0) = 0) by Ex.b2r. assert (B1 : B2R (Ex.fl binary64 1 0) = 1) by Ex.b2r.
exists (fun _ => ((Ex.fl binary64 0 0, Ex.fl binary64 1 0), com)), (fun _ => Ex.fl binary64 0 0), (Un u_recip (@Var (fun _ => binary64) 0)), ((rdiv mode_DN f1 (Ex.fl binary64 1 0), finf), trv).
split; [intros i; split; [Ex.wf_tac|split; [unfold is_deco; simpl; tauto|easy]]|].
split; [intros i; apply Ex.mem_pt; [reflexivity..|]; cbn [fst snd parts]; lra|]. split; [easy|]. split; [cbn; easy|].
split; [intros s; vm_compute; reflexivity|]. split; [easy|]. split.
- intros [_ H]. apply (H (Ex.fl binary64 0 0)); [easy|exact B0].
- intros (v & r & -> & H & _). apply H. exact B0.
Qed.
