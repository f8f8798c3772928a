(** * Proofs: decorated and mixed-type reverse operations *)
From Coq Require Import ZArith NArith Reals Bool Lia Lra Psatz List Classical.
From Flocq Require Import Core.Core Calc.Operations IEEE754.BinarySingleNaN.
From Verif Require Import Fmt Spec FloatFacts Exc Deco SpecApi SpecElem SpecDeco SpecMixed SpecNum MBase PBase MBool MArith PArith PMul PFma PDiv PUnary
  PConv PBool PSetop MDec PCont PDec PDecF MNum PNumF MMixed PMixed MRev SpecRev PRev PMulRev PRevEven PPownRev3.

Local Open Scope R_scope.

(** ** Extended division *)
Lemma bb_intro {F G T} (b : itv F) (c : itv G) (z1 z2 : itv T) :
  (two_branches b c -> (exists t, mem t z1) /\ (exists t, mem t z2) /\
     tightest (fun t => rev_mul b c t /\ t < 0) z1 /\ tightest (fun t => rev_mul b c t /\ 0 < t) z2) ->
  (~ two_branches b c -> tightest (rev_mul b c) z1 /\ z2 = empty_rep) -> both_branches b c z1 z2.
Proof.
intros H1 H2. split; [|split; [|now split]]; destruct (classic (two_branches b c)) as [T1|T1].
- destruct (H1 T1) as (_ & _ & A & B). intros t Ht. destruct (Rtotal_order t 0) as [L|[->|L]].
  + left. now apply (proj1 (proj2 A)).
  + destruct Ht as (s & _ & H). rewrite Rmult_0_r in H. now destruct T1 as (_ & _ & _ & T1).
  + right. now apply (proj1 (proj2 B)).
- destruct (H2 T1) as [A _]. intros t Ht. left. now apply (proj1 (proj2 A)).
- destruct (H1 T1) as (_ & _ & A & B). intros t1 t2 M1 M2.
  assert (t1 <= 0).
  { apply (proj2 (proj2 A) (fminf, f0)) in M1; [now destruct M1|right; exists 0; split; cbn; [easy|lra]|].
    intros r [_ Hr]. split; cbn; [easy|lra]. }
  assert (0 <= t2).
  { apply (proj2 (proj2 B) (f0, finf)) in M2; [now destruct M2|right; exists 0; split; cbn; [lra|easy]|].
    intros r [_ Hr]. split; cbn; [lra|easy]. }
  lra.
- destruct (H2 T1) as [_ ->]. now intros t1 t2 _ [[] _].
Qed.
Lemma rev_mul_ext {F G W} (b : itv F) (c : itv G) (b' c' : itv W) :
  (forall r, mem r b' <-> mem r b) -> (forall r, mem r c' <-> mem r c) -> forall t, rev_mul b' c' t <-> rev_mul b c t.
Proof. intros Hb Hc t. split; intros (s & H1 & H2); exists s; split; first [now apply Hb|now apply Hc]. Qed.
Lemma two_ext {F G W} (b : itv F) (c : itv G) (b' c' : itv W) :
  (forall r, mem r b' <-> mem r b) -> (forall r, mem r c' <-> mem r c) -> two_branches b' c' <-> two_branches b c.
Proof.
intros Hb Hc. unfold two_branches. split; intros ((s & A1 & A2) & (s' & B1 & B2) & (r & C) & D);
(split; [exists s; split; [now apply Hb|easy]|]; split; [exists s'; split; [now apply Hb|easy]|];
 split; [exists r; now apply Hc|]; intros E; apply D; now apply Hc).
Qed.
Lemma bb_narrow {F G W} T (b : itv F) (c : itv G) (b' c' z1 z2 : itv W) : within T W ->
  (forall r, mem r b' <-> mem r b) -> (forall r, mem r c' <-> mem r c) ->
  wf z1 -> wf z2 -> both_branches b' c' z1 z2 -> both_branches b c (convert_hull T z1) (convert_hull T z2).
Proof.
intros HW Hb Hc W1 W2 (_ & _ & H1 & H2).
pose proof (rev_mul_ext b c b' c' Hb Hc) as RE. pose proof (two_ext b c b' c' Hb Hc) as TE.
apply bb_intro.
- intros T1. apply TE in T1. destruct (H1 T1) as ((t1 & N1) & (t2 & N2) & A & B).
  split; [exists t1; now apply (proj1 (proj2 (convert_hull_tightest T z1 W1)))|].
  split; [exists t2; now apply (proj1 (proj2 (convert_hull_tightest T z2 W2)))|]. split.
  + apply tightest_narrow; [easy|]. revert A. apply tightest_ext. intros t. now rewrite RE.
  + apply tightest_narrow; [easy|]. revert B. apply tightest_ext. intros t. now rewrite RE.
- intros T1. rewrite <- TE in T1. destruct (H2 T1) as [A ->]. split; [|reflexivity].
  apply tightest_narrow; [easy|]. revert A. apply tightest_ext. intros t. now rewrite RE.
Qed.
Lemma bb_wf {F G T} (b : itv F) (c : itv G) (z1 z2 : itv T) : both_branches b c z1 z2 -> wf z1 /\ wf z2.
Proof.
intros (_ & _ & H1 & H2). destruct (classic (two_branches b c)) as [T1|T1].
- destruct (H1 T1) as (_ & _ & A & B). split; [apply (proj1 A)|apply (proj1 B)].
- destruct (H2 T1) as (A & ->). split; [apply (proj1 A)|now left].
Qed.
Lemma mul_rev_to_pair_gives {F} (b c : itv F) : wf b -> wf c ->
  gives (mul_rev_to_pair b c) (fun z => both_branches b c (fst z) (snd z)).
Proof. intros Wb Wc. destruct (mul_rev_to_pair_ok b c Wb Wc) as (z1 & z2 & H1 & H2). now exists (z1, z2). Qed.
Lemma mul_rev_to_pair_mixed_ok {F G} T (b : itv F) (c : itv G) :
  comparable T F -> comparable T G -> comparable F G -> wf b -> wf c ->
  gives (mul_rev_to_pair_mixed T b c) (fun z => both_branches b c (fst z) (snd z)).
Proof.
intros C1 C2 C3 Wb Wc. destruct (within_pmax3 T F G C1 C2 C3) as (A & B & C).
set (W := pmax (pmax T F) G) in *.
destruct (mul_rev_to_pair_ok (convert_hull W b) (convert_hull W c) (wf_convert_hull W b Wb) (wf_convert_hull W c Wc)) as (z1 & z2 & H1 & H2).
apply returns_eq in H1. exists (convert_hull T z1, convert_hull T z2). split.
- apply returns_eq. unfold mul_rev_to_pair_mixed. cbv zeta. fold W. rewrite !is_valid_wf by easy. mreds. rewrite H1. now mreds.
- cbn [fst snd]. destruct (bb_wf _ _ _ _ H2). now apply bb_narrow with (6 := H2); try easy; apply convert_hull_exact.
Qed.

(** ** The decorated pair *)
Lemma wf_dec_trv {F} (z : itv F) : wf z -> wf_dec (z, trv).
Proof. intros [->|H]; [left|right]; cbn [fst snd]; [split; [easy|now right]|]. split; [easy|]. now split. Qed.

Lemma mul_rev_to_pair_dec_ok {F} (b c : ditv F) : wf_dec b -> is_deco (snd b) -> snd b <> ill ->
  wf_dec c -> is_deco (snd c) -> snd c <> ill ->
  gives (mul_rev_to_pair_dec b c) (pair_decorated b c).
Proof.
intros Wb Db Nb Wc Dc Nc. pose proof (wf_dec_wf b Wb) as W. pose proof (wf_dec_wf c Wc) as W'.
destruct (mul_rev_to_pair_ok (fst b) (fst c) W W') as (z1 & z2 & H1 & H2). apply returns_eq in H1.
destruct (bb_wf _ _ _ _ H2) as [Wz1 Wz2].
destruct (@member0 F b Wb) as (m & Hm & Em); [easy|].
destruct (local_smooth near2 (box2 (fst b) (fst c)) (fun p => fst p <> 0) (bounded_rep (fst b) /\ bounded_rep (fst c))
   (fun p => snd p / fst p) z1 m) as (d & D1 & D2); [easy| | |].
- intros -> _ p [M1 _] E. rewrite E in M1. apply Em in M1. easy.
- intros p Hp. apply cont_div; [exact near2_le|easy|apply cont_snd|apply cont_fst].
- pose proof (deco_cases _ Db Nb) as Ib. pose proof (deco_cases _ Dc Nc) as Ic.
  assert (Hc : dmin (snd b) (snd c) = com -> bounded_rep (fst b) /\ bounded_rep (fst c)).
  { intros E. destruct (dmin_com2 b c Wb Wc Db Dc E). split; now apply wf_dec_com. }
  assert (Hs : (exists r, mem r z1) -> exists p, box2 (fst b) (fst c) p).
  { intros Hn. assert (exists t, rev_mul (fst b) (fst c) t) as (t & s & M1 & M2); [|now exists (s, s * t)].
    destruct H2 as (_ & _ & A & B). destruct (classic (two_branches (fst b) (fst c))) as [T1|T1].
    - destruct (A T1) as (_ & _ & A1 & _). destruct (tight_seen _ _ A1 Hn) as (t & Ht & _). now exists t.
    - destruct (B T1) as (B1 & _). apply (tight_seen _ _ B1 Hn). }
  destruct (local_honest _ _ _ _ _ z1 d (dmin (snd b) (snd c)) Wz1 Hs (dmin_in _ _ Ib Ic) Hc D2) as (A1 & A2 & A3 & A4 & A5).
  exists ((z1, dmin (dmin (snd b) (snd c)) d), (z2, trv)). split.
  + apply returns_eq. unfold mul_rev_to_pair_dec. rewrite !is_valid_dec_wf, !is_nai_wf by easy. mreds.
    destruct (deq_spec (snd b) ill) as [E|_]; [easy|]. destruct (deq_spec (snd c) ill) as [E|_]; [easy|].
    mreds. rewrite H1. mreds. cbn [fst snd]. rewrite Hm. unfold t_cond in D1. rewrite D1. now mreds.
  + unfold pair_decorated. cbn [fst snd]. split; [easy|]. split; [easy|]. split; [easy|]. split; [easy|].
    split; [now apply wf_dec_trv|]. split; [easy|].
    assert ((dmin (snd b) (snd c) <= snd b)%N /\ (dmin (snd b) (snd c) <= snd c)%N) by (rewrite dmin_min; lia).
    split; [lia|]. split; [lia|]. exact A5.
Qed.
Lemma mul_rev_to_pair_dec_mixed_ok {F G} T (b : ditv F) (c : ditv G) :
  comparable T F -> comparable T G -> comparable F G -> wf_dec b -> is_deco (snd b) -> snd b <> ill ->
  wf_dec c -> is_deco (snd c) -> snd c <> ill ->
  gives (mul_rev_to_pair_dec_mixed T b c) (pair_decorated b c).
Proof.
intros C1 C2 C3 Wb Db Nb Wc Dc Nc. destruct (within_pmax3 T F G C1 C2 C3) as (A & B & C).
set (W := pmax (pmax T F) G) in *.
destruct (widen_dec W b B Wb Nb) as (E1 & E2 & E3 & E4).
destruct (widen_dec W c C Wc Nc) as (F1 & F2 & F3 & F4).
destruct (mul_rev_to_pair_dec_ok _ _ E2 Db Nb F2 Dc Nc) as ([y1 y2] & R1 & R2 & R3 & R4 & R5 & R6 & R7 & R8 & R9 & R10).
apply returns_eq in R1. cbn [fst snd] in *.
assert (H : honest near2 (box2 (fst b) (fst c)) (fun p => fst p <> 0) (bounded_rep (fst b) /\ bounded_rep (fst c))
   (fun p => snd p / fst p) (fst y1) (snd y1)).
{ revert R10. apply honest_ext; [intros p; unfold box2; now rewrite E3, F3|rewrite E4, F4; easy]. }
destruct (narrow_dec T _ _ _ _ _ y1 R3 R4 R5 H) as (v & V1 & V2 & V3 & V4 & V5 & V6 & V7).
exists (v, (convert_hull T (fst y2), trv)). split.
- apply returns_eq. unfold mul_rev_to_pair_dec_mixed. cbv zeta. fold W. rewrite !is_valid_dec_wf, !is_nai_wf by easy. mreds.
  destruct (deq_spec (snd b) ill) as [E|_]; [easy|]. destruct (deq_spec (snd c) ill) as [E|_]; [easy|].
  mreds. rewrite E1. mreds. rewrite F1. mreds. rewrite R1. mreds. cbn [fst snd]. rewrite V1. mreds.
  destruct y2 as [y2 d2]. cbn [fst snd] in *. subst d2. assert (E : convert_hull_dec T (y2, trv) = ret (convert_hull T y2, trv)).
  { unfold convert_hull_dec. rewrite is_nai_wf by easy. cbn [fst snd]. change (deq trv ill) with false. mreds. reflexivity. }
  rewrite E. now mreds.
- unfold pair_decorated. cbn [fst snd]. destruct (bb_wf _ _ _ _ R2).
  split. { rewrite V2. now apply bb_narrow with (6 := R2). }
  split; [easy|]. split; [easy|]. split; [easy|]. split; [apply wf_dec_trv, wf_convert_hull; now apply wf_dec_wf|]. split; [easy|].
  split; [lia|]. split; [lia|]. exact V7.
Qed.

(** ** Decoration trv *)
Lemma rev_dec2_ok {F G T} (op : itv F -> itv G -> M (itv T)) (P : itv T -> Prop) (c : ditv F) (x : ditv G) :
  wf_dec c -> snd c <> ill -> wf_dec x -> snd x <> ill -> (forall z, P z -> wf z) ->
  gives (op (fst c) (fst x)) P -> gives (rev_mixed_dec2 T op c x) (with_trv P).
Proof.
intros Wc Nc Wx Nx HP (z & H1 & H2). apply returns_eq in H1. exists (z, trv). split.
- apply returns_eq. unfold rev_mixed_dec2. rewrite !is_valid_dec_wf, !is_nai_wf by easy. mreds.
  destruct (deq_spec (snd c) ill) as [E|_]; [easy|]. destruct (deq_spec (snd x) ill) as [E|_]; [easy|].
  mreds. rewrite H1. now mreds.
- split; [easy|]. cbn [fst]. split; [|easy]. apply wf_dec_trv; auto.
Qed.
Lemma rev_dec3_ok {F G H T} (op : itv F -> itv G -> itv H -> M (itv T)) (P : itv T -> Prop) (b : ditv F) (c : ditv G) (x : ditv H) :
  wf_dec b -> snd b <> ill -> wf_dec c -> snd c <> ill -> wf_dec x -> snd x <> ill -> (forall z, P z -> wf z) ->
  gives (op (fst b) (fst c) (fst x)) P ->
  gives (mif (mnot (is_valid_dec b) ||| mnot (is_valid_dec c) ||| mnot (is_valid_dec x) ||| is_nai b ||| is_nai c ||| is_nai x) (ret nai)
    (bind (op (fst b) (fst c) (fst x)) (fun z => ret (z, trv))))%M (with_trv P).
Proof.
intros Wb Nb Wc Nc Wx Nx HP (z & H1 & H2). apply returns_eq in H1. exists (z, trv). split.
- apply returns_eq. rewrite !is_valid_dec_wf, !is_nai_wf by easy. mreds.
  destruct (deq_spec (snd b) ill) as [E|_]; [easy|].
  destruct (deq_spec (snd c) ill) as [E|_]; [easy|]. destruct (deq_spec (snd x) ill) as [E|_]; [easy|].
  mreds. rewrite H1. now mreds.
- split; [easy|]. cbn [fst]. split; [|easy]. apply wf_dec_trv; auto.
Qed.
Lemma tightest_wf {T} (S : R -> Prop) (z : itv T) : tightest S z -> wf z.
Proof. now intros []. Qed.
Lemma encl_wf {T} (S : R -> Prop) (z : itv T) : encl S z -> wf z.
Proof. now intros []. Qed.

(** ** Mixed types *)
Lemma rev_mixed2_ok {F G} T (op : forall W, itv W -> itv W -> M (itv W)) dom f (c : itv F) (x : itv G) :
  comparable T F -> comparable T G -> comparable F G -> wf c -> wf x ->
  (forall W (c x : itv W), wf c -> wf x -> computes_tightest (op W c x) (preimage dom f c x)) ->
  computes_tightest (rev_mixed2 T op c x) (preimage dom f c x).
Proof.
intros C1 C2 C3 Wc Wx Hop. destruct (within_pmax3 T F G C1 C2 C3) as (A & B & C).
unfold rev_mixed2. cbv zeta. set (W := pmax (pmax T F) G) in *. rewrite !is_valid_wf, !is_empty_wf by easy. mreds.
destruct (isnan (fst c)) eqn:Ec; mreds.
{ apply ct_empty. intros t (_ & _ & H). now apply nan_no_mem in H. }
destruct (isnan (fst x)) eqn:Ex; mreds.
{ apply ct_empty. intros t (H & _). now apply nan_no_mem in H. }
destruct (Hop W (convert_hull W c) (convert_hull W x) (wf_convert_hull W c Wc) (wf_convert_hull W x Wx)) as (z & H1 & H2).
apply returns_eq in H1. rewrite H1. mreds. exists (convert_hull T z). split; [now intros s|].
apply tightest_narrow; [easy|]. revert H2. apply tightest_ext. intros t. unfold preimage.
now rewrite (convert_hull_exact W c B Wc), (convert_hull_exact W x C Wx).
Qed.
Lemma finally_pown_mixed {F G} T (c : itv F) (x : itv G) p :
  comparable T F -> comparable T G -> comparable F G -> wf c -> wf x -> p <> int_min ->
  finally (fun fuel => pown_rev_mixed T fuel c x p) (encl (preimage (pown_dom p) (pownR p) c x)).
Proof.
intros C1 C2 C3 Wc Wx NP. destruct (within_pmax3 T F G C1 C2 C3) as (A & B & C).
unfold pown_rev_mixed, rev_mixed2. cbv zeta. set (W := pmax (pmax T F) G) in *.
destruct (isnan (fst c)) eqn:Ec.
{ exists empty, 0%nat. split; [intros fuel _; apply returns_eq; rewrite !is_valid_wf, !is_empty_wf by easy; mreds; rewrite Ec; now mreds|].
  split; [now left|]. intros t (_ & _ & H). now apply nan_no_mem in H. }
destruct (isnan (fst x)) eqn:Ex.
{ exists empty, 0%nat. split; [intros fuel _; apply returns_eq; rewrite !is_valid_wf, !is_empty_wf by easy; mreds; rewrite Ec, Ex; now mreds|].
  split; [now left|]. intros t (H & _). now apply nan_no_mem in H. }
destruct (pown_rev_encl (convert_hull W c) (convert_hull W x) p (wf_convert_hull W c Wc) (wf_convert_hull W x Wx) NP) as (z & k & H1 & H2 & H3).
exists (convert_hull T z), k. split.
- intros fuel L. apply returns_eq. specialize (H1 fuel L). apply returns_eq in H1.
  rewrite !is_valid_wf, !is_empty_wf by easy. mreds. rewrite Ec, Ex. mreds. rewrite H1. now mreds.
- apply encloses_narrow; [easy|]. intros t (M1 & M2 & M3). apply H3. split; [now apply convert_hull_exact|].
  split; [easy|]. now apply convert_hull_exact.
Qed.
Lemma finally_pown {F} (c x : itv F) p : wf c -> wf x -> p <> int_min ->
  finally (fun fuel => pown_rev fuel c x p) (encl (preimage (pown_dom p) (pownR p) c x)).
Proof. exact (pown_rev_encl c x p). Qed.
Lemma finally_dec2 {F G T} (op : nat -> itv F -> itv G -> M (itv T)) (P : itv T -> Prop) (c : ditv F) (x : ditv G) :
  wf_dec c -> snd c <> ill -> wf_dec x -> snd x <> ill -> (forall z, P z -> wf z) ->
  finally (fun fuel => op fuel (fst c) (fst x)) P -> finally (fun fuel => rev_mixed_dec2 T (op fuel) c x) (with_trv P).
Proof.
intros Wc Nc Wx Nx HP (z & k & H1 & H2). exists (z, trv), k. split.
- intros fuel L. specialize (H1 fuel L). apply returns_eq in H1.
  apply returns_eq. unfold rev_mixed_dec2. rewrite !is_valid_dec_wf, !is_nai_wf by easy. mreds.
  destruct (deq_spec (snd c) ill) as [E|_]; [easy|]. destruct (deq_spec (snd x) ill) as [E|_]; [easy|].
  mreds. rewrite H1. now mreds.
- split; [easy|]. cbn [fst]. split; [|easy]. apply wf_dec_trv; auto.
Qed.

Lemma mul_rev_mixed_encl {F G H} T (b : itv F) (c : itv G) (x : itv H) :
  comparable T F -> comparable T G -> comparable F G -> comparable T H -> comparable F H -> comparable G H ->
  wf b -> wf c -> wf x ->
  computes_enclosure (mul_rev_mixed T b c x) (fun t => rev_mul b c t /\ mem t x).
Proof.
intros C1 C2 C3 C4 C5 C6 Wb Wc Wx. destruct (within_pmax4 T F G H C1 C2 C3 C4 C5 C6) as (A & B & C & D).
set (W := pmax (pmax (pmax T F) G) H) in *.
destruct (mul_rev_encl (convert_hull W b) (convert_hull W c) (convert_hull W x) (wf_convert_hull W b Wb) (wf_convert_hull W c Wc)
  (wf_convert_hull W x Wx)) as (z & H1 & H2 & H3).
exists (convert_hull T z). split.
- apply returns_eq. apply mixed3_ret; try easy. now apply returns_eq.
- apply encloses_narrow; [easy|]. intros t [(s & M1 & M2) M3]. apply H3. split; [exists s; split|]; now apply convert_hull_exact.
Qed.
Lemma mul_rev_mixed_tight {F G H} T (b : itv F) (c : itv G) (x : itv H) :
  comparable T F -> comparable T G -> comparable F G -> comparable T H -> comparable F H -> comparable G H ->
  wf b -> wf c -> wf x -> bounded_rep b ->
  computes_tightest (mul_rev_mixed T b c x) (fun t => rev_mul b c t /\ mem t x).
Proof.
intros C1 C2 C3 C4 C5 C6 Wb Wc Wx Bb. destruct (within_pmax4 T F G H C1 C2 C3 C4 C5 C6) as (A & B & C & D).
set (W := pmax (pmax (pmax T F) G) H) in *.
assert (Bb' : bounded_rep (convert_hull W b)).
{ destruct (classic (isnan (fst b) = true)) as [E|E].
  - exfalso. destruct Bb as [Bb _]. destruct (fst b); easy.
  - assert (Wd : wf_dec (b, dac)).
    { right. cbn [fst snd]. split; [apply wf_nonnan; [easy|]; now destruct isnan|]. now split. }
    apply (proj2 (proj2 (proj2 (widen_dec W (b, dac) B Wd ltac:(easy))))). exact Bb. }
destruct (mul_rev_tight (convert_hull W b) (convert_hull W c) (convert_hull W x) (wf_convert_hull W b Wb) (wf_convert_hull W c Wc)
  (wf_convert_hull W x Wx) (or_introl Bb')) as (z & H1 & H2).
exists (convert_hull T z). split.
- apply returns_eq. apply mixed3_ret; try easy. now apply returns_eq.
- apply tightest_narrow; [easy|]. revert H2. apply tightest_ext. intros t.
  rewrite (convert_hull_exact W x D Wx). now rewrite (rev_mul_ext b c _ _ (convert_hull_exact W b B Wb) (convert_hull_exact W c C Wc)).
Qed.

(** ** Without [x] *)
Lemma ent {F} r : mem r (@entire F).
Proof. now split. Qed.
Lemma pre_entire {F} dom f (c : itv F) t : preimage dom f c (@entire F) t <-> dom t /\ mem (f t) c.
Proof. unfold preimage. split; [tauto|]. intros H. split; [apply ent|easy]. Qed.
Lemma ct_entire {F} (m : M (itv F)) f (c : itv F) : computes_tightest m (preimage everywhere f c (@entire F)) ->
  computes_tightest m (fun t => mem (f t) c).
Proof. apply ct_ext. intros t. rewrite pre_entire. unfold everywhere. tauto. Qed.
Lemma entire_dec_wf {F} : wf_dec (@entire_dec F).
Proof. right. cbn [fst snd entire_dec]. split; [exists 0; now split|]. now split. Qed.
Lemma ct_gives {F} (m : M (itv F)) S : computes_tightest m S -> gives m (tightest S).
Proof. exact (fun H => H). Qed.

Lemma sqr_rev1_tight {F} (c : itv F) : wf c -> computes_tightest (sqr_rev1 c) (fun t => mem (t * t) c).
Proof. intros W. apply (ct_entire _ (fun t => t * t)). apply sqr_rev_tight; [easy|apply wf_entire]. Qed.
Lemma abs_rev1_tight {F} (c : itv F) : wf c -> computes_tightest (abs_rev1 c) (fun t => mem (Rabs t) c).
Proof. intros W. apply ct_entire. apply abs_rev_tight; [easy|apply wf_entire]. Qed.
Lemma cosh_rev1_tight {F} (c : itv F) : wf c -> computes_tightest (cosh_rev1 c) (fun t => mem (cosh t) c).
Proof. intros W. apply ct_entire. apply cosh_rev_tight; [easy|apply wf_entire]. Qed.
Lemma pown_rev1_encl {F} (c : itv F) p : wf c -> p <> int_min ->
  finally (fun fuel => pown_rev1 fuel c p) (encl (fun t => pown_dom p t /\ mem (pownR p t) c)).
Proof.
intros W N. destruct (finally_pown c (@entire F) p W wf_entire N) as (z & k & H1 & H2 & H3). exists z, k.
split; [exact H1|]. split; [easy|]. intros t Ht. apply H3. now apply pre_entire.
Qed.
Lemma mul_rev2_tight {F} (b c : itv F) : wf b -> wf c -> computes_tightest (mul_rev2 b c) (rev_mul b c).
Proof.
intros Wb Wc. eapply ct_ext; [|apply mul_rev_tight; [easy|easy|apply wf_entire|]].
- intros t. split; [tauto|]. intros H. split; [easy|apply ent].
- right. now split.
Qed.

(** ** Decorated, same type *)
Section Dec.
Context {F : fmt}.
Implicit Types b c x : ditv F.
Lemma rev_dec2_tight (op : itv F -> itv F -> M (itv F)) dom f c x :
  (forall c x : itv F, wf c -> wf x -> computes_tightest (op c x) (preimage dom f c x)) ->
  wf_dec c -> snd c <> ill -> wf_dec x -> snd x <> ill ->
  gives (rev_dec2 op c x) (with_trv (tightest (preimage dom f (fst c) (fst x)))).
Proof.
intros H Wc Nc Wx Nx. apply (rev_dec2_ok op _ c x Wc Nc Wx Nx (tightest_wf _)).
apply H; now apply wf_dec_wf.
Qed.
Lemma trv_ext (m : M (ditv F)) (P Q : itv F -> Prop) : (forall z, P z -> Q z) -> gives m (with_trv P) -> gives m (with_trv Q).
Proof. intros H (z & H1 & H2 & H3 & H4). exists z. split; [easy|]. split; [easy|]. auto. Qed.
Lemma rev_dec1_tight (op : itv F -> itv F -> M (itv F)) f c :
  (forall c x : itv F, wf c -> wf x -> computes_tightest (op c x) (preimage everywhere f c x)) ->
  wf_dec c -> snd c <> ill ->
  gives (rev_dec2 op c entire_dec) (with_trv (tightest (fun t => mem (f t) (fst c)))).
Proof.
intros H Wc Nc. eapply trv_ext; [|apply (rev_dec2_tight op everywhere f c entire_dec H Wc Nc entire_dec_wf ltac:(easy))].
intros z. apply tightest_ext. intros t. cbn [fst entire_dec].
change (fminf, finf) with (@entire F). rewrite pre_entire. unfold everywhere. tauto.
Qed.
Lemma pown_rev_dec_encl c x p : wf_dec c -> snd c <> ill -> wf_dec x -> snd x <> ill -> p <> int_min ->
  finally (fun fuel => pown_rev_dec fuel c x p) (with_trv (encl (preimage (pown_dom p) (pownR p) (fst c) (fst x)))).
Proof.
intros Wc Nc Wx Nx N. apply (finally_dec2 (fun fuel (c x : itv F) => pown_rev fuel c x p) _ c x Wc Nc Wx Nx (encl_wf _)).
apply finally_pown; [now apply wf_dec_wf..|easy].
Qed.
Lemma mul_rev_dec_encl b c x : wf_dec b -> snd b <> ill -> wf_dec c -> snd c <> ill -> wf_dec x -> snd x <> ill ->
  gives (mul_rev_dec b c x) (with_trv (encl (fun t => rev_mul (fst b) (fst c) t /\ mem t (fst x)))).
Proof.
intros Wb Nb Wc Nc Wx Nx. apply (rev_dec3_ok mul_rev _ b c x Wb Nb Wc Nc Wx Nx (encl_wf _)).
apply mul_rev_encl; now apply wf_dec_wf.
Qed.
Lemma mul_rev_dec_tight b c x : wf_dec b -> snd b <> ill -> wf_dec c -> snd c <> ill -> wf_dec x -> snd x <> ill ->
  bounded_rep (fst b) ->
  gives (mul_rev_dec b c x) (with_trv (tightest (fun t => rev_mul (fst b) (fst c) t /\ mem t (fst x)))).
Proof.
intros Wb Nb Wc Nc Wx Nx B. apply (rev_dec3_ok mul_rev _ b c x Wb Nb Wc Nc Wx Nx (tightest_wf _)).
apply mul_rev_tight; [now apply wf_dec_wf..|now left].
Qed.
Lemma mul_rev2_dec_tight b c : wf_dec b -> snd b <> ill -> wf_dec c -> snd c <> ill ->
  gives (mul_rev2_dec b c) (with_trv (tightest (rev_mul (fst b) (fst c)))).
Proof.
intros Wb Nb Wc Nc. apply (rev_dec3_ok mul_rev _ b c entire_dec Wb Nb Wc Nc entire_dec_wf ltac:(easy) (tightest_wf _)).
apply mul_rev2_tight; now apply wf_dec_wf.
Qed.
End Dec.
Lemma rev_mixed_dec2_tight {F G} T (op : itv F -> itv G -> M (itv T)) dom f (c : ditv F) (x : ditv G) :
  (forall c x, wf c -> wf x -> computes_tightest (op c x) (preimage dom f c x)) ->
  wf_dec c -> snd c <> ill -> wf_dec x -> snd x <> ill ->
  gives (rev_mixed_dec2 T op c x) (with_trv (tightest (preimage dom f (fst c) (fst x)))).
Proof.
intros H Wc Nc Wx Nx. apply (rev_dec2_ok op _ c x Wc Nc Wx Nx (tightest_wf _)).
apply H; now apply wf_dec_wf.
Qed.
Lemma mul_rev_dec_mixed_encl {F G H} T (b : ditv F) (c : ditv G) (x : ditv H) :
  comparable T F -> comparable T G -> comparable F G -> comparable T H -> comparable F H -> comparable G H ->
  wf_dec b -> snd b <> ill -> wf_dec c -> snd c <> ill -> wf_dec x -> snd x <> ill ->
  gives (mul_rev_dec_mixed T b c x) (with_trv (encl (fun t => rev_mul (fst b) (fst c) t /\ mem t (fst x)))).
Proof.
intros C1 C2 C3 C4 C5 C6 Wb Nb Wc Nc Wx Nx. apply (rev_dec3_ok (mul_rev_mixed T) _ b c x Wb Nb Wc Nc Wx Nx (encl_wf _)).
apply mul_rev_mixed_encl; try easy; now apply wf_dec_wf.
Qed.
Lemma pown_rev_dec_mixed_encl {F G} T (c : ditv F) (x : ditv G) p :
  comparable T F -> comparable T G -> comparable F G ->
  wf_dec c -> snd c <> ill -> wf_dec x -> snd x <> ill -> p <> int_min ->
  finally (fun fuel => pown_rev_dec_mixed T fuel c x p) (with_trv (encl (preimage (pown_dom p) (pownR p) (fst c) (fst x)))).
Proof.
intros C1 C2 C3 Wc Nc Wx Nx N. apply (finally_dec2 (fun fuel (c : itv F) (x : itv G) => pown_rev_mixed T fuel c x p) _ c x Wc Nc Wx Nx (encl_wf _)).
apply finally_pown_mixed; try easy; now apply wf_dec_wf.
Qed.
