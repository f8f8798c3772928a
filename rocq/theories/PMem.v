(** * Proofs: memory of mpfr_var, get_str and the reductions *)
From Coq Require Import List Arith Bool Lia.
From Verif Require Import MMem SpecMem.
Import ListNotations.
Local Open Scope p_scope.

Lemma put_same h a b : cont (put h a b) a = b.
Proof. cbn. now rewrite Nat.eqb_refl. Qed.
Lemma put_other h a b x : x <> a -> cont (put h a b) x = cont h x.
Proof. intros H. cbn. now apply Nat.eqb_neq in H as ->. Qed.
Lemma fresh_put h a b : a < brk h -> fresh h -> fresh (put h a b).
Proof. intros H F x Hx. cbn in Hx. rewrite put_other by lia. now apply F. Qed.
Lemma live_lt h a b : fresh h -> cont h a = Some b -> a < brk h.
Proof. intros F H. destruct (le_lt_dec (brk h) a) as [L|]; [|easy]. apply F in L. congruence. Qed.

Section Mem.
Context (avail : nat -> bool).

(** ** Balanced programs *)
Ltac four := split; [|split; [|split]].
(** Stronger than [balanced], for composition. *)
Definition keeps {A} (m : P A) (h : heap) : Prop :=
  fst (m h) <> Undef /\ brk h <= brk (snd (m h)) /\ fresh (snd (m h)) /\ (fst (m h) <> Abort -> same_blocks h (snd (m h))).
Lemma keeps_balanced {A} (m : P A) h : keeps m h -> balanced m h.
Proof. intros (U & B & F & S). now split. Qed.
Lemma keeps_ret {A} (a : A) h : fresh h -> keeps (pret a) h.
Proof. intros F. four; cbn; auto; easy. Qed.
Lemma keeps_bind {A B} (m : P A) (f : A -> P B) h : keeps m h ->
  (forall a h', fresh h' -> brk h <= brk h' -> same_blocks h h' -> keeps (f a) h') -> keeps (pbind m f) h.
Proof.
intros (U & L & F & S) K. unfold keeps, pbind. destruct (m h) as [[a| | |] h']; cbn [fst snd] in *.
2,3,4: four; try easy; intros _; apply S; easy.
destruct (K a h' F L) as (U1 & L1 & F1 & S1). { apply S. easy. }
four; [easy|lia|easy|]. intros N x. rewrite (S1 N). apply S. easy.
Qed.
Lemma keeps_use l h : fresh h -> cont h l = Some Limb -> keeps (use l) h.
Proof. intros F H. unfold keeps, use. rewrite H. four; cbn; auto; easy. Qed.
Lemma keeps_use_chars l h : fresh h -> cont h l = Some Chars -> keeps (use_chars l) h.
Proof. intros F H. unfold keeps, use_chars. rewrite H. four; cbn; auto; easy. Qed.

(** The heap with the next address holding [b]. *)
Definition grown (h : heap) (b : blk) : heap := put (Heap (S (brk h)) (cont h)) (brk h) (Some b).
Lemma fresh_grown h b : fresh h -> fresh (grown h b).
Proof. intros F x Hx. cbn in Hx. unfold grown. rewrite put_other by lia. cbn. apply F. lia. Qed.
Lemma fresh_next h : fresh h -> fresh (Heap (S (brk h)) (cont h)).
Proof. intros F x Hx. cbn in *. apply F. lia. Qed.

(** A block that the body keeps and the destructor removes. *)
Lemma keeps_guard {A} (b : blk) (body : P A) (destroy : P unit) h : fresh h ->
  (forall h', cont h' (brk h) = Some b -> destroy h' = (Done tt, put h' (brk h) None)) ->
  keeps body (grown h b) ->
  let r := guard body destroy (grown h b) in
  fst r <> Undef /\ brk h <= brk (snd r) /\ fresh (snd r) /\ (fst r <> Abort -> same_blocks h (snd r)).
Proof.
intros F D (U & L & F1 & S). cbv zeta. unfold guard. destruct (body (grown h b)) as [[a| | |] h'] eqn:E; cbn [fst snd] in *; try easy.
- assert (H : cont h' (brk h) = Some b). { rewrite S by easy. apply put_same. }
  unfold pbind, pret. rewrite (D h' H). cbn [fst snd]. four; [easy|cbn in *; lia| |].
  + apply fresh_put; [|easy]. cbn in L. lia.
  + intros _ x. destruct (Nat.eq_dec x (brk h)) as [->|N].
    * rewrite put_same. symmetry. now apply F.
    * rewrite put_other by easy. rewrite S by easy. unfold grown. now rewrite put_other.
- assert (H : cont h' (brk h) = Some b). { rewrite S by easy. apply put_same. }
  rewrite (D h' H). cbn [fst snd]. four; [easy|cbn in *; lia| |].
  + apply fresh_put; [|easy]. cbn in L. lia.
  + intros _ x. destruct (Nat.eq_dec x (brk h)) as [->|N].
    * rewrite put_same. symmetry. now apply F.
    * rewrite put_other by easy. rewrite S by easy. unfold grown. now rewrite put_other.
- four; try easy. cbn in L. lia.
Qed.
Lemma keeps_with_var {A} (body : nat -> P A) h : fresh h -> keeps (body (brk h)) (grown h Limb) -> keeps (with_var avail body) h.
Proof.
intros F K. unfold keeps, with_var, pbind at 1 2 3 4 5, init2, request. destruct (avail (brk h)); cbn [fst snd].
- apply (keeps_guard Limb); [easy| |easy]. intros h' H. unfold clear. now rewrite H.
- four; cbn; try easy; [lia|now apply fresh_next].
Qed.
Lemma keeps_with_chars {A} (body : nat -> P A) h : fresh h -> keeps (body (brk h)) (grown h Chars) ->
  keeps (data <- new_block avail Chars; guard (body data) (delete_chars data)) h.
Proof.
intros F K. unfold keeps, pbind at 1 2 3 4 5, new_block, request. destruct (avail (brk h)); cbn [fst snd].
- apply (keeps_guard Chars); [easy| |easy]. intros h' H. unfold delete_chars. now rewrite H.
- four; cbn; try easy; [lia|now apply fresh_next].
Qed.

Ltac cells := unfold same_blocks, grown in *; cbn in *;
  repeat first [solve [congruence|easy] | rewrite Nat.eqb_refl | rewrite (proj2 (Nat.eqb_neq _ _)) by lia
    | match goal with S : forall a, cont ?h a = _ |- context [cont ?h _] => rewrite S; clear S end].
Ltac fr := auto 20 using fresh_grown, fresh_next.
Lemma uses_keeps vs : forall h, fresh h -> Forall (fun v => cont h v = Some Limb) vs -> keeps (uses vs) h.
Proof.
induction vs as [|v vs IH]; intros h F H; [now apply keeps_ret|]. inversion H as [|x y H1 H2]; subst. cbn [uses].
apply keeps_bind; [now apply keeps_use|]. intros _ h' F' _ S. apply IH; [easy|].
apply Forall_impl with (2 := H2). intros a. now rewrite S.
Qed.
Lemma flavor_keeps k : forall vs h, fresh h -> Forall (fun v => cont h v = Some Limb) vs -> keeps (flavor_mem avail k vs) h.
Proof.
induction k as [|k IH]; intros vs h F H; [now apply uses_keeps|]. cbn [flavor_mem]. apply keeps_with_var; [easy|].
apply IH; [now apply fresh_grown|]. constructor; [apply put_same|]. apply Forall_impl with (2 := H). intros a E.
unfold grown. rewrite put_other; [easy|]. assert (a < brk h) by now apply (live_lt _ _ _ F E). lia.
Qed.
Lemma two_sum_keeps h : fresh h -> keeps (two_sum_mem avail) h.
Proof.
intros F. unfold two_sum_mem. do 5 (apply keeps_with_var; [fr|]).
repeat (apply keeps_bind; [apply keeps_use; [fr|cells]|intros ? ? ? ? ?]).
apply keeps_use; [fr|cells].
Qed.
Lemma get_str_keeps vars copied var h : fresh h -> cont h var = Some Limb -> keeps (get_str_mem avail vars copied var) h.
Proof.
intros F H. pose proof (live_lt _ _ _ F H) as L. unfold get_str_mem. apply keeps_bind.
- destruct vars as [|[|v]].
  1,3: do 2 (apply keeps_with_var; [fr|]); repeat (apply keeps_bind; [apply keeps_use; [fr|cells]|intros ? ? ? ? ?]); apply keeps_use; [fr|cells].
  apply keeps_with_var; [fr|]. apply keeps_bind; [apply keeps_use; [fr|cells]|intros ? ? ? ? ?]. apply keeps_use; [fr|cells].
- intros _ h' F' L' S. apply (keeps_with_chars (fun data => use var ;; use_chars data ;; fun h => (if copied then Done tt else Thrown, h))); [easy|].
  apply keeps_bind; [apply keeps_use; [fr|cells]|intros ? ? ? ? ?]. apply keeps_bind; [apply keeps_use_chars; [fr|cells]|intros ? ? ? ? ?].
  destruct copied; four; cbn; auto; easy.
Qed.

(** ** The reductions *)
(** What holds when a program returns; it is never undefined. *)
Definition wp {A} (m : P A) (h : heap) (Q : A -> heap -> Prop) : Prop :=
  match m h with (Done a, h') => Q a h' | (Undef, _) => False | _ => True end.
Lemma wp_bind {A B} (m : P A) (f : A -> P B) h Q : wp m h (fun a h' => wp (f a) h' Q) -> wp (pbind m f) h Q.
Proof. unfold wp, pbind. now destruct (m h) as [[a| | |] h']. Qed.
Lemma wp_mono {A} (m : P A) h (Q Q' : A -> heap -> Prop) : (forall a h', Q a h' -> Q' a h') -> wp m h Q -> wp m h Q'.
Proof. intros H. unfold wp. destruct (m h) as [[a| | |] h']; auto. Qed.
Lemma wp_request f b h (Q : nat -> heap -> Prop) : f <> Undef -> (forall a, f <> Done a) -> Q (brk h) (grown h b) -> wp (request avail f b) h Q.
Proof. intros U D H. unfold wp, request. destruct (avail (brk h)); [exact H|]. destruct f as [a| | |]; try easy. now destruct (D a). Qed.
Lemma wp_keeps {A} (m : P A) h (Q : A -> heap -> Prop) : keeps m h -> (forall a h', fresh h' -> same_blocks h h' -> Q a h') -> wp m h Q.
Proof. intros (U & L & F & S) H. unfold wp. destruct (m h) as [[a| | |] h']; cbn in *; auto. apply H; [easy|]. now apply S. Qed.
Lemma keeps_reads {A} (m : P A) a h : fresh h -> m h = (Done a, h) -> keeps m h.
Proof. intros F E. unfold keeps. rewrite E. four; cbn; auto; easy. Qed.

Definition owned (t : nat) (pl : list (nat * nat)) : list nat := t :: map fst pl ++ map snd pl.
Definition inv (h0 : heap) (t n : nat) (pl : list (nat * nat)) (h : heap) : Prop :=
  fresh h /\ NoDup (owned t pl) /\ (forall a, In a (owned t pl) -> brk h0 <= a) /\ length pl <= n /\
  cont h t = Some (Tab (map (fun e => Some (fst e)) pl ++ repeat None (n - length pl))) /\
  (forall p l, In (p, l) pl -> cont h p = Some (Obj (Some l)) /\ cont h l = Some Limb) /\
  (forall a, ~ In a (owned t pl) -> cont h a = cont h0 a).

Lemma upd_app {A} (l : list A) x y r : upd (length l) y (l ++ x :: r) = l ++ y :: r.
Proof. induction l as [|z l IH]; [easy|]. cbn. now rewrite IH. Qed.
Lemma nth_app {A} (l : list A) y r : nth_error (l ++ y :: r) (length l) = Some y.
Proof. induction l as [|z l IH]; [easy|]. exact IH. Qed.

Lemma elem_op_ok two h0 t n pl h : inv h0 t n pl h -> length pl < n ->
  wp (elem_op avail two t (length pl)) h (fun _ h' => exists e, inv h0 t n (pl ++ [e]) h').
Proof.
intros (F & ND & B & L & T & O & K) N.
assert (Lt : t < brk h) by now apply (live_lt _ _ _ F T).
assert (Own : forall a, In a (owned t pl) -> a < brk h).
{ intros a [<-|H]; [easy|]. apply in_app_iff in H as [H|H]; apply in_map_iff in H as ([p l] & <- & H); destruct (O _ _ H) as [O1 O2];
  eapply live_lt; eauto. }
assert (EN : n - length pl = S (n - S (length pl))) by lia.
set (m := n - S (length pl)) in *. rewrite EN in T. cbn [repeat] in T.
set (c := map (fun e : nat * nat => Some (fst e)) pl) in *.
assert (Lc : length c = length pl) by apply map_length.
set (p := brk h). 
unfold elem_op. apply wp_bind, wp_request; try easy.
apply wp_bind. fold p. unfold wp at 1, store.
assert (T1 : cont (grown h (Obj None)) t = Some (Tab (c ++ None :: repeat None m))).
{ unfold grown. rewrite put_other by lia. exact T. }
rewrite T1. rewrite app_length. cbn [length]. rewrite Lc, (proj2 (Nat.ltb_lt _ _)) by lia.
rewrite <- Lc, upd_app, Lc.
set (h1 := put (grown h (Obj None)) t (Some (Tab (c ++ Some p :: repeat None m)))).
assert (LD : forall h', cont h' t = Some (Tab (c ++ Some p :: repeat None m)) -> load t (length pl) h' = (Done p, h')).
{ intros h' E. unfold load. rewrite E, <- Lc, nth_app. easy. }
apply wp_bind. unfold wp at 1. rewrite LD by (unfold h1; now rewrite put_same).
apply wp_bind. unfold init2_at. apply wp_bind, wp_request; try easy.
change (brk h1) with (S p). set (h2 := grown h1 Limb).
assert (C2 : cont h2 p = Some (Obj None)).
{ unfold h2, grown. rewrite put_other by (cbn; lia). cbn [cont]. unfold h1. rewrite put_other by (unfold p; lia). apply put_same. }
unfold wp at 1. rewrite C2. set (h3 := put h2 p (Some (Obj (Some (S p))))).
assert (T3 : cont h3 t = Some (Tab (c ++ Some p :: repeat None m))).
{ unfold h3. rewrite put_other by (unfold p; lia). unfold h2, grown. rewrite put_other by (cbn; lia). cbn [cont]. apply put_same. }
assert (P3 : cont h3 p = Some (Obj (Some (S p)))) by apply put_same.
assert (L3 : cont h3 (S p) = Some Limb).
{ unfold h3. rewrite put_other by lia. unfold h2. change (S p) with (brk h1). apply put_same. }
assert (F3 : fresh h3).
{ apply fresh_put. { cbn. unfold p. lia. } apply fresh_grown. apply fresh_put; [cbn; lia|]. now apply fresh_grown. }
assert (B3 : brk h3 = S (S p)) by reflexivity.
assert (I3 : forall h', fresh h' -> same_blocks h3 h' -> exists e, inv h0 t n (pl ++ [e]) h').
{ intros h' F' SB. exists (p, S p).
  assert (OW : forall a, In a (owned t (pl ++ [(p, S p)])) <-> In a (owned t pl) \/ a = p \/ a = S p).
  { intros a. unfold owned. rewrite !map_app. cbn. rewrite !in_app_iff. cbn. intuition. }
  split; [easy|]. split.
  { unfold owned. rewrite !map_app. cbn [map fst snd]. rewrite <- app_assoc. cbn [app].
    change (t :: map fst pl ++ p :: map snd pl ++ [S p]) with ((t :: map fst pl) ++ p :: (map snd pl ++ [S p])).
    apply NoDup_Add with (1 := Add_app p (t :: map fst pl) (map snd pl ++ [S p])). split.
    - rewrite app_assoc. apply NoDup_Add with (a := S p) (l := (t :: map fst pl) ++ map snd pl).
      + rewrite <- (app_nil_r (((t :: map fst pl) ++ map snd pl))) at 1. apply Add_app.
      + split; [exact ND|]. intros H. apply Own in H. unfold p in H. lia.
    - rewrite app_assoc, in_app_iff. intros [H|[H|[]]]; [|lia]. apply Own in H. unfold p in H. lia. }
  split. { intros a H. apply OW in H as [H|H]; [now apply B|]. assert (brk h0 <= t) by (apply B; now left). unfold p in H. lia. }
  rewrite app_length. cbn [length]. split; [lia|]. replace (n - (length pl + 1)) with m by (unfold m; lia).
  split. { rewrite SB, T3, map_app, <- app_assoc. reflexivity. }
  split.
  { intros q l H. apply in_app_iff in H as [H|[H|[]]].
    - destruct (O q l H) as [O1 O2]. assert (q < p) by (apply (live_lt _ _ _ F O1)). assert (l < p) by (apply (live_lt _ _ _ F O2)).
      assert (q <> t) by congruence. assert (l <> t) by congruence.
      rewrite !SB. unfold h3, h2, grown, h1. rewrite !put_other by (cbn; lia). cbn [cont]. rewrite !put_other by (cbn; lia). unfold grown. rewrite !put_other by (unfold p in *; lia). easy.
    - injection H as <- <-. now rewrite !SB. }
  intros a H. assert (NI : ~ In a (owned t pl) /\ a <> p /\ a <> S p) by (rewrite OW in H; tauto). destruct NI as (NI & N1 & N2).
  assert (N3 : a <> t) by (intros ->; apply NI; now left).
  rewrite SB. unfold h3, h2, grown, h1. rewrite !put_other by (cbn; lia). cbn [cont]. rewrite !put_other by (cbn; lia). unfold grown. rewrite !put_other by (unfold p in *; lia).
  now apply K. }
assert (UA : forall h', cont h' p = Some (Obj (Some (S p))) -> cont h' (S p) = Some Limb -> use_at p h' = (Done tt, h')).
{ intros h' E1 E2. unfold use_at, pbind, limbs_at. rewrite E1. unfold use. now rewrite E2. }
assert (RD : forall h', fresh h' -> cont h' t = Some (Tab (c ++ Some p :: repeat None m)) ->
  cont h' p = Some (Obj (Some (S p))) -> cont h' (S p) = Some Limb -> keeps (q <- load t (length pl); use_at q) h').
{ intros h' F' E0 E1 E2. apply keeps_reads with tt; [easy|]. unfold pbind. rewrite LD by easy. now apply UA. }
apply wp_keeps; [|intros _ h' F' SB; now apply I3].
assert (p <> t) by (unfold p; lia).
destruct two.
- do 2 (apply keeps_with_var; [fr|]). do 2 (apply keeps_bind; [apply keeps_use; [fr|cells]|intros ? ? ? ? ?]). apply RD; cells.
- apply keeps_with_var; [fr|]. apply keeps_bind; [apply keeps_use; [fr|cells]|intros ? ? ? ? ?]. apply RD; cells.
Qed.
Lemma elem_ops_ok two h0 t n k : forall pl h, inv h0 t n pl h -> length pl + k = n ->
  wp (elem_ops avail two t (length pl) k) h (fun _ h' => exists pl', inv h0 t n pl' h' /\ length pl' = n).
Proof.
induction k as [|k IH]; intros pl h I E; cbn [elem_ops].
- unfold wp, pret. exists pl. split; [easy|lia].
- apply wp_bind. eapply wp_mono; [|apply elem_op_ok; [exact I|lia]]. intros _ h' [e I'].
  replace (S (length pl)) with (length (pl ++ [e])) by (rewrite app_length; cbn; lia).
  apply IH; [easy|]. rewrite app_length. cbn. lia.
Qed.
Lemma load_full h t (pl : list (nat * nat)) d p l r : cont h t = Some (Tab (map (fun e => Some (fst e)) pl)) -> pl = d ++ (p, l) :: r -> load t (length d) h = (Done p, h).
Proof.
intros T ->. unfold load. rewrite T, map_app. cbn [map fst].
replace (length d) with (length (map (fun e : nat * nat => Some (fst e)) d)) by apply map_length. now rewrite nth_app.
Qed.
Lemma sum_reads h t (pl r : list (nat * nat)) : cont h t = Some (Tab (map (fun e => Some (fst e)) pl)) ->
  (forall p l, In (p, l) pl -> cont h p = Some (Obj (Some l)) /\ cont h l = Some Limb) ->
  forall d, pl = d ++ r -> for_all use_at t (length d) (length r) h = (Done tt, h).
Proof.
intros T O. induction r as [|[p l] r IH]; intros d E; [easy|]. cbn [for_all length]. unfold pbind at 1. rewrite (load_full h t pl d p l r T E).
destruct (O p l) as [O1 O2]. { rewrite E. apply in_elt. }
assert (U : use_at p h = (Done tt, h)). { unfold use_at, pbind, limbs_at. rewrite O1. unfold use. now rewrite O2. }
unfold pbind. rewrite U. replace (S (length d)) with (length (d ++ [(p, l)])) by (rewrite app_length; cbn; lia).
apply IH. rewrite E, <- app_assoc. reflexivity.
Qed.

(** During the destructor: the elements [d] are cleared, the elements [r] are not. *)
Definition dinv (h0 : heap) (t : nat) (pl d r : list (nat * nat)) (h : heap) : Prop :=
  fresh h /\ cont h t = Some (Tab (map (fun e => Some (fst e)) pl)) /\ pl = d ++ r /\ NoDup (owned t pl) /\
  (forall p l, In (p, l) d -> cont h p = Some (Obj None) /\ cont h l = None) /\
  (forall p l, In (p, l) r -> cont h p = Some (Obj (Some l)) /\ cont h l = Some Limb) /\
  (forall a, ~ In a (owned t pl) -> cont h a = cont h0 a).
Lemma owned_distinct t d p l r : NoDup (owned t (d ++ (p, l) :: r)) ->
  p <> t /\ l <> t /\ p <> l /\ (forall q m, In (q, m) (d ++ r) -> q <> p /\ q <> l /\ m <> p /\ m <> l).
Proof.
unfold owned. rewrite !map_app. cbn [map fst snd]. intros H.
change (t :: (map fst d ++ p :: map fst r) ++ map snd d ++ l :: map snd r) with
  ((t :: map fst d ++ p :: map fst r) ++ map snd d ++ l :: map snd r) in H. 
assert (H1 := H). rewrite app_assoc in H1. apply NoDup_remove_2 in H1.
assert (H2 := H). change ((t :: map fst d ++ p :: map fst r) ++ map snd d ++ l :: map snd r) with
  (((t :: map fst d) ++ p :: map fst r) ++ map snd d ++ l :: map snd r) in H2. rewrite <- app_assoc in H2. cbn [app] in H2.
change (t :: map fst d ++ p :: map fst r ++ map snd d ++ l :: map snd r) with
  ((t :: map fst d) ++ p :: (map fst r ++ map snd d ++ l :: map snd r)) in H2. apply NoDup_remove_2 in H2.
cbn [app In] in H1, H2. rewrite !in_app_iff in H1, H2. cbn [In] in H1, H2. rewrite ?in_app_iff in H1, H2. cbn [In] in H1, H2.
split; [|split; [|split]]; try (intros ->; tauto).
intros q m I. apply in_app_iff in I.
assert (In q (map fst d) \/ In q (map fst r)) by (destruct I as [I|I]; apply (in_map fst) in I; auto).
assert (In m (map snd d) \/ In m (map snd r)) by (destruct I as [I|I]; apply (in_map snd) in I; auto).
repeat split; intros ->; tauto.
Qed.
Lemma clear_step h0 t pl d p l r h : dinv h0 t pl d ((p, l) :: r) h ->
  wp (clear_at p) h (fun _ h' => dinv h0 t pl (d ++ [(p, l)]) r h').
Proof.
intros (F & T & E & ND & D & R & K). destruct (R p l (or_introl eq_refl)) as [O1 O2].
assert (OD := ND). rewrite E in OD. apply owned_distinct in OD as (N1 & N2 & N3 & N4).
unfold wp, clear_at, pbind, limbs_at. rewrite O1. unfold clear. rewrite O2.
set (h' := put (put h l None) p (Some (Obj None))).
assert (Oth : forall a, a <> p -> a <> l -> cont h' a = cont h a). { intros a A B. unfold h'. now rewrite !put_other. }
pose proof (live_lt _ _ _ F O1). pose proof (live_lt _ _ _ F O2).
repeat split.
- apply fresh_put; [easy|]. now apply fresh_put.
- now rewrite Oth by auto.
- rewrite E, <- app_assoc. reflexivity.
- easy.
- apply in_app_iff in H1 as [I|[I|[]]].
  + destruct (N4 p0 l0) as (A & B & _); [apply in_app_iff; now left|]. rewrite Oth by easy. now apply (D p0 l0).
  + injection I as <- <-. apply put_same.
- apply in_app_iff in H1 as [I|[I|[]]].
  + destruct (N4 p0 l0) as (_ & _ & A & B); [apply in_app_iff; now left|]. rewrite Oth by easy. now apply (D p0 l0).
  + injection I as <- <-. unfold h'. rewrite put_other by auto. apply put_same.
- destruct (N4 p0 l0) as (A & B & _); [apply in_app_iff; now right|]. rewrite Oth by easy. apply (R p0 l0). now right.
- destruct (N4 p0 l0) as (_ & _ & A & B); [apply in_app_iff; now right|]. rewrite Oth by easy. apply (R p0 l0). now right.
- intros a I. rewrite Oth; [now apply K| |]; intros ->; apply I; rewrite E; unfold owned; rewrite !map_app; right; rewrite !in_app_iff; cbn; tauto.
Qed.
Lemma clear_all h0 t pl r : forall d h, dinv h0 t pl d r h ->
  wp (for_all clear_at t (length d) (length r)) h (fun _ h' => dinv h0 t pl pl [] h').
Proof.
induction r as [|[p l] r IH]; intros d h I; cbn [for_all length].
- assert (E : pl = d ++ []) by apply I. rewrite app_nil_r in E. subst d. exact I.
- apply wp_bind. assert (LD : load t (length d) h = (Done p, h)).
  { destruct I as (F & T & E & _). now apply load_full with pl l r. }
  unfold wp at 1. rewrite LD. apply wp_bind. eapply wp_mono; [|apply clear_step; exact I]. intros u1 h' I'. cbn beta in I'.
  replace (S (length d)) with (length (d ++ [(p, l)])) by (rewrite app_length; cbn; lia). now apply IH.
Qed.

(** The blocks left behind by a reduction: one per element. *)
Lemma reduction_leaks two n h : fresh h ->
  wp (reduction_mem avail two n) h (fun _ h' => fresh h' /\ exists ps, length ps = n /\ NoDup ps /\
    (forall p, In p ps -> cont h p = None /\ cont h' p = Some (Obj None)) /\ (forall a, ~ In a ps -> cont h' a = cont h a)).
Proof.
intros F. unfold reduction_mem, ctor. apply wp_bind, wp_bind, wp_request; try easy.
set (t := brk h). set (h1 := grown h (Tab (repeat None n))).
assert (I1 : inv h t n [] h1).
{ split; [now apply fresh_grown|]. split; [now repeat constructor|]. split; [intros a [<-|[]]; unfold t; lia|]. split; [cbn; lia|].
  split; [cbn [length map app]; rewrite Nat.sub_0_r; apply put_same|]. split; [easy|].
  intros a H. unfold h1, grown. rewrite put_other; [easy|]. intros ->. apply H. now left. }
apply wp_bind. eapply wp_mono; [|apply (elem_ops_ok two h t n n [] h1 I1 eq_refl)]. intros u1 h2 (pl & I2 & Ln).
apply wp_bind. 
destruct I2 as (F2 & ND & B & L & T & O & K). rewrite Ln, Nat.sub_diag in T. cbn [repeat] in T. rewrite app_nil_r in T.
assert (Own : forall a, In a (owned t pl) -> a < brk h2).
{ intros a [<-|H]; [now apply (live_lt _ _ _ F2 T)|]. apply in_app_iff in H as [H|H]; apply in_map_iff in H as ([p l] & <- & H);
  destruct (O _ _ H) as [O1 O2]; eapply live_lt; eauto. }
assert (InO : forall p l, In (p, l) pl -> In p (owned t pl) /\ In l (owned t pl)).
{ intros p l H. split; right; apply in_app_iff; [left; now apply (in_map fst) in H|right; now apply (in_map snd) in H]. }
apply wp_keeps.
{ apply keeps_with_var; [easy|].
  assert (E : for_all use_at t 0 n (grown h2 Limb) = (Done tt, grown h2 Limb)).
  { rewrite <- Ln. apply (sum_reads (grown h2 Limb) t pl pl) with (d := []); [| |easy].
    - unfold grown. rewrite put_other; [exact T|]. assert (t < brk h2) by (apply Own; now left). lia.
    - intros p l H. destruct (InO p l H) as [A A']. apply Own in A, A'. unfold grown. rewrite !put_other by lia. now apply O. }
  apply keeps_bind; [apply keeps_reads with tt; [now apply fresh_grown|easy]|].
  intros _ h' F' _ SB. apply keeps_use; [easy|]. rewrite SB. apply put_same. }
intros _ h3 F3 SB. unfold wp at 1, pret. 
assert (D : dinv h t pl [] pl h3).
{ repeat split; try easy; try (intros; rewrite SB); auto; now apply (O p l). }
unfold dtor. apply wp_bind. replace n with (length pl). eapply wp_mono; [|apply (clear_all h t pl pl [] h3 D)].
intros u2 h4 (F4 & T4 & _ & _ & D4 & _ & K4). unfold wp, delete_tab. rewrite T4.
split. { apply fresh_put; [|easy]. now apply (live_lt _ _ _ F4 T4). }
exists (map fst pl). split; [apply map_length|].
assert (ND1 : ~ In t (map fst pl) /\ NoDup (map fst pl)).
{ unfold owned in ND. inversion ND as [|x y N1 N2]; subst. split; [intros H; apply N1, in_app_iff; now left|]. clear - N2. revert N2. generalize (map snd pl). induction (map fst pl) as [|a m IH]; intros k H; [constructor|]. inversion H as [|x y M1 M2]; subst. constructor; [intros I; apply M1, in_app_iff; now left|]. now apply IH with k. }
split; [apply ND1|]. split.
- intros p H. apply in_map_iff in H as ([q l] & <- & H). cbn [fst]. destruct (InO q l H) as [A _]. split.
  + apply F. now apply B.
  + rewrite put_other; [now apply (D4 q l)|]. intros ->. apply (proj1 ND1). now apply (in_map fst) in H.
- intros a H. destruct (Nat.eq_dec a t) as [->|N]; [rewrite put_same; symmetry; apply F; unfold t; lia|]. rewrite put_other by easy.
  destruct (in_dec Nat.eq_dec a (map snd pl)) as [I|I].
  + apply in_map_iff in I as ([q l] & <- & I). cbn [snd]. rewrite (proj2 (D4 q l I)). symmetry. apply F. apply B. now apply (InO q l).
  + apply K4. intros [<-|J]; [easy|]. apply in_app_iff in J as [J|J]; easy.
Qed.

Lemma wp_safe {A} (m : P A) h Q : wp m h Q -> fst (m h) <> Undef.
Proof. unfold wp. now destruct (m h) as [[a| | |] h']. Qed.
Lemma wp_done {A} (m : P A) h (Q : A -> heap -> Prop) a h' : wp m h Q -> m h = (Done a, h') -> Q a h'.
Proof. unfold wp. intros H E. now rewrite E in H. Qed.
Definition total (ns : list nat) : nat := fold_right Nat.add 0 ns.
Lemma calls_leak two ns : forall h, fresh h ->
  wp (calls avail two ns) h (fun _ h' => fresh h' /\ exists ps, length ps = total ns /\ NoDup ps /\
    (forall p, In p ps -> cont h p = None /\ cont h' p = Some (Obj None)) /\ (forall a, ~ In a ps -> cont h' a = cont h a)).
Proof.
induction ns as [|n ns IH]; intros h F; cbn [calls].
- unfold wp, pret. split; [easy|]. exists []. repeat split; try easy. constructor.
- apply wp_bind. eapply wp_mono; [|now apply reduction_leaks]. intros u1 h1 (F1 & ps & L & ND & H1 & H2).
  eapply wp_mono; [|now apply IH]. intros u2 h2 (F2 & qs & L' & ND' & H1' & H2'). split; [easy|].
  assert (DJ : forall p, In p qs -> ~ In p ps). { intros p I J. destruct (H1 p J), (H1' p I). congruence. }
  exists (qs ++ ps). split; [|split; [|split]].
  + rewrite app_length. cbn. unfold total in L'. lia.
  + clear - ND ND' DJ. induction qs as [|q qs IH]; [easy|]. inversion ND'; subst. cbn. constructor.
    * rewrite in_app_iff. intros [I|I]; [easy|]. now apply (DJ q (or_introl eq_refl)).
    * apply IH; [easy|]. intros p I. apply DJ. now right.
  + intros p I. apply in_app_iff in I as [I|I].
    * destruct (H1' p I) as [A B]. split; [|easy]. rewrite <- A. symmetry. apply H2. now apply DJ.
    * destruct (H1 p I) as [A B]. split; [easy|]. rewrite H2'; [easy|]. intros J. now apply (DJ p).
  + intros a I. rewrite in_app_iff in I. rewrite H2' by tauto. apply H2. tauto.
Qed.
Lemma copy_undef h : avail (brk h) = true -> fst (copy_mem avail h) = Undef.
Proof.
intros H. unfold copy_mem, with_var, pbind, init2, request. rewrite H. unfold guard, use. rewrite put_same. unfold pbind, clear, pret.
rewrite !put_same. reflexivity.
Qed.
End Mem.

(** With all requests met a reduction returns. *)
Definition plenty (_ : nat) : bool := true.
Definition finishes {A} (m : P A) : Prop := forall h, fst (m h) <> Thrown /\ fst (m h) <> Abort.
Lemma fin_bind {A B} (m : P A) (f : A -> P B) : finishes m -> (forall a, finishes (f a)) -> finishes (pbind m f).
Proof. intros H K h. unfold pbind. destruct (H h) as [X Y]. destruct (m h) as [[a| | |] h']; try easy. apply K. Qed.
Lemma fin_request f b : finishes (request plenty f b).
Proof. intros h. easy. Qed.
Lemma fin_guard {A} (m : P A) d : finishes m -> finishes d -> finishes (guard m d).
Proof.
intros H K h. unfold guard. destruct (H h) as [X Y]. destruct (m h) as [[a| | |] h']; try easy.
apply fin_bind; [easy|]. intros _ h1. easy.
Qed.
Lemma fin_with_var {A} (body : nat -> P A) : (forall l, finishes (body l)) -> finishes (with_var plenty body).
Proof.
intros H. apply fin_bind; [apply fin_request|]. intros l. apply fin_guard; [easy|]. intros h. unfold clear. now destruct (cont h l) as [[]|].
Qed.
Lemma fin_use l : finishes (use l).
Proof. intros h. unfold use. now destruct (cont h l) as [[]|]. Qed.
Lemma fin_load t i : finishes (load t i).
Proof. intros h. unfold load. destruct (cont h t) as [[c| | |]|]; try easy. now destruct (nth_error c i) as [[]|]. Qed.
Lemma fin_limbs p : finishes (limbs_at p).
Proof. intros h. unfold limbs_at. now destruct (cont h p) as [[|[]| |]|]. Qed.
Lemma fin_use_at p : finishes (use_at p).
Proof. apply fin_bind; [apply fin_limbs|apply fin_use]. Qed.
Lemma fin_clear_at p : finishes (clear_at p).
Proof.
apply fin_bind; [apply fin_limbs|]. intros l. apply fin_bind; [|easy]. intros h. unfold clear. now destruct (cont h l) as [[]|].
Qed.
Lemma fin_for_all f t n : (forall p, finishes (f p)) -> forall i, finishes (for_all f t i n).
Proof.
intros H. induction n as [|n IH]; intros i; [easy|]. cbn [for_all]. apply fin_bind; [apply fin_load|]. intros p. apply fin_bind; [easy|]. intros _. apply IH.
Qed.
Lemma fin_elem_op two t i : finishes (elem_op plenty two t i).
Proof.
apply fin_bind; [apply fin_request|]. intros p. apply fin_bind.
{ intros h. unfold store. destruct (cont h t) as [[c| | |]|]; try easy. now destruct (i <? length c). }
intros _. apply fin_bind; [apply fin_load|]. intros q. apply fin_bind.
{ apply fin_bind; [apply fin_request|]. intros l h. now destruct (cont h q) as [[]|]. }
intros _. apply fin_with_var. intros a. destruct two; [apply fin_with_var; intros b|];
repeat (apply fin_bind; [apply fin_use|intros _]); (apply fin_bind; [apply fin_load|intros r; apply fin_use_at]).
Qed.
Lemma fin_elem_ops two t n : forall i, finishes (elem_ops plenty two t i n).
Proof.
induction n as [|n IH]; intros i; [easy|]. cbn [elem_ops]. apply fin_bind; [apply fin_elem_op|]. intros _. apply IH.
Qed.
Lemma fin_reduction two n : finishes (reduction_mem plenty two n).
Proof.
apply fin_bind.
- apply fin_bind; [apply fin_request|]. intros t. apply fin_bind; [apply fin_elem_ops|]. intros _. apply fin_bind; [|easy].
  apply fin_with_var. intros r. apply fin_bind; [apply fin_for_all, fin_use_at|]. intros _. apply fin_use.
- intros t. apply fin_bind; [apply fin_for_all, fin_clear_at|]. intros _ h. unfold delete_tab. now destruct (cont h t) as [[]|].
Qed.
Lemma done_of {A} (m : P A) h : finishes m -> fst (m h) <> Undef -> exists a, fst (m h) = Done a.
Proof. intros H U. destruct (H h) as [X Y]. destruct (m h) as [[a| | |] h']; try easy. now exists a. Qed.
(** A reduction of at least one element is not balanced. *)
Lemma reduction_unbalanced two n h : 0 < n -> fresh h -> fst (reduction_mem plenty two n h) = Done tt /\ ~ same_blocks h (snd (reduction_mem plenty two n h)).
Proof.
intros N F. pose proof (reduction_leaks plenty two n h F) as W.
destruct (done_of (reduction_mem plenty two n) h (fin_reduction two n) (wp_safe _ _ _ W)) as [[] E].
split; [easy|]. unfold wp in W. destruct (reduction_mem plenty two n h) as [r h']. cbn [fst snd] in *. subst r.
destruct W as (_ & [|p ps] & L & _ & H & _); [cbn in L; lia|]. intros S. destruct (H p (or_introl eq_refl)) as [A B].
specialize (S p). congruence.
Qed.
Lemma leaks_spec h h' n : (exists ps, length ps = n /\ NoDup ps /\
    (forall p, In p ps -> cont h p = None /\ cont h' p = Some (Obj None)) /\ (forall a, ~ In a ps -> cont h' a = cont h a)) ->
  exists ps, length ps = n /\ NoDup ps /\ (forall a, left_over h h' a <-> In a ps) /\
    (forall a, In a ps -> cont h' a = Some (Obj None)) /\ (forall a, ~ In a ps -> cont h' a = cont h a).
Proof.
intros (ps & L & ND & H1 & H2). exists ps. split; [easy|]. split; [easy|]. split; [|split; [intros a I; now apply H1|easy]].
intros a. split.
- intros [A B]. destruct (in_dec Nat.eq_dec a ps) as [I|I]; [easy|]. apply H2 in I. congruence.
- intros I. destruct (H1 a I) as [A B]. split; [easy|]. now rewrite B.
Qed.
Lemma no_array avail two n h : avail (brk h) = false ->
  fst (reduction_mem avail two n h) = Thrown /\ same_blocks h (snd (reduction_mem avail two n h)).
Proof. intros H. unfold reduction_mem, ctor, pbind, new_block, request. rewrite H. now split. Qed.
