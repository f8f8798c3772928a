(** * Proofs: programs of quiet functions end normally and leave the exception flags alone *)
From Coq Require Import ZArith NArith Reals Bool Lra Lia List Classical.
From Flocq Require Import Core.Core IEEE754.BinarySingleNaN.
From Verif Require Import Fmt Spec FloatFacts Exc Deco SpecApi SpecNum SpecDeco SpecMixed SpecProg SpecRev MBase PBase MBool MArith PArith PConv MProg MClass SpecClass
  PClass PDec PMixed PRevW PValid PValid2 PValid3 PValid6 PCancel MCancel SpecBlind MOverlap PNai PObj SpecCalm PCalm0 PCalm.
Local Open Scope m_scope.

(** ** Single operations *)
Lemma new_dec_giv F (x : itv F) : wf x -> gives (new_dec x) valid_dec.
Proof.
intros W. apply gives_del with (2 := new_dec_del x) (Q := fun _ => True).
unfold new_dec. rewrite is_valid_wf, ?is_empty_wf, ?is_common_wf by easy. mreds.
repeat (match goal with |- context [if ?b then _ else _] => destruct b end; mreds); now apply g_ret.
Qed.
Lemma new_dec_mixed_giv T F (x : itv F) : wf x -> gives (new_dec_mixed T x) valid_dec.
Proof.
intros W. apply gives_del with (2 := new_dec_mixed_del T x W) (Q := fun _ => True).
unfold new_dec_mixed. pose proof (wf_convert_hull T x W). rewrite ?is_valid_wf, ?is_empty_wf, ?is_common_wf by easy. mreds.
repeat (match goal with |- context [if ?b then _ else _] => destruct b end; mreds); now apply g_ret.
Qed.
Lemma quiet1_giv a b f : quiet1 a b f -> forall x, good_obj a x -> gives (f x) (good_obj b).
Proof.
destruct 1; cbn [good_obj].
- now apply un0_giv.
- now apply dun0_giv.
- apply new_dec_giv.
- apply new_dec_mixed_giv.
Qed.
Lemma quiet2_giv a b c f : quiet2 a b c f -> forall x y, good_obj a x -> good_obj b y -> gives (f x y) (good_obj c).
Proof.
destruct 1; cbn [good_obj]; intros x y Wx Wy.
- apply bin0_giv; easy.
- apply dbin0_giv; easy.
- eapply g_bind; [now apply (two_giv _ _ _ _ H)|]. intros z [Z1 Z2]. now apply g_ret.
- eapply g_bind; [now apply (two_giv _ _ _ _ H)|]. intros z [Z1 Z2]. now apply g_ret.
- eapply g_bind; [now apply (dtwo_giv _ _ _ _ H)|]. intros z [Z1 Z2]. now apply g_ret.
- eapply g_bind; [now apply (dtwo_giv _ _ _ _ H)|]. intros z [Z1 Z2]. now apply g_ret.
Qed.
Lemma op3_giv a b c d f : op3 a b c d f -> forall x y w, good_obj a x -> good_obj b y -> good_obj c w -> gives (f x y w) (good_obj d).
Proof. destruct 1; cbn [good_obj]; intros; [now apply (tern_giv _ _ _ _ _ H0)|now apply (dtern_giv _ _ _ _ _ H0)]. Qed.

(** ** Expressions and statements *)
Section P.
Context {vt : nat -> ty}.
Lemma g_copies t k (v : vl t) : good_obj t v -> gives (copies k v) (good_obj t).
Proof. intros G. rewrite copies_good by easy. now apply g_ret. Qed.
Lemma ev_quiet (st : store vt) {t} (e : term vt t) : good_store st -> quiet e -> gives (ev st e) (good_obj t).
Proof.
intros G. induction e as [i|t c H k|a b f H x IHx k|a b c f H x IHx y IHy k|a b c d f H x IHx y IHy u IHu k|a b c f H x IHx y IHy k]; cbn [quiet ev].
- intros _. apply g_ret. apply G.
- intros [v Hv]. eapply g_bind; [|intros w Hw; apply g_copies, Hw]. apply gives_del with (2 := source_del t c H) (Q := fun _ => True). now exists v.
- intros [Hf Cx]. eapply g_bind; [now apply IHx|]. intros v V. eapply g_bind; [now apply (quiet1_giv a b)|]. intros z Z. now apply g_copies.
- intros (Hf & Cx & Cy). eapply g_bind; [now apply IHx|]. intros v V. eapply g_bind; [now apply IHy|]. intros w W.
  eapply g_bind; [now apply (quiet2_giv a b c)|]. intros z Z. now apply g_copies.
- intros (Cx & Cy & Cu). eapply g_bind; [now apply IHx|]. intros v V. eapply g_bind; [now apply IHy|]. intros w W.
  eapply g_bind; [now apply IHu|]. intros r R.
  eapply g_bind; [now apply (op3_giv a b c d)|]. intros z Z. now apply g_copies.
- easy.
Qed.
Lemma exec_quiet may (c : cmd vt) (s : state vt) r : exec may c s r -> quiet_cmd c -> good_store (objs s) ->
  exists s', r = Normal s' /\ good_store (objs s') /\ inp s' = inp s /\ env s' = env s.
Proof.
intros X. induction X; intros Q G; cbn [quiet_cmd] in Q; try easy.
- now exists s.
- destruct (ev_quiet _ e G Q) as (w & E & W). rewrite E in H0. injection H0 as -> <-.
  eexists. split; [reflexivity|]. cbn [objs inp env]. split; [now apply write_good|easy].
- destruct (ev_quiet _ e G Q) as (w & E & W). now rewrite E in H0.
- destruct (ev_quiet _ e G Q) as (w & E & W). now rewrite E in H0.
- destruct Q as [Q1 Q2]. destruct (IHX1 Q1 G) as (s2 & E & G2 & I2 & V2). injection E as <-.
  destruct (IHX2 Q2 G2) as (s3 & -> & G3 & I3 & V3). exists s3. repeat split; try easy; congruence.
- destruct Q as [Q1 Q2]. now destruct (IHX Q1 G) as (s2 & E & _).
- destruct Q as [Q1 Q2]. now destruct (IHX Q1 G) as (s2 & E & _).
- destruct Q as (Q0 & Q1 & Q2). destruct (Q0 _ G) as (b' & E). rewrite E in H. injection H as -> <-.
  destruct IHX as (s2 & -> & G2 & I2 & V2); [now destruct b|easy|]. now exists s2.
- destruct Q as (Q0 & Q1 & Q2). destruct (Q0 _ G) as (b' & E). now rewrite E in H.
- destruct Q as (Q0 & Q1 & Q2). destruct (Q0 _ G) as (b' & E). now rewrite E in H.
- apply IHX; [|easy]. cbn [quiet_cmd]. tauto.
- now apply IHX.
- now destruct (IHX1 Q G) as (s2 & E & _).
- now destruct (IHX Q G) as (s2 & E & _).
Qed.
Lemma exec_some (c : cmd vt) : quiet_cmd c -> straight c -> forall s, good_store (objs s) -> exists s', exec anyhow c s (Normal s').
Proof.
induction c as [|i e|i|f|c IHc d IHd|q c IHc d IHd|q c IHc|e|c IHc h IHh]; cbn [quiet_cmd straight]; intros Q L s G; try easy.
- exists s. constructor.
- destruct (ev_quiet _ e G Q) as (w & E & W). eexists. apply x_assign with (1 := I) (2 := E _).
- destruct Q as [Q1 Q2], L as [L1 L2]. destruct (IHc Q1 L1 s G) as [s1 X1].
  destruct (exec_quiet _ _ _ _ X1 Q1 G) as (s1' & E & G1 & _). injection E as <-.
  destruct (IHd Q2 L2 s1 G1) as [s2 X2]. exists s2. now apply x_seq with s1.
- destruct Q as (Q0 & Q1 & Q2), L as [L1 L2]. destruct (Q0 _ G) as (b & E).
  assert (K : exists s', exec anyhow (if b then c else d) (State (objs s) (inp s) (env s)) (Normal s')) by (destruct b; auto).
  destruct K as [s' K]. exists s'. eapply x_if; [apply E|exact K].
- destruct (IHc Q L s G) as [s1 X1]. exists s1. now apply x_try.
Qed.
End P.
