(** * Proofs: NaI operands *)
From Coq Require Import ZArith NArith Reals Bool List Lra.
From Flocq Require Import Core.Core IEEE754.BinarySingleNaN.
From Verif Require Import Fmt Spec FloatFacts Exc Deco SpecApi MBase PBase MBool MOverlap MArith MElem MPow MTrig MAtan2 MDec MMixed MNum MCancel MRev
  MTrigRev PClass PDec PInv PInvOps SpecDeco SpecMixed SpecIso SpecNai PTan PTrig PArith PDecF PDecT PMixed PClass PCancel PConv PInv2 PIso PSetop PBool MCancel PElem PTanF PTrigT MTrig.
Local Open Scope R_scope.
Lemma wf_entire_dec {F} : wf_dec (@entire_dec F).
Proof. right. cbn [fst snd]. split; [now exists 0|]. split; easy. Qed.
Ltac nop H := repeat match type of H with _ \/ _ => destruct H as [H|H] end; apply returns_eq; autounfold with heads; cbv zeta;
  rewrite ?is_valid_dec_wf, ?is_nai_wf by (assumption || apply wf_entire_dec);
  rewrite H; mreds; repeat (match goal with |- context [deq (snd ?v) ill] => destruct (deq (snd v) ill) end; mreds); reflexivity.
Lemma only1 {F T} (opd : ditv F -> M (ditv T)) op dom f : mixed_decorates1 opd op dom f -> no_nai1 opd.
Proof. intros H x (P1 & P2 & P3). destruct (H x P1 P2 P3) as (z & Z1 & _ & _ & Z2 & _). now exists z. Qed.
Lemma only2 {F G T} (opd : ditv F -> ditv G -> M (ditv T)) op dom f : mixed_decorates2 opd op dom f -> no_nai2 opd.
Proof. intros H x y (P1 & P2 & P3) (Q1 & Q2 & Q3). destruct (H x y P1 P2 P3 Q1 Q2 Q3) as (z & Z1 & _ & _ & Z2 & _). now exists z. Qed.
Lemma only3 {F G H T} (opd : ditv F -> ditv G -> ditv H -> M (ditv T)) op f : mixed_decorates3 opd op f -> no_nai3 opd.
Proof. intros E x y w (P1 & P2 & P3) (Q1 & Q2 & Q3) (S1 & S2 & S3). destruct (E x y w P1 P2 P3 Q1 Q2 Q3 S1 S2 S3) as (z & Z1 & _ & _ & Z2 & _). now exists z. Qed.

Lemma nai_neg_dec : forall (F : fmt), on_nai1 (fun (x : ditv F) => neg_dec x) (empty_rep, ill).
Proof. intros F x Wx HH. unfold neg_dec. nop HH. Qed.
Lemma nai_pos_dec : forall (F : fmt), on_nai1 (fun (x : ditv F) => pos_dec x) (empty_rep, ill).
Proof. intros F x Wx HH. unfold pos_dec. nop HH. Qed.
Lemma nai_recip_dec : forall (F : fmt), on_nai1 (fun (x : ditv F) => recip_dec x) (empty_rep, ill).
Proof. intros F x Wx HH. unfold recip_dec. nop HH. Qed.
Lemma nai_sqr_dec : forall (F : fmt), on_nai1 (fun (x : ditv F) => sqr_dec x) (empty_rep, ill).
Proof. intros F x Wx HH. unfold sqr_dec. nop HH. Qed.
Lemma nai_sqrt_dec : forall (F : fmt), on_nai1 (fun (x : ditv F) => sqrt_dec x) (empty_rep, ill).
Proof. intros F x Wx HH. unfold sqrt_dec. nop HH. Qed.
Lemma nai_abs_dec : forall (F : fmt), on_nai1 (fun (x : ditv F) => abs_dec x) (empty_rep, ill).
Proof. intros F x Wx HH. unfold abs_dec. nop HH. Qed.
Lemma nai_exp_dec : forall (F : fmt), on_nai1 (fun (x : ditv F) => exp_dec x) (empty_rep, ill).
Proof. intros F x Wx HH. unfold exp_dec. nop HH. Qed.
Lemma nai_exp2_dec : forall (F : fmt), on_nai1 (fun (x : ditv F) => exp2_dec x) (empty_rep, ill).
Proof. intros F x Wx HH. unfold exp2_dec. nop HH. Qed.
Lemma nai_exp10_dec : forall (F : fmt), on_nai1 (fun (x : ditv F) => exp10_dec x) (empty_rep, ill).
Proof. intros F x Wx HH. unfold exp10_dec. nop HH. Qed.
Lemma nai_log_dec : forall (F : fmt), on_nai1 (fun (x : ditv F) => log_dec x) (empty_rep, ill).
Proof. intros F x Wx HH. unfold log_dec. nop HH. Qed.
Lemma nai_log2_dec : forall (F : fmt), on_nai1 (fun (x : ditv F) => log2_dec x) (empty_rep, ill).
Proof. intros F x Wx HH. unfold log2_dec. nop HH. Qed.
Lemma nai_log10_dec : forall (F : fmt), on_nai1 (fun (x : ditv F) => log10_dec x) (empty_rep, ill).
Proof. intros F x Wx HH. unfold log10_dec. nop HH. Qed.
Lemma nai_sin_dec : forall (F : fmt), on_nai1 (fun (x : ditv F) => sin_dec x) (empty_rep, ill).
Proof. intros F x Wx HH. unfold sin_dec. nop HH. Qed.
Lemma nai_cos_dec : forall (F : fmt), on_nai1 (fun (x : ditv F) => cos_dec x) (empty_rep, ill).
Proof. intros F x Wx HH. unfold cos_dec. nop HH. Qed.
Lemma nai_tan_dec : forall (F : fmt), on_nai1 (fun (x : ditv F) => tan_dec x) (empty_rep, ill).
Proof. intros F x Wx HH. unfold tan_dec. nop HH. Qed.
Lemma nai_asin_dec : forall (F : fmt), on_nai1 (fun (x : ditv F) => asin_dec x) (empty_rep, ill).
Proof. intros F x Wx HH. unfold asin_dec. nop HH. Qed.
Lemma nai_acos_dec : forall (F : fmt), on_nai1 (fun (x : ditv F) => acos_dec x) (empty_rep, ill).
Proof. intros F x Wx HH. unfold acos_dec. nop HH. Qed.
Lemma nai_atan_dec : forall (F : fmt), on_nai1 (fun (x : ditv F) => atan_dec x) (empty_rep, ill).
Proof. intros F x Wx HH. unfold atan_dec. nop HH. Qed.
Lemma nai_sinh_dec : forall (F : fmt), on_nai1 (fun (x : ditv F) => sinh_dec x) (empty_rep, ill).
Proof. intros F x Wx HH. unfold sinh_dec. nop HH. Qed.
Lemma nai_cosh_dec : forall (F : fmt), on_nai1 (fun (x : ditv F) => cosh_dec x) (empty_rep, ill).
Proof. intros F x Wx HH. unfold cosh_dec. nop HH. Qed.
Lemma nai_tanh_dec : forall (F : fmt), on_nai1 (fun (x : ditv F) => tanh_dec x) (empty_rep, ill).
Proof. intros F x Wx HH. unfold tanh_dec. nop HH. Qed.
Lemma nai_asinh_dec : forall (F : fmt), on_nai1 (fun (x : ditv F) => asinh_dec x) (empty_rep, ill).
Proof. intros F x Wx HH. unfold asinh_dec. nop HH. Qed.
Lemma nai_acosh_dec : forall (F : fmt), on_nai1 (fun (x : ditv F) => acosh_dec x) (empty_rep, ill).
Proof. intros F x Wx HH. unfold acosh_dec. nop HH. Qed.
Lemma nai_atanh_dec : forall (F : fmt), on_nai1 (fun (x : ditv F) => atanh_dec x) (empty_rep, ill).
Proof. intros F x Wx HH. unfold atanh_dec. nop HH. Qed.
Lemma nai_sign_dec : forall (F : fmt), on_nai1 (fun (x : ditv F) => sign_dec x) (empty_rep, ill).
Proof. intros F x Wx HH. unfold sign_dec. nop HH. Qed.
Lemma nai_ceil_dec : forall (F : fmt), on_nai1 (fun (x : ditv F) => ceil_dec x) (empty_rep, ill).
Proof. intros F x Wx HH. unfold ceil_dec. nop HH. Qed.
Lemma nai_floor_dec : forall (F : fmt), on_nai1 (fun (x : ditv F) => floor_dec x) (empty_rep, ill).
Proof. intros F x Wx HH. unfold floor_dec. nop HH. Qed.
Lemma nai_trunc_dec : forall (F : fmt), on_nai1 (fun (x : ditv F) => trunc_dec x) (empty_rep, ill).
Proof. intros F x Wx HH. unfold trunc_dec. nop HH. Qed.
Lemma nai_round_ties_to_even_dec : forall (F : fmt), on_nai1 (fun (x : ditv F) => round_ties_to_even_dec x) (empty_rep, ill).
Proof. intros F x Wx HH. unfold round_ties_to_even_dec. nop HH. Qed.
Lemma nai_round_ties_to_away_dec : forall (F : fmt), on_nai1 (fun (x : ditv F) => round_ties_to_away_dec x) (empty_rep, ill).
Proof. intros F x Wx HH. unfold round_ties_to_away_dec. nop HH. Qed.
Lemma nai_pown_dec : forall (F : fmt) (p : Z), on_nai1 (fun (x : ditv F) => pown_dec x p) (empty_rep, ill).
Proof. intros F p x Wx HH. unfold pown_dec. nop HH. Qed.
Lemma nai_add_dec : forall (F : fmt), on_nai2 (fun (x : ditv F) (y : ditv F) => add_dec x y) (empty_rep, ill).
Proof. intros F x y Wx Wy HH. unfold add_dec. nop HH. Qed.
Lemma nai_sub_dec : forall (F : fmt), on_nai2 (fun (x : ditv F) (y : ditv F) => sub_dec x y) (empty_rep, ill).
Proof. intros F x y Wx Wy HH. unfold sub_dec. nop HH. Qed.
Lemma nai_mul_dec : forall (F : fmt), on_nai2 (fun (x : ditv F) (y : ditv F) => mul_dec x y) (empty_rep, ill).
Proof. intros F x y Wx Wy HH. unfold mul_dec. nop HH. Qed.
Lemma nai_div_dec : forall (F : fmt), on_nai2 (fun (x : ditv F) (y : ditv F) => div_dec x y) (empty_rep, ill).
Proof. intros F x y Wx Wy HH. unfold div_dec. nop HH. Qed.
Lemma nai_min_dec : forall (F : fmt), on_nai2 (fun (x : ditv F) (y : ditv F) => min_dec x y) (empty_rep, ill).
Proof. intros F x y Wx Wy HH. unfold min_dec. nop HH. Qed.
Lemma nai_max_dec : forall (F : fmt), on_nai2 (fun (x : ditv F) (y : ditv F) => max_dec x y) (empty_rep, ill).
Proof. intros F x y Wx Wy HH. unfold max_dec. nop HH. Qed.
Lemma nai_pow_dec : forall (F : fmt), on_nai2 (fun (x : ditv F) (y : ditv F) => pow_dec x y) (empty_rep, ill).
Proof. intros F x y Wx Wy HH. unfold pow_dec. nop HH. Qed.
Lemma nai_atan2_dec : forall (F : fmt), on_nai2 (fun (x : ditv F) (y : ditv F) => atan2_dec x y) (empty_rep, ill).
Proof. intros F x y Wx Wy HH. unfold atan2_dec. nop HH. Qed.
Lemma nai_intersection_dec : forall (F : fmt), on_nai2 (fun (x : ditv F) (y : ditv F) => intersection_dec x y) (empty_rep, ill).
Proof. intros F x y Wx Wy HH. unfold intersection_dec. nop HH. Qed.
Lemma nai_convex_hull_dec : forall (F : fmt), on_nai2 (fun (x : ditv F) (y : ditv F) => convex_hull_dec x y) (empty_rep, ill).
Proof. intros F x y Wx Wy HH. unfold convex_hull_dec. nop HH. Qed.
Lemma nai_cancel_minus_dec : forall (F : fmt), on_nai2 (fun (x : ditv F) (y : ditv F) => cancel_minus_dec x y) (empty_rep, ill).
Proof. intros F x y Wx Wy HH. unfold cancel_minus_dec. nop HH. Qed.
Lemma nai_fma_dec : forall (F : fmt), on_nai3 (fun (x : ditv F) (y : ditv F) (z : ditv F) => fma_dec x y z) (empty_rep, ill).
Proof. intros F x y z Wx Wy Wz HH. unfold fma_dec. nop HH. Qed.
Lemma nai_neg_dec_mixed : forall (T : fmt) (F : fmt), on_nai1 (fun (x : ditv F) => neg_dec_mixed T x) (empty_rep, ill).
Proof. intros T F x Wx HH. unfold neg_dec_mixed. nop HH. Qed.
Lemma nai_pos_dec_mixed : forall (T : fmt) (F : fmt), on_nai1 (fun (x : ditv F) => pos_dec_mixed T x) (empty_rep, ill).
Proof. intros T F x Wx HH. unfold pos_dec_mixed. nop HH. Qed.
Lemma nai_recip_dec_mixed : forall (T : fmt) (F : fmt), on_nai1 (fun (x : ditv F) => recip_dec_mixed T x) (empty_rep, ill).
Proof. intros T F x Wx HH. unfold recip_dec_mixed. nop HH. Qed.
Lemma nai_sqr_dec_mixed : forall (T : fmt) (F : fmt), on_nai1 (fun (x : ditv F) => sqr_dec_mixed T x) (empty_rep, ill).
Proof. intros T F x Wx HH. unfold sqr_dec_mixed. nop HH. Qed.
Lemma nai_sqrt_dec_mixed : forall (T : fmt) (F : fmt), on_nai1 (fun (x : ditv F) => sqrt_dec_mixed T x) (empty_rep, ill).
Proof. intros T F x Wx HH. unfold sqrt_dec_mixed. nop HH. Qed.
Lemma nai_abs_dec_mixed : forall (T : fmt) (F : fmt), on_nai1 (fun (x : ditv F) => abs_dec_mixed T x) (empty_rep, ill).
Proof. intros T F x Wx HH. unfold abs_dec_mixed. nop HH. Qed.
Lemma nai_exp_dec_mixed : forall (T : fmt) (F : fmt), on_nai1 (fun (x : ditv F) => exp_dec_mixed T x) (empty_rep, ill).
Proof. intros T F x Wx HH. unfold exp_dec_mixed. nop HH. Qed.
Lemma nai_exp2_dec_mixed : forall (T : fmt) (F : fmt), on_nai1 (fun (x : ditv F) => exp2_dec_mixed T x) (empty_rep, ill).
Proof. intros T F x Wx HH. unfold exp2_dec_mixed. nop HH. Qed.
Lemma nai_exp10_dec_mixed : forall (T : fmt) (F : fmt), on_nai1 (fun (x : ditv F) => exp10_dec_mixed T x) (empty_rep, ill).
Proof. intros T F x Wx HH. unfold exp10_dec_mixed. nop HH. Qed.
Lemma nai_log_dec_mixed : forall (T : fmt) (F : fmt), on_nai1 (fun (x : ditv F) => log_dec_mixed T x) (empty_rep, ill).
Proof. intros T F x Wx HH. unfold log_dec_mixed. nop HH. Qed.
Lemma nai_log2_dec_mixed : forall (T : fmt) (F : fmt), on_nai1 (fun (x : ditv F) => log2_dec_mixed T x) (empty_rep, ill).
Proof. intros T F x Wx HH. unfold log2_dec_mixed. nop HH. Qed.
Lemma nai_log10_dec_mixed : forall (T : fmt) (F : fmt), on_nai1 (fun (x : ditv F) => log10_dec_mixed T x) (empty_rep, ill).
Proof. intros T F x Wx HH. unfold log10_dec_mixed. nop HH. Qed.
Lemma nai_sin_dec_mixed : forall (T : fmt) (F : fmt), on_nai1 (fun (x : ditv F) => sin_dec_mixed T x) (empty_rep, ill).
Proof. intros T F x Wx HH. unfold sin_dec_mixed. nop HH. Qed.
Lemma nai_cos_dec_mixed : forall (T : fmt) (F : fmt), on_nai1 (fun (x : ditv F) => cos_dec_mixed T x) (empty_rep, ill).
Proof. intros T F x Wx HH. unfold cos_dec_mixed. nop HH. Qed.
Lemma nai_tan_dec_mixed : forall (T : fmt) (F : fmt), on_nai1 (fun (x : ditv F) => tan_dec_mixed T x) (empty_rep, ill).
Proof. intros T F x Wx HH. unfold tan_dec_mixed. nop HH. Qed.
Lemma nai_asin_dec_mixed : forall (T : fmt) (F : fmt), on_nai1 (fun (x : ditv F) => asin_dec_mixed T x) (empty_rep, ill).
Proof. intros T F x Wx HH. unfold asin_dec_mixed. nop HH. Qed.
Lemma nai_acos_dec_mixed : forall (T : fmt) (F : fmt), on_nai1 (fun (x : ditv F) => acos_dec_mixed T x) (empty_rep, ill).
Proof. intros T F x Wx HH. unfold acos_dec_mixed. nop HH. Qed.
Lemma nai_atan_dec_mixed : forall (T : fmt) (F : fmt), on_nai1 (fun (x : ditv F) => atan_dec_mixed T x) (empty_rep, ill).
Proof. intros T F x Wx HH. unfold atan_dec_mixed. nop HH. Qed.
Lemma nai_sinh_dec_mixed : forall (T : fmt) (F : fmt), on_nai1 (fun (x : ditv F) => sinh_dec_mixed T x) (empty_rep, ill).
Proof. intros T F x Wx HH. unfold sinh_dec_mixed. nop HH. Qed.
Lemma nai_cosh_dec_mixed : forall (T : fmt) (F : fmt), on_nai1 (fun (x : ditv F) => cosh_dec_mixed T x) (empty_rep, ill).
Proof. intros T F x Wx HH. unfold cosh_dec_mixed. nop HH. Qed.
Lemma nai_tanh_dec_mixed : forall (T : fmt) (F : fmt), on_nai1 (fun (x : ditv F) => tanh_dec_mixed T x) (empty_rep, ill).
Proof. intros T F x Wx HH. unfold tanh_dec_mixed. nop HH. Qed.
Lemma nai_asinh_dec_mixed : forall (T : fmt) (F : fmt), on_nai1 (fun (x : ditv F) => asinh_dec_mixed T x) (empty_rep, ill).
Proof. intros T F x Wx HH. unfold asinh_dec_mixed. nop HH. Qed.
Lemma nai_acosh_dec_mixed : forall (T : fmt) (F : fmt), on_nai1 (fun (x : ditv F) => acosh_dec_mixed T x) (empty_rep, ill).
Proof. intros T F x Wx HH. unfold acosh_dec_mixed. nop HH. Qed.
Lemma nai_atanh_dec_mixed : forall (T : fmt) (F : fmt), on_nai1 (fun (x : ditv F) => atanh_dec_mixed T x) (empty_rep, ill).
Proof. intros T F x Wx HH. unfold atanh_dec_mixed. nop HH. Qed.
Lemma nai_sign_dec_mixed : forall (T : fmt) (F : fmt), on_nai1 (fun (x : ditv F) => sign_dec_mixed T x) (empty_rep, ill).
Proof. intros T F x Wx HH. unfold sign_dec_mixed. nop HH. Qed.
Lemma nai_ceil_dec_mixed : forall (T : fmt) (F : fmt), on_nai1 (fun (x : ditv F) => ceil_dec_mixed T x) (empty_rep, ill).
Proof. intros T F x Wx HH. unfold ceil_dec_mixed. nop HH. Qed.
Lemma nai_floor_dec_mixed : forall (T : fmt) (F : fmt), on_nai1 (fun (x : ditv F) => floor_dec_mixed T x) (empty_rep, ill).
Proof. intros T F x Wx HH. unfold floor_dec_mixed. nop HH. Qed.
Lemma nai_trunc_dec_mixed : forall (T : fmt) (F : fmt), on_nai1 (fun (x : ditv F) => trunc_dec_mixed T x) (empty_rep, ill).
Proof. intros T F x Wx HH. unfold trunc_dec_mixed. nop HH. Qed.
Lemma nai_round_ties_to_even_dec_mixed : forall (T : fmt) (F : fmt), on_nai1 (fun (x : ditv F) => rte_dec_mixed T x) (empty_rep, ill).
Proof. intros T F x Wx HH. unfold rte_dec_mixed. nop HH. Qed.
Lemma nai_round_ties_to_away_dec_mixed : forall (T : fmt) (F : fmt), on_nai1 (fun (x : ditv F) => rta_dec_mixed T x) (empty_rep, ill).
Proof. intros T F x Wx HH. unfold rta_dec_mixed. nop HH. Qed.
Lemma nai_pown_dec_mixed : forall (T : fmt) (F : fmt) (p : Z), on_nai1 (fun (x : ditv F) => pown_dec_mixed T x p) (empty_rep, ill).
Proof. intros T F p x Wx HH. unfold pown_dec_mixed. nop HH. Qed.
Lemma nai_add_dec_mixed : forall (T : fmt) (F : fmt) (G : fmt), on_nai2 (fun (x : ditv F) (y : ditv G) => add_dec_mixed T x y) (empty_rep, ill).
Proof. intros T F G x y Wx Wy HH. unfold add_dec_mixed. nop HH. Qed.
Lemma nai_sub_dec_mixed : forall (T : fmt) (F : fmt) (G : fmt), on_nai2 (fun (x : ditv F) (y : ditv G) => sub_dec_mixed T x y) (empty_rep, ill).
Proof. intros T F G x y Wx Wy HH. unfold sub_dec_mixed. nop HH. Qed.
Lemma nai_mul_dec_mixed : forall (T : fmt) (F : fmt) (G : fmt), on_nai2 (fun (x : ditv F) (y : ditv G) => mul_dec_mixed T x y) (empty_rep, ill).
Proof. intros T F G x y Wx Wy HH. unfold mul_dec_mixed. nop HH. Qed.
Lemma nai_div_dec_mixed : forall (T : fmt) (F : fmt) (G : fmt), on_nai2 (fun (x : ditv F) (y : ditv G) => div_dec_mixed T x y) (empty_rep, ill).
Proof. intros T F G x y Wx Wy HH. unfold div_dec_mixed. nop HH. Qed.
Lemma nai_min_dec_mixed : forall (T : fmt) (F : fmt) (G : fmt), on_nai2 (fun (x : ditv F) (y : ditv G) => min_dec_mixed T x y) (empty_rep, ill).
Proof. intros T F G x y Wx Wy HH. unfold min_dec_mixed. nop HH. Qed.
Lemma nai_max_dec_mixed : forall (T : fmt) (F : fmt) (G : fmt), on_nai2 (fun (x : ditv F) (y : ditv G) => max_dec_mixed T x y) (empty_rep, ill).
Proof. intros T F G x y Wx Wy HH. unfold max_dec_mixed. nop HH. Qed.
Lemma nai_pow_dec_mixed : forall (T : fmt) (F : fmt) (G : fmt), on_nai2 (fun (x : ditv F) (y : ditv G) => pow_dec_mixed T x y) (empty_rep, ill).
Proof. intros T F G x y Wx Wy HH. unfold pow_dec_mixed. nop HH. Qed.
Lemma nai_atan2_dec_mixed : forall (T : fmt) (F : fmt) (G : fmt), on_nai2 (fun (x : ditv F) (y : ditv G) => atan2_dec_mixed T x y) (empty_rep, ill).
Proof. intros T F G x y Wx Wy HH. unfold atan2_dec_mixed. nop HH. Qed.
Lemma nai_intersection_dec_mixed : forall (T : fmt) (F : fmt) (G : fmt), on_nai2 (fun (x : ditv F) (y : ditv G) => intersection_dec_mixed T x y) (empty_rep, ill).
Proof. intros T F G x y Wx Wy HH. unfold intersection_dec_mixed. nop HH. Qed.
Lemma nai_convex_hull_dec_mixed : forall (T : fmt) (F : fmt) (G : fmt), on_nai2 (fun (x : ditv F) (y : ditv G) => convex_hull_dec_mixed T x y) (empty_rep, ill).
Proof. intros T F G x y Wx Wy HH. unfold convex_hull_dec_mixed. nop HH. Qed.
Lemma nai_cancel_minus_dec_mixed : forall (T : fmt) (F : fmt) (G : fmt), on_nai2 (fun (x : ditv F) (y : ditv G) => cancel_minus_dec_mixed T x y) (empty_rep, ill).
Proof. intros T F G x y Wx Wy HH. unfold cancel_minus_dec_mixed. nop HH. Qed.
Lemma nai_fma_dec_mixed : forall (T : fmt) (F : fmt) (G : fmt) (H : fmt), on_nai3 (fun (x : ditv F) (y : ditv G) (z : ditv H) => fma_dec_mixed T x y z) (empty_rep, ill).
Proof. intros T F G H x y z Wx Wy Wz HH. unfold fma_dec_mixed. nop HH. Qed.
Lemma nai_sqr_rev_dec : forall (F : fmt), on_nai2 (fun (c : ditv F) (x : ditv F) => sqr_rev_dec c x) (empty_rep, ill).
Proof. intros F c x Wc Wx HH. unfold sqr_rev_dec. nop HH. Qed.
Lemma nai_sqr_rev1_dec : forall (F : fmt), on_nai1 (fun (c : ditv F) => sqr_rev1_dec c) (empty_rep, ill).
Proof. intros F c Wc HH. unfold sqr_rev1_dec, sqr_rev_dec. nop HH. Qed.
Lemma nai_sqr_rev_dec_mixed : forall (T : fmt) (F : fmt) (G : fmt), on_nai2 (fun (c : ditv F) (x : ditv G) => sqr_rev_dec_mixed T c x) (empty_rep, ill).
Proof. intros T F G c x Wc Wx HH. unfold sqr_rev_dec_mixed. nop HH. Qed.
Lemma nai_abs_rev_dec : forall (F : fmt), on_nai2 (fun (c : ditv F) (x : ditv F) => abs_rev_dec c x) (empty_rep, ill).
Proof. intros F c x Wc Wx HH. unfold abs_rev_dec. nop HH. Qed.
Lemma nai_abs_rev1_dec : forall (F : fmt), on_nai1 (fun (c : ditv F) => abs_rev1_dec c) (empty_rep, ill).
Proof. intros F c Wc HH. unfold abs_rev1_dec, abs_rev_dec. nop HH. Qed.
Lemma nai_abs_rev_dec_mixed : forall (T : fmt) (F : fmt) (G : fmt), on_nai2 (fun (c : ditv F) (x : ditv G) => abs_rev_dec_mixed T c x) (empty_rep, ill).
Proof. intros T F G c x Wc Wx HH. unfold abs_rev_dec_mixed. nop HH. Qed.
Lemma nai_cosh_rev_dec : forall (F : fmt), on_nai2 (fun (c : ditv F) (x : ditv F) => cosh_rev_dec c x) (empty_rep, ill).
Proof. intros F c x Wc Wx HH. unfold cosh_rev_dec. nop HH. Qed.
Lemma nai_cosh_rev1_dec : forall (F : fmt), on_nai1 (fun (c : ditv F) => cosh_rev1_dec c) (empty_rep, ill).
Proof. intros F c Wc HH. unfold cosh_rev1_dec, cosh_rev_dec. nop HH. Qed.
Lemma nai_cosh_rev_dec_mixed : forall (T : fmt) (F : fmt) (G : fmt), on_nai2 (fun (c : ditv F) (x : ditv G) => cosh_rev_dec_mixed T c x) (empty_rep, ill).
Proof. intros T F G c x Wc Wx HH. unfold cosh_rev_dec_mixed. nop HH. Qed.
Lemma nai_sin_rev_dec : forall (F : fmt), on_nai2 (fun (c : ditv F) (x : ditv F) => sin_rev_dec c x) (empty_rep, ill).
Proof. intros F c x Wc Wx HH. unfold sin_rev_dec. nop HH. Qed.
Lemma nai_sin_rev1_dec : forall (F : fmt), on_nai1 (fun (c : ditv F) => sin_rev1_dec c) (empty_rep, ill).
Proof. intros F c Wc HH. unfold sin_rev1_dec, sin_rev_dec. nop HH. Qed.
Lemma nai_sin_rev_dec_mixed : forall (T : fmt) (F : fmt) (G : fmt), on_nai2 (fun (c : ditv F) (x : ditv G) => sin_rev_dec_mixed T c x) (empty_rep, ill).
Proof. intros T F G c x Wc Wx HH. unfold sin_rev_dec_mixed. nop HH. Qed.
Lemma nai_cos_rev_dec : forall (F : fmt), on_nai2 (fun (c : ditv F) (x : ditv F) => cos_rev_dec c x) (empty_rep, ill).
Proof. intros F c x Wc Wx HH. unfold cos_rev_dec. nop HH. Qed.
Lemma nai_cos_rev1_dec : forall (F : fmt), on_nai1 (fun (c : ditv F) => cos_rev1_dec c) (empty_rep, ill).
Proof. intros F c Wc HH. unfold cos_rev1_dec, cos_rev_dec. nop HH. Qed.
Lemma nai_cos_rev_dec_mixed : forall (T : fmt) (F : fmt) (G : fmt), on_nai2 (fun (c : ditv F) (x : ditv G) => cos_rev_dec_mixed T c x) (empty_rep, ill).
Proof. intros T F G c x Wc Wx HH. unfold cos_rev_dec_mixed. nop HH. Qed.
Lemma nai_tan_rev_dec : forall (F : fmt), on_nai2 (fun (c : ditv F) (x : ditv F) => tan_rev_dec c x) (empty_rep, ill).
Proof. intros F c x Wc Wx HH. unfold tan_rev_dec. nop HH. Qed.
Lemma nai_tan_rev1_dec : forall (F : fmt), on_nai1 (fun (c : ditv F) => tan_rev1_dec c) (empty_rep, ill).
Proof. intros F c Wc HH. unfold tan_rev1_dec, tan_rev_dec. nop HH. Qed.
Lemma nai_tan_rev_dec_mixed : forall (T : fmt) (F : fmt) (G : fmt), on_nai2 (fun (c : ditv F) (x : ditv G) => tan_rev_dec_mixed T c x) (empty_rep, ill).
Proof. intros T F G c x Wc Wx HH. unfold tan_rev_dec_mixed. nop HH. Qed.
Lemma nai_pown_rev_dec : forall (F : fmt) (fuel : nat) (p : Z), on_nai2 (fun (c : ditv F) (x : ditv F) => pown_rev_dec fuel c x p) (empty_rep, ill).
Proof. intros F fuel p c x Wc Wx HH. unfold pown_rev_dec. nop HH. Qed.
Lemma nai_pown_rev1_dec : forall (F : fmt) (fuel : nat) (p : Z), on_nai1 (fun (c : ditv F) => pown_rev1_dec fuel c p) (empty_rep, ill).
Proof. intros F fuel p c Wc HH. unfold pown_rev1_dec, pown_rev_dec. nop HH. Qed.
Lemma nai_pown_rev_dec_mixed : forall (T : fmt) (F : fmt) (G : fmt) (fuel : nat) (p : Z), on_nai2 (fun (c : ditv F) (x : ditv G) => pown_rev_dec_mixed T fuel c x p) (empty_rep, ill).
Proof. intros T F G fuel p c x Wc Wx HH. unfold pown_rev_dec_mixed. nop HH. Qed.
Lemma nai_mul_rev_dec : forall (F : fmt), on_nai3 (fun (b : ditv F) (c : ditv F) (x : ditv F) => mul_rev_dec b c x) (empty_rep, ill).
Proof. intros F b c x Wb Wc Wx HH. unfold mul_rev_dec. nop HH. Qed.
Lemma nai_mul_rev2_dec : forall (F : fmt), on_nai2 (fun (b : ditv F) (c : ditv F) => mul_rev2_dec b c) (empty_rep, ill).
Proof. intros F b c Wb Wc HH. unfold mul_rev2_dec, mul_rev_dec. nop HH. Qed.
Lemma nai_mul_rev_dec_mixed : forall (T : fmt) (F : fmt) (G : fmt) (H : fmt), on_nai3 (fun (b : ditv F) (c : ditv G) (x : ditv H) => mul_rev_dec_mixed T b c x) (empty_rep, ill).
Proof. intros T F G H b c x Wb Wc Wx HH. unfold mul_rev_dec_mixed. nop HH. Qed.
Lemma nai_mul_rev_to_pair_dec : forall (F : fmt), on_nai2 (fun (b : ditv F) (c : ditv F) => mul_rev_to_pair_dec b c) ((empty_rep, ill), (empty_rep, ill)).
Proof. intros F b c Wb Wc HH. unfold mul_rev_to_pair_dec. nop HH. Qed.
Lemma nai_equal_dec : forall (F : fmt) (G : fmt), on_nai2 (fun (x : ditv F) (y : ditv G) => rel_dec equal_mixed x y) false.
Proof. intros F G x y Wx Wy HH.  nop HH. Qed.
Lemma nai_subset_dec : forall (F : fmt) (G : fmt), on_nai2 (fun (x : ditv F) (y : ditv G) => rel_dec subset_mixed x y) false.
Proof. intros F G x y Wx Wy HH.  nop HH. Qed.
Lemma nai_less_dec : forall (F : fmt) (G : fmt), on_nai2 (fun (x : ditv F) (y : ditv G) => rel_dec less_mixed x y) false.
Proof. intros F G x y Wx Wy HH.  nop HH. Qed.
Lemma nai_precedes_dec : forall (F : fmt) (G : fmt), on_nai2 (fun (x : ditv F) (y : ditv G) => rel_dec precedes_mixed x y) false.
Proof. intros F G x y Wx Wy HH.  nop HH. Qed.
Lemma nai_interior_dec : forall (F : fmt) (G : fmt), on_nai2 (fun (x : ditv F) (y : ditv G) => rel_dec interior_mixed x y) false.
Proof. intros F G x y Wx Wy HH.  nop HH. Qed.
Lemma nai_strictly_less_dec : forall (F : fmt) (G : fmt), on_nai2 (fun (x : ditv F) (y : ditv G) => rel_dec strictly_less_mixed x y) false.
Proof. intros F G x y Wx Wy HH.  nop HH. Qed.
Lemma nai_strictly_precedes_dec : forall (F : fmt) (G : fmt), on_nai2 (fun (x : ditv F) (y : ditv G) => rel_dec strictly_precedes_mixed x y) false.
Proof. intros F G x y Wx Wy HH.  nop HH. Qed.
Lemma nai_disjoint_dec : forall (F : fmt) (G : fmt), on_nai2 (fun (x : ditv F) (y : ditv G) => rel_dec disjoint_mixed x y) false.
Proof. intros F G x y Wx Wy HH.  nop HH. Qed.
Lemma nai_is_empty_dec : forall (F : fmt), on_nai1 (fun (x : ditv F) => is_empty_dec x) false.
Proof. intros F x Wx HH. unfold is_empty_dec. nop HH. Qed.
Lemma nai_is_entire_dec : forall (F : fmt), on_nai1 (fun (x : ditv F) => is_entire_dec x) false.
Proof. intros F x Wx HH. unfold is_entire_dec. nop HH. Qed.
Lemma nai_is_common_interval_dec : forall (F : fmt), on_nai1 (fun (x : ditv F) => is_common_interval_dec x) false.
Proof. intros F x Wx HH. unfold is_common_interval_dec. nop HH. Qed.
Lemma nai_is_singleton_dec : forall (F : fmt), on_nai1 (fun (x : ditv F) => is_singleton_dec x) false.
Proof. intros F x Wx HH. unfold is_singleton_dec. nop HH. Qed.
Lemma nai_is_member_dec : forall (F : fmt) (G : fmt) (m : float G), on_nai1 (fun (x : ditv F) => is_member_dec m x) false.
Proof. intros F G m x Wx HH. unfold is_member_dec. nop HH. Qed.
Lemma nai_overlap_dec : forall (F : fmt) (G : fmt), on_nai2 (fun (x : ditv F) (y : ditv G) => overlap_dec x y) o_undefined.
Proof. intros F G x y Wx Wy HH. unfold overlap_dec. nop HH. Qed.
Lemma nai_n_inf_dec : forall (F : fmt), on_nai1 (fun (x : ditv F) => n_inf_dec x) fnan.
Proof. intros F x Wx HH. unfold n_inf_dec. nop HH. Qed.
Lemma nai_n_inf_dec_mixed : forall (G : fmt) (F : fmt), on_nai1 (fun (x : ditv F) => num_dec_mixed G (n_inf_mixed G) x) fnan.
Proof. intros G F x Wx HH.  nop HH. Qed.
Lemma nai_n_sup_dec : forall (F : fmt), on_nai1 (fun (x : ditv F) => n_sup_dec x) fnan.
Proof. intros F x Wx HH. unfold n_sup_dec. nop HH. Qed.
Lemma nai_n_sup_dec_mixed : forall (G : fmt) (F : fmt), on_nai1 (fun (x : ditv F) => num_dec_mixed G (n_sup_mixed G) x) fnan.
Proof. intros G F x Wx HH.  nop HH. Qed.
Lemma nai_n_mid_dec : forall (F : fmt), on_nai1 (fun (x : ditv F) => n_mid_dec x) fnan.
Proof. intros F x Wx HH. unfold n_mid_dec. nop HH. Qed.
Lemma nai_n_mid_dec_mixed : forall (G : fmt) (F : fmt), on_nai1 (fun (x : ditv F) => num_dec_mixed G (n_mid_mixed G) x) fnan.
Proof. intros G F x Wx HH.  nop HH. Qed.
Lemma nai_n_rad_dec : forall (F : fmt), on_nai1 (fun (x : ditv F) => n_rad_dec x) fnan.
Proof. intros F x Wx HH. unfold n_rad_dec. nop HH. Qed.
Lemma nai_n_rad_dec_mixed : forall (G : fmt) (F : fmt), on_nai1 (fun (x : ditv F) => num_dec_mixed G (n_rad_mixed G) x) fnan.
Proof. intros G F x Wx HH.  nop HH. Qed.
Lemma nai_n_wid_dec : forall (F : fmt), on_nai1 (fun (x : ditv F) => n_wid_dec x) fnan.
Proof. intros F x Wx HH. unfold n_wid_dec. nop HH. Qed.
Lemma nai_n_wid_dec_mixed : forall (G : fmt) (F : fmt), on_nai1 (fun (x : ditv F) => num_dec_mixed G (n_wid_mixed G) x) fnan.
Proof. intros G F x Wx HH.  nop HH. Qed.
Lemma nai_n_mag_dec : forall (F : fmt), on_nai1 (fun (x : ditv F) => n_mag_dec x) fnan.
Proof. intros F x Wx HH. unfold n_mag_dec. nop HH. Qed.
Lemma nai_n_mag_dec_mixed : forall (G : fmt) (F : fmt), on_nai1 (fun (x : ditv F) => num_dec_mixed G (n_mag_mixed G) x) fnan.
Proof. intros G F x Wx HH.  nop HH. Qed.
Lemma nai_n_mig_dec : forall (F : fmt), on_nai1 (fun (x : ditv F) => n_mig_dec x) fnan.
Proof. intros F x Wx HH. unfold n_mig_dec. nop HH. Qed.
Lemma nai_n_mig_dec_mixed : forall (G : fmt) (F : fmt), on_nai1 (fun (x : ditv F) => num_dec_mixed G (n_mig_mixed G) x) fnan.
Proof. intros G F x Wx HH.  nop HH. Qed.
Lemma nai_n_mid_rad_dec : forall (F : fmt), on_nai1 (fun (x : ditv F) => n_mid_rad_dec x) (fnan, fnan).
Proof. intros F x Wx HH. unfold n_mid_rad_dec. nop HH. Qed.
Lemma nai_n_mid_rad_dec_mixed : forall (G : fmt) (F : fmt), on_nai1 (fun (x : ditv F) => n_mid_rad_dec_mixed G x) (fnan, fnan).
Proof. intros G F x Wx HH. unfold n_mid_rad_dec_mixed. nop HH. Qed.
Lemma nai_convert_type_dec : forall (G : fmt) (F : fmt), on_nai1 (fun (x : ditv F) => convert_type_dec G x) (empty_rep, ill).
Proof. intros G F x Wx HH. unfold convert_type_dec, convert_hull_dec. nop HH. Qed.
Lemma nai_copy_dec : forall (F : fmt), on_nai1 (fun (x : ditv F) => copy_dec x) (empty_rep, ill).
Proof. intros F x W H. apply returns_eq. unfold copy_dec. rewrite is_valid_dec_wf by easy. mreds. now rewrite (proj2 (NaI_iff x W) H). Qed.
Lemma nai_cancel_plus_dec : forall (F : fmt), on_nai2 (fun (x y : ditv F) => cancel_plus_dec x y) (empty_rep, ill).
Proof. intros F x y Wx Wy H. now apply cancel_plus_dec_ok. Qed.
Lemma nai_cancel_plus_dec_mixed : forall (T F G : fmt), on_nai2 (fun (x : ditv F) (y : ditv G) => cancel_plus_dec_mixed T x y) (empty_rep, ill).
Proof.
intros T F G x y Wx Wy H. unfold cancel_plus_dec_mixed.
destruct (deq_spec (snd y) ill) as [E|E].
- assert (R : neg_dec_mixed T y = ret nai) by (apply returns_eq; now apply nai_neg_dec_mixed).
  rewrite R. mreds. apply cancel_minus_dec_mixed_nai; [easy|apply wf_nai|now right].
- destruct H as [H|H]; [|easy]. destruct (neg_dec_mixed_ret T y Wy) as (y' & R & W'). rewrite R. mreds.
  apply cancel_minus_dec_mixed_nai; [easy|easy|now left].
Qed.
Lemma nai_mul_rev_to_pair_dec_mixed : forall (T F G : fmt), on_nai2 (fun (b : ditv F) (c : ditv G) => mul_rev_to_pair_dec_mixed T b c)
  ((empty_rep, ill), (empty_rep, ill)).
Proof. 
intros T F G x y Wx Wy HH. apply returns_eq. unfold mul_rev_to_pair_dec_mixed. cbv zeta. set (W := pmax (pmax T F) G).
rewrite !is_valid_dec_wf, !is_nai_wf by easy. mreds.
assert (A : forall (b c : ditv W), wf_dec b -> wf_dec c -> snd b = ill \/ snd c = ill ->
  bind (mul_rev_to_pair_dec b c) (fun p => bind (convert_hull_dec T (fst p)) (fun u => bind (convert_hull_dec T (snd p)) (fun v => ret (u, v)))) =
  ret ((@empty_rep T, ill), (@empty_rep T, ill))).
{ intros b c Wb Wc H. assert (R : mul_rev_to_pair_dec b c = ret ((empty_rep, ill), (empty_rep, ill))) by (apply returns_eq; now apply nai_mul_rev_to_pair_dec).
  rewrite R. mreds. cbn [fst snd]. rewrite convert_hull_dec_nai by (apply wf_nai || easy). now mreds. }
assert (B : forall a b : bool, bind (if a then ret true else if b then ret true else ret false) (fun _ : bool => @ret unit tt) = ret tt) by (intros [|] [|]; easy).
destruct (convert_hull_dec_valid W x Wx) as (x' & X1 & X2). destruct (convert_hull_dec_valid W y Wy) as (y' & Y1 & Y2).
assert (K : snd x' = ill \/ snd y' = ill).
{ destruct HH as [H|H]; [left; rewrite (convert_hull_dec_nai W x Wx H) in X1|right; rewrite (convert_hull_dec_nai W y Wy H) in Y1].
  - apply (f_equal (fun m => m (Est 0 0))) in X1. now injection X1 as <-.
  - apply (f_equal (fun m => m (Est 0 0))) in Y1. now injection Y1 as <-. }
rewrite X1, Y1. destruct (deq (snd x) ill); mreds; [|destruct (deq (snd y) ill); mreds]; now apply A.
 Qed.

(** The decorated tangent, in every format. *)
Lemma dmin_not_ill d e : d <> ill -> e <> ill -> dmin d e <> ill.
Proof. unfold dmin. now destruct (_ <? _)%N. Qed.
Lemma tan_dec_proper {F} (x : ditv F) : wf_dec x -> is_deco (snd x) -> snd x <> ill -> exists z, tan_dec x = ret z /\ wf_dec z /\ snd z <> ill.
Proof.
intros Wx Dx Nx. pose proof (wf_dec_wf x Wx) as W. unfold tan_dec.
rewrite is_valid_dec_wf, is_nai_wf, is_empty_dec_wf by easy. destruct (deq_spec (snd x) ill) as [C|_]; [easy|]. mreds.
destruct (isnan (fst (fst x))) eqn:Ex; mreds.
{ exists empty_dec. split; [easy|]. split; [|easy]. left. split; [easy|]. now right. }
assert (We : wf_dec (@entire F, trv)). { right. cbn [fst snd]. split; [now exists 0|]. split; easy. }
destruct (mpfr_greater (rsub mode_UP (snd (fst x)) (fst (fst x))) (mpfr_const_pi mode_DN)) eqn:G1.
{ exists (entire, trv). split; [easy|]. split; easy. }
assert (Fx : is_finite (fst (fst x)) = true /\ is_finite (snd (fst x)) = true).
{ pose proof (wf_nonempty _ W Ex) as Hr. destruct (@pi_fin F) as [P1 P2]. set (p := mpfr_const_pi mode_DN) in *.
  destruct (is_finite (fst (fst x)) && is_finite (snd (fst x))) eqn:Ef; [now apply andb_true_iff in Ef|]. exfalso.
  rewrite (width_inf (fst (fst x)) (snd (fst x)) p) in G1; [easy|easy|]. clear G1.
  pose proof (wf_view _ W) as V. destruct V; cbn [fst snd] in *; try easy.
  + left. now repeat split.
  + left. repeat split; [|now apply isnan_fin]. now intros ->.
  + right. repeat split; [|now apply isnan_fin]. now intros ->.
  + rewrite H, H0 in Ef. easy. }
destruct Fx as [F1 F2].
assert (Ra : is_RD (tan (B2R (fst (fst x)))) (mpfr_tan mode_DN (fst (fst x)))) by (unfold mpfr_tan; rewrite F1; apply rround_RD).
assert (Rb : is_RU (tan (B2R (snd (fst x)))) (mpfr_tan mode_UP (snd (fst x)))) by (unfold mpfr_tan; rewrite F2; apply rround_RU).
destruct (mpfr_greater (mpfr_tan mode_DN (fst (fst x))) (mpfr_tan mode_UP (snd (fst x)))) eqn:G2.
{ exists (entire, trv). split; [easy|]. split; easy. }
pose proof (not_greater_wf _ _ _ _ (proj1 Ra) (proj1 Rb) G2) as Wz.
rewrite is_common_wf by easy. mreds. cbn [fst snd]. eexists. split; [reflexivity|]. cbn [fst snd].
split; [|apply dmin_not_ill; [easy|now destruct andb]].
right. cbn [fst snd]. split; [|split; [apply dmin_not_ill; [easy|now destruct andb]|]].
- destruct Wz as [E|E]; [|easy]. exfalso. apply (f_equal fst) in E. cbn [fst empty_rep] in E. destruct Ra as [Ra _]. rewrite E in Ra. easy.
- destruct andb eqn:B; intros E; [now apply andb_true_iff in B|]. revert E. unfold dmin. destruct (N.ltb_spec dac (snd x)) as [L|L]; [easy|].
  intros E. rewrite E in L. now exfalso; apply L.
Qed.
Lemma tan_no_nai (F : fmt) : no_nai1 (@tan_dec F).
Proof. intros x (P1 & P2 & P3). destruct (tan_dec_proper x P1 P2 P3) as (z & Z1 & _ & Z2). exists z. split; [now apply returns_eq|easy]. Qed.
Lemma tan_mixed_no_nai (T F : fmt) : comparable T F -> no_nai1 (@tan_dec_mixed T F).
Proof.
intros HC x (P1 & P2 & P3). destruct (within_pmax T F HC) as [A B].
destruct (widen_dec (pmax T F) x B P1 P3) as (E1 & E2 & E3 & E4).
destruct (tan_dec_proper _ E2 P2 P3) as (z & Z1 & Z2 & Z3).
destruct (convert_hull_dec_spec T z Z2 Z3) as (v & V1 & _).
exists (v, if isnan (fst (fst z)) then snd z else demote T v (snd z)). split.
- apply returns_eq. unfold tan_dec_mixed, mixed_dec1. cbv zeta. rewrite is_valid_dec_wf, is_nai_wf by easy.
  destruct (deq_spec (snd x) ill) as [E|_]; [easy|]. mreds. rewrite E1. mreds. rewrite Z1. mreds. exact V1.
- cbn [snd]. destruct isnan; [easy|]. unfold demote. destruct bounded_dec; [easy|]. now destruct deq.
Qed.
Lemma setop_no_nai {F} (op : itv F -> itv F -> M (itv F)) (opd : ditv F -> ditv F -> M (ditv F)) :
  (forall x y, wf x -> wf y -> exists z, returns (op x y) z) ->
  (forall x y, wf_dec x -> wf_dec y -> snd x <> ill -> snd y <> ill -> opd x y = bind (op (fst x) (fst y)) (fun b => ret (b, trv))) -> no_nai2 opd.
Proof.
intros H1 H2 x y (P1 & P2 & P3) (Q1 & Q2 & Q3).
destruct (H1 (fst x) (fst y) (wf_dec_wf _ P1) (wf_dec_wf _ Q1)) as [z Hz]. exists (z, trv). split; [|easy].
apply returns_eq. apply returns_eq in Hz. rewrite H2, Hz by easy. now mreds.
Qed.
Lemma nai_is_nai {F} (x : ditv F) : wf_dec x -> exists b, returns (is_nai x) b /\ (b = true <-> x = (empty_rep, ill)).
Proof.
intros W. exists (deq (snd x) ill). split; [apply returns_eq; now apply is_nai_wf|]. rewrite NaI_iff by easy.
destruct (deq_spec (snd x) ill); now split.
Qed.
Lemma nai_decoration_part (F : fmt) : on_nai1 (fun x : ditv F => decoration_part x) ill.
Proof. intros x W H. apply returns_eq. unfold decoration_part. rewrite is_valid_dec_wf by easy. mreds. now rewrite H. Qed.
Lemma intersection_no_nai (F : fmt) : no_nai2 (@intersection_dec F).
Proof.
apply (setop_no_nai intersection); [|intros; now apply (@setop_dec_val F intersection)].
intros x y Wx Wy. destruct (intersection_exact x y Wx Wy) as (z & Hz & _). exists z. now apply returns_eq.
Qed.
Lemma convex_hull_no_nai (F : fmt) : no_nai2 (@convex_hull_dec F).
Proof.
apply (setop_no_nai convex_hull); [|intros; now apply (@setop_dec_val F convex_hull)].
intros x y Wx Wy. destruct (hull_tightest x y Wx Wy) as (z & Hz & _). now exists z.
Qed.

