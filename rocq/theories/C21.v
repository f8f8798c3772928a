(** * C21: numeric functions *)
From Coq Require Import ZArith NArith Reals Bool Lra.
From Flocq Require Import Core.Core IEEE754.BinarySingleNaN.
From Verif Require Import Fmt Spec Exc Deco SpecApi MBase PBase Ex PConv MMixed MNum SpecNum PNumF.

(** ** Bare functions *)
Theorem C21_inf : forall (F : fmt) (x : itv F), wf x ->
  gives (n_inf x) (fun v => greatest_below (points x) v /\ zero_is fm0 v).
Proof. exact @n_inf_spec. Qed.
Print Assumptions C21_inf.
Theorem C21_sup : forall (F : fmt) (x : itv F), wf x ->
  gives (n_sup x) (fun v => least_above (points x) v /\ zero_is f0 v).
Proof. exact @n_sup_spec. Qed.
Print Assumptions C21_sup.
Theorem C21_mid : forall (F : fmt) (x : itv F), (exists r, mem r x) -> gives (n_mid x) (fun m =>
  is_finite m = true /\ mem (B2R m) x /\ zero_is f0 m /\
  (bounded_rep x -> nearest ((B2R (fst x) + B2R (snd x)) / 2) m)).
Proof. exact @mid_ok. Qed.
Print Assumptions C21_mid.
Theorem C21_wid : forall (F : fmt) (x : itv F), (exists r, mem r x) ->
  gives (n_wid x) (fun v => least_above (differences x) v /\ zero_is f0 v).
Proof. exact (fun F x H => n_wid_spec x (mem_wf x H) (mem_nnan x H)). Qed.
Print Assumptions C21_wid.
Theorem C21_rad : forall (F : fmt) (x : itv F), (exists r, mem r x) ->
  exists m r, returns (n_mid_rad x) (m, r) /\ returns (n_mid x) m /\ returns (n_rad x) r /\
  is_finite m = true /\ mem (B2R m) x /\ least_above (distances (B2R m) x) r /\ zero_is f0 r.
Proof. exact @rad_ok. Qed.
Print Assumptions C21_rad.
Theorem C21_mag : forall (F : fmt) (x : itv F), (exists r, mem r x) ->
  gives (n_mag x) (fun v => least_above (magnitudes x) v /\ zero_is f0 v).
Proof. exact (fun F x H => n_mag_spec x (mem_wf x H) (mem_nnan x H)). Qed.
Print Assumptions C21_mag.
Theorem C21_mig : forall (F : fmt) (x : itv F), (exists r, mem r x) ->
  gives (n_mig x) (fun v => greatest_below (magnitudes x) v /\ zero_is f0 v).
Proof. exact (fun F x H => n_mig_spec x (mem_wf x H) (mem_nnan x H)). Qed.
Print Assumptions C21_mig.
Theorem C21_empty : forall F : fmt, n_mid (@empty_rep F) = ret fnan /\ n_wid (@empty_rep F) = ret fnan /\
  n_mag (@empty_rep F) = ret fnan /\ n_mig (@empty_rep F) = ret fnan /\ n_rad (@empty_rep F) = ret fnan /\
  n_mid_rad (@empty_rep F) = ret (fnan, fnan).
Proof. exact @n_empty. Qed.
Print Assumptions C21_empty.

(** ** Mixed result type *)
Theorem C21_inf_mixed : forall (F G : fmt), comparable F G -> forall x : itv F, wf x ->
  gives (n_inf_mixed G x) (fun v => greatest_below (points x) v /\ zero_is fm0 v).
Proof. exact @n_inf_mixed_spec. Qed.
Print Assumptions C21_inf_mixed.
Theorem C21_sup_mixed : forall (F G : fmt), comparable F G -> forall x : itv F, wf x ->
  gives (n_sup_mixed G x) (fun v => least_above (points x) v /\ zero_is f0 v).
Proof. exact @n_sup_mixed_spec. Qed.
Print Assumptions C21_sup_mixed.
Theorem C21_wid_mixed : forall (F G : fmt), comparable F G -> forall x : itv F, (exists r, mem r x) ->
  gives (n_wid_mixed G x) (fun v => least_above (differences x) v /\ zero_is f0 v).
Proof. exact @n_wid_mixed_spec. Qed.
Print Assumptions C21_wid_mixed.
Theorem C21_mag_mixed : forall (F G : fmt), comparable F G -> forall x : itv F, (exists r, mem r x) ->
  gives (n_mag_mixed G x) (fun v => least_above (magnitudes x) v /\ zero_is f0 v).
Proof. exact @n_mag_mixed_spec. Qed.
Print Assumptions C21_mag_mixed.
Theorem C21_mig_mixed : forall (F G : fmt), comparable F G -> forall x : itv F, (exists r, mem r x) ->
  gives (n_mig_mixed G x) (fun v => greatest_below (magnitudes x) v /\ zero_is f0 v).
Proof. exact @n_mig_mixed_spec. Qed.
Print Assumptions C21_mig_mixed.
(** The midpoint is correctly rounded to the result type, with overflow. *)
Theorem C21_mid_mixed : forall (F G : fmt) (x : itv F), (exists r, mem r x) -> gives (n_mid_mixed G x) (fun m =>
  zero_is f0 m /\ (within F G -> is_finite m = true /\ mem (B2R m) x) /\ (~ bounded_rep x -> is_finite m = true) /\
  (bounded_rep x -> nearest_or_inf ((B2R (fst x) + B2R (snd x)) / 2) m)).
Proof. exact @mid_mixed_ok. Qed.
Print Assumptions C21_mid_mixed.
Theorem C21_rad_mixed : forall (F G : fmt) (x : itv F), comparable F G -> (exists r, mem r x) ->
  exists m r, returns (n_mid_rad_mixed G x) (m, r) /\ returns (n_mid_mixed G x) m /\ returns (n_rad_mixed G x) r /\
  (is_finite m = true -> least_above (distances (B2R m) x) r) /\ zero_is f0 r.
Proof. exact @rad_mixed_ok. Qed.
Print Assumptions C21_rad_mixed.
Theorem C21_mid_unbounded : forall (F G : fmt) (x : itv F), (exists r, mem r x) -> gives (n_mid_mixed G x) (fun m =>
  (fst x = fminf -> snd x = finf -> m = f0) /\ (fst x = fminf -> snd x <> finf -> m = fneg fmaxv) /\
  (fst x <> fminf -> snd x = finf -> m = fmaxv)).
Proof. exact @mid_unbounded. Qed.
Print Assumptions C21_mid_unbounded.
Theorem C21_empty_mixed : forall F G : fmt,
  n_mid_mixed G (@empty_rep F) = ret fnan /\ n_wid_mixed G (@empty_rep F) = ret fnan /\
  n_mag_mixed G (@empty_rep F) = ret fnan /\ n_mig_mixed G (@empty_rep F) = ret fnan /\
  n_rad_mixed G (@empty_rep F) = ret fnan /\ n_mid_rad_mixed G (@empty_rep F) = ret (fnan, fnan).
Proof. exact @n_empty_mixed. Qed.
Print Assumptions C21_empty_mixed.

(** ** Decorated operands: NaN for NaI, else the interval part *)
Theorem C21_dec : forall (F : fmt) (x : ditv F), wf_dec x ->
  (snd x = ill -> returns (n_inf_dec x) fnan /\ returns (n_sup_dec x) fnan /\ returns (n_mid_dec x) fnan /\
    returns (n_rad_dec x) fnan /\ returns (n_wid_dec x) fnan /\ returns (n_mag_dec x) fnan /\
    returns (n_mig_dec x) fnan /\ returns (n_mid_rad_dec x) (fnan, fnan)) /\
  (snd x <> ill -> n_inf_dec x = n_inf (fst x) /\ n_sup_dec x = n_sup (fst x) /\ n_mid_dec x = n_mid (fst x) /\
    n_rad_dec x = n_rad (fst x) /\ n_wid_dec x = n_wid (fst x) /\ n_mag_dec x = n_mag (fst x) /\
    n_mig_dec x = n_mig (fst x) /\ n_mid_rad_dec x = n_mid_rad (fst x)).
Proof.
exact (fun F x W => conj
  (fun E => conj (proj1 (n_dec _ x W) E) (conj (proj1 (n_dec _ x W) E) (conj (proj1 (n_dec _ x W) E)
    (conj (proj1 (n_dec _ x W) E) (conj (proj1 (n_dec _ x W) E) (conj (proj1 (n_dec _ x W) E)
    (conj (proj1 (n_dec _ x W) E) (proj1 (n_mid_rad_dec_ok x W) E))))))))
  (fun E => conj (proj2 (n_dec _ x W) E) (conj (proj2 (n_dec _ x W) E) (conj (proj2 (n_dec _ x W) E)
    (conj (proj2 (n_dec _ x W) E) (conj (proj2 (n_dec _ x W) E) (conj (proj2 (n_dec _ x W) E)
    (conj (proj2 (n_dec _ x W) E) (proj2 (n_mid_rad_dec_ok x W) E))))))))).
Qed.
Print Assumptions C21_dec.
Theorem C21_dec_mixed : forall (F G : fmt) (x : ditv F), wf_dec x ->
  (forall f, snd x = ill -> returns (num_dec_mixed G f x) fnan) /\
  (forall f, snd x <> ill -> num_dec_mixed G f x = f (fst x)) /\
  (snd x = ill -> returns (n_mid_rad_dec_mixed G x) (fnan, fnan)) /\
  (snd x <> ill -> n_mid_rad_dec_mixed G x = n_mid_rad_mixed G (fst x)).
Proof.
exact (fun F G x W => conj (fun f => proj1 (n_dec_mixed G f x W)) (conj (fun f => proj2 (n_dec_mixed G f x W))
  (n_mid_rad_dec_mixed_ok G x W))).
Qed.
Print Assumptions C21_dec_mixed.

(** Examples *)
Definition runf {F} (m : M (float F)) : outcome SpecFloat.spec_float * est :=
  match m (Est 0 0) with (Ret z, s) => (Ret (B2SF z), s) | (Throw e, s) => (Throw e, s) | (UB, s) => (UB, s) end.
Definition okf {F} (v : float F) : outcome SpecFloat.spec_float * est := (Ret (B2SF v), Est 0 0).
Example C21_ex :
  runf (n_inf (f0, fl binary64 3 0)) = okf (@fm0 binary64)
  /\ runf (n_sup (fl binary64 (-3) 0, fm0)) = okf (@f0 binary64)
  /\ runf (n_inf (fnan, @fnan binary64)) = okf (@finf binary64)
  /\ runf (n_mid (fl binary64 1 0, fl binary64 4 0)) = okf (fl binary64 5 (-1))
  /\ runf (n_mid (fl binary64 1 (-1074), fl binary64 2 (-1074))) = okf (fl binary64 2 (-1074))
  /\ runf (n_mid (@fmaxv binary64, fmaxv)) = okf (@fmaxv binary64)
  /\ runf (n_mid (fl binary64 (-7) 0, @finf binary64)) = okf (@fmaxv binary64)
  /\ runf (n_rad (fl binary64 1 0, fl binary64 4 0)) = okf (fl binary64 3 (-1))
  /\ runf (n_rad (fl binary64 1 (-1074), fl binary64 2 (-1074))) = okf (fl binary64 1 (-1074))
  /\ runf (n_wid (fl binary64 (-1) 0, fl binary64 1 (-60))) = okf (fl binary64 (2^52 + 1) (-52))
  /\ runf (n_mag (fl binary64 (-5) 0, fl binary64 3 0)) = okf (fl binary64 5 0)
  /\ runf (n_mig (fl binary64 (-5) 0, fl binary64 3 0)) = okf (@f0 binary64)
  /\ runf (n_mig (fl binary64 (-5) 0, fl binary64 (-3) 0)) = okf (fl binary64 3 0)
  /\ runf (n_inf_mixed binary32 (fl binary64 (2^40 + 1) (-40), fl binary64 3 0)) = okf (fl binary32 1 0)
  /\ runf (n_wid_mixed binary32 (fl binary64 1 (-60), fl binary64 1 0)) = okf (fl binary32 1 0)
  /\ runf (n_mag_mixed binary32 (fl binary64 1 0, fl binary64 (2^40 + 1) (-40))) = okf (fl binary32 (2^23 + 1) (-23))
  /\ runf (n_mig_mixed binary32 (fl binary64 1 (-200), fl binary64 1 0)) = okf (@f0 binary32)
  /\ runf (n_rad_mixed binary32 (fl binary64 1 0, fl binary64 (2^40 + 1) (-40))) = okf (fl binary32 1 (-40))
  /\ runf (n_mid_dec (@nai binary64)) = okf (@fnan binary64)
  /\ wf (fl binary64 (-5) 0, fl binary64 3 0).
Proof. repeat (split; [vm_compute; reflexivity|]). wf_tac. Qed.
