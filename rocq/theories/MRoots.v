(** * The root finding examples

    C++ side: examples/e15_bisection.cpp and examples/e16_newton.cpp (EX below), written
    against the public functions of the library.

    Simplifications: the recursion is bounded by a number of levels ([None] if they do not
    suffice; the C++ stack has no such outcome).  The output iterator, passed by value, is
    a std::back_inserter; the intervals written through it are collected in a list.  The
    functions f and df are parameters.  [0.0] is a double for every [T]: with T = double the
    call goes to the overload for one type, which tests the validity of [y] once more
    ([zero_same] in PRoots: the same result). *)
From Coq Require Import ZArith Bool List.
From Flocq Require Import Core.Core IEEE754.BinarySingleNaN.
From Verif Require Import Fmt Spec Exc MBase MBool MArith MNum MRev.
Import ListNotations.
Local Open Scope m_scope.
Local Open Scope list_scope.

Section Roots.
Context {F : fmt}.
Implicit Types x y : itv F.

(** [is_member(0.0, y)]. *)
Definition zero_in y : M bool := is_member_mixed (@f0 binary64) y.

(** Output of two calls one after the other. *)
Definition then_out (p q : M (option (list (itv F)))) : M (option (list (itv F))) :=
  a <- p; match a with
          | None => ret None
          | Some l => b <- q; ret (match b with None => None | Some l' => Some (l ++ l') end)
          end.

(** e15_bisection.cpp:49-71 [ia_bisect]. *)
Fixpoint ia_bisect (fuel : nat) (f : itv F -> M (itv F)) x (eps : float F) : M (option (list (itv F))) :=
  match fuel with
  | O => ret None
  | S k =>
    y <- f x;
    mif (zero_in y)
      (w <- n_wid y;
       if flt w eps then ret (Some [x])
       else then_out (a <- n_inf x; m <- n_mid x; v <- nums_to_interval a m; ia_bisect k f v eps)
                     (m <- n_mid x; b <- n_sup x; v <- nums_to_interval m b; ia_bisect k f v eps))
      (ret (Some []))
  end.

(** e16_newton.cpp:77-95: what follows for [v1] and for [v2]. *)
Definition newton_out (rec : itv F -> M (option (list (itv F)))) (v : itv F) (eps : float F) :
  M (option (list (itv F))) :=
  mif (mnot (is_empty v))
    (w <- n_wid v; if flt w eps then ret (Some [v]) else rec v)
    (ret (Some [])).

(** e16_newton.cpp:50-96 [ia_newton]. *)
Fixpoint ia_newton (fuel : nat) (f df : itv F -> M (itv F)) x (eps : float F) : M (option (list (itv F))) :=
  match fuel with
  | O => ret None
  | S k =>
    mif (mnot (y <- f x; zero_in y)) (ret (Some []))
    (m <- n_mid x;
     c <- nums_to_interval m m;
     d <- df x; fc <- f c;
     z <- mul_rev_to_pair d fc;
     t1 <- sub c (fst z); v1 <- intersection x t1;
     t2 <- sub c (snd z); v2 <- intersection x t2;
     v <- mif (equal v1 x)
            (a <- n_inf x; v1 <- nums_to_interval a m;
             b <- n_sup x; v2 <- nums_to_interval m b; ret (v1, v2))
            (ret (v1, v2));
     then_out (newton_out (fun v => ia_newton k f df v eps) (fst v) eps)
              (newton_out (fun v => ia_newton k f df v eps) (snd v) eps))
  end.
End Roots.

(** The literals 2.0, -2.0 and 0.00001 (the double nearest to it). *)
Definition two64 : float binary64 := binary_normalize 53 1024 eq_refl eq_refl mode_NE 2 0 false.
Definition mtwo64 : float binary64 := binary_normalize 53 1024 eq_refl eq_refl mode_NE (-2) 0 false.
Definition eps64 : float binary64 := binary_normalize 53 1024 eq_refl eq_refl mode_NE 5902958103587057 (-69) false.
(** e15_bisection.cpp:74-78 and e16_newton.cpp:99-103 [f], e16_newton.cpp:106-110 [df],
    for [T] = double. *)
Definition ex_f (x : itv binary64) : M (itv binary64) := p <- mul x x; t <- nums_to_interval two64 two64; sub p t.
Definition ex_df (x : itv binary64) : M (itv binary64) := t <- nums_to_interval two64 two64; mul t x.
(** e15_bisection.cpp:81-93 and e16_newton.cpp:113-125 [main], without the printing. *)
Definition main15 (fuel : nat) : M (option (list (itv binary64))) :=
  x <- nums_to_interval mtwo64 two64; ia_bisect fuel ex_f x eps64.
Definition main16 (fuel : nat) : M (option (list (itv binary64))) :=
  x <- nums_to_interval mtwo64 two64; ia_newton fuel ex_f ex_df x eps64.
