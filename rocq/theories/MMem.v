(** * Model: memory of mpfr_var, of get_str and of the reductions

    The heap as a function from addresses to blocks.  Values of numbers are left out, they
    are in MMpfr.v and MRed.v.  Automatic mpfr_t objects are represented by the block of
    digits (limbs) they own.  Every request for memory has a number; [avail] says which
    requests can be met.  A failing new throws std::bad_alloc; a failing request of MPFR
    ends the program (MPFR and GMP manuals). *)
From Coq Require Import List Arith Bool.
Import ListNotations.

(** An array of pointers, not all of them set; an mpfr_t made with new, initialised with
    the digits at an address or not; digits; characters. *)
Inductive blk : Type := Tab (c : list (option nat)) | Obj (l : option nat) | Limb | Chars.
Record heap : Type := Heap { brk : nat; cont : nat -> option blk }.
Inductive res (A : Type) : Type := Done (a : A) | Thrown | Undef | Abort.
Arguments Done {A} a. Arguments Thrown {A}. Arguments Undef {A}. Arguments Abort {A}.
Definition P (A : Type) : Type := heap -> res A * heap.
Definition pret {A} (a : A) : P A := fun h => (Done a, h).
Definition pbind {A B} (m : P A) (f : A -> P B) : P B := fun h =>
  match m h with
  | (Done a, h') => f a h'
  | (Thrown, h') => (Thrown, h') | (Undef, h') => (Undef, h') | (Abort, h') => (Abort, h')
  end.
Declare Scope p_scope.
Delimit Scope p_scope with P.
Notation "x <- m ; k" := (pbind m (fun x => k)) (at level 61, m at next level, right associativity) : p_scope.
Notation "m ;; k" := (pbind m (fun _ => k)) (at level 61, right associativity) : p_scope.
Local Open Scope p_scope.

Definition put (h : heap) (a : nat) (b : option blk) : heap :=
  Heap (brk h) (fun x => if x =? a then b else cont h x).

Section Mem.
Context (avail : nat -> bool).

Definition request (failed : res nat) (b : blk) : P nat := fun h =>
  let h' := Heap (S (brk h)) (cont h) in
  if avail (brk h) then (Done (brk h), put h' (brk h) (Some b)) else (failed, h').
Definition new_block : blk -> P nat := request Thrown.
(** mpfr_init2 of an automatic object, mpfr_var_impl.hpp:136-139 *)
Definition init2 : P nat := request Abort Limb.
(** mpfr_clear of an automatic object, mpfr_var_impl.hpp:178-181 *)
Definition clear (l : nat) : P unit := fun h =>
  match cont h l with Some Limb => (Done tt, put h l None) | _ => (Undef, h) end.
(** Reading or writing the number in an automatic object. *)
Definition use (l : nat) : P unit := fun h =>
  match cont h l with Some Limb => (Done tt, h) | _ => (Undef, h) end.
(** delete[] of characters and of the array of pointers. *)
Definition delete_chars (a : nat) : P unit := fun h =>
  match cont h a with Some Chars => (Done tt, put h a None) | _ => (Undef, h) end.
Definition use_chars (a : nat) : P unit := fun h =>
  match cont h a with Some Chars => (Done tt, h) | _ => (Undef, h) end.
Definition delete_tab (a : nat) : P unit := fun h =>
  match cont h a with Some (Tab _) => (Done tt, put h a None) | _ => (Undef, h) end.
(** t[i] = p and t[i] *)
Fixpoint upd {A} (i : nat) (a : A) (l : list A) : list A :=
  match l, i with [], _ => [] | _ :: l, 0 => a :: l | x :: l, S i => x :: upd i a l end.
Definition store (t i p : nat) : P unit := fun h =>
  match cont h t with
  | Some (Tab c) => if i <? length c then (Done tt, put h t (Some (Tab (upd i (Some p) c)))) else (Undef, h)
  | _ => (Undef, h) end.
Definition load (t i : nat) : P nat := fun h =>
  match cont h t with
  | Some (Tab c) => match nth_error c i with Some (Some p) => (Done p, h) | _ => (Undef, h) end
  | _ => (Undef, h) end.
(** mpfr_init2, mpfr_clear and access for an mpfr_t made with new.  Initialising twice
    loses the first digits. *)
Definition init2_at (p : nat) : P unit :=
  l <- init2;
  fun h => match cont h p with Some (Obj _) => (Done tt, put h p (Some (Obj (Some l)))) | _ => (Undef, h) end.
Definition limbs_at (p : nat) : P nat := fun h =>
  match cont h p with Some (Obj (Some l)) => (Done l, h) | _ => (Undef, h) end.
Definition use_at (p : nat) : P unit := l <- limbs_at p; use l.
Definition clear_at (p : nat) : P unit :=
  l <- limbs_at p; clear l ;; fun h => (Done tt, put h p (Some (Obj None))).

(** An automatic object: destroyed when its block is left, by an exception too. *)
Definition guard {A} (m : P A) (destroy : P unit) : P A := fun h =>
  match m h with
  | (Done a, h') => (destroy ;; pret a) h'
  | (Thrown, h') => match destroy h' with (Done _, h'') => (Thrown, h'') | (_, h'') => (Undef, h'') end
  | r => r
  end.
Definition with_var {A} (body : nat -> P A) : P A := l <- init2; guard (body l) (clear l).

(** ** The functions of the flavor: [k] variables of one block, all of them used, e.g.
    p1788/flavor/infsup/setbased/mpfr_bin_ieee754_flavor_elem_func_impl.hpp; none of
    them contains new or a pointer. *)
Fixpoint uses (vs : list nat) : P unit := match vs with [] => pret tt | v :: vs => use v ;; uses vs end.
Fixpoint flavor_mem (k : nat) (vs : list nat) : P unit :=
  match k with 0 => uses vs | S k => with_var (fun v => flavor_mem k (v :: vs)) end.

(** ** mpfr_util.hpp:38-73 [two_sum]: five variables *)
Definition two_sum_mem : P unit :=
  with_var (fun a_ => with_var (fun b_ => with_var (fun s => with_var (fun a_delta => with_var (fun b_delta =>
    use a_ ;; use b_ ;; use s ;; use a_delta ;; use b_delta))))).

(** ** mpfr_var_impl.hpp:228-351 [get_str] on the variable [var].
    [vars]: 1 for decimal and scientific, 2 for hexadecimal and decimal_scientific.
    Strings of the standard library are their own owners; one of them, of the result, is made
    while the buffer is alive, [copied] says whether there is memory for it. *)
Definition get_str_mem (vars : nat) (copied : bool) (var : nat) : P unit :=
  (match vars with
   | 1 => with_var (fun v => use var ;; use v)
   | _ => with_var (fun v => with_var (fun w => use var ;; use v ;; use w))
   end) ;;
  data <- new_block Chars;
  guard (use var ;; use_chars data ;; fun h => (if copied then Done tt else Thrown, h)) (delete_chars data).

(** ** reduction.hpp *)
(** The operation on element [i] (181-192, 222-234, 264-276, 306-319): a new mpfr_t, its
    digits, one or two ([two]) variables, the result stored. *)
Definition elem_op (two : bool) (t i : nat) : P unit :=
  p <- new_block (Obj None);
  store t i p ;;
  q <- load t i; init2_at q ;;
  with_var (fun a => if two then with_var (fun b => use a ;; use b ;; q <- load t i; use_at q) else use a ;; q <- load t i; use_at q).
(** 100-101, 124-125 *)
Fixpoint elem_ops (two : bool) (t i n : nat) : P unit :=
  match n with 0 => pret tt | S n => elem_op two t i ;; elem_ops two t (S i) n end.
(** mpfr_sum reads every element; 142-143 *)
Fixpoint for_all (f : nat -> P unit) (t i n : nat) : P unit :=
  match n with 0 => pret tt | S n => p <- load t i; f p ;; for_all f t (S i) n end.
(** 92-113, 116-137: the constructor, for [n] elements. *)
Definition ctor (two : bool) (n : nat) : P nat :=
  t <- new_block (Tab (repeat None n));
  elem_ops two t 0 n ;;
  with_var (fun res => for_all use_at t 0 n ;; use res) ;;
  pret t.
(** 140-147: the destructor. *)
Definition dtor (n t : nat) : P unit := for_all clear_at t 0 n ;; delete_tab t.
(** 166-197, 208-240, 250-282, 292-325: [sum], [sum_abs], [sum_sqr] (two = false), [dot].
    The destructor runs only for an object that was constructed. *)
Definition reduction_mem (two : bool) (n : nat) : P unit := t <- ctor two n; dtor n t.

(** A program that calls the reductions again and again, [ns] elements each. *)
Fixpoint calls (two : bool) (ns : list nat) : P unit :=
  match ns with [] => pret tt | n :: ns => reduction_mem two n ;; calls two ns end.

(** ** Copying a variable: mpfr_var.hpp:47-110 declares a destructor but no copy constructor; the
    implicit one copies the pointer to the digits. *)
Definition copy_mem : P unit := with_var (fun a => let b := a in guard (use b) (clear b)).
End Mem.
