(** * The classes interval and decorated_interval: objects, copies and programs

    p1788/infsup/interval.hpp and decorated_interval.hpp: an object holds a representation
    ([rep_], base_interval.hpp:94) and nothing else.
    - Constructors initialise it with what the flavor returns (interval.hpp:88-207,
      decorated_interval.hpp:90-290).
    - The copy constructor is user-written and calls [Flavor<T>::copy], which checks the
      representation (interval.hpp:158-160, decorated_interval.hpp:201-203).
    - Copy assignment is the implicit one: it copies [rep_] and checks nothing; there are no
      move operations.
    - Every operation returns a new object by value, [concrete_interval(...)]
      (base_interval.hpp:85-90); the compiler may leave out the copies of such temporaries,
      or make them (C++11, 12.8 p31).
    - [operator>>] writes through to [rep_] (base_interval_io_impl.hpp:45-51). *)
From Coq Require Import ZArith NArith Reals Bool List Ascii PeanoNat Eqdep_dec.
From Flocq Require Import Core.Core IEEE754.BinarySingleNaN.
From Verif Require Import Fmt Spec Exc Deco MBase MBool MArith MDec MMixed MCancel MRev MTrigRev MStream MText MRead PConv MProg.
Local Open Scope m_scope.

(** Types of objects: interval<F> and decorated_interval<F>. *)
Inductive ty : Type := Bare (F : fmt) | Deco (F : fmt).
Definition vl (t : ty) : Type := match t with Bare F => itv F | Deco F => ditv F end.
(** The copy constructors. *)
Definition copyv (t : ty) : vl t -> M (vl t) := match t with Bare F => @copy F | Deco F => @copy_dec F end.
(** Default constructors: interval.hpp:88-90, decorated_interval.hpp:90-92. *)
Definition dflt (t : ty) : vl t := match t with Bare F => empty | Deco F => empty_dec end.

(** ** Objects made from something that is not an interval
    interval.hpp:88-143, 229-246; decorated_interval.hpp:90-187, 312-343. *)
Inductive source : forall t : ty, M (vl t) -> Prop :=
| s_dflt t : source t (ret (dflt t))
| s_empty F : source (Bare F) (ret empty)
| s_entire F : source (Bare F) (ret entire)
| s_nums F l u : source (Bare F) (@nums_to_interval F l u)
| s_nums_mixed T L U l u : comparable L U -> source (Bare T) (@nums_to_interval_mixed L U T l u)
| s_text F t : source (Bare F) (@text_to_interval F t)
| s_empty_dec F : source (Deco F) (ret empty_dec)
| s_entire_dec F : source (Deco F) (ret entire_dec)
| s_nai F : source (Deco F) (ret nai)
| s_nums_dec F l u : source (Deco F) (@nums_to_decorated_interval F l u)
| s_nums_dec_mixed T L U l u : comparable L U -> source (Deco T) (@nums_to_decorated_interval_mixed L U T l u)
| s_nums_with F l u d : source (Deco F) (@nums_dec_to_decorated_interval F l u d)
| s_nums_with_mixed T L U l u d : comparable L U -> source (Deco T) (@nums_dec_to_decorated_interval_mixed L U T l u d)
| s_text_dec F t : source (Deco F) (@text_to_decorated_interval F t).

(** ** Operations and converting constructors
    interval.hpp:158-207, decorated_interval.hpp:201-290 and base_interval_*_impl.hpp. *)
Inductive op1 : forall a b : ty, (vl a -> M (vl b)) -> Prop :=
| o_un F T f : un F T f -> op1 (Bare F) (Bare T) f
| o_dun F T f : dun F T f -> op1 (Deco F) (Deco T) f
| o_part F : op1 (Deco F) (Bare F) (@interval_part F)
| o_part_mixed T F : op1 (Deco F) (Bare T) (@interval_part_mixed F T)
| o_new F : op1 (Bare F) (Deco F) (@new_dec F)
| o_new_mixed T F : op1 (Bare F) (Deco T) (@new_dec_mixed F T)
| o_set F d : op1 (Bare F) (Deco F) (fun x => @set_dec F x d)
| o_set_mixed T F d : op1 (Bare F) (Deco T) (fun x => @set_dec_mixed F T x d).
Inductive op2 : forall a b c : ty, (vl a -> vl b -> M (vl c)) -> Prop :=
| o_bin F G T f : bin F G T f -> op2 (Bare F) (Bare G) (Bare T) f
| o_dbin F G T f : dbin F G T f -> op2 (Deco F) (Deco G) (Deco T) f
| o_first F G T f : two F G T f -> op2 (Bare F) (Bare G) (Bare T) (fun x y => z <- f x y; ret (fst z))
| o_second F G T f : two F G T f -> op2 (Bare F) (Bare G) (Bare T) (fun x y => z <- f x y; ret (snd z))
| o_dfirst F G T f : dtwo F G T f -> op2 (Deco F) (Deco G) (Deco T) (fun x y => z <- f x y; ret (fst z))
| o_dsecond F G T f : dtwo F G T f -> op2 (Deco F) (Deco G) (Deco T) (fun x y => z <- f x y; ret (snd z)).
Inductive op3 : forall a b c d : ty, (vl a -> vl b -> vl c -> M (vl d)) -> Prop :=
| o_tern F G H T f : tern F G H T f -> op3 (Bare F) (Bare G) (Bare H) (Bare T) f
| o_dtern F G H T f : dtern F G H T f -> op3 (Deco F) (Deco G) (Deco H) (Deco T) f.
(** The cancellative operations, kept apart because of C43. *)
Inductive opc : forall a b c : ty, (vl a -> vl b -> M (vl c)) -> Prop :=
| o_canc F G T f : canc F G T f -> opc (Bare F) (Bare G) (Bare T) f
| o_dcanc F G T f : dcanc F G T f -> opc (Deco F) (Deco G) (Deco T) f.

Section Programs.
(** The types of the objects of the program. *)
Variable vt : nat -> ty.
Definition store : Type := forall i : nat, vl (vt i).
(** Equal natural numbers are equal in one way, so writing an object is well typed. *)
Definition write (st : store) (i : nat) (v : vl (vt i)) : store := fun j =>
  match Nat.eq_dec i j with left e => eq_rect i (fun k => vl (vt k)) v j e | right _ => st j end.

(** C++ expressions.  The number at a node says how many times the compiler copies the
    temporary that the node makes before it is used. *)
Inductive term : ty -> Type :=
| Obj (i : nat) : term (vt i)
| Src {t} (c : M (vl t)) (H : source t c) (k : nat) : term t
| Ap1 {a b} f (H : op1 a b f) (x : term a) (k : nat) : term b
| Ap2 {a b c} f (H : op2 a b c f) (x : term a) (y : term b) (k : nat) : term c
| Ap3 {a b c d} f (H : op3 a b c d f) (x : term a) (y : term b) (z : term c) (k : nat) : term d
| Canc {a b c} f (H : opc a b c f) (x : term a) (y : term b) (k : nat) : term c.
Fixpoint copies {t : ty} (k : nat) (v : vl t) : M (vl t) :=
  match k with O => ret v | S n => w <- copyv t v; copies n w end.
(** Operands are bound to references ([base_interval<...> const&]), so objects named in an
    expression are not copied.  C++ leaves the order of evaluation of operands open; here it
    is left to right. *)
Fixpoint ev (st : store) {t} (e : term t) : M (vl t) :=
  match e with
  | Obj i => ret (st i)
  | Src c _ k => v <- c; copies k v
  | Ap1 f _ x k => v <- ev st x; z <- f v; copies k z
  | Ap2 f _ x y k => v <- ev st x; w <- ev st y; z <- f v w; copies k z
  | Ap3 f _ x y u k => v <- ev st x; w <- ev st y; r <- ev st u; z <- f v w r; copies k z
  | Canc f _ x y k => v <- ev st x; w <- ev st y; z <- f v w; copies k z
  end.
(** The same expression compiled without copies. *)
Fixpoint elide {t} (e : term t) : term t :=
  match e with
  | Obj i => Obj i
  | Src c H _ => Src c H 0
  | Ap1 f H x _ => Ap1 f H (elide x) 0
  | Ap2 f H x y _ => Ap2 f H (elide x) (elide y) 0
  | Ap3 f H x y u _ => Ap3 f H (elide x) (elide y) (elide u) 0
  | Canc f H x y _ => Canc f H (elide x) (elide y) 0
  end.

(** ** Statements
    [Assign i e]: [x_i = e;] or the declaration of [x_i] with initialiser [e], if [e] makes a
    temporary ([interval<T> x(y)] is [Assign] of the copy constructor applied to [y]).
    [Extract i]: [is >> x_i].  Tests are any computations on the objects that return a
    bool: relations, comparisons of numeric functions, tests of flags.  [Env f] is any change of
    the exception flags and of the throw mask.  [Try c h] catches every exception. *)
Inductive cmd : Type :=
| Skip
| Assign (i : nat) (e : term (vt i))
| Extract (i : nat)
| Env (f : est -> est)
| Seq (c d : cmd)
| If (q : store -> M bool) (c d : cmd)
| While (q : store -> M bool) (c : cmd)
| Raise (e : exn)
| Try (c : cmd) (h : exn -> cmd).

(** operator>> on an object (base_interval_io_impl.hpp:45-51): the value assigned, if any. *)
Definition extract (t : ty) : istream -> M (option (vl t) * istream) :=
  match t with Bare F => @read_itv F | Deco F => @read_ditv F end.

Record state : Type := State { objs : store; inp : istream; env : est }.
(** How a statement ends: normally, by an exception, in undefined behaviour. *)
Inductive ending : Type := Normal (s : state) | Raised (e : exn) (s : state) | Undefined.

(** Which expressions may be evaluated. *)
Variable may : store -> forall t, term t -> Prop.
Inductive exec : cmd -> state -> ending -> Prop :=
| x_skip s : exec Skip s (Normal s)
| x_assign i e s v f : may (objs s) _ e -> ev (objs s) e (env s) = (Ret v, f) ->
    exec (Assign i e) s (Normal (State (write (objs s) i v) (inp s) f))
| x_assign_throw i e s x f : may (objs s) _ e -> ev (objs s) e (env s) = (Throw x, f) ->
    exec (Assign i e) s (Raised x (State (objs s) (inp s) f))
| x_assign_ub i e s f : may (objs s) _ e -> ev (objs s) e (env s) = (UB, f) -> exec (Assign i e) s Undefined
| x_extract i s v p f : extract (vt i) (inp s) (env s) = (Ret (Some v, p), f) ->
    exec (Extract i) s (Normal (State (write (objs s) i v) p f))
| x_extract_none i s p f : extract (vt i) (inp s) (env s) = (Ret (None, p), f) ->
    exec (Extract i) s (Normal (State (objs s) p f))
| x_extract_throw i s x f p : extract (vt i) (inp s) (env s) = (Throw x, f) ->
    exec (Extract i) s (Raised x (State (objs s) p f))   (* [p]: somewhere in the input *)
| x_extract_ub i s f : extract (vt i) (inp s) (env s) = (UB, f) -> exec (Extract i) s Undefined
| x_env g s : exec (Env g) s (Normal (State (objs s) (inp s) (g (env s))))
| x_seq c d s s1 r : exec c s (Normal s1) -> exec d s1 r -> exec (Seq c d) s r
| x_seq_throw c d s x s1 : exec c s (Raised x s1) -> exec (Seq c d) s (Raised x s1)
| x_seq_ub c d s : exec c s Undefined -> exec (Seq c d) s Undefined
| x_if q c d s b f r : q (objs s) (env s) = (Ret b, f) ->
    exec (if b : bool then c else d) (State (objs s) (inp s) f) r -> exec (If q c d) s r
| x_if_throw q c d s x f : q (objs s) (env s) = (Throw x, f) -> exec (If q c d) s (Raised x (State (objs s) (inp s) f))
| x_if_ub q c d s f : q (objs s) (env s) = (UB, f) -> exec (If q c d) s Undefined
| x_while q c s r : exec (If q (Seq c (While q c)) Skip) s r -> exec (While q c) s r
| x_raise x s : exec (Raise x) s (Raised x s)
| x_try c h s s1 : exec c s (Normal s1) -> exec (Try c h) s (Normal s1)
| x_catch c h s x s1 r : exec c s (Raised x s1) -> exec (h x) s1 r -> exec (Try c h) s r
| x_try_ub c h s : exec c s Undefined -> exec (Try c h) s Undefined.
End Programs.
Arguments Obj {vt} i. Arguments Src {vt t} c H k. Arguments Ap1 {vt a b} f H x k. Arguments Ap2 {vt a b c} f H x y k.
Arguments Ap3 {vt a b c d} f H x y z k. Arguments Canc {vt a b c} f H x y k.
Arguments Skip {vt}. Arguments Assign {vt} i e. Arguments Extract {vt} i. Arguments Env {vt} f. Arguments Seq {vt} c d.
Arguments If {vt} q c d. Arguments While {vt} q c. Arguments Raise {vt} e. Arguments Try {vt} c h.
Arguments State {vt}. Arguments objs {vt}. Arguments inp {vt}. Arguments env {vt}.
Arguments Normal {vt} s. Arguments Raised {vt} e s. Arguments Undefined {vt}.
Arguments write {vt} st i v. Arguments ev {vt} st {t} e. Arguments elide {vt t} e. Arguments exec {vt} may.
