(** * The repository's tests of decorations, exceptions, overlapping states and manipulators, run on the model

    C++ side: /repo/test/p1788/decoration/test_decoration.cpp, exception/test_exception.cpp,
    overlapping/test_overlapping.cpp and io/test_io_manip.cpp; each check with its line.  Bounded checks,
    no proofs. *)
From Coq Require Import ZArith NArith Bool List String Ascii.
From Verif Require Import Fmt Exc Deco MBase MStream MDecoIo MOverlap MManip TestRun.
Import ListNotations.
Local Open Scope string_scope.
Local Open Scope list_scope.

Definition plain : ostream := Ostream b_dec false false 0 " " a_right false false.
Definition teq (a b : text) : bool := if list_eq_dec ascii_dec a b then true else false.
Definition codes (l : list nat) : text := map ascii_of_nat l.
Definition istate (bf : basefield) (sk : bool) (l : text) : istream := Istream l false false false sk bf.
(** [is >> dec] n times *)
Fixpoint reads (n : nat) (d : deco) (s : istream) : deco * istream :=
  match n with O => (d, s) | S n => let '(d', s') := read_into d s in reads n d' s' end.
Definition writes (m : SM text) (s : stream) (t : text) : bool :=
  match m s (Est 0 0) with (Ret r, _, _) => teq r t | _ => false end.
(** Checks with the exception state *)
Definition eqs (m : M N) (b : N) : M bool := bind m (fun a => ret (N.eqb a b)).
Definition throws {A} (m : M A) (e : exn) : M bool := fun s =>
  match m s with (Throw e', s') => (Ret (exn_eqb e' e), s') | (Ret _, s') => (Ret false, s') | (UB, s') => (UB, s') end.
Fixpoint holds (l : list (M bool)) (s : est) : bool :=
  match l with [] => true | m :: l => match m s with (Ret true, s') => holds l s' | _ => false end end.
Definition all (l : list bool) : bool := forallb (fun b => b) l.

Definition deco_orders : list bool :=
  [ deq trv trv (* 42 *);
    negb (deq trv def) (* 43 *);
    negb (deq trv dac) (* 44 *);
    negb (deq trv com) (* 45 *);
    negb (deq trv ill) (* 46 *);
    negb (deq def trv) (* 48 *);
    deq def def (* 49 *);
    negb (deq def dac) (* 50 *);
    negb (deq def com) (* 51 *);
    negb (deq def ill) (* 52 *);
    negb (deq dac trv) (* 54 *);
    negb (deq dac def) (* 55 *);
    deq dac dac (* 56 *);
    negb (deq dac com) (* 57 *);
    negb (deq dac ill) (* 58 *);
    negb (deq com trv) (* 60 *);
    negb (deq com def) (* 61 *);
    negb (deq com dac) (* 62 *);
    deq com com (* 63 *);
    negb (deq com ill) (* 64 *);
    negb (deq ill trv) (* 66 *);
    negb (deq ill def) (* 67 *);
    negb (deq ill dac) (* 68 *);
    negb (deq ill com) (* 69 *);
    deq ill ill (* 70 *);
    negb (negb (deq trv trv)) (* 75 *);
    negb (deq trv def) (* 76 *);
    negb (deq trv dac) (* 77 *);
    negb (deq trv com) (* 78 *);
    negb (deq trv ill) (* 79 *);
    negb (deq def trv) (* 81 *);
    negb (negb (deq def def)) (* 82 *);
    negb (deq def dac) (* 83 *);
    negb (deq def com) (* 84 *);
    negb (deq def ill) (* 85 *);
    negb (deq dac trv) (* 87 *);
    negb (deq dac def) (* 88 *);
    negb (negb (deq dac dac)) (* 89 *);
    negb (deq dac com) (* 90 *);
    negb (deq dac ill) (* 91 *);
    negb (deq com trv) (* 93 *);
    negb (deq com def) (* 94 *);
    negb (deq com dac) (* 95 *);
    negb (negb (deq com com)) (* 96 *);
    negb (deq com ill) (* 97 *);
    negb (deq ill trv) (* 99 *);
    negb (deq ill def) (* 100 *);
    negb (deq ill dac) (* 101 *);
    negb (deq ill com) (* 102 *);
    negb (negb (deq ill ill)) (* 103 *);
    negb (N.ltb trv trv) (* 108 *);
    N.ltb trv def (* 109 *);
    N.ltb trv dac (* 110 *);
    N.ltb trv com (* 111 *);
    negb (N.ltb trv ill) (* 112 *);
    negb (N.ltb def trv) (* 114 *);
    negb (N.ltb def def) (* 115 *);
    N.ltb def dac (* 116 *);
    N.ltb def com (* 117 *);
    negb (N.ltb def ill) (* 118 *);
    negb (N.ltb dac trv) (* 120 *);
    negb (N.ltb dac def) (* 121 *);
    negb (N.ltb dac dac) (* 122 *);
    N.ltb dac com (* 123 *);
    negb (N.ltb dac ill) (* 124 *);
    negb (N.ltb com trv) (* 126 *);
    negb (N.ltb com def) (* 127 *);
    negb (N.ltb com dac) (* 128 *);
    negb (N.ltb com com) (* 129 *);
    negb (N.ltb com ill) (* 130 *);
    N.ltb ill trv (* 132 *);
    N.ltb ill def (* 133 *);
    N.ltb ill dac (* 134 *);
    N.ltb ill com (* 135 *);
    negb (N.ltb ill ill) (* 136 *);
    N.leb trv trv (* 141 *);
    N.leb trv def (* 142 *);
    N.leb trv dac (* 143 *);
    N.leb trv com (* 144 *);
    negb (N.leb trv ill) (* 145 *);
    negb (N.leb def trv) (* 147 *);
    N.leb def def (* 148 *);
    N.leb def dac (* 149 *);
    N.leb def com (* 150 *);
    negb (N.leb def ill) (* 151 *);
    negb (N.leb dac trv) (* 153 *);
    negb (N.leb dac def) (* 154 *);
    N.leb dac dac (* 155 *);
    N.leb dac com (* 156 *);
    negb (N.leb dac ill) (* 157 *);
    negb (N.leb com trv) (* 159 *);
    negb (N.leb com def) (* 160 *);
    negb (N.leb com dac) (* 161 *);
    N.leb com com (* 162 *);
    negb (N.leb com ill) (* 163 *);
    N.leb ill trv (* 165 *);
    N.leb ill def (* 166 *);
    N.leb ill dac (* 167 *);
    N.leb ill com (* 168 *);
    N.leb ill ill (* 169 *);
    negb (N.ltb trv trv) (* 174 *);
    negb (N.ltb def trv) (* 175 *);
    negb (N.ltb dac trv) (* 176 *);
    negb (N.ltb com trv) (* 177 *);
    N.ltb ill trv (* 178 *);
    N.ltb trv def (* 180 *);
    negb (N.ltb def def) (* 181 *);
    negb (N.ltb dac def) (* 182 *);
    negb (N.ltb com def) (* 183 *);
    N.ltb ill def (* 184 *);
    N.ltb trv dac (* 186 *);
    N.ltb def dac (* 187 *);
    negb (N.ltb dac dac) (* 188 *);
    negb (N.ltb com dac) (* 189 *);
    N.ltb ill dac (* 190 *);
    N.ltb trv com (* 192 *);
    N.ltb def com (* 193 *);
    N.ltb dac com (* 194 *);
    negb (N.ltb com com) (* 195 *);
    N.ltb ill com (* 196 *);
    negb (N.ltb trv ill) (* 198 *);
    negb (N.ltb def ill) (* 199 *);
    negb (N.ltb dac ill) (* 200 *);
    negb (N.ltb com ill) (* 201 *);
    negb (N.ltb ill ill) (* 202 *);
    N.leb trv trv (* 207 *);
    negb (N.leb def trv) (* 208 *);
    negb (N.leb dac trv) (* 209 *);
    negb (N.leb com trv) (* 210 *);
    N.leb ill trv (* 211 *);
    N.leb trv def (* 213 *);
    N.leb def def (* 214 *);
    negb (N.leb dac def) (* 215 *);
    negb (N.leb com def) (* 216 *);
    N.leb ill def (* 217 *);
    N.leb trv dac (* 219 *);
    N.leb def dac (* 220 *);
    N.leb dac dac (* 221 *);
    negb (N.leb com dac) (* 222 *);
    N.leb ill dac (* 223 *);
    N.leb trv com (* 225 *);
    N.leb def com (* 226 *);
    N.leb dac com (* 227 *);
    N.leb com com (* 228 *);
    N.leb ill com (* 229 *);
    negb (N.leb trv ill) (* 231 *);
    negb (N.leb def ill) (* 232 *);
    negb (N.leb dac ill) (* 233 *);
    negb (N.leb com ill) (* 234 *);
    N.leb ill ill (* 235 *) ].
Definition deco_output : list bool :=
  [ teq (write_deco (view 0 (manipulate_all 0 [] (fresh plain))) trv) (txt "trv") (* 270 *);
    teq (write_deco (view 0 (manipulate_all 0 [] (fresh plain))) def) (txt "def") (* 273 *);
    teq (write_deco (view 0 (manipulate_all 0 [] (fresh plain))) dac) (txt "dac") (* 276 *);
    teq (write_deco (view 0 (manipulate_all 0 [] (fresh plain))) com) (txt "com") (* 279 *);
    teq (write_deco (view 0 (manipulate_all 0 [] (fresh plain))) ill) (txt "ill") (* 282 *);
    teq (write_deco (view 0 (manipulate_all 0 [p_dec_numeric] (fresh plain))) trv) (txt "4") (* 288 *);
    teq (write_deco (view 0 (manipulate_all 0 [p_dec_numeric] (fresh plain))) def) (txt "8") (* 291 *);
    teq (write_deco (view 0 (manipulate_all 0 [p_dec_numeric] (fresh plain))) dac) (txt "12") (* 294 *);
    teq (write_deco (view 0 (manipulate_all 0 [p_dec_numeric] (fresh plain))) com) (txt "16") (* 297 *);
    teq (write_deco (view 0 (manipulate_all 0 [p_dec_numeric] (fresh plain))) ill) (txt "0") (* 300 *);
    teq (write_deco (view 0 (manipulate_all 0 [p_dec_numeric; p_dec_alpha; p_upper_case] (fresh plain))) com) (txt "COM") (* 307 *);
    teq (write_deco (view 0 (manipulate_all 0 [p_dec_numeric; p_dec_alpha; p_upper_case] (fresh plain))) ill) (txt "ILL") (* 310 *);
    teq (write_deco (view 0 (manipulate_all 0 [p_dec_numeric; p_dec_alpha; p_upper_case] (fresh plain))) trv) (txt "TRV") (* 313 *);
    teq (write_deco (view 0 (manipulate_all 0 [p_dec_numeric; p_dec_alpha; p_upper_case] (fresh plain))) def) (txt "DEF") (* 316 *);
    teq (write_deco (view 0 (manipulate_all 0 [p_dec_numeric; p_dec_alpha; p_upper_case] (fresh plain))) dac) (txt "DAC") (* 319 *);
    teq (write_deco (view 0 (manipulate_all 0 [p_dec_numeric; p_dec_alpha; p_upper_case; p_lower_case] (fresh plain))) com) (txt "com") (* 323 *);
    teq (write_deco (view 0 (manipulate_all 0 [p_dec_numeric; p_dec_alpha; p_upper_case; p_lower_case] (fresh plain))) ill) (txt "ill") (* 326 *) ].
Definition deco_input : list bool :=
  [ deq (fst (reads 1 ill (istate b_dec true (codes [105; 108; 108])))) ill (* 335 *);
    ok (snd (reads 1 ill (istate b_dec true (codes [105; 108; 108])))) (* 336 *);
    deq (fst (reads 1 ill (istate b_dec true (codes [48])))) ill (* 344 *);
    ok (snd (reads 1 ill (istate b_dec true (codes [48])))) (* 345 *);
    deq (fst (reads 1 ill (istate b_dec true (codes [116; 114; 118])))) trv (* 353 *);
    ok (snd (reads 1 ill (istate b_dec true (codes [116; 114; 118])))) (* 354 *);
    deq (fst (reads 1 ill (istate b_dec true (codes [52])))) trv (* 362 *);
    ok (snd (reads 1 ill (istate b_dec true (codes [52])))) (* 363 *);
    deq (fst (reads 1 ill (istate b_dec true (codes [100; 101; 102])))) def (* 371 *);
    ok (snd (reads 1 ill (istate b_dec true (codes [100; 101; 102])))) (* 372 *);
    deq (fst (reads 1 ill (istate b_dec true (codes [56])))) def (* 380 *);
    ok (snd (reads 1 ill (istate b_dec true (codes [56])))) (* 381 *);
    deq (fst (reads 1 ill (istate b_dec true (codes [100; 97; 99])))) dac (* 389 *);
    ok (snd (reads 1 ill (istate b_dec true (codes [100; 97; 99])))) (* 390 *);
    deq (fst (reads 1 ill (istate b_dec true (codes [49; 50])))) dac (* 398 *);
    ok (snd (reads 1 ill (istate b_dec true (codes [49; 50])))) (* 399 *);
    deq (fst (reads 1 ill (istate b_dec true (codes [99; 111; 109])))) com (* 407 *);
    ok (snd (reads 1 ill (istate b_dec true (codes [99; 111; 109])))) (* 408 *);
    deq (fst (reads 1 ill (istate b_dec true (codes [49; 54])))) com (* 416 *);
    ok (snd (reads 1 ill (istate b_dec true (codes [49; 54])))) (* 417 *);
    deq (fst (reads 1 ill (istate b_dec true (codes [100; 97; 99; 52])))) dac (* 425 *);
    ok (snd (reads 1 ill (istate b_dec true (codes [100; 97; 99; 52])))) (* 426 *);
    deq (fst (reads 2 ill (istate b_dec true (codes [100; 97; 99; 52])))) trv (* 428 *);
    ok (snd (reads 2 ill (istate b_dec true (codes [100; 97; 99; 52])))) (* 429 *);
    deq (fst (reads 1 ill (istate b_dec true (codes [56; 32; 100; 97; 99; 32; 52])))) def (* 436 *);
    ok (snd (reads 1 ill (istate b_dec true (codes [56; 32; 100; 97; 99; 32; 52])))) (* 437 *);
    deq (fst (reads 2 ill (istate b_dec true (codes [56; 32; 100; 97; 99; 32; 52])))) dac (* 439 *);
    ok (snd (reads 2 ill (istate b_dec true (codes [56; 32; 100; 97; 99; 32; 52])))) (* 440 *);
    deq (fst (reads 3 ill (istate b_dec true (codes [56; 32; 100; 97; 99; 32; 52])))) trv (* 442 *);
    ok (snd (reads 3 ill (istate b_dec true (codes [56; 32; 100; 97; 99; 32; 52])))) (* 443 *);
    deq (fst (reads 1 ill (istate b_dec true (codes [32; 32; 68; 65; 67; 32; 32; 49; 54])))) dac (* 450 *);
    ok (snd (reads 1 ill (istate b_dec true (codes [32; 32; 68; 65; 67; 32; 32; 49; 54])))) (* 451 *);
    deq (fst (reads 2 ill (istate b_dec true (codes [32; 32; 68; 65; 67; 32; 32; 49; 54])))) com (* 453 *);
    ok (snd (reads 2 ill (istate b_dec true (codes [32; 32; 68; 65; 67; 32; 32; 49; 54])))) (* 454 *);
    deq (fst (reads 1 com (istate b_dec false (codes [32; 32; 100; 101; 102])))) com (* 463 *);
    negb (ok (snd (reads 1 com (istate b_dec false (codes [32; 32; 100; 101; 102]))))) (* 464 *);
    deq (fst (reads 1 trv (istate b_dec false (codes [32; 32; 49; 50])))) trv (* 472 *);
    negb (ok (snd (reads 1 trv (istate b_dec false (codes [32; 32; 49; 50]))))) (* 473 *);
    deq (fst (reads 1 ill (istate b_dec true (codes [10; 32; 52; 32; 9; 32; 68; 69; 70; 32; 10])))) trv (* 480 *);
    ok (snd (reads 1 ill (istate b_dec true (codes [10; 32; 52; 32; 9; 32; 68; 69; 70; 32; 10])))) (* 481 *);
    deq (fst (reads 2 ill (istate b_dec true (codes [10; 32; 52; 32; 9; 32; 68; 69; 70; 32; 10])))) def (* 483 *);
    ok (snd (reads 2 ill (istate b_dec true (codes [10; 32; 52; 32; 9; 32; 68; 69; 70; 32; 10])))) (* 484 *);
    deq (fst (reads 1 trv (istate b_dec true (codes [102; 111; 111; 32; 99; 111; 109])))) trv (* 491 *);
    negb (ok (snd (reads 1 trv (istate b_dec true (codes [102; 111; 111; 32; 99; 111; 109]))))) (* 492 *);
    deq (fst (reads 1 dac (istate b_dec true (codes [32; 9; 32; 10; 32; 9; 32])))) dac (* 500 *);
    negb (ok (snd (reads 1 dac (istate b_dec true (codes [32; 9; 32; 10; 32; 9; 32]))))) (* 501 *);
    deq (fst (reads 1 com (istate b_dec true (codes [55])))) com (* 509 *);
    negb (ok (snd (reads 1 com (istate b_dec true (codes [55]))))) (* 510 *);
    deq (fst (reads 1 def (istate b_dec true (codes [45; 50])))) def (* 517 *);
    negb (ok (snd (reads 1 def (istate b_dec true (codes [45; 50]))))) (* 518 *) ].
Definition deco_valid : list (M bool) :=
  [ eqs (Exc.clear) none_bit (* 240 *);
    is_valid_deco ill (* 242 *);
    is_valid_deco trv (* 243 *);
    is_valid_deco def (* 244 *);
    is_valid_deco dac (* 245 *);
    is_valid_deco com (* 246 *);
    mnot invalid_operand (* 248 *);
    mnot (is_valid_deco 13%N) (* 252 *);
    invalid_operand (* 253 *);
    eqs (Exc.clear) none_bit (* 254 *);
    eqs (set_throw_exception_cwd (invalid_operand_bit)) (invalid_operand_bit) (* 256 *);
    throws (is_valid_deco 13%N) Invalid_operand_exception (* 257 *);
    invalid_operand (* 258 *);
    eqs (Exc.clear) none_bit (* 259 *);
    eqs (set_throw_exception_cwd (none_bit)) (none_bit) (* 260 *) ].
Definition exceptions : list (M bool) :=
  [ eqs (get_throw_exception_cwd) (none_bit) (* 35 *);
    eqs (get_flags) (none_bit) (* 36 *);
    mnot (bind get_flags (fun b => ret (negb (N.eqb b 0)))) (* 37 *);
    mnot undefined_operation (* 38 *);
    mnot possibly_undefined_operation (* 39 *);
    mnot interval_part_of_nai (* 40 *);
    mnot invalid_operand (* 41 *);
    eqs (signal_undefined_operation) (undefined_operation_bit) (* 43 *);
    eqs (get_flags) (undefined_operation_bit) (* 44 *);
    (bind get_flags (fun b => ret (negb (N.eqb b 0)))) (* 45 *);
    undefined_operation (* 46 *);
    eqs (Exc.clear) (none_bit) (* 47 *);
    eqs (get_flags) (none_bit) (* 48 *);
    mnot (bind get_flags (fun b => ret (negb (N.eqb b 0)))) (* 49 *);
    mnot undefined_operation (* 50 *);
    mnot (bind get_flags (fun b => ret (negb (N.eqb b 0)))) (* 52 *);
    mnot possibly_undefined_operation (* 53 *);
    eqs (signal_possibly_undefined_operation) (possibly_undefined_operation_bit) (* 54 *);
    eqs (get_flags) (possibly_undefined_operation_bit) (* 55 *);
    (bind get_flags (fun b => ret (negb (N.eqb b 0)))) (* 56 *);
    possibly_undefined_operation (* 57 *);
    eqs (Exc.clear) (none_bit) (* 58 *);
    eqs (get_flags) (none_bit) (* 59 *);
    mnot (bind get_flags (fun b => ret (negb (N.eqb b 0)))) (* 60 *);
    mnot possibly_undefined_operation (* 61 *);
    mnot (bind get_flags (fun b => ret (negb (N.eqb b 0)))) (* 63 *);
    mnot interval_part_of_nai (* 64 *);
    eqs (signal_interval_part_of_nai) (interval_part_of_nai_bit) (* 65 *);
    eqs (get_flags) (interval_part_of_nai_bit) (* 66 *);
    (bind get_flags (fun b => ret (negb (N.eqb b 0)))) (* 67 *);
    interval_part_of_nai (* 68 *);
    eqs (Exc.clear) (none_bit) (* 69 *);
    eqs (get_flags) (none_bit) (* 70 *);
    mnot (bind get_flags (fun b => ret (negb (N.eqb b 0)))) (* 71 *);
    mnot interval_part_of_nai (* 72 *);
    mnot (bind get_flags (fun b => ret (negb (N.eqb b 0)))) (* 74 *);
    mnot invalid_operand (* 75 *);
    eqs (signal_invalid_operand) (invalid_operand_bit) (* 76 *);
    eqs (get_flags) (invalid_operand_bit) (* 77 *);
    (bind get_flags (fun b => ret (negb (N.eqb b 0)))) (* 78 *);
    invalid_operand (* 79 *);
    eqs (Exc.clear) (none_bit) (* 80 *);
    eqs (get_flags) (none_bit) (* 81 *);
    mnot (bind get_flags (fun b => ret (negb (N.eqb b 0)))) (* 82 *);
    mnot invalid_operand (* 83 *);
    eqs (set_throw_exception_cwd (N.lor (N.lor (N.lor (invalid_operand_bit) interval_part_of_nai_bit) possibly_undefined_operation_bit) undefined_operation_bit)) (N.lor (N.lor (N.lor (invalid_operand_bit) interval_part_of_nai_bit) possibly_undefined_operation_bit) undefined_operation_bit) (* 85 *);
    mnot (bind get_flags (fun b => ret (negb (N.eqb b 0)))) (* 86 *);
    throws (signal_invalid_operand) Invalid_operand_exception (* 87 *);
    eqs (get_flags) (invalid_operand_bit) (* 88 *);
    (bind get_flags (fun b => ret (negb (N.eqb b 0)))) (* 89 *);
    invalid_operand (* 90 *);
    throws (signal_interval_part_of_nai) Interval_part_of_nai_exception (* 91 *);
    eqs (get_flags) (N.lor (invalid_operand_bit) interval_part_of_nai_bit) (* 92 *);
    (bind get_flags (fun b => ret (negb (N.eqb b 0)))) (* 93 *);
    interval_part_of_nai (* 94 *);
    throws (signal_possibly_undefined_operation) Possibly_undefined_operation_exception (* 95 *);
    eqs (get_flags) (N.lor (N.lor (invalid_operand_bit) interval_part_of_nai_bit) possibly_undefined_operation_bit) (* 96 *);
    (bind get_flags (fun b => ret (negb (N.eqb b 0)))) (* 97 *);
    possibly_undefined_operation (* 98 *);
    throws (signal_undefined_operation) Undefined_operation_exception (* 99 *);
    eqs (get_flags) (N.lor (N.lor (N.lor (invalid_operand_bit) interval_part_of_nai_bit) possibly_undefined_operation_bit) undefined_operation_bit) (* 100 *);
    (bind get_flags (fun b => ret (negb (N.eqb b 0)))) (* 101 *);
    undefined_operation (* 102 *);
    eqs (Exc.clear) (none_bit) (* 103 *);
    eqs (get_flags) (none_bit) (* 104 *);
    mnot (bind get_flags (fun b => ret (negb (N.eqb b 0)))) (* 105 *);
    mnot invalid_operand (* 106 *);
    eqs (set_throw_exception_cwd (none_bit)) (none_bit) (* 107 *);
    eqs (get_throw_exception_cwd) (none_bit) (* 108 *);
    mnot (bind get_flags (fun b => ret (negb (N.eqb b 0)))) (* 111 *);
    eqs (signal_invalid_operand) (invalid_operand_bit) (* 112 *);
    eqs (get_flags) (invalid_operand_bit) (* 113 *);
    (bind get_flags (fun b => ret (negb (N.eqb b 0)))) (* 114 *);
    invalid_operand (* 115 *);
    eqs (signal_interval_part_of_nai) (N.lor (invalid_operand_bit) interval_part_of_nai_bit) (* 116 *);
    eqs (get_flags) (N.lor (invalid_operand_bit) interval_part_of_nai_bit) (* 117 *);
    (bind get_flags (fun b => ret (negb (N.eqb b 0)))) (* 118 *);
    interval_part_of_nai (* 119 *);
    eqs (signal_possibly_undefined_operation) (N.lor (N.lor (invalid_operand_bit) interval_part_of_nai_bit) possibly_undefined_operation_bit) (* 120 *);
    eqs (get_flags) (N.lor (N.lor (invalid_operand_bit) interval_part_of_nai_bit) possibly_undefined_operation_bit) (* 121 *);
    (bind get_flags (fun b => ret (negb (N.eqb b 0)))) (* 122 *);
    possibly_undefined_operation (* 123 *);
    eqs (signal_undefined_operation) (N.lor (N.lor (N.lor (invalid_operand_bit) interval_part_of_nai_bit) possibly_undefined_operation_bit) undefined_operation_bit) (* 124 *);
    eqs (get_flags) (N.lor (N.lor (N.lor (invalid_operand_bit) interval_part_of_nai_bit) possibly_undefined_operation_bit) undefined_operation_bit) (* 125 *);
    (bind get_flags (fun b => ret (negb (N.eqb b 0)))) (* 126 *);
    undefined_operation (* 127 *);
    eqs (Exc.clear) (none_bit) (* 128 *);
    eqs (get_flags) (none_bit) (* 129 *);
    mnot (bind get_flags (fun b => ret (negb (N.eqb b 0)))) (* 130 *);
    mnot invalid_operand (* 131 *) ].
Definition overlap_output : list bool :=
  [ writes (put_overlap 0 o_undefined) (manipulate_all 0 [] (fresh plain)) (txt "undefined") (* 43 *);
    writes (put_overlap 0 o_both_empty) (manipulate_all 0 [] (fresh plain)) (txt "both_empty") (* 46 *);
    writes (put_overlap 0 o_first_empty) (manipulate_all 0 [] (fresh plain)) (txt "first_empty") (* 49 *);
    writes (put_overlap 0 o_second_empty) (manipulate_all 0 [] (fresh plain)) (txt "second_empty") (* 52 *);
    writes (put_overlap 0 o_before) (manipulate_all 0 [] (fresh plain)) (txt "before") (* 55 *);
    writes (put_overlap 0 o_meets) (manipulate_all 0 [] (fresh plain)) (txt "meets") (* 58 *);
    writes (put_overlap 0 o_overlaps) (manipulate_all 0 [] (fresh plain)) (txt "overlaps") (* 61 *);
    writes (put_overlap 0 o_starts) (manipulate_all 0 [] (fresh plain)) (txt "starts") (* 64 *);
    writes (put_overlap 0 o_contained_by) (manipulate_all 0 [] (fresh plain)) (txt "contained_by") (* 67 *);
    writes (put_overlap 0 o_finishes) (manipulate_all 0 [] (fresh plain)) (txt "finishes") (* 70 *);
    writes (put_overlap 0 o_equal) (manipulate_all 0 [] (fresh plain)) (txt "equal") (* 73 *);
    writes (put_overlap 0 o_finished_by) (manipulate_all 0 [] (fresh plain)) (txt "finished_by") (* 76 *);
    writes (put_overlap 0 o_contains) (manipulate_all 0 [] (fresh plain)) (txt "contains") (* 79 *);
    writes (put_overlap 0 o_started_by) (manipulate_all 0 [] (fresh plain)) (txt "started_by") (* 82 *);
    writes (put_overlap 0 o_overlapped_by) (manipulate_all 0 [] (fresh plain)) (txt "overlapped_by") (* 85 *);
    writes (put_overlap 0 o_met_by) (manipulate_all 0 [] (fresh plain)) (txt "met_by") (* 88 *);
    writes (put_overlap 0 o_after) (manipulate_all 0 [] (fresh plain)) (txt "after") (* 91 *);
    writes (put_overlap 0 o_undefined) (manipulate_all 0 [p_overlapping_numeric] (fresh plain)) (txt "0") (* 99 *);
    writes (put_overlap 0 o_both_empty) (manipulate_all 0 [p_overlapping_numeric] (fresh plain)) (txt "1") (* 102 *);
    writes (put_overlap 0 o_first_empty) (manipulate_all 0 [p_overlapping_numeric] (fresh plain)) (txt "2") (* 105 *);
    writes (put_overlap 0 o_second_empty) (manipulate_all 0 [p_overlapping_numeric] (fresh plain)) (txt "4") (* 108 *);
    writes (put_overlap 0 o_before) (manipulate_all 0 [p_overlapping_numeric] (fresh plain)) (txt "8") (* 111 *);
    writes (put_overlap 0 o_meets) (manipulate_all 0 [p_overlapping_numeric] (fresh plain)) (txt "16") (* 114 *);
    writes (put_overlap 0 o_overlaps) (manipulate_all 0 [p_overlapping_numeric] (fresh plain)) (txt "32") (* 117 *);
    writes (put_overlap 0 o_starts) (manipulate_all 0 [p_overlapping_numeric] (fresh plain)) (txt "64") (* 120 *);
    writes (put_overlap 0 o_contained_by) (manipulate_all 0 [p_overlapping_numeric] (fresh plain)) (txt "128") (* 123 *);
    writes (put_overlap 0 o_finishes) (manipulate_all 0 [p_overlapping_numeric] (fresh plain)) (txt "256") (* 126 *);
    writes (put_overlap 0 o_equal) (manipulate_all 0 [p_overlapping_numeric] (fresh plain)) (txt "512") (* 129 *);
    writes (put_overlap 0 o_finished_by) (manipulate_all 0 [p_overlapping_numeric] (fresh plain)) (txt "1024") (* 132 *);
    writes (put_overlap 0 o_contains) (manipulate_all 0 [p_overlapping_numeric] (fresh plain)) (txt "2048") (* 135 *);
    writes (put_overlap 0 o_started_by) (manipulate_all 0 [p_overlapping_numeric] (fresh plain)) (txt "4096") (* 138 *);
    writes (put_overlap 0 o_overlapped_by) (manipulate_all 0 [p_overlapping_numeric] (fresh plain)) (txt "8192") (* 141 *);
    writes (put_overlap 0 o_met_by) (manipulate_all 0 [p_overlapping_numeric] (fresh plain)) (txt "16384") (* 144 *);
    writes (put_overlap 0 o_after) (manipulate_all 0 [p_overlapping_numeric] (fresh plain)) (txt "32768") (* 147 *);
    writes (put_overlap 0 o_undefined) (manipulate_all 0 [p_overlapping_numeric; p_overlapping_alpha; p_upper_case] (fresh plain)) (txt "UNDEFINED") (* 153 *);
    writes (put_overlap 0 o_both_empty) (manipulate_all 0 [p_overlapping_numeric; p_overlapping_alpha; p_upper_case] (fresh plain)) (txt "BOTH_EMPTY") (* 156 *);
    writes (put_overlap 0 o_first_empty) (manipulate_all 0 [p_overlapping_numeric; p_overlapping_alpha; p_upper_case] (fresh plain)) (txt "FIRST_EMPTY") (* 159 *);
    writes (put_overlap 0 o_second_empty) (manipulate_all 0 [p_overlapping_numeric; p_overlapping_alpha; p_upper_case] (fresh plain)) (txt "SECOND_EMPTY") (* 162 *);
    writes (put_overlap 0 o_before) (manipulate_all 0 [p_overlapping_numeric; p_overlapping_alpha; p_upper_case] (fresh plain)) (txt "BEFORE") (* 165 *);
    writes (put_overlap 0 o_meets) (manipulate_all 0 [p_overlapping_numeric; p_overlapping_alpha; p_upper_case] (fresh plain)) (txt "MEETS") (* 168 *);
    writes (put_overlap 0 o_overlaps) (manipulate_all 0 [p_overlapping_numeric; p_overlapping_alpha; p_upper_case] (fresh plain)) (txt "OVERLAPS") (* 171 *);
    writes (put_overlap 0 o_starts) (manipulate_all 0 [p_overlapping_numeric; p_overlapping_alpha; p_upper_case] (fresh plain)) (txt "STARTS") (* 174 *);
    writes (put_overlap 0 o_contained_by) (manipulate_all 0 [p_overlapping_numeric; p_overlapping_alpha; p_upper_case] (fresh plain)) (txt "CONTAINED_BY") (* 177 *);
    writes (put_overlap 0 o_finishes) (manipulate_all 0 [p_overlapping_numeric; p_overlapping_alpha; p_upper_case] (fresh plain)) (txt "FINISHES") (* 180 *);
    writes (put_overlap 0 o_equal) (manipulate_all 0 [p_overlapping_numeric; p_overlapping_alpha; p_upper_case] (fresh plain)) (txt "EQUAL") (* 183 *);
    writes (put_overlap 0 o_finished_by) (manipulate_all 0 [p_overlapping_numeric; p_overlapping_alpha; p_upper_case] (fresh plain)) (txt "FINISHED_BY") (* 186 *);
    writes (put_overlap 0 o_contains) (manipulate_all 0 [p_overlapping_numeric; p_overlapping_alpha; p_upper_case] (fresh plain)) (txt "CONTAINS") (* 189 *);
    writes (put_overlap 0 o_started_by) (manipulate_all 0 [p_overlapping_numeric; p_overlapping_alpha; p_upper_case] (fresh plain)) (txt "STARTED_BY") (* 192 *);
    writes (put_overlap 0 o_overlapped_by) (manipulate_all 0 [p_overlapping_numeric; p_overlapping_alpha; p_upper_case] (fresh plain)) (txt "OVERLAPPED_BY") (* 195 *);
    writes (put_overlap 0 o_met_by) (manipulate_all 0 [p_overlapping_numeric; p_overlapping_alpha; p_upper_case] (fresh plain)) (txt "MET_BY") (* 198 *);
    writes (put_overlap 0 o_after) (manipulate_all 0 [p_overlapping_numeric; p_overlapping_alpha; p_upper_case] (fresh plain)) (txt "AFTER") (* 201 *) ].
Definition manipulators : list bool :=
  [ Z.eqb (s_words (manipulate_all 0 [] (fresh plain)) (text_representation_id 0)) 0 (* 41 lower_case_text_representation *);
    Z.eqb (s_words (manipulate_all 0 [p_upper_case] (fresh plain)) (text_representation_id 0)) 1 (* 44 upper_case_text_representation *);
    Z.eqb (s_words (manipulate_all 0 [p_upper_case; p_lower_case] (fresh plain)) (text_representation_id 0)) 0 (* 47 lower_case_text_representation *);
    Z.eqb (s_words (manipulate_all 0 [] (fresh plain)) (string_width_id 0)) 0 (* 54 0 *);
    Z.eqb (s_words (manipulate_all 0 [p_string_width 12] (fresh plain)) (string_width_id 0)) 12 (* 57 12 *);
    Z.eqb (s_words (manipulate_all 0 [p_string_width 12; p_string_width 27] (fresh plain)) (string_width_id 0)) 27 (* 60 27 *);
    Z.eqb (s_words (manipulate_all 0 [p_string_width 12; p_string_width 27; p_string_width 0] (fresh plain)) (string_width_id 0)) 0 (* 63 0 *);
    Z.eqb (s_words (manipulate_all 0 [] (fresh plain)) (representation_id 0)) 0 (* 70 inf_sup_representation *);
    Z.eqb (s_words (manipulate_all 0 [p_uncertain_form] (fresh plain)) (representation_id 0)) 1 (* 73 uncertain_representation *);
    Z.eqb (s_words (manipulate_all 0 [p_uncertain_form; p_uncertain_up_form] (fresh plain)) (representation_id 0)) 2 (* 76 uncertain_up_representation *);
    Z.eqb (s_words (manipulate_all 0 [p_uncertain_form; p_uncertain_up_form; p_uncertain_down_form] (fresh plain)) (representation_id 0)) 3 (* 79 uncertain_down_representation *);
    Z.eqb (s_words (manipulate_all 0 [p_uncertain_form; p_uncertain_up_form; p_uncertain_down_form; p_inf_sup_form] (fresh plain)) (representation_id 0)) 0 (* 82 inf_sup_representation *);
    Z.eqb (s_words (manipulate_all 0 [] (fresh plain)) (number_representation_id 0)) 0 (* 89 decimal_scientific_representation *);
    Z.eqb (s_words (manipulate_all 0 [p_decimal] (fresh plain)) (number_representation_id 0)) 1 (* 92 decimal_representation *);
    Z.eqb (s_words (manipulate_all 0 [p_decimal; p_scientific] (fresh plain)) (number_representation_id 0)) 2 (* 95 scientific_representation *);
    Z.eqb (s_words (manipulate_all 0 [p_decimal; p_scientific; p_hex] (fresh plain)) (number_representation_id 0)) 3 (* 98 hex_representation *);
    Z.eqb (s_words (manipulate_all 0 [p_decimal; p_scientific; p_hex; p_decimal_scientific] (fresh plain)) (number_representation_id 0)) 0 (* 101 decimal_scientific_representation *);
    Z.eqb (s_words (manipulate_all 0 [] (fresh plain)) (width_id 0)) 0 (* 108 0 *);
    Z.eqb (s_words (manipulate_all 0 [p_width 9] (fresh plain)) (width_id 0)) 9 (* 111 9 *);
    Z.eqb (s_words (manipulate_all 0 [p_width 9; p_width 15] (fresh plain)) (width_id 0)) 15 (* 114 15 *);
    Z.eqb (s_words (manipulate_all 0 [p_width 9; p_width 15; p_width 0] (fresh plain)) (width_id 0)) 0 (* 117 0 *);
    Z.eqb (s_words (manipulate_all 0 [] (fresh plain)) (precision_id 0)) 0 (* 124 0 *);
    Z.eqb (s_words (manipulate_all 0 [p_precision 16] (fresh plain)) (precision_id 0)) 16 (* 127 16 *);
    Z.eqb (s_words (manipulate_all 0 [p_precision 16; p_precision 8] (fresh plain)) (precision_id 0)) 8 (* 130 8 *);
    Z.eqb (s_words (manipulate_all 0 [p_precision 16; p_precision 8; p_precision 0] (fresh plain)) (precision_id 0)) 0 (* 133 0 *);
    Z.eqb (s_words (manipulate_all 0 [] (fresh plain)) (special_representation_id 0)) 0 (* 140 text_special_representation *);
    Z.eqb (s_words (manipulate_all 0 [p_special_bounds] (fresh plain)) (special_representation_id 0)) 1 (* 143 bounds_special_representation *);
    Z.eqb (s_words (manipulate_all 0 [p_special_bounds; p_special_no_bounds] (fresh plain)) (special_representation_id 0)) 2 (* 146 no_bounds_special_representation *);
    Z.eqb (s_words (manipulate_all 0 [p_special_bounds; p_special_no_bounds; p_special_text] (fresh plain)) (special_representation_id 0)) 0 (* 149 text_special_representation *);
    Z.eqb (s_words (manipulate_all 0 [] (fresh plain)) (punctuation_id 0)) 0 (* 156 show_punctuation *);
    Z.eqb (s_words (manipulate_all 0 [p_no_punctuation] (fresh plain)) (punctuation_id 0)) 1 (* 159 show_no_punctuation *);
    Z.eqb (s_words (manipulate_all 0 [p_no_punctuation; p_punctuation] (fresh plain)) (punctuation_id 0)) 0 (* 162 show_punctuation *);
    Z.eqb (s_words (manipulate_all 0 [] (fresh plain)) (uncertain_exponent_id 0)) 0 (* 169 show_no_uncertain_exponent *);
    Z.eqb (s_words (manipulate_all 0 [p_uncertain_exponent] (fresh plain)) (uncertain_exponent_id 0)) 1 (* 172 show_uncertain_exponent *);
    Z.eqb (s_words (manipulate_all 0 [p_uncertain_exponent; p_no_uncertain_exponent] (fresh plain)) (uncertain_exponent_id 0)) 0 (* 175 show_no_uncertain_exponent *);
    Z.eqb (s_words (manipulate_all 0 [] (fresh plain)) (dec_id 0)) 0 (* 183 dec_alpha_representation *);
    Z.eqb (s_words (manipulate_all 0 [p_dec_numeric] (fresh plain)) (dec_id 0)) 1 (* 186 dec_numeric_representation *);
    Z.eqb (s_words (manipulate_all 0 [p_dec_numeric; p_dec_alpha] (fresh plain)) (dec_id 0)) 0 (* 189 dec_alpha_representation *);
    Z.eqb (s_words (manipulate_all 0 [] (fresh plain)) (overlapping_id 0)) 0 (* 197 overlapping_alpha_representation *);
    Z.eqb (s_words (manipulate_all 0 [p_overlapping_numeric] (fresh plain)) (overlapping_id 0)) 1 (* 200 overlapping_numeric_representation *);
    Z.eqb (s_words (manipulate_all 0 [p_overlapping_numeric; p_overlapping_alpha] (fresh plain)) (overlapping_id 0)) 0 (* 203 overlapping_alpha_representation *) ].

Example deco_orders_hold : all deco_orders = true. Proof. vm_compute. reflexivity. Qed.
Example deco_output_holds : all deco_output = true. Proof. vm_compute. reflexivity. Qed.
Example deco_input_holds : all deco_input = true. Proof. vm_compute. reflexivity. Qed.
Example deco_valid_holds : holds deco_valid (Est 0 0) = true. Proof. vm_compute. reflexivity. Qed.
Example exceptions_hold : holds exceptions (Est 0 0) = true. Proof. vm_compute. reflexivity. Qed.
Example overlap_output_holds : all overlap_output = true. Proof. vm_compute. reflexivity. Qed.
Example manipulators_hold : all manipulators = true. Proof. vm_compute. reflexivity. Qed.
