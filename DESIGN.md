# Formal model of libieeep1788 in Rocq/Coq 8.16.1

Subject: `/repo` (nehmeier/libieeep1788), a header-only C++ implementation of
IEEE P1788 set-based inf-sup intervals on top of MPFR.

## 1. Approach

* The model is a shallow, function-by-function transcription of the C++ code
  into Gallina.  Every definition of a `M*.v` file carries the file and line
  range it was transcribed from.
* Floating-point data are Flocq's `BinarySingleNaN.binary_float prec emax`
  (signed zeros, infinities, one NaN), generic in the format.  `float`,
  `double` and x87 `long double` are instances.
* Functions that can signal a P1788 exception live in a state/exception monad
  over (flags, throw mask); a thrown C++ exception is a separate outcome.
* Properties are stated against a small independent specification (`Spec.v`):
  membership of a real number in a representation, well-formedness, and
  "`z` is the tightest interval around the set `S`", where `S` is a set of reals
  given by the mathematical function itself.
* C++ undefined behaviour (signed overflow, buffer overrun) is represented by a
  separate outcome wherever it can arise in a modelled function.

## 2. Trusted base

* The Coq kernel (8.16.1) and `coqc`.
* Axioms: only those of the Coq standard library's real numbers, classical
  logic and functional extensionality (section 5; every property file prints the
  assumptions of each of its theorems).
* The transcription itself (C++ to Gallina).
* The contract of external functions (section 3).

## 3. External code and how it is represented

* MPFR: every `mpfr_*` function returns the correctly rounded value of the
  exact real function in the requested direction (MPFR's documented contract),
  with the documented special values.  `+ - * / sqrt fma` are represented by the
  executable Flocq operations; the others by the correctly rounded value of the
  corresponding real function of the standard library.  That the pipeline
  "round to PREC bits in the exponent range, `mpfr_subnormalize`, convert"
  equals one IEEE rounding is proved separately (C39), therefore the other
  models use one rounding.  `mpfr_sprintf` is written out after its manual
  (`MText.v`); the cases the repository tests hold of it (`ExText.v`).
* GMP: exact integer and rational arithmetic, `mpz_set_str`/`mpq_set_str`
  as documented, unlimited memory.  `mpq_set_str` does not canonicalise;
  `mpq_cmp` and `mpfr_set_q` are taken to work on the value.
* C++ standard library: `std::pair`, `std::min/max` on numbers, `std::stoi`, `std::stoll`,
  `std::to_string`, members of `std::string` with their range checks,
  the part of the streams that is used (`MStream.v`: classic locale, no stream
  exceptions, reading fails only at the end), `std::regex_match` as the
  backtracking search of ECMAScript (`MRegex.v`; its stack use is not modelled).

## 4. What is modelled

| file | C++ | left out or simplified |
|------|-----|------------------------|
| `Fmt.v`, `Deco.v`, `Exc.v` | floating formats, `decoration.hpp` constants, `exception.hpp` | formats are instances of a record; the state is passed explicitly |
| `MBase.v` | `..._validation_func_impl`, `..._class_impl`, `..._util_func_impl`, `mixed_type_traits.hpp` | - |
| `MArith.v MElem.v MTrig.v MPow.v MAtan2.v` | `..._elem_func_impl` (bare) | loads and stores of `mpfr_var` are identities (C39) |
| `MDec.v`, `MMixed.v` | decorated and mixed-type versions | the text all of them share is one definition |
| `MBool.v`, `MOverlap.v` | `..._bool_func_impl`, `..._rec_bool_func_impl`, `..._set_op_impl`, `..._rec_overlap_impl` | - |
| `MNum.v` | `..._num_func_impl` | - |
| `MCancel.v` | `..._cancel_func_impl`, `two_sum` of `mpfr_util.hpp` | - |
| `MRev.v`, `MTrigRev.v`, `MRev1.v` | `..._rev_func_impl`, `..._mul_rev_to_pair_func_impl` | ternary values only as "exact or not"; the quotient of `mpfr_remquo` by its contract |
| `MMpfr.v` | `mpfr_var_impl.hpp` | signs of zeros |
| `MRed.v` | `reduction.hpp` | memory (in `MMem.v`) |
| `MMem.v` | memory of `mpfr_var`, `two_sum`, `get_str`, `reduction.hpp` | values; caches of MPFR; strings of the standard library own their memory |
| `MApi.v` | derived relations of `base_interval_bool_func_impl.hpp`, decorated | - |
| `MHist.v` | `exception.hpp` as a history of calls, threads as interleavings | data races themselves |
| `MDecoIo.v MPrint.v MText.v MStream.v` | `decoration.hpp` i/o, `get_str`, `operator_interval_to_text` | - |
| `MUncertain.v` | the uncertain forms of `operator_interval_to_text` | number of the form and of the base (iword values) are arguments |
| `MManip.v` | `io_manip.hpp`, output of `overlapping.hpp`, the output functions as changes of a stream | iword() never fails; number widths and precisions below 2^31; templates instantiated in several units use the ids of their own unit (the linker may mix them: an ODR violation) |
| `MRegex.v MRead.v` | `operator_text_to_interval`, constructors from strings | lengths below 2^29 |
| `MRoots.v` | `examples/e15_bisection.cpp`, `examples/e16_newton.cpp` | recursion bounded by a number of levels; printing |
| `MExpr.v` | nested calls of the elementary functions, `base_interval_elem_func_impl.hpp` | operands evaluated left to right; the class layer only forwards (copying a valid value changes nothing) |
| `MClass.v` | the classes `interval`, `decorated_interval`, `base_interval` as objects of programs | operands evaluated left to right; object lifetimes and aliasing through references or pointers (an object is a number); tests of conditions are arbitrary |
| `MStep.v` | programs that assign the expressions of `MExpr.v` to objects, as programs of `MClass.v` | - |

## 5. Axioms

`Print Assumptions` lists, for the theorems about real numbers, a subset of

* `ClassicalDedekindReals.sig_not_dec`
* `ClassicalDedekindReals.sig_forall_dec`
* `FunctionalExtensionality.functional_extensionality_dep`
* `Classical_Prop.classic`

all of the Coq standard library (the first three by the real numbers, the last by
Flocq's and Coquelicot's use of classical logic).  Theorems about flags, decorations and
texts alone are closed.  There are no other axioms, no admitted proofs, no
functors, no module types and no disabled kernel checks.

## 6. Properties

| id | modelled | how it is proved |
|----|----------|------------------|
| C01 | `is_valid` (bare, decorated) | iff against `wf` of `Spec.v`, all float pairs |
| C02 | `nums_to_interval` etc., same and mixed type | `tightest` of the closed interval, flag equations |
| C03-C07 | bare `neg add sub mul div recip fma sqr sqrt abs min max` | `tightest` of the real image, by sign cases on bounds |
| C08, C09 | `pown`, `pow` | `tightest`, monotonicity of powers, limits at infinite bounds |
| C10, C13, C14 | exp/log, inverse trig., hyperbolic, `atan2` | `tightest`, monotone function with limits |
| C11, C12 | `sin cos tan` with the width/derivative heuristics | periodicity zones and bounds of pi; `tan` refuted for binary64 at one width (RD pi), proved there for all others (SpecTan.v): bounds on a grid, two numbers between the tangents; and exactly: the result encloses if and only if no pole is hidden (SpecTan2.v), for every format; tightest in the C++ formats exactly then (`PTanW.v`) |
| C15 | step functions | `tightest`, monotonicity of integer rounding |
| C16, C17 | decorated versions of all forward functions | domain and continuity over the reals (`SpecDeco.v`), NaI propagation (`SpecNai.v`) |
| C18, C19 | relations, also the derived ones of the public classes (MApi.v), `overlap` | iff against first-order statements over members |
| C20 | `intersection`, `convex_hull` | set equality / `tightest` |
| C21, C22 | `inf sup mid rad mid_rad wid mag mig` | against real bounds; mixed `mid_rad` refuted, with the exact limit of the midpoint from which it overflows |
| C23, C40 | `two_sum`, `cancel_minus`, `cancel_plus` | exact error of the sum, the sums without one as ties next to overflow, solutions of y + z = x, exactly the operands without solution that are missed (SpecBlind.v); edge cases refuted |
| C24, C25 | `mul_rev_to_pair`, `mul_rev`, `sqr_rev`, `abs_rev`, `pown_rev`, `cosh_rev` | preimages as sets; two cases refuted; `mul_rev` computes exactly the solutions and, for unlimited operands, zero (SpecMulRev.v); `pown_rev` computes exactly what SpecPownRev.v says, tightest without `x` |
| C26, C27 | `sin_rev`, `tan_rev`, `cos_rev` | periods counted with integers; refuted with witnesses, proved under bounds on x and for c with zero, or for solutions within 3/2 of the ends of x (SpecNear.v) |
| C28, C29 | mixed-type wrappers, `convert_hull` | rounding twice in the same direction |
| C30, C31 | `exception.hpp` | histories as lists of operations; interleavings; thread privacy refuted |
| C32 | all entry points | one lemma per shape of wrapper |
| C33 | forward functions | corollary of `tightest`; mixed `tan` from monotone conversion |
| C34 | `reduction.hpp` | exact accumulation, one rounding; refuted for products out of range, where the limited terms that are summed are specified exactly (SpecRedX.v) and, without overflow, bounded in their distance from the exact ones (`PRedErr.v`) |
| C35 | reading literals | grammar as a relation, regular expression matched exactly those texts, value by rounding the exact rational |
| C36 | `get_str` buffer | length of `mpfr_sprintf` output against the allocated size; refuted |
| C37 | decoration i/o | parser against the denoted texts |
| C38 | `new_dec set_dec interval_part` | direct |
| C41 | writing, then reading | the text written is a literal of the grammar around the interval (exactly it for hexadecimal), then C35 |
| C42 | uncertain output | digits of the rounded bounds as integers, alignment of exponents, least number of units; the buffer refuted |
| C43 | closure of validity | the values reachable through the public functions as mutual inductive predicates (MProg.v); every step delivers valid results when cancellation avoids the operands of `blind`; unrestricted cancellation refuted |
| C44 | the root finding examples | induction over the levels; mean value theorem for Newton; stopping by the number of representable steps between the bounds |
| C45 | manipulators and output through a stream | state of the stream as a function of ids; one lemma per group; invariants of a small stream monad; padding arithmetic modulo 2^32; names and numbers compared by computation |
| C46 | memory of variables, `get_str` and reductions | heap as a function, allocation failures as an oracle; invariants over the elements; the reductions refuted |
| C47 | whole expressions: trees over all forward functions, variables of any types, bare and decorated evaluation | induction over the tree; composition lemmas for enclosure, definedness, continuity; operands from C03-C16, C28, C33, C17; no restriction if the tangents work in binary32 or binary80 |
| C48 | reverse operations as contractors: part of the box, idempotent, monotone, image of the box as constraint | from the exact sets of C24, C25 (tightest intervals of a cut are stable); for the trigonometric ones every branch is intersected with the box; monotonicity of `sin_rev` refuted |
| C49 | laws between operations: commutativity, negation, even/odd, the same function by other operations, one against two roundings, inverses | equal images have equal tightest intervals; negation is exact; enclosures compose |
| C50 | programs over objects of both classes: assignment, copies of temporaries, loops, exceptions, extraction | induction over executions; every operation maps valid objects to valid ones (C43); refuted with a cancellative operation |
| C51 | programs of assignments with conditionals and loops: enclosure along the path, decorations of the whole path | substitution turns a path into one expression per object, then C47; the path is the one the conditions select (`guided`, a big-step relation with the flags), unique, and every selected path is an execution; with tangents of binary64 as long as none meets a hidden pole on the way (`fine_way`), refuted otherwise |
| C52 | functions on valid operands return: no exception, no flag, no undefined behaviour; expressions and programs of them | case analysis over the lists of functions (MProg.v); the branch numbers of the reverse trigonometric functions stay within long for bounds up to 2^62 and, with at most 61 digits (binary32, binary64), for all bounds that are no multiple of 2^63 times pi rounded down; refuted at these multiples, at the end of long, at INT_MIN and for blind operands of `cancel_minus` |
| C53 | relations, set operations, numeric functions and overlapping states agree: laws of the orders, lattice laws, relations as unions of states and as comparisons of `inf` and `sup`, numeric functions and inclusion | from the point-set meanings proved for each function (C18-C21): convexity of intervals, the order of extended reals by their upper and lower sets |
| C54 | decorations of all forward functions (one type, mixed types) are the strongest true ones (`SpecStrong.v`); better operands give better results, for functions and for whole expressions | case analysis of the tests of each function: each weaker answer comes with a point outside the domain, a discontinuity or an unbounded result; expressions by induction, from C16, C28, C33 |
| C55 | the numbers that floating-point arithmetic (any faithful roundings, `SpecFp.v`) computes for an expression or a program of assignments (`SpecFpStep.v`) lie in its interval evaluation; `def` excludes invalid operations, `com` overflow; the width bounds the rounding error; IEEE 754 operations are faithful | induction over the tree, from the nodes of C47: faithful rounding never passes a bound of the interval; C21 for the width; operands of tangents as in C47 |
| C56 | forward functions at single numbers (`SpecPoint.v`): the numbers in the result are exactly the faithful roundings; exact values give single numbers, others one unit in the last place; exact expressions | from the tightness theorems (C03-C15, C28, tangent C12); neighbours by the uniqueness of directed rounding; induction over the tree |
| C57 | forward functions, relations, intersection, hull, numeric and reverse functions called with the same sets in other types or through another overload (`SpecOver.v`: `same_numbers`, `recast`) agree; refuted for tangents with a hidden pole and for `pown_rev` (the work type shows) | uniqueness of the tightest interval (C03-C16, C28) and of the strongest decoration (C54), `POver.v`, `POver2.v`, `POver3.v`, `POver4.v`; induction over expressions |
| C58 | an operand (box) that is the union of two: the result of a forward function, of a reverse function or of the intersection is the tightest interval around the results for the parts, with the worse decoration (`SpecSplit.v`: `cut`, `joins`, `joins_dec`, `covered`); enclosure and coverage for expressions; refuted for tangents with a hidden pole | tightness (C03-C16, C28), pasting of continuity on two closed boxes and the strongest decoration (C54), `PSplit.v`, `PSplit2.v`, `PSplit3.v`; reverse functions by C24 and C25; expressions by C47 |
| C59 | signs and order of operands: changing the signs (or the order) of the operands changes the result as the mathematical law says, with the same decoration (`SpecMirror.v`: `flip`, `swap`, `alike1`, `alike2`, `laws2`); the laws are proved of the real functions, not assumed | tightness (C03-C16, C28) and the strongest decoration (C54) of both sides, moved along the change of signs: `PMirror.v`, `PMirror2.v`; the tangent with a hidden pole, wrong but symmetric, in `PMirror3.v`; relations, states, set operations and numeric functions from their set definitions (C18-C21) in `PMirror4.v`; reverse functions by C24 and C25. The arc tangent of two variables is not odd on the negative axis, and the code follows the function there (`C59_atan2_refuted`) |
| C60 | computing in a wider result type and converting equals computing in the narrower type; a wider type gives a smaller set and no weaker decoration (stated with `agree`, `agree_dec`, `within`) | tightness is kept by the final conversion (`tightest_narrow`), the decoration of both ways is the strongest honest one (C54): `PTwice.v`; refuted for tangents whose pole is hidden from one of the types only (`PTwice2.v`) |
| C61 | order of the elements, prior exponent range, zeros, opposite elements and the relations between `sum`, `sum_abs`, `sum_sqr` and `dot` (stated on the results, with `Permutation`, `same_number` and `opposite`) | a total determines the result bit by bit (`reduces_eq`), and `total` does not depend on the order: `PRedPerm.v` |
| C62 | `sum` of the bounds in the two directions is tightest around `sums` (SpecRedItv.v) and within a chain of `add`; the directions of all reductions are ordered | lower bounds are attained or unbounded, by induction on the list: `PRedItv.v`; order of the directions: `PRedOrd.v`; exact sums: `PRedExact.v` |
| C63 | monotonicity of `sum`, `sum_abs`, `sum_sqr`, `dot` and the triangle inequality, stated on the results with the comparison of IEEE 754 | totals and limited terms are monotone, and so is one rounding with overflow: `PRedMono.v`, `PRedDot.v` |
| C39 | `mpfr_var` pipeline | rounding composition over Flocq formats |

`MANIFEST.json` names the theorems and says for each property what is missing.
Every `C..v` file holds only statements, one-line proofs and examples.

## 7. Where the code disagrees with a property

Each has a theorem with suffix `_refuted` and a concrete witness.

* C12, C16, C33, C57, C58, C60: `tan` of a binary64 interval whose width, rounded up, is the number
  below pi skips the pole test; the result lacks values and the decoration is too strong.
  Exactly the intervals with a hidden pole (`pole_hidden`, SpecTan2.v) are affected, in every format;
  binary32 and binary80 have none.
* C57: `pown_rev` with mixed types rounds the roots in the work type before cutting them with `x`,
  so its result may be empty where the version for one type returns a number.
* C22: `mid_rad` into a narrower type overflows to a midpoint that is infinite, exactly
  when the midpoint reaches the limit of rounding to nearest of the narrower type.
* C23, C40: the second step of `two_sum` overflows for some finite sums (exactly those of
  `C40_exact_iff`); the error term is NaN then and `cancel_minus` misses that there is no
  solution (exactly for the operands of `blind`).
* C24: `mul_rev` with an unbounded divisor and a zero bound of x returns a point
  though there is no solution.
* C25: `pown_rev` negates INT_MIN. For positive exponents it cuts `x` with rounded bounds, so an `x` without solutions next to a bound gives a non-empty result (the other reverse functions avoid that).
* C47, C51: as C12, with a tangent of binary64 on an interval exactly as wide as the number below pi.
* C52: `sin_rev`, `cos_rev`, `tan_rev` of long double add one to a branch number that can be the
  greatest `long` (x = 376689011820010387808): undefined behaviour.  In all formats they set invalid_operand on
  valid operands when a bound is a multiple of 2^63 times pi rounded down (`tan_rev([0,0],[1, 2^63 p])`): the branch number
  read from `mpfr_remquo` is zero, so the next branch is on the other side of zero and its bounds are exchanged.  The decorated mixed-type
  `cancel_minus` sets invalid_operand on valid operands when its own intermediate result is invalid (C43).
* C46: the `mpfr_t` objects made with `new` in the reductions are never deleted; when `new` throws there, the array and
  the digits are lost too.
* C26, C48: `sin_rev` and `tan_rev` skip branches when c does not contain zero; so `sin_rev` is not monotone in the box.
* C26, C27: for bounds beyond 2^62 the quotient of `mpfr_remquo` is truncated.
* C31: flags and mask are plain static data shared by all threads.
* C32: `cancel_minus`, `cancel_plus` return silently for an invalid second operand; the
  decorated mixed `mul_rev_to_pair` lacks a `return` after its report; decoration bytes
  are never checked.
* C34: `sum_sqr` and `dot` use variables of a wider type without its `setup`.
* C61, C62: two natural strengthenings are refuted, not the properties: the sign of a zero sum is not
  reversed with the elements, and a chain of interval additions is not tightest.
* C35: plus signs are rejected, exponents beyond int throw `std::out_of_range` or
  overflow, numbers are accepted as decorations, `std::isspace` gets negative values.
* C36: in `get_str` a conditional operator binds weaker than the sum around it.
* C37: a failed read does not give `ill`; `dac` in hexadecimal is not read back.
* C41: `[inf,-inf]` (the empty set as bounds) is refused; with `std::setw` white space
  comes before the `_` of a decoration, and a stream then reads another decoration.
* C42: the uncertain forms always overrun the buffer of C36.  Apart from that,
  `exp_str.substr(1, str_m.size() - 1)` takes its length from the wrong string (wrong or no exponent
  for short precisions), and `std::stoll` throws for long digit strings and for bounds of which no
  digit is left after alignment.
* C43: `cancel_minus([(2^53-5)*2^970, DBL_MAX], [-(2^53-1)*2^970, 3*2^971])` returns
  `[(2^53-3)*2^971, (2^53-4)*2^971]`, an invalid interval made of valid ones.
* C50: that invalid interval is kept by copy assignment and replaced by the empty set by the copy
  constructor, so a program with it depends on the copies the compiler makes.
* C44: `ia_bisect` and `ia_newton` recurse without end when an interval cannot be split any more
  (f(x) = x^2 - 2 on [-2,2] with eps = 2^-53, for Newton already with 2^-52); a reported interval
  need not contain a zero.
* C45: `string_width(n)` with n >= 2^31 is ignored, changed by decorated output
  (4294967295 becomes -1), or makes decorated output subtract beyond the range of int (2^31).  The
  manipulator ids are constants with internal linkage, so a manipulator of one translation unit
  does not act on the output of another one.  `upper_case` writes whole words in capitals, its
  reference says the first character.  Numeric overlapping states padded with a digit are ambiguous.

Observed while modelling, without a theorem: `abs_rev` compiles only for T = double;
`is_valid(decoration)` is a non-inline function in a header.

## 8. Mutation tests

`seeded/LOG.jsonl` records realistic wrong edits of the model, each built in a scratch
copy, and the theorems that failed.

## 9. The repository's unit tests, run on the model

`rocq/theories/Test*.v` contain 8234 checks of the repository's tests
(`test/p1788/flavor/infsup/setbased/test_mpfr_bin_ieee754_flavor_*.cpp` and the tests of decorations,
exceptions, overlapping states and manipulators), translated line by line
into calls of the model. Every one of them holds of the model. They test that the model is the
code; they are bounded checks and no property rests on them.

- Values, decorations, exception flags and thrown exceptions are all compared, and the exception
  state passes from check to check as it does in the test process (`TestRun.v`).
- Covered: comparisons, set operations, numeric functions, cancellation, overlapping, recommended
  boolean functions, conversions, validity, constructors from numbers, `mul_rev`,
  `mul_rev_to_pair`, `sqr_rev`, `abs_rev`, and the elementary functions that need no transcendental
  function, each bare and decorated, with equal and with different number types.
- Left out: checks of functions whose model rounds a real number that is not computed (`exp`,
  `log`, trigonometric and hyperbolic functions, `pow`, `pown`, `pown_rev` and their reverse
  functions), six lines of the test of `tan_rev` whose literal has no exponent sign, the two tests
  of reading that switch on the exceptions of the stream, and eight checks of reading numbers
  around 10^6000, which hold too but take minutes.
- Text: the constructors from strings (`TestClass.v`), reading from a stream (`TestIo.v`, with
  `PQround.v` showing that the computed rounding of a decimal number is the correct one) and all
  checks of output (`TestOut.v`). The tests write into buffers that are too short (C36), so
  `TestWrite.v` repeats the writing functions with long enough buffers and proves that they differ
  from the model in nothing else.
- `TestMisc.v` has every check (409) of `test_decoration.cpp`, `test_exception.cpp`,
  `test_overlapping.cpp` and `test_io_manip.cpp`.
- `ExText.v` does the same for the recorded cases of the number formatter.
