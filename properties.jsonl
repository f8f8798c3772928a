{"id": "C01", "title": "A representation is accepted exactly when it denotes a closed connected set of reals", "statement": "The validity check accepts a pair of bounds iff it is the empty-set encoding (NaN,NaN) or the bounds are the ends of a non-empty closed connected set of reals (so -oo may only be a lower bound, +oo only an upper bound, one-sided NaN is rejected). For decorated pairs it additionally requires that an empty set carries ill or trv and that com is only used on bounded sets.", "quantifier": "every pair of floating-point bounds of every binary format, every decoration byte, every exception-state", "why_tests_cant": "There are 2^128 pairs of doubles; tests look at about twenty of them.", "anchors": ["p1788/flavor/infsup/setbased/mpfr_bin_ieee754_flavor_validation_func_impl.hpp: is_valid"]}
{"id": "C02", "title": "Numeric constructors build the tightest interval or report an undefined operation", "statement": "interval(l,u) with l<=u, l<+oo, u>-oo returns an interval whose set is the smallest interval of the target type containing [l,u] (exactly [l,u] when the types agree); any other pair sets the undefined_operation flag and yields the empty interval (NaI for decorated intervals). The decorated constructor with a decoration never yields com on an unbounded result and yields NaI for ill or an inconsistent decoration.", "quantifier": "every pair of bounds of any two source formats, every target format, every decoration, every exception state and mask", "why_tests_cant": "Double rounding / overflow of a conversion happens only for particular bit patterns, and the tests use a handful of literals.", "anchors": ["p1788/flavor/infsup/setbased/mpfr_bin_ieee754_flavor_class_impl.hpp: nums_to_interval, nums_to_decorated_interval, nums_dec_to_decorated_interval", "p1788/infsup/interval.hpp", "p1788/infsup/decorated_interval.hpp"]}
{"id": "C03", "title": "Addition, subtraction, negation and identity return the tightest enclosure", "statement": "For valid operands add, sub, neg and pos return the smallest interval with bounds of the type that contains every r+s, r-s, -r, r with r in x and s in y; empty operands give empty; no exception flag is raised.", "quantifier": "all valid intervals x and y including empty, half-bounded and entire ones, all binary formats, overflow and subnormal ranges included", "why_tests_cant": "Enclosure is a statement about infinitely many reals r,s for each pair of intervals, and tightness needs all competitors.", "anchors": ["p1788/flavor/infsup/setbased/mpfr_bin_ieee754_flavor_elem_func_impl.hpp: add, sub, neg, pos"]}
{"id": "C04", "title": "Multiplication returns the tightest enclosure", "statement": "mul(x,y) is the smallest interval containing every product r*s with r in x, s in y. No 0*oo indeterminate form ever reaches a bound.", "quantifier": "all valid intervals x and y, all binary formats", "why_tests_cant": "The code splits into sign cases with infinite and zero end points; tests sample the cases but cannot settle rounding and overflow for all bounds.", "anchors": ["p1788/flavor/infsup/setbased/mpfr_bin_ieee754_flavor_elem_func_impl.hpp: mul"]}
{"id": "C05", "title": "Division and reciprocal return the tightest enclosure of the quotient on its domain", "statement": "div(x,y) is the smallest interval containing every quotient r/s with r in x, s in y, s<>0 (empty if there is none), recip(x) likewise for 1/r.", "quantifier": "all valid intervals, including divisors that are zero, touch zero or contain zero in the interior, all formats", "why_tests_cant": "Range of a partial function over all reals of the operand intervals.", "anchors": ["p1788/flavor/infsup/setbased/mpfr_bin_ieee754_flavor_elem_func_impl.hpp: div, recip"]}
{"id": "C06", "title": "Fused multiply-add returns the tightest enclosure", "statement": "fma(x,y,z) is the smallest interval containing every r*s+t with r in x, s in y, t in z (a single rounding).", "quantifier": "all triples of valid intervals, all formats", "why_tests_cant": "Distinguishing one rounding from two needs special bit patterns; case split over infinite bounds is large.", "anchors": ["p1788/flavor/infsup/setbased/mpfr_bin_ieee754_flavor_elem_func_impl.hpp: fma"]}
{"id": "C07", "title": "Square, square root, absolute value, minimum and maximum return the tightest enclosure", "statement": "sqr, sqrt (on the non-negative part of the argument), abs, min and max return the smallest interval containing the exact range of the point function over the operand(s).", "quantifier": "all valid intervals, all formats", "why_tests_cant": "Range over infinitely many reals; tests use literals.", "anchors": ["p1788/flavor/infsup/setbased/mpfr_bin_ieee754_flavor_elem_func_impl.hpp: sqr, sqrt, abs, min, max"]}
{"id": "C08", "title": "Integer power returns the tightest enclosure", "statement": "pown(x,p) is the smallest interval containing r^p for all r in x in the domain (r<>0 when p<0), for every int p, including p=0, p=INT_MIN and either parity.", "quantifier": "all valid intervals, all exponents p of type int, all formats", "why_tests_cant": "2^32 exponents times all intervals.", "anchors": ["p1788/flavor/infsup/setbased/mpfr_bin_ieee754_flavor_elem_func_impl.hpp: pown"]}
{"id": "C09", "title": "General power returns the tightest enclosure", "statement": "pow(x,y) is the smallest interval containing r^s for all r in x, s in y with r>0, or r=0 and s>0.", "quantifier": "all pairs of valid intervals, all formats", "why_tests_cant": "Nine monotonicity cases with infinite and zero end points.", "anchors": ["p1788/flavor/infsup/setbased/mpfr_bin_ieee754_flavor_elem_func_impl.hpp: pow"]}
{"id": "C10", "title": "Exponential and logarithm families return the tightest enclosure", "statement": "exp, exp2, exp10 and log, log2, log10 return the smallest interval containing the point function over the part of the argument inside its domain.", "quantifier": "all valid intervals, all formats", "why_tests_cant": "Transcendental ranges over infinitely many reals.", "anchors": ["p1788/flavor/infsup/setbased/mpfr_bin_ieee754_flavor_elem_func_impl.hpp: exp, exp2, exp10, log, log2, log10"]}
{"id": "C11", "title": "Sine and cosine enclose every value they take", "statement": "sin(x) and cos(x) contain sin r, cos r for every r in x, whatever the width, position or magnitude of x, and stay within [-1,1].", "quantifier": "all valid intervals, all formats", "why_tests_cant": "Argument reduction of arbitrary floating-point bounds; the range test compares a rounded width with a rounded pi.", "anchors": ["p1788/flavor/infsup/setbased/mpfr_bin_ieee754_flavor_elem_func_impl.hpp: sin, cos"]}
{"id": "C12", "title": "Tangent encloses every value it takes", "statement": "tan(x) contains tan r for every r in x with cos r <> 0.", "quantifier": "all valid intervals, all formats", "why_tests_cant": "A pole between the bounds is detected by comparing rounded tangents; failure needs widths within one ulp of pi.", "anchors": ["p1788/flavor/infsup/setbased/mpfr_bin_ieee754_flavor_elem_func_impl.hpp: tan"]}
{"id": "C13", "title": "Inverse trigonometric, hyperbolic and inverse hyperbolic functions return the tightest enclosure", "statement": "asin, acos, atan, sinh, cosh, tanh, asinh, acosh, atanh return the smallest interval containing the point function over the part of the argument inside its domain.", "quantifier": "all valid intervals, all formats", "why_tests_cant": "Transcendental ranges over infinitely many reals; domain truncation at open and closed ends.", "anchors": ["p1788/flavor/infsup/setbased/mpfr_bin_ieee754_flavor_elem_func_impl.hpp: asin, acos, atan, sinh, cosh, tanh, asinh, acosh, atanh"]}
{"id": "C14", "title": "Two-argument arctangent encloses every angle", "statement": "atan2(y,x) contains the angle in (-pi,pi] of every point (r_x,r_y) of the box other than the origin, and is empty only when the box is the origin or a side is empty.", "quantifier": "all pairs of valid intervals, all formats", "why_tests_cant": "Sixteen position cases of the box relative to the branch cut.", "anchors": ["p1788/flavor/infsup/setbased/mpfr_bin_ieee754_flavor_elem_func_impl.hpp: atan2"]}
{"id": "C15", "title": "Step functions return the tightest enclosure", "statement": "sign, ceil, floor, trunc, round_ties_to_even, round_ties_to_away return the smallest interval containing the point function over x.", "quantifier": "all valid intervals, all formats", "why_tests_cant": "Rounding to integers of every bound; ties.", "anchors": ["p1788/flavor/infsup/setbased/mpfr_bin_ieee754_flavor_elem_func_impl.hpp: sign, ceil, floor, trunc, round_ties_to_even, round_ties_to_away"]}
{"id": "C16", "title": "Decorations never overstate what is known about the evaluation", "statement": "If a decorated forward operation returns decoration def or better, the point function is defined at every point of the input box; if dac or better it is moreover continuous on the box; if com the box and the result are bounded as well. The result decoration is never better than any input decoration, and the interval part equals the bare operation.", "quantifier": "all valid decorated operands, all formats, every decorated elementary function", "why_tests_cant": "Continuity and definedness over a box are statements about infinitely many points.", "anchors": ["p1788/flavor/infsup/setbased/mpfr_bin_ieee754_flavor_elem_func_impl.hpp: decorated versions of all elementary functions"]}
{"id": "C17", "title": "NaI is absorbing", "statement": "Every decorated operation returns NaI if some operand is NaI, boolean relations on NaI are false, numeric functions on NaI return NaN, and NaI is produced by forward operations only from NaI or invalid operands.", "quantifier": "all operand tuples, all operations, all formats", "why_tests_cant": "Quantifies over all companions of a NaI operand.", "anchors": ["p1788/flavor/infsup/setbased/mpfr_bin_ieee754_flavor_elem_func_impl.hpp", "p1788/flavor/infsup/setbased/mpfr_bin_ieee754_flavor_bool_func_impl.hpp", "p1788/flavor/infsup/setbased/mpfr_bin_ieee754_flavor_num_func_impl.hpp", "p1788/flavor/infsup/setbased/mpfr_bin_ieee754_flavor_rev_func_impl.hpp"]}
{"id": "C18", "title": "Comparison relations decide their set-theoretic definitions", "statement": "equal, subset, superset, less, greater, precedes, succeeds, interior, contains_interior, strictly_less, strictly_greater, strictly_precedes, strictly_succeeds, disjoint and is_empty, is_entire, is_singleton, is_member, is_common_interval return true exactly when the corresponding first-order statement about the real members of the operands holds, also across different bound types.", "quantifier": "all pairs of valid intervals, all (pairs of) formats", "why_tests_cant": "The definition quantifies over real members; the code compares floating-point end points with special cases for infinities.", "anchors": ["p1788/flavor/infsup/setbased/mpfr_bin_ieee754_flavor_bool_func_impl.hpp", "p1788/flavor/infsup/setbased/mpfr_bin_ieee754_flavor_rec_bool_func_impl.hpp"]}
{"id": "C19", "title": "The overlapping state is total, exclusive and correct", "statement": "overlap(x,y) returns, for valid operands, exactly the one of the sixteen states whose point-set definition holds, and overlap(y,x) is the converse state.", "quantifier": "all pairs of valid intervals, all (pairs of) formats", "why_tests_cant": "Decision tree over all end-point orders; uniqueness is universal.", "anchors": ["p1788/flavor/infsup/setbased/mpfr_bin_ieee754_flavor_rec_overlap_impl.hpp: overlap", "p1788/overlapping/overlapping.hpp"]}
{"id": "C20", "title": "Intersection and convex hull are exact", "statement": "intersection(x,y) contains exactly the reals in both operands and convex_hull(x,y) is the smallest interval containing both; both are commutative, associative and idempotent as sets.", "quantifier": "all pairs of valid intervals, all formats", "why_tests_cant": "Set equality over reals.", "anchors": ["p1788/flavor/infsup/setbased/mpfr_bin_ieee754_flavor_set_op_impl.hpp: intersection, convex_hull"]}
{"id": "C21", "title": "Numeric functions return correctly rounded characteristics of the set", "statement": "inf and sup return the exact bounds (-0 / +0 for zero, +oo / -oo for empty); mid returns a finite member of every non-empty interval which is the nearest number to the exact midpoint if bounded; wid and rad are rounded up; mag and mig are max and min of |r| over the set; all give the documented value for empty.", "quantifier": "all valid intervals, all formats", "why_tests_cant": "Overflow of the sum of bounds and subnormal halving occur only at special bit patterns.", "anchors": ["p1788/flavor/infsup/setbased/mpfr_bin_ieee754_flavor_num_func_impl.hpp: inf, sup, mid, rad, wid, mag, mig"]}
{"id": "C22", "title": "Midpoint-radius form encloses the interval", "statement": "For every non-empty x, with (m,r)=mid_rad(x), every member of x lies in [m-r,m+r] and m is finite; rad(x)=r and mid(x)=m.", "quantifier": "all valid non-empty intervals, all formats, all mixed result types", "why_tests_cant": "Universal over members and bounds.", "anchors": ["p1788/flavor/infsup/setbased/mpfr_bin_ieee754_flavor_num_func_impl.hpp: mid_rad, rad, mid"]}
{"id": "C23", "title": "Cancellative subtraction and addition recover the narrowest cancelling interval", "statement": "For bounded x,y with width(x)>=width(y) in exact arithmetic cancel_minus(x,y) is the smallest interval containing the unique z with y+z=x; it is entire when width(x)<width(y) or an operand is unbounded; empty rules as documented. cancel_plus(x,y)=cancel_minus(x,-y). Also for mixed bound types.", "quantifier": "all pairs of valid intervals, all formats and combinations of formats", "why_tests_cant": "The exact width comparison uses an error-free transformation whose corner cases (overflow, subnormals) are rare.", "anchors": ["p1788/flavor/infsup/setbased/mpfr_bin_ieee754_flavor_cancel_func_impl.hpp: cancel_minus, cancel_plus", "p1788/util/mpfr_util.hpp: two_sum"]}
{"id": "C24", "title": "Extended division returns both branches", "statement": "mul_rev_to_pair(b,c) returns two (possibly empty) intervals whose union contains every t with s*t in c for some s in b, each the tightest for its branch, in ascending order; mul_rev(b,c,x) is the tightest interval containing those t that lie in x.", "quantifier": "all valid operands, all formats", "why_tests_cant": "Universal over real solutions t and witnesses s.", "anchors": ["p1788/flavor/infsup/setbased/mpfr_bin_ieee754_flavor_mul_rev_to_pair_func_impl.hpp: mul_rev_to_pair", "p1788/flavor/infsup/setbased/mpfr_bin_ieee754_flavor_rev_func_impl.hpp: mul_rev"]}
{"id": "C25", "title": "Reverse square, absolute value, power and cosh enclose all preimages", "statement": "sqr_rev(c,x), abs_rev(c,x), pown_rev(c,x,p), cosh_rev(c,x) contain every t in x whose image lies in c.", "quantifier": "all valid operands, all int exponents, all formats", "why_tests_cant": "Universal over real preimages.", "anchors": ["p1788/flavor/infsup/setbased/mpfr_bin_ieee754_flavor_rev_func_impl.hpp: sqr_rev, abs_rev, pown_rev, pown_rev_inf, pown_rev_sup, cosh_rev"]}
{"id": "C26", "title": "Reverse sine and tangent enclose all preimages", "statement": "sin_rev(c,x) and tan_rev(c,x) contain every t in x with sin t (tan t) in c.", "quantifier": "all valid operands, all formats", "why_tests_cant": "Periodic solution sets; which branch of the inverse is met first depends on the position of the bounds.", "anchors": ["p1788/flavor/infsup/setbased/mpfr_bin_ieee754_flavor_rev_func_impl.hpp: sin_rev, tan_rev"]}
{"id": "C27", "title": "Reverse cosine encloses all preimages", "statement": "cos_rev(c,x) contains every t in x with cos t in c.", "quantifier": "all valid operands, all formats", "why_tests_cant": "Periodic solution sets and argument reduction of unbounded size.", "anchors": ["p1788/flavor/infsup/setbased/mpfr_bin_ieee754_flavor_rev_func_impl.hpp: cos_rev"]}
{"id": "C28", "title": "Mixed-precision operations are as tight as if computed directly in the result type", "statement": "For operands with different bound types and an arbitrary result type, add, sub, mul, div, fma and the other forward operations return the smallest interval of the result type containing the exact range (no extra width or lost containment from the intermediate type).", "quantifier": "all combinations of the bound formats of operands and result, all valid operands", "why_tests_cant": "Double rounding only shows up for particular values.", "anchors": ["p1788/flavor/infsup/setbased/mpfr_bin_ieee754_flavor_elem_func_impl.hpp: mixed type versions", "p1788/flavor/infsup/setbased/mpfr_bin_ieee754_flavor_util_func_impl.hpp: convert_hull, convert_rndd, convert_rndu", "p1788/util/mixed_type_traits.hpp"]}
{"id": "C29", "title": "Conversion between bound types is the tightest hull and keeps decorations honest", "statement": "convert_hull / convert_type returns the smallest interval of the new type containing the old one; the decoration is unchanged except that com becomes dac when a bound overflowed to infinity.", "quantifier": "all valid intervals, all pairs of formats", "why_tests_cant": "Directed rounding into subnormals / overflow for all inputs.", "anchors": ["p1788/flavor/infsup/setbased/mpfr_bin_ieee754_flavor_util_func_impl.hpp: convert_hull, convert_rndd, convert_rndn, convert_rndu", "p1788/flavor/infsup/setbased/mpfr_bin_ieee754_flavor_class_impl.hpp: convert_type"]}
{"id": "C30", "title": "Exception flags are sticky and an exception is thrown exactly when enabled", "statement": "Signalling an exception sets its flag and no other; flags stay set until cleared; clear() clears all; the C++ exception is thrown iff the corresponding bit is set in the throw mask at that moment; the mask is changed only by its setter.", "quantifier": "every history of signal, clear, set-mask and query calls", "why_tests_cant": "Property of all histories.", "anchors": ["p1788/exception/exception.hpp"]}
{"id": "C31", "title": "Exception state is private to a thread", "statement": "The exception flags observed by one thread are not influenced by operations performed in another thread (documented as thread local).", "quantifier": "every interleaving of two threads", "why_tests_cant": "Needs particular schedules.", "anchors": ["p1788/exception/exception.hpp: state, throw_exception_cwd"]}
{"id": "C32", "title": "Invalid operands are reported and yield empty or NaI", "statement": "Every operation given a representation that is not valid raises invalid_operand (or throws when enabled) and returns empty (bare), NaI (decorated), false (relations) or NaN (numeric functions).", "quantifier": "all invalid representations in any operand position, all operations", "why_tests_cant": "All bit patterns and operand positions.", "anchors": ["p1788/flavor/infsup/setbased/mpfr_bin_ieee754_flavor_validation_func_impl.hpp", "p1788/flavor/infsup/setbased/mpfr_bin_ieee754_flavor_cancel_func_impl.hpp", "p1788/flavor/infsup/setbased/mpfr_bin_ieee754_flavor_elem_func_impl.hpp"]}
{"id": "C33", "title": "Operations are inclusion isotonic", "statement": "Enlarging operands never loses points of the result: x within x' and y within y' implies op(x,y) within op(x',y') for the forward operations.", "quantifier": "all nested pairs of valid operands, all formats", "why_tests_cant": "Relates two runs on arbitrary inputs.", "anchors": ["p1788/flavor/infsup/setbased/mpfr_bin_ieee754_flavor_elem_func_impl.hpp"]}
{"id": "C34", "title": "Reductions are correctly rounded", "statement": "sum, sum_abs, sum_square, dot return the correctly rounded value of the exact real result in the requested rounding direction whatever the intermediate magnitude, and NaN / infinities as specified.", "quantifier": "all vectors of all lengths, all rounding directions", "why_tests_cant": "Arbitrary length and cancellation; intermediate overflow.", "anchors": ["p1788/reduction/reduction.hpp: sum, sum_abs, sum_sqr, dot, reduction_op"]}
{"id": "C35", "title": "Reading an interval literal yields the tightest enclosure of the denoted set", "statement": "Every well-formed interval literal (inf-sup with decimal, hexadecimal or rational numbers, point, special, uncertain form, optional decoration) is accepted and the result is the smallest interval of the type containing the denoted set; any other text sets failbit, leaves the target unchanged and is reported as undefined_operation by the string constructors.", "quantifier": "all character strings", "why_tests_cant": "Infinitely many strings.", "anchors": ["p1788/flavor/infsup/setbased/mpfr_bin_ieee754_flavor_io_impl.hpp: operator_text_to_interval", "p1788/flavor/infsup/setbased/mpfr_bin_ieee754_flavor_class_impl.hpp: text_to_interval, text_to_decorated_interval"]}
{"id": "C36", "title": "Printing a number never writes outside its buffer", "statement": "Formatting a bound writes at most as many characters as were allocated, for every value, width, precision and representation flag.", "quantifier": "all values, widths, precisions, flags", "why_tests_cant": "Overflow depends on the length of the decimal expansion.", "anchors": ["p1788/util/mpfr_var_impl.hpp: get_str"]}
{"id": "C37", "title": "Decorations are ordered and round-trip through text", "statement": "The five decorations are linearly ordered ill<trv<def<dac<com and the propagation order is the minimum; writing a decoration and reading it back (numeric or alphabetic, any case) gives the same decoration; failed reading sets failbit and leaves the documented value.", "quantifier": "all decorations, all output manipulator states, all input texts", "why_tests_cant": "All input texts.", "anchors": ["p1788/decoration/decoration.hpp"]}
{"id": "C38", "title": "Decorating and undecorating is consistent", "statement": "new_dec gives com to bounded, dac to unbounded non-empty and trv to empty intervals; set_dec returns the same set with the requested decoration, demoting com on unbounded and any non-ill decoration on empty, and NaI for ill; interval_part undoes both and reports interval_part_of_nai for NaI; results are always valid decorated intervals.", "quantifier": "all valid intervals, all decorations", "why_tests_cant": "All inputs.", "anchors": ["p1788/flavor/infsup/setbased/mpfr_bin_ieee754_flavor_class_impl.hpp: new_dec, set_dec, interval_part, decoration_part"]}
{"id": "C39", "title": "Each bound is rounded once, independent of previous calls", "statement": "The MPFR pipeline (compute with the significand width of the type, apply exponent range, subnormalize, convert) equals one IEEE 754 rounding of the exact result in the requested direction, for any global MPFR exponent range left by earlier calls.", "quantifier": "all real results, all rounding directions, all previous histories of format switches", "why_tests_cant": "Double rounding in the subnormal range needs special values; history dependence needs all histories.", "anchors": ["p1788/util/mpfr_var_impl.hpp: setup, subnormalize, get, set", "p1788/util/mpfr_var.hpp"]}
{"id": "C40", "title": "The error-free sum is exact", "statement": "two_sum(a,b) returns s=a+b rounded to nearest and e with s+e=a+b exactly, whenever the rounded sum is finite.", "quantifier": "all pairs of finite numbers, all formats, subnormals included", "why_tests_cant": "All bit patterns.", "anchors": ["p1788/util/mpfr_util.hpp: two_sum"]}
{"id": "C41", "title": "What is written can be read back", "statement": "The text operator<< writes for a valid interval, bare or decorated, is accepted by operator>> and by the string constructors and yields an interval containing the original with the same decoration; hexadecimal output without a precision yields the same interval.", "quantifier": "all valid intervals of all formats, all manipulator and stream states, any text following", "why_tests_cant": "The product of values, number forms, precisions, widths, fill characters and special forms is unbounded, and outward rounding of both directions has to compose.", "anchors": ["p1788/flavor/infsup/setbased/mpfr_bin_ieee754_flavor_io_impl.hpp: operator_text_output, operator_text_input", "p1788/util/mpfr_var_impl.hpp: get_str", "p1788/flavor/infsup/setbased/mpfr_bin_ieee754_flavor_class_impl.hpp: constructors from strings"]}
{"id": "C42", "title": "The uncertain form encloses the interval", "statement": "With the uncertain-form manipulators the text operator<< writes for a non-empty valid interval is an uncertain literal m?n, m?nu or m?nd (or m??, m??u, m??d) whose set contains the interval; in decimal form the number of units is the least possible; reading the text back gives an interval containing the original.", "quantifier": "all valid non-empty intervals of all formats, the three forms, decimal and scientific, all precisions and stream states", "why_tests_cant": "Enclosure depends on outward rounding of both bounds, alignment of decimal exponents and integer arithmetic on digit strings of unbounded length.", "anchors": ["p1788/flavor/infsup/setbased/mpfr_bin_ieee754_flavor_io_impl.hpp:52-331: operator_interval_to_text, uncertain forms", "p1788/flavor/infsup/setbased/mpfr_bin_ieee754_flavor_io_impl.hpp:407-485: decorated output"]}
{"id": "C43", "title": "Programs cannot build invalid intervals", "statement": "Whatever sequence of public functions a program calls (constructors from numbers, text, streams and decorations, constants, all bare and decorated operations in all type combinations, conversions, interval part), with whatever arguments, every interval it gets is valid: the canonical empty one or lower bound not above upper bound, no lower bound +oo, no upper bound -oo; every decorated interval has one of the five decorations, ill only with the empty set, com only on bounded intervals.", "quantifier": "all finite sequences of calls, all arguments, all states of the exception flags and throw mask, all formats", "why_tests_cant": "An invariant over unbounded programs: every function has to preserve it for all valid inputs, which needs each one's proof that the two directed roundings stay ordered.", "anchors": ["p1788/infsup/interval.hpp:88-255: constructors and constants", "p1788/infsup/decorated_interval.hpp:90-350: constructors and constants", "p1788/flavor/infsup/setbased/mpfr_bin_ieee754_flavor_class_impl.hpp:103-514", "p1788/flavor/infsup/setbased/mpfr_bin_ieee754_flavor_cancel_func_impl.hpp:84-149: cancel_minus"]}
{"id": "C44", "title": "The root finding examples find all zeros", "statement": "ia_bisect and ia_newton, given interval extensions of a function (and of its derivative), stop for every positive tolerance without an exception; the intervals they write lie in the start interval, are non-empty, cover every zero of the function in it, and are small: the function is below eps on each (bisection, in ascending order) or the interval is narrower than eps (Newton). The two example programs report the two zeros of x^2 - 2.", "quantifier": "all functions with interval extensions, all non-empty start intervals including unbounded ones, all tolerances, all recursion depths", "why_tests_cant": "No zero may be lost at any depth of an unbounded recursion; whether it ends depends on the spacing of the floating-point numbers.", "anchors": ["examples/e15_bisection.cpp:49-71: ia_bisect", "examples/e16_newton.cpp:50-96: ia_newton", "examples/e15_bisection.cpp:81-93: main", "examples/e16_newton.cpp:113-125: main"]}
{"id": "C45", "title": "Output manipulators do what is documented", "statement": "Each output manipulator sets its own group and no other: after any sequence of manipulators every group has the setting of its last one, a new stream has the documented defaults, in every translation unit. Writing an interval or decorated interval leaves all settings as they are. The text has at least string_width characters, made so by adding blanks only, and room for two numbers of the given width; special intervals take the same room. Overlapping states are written by name, in lower or upper case (reference: first character in upper case), or as numbers, and different states give different texts.", "quantifier": "all sequences of manipulators, all stream states and field widths, all values of the unsigned arguments, all intervals of all formats", "why_tests_cant": "Independence of eleven settings over all sequences, restoration on every path (also when the output throws) and behaviour at the limits of int need a proof over all stream states.", "anchors": ["p1788/io/io_manip.hpp:38-520", "p1788/overlapping/overlapping.hpp:43-231", "p1788/flavor/infsup/setbased/mpfr_bin_ieee754_flavor_io_impl.hpp:325-331, 393-403: padding", "p1788/flavor/infsup/setbased/mpfr_bin_ieee754_flavor_io_impl.hpp:407-485: decorated output, string_width_helper"]}
{"id": "C46", "title": "Memory taken is given back exactly once", "statement": "Every call of an operation, of get_str and of a reduction releases every block it requested (mpfr digits, arrays, objects made with new) exactly once and uses none of it afterwards, whether it returns or is left by std::bad_alloc.", "quantifier": "for every number of elements, every heap before the call and every choice of requests for memory that succeed", "why_tests_cant": "Leaks and double releases do not change results; failing allocations at every possible point and every length cannot be enumerated.", "anchors": ["p1788/reduction/reduction.hpp:92", "p1788/reduction/reduction.hpp:140", "p1788/reduction/reduction.hpp:183", "p1788/util/mpfr_var_impl.hpp:136", "p1788/util/mpfr_var_impl.hpp:178", "p1788/util/mpfr_var_impl.hpp:229"]}
{"id": "C47", "title": "Expressions are enclosed and decorated truthfully", "statement": "Evaluating any expression built from the forward functions, of one bound type or mixed, returns without a signal a valid interval that contains the value of the expression at every point of the box at which it is defined; the decorated evaluation has the same interval, and its decoration is true of the whole expression over the box: com: bounded and continuous, dac: defined and continuous on the box, def: defined. The result is NaI if and only if a variable is, and larger variables give a larger result.", "quantifier": "for every expression tree over all functions, every assignment of intervals of any bound types to its variables and every point of the box", "why_tests_cant": "There are infinitely many expressions and points; continuity and definedness on a box cannot be observed by sampling.", "anchors": ["p1788/infsup/base_interval_elem_func_impl.hpp:38", "p1788/infsup/base_interval_elem_func_impl.hpp:769", "p1788/flavor/infsup/setbased/mpfr_bin_ieee754_flavor_elem_func_impl.hpp:1", "examples/e08_elem_func.cpp:1"]}
{"id": "C48", "title": "Reverse operations are contractors", "statement": "A reverse operation with a box x returns a part of x; applied again with the same constraint it changes nothing; a weaker constraint or a larger box gives a larger result; and if the constraint is the image of x under the forward operation, x is returned unchanged.", "quantifier": "for all valid constraints and boxes of every bound type and all exponents", "why_tests_cant": "The laws relate several runs for all operands; violations appear only for particular branch numbers, rounding errors of inverse images, and limits at zero or infinity.", "anchors": ["p1788/flavor/infsup/setbased/mpfr_bin_ieee754_flavor_rev_func_impl.hpp:665", "p1788/flavor/infsup/setbased/mpfr_bin_ieee754_flavor_rev_func_impl.hpp:917", "p1788/flavor/infsup/setbased/mpfr_bin_ieee754_flavor_rev_func_impl.hpp:1159", "p1788/infsup/base_interval_rev_func_impl.hpp:1"]}
{"id": "C49", "title": "Operations that compute the same function agree", "statement": "Operations obey the laws of the real functions they enclose: addition, multiplication, minimum and maximum are commutative; negation commutes with sums, products, quotients, minimum/maximum and odd functions and is absorbed by even ones; sqr and pown 2, recip, pown -1 and 1/x, fma with 0 or 1, pow with base 2 or 10 and exponent 1/2 agree with the functions for it; one operation is at least as narrow as two (sqr, fma, div, pown); undoing an operation loses no point; 1 lies in sin^2 + cos^2.", "quantifier": "for all valid intervals of every bound type", "why_tests_cant": "The operations are implemented separately with separate case analyses and rounding; agreement for all operands, including empty, unbounded and zero-crossing ones, cannot be enumerated.", "anchors": ["p1788/flavor/infsup/setbased/mpfr_bin_ieee754_flavor_elem_func_impl.hpp:1", "p1788/infsup/base_interval_elem_func_impl.hpp:38"]}
{"id": "C50", "title": "Programs keep their interval objects valid", "statement": "In any program over interval and decorated_interval objects (declarations, assignments to objects that occur in the assigned expression, loops, caught exceptions, input from streams) every object is valid at every moment; an exception leaves the target as it was; objects that are not targets do not change; copies of temporaries, which the compiler may make or leave out, have no effect; copying and assigning an object give the same value; after an extraction the stream state tells whether the object was written.", "quantifier": "for all programs, all types of objects, all initial states, flags and masks, all numbers of copies", "why_tests_cant": "Programs, interleavings of exceptions and the compiler's choice of copies are unbounded; copy constructors validate and copy assignment does not, so differences show only with the rare operations that make invalid values.", "anchors": ["p1788/infsup/interval.hpp:158", "p1788/infsup/decorated_interval.hpp:201", "p1788/infsup/base_interval.hpp:85", "p1788/infsup/base_interval_io_impl.hpp:45"]}
{"id": "C51", "title": "Programs of assignments enclose", "statement": "A program that assigns expressions of the elementary functions to interval objects, reusing objects, with conditionals and loops decided by the intervals, computes enclosures: exact real arithmetic along the same path, from any point of the initial intervals, ends inside the final intervals if no function is applied outside its domain; the final objects equal the values of one substituted expression each; with decorated intervals the decorations are true of the function computed by the whole path; assignments never throw and change no flag.", "quantifier": "for all programs, all object types, all paths, all initial valid intervals, all real points in them", "why_tests_cant": "Paths, programs and real points are unbounded; a wrong enclosure or a too strong decoration in one operation may appear only in composition.", "anchors": ["p1788/infsup/base_interval_elem_func_impl.hpp:38", "p1788/infsup/base_interval.hpp:85", "p1788/flavor/infsup/setbased/mpfr_bin_ieee754_flavor_elem_func_impl.hpp:1"]}
{"id": "C52", "title": "Functions on valid operands return", "statement": "Every public function that returns an interval, applied to valid operands (including the empty set, unbounded intervals and NaI), returns normally with a valid result: it throws no exception, sets no exception flag and has no undefined behaviour, in every state of the flags; so do expressions of such functions and programs that assign them to objects.", "quantifier": "for all functions, all bound types, all valid operands, all exception states, all expressions and programs", "why_tests_cant": "Undefined behaviour shows only at rare operands (branch numbers at the end of long, INT_MIN) and may go unnoticed; exceptions depend on flags, operands and intermediate results.", "anchors": ["p1788/flavor/infsup/setbased/mpfr_bin_ieee754_flavor_rev_func_impl.hpp:706", "p1788/flavor/infsup/setbased/mpfr_bin_ieee754_flavor_cancel_func_impl.hpp:33", "p1788/infsup/base_interval_elem_func_impl.hpp:38"]}
{"id": "C53", "title": "Relations, set operations, numeric functions and overlapping states agree", "statement": "The answers that different functions give about the same intervals fit together: subset and less are orders with equality as their symmetric part, precedes, interior, strictly_less and disjoint obey their laws (operands of up to three bound types, empty and unbounded ones included); disjoint means an empty intersection, subset means that the intersection is the first and the hull the second operand, intersection and hull are greatest lower and least upper bounds; equal, subset, less, strictly_precedes and disjoint are unions of overlapping states; inf, sup, wid, mag and mig respect inclusion, agree with neg, abs and sub, mid is a member, wid is zero exactly for points, and the relations are the comparisons of inf and sup.", "quantifier": "for all intervals (bare, decorated for the states) of all comparable bound types", "why_tests_cant": "The functions are implemented independently with case distinctions on infinite bounds, the empty set and mixed types; agreement concerns all pairs and triples of operands at once.", "anchors": ["p1788/flavor/infsup/setbased/mpfr_bin_ieee754_flavor_bool_func_impl.hpp:169", "p1788/flavor/infsup/setbased/mpfr_bin_ieee754_flavor_rec_overlap_impl.hpp:53", "p1788/flavor/infsup/setbased/mpfr_bin_ieee754_flavor_set_op_impl.hpp:45", "p1788/flavor/infsup/setbased/mpfr_bin_ieee754_flavor_num_func_impl.hpp:44"]}
{"id": "C54", "title": "Decorations are the strongest possible and refining operands never weakens them", "statement": "The decoration that a forward function returns is not only true but the greatest true one not above the decorations of the operands: if the function is defined and continuous on the whole nonempty box, or bounded there as well, the result says so. Hence smaller operands with better decorations give smaller results with better decorations, for single functions and whole expressions, in one type and in mixed types; evaluating an expression over a smaller nonempty box decorated by new_dec never promises less.", "quantifier": "for all decorated operands that are valid and not NaI, all forward functions, all expressions, all bound types and result types (tangent: binary32, binary64, binary80)", "why_tests_cant": "Which decoration is the strongest depends on domain, continuity at every point of the operand and on boundedness of the rounded result; tests compare a few decorations and cannot show that no stronger one is true, nor that refinement never loses one.", "anchors": ["p1788/flavor/infsup/setbased/mpfr_bin_ieee754_flavor_elem_func_impl.hpp:60", "p1788/flavor/infsup/setbased/mpfr_bin_ieee754_flavor_class_impl.hpp:415"]}
{"id": "C55", "title": "Floating-point evaluation of an expression stays inside its interval evaluation, guarded by the decoration", "statement": "If the variables of an expression are numbers out of the intervals, every number that floating-point arithmetic computes for the expression, each operation rounded to its result type in an arbitrary faithful way, lies in the interval the library computes; decoration def or better means that no operation is applied outside of its domain whatever the roundings, com that nothing overflows, so that a result exists; the distance from the exact value is at most wid of the interval. The same holds for programs of assignments along the path of the interval program. The IEEE 754 operations are faithful in every rounding mode.", "quantifier": "for all expressions and programs of assignments over all forward functions (one type and mixed types), all valid intervals, all numbers in them, all roundings", "why_tests_cant": "The roundings may differ at each operation and function libraries are not correctly rounded; there are exponentially many computed values for each expression, and infinitely many expressions.", "anchors": ["p1788/flavor/infsup/setbased/mpfr_bin_ieee754_flavor_elem_func_impl.hpp:60", "p1788/flavor/infsup/setbased/mpfr_bin_ieee754_flavor_num_func_impl.hpp:44"]}
{"id": "C56", "title": "Results at single numbers are as sharp as the type permits", "statement": "If the operands of a forward function are single numbers at which it is defined, the numbers contained in the result are exactly the faithful roundings of the exact value: the result is a single number exactly if the value is a number of the type, otherwise its bounds are one unit in the last place apart (unless it is unbounded). An expression all of whose intermediate values are numbers of their types evaluates to exactly its value.", "quantifier": "for all forward functions, bare and decorated, all bound types and result types (tangent: binary32, binary64, binary80), all numbers, all expressions", "why_tests_cant": "Sharpness at a number is a statement about all numbers of the type around the exact real value, for all of the 2^64 operands of each function and all pairs of bound types.", "anchors": ["p1788/flavor/infsup/setbased/mpfr_bin_ieee754_flavor_elem_func_impl.hpp:60"]}
{"id": "C57", "title": "A result depends on the sets given and on the result type, not on the overload", "statement": "If a forward function, a relation, a set operation, a numeric function or a reverse function is called with operands that are the same sets of real numbers (with the same decorations), whatever the types in which they are stored, the signs of zero bounds, and the version chosen (one type or mixed types), then the results in the same result type are the same set with the same decoration (for numeric functions the same number) and nothing is raised. Hence an expression gives the same result when the types of its inputs and the versions of its functions are changed but the result types of its functions are kept.", "quantifier": "for all forward functions (bare and decorated), the eight relations, intersection and convex hull, the numeric functions, the reverse functions of multiplication, square, absolute value, power and hyperbolic cosine, all operand and result types, all valid operands, all expressions", "why_tests_cant": "It compares pairs of overloads at all representations of all sets; tests compare each overload with literals at a few points.", "anchors": ["p1788/flavor/infsup/setbased/mpfr_bin_ieee754_flavor_elem_func_impl.hpp:180", "p1788/flavor/infsup/setbased/mpfr_bin_ieee754_flavor_util_func_impl.hpp:90"]}
{"id": "C58", "title": "Cutting an operand into parts loses nothing", "statement": "If an operand (or a box of operands) is the union of two intervals (boxes), the result of a forward function, of a reverse function (multiplication, square, absolute value, hyperbolic cosine) and of the intersection is the tightest interval around the two results for the parts; if the operand's decoration is the worse one of its parts' decorations, so is the result's. For an expression, results over boxes that cover a box lie in the result over the box, and together they contain every value of the expression over the box.", "quantifier": "for all forward functions, those reverse functions and the intersection (bare and decorated, one type and mixed types), all operand and result types, all valid operands and all ways of cutting them, all expressions and all finite coverings", "why_tests_cant": "It relates results at three operands for every way of cutting any operand; unit tests check single results against literals.", "anchors": ["p1788/flavor/infsup/setbased/mpfr_bin_ieee754_flavor_elem_func_impl.hpp:180", "p1788/flavor/infsup/setbased/mpfr_bin_ieee754_flavor_elem_func_impl.hpp:60"]}
{"id": "C59", "title": "Signs and the order of operands do not matter where the functions are symmetric", "statement": "If two functions differ by the signs of their arguments and of the result and by the order of their arguments only (odd and even functions, commutative ones, subtraction and addition of the negated operand, minimum and maximum, floor and ceil, powers of either parity, fma, reverse functions of even functions and of the product), the operations for them agree in the same way: negating or exchanging operands before, or negating the result after, gives the same numbers and the same decoration; NaI gives NaI on both sides. Negating both operands turns relations, overlapping states, intersection, convex hull, midpoint, radius, width, magnitude and mignitude around as it does for sets.", "quantifier": "for all valid intervals and all proper decorated intervals, of one type and of mixed types, and all pairs of functions that are alike", "why_tests_cant": "The branches for negative, positive and zero-crossing operands are written separately with separate rounding directions and separate decoration rules; a slip in one of them breaks the symmetry for some operands only.", "anchors": ["p1788/flavor/infsup/setbased/mpfr_bin_ieee754_flavor_elem_func_impl.hpp:38", "p1788/flavor/infsup/setbased/mpfr_bin_ieee754_flavor_elem_func_impl.hpp:155", "p1788/flavor/infsup/setbased/mpfr_bin_ieee754_flavor_rev_func_impl.hpp:1"]}
{"id": "C60", "title": "Rounding outward in two steps is rounding in one step", "statement": "Computing a result in a wider type and converting it to a narrower type gives the same numbers and the same decoration as calling the operation for the narrower type directly: there is no double rounding, and an overflow that appears only in the narrower type weakens com to dac on both ways. The result in the wider type lies in the result in the narrower type, and its decoration is at least as strong.", "quantifier": "for all valid intervals and proper decorated intervals, all functions of one, two and three operands, the reverse functions of square, absolute value, hyperbolic cosine and product, intersection, convex hull and conversion, and all pairs of result types one of which contains the other", "why_tests_cant": "The tests call each mixed-type version for a few operands; whether an intermediate type loses a bit depends on rare bit patterns and on overflows and subnormal numbers of the narrower type only.", "anchors": ["p1788/flavor/infsup/setbased/mpfr_bin_ieee754_flavor_elem_func_impl.hpp: mixed type versions", "p1788/flavor/infsup/setbased/mpfr_bin_ieee754_flavor_util_func_impl.hpp: convert_hull, convert_rndd, convert_rndu", "p1788/util/mixed_type_traits.hpp", "p1788/flavor/infsup/setbased/mpfr_bin_ieee754_flavor_util_func_impl.hpp: convert_hull, convert_rndd, convert_rndn, convert_rndu", "p1788/flavor/infsup/setbased/mpfr_bin_ieee754_flavor_class_impl.hpp: convert_type"]}
{"id": "C61", "title": "Reductions depend neither on the order of the elements nor on earlier calls", "statement": "sum, sum_abs, sum_sqr and dot return the same bits for every order of the elements (of the pairs, for dot) and for every exponent range left behind by earlier MPFR calls. dot does not depend on the order of its two sequences, dot of a sequence with itself is sum_sqr, sum_abs is sum of the absolute values, zeros may be left out, and opposite elements with the opposite direction of rounding give the opposite number up to the sign of zero.", "quantifier": "for all element types, all finite lists of all lengths including those with infinities and NaNs, all permutations, all directions of rounding and all prior MPFR exponent ranges", "why_tests_cant": "There are n! orders of n elements, and the tests try one of them from one prior state; a partial sum that rounds or overflows shows only for particular orders of particular values.", "anchors": ["p1788/reduction/reduction.hpp: sum, sum_abs, sum_sqr, dot, reduction_op"]}
{"id": "C62", "title": "Directed reductions of the bounds give the tightest sum of intervals", "statement": "For a list of intervals, the reduction of the lower bounds rounding downward and of the upper bounds rounding upward are the bounds of the tightest interval around all sums of one member of each, also with empty and unbounded intervals; it is contained in the result of adding the intervals one after the other. Every direction of rounding of sum, sum_abs, sum_sqr and dot gives a number between the results downward and upward, or all are NaN. A sum that is a number of the format is returned exactly in every direction, and only then do the two directions agree on a finite number.", "quantifier": "for all element types, all lists of valid intervals of all lengths, all lists of numbers including infinities and NaNs, all directions of rounding and all prior MPFR exponent ranges", "why_tests_cant": "Tightness quantifies over all real members and all machine intervals, and the lists are of any length; tests sample short lists and compare single numbers.", "anchors": ["p1788/reduction/reduction.hpp: sum, sum_abs, sum_sqr, dot, reduction_op", "p1788/flavor/infsup/setbased/mpfr_bin_ieee754_flavor_elem_func_impl.hpp: add"]}
{"id": "C63", "title": "Reductions are monotone", "statement": "If every element is replaced by one that is not less, the sum is not less, unless one of the two sums is undefined; sum_abs and sum_sqr are monotone in the absolute values and never undefined for numbers; dot is monotone for non-negative sequences. The sum does not exceed the sum of the absolute values, and to nearest and toward zero neither does its absolute value.", "quantifier": "for all element types, all lists of all lengths including infinities, all directions of rounding and all prior MPFR exponent ranges", "why_tests_cant": "Monotonicity relates all pairs of lists; a violation by one rounding or overflow appears only for particular pairs that tests of single results do not compare.", "anchors": ["p1788/reduction/reduction.hpp: sum, sum_abs, sum_sqr, dot, reduction_op"]}
