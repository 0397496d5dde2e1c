# Formal model of e_float-2021 in Coq 8.16.1

Contents: 1 what is modelled, 2 how to read the development, 3 plan and
result per property, 4 behaviour of the code that contradicts the properties,
5 trusted base, 6 what is not modelled, 7 testing the theorems.

## 1. What is modelled

The native decimal back end (`libs/e_float/src/e_float/efx`), its base class
(`e_float_base.cpp`: text output, mixed integer arithmetic), the free
operators (`e_float.h/.cpp`), `std::numeric_limits<e_float>`, the complex
number template, the array class that holds the digits, and parts of
`functions/` and `utility/`.

| File | Models |
|---|---|
| `Model.v` | class `e_float` of efx: state, comparison, `+= -= *=` (schoolbook and FFT), integer operands, conversions, integer and decimal part, order, mixed operators |
| `ModelDiv.v` | construction from (mantissa, exponent) in double arithmetic, reciprocal, `/=`, division by integers, square root, floor, ceil, sgn, frexp |
| `ModelStr.v` | reading and writing text, formatting flags |
| `ModelPow.v` | powers, `pow2`, `ldexp`, `fmod`, `pown_template` |
| `ModelObj.v` | memory of `util::dynamic_array`; objects with copies, moves, swaps, assignments |
| `ModelLimits.v` | `numeric_limits<e_float>` |
| `ModelGen.v` | templates over a number type: complex numbers, pochhammer, derivative, bisection, Newton, trapezoid, interpolation, expansions, hypergeometric series |
| `ModelPrime.v` | prime sieve and factorisation |
| `ModelElem.v` | elementary functions: trigonometric, inverse, exp, log, hyperbolic, powers, roots |
| `ModelConst.v` | the constants given as literals |
| `ModelTables.v`, `TabFact.v`, `TabFact2.v`, `TabBin.v` | tables of n!, n!!, binomials |
| `ModelFact.v` | factorial, factorial2, binomial |
| `ModelBern.v`, `TabBern.v` | bernoulli (tables; the zeta series for larger n is a parameter), bernoulli_table, tables A000367 and A002445 |
| `ModelCplx.v` | the elementary functions of complex<T> and complex<e_float>, over abstract components; atan2 without special values |
| `ModelAtanh.v` | log1p1m2, atanh |
| `ModelJPow.v` | j_pow_x with its tables |
| `ModelGamma.v` | gamma, gamma_near_n, gamma_plus_minus, pochhammer |
| `ModelZeta.v` | riemann_zeta for integers and reals (the accelerated series is a parameter) |
| `ModelGenFun.v` | generic_functions: pown, sqrt, rootn for any type, rootn of built-in types, euler_gamma |

`Spec*.v` hold the specifications, `P_*.v` the property theorems, everything
else is proofs.

A number is a record `ef` of its five data members: `data` (list of base 10^8
limbs, `N = elem_number` of them, empty for a moved-from object), `exp`, `neg`,
`cls` (finite, infinite, NaN), `prec`.  `digits10` is a parameter of the whole
model (the code clamps it to 30 .. 2^30), never a literal, so the theorems hold
for every precision setting.  Each C++ function is a total computable Gallina
function.

* Machine integers are `Z`.  32- and 64-bit unsigned arithmetic is wrapped
  explicitly; C12 shows that the wrap never happens in the multiplication
  loops.  Exponents (`std::int64_t`) are not wrapped: one operation changes an
  exponent by at most the sum of the operand exponents plus a few times the
  number of digits, results beyond +-2147483616 become infinite or zero in `*=`,
  and the operations without such a check (`+=`, integer multiplication) change
  the exponent by at most 24.  2^63 would need more than 10^17 operations.
  Signed overflow that can happen (negating the minimum, exponent arithmetic
  while reading text) is the outcome `Undefined` or `UB`.
* Undefined behaviour, exceptions and endless loops are distinct outcomes
  (`outcome`, `io`, `option` with explicit fuel), never a convenient value.
* Doubles are Flocq's computable binary64 operations with rounding to nearest
  even.  The code is assumed to be compiled so that `double` expressions are
  evaluated in binary64 (FLT_EVAL_METHOD 0).
* `std::log10`, `std::log`, `::asin`, `::atan`, `::pow` of the platform are
  parameters of the model; a theorem that needs something about them states it
  as a hypothesis with an example that satisfies it.
* Constants read from literals (pi, e, ln 2, ...) are fields of the record `env`
  of ModelElem.v; the literals themselves are in ModelConst.v, and the accuracy
  theorems require the fields to be what is read from them.

## 2. How to read the development

The specification of a number is `Spec.value`: limbs `l0 l1 ...` with exponent
`e` stand for the real number `l0*10^e + l1*10^(e-8) + ...` with the sign.
`Spec.finite d x`: a well-formed finite number; `full d x`: its working
precision is the full one (every constructor sets it).  Rounding, literals,
integer conversions, primes, object histories and so on have their own small
definitions in the `Spec*.v` files, which do not use the functions of the model.

Every theorem listed in MANIFEST.json stands in a `P_*.v` file with a comment
that says how it relates to the English property, followed by
`Print Assumptions` and by an `Example ..._hypotheses_met` that exhibits a
concrete non-trivial case.  Suffix `_partial`: the property is restricted; the
comment says what is missing.  Suffix `_refuted`: the property as stated is
false of the code and the theorem is the counterexample.

## 3. Plan and result per property

* C01, C02 comparison: lexicographic comparison of limbs is the order of the
  values; induction over limb lists.  Special classes by cases.
* C03 negation, absolute value: against the value function.
* C04-C07 `+=`, `-=`: carry and borrow loops by induction (`result + carry*B^n =
  u + v`), alignment by truncation, overflow check via C01.
* C08: symmetry of the column sums and of the aligned addition.
* C09, C10, C12 `*=`: invariant over descending columns, bound on the dropped
  columns.  For the FFT range the convolution is exact (C47) and the guard
  digits give the second bound.
* C11: cases on classes and exponents.
* C13, C14, C37: limb loops by induction; the error bound of the division is
  proved in spite of the stale limb.
* C15-C17: base 10^8 digits of 64-bit integers, Horner evaluation with wrap.
* C18-C20: limb positions against the real floor.
* C21, C22, C36, C40, C52: unfolding and arithmetic.
* C23, C35: a language of programs (construct, copy, move, swap, assign,
  arithmetic, read text, destroy) with an inductive semantics; the invariant is
  proved for all programs by induction, the memory model by refinement to
  independent lists.
* C24-C30 text: literal grammar as an independent record; string functions as
  list functions; digit strings; half-up rounding over Z; the round trip is the
  composition.
* C31-C33: Newton iterations with error recurrences over R from C04 and C09 and
  the binary64 first estimate from C39.
* C34, C46, C48, C50, C56: over arbitrary monoids, rings or fields, then
  instantiated with the error bounds of e_float.
* C38: numeric_limits.  C39: Flocq.  C41: ldexp from C09 and C34.
* C42, C43: sieve invariant; trial division invariant; the double precision
  estimate of the sieve limit by interval arithmetic on Flocq operations.
* C45 Bernoulli numbers: the tables are modelled as data (TabBern.v); the entries
  up to B(200) are checked in the kernel against the recurrence of the tangent
  numbers, which is proved from the defining recurrence of the Bernoulli numbers
  by formal power series (BernReal.v).
* C63 bernoulli_table: error analysis of the same recurrence in floating point;
  all terms are positive, so that the relative errors of the passes only add up.
* C47: the carry release over the exact convolution.  The rounding error of the
  double FFT itself is not modelled.
* C49, C54, C55: over reals, with Coquelicot's derivative and integral as the
  specification.
* C51, C57, C58: structure of the elementary functions, for any estimates.
* C53: fmod from C14, C19 and C32.
* C59: exp.  Range reduction, series, repeated squaring and scaling by a power
  of two are analysed with relative errors (ExpFloat.v, ExpAcc.v, using the
  generic series lemma of SeriesFloat.v); the constants come from C60.
* C60: constants.  The literals are in the model; integer evaluations of
  Machin-like series with proved error bounds (ConstReal.v, ConstLit.v) show that
  they are right.
* C61, C62: sine and cosine.  Reduction by multiples of pi, series of the reduced
  argument and nine applications of the triple-angle formulas, each with an error
  bound (SinReal.v, SinFloat.v, SinStep.v, SinAcc.v); SinTiny.v is about arguments
  whose square underflows.
* C44: the three tables are modelled as data (TabFact.v, TabFact2.v, TabBin.v,
  generated from the source by a script: literal for literal, the digits in
  groups of 20).  Reading an entry is the string or integer constructor already
  modelled.  TabCheck.v checks by computation that consecutive entries satisfy the
  recurrences n! = n (n-1)!, n!! = n (n-2)!! and Pascal's rule; TabProofs.v turns
  this into a statement about the real numbers; FactProofs.v adds the errors of
  reading, products and quotients.
* **C64, C65, C66** (complex functions).  ModelCplx.v gives the functions for any
  component type with parameters for its real functions; they are instantiated
  with the real numbers.  SpecCplx.v defines e^z, Euler's formulas and the principal
  logarithm over Coquelicot's C.  CplxReal.v proves the functional equation and that
  atan2 is the argument; the inverse functions follow by algebra from log and sqrt
  (C46).  The rounding of complex<e_float> is not covered by these three.
* **C67** (variables are independent values).  SpecProg.v gives the statements of the
  programs of C23 a meaning in which a variable is a plain value; ObjValues.v proves
  by induction on the program that the object model, with its limb copies and
  moved-from objects, computes the same values.
* **C68** (arc tangent).  SpecTrig.v states what is assumed of the double precision
  estimate.  AtanAcc.v proves that one Newton step on tan squares the error (sin and
  cos by C61, C62) and that the loop ends with all digits; HyperFloat.v bounds the
  error of the partial sums of 2F1 computed in e_float arithmetic, AtanSer.v applies
  it near zero and near infinity; AtanTop.v puts the cases together; TinyNan.v: the
  endless series where x * x underflows.
* **C69** (atan2).  Atan2Acc.v: the angle of a point is unique and equals the case
  distinction over atan; then C68, the error of the division and of adding pi.
* **C70** (tan, cot, sec, csc).  TanAcc.v: relative errors of sine and cosine from
  C61 and C62, then the quotient rule.
* **C71** (hyperbolic functions).  HypAcc.v: C59 for exp(x), its reciprocal, sum and
  difference.
* **C72** (log1p, log near one).  LogSer.v: the series of ln(1 + x) with remainder (mean
  value theorem) and the error of 2F1 from HyperFloat.v; LogAcc.v: the branch of log
  near one, and the endless series at 0; LogDiv.v: for |x| >= 1 an invariant bounds the
  sum by n (n + 1) times the next term, so the stopping test never fires; LogHalf.v:
  for |x| <= 1/2 an invariant relates the n-th term to (-x)^n / (n + 1) up to n roundings.
* **C73** (atanh).  AtanhAcc.v: the odd series with remainder, an invariant of the loop
  of log1p1m2 and its stopping test; AtanhBad.v: close to one the
  partial sums are bounded by the logarithm of the number of terms.
* **C74** (asin, acos).  AsinAcc.v: the Newton step for sin and an invariant of the loop;
  AsinSer.v: the series of asin x / x from the differential equation of its
  derivative, and the error of 2F1; AsinTop.v puts the cases together.
* **C75** (powers from tables).  ModelJPow.v models the calls with the tables as explicit
  state; JPowProofs.v proves by induction over the history that every entry is what a
  call without tables computes, and that this is j^x from the prime factors of C43.
* **C76** (gamma).  ModelGamma.v gives the template for any number type; GammaReal.v
  instantiates it with real and complex numbers.  GammaProofs.v: the loop down to the
  original argument by induction; GammaTop.v: any function with the recurrence and the
  reflection formula (SpecGamma.v) agrees with the result, given exact series.
* **C77** (zeta).  SpecZeta.v: the series.  EulerProduct.v proves the product of primes by
  sieving the series; ZetaProofs.v follows the loop over the primes.  EulerEven.v proves
  zeta(2k) = (2 pi)^2k |B(2k)| / (2 (2k)!) from the Fourier coefficients of the Bernoulli
  polynomials; ZetaInt.v bounds the rounding in the code for integers.
* **C78** (generic functions).  ModelGenFun.v with the operations as parameters; GenFunProofs.v:
  powers by induction over the bits, the coupled iteration for the square root and the
  iteration for the reciprocal root by invariants on the relative errors.
* **C79** (accuracy of log).  P_LogBad.v: the model of log runs on 10 with the constants read
  from their literals and the double log(10.0) as estimate; the result is compared with ln10(),
  which is within 10^-(digits10+15) of ln 10 by C60.  One computation of the kernel suffices, because the
  claim is false.  Evaluations of the model (not theorems) show the same for 100 digits, where log(10)
  has 86 correct digits.
* **C80** (roots).  CbrtProofs.v: one Newton step for x^(-1/3) with the rounding errors of its five
  operations at the precision of the step, measured by 1 - r^3 x; the number of correct digits
  doubles until the working precision limits it; the reciprocal at the end is C31.

## 4. Behaviour of the code that contradicts the properties

Each item is proved by the named theorems (`_refuted`) on the model.

* `isone(1)` is false; the only accepted number is 0.99...9 (C21).
* finite + NaN and finite + infinity ignore the right operand (C06).
* `x -= x` gives 2x (C07); `x /= y` with equal magnitudes gives the sign of x
  only, 0/0 = 1 (C32).
* The product has no comparison with max(): max()*1 is infinite, and finite
  products above max() exist (C11, C13).
* Division by an integer keeps a stale limb (1/7 is not the truncated quotient),
  and a negative number divided by 0 is +infinity (C14).
* Conversion of -2^63 is undefined behaviour (C16, C17, C37).
* integer_part, floor, ceil of numbers of at least 10^(digits10-1) (C19, C20).
* e_float(mantissa, exponent) with |mantissa| >= 10 is not normalised, with
  mantissa 0 gives 1 (C20, C39).
* Reading "", "+", "1e" uses an uninitialised variable; exponents overflow;
  reading into a NaN leaves a NaN with digits (C24, C25, C23).
* Printing throws std::out_of_range for small numbers in fixed notation and for
  0 digits (C26, C28, C29).
* The square root stops one step early (C33).
* pow(b, INT64_MIN) is undefined; pow(0, a) = 1 (C34, C58).
* Copy assignment to a moved-from number leaves it without digits (C35);
  inverting huge negative numbers gives a negative zero (C23).
* lowest() is 0; literals above max() are read as finite numbers (C38).
* frexp uses the decimal exponent (C41).
* prime(n) never ends from n = 250000000 on (C42); prime_factors(4) contains
  (1,1) (C43).
* conj(z) is i*z; sqrt of complex numbers (C46).
* Bisection without sign change and Newton without convergence report success;
  the trapezoid rule overflows an int instead of failing (C49, C55).
* asin is even for small arguments, atan of large negative numbers is positive
  (C51); limits at infinity, exp overflows too early (C58).
* fmod of exact multiples and of negative divisors (C53).
* The constants have 1100 digits whatever digits10 is (pi excepted), so from 1104
  digits on they and exp(1) are wrong before the last digit (C59, C60).
* sin and cos of nonzero arguments below 10^-1073741808 give NaN: the square
  underflows to zero, a zero term is never recognised as small, and the series
  is given up after 10000 terms (C61, C62).
* The tables of n! and n!! give at most about 420 digits: from 403 digits on 320!
  is wrong by more than 10^-420 of its value (C44).
* factorial2(INT_MIN) and factorial2(INT_MAX) overflow an int (C44).
* The table of the numerators of the Bernoulli numbers gives at most 420 digits:
  bernoulli(326) is not accurate from 640 digits on (C45).
* bernoulli_table(bn, 0) writes behind the end of a vector of one element, and so
  does n = 4294967295, where n + 1 wraps to 0 (C63).
* asin(1) and acosh(1) of complex<e_float> have components -log(4)/2 and log(5)/2
  which should be 0, because the square root of 0 is i (C66).
* e_float_complex.h 1737: the specialisation of asinh for complex<e_float> lacks
  "inline", so two translation units that include the header do not link (seen by
  reading, not modelled).
* atan2(y, x) is off by pi/2 whenever y < 0 and |y| = |x|, because y / x loses the
  sign of y: atan2(-1, 1) is pi/4, atan2(-1, -1) is -5 pi/4 (C69).
* sinh(x) and tanh(x) are 0 for every nonzero |x| < 10^-(2 digits10) (C71).
* log1p(0) is NaN: the terms of the series are 0, whose order() is 0, so the stopping
  test never fires (C72).
* log1p(x) is NaN for every x with 1 <= |x| <= 10^100000, so log1p(1) is not ln 2: the
  hypergeometric series is used outside of its disc of convergence (C72).
* log1p1m2(x), meant for small x but defined for all |x| < 1, cuts its series off after
  4999 terms without a notice: for 1 - 10^-20 <= x < 1 it returns at most 9 where the
  value is at least 20 (C73).  atanh uses it for small x only.
* acos(x) for small negative x is below pi/2, because asin(x) has the wrong sign there
  (C74, C51).
* gamma(z) for complex z with an integer real part ignores the imaginary part:
  gamma(1+i) = gamma(2+i) = 1, gamma(i) = NaN (C76).
* pochhammer(x, n) for n >= 50 and nonpositive integer x is NaN instead of the product,
  which is 0 for -n < x (C76).  gamma_near_n of the smallest int overflows (C76).
* gamma of -infinity is -infinity (C76_nonfinite).
* riemann_zeta of the two smallest ints overflows in -n + 1 (C77); riemann_zeta(e_float) clamps
  integers below -2^31 to the smallest int and reaches the same overflow.
* rootn_inverse(x, 1) is x instead of 1/x, and for a negative order rootn_inverse(x, p) is
  the power x^-p instead of the root: rootn_inverse(8, -3) is 512 (C80).
* generic_functions::rootn of float, double and long double is the power x^p instead of the
  root: rootn<double>(8, 3) is 512.  generic_functions::sqrt(x) returns x for 0 < x < 2 min();
  euler_gamma<T>() is 0 (C78).
* log() doubles the working precision in every Newton step, starting at 28 digits, and stops when
  14, 28, 56, 112, ... exceeds 1.1 (digits10 + 1).  For digits10 just below 50, 101, 203, ... the last step
  runs at about the precision asked for, but the one before it has not delivered half of it: with
  49 digits log(10) is wrong from the 44th place on (C79), with 100 digits from the 86th.
* atan(x), asin(x) and log1p(x) are NaN for every nonzero |x| < 10^-1073741807: x * x underflows
  to zero and the series never ends (C68, C72, C74).

## 5. Trusted base

* The kernel of Coq 8.16.1 with its virtual machine.  No axioms of our own, no
  functors or module types, no plugins, no disabled checks.
* Libraries: the Coq standard library; Flocq (binary64 as a model of double);
  Coquelicot (derivatives and integrals in specifications).  They add no axioms
  beyond those of the standard library listed here.
* The reading of the C++ text as Gallina.  Every definition of a Model file
  cites the lines; simplifications are marked there.  The main ones:
  - `std::log10` of the leading limb in `order()` is replaced by the exact digit
    count (C40_order_double_log10 says when this is right);
  - the double FFT is assumed to return the exact convolution;
  - stream extraction and insertion of libstdc++ for the integer parts of
    literals follow the standard's num_get/num_put;
  - memory allocation succeeds;
  - double expressions are evaluated in binary64;
  - the static constants of `ef::` are the values given in constants.cpp.

Axioms reported by `Print Assumptions` (all from the standard library):

* no axioms ("Closed under the global context"):
  C02_comparison_with_infinities_and_nan, C03_negation_of_special_values,
  C08_multiplication_commutes, C08_square_is_product,
  C12_machine_arithmetic_exact, C18_isint_nonfinite, C20_floor_ceil_nonfinite,
  C22_precision_clamped, C24_read_literal_refuted, C25_read_any_partial,
  C25_read_any_refuted, C25_read_state_partial, C26_digits_refuted,
  C28_C29_output_refuted, C29_nonfinite, C34_any_monoid, C34_minimum_refuted,
  C35_array_memory, C36_swap, C37_div_minimum_refuted, C37_mixed_refuted,
  C46_powers, C47_fft_product, C48_any_field, C75_history, C76_near_n_refuted,
  C78_powers
* `ClassicalDedekindReals.sig_forall_dec`,
  `FunctionalExtensionality.functional_extensionality_dep`:
  C01_comparison_is_numeric_order, C01_equal_numbers_have_equal_digits,
  C03_negation_and_absolute_value_exact, C04_addition_error,
  C04_addition_exact, C04_addition_rounding, C05_addition_overflow,
  C05_sum_never_nan, C06_nonfinite_addition_partial,
  C06_nonfinite_addition_refuted, C07_self_subtraction_never_zero,
  C07_self_subtraction_refuted, C07_subtraction_partial,
  C08_addition_commutes, C08_addition_commutes_bitwise,
  C09_multiplication_accuracy, C09_multiplication_accuracy_any_precision,
  C10_exact_products, C10_multiplication_exact, C11_max_limit_refuted,
  C11_out_of_range, C11_special_values, C13_mul_unsigned_large,
  C13_mul_unsigned_special, C13_mul_unsigned_truncated, C13_overflow_refuted,
  C15_signed_construction_exact, C15_unsigned_construction_exact,
  C16_conversion_refuted, C16_infinities_saturate, C16_negative_to_unsigned,
  C16_to_signed_partial, C16_to_unsigned_partial,
  C17_minimum_round_trip_refuted, C17_signed_round_trip_partial,
  C17_unsigned_round_trip, C18_isint_decides, C19_decimal_part_partial,
  C19_integer_part_partial, C19_parts_of_integers, C19_parts_refuted,
  C20_ceil_partial, C20_floor_ceil_of_integers, C20_floor_partial,
  C20_floor_refuted, C21_isone_accepts_only_all_nines, C21_isone_refuted,
  C21_iszero_isneg_partial, C24_read_into_object_partial,
  C24_read_literal_partial, C26_digits_partial, C27_scientific,
  C28_default_partial, C28_fixed_partial, C29_no_exception_partial,
  C30_round_trip, C36_increment_integers, C36_increment_rounding,
  C37_add_builtin_partial, C37_integer_sums_exact, C37_mul_builtin_partial,
  C37_mul_unsigned_partial, C37_sub_builtin_partial, C37_unsigned_sums_exact,
  C37_unsigned_sums_partial, C38_epsilon, C38_limits_refuted, C38_max_partial,
  C38_min, C38_special, C40_order, C44_factorial_partial,
  C44_factorial_refuted, C45_tables_partial, C46_arithmetic, C46_conj_refuted,
  C46_division, C46_mixed, C46_product_accuracy_partial,
  C46_square_accuracy_partial, C48_accuracy_partial, C48_integers,
  C49_bisection, C49_bisection_refuted, C49_interpolation,
  C49_trapezoid_affine, C49_trapezoid_partial, C50_series, C52_sgn,
  C55_newton_partial, C56_coefficients, C78_rootn_special
* `ClassicalDedekindReals.sig_forall_dec`,
  `ClassicalDedekindReals.sig_not_dec`,
  `FunctionalExtensionality.functional_extensionality_dep`:
  C46_norm, C46_sqrt, C49_bisection_root, C55_newton_refuted, C64_euler,
  C64_exp_sum, C76_callers_partial, C76_complex_partial, C76_gamma_partial,
  C76_recurrence, C78_sqrt_partial
* `ClassicalDedekindReals.sig_forall_dec`,
  `ClassicalDedekindReals.sig_not_dec`, `Classical_Prop.classic`,
  `FunctionalExtensionality.functional_extensionality_dep`:
  C14_div_unsigned_partial, C14_div_unsigned_special_partial,
  C14_negative_by_zero_refuted, C14_truncation_refuted, C23_canonical_partial,
  C23_invariant_partial, C23_nan_digits_refuted, C23_negative_zero_refuted,
  C31_reciprocal_partial, C31_reciprocal_special, C32_division_partial,
  C32_division_refuted, C32_division_special_partial, C33_sqrt_partial,
  C33_sqrt_refuted, C33_sqrt_special, C34_defined, C34_exact,
  C34_negative_partial, C34_power, C34_special, C35_reuse_partial,
  C35_reuse_refuted, C37_div_builtin_partial, C39_from_double_partial,
  C39_from_double_refuted, C40_order_double_log10, C41_frexp_partial,
  C41_frexp_refuted, C41_ldexp, C41_ldexp_exact, C41_ldexp_special,
  C42_prime_partial, C42_prime_refuted, C42_prime_table_partial,
  C43_prime_factors_partial, C43_prime_factors_refuted, C44_binomial,
  C44_binomial_quotient_partial, C44_factorial2_negative_partial,
  C44_factorial2_partial, C44_factorial2_refuted, C45_bernoulli_partial,
  C45_bernoulli_refuted, C46_quotient_accuracy_partial, C46_refuted,
  C51_asin_partial, C51_asin_small_refuted, C51_atan_partial,
  C51_atan_refuted, C53_fmod_partial, C53_fmod_refuted, C54_derivative,
  C57_asinh_odd, C57_sine_odd, C57_tangent_partial, C57_well_formed,
  C58_exp_overflow_refuted, C58_limits_refuted, C58_special_partial,
  C59_exp_given_reciprocal_partial, C59_exp_partial, C59_exp_refuted,
  C60_constants_partial, C60_constants_refuted, C61_sin_partial,
  C61_sin_refuted, C62_cos_partial, C62_cos_refuted,
  C63_bernoulli_table_partial, C63_bernoulli_table_refuted, C64_polar,
  C65_log, C65_log10, C65_pow, C66_inverses_partial, C66_refuted,
  C67_value_semantics_partial, C68_atan_partial, C68_atan_refuted,
  C68_atan_tiny_refuted, C69_atan2_partial, C69_atan2_refuted,
  C70_cot_partial, C70_csc_partial, C70_sec_partial, C70_tan_partial,
  C71_cosh_partial, C71_sinh_partial, C71_sinh_refuted, C71_tanh_partial,
  C72_log1p_diverges_refuted, C72_log1p_half_partial, C72_log1p_partial,
  C72_log1p_refuted, C72_log1p_tiny_refuted, C72_log_near_one_partial,
  C73_atanh_outside, C73_atanh_partial, C73_log1p1m2_partial,
  C73_log1p1m2_refuted, C74_acos_partial, C74_acos_small_refuted,
  C74_asin_partial, C74_asin_tiny_refuted, C74_outside, C75_powers, C75_value,
  C76_complex_refuted, C76_integers, C76_nonfinite, C76_pochhammer_refuted,
  C77_integer_partial, C77_negative_partial, C77_product_partial,
  C77_reflection, C77_zeta_refuted, C78_generic_refuted, C78_rootn_partial,
  C79_log_refuted, C80_cbrt_partial, C80_inverse_cbrt_partial,
  C80_rootn_inverse_refuted, C80_rootn_special

## 6. What is not modelled

The GMP and MPFR back ends; Boost bindings; the test programs and examples; timers;
threads (the library has static tables without locks); the rounding of the double FFT;
pi by the arithmetic-geometric mean (used from 1010 digits on) and the generic
log, pi and ln2 of generic_functions; the series of gamma, the accelerated series of
zeta and the zeta series of bernoulli for large n (parameters of the model); the double
precision starting estimates of the elementary functions (parameters, the theorems say what
they need of them).  Functions that are modelled but not proved accurate: log away from 1 and
what is built on it (log10, loga, asinh, acosh, pow with a non-integer exponent, atanh of
larger arguments), rootn, and all elementary functions of complex<e_float> with rounding.

## 7. Testing the theorems

`seeded/LOG.jsonl` records edits of the model that imitate realistic bugs, made
in a scratch copy, with the theorems that then fail to prove, and the theorems
that were tightened when an edit went unnoticed.
