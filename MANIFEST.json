{
 "claims": [
  {
   "property": "C01",
   "status": "proved",
   "theorems": [
    "C01_comparison_is_numeric_order",
    "C01_equal_numbers_have_equal_digits"
   ],
   "note": ""
  },
  {
   "property": "C02",
   "status": "proved",
   "theorems": [
    "C02_comparison_with_infinities_and_nan"
   ],
   "note": ""
  },
  {
   "property": "C03",
   "status": "proved",
   "theorems": [
    "C03_negation_and_absolute_value_exact",
    "C03_negation_of_special_values"
   ],
   "note": ""
  },
  {
   "property": "C04",
   "status": "proved",
   "theorems": [
    "C04_addition_rounding",
    "C04_addition_error",
    "C04_addition_exact"
   ],
   "note": ""
  },
  {
   "property": "C05",
   "status": "proved",
   "theorems": [
    "C05_addition_overflow",
    "C05_sum_never_nan"
   ],
   "note": "Operands must themselves not exceed max(); multiplication can produce larger finite numbers (see C11, C38)."
  },
  {
   "property": "C06",
   "status": "partial",
   "theorems": [
    "C06_nonfinite_addition_partial",
    "C06_nonfinite_addition_refuted"
   ],
   "note": "False of the code for a non-finite right operand with a finite non-zero (or infinite) left operand: 1+NaN=1, 1+inf=1, inf+NaN=inf, 0.5+inf=0, 0.5+(-inf) finite."
  },
  {
   "property": "C07",
   "status": "partial",
   "theorems": [
    "C07_subtraction_partial",
    "C07_self_subtraction_refuted",
    "C07_self_subtraction_never_zero"
   ],
   "note": "Holds for distinct objects. False for the aliased form: x-=x gives 2x, because negate() also changes the operand."
  },
  {
   "property": "C08",
   "status": "proved",
   "theorems": [
    "C08_addition_commutes",
    "C08_addition_commutes_bitwise",
    "C08_multiplication_commutes",
    "C08_square_is_product"
   ],
   "note": ""
  },
  {
   "property": "C09",
   "status": "proved",
   "theorems": [
    "C09_multiplication_accuracy",
    "C09_multiplication_accuracy_any_precision"
   ],
   "note": "Bound 10^-(d+6) for the schoolbook range (digits10 up to 4967); for FFT multiplication the proved bound is 2500(d+32) 10^-(d+9)."
  },
  {
   "property": "C10",
   "status": "proved",
   "theorems": [
    "C10_multiplication_exact",
    "C10_exact_products"
   ],
   "note": "Exponent sum strictly between -2147483616 and 2147483616."
  },
  {
   "property": "C11",
   "status": "partial",
   "theorems": [
    "C11_special_values",
    "C11_out_of_range",
    "C11_max_limit_refuted"
   ],
   "note": "All special-value and exponent rules proved. The exponent test is not a comparison with max(): max()*1 is infinite and finite products above max() exist (refuted)."
  },
  {
   "property": "C12",
   "status": "proved",
   "theorems": [
    "C12_machine_arithmetic_exact"
   ],
   "note": ""
  },
  {
   "property": "C13",
   "status": "partial",
   "theorems": [
    "C13_mul_unsigned_truncated",
    "C13_mul_unsigned_large",
    "C13_mul_unsigned_special",
    "C13_overflow_refuted"
   ],
   "note": "Accuracy and special values proved; there is no overflow check, so the result can be finite above max()."
  },
  {
   "property": "C14",
   "status": "partial",
   "theorems": [
    "C14_div_unsigned_partial",
    "C14_div_unsigned_special_partial",
    "C14_truncation_refuted",
    "C14_negative_by_zero_refuted"
   ],
   "note": "Error bound proved for all finite full-precision numbers. Truncation is false when the leading quotient limb vanishes (1/7 keeps a stale limb) and a negative number divided by 0 gives +inf."
  },
  {
   "property": "C15",
   "status": "proved",
   "theorems": [
    "C15_unsigned_construction_exact",
    "C15_signed_construction_exact"
   ],
   "note": ""
  },
  {
   "property": "C16",
   "status": "partial",
   "theorems": [
    "C16_to_signed_partial",
    "C16_to_unsigned_partial",
    "C16_infinities_saturate",
    "C16_conversion_refuted",
    "C16_negative_to_unsigned"
   ],
   "note": "-2^63 is undefined behaviour in the signed conversion; negative numbers wrap in the unsigned one."
  },
  {
   "property": "C17",
   "status": "partial",
   "theorems": [
    "C17_signed_round_trip_partial",
    "C17_unsigned_round_trip",
    "C17_minimum_round_trip_refuted"
   ],
   "note": "INT64_MIN converts back with undefined behaviour."
  },
  {
   "property": "C18",
   "status": "proved",
   "theorems": [
    "C18_isint_decides",
    "C18_isint_nonfinite"
   ],
   "note": ""
  },
  {
   "property": "C19",
   "status": "partial",
   "theorems": [
    "C19_integer_part_partial",
    "C19_decimal_part_partial",
    "C19_parts_of_integers",
    "C19_parts_refuted"
   ],
   "note": "Numbers of at least 10^(digits10-1) with a fraction are returned unchanged by integer_part (refuted with 10^32+0.5)."
  },
  {
   "property": "C20",
   "status": "partial",
   "theorems": [
    "C20_floor_partial",
    "C20_ceil_partial",
    "C20_floor_ceil_of_integers",
    "C20_floor_ceil_nonfinite",
    "C20_floor_refuted"
   ],
   "note": "Same restriction as C19."
  },
  {
   "property": "C21",
   "status": "partial",
   "theorems": [
    "C21_iszero_isneg_partial",
    "C21_isone_refuted",
    "C21_isone_accepts_only_all_nines"
   ],
   "note": "iszero and isneg proved. isone(1) is false in the code: refuted and the exact accepted set characterised."
  },
  {
   "property": "C22",
   "status": "proved",
   "theorems": [
    "C22_precision_clamped"
   ],
   "note": ""
  },
  {
   "property": "C23",
   "status": "partial",
   "theorems": [
    "C23_invariant_partial",
    "C23_canonical_partial",
    "C23_negative_zero_refuted",
    "C23_nan_digits_refuted"
   ],
   "note": "Induction over all programs of constructions, destructions, copies, moves, swaps, assignments, arithmetic, roots, powers, remainders and reading of literals: no undefined behaviour and the representation invariant holds up to the sign of zero; no negative zero either if reciprocals are taken of numbers away from the ends of the exponent range. False in general: inverting a huge negative number gives a negative zero; reading into a NaN leaves a NaN with digits; e_float(mantissa, exponent) with a mantissa of 10 or more is not normalised (C20)."
  },
  {
   "property": "C24",
   "status": "partial",
   "theorems": [
    "C24_read_literal_partial",
    "C24_read_into_object_partial",
    "C24_read_literal_refuted"
   ],
   "note": "All valid literals shorter than 2^31 characters with exponent magnitude up to 9*10^18. False beyond: the exponent arithmetic overflows a signed 64-bit integer."
  },
  {
   "property": "C25",
   "status": "partial",
   "theorems": [
    "C25_read_any_partial",
    "C25_read_state_partial",
    "C25_read_any_refuted"
   ],
   "note": "No exception for any string; depends on the old object only through class and working precision. False in general: the empty string, a bare sign or \"1e\" read an uninitialised variable; reading into a NaN leaves NaN."
  },
  {
   "property": "C26",
   "status": "partial",
   "theorems": [
    "C26_digits_partial",
    "C26_digits_refuted"
   ],
   "note": "Every number of digits >= 1. False for 0 digits and leading digit >= 5 (std::out_of_range)."
  },
  {
   "property": "C27",
   "status": "proved",
   "theorems": [
    "C27_scientific"
   ],
   "note": "All finite numbers, flags, widths, fill characters and precisions."
  },
  {
   "property": "C28",
   "status": "partial",
   "theorems": [
    "C28_fixed_partial",
    "C28_default_partial",
    "C28_C29_output_refuted"
   ],
   "note": "Proved except for numbers below the last decimal whose leading digit is >= 5 (throws) and default notation with showpoint and too small a precision (throws)."
  },
  {
   "property": "C29",
   "status": "partial",
   "theorems": [
    "C29_no_exception_partial",
    "C29_nonfinite",
    "C28_C29_output_refuted"
   ],
   "note": "Proved outside the two refuted situations."
  },
  {
   "property": "C30",
   "status": "proved",
   "theorems": [
    "C30_round_trip"
   ],
   "note": "All numbers in the range min() .. max() (and beyond), every precision."
  },
  {
   "property": "C31",
   "status": "partial",
   "theorems": [
    "C31_reciprocal_partial",
    "C31_reciprocal_special"
   ],
   "note": "Proved for digits10 up to 65000 and magnitudes 26 decades away from both ends of the exponent range."
  },
  {
   "property": "C32",
   "status": "partial",
   "theorems": [
    "C32_division_partial",
    "C32_division_special_partial",
    "C32_division_refuted"
   ],
   "note": "Same range as C31. False for operands of equal magnitude with a negative dividend ((-3)/(-3)=-1) and 0/0=1."
  },
  {
   "property": "C33",
   "status": "partial",
   "theorems": [
    "C33_sqrt_partial",
    "C33_sqrt_special",
    "C33_sqrt_refuted"
   ],
   "note": "Relative error of the square below 10^-(d/2) for every finite positive full-precision x in range and every digit setting up to 65000; special values complete. The claimed 10^-d is false: the iteration stops early (refutation at 173 digits: error above 10^-104)."
  },
  {
   "property": "C34",
   "status": "partial",
   "theorems": [
    "C34_any_monoid",
    "C34_power",
    "C34_defined",
    "C34_exact",
    "C34_negative_partial",
    "C34_special",
    "C34_minimum_refuted"
   ],
   "note": "Both algorithms proved over every monoid for all 64-bit exponents but INT64_MIN (undefined behaviour, refuted) and for e_float with accuracy, exactness, overflow, underflow and special bases. Missing: negative exponents within 36 decades of the ends of the range and beyond 65000 digits."
  },
  {
   "property": "C35",
   "status": "partial",
   "theorems": [
    "C35_array_memory",
    "C35_reuse_partial",
    "C35_reuse_refuted"
   ],
   "note": "Memory model of the array class: all histories behave like independent lists, without leaks, dangling pointers or double frees. Moved-from numbers can be destroyed, move-assigned and assigned results. False for copy assignment: a = c after a was moved from leaves a without digits, and using it is undefined."
  },
  {
   "property": "C36",
   "status": "proved",
   "theorems": [
    "C36_swap",
    "C36_increment_integers",
    "C36_increment_rounding"
   ],
   "note": ""
  },
  {
   "property": "C37",
   "status": "partial",
   "theorems": [
    "C37_integer_sums_exact",
    "C37_add_builtin_partial",
    "C37_sub_builtin_partial",
    "C37_mul_unsigned_partial",
    "C37_mul_builtin_partial",
    "C37_div_builtin_partial",
    "C37_mixed_refuted",
    "C37_div_minimum_refuted",
    "C37_unsigned_sums_partial",
    "C37_unsigned_sums_exact"
   ],
   "note": "LLONG_MIN is undefined behaviour; differs at NaN and at exponent max; the multiplication theorem is for schoolbook precisions. Division by an integer is the exact quotient to digits10 digits, not the same bits."
  },
  {
   "property": "C38",
   "status": "partial",
   "theorems": [
    "C38_max_partial",
    "C38_min",
    "C38_epsilon",
    "C38_special",
    "C38_limits_refuted"
   ],
   "note": "max(), min() and epsilon() have their documented values for every digits10; sums stay below max(); no literal is read below min(); 1 + epsilon() > 1. False as stated: lowest() is 0, and numbers above max() can be read."
  },
  {
   "property": "C39",
   "status": "partial",
   "theorems": [
    "C39_from_double_partial",
    "C39_from_double_refuted"
   ],
   "note": "Accuracy 10^-12 for every normal double and every exponent; well formed for |m|<10. False in general: e_float(100.0,6) has a limb equal to 10^8, e_float(0.0,0)=1; subnormal mantissas are flushed; infinite or NaN mantissas do not terminate (Undefined in the model)."
  },
  {
   "property": "C40",
   "status": "proved",
   "theorems": [
    "C40_order",
    "C40_order_double_log10"
   ],
   "note": "std::log10 is a parameter of the model; the theorem states what is needed of it."
  },
  {
   "property": "C41",
   "status": "partial",
   "theorems": [
    "C41_ldexp",
    "C41_ldexp_exact",
    "C41_ldexp_special",
    "C41_frexp_partial",
    "C41_frexp_refuted"
   ],
   "note": "ldexp proved for every int exponent. frexp uses the decimal exponent: frexp(8)=(8,0), refuted; x=m*2^e holds up to rounding."
  },
  {
   "property": "C42",
   "status": "partial",
   "theorems": [
    "C42_prime_table_partial",
    "C42_prime_partial",
    "C42_prime_refuted"
   ],
   "note": "Every n < 6550 (the static table) for every logarithm with error at most 1/100; above the table whenever the limit is at most 65535^2 and enough primes lie below it (Robin's bound is not formalised). From n = 250000000 on the call never ends (refuted)."
  },
  {
   "property": "C43",
   "status": "partial",
   "theorems": [
    "C43_prime_factors_partial",
    "C43_prime_factors_refuted"
   ],
   "note": "All 32-bit n >= 2: the factorisation, possibly followed by the pair (1,1). As stated it is false for 0, 1 and 4 (refuted)."
  },
  {
   "property": "C44",
   "status": "partial",
   "theorems": [
    "C44_factorial_partial",
    "C44_factorial2_partial",
    "C44_factorial2_negative_partial",
    "C44_binomial",
    "C44_binomial_quotient_partial",
    "C44_factorial_refuted",
    "C44_factorial2_refuted"
   ],
   "note": "Binomials of n <= 160: exact, all entries of the table. n! and n!! for n <= 1000: relative error 10^-digits10 + 10^-414, exact for n <= 243 (396) if the value fits into the precision. Binomials of n <= 1000 by quotients and double factorials of negative odd numbers: relative error 10^-digits10 + 10^-412. False at 403 digits and more: the tables have about 420 digits. factorial2 of the smallest and the largest int is undefined behaviour. Beyond the tables a series is used that is not modelled."
  },
  {
   "property": "C45",
   "status": "partial",
   "theorems": [
    "C45_tables_partial",
    "C45_bernoulli_partial",
    "C45_bernoulli_refuted"
   ],
   "note": "Numerators and denominators of B(0) to B(200): exact, in lowest terms. bernoulli(n) for all odd n and even n <= 200: relative error 10^-digits10 / 5, up to 4967 digits. False for bernoulli(326) from 640 digits on: the numerators from B(324) on have only 420 digits. Not covered: even n from 202 on at lower precision."
  },
  {
   "property": "C46",
   "status": "partial",
   "theorems": [
    "C46_arithmetic",
    "C46_division",
    "C46_mixed",
    "C46_powers",
    "C46_norm",
    "C46_sqrt",
    "C46_product_accuracy_partial",
    "C46_square_accuracy_partial",
    "C46_quotient_accuracy_partial",
    "C46_conj_refuted",
    "C46_refuted"
   ],
   "note": "Exact arithmetic: proved for both class versions. complex<e_float>: accuracy of products, squares and quotients away from the ends of the exponent range and up to 65000 digits. False: conj(z) is i*z; with e_float 1/i = i, sqrt(0) = i, sqrt(3-4i) = 2+i; 0/0 aliased is 1."
  },
  {
   "property": "C47",
   "status": "proved",
   "theorems": [
    "C47_fft_product"
   ],
   "note": ""
  },
  {
   "property": "C48",
   "status": "partial",
   "theorems": [
    "C48_any_field",
    "C48_accuracy_partial",
    "C48_integers"
   ],
   "note": "Missing: accuracy for negative non-integers and near the ends of the exponent range."
  },
  {
   "property": "C49",
   "status": "partial",
   "theorems": [
    "C49_bisection",
    "C49_bisection_root",
    "C49_trapezoid_partial",
    "C49_trapezoid_affine",
    "C49_interpolation",
    "C49_bisection_refuted"
   ],
   "note": "Exact arithmetic. False: bisection without a sign change reports success and returns 0; the trapezoid rule never reports failure: it overflows an int instead."
  },
  {
   "property": "C50",
   "status": "proved",
   "theorems": [
    "C50_series"
   ],
   "note": "Exact arithmetic, any stopping test."
  },
  {
   "property": "C51",
   "status": "partial",
   "theorems": [
    "C51_asin_partial",
    "C51_atan_partial",
    "C51_asin_small_refuted",
    "C51_atan_refuted"
   ],
   "note": "Exactly odd for any estimates when asin is not in its small-argument branch and atan is not in its large-argument branch. In these branches the property is false: asin is even there, and atan of a large negative number is positive."
  },
  {
   "property": "C52",
   "status": "proved",
   "theorems": [
    "C52_sgn"
   ],
   "note": ""
  },
  {
   "property": "C53",
   "status": "partial",
   "theorems": [
    "C53_fmod_partial",
    "C53_fmod_refuted"
   ],
   "note": "Exact on integers of up to digits10-2 digits with a positive divisor that does not divide. False for exact multiples (fmod(6,3)=3), equal magnitudes (fmod(-3,3)=-6) and negative divisors (fmod(7,-3)=-2)."
  },
  {
   "property": "C54",
   "status": "proved",
   "theorems": [
    "C54_derivative"
   ],
   "note": "Exact arithmetic."
  },
  {
   "property": "C55",
   "status": "partial",
   "theorems": [
    "C55_newton_partial",
    "C55_newton_refuted"
   ],
   "note": "Exact arithmetic. False: after 256 steps without convergence success is reported."
  },
  {
   "property": "C56",
   "status": "proved",
   "theorems": [
    "C56_coefficients"
   ],
   "note": "Exact arithmetic."
  },
  {
   "property": "C57",
   "status": "partial",
   "theorems": [
    "C57_sine_odd",
    "C57_tangent_partial",
    "C57_asinh_odd",
    "C57_well_formed"
   ],
   "note": "sin, cos and asinh: exact symmetry for every finite argument and any estimates. tan: unless the computed sine and cosine have the same magnitude (division bug, see C32). Results are well-formed up to the sign of zero."
  },
  {
   "property": "C58",
   "status": "partial",
   "theorems": [
    "C58_special_partial",
    "C58_limits_refuted",
    "C58_exp_overflow_refuted"
   ],
   "note": "NaN propagation, limits, values at zero and domain errors of the listed functions. False for atan, log, tanh, asinh and cosh at infinities, for 0^a and inf^-a, and exp overflows for arguments whose exponential is representable."
  },
  {
   "property": "C59",
   "status": "partial",
   "theorems": [
    "C59_exp_given_reciprocal_partial",
    "C59_exp_partial",
    "C59_exp_refuted"
   ],
   "note": "Relative error at most (1/2 + |x|/200000) * 10^-digits10 for all full-precision x with |x| <= 2147483616 and digits10 <= 1084, given that the quotient 1/ln2() is not rounded up; this is checked for 30, 50, 100, 101 and 200 digits. From 1104 digits on the property is false at x = 1."
  },
  {
   "property": "C60",
   "status": "partial",
   "theorems": [
    "C60_constants_partial",
    "C60_constants_refuted"
   ],
   "note": "The six literals are verified against series for the real numbers: error below 10^-(digits10+15) up to 1084 digits. False from 1104 digits on, the literals have 1100 digits. pi() beyond 1009 digits (AGM) is not modelled."
  },
  {
   "property": "C61",
   "status": "partial",
   "theorems": [
    "C61_sin_partial",
    "C61_sin_refuted"
   ],
   "note": "Error at most (min(1,|x|)/2 + |x|/500000) * 10^-digits10 for all full-precision x that are zero or between 10^-300000 and 3*10^8 in magnitude, up to 1009 digits. False for nonzero |x| < 10^-1073741808, where the result is NaN."
  },
  {
   "property": "C62",
   "status": "partial",
   "theorems": [
    "C62_cos_partial",
    "C62_cos_refuted"
   ],
   "note": "Error at most (2/3 + |x|/500000) * 10^-digits10 for all full-precision x that are zero or between 10^-300000 and 3*10^8 in magnitude, up to 1009 digits. False for nonzero |x| < 10^-1073741808, where the result is NaN."
  },
  {
   "property": "C63",
   "status": "partial",
   "theorems": [
    "C63_bernoulli_table_partial",
    "C63_bernoulli_table_refuted"
   ],
   "note": "Relative error 10^-digits10 / 5 of every element for 1 <= n <= 1000000 and digits10 <= 4967. False for n = 0 and n = 4294967295: out of bounds."
  },
  {
   "property": "C64",
   "status": "proved",
   "theorems": [
    "C64_euler",
    "C64_exp_sum",
    "C64_polar"
   ],
   "note": "For complex numbers with real components, both versions of the class, all arguments at which the function is defined."
  },
  {
   "property": "C65",
   "status": "proved",
   "theorems": [
    "C65_log",
    "C65_log10",
    "C65_pow"
   ],
   "note": "For complex numbers with real components, both versions of the class; atan2 is modelled with its case distinction."
  },
  {
   "property": "C66",
   "status": "partial",
   "theorems": [
    "C66_inverses_partial",
    "C66_refuted"
   ],
   "note": "With real components, both versions of the class, right inverses with the range of the principal value, z other than the branch points and poles (z^2 = 1, z^2 = -1). At the branch points it is false for complex<e_float>, which takes i for the square root of 0: asin(1) and acosh(1) are wrong."
  },
  {
   "property": "C67",
   "status": "partial",
   "theorems": [
    "C67_value_semantics_partial"
   ],
   "note": "All programs that use no value of a moved-from object, with the same restrictions on arguments as C23. Copy assignment to a moved-from object is excluded, there the property is false (C35_reuse_refuted)."
  },
  {
   "property": "C68",
   "status": "partial",
   "theorems": [
    "C68_atan_partial",
    "C68_atan_refuted",
    "C68_atan_tiny_refuted"
   ],
   "note": "Up to 1009 digits, x > -10^7, x = 0 or |x| at least 10^-400000, full precision; the double precision starting estimate is assumed to have a relative error of at most 4e-15. Large negative arguments are refuted: the result is positive. Refuted as well for 0 < |x| < 10^-1073741807, where the result is NaN."
  },
  {
   "property": "C69",
   "status": "partial",
   "theorems": [
    "C69_atan2_partial",
    "C69_atan2_refuted"
   ],
   "note": "Up to 1009 digits, y and x zero or within 10^+-190000, |y| <> |x| or y > 0, y/x > -10^6, and the estimate as in C68. For y < 0 and |y| = |x| it is false: the result is off by a quarter of a turn."
  },
  {
   "property": "C70",
   "status": "partial",
   "theorems": [
    "C70_tan_partial",
    "C70_cot_partial",
    "C70_sec_partial",
    "C70_csc_partial"
   ],
   "note": "Same arguments and digits as C61 and C62; sine and cosine above 100 units of the last digit; for tan and cot |sin x| and |cos x| distinguishable or the numerator positive."
  },
  {
   "property": "C71",
   "status": "partial",
   "theorems": [
    "C71_cosh_partial",
    "C71_sinh_partial",
    "C71_tanh_partial",
    "C71_sinh_refuted"
   ],
   "note": "For 30, 50, 100, 101 and 200 digits, |x| <= 2147483616. sinh is accurate relative to cosh(x) and tanh absolutely; relative to their own size both are refuted: they are 0 for every tiny nonzero x."
  },
  {
   "property": "C72",
   "status": "partial",
   "theorems": [
    "C72_log1p_partial",
    "C72_log1p_half_partial",
    "C72_log1p_refuted",
    "C72_log1p_diverges_refuted",
    "C72_log1p_tiny_refuted",
    "C72_log_near_one_partial"
   ],
   "note": "log1p for 10^-400000 <= |x| <= 1/1000, and up to 2500 digits for 10^-100000 <= |x| <= 1/2; log for |x - 1| between 10^-(digits10+10) and 10^-(digits10/8+8). Refuted: log1p(0) is NaN, and log1p(x) is NaN for every |x| >= 1 (up to 10^100000) and for 0 < |x| < 10^-1073741807. Missing: 1/2 < |x| < 1 of log1p, and arguments of log away from 1 (Newton iteration at reduced precision)."
  },
  {
   "property": "C73",
   "status": "partial",
   "theorems": [
    "C73_log1p1m2_partial",
    "C73_log1p1m2_refuted",
    "C73_atanh_partial",
    "C73_atanh_outside"
   ],
   "note": "atanh for 10^-400000 <= |x| <= 10^-(digits10/8+8), where the series is used, and NaN for |x| >= 1; log1p1m2 up to 1/1000. Refuted for log1p1m2 close to 1, where the series is cut off. Missing: larger arguments, for which atanh uses log."
  },
  {
   "property": "C74",
   "status": "partial",
   "theorems": [
    "C74_asin_partial",
    "C74_acos_partial",
    "C74_outside",
    "C74_acos_small_refuted",
    "C74_asin_tiny_refuted"
   ],
   "note": "Up to 1009 digits, full precision, x = 0, 10^-400000 <= x <= 99/100 or -99/100 <= x <= -10^-6; the double precision starting estimate is assumed to have a relative error of at most 4e-15. NaN outside of [-1, 1] and acos at 1 and -1 for all digits. Refuted for small negative arguments: asin has the wrong sign there and acos is below pi/2; and for 0 < |x| < 10^-1073741807, where asin is NaN. Missing: 99/100 < |x| < 1."
  },
  {
   "property": "C75",
   "status": "proved",
   "theorems": [
    "C75_history",
    "C75_value",
    "C75_powers"
   ],
   "note": "The history theorem is for numbers of any type with any operations; the values are those over the real numbers, with the tables of primes of C43."
  },
  {
   "property": "C76",
   "status": "partial",
   "theorems": [
    "C76_gamma_partial",
    "C76_recurrence",
    "C76_complex_partial",
    "C76_callers_partial",
    "C76_integers",
    "C76_nonfinite",
    "C76_complex_refuted",
    "C76_pochhammer_refuted",
    "C76_near_n_refuted"
   ],
   "note": "Over real and complex numbers, for any series that are exact where they are used; in e_float at the integers up to 1000, with the accuracy of the factorials. Refuted for complex arguments with an integer real part, whose imaginary part is ignored; pochhammer(-3, 50) is NaN; gamma_near_n of the smallest int is undefined. Missing: the accuracy of the asymptotic series and of the series for small arguments, and rounding."
  },
  {
   "property": "C77",
   "status": "partial",
   "theorems": [
    "C77_product_partial",
    "C77_reflection",
    "C77_integer_partial",
    "C77_negative_partial",
    "C77_zeta_refuted"
   ],
   "note": "In e_float: the even integers up to 200, all integers so large that the result is 1, zero, the negative even integers and the negative odd integers down to -199, each against the sum of the series (Euler formula proved) or the Bernoulli numbers. Over the real numbers: the product of 300 primes (Euler product proved) and the reflection. Refuted for the two smallest ints, where -n + 1 overflows. Missing: the accelerated series, rounding in the product, the other integers."
  },
  {
   "property": "C78",
   "status": "partial",
   "theorems": [
    "C78_powers",
    "C78_sqrt_partial",
    "C78_rootn_partial",
    "C78_rootn_special",
    "C78_generic_refuted"
   ],
   "note": "Powers: every monoid and every 64-bit exponent but INT64_MIN (undefined). Roots in exact arithmetic, with starting values of double precision. Refuted: the specialisations of rootn for float, double and long double return x^p, the smallest positive number is its own square root, euler_gamma<T>() is 0. Missing: rounding of T, log, pi and ln2 by the arithmetic-geometric mean."
  },
  {
   "property": "C79",
   "status": "partial",
   "theorems": [
    "C79_log_refuted",
    "C72_log_near_one_partial"
   ],
   "note": "Refuted: with 49 digits log(10) is wrong from the 44th decimal place on although constants and starting value are right. Proved near 1 (C72). Missing: a bound for the settings of digits10 whose last Newton step has full precision."
  },
  {
   "property": "C80",
   "status": "partial",
   "theorems": [
    "C80_cbrt_partial",
    "C80_inverse_cbrt_partial",
    "C80_rootn_special",
    "C80_rootn_inverse_refuted"
   ],
   "note": "Cube roots up to 4967 digits for 10^-2000000000 <= x <= 10^2000000000, if the double precision estimate is right to 13 digits. Special arguments for every p; for the smallest int -p is undefined. Refuted: rootn_inverse(x, 1) is x, and rootn_inverse(x, p) is the power x^-p for negative p. Missing: the accuracy of other roots."
  }
 ]
}