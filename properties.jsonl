{"id": "C01", "title": "Comparison is the numeric order", "statement": "For finite e_float u, v the result of ==, !=, <, <=, >, >= is exactly the corresponding relation between the real numbers they represent.", "quantifier": "all pairs of finite well-formed numbers, all digits10 settings", "why_tests_cant": "The operand space is about 10^(digits10+9) mantissas times 5*10^8 exponents per operand; a test samples a vanishing part of it and the digits10 setting is itself a compile-time parameter.", "anchors": ["libs/e_float/src/e_float/efx/e_float_efx.cpp:e_float::cmp (1203-1283)", "libs/e_float/src/e_float/efx/e_float_efx.cpp:cmp_data (1180-1201)", "libs/e_float/src/e_float/e_float.h:operator< .. (98-335)"]}
{"id": "C02", "title": "Comparison with infinities and NaN", "statement": "+inf is greater and -inf smaller than every finite number, infinities of equal sign are equal; a NaN is never == to anything, including itself, and != is the negation of ==.", "quantifier": "all pairs where at least one operand is not finite", "why_tests_cant": "Needs every class/sign combination against every finite value.", "anchors": ["libs/e_float/src/e_float/efx/e_float_efx.cpp:e_float::cmp (1203-1283)", "libs/e_float/src/e_float/e_float.cpp:operator== (15-46)"]}
{"id": "C03", "title": "Negation and absolute value are exact", "statement": "-x represents exactly the negated number, -(-x) is bit-for-bit x for every finite x, fabs(x) represents |x|, zero has no negative form.", "quantifier": "all numbers", "why_tests_cant": "The operand space is about 10^(digits10+9) mantissas times 5*10^8 exponents per operand; a test samples a vanishing part of it and the digits10 setting is itself a compile-time parameter.", "anchors": ["libs/e_float/src/e_float/efx/e_float_efx.cpp:negate (1170-1178)", "libs/e_float/src/functions/elementary/elementary_math.cpp:fabs (38)"]}
{"id": "C04", "title": "Addition is accurate to the last limb of the larger operand", "statement": "For finite u, v without overflow, u+v is finite and differs from the exact sum by less than one unit in the last stored limb of the larger operand for each discarded limb (at most 2 units); it is exact whenever no non-zero limb is shifted out.", "quantifier": "all pairs of finite numbers, any exponent difference, all sign combinations, all digits10", "why_tests_cant": "The operand space is about 10^(digits10+9) mantissas times 5*10^8 exponents per operand; a test samples a vanishing part of it and the digits10 setting is itself a compile-time parameter.", "anchors": ["libs/e_float/src/e_float/efx/e_float_efx.cpp:operator+= (415-658)"]}
{"id": "C05", "title": "Addition overflow", "statement": "A finite sum whose magnitude exceeds numeric_limits<e_float>::max() becomes an infinity of the sum's sign, any other sum of finite numbers is finite.", "quantifier": "all pairs of finite numbers", "why_tests_cant": "Boundary lies at exponent 2147483616 for every mantissa.", "anchors": ["libs/e_float/src/e_float/efx/e_float_efx.cpp:operator+= (640-655)"]}
{"id": "C06", "title": "Infinities and NaN in addition", "statement": "NaN in either operand of + gives NaN; inf plus a finite number in either order gives that inf; inf + (-inf) gives NaN.", "quantifier": "all operand pairs with a non-finite operand", "why_tests_cant": "Holds for one operand order and every finite partner; a test only picks partners.", "anchors": ["libs/e_float/src/e_float/efx/e_float_efx.cpp:operator+= (415-450)"]}
{"id": "C07", "title": "Subtraction", "statement": "u-v has the accuracy of C04 applied to u+(-v); x-x==0 for every finite x, also when written x-=x.", "quantifier": "all pairs of finite numbers, including aliased operands", "why_tests_cant": "The operand space is about 10^(digits10+9) mantissas times 5*10^8 exponents per operand; a test samples a vanishing part of it and the digits10 setting is itself a compile-time parameter.", "anchors": ["libs/e_float/src/e_float/efx/e_float_efx.cpp:operator-= (660-664)", "libs/e_float/src/e_float/e_float.cpp:operator-"]}
{"id": "C08", "title": "Addition and multiplication commute exactly", "statement": "For finite u,v the results u+v and v+u, and u*v and v*u, are the same number (no rounding dependence on operand order).", "quantifier": "all pairs of finite numbers at working precision", "why_tests_cant": "The operand space is about 10^(digits10+9) mantissas times 5*10^8 exponents per operand; a test samples a vanishing part of it and the digits10 setting is itself a compile-time parameter.", "anchors": ["libs/e_float/src/e_float/efx/e_float_efx.cpp:operator+= (415-658)", "libs/e_float/src/e_float/efx/e_float_efx.cpp:operator*= (666-787)"]}
{"id": "C09", "title": "Multiplication accuracy", "statement": "For finite non-zero u,v with exponent sum in range, u*v is finite, has the sign rule of multiplication, never exceeds the exact product in magnitude and has relative error below 10^-(digits10+6).", "quantifier": "all pairs of finite non-zero numbers, all digits10 using the school-book branch", "why_tests_cant": "The operand space is about 10^(digits10+9) mantissas times 5*10^8 exponents per operand; a test samples a vanishing part of it and the digits10 setting is itself a compile-time parameter.", "anchors": ["libs/e_float/src/e_float/efx/e_float_efx.cpp:operator*= (666-787)", "libs/e_float/src/e_float/efx/e_float_efx.cpp:mul_loop_uv (188-208)"]}
{"id": "C10", "title": "Multiplication is exact when the product fits", "statement": "If the digits of the exact product fit into the working limbs, u*v is the exact product.", "quantifier": "all pairs of finite numbers whose product has few enough limbs", "why_tests_cant": "The operand space is about 10^(digits10+9) mantissas times 5*10^8 exponents per operand; a test samples a vanishing part of it and the digits10 setting is itself a compile-time parameter.", "anchors": ["libs/e_float/src/e_float/efx/e_float_efx.cpp:mul_loop_uv (188-208)", "libs/e_float/src/e_float/efx/e_float_efx.cpp:operator*= (666-787)"]}
{"id": "C11", "title": "Multiplication special values, overflow and underflow", "statement": "NaN*x and inf*0 are NaN, inf*nonzero is inf with the product sign, 0*x=0; products whose exponents sum beyond max_exponent10 give signed inf, below min_exponent10 give 0.", "quantifier": "all operand pairs", "why_tests_cant": "All classes crossed with all exponents.", "anchors": ["libs/e_float/src/e_float/efx/e_float_efx.cpp:operator*= (666-740)"]}
{"id": "C12", "title": "Column sums of the multiplication never overflow 64 bits", "statement": "In every multiplication all 64-bit intermediate sums stay below 2^64, so the wrapping machine arithmetic equals integer arithmetic.", "quantifier": "all operands, all precisions below the FFT threshold", "why_tests_cant": "Overflow needs many maximal limbs at maximal precision; random tests do not get near it.", "anchors": ["libs/e_float/src/e_float/efx/e_float_efx.cpp:mul_loop_uv (188-208)", "libs/e_float/src/e_float/efx/e_float_efx.cpp:mul_loop_n (350-363)", "libs/e_float/src/e_float/efx/e_float_efx.cpp:div_loop_n (365-377)"]}
{"id": "C13", "title": "Multiplication by a built-in unsigned integer", "statement": "x*n for 64-bit n: exact when no digit is dropped and otherwise truncated with relative error below 10^-(digits10+6); inf/NaN/zero rules as in C11.", "quantifier": "all numbers x all 64-bit integers", "why_tests_cant": "The operand space is about 10^(digits10+9) mantissas times 5*10^8 exponents per operand; a test samples a vanishing part of it and the digits10 setting is itself a compile-time parameter.", "anchors": ["libs/e_float/src/e_float/efx/e_float_efx.cpp:mul_unsigned_long_long (828-896)", "libs/e_float/src/e_float/efx/e_float_efx.cpp:mul_loop_n (350-363)"]}
{"id": "C14", "title": "Division by a built-in unsigned integer", "statement": "x/n for 0<n<10^8 has relative error below 10^-(digits10+1) and truncates the exact quotient at the last limb; x/0 is an infinity with the sign of x (NaN for x=0).", "quantifier": "all numbers x all integers", "why_tests_cant": "The operand space is about 10^(digits10+9) mantissas times 5*10^8 exponents per operand; a test samples a vanishing part of it and the digits10 setting is itself a compile-time parameter.", "anchors": ["libs/e_float/src/e_float/efx/e_float_efx.cpp:div_unsigned_long_long (898-984)", "libs/e_float/src/e_float/efx/e_float_efx.cpp:div_loop_n (365-377)"]}
{"id": "C15", "title": "Construction from built-in integers is exact", "statement": "e_float(n) represents exactly n for every signed or unsigned 64-bit n, including INT64_MIN.", "quantifier": "all 2^64 values for each type", "why_tests_cant": "2^64 values cannot be enumerated.", "anchors": ["libs/e_float/src/e_float/efx/e_float_efx.cpp:from_unsigned_long_long (119-148)", "libs/e_float/src/e_float/efx/e_float_efx.h:integral constructors (100-130)"]}
{"id": "C16", "title": "Conversion to built-in integers truncates and saturates", "statement": "The conversions to signed/unsigned 64-bit integers return the number truncated towards zero, clamped to the range of the target type, with defined behaviour.", "quantifier": "all numbers", "why_tests_cant": "The operand space is about 10^(digits10+9) mantissas times 5*10^8 exponents per operand; a test samples a vanishing part of it and the digits10 setting is itself a compile-time parameter.", "anchors": ["libs/e_float/src/e_float/efx/e_float_efx.cpp:extract_signed_long_long (1507-1547)", "libs/e_float/src/e_float/efx/e_float_efx.cpp:extract_unsigned_long_long (1549-1591)"]}
{"id": "C17", "title": "Integer round trip", "statement": "Converting an integer to e_float and back yields the same integer.", "quantifier": "all 64-bit integers", "why_tests_cant": "2^64 values.", "anchors": ["libs/e_float/src/e_float/efx/e_float_efx.cpp:extract_signed_long_long (1507-1547)", "libs/e_float/src/e_float/efx/e_float_efx.cpp:from_unsigned_long_long (119-148)"]}
{"id": "C18", "title": "isint decides integrality", "statement": "isint(x) is true exactly when x is finite and represents an integer.", "quantifier": "all numbers", "why_tests_cant": "The operand space is about 10^(digits10+9) mantissas times 5*10^8 exponents per operand; a test samples a vanishing part of it and the digits10 setting is itself a compile-time parameter.", "anchors": ["libs/e_float/src/e_float/efx/e_float_efx.cpp:isint (1331-1364)"]}
{"id": "C19", "title": "Integer part and decimal part", "statement": "integer_part(x) is x truncated towards zero, decimal_part(x)=x-integer_part(x), and their sum is exactly x.", "quantifier": "all finite numbers", "why_tests_cant": "The operand space is about 10^(digits10+9) mantissas times 5*10^8 exponents per operand; a test samples a vanishing part of it and the digits10 setting is itself a compile-time parameter.", "anchors": ["libs/e_float/src/e_float/efx/e_float_efx.cpp:extract_integer_part (1593-1627)", "libs/e_float/src/e_float/efx/e_float_efx.cpp:extract_decimal_part (1629-1710)"]}
{"id": "C20", "title": "floor and ceil", "statement": "floor(x) is the greatest integer not above x and ceil(x) the least integer not below x.", "quantifier": "all finite numbers", "why_tests_cant": "The operand space is about 10^(digits10+9) mantissas times 5*10^8 exponents per operand; a test samples a vanishing part of it and the digits10 setting is itself a compile-time parameter.", "anchors": ["libs/e_float/src/functions/elementary/elementary_math.cpp:floor,ceil (43-57)"]}
{"id": "C21", "title": "Predicates iszero, isneg, isone", "statement": "iszero(x) iff x represents 0, isneg(x) iff x<0 for finite x, isone(x) iff x represents 1.", "quantifier": "all finite numbers", "why_tests_cant": "The operand space is about 10^(digits10+9) mantissas times 5*10^8 exponents per operand; a test samples a vanishing part of it and the digits10 setting is itself a compile-time parameter.", "anchors": ["libs/e_float/src/e_float/efx/e_float_efx.cpp:iszero (1289)", "libs/e_float/src/e_float/efx/e_float_efx.cpp:isone (1294-1329)", "libs/e_float/src/e_float/efx/e_float_efx.cpp:isneg (1366)"]}
{"id": "C22", "title": "Precision reduction is clamped", "statement": "precision(d) selects enough limbs for d digits, but always at least two and never more than the storage.", "quantifier": "all 32-bit d", "why_tests_cant": "All 2^32 requests times all digits10 settings.", "anchors": ["libs/e_float/src/e_float/efx/e_float_efx.cpp:precision (379-386)"]}
{"id": "C23", "title": "Every operation preserves the representation invariant", "statement": "After any sequence of constructions and operations every object has its full number of limbs, each below 10^8, a non-zero leading limb unless the number is zero, an exponent divisible by 8, and no negative zero; infinities and NaN carry no digits.", "quantifier": "all finite histories of operations", "why_tests_cant": "Histories are unbounded.", "anchors": ["libs/e_float/src/e_float/efx/e_float_efx.cpp:whole file"]}
{"id": "C24", "title": "Reading a decimal string", "statement": "Constructing from a syntactically valid decimal literal gives the exact value truncated to the stored limbs, +-inf above the exponent range and 0 below it.", "quantifier": "all valid decimal literals of any length", "why_tests_cant": "Unbounded strings.", "anchors": ["libs/e_float/src/e_float/efx/e_float_efx.cpp:rd_string (1807-2070)"]}
{"id": "C25", "title": "Reading arbitrary strings", "statement": "Reading any string is defined: it never has undefined behaviour and the result does not depend on the previous value of the object.", "quantifier": "all strings, all previous object states", "why_tests_cant": "Unbounded strings and histories.", "anchors": ["libs/e_float/src/e_float/efx/e_float_efx.cpp:rd_string (1807-2070)", "libs/e_float/src/e_float/e_float_base.cpp:operator>> (61-79)"]}
{"id": "C26", "title": "Decimal digit extraction is correctly rounded", "statement": "The digit string used for output equals the number rounded half away from zero to the requested number of significant digits, with the exponent adjusted on carry.", "quantifier": "all finite numbers, all requested digit counts", "why_tests_cant": "The operand space is about 10^(digits10+9) mantissas times 5*10^8 exponents per operand; a test samples a vanishing part of it and the digits10 setting is itself a compile-time parameter.", "anchors": ["libs/e_float/src/e_float/efx/e_float_efx.cpp:get_output_string (1742-1805)"]}
{"id": "C27", "title": "Scientific output denotes the rounded number", "statement": "The text written in scientific notation, read as a decimal literal, denotes exactly the value rounded half away from zero to min(precision,max_digits10)+1 significant digits.", "quantifier": "all finite numbers, all stream precisions and flag combinations", "why_tests_cant": "The operand space is about 10^(digits10+9) mantissas times 5*10^8 exponents per operand; a test samples a vanishing part of it and the digits10 setting is itself a compile-time parameter.", "anchors": ["libs/e_float/src/e_float/e_float_base.cpp:wr_string (154-289)", "libs/e_float/src/e_float/e_float_base.cpp:wr_string_scientific (314-383)"]}
{"id": "C28", "title": "Fixed and default output", "statement": "The text written in fixed notation denotes the number rounded half away from zero to the requested number of decimals (or to the available digits).", "quantifier": "all finite numbers, all stream precisions", "why_tests_cant": "The operand space is about 10^(digits10+9) mantissas times 5*10^8 exponents per operand; a test samples a vanishing part of it and the digits10 setting is itself a compile-time parameter.", "anchors": ["libs/e_float/src/e_float/e_float_base.cpp:wr_string (154-289)", "libs/e_float/src/e_float/e_float_base.cpp:wr_string_fixed (385-469)"]}
{"id": "C29", "title": "Output never throws", "statement": "Writing any number with any stream flags and precision terminates normally without exception.", "quantifier": "all numbers, all flags, precisions and widths", "why_tests_cant": "The operand space is about 10^(digits10+9) mantissas times 5*10^8 exponents per operand; a test samples a vanishing part of it and the digits10 setting is itself a compile-time parameter.", "anchors": ["libs/e_float/src/e_float/efx/e_float_efx.cpp:get_output_string (1742-1805)", "libs/e_float/src/e_float/e_float_base.cpp:wr_string (154-289)"]}
{"id": "C30", "title": "Write/read round trip", "statement": "Writing a finite number in scientific notation and reading the text back gives the number rounded to the printed digits; numbers with at most that many digits come back unchanged.", "quantifier": "all finite numbers", "why_tests_cant": "The operand space is about 10^(digits10+9) mantissas times 5*10^8 exponents per operand; a test samples a vanishing part of it and the digits10 setting is itself a compile-time parameter.", "anchors": ["libs/e_float/src/e_float/e_float_base.cpp:wr_string (154-289)", "libs/e_float/src/e_float/efx/e_float_efx.cpp:rd_string (1807-2070)"]}
{"id": "C31", "title": "Reciprocal accuracy", "statement": "For every finite non-zero x, inv(x) is finite and |x*inv(x)-1| < 10^-digits10.", "quantifier": "all finite non-zero numbers whose reciprocal is in range, all digits10", "why_tests_cant": "Convergence of the Newton iteration for every mantissa and for every precision setting.", "anchors": ["libs/e_float/src/e_float/efx/e_float_efx.cpp:calculate_inv (998-1074)"]}
{"id": "C32", "title": "Division accuracy and sign", "statement": "u/v for finite v!=0 has relative error below 10^-digits10 and the sign of the exact quotient; 0/0 is NaN.", "quantifier": "all pairs of finite numbers", "why_tests_cant": "The operand space is about 10^(digits10+9) mantissas times 5*10^8 exponents per operand; a test samples a vanishing part of it and the digits10 setting is itself a compile-time parameter.", "anchors": ["libs/e_float/src/e_float/efx/e_float_efx.cpp:operator/= (789-814)"]}
{"id": "C33", "title": "Square root accuracy", "statement": "For finite x>=0 in range, sqrt(x)^2 agrees with x to relative 10^-digits10 and sqrt of a negative number is NaN.", "quantifier": "all finite non-negative numbers", "why_tests_cant": "Convergence for every mantissa.", "anchors": ["libs/e_float/src/e_float/efx/e_float_efx.cpp:calculate_sqrt (1076-1168)"]}
{"id": "C34", "title": "Integer powers use the right exponentiation", "statement": "pow(b,n) and the generic integer power template compute b multiplied n times (1/b^-n for negative n), for every n.", "quantifier": "all bases in any commutative ring, all 64-bit exponents", "why_tests_cant": "2^64 exponents.", "anchors": ["libs/e_float/src/e_float/detail/e_float_detail_pown_template.h:pown_template (26-65)", "libs/e_float/src/functions/elementary/elementary_trans.cpp:pow (474-506)"]}
{"id": "C35", "title": "Moved-from objects can be reused", "statement": "After its value was moved away an e_float can be destroyed or assigned a new value and then used normally.", "quantifier": "all histories of moves and assignments", "why_tests_cant": "Unbounded histories.", "anchors": ["libs/e_float/src/utility/util_dynamic_array.h (62-171)", "libs/e_float/src/e_float/efx/e_float_efx.cpp:operator= (389-413)"]}
{"id": "C36", "title": "swap, increment, decrement", "statement": "swap exchanges two values exactly; ++x and --x add/subtract one, the postfix forms return the old value.", "quantifier": "all numbers", "why_tests_cant": "The operand space is about 10^(digits10+9) mantissas times 5*10^8 exponents per operand; a test samples a vanishing part of it and the digits10 setting is itself a compile-time parameter.", "anchors": ["libs/e_float/src/e_float/efx/e_float_efx.cpp:swap (986)", "libs/e_float/src/e_float/efx/e_float_efx.cpp:operator++ (1371-1377)", "libs/e_float/src/e_float/e_float.h:postfix"]}
{"id": "C37", "title": "Mixed arithmetic with built-in integers", "statement": "x op n equals x op e_float(n) for every built-in integer n, with defined behaviour for every n.", "quantifier": "all numbers, all 64-bit integers", "why_tests_cant": "2^64 integers.", "anchors": ["libs/e_float/src/e_float/e_float_base.cpp:add_signed_long_long.. (98-152)"]}
{"id": "C38", "title": "numeric_limits contract", "statement": "Every finite e_float lies between lowest() and max(); min() is the smallest positive number produced by parsing; 1+epsilon()>1; infinity() exceeds every finite number, quiet_NaN() equals nothing and round_error() is 1/2.", "quantifier": "all reachable finite values", "why_tests_cant": "The operand space is about 10^(digits10+9) mantissas times 5*10^8 exponents per operand; a test samples a vanishing part of it and the digits10 setting is itself a compile-time parameter.", "anchors": ["libs/e_float/src/e_float/e_float.h:numeric_limits (49-85)", "libs/e_float/src/e_float/e_float_base.cpp:my_value_max,min (81-96)"]}
{"id": "C39", "title": "Construction from double mantissa and exponent", "statement": "e_float(m,e) represents m*10^e to double accuracy and is well formed for every finite m.", "quantifier": "all finite doubles, all exponents in range", "why_tests_cant": "2^64 doubles times exponents.", "anchors": ["libs/e_float/src/e_float/efx/e_float_efx.cpp:e_float(double,int64) (33-85)"]}
{"id": "C40", "title": "Decimal order", "statement": "order() returns floor(log10(|x|)) for every finite non-zero x.", "quantifier": "all finite non-zero numbers", "why_tests_cant": "The operand space is about 10^(digits10+9) mantissas times 5*10^8 exponents per operand; a test samples a vanishing part of it and the digits10 setting is itself a compile-time parameter.", "anchors": ["libs/e_float/src/e_float/efx/e_float_efx.cpp:get_order_fast (1726-1740)"]}
{"id": "C41", "title": "frexp and ldexp", "statement": "ldexp(x,e) represents x*2^e; frexp(x,&e) returns m with x=m*2^e and 1/2<=|m|<1.", "quantifier": "all finite numbers", "why_tests_cant": "The operand space is about 10^(digits10+9) mantissas times 5*10^8 exponents per operand; a test samples a vanishing part of it and the digits10 setting is itself a compile-time parameter.", "anchors": ["libs/e_float/src/functions/elementary/elementary_math.cpp:ldexp,frexp (71-86)"]}
{"id": "C42", "title": "Prime table", "statement": "prime(n) returns the first n primes in increasing order.", "quantifier": "all n for which the sieve limit is below 2^32", "why_tests_cant": "Infinite family of table sizes.", "anchors": ["libs/e_float/src/functions/integer/prime.cpp (46-132)"]}
{"id": "C43", "title": "Prime factorisation", "statement": "prime_factors(n) returns primes with multiplicities whose product is n.", "quantifier": "all 32-bit n", "why_tests_cant": "2^32 inputs, with a tabulated and a computed part.", "anchors": ["libs/e_float/src/functions/integer/prime_factor.cpp (20-130)"]}
{"id": "C44", "title": "Factorial tables", "statement": "The tabulated values of n!, n!! and binomial(n,k) are exactly the mathematical ones.", "quantifier": "every table entry", "why_tests_cant": "Tests compare a few entries to copies of the same table.", "anchors": ["libs/e_float/src/functions/tables/A000142.cpp", "libs/e_float/src/functions/tables/A006882.cpp", "libs/e_float/src/functions/tables/A007318.cpp", "libs/e_float/src/functions/gamma/factorial.cpp", "libs/e_float/src/functions/gamma/factorial2.cpp"]}
{"id": "C45", "title": "Bernoulli tables", "statement": "Tabulated numerator/denominator pairs are exactly the Bernoulli numbers B(2n) in lowest terms; odd-index values are 0 except B(1)=-1/2.", "quantifier": "every table entry", "why_tests_cant": "Same.", "anchors": ["libs/e_float/src/functions/tables/A000367.cpp", "libs/e_float/src/functions/tables/A002445.cpp", "libs/e_float/src/functions/integer/bernoulli_b.cpp"]}
{"id": "C46", "title": "Complex arithmetic", "statement": "Complex +,-,*,/ (also aliased z*=z, z/=z, and mixed with a real operand) compute the field operations of the complex numbers from the component operations; pow, norm, conj and sqrt compute the corresponding complex functions; for complex<e_float> products and quotients have a small error relative to the magnitudes of their parts.", "quantifier": "all components in any field", "why_tests_cant": "Infinite domain, aliasing patterns.", "anchors": ["libs/e_float/src/e_float/e_float_complex.h (146-311, 1409-1681)"]}
{"id": "C47", "title": "FFT multiplication carry release", "statement": "Given the exact convolution of the half-limb digits, the carry release yields the limbs of the exact product's leading part.", "quantifier": "all limb vectors, all lengths", "why_tests_cant": "Only large precisions reach this code.", "anchors": ["libs/e_float/src/e_float/efx/e_float_efx.cpp:mul_loop_fft (210-348)"]}
{"id": "C48", "title": "Pochhammer symbol", "statement": "pochhammer(x,n) for n<50 is x(x+1)...(x+n-1): exactly in exact arithmetic and on small enough integers, up to a small relative error for positive e_float arguments.", "quantifier": "all x in any commutative ring, all n", "why_tests_cant": "Infinite domain.", "anchors": ["libs/e_float/src/functions/gamma/pochhammer.cpp (15-79)"]}
{"id": "C49", "title": "Root finding and quadrature helpers", "statement": "Bisection of an interval with a sign change returns a point of the interval within the tolerance of a sign change (of a root, for continuous functions), and reports failure otherwise; the recursive trapezoid rule returns a sum of equal-width trapezoids whose number was doubled until two sums agree, or reports failure; linear interpolation lies on the chord of the neighbouring points and is constant outside.", "quantifier": "all functions, intervals and point lists", "why_tests_cant": "Quantifies over all functions.", "anchors": ["libs/e_float/src/utility/util_find_root_bisect.h", "libs/e_float/src/utility/util_trapezoid.h", "libs/e_float/src/utility/util_interpolate.h"]}
{"id": "C50", "title": "Series loops terminate", "statement": "The hypergeometric series functions always terminate within max_iteration terms and return NaN when they did not converge; on success the result is the partial sum of the series.", "quantifier": "all parameters", "why_tests_cant": "Quantifies over all parameter values.", "anchors": ["libs/e_float/src/functions/elementary/elementary_hyper_g.cpp (17-316)"]}
{"id": "C51", "title": "Odd functions are odd", "statement": "asin(-x)=-asin(x) and atan(-x)=-atan(x) for every x.", "quantifier": "all finite x", "why_tests_cant": "The operand space is about 10^(digits10+9) mantissas times 5*10^8 exponents per operand; a test samples a vanishing part of it and the digits10 setting is itself a compile-time parameter.", "anchors": ["libs/e_float/src/functions/elementary/elementary_trig.cpp:asin (269-349), atan (405-473)"]}
{"id": "C52", "title": "Sign function", "statement": "sgn(x) is -1, 0 or 1 according to the sign of x.", "quantifier": "all finite x", "why_tests_cant": "The operand space is about 10^(digits10+9) mantissas times 5*10^8 exponents per operand; a test samples a vanishing part of it and the digits10 setting is itself a compile-time parameter.", "anchors": ["libs/e_float/src/functions/elementary/elementary_math.cpp:sgn (59-69)"]}
{"id": "C53", "title": "Floating remainder", "statement": "fmod(x,y) is x - n*y with n an integer, |fmod(x,y)| < |y| and the sign of x; on integers it is the C remainder.", "quantifier": "all finite x and nonzero y", "why_tests_cant": "The operand space is about 10^(digits10+9) mantissas times 5*10^8 exponents per operand; a test samples a vanishing part of it and the digits10 setting is itself a compile-time parameter.", "anchors": ["libs/e_float/src/functions/elementary/elementary_math.cpp:fmod (88-93)"]}
{"id": "C54", "title": "Central difference", "statement": "FunctionDerivative: for a seven times differentiable function the three-interval central difference deviates from the derivative by at most 47/2100 h^6 max|f^(7)| (in exact arithmetic); in particular it is exact for polynomials of degree up to 6.", "quantifier": "all sufficiently smooth functions, points and step widths", "why_tests_cant": "Quantifies over all functions.", "anchors": ["libs/e_float/src/utility/util_function_derivative.h (35-54)"]}
{"id": "C55", "title": "Newton root finder", "statement": "The Newton-Raphson helper, when it reports success, returns a point of the interval reached by a last step shorter than the tolerance.", "quantifier": "all functions, intervals and tolerances", "why_tests_cant": "Quantifies over all functions.", "anchors": ["libs/e_float/src/utility/util_find_root_newton_raphson.h (39-69)"]}
{"id": "C56", "title": "Expansions by std::accumulate", "statement": "coefficient_expansion accumulates s0 + init * sum c_k x^k, alternating_sum accumulates c_0 - c_1 + c_2 - ... (or the negative), for any coefficient sequence.", "quantifier": "all coefficient sequences", "why_tests_cant": "Infinite domain.", "anchors": ["libs/e_float/src/utility/util_coefficient_expansion.h (25-32)", "libs/e_float/src/utility/util_alternating_sum.h (24-29)"]}
{"id": "C57", "title": "Symmetry of sine, cosine, tangent and asinh", "statement": "sin(-x) = -sin(x), tan(-x) = -tan(x) and asinh(-x) = -asinh(x) exactly, cos(-x) = cos(x) exactly, for every finite x; the results of the trigonometric functions satisfy the representation invariant.", "quantifier": "all finite x, all first estimates", "why_tests_cant": "Infinite domain.", "anchors": ["libs/e_float/src/functions/elementary/elementary_trig.cpp:sin (26-134), cos (136-245), tan (253)", "libs/e_float/src/functions/elementary/elementary_trans.cpp:asinh (583-605)"]}
{"id": "C58", "title": "Special arguments of elementary functions", "statement": "NaN in gives NaN out; at infinities the elementary functions give their limits; outside their domain they give NaN; at zero they give exact values; exp overflows only if e^x exceeds max().", "quantifier": "all arguments, all precisions", "why_tests_cant": "The argument classes are infinite and the behaviour must not depend on digits10.", "anchors": ["libs/e_float/src/functions/elementary/elementary_trig.cpp", "libs/e_float/src/functions/elementary/elementary_trans.cpp"]}
{"id": "C59", "title": "Accuracy of exp", "statement": "exp(x) is within a relative error of about 10^-digits10 of e^x, with an error growth linear in |x|, for every finite x of full precision whose exponential is in range.", "quantifier": "all x, all supported digits10", "why_tests_cant": "Infinite domain; tests compare a few arguments with tabulated values.", "anchors": ["libs/e_float/src/functions/elementary/elementary_trans.cpp:exp (117-232)", "libs/e_float/src/functions/elementary/elementary_hyper_g.cpp:hypergeometric_0f0"]}
{"id": "C60", "title": "Mathematical constants", "statement": "sqrt2(), pi(), e(), ln2(), ln10() and phi() differ from the real numbers they are named after by less than one unit in the last of the digits10 digits.", "quantifier": "all supported digits10", "why_tests_cant": "The constants must be right at every configured precision; the literals are compared with nothing in the library.", "anchors": ["libs/e_float/src/functions/constants/constants.cpp:sqrt2, pi, e, ln2, ln10, phi"]}
{"id": "C61", "title": "Accuracy of sine", "statement": "sin(x) is within an absolute error of about 10^-digits10 of the sine of x, the error growing at most linearly in |x| and being relative for small |x|, for every finite x of full precision.", "quantifier": "all finite x, all supported digits10", "why_tests_cant": "Infinite domain; tests compare a few arguments with tabulated values.", "anchors": ["libs/e_float/src/functions/elementary/elementary_trig.cpp:sin (26-134)", "libs/e_float/src/functions/elementary/elementary_hyper_g.cpp:hypergeometric_0f1"]}
{"id": "C62", "title": "Accuracy of cosine", "statement": "cos(x) is within an absolute error of about 10^-digits10 of the cosine of x, the error growing at most linearly in |x|, for every finite x of full precision.", "quantifier": "all finite x, all supported digits10", "why_tests_cant": "Infinite domain; tests compare a few arguments with tabulated values.", "anchors": ["libs/e_float/src/functions/elementary/elementary_trig.cpp:cos (136-245)", "libs/e_float/src/functions/elementary/elementary_hyper_g.cpp:hypergeometric_0f1"]}
{"id": "C63", "title": "Table of Bernoulli numbers", "statement": "bernoulli_table(bn, n) fills bn with B(0), ..., B(n), each with a relative error of about 10^-digits10; no index is out of bounds.", "quantifier": "all n, all supported digits10", "why_tests_cant": "The error of the recurrence accumulates over n/2 passes; tests look at a few n.", "anchors": ["libs/e_float/src/functions/integer/bernoulli_b.cpp:bernoulli_table (70-122)"]}
{"id": "C64", "title": "Complex exp, sine, cosine, tangent and their hyperbolic counterparts", "statement": "Apart from rounding, the exponential, trigonometric and hyperbolic functions of a complex number are the ones defined by Euler's formulas from e^z = e^x (cos y + i sin y); polar(rho, theta) is rho e^(i theta) and polar(abs(z), arg(z)) is z, with arg(z) in (-pi, pi].", "quantifier": "all complex arguments, both versions of the class", "why_tests_cant": "Infinite domain; tests compare a few points with tabulated values.", "anchors": ["e_float/e_float_complex.h (1109-1115, 1167-1196, 1267-1287, 1319-1327, 1684-1707, 1751-1777, 1815-1833, 1866-1890)"]}
{"id": "C65", "title": "Complex logarithm and powers", "statement": "log(z) is the principal value of the logarithm: e^log(z) = z and -pi < Im log(z) <= pi for z other than 0; log10(z) = log(z)/log(10); pow(z, a) = e^(a log z), which is the product of n factors z for a natural number a = n, and pow(z, a+b) = pow(z, a) pow(z, b).", "quantifier": "all complex arguments other than 0, both versions of the class", "why_tests_cant": "Infinite domain; the branch cut is easy to miss in tests.", "anchors": ["e_float/e_float_complex.h (1198-1265, 1779-1813)", "libs/e_float/src/functions/elementary/elementary_trig.cpp:atan2 (475-520)"]}
{"id": "C66", "title": "Complex inverse trigonometric and hyperbolic functions", "statement": "asin, acos, atan, asinh, acosh and atanh of a complex number z give a number whose sine (cosine, ...) is z, in the strip of principal values.", "quantifier": "all complex arguments apart from the poles, both versions of the class", "why_tests_cant": "Infinite domain; branch cuts and branch points are easy to miss in tests.", "anchors": ["e_float/e_float_complex.h (1120-1165, 1709-1749)"]}
{"id": "C67", "title": "Variables are independent values", "statement": "In every program of constructions, copies, moves, swaps, assignments, arithmetic and input, each variable has the value that the statements naming it say, as if it were a plain number: no statement changes a variable it does not name, copies do not share state, and moving or swapping transfers exactly the value.", "quantifier": "all programs that use no moved-from value", "why_tests_cant": "Quantifies over all histories of statements; sharing or stale limbs show up only in particular orders.", "anchors": ["e_float/efx/e_float_efx.cpp (389-413, 986-996)", "e_float/efx/e_float_efx.h (145-157)", "libs/e_float/src/utility/util_dynamic_array.h"]}
{"id": "C68", "title": "Accuracy of the arc tangent", "statement": "atan(x) is within a relative error of about 10^-digits10 of the arc tangent of x for every finite x.", "quantifier": "all finite x, all supported digits10", "why_tests_cant": "Infinite domain; tests compare a few arguments with tabulated values.", "anchors": ["libs/e_float/src/functions/elementary/elementary_trig.cpp:atan (405-473)", "libs/e_float/src/functions/elementary/elementary_hyper_g.cpp:hypergeometric_2f1"]}
{"id": "C69", "title": "atan2 gives the angle of a point", "statement": "atan2(y, x) is the angle of the point (x, y) in the interval (-pi, pi], up to a few units of the last of the digits10 digits, in all four quadrants and on the axes.", "quantifier": "all finite x and y that are not both 0, all supported digits10", "why_tests_cant": "Infinite domain with special cases on the axes and the diagonals.", "anchors": ["libs/e_float/src/functions/elementary/elementary_trig.cpp:atan2 (475-520)"]}
{"id": "C70", "title": "Accuracy of tan, cot, sec and csc", "statement": "tan(x), cot(x), sec(x) and csc(x) have a relative error of about 10^-digits10, magnified by at most the reciprocals of |sin x| and |cos x| near the zeros and poles.", "quantifier": "all finite x, all supported digits10", "why_tests_cant": "Infinite domain; tests compare a few arguments with tabulated values.", "anchors": ["libs/e_float/src/functions/elementary/elementary_trig.cpp:tan, csc, sec, cot"]}
{"id": "C71", "title": "Accuracy of the hyperbolic functions", "statement": "sinh(x), cosh(x) and tanh(x) have a relative error of about 10^-digits10, growing at most linearly in |x|, for every finite x whose exponential is in range.", "quantifier": "all x, all supported digits10", "why_tests_cant": "Infinite domain; tests compare a few arguments with tabulated values.", "anchors": ["libs/e_float/src/functions/elementary/elementary_trans.cpp:sinh, cosh, sinhcosh, tanh (508-581)"]}
{"id": "C72", "title": "Accuracy of log1p and of the logarithm near one", "statement": "log1p(x) has a relative error of about 10^-digits10 however small x is, and log(x) loses no more digits near x = 1 than the subtraction x - 1 does.", "quantifier": "all x > -1 (log1p), all x near 1 (log), all supported digits10", "why_tests_cant": "Infinite domain; cancellation shows up only very close to 1.", "anchors": ["libs/e_float/src/functions/elementary/elementary_trans.cpp:Log_Series::AtOne, log (236-278), log1p (362)", "libs/e_float/src/functions/elementary/elementary_hyper_g.cpp:hypergeometric_2f1"]}
{"id": "C73", "title": "Accuracy of atanh", "statement": "atanh(x) = ln((1 + x)/(1 - x))/2 has a relative error of about 10^-digits10 for every x with |x| < 1, also for tiny x; it is NaN for |x| >= 1.", "quantifier": "all x, all supported digits10", "why_tests_cant": "Infinite domain; tests compare a few arguments with tabulated values.", "anchors": ["libs/e_float/src/functions/elementary/elementary_trans.cpp:log1p1m2 (364-408), atanh (645-668)"]}
{"id": "C74", "title": "Accuracy of asin and acos", "statement": "For |x| < 1 the relative error of asin(x) and the absolute error of acos(x) are about 10^-digits10, magnified by at most the condition 1/sqrt(1 - x^2); acos(1) is 0, acos(-1) is pi, and both functions are NaN for |x| > 1.", "quantifier": "all x, all supported digits10", "why_tests_cant": "Infinite domain; tests compare a few arguments with tabulated values.", "anchors": ["libs/e_float/src/functions/elementary/elementary_trig.cpp:asin (269-349), acos (351-379)", "libs/e_float/src/functions/elementary/elementary_hyper_g.cpp:hypergeometric_2f1"]}
{"id": "C75", "title": "Powers of integers from cached prime powers", "statement": "The internal table-driven power j^x used by the zeta functions gives j^x for every positive 32-bit j, and what is in its tables (prime powers for this x, logarithms of primes for all x) never changes a result: every call in every history returns what it would return with empty tables.", "quantifier": "all j and x, all histories of calls", "why_tests_cant": "Quantifies over histories; a stale or misplaced table entry shows up only for particular sequences of j.", "anchors": ["libs/e_float/src/utility/util_power_j_pow_x.cpp:Util::j_pow_x"]}
{"id": "C76", "title": "The gamma function satisfies its recurrence and reflection", "statement": "gamma(x) is the function with gamma(1) = 1, gamma(x+1) = x gamma(x) and gamma(-x) = -pi/(x gamma(x) sin(pi x)) at every argument that is not a pole, real or complex; at positive integers it is the factorial, at the poles NaN. gamma_near_n(n, x) is gamma(n+x), gamma_plus_minus gives gamma(x) and gamma(-x), and pochhammer(x, n) is the product x(x+1)...(x+n-1).", "quantifier": "all real and complex arguments, all n", "why_tests_cant": "Infinite domain; the number of recurrence steps depends on the argument, tests compare a few values.", "anchors": ["libs/e_float/src/functions/gamma/gamma.cpp", "libs/e_float/src/functions/gamma/gamma_util.cpp", "libs/e_float/src/functions/gamma/pochhammer.cpp"]}
{"id": "C77", "title": "The Riemann zeta function", "statement": "riemann_zeta(s) is 1 + 1/2^s + 1/3^s + ... for s > 1, to about the working precision; zeta(0) is -1/2, zeta(-2m) is 0 and zeta(1-2m) is -B(2m)/(2m); for other negative s it is the value the reflection formula gives from zeta(1-s) and gamma(1-s).", "quantifier": "all integers and all real s, all supported digits10", "why_tests_cant": "Infinite domain with five different methods (tables, closed form, product of primes, accelerated series, reflection); tests compare a few values with tabulated ones.", "anchors": ["libs/e_float/src/functions/zeta/zeta.cpp:riemann_zeta, ZetaTemplate, Reflection", "libs/e_float/src/functions/constants/constants.cpp:pi_squared, two_pi"]}
{"id": "C78", "title": "The generic functions for any number type", "statement": "generic_functions::pown<T>(t, p) is t multiplied p times (its reciprocal for negative p); sqrt<T>(x) and rootn<T>(x, p) are the square root and the p-th root to the number of digits of T; rootn of the built-in types is the root as well, and euler_gamma<T>() is Euler's constant.", "quantifier": "all types T, all t, x and p", "why_tests_cant": "Quantifies over all number types and all arguments; instantiation with e_float uses specialisations, so that tests hardly run the templates.", "anchors": ["libs/e_float/src/generic_functions/elementary/generic_functions_elementary.h:pown, sqrt, rootn", "libs/e_float/src/generic_functions/constants/generic_functions_constants.h:euler_gamma"]}
{"id": "C79", "title": "Accuracy of the logarithm", "statement": "log(x) has an error of about 10^-digits10 relative to ln x for every positive x in range, so that the logarithm to base 10 and to any other base have it as well; log(10) agrees with the constant ln10().", "quantifier": "all positive finite x, all supported digits10", "why_tests_cant": "Infinite domain, and the number and precision of the Newton steps depend on digits10: the loss occurs for some settings of digits10 only, and tests run with one setting.", "anchors": ["libs/e_float/src/functions/elementary/elementary_trans.cpp:log (236-357), log10, loga (359-360)"]}
{"id": "C80", "title": "Cube roots and other roots", "statement": "cbrt(x) = rootn(x, 3) and rootn_inverse(x, 3) have a relative error of about 10^-digits10 for every positive x in range; roots of negative numbers, of infinities and of NaN and the zeroth root are NaN, rootn(x, 1) is x, rootn(x, 2) is sqrt(x), and rootn(x, -p) is rootn(1/x, p).", "quantifier": "all finite x, all p, all supported digits10", "why_tests_cant": "Infinite domain; convergence of the Newton iteration at increasing precision cannot be seen from samples, and it depends on digits10.", "anchors": ["libs/e_float/src/functions/elementary/elementary_trans.cpp:rootn_inv (35-81), cbrt, rootn, rootn_inverse (83-155)"]}
