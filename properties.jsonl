{"id": "C01", "title": "Bit encodings round-trip", "statement": "For every IEEE-style format (Half, Single, Double, Quad, BFloat, Float8E5M2, Float8E4M3FN), T::from_bits(b).to_bits() == b for every bit pattern b of the format's width, and from_bits ignores bits above the width. For the x87 80-bit format the same holds for every supported encoding; pseudo-denormals come back as the equal normal encoding and unnormals / pseudo-infinities / pseudo-NaNs are all read as NaN.", "quantifier": "every bit pattern of every format", "why_tests_cant": "2^128 patterns for Quad; tests sample a handful", "anchors": ["src/ieee.rs: Semantics::from_bits, Semantics::to_bits, X87DoubleExtendedS::from_bits/to_bits"]}
{"id": "C02", "title": "Values survive an encode/decode cycle", "statement": "For every value x that the API can produce in a built-in format, T::from_bits(x.to_bits()) is bitwise-equal to x (same category, sign, exponent and significand, including NaN payload), and to_bits fits in the format's width. bitwise_eq(x,y) holds exactly when x.to_bits() == y.to_bits().", "quantifier": "every reachable value of every built-in format", "why_tests_cant": "value space is astronomically large", "anchors": ["src/ieee.rs: to_bits, from_bits, bitwise_eq"]}
{"id": "C03", "title": "The decoded bit pattern denotes the IEEE 754 value", "statement": "from_bits(b) has exactly the sign, category and real value that IEEE 754 assigns to the pattern: biased exponent field 0 is zero/subnormal, all-ones is infinity/NaN (NaN only for the all-ones pattern in Float8E4M3FN), otherwise 1.f * 2^(e-bias).", "quantifier": "every bit pattern of every format", "why_tests_cant": "needs every encoding, not samples", "anchors": ["src/ieee.rs: Semantics::from_bits, MAX_EXP, MIN_EXP, NAN_SIGNIFICAND_BASE, NAN_PAYLOAD_MASK"]}
{"id": "C04", "title": "Addition is correctly rounded", "statement": "For all finite x, y and every rounding mode, x.add_r(y, round) returns the exact real sum rounded once to the format in that mode (round-to-nearest-even/away, toward +inf/-inf/zero), overflowing to infinity or the largest finite number as the mode prescribes.", "quantifier": "all pairs of finite values, all five rounding modes, every format", "why_tests_cant": "quadratic in 2^64+ inputs", "anchors": ["src/ieee.rs: add_r, normalize, sig::add_or_sub"]}
{"id": "C05", "title": "Subtraction is correctly rounded", "statement": "For all finite x, y and every rounding mode, x.sub_r(y, round) returns the exact real difference rounded once to the format, i.e. it agrees with x.add_r(-y, round) on all non-NaN inputs.", "quantifier": "all pairs of finite values, all rounding modes, every format", "why_tests_cant": "quadratic input space", "anchors": ["src/ieee.rs: sub_r", "src/lib.rs: sub_r"]}
{"id": "C06", "title": "Multiplication is correctly rounded", "statement": "For all finite x, y and every rounding mode, x.mul_r(y, round) returns the exact real product rounded once to the format; the sign is the xor of the operand signs even for zero results.", "quantifier": "all pairs of finite values, all rounding modes, every format", "why_tests_cant": "quadratic input space", "anchors": ["src/ieee.rs: mul_r, sig::mul, sig::widening_mul"]}
{"id": "C07", "title": "Division is correctly rounded", "statement": "For all finite x and finite non-zero y and every rounding mode, x.div_r(y, round) returns the exact real quotient rounded once to the format, whichever of the short-division and long-division code paths is taken.", "quantifier": "all pairs of finite values with non-zero divisor, all rounding modes, every format", "why_tests_cant": "quadratic input space and four separate division code paths", "anchors": ["src/ieee.rs: div_r, sig::div, sig::each_chunk"]}
{"id": "C08", "title": "Fused multiply-add rounds once", "statement": "For all finite x, y, z and every rounding mode, x.mul_add_r(y, z, round) returns the exact real x*y+z rounded once to the format.", "quantifier": "all triples of finite values, all rounding modes, every format", "why_tests_cant": "cubic input space; failures sit in subnormal corner cases", "anchors": ["src/ieee.rs: mul_add_r, sig::add_or_sub"]}
{"id": "C09", "title": "Exception status is exact", "statement": "For add, sub, mul, div, fma, integer-to-float and float-to-float conversion of finite inputs: status is OK exactly when the delivered result equals the exact result; otherwise it contains INEXACT; UNDERFLOW is added exactly when an inexact result is subnormal or zero after rounding; OVERFLOW is added exactly when the rounded result exceeds the largest finite number and the mode delivers infinity. UNDERFLOW and OVERFLOW never appear without INEXACT.", "quantifier": "all finite inputs, all rounding modes, every format", "why_tests_cant": "flags depend on the relation between exact and rounded results for every input", "anchors": ["src/lib.rs: Status", "src/ieee.rs: normalize, overflow_result"]}
{"id": "C10", "title": "Special-operand table of the arithmetic operations", "statement": "Infinities and zeros follow IEEE 754: inf-inf, 0*inf, inf/inf, 0/0, fmod/remainder of infinity or by zero return a quiet NaN with INVALID_OP; x/0 returns a correctly signed infinity with DIV_BY_ZERO; all other operations involving infinities are exact with status OK and correctly signed.", "quantifier": "all operand pairs where at least one is infinite or zero, all rounding modes", "why_tests_cant": "operand and mode combinations are universally quantified", "anchors": ["src/ieee.rs: add_r, mul_r, div_r, c_fmod, ieee_rem"]}
{"id": "C11", "title": "NaN propagation and quieting", "statement": "When an operand is NaN the result is the first NaN operand with its sign and payload kept and the quiet bit set; status is INVALID_OP exactly when one of the operands is signaling and OK otherwise. The result of an operation on a signaling NaN is never signaling.", "quantifier": "all operand pairs with at least one NaN, every payload, every format", "why_tests_cant": "2^51 payloads per operand", "anchors": ["src/ieee.rs: IeeeDefaultExceptionHandling::result_from_nan, binop_result_from_either_nan"]}
{"id": "C12", "title": "Sign of exact zero results", "statement": "A sum or difference of finite operands that is exactly zero is +0, except -0 in round-toward-negative, and except that the sum of two like-signed zeros keeps that sign.", "quantifier": "all finite operand pairs with zero exact sum, all rounding modes", "why_tests_cant": "universal over pairs and modes", "anchors": ["src/ieee.rs: add_r, mul_add_r"]}
{"id": "C13", "title": "Comparison agrees with the real order", "statement": "partial_cmp(x,y) is None exactly when an operand is NaN; otherwise it is the order of the extended real values, with -0 == +0. Consequently it is a total preorder on non-NaN values and == is IEEE equality.", "quantifier": "all pairs of values", "why_tests_cant": "quadratic input space", "anchors": ["src/ieee.rs: partial_cmp, cmp_abs_normal"]}
{"id": "C14", "title": "next_up/next_down are the neighbours", "statement": "For every finite x (and the infinities), next_up(x) is the least representable value strictly greater than x (or +inf; NaN on the NaN-only format), with status OK; next_down is its mirror image; next_down(next_up(x)) is numerically x whenever next_up(x) is finite.", "quantifier": "every value of every format", "why_tests_cant": "binade boundaries for every exponent", "anchors": ["src/ieee.rs: next_up", "src/lib.rs: next_down"]}
{"id": "C15", "title": "Integer-to-float conversion is correctly rounded", "statement": "from_u128_r(n, round) and from_i128_r(n, round) return n rounded once to the format in the given mode, for every 128-bit n including i128::MIN.", "quantifier": "every u128/i128, all rounding modes, every format", "why_tests_cant": "2^128 inputs", "anchors": ["src/ieee.rs: from_u128_r", "src/lib.rs: from_i128_r"]}
{"id": "C16", "title": "Float-to-integer conversion rounds and saturates", "statement": "to_u128_r(width, round) / to_i128_r(width, round) of a finite x return x rounded to an integer in the given mode when that integer fits in width bits (status OK if x was that integer, else INEXACT); otherwise the nearest representable bound with INVALID_OP; NaN gives 0 with INVALID_OP. is_exact is true exactly when the result converts back to x.", "quantifier": "every value, every width from 1 to 128, every rounding mode", "why_tests_cant": "three-dimensional unbounded domain", "anchors": ["src/ieee.rs: to_u128_r", "src/lib.rs: to_i128_r, to_i128, to_u128"]}
{"id": "C17", "title": "round_to_integral is correctly rounded", "statement": "round_to_integral(x, round) returns the integer x rounds to in the given mode, keeps the sign of x (also for zero results), and reports INEXACT exactly when x was not an integer.", "quantifier": "every value, every rounding mode, every format", "why_tests_cant": "unbounded domain; correctness relies on a magic-constant addition", "anchors": ["src/ieee.rs: round_to_integral", "src/lib.rs: is_integer"]}
{"id": "C18", "title": "c_fmod is the exact truncated remainder and terminates", "statement": "For finite x and finite non-zero y, c_fmod(x,y) terminates without panicking and returns exactly x - trunc(x/y)*y with status OK; the result has the sign of x and magnitude less than |y|.", "quantifier": "all pairs of finite values", "why_tests_cant": "the loop may run tens of thousands of times; termination is universal", "anchors": ["src/ieee.rs: c_fmod"]}
{"id": "C19", "title": "ieee_rem is the exact IEEE remainder", "statement": "For finite x and finite non-zero y, ieee_rem(x,y) returns exactly x - n*y with n the integer nearest x/y (ties to even), status OK, zero results signed like x.", "quantifier": "all pairs of finite values", "why_tests_cant": "tie handling near the overflow threshold for all pairs", "anchors": ["src/ieee.rs: ieee_rem"]}
{"id": "C20", "title": "Float-to-float conversion is correctly rounded", "statement": "For any source and target formats and finite x, convert_r(round) returns x rounded once to the target format with the status of C09; infinities and zeros keep their sign (infinity becomes NaN in NaN-only targets).", "quantifier": "all values, all format pairs, all rounding modes", "why_tests_cant": "format pairs x values x modes", "anchors": ["src/ieee.rs: FloatConvert::convert_r"]}
{"id": "C21", "title": "loses_info is exact", "statement": "After convert_r of a non-NaN value, loses_info is false exactly when the result has the same value as the input; in particular widening never loses information and converting back yields the original value.", "quantifier": "all values and format pairs", "why_tests_cant": "universal round-trip", "anchors": ["src/ieee.rs: FloatConvert::convert_r", "src/lib.rs: FloatConvert"]}
{"id": "C22", "title": "scalbn multiplies by a power of two", "statement": "scalbn_r(x, n, round) equals x * 2^n rounded once to the format for every i32 n (including values far outside the exponent range, where the internal clamp must not change the result).", "quantifier": "every value, every i32 exponent, every rounding mode", "why_tests_cant": "2^32 exponents per value", "anchors": ["src/ieee.rs: scalbn_r"]}
{"id": "C23", "title": "ilogb and frexp decompose values", "statement": "For finite non-zero x, ilogb(x) is floor(log2|x|), including subnormals; frexp(x) returns a fraction f with 0.5 <= |f| < 1 and exponent e with f * 2^e == x exactly. Zero, infinities and NaNs give the documented codes.", "quantifier": "every value of every format", "why_tests_cant": "universal", "anchors": ["src/ieee.rs: ilogb, frexp_r"]}
{"id": "C24", "title": "get_exact_inverse is exact", "statement": "get_exact_inverse(x) returns Some(y) only if x*y == 1 exactly and y is normal; and it returns Some whenever |x| is a power of two with a normal significand whose reciprocal is a normal number of the format.", "quantifier": "every value", "why_tests_cant": "both directions are universal", "anchors": ["src/ieee.rs: get_exact_inverse"]}
{"id": "C25", "title": "Sign operations touch only the sign", "statement": "Negation, abs and copy_sign change nothing but the sign bit of the encoding (also for NaN), negation is an involution, and abs/copy_sign deliver the stated sign.", "quantifier": "every value", "why_tests_cant": "universal", "anchors": ["src/ieee.rs: Neg", "src/lib.rs: abs, copy_sign"]}
{"id": "C26", "title": "min/max/minimum/maximum", "statement": "min/max return the smaller/larger operand and the other operand if one is NaN; minimum/maximum propagate NaN and order -0 below +0. The result is always one of the operands.", "quantifier": "all pairs of values", "why_tests_cant": "quadratic input space", "anchors": ["src/lib.rs: min, max, minimum, maximum"]}
{"id": "C27", "title": "Classification predicates match magnitude", "statement": "is_denormal is true exactly for finite non-zero |x| < 2^MIN_EXP, is_normal exactly for finite |x| >= 2^MIN_EXP; exactly one of zero/denormal/normal/infinite/NaN holds; is_smallest/is_smallest_normalized/is_largest are true exactly for the extreme magnitudes; largest()/SMALLEST bound all finite non-zero magnitudes.", "quantifier": "every value", "why_tests_cant": "universal bound", "anchors": ["src/lib.rs: is_normal, is_finite, is_smallest, is_largest", "src/ieee.rs: is_denormal, largest, SMALLEST"]}
{"id": "C28", "title": "No operation panics or overflows its machine integers", "statement": "On values obtained from the API no arithmetic, comparison, conversion or classification operation panics: none of the internal assertions, unwraps, i32/usize/u128 overflow checks, shift-amount checks or index checks can fail.", "quantifier": "all values, all rounding modes, every format", "why_tests_cant": "absence of panics over all inputs", "anchors": ["src/ieee.rs: normalize, sig::*, add_r, mul_r, mul_add_r, div_r"]}
{"id": "C29", "title": "Operations are closed over well-formed values", "statement": "Every operation applied to values obtained from the API yields a value in canonical form (normalized significand or minimal exponent, in range, never the NaN pattern of a NaN-only format), so encodings and comparisons remain meaningful after any sequence of operations.", "quantifier": "every finite sequence of operations", "why_tests_cant": "sequences are unbounded", "anchors": ["src/ieee.rs: normalize, HACK comments on read_only_category_do_not_mutate"]}
{"id": "C30", "title": "Algebraic symmetries", "statement": "add and mul are commutative in value and status for non-NaN operands; -(x op y) in mode r equals (-x) op y (mul/div) in mode -r; rounding is monotone: x<=x' implies x+y <= x'+y in the same mode.", "quantifier": "all operands and modes", "why_tests_cant": "universal algebraic laws", "anchors": ["src/ieee.rs: add_r, mul_r, div_r", "src/lib.rs: Neg for Round"]}
{"id": "C31", "title": "Hexadecimal strings parse to the correctly rounded value", "statement": "from_str_r of a syntactically valid hexadecimal literal of any length returns the exact value it denotes rounded once in the given mode (exponents of any size).", "quantifier": "all hexadecimal literals of any length, all modes, every format", "why_tests_cant": "unbounded strings", "anchors": ["src/ieee.rs: from_hexadecimal_string"]}
{"id": "C32", "title": "Decimal strings parse to the correctly rounded value", "statement": "from_str_r of a syntactically valid decimal literal of any length returns the exact value it denotes rounded once in the given mode, and the precision-increasing loop terminates.", "quantifier": "all decimal literals of any length, all modes, every format", "why_tests_cant": "unbounded strings; hard cases are arbitrarily close to ties", "anchors": ["src/ieee.rs: from_decimal_string"]}
{"id": "C33", "title": "String syntax is accepted and rejected as documented", "statement": "from_str_r returns Err for exactly the strings outside the grammar (empty, no digits, two dots, bad characters, hex without exponent, ...) and never panics on any string.", "quantifier": "all strings", "why_tests_cant": "all inputs, including adversarial ones", "anchors": ["src/ieee.rs: from_str_r, from_hexadecimal_string, from_decimal_string"]}
{"id": "C34", "title": "Printing and re-parsing is lossless", "statement": "Formatting any finite value with the default precision and parsing the result with round-to-nearest gives back the same value; the printed string is always accepted by the parser.", "quantifier": "every value of every format", "why_tests_cant": "2^64+ values", "anchors": ["src/ieee.rs: fmt::Display, from_str_r"]}
{"id": "C35", "title": "Printed decimals denote the value to the requested precision", "statement": "With precision P the printed decimal has at most P significant digits and lies within one unit of its last printed digit of the exact value; fewer digits are printed only when trailing digits are zero.", "quantifier": "every value, every precision and width", "why_tests_cant": "universal numeric bound", "anchors": ["src/ieee.rs: fmt::Display"]}
{"id": "C36", "title": "Bignum layer computes integer arithmetic", "statement": "Every multi-limb primitive (shift, add, sub, increment, compare, multiply, divide, extract, one-based msb/lsb, truncation loss) agrees with unbounded integer arithmetic on the numbers its limb slices denote, for any number of limbs.", "quantifier": "all limb vectors of any length", "why_tests_cant": "carry chains of any length", "anchors": ["src/ieee.rs: mod sig, Loss::through_truncation, Loss::combine"]}
{"id": "C37", "title": "Double-double bits round-trip and special values", "statement": "DoubleDouble::from_bits(b).to_bits() == b for every 128-bit b; negation, category and sign are those of the high half.", "quantifier": "every 128-bit pattern", "why_tests_cant": "2^128 inputs", "anchors": ["src/ppc.rs: from_bits, to_bits, Neg, category"]}
{"id": "C38", "title": "Double-double special-operand behaviour", "statement": "Adding/multiplying DoubleDouble values with NaN, infinite or zero operands yields the documented category and sign.", "quantifier": "all operand pairs with a special operand", "why_tests_cant": "quadratic input space", "anchors": ["src/ppc.rs: add_r, mul_r"]}
{"id": "C39", "title": "Widening then narrowing is the identity", "statement": "Converting a value to a format with at least the precision and exponent range of its own and back gives a bitwise-equal value (for NaNs up to quieting) with loses_info false both ways.", "quantifier": "all values, all such format pairs", "why_tests_cant": "universal round-trip", "anchors": ["src/ieee.rs: convert_r"]}
{"id": "C40", "title": "Integer round trips", "statement": "If an integer n is exactly representable then to_i128/to_u128(from_i128/from_u128(n)) == n with OK status at any width that holds n; every finite x whose value is an in-range integer survives x -> int -> float.", "quantifier": "all integers and values", "why_tests_cant": "universal round-trip", "anchors": ["src/ieee.rs: from_u128_r, to_u128_r", "src/lib.rs: from_i128_r, to_i128_r"]}
{"id": "C41", "title": "Subtraction of nearby values is exact", "statement": "If y/2 <= x <= 2y (Sterbenz), x.sub_r(y, round) returns exactly x - y with status OK in every rounding mode and every format, subnormals included.", "quantifier": "all such pairs, all modes, every format", "why_tests_cant": "quadratic input space", "anchors": ["src/ieee.rs: add_or_sub via sub_r"]}
{"id": "C42", "title": "Arithmetic identities", "statement": "x - x is zero with the sign the mode prescribes; x * 1, x / 1, x + 0 (x non-zero) give back x bit for bit with status OK; x / x is exactly 1; mul_add(x, y, 0) equals mul(x, y) in value, sign and status when x, y are non-zero.", "quantifier": "all values, all modes, every format", "why_tests_cant": "universal identities", "anchors": ["src/ieee.rs: add_r, sub_r, mul_r, div_r, mul_add_r"]}
{"id": "C43", "title": "Correct rounding in every format with infinities", "statement": "In every format whose non-finite behaviour is IEEE 754 (all but Float8E4M3FN), add, sub, mul, div, scalbn and conversion from any other format deliver the exact result rounded once in the requested mode, including overflow, underflow, the sign of zero, and the status.", "quantifier": "all finite inputs, all rounding modes, all formats with infinities", "why_tests_cant": "input space", "anchors": ["src/ieee.rs: add_r, sub_r, mul_r, div_r, scalbn_r, convert_r"]}
{"id": "C44", "title": "Overflow of the NaN-only format follows one fixed rule", "statement": "In every format, the NaN-only one included, results are those of correct rounding except that when an inexact result exceeds the largest finite value, the choice between NaN/infinity and the largest finite value is the one stated by crate_to_infinity: IEEE 754's, except that in a NaN-only format it is swapped for negative results of magnitude below 2^(MAX_EXP+1) in the two directed modes toward an infinity.", "quantifier": "all finite inputs, all rounding modes, every format", "why_tests_cant": "input space", "anchors": ["src/ieee.rs: overflow_result, normalize"]}
{"id": "C45", "title": "NaN constructors", "statement": "qnan(payload) is a positive quiet NaN and snan(payload) a positive signaling NaN (in formats that have signaling NaNs) of canonical form for every payload; both carry the low PRECISION-2 bits of the payload, except that an all-zero signaling payload is replaced by a fixed non-zero one so that it does not read as infinity.", "quantifier": "all payloads, every format", "why_tests_cant": "2^128 payloads", "anchors": ["src/ieee.rs: qnan, snan"]}
{"id": "C46", "title": "Double-double operations through the double-width format", "statement": "Splitting a 106-bit number into a pair is exact and canonical. Division, remainders, fused multiply-add, rounding to an integer, neighbours and integer conversions of DoubleDouble values deliver the result of the corresponding correctly rounded 106-bit operation on the operands rounded to 106 bits, split exactly; they panic exactly when that result cannot be split (it lies above the largest pair, or is a signaling NaN).", "quantifier": "all canonical pairs, infinities and quiet NaNs, all modes, any base format", "why_tests_cant": "input space", "anchors": ["src/ppc.rs: From<Fallback>, From<DoubleFloat>, div_r, c_fmod, ieee_rem, mul_add_r, round_to_integral, next_up, to_u128_r, from_u128_r, get_exact_inverse"]}
{"id": "C47", "title": "Double-double order", "statement": "On canonical pairs, infinities and NaNs, partial_cmp and the comparison operators agree with the order of the exact sums of the halves (NaN unordered, zeros equal); min, max, minimum, maximum return one of their arguments that is extremal, with their respective treatment of NaNs and zeros.", "quantifier": "all such operand pairs", "why_tests_cant": "quadratic input space", "anchors": ["src/ppc.rs: PartialOrd, cmp_abs_normal", "src/lib.rs: min, max, minimum, maximum"]}
{"id": "C48", "title": "Double-double classification and scaling", "statement": "is_integer tells whether the exact sum is an integer; is_denormal is true exactly when the high half is subnormal or the pair is not canonical; scalbn scales both halves with one rounding each, exactly if both results are representable; ilogb and frexp follow the high half; the predicates for zeros, infinities, NaNs and normal values agree with the number denoted.", "quantifier": "all pairs, all exponents", "why_tests_cant": "input space", "anchors": ["src/ppc.rs: is_integer, is_denormal, scalbn_r, ilogb, frexp_r"]}
{"id": "C49", "title": "Double-double literals", "statement": "A hexadecimal literal becomes the 106-bit number nearest in the requested mode, split exactly; a decimal literal likewise in the nearest modes; texts outside the grammar are errors.", "quantifier": "all strings", "why_tests_cant": "unbounded input", "anchors": ["src/ppc.rs: from_str_r"]}
{"id": "C50", "title": "Double-double printing", "statement": "Display of a DoubleDouble prints the pair's value rounded to 106 bits, with the layouts and the error bound of C35; pairs that are 106-bit numbers are read back exactly by the parser.", "quantifier": "all canonical pairs, infinities and quiet NaNs, every width and precision", "why_tests_cant": "input space", "anchors": ["src/ppc.rs: Display, from_str_r"]}
{"id": "C51", "title": "Double-double sums", "statement": "In the nearest modes the sum and the difference of two canonical pairs whose high halves add up in magnitude to at most 2^(MAX_EXP-4) are finite pairs (canonical for ties-to-even) within 2^(2-2p) times that magnitude of the exact result; sums of two half-format numbers are exact; a number minus itself is +0.", "quantifier": "all canonical pairs in the range, both nearest modes", "why_tests_cant": "error bounds need the exactness of TwoSum and FastTwoSum for every input", "anchors": ["src/ppc.rs: add_r, sub_r"]}
{"id": "C52", "title": "Double-double products", "statement": "In the nearest modes the product of two canonical pairs, with the product of the high halves between 2^(MIN_EXP+2p+1) and 2^(MAX_EXP-4), is a finite pair (canonical for ties-to-even) within 2^(3-2p) of the exact product, relative to the high halves; products of two half-format numbers are exact.", "quantifier": "all canonical pairs in the range, both nearest modes", "why_tests_cant": "input space", "anchors": ["src/ppc.rs: mul_r"]}
{"id": "C53", "title": "Operators and methods with a default rounding mode", "statement": "In every format +, -, *, / deliver the exact result rounded to nearest, ties to even, with the IEEE flags, and % the truncated remainder; the assignment forms store the same value; mul_add, from_i128, from_u128, scalbn, convert and FromStr round to nearest, ties to even, to_i128 and to_u128 toward zero; frexp splits exactly; default is +0; unwrap of a sum, a product or a conversion returns the exact result if it is representable and panics otherwise. The operators of DoubleDouble do what C46, C49, C51 and C52 say in that mode.", "quantifier": "all finite operands, every format", "why_tests_cant": "quadratic input space", "anchors": ["src/lib.rs: float_common_impls, StatusAnd::unwrap, mul_add, from_i128, to_i128, to_u128, frexp, convert"]}
{"id": "C54", "title": "Debug tells all values apart", "statement": "The Debug text of a value begins with its Display text, and two values of one format have the same Debug text only if significand, exponent, category and sign agree, NaN payloads included. The same holds of the two halves of a DoubleDouble.", "quantifier": "all pairs of values, every format", "why_tests_cant": "quadratic input space", "anchors": ["src/ieee.rs: Debug"]}
{"id": "C55", "title": "Computing in a wider format and converting back", "statement": "Converting finite operands to a format of more than twice the precision and sufficient range, adding, subtracting, multiplying or dividing there and converting back, all in one rounding mode, gives the same float as the operation in the narrow format (rounding twice is harmless), and the narrow operation is exact if and only if both steps are; remainders agree through any format that contains the narrow one.", "quantifier": "all finite operands, all modes in formats with infinities, nearest and TowardZero otherwise; all pairs of formats with the stated precision and range", "why_tests_cant": "quadratic input space; the crate's own test does it for all pairs of one eight-bit format", "anchors": ["src/ieee.rs: add_r, sub_r, mul_r, div_r, c_fmod, ieee_rem, convert_r"]}
{"id": "C56", "title": "Encodings are ordered like the numbers", "statement": "Reading the encoding of a value as sign and magnitude, the order of the integers obtained is the order of the values (NaNs aside, +0 and -0 both reading as 0), and next_up and next_down move to the encoding whose reading is one larger or smaller, across zero, the subnormal boundary, powers of two and up to infinity (in the NaN-only format up to the NaN). In the x87 format the order agrees too, but encodings are skipped.", "quantifier": "all pairs of values of the seven interchange formats and x87", "why_tests_cant": "quadratic input space", "anchors": ["src/ieee.rs: to_bits, next_up, next_down, partial_cmp"]}
{"id": "C57", "title": "Error-free transformations", "statement": "In the nearest modes the sequences of Dekker (larger operand first) and Knuth (any order) return the rounded sum and the exact rounding error. In every mode the error of a product that does not underflow is what mul_add returns for the operands and the negated product, with no flag; likewise the remainder of a rounded quotient.", "quantifier": "all formats and operands, sums in range (Knuth: below 2^(MAX_EXP-4)), products at least 2^(MIN_EXP+PRECISION), quotients normal", "why_tests_cant": "several operations have to be right to the last bit on the same operands", "anchors": ["src/ieee.rs: add_r, sub_r, mul_r, div_r, mul_add_r"]}
{"id": "C58", "title": "Directed modes enclose the exact result", "statement": "Computing toward minus infinity and toward plus infinity encloses the exact result: both bounds are the result, with no flag, if it is representable, and otherwise they are adjacent values (infinities included) with a flag raised.", "quantifier": "add, sub, mul, div, mul_add (under fma_safe), from_i128, convert; all formats with infinities, all finite operands", "why_tests_cant": "exact reals are needed to state it", "anchors": ["src/ieee.rs: add_r, sub_r, mul_r, div_r, mul_add_r, from_i128_r, convert_r"]}
{"id": "C59", "title": "Agreement with Flocq's executable arithmetic", "statement": "Up to the payload of NaNs the floats of a format with IEEE infinities are the binary floating-point numbers of the Flocq library with its precision and exponent range, one for one; add, sub, mul, div, mul_add, negation, abs, comparison, scalbn, round_to_integral, next_up, next_down, frexp, conversion from integers and between formats return what Flocq's independently written and verified functions (Bplus, Bminus, Bmult, Bdiv, Bfma, Bopp, Babs, Bcompare, Bldexp, Bnearbyint, Bsucc, Bpred, Bfrexp, binary_normalize) return.", "quantifier": "all operands, zeros, infinities and NaNs included, all rounding modes, the seven formats with infinities", "why_tests_cant": "a differential test against another implementation samples the operands", "anchors": ["src/ieee.rs: add_r, sub_r, mul_r, div_r, mul_add_r, scalbn_r, round_to_integral, next_up, next_down, frexp, from_u128_r, from_i128_r, convert_r, partial_cmp"]}
{"id": "C60", "title": "Bit patterns of binary32 and binary64", "statement": "Decoding two bit patterns, neither a signaling NaN, operating and encoding the result gives, bit for bit and with NaN signs and payloads, the pattern computed by Flocq's b32_* and b64_* functions for addition, subtraction, multiplication and division; comparison agrees for all patterns; mul_add agrees bit for bit if the result is not a NaN.", "quantifier": "all pairs (triples) of 32-bit and 64-bit patterns, all modes", "why_tests_cant": "2^128 pairs of patterns", "anchors": ["src/ieee.rs: from_bits, to_bits, add_r, sub_r, mul_r, div_r, mul_add_r, partial_cmp"]}
{"id": "C61", "title": "Sequences of operations on DoubleDouble", "statement": "Whatever sequence of operations produced it, both halves of a DoubleDouble are canonical values of the half format. Sums, differences, scalbn, frexp, ilogb, comparisons and predicates never panic; products do not unless the product of the high halves is below the smallest normal number and its rounding error below 2^(MIN_EXP-2*PRECISION); the operations that go through the double-width format return a pair or panic, and do panic on signaling NaNs. No operation loops forever.", "quantifier": "all finite operation sequences, all pairs (canonical or not), all modes", "why_tests_cant": "an induction over sequences; pairs of 2^128 patterns", "anchors": ["src/ppc.rs: add_r, mul_r, mul_add_r, div_r, ieee_rem, c_fmod, round_to_integral, next_up, from_bits, from_u128_r, from_str_r, scalbn_r, frexp_r, get_exact_inverse"]}
{"id": "C62", "title": "Status of sums and products of DoubleDouble", "statement": "The status of a sum, difference or product of two canonical pairs is OK exactly if the pair returned is the exact result. (False both ways; what an OK status does imply is: a sum is exact or is the rounded sum of the high halves with an empty low half; a product is exact up to the product of the two low halves.)", "quantifier": "all pairs of canonical pairs, all modes", "why_tests_cant": "a test would have to know the exact results", "anchors": ["src/ppc.rs: add_r, mul_r"]}
{"id": "C63", "title": "Sums and products of DoubleDouble in every rounding mode", "statement": "In every rounding mode, if the second half of each operand is at most one unit in the last place of its first half, then so is that of the sum, difference and product; sums and differences are within 42*2^(-2p) of the exact result relative to the magnitudes of the first halves added, products within 40*2^(-2p) relative to the product of the first halves. The directed modes do not bound the exact result from their side (witnesses), and directed results need not be canonical (witness).", "quantifier": "all rounding modes, all such pairs of a half format with p >= 5 bits; first halves with magnitudes adding to at most 2^(MAX_EXP-4), products of first halves between 2^(MIN_EXP+2p+1) and 2^(MAX_EXP-4)", "why_tests_cant": "error bounds over pairs of 128-bit operands; the error-free transformations the code is built on are no longer error-free in directed modes", "anchors": ["src/ppc.rs: add_r, sub_r, mul_r"]}
{"id": "C64", "title": "The text Display prints is determined by the number, the width and the precision", "statement": "Let N*10^e be the exact decimal expansion of the number's magnitude (e <= 0, no needless trailing zeros) and B the bit length of N. The code drops floor((B - ceil(196P/59))*59/196) digits if that is positive. If at most P digits are left these are printed; otherwise the number rounded to P digits, ties away from zero. Trailing zeros are removed and the digits laid out in one of four ways. No other text is printed.", "quantifier": "all nonzero numbers of every format and all canonical pairs, every width, both forms, precisions 1 to (2^64-59)/196 (0 and larger ones: C35)", "why_tests_cant": "tests fix a few texts; which digits are cut and which are rounded depends on the bit length of a number of up to thousands of bits", "anchors": ["src/ieee.rs: fmt::Display", "src/ppc.rs: fmt::Display"]}
{"id": "C65", "title": "Products of DoubleDouble down to and below the smallest normal number", "statement": "In every rounding mode, if the product of the first halves is at least the smallest normal number the product is returned, its second half at most one unit in the last place of its first (the pair canonical if rounding to nearest-even), within 40*2^(-2p) relative plus 4 times the smallest positive number. If it is smaller, the product panics or is a single number, its second half zero, within 5 times the smallest positive number of the exact product.", "quantifier": "all rounding modes, all pairs whose second half is at most a unit in the last place of the first, half formats with p >= 5 bits; products of first halves up to 2^(MAX_EXP-4)", "why_tests_cant": "the error-free product the code relies on is not error-free here, and the failing range is a vanishing fraction of the operands", "anchors": ["src/ppc.rs: mul_r"]}
{"id": "C66", "title": "Sums and products of DoubleDouble up to overflow", "statement": "Rounding to nearest, the sum or difference of any two canonical pairs is either a finite pair, its second half at most 2^-p of the first (the pair canonical for ties to even), within 2^(2-2p) of the exact result relative to the magnitudes of the first halves, or the infinity of the exact result's sign with second half +0, and then the exact result is at least the largest number in magnitude; except that it is NaN, with INVALID_OP, exactly if the second operand's first half is the largest number (or its negative), the first one's has the other sign, and their sum is a tie that rounds away from zero by half the distance of the largest numbers. A product of first halves of at least 2^(MIN_EXP+2p+1) is finite and within 2^(3-2p), or infinite, and then the exact product is at least (1-2^(1-p)) times the largest number; it is never NaN.", "quantifier": "both nearest modes, all canonical pairs of half formats with p >= 5 bits, no upper bound", "why_tests_cant": "the branch of the addition that recovers from an overflow of the high halves is reached by a 2^-10 fraction of operands, the NaN by far fewer", "anchors": ["src/ppc.rs: add_r, sub_r, mul_r"]}
{"id": "C67", "title": "Operations a compiler may replace by others", "statement": "Same status and same bits: division by y and multiplication by the reciprocal get_exact_inverse returns for y; multiplication by two and adding a number to itself; multiplication (or division) by minus one and negation with status OK; mul_add with factor one and addition, infinities of opposite sign included. scalbn by n returns the bits of the product with 2^n if that is a number of the format. A difference of finite numbers is zero exactly if they are equal, and otherwise has the sign of the exact difference.", "quantifier": "all formats, all operands (no NaN times or over minus one), all modes", "why_tests_cant": "pairs and triples of operands of up to 128 bits; the rules are about subnormal results, overflow and NaNs, the places where replacing operations goes wrong", "anchors": ["src/ieee.rs: div_r, mul_r, get_exact_inverse, add_r, sub_r, mul_add_r, scalbn_r, neg"]}
{"id": "C68", "title": "Laws of DoubleDouble sums and products", "statement": "Exchanging the factors of a product of finite non-zero pairs changes nothing: same status and same bits, or both calls panic; sums and products of operands of different categories do not depend on their order either. Negating both operands of a sum or difference negates both halves of the result and keeps the status, infinities and NaNs included, in the modes that treat both signs alike; negating one factor and mirroring the mode does so for products of finite non-zero pairs (or both panic). x - x is a pair of zeros with status OK in every mode, x * 1 has the halves of x when rounding ties to even. (Sums are not commutative: C51.)", "quantifier": "all half formats, all pairs (finite second half), all modes not excluded", "why_tests_cant": "ten roundings in a row, each with its own status; the laws hold or fail depending on the last bits and on signs of intermediate zeros", "anchors": ["src/ppc.rs: add_r, mul_r, sub_r, neg"]}
{"id": "C69", "title": "Whole programs against Flocq", "statement": "A program over registers holding numbers of the seven IEEE-like formats (set from an i128, add, subtract, multiply, divide, negate, abs, scalbn, round to integral, next up/down, convert, branch on the outcome of a comparison), run for any number of steps with the crate and with Flocq's operations from equal states, reaches equal states: the same place in the program, the same numbers in all registers (NaNs by category). The crate side never panics and stops when the other one stops. Consequently payloads and signs of NaNs never influence a number or a branch.", "quantifier": "all programs, all initial states, all numbers of steps, all modes", "why_tests_cant": "programs are unbounded; one wrong bit in one operation on some reachable operand would eventually flip a branch", "anchors": ["src/ieee.rs: add_r, sub_r, mul_r, div_r, neg, scalbn_r, round_to_integral, next_up, from_i128_r, convert_r, partial_cmp"]}
{"id": "C70", "title": "Accumulated flags certify exactness", "statement": "Evaluate any arithmetic expression over finite numbers (variables, i128 numerals, +, -, *, /, negation, a rounding mode per operation) and or the statuses together. The status is OK exactly if no intermediate result needs rounding and no denominator is zero, and then the result is the number the expression denotes. If neither OVERFLOW, INVALID_OP nor DIV_BY_ZERO is raised the result is finite. Nothing panics.", "quantifier": "all formats, all expressions, all operands, all modes", "why_tests_cant": "expressions are unbounded; one lost or spurious flag of one operation breaks the certificate", "anchors": ["src/ieee.rs: add_r, sub_r, mul_r, div_r, from_i128_r"]}
{"id": "C71", "title": "Interval arithmetic built on the directed modes is sound", "statement": "Intervals with floats as ends, lower ends computed TowardNegative and upper ends TowardPositive, products and quotients as minimum/maximum of the four combinations of ends, the whole line where a NaN appears or the denominator may be zero: for any expression the interval computed contains the number the expression denotes for all values of the variables within their intervals. It is that number alone if nothing needs rounding. Nothing panics.", "quantifier": "all formats with infinities, all expressions, all intervals, infinite ends included", "why_tests_cant": "expressions and intervals are unbounded; soundness fails if one operation rounds one result to the wrong side, at overflow for instance", "anchors": ["src/ieee.rs: add_r, sub_r, mul_r, div_r, minimum, maximum, lt, gt, from_i128_r"]}
{"id": "C72", "title": "Error of long sums", "statement": "Adding n numbers to a first one, one after the other, gives a result that differs from the exact sum by at most ((1+u)^n - 1) times the sum of the absolute values, u = 2^-p in the nearest modes and 2^(1-p) in the others, gradual underflow included: in all modes if that sum times (1+u)^n does not exceed the largest number (and then nothing overflows), and in the nearest modes whenever no OVERFLOW is reported.", "quantifier": "all formats, lists of any length, all modes", "why_tests_cant": "errors accumulate over operations; no finite set of lists bounds them", "anchors": ["src/ieee.rs: add_r"]}
{"id": "C73", "title": "A priori error bounds for expressions, dot products and polynomials", "statement": "The computed value of an expression of variables, integers, negations, sums, differences, products and quotients, each with its own mode, differs from the number the expression denotes by at most a bound computed by recursion (the errors of the operands carried through the operation, one relative rounding error, and half or one smallest positive number for products and quotients), if by that bound no denominator can vanish and no result can exceed the largest number; then nothing but INEXACT and UNDERFLOW is raised. In particular n-term dot products have an error of at most ((1+u)^(n+1) - 1) times the sum of the |x_i y_i|, and Horner's rule of degree n one of at most ((1+u)^(2n) - 1) times the sum of the |c_i x^i|, each plus an explicit multiple of the smallest positive number.", "quantifier": "all formats, all expressions, all operands, all modes, vectors and polynomials of any length", "why_tests_cant": "errors of operations accumulate; expressions are unbounded and the bound must hold for gradual underflow as well", "anchors": ["src/ieee.rs: add_r, sub_r, mul_r, div_r, from_i128_r, neg"]}
{"id": "C74", "title": "Expressions, sums and dot products of DoubleDouble keep twice the precision", "statement": "Expressions of variables, i128 numerals, negations, sums, differences, products and quotients evaluated with pairs, each operation with its own mode, differ from the number denoted by at most a recursive bound with the unit 48 * 2^-2p (p the half format's precision; plus four smallest positive numbers per product or quotient), if by that bound no result comes near the largest number, products are zero or at least twice the smallest normal number and no denominator can vanish: nothing panics and the result is again a pair whose second half is at most one unit in the last place of the first. In particular sums of n+1 pairs are off by at most ((1+w)^n - 1) times the sum of the absolute values, and n-term dot products by ((1+w)^(n+1) - 1) times the sum of the |x_i y_i|, plus the underflow terms.", "quantifier": "all half formats with at least 5 bits, all modes, all expressions, lists of any length", "why_tests_cant": "errors accumulate, and intermediate pairs need not be canonical in the directed modes; only an invariant kept by every operation bounds them", "anchors": ["src/ppc.rs: add_r, mul_r, div_r, from_u128_r, neg", "src/lib.rs: sub_r, from_i128_r"]}
{"id": "C75", "title": "Loops of clients end, with the right result", "statement": "Euclid's algorithm run on any two finite numbers with ieee_rem or with c_fmod returns their greatest common divisor, exactly (both are integers times the smallest positive number; zero if both are zero), with fewer remainders than the format has binades and bits (twice that for c_fmod); it never panics. Starting from any number and calling next_up while the result is less than a second number arrives at the second number after exactly as many steps as their encodings are apart, from the most negative number to infinity, across zero. Adding one repeatedly to a non-negative integer below 2^p counts up to 2^p and gets stuck there.", "quantifier": "all formats (the walk: the seven of the crate), all finite operands, both remainders", "why_tests_cant": "the number of iterations depends on the operands and is unbounded over formats; one inexact remainder, one skipped or repeated neighbour breaks termination or the result", "anchors": ["src/ieee.rs: ieee_rem, c_fmod, next_up, add_r, is_zero, partial_cmp"]}
{"id": "C76", "title": "Compensated sums and dot products", "statement": "Adding numbers one after the other while collecting the errors of the additions (computed exactly by two_sum) in a second sum, which is added at the end, gives a result within u*|v| + (1+u)*((1+u)^n - 1)^2 * t of the exact sum v, t being the sum of the absolute values and u = 2^-p, in both nearest modes: as accurate as if summed with twice the precision and rounded once. The same for dot products, whose products are split exactly by a fused multiply-add. Nothing panics or overflows if t stays below 2^(MAX_EXP-4) by the same growth factor.", "quantifier": "all formats, lists of any length, both nearest modes", "why_tests_cant": "the second-order bound only holds if every error term is exact; cancellation makes single wrong bits visible, but only in lists that cancel", "anchors": ["src/ieee.rs: add_r, mul_r, mul_add_r", "src/lib.rs: sub_r"]}
{"id": "C77", "title": "Bisection ends at neighbouring numbers", "statement": "Starting from finite a < b (at most half the largest power of two) where a test fails at a and succeeds at b, and repeatedly replacing one of them by c = (a + b) * 0.5 according to the test while a < c < b, in either nearest mode, ends with two numbers of the format with no number strictly between, the test still failing at the lower and succeeding at the upper one, for any test whatever. It takes at most 3 * (MAX_EXP - MIN_EXP + p - 1) + 1 rounds. The computed midpoint is the exact one rounded once (also among subnormals), and lies strictly inside as long as any number of the format does. With upward rounding that is false.", "quantifier": "all formats, all tests, all intervals, both nearest modes", "why_tests_cant": "the number of rounds depends on the interval; one midpoint rounded onto an end loses every number between", "anchors": ["src/ieee.rs: add_r, mul_r, partial_cmp"]}
{"id": "C78", "title": "Sorting and selecting by comparison", "statement": "Insertion sort with < on any list without NaNs (infinities and both zeros included) returns a permutation of the list in increasing order in which elements that compare equal keep their order; a single NaN can leave the numbers unsorted. Folding a list with max (min) returns an element of the list that no number of the list exceeds (falls below), NaN only if there is nothing else; with maximum (minimum) it is a NaN exactly if there is one, and a -0 (+0) only if the list has no zero of the other sign. Nothing panics.", "quantifier": "all formats, lists of any length", "why_tests_cant": "order is a property of all pairs and triples of elements: transitivity or totality failing for one triple breaks some list", "anchors": ["src/ieee.rs: partial_cmp", "src/lib.rs: min, max, minimum, maximum"]}
{"id": "C79", "title": "Conversion to a wider format changes no decision", "statement": "Converting numbers (NaNs and infinities included) to a format that contains theirs, before instead of after, changes nothing: every comparison, the operand chosen by min, max, minimum and maximum, ilogb, and the integer, status and exactness of the conversions to integers of any width in any mode stay the same; negation, abs and round_to_integral (status included) commute with the conversion bit for bit. Comparing a converted number with a number of the wider format that the narrow one lacks gives what comparing in the narrow format gives, if the constant is rounded up for <, and down for >. An integer converted exactly is less than c iff the integer is less than c rounded up to an integer, greater iff greater than c rounded down.", "quantifier": "all pairs of formats one containing the other, all operands, modes and widths", "why_tests_cant": "compilers move conversions across comparisons for all operands at once; one constant rounded to the wrong side changes one comparison", "anchors": ["src/ieee.rs: convert_r, partial_cmp, to_u128_r, to_i128_r, round_to_integral, ilogb, neg, from_i128_r", "src/lib.rs: min, max, minimum, maximum, abs"]}
{"id": "C80", "title": "Statuses are the documented ones", "statement": "Whatever the operands, the mode and the format, a status returned by addition, subtraction, multiplication, fused multiply-add, rounding to an integral value or conversion is one of OK, INVALID_OP, INEXACT, OVERFLOW|INEXACT and UNDERFLOW|INEXACT: overflow and underflow never come without inexact, and invalid never with another flag. Division can also return DIV_BY_ZERO, exactly if a finite non-zero number is divided by zero. Remainders and neighbours return OK or INVALID_OP, conversions from integers and strings never INVALID_OP, conversions to integers OK, INEXACT or INVALID_OP. An operation that returns INVALID_OP delivers a NaN, and in a format with infinities a NaN out of operands that are none is always INVALID_OP (false of the NaN-only format, where overflow gives NaN). The sums and products of pairs return a combination of the five flags in which overflow and underflow come with inexact; their other operations are as for single numbers. The flags have the documented bit values.", "quantifier": "all formats, all operands whether well-formed or not, all modes, all strings", "why_tests_cant": "a status outside the documented ones needs one forgotten or-ed flag on one path", "anchors": ["src/lib.rs: Status", "src/ieee.rs: normalize, add_r, mul_r, mul_add_r, div_r, convert_r, from_str_r, to_u128_r, ieee_rem, c_fmod, next_up", "src/ppc.rs: add_r, mul_r, div_r"]}
{"id": "C81", "title": "The formats have their published parameters", "statement": "For Half, Single, Double, Quad, BFloat, Float8E5M2, Float8E4M3FN and X87DoubleExtended, with the parameters written out as literals: the widths, precisions and exponent ranges; largest(), smallest_normalized() and SMALLEST are the published numbers (65504, 448, 57344, ...); the finite values of the format are exactly the numbers n * 2^e with |n| < 2^p and e at least the exponent of the last place of the subnormals that do not exceed the largest; and every pattern of the interchange formats decodes to the number, infinity or NaN that its sign, exponent and fraction fields denote, and encodes back. DoubleDouble has 128 bits, precision 106 and exponents from -969 to 1023.", "quantifier": "all eight formats, all real numbers, all bit patterns", "why_tests_cant": "the parameters enter everything; a wrong exponent range or precision shifts all results consistently and round-trips unnoticed", "anchors": ["src/ieee.rs: Semantics, ieee_semantics!, largest, smallest_normalized, SMALLEST, from_bits, to_bits", "src/ppc.rs: BITS, PRECISION, MAX_EXP, MIN_EXP"]}
{"id": "C82", "title": "A build without overflow checks computes the same results", "statement": "Let the release build be the code with wrapping i32, usize and u128 arithmetic and masked shift amounts, but the same assertions, unwraps and index checks. For arguments of any shape, every interface function of floats and pairs, the operators and the reading and printing of text return in the release build whatever they return in the checked build. On values obtained from the interface the two builds agree including panics for the arithmetic, mul_add, the queries, the conversions (widths 1 to 128, and at least 2 for to_i128 of a non-negative number) and text (literals below 2^25 bytes, precisions up to (2^64-59)/196). Outside: to_i128_r(1) of a number from 1 up panics in the checked build and returns -1, not the saturated 0, in the release build; a larger precision panics in one and prints too few digits in the other.", "quantifier": "all arguments, all formats, both builds", "why_tests_cant": "tests run in one profile; a wrapped intermediate result in the other one shows only for the inputs that overflow it", "anchors": ["src/ieee.rs: all arithmetic on ExpInt, Limb and usize", "src/lib.rs: to_i128_r, from_i128_r, operators", "src/ppc.rs: all operations"]}
{"id": "C83", "title": "Decimal literals survive reading and printing", "statement": "A decimal literal of at most P significant digits, where 10^P < 2^(PRECISION-1), that is not below the smallest normal number and does not overflow, read in either nearest mode and printed with the precision P (any width, plain or alternate form), becomes a literal for the same number with the same sign, or for the decimal of P digits next to it toward zero; the latter only if the literal was rounded toward zero and the number read begins with one of the digits 5 to 9. For DoubleDouble the same holds with 2^(2p-1). That it always is the same number is false: 0.7 as a double printed with 15 digits is 0.699999999999999.", "quantifier": "all formats, all literals below 2^25 bytes, all P, widths and forms, both nearest modes", "why_tests_cant": "needs reading and printing to be right together for every literal; the failing ones are those whose binary neighbour lies below and close to a boundary of the digit dropping", "anchors": ["src/ieee.rs: from_str_r, fmt", "src/ppc.rs: from_str_r, fmt"]}
{"id": "C84", "title": "Programs with integers compute integers", "statement": "An expression of integer constants, sums, differences, products, negations, quotients (division rounded toward zero, down or up, followed by round_to_integral in the same mode) and remainders (c_fmod), evaluated with the crate in any rounding mode, gives exactly the integer it denotes, as long as no intermediate result exceeds 2^PRECISION in absolute value and no divisor is zero; the status is OK if the quotients are exact, and the conversion back to an integer is exact in every mode. 2^PRECISION + 1 is no float. With pairs rounded to nearest, ties to even, the same holds up to 2^(2p-4) (2^102 for DoubleDouble). Pairs that are multiples of 2^e are added and subtracted without any error below 2^(2p-2+e), and multiplied without error below 2^(2p-3+e+f); (2^60+1)(2^60+3) is not computed exactly.", "quantifier": "all formats and half formats, all expressions of any depth, all modes (pairs: nearest)", "why_tests_cant": "a quotient rounded twice is wrong only next to an integer; the number of expressions is unbounded, and one lost low bit of a pair is a wrong integer", "anchors": ["src/ieee.rs: from_i128_r, add_r, mul_r, div_r, round_to_integral, c_fmod, to_i128_r", "src/lib.rs: sub_r", "src/ppc.rs: add_r, mul_r, div_r, round_to_integral, c_fmod, neg"]}
{"id": "C85", "title": "Neighbours of DoubleDouble numbers", "statement": "For a canonical pair in range, next_up delivers, with the status OK and as a canonical pair, the least number of the double-width format above the pair's number rounded to that format; it is above the pair's number itself. next_down delivers the greatest below. next_down after next_up, and next_up after next_down, return the number rounded to the double width, so the number itself if it has at most 2p bits; other pairs do not come back. Repeating next_up from a number of the double width reaches every larger one up to the largest half. A zero result has the sign of the side it was reached from.", "quantifier": "all half formats, all canonical pairs in range, all pairs of numbers", "why_tests_cant": "there are 2^100 steps between most numbers; a skipped or repeated neighbour occurs only where the halves carry or borrow", "anchors": ["src/ppc.rs: next_up", "src/lib.rs: next_down"]}
{"id": "C86", "title": "Error-free products without a fused multiply-add", "statement": "With s = ceil(p/2), computing g = x*(2^s+1), h = (x-g)+g, t = x-h in either nearest mode splits x into h of p-s bits and t of s bits with h + t = x exactly. Multiplying the halves of x and y and subtracting the products one after the other from the rounded product x*y yields its rounding error exactly, if the product is zero or at least 2^(MIN_EXP+p), and within 7/2 of the smallest positive number otherwise. Nothing panics or overflows if |x|, |y| stay 2^(s+3) below the range and |x*y| 2^5. Both fail in the directed modes, and the split overflows for larger operands even though the product does not.", "quantifier": "all formats of at least 4 bits, all operands in range, both nearest modes", "why_tests_cant": "sixteen roundings must cancel exactly for every pair of significands; a wrong tie in one of them is visible only for some", "anchors": ["src/ieee.rs: add_r, mul_r, from_i128_r, neg", "src/lib.rs: sub_r"]}
{"id": "C87", "title": "Texts and the order of numbers", "statement": "Reading keeps the order: if two decimal literals denote numbers x <= x', the numbers read in the same nearest mode are ordered the same way (hexadecimal literals: in every mode; infinities included). Printing with the default precision, or with any number of digits P such that 2^PRECISION < 10^(P-1), keeps the strict order: the decimals printed for a smaller and a larger number are different and ordered alike, for any widths and forms; likewise for DoubleDouble and the numbers rounded to the double width. With any precision P at least 1, the printed decimals are in the order of the numbers, except possibly if both numbers begin with a digit from 5 to 9 and lie strictly between the same two neighbouring decimals of P digits, when they may be printed as these in the wrong order. This does happen: with two digits 8191 is printed as 8.2E+3 and 8192 as 8.1E+3.", "quantifier": "all formats, all pairs of numbers or literals (below 2^25 bytes), all precisions, widths and forms", "why_tests_cant": "an inversion needs two inputs on different sides of an internal boundary; testing all pairs is out of reach even for 32 bits", "anchors": ["src/ieee.rs: from_str_r, fmt", "src/ppc.rs: fmt"]}
{"id": "C88", "title": "Library functions built on the crate", "statement": "Computed with the crate in any rounding mode: x - trunc(x) is exact with the status OK and below 1 in absolute value. The Euclidean remainder (x % y, plus |y| if negative) is x - k*y with 0 <= x - k*y < |y|, rounded once, between 0 and |y| inclusive, and exact for x >= 0; that it stays below |y| is false. On integers with |x| + |y| <= 2^(PRECISION-1) the Euclidean quotient, trunc(x/y) corrected by one, and the remainder are exactly those of Euclid; on other numbers the quotient can be one too large although the remainder is exact. The midpoint that halves the sum, or one operand, or both, depending on their size, never overflows and is (a+b)/2 rounded once for all finite a and b. clamp returns a value between its bounds, the argument itself if it lies there, a NaN unchanged, and panics exactly if the bounds are not ordered.", "quantifier": "all formats, all finite operands, all modes (clamp: all operands)", "why_tests_cant": "a second rounding in the midpoint shows only where the operands differ by the whole range; the quotient fails only next to an integer", "anchors": ["src/ieee.rs: add_r, mul_r, div_r, c_fmod, round_to_integral, partial_cmp, largest, smallest_normalized", "src/lib.rs: sub_r, abs"]}
{"id": "C89", "title": "Square roots from the crate's operations", "statement": "For a normal number x > 0, bisection with (a+b)*0.5 that tests r*r > x through mul_add_r(r, r, -x) rounded up, followed by one comparison of the product of the two neighbours found (or of the square of the lower one, for rounding up) with x through mul_add_r rounded down, returns the square root of x correctly rounded in every mode; nothing panics or overflows and the number of rounds is at most 3*(MAX_EXP-MIN_EXP+PRECISION-1)+1. The comparisons are exact: for r, s with 0 <= r*s in range they return whether r*s > x, or r*s < x. For subnormal x this is false: the comparison panics for x = 83560*2^-149 and r = 13395661*2^-90.", "quantifier": "all formats, all normal x, all starting intervals around the root, all modes", "why_tests_cant": "a wrong comparison moves the result by one unit for a few operands only; the failing subnormal operands are five among 2^23", "anchors": ["src/ieee.rs: mul_add_r, add_r, mul_r, neg, partial_cmp"]}
{"id": "C90", "title": "What clients do with the bits of a number", "statement": "For the interchange formats with t fraction bits: the pattern with the exponent field of 2^e and the fraction k decodes to 2^e + k*2^(e-t), and subtracting 2^e gives k*2^(e-t) exactly with the status OK in every mode (random bits as evenly spaced numbers in [0,1) for e = 0, integers as floats for e = t). Scaling a normal number by 2^k with scalbn_r, the result being normal, adds k*2^t to its bits, and ilogb is the exponent field minus the bias. In every format, adding 1.5*2^(PRECISION-1) to x with |x| <= 2^(PRECISION-2) and taking it off again rounds x to an integer: to nearest even, up and down as round_to_integral does; toward zero it rounds down and with ties away from zero it rounds ties up. So it is false that it agrees with round_to_integral in these two modes, on the sign of zero, or for larger x (515 becomes 516 in half precision).", "quantifier": "all interchange formats, all exponents, fractions and normal numbers, all modes; the rounding for all formats", "why_tests_cant": "the claims tie the encoding to the arithmetic for every exponent and fraction", "anchors": ["src/ieee.rs: from_bits, to_bits, sub_r, add_r, scalbn_r, ilogb, round_to_integral"]}
{"id": "C91", "title": "Exact sums and sums rounded once", "statement": "Adding numbers one after the other to a list of components, where the error of every addition (two_sum) becomes a component and the sum goes on to the next component, keeps the sum exactly in either nearest mode: the components are finite numbers whose exact sum is that of the arguments, there are as many, and they do not overlap (each is at most half of a power of two of which all later ones are multiples). Hence the sign of the last nonzero component is the sign of the exact sum; with products split by mul_add the sign of a dot product is found without error, and so the side of a line on which a point lies. Adding the components from the largest down until an addition is inexact, and looking at the sign of the rest if its error is half a step (as Python's math.fsum does), gives the sum, or the dot product, rounded once. If an addition is inexact, adding its result and its error once more in a directed mode gives the exact sum rounded in that mode. Nothing overflows if (1+2u)^(n*n) times the sum of the absolute values is at most 2^(MAX_EXP-4), and products must be zero or at least 2^(MIN_EXP+PRECISION). If the components themselves are computed in a directed mode the sign can be wrong.", "quantifier": "all formats, all lists of numbers, both nearest modes", "why_tests_cant": "the answer is decided by bits arbitrarily far below the largest summand; a single lost bit in any of the n^2 additions changes it for some inputs only", "anchors": ["src/ieee.rs: add_r, mul_r, mul_add_r, neg", "src/lib.rs: sub_r"]}
{"id": "C92", "title": "Statuses as sets, and results compared with their statuses", "statement": "A Status is a set of five flags, determined by them: union, intersection, difference, symmetric difference and complement, contains, intersects and is_empty are those of sets and never leave the 32 statuses; from_bits accepts just those; a status that contains another is not smaller in the derived order. Statuses or-ed together over any sequence of results hold a flag if and only if one of them does. StatusAnd compares the status first: two are equal if and only if the statuses are the same and the values are equal numbers, unordered if and only if the statuses are the same and a value is a NaN, less if and only if the status is smaller or it is the same and the number is smaller; this is a partial order. The same holds for results of type DoubleDouble (halves that do not overlap). Comparing the result of +, -, * or / on finite operands (in any mode) with Status::OK.and(z), as tests do, is true if and only if z is the exact result.", "quantifier": "all statuses, all formats, all values, all modes", "why_tests_cant": "the laws are about all triples of results; the last claim is about all triples of numbers, of which nearly all give false", "anchors": ["src/lib.rs: Status, StatusAnd, unpack!", "src/ieee.rs: add_r, mul_r, div_r, partial_cmp"]}
{"id": "C93", "title": "Interpolation between two numbers", "statement": "Computed with the crate in any rounding mode, for |a|, |b| <= 2^(MAX_EXP-2) and 0 <= t <= 1: a + t*(b-a) never overflows, is a for t = 0 and for a = b, and never turns back: for a <= b it is at least a and does not decrease as t grows, for b <= a the other way round. For t = 1 it is b if b - a is a number of the format, and can lie beyond b otherwise. (1-t)*a + t*b is a for t = 0 and b for t = 1, for all finite a and b, but can decrease while t grows although a < b, and can differ from a although a = b.", "quantifier": "all formats, all numbers in range, all modes", "why_tests_cant": "monotony is about all pairs of parameters; the failures of the second formula are single units in the last place", "anchors": ["src/ieee.rs: add_r, mul_r", "src/lib.rs: sub_r"]}
