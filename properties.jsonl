{"id": "C01", "title": "Ordering, equality and raw round-trip follow the represented decimal", "statement": "For two numbers of the same layout and precision, ==, <, <=, cmp and min/max agree with the order of the decimals raw/10^P they represent; two numbers are equal iff they represent the same decimal; from_bits/into_bits/as_bits are mutually inverse; ZERO, ONE, EPSILON, MIN and MAX denote 0, 1, 10^-P and the extreme representable decimals.", "quantifier": "every layout, every valid precision, every pair of raw values", "why_tests_cant": "The order claim is about all 2^(2*bits) pairs; tests look at a handful.", "anchors": ["src/lib.rs: FixedPoint, from_bits, as_bits, into_bits, EPSILON, ZERO, ONE, MIN, MAX"]}
{"id": "C02", "title": "cadd/csub are exact or report Overflow", "statement": "a.cadd(b) returns Ok(c) with c = a + b exactly when the sum is representable and Err(Overflow) in every other case; likewise csub. They never panic, round or wrap.", "quantifier": "every layout, precision, profile and pair of operands", "why_tests_cant": "Exactness at every boundary pair cannot be enumerated for 32/64/128-bit layouts.", "anchors": ["src/lib.rs: CheckedAdd, CheckedSub for FixedPoint", "src/ops/mod.rs: impl_for_ints"]}
{"id": "C03", "title": "cmul by an integer is exact or reports Overflow", "statement": "fp.cmul(n) and n.cmul(fp) return the exact product when representable and Err(Overflow) otherwise, and agree with each other.", "quantifier": "every layout, precision, profile, fixed-point value and integer of the layout type", "why_tests_cant": "The product overflow frontier is a hyperbola over 2^128+ pairs.", "anchors": ["src/lib.rs: CheckedMul for FixedPoint and for $layout", "src/ops/mod.rs: impl_for_ints"]}
{"id": "C04", "title": "saturating_add/sub/mul clamp the exact result", "statement": "The saturating variants return the exact result clamped into [MIN, MAX]: exact when representable, MAX when the exact result is larger, MIN when smaller.", "quantifier": "every layout, precision, and pair of operands", "why_tests_cant": "Sign/overflow combinations over the full domain.", "anchors": ["src/lib.rs: saturating_add, saturating_sub, saturating_mul"]}
{"id": "C05", "title": "rmul Floor/Ceil is the exact directed rounding", "statement": "rmul(a,b,Floor) (Ceil) returns the largest (smallest) representable decimal not above (not below) the exact product a*b, whenever that decimal is representable; otherwise it returns Err(Overflow). It never panics in any profile.", "quantifier": "every layout, valid precision, profile and pair of operands", "why_tests_cant": "Rounding is about every remainder; overflow about every boundary pair, including the 256-bit path.", "anchors": ["src/lib.rs: RoundingMul::rmul", "src/i256"]}
{"id": "C06", "title": "rmul Nearest is round-half-away-from-zero of the exact product", "statement": "rmul(a,b,Nearest) returns the representable decimal nearest to a*b, a tie going away from zero, or Err(Overflow) iff that decimal is out of range.", "quantifier": "every layout, valid precision, profile and pair of operands", "why_tests_cant": "A tie or a near-tie at the widest precision is a measure-zero event for random tests.", "anchors": ["src/lib.rs: RoundingMul::rmul"]}
{"id": "C07", "title": "rmul is commutative, sign-symmetric and has neutral and absorbing elements", "statement": "rmul(a,b,m) = rmul(b,a,m) for every mode; multiplying by ONE returns the other operand; multiplying by ZERO returns ZERO; negating one operand turns Floor into the negation of Ceil.", "quantifier": "every layout, valid precision, profile, mode and operands", "why_tests_cant": "Algebraic laws quantify over all operands.", "anchors": ["src/lib.rs: RoundingMul::rmul"]}
{"id": "C08", "title": "saturating_rmul is the clamp of the rounded product", "statement": "saturating_rmul(a,b,m) returns what rmul returns when that is Ok, and otherwise MAX if the exact product is above the range and MIN if it is below.", "quantifier": "every layout, valid precision, profile, mode and operands", "why_tests_cant": "The direction of saturation must be right on every overflowing pair.", "anchors": ["src/ops/mod.rs: RoundingMul::saturating_rmul", "src/lib.rs: rmul"]}
{"id": "C09", "title": "rdiv Floor/Ceil is the exact directed rounding", "statement": "For b != 0, rdiv(a,b,Floor) (Ceil) returns the largest (smallest) representable decimal not above (below) the exact quotient a/b, or Err(Overflow) iff it is out of range; it never panics in any profile.", "quantifier": "every layout, valid precision, profile, a, and non-zero b", "why_tests_cant": "Depends on every remainder and sign combination and on the 256-bit division.", "anchors": ["src/lib.rs: RoundingDiv for FixedPoint", "src/i256"]}
{"id": "C10", "title": "rdiv Nearest is round-half-away-from-zero of the exact quotient", "statement": "For b != 0, rdiv(a,b,Nearest) returns the representable decimal nearest to a/b, ties away from zero, or Err(Overflow) iff it is out of range; it never panics.", "quantifier": "every layout, valid precision, profile, a, and non-zero b", "why_tests_cant": "The failing region (huge divisors with a large remainder) is not something example tests reach.", "anchors": ["src/lib.rs: RoundingDiv for FixedPoint"]}
{"id": "C11", "title": "Division by zero is always reported as DivisionByZero", "statement": "Every rdiv form (fixed by fixed, fixed by integer, integer by integer, recip) with a zero divisor returns Err(DivisionByZero), whatever the dividend, mode and profile; integer by fixed does so whenever the dividend itself converts, else Err(Overflow).", "quantifier": "every layout, precision, mode, profile and dividend", "why_tests_cant": "All dividends.", "anchors": ["src/lib.rs: RoundingDiv impls, recip", "src/ops/mod.rs: RoundingDiv for ints"]}
{"id": "C12", "title": "Dividing by an integer rounds the exact quotient", "statement": "fp.rdiv(n, mode) (and the same operation on primitive integers) returns the exact quotient rounded according to mode, or Err(Overflow) iff that is out of range, and never panics.", "quantifier": "every layout, precision, profile, mode, dividend and non-zero integer divisor", "why_tests_cant": "MIN / -1 and huge divisors are isolated points in a huge domain.", "anchors": ["src/lib.rs: RoundingDiv<$layout>", "src/ops/mod.rs: RoundingDiv for ints"]}
{"id": "C13", "title": "Integer divided by fixed-point", "statement": "n.rdiv(fp, mode) returns the exact quotient n/fp rounded according to mode, or Err(Overflow) iff it is out of range.", "quantifier": "every layout, precision, profile, mode, integer and non-zero fp", "why_tests_cant": "The error condition is a region of the operand plane.", "anchors": ["src/lib.rs: RoundingDiv<FixedPoint> for $layout"]}
{"id": "C14", "title": "recip is the rounded reciprocal", "statement": "x.recip(mode) is 1/x rounded according to mode, Err(Overflow) iff that is out of range, Err(DivisionByZero) for zero.", "quantifier": "every layout, valid precision, profile, mode and x", "why_tests_cant": "All x.", "anchors": ["src/lib.rs: recip"]}
{"id": "C15", "title": "cneg, abs and signum", "statement": "x.cneg() is exactly -x, and Err(Overflow) exactly for MIN; x.abs() is |x| with the same single error; signum is the sign of the decimal; cneg twice is the identity.", "quantifier": "every layout, precision and x", "why_tests_cant": "All x; the single failing point must be the only one.", "anchors": ["src/lib.rs: cneg, abs, signum"]}
{"id": "C16", "title": "half_sum is the rounded mean and cannot overflow", "statement": "half_sum(a,b,mode) never panics or overflows and returns the mean (a+b)/2 rounded by mode; with Nearest a tie goes away from zero.", "quantifier": "every layout, precision, profile, mode and pair", "why_tests_cant": "Overflow-freedom of a midpoint is the classical untestable claim.", "anchors": ["src/lib.rs: half_sum"]}
{"id": "C17", "title": "integral rounds to an integer", "statement": "x.integral(mode) is the decimal x rounded to an integer by mode (Nearest: ties away from zero).", "quantifier": "every layout, valid precision, profile, mode and x", "why_tests_cant": "All x, including extremes.", "anchors": ["src/lib.rs: integral"]}
{"id": "C18", "title": "floor/ceil/round return the rounded number", "statement": "x.floor(), x.ceil(), x.round() return the fixed-point number equal to x rounded to an integer, whenever it is representable, and otherwise panic instead of returning a wrong value.", "quantifier": "every layout, valid precision, profile and x", "why_tests_cant": "All x; the panic region must be exactly the unrepresentable one.", "anchors": ["src/lib.rs: floor, ceil, round, from_decimal, integral"]}
{"id": "C19", "title": "round_towards_zero_by truncates to a multiple", "statement": "For p != 0, x.round_towards_zero_by(p) is the multiple of p nearest to zero-ward of x (|result| <= |x|, same sign or zero, |x - result| < |p|); for p = 0 it returns x. It never panics.", "quantifier": "every layout, precision, x and p", "why_tests_cant": "All pairs, including MIN by -EPSILON.", "anchors": ["src/lib.rs: round_towards_zero_by"]}
{"id": "C20", "title": "next_power_of_ten is the tight power of ten", "statement": "For x > 0 the result's raw value is the least power of ten 10^k (k>=0) that is >= the raw value, or Err(Overflow) iff it is out of range; zero gives EPSILON; the function is odd, and MIN gives Err(Overflow). It never panics.", "quantifier": "every layout, precision and x", "why_tests_cant": "The table-driven implementation has one chance of error per table entry and per boundary.", "anchors": ["src/lib.rs: next_power_of_ten", "src/power_table.rs: i16, i32, i64, i128"]}
{"id": "C21", "title": "rsqrt is the rounded square root", "statement": "For x >= 0, rsqrt(x,Floor) is the largest representable s with s^2 <= x, Ceil the least with s^2 >= x, Nearest the closest to the real square root; it never overflows, never panics, terminates, and is Err(DomainViolation) exactly for x < 0.", "quantifier": "every layout, valid precision, profile, std/no_std, mode and x", "why_tests_cant": "Newton iteration from a float guess: convergence and exactness over the whole domain.", "anchors": ["src/lib.rs: rsqrt", "src/ops/sqrt.rs", "src/i256/u256.rs: Sqrt", "src/i256/mod.rs: Sqrt"]}
{"id": "C22", "title": "from_decimal is exact or Err", "statement": "from_decimal(m, e) returns the number m*10^e exactly when it is representable and -P <= e <= 10, and Err otherwise; it never panics.", "quantifier": "every layout, valid precision, profile, mantissa and exponent", "why_tests_cant": "All mantissas and exponents.", "anchors": ["src/lib.rs: from_decimal"]}
{"id": "C23", "title": "to_decimal is exact and canonical", "statement": "to_decimal(x, k) with k >= -P returns (m,e) with m*10^e = x, -P <= e <= k, and m not divisible by 10 unless e = k (zero gives (0, min(0,k))); it panics exactly when k < -P.", "quantifier": "every layout, valid precision, profile, x and max_exponent", "why_tests_cant": "All x and all i32 exponents.", "anchors": ["src/lib.rs: to_decimal"]}
{"id": "C24", "title": "Decimal round trip", "statement": "from_decimal applied to the pair returned by to_decimal(x, k), -P <= k <= 10, gives back Ok(x) in every profile.", "quantifier": "every layout, valid precision, profile, x and k", "why_tests_cant": "All x.", "anchors": ["src/lib.rs: from_decimal, to_decimal"]}
{"id": "C25", "title": "Conversion from integers is exact or Err", "statement": "FixedPoint::try_from(n) for each of the twelve primitive integer types is Ok of the number equal to n iff that is representable, else Err; it never panics.", "quantifier": "every layout, valid precision, source integer type and value", "why_tests_cant": "All integers of every width.", "anchors": ["src/lib.rs: TryFrom<$try_from>"]}
{"id": "C26", "title": "from_str_exact accepts exactly representable decimals", "statement": "from_str_exact(s) is Ok(x) iff s, after trimming Unicode white space, is [+-]?digits or [+-]?digits.digits with at most P fractional digits and its value is representable; then x is exactly that decimal. In every other case it is Err, and it never panics.", "quantifier": "every layout, valid precision, profile and Unicode string", "why_tests_cant": "Strings of every length and shape.", "anchors": ["src/string.rs: parse_str, from_str_exact"]}
{"id": "C27", "title": "from_str rounds to nearest", "statement": "from_str(s) is Ok(x) iff s is a well-formed decimal (any number of fractional digits) whose nearest representable decimal (ties away from zero) x is in range; it never panics.", "quantifier": "every layout, valid precision, profile and Unicode string", "why_tests_cant": "Strings of every length; ties; extremes.", "anchors": ["src/string.rs: parse_str, FromStr"]}
{"id": "C28", "title": "Exact parsing refines rounding parsing", "statement": "If from_str_exact(s) = Ok(x) then from_str(s) = Ok(x).", "quantifier": "every layout, valid precision, profile and string", "why_tests_cant": "All strings.", "anchors": ["src/string.rs: parse_str"]}
{"id": "C29", "title": "Display prints the canonical exact decimal", "statement": "Display/Debug print exactly the decimal: optional '-', integer part without leading zeros, '.', fractional digits without trailing zeros but at least one digit; the text denotes the value exactly and equal values print equally.", "quantifier": "every layout, valid precision, profile and value", "why_tests_cant": "All values.", "anchors": ["src/string.rs: stringify", "src/lib.rs: fmt::Display, fmt::Debug"]}
{"id": "C30", "title": "Display then parse is the identity", "statement": "from_str(x.to_string()) = Ok(x) and from_str_exact(x.to_string()) = Ok(x).", "quantifier": "every layout, valid precision, profile and value", "why_tests_cant": "All values.", "anchors": ["src/string.rs: stringify, parse_str"]}
{"id": "C31", "title": "Formatting never writes outside its buffer", "statement": "Formatting any value stays within the fixed-size stack buffer (no out-of-bounds unchecked write) and never panics.", "quantifier": "every layout, valid precision, feature set, profile and value", "why_tests_cant": "Unsafe writes: a missing length is undefined behaviour that a passing test may not show.", "anchors": ["src/string.rs: StrBuf, MAX_LEN, stringify"]}
{"id": "C32", "title": "Conversion from f64 is total and sign-symmetric", "statement": "try_from(f64) never panics and always terminates; NaN and infinities are Err; both zeros give ZERO; try_from(-v) is the negation of try_from(v); a non-negative (non-positive) input never gives a negative (positive) number.", "quantifier": "every layout, valid precision, profile and all 2^64 bit patterns", "why_tests_cant": "2^64 inputs times precisions; table indexing and shift loops.", "anchors": ["src/float.rs: TryFrom<f64>", "src/power_table.rs"]}
{"id": "C33", "title": "Conversion from f64 has a bounded error", "statement": "If try_from(v) = Ok(x) then |x - v| <= (5/9)*10^-P + |v|*2^-49; and if it is Err for a finite v then |v| is at least (1 - 2^-49) times the largest representable decimal, up to one unit.", "quantifier": "every layout, valid precision, profile and finite f64", "why_tests_cant": "An error bound over all floats.", "anchors": ["src/float.rs: TryFrom<f64>", "src/power_table.rs"]}
{"id": "C34", "title": "Integer-valued f64 converts exactly", "statement": "A finite f64 whose value is an integer n with |n| <= 2^52 converts to exactly n when n is representable with n in [-MAX, MAX], and to Err otherwise.", "quantifier": "every layout, valid precision, profile and integral f64", "why_tests_cant": "All integral floats.", "anchors": ["src/float.rs: TryFrom<f64>"]}
{"id": "C35", "title": "Conversion to f64 has a bounded relative error", "statement": "f64::from(x) is finite and differs from the decimal x by at most a few units in the last place relative to x (|f - x| <= |x| * 2^-51), and is exact for integers up to 2^53; its sign is right.", "quantifier": "every layout, valid precision and value", "why_tests_cant": "Floating-point error over all values.", "anchors": ["src/lib.rs: From<FixedPoint> for f64"]}
{"id": "C36", "title": "f64 round trip", "statement": "FixedPoint::try_from(f64::from(x)) = Ok(x).", "quantifier": "every layout, valid precision and value", "why_tests_cant": "All values; failures sit near 2^52.", "anchors": ["src/lib.rs: From<FixedPoint> for f64", "src/float.rs: TryFrom<f64>"]}
{"id": "C37", "title": "serde human-readable round trip", "statement": "Serializing for a human-readable format emits a string, and deserializing that string gives back the value; integers and floats in the document are accepted with the semantics of TryFrom; every other kind of token is rejected.", "quantifier": "every layout, valid precision, value and data-model token", "why_tests_cant": "All values and all tokens.", "anchors": ["src/serde.rs: Serialize, Deserialize, FixedPointVisitor, str"]}
{"id": "C38", "title": "serde binary round trip", "statement": "Serializing for a binary format emits the raw integer, and deserializing gives back the value, for the default impls and for the repr module. The integer is written with the width of the layout.", "quantifier": "every layout, precision and value", "why_tests_cant": "All values.", "anchors": ["src/serde.rs: Serialize, Deserialize, repr"]}
{"id": "C39", "title": "serde option and float modules", "statement": "The *_option modules map None to none and Some(x) to the encoding of x, and decode back to the original; the float modules carry f64::from(x) and decode with try_from, so they have exactly the guarantees of C33/C35/C36.", "quantifier": "every layout, valid precision, optional value", "why_tests_cant": "All values.", "anchors": ["src/serde.rs: repr_option, str_option, float, float_option"]}
{"id": "C40", "title": "SCALE codec round trip and layout", "statement": "encode produces exactly the little-endian two's complement bytes of the raw value (size of the layout), decode inverts it consuming exactly these bytes and fails on shorter input; compact encode_as/decode_from are inverse bijections between raw values and the unsigned type.", "quantifier": "every layout, value, and byte string", "why_tests_cant": "All values and byte strings.", "anchors": ["src/parity.rs: Encode, Decode, CompactAs"]}
{"id": "C41", "title": "fixnum_const!/fixnum! literals denote their decimal", "statement": "A literal accepted by fixnum_const! with at most P fractional digits produces the fixed-point number equal to the literal, and an unrepresentable literal does not compile.", "quantifier": "every layout, precision and literal", "why_tests_cant": "All literals.", "anchors": ["src/macros.rs: fixnum_const, fixnum", "src/const_fn.rs: parse_fixed, parse_int, pow10, find"]}
{"id": "C42", "title": "impl_op! wrappers behave like the underlying operation", "statement": "A wrapper operation declared by impl_op! returns exactly what the wrapped operation on (losslessly promoted) operands returns, for cadd, csub, cmul, rmul and rdiv; in particular promotion never changes a value.", "quantifier": "every layout, precision, operand widths and values", "why_tests_cant": "All operand width combinations and values.", "anchors": ["src/macros.rs: Operand, impl_op"]}
{"id": "C43", "title": "Results do not depend on the build profile or on std", "statement": "Every operation returns the same result in debug and release profiles and with or without std.", "quantifier": "every operation, layout, valid precision, and operands", "why_tests_cant": "Compares two builds over all inputs.", "anchors": ["src/lib.rs", "src/ops/sqrt.rs: guess", "src/ops/mod.rs"]}
{"id": "C44", "title": "The 128-bit layout is as exact as the others", "statement": "Multiplication, division and square root on the i128 layout, which go through multi-word 256-bit arithmetic, return the correctly rounded result of the exact integer computation for all operands.", "quantifier": "all i128 operand pairs, precision 0..38", "why_tests_cant": "Multi-word division has add-back branches hit with probability 2^-63.", "anchors": ["src/i256/mod.rs", "src/i256/u256.rs: div_mod_knuth, div_mod_word, div_mod_small, overflowing_mul, Shl, Shr, Sqrt"]}
{"id": "C45", "title": "Sequences of additions and subtractions are exact", "statement": "Folding any list of cadd/csub operations over a starting value either yields the exact sum or fails with Overflow at the first prefix whose exact sum is unrepresentable; a successful computation does not depend on the order when all prefixes fit. A program that returns a value has had every intermediate balance in range.", "quantifier": "every layout, precision, and operation list", "why_tests_cant": "Histories of any length.", "anchors": ["src/lib.rs: cadd, csub"]}
{"id": "C46", "title": "Default saturating trait methods pick the right bound", "statement": "For a type that implements only the checked methods (as impl_op! does for cmul), the default saturating_add/sub/mul return the checked result when Ok and otherwise the bound on the side where the exact result lies.", "quantifier": "every operand pair", "why_tests_cant": "All overflowing pairs.", "anchors": ["src/ops/mod.rs: CheckedAdd, CheckedSub, CheckedMul default methods"]}
{"id": "C47", "title": "Different layouts agree", "statement": "The same operation on the same decimals in two layouts with equal precision gives the same decimal whenever both succeed, and success in a narrower layout implies success in a wider one.", "quantifier": "every pair of layouts, precision valid in both, operation and operands", "why_tests_cant": "Relates two instantiations over all inputs.", "anchors": ["src/lib.rs: impl_fixed_point"]}
{"id": "C48", "title": "Conversion from f64 is monotone", "statement": "If v <= w are finite and both convert, then try_from(v) <= try_from(w).", "quantifier": "every layout, valid precision and pair of finite f64", "why_tests_cant": "2^128 pairs.", "anchors": ["src/float.rs: TryFrom<f64>", "src/power_table.rs"]}
{"id": "C49", "title": "Multiplication and division are inverse up to rounding; division is monotone", "statement": "rmul and rdiv (Floor, Ceil) are monotone in their dividend/factor for a fixed positive other operand, and rdiv(rmul(a,b,Floor),b,Floor) <= a for b > 0.", "quantifier": "every layout, valid precision, and operands for which the operations succeed", "why_tests_cant": "Relational property over triples.", "anchors": ["src/lib.rs: rmul, rdiv"]}
{"id": "C50", "title": "Rounding modes bracket the exact result", "statement": "For rmul, rdiv, rsqrt and integral, when all three modes succeed: Floor <= Nearest <= Ceil, Ceil - Floor is 0 or one EPSILON (one integer for integral), Floor = Ceil iff the exact result is representable, and Nearest is one of the two.", "quantifier": "every layout, valid precision, profile, and operands", "why_tests_cant": "Relates three modes over all operands.", "anchors": ["src/lib.rs: rmul, rdiv, rsqrt, integral"]}
{"id": "C51", "title": "Exact behaviour of rmul Nearest at i128 precision 38", "statement": "On the i128 layout at precision 38, with l the remainder of the raw product by 10^38 and q its truncated quotient: if 2l fits the layout, rmul(a,b,Nearest) is the correctly rounded product or Err(Overflow); if q does not fit the result is Err(Overflow), and so is the rounded product out of range; otherwise overflow-checked builds panic, and unchecked builds return the correctly rounded product when it is positive and the product rounded up (never the nearest one) when it is negative.", "quantifier": "all i128 operand pairs, every profile", "why_tests_cant": "The deviating inputs are a thin set of 128-bit pairs at one precision; random tests at smaller precisions never reach it.", "anchors": ["src/lib.rs:275-305"]}
{"id": "C52", "title": "Exact behaviour of rdiv Nearest outside the safe divisors", "statement": "When the truncated quotient fits and the remainder l is non-zero, and 2|l| exceeds MAX or the divisor is MIN: overflow-checked builds panic; unchecked builds with a divisor other than MIN return a number exactly one EPSILON away from the nearest one, and with divisor MIN round away from zero whatever the remainder. When the truncated quotient does not fit, the result is Err(Overflow) and the rounded quotient is out of range.", "quantifier": "every layout, valid precision, profile and operands", "why_tests_cant": "Needs operands near the limits of the type and both build profiles.", "anchors": ["src/lib.rs:312-348"]}
{"id": "C53", "title": "Exact behaviour of integer rdiv outside the safe operands", "statement": "For every signed primitive type: MIN.rdiv(-1) panics in every profile and mode; Nearest with 2|l| > MAX or divisor MIN panics in checked builds; in unchecked builds it truncates (divisor other than MIN) or returns minus the sign of the dividend (divisor MIN).", "quantifier": "every signed integer type, profile and operands", "why_tests_cant": "Boundary operands of each of five types in both profiles.", "anchors": ["src/ops/mod.rs:445-475"]}
{"id": "C54", "title": "Integer divided by fixed-point is conversion followed by rdiv", "statement": "n.rdiv(fp, mode) equals rdiv of the number representing n when there is one, and Err(Overflow) when n is not representable, even if the quotient is.", "quantifier": "every layout, valid precision, profile, mode, integer and fp", "why_tests_cant": "Universal statement over integers and numbers.", "anchors": ["src/lib.rs:367-371"]}
{"id": "C55", "title": "half_sum Nearest rounds ties of two negative numbers up", "statement": "For two negative numbers whose raw sum is odd, half_sum(a,b,Nearest) returns the mean rounded towards positive infinity, which is never the tie rounded away from zero.", "quantifier": "every layout, precision, profile and such pair", "why_tests_cant": "Universal over pairs; the existing tests only exercise positive ties.", "anchors": ["src/lib.rs:466-476"]}
{"id": "C56", "title": "Rounding MIN to an integer", "statement": "integral, floor, ceil and round of MIN panic in checked builds; in unchecked builds all modes return MIN rounded up. On i128 at precision 38, integral(Nearest) panics in checked builds when twice the fractional part overflows.", "quantifier": "every layout, valid precision, mode and profile", "why_tests_cant": "One value per layout and precision, in both profiles.", "anchors": ["src/lib.rs:501-534"]}
{"id": "C57", "title": "from_decimal when the power of ten overflows", "statement": "If -P <= e <= 10 but 10^(e+P) does not fit the layout, from_decimal(m,e) panics in checked builds whatever m, and in unchecked builds multiplies m by 10^(e+P) wrapped to the layout.", "quantifier": "every layout, valid precision, mantissa, exponent and profile", "why_tests_cant": "Depends on the profile; no test uses such exponents.", "anchors": ["src/lib.rs:668-680"]}
{"id": "C58", "title": "The integer square root trait returns the floor root", "statement": "The internal Sqrt implementations for primitive integers return the largest s with s^2 <= n for every non-negative n, without panicking.", "quantifier": "every primitive integer type that has the trait, every non-negative value, profile, std/no_std", "why_tests_cant": "Newton iteration from a float guess or a shifted recursion; the failing values sit in a narrow band below i128::MAX.", "anchors": ["src/ops/sqrt.rs"]}
{"id": "C59", "title": "256-bit words compute integer arithmetic", "statement": "U256 multiplication, division with remainder, shifts, comparison, square root and narrowing, and their I256 counterparts, equal the integer operations on the values the words represent; U256 multiplication panics on overflow and division panics on a zero divisor.", "quantifier": "all 256-bit operands (for I256, operands and results above -2^255), shift amounts below the word size", "why_tests_cant": "2^512 operand pairs; carries and Knuth add-back branches.", "anchors": ["src/i256/mod.rs", "src/i256/u256.rs"]}
{"id": "C60", "title": "from_str at precision 0 accepts integers only", "statement": "At precision 0 from_str returns Err for every string with a decimal point, even '7.0'; at every other precision the string is rounded to nearest.", "quantifier": "every layout, valid precision, profile and Unicode string", "why_tests_cant": "All strings; precision 0 is not tested.", "anchors": ["src/string.rs:33-99"]}
{"id": "C61", "title": "Values that formatting does not handle", "statement": "At precision 0 formatting MIN panics in checked builds, and formatting a negative number with as many digits as the buffer size minus 2 panics with debug assertions and otherwise writes out of bounds. On i128 at precision 38 it panics in checked builds when one plus the fraction exceeds MAX.", "quantifier": "every layout, value, feature set and profile", "why_tests_cant": "Depends on the profile and on the feature set; the out-of-bounds write is silent.", "anchors": ["src/string.rs:102-125", "src/string.rs:129-169"]}
{"id": "C62", "title": "What fixnum_const! accepts and produces", "statement": "With overflow checks, fixnum_const! compiles a text exactly when it is a sign, digits and optionally a point and digits, with at most P places, at most 19 (39 with i128) integer digits, and magnitude below 2^63 (2^127) after scaling; the constant is that number truncated to the layout. In every build such literals give that constant. Any other text gives a number of the layout or does not compile. MIN of the widest layout does not compile.", "quantifier": "every layout, valid precision, build and byte string", "why_tests_cant": "The accepted set is infinite, and the failures (silent truncation, MIN, leading zeros) sit at boundaries of the internal integer rather than of the layout.", "anchors": ["src/macros.rs:179-186", "src/const_fn.rs:16-114"]}
{"id": "C63", "title": "Run-time checks only add panics", "statement": "In a build with overflow checks and debug assertions every operation either panics or returns exactly what any other build returns.", "quantifier": "every operation, layout, valid precision, pair of builds, and all operands", "why_tests_cant": "Compares two builds over all inputs and internal states.", "anchors": ["src/lib.rs", "src/ops/mod.rs", "src/i256/u256.rs", "src/float.rs", "src/string.rs", "src/const_fn.rs"]}
{"id": "C64", "title": "Features do not change results", "statement": "Two builds with the same profile return the same outcome (value, error or panic) whatever the features std and i128, for every operation; for formatting and literals, whatever std.", "quantifier": "every operation, layout, valid precision, pair of builds, and all operands", "why_tests_cant": "Compares two builds over all inputs.", "anchors": ["src/lib.rs", "src/ops/sqrt.rs: guess", "src/const_fn.rs"]}
{"id": "C65", "title": "f64 round trip up to fifteen digits", "statement": "For |raw| <= 10^15 and raw different from the smallest value of the layout, try_from(f64::from(x)) = Ok(x), also across two builds, and the serde modules float and float_option give back what they wrote.", "quantifier": "every layout, valid precision, pair of builds and number with |raw| <= 10^15", "why_tests_cant": "2*10^15 numbers times precisions, two roundings of floats and two of decimals.", "anchors": ["src/lib.rs: From<FixedPoint> for f64", "src/float.rs: TryFrom<f64>", "src/serde.rs: float, float_option"]}
{"id": "C66", "title": "Conversion from f64 gives the nearest decimal", "statement": "try_from(v) = Ok(x) implies that no other number of the type is nearer to v than x.", "quantifier": "every layout, valid precision and finite f64", "why_tests_cant": "2^64 inputs; failures need a fraction between 4/9 and 1/2 of a unit.", "anchors": ["src/float.rs: TryFrom<f64>", "src/power_table.rs: rdiv_by_exponent_10"]}
{"id": "C67", "title": "Why parsing failed", "statement": "The error returned by parsing a string carries the reason that comes first among: integer part malformed or out of range, fraction not digits, fraction longer than the precision (exact parsing), fraction empty or precision 0, integer part too big for the type, number too big.", "quantifier": "every layout, valid precision, build, string and both parsing modes", "why_tests_cant": "All strings; the reasons overlap and their order matters.", "anchors": ["src/string.rs: parse_str, from_str, from_str_exact", "src/errors.rs: ConvertError"]}
{"id": "C68", "title": "Error texts identify the failure", "statement": "Distinct failures have distinct texts (ConvertError::as_str, ArithmeticError::as_str). The texts are those written in the source. from_decimal says unsupported exponent iff the exponent is outside -P..=10 and too big mantissa otherwise; conversion from an integer says too big number; conversion from f64 says not finite iff the float is infinite or NaN.", "quantifier": "every layout, valid precision, build and argument", "why_tests_cant": "All arguments, including all 2^64 bit patterns.", "anchors": ["src/errors.rs", "src/lib.rs: from_decimal", "src/float.rs: TryFrom<f64>"]}
{"id": "C69", "title": "I256 and u128", "statement": "I256::from(u128) has the same value, and u128::try_from(I256) returns the value iff it lies between 0 and 2^128-1, otherwise the error about a too big integer.", "quantifier": "every u128 and every 256-bit pattern", "why_tests_cant": "2^256 inputs; negative numbers and carries between words.", "anchors": ["src/i256/mod.rs: From<u128>, TryFrom<I256> for u128"]}
{"id": "C70", "title": "Operand types of impl_op!", "statement": "An operation declared with impl_op! takes exactly the operands that convert to its result type without loss (signed integers of at most its width into an integer, integers that fit the layout into a fixed-point type, or the type itself); multiplication into a fixed-point type takes exactly one fixed-point operand, rounding multiplication two, addition and subtraction only fixed-point operands.", "quantifier": "every pair of operand types, result type and values", "why_tests_cant": "All combinations of types, including those that must not compile.", "anchors": ["src/macros.rs: impl_op", "src/ops/mod.rs", "src/lib.rs: From<FixedPoint>, RoundingMul, CheckedMul impls"]}
{"id": "C71", "title": "What the serde modules accept", "statement": "serde::str accepts exactly the strings from_str accepts, and nothing but borrowed strings; serde::float takes f64 and integers of at most 64 bits (through the nearest f64, exactly up to 2^53) and nothing else; the option modules accept exactly none, and some of what the plain module accepts; repr_option accepts exactly integers in range.", "quantifier": "every layout, valid precision, build and data-model call", "why_tests_cant": "All strings, all integers of all types, all float patterns.", "anchors": ["src/serde.rs: str, float, repr and the option modules"]}
{"id": "C72", "title": "A chain of multiplications by factors up to one", "statement": "Starting from any x but the smallest value, multiplying by any sequence of factors of absolute value at most 1 with any rounding modes never overflows, never increases the absolute value, and ends within one unit in the last place per directed rounding and half a unit per nearest rounding of the exact product.", "quantifier": "every layout, valid precision (nearest at i128 precision 38 excepted), start, and sequence of any length", "why_tests_cant": "Sequences of unbounded length.", "anchors": ["src/lib.rs: RoundingMul for FixedPoint"]}
{"id": "C73", "title": "Equal shares plus the rest add up", "statement": "For x >= 0 and n > 0, the program q = x.rdiv(n, Floor), r = x - q*n never fails, 0 <= r < n units, and q*n + r = x exactly.", "quantifier": "every layout, x >= 0 and n > 0", "why_tests_cant": "All pairs of numbers.", "anchors": ["src/lib.rs: RoundingDiv<$layout>, CheckedMul<$layout>, CheckedSub"]}
{"id": "C74", "title": "Shares by weight", "statement": "Adding up the shares x*w of x >= 0 for weights w >= 0: with Floor and weights that sum to at most 1 it never overflows, the total is between 0 and x and at most one unit per share below the exact one; in every mode, given headroom, the total is on the side of the mode and within one unit (nearest: half a unit) per share.", "quantifier": "every layout, valid precision, x >= 0 and list of weights of any length", "why_tests_cant": "Lists of unbounded length.", "anchors": ["src/lib.rs: RoundingMul, CheckedAdd for FixedPoint"]}
{"id": "C75", "title": "Conversion between types through mantissa and exponent", "statement": "x.to_decimal(k), try_from of the mantissa and from_decimal in another type give the number of that type equal to x, or an error iff there is none, for every k the target's power of ten allows, in particular always for k = 0.", "quantifier": "every pair of layouts and valid precisions, every pair of builds, x and k", "why_tests_cant": "All pairs of types and all numbers.", "anchors": ["src/lib.rs: to_decimal, from_decimal"]}
{"id": "C76", "title": "Conversion between types through text", "statement": "Printing x and parsing it in another type of positive precision gives x rounded to nearest, or an error iff that is out of range.", "quantifier": "every pair of layouts and valid precisions (source printable, target precision positive), builds, and x", "why_tests_cant": "All pairs of types and all numbers.", "anchors": ["src/string.rs: Stringify, FromStr", "src/lib.rs: fmt::Display"]}
{"id": "C77", "title": "ONE represents one whenever it compiles", "statement": "For every layout and precision for which the constant ONE can be evaluated, ONE represents the number one.", "quantifier": "every layout, build and precision, valid or not", "why_tests_cant": "The precision is an unbounded type-level number; tests use a handful of types.", "anchors": ["src/lib.rs: COEF, ONE", "src/const_fn.rs: pow10"]}
{"id": "C78", "title": "Precisions too large for the layout", "statement": "For every precision below 2^31: the coefficient is the two's complement truncation of 10^P to the layout, or fails to evaluate if overflow checks are on and 10^P does not fit the widest enabled type. It is 10^P iff the precision is valid; otherwise ONE does not represent one. From P equal to the width of the layout on it is 0 and rmul always panics; at P one less than the width the negated coefficient cannot be evaluated.", "quantifier": "every layout, build and precision below 2^31", "why_tests_cant": "All precisions, also of types nobody instantiates in a test.", "anchors": ["src/lib.rs: COEF, NEG_COEF, ONE, RoundingMul", "src/const_fn.rs: pow10"]}
{"id": "C79", "title": "Conversion to f64 is monotone", "statement": "If x <= y then the f64 obtained from x is at most the f64 obtained from y, also if the two conversions run in different builds.", "quantifier": "every layout, valid precision, pair of builds, x and y", "why_tests_cant": "Quantifies over pairs of numbers; the conversion rounds five times and monotonicity could fail at any binade boundary.", "anchors": ["src/lib.rs:714-721"]}
{"id": "C80", "title": "Conversion to f64 gives the nearest float", "statement": "The f64 obtained from x is as close to x as any finite f64.", "quantifier": "every layout, valid precision, build and x", "why_tests_cant": "The nearest float is a claim about all floats, for every number.", "anchors": ["src/lib.rs:714-721"]}
{"id": "C81", "title": "Conversion to f64 is faithful up to fifteen places", "statement": "For precisions up to 15 no finite f64 lies strictly between x and the f64 obtained from it, and if x is an f64 the result is x. From precision 16 on this fails.", "quantifier": "every layout, valid precision up to 15, build and x", "why_tests_cant": "A claim about all floats, for every number.", "anchors": ["src/lib.rs:714-721"]}
{"id": "C82", "title": "Interval arithmetic with directed rounding is sound", "statement": "A client that evaluates an expression tree of negations, sums, differences, products and quotients on intervals, rounding lower bounds with Floor and upper bounds with Ceil, never panics; and if it answers an interval, every rational value the expression can take lies in it. The bounds are the best possible at each step: those of a product or quotient are directed roundings of results at the operands' bounds, those of a sum, difference or negation are exact. An error is Overflow where such a bound does not fit, DivisionByZero where the divisor's interval contains zero, or the error of an operand.", "quantifier": "every expression tree, interval leaves, layout, valid precision and build", "why_tests_cant": "Unbounded expression trees over rationals; soundness composes all directed roundings.", "anchors": ["src/lib.rs: rmul, rdiv, cadd, csub, cneg"]}
{"id": "C83", "title": "Wrapper types inherit correct saturating multiplication", "statement": "The default saturating_mul and saturating_rmul of types declared with impl_op! return the exact (rounded) product clamped into the range of the result, never panic, and exist exactly when cmul (rmul) is declared.", "quantifier": "every result kind, operand kinds and values", "why_tests_cant": "The default methods choose a bound from the signs of the operands only; all operand combinations must agree with clamping.", "anchors": ["src/ops/mod.rs: saturating_mul, saturating_rmul default methods", "src/macros.rs: impl_op!"]}
{"id": "C84", "title": "Algebraic laws between the operations", "statement": "Checked addition is commutative, associative where defined, and undone by csub; csub is cadd of cneg; cmul is repeated addition and distributes; abs is multiplication by signum; rmul and rdiv by a whole fixed-point number agree with cmul and rdiv by the integer (the exception is MIN / -1); x / x is ONE, x / ONE is x; exact products are undone by rdiv; next_power_of_ten is idempotent.", "quantifier": "every layout, valid precision, build, rounding mode and operands", "why_tests_cant": "Universally quantified equations over up to three 128-bit operands.", "anchors": ["src/lib.rs: cadd, csub, cneg, cmul, rmul, rdiv, abs, signum, next_power_of_ten"]}
{"id": "C85", "title": "half_sum is a mean", "statement": "half_sum is commutative, half_sum(x, x) is x, the result lies between the operands, and it is monotone in each operand, in every rounding mode.", "quantifier": "every layout, build, rounding mode and operands", "why_tests_cant": "The implementation takes different routes by sign, monotonicity has to hold across them.", "anchors": ["src/lib.rs: half_sum"]}
{"id": "C86", "title": "Laws of the square root", "statement": "The Floor root squared with any directed rounding succeeds and is at most x; the Ceil root squared is at least x; a root lies between x and one; the Floor root of a Floor square is at most the number, the Ceil root of a Ceil square at least.", "quantifier": "every layout, valid precision, build and x", "why_tests_cant": "Composes two roundings over the whole range.", "anchors": ["src/lib.rs: rsqrt, rmul"]}
{"id": "C87", "title": "SCALE compact form round-trips and is canonical", "statement": "Compact<FixedPoint> encodes as the shortest SCALE compact form of the two's complement value; decoding it gives the number back and leaves the rest of the input; no other bytes are accepted; negative numbers always take the longest form.", "quantifier": "every layout, number and byte string", "why_tests_cant": "Canonicity is a claim about all byte strings.", "anchors": ["src/parity.rs: CompactAs, From<Compact<Self>>"]}
{"id": "C88", "title": "A float close to a decimal reads back as that decimal", "statement": "If a finite float is within a relative distance 2^-51 of a decimal with at most fifteen digits that is not MIN, TryFrom<f64> returns exactly that decimal; in particular the nearest float to a decimal literal converts to the same number as parsing the literal.", "quantifier": "every layout, valid precision, build, number up to 10^15 units and float near it", "why_tests_cant": "The set of (decimal, float) pairs is far beyond enumeration; a single double rounding across a tie breaks it.", "anchors": ["src/float.rs: TryFrom<f64>", "src/string.rs: from_str_exact"]}
{"id": "C89", "title": "TryFrom<f64> rounds twice, each time at four ninths", "statement": "For a float below 2^52 whose exact decimal digits fit in 128 bits, the conversion cuts the value to as many digits as keep it below 2^52, then to the precision; each cut rounds down up to a fraction of four ninths and up beyond; the result is an error exactly if the second cut exceeds MAX.", "quantifier": "every layout, valid precision, build and such float", "why_tests_cant": "Exact functional description of a three-loop algorithm over all floats.", "anchors": ["src/float.rs: TryFrom<f64>"]}
{"id": "C90", "title": "Parsing depends only on the number spelled", "statement": "Two texts spelling the same number (any sign of zero, leading or trailing zeros, white space, plus sign) parse to the same result in any two builds; parsing is monotone in the number spelled; a text whose number lies between two accepted ones is accepted; exact parsing reflects order and equality; printing is injective.", "quantifier": "every layout, valid precision, pair of builds and texts", "why_tests_cant": "Quantifies over all pairs of texts of unbounded length.", "anchors": ["src/string.rs: FromStr, from_str_exact, parse_str, stringify", "src/lib.rs: fmt::Display"]}
{"id": "C91", "title": "Formatting what does not fit, without overflow checks", "statement": "Without overflow checks: on i128 at precision 38 a number whose fraction plus one exceeds MAX prints a wrong fraction, 2^128 - 10^38 minus the fraction with 39 digits, and writes past the buffer if it is negative and the last of these digits is not zero; at precision 0 MIN prints with two minus signs if that fits into the buffer, else writes past it.", "quantifier": "every build without overflow checks, number and layout", "why_tests_cant": "The failing numbers are a thin set in 2^128; undefined behaviour need not show in a test.", "anchors": ["src/string.rs: Stringify", "src/lib.rs: fmt::Display"]}
{"id": "C92", "title": "Which calls panic", "statement": "For every public function that can panic or not return normally, a condition on the integers passed states exactly when it panics and when it is undefined: products and integral parts with Nearest on i128 at precision 38 and quotients with Nearest by large divisors under overflow checks, MIN divided by -1 as integers, integral parts that are not representable, decimals with a large exponent under overflow checks, to_decimal below -P, formatting as in C61 and C91; nothing else, and no loop runs on.", "quantifier": "every build, layout, valid precision, call and arguments", "why_tests_cant": "The absence of panics outside the listed conditions quantifies over all arguments.", "anchors": ["src/lib.rs: impl_fixed_point!", "src/ops/mod.rs", "src/string.rs", "src/float.rs", "src/serde.rs"]}
{"id": "C93", "title": "Operators of unsigned 256-bit integers", "statement": "Conversions from u64, u32 and non-negative i64 keep the value, negative i64 panic; as_usize is the value or panics from 2^64 on; shifts by any amount below 2^64 are multiplication modulo 2^256 and floor division by the power of two, larger amounts panic; the product with a machine integer is exact or panics; overflowing_add and overflowing_sub are exact modulo 2^256 and flag exactly the overflow; bits is the bit length.", "quantifier": "all operands", "why_tests_cant": "Four-word operands have 2^512 pairs; shifts across words and carries have many cases.", "anchors": ["src/i256/u256.rs"]}
{"id": "C94", "title": "Signed 256-bit arithmetic at its limits", "statement": "For all operands including MIN: sums and differences wrap modulo 2^256; negation panics on MIN under debug assertions and wraps otherwise; products panic exactly if the magnitude reaches 2^256, or under debug assertions if an operand or the product is MIN, and wrap otherwise; quotients panic exactly on a zero divisor, or under debug assertions if an operand is MIN; conversion to i128 is exact or an error; the root of a negative number panics under debug assertions and is the root of the unsigned value otherwise.", "quantifier": "every build and all operands", "why_tests_cant": "The limits are single points among 2^512 operand pairs and differ between builds.", "anchors": ["src/i256/mod.rs"]}
{"id": "C95", "title": "Laws of rounding to whole numbers and to multiples", "statement": "floor, round and ceil leave whole numbers alone and nothing else, so rounding twice is rounding once; they are monotone; floor and ceil enclose the number and are equal or one apart, round is one of them at a distance of at most one half; negating the argument exchanges floor and ceil; adding a whole number commutes with floor and ceil. round_towards_zero_by is monotone, odd, independent of the sign of the step, absorbs a preceding rounding to a divisor of the step, and with step ONE is floor or ceil by sign.", "quantifier": "every layout, valid precision, build and number except MIN (Nearest not on i128 at precision 38)", "why_tests_cant": "The laws relate two calls on arbitrary pairs of up to 128-bit numbers, steps and precisions.", "anchors": ["src/lib.rs:500-543"]}
{"id": "C96", "title": "Floats made from numbers compare as the numbers do", "statement": "If the f64 of x is below the f64 of y then x < y; if both magnitudes are at most 2^50 units in the last place, the floats are ordered exactly as the numbers, and equal exactly for equal numbers. From 2^53 units on different numbers may become the same float.", "quantifier": "every layout, valid precision, build and pair of numbers", "why_tests_cant": "Neighbouring numbers must be told apart at every magnitude and precision.", "anchors": ["src/lib.rs:714-721"]}
{"id": "C97", "title": "Error of a sum of products", "statement": "A program that adds n products, each rounded by mode m, never panics and reports Overflow or returns a sum that is off by at most n units in the last place: not above the exact sum with Floor, not below it with Ceil, within n half units with Nearest. It fails only at a product or partial sum that does not fit.", "quantifier": "every list of pairs, layout, valid precision, build and mode (Nearest not on i128 at precision 38)", "why_tests_cant": "The claim is about programs of any length.", "anchors": ["src/lib.rs:270-305", "src/lib.rs:373-387"]}
{"id": "C98", "title": "Error of a polynomial by Horner's scheme", "statement": "Horner's scheme with rmul and cadd never panics and reports Overflow or returns the value of the polynomial up to s*u*(1+|x|+...+|x|^(n-1)), where n is the degree, u the unit in the last place and s is 1/2 for Nearest and 1 otherwise; for |x| <= 1 the error is at most n*s*u. It fails only at a product or sum that does not fit.", "quantifier": "every list of coefficients, argument, layout, valid precision, build and mode (Nearest not on i128 at precision 38)", "why_tests_cant": "The claim is about polynomials of any degree; errors of one step are amplified by the following ones.", "anchors": ["src/lib.rs:270-305", "src/lib.rs:373-387"]}
{"id": "C99", "title": "With overflow checks a returned result is right", "statement": "When overflow checks are on, rmul, rdiv, division by an integer, recip, integral, floor/ceil/round, saturating_rmul, from_decimal and formatting either panic or return exactly what their documentation says: the exact value rounded by the mode, Overflow if and only if that does not fit, the clamped value, the exact decimal, the canonical text.", "quantifier": "every layout, valid precision, operand and mode without exception, every build with overflow checks (and debug assertions for formatting)", "why_tests_cant": "The defects of C06-C31 show up as panics on rare operands; that they never show up as wrong numbers needs all operands.", "anchors": ["src/lib.rs:275-371", "src/lib.rs:448-543", "src/lib.rs:667-680", "src/string.rs:29-125"]}
{"id": "C100", "title": "What a result tells in any build", "statement": "In every build, also without overflow checks, a number returned by rmul, rdiv, division by an integer, recip, integral or half_sum is one of the two numbers around the exact value (so the error is less than one unit), and Overflow is reported only if the exact value rounded by the mode does not fit.", "quantifier": "every layout, valid precision, build, operand and mode without exception", "why_tests_cant": "The error bound must cover the wrapped computations of release builds on all operands.", "anchors": ["src/lib.rs:275-371", "src/lib.rs:448-476", "src/lib.rs:500-516"]}
{"id": "C101", "title": "Products and quotients are ordered as the exact values", "statement": "With overflow checks the results of two products, quotients, integer quotients or saturated products are ordered as the exact values, whatever the operands and also between builds; reciprocals are ordered inversely; if a product or quotient overflows, so does every one of the same sign and larger magnitude. Without overflow checks quotients rounded to nearest may be out of order.", "quantifier": "every layout, valid precision, mode and operands, every pair of builds with overflow checks", "why_tests_cant": "The law relates pairs of calls with four free operands.", "anchors": ["src/lib.rs:275-371", "src/lib.rs:448-452"]}
{"id": "C102", "title": "Whole clients behave alike in all builds", "statement": "Whatever a client of the interface computes with all checks on, without panic, it computes in every build; features that formatting does not depend on never change a client; a client panics (or is undefined) if and only if it makes one of the calls listed as panicking, and never loops; a client that makes none returns the same in every build. Each call gives the client the result of the function called.", "quantifier": "every client program (any branching on any results), every pair of builds, layouts and precisions mixed freely", "why_tests_cant": "Ranges over all programs that call the crate, not over calls.", "anchors": ["src/lib.rs:150-680", "src/string.rs:29-125"]}
{"id": "C103", "title": "Distributive and associative law up to the last digit", "statement": "The rounded product of a sum differs from the sum of the rounded products by at most one unit of the last digit, and only upwards for Floor and downwards for Ceil; two ways to associate a product differ by at most slack units times 2 + |x| + |z|.", "quantifier": "every layout, valid precision, build, mode and operands whose products are defined", "why_tests_cant": "Three free operands and four calls per case.", "anchors": ["src/lib.rs:275-305", "src/lib.rs:373-403"]}
{"id": "C104", "title": "Multiplication and division undo each other", "statement": "Multiplying by y with |y| >= 1 and dividing again, rounding the opposite way, gives back exactly the first operand; so does dividing by y with |y| <= 1 and multiplying again; recip of recip is the operand if its magnitude is at most one. Otherwise the operand is missed by at most one rounding divided (or multiplied) by |y| plus one rounding.", "quantifier": "every layout, valid precision, build, mode and operands", "why_tests_cant": "Exact recovery must hold for every pair of operands of 128 bits.", "anchors": ["src/lib.rs:275-371"]}
{"id": "C105", "title": "Square and root undo each other", "statement": "The root of the rounded square of x, rounded the opposite way, is exactly |x| if |x| > 1/2; the square of a rounded root is exactly the operand if the root is less than 1/2.", "quantifier": "every layout, valid precision, build, mode and operand", "why_tests_cant": "Exact recovery must hold for every operand.", "anchors": ["src/lib.rs:275-305", "src/lib.rs:611-645", "src/ops/sqrt.rs:1-92"]}
{"id": "C106", "title": "Laws of next_power_of_ten", "statement": "For positive x the result is at least x and less than 10x; the operation is odd (except at zero and MIN), monotone also across builds, commutes with multiplication by ten while no overflow occurs, and fixes exactly the powers of ten.", "quantifier": "every layout, build and operand", "why_tests_cant": "The laws relate pairs of calls over the whole range.", "anchors": ["src/lib.rs:545-570"]}
{"id": "C107", "title": "The JSON schema fits the serialized form", "statement": "Every value serialized for a human-readable format by default or by the module str is of the type the JSON schema announces (string), str_option adds only null; repr and float never write that type; reading accepts also numbers, which the schema does not allow.", "quantifier": "every layout, precision, build and value", "why_tests_cant": "Schema and serializer are separate code; agreement must hold for all values and builds.", "anchors": ["src/schemars.rs:8-24", "src/serde.rs:1-356"]}
{"id": "C108", "title": "Exponential moving average", "statement": "The average s + a(x - s), computed with csub, rmul and cadd for a weight a between zero and one, never panics or overflows if the span of the samples is representable, always lies between the smallest and the largest sample, and misses the exact average by at most one rounding per sample, discounted as the samples are: in total at most one rounding divided by a.", "quantifier": "every layout, valid precision, build, mode (Nearest not at i128 precision 38), weight, and list of samples of any length", "why_tests_cant": "Ranges over lists of any length; the bound must hold for all of them.", "anchors": ["src/lib.rs:275-305", "src/lib.rs:374-403"]}
{"id": "C109", "title": "Running mean", "statement": "The mean updated by m + (x - m)/n, with rdiv by the integer n, never panics or overflows if the span of the samples is representable (the sum need not be), lies between the smallest and the largest sample, and misses the exact mean of N samples by at most (N-1)(N+2)/(2N) roundings.", "quantifier": "every layout, precision, build, mode and list of samples of any length that fits the layout", "why_tests_cant": "Ranges over lists of any length.", "anchors": ["src/lib.rs:351-360", "src/lib.rs:374-403", "src/ops/mod.rs:445-475"]}
{"id": "C110", "title": "Documented errors of rounded results", "statement": "As documented, a result of rmul, rdiv (by a number or an integer) or recip is at least the exact value for Ceil, at most the exact value for Floor (by less than one unit), in every build; and within ERROR_MAX = 0.5 / 10^PRECISION for Nearest in builds with overflow checks. The bound is attained; without overflow checks it is exceeded for some operands.", "quantifier": "every layout, valid precision, build, mode and operands", "why_tests_cant": "The documentation claims the bound for all operands.", "anchors": ["src/lib.rs:184-196", "src/ops/mod.rs:247-258", "src/lib.rs:275-371"]}
{"id": "C111", "title": "A balance kept with saturating operations", "statement": "After any sequence of saturating_add and saturating_sub the balance is the exact one cut off at two bounds that depend only on the sequence; two balances never drift apart and keep their order; the balance is monotone in every step; it equals the checked balance if that exists; with deposits only or withdrawals only it is the exact balance clamped, whatever the order.", "quantifier": "every layout, start and sequence of any length", "why_tests_cant": "Ranges over sequences of any length.", "anchors": ["src/lib.rs:384-387", "src/lib.rs:400-403"]}
{"id": "C112", "title": "Hashing agrees with equality", "statement": "The derived Hash writes exactly the raw integer in the type of the layout; so two numbers leave every hasher in the same state if and only if they are equal, likewise slices of numbers.", "quantifier": "every layout, all numbers and slices, every hasher", "why_tests_cant": "Quantifies over all hashers.", "anchors": ["src/lib.rs:197-205"]}
{"id": "C113", "title": "Printed text is as short as any text read as the number", "statement": "Among all strings with a decimal point that from_str or from_str_exact reads as a number, with any white space, signs, zeros or digits that get rounded away, none is shorter than the text that Display prints for it; strings without a point are at most two characters shorter (the \".0\").", "quantifier": "every layout, precision, printable value and every string", "why_tests_cant": "Ranges over all strings that denote a number.", "anchors": ["src/string.rs:33-99", "src/string.rs:102-125"]}
{"id": "C114", "title": "An exchange pool never loses", "statement": "A constant-product pool that pays out y * (d / (x + d)), computed with rdiv Floor and rmul Floor, keeps positive reserves whose exact product never falls, over any sequence of trades in both directions; hence nobody gains by trading to and fro; each payout misses the exact one by less than (y + 1) units in the last place. It fails only if the reserve that receives the payment does not fit.", "quantifier": "every layout, valid precision, build, reserves and sequence of trades of any length", "why_tests_cant": "Ranges over sequences of any length; rounding errors add up.", "anchors": ["src/lib.rs:275-348", "src/lib.rs:374-403"]}
{"id": "C115", "title": "Linear interpolation", "statement": "x + (y - x) t, computed with csub, rmul and cadd for t between zero and one, never overflows if y - x is representable, lies between x and y, meets both ends exactly, and is monotone in t.", "quantifier": "every layout, valid precision, build, mode (Nearest not at i128 precision 38) and operands", "why_tests_cant": "Monotonicity relates all pairs of arguments.", "anchors": ["src/lib.rs:275-305", "src/lib.rs:374-403"]}
{"id": "C116", "title": "Length of a vector", "statement": "The square root of x*x + y*y, computed with rmul, cadd and rsqrt all rounding down, never exceeds the exact length and all rounding up never falls below it nor below |x| or |y|; each misses it by at most one unit after a change of two units under the root; the computation never panics. It succeeds whenever x*x + y*y plus two units fits.", "quantifier": "every layout, valid precision, build and operands", "why_tests_cant": "Three roundings in a row must all go the same way for all operands.", "anchors": ["src/lib.rs:275-305", "src/lib.rs:611-645"]}
{"id": "C117", "title": "Rounded operations answer each other", "statement": "For a positive price y, rmul(z, y, Ceil) <= x if and only if z <= rdiv(x, y, Floor), and x <= rmul(z, y, Floor) if and only if rdiv(x, y, Ceil) <= z: what a budget buys and what a quantity costs never contradict each other, also when one of them overflows. The same holds between squares and rsqrt, and between conversion of integers and integral.", "quantifier": "every layout, valid precision, pair of builds and operands", "why_tests_cant": "An equivalence over three free operands; an off-by-one in either direction shows only at exact boundaries.", "anchors": ["src/lib.rs:275-348", "src/lib.rs:500-516", "src/lib.rs:611-645", "src/lib.rs:723-736"]}
{"id": "C118", "title": "Nested directed divisions collapse", "statement": "Dividing by y and then by an integer n, both rounding down or both rounding up, gives exactly the result of dividing once by y * n; the integral part of a quotient is the exact quotient rounded to an integer, that of a root is the integer root. (Not for Nearest, which rounds twice.)", "quantifier": "every layout, valid precision, pair of builds, directed mode and operands", "why_tests_cant": "Double rounding errors show only for rare operands.", "anchors": ["src/lib.rs:312-359", "src/ops/mod.rs:445-475", "src/lib.rs:500-516", "src/lib.rs:611-645"]}
{"id": "C119", "title": "Instalments add up", "statement": "Instalments computed as differences of rounded running totals x * i / n (cmul, rdiv by an integer, csub) are n in number, add up to x exactly, and each differs from x / n by less than one unit in the last place.", "quantifier": "every layout, build, mode, amount and number of instalments with x * n representable (for Nearest also 2n)", "why_tests_cant": "Ranges over schedules of any length.", "anchors": ["src/lib.rs:350-359", "src/lib.rs:389-419", "src/ops/mod.rs:445-475"]}
{"id": "C120", "title": "Parts at a rate and its complement", "statement": "For a rate r between 0 and 1, rmul(x, r, Floor) and rmul(x, 1 - r, Ceil) (or the other way round) add up to x exactly; rounding both to nearest gives one unit too many if and only if there is a tie. Likewise the net price rdiv(g, 1 + t) rounded in one direction leaves, after csub, the tax g t / (1 + t) rounded in the other direction. None of these overflow.", "quantifier": "every layout, valid precision, build, amount and rate (nearest: except i128 precision 38)", "why_tests_cant": "An exact identity over two free operands; a wrong rounding of some sign shows only for particular pairs.", "anchors": ["src/lib.rs:275-348", "src/lib.rs:389-403"]}
{"id": "C121", "title": "Bisection by half_sum", "statement": "Bisecting with half_sum(l, h, Floor) ends after at most bits + 1 steps for any bounds, also the extreme ones, without overflow, and finds two neighbouring numbers between which the predicate changes. Searching this way for the largest z with rmul(z, z, Ceil) <= x, or rmul(z, y, Ceil) <= x, finds exactly what rsqrt and rdiv compute.", "quantifier": "every layout, valid precision, pair of builds, predicate and bounds", "why_tests_cant": "Ranges over all predicates and bounds; compares two independent algorithms on all inputs.", "anchors": ["src/lib.rs:466-476", "src/lib.rs:275-348", "src/lib.rs:611-645"]}
{"id": "C122", "title": "Geometric and arithmetic mean", "statement": "For non-negative x and y, rsqrt(rmul(x, y, Floor), Floor) <= half_sum(x, y, m) <= max(x, y) in every mode m, and rsqrt(rmul(x, y, Ceil), Ceil) >= min(x, y).", "quantifier": "every layout, valid precision, pair of builds, mode and operands", "why_tests_cant": "An inequality between two rounded computations over all pairs.", "anchors": ["src/lib.rs:275-305", "src/lib.rs:466-476", "src/lib.rs:611-645"]}
{"id": "C123", "title": "A cycle of exchanges never gains", "statement": "A chain of rmul by non-negative rates of any size, each rounded down, gives at most x times the exact product of the rates; each rounded up, at least. So a cycle of exchanges whose rates multiply to at most one never returns more than was put in. The chain fails only at an amount that does not fit.", "quantifier": "every layout, valid precision, build, amount and list of rates of any length", "why_tests_cant": "Ranges over chains of any length and rates; one wrongly rounded step is enough to gain.", "anchors": ["src/lib.rs:275-305"]}
{"id": "C124", "title": "An account with interest and cash flows", "statement": "A balance that in each period gains interest rmul(x, r, m) and a cash flow (cadd) differs from the exact compounded balance by at most one rounding error for each period, compounded; rounded down it is never above the exact balance and rounded up never below it; without withdrawals it is at least the balance with simple interest. The only failure is Overflow. It occurs only in a period whose interest or balance does not fit.", "quantifier": "every layout, valid precision, build, mode, rate, balance and list of cash flows (nearest: except i128 precision 38)", "why_tests_cant": "Ranges over histories of any length.", "anchors": ["src/lib.rs:275-305", "src/lib.rs:376-387"]}
{"id": "C125", "title": "Texts in, text out", "statement": "A calculator that reads two texts with from_str_exact, adds (cadd), subtracts (csub), multiplies (rmul) or divides (rdiv) and prints the result answers w exactly when both texts spell decimals of the type, the divisor is not zero, and w is the canonical text of the exact result rounded by the mode and in range; in every other case it reports an error, which says whether a text is not a decimal of the type, the divisor is zero or the result is out of range, and it never panics.", "quantifier": "every layout, positive valid precision (except i128 precision 38), build, operation, mode (division: floor and ceil) and pair of texts", "why_tests_cant": "Ranges over all pairs of texts, and depends on parsing, arithmetic and printing agreeing on every value.", "anchors": ["src/string.rs:29-31", "src/string.rs:102-125", "src/lib.rs:275-403"]}
{"id": "C126", "title": "Different precisions agree", "statement": "For operands representable at both precisions, the result of rmul, rdiv, recip, rsqrt and half_sum rounded down or up at a precision is the result at any finer precision (in any layout and build) rounded once more; sums, differences, multiples, comparisons and texts are the same. Rounded to nearest the results can differ (double rounding).", "quantifier": "every pair of layouts, valid precisions P <= P' and builds, and all operands", "why_tests_cant": "Relates results of different instantiations for all operands; tests compare a few.", "anchors": ["src/lib.rs:275-348", "src/lib.rs:373-403", "src/string.rs:102-125"]}
