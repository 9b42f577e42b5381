{"id": "C01", "title": "Every reachable BigInteger is canonical", "statement": "Start from nothing and make any finite sequence of public constructor and operator calls (excluding the raw (int, uint_array) constructor). Every BigInteger object produced is in canonical form: either no limbs and -2^31 < sign < 2^31, or sign = +1/-1, limbs below 2^32, non-zero top limb and magnitude at least 2^31. Hence two objects denote the same integer iff they are field-by-field identical.", "quantifier": "every finite history of API calls on every argument values, including calls that throw", "why_tests_cant": "the set of histories and operand sizes is infinite; a test sees a handful of end states", "anchors": ["src/BigInteger.cpp: assert_valid, all constructors and compound operators", "include/public/bigintegercpp/BigInteger.h: class BigInteger"]}
{"id": "C02", "title": "Addition is exact", "statement": "a + b, a += b, ++a and BigInteger::add(a, b) return the mathematical sum for all a, b, terminate normally, and trip no assertion.", "quantifier": "all pairs of BigIntegers of any size and sign", "why_tests_cant": "carry chains depend on every limb of both operands; sizes are unbounded", "anchors": ["src/BigInteger.cpp: operator+=, add, operator++", "src/BigIntegerCalculator/AddSub.cpp: add"]}
{"id": "C03", "title": "Subtraction, negation and absolute value are exact", "statement": "a - b, a -= b, --a, -a, +a, negate(a), abs(a) return the mathematical result for all operands, terminate normally, and trip no assertion.", "quantifier": "all BigIntegers of any size and sign", "why_tests_cant": "borrow chains depend on every limb; sizes are unbounded", "anchors": ["src/BigInteger.cpp: operator-=, subtract, operator-, negate, abs", "src/BigIntegerCalculator/AddSub.cpp: subtract, compare"]}
{"id": "C04", "title": "Multiplication is exact at every size", "statement": "a * b, a *= b and BigInteger::multiply(a, b) return the mathematical product, whichever of the single-limb, grammar-school, Karatsuba or squaring code paths is taken.", "quantifier": "all pairs of BigIntegers, all lengths on both sides of the 32-limb thresholds, all recursion depths", "why_tests_cant": "the Karatsuba recursion has unboundedly many shapes and its carry assertions depend on all limbs", "anchors": ["src/BigInteger.cpp: operator*=", "src/BigIntegerCalculator/SquMul.cpp: multiply, square, subtract_core", "src/BigIntegerCalculator/AddSub.cpp: add_self"]}
{"id": "C05", "title": "Division truncates towards zero", "statement": "For b <> 0, a / b, a /= b and BigInteger::divide(a, b) return the quotient truncated towards zero; the operation terminates and trips no assertion.", "quantifier": "all a, all non-zero b, of any size and sign", "why_tests_cant": "long-division digit estimates are wrong only for rare limb patterns (probability about 2^-32) that random tests miss", "anchors": ["src/BigInteger.cpp: operator/=", "src/BigIntegerCalculator/DivRem.cpp: divide, divide_guess_too_big, subtract_divisor, add_divisor"]}
{"id": "C06", "title": "Remainder has the sign of the dividend", "statement": "For b <> 0, a % b and BigInteger::remainder(a, b) return a - b*trunc(a/b); so |a % b| < |b|, the sign is that of a, and (a / b) * b + (a % b) == a.", "quantifier": "all a, all non-zero b, of any size and sign", "why_tests_cant": "same rare digit-estimate patterns as division", "anchors": ["src/BigInteger.cpp: operator%=, remainder", "src/BigIntegerCalculator/DivRem.cpp: remainder, divide"]}
{"id": "C07", "title": "div_rem agrees with / and %", "statement": "For b <> 0, div_rem(a, b, r) returns a / b and stores a % b in r.", "quantifier": "all a, all non-zero b, of any size and sign", "why_tests_cant": "four code paths selected by operand size; sign conversion errors only show for particular sign/size combinations", "anchors": ["src/BigInteger.cpp: div_rem (608: -1 * rest on uint32_t)"]}
{"id": "C08", "title": "Division by zero is always reported as DivideByZero", "statement": "a / 0, a % 0, div_rem(a, 0, r) and mod_pow(v, e, 0) with e >= 0 throw DivideByZero; they never crash or return.", "quantifier": "all a, v, e of any size", "why_tests_cant": "each size class of the operands takes a different code path to the check", "anchors": ["src/BigInteger.cpp: operator/=, operator%=, div_rem, mod_pow", "src/BigIntegerCalculator/DivRem.cpp", "src/BigIntegerCalculator/PowMod.cpp: pow_core (91-102)"]}
{"id": "C09", "title": "Ordering is the integer order", "statement": "compare_to, <, <=, >, >= order BigIntegers exactly as the integers they denote; compare_to is negative, zero or positive accordingly. The order is total and transitive.", "quantifier": "all pairs and triples of BigIntegers", "why_tests_cant": "infinite domain; length, sign and limb-difference branches interact", "anchors": ["src/BigInteger.cpp: compare_to, get_diff_length", "include/public/bigintegercpp/BigInteger.h: operator<, operator>, operator<=, operator>="]}
{"id": "C10", "title": "Equality and hash agree with the integer value", "statement": "a == b (equals) is true exactly when a and b denote the same integer; a != b is its negation; and equal BigIntegers have equal get_hash_code(), which always fits in an int.", "quantifier": "all pairs of BigIntegers, however they were computed", "why_tests_cant": "depends on canonical form over all histories", "anchors": ["src/BigInteger.cpp: equals, get_hash_code", "include/NumericsHelpers.h: combine_hash"]}
{"id": "C11", "title": "Left shift multiplies by a power of two", "statement": "x << s equals x * 2^s for every int s >= 0, and x << s for s < 0 (including INT_MIN) equals the right shift by |s|.", "quantifier": "all BigIntegers x, all int shifts s", "why_tests_cant": "2^32 shifts times unbounded operands", "anchors": ["src/BigInteger.cpp: operator<<="]}
{"id": "C12", "title": "Right shift is floor division by a power of two", "statement": "x >> s equals floor(x / 2^s) for every int s >= 0, negative x included; x >> s for s < 0 equals x * 2^|s|.", "quantifier": "all BigIntegers x, all int shifts s", "why_tests_cant": "failures are confined to negative values with all-ones high limbs shifted by a multiple of 32", "anchors": ["src/BigInteger.cpp: operator>>=", "include/NumericsHelpers.h: dangerous_make_twos_complement"]}
{"id": "C13", "title": "Bitwise operators act on infinite two's complement", "statement": "a & b, a | b, a ^ b, ~a equal the bitwise operations on the infinite two's complement representation of the integers.", "quantifier": "all pairs of BigIntegers of any size and sign", "why_tests_cant": "sign extension and trimming depend on limb patterns at unbounded length", "anchors": ["src/BigInteger.cpp: operator&=, operator|=, operator^=, operator~, to_uint32_array, BigInteger(uint_array)"]}
{"id": "C14", "title": "pow is exact", "statement": "pow(v, e) returns v^e for every e >= 0 whose result bound fits (otherwise throws overflow_error), and throws out_of_range for every e < 0; scratch buffers are never overrun.", "quantifier": "all BigIntegers v, all int exponents e", "why_tests_cant": "buffer-size bound must hold for every exponent bit pattern and base length", "anchors": ["src/BigInteger.cpp: pow", "src/BigIntegerCalculator/PowMod.cpp: pow, pow_core, pow_bound", "src/BigIntegerCalculator/BitsBuffer.cpp"]}
{"id": "C15", "title": "mod_pow with a small modulus", "statement": "For e >= 0 and 0 < |m| < 2^31, mod_pow(v, e, m) returns v^e - m*trunc(v^e / m), i.e. the remainder with the sign of v^e.", "quantifier": "all v, all e >= 0, all non-zero m with |m| < 2^31", "why_tests_cant": "sign handling only matters for negative base with odd exponent", "anchors": ["src/BigInteger.cpp: mod_pow (1598)", "src/BigIntegerCalculator/PowMod.cpp: pow_core scalar"]}
{"id": "C16", "title": "mod_pow with a modulus of 1 to 31 limbs", "statement": "For e >= 0 and 2^31 <= |m| < 2^992, mod_pow(v, e, m) returns the remainder of v^e by m with the sign of v^e.", "quantifier": "all v, e >= 0 of any size, all m in that range", "why_tests_cant": "repeated square-and-reduce over unbounded exponents with reused scratch buffers", "anchors": ["src/BigInteger.cpp: mod_pow", "src/BigIntegerCalculator/PowMod.cpp", "src/BigIntegerCalculator/BitsBuffer.cpp: MultiplySelf, SquareSelf, Reduce, Apply"]}
{"id": "C17", "title": "mod_pow with a modulus of 32 limbs or more", "statement": "For e >= 0 and |m| >= 2^992 (e.g. 1024-bit moduli), mod_pow(v, e, m) returns the remainder of v^e by m with the sign of v^e.", "quantifier": "all v, e >= 0, all m with |m| >= 2^992", "why_tests_cant": "large moduli take the FastReducer path which the suite never reaches", "anchors": ["src/BigIntegerCalculator/FastReducer.cpp: Reduce, DivMul, SubMod", "src/BigIntegerCalculator/PowMod.cpp: pow_core (212-227)", "src/BigIntegerCalculator/BitsBuffer.cpp: Reduce(FastReducer&)"]}
{"id": "C18", "title": "greatest_common_divisor is the gcd", "statement": "greatest_common_divisor(a, b) terminates and returns the non-negative gcd of a and b (gcd(0,0) = 0).", "quantifier": "all pairs of BigIntegers", "why_tests_cant": "termination and Lehmer steps for operands above 64 bits depend on every bit", "anchors": ["src/BigInteger.cpp: greatest_common_divisor", "src/BigIntegerCalculator/GcdInv.cpp: gcd, lehmer_core, extract_digits", "src/BigIntegerCalculator/BitsBuffer.cpp: Refresh, Overwrite"]}
{"id": "C19", "title": "to_string is the decimal numeral", "statement": "to_string() returns the decimal representation ('-' for negatives, no leading zeros, \"0\" for zero), and writes only inside its buffer.", "quantifier": "all BigIntegers up to INT_MAX/10 limbs", "why_tests_cant": "buffer sizing must hold for every digit count; base conversion is over all limbs", "anchors": ["src/BigInteger.cpp: to_string"]}
{"id": "C20", "title": "parse reads the longest decimal prefix", "statement": "parse(s) returns the integer denoted by the optional sign and the longest run of decimal digits following it (0 if there is none) for every string s, and parse(x.to_string()) == x.", "quantifier": "all strings of any length; all BigIntegers", "why_tests_cant": "infinite input domain", "anchors": ["src/BigInteger.cpp: parse, try_parse"]}
{"id": "C21", "title": "try_parse accepts exactly decimal numerals", "statement": "try_parse(s, r) returns true exactly when s is an optionally signed non-empty string of decimal digits, storing its value in r; otherwise it returns false.", "quantifier": "all strings", "why_tests_cant": "infinite input domain; rejection of every malformed string", "anchors": ["src/BigInteger.cpp: try_parse, parse"]}
{"id": "C22", "title": "Byte-array constructor decodes two's complement", "statement": "BigInteger(bytes, isUnsigned, isBigEndian) denotes the integer whose two's complement (or unsigned) little/big-endian encoding is bytes, for every byte string including empty, padded and unaligned ones.", "quantifier": "all byte strings of any length, all four flag combinations", "why_tests_cant": "256^n inputs for each n; sign-extension and trimming corner cases", "anchors": ["src/BigInteger.cpp: BigInteger(byte_array, bool, bool)"]}
{"id": "C23", "title": "to_byte_array is the minimal encoding and round-trips", "statement": "to_byte_array(isUnsigned, isBigEndian) returns the shortest two's complement (resp. unsigned) encoding of the value, throws for negative values when isUnsigned, and BigInteger(x.to_byte_array(u, e), u, e) == x.", "quantifier": "all BigIntegers, all flag combinations", "why_tests_cant": "minimality and round trip over unbounded values", "anchors": ["src/BigInteger.cpp: to_byte_array", "src/BigInteger.cpp: BigInteger(byte_array, bool, bool)"]}
{"id": "C24", "title": "get_byte_count is the encoded length", "statement": "get_byte_count(isUnsigned) equals to_byte_array(isUnsigned, e).size() for both endiannesses and throws exactly when it throws.", "quantifier": "all BigIntegers", "why_tests_cant": "unbounded values", "anchors": ["src/BigInteger.cpp: get_byte_count, to_byte_array"]}
{"id": "C25", "title": "Narrowing conversions are exact or throw", "statement": "Conversion to int, unsigned int, long, unsigned long returns the exact value when it is representable and throws overflow_error otherwise.", "quantifier": "all BigIntegers", "why_tests_cant": "boundaries at 2^31, 2^32, 2^63, 2^64 on both signs and all longer values", "anchors": ["src/BigInteger.cpp: operator int, operator unsigned int, operator long, operator unsigned long"]}
{"id": "C26", "title": "Constructors from machine integers are exact", "statement": "BigInteger(int32_t), BigInteger(uint32_t), BigInteger(int64_t), BigInteger(uint64_t) denote exactly the argument, with defined behaviour for every argument.", "quantifier": "all 2^32 / 2^64 arguments", "why_tests_cant": "2^64 inputs cannot be enumerated; INT_MIN cases are undefined-behaviour prone", "anchors": ["src/BigInteger.cpp: constructors (25-85)"]}
{"id": "C27", "title": "Construction from double truncates", "statement": "BigInteger(double d) throws overflow_error for NaN and infinities and otherwise denotes d truncated towards zero.", "quantifier": "all 2^64 double bit patterns", "why_tests_cant": "2^64 inputs", "anchors": ["src/BigInteger.cpp: BigInteger(double)", "include/NumericsHelpers.h: get_double_parts"]}
{"id": "C28", "title": "Conversion to double truncates to 53 bits", "statement": "operator double returns the value truncated towards zero to 53 significant bits when |x| < 2^1024, and the signed infinity otherwise; integers with at most 53 significant bits convert exactly, and BigInteger(d) converted back gives d for integral d.", "quantifier": "all BigIntegers", "why_tests_cant": "unbounded domain", "anchors": ["src/BigInteger.cpp: operator double", "include/NumericsHelpers.h: get_double_from_parts, cbit_high_zero"]}
{"id": "C29", "title": "get_bit_length is the minimal two's complement width without sign bit", "statement": "get_bit_length() is the least n with -2^n <= x < 2^n.", "quantifier": "all BigIntegers", "why_tests_cant": "table lookup for every limb value and unbounded lengths", "anchors": ["src/BigInteger.cpp: get_bit_length, leading_zeros_count"]}
{"id": "C30", "title": "Predicates decide the integer property", "statement": "is_zero, is_one, is_even, is_power_of_two and sign() report whether x = 0, x = 1, x even, x = 2^k for some k >= 0, and the sign of x.", "quantifier": "all BigIntegers", "why_tests_cant": "unbounded domain", "anchors": ["src/BigInteger.cpp: is_zero, is_one, is_even, is_power_of_two, sign"]}
{"id": "C31", "title": "Post-increment and post-decrement yield the old value", "statement": "x++ (x--) increments (decrements) x and evaluates to the value x had before, as in C# and in C++ for built-in types.", "quantifier": "all BigIntegers", "why_tests_cant": "universal claim over values", "anchors": ["src/BigInteger.cpp: operator++(int), operator--(int)"]}
{"id": "C32", "title": "Memory safety and absence of undefined behaviour of the arithmetic core", "statement": "For canonical operands, no +, -, *, /, %, comparison, shift, bitwise operator or pow performs an out-of-range vector or pointer access, an out-of-range shift or a signed overflow, and no assert() fails: debug and NDEBUG builds return the same results.", "quantifier": "all canonical operands, both build modes", "why_tests_cant": "absence of UB for every input cannot be observed by running samples", "anchors": ["src/BigInteger.cpp", "src/BigIntegerCalculator/AddSub.cpp", "src/BigIntegerCalculator/SquMul.cpp", "src/BigIntegerCalculator/DivRem.cpp", "src/BigIntegerCalculator/PowMod.cpp"]}
{"id": "C33", "title": "Compound assignment is alias-safe", "statement": "x op= x gives the same result as x op= copy-of-x for +=, -=, *=, /=, %=, &=, |=, ^=; and div_rem gives the same results when its out-parameter is one of its operands.", "quantifier": "all BigIntegers, all aliasing patterns", "why_tests_cant": "aliasing patterns times unbounded values", "anchors": ["src/BigInteger.cpp: operator+= .. operator|=, div_rem"]}
{"id": "C34", "title": "Ring and Euclidean laws hold observably", "statement": "Commutativity, associativity, distributivity, additive inverse, a - b == a + (-b), and (a / b) * b + a % b == a hold as == between results of API calls.", "quantifier": "all triples of BigIntegers", "why_tests_cant": "algebraic laws quantify over all triples", "anchors": ["src/BigInteger.cpp"]}
{"id": "C35", "title": "Python int to BigInteger conversion is exact and round-trips", "statement": "For every Python int v, BigInteger(v) denotes v, and int(BigInteger(v)) == v; for every BigInteger x, int(x) is its value.", "quantifier": "all Python ints / all BigIntegers", "why_tests_cant": "unbounded domain; the byte-trimming heuristic looks at a byte value where an index was meant", "anchors": ["bindings/python/python-bindings.cpp: to_biginteger, to_py_int"]}
{"id": "C36", "title": "Python hash is consistent with equality", "statement": "Whenever BigInteger x == Python int v (or BigInteger y), hash(x) == hash(v) (resp. hash(y)), as Python requires of __eq__/__hash__.", "quantifier": "all pairs", "why_tests_cant": "universal claim", "anchors": ["bindings/python/python-bindings.cpp: __hash__, __eq__"]}
{"id": "C37", "title": "Dword conversion round-trips", "statement": "to_uint32_array() is the shortest little-endian two's complement dword encoding of x (empty for 0).", "quantifier": "all BigIntegers", "why_tests_cant": "unbounded domain", "anchors": ["src/BigInteger.cpp: to_uint32_array, BigInteger(uint_array)"]}
{"id": "C38", "title": "log decomposes the value exactly", "statement": "log(v, base) for v > 0 and base > 1 computes, up to floating-point rounding of the C library, ln(v)/ln(base): the 64-bit mantissa and exponent it feeds to the library differ from v by a relative error below 2^-63; log of a negative number is NaN.", "quantifier": "all BigIntegers v > 0", "why_tests_cant": "unbounded domain", "anchors": ["src/BigInteger.cpp: log, log10", "include/NumericsHelpers.h: csharp_log_wrapper"]}
{"id": "C39", "title": "A throwing operation leaves its target unchanged", "statement": "If x op= y throws (division by zero), x still has its previous value.", "quantifier": "all operands on which the operation throws", "why_tests_cant": "universal claim over values", "anchors": ["src/BigInteger.cpp: operator/=, operator%="]}
{"id": "C40", "title": "Long division corrects its digit guess boundedly", "statement": "Every quotient-digit computation of / and % terminates after at most two decrements of the initial guess and at most one add-back.", "quantifier": "all dividends and divisors", "why_tests_cant": "the number of corrections depends on rare limb patterns", "anchors": ["src/BigIntegerCalculator/DivRem.cpp: divide (153-200)"]}
{"id": "C41", "title": "Python operators with an int operand are exact", "statement": "For a BigInteger x and a Python int v, x<v, x<=v, x==v, x>v, x>=v compare the values; x+v, x-v, x*v, x&v, x|v, x^v are BigIntegers denoting the exact results; v+x, v-x, v*x, v&x, v|x, v^x are the exact Python ints; x//v, x/v, x%v and their reflections are truncated division and its remainder and raise DivideByZero on a zero divisor.", "quantifier": "all BigIntegers, all Python ints", "why_tests_cant": "operand order and conversion of every width and sign", "anchors": ["bindings/python/python-bindings.cpp: to_biginteger, to_py_int, __lt__ .. __rxor__"]}
{"id": "C42", "title": "BigInteger(buffer) decodes the bytes the buffer exposes", "statement": "For every one-dimensional unsigned-char buffer b, contiguous or strided, BigInteger(b) denotes the little-endian two's complement integer written by bytes(b), and reads no memory outside the buffer.", "quantifier": "all buffers, any stride, offset and size", "why_tests_cant": "strided and reversed views are unlimited in number; an over-read usually does not crash", "anchors": ["bindings/python/python-bindings.cpp: py::init(py::buffer) (90-98)"]}
{"id": "C43", "title": "Python // and % on BigInteger follow Python", "statement": "For a BigInteger x and a non-zero int v, x // v and x % v equal Python's floor division and modulo of the values.", "quantifier": "all x, all v != 0", "why_tests_cant": "only sign combinations with a non-zero remainder differ", "anchors": ["bindings/python/python-bindings.cpp: __floordiv__, __mod__"]}
{"id": "C44", "title": "Python shift counts and exponents", "statement": "x << n, x >> n, x ** n and their reflections with n a BigInteger or int in the non-negative int range are the exact shift, floor shift and power; a count outside the int range raises and never truncates; a negative exponent raises.", "quantifier": "all x, all counts and exponents", "why_tests_cant": "the conversion of the count to int must be checked for every value", "anchors": ["bindings/python/python-bindings.cpp: __lshift__, __rshift__, __pow__, __rlshift__, __rrshift__, __rpow__"]}
{"id": "C45", "title": "Python divmod is exact", "statement": "divmod(x, v) and divmod(v, x) are the truncated quotient and remainder for every non-zero divisor.", "quantifier": "all BigIntegers and ints, divisor non-zero", "why_tests_cant": "fails only for particular signs, sizes and digit counts", "anchors": ["bindings/python/python-bindings.cpp: __divmod__, __rdivmod__"]}
{"id": "C46", "title": "Programs of API calls compute on integers", "statement": "Any finite program of public calls (constructors, parse, compound assignments, binary and unary operators, shifts, ++/--, div_rem, pow, mod_pow, gcd) over shared and aliased objects leaves every object with the value, and throws exactly the exceptions, that the same program has over mathematical integers.", "quantifier": "all finite call sequences, all stores, all aliasing patterns, all arguments of the right C++ types, both build types", "why_tests_cant": "the number of call sequences and aliasing patterns is unbounded", "anchors": ["include/BigInteger.h: whole public interface", "src/BigInteger.cpp"]}
{"id": "C47", "title": "Python three-argument pow", "statement": "pow(x, e, n) with BigInteger x and e, n BigIntegers or ints is the remainder of x^e by n with the sign of x^e; it raises for a negative exponent and for n = 0.", "quantifier": "all x, e, n, every overload", "why_tests_cant": "unbounded operands; wrong results only for particular signs and sizes", "anchors": ["bindings/python/python-bindings.cpp:213-221"]}
{"id": "C48", "title": "Python bytes() and to_array()", "statement": "bytes(x) and x.to_array(u, be) are the shortest non-empty encodings, int.from_bytes with the same options gives x back, a negative x raises when unsigned, and BigInteger(bytes(x)) equals x.", "quantifier": "all BigIntegers, all option combinations", "why_tests_cant": "needs every length and sign boundary", "anchors": ["bindings/python/python-bindings.cpp:90-98, 302-318"]}
{"id": "C49", "title": "FastReducer returns the length of the remainder", "statement": "For a modulus m of two or more limbs, a FastReducer built for m, used any number of times before, and a value of exactly k <= 2*len(m) limbs, Reduce returns the number of limbs of value mod m without touching memory outside its buffers.", "quantifier": "all moduli, all values, all earlier uses of the reducer, both build types", "why_tests_cant": "Barrett reduction fails, if at all, at rare quotient estimates and at moduli of one particular shape", "anchors": ["src/BigIntegerCalculator/FastReducer.cpp:4-66", "include/FastReducer.h:5-22"]}
{"id": "C50", "title": "mod_pow executes no undefined operation", "statement": "For every base, every modulus and every exponent that is not negative, mod_pow returns a valid object or throws; it never divides by zero in hardware, never indexes outside a buffer and never overflows a signed integer.", "quantifier": "all bases, exponents and moduli, both build types", "why_tests_cant": "the failing operands have more than a thousand bits and a special form", "anchors": ["src/BigInteger.cpp: mod_pow", "src/BigIntegerCalculator/PowMod.cpp", "src/BigIntegerCalculator/FastReducer.cpp", "src/BigIntegerCalculator/BitsBuffer.cpp"]}
{"id": "C51", "title": "operator float rounds to the nearest float", "statement": "Converting a BigInteger to float gives the float nearest to its value, ties to the even significand, plus or minus infinity from 2^128 - 2^103 on.", "quantifier": "all BigIntegers", "why_tests_cant": "the conversion goes through a truncated double; the two roundings disagree only within one double ulp above a tie", "anchors": ["src/BigInteger.cpp:1506-1508", "src/BigInteger.cpp:1474-1504"]}
{"id": "C52", "title": "Python float(x)", "statement": "float(x) for a BigInteger x is the nearest double, ties to even, and raises OverflowError from 2^1024 - 2^970 on; it equals C++'s operator double only when rounding is downwards.", "quantifier": "all BigIntegers", "why_tests_cant": "ties and the overflow threshold are isolated values among unboundedly many", "anchors": ["bindings/python/python-bindings.cpp:320", "bindings/python/python-bindings.cpp:70-78"]}
{"id": "C53", "title": "to_byte_array with a bytesWritten pointer", "statement": "to_byte_array(mode, isUnsigned, isBigEndian, bytesWritten) stores the number of bytes of the encoding at bytesWritten in either mode, and called without the last argument it does not dereference the null pointer.", "quantifier": "all BigIntegers, both modes, all options, null and non-null pointers", "why_tests_cant": "the default argument is only dangerous for zero and in Count mode, which no caller exercises", "anchors": ["src/BigInteger.cpp:1257-1393", "include/public/bigintegercpp/BigInteger.h:173-174"]}
{"id": "C54", "title": "Every call does exactly what its integer-level description says", "statement": "For every public call with arguments of the right C++ types, including the calls other properties show wrong, one function on integers gives the exact outcome: the values stored, the exception thrown with the store unchanged, the kind of undefined behaviour, or a failed assertion; programs of calls compose.", "quantifier": "all stores of objects, all calls, all arguments, all programs, debug and release builds", "why_tests_cant": "an exact description of wrong and undefined results over unbounded values cannot be sampled", "anchors": ["src/BigInteger.cpp", "include/public/bigintegercpp/BigInteger.h"]}
{"id": "C55", "title": "The calls with undefined behaviour are exactly those listed", "statement": "A public call is undefined if and only if it is one of: BigInteger(INT64_MIN), a short negative byte array, a right shift of a negative value of 2^26 limbs or more, add or subtract on parts with sign INT_MIN (these only where the build does not define overflow and shifts), div_rem whose divisor is overwritten by a zero remainder, mod_pow outside its buffers or modulo zero, a release-build gcd whose loop comes to a first operand below 2^64 and a second that is not, or a gcd of limb arrays with a two-limb divisor that has a leading zero or, in release builds, with a dividend shorter than two limbs.", "quantifier": "all stores, calls and arguments", "why_tests_cant": "absence of undefined behaviour over unbounded operands cannot be tested", "anchors": ["src/BigInteger.cpp"]}
{"id": "C56", "title": "add and subtract on limb arrays with signs", "statement": "BigInteger::add and subtract on two uint arrays with signs return the sum or difference of magnitudes with the sign of the left operand; on arrays with leading zeros or shorter than the other operand the difference wraps around, or fails an assertion in a debug build; on the parts of two objects neither happens.", "quantifier": "all limb arrays, all signs", "why_tests_cant": "carries, wrap-around and leading zeros over arrays of any length", "anchors": ["src/BigInteger.cpp:402-431", "src/BigInteger.cpp:433-462"]}
{"id": "C57", "title": "LLP64: sums and differences", "statement": "Where long has 32 bits (the win_amd64 wheels), +, -, ++, -- and ~ have exactly this outcome: right on operands that fit an int; undefined when magnitudes are subtracted and an operand is outside int; otherwise the sum, with the carry out of bit 63 dropped when one operand fits an int and the other does not.", "quantifier": "all operands, all builds", "why_tests_cant": "carry patterns of limb arrays of any length, on a platform whose tests are a handful of literals", "anchors": ["src/BigIntegerCalculator/BigIntegerCalculator.AddSub.cpp", "src/BigInteger.cpp:402-462", "setup.py:60-64"]}
{"id": "C58", "title": "LLP64: no compiler makes it right", "statement": "Whatever function of digit and count a compiler computes for the over-wide shift, some subtraction of two representable integers does not return their difference.", "quantifier": "all functions a compiler could substitute", "why_tests_cant": "the set of compilers is not enumerable", "anchors": ["src/BigIntegerCalculator/BigIntegerCalculator.AddSub.cpp"]}
{"id": "C59", "title": "LLP64: products and powers", "statement": "Where long has 32 bits, a product is exact unless both factors have 32 limbs or more, when it is undefined; a power is exact unless repeated squaring meets two such factors, and throws on the same arguments as elsewhere.", "quantifier": "all operands and exponents", "why_tests_cant": "threshold behaviour over unbounded operands", "anchors": ["src/BigIntegerCalculator/BigIntegerCalculator.SquMul.cpp", "src/BigInteger.cpp"]}
{"id": "C60", "title": "LLP64: mod_pow and gcd", "statement": "Where long has 32 bits, mod_pow does the same as elsewhere for a modulus below 32 limbs; for a longer one it is undefined as soon as a reduction has something to do, and right otherwise. gcd is right if Euclid's algorithm meets no Lehmer step above 2^64, and undefined otherwise.", "quantifier": "all operands", "why_tests_cant": "depends on the whole course of Euclid's algorithm and on operands of 992 bits and more", "anchors": ["src/BigIntegerCalculator/BigIntegerCalculator.PowMod.cpp", "src/BigIntegerCalculator/BigIntegerCalculator.GcdInv.cpp"]}
{"id": "C61", "title": "LLP64: conversion to long and bit_length", "statement": "Where long has 32 bits, operator long returns values that fit, throws OverflowError below 2^32 and from 2^64 on, and is undefined between; operator unsigned long returns values below 2^32, is undefined below 2^64 and throws otherwise; bit_length is the least width below 2^26 limbs and, in builds that leave overflow undefined, undefined from there on.", "quantifier": "all operands", "why_tests_cant": "2^64 operands between the bounds", "anchors": ["src/BigInteger.cpp"]}
{"id": "C62", "title": "LLP64: doubles and decimal text", "statement": "Where long has 32 bits, conversion to double or float is undefined for magnitudes from 2^31 to 2^1024; construction from a double throws exactly when bit 31 of its pattern is set, also for finite values, and returns a number for infinities and NaN; parse returns the number obtained by dropping a carry out of bit 63 whenever a digit is added.", "quantifier": "all integers, all 2^64 patterns, all strings", "why_tests_cant": "2^64 patterns and strings of any length", "anchors": ["src/BigInteger.cpp", "include/NumericsHelpers.h"]}
{"id": "C63", "title": "log in double arithmetic", "statement": "With every double operation rounded to nearest even and std::log accurate to one ulp, log(v, base) returns for every integer and every base: NaN for a negative value, a negative or NaN base or base 1; +0 or NaN for an infinite base, -0 or NaN for a zero base; an infinity of the right sign for value 0 and a zero of the right sign for value 1; otherwise a finite double within relative error 2^-48 of the true logarithm. log(v) is within 2^-47 of ln v and log10(v) within 2^-48 of log10 v.", "quantifier": "all integers of up to 2^57 limbs, all 2^64 bases, all functions std::log meeting the C standard's special cases with error at most one ulp", "why_tests_cant": "An error bound over all values and bases; the terms cancel for values just above 2^31 and bases next to 1", "anchors": ["src/BigInteger.cpp", "include/NumericsHelpers.h"]}
{"id": "C64", "title": "LLP64: every call and every program", "statement": "Where long has 32 bits, every API call on any store of objects does exactly what actual_win says on the integers the objects stand for: it stores that result and touches nothing else, throws that exception and changes nothing, is undefined, or fails an assertion; so does every finite program. Every object reached stays in canonical form.", "quantifier": "all stores, all calls with arguments of their C++ types, all programs, all builds", "why_tests_cant": "All programs and operands, including aliased ones", "anchors": ["src/BigInteger.cpp", "src/BigIntegerCalculator/AddSub.cpp"]}
{"id": "C65", "title": "LLP64: gcd, mod_pow and the limb-array overloads, every case", "statement": "Where long has 32 bits, greatest_common_divisor is Euclid's algorithm until the first Lehmer step whose cofactor is not zero, which is undefined; adding an array and an int drops the carry out of bit 63; subtracting is undefined as soon as an array is involved, unless an assertion fails before; mod_pow is described for every base, exponent and modulus.", "quantifier": "all operands, all limb arrays, all fuels", "why_tests_cant": "Arrays of any length", "anchors": ["src/BigIntegerCalculator/GcdInv.cpp", "src/BigIntegerCalculator/AddSub.cpp", "src/BigIntegerCalculator/PowMod.cpp"]}
{"id": "C66", "title": "Python: every expression and every script", "statement": "Every Python expression over BigInteger objects (operators with a BigInteger or an int on either side, unary operators, conversions, methods, pow with three arguments, the constructors) evaluates to exactly what value_of says about the integers the operands stand for, whether long has 64 or 32 bits: that value, that exception, or undefined behaviour. So does every sequence of assignments.", "quantifier": "all expressions, all stores of variables, all int literals, all buffers, all scripts, both data models, all builds", "why_tests_cant": "All operands and all scripts", "anchors": ["bindings/python/python-bindings.cpp"]}
{"id": "C67", "title": "Hash code and text of every integer", "statement": "get_hash_code() returns for every integer the value itself below 2^31 in magnitude and otherwise the sign with the limbs mixed in, most significant first, by a rotation by 7 and an exclusive or. to_string() returns the numeral, throws for more than 214748364 limbs, and writes outside its buffer exactly for the integers from -2^31 down whose number of digits is a multiple of 9.", "quantifier": "all integers, all builds", "why_tests_cant": "All integers", "anchors": ["src/BigInteger.cpp", "include/NumericsHelpers.h"]}
{"id": "C68", "title": "Class tests on doubles, and log where long has 32 bits", "statement": "Where long has 64 bits, double_IsFinite, double_IsNaN and double_IsInfinity decide exactly whether a bit pattern is a finite double, a NaN, or one of the two infinities. Where long has 32 bits (LLP64) they look at bit 31 of the pattern only: IsFinite is that bit being clear, IsNaN that bit being set, IsInfinity never. log, log(base) and log10, which call IsInfinity, nevertheless return the same double on both data models for every integer, every base and every std::log within one ulp.", "quantifier": "all 64-bit patterns; all BigIntegers; all bases; all std::log functions accurate to one ulp", "why_tests_cant": "2^64 patterns and unboundedly many integers; the LLP64 reading cannot be seen on a Linux host.", "anchors": ["src/BigInteger.cpp:1757-1770", "include/NumericsHelpers.h:134-152", "src/BigInteger.cpp:1510-1541"]}
{"id": "C69", "title": "Python expressions and scripts with operands of any type", "statement": "Under CPython's operator protocol and pybind11's overload resolution, every expression over variables that hold BigIntegers and arbitrary other objects - operators with either operand order, comparisons, pow with three arguments, conversions, to_array with its optional arguments, get_bit_Length, the constructor from ints, bools and buffers, truth tests - evaluates to a stated function of the integers and objects, raises a stated exception, or raises TypeError exactly for the stated combinations of types; so does every script of such assignments, on both data models. Results of divmod with an int on the left obey Python's limit on the digits of int(str). sum() of BigIntegers is the int that is their sum.", "quantifier": "all expressions and scripts, all objects, all Python behaviours of operations without a BigInteger, both data models, debug/release, strict/wrapping arithmetic", "why_tests_cant": "Combinations of 19 operators, operand types and unbounded values over unbounded scripts; dispatch depends on which overloads and reflected methods are registered.", "anchors": ["bindings/python/python-bindings.cpp:82-344", "bindings/python/python-bindings.cpp:16-78"]}
{"id": "C70", "title": "BigInteger.log and log10 called from Python", "statement": "log(x, y) accepts a BigInteger, int or bool x and a float, int, bool or BigInteger y below 2^1024 - 2^970 in magnitude, and then returns the logarithm within 2^-48 relative error with the conventions of C63, on both data models; any other arguments raise TypeError. With one argument the base is e, and 10 for log10.", "quantifier": "all arguments of any type; all std::log functions accurate to one ulp; both data models", "why_tests_cant": "Unbounded integers, 2^64 bases, and both passes of pybind11's overload resolution.", "anchors": ["bindings/python/python-bindings.cpp:332-341", "src/BigInteger.cpp:1510-1541"]}
{"id": "C71", "title": "Python conventions: comparison with other types, truth, three-argument pow", "statement": "A BigInteger compares unequal to an object of an unrelated type, is false exactly if it is zero, and pow(a, n, m) accepts ints n and m.", "quantifier": "all BigIntegers, all objects that are not integers", "why_tests_cant": "It is a statement about every other type.", "anchors": ["bindings/python/python-bindings.cpp:111-116", "bindings/python/python-bindings.cpp:199-221", "bindings/python/python-bindings.cpp:82-344"]}
{"id": "C72", "title": "Calls made before the library's constants are initialised", "statement": "The results of BigInteger operations do not depend on whether the constants s_bnMinInt, s_bnOneInt, s_bnZeroInt and s_bnMinusOneInt have been initialised, so that BigIntegers may be computed in static initialisers of other translation units.", "quantifier": "all operands and arguments of every function that reads the constants, debug/release, strict/wrapping arithmetic; both states of the constants", "why_tests_cant": "Tests run after static initialisation, and only a few results of unbounded inputs are affected.", "anchors": ["src/BigInteger.cpp:14-17", "src/BigInteger.cpp:25-70", "src/BigInteger.cpp:93-355", "src/BigInteger.cpp:1041-1101", "src/BigInteger.cpp:1545-1570"]}
{"id": "C73", "title": "The tests' reference implementation computes the right results", "statement": "The byte-string arithmetic of tests/MyBigInt.cpp, against which the tests compare the library, returns the exact result for every operator of the stack calculator and rejects operators it does not know.", "quantifier": "all operands of any size for which the operation is defined; all operator names", "why_tests_cant": "It is the tests' own oracle: nothing tests it, and a wrong oracle hides or invents failures.", "anchors": ["tests/MyBigInt.cpp:20-760", "tests/BitArray.cpp"]}
{"id": "C74", "title": "Byte strings printed for the stack calculator are read back unchanged", "statement": "A byte array printed by MyBigIntImp::Print and read by StackCalc stands for the integer it encodes, and the tokens that follow are unaffected.", "quantifier": "all byte arrays, all continuations of the text", "why_tests_cant": "Both calculators get the same misread value, so no comparison shows it.", "anchors": ["tests/MyBigInt.cpp:12-18", "tests/stack_calc.cpp:4-15", "tests/stack_calc.cpp:109-123"]}
{"id": "C75", "title": "The stack-calculator tests report exactly the library's errors", "statement": "A test that runs the two calculators on a text passes if all results of the library, second results of div_rem included, are right, and fails otherwise.", "quantifier": "all texts without logarithm operators, debug/release", "why_tests_cant": "The claim is about the tests; only a proof over all texts says what they can and cannot detect.", "anchors": ["tests/stack_calc.cpp:17-223", "tests/divrem.cpp:8-21", "tests/divide.cpp:8-13"]}
{"id": "C76", "title": "The randomised tests use independent operands of both signs", "statement": "Every sample of a randomised test draws fresh operands from the generator, negative numbers among them.", "quantifier": "all generators, seeds, numbers of samples and sizes", "why_tests_cant": "The tests do not look at their own inputs.", "anchors": ["tests/Random.h", "tests/Random.cpp:12-17", "tests/MyBigInt.cpp:6-10", "tests/MyBigInt.cpp:873-879", "tests/divrem.cpp:23-46"]}
{"id": "C77", "title": "greatest_common_divisor ends", "statement": "greatest_common_divisor returns after a number of rounds linear in the bit lengths of its operands.", "quantifier": "all pairs of integers, all limb arrays, all programs of library calls, debug/release, both data models", "why_tests_cant": "No finite run distinguishes a slow loop from an endless one; the tests use few and small operands.", "anchors": ["src/BigInteger.cpp: greatest_common_divisor", "src/BigIntegerCalculator/GcdInv.cpp: gcd, lehmer_core"]}
{"id": "C78", "title": "The stub fixer replaces every listed pattern", "statement": "tools/fix-stubs.py replaces every listed pattern in every line of the generated type stubs, and changes nothing else; the stubs still declare the methods the module has.", "quantifier": "all files, all lines", "why_tests_cant": "The tool is not tested; which lines are wrong depends on which patterns meet in one line.", "anchors": ["tools/fix-stubs.py:3-27"]}
{"id": "C79", "title": "Python keyword arguments", "statement": "A call of the Python module with keyword arguments is the call with those arguments in the positions of the parameters they name, defaults filled in; a keyword that names no free parameter raises TypeError.", "quantifier": "all methods, all positional arguments, all keyword arguments, both data models, debug/release", "why_tests_cant": "Only one method is called with keywords in the tests, always with both of them.", "anchors": ["bindings/python/python-bindings.cpp:87-98", "bindings/python/python-bindings.cpp:309-318", "bindings/python/python-bindings.cpp:332-341"]}
{"id": "C80", "title": "Byte strings of 2^31 bytes and more", "statement": "For integers and byte strings of any length, get_byte_count returns the number of bytes to_byte_array produces, to_byte_array produces the encoding, and the byte-array constructor decodes all the bytes it is given.", "quantifier": "all integers, all byte arrays of any length, both byte orders, signed and unsigned, strict and wrapping int arithmetic, debug/release", "why_tests_cant": "The lengths involved need gigabytes of memory; no test uses more than a few hundred bytes.", "anchors": ["src/BigInteger.cpp:94", "src/BigInteger.cpp:111", "src/BigInteger.cpp:131-141", "src/BigInteger.cpp:166", "src/BigInteger.cpp:1326-1340", "src/BigInteger.cpp:1190-1194"]}
{"id": "C81", "title": "Identity tests", "statement": "A test that compares two calculations (VerifyIdentityString) passes exactly if the library computes the same number for both and every operand agreed with the reference implementation.", "quantifier": "all pairs of token strings without logarithms, debug/release", "why_tests_cant": "The tests are the code under test: a harness that cannot fail is only seen by reasoning about it.", "anchors": ["tests/pow.cpp:18-34", "tests/op_modulus.cpp:17-32", "tests/stack_calc.cpp:31-64"]}
{"id": "C82", "title": "Random tests of is_power_of_two", "statement": "The random cases of the is_power_of_two test run it on two random integers and on one random power of two, and pass exactly if it answers rightly.", "quantifier": "all draws within the bounds of the distributions, debug/release", "why_tests_cant": "The test always uses the seed 0; what it does for other draws, and that its random integers are always 0, does not show in a passing run.", "anchors": ["tests/IsPowerOfTwo.cpp:14-68", "tests/IsPowerOfTwo.cpp:71-81", "tests/IsPowerOfTwo.cpp:109-116", "tests/Random.cpp:5-10"]}
{"id": "C83", "title": "Random numerals and signed byte arrays of the tests", "statement": "BuildRandomNumber returns an optionally signed numeral of 1 to maxdigits digits, the is_even tests made of them pass, and GetRandomPosByteArray and GetRandomNegByteArray return encodings of integers of that sign.", "quantifier": "all engines and seeds, all digit counts, all draws, both argument evaluation orders", "why_tests_cant": "The tests use one seed; an engine output of 2^31 has probability 2^-32 per draw.", "anchors": ["tests/utils.cpp:6-27", "tests/Random.h:8", "tests/IsEven.cpp:33-64", "tests/log.cpp:16-40"]}
{"id": "C84", "title": "Logarithms of the test calculators", "statement": "For uLog10, uLog and bLog the library's and the reference implementation's calculator return the same integer: the logarithm rounded up, with -101, -102 and -103 standing for NaN and the infinities.", "quantifier": "all operands of up to 2^26 limbs, every std::log and std::log10 accurate to one ulp, every build configuration", "why_tests_cant": "The tests draw a few operands of at most 100 bytes and use one C library; the conversion of NaN to int is undefined and passes on x86-64 by luck.", "anchors": ["tests/MyBigInt.cpp:38-75", "tests/MyBigInt.cpp:131-132", "tests/MyBigInt.cpp:568-615", "tests/stack_calc.cpp:157-158", "tests/stack_calc.cpp:186-189", "include/NumericsHelpers.h:134-152"]}
{"id": "C85", "title": "Logarithms of very large powers of two", "statement": "LargeValueLogTests passes: log to the base 2 of a power of two is within 10^-15 (relative) of the exponent, for exponents of hundreds of millions of bits and more.", "quantifier": "all shift arguments up to INT_MAX, up to 256 steps of INT_MAX/10 bits, every std::log accurate to one ulp, every build configuration", "why_tests_cant": "The test makes 13 checks with one C library; each needs numbers of 27 MB and more.", "anchors": ["tests/log.cpp:54-71", "tests/log.cpp:88-105", "tests/log.cpp:214", "tests/log.cpp:218", "src/BigInteger.cpp:1514-1537"]}
{"id": "C86", "title": "BitsBuffer keeps its invariant", "statement": "Every public method of BitsBuffer leaves a buffer that holds the intended number: its first _length words, the last of them not 0, and zeros behind them.", "quantifier": "all buffers of any size holding any number, all arguments, every build configuration", "why_tests_cant": "BitsBuffer is internal; the tests reach it only through ModPow and Pow, and nothing calls the broken overloads with long buffers.", "anchors": ["src/BigIntegerCalculator/BitsBuffer.cpp:4-87", "include/BitsBuffer.h"]}
{"id": "C87", "title": "The named arithmetic functions", "statement": "BigInteger::add, subtract, multiply, divide, remainder and Compare compute the sum, difference, product, truncated quotient and remainder and the order of their arguments; division by 0 throws.", "quantifier": "all pairs of canonical values, every build configuration", "why_tests_cant": "The tests call each of them on a few random operands.", "anchors": ["src/BigInteger.cpp:393-400", "src/BigInteger.cpp:533-535", "src/BigInteger.cpp:719-721", "src/BigInteger.cpp:1139-1141", "src/BigInteger.cpp:1617-1619"]}
{"id": "C88", "title": "How the randomised tests end", "statement": "The project's randomised tests of abs, sign, ++, --, &, |, min, max and multiplication pass whatever is drawn. Those of ~ and ^ pass unless the drawn number's complement cannot be written in decimal, and are undefined then. The division tests and the tests of the division laws pass unless a number they divide by reads as zero, and end with DivideByZero then.", "quantifier": "all random engines and distributions that stay within their bounds, all states of the engine, all drawn byte arrays", "why_tests_cant": "A run of the suite draws one sequence of numbers.", "anchors": ["tests/op_not.cpp:33-101", "tests/op_xor.cpp:33-139", "tests/op_and.cpp:33-144", "tests/multiply.cpp:43-208", "tests/op_multiply.cpp:50-192", "tests/divide.cpp:43-162", "tests/divrem.cpp:36-127", "tests/remainder.cpp:50-175", "tests/op_modulus.cpp:49-180"]}
{"id": "C89", "title": "How the tests of shifts and powers end", "statement": "The project's shift tests end as their last loop does, which shifts negative numbers of 100 bytes to the right by 800 to 1000 bits: without a byte 32 among those drawn a sample passes if the number can be written in decimal and is undefined otherwise; with bytes 32, which the notation reads as two zero bytes, a sample can fail. The tests of powers pass, except that the test of 0^X = 0 fails when the drawn exponent reads as zero, and those of 0^X and 1^X throw when bytes 32 have made the exponent too long for an int.", "quantifier": "all random engines and distributions that stay within their bounds, all states of the engine, all drawn byte arrays", "why_tests_cant": "A run of the suite draws one sequence of numbers.", "anchors": ["tests/op_leftshift.cpp:63-204", "tests/op_rightshift.cpp:58-194", "tests/pow.cpp:79-236"]}
{"id": "C90", "title": "How the tests of greatest common divisors and modular powers end", "statement": "The project's gcd test passes whatever is drawn, because the two numbers of each call are equal or one of them is below 2^64, so it never reaches the faulty steps of the algorithm. The tests of modular powers pass as long as the moduli drawn are between 1 and 2^992; a modulus that reads as zero makes them throw or, with an exponent of 2^32 or more, undefined; larger moduli, possible only through bytes 32, give what the library computes, which can differ from the power.", "quantifier": "all random engines and distributions that stay within their bounds, all states of the engine, all drawn byte arrays", "why_tests_cant": "A run of the suite draws one sequence of numbers.", "anchors": ["tests/gcd.cpp:43-114", "tests/modpow.cpp:83-214", "tests/modpow.cpp:285-370"]}
{"id": "C91", "title": "How the tests of the constants and predicates end", "statement": "The project's tests of the properties zero, one and minus one, and of is_zero and is_one, pass with every generator that stays within its bounds, except that the test of minus one is undefined where shifting a negative number is undefined, because it makes -1 from four bytes. The test of is_even never fails or throws: it passes if the engine never yields 2^31, and otherwise passes, overflows or does not end. The test of is_power_of_two ends as the two drawn numbers decide: it passes, fails or writes past the end of its array (C82).", "quantifier": "all random engines and distributions that stay within their bounds, all states of the engine, all configurations", "why_tests_cant": "A run of the suite draws one sequence of numbers, and does not notice undefined behaviour.", "anchors": ["tests/properties.cpp:12-97", "tests/IsZero.cpp:12-41", "tests/IsOne.cpp:12-41", "tests/IsEven.cpp:12-78", "tests/IsPowerOfTwo.cpp:72-118"]}
{"id": "C92", "title": "How the tests of the natural and decimal logarithms end", "statement": "The tests of uLog and uLog10 pass if the large number they draw is below 2^31 or its logarithm is not too close to an integer, and the processor converts a NaN and minus infinity to ints of at most 100, as x86-64 does. Whatever is drawn, they then pass or fail, with the two calculators at most one apart. C++ leaves those conversions undefined, and where they are the tests never pass or fail: the check of the logarithm of zero at the latest is undefined.", "quantifier": "all random engines and distributions that stay within their bounds, all states of the engine, all std::log and std::log10 with the stated accuracy", "why_tests_cant": "A run of the suite draws one sequence of numbers and uses one mathematical library and processor.", "anchors": ["tests/log02.cpp:26-92", "tests/log10.cpp:26-92", "tests/MyBigInt.cpp:38-75", "tests/stack_calc.cpp:186-189"]}
{"id": "C93", "title": "How the test of the logarithm to a base ends", "statement": "The test of log(value, base) passes only with suitable draws. It fails if one of the first ten doubles it draws is 0 or 1, or if the ten bytes for the base infinity are those of 1. It never ends if the eight bytes drawn for the base 0 are those of 1, because the generator is passed by value and the same bytes are drawn again. It is undefined if the negative number it draws cannot be written in decimal. It fails if blanks among the bytes of a value lift it to 2^1024 or more. It passes if none of this happens, the comparisons within the tolerance come out true, as they do for values below 2^31, and the quotients of logarithms are not too close to integers. Nothing else can happen.", "quantifier": "all random engines and distributions that stay within their bounds, all states of the engine, all std::log and std::log10 with the stated accuracy", "why_tests_cant": "A run of the suite draws one sequence of numbers.", "anchors": ["tests/log.cpp:107-215", "tests/log.cpp:9-63", "tests/Random.cpp:12-25"]}
{"id": "C94", "title": "Comparison and equality of integers of any size", "statement": "For integers of any size, compare_to orders them, equals tells them apart, and the comparison operators, max and min agree with them.", "quantifier": "all integers of any size, all build configurations", "why_tests_cant": "The numbers concerned take 8 GB and more each; no test can visit all of them.", "anchors": ["src/BigInteger.cpp:723-800", "src/BigInteger.cpp:1139-1155"]}
{"id": "C95", "title": "Shifts of integers of any size", "statement": "For integers of any size and every int n, x << n is x * 2^n and x >> n is x / 2^n rounded down.", "quantifier": "all integers of any size, all int shift amounts, all build configurations", "why_tests_cant": "The numbers concerned take 8 GB and more each; no test can visit all of them.", "anchors": ["src/BigInteger.cpp:932-1101"]}
{"id": "C96", "title": "Helpers of NumericsHelpers.h", "statement": "cbit_high_zero counts the zeros in front of the first one of a 32-bit or 64-bit number, make_ulong joins two words, combine_hash rotates by seven and xors, dangerous_make_twos_complement negates modulo 2^(32 n), get_double_parts splits a double into sign, exponent and significand, get_double_from_parts rounds sign * man * 2^exp towards zero to a double (an infinity from 2^1024 on), and the two are inverse on finite doubles.", "quantifier": "all arguments of the declared types; all arrays; exponents whose adjustment by about 1100 fits in an int", "why_tests_cant": "The tests reach these helpers only through public functions, which pass them few of their possible arguments (never a significand below 2^63, for example).", "anchors": ["include/NumericsHelpers.h:9-132"]}
{"id": "C97", "title": "Conversions and predicates of integers of any size", "statement": "For integers of any size, is_power_of_two tells the powers of two, get_bit_length gives the least width, operator long and operator unsigned long give the value or throw OverflowError, operator double gives the value rounded towards zero, and get_hash_code combines all limbs.", "quantifier": "all integers of any size, all build configurations", "why_tests_cant": "The numbers concerned take 8 GB and more each; no test can visit all of them.", "anchors": ["src/BigInteger.cpp:357-376", "src/BigInteger.cpp:1213-1250", "src/BigInteger.cpp:1440-1504", "src/BigInteger.cpp:1772-1779"]}
{"id": "C98", "title": "Sums and differences of integers of any size", "statement": "For integers of any size, x + y and x - y are exact.", "quantifier": "all pairs of integers of any size, all build configurations", "why_tests_cant": "The numbers concerned take 8 GB and more each; no test can visit all of them.", "anchors": ["src/BigInteger.cpp:330-355", "src/BigInteger.cpp:402-480", "src/BigInteger.cpp:654-670", "src/BigIntegerCalculator/AddSub.cpp:28-63", "src/BigIntegerCalculator/AddSub.cpp:115-210"]}
{"id": "C99", "title": "The byte order argument of to_biginteger", "statement": "to_biginteger(value, is_bigendian) of the Python bindings gives value whichever byte order it is asked to use.", "quantifier": "all Python ints, all build configurations", "why_tests_cant": "No caller passes is_bigendian, so no test reaches that branch; and it is right for one-byte ints and all ints whose bytes read the same in both directions.", "anchors": ["bindings/python/python-bindings.cpp:16-68"]}
{"id": "C100", "title": "Decimal text of numbers of any size", "statement": "For integers of any size, to_string() returns the decimal numeral of the number or throws std::overflow_error.", "quantifier": "all integers, all build configurations", "why_tests_cant": "The limb count is kept in an int, which goes wrong only for numbers of 2^31 limbs (8 GiB) and more.", "anchors": ["src/BigInteger.cpp:833-916"]}
{"id": "C101", "title": "Bitwise operators and words of numbers of any size", "statement": "For integers of any size, operator&, operator| and operator^ return the bitwise and, or and exclusive or of the two's complements, to_uint32_array() returns words whose two's complement is the number, and BigInteger(uint_array) returns the number whose two's complement the words are.", "quantifier": "all pairs of integers, all arrays of words of up to 2^32 elements, all build configurations", "why_tests_cant": "Word counts are kept in ints, which goes wrong only for numbers of about 2^31 limbs (8 GiB) and more.", "anchors": ["src/BigInteger.cpp:254-327", "src/BigInteger.cpp:978-1039", "src/BigInteger.cpp:1108-1188"]}
{"id": "C102", "title": "Division of integers of any size", "statement": "For integers of any size, operator/ and operator% return the truncated quotient and the remainder, div_rem returns both, and a zero divisor is reported as DivideByZero.", "quantifier": "all pairs of integers, all build configurations", "why_tests_cant": "Limb counts are kept in ints, which goes wrong only for numbers of 2^31 limbs (8 GiB) and more.", "anchors": ["src/BigInteger.cpp:542-624", "src/BigInteger.cpp:677-717", "src/BigIntegerCalculator/DivRem.cpp:5-201"]}
{"id": "C103", "title": "Products of integers of any size", "statement": "For integers of any size, operator* returns the product.", "quantifier": "all pairs of integers, all build configurations", "why_tests_cant": "Limb counts are kept in ints, which goes wrong only for numbers of about 2^31 limbs (8 GiB) and more.", "anchors": ["src/BigInteger.cpp:482-535", "src/BigIntegerCalculator/SquMul.cpp:4-203"]}
{"id": "C104", "title": "Greatest common divisors of integers of any size", "statement": "For integers of any size, one of which fits in 64 bits, greatest_common_divisor returns their greatest common divisor; when neither fits, size makes no difference to what it does.", "quantifier": "all pairs of integers, all build configurations, all numbers of rounds", "why_tests_cant": "Limb counts are kept in ints, which goes wrong only for numbers of 2^31 limbs (8 GiB) and more.", "anchors": ["src/BigInteger.cpp:1621-1682", "src/BigIntegerCalculator/GcdInv.cpp:33-56", "src/BigIntegerCalculator/BitsBuffer.cpp:10-14"]}
{"id": "C105", "title": "Powers of integers of any size", "statement": "For integers of any size, pow returns the power, or throws std::overflow_error if it is too long.", "quantifier": "all integers, all int exponents, all build configurations", "why_tests_cant": "Limb counts are kept in ints, which goes wrong only for numbers of 2^31 limbs (8 GiB) and more.", "anchors": ["src/BigInteger.cpp:1543-1569", "src/BigIntegerCalculator/PowMod.cpp:12-49"]}
{"id": "C106", "title": "Modular powers of integers of any size by an int", "statement": "For integers of any size, mod_pow by a nonzero modulus that fits in an int returns the remainder of the power, plus 2^32 if it is negative.", "quantifier": "all bases, exponents and nonzero int moduli, all build configurations", "why_tests_cant": "Limb counts are kept in ints, which goes wrong only for numbers of more than 2^31 limbs (8 GiB).", "anchors": ["src/BigInteger.cpp:1572-1598", "src/BigIntegerCalculator/PowMod.cpp:86-107"]}
{"id": "C107", "title": "Modular powers by integers of any size", "statement": "The size of a modulus that does not fit in an int makes no difference to what mod_pow does: for every base, exponent and modulus it is what C17 says.", "quantifier": "all bases, all exponents, all moduli that do not fit in an int, all build configurations", "why_tests_cant": "The buffer size is kept in an int, which goes wrong only for moduli of 2^30 limbs (4 GiB) and more; the index of the exponent is one too, and goes wrong past 2^31 limbs (8 GiB).", "anchors": ["src/BigInteger.cpp:1572-1615", "src/BigIntegerCalculator/PowMod.cpp:109-160", "src/BigIntegerCalculator/PowMod.cpp:177-210", "src/BigIntegerCalculator/BitsBuffer.cpp:4-14"]}
{"id": "C108", "title": "Modular powers by zero for integers of any size", "statement": "For every base and every nonnegative exponent, mod_pow by 0 throws DivideByZero; no division by zero is carried out.", "quantifier": "all bases and exponents of any size, all build configurations", "why_tests_cant": "The loop that would notice the zero divisor counts limbs in an int and is skipped only for bases of more than 2^31 limbs (8 GiB).", "anchors": ["src/BigInteger.cpp:1572-1598", "src/BigIntegerCalculator/PowMod.cpp:67-107", "src/BigIntegerCalculator/DivRem.cpp:51-66"]}
