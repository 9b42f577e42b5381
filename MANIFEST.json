{
 "claims": [
  {
   "property": "C01",
   "status": "proved",
   "theorems": [
    "C01_reachable_canonical",
    "C01_same_value_identical",
    "C01_asserts_hold"
   ],
   "note": "Histories are modelled by ApiRun.reachable: all public constructors except the raw (int, uint_array) one, every operator and every BigInteger-returning static, on any typed arguments, continuing after throws."
  },
  {
   "property": "C02",
   "status": "proved",
   "theorems": [
    "C02_add_exact"
   ],
   "note": ""
  },
  {
   "property": "C03",
   "status": "proved",
   "theorems": [
    "C03_sub_neg_abs_exact"
   ],
   "note": ""
  },
  {
   "property": "C04",
   "status": "proved",
   "theorems": [
    "C04_mul_exact"
   ],
   "note": ""
  },
  {
   "property": "C05",
   "status": "proved",
   "theorems": [
    "C05_div_truncates",
    "C05_div_elementary"
   ],
   "note": ""
  },
  {
   "property": "C06",
   "status": "proved",
   "theorems": [
    "C06_rem_exact",
    "C06_rem_elementary"
   ],
   "note": ""
  },
  {
   "property": "C07",
   "status": "partial",
   "theorems": [
    "C07_div_rem_partial",
    "C07_div_rem_refuted"
   ],
   "note": "False of the code (BigInteger.cpp:608, -1 * rest in uint32_t). Exact failing region proved in C07_div_rem_refuted, correct everywhere else (C07_div_rem_partial)."
  },
  {
   "property": "C08",
   "status": "partial",
   "theorems": [
    "C08_div_by_zero",
    "C08_mod_pow_by_zero_partial",
    "C08_mod_pow_by_zero_refuted"
   ],
   "note": "/, %, div_rem proved for all operands. False for mod_pow with |v| < 2^31 and e >= 2^32: PowMod.cpp:91-102 divides by zero in hardware (C08_mod_pow_by_zero_refuted); DivideByZero everywhere else (C08_mod_pow_by_zero_partial)."
  },
  {
   "property": "C09",
   "status": "proved",
   "theorems": [
    "C09_compare_to",
    "C09_order_operators"
   ],
   "note": ""
  },
  {
   "property": "C10",
   "status": "proved",
   "theorems": [
    "C10_equality",
    "C10_hash"
   ],
   "note": ""
  },
  {
   "property": "C11",
   "status": "partial",
   "theorems": [
    "C11_shl_every_case",
    "C11_shl_exact",
    "C11_shl_negative_count",
    "C11_shl_int_min_partial"
   ],
   "note": "Non-negative and negative counts proved for all values; << INT_MIN of a negative value of 2^26 limbs or more overflows an int in the code (BigInteger.cpp:1064-1066)."
  },
  {
   "property": "C12",
   "status": "partial",
   "theorems": [
    "C12_shr_every_case_refuted",
    "C12_shr_floor_partial",
    "C12_shr_negative_count",
    "C12_shr_refuted",
    "C12_shr_wide_refuted"
   ],
   "note": "False of the code. Exact failing region shr_bad proved in C12_shr_refuted (result 0), plus negative values of 2^26 limbs and more (C12_shr_wide_refuted); correct everywhere else. C12_shr_every_case_refuted gives the exact outcome of every shift."
  },
  {
   "property": "C13",
   "status": "proved",
   "theorems": [
    "C13_bitwise_exact",
    "C13_bitwise_bits"
   ],
   "note": ""
  },
  {
   "property": "C14",
   "status": "proved",
   "theorems": [
    "C14_pow_exact",
    "C14_pow_overflow",
    "C14_pow_negative"
   ],
   "note": ""
  },
  {
   "property": "C15",
   "status": "partial",
   "theorems": [
    "C15_mod_pow_small_partial",
    "C15_mod_pow_small_refuted",
    "C15_mod_pow_negative"
   ],
   "note": "False of the code when the remainder is negative: -1 * bits in uint32_t gives the remainder plus 2^32 (C15_mod_pow_small_refuted); correct everywhere else, so the behaviour is fully characterised."
  },
  {
   "property": "C16",
   "status": "proved",
   "theorems": [
    "C16_mod_pow_exact"
   ],
   "note": ""
  },
  {
   "property": "C17",
   "status": "partial",
   "theorems": [
    "C17_mod_pow_every_case_refuted",
    "C17_mod_pow_right_iff",
    "C17_mod_pow_large_partial",
    "C17_mod_pow_large_refuted",
    "C17_exponent_0_partial",
    "C17_exponent_1_partial",
    "C17_exponent_2_refuted",
    "C17_unit_base_partial"
   ],
   "note": "False of the code: FastReducer::Reduce takes the value by copy, nothing is reduced, and limbs above the shortened length leak into later products. C17_mod_pow_every_case_refuted gives the exact result for every base, exponent and modulus as a function on integers (leaky_mod_pow in SpecModPow.v), C17_mod_pow_right_iff the calls that are right. Wrong for every base of the same limb count >= modulus already at exponent 1; right when no reduction is needed, for exponent 0, for exponent 1 with a reduced or longer base, and for bases -1, 0, 1."
  },
  {
   "property": "C18",
   "status": "partial",
   "theorems": [
    "C18_gcd_small_partial",
    "C18_gcd_euclid_partial",
    "C18_gcd_divides_partial",
    "C18_gcd_refuted",
    "C18_gcd_close_refuted",
    "C18_gcd_regions",
    "C18_gcd_uneven_refuted",
    "C18_gcd_exact_refuted",
    "C18_gcd_more_rounds",
    "C18_gcd_arrays_refuted"
   ],
   "note": "False of the code: lehmer_core works on copies. C18_gcd_exact_refuted gives the outcome for all operands and every number of rounds as a function on integers (result, assertion, out-of-bounds read, or not done), C18_gcd_arrays_refuted the same for the limb-array overload. Operands fall into three exclusive and exhaustive regions (C18_gcd_regions): no Lehmer step met (the result is right), a step met with operands of equal length (infinite loop or failed assertion), a step met with the longer operand one limb longer (it is overwritten; C18_gcd_uneven_refuted gives a closed form when only its two low limbs matter). Right when the smaller operand is below 2^64 and when one divides the other."
  },
  {
   "property": "C19",
   "status": "partial",
   "theorems": [
    "C19_to_string_partial",
    "C19_to_string_refuted",
    "C19_to_string_too_large",
    "C19_numeral_unique"
   ],
   "note": "False of the code: for a negative value of magnitude >= 2^31 whose digit count is a multiple of 9 the sign is written at index -1 of the buffer (BigInteger.cpp:907-911). Exact failing region sign_hits proved in C19_to_string_refuted, correct everywhere else; above INT_MAX/10 limbs it throws."
  },
  {
   "property": "C20",
   "status": "partial",
   "theorems": [
    "C20_parse_exact",
    "C20_round_trip_partial"
   ],
   "note": "parse proved for every string. The round trip is proved wherever to_string is defined (see C19)."
  },
  {
   "property": "C21",
   "status": "partial",
   "theorems": [
    "C21_try_parse_partial",
    "C21_try_parse_refuted"
   ],
   "note": "False of the code: try_parse returns true for every string (C21_try_parse_refuted); the stored value is right."
  },
  {
   "property": "C22",
   "status": "partial",
   "theorems": [
    "C22_of_bytes_partial",
    "C22_of_bytes_refuted"
   ],
   "note": "Proved for every byte string when shifting a negative int is arithmetic; under strict C++ semantics a negative string of at most 4 bytes is undefined behaviour (C22_of_bytes_refuted)."
  },
  {
   "property": "C23",
   "status": "partial",
   "theorems": [
    "C23_to_bytes_shortest",
    "C23_to_bytes_throws",
    "C23_bytes_round_trip_partial"
   ],
   "note": "Minimality and throwing proved for all values; round trip proved except for the byte constructor's undefined shifts under strict semantics (-2^31 <= x < 0, see C22)."
  },
  {
   "property": "C24",
   "status": "proved",
   "theorems": [
    "C24_byte_count_length",
    "C24_byte_count_value"
   ],
   "note": ""
  },
  {
   "property": "C25",
   "status": "partial",
   "theorems": [
    "C25_narrow_partial",
    "C25_narrow_refuted"
   ],
   "note": "Proved for all values when signed overflow wraps; under strict C++ semantics the two minimum values are undefined behaviour (C25_narrow_refuted)."
  },
  {
   "property": "C26",
   "status": "partial",
   "theorems": [
    "C26_ctor_partial",
    "C26_ctor_refuted"
   ],
   "note": "Proved for all arguments when signed overflow wraps; INT64_MIN is undefined behaviour under strict C++ semantics (C26_ctor_refuted)."
  },
  {
   "property": "C27",
   "status": "proved",
   "theorems": [
    "C27_of_double_truncates",
    "C27_of_double_throws"
   ],
   "note": ""
  },
  {
   "property": "C28",
   "status": "proved",
   "theorems": [
    "C28_to_double_truncates",
    "C28_to_double_infinity",
    "C28_to_double_exact",
    "C28_round_trip"
   ],
   "note": ""
  },
  {
   "property": "C29",
   "status": "proved",
   "theorems": [
    "C29_bit_length_least"
   ],
   "note": ""
  },
  {
   "property": "C30",
   "status": "proved",
   "theorems": [
    "C30_predicates"
   ],
   "note": ""
  },
  {
   "property": "C31",
   "status": "partial",
   "theorems": [
    "C31_post_inc_refuted",
    "C31_post_dec_refuted"
   ],
   "note": "False of the code: the expression never yields the old value."
  },
  {
   "property": "C32",
   "status": "partial",
   "theorems": [
    "C32_add_sub_mul_defined",
    "C32_div_rem_defined",
    "C32_compare_defined",
    "C32_bitwise_defined",
    "C32_pow_defined",
    "C32_shift_left_defined",
    "C32_shift_partial",
    "C32_shift_refuted"
   ],
   "note": "Every operator, including zero divisors and overflowing exponents, is well defined and independent of the build for all canonical operands, except right shifts of negative values of 2^26 limbs or more: 32*length overflows int there (refuted)."
  },
  {
   "property": "C33",
   "status": "partial",
   "theorems": [
    "C33_self_assign",
    "C33_assign_exact",
    "C33_div_rem_no_alias",
    "C33_div_rem_alias_partial",
    "C33_div_rem_alias_small",
    "C33_div_rem_alias_large",
    "C33_div_rem_dividend_refuted",
    "C33_div_rem_divisor_refuted",
    "C33_div_rem_sign_refuted"
   ],
   "note": "All eight compound assignments are alias-safe and exact, for every store. div_rem is not: its behaviour under every aliasing pattern is characterised; it is wrong or divides by zero when the remainder overwrites a small operand, and can have the wrong sign for negative dividends (refuted)."
  },
  {
   "property": "C34",
   "status": "proved",
   "theorems": [
    "C34_ring_laws",
    "C34_euclid_law"
   ],
   "note": ""
  },
  {
   "property": "C35",
   "status": "partial",
   "theorems": [
    "C35_from_int_partial",
    "C35_from_int_refuted",
    "C35_to_int",
    "C35_round_trip_partial"
   ],
   "note": "Exact for all ints and BigIntegers when left-shifting a negative int wraps; under strict C++ semantics ints in [-2^31, 0) other than -2^24 reach the undefined shift of C22 (C35_from_int_refuted). CPython conversion functions are specified, not modelled."
  },
  {
   "property": "C36",
   "status": "partial",
   "theorems": [
    "C36_hash_partial",
    "C36_hash_refuted"
   ],
   "note": "False of the code: differs from hash(int) for every int of 32 bits (C36_hash_refuted); consistent between BigIntegers (C36_hash_partial)."
  },
  {
   "property": "C37",
   "status": "proved",
   "theorems": [
    "C37_to_words_shortest",
    "C37_of_words_exact",
    "C37_words_round_trip"
   ],
   "note": ""
  },
  {
   "property": "C38",
   "status": "proved",
   "theorems": [
    "C38_log_negative",
    "C38_log_small",
    "C38_log_base_infinite",
    "C38_log_base_zero",
    "C38_log_base_nan",
    "C38_log_split",
    "C38_log_real",
    "C38_log_bases"
   ],
   "note": "Up to floating-point rounding, as the statement says. C38_log_real and C38_log_bases use the axioms of the Coq standard library reals (listed by Print Assumptions); the other C38 theorems are closed."
  },
  {
   "property": "C39",
   "status": "proved",
   "theorems": [
    "C39_throw_unchanged",
    "C39_throws_iff",
    "C39_div_rem_unchanged"
   ],
   "note": "For arbitrary field contents the store after a throw is the store before; throwing happens exactly for / and % by zero. div_rem likewise."
  },
  {
   "property": "C40",
   "status": "proved",
   "theorems": [
    "C40_two_decrements",
    "C40_two_decrements_rem"
   ],
   "note": "The division core with a budget of two decrements per digit equals the unbounded one and is correct; one decrement does not suffice. The add-back is an if in the code, so at most one by construction; its asserts hold."
  },
  {
   "property": "C41",
   "status": "partial",
   "theorems": [
    "C41_compare_int",
    "C41_arith_int",
    "C41_arith_reflected",
    "C41_div_int",
    "C41_div_reflected",
    "C41_div_by_zero"
   ],
   "note": "Proved for every int the bindings convert without undefined behaviour (all of them when shifts wrap; see C35)."
  },
  {
   "property": "C42",
   "status": "partial",
   "theorems": [
    "C42_buffer_partial",
    "C42_buffer_refuted"
   ],
   "note": "False of the code: strides are ignored; every reversed view of two or more bytes is read out of bounds (C42_buffer_refuted). Proved for contiguous buffers."
  },
  {
   "property": "C43",
   "status": "partial",
   "theorems": [
    "C43_floor_partial",
    "C43_floor_refuted"
   ],
   "note": "False of the code (truncated division): exact region of agreement and exact difference elsewhere."
  },
  {
   "property": "C44",
   "status": "partial",
   "theorems": [
    "C44_lshift",
    "C44_rshift_partial",
    "C44_pow",
    "C44_rpow"
   ],
   "note": "Left shift and pow proved; right shift outside the failing region of C12; n = -2^31 excluded (C25)."
  },
  {
   "property": "C45",
   "status": "partial",
   "theorems": [
    "C45_divmod_partial",
    "C45_divmod_big_partial",
    "C45_divmod_refuted",
    "C45_rdivmod_partial",
    "C45_rdivmod_refuted"
   ],
   "note": "False of the code: inherits C07 (wrong remainder) and, for the reflected form, C19 (buffer overrun in to_string)."
  },
  {
   "property": "C46",
   "status": "partial",
   "theorems": [
    "C46_history_exact_partial",
    "C46_effect_total",
    "C46_effect_unique"
   ],
   "note": "Proved for every history all of whose calls are in scope; the calls out of scope are those the other properties show wrong (C07, C12, C15, C17, C18, C21, C33) or undefined in strict builds (C22, C26), mod_pow with a modulus of 32 limbs or more when a reduction is needed, and the raw limb-array overloads."
  },
  {
   "property": "C47",
   "status": "partial",
   "theorems": [
    "C47_pow_mod_partial"
   ],
   "note": "Proved where mod_pow itself is right (C08, C15, C16, C17); the code deviates in the other cases, see those properties' refutations."
  },
  {
   "property": "C48",
   "status": "partial",
   "theorems": [
    "C48_bytes",
    "C48_to_array",
    "C48_to_array_negative",
    "C48_bytes_round_trip_partial"
   ],
   "note": "Encoding fully proved; the round trip through the buffer constructor excludes C22's strict-mode shift of a negative int (value in [-2^31,0))."
  },
  {
   "property": "C49",
   "status": "partial",
   "theorems": [
    "C49_reduce_partial",
    "C49_reduce_refuted",
    "C49_constructor"
   ],
   "note": "Holds except that reducing a value of 2n limbs by m = 2^(32(n-1)) writes past the buffer _q1 in every build; proved for all other inputs and all reducer histories."
  },
  {
   "property": "C50",
   "status": "partial",
   "theorems": [
    "C50_assert_iff",
    "C50_mod_pow_undefined_refuted",
    "C50_mod_pow_partial",
    "C50_reduced_base_partial",
    "C50_overrun_refuted",
    "C50_assert_refuted"
   ],
   "note": "Undefined exactly on mod_pow_undefined (modulus zero with a small base and long exponent; modulus 2^(32(n-1)), n >= 32, with an n-limb base whose square has 2n limbs). Elsewhere returns or throws in a release build. In a debug build an assert can fail on such a call (C50_assert_refuted), exactly when power_mod true says so (C50_assert_iff): leftovers in the buffers of the reducer."
  },
  {
   "property": "C51",
   "status": "partial",
   "theorems": [
    "C51_float_partial",
    "C51_float_refuted",
    "C51_float_rounds_twice",
    "C51_float_infinity",
    "C51_nearest",
    "C51_tie_to_even"
   ],
   "note": "Holds unless the value lies above a tie by less than a double ulp (just_above_tie); there it is one ulp too low, always (C51_float_refuted). The double-to-float conversion is modelled as IEEE round-to-nearest-even."
  },
  {
   "property": "C52",
   "status": "proved",
   "theorems": [
    "C52_float",
    "C52_float_overflow",
    "C52_float_double"
   ],
   "note": "CPython's int-to-float conversion is specified in SpecPy.py_int_float and shown to round to nearest even."
  },
  {
   "property": "C53",
   "status": "partial",
   "theorems": [
    "C53_bytes_written_partial",
    "C53_bytes_written_refuted",
    "C53_null_refuted",
    "C53_unsigned_throws"
   ],
   "note": "False of the code: AllocateArray stores nothing for a non-zero value (C53_bytes_written_refuted); the null pointer is dereferenced exactly in Count mode and for zero (C53_null_refuted). Right in the remaining cases."
  },
  {
   "property": "C54",
   "status": "proved",
   "theorems": [
    "C54_call_exact",
    "C54_program_exact"
   ],
   "note": ""
  },
  {
   "property": "C55",
   "status": "proved",
   "theorems": [
    "C55_undefined_calls"
   ],
   "note": "Proved for all calls with arguments of the right C++ types."
  },
  {
   "property": "C56",
   "status": "proved",
   "theorems": [
    "C56_add_parts",
    "C56_sub_parts",
    "C56_add_parts_of_objects",
    "C56_sub_parts_of_objects"
   ],
   "note": "Exact outcome of both overloads on all arguments, and what it comes to on the parts of two objects."
  },
  {
   "property": "C57",
   "status": "proved",
   "theorems": [
    "C57_win_add",
    "C57_win_subtract",
    "C57_win_increment",
    "C57_win_decrement",
    "C57_win_complement"
   ],
   "note": "Exact outcome for all operands in the LLP64 reading; it is not the integer result in the stated regions."
  },
  {
   "property": "C58",
   "status": "proved",
   "theorems": [
    "C58_win_every_compiler"
   ],
   "note": "For every function f a compiler may use."
  },
  {
   "property": "C59",
   "status": "proved",
   "theorems": [
    "C59_win_multiply",
    "C59_win_power"
   ],
   "note": "Exact outcome for all operands and exponents."
  },
  {
   "property": "C60",
   "status": "proved",
   "theorems": [
    "C60_win_mod_pow_negative",
    "C60_win_mod_pow_small",
    "C60_win_mod_pow_large",
    "C60_win_mod_pow_rem",
    "C60_win_gcd"
   ],
   "note": "Exact for all operands; below 32 limbs it is reduced to the LP64 function, whose own description is C17/C54."
  },
  {
   "property": "C61",
   "status": "proved",
   "theorems": [
    "C61_win_long",
    "C61_win_ulong",
    "C61_win_bit_length"
   ],
   "note": "Exact for all operands."
  },
  {
   "property": "C62",
   "status": "proved",
   "theorems": [
    "C62_win_to_double",
    "C62_win_to_double_any",
    "C62_win_to_float",
    "C62_win_of_double",
    "C62_win_parse",
    "C62_win_try_parse"
   ],
   "note": "Exact outcome for all operands in the LLP64 reading, where the over-wide shift is undefined. C62_win_to_double_any: whatever value the compiler gives it, the double is too small by a factor of at least 2^31."
  },
  {
   "property": "C63",
   "status": "proved",
   "theorems": [
    "C63_log",
    "C63_ln",
    "C63_log10",
    "C63_py_log",
    "C63_py_log_strict",
    "C63_py_ln",
    "C63_py_log10"
   ],
   "note": "Assumes FLT_EVAL_METHOD 0, the default rounding mode and a std::log within one ulp (libm_log, shown satisfiable). Rests on the axioms of the standard library's reals."
  },
  {
   "property": "C64",
   "status": "proved",
   "theorems": [
    "C64_win_call_exact",
    "C64_win_program_exact",
    "C64_win_reachable_canonical",
    "C64_win_post_inc",
    "C64_win_post_dec"
   ],
   "note": "Exact for all calls and programs; wrong or undefined where actual_win says so."
  },
  {
   "property": "C65",
   "status": "proved",
   "theorems": [
    "C65_win_gcd_every_case",
    "C65_win_gcd_bits",
    "C65_win_add_parts",
    "C65_win_sub_parts",
    "C65_win_mod_pow_every_case"
   ],
   "note": "Exact for all operands and arrays."
  },
  {
   "property": "C66",
   "status": "proved",
   "theorems": [
    "C66_py_expression_exact",
    "C66_py_script_exact"
   ],
   "note": ""
  },
  {
   "property": "C67",
   "status": "proved",
   "theorems": [
    "C67_hash_exact",
    "C67_text_exact"
   ],
   "note": ""
  },
  {
   "property": "C68",
   "status": "proved",
   "theorems": [
    "C68_is_finite",
    "C68_is_nan",
    "C68_is_infinity",
    "C68_win_refuted",
    "C68_win_log",
    "C68_win_log_meaning",
    "C68_win_ln"
   ],
   "note": "Exact on both data models. C68_win_refuted is the LLP64 half: there the three tests do not decide the class. The C68_win_log* theorems use the standard library's reals."
  },
  {
   "property": "C69",
   "status": "proved",
   "theorems": [
    "C69_py_any_expression",
    "C69_py_any_script",
    "C69_sum"
   ],
   "note": "Exact. String formatting with % is the one operator left out (given the outcome NoFuel in model and specification); keyword arguments and subclasses are not modelled."
  },
  {
   "property": "C70",
   "status": "proved",
   "theorems": [
    "C70_py_log",
    "C70_py_log_one"
   ],
   "note": "For ints, on a build where shifts of negative values are undefined (strict), -2^31 <= x < 0 is excluded (C42). Uses the standard library's reals."
  },
  {
   "property": "C71",
   "status": "partial",
   "theorems": [
    "C71_equality_refuted",
    "C71_pow_ints_refuted",
    "C71_truth_refuted"
   ],
   "note": "The code violates each part: == and != raise TypeError for every object that is not an int, bool or BigInteger, pow(a, n, m) with two ints raises TypeError, and every BigInteger is true, zero included."
  },
  {
   "property": "C72",
   "status": "partial",
   "theorems": [
    "C72_initialise",
    "C72_after",
    "C72_unaffected",
    "C72_ints_refuted",
    "C72_arithmetic_refuted",
    "C72_unary_refuted",
    "C72_bits_refuted",
    "C72_sequences_refuted",
    "C72_bytes_refuted",
    "C72_shifts_refuted",
    "C72_pow_refuted",
    "C72_pow_zero_refuted"
   ],
   "note": "False of the code before initialisation: -2^31 made by an int constructor or small + - *, -1 made from bytes, dwords, bit operations or a long right shift, and pow(x, 0) and pow(-1, even) become 0; exactly those results, all others are right. Division, remainder, gcd, mod_pow, parse and double conversion are unaffected. No open part."
  },
  {
   "property": "C73",
   "status": "partial",
   "theorems": [
    "C73_every_operand",
    "C73_table",
    "C73_every_modulus",
    "C73_bytes",
    "C73_shift",
    "C73_unary",
    "C73_binary",
    "C73_binary_rejects",
    "C73_ternary",
    "C73_unknown_refuted"
   ],
   "note": "All operations are exact and unknown binary operators are rejected; C73_unknown_refuted: the test `op == \"uMultiply\" || \"u*\"` is always true, so an unknown unary operator squares. C73_every_operand, C73_every_modulus: the exact results also for a divisor 0, negative exponents and shifts of any size. Wrapping arithmetic (strict=false). Logarithms are parameters."
  },
  {
   "property": "C74",
   "status": "partial",
   "theorems": [
    "C74_tokens",
    "C74_notation",
    "C74_blanks_refuted"
   ],
   "note": "C74_blanks_refuted: the value survives exactly when no byte is 0x20; the value read instead is given."
  },
  {
   "property": "C75",
   "status": "partial",
   "theorems": [
    "C75_verdict",
    "C75_fails_only_by",
    "C75_div_rem_refuted"
   ],
   "note": "C75_verdict gives the end of every such test as a function on integers. C75_div_rem_refuted: a wrong remainder of div_rem goes unnoticed in release builds and aborts debug builds. Wrapping arithmetic (strict=false)."
  },
  {
   "property": "C76",
   "status": "partial",
   "theorems": [
    "C76_same_operands_refuted",
    "C76_never_negative_refuted",
    "C76_zero_operand",
    "C76_div_rem",
    "C76_div_rem_samples"
   ],
   "note": "Refuted: the generator is passed by value, so all samples coincide and both operands of a sample are equal; no random operand is negative; the tests of div_rem with random operands pass whatever C07 says."
  },
  {
   "property": "C77",
   "status": "partial",
   "theorems": [
    "C77_gcd_ends_refuted",
    "C77_gcd_for_ever_refuted",
    "C77_gcd_settled",
    "C77_gcd_bits_settled",
    "C77_program_settled",
    "C77_win_gcd_ends"
   ],
   "note": "False of the code: the loop can run for ever. Exact: after 2(log2|x| + log2|y|) + 4 rounds it has ended or never will, and it never will exactly on the operands that lead to a pair which a round leaves as it is or two rounds exchange and exchange back. Programs therefore have an outcome that no further rounds change. With a 32-bit long the loop always ends."
  },
  {
   "property": "C78",
   "status": "partial",
   "theorems": [
    "C78_line_exact_refuted",
    "C78_stale_refuted",
    "C78_int_refuted",
    "C78_file_exact",
    "C78_every_file"
   ],
   "note": "Refuted: patterns are replaced in the line as read, so only the last listed pattern that occurs in a line is replaced (C78_line_exact_refuted, for every line), the others stay (C78_stale_refuted); __int__ becomes __int_ (C78_int_refuted). The whole file, exactly: C78_file_exact."
  },
  {
   "property": "C79",
   "status": "proved",
   "theorems": [
    "C79_init",
    "C79_to_array",
    "C79_log",
    "C79_others",
    "C79_positional",
    "C79_log_positional"
   ],
   "note": "Binding as pybind11's dispatcher does it, overload by overload, against a declarative statement of Python's rule; what the positional calls do is C69 and C70."
  },
  {
   "property": "C80",
   "status": "partial",
   "theorems": [
    "C80_byte_count",
    "C80_to_bytes_partial",
    "C80_to_bytes_throws",
    "C80_of_bytes_partial",
    "C80_byte_count_refuted",
    "C80_to_bytes_refuted",
    "C80_of_bytes_prefix_refuted",
    "C80_of_bytes_strict_refuted",
    "C80_of_bytes_zero_refuted",
    "C80_of_bytes_min_refuted"
   ],
   "note": "True below 2^31 bytes. Refuted from there on, because the lengths are ints: get_byte_count is the length wrapped to 32 bits (C80_byte_count), to_byte_array throws std::length_error or writes out of bounds (C80_to_bytes_refuted), the constructor yields 0, or the value of a prefix, or overflows (C80_of_bytes_*_refuted); these cases cover every length."
  },
  {
   "property": "C81",
   "status": "partial",
   "theorems": [
    "C81_identity",
    "C81_library_alone",
    "C81_both_differ_refuted",
    "C81_modulus_refuted"
   ],
   "note": "Refuted: the last result is never checked against the reference implementation, two calculations that both went wrong end with -33 and compare equal (C81_both_differ_refuted), and op_modulus.cpp runs the first text twice, so its identity tests never fail (C81_modulus_refuted). Exact verdict for every pair of texts: C81_identity; C81_library_alone: it depends on the library's numbers only, apart from -33 and an exception of the reference implementation. Wrapping arithmetic (strict=false)."
  },
  {
   "property": "C82",
   "status": "partial",
   "theorems": [
    "C82_expected",
    "C82_is_power",
    "C82_random_refuted",
    "C82_power_partial",
    "C82_power_refuted",
    "C82_samples_exact"
   ],
   "note": "Refuted: the arrays declared in the branches of GetRandomByteArray hide the returned one, so both random integers are 0 (C82_random_refuted); the inclusive bounds of Next write past the array, negate the power or convert 256 to a byte (C82_power_refuted). CheckExpected is right for every array; C82_samples_exact gives the verdict for all draws."
  },
  {
   "property": "C83",
   "status": "partial",
   "theorems": [
    "C83_numeral_partial",
    "C83_min_refuted",
    "C83_even_tests",
    "C83_signed_bytes"
   ],
   "note": "Refuted when the engine yields 2^31: Next() overflows in abs, and with wrapping arithmetic BuildRandomNumber then appends digits until the text has nearly 2^64 characters (C83_min_refuted). Proved for all engines that do not yield 2^31 (C83_numeral_partial, C83_even_tests); C83_signed_bytes for all draws."
  },
  {
   "property": "C84",
   "status": "partial",
   "theorems": [
    "C84_log10",
    "C84_ln",
    "C84_special",
    "C84_undefined_refuted",
    "C84_ratio",
    "C84_ratio_special",
    "C84_ratio_refuted",
    "C84_same_log10",
    "C84_same_ratio"
   ],
   "note": "Proved for every operand whose logarithm L has no integer within L(L+64)/2^52 (C84_log10, C84_ln, C84_ratio), for all operands without a regular logarithm (C84_special, C84_ratio_special), and without any condition below 2^31 for uLog10 and bLog. Refuted: the reference implementation converts NaN and minus infinity to int (undefined), and for numbers from 2^1024 on its bLog is -103. Closer to an integer the results depend on the C library's rounding."
  },
  {
   "property": "C85",
   "status": "proved",
   "theorems": [
    "C85_large_values"
   ],
   "note": "For every call with arguments in the stated ranges, which include both of the test. std::log is any function meeting libm_log; the tolerance any double within 10^-16 of 10^-15."
  },
  {
   "property": "C86",
   "status": "partial",
   "theorems": [
    "C86_new_value",
    "C86_new_words",
    "C86_multiply_self",
    "C86_square_self",
    "C86_reduce_words",
    "C86_reduce_buffer",
    "C86_overwrite64_refuted",
    "C86_overwrite32_refuted",
    "C86_refresh_refuted"
   ],
   "note": "Proved for the constructors, MultiplySelf, SquareSelf and both Reduce with a modulus. Refuted, with the exact condition, for Overwrite(uint64_t), Overwrite(uint32_t) and Refresh, whose std::fill overwrites the low words instead of clearing the high ones. Reduce(FastReducer&) is covered by the Barrett properties."
  },
  {
   "property": "C87",
   "status": "proved",
   "theorems": [
    "C87_named_functions"
   ],
   "note": ""
  },
  {
   "property": "C88",
   "status": "proved",
   "theorems": [
    "C88_unary_tests",
    "C88_not_test",
    "C88_binary_tests",
    "C88_and_test",
    "C88_xor_test",
    "C88_products",
    "C88_product_laws",
    "C88_division",
    "C88_quotient_laws",
    "C88_remainder_laws",
    "C88_boundary"
   ],
   "note": ""
  },
  {
   "property": "C89",
   "status": "proved",
   "theorems": [
    "C89_shift_tests",
    "C89_shift_sample",
    "C89_power_tests",
    "C89_powers_of"
   ],
   "note": "For builds where signed overflow wraps around (strict c = false), as C88."
  },
  {
   "property": "C90",
   "status": "proved",
   "theorems": [
    "C90_gcd_test",
    "C90_modpow_tests",
    "C90_modpow_ends"
   ],
   "note": "For builds where signed overflow wraps around (strict c = false), as C88."
  },
  {
   "property": "C91",
   "status": "proved",
   "theorems": [
    "C91_property_tests",
    "C91_predicate_tests",
    "C91_even_test",
    "C91_even_test_passes",
    "C91_power_of_two_test"
   ],
   "note": "Which draws make the test of is_even overflow or loop is not stated beyond C83."
  },
  {
   "property": "C92",
   "status": "partial",
   "theorems": [
    "C92_log_tests",
    "C92_log_tests_end",
    "C92_log_near",
    "C92_log_tests_refuted"
   ],
   "note": "For builds in which shifting a negative number wraps (strict false). Whether numbers above 2^31 with a logarithm close to an integer pass depends on the library functions; for those only that the test ends is proved. The claim that the tests are defined is refuted where the conversion of a NaN or infinity to int is undefined."
  },
  {
   "property": "C93",
   "status": "partial",
   "theorems": [
    "C93_log_test_passes",
    "C93_logs_close",
    "C93_log_test_fails_refuted",
    "C93_log_test_fails_later_refuted",
    "C93_log_test_hangs_refuted",
    "C93_log_test_undefined_refuted",
    "C93_log_test_disagrees_refuted",
    "C93_log_test_ends"
   ],
   "note": "For builds in which shifting a negative number wraps (strict false). Whether ApproxEqual holds for values of 2^31 or more with its tolerance of about 10^-15 depends on the library functions and is a hypothesis of C93_log_test_passes; C93_logs_close proves it below 2^31. The claim that the test passes is refuted for the draws named in the statement."
  },
  {
   "property": "C94",
   "status": "partial",
   "theorems": [
    "C94_compare",
    "C94_equals",
    "C94_operators",
    "C94_partial",
    "C94_equal_refuted",
    "C94_order_refuted"
   ],
   "note": "C94_compare, C94_equals and C94_operators give the exact outcome for every pair of integers of any size; C94_partial is the claim below 2^31 limbs, C94_equal_refuted and C94_order_refuted show it false from there on."
  },
  {
   "property": "C95",
   "status": "partial",
   "theorems": [
    "C95_left",
    "C95_right",
    "C95_left_partial",
    "C95_right_partial",
    "C95_left_overflow_refuted",
    "C95_left_throws_refuted",
    "C95_left_zero_refuted",
    "C95_right_refuted"
   ],
   "note": "C95_left and C95_right give the exact outcome for every integer of any size and every int shift; the _partial theorems are the claim for sizes that fit, the _refuted ones show it false beyond."
  },
  {
   "property": "C96",
   "status": "proved",
   "theorems": [
    "C96_high_zero32",
    "C96_high_zero64",
    "C96_make_ulong",
    "C96_combine_hash",
    "C96_twos_complement",
    "C96_double_parts",
    "C96_double_from_parts",
    "C96_double_round_trip"
   ],
   "note": "Proved for all arguments; get_double_from_parts for exponents away from the ends of int, where its additions would overflow."
  },
  {
   "property": "C97",
   "status": "partial",
   "theorems": [
    "C97_power_of_two",
    "C97_bit_length",
    "C97_long",
    "C97_hash",
    "C97_double",
    "C97_partial",
    "C97_refuted"
   ],
   "note": "Proved as stated below 2^31 limbs (C97_partial; operator long of -2^63 is undefined where signed overflow is, C25). From there on the int limb count wraps: C97_refuted shows operator long and unsigned long returning the low 32 bits, the hash of the sign only, and reads outside the array in is_power_of_two, get_bit_length and operator double. C97_power_of_two, C97_bit_length, C97_long, C97_hash and C97_double say what every call does."
  },
  {
   "property": "C98",
   "status": "partial",
   "theorems": [
    "C98_sum",
    "C98_difference",
    "C98_partial",
    "C98_short",
    "C98_refuted"
   ],
   "note": "Proved as stated below 2^31 limbs (C98_partial; 2^31 - 1 of them overflow an int in an assertion, which is undefined where signed overflow is) and for an int with a number of up to 2^32 - 2 limbs (C98_short). For two numbers of 2^31 limbs and more the int limb counts are negative: C98_refuted shows an assertion failing, or without assertions 1 or -1 for every sum and difference, x - x among them. C98_sum and C98_difference say what every call does."
  },
  {
   "property": "C99",
   "status": "partial",
   "theorems": [
    "C99_big_endian",
    "C99_zero",
    "C99_exact",
    "C99_partial",
    "C99_refuted"
   ],
   "note": "Holds of the default order (C35) and of ints of one byte (C99_partial). With is_bigendian the bytes are written highest first but read lowest first: C99_big_endian says what every call returns (but for results of [-2^31, 0) where shifts of negative ints are undefined, C22), C99_exact that it is the value exactly when its bytes are a palindrome, C99_refuted that any other int is changed."
  },
  {
   "property": "C100",
   "status": "partial",
   "theorems": [
    "C100_text",
    "C100_partial",
    "C100_refuted"
   ],
   "note": "Holds below 2^31 limbs but for the negative numbers of C19 (C100_partial). From there on C100_refuted: 10 times the int limb count overflows, std::length_error is thrown, the leading block is read at index -1, or above 2^32 limbs the text is that of the low limbs, so 2^(2^37) + 5 prints as 5. C100_text says what every call does."
  },
  {
   "property": "C101",
   "status": "partial",
   "theorems": [
    "C101_bitwise",
    "C101_words",
    "C101_partial",
    "C101_refuted",
    "C101_constructor_refuted"
   ],
   "note": "Holds of operands of fewer than 2^31 - 1 limbs (C101_partial) and arrays of fewer than 2^31 words. C101_refuted: with 2^31 limbs the size of the buffer overflows or std::length_error is thrown, with up to 2^32 limbs the scan for the leading word starts out of bounds, and above 2^32 limbs the high limbs are lost. C101_constructor_refuted: 2^31 words and more are read as a magnitude, so the words of -1 give a positive number, and 2^32 words as zero. C101_bitwise and C101_words say what every call does; arrays of more than 2^32 words, and those of 2^31 and more with a zero top word, are modelled but have no theorem."
  },
  {
   "property": "C102",
   "status": "partial",
   "theorems": [
    "C102_quotient",
    "C102_remainder",
    "C102_div_rem",
    "C102_partial",
    "C102_int_refuted",
    "C102_long_refuted",
    "C102_bounds_refuted"
   ],
   "note": "Holds of dividends of fewer than 2^31 limbs (C102_partial; div_rem but for C07). C102_int_refuted: a longer one divided by any int gives 1 or -1 and the remainder 0, and dividing it by zero throws nothing. C102_long_refuted: divided by a shorter long number an assertion fails, or the quotient is 0, 1 or -1 and the remainder the dividend. C102_bounds_refuted: for a divisor of 2^31 to 2^32 limbs an int overflows or the arrays are accessed out of bounds. C102_quotient, C102_remainder and C102_div_rem say what every call does."
  },
  {
   "property": "C103",
   "status": "partial",
   "theorems": [
    "C103_product",
    "C103_partial",
    "C103_zero_refuted",
    "C103_long_refuted",
    "C103_bounds_refuted",
    "C103_far_refuted",
    "C103_overflow_refuted"
   ],
   "note": "Holds of operands of fewer than 2^31 limbs together (C103_partial). C103_zero_refuted: 0 times a number of 2^31 - 1 limbs or more is 1 or -1. C103_long_refuted: two numbers of 2^31 limbs and more give an assertion failure, or the product 0, 1 or -1. C103_bounds_refuted, C103_far_refuted: products by shorter numbers are written out of bounds, or an assertion fails. C103_overflow_refuted: where only the sum of the lengths is above 2^31, a signed int overflows. C103_product: what every call does; not modelled is the end of some recursive products whose size does not fit in an int, in builds that wrap."
  },
  {
   "property": "C104",
   "status": "partial",
   "theorems": [
    "C104_gcd",
    "C104_partial",
    "C104_zero",
    "C104_one_refuted",
    "C104_two_refuted",
    "C104_length_refuted"
   ],
   "note": "Holds below 2^31 limbs (C104_partial) and of zero. Refuted above: a number of one limb is returned whether or not it divides, one of two limbs fails an assertion or meets only the low 64 bits, one of three or more ends in std::length_error. C104_gcd says what every modelled call does; not modelled are two numbers of 3 and more limbs of which one has 2^32 or more and a size that comes back positive."
  },
  {
   "property": "C105",
   "status": "partial",
   "theorems": [
    "C105_pow",
    "C105_partial",
    "C105_refuted",
    "C105_lost_refuted"
   ],
   "note": "Holds below 2^31 limbs (C105_partial). Refuted above: the length check overflows an int and there is never a result if the size is negative as an int (C105_refuted); if it comes back positive the high limbs are lost (C105_lost_refuted, C105_lost_case). C105_pow says what every call does."
  },
  {
   "property": "C106",
   "status": "partial",
   "theorems": [
    "C106_mod_pow",
    "C106_partial",
    "C106_base_refuted",
    "C106_exponent_refuted"
   ],
   "note": "Holds up to 2^31 limbs (C106_partial). Refuted above: every power of a longer base is 0 (C106_base_refuted), and the index of a longer exponent overflows an int (C106_exponent_refuted), leaving out limbs where that wraps (C106_exponent_case). C106_mod_pow says what every call does."
  },
  {
   "property": "C107",
   "status": "partial",
   "theorems": [
    "C107_mod_pow",
    "C107_partial",
    "C107_refuted",
    "C107_empty_refuted",
    "C107_base_refuted",
    "C107_both_refuted",
    "C107_exponent_refuted",
    "C107_cut_refuted"
   ],
   "note": "Holds below 2^29 limbs, unless an exponent of more than 2^31 limbs meets a modulus of fewer than 32 (C107_partial). Refuted: std::length_error for moduli of 2^30 to 2^31 limbs (C107_refuted, C107_refuted_case), a write to an empty buffer for 2^31 (C107_empty_refuted), for bases of 2^31 to 2^32 limbs a failed assertion or a copy out of bounds (C107_base_refuted), for longer ones a base cut to its size as an int (C107_cut_refuted, C107_cut_case), and for exponents of more than 2^31 limbs an overflow of the index, or limbs left out (C107_exponent_refuted, C107_exponent_case). If base and modulus both have 2^31 limbs and more every call fails (C107_both_refuted, up to 2^32 limbs). Not described: moduli of 2^29 limbs and more when the buffer holds the base, and of 2^32 limbs and more when the base has as many."
  },
  {
   "property": "C108",
   "status": "partial",
   "theorems": [
    "C108_mod_zero",
    "C108_partial",
    "C108_refuted"
   ],
   "note": "C108_mod_zero says what every call does, C108_partial for just which bases and exponents the claim holds. Refuted for bases that fit in an int (C17) and for those of 2^31 to 2^32 limbs (C108_refuted): exponents from 2^32 on divide by zero."
  }
 ]
}