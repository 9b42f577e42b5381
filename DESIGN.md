# Formal model of BigIntegerCpp in Coq 8.16

## Layout

| files (rocq/theories) | contents |
|---|---|
| `Machine.v` | outcome monad, machine integers, arrays, loops, build configuration (the "C++ subset") |
| `CalcAddSub.v`, `CalcSquMul.v`, `CalcDivRem.v`, `CalcPowMod.v`, `CalcGcd.v` | model of `src/BigIntegerCalculator/*.cpp` (AddSub, SquMul, DivRem, PowMod + BitsBuffer + FastReducer, GcdInv) |
| `BigInt.v`, `BigIntText.v`, `BigIntBytes.v`, `BigIntDouble.v`, `BigIntFloat.v`, `BigIntLog.v`, `BigIntLogDouble.v`, `IntSizes.v`, `IntLimbs.v`, `IntConv.v`, `IntAdd.v`, `IntText.v`, `IntBits.v`, `IntDiv.v`, `IntMul.v`, `IntGcd.v`, `IntPow.v`, `IntModPow.v`, `BufCalls.v` | model of `src/BigInteger.cpp` and `include/NumericsHelpers.h` |
| `ApiMem.v`, `ApiRun.v` | the same calls over a store of objects: aliasing, exceptions, histories of calls |
| `WinCalc.v`, `WinBigInt.v`, `WinLog.v`, `WinRun.v` | the functions of the rows above that differ where `long` has 32 bits (LLP64) |
| `StubFix.v` | model of `tools/fix-stubs.py` |
| `StaticInit.v` | the functions that read the `s_bn*` constants, with the constants as a parameter |
| `PyBind.v`, `PyRun.v`, `PyLog.v`, `PyClass.v`, `PyClassLog.v`, `PyKeywords.v` | model of `bindings/python/python-bindings.cpp`; Python expressions and scripts, on both data models |
| `TestOracle.v`, `TestCalc.v`, `TestRandom.v`, `TestNumbers.v`, `TestLog.v`, `TestBodies.v`, `TestShifts.v`, `TestConstants.v`, `TestLogBody.v` | model of the tests' reference implementation, stack calculator and random operands (`tests/MyBigInt.cpp`, `BitArray.cpp`, `stack_calc.cpp`, `Random.cpp`, `IsPowerOfTwo.cpp`, `IsEven.cpp`, `utils.cpp`, `log.cpp`), and the bodies of the randomised tests |
| `Spec.v`, `SpecApi.v`, `SpecPos.v`, `SpecText.v`, `SpecDouble.v`, `SpecFloat.v`, `SpecGcd.v`, `SpecModPow.v`, `SpecReduce.v`, `SpecLog.v`, `SpecLogDouble.v`, `SpecMem.v`, `SpecRun.v`, `SpecActual.v`, `SpecStatic.v`, `SpecPy.v`, `SpecWin.v`, `SpecWinRun.v`, `SpecPyRun.v`, `SpecPyClass.v`, `SpecPyLog.v`, `SpecOracle.v`, `SpecReference.v`, `SpecGcdEnds.v`, `SpecStub.v`, `SpecKeywords.v`, `SpecSizes.v`, `SpecIdentity.v`, `SpecNumbers.v`, `SpecTestLog.v`, `SpecBuffer.v`, `SpecBodies.v`, `SpecShifts.v`, `SpecLogBodies.v`, `SpecLogTest.v` | specification vocabulary: denoted integer, canonical form, two's complement, numerals, IEEE doubles, integer meaning of a history, CPython conversions. They use the model's data types and, where a notion is about calls, its entry points; never its algorithms |
| `*Facts.v`, `*Laws.v`, `BodyAxioms.v`, `GcdRegions.v`, `GcdExact.v`, `GcdEnds.v`, `ModPowApi.v`, `LargeModPow.v`, `SafeModPow.v`, `AssertCase.v`, `LeakyProduct.v`, `LeakyModPow.v`, `LogReal.v`, `LogGaps.v`, `EvenEnds.v`, `PyPow.v`, `PyFloat.v`, `RunExact.v`, `WinModPowLarge.v`, `WinEvery.v`, `WinGcdExact.v` | lemmas and proofs |
| `Prop*.v` | the property theorems only, each closed by `exact`, `Print Assumptions` beneath, and a concrete `Example` meeting the hypotheses |
| `Examples.v` | tactics and constants used by those examples |
| `RepoTests.v` | literal vectors of the project's own C++ and Python tests evaluated in the model; checks of the transcription, not proofs, and no claim rests on them |

Model files contain no proofs about the code. Every model definition cites the lines it stands for.
A property theorem is named `Cnn_...`; `_partial` marks a statement restricted to the part that
holds, with the full claim in the comment above it; `_refuted` shows the code violating the claim, where
possible as the exact region and the exact wrong result.

## Modelling decisions

* A C++ function is a Gallina function into `outcome A`:
  `Ret a | Throw exn | Undef kind | AssertFail | NoFuel`.
  Undefined behaviour (out-of-bounds access, signed overflow, over-wide or negative-operand shift,
  integer division by zero) is the distinct outcome `Undef`. A failed `assert` is `AssertFail`.
  `NoFuel` is only produced by loops without a syntactic bound; theorems either exclude it or, for
  non-termination findings, show it for every fuel.
* `cfg` has two booleans. `dbg`: `assert` is compiled in (default CMake build) or out (`NDEBUG`,
  the Python wheels). `strict`: signed overflow / left shift of a negative value is undefined
  (C++17 abstract machine) or wraps (what GCC and Clang do for these expressions).
  Theorems quantify over `cfg` and say so when `strict` matters.
* Fixed-width integers are `Z` with explicit wrap-around `u32/u64/s32/s64` at every place the code
  truncates; signed `long` expressions are range-checked (`chk64`, `chk32`).
* Data model: LP64 (`int` 32 bits, `long` 64 bits), arithmetic `>>` on negative values (implementation
  defined, true of GCC/Clang/MSVC). setup.py and build-python.yml also build `win_amd64` wheels, where `long` and
  `unsigned long` have 32 bits (LLP64). `WinCalc.v`/`WinBigInt.v` are a second reading for that data model: a `_w`
  twin of every function that declares a `long` or calls one that does. There `digit >> 32` shifts a 32-bit type by 32,
  which is undefined; the parameter `win` is `None` for that, or `Some f` where the compiler makes it `f digit count`.
* A `std::vector<uint32_t>` is a `list Z`; every element access is bounds-checked and yields `Undef`.
  A `(pointer, length)` pair is the slice it delimits; carving a slice checks bounds; the
  callee returns the new slice contents and the caller splices them back. No two
  slices passed to one call overlap in the code, except as stated at the definition.
* `int`/`size_t` index and length arithmetic is exact (vectors shorter than 2^31 elements; allocation
  never fails), except where the code itself tests or can overflow: `pow_bound`, `to_string`'s
  size checks, `kcbitUint * xl` in `operator>>=`. `IntSizes.v` reads the byte conversions once more with the lengths
  wrapped to `int`, for arrays of any length (C80); `IntLimbs.v` does so for comparison, equality and shifts (C94, C95), `IntConv.v` for conversions, predicates and the hash (C97), `IntAdd.v` for sums and differences (C98), `IntText.v` for `to_string` (C100), `IntBits.v` for the bitwise operators and words (C101), `IntDiv.v` for division (C102), `IntMul.v` for products (C103; where the size of a recursive product does not fit in an int only up to the lengths of the folds), `IntGcd.v` for the greatest common divisor (C104; not for two numbers of 3 and more limbs of which one has 2^32 or more and a size that comes back positive), `IntPow.v` for `pow` (C105) and for `mod_pow` by an int (C106, C108), `IntModPow.v` for `mod_pow` by longer moduli (C107; not for moduli of 2^29 limbs and more whose buffer, as its size wraps, holds the base, nor for moduli and bases of 2^32 limbs and more).
* Implicit conversions are resolved by hand (which constructor an assignment picks; `-1 * rest` on
  `uint32_t` stays unsigned) and the choice is recorded at the definition.
* The constants `s_bn*` are initialised dynamically, so static initialisers of other files may run first. `StaticInit.v`
  gives every function that can read them a `_s` twin that takes their contents; `zeroed` is the state before (an object of
  zero bytes read as sign 0 and an empty vector, as in libstdc++ and libc++; strictly undefined in C++17). The twins
  at `initialised` are the functions of the other files (C72). No twin, because no path reads the constants: the unsigned and
  raw constructors, negation, comparisons, conversions, bit length, hash, log. Calls on the store and LLP64 are not redone.
* `double` is its 64-bit pattern; conversions are modelled bit by bit as the code does. The compiler's double-to-float
  is IEEE round to nearest even (`BigIntFloat.v`).

## Trusted base

* Coq 8.16.1's kernel, including its `vm_compute` machine (used by concrete cases and a few finite table checks).
* What `Print Assumptions` lists: every property theorem is closed under the global context, except
  `C38_log_real`, `C38_log_bases` (PropLog.v) `C63_*` (PropLogDouble.v) and `C68_win_log*`, `C68_win_ln`, `C70_*` (PropClass.v), `C84_*`, `C85_*` (PropTestLog.v), `C92_*` (PropLogBodies.v), `C93_*` (PropLogTest.v), which use the standard library's real numbers and therefore
  `ClassicalDedekindReals.sig_forall_dec`, `ClassicalDedekindReals.sig_not_dec`,
  `FunctionalExtensionality.functional_extensionality_dep` and (all but `C38_log_bases`) `Classical_Prop.classic`. No axiom is declared here. (A whole-library
  listing also shows parameters of `Coq.ssr.ssrunder` and of the sealed modules of `Coq.Reals`: these are
  module-type constants of library files loaded by `lia`/`Reals`, not used by other theorems.)
* The reading of /repo recorded in the model files, the modelling decisions above, and the `Spec*.v` files.

### Modelled

All of `src/BigIntegerCalculator/`, all public members of `BigInteger` except those listed below, the helpers of
`NumericsHelpers.h` they use, and every operator, constructor and method the Python module registers. Of the tests: the reference
implementation on byte strings, the stack calculator with the loops around it, and the drawing of random operands (`TestRandom.v`, `TestNumbers.v`), and the bodies
of the tests of the unary operators, of &, |, ^, min, max, products, quotients and remainders (`TestBodies.v`), of shifts, powers, greatest common divisors and modular powers (`TestShifts.v`), of the constants
and of is_zero, is_one, is_even and is_power_of_two (`TestConstants.v`) and of log(value, base) (`TestLogBody.v`); the
random engine is a parameter, and so are the calculators' logarithms, which `TestLog.v` models with `csharp_log_wrapper`, `ApproxEqual`
and `LargeValueLogTests`. There `std::log10` is any function meeting `libm_log10` (SpecTestLog.v) and the conversion of a NaN or an
infinity to int is a parameter. `tools/fix-stubs.py` is modelled in `StubFix.v`.

### Not modelled

* the C library's `std::log`: in C38 `log` is the expression the code evaluates, over the reals; in C63 the double
  operations are Flocq's binary64 ones and `std::log` is any function meeting `libm_log` (SpecLogDouble.v): the C
  standard's special cases and an error of at most one ulp. Assumed: FLT_EVAL_METHOD 0, rounding to nearest.
* iostream, exception message text, allocation failure, performance, threads.
* pybind11's and CPython's own code: overload resolution and the operator protocol are modelled as documented (`PyClass.v`), the CPython functions called are specified in `SpecPy.v`; reference counting and buffers changing during a call are not modelled.
* Big-endian hosts. In Python: subclasses of BigInteger, `str % x`, pickling and copy.copy.
* gcd's Lehmer loop has no syntactic bound: `greatest_common_divisor` takes fuel, theorems quantify over it.

## Properties

Shape of most statements: `represents a x -> represents b y -> returns (op c a b) (x op y)`, for every
`c : cfg`, where `represents` (Spec.v) is canonical form plus denoted integer.

| property | where | how |
|---|---|---|
| C01, C46 | PropRun | a register machine over API calls (ApiRun); C01 by partial-correctness rules for every call, right or wrong; C46 by refinement to integer stores (SpecRun) on calls in scope |
| C54, C55, C56 | PropActual | SpecActual gives the outcome of each call, right or wrong, as a function on integers; refinement call by call; C55 lists the undefined calls; C56 the limb-array overloads of add and subtract |
| C02, C03, C04, C05, C06, C07, C08, C09, C10, C31, C34 | PropArith (C08 also PropPow) | loop invariants on prefix values; Karatsuba and Toom-2 by induction on recursion fuel, proved sufficient; Knuth D; C07 false of the code (`-1 * rest` in `uint32_t`), and C31 too |
| C11, C12 | PropShift, PropActual | limb-wise shift = multiplication / floor division; C12 false in the region `shr_bad` |
| C13, C37 | PropBits | two's complement dwords through `Z.testbit` |
| C14, C15, C16, C17 | PropPow, PropReduce | buffer invariants and square-and-multiply; C15 false (sign in `uint32_t`); C17 false (reducer works on a copy) |
| C18 | PropGcd | Euclid; the Lehmer step is false of the code (works on copies); the three regions of operands are exact; the outcome for all operands, round by round, as a function on integers |
| C19, C20, C21 | PropText | base 10^9; C19 false in `sign_hits` (write at index -1); C21 false |
| C22, C23, C24, C53 | PropBytes | two's complement bytes; minimality; undefined shift only under `strict`; C53 false (null dereference, result not stored) |
| C25, C26, C29, C30 | PropConv | case analysis; De Bruijn table |
| C27, C28, C38, C51, C63 | PropDouble, PropLog, PropFloat, PropLogDouble | bit patterns against an independent value function; `log` over the reals (C38) and with all roundings by relative-error propagation (C63); C51 false just above ties (double rounding) |
| C32, C40 | PropCore | every operator well defined in every build, except very long right shifts; at most two guess corrections per quotient digit |
| C33, C39 | PropMem | all eight compound assignments over a store; div_rem's aliasing patterns characterised |
| C35, C36, C41-C45, C47, C48, C52 | PropPython | bindings; C36, C42, C43, C45 false of the code |
| C49, C50 | PropReduce | Barrett reduction's length is right; buffer overrun for moduli 2^(32(n-1)); exact undefined calls of mod_pow |
| C57-C62 | PropWin | the LLP64 build: outcome of every affected call as a function on integers; wrong or undefined for most values outside `int`; no compiler's reading of the shift makes subtraction right |
| C64, C65 | PropWinRun | the LLP64 counterpart of C54: every call and program over a store, and the limb-array overloads |
| C68 | PropClass | the three class tests against SpecDouble.v; on LLP64 they see bit 31 only, and log returns the LP64 double all the same |
| C69, C71 | PropPyClass | the registered methods as a table, pybind11's overload resolution and CPython's operator protocol on objects of any type; exact, with TypeError as an outcome |
| C70 | PropClass | the same for log and log10 |
| C72 | PropStatic | calls before the constants are initialised: each function with its exact set of lost results, or proved unaffected |
| C73 | PropOracle, PropIdentity | the tests' byte-string arithmetic is exact on every operator, and its results for meaningless operands; an unknown unary operator squares |
| C74 | PropOracle | a printed byte array is read back unchanged exactly when no byte is a blank |
| C75 | PropOracle | how every stack-calculator test ends; only five tokens can make one fail; wrong div_rem remainders pass in release builds |
| C76 | PropOracle | all samples of a random test coincide, operands equal and never negative; the random div_rem tests cannot see C07 |
| C77 | PropGcdEnds | the gcd loop ends within a bound linear in the bit lengths or never; exactly when never; no further rounds change a program's outcome |
| C78 | PropStub | tools/fix-stubs.py line by line: only the last matching pattern is replaced; `__int__` is renamed |
| C79 | PropKeywords | keyword arguments bind as in Python; every other method rejects them |
| C80 | PropSizes | byte conversions of any length; refuted from 2^31 bytes on, with the exact outcome for every length |
| C81 | PropIdentity | what an identity test compares; refuted: two wrong calculations are equal, and those of the operator % run one text twice |
| C82 | PropNumbers | the random is_power_of_two tests: verdict for every draw; refuted: two operands are always 0, bounds are overrun |
| C83 | PropNumbers | BuildRandomNumber, the random is_even tests, signed byte arrays; refuted when the engine yields 2^31 |
| C84 | PropTestLog | the calculators' logarithms, rounded up where no integer is near; refuted: conversion of NaN to int, numbers from 2^1024 on |
| C85 | PropTestLog | LargeValueLogTests passes for every std::log accurate to one ulp |
| C86 | PropBuffer | BitsBuffer: constructors, products, remainders; refuted: Overwrite and Refresh leave words behind the length |
| C87 | PropBuffer | add, subtract, multiply, divide, remainder and Compare by name |
| C88 | PropBodies | how the randomised tests end: pass, except ~ and ^ when the complement cannot be written, and division when the divisor reads as zero |
| C89 | PropShifts | how the tests of shifts and powers end: as the loop over negative numbers does; the law 0^X = 0 fails when X reads as zero |
| C90 | PropShifts | how the tests of gcd and modular powers end: gcd always passes; modular powers by whether the modulus is 0 or above 2^992 |
| C91 | PropConstants | how the tests of the constants and predicates end: they pass, except minus one where left shifts of negatives are undefined, is_power_of_two as C82 says, and is_even when the engine yields 2^31 |
| C92 | PropLogBodies | how the tests of uLog and uLog10 end: they pass if the drawn number is below 2^31 or its logarithm is not too close to an integer; undefined where converting an infinity to int is |
| C93 | PropLogTest | how the test of log(value, base) ends: the draws with which it fails, never ends or is undefined, and those with which it passes; nothing else can happen |
| C94 | PropLimbs | comparison and equality of integers of any size; limb counts wrap to int, so both fail from 2^31 limbs on |
| C95 | PropLimbs | shifts of integers of any size by every int; what they do when the length of the result does not fit in an int |
| C96 | PropHelpers | every helper of NumericsHelpers.h for all its arguments, also those the library never passes |
| C97 | PropIntConv | conversions, predicates and hash of integers of any size; the limb count wraps to int, so they fail above 2^31 limbs |
| C98 | PropIntAdd | sums and differences of integers of any size; the limb counts wrap to int, so two numbers of 2^31 limbs and more give 1 or -1 |
| C99 | PropPyOrder | to_biginteger with is_bigendian: written highest byte first, read lowest first |
| C100 | PropIntText | to_string of integers of any size; the limb count wraps to int, so from 2^31 limbs on it fails or prints the low limbs |
| C101 | PropIntBits | &, \|, ^, to_uint32_array and BigInteger(uint_array) for any size; from about 2^31 words on they fail, lose the high limbs or take a negative number for a positive one |
| C102 | PropIntDiv | /, % and div_rem for any size; from 2^31 limbs on the quotient is 0, 1 or -1, division by zero is not reported, or the call fails |
| C103 | PropIntMul | * for any size; from 2^31 limbs on zero times a number is 1 or -1, long products are 0, 1 or -1, or the call fails |
| C104 | PropIntGcd | greatest_common_divisor for any size; from 2^31 limbs on a shorter number is returned, meets only 64 bits, fails an assertion or ends in std::length_error |
| C105 | PropIntPow | pow for any size; from 2^31 limbs on the length check overflows an int, or high limbs are lost |
| C106 | PropIntPow | mod_pow by an int for any size; past 2^31 limbs powers of the base are 0, and the index of the exponent overflows |
| C107 | PropIntModPow | mod_pow by long moduli of any size; from 2^30 limbs on std::length_error, or a write to an empty buffer; exponents of more than 2^31 limbs overflow an index |
| C108 | PropIntModZero | mod_pow by 0 for integers of any size; bases of 2^31 to 2^32 limbs are divided by zero |
| C66, C67 | PropPyRun | the Python counterpart of C54, for both data models; hash code and text of every integer |

`SpecModPow.v` describes mod_pow for moduli of 32 limbs or more on integers. What that code returns depends on leftovers
in its buffers, so this description necessarily follows the order of its products; it has no arrays, loops over limbs or carries.

Where the code violates one, a `_refuted` theorem says so and the exact outcome is given as a
function on integers (C54). See the MANIFEST.json notes.

## Mutation log

`seeded/LOG.jsonl` has one line per edited model: the definition, the edit, the claim it breaks, the theorems that
no longer proved, and those tightened because of it.
