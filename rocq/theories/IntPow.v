(** Powers once more, with the lengths the code keeps in [int] wrapped to
    32 bits, so that numbers have any size: pow, and mod_pow by a modulus
    that fits in an int. *)
From Verif Require Import Machine BigInt CalcPowMod IntSizes IntDiv IntGcd.

(** BigIntegerCalculator::pow_bound: PowMod.cpp:28-49 *)
Fixpoint pow_bound_loop_i (fuel : nat) (c : cfg) (power valueLength resultLength : Z) : outcome Z :=
  if power =? 0 then Ret resultLength else
  match fuel with
  | O => NoFuel
  | S fuel =>
      resultLength <-
        (if Z.land power 1 =? 1 then
           room <- chk32 c (INT_MAX - resultLength) ;;
           if valueLength <? room then chk32 c (resultLength + valueLength)
           else Throw OverflowError
         else Ret resultLength) ;;
      valueLength <-
        (if negb (power =? 1) then
           room <- chk32 c (INT_MAX - valueLength) ;;
           if valueLength <? room then chk32 c (valueLength + valueLength)
           else Throw OverflowError
         else Ret valueLength) ;;
      pow_bound_loop_i fuel c (Z.shiftr power 1) valueLength resultLength
  end.

(** An outcome that may be std::length_error, and what follows. *)
Definition then_sized {A B : Type} (m : sized A) (k : A -> outcome B) : sized B :=
  match m with
  | Sized o => Sized (bind o k)
  | LengthError => LengthError
  end.

(** BigIntegerCalculator::pow(const uint_array&, uint32_t): PowMod.cpp:12-16, with
    BitsBuffer(int, uint_array), BitsBuffer.cpp:10-14, and actual_length, PowMod.cpp:61-65. The
    buffer takes the limbs that the size, as an int, lets through; a negative
    one is passed on by actual_length and makes std::copy run from the
    beginning of the array to in front of it. *)
Definition calc_pow_v_i (c : cfg) (value : list Z) (power : Z) : sized (list Z) :=
  let valueLength := s32 (Z.of_nat (length value)) in
  before (pow_bound_loop_i bit_fuel c power valueLength 1) (fun size =>
  if size <? 0 then LengthError
  else if valueLength <? 0 then Sized (Undef OutOfBounds)
  else Sized (
    v <- buf_of_v (Z.to_nat size) (firstn (Z.to_nat valueLength) value) ;;
    pow_core c power v)).

(** BigInteger::pow: BigInteger.cpp:1543-1569. A result has fewer than 2^31 limbs. *)
Definition bi_pow_i (c : cfg) (value : bigint) (exponent : Z) : sized bigint :=
  if exponent <? 0 then Sized (Throw OutOfRange)
  else
    before (assert_valid c value) (fun _ =>
    if exponent =? 0 then Sized (Ret s_bnOneInt)
    else if exponent =? 1 then Sized (Ret value)
    else
      let trivialValue := is_nil (bits_of value) in
      let odd := negb (Z.land exponent 1 =? 0) in
      if trivialValue && (sign_of value =? 1) then Sized (Ret value)
      else if trivialValue && (sign_of value =? -1) then Sized (Ret (if odd then value else s_bnOneInt))
      else if trivialValue && (sign_of value =? 0) then Sized (Ret value)
      else
        before (abs32 c exponent) (fun e =>
        then_sized
          (if trivialValue then Sized (v <- abs32 c (sign_of value) ;; calc_pow_u c v e)
           else calc_pow_v_i c (bits_of value) e)
          (fun bits => bi_of_mag c bits ((sign_of value <? 0) && odd)))).

(** BigIntegerCalculator::pow_core(const uint_array&, uint32_t, uint64_t, uint64_t):
    PowMod.cpp:91-102. [i] is an int compared with a size_t: past INT_MAX it
    overflows, and where that wraps the negative [i], as a size_t, ends the loop. *)
Definition powmod_v_core_i (c : cfg) (power : list Z) (modulus value result : Z) : outcome Z :=
  let last := Z.of_nat (length power) - 1 in
  '(value, result) <-
    for_up (Z.to_nat (Z.min last (INT_MAX + 1))) 0 (fun i st =>
      let '(value, result) := st in
      p <- rd power i ;;
      '(_, value, result) <-
        for_up 32 0 (fun _ st => powmod_bits_step modulus st) (p, value, result) ;;
      Ret (value, result)) (value, result) ;;
  (if INT_MAX <? last then chk32 c (INT_MAX + 1) else Ret 0) ;;;
  p <- rdz power last ;;
  powmod_u_loop bit_fuel p modulus value result.

(** BigInteger::mod_pow for a modulus that fits in an int: BigInteger.cpp:1572-1598,
    with BigIntegerCalculator::pow of PowMod.cpp:86-89, 104-107, 244-250 *)
Definition bi_mod_pow_int_i (c : cfg) (value exponent : bigint) (modulus : Z) : outcome bigint :=
  if sign_of exponent <? 0 then Throw OutOfRange
  else
    assert_valid c value ;;;
    assert_valid c exponent ;;;
    assert_valid c (Big modulus []) ;;;
    m <- abs32 c modulus ;;
    v <- (if is_nil (bits_of value) then abs32 c (sign_of value) else calc_rem_u_i c (bits_of value) m) ;;
    bits <-
      (if is_nil (bits_of exponent) then e <- abs32 c (sign_of exponent) ;; powmod_u_loop bit_fuel e m v 1
       else powmod_v_core_i c (bits_of exponent) m v 1) ;;
    even <- (if sign_of value <? 0 then bi_is_even c exponent else Ret true) ;;
    bi_of_uint32 c (if negb even then u32 (-1 * bits) else bits).
