(** mod_pow by a modulus stored in a limb array once more, with the size of the
    buffers, which the code keeps in an [int], wrapped to 32 bits. *)
From Verif Require Import Machine BigInt CalcPowMod IntSizes IntDiv IntGcd IntPow.

(** BitsBuffer(int, uint32_t), BitsBuffer.cpp:4-8: std::vector throws
    std::length_error for a negative size, and a vector of size 0 has no [_bits[0]]. *)
Definition buf_of_u_i (size value : Z) : sized bitsbuf :=
  if size <? 0 then LengthError else Sized (buf_of_u (Z.to_nat size) value).

(** BitsBuffer(int, uint_array), BitsBuffer.cpp:10-14, with actual_length,
    PowMod.cpp:61-65: it looks at the limbs that the size, as an int, lets through, and
    passes on a negative size, for which std::copy runs from the beginning
    of the array to in front of it. *)
Definition buf_of_v_i (size : Z) (value : list Z) : sized bitsbuf :=
  let len := s32 (Z.of_nat (length value)) in
  if len <? 0 then (if size <? 0 then LengthError else Sized (Undef OutOfBounds))
  else before (actual_length value (Z.to_nat len)) (fun _ =>
    if size <? 0 then LengthError else Sized (buf_of_v (Z.to_nat size) (firstn (Z.to_nat len) value))).

(** The statements of the four functions BigIntegerCalculator::pow in front of
    pow_core: PowMod.cpp:109-111, 130-139, 177-179, 183-192. *)
Definition powmod_buf_i (c : cfg) (value modulus : bigint) : sized bitsbuf :=
  let m := bits_of modulus in
  let size := s32 (Z.of_nat (length m) + Z.of_nat (length m)) in
  if is_nil (bits_of value) then before (abs32 c (sign_of value)) (fun v => buf_of_u_i size v)
  else if Nat.ltb (length m) (length (bits_of value)) then
    before (calc_rem_i c (bits_of value) m) (fun tmp => buf_of_v_i size tmp)
  else buf_of_v_i size (bits_of value).

(** BigIntegerCalculator::pow_core(const uint_array&, const uint_array&, BitsBuffer&,
    BitsBuffer&, BitsBuffer&): PowMod.cpp:144-160. [i] is an int compared with a size_t: past INT_MAX it
    overflows, and where that wraps the negative [i], as a size_t, ends the loop. *)
Definition powmod_v_loop_i (c : cfg) (power modulus : list Z) (value result temp : bitsbuf) : outcome bitsbuf :=
  let last := Z.of_nat (length power) - 1 in
  '(value, result, temp) <-
    for_up (Z.to_nat (Z.min last (INT_MAX + 1))) 0 (fun i st =>
      let '(value, result, temp) := st in
      p <- rd power i ;;
      '(_, value, result, temp) <-
        for_up 32 0 (fun _ st => powmod_v_step c modulus st) (p, value, result, temp) ;;
      Ret (value, result, temp)) (value, result, temp) ;;
  (if INT_MAX <? last then chk32 c (INT_MAX + 1) else Ret 0) ;;;
  p <- rdz power last ;;
  powmod_loop bit_fuel c p modulus value result temp.

(** BigIntegerCalculator::pow_core(const uint_array&, const uint_array&, BitsBuffer&):
    PowMod.cpp:197-210. From ReducerThreshold limbs of the modulus on, the exponent is not indexed. *)
Definition powmod_core_v_i (c : cfg) (power modulus : list Z) (value : bitsbuf) : outcome (list Z) :=
  let size := length (bb_bits value) in
  temp <- buf_of_u size 0 ;;
  result <- buf_of_u size 1 ;;
  result <-
    (if Nat.ltb (length modulus) ReducerThreshold
     then powmod_v_loop_i c power modulus value result temp
     else red <- reducer_make c modulus ;; powred_v_loop c power red value result temp) ;;
  Ret (bb_bits result).

(** What follows once the first buffer is made: BigInteger.cpp:1600-1614 and
    pow_core, PowMod.cpp:115-128. The sums of lengths there are at most four times the
    length of the modulus; they are kept in [int]s, so that moduli of 2^29
    limbs and more are not modelled (NoFuel). *)
Definition powmod_rest_i (c : cfg) (value exponent modulus : bigint) (v : bitsbuf) : outcome bigint :=
  if 2 ^ 29 <=? Z.of_nat (length (bits_of modulus)) then NoFuel
  else
    bits <-
      (if is_nil (bits_of exponent) then
         e <- abs32 c (sign_of exponent) ;; powmod_core_u c e (bits_of modulus) v
       else powmod_core_v_i c (bits_of exponent) (bits_of modulus) v) ;;
    even <- (if sign_of value <? 0 then bi_is_even c exponent else Ret true) ;;
    bi_of_mag c bits (negb even).

(** BigInteger::mod_pow for a modulus stored in a limb array: BigInteger.cpp:1572-1583, 1599-1615 *)
Definition bi_mod_pow_long_i (c : cfg) (value exponent modulus : bigint) : sized bigint :=
  if sign_of exponent <? 0 then Sized (Throw OutOfRange)
  else
    before (assert_valid c value ;;; assert_valid c exponent ;;; assert_valid c modulus) (fun _ =>
    then_sized (powmod_buf_i c value modulus) (powmod_rest_i c value exponent modulus)).
