(** The greatest common divisor once more, with the lengths the code keeps in
    [int] wrapped to 32 bits, so that numbers have any size. *)
From Verif Require Import Machine BigInt CalcGcd IntSizes IntAdd IntDiv.

(** A statement in front of one that may throw std::length_error. *)
Definition before {A B : Type} (m : outcome A) (k : A -> sized B) : sized B :=
  match m with
  | Ret a => k a
  | Throw e => Sized (Throw e)
  | Undef u => Sized (Undef u)
  | AssertFail => Sized AssertFail
  | NoFuel => Sized NoFuel
  end.

(** BigIntegerCalculator::gcd(uint_array, uint32_t): GcdInv.cpp:33-43 *)
Definition calc_gcd_u_i (c : cfg) (lhs : list Z) (r : Z) : outcome Z :=
  massert c (Nat.leb 1 (length lhs)) ;;;
  massert c (negb (r =? 0)) ;;;
  temp <- calc_rem_u_i c lhs r ;;
  calc_gcd32 r temp.

(** The check of the order in debug builds: GcdInv.cpp:48, BigInteger.cpp:1662 *)
Definition ordered_i (c : cfg) (lhs rhs : list Z) : outcome unit :=
  if dbg c then cmp <- calc_compare_i c lhs rhs ;; massert c (0 <=? cmp) else Ret tt.

(** BigIntegerCalculator::gcd(uint_array, uint_array), GcdInv.cpp:45-56, and the
    number made of its result, BigInteger.cpp:1680-1681. The sizes are passed to
    BitsBuffer(int, uint_array), BitsBuffer.cpp:10-14: actual_length
    (PowMod.cpp) reads nothing for a negative one, and std::vector
    throws std::length_error. The buffers then have the sizes of the
    arrays; the Euclidean steps on them are those of [calc_gcd] when both
    are below 2^31. Sizes that come back positive, from 2^32 limbs on, are not modelled. *)
Definition calc_gcd_i (fuel : nat) (c : cfg) (lv rv : list Z) : sized bigint :=
  before (massert c (Nat.leb 2 (length lv)) ;;; massert c (Nat.leb 2 (length rv)) ;;; ordered_i c lv rv) (fun _ =>
  if (s32 (Z.of_nat (length lv)) <? 0) || (s32 (Z.of_nat (length rv)) <? 0) then LengthError
  else if (Z.of_nat (length lv) <=? INT_MAX) && (Z.of_nat (length rv) <=? INT_MAX) then
    Sized (bits <- calc_gcd fuel c lv rv ;; bi_of_mag c bits false)
  else Sized NoFuel).

(** BigInteger::greatest_common_divisor(const uint_array&, const uint_array&):
    BigInteger.cpp:1661-1682 *)
Definition bi_gcd_bits_i (fuel : nat) (c : cfg) (leftBits rightBits : list Z) : sized bigint :=
  before (ordered_i c leftBits rightBits) (fun _ =>
  if Nat.eqb (length rightBits) 1 then Sized (
    r0 <- rd rightBits 0 ;;
    temp <- calc_rem_u_i c leftBits r0 ;;
    g <- calc_gcd32 r0 temp ;;
    bi_of_uint32 c g)
  else if Nat.eqb (length rightBits) 2 then Sized (
    tempBits <- calc_rem_i c leftBits rightBits ;;
    r1 <- rd rightBits 1 ;; r0 <- rd rightBits 0 ;;
    t1 <- rd tempBits 1 ;; t0 <- rd tempBits 0 ;;
    res <- calc_gcd64 (Z.lor (u64 (Z.shiftl r1 32)) r0) (Z.lor (u64 (Z.shiftl t1 32)) t0) ;;
    bi_of_uint64 c res)
  else calc_gcd_i fuel c leftBits rightBits).

(** BigInteger::greatest_common_divisor(const BigInteger&, const BigInteger&):
    BigInteger.cpp:1621-1659 *)
Definition bi_gcd_i (fuel : nat) (c : cfg) (lv rv : bigint) : sized bigint :=
  before (assert_valid c lv ;;; assert_valid c rv) (fun _ =>
  let trivialLeft := is_nil (bits_of lv) in
  let trivialRight := is_nil (bits_of rv) in
  if trivialLeft && trivialRight then Sized (
    a <- abs32 c (sign_of lv) ;; b <- abs32 c (sign_of rv) ;;
    g <- calc_gcd32 a b ;; bi_of_uint32 c g)
  else if trivialLeft then Sized (
    if negb (sign_of lv =? 0) then
      a <- abs32 c (sign_of lv) ;; g <- calc_gcd_u_i c (bits_of rv) a ;; bi_of_uint32 c g
    else bi_of_mag_i c (bits_of rv) false)
  else if trivialRight then Sized (
    if negb (sign_of rv =? 0) then
      a <- abs32 c (sign_of rv) ;; g <- calc_gcd_u_i c (bits_of lv) a ;; bi_of_uint32 c g
    else bi_of_mag_i c (bits_of lv) false)
  else
    before (calc_compare_i c (bits_of lv) (bits_of rv)) (fun cmp =>
    if cmp <? 0 then bi_gcd_bits_i fuel c (bits_of rv) (bits_of lv)
    else bi_gcd_bits_i fuel c (bits_of lv) (bits_of rv))).
