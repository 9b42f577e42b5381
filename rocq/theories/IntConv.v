(** Conversions and predicates of src/BigInteger.cpp once more, with the limb
    counts the code keeps in [int] wrapped to 32 bits, for numbers of any size. *)
From Verif Require Import Machine BigInt BigIntDouble.

(** BigInteger::is_power_of_two: BigInteger.cpp:357-376. [iu] is an int: the
    size less one, wrapped (line 366). *)
Definition bi_is_power_of_two_i (c : cfg) (b : bigint) : outcome bool :=
  assert_valid c b ;;;
  let sign := sign_of b in let bits := bits_of b in
  if is_nil bits then
    s1 <- chk32 c (sign - 1) ;;
    Ret ((Z.land sign s1 =? 0) && negb (sign =? 0))
  else if negb (sign =? 1) then Ret false
  else
    let iu := s32 (Z.of_nat (length bits) - 1) in
    x <- rdz bits iu ;;
    if negb (Z.land x (u32 (x - 1)) =? 0) then Ret false else all_zero_below bits (Z.to_nat iu).

(** BigInteger::get_bit_length: BigInteger.cpp:1213-1250. bitsArrayLength is an
    int (lines 1217, 1224); the index is computed in int, the product in long. *)
Definition bi_bit_length_i (c : cfg) (b : bigint) : outcome Z :=
  assert_valid c b ;;;
  let sign := sign_of b in
  '(bitsArrayLength, highValue) <-
    (if is_nil (bits_of b) then
       h <- (if sign <? 0 then chk32 c (- sign) else Ret sign) ;; Ret (1, u32 h)
     else
       let n := s32 (Z.of_nat (length (bits_of b))) in
       i <- chk32 c (n - 1) ;; h <- rdz (bits_of b) i ;; Ret (n, h)) ;;
  lz <- leading_zeros_count highValue ;;
  bitLength <- chk64 c (bitsArrayLength * 32 - lz) ;;
  if 0 <=? sign then Ret (u64 bitLength)
  else if negb (Z.land highValue (u32 (highValue - 1)) =? 0) then Ret (u64 bitLength)
  else
    i <- chk32 c (bitsArrayLength - 2) ;;
    z <- all_zero_below (bits_of b) (Z.to_nat (i + 1)) ;;
    if z : bool then Ret (u64 (bitLength - 1)) else Ret (u64 bitLength).

(** operator long: BigInteger.cpp:1440-1459, [len] an int (line 1444) *)
Definition bi_to_long_i (c : cfg) (b : bigint) : outcome Z :=
  match bits_of b with
  | [] => Ret (sign_of b)
  | b0 :: _ =>
      let len := s32 (Z.of_nat (length (bits_of b))) in
      if 2 <? len then Throw OverflowError
      else
        uu <- (if 1 <? len then b1 <- rd (bits_of b) 1 ;; Ret (Z.lor (u64 (Z.shiftl b1 kcbitUint)) b0)
               else Ret b0) ;;
        ll <- (if 0 <? sign_of b then Ret (s64 uu) else chk64 c (- s64 uu)) ;;
        if ((0 <? ll) && (0 <? sign_of b)) || ((ll <? 0) && (sign_of b <? 0))
        then Ret ll else Throw OverflowError
  end.

(** operator unsigned long: BigInteger.cpp:1461-1478, [len] an int (line 1469) *)
Definition bi_to_ulong_i (c : cfg) (b : bigint) : outcome Z :=
  match bits_of b with
  | [] => if sign_of b <? 0 then Throw OverflowError else Ret (u64 (sign_of b))
  | b0 :: _ =>
      let len := s32 (Z.of_nat (length (bits_of b))) in
      if (2 <? len) || (sign_of b <? 0) then Throw OverflowError
      else if 1 <? len then b1 <- rd (bits_of b) 1 ;; Ret (Z.lor (u64 (Z.shiftl b1 kcbitUint)) b0)
      else Ret b0
  end.

(** operator double: BigInteger.cpp:1480-1504, [length] and [exp] ints *)
Definition bi_to_double_i (c : cfg) (b : bigint) : outcome Z :=
  let bits := bits_of b in
  if is_nil bits then Ret (int_to_double (sign_of b))
  else
    let len := s32 (Z.of_nat (length bits)) in
    if 32 <? len then
      Ret (if sign_of b =? 1 then DBL_EXP_MASK else DBL_EXP_MASK + DBL_SIGN)
    else
      i <- chk32 c (len - 1) ;; h <- rdz bits i ;;
      m <- (if 1 <? len then rdz bits (len - 2) else Ret 0) ;;
      l <- (if 2 <? len then rdz bits (len - 3) else Ret 0) ;;
      let z := cbit_high_zero32 (u32 h) in
      e <- chk32 c (len - 2) ;; e <- chk32 c (e * 32) ;; exp <- chk32 c (e - z) ;;
      x1 <- shl64 h (32 + z) ;; x2 <- shl64 m z ;; x3 <- shr64 l (32 - z) ;;
      get_double_from_parts (sign_of b) exp (Z.lor (Z.lor x1 x2) x3).

(** BigInteger::get_hash_code: BigInteger.cpp:1772-1779, [iv] an int; the first
    [--iv] overflows when it is the least int. *)
Definition bi_hash_i (c : cfg) (b : bigint) : outcome Z :=
  if is_nil (bits_of b) then Ret (sign_of b)
  else
    iv <- chk32 c (s32 (Z.of_nat (length (bits_of b))) - 1) ;;
    for_down (Z.to_nat (iv + 1)) (fun iv hash =>
      x <- rd (bits_of b) iv ;;
      Ret (s32 (combine_hash (u32 hash) (u32 (s32 x))))) (sign_of b).
