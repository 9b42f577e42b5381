(** LLP64 reading of src/BigInteger.cpp: the members that declare a [long] or
    call a function of WinCalc.v. See the comment there. *)
From Coq Require Import String Ascii.
From Verif Require Import Machine CalcAddSub CalcSquMul CalcDivRem CalcPowMod CalcGcd BigInt.
From Verif Require Import BigIntText BigIntDouble BigIntFloat WinCalc.

(** BigInteger::add(const uint_array&, int, const uint_array&, int): BigInteger.cpp:402-431 *)
Definition bi_add_parts_w (w : win) (c : cfg) (lhs : list Z) (lhsSign : Z) (rhs : list Z) (rhsSign : Z)
    : outcome bigint :=
  let trivialLeft := is_nil lhs in
  let trivialRight := is_nil rhs in
  if trivialLeft && trivialRight then
    s <- chk64 c (lhsSign + rhsSign) ;; bi_of_int64 c s
  else if trivialLeft then
    a <- abs32 c lhsSign ;;
    bits <- calc_add_u_w c rhs a ;; bi_of_mag c bits (lhsSign <? 0)
  else if trivialRight then
    a <- abs32 c rhsSign ;;
    bits <- calc_add_u_w c lhs a ;; bi_of_mag c bits (lhsSign <? 0)
  else if Nat.ltb (length lhs) (length rhs) then
    bits <- calc_add c rhs lhs ;; bi_of_mag c bits (lhsSign <? 0)
  else
    bits <- calc_add c lhs rhs ;; bi_of_mag c bits (lhsSign <? 0).

(** BigInteger::subtract(const uint_array&, int, const uint_array&, int): BigInteger.cpp:433-462 *)
Definition bi_sub_parts_w (w : win) (c : cfg) (lhs : list Z) (lhsSign : Z) (rhs : list Z) (rhsSign : Z)
    : outcome bigint :=
  let trivialLeft := is_nil lhs in
  let trivialRight := is_nil rhs in
  if trivialLeft && trivialRight then
    s <- chk64 c (lhsSign - rhsSign) ;; bi_of_int64 c s
  else if trivialLeft then
    a <- abs32 c lhsSign ;;
    bits <- calc_sub_u_w w c rhs a ;; bi_of_mag c bits (0 <=? lhsSign)
  else if trivialRight then
    a <- abs32 c rhsSign ;;
    bits <- calc_sub_u_w w c lhs a ;; bi_of_mag c bits (lhsSign <? 0)
  else
    cmp <- calc_compare c lhs rhs ;;
    if cmp <? 0 then
      bits <- calc_sub_w w c rhs lhs ;; bi_of_mag c bits (0 <=? lhsSign)
    else
      bits <- calc_sub_w w c lhs rhs ;; bi_of_mag c bits (lhsSign <? 0).

(** BigInteger::operator+=: BigInteger.cpp:659-670; operator+: 654-657; add: 393-396 *)
Definition bi_add_w (w : win) (c : cfg) (lhs rhs : bigint) : outcome bigint :=
  assert_valid c lhs ;;;
  assert_valid c rhs ;;;
  if xorb (sign_of lhs <? 0) (sign_of rhs <? 0) then
    n <- chk32 c (-1 * sign_of rhs) ;;
    bi_sub_parts_w w c (bits_of lhs) (sign_of lhs) (bits_of rhs) n
  else bi_add_parts_w w c (bits_of lhs) (sign_of lhs) (bits_of rhs) (sign_of rhs).

(** BigInteger::operator-=: BigInteger.cpp:469-480; operator-: 464-467; subtract: 398-400 *)
Definition bi_sub_w (w : win) (c : cfg) (lhs rhs : bigint) : outcome bigint :=
  assert_valid c lhs ;;;
  assert_valid c rhs ;;;
  if xorb (sign_of lhs <? 0) (sign_of rhs <? 0) then
    n <- chk32 c (-1 * sign_of rhs) ;;
    bi_add_parts_w w c (bits_of lhs) (sign_of lhs) (bits_of rhs) n
  else bi_sub_parts_w w c (bits_of lhs) (sign_of lhs) (bits_of rhs) (sign_of rhs).

(** BigInteger::operator*=: BigInteger.cpp:487-531; operator*: 482-485; multiply: 533-535 *)
Definition bi_mul_w (w : win) (c : cfg) (lhs rhs : bigint) : outcome bigint :=
  assert_valid c lhs ;;;
  assert_valid c rhs ;;;
  let trivialLeft := is_nil (bits_of lhs) in
  let trivialRight := is_nil (bits_of rhs) in
  let neg := xorb (sign_of lhs <? 0) (sign_of rhs <? 0) in
  if trivialLeft && trivialRight then
    p <- chk64 c (sign_of lhs * sign_of rhs) ;; bi_of_int64 c p
  else if trivialLeft then
    a <- abs32 c (sign_of lhs) ;;
    bits <- calc_mul_u c (bits_of rhs) a ;; bi_of_mag c bits neg
  else if trivialRight then
    a <- abs32 c (sign_of rhs) ;;
    bits <- calc_mul_u c (bits_of lhs) a ;; bi_of_mag c bits neg
  else if vec_eqb (bits_of lhs) (bits_of rhs) then
    bits <- calc_square_w w c (bits_of lhs) ;; bi_of_mag c bits neg
  else if Nat.ltb (length (bits_of lhs)) (length (bits_of rhs)) then
    bits <- calc_mul_w w c (bits_of rhs) (bits_of lhs) ;; bi_of_mag c bits neg
  else
    bits <- calc_mul_w w c (bits_of lhs) (bits_of rhs) ;; bi_of_mag c bits neg.

(** BigInteger::operator++(): BigInteger.cpp:634-637; operator--(): 643-647 *)
Definition bi_inc_w (w : win) (c : cfg) (b : bigint) : outcome bigint := o <- bi_one c ;; bi_add_w w c b o.

Definition bi_dec_w (w : win) (c : cfg) (b : bigint) : outcome bigint := o <- bi_one c ;; bi_sub_w w c b o.

(** BigInteger::operator++(int): BigInteger.cpp:639-641; operator--(int): 649-651.
    The result is a reference to the updated object. Returns (result, *this). *)
Definition bi_post_inc_w (w : win) (c : cfg) (b : bigint) : outcome (bigint * bigint) :=
  r <- bi_inc_w w c b ;; Ret (r, r).

Definition bi_post_dec_w (w : win) (c : cfg) (b : bigint) : outcome (bigint * bigint) :=
  r <- bi_dec_w w c b ;; Ret (r, r).

(** BigInteger::operator~: BigInteger.cpp:1684-1687 *)
Definition bi_not_w (w : win) (c : cfg) (b : bigint) : outcome bigint :=
  o <- bi_one c ;; r <- bi_add_w w c b o ;; bi_neg c r.

(** BigInteger::get_bit_length: BigInteger.cpp:1213-1250 *)
Definition bi_bit_length_w (c : cfg) (b : bigint) : outcome Z :=
  assert_valid c b ;;;
  let sign := sign_of b in
  '(bitsArrayLength, highValue) <-
    (if is_nil (bits_of b) then
       h <- (if sign <? 0 then chk32 c (- sign) else Ret sign) ;; Ret (1%nat, u32 h)
     else h <- rd (bits_of b) (length (bits_of b) - 1) ;; Ret (length (bits_of b), h)) ;;
  lz <- leading_zeros_count highValue ;;
  total <- chk32 c (Z.of_nat bitsArrayLength * 32) ;;
  bitLength <- chk32 c (total - lz) ;;
  if 0 <=? sign then Ret (u64 bitLength)
  else if negb (Z.land highValue (u32 (highValue - 1)) =? 0) then Ret (u64 bitLength)
  else
    z <- all_zero_below (bits_of b) (bitsArrayLength - 1) ;;
    if z : bool then r <- chk32 c (bitLength - 1) ;; Ret (u64 r) else Ret (u64 bitLength).

(** operator long: BigInteger.cpp:1440-1459. [unsigned long] has 32 bits, so the
    shift by kcbitUint at 1450 is out of range. *)
Definition bi_to_long_w (w : win) (c : cfg) (b : bigint) : outcome Z :=
  match bits_of b with
  | [] => Ret (sign_of b)
  | b0 :: t =>
      if Nat.ltb 2 (length (bits_of b)) then Throw OverflowError
      else
        uu <- match t with
              | [] => Ret b0
              | b1 :: _ => x <- ulong_shl w b1 kcbitUint ;; Ret (Z.lor x b0)
              end ;;
        ll <- (if 0 <? sign_of b then Ret (s32 uu) else chk32 c (- s32 uu)) ;;
        if ((0 <? ll) && (0 <? sign_of b)) || ((ll <? 0) && (sign_of b <? 0))
        then Ret ll else Throw OverflowError
  end.

(** operator unsigned long: BigInteger.cpp:1461-1478 *)
Definition bi_to_ulong_w (w : win) (c : cfg) (b : bigint) : outcome Z :=
  match bits_of b with
  | [] => if sign_of b <? 0 then Throw OverflowError else Ret (u32 (sign_of b))
  | b0 :: t =>
      if Nat.ltb 2 (length (bits_of b)) || (sign_of b <? 0) then Throw OverflowError
      else match t with
           | [] => Ret b0
           | b1 :: _ => x <- ulong_shl w b1 kcbitUint ;; Ret (Z.lor x b0)
           end
  end.

(** BigInteger::pow: BigInteger.cpp:1543-1569 *)
Definition bi_pow_w (w : win) (c : cfg) (value : bigint) (exponent : Z) : outcome bigint :=
  if exponent <? 0 then Throw OutOfRange
  else
    assert_valid c value ;;;
    if exponent =? 0 then Ret s_bnOneInt
    else if exponent =? 1 then Ret value
    else
      let trivialValue := is_nil (bits_of value) in
      let odd := negb (Z.land exponent 1 =? 0) in
      if trivialValue && (sign_of value =? 1) then Ret value
      else if trivialValue && (sign_of value =? -1) then Ret (if odd then value else s_bnOneInt)
      else if trivialValue && (sign_of value =? 0) then Ret value
      else
        e <- abs32 c exponent ;;
        bits <-
          (if trivialValue then v <- abs32 c (sign_of value) ;; calc_pow_u_w w c v e
           else calc_pow_v_w w c (bits_of value) e) ;;
        bi_of_mag c bits ((sign_of value <? 0) && odd).

(** BigInteger::mod_pow: BigInteger.cpp:1572-1615. [-1 * bits] at 1598 is
    computed in uint32_t. *)
Definition bi_mod_pow_w (w : win) (c : cfg) (value exponent modulus : bigint) : outcome bigint :=
  if sign_of exponent <? 0 then Throw OutOfRange
  else
    assert_valid c value ;;;
    assert_valid c exponent ;;;
    assert_valid c modulus ;;;
    let trivialValue := is_nil (bits_of value) in
    let trivialExponent := is_nil (bits_of exponent) in
    let trivialModulus := is_nil (bits_of modulus) in
    if trivialModulus then
      m <- abs32 c (sign_of modulus) ;;
      bits <-
        (if trivialValue then
           v <- abs32 c (sign_of value) ;;
           if trivialExponent then e <- abs32 c (sign_of exponent) ;; calc_powmod_uuu v e m
           else calc_powmod_uvu v (bits_of exponent) m
         else if trivialExponent then
           e <- abs32 c (sign_of exponent) ;; calc_powmod_vuu c (bits_of value) e m
         else calc_powmod_vvu c (bits_of value) (bits_of exponent) m) ;;
      even <- (if sign_of value <? 0 then bi_is_even c exponent else Ret true) ;;
      bi_of_uint32 c (if negb even then u32 (-1 * bits) else bits)
    else
      bits <-
        (if trivialValue then
           v <- abs32 c (sign_of value) ;;
           if trivialExponent then
             e <- abs32 c (sign_of exponent) ;; calc_powmod_uuv_w w c v e (bits_of modulus)
           else calc_powmod_uvv_w w c v (bits_of exponent) (bits_of modulus)
         else if trivialExponent then
           e <- abs32 c (sign_of exponent) ;;
           calc_powmod_vuv_w w c (bits_of value) e (bits_of modulus)
         else calc_powmod_vvv_w w c (bits_of value) (bits_of exponent) (bits_of modulus)) ;;
      even <- (if sign_of value <? 0 then bi_is_even c exponent else Ret true) ;;
      bi_of_mag c bits (negb even).

(** BigInteger::greatest_common_divisor(const uint_array&, const uint_array&):
    BigInteger.cpp:1661-1682. [fuel] bounds the Lehmer loop. *)
Definition bi_gcd_bits_w (w : win) (fuel : nat) (c : cfg) (leftBits rightBits : list Z) : outcome bigint :=
  (if dbg c then cmp <- calc_compare c leftBits rightBits ;; massert c (0 <=? cmp)
   else Ret tt) ;;;
  if Nat.eqb (length rightBits) 1 then
    r0 <- rd rightBits 0 ;;
    temp <- calc_rem_u c leftBits r0 ;;
    g <- calc_gcd32 r0 temp ;;
    bi_of_uint32 c g
  else if Nat.eqb (length rightBits) 2 then
    tempBits <- calc_rem c leftBits rightBits ;;
    r1 <- rd rightBits 1 ;; r0 <- rd rightBits 0 ;;
    t1 <- rd tempBits 1 ;; t0 <- rd tempBits 0 ;;
    res <- calc_gcd64 (Z.lor (u64 (Z.shiftl r1 32)) r0) (Z.lor (u64 (Z.shiftl t1 32)) t0) ;;
    bi_of_uint64 c res
  else
    bits <- calc_gcd_w w fuel c leftBits rightBits ;;
    bi_of_mag c bits false.

(** BigInteger::greatest_common_divisor(const BigInteger&, const BigInteger&):
    BigInteger.cpp:1621-1659 *)
Definition bi_gcd_w (w : win) (fuel : nat) (c : cfg) (lv rv : bigint) : outcome bigint :=
  assert_valid c lv ;;;
  assert_valid c rv ;;;
  let trivialLeft := is_nil (bits_of lv) in
  let trivialRight := is_nil (bits_of rv) in
  if trivialLeft && trivialRight then
    a <- abs32 c (sign_of lv) ;; b <- abs32 c (sign_of rv) ;;
    g <- calc_gcd32 a b ;; bi_of_uint32 c g
  else if trivialLeft then
    if negb (sign_of lv =? 0) then
      a <- abs32 c (sign_of lv) ;; g <- calc_gcd_u c (bits_of rv) a ;; bi_of_uint32 c g
    else bi_of_mag c (bits_of rv) false
  else if trivialRight then
    if negb (sign_of rv =? 0) then
      a <- abs32 c (sign_of rv) ;; g <- calc_gcd_u c (bits_of lv) a ;; bi_of_uint32 c g
    else bi_of_mag c (bits_of lv) false
  else
    cmp <- calc_compare c (bits_of lv) (bits_of rv) ;;
    if cmp <? 0 then bi_gcd_bits_w w fuel c (bits_of rv) (bits_of lv)
    else bi_gcd_bits_w w fuel c (bits_of lv) (bits_of rv).

(** The digit loop of BigInteger::parse: BigInteger.cpp:818-826.
    [char] may be signed: codes above 127 are not digits either way. *)
Fixpoint parse_loop_w (w : win) (c : cfg) (s : string) (b : bigint) : outcome bigint :=
  match s with
  | EmptyString => Ret b
  | String ch s =>
      if (48 <=? code ch) && (code ch <=? 57) then
        ten <- bi_of_int32 c 10 ;;
        b <- bi_mul_w w c b ten ;;
        d <- bi_of_uint32 c (code ch - 48) ;;
        b <- bi_add_w w c b d ;;
        parse_loop_w w c s b
      else Ret b
  end.

(** BigInteger::parse: BigInteger.cpp:807-831. s[0] of an empty string is '\0'. *)
Definition bi_parse_w (w : win) (c : cfg) (s : string) : outcome bigint :=
  b <- bi_zero c ;;
  let '(is_negative, rest) :=
    match s with
    | String ch t =>
        if code ch =? 45 then (true, t) else if code ch =? 43 then (false, t) else (false, s)
    | EmptyString => (false, s)
    end in
  b <- parse_loop_w w c rest b ;;
  if is_negative : bool then bi_neg c b else Ret b.

(** BigInteger::try_parse: BigInteger.cpp:798-805. Returns (ok, result): the new
    value of the [result] argument, whose old value is [old]. *)
Definition bi_try_parse_w (w : win) (c : cfg) (s : string) (old : bigint) : outcome (bool * bigint) :=
  match bi_parse_w w c s with
  | Ret b => Ret (true, b)
  | Throw _ => Ret (false, old)
  | Undef u => Undef u
  | AssertFail => AssertFail
  | NoFuel => NoFuel
  end.

(** double_IsFinite: BigInteger.cpp:1757-1760. The [long] read through the
    pointer is the low half of the object (x64 is little-endian); it is
    sign-extended to the 64-bit type of the mask. The read through a pointer to
    an unrelated type is taken to yield the stored bytes, as in BigIntDouble.v. *)
Definition double_is_finite_w (d : Z) : bool :=
  Z.land (s32 d) DBL_ABS_MASK <? DBL_EXP_MASK.

(** BigInteger::BigInteger(double): BigInteger.cpp:1693-1755. The assignment
    [*this = man >> -exp] goes through BigInteger(uint64_t). *)
Definition bi_of_double_w (c : cfg) (value : Z) : outcome bigint :=
  if negb (double_is_finite_w value) then Throw OverflowError
  else
    let '(sign, exp, man, fFinite) := get_double_parts value in
    massert c ((sign =? 1) || (sign =? -1)) ;;;
    if man =? 0 then bi_zero c
    else
    massert c (man <? 9007199254740992) ;;;
    massert c ((exp <=? 0) || (4503599627370496 <=? man)) ;;;
    if exp <=? 0 then
      if exp <=? -64 then bi_zero c
      else
        m <- shr64 man (- exp) ;;
        b <- bi_of_uint64 c m ;;
        s <- (if sign <? 0 then chk32 c (- sign_of b) else Ret (sign_of b)) ;;
        checked c (Big s (bits_of b))
    else if exp <=? 11 then
      m <- shl64 man exp ;;
      b <- bi_of_uint64 c m ;;
      s <- (if sign <? 0 then chk32 c (- sign_of b) else Ret (sign_of b)) ;;
      checked c (Big s (bits_of b))
    else
      man <- shl64 man 11 ;;
      let exp := exp - 11 in
      let cu := Z.quot (exp - 1) kcbitUint + 1 in
      let cbit := cu * kcbitUint - exp in
      massert c ((0 <=? cbit) && (cbit <? kcbitUint)) ;;;
      massert c (1 <=? cu) ;;;
      let bits := zeros (Z.to_nat (cu + 2)) in
      x <- shr64 man (cbit + kcbitUint) ;;
      bits <- wrz bits (cu + 1) (u32 x) ;;
      x <- shr64 man cbit ;;
      bits <- wrz bits cu (u32 x) ;;
      bits <-
        (if 0 <? cbit then x <- shl32 (u32 man) (kcbitUint - cbit) ;; wrz bits (cu - 1) x
         else Ret bits) ;;
      checked c (Big sign bits).

(** BigInteger::operator double: BigInteger.cpp:1480-1504. [h], [m], [l] and
    [man] are unsigned long. *)
Definition bi_to_double_w (w : win) (c : cfg) (b : bigint) : outcome Z :=
  let bits := bits_of b in
  if is_nil bits then Ret (int_to_double (sign_of b))
  else
    let len := length bits in
    if Nat.ltb 32 len then
      Ret (if sign_of b =? 1 then DBL_EXP_MASK else DBL_EXP_MASK + DBL_SIGN)
    else
      h <- rd bits (len - 1) ;;
      m <- (if Nat.ltb 1 len then rd bits (len - 2) else Ret 0) ;;
      l <- (if Nat.ltb 2 len then rd bits (len - 3) else Ret 0) ;;
      let z := cbit_high_zero32 (u32 h) in
      let exp := (Z.of_nat len - 2) * 32 - z in
      x1 <- ulong_shl w h (32 + z) ;; x2 <- ulong_shl w m z ;; x3 <- ulong_shr w l (32 - z) ;;
      get_double_from_parts (sign_of b) exp (Z.lor (Z.lor x1 x2) x3).

(** BigInteger::operator float: BigInteger.cpp:1506-1508 *)
Definition bi_to_float_w (w : win) (c : cfg) (b : bigint) : outcome Z :=
  d <- bi_to_double_w w c b ;; Ret (double_to_float d).
