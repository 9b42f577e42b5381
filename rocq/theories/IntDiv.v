(** Division and remainder of src/BigInteger.cpp once more, with the lengths
    the code keeps in [int] wrapped to 32 bits, for numbers of any size. *)
From Verif Require Import Machine CalcDivRem BigInt IntAdd.

(** Rounds of the loops at DivRem.cpp:16, 39 and 57: [i] starts from the size
    less one, as an int, and runs down to 0. *)
Definition rounds_i (lhs : list Z) : nat := Z.to_nat (s32 (Z.of_nat (length lhs) - 1) + 1).

(** BigIntegerCalculator::divide(uint_array&, uint32_t, uint32_t&): DivRem.cpp:5-28.
    Returns (quotient, remainder). *)
Definition calc_divrem_u_i (c : cfg) (lhs : list Z) (rhs : Z) : outcome (list Z * Z) :=
  massert c (negb (is_nil lhs)) ;;;
  '(quotient, carry) <-
    for_down (rounds_i lhs) (fun i st =>
      let '(quotient, carry) := st in
      l <- rd lhs i ;;
      let value := Z.lor (u64 (Z.shiftl carry 32)) l in
      if rhs =? 0 then Throw DivideByZero
      else
        digit <- udiv value rhs ;;
        quotient <- wr quotient i (u32 digit) ;;
        Ret (quotient, u64 (value - u64 (digit * rhs)))) (zeros (length lhs), 0) ;;
  Ret (quotient, u32 carry).

(** BigIntegerCalculator::divide(uint_array&, uint32_t): DivRem.cpp:30-49 *)
Definition calc_div_u_i (c : cfg) (lhs : list Z) (rhs : Z) : outcome (list Z) :=
  massert c (negb (is_nil lhs)) ;;;
  '(quotient, _) <-
    for_down (rounds_i lhs) (fun i st =>
      let '(quotient, carry) := st in
      l <- rd lhs i ;;
      let value := Z.lor (u64 (Z.shiftl carry 32)) l in
      if rhs =? 0 then Throw DivideByZero
      else
        digit <- udiv value rhs ;;
        quotient <- wr quotient i (u32 digit) ;;
        Ret (quotient, u64 (value - u64 (digit * rhs)))) (zeros (length lhs), 0) ;;
  Ret quotient.

(** BigIntegerCalculator::remainder(const uint_array&, const unsigned int): DivRem.cpp:51-66 *)
Definition calc_rem_u_i (c : cfg) (lhs : list Z) (rhs : Z) : outcome Z :=
  massert c (negb (is_nil lhs)) ;;;
  carry <-
    for_down (rounds_i lhs) (fun i carry =>
      l <- rd lhs i ;;
      let value := Z.lor (u64 (Z.shiftl carry 32)) l in
      if rhs =? 0 then Throw DivideByZero else umod value rhs) 0 ;;
  Ret (u32 carry).

(** The divisor's leading limbs are read and shifted: DivRem.cpp:136-150. What
    they come to is left to [calc_div_core]. *)
Definition div_scale_i (c : cfg) (rhs : list Z) (rhsLength : Z) : outcome unit :=
  j <- chk32 c (rhsLength - 1) ;;
  divHi <- rdz rhs j ;;
  divLo <- (if 1 <? rhsLength then rdz rhs (rhsLength - 2) else Ret 0) ;;
  let shift := leading_zeros divHi in
  let backShift := 32 - shift in
  if 0 <? shift then
    divNx <- (if 2 <? rhsLength then rdz rhs (rhsLength - 3) else Ret 0) ;;
    shl32 divHi shift ;;; shr32 divLo backShift ;;;
    shl32 divLo shift ;;; shr32 divNx backShift ;;; Ret tt
  else Ret tt.

(** One round of the loop at DivRem.cpp:154-200 for rhsLength = INT_MIN. [divHi] is the
    divisor's limb as shifted; divLo is 0 (137, 145). Simplified: the loops of
    subtract_divisor and add_divisor run no round for such a length, so that both
    carries are 0; the pointer &lhs[n] passed to them must lie in the array. *)
Definition div_round_min_i (c : cfg) (lhsLength shift divHi bitsLength i : Z) (lhs bits : list Z)
    : outcome (list Z * list Z) :=
  let backShift := 32 - shift in
  n <- chk32 c (i - INT_MIN) ;;
  t <- (if i <? lhsLength then rdz lhs i else Ret 0) ;;
  j <- chk32 c (i - 1) ;;
  v1 <- rdz lhs j ;;
  let valHi := Z.lor (u64 (Z.shiftl t 32)) v1 in
  valLo <- (if 1 <? i then rdz lhs (i - 2) else Ret 0) ;;
  '(valHi, valLo) <-
    (if 0 <? shift then
       valNx <- (if 2 <? i then rdz lhs (i - 3) else Ret 0) ;;
       h1 <- shl64 valHi shift ;; h2 <- shr32 valLo backShift ;;
       l1 <- shl32 valLo shift ;; l2 <- shr32 valNx backShift ;;
       Ret (Z.lor h1 h2, Z.lor l1 l2)
     else Ret (valHi, valLo)) ;;
  if divHi =? 0 then Throw DivideByZero
  else
  digit <- udiv valHi divHi ;;
  let digit := if UINT_MAX <? digit then UINT_MAX else digit in
  digit <- guess_loop guess_fuel c digit valHi valLo divHi 0 ;;
  digit <-
    (if 0 <? digit then
       if (n <? 0) || (Z.of_nat (length lhs) <? n) then Undef OutOfBounds
       else Ret (if t =? 0 then digit else u64 (digit - 1))
     else Ret digit) ;;
  bits <- (if bitsLength =? 0 then Ret bits else wrz bits n (u32 digit)) ;;
  lhs <- (if i <? lhsLength then wrz lhs i 0 else Ret lhs) ;;
  Ret (lhs, bits).

(** The loop itself, in builds that wrap: every int is at least INT_MIN, so that it does not end
    of itself. It reads lhs[i - 1] for an [i] that goes down, after INT_MIN from INT_MAX;
    [fuel] is more rounds than can all do so within the array. *)
Fixpoint div_loop_min_i (fuel : nat) (c : cfg) (lhsLength shift divHi bitsLength i : Z) (lhs bits : list Z)
    : outcome (list Z * list Z) :=
  match fuel with
  | O => NoFuel
  | S f =>
    '(lhs, bits) <- div_round_min_i c lhsLength shift divHi bitsLength i lhs bits ;;
    i <- chk32 c (i - 1) ;;
    div_loop_min_i f c lhsLength shift divHi bitsLength i lhs bits
  end.

(** BigIntegerCalculator::divide(uint32_t*, int, const uint32_t*, int, uint32_t*, int):
    DivRem.cpp:124-201, on whole arrays, with the lengths passed ([bits] is [] for
    nullptr). The loop runs if lhsLength >= rhsLength; it then reads and writes
    only that many limbs, on which it is [calc_div_core]. For rhsLength below 1 the
    read at 136 is out of bounds, but for INT_MIN in builds that wrap. *)
Definition calc_div_core_i (c : cfg) (lhs : list Z) (lhsLength : Z) (rhs : list Z) (rhsLength : Z)
    (bits : list Z) (bitsLength : Z) : outcome (list Z * list Z) :=
  massert c (1 <=? lhsLength) ;;;
  massert c (1 <=? rhsLength) ;;;
  massert c (rhsLength <=? lhsLength) ;;;
  (if dbg c then
     d <- chk32 c (lhsLength - rhsLength) ;; n <- chk32 c (d + 1) ;;
     massert c ((bitsLength =? n) || (bitsLength =? 0))
   else Ret tt) ;;;
  div_scale_i c rhs rhsLength ;;;
  if rhsLength <=? 0 then
    j <- chk32 c (rhsLength - 1) ;;
    divHi <- rdz rhs j ;;
    let shift := leading_zeros divHi in
    divHi <- shl32 divHi shift ;;
    div_loop_min_i (S (S (length lhs))) c lhsLength shift divHi bitsLength lhsLength lhs bits
  else if lhsLength <? rhsLength then Ret (lhs, bits)
  else
    left <- slice lhs 0 (Z.to_nat lhsLength) ;;
    right <- slice rhs 0 (Z.to_nat rhsLength) ;;
    part <- slice bits 0 (if bitsLength =? 0 then O else Z.to_nat (lhsLength - rhsLength + 1)) ;;
    '(left, part) <- calc_div_core c left right part ;;
    Ret (left ++ skipn (Z.to_nat lhsLength) lhs, part ++ skipn (length part) bits).

(** BigIntegerCalculator::divide(uint_array&, uint_array&, uint_array&):
    DivRem.cpp:68-85; line 80 converts three sizes to int. Returns (quotient, remainder). *)
Definition calc_divrem_i (c : cfg) (lhs rhs : list Z) : outcome (list Z * list Z) :=
  massert c (negb (is_nil lhs)) ;;;
  massert c (negb (is_nil rhs)) ;;;
  massert c (Nat.leb (length rhs) (length lhs)) ;;;
  let bits := zeros (length lhs - length rhs + 1) in
  '(localLeft, bits) <- calc_div_core_i c lhs (s32 (Z.of_nat (length lhs))) rhs (s32 (Z.of_nat (length rhs)))
    bits (s32 (Z.of_nat (length bits))) ;;
  Ret (bits, localLeft).

(** BigIntegerCalculator::divide(const uint_array&, const uint_array&): DivRem.cpp:88-105 *)
Definition calc_div_i (c : cfg) (lhs rhs : list Z) : outcome (list Z) :=
  massert c (negb (is_nil lhs)) ;;;
  massert c (negb (is_nil rhs)) ;;;
  massert c (Nat.leb (length rhs) (length lhs)) ;;;
  let bits := zeros (length lhs - length rhs + 1) in
  '(_, bits) <- calc_div_core_i c lhs (s32 (Z.of_nat (length lhs))) rhs (s32 (Z.of_nat (length rhs)))
    bits (s32 (Z.of_nat (length bits))) ;;
  Ret bits.

(** BigIntegerCalculator::remainder(const uint_array&, const uint_array&): DivRem.cpp:107-122 *)
Definition calc_rem_i (c : cfg) (lhs rhs : list Z) : outcome (list Z) :=
  massert c (negb (is_nil lhs)) ;;;
  massert c (negb (is_nil rhs)) ;;;
  massert c (Nat.leb (length rhs) (length lhs)) ;;;
  '(localLeft, _) <- calc_div_core_i c lhs (s32 (Z.of_nat (length lhs))) rhs (s32 (Z.of_nat (length rhs))) [] 0 ;;
  Ret localLeft.

(** BigInteger::operator%=: BigInteger.cpp:542-580 *)
Definition bi_rem_i (c : cfg) (dividend divisor : bigint) : outcome bigint :=
  assert_valid c dividend ;;;
  assert_valid c divisor ;;;
  let trivialDividend := is_nil (bits_of dividend) in
  let trivialDivisor := is_nil (bits_of divisor) in
  if trivialDividend && trivialDivisor then
    if sign_of divisor =? 0 then Throw DivideByZero
    else r <- int_mod c (sign_of dividend) (sign_of divisor) ;; bi_of_int32 c r
  else if trivialDividend then Ret dividend
  else if trivialDivisor then
    a <- abs32 c (sign_of divisor) ;;
    r <- calc_rem_u_i c (bits_of dividend) a ;;
    bi_of_int64 c (if sign_of dividend <? 0 then -1 * r else r)
  else if Nat.ltb (length (bits_of dividend)) (length (bits_of divisor)) then Ret dividend
  else
    bits <- calc_rem_i c (bits_of dividend) (bits_of divisor) ;;
    bi_of_mag_i c bits (sign_of dividend <? 0).

(** BigInteger::operator/=: BigInteger.cpp:677-717 *)
Definition bi_div_i (c : cfg) (dividend divisor : bigint) : outcome bigint :=
  assert_valid c dividend ;;;
  assert_valid c divisor ;;;
  let trivialDividend := is_nil (bits_of dividend) in
  let trivialDivisor := is_nil (bits_of divisor) in
  let neg := xorb (sign_of dividend <? 0) (sign_of divisor <? 0) in
  if trivialDividend && trivialDivisor then
    if sign_of divisor =? 0 then Throw DivideByZero
    else q <- int_div c (sign_of dividend) (sign_of divisor) ;; bi_of_int64 c q
  else if trivialDividend then Ret s_bnZeroInt
  else if trivialDivisor then
    a <- abs32 c (sign_of divisor) ;;
    bits <- calc_div_u_i c (bits_of dividend) a ;; bi_of_mag_i c bits neg
  else if Nat.ltb (length (bits_of dividend)) (length (bits_of divisor)) then Ret s_bnZeroInt
  else
    bits <- calc_div_i c (bits_of dividend) (bits_of divisor) ;; bi_of_mag_i c bits neg.

(** BigInteger::div_rem: BigInteger.cpp:582-624, the three references being
    distinct objects. Returns (quotient, remainder). *)
Definition bi_div_rem_i (c : cfg) (dividend divisor : bigint) : outcome (bigint * bigint) :=
  assert_valid c dividend ;;;
  assert_valid c divisor ;;;
  let trivialDividend := is_nil (bits_of dividend) in
  let trivialDivisor := is_nil (bits_of divisor) in
  let neg := xorb (sign_of dividend <? 0) (sign_of divisor <? 0) in
  if trivialDividend && trivialDivisor then
    if sign_of divisor =? 0 then Throw DivideByZero
    else
      r <- int_mod c (sign_of dividend) (sign_of divisor) ;; r <- bi_of_int32 c r ;;
      q <- int_div c (sign_of dividend) (sign_of divisor) ;; q <- bi_of_int32 c q ;;
      Ret (q, r)
  else if trivialDividend then z <- bi_of_int32 c 0 ;; Ret (z, dividend)
  else if trivialDivisor then
    a <- abs32 c (sign_of divisor) ;;
    '(bits, rest) <- calc_divrem_u_i c (bits_of dividend) a ;;
    r <- bi_of_uint32 c (if sign_of dividend <? 0 then u32 (-1 * rest) else rest) ;;
    q <- bi_of_mag_i c bits neg ;;
    Ret (q, r)
  else if Nat.ltb (length (bits_of dividend)) (length (bits_of divisor)) then
    z <- bi_of_int32 c 0 ;; Ret (z, dividend)
  else
    '(bits, rest) <- calc_divrem_i c (bits_of dividend) (bits_of divisor) ;;
    r <- bi_of_mag_i c rest (sign_of dividend <? 0) ;;
    q <- bi_of_mag_i c bits neg ;;
    Ret (q, r).
