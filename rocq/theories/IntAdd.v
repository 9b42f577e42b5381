(** Addition and subtraction of src/BigInteger.cpp once more, with the lengths
    the code keeps in [int] wrapped to 32 bits, for numbers of any size. *)
From Verif Require Import Machine CalcAddSub BigInt.

(** BigIntegerCalculator::add(const uint32_t*, int, const uint32_t*, int,
    uint32_t*, int): AddSub.cpp:40-63, on whole arrays, with the lengths passed. *)
Definition calc_add_core_i (c : cfg) (lhs : list Z) (lhsLength : Z) (rhs : list Z) (rhsLength : Z)
    (bits : list Z) (bitsLength : Z) : outcome (list Z) :=
  massert c (0 <=? lhsLength) ;;;
  massert c (0 <=? rhsLength) ;;;
  massert c (rhsLength <=? lhsLength) ;;;
  (if dbg c then n <- chk32 c (lhsLength + 1) ;; massert c (bitsLength =? n) else Ret tt) ;;;
  let nl := Z.to_nat lhsLength in let nr := Z.to_nat rhsLength in
  '(bits, carry) <-
    for_up nr 0 (fun i st =>
      let '(bits, carry) := st in
      l <- rd lhs i ;;
      r <- rd rhs i ;;
      let digit := u64 (u64 (l + carry) + r) in
      bits <- wr bits i (u32 digit) ;;
      Ret (bits, Z.shiftr digit 32)) (bits, 0) ;;
  '(bits, carry) <-
    for_up (nl - nr) nr (fun i st =>
      let '(bits, carry) := st in
      l <- rd lhs i ;;
      let digit := u64 (l + carry) in
      bits <- wr bits i (u32 digit) ;;
      Ret (bits, Z.shiftr digit 32)) (bits, carry) ;;
  wr bits (Nat.max nl nr) (u32 carry).

(** BigIntegerCalculator::add(const uint_array&, const uint_array&):
    AddSub.cpp:28-38; line 35 converts three sizes to int. *)
Definition calc_add_i (c : cfg) (lhs rhs : list Z) : outcome (list Z) :=
  massert c (negb (is_nil lhs)) ;;;
  massert c (negb (is_nil rhs)) ;;;
  massert c (Nat.leb (length rhs) (length lhs)) ;;;
  let bits := zeros (length lhs + 1) in
  calc_add_core_i c lhs (s32 (Z.of_nat (length lhs))) rhs (s32 (Z.of_nat (length rhs)))
    bits (s32 (Z.of_nat (length bits))).

(** BigIntegerCalculator::compare(uint_array, uint_array): AddSub.cpp:175-191.
    [i] is an int: the size less one, wrapped (line 184). *)
Definition calc_compare_i (c : cfg) (lhs rhs : list Z) : outcome Z :=
  massert c (negb (is_nil lhs)) ;;;
  massert c (negb (is_nil rhs)) ;;;
  if Nat.ltb (length lhs) (length rhs) then Ret (-1)
  else if Nat.ltb (length rhs) (length lhs) then Ret 1
  else compare_loop lhs rhs (Z.to_nat (s32 (Z.of_nat (length lhs) - 1) + 1)).

(** BigIntegerCalculator::compare(const uint32_t*, int, const uint32_t*, int):
    AddSub.cpp:193-210 *)
Definition calc_compare_core_i (c : cfg) (lhs : list Z) (lhsLength : Z) (rhs : list Z) (rhsLength : Z) : outcome Z :=
  massert c (0 <=? lhsLength) ;;;
  massert c (0 <=? rhsLength) ;;;
  if lhsLength <? rhsLength then Ret (-1)
  else if rhsLength <? lhsLength then Ret 1
  else i <- chk32 c (lhsLength - 1) ;; compare_loop lhs rhs (Z.to_nat (i + 1)).

(** BigIntegerCalculator::subtract(const uint32_t*, int, const uint32_t*, int,
    uint32_t*, int): AddSub.cpp:128-157, on whole arrays, with the lengths passed. *)
Definition calc_sub_core_i (c : cfg) (lhs : list Z) (lhsLength : Z) (rhs : list Z) (rhsLength : Z)
    (bits : list Z) (bitsLength : Z) : outcome (list Z) :=
  massert c (0 <=? lhsLength) ;;;
  massert c (0 <=? rhsLength) ;;;
  massert c (rhsLength <=? lhsLength) ;;;
  (if dbg c then cmp <- calc_compare_core_i c lhs lhsLength rhs rhsLength ;; massert c (0 <=? cmp) else Ret tt) ;;;
  massert c (bitsLength =? lhsLength) ;;;
  let nl := Z.to_nat lhsLength in let nr := Z.to_nat rhsLength in
  '(bits, carry) <-
    for_up nr 0 (fun i st =>
      let '(bits, carry) := st in
      l <- rd lhs i ;;
      r <- rd rhs i ;;
      d1 <- chk64 c (l + carry) ;;
      digit <- chk64 c (d1 - r) ;;
      bits <- wr bits i (u32 digit) ;;
      Ret (bits, Z.shiftr digit 32)) (bits, 0) ;;
  '(bits, carry) <-
    for_up (nl - nr) nr (fun i st =>
      let '(bits, carry) := st in
      l <- rd lhs i ;;
      digit <- chk64 c (l + carry) ;;
      bits <- wr bits i (u32 digit) ;;
      Ret (bits, Z.shiftr digit 32)) (bits, carry) ;;
  massert c (carry =? 0) ;;;
  Ret bits.

(** BigIntegerCalculator::subtract(const uint_array&, const uint_array&):
    AddSub.cpp:115-126; line 123 converts three sizes to int. *)
Definition calc_sub_i (c : cfg) (lhs rhs : list Z) : outcome (list Z) :=
  massert c (negb (is_nil lhs)) ;;;
  massert c (negb (is_nil rhs)) ;;;
  massert c (Nat.leb (length rhs) (length lhs)) ;;;
  (if dbg c then cmp <- calc_compare_i c lhs rhs ;; massert c (0 <=? cmp) else Ret tt) ;;;
  let bits := zeros (length lhs) in
  calc_sub_core_i c lhs (s32 (Z.of_nat (length lhs))) rhs (s32 (Z.of_nat (length rhs)))
    bits (s32 (Z.of_nat (length bits))).

(** BigInteger::BigInteger(uint_array, bool): BigInteger.cpp:330-355, [len] an
    int (lines 331, 335) *)
Definition bi_of_mag_i (c : cfg) (value : list Z) (negative : bool) : outcome bigint :=
  let size := s32 (Z.of_nat (length value)) in
  len <- (if 0 <? size then k <- trim_len value (Z.to_nat size) ;; Ret (Z.of_nat k) else Ret size) ;;
  v0 <- (if len =? 1 then rd value 0 else Ret 0) ;;
  let this :=
    if len =? 0 then s_bnZeroInt
    else if (len =? 1) && (v0 <? kuMaskHighBit) then
      let sign := if negative then - s32 v0 else s32 v0 in
      if sign =? INT_MIN then s_bnMinInt else Big sign []
    else Big (if negative then -1 else 1) value in
  checked c (Big (sign_of this) (pop_zeros (length (bits_of this)) (bits_of this))).

(** BigInteger::add(const uint_array&, int, const uint_array&, int): BigInteger.cpp:402-431 *)
Definition bi_add_parts_i (c : cfg) (lhs : list Z) (lhsSign : Z) (rhs : list Z) (rhsSign : Z)
    : outcome bigint :=
  let trivialLeft := is_nil lhs in
  let trivialRight := is_nil rhs in
  if trivialLeft && trivialRight then
    s <- chk64 c (lhsSign + rhsSign) ;; bi_of_int64 c s
  else if trivialLeft then
    a <- abs32 c lhsSign ;;
    bits <- calc_add_u c rhs a ;; bi_of_mag_i c bits (lhsSign <? 0)
  else if trivialRight then
    a <- abs32 c rhsSign ;;
    bits <- calc_add_u c lhs a ;; bi_of_mag_i c bits (lhsSign <? 0)
  else if Nat.ltb (length lhs) (length rhs) then
    bits <- calc_add_i c rhs lhs ;; bi_of_mag_i c bits (lhsSign <? 0)
  else
    bits <- calc_add_i c lhs rhs ;; bi_of_mag_i c bits (lhsSign <? 0).

(** BigInteger::subtract(const uint_array&, int, const uint_array&, int): BigInteger.cpp:433-462 *)
Definition bi_sub_parts_i (c : cfg) (lhs : list Z) (lhsSign : Z) (rhs : list Z) (rhsSign : Z)
    : outcome bigint :=
  let trivialLeft := is_nil lhs in
  let trivialRight := is_nil rhs in
  if trivialLeft && trivialRight then
    s <- chk64 c (lhsSign - rhsSign) ;; bi_of_int64 c s
  else if trivialLeft then
    a <- abs32 c lhsSign ;;
    bits <- calc_sub_u c rhs a ;; bi_of_mag_i c bits (0 <=? lhsSign)
  else if trivialRight then
    a <- abs32 c rhsSign ;;
    bits <- calc_sub_u c lhs a ;; bi_of_mag_i c bits (lhsSign <? 0)
  else
    cmp <- calc_compare_i c lhs rhs ;;
    if cmp <? 0 then
      bits <- calc_sub_i c rhs lhs ;; bi_of_mag_i c bits (0 <=? lhsSign)
    else
      bits <- calc_sub_i c lhs rhs ;; bi_of_mag_i c bits (lhsSign <? 0).

(** BigInteger::operator+=: BigInteger.cpp:659-670; operator+: 654-657; add: 393-396 *)
Definition bi_add_i (c : cfg) (lhs rhs : bigint) : outcome bigint :=
  assert_valid c lhs ;;;
  assert_valid c rhs ;;;
  if xorb (sign_of lhs <? 0) (sign_of rhs <? 0) then
    n <- chk32 c (-1 * sign_of rhs) ;;
    bi_sub_parts_i c (bits_of lhs) (sign_of lhs) (bits_of rhs) n
  else bi_add_parts_i c (bits_of lhs) (sign_of lhs) (bits_of rhs) (sign_of rhs).

(** BigInteger::operator-=: BigInteger.cpp:469-480; operator-: 464-467; subtract: 398-400 *)
Definition bi_sub_i (c : cfg) (lhs rhs : bigint) : outcome bigint :=
  assert_valid c lhs ;;;
  assert_valid c rhs ;;;
  if xorb (sign_of lhs <? 0) (sign_of rhs <? 0) then
    n <- chk32 c (-1 * sign_of rhs) ;;
    bi_add_parts_i c (bits_of lhs) (sign_of lhs) (bits_of rhs) n
  else bi_sub_parts_i c (bits_of lhs) (sign_of lhs) (bits_of rhs) (sign_of rhs).
