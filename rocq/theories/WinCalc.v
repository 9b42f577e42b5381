(** LLP64 reading of the calculator. setup.py:60-64 and
    .github/workflows/build-python.yml:12,27 build Windows x64 wheels, where [long]
    and [unsigned long] have 32 bits; the other model files take them to have
    64. This file restates the functions of src/BigIntegerCalculator that
    declare a [long], and those that call them, with suffix _w. A function with
    no [_w] twin contains no [long] and calls none of these.

    [uint32_t + long] is computed in unsigned long, that is modulo 2^32, and
    then converted to long. [digit >> 32] on a 32-bit long is a shift by the
    full width, which is undefined. [win] is the reading of such shifts: [None]
    is the C++ standard's (undefined behaviour); [Some f] is a compiler that
    makes [x >> n] or [x << n] equal to [f x n]. *)
From Verif Require Import Machine CalcAddSub CalcSquMul CalcDivRem CalcPowMod CalcGcd.

Definition win := option (Z -> Z -> Z).

(** digit >> 32 where digit is long *)
Definition long_shr (w : win) (digit : Z) : outcome Z :=
  match w with None => Undef ShiftRange | Some f => Ret (s32 (f digit 32)) end.

(** x << k and x >> k where x is unsigned long *)
Definition ulong_shl (w : win) (x k : Z) : outcome Z :=
  if (0 <=? k) && (k <? 32) then Ret (u32 (Z.shiftl x k))
  else match w with None => Undef ShiftRange | Some f => Ret (u32 (f x k)) end.
Definition ulong_shr (w : win) (x k : Z) : outcome Z :=
  if (0 <=? k) && (k <? 32) then Ret (Z.shiftr x k)
  else match w with None => Undef ShiftRange | Some f => Ret (u32 (f x k)) end.

(** BigIntegerCalculator::add(const uint_array&, uint32_t): AddSub.cpp:4-26 *)
Definition calc_add_u_w (c : cfg) (lhs : list Z) (rhs : Z) : outcome (list Z) :=
  massert c (negb (is_nil lhs)) ;;;
  let bits := zeros (length lhs + 1) in
  l0 <- rd lhs 0 ;;
  digit <- chk64 c (l0 + rhs) ;;
  bits <- wr bits 0 (u32 digit) ;;
  let carry := s32 (Z.shiftr digit 32) in
  '(bits, carry) <-
    for_up (length lhs - 1) 1 (fun i st =>
      let '(bits, carry) := st in
      l <- rd lhs i ;;
      let digit := u32 (l + carry) in
      bits <- wr bits i (u32 digit) ;;
      Ret (bits, s32 (Z.shiftr digit 32))) (bits, carry) ;;
  wr bits (length lhs) (u32 carry).

(** BigIntegerCalculator::add_self: AddSub.cpp:65-89.
    The asserts at 66-67 dereference both pointers. *)
Definition calc_add_self_w (w : win) (c : cfg) (lhs rhs : list Z) : outcome (list Z) :=
  (if dbg c then l0 <- rd lhs 0 ;; r0 <- rd rhs 0 ;; massert c ((0 <=? l0) && (0 <=? r0))
   else Ret tt) ;;;
  massert c (Nat.leb (length rhs) (length lhs)) ;;;
  '(lhs', carry) <-
    for_up (length rhs) 0 (fun i st =>
      let '(lhs, carry) := st in
      l <- rd lhs i ;;
      r <- rd rhs i ;;
      let digit := s32 (u32 (u32 (l + carry) + r)) in
      lhs <- wr lhs i (u32 digit) ;;
      carry <- long_shr w digit ;;
      Ret (lhs, carry)) (lhs, 0) ;;
  '(lhs', carry) <-
    for_up_while (length lhs - length rhs) (length rhs)
      (fun st => negb (snd st =? 0)) (fun i st =>
      let '(lhs, carry) := st in
      l <- rd lhs i ;;
      let digit := s32 (u32 (l + carry)) in
      lhs <- wr lhs i (u32 digit) ;;
      carry <- long_shr w digit ;;
      Ret (lhs, carry)) (lhs', carry) ;;
  massert c (carry =? 0) ;;;
  Ret lhs'.

(** BigIntegerCalculator::subtract(const uint_array&, uint32_t): AddSub.cpp:91-113 *)
Definition calc_sub_u_w (w : win) (c : cfg) (lhs : list Z) (rhs : Z) : outcome (list Z) :=
  massert c (negb (is_nil lhs)) ;;;
  (if dbg c then l0 <- rd lhs 0 ;; massert c ((rhs <=? l0) || Nat.leb 2 (length lhs))
   else Ret tt) ;;;
  let bits := zeros (length lhs) in
  l0 <- rd lhs 0 ;;
  let digit := s32 (u32 (l0 - rhs)) in
  bits <- wr bits 0 (u32 digit) ;;
  carry <- long_shr w digit ;;
  '(bits, _) <-
    for_up (length lhs - 1) 1 (fun i st =>
      let '(bits, carry) := st in
      l <- rd lhs i ;;
      let digit := s32 (u32 (l + carry)) in
      bits <- wr bits i (u32 digit) ;;
      carry <- long_shr w digit ;;
      Ret (bits, carry)) (bits, carry) ;;
  Ret bits.

(** BigIntegerCalculator::subtract(const uint32_t*, int, const uint32_t*, int,
    uint32_t*, int): AddSub.cpp:128-157 *)
Definition calc_sub_core_w (w : win) (c : cfg) (lhs rhs bits : list Z) : outcome (list Z) :=
  massert c (Nat.leb (length rhs) (length lhs)) ;;;
  (if dbg c then cmp <- calc_compare_core c lhs rhs ;; massert c (0 <=? cmp) else Ret tt) ;;;
  massert c (Nat.eqb (length bits) (length lhs)) ;;;
  '(bits, carry) <-
    for_up (length rhs) 0 (fun i st =>
      let '(bits, carry) := st in
      l <- rd lhs i ;;
      r <- rd rhs i ;;
      let digit := s32 (u32 (u32 (l + carry) - r)) in
      bits <- wr bits i (u32 digit) ;;
      carry <- long_shr w digit ;;
      Ret (bits, carry)) (bits, 0) ;;
  '(bits, carry) <-
    for_up (length lhs - length rhs) (length rhs) (fun i st =>
      let '(bits, carry) := st in
      l <- rd lhs i ;;
      let digit := s32 (u32 (l + carry)) in
      bits <- wr bits i (u32 digit) ;;
      carry <- long_shr w digit ;;
      Ret (bits, carry)) (bits, carry) ;;
  massert c (carry =? 0) ;;;
  Ret bits.

(** BigIntegerCalculator::subtract(const uint_array&, const uint_array&): AddSub.cpp:115-126 *)
Definition calc_sub_w (w : win) (c : cfg) (lhs rhs : list Z) : outcome (list Z) :=
  massert c (negb (is_nil lhs)) ;;;
  massert c (negb (is_nil rhs)) ;;;
  massert c (Nat.leb (length rhs) (length lhs)) ;;;
  (if dbg c then cmp <- calc_compare c lhs rhs ;; massert c (0 <=? cmp) else Ret tt) ;;;
  calc_sub_core_w w c lhs rhs (zeros (length lhs)).

(** BigIntegerCalculator::subtract_self: AddSub.cpp:159-173 (no asserts) *)
Definition calc_sub_self_w (w : win) (c : cfg) (left right : list Z) : outcome (list Z) :=
  '(left', carry) <-
    for_up (length right) 0 (fun i st =>
      let '(lv, carry) := st in
      l <- rd lv i ;;
      r <- rd right i ;;
      let digit := s32 (u32 (u32 (l + carry) - r)) in
      lv <- wr lv i (u32 digit) ;;
      carry <- long_shr w digit ;;
      Ret (lv, carry)) (left, 0) ;;
  '(left', _) <-
    for_up_while (length left - length right) (length right)
      (fun st => negb (snd st =? 0)) (fun i st =>
      let '(lv, carry) := st in
      l <- rd lv i ;;
      let digit := s32 (u32 (l + carry)) in
      lv <- wr lv i (u32 digit) ;;
      carry <- long_shr w digit ;;
      Ret (lv, carry)) (left', carry) ;;
  Ret left'.

(** BigIntegerCalculator::subtract_core: SquMul.cpp:307-343 *)
Definition calc_subtract_core_w (w : win) (c : cfg) (lhs rhs core : list Z) : outcome (list Z) :=
  massert c (Nat.leb (length rhs) (length lhs)) ;;;
  massert c (Nat.leb (length lhs) (length core)) ;;;
  '(core', carry) <-
    for_up (length rhs) 0 (fun i st =>
      let '(core, carry) := st in
      x <- rd core i ;;
      l <- rd lhs i ;;
      r <- rd rhs i ;;
      let digit := s32 (u32 (u32 (u32 (x + carry) - l) - r)) in
      core <- wr core i (u32 digit) ;;
      carry <- long_shr w digit ;;
      Ret (core, carry)) (core, 0) ;;
  '(core', carry) <-
    for_up (length lhs - length rhs) (length rhs) (fun i st =>
      let '(core, carry) := st in
      x <- rd core i ;;
      l <- rd lhs i ;;
      let digit := s32 (u32 (u32 (x + carry) - l)) in
      core <- wr core i (u32 digit) ;;
      carry <- long_shr w digit ;;
      Ret (core, carry)) (core', carry) ;;
  '(core', _) <-
    for_up_while (length core - length lhs) (length lhs)
      (fun st => negb (snd st =? 0)) (fun i st =>
      let '(core, carry) := st in
      x <- rd core i ;;
      let digit := s32 (u32 (x + carry)) in
      core <- wr core i (u32 digit) ;;
      carry <- long_shr w digit ;;
      Ret (core, carry)) (core', carry) ;;
  Ret core'.

(** BigIntegerCalculator::square(uint32_t*, int, uint32_t*, int): SquMul.cpp:16-131.
    The two branches on AllocationThreshold (93-111, 112-129) are the same code
    and are modelled once. [fuel] bounds the recursion depth. *)
Fixpoint calc_square_core_w (w : win) (fuel : nat) (c : cfg) (value bits : list Z) : outcome (list Z) :=
  match fuel with
  | O => NoFuel
  | S fuel =>
  massert c (Nat.eqb (length bits) (length value + length value)) ;;;
  if Nat.ltb (length value) SquareThreshold then square_school value bits
  else
    let n := Nat.div2 (length value) in
    let n2 := (n + n)%nat in
    valueLow <- slice value 0 n ;;
    valueHigh <- slice value n (length value - n) ;;
    bitsLow <- slice bits 0 n2 ;;
    bitsLow <- calc_square_core_w w fuel c valueLow bitsLow ;;
    bits <- splice bits 0 bitsLow ;;
    bitsHigh <- slice bits n2 (length bits - n2) ;;
    bitsHigh <- calc_square_core_w w fuel c valueHigh bitsHigh ;;
    bits <- splice bits n2 bitsHigh ;;
    let foldLength := (length value - n + 1)%nat in
    let coreLength := (foldLength + foldLength)%nat in
    fold <- calc_add_core c valueHigh valueLow (zeros foldLength) ;;
    core <- calc_square_core_w w fuel c fold (zeros coreLength) ;;
    core <- calc_subtract_core_w w c bitsHigh bitsLow core ;;
    part <- slice bits n (length bits - n) ;;
    part <- calc_add_self_w w c part core ;;
    splice bits n part
  end.

(** BigIntegerCalculator::square(uint_array&): SquMul.cpp:4-14 *)
Definition calc_square_w (w : win) (c : cfg) (value : list Z) : outcome (list Z) :=
  massert c (negb (is_nil value)) ;;;
  calc_square_core_w w (S (length value)) c value (zeros (length value * 2)).

(** BigIntegerCalculator::multiply(uint32_t*, int, uint32_t*, int, uint32_t*, int):
    SquMul.cpp:171-305. The two branches on AllocationThreshold (252-277,
    278-303) are the same code and are modelled once. *)
Fixpoint calc_mul_core_w (w : win) (fuel : nat) (c : cfg) (left right bits : list Z) : outcome (list Z) :=
  match fuel with
  | O => NoFuel
  | S fuel =>
  massert c (Nat.leb (length right) (length left)) ;;;
  massert c (Nat.eqb (length bits) (length left + length right)) ;;;
  if Nat.ltb (length right) MultiplyThreshold then mul_school left right bits
  else
    let n := Nat.div2 (length right) in
    let n2 := (n + n)%nat in
    leftLow <- slice left 0 n ;;
    leftHigh <- slice left n (length left - n) ;;
    rightLow <- slice right 0 n ;;
    rightHigh <- slice right n (length right - n) ;;
    bitsLow <- slice bits 0 n2 ;;
    bitsLow <- calc_mul_core_w w fuel c leftLow rightLow bitsLow ;;
    bits <- splice bits 0 bitsLow ;;
    bitsHigh <- slice bits n2 (length bits - n2) ;;
    bitsHigh <- calc_mul_core_w w fuel c leftHigh rightHigh bitsHigh ;;
    bits <- splice bits n2 bitsHigh ;;
    let leftFoldLength := (length left - n + 1)%nat in
    let rightFoldLength := (length right - n + 1)%nat in
    let coreLength := (leftFoldLength + rightFoldLength)%nat in
    leftFold <- calc_add_core c leftHigh leftLow (zeros leftFoldLength) ;;
    rightFold <- calc_add_core c rightHigh rightLow (zeros rightFoldLength) ;;
    core <- calc_mul_core_w w fuel c leftFold rightFold (zeros coreLength) ;;
    core <- calc_subtract_core_w w c bitsHigh bitsLow core ;;
    part <- slice bits n (length bits - n) ;;
    part <- calc_add_self_w w c part core ;;
    splice bits n part
  end.

(** BigIntegerCalculator::multiply(uint_array, uint_array): SquMul.cpp:156-169 *)
Definition calc_mul_w (w : win) (c : cfg) (lhs rhs : list Z) : outcome (list Z) :=
  massert c (negb (is_nil lhs)) ;;;
  massert c (negb (is_nil rhs)) ;;;
  massert c (Nat.leb (length rhs) (length lhs)) ;;;
  calc_mul_core_w w (S (length rhs)) c lhs rhs (zeros (length lhs + length rhs)).

(** BitsBuffer::MultiplySelf: BitsBuffer.cpp:16-26. Returns (this, temp). *)
Definition buf_mul_self_w (w : win) (c : cfg) (this value temp : bitsbuf) : outcome (bitsbuf * bitsbuf) :=
  let total := (bb_len this + bb_len value)%nat in
  b <- slice (bb_bits this) 0 (bb_len this) ;;
  v <- slice (bb_bits value) 0 (bb_len value) ;;
  t <- slice (bb_bits temp) 0 total ;;
  t <- (if Nat.ltb (bb_len this) (bb_len value)
        then calc_mul_core_w w (S (bb_len this)) c v b t
        else calc_mul_core_w w (S (bb_len value)) c b v t) ;;
  tbits <- splice (bb_bits temp) 0 t ;;
  buf_apply this (Buf tbits (bb_len temp)) total.

(** BitsBuffer::SquareSelf: BitsBuffer.cpp:28-34. Returns (this, temp). *)
Definition buf_square_self_w (w : win) (c : cfg) (this temp : bitsbuf) : outcome (bitsbuf * bitsbuf) :=
  let total := (bb_len this + bb_len this)%nat in
  b <- slice (bb_bits this) 0 (bb_len this) ;;
  t <- slice (bb_bits temp) 0 total ;;
  t <- calc_square_core_w w (S (bb_len this)) c b t ;;
  tbits <- splice (bb_bits temp) 0 t ;;
  buf_apply this (Buf tbits (bb_len temp)) total.

(** BigIntegerCalculator::pow_core(uint32_t, BitsBuffer&, BitsBuffer&, BitsBuffer&):
    PowMod.cpp:51-59. Returns the result buffer. *)
Fixpoint pow_core_loop_w (w : win) (fuel : nat) (c : cfg) (power : Z) (value result temp : bitsbuf)
    : outcome bitsbuf :=
  if power =? 0 then Ret result else
  match fuel with
  | O => NoFuel
  | S fuel =>
      '(result, temp) <-
        (if Z.land power 1 =? 1 then buf_mul_self_w w c result value temp else Ret (result, temp)) ;;
      '(value, temp) <-
        (if negb (power =? 1) then buf_square_self_w w c value temp else Ret (value, temp)) ;;
      pow_core_loop_w w fuel c (Z.shiftr power 1) value result temp
  end.

(** BigIntegerCalculator::pow_core(uint32_t, BitsBuffer&): PowMod.cpp:18-26 *)
Definition pow_core_w (w : win) (c : cfg) (power : Z) (value : bitsbuf) : outcome (list Z) :=
  let size := length (bb_bits value) in
  temp <- buf_of_u size 0 ;;
  result <- buf_of_u size 1 ;;
  result <- pow_core_loop_w w bit_fuel c power value result temp ;;
  Ret (bb_bits result).

(** BigIntegerCalculator::pow(uint32_t, uint32_t): PowMod.cpp:6-10 *)
Definition calc_pow_u_w (w : win) (c : cfg) (value power : Z) : outcome (list Z) :=
  size <- pow_bound power 1 1 ;;
  v <- buf_of_u (Z.to_nat size) value ;;
  pow_core_w w c power v.

(** BigIntegerCalculator::pow(const uint_array&, uint32_t): PowMod.cpp:12-16 *)
Definition calc_pow_v_w (w : win) (c : cfg) (value : list Z) (power : Z) : outcome (list Z) :=
  size <- pow_bound power (Z.of_nat (length value)) 1 ;;
  v <- buf_of_v (Z.to_nat size) value ;;
  pow_core_w w c power v.

(** BigIntegerCalculator::pow_core(uint32_t, const uint_array&, BitsBuffer&,
    BitsBuffer&, BitsBuffer&): PowMod.cpp:162-175. Returns the result buffer. *)
Fixpoint powmod_loop_w (w : win) (fuel : nat) (c : cfg) (power : Z) (modulus : list Z)
    (value result temp : bitsbuf) : outcome bitsbuf :=
  if power =? 0 then Ret result else
  match fuel with
  | O => NoFuel
  | S fuel =>
      '(result, temp) <-
        (if Z.land power 1 =? 1 then
           '(result, temp) <- buf_mul_self_w w c result value temp ;;
           result <- buf_reduce c result modulus ;; Ret (result, temp)
         else Ret (result, temp)) ;;
      '(value, temp) <-
        (if negb (power =? 1) then
           '(value, temp) <- buf_square_self_w w c value temp ;;
           value <- buf_reduce c value modulus ;; Ret (value, temp)
         else Ret (value, temp)) ;;
      powmod_loop_w w fuel c (Z.shiftr power 1) modulus value result temp
  end.

(** Body of the inner 32-round loop of pow_core(const uint_array&, const
    uint_array&, BitsBuffer&, BitsBuffer&, BitsBuffer&): PowMod.cpp:149-157 *)
Definition powmod_v_step_w (w : win) (c : cfg) (modulus : list Z) (st : Z * bitsbuf * bitsbuf * bitsbuf)
    : outcome (Z * bitsbuf * bitsbuf * bitsbuf) :=
  let '(p, value, result, temp) := st in
  '(result, temp) <-
    (if Z.land p 1 =? 1 then
       '(result, temp) <- buf_mul_self_w w c result value temp ;;
       result <- buf_reduce c result modulus ;; Ret (result, temp)
     else Ret (result, temp)) ;;
  '(value, temp) <- buf_square_self_w w c value temp ;;
  value <- buf_reduce c value modulus ;;
  Ret (Z.shiftr p 1, value, result, temp).

(** BigIntegerCalculator::pow_core(const uint_array&, const uint_array&,
    BitsBuffer&, BitsBuffer&, BitsBuffer&): PowMod.cpp:144-160 *)
Definition powmod_v_loop_w (w : win) (c : cfg) (power modulus : list Z) (value result temp : bitsbuf)
    : outcome bitsbuf :=
  '(value, result, temp) <-
    for_up (length power - 1) 0 (fun i st =>
      let '(value, result, temp) := st in
      p <- rd power i ;;
      '(_, value, result, temp) <-
        for_up 32 0 (fun _ st => powmod_v_step_w w c modulus st) (p, value, result, temp) ;;
      Ret (value, result, temp)) (value, result, temp) ;;
  p <- rdz power (Z.of_nat (length power) - 1) ;;
  powmod_loop_w w bit_fuel c p modulus value result temp.

(** FastReducer::DivMul: FastReducer.cpp:26-43. Returns (bits, length). *)
Definition reducer_divmul_w (w : win) (c : cfg) (lv : list Z) (leftLength : nat) (rv : list Z)
    (rightLength : nat) (bits : list Z) (k : nat) : outcome (list Z * nat) :=
  bits <- fill bits (length bits) 0 ;;
  if Nat.ltb k leftLength then
    let leftLength := (leftLength - k)%nat in
    l <- slice lv k leftLength ;;
    r <- slice rv 0 rightLength ;;
    b <- slice bits 0 (leftLength + rightLength) ;;
    b <- (if Nat.ltb leftLength rightLength
          then calc_mul_core_w w (S leftLength) c r l b
          else calc_mul_core_w w (S rightLength) c l r b) ;;
    bits <- splice bits 0 b ;;
    len <- actual_length bits (leftLength + rightLength) ;;
    Ret (bits, len)
  else Ret (bits, O).

(** The correction loop of FastReducer::SubMod: FastReducer.cpp:59-62.
    Returns (left, leftLength). *)
Fixpoint submod_loop_w (w : win) (fuel : nat) (c : cfg) (lv : list Z) (leftLength : nat) (modulus : list Z)
    : outcome (list Z * nat) :=
  l <- slice lv 0 leftLength ;;
  cmp <- calc_compare_core c l modulus ;;
  if cmp <? 0 then Ret (lv, leftLength)
  else
  match fuel with
  | O => NoFuel
  | S fuel =>
      l <- slice lv 0 (Nat.max leftLength (length modulus)) ;;
      l <- calc_sub_self_w w c l modulus ;;
      lv <- splice lv 0 l ;;
      leftLength <- actual_length lv leftLength ;;
      submod_loop_w w fuel c lv leftLength modulus
  end.

(** FastReducer::SubMod: FastReducer.cpp:45-66. [left], [right] and [modulus]
    are by-value parameters, so only the returned length survives. *)
Definition reducer_submod_w (w : win) (c : cfg) (lv : list Z) (leftLength : nat) (rv : list Z)
    (rightLength : nat) (modulus : list Z) (k : nat) : outcome nat :=
  let leftLength := if Nat.ltb k leftLength then k else leftLength in
  let rightLength := if Nat.ltb k rightLength then k else rightLength in
  l <- slice lv 0 (Nat.max leftLength rightLength) ;;
  r <- slice rv 0 rightLength ;;
  l <- calc_sub_self_w w c l r ;;
  lv <- splice lv 0 l ;;
  leftLength <- actual_length lv leftLength ;;
  '(lv, leftLength) <- submod_loop_w w submod_fuel c lv leftLength modulus ;;
  _ <- fill lv leftLength (u32 (Z.of_nat (length lv - leftLength))) ;;
  Ret leftLength.

(** FastReducer::Reduce: FastReducer.cpp:17-24. [value] is a by-value
    parameter. Returns (length, this). *)
Definition reducer_reduce_w (w : win) (c : cfg) (this : reducer) (value : list Z) (len : nat)
    : outcome (nat * reducer) :=
  let n := length (fr_modulus this) in
  if Nat.ltb len n then Ret (len, this)
  else
    '(q1, l1) <- reducer_divmul_w w c value len (fr_mu this) (fr_mulen this) (fr_q1 this) (n - 1) ;;
    '(q2, l2) <- reducer_divmul_w w c q1 l1 (fr_modulus this) n (fr_q2 this) (n + 1) ;;
    len <- reducer_submod_w w c value len q2 l2 (fr_modulus this) (n + 1) ;;
    Ret (len, Red (fr_modulus this) (fr_mu this) q1 q2 (fr_mulen this)).

(** BitsBuffer::Reduce(FastReducer&): BitsBuffer.cpp:36-38. Returns (this, reducer). *)
Definition buf_reduce_fast_w (w : win) (c : cfg) (this : bitsbuf) (red : reducer)
    : outcome (bitsbuf * reducer) :=
  '(len, red) <- reducer_reduce_w w c red (bb_bits this) (bb_len this) ;;
  Ret (Buf (bb_bits this) len, red).

(** BigIntegerCalculator::pow_core(uint32_t, FastReducer&, BitsBuffer&,
    BitsBuffer&, BitsBuffer&): PowMod.cpp:229-242. Returns the result buffer. *)
Fixpoint powred_loop_w (w : win) (fuel : nat) (c : cfg) (power : Z) (red : reducer)
    (value result temp : bitsbuf) : outcome bitsbuf :=
  if power =? 0 then Ret result else
  match fuel with
  | O => NoFuel
  | S fuel =>
      '(result, temp, red) <-
        (if Z.land power 1 =? 1 then
           '(result, temp) <- buf_mul_self_w w c result value temp ;;
           '(result, red) <- buf_reduce_fast_w w c result red ;; Ret (result, temp, red)
         else Ret (result, temp, red)) ;;
      '(value, temp, red) <-
        (if negb (power =? 1) then
           '(value, temp) <- buf_square_self_w w c value temp ;;
           '(value, red) <- buf_reduce_fast_w w c value red ;; Ret (value, temp, red)
         else Ret (value, temp, red)) ;;
      powred_loop_w w fuel c (Z.shiftr power 1) red value result temp
  end.

(** Body of the inner 32-round loop of pow_core(const uint_array&,
    FastReducer&, ...): PowMod.cpp:216-224 *)
Definition powred_v_step_w (w : win) (c : cfg) (st : Z * reducer * bitsbuf * bitsbuf * bitsbuf)
    : outcome (Z * reducer * bitsbuf * bitsbuf * bitsbuf) :=
  let '(p, red, value, result, temp) := st in
  '(result, temp, red) <-
    (if Z.land p 1 =? 1 then
       '(result, temp) <- buf_mul_self_w w c result value temp ;;
       '(result, red) <- buf_reduce_fast_w w c result red ;; Ret (result, temp, red)
     else Ret (result, temp, red)) ;;
  '(value, temp) <- buf_square_self_w w c value temp ;;
  '(value, red) <- buf_reduce_fast_w w c value red ;;
  Ret (Z.shiftr p 1, red, value, result, temp).

(** BigIntegerCalculator::pow_core(const uint_array&, FastReducer&, BitsBuffer&,
    BitsBuffer&, BitsBuffer&): PowMod.cpp:212-227. All limbs of the exponent are
    visited by the loop, then the last one is processed again. *)
Definition powred_v_loop_w (w : win) (c : cfg) (power : list Z) (red : reducer) (value result temp : bitsbuf)
    : outcome bitsbuf :=
  '(red, value, result, temp) <-
    for_up (length power) 0 (fun i st =>
      let '(red, value, result, temp) := st in
      p <- rd power i ;;
      '(_, red, value, result, temp) <-
        for_up 32 0 (fun _ st => powred_v_step_w w c st) (p, red, value, result, temp) ;;
      Ret (red, value, result, temp)) (red, value, result, temp) ;;
  p <- rdz power (Z.of_nat (length power) - 1) ;;
  powred_loop_w w bit_fuel c p red value result temp.

(** BigIntegerCalculator::pow_core(uint32_t, const uint_array&, BitsBuffer&):
    PowMod.cpp:115-128 *)
Definition powmod_core_u_w (w : win) (c : cfg) (power : Z) (modulus : list Z) (value : bitsbuf)
    : outcome (list Z) :=
  let size := length (bb_bits value) in
  temp <- buf_of_u size 0 ;;
  result <- buf_of_u size 1 ;;
  result <-
    (if Nat.ltb (length modulus) ReducerThreshold
     then powmod_loop_w w bit_fuel c power modulus value result temp
     else red <- reducer_make c modulus ;; powred_loop_w w bit_fuel c power red value result temp) ;;
  Ret (bb_bits result).

(** BigIntegerCalculator::pow_core(const uint_array&, const uint_array&, BitsBuffer&):
    PowMod.cpp:197-210 *)
Definition powmod_core_v_w (w : win) (c : cfg) (power modulus : list Z) (value : bitsbuf)
    : outcome (list Z) :=
  let size := length (bb_bits value) in
  temp <- buf_of_u size 0 ;;
  result <- buf_of_u size 1 ;;
  result <-
    (if Nat.ltb (length modulus) ReducerThreshold
     then powmod_v_loop_w w c power modulus value result temp
     else red <- reducer_make c modulus ;; powred_v_loop_w w c power red value result temp) ;;
  Ret (bb_bits result).

(** BigIntegerCalculator::pow(uint32_t, uint32_t, const uint_array&): PowMod.cpp:109-113 *)
Definition calc_powmod_uuv_w (w : win) (c : cfg) (value power : Z) (modulus : list Z) : outcome (list Z) :=
  v <- buf_of_u (length modulus + length modulus) value ;;
  powmod_core_u_w w c power modulus v.

(** BigIntegerCalculator::pow(const uint_array&, uint32_t, const uint_array&): PowMod.cpp:130-142 *)
Definition calc_powmod_vuv_w (w : win) (c : cfg) (value : list Z) (power : Z) (modulus : list Z)
    : outcome (list Z) :=
  v <- powmod_buf c value modulus ;;
  powmod_core_u_w w c power modulus v.

(** BigIntegerCalculator::pow(uint32_t, const uint_array&, const uint_array&): PowMod.cpp:177-181 *)
Definition calc_powmod_uvv_w (w : win) (c : cfg) (value : Z) (power modulus : list Z) : outcome (list Z) :=
  v <- buf_of_u (length modulus + length modulus) value ;;
  powmod_core_v_w w c power modulus v.

(** BigIntegerCalculator::pow(const uint_array&, const uint_array&, const uint_array&):
    PowMod.cpp:183-195 *)
Definition calc_powmod_vvv_w (w : win) (c : cfg) (value power modulus : list Z) : outcome (list Z) :=
  v <- powmod_buf c value modulus ;;
  powmod_core_v_w w c power modulus v.

(** BigIntegerCalculator::lehmer_core: GcdInv.cpp:222-248. [x] and [y] are
    copies (GetBits returns by value), so the loop has no effect on the
    buffers; only the two Refresh calls do. Returns (xBuffer, yBuffer). *)
Definition lehmer_core_w (w : win) (c : cfg) (xBuffer yBuffer : bitsbuf) (a b cc d : Z)
    : outcome (bitsbuf * bitsbuf) :=
  massert c (Nat.leb 1 (bb_len xBuffer)) ;;;
  massert c (Nat.leb 1 (bb_len yBuffer)) ;;;
  massert c (Nat.leb (bb_len yBuffer) (bb_len xBuffer)) ;;;
  massert c ((a <=? INT_MAX) && (b <=? INT_MAX)) ;;;
  massert c ((cc <=? INT_MAX) && (d <=? INT_MAX)) ;;;
  let len := bb_len yBuffer in
  for_up len 0 (fun i st =>
    let '(x, y, xCarry, yCarry) := st in
    xi <- rd x i ;; yi <- rd y i ;;
    let xDigit := s32 (u32 (u32 (u32 (a * xi) - u32 (b * yi)) + xCarry)) in
    let yDigit := s32 (u32 (u32 (u32 (d * yi) - u32 (cc * xi)) + yCarry)) in
    xCarry <- long_shr w xDigit ;;
    yCarry <- long_shr w yDigit ;;
    x <- wr x i (u32 xDigit) ;;
    y <- wr y i (u32 yDigit) ;;
    Ret (x, y, xCarry, yCarry))
    (bb_bits xBuffer, bb_bits yBuffer, 0, 0) ;;;
  x <- buf_refresh xBuffer len ;;
  y <- buf_refresh yBuffer len ;;
  Ret (x, y).

(** One round of the main loop of gcd(BitsBuffer&, BitsBuffer&): GcdInv.cpp:71-148.
    Returns (left, right). *)
Definition lehmer_round_w (w : win) (c : cfg) (lbuf rbuf : bitsbuf) : outcome (bitsbuf * bitsbuf) :=
  '(x, y) <- extract_digits c lbuf rbuf ;;
  s <- lehmer_guess euclid_fuel (Leh 1 0 0 1 x y 0) ;;
  if lb s =? 0 then
    lbuf <- buf_reduce_buf c lbuf rbuf ;;
    Ret (rbuf, lbuf)
  else
    '(lbuf, rbuf) <- lehmer_core_w w c lbuf rbuf (la s) (lb s) (lc s) (ld s) ;;
    if Z.rem (liter s) 2 =? 1 then Ret (rbuf, lbuf) else Ret (lbuf, rbuf).

(** while (right.GetLength() > 2): GcdInv.cpp:70-149 *)
Fixpoint lehmer_loop_w (w : win) (fuel : nat) (c : cfg) (lbuf rbuf : bitsbuf) : outcome (bitsbuf * bitsbuf) :=
  if Nat.ltb 2 (bb_len rbuf) then
    match fuel with
    | O => NoFuel
    | S fuel =>
        '(lbuf, rbuf) <- lehmer_round_w w c lbuf rbuf ;;
        lehmer_loop_w w fuel c lbuf rbuf
    end
  else Ret (lbuf, rbuf).

(** BigIntegerCalculator::gcd(BitsBuffer&, BitsBuffer&): GcdInv.cpp:58-164.
    Returns (left, right). *)
Definition calc_gcd_buf_w (w : win) (fuel : nat) (c : cfg) (lbuf rbuf : bitsbuf) : outcome (bitsbuf * bitsbuf) :=
  massert c (Nat.leb 2 (bb_len lbuf)) ;;;
  massert c (Nat.leb 2 (bb_len rbuf)) ;;;
  massert c (Nat.leb (bb_len rbuf) (bb_len lbuf)) ;;;
  '(lbuf, rbuf) <- lehmer_loop_w w fuel c lbuf rbuf ;;
  if Nat.ltb 0 (bb_len rbuf) then
    lbuf <- buf_reduce_buf c lbuf rbuf ;;
    x1 <- rd (bb_bits rbuf) 1 ;; x0 <- rd (bb_bits rbuf) 0 ;;
    y1 <- rd (bb_bits lbuf) 1 ;; y0 <- rd (bb_bits lbuf) 0 ;;
    let x := Z.lor (u64 (Z.shiftl x1 32)) x0 in
    let y := Z.lor (u64 (Z.shiftl y1 32)) y0 in
    g <- calc_gcd64 x y ;;
    lbuf <- buf_overwrite lbuf g ;;
    rbuf <- buf_overwrite rbuf 0 ;;
    Ret (lbuf, rbuf)
  else Ret (lbuf, rbuf).

(** BigIntegerCalculator::gcd(uint_array, uint_array): GcdInv.cpp:45-56 *)
Definition calc_gcd_w (w : win) (fuel : nat) (c : cfg) (lv rv : list Z) : outcome (list Z) :=
  massert c (Nat.leb 2 (length lv)) ;;;
  massert c (Nat.leb 2 (length rv)) ;;;
  (if dbg c then cmp <- calc_compare c lv rv ;; massert c (0 <=? cmp) else Ret tt) ;;;
  lbuf <- buf_of_v (length lv) lv ;;
  rbuf <- buf_of_v (length rv) rv ;;
  '(lbuf, _) <- calc_gcd_buf_w w fuel c lbuf rbuf ;;
  Ret (bb_bits lbuf).
