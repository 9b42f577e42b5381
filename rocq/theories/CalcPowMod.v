(** Model of src/BigIntegerCalculator/PowMod.cpp, BitsBuffer.cpp and FastReducer.cpp. *)
From Verif Require Import Machine CalcAddSub CalcSquMul CalcDivRem.

(** include/BigIntegerCalculator.h:116 *)
Definition ReducerThreshold : nat := 32.

(** BigIntegerCalculator::actual_length: PowMod.cpp:61-65 *)
Fixpoint actual_length (value : list Z) (length : nat) : outcome nat :=
  match length with
  | O => Ret O
  | S m => x <- rd value m ;; if x =? 0 then actual_length value m else Ret length
  end.

(** struct BitsBuffer: include/BitsBuffer.h:8-44 *)
Record bitsbuf := Buf { bb_bits : list Z; bb_len : nat }.

(** BitsBuffer(int, uint32_t): BitsBuffer.cpp:4-8 *)
Definition buf_of_u (size : nat) (value : Z) : outcome bitsbuf :=
  bits <- wr (zeros size) 0 value ;;
  Ret (Buf bits (if value =? 0 then O else 1%nat)).

(** BitsBuffer(int, uint_array): BitsBuffer.cpp:10-14 *)
Definition buf_of_v (size : nat) (value : list Z) : outcome bitsbuf :=
  len <- actual_length value (length value) ;;
  bits <- splice (zeros size) 0 (firstn len value) ;;
  Ret (Buf bits len).

(** BitsBuffer::Apply: BitsBuffer.cpp:79-86. Returns (this, temp). *)
Definition buf_apply (this temp : bitsbuf) (maxLength : nat) : outcome (bitsbuf * bitsbuf) :=
  bits <- fill (bb_bits this) (bb_len this) 0 ;;
  len <- actual_length (bb_bits temp) maxLength ;;
  Ret (Buf (bb_bits temp) len, Buf bits (bb_len temp)).

(** BitsBuffer::MultiplySelf: BitsBuffer.cpp:16-26. Returns (this, temp). *)
Definition buf_mul_self (c : cfg) (this value temp : bitsbuf) : outcome (bitsbuf * bitsbuf) :=
  let total := (bb_len this + bb_len value)%nat in
  b <- slice (bb_bits this) 0 (bb_len this) ;;
  v <- slice (bb_bits value) 0 (bb_len value) ;;
  t <- slice (bb_bits temp) 0 total ;;
  t <- (if Nat.ltb (bb_len this) (bb_len value)
        then calc_mul_core (S (bb_len this)) c v b t
        else calc_mul_core (S (bb_len value)) c b v t) ;;
  tbits <- splice (bb_bits temp) 0 t ;;
  buf_apply this (Buf tbits (bb_len temp)) total.

(** BitsBuffer::SquareSelf: BitsBuffer.cpp:28-34. Returns (this, temp). *)
Definition buf_square_self (c : cfg) (this temp : bitsbuf) : outcome (bitsbuf * bitsbuf) :=
  let total := (bb_len this + bb_len this)%nat in
  b <- slice (bb_bits this) 0 (bb_len this) ;;
  t <- slice (bb_bits temp) 0 total ;;
  t <- calc_square_core (S (bb_len this)) c b t ;;
  tbits <- splice (bb_bits temp) 0 t ;;
  buf_apply this (Buf tbits (bb_len temp)) total.

(** BitsBuffer::Reduce(const uint_array&): BitsBuffer.cpp:40-45 *)
Definition buf_reduce (c : cfg) (this : bitsbuf) (modulus : list Z) : outcome bitsbuf :=
  if Nat.leb (length modulus) (bb_len this) then
    b <- slice (bb_bits this) 0 (bb_len this) ;;
    '(b, _) <- calc_div_core c b modulus [] ;;
    bits <- splice (bb_bits this) 0 b ;;
    len <- actual_length bits (length modulus) ;;
    Ret (Buf bits len)
  else Ret this.

(** BitsBuffer::Reduce(BitsBuffer&): BitsBuffer.cpp:47-54 *)
Definition buf_reduce_buf (c : cfg) (this modulus : bitsbuf) : outcome bitsbuf :=
  if Nat.leb (bb_len modulus) (bb_len this) then
    b <- slice (bb_bits this) 0 (bb_len this) ;;
    m <- slice (bb_bits modulus) 0 (bb_len modulus) ;;
    '(b, _) <- calc_div_core c b m [] ;;
    bits <- splice (bb_bits this) 0 b ;;
    len <- actual_length bits (bb_len modulus) ;;
    Ret (Buf bits len)
  else Ret this.

(** BitsBuffer::Overwrite(uint64_t): BitsBuffer.cpp:56-64 *)
Definition buf_overwrite (this : bitsbuf) (value : Z) : outcome bitsbuf :=
  bits <- (if Nat.ltb 2 (bb_len this) then fill (bb_bits this) (bb_len this - 2) 2
           else Ret (bb_bits this)) ;;
  let lo := u32 value in
  let hi := u32 (Z.shiftr value 32) in
  bits <- wr bits 0 lo ;;
  bits <- wr bits 1 hi ;;
  Ret (Buf bits (if negb (hi =? 0) then 2%nat else if negb (lo =? 0) then 1%nat else O)).

(** BitsBuffer::Refresh: BitsBuffer.cpp:73-77 *)
Definition buf_refresh (this : bitsbuf) (maxLength : nat) : outcome bitsbuf :=
  bits <- (if Nat.ltb maxLength (bb_len this)
           then fill (bb_bits this) (bb_len this - maxLength) (u32 (Z.of_nat maxLength))
           else Ret (bb_bits this)) ;;
  len <- actual_length bits maxLength ;;
  Ret (Buf bits len).

(** Fuel for loops over the bits of a uint32_t. *)
Definition bit_fuel : nat := 33.

(** BigIntegerCalculator::pow_bound: PowMod.cpp:28-49 *)
Fixpoint pow_bound_loop (fuel : nat) (power valueLength resultLength : Z) : outcome Z :=
  if power =? 0 then Ret resultLength else
  match fuel with
  | O => NoFuel
  | S fuel =>
      resultLength <-
        (if Z.land power 1 =? 1 then
           if valueLength <? INT_MAX - resultLength then Ret (resultLength + valueLength)
           else Throw OverflowError
         else Ret resultLength) ;;
      valueLength <-
        (if negb (power =? 1) then
           if valueLength <? INT_MAX - valueLength then Ret (valueLength + valueLength)
           else Throw OverflowError
         else Ret valueLength) ;;
      pow_bound_loop fuel (Z.shiftr power 1) valueLength resultLength
  end.
Definition pow_bound (power valueLength resultLength : Z) : outcome Z :=
  pow_bound_loop bit_fuel power valueLength resultLength.

(** BigIntegerCalculator::pow_core(uint32_t, BitsBuffer&, BitsBuffer&, BitsBuffer&):
    PowMod.cpp:51-59. Returns the result buffer. *)
Fixpoint pow_core_loop (fuel : nat) (c : cfg) (power : Z) (value result temp : bitsbuf)
    : outcome bitsbuf :=
  if power =? 0 then Ret result else
  match fuel with
  | O => NoFuel
  | S fuel =>
      '(result, temp) <-
        (if Z.land power 1 =? 1 then buf_mul_self c result value temp else Ret (result, temp)) ;;
      '(value, temp) <-
        (if negb (power =? 1) then buf_square_self c value temp else Ret (value, temp)) ;;
      pow_core_loop fuel c (Z.shiftr power 1) value result temp
  end.

(** BigIntegerCalculator::pow_core(uint32_t, BitsBuffer&): PowMod.cpp:18-26 *)
Definition pow_core (c : cfg) (power : Z) (value : bitsbuf) : outcome (list Z) :=
  let size := length (bb_bits value) in
  temp <- buf_of_u size 0 ;;
  result <- buf_of_u size 1 ;;
  result <- pow_core_loop bit_fuel c power value result temp ;;
  Ret (bb_bits result).

(** BigIntegerCalculator::pow(uint32_t, uint32_t): PowMod.cpp:6-10 *)
Definition calc_pow_u (c : cfg) (value power : Z) : outcome (list Z) :=
  size <- pow_bound power 1 1 ;;
  v <- buf_of_u (Z.to_nat size) value ;;
  pow_core c power v.

(** BigIntegerCalculator::pow(const uint_array&, uint32_t): PowMod.cpp:12-16 *)
Definition calc_pow_v (c : cfg) (value : list Z) (power : Z) : outcome (list Z) :=
  size <- pow_bound power (Z.of_nat (length value)) 1 ;;
  v <- buf_of_v (Z.to_nat size) value ;;
  pow_core c power v.

(** BigIntegerCalculator::pow_core(uint32_t, uint32_t, uint64_t, uint64_t): PowMod.cpp:67-84 *)
Fixpoint powmod_u_loop (fuel : nat) (power modulus value result : Z) : outcome Z :=
  if power =? 0 then
    if modulus =? 0 then Throw DivideByZero
    else r <- umod result modulus ;; Ret (u32 r)
  else
  match fuel with
  | O => NoFuel
  | S fuel =>
      result <-
        (if Z.land power 1 =? 1 then
           if modulus =? 0 then Throw DivideByZero
           else umod (u64 (result * value)) modulus
         else Ret result) ;;
      value <-
        (if negb (power =? 1) then
           if modulus =? 0 then Throw DivideByZero
           else umod (u64 (value * value)) modulus
         else Ret value) ;;
      powmod_u_loop fuel (Z.shiftr power 1) modulus value result
  end.

(** Body of the inner 32-round loop of pow_core(const uint_array&, uint32_t,
    uint64_t, uint64_t): PowMod.cpp:94-99. No zero check on modulus here. *)
Definition powmod_bits_step (modulus : Z) (st : Z * Z * Z) : outcome (Z * Z * Z) :=
  let '(p, value, result) := st in
  result <- (if Z.land p 1 =? 1 then umod (u64 (result * value)) modulus else Ret result) ;;
  value <- umod (u64 (value * value)) modulus ;;
  Ret (Z.shiftr p 1, value, result).

(** BigIntegerCalculator::pow_core(const uint_array&, uint32_t, uint64_t, uint64_t):
    PowMod.cpp:91-102 *)
Definition powmod_v_core (power : list Z) (modulus value result : Z) : outcome Z :=
  '(value, result) <-
    for_up (length power - 1) 0 (fun i st =>
      let '(value, result) := st in
      p <- rd power i ;;
      '(_, value, result) <-
        for_up 32 0 (fun _ st => powmod_bits_step modulus st) (p, value, result) ;;
      Ret (value, result)) (value, result) ;;
  p <- rdz power (Z.of_nat (length power) - 1) ;;
  powmod_u_loop bit_fuel p modulus value result.

(** BigIntegerCalculator::pow(uint32_t, uint32_t, uint32_t): PowMod.cpp:244-246 *)
Definition calc_powmod_uuu (value power modulus : Z) : outcome Z :=
  powmod_u_loop bit_fuel power modulus value 1.

(** BigIntegerCalculator::pow(const uint_array&, uint32_t, uint32_t): PowMod.cpp:86-89 *)
Definition calc_powmod_vuu (c : cfg) (value : list Z) (power modulus : Z) : outcome Z :=
  v <- calc_rem_u c value modulus ;;
  powmod_u_loop bit_fuel power modulus v 1.

(** BigIntegerCalculator::pow(uint32_t, const uint_array&, uint32_t): PowMod.cpp:248-250 *)
Definition calc_powmod_uvu (value : Z) (power : list Z) (modulus : Z) : outcome Z :=
  powmod_v_core power modulus value 1.

(** BigIntegerCalculator::pow(const uint_array&, const uint_array&, uint32_t): PowMod.cpp:104-107 *)
Definition calc_powmod_vvu (c : cfg) (value power : list Z) (modulus : Z) : outcome Z :=
  v <- calc_rem_u c value modulus ;;
  powmod_v_core power modulus v 1.

(** BigIntegerCalculator::pow_core(uint32_t, const uint_array&, BitsBuffer&,
    BitsBuffer&, BitsBuffer&): PowMod.cpp:162-175. Returns the result buffer. *)
Fixpoint powmod_loop (fuel : nat) (c : cfg) (power : Z) (modulus : list Z)
    (value result temp : bitsbuf) : outcome bitsbuf :=
  if power =? 0 then Ret result else
  match fuel with
  | O => NoFuel
  | S fuel =>
      '(result, temp) <-
        (if Z.land power 1 =? 1 then
           '(result, temp) <- buf_mul_self c result value temp ;;
           result <- buf_reduce c result modulus ;; Ret (result, temp)
         else Ret (result, temp)) ;;
      '(value, temp) <-
        (if negb (power =? 1) then
           '(value, temp) <- buf_square_self c value temp ;;
           value <- buf_reduce c value modulus ;; Ret (value, temp)
         else Ret (value, temp)) ;;
      powmod_loop fuel c (Z.shiftr power 1) modulus value result temp
  end.

(** Body of the inner 32-round loop of pow_core(const uint_array&, const
    uint_array&, BitsBuffer&, BitsBuffer&, BitsBuffer&): PowMod.cpp:149-157 *)
Definition powmod_v_step (c : cfg) (modulus : list Z) (st : Z * bitsbuf * bitsbuf * bitsbuf)
    : outcome (Z * bitsbuf * bitsbuf * bitsbuf) :=
  let '(p, value, result, temp) := st in
  '(result, temp) <-
    (if Z.land p 1 =? 1 then
       '(result, temp) <- buf_mul_self c result value temp ;;
       result <- buf_reduce c result modulus ;; Ret (result, temp)
     else Ret (result, temp)) ;;
  '(value, temp) <- buf_square_self c value temp ;;
  value <- buf_reduce c value modulus ;;
  Ret (Z.shiftr p 1, value, result, temp).

(** BigIntegerCalculator::pow_core(const uint_array&, const uint_array&,
    BitsBuffer&, BitsBuffer&, BitsBuffer&): PowMod.cpp:144-160 *)
Definition powmod_v_loop (c : cfg) (power modulus : list Z) (value result temp : bitsbuf)
    : outcome bitsbuf :=
  '(value, result, temp) <-
    for_up (length power - 1) 0 (fun i st =>
      let '(value, result, temp) := st in
      p <- rd power i ;;
      '(_, value, result, temp) <-
        for_up 32 0 (fun _ st => powmod_v_step c modulus st) (p, value, result, temp) ;;
      Ret (value, result, temp)) (value, result, temp) ;;
  p <- rdz power (Z.of_nat (length power) - 1) ;;
  powmod_loop bit_fuel c p modulus value result temp.

(** struct FastReducer: include/FastReducer.h:5-22 *)
Record reducer := Red {
  fr_modulus : list Z; fr_mu : list Z; fr_q1 : list Z; fr_q2 : list Z; fr_mulen : nat }.

(** FastReducer::FastReducer: FastReducer.cpp:4-15 *)
Definition reducer_make (c : cfg) (modulus : list Z) : outcome reducer :=
  let n := length modulus in
  r <- wr (zeros (n * 2 + 1)) (n * 2) 1 ;;
  mu <- calc_div c r modulus ;;
  muLength <- actual_length mu (length mu) ;;
  Ret (Red modulus mu (zeros (n * 2 + 2)) (zeros (n * 2 + 1)) muLength).

(** FastReducer::DivMul: FastReducer.cpp:26-43. Returns (bits, length). *)
Definition reducer_divmul (c : cfg) (lv : list Z) (leftLength : nat) (rv : list Z)
    (rightLength : nat) (bits : list Z) (k : nat) : outcome (list Z * nat) :=
  bits <- fill bits (length bits) 0 ;;
  if Nat.ltb k leftLength then
    let leftLength := (leftLength - k)%nat in
    l <- slice lv k leftLength ;;
    r <- slice rv 0 rightLength ;;
    b <- slice bits 0 (leftLength + rightLength) ;;
    b <- (if Nat.ltb leftLength rightLength
          then calc_mul_core (S leftLength) c r l b
          else calc_mul_core (S rightLength) c l r b) ;;
    bits <- splice bits 0 b ;;
    len <- actual_length bits (leftLength + rightLength) ;;
    Ret (bits, len)
  else Ret (bits, O).

(** The correction loop of FastReducer::SubMod: FastReducer.cpp:59-62.
    Returns (left, leftLength). *)
Fixpoint submod_loop (fuel : nat) (c : cfg) (lv : list Z) (leftLength : nat) (modulus : list Z)
    : outcome (list Z * nat) :=
  l <- slice lv 0 leftLength ;;
  cmp <- calc_compare_core c l modulus ;;
  if cmp <? 0 then Ret (lv, leftLength)
  else
  match fuel with
  | O => NoFuel
  | S fuel =>
      l <- slice lv 0 (Nat.max leftLength (length modulus)) ;;
      l <- calc_sub_self c l modulus ;;
      lv <- splice lv 0 l ;;
      leftLength <- actual_length lv leftLength ;;
      submod_loop fuel c lv leftLength modulus
  end.
Definition submod_fuel : nat := 1000.

(** FastReducer::SubMod: FastReducer.cpp:45-66. [left], [right] and [modulus]
    are by-value parameters, so only the returned length survives. *)
Definition reducer_submod (c : cfg) (lv : list Z) (leftLength : nat) (rv : list Z)
    (rightLength : nat) (modulus : list Z) (k : nat) : outcome nat :=
  let leftLength := if Nat.ltb k leftLength then k else leftLength in
  let rightLength := if Nat.ltb k rightLength then k else rightLength in
  l <- slice lv 0 (Nat.max leftLength rightLength) ;;
  r <- slice rv 0 rightLength ;;
  l <- calc_sub_self c l r ;;
  lv <- splice lv 0 l ;;
  leftLength <- actual_length lv leftLength ;;
  '(lv, leftLength) <- submod_loop submod_fuel c lv leftLength modulus ;;
  _ <- fill lv leftLength (u32 (Z.of_nat (length lv - leftLength))) ;;
  Ret leftLength.

(** FastReducer::Reduce: FastReducer.cpp:17-24. [value] is a by-value
    parameter. Returns (length, this). *)
Definition reducer_reduce (c : cfg) (this : reducer) (value : list Z) (len : nat)
    : outcome (nat * reducer) :=
  let n := length (fr_modulus this) in
  if Nat.ltb len n then Ret (len, this)
  else
    '(q1, l1) <- reducer_divmul c value len (fr_mu this) (fr_mulen this) (fr_q1 this) (n - 1) ;;
    '(q2, l2) <- reducer_divmul c q1 l1 (fr_modulus this) n (fr_q2 this) (n + 1) ;;
    len <- reducer_submod c value len q2 l2 (fr_modulus this) (n + 1) ;;
    Ret (len, Red (fr_modulus this) (fr_mu this) q1 q2 (fr_mulen this)).

(** BitsBuffer::Reduce(FastReducer&): BitsBuffer.cpp:36-38. Returns (this, reducer). *)
Definition buf_reduce_fast (c : cfg) (this : bitsbuf) (red : reducer)
    : outcome (bitsbuf * reducer) :=
  '(len, red) <- reducer_reduce c red (bb_bits this) (bb_len this) ;;
  Ret (Buf (bb_bits this) len, red).

(** BigIntegerCalculator::pow_core(uint32_t, FastReducer&, BitsBuffer&,
    BitsBuffer&, BitsBuffer&): PowMod.cpp:229-242. Returns the result buffer. *)
Fixpoint powred_loop (fuel : nat) (c : cfg) (power : Z) (red : reducer)
    (value result temp : bitsbuf) : outcome bitsbuf :=
  if power =? 0 then Ret result else
  match fuel with
  | O => NoFuel
  | S fuel =>
      '(result, temp, red) <-
        (if Z.land power 1 =? 1 then
           '(result, temp) <- buf_mul_self c result value temp ;;
           '(result, red) <- buf_reduce_fast c result red ;; Ret (result, temp, red)
         else Ret (result, temp, red)) ;;
      '(value, temp, red) <-
        (if negb (power =? 1) then
           '(value, temp) <- buf_square_self c value temp ;;
           '(value, red) <- buf_reduce_fast c value red ;; Ret (value, temp, red)
         else Ret (value, temp, red)) ;;
      powred_loop fuel c (Z.shiftr power 1) red value result temp
  end.

(** Body of the inner 32-round loop of pow_core(const uint_array&,
    FastReducer&, ...): PowMod.cpp:216-224 *)
Definition powred_v_step (c : cfg) (st : Z * reducer * bitsbuf * bitsbuf * bitsbuf)
    : outcome (Z * reducer * bitsbuf * bitsbuf * bitsbuf) :=
  let '(p, red, value, result, temp) := st in
  '(result, temp, red) <-
    (if Z.land p 1 =? 1 then
       '(result, temp) <- buf_mul_self c result value temp ;;
       '(result, red) <- buf_reduce_fast c result red ;; Ret (result, temp, red)
     else Ret (result, temp, red)) ;;
  '(value, temp) <- buf_square_self c value temp ;;
  '(value, red) <- buf_reduce_fast c value red ;;
  Ret (Z.shiftr p 1, red, value, result, temp).

(** BigIntegerCalculator::pow_core(const uint_array&, FastReducer&, BitsBuffer&,
    BitsBuffer&, BitsBuffer&): PowMod.cpp:212-227. All limbs of the exponent are
    visited by the loop, then the last one is processed again. *)
Definition powred_v_loop (c : cfg) (power : list Z) (red : reducer) (value result temp : bitsbuf)
    : outcome bitsbuf :=
  '(red, value, result, temp) <-
    for_up (length power) 0 (fun i st =>
      let '(red, value, result, temp) := st in
      p <- rd power i ;;
      '(_, red, value, result, temp) <-
        for_up 32 0 (fun _ st => powred_v_step c st) (p, red, value, result, temp) ;;
      Ret (red, value, result, temp)) (red, value, result, temp) ;;
  p <- rdz power (Z.of_nat (length power) - 1) ;;
  powred_loop bit_fuel c p red value result temp.

(** BigIntegerCalculator::pow_core(uint32_t, const uint_array&, BitsBuffer&):
    PowMod.cpp:115-128 *)
Definition powmod_core_u (c : cfg) (power : Z) (modulus : list Z) (value : bitsbuf)
    : outcome (list Z) :=
  let size := length (bb_bits value) in
  temp <- buf_of_u size 0 ;;
  result <- buf_of_u size 1 ;;
  result <-
    (if Nat.ltb (length modulus) ReducerThreshold
     then powmod_loop bit_fuel c power modulus value result temp
     else red <- reducer_make c modulus ;; powred_loop bit_fuel c power red value result temp) ;;
  Ret (bb_bits result).

(** BigIntegerCalculator::pow_core(const uint_array&, const uint_array&, BitsBuffer&):
    PowMod.cpp:197-210 *)
Definition powmod_core_v (c : cfg) (power modulus : list Z) (value : bitsbuf)
    : outcome (list Z) :=
  let size := length (bb_bits value) in
  temp <- buf_of_u size 0 ;;
  result <- buf_of_u size 1 ;;
  result <-
    (if Nat.ltb (length modulus) ReducerThreshold
     then powmod_v_loop c power modulus value result temp
     else red <- reducer_make c modulus ;; powred_v_loop c power red value result temp) ;;
  Ret (bb_bits result).

(** The choice of v in PowMod.cpp:131-139 and 184-192. *)
Definition powmod_buf (c : cfg) (value modulus : list Z) : outcome bitsbuf :=
  let size := (length modulus + length modulus)%nat in
  if Nat.ltb (length modulus) (length value)
  then tmp <- calc_rem c value modulus ;; buf_of_v size tmp
  else buf_of_v size value.

(** BigIntegerCalculator::pow(uint32_t, uint32_t, const uint_array&): PowMod.cpp:109-113 *)
Definition calc_powmod_uuv (c : cfg) (value power : Z) (modulus : list Z) : outcome (list Z) :=
  v <- buf_of_u (length modulus + length modulus) value ;;
  powmod_core_u c power modulus v.

(** BigIntegerCalculator::pow(const uint_array&, uint32_t, const uint_array&): PowMod.cpp:130-142 *)
Definition calc_powmod_vuv (c : cfg) (value : list Z) (power : Z) (modulus : list Z)
    : outcome (list Z) :=
  v <- powmod_buf c value modulus ;;
  powmod_core_u c power modulus v.

(** BigIntegerCalculator::pow(uint32_t, const uint_array&, const uint_array&): PowMod.cpp:177-181 *)
Definition calc_powmod_uvv (c : cfg) (value : Z) (power modulus : list Z) : outcome (list Z) :=
  v <- buf_of_u (length modulus + length modulus) value ;;
  powmod_core_v c power modulus v.

(** BigIntegerCalculator::pow(const uint_array&, const uint_array&, const uint_array&):
    PowMod.cpp:183-195 *)
Definition calc_powmod_vvv (c : cfg) (value power modulus : list Z) : outcome (list Z) :=
  v <- powmod_buf c value modulus ;;
  powmod_core_v c power modulus v.
