(** Model of src/BigIntegerCalculator/SquMul.cpp. *)
From Verif Require Import Machine CalcAddSub.

(** include/BigIntegerCalculator.h:117-118 *)
Definition MultiplyThreshold : nat := 32.
Definition SquareThreshold : nat := 32.

(** BigIntegerCalculator::subtract_core: SquMul.cpp:307-343 *)
Definition calc_subtract_core (c : cfg) (lhs rhs core : list Z) : outcome (list Z) :=
  massert c (Nat.leb (length rhs) (length lhs)) ;;;
  massert c (Nat.leb (length lhs) (length core)) ;;;
  '(core', carry) <-
    for_up (length rhs) 0 (fun i st =>
      let '(core, carry) := st in
      x <- rd core i ;;
      l <- rd lhs i ;;
      r <- rd rhs i ;;
      d1 <- chk64 c (x + carry) ;;
      d2 <- chk64 c (d1 - l) ;;
      digit <- chk64 c (d2 - r) ;;
      core <- wr core i (u32 digit) ;;
      Ret (core, Z.shiftr digit 32)) (core, 0) ;;
  '(core', carry) <-
    for_up (length lhs - length rhs) (length rhs) (fun i st =>
      let '(core, carry) := st in
      x <- rd core i ;;
      l <- rd lhs i ;;
      d1 <- chk64 c (x + carry) ;;
      digit <- chk64 c (d1 - l) ;;
      core <- wr core i (u32 digit) ;;
      Ret (core, Z.shiftr digit 32)) (core', carry) ;;
  '(core', _) <-
    for_up_while (length core - length lhs) (length lhs)
      (fun st => negb (snd st =? 0)) (fun i st =>
      let '(core, carry) := st in
      x <- rd core i ;;
      digit <- chk64 c (x + carry) ;;
      core <- wr core i (u32 digit) ;;
      Ret (core, Z.shiftr digit 32)) (core', carry) ;;
  Ret core'.

(** Inner loop of the grammar-school squaring: SquMul.cpp:43-49 *)
Definition square_inner (value : list Z) (i : nat) (bits : list Z) : outcome (list Z * Z) :=
  for_up i 0 (fun j st =>
    let '(bits, carry) := st in
    b <- rd bits (i + j) ;;
    vj <- rd value j ;;
    vi <- rd value i ;;
    let digit1 := u64 (b + carry) in
    let digit2 := u64 (vj * vi) in
    bits <- wr bits (i + j) (u32 (u64 (digit1 + u64 (Z.shiftl digit2 1)))) ;;
    Ret (bits, Z.shiftr (u64 (digit2 + Z.shiftr digit1 1)) 31)) (bits, 0).

(** Grammar-school squaring: SquMul.cpp:42-53 *)
Definition square_school (value bits : list Z) : outcome (list Z) :=
  for_up (length value) 0 (fun i bits =>
    '(bits, carry) <- square_inner value i bits ;;
    vi <- rd value i ;;
    let digits := u64 (u64 (vi * vi) + carry) in
    bits <- wr bits (i + i) (u32 digits) ;;
    wr bits (i + i + 1) (u32 (Z.shiftr digits 32))) bits.

(** BigIntegerCalculator::square(uint32_t*, int, uint32_t*, int): SquMul.cpp:16-131.
    The two branches on AllocationThreshold (93-111, 112-129) are the same code
    and are modelled once. [fuel] bounds the recursion depth. *)
Fixpoint calc_square_core (fuel : nat) (c : cfg) (value bits : list Z) : outcome (list Z) :=
  match fuel with
  | O => NoFuel
  | S fuel =>
  massert c (Nat.eqb (length bits) (length value + length value)) ;;;
  if Nat.ltb (length value) SquareThreshold then square_school value bits
  else
    let n := Nat.div2 (length value) in
    let n2 := (n + n)%nat in
    valueLow <- slice value 0 n ;;
    valueHigh <- slice value n (length value - n) ;;
    bitsLow <- slice bits 0 n2 ;;
    bitsLow <- calc_square_core fuel c valueLow bitsLow ;;
    bits <- splice bits 0 bitsLow ;;
    bitsHigh <- slice bits n2 (length bits - n2) ;;
    bitsHigh <- calc_square_core fuel c valueHigh bitsHigh ;;
    bits <- splice bits n2 bitsHigh ;;
    let foldLength := (length value - n + 1)%nat in
    let coreLength := (foldLength + foldLength)%nat in
    fold <- calc_add_core c valueHigh valueLow (zeros foldLength) ;;
    core <- calc_square_core fuel c fold (zeros coreLength) ;;
    core <- calc_subtract_core c bitsHigh bitsLow core ;;
    part <- slice bits n (length bits - n) ;;
    part <- calc_add_self c part core ;;
    splice bits n part
  end.

(** BigIntegerCalculator::square(uint_array&): SquMul.cpp:4-14 *)
Definition calc_square (c : cfg) (value : list Z) : outcome (list Z) :=
  massert c (negb (is_nil value)) ;;;
  calc_square_core (S (length value)) c value (zeros (length value * 2)).

(** BigIntegerCalculator::multiply(uint_array, uint32_t): SquMul.cpp:133-154 *)
Definition calc_mul_u (c : cfg) (lhs : list Z) (rhs : Z) : outcome (list Z) :=
  massert c (negb (is_nil lhs)) ;;;
  '(bits, carry) <-
    for_up (length lhs) 0 (fun i st =>
      let '(bits, carry) := st in
      l <- rd lhs i ;;
      let digits := u64 (u64 (l * rhs) + carry) in
      bits <- wr bits i (u32 digits) ;;
      Ret (bits, Z.shiftr digits 32)) (zeros (length lhs + 1), 0) ;;
  wr bits (length lhs) (u32 carry).

(** Inner loop of the grammar-school product: SquMul.cpp:196-201 *)
Definition mul_inner (left right : list Z) (i : nat) (bits : list Z) : outcome (list Z * Z) :=
  for_up (length left) 0 (fun j st =>
    let '(bits, carry) := st in
    b <- rd bits (i + j) ;;
    l <- rd left j ;;
    r <- rd right i ;;
    let digits := u64 (u64 (b + carry) + u64 (l * r)) in
    bits <- wr bits (i + j) (u32 digits) ;;
    Ret (bits, Z.shiftr digits 32)) (bits, 0).

(** Grammar-school product: SquMul.cpp:195-203 *)
Definition mul_school (left right bits : list Z) : outcome (list Z) :=
  for_up (length right) 0 (fun i bits =>
    '(bits, carry) <- mul_inner left right i bits ;;
    wr bits (i + length left) (u32 carry)) bits.

(** BigIntegerCalculator::multiply(uint32_t*, int, uint32_t*, int, uint32_t*, int):
    SquMul.cpp:171-305. The two branches on AllocationThreshold (252-277,
    278-303) are the same code and are modelled once. *)
Fixpoint calc_mul_core (fuel : nat) (c : cfg) (left right bits : list Z) : outcome (list Z) :=
  match fuel with
  | O => NoFuel
  | S fuel =>
  massert c (Nat.leb (length right) (length left)) ;;;
  massert c (Nat.eqb (length bits) (length left + length right)) ;;;
  if Nat.ltb (length right) MultiplyThreshold then mul_school left right bits
  else
    let n := Nat.div2 (length right) in
    let n2 := (n + n)%nat in
    leftLow <- slice left 0 n ;;
    leftHigh <- slice left n (length left - n) ;;
    rightLow <- slice right 0 n ;;
    rightHigh <- slice right n (length right - n) ;;
    bitsLow <- slice bits 0 n2 ;;
    bitsLow <- calc_mul_core fuel c leftLow rightLow bitsLow ;;
    bits <- splice bits 0 bitsLow ;;
    bitsHigh <- slice bits n2 (length bits - n2) ;;
    bitsHigh <- calc_mul_core fuel c leftHigh rightHigh bitsHigh ;;
    bits <- splice bits n2 bitsHigh ;;
    let leftFoldLength := (length left - n + 1)%nat in
    let rightFoldLength := (length right - n + 1)%nat in
    let coreLength := (leftFoldLength + rightFoldLength)%nat in
    leftFold <- calc_add_core c leftHigh leftLow (zeros leftFoldLength) ;;
    rightFold <- calc_add_core c rightHigh rightLow (zeros rightFoldLength) ;;
    core <- calc_mul_core fuel c leftFold rightFold (zeros coreLength) ;;
    core <- calc_subtract_core c bitsHigh bitsLow core ;;
    part <- slice bits n (length bits - n) ;;
    part <- calc_add_self c part core ;;
    splice bits n part
  end.

(** BigIntegerCalculator::multiply(uint_array, uint_array): SquMul.cpp:156-169 *)
Definition calc_mul (c : cfg) (lhs rhs : list Z) : outcome (list Z) :=
  massert c (negb (is_nil lhs)) ;;;
  massert c (negb (is_nil rhs)) ;;;
  massert c (Nat.leb (length rhs) (length lhs)) ;;;
  calc_mul_core (S (length rhs)) c lhs rhs (zeros (length lhs + length rhs)).
