(** Multiplication of src/BigInteger.cpp once more, with the lengths the code
    keeps in [int] wrapped to 32 bits, for numbers of any size. *)
From Verif Require Import Machine CalcSquMul BigInt IntAdd.

(** Grammar-school product, on whole arrays with the lengths passed:
    SquMul.cpp:195-203. The index i + j (198, 199) goes past INT_MAX only in
    rounds after one in which i + leftLength (202) did, so it is not checked. *)
Definition mul_school_i (c : cfg) (left : list Z) (leftLength : Z) (right : list Z) (rightLength : Z)
    (bits : list Z) : outcome (list Z) :=
  for_up (Z.to_nat rightLength) 0 (fun i bits =>
    '(bits, carry) <- mul_inner (firstn (Z.to_nat leftLength) left) right i bits ;;
    k <- chk32 c (Z.of_nat i + leftLength) ;;
    wrz bits k (u32 carry)) bits.

(** BigIntegerCalculator::multiply(uint32_t*, int, uint32_t*, int, uint32_t*, int):
    SquMul.cpp:171-305, on whole arrays, with the lengths passed. From 32 limbs
    of the right operand on, with the sum of the lengths within INT_MAX,
    every length below is one too and only the limbs that the lengths let through
    are touched, on which it is [calc_mul_core]. Simplified: for a larger sum, or
    leftLength < rightLength, the code is modelled up to the lengths of the folds
    (217-250), and what follows them is not modelled (NoFuel). *)
Fixpoint calc_mul_core_i (fuel : nat) (c : cfg) (left : list Z) (leftLength : Z) (right : list Z) (rightLength : Z)
    (bits : list Z) (bitsLength : Z) : outcome (list Z) :=
  match fuel with
  | O => NoFuel
  | S fuel =>
  massert c (0 <=? leftLength) ;;;
  massert c (0 <=? rightLength) ;;;
  massert c (rightLength <=? leftLength) ;;;
  (if dbg c then n <- chk32 c (leftLength + rightLength) ;; massert c (bitsLength =? n) else Ret tt) ;;;
  if rightLength <? Z.of_nat MultiplyThreshold then mul_school_i c left leftLength right rightLength bits
  else if (rightLength <=? leftLength) && (leftLength + rightLength <=? INT_MAX) then
    left <- slice left 0 (Z.to_nat leftLength) ;;
    right <- slice right 0 (Z.to_nat rightLength) ;;
    part <- slice bits 0 (Z.to_nat (leftLength + rightLength)) ;;
    part <- calc_mul_core (S (length right)) c left right part ;;
    Ret (part ++ skipn (length part) bits)
  else
    let n := Z.shiftr rightLength 1 in
    let n2 := Z.shiftl n 1 in
    leftHighLength <- chk32 c (leftLength - n) ;;
    let rightHighLength := rightLength - n in
    bitsHighLength <- chk32 c (bitsLength - n2) ;;
    leftLow <- slice left 0 (Z.to_nat n) ;;
    rightLow <- slice right 0 (Z.to_nat n) ;;
    bitsLow <- slice bits 0 (Z.to_nat n2) ;;
    bitsLow <- calc_mul_core (S (length rightLow)) c leftLow rightLow bitsLow ;;
    bits <- splice bits 0 bitsLow ;;
    calc_mul_core_i fuel c (skipn (Z.to_nat n) left) leftHighLength (skipn (Z.to_nat n) right) rightHighLength
      (skipn (Z.to_nat n2) bits) bitsHighLength ;;;
    leftFoldLength <- chk32 c (leftHighLength + 1) ;;
    chk32 c (leftFoldLength + (rightHighLength + 1)) ;;;
    NoFuel
  end.

(** BigIntegerCalculator::multiply(uint_array, uint_array): SquMul.cpp:156-169 *)
Definition calc_mul_i (c : cfg) (lhs rhs : list Z) : outcome (list Z) :=
  massert c (negb (is_nil lhs)) ;;;
  massert c (negb (is_nil rhs)) ;;;
  massert c (Nat.leb (length rhs) (length lhs)) ;;;
  let bits := zeros (length lhs + length rhs) in
  calc_mul_core_i (S (length rhs)) c lhs (s32 (Z.of_nat (length lhs))) rhs (s32 (Z.of_nat (length rhs)))
    bits (s32 (Z.of_nat (length bits))).

(** BigIntegerCalculator::square(uint32_t*, int, uint32_t*, int): SquMul.cpp:16-131,
    on whole arrays, with the lengths passed. A length below 1 gives no
    rounds (42); with twice the length within INT_MAX it is [calc_square_core] on
    the limbs that the length lets through. Simplified: for a larger length the
    code is modelled up to the lengths of the folds (67-91), and what
    follows them is not modelled (NoFuel). *)
Fixpoint calc_square_core_i (fuel : nat) (c : cfg) (value : list Z) (valueLength : Z) (bits : list Z) (bitsLength : Z)
    : outcome (list Z) :=
  match fuel with
  | O => NoFuel
  | S fuel =>
  massert c (0 <=? valueLength) ;;;
  (if dbg c then n <- chk32 c (valueLength + valueLength) ;; massert c (bitsLength =? n) else Ret tt) ;;;
  if valueLength <? 1 then Ret bits
  else if valueLength + valueLength <=? INT_MAX then
    value <- slice value 0 (Z.to_nat valueLength) ;;
    part <- slice bits 0 (Z.to_nat (valueLength + valueLength)) ;;
    part <- calc_square_core (S (length value)) c value part ;;
    Ret (part ++ skipn (length part) bits)
  else
    let n := Z.shiftr valueLength 1 in
    let n2 := Z.shiftl n 1 in
    let valueHighLength := valueLength - n in
    bitsHighLength <- chk32 c (bitsLength - n2) ;;
    valueLow <- slice value 0 (Z.to_nat n) ;;
    bitsLow <- slice bits 0 (Z.to_nat n2) ;;
    bitsLow <- calc_square_core (S (length valueLow)) c valueLow bitsLow ;;
    bits <- splice bits 0 bitsLow ;;
    calc_square_core_i fuel c (skipn (Z.to_nat n) value) valueHighLength (skipn (Z.to_nat n2) bits) bitsHighLength ;;;
    chk32 c ((valueHighLength + 1) + (valueHighLength + 1)) ;;;
    NoFuel
  end.

(** BigIntegerCalculator::square(uint_array&): SquMul.cpp:4-14 *)
Definition calc_square_i (c : cfg) (value : list Z) : outcome (list Z) :=
  massert c (negb (is_nil value)) ;;;
  let bits := zeros (length value + length value) in
  calc_square_core_i (S (length value)) c value (s32 (Z.of_nat (length value))) bits (s32 (Z.of_nat (length bits))).

(** BigInteger::operator*=: BigInteger.cpp:487-531; operator*: 482-485; multiply: 533-535 *)
Definition bi_mul_i (c : cfg) (lhs rhs : bigint) : outcome bigint :=
  assert_valid c lhs ;;;
  assert_valid c rhs ;;;
  let trivialLeft := is_nil (bits_of lhs) in
  let trivialRight := is_nil (bits_of rhs) in
  let neg := xorb (sign_of lhs <? 0) (sign_of rhs <? 0) in
  if trivialLeft && trivialRight then
    p <- chk64 c (sign_of lhs * sign_of rhs) ;; bi_of_int64 c p
  else if trivialLeft then
    a <- abs32 c (sign_of lhs) ;;
    bits <- calc_mul_u c (bits_of rhs) a ;; bi_of_mag_i c bits neg
  else if trivialRight then
    a <- abs32 c (sign_of rhs) ;;
    bits <- calc_mul_u c (bits_of lhs) a ;; bi_of_mag_i c bits neg
  else if vec_eqb (bits_of lhs) (bits_of rhs) then
    bits <- calc_square_i c (bits_of lhs) ;; bi_of_mag_i c bits neg
  else if Nat.ltb (length (bits_of lhs)) (length (bits_of rhs)) then
    bits <- calc_mul_i c (bits_of rhs) (bits_of lhs) ;; bi_of_mag_i c bits neg
  else
    bits <- calc_mul_i c (bits_of lhs) (bits_of rhs) ;; bi_of_mag_i c bits neg.
