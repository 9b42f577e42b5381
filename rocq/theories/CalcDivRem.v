(** Model of src/BigIntegerCalculator/DivRem.cpp. *)
From Verif Require Import Machine.

(** BigIntegerCalculator::divide(uint_array&, uint32_t, uint32_t&): DivRem.cpp:5-28.
    Returns (quotient, remainder). *)
Definition calc_divrem_u (c : cfg) (lhs : list Z) (rhs : Z) : outcome (list Z * Z) :=
  massert c (negb (is_nil lhs)) ;;;
  '(quotient, carry) <-
    for_down (length lhs) (fun i st =>
      let '(quotient, carry) := st in
      l <- rd lhs i ;;
      let value := Z.lor (u64 (Z.shiftl carry 32)) l in
      if rhs =? 0 then Throw DivideByZero
      else
        digit <- udiv value rhs ;;
        quotient <- wr quotient i (u32 digit) ;;
        Ret (quotient, u64 (value - u64 (digit * rhs)))) (zeros (length lhs), 0) ;;
  Ret (quotient, u32 carry).

(** BigIntegerCalculator::divide(uint_array&, uint32_t): DivRem.cpp:30-49 *)
Definition calc_div_u (c : cfg) (lhs : list Z) (rhs : Z) : outcome (list Z) :=
  massert c (negb (is_nil lhs)) ;;;
  '(quotient, _) <-
    for_down (length lhs) (fun i st =>
      let '(quotient, carry) := st in
      l <- rd lhs i ;;
      let value := Z.lor (u64 (Z.shiftl carry 32)) l in
      if rhs =? 0 then Throw DivideByZero
      else
        digit <- udiv value rhs ;;
        quotient <- wr quotient i (u32 digit) ;;
        Ret (quotient, u64 (value - u64 (digit * rhs)))) (zeros (length lhs), 0) ;;
  Ret quotient.

(** BigIntegerCalculator::remainder(const uint_array&, const unsigned int): DivRem.cpp:51-66 *)
Definition calc_rem_u (c : cfg) (lhs : list Z) (rhs : Z) : outcome Z :=
  massert c (negb (is_nil lhs)) ;;;
  carry <-
    for_down (length lhs) (fun i carry =>
      l <- rd lhs i ;;
      let value := Z.lor (u64 (Z.shiftl carry 32)) l in
      if rhs =? 0 then Throw DivideByZero else umod value rhs) 0 ;;
  Ret (u32 carry).

(** BigIntegerCalculator::add_divisor: DivRem.cpp:203-219. Returns (lhs, carry). *)
Definition add_divisor (c : cfg) (lhs rhs : list Z) : outcome (list Z * Z) :=
  massert c (Nat.leb (length rhs) (length lhs)) ;;;
  '(lhs, carry) <-
    for_up (length rhs) 0 (fun i st =>
      let '(lhs, carry) := st in
      l <- rd lhs i ;;
      r <- rd rhs i ;;
      let digit := u64 (u64 (l + carry) + r) in
      lhs <- wr lhs i (u32 digit) ;;
      Ret (lhs, Z.shiftr digit 32)) (lhs, 0) ;;
  Ret (lhs, u32 carry).

(** BigIntegerCalculator::subtract_divisor: DivRem.cpp:221-243. Returns (lhs, carry). *)
Definition subtract_divisor (c : cfg) (lhs rhs : list Z) (q : Z) : outcome (list Z * Z) :=
  massert c (Nat.leb (length rhs) (length lhs)) ;;;
  massert c (q <=? UINT_MAX) ;;;
  '(lhs, carry) <-
    for_up (length rhs) 0 (fun i st =>
      let '(lhs, carry) := st in
      r <- rd rhs i ;;
      let carry := u64 (carry + u64 (r * q)) in
      let digit := u32 carry in
      let carry := Z.shiftr carry 32 in
      l <- rd lhs i ;;
      let carry := if l <? digit then u64 (carry + 1) else carry in
      lhs <- wr lhs i (u32 (l - digit)) ;;
      Ret (lhs, carry)) (lhs, 0) ;;
  Ret (lhs, u32 carry).

(** BigIntegerCalculator::divide_guess_too_big: DivRem.cpp:245-271 *)
Definition divide_guess_too_big (c : cfg) (q valHi valLo divHi divLo : Z) : outcome bool :=
  massert c (q <=? UINT_MAX) ;;;
  let chkHi := u64 (divHi * q) in
  let chkLo := u64 (divLo * q) in
  let chkHi := u64 (chkHi + Z.shiftr chkLo 32) in
  let chkLo := Z.land chkLo 4294967295 in
  if chkHi <? valHi then Ret false
  else if valHi <? chkHi then Ret true
  else if chkLo <? valLo then Ret false
  else if valLo <? chkLo then Ret true
  else Ret false.

(** while (divide_guess_too_big(...)) --digit;  DivRem.cpp:177-178 *)
Fixpoint guess_loop (fuel : nat) (c : cfg) (digit valHi valLo divHi divLo : Z) : outcome Z :=
  b <- divide_guess_too_big c digit valHi valLo divHi divLo ;;
  if b : bool then
    match fuel with
    | O => NoFuel
    | S f => guess_loop f c (u64 (digit - 1)) valHi valLo divHi divLo
    end
  else Ret digit.

(** BigIntegerCalculator::leading_zeros: DivRem.cpp:273-299 *)
Definition leading_zeros (value : Z) : Z :=
  if value =? 0 then 32 else
  let '(count, value) :=
    if Z.land value 4294901760 =? 0 then (16, u32 (Z.shiftl value 16)) else (0, value) in
  let '(count, value) :=
    if Z.land value 4278190080 =? 0 then (count + 8, u32 (Z.shiftl value 8)) else (count, value) in
  let '(count, value) :=
    if Z.land value 4026531840 =? 0 then (count + 4, u32 (Z.shiftl value 4)) else (count, value) in
  let '(count, value) :=
    if Z.land value 3221225472 =? 0 then (count + 2, u32 (Z.shiftl value 2)) else (count, value) in
  if Z.land value 2147483648 =? 0 then count + 1 else count.

(** Decrements of the guess allowed per quotient digit before the model reports
    NoFuel. C40: two are enough, and more would change nothing. *)
Definition guess_fuel : nat := 8.

(** One round of the main loop, for quotient position n: DivRem.cpp:154-199.
    [lhs] is the whole dividend, [bits] the quotient ([] stands for nullptr). *)
Definition divide_step (fuel : nat) (c : cfg) (rhs : list Z) (shift backShift divHi divLo : Z)
    (n : nat) (st : list Z * list Z) : outcome (list Z * list Z) :=
  let '(lhs, bits) := st in
  let i := (n + length rhs)%nat in
  t <- (if Nat.ltb i (length lhs) then rd lhs i else Ret 0) ;;
  v1 <- rdz lhs (Z.of_nat i - 1) ;;
  let valHi := Z.lor (u64 (Z.shiftl t 32)) v1 in
  valLo <- (if Nat.ltb 1 i then rd lhs (i - 2) else Ret 0) ;;
  '(valHi, valLo) <-
    (if 0 <? shift then
       valNx <- (if Nat.ltb 2 i then rd lhs (i - 3) else Ret 0) ;;
       h1 <- shl64 valHi shift ;; h2 <- shr32 valLo backShift ;;
       l1 <- shl32 valLo shift ;; l2 <- shr32 valNx backShift ;;
       Ret (Z.lor h1 h2, Z.lor l1 l2)
     else Ret (valHi, valLo)) ;;
  if divHi =? 0 then Throw DivideByZero
  else
  digit <- udiv valHi divHi ;;
  let digit := if UINT_MAX <? digit then UINT_MAX else digit in
  digit <- guess_loop fuel c digit valHi valLo divHi divLo ;;
  '(lhs, digit) <-
    (if 0 <? digit then
       part <- slice lhs n (length lhs - n) ;;
       '(part, carry) <- subtract_divisor c part rhs digit ;;
       '(part, digit) <-
         (if negb (carry =? t) then
            massert c (carry =? u32 (t + 1)) ;;;
            '(part, carry) <- add_divisor c part rhs ;;
            let digit := u64 (digit - 1) in
            massert c (carry =? 1) ;;;
            Ret (part, digit)
          else Ret (part, digit)) ;;
       lhs <- splice lhs n part ;;
       Ret (lhs, digit)
     else Ret (lhs, digit)) ;;
  bits <- (if is_nil bits then Ret bits else wr bits n (u32 digit)) ;;
  lhs <- (if Nat.ltb i (length lhs) then wr lhs i 0 else Ret lhs) ;;
  Ret (lhs, bits).

(** BigIntegerCalculator::divide(uint32_t*, int, const uint32_t*, int, uint32_t*, int):
    DivRem.cpp:124-201. Returns (lhs, bits): the dividend array, which now
    holds the remainder, and the quotient. [fuel] bounds the while loop at 177. *)
Definition calc_div_core_fuel (fuel : nat) (c : cfg) (lhs rhs bits : list Z) : outcome (list Z * list Z) :=
  massert c (Nat.leb 1 (length lhs)) ;;;
  massert c (Nat.leb 1 (length rhs)) ;;;
  massert c (Nat.leb (length rhs) (length lhs)) ;;;
  massert c (Nat.eqb (length bits) (length lhs - length rhs + 1) || is_nil bits) ;;;
  divHi <- rdz rhs (Z.of_nat (length rhs) - 1) ;;
  divLo <- (if Nat.ltb 1 (length rhs) then rd rhs (length rhs - 2) else Ret 0) ;;
  let shift := leading_zeros divHi in
  let backShift := 32 - shift in
  '(divHi, divLo) <-
    (if 0 <? shift then
       divNx <- (if Nat.ltb 2 (length rhs) then rd rhs (length rhs - 3) else Ret 0) ;;
       h1 <- shl32 divHi shift ;; h2 <- shr32 divLo backShift ;;
       l1 <- shl32 divLo shift ;; l2 <- shr32 divNx backShift ;;
       Ret (Z.lor h1 h2, Z.lor l1 l2)
     else Ret (divHi, divLo)) ;;
  for_down (length lhs + 1 - length rhs)
    (divide_step fuel c rhs shift backShift divHi divLo) (lhs, bits).
Definition calc_div_core := calc_div_core_fuel guess_fuel.

(** BigIntegerCalculator::divide(uint_array&, uint_array&, uint_array&):
    DivRem.cpp:68-85. Returns (quotient, remainder). *)
Definition calc_divrem (c : cfg) (lhs rhs : list Z) : outcome (list Z * list Z) :=
  massert c (negb (is_nil lhs)) ;;;
  massert c (negb (is_nil rhs)) ;;;
  massert c (Nat.leb (length rhs) (length lhs)) ;;;
  '(localLeft, bits) <- calc_div_core c lhs rhs (zeros (length lhs - length rhs + 1)) ;;
  Ret (bits, localLeft).

(** BigIntegerCalculator::divide(const uint_array&, const uint_array&): DivRem.cpp:88-105 *)
Definition calc_div (c : cfg) (lhs rhs : list Z) : outcome (list Z) :=
  massert c (negb (is_nil lhs)) ;;;
  massert c (negb (is_nil rhs)) ;;;
  massert c (Nat.leb (length rhs) (length lhs)) ;;;
  '(_, bits) <- calc_div_core c lhs rhs (zeros (length lhs - length rhs + 1)) ;;
  Ret bits.

(** BigIntegerCalculator::remainder(const uint_array&, const uint_array&): DivRem.cpp:107-122 *)
Definition calc_rem (c : cfg) (lhs rhs : list Z) : outcome (list Z) :=
  massert c (negb (is_nil lhs)) ;;;
  massert c (negb (is_nil rhs)) ;;;
  massert c (Nat.leb (length rhs) (length lhs)) ;;;
  '(localLeft, _) <- calc_div_core c lhs rhs [] ;;
  Ret localLeft.
