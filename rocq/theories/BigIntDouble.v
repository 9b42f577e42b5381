(** Model of the conversions from and to double. A double is its 64-bit
    pattern, an integer in [0, 2^64). *)
From Verif Require Import Machine BigInt.

Definition DBL_EXP_MASK := 9218868437227405312.   (* 0x7FF0000000000000 *)
Definition DBL_ABS_MASK := 9223372036854775807.   (* 0x7FFFFFFFFFFFFFFF *)
Definition DBL_FRAC_MASK := 4503599627370495.     (* 0x000FFFFFFFFFFFFF *)
Definition DBL_HIDDEN := 4503599627370496.        (* 0x0010000000000000 *)
Definition DBL_SIGN := 9223372036854775808.       (* 0x8000000000000000 *)

(** double_IsFinite, double_IsNaN, double_IsInfinity: BigInteger.cpp:1757-1770 *)
Definition double_is_finite (d : Z) : bool := Z.land d DBL_ABS_MASK <? DBL_EXP_MASK.
Definition double_is_nan (d : Z) : bool := DBL_EXP_MASK <? Z.land d DBL_ABS_MASK.
Definition double_is_infinity (d : Z) : bool := Z.land d DBL_ABS_MASK =? DBL_EXP_MASK.

(** NumericsHelpers::get_double_parts: NumericsHelpers.h:102-124.
    Returns (sign, exp, man, fFinite). *)
Definition get_double_parts (d : Z) : Z * Z * Z * bool :=
  let sign := 1 - Z.land (s32 (Z.shiftr d 62)) 2 in
  let man := Z.land d DBL_FRAC_MASK in
  let exp := Z.land (s32 (Z.shiftr d 52)) 2047 in
  if exp =? 0 then (sign, if negb (man =? 0) then -1074 else exp, man, true)
  else if exp =? 2047 then (sign, s32 UINT_MAX, man, false)
  else (sign, exp - 1075, Z.lor man DBL_HIDDEN, true).

(** BigInteger::BigInteger(double): BigInteger.cpp:1693-1755. The assignment
    [*this = man >> -exp] goes through BigInteger(uint64_t). *)
Definition bi_of_double (c : cfg) (value : Z) : outcome bigint :=
  if negb (double_is_finite value) then Throw OverflowError
  else
    let '(sign, exp, man, fFinite) := get_double_parts value in
    massert c ((sign =? 1) || (sign =? -1)) ;;;
    if man =? 0 then bi_zero c
    else
    massert c (man <? 9007199254740992) ;;;
    massert c ((exp <=? 0) || (4503599627370496 <=? man)) ;;;
    if exp <=? 0 then
      if exp <=? -64 then bi_zero c
      else
        m <- shr64 man (- exp) ;;
        b <- bi_of_uint64 c m ;;
        s <- (if sign <? 0 then chk32 c (- sign_of b) else Ret (sign_of b)) ;;
        checked c (Big s (bits_of b))
    else if exp <=? 11 then
      m <- shl64 man exp ;;
      b <- bi_of_uint64 c m ;;
      s <- (if sign <? 0 then chk32 c (- sign_of b) else Ret (sign_of b)) ;;
      checked c (Big s (bits_of b))
    else
      man <- shl64 man 11 ;;
      let exp := exp - 11 in
      let cu := Z.quot (exp - 1) kcbitUint + 1 in
      let cbit := cu * kcbitUint - exp in
      massert c ((0 <=? cbit) && (cbit <? kcbitUint)) ;;;
      massert c (1 <=? cu) ;;;
      let bits := zeros (Z.to_nat (cu + 2)) in
      x <- shr64 man (cbit + kcbitUint) ;;
      bits <- wrz bits (cu + 1) (u32 x) ;;
      x <- shr64 man cbit ;;
      bits <- wrz bits cu (u32 x) ;;
      bits <-
        (if 0 <? cbit then x <- shl32 (u32 man) (kcbitUint - cbit) ;; wrz bits (cu - 1) x
         else Ret bits) ;;
      checked c (Big sign bits).

(** NumericsHelpers::cbit_high_zero(unsigned int): NumericsHelpers.h:15-39 *)
Definition cbit_high_zero32 (u : Z) : Z :=
  if u =? 0 then 32 else
  let '(cbit, u) := if Z.land u 4294901760 =? 0 then (16, u32 (Z.shiftl u 16)) else (0, u) in
  let '(cbit, u) := if Z.land u 4278190080 =? 0 then (cbit + 8, u32 (Z.shiftl u 8)) else (cbit, u) in
  let '(cbit, u) := if Z.land u 4026531840 =? 0 then (cbit + 4, u32 (Z.shiftl u 4)) else (cbit, u) in
  let '(cbit, u) := if Z.land u 3221225472 =? 0 then (cbit + 2, u32 (Z.shiftl u 2)) else (cbit, u) in
  if Z.land u 2147483648 =? 0 then cbit + 1 else cbit.

(** NumericsHelpers::cbit_high_zero(uint64_t): NumericsHelpers.h:9-13 *)
Definition cbit_high_zero64 (uu : Z) : Z :=
  if Z.land uu 18446744069414584320 =? 0 then 32 + cbit_high_zero32 (u32 uu)
  else cbit_high_zero32 (u32 (Z.shiftr uu 32)).

(** NumericsHelpers::get_double_from_parts: NumericsHelpers.h:48-79 *)
Definition get_double_from_parts (sign exp man : Z) : outcome Z :=
  uu <-
    (if man =? 0 then Ret 0
     else
       let cbitShift := cbit_high_zero64 man - 11 in
       man <- (if cbitShift <? 0 then shr64 man (- cbitShift) else shl64 man cbitShift) ;;
       let exp := exp - cbitShift + 1075 in
       if 2047 <=? exp then Ret DBL_EXP_MASK
       else if exp <=? 0 then
         let exp := exp - 1 in
         if exp <? -52 then Ret 0 else shr64 man (- exp)
       else
         e <- shl64 exp 52 ;; Ret (Z.lor (Z.land man DBL_FRAC_MASK) e)) ;;
  Ret (if sign <? 0 then Z.lor uu DBL_SIGN else uu).

(** Built-in conversion int -> double (exact for 32-bit integers). *)
Definition int_to_double (n : Z) : Z :=
  if n =? 0 then 0
  else
    let a := Z.abs n in
    let e := Z.log2 a in
    (if n <? 0 then DBL_SIGN else 0) + (e + 1023) * DBL_HIDDEN + (a * 2 ^ (52 - e) - DBL_HIDDEN).

(** BigInteger::operator double: BigInteger.cpp:1480-1504 *)
Definition bi_to_double (c : cfg) (b : bigint) : outcome Z :=
  let bits := bits_of b in
  if is_nil bits then Ret (int_to_double (sign_of b))
  else
    let len := length bits in
    if Nat.ltb 32 len then
      Ret (if sign_of b =? 1 then DBL_EXP_MASK else DBL_EXP_MASK + DBL_SIGN)
    else
      h <- rd bits (len - 1) ;;
      m <- (if Nat.ltb 1 len then rd bits (len - 2) else Ret 0) ;;
      l <- (if Nat.ltb 2 len then rd bits (len - 3) else Ret 0) ;;
      let z := cbit_high_zero32 (u32 h) in
      let exp := (Z.of_nat len - 2) * 32 - z in
      x1 <- shl64 h (32 + z) ;; x2 <- shl64 m z ;; x3 <- shr64 l (32 - z) ;;
      get_double_from_parts (sign_of b) exp (Z.lor (Z.lor x1 x2) x3).
