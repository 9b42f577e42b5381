(** Model of class BigInteger: src/BigInteger.cpp and
    include/public/bigintegercpp/BigInteger.h, except text, bytes and doubles
    (BigIntText.v, BigIntBytes.v, BigIntDouble.v). A function taking
    [const BigInteger&] takes the object; [x op= y] is modelled by the value
    assigned to [*this] (aliasing and exceptions: ApiMem.v). *)
From Verif Require Import Machine CalcAddSub CalcSquMul CalcDivRem CalcPowMod CalcGcd.

(** BigInteger.h:16-18 *)
Definition kuMaskHighBit := 2147483648.
Definition kcbitUint := 32.

(** BigInteger::assert_valid: BigInteger.cpp:1395-1406 *)
Definition assert_valid (c : cfg) (b : bigint) : outcome unit :=
  if dbg c then
    match bits_of b with
    | [] => massert c (INT_MIN <? sign_of b)
    | b0 :: _ =>
        massert c ((sign_of b =? 1) || (sign_of b =? -1)) ;;;
        massert c (Nat.ltb 1 (length (bits_of b)) || (kuMaskHighBit <=? b0)) ;;;
        massert c (negb (last (bits_of b) 0 =? 0))
    end
  else Ret tt.

(** BigInteger.cpp:14-17 *)
Definition s_bnMinInt := Big (-1) [kuMaskHighBit].
Definition s_bnOneInt := Big 1 [].
Definition s_bnZeroInt := Big 0 [].
Definition s_bnMinusOneInt := Big (-1) [].

Definition checked (c : cfg) (b : bigint) : outcome bigint := assert_valid c b ;;; Ret b.

(** BigInteger::BigInteger(): BigInteger.cpp:20-23 *)
Definition bi_default : bigint := Big 0 [].

(** BigInteger::BigInteger(int32_t): BigInteger.cpp:25-33 *)
Definition bi_of_int32 (c : cfg) (value : Z) : outcome bigint :=
  if value =? INT_MIN then checked c s_bnMinInt else checked c (Big value []).

(** BigInteger::BigInteger(uint32_t): BigInteger.cpp:35-44 *)
Definition bi_of_uint32 (c : cfg) (value : Z) : outcome bigint :=
  if value <=? INT_MAX then checked c (Big value []) else checked c (Big 1 [value]).

(** BigInteger::BigInteger(int64_t): BigInteger.cpp:46-70 *)
Definition bi_of_int64 (c : cfg) (value : Z) : outcome bigint :=
  if (INT_MIN <? value) && (value <=? INT_MAX) then checked c (Big value [])
  else if value =? INT_MIN then checked c s_bnMinInt
  else
    '(x, sign) <-
      (if value <? 0 then nv <- chk64 c (- value) ;; Ret (u64 nv, -1)
       else Ret (u64 value, 1)) ;;
    if x <=? UINT_MAX then checked c (Big sign [u32 x])
    else checked c (Big sign [u32 x; u32 (Z.shiftr x kcbitUint)]).

(** BigInteger::BigInteger(uint64_t): BigInteger.cpp:72-85 *)
Definition bi_of_uint64 (c : cfg) (value : Z) : outcome bigint :=
  if value <=? INT_MAX then checked c (Big value [])
  else if value <=? UINT_MAX then checked c (Big 1 [u32 value])
  else checked c (Big 1 [u32 value; u32 (Z.shiftr value kcbitUint)]).

(** BigInteger::BigInteger(int, uint_array): BigInteger.cpp:87-91 *)
Definition bi_raw (c : cfg) (n : Z) (value : list Z) : outcome bigint := checked c (Big n value).

(** The carry loop of dangerous_make_twos_complement: NumericsHelpers.h:86-90.
    [n] is d.size() - i. Returns (d, i). *)
Fixpoint twos_carry (n i : nat) (d : list Z) : outcome (list Z * nat) :=
  p <- rdz d (Z.of_nat i - 1) ;;
  if p =? 0 then
    match n with
    | O => Ret (d, i)
    | S n =>
        x <- rd d i ;;
        d <- wr d i (u32 (not32 x + 1)) ;;
        twos_carry n (S i) d
    end
  else Ret (d, i).

(** NumericsHelpers::dangerous_make_twos_complement: NumericsHelpers.h:81-96 *)
Definition make_twos_complement (d : list Z) : outcome (list Z) :=
  if is_nil d then Ret d
  else
    x <- rd d 0 ;;
    d <- wr d 0 (u32 (not32 x + 1)) ;;
    '(d, i) <- twos_carry (length d - 1) 1 d ;;
    for_up (length d - i) i (fun i d => x <- rd d i ;; wr d i (not32 x)) d.

(** Loops of the form [while (len > 0 && value[len - 1] == 0) len--]:
    BigInteger.cpp:259, 302, 335 and (with len shifted by one) 212-214. *)
Fixpoint trim_len (value : list Z) (len : nat) : outcome nat :=
  match len with
  | O => Ret O
  | S m => x <- rd value m ;; if x =? 0 then trim_len value m else Ret len
  end.

(** BigInteger::BigInteger(uint_array) (two's complement): BigInteger.cpp:254-327 *)
Definition bi_of_dwords (c : cfg) (value : list Z) : outcome bigint :=
  isNegative <-
    (if Nat.ltb 0 (length value)
     then top <- rd value (length value - 1) ;; Ret (Z.land top 2147483648 =? 2147483648)
     else Ret false) ;;
  dwordCount <- trim_len value (length value) ;;
  if Nat.eqb dwordCount 0 then checked c s_bnZeroInt
  else if Nat.eqb dwordCount 1 then
    v0 <- rd value 0 ;;
    if (s32 v0 <? 0) && negb isNegative then checked c (Big 1 [v0])
    else if INT_MIN =? s32 v0 then checked c s_bnMinInt
    else checked c (Big (s32 v0) [])
  else if negb isNegative then
    (if negb (Nat.eqb dwordCount (length value))
     then checked c (Big 1 (firstn dwordCount value))
     else checked c (Big 1 value))
  else
    value <- make_twos_complement value ;;
    len <- trim_len value (length value) ;;
    v0 <- rd value 0 ;;
    if Nat.eqb len 1 && (0 <? s32 v0) then
      if v0 =? 1 then checked c s_bnMinusOneInt
      else if v0 =? kuMaskHighBit then checked c s_bnMinInt
      else checked c (Big (-1 * s32 v0) [])
    else if negb (Nat.eqb len (length value)) then checked c (Big (-1) (firstn len value))
    else checked c (Big (-1) value).

(** while (!_bits.empty() && _bits[_bits.size() - 1] == 0) _bits.pop_back():
    BigInteger.cpp:351-353 *)
Fixpoint pop_zeros (n : nat) (bits : list Z) : list Z :=
  match n with
  | O => bits
  | S m => if nth m bits 0 =? 0 then pop_zeros m (firstn m bits) else bits
  end.

(** BigInteger::BigInteger(uint_array, bool): BigInteger.cpp:330-355 *)
Definition bi_of_mag (c : cfg) (value : list Z) (negative : bool) : outcome bigint :=
  len <- trim_len value (length value) ;;
  v0 <- (if Nat.eqb len 1 then rd value 0 else Ret 0) ;;
  let this :=
    if Nat.eqb len 0 then s_bnZeroInt
    else if Nat.eqb len 1 && (v0 <? kuMaskHighBit) then
      let sign := if negative then - s32 v0 else s32 v0 in
      if sign =? INT_MIN then s_bnMinInt else Big sign []
    else Big (if negative then -1 else 1) value in
  checked c (Big (sign_of this) (pop_zeros (length (bits_of this)) (bits_of this))).

(** BigInteger::is_power_of_two: BigInteger.cpp:357-376 *)
Fixpoint all_zero_below (bits : list Z) (n : nat) : outcome bool :=
  match n with
  | O => Ret true
  | S m => x <- rd bits m ;; if negb (x =? 0) then Ret false else all_zero_below bits m
  end.
Definition bi_is_power_of_two (c : cfg) (b : bigint) : outcome bool :=
  assert_valid c b ;;;
  let sign := sign_of b in let bits := bits_of b in
  if is_nil bits then
    s1 <- chk32 c (sign - 1) ;;
    Ret ((Z.land sign s1 =? 0) && negb (sign =? 0))
  else if negb (sign =? 1) then Ret false
  else
    let iu := (length bits - 1)%nat in
    x <- rd bits iu ;;
    if negb (Z.land x (u32 (x - 1)) =? 0) then Ret false else all_zero_below bits iu.

(** BigInteger::is_zero: BigInteger.cpp:378-381 *)
Definition bi_is_zero (c : cfg) (b : bigint) : outcome bool :=
  assert_valid c b ;;; Ret (sign_of b =? 0).
(** BigInteger::is_one: BigInteger.cpp:383-386 *)
Definition bi_is_one (c : cfg) (b : bigint) : outcome bool :=
  assert_valid c b ;;; Ret ((sign_of b =? 1) && is_nil (bits_of b)).
(** BigInteger::is_even: BigInteger.cpp:388-391 *)
Definition bi_is_even (c : cfg) (b : bigint) : outcome bool :=
  assert_valid c b ;;;
  match bits_of b with
  | [] => Ret (Z.land (sign_of b) 1 =? 0)
  | b0 :: _ => Ret (Z.land b0 1 =? 0)
  end.

(** BigInteger::add(const uint_array&, int, const uint_array&, int): BigInteger.cpp:402-431 *)
Definition bi_add_parts (c : cfg) (lhs : list Z) (lhsSign : Z) (rhs : list Z) (rhsSign : Z)
    : outcome bigint :=
  let trivialLeft := is_nil lhs in
  let trivialRight := is_nil rhs in
  if trivialLeft && trivialRight then
    s <- chk64 c (lhsSign + rhsSign) ;; bi_of_int64 c s
  else if trivialLeft then
    a <- abs32 c lhsSign ;;
    bits <- calc_add_u c rhs a ;; bi_of_mag c bits (lhsSign <? 0)
  else if trivialRight then
    a <- abs32 c rhsSign ;;
    bits <- calc_add_u c lhs a ;; bi_of_mag c bits (lhsSign <? 0)
  else if Nat.ltb (length lhs) (length rhs) then
    bits <- calc_add c rhs lhs ;; bi_of_mag c bits (lhsSign <? 0)
  else
    bits <- calc_add c lhs rhs ;; bi_of_mag c bits (lhsSign <? 0).

(** BigInteger::subtract(const uint_array&, int, const uint_array&, int): BigInteger.cpp:433-462 *)
Definition bi_sub_parts (c : cfg) (lhs : list Z) (lhsSign : Z) (rhs : list Z) (rhsSign : Z)
    : outcome bigint :=
  let trivialLeft := is_nil lhs in
  let trivialRight := is_nil rhs in
  if trivialLeft && trivialRight then
    s <- chk64 c (lhsSign - rhsSign) ;; bi_of_int64 c s
  else if trivialLeft then
    a <- abs32 c lhsSign ;;
    bits <- calc_sub_u c rhs a ;; bi_of_mag c bits (0 <=? lhsSign)
  else if trivialRight then
    a <- abs32 c rhsSign ;;
    bits <- calc_sub_u c lhs a ;; bi_of_mag c bits (lhsSign <? 0)
  else
    cmp <- calc_compare c lhs rhs ;;
    if cmp <? 0 then
      bits <- calc_sub c rhs lhs ;; bi_of_mag c bits (0 <=? lhsSign)
    else
      bits <- calc_sub c lhs rhs ;; bi_of_mag c bits (lhsSign <? 0).

(** BigInteger::operator+=: BigInteger.cpp:659-670; operator+: 654-657; add: 393-396 *)
Definition bi_add (c : cfg) (lhs rhs : bigint) : outcome bigint :=
  assert_valid c lhs ;;;
  assert_valid c rhs ;;;
  if xorb (sign_of lhs <? 0) (sign_of rhs <? 0) then
    n <- chk32 c (-1 * sign_of rhs) ;;
    bi_sub_parts c (bits_of lhs) (sign_of lhs) (bits_of rhs) n
  else bi_add_parts c (bits_of lhs) (sign_of lhs) (bits_of rhs) (sign_of rhs).

(** BigInteger::operator-=: BigInteger.cpp:469-480; operator-: 464-467; subtract: 398-400 *)
Definition bi_sub (c : cfg) (lhs rhs : bigint) : outcome bigint :=
  assert_valid c lhs ;;;
  assert_valid c rhs ;;;
  if xorb (sign_of lhs <? 0) (sign_of rhs <? 0) then
    n <- chk32 c (-1 * sign_of rhs) ;;
    bi_add_parts c (bits_of lhs) (sign_of lhs) (bits_of rhs) n
  else bi_sub_parts c (bits_of lhs) (sign_of lhs) (bits_of rhs) (sign_of rhs).

(** std::vector equality *)
Fixpoint vec_eqb (a b : list Z) : bool :=
  match a, b with
  | [], [] => true
  | x :: a, y :: b => (x =? y) && vec_eqb a b
  | _, _ => false
  end.

(** BigInteger::operator*=: BigInteger.cpp:487-531; operator*: 482-485; multiply: 533-535 *)
Definition bi_mul (c : cfg) (lhs rhs : bigint) : outcome bigint :=
  assert_valid c lhs ;;;
  assert_valid c rhs ;;;
  let trivialLeft := is_nil (bits_of lhs) in
  let trivialRight := is_nil (bits_of rhs) in
  let neg := xorb (sign_of lhs <? 0) (sign_of rhs <? 0) in
  if trivialLeft && trivialRight then
    p <- chk64 c (sign_of lhs * sign_of rhs) ;; bi_of_int64 c p
  else if trivialLeft then
    a <- abs32 c (sign_of lhs) ;;
    bits <- calc_mul_u c (bits_of rhs) a ;; bi_of_mag c bits neg
  else if trivialRight then
    a <- abs32 c (sign_of rhs) ;;
    bits <- calc_mul_u c (bits_of lhs) a ;; bi_of_mag c bits neg
  else if vec_eqb (bits_of lhs) (bits_of rhs) then
    bits <- calc_square c (bits_of lhs) ;; bi_of_mag c bits neg
  else if Nat.ltb (length (bits_of lhs)) (length (bits_of rhs)) then
    bits <- calc_mul c (bits_of rhs) (bits_of lhs) ;; bi_of_mag c bits neg
  else
    bits <- calc_mul c (bits_of lhs) (bits_of rhs) ;; bi_of_mag c bits neg.

(** Built-in int / and %: truncated. INT_MIN / -1 overflows. *)
Definition int_div (c : cfg) (a b : Z) : outcome Z :=
  if b =? 0 then Undef DivByZero else chk32 c (Z.quot a b).
Definition int_mod (c : cfg) (a b : Z) : outcome Z :=
  if b =? 0 then Undef DivByZero else chk32 c (Z.quot a b) ;;; Ret (Z.rem a b).

(** BigInteger::operator%=: BigInteger.cpp:542-580; operator%: 537-540; remainder: 1617-1619 *)
Definition bi_rem (c : cfg) (dividend divisor : bigint) : outcome bigint :=
  assert_valid c dividend ;;;
  assert_valid c divisor ;;;
  let trivialDividend := is_nil (bits_of dividend) in
  let trivialDivisor := is_nil (bits_of divisor) in
  if trivialDividend && trivialDivisor then
    if sign_of divisor =? 0 then Throw DivideByZero
    else r <- int_mod c (sign_of dividend) (sign_of divisor) ;; bi_of_int32 c r
  else if trivialDividend then Ret dividend
  else if trivialDivisor then
    a <- abs32 c (sign_of divisor) ;;
    r <- calc_rem_u c (bits_of dividend) a ;;
    bi_of_int64 c (if sign_of dividend <? 0 then -1 * r else r)
  else if Nat.ltb (length (bits_of dividend)) (length (bits_of divisor)) then Ret dividend
  else
    bits <- calc_rem c (bits_of dividend) (bits_of divisor) ;;
    bi_of_mag c bits (sign_of dividend <? 0).

(** BigInteger::operator/=: BigInteger.cpp:677-717; operator/: 672-675; divide: 719-721 *)
Definition bi_div (c : cfg) (dividend divisor : bigint) : outcome bigint :=
  assert_valid c dividend ;;;
  assert_valid c divisor ;;;
  let trivialDividend := is_nil (bits_of dividend) in
  let trivialDivisor := is_nil (bits_of divisor) in
  let neg := xorb (sign_of dividend <? 0) (sign_of divisor <? 0) in
  if trivialDividend && trivialDivisor then
    if sign_of divisor =? 0 then Throw DivideByZero
    else q <- int_div c (sign_of dividend) (sign_of divisor) ;; bi_of_int64 c q
  else if trivialDividend then Ret s_bnZeroInt
  else if trivialDivisor then
    a <- abs32 c (sign_of divisor) ;;
    bits <- calc_div_u c (bits_of dividend) a ;; bi_of_mag c bits neg
  else if Nat.ltb (length (bits_of dividend)) (length (bits_of divisor)) then Ret s_bnZeroInt
  else
    bits <- calc_div c (bits_of dividend) (bits_of divisor) ;; bi_of_mag c bits neg.

(** BigInteger::div_rem: BigInteger.cpp:582-624, the three references being
    distinct objects. Returns (quotient, remainder). [-1 * rest] at 608 is
    computed in uint32_t. The aliased case is in ApiMem.v. *)
Definition bi_div_rem (c : cfg) (dividend divisor : bigint) : outcome (bigint * bigint) :=
  assert_valid c dividend ;;;
  assert_valid c divisor ;;;
  let trivialDividend := is_nil (bits_of dividend) in
  let trivialDivisor := is_nil (bits_of divisor) in
  let neg := xorb (sign_of dividend <? 0) (sign_of divisor <? 0) in
  if trivialDividend && trivialDivisor then
    if sign_of divisor =? 0 then Throw DivideByZero
    else
      r <- int_mod c (sign_of dividend) (sign_of divisor) ;; r <- bi_of_int32 c r ;;
      q <- int_div c (sign_of dividend) (sign_of divisor) ;; q <- bi_of_int32 c q ;;
      Ret (q, r)
  else if trivialDividend then z <- bi_of_int32 c 0 ;; Ret (z, dividend)
  else if trivialDivisor then
    a <- abs32 c (sign_of divisor) ;;
    '(bits, rest) <- calc_divrem_u c (bits_of dividend) a ;;
    r <- bi_of_uint32 c (if sign_of dividend <? 0 then u32 (-1 * rest) else rest) ;;
    q <- bi_of_mag c bits neg ;;
    Ret (q, r)
  else if Nat.ltb (length (bits_of dividend)) (length (bits_of divisor)) then
    z <- bi_of_int32 c 0 ;; Ret (z, dividend)
  else
    '(bits, rest) <- calc_divrem c (bits_of dividend) (bits_of divisor) ;;
    r <- bi_of_mag c rest (sign_of dividend <? 0) ;;
    q <- bi_of_mag c bits neg ;;
    Ret (q, r).

(** BigInteger::operator-(): BigInteger.cpp:626-628; negate: 1135-1137 *)
Definition bi_neg (c : cfg) (b : bigint) : outcome bigint :=
  n <- chk32 c (- sign_of b) ;; bi_raw c n (bits_of b).

(** BigInteger::operator+(): BigInteger.cpp:630-632 *)
Definition bi_pos (c : cfg) (b : bigint) : outcome bigint := bi_raw c (sign_of b) (bits_of b).

(** BigInteger::zero, one, minus_one: BigInteger.cpp:758-768 *)
Definition bi_zero (c : cfg) : outcome bigint := bi_of_int32 c 0.
Definition bi_one (c : cfg) : outcome bigint := bi_of_int32 c 1.
Definition bi_minus_one (c : cfg) : outcome bigint := bi_of_int32 c (-1).

(** BigInteger::operator++(): BigInteger.cpp:634-637; operator--(): 643-647 *)
Definition bi_inc (c : cfg) (b : bigint) : outcome bigint := o <- bi_one c ;; bi_add c b o.
Definition bi_dec (c : cfg) (b : bigint) : outcome bigint := o <- bi_one c ;; bi_sub c b o.

(** BigInteger::operator++(int): BigInteger.cpp:639-641; operator--(int): 649-651.
    The result is a reference to the updated object. Returns (result, *this). *)
Definition bi_post_inc (c : cfg) (b : bigint) : outcome (bigint * bigint) :=
  r <- bi_inc c b ;; Ret (r, r).
Definition bi_post_dec (c : cfg) (b : bigint) : outcome (bigint * bigint) :=
  r <- bi_dec c b ;; Ret (r, r).

(** BigInteger::get_diff_length: BigInteger.cpp:750-756 *)
Fixpoint get_diff_length (rgu1 rgu2 : list Z) (cu : nat) : outcome nat :=
  match cu with
  | O => Ret O
  | S iv =>
      x <- rd rgu1 iv ;; y <- rd rgu2 iv ;;
      if negb (x =? y) then Ret (S iv) else get_diff_length rgu1 rgu2 iv
  end.

(** BigInteger::compare_to: BigInteger.cpp:723-748; Compare: 1139-1141 *)
Definition bi_compare (c : cfg) (this other : bigint) : outcome Z :=
  assert_valid c this ;;;
  assert_valid c other ;;;
  if Z.lxor (sign_of this) (sign_of other) <? 0 then
    Ret (if sign_of this <? 0 then -1 else 1)
  else if is_nil (bits_of this) then
    if is_nil (bits_of other) then
      Ret (if sign_of this <? sign_of other then -1
           else if sign_of other <? sign_of this then 1 else 0)
    else chk32 c (- sign_of other)
  else if is_nil (bits_of other) ||
          Nat.ltb (length (bits_of other)) (length (bits_of this)) then Ret (sign_of this)
  else if Nat.ltb (length (bits_of this)) (length (bits_of other)) then chk32 c (- sign_of this)
  else
    cuDiff <- get_diff_length (bits_of this) (bits_of other) (length (bits_of this)) ;;
    if Nat.eqb cuDiff 0 then Ret 0
    else
      x <- rd (bits_of this) (cuDiff - 1) ;; y <- rd (bits_of other) (cuDiff - 1) ;;
      if x <? y then chk32 c (- sign_of this) else Ret (sign_of this).

(** BigInteger::equals: BigInteger.cpp:779-796 *)
Definition bi_equals (c : cfg) (this other : bigint) : outcome bool :=
  assert_valid c this ;;;
  assert_valid c other ;;;
  if negb (sign_of this =? sign_of other) then Ret false
  else if vec_eqb (bits_of this) (bits_of other) then Ret true
  else if is_nil (bits_of this) || is_nil (bits_of other) then Ret false
  else if negb (Nat.eqb (length (bits_of this)) (length (bits_of other))) then Ret false
  else
    cuDiff <- get_diff_length (bits_of this) (bits_of other) (length (bits_of this)) ;;
    Ret (Nat.eqb cuDiff 0).

(** Comparison operators: BigInteger.h:40-50 *)
Definition bi_lt c a b := r <- bi_compare c a b ;; Ret (r <? 0).
Definition bi_gt c a b := bi_lt c b a.
Definition bi_le c a b := r <- bi_gt c a b ;; Ret (negb r).
Definition bi_ge c a b := r <- bi_lt c a b ;; Ret (negb r).
Definition bi_eq c a b := bi_equals c a b.
Definition bi_ne c a b := r <- bi_equals c a b ;; Ret (negb r).

(** Max, Min: BigInteger.cpp:1143-1153 *)
Definition bi_max c a b := r <- bi_compare c a b ;; Ret (if r <? 0 then b else a).
Definition bi_min c a b := r <- bi_compare c a b ;; Ret (if r <=? 0 then a else b).

(** BigInteger::sign: BigInteger.cpp:770-773 *)
Definition bi_sign (c : cfg) (b : bigint) : outcome Z :=
  assert_valid c b ;;;
  n <- chk32 c (- sign_of b) ;;
  Ret (Z.shiftr (sign_of b) 31 - Z.shiftr n 31).

(** BigInteger::abs: BigInteger.cpp:1689-1691 *)
Definition bi_abs (c : cfg) (b : bigint) : outcome bigint :=
  z <- bi_zero c ;; g <- bi_ge c b z ;;
  if g : bool then Ret b else bi_neg c b.

(** BigInteger::operator~: BigInteger.cpp:1684-1687 *)
Definition bi_not (c : cfg) (b : bigint) : outcome bigint :=
  o <- bi_one c ;; r <- bi_add c b o ;; bi_neg c r.

(** BigInteger::get_parts_for_bit_manipulation: BigInteger.cpp:918-930. The
    out-parameter xl is the length of xd. Returns (xd, negative). *)
Definition bi_parts (c : cfg) (x : bigint) : outcome (list Z * bool) :=
  xd <-
    (if is_nil (bits_of x) then
       if sign_of x <? 0 then n <- chk32 c (- sign_of x) ;; Ret [u32 n]
       else Ret [u32 (sign_of x)]
     else Ret (bits_of x)) ;;
  Ret (xd, sign_of x <? 0).

(** BigInteger::operator<<= for shift > 0: BigInteger.cpp:948-975 *)
Definition bi_shl_pos (c : cfg) (b : bigint) (shift : Z) : outcome bigint :=
  let digitShift := Z.to_nat (shift / kcbitUint) in
  let smallShift := shift - shift / kcbitUint * kcbitUint in
  '(xd, negx) <- bi_parts c b ;;
  let xl := length xd in
  let zd := zeros (xl + digitShift + 1) in
  zd <-
    (if smallShift =? 0 then
       for_up xl 0 (fun i zd => x <- rd xd i ;; wr zd (i + digitShift) x) zd
     else
       let carryShift := kcbitUint - smallShift in
       '(zd, carry) <-
         for_up xl 0 (fun i st =>
           let '(zd, carry) := st in
           rot <- rd xd i ;;
           hi <- shl32 rot smallShift ;;
           zd <- wr zd (i + digitShift) (Z.lor hi carry) ;;
           carry <- shr32 rot carryShift ;;
           Ret (zd, carry)) (zd, 0) ;;
       wr zd (xl + digitShift) carry) ;;
  bi_of_mag c zd negx.

(** BigInteger::operator>>= for shift > 0: BigInteger.cpp:1057-1100 *)
Definition bi_shr_pos (c : cfg) (b : bigint) (shift : Z) : outcome bigint :=
  let digitShift := Z.to_nat (shift / kcbitUint) in
  let smallShift := shift - shift / kcbitUint * kcbitUint in
  '(xd, negx) <- bi_parts c b ;;
  let xl := length xd in
  early <-
    (if negx : bool then width <- chk32 c (kcbitUint * Z.of_nat xl) ;; Ret (width <=? shift)
     else Ret false) ;;
  if early : bool then Ret s_bnMinusOneInt
  else
    xd <- (if negx then make_twos_complement xd else Ret xd) ;;
    let zd := zeros (xl - digitShift) in
    zd <-
      (if smallShift =? 0 then
         for_down (xl - digitShift) (fun k zd => x <- rd xd (k + digitShift) ;; wr zd k x) zd
       else
         let carryShift := kcbitUint - smallShift in
         '(zd, _) <-
           for_down (xl - digitShift) (fun k st =>
             let '(zd, carry) := st in
             let i := (k + digitShift)%nat in
             rot <- rd xd i ;;
             lo <- shr32 rot smallShift ;;
             zd <-
               (if negx && Nat.eqb i (xl - 1)
                then m <- shl32 UINT_MAX carryShift ;; wr zd k (Z.lor lo m)
                else wr zd k (Z.lor lo carry)) ;;
             carry <- shl32 rot carryShift ;;
             Ret (zd, carry)) (zd, 0) ;;
         Ret zd) ;;
    zd <- (if negx then make_twos_complement zd else Ret zd) ;;
    bi_of_mag c zd negx.

(** BigInteger::operator<<=: BigInteger.cpp:937-976; operator<<: 932-935 *)
Definition bi_shl (c : cfg) (b : bigint) (shift : Z) : outcome bigint :=
  if shift =? 0 then Ret b
  else if shift =? INT_MIN then r <- bi_shr_pos c b INT_MAX ;; bi_shr_pos c r 1
  else if shift <? 0 then bi_shr_pos c b (- shift)
  else bi_shl_pos c b shift.

(** BigInteger::operator>>=: BigInteger.cpp:1046-1101; operator>>: 1041-1044 *)
Definition bi_shr (c : cfg) (b : bigint) (shift : Z) : outcome bigint :=
  if shift =? 0 then Ret b
  else if shift =? INT_MIN then r <- bi_shl_pos c b INT_MAX ;; bi_shl_pos c r 1
  else if shift <? 0 then bi_shl_pos c b (- shift)
  else bi_shr_pos c b shift.

(** The scan at BigInteger.cpp:998-1001. [m] is the current msb. *)
Fixpoint scan_msb (dwords : list Z) (highDWord : Z) (m : nat) : outcome nat :=
  match m with
  | O => Ret O
  | S m' => x <- rd dwords m ;;
      if negb (x =? highDWord) then Ret m else scan_msb dwords highDWord m'
  end.

(** BigInteger::to_uint32_array: BigInteger.cpp:978-1011 *)
Definition bi_to_uint32_array (c : cfg) (b : bigint) : outcome (list Z) :=
  let sign := sign_of b in let bits := bits_of b in
  if is_nil bits && (sign =? 0) then Ret []
  else
    '(dwords, highDWord) <-
      (if is_nil bits then Ret ([u32 sign], if sign <? 0 then UINT_MAX else 0)
       else if sign =? -1 then d <- make_twos_complement bits ;; Ret (d, UINT_MAX)
       else Ret (bits, 0)) ;;
    msb <- scan_msb dwords highDWord (length dwords - 1) ;;
    x <- rd dwords msb ;;
    let needExtraByte := negb (Z.land x 2147483648 =? Z.land highDWord 2147483648) in
    trimmed <- slice dwords 0 (msb + 1) ;;
    Ret (if needExtraByte then trimmed ++ [highDWord] else trimmed).

(** The word loop shared by ^=, &= and |=: BigInteger.cpp:1025-1037,
    1120-1131, 1175-1186. [op] is the word operation. *)
Definition bi_bitop_words (c : cfg) (op : Z -> Z -> Z) (lhs rhs : bigint) : outcome bigint :=
  x <- bi_to_uint32_array c lhs ;;
  y <- bi_to_uint32_array c rhs ;;
  let z := zeros (Nat.max (length x) (length y)) in
  let xExtend := if sign_of lhs <? 0 then UINT_MAX else 0 in
  let yExtend := if sign_of rhs <? 0 then UINT_MAX else 0 in
  z <-
    for_up (length z) 0 (fun i z =>
      xu <- (if Nat.ltb i (length x) then rd x i else Ret xExtend) ;;
      yu <- (if Nat.ltb i (length y) then rd y i else Ret yExtend) ;;
      wr z i (op xu yu)) z ;;
  bi_of_dwords c z.

(** BigInteger::operator^=: BigInteger.cpp:1018-1039 *)
Definition bi_xor (c : cfg) (lhs rhs : bigint) : outcome bigint :=
  if is_nil (bits_of lhs) && is_nil (bits_of rhs)
  then bi_of_int32 c (Z.lxor (sign_of lhs) (sign_of rhs))
  else bi_bitop_words c Z.lxor lhs rhs.

(** BigInteger::operator&=: BigInteger.cpp:1108-1133 *)
Definition bi_and (c : cfg) (lhs rhs : bigint) : outcome bigint :=
  zl <- bi_is_zero c lhs ;;
  zr <- (if zl : bool then Ret true else bi_is_zero c rhs) ;;
  if zr : bool then bi_zero c
  else if is_nil (bits_of lhs) && is_nil (bits_of rhs)
  then bi_of_int32 c (Z.land (sign_of lhs) (sign_of rhs))
  else bi_bitop_words c Z.land lhs rhs.

(** BigInteger::operator|=: BigInteger.cpp:1160-1188 *)
Definition bi_or (c : cfg) (lhs rhs : bigint) : outcome bigint :=
  zl <- bi_is_zero c lhs ;;
  if zl : bool then Ret rhs
  else
    zr <- bi_is_zero c rhs ;;
    if zr : bool then Ret lhs
    else if is_nil (bits_of lhs) && is_nil (bits_of rhs)
    then bi_of_int32 c (Z.lor (sign_of lhs) (sign_of rhs))
    else bi_bitop_words c Z.lor lhs rhs.

(** leading_zeros_count: BigInteger.cpp:1196-1211 *)
Definition debruijn32 : list Z :=
  [0; 31; 9; 30; 3; 8; 13; 29; 2; 5; 7; 21; 12; 24; 28; 19;
   1; 10; 4; 14; 6; 22; 25; 20; 11; 15; 23; 26; 16; 27; 17; 18].
Definition leading_zeros_count (value : Z) : outcome Z :=
  if value =? 0 then Ret 32
  else
    let value := Z.lor value (Z.shiftr value 1) in
    let value := Z.lor value (Z.shiftr value 2) in
    let value := Z.lor value (Z.shiftr value 4) in
    let value := Z.lor value (Z.shiftr value 8) in
    let value := Z.lor value (Z.shiftr value 16) in
    let value := u32 (value + 1) in
    rdz debruijn32 (Z.shiftr (u32 (value * 124511785)) 27).

(** BigInteger::get_bit_length: BigInteger.cpp:1213-1250 *)
Definition bi_bit_length (c : cfg) (b : bigint) : outcome Z :=
  assert_valid c b ;;;
  let sign := sign_of b in
  '(bitsArrayLength, highValue) <-
    (if is_nil (bits_of b) then
       h <- (if sign <? 0 then chk32 c (- sign) else Ret sign) ;; Ret (1%nat, u32 h)
     else h <- rd (bits_of b) (length (bits_of b) - 1) ;; Ret (length (bits_of b), h)) ;;
  lz <- leading_zeros_count highValue ;;
  bitLength <- chk64 c (Z.of_nat bitsArrayLength * 32 - lz) ;;
  if 0 <=? sign then Ret (u64 bitLength)
  else if negb (Z.land highValue (u32 (highValue - 1)) =? 0) then Ret (u64 bitLength)
  else
    z <- all_zero_below (bits_of b) (bitsArrayLength - 1) ;;
    if z : bool then Ret (u64 (bitLength - 1)) else Ret (u64 bitLength).

(** Conversion operators. operator int: BigInteger.cpp:1408-1425 *)
Definition bi_to_int (c : cfg) (b : bigint) : outcome Z :=
  match bits_of b with
  | [] => Ret (sign_of b)
  | [b0] =>
      if 0 <? sign_of b then
        if INT_MAX <? b0 then Throw OverflowError else Ret (s32 b0)
      else if kuMaskHighBit <? b0 then Throw OverflowError
      else chk32 c (- s32 b0)
  | _ => Throw OverflowError
  end.

(** operator unsigned int: BigInteger.cpp:1427-1438 *)
Definition bi_to_uint (c : cfg) (b : bigint) : outcome Z :=
  match bits_of b with
  | [] => if sign_of b <? 0 then Throw OverflowError else Ret (u32 (sign_of b))
  | b0 :: t =>
      if negb (is_nil t) || (sign_of b <? 0) then Throw OverflowError else Ret b0
  end.

(** operator long: BigInteger.cpp:1440-1459 *)
Definition bi_to_long (c : cfg) (b : bigint) : outcome Z :=
  match bits_of b with
  | [] => Ret (sign_of b)
  | b0 :: t =>
      if Nat.ltb 2 (length (bits_of b)) then Throw OverflowError
      else
        let uu := match t with
                  | [] => b0
                  | b1 :: _ => Z.lor (u64 (Z.shiftl b1 kcbitUint)) b0
                  end in
        ll <- (if 0 <? sign_of b then Ret (s64 uu) else chk64 c (- s64 uu)) ;;
        if ((0 <? ll) && (0 <? sign_of b)) || ((ll <? 0) && (sign_of b <? 0))
        then Ret ll else Throw OverflowError
  end.

(** operator unsigned long: BigInteger.cpp:1461-1478 *)
Definition bi_to_ulong (c : cfg) (b : bigint) : outcome Z :=
  match bits_of b with
  | [] => if sign_of b <? 0 then Throw OverflowError else Ret (u64 (sign_of b))
  | b0 :: t =>
      if Nat.ltb 2 (length (bits_of b)) || (sign_of b <? 0) then Throw OverflowError
      else match t with
           | [] => Ret b0
           | b1 :: _ => Ret (Z.lor (u64 (Z.shiftl b1 kcbitUint)) b0)
           end
  end.

(** BigInteger::pow: BigInteger.cpp:1543-1569 *)
Definition bi_pow (c : cfg) (value : bigint) (exponent : Z) : outcome bigint :=
  if exponent <? 0 then Throw OutOfRange
  else
    assert_valid c value ;;;
    if exponent =? 0 then Ret s_bnOneInt
    else if exponent =? 1 then Ret value
    else
      let trivialValue := is_nil (bits_of value) in
      let odd := negb (Z.land exponent 1 =? 0) in
      if trivialValue && (sign_of value =? 1) then Ret value
      else if trivialValue && (sign_of value =? -1) then Ret (if odd then value else s_bnOneInt)
      else if trivialValue && (sign_of value =? 0) then Ret value
      else
        e <- abs32 c exponent ;;
        bits <-
          (if trivialValue then v <- abs32 c (sign_of value) ;; calc_pow_u c v e
           else calc_pow_v c (bits_of value) e) ;;
        bi_of_mag c bits ((sign_of value <? 0) && odd).

(** BigInteger::mod_pow: BigInteger.cpp:1572-1615. [-1 * bits] at 1598 is
    computed in uint32_t. *)
Definition bi_mod_pow (c : cfg) (value exponent modulus : bigint) : outcome bigint :=
  if sign_of exponent <? 0 then Throw OutOfRange
  else
    assert_valid c value ;;;
    assert_valid c exponent ;;;
    assert_valid c modulus ;;;
    let trivialValue := is_nil (bits_of value) in
    let trivialExponent := is_nil (bits_of exponent) in
    let trivialModulus := is_nil (bits_of modulus) in
    if trivialModulus then
      m <- abs32 c (sign_of modulus) ;;
      bits <-
        (if trivialValue then
           v <- abs32 c (sign_of value) ;;
           if trivialExponent then e <- abs32 c (sign_of exponent) ;; calc_powmod_uuu v e m
           else calc_powmod_uvu v (bits_of exponent) m
         else if trivialExponent then
           e <- abs32 c (sign_of exponent) ;; calc_powmod_vuu c (bits_of value) e m
         else calc_powmod_vvu c (bits_of value) (bits_of exponent) m) ;;
      even <- (if sign_of value <? 0 then bi_is_even c exponent else Ret true) ;;
      bi_of_uint32 c (if negb even then u32 (-1 * bits) else bits)
    else
      bits <-
        (if trivialValue then
           v <- abs32 c (sign_of value) ;;
           if trivialExponent then
             e <- abs32 c (sign_of exponent) ;; calc_powmod_uuv c v e (bits_of modulus)
           else calc_powmod_uvv c v (bits_of exponent) (bits_of modulus)
         else if trivialExponent then
           e <- abs32 c (sign_of exponent) ;;
           calc_powmod_vuv c (bits_of value) e (bits_of modulus)
         else calc_powmod_vvv c (bits_of value) (bits_of exponent) (bits_of modulus)) ;;
      even <- (if sign_of value <? 0 then bi_is_even c exponent else Ret true) ;;
      bi_of_mag c bits (negb even).

(** BigInteger::greatest_common_divisor(const uint_array&, const uint_array&):
    BigInteger.cpp:1661-1682. [fuel] bounds the Lehmer loop. *)
Definition bi_gcd_bits (fuel : nat) (c : cfg) (leftBits rightBits : list Z) : outcome bigint :=
  (if dbg c then cmp <- calc_compare c leftBits rightBits ;; massert c (0 <=? cmp)
   else Ret tt) ;;;
  if Nat.eqb (length rightBits) 1 then
    r0 <- rd rightBits 0 ;;
    temp <- calc_rem_u c leftBits r0 ;;
    g <- calc_gcd32 r0 temp ;;
    bi_of_uint32 c g
  else if Nat.eqb (length rightBits) 2 then
    tempBits <- calc_rem c leftBits rightBits ;;
    r1 <- rd rightBits 1 ;; r0 <- rd rightBits 0 ;;
    t1 <- rd tempBits 1 ;; t0 <- rd tempBits 0 ;;
    res <- calc_gcd64 (Z.lor (u64 (Z.shiftl r1 32)) r0) (Z.lor (u64 (Z.shiftl t1 32)) t0) ;;
    bi_of_uint64 c res
  else
    bits <- calc_gcd fuel c leftBits rightBits ;;
    bi_of_mag c bits false.

(** BigInteger::greatest_common_divisor(const BigInteger&, const BigInteger&):
    BigInteger.cpp:1621-1659 *)
Definition bi_gcd (fuel : nat) (c : cfg) (lv rv : bigint) : outcome bigint :=
  assert_valid c lv ;;;
  assert_valid c rv ;;;
  let trivialLeft := is_nil (bits_of lv) in
  let trivialRight := is_nil (bits_of rv) in
  if trivialLeft && trivialRight then
    a <- abs32 c (sign_of lv) ;; b <- abs32 c (sign_of rv) ;;
    g <- calc_gcd32 a b ;; bi_of_uint32 c g
  else if trivialLeft then
    if negb (sign_of lv =? 0) then
      a <- abs32 c (sign_of lv) ;; g <- calc_gcd_u c (bits_of rv) a ;; bi_of_uint32 c g
    else bi_of_mag c (bits_of rv) false
  else if trivialRight then
    if negb (sign_of rv =? 0) then
      a <- abs32 c (sign_of rv) ;; g <- calc_gcd_u c (bits_of lv) a ;; bi_of_uint32 c g
    else bi_of_mag c (bits_of lv) false
  else
    cmp <- calc_compare c (bits_of lv) (bits_of rv) ;;
    if cmp <? 0 then bi_gcd_bits fuel c (bits_of rv) (bits_of lv)
    else bi_gcd_bits fuel c (bits_of lv) (bits_of rv).

(** NumericsHelpers::combine_hash: NumericsHelpers.h:126-132 *)
Definition combine_hash (u1 u2 : Z) : Z :=
  Z.lxor (Z.lor (u32 (Z.shiftl u1 7)) (Z.shiftr u1 25)) u2.

(** BigInteger::get_hash_code: BigInteger.cpp:1772-1779 *)
Definition bi_hash (c : cfg) (b : bigint) : outcome Z :=
  if is_nil (bits_of b) then Ret (sign_of b)
  else
    for_down (length (bits_of b)) (fun iv hash =>
      x <- rd (bits_of b) iv ;;
      Ret (s32 (combine_hash (u32 hash) (u32 (s32 x))))) (sign_of b).
