(** The static constants s_bnMinInt, s_bnOneInt, s_bnZeroInt, s_bnMinusOneInt
    (BigInteger.cpp:14-17) as state. They are initialised dynamically, so code run by the
    initialisers of another translation unit may find them still zero-initialised. Copying
    such an object is undefined in C++17; modelled is what libstdc++ and libc++ do, where the
    zero pattern is an empty vector. A [_s] twin of every function that reads the constants,
    or calls one that does and can reach such a read; the others are listed in DESIGN.md. *)
From Coq Require Import String.
From Verif Require Import Machine CalcAddSub CalcSquMul CalcDivRem CalcPowMod CalcGcd BigInt BigIntBytes BigIntText BigIntDouble.
Open Scope list_scope.

Record statics := Statics { min_int : bigint; one_int : bigint; zero_int : bigint; minus_one_int : bigint }.
Definition zeroed : statics := Statics (Big 0 []) (Big 0 []) (Big 0 []) (Big 0 []).
Definition initialised : statics := Statics s_bnMinInt s_bnOneInt s_bnZeroInt s_bnMinusOneInt.

(** BigInteger.cpp:25-33 *)
Definition bi_of_int32_s (sc : statics) (c : cfg) (value : Z) : outcome bigint :=
  if value =? INT_MIN then checked c (min_int sc) else checked c (Big value []).

(** The four definitions, in order: BigInteger.cpp:14-17 *)
Definition initialise (c : cfg) : outcome statics :=
  let sc := zeroed in
  m <- bi_raw c (-1) [kuMaskHighBit] ;;
  let sc := Statics m (one_int sc) (zero_int sc) (minus_one_int sc) in
  o <- bi_of_int32_s sc c 1 ;;
  let sc := Statics (min_int sc) o (zero_int sc) (minus_one_int sc) in
  z <- bi_of_int32_s sc c 0 ;;
  let sc := Statics (min_int sc) (one_int sc) z (minus_one_int sc) in
  n <- bi_of_int32_s sc c (-1) ;;
  Ret (Statics (min_int sc) (one_int sc) (zero_int sc) n).

(** BigInteger.cpp:46-70 *)
Definition bi_of_int64_s (sc : statics) (c : cfg) (value : Z) : outcome bigint :=
  if (INT_MIN <? value) && (value <=? INT_MAX) then checked c (Big value [])
  else if value =? INT_MIN then checked c (min_int sc)
  else
    '(x, sign) <-
      (if value <? 0 then nv <- chk64 c (- value) ;; Ret (u64 nv, -1)
       else Ret (u64 value, 1)) ;;
    if x <=? UINT_MAX then checked c (Big sign [u32 x])
    else checked c (Big sign [u32 x; u32 (Z.shiftr x kcbitUint)]).

(** BigInteger.cpp:254-327 *)
Definition bi_of_dwords_s (sc : statics) (c : cfg) (value : list Z) : outcome bigint :=
  isNegative <-
    (if Nat.ltb 0 (length value)
     then top <- rd value (length value - 1) ;; Ret (Z.land top 2147483648 =? 2147483648)
     else Ret false) ;;
  dwordCount <- trim_len value (length value) ;;
  if Nat.eqb dwordCount 0 then checked c (zero_int sc)
  else if Nat.eqb dwordCount 1 then
    v0 <- rd value 0 ;;
    if (s32 v0 <? 0) && negb isNegative then checked c (Big 1 [v0])
    else if INT_MIN =? s32 v0 then checked c (min_int sc)
    else checked c (Big (s32 v0) [])
  else if negb isNegative then
    (if negb (Nat.eqb dwordCount (length value))
     then checked c (Big 1 (firstn dwordCount value))
     else checked c (Big 1 value))
  else
    value <- make_twos_complement value ;;
    len <- trim_len value (length value) ;;
    v0 <- rd value 0 ;;
    if Nat.eqb len 1 && (0 <? s32 v0) then
      if v0 =? 1 then checked c (minus_one_int sc)
      else if v0 =? kuMaskHighBit then checked c (min_int sc)
      else checked c (Big (-1 * s32 v0) [])
    else if negb (Nat.eqb len (length value)) then checked c (Big (-1) (firstn len value))
    else checked c (Big (-1) value).

(** BigInteger.cpp:330-355 *)
Definition bi_of_mag_s (sc : statics) (c : cfg) (value : list Z) (negative : bool) : outcome bigint :=
  len <- trim_len value (length value) ;;
  v0 <- (if Nat.eqb len 1 then rd value 0 else Ret 0) ;;
  let this :=
    if Nat.eqb len 0 then (zero_int sc)
    else if Nat.eqb len 1 && (v0 <? kuMaskHighBit) then
      let sign := if negative then - s32 v0 else s32 v0 in
      if sign =? INT_MIN then (min_int sc) else Big sign []
    else Big (if negative then -1 else 1) value in
  checked c (Big (sign_of this) (pop_zeros (length (bits_of this)) (bits_of this))).

(** BigInteger.cpp:93-252 *)
Definition bi_of_bytes_s (sc : statics) (c : cfg) (value : list Z) (isUnsigned isBigEndian : bool)
    : outcome bigint :=
  let byteCount := length value in
  '(value, byteCount, isNegative) <-
    (if Nat.ltb 0 byteCount then
       msb <- (if isBigEndian then rd value 0 else rd value (byteCount - 1)) ;;
       let isNegative := negb (Z.land msb 128 =? 0) && negb isUnsigned in
       if msb =? 0 then
         if isBigEndian then
           offset <- be_skip value (byteCount - 1) 1 ;;
           let value := skipn offset value in
           Ret (value, length value, isNegative)
         else
           (* 113-117 *)
           n <- trim_len value (byteCount - 1) ;;
           Ret (value, n, isNegative)
       else Ret (value, byteCount, isNegative)
     else Ret (value, byteCount, false)) ;;
  if Nat.eqb byteCount 0 then checked c (Big 0 [])
  else if Nat.leb byteCount 4 then
    let sign := if isNegative : bool then -1 else 0 in
    sign <-
      (if isBigEndian then
         for_up byteCount 0 (fun i sign =>
           s <- shl8_int c sign ;; v <- rd value i ;; Ret (Z.lor s v)) sign
       else
         for_down byteCount (fun i sign =>
           s <- shl8_int c sign ;; v <- rd value i ;; Ret (Z.lor s v)) sign) ;;
    let this := if (sign <? 0) && negb isNegative then Big 1 [u32 sign] else Big sign [] in
    let this := if sign_of this =? INT_MIN then (min_int sc) else this in
    checked c this
  else
    let unalignedBytes := Nat.modulo byteCount 4 in
    let dwordCount := (Nat.div byteCount 4 + (if Nat.eqb unalignedBytes 0 then 0 else 1))%nat in
    let full := (dwordCount - (if Nat.eqb unalignedBytes 0 then 0 else 1))%nat in
    '(val, _) <-
      (if isBigEndian then
         for_up full 0 (fun curDword st =>
           let '(val, curByte) := st in
           '(val, curByte) <-
             for_up 4 0 (fun _ st =>
               let '(val, curByte) := st in
               v <- rdz value curByte ;;
               x <- rd val curDword ;;
               val <- wr val curDword (Z.lor (u32 (Z.shiftl x 8)) v) ;;
               Ret (val, curByte + 1)) (val, curByte) ;;
           Ret (val, curByte - 8)) (zeros dwordCount, Z.of_nat byteCount - 4)
       else
         for_up full 0 (fun curDword st =>
           let '(val, curByte) := st in
           '(val, curByte) <-
             for_up 4 0 (fun _ st =>
               let '(val, curByte) := st in
               v <- rdz value curByte ;;
               x <- rd val curDword ;;
               val <- wr val curDword (Z.lor (u32 (Z.shiftl x 8)) v) ;;
               Ret (val, curByte - 1)) (val, curByte) ;;
           Ret (val, curByte + 8)) (zeros dwordCount, 3)) ;;
    val <-
      (if Nat.eqb unalignedBytes 0 then Ret val
       else
         val <- (if isNegative then wr val (dwordCount - 1) UINT_MAX else Ret val) ;;
         if isBigEndian then
           for_up unalignedBytes 0 (fun curByte val =>
             v <- rd value curByte ;;
             x <- rd val full ;;
             wr val full (Z.lor (u32 (Z.shiftl x 8)) v)) val
         else
           for_down unalignedBytes (fun k val =>
             v <- rd value (byteCount - unalignedBytes + k) ;;
             x <- rd val full ;;
             wr val full (Z.lor (u32 (Z.shiftl x 8)) v)) val) ;;
    if isNegative then
      val <- make_twos_complement val ;;
      len <- trim_len val (length val) ;;
      v0 <- (if Nat.eqb len 1 then rd val 0 else Ret 0) ;;
      if Nat.eqb len 1 && (v0 =? 1) then Ret (minus_one_int sc)
      else if Nat.eqb len 1 && (v0 =? kuMaskHighBit) then Ret (min_int sc)
      else if Nat.eqb len 1 && (0 <? s32 v0) then checked c (Big (-1 * s32 v0) [])
      else if negb (Nat.eqb len (length val)) then checked c (Big (-1) (firstn len val))
      else checked c (Big (-1) val)
    else checked c (Big 1 val).

(** BigInteger.cpp:402-431 *)
Definition bi_add_parts_s (sc : statics) (c : cfg) (lhs : list Z) (lhsSign : Z) (rhs : list Z) (rhsSign : Z)
    : outcome bigint :=
  let trivialLeft := is_nil lhs in
  let trivialRight := is_nil rhs in
  if trivialLeft && trivialRight then
    s <- chk64 c (lhsSign + rhsSign) ;; bi_of_int64_s sc c s
  else if trivialLeft then
    a <- abs32 c lhsSign ;;
    bits <- calc_add_u c rhs a ;; bi_of_mag_s sc c bits (lhsSign <? 0)
  else if trivialRight then
    a <- abs32 c rhsSign ;;
    bits <- calc_add_u c lhs a ;; bi_of_mag_s sc c bits (lhsSign <? 0)
  else if Nat.ltb (length lhs) (length rhs) then
    bits <- calc_add c rhs lhs ;; bi_of_mag_s sc c bits (lhsSign <? 0)
  else
    bits <- calc_add c lhs rhs ;; bi_of_mag_s sc c bits (lhsSign <? 0).

(** BigInteger.cpp:433-462 *)
Definition bi_sub_parts_s (sc : statics) (c : cfg) (lhs : list Z) (lhsSign : Z) (rhs : list Z) (rhsSign : Z)
    : outcome bigint :=
  let trivialLeft := is_nil lhs in
  let trivialRight := is_nil rhs in
  if trivialLeft && trivialRight then
    s <- chk64 c (lhsSign - rhsSign) ;; bi_of_int64_s sc c s
  else if trivialLeft then
    a <- abs32 c lhsSign ;;
    bits <- calc_sub_u c rhs a ;; bi_of_mag_s sc c bits (0 <=? lhsSign)
  else if trivialRight then
    a <- abs32 c rhsSign ;;
    bits <- calc_sub_u c lhs a ;; bi_of_mag_s sc c bits (lhsSign <? 0)
  else
    cmp <- calc_compare c lhs rhs ;;
    if cmp <? 0 then
      bits <- calc_sub c rhs lhs ;; bi_of_mag_s sc c bits (0 <=? lhsSign)
    else
      bits <- calc_sub c lhs rhs ;; bi_of_mag_s sc c bits (lhsSign <? 0).

(** BigInteger.cpp:654-670 *)
Definition bi_add_s (sc : statics) (c : cfg) (lhs rhs : bigint) : outcome bigint :=
  assert_valid c lhs ;;;
  assert_valid c rhs ;;;
  if xorb (sign_of lhs <? 0) (sign_of rhs <? 0) then
    n <- chk32 c (-1 * sign_of rhs) ;;
    bi_sub_parts_s sc c (bits_of lhs) (sign_of lhs) (bits_of rhs) n
  else bi_add_parts_s sc c (bits_of lhs) (sign_of lhs) (bits_of rhs) (sign_of rhs).

(** BigInteger.cpp:464-480 *)
Definition bi_sub_s (sc : statics) (c : cfg) (lhs rhs : bigint) : outcome bigint :=
  assert_valid c lhs ;;;
  assert_valid c rhs ;;;
  if xorb (sign_of lhs <? 0) (sign_of rhs <? 0) then
    n <- chk32 c (-1 * sign_of rhs) ;;
    bi_add_parts_s sc c (bits_of lhs) (sign_of lhs) (bits_of rhs) n
  else bi_sub_parts_s sc c (bits_of lhs) (sign_of lhs) (bits_of rhs) (sign_of rhs).

(** BigInteger.cpp:482-531 *)
Definition bi_mul_s (sc : statics) (c : cfg) (lhs rhs : bigint) : outcome bigint :=
  assert_valid c lhs ;;;
  assert_valid c rhs ;;;
  let trivialLeft := is_nil (bits_of lhs) in
  let trivialRight := is_nil (bits_of rhs) in
  let neg := xorb (sign_of lhs <? 0) (sign_of rhs <? 0) in
  if trivialLeft && trivialRight then
    p <- chk64 c (sign_of lhs * sign_of rhs) ;; bi_of_int64_s sc c p
  else if trivialLeft then
    a <- abs32 c (sign_of lhs) ;;
    bits <- calc_mul_u c (bits_of rhs) a ;; bi_of_mag_s sc c bits neg
  else if trivialRight then
    a <- abs32 c (sign_of rhs) ;;
    bits <- calc_mul_u c (bits_of lhs) a ;; bi_of_mag_s sc c bits neg
  else if vec_eqb (bits_of lhs) (bits_of rhs) then
    bits <- calc_square c (bits_of lhs) ;; bi_of_mag_s sc c bits neg
  else if Nat.ltb (length (bits_of lhs)) (length (bits_of rhs)) then
    bits <- calc_mul c (bits_of rhs) (bits_of lhs) ;; bi_of_mag_s sc c bits neg
  else
    bits <- calc_mul c (bits_of lhs) (bits_of rhs) ;; bi_of_mag_s sc c bits neg.

(** BigInteger.cpp:537-580 *)
Definition bi_rem_s (sc : statics) (c : cfg) (dividend divisor : bigint) : outcome bigint :=
  assert_valid c dividend ;;;
  assert_valid c divisor ;;;
  let trivialDividend := is_nil (bits_of dividend) in
  let trivialDivisor := is_nil (bits_of divisor) in
  if trivialDividend && trivialDivisor then
    if sign_of divisor =? 0 then Throw DivideByZero
    else r <- int_mod c (sign_of dividend) (sign_of divisor) ;; bi_of_int32_s sc c r
  else if trivialDividend then Ret dividend
  else if trivialDivisor then
    a <- abs32 c (sign_of divisor) ;;
    r <- calc_rem_u c (bits_of dividend) a ;;
    bi_of_int64_s sc c (if sign_of dividend <? 0 then -1 * r else r)
  else if Nat.ltb (length (bits_of dividend)) (length (bits_of divisor)) then Ret dividend
  else
    bits <- calc_rem c (bits_of dividend) (bits_of divisor) ;;
    bi_of_mag_s sc c bits (sign_of dividend <? 0).

(** BigInteger.cpp:672-717 *)
Definition bi_div_s (sc : statics) (c : cfg) (dividend divisor : bigint) : outcome bigint :=
  assert_valid c dividend ;;;
  assert_valid c divisor ;;;
  let trivialDividend := is_nil (bits_of dividend) in
  let trivialDivisor := is_nil (bits_of divisor) in
  let neg := xorb (sign_of dividend <? 0) (sign_of divisor <? 0) in
  if trivialDividend && trivialDivisor then
    if sign_of divisor =? 0 then Throw DivideByZero
    else q <- int_div c (sign_of dividend) (sign_of divisor) ;; bi_of_int64_s sc c q
  else if trivialDividend then Ret (zero_int sc)
  else if trivialDivisor then
    a <- abs32 c (sign_of divisor) ;;
    bits <- calc_div_u c (bits_of dividend) a ;; bi_of_mag_s sc c bits neg
  else if Nat.ltb (length (bits_of dividend)) (length (bits_of divisor)) then Ret (zero_int sc)
  else
    bits <- calc_div c (bits_of dividend) (bits_of divisor) ;; bi_of_mag_s sc c bits neg.

(** BigInteger.cpp:582-624 *)
Definition bi_div_rem_s (sc : statics) (c : cfg) (dividend divisor : bigint) : outcome (bigint * bigint) :=
  assert_valid c dividend ;;;
  assert_valid c divisor ;;;
  let trivialDividend := is_nil (bits_of dividend) in
  let trivialDivisor := is_nil (bits_of divisor) in
  let neg := xorb (sign_of dividend <? 0) (sign_of divisor <? 0) in
  if trivialDividend && trivialDivisor then
    if sign_of divisor =? 0 then Throw DivideByZero
    else
      r <- int_mod c (sign_of dividend) (sign_of divisor) ;; r <- bi_of_int32_s sc c r ;;
      q <- int_div c (sign_of dividend) (sign_of divisor) ;; q <- bi_of_int32_s sc c q ;;
      Ret (q, r)
  else if trivialDividend then z <- bi_of_int32_s sc c 0 ;; Ret (z, dividend)
  else if trivialDivisor then
    a <- abs32 c (sign_of divisor) ;;
    '(bits, rest) <- calc_divrem_u c (bits_of dividend) a ;;
    r <- bi_of_uint32 c (if sign_of dividend <? 0 then u32 (-1 * rest) else rest) ;;
    q <- bi_of_mag_s sc c bits neg ;;
    Ret (q, r)
  else if Nat.ltb (length (bits_of dividend)) (length (bits_of divisor)) then
    z <- bi_of_int32_s sc c 0 ;; Ret (z, dividend)
  else
    '(bits, rest) <- calc_divrem c (bits_of dividend) (bits_of divisor) ;;
    r <- bi_of_mag_s sc c rest (sign_of dividend <? 0) ;;
    q <- bi_of_mag_s sc c bits neg ;;
    Ret (q, r).

(** BigInteger.cpp:762-764 *)
Definition bi_one_s (sc : statics) (c : cfg) : outcome bigint := bi_of_int32_s sc c 1.

(** BigInteger.cpp:758-760 *)
Definition bi_zero_s (sc : statics) (c : cfg) : outcome bigint := bi_of_int32_s sc c 0.

(** BigInteger.cpp:766-768 *)
Definition bi_minus_one_s (sc : statics) (c : cfg) : outcome bigint := bi_of_int32_s sc c (-1).

(** BigInteger.cpp:634-637 *)
Definition bi_inc_s (sc : statics) (c : cfg) (b : bigint) : outcome bigint := o <- bi_one_s sc c ;; bi_add_s sc c b o.

(** BigInteger.cpp:643-647 *)
Definition bi_dec_s (sc : statics) (c : cfg) (b : bigint) : outcome bigint := o <- bi_one_s sc c ;; bi_sub_s sc c b o.

(** BigInteger.cpp:1684-1687 *)
Definition bi_not_s (sc : statics) (c : cfg) (b : bigint) : outcome bigint :=
  o <- bi_one_s sc c ;; r <- bi_add_s sc c b o ;; bi_neg c r.

(** BigInteger.cpp:948-975 *)
Definition bi_shl_pos_s (sc : statics) (c : cfg) (b : bigint) (shift : Z) : outcome bigint :=
  let digitShift := Z.to_nat (shift / kcbitUint) in
  let smallShift := shift - shift / kcbitUint * kcbitUint in
  '(xd, negx) <- bi_parts c b ;;
  let xl := length xd in
  let zd := zeros (xl + digitShift + 1) in
  zd <-
    (if smallShift =? 0 then
       for_up xl 0 (fun i zd => x <- rd xd i ;; wr zd (i + digitShift) x) zd
     else
       let carryShift := kcbitUint - smallShift in
       '(zd, carry) <-
         for_up xl 0 (fun i st =>
           let '(zd, carry) := st in
           rot <- rd xd i ;;
           hi <- shl32 rot smallShift ;;
           zd <- wr zd (i + digitShift) (Z.lor hi carry) ;;
           carry <- shr32 rot carryShift ;;
           Ret (zd, carry)) (zd, 0) ;;
       wr zd (xl + digitShift) carry) ;;
  bi_of_mag_s sc c zd negx.

(** BigInteger.cpp:1057-1100 *)
Definition bi_shr_pos_s (sc : statics) (c : cfg) (b : bigint) (shift : Z) : outcome bigint :=
  let digitShift := Z.to_nat (shift / kcbitUint) in
  let smallShift := shift - shift / kcbitUint * kcbitUint in
  '(xd, negx) <- bi_parts c b ;;
  let xl := length xd in
  early <-
    (if negx : bool then width <- chk32 c (kcbitUint * Z.of_nat xl) ;; Ret (width <=? shift)
     else Ret false) ;;
  if early : bool then Ret (minus_one_int sc)
  else
    xd <- (if negx then make_twos_complement xd else Ret xd) ;;
    let zd := zeros (xl - digitShift) in
    zd <-
      (if smallShift =? 0 then
         for_down (xl - digitShift) (fun k zd => x <- rd xd (k + digitShift) ;; wr zd k x) zd
       else
         let carryShift := kcbitUint - smallShift in
         '(zd, _) <-
           for_down (xl - digitShift) (fun k st =>
             let '(zd, carry) := st in
             let i := (k + digitShift)%nat in
             rot <- rd xd i ;;
             lo <- shr32 rot smallShift ;;
             zd <-
               (if negx && Nat.eqb i (xl - 1)
                then m <- shl32 UINT_MAX carryShift ;; wr zd k (Z.lor lo m)
                else wr zd k (Z.lor lo carry)) ;;
             carry <- shl32 rot carryShift ;;
             Ret (zd, carry)) (zd, 0) ;;
         Ret zd) ;;
    zd <- (if negx then make_twos_complement zd else Ret zd) ;;
    bi_of_mag_s sc c zd negx.

(** BigInteger.cpp:932-976 *)
Definition bi_shl_s (sc : statics) (c : cfg) (b : bigint) (shift : Z) : outcome bigint :=
  if shift =? 0 then Ret b
  else if shift =? INT_MIN then r <- bi_shr_pos_s sc c b INT_MAX ;; bi_shr_pos_s sc c r 1
  else if shift <? 0 then bi_shr_pos_s sc c b (- shift)
  else bi_shl_pos_s sc c b shift.

(** BigInteger.cpp:1041-1101 *)
Definition bi_shr_s (sc : statics) (c : cfg) (b : bigint) (shift : Z) : outcome bigint :=
  if shift =? 0 then Ret b
  else if shift =? INT_MIN then r <- bi_shl_pos_s sc c b INT_MAX ;; bi_shl_pos_s sc c r 1
  else if shift <? 0 then bi_shl_pos_s sc c b (- shift)
  else bi_shr_pos_s sc c b shift.

(** BigInteger.cpp:1025-1037, 1120-1131, 1175-1186 *)
Definition bi_bitop_words_s (sc : statics) (c : cfg) (op : Z -> Z -> Z) (lhs rhs : bigint) : outcome bigint :=
  x <- bi_to_uint32_array c lhs ;;
  y <- bi_to_uint32_array c rhs ;;
  let z := zeros (Nat.max (length x) (length y)) in
  let xExtend := if sign_of lhs <? 0 then UINT_MAX else 0 in
  let yExtend := if sign_of rhs <? 0 then UINT_MAX else 0 in
  z <-
    for_up (length z) 0 (fun i z =>
      xu <- (if Nat.ltb i (length x) then rd x i else Ret xExtend) ;;
      yu <- (if Nat.ltb i (length y) then rd y i else Ret yExtend) ;;
      wr z i (op xu yu)) z ;;
  bi_of_dwords_s sc c z.

(** BigInteger.cpp:1018-1039 *)
Definition bi_xor_s (sc : statics) (c : cfg) (lhs rhs : bigint) : outcome bigint :=
  if is_nil (bits_of lhs) && is_nil (bits_of rhs)
  then bi_of_int32_s sc c (Z.lxor (sign_of lhs) (sign_of rhs))
  else bi_bitop_words_s sc c Z.lxor lhs rhs.

(** BigInteger.cpp:1108-1133 *)
Definition bi_and_s (sc : statics) (c : cfg) (lhs rhs : bigint) : outcome bigint :=
  zl <- bi_is_zero c lhs ;;
  zr <- (if zl : bool then Ret true else bi_is_zero c rhs) ;;
  if zr : bool then bi_zero_s sc c
  else if is_nil (bits_of lhs) && is_nil (bits_of rhs)
  then bi_of_int32_s sc c (Z.land (sign_of lhs) (sign_of rhs))
  else bi_bitop_words_s sc c Z.land lhs rhs.

(** BigInteger.cpp:1160-1188 *)
Definition bi_or_s (sc : statics) (c : cfg) (lhs rhs : bigint) : outcome bigint :=
  zl <- bi_is_zero c lhs ;;
  if zl : bool then Ret rhs
  else
    zr <- bi_is_zero c rhs ;;
    if zr : bool then Ret lhs
    else if is_nil (bits_of lhs) && is_nil (bits_of rhs)
    then bi_of_int32_s sc c (Z.lor (sign_of lhs) (sign_of rhs))
    else bi_bitop_words_s sc c Z.lor lhs rhs.

(** BigInteger.cpp:1545-1570 *)
Definition bi_pow_s (sc : statics) (c : cfg) (value : bigint) (exponent : Z) : outcome bigint :=
  if exponent <? 0 then Throw OutOfRange
  else
    assert_valid c value ;;;
    if exponent =? 0 then Ret (one_int sc)
    else if exponent =? 1 then Ret value
    else
      let trivialValue := is_nil (bits_of value) in
      let odd := negb (Z.land exponent 1 =? 0) in
      if trivialValue && (sign_of value =? 1) then Ret value
      else if trivialValue && (sign_of value =? -1) then Ret (if odd then value else (one_int sc))
      else if trivialValue && (sign_of value =? 0) then Ret value
      else
        e <- abs32 c exponent ;;
        bits <-
          (if trivialValue then v <- abs32 c (sign_of value) ;; calc_pow_u c v e
           else calc_pow_v c (bits_of value) e) ;;
        bi_of_mag_s sc c bits ((sign_of value <? 0) && odd).

(** BigInteger.cpp:1689-1691 *)
Definition bi_abs_s (sc : statics) (c : cfg) (b : bigint) : outcome bigint :=
  z <- bi_zero_s sc c ;; g <- bi_ge c b z ;;
  if g : bool then Ret b else bi_neg c b.

(** BigInteger.cpp:1661-1682 *)
Definition bi_gcd_bits_s (fuel : nat) (sc : statics) (c : cfg) (leftBits rightBits : list Z) : outcome bigint :=
  (if dbg c then cmp <- calc_compare c leftBits rightBits ;; massert c (0 <=? cmp)
   else Ret tt) ;;;
  if Nat.eqb (length rightBits) 1 then
    r0 <- rd rightBits 0 ;;
    temp <- calc_rem_u c leftBits r0 ;;
    g <- calc_gcd32 r0 temp ;;
    bi_of_uint32 c g
  else if Nat.eqb (length rightBits) 2 then
    tempBits <- calc_rem c leftBits rightBits ;;
    r1 <- rd rightBits 1 ;; r0 <- rd rightBits 0 ;;
    t1 <- rd tempBits 1 ;; t0 <- rd tempBits 0 ;;
    res <- calc_gcd64 (Z.lor (u64 (Z.shiftl r1 32)) r0) (Z.lor (u64 (Z.shiftl t1 32)) t0) ;;
    bi_of_uint64 c res
  else
    bits <- calc_gcd fuel c leftBits rightBits ;;
    bi_of_mag_s sc c bits false.

(** BigInteger.cpp:1621-1659 *)
Definition bi_gcd_s (fuel : nat) (sc : statics) (c : cfg) (lv rv : bigint) : outcome bigint :=
  assert_valid c lv ;;;
  assert_valid c rv ;;;
  let trivialLeft := is_nil (bits_of lv) in
  let trivialRight := is_nil (bits_of rv) in
  if trivialLeft && trivialRight then
    a <- abs32 c (sign_of lv) ;; b <- abs32 c (sign_of rv) ;;
    g <- calc_gcd32 a b ;; bi_of_uint32 c g
  else if trivialLeft then
    if negb (sign_of lv =? 0) then
      a <- abs32 c (sign_of lv) ;; g <- calc_gcd_u c (bits_of rv) a ;; bi_of_uint32 c g
    else bi_of_mag_s sc c (bits_of rv) false
  else if trivialRight then
    if negb (sign_of rv =? 0) then
      a <- abs32 c (sign_of rv) ;; g <- calc_gcd_u c (bits_of lv) a ;; bi_of_uint32 c g
    else bi_of_mag_s sc c (bits_of lv) false
  else
    cmp <- calc_compare c (bits_of lv) (bits_of rv) ;;
    if cmp <? 0 then bi_gcd_bits_s fuel sc c (bits_of rv) (bits_of lv)
    else bi_gcd_bits_s fuel sc c (bits_of lv) (bits_of rv).

(** BigInteger.cpp:1572-1615 *)
Definition bi_mod_pow_s (sc : statics) (c : cfg) (value exponent modulus : bigint) : outcome bigint :=
  if sign_of exponent <? 0 then Throw OutOfRange
  else
    assert_valid c value ;;;
    assert_valid c exponent ;;;
    assert_valid c modulus ;;;
    let trivialValue := is_nil (bits_of value) in
    let trivialExponent := is_nil (bits_of exponent) in
    let trivialModulus := is_nil (bits_of modulus) in
    if trivialModulus then
      m <- abs32 c (sign_of modulus) ;;
      bits <-
        (if trivialValue then
           v <- abs32 c (sign_of value) ;;
           if trivialExponent then e <- abs32 c (sign_of exponent) ;; calc_powmod_uuu v e m
           else calc_powmod_uvu v (bits_of exponent) m
         else if trivialExponent then
           e <- abs32 c (sign_of exponent) ;; calc_powmod_vuu c (bits_of value) e m
         else calc_powmod_vvu c (bits_of value) (bits_of exponent) m) ;;
      even <- (if sign_of value <? 0 then bi_is_even c exponent else Ret true) ;;
      bi_of_uint32 c (if negb even then u32 (-1 * bits) else bits)
    else
      bits <-
        (if trivialValue then
           v <- abs32 c (sign_of value) ;;
           if trivialExponent then
             e <- abs32 c (sign_of exponent) ;; calc_powmod_uuv c v e (bits_of modulus)
           else calc_powmod_uvv c v (bits_of exponent) (bits_of modulus)
         else if trivialExponent then
           e <- abs32 c (sign_of exponent) ;;
           calc_powmod_vuv c (bits_of value) e (bits_of modulus)
         else calc_powmod_vvv c (bits_of value) (bits_of exponent) (bits_of modulus)) ;;
      even <- (if sign_of value <? 0 then bi_is_even c exponent else Ret true) ;;
      bi_of_mag_s sc c bits (negb even).

(** BigInteger.cpp:818-826 *)
Fixpoint parse_loop_s (sc : statics) (c : cfg) (s : string) (b : bigint) : outcome bigint :=
  match s with
  | EmptyString => Ret b
  | String ch s =>
      if (48 <=? code ch) && (code ch <=? 57) then
        ten <- bi_of_int32_s sc c 10 ;;
        b <- bi_mul_s sc c b ten ;;
        d <- bi_of_uint32 c (code ch - 48) ;;
        b <- bi_add_s sc c b d ;;
        parse_loop_s sc c s b
      else Ret b
  end.

(** BigInteger.cpp:807-831 *)
Definition bi_parse_s (sc : statics) (c : cfg) (s : string) : outcome bigint :=
  b <- bi_zero_s sc c ;;
  let '(is_negative, rest) :=
    match s with
    | String ch t =>
        if code ch =? 45 then (true, t) else if code ch =? 43 then (false, t) else (false, s)
    | EmptyString => (false, s)
    end in
  b <- parse_loop_s sc c rest b ;;
  if is_negative : bool then bi_neg c b else Ret b.

(** BigInteger.cpp:1693-1755 *)
Definition bi_of_double_s (sc : statics) (c : cfg) (value : Z) : outcome bigint :=
  if negb (double_is_finite value) then Throw OverflowError
  else
    let '(sign, exp, man, fFinite) := get_double_parts value in
    massert c ((sign =? 1) || (sign =? -1)) ;;;
    if man =? 0 then bi_zero_s sc c
    else
    massert c (man <? 9007199254740992) ;;;
    massert c ((exp <=? 0) || (4503599627370496 <=? man)) ;;;
    if exp <=? 0 then
      if exp <=? -64 then bi_zero_s sc c
      else
        m <- shr64 man (- exp) ;;
        b <- bi_of_uint64 c m ;;
        s <- (if sign <? 0 then chk32 c (- sign_of b) else Ret (sign_of b)) ;;
        checked c (Big s (bits_of b))
    else if exp <=? 11 then
      m <- shl64 man exp ;;
      b <- bi_of_uint64 c m ;;
      s <- (if sign <? 0 then chk32 c (- sign_of b) else Ret (sign_of b)) ;;
      checked c (Big s (bits_of b))
    else
      man <- shl64 man 11 ;;
      let exp := exp - 11 in
      let cu := Z.quot (exp - 1) kcbitUint + 1 in
      let cbit := cu * kcbitUint - exp in
      massert c ((0 <=? cbit) && (cbit <? kcbitUint)) ;;;
      massert c (1 <=? cu) ;;;
      let bits := zeros (Z.to_nat (cu + 2)) in
      x <- shr64 man (cbit + kcbitUint) ;;
      bits <- wrz bits (cu + 1) (u32 x) ;;
      x <- shr64 man cbit ;;
      bits <- wrz bits cu (u32 x) ;;
      bits <-
        (if 0 <? cbit then x <- shl32 (u32 man) (kcbitUint - cbit) ;; wrz bits (cu - 1) x
         else Ret bits) ;;
      checked c (Big sign bits).
