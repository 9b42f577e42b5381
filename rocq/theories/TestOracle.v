(** Model of the reference implementation the project's own tests compare the
    library with: tests/MyBigInt.cpp and tests/BitArray.cpp. It computes on
    byte_array (std::vector<unsigned char>, little-endian two's complement).
    Not modelled: the three branches that take logarithms (parameter [lg]),
    ApproximateBigInteger, and the random generators. *)
From Coq Require Import String.
From Verif Require Import Machine BigInt BigIntBytes.

(** (bytes[bytes.size() - 1] & 0x80) != 0 *)
Definition top_set (l : list Z) : outcome bool :=
  t <- rd l (length l - 1) ;; Ret (negb (Z.land t 128 =? 0)).

(** MyBigIntImp::NormalizeLengths: MyBigInt.cpp:539-566. The two while loops
    push the same byte until the sizes agree. *)
Definition ref_normalize (bytes1 bytes2 : list Z) : outcome (list Z * list Z) :=
  num1neg <- top_set bytes1 ;;
  num2neg <- top_set bytes2 ;;
  let '(bytes1, extender) :=
    if Nat.ltb (length bytes1) (length bytes2) then
      let extender := if num1neg : bool then 255 else 0 in
      (bytes1 ++ repeat extender (length bytes2 - length bytes1), extender)
    else (bytes1, 0) in
  let bytes2 :=
    if Nat.ltb (length bytes2) (length bytes1) then
      let extender := if num2neg : bool then 255 else extender in
      bytes2 ++ repeat extender (length bytes1 - length bytes2)
    else bytes2 in
  Ret (bytes1, bytes2).

(** temp, with the carry in and out: MyBigInt.cpp:436-447 and 509-521 *)
Definition carry_out (temp : Z) (carry : bool) : Z * bool :=
  let temp := if carry then temp + 1 else temp in
  if 255 <? temp then (temp - 256, true) else (temp, false).

(** MyBigIntImp::Add: MyBigInt.cpp:495-537 *)
Definition ref_add (bytes1 bytes2 : list Z) : outcome (list Z) :=
  num1neg <- top_set bytes1 ;;
  num2neg <- top_set bytes2 ;;
  '(bytes1, bytes2) <- ref_normalize bytes1 bytes2 ;;
  '(bnew, _) <-
    for_up (length bytes1) 0 (fun i st =>
      let '(bnew, carry) := st in
      x <- rd bytes1 i ;;
      y <- rd bytes2 i ;;
      let '(temp, carry) := carry_out (x + y) carry in
      Ret (bnew ++ [u8 temp], carry)) ([], false) ;;
  bnewneg <- top_set bnew ;;
  if Bool.eqb num1neg num2neg && negb (Bool.eqb num1neg bnewneg)
  then Ret (bnew ++ [if num1neg then 255 else 0]) else Ret bnew.

(** MyBigIntImp::Negate: MyBigInt.cpp:423-463. The first loop, in place, is a map. *)
Definition ref_negate (bytes : list Z) : outcome (list Z) :=
  let bytes := map (fun b => Z.lxor b 255) bytes in
  '(bnew, _) <-
    for_up (length bytes) 0 (fun i st =>
      let '(bnew, carry) := st in
      x <- rd bytes i ;;
      let '(temp, carry) := carry_out ((if Nat.eqb i 0 then 1 else 0) + x) carry in
      Ret (bnew ++ [u8 temp], carry)) ([], false) ;;
  t <- rd bnew (length bnew - 1) ;;
  let bsame := negb (Z.land t 128 =? 0) && (Z.land t 127 =? 0) in
  bsame <-
    for_down (length bnew - 1) (fun i bsame => x <- rd bnew i ;; Ret (bsame && (x =? 0))) bsame ;;
  Ret (if bsame : bool then bnew ++ [0] else bnew).

(** MyBigIntImp::Trim: MyBigInt.cpp:465-493; [n] is an upper bound on the rounds. *)
Fixpoint ref_trim_loop (n : nat) (bytes : list Z) : outcome (list Z) :=
  match n with
  | O => Ret bytes
  | S n =>
      if Nat.ltb 1 (length bytes) then
        t <- rd bytes (length bytes - 1) ;;
        u <- rd bytes (length bytes - 2) ;;
        if Z.land t 128 =? 0 then
          if (t =? 0) && (Z.land u 128 =? 0) then ref_trim_loop n (firstn (length bytes - 1) bytes)
          else Ret bytes
        else
          if (t =? 255) && negb (Z.land u 128 =? 0) then ref_trim_loop n (firstn (length bytes - 1) bytes)
          else Ret bytes
      else Ret bytes
  end.
Definition ref_trim (bytes : list Z) : outcome (list Z) := ref_trim_loop (length bytes) bytes.

(** MyBigIntImp::ShiftRight: MyBigInt.cpp:199-211 *)
Definition ref_shift_right (bytes : list Z) : outcome (list Z) :=
  let n := length bytes in
  for_up n 0 (fun i bresult =>
    b <- rd bytes i ;;
    let newbyte := b / 2 in
    newbyte <-
      (if negb (Nat.eqb i (n - 1)) then
         x <- rd bytes (i + 1) ;; Ret (if Z.land x 1 =? 1 then u8 (newbyte + 128) else newbyte)
       else Ret newbyte) ;;
    newbyte <-
      (if Nat.eqb i (n - 1) then
         t <- rd bytes (n - 1) ;; Ret (if negb (Z.land t 128 =? 0) then u8 (newbyte + 128) else newbyte)
       else Ret newbyte) ;;
    Ret (bresult ++ [newbyte])) [].

(** MyBigIntImp::ShiftLeftDrop: MyBigInt.cpp:792-814; also the loop of
    ShiftLeftGrow: 214-223 *)
Definition ref_shift_drop (bytes : list Z) : outcome (list Z) :=
  for_up (length bytes) 0 (fun i bresult =>
    newbyte <- rd bytes i ;;
    let newbyte := if 127 <? newbyte then newbyte - 128 else newbyte in
    let newbyte := u8 (newbyte * 2) in
    newbyte <-
      (if negb (Nat.eqb i 0) then
         x <- rd bytes (i - 1) ;; Ret (if 128 <=? x then u8 (newbyte + 1) else newbyte)
       else Ret newbyte) ;;
    Ret (bresult ++ [newbyte])) [].

(** MyBigIntImp::ShiftLeftGrow: MyBigInt.cpp:213-233 *)
Definition ref_shift_grow (bytes : list Z) : outcome (list Z) :=
  bresult <- ref_shift_drop bytes ;;
  t <- rd bytes (length bytes - 1) ;;
  let bresult := if (63 <? t) && (t <? 128) then bresult ++ [0] else bresult in
  let bresult := if (127 <? t) && (t <? 192) then bresult ++ [255] else bresult in
  Ret bresult.

(** Bit [i] of a vector of bitset<8>. *)
Definition bitset_at (bs : list Z) (idx : nat) : outcome bool :=
  w <- rd bs (Nat.div idx 8) ;; Ret (Z.testbit w (Z.of_nat (Nat.modulo idx 8))).

(** BitArray::operator[]: BitArray.cpp:19-25. [bs]: one number per bitset<8>;
    [size]: the member _size. idx is never negative here. *)
Definition bits_get (bs : list Z) (size : nat) (idx : nat) : outcome bool :=
  if Nat.leb size idx then Throw OutOfRange else bitset_at bs idx.

(** BitArray::set(idx, true): BitArray.cpp:27-33 *)
Definition bits_set (bs : list Z) (size : nat) (idx : nat) : outcome (list Z) :=
  if Nat.leb size idx then Throw OutOfRange
  else
    w <- rd bs (Nat.div idx 8) ;;
    wr bs (Nat.div idx 8) (Z.setbit w (Z.of_nat (Nat.modulo idx 8))).

(** The index of the highest set bit, 0 if there is none, of BitArray{bytes}:
    MyBigInt.cpp:262-270, 272-280, 363-371, 372-380, 718-725, 838-845. The
    constructor (BitArray.cpp:4-8) copies the bytes. *)
Fixpoint top_bit (bytes : list Z) (n : nat) : outcome nat :=
  match n with
  | O => Ret O
  | S n =>
      b <- bits_get bytes (8 * length bytes) n ;;
      if b : bool then Ret n else top_bit bytes n
  end.
Definition last_one (bytes : list Z) : outcome nat := top_bit bytes (8 * length bytes).

(** MyBigIntImp::GetBytes: MyBigInt.cpp:321-344 *)
Definition ref_get_bytes (bs : list Z) (size : nat) : outcome (list Z) :=
  for_down (Nat.div size 8 + 1) (fun i mask =>
    for_down 8 (fun j mask =>
      mask <- ref_shift_grow mask ;;
      one <- (if Nat.ltb (8 * i + j) size then bits_get bs size (8 * i + j) else Ret false) ;;
      if one : bool then m0 <- rd mask 0 ;; wr mask 0 (Z.lor m0 1) else Ret mask) mask) [0].

(** The absolute values, trimmed: MyBigInt.cpp:242-257, 347-359, 684-697.
    Returns (numPos, denPos, bytes1, bytes2). *)
Definition ref_operands (bytes1 bytes2 : list Z) : outcome (bool * bool * list Z * list Z) :=
  n1 <- top_set bytes1 ;;
  n2 <- top_set bytes2 ;;
  bytes1 <- (if n1 : bool then ref_negate bytes1 else Ret bytes1) ;;
  bytes2 <- (if n2 : bool then ref_negate bytes2 else Ret bytes2) ;;
  bytes1 <- ref_trim bytes1 ;;
  bytes2 <- ref_trim bytes2 ;;
  Ret (negb n1, negb n2, bytes1, bytes2).

(** for (i = 0; i < shift; i++) bytes2 = ShiftLeftGrow(bytes2): MyBigInt.cpp:290-293, 392-395 *)
Definition ref_grow_by (shift : nat) (bytes : list Z) : outcome (list Z) :=
  for_up shift 0 (fun _ b => ref_shift_grow b) bytes.

(** while (shift >= 0): MyBigInt.cpp:295-310, 397-412; [n] is shift + 1 before
    the loop. Returns (bytes1, br). *)
Definition ref_subtract_loop (n : nat) (bytes1 bytes2 br : list Z) : outcome (list Z * list Z) :=
  '(bytes1, _, br) <-
    for_down n (fun shift st =>
      let '(bytes1, bytes2, br) := st in
      bytes2 <- ref_negate bytes2 ;;
      bytes1 <- ref_add bytes1 bytes2 ;;
      bytes2 <- ref_negate bytes2 ;;
      t <- rd bytes1 (length bytes1 - 1) ;;
      '(bytes1, br) <-
        (if t <? 128 then br <- bits_set br n shift ;; Ret (bytes1, br)
         else bytes1 <- ref_add bytes1 bytes2 ;; Ret (bytes1, br)) ;;
      bytes2 <- ref_shift_right bytes2 ;;
      Ret (bytes1, bytes2, br)) (bytes1, bytes2, br) ;;
  Ret (bytes1, br).

(** MyBigIntImp::Divide: MyBigInt.cpp:241-319. BitArray br{shift + 1, false}:
    BitArray.cpp:10-17. *)
Definition ref_divide (bytes1 bytes2 : list Z) : outcome (list Z) :=
  '(numPos, denPos, bytes1, bytes2) <- ref_operands bytes1 bytes2 ;;
  let qPos := Bool.eqb numPos denPos in
  ba11loc <- last_one bytes1 ;;
  ba21loc <- last_one bytes2 ;;
  if Nat.ltb ba11loc ba21loc then Ret [0]
  else
    let shift := (ba11loc - ba21loc)%nat in
    let size := (shift + 1)%nat in
    bytes2 <- ref_grow_by shift bytes2 ;;
    '(_, br) <- ref_subtract_loop size bytes1 bytes2 (zeros (Nat.div size 8 + 1)) ;;
    result <- ref_get_bytes br size ;;
    if negb qPos then ref_negate result else Ret result.

(** MyBigIntImp::Remainder: MyBigInt.cpp:346-421 *)
Definition ref_remainder (bytes1 bytes2 : list Z) : outcome (list Z) :=
  '(numPos, _, bytes1, bytes2) <- ref_operands bytes1 bytes2 ;;
  ba11loc <- last_one bytes1 ;;
  ba21loc <- last_one bytes2 ;;
  bytes1 <-
    (if Nat.ltb ba11loc ba21loc then Ret bytes1
     else
       let shift := (ba11loc - ba21loc)%nat in
       let size := (shift + 1)%nat in
       bytes2 <- ref_grow_by shift bytes2 ;;
       '(bytes1, _) <- ref_subtract_loop size bytes1 bytes2 (zeros (Nat.div size 8 + 1)) ;;
       Ret bytes1) ;;
  if negb numPos then ref_negate bytes1 else Ret bytes1.

(** MyBigIntImp::IsZero: MyBigInt.cpp:615-620 *)
Definition ref_is_zero (l : list Z) : bool := forallb (fun b => b =? 0) l.

(** MyBigIntImp::Max: MyBigInt.cpp:622-646 *)
Definition ref_max (bytes1 bytes2 : list Z) : outcome (list Z) :=
  n1 <- top_set bytes1 ;;
  n2 <- top_set bytes2 ;;
  if negb (Bool.eqb n1 n2) then Ret (if n1 then bytes2 else bytes1)
  else
    m <- ref_negate bytes2 ;;
    sum <- ref_add bytes1 m ;;
    n <- top_set sum ;;
    Ret (if n : bool then bytes2 else bytes1).

(** MyBigIntImp::Not: MyBigInt.cpp:648-655 *)
Definition ref_not (bytes : list Z) : outcome (list Z) := Ret (map (fun b => u8 (Z.lxor b 255)) bytes).

(** MyBigIntImp::Or, And, Xor: MyBigInt.cpp:657-667, 669-679, 751-760 *)
Definition ref_bitwise (f : Z -> Z -> Z) (bytes1 bytes2 : list Z) : outcome (list Z) :=
  '(bytes1, bytes2) <- ref_normalize bytes1 bytes2 ;;
  for_up (length bytes1) 0 (fun i bnew =>
    x <- rd bytes1 i ;; y <- rd bytes2 i ;; Ret (bnew ++ [u8 (f x y)])) [].
Definition ref_or := ref_bitwise Z.lor.
Definition ref_and := ref_bitwise Z.land.
Definition ref_xor := ref_bitwise Z.lxor.

(** MyBigIntImp::GCD: MyBigInt.cpp:681-706. The while loop is given as many
    rounds as it can need. *)
Definition ref_gcd (bytes1 bytes2 : list Z) : outcome (list Z) :=
  '(_, _, bytes1, bytes2) <- ref_operands bytes1 bytes2 ;;
  '(bytes1, _) <-
    while_fuel (16 * length bytes2 + 2) (fun st => negb (ref_is_zero (snd st)))
      (fun st => r <- ref_remainder (fst st) (snd st) ;; Ret (snd st, r)) (bytes1, bytes2) ;;
  Ret bytes1.

(** MyBigIntImp::SetLength: MyBigInt.cpp:816-825 *)
Definition ref_set_length (bytes : list Z) (size : nat) : outcome (list Z) :=
  for_up size 0 (fun i bresult => x <- rd bytes i ;; Ret (bresult ++ [x])) [].

(** MyBigIntImp::Multiply: MyBigInt.cpp:762-790 *)
Definition ref_multiply (bytes1 bytes2 : list Z) : outcome (list Z) :=
  '(bytes1, bytes2) <- ref_normalize bytes1 bytes2 ;;
  let bresult := zeros (2 * length bytes1) in
  '(bytes2, bresult) <- ref_normalize bytes2 bresult ;;
  '(bytes1, bresult) <- ref_normalize bytes1 bresult ;;
  bresult <-
    for_down (8 * length bytes2) (fun i bresult =>
      one <- bits_get bytes2 (8 * length bytes2) i ;;
      bresult <- (if one : bool then ref_add bytes1 bresult else Ret bresult) ;;
      if negb (Nat.eqb i 0) then ref_shift_drop bresult else Ret bresult) bresult ;;
  ref_set_length bresult (length bytes2).

(** The square-and-multiply loop: MyBigInt.cpp:727-747 (Pow, [reduce] = Ret) and
    848-869 (ModPow, [reduce] = Remainder by bytes3). Returns (bytes1, result). *)
Definition ref_power_loop (reduce : list Z -> outcome (list Z)) (exponent : list Z) (last1 : nat)
    (bytes1 : list Z) : outcome (list Z * list Z) :=
  for_up (last1 + 1) 0 (fun i st =>
    let '(bytes1, result) := st in
    one <- bits_get exponent (8 * length exponent) i ;;
    '(bytes1, result) <-
      (if one : bool then
         result <-
           (if is_nil result then Ret bytes1
            else r <- ref_multiply result bytes1 ;; reduce r) ;;
         bytes1 <- ref_trim bytes1 ;;
         result <- ref_trim result ;;
         Ret (bytes1, result)
       else Ret (bytes1, result)) ;;
    if negb (Nat.eqb i last1) then
      b <- ref_multiply bytes1 bytes1 ;;
      b <- reduce b ;;
      bytes1 <- ref_trim b ;;
      Ret (bytes1, result)
    else Ret (bytes1, result)) (bytes1, []).

(** MyBigIntImp::Pow: MyBigInt.cpp:708-749 *)
Definition ref_pow (bytes1 bytes2 : list Z) : outcome (list Z) :=
  if ref_is_zero bytes2 then Ret [1]
  else
    last1 <- last_one bytes2 ;;
    '(_, result) <- ref_power_loop Ret bytes2 last1 bytes1 ;;
    Ret (if is_nil result then [1] else result).

(** MyBigIntImp::ModPow: MyBigInt.cpp:827-871 *)
Definition ref_mod_pow (bytes1 bytes2 bytes3 : list Z) : outcome (list Z) :=
  if ref_is_zero bytes2 then ref_remainder [1] bytes3
  else
    last1 <- last_one bytes2 ;;
    bytes1 <- ref_remainder bytes1 bytes3 ;;
    '(_, result) <- ref_power_loop (fun r => ref_remainder r bytes3) bytes2 last1 bytes1 ;;
    if is_nil result then ref_remainder [1] bytes3 else Ret result.

(** MyBigIntImp::ShiftLeft: MyBigInt.cpp:161-197. The comparison of byteShift
    with bytes1.size() is one of size_t values. *)
Definition ref_shift_left (c : cfg) (bytes1 bytes2 : list Z) : outcome (list Z) :=
  q <- ref_divide bytes2 [8] ;;
  q <- bi_of_bytes c q false false ;;
  byteShift <- bi_to_int c q ;;
  r <- ref_remainder bytes2 [8] ;;
  r <- bi_of_bytes c r false false ;;
  r <- bi_to_int c r ;;
  let bitShift := u8 (r + 128) - 128 in
  bytes1 <-
    for_up (Z.to_nat (Z.abs bitShift)) 0 (fun _ b =>
      if bitShift <? 0 then ref_shift_right b else ref_shift_grow b) bytes1 ;;
  if byteShift <? 0 then
    byteShift <- chk32 c (- byteShift) ;;
    if Z.of_nat (length bytes1) <=? u64 byteShift then
      n <- top_set bytes1 ;; Ret [if n : bool then 255 else 0]
    else Ret (skipn (Z.to_nat (u64 byteShift)) bytes1)
  else Ret (zeros (Z.to_nat byteShift) ++ bytes1).

(** Which operators take logarithms. *)
Definition log_op (op : string) : bool :=
  (op =? "uLog10")%string || (op =? "uLog")%string || (op =? "bLog")%string.

(** BigInteger(bytes) *)
Definition of_ref (c : cfg) (o : outcome (list Z)) : outcome bigint :=
  b <- o ;; bi_of_bytes c b false false.

(** MyBigIntImp::DoUnaryOperatorMine: MyBigInt.cpp:20-95. [op == "uMultiply" ||
    "u*"] is always true, so the last branch is never taken. *)
Definition mine_unary (c : cfg) (lg : string -> bigint -> outcome bigint) (num1 : bigint) (op : string)
    : outcome bigint :=
  bytes1 <- bi_to_bytes c num1 false false ;;
  if (op =? "uSign")%string then
    if ref_is_zero bytes1 then bi_of_int32 c 0
    else
      tmp <- ref_max bytes1 [0] ;;
      if ref_is_zero tmp then bi_of_int32 c (-1) else bi_of_int32 c 1
  else if (op =? "u~")%string then of_ref c (ref_not bytes1)
  else if (op =? "uLog10")%string || (op =? "uLog")%string then lg op num1
  else if (op =? "uAbs")%string then
    n <- top_set bytes1 ;;
    of_ref c (if n : bool then ref_negate bytes1 else Ret bytes1)
  else if (op =? "u--")%string then of_ref c (ref_add bytes1 [255])
  else if (op =? "u++")%string then of_ref c (ref_add bytes1 [1])
  else if (op =? "uNegate")%string || (op =? "u-")%string then of_ref c (ref_negate bytes1)
  else if (op =? "u+")%string then Ret num1
  else of_ref c (ref_multiply bytes1 bytes1).

(** MyBigIntImp::DoBinaryOperatorMine: MyBigInt.cpp:112-159. Returns the result
    and *num3. *)
Definition mine_binary (c : cfg) (lg : string -> bigint -> bigint -> outcome bigint)
    (num1 num2 : bigint) (op : string) : outcome (bigint * bigint) :=
  bytes1 <- bi_to_bytes c num1 false false ;;
  bytes2 <- bi_to_bytes c num2 false false ;;
  zero <- bi_of_int32 c 0 ;;
  if (op =? "bDivRem")%string then
    ret <- of_ref c (ref_divide bytes1 bytes2) ;;
    num3 <- of_ref c (ref_remainder bytes1 bytes2) ;;
    Ret (ret, num3)
  else
    r <-
      (if (op =? "bMin")%string then
         of_ref c (n1 <- ref_negate bytes1 ;; n2 <- ref_negate bytes2 ;; m <- ref_max n1 n2 ;; ref_negate m)
       else if (op =? "bMax")%string then of_ref c (ref_max bytes1 bytes2)
       else if (op =? "b>>")%string then of_ref c (n <- ref_negate bytes2 ;; ref_shift_left c bytes1 n)
       else if (op =? "b<<")%string then of_ref c (ref_shift_left c bytes1 bytes2)
       else if (op =? "b^")%string then of_ref c (ref_xor bytes1 bytes2)
       else if (op =? "b|")%string then of_ref c (ref_or bytes1 bytes2)
       else if (op =? "b&")%string then of_ref c (ref_and bytes1 bytes2)
       else if (op =? "bLog")%string then lg op num1 num2
       else if (op =? "bGCD")%string then of_ref c (ref_gcd bytes1 bytes2)
       else if (op =? "bPow")%string then
         arg2 <- bi_to_int c num2 ;;
         b <- bi_of_int32 c arg2 ;;
         bytes2 <- bi_to_bytes c b false false ;;
         of_ref c (ref_pow bytes1 bytes2)
       else if (op =? "bRemainder")%string || (op =? "b%")%string then of_ref c (ref_remainder bytes1 bytes2)
       else if (op =? "bDivide")%string || (op =? "b/")%string then of_ref c (ref_divide bytes1 bytes2)
       else if (op =? "bMultiply")%string || (op =? "b*")%string then of_ref c (ref_multiply bytes1 bytes2)
       else if (op =? "bSubtract")%string || (op =? "b-")%string then
         of_ref c (n <- ref_negate bytes2 ;; ref_add bytes1 n)
       else if (op =? "bAdd")%string || (op =? "b+")%string then of_ref c (ref_add bytes1 bytes2)
       else Throw InvalidArgument) ;;
    Ret (r, zero).

(** MyBigIntImp::DoTertanaryOperatorMine: MyBigInt.cpp:97-105 *)
Definition mine_ternary (c : cfg) (num1 num2 num3 : bigint) (op : string) : outcome bigint :=
  bytes1 <- bi_to_bytes c num1 false false ;;
  bytes2 <- bi_to_bytes c num2 false false ;;
  bytes3 <- bi_to_bytes c num3 false false ;;
  if (op =? "tModPow")%string then of_ref c (ref_mod_pow bytes1 bytes2 bytes3)
  else Throw InvalidArgument.
