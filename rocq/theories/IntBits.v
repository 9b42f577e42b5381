(** to_uint32_array, BigInteger(uint_array) and the bitwise operators of
    src/BigInteger.cpp once more, with the word counts the code keeps in [int]
    wrapped to 32 bits, for numbers of any size. *)
From Verif Require Import Machine BigInt IntSizes.

(** What follows an operation that may not return, or that may throw std::length_error. *)
Definition then_sized {A B : Type} (o : outcome A) (f : A -> sized B) : sized B :=
  match o with
  | Ret a => f a
  | Throw e => Sized (Throw e)
  | Undef u => Sized (Undef u)
  | AssertFail => Sized AssertFail
  | NoFuel => Sized NoFuel
  end.
Definition after_sized {A B : Type} (s : sized A) (f : A -> sized B) : sized B :=
  match s with Sized o => then_sized o f | LengthError => LengthError end.

(** BigInteger::to_uint32_array: BigInteger.cpp:978-1011. [msb] is an int: the
    size less one, wrapped (line 999). The size of [trimmed] (line 1006) is
    computed in int and converted to size_t. *)
Definition bi_to_uint32_array_i (c : cfg) (b : bigint) : sized (list Z) :=
  let sign := sign_of b in let bits := bits_of b in
  if is_nil bits && (sign =? 0) then Sized (Ret [])
  else
    then_sized
      (if is_nil bits then Ret ([u32 sign], if sign <? 0 then UINT_MAX else 0)
       else if sign =? -1 then d <- make_twos_complement bits ;; Ret (d, UINT_MAX)
       else Ret (bits, 0)) (fun '(dwords, highDWord) =>
    let start := s32 (Z.of_nat (length dwords) - 1) in
    then_sized
      (msb <- (if 0 <? start then k <- scan_msb dwords highDWord (Z.to_nat start) ;; Ret (Z.of_nat k)
               else Ret start) ;;
       x <- rdz dwords msb ;;
       Ret (msb, x)) (fun '(msb, x) =>
    let needExtraByte := negb (Z.land x 2147483648 =? Z.land highDWord 2147483648) in
    then_sized
      (n <- chk32 c (msb + 1) ;; chk32 c (n + if needExtraByte then 1 else 0)) (fun size =>
    if size <? 0 then LengthError
    else Sized (
      trimmed <- slice dwords 0 (Z.to_nat msb + 1) ;;
      Ret (if needExtraByte then trimmed ++ [highDWord] else trimmed))))).

(** BigInteger::BigInteger(uint_array) (two's complement): BigInteger.cpp:254-327.
    dwordCount and len are ints; a count that is not positive is left as it is. *)
Definition trim_len_i (value : list Z) (len : Z) : outcome Z :=
  if 0 <? len then k <- trim_len value (Z.to_nat len) ;; Ret (Z.of_nat k) else Ret len.
Definition bi_of_dwords_i (c : cfg) (value : list Z) : outcome bigint :=
  let size := s32 (Z.of_nat (length value)) in
  isNegative <-
    (if 0 <? size
     then top <- rdz value (size - 1) ;; Ret (Z.land top 2147483648 =? 2147483648)
     else Ret false) ;;
  dwordCount <- trim_len_i value size ;;
  if dwordCount =? 0 then checked c s_bnZeroInt
  else if dwordCount =? 1 then
    v0 <- rd value 0 ;;
    if (s32 v0 <? 0) && negb isNegative then checked c (Big 1 [v0])
    else if INT_MIN =? s32 v0 then checked c s_bnMinInt
    else checked c (Big (s32 v0) [])
  else if negb isNegative then
    (if negb (dwordCount =? size)
     then checked c (Big 1 (firstn (Z.to_nat dwordCount) value))
     else checked c (Big 1 value))
  else
    value <- make_twos_complement value ;;
    len <- trim_len_i value (s32 (Z.of_nat (length value))) ;;
    v0 <- rd value 0 ;;
    if (len =? 1) && (0 <? s32 v0) then
      if v0 =? 1 then checked c s_bnMinusOneInt
      else if v0 =? kuMaskHighBit then checked c s_bnMinInt
      else checked c (Big (-1 * s32 v0) [])
    else if negb (len =? s32 (Z.of_nat (length value))) then checked c (Big (-1) (firstn (Z.to_nat len) value))
    else checked c (Big (-1) value).

(** The word loop shared by ^=, &= and |=: BigInteger.cpp:1025-1037,
    1120-1131, 1175-1186; its counter and bounds are size_t. *)
Definition bi_bitop_words_i (c : cfg) (op : Z -> Z -> Z) (lhs rhs : bigint) : sized bigint :=
  after_sized (bi_to_uint32_array_i c lhs) (fun x =>
  after_sized (bi_to_uint32_array_i c rhs) (fun y =>
  Sized (
    let z := zeros (Nat.max (length x) (length y)) in
    let xExtend := if sign_of lhs <? 0 then UINT_MAX else 0 in
    let yExtend := if sign_of rhs <? 0 then UINT_MAX else 0 in
    z <-
      for_up (length z) 0 (fun i z =>
        xu <- (if Nat.ltb i (length x) then rd x i else Ret xExtend) ;;
        yu <- (if Nat.ltb i (length y) then rd y i else Ret yExtend) ;;
        wr z i (op xu yu)) z ;;
    bi_of_dwords_i c z))).

(** BigInteger::operator^=: BigInteger.cpp:1018-1039 *)
Definition bi_xor_i (c : cfg) (lhs rhs : bigint) : sized bigint :=
  if is_nil (bits_of lhs) && is_nil (bits_of rhs)
  then Sized (bi_of_int32 c (Z.lxor (sign_of lhs) (sign_of rhs)))
  else bi_bitop_words_i c Z.lxor lhs rhs.

(** BigInteger::operator&=: BigInteger.cpp:1108-1133 *)
Definition bi_and_i (c : cfg) (lhs rhs : bigint) : sized bigint :=
  then_sized (zl <- bi_is_zero c lhs ;; if zl : bool then Ret true else bi_is_zero c rhs) (fun zr =>
  if zr : bool then Sized (bi_zero c)
  else if is_nil (bits_of lhs) && is_nil (bits_of rhs)
  then Sized (bi_of_int32 c (Z.land (sign_of lhs) (sign_of rhs)))
  else bi_bitop_words_i c Z.land lhs rhs).

(** BigInteger::operator|=: BigInteger.cpp:1160-1188 *)
Definition bi_or_i (c : cfg) (lhs rhs : bigint) : sized bigint :=
  then_sized (bi_is_zero c lhs) (fun zl =>
  if zl : bool then Sized (Ret rhs)
  else then_sized (bi_is_zero c rhs) (fun zr =>
  if zr : bool then Sized (Ret lhs)
  else if is_nil (bits_of lhs) && is_nil (bits_of rhs)
  then Sized (bi_of_int32 c (Z.lor (sign_of lhs) (sign_of rhs)))
  else bi_bitop_words_i c Z.lor lhs rhs)).
