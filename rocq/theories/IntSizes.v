(** The byte conversions of src/BigInteger.cpp once more, with the lengths the
    code keeps in [int] wrapped to 32 bits. BigIntBytes.v takes those lengths as
    exact, which is right below 2^31 bytes; here arrays have any length. *)
From Verif Require Import Machine BigInt BigIntBytes.

(** Allocation: [std::vector<uint8_t>(n)] throws std::length_error when [n] exceeds
    max_size(), which is 2^63 - 1 in libstdc++ and libc++. (That an allocation
    below that bound succeeds is still assumed.) *)
Inductive sized (A : Type) :=
| Sized (o : outcome A)
| LengthError.
Arguments Sized {A} o.
Arguments LengthError {A}.

(** Copying whole words in the byte-array constructor, BigInteger.cpp:164-188,
    with curByte an int. *)
Definition full_words_i (c : cfg) (value : list Z) (byteCount : Z) (dwordCount full : nat)
    (isBigEndian : bool) : outcome (list Z * Z) :=
  if isBigEndian then
    for_up full 0 (fun curDword st =>
      let '(val, curByte) := st in
      '(val, curByte) <-
        for_up 4 0 (fun _ st =>
          let '(val, curByte) := st in
          v <- rdz value curByte ;;
          x <- rd val curDword ;;
          val <- wr val curDword (Z.lor (u32 (Z.shiftl x 8)) v) ;;
          curByte <- chk32 c (curByte + 1) ;;
          Ret (val, curByte)) (val, curByte) ;;
      curByte <- chk32 c (curByte - 8) ;;
      Ret (val, curByte))
      (* byteCount - sizeof(int) is computed in size_t *)
      (zeros dwordCount, s32 (u64 (u64 byteCount - 4)))
  else
    for_up full 0 (fun curDword st =>
      let '(val, curByte) := st in
      '(val, curByte) <-
        for_up 4 0 (fun _ st =>
          let '(val, curByte) := st in
          v <- rdz value curByte ;;
          x <- rd val curDword ;;
          val <- wr val curDword (Z.lor (u32 (Z.shiftl x 8)) v) ;;
          curByte <- chk32 c (curByte - 1) ;;
          Ret (val, curByte)) (val, curByte) ;;
      curByte <- chk32 c (curByte + 8) ;;
      Ret (val, curByte))
      (zeros dwordCount, 3).

(** The partial last word, BigInteger.cpp:191-207. *)
Definition top_word_i (value val : list Z) (byteCount unalignedBytes full : nat)
    (isBigEndian : bool) : outcome (list Z) :=
  if isBigEndian then
    for_up unalignedBytes 0 (fun curByte val =>
      v <- rd value curByte ;;
      x <- rd val full ;;
      wr val full (Z.lor (u32 (Z.shiftl x 8)) v)) val
  else
    for_down unalignedBytes (fun k val =>
      v <- rd value (byteCount - unalignedBytes + k) ;;
      x <- rd val full ;;
      wr val full (Z.lor (u32 (Z.shiftl x 8)) v)) val.

(** From the words to the number, BigInteger.cpp:209-250. *)
Definition finish_big_i (c : cfg) (val : list Z) (isNegative : bool) : outcome bigint :=
  if isNegative then
    val <- make_twos_complement val ;;
    len <- trim_len val (length val) ;;
    v0 <- (if Nat.eqb len 1 then rd val 0 else Ret 0) ;;
    if Nat.eqb len 1 && (v0 =? 1) then Ret s_bnMinusOneInt
    else if Nat.eqb len 1 && (v0 =? kuMaskHighBit) then Ret s_bnMinInt
    else if Nat.eqb len 1 && (0 <? s32 v0) then checked c (Big (-1 * s32 v0) [])
    else if negb (Nat.eqb len (length val)) then checked c (Big (-1) (firstn len val))
    else checked c (Big (-1) val)
  else checked c (Big 1 val).

(** BigInteger::BigInteger(byte_array, bool, bool): BigInteger.cpp:93-252. byteCount
    is an int: [value.size()] is converted to it at lines 94 and 111. *)
Definition bi_of_bytes_i (c : cfg) (value : list Z) (isUnsigned isBigEndian : bool)
    : outcome bigint :=
  let byteCount := s32 (Z.of_nat (length value)) in
  '(value, byteCount, isNegative) <-
    (if 0 <? byteCount then
       msb <- (if isBigEndian then rd value 0 else rdz value (byteCount - 1)) ;;
       let isNegative := negb (Z.land msb 128 =? 0) && negb isUnsigned in
       if msb =? 0 then
         if isBigEndian then
           offset <- be_skip value (Z.to_nat byteCount - 1) 1 ;;
           let value := skipn offset value in
           Ret (value, s32 (Z.of_nat (length value)), isNegative)
         else
           n <- trim_len value (Z.to_nat byteCount - 1) ;;
           Ret (value, Z.of_nat n, isNegative)
       else Ret (value, byteCount, isNegative)
     else Ret (value, byteCount, false)) ;;
  if byteCount =? 0 then checked c (Big 0 [])
  else if byteCount <=? 4 then
    let sign := if isNegative : bool then -1 else 0 in
    sign <-
      (if isBigEndian then
         for_up (Z.to_nat byteCount) 0 (fun i sign =>
           s <- shl8_int c sign ;; v <- rd value i ;; Ret (Z.lor s v)) sign
       else
         (* for (int i = byteCount - 1; i >= 0; i--) *)
         i <- chk32 c (byteCount - 1) ;;
         for_down (Z.to_nat (i + 1)) (fun i sign =>
           s <- shl8_int c sign ;; v <- rd value i ;; Ret (Z.lor s v)) sign) ;;
    let this := if (sign <? 0) && negb isNegative then Big 1 [u32 sign] else Big sign [] in
    let this := if sign_of this =? INT_MIN then s_bnMinInt else this in
    checked c this
  else
    let n := Z.to_nat byteCount in
    let unalignedBytes := Nat.modulo n 4 in
    let dwordCount := (Nat.div n 4 + (if Nat.eqb unalignedBytes 0 then 0 else 1))%nat in
    let full := (dwordCount - (if Nat.eqb unalignedBytes 0 then 0 else 1))%nat in
    '(val, _) <- full_words_i c value byteCount dwordCount full isBigEndian ;;
    val <-
      (if Nat.eqb unalignedBytes 0 then Ret val
       else
         val <- (if isNegative then wr val (dwordCount - 1) UINT_MAX else Ret val) ;;
         top_word_i value val n unalignedBytes full isBigEndian) ;;
    finish_big_i c val isNegative.

(** The whole words written by to_byte_array, BigInteger.cpp:1345-1365, with
    curByte an int. *)
Definition put_words_i (c : cfg) (sign : Z) (bits : list Z) (nonZeroDwordIndex : nat)
    (increment : Z) (dest : list Z) (curByte : Z) : outcome (list Z * Z) :=
  for_up (length bits - 1) 0 (fun i st =>
    let '(dest, curByte) := st in
    dword <- rd bits i ;;
    let dword :=
      if sign =? -1 then
        let dword := not32 dword in
        if Nat.leb i nonZeroDwordIndex then u32 (dword + 1) else dword
      else dword in
    dest <- wrz dest curByte (u8 dword) ;;
    curByte <- chk32 c (curByte + increment) ;;
    dest <- wrz dest curByte (u8 (Z.shiftr dword 8)) ;;
    curByte <- chk32 c (curByte + increment) ;;
    dest <- wrz dest curByte (u8 (Z.shiftr dword 16)) ;;
    curByte <- chk32 c (curByte + increment) ;;
    dest <- wrz dest curByte (u8 (Z.shiftr dword 24)) ;;
    curByte <- chk32 c (curByte + increment) ;;
    Ret (dest, curByte)) (dest, curByte).

(** BigInteger::to_byte_array (four-argument overload): BigInteger.cpp:1257-1393.
    Line 1328, [length = 4 * (bits.size() - 1) + length], is computed in size_t and
    converted to int; at line 1337 that int is converted to the size of a vector. *)
Definition bi_to_bytes_mode_i (c : cfg) (mode : bytes_mode) (b : bigint)
    (isUnsigned isBigEndian : bool) : sized (list Z * Z) :=
  let sign := sign_of b in let bits := bits_of b in
  if sign =? 0 then
    match mode with
    | CountOnly => Sized (Ret ([], 1))
    | AllocateArray => Sized (Ret ([0], 1))
    end
  else if isUnsigned && (sign <? 0) then Sized (Throw RuntimeError)
  else
    match bytes_head c sign bits with
    | Ret (highByte, nonZeroDwordIndex, highDword) =>
        let '(msb, msbIndex) := bytes_msb highByte highDword in
        let needExtraByte :=
          negb (Z.land msb 128 =? Z.land highByte 128) && negb isUnsigned in
        let len := Z.of_nat msbIndex + 1 + (if needExtraByte then 1 else 0) in
        let len :=
          if is_nil bits then len else s32 (u64 (4 * (Z.of_nat (length bits) - 1) + len)) in
        match mode with
        | CountOnly => Sized (Ret ([], len))
        | AllocateArray =>
            (* byte_array(length) *)
            if LONG_MAX <? u64 len then LengthError
            else Sized (
              let dest := zeros (Z.to_nat (u64 len)) in
              curByte <- (if isBigEndian then chk32 c (len - 1) else Ret 0) ;;
              let increment := if isBigEndian then -1 else 1 in
              '(dest, curByte) <-
                (if is_nil bits then Ret (dest, curByte)
                 else put_words_i c sign bits nonZeroDwordIndex increment dest curByte) ;;
              dest <- wrz dest curByte (u8 highDword) ;;
              '(dest, curByte) <-
                (if Nat.eqb msbIndex 0 then Ret (dest, curByte)
                 else
                   curByte <- chk32 c (curByte + increment) ;;
                   dest <- wrz dest curByte (u8 (Z.shiftr highDword 8)) ;;
                   if Nat.eqb msbIndex 1 then Ret (dest, curByte)
                   else
                     curByte <- chk32 c (curByte + increment) ;;
                     dest <- wrz dest curByte (u8 (Z.shiftr highDword 16)) ;;
                     if Nat.eqb msbIndex 2 then Ret (dest, curByte)
                     else
                       curByte <- chk32 c (curByte + increment) ;;
                       dest <- wrz dest curByte (u8 (Z.shiftr highDword 24)) ;;
                       Ret (dest, curByte)) ;;
              massert c (isBigEndian || (negb needExtraByte && (curByte =? len - 1))
                         || (needExtraByte && (curByte =? len - 2))) ;;;
              massert c (negb isBigEndian || (negb needExtraByte && (curByte =? 0))
                         || (needExtraByte && (curByte =? 1))) ;;;
              dest <-
                (if needExtraByte then
                   curByte <- chk32 c (curByte + increment) ;; wrz dest curByte highByte
                 else Ret dest) ;;
              Ret (dest, 0))
        end
    | Throw e => Sized (Throw e)
    | Undef k => Sized (Undef k)
    | AssertFail => Sized AssertFail
    | NoFuel => Sized NoFuel
    end.

(** BigInteger::to_byte_array(bool, bool): BigInteger.cpp:1252-1255 *)
Definition bi_to_bytes_i (c : cfg) (b : bigint) (isUnsigned isBigEndian : bool) : sized (list Z) :=
  match bi_to_bytes_mode_i c AllocateArray b isUnsigned isBigEndian with
  | Sized o => Sized ('(a, _) <- o ;; Ret a)
  | LengthError => LengthError
  end.

(** BigInteger::get_byte_count: BigInteger.cpp:1190-1194 *)
Definition bi_byte_count_i (c : cfg) (b : bigint) (isUnsigned : bool) : sized Z :=
  match bi_to_bytes_mode_i c CountOnly b isUnsigned false with
  | Sized o => Sized ('(_, n) <- o ;; Ret n)
  | LengthError => LengthError
  end.
