(** Model of the byte conversions of src/BigInteger.cpp. *)
From Verif Require Import Machine BigInt.

(** (_sign << 8) on int: BigInteger.cpp:136, 140. Shifting a negative value is
    undefined in C++17. *)
Definition shl8_int (c : cfg) (x : Z) : outcome Z :=
  if (x <? 0) && strict c then Undef ShiftNegative else Ret (s32 (Z.shiftl x 8)).

(** while (offset < byteCount && value[offset] == 0) offset++: BigInteger.cpp:106-108.
    [n] is byteCount - offset. *)
Fixpoint be_skip (value : list Z) (n offset : nat) : outcome nat :=
  match n with
  | O => Ret offset
  | S n => x <- rd value offset ;; if x =? 0 then be_skip value n (S offset) else Ret offset
  end.

(** BigInteger::BigInteger(byte_array, bool, bool): BigInteger.cpp:93-252 *)
Definition bi_of_bytes (c : cfg) (value : list Z) (isUnsigned isBigEndian : bool)
    : outcome bigint :=
  let byteCount := length value in
  '(value, byteCount, isNegative) <-
    (if Nat.ltb 0 byteCount then
       msb <- (if isBigEndian then rd value 0 else rd value (byteCount - 1)) ;;
       let isNegative := negb (Z.land msb 128 =? 0) && negb isUnsigned in
       if msb =? 0 then
         if isBigEndian then
           offset <- be_skip value (byteCount - 1) 1 ;;
           let value := skipn offset value in
           Ret (value, length value, isNegative)
         else
           (* 113-117 *)
           n <- trim_len value (byteCount - 1) ;;
           Ret (value, n, isNegative)
       else Ret (value, byteCount, isNegative)
     else Ret (value, byteCount, false)) ;;
  if Nat.eqb byteCount 0 then checked c (Big 0 [])
  else if Nat.leb byteCount 4 then
    let sign := if isNegative : bool then -1 else 0 in
    sign <-
      (if isBigEndian then
         for_up byteCount 0 (fun i sign =>
           s <- shl8_int c sign ;; v <- rd value i ;; Ret (Z.lor s v)) sign
       else
         for_down byteCount (fun i sign =>
           s <- shl8_int c sign ;; v <- rd value i ;; Ret (Z.lor s v)) sign) ;;
    let this := if (sign <? 0) && negb isNegative then Big 1 [u32 sign] else Big sign [] in
    let this := if sign_of this =? INT_MIN then s_bnMinInt else this in
    checked c this
  else
    let unalignedBytes := Nat.modulo byteCount 4 in
    let dwordCount := (Nat.div byteCount 4 + (if Nat.eqb unalignedBytes 0 then 0 else 1))%nat in
    let full := (dwordCount - (if Nat.eqb unalignedBytes 0 then 0 else 1))%nat in
    '(val, _) <-
      (if isBigEndian then
         for_up full 0 (fun curDword st =>
           let '(val, curByte) := st in
           '(val, curByte) <-
             for_up 4 0 (fun _ st =>
               let '(val, curByte) := st in
               v <- rdz value curByte ;;
               x <- rd val curDword ;;
               val <- wr val curDword (Z.lor (u32 (Z.shiftl x 8)) v) ;;
               Ret (val, curByte + 1)) (val, curByte) ;;
           Ret (val, curByte - 8)) (zeros dwordCount, Z.of_nat byteCount - 4)
       else
         for_up full 0 (fun curDword st =>
           let '(val, curByte) := st in
           '(val, curByte) <-
             for_up 4 0 (fun _ st =>
               let '(val, curByte) := st in
               v <- rdz value curByte ;;
               x <- rd val curDword ;;
               val <- wr val curDword (Z.lor (u32 (Z.shiftl x 8)) v) ;;
               Ret (val, curByte - 1)) (val, curByte) ;;
           Ret (val, curByte + 8)) (zeros dwordCount, 3)) ;;
    val <-
      (if Nat.eqb unalignedBytes 0 then Ret val
       else
         val <- (if isNegative then wr val (dwordCount - 1) UINT_MAX else Ret val) ;;
         if isBigEndian then
           for_up unalignedBytes 0 (fun curByte val =>
             v <- rd value curByte ;;
             x <- rd val full ;;
             wr val full (Z.lor (u32 (Z.shiftl x 8)) v)) val
         else
           for_down unalignedBytes (fun k val =>
             v <- rd value (byteCount - unalignedBytes + k) ;;
             x <- rd val full ;;
             wr val full (Z.lor (u32 (Z.shiftl x 8)) v)) val) ;;
    if isNegative then
      val <- make_twos_complement val ;;
      len <- trim_len val (length val) ;;
      v0 <- (if Nat.eqb len 1 then rd val 0 else Ret 0) ;;
      if Nat.eqb len 1 && (v0 =? 1) then Ret s_bnMinusOneInt
      else if Nat.eqb len 1 && (v0 =? kuMaskHighBit) then Ret s_bnMinInt
      else if Nat.eqb len 1 && (0 <? s32 v0) then checked c (Big (-1 * s32 v0) [])
      else if negb (Nat.eqb len (length val)) then checked c (Big (-1) (firstn len val))
      else checked c (Big (-1) val)
    else checked c (Big 1 val).

(** GetBytesMode: BigInteger.h:158-160 *)
Inductive bytes_mode := AllocateArray | CountOnly.

(** while (bits[nonZeroDwordIndex] == 0U) nonZeroDwordIndex++: BigInteger.cpp:1295-1297 *)
Fixpoint first_nonzero (fuel : nat) (bits : list Z) (i : nat) : outcome nat :=
  x <- rd bits i ;;
  if x =? 0 then
    match fuel with O => NoFuel | S fuel => first_nonzero fuel bits (S i) end
  else Ret i.

(** The three quantities computed at BigInteger.cpp:1274-1309:
    (highByte, nonZeroDwordIndex, highDword). *)
Definition bytes_head (c : cfg) (sign : Z) (bits : list Z) : outcome (Z * nat * Z) :=
  if is_nil bits then Ret (if sign <? 0 then 255 else 0, O, u32 sign)
  else if sign =? -1 then
    top <- rd bits (length bits - 1) ;;
    massert c (negb (top =? 0)) ;;;
    nz <- first_nonzero (length bits) bits 0 ;;
    let highDword := not32 top in
    highDword <-
      (if Nat.eqb (length bits - 1) nz then
         massert c (highDword <=? UINT_MAX - 1) ;;; Ret (u32 (highDword + 1))
       else Ret highDword) ;;
    Ret (255, nz, highDword)
  else
    massert c (sign =? 1) ;;;
    top <- rd bits (length bits - 1) ;;
    Ret (0, O, top).

(** msb and msbIndex: BigInteger.cpp:1311-1322 *)
Definition bytes_msb (highByte highDword : Z) : Z * nat :=
  if negb (u8 (Z.shiftr highDword 24) =? highByte) then (u8 (Z.shiftr highDword 24), 3%nat)
  else if negb (u8 (Z.shiftr highDword 16) =? highByte) then (u8 (Z.shiftr highDword 16), 2%nat)
  else if negb (u8 (Z.shiftr highDword 8) =? highByte) then (u8 (Z.shiftr highDword 8), 1%nat)
  else (u8 highDword, O).

(** BigInteger::to_byte_array (four-argument overload):
    BigInteger.cpp:1257-1393. Returns the array and the value stored in bytesWritten, which is
    left alone (modelled as 0, its value at both call sites) when the array is
    produced from a non-zero value. *)
Definition bi_to_bytes_mode (c : cfg) (mode : bytes_mode) (b : bigint)
    (isUnsigned isBigEndian : bool) : outcome (list Z * Z) :=
  let sign := sign_of b in let bits := bits_of b in
  if sign =? 0 then
    match mode with CountOnly => Ret ([], 1) | AllocateArray => Ret ([0], 1) end
  else if isUnsigned && (sign <? 0) then Throw RuntimeError
  else
    '(highByte, nonZeroDwordIndex, highDword) <- bytes_head c sign bits ;;
    let '(msb, msbIndex) := bytes_msb highByte highDword in
    let needExtraByte :=
      negb (Z.land msb 128 =? Z.land highByte 128) && negb isUnsigned in
    let len := (msbIndex + 1 + (if needExtraByte then 1 else 0))%nat in
    let len := if is_nil bits then len else (4 * (length bits - 1) + len)%nat in
    match mode with
    | CountOnly => Ret ([], Z.of_nat len)
    | AllocateArray =>
        let curByte := if isBigEndian then Z.of_nat len - 1 else 0 in
        let increment := if isBigEndian then -1 else 1 in
        '(dest, curByte) <-
          (if is_nil bits then Ret (zeros len, curByte)
           else
             for_up (length bits - 1) 0 (fun i st =>
               let '(dest, curByte) := st in
               dword <- rd bits i ;;
               let dword :=
                 if sign =? -1 then
                   let dword := not32 dword in
                   if Nat.leb i nonZeroDwordIndex then u32 (dword + 1) else dword
                 else dword in
               dest <- wrz dest curByte (u8 dword) ;;
               dest <- wrz dest (curByte + increment) (u8 (Z.shiftr dword 8)) ;;
               dest <- wrz dest (curByte + increment + increment) (u8 (Z.shiftr dword 16)) ;;
               dest <- wrz dest (curByte + increment + increment + increment)
                         (u8 (Z.shiftr dword 24)) ;;
               Ret (dest, curByte + increment + increment + increment + increment))
               (zeros len, curByte)) ;;
        dest <- wrz dest curByte (u8 highDword) ;;
        '(dest, curByte) <-
          (if Nat.eqb msbIndex 0 then Ret (dest, curByte)
           else
             let curByte := curByte + increment in
             dest <- wrz dest curByte (u8 (Z.shiftr highDword 8)) ;;
             if Nat.eqb msbIndex 1 then Ret (dest, curByte)
             else
               let curByte := curByte + increment in
               dest <- wrz dest curByte (u8 (Z.shiftr highDword 16)) ;;
               if Nat.eqb msbIndex 2 then Ret (dest, curByte)
               else
                 let curByte := curByte + increment in
                 dest <- wrz dest curByte (u8 (Z.shiftr highDword 24)) ;;
                 Ret (dest, curByte)) ;;
        let zlen := Z.of_nat len in
        massert c (isBigEndian || (negb needExtraByte && (curByte =? zlen - 1))
                   || (needExtraByte && (curByte =? zlen - 2))) ;;;
        massert c (negb isBigEndian || (negb needExtraByte && (curByte =? 0))
                   || (needExtraByte && (curByte =? 1))) ;;;
        dest <-
          (if needExtraByte then wrz dest (curByte + increment) highByte else Ret dest) ;;
        Ret (dest, 0)
    end.

(** BigInteger::to_byte_array(bool, bool): BigInteger.cpp:1252-1255 *)
Definition bi_to_bytes (c : cfg) (b : bigint) (isUnsigned isBigEndian : bool) : outcome (list Z) :=
  '(a, _) <- bi_to_bytes_mode c AllocateArray b isUnsigned isBigEndian ;; Ret a.

(** BigInteger::get_byte_count: BigInteger.cpp:1190-1194 *)
Definition bi_byte_count (c : cfg) (b : bigint) (isUnsigned : bool) : outcome Z :=
  '(_, n) <- bi_to_bytes_mode c CountOnly b isUnsigned false ;; Ret n.

(** The same overload called with a pointer, [None] being the null pointer its
    default argument provides: BigInteger.h:173-174. *bytesWritten is assigned at
    BigInteger.cpp:1262, 1265 and 1334; nothing else in the function has an effect.
    Returns the array and what bytesWritten points to afterwards. *)
Definition bi_to_bytes_ptr (c : cfg) (mode : bytes_mode) (b : bigint) (isUnsigned isBigEndian : bool)
    (bytesWritten : option Z) : outcome (list Z * option Z) :=
  '(a, n) <- bi_to_bytes_mode c mode b isUnsigned isBigEndian ;;
  if (sign_of b =? 0) || (match mode with CountOnly => true | AllocateArray => false end) then
    match bytesWritten with None => Undef OutOfBounds | Some _ => Ret (a, Some n) end
  else Ret (a, bytesWritten).
