(** Model of src/BigIntegerCalculator/GcdInv.cpp. *)
From Verif Require Import Machine CalcAddSub CalcDivRem CalcPowMod.

(** Fuel for the Euclidean loops on 32- and 64-bit words; proved sufficient. *)
Definition euclid_fuel : nat := 200.

(** BigIntegerCalculator::gcd(uint32_t, uint32_t): GcdInv.cpp:4-16 *)
Fixpoint gcd32_loop (fuel : nat) (l r : Z) : outcome Z :=
  if r =? 0 then Ret l else
  match fuel with
  | O => NoFuel
  | S fuel => temp <- umod l r ;; gcd32_loop fuel r temp
  end.
Definition calc_gcd32 (l r : Z) : outcome Z := gcd32_loop euclid_fuel l r.

(** The loop of BigIntegerCalculator::gcd(uint64_t, uint64_t): GcdInv.cpp:21-25 *)
Fixpoint gcd64_loop (fuel : nat) (l r : Z) : outcome (Z * Z) :=
  if UINT_MAX <? r then
    match fuel with
    | O => NoFuel
    | S fuel => temp <- umod l r ;; gcd64_loop fuel r temp
    end
  else Ret (l, r).

(** BigIntegerCalculator::gcd(uint64_t, uint64_t): GcdInv.cpp:18-31 *)
Definition calc_gcd64 (l r : Z) : outcome Z :=
  '(l, r) <- gcd64_loop euclid_fuel l r ;;
  if negb (r =? 0) then
    m <- umod l r ;; calc_gcd32 (u32 r) (u32 m)
  else Ret l.

(** BigIntegerCalculator::gcd(uint_array, uint32_t): GcdInv.cpp:33-43 *)
Definition calc_gcd_u (c : cfg) (lhs : list Z) (r : Z) : outcome Z :=
  massert c (Nat.leb 1 (length lhs)) ;;;
  massert c (negb (r =? 0)) ;;;
  temp <- calc_rem_u c lhs r ;;
  calc_gcd32 r temp.

(** BigIntegerCalculator::extract_digits: GcdInv.cpp:166-220. Returns (x, y). *)
Definition extract_digits (c : cfg) (xBuffer yBuffer : bitsbuf) : outcome (Z * Z) :=
  let xBits := bb_bits xBuffer in let xLength := Z.of_nat (bb_len xBuffer) in
  let yBits := bb_bits yBuffer in let yLength := Z.of_nat (bb_len yBuffer) in
  massert c (3 <=? xLength) ;;;
  massert c (3 <=? yLength) ;;;
  massert c (yLength <=? xLength) ;;;
  xh <- rdz xBits (xLength - 1) ;;
  xm <- rdz xBits (xLength - 2) ;;
  xl <- rdz xBits (xLength - 3) ;;
  '(yh, ym, yl) <-
    (if xLength - yLength =? 0 then
       yh <- rdz yBits (yLength - 1) ;; ym <- rdz yBits (yLength - 2) ;;
       yl <- rdz yBits (yLength - 3) ;; Ret (yh, ym, yl)
     else if xLength - yLength =? 1 then
       ym <- rdz yBits (yLength - 1) ;; yl <- rdz yBits (yLength - 2) ;; Ret (0, ym, yl)
     else if xLength - yLength =? 2 then
       yl <- rdz yBits (yLength - 1) ;; Ret (0, 0, yl)
     else Ret (0, 0, 0)) ;;
  let z := leading_zeros (u32 xh) in
  x1 <- shl64 xh (32 + z) ;; x2 <- shl64 xm z ;; x3 <- shr64 xl (32 - z) ;;
  y1 <- shl64 yh (32 + z) ;; y2 <- shl64 ym z ;; y3 <- shr64 yl (32 - z) ;;
  let x := Z.shiftr (Z.lor (Z.lor x1 x2) x3) 1 in
  let y := Z.shiftr (Z.lor (Z.lor y1 y2) y3) 1 in
  massert c (y <=? x) ;;;
  Ret (x, y).

(** State of Lehmer's guessing loop: a, b, c, d, x, y and iteration. *)
Record lehmer := Leh { la : Z; lb : Z; lc : Z; ld : Z; lx : Z; ly : Z; liter : Z }.

(** Lehmer's guessing loop: GcdInv.cpp:81-129. Each [Ret] inside is a break. *)
Fixpoint lehmer_guess (fuel : nat) (s : lehmer) : outcome lehmer :=
  if ly s =? 0 then Ret s else
  match fuel with
  | O => NoFuel
  | S fuel =>
      (* odd iteration: 84-105 *)
      q <- udiv (lx s) (ly s) ;;
      if UINT_MAX <? q then Ret s else
      let r := u64 (la s + u64 (q * lc s)) in
      let s' := u64 (lb s + u64 (q * ld s)) in
      let t := u64 (lx s - u64 (q * ly s)) in
      if (INT_MAX <? r) || (INT_MAX <? s') then Ret s else
      if (t <? s') || (u64 (ly s - lc s) <? u64 (t + r)) then Ret s else
      let s1 := Leh (u32 r) (u32 s') (lc s) (ld s) t (ly s) (liter s + 1) in
      if lx s1 =? lb s1 then Ret s1 else
      (* even iteration: 107-128 *)
      q <- udiv (ly s1) (lx s1) ;;
      if UINT_MAX <? q then Ret s1 else
      let r := u64 (ld s1 + u64 (q * lb s1)) in
      let s' := u64 (lc s1 + u64 (q * la s1)) in
      let t := u64 (ly s1 - u64 (q * lx s1)) in
      if (INT_MAX <? r) || (INT_MAX <? s') then Ret s1 else
      if (t <? s') || (u64 (lx s1 - lb s1) <? u64 (t + r)) then Ret s1 else
      let s2 := Leh (la s1) (lb s1) (u32 s') (u32 r) (lx s1) t (liter s1 + 1) in
      if ly s2 =? lc s2 then Ret s2 else
      lehmer_guess fuel s2
  end.

(** BigIntegerCalculator::lehmer_core: GcdInv.cpp:222-248. [x] and [y] are
    copies (GetBits returns by value), so the loop has no effect on the
    buffers; only the two Refresh calls do. Returns (xBuffer, yBuffer). *)
Definition lehmer_core (c : cfg) (xBuffer yBuffer : bitsbuf) (a b cc d : Z)
    : outcome (bitsbuf * bitsbuf) :=
  massert c (Nat.leb 1 (bb_len xBuffer)) ;;;
  massert c (Nat.leb 1 (bb_len yBuffer)) ;;;
  massert c (Nat.leb (bb_len yBuffer) (bb_len xBuffer)) ;;;
  massert c ((a <=? INT_MAX) && (b <=? INT_MAX)) ;;;
  massert c ((cc <=? INT_MAX) && (d <=? INT_MAX)) ;;;
  let len := bb_len yBuffer in
  for_up len 0 (fun i st =>
    let '(x, y, xCarry, yCarry) := st in
    xi <- rd x i ;; yi <- rd y i ;;
    p1 <- chk64 c (a * xi) ;; p2 <- chk64 c (b * yi) ;;
    d1 <- chk64 c (p1 - p2) ;; xDigit <- chk64 c (d1 + xCarry) ;;
    p3 <- chk64 c (d * yi) ;; p4 <- chk64 c (cc * xi) ;;
    d2 <- chk64 c (p3 - p4) ;; yDigit <- chk64 c (d2 + yCarry) ;;
    x <- wr x i (u32 xDigit) ;;
    y <- wr y i (u32 yDigit) ;;
    Ret (x, y, Z.shiftr xDigit 32, Z.shiftr yDigit 32))
    (bb_bits xBuffer, bb_bits yBuffer, 0, 0) ;;;
  x <- buf_refresh xBuffer len ;;
  y <- buf_refresh yBuffer len ;;
  Ret (x, y).

(** One round of the main loop of gcd(BitsBuffer&, BitsBuffer&): GcdInv.cpp:71-148.
    Returns (left, right). *)
Definition lehmer_round (c : cfg) (lbuf rbuf : bitsbuf) : outcome (bitsbuf * bitsbuf) :=
  '(x, y) <- extract_digits c lbuf rbuf ;;
  s <- lehmer_guess euclid_fuel (Leh 1 0 0 1 x y 0) ;;
  if lb s =? 0 then
    lbuf <- buf_reduce_buf c lbuf rbuf ;;
    Ret (rbuf, lbuf)
  else
    '(lbuf, rbuf) <- lehmer_core c lbuf rbuf (la s) (lb s) (lc s) (ld s) ;;
    if Z.rem (liter s) 2 =? 1 then Ret (rbuf, lbuf) else Ret (lbuf, rbuf).

(** while (right.GetLength() > 2): GcdInv.cpp:70-149 *)
Fixpoint lehmer_loop (fuel : nat) (c : cfg) (lbuf rbuf : bitsbuf) : outcome (bitsbuf * bitsbuf) :=
  if Nat.ltb 2 (bb_len rbuf) then
    match fuel with
    | O => NoFuel
    | S fuel =>
        '(lbuf, rbuf) <- lehmer_round c lbuf rbuf ;;
        lehmer_loop fuel c lbuf rbuf
    end
  else Ret (lbuf, rbuf).

(** BigIntegerCalculator::gcd(BitsBuffer&, BitsBuffer&): GcdInv.cpp:58-164.
    Returns (left, right). *)
Definition calc_gcd_buf (fuel : nat) (c : cfg) (lbuf rbuf : bitsbuf) : outcome (bitsbuf * bitsbuf) :=
  massert c (Nat.leb 2 (bb_len lbuf)) ;;;
  massert c (Nat.leb 2 (bb_len rbuf)) ;;;
  massert c (Nat.leb (bb_len rbuf) (bb_len lbuf)) ;;;
  '(lbuf, rbuf) <- lehmer_loop fuel c lbuf rbuf ;;
  if Nat.ltb 0 (bb_len rbuf) then
    lbuf <- buf_reduce_buf c lbuf rbuf ;;
    x1 <- rd (bb_bits rbuf) 1 ;; x0 <- rd (bb_bits rbuf) 0 ;;
    y1 <- rd (bb_bits lbuf) 1 ;; y0 <- rd (bb_bits lbuf) 0 ;;
    let x := Z.lor (u64 (Z.shiftl x1 32)) x0 in
    let y := Z.lor (u64 (Z.shiftl y1 32)) y0 in
    g <- calc_gcd64 x y ;;
    lbuf <- buf_overwrite lbuf g ;;
    rbuf <- buf_overwrite rbuf 0 ;;
    Ret (lbuf, rbuf)
  else Ret (lbuf, rbuf).

(** BigIntegerCalculator::gcd(uint_array, uint_array): GcdInv.cpp:45-56 *)
Definition calc_gcd (fuel : nat) (c : cfg) (lv rv : list Z) : outcome (list Z) :=
  massert c (Nat.leb 2 (length lv)) ;;;
  massert c (Nat.leb 2 (length rv)) ;;;
  (if dbg c then cmp <- calc_compare c lv rv ;; massert c (0 <=? cmp) else Ret tt) ;;;
  lbuf <- buf_of_v (length lv) lv ;;
  rbuf <- buf_of_v (length rv) rv ;;
  '(lbuf, _) <- calc_gcd_buf fuel c lbuf rbuf ;;
  Ret (bb_bits lbuf).
