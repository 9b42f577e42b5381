(** Model of log and log10. A double is its 64-bit pattern. Floating-point
    arithmetic and the C library's log are not modelled: the result is the
    expression the code evaluates, over integers converted to double. *)
From Verif Require Import Machine BigInt BigIntDouble.

Inductive log_expr :=
| LNaN                            (* std::nan("") *)
| LBits (d : Z)                   (* this very double *)
| LRatio (a base : Z)             (* std::log((double) a) / std::log(base) *)
| LShifted (e : log_expr) (n base : Z).  (* e + (double) n / (std::log(base) / std::log(2.0)) *)

Definition DBL_ONE := 4607182418800017408.  (* 1.0 *)
Definition DBL_E := 4613303445314885481.    (* 2.7182818284590451 *)
Definition DBL_TEN := 4621819117588971520.  (* 10.0 *)

(** [d == 0.0]: both zeros *)
Definition dbl_is_zero (d : Z) : bool := (d =? 0) || (d =? DBL_SIGN).

(** NumericsHelpers::csharp_log_wrapper: NumericsHelpers.h:134-152, for an
    integer first argument (never NaN) below 2^64. *)
Definition log_wrapper (a base : Z) : log_expr :=
  if double_is_nan base then LBits base
  else if base =? DBL_ONE then LNaN
  else if negb (a =? 1) && (dbl_is_zero base || double_is_infinity base) then LNaN
  else LRatio a base.

(** BigInteger::log(value, baseValue): BigInteger.cpp:1514-1537. The divisor
    csharp_log_wrapper(baseValue, 2) is std::log(baseValue) / std::log(2.0)
    unless baseValue is NaN, when the whole sum is NaN. *)
Definition bi_log (c : cfg) (v : bigint) (base : Z) : outcome log_expr :=
  if (sign_of v <? 0) || (base =? DBL_ONE) then Ret LNaN
  else
    if base =? DBL_EXP_MASK then
      one <- bi_is_one c v ;; Ret (if one : bool then LBits 0 else LNaN)
    else
      zero_base <- (if dbl_is_zero base then one <- bi_is_one c v ;; Ret (negb one) else Ret false) ;;
      if zero_base : bool then Ret LNaN
      else
      let bits := bits_of v in
      if is_nil bits then Ret (log_wrapper (sign_of v) base)
      else
        let len := length bits in
        h <- rd bits (len - 1) ;;
        m <- (if Nat.ltb 1 len then rd bits (len - 2) else Ret 0) ;;
        l <- (if Nat.ltb 2 len then rd bits (len - 3) else Ret 0) ;;
        let z := cbit_high_zero32 (u32 h) in
        let b := s64 (Z.of_nat len * 32 - z) in
        x1 <- shl64 h (32 + z) ;; x2 <- shl64 m z ;; x3 <- shr64 l (32 - z) ;;
        Ret (LShifted (log_wrapper (Z.lor (Z.lor x1 x2) x3) base) (b - 64) base).

(** log(value) and log10(value): BigInteger.cpp:1510-1512, 1539-1541 *)
Definition bi_ln (c : cfg) (v : bigint) : outcome log_expr := bi_log c v DBL_E.
Definition bi_log10 (c : cfg) (v : bigint) : outcome log_expr := bi_log c v DBL_TEN.
