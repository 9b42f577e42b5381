(** The LLP64 reading (WinCalc.v) of the functions that look at the class of a double,
    and of log, which calls one of them. *)
From Coq Require Import ZArith.
From Verif Require Import Machine BigInt BigIntDouble WinBigInt BigIntLog BigIntLogDouble.
Open Scope Z_scope.

(** double_IsNaN, double_IsInfinity: BigInteger.cpp:1762-1770, read like
    double_is_finite_w (WinBigInt.v). *)
Definition double_is_nan_w (d : Z) : bool := DBL_EXP_MASK <? Z.land (s32 d) DBL_ABS_MASK.
Definition double_is_infinity_w (d : Z) : bool := Z.land (s32 d) DBL_ABS_MASK =? DBL_EXP_MASK.

(** NumericsHelpers::csharp_log_wrapper: NumericsHelpers.h:134-152. The NaN tests are std::isnan. *)
Definition log_wrapper_w (a base : Z) : log_expr :=
  if double_is_nan base then LBits base
  else if base =? DBL_ONE then LNaN
  else if negb (a =? 1) && (dbl_is_zero base || double_is_infinity_w base) then LNaN
  else LRatio a base.

(** BigInteger::log(value, baseValue): BigInteger.cpp:1514-1537 *)
Definition bi_log_w (c : cfg) (v : bigint) (base : Z) : outcome log_expr :=
  if (sign_of v <? 0) || (base =? DBL_ONE) then Ret LNaN
  else
    if base =? DBL_EXP_MASK then
      one <- bi_is_one c v ;; Ret (if one : bool then LBits 0 else LNaN)
    else
      zero_base <- (if dbl_is_zero base then one <- bi_is_one c v ;; Ret (negb one) else Ret false) ;;
      if zero_base : bool then Ret LNaN
      else
      let bits := bits_of v in
      if is_nil bits then Ret (log_wrapper_w (sign_of v) base)
      else
        let len := length bits in
        h <- rd bits (len - 1) ;;
        m <- (if Nat.ltb 1 len then rd bits (len - 2) else Ret 0) ;;
        l <- (if Nat.ltb 2 len then rd bits (len - 3) else Ret 0) ;;
        let z := cbit_high_zero32 (u32 h) in
        let b := s64 (Z.of_nat len * 32 - z) in
        x1 <- shl64 h (32 + z) ;; x2 <- shl64 m z ;; x3 <- shr64 l (32 - z) ;;
        Ret (LShifted (log_wrapper_w (Z.lor (Z.lor x1 x2) x3) base) (b - 64) base).

(** Evaluated as in BigIntLogDouble.v; log(value), log10(value): BigInteger.cpp:1510-1541 *)
Definition bi_log_double_w (logf : double -> double) (c : cfg) (v : bigint) (base : Z) : outcome double :=
  e <- bi_log_w c v base ;; Ret (log_eval logf e).
Definition bi_ln_double_w (logf : double -> double) (c : cfg) (v : bigint) : outcome double :=
  bi_log_double_w logf c v DBL_E.
Definition bi_log10_double_w (logf : double -> double) (c : cfg) (v : bigint) : outcome double :=
  bi_log_double_w logf c v DBL_TEN.
