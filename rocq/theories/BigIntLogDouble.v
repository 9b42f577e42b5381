(** Model of log and log10 down to the floating-point operations: the expression of
    BigIntLog.v evaluated in IEEE 754 binary64, rounding to nearest even. NaNs are not told
    apart. The one thing left open is the C library's std::log, the parameter [logf]. The
    target is assumed to evaluate double expressions in double precision (FLT_EVAL_METHOD 0)
    in the default rounding mode. *)
From Coq Require Import ZArith.
From Flocq Require Import Core.
From Flocq Require Export BinarySingleNaN.
From Verif Require Import Machine BigInt SpecDouble BigIntLog.
Open Scope Z_scope.

Definition double := binary_float 53 1024.

Definition prec53 : Prec_gt_0 53 := eq_refl.
Definition prec53_lt : Prec_lt_emax 53 1024 := eq_refl.

Definition d_div (x y : double) : double := @Bdiv 53 1024 prec53 prec53_lt mode_NE x y.
Definition d_add (x y : double) : double := @Bplus 53 1024 prec53 prec53_lt mode_NE x y.

(** The conversion of an int, int64_t or uint64_t to double. *)
Definition int_double (n : Z) : double := @binary_normalize 53 1024 prec53 prec53_lt mode_NE n 0 false.

(** The double with the bit pattern [d]. *)
Definition bits_double (d : Z) : double :=
  if dbl_exp d =? 2047 then if dbl_frac d =? 0 then B754_infinity (dbl_negative d) else B754_nan
  else @binary_normalize 53 1024 prec53 prec53_lt mode_NE (dbl_signed d (dbl_significand d)) (dbl_scale d)
         (dbl_negative d).

(** csharp_log_wrapper(baseValue, 2): NumericsHelpers.h:134-152. *)
Definition log2_wrapper (logf : double -> double) (base : double) : double :=
  if is_nan base then base else d_div (logf base) (logf (int_double 2)).

(** The value of the expression: BigInteger.cpp:1525, 1535-1536. *)
Fixpoint log_eval (logf : double -> double) (e : log_expr) : double :=
  match e with
  | LNaN => B754_nan
  | LBits d => bits_double d
  | LRatio a base => d_div (logf (int_double a)) (logf (bits_double base))
  | LShifted e n base => d_add (log_eval logf e) (d_div (int_double n) (log2_wrapper logf (bits_double base)))
  end.

(** BigInteger::log(value, baseValue), log(value), log10(value): BigInteger.cpp:1510-1541 *)
Definition bi_log_double (logf : double -> double) (c : cfg) (v : bigint) (base : Z) : outcome double :=
  e <- bi_log c v base ;; Ret (log_eval logf e).
Definition bi_ln_double (logf : double -> double) (c : cfg) (v : bigint) : outcome double :=
  bi_log_double logf c v DBL_E.
Definition bi_log10_double (logf : double -> double) (c : cfg) (v : bigint) : outcome double :=
  bi_log_double logf c v DBL_TEN.
