(** Specification vocabulary: what is asked of the C library's log, and of log(value, base). *)
From Coq Require Import ZArith Reals.
From Flocq Require Import BinarySingleNaN.
From Verif Require Import SpecDouble SpecLog.
Open Scope R_scope.

(** C17 Annex F.10.3.7, and for positive finite arguments an error of at most one unit in the
    last place, which is at most 2^-52 relative. The libraries in use claim less than one ulp. *)
Record libm_log (logf : binary_float 53 1024 -> binary_float 53 1024) : Prop := {
  log_positive x : is_finite x = true -> 0 < B2R x ->
    is_finite (logf x) = true /\ Rabs (B2R (logf x) - ln (B2R x)) <= / 2 ^ 52 * Rabs (ln (B2R x));
  log_of_one x : B2R x = 1 -> logf x = B754_zero false;
  log_of_zero s : logf (B754_zero s) = B754_infinity true;
  log_of_negative x : B2R x < 0 -> logf x = B754_nan;
  log_of_infinity : logf (B754_infinity false) = B754_infinity false;
  log_of_minus_infinity : logf (B754_infinity true) = B754_nan;
  log_of_nan : logf B754_nan = B754_nan }.

(** [r] is what log([x], [base]) is to return, [base] being the bit pattern of a double. *)
Record log_meaning (x base : Z) (r : binary_float 53 1024) : Prop := {
  of_negative : (x < 0)%Z -> r = B754_nan;
  to_nan : dbl_exp base = 2047%Z -> dbl_frac base <> 0%Z -> r = B754_nan;
  to_negative : dbl_negative base = true -> base <> (2 ^ 63)%Z -> r = B754_nan;
  to_one : base = (1023 * 2 ^ 52)%Z -> r = B754_nan;
  to_infinity : base = plus_infinity -> (0 <= x)%Z -> r = if (x =? 1)%Z then B754_zero false else B754_nan;
  to_zero : base = 0%Z \/ base = (2 ^ 63)%Z -> (0 <= x)%Z -> r = if (x =? 1)%Z then B754_zero true else B754_nan;
  zero_to_large : x = 0%Z -> dbl_finite base -> 1 < dbl_real base -> r = B754_infinity true;
  zero_to_small : x = 0%Z -> dbl_finite base -> 0 < dbl_real base < 1 -> r = B754_infinity false;
  one_to_large : x = 1%Z -> dbl_finite base -> 1 < dbl_real base -> r = B754_zero false;
  one_to_small : x = 1%Z -> dbl_finite base -> 0 < dbl_real base < 1 -> r = B754_zero true;
  of_positive : (1 <= x)%Z -> dbl_finite base -> 0 < dbl_real base -> dbl_real base <> 1 ->
    is_finite r = true /\
    Rabs (B2R r - ln (IZR x) / ln (dbl_real base)) <= / 2 ^ 48 * Rabs (ln (IZR x) / ln (dbl_real base)) }.
