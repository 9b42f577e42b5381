(** Property theorems: conversions from and to double, log. [c] is the build
    configuration; a double is its 64-bit pattern (SpecDouble). *)
From Verif Require Import Machine Spec SpecApi SpecDouble BigInt BigIntDouble BigIntLog DoubleFacts LogFacts
  PowLaws Examples.
Open Scope Z_scope.

(** C27. BigInteger(double), for all 2^64 patterns. *)
Theorem C27_of_double_truncates : forall c d,
  dbl_pattern d -> dbl_finite d -> returns (bi_of_double c d) (dbl_trunc d).
Proof. exact of_double_finite. Qed.
Print Assumptions C27_of_double_truncates.
Theorem C27_of_double_throws : forall c d,
  dbl_pattern d -> ~ dbl_finite d -> bi_of_double c d = Throw OverflowError.
Proof. exact of_double_infinite. Qed.
Print Assumptions C27_of_double_throws.
(** -1.5 * 2^100 and -2.75 *)
Example C27_case :
  dbl_pattern 14283166218205528064 /\ dbl_finite 14283166218205528064 /\
  dbl_trunc 14283166218205528064 = - (3 * 2 ^ 99) /\
  bi_of_double debug_strict 14283166218205528064 = Ret (Big (-1) [0; 0; 0; 24]) /\
  dbl_trunc 13836746905142427648 = -2 /\ bi_of_double debug_strict 13836746905142427648 = Ret (Big (-2) []) /\
  ~ dbl_finite minus_infinity.
Proof. repeat split; try (vm_compute; congruence). Qed.

(** C28. operator double, for all values. *)
Theorem C28_to_double_truncates : forall c b x,
  represents b x -> Z.abs x < 2 ^ 1024 ->
  exists d, bi_to_double c b = Ret d /\ dbl_exact d (trunc53 x) /\ (x = 0 -> d = 0).
Proof. exact to_double_finite. Qed.
Print Assumptions C28_to_double_truncates.
Theorem C28_to_double_infinity : forall c b x,
  represents b x -> 2 ^ 1024 <= Z.abs x ->
  bi_to_double c b = Ret (if x <? 0 then minus_infinity else plus_infinity).
Proof. exact to_double_infinite. Qed.
Print Assumptions C28_to_double_infinity.
Theorem C28_to_double_exact : forall c b x m k,
  represents b x -> x = m * 2 ^ k -> 0 <= k -> Z.abs m < 2 ^ 53 -> Z.abs x < 2 ^ 1024 ->
  exists d, bi_to_double c b = Ret d /\ dbl_exact d x.
Proof. exact to_double_exact. Qed.
Print Assumptions C28_to_double_exact.
(** The pattern of a non-zero integer is unique, so "gives d back" is equality. *)
Theorem C28_round_trip : forall c d z,
  dbl_exact d z -> exists b d', bi_of_double c d = Ret b /\ represents b z /\
    bi_to_double c b = Ret d' /\ dbl_exact d' z /\ (z <> 0 -> d' = d).
Proof. exact double_round_trip. Qed.
Print Assumptions C28_round_trip.
Example C28_case :
  represents (Big (-1) [4294967295; 4294967295]) (- (2 ^ 64 - 1)) /\
  trunc53 (- (2 ^ 64 - 1)) = - (2 ^ 64 - 2 ^ 11) /\
  bi_to_double debug_strict (Big (-1) [4294967295; 4294967295]) = Ret 14118784831806504959 /\
  represents (Big 1 [0; 0; 0; 24]) (3 * 2 ^ 99) /\
  bi_to_double debug_strict (Big 1 [0; 0; 0; 24]) = Ret 5059794181350752256.
Proof. split; [repr|]. split; [reflexivity|]. split; [vm_compute; reflexivity|]. split; [repr|vm_compute; reflexivity]. Qed.

(** C38. log(v, base). The expression the code evaluates: NaN for a negative v;
    log(x) / log(base) for a small v = x; otherwise log(m) / log(base) +
    k / log2(base), where m * 2^k is v up to a relative error below 2^-63. What
    the C library and the FPU make of the expression is not modelled. *)
Theorem C38_log_negative : forall c b x base,
  represents b x -> x < 0 \/ base = 1023 * 2 ^ 52 -> bi_log c b base = Ret LNaN.
Proof. exact log_undefined. Qed.
Print Assumptions C38_log_negative.
Theorem C38_log_small : forall c b x base,
  represents b x -> 0 <= x < 2 ^ 31 -> dbl_regular_base base -> bi_log c b base = Ret (LRatio x base).
Proof. exact log_small. Qed.
Print Assumptions C38_log_small.
Theorem C38_log_base_infinite : forall c b x,
  represents b x -> 0 <= x -> bi_log c b plus_infinity = Ret (if x =? 1 then LBits 0 else LNaN).
Proof. exact log_base_infinite. Qed.
Print Assumptions C38_log_base_infinite.
Theorem C38_log_base_zero : forall c b x d,
  represents b x -> 0 <= x -> d = 0 \/ d = 2 ^ 63 -> bi_log c b d = Ret (if x =? 1 then LRatio 1 d else LNaN).
Proof. exact log_base_zero. Qed.
Print Assumptions C38_log_base_zero.
Theorem C38_log_base_nan : forall c b x d,
  represents b x -> 0 <= x < 2 ^ 31 -> dbl_pattern d -> dbl_exp d = 2047 -> dbl_frac d <> 0 ->
  bi_log c b d = Ret (LBits d).
Proof. exact log_base_nan. Qed.
Print Assumptions C38_log_base_nan.
Theorem C38_log_split : forall c b x n base,
  represents b x -> 2 ^ 31 <= x -> limb_count x n -> n <= 2 ^ 57 -> dbl_regular_base base ->
  exists m k, bi_log c b base = Ret (LShifted (LRatio m base) k base) /\ 2 ^ 63 <= m < 2 ^ 64 /\
    0 <= x * 2 ^ Z.max 0 (- k) - m * 2 ^ Z.max 0 k /\
    (x * 2 ^ Z.max 0 (- k) - m * 2 ^ Z.max 0 k) * 2 ^ 63 < x * 2 ^ Z.max 0 (- k).
Proof. exact log_split. Qed.
Print Assumptions C38_log_split.
Example C38_case :
  represents (Big 1 [7; 0; 0; 1]) (2 ^ 96 + 7) /\ limb_count (2 ^ 96 + 7) 4 /\ dbl_regular_base DBL_TEN /\
  bi_log10 debug_strict (Big 1 [7; 0; 0; 1]) = Ret (LShifted (LRatio (2 ^ 63) DBL_TEN) 33 DBL_TEN).
Proof.
  split; [repr|]. split; [apply limb_count_compute; vm_compute; reflexivity|].
  split; [repeat split; vm_compute; congruence|vm_compute; reflexivity].
Qed.
