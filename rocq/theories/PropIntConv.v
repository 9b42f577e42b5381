(** Property theorems: conversions and predicates of numbers of 2^31 limbs and more. *)
From Verif Require Import Machine Spec SpecApi SpecGcd SpecActual SpecDouble SpecHelpers SpecPyRun SpecLimbs SpecIntConv.
From Verif Require Import BigInt BigIntDouble IntConv IntConvFacts IntConvLaws Examples.

(** C97. For integers of any size, is_power_of_two, get_bit_length, operator long, operator unsigned
    long, operator double and get_hash_code give the power-of-two test, the least width, the value or
    OverflowError, the truncated value and the hash of all limbs. True below 2^31 limbs; the limb count
    is kept in an [int], so not from there on. What every call does: *)
Theorem C97_power_of_two : forall c a x, represents a x -> bi_is_power_of_two_i c a = power_of_two_any x.
Proof. exact power_of_two_i_spec. Qed.
Print Assumptions C97_power_of_two.
Theorem C97_bit_length : forall c a x,
  represents a x -> 2 ^ 31 <= Z.abs x -> bi_bit_length_i c a = bit_length_any c x.
Proof. exact bit_length_i_spec. Qed.
Print Assumptions C97_bit_length.
Theorem C97_long : forall c a x,
  represents a x -> bi_to_long_i c a = long_any c x /\ bi_to_ulong_i c a = ulong_any x.
Proof. exact longs_i_spec. Qed.
Print Assumptions C97_long.
Theorem C97_hash : forall c a x, represents a x -> bi_hash_i c a = hash_any c x.
Proof. exact hash_i_spec. Qed.
Print Assumptions C97_hash.
Theorem C97_double : forall c a x,
  represents a x -> 2 ^ 31 <= Z.abs x -> double_any c x (bi_to_double_i c a).
Proof. exact to_double_i_spec. Qed.
Print Assumptions C97_double.
Example C97_case :
  represents (Big (-1) [0; 0; 8]) (- 2 ^ 67) /\ bi_bit_length_i debug_strict (Big (-1) [0; 0; 8]) = Ret 67 /\
  bit_length_any debug_strict (- 2 ^ 67) = Ret 67 /\ bi_is_power_of_two_i debug_strict (Big 1 [0; 0; 8]) = Ret true /\
  represents (Big 1 [5; 2147483647]) (2 ^ 63 - 2 ^ 32 + 5) /\ long_any debug_strict (2 ^ 63 - 2 ^ 32 + 5) = Ret (2 ^ 63 - 2 ^ 32 + 5) /\
  bi_to_long_i debug_strict (Big 1 [5; 2147483648]) = Throw OverflowError /\
  bi_to_ulong_i debug_strict (Big 1 [5; 2147483648]) = Ret (2 ^ 63 + 5) /\
  bi_hash_i debug_strict (Big (-1) [0; 0; 8]) = hash_any debug_strict (- 2 ^ 67) /\
  bi_to_double_i debug_strict (Big (-1) [0; 0; 8]) = Ret ((2 ^ 11 + 1023 + 67) * 2 ^ 52).
Proof. split; [repr|]. do 3 (split; [vm_compute; reflexivity|]). split; [repr|]. repeat split; vm_compute; reflexivity. Qed.

(** The claim holds below 2^31 limbs, but for operator long of -2^63 where overflow is undefined (C25). *)
Theorem C97_partial : forall c a x,
  represents a x -> limbs_of x < 2 ^ 31 ->
  (exists b, bi_is_power_of_two_i c a = Ret b /\ (b = true <-> exists k, 0 <= k /\ x = 2 ^ k)) /\
  (exists n, bi_bit_length_i c a = Ret n /\ least_width x n) /\
  (strict c = false \/ x <> - 2 ^ 63 ->
   bi_to_long_i c a = if in_range (- 2 ^ 63) (2 ^ 63) x then Ret x else Throw OverflowError) /\
  bi_to_ulong_i c a = (if in_range 0 (2 ^ 64) x then Ret x else Throw OverflowError) /\
  bi_hash_i c a = Ret (hash_code x) /\
  (Z.abs x < 2 ^ 1024 -> exists d, bi_to_double_i c a = Ret d /\ dbl_exact d (trunc53 x) /\ (x = 0 -> d = 0)) /\
  (2 ^ 1024 <= Z.abs x -> bi_to_double_i c a = Ret (if x <? 0 then minus_infinity else plus_infinity)).
Proof. exact conv_i_fits. Qed.
Print Assumptions C97_partial.

(** Above: a conversion to 64 bits returns the lowest 32 bits instead of throwing, the hash is that of
    the sign, and the other three read outside the array. *)
Theorem C97_refuted : forall c a x, represents a x -> 2 ^ 31 < limbs_of x <= 2 ^ 32 ->
  bi_to_long_i c a = (if Z.abs x mod 2 ^ 32 =? 0 then Throw OverflowError else Ret (Z.sgn x * (Z.abs x mod 2 ^ 32))) /\
  (0 < x -> bi_to_ulong_i c a = Ret (x mod 2 ^ 32)) /\
  bi_hash_i c a = Ret (Z.sgn x) /\
  (0 < x -> bi_is_power_of_two_i c a = Undef OutOfBounds) /\
  bi_bit_length_i c a = Undef OutOfBounds /\
  bi_to_double_i c a = Undef OutOfBounds.
Proof. exact conv_i_wide. Qed.
Print Assumptions C97_refuted.
Example C97_refuted_case : forall k, k = 2 ^ 31 -> exists a b,
  represents a (2 ^ (32 * k) + 5) /\ represents b (- (2 ^ (32 * k) + 5)) /\
  2 ^ 31 < limbs_of (2 ^ (32 * k) + 5) <= 2 ^ 32 /\ 2 ^ 31 < limbs_of (- (2 ^ (32 * k) + 5)) <= 2 ^ 32 /\
  forall c, bi_to_long_i c a = Ret 5 /\ bi_to_ulong_i c a = Ret 5 /\ bi_to_long_i c b = Ret (-5) /\
    bi_hash_i c a = Ret 1 /\ bi_hash_i c b = Ret (-1).
Proof. exact wide_case. Qed.
