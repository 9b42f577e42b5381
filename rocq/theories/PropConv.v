(** Property theorems: machine integers, predicates, bit length. [c] is the
    build configuration; [strict c] makes signed overflow undefined. *)
From Verif Require Import Machine Spec SpecApi BigInt ConvLaws Examples.

(** C25. (int)a, (unsigned)a, (long)a, (unsigned long)a. Missing from the full
    claim: under [strict], -2^31 to int and -2^63 to long, which negate the
    minimum; see [C25_narrow_refuted]. *)
Theorem C25_narrow_partial : forall c a x,
  represents a x -> strict c = false \/ (x <> - 2 ^ 31 /\ x <> - 2 ^ 63) ->
  bi_to_int c a = (if in_range (- 2 ^ 31) (2 ^ 31) x then Ret x else Throw OverflowError) /\
  bi_to_uint c a = (if in_range 0 (2 ^ 32) x then Ret x else Throw OverflowError) /\
  bi_to_long c a = (if in_range (- 2 ^ 63) (2 ^ 63) x then Ret x else Throw OverflowError) /\
  bi_to_ulong c a = (if in_range 0 (2 ^ 64) x then Ret x else Throw OverflowError).
Proof. exact narrow_family. Qed.
Print Assumptions C25_narrow_partial.
Theorem C25_narrow_refuted : forall c a,
  strict c = true ->
  (represents a (- 2 ^ 31) -> bi_to_int c a = Undef SignedOverflow) /\
  (represents a (- 2 ^ 63) -> bi_to_long c a = Undef SignedOverflow).
Proof. exact narrow_strict. Qed.
Print Assumptions C25_narrow_refuted.
Example C25_narrow_case :
  represents (Big (-1) [2147483648]) (- 2 ^ 31) /\ represents (Big (-1) [0; 2147483648]) (- 2 ^ 63) /\
  bi_to_int release_wrap (Big (-1) [2147483648]) = Ret (- 2 ^ 31) /\
  bi_to_int release_wrap (Big (-1) [0; 2147483648]) = Throw OverflowError /\
  bi_to_long release_wrap (Big (-1) [0; 2147483648]) = Ret (- 2 ^ 63) /\
  bi_to_int debug_strict (Big (-1) [2147483648]) = Undef SignedOverflow.
Proof.
  split; [repr|]. split; [repr|]. split; [reflexivity|]. split; [reflexivity|]. split; reflexivity.
Qed.

(** C26. BigInteger(int32_t), (uint32_t), (int64_t), (uint64_t). Missing from the
    full claim: INT64_MIN under [strict]; see [C26_ctor_refuted]. *)
Theorem C26_ctor_partial : forall c v,
  (- 2 ^ 31 <= v < 2 ^ 31 -> returns (bi_of_int32 c v) v) /\
  (0 <= v < 2 ^ 32 -> returns (bi_of_uint32 c v) v) /\
  (- 2 ^ 63 <= v < 2 ^ 63 -> strict c = false \/ v <> - 2 ^ 63 -> returns (bi_of_int64 c v) v) /\
  (0 <= v < 2 ^ 64 -> returns (bi_of_uint64 c v) v).
Proof. exact ctor_family. Qed.
Print Assumptions C26_ctor_partial.
Theorem C26_ctor_refuted : forall c,
  strict c = true -> bi_of_int64 c (- 2 ^ 63) = Undef SignedOverflow.
Proof. exact ctor_strict. Qed.
Print Assumptions C26_ctor_refuted.
Example C26_ctor_case :
  bi_of_int64 debug_strict (- 2 ^ 32 - 5) = Ret (Big (-1) [5; 1]) /\
  bi_of_int64 release_wrap (- 2 ^ 63) = Ret (Big (-1) [0; 2147483648]) /\
  bi_of_int32 debug_strict (- 2 ^ 31) = Ret (Big (-1) [2147483648]) /\
  bi_of_uint64 debug_strict (2 ^ 64 - 1) = Ret (Big 1 [4294967295; 4294967295]).
Proof. split; [reflexivity|]. split; [reflexivity|]. split; reflexivity. Qed.

(** C29. get_bit_length. The code keeps the limb count in an int, hence the bound. *)
Theorem C29_bit_length_least : forall c a x,
  represents a x -> fits_limbs x (2 ^ 31 - 1) ->
  exists n, bi_bit_length c a = Ret n /\ least_width x n.
Proof. exact bit_length_returns. Qed.
Print Assumptions C29_bit_length_least.
Example C29_bit_length_case :
  represents (Big (-1) [0; 1]) (- 2 ^ 32) /\ fits_limbs (- 2 ^ 32) 2 /\
  bi_bit_length debug_strict (Big (-1) [0; 1]) = Ret 32 /\
  bi_bit_length debug_strict (Big 1 [0; 1]) = Ret 33.
Proof. split; [repr|]. split; [reflexivity|]. split; vm_compute; reflexivity. Qed.

(** C30. is_zero, is_one, is_even, sign, is_power_of_two. *)
Theorem C30_predicates : forall c a x,
  represents a x ->
  bi_is_zero c a = Ret (x =? 0) /\ bi_is_one c a = Ret (x =? 1) /\ bi_is_even c a = Ret (Z.even x) /\
  bi_sign c a = Ret (Z.sgn x) /\
  exists b, bi_is_power_of_two c a = Ret b /\ (b = true <-> exists k, 0 <= k /\ x = 2 ^ k).
Proof. exact predicate_family. Qed.
Print Assumptions C30_predicates.
Example C30_predicates_case :
  represents (Big 1 [0; 0; 64]) (2 ^ 70) /\
  bi_is_power_of_two debug_strict (Big 1 [0; 0; 64]) = Ret true /\
  bi_is_power_of_two debug_strict (Big 1 [1; 0; 64]) = Ret false /\
  bi_sign debug_strict (Big (-1) [0; 0; 64]) = Ret (-1) /\
  bi_is_even debug_strict (Big 1 [1; 0; 64]) = Ret false.
Proof. split; [repr|]. split; [reflexivity|]. split; [reflexivity|]. split; reflexivity. Qed.
