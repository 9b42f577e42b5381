(** Corollaries of the conversion facts, in the shape of the properties. *)
From Verif Require Import Facts Spec AddSubFacts SpecFacts BigIntFacts CompareFacts SpecApi ConvFacts ShiftFacts BigInt.

Lemma narrow_family c a x :
  represents a x -> strict c = false \/ (x <> - 2 ^ 31 /\ x <> - 2 ^ 63) ->
  bi_to_int c a = (if in_range (- 2 ^ 31) (2 ^ 31) x then Ret x else Throw OverflowError) /\
  bi_to_uint c a = (if in_range 0 (2 ^ 32) x then Ret x else Throw OverflowError) /\
  bi_to_long c a = (if in_range (- 2 ^ 63) (2 ^ 63) x then Ret x else Throw OverflowError) /\
  bi_to_ulong c a = (if in_range 0 (2 ^ 64) x then Ret x else Throw OverflowError).
Proof.
  intros Ha Hc.
  split; [apply bi_to_int_spec; tauto|]. split; [now apply bi_to_uint_spec|].
  split; [apply bi_to_long_spec; tauto|now apply bi_to_ulong_spec].
Qed.

Lemma narrow_strict c a :
  strict c = true ->
  (represents a (- 2 ^ 31) -> bi_to_int c a = Undef SignedOverflow) /\
  (represents a (- 2 ^ 63) -> bi_to_long c a = Undef SignedOverflow).
Proof. intros H. split; intros Ha; [now apply bi_to_int_min_strict|now apply bi_to_long_min_strict]. Qed.

Lemma ctor_family c v :
  (- 2 ^ 31 <= v < 2 ^ 31 -> returns (bi_of_int32 c v) v) /\
  (0 <= v < 2 ^ 32 -> returns (bi_of_uint32 c v) v) /\
  (- 2 ^ 63 <= v < 2 ^ 63 -> strict c = false \/ v <> - 2 ^ 63 -> returns (bi_of_int64 c v) v) /\
  (0 <= v < 2 ^ 64 -> returns (bi_of_uint64 c v) v).
Proof.
  change (2 ^ 31) with 2147483648. change (2 ^ 32) with 4294967296. change (2 ^ 63) with 9223372036854775808.
  change (2 ^ 64) with 18446744073709551616.
  split; [intros H; apply returns_wp, bi_of_int32_spec; num; lia|].
  split; [intros H; apply returns_wp, bi_of_uint32_spec; unfold UINT_MAX; lia|].
  split; [|intros H; apply returns_wp, bi_of_uint64_spec; num; lia].
  intros H Hc. apply returns_wp. destruct (Z.eq_dec v (-9223372036854775808)) as [->|Hn].
  - destruct Hc as [Hc|Hc]; [|lia]. now apply bi_of_int64_min.
  - apply bi_of_int64_spec. num; lia.
Qed.

Lemma ctor_strict c : strict c = true -> bi_of_int64 c (- 2 ^ 63) = Undef SignedOverflow.
Proof. apply bi_of_int64_min_strict. Qed.

Lemma predicate_family c a x :
  represents a x ->
  bi_is_zero c a = Ret (x =? 0) /\ bi_is_one c a = Ret (x =? 1) /\ bi_is_even c a = Ret (Z.even x) /\
  bi_sign c a = Ret (Z.sgn x) /\
  exists b, bi_is_power_of_two c a = Ret b /\ (b = true <-> exists k, 0 <= k /\ x = 2 ^ k).
Proof.
  intros Ha. split; [now apply bi_is_zero_spec|]. split; [now apply bi_is_one_spec|].
  split; [now apply bi_is_even_spec|]. split; [now apply bi_sign_spec|now apply bi_is_power_of_two_spec].
Qed.

Lemma bit_length_returns c a x :
  represents a x -> fits_limbs x (2 ^ 31 - 1) ->
  exists n, bi_bit_length c a = Ret n /\ least_width x n.
Proof.
  intros Ha Hf. apply bi_bit_length_spec; [exact Ha|].
  pose proof (repr_length a x (2 ^ 31 - 1) Ha ltac:(discriminate) Hf). lia.
Qed.
