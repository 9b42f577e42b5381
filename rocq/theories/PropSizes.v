(** Property theorems: byte strings of 2^31 bytes and more. *)
From Verif Require Import Machine Spec SpecPos BigInt BigIntBytes IntSizes SpecSizes IntSizesFacts Examples.

(** C80. For integers and byte strings of any length, get_byte_count returns the
    number of bytes to_byte_array produces, to_byte_array produces the encoding
    and the constructor reads it back. True below 2^31 bytes (the next three
    theorems); the lengths are kept in [int], so from there on all three fail. *)
Theorem C80_byte_count : forall c a x u n,
  represents a x -> (u = true -> 0 <= x) -> needs_bytes u x n ->
  exists r, bi_byte_count_i c a u = Sized (Ret r) /\ int_of_size n r.
Proof. exact byte_count_i_spec. Qed.
Print Assumptions C80_byte_count.
Theorem C80_to_bytes_partial : forall c a x u be n,
  represents a x -> (u = true -> 0 <= x) -> needs_bytes u x n -> n < 2 ^ 31 ->
  exists l, bi_to_bytes_i c a u be = Sized (Ret l) /\ byte_encoding u be x n l.
Proof. exact to_bytes_i_fits. Qed.
Print Assumptions C80_to_bytes_partial.
Theorem C80_to_bytes_throws : forall c a x be,
  represents a x -> x < 0 ->
  bi_to_bytes_i c a true be = Sized (Throw RuntimeError) /\ bi_byte_count_i c a true = Sized (Throw RuntimeError).
Proof. exact to_bytes_i_throws. Qed.
Print Assumptions C80_to_bytes_throws.
Theorem C80_of_bytes_partial : forall c l u be,
  digits 256 l -> Z.of_nat (length l) < 2 ^ 31 ->
  strict c = false \/ 0 <= bytes_value u be l \/ (4 < length l)%nat ->
  returns (bi_of_bytes_i c l u be) (bytes_value u be l).
Proof. exact of_bytes_i_fits. Qed.
Print Assumptions C80_of_bytes_partial.
Example C80_case :
  represents (Big (-1) [0; 128]) (- 2 ^ 39) /\
  bi_byte_count_i debug_strict (Big (-1) [0; 128]) false = Sized (Ret 5) /\
  bi_to_bytes_i debug_strict (Big (-1) [0; 128]) false true = Sized (Ret [128; 0; 0; 0; 0]) /\
  bi_of_bytes_i debug_strict [128; 0; 0; 0; 0] false true = Ret (Big (-1) [0; 128]) /\
  bi_of_bytes_i release_wrap [0; 0; 255; 1; 2; 3] true true = Ret (Big 1 [4278256131]) /\
  bi_of_bytes_i debug_strict [254; 255] false false = Undef ShiftNegative.
Proof. split; [repr|]. repeat split. Qed.

(** get_byte_count is wrong from 2^31 bytes on, and negative up to 2^32. *)
Theorem C80_byte_count_refuted : forall c a x u n,
  represents a x -> (u = true -> 0 <= x) -> needs_bytes u x n -> 2 ^ 31 <= n ->
  exists r, bi_byte_count_i c a u = Sized (Ret r) /\ r < n /\ (n < 2 ^ 32 -> r = n - 2 ^ 32).
Proof. exact byte_count_i_wrong. Qed.
Print Assumptions C80_byte_count_refuted.
(** to_byte_array throws std::length_error, or writes outside a buffer that is
    too short. *)
Theorem C80_to_bytes_refuted : forall c a x u be n r,
  represents a x -> (u = true -> 0 <= x) -> needs_bytes u x n -> 2 ^ 31 <= n -> int_of_size n r ->
  bi_to_bytes_i c a u be = if r <? 0 then LengthError else Sized (Undef OutOfBounds).
Proof. exact to_bytes_i_fails. Qed.
Print Assumptions C80_to_bytes_refuted.
Example C80_size_case : forall k, k = 2 ^ 31 -> exists a,
  represents a (2 ^ (8 * k)) /\ needs_bytes false (2 ^ (8 * k)) (k + 1) /\ 2 ^ 31 <= k + 1 < 2 ^ 32 /\
  int_of_size (k + 1) (1 - 2 ^ 31).
Proof. exact sizes_case. Qed.
Example C80_size_wrapped_case : forall k, k = 2 ^ 32 -> exists a,
  represents a (2 ^ (8 * k)) /\ needs_bytes false (2 ^ (8 * k)) (k + 1) /\ 2 ^ 31 <= k + 1 /\
  int_of_size (k + 1) 1.
Proof. exact sizes_case_wrapped. Qed.

(** The constructor. A length that becomes [r >= 0]: the first [r] bytes are
    decoded and the others ignored. (Below 2^31 bytes [r] is the length.) *)
Theorem C80_of_bytes_prefix_refuted : forall c l u be r l',
  digits 256 l -> int_of_size (Z.of_nat (length l)) r -> 0 <= r -> l' = firstn (Z.to_nat r) l ->
  strict c = false \/ 0 <= bytes_value u be l' \/ 4 < r ->
  returns (bi_of_bytes_i c l u be) (bytes_value u be l').
Proof. exact of_bytes_i_prefix. Qed.
Print Assumptions C80_of_bytes_prefix_refuted.
Theorem C80_of_bytes_strict_refuted : forall c l u be r,
  digits 256 l -> int_of_size (Z.of_nat (length l)) r -> 0 <= r <= 4 ->
  strict c = true -> bytes_value u be (firstn (Z.to_nat r) l) < 0 ->
  bi_of_bytes_i c l u be = Undef ShiftNegative.
Proof. exact of_bytes_i_strict. Qed.
Print Assumptions C80_of_bytes_strict_refuted.
(** A length that becomes negative: the result is 0, whatever the bytes. *)
Theorem C80_of_bytes_zero_refuted : forall c l u be r,
  int_of_size (Z.of_nat (length l)) r -> r < 0 -> be = true \/ - 2 ^ 31 < r ->
  returns (bi_of_bytes_i c l u be) 0.
Proof. exact of_bytes_i_zero. Qed.
Print Assumptions C80_of_bytes_zero_refuted.
(** The remaining case, little-endian and [r] the least int: [byteCount - 1]
    overflows, which is undefined; where it wraps, the result is the number in
    the first four bytes. *)
Theorem C80_of_bytes_min_refuted : forall c l u,
  digits 256 l -> int_of_size (Z.of_nat (length l)) (- 2 ^ 31) ->
  if strict c then bi_of_bytes_i c l u false = Undef SignedOverflow
  else returns (bi_of_bytes_i c l u false) (positional 256 (firstn 4 l)).
Proof. exact of_bytes_i_min. Qed.
Print Assumptions C80_of_bytes_min_refuted.
Example C80_prefix_case : forall be k, k = 2 ^ 32 -> exists l,
  digits 256 l /\ int_of_size (Z.of_nat (length l)) 5 /\ Z.of_nat (length l) = k + 5 /\ 0 < bytes_value true be l.
Proof. exact prefix_case. Qed.
Example C80_zero_case : forall be k, k = 2 ^ 31 -> exists l,
  digits 256 l /\ int_of_size (Z.of_nat (length l)) (1 - 2 ^ 31) /\ Z.of_nat (length l) = k + 1 /\
  0 < bytes_value true be l.
Proof. exact zero_case. Qed.
Example C80_min_case : forall k, k = 2 ^ 31 -> exists l,
  digits 256 l /\ int_of_size (Z.of_nat (length l)) (- 2 ^ 31) /\ Z.of_nat (length l) = k.
Proof. exact min_case. Qed.
