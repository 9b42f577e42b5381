(** Property theorems: byte-array conversions. *)
From Verif Require Import Machine Spec SpecPos BigInt BigIntBytes BytesFacts ToBytesFacts Examples.

(** C22. The byte-array constructor decodes every byte string, of any length
    and padding, in the four modes. Under strict C++ semantics a negative
    string of at most four bytes left-shifts a negative int
    (BigInteger.cpp:206-232), which is what the partial statement excludes. *)
Theorem C22_of_bytes_partial : forall c l u be,
  digits 256 l -> strict c = false \/ 0 <= bytes_value u be l \/ (4 < length l)%nat ->
  returns (bi_of_bytes c l u be) (bytes_value u be l).
Proof. exact of_bytes_returns. Qed.
Print Assumptions C22_of_bytes_partial.
Theorem C22_of_bytes_refuted : forall c l u be,
  digits 256 l -> strict c = true -> bytes_value u be l < 0 -> (length l <= 4)%nat ->
  bi_of_bytes c l u be = Undef ShiftNegative.
Proof. exact of_bytes_strict. Qed.
Print Assumptions C22_of_bytes_refuted.
Example C22_of_bytes_case :
  digits 256 [0; 0; 0; 0; 128; 255; 255] /\ bytes_value false false [0; 0; 0; 0; 128; 255; 255] = - 2 ^ 39 /\
  bi_of_bytes debug_strict [0; 0; 0; 0; 128; 255; 255] false false = Ret (Big (-1) [0; 128]) /\
  bytes_value true true [0; 0; 255; 1; 2; 3] = 4278256131 /\
  bi_of_bytes debug_strict [0; 0; 255; 1; 2; 3] true true = Ret (Big 1 [4278256131]) /\
  bi_of_bytes release_wrap [254; 255] false false = Ret (Big (-2) []) /\
  bi_of_bytes debug_strict [254; 255] false false = Undef ShiftNegative.
Proof. split; [repeat constructor; discriminate || reflexivity|]. repeat split. Qed.

(** C23. to_byte_array is the shortest non-empty encoding, throws for a negative
    value in unsigned mode, and round-trips. *)
Theorem C23_to_bytes_shortest : forall c a x u be,
  represents a x -> (u = true -> 0 <= x) ->
  exists l, bi_to_bytes c a u be = Ret l /\ digits 256 l /\ bytes_value u be l = x /\ l <> [] /\
    forall l', digits 256 l' -> bytes_value u be l' = x -> l' <> [] -> (length l <= length l')%nat.
Proof. exact to_bytes_returns. Qed.
Print Assumptions C23_to_bytes_shortest.
Theorem C23_to_bytes_throws : forall c a x be,
  represents a x -> x < 0 ->
  bi_to_bytes c a true be = Throw RuntimeError /\ bi_byte_count c a true = Throw RuntimeError.
Proof. exact to_bytes_throws. Qed.
Print Assumptions C23_to_bytes_throws.
(** The side condition on [strict] is C22's. *)
Theorem C23_bytes_round_trip_partial : forall c a x u be,
  represents a x -> (u = true -> 0 <= x) -> strict c = false \/ 0 <= x \/ x < - 2 ^ 31 ->
  (l <- bi_to_bytes c a u be ;; bi_of_bytes c l u be) = Ret a.
Proof. exact bytes_round_trip. Qed.
Print Assumptions C23_bytes_round_trip_partial.
Example C23_to_bytes_case :
  represents (Big (-1) [0; 128]) (- 2 ^ 39) /\
  bi_to_bytes debug_strict (Big (-1) [0; 128]) false true = Ret [128; 0; 0; 0; 0] /\
  represents (Big 1 [4294967295]) (2 ^ 32 - 1) /\
  bi_to_bytes debug_strict (Big 1 [4294967295]) false false = Ret [255; 255; 255; 255; 0] /\
  bi_to_bytes debug_strict (Big 1 [4294967295]) true false = Ret [255; 255; 255; 255].
Proof. split; [repr|]. split; [reflexivity|]. split; [repr|]. split; reflexivity. Qed.

(** C24. get_byte_count is the length of to_byte_array for either endianness
    (both throw on negative values in unsigned mode: C23_to_bytes_throws); the
    second theorem says what that number is. *)
Theorem C24_byte_count_length : forall c a x u be,
  represents a x -> (u = true -> 0 <= x) ->
  exists l, bi_to_bytes c a u be = Ret l /\ bi_byte_count c a u = Ret (Z.of_nat (length l)).
Proof. exact byte_count_returns. Qed.
Print Assumptions C24_byte_count_length.
Theorem C24_byte_count_value : forall c a x u,
  represents a x -> (u = true -> 0 <= x) ->
  exists n, bi_byte_count c a u = Ret n /\ 1 <= n /\
    forall m, 1 <= m -> (n <= m <-> if u then x < 256 ^ m else - 256 ^ m <= 2 * x < 256 ^ m).
Proof. exact byte_count_value. Qed.
Print Assumptions C24_byte_count_value.
Example C24_byte_count_case :
  represents (Big 1 [4294967295; 127]) (2 ^ 39 - 1) /\
  bi_byte_count debug_strict (Big 1 [4294967295; 127]) false = Ret 5 /\
  bi_byte_count debug_strict (Big 1 [4294967295; 128]) false = Ret 6 /\
  bi_byte_count debug_strict (Big 1 [4294967295; 128]) true = Ret 5.
Proof. split; [repr|]. repeat split. Qed.

(** C53. to_byte_array(mode, isUnsigned, isBigEndian, bytesWritten). The property:
    the number of bytes of the encoding is stored at bytesWritten, and the null
    pointer of the default argument is not dereferenced. True with a pointer in
    Count mode and for zero; nothing is stored with AllocateArray for any other
    value; the null pointer is dereferenced exactly in Count mode and for zero. *)
Theorem C53_bytes_written_partial : forall c a x u be v mode,
  represents a x -> (u = true -> 0 <= x) -> mode = CountOnly \/ x = 0 ->
  exists l, bi_to_bytes c a u be = Ret l /\
    bi_to_bytes_ptr c mode a u be (Some v) =
      Ret (match mode with CountOnly => [] | AllocateArray => l end, Some (Z.of_nat (length l))).
Proof. exact bytes_ptr_right. Qed.
Print Assumptions C53_bytes_written_partial.
Theorem C53_bytes_written_refuted : forall c a x u be p,
  represents a x -> (u = true -> 0 <= x) -> x <> 0 ->
  exists l, bi_to_bytes c a u be = Ret l /\ bi_to_bytes_ptr c AllocateArray a u be p = Ret (l, p).
Proof. exact bytes_ptr_unwritten. Qed.
Print Assumptions C53_bytes_written_refuted.
Theorem C53_null_refuted : forall c a x u be mode,
  represents a x -> (u = true -> 0 <= x) ->
  (bi_to_bytes_ptr c mode a u be None = Undef OutOfBounds <-> mode = CountOnly \/ x = 0).
Proof. exact bytes_ptr_null. Qed.
Print Assumptions C53_null_refuted.
Theorem C53_unsigned_throws : forall c a x be p mode,
  represents a x -> x < 0 -> bi_to_bytes_ptr c mode a true be p = Throw RuntimeError.
Proof. exact bytes_ptr_throws. Qed.
Print Assumptions C53_unsigned_throws.
Example C53_case :
  represents (Big 1 [4294967295; 127]) (2 ^ 39 - 1) /\
  bi_to_bytes_ptr debug_strict CountOnly (Big 1 [4294967295; 127]) false false (Some 7) = Ret ([], Some 5) /\
  bi_to_bytes_ptr debug_strict AllocateArray (Big 1 [4294967295; 127]) false false (Some 7) =
    Ret ([255; 255; 255; 255; 127], Some 7) /\
  bi_to_bytes_ptr debug_strict AllocateArray (Big 0 []) false false (Some 7) = Ret ([0], Some 1) /\
  bi_to_bytes_ptr debug_strict AllocateArray (Big 0 []) false false None = Undef OutOfBounds /\
  bi_to_bytes_ptr debug_strict CountOnly (Big 5 []) true false None = Undef OutOfBounds.
Proof. split; [repr|]. repeat split. Qed.
