(** Property theorems: bitwise operators and dword conversion. *)
From Verif Require Import Machine Spec SpecPos BigInt WordFacts Examples.

(** C13. a & b, a | b, a ^ b, ~a (and the compound forms) on the infinite two's
    complement representation. [Z.testbit] of a negative integer is that
    representation; the second theorem spells it out bit by bit. *)
Theorem C13_bitwise_exact : forall c a b x y,
  represents a x -> represents b y ->
  returns (bi_and c a b) (Z.land x y) /\ returns (bi_or c a b) (Z.lor x y) /\
  returns (bi_xor c a b) (Z.lxor x y) /\ returns (bi_not c a) (Z.lnot x).
Proof. exact bitwise_family. Qed.
Print Assumptions C13_bitwise_exact.
Theorem C13_bitwise_bits : forall c a b x y,
  represents a x -> represents b y ->
  exists p q r s, returns (bi_and c a b) p /\ returns (bi_or c a b) q /\ returns (bi_xor c a b) r /\
    returns (bi_not c a) s /\
    forall n, 0 <= n ->
      Z.testbit p n = Z.testbit x n && Z.testbit y n /\
      Z.testbit q n = Z.testbit x n || Z.testbit y n /\
      Z.testbit r n = xorb (Z.testbit x n) (Z.testbit y n) /\
      Z.testbit s n = negb (Z.testbit x n).
Proof. exact bitwise_bits. Qed.
Print Assumptions C13_bitwise_bits.
Example C13_bitwise_case :
  represents (Big (-1) [1; 0; 1]) (- (2 ^ 64 + 1)) /\ represents (Big 1 [4294967295; 4294967295]) (2 ^ 64 - 1) /\
  bi_and debug_strict (Big (-1) [1; 0; 1]) (Big 1 [4294967295; 4294967295])
    = Ret (Big 1 [4294967295; 4294967295]) /\
  bi_xor debug_strict (Big (-1) [1; 0; 1]) (Big 1 [4294967295; 4294967295])
    = Ret (Big (-1) [0; 0; 2]) /\
  Z.lxor (- (2 ^ 64 + 1)) (2 ^ 64 - 1) = - 2 ^ 65.
Proof. split; [repr|]. split; [repr|]. split; [vm_compute; reflexivity|]. split; vm_compute; reflexivity. Qed.

(** C37. to_uint32_array is the shortest two's complement dword encoding, the
    dword constructor decodes every encoding, and the two round-trip. *)
Theorem C37_to_words_shortest : forall c a x,
  represents a x ->
  exists l, bi_to_uint32_array c a = Ret l /\ digits (2 ^ 32) l /\ complement (2 ^ 32) l = x /\
    forall l', digits (2 ^ 32) l' -> complement (2 ^ 32) l' = x -> (length l <= length l')%nat.
Proof. exact to_words_returns. Qed.
Print Assumptions C37_to_words_shortest.
Theorem C37_of_words_exact : forall c l,
  digits (2 ^ 32) l -> returns (bi_of_dwords c l) (complement (2 ^ 32) l).
Proof. exact of_words_returns. Qed.
Print Assumptions C37_of_words_exact.
Theorem C37_words_round_trip : forall c a x,
  represents a x -> (l <- bi_to_uint32_array c a ;; bi_of_dwords c l) = Ret a.
Proof. exact words_round_trip. Qed.
Print Assumptions C37_words_round_trip.
Example C37_words_case :
  represents (Big 1 [0; 4294967295]) (2 ^ 64 - 2 ^ 32) /\
  bi_to_uint32_array debug_strict (Big 1 [0; 4294967295]) = Ret [0; 4294967295; 0] /\
  bi_to_uint32_array debug_strict (Big (-1) [0; 2147483648]) = Ret [0; 2147483648] /\
  complement (2 ^ 32) [0; 2147483648] = - 2 ^ 63.
Proof. split; [repr|]. split; [reflexivity|]. split; reflexivity. Qed.
