(** Property theorems: bitwise operators and words of numbers of 2^31 limbs and more. *)
From Verif Require Import Machine Spec SpecApi SpecGcd SpecPos SpecLimbs SpecIntBits.
From Verif Require Import BigInt IntSizes IntBits IntBitsFacts IntBitsLaws Examples.

(** C101. For integers of any size, &, | and ^ give the bitwise results in two's complement,
    to_uint32_array() gives the words of the number, and BigInteger(uint_array) the number of the
    words. The counts are kept in [int]s, so this is false from about 2^31 words on. What every
    call of the operators and of to_uint32_array does: *)
Theorem C101_bitwise : forall c a b x y, represents a x -> represents b y ->
  sized_denotes (bi_and_i c a b) (and_any c x y) /\
  sized_denotes (bi_or_i c a b) (or_any c x y) /\
  sized_denotes (bi_xor_i c a b) (xor_any c x y).
Proof. exact bitwise_i_spec. Qed.
Print Assumptions C101_bitwise.
Theorem C101_words : forall c a x, represents a x ->
  match worded c x with
  | Sized (Ret v) => exists l, bi_to_uint32_array_i c a = Sized (Ret l) /\ digits (2 ^ 32) l /\ complement (2 ^ 32) l = v
  | Sized (Undef u) => bi_to_uint32_array_i c a = Sized (Undef u)
  | LengthError => bi_to_uint32_array_i c a = LengthError
  | _ => False
  end.
Proof. exact to_words_i_returns. Qed.
Print Assumptions C101_words.
Example C101_case :
  represents (Big (-1) [0; 0; 1]) (- 2 ^ 64) /\ represents (Big 1 [7; 0; 3]) (3 * 2 ^ 64 + 7) /\
  bi_and_i debug_strict (Big (-1) [0; 0; 1]) (Big 1 [7; 0; 3]) = Sized (Ret (Big 1 [0; 0; 3])) /\
  bi_or_i debug_strict (Big (-1) [0; 0; 1]) (Big 1 [7; 0; 3]) = Sized (Ret (Big (-1) [4294967289; 4294967295])) /\
  bi_xor_i debug_strict (Big (-1) [0; 0; 1]) (Big 1 [7; 0; 3]) = Sized (Ret (Big (-1) [4294967289; 4294967295; 3])) /\
  xor_any debug_strict (- 2 ^ 64) (3 * 2 ^ 64 + 7) = Sized (Ret (7 - 4 * 2 ^ 64)) /\
  bi_to_uint32_array_i debug_strict (Big (-1) [0; 0; 1]) = Sized (Ret [0; 0; 4294967295]) /\
  worded debug_strict (- 2 ^ 64) = Sized (Ret (- 2 ^ 64)).
Proof. split; [repr|]. split; [repr|]. repeat split; vm_compute; reflexivity. Qed.

(** The claim holds of numbers of fewer than 2^31 - 1 limbs and arrays of fewer than 2^31 words. *)
Theorem C101_partial : forall c a b x y, represents a x -> represents b y ->
  limbs_of x < 2 ^ 31 - 1 -> limbs_of y < 2 ^ 31 - 1 ->
  sized_denotes (bi_and_i c a b) (Sized (Ret (Z.land x y))) /\
  sized_denotes (bi_or_i c a b) (Sized (Ret (Z.lor x y))) /\
  sized_denotes (bi_xor_i c a b) (Sized (Ret (Z.lxor x y))).
Proof. exact bitwise_i_fits. Qed.
Print Assumptions C101_partial.

(** With 2^31 limbs the size of the array overflows, with more the scan starts outside it; beyond
    2^32 limbs the high ones are lost, as the case shows. *)
Theorem C101_refuted : forall c a b x y, represents a x -> represents b y -> y <> 0 ->
  (limbs_of x = 2 ^ 31 ->
   let bad := if strict c then Sized (Undef SignedOverflow) else LengthError in
   bi_and_i c a b = bad /\ bi_or_i c a b = bad /\ bi_xor_i c a b = bad) /\
  (2 ^ 31 < limbs_of x <= 2 ^ 32 ->
   bi_and_i c a b = Sized (Undef OutOfBounds) /\ bi_or_i c a b = Sized (Undef OutOfBounds) /\
   bi_xor_i c a b = Sized (Undef OutOfBounds)).
Proof. exact bitwise_i_wide. Qed.
Print Assumptions C101_refuted.
Example C101_refuted_case : forall k, k = 2 ^ 32 -> exists a,
  represents a (2 ^ (32 * k) + 5) /\
  forall c b, (represents b 0 -> sized_denotes (bi_xor_i c a b) (Sized (Ret 5))) /\
    (represents b (-1) -> sized_denotes (bi_and_i c a b) (Sized (Ret 5))) /\
    (represents b 2 -> sized_denotes (bi_or_i c a b) (Sized (Ret 7))).
Proof. exact bits_case. Qed.

(** BigInteger(uint_array) takes 2^31 words and more for a magnitude, and 2^32 words for zero. *)
Theorem C101_constructor_refuted : forall c l, digits (2 ^ 32) l ->
  (Z.of_nat (length l) < 2 ^ 31 -> returns (bi_of_dwords_i c l) (complement (2 ^ 32) l)) /\
  (2 ^ 31 <= Z.of_nat (length l) < 2 ^ 32 -> last l 0 <> 0 -> returns (bi_of_dwords_i c l) (positional (2 ^ 32) l)) /\
  (Z.of_nat (length l) = 2 ^ 32 -> returns (bi_of_dwords_i c l) 0).
Proof. exact of_words_i. Qed.
Print Assumptions C101_constructor_refuted.
(** The words of -1 give 2^(32k) - 1 for k = 2^31. *)
Example C101_constructor_case : forall k, k = 2 ^ 31 -> exists l,
  digits (2 ^ 32) l /\ Z.of_nat (length l) = k /\ complement (2 ^ 32) l = -1 /\
  forall c, returns (bi_of_dwords_i c l) (2 ^ (32 * k) - 1).
Proof. exact words_case. Qed.
