(** Property theorems: decimal text of numbers of 2^31 limbs and more. *)
From Coq Require Import String.
From Verif Require Import Machine Spec SpecApi SpecGcd SpecText SpecLimbs SpecIntAdd SpecIntText.
From Verif Require Import BigInt BigIntText TextFacts IntSizes IntText IntTextFacts IntTextLaws Examples.
Open Scope Z_scope.

(** C100. For integers of any size, to_string() returns the decimal numeral or throws OverflowError.
    The limb count is kept in an [int], so this is false from 2^31 limbs on, and below that where
    C19 says so. What every call does: *)
Theorem C100_text : forall c a x, represents a x ->
  (Z.abs x < 2 ^ 31 -> exists s, bi_to_string_i c a = Sized (Ret s) /\ numeral s x) /\
  (2 ^ 31 <= Z.abs x -> text_any c x (bi_to_string_i c a)).
Proof. exact to_string_i_text. Qed.
Print Assumptions C100_text.
Example C100_case :
  represents (Big (-1) [0; 0; 1]) (- 2 ^ 64) /\ 2 ^ 31 <= Z.abs (- 2 ^ 64) /\
  bi_to_string_i debug_strict (Big (-1) [0; 0; 1]) = Sized (Ret "-18446744073709551616"%string) /\
  represents (Big (-1) [1569325056; 23283064]) (- 10 ^ 17) /\
  bi_to_string_i debug_strict (Big (-1) [1569325056; 23283064]) = Sized (Undef OutOfBounds).
Proof.
  split; [repr|]. split; [vm_compute; discriminate|]. split; [vm_compute; reflexivity|].
  split; [repr|]. vm_compute; reflexivity.
Qed.

(** Below 2^31 limbs the claim holds but for the negative numbers of C19. *)
Theorem C100_partial : forall c a x, represents a x -> limbs_of x < 2 ^ 31 ->
  (limbs_of x <= 214748364 -> ~ sign_hits x -> exists s, bi_to_string_i c a = Sized (Ret s) /\ numeral s x) /\
  (limbs_of x <= 214748364 -> sign_hits x -> bi_to_string_i c a = Sized (Undef OutOfBounds)) /\
  (214748364 < limbs_of x -> bi_to_string_i c a = Sized (Throw OverflowError)).
Proof. exact to_string_i_fits. Qed.
Print Assumptions C100_partial.
Example C100_partial_case :
  represents (Big (-1) [0; 0; 1]) (- 2 ^ 64) /\ limbs_of (- 2 ^ 64) = 3 /\ ~ sign_hits (- 2 ^ 64).
Proof.
  split; [repr|]. split; [vm_compute; reflexivity|].
  apply (sign_hits_not _ 20); [apply width_compute|]; vm_compute; [reflexivity|discriminate].
Qed.

(** Above: an int overflows, std::length_error is thrown, the leading block is read outside its
    array, or the text is that of the low limbs only. *)
Theorem C100_refuted : forall c a x, represents a x ->
  (2 ^ 31 <= limbs_of x < 2 ^ 32 - 214748364 -> strict c = true -> bi_to_string_i c a = Sized (Undef SignedOverflow)) /\
  (2 ^ 32 - 214748364 <= limbs_of x < 2 ^ 32 - 2 -> bi_to_string_i c a = LengthError) /\
  (2 ^ 32 - 2 <= limbs_of x <= 2 ^ 32 -> bi_to_string_i c a = Sized (Undef OutOfBounds)) /\
  (2 ^ 32 < limbs_of x <= 2 ^ 32 + 214748364 -> 0 < x -> low x (limbs_of x - 2 ^ 32) <> 0 ->
   exists s, bi_to_string_i c a = Sized (Ret s) /\ numeral s (low x (limbs_of x - 2 ^ 32)) /\ ~ numeral s x).
Proof. exact to_string_i_wide. Qed.
Print Assumptions C100_refuted.
(** 2^(32k) + 5 prints as 5 for k = 2^32. *)
Example C100_refuted_case : forall k, k = 2 ^ 32 -> exists a b d,
  represents a (2 ^ (32 * k) + 5) /\ represents b (- 2 ^ (32 * (k - 3))) /\ represents d (2 ^ (32 * (k - 1000))) /\
  forall c, bi_to_string_i c a = Sized (Ret "5"%string) /\ bi_to_string_i c b = Sized (Undef OutOfBounds) /\
    bi_to_string_i c d = LengthError.
Proof. exact text_case. Qed.
