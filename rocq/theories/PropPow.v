(** Property theorems: pow and mod_pow. [c] is the build configuration. *)
From Verif Require Import Machine Spec SpecApi BigInt PowFacts ModPowApi ReducerFacts PowLaws Examples.

(** C14. pow, with [n] the number of limbs of [|x|]. *)
Theorem C14_pow_exact : forall c a x e n,
  represents a x -> limb_count x n -> 0 <= e < 2 ^ 31 ->
  Z.abs x <= 1 \/ e <= 1 \/ n * e + 1 < 2 ^ 31 - 1 -> returns (bi_pow c a e) (x ^ e).
Proof. exact pow_exact. Qed.
Print Assumptions C14_pow_exact.
Theorem C14_pow_overflow : forall c a x e n,
  represents a x -> limb_count x n -> 1 < e < 2 ^ 31 -> 1 < Z.abs x -> 2 ^ 31 - 1 <= n * e + 1 ->
  bi_pow c a e = Throw OverflowError.
Proof. exact pow_overflow. Qed.
Print Assumptions C14_pow_overflow.
Theorem C14_pow_negative : forall c a x e,
  represents a x -> - 2 ^ 31 <= e < 0 -> bi_pow c a e = Throw OutOfRange.
Proof. exact pow_negative. Qed.
Print Assumptions C14_pow_negative.
Example C14_case :
  represents (Big (-1) [5; 1]) (- (2 ^ 32 + 5)) /\ limb_count (- (2 ^ 32 + 5)) 2 /\
  bi_pow debug_strict (Big (-1) [5; 1]) 3 = Ret (Big (-1) [125; 75; 15; 1]) /\
  bi_pow debug_strict (Big (-1) [5; 1]) (-1) = Throw OutOfRange /\
  bi_pow debug_strict (Big 2 []) 2147483647 = Throw OverflowError.
Proof.
  split; [repr|]. split; [apply limb_count_compute; vm_compute; reflexivity|].
  repeat split; vm_compute; reflexivity.
Qed.

(** C15. mod_pow for 0 < |m| < 2^31. The full claim,
      represents a x -> represents b e -> represents m z -> 0 <= e -> z <> 0 ->
      Z.abs z < 2 ^ 31 -> returns (bi_mod_pow c a b m) (Z.rem (x ^ e) z),
    holds exactly where the remainder is not negative; elsewhere the code is
    2^32 too high (the sign is applied in uint32_t). *)
Theorem C15_mod_pow_small_partial : forall c a b m x e z,
  represents a x -> represents b e -> represents m z -> 0 <= e -> z <> 0 -> Z.abs z < 2 ^ 31 ->
  0 <= Z.rem (x ^ e) z -> returns (bi_mod_pow c a b m) (Z.rem (x ^ e) z).
Proof. exact mod_pow_small_ok. Qed.
Print Assumptions C15_mod_pow_small_partial.
Theorem C15_mod_pow_small_refuted : forall c a b m x e z,
  represents a x -> represents b e -> represents m z -> 0 <= e -> z <> 0 -> Z.abs z < 2 ^ 31 ->
  Z.rem (x ^ e) z < 0 -> returns (bi_mod_pow c a b m) (Z.rem (x ^ e) z + 2 ^ 32).
Proof. exact mod_pow_small_bad. Qed.
Print Assumptions C15_mod_pow_small_refuted.
Theorem C15_mod_pow_negative : forall c a b m x e z,
  represents a x -> represents b e -> represents m z -> e < 0 -> bi_mod_pow c a b m = Throw OutOfRange.
Proof. exact mod_pow_negative. Qed.
Print Assumptions C15_mod_pow_negative.
Example C15_case :
  represents (Big (-1) [0; 1]) (- 2 ^ 32) /\ represents (Big 1 [0; 1]) (2 ^ 32) /\ represents (Big 7 []) 7 /\
  bi_mod_pow debug_strict (Big (-1) [0; 1]) (Big 1 [0; 1]) (Big 7 []) = Ret (Big 4 []) /\
  bi_mod_pow debug_strict (Big (-3) []) (Big 3 []) (Big 7 []) = Ret (Big 1 [4294967290]) /\
  Z.rem ((-3) ^ 3) 7 = -6.
Proof. split; [repr|]. split; [repr|]. split; [repr|]. repeat split; vm_compute; reflexivity. Qed.

(** C16. mod_pow for 2^31 <= |m| < 2^992. *)
Theorem C16_mod_pow_exact : forall c a b m x e z,
  represents a x -> represents b e -> represents m z -> 0 <= e ->
  2 ^ 31 <= Z.abs z -> Z.abs z < 2 ^ 992 ->
  returns (bi_mod_pow c a b m) (Z.rem (x ^ e) z).
Proof. exact mod_pow_medium. Qed.
Print Assumptions C16_mod_pow_exact.
Example C16_case :
  represents (Big (-1) [7; 1]) (- (2 ^ 32 + 7)) /\ represents (Big 1 [3; 1]) (2 ^ 32 + 3) /\
  represents (Big (-1) [1; 0; 1]) (- (2 ^ 64 + 1)) /\
  bi_mod_pow debug_strict (Big (-1) [7; 1]) (Big 1 [3; 1]) (Big (-1) [1; 0; 1]) =
    Ret (Big (-1) [2874672238; 200047763]).
Proof. split; [repr|]. split; [repr|]. split; [repr|]. vm_compute; reflexivity. Qed.

(** C17. mod_pow for a modulus of [n >= 32] limbs. The full claim,
      represents a x -> represents b e -> represents m z -> 0 <= e ->
      2 ^ 992 <= Z.abs z -> returns (bi_mod_pow c a b m) (Z.rem (x ^ e) z),
    is false: the reducer works on a copy of the buffer, so nothing is ever
    reduced. Proved: the powers that need no reduction; and, already for
    exponent 1, the wrong answer for every base at least as large as the
    modulus with as many limbs. Missing from the first: larger powers whose
    result happens to be right. *)
Theorem C17_mod_pow_large_partial : forall c a b m x e z n,
  represents a x -> represents b e -> represents m z -> 32 <= n -> limb_count z n ->
  0 <= e < 2 ^ 31 -> fits_limbs x (n - 1) -> fits_limbs (x ^ e) (n - 1) ->
  returns (bi_mod_pow c a b m) (Z.rem (x ^ e) z).
Proof. exact mod_pow_large_short. Qed.
Print Assumptions C17_mod_pow_large_partial.
Theorem C17_mod_pow_large_refuted : forall c a b m x z n,
  represents a x -> represents b 1 -> represents m z ->
  32 <= n -> limb_count x n -> limb_count z n -> Z.abs z <= Z.abs x ->
  returns (bi_mod_pow c a b m) x /\ Z.rem (x ^ 1) z <> x.
Proof. exact mod_pow_one_wrong. Qed.
Print Assumptions C17_mod_pow_large_refuted.
Example C17_case :
  represents (big32 3) (2 ^ 992 + 3) /\ represents (big32 7) (2 ^ 992 + 7) /\
  limb_count (2 ^ 992 + 3) 32 /\ limb_count (2 ^ 992 + 7) 32 /\
  bi_mod_pow debug_strict (big32 7) (Big 1 []) (big32 3) = Ret (big32 7) /\
  bi_mod_pow debug_strict (Big 3 []) (Big 2 []) (big32 3) = Ret (Big 9 []) /\
  Z.rem ((2 ^ 992 + 7) ^ 1) (2 ^ 992 + 3) = 4.
Proof.
  split; [repr|]. split; [repr|].
  split; [apply limb_count_compute; vm_compute; reflexivity|]. split; [apply limb_count_compute; vm_compute; reflexivity|].
  repeat split; vm_compute; reflexivity.
Qed.

(** C08 for mod_pow: the full claim fails exactly for a base below 2^31 and an
    exponent of two limbs or more, which divides by zero in hardware. *)
Theorem C08_mod_pow_by_zero_partial : forall c a b m x e,
  represents a x -> represents b e -> represents m 0 -> 0 <= e ->
  2 ^ 31 <= Z.abs x \/ e < 2 ^ 32 -> bi_mod_pow c a b m = Throw DivideByZero.
Proof. exact mod_pow_zero_throws. Qed.
Print Assumptions C08_mod_pow_by_zero_partial.
Theorem C08_mod_pow_by_zero_refuted : forall c a b m x e,
  represents a x -> represents b e -> represents m 0 -> Z.abs x < 2 ^ 31 -> 2 ^ 32 <= e ->
  bi_mod_pow c a b m = Undef DivByZero.
Proof. exact mod_pow_zero_undef. Qed.
Print Assumptions C08_mod_pow_by_zero_refuted.
Example C08_mod_pow_case :
  represents (Big 1 [0; 1]) (2 ^ 32) /\ represents (Big 0 []) 0 /\
  bi_mod_pow debug_strict (Big 1 [0; 1]) (Big 1 [0; 1]) (Big 0 []) = Throw DivideByZero /\
  bi_mod_pow debug_strict (Big 5 []) (Big 1 [0; 1]) (Big 0 []) = Undef DivByZero.
Proof. split; [repr|]. split; [repr|]. repeat split; vm_compute; reflexivity. Qed.
