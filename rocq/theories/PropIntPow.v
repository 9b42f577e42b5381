(** Property theorems: powers of numbers of 2^31 limbs and more. *)
From Verif Require Import Machine Spec SpecApi SpecGcd SpecActual SpecLimbs IntSizes SpecIntPow.
From Verif Require Import BigInt IntPow IntPowFacts IntPowLaws Examples.

(** C105. For integers of any size, pow returns the power, or throws std::overflow_error if that
    is too long (C14). The limb counts are kept in [int]s. What every call does: *)
Theorem C105_pow : forall c a x e, represents a x -> - 2 ^ 31 <= e < 2 ^ 31 -> pow_any c x e (bi_pow_i c a e).
Proof. exact pow_any_holds. Qed.
Print Assumptions C105_pow.
Example C105_case :
  represents (Big (-1) [7; 0; 5]) (- (5 * 2 ^ 64 + 7)) /\
  bi_pow_i debug_strict (Big (-1) [7; 0; 5]) 2 = Sized (Ret (Big 1 [49; 0; 70; 0; 25])) /\
  bi_pow_i debug_strict (Big (-1) [7; 0; 5]) 1 = Sized (Ret (Big (-1) [7; 0; 5])) /\
  bi_pow_i debug_strict (Big (-1) [7; 0; 5]) 0 = Sized (Ret (Big 1 [])) /\
  bi_pow_i debug_strict (Big (-1) [7; 0; 5]) 2147483647 = Sized (Throw OverflowError) /\
  bi_pow_i debug_strict (Big (-1) [7; 0; 5]) (-1) = Sized (Throw OutOfRange) /\
  bi_pow_i debug_strict (Big (-3) []) 5 = Sized (Ret (Big (-243) [])) /\
  bi_pow_i debug_strict (Big (-1) []) 2147483647 = Sized (Ret (Big (-1) [])).
Proof. split; [repr|]. repeat split; vm_compute; reflexivity. Qed.

(** The claim holds of bases of fewer than 2^31 limbs. *)
Theorem C105_partial : forall c a x e, represents a x -> 0 <= e < 2 ^ 31 -> limbs_of x < 2 ^ 31 ->
  if (1 <? e) && (1 <? Z.abs x) && (2 ^ 31 - 1 <=? limbs_of x * e + 1) then bi_pow_i c a e = Sized (Throw OverflowError)
  else gives (bi_pow_i c a e) (x ^ e).
Proof. exact pow_i_below. Qed.
Print Assumptions C105_partial.

(** If the number of limbs is negative as an int, as it is from 2^31 to 2^32, the check of the length overflows; where that wraps, the exception is
    thrown all the same from three quarters of 2^32 limbs on and for odd exponents, for even powers of 2^31 limbs the base is
    copied out of bounds, and there is never a result. *)
Theorem C105_refuted : forall c a x e, represents a x -> 1 < e < 2 ^ 31 -> int_limbs x < 0 ->
  (strict c = true -> bi_pow_i c a e = Sized (Undef SignedOverflow)) /\
  (strict c = false -> - 2 ^ 30 <= int_limbs x \/ Z.odd e = true -> bi_pow_i c a e = Sized (Throw OverflowError)) /\
  (strict c = false -> limbs_of x = 2 ^ 31 -> Z.even e = true -> bi_pow_i c a e = Sized (Undef OutOfBounds)) /\
  (forall z, ~ gives (bi_pow_i c a e) z).
Proof. exact pow_i_wide. Qed.
Print Assumptions C105_refuted.

(** If it comes back positive there is no exception, but a power of the low limbs, *)
Theorem C105_lost_refuted : forall c a x e, represents a x -> 1 < e < 2 ^ 31 -> 2 ^ 31 <= limbs_of x -> 0 <= int_limbs x ->
  int_limbs x * e + 1 < 2 ^ 31 - 1 -> gives (bi_pow_i c a e) ((Z.sgn x * low x (int_limbs x)) ^ e).
Proof. exact pow_i_lost. Qed.
Print Assumptions C105_lost_refuted.
(** such as 9 for the square of 2^(2^37) + 3. *)
Example C105_lost_case : forall k, k = 2 ^ 32 -> exists a, represents a (2 ^ (32 * k) + 3) /\
  forall c, gives (bi_pow_i c a 2) 9 /\ (2 ^ (32 * k) + 3) ^ 2 <> 9.
Proof. exact pow_lost_case. Qed.

(** C106. For integers of any size, mod_pow by a modulus that fits in an int, and is not 0, returns the remainder
    of the power (as C15 has it, plus 2^32 if it is negative). What every call does: the limbs of the
    base are counted in an [int], and so are those of the exponent. *)
Theorem C106_mod_pow : forall c a b x e z, represents a x -> represents b e -> z <> 0 -> Z.abs z < 2 ^ 31 ->
  mod_pow_any c x e z (bi_mod_pow_int_i c a b z).
Proof. exact mod_pow_any_holds. Qed.
Print Assumptions C106_mod_pow.
Example C106_case :
  represents (Big (-1) [7; 0; 5]) (- (5 * 2 ^ 64 + 7)) /\ represents (Big 1 [1; 2]) (2 ^ 33 + 1) /\
  bi_mod_pow_int_i debug_strict (Big (-1) [7; 0; 5]) (Big 1 [1; 2]) 1000 = Ret (Big 1 [4294966849]) /\
  Z.rem (- (5 * 2 ^ 64 + 7)) 1000 = -87 /\ Z.rem ((- 87) ^ 5) 1000 = -207 /\
  bi_mod_pow_int_i debug_strict (Big (-1) [7; 0; 5]) (Big 5 []) (-1000) = Ret (Big 1 [4294967089]) /\
  bi_mod_pow_int_i debug_strict (Big (-1) [7; 0; 5]) (Big 6 []) 1000 = Ret (Big 9 []) /\
  bi_mod_pow_int_i debug_strict (Big 3 []) (Big 1 [1; 2]) 7 = Ret (Big 6 []) /\
  bi_mod_pow_int_i debug_strict (Big 3 []) (Big (-1) []) 7 = Throw OutOfRange.
Proof. split; [repr|]. split; [repr|]. repeat split; vm_compute; reflexivity. Qed.

(** The claim holds up to 2^31 limbs. *)
Theorem C106_partial : forall c a b x e z, represents a x -> represents b e -> 0 <= e -> z <> 0 -> Z.abs z < 2 ^ 31 ->
  limbs_of x <= 2 ^ 31 -> limbs_of e <= 2 ^ 31 ->
  returns (bi_mod_pow_int_i c a b z) (let r := Z.rem (x ^ e) z in if r <? 0 then r + 2 ^ 32 else r).
Proof. exact mod_pow_i_below. Qed.
Print Assumptions C106_partial.

(** Every power of a longer base is 0, *)
Theorem C106_base_refuted : forall c a b x e z, represents a x -> represents b e -> 0 < e -> z <> 0 -> Z.abs z < 2 ^ 31 ->
  2 ^ 31 < limbs_of x <= 2 ^ 32 -> limbs_of e <= 2 ^ 31 -> returns (bi_mod_pow_int_i c a b z) 0.
Proof. exact mod_pow_i_base. Qed.
Print Assumptions C106_base_refuted.
(** even the first power of a power of two, modulo 3. *)
Example C106_base_case : forall c k a b, 2 ^ 31 <= k < 2 ^ 32 -> represents a (2 ^ (32 * k)) -> represents b 1 ->
  returns (bi_mod_pow_int_i c a b 3) 0 /\ Z.rem (2 ^ (32 * k)) 3 = 1.
Proof. exact mod_pow_base_case. Qed.

(** The index of a longer exponent overflows, *)
Theorem C106_exponent_refuted : forall c a b x e z, represents a x -> represents b e -> 0 <= e -> z <> 0 -> Z.abs z < 2 ^ 31 ->
  strict c = true -> 2 ^ 31 < limbs_of e -> bi_mod_pow_int_i c a b z = Undef SignedOverflow.
Proof. exact mod_pow_i_strict. Qed.
Print Assumptions C106_exponent_refuted.
(** and where that wraps limbs are left out: 2 to the 2^(2^36 + 32) modulo 127 is 2, and comes out as 4. *)
Example C106_exponent_case : forall k, k = 2 ^ 31 -> exists b, represents b (2 ^ (32 * (k + 1))) /\
  forall c a, represents a 2 ->
    (strict c = true -> bi_mod_pow_int_i c a b 127 = Undef SignedOverflow) /\
    (strict c = false -> returns (bi_mod_pow_int_i c a b 127) 4) /\
    Z.rem (2 ^ 2 ^ (32 * (k + 1))) 127 = 2.
Proof. exact mod_pow_wide_case. Qed.
