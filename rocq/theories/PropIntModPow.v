(** Property theorems: mod_pow by moduli that do not fit in an int, of any size. *)
From Verif Require Import Machine Spec SpecApi SpecGcd SpecActual SpecLimbs IntSizes SpecIntModPow.
From Verif Require Import BigInt IntModPow IntModPowFacts IntModPowLaws Examples.

(** C107. The size of a modulus makes no difference to what mod_pow does: it is what [power_mod] says of
    any modulus (C17). The size of the buffers, twice that of the modulus, is kept in an
    [int], and from 2^30 limbs on wraps. What happens; nothing is said of moduli of 2^29 limbs and more if
    the buffer, as it turns out, holds the base, nor of moduli of 2^31 limbs and more if the base has as many
    (C107_both_refuted says that up to 2^32 limbs): *)
Theorem C107_mod_pow : forall c a b m x e z, represents a x -> represents b e -> represents m z ->
  2 ^ 31 <= Z.abs z -> mod_pow_long_any c x e z (bi_mod_pow_long_i c a b m).
Proof. exact mod_pow_long_any_holds. Qed.
Print Assumptions C107_mod_pow.
Example C107_case :
  represents (Big (-1) [7; 0; 5]) (- (5 * 2 ^ 64 + 7)) /\ represents (Big 1 [1; 2]) (2 ^ 33 + 1) /\
  represents (Big (-1) [3; 9]) (- (9 * 2 ^ 32 + 3)) /\
  bi_mod_pow_long_i debug_strict (Big (-1) [7; 0; 5]) (Big 1 [1; 2]) (Big (-1) [3; 9]) = Sized (Ret (Big (-1) [3725886645; 3])) /\
  bi_mod_pow_long_i debug_strict (Big (-3) []) (Big 90 []) (Big 1 [3; 9]) = Sized (Ret (Big 1 [351027884; 4])) /\
  bi_mod_pow_long_i debug_strict (Big (-1) [7; 0; 5]) (Big 0 []) (Big 1 [3; 9]) = Sized (Ret (Big 1 [])) /\
  bi_mod_pow_long_i debug_strict (Big 7 []) (Big (-1) []) (Big 1 [3; 9]) = Sized (Throw OutOfRange).
Proof. do 3 (split; [repr|]). repeat split; vm_compute; reflexivity. Qed.

(** The claim holds below 2^29 limbs, unless an exponent of more than 2^31 limbs meets a modulus of fewer than 32. *)
Theorem C107_partial : forall c a b m x e z, represents a x -> represents b e -> represents m z ->
  2 ^ 31 <= Z.abs z -> limbs_of x < 2 ^ 31 -> (limbs_of z < 32 -> limbs_of e <= 2 ^ 31) -> limbs_of z < 2 ^ 29 ->
  exists p, bi_mod_pow_long_i c a b m = Sized p /\ denotes p (power_mod (dbg c) x e z).
Proof. exact mod_pow_long_below. Qed.
Print Assumptions C107_partial.

(** From 2^30 limbs on every call throws std::length_error, *)
Theorem C107_refuted : forall c a b m x e z, represents a x -> represents b e -> represents m z -> 0 <= e -> limbs_of x < 2 ^ 31 ->
  2 ^ 30 <= limbs_of z < 2 ^ 31 -> bi_mod_pow_long_i c a b m = LengthError.
Proof. exact mod_pow_long_wide. Qed.
Print Assumptions C107_refuted.
(** even that for the first power of 1, which is 1; *)
Example C107_refuted_case : forall k, k = 2 ^ 30 -> exists m, represents m (2 ^ (32 * (k - 1))) /\
  forall c a, represents a 1 -> bi_mod_pow_long_i c a a m = LengthError /\ Z.rem (1 ^ 1) (2 ^ (32 * (k - 1))) = 1.
Proof. exact mod_pow_long_case. Qed.

(** and with 2^31 limbs the first limb of an empty buffer is written. *)
Theorem C107_empty_refuted : forall c a b m x e z, represents a x -> represents b e -> represents m z -> 0 <= e -> limbs_of x < 2 ^ 31 ->
  limbs_of z = 2 ^ 31 -> bi_mod_pow_long_i c a b m = Sized (Undef OutOfBounds).
Proof. exact mod_pow_long_half. Qed.
Print Assumptions C107_empty_refuted.

(** A base of 2^31 to 2^32 limbs is not reduced: an assertion fails, or the copy of the base goes out of bounds. *)
Theorem C107_base_refuted : forall c a b m x e z, represents a x -> represents b e -> represents m z -> 0 <= e -> 2 ^ 31 <= limbs_of x < 2 ^ 32 ->
  2 ^ 31 <= Z.abs z -> limbs_of z < 2 ^ 30 ->
  bi_mod_pow_long_i c a b m = Sized (if dbg c then AssertFail else Undef OutOfBounds).
Proof. exact mod_pow_long_base. Qed.
Print Assumptions C107_base_refuted.

(** A base and a modulus of 2^31 limbs and more: the remainder of the longer base fails as in C102; a base that is
    no longer than the modulus is copied from in front of its array, or the size of the buffer is refused. *)
Theorem C107_both_refuted : forall c a b m x e z, represents a x -> represents b e -> represents m z -> 0 <= e ->
  2 ^ 31 <= limbs_of z <= 2 ^ 32 ->
  (limbs_of z < limbs_of x -> bi_mod_pow_long_i c a b m =
     Sized (if dbg c then AssertFail else Undef (if strict c && (limbs_of z =? 2 ^ 31) then SignedOverflow else OutOfBounds))) /\
  (2 ^ 31 <= limbs_of x <= limbs_of z -> limbs_of x < 2 ^ 32 -> bi_mod_pow_long_i c a b m =
     if int_of (2 * limbs_of z) <? 0 then LengthError else Sized (Undef OutOfBounds)).
Proof. exact mod_pow_long_both. Qed.
Print Assumptions C107_both_refuted.

(** The limbs of an exponent are counted in an [int] below 32 limbs of the modulus, which overflows past 2^31 limbs, *)
Theorem C107_exponent_refuted : forall c a b m x e z, represents a x -> represents b e -> represents m z ->
  2 ^ 31 <= Z.abs z -> 0 <= e -> limbs_of x < 2 ^ 31 -> limbs_of z < 32 -> strict c = true -> 2 ^ 31 < limbs_of e ->
  bi_mod_pow_long_i c a b m = Sized (Undef SignedOverflow).
Proof. exact mod_pow_long_strict. Qed.
Print Assumptions C107_exponent_refuted.
(** and where it wraps, limbs of the exponent are left out: *)
Example C107_exponent_case : forall k, k = 2 ^ 31 -> exists b m, represents b (2 ^ (32 * (k + 1))) /\ represents m (2 ^ 61 - 1) /\
  forall c a, represents a 2 ->
    (strict c = true -> bi_mod_pow_long_i c a b m = Sized (Undef SignedOverflow)) /\
    (strict c = false -> exists p, bi_mod_pow_long_i c a b m = Sized p /\ returns p (2 ^ 22)) /\
    Z.rem (2 ^ 2 ^ (32 * (k + 1))) (2 ^ 61 - 1) = 2 ^ 34.
Proof. exact mod_pow_long_lost. Qed.

(** A base of 2^32 limbs and more whose size comes back positive is cut to that size, *)
Theorem C107_cut_refuted : forall c a b m x e z, represents a x -> represents b e -> represents m z -> 0 <= e -> limbs_of e <= 2 ^ 31 ->
  2 ^ 31 <= Z.abs z < 2 ^ 992 -> 2 ^ 31 <= limbs_of x -> 0 <= int_limbs x -> dbg c = false \/ limbs_of z <= int_limbs x ->
  exists p, bi_mod_pow_long_i c a b m = Sized p /\ returns p (Z.rem ((Z.sgn x * low x (int_limbs x)) ^ e) z).
Proof. exact mod_pow_long_cut. Qed.
Print Assumptions C107_cut_refuted.
(** so that 2^(2^37) + 3 comes out as 3. *)
Example C107_cut_case : forall k, k = 2 ^ 32 -> exists a m, represents a (2 ^ (32 * k) + 3) /\ represents m (2 ^ 61 - 1) /\
  forall c b, dbg c = false -> represents b 1 ->
    (exists p, bi_mod_pow_long_i c a b m = Sized p /\ returns p 3) /\
    Z.rem ((2 ^ (32 * k) + 3) ^ 1) (2 ^ 61 - 1) = 2 ^ 55 + 3.
Proof. exact mod_pow_long_cut_case. Qed.
