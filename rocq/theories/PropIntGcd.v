(** Property theorems: greatest_common_divisor of numbers of 2^31 limbs and more. *)
From Verif Require Import Machine Spec SpecApi SpecGcd SpecActual SpecPos IntSizes SpecLimbs SpecIntAdd SpecIntGcd.
From Verif Require Import BigInt IntAdd IntGcd IntGcdFacts IntGcdLaws Examples.

(** C104. For integers of any size, greatest_common_divisor returns their greatest common divisor when one of them
    fits in 64 bits, and does what C18 says otherwise. The limb counts are kept in [int]s, so
    this is false from 2^31 limbs on. What every call does, but for two numbers of 3 and more limbs of
    which one has 2^32 or more: *)
Theorem C104_gcd : forall fuel c a b x y, represents a x -> represents b y -> gcd_any fuel c x y (bi_gcd_i fuel c a b).
Proof. exact gcd_any_holds. Qed.
Print Assumptions C104_gcd.
Example C104_case :
  represents (Big (-1) [6; 0; 6]) (- (6 * 2 ^ 64 + 6)) /\ represents (Big 1 [0; 2]) (2 ^ 33) /\
  bi_gcd_i 9 debug_strict (Big (-1) [6; 0; 6]) (Big 1 [0; 2]) = Sized (Ret (Big 2 [])) /\
  bi_gcd_i 9 debug_strict (Big 1 [0; 2]) (Big (-1) [6; 0; 6]) = Sized (Ret (Big 2 [])) /\
  bi_gcd_i 9 debug_strict (Big (-1) [6; 0; 6]) (Big 9 []) = Sized (Ret (Big 3 [])) /\
  bi_gcd_i 9 debug_strict (Big (-4) []) (Big (-1) [6; 0; 6]) = Sized (Ret (Big 2 [])) /\
  bi_gcd_i 9 debug_strict (Big (-1) [6; 0; 6]) (Big 1 [3000000000]) = Sized (Ret (Big 6 [])) /\
  bi_gcd_i 9 debug_strict (Big (-1) [6; 0; 6]) (Big 0 []) = Sized (Ret (Big 1 [6; 0; 6])) /\
  bi_gcd_i 9 debug_strict (Big (-1) [6; 0; 6]) (Big 1 [6; 0; 6]) = Sized (Ret (Big 1 [6; 0; 6])) /\
  bi_gcd_i 9 debug_strict (Big 6 []) (Big (-9) []) = Sized (Ret (Big 3 [])).
Proof. split; [repr|]. split; [repr|]. repeat split; vm_compute; reflexivity. Qed.

(** The claim holds of numbers of fewer than 2^31 limbs: what the call does is what C18 says of them. *)
Theorem C104_partial : forall fuel c a b x y, represents a x -> represents b y -> limbs_of x < 2 ^ 31 -> limbs_of y < 2 ^ 31 ->
  comes (bi_gcd_i fuel c a b) (fun o => denotes o (actual_gcd fuel (dbg c) x y)).
Proof. exact gcd_i_below. Qed.
Print Assumptions C104_partial.

(** From there on it still holds of zero, *)
Theorem C104_zero : forall fuel c a b x, represents a x -> represents b 0 -> 2 ^ 31 <= limbs_of x < 2 ^ 32 ->
  comes (bi_gcd_i fuel c a b) (fun o => returns o (Z.abs x)) /\ comes (bi_gcd_i fuel c b a) (fun o => returns o (Z.abs x)).
Proof. exact gcd_i_zero. Qed.
Print Assumptions C104_zero.

(** but any other number of one limb is said to divide the long one, *)
Theorem C104_one_refuted : forall fuel c a b x y, represents a x -> represents b y ->
  2 ^ 31 < limbs_of x <= 2 ^ 32 -> limbs_of y = 1 -> y <> 0 ->
  comes (bi_gcd_i fuel c a b) (fun o => returns o (Z.abs y)) /\ comes (bi_gcd_i fuel c b a) (fun o => returns o (Z.abs y)).
Proof. exact gcd_i_one. Qed.
Print Assumptions C104_one_refuted.
(** as 3 is to divide a power of two, *)
Example C104_one_case : forall fuel c k a b, 2 ^ 31 <= k < 2 ^ 32 -> represents a (2 ^ (32 * k)) -> represents b 3 ->
  comes (bi_gcd_i fuel c a b) (fun o => returns o 3) /\ Z.gcd (2 ^ (32 * k)) 3 = 1.
Proof. exact gcd_i_three. Qed.

(** a number of two limbs fails an assertion or meets only the low 64 bits of the long one, *)
Theorem C104_two_refuted : forall fuel c a b x y, represents a x -> represents b y ->
  2 ^ 31 <= limbs_of x < 2 ^ 32 -> limbs_of y = 2 ->
  forall o, o = bi_gcd_i fuel c a b \/ o = bi_gcd_i fuel c b a ->
  if dbg c then o = Sized AssertFail else comes o (fun o => returns o (Z.gcd (Z.abs x mod 2 ^ 64) y)).
Proof. exact gcd_i_two. Qed.
Print Assumptions C104_two_refuted.

(** and one of three or more ends in std::length_error. *)
Theorem C104_length_refuted : forall fuel c a b x y, represents a x -> represents b y ->
  2 ^ 31 <= limbs_of x < 2 ^ 32 -> 3 <= limbs_of y < 2 ^ 32 ->
  bi_gcd_i fuel c a b = LengthError /\ bi_gcd_i fuel c b a = LengthError.
Proof. exact gcd_i_length. Qed.
Print Assumptions C104_length_refuted.

(** 2^(2^36) with 0, 3, 2^40 + 1, 2^40, 2^64 and itself. *)
Example C104_refuted_case : forall k, k = 2 ^ 31 -> exists a, represents a (2 ^ (32 * k)) /\
  forall fuel c b, (represents b 0 -> comes (bi_gcd_i fuel c a b) (fun o => returns o (2 ^ (32 * k)))) /\
    (represents b 3 -> comes (bi_gcd_i fuel c a b) (fun o => returns o 3)) /\
    (represents b (2 ^ 40 + 1) -> dbg c = true -> bi_gcd_i fuel c b a = Sized AssertFail) /\
    (represents b (2 ^ 40) -> dbg c = false -> comes (bi_gcd_i fuel c b a) (fun o => returns o (2 ^ 40))) /\
    (represents b (2 ^ 64) -> bi_gcd_i fuel c a b = LengthError) /\
    bi_gcd_i fuel c a a = LengthError.
Proof. exact gcd_wide_case. Qed.
