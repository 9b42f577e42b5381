(** Property theorems: multiplication of numbers of 2^31 limbs and more. *)
From Verif Require Import Machine Spec SpecApi SpecGcd SpecPos SpecLimbs SpecIntAdd SpecIntMul.
From Verif Require Import BigInt IntAdd IntMul IntMulFacts IntMulLaws Examples.

(** C103. For integers of any size, * returns the product. The limb counts are kept in [int]s, so
    this is false from 2^31 limbs on. What every call does, but for some recursive products (32 limbs of
    the shorter operand and more) whose size does not fit in an int: *)
Theorem C103_product : forall c a b x y, represents a x -> represents b y -> product_any c x y (bi_mul_i c a b).
Proof. exact product_any_holds. Qed.
Print Assumptions C103_product.
Example C103_case :
  represents (Big (-1) [7; 0; 5]) (- (5 * 2 ^ 64 + 7)) /\ represents (Big 1 [0; 2]) (2 ^ 33) /\
  bi_mul_i debug_strict (Big (-1) [7; 0; 5]) (Big 1 [0; 2]) = Ret (Big (-1) [0; 14; 0; 10]) /\
  bi_mul_i debug_strict (Big 1 [0; 2]) (Big (-1) [7; 0; 5]) = Ret (Big (-1) [0; 14; 0; 10]) /\
  bi_mul_i debug_strict (Big (-1) [7; 0; 5]) (Big (-1) [7; 0; 5]) = Ret (Big 1 [49; 0; 70; 0; 25]) /\
  bi_mul_i debug_strict (Big (-1) [7; 0; 5]) (Big 5 []) = Ret (Big (-1) [35; 0; 25]) /\
  bi_mul_i debug_strict (Big 0 []) (Big (-1) [7; 0; 5]) = Ret (Big 0 []) /\
  bi_mul_i debug_strict (Big 6 []) (Big (-7) []) = Ret (Big (-42) []).
Proof. split; [repr|]. split; [repr|]. repeat split; vm_compute; reflexivity. Qed.

(** The claim holds of operands of fewer than 2^31 limbs together. *)
Theorem C103_partial : forall c a b x y, represents a x -> represents b y -> limbs_of x + limbs_of y < 2 ^ 31 ->
  returns (bi_mul_i c a b) (x * y).
Proof. exact mul_i_fits. Qed.
Print Assumptions C103_partial.

(** From 2^31 - 1 limbs on: 0 times the number is 1 or -1. *)
Theorem C103_zero_refuted : forall c a b x, represents a x -> represents b 0 -> 2 ^ 31 - 1 <= limbs_of x < 2 ^ 32 - 1 ->
  returns (bi_mul_i c a b) (if x <? 0 then -1 else 1) /\ returns (bi_mul_i c b a) (if x <? 0 then -1 else 1).
Proof. exact mul_i_zero. Qed.
Print Assumptions C103_zero_refuted.

(** Two numbers of 2^31 limbs or more, and fewer than 2^32: an assertion fails, or else the product is 0, 1 or -1. *)
Theorem C103_long_refuted : forall c a b x y, represents a x -> represents b y ->
  2 ^ 31 <= limbs_of x < 2 ^ 32 -> 2 ^ 31 <= limbs_of y < 2 ^ 32 ->
  if dbg c then bi_mul_i c a b = AssertFail
  else returns (bi_mul_i c a b)
    (if limbs_of x + limbs_of y <? 2 ^ 32 + 2 ^ 31 then 0 else if xorb (x <? 0) (y <? 0) then -1 else 1).
Proof. exact mul_i_wide. Qed.
Print Assumptions C103_long_refuted.

(** By a number of fewer than 32 limbs, from more than 2^31 limbs together on: the product is written out of
    bounds, at an index that overflowed or is negative, or an assertion fails first. *)
Theorem C103_bounds_refuted : forall c a b x y, represents a x -> represents b y ->
  2 ^ 31 - limbs_of y < limbs_of x < 2 ^ 32 -> 2 ^ 31 <= Z.abs y -> limbs_of y < 32 ->
  let bad := if limbs_of x <? 2 ^ 31 then Undef (if strict c then SignedOverflow else OutOfBounds)
             else if dbg c then AssertFail else Undef OutOfBounds in
  bi_mul_i c a b = bad /\ bi_mul_i c b a = bad.
Proof. exact mul_i_past. Qed.
Print Assumptions C103_bounds_refuted.

(** The same by any number shorter by 2^31 limbs and more. *)
Theorem C103_far_refuted : forall c a b x y, represents a x -> represents b y ->
  2 ^ 31 + limbs_of y <= limbs_of x < 2 ^ 32 -> 2 ^ 31 <= Z.abs y ->
  let bad := if dbg c then AssertFail else Undef OutOfBounds in
  bi_mul_i c a b = bad /\ bi_mul_i c b a = bad.
Proof. exact mul_i_far. Qed.
Print Assumptions C103_far_refuted.

(** Where each length fits in an int and their sum is above 2^31, a signed int overflows. *)
Theorem C103_overflow_refuted : forall c a b x y, represents a x -> represents b y -> strict c = true ->
  2 ^ 31 <= Z.abs x -> 2 ^ 31 <= Z.abs y -> limbs_of x < 2 ^ 31 -> limbs_of y < 2 ^ 31 -> 2 ^ 31 < limbs_of x + limbs_of y ->
  bi_mul_i c a b = Undef SignedOverflow.
Proof. exact mul_i_strict. Qed.
Print Assumptions C103_overflow_refuted.
(** 2^(2^35) times itself. *)
Example C103_overflow_case : forall k, k = 2 ^ 30 -> exists a,
  represents a (2 ^ (32 * k)) /\ forall c, strict c = true -> bi_mul_i c a a = Undef SignedOverflow.
Proof. exact mul_strict_case. Qed.

(** 2^(2^36) times 0 is 1, times itself it is 0, and times 2^40 it is written out of bounds. *)
Example C103_refuted_case : forall k, k = 2 ^ 31 -> exists a,
  represents a (2 ^ (32 * k)) /\
  forall c b, (represents b 0 -> returns (bi_mul_i c a b) 1) /\
    (dbg c = false -> returns (bi_mul_i c a a) 0) /\
    (dbg c = true -> bi_mul_i c a a = AssertFail) /\
    (represents b (2 ^ 40) -> bi_mul_i c a b = if dbg c then AssertFail else Undef OutOfBounds).
Proof. exact mul_wide_case. Qed.
