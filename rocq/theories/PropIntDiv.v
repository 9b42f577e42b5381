(** Property theorems: division of numbers of 2^31 limbs and more. *)
From Verif Require Import Machine Spec SpecApi SpecGcd SpecPos SpecLimbs SpecIntAdd SpecIntDiv.
From Verif Require Import BigInt IntAdd IntDiv IntDivFacts IntDivLaws Examples.

(** C102. For integers of any size, / and % return the truncated quotient and the remainder, and
    throw DivideByZero for a zero divisor; div_rem does both. The limb counts are kept in [int]s, so
    this is false from 2^31 limbs on. What every call does: *)
Theorem C102_quotient : forall c a b x y, represents a x -> represents b y -> quotient_any c x y (bi_div_i c a b).
Proof. exact quotient_any_holds. Qed.
Print Assumptions C102_quotient.
Theorem C102_remainder : forall c a b x y, represents a x -> represents b y -> remainder_any c x y (bi_rem_i c a b).
Proof. exact remainder_any_holds. Qed.
Print Assumptions C102_remainder.
Theorem C102_div_rem : forall c a b x y, represents a x -> represents b y -> div_rem_any c x y (bi_div_rem_i c a b).
Proof. exact div_rem_any_holds. Qed.
Print Assumptions C102_div_rem.
Example C102_case :
  represents (Big (-1) [7; 0; 5]) (- (5 * 2 ^ 64 + 7)) /\ represents (Big 1 [0; 2]) (2 ^ 33) /\
  bi_div_i debug_strict (Big (-1) [7; 0; 5]) (Big 1 [0; 2]) = Ret (Big (-1) [2147483648; 2]) /\
  bi_rem_i debug_strict (Big (-1) [7; 0; 5]) (Big 1 [0; 2]) = Ret (Big (-7) []) /\
  bi_div_i debug_strict (Big (-1) [7; 0; 5]) (Big 5 []) = Ret (Big (-1) [1; 0; 1]) /\
  bi_rem_i debug_strict (Big (-1) [7; 0; 5]) (Big 5 []) = Ret (Big (-2) []) /\
  bi_div_i debug_strict (Big (-1) [7; 0; 5]) (Big 0 []) = Throw DivideByZero /\
  bi_div_rem_i debug_strict (Big (-1) [7; 0; 5]) (Big 1 [0; 2]) = Ret (Big (-1) [2147483648; 2], Big (-7) []).
Proof. split; [repr|]. split; [repr|]. repeat split; vm_compute; reflexivity. Qed.

(** The claim holds of dividends of fewer than 2^31 limbs. *)
Theorem C102_partial : forall c a b x y, represents a x -> represents b y -> limbs_of x < 2 ^ 31 ->
  (y <> 0 -> returns (bi_div_i c a b) (Z.quot x y) /\ returns (bi_rem_i c a b) (Z.rem x y)) /\
  (y = 0 -> bi_div_i c a b = Throw DivideByZero /\ bi_rem_i c a b = Throw DivideByZero /\
            bi_div_rem_i c a b = Throw DivideByZero).
Proof. exact div_i_fits. Qed.
Print Assumptions C102_partial.

(** Of more than 2^31 limbs, and fewer than 2^32: divided by any int, zero included, 1 or -1 and no remainder. *)
Theorem C102_int_refuted : forall c a b x y, represents a x -> represents b y ->
  2 ^ 31 < limbs_of x < 2 ^ 32 -> Z.abs y < 2 ^ 31 ->
  returns (bi_div_i c a b) (if xorb (x <? 0) (y <? 0) then -1 else 1) /\ returns (bi_rem_i c a b) 0.
Proof. exact div_i_wide. Qed.
Print Assumptions C102_int_refuted.

(** Divided by a shorter number: an assertion fails, or else the quotient is 0, 1 or -1 and the
    remainder the dividend. *)
Theorem C102_long_refuted : forall c a b x y, represents a x -> represents b y ->
  2 ^ 31 <= limbs_of x < 2 ^ 32 -> 2 ^ 31 <= Z.abs y -> limbs_of y < 2 ^ 31 ->
  if dbg c then bi_div_i c a b = AssertFail /\ bi_rem_i c a b = AssertFail
  else returns (bi_rem_i c a b) x /\
    returns (bi_div_i c a b)
      (if limbs_of x - limbs_of y + 1 <? 2 ^ 31 then 0 else if xorb (x <? 0) (y <? 0) then -1 else 1).
Proof. exact div_i_wide_long. Qed.
Print Assumptions C102_long_refuted.

(** Divided by one that is as long: an assertion fails, or an int overflows, or the arrays are read or
    written out of bounds. *)
Theorem C102_bounds_refuted : forall c a b x y, represents a x -> represents b y ->
  2 ^ 31 <= limbs_of y <= 2 ^ 32 -> limbs_of y <= limbs_of x ->
  let bad := if dbg c then AssertFail else Undef (if strict c && (limbs_of y =? 2 ^ 31) then SignedOverflow else OutOfBounds) in
  bi_div_i c a b = bad /\ bi_rem_i c a b = bad.
Proof. exact div_i_wide_both. Qed.
Print Assumptions C102_bounds_refuted.

(** 2^(2^36) divided by 0 is 1, by -7 it is -1; by 2^40 it is 1 with the remainder 2^(2^36). *)
Example C102_refuted_case : forall k, k = 2 ^ 31 -> exists a,
  represents a (2 ^ (32 * k)) /\
  forall c b, (represents b 0 -> returns (bi_div_i c a b) 1 /\ returns (bi_rem_i c a b) 0) /\
    (represents b (-7) -> returns (bi_div_i c a b) (-1) /\ returns (bi_rem_i c a b) 0) /\
    (represents b (2 ^ 40) -> dbg c = false -> returns (bi_div_i c a b) 1 /\ returns (bi_rem_i c a b) (2 ^ (32 * k))) /\
    (represents b (2 ^ 40) -> dbg c = true -> bi_div_i c a b = AssertFail /\ bi_rem_i c a b = AssertFail).
Proof. exact div_wide_case. Qed.
