(** Property theorems: conversion to float. [c] is the build configuration; a
    float is its 32-bit pattern (SpecFloat). *)
From Verif Require Import Machine Spec SpecDouble SpecFloat BigInt BigIntFloat FloatFacts Examples.
Open Scope Z_scope.

(** C51. operator float. The property is [exists f, bi_to_float c b = Ret f /\
    flt_exact f (round_even 24 x)] for every x the largest float can take; it
    holds unless [just_above_tie x], and fails whenever [just_above_tie x]. *)
Theorem C51_float_partial : forall c b x,
  represents b x -> Z.abs x < 2 ^ 128 - 2 ^ 103 -> ~ just_above_tie x ->
  exists f, bi_to_float c b = Ret f /\ flt_exact f (round_even 24 x).
Proof. exact to_float_right. Qed.
Print Assumptions C51_float_partial.
Theorem C51_float_refuted : forall c b x,
  represents b x -> Z.abs x < 2 ^ 128 - 2 ^ 103 -> just_above_tie x ->
  exists f z, bi_to_float c b = Ret f /\ flt_exact f z /\ Z.abs z < Z.abs (round_even 24 x) /\
    Z.abs (x - round_even 24 x) < Z.abs (x - z).
Proof. exact to_float_wrong. Qed.
Print Assumptions C51_float_refuted.
(** Without exception: truncated to 53 bits, then rounded to 24. *)
Theorem C51_float_rounds_twice : forall c b x,
  represents b x -> Z.abs x < 2 ^ 128 - 2 ^ 103 ->
  exists f, bi_to_float c b = Ret f /\ flt_exact f (round_even 24 (trunc53 x)) /\ (x = 0 -> f = 0).
Proof. exact to_float_finite. Qed.
Print Assumptions C51_float_rounds_twice.
Theorem C51_float_infinity : forall c b x,
  represents b x -> 2 ^ 128 - 2 ^ 103 <= Z.abs x ->
  bi_to_float c b = Ret (if x <? 0 then flt_minus_infinity else flt_plus_infinity).
Proof. exact to_float_infinite. Qed.
Print Assumptions C51_float_infinity.
(** [round_even p x] is as near to x as any integer of p significant bits, and of
    two that are equally near it is the even one. *)
Theorem C51_nearest : forall p x m s,
  0 < p -> Z.abs m < 2 ^ p -> 0 <= s -> Z.abs (x - round_even p x) <= Z.abs (x - m * 2 ^ s).
Proof. exact round_even_nearest. Qed.
Print Assumptions C51_nearest.
Theorem C51_tie_to_even : forall p x m s,
  0 < p -> 2 ^ (p - 1) <= m < 2 ^ p -> 0 < s -> Z.abs x = m * 2 ^ s + 2 ^ (s - 1) ->
  round_even p x = Z.sgn x * ((if Z.even m then m else m + 1) * 2 ^ s).
Proof. exact round_even_tie. Qed.
Print Assumptions C51_tie_to_even.
(** 2^24 + 1 is a tie and goes down to 2^24; -(2^24 + 3) goes to -(2^24 + 4). *)
Example C51_case :
  represents (Big 16777217 []) (2 ^ 24 + 1) /\ round_even 24 (2 ^ 24 + 1) = 2 ^ 24 /\
  bi_to_float debug_strict (Big 16777217 []) = Ret (151 * 2 ^ 23) /\
  represents (Big (-16777219) []) (- (2 ^ 24 + 3)) /\ round_even 24 (- (2 ^ 24 + 3)) = - (2 ^ 24 + 4) /\
  bi_to_float debug_strict (Big (-16777219) []) = Ret (2 ^ 31 + 151 * 2 ^ 23 + 2) /\
  represents (Big (-1) [0; 0; 0; 4294967295]) (- (2 ^ 128 - 2 ^ 96)) /\ 2 ^ 128 - 2 ^ 103 <= 2 ^ 128 - 2 ^ 96 /\
  bi_to_float debug_strict (Big (-1) [0; 0; 0; 4294967295]) = Ret flt_minus_infinity.
Proof.
  split; [repr|]. split; [reflexivity|]. split; [vm_compute; reflexivity|].
  split; [repr|]. split; [reflexivity|]. split; [vm_compute; reflexivity|].
  split; [repr|]. split; [vm_compute; discriminate|vm_compute; reflexivity].
Qed.
(** 2^63 + 2^39 + 1: the double is 2^63 + 2^39, the float 2^63, one ulp low. *)
Example C51_refuted_case :
  represents (Big 1 [1; 2147483776]) (2 ^ 63 + 2 ^ 39 + 1) /\ just_above_tie (2 ^ 63 + 2 ^ 39 + 1) /\
  round_even 24 (2 ^ 63 + 2 ^ 39 + 1) = 2 ^ 63 + 2 ^ 40 /\ trunc53 (2 ^ 63 + 2 ^ 39 + 1) = 2 ^ 63 + 2 ^ 39 /\
  bi_to_float debug_strict (Big 1 [1; 2147483776]) = Ret (190 * 2 ^ 23) /\ flt_exact (190 * 2 ^ 23) (2 ^ 63).
Proof.
  split; [repr|]. split.
  { exists (2 ^ 23), 40, 1. repeat split; vm_compute; congruence. }
  split; [reflexivity|]. split; [reflexivity|]. split; [vm_compute; reflexivity|].
  repeat split; vm_compute; congruence.
Qed.
