(** Property theorems: greatest_common_divisor. [c] is the build configuration;
    [fuel] bounds the rounds of the Lehmer loop, [NoFuel] means it is used up. *)
From Verif Require Import Machine Spec SpecApi SpecGcd BigInt GcdFacts GcdRegions PowLaws Examples SpecActual ApiRun GcdExact.

(** C18. The full claim,
      represents a x -> represents b y -> exists N, forall fuel, (N <= fuel)%nat ->
      returns (bi_gcd fuel c a b) (Z.gcd x y),
    is false. Proved: whenever the smaller operand is below 2^64; whenever one
    operand divides the other; and, in general, whenever Euclid's algorithm gets
    below 2^64 without meeting [lehmer_step]. [C18_gcd_exact_refuted] below
    covers all operands. *)
Theorem C18_gcd_small_partial : forall c a b x y fuel,
  represents a x -> represents b y -> Z.min (Z.abs x) (Z.abs y) < 2 ^ 64 ->
  returns (bi_gcd fuel c a b) (Z.gcd x y).
Proof. exact gcd_small. Qed.
Print Assumptions C18_gcd_small_partial.
Theorem C18_gcd_euclid_partial : forall c a b x y,
  represents a x -> represents b y ->
  euclid_run (Z.max (Z.abs x) (Z.abs y)) (Z.min (Z.abs x) (Z.abs y)) ->
  exists N, forall fuel, (N <= fuel)%nat -> returns (bi_gcd fuel c a b) (Z.gcd x y).
Proof. exact gcd_run. Qed.
Print Assumptions C18_gcd_euclid_partial.
Theorem C18_gcd_divides_partial : forall c a b x y,
  represents a x -> represents b y -> y <> 0 -> (y | x) ->
  exists N, forall fuel, (N <= fuel)%nat ->
    returns (bi_gcd fuel c a b) (Z.abs y) /\ returns (bi_gcd fuel c b a) (Z.abs y).
Proof. exact gcd_divides. Qed.
Print Assumptions C18_gcd_divides_partial.
(** When Euclid's algorithm meets [lehmer_step] on operands of one length, the
    code never returns: it loops for ever, or stops at an assertion in a debug
    build. *)
Theorem C18_gcd_refuted : forall c a b x y fuel,
  represents a x -> represents b y ->
  lehmer_stuck (Z.max (Z.abs x) (Z.abs y)) (Z.min (Z.abs x) (Z.abs y)) ->
  bi_gcd fuel c a b = NoFuel \/ (dbg c = true /\ bi_gcd fuel c a b = AssertFail).
Proof. exact gcd_stuck. Qed.
Print Assumptions C18_gcd_refuted.
(** In plain numbers: two integers above 2^64 with the same number of limbs, the
    larger below twice the smaller, neither end of that range approached to
    within 2^-61. *)
Theorem C18_gcd_close_refuted : forall c a b x y n fuel,
  represents a x -> represents b y -> 2 ^ 64 <= y -> limb_count x n -> limb_count y n ->
  2 ^ (Z.log2 x - 61) <= x - y -> 2 ^ (Z.log2 x - 61) <= 2 * y - x ->
  bi_gcd fuel c a b = NoFuel \/ (dbg c = true /\ bi_gcd fuel c a b = AssertFail).
Proof. exact gcd_close. Qed.
Print Assumptions C18_gcd_close_refuted.
(** Every pair of operands is in exactly one of three regions: the code is right
    on the first, never returns on the second; the third is a Lehmer step on
    operands of different lengths. *)
Theorem C18_gcd_regions : forall x y, 0 <= y <= x ->
  (euclid_run x y \/ lehmer_stuck x y \/ lehmer_uneven x y) /\
  ~ (euclid_run x y /\ lehmer_stuck x y) /\ ~ (euclid_run x y /\ lehmer_uneven x y) /\
  ~ (lehmer_stuck x y /\ lehmer_uneven x y).
Proof. exact regions_exact. Qed.
Print Assumptions C18_gcd_regions.
(** In the third region, when what is left of the longer operand is below 2^64:
    the answer is the gcd of the shorter operand and a number made of the
    middle of the longer one and a limb count; or an assertion fails, or the
    code reads before the start of an array. *)
Theorem C18_gcd_uneven_refuted : forall c a b x y n fuel,
  let X := Z.max (Z.abs x) (Z.abs y) in let Y := Z.min (Z.abs x) (Z.abs y) in
  represents a x -> represents b y -> limb_count X (n + 1) -> limb_count Y n -> 2 ^ 64 <= Y -> n < 2 ^ 32 ->
  X mod 2 ^ (32 * n) < 2 ^ 64 -> lehmer_step X Y -> (2 <= fuel)%nat ->
  returns (bi_gcd fuel c a b) (Z.gcd Y (clobbered X n)) \/
  (bi_gcd fuel c a b = (if dbg c then AssertFail else Undef OutOfBounds) /\ ~ lehmer_once X Y).
Proof. exact gcd_uneven. Qed.
Print Assumptions C18_gcd_uneven_refuted.
Example C18_case :
  represents (Big (-1) [0; 0; 6]) (- (6 * 2 ^ 64)) /\ represents (Big 1 [0; 0; 2]) (2 * 2 ^ 64) /\
  (2 * 2 ^ 64 | - (6 * 2 ^ 64)) /\
  bi_gcd 2 debug_strict (Big (-1) [0; 0; 6]) (Big 1 [0; 0; 2]) = Ret (Big 1 [0; 0; 2]) /\
  represents (Big 1 [12; 8; 4]) (4 * 2 ^ 64 + 8 * 2 ^ 32 + 12) /\ represents (Big 1 [0; 9]) (9 * 2 ^ 32) /\
  bi_gcd 0 debug_strict (Big 1 [12; 8; 4]) (Big 1 [0; 9]) = Ret (Big 36 []).
Proof.
  split; [repr|]. split; [repr|]. split; [exists (-3); reflexivity|]. split; [reflexivity|].
  split; [repr|]. split; [repr|]. reflexivity.
Qed.
(** 3 * 2^64 and 2 * 2^64 + 5 (gcd 1): both builds loop. *)
Example C18_refuted_case :
  represents (Big 1 [0; 0; 3]) (3 * 2 ^ 64) /\ represents (Big 1 [5; 0; 2]) (2 * 2 ^ 64 + 5) /\
  lehmer_stuck (3 * 2 ^ 64) (2 * 2 ^ 64 + 5) /\
  bi_gcd 50 release_wrap (Big 1 [0; 0; 3]) (Big 1 [5; 0; 2]) = NoFuel /\
  bi_gcd 50 debug_strict (Big 1 [0; 0; 3]) (Big 1 [5; 0; 2]) = AssertFail.
Proof.
  split; [repr|]. split; [repr|]. split; [|split; vm_compute; reflexivity].
  apply (stuck_here _ _ 3).
  - vm_compute; discriminate.
  - apply limb_count_compute; vm_compute; reflexivity.
  - apply limb_count_compute; vm_compute; reflexivity.
  - exists 3. vm_compute. repeat split; discriminate || reflexivity.
Qed.
(** On operands of different lengths a Lehmer step may also end in a wrong
    answer (here 3, the gcd is 1) or in a read before the start of the array. *)
Example C18_refuted_case2 :
  represents (Big 1 [1; 0; 0; 1]) (2 ^ 96 + 1) /\ represents (Big 1 [3; 0; 12]) (12 * 2 ^ 64 + 3) /\
  Z.gcd (2 ^ 96 + 1) (12 * 2 ^ 64 + 3) = 1 /\
  bi_gcd 50 release_wrap (Big 1 [1; 0; 0; 1]) (Big 1 [3; 0; 12]) = Ret (Big 3 []) /\
  bi_gcd 50 debug_strict (Big 1 [1; 0; 0; 1]) (Big 1 [3; 0; 12]) = Ret (Big 3 []) /\
  bi_gcd 50 release_wrap (Big 1 [1; 0; 0; 1]) (Big 1 [3; 0; 6]) = Undef OutOfBounds.
Proof. split; [repr|]. split; [repr|]. repeat split; vm_compute; reflexivity. Qed.
(** The hypotheses of the last two refutations on literals; 3 * 2^64 and
    2 * 2^64 + 5 are close, 2^96 + 1 and 12 * 2^64 + 3 uneven. *)
Example C18_refuted_case3 :
  limb_count (3 * 2 ^ 64) 3 /\ limb_count (2 * 2 ^ 64 + 5) 3 /\
  2 ^ (Z.log2 (3 * 2 ^ 64) - 61) <= 3 * 2 ^ 64 - (2 * 2 ^ 64 + 5) /\
  2 ^ (Z.log2 (3 * 2 ^ 64) - 61) <= 2 * (2 * 2 ^ 64 + 5) - 3 * 2 ^ 64 /\
  limb_count (2 ^ 96 + 1) 4 /\ limb_count (12 * 2 ^ 64 + 3) 3 /\ (2 ^ 96 + 1) mod 2 ^ (32 * 3) < 2 ^ 64 /\
  lehmer_step (2 ^ 96 + 1) (12 * 2 ^ 64 + 3) /\ lehmer_once (2 ^ 96 + 1) (12 * 2 ^ 64 + 3) /\
  lehmer_uneven (2 ^ 96 + 1) (12 * 2 ^ 64 + 3) /\
  Z.gcd (12 * 2 ^ 64 + 3) (clobbered (2 ^ 96 + 1) 3) = 3.
Proof.
  assert (limb_count (2 ^ 96 + 1) (3 + 1)) as A by (apply limb_count_compute; vm_compute; reflexivity).
  assert (limb_count (12 * 2 ^ 64 + 3) 3) as B by (apply limb_count_compute; vm_compute; reflexivity).
  assert (lehmer_step (2 ^ 96 + 1) (12 * 2 ^ 64 + 3)) as C
    by (exists 34; vm_compute; repeat split; discriminate || reflexivity).
  split; [apply limb_count_compute; vm_compute; reflexivity|].
  split; [apply limb_count_compute; vm_compute; reflexivity|].
  split; [vm_compute; discriminate|]. split; [vm_compute; discriminate|].
  split; [exact A|]. split; [exact B|]. split; [vm_compute; reflexivity|]. split; [exact C|].
  split; [exists 34; vm_compute; repeat split; discriminate || reflexivity|].
  split; [apply (uneven_here _ _ 3); [vm_compute; discriminate|exact A|exact B|exact C]|].
  vm_compute. reflexivity.
Qed.

(** What the code computes, for all operands and every number of rounds:
    [actual_gcd] says whether it returns, and what; whether it fails an
    assertion, reads before the start of an array or needs more rounds. More
    rounds never change an outcome. *)
Theorem C18_gcd_exact_refuted : forall c a b x y fuel,
  represents a x -> represents b y -> denotes (bi_gcd fuel c a b) (actual_gcd fuel (dbg c) x y).
Proof. exact gcd_exact. Qed.
Print Assumptions C18_gcd_exact_refuted.
Theorem C18_gcd_more_rounds : forall debug fuel n x y,
  actual_gcd fuel debug x y <> NoFuel -> (fuel <= n)%nat -> actual_gcd n debug x y = actual_gcd fuel debug x y.
Proof. exact gcd_more. Qed.
Print Assumptions C18_gcd_more_rounds.
(** The gcd of limb arrays, for all arrays. *)
Theorem C18_gcd_arrays_refuted : forall fuel c l l',
  is_words l -> is_words l' -> denotes (bi_gcd_bits fuel c l l') (raw_gcd fuel c l l').
Proof. exact gcd_bits_exact. Qed.
Print Assumptions C18_gcd_arrays_refuted.
(** 2^128 + 2^64 and 5 * 2^96 + 20 * 2^32 have "gcd" 2^128 + 2^64 + 4; the array
    [5; 0], with a leading zero, as a divisor. *)
Example C18_exact_case :
  represents (Big 1 [0; 0; 1; 0; 1]) (2 ^ 128 + 2 ^ 64) /\ represents (Big 1 [0; 20; 0; 5]) (5 * 2 ^ 96 + 20 * 2 ^ 32) /\
  actual_gcd 3 false (2 ^ 128 + 2 ^ 64) (5 * 2 ^ 96 + 20 * 2 ^ 32) = Ret (2 ^ 128 + 2 ^ 64 + 4) /\
  bi_gcd 3 release_wrap (Big 1 [0; 0; 1; 0; 1]) (Big 1 [0; 20; 0; 5]) = Ret (Big 1 [4; 0; 1; 0; 1]) /\
  actual_gcd 3 true (2 ^ 128 + 2 ^ 64) (5 * 2 ^ 96 + 20 * 2 ^ 32) = Ret (2 ^ 128 + 2 ^ 64 + 4) /\
  bi_gcd 3 debug_strict (Big 1 [0; 0; 1; 0; 1]) (Big 1 [0; 20; 0; 5]) = Ret (Big 1 [4; 0; 1; 0; 1]) /\
  actual_gcd 1 false (2 ^ 128 + 2 ^ 64) (5 * 2 ^ 96 + 20 * 2 ^ 32) = NoFuel /\
  actual_gcd 50 false (2 ^ 96 + 1) (12 * 2 ^ 64 + 3) = Ret 3 /\
  actual_gcd 50 false (2 ^ 96 + 1) (6 * 2 ^ 64 + 3) = Undef OutOfBounds /\
  raw_gcd 0 release_wrap [7; 1; 2] [5; 0] = Undef ShiftRange /\
  bi_gcd_bits 0 release_wrap [7; 1; 2] [5; 0] = Undef ShiftRange /\
  raw_gcd 0 release_wrap [6] [5; 4] = Undef OutOfBounds /\ raw_gcd 0 debug_strict [6] [0] = Throw DivideByZero.
Proof. split; [repr|]. split; [repr|]. repeat split; vm_compute; reflexivity. Qed.
