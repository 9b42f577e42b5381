(** Property theorems: the tests of log02.cpp and log10.cpp. *)
From Coq Require Import String Reals ZArith.
From Flocq Require Import BinarySingleNaN.
From Verif Require Import Machine Spec SpecApi SpecOracle SpecLogDouble SpecTestLog SpecLogBodies BigInt BigIntLogDouble TestOracle TestCalc CalcFacts TestRandom TestBodies
  TestLog RandomFacts LogDoubleFacts TestLogFacts4 TestLogFacts5 LogBodyFacts PowLaws Examples.
Open Scope string_scope.
Open Scope Z_scope.

(** C92. The test of the natural and that of the decimal logarithm (is_log: uLog and uLog10) pass if the large
    number drawn is below 2^31 or no integer is too close to its logarithm, and the processor makes an int of at
    most 100 of a NaN and of minus infinity. *)
Theorem C92_log_tests : forall fuel c logf log10f cast s2 m2, strict c = false -> libm_log logf -> libm_log10 log10f ->
  forall op, is_log op -> forall (E : Type) (draw : E -> Z -> Z -> Z * E) copied, in_bounds draw -> forall e,
  log_regular op (operand (any_bytes draw copied 0 1024 e)) ->
  (exists f, cast B754_nan = Ret f /\ f <= 100) -> (exists f, cast (B754_infinity true) = Ret f /\ f <= 100) ->
  unary_test draw copied (verify fuel c (sn_log1 logf log10f cast c) (mine_log1 logf log10f cast c) s2 m2 false) 0 op e = Ret true.
Proof. exact log_test_passes. Qed.
Print Assumptions C92_log_tests.

(** Whatever is drawn, they pass or fail: nothing is thrown or undefined. *)
Theorem C92_log_tests_end : forall fuel c logf log10f cast s2 m2, strict c = false -> libm_log logf -> libm_log10 log10f ->
  forall op, is_log op -> forall (E : Type) (draw : E -> Z -> Z -> Z * E) copied, in_bounds draw -> forall e,
  (exists f, cast B754_nan = Ret f /\ f <= 100) -> (exists f, cast (B754_infinity true) = Ret f /\ f <= 100) ->
  exists k,
    unary_test draw copied (verify fuel c (sn_log1 logf log10f cast c) (mine_log1 logf log10f cast c) s2 m2 false) 0 op e = Ret k.
Proof. exact log_test_ends. Qed.
Print Assumptions C92_log_tests_end.

(** The results of the two calculators are at most one apart. *)
Theorem C92_log_near : forall logf log10f cast c op b x n, libm_log logf -> libm_log10 log10f -> is_log op ->
  represents b x -> 2 <= x -> limb_count x n -> n <= 2 ^ 19 ->
  exists z w, Z.abs (z - w) <= 1 /\
    returns (sn_unary c (sn_log1 logf log10f cast c) b op) z /\ returns (mine_unary c (mine_log1 logf log10f cast c) b op) w.
Proof. exact log_near. Qed.
Print Assumptions C92_log_near.
(** 10^50, whose decimal logarithm is an integer. *)
Example C92_log_near_case : is_log "uLog10" /\
  represents (Big 1 [0; 3043229696; 3288675581; 2456192978; 1815811577; 68]) (10 ^ 50) /\ limb_count (10 ^ 50) 6.
Proof. split; [right; reflexivity|]. split; [repr|apply limb_count_compute; vm_compute; reflexivity]. Qed.

(** 43101193990, whose logarithms are 24.48... and 10.63...; on x86-64 the conversions give -2^31. *)
Example C92_log_tests_case : let cast := (fun _ => Ret INT_MIN) : double -> outcome Z in
  libm_log round_log /\ libm_log10 round_log10 /\ is_log "uLog" /\ is_log "uLog10" /\ in_bounds counting /\
  operand (any_bytes counting false 0 1024 5) = 43101193990 /\
  log_regular "uLog" 43101193990 /\ log_regular "uLog10" 43101193990 /\
  (exists f, cast B754_nan = Ret f /\ f <= 100) /\ (exists f, cast (B754_infinity true) = Ret f /\ f <= 100).
Proof.
  split; [exact libm_log_exists|]. split; [exact libm_log10_exists|]. split; [left; reflexivity|]. split; [right; reflexivity|].
  split; [exact counting_in_bounds|]. split; [vm_compute; reflexivity|].
  split; [right; apply (clear_between _ 24); [split; discriminate|]; apply (ln_between_int _ 5 121 124); vm_compute; congruence|].
  split; [right; apply (clear_between _ 10); [split; discriminate|]; apply (ratio_between_int _ _ 5 52 54); vm_compute; congruence|].
  split; exists INT_MIN; split; discriminate || reflexivity.
Qed.

(** C++ leaves these conversions undefined. Then the tests are undefined at their third line, "0 uLog", at the latest,
    and never pass or fail. *)
Theorem C92_log_tests_refuted : forall fuel c logf log10f cast s2 m2, strict c = false -> libm_log logf -> libm_log10 log10f ->
  forall op, is_log op -> forall (E : Type) (draw : E -> Z -> Z -> Z * E) copied, in_bounds draw -> forall e u,
  cast (B754_infinity true) = Undef u ->
  (log_regular op (operand (any_bytes draw copied 0 1024 e)) ->
   unary_test draw copied (verify fuel c (sn_log1 logf log10f cast c) (mine_log1 logf log10f cast c) s2 m2 false) 0 op e = Undef u) /\
  (forall k,
   unary_test draw copied (verify fuel c (sn_log1 logf log10f cast c) (mine_log1 logf log10f cast c) s2 m2 false) 0 op e <> Ret k).
Proof. exact log_test_undefined. Qed.
Print Assumptions C92_log_tests_refuted.
Example C92_refuted_case : let cast := (fun _ => Undef SignedOverflow) : double -> outcome Z in
  in_bounds counting /\ log_regular "uLog" (operand (any_bytes counting false 0 1024 2)) /\ cast (B754_infinity true) = Undef SignedOverflow.
Proof. split; [exact counting_in_bounds|]. split; [left; vm_compute; reflexivity|reflexivity]. Qed.
