From Coq Require Import String ZArith Reals Lra Lia.
From Flocq Require Import Core BinarySingleNaN.
From Verif Require Import Machine SpecPos SpecPyRun SpecOracle SpecDouble SpecLogDouble SpecTestLog SpecLogBodies SpecNumbers SpecLogTest
  BigInt BigIntLogDouble TestOracle TestCalc TestRandom TestNumbers TestLog TestLogBody
  LogDoubleFacts TestLogFacts4 TestLogFacts5 LogTestFacts3 Examples.
Open Scope string_scope.
Open Scope Z_scope.

(** The test of log(value, base) in tests/log.cpp. [run] is VerifyLogString, the two calculators of the suite; [fl] bounds the
    rounds of the loop of line 136. *)
Notation run fuel c logf log10f cast s1 m1 := (verify fuel c s1 m1 (sn_log2 logf log10f cast c) (mine_log2 logf log10f cast c) false).

(** C93. The test passes with the draws described by [good_draws] and pairs on which the calculators cannot but agree. *)
Theorem C93_log_test_passes : forall fuel c logf log10f cast s1 m1 tolerance, libm_log logf -> libm_log10 log10f ->
  forall (E : Type) (draw : E -> Z -> Z -> Z * E) (engine : E -> Z * E) (copied : bool), in_bounds draw -> engine_ok engine -> no_min engine -> strict c = false ->
  is_finite tolerance = true -> (Rabs (B2R tolerance - / 10 ^ 15) <= / 10 ^ 16)%R ->
  forall fl s, good_draws draw engine copied logf tolerance c s -> fl <> O ->
  small_pairs draw engine bases_agree s ->
  (forall j, (j < 10)%nat -> mixed_pair draw engine copied bases_agree s j) ->
  (forall j, (j < 10)%nat -> large_pair draw engine copied bases_agree s j) ->
  log_test draw engine copied (run fuel c logf log10f cast s1 m1) logf tolerance c fl s = Ret true.
Proof. exact @test_passes. Qed.
Print Assumptions C93_log_test_passes.

(** The comparisons that [good_draws] asks for come out true for values below 2^31, and for all if the tolerance were 2^-46.
    The tolerance is in fact about 2^-50. *)
Theorem C93_logs_close : forall c logf tolerance, libm_log logf ->
  forall (E : Type) (draw : E -> Z -> Z -> Z * E) (engine : E -> Z * E), engine_ok engine -> no_min engine ->
  is_finite tolerance = true -> (Rabs (B2R tolerance - / 10 ^ 15) <= / 10 ^ 16)%R ->
  forall n e1 e, (1 <= n <= 100)%nat -> positive_number draw n e1 < 2 ^ 31 \/ (bpow radix2 (-46) <= B2R tolerance)%R ->
  logs_close engine logf tolerance c (positive_bytes draw n e1) e.
Proof. exact @close_small. Qed.
Print Assumptions C93_logs_close.

(** Non-trivial draws: bytes 7, 200, 5, 3 and then zeros; the int 12345. *)
Example C93_passes_case : in_bounds (sized four_bytes) /\ engine_ok (constant 12345) /\ no_min (constant 12345) /\ libm_log round_log /\ libm_log10 round_log10 /\
  is_finite tolerance15 = true /\ (Rabs (B2R tolerance15 - / 10 ^ 15) <= / 10 ^ 16)%R /\
  good_draws (sized four_bytes) (constant 12345) true round_log tolerance15 release_wrap 0 /\
  positive_number (sized four_bytes) 10 0 = 50710535 /\
  small_pairs (sized four_bytes) (constant 12345) bases_agree 0 /\
  (forall j, (j < 10)%nat -> mixed_pair (sized four_bytes) (constant 12345) true bases_agree 0 j) /\
  (forall j, (j < 10)%nat -> large_pair (sized four_bytes) (constant 12345) true bases_agree 0 j).
Proof.
  split; [apply sized_in_bounds|]. destruct (constant_ok 12345) as (K & N); [split; [discriminate|reflexivity]|]. split; [exact K|]. split; [exact N|].
  split; [exact libm_log_exists|]. split; [exact libm_log10_exists|]. split; [apply tolerance15_ok|]. split; [apply tolerance15_ok|].
  split; [apply good_four|]. split; [vm_compute; reflexivity|]. split; [do 3 right; left; vm_compute; reflexivity|].
  split; intros j J; (do 10 (destruct j as [|j]; [do 3 right; left; vm_compute; reflexivity|])); lia.
Qed.

(** It fails if one of the first ten ints that Next() returns is 0 or the largest: the double is then 0 or 1, and the logarithm
    of 0 to that base is not infinite. *)
Theorem C93_log_test_fails_refuted : forall fuel c logf log10f cast s1 m1 tolerance, libm_log logf -> libm_log10 log10f ->
  forall (E : Type) (draw : E -> Z -> Z -> Z * E) (engine : E -> Z * E) (copied : bool), engine_ok engine -> no_min engine -> strict c = false ->
  forall fl s, (exists k, (k < 10)%nat /\ inside (next_of engine (Nat.iter k (next_engine engine) s)) = false) ->
  log_test draw engine copied (run fuel c logf log10f cast s1 m1) logf tolerance c fl s = Ret false.
Proof. exact @test_fails. Qed.
Print Assumptions C93_log_test_fails_refuted.
(** A counter that reaches the largest int with the eighth draw. *)
Example C93_fails_case : engine_ok counter /\ no_min counter /\
  next_of counter (Nat.iter 7 (next_engine counter) (INT_MAX - 7)) = INT_MAX /\ inside INT_MAX = false /\
  forall k, (k < 7)%nat -> inside (next_of counter (Nat.iter k (next_engine counter) (INT_MAX - 7))) = true.
Proof.
  split; [apply counter_ok|]. split; [apply counter_ok|]. split; [vm_compute; reflexivity|]. split; [reflexivity|].
  intros k K. do 7 (destruct k as [|k]; [vm_compute; reflexivity|]). lia.
Qed.

(** It fails if ten random bytes are those of 1, whose logarithm to the base infinity is 0 and not a NaN, or if the int that
    Next() returns is 0 and the bytes are those of 1: the negated double is then minus zero. *)
Theorem C93_log_test_fails_later_refuted : forall fuel c logf log10f cast s1 m1 tolerance, libm_log logf -> libm_log10 log10f ->
  forall (E : Type) (draw : E -> Z -> Z -> Z * E) (engine : E -> Z * E) (copied : bool), in_bounds draw -> engine_ok engine -> no_min engine -> strict c = false ->
  forall fl s, (forall k, (k < 10)%nat -> inside (next_of engine (Nat.iter k (next_engine engine) s)) = true) ->
  positive_number draw 8 (engine1 engine s) <> 1 -> fl <> O ->
  unsigned_number draw 10 (engine1 engine s) = 1 \/
  (exists k, (k < 10)%nat /\ let e := Nat.iter k (next_engine engine) (engine1 engine s) in
     next_of engine e = 0 /\ unsigned_number draw 10 (if copied then e else next_engine engine e) = 1) ->
  log_test draw engine copied (run fuel c logf log10f cast s1 m1) logf tolerance c fl s = Ret false.
Proof. exact @test_fails_later. Qed.
Print Assumptions C93_log_test_fails_later_refuted.
(** The ten bytes below 128 are 1 and zeros; among the eight bytes below 256 there is a 200. *)
Example C93_fails_later_case : let draw e lo hi := (Z.min hi (Z.max lo (if e =? 0 then 1 else if (e =? 5) && (200 <=? hi) then 200 else 0)), e + 1) in
  in_bounds draw /\ (forall k, (k < 10)%nat -> inside (next_of (constant 12345) (Nat.iter k (next_engine (constant 12345)) 0)) = true) /\
  positive_number draw 8 (engine1 (constant 12345) 0) = 1 + 200 * 256 ^ 5 /\ unsigned_number draw 10 (engine1 (constant 12345) 0) = 1.
Proof.
  intros draw. split; [intros e lo hi H; cbn [draw fst]; lia|]. split; [intros k K; do 10 (destruct k as [|k]; [vm_compute; reflexivity|]); lia|]. split; vm_compute; reflexivity.
Qed.

(** It never ends if the eight bytes drawn in line 137 are those of 1: the generator is passed by value, and the loop draws the
    same bytes again and again. *)
Theorem C93_log_test_hangs_refuted : forall fuel c logf log10f cast s1 m1 tolerance, libm_log logf -> libm_log10 log10f ->
  forall (E : Type) (draw : E -> Z -> Z -> Z * E) (engine : E -> Z * E) (copied : bool), engine_ok engine -> no_min engine -> strict c = false ->
  forall fl s, (forall k, (k < 10)%nat -> inside (next_of engine (Nat.iter k (next_engine engine) s)) = true) ->
  positive_number draw 8 (engine1 engine s) = 1 ->
  log_test draw engine copied (run fuel c logf log10f cast s1 m1) logf tolerance c fl s = NoFuel.
Proof. exact @test_hangs. Qed.
Print Assumptions C93_log_test_hangs_refuted.
Example C93_hangs_case : in_bounds (sized only_one) /\
  (forall k, (k < 10)%nat -> inside (next_of (constant 12345) (Nat.iter k (next_engine (constant 12345)) 0)) = true) /\
  positive_number (sized only_one) 8 (engine1 (constant 12345) 0) = 1.
Proof.
  split; [apply sized_in_bounds|]. split; [intros k K; do 10 (destruct k as [|k]; [vm_compute; reflexivity|]); lia|]. vm_compute; reflexivity.
Qed.

(** It is undefined if the negative number that is drawn cannot be written in decimal. *)
Theorem C93_log_test_undefined_refuted : forall fuel c logf log10f cast s1 m1 tolerance, libm_log logf -> libm_log10 log10f ->
  forall (E : Type) (draw : E -> Z -> Z -> Z * E) (engine : E -> Z * E) (copied : bool), in_bounds draw -> engine_ok engine -> no_min engine -> strict c = false ->
  forall fl s, good_start draw engine copied s -> fl <> O ->
  text (negative_read draw 10 (engine2 engine s)) <> Ret (negative_read draw 10 (engine2 engine s)) ->
  log_test draw engine copied (run fuel c logf log10f cast s1 m1) logf tolerance c fl s = Undef OutOfBounds.
Proof. exact @test_undefined. Qed.
Print Assumptions C93_log_test_undefined_refuted.
Example C93_undefined_case : in_bounds (sized unwritable) /\ good_start (sized unwritable) (constant 12345) true 0 /\
  negative_read (sized unwritable) 10 (engine2 (constant 12345) 0) = - 10 ^ 17 /\ text (- 10 ^ 17) = Undef OutOfBounds.
Proof.
  split; [apply sized_in_bounds|]. split; [|split; vm_compute; reflexivity].
  split;
    [intros k K; do 10 (destruct k as [|k]; [vm_compute; reflexivity|]); lia|vm_compute; discriminate|vm_compute; discriminate
    |intros k K; do 10 (destruct k as [|k]; [vm_compute; discriminate|]); lia].
Qed.

(** It fails if a value reaches 2^1024, as blanks among its bytes can make it, and its base lies between 2 and 2^1024: only
    one of the calculators converts the value to a double. *)
Theorem C93_log_test_disagrees_refuted : forall fuel c logf log10f cast s1 m1 tolerance, libm_log logf -> libm_log10 log10f ->
  forall (E : Type) (draw : E -> Z -> Z -> Z * E) (engine : E -> Z * E) (copied : bool), in_bounds draw -> engine_ok engine -> no_min engine -> strict c = false ->
  is_finite tolerance = true -> (Rabs (B2R tolerance - / 10 ^ 15) <= / 10 ^ 16)%R ->
  forall fl s, good_draws draw engine copied logf tolerance c s -> fl <> O ->
  (exists j, (j < 10)%nat /\ (mixed_pair draw engine copied bases_clash s j \/ large_pair draw engine copied bases_clash s j)) ->
  log_test draw engine copied (run fuel c logf log10f cast s1 m1) logf tolerance c fl s = Ret false.
Proof. exact @test_disagrees. Qed.
Print Assumptions C93_log_test_disagrees_refuted.
Example C93_disagrees_case : in_bounds (sized blanks_later) /\
  good_draws (sized blanks_later) (constant 12345) true round_log tolerance15 release_wrap 0 /\
  mixed_pair (sized blanks_later) (constant 12345) true bases_clash 0 0.
Proof.
  split; [apply sized_in_bounds|]. split; [apply good_blanks|vm_compute; intuition congruence].
Qed.

(** Nothing else can happen: the test passes or fails, unless it meets such eight bytes or such a negative number. *)
Theorem C93_log_test_ends : forall fuel c logf log10f cast s1 m1 tolerance, libm_log logf -> libm_log10 log10f ->
  forall (E : Type) (draw : E -> Z -> Z -> Z * E) (engine : E -> Z * E) (copied : bool), in_bounds draw -> engine_ok engine -> no_min engine -> strict c = false ->
  is_finite tolerance = true -> (Rabs (B2R tolerance - / 10 ^ 15) <= / 10 ^ 16)%R ->
  forall fl s, let o := log_test draw engine copied (run fuel c logf log10f cast s1 m1) logf tolerance c fl s in
  (exists k, o = Ret k) \/
  (o = NoFuel /\ (fl = O \/ positive_number draw 8 (engine1 engine s) = 1)) \/
  (o = Undef OutOfBounds /\ text (negative_read draw 10 (engine2 engine s)) <> Ret (negative_read draw 10 (engine2 engine s))).
Proof. exact @test_ends. Qed.
Print Assumptions C93_log_test_ends.
Example C93_ends_case : in_bounds (sized four_bytes) /\ engine_ok counter /\ no_min counter /\ libm_log round_log /\ libm_log10 round_log10 /\ strict release_wrap = false.
Proof.
  split; [apply sized_in_bounds|]. split; [apply counter_ok|]. split; [apply counter_ok|]. split; [exact libm_log_exists|]. split; [exact libm_log10_exists|reflexivity].
Qed.
