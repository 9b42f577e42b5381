(** Property theorems: the logarithms of the tests. *)
From Coq Require Import String Reals Lra ZArith.
From Flocq Require Import BinarySingleNaN.
From Verif Require Import Machine Spec SpecApi SpecDouble SpecLog SpecLogDouble SpecTestLog.
From Verif Require Import BigInt BigIntLogDouble TestOracle TestCalc CalcFacts TestLog TestLogFacts4 TestLogFacts5 LogDoubleFacts PowLaws Examples.
Open Scope R_scope.
Open Scope string_scope.

(** C84. uLog10 and uLog of a number of at least 2: both calculators compute the logarithm rounded
    up, if no integer is within about L (L + 64) / 2^52 of the logarithm L. *)
Theorem C84_log10 : forall logf log10f cast c b x n z, libm_log logf -> libm_log10 log10f ->
  represents b x -> (2 <= x)%Z -> limb_count x n -> (n <= 2 ^ 26)%Z ->
  clear (ln (IZR x) / ln 10) -> ceiling (ln (IZR x) / ln 10) z ->
  returns (sn_unary c (sn_log1 logf log10f cast c) b "uLog10") z /\
  returns (mine_unary c (mine_log1 logf log10f cast c) b "uLog10") z.
Proof. exact unary_log10. Qed.
Print Assumptions C84_log10.
(** The library functions asked for exist; 2^96 + 7, whose logarithm is 28.89... *)
Example C84_log10_case :
  libm_log round_log /\ libm_log10 round_log10 /\
  represents (Big 1 [7; 0; 0; 1]%Z) (2 ^ 96 + 7) /\ limb_count (2 ^ 96 + 7) 4 /\
  clear (ln (IZR (2 ^ 96 + 7)) / ln 10) /\ ceiling (ln (IZR (2 ^ 96 + 7)) / ln 10) 29.
Proof.
  split; [exact libm_log_exists|]. split; [exact libm_log10_exists|]. split; [repr|].
  split; [apply limb_count_compute; vm_compute; reflexivity|].
  assert (IZR 28 + / 1000 <= ln (IZR (2 ^ 96 + 7)) / ln (IZR 10) <= IZR 28 + 1 - / 1000) as B
    by (apply (ratio_between_int _ 10 10 288 289); vm_compute; discriminate || reflexivity).
  split; [apply (clear_between _ 28); [split; discriminate|exact B]|exact (ceiling_between _ 28 B)].
Qed.

Theorem C84_ln : forall logf log10f cast c b x n z, libm_log logf -> libm_log10 log10f ->
  represents b x -> (2 <= x)%Z -> limb_count x n -> (n <= 2 ^ 26)%Z ->
  clear (ln (IZR x)) -> ceiling (ln (IZR x)) z ->
  returns (sn_unary c (sn_log1 logf log10f cast c) b "uLog") z /\
  returns (mine_unary c (mine_log1 logf log10f cast c) b "uLog") z.
Proof. exact unary_ln. Qed.
Print Assumptions C84_ln.
Example C84_ln_case :
  represents (Big 1 [7; 0; 0; 1]%Z) (2 ^ 96 + 7) /\ clear (ln (IZR (2 ^ 96 + 7))) /\ ceiling (ln (IZR (2 ^ 96 + 7))) 67.
Proof.
  split; [repr|].
  assert (IZR 66 + / 1000 <= ln (IZR (2 ^ 96 + 7)) <= IZR 66 + 1 - / 1000) as B
    by (apply (ln_between_int _ 3 199 200); vm_compute; discriminate || reflexivity).
  split; [apply (clear_between _ 66); [split; discriminate|exact B]|exact (ceiling_between _ 66 B)].
Qed.
(** A number of which the reference implementation cuts off digits: 4 * 10^149, which it divides by 10
    for 49 times. *)
Example C84_cut_case :
  clear (ln (IZR (4 * 10 ^ 149)) / ln 10) /\ ceiling (ln (IZR (4 * 10 ^ 149)) / ln 10) 150.
Proof.
  assert (IZR 149 + / 1000 <= ln (IZR (4 * 10 ^ 149)) / ln (IZR 10) <= IZR 149 + 1 - / 1000) as B
    by (apply (ratio_between_int _ 10 3 448 449); vm_compute; discriminate || reflexivity).
  split; [apply (clear_between _ 149); [split; discriminate|exact B]|exact (ceiling_between _ 149 B)].
Qed.

(** Of 1, 0 and negative numbers the library's logarithms are 0, minus infinity and NaN, which stand as
    0, -102 and -101. The reference implementation agrees if the conversion to int of a NaN or minus
    infinity happens to give at most 100. *)
Theorem C84_special : forall logf log10f cast c op b x, libm_log logf -> libm_log10 log10f -> is_log op ->
  represents b x -> (x <= 1)%Z -> let z := if (x <? 0)%Z then (-101)%Z else if (x =? 0)%Z then (-102)%Z else 0%Z in
  returns (sn_unary c (sn_log1 logf log10f cast c) b op) z /\
  (x = 1%Z \/ (exists f, cast (first_log x) = Ret f /\ (f <= 100)%Z) ->
   returns (mine_unary c (mine_log1 logf log10f cast c) b op) z).
Proof. exact unary_special. Qed.
Print Assumptions C84_special.
(** As on x86-64, where such a conversion gives INT_MIN. *)
Example C84_special_case : let cast := fun _ : double => Ret INT_MIN in
  represents (Big (-5) []) (-5) /\ is_log "uLog" /\ (exists f, cast (first_log (-5)) = Ret f /\ (f <= 100)%Z).
Proof. split; [repr|]. split; [left; reflexivity|]. exists INT_MIN. split; [reflexivity|]. vm_compute. discriminate. Qed.

(** That conversion is undefined. It happens for every number of at most 0, and log02.cpp and log10.cpp
    have such numbers. *)
Theorem C84_undefined_refuted : forall logf log10f cast c op b x u, libm_log logf -> is_log op ->
  represents b x -> (x <= 0)%Z -> cast (first_log x) = Undef u ->
  mine_unary c (mine_log1 logf log10f cast c) b op = Undef u.
Proof. exact unary_undefined. Qed.
Print Assumptions C84_undefined_refuted.
Example C84_undefined_case : let cast := (fun _ => Undef SignedOverflow) : double -> outcome Z in
  represents (Big 0 []) 0 /\ is_log "uLog10" /\ cast (first_log 0) = Undef SignedOverflow.
Proof. split; [repr|]. split; [right; reflexivity|reflexivity]. Qed.

(** bLog: the logarithm of x to the base y, rounded up, for numbers below 2^1024. *)
Theorem C84_ratio : forall logf log10f cast fuel c a b x y n z, libm_log logf -> libm_log10 log10f ->
  represents a x -> represents b y -> limb_count x n -> (n <= 2 ^ 26)%Z -> (2 <= x)%Z -> (2 <= y < 2 ^ 1024)%Z ->
  clear (ln (IZR x) / ln (IZR y)) -> ceiling (ln (IZR x) / ln (IZR y)) z ->
  denotes_pair (sn_binary fuel c (sn_log2 logf log10f cast c) a b "bLog") (Ret z) 0 /\
  ((x < 2 ^ 1024)%Z -> denotes_pair (mine_binary c (mine_log2 logf log10f cast c) a b "bLog") (Ret z) 0).
Proof. exact binary_regular. Qed.
Print Assumptions C84_ratio.
Example C84_ratio_case :
  represents (Big 1 [7; 0; 0; 1]%Z) (2 ^ 96 + 7) /\ represents (Big 7 []) 7 /\
  clear (ln (IZR (2 ^ 96 + 7)) / ln (IZR 7)) /\ ceiling (ln (IZR (2 ^ 96 + 7)) / ln (IZR 7)) 35.
Proof.
  split; [repr|]. split; [repr|].
  assert (IZR 34 + / 1000 <= ln (IZR (2 ^ 96 + 7)) / ln (IZR 7) <= IZR 34 + 1 - / 1000) as B
    by (apply (ratio_between_int _ 7 6 205 206); vm_compute; discriminate || reflexivity).
  split; [apply (clear_between _ 34); [split; discriminate|exact B]|exact (ceiling_between _ 34 B)].
Qed.

(** The remaining operands, except for one case. *)
Theorem C84_ratio_special : forall logf log10f cast fuel c a b x y n, libm_log logf -> libm_log10 log10f ->
  represents a x -> represents b y -> limb_count x n -> (n <= 2 ^ 26)%Z -> (x <= 1 \/ y <= 1 \/ 2 ^ 1024 <= y)%Z ->
  denotes_pair (sn_binary fuel c (sn_log2 logf log10f cast c) a b "bLog") (Ret (ratio_special x y)) 0 /\
  denotes_pair (mine_binary c (mine_log2 logf log10f cast c) a b "bLog") (Ret (ratio_special x y)) 0.
Proof. exact binary_special. Qed.
Print Assumptions C84_ratio_special.
Example C84_ratio_special_case :
  represents (Big 1 [0; 1]%Z) (2 ^ 32) /\ represents (Big 1 []) 1 /\ ratio_special (2 ^ 32) 1 = (-101)%Z /\
  ratio_special 0 (2 ^ 32) = (-102)%Z /\ ratio_special 1 0 = 0%Z /\ ratio_special 1 7 = 0%Z.
Proof. split; [repr|]. split; [repr|]. repeat split. Qed.

(** The one case: from 2^1024 on the reference implementation takes the number for infinity and says
    -103, where the library has a logarithm. A test with such a number fails. *)
Theorem C84_ratio_refuted : forall logf log10f cast fuel c a b x y n, libm_log logf -> libm_log10 log10f ->
  represents a x -> represents b y -> limb_count x n -> (n <= 2 ^ 26)%Z -> (2 ^ 1024 <= x)%Z -> (2 <= y < 2 ^ 1024)%Z ->
  (exists z, denotes_pair (sn_binary fuel c (sn_log2 logf log10f cast c) a b "bLog") (Ret z) 0 /\ (1 <= z)%Z) /\
  denotes_pair (mine_binary c (mine_log2 logf log10f cast c) a b "bLog") (Ret (-103)%Z) 0.
Proof. exact binary_large. Qed.
Print Assumptions C84_ratio_refuted.
Example C84_ratio_refuted_case :
  represents (Big 1 (zeros 32 ++ [1]%Z)) (2 ^ 1024) /\ limb_count (2 ^ 1024) 33 /\ represents (Big 7 []) 7.
Proof. split; [repr|]. split; [apply limb_count_compute; vm_compute; reflexivity|repr]. Qed.

(** Below 2^31 the two calculators do the same operations on doubles for uLog10 and bLog, so that no
    distance to an integer is needed. *)
Theorem C84_same_log10 : forall logf log10f cast c b x, libm_log logf -> represents b x -> (1 <= x < 2 ^ 31)%Z ->
  sn_unary c (sn_log1 logf log10f cast c) b "uLog10" = mine_unary c (mine_log1 logf log10f cast c) b "uLog10".
Proof. exact unary_same. Qed.
Print Assumptions C84_same_log10.
Theorem C84_same_ratio : forall logf log10f cast fuel c a b x y, libm_log logf -> represents a x -> represents b y ->
  (2 <= x < 2 ^ 31)%Z -> (2 <= y < 2 ^ 1024)%Z ->
  sn_binary fuel c (sn_log2 logf log10f cast c) a b "bLog" = mine_binary c (mine_log2 logf log10f cast c) a b "bLog".
Proof. exact binary_same. Qed.
Print Assumptions C84_same_ratio.
(** 1000 = 10^3, whose logarithm is an integer. *)
Example C84_same_case : represents (Big 1000 []) 1000 /\ ln 1000 / ln 10 = 3.
Proof.
  split; [repr|]. replace 1000 with (10 ^ 3) by lra. rewrite ln_pow by lra. cbn [INR].
  assert (0 < ln 10) by (rewrite <- ln_1; apply ln_increasing; lra). unfold Rdiv. rewrite Rmult_assoc, Rinv_r by lra. lra.
Qed.

(** C85. LargeValueLogTests passes, whatever the rounding of std::log within a unit in the last place. *)
Theorem C85_large_values : forall logf tolerance c start bigs small smalls,
  libm_log logf -> is_finite tolerance = true -> Rabs (B2R tolerance - / 10 ^ 15) <= / 10 ^ 16 ->
  (0 <= start <= INT_MAX)%Z -> (0 <= small)%Z -> (0 <= smalls <= INT_MAX)%Z -> (small * smalls <= INT_MAX)%Z -> (small <= INT_MAX)%Z ->
  (0 <= bigs <= 256)%Z ->
  large_value_log_tests logf tolerance c start bigs small smalls = Ret true.
Proof. exact large_value_ok. Qed.
Print Assumptions C85_large_values.
(** The calls of the test, with the double nearest to 10^-15. *)
Example C85_case : let tolerance := bits_double 4382569440205035030 in
  libm_log round_log /\ is_finite tolerance = true /\ Rabs (B2R tolerance - / 10 ^ 15) <= / 10 ^ 16 /\
  (64 * 3 <= INT_MAX)%Z.
Proof.
  intros tolerance. destruct (bits_ok 4382569440205035030) as (F & R); [split; [discriminate|reflexivity]|discriminate|].
  split; [exact libm_log_exists|]. split; [exact F|]. split; [|vm_compute; discriminate].
  unfold tolerance. rewrite R. unfold dbl_real.
  change (dbl_signed 4382569440205035030 (dbl_significand 4382569440205035030)) with 5070602400912918%Z.
  change (dbl_scale 4382569440205035030) with (-102)%Z. change (powerRZ 2 (-102)) with (/ 2 ^ 102).
  replace (2 ^ 102) with 5070602400912917605986812821504 by lra.
  replace (10 ^ 15) with 1000000000000000 by lra. replace (10 ^ 16) with 10000000000000000 by lra. apply Rabs_le. lra.
Qed.
