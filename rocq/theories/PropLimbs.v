(** Property theorems: numbers of 2^31 limbs and more. *)
From Verif Require Import Machine Spec SpecGcd SpecActual BigInt IntSizes IntLimbs SpecLimbs IntLimbsFacts IntShiftFacts IntShiftNeg IntLimbsLaws Examples.

(** C94. For integers of any size, compare_to orders them and equals tells them
    apart. True below 2^31 limbs; the limb counts are kept in [int], so from
    there on both fail. The next three theorems say what every call does. *)
Theorem C94_compare : forall c a b x y,
  represents a x -> represents b y -> bi_compare_i c a b = compared c x y.
Proof. exact compare_i_spec. Qed.
Print Assumptions C94_compare.
Theorem C94_equals : forall c a b x y,
  represents a x -> represents b y -> bi_equals_i c a b = found_equal c x y.
Proof. exact equals_i_spec. Qed.
Print Assumptions C94_equals.
Theorem C94_operators : forall c a b x y,
  represents a x -> represents b y ->
  bi_lt_i c a b = (r <- compared c x y ;; Ret (r <? 0)) /\
  bi_gt_i c a b = (r <- compared c y x ;; Ret (r <? 0)) /\
  bi_le_i c a b = (r <- compared c y x ;; Ret (negb (r <? 0))) /\
  bi_ge_i c a b = (r <- compared c x y ;; Ret (negb (r <? 0))) /\
  bi_eq_i c a b = found_equal c x y /\
  bi_ne_i c a b = (r <- found_equal c x y ;; Ret (negb r)) /\
  bi_max_i c a b = (r <- compared c x y ;; Ret (if r <? 0 then b else a)) /\
  bi_min_i c a b = (r <- compared c x y ;; Ret (if r <=? 0 then a else b)).
Proof. exact operators_i. Qed.
Print Assumptions C94_operators.
Example C94_case :
  represents (Big (-1) [7; 9]) (- (9 * 2 ^ 32 + 7)) /\ represents (Big (-1) [8; 9]) (- (9 * 2 ^ 32 + 8)) /\
  bi_compare_i debug_strict (Big (-1) [7; 9]) (Big (-1) [8; 9]) = Ret 1 /\
  bi_equals_i debug_strict (Big (-1) [7; 9]) (Big (-1) [8; 9]) = Ret false /\
  bi_max_i debug_strict (Big (-1) [7; 9]) (Big (-1) [8; 9]) = Ret (Big (-1) [7; 9]) /\
  bi_lt_i release_wrap (Big 1 [7; 9]) (Big 1 [1; 0; 1]) = Ret true.
Proof. split; [repr|]. split; [repr|]. repeat split. Qed.
Theorem C94_partial : forall c a b x y,
  represents a x -> represents b y -> limbs_of x < 2 ^ 31 -> limbs_of y < 2 ^ 31 ->
  bi_compare_i c a b = Ret (order x y) /\ bi_equals_i c a b = Ret (x =? y).
Proof. exact compare_i_fits. Qed.
Print Assumptions C94_partial.
(** Numbers of the same sign and length, more than 2^31 and at most 2^32 limbs,
    are all found equal. *)
Theorem C94_equal_refuted : forall c a b x y,
  represents a x -> represents b y -> Z.sgn x = Z.sgn y ->
  limbs_of x = limbs_of y -> 2 ^ 31 < limbs_of x <= 2 ^ 32 ->
  bi_compare_i c a b = Ret 0 /\ bi_equals_i c a b = Ret true.
Proof. exact same_length_lost. Qed.
Print Assumptions C94_equal_refuted.
Example C94_equal_case : forall k, k = 2 ^ 31 -> exists a b,
  represents a (2 ^ (32 * k) + 5) /\ represents b (2 ^ (32 * k) + 6) /\
  Z.sgn (2 ^ (32 * k) + 5) = Z.sgn (2 ^ (32 * k) + 6) /\
  limbs_of (2 ^ (32 * k) + 5) = limbs_of (2 ^ (32 * k) + 6) /\ 2 ^ 31 < limbs_of (2 ^ (32 * k) + 5) <= 2 ^ 32.
Proof. exact lost_case. Qed.
(** A number that long compares less than any positive number stored in fewer
    than 2^31 limbs. *)
Theorem C94_order_refuted : forall c a b x y,
  represents a x -> represents b y -> 0 < x -> 2 ^ 31 <= y ->
  limbs_of y < 2 ^ 31 <= limbs_of x -> limbs_of x < 2 ^ 32 ->
  y < x /\ bi_compare_i c a b = Ret (-1) /\ bi_compare_i c b a = Ret 1 /\
  bi_lt_i c a b = Ret true /\ bi_max_i c a b = Ret b /\ bi_min_i c a b = Ret a.
Proof. exact longer_is_less. Qed.
Print Assumptions C94_order_refuted.
Example C94_order_case : forall k, k = 2 ^ 31 -> exists a b,
  represents a (2 ^ (32 * k)) /\ represents b (2 ^ 40) /\ 0 < 2 ^ (32 * k) /\ 2 ^ 31 <= 2 ^ 40 /\
  limbs_of (2 ^ 40) < 2 ^ 31 <= limbs_of (2 ^ (32 * k)) /\ limbs_of (2 ^ (32 * k)) < 2 ^ 32.
Proof. exact less_case. Qed.

(** C95. For integers of any size and every int [n], [x << n] is x * 2^n and
    [x >> n] is x / 2^n rounded down. What every call does: *)
Theorem C95_left : forall c a x n,
  represents a x -> - 2 ^ 31 <= n < 2 ^ 31 -> sized_denotes (bi_shl_i c a n) (left_any c x n).
Proof. exact shl_i_spec. Qed.
Print Assumptions C95_left.
Theorem C95_right : forall c a x n,
  represents a x -> - 2 ^ 31 <= n < 2 ^ 31 -> sized_denotes (bi_shr_i c a n) (right_any c x n).
Proof. exact shr_i_spec. Qed.
Print Assumptions C95_right.
Theorem C95_left_partial : forall c a x n,
  represents a x -> 0 <= n < 2 ^ 31 -> limbs_of x + n / 32 + 1 < 2 ^ 31 ->
  exists r, bi_shl_i c a n = Sized (Ret r) /\ represents r (x * 2 ^ n).
Proof. exact shl_i_fits. Qed.
Print Assumptions C95_left_partial.
Theorem C95_right_partial : forall c a x n,
  represents a x -> 0 < n < 2 ^ 31 ->
  (0 <= x /\ limbs_of x < 2 ^ 31) \/ (x < 0 /\ limbs_of x < 2 ^ 26 /\ drops_ones x n = false) ->
  exists r, bi_shr_i c a n = Sized (Ret r) /\ represents r (x / 2 ^ n).
Proof. exact shr_i_fits. Qed.
Print Assumptions C95_right_partial.
Example C95_case :
  represents (Big (-1) [7; 9]) (- (9 * 2 ^ 32 + 7)) /\
  bi_shl_i debug_strict (Big (-1) [7; 9]) 36 = Sized (Ret (Big (-1) [0; 112; 144])) /\
  bi_shr_i debug_strict (Big (-1) [7; 9]) 33 = Sized (Ret (Big (-5) [])) /\
  bi_shr_i debug_strict (Big (-1) [7; 9]) (-32) = Sized (Ret (Big (-1) [0; 7; 9])) /\
  bi_shl_i debug_strict (Big 1 [7; 9]) (- 2 ^ 31) = Sized (Ret (Big 0 [])) /\
  bi_shl_i debug_strict (Big (-1) [7; 9]) (- 2 ^ 31) = Sized (Ret (Big (-1) [])).
Proof. split; [repr|]. repeat split. Qed.
(** A left shift whose result is given 2^31 limbs or more overflows an int;
    where that wraps, it throws std::length_error. *)
Theorem C95_left_overflow_refuted : forall c a x n,
  represents a x -> 0 < n < 2 ^ 31 -> limbs_of x < 2 ^ 31 <= limbs_of x + n / 32 + 1 ->
  bi_shl_i c a n = if strict c then Sized (Undef SignedOverflow) else LengthError.
Proof. exact shl_i_overflows. Qed.
Print Assumptions C95_left_overflow_refuted.
Example C95_overflow_case : forall k, k = 2 ^ 31 -> exists a,
  represents a (2 ^ (32 * (k - 3))) /\
  limbs_of (2 ^ (32 * (k - 3))) < 2 ^ 31 <= limbs_of (2 ^ (32 * (k - 3))) + 64 / 32 + 1.
Proof. exact overflow_case. Qed.
Theorem C95_left_throws_refuted : forall c a x n,
  represents a x -> 0 < n < 2 ^ 31 -> 2 ^ 31 <= limbs_of x -> limbs_of x + n / 32 + 1 < 2 ^ 32 ->
  bi_shl_i c a n = LengthError.
Proof. exact shl_i_throws. Qed.
Print Assumptions C95_left_throws_refuted.
(** A number of 2^32 limbs shifted left gives 0. *)
Theorem C95_left_zero_refuted : forall c a x n,
  represents a x -> 0 < n < 2 ^ 31 -> limbs_of x = 2 ^ 32 ->
  exists r, bi_shl_i c a n = Sized (Ret r) /\ represents r 0.
Proof. exact shl_i_zero. Qed.
Print Assumptions C95_left_zero_refuted.
Example C95_zero_case : forall k, k = 2 ^ 32 ->
  exists a, represents a (2 ^ (32 * (k - 1))) /\ limbs_of (2 ^ (32 * (k - 1))) = 2 ^ 32.
Proof. exact zero_shift_case. Qed.
(** A right shift of a number of more than 2^31 limbs gives 0. *)
Theorem C95_right_refuted : forall c a x n,
  represents a x -> 0 <= x -> 0 < n < 2 ^ 31 -> 2 ^ 31 + n / 32 <= limbs_of x <= 2 ^ 32 -> 2 ^ 31 < limbs_of x ->
  exists r, bi_shr_i c a n = Sized (Ret r) /\ represents r 0 /\ 0 < x / 2 ^ n.
Proof. exact shr_i_lost. Qed.
Print Assumptions C95_right_refuted.
