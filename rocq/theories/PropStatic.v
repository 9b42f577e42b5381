(** Property theorems: calls made before the constants of BigInteger.cpp are initialised. *)
From Coq Require Import String.
From Verif Require Import Machine Spec SpecApi SpecPos SpecGcd SpecActual SpecStatic.
From Verif Require Import CalcGcd BigInt BigIntBytes BigIntText BigIntDouble ApiRun StaticInit StaticFacts Examples.
Open Scope string_scope.
Open Scope list_scope.
Open Scope Z_scope.

(** C72. The four definitions, run in order, give the constants the rest of the model uses. *)
Theorem C72_initialise : forall c, initialise c = Ret initialised.
Proof. exact initialise_ok. Qed.
Print Assumptions C72_initialise.

(** Afterwards every call does what the rest of the model says. *)
Theorem C72_after : forall c a b m n k l u be s fuel,
  bi_of_int32_s initialised c n = bi_of_int32 c n /\ bi_of_int64_s initialised c n = bi_of_int64 c n /\
  bi_of_dwords_s initialised c l = bi_of_dwords c l /\ bi_of_bytes_s initialised c l u be = bi_of_bytes c l u be /\
  bi_of_double_s initialised c n = bi_of_double c n /\ bi_parse_s initialised c s = bi_parse c s /\
  bi_zero_s initialised c = bi_zero c /\ bi_one_s initialised c = bi_one c /\ bi_minus_one_s initialised c = bi_minus_one c /\
  bi_add_s initialised c a b = bi_add c a b /\ bi_sub_s initialised c a b = bi_sub c a b /\
  bi_mul_s initialised c a b = bi_mul c a b /\ bi_div_s initialised c a b = bi_div c a b /\
  bi_rem_s initialised c a b = bi_rem c a b /\ bi_div_rem_s initialised c a b = bi_div_rem c a b /\
  bi_inc_s initialised c a = bi_inc c a /\ bi_dec_s initialised c a = bi_dec c a /\
  bi_not_s initialised c a = bi_not c a /\ bi_abs_s initialised c a = bi_abs c a /\
  bi_shl_s initialised c a k = bi_shl c a k /\ bi_shr_s initialised c a k = bi_shr c a k /\
  bi_xor_s initialised c a b = bi_xor c a b /\ bi_and_s initialised c a b = bi_and c a b /\
  bi_or_s initialised c a b = bi_or c a b /\ bi_pow_s initialised c a k = bi_pow c a k /\
  bi_gcd_s fuel initialised c a b = bi_gcd fuel c a b /\ bi_mod_pow_s initialised c a b m = bi_mod_pow c a b m.
Proof. exact after_all. Qed.
Print Assumptions C72_after.

(** Before: the functions whose results do not depend on it. *)
Theorem C72_unaffected : forall c a b m x y z n s fuel,
  represents a x -> represents b y -> represents m z ->
  bi_div_s zeroed c a b = bi_div c a b /\ bi_rem_s zeroed c a b = bi_rem c a b /\
  bi_div_rem_s zeroed c a b = bi_div_rem c a b /\ bi_gcd_s fuel zeroed c a b = bi_gcd fuel c a b /\
  bi_mod_pow_s zeroed c a b m = bi_mod_pow c a b m /\ bi_inc_s zeroed c a = bi_inc c a /\
  bi_not_s zeroed c a = bi_not c a /\ bi_abs_s zeroed c a = bi_abs c a /\
  bi_parse_s zeroed c s = bi_parse c s /\ bi_of_double_s zeroed c n = bi_of_double c n /\
  bi_zero_s zeroed c = bi_zero c /\ bi_one_s zeroed c = bi_one c /\ bi_minus_one_s zeroed c = bi_minus_one c.
Proof. exact unaffected. Qed.
Print Assumptions C72_unaffected.
(** -2^31 divided by -1, and read from text. *)
Example C72_unaffected_case :
  represents (Big (-1) [2147483648]) (- 2 ^ 31) /\ represents (Big (-1) []) (-1) /\
  bi_div_s zeroed debug_strict (Big (-1) [2147483648]) (Big (-1) []) = Ret (Big 1 [2147483648]) /\
  bi_parse_s zeroed debug_strict "-2147483648" = Ret (Big (-1) [2147483648]).
Proof. split; [repr|]. split; [repr|]. split; vm_compute; reflexivity. Qed.

(** Before: the other functions, each returning 0 instead of the right value in the stated cases only. *)
Theorem C72_ints_refuted : forall c n,
  (is_int n -> returns (bi_of_int32_s zeroed c n) (if is_min n then 0 else n)) /\
  (- 2 ^ 63 < n < 2 ^ 63 -> returns (bi_of_int64_s zeroed c n) (if is_min n then 0 else n)).
Proof. exact ints_early. Qed.
Print Assumptions C72_ints_refuted.
Theorem C72_arithmetic_refuted : forall c a b x y, represents a x -> represents b y ->
  returns (bi_add_s zeroed c a b) (if lost_small x y (x + y) then 0 else x + y) /\
  returns (bi_sub_s zeroed c a b) (if lost_small x y (x - y) then 0 else x - y) /\
  returns (bi_mul_s zeroed c a b) (if lost_small x y (x * y) then 0 else x * y).
Proof. exact sums_early. Qed.
Print Assumptions C72_arithmetic_refuted.
Theorem C72_unary_refuted : forall c a x, represents a x ->
  returns (bi_inc_s zeroed c a) (x + 1) /\ returns (bi_dec_s zeroed c a) (if x =? - 2 ^ 31 + 1 then 0 else x - 1) /\
  returns (bi_not_s zeroed c a) (Z.lnot x) /\ returns (bi_abs_s zeroed c a) (Z.abs x).
Proof. exact one_off_early. Qed.
Print Assumptions C72_unary_refuted.
Theorem C72_bits_refuted : forall c a b x y, represents a x -> represents b y ->
  returns (bi_xor_s zeroed c a b) (if lost_bits x y (Z.lxor x y) then 0 else Z.lxor x y) /\
  returns (bi_and_s zeroed c a b) (if lost_bits x y (Z.land x y) then 0 else Z.land x y) /\
  returns (bi_or_s zeroed c a b)
    (if negb (x =? 0) && negb (y =? 0) && lost_bits x y (Z.lor x y) then 0 else Z.lor x y).
Proof. exact bits_early. Qed.
Print Assumptions C72_bits_refuted.
Theorem C72_sequences_refuted : forall c l,
  (digits (2 ^ 32) l ->
   returns (bi_of_dwords_s zeroed c l)
     (if lost_dwords (List.length l) (complement (2 ^ 32) l) then 0 else complement (2 ^ 32) l)) /\
  (forall u be, digits 256 l -> strict c = false ->
   returns (bi_of_bytes_s zeroed c l u be)
     (if lost_bytes c (List.length l) (bytes_value u be l) then 0 else bytes_value u be l)).
Proof. exact sequences_early. Qed.
Print Assumptions C72_sequences_refuted.
(** Also where the right outcome is not a value. *)
Theorem C72_bytes_refuted : forall c l u be, digits 256 l ->
  bi_of_bytes_s zeroed c l u be = unless (lost_bytes c (List.length l) (bytes_value u be l)) (bi_of_bytes c l u be).
Proof. exact bytes_early. Qed.
Print Assumptions C72_bytes_refuted.
Theorem C72_shifts_refuted : forall c a x n, represents a x -> is_int n ->
  bi_shl_s zeroed c a n = unless (lost_shift_by c x (- n)) (bi_shl c a n) /\
  bi_shr_s zeroed c a n = unless (lost_shift_by c x n) (bi_shr c a n).
Proof. exact shifts_early. Qed.
Print Assumptions C72_shifts_refuted.
Theorem C72_pow_refuted : forall c a x e, represents a x ->
  bi_pow_s zeroed c a e = unless (lost_pow x e) (bi_pow c a e).
Proof. exact pow_early. Qed.
Print Assumptions C72_pow_refuted.
Theorem C72_pow_zero_refuted : forall c a x, represents a x ->
  bi_pow_s zeroed c a 0 = Ret (Big 0 []) /\ bi_pow c a 0 = Ret (Big 1 []).
Proof. exact pow_zero_early. Qed.
Print Assumptions C72_pow_zero_refuted.
(** One lost result each, and beside it one that is not. *)
Example C72_lost :
  bi_of_int32_s zeroed debug_strict (- 2 ^ 31) = Ret (Big 0 []) /\
  bi_of_int64_s zeroed debug_strict (- 2 ^ 31 - 1) = Ret (Big (-1) [2147483649]) /\
  bi_sub_s zeroed debug_strict (Big (-2147483647) []) (Big 1 []) = Ret (Big 0 []) /\
  bi_sub_s zeroed debug_strict (Big 0 []) (Big 1 [2147483648]) = Ret (Big (-1) [2147483648]) /\
  bi_mul_s zeroed debug_strict (Big (-65536) []) (Big 32768 []) = Ret (Big 0 []) /\
  bi_dec_s zeroed debug_strict (Big (-2147483647) []) = Ret (Big 0 []) /\
  bi_and_s zeroed debug_strict (Big (-2147483647) []) (Big (-2) []) = Ret (Big 0 []) /\
  bi_xor_s zeroed debug_strict (Big 1 [0; 1]) (Big (-1) [1; 1]) = Ret (Big 0 []) /\
  Z.lxor (2 ^ 32) (- (2 ^ 32 + 1)) = -1 /\
  bi_or_s zeroed debug_strict (Big 0 []) (Big (-1) [2147483648]) = Ret (Big (-1) [2147483648]) /\
  bi_of_dwords_s zeroed debug_strict [4294967295; 4294967295] = Ret (Big 0 []) /\
  bi_of_dwords_s zeroed debug_strict [4294967295] = Ret (Big (-1) []) /\
  bi_of_bytes_s zeroed debug_strict [255; 255; 255; 255; 255] false false = Ret (Big 0 []) /\
  bi_of_bytes_s zeroed release_wrap [255; 255; 255; 255] false false = Ret (Big (-1) []) /\
  bi_shr_s zeroed debug_strict (Big (-5) []) 32 = Ret (Big 0 []) /\
  bi_shr_s zeroed debug_strict (Big (-5) []) 31 = Ret (Big (-1) []) /\
  bi_pow_s zeroed debug_strict (Big (-1) []) 2 = Ret (Big 0 []) /\
  bi_pow_s zeroed debug_strict (Big (-2) []) 2 = Ret (Big 4 []).
Proof. repeat split; vm_compute; reflexivity. Qed.
