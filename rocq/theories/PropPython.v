(** Property theorems: the Python bindings. A Python int is its value, a Z; the
    CPython functions used are specified in SpecPy.v. [z] says whether the int
    argument is the object [0] itself. *)
From Coq Require Import String.
From Verif Require Import Machine Spec SpecApi SpecPos SpecText SpecDouble SpecFloat SpecPy BigInt BigIntDouble PyBind PyFacts
  PowLaws SpecRun PyPow PyFloat TextFacts Examples.
Open Scope Z_scope.

(** C35. Python int to BigInteger and back. Missing from the full claim: under
    strict C++ semantics the byte constructor shifts a negative int (C22), which
    hits every v in [-2^31, 0) except -2^24. *)
Theorem C35_from_int_partial : forall c z v,
  (z = true -> v = 0) -> strict c = false \/ 0 <= v \/ v < - 2 ^ 31 -> returns (py_init_int c z v) v.
Proof. exact of_py_returns. Qed.
Print Assumptions C35_from_int_partial.
Theorem C35_from_int_refuted : forall c v,
  strict c = true -> - 2 ^ 31 <= v < 0 -> v <> - 2 ^ 24 -> py_init_int c false v = Undef ShiftNegative.
Proof. exact of_py_strict. Qed.
Print Assumptions C35_from_int_refuted.
Theorem C35_to_int : forall c a x, represents a x -> py_int c a = Ret x.
Proof. exact to_py_returns. Qed.
Print Assumptions C35_to_int.
Theorem C35_round_trip_partial : forall c z v,
  (z = true -> v = 0) -> strict c = false \/ 0 <= v \/ v < - 2 ^ 31 ->
  (b <- py_init_int c z v ;; py_int c b) = Ret v.
Proof. exact py_round_trip. Qed.
Print Assumptions C35_round_trip_partial.
Example C35_case :
  py_init_int release_wrap false (- 2 ^ 39) = Ret (Big (-1) [0; 128]) /\
  py_init_int release_wrap false (-256) = Ret (Big (-256) []) /\
  py_init_int debug_strict false (2 ^ 31) = Ret (Big 1 [2147483648]) /\
  py_init_int debug_strict false 0 = Ret (Big 0 []) /\
  py_init_int debug_strict false (- 2 ^ 24) = Ret (Big (-16777216) []) /\
  py_init_int debug_strict false (-5) = Undef ShiftNegative.
Proof. repeat split; vm_compute; reflexivity. Qed.

(** C36. hash(). Full claim: equal values, BigInteger or int, hash alike. True
    between BigIntegers; false against every int of 32 bits. *)
Theorem C36_hash_partial : forall c a b x,
  represents a x -> represents b x -> exists h, py_hash c a = Ret h /\ py_hash c b = Ret h.
Proof. exact py_hash_equal. Qed.
Print Assumptions C36_hash_partial.
Theorem C36_hash_refuted : forall c a v,
  represents a v -> - 2 ^ 31 < v < 2 ^ 31 -> exists h, py_hash c a = Ret h /\ h <> py_int_hash v.
Proof. exact py_hash_small. Qed.
Print Assumptions C36_hash_refuted.
Example C36_case :
  py_eq_int debug_strict false (Big 1 []) 1 = Ret true /\
  py_hash debug_strict (Big 1 []) = Ret 36342608889142558 /\ py_int_hash 1 = 1.
Proof. repeat split; vm_compute; reflexivity. Qed.

(** C41. BigInteger op int and int op BigInteger. [py_arg] is the side condition of C35. *)
Theorem C41_compare_int : forall c z v a x,
  represents a x -> py_arg c z v ->
  py_lt_int c z a v = Ret (x <? v) /\ py_le_int c z a v = Ret (x <=? v) /\ py_eq_int c z a v = Ret (x =? v) /\
  py_gt_int c z a v = Ret (v <? x) /\ py_ge_int c z a v = Ret (v <=? x).
Proof. exact compare_int. Qed.
Print Assumptions C41_compare_int.
Theorem C41_arith_int : forall c z v a x,
  represents a x -> py_arg c z v ->
  returns (py_add_int c z a v) (x + v) /\ returns (py_sub_int c z a v) (x - v) /\
  returns (py_mul_int c z a v) (x * v) /\ returns (py_and_int c z a v) (Z.land x v) /\
  returns (py_or_int c z a v) (Z.lor x v) /\ returns (py_xor_int c z a v) (Z.lxor x v).
Proof. exact arith_int. Qed.
Print Assumptions C41_arith_int.
Theorem C41_arith_reflected : forall c z v a x,
  represents a x -> py_arg c z v ->
  py_radd c z a v = Ret (v + x) /\ py_rsub c z a v = Ret (v - x) /\ py_rmul c z a v = Ret (v * x) /\
  py_rand c z a v = Ret (Z.land v x) /\ py_ror c z a v = Ret (Z.lor v x) /\ py_rxor c z a v = Ret (Z.lxor v x).
Proof. exact arith_reflected. Qed.
Print Assumptions C41_arith_reflected.
Theorem C41_div_int : forall c z v a x,
  represents a x -> py_arg c z v -> v <> 0 ->
  returns (py_floordiv_int c z a v) (Z.quot x v) /\ returns (py_truediv_int c z a v) (Z.quot x v) /\
  returns (py_mod_int c z a v) (Z.rem x v).
Proof. exact div_int. Qed.
Print Assumptions C41_div_int.
Theorem C41_div_reflected : forall c z v a x,
  represents a x -> py_arg c z v -> x <> 0 ->
  py_rfloordiv c z a v = Ret (Z.quot v x) /\ py_rtruediv c z a v = Ret (Z.quot v x) /\
  py_rmod c z a v = Ret (Z.rem v x).
Proof. exact div_reflected. Qed.
Print Assumptions C41_div_reflected.
Theorem C41_div_by_zero : forall c z v a x,
  represents a x -> py_arg c z v ->
  (v = 0 -> py_floordiv_int c z a v = Throw DivideByZero /\ py_truediv_int c z a v = Throw DivideByZero /\
            py_mod_int c z a v = Throw DivideByZero /\ py_divmod_int c z a v = Throw DivideByZero) /\
  (x = 0 -> py_rfloordiv c z a v = Throw DivideByZero /\ py_rtruediv c z a v = Throw DivideByZero /\
            py_rmod c z a v = Throw DivideByZero /\ py_rdivmod_str c z a v = Throw DivideByZero).
Proof. exact div_zero_int. Qed.
Print Assumptions C41_div_by_zero.
Example C41_case :
  py_arg debug_strict false (- 2 ^ 39) /\ represents (Big 1 [7; 1]) (2 ^ 32 + 7) /\
  py_sub_int debug_strict false (Big 1 [7; 1]) (- 2 ^ 39) = Ret (Big 1 [7; 129]) /\
  py_rsub debug_strict false (Big 1 [7; 1]) (- 2 ^ 39) = Ret (- 2 ^ 39 - 2 ^ 32 - 7) /\
  py_rfloordiv debug_strict false (Big 1 [7; 1]) (- 2 ^ 39) = Ret (-127) /\
  py_lt_int debug_strict false (Big 1 [7; 1]) (2 ^ 40) = Ret true.
Proof.
  split; [split; [discriminate|right; right; reflexivity]|]. split; [repr|]. repeat split; vm_compute; reflexivity.
Qed.

(** C42. BigInteger(buffer). The full claim,
      buffer_ok b -> returns (py_init_buffer c b) (bytes_value false false (exposed b)),
    holds (outside C22's strict case) for contiguous buffers; strides are ignored,
    and a reversed view of any two bytes or more is read past its end. *)
Theorem C42_buffer_partial : forall c b,
  buffer_ok b -> stride b = 1 \/ (size b <= 1)%nat ->
  strict c = false \/ 0 <= bytes_value false false (exposed b) \/ (4 < size b)%nat ->
  returns (py_init_buffer c b) (bytes_value false false (exposed b)).
Proof. exact buffer_returns. Qed.
Print Assumptions C42_buffer_partial.
Theorem C42_buffer_refuted : forall c m,
  digits 256 m -> (2 <= List.length m)%nat ->
  let b := Buffer m (Z.of_nat (List.length m) - 1) (List.length m) (-1) in
  buffer_ok b /\ exposed b = rev m /\ py_init_buffer c b = Undef OutOfBounds.
Proof. exact buffer_reversed. Qed.
Print Assumptions C42_buffer_refuted.
Example C42_case :
  exposed (Buffer [9; 1; 2; 3; 9] 1 3 1) = [1; 2; 3] /\
  py_init_buffer debug_strict (Buffer [9; 1; 2; 3; 9] 1 3 1) = Ret (Big (1 + 256 * 2 + 65536 * 3) []) /\
  exposed (Buffer [1; 2; 3] 0 2 2) = [1; 3] /\
  py_init_buffer debug_strict (Buffer [1; 2; 3] 0 2 2) = Ret (Big (1 + 256 * 2) []).
Proof. repeat split. Qed.

(** C43. BigInteger // int and BigInteger % int against Python's floor
    semantics: they agree exactly when the remainder is zero or the signs are
    equal; otherwise the quotient is one more and the remainder one divisor less. *)
Theorem C43_floor_partial : forall c z v a x,
  represents a x -> py_arg c z v -> v <> 0 -> Z.rem x v = 0 \/ Z.sgn x = Z.sgn v ->
  returns (py_floordiv_int c z a v) (py_floordiv x v) /\ returns (py_mod_int c z a v) (py_mod x v).
Proof. exact floor_agree. Qed.
Print Assumptions C43_floor_partial.
Theorem C43_floor_refuted : forall c z v a x,
  represents a x -> py_arg c z v -> v <> 0 -> Z.rem x v <> 0 -> Z.sgn x <> Z.sgn v ->
  returns (py_floordiv_int c z a v) (py_floordiv x v + 1) /\ returns (py_mod_int c z a v) (py_mod x v - v).
Proof. exact floor_differ. Qed.
Print Assumptions C43_floor_refuted.
Example C43_case :
  py_floordiv_int debug_strict false (Big (-7) []) 2 = Ret (Big (-3) []) /\ py_floordiv (-7) 2 = -4 /\
  py_mod_int debug_strict false (Big (-7) []) 2 = Ret (Big (-1) []) /\ py_mod (-7) 2 = 1.
Proof. repeat split. Qed.

(** C44. Shift counts and exponents that are ints or BigIntegers. The rshift
    conditions are those of C12, the size conditions of pow those of C14. *)
Theorem C44_lshift : forall c a s x n,
  represents a x -> represents s n ->
  (0 <= n < 2 ^ 31 ->
     returns (py_lshift c a s) (x * 2 ^ n) /\ returns (py_lshift_int c a n) (x * 2 ^ n) /\
     forall z v, py_arg c z v -> py_rlshift c z s v = Ret (v * 2 ^ n)) /\
  (n < - 2 ^ 31 \/ 2 ^ 31 <= n -> py_lshift c a s = Throw OverflowError /\ py_lshift_int c a n = Throw CastError).
Proof. exact lshift_family. Qed.
Print Assumptions C44_lshift.
Theorem C44_rshift_partial : forall c a s x n,
  represents a x -> represents s n ->
  (0 <= n < 2 ^ 31 ->
     ((x < 0 -> fits_limbs x (2 ^ 26 - 1)) -> ~ shr_bad x n ->
        returns (py_rshift c a s) (x / 2 ^ n) /\ returns (py_rshift_int c a n) (x / 2 ^ n)) /\
     forall z v, py_arg c z v -> (v < 0 -> fits_limbs v (2 ^ 26 - 1)) -> ~ shr_bad v n ->
       py_rrshift c z s v = Ret (v / 2 ^ n)) /\
  (n < - 2 ^ 31 \/ 2 ^ 31 <= n -> py_rshift c a s = Throw OverflowError /\ py_rshift_int c a n = Throw CastError).
Proof. exact rshift_family. Qed.
Print Assumptions C44_rshift_partial.
Theorem C44_pow : forall c a s x e n,
  represents a x -> represents s e -> limb_count x n ->
  (0 <= e < 2 ^ 31 -> Z.abs x <= 1 \/ e <= 1 \/ n * e + 1 < 2 ^ 31 - 1 ->
     returns (py_pow c a s) (x ^ e) /\ returns (py_pow_int c a e) (x ^ e)) /\
  (- 2 ^ 31 < e < 0 -> py_pow c a s = Throw OutOfRange /\ py_pow_int c a e = Throw OutOfRange) /\
  (e < - 2 ^ 31 \/ 2 ^ 31 <= e -> py_pow c a s = Throw OverflowError /\ py_pow_int c a e = Throw OverflowError).
Proof. exact pow_family. Qed.
Print Assumptions C44_pow.
Theorem C44_rpow : forall c z v s e n,
  py_arg c z v -> represents s e -> limb_count v n -> 0 <= e < 2 ^ 31 ->
  Z.abs v <= 1 \/ e <= 1 \/ n * e + 1 < 2 ^ 31 - 1 -> py_rpow c z s v = Ret (v ^ e).
Proof. exact rpow_returns. Qed.
Print Assumptions C44_rpow.
Example C44_case :
  py_lshift debug_strict (Big (-3) []) (Big 33 []) = Ret (Big (-1) [0; 6]) /\
  py_rlshift debug_strict false (Big 33 []) 3 = Ret (6 * 2 ^ 32) /\
  py_lshift_int debug_strict (Big 1 []) (2 ^ 31) = Throw CastError /\
  py_rpow debug_strict false (Big 5 []) (2 ^ 33) = Ret (2 ^ 165) /\
  py_pow_int debug_strict (Big 2 []) (2 ^ 40) = Throw OverflowError.
Proof. repeat split; vm_compute; reflexivity. Qed.

(** C45. divmod(BigInteger, BigInteger), divmod(BigInteger, int) and
    divmod(int, BigInteger). Full claim: the
    truncated quotient and remainder, for every non-zero divisor. The first
    inherits C07's wrong remainder, the second also C19's buffer overrun. *)
Theorem C45_divmod_partial : forall c z v a x,
  represents a x -> py_arg c z v -> v <> 0 ->
  ~ (x <= - 2 ^ 31 /\ - 2 ^ 31 < v < 2 ^ 31 /\ Z.rem x v <> 0) ->
  exists q r, py_divmod_int c z a v = Ret (q, r) /\ represents q (Z.quot x v) /\ represents r (Z.rem x v).
Proof. exact divmod_int. Qed.
Print Assumptions C45_divmod_partial.
Theorem C45_divmod_big_partial : forall c a b x y,
  represents a x -> represents b y -> y <> 0 ->
  ~ (x <= - 2 ^ 31 /\ - 2 ^ 31 < y < 2 ^ 31 /\ Z.rem x y <> 0) ->
  exists q r, py_divmod c a b = Ret (q, r) /\ represents q (Z.quot x y) /\ represents r (Z.rem x y).
Proof. exact divmod_big. Qed.
Print Assumptions C45_divmod_big_partial.
Theorem C45_divmod_refuted : forall c z v a x,
  represents a x -> py_arg c z v -> v <> 0 ->
  x <= - 2 ^ 31 -> - 2 ^ 31 < v < 2 ^ 31 -> Z.rem x v <> 0 ->
  exists q r, py_divmod_int c z a v = Ret (q, r) /\ represents q (Z.quot x v) /\
              represents r (2 ^ 32 + Z.rem x v) /\ ~ represents r (Z.rem x v).
Proof. exact divmod_int_bad. Qed.
Print Assumptions C45_divmod_refuted.
Theorem C45_rdivmod_partial : forall c z v a x n m,
  represents a x -> py_arg c z v -> x <> 0 ->
  ~ (v <= - 2 ^ 31 /\ - 2 ^ 31 < x < 2 ^ 31 /\ Z.rem v x <> 0) ->
  limb_count (Z.quot v x) n -> n <= 214748364 -> ~ sign_hits (Z.quot v x) ->
  limb_count (Z.rem v x) m -> m <= 214748364 -> ~ sign_hits (Z.rem v x) ->
  exists s t, py_rdivmod_str c z a v = Ret (s, t) /\ numeral s (Z.quot v x) /\ numeral t (Z.rem v x).
Proof. exact rdivmod_returns. Qed.
Print Assumptions C45_rdivmod_partial.
Theorem C45_rdivmod_refuted : forall c z v a x n,
  represents a x -> py_arg c z v -> x <> 0 ->
  limb_count (Z.quot v x) n -> n <= 214748364 -> sign_hits (Z.quot v x) ->
  py_rdivmod_str c z a v = Undef OutOfBounds.
Proof. exact rdivmod_oob. Qed.
Print Assumptions C45_rdivmod_refuted.
Example C45_case :
  py_divmod_int release_wrap false (Big (-1) [1; 1]) 10 = Ret (Big (-429496729) [], Big 1 [4294967289]) /\
  py_rdivmod_str debug_strict false (Big 7 []) (2 ^ 64) = Ret ("2635249153387078802"%string, "2"%string) /\
  sign_hits (- 10 ^ 17) /\
  py_rdivmod_str release_wrap false (Big (-1) []) (10 ^ 17) = Undef OutOfBounds.
Proof.
  split; [vm_compute; reflexivity|]. split; [vm_compute; reflexivity|]. split; [|vm_compute; reflexivity].
  split; [vm_compute; discriminate|exists 2; apply width_compute; vm_compute; reflexivity].
Qed.

(** C47. pow(x, e, n) with BigInteger or int exponent or modulus; [mod_pow_ok]
    are the cases of C08, C15, C16 and C17 in which mod_pow is right. *)
Theorem C47_pow_mod_partial : forall c a b m x e n,
  represents a x -> represents b e -> represents m n -> mod_pow_ok x e n ->
  let all_are P :=
    P (bi_mod_pow c a b m) /\
    (forall z, py_arg c z e -> P (py_mod_pow_int_exp c z a e m)) /\
    (forall z, py_arg c z n -> P (py_mod_pow_int_mod c z a b n)) in
  (e < 0 -> all_are (fun o => o = Throw OutOfRange)) /\
  (0 <= e -> n = 0 -> all_are (fun o => o = Throw DivideByZero)) /\
  (0 <= e -> n <> 0 -> all_are (fun o => returns o (Z.rem (x ^ e) n))).
Proof. exact pow_mod_family. Qed.
Print Assumptions C47_pow_mod_partial.
Example C47_pow_mod_case :
  mod_pow_ok (-3) 5 (2 ^ 64 + 1) /\ py_arg debug_strict false 5 /\
  py_mod_pow_int_exp debug_strict false (Big (-3) []) 5 (Big 1 [1; 0; 1]) = Ret (Big (-243) []) /\
  py_mod_pow_int_mod debug_strict false (Big (-3) []) (Big 4 []) 7 = Ret (Big 4 []).
Proof.
  split; [right; right; right; left; split; [discriminate|reflexivity]|].
  split; [split; [discriminate|right; left; discriminate]|]. split; vm_compute; reflexivity.
Qed.

(** C48. bytes(x) and x.to_array(unsigned, big_endian): int.from_bytes gives x
    back, no shorter non-empty string would, a negative x has no unsigned
    encoding, and BigInteger(bytes(x)) is x again (the condition is C22's). *)
Theorem C48_bytes : forall c a x,
  represents a x ->
  exists l, py_bytes c a = Ret l /\ py_to_array c a false false = Ret l /\
    digits 256 l /\ bytes_value false false l = x /\ l <> [] /\
    forall l', digits 256 l' -> bytes_value false false l' = x -> l' <> [] -> (List.length l <= List.length l')%nat.
Proof. exact bytes_family. Qed.
Print Assumptions C48_bytes.
Theorem C48_to_array : forall c a x u be,
  represents a x -> (u = true -> 0 <= x) ->
  exists l, py_to_array c a u be = Ret l /\ digits 256 l /\ py_from_bytes l be (negb u) = x /\ l <> [] /\
    forall l', digits 256 l' -> bytes_value u be l' = x -> l' <> [] -> (List.length l <= List.length l')%nat.
Proof. exact to_array_family. Qed.
Print Assumptions C48_to_array.
Theorem C48_to_array_negative : forall c a x be,
  represents a x -> x < 0 -> py_to_array c a true be = Throw RuntimeError.
Proof. exact to_array_negative. Qed.
Print Assumptions C48_to_array_negative.
Theorem C48_bytes_round_trip_partial : forall c a x,
  represents a x -> strict c = false \/ 0 <= x \/ x < - 2 ^ 31 ->
  exists l, py_bytes c a = Ret l /\ py_init_buffer c (Buffer l 0 (List.length l) 1) = Ret a.
Proof. exact bytes_buffer. Qed.
Print Assumptions C48_bytes_round_trip_partial.
Example C48_case :
  py_bytes debug_strict (Big (-1) [0; 128]) = Ret [0; 0; 0; 0; 128] /\
  py_to_array debug_strict (Big 1 [4294967295]) true true = Ret [255; 255; 255; 255] /\
  py_init_buffer debug_strict (Buffer [0; 0; 0; 0; 128] 0 5 1) = Ret (Big (-1) [0; 128]).
Proof. repeat split. Qed.


(** C52. float(x) for a BigInteger x is float(int(x)): the nearest double, ties to
    even ([round_even], see C51_nearest), OverflowError from 2^1024 - 2^970 on. *)
Theorem C52_float : forall c a x,
  represents a x -> Z.abs x < 2 ^ 1024 - 2 ^ 970 ->
  exists d, py_float c a = Ret d /\ dbl_exact d (round_even 53 x) /\ (x = 0 -> d = 0).
Proof. exact py_float_rounds. Qed.
Print Assumptions C52_float.
Theorem C52_float_overflow : forall c a x,
  represents a x -> 2 ^ 1024 - 2 ^ 970 <= Z.abs x -> py_float c a = Throw OverflowError.
Proof. exact py_float_overflow. Qed.
Print Assumptions C52_float_overflow.
(** C++'s operator double truncates instead (C28). *)
Theorem C52_float_double : forall c a x,
  represents a x -> Z.abs x < 2 ^ 1024 - 2 ^ 970 ->
  (py_float c a = bi_to_double c a <-> round_even 53 x = trunc53 x).
Proof. exact py_float_double. Qed.
Print Assumptions C52_float_double.
(** -(2^53 + 3) becomes -(2^53 + 4); operator double gives -(2^53 + 2). *)
Example C52_case :
  represents (Big (-1) [3; 2097152]) (- (2 ^ 53 + 3)) /\ round_even 53 (- (2 ^ 53 + 3)) = - (2 ^ 53 + 4) /\
  trunc53 (- (2 ^ 53 + 3)) = - (2 ^ 53 + 2) /\
  py_float debug_strict (Big (-1) [3; 2097152]) = Ret (2 ^ 63 + 1076 * 2 ^ 52 + 2) /\
  bi_to_double debug_strict (Big (-1) [3; 2097152]) = Ret (2 ^ 63 + 1076 * 2 ^ 52 + 1) /\
  represents (Big 1 (repeat 4294967295 32)) (2 ^ 1024 - 1) /\ 2 ^ 1024 - 2 ^ 970 <= 2 ^ 1024 - 1 /\
  py_float debug_strict (Big 1 (repeat 4294967295 32)) = Throw OverflowError.
Proof.
  split; [repr|]. split; [reflexivity|]. split; [reflexivity|]. split; [vm_compute; reflexivity|]. split; [vm_compute; reflexivity|].
  split; [repr|]. split; [vm_compute; discriminate|vm_compute; reflexivity].
Qed.
