(** Property theorems: the LLP64 (Windows) reading of the same source, where
    [long] and [unsigned long] have 32 bits. *)
From Coq Require Import String.
From Verif Require Import Machine Spec SpecApi SpecGcd SpecText SpecDouble SpecWin.
From Verif Require Import BigInt BigIntDouble BigIntFloat WinCalc WinBigInt.
From Verif Require Import WinFacts WinMulFacts WinPowFacts WinConvFacts WinDoubleFacts WinGcdFacts WinModPowFacts WinModPowLarge WinEvery Examples.

(** C57. What +, -, ++, -- and ~ do for every operand where [long] has 32 bits. *)
Theorem C57_win_add : forall c a b x y,
  represents a x -> represents b y -> meets (bi_add_w None c a b) (win_sum x y).
Proof. exact bi_add_w_exact. Qed.
Print Assumptions C57_win_add.
Theorem C57_win_subtract : forall c a b x y,
  represents a x -> represents b y -> meets (bi_sub_w None c a b) (win_difference x y).
Proof. exact bi_sub_w_exact. Qed.
Print Assumptions C57_win_subtract.
Theorem C57_win_increment : forall c a x,
  represents a x -> meets (bi_inc_w None c a) (win_sum x 1).
Proof. exact bi_inc_w_exact. Qed.
Print Assumptions C57_win_increment.
Theorem C57_win_decrement : forall c a x,
  represents a x -> meets (bi_dec_w None c a) (win_difference x 1).
Proof. exact bi_dec_w_exact. Qed.
Print Assumptions C57_win_decrement.
Theorem C57_win_complement : forall c a x,
  represents a x -> meets (bi_not_w None c a) (win_complement x).
Proof. exact bi_not_w_exact. Qed.
Print Assumptions C57_win_complement.
(** 2^64 - 1 + 1 is 0; 2^64 - 1 - (-2) is 1; 2^96 + 2^64 - 1 + 5 is 2^96 + 4;
    2^40 - 1 and -2^40 + 0 are undefined; ~(2^64 - 1) is 0. *)
Example C57_case :
  represents (Big 1 [4294967295; 4294967295]) (2 ^ 64 - 1) /\
  win_sum (2 ^ 64 - 1) 1 = Some 0 /\
  bi_add_w None debug_strict (Big 1 [4294967295; 4294967295]) (Big 1 []) = Ret (Big 0 []) /\
  win_difference (2 ^ 64 - 1) (-2) = Some 1 /\
  bi_sub_w None debug_strict (Big 1 [4294967295; 4294967295]) (Big (-2) []) = Ret (Big 1 []) /\
  win_sum (2 ^ 96 + 2 ^ 64 - 1) 5 = Some (2 ^ 96 + 4) /\
  bi_add_w None debug_strict (Big 1 [4294967295; 4294967295; 0; 1]) (Big 5 []) = Ret (Big 1 [4; 0; 0; 1]) /\
  win_difference (2 ^ 40) 1 = None /\
  bi_sub_w None release_wrap (Big 1 [0; 256]) (Big 1 []) = Undef ShiftRange /\
  win_sum (- 2 ^ 40) 0 = None /\
  bi_add_w None release_wrap (Big (-1) [0; 256]) (Big 0 []) = Undef ShiftRange /\
  bi_not_w None debug_strict (Big 1 [4294967295; 4294967295]) = Ret (Big 0 []).
Proof. split; [repr|]. repeat split; vm_compute; reflexivity. Qed.

(** C58. Whatever value [f digit count] a compiler makes of the shift of a
    32-bit [long] by 32, subtraction is wrong for some operands. *)
Theorem C58_win_every_compiler : forall f c,
  exists a b x y, represents a x /\ represents b y /\ ~ returns (bi_sub_w (Some f) c a b) (x - y).
Proof. exact every_compiler. Qed.
Print Assumptions C58_win_every_compiler.
(** Where the shift takes the count modulo 32, so gives the digit itself,
    (2^33 + 5) - 1 is wrong; where it gives the sign, that is right and
    (2^33 + 1) - (2^33 - 1) is wrong. *)
Example C58_case :
  represents (Big 1 [5; 2]) (2 ^ 33 + 5) /\
  bi_sub_w (Some (fun d _ => d)) debug_strict (Big 1 [5; 2]) (Big 1 []) = Ret (Big 1 [4; 6]) /\
  bi_sub_w (Some (fun d _ => if d <? 0 then -1 else 0)) debug_strict (Big 1 [5; 2]) (Big 1 [])
    = Ret (Big 1 [4; 2]) /\
  represents (Big 1 [1; 2]) (2 ^ 33 + 1) /\ represents (Big 1 [4294967295; 1]) (2 ^ 33 - 1) /\
  bi_sub_w (Some (fun d _ => if d <? 0 then -1 else 0)) debug_strict (Big 1 [1; 2]) (Big 1 [4294967295; 1])
    = Ret (Big 1 [2; 1]).
Proof. split; [repr|]. split; [reflexivity|]. split; [reflexivity|]. split; [repr|]. split; [repr|]. reflexivity. Qed.

(** C59. Products and powers: exact below Karatsuba's threshold of 32 limbs,
    undefined above it. *)
Theorem C59_win_multiply : forall c a b x y,
  represents a x -> represents b y -> meets (bi_mul_w None c a b) (win_product x y).
Proof. exact bi_mul_w_exact. Qed.
Print Assumptions C59_win_multiply.
Theorem C59_win_power : forall c a x e n,
  represents a x -> limb_count x n -> - 2 ^ 31 <= e < 2 ^ 31 ->
  (e < 0 -> bi_pow_w None c a e = Throw OutOfRange) /\
  (0 <= e -> Z.abs x <= 1 \/ e <= 1 \/ n * e + 1 < 2 ^ 31 - 1 -> meets (bi_pow_w None c a e) (win_power x e)) /\
  (1 < e -> 1 < Z.abs x -> 2 ^ 31 - 1 <= n * e + 1 -> bi_pow_w None c a e = Throw OverflowError).
Proof. exact bi_pow_w_exact. Qed.
Print Assumptions C59_win_power.
(** (2^992 + 7)^2 is undefined, (2^992 + 7) * 3 is not; 2^1983 and 2^2048. *)
Example C59_case :
  represents (big32 7) (2 ^ 992 + 7) /\
  win_product (2 ^ 992 + 7) (2 ^ 992 + 7) = None /\
  bi_mul_w None release_wrap (big32 7) (big32 7) = Undef ShiftRange /\
  win_product (2 ^ 992 + 7) 3 = Some (3 * (2 ^ 992 + 7)) /\
  bi_mul_w None debug_strict (big32 7) (Big 3 []) = Ret (Big 1 (21 :: zeros 30 ++ [3])) /\
  win_power 2 1983 = Some (2 ^ 1983) /\
  win_power 2 2048 = None /\
  bi_pow_w None release_wrap (Big 2 []) 2048 = Undef ShiftRange.
Proof. split; [repr|]. repeat split; vm_compute; reflexivity. Qed.

(** C60. mod_pow and greatest_common_divisor. *)
Theorem C60_win_mod_pow_negative : forall c a b m e,
  represents b e -> e < 0 -> bi_mod_pow_w None c a b m = Throw OutOfRange.
Proof. exact (mod_pow_w_negative None). Qed.
Print Assumptions C60_win_mod_pow_negative.
Theorem C60_win_mod_pow_small : forall c a b m x e z,
  represents a x -> represents b e -> represents m z -> limbs32 z = false ->
  bi_mod_pow_w None c a b m = bi_mod_pow c a b m.
Proof. exact mod_pow_w_small. Qed.
Print Assumptions C60_win_mod_pow_small.
Theorem C60_win_mod_pow_large : forall c a b m x e z,
  represents a x -> represents b e -> represents m z -> 0 <= e -> limbs32 z = true ->
  meets (bi_mod_pow_w None c a b m) (win_mod_pow x e z).
Proof. exact mod_pow_w_large. Qed.
Print Assumptions C60_win_mod_pow_large.
Theorem C60_win_mod_pow_rem : forall x e z r,
  z <> 0 -> 0 <= e -> win_mod_pow x e z = Some r -> r = Z.rem (x ^ e) z.
Proof. exact win_mod_pow_rem. Qed.
Print Assumptions C60_win_mod_pow_rem.
Theorem C60_win_gcd : forall c a b x y,
  represents a x -> represents b y ->
  let X := Z.max (Z.abs x) (Z.abs y) in let Y := Z.min (Z.abs x) (Z.abs y) in
  (euclid_run X Y -> exists N, forall fuel, (N <= fuel)%nat -> returns (bi_gcd_w None fuel c a b) (Z.gcd x y)) /\
  (~ euclid_run X Y -> exists N, forall fuel, (N <= fuel)%nat -> bi_gcd_w None fuel c a b = Undef ShiftRange).
Proof. exact gcd_w_exact. Qed.
Print Assumptions C60_win_gcd.
(** Modulo 2^992 + 7: 5^3 is 125, 5^500 is undefined; so is the exponent 2 for
    the base 2^992 + 6. The gcd of 3 * 2^64 and 2^65 is 2^64 but that of
    5 * 2^96 and 3 * 2^96 is undefined. *)
Example C60_case :
  represents (big32 7) (2 ^ 992 + 7) /\ limbs32 (2 ^ 992 + 7) = true /\
  win_mod_pow 5 3 (2 ^ 992 + 7) = Some 125 /\
  bi_mod_pow_w None debug_strict (Big 5 []) (Big 3 []) (big32 7) = Ret (Big 125 []) /\
  win_mod_pow 5 500 (2 ^ 992 + 7) = None /\
  bi_mod_pow_w None release_wrap (Big 5 []) (Big 500 []) (big32 7) = Undef ShiftRange /\
  win_mod_pow (2 ^ 992 + 6) 2 (2 ^ 992 + 7) = None /\
  bi_gcd_w None 9 debug_strict (Big 1 [0; 0; 6]) (Big 1 [0; 0; 2]) = Ret (Big 1 [0; 0; 2]) /\
  bi_gcd_w None 9 debug_strict (Big 1 [0; 0; 0; 5]) (Big 1 [0; 0; 0; 3]) = Undef ShiftRange.
Proof. split; [repr|]. repeat split; vm_compute; reflexivity. Qed.

(** C61. Conversions to the integer types, and bit_length. *)
Theorem C61_win_long : forall c a x,
  represents a x -> bi_to_long_w None c a = win_long (negb (strict c)) x.
Proof. exact bi_to_long_w_exact. Qed.
Print Assumptions C61_win_long.
Theorem C61_win_ulong : forall c a x,
  represents a x -> bi_to_ulong_w None c a = win_ulong x.
Proof. exact bi_to_ulong_w_exact. Qed.
Print Assumptions C61_win_ulong.
Theorem C61_win_bit_length : forall c a x n,
  represents a x -> limb_count x n ->
  (n < 2 ^ 26 -> exists k, bi_bit_length_w c a = Ret k /\ least_width x k) /\
  (2 ^ 26 <= n -> strict c = true -> bi_bit_length_w c a = Undef SignedOverflow) /\
  (2 ^ 26 <= n < 2 ^ 31 -> strict c = false ->
   exists k, bi_bit_length_w c a = Ret (((k + 2 ^ 31) mod 2 ^ 32 - 2 ^ 31) mod 2 ^ 64) /\ least_width x k).
Proof. exact bit_length_w_exact. Qed.
Print Assumptions C61_win_bit_length.
(** 2^31 and 2^32 as a long, 2^32 as an unsigned long, -2^31 as a long; 2^40 has
    41 bits. *)
Example C61_case :
  represents (Big 1 [2147483648]) (2 ^ 31) /\
  bi_to_long_w None release_wrap (Big 1 [2147483648]) = Throw OverflowError /\
  bi_to_long_w None release_wrap (Big 1 [0; 1]) = Undef ShiftRange /\
  bi_to_long_w None debug_strict (Big (-1) [2147483648]) = Undef SignedOverflow /\
  bi_to_long_w None release_wrap (Big (-1) [2147483648]) = Ret (- (2147483648)) /\
  bi_to_ulong_w None release_wrap (Big 1 [2147483648]) = Ret 2147483648 /\
  bi_to_ulong_w None release_wrap (Big 1 [0; 1]) = Undef ShiftRange /\
  bi_bit_length_w debug_strict (Big 1 [0; 256]) = Ret 41.
Proof. split; [repr|]. repeat split; vm_compute; reflexivity. Qed.

(** C62. Doubles, floats and decimal text. *)
Theorem C62_win_to_double : forall c a x,
  represents a x ->
  bi_to_double_w None c a =
    if negb (is_inline x) && (Z.abs x <? 2 ^ 1024) then Undef ShiftRange else bi_to_double c a.
Proof. exact bi_to_double_w_exact. Qed.
Print Assumptions C62_win_to_double.
(** Where the compiler gives such a shift some value, whatever it is, the double
    is too small by a factor of 2^31 at least. *)
Theorem C62_win_to_double_any : forall f c a x,
  represents a x -> 2 ^ 31 <= Z.abs x < 2 ^ 1024 ->
  exists d, bi_to_double_w (Some f) c a = Ret d /\ dbl_pattern d /\ dbl_finite d /\
            Z.abs (dbl_trunc d) * 2 ^ 31 < Z.abs x.
Proof. exact bi_to_double_w_any. Qed.
Print Assumptions C62_win_to_double_any.
(** Counts taken modulo 32, as x86-64 does: 2^31, 2^32, and a number whose
    lowest limb is shifted by 32. *)
Example C62_double_case :
  let low_bits f := Some (fun d n => f d (n mod 32)) in
  bi_to_double_w (low_bits Z.shiftl) release_wrap (Big 1 [2147483648]) = Ret ((1023 - 1) * 2 ^ 52) /\
  bi_to_double_w (low_bits Z.shiftl) release_wrap (Big (-1) [0; 1]) = Ret (2 ^ 63 + 1023 * 2 ^ 52) /\
  bi_to_double_w (low_bits Z.shiftr) release_wrap (Big 1 [5; 2; 2147483648]) = Ret (0 + (1023 + 63) * 2 ^ 52 + 7 * 2 ^ 21).
Proof. repeat split; vm_compute; reflexivity. Qed.
Theorem C62_win_to_float : forall c a x,
  represents a x ->
  bi_to_float_w None c a =
    if negb (is_inline x) && (Z.abs x <? 2 ^ 1024) then Undef ShiftRange else bi_to_float c a.
Proof. exact bi_to_float_w_exact. Qed.
Print Assumptions C62_win_to_float.
Theorem C62_win_of_double : forall c d,
  dbl_pattern d ->
  if Z.testbit d 31 then bi_of_double_w c d = Throw OverflowError
  else returns (bi_of_double_w c d) (win_of_double d).
Proof. exact bi_of_double_w_exact. Qed.
Print Assumptions C62_win_of_double.
Theorem C62_win_parse : forall c s, returns (bi_parse_w None c s) (win_signed_decimal s).
Proof. exact parse_w_exact. Qed.
Print Assumptions C62_win_parse.
Theorem C62_win_try_parse : forall c s old,
  exists r, bi_try_parse_w None c s old = Ret (true, r) /\ represents r (win_signed_decimal s).
Proof. exact try_parse_w_exact. Qed.
Print Assumptions C62_win_try_parse.
(** 2^31 as a double; the doubles 1.0 + 2^-21 (bit 31 of its pattern is set),
    2.0 and infinity; 2^64 as text. *)
Example C62_case :
  bi_to_double_w None release_wrap (Big 1 [2147483648]) = Undef ShiftRange /\
  bi_to_float_w None release_wrap (Big (-1) [0; 0; 1]) = Undef ShiftRange /\
  bi_of_double_w release_wrap (4607182418800017408 + 2147483648) = Throw OverflowError /\
  bi_of_double_w release_wrap 4611686018427387904 = Ret (Big 2 []) /\
  bi_of_double_w release_wrap 9218868437227405312 = Ret (Big 0 []) /\
  win_signed_decimal "-18446744073709551615" = - (2 ^ 64 - 1) /\
  win_signed_decimal "18446744073709551616" = 0 /\
  bi_parse_w None debug_strict "18446744073709551616" = Ret (Big 0 []).
Proof. repeat split; vm_compute; reflexivity. Qed.
