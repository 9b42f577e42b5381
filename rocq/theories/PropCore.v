(** Property theorems: definedness of the arithmetic core, and long division's
    guess corrections. *)
From Verif Require Import Machine Spec SpecApi BigInt CalcDivRem CoreFacts Examples.

(** C32. [well_defined call]: the call returns the same object, or throws the
    same exception, in every build configuration (asserts on or off, overflow
    trapping or wrapping); it never reaches undefined behaviour and no assert
    fails. *)
Theorem C32_add_sub_mul_defined : forall a b,
  canonical a -> canonical b ->
  well_defined (fun c => bi_add c a b) /\ well_defined (fun c => bi_sub c a b) /\
  well_defined (fun c => bi_mul c a b) /\ well_defined (fun c => bi_neg c a) /\
  well_defined (fun c => bi_inc c a) /\ well_defined (fun c => bi_dec c a) /\
  well_defined (fun c => bi_abs c a).
Proof. exact ring_ops_defined. Qed.
Print Assumptions C32_add_sub_mul_defined.
Theorem C32_div_rem_defined : forall a b,
  canonical a -> canonical b ->
  well_defined (fun c => bi_div c a b) /\ well_defined (fun c => bi_rem c a b).
Proof. exact div_ops_defined. Qed.
Print Assumptions C32_div_rem_defined.
Theorem C32_compare_defined : forall a b,
  canonical a -> canonical b ->
  well_defined (fun c => bi_compare c a b) /\ well_defined (fun c => bi_eq c a b) /\
  well_defined (fun c => bi_ne c a b) /\ well_defined (fun c => bi_lt c a b) /\
  well_defined (fun c => bi_le c a b) /\ well_defined (fun c => bi_gt c a b) /\
  well_defined (fun c => bi_ge c a b) /\ well_defined (fun c => bi_max c a b) /\
  well_defined (fun c => bi_min c a b).
Proof. exact compare_ops_defined. Qed.
Print Assumptions C32_compare_defined.
Theorem C32_bitwise_defined : forall a b,
  canonical a -> canonical b ->
  well_defined (fun c => bi_and c a b) /\ well_defined (fun c => bi_or c a b) /\
  well_defined (fun c => bi_xor c a b) /\ well_defined (fun c => bi_not c a).
Proof. exact bit_ops_defined. Qed.
Print Assumptions C32_bitwise_defined.
Theorem C32_pow_defined : forall a e,
  canonical a -> - 2 ^ 31 <= e < 2 ^ 31 -> well_defined (fun c => bi_pow c a e).
Proof. exact pow_defined. Qed.
Print Assumptions C32_pow_defined.
(** Shifts to the left (<< by s >= 0, >> by s <= 0), for all operands. *)
Theorem C32_shift_left_defined : forall a s,
  canonical a -> - 2 ^ 31 <= s < 2 ^ 31 ->
  (0 <= s -> well_defined (fun c => bi_shl c a s)) /\ (s <= 0 -> well_defined (fun c => bi_shr c a s)).
Proof. exact shift_ops_defined. Qed.
Print Assumptions C32_shift_left_defined.
(** All shifts. Missing: negative values of 2^26 limbs or more, for which the
    claim is false ([C32_shift_refuted]). *)
Theorem C32_shift_partial : forall a s,
  canonical a -> - 2 ^ 31 <= s < 2 ^ 31 -> 0 <= value a \/ Z.of_nat (length (bits_of a)) < 2 ^ 26 ->
  well_defined (fun c => bi_shl c a s) /\ well_defined (fun c => bi_shr c a s).
Proof. exact shift_right_defined. Qed.
Print Assumptions C32_shift_partial.
Theorem C32_shift_refuted :
  exists a, canonical a /\ undefined_in_some_build (fun c => bi_shr c a 1) /\
            undefined_in_some_build (fun c => bi_shl c a (-1)).
Proof. exact shift_right_undefined. Qed.
Print Assumptions C32_shift_refuted.
Example C32_case :
  represents (Big (-1) [0; 0; 2147483648]) (- 2 ^ 95) /\
  bi_mul debug_strict (Big (-1) [0; 0; 2147483648]) (Big (-1) [2147483648]) = Ret (Big 1 [0; 0; 0; 1073741824]) /\
  bi_mul release_wrap (Big (-1) [0; 0; 2147483648]) (Big (-1) [2147483648]) = Ret (Big 1 [0; 0; 0; 1073741824]) /\
  bi_div debug_strict (Big (-1) [0; 0; 2147483648]) (Big 0 []) = Throw DivideByZero /\
  bi_shr release_wrap (Big (-1) [0; 0; 2147483648]) (-33) = Ret (Big (-1) [0; 0; 0; 0; 1]).
Proof. split; [repr|]. repeat split; vm_compute; reflexivity. Qed.

(** C40. [calc_div_core_fuel n] is DivRem.cpp's divide with the guess loop
    allowed at most [n] decrements per quotient digit (it reports NoFuel when a
    digit would need more) and a single add-back. A budget of two is enough for
    every input, gives the same answer as any larger budget, and that answer is
    the quotient and remainder. One decrement is not enough. *)
Theorem C40_two_decrements : forall fuel c lhs rhs bits,
  (2 <= fuel)%nat ->
  Forall (fun d => 0 <= d < 2 ^ 32) lhs -> Forall (fun d => 0 <= d < 2 ^ 32) rhs -> last rhs 0 <> 0 ->
  (length rhs <= length lhs)%nat -> length bits = (length lhs - length rhs + 1)%nat ->
  exists rem quo,
    calc_div_core_fuel fuel c lhs rhs bits = Ret (rem, quo) /\
    calc_div_core_fuel 2 c lhs rhs bits = Ret (rem, quo) /\
    magnitude quo = magnitude lhs / magnitude rhs /\ magnitude rem = magnitude lhs mod magnitude rhs.
Proof. exact core_two_decrements. Qed.
Print Assumptions C40_two_decrements.
(** Without a quotient array, as % calls it. *)
Theorem C40_two_decrements_rem : forall fuel c lhs rhs,
  (2 <= fuel)%nat ->
  Forall (fun d => 0 <= d < 2 ^ 32) lhs -> Forall (fun d => 0 <= d < 2 ^ 32) rhs -> last rhs 0 <> 0 ->
  (length rhs <= length lhs)%nat ->
  exists rem quo,
    calc_div_core_fuel fuel c lhs rhs [] = Ret (rem, quo) /\
    calc_div_core_fuel 2 c lhs rhs [] = Ret (rem, quo) /\
    magnitude rem = magnitude lhs mod magnitude rhs.
Proof. exact core_two_decrements_rem. Qed.
Print Assumptions C40_two_decrements_rem.
(** 0x7fffffff_80000000_00000000 / 0x80000000_ffffffff needs both decrements. *)
Example C40_case :
  calc_div_core_fuel 1 debug_strict [0; 2147483648; 2147483647] [4294967295; 2147483648] [0; 0] = NoFuel /\
  calc_div_core_fuel 2 debug_strict [0; 2147483648; 2147483647] [4294967295; 2147483648] [0; 0] =
    Ret ([4294967293; 3; 0], [4294967293; 0]).
Proof. split; vm_compute; reflexivity. Qed.
