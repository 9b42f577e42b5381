(** Property theorems: the helpers of NumericsHelpers.h. *)
From Verif Require Import Machine Spec SpecDouble SpecHelpers BigInt BigIntDouble BigIntText HelperFacts.
Open Scope Z_scope.

(** C96. Each helper computes what its name says, for every argument. *)
Theorem C96_high_zero32 : forall u, 0 <= u < 2 ^ 32 -> cbit_high_zero32 u = zeros_before 32 u.
Proof. exact cbit32_spec. Qed.
Print Assumptions C96_high_zero32.
Theorem C96_high_zero64 : forall uu, 0 <= uu < 2 ^ 64 -> cbit_high_zero64 uu = zeros_before 64 uu.
Proof. exact cbit64_spec. Qed.
Print Assumptions C96_high_zero64.
Example C96_high_zero_case :
  cbit_high_zero32 0 = 32 /\ cbit_high_zero32 1 = 31 /\ cbit_high_zero32 196608 = 14 /\
  cbit_high_zero64 0 = 64 /\ cbit_high_zero64 1 = 63 /\ cbit_high_zero64 (2 ^ 32) = 31 /\ cbit_high_zero64 (2 ^ 63 + 1) = 0.
Proof. repeat split. Qed.
Theorem C96_make_ulong : forall hi lo,
  0 <= hi < 2 ^ 32 -> 0 <= lo < 2 ^ 32 -> make_ulong hi lo = hi * 2 ^ 32 + lo.
Proof. exact make_ulong_eq. Qed.
Print Assumptions C96_make_ulong.
Example C96_make_ulong_case : make_ulong (2 ^ 32 - 1) 7 = (2 ^ 32 - 1) * 2 ^ 32 + 7.
Proof. reflexivity. Qed.
Theorem C96_combine_hash : forall u1 u2,
  0 <= u1 < 2 ^ 32 -> 0 <= u2 < 2 ^ 32 ->
  combine_hash u1 u2 = Z.lxor (u1 * 2 ^ 7 mod 2 ^ 32 + u1 / 2 ^ 25) u2.
Proof. exact combine_hash_eq. Qed.
Print Assumptions C96_combine_hash.
Example C96_combine_hash_case : combine_hash (2 ^ 31 + 5) 3 = 707.
Proof. reflexivity. Qed.
Theorem C96_twos_complement : forall d, Forall (fun x => 0 <= x < 2 ^ 32) d ->
  exists r, make_twos_complement d = Ret r /\ length r = length d /\ Forall (fun x => 0 <= x < 2 ^ 32) r /\
            magnitude r = (- magnitude d) mod 2 ^ (32 * Z.of_nat (length d)).
Proof. exact twos_eq. Qed.
Print Assumptions C96_twos_complement.
Example C96_twos_complement_case :
  Forall (fun x => 0 <= x < 2 ^ 32) [0; 0; 5; 7] /\ make_twos_complement [0; 0; 5; 7] = Ret [0; 0; 4294967291; 4294967288] /\
  make_twos_complement [0; 0] = Ret [0; 0] /\ make_twos_complement [] = Ret [].
Proof. split; [repeat constructor; try reflexivity; vm_compute; discriminate|]. repeat split. Qed.
(** The parts of a finite double, and a double from any parts. *)
Theorem C96_double_parts : forall d, dbl_pattern d ->
  exists sign exp man fin, get_double_parts d = (sign, exp, man, fin) /\
    (sign <? 0) = dbl_negative d /\ (sign = 1 \/ sign = -1) /\ fin = negb (dbl_exp d =? 2047) /\
    (fin = true -> man = dbl_significand d /\ exp = if man =? 0 then 0 else dbl_scale d).
Proof. exact parts_meaning. Qed.
Print Assumptions C96_double_parts.
Theorem C96_double_from_parts : forall sign exp man,
  - 2 ^ 31 + 1000 <= exp <= 2 ^ 31 - 1100 -> 0 <= man < 2 ^ 64 ->
  exists d, get_double_from_parts sign exp man = Ret d /\ rounded_down d (sign <? 0) man exp.
Proof. exact (fun s e m _ => from_parts_general s e m). Qed.
Print Assumptions C96_double_from_parts.
Theorem C96_double_round_trip : forall d, dbl_pattern d -> dbl_finite d ->
  let '(sign, exp, man, _) := get_double_parts d in get_double_from_parts sign exp man = Ret d.
Proof. exact parts_back. Qed.
Print Assumptions C96_double_round_trip.
(** 1.5 times the least double rounds down to it; half of it to -0; a significand
    of 64 ones loses eleven; 2^1024 gives infinity. *)
Example C96_double_case :
  get_double_parts 13830554455654793216 = (-1, -52, 4503599627370496, true) /\
  get_double_from_parts 1 (-1075) 3 = Ret 1 /\ get_double_from_parts (-1) (-1075) 1 = Ret (2 ^ 63) /\
  get_double_from_parts 1 0 (2 ^ 64 - 1) = Ret (1086 * 2 ^ 52 + (2 ^ 52 - 1)) /\
  get_double_from_parts 1 (-1070) (2 ^ 40) = Ret (2 ^ 44) /\
  get_double_from_parts (-1) 1024 1 = Ret minus_infinity.
Proof. repeat split. Qed.
