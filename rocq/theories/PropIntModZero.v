(** Property theorems: mod_pow by 0 for integers of any size. *)
From Verif Require Import Machine Spec SpecApi SpecGcd SpecActual SpecLimbs SpecIntDiv SpecIntModZero.
From Verif Require Import BigInt IntPow IntModZeroFacts Examples.

(** C108. For integers of any size, mod_pow by 0 throws DivideByZero. What every call does: *)
Theorem C108_mod_zero : forall c a b x e, represents a x -> represents b e -> bi_mod_pow_int_i c a b 0 = mod_zero_any x e.
Proof. exact mod_zero_any_holds. Qed.
Print Assumptions C108_mod_zero.
Example C108_case :
  represents (Big (-1) [7; 0; 5]) (- (5 * 2 ^ 64 + 7)) /\ represents (Big 1 [1; 2]) (2 ^ 33 + 1) /\
  bi_mod_pow_int_i debug_strict (Big (-1) [7; 0; 5]) (Big 1 [1; 2]) 0 = Throw DivideByZero /\
  bi_mod_pow_int_i debug_strict (Big 3 []) (Big 0 []) 0 = Throw DivideByZero /\
  bi_mod_pow_int_i debug_strict (Big 3 []) (Big 1 [4294967295]) 0 = Throw DivideByZero /\
  bi_mod_pow_int_i debug_strict (Big 3 []) (Big 1 [1; 2]) 0 = Undef DivByZero /\
  bi_mod_pow_int_i debug_strict (Big 3 []) (Big (-1) []) 0 = Throw OutOfRange.
Proof. split; [repr|]. split; [repr|]. repeat split; vm_compute; reflexivity. Qed.

(** The claim holds of just these: *)
Theorem C108_partial : forall c a b x e, represents a x -> represents b e -> 0 <= e ->
  (bi_mod_pow_int_i c a b 0 = Throw DivideByZero <-> e < 2 ^ 32 \/ 2 ^ 31 <= Z.abs x /\ 0 < seen x).
Proof. exact mod_zero_throws. Qed.
Print Assumptions C108_partial.

(** So bases of more than 2^31 limbs are divided by 0, like those that fit in an int (C17). *)
Theorem C108_refuted : forall c a b x e, represents a x -> represents b e -> 2 ^ 32 <= e -> 2 ^ 31 < limbs_of x <= 2 ^ 32 ->
  bi_mod_pow_int_i c a b 0 = Undef DivByZero.
Proof. exact mod_zero_long. Qed.
Print Assumptions C108_refuted.
