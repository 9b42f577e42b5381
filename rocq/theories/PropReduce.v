(** Property theorems: FastReducer, and mod_pow with a large modulus. [c] is the
    build configuration. *)
From Coq Require Import List.
From Verif Require Import Machine Spec SpecApi SpecReduce CalcPowMod BigInt BarrettFacts PowLaws LargeModPow SafeModPow AssertCase Examples.
Import ListNotations.
Open Scope Z_scope.

(** C49. FastReducer::Reduce(value, length) on a reducer for the modulus [m] of
    two or more limbs, fresh or used before, where [value] has exactly [len]
    limbs, at most twice as many as [m]: it returns the number of limbs of the
    remainder. The full claim,
      Forall (fun d => 0 <= d < 2 ^ 32) m -> last m 0 <> 0 -> (2 <= length m)%nat -> reducer_for c m red ->
      Forall (fun d => 0 <= d < 2 ^ 32) v -> (len <= length v)%nat -> exact_length (magnitude (firstn len v)) len ->
      (len <= 2 * length m)%nat ->
      exists k red', reducer_reduce c red v len = Ret (k, red') /\
        exact_length (magnitude (firstn len v) mod magnitude m) k,
    fails exactly when [len] is twice the length and [m] is a power of 2^32,
    where the call writes past its buffer [_q1]. *)
Theorem C49_reduce_partial : forall c m red v len,
  Forall (fun d => 0 <= d < 2 ^ 32) m -> last m 0 <> 0 -> (2 <= length m)%nat -> reducer_for c m red ->
  Forall (fun d => 0 <= d < 2 ^ 32) v -> (len <= length v)%nat -> exact_length (magnitude (firstn len v)) len ->
  ((len < 2 * length m)%nat \/
   len = (2 * length m)%nat /\ magnitude m <> 2 ^ (32 * (Z.of_nat (length m) - 1))) ->
  exists k red', reducer_reduce c red v len = Ret (k, red') /\
    exact_length (magnitude (firstn len v) mod magnitude m) k.
Proof. exact reduce_public. Qed.
Print Assumptions C49_reduce_partial.
Theorem C49_reduce_refuted : forall c m red v len,
  Forall (fun d => 0 <= d < 2 ^ 32) m -> last m 0 <> 0 -> (2 <= length m)%nat -> reducer_for c m red ->
  (len <= length v)%nat ->
  len = (2 * length m)%nat -> magnitude m = 2 ^ (32 * (Z.of_nat (length m) - 1)) ->
  reducer_reduce c red v len = Undef OutOfBounds.
Proof. exact reduce_public_overrun. Qed.
Print Assumptions C49_reduce_refuted.
Theorem C49_constructor : forall c m,
  Forall (fun d => 0 <= d < 2 ^ 32) m -> last m 0 <> 0 -> (2 <= length m)%nat -> exists red, reducer_make c m = Ret red.
Proof. exact reducer_make_public. Qed.
Print Assumptions C49_constructor.
Example C49_case :
  exists red red' red0, reducer_make debug_strict [3; 5] = Ret red /\ reducer_for debug_strict [3; 5] red /\
    exact_length (magnitude (firstn 4 [1; 2; 3; 4])) 4 /\
    reducer_reduce debug_strict red [1; 2; 3; 4] 4 = Ret (2%nat, red') /\
    exact_length (magnitude [1; 2; 3; 4] mod magnitude [3; 5]) 2 /\
    reducer_make debug_strict [0; 1] = Ret red0 /\
    reducer_reduce debug_strict red0 [1; 2; 3; 4] 4 = Undef OutOfBounds.
Proof.
  eexists _, _, _. split; [vm_compute; reflexivity|]. split; [apply made; vm_compute; reflexivity|].
  split; [split; [vm_compute; reflexivity|intros _; vm_compute; discriminate]|].
  split; [vm_compute; reflexivity|]. split; [split; [vm_compute; reflexivity|intros _; vm_compute; discriminate]|].
  split; [vm_compute; reflexivity|]. vm_compute; reflexivity.
Qed.

(** C17, further: the exponents 0, 1 and 2 for every base, and the bases -1, 0
    and 1 for every exponent. A base longer than the modulus is first reduced;
    one of as many limbs is not. For exponent 2 the code truncates the square to
    the length of its remainder. *)
Theorem C17_exponent_0_partial : forall c a b m x z n,
  represents a x -> represents b 0 -> represents m z -> 32 <= n -> limb_count z n ->
  returns (bi_mod_pow c a b m) (Z.rem (x ^ 0) z).
Proof. exact mod_pow_exponent_0. Qed.
Print Assumptions C17_exponent_0_partial.
Theorem C17_exponent_1_partial : forall c a b m x z n,
  represents a x -> represents b 1 -> represents m z -> 32 <= n -> limb_count z n ->
  2 ^ (32 * n) <= Z.abs x \/ Z.abs x < Z.abs z -> returns (bi_mod_pow c a b m) (Z.rem (x ^ 1) z).
Proof. exact mod_pow_exponent_1. Qed.
Print Assumptions C17_exponent_1_partial.
Theorem C17_exponent_2_refuted : forall c a b m x z n v k,
  represents a x -> represents b 2 -> represents m z -> 32 <= n -> limb_count z n ->
  (Z.abs x < 2 ^ (32 * n) /\ v = Z.abs x \/ 2 ^ (32 * n) <= Z.abs x /\ v = Z.abs x mod Z.abs z) ->
  v * v < 2 ^ (32 * (2 * n - 1)) \/ Z.abs z <> 2 ^ (32 * (n - 1)) ->
  exact_length ((v * v) mod Z.abs z) k -> returns (bi_mod_pow c a b m) ((v * v) mod 2 ^ (32 * Z.of_nat k)).
Proof. exact mod_pow_exponent_2. Qed.
Print Assumptions C17_exponent_2_refuted.
Theorem C17_unit_base_partial : forall c a b m x e z n,
  represents a x -> represents b e -> represents m z -> 32 <= n -> limb_count z n -> 0 <= e -> Z.abs x <= 1 ->
  returns (bi_mod_pow c a b m) (Z.rem (x ^ e) z).
Proof. exact mod_pow_large_unit. Qed.
Print Assumptions C17_unit_base_partial.
Example C17_small_exponents_case :
  represents (big32 3) (2 ^ 992 + 3) /\ limb_count (2 ^ 992 + 3) 32 /\
  exact_length (2 ^ 1000 mod (2 ^ 992 + 3)) 31 /\
  bi_mod_pow debug_strict (Big 1 (zeros 15 ++ [2 ^ 20])) (Big 2 []) (big32 3) = Ret (Big 0 []) /\
  Z.rem ((2 ^ 500) ^ 2) (2 ^ 992 + 3) = 2 ^ 992 + 3 - 768 /\
  bi_mod_pow debug_strict (Big (-1) []) (Big 1 [1; 1]) (big32 3) = Ret (Big (-1) []).
Proof.
  split; [repr|]. split; [apply limb_count_compute; vm_compute; reflexivity|].
  split; [split; [vm_compute; reflexivity|intros _; vm_compute; discriminate]|].
  repeat split; vm_compute; reflexivity.
Qed.

(** C50. mod_pow with an exponent that is not negative. The full claim, that no
    call executes an undefined operation, fails exactly on [mod_pow_undefined].
    Every other call returns a canonical object or throws, except that an
    assert may fail in a debug build, and one can ([C50_assert_refuted]): the
    buffers are not cleared above the returned length, so that the carry out of
    a product is not zero (AddSub.cpp:88). *)
Theorem C50_mod_pow_undefined_refuted : forall c a b m x e z,
  represents a x -> represents b e -> represents m z -> 0 <= e ->
  ((exists u, bi_mod_pow c a b m = Undef u) <-> mod_pow_undefined x e z).
Proof. exact mod_pow_undefined_exactly. Qed.
Print Assumptions C50_mod_pow_undefined_refuted.
Theorem C50_mod_pow_partial : forall c a b m x e z,
  represents a x -> represents b e -> represents m z -> 0 <= e -> ~ mod_pow_undefined x e z ->
  (exists r, bi_mod_pow c a b m = Ret r /\ canonical r) \/ (exists k, bi_mod_pow c a b m = Throw k) \/
  (dbg c = true /\ bi_mod_pow c a b m = AssertFail).
Proof. exact mod_pow_quiet. Qed.
Print Assumptions C50_mod_pow_partial.
Theorem C50_reduced_base_partial : forall x e z, z <> 0 -> Z.abs x <= Z.abs z -> ~ mod_pow_undefined x e z.
Proof. exact reduced_base_defined. Qed.
Print Assumptions C50_reduced_base_partial.
Theorem C50_overrun_refuted : forall c a b m x e z n,
  represents a x -> represents b e -> represents m z -> 32 <= n -> Z.abs z = 2 ^ (32 * (n - 1)) -> 2 <= e ->
  Z.abs x < 2 ^ (32 * n) -> 2 ^ (32 * (2 * n - 1)) <= x * x ->
  bi_mod_pow c a b m = Undef OutOfBounds.
Proof. exact mod_pow_overrun. Qed.
Print Assumptions C50_overrun_refuted.
Theorem C50_assert_refuted : exists a b m x e z,
  represents a x /\ represents b e /\ represents m z /\ 0 <= e /\ ~ mod_pow_undefined x e z /\
  (forall s, bi_mod_pow (Cfg true s) a b m = AssertFail) /\
  (forall s, exists r, bi_mod_pow (Cfg false s) a b m = Ret r /\ canonical r).
Proof. exact mod_pow_assert. Qed.
Print Assumptions C50_assert_refuted.
Example C50_case :
  represents (big32 0) (2 ^ 992) /\ represents (Big 1 (zeros 31 ++ [2 ^ 31])) (2 ^ 1023) /\
  mod_pow_undefined (2 ^ 1023) 2 (2 ^ 992) /\
  bi_mod_pow debug_strict (Big 1 (zeros 31 ++ [2 ^ 31])) (Big 2 []) (big32 0) = Undef OutOfBounds /\
  ~ mod_pow_undefined (2 ^ 992) 5 (2 ^ 992) /\
  exists r, bi_mod_pow debug_strict (big32 0) (Big 5 []) (big32 0) = Ret r.
Proof.
  split; [repr|]. split; [repr|].
  split; [right; exists 32; repeat split; vm_compute; first [reflexivity | discriminate]|].
  split; [vm_compute; reflexivity|].
  split; [apply reduced_base_defined; vm_compute; discriminate|].
  eexists. vm_compute. reflexivity.
Qed.
