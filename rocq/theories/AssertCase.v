(** A modular power at which an assert fails. *)
From Verif Require Import Machine Facts Spec SpecFacts SpecApi SpecGcd SpecReduce BigInt SpecModPow SpecActual LeakyProduct LeakyModPow
  PowLaws SafeModPow ActualFacts Examples.

Ltac Zify.zify_post_hook ::= idtac.

(** base 2^2048 - 2^1536 + 1, exponent 7, modulus 2^2048 - 1 *)
Definition assert_base : bigint := Big 1 (1 :: zeros 47 ++ repeat 4294967295 16).
Definition assert_modulus : bigint := Big 1 (repeat 4294967295 64).

Lemma assert_parts : represents assert_base (2 ^ 2048 - 2 ^ 1536 + 1) /\ represents assert_modulus (2 ^ 2048 - 1).
Proof. unfold assert_base, assert_modulus. split; repr. Qed.
Lemma seven : represents (Big 7 []) 7.
Proof. repr. Qed.

Lemma assert_run : bi_mod_pow (Cfg true true) assert_base (Big 7 []) assert_modulus = AssertFail.
Proof. vm_compute. reflexivity. Qed.

Lemma assert_power : power_mod true (2 ^ 2048 - 2 ^ 1536 + 1) 7 (2 ^ 2048 - 1) = AssertFail.
Proof.
  destruct assert_parts as (A & M). exact (proj1 (mod_pow_assert_iff (Cfg true true) _ _ _ _ _ _ A seven M) assert_run).
Qed.

Lemma assert_defined : ~ mod_pow_undefined (2 ^ 2048 - 2 ^ 1536 + 1) 7 (2 ^ 2048 - 1).
Proof. apply reduced_base_defined; vm_compute; discriminate. Qed.

Lemma mod_pow_assert : exists a b m x e z,
  represents a x /\ represents b e /\ represents m z /\ 0 <= e /\ ~ mod_pow_undefined x e z /\
  (forall s, bi_mod_pow (Cfg true s) a b m = AssertFail) /\
  (forall s, exists r, bi_mod_pow (Cfg false s) a b m = Ret r /\ canonical r).
Proof.
  exists assert_base, (Big 7 []), assert_modulus, (2 ^ 2048 - 2 ^ 1536 + 1), 7, (2 ^ 2048 - 1).
  destruct assert_parts as (A & M). pose proof assert_defined as U.
  assert (limb_count (2 ^ 2048 - 1) 64) as L by (apply limb_count_compute; vm_compute; reflexivity).
  assert (Z.abs (2 ^ 2048 - 1) <> 2 ^ (32 * (64 - 1))) as N by (vm_compute; discriminate).
  revert A M U L N. generalize (2 ^ 2048 - 2 ^ 1536 + 1), (2 ^ 2048 - 1), assert_power. intros x z P A M U L N.
  split; [exact A|]. split; [exact seven|]. split; [exact M|]. split; [lia|]. split; [exact U|]. split.
  - intros s. apply (mod_pow_assert_iff (Cfg true s) _ _ _ _ _ _ A seven M). exact P.
  - intros s. pose proof (mod_pow_leaky (Cfg false s) _ _ _ _ _ _ 64 A seven M ltac:(lia) ltac:(lia) L (or_introl N)) as W.
    destruct (mod_pow_quiet (Cfg false s) _ _ _ _ _ _ A seven M ltac:(lia) U) as [H|[(k & H)|(H & _)]]; [exact H| |discriminate H].
    exfalso. rewrite H in W. destruct (leaky_mod_pow _ _ _ _); cbn [mirrors] in W; try contradiction; try discriminate W.
Qed.
