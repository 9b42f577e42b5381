(** Consequences of the conversions and predicates with limb counts kept in [int]. *)
From Verif Require Import Machine Facts Spec AddSubFacts SquMulFacts DivCoreFacts SpecFacts BigIntFacts
  CompareFacts ConvFacts SpecApi SpecGcd ShiftFacts WordFacts BigInt BarrettFacts RunExact LeakyModPow SpecActual ActualFacts
  IntSizes SpecSizes IntSizesFacts IntLimbs SpecLimbs IntLimbsFacts IntLimbsLaws
  CalcDivRem BigIntDouble SpecDouble DoubleFacts SpecHelpers HelperFacts SpecPyRun PyRunFacts ConvLaws IntConv SpecIntConv IntConvFacts BytesFacts.
Ltac Zify.zify_post_hook ::= idtac.

(** ** Below 2^31 limbs *)

Lemma short_length a x : represents a x -> limbs_of x < 2147483648 -> Z.of_nat (length (bits_of a)) < 2147483648.
Proof. intros Ha H. pose proof (limbs_of_length a x Ha). lia. Qed.

Lemma s32_length (l : list Z) : Z.of_nat (length l) < 2147483648 -> s32 (Z.of_nat (length l)) = Z.of_nat (length l).
Proof. intros H. apply s32_small. unfold INT_MIN, INT_MAX. lia. Qed.

Lemma rdz_of_nat (l : list Z) i : rdz l (Z.of_nat i) = rd l i.
Proof. unfold rdz. rewrite (proj2 (Z.ltb_ge _ 0)) by lia. now rewrite Nat2Z.id. Qed.

Lemma power_of_two_agrees c b : Z.of_nat (length (bits_of b)) < 2147483648 -> bi_is_power_of_two_i c b = bi_is_power_of_two c b.
Proof.
  intros H. unfold bi_is_power_of_two_i, bi_is_power_of_two. destruct b as [s l]. cbn [sign_of bits_of] in *.
  destruct l as [|a l]; [reflexivity|]. set (m := a :: l) in *. cbn [is_nil].
  replace (Z.of_nat (length m) - 1) with (Z.of_nat (length m - 1)) by (unfold m; cbn [length]; lia).
  rewrite s32_small by (unfold INT_MIN, INT_MAX; lia). now rewrite rdz_of_nat, Nat2Z.id.
Qed.

Lemma bit_length_agrees c b : Z.of_nat (length (bits_of b)) < 2147483648 -> bi_bit_length_i c b = bi_bit_length c b.
Proof.
  intros H. unfold bi_bit_length_i, bi_bit_length. destruct b as [s l]. cbn [sign_of bits_of] in *.
  destruct (assert_valid c (Big s l)) as [u|?|?| |]; cbn [bind]; try reflexivity.
  destruct l as [|a l].
  - cbn [is_nil]. destruct (if s <? 0 then chk32 c (- s) else Ret s) as [h|?|?| |]; cbn [bind]; try reflexivity.
  - set (m := a :: l) in *. cbn [is_nil]. change (is_nil m) with false. cbv iota.
    assert (1 <= length m)%nat as G by (unfold m; cbn [length]; lia). rewrite s32_length by exact H.
    rewrite chk32_ok by (unfold INT_MIN, INT_MAX; lia). cbn [bind].
    replace (Z.of_nat (length m) - 1) with (Z.of_nat (length m - 1)) by lia. rewrite rdz_of_nat.
    destruct (rd m (length m - 1)) as [h|?|?| |]; cbn [bind]; try reflexivity.
    destruct (leading_zeros_count h); cbn [bind]; try reflexivity.
    destruct (chk64 c _); cbn [bind]; try reflexivity. destruct (0 <=? s); try reflexivity.
    destruct (negb _); [reflexivity|]. rewrite chk32_ok by (unfold INT_MIN, INT_MAX; lia). cbn [bind].
    replace (Z.to_nat (Z.of_nat (length m) - 2 + 1)) with (length m - 1)%nat by lia. reflexivity.
Qed.

Lemma to_long_agrees c b : Z.of_nat (length (bits_of b)) < 2147483648 -> bi_to_long_i c b = bi_to_long c b.
Proof.
  intros H. unfold bi_to_long_i, bi_to_long. destruct b as [s l]. cbn [sign_of bits_of] in *.
  destruct l as [|a [|b l]]; [reflexivity|reflexivity|]. rewrite s32_length by exact H.
  replace (2 <? Z.of_nat (length (a :: b :: l))) with (Nat.ltb 2 (length (a :: b :: l)))
    by (destruct (Nat.ltb_spec 2 (length (a :: b :: l))), (Z.ltb_spec 2 (Z.of_nat (length (a :: b :: l)))); lia || reflexivity).
  destruct (Nat.ltb 2 _); [reflexivity|].
  rewrite (proj2 (Z.ltb_lt 1 _)) by (cbn [length]; lia). reflexivity.
Qed.

Lemma to_ulong_agrees c b : Z.of_nat (length (bits_of b)) < 2147483648 -> bi_to_ulong_i c b = bi_to_ulong c b.
Proof.
  intros H. unfold bi_to_ulong_i, bi_to_ulong. destruct b as [s l]. cbn [sign_of bits_of] in *.
  destruct l as [|a [|b l]]; [reflexivity|reflexivity|]. rewrite s32_length by exact H.
  replace (2 <? Z.of_nat (length (a :: b :: l))) with (Nat.ltb 2 (length (a :: b :: l)))
    by (destruct (Nat.ltb_spec 2 (length (a :: b :: l))), (Z.ltb_spec 2 (Z.of_nat (length (a :: b :: l)))); lia || reflexivity).
  destruct (_ || _); [reflexivity|].
  rewrite (proj2 (Z.ltb_lt 1 _)) by (cbn [length]; lia). reflexivity.
Qed.

Lemma hash_agrees c b : Z.of_nat (length (bits_of b)) < 2147483648 -> bi_hash_i c b = bi_hash c b.
Proof.
  intros H. unfold bi_hash_i, bi_hash. destruct b as [s l]. cbn [sign_of bits_of] in *.
  destruct l as [|a l]; [reflexivity|]. set (m := a :: l) in *. cbn [is_nil]. change (is_nil m) with false. cbv iota.
  rewrite s32_length by exact H. rewrite chk32_ok by (unfold INT_MIN, INT_MAX; unfold m in *; cbn [length] in *; lia). cbn [bind].
  replace (Z.to_nat (Z.of_nat (length m) - 1 + 1)) with (length m) by lia. reflexivity.
Qed.

Lemma high_zero32_bound u : 0 <= cbit_high_zero32 (u32 u) <= 32.
Proof.
  pose proof (u32_range u) as R. change W32 with 4294967296 in R.
  rewrite cbit32_spec by (change (2 ^ 32) with 4294967296; lia). unfold zeros_before. destruct (Z.eqb_spec (u32 u) 0); [lia|].
  pose proof (Z.log2_nonneg (u32 u)). assert (Z.log2 (u32 u) < 32); [|lia].
  apply Z.log2_lt_pow2; [lia|]. change (2 ^ 32) with 4294967296. lia.
Qed.

Lemma to_double_agrees c b : Z.of_nat (length (bits_of b)) < 2147483648 -> bi_to_double_i c b = bi_to_double c b.
Proof.
  intros H. unfold bi_to_double_i, bi_to_double. destruct b as [s l]. cbn [sign_of bits_of] in *.
  destruct l as [|a l]; [reflexivity|]. set (m := a :: l) in *. change (is_nil m) with false. cbv iota zeta.
  assert (1 <= length m)%nat as G by (unfold m; cbn [length]; lia). rewrite s32_length by exact H.
  assert (forall k, (Z.of_nat k <? Z.of_nat (length m)) = Nat.ltb k (length m)) as E.
  { intros k. destruct (Nat.ltb_spec k (length m)); [apply Z.ltb_lt|apply Z.ltb_ge]; lia. }
  change 32 with (Z.of_nat 32) at 1. rewrite E. destruct (Nat.ltb_spec 32 (length m)) as [K|K]; [reflexivity|].
  rewrite chk32_ok by (unfold INT_MIN, INT_MAX; lia). cbn [bind].
  replace (Z.of_nat (length m) - 1) with (Z.of_nat (length m - 1)) by lia. rewrite rdz_of_nat.
  destruct (rd m (length m - 1)) as [h|?|?| |]; cbn [bind]; try reflexivity.
  change 1 with (Z.of_nat 1) at 1. rewrite E. change 2 with (Z.of_nat 2) at 2. rewrite E.
  replace (if Nat.ltb 1 (length m) then rdz m (Z.of_nat (length m) - 2) else Ret 0)
    with (if Nat.ltb 1 (length m) then rd m (length m - 2) else Ret 0)
    by (destruct (Nat.ltb_spec 1 (length m)); [rewrite <- rdz_of_nat; f_equal; lia|reflexivity]).
  replace (if Nat.ltb 2 (length m) then rdz m (Z.of_nat (length m) - 3) else Ret 0)
    with (if Nat.ltb 2 (length m) then rd m (length m - 3) else Ret 0)
    by (destruct (Nat.ltb_spec 2 (length m)); [rewrite <- rdz_of_nat; f_equal; lia|reflexivity]).
  destruct (if Nat.ltb 1 (length m) then rd m (length m - 2) else Ret 0) as [mi|?|?| |]; cbn [bind]; try reflexivity.
  destruct (if Nat.ltb 2 (length m) then rd m (length m - 3) else Ret 0) as [lo|?|?| |]; cbn [bind]; try reflexivity.
  assert (0 <= cbit_high_zero32 (u32 h) <= 32) as Hz by apply high_zero32_bound.
  rewrite chk32_ok by (unfold INT_MIN, INT_MAX; lia). cbn [bind].
  rewrite chk32_ok by (unfold INT_MIN, INT_MAX; lia). cbn [bind].
  rewrite chk32_ok by (unfold INT_MIN, INT_MAX; lia). cbn [bind]. reflexivity.
Qed.

Theorem conv_i_fits c a x : represents a x -> limbs_of x < 2 ^ 31 ->
  (exists b, bi_is_power_of_two_i c a = Ret b /\ (b = true <-> exists k, 0 <= k /\ x = 2 ^ k)) /\
  (exists n, bi_bit_length_i c a = Ret n /\ least_width x n) /\
  (strict c = false \/ x <> - 2 ^ 63 ->
   bi_to_long_i c a = if in_range (- 2 ^ 63) (2 ^ 63) x then Ret x else Throw OverflowError) /\
  bi_to_ulong_i c a = (if in_range 0 (2 ^ 64) x then Ret x else Throw OverflowError) /\
  bi_hash_i c a = Ret (hash_code x) /\
  (Z.abs x < 2 ^ 1024 -> exists d, bi_to_double_i c a = Ret d /\ dbl_exact d (trunc53 x) /\ (x = 0 -> d = 0)) /\
  (2 ^ 1024 <= Z.abs x -> bi_to_double_i c a = Ret (if x <? 0 then minus_infinity else plus_infinity)).
Proof.
  intros Ha H. pose proof (short_length a x Ha H) as L.
  rewrite power_of_two_agrees, bit_length_agrees, to_long_agrees, to_ulong_agrees, hash_agrees, to_double_agrees by exact L.
  split; [apply (predicate_family c a x Ha)|]. split.
  { apply bit_length_returns; [exact Ha|]. destruct (limbs_of_count x) as (_ & F & _). unfold fits_limbs in *.
    eapply Z.lt_le_trans; [exact F|]. apply Z.pow_le_mono_r; lia. }
  split; [intros S; apply bi_to_long_spec; tauto|]. split; [now apply bi_to_ulong_spec|]. split; [now apply hash_exact|].
  split; [now apply to_double_finite|now apply to_double_infinite].
Qed.

(** ** More than 2^31 limbs *)

Lemma int_of_wide n : 2147483648 <= n < 6442450944 -> int_of n = n - 4294967296.
Proof.
  intros H. unfold int_of. change (2 ^ 31) with 2147483648. change (2 ^ 32) with 4294967296.
  replace (n + 2147483648) with ((n - 2147483648) + 1 * 4294967296) by lia. rewrite Z.mod_add by lia.
  rewrite Z.mod_small by lia. lia.
Qed.

Lemma wide_limbs x : 2147483648 < limbs_of x <= 4294967296 -> 2147483648 <= Z.abs x /\ -2147483648 < int_limbs x <= 0.
Proof.
  intros H. split.
  - destruct (limbs_of_count x) as (_ & _ & L). destruct (Z.lt_ge_cases (Z.abs x) 2147483648) as [K|K]; [|exact K].
    specialize (L 1 ltac:(lia)). unfold fits_limbs in L. change (2 ^ (32 * 1)) with 4294967296 in L. specialize (L ltac:(lia)). lia.
  - unfold int_limbs. rewrite int_of_wide by lia. lia.
Qed.

Theorem conv_i_wide c a x : represents a x -> 2 ^ 31 < limbs_of x <= 2 ^ 32 ->
  bi_to_long_i c a = (if Z.abs x mod 2 ^ 32 =? 0 then Throw OverflowError else Ret (Z.sgn x * (Z.abs x mod 2 ^ 32))) /\
  (0 < x -> bi_to_ulong_i c a = Ret (x mod 2 ^ 32)) /\
  bi_hash_i c a = Ret (Z.sgn x) /\
  (0 < x -> bi_is_power_of_two_i c a = Undef OutOfBounds) /\
  bi_bit_length_i c a = Undef OutOfBounds /\
  bi_to_double_i c a = Undef OutOfBounds.
Proof.
  change (2 ^ 31) with 2147483648. change (2 ^ 32) with 4294967296. intros Ha H. destruct (wide_limbs x H) as (X & R).
  assert (taken x = Z.abs x mod 4294967296) as T.
  { unfold taken. rewrite (proj2 (Z.ltb_ge 1 _)) by lia. reflexivity. }
  pose proof (Z.mod_pos_bound (Z.abs x) 4294967296 ltac:(lia)) as B.
  assert (visited c (int_limbs x) = Ret (int_limbs x)) as V.
  { unfold visited. change (- 2 ^ 31) with (-2147483648). now rewrite (proj2 (Z.eqb_neq (int_limbs x) _)) by lia. }
  assert (top_index c x = Undef OutOfBounds) as I.
  { unfold top_index. rewrite V. cbn [bind]. now rewrite (proj2 (Z.leb_le _ 0)) by lia. }
  split.
  { rewrite (to_long_i_spec c a x Ha). unfold long_any. change (2 ^ 31) with 2147483648. change (2 ^ 63) with 9223372036854775808.
    rewrite (proj2 (Z.ltb_ge (Z.abs x) _)) by lia. rewrite (proj2 (Z.ltb_ge 2 _)) by lia. rewrite T.
    rewrite (proj2 (Z.ltb_ge 9223372036854775808 _)) by lia. rewrite Bool.orb_false_r.
    destruct (Z.eqb_spec (Z.abs x mod 4294967296) 0); [reflexivity|]. now rewrite (proj2 (Z.eqb_neq _ 9223372036854775808)) by lia. }
  split.
  { intros P. rewrite (to_ulong_i_spec c a x Ha). unfold ulong_any. change (2 ^ 31) with 2147483648.
    rewrite (proj2 (Z.ltb_ge x 0)) by lia. rewrite (proj2 (Z.ltb_ge x _)) by lia. rewrite (proj2 (Z.ltb_ge 2 _)) by lia.
    rewrite T. now rewrite Z.abs_eq by lia. }
  split.
  { rewrite (hash_i_spec c a x Ha). unfold hash_any. change (2 ^ 31) with 2147483648.
    rewrite (proj2 (Z.ltb_ge (Z.abs x) _)) by lia. rewrite V. cbn [bind]. replace (Z.to_nat (int_limbs x)) with O by lia. reflexivity. }
  split.
  { intros P. rewrite (power_of_two_i_spec c a x Ha). unfold power_of_two_any. change (2 ^ 31) with 2147483648.
    rewrite (proj2 (Z.ltb_ge (Z.abs x) _)) by lia. rewrite (proj2 (Z.ltb_ge x 0)) by lia. cbv zeta.
    rewrite (proj2 (Z.ltb_lt _ 0)); [reflexivity|]. rewrite int_of_wide by lia. lia. }
  split.
  { rewrite (bit_length_i_spec c a x Ha X). unfold bit_length_any. now rewrite I. }
  pose proof (to_double_i_spec c a x Ha X) as D. unfold double_any in D. cbv zeta in D.
  rewrite (proj2 (Z.ltb_ge 32 _)) in D by lia. rewrite I in D. exact D.
Qed.

Lemma wide_case k : k = 2 ^ 31 -> exists a b,
  represents a (2 ^ (32 * k) + 5) /\ represents b (- (2 ^ (32 * k) + 5)) /\
  2 ^ 31 < limbs_of (2 ^ (32 * k) + 5) <= 2 ^ 32 /\ 2 ^ 31 < limbs_of (- (2 ^ (32 * k) + 5)) <= 2 ^ 32 /\
  forall c, bi_to_long_i c a = Ret 5 /\ bi_to_ulong_i c a = Ret 5 /\ bi_to_long_i c b = Ret (-5) /\
    bi_hash_i c a = Ret 1 /\ bi_hash_i c b = Ret (-1).
Proof.
  intros Hk. destruct (represents_total (2 ^ (32 * k) + 5)) as (a & Ha), (represents_total (- (2 ^ (32 * k) + 5))) as (b & Hb).
  exists a, b. split; [exact Ha|]. split; [exact Hb|]. change (2 ^ 31) with 2147483648 in *. change (2 ^ 32) with 4294967296.
  assert (1 <= 32 * k - 32) as G by lia.
  pose proof (pow2_pos (32 * k) ltac:(lia)) as P. pose proof (Z.pow_le_mono_r 2 32 (32 * k) ltac:(lia) ltac:(lia)) as Q.
  change (2 ^ 32) with 4294967296 in Q.
  assert ((2 ^ (32 * k) + 5) mod 4294967296 = 5) as M.
  { replace (32 * k) with (32 * k - 32 + 32) by ring. rewrite Z.pow_add_r by lia. change (2 ^ 32) with 4294967296.
    rewrite Z.add_comm, Z.mod_add by lia. reflexivity. }
  assert (limbs_of (2 ^ (32 * k) + 5) = k + 1) as L by (apply limbs_of_power; lia).
  assert (limbs_of (- (2 ^ (32 * k) + 5)) = k + 1) as L' by (rewrite <- L; unfold limbs_of; now rewrite Z.abs_opp).
  rewrite L, L'. split; [lia|]. split; [lia|]. intros c.
  destruct (conv_i_wide c a _ Ha) as (A1 & A2 & A3 & _); [change (2 ^ 31) with 2147483648; change (2 ^ 32) with 4294967296; lia|].
  destruct (conv_i_wide c b _ Hb) as (B1 & _ & B3 & _); [change (2 ^ 31) with 2147483648; change (2 ^ 32) with 4294967296; lia|].
  change (2 ^ 32) with 4294967296 in *. rewrite Z.abs_eq, M, Z.sgn_pos in A1 by lia. rewrite M in A2.
  rewrite Z.abs_opp, Z.abs_eq, M, Z.sgn_neg in B1 by lia. rewrite Z.sgn_pos in A3 by lia. rewrite Z.sgn_neg in B3 by lia.
  split; [exact A1|]. split; [apply A2; lia|]. split; [exact B1|]. split; [exact A3|exact B3].
Qed.

Lemma longs_i_spec c a x : represents a x -> bi_to_long_i c a = long_any c x /\ bi_to_ulong_i c a = ulong_any x.
Proof. intros Ha. split; [now apply to_long_i_spec|now apply to_ulong_i_spec]. Qed.
