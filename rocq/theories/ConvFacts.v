(** Narrowing conversions, powers of two, bit length. *)
From Verif Require Import Facts Spec AddSubFacts SpecFacts BigIntFacts CompareFacts SpecApi BigInt.

Ltac Zify.zify_post_hook ::= idtac.

Lemma rd_ok l i : (i < length l)%nat -> rd l i = Ret (nth i l 0).
Proof.
  intros H. destruct (wp_inv _ _ (wp_rd l i (fun x => x = nth i l 0) H eq_refl)) as (x & E & ->). exact E.
Qed.

(** ** Conversions to machine integers *)

Ltac ranges :=
  unfold in_range;
  repeat match goal with
  | |- context [?a <=? ?b] => destruct (Z.leb_spec a b)
  | |- context [?a <? ?b] => destruct (Z.ltb_spec a b)
  end; cbn [andb].

Lemma val1 b : val [b] = b.
Proof. cbn [val]. ring. Qed.
Lemma val2 a b : val [a; b] = a + W32 * b.
Proof. cbn [val]. ring. Qed.
Lemma val3_ge a b d l :
  limbs (a :: b :: d :: l) -> top_nz (a :: b :: d :: l) -> W64 <= val (a :: b :: d :: l).
Proof.
  intros Hl Ht. pose proof (top_nz_bound (a :: b :: d :: l) Hl ltac:(discriminate) Ht) as H.
  pose proof (Bp_le 2 (length (a :: b :: d :: l) - 1) ltac:(cbn [length]; lia)) as H2.
  change 2%nat with (1 + 1)%nat in H2. rewrite Bp_add, Bp_1 in H2. change (W32 * W32) with W64 in H2. lia.
Qed.

Lemma s32_hi x : 2147483648 <= x < W32 -> s32 x = x - W32.
Proof.
  intros H. unfold s32. rewrite u32_small by (num; lia). cbv zeta.
  destruct (Z.ltb_spec x 2147483648); [lia|reflexivity].
Qed.

Lemma s64_lo x : 0 <= x < 9223372036854775808 -> s64 x = x.
Proof.
  intros H. unfold s64. rewrite u64_small by (num; lia). cbv zeta.
  destruct (Z.ltb_spec x 9223372036854775808); [reflexivity|lia].
Qed.
Lemma s64_hi x : 9223372036854775808 <= x < W64 -> s64 x = x - W64.
Proof.
  intros H. unfold s64. rewrite u64_small by (num; lia). cbv zeta.
  destruct (Z.ltb_spec x 9223372036854775808); [lia|reflexivity].
Qed.

Lemma lor_two a b : limb a -> limb b -> Z.lor (u64 (Z.shiftl b kcbitUint)) a = a + W32 * b.
Proof.
  intros Ha Hb. unfold kcbitUint, limb in *. rewrite Z.shiftl_mul_pow2 by lia.
  rewrite u64_small by (change (2 ^ 32) with 4294967296; num; lia).
  rewrite lor_add by (change (2 ^ 32) with W32; lia). change (2 ^ 32) with W32. ring.
Qed.

Lemma chk32_min c : chk32 c 2147483648 = if strict c then Undef SignedOverflow else Ret INT_MIN.
Proof. unfold chk32. destruct (strict c); reflexivity. Qed.
Lemma chk64_min c : chk64 c 9223372036854775808 = if strict c then Undef SignedOverflow else Ret LONG_MIN.
Proof. unfold chk64. destruct (strict c); reflexivity. Qed.

Theorem bi_to_int_spec c a x :
  represents a x -> strict c = false \/ x <> - 2 ^ 31 ->
  bi_to_int c a = if in_range (- 2 ^ 31) (2 ^ 31) x then Ret x else Throw OverflowError.
Proof.
  intros Ha Hc. change (2 ^ 31) with 2147483648 in *. apply repr_parts in Ha. destruct a as [s l].
  unfold bi_to_int. cbn [sign_of bits_of] in *. inv_parts Ha.
  - ranges; auto; num; lia.
  - destruct l as [|a [|b l]]; [congruence| |].
    + rewrite val1 in *. inversion Hl as [|? ? Hlim _]; subst. unfold limb in Hlim. unfold kuMaskHighBit.
      signs; cbn [Z.ltb Z.compare].
      * destruct (Z.ltb_spec INT_MAX a); [|num; lia]. ranges; auto; lia.
      * destruct (Z.ltb_spec 2147483648 a).
        { ranges; auto; lia. }
        assert (a = 2147483648) as -> by (num; lia). change (- s32 2147483648) with 2147483648.
        rewrite chk32_min. destruct Hc as [->|Hc]; [|num; lia]. reflexivity.
    + assert (W32 <= val (a :: b :: l)) by (pose proof (length_lt_val [4294967295] (a :: b :: l)
        ltac:(repeat constructor; num; lia) Hl Hne Ht ltac:(cbn [length]; lia)) as H0; rewrite val1 in H0; num; lia).
      signs; ranges; auto; num; lia.
Qed.

Theorem bi_to_int_min_strict c a :
  represents a (- 2 ^ 31) -> strict c = true -> bi_to_int c a = Undef SignedOverflow.
Proof.
  intros Ha Hc. rewrite (represents_unique _ _ _ Ha repr_minint). unfold bi_to_int, s_bnMinInt.
  cbn [sign_of bits_of Z.ltb Z.compare kuMaskHighBit].
  change (- s32 kuMaskHighBit) with 2147483648. rewrite chk32_min, Hc. reflexivity.
Qed.

Theorem bi_to_uint_spec c a x :
  represents a x ->
  bi_to_uint c a = if in_range 0 (2 ^ 32) x then Ret x else Throw OverflowError.
Proof.
  intros Ha. change (2 ^ 32) with 4294967296 in *. apply repr_parts in Ha. destruct a as [s l].
  unfold bi_to_uint. cbn [sign_of bits_of] in *. inv_parts Ha.
  - ranges; auto; try (num; lia). rewrite u32_small by (num; lia). reflexivity.
  - destruct l as [|a [|b l]]; [congruence| |]; cbn [is_nil negb orb].
    + rewrite val1 in *. inversion Hl as [|? ? Hlim _]; subst. unfold limb in Hlim.
      signs; cbn [Z.ltb Z.compare].
      * ranges; try (f_equal; lia); num; lia.
      * ranges; auto; lia.
    + assert (W32 <= val (a :: b :: l)) by (pose proof (length_lt_val [4294967295] (a :: b :: l)
        ltac:(repeat constructor; num; lia) Hl Hne Ht ltac:(cbn [length]; lia)) as H0; rewrite val1 in H0; num; lia).
      signs; ranges; auto; num; lia.
Qed.

Theorem bi_to_long_spec c a x :
  represents a x -> strict c = false \/ x <> - 2 ^ 63 ->
  bi_to_long c a = if in_range (- 2 ^ 63) (2 ^ 63) x then Ret x else Throw OverflowError.
Proof.
  intros Ha Hc. change (2 ^ 63) with 9223372036854775808 in *. apply repr_parts in Ha. destruct a as [s l].
  unfold bi_to_long. cbn [sign_of bits_of] in *. inv_parts Ha.
  - ranges; auto; num; lia.
  - destruct l as [|a [|b [|d l]]]; [congruence| | |].
    + rewrite val1 in *. inversion Hl as [|? ? Hlim _]; subst. unfold limb in Hlim.
      cbn [length Nat.ltb Nat.leb]. rewrite s64_lo by (num; lia).
      signs; cbn [Z.ltb Z.compare bind].
      * rewrite (proj2 (Z.ltb_lt 0 a)) by lia. cbn [andb orb]. ranges; try (f_equal; lia); num; lia.
      * rewrite chk64_ok by (num; lia). cbn [bind].
        rewrite (proj2 (Z.ltb_lt (- a) 0)), Bool.andb_false_r by lia. cbn [andb orb].
        ranges; try (f_equal; lia); num; lia.
    + rewrite val2 in *. inversion Hl as [|? ? Ha' Hl']; subst. inversion Hl' as [|? ? Hb' _]; subst.
      cbn [length Nat.ltb Nat.leb]. rewrite lor_two by assumption.
      assert (b <> 0) as Hb0 by exact Ht. unfold limb in Ha', Hb'.
      set (v := a + W32 * b) in *. assert (W32 <= v < W64) as Hvv by (subst v; num; lia). clearbody v.
      destruct (Z.le_gt_cases 9223372036854775808 v) as [G|G].
      * rewrite s64_hi by lia. signs; cbn [Z.ltb Z.compare bind].
        -- rewrite (proj2 (Z.ltb_ge 0 (v - W64))) by lia.
           cbn [andb orb]. rewrite Bool.andb_false_r. ranges; auto; num; lia.
        -- destruct (Z.eq_dec v 9223372036854775808) as [->|G'].
           ++ change (- (9223372036854775808 - W64)) with 9223372036854775808.
              rewrite chk64_min. destruct Hc as [->|Hc]; [|num; lia]. reflexivity.
           ++ rewrite chk64_ok by (num; lia). cbn [bind].
              rewrite (proj2 (Z.ltb_ge (- (v - W64)) 0)) by lia.
              rewrite Bool.andb_false_r. cbn [andb orb]. ranges; auto; num; lia.
      * rewrite s64_lo by (num; lia). signs; cbn [Z.ltb Z.compare bind].
        -- rewrite (proj2 (Z.ltb_lt 0 v)) by (num; lia). cbn [andb orb].
           ranges; try (f_equal; lia); num; lia.
        -- rewrite chk64_ok by (num; lia). cbn [bind].
           rewrite (proj2 (Z.ltb_lt (- v) 0)), Bool.andb_false_r by (num; lia). cbn [andb orb].
           ranges; try (f_equal; lia); num; lia.
    + pose proof (val3_ge _ _ _ _ Hl Ht). cbn [length Nat.ltb Nat.leb].
      signs; ranges; auto; num; lia.
Qed.

Theorem bi_to_long_min_strict c a :
  represents a (- 2 ^ 63) -> strict c = true -> bi_to_long c a = Undef SignedOverflow.
Proof.
  intros Ha Hc.
  assert (represents (Big (-1) [0; 2147483648]) (- 2 ^ 63)) as Hb.
  { apply (repr_limb2 (-1) 0 2147483648); auto; unfold limb; num; lia. }
  rewrite (represents_unique _ _ _ Ha Hb). unfold bi_to_long.
  cbn [sign_of bits_of length Nat.ltb Nat.leb Z.ltb Z.compare].
  change (- s64 _) with 9223372036854775808. rewrite chk64_min, Hc. reflexivity.
Qed.

Theorem bi_to_ulong_spec c a x :
  represents a x ->
  bi_to_ulong c a = if in_range 0 (2 ^ 64) x then Ret x else Throw OverflowError.
Proof.
  intros Ha. change (2 ^ 64) with W64 in *. apply repr_parts in Ha. destruct a as [s l].
  unfold bi_to_ulong. cbn [sign_of bits_of] in *. inv_parts Ha.
  - ranges; auto; try (num; lia). rewrite u64_small by (num; lia). reflexivity.
  - destruct l as [|a [|b [|d l]]]; [congruence| | |]; cbn [length Nat.ltb Nat.leb orb].
    + rewrite val1 in *. inversion Hl as [|? ? Hlim _]; subst. unfold limb in Hlim.
      signs; cbn [Z.ltb Z.compare]; ranges; try (f_equal; lia); num; lia.
    + rewrite val2 in *. inversion Hl as [|? ? Ha' Hl']; subst. inversion Hl' as [|? ? Hb' _]; subst.
      rewrite lor_two by assumption. unfold limb in Ha', Hb'.
      signs; cbn [Z.ltb Z.compare]; ranges; try (f_equal; lia); num; lia.
    + pose proof (val3_ge _ _ _ _ Hl Ht). signs; ranges; auto; num; lia.
Qed.

(** ** Powers of two *)

Lemma land_pow2 x : 0 < x -> Z.land x (x - 1) = 0 <-> exists k, 0 <= k /\ x = 2 ^ k.
Proof.
  intros Hx. split.
  - intros H. exists (Z.log2 x). split; [apply Z.log2_nonneg|].
    pose proof (Z.log2_spec x Hx) as (L1 & L2). rewrite Z.pow_succ_r in L2 by apply Z.log2_nonneg.
    destruct (Z.eq_dec x (2 ^ Z.log2 x)) as [E|E]; [exact E|exfalso].
    assert (Z.testbit (Z.land x (x - 1)) (Z.log2 x) = true) as Hb.
    { rewrite Z.land_spec, Z.bit_log2 by assumption. cbn [andb].
      replace (Z.log2 x) with (Z.log2 (x - 1)); [apply Z.bit_log2; lia|].
      apply Z.log2_unique; [apply Z.log2_nonneg|]. rewrite Z.pow_succ_r by apply Z.log2_nonneg. lia. }
    rewrite H, Z.bits_0 in Hb. discriminate.
  - intros (k & Hk & ->). replace (2 ^ k - 1) with (Z.ones k) by (rewrite Z.ones_equiv; lia).
    rewrite Z.land_ones by assumption. apply Z_mod_same_full.
Qed.

Lemma Bp_pow2 n : Bp n = 2 ^ (32 * Z.of_nat n).
Proof.
  induction n as [|n IH]; [now rewrite Bp_0|].
  rewrite Bp_S, IH, Nat2Z.inj_succ. replace (32 * Z.succ (Z.of_nat n)) with (32 + 32 * Z.of_nat n) by lia.
  rewrite Z.pow_add_r by lia. reflexivity.
Qed.

Lemma vl_nonneg l n : limbs l -> 0 <= vl l n.
Proof. intros H. pose proof (vl_bound l n H). lia. Qed.

Lemma all_zero_below_spec l n :
  limbs l -> (n <= length l)%nat -> all_zero_below l n = Ret (vl l n =? 0).
Proof.
  intros Hl. induction n as [|n IH]; intros Hn; cbn [all_zero_below].
  - reflexivity.
  - rewrite rd_ok by lia. cbn [bind]. rewrite vl_S.
    pose proof (limbs_nth l n Hl) as Hx. unfold limb in Hx. pose proof (vl_bound l n Hl) as Hb.
    destruct (Z.eqb_spec (nth n l 0) 0) as [E|E]; cbn [negb].
    + rewrite IH by lia. rewrite E, Z.mul_0_l, Z.add_0_r. reflexivity.
    + f_equal. symmetry. apply Z.eqb_neq.
      assert (1 * Bp n <= nth n l 0 * Bp n) by (apply Z.mul_le_mono_nonneg_r; lia). lia.
Qed.

Lemma val_top l : l <> [] -> val l = vl l (length l - 1) + nth (length l - 1) l 0 * Bp (length l - 1).
Proof.
  intros H. rewrite <- (vl_all l). destruct l as [|x l]; [congruence|].
  replace (length (x :: l)) with (S (length (x :: l) - 1)) at 1 by (cbn [length]; lia).
  apply vl_S.
Qed.

(** A limb array denotes a power of two iff its top limb does and the rest is zero. *)
Lemma val_pow2 l :
  l <> [] -> limbs l -> top_nz l ->
  (exists k, 0 <= k /\ val l = 2 ^ k) <->
  vl l (length l - 1) = 0 /\ Z.land (nth (length l - 1) l 0) (nth (length l - 1) l 0 - 1) = 0.
Proof.
  intros Hne Hl Ht. rewrite val_top by assumption. unfold top_nz in Ht.
  set (n := (length l - 1)%nat) in *. pose proof (vl_bound l n Hl) as Hb.
  pose proof (limbs_nth l n Hl) as Hx. unfold limb in Hx.
  set (t := nth n l 0) in *. set (v := vl l n) in *. clearbody t v.
  rewrite land_pow2 by lia. rewrite Bp_pow2 in *. set (m := 32 * Z.of_nat n) in *.
  assert (0 <= m) as Hm by lia. clearbody m. clear n.
  assert (0 < 2 ^ m) as Hp by (apply pow2_pos; lia).
  split.
  - intros (k & Hk & E).
    assert (1 * 2 ^ m <= t * 2 ^ m) by (apply Z.mul_le_mono_nonneg_r; lia).
    assert (m <= k) as Hmk.
    { apply (Z.pow_le_mono_r_iff 2); lia. }
    replace k with ((k - m) + m) in E by lia. rewrite Z.pow_add_r in E by lia.
    assert (v = 0 /\ t = 2 ^ (k - m)) as (-> & ->).
    { assert (t = 2 ^ (k - m)) as E2.
      { assert (t < 2 ^ (k - m) + 1) by (apply (Z.mul_lt_mono_pos_r (2 ^ m)); lia).
        assert (2 ^ (k - m) < t + 1) by (apply (Z.mul_lt_mono_pos_r (2 ^ m)); lia). lia. }
      split; [|exact E2]. rewrite <- E2 in E. lia. }
    split; [reflexivity|]. exists (k - m). split; lia.
  - intros (-> & k & Hk & ->). exists (k + m). split; [lia|]. rewrite Z.pow_add_r by lia. lia.
Qed.

Theorem bi_is_power_of_two_spec c a x :
  represents a x ->
  exists b, bi_is_power_of_two c a = Ret b /\ (b = true <-> exists k, 0 <= k /\ x = 2 ^ k).
Proof.
  intros Ha. unfold bi_is_power_of_two. rewrite (assert_valid_ok _ _ _ Ha). cbn [bind].
  apply repr_parts in Ha. destruct a as [s l]; cbn [sign_of bits_of] in *. inv_parts Ha; nils.
  - rewrite chk32_ok by (num; lia). cbn [bind]. eexists. split; [reflexivity|].
    rewrite Bool.andb_true_iff, Bool.negb_true_iff, Z.eqb_eq, Z.eqb_neq.
    destruct (Z.lt_trichotomy x 0) as [H|[H|H]].
    + assert (Z.land x (x - 1) < 0) by (apply Z.land_neg; lia). split; [lia|].
      intros (k & Hk & ->). pose proof (pow2_pos k Hk). lia.
    + subst. split; [lia|]. intros (k & Hk & E). pose proof (pow2_pos k Hk). lia.
    + rewrite <- land_pow2 by assumption. split; [tauto|]. intros; split; auto; lia.
  - destruct (Z.eqb_spec s 1) as [->|E]; cbn [negb].
    + rewrite rd_ok by (destruct l; [congruence|cbn [length]; lia]). cbn [bind].
      replace (1 * val l) with (val l) by ring.
      pose proof (val_pow2 l Hne Hl Ht) as P.
      pose proof (limbs_nth l (length l - 1) Hl) as Hx. unfold limb in Hx. unfold top_nz in Ht.
      rewrite u32_small by lia.
      destruct (Z.eqb_spec (Z.land (nth (length l - 1) l 0) (nth (length l - 1) l 0 - 1)) 0) as [E|E]; cbn [negb].
      * rewrite all_zero_below_spec by (auto; lia). eexists; split; [reflexivity|].
        rewrite Z.eqb_eq, P. tauto.
      * eexists; split; [reflexivity|]. rewrite P. split; [discriminate|tauto].
    + eexists; split; [reflexivity|]. split; [discriminate|]. intros (k & Hk & Ek).
      pose proof (pow2_pos k Hk). signs; lia.
Qed.

(** ** leading_zeros_count *)

Definition smeared (k s x : Z) : Prop :=
  (forall i, 0 <= i -> k - s < i <= k -> Z.testbit x i = true) /\
  (forall i, k < i -> Z.testbit x i = false).

Lemma smear_step k s x : 0 <= s -> smeared k s x -> smeared k (2 * s) (Z.lor x (Z.shiftr x s)).
Proof.
  intros Hs (A & B). split; intros i Hi.
  - intros Hr. rewrite Z.lor_spec, Z.shiftr_spec by lia.
    destruct (Z.lt_ge_cases (k - s) i) as [H|H].
    + now rewrite A by lia.
    + rewrite (A (i + s)) by lia. apply Bool.orb_true_r.
  - destruct (Z.lt_ge_cases i 0) as [H|H]; [now rewrite Z.testbit_neg_r|].
    rewrite Z.lor_spec, Z.shiftr_spec by lia. now rewrite B, B by lia.
Qed.

Lemma smear_init x : 0 < x -> smeared (Z.log2 x) 1 x.
Proof.
  intros H. split; intros i Hi.
  - intros Hr. replace i with (Z.log2 x) by lia. now apply Z.bit_log2.
  - apply Z.bits_above_log2; lia.
Qed.

Lemma smear_end k s x : 0 <= k -> k < s -> smeared k s x -> x = Z.ones (k + 1).
Proof.
  intros Hk Hs (A & B). apply Z.bits_inj'. intros i Hi.
  destruct (Z.le_gt_cases i k) as [H|H].
  - rewrite A by lia. now rewrite Z.ones_spec_low by lia.
  - rewrite B by lia. now rewrite Z.ones_spec_high by lia.
Qed.

Lemma debruijn_table k :
  0 <= k < 32 -> rdz debruijn32 (Z.shiftr (u32 (u32 (2 ^ (k + 1)) * 124511785)) 27) = Ret (31 - k).
Proof.
  intros H. assert (Forall (fun k => rdz debruijn32 (Z.shiftr (u32 (u32 (2 ^ (k + 1)) * 124511785)) 27) = Ret (31 - k))
    (map Z.of_nat (seq 0 32))) as F.
  { repeat constructor. }
  rewrite Forall_forall in F. apply F. apply in_map_iff. exists (Z.to_nat k). split; [lia|].
  apply in_seq. lia.
Qed.

Lemma leading_zeros_count_spec x :
  limb x -> leading_zeros_count x = Ret (if x =? 0 then 32 else 31 - Z.log2 x).
Proof.
  intros Hx. unfold leading_zeros_count. destruct (Z.eqb_spec x 0) as [E|E]; [reflexivity|].
  cbv zeta. unfold limb in Hx.
  assert (0 <= Z.log2 x < 32) as Hk.
  { split; [apply Z.log2_nonneg|]. apply Z.log2_lt_pow2; [lia|]. change (2 ^ 32) with W32. lia. }
  pose proof (smear_init x ltac:(lia)) as S.
  apply (smear_step _ 1) in S; [|lia]. apply (smear_step _ 2) in S; [|lia].
  apply (smear_step _ 4) in S; [|lia]. apply (smear_step _ 8) in S; [|lia].
  apply (smear_step _ 16) in S; [|lia].
  apply smear_end in S; [|lia|lia]. rewrite S.
  replace (Z.ones (Z.log2 x + 1) + 1) with (2 ^ (Z.log2 x + 1)) by (rewrite Z.ones_equiv; lia).
  now apply debruijn_table.
Qed.

(** ** get_bit_length *)

(** Number of bits of a non-negative integer. *)
Definition nbits (v : Z) : Z := if v =? 0 then 0 else Z.log2 v + 1.

Lemma nbits_spec v : 0 <= v -> 0 <= nbits v /\ v < 2 ^ nbits v /\ (v <> 0 -> 2 ^ (nbits v - 1) <= v).
Proof.
  intros Hv. unfold nbits. destruct (Z.eqb_spec v 0) as [->|E].
  - repeat split; lia.
  - pose proof (Z.log2_spec v ltac:(lia)) as (L1 & L2). pose proof (Z.log2_nonneg v).
    replace (Z.log2 v + 1 - 1) with (Z.log2 v) by ring. rewrite Z.add_1_r. repeat split; lia.
Qed.

Lemma nbits_val l :
  l <> [] -> limbs l -> top_nz l ->
  nbits (val l) = Z.of_nat (length l) * 32 - (31 - Z.log2 (nth (length l - 1) l 0)).
Proof.
  intros Hne Hl Ht. pose proof (top_nz_bound l Hl Hne Ht) as Hb. pose proof (Bp_pos (length l - 1)).
  unfold nbits. destruct (Z.eqb_spec (val l) 0) as [E0|E0]; [lia|]. clear E0.
  assert (Z.log2 (val l) = 32 * Z.of_nat (length l - 1) + Z.log2 (nth (length l - 1) l 0)) as ->.
  2:{ destruct l; [congruence|]. cbn [length] in *. lia. }
  rewrite val_top by assumption.
  pose proof (limbs_nth l (length l - 1) Hl) as Hx. unfold limb in Hx. unfold top_nz in Ht.
  pose proof (vl_bound l (length l - 1) Hl) as Hv.
  set (n := (length l - 1)%nat) in *. set (t := nth n l 0) in *. set (v := vl l n) in *. clearbody t v n.
  rewrite Bp_pow2 in *. pose proof (Z.log2_nonneg t).
  pose proof (Z.log2_spec t ltac:(lia)) as (L1 & L2).
  apply Z.log2_unique; [lia|].
  rewrite Z.pow_succ_r, !Z.pow_add_r by lia. rewrite Z.pow_succ_r in L2 by lia.
  set (p := 2 ^ (32 * Z.of_nat n)) in *. set (q := 2 ^ Z.log2 t) in *. clearbody p q.
  assert (q * p <= t * p) by (apply Z.mul_le_mono_nonneg_r; lia).
  assert ((t + 1) * p <= (2 * q) * p) by (apply Z.mul_le_mono_nonneg_r; lia).
  lia.
Qed.

Lemma least_width_pos x : 0 <= x -> least_width x (nbits x).
Proof.
  intros Hx. destruct (nbits_spec x Hx) as (A & B & C). repeat split; try lia.
  intros m Hm (D & E). destruct (Z.le_gt_cases (nbits x) m) as [H|H]; [exact H|exfalso].
  destruct (Z.eq_dec x 0) as [->|E0]; [unfold nbits in H; cbn in H; lia|].
  pose proof (Z.pow_le_mono_r 2 m (nbits x - 1)). lia.
Qed.

Lemma least_width_neg x :
  x < 0 -> least_width x (if (Z.land (- x) (- x - 1) =? 0) then nbits (- x) - 1 else nbits (- x)).
Proof.
  intros Hx. destruct (nbits_spec (- x) ltac:(lia)) as (A & B & C). specialize (C ltac:(lia)).
  assert (1 <= nbits (- x)) as H1.
  { destruct (Z.le_gt_cases 1 (nbits (- x))); [assumption|]. replace (nbits (- x)) with 0 in B by lia. lia. }
  destruct (Z.eqb_spec (Z.land (- x) (- x - 1)) 0) as [E|E].
  - apply land_pow2 in E; [|lia]. destruct E as (k & Hk & E).
    assert (nbits (- x) = k + 1) as ->.
    { assert (k < nbits (- x)) by (apply (Z.pow_lt_mono_r_iff 2); lia).
      assert (nbits (- x) - 1 < k + 1); [|lia].
      apply (Z.pow_lt_mono_r_iff 2); try lia. rewrite Z.pow_add_r by lia. lia. }
    replace (k + 1 - 1) with k by ring. pose proof (pow2_pos k Hk). repeat split; try lia.
    intros m Hm (D & _). apply (Z.pow_le_mono_r_iff 2); lia.
  - repeat split; try lia. intros m Hm (D & _).
    destruct (Z.le_gt_cases (nbits (- x)) m) as [H|H]; [exact H|exfalso].
    pose proof (Z.pow_le_mono_r 2 m (nbits (- x) - 1) ltac:(lia) ltac:(lia)).
    apply E. apply land_pow2; [lia|]. exists (nbits (- x) - 1). lia.
Qed.

Theorem bi_bit_length_spec c a x :
  represents a x -> Z.of_nat (length (bits_of a)) < 2 ^ 31 ->
  exists n, bi_bit_length c a = Ret n /\ least_width x n.
Proof.
  intros Ha Hlen. unfold bi_bit_length. rewrite (assert_valid_ok _ _ _ Ha). cbn [bind].
  change (2 ^ 31) with 2147483648 in Hlen.
  apply repr_parts in Ha. destruct a as [s l]; cbn [sign_of bits_of] in *. inv_parts Ha; nils.
  - assert ((if x <? 0 then chk32 c (- x) else Ret x) = Ret (Z.abs x)) as ->.
    { destruct (Z.ltb_spec x 0); [rewrite chk32_ok by (num; lia)|]; f_equal; lia. }
    cbn [bind]. rewrite u32_small by (num; lia). rewrite leading_zeros_count_spec by (unfold limb; num; lia).
    cbn [bind]. change (Z.of_nat 1 * 32) with 32.
    assert (32 - (if Z.abs x =? 0 then 32 else 31 - Z.log2 (Z.abs x)) = nbits (Z.abs x)) as ->
      by (unfold nbits; destruct (Z.abs x =? 0); lia).
    assert (0 <= nbits (Z.abs x) <= 32) as Hnb.
    { pose proof (nbits_spec (Z.abs x) ltac:(lia)) as (A & B & C). split; [exact A|].
      unfold nbits. destruct (Z.eqb_spec (Z.abs x) 0); [lia|].
      assert (Z.log2 (Z.abs x) < 32); [|lia]. apply Z.log2_lt_pow2; [lia|]. change (2 ^ 32) with W32. num; lia. }
    rewrite chk64_ok by (num; lia). cbn [bind].
    destruct (Z.leb_spec 0 x) as [H|H].
    { rewrite u64_small by (num; lia). eexists; split; [reflexivity|].
      rewrite Z.abs_eq by lia. now apply least_width_pos. }
    rewrite Z.abs_neq in * by lia. rewrite u32_small by (num; lia).
    pose proof (least_width_neg x H) as W.
    destruct (Z.eqb_spec (Z.land (- x) (- x - 1)) 0) as [E|E]; cbn [negb].
    + cbn [Nat.sub all_zero_below bind]. rewrite u64_small by (destruct W; num; lia).
      eexists; split; [reflexivity|exact W].
    + rewrite u64_small by (num; lia). eexists; split; [reflexivity|exact W].
  - assert (1 <= length l)%nat as Hl1 by (destruct l; [congruence|cbn [length]; lia]).
    rewrite rd_ok by lia. cbn [bind].
    pose proof (limbs_nth l (length l - 1) Hl) as Hx. rewrite leading_zeros_count_spec by assumption.
    unfold limb in Hx. cbn [bind].
    rewrite (proj2 (Z.eqb_neq _ _) Ht). rewrite <- nbits_val by assumption.
    assert (0 <= nbits (val l) <= 32 * Z.of_nat (length l)) as Hnb.
    { rewrite nbits_val by assumption. pose proof (Z.log2_nonneg (nth (length l - 1) l 0)).
      unfold top_nz in Ht.
      assert (Z.log2 (nth (length l - 1) l 0) < 32); [|lia]. apply Z.log2_lt_pow2; [lia|]. change (2 ^ 32) with W32. num; lia. }
    rewrite chk64_ok by (num; lia). cbn [bind].
    destruct Hs; subst s.
    + cbn [Z.leb Z.compare]. rewrite u64_small by (num; lia). eexists; split; [reflexivity|].
      rewrite Z.mul_1_l. apply least_width_pos. lia.
    + change (0 <=? -1) with false. cbv iota.
      pose proof (least_width_neg (-1 * val l) ltac:(lia)) as W.
      replace (- (-1 * val l)) with (val l) in W by ring.
      unfold top_nz in Ht. rewrite (u32_small (nth (length l - 1) l 0 - 1)) by lia.
      pose proof (val_pow2 l Hne Hl Ht) as P. rewrite <- land_pow2 in P by lia.
      destruct (Z.eqb_spec (Z.land (nth (length l - 1) l 0) (nth (length l - 1) l 0 - 1)) 0) as [E|E]; cbn [negb].
      * rewrite all_zero_below_spec by (auto; lia). cbn [bind].
        destruct (Z.eqb_spec (vl l (length l - 1)) 0) as [E'|E'];
          destruct (Z.eqb_spec (Z.land (val l) (val l - 1)) 0) as [F|F]; try tauto.
        -- rewrite u64_small by (destruct W; num; lia). eexists; split; [reflexivity|exact W].
        -- rewrite u64_small by (num; lia). eexists; split; [reflexivity|exact W].
      * destruct (Z.eqb_spec (Z.land (val l) (val l - 1)) 0) as [F|F]; [tauto|].
        rewrite u64_small by (num; lia). eexists; split; [reflexivity|exact W].
Qed.
