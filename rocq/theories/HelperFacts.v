(** Proofs about the helpers of NumericsHelpers.h. *)
From Verif Require Import Facts AddSubFacts Spec SpecFacts SpecApi BigInt BigIntFacts CompareFacts
  ShiftFacts ConvFacts WordFacts CalcDivRem DivRemFacts DivCoreFacts TextFacts SpecDouble BigIntDouble DoubleFacts BigIntText SpecHelpers.
Open Scope Z_scope.

Ltac Zify.zify_post_hook ::= idtac.

Lemma cbit32_spec u : 0 <= u < 2 ^ 32 -> cbit_high_zero32 u = zeros_before 32 u.
Proof.
  intros H. unfold zeros_before. rewrite cbit32_eq. destruct (Z.eqb_spec u 0) as [->|N]; [reflexivity|].
  change (2 ^ 32) with W32 in H. destruct (leading_zeros_spec u ltac:(lia)) as [R1 R2].
  set (z := leading_zeros u) in *. clearbody z.
  assert (Z.log2 (u * 2 ^ z) = 31) as L.
  { apply Z.log2_unique; [lia|]. change (2 ^ 31) with 2147483648. change (2 ^ Z.succ 31) with W32. lia. }
  rewrite Z.log2_mul_pow2 in L by lia. lia.
Qed.

Lemma high_mask uu : 0 <= uu < 2 ^ 64 -> Z.land uu 18446744069414584320 = (uu / 2 ^ 32) * 2 ^ 32.
Proof.
  intros H. change 18446744069414584320 with (Z.shiftl (Z.ones 32) 32).
  rewrite <- Z.shiftl_mul_pow2, <- Z.shiftr_div_pow2 by lia.
  apply Z.bits_inj'. intros i Hi. rewrite Z.land_spec, !Z.shiftl_spec by lia.
  destruct (Z.ltb_spec i 32) as [G|G].
  - rewrite !(Z.testbit_neg_r _ (i - 32)) by lia. apply andb_false_r.
  - rewrite Z.shiftr_spec by lia. replace (i - 32 + 32) with i by ring.
    destruct (Z.ltb_spec i 64) as [K|K].
    + rewrite Z.ones_spec_low by lia. apply andb_true_r.
    + rewrite Z.ones_spec_high by lia. rewrite andb_false_r.
      destruct (Z.eq_dec uu 0) as [->|N]; [symmetry; apply Z.bits_0|].
      symmetry. apply Z.bits_above_log2; [lia|]. apply Z.lt_le_trans with 64; [|lia].
      apply Z.log2_lt_pow2; lia.
Qed.

Lemma cbit64_spec uu : 0 <= uu < 2 ^ 64 -> cbit_high_zero64 uu = zeros_before 64 uu.
Proof.
  intros H. unfold cbit_high_zero64. rewrite high_mask by exact H.
  assert (0 <= uu / 2 ^ 32 < 2 ^ 32) as B.
  { split; [apply Z.div_pos; lia|]. apply Z.div_lt_upper_bound; [lia|]. change (2 ^ 32 * 2 ^ 32) with (2 ^ 64). lia. }
  destruct (Z.eqb_spec (uu / 2 ^ 32 * 2 ^ 32) 0) as [E|E].
  - assert (uu / 2 ^ 32 = 0) as Q by (change (2 ^ 32) with 4294967296 in *; lia).
    assert (uu < 2 ^ 32) as U.
    { pose proof (Z.mul_succ_div_gt uu (2 ^ 32) ltac:(lia)) as G. rewrite Q in G. lia. }
    rewrite u32_small by (change W32 with (2 ^ 32); lia). rewrite cbit32_spec by lia.
    unfold zeros_before. destruct (uu =? 0); lia.
  - rewrite Z.shiftr_div_pow2 by lia. rewrite u32_small by (change W32 with (2 ^ 32); lia).
    rewrite cbit32_spec by exact B. unfold zeros_before.
    destruct (Z.eqb_spec (uu / 2 ^ 32) 0) as [Q|Q]; [rewrite Q in E; now contradiction E|].
    destruct (Z.eqb_spec uu 0) as [->|N]; [now contradiction Q|].
    assert (Z.log2 uu = Z.log2 (uu / 2 ^ 32) + 32) as ->; [|lia].
    rewrite <- Z.shiftr_div_pow2 by lia. rewrite Z.log2_shiftr by lia.
    assert (32 <= Z.log2 uu); [|lia]. apply Z.log2_le_pow2; [lia|].
    destruct (Z.le_gt_cases (2 ^ 32) uu); [assumption|]. contradiction Q. apply Z.div_small. lia.
Qed.

Lemma make_ulong_eq hi lo : 0 <= hi < 2 ^ 32 -> 0 <= lo < 2 ^ 32 -> make_ulong hi lo = hi * 2 ^ 32 + lo.
Proof.
  intros H1 H2. unfold make_ulong. change kcbitUint with 32. rewrite Z.shiftl_mul_pow2 by lia.
  rewrite u64_small.
  - apply lor_add; lia.
  - change W64 with (2 ^ 32 * 2 ^ 32). change (2 ^ 32) with 4294967296 in *. lia.
Qed.

Lemma twos_eq d : limbs d -> exists r, make_twos_complement d = Ret r /\
  length r = length d /\ limbs r /\ magnitude r = (- magnitude d) mod 2 ^ (32 * Z.of_nat (length d)).
Proof.
  intros Hd. setoid_rewrite magnitude_val. destruct (wp_inv _ _ (make_twos_complement_spec d Hd)) as (r & E & R1 & R2 & R3).
  exists r. split; [exact E|]. split; [exact R1|]. split; [exact R2|]. rewrite R3.
  rewrite <- Bp_pow2. pose proof (val_bound d Hd) as B.
  destruct (Z.eqb_spec (val d) 0) as [->|N].
  - change (- 0) with 0. symmetry. apply Z.mod_small. pose proof (Bp_pos (length d)). lia.
  - apply (Z.mod_unique _ _ (-1)); [left; lia|ring].
Qed.

(** ** get_double_from_parts *)

(** The significand brought to 53 bits. *)
Lemma normalised man : 0 < man < 2 ^ 64 ->
  (let cbitShift := cbit_high_zero64 man - 11 in
   if cbitShift <? 0 then shr64 man (- cbitShift) else shl64 man cbitShift) = Ret (scaled man (52 - Z.log2 man)) /\
  2 ^ 52 <= scaled man (52 - Z.log2 man) < 2 ^ 53.
Proof.
  intros H. rewrite cbit64_spec by lia. unfold zeros_before. destruct (Z.eqb_spec man 0); [lia|]. cbv zeta.
  pose proof (Z.log2_spec man ltac:(lia)) as L. pose proof (Z.log2_nonneg man) as L0.
  assert (Z.log2 man < 64) as L1 by (apply Z.log2_lt_pow2; lia). set (t := Z.log2 man) in *. clearbody t.
  replace (64 - 1 - t - 11) with (52 - t) by ring. unfold scaled.
  destruct (Z.ltb_spec (52 - t) 0) as [G|G].
  - rewrite (proj2 (Z.leb_gt 0 (52 - t))) by lia. unfold shr64.
    rewrite (proj2 (Z.leb_le _ _)) by lia. rewrite (proj2 (Z.ltb_lt _ _)) by lia. cbn [andb].
    rewrite Z.shiftr_div_pow2 by lia. split; [reflexivity|].
    assert (2 ^ t = 2 ^ (- (52 - t)) * 2 ^ 52) as E1 by (rewrite <- Z.pow_add_r by lia; f_equal; lia).
    assert (2 ^ Z.succ t = 2 ^ (- (52 - t)) * 2 ^ 53) as E2 by (rewrite <- Z.pow_add_r by lia; f_equal; lia).
    pose proof (Z.pow_pos_nonneg 2 (- (52 - t)) ltac:(lia) ltac:(lia)).
    split; [apply Z.div_le_lower_bound; lia|apply Z.div_lt_upper_bound; lia].
  - rewrite (proj2 (Z.leb_le 0 (52 - t))) by lia. unfold shl64.
    rewrite (proj2 (Z.leb_le 0 (52 - t))) by lia. rewrite (proj2 (Z.ltb_lt _ _)) by lia. cbn [andb].
    rewrite Z.shiftl_mul_pow2 by lia.
    assert (2 ^ 52 = 2 ^ t * 2 ^ (52 - t)) as E1 by (rewrite <- Z.pow_add_r by lia; f_equal; lia).
    assert (2 ^ 53 = 2 ^ Z.succ t * 2 ^ (52 - t)) as E2 by (rewrite <- Z.pow_add_r by lia; f_equal; lia).
    pose proof (Z.pow_pos_nonneg 2 (52 - t) ltac:(lia) ltac:(lia)) as P.
    assert (2 ^ 52 <= man * 2 ^ (52 - t) < 2 ^ 53) as B.
    { rewrite E1, E2. split; [apply Z.mul_le_mono_nonneg_r; lia|apply Z.mul_lt_mono_pos_r; lia]. }
    split; [|exact B]. rewrite u64_small; [reflexivity|]. change W64 with (2 ^ 64).
    change (2 ^ 64) with (2 ^ 53 * 2048). change (2 ^ 53) with 9007199254740992 in *. lia.
Qed.

Lemma scaled_scaled m j k : 0 <= m -> k <= 0 -> j <= 0 \/ - j <= k -> scaled (scaled m j) k = scaled m (j + k).
Proof.
  intros Hm Hk Hj. unfold scaled.
  destruct (Z.leb_spec 0 j) as [G|G].
  - destruct (Z.leb_spec 0 k) as [K|K].
    + assert (k = 0) as -> by lia. rewrite Z.add_0_r. rewrite (proj2 (Z.leb_le _ _)) by lia. change (2 ^ 0) with 1. ring.
    + destruct Hj as [Hj|Hj].
      * assert (j = 0) as -> by lia. rewrite Z.add_0_l. rewrite (proj2 (Z.leb_gt _ _)) by lia. change (2 ^ 0) with 1. now rewrite Z.mul_1_r.
      * rewrite (proj2 (Z.leb_le _ _)) by lia. replace j with ((j + k) + - k) at 1 by ring. rewrite Z.pow_add_r by lia.
        rewrite Z.mul_assoc. apply Z.div_mul. apply Z.pow_nonzero; lia.
  - destruct (Z.leb_spec 0 k) as [K|K].
    + assert (k = 0) as -> by lia. rewrite Z.add_0_r. rewrite (proj2 (Z.leb_gt _ _)) by lia. change (2 ^ 0) with 1. now rewrite Z.mul_1_r.
    + rewrite (proj2 (Z.leb_gt _ _)) by lia. replace (- (j + k)) with (- j + - k) by ring.
      rewrite Z.pow_add_r by lia. apply Z.div_div; [apply Z.pow_nonzero; lia|apply Z.pow_pos_nonneg; lia].
Qed.

(** Scaling up, then down by more or less. *)
Lemma scaled_down m j k : 0 <= m -> k <= 0 -> scaled (scaled m j) k = scaled m (j + k).
Proof.
  intros Hm Hk. destruct (Z.le_gt_cases j 0); [apply scaled_scaled; auto|].
  destruct (Z.le_gt_cases (- j) k); [apply scaled_scaled; auto|].
  unfold scaled. rewrite (proj2 (Z.leb_le 0 j)) by lia. rewrite (proj2 (Z.leb_gt 0 k)) by lia. rewrite (proj2 (Z.leb_gt 0 (j + k))) by lia.
  replace (- k) with (j + - (j + k)) by ring. rewrite Z.pow_add_r by lia. rewrite (Z.mul_comm (2 ^ j)).
  apply Z.div_mul_cancel_r; apply Z.pow_nonzero; lia.
Qed.

Lemma from_parts_general sign exp man : 0 <= man < 2 ^ 64 ->
  exists d, get_double_from_parts sign exp man = Ret d /\ rounded_down d (sign <? 0) man exp.
Proof.
  intros Hm. unfold get_double_from_parts, rounded_down. destruct (Z.eqb_spec man 0) as [E|N].
  { cbn [bind]. destruct (sign <? 0); eexists; split; reflexivity. }
  destruct (normalised man ltac:(lia)) as [EQ B]. cbv zeta in EQ |- *. rewrite EQ. cbn [bind]. clear EQ.
  rewrite cbit64_spec by lia. unfold zeros_before. rewrite (proj2 (Z.eqb_neq man 0)) by exact N.
  set (t := Z.log2 man) in *. set (q := scaled man (52 - t)) in *.
  replace (exp - (64 - 1 - t - 11) + 1075) with (t + exp + 1023) by ring.
  set (top := t + exp). 
  destruct (Z.leb_spec 2047 (top + 1023)) as [G|G].
  { cbn [bind]. rewrite (proj2 (Z.leb_le 1024 top)) by lia. destruct (sign <? 0); eexists; split; reflexivity. }
  rewrite (proj2 (Z.leb_gt 1024 top)) by lia.
  destruct (Z.leb_spec (top + 1023) 0) as [K|K].
  - (* subnormal *)
    assert (exists f, (if top + 1023 - 1 <? -52 then Ret 0 else shr64 q (- (top + 1023 - 1))) = Ret f /\
      0 <= f < 2 ^ 52 /\ f = scaled q (top + 1022)) as (f & -> & F1 & F2).
    { destruct (Z.ltb_spec (top + 1023 - 1) (-52)) as [J|J].
      - exists 0. split; [reflexivity|]. split; [lia|]. unfold scaled. rewrite (proj2 (Z.leb_gt _ _)) by lia.
        symmetry. apply Z.div_small. split; [lia|]. apply Z.lt_le_trans with (2 ^ 53); [lia|]. apply Z.pow_le_mono_r; lia.
      - eexists. split.
        + unfold shr64. rewrite (proj2 (Z.leb_le _ _)) by lia. rewrite (proj2 (Z.ltb_lt _ _)) by lia. cbn [andb]. reflexivity.
        + rewrite Z.shiftr_div_pow2 by lia. replace (- (top + 1023 - 1)) with (- (top + 1022)) by ring. split.
          * split; [apply Z.div_pos; [lia|apply Z.pow_pos_nonneg; lia]|].
            apply Z.div_lt_upper_bound; [apply Z.pow_pos_nonneg; lia|].
            apply Z.lt_le_trans with (2 ^ 53); [lia|]. change (2 ^ 53) with (2 ^ 1 * 2 ^ 52).
            apply Z.mul_le_mono_nonneg_r; [lia|]. apply Z.pow_le_mono_r; lia.
          * unfold scaled. rewrite (proj2 (Z.leb_gt 0 (top + 1022))) by lia. reflexivity. }
    cbn [bind].
    destruct (fields_pattern (sign <? 0) 0 f ltac:(lia) F1) as (P & Ng & X & Fr).
    eexists. split; [reflexivity|].
    assert ((if sign <? 0 then Z.lor f DBL_SIGN else f) = (if sign <? 0 then 2 ^ 63 else 0) + 0 * 2 ^ 52 + f) as ->.
    { destruct (sign <? 0); [|ring]. change DBL_SIGN with (1 * 2 ^ 63). rewrite Z.lor_comm, lor_add; [ring|lia|].
      change (2 ^ 63) with (2048 * 2 ^ 52). change (2 ^ 52) with 4503599627370496 in *. lia. }
    set (d := (if sign <? 0 then 2 ^ 63 else 0) + 0 * 2 ^ 52 + f) in *.
    split; [exact P|]. split; [unfold dbl_finite; lia|]. split; [exact Ng|].
    assert (dbl_scale d = -1074) as S by (unfold dbl_scale; rewrite X; reflexivity).
    rewrite S. split; [lia|]. unfold dbl_significand. rewrite X. cbn [Z.eqb]. rewrite Fr, F2. unfold q.
    rewrite scaled_down by lia. f_equal. unfold top. ring.
  - unfold shl64. cbn [Z.leb Z.ltb Z.compare Pos.compare Pos.compare_cont andb bind]. rewrite Z.shiftl_mul_pow2 by lia.
    rewrite u64_small by (change W64 with (4096 * 2 ^ 52); change (2 ^ 52) with 4503599627370496; lia).
    rewrite land_frac by exact B.
    destruct (fields_pattern (sign <? 0) (top + 1023) (q - 2 ^ 52) ltac:(lia) ltac:(change (2 ^ 53) with (2 * 2 ^ 52) in B; lia)) as (P & Ng & X & Fr).
    eexists. split; [reflexivity|].
    assert ((let uu := Z.lor (q - 2 ^ 52) ((top + 1023) * 2 ^ 52) in if sign <? 0 then Z.lor uu DBL_SIGN else uu)
      = (if sign <? 0 then 2 ^ 63 else 0) + (top + 1023) * 2 ^ 52 + (q - 2 ^ 52)) as E.
    { cbv zeta. rewrite (Z.lor_comm (q - 2 ^ 52)), lor_add by (change (2 ^ 53) with (2 * 2 ^ 52) in B; lia).
      destruct (sign <? 0); [|ring]. change DBL_SIGN with (1 * 2 ^ 63). rewrite Z.lor_comm, lor_add; [ring|lia|].
      change (2 ^ 63) with (2048 * 2 ^ 52). change (2 ^ 53) with (2 * 2 ^ 52) in B. change (2 ^ 52) with 4503599627370496 in *. lia. }
    cbv zeta in E. rewrite E. clear E.
    set (d := (if sign <? 0 then 2 ^ 63 else 0) + (top + 1023) * 2 ^ 52 + (q - 2 ^ 52)) in *.
    split; [exact P|]. split; [unfold dbl_finite; lia|]. split; [exact Ng|].
    assert (dbl_scale d = top - 52) as S.
    { unfold dbl_scale. rewrite X. destruct (Z.eqb_spec (top + 1023) 0); lia. }
    rewrite S. split; [lia|]. unfold dbl_significand. rewrite X. destruct (Z.eqb_spec (top + 1023) 0); [lia|].
    rewrite Fr. unfold q. replace (exp - (top - 52)) with (52 - t) by (unfold top; ring). ring.
Qed.

(** ** get_double_parts *)

Lemma parts_meaning d : dbl_pattern d ->
  exists sign exp man fin, get_double_parts d = (sign, exp, man, fin) /\
    (sign <? 0) = dbl_negative d /\ (sign = 1 \/ sign = -1) /\ fin = negb (dbl_exp d =? 2047) /\
    (fin = true -> man = dbl_significand d /\ exp = if man =? 0 then 0 else dbl_scale d).
Proof.
  intros Hd. rewrite (parts_fields d Hd). do 4 eexists. split; [reflexivity|].
  split; [destruct (dbl_negative d); reflexivity|]. split; [destruct (dbl_negative d); auto|]. split; [reflexivity|].
  intros F. pose proof (pattern_fields d Hd) as (B & _). unfold dbl_significand, dbl_scale.
  destruct (Z.eqb_spec (dbl_exp d) 0) as [E|E]; [split; [reflexivity|destruct (dbl_frac d =? 0); reflexivity]|].
  destruct (Z.eqb_spec (dbl_exp d) 2047) as [K|K]; [discriminate F|]. split; [reflexivity|].
  rewrite (proj2 (Z.eqb_neq _ _)); [reflexivity|]. lia.
Qed.

Lemma same_double d d' : dbl_pattern d -> dbl_pattern d' -> dbl_negative d = dbl_negative d' ->
  dbl_scale d = dbl_scale d' -> dbl_significand d = dbl_significand d' -> d = d'.
Proof.
  intros H H' N S G. destruct (pattern_fields d H) as (F & E & D). destruct (pattern_fields d' H') as (F' & E' & D').
  rewrite D, D', N. unfold dbl_scale, dbl_significand in *.
  destruct (Z.eqb_spec (dbl_exp d) 0), (Z.eqb_spec (dbl_exp d') 0); lia.
Qed.

Lemma parts_back d : dbl_pattern d -> dbl_finite d ->
  let '(sign, exp, man, _) := get_double_parts d in get_double_from_parts sign exp man = Ret d.
Proof.
  intros Hd Hf. destruct (parts_meaning d Hd) as (s & e & m & f & -> & S & _ & F & M).
  destruct M as [M X]. { rewrite F. unfold dbl_finite in Hf. now rewrite (proj2 (Z.eqb_neq _ _)). }
  destruct (significand_range d Hd) as (B & B1 & B2 & B3).
  destruct (from_parts_general s e m) as (d' & E & R).
  { rewrite M. change (2 ^ 64) with (2 ^ 53 * 2048). change (2 ^ 53) with 9007199254740992 in *. lia. }
  rewrite E. f_equal. rewrite S in R. unfold rounded_down in R.
  destruct (pattern_fields d Hd) as (P1 & P2 & P3).
  destruct (Z.eqb_spec m 0) as [Z0|N].
  - rewrite R. rewrite M in Z0. unfold dbl_significand in Z0.
    destruct (Z.eqb_spec (dbl_exp d) 0) as [E0|E0]; [rewrite E0, Z0 in P3; rewrite Z.mul_0_l, !Z.add_0_r in P3; now symmetry|lia].
  - cbv zeta in R. subst m e.
    set (t := Z.log2 (dbl_significand d)) in *.
    assert (t < 53) as T by (apply Z.log2_lt_pow2; lia).
    assert (dbl_exp d <> 0 -> t = 52) as T2.
    { intros E0. specialize (B1 E0). assert (52 <= t); [|lia]. apply Z.log2_le_pow2; lia. }
    assert (dbl_scale d <= 971) as U.
    { unfold dbl_scale, dbl_finite in *. destruct (Z.eqb_spec (dbl_exp d) 0); lia. }
    rewrite (proj2 (Z.leb_gt _ _)) in R by lia.
    destruct R as (R1 & R2 & R3 & R4 & R5).
    assert (dbl_scale d' = dbl_scale d) as SC.
    { rewrite R4. destruct (Z.eq_dec (dbl_exp d) 0) as [E0|E0]; [destruct (B3 E0); lia|rewrite (T2 E0); lia]. }
    apply same_double; auto. rewrite R5, SC, Z.sub_diag. unfold scaled. cbn [Z.leb Z.compare]. change (2 ^ 0) with 1. ring.
Qed.

Lemma combine_hash_eq u1 u2 : 0 <= u1 < 2 ^ 32 -> 0 <= u2 < 2 ^ 32 ->
  combine_hash u1 u2 = Z.lxor (u1 * 2 ^ 7 mod 2 ^ 32 + u1 / 2 ^ 25) u2.
Proof.
  intros H1 H2. unfold combine_hash, u32. f_equal. rewrite Z.shiftl_mul_pow2, Z.shiftr_div_pow2 by lia.
  change W32 with (2 ^ 32). replace (2 ^ 32) with (2 ^ 25 * 2 ^ 7) at 1 2 by reflexivity.
  rewrite Z.mul_mod_distr_r by lia. apply lor_add; [lia|]. split; [apply Z.div_pos; lia|].
  apply Z.div_lt_upper_bound; [lia|]. change (2 ^ 25 * 2 ^ 7) with (2 ^ 32). lia.
Qed.
