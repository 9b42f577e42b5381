(** The LLP64 reading: conversions and parsing. *)
From Coq Require Import String Ascii.
From Verif Require Import Facts CalcAddSub CalcSquMul AddSubFacts SquMulFacts Spec SpecFacts BigInt BigIntFacts.
From Verif Require Import SpecApi ShiftFacts ConvLaws ConvFacts SpecText BigIntText TextFacts.
From Verif Require Import SpecDouble BigIntDouble DoubleFacts BigIntFloat CompareFacts DivRemFacts.
From Verif Require Import WinCalc WinBigInt SpecWin WinFacts WinMulFacts.
Ltac Zify.zify_post_hook ::= idtac.
Open Scope Z_scope.

(** ** Increment, decrement and complement *)

Lemma meets_inv o z : meets o z ->
  match z with Some z => exists r, o = Ret r /\ represents r z | None => o = UB end.
Proof. destruct z; exact (fun H => H). Qed.

Lemma bi_inc_w_exact c a x : represents a x -> meets (bi_inc_w None c a) (win_sum x 1).
Proof.
  intros Ha. unfold bi_inc_w. pose proof (bi_one_spec c) as W. apply wp_inv in W. destruct W as (o & -> & Ho).
  cbn [bind]. now apply bi_add_w_exact.
Qed.

Lemma bi_dec_w_exact c a x : represents a x -> meets (bi_dec_w None c a) (win_difference x 1).
Proof.
  intros Ha. unfold bi_dec_w. pose proof (bi_one_spec c) as W. apply wp_inv in W. destruct W as (o & -> & Ho).
  cbn [bind]. now apply bi_sub_w_exact.
Qed.

Lemma bi_not_w_exact c a x : represents a x -> meets (bi_not_w None c a) (win_complement x).
Proof.
  intros Ha. unfold bi_not_w. pose proof (bi_one_spec c) as W. apply wp_inv in W. destruct W as (o & -> & Ho).
  cbn [bind]. pose proof (bi_add_w_exact c a o x 1 Ha Ho) as H. unfold win_complement. apply meets_inv in H.
  destruct (win_sum x 1) as [z|].
  - destruct H as (r & -> & Hr). cbn [bind meets]. apply returns_wp. now apply bi_neg_spec.
  - rewrite H. reflexivity.
Qed.

(** ** Integer conversions *)

Lemma ulong_shl_32 x k : 32 <= k -> ulong_shl None x k = UB.
Proof. intros H. unfold ulong_shl. rewrite (proj2 (Z.ltb_ge k 32) H), andb_false_r. reflexivity. Qed.

Lemma val_long x y z l : limbs (x :: y :: z :: l) -> top_nz (x :: y :: z :: l) -> 2 ^ 64 <= val (x :: y :: z :: l).
Proof.
  intros Hl Ht. pose proof (top_nz_bound _ Hl ltac:(discriminate) Ht) as B. cbn [List.length] in B.
  pose proof (Bp_le 2 (S (S (S (List.length l))) - 1) ltac:(lia)) as C. rewrite Bp_2 in C.
  change (2 ^ 64) with 18446744073709551616. lia.
Qed.

Lemma val_two x y : limbs [x; y] -> top_nz [x; y] -> 4294967296 <= val [x; y] < 18446744073709551616.
Proof.
  intros Hl Ht. pose proof (top_nz_bound _ Hl ltac:(discriminate) Ht) as B. cbn [List.length Nat.sub] in B.
  pose proof (val_bound _ Hl) as C. cbn [List.length] in C. rewrite Bp_2 in C. rewrite ConvFacts.Bp_pow2 in B.
  change (2 ^ (32 * Z.of_nat 1)) with 4294967296 in B. lia.
Qed.

Lemma val_one x : val [x] = x.
Proof. cbn [val]. num; lia. Qed.

Lemma bi_to_long_w_exact c a x :
  represents a x -> bi_to_long_w None c a = win_long (negb (strict c)) x.
Proof.
  intros Ha. apply repr_parts in Ha. pose proof (parts_inline _ _ _ Ha) as I.
  destruct a as [s l]. unfold bi_to_long_w, win_long. cbn [sign_of bits_of] in *. rewrite I.
  inv_parts Ha; [reflexivity|].
  change (- 2 ^ 31) with (- (2147483648)). change (2 ^ 32) with 4294967296. change (2 ^ 64) with 18446744073709551616.
  destruct l as [|b0 [|b1 [|b2 l]]]; [congruence| | |]; cbn [is_nil List.length Nat.ltb Nat.leb].
  - match goal with H : limbs _ |- _ => inversion H; subst end. rewrite val_one in *.
    assert (limb b0) as L0 by assumption. unfold limb in L0. cbn [bind].
    assert (s32 b0 = b0 - 4294967296) as ->.
    { unfold s32. rewrite u32_small by assumption. num. destruct (Z.ltb_spec b0 2147483648); [lia|]. reflexivity. }
    rewrite (proj2 (Z.ltb_lt (Z.abs (s * b0)) 4294967296)) by (signs; num; lia).
    cbn [bind]. signs; cbn [Z.ltb Z.compare].
    + rewrite (proj2 (Z.eqb_neq _ _)) by lia. cbn [bind].
      rewrite (proj2 (Z.ltb_ge 0 (b0 - 4294967296))) by (num; lia). rewrite andb_false_r. reflexivity.
    + destruct (Z.eqb_spec (-1 * b0) (- (2147483648))) as [E|E].
      * assert (b0 = 2147483648) as -> by lia. unfold chk32. destruct (strict c); reflexivity.
      * rewrite chk32_ok by (num; lia). cbn [bind].
        rewrite (proj2 (Z.ltb_ge (- (b0 - 4294967296)) 0)) by (num; lia). rewrite andb_false_r. reflexivity.
  - pose proof (val_two b0 b1 ltac:(assumption) ltac:(assumption)) as V.
    rewrite (proj2 (Z.eqb_neq _ _)) by (signs; lia).
    rewrite (proj2 (Z.ltb_ge (Z.abs (s * val [b0; b1])) 4294967296)) by (signs; lia).
    rewrite (proj2 (Z.ltb_lt (Z.abs (s * val [b0; b1])) 18446744073709551616)) by (signs; lia).
    rewrite ulong_shl_32 by (unfold kcbitUint; lia). reflexivity.
  - pose proof (val_long b0 b1 b2 l ltac:(assumption) ltac:(assumption)) as V.
    change (2 ^ 64) with 18446744073709551616 in V.
    rewrite (proj2 (Z.eqb_neq _ _)) by (signs; lia).
    rewrite (proj2 (Z.ltb_ge (Z.abs (s * val (b0 :: b1 :: b2 :: l))) 4294967296)) by (signs; lia).
    rewrite (proj2 (Z.ltb_ge (Z.abs (s * val (b0 :: b1 :: b2 :: l))) 18446744073709551616)) by (signs; lia).
    reflexivity.
Qed.

Lemma bi_to_ulong_w_exact c a x : represents a x -> bi_to_ulong_w None c a = win_ulong x.
Proof.
  intros Ha. apply repr_parts in Ha.
  destruct a as [s l]. unfold bi_to_ulong_w, win_ulong. cbn [sign_of bits_of] in *.
  change (2 ^ 32) with 4294967296. change (2 ^ 64) with 18446744073709551616.
  inv_parts Ha.
  - destruct (Z.ltb_spec x 0); [reflexivity|]. rewrite (proj2 (Z.leb_gt _ x)) by (num; lia). cbn [orb].
    rewrite (proj2 (Z.ltb_lt x 4294967296)) by (num; lia). rewrite u32_small by (num; lia). reflexivity.
  - destruct l as [|b0 [|b1 [|b2 l]]]; [congruence| | |]; cbn [is_nil List.length Nat.ltb Nat.leb orb].
    + match goal with H : limbs _ |- _ => inversion H; subst end. rewrite val_one in *.
      assert (limb b0) as L0 by assumption. unfold limb in L0.
      signs; cbn [Z.ltb Z.compare].
      * rewrite (proj2 (Z.ltb_ge _ 0)) by lia. rewrite (proj2 (Z.leb_gt _ _)) by (num; lia). cbn [orb].
        rewrite (proj2 (Z.ltb_lt _ _)) by (num; lia). f_equal. lia.
      * rewrite (proj2 (Z.ltb_lt (-1 * b0) 0)) by lia. reflexivity.
    + pose proof (val_two b0 b1 ltac:(assumption) ltac:(assumption)) as V.
      signs; cbn [Z.ltb Z.compare].
      * rewrite (proj2 (Z.ltb_ge _ 0)) by lia. rewrite (proj2 (Z.leb_gt _ _)) by lia. cbn [orb].
        rewrite (proj2 (Z.ltb_ge _ _)) by lia. rewrite ulong_shl_32 by (unfold kcbitUint; lia). reflexivity.
      * rewrite (proj2 (Z.ltb_lt _ 0)) by lia. reflexivity.
    + pose proof (val_long b0 b1 b2 l ltac:(assumption) ltac:(assumption)) as V.
      change (2 ^ 64) with 18446744073709551616 in V.
      signs; [|now rewrite (proj2 (Z.ltb_lt _ 0)) by lia].
      rewrite (proj2 (Z.leb_le _ _)) by lia. now rewrite orb_true_r.
Qed.

(** ** double and float *)

Lemma bi_to_double_w_exact c a x :
  represents a x ->
  bi_to_double_w None c a =
    if negb (is_inline x) && (Z.abs x <? 2 ^ 1024) then UB else bi_to_double c a.
Proof.
  intros Ha. apply repr_parts in Ha. pose proof (parts_inline _ _ _ Ha) as I.
  pose proof (parts_abs _ _ _ Ha) as Va. rewrite I.
  destruct a as [s l]. unfold bi_to_double_w, bi_to_double. cbn [sign_of bits_of] in *.
  inv_parts Ha; [reflexivity|]. rewrite is_nil_ne by assumption. cbn [negb andb]. cbv zeta.
  rewrite <- Va by assumption.
  assert (2 ^ 1024 = Bp 32) as -> by (rewrite ConvFacts.Bp_pow2; reflexivity).
  pose proof (val_bound l ltac:(assumption)) as B.
  pose proof (top_nz_bound l ltac:(assumption) ltac:(assumption) ltac:(assumption)) as T.
  pose proof (nonempty_length l ltac:(assumption)) as N.
  destruct (Nat.ltb_spec 32 (List.length l)) as [G|G].
  - rewrite (proj2 (Z.ltb_ge _ _)); [reflexivity|]. pose proof (Bp_le 32 (List.length l - 1) ltac:(lia)). lia.
  - rewrite (proj2 (Z.ltb_lt _ _)) by (pose proof (Bp_le (List.length l) 32 ltac:(lia)); lia).
    apply ub_rd; [lia|].
    eapply ub_bind_wp with (P := fun _ => True).
    { destruct (Nat.ltb_spec 1 (List.length l)); repeat wstep; try lia; auto. }
    intros m _. eapply ub_bind_wp with (P := fun _ => True).
    { destruct (Nat.ltb_spec 2 (List.length l)); repeat wstep; try lia; auto. }
    intros q _. apply ub_first. apply ulong_shl_32.
    rewrite cbit32_eq. set (h := u32 (nth (List.length l - 1) l 0)).
    pose proof (u32_range (nth (List.length l - 1) l 0)) as U. fold h in U. clearbody h.
    destruct (Z.eq_dec h 0) as [->|H0]; [vm_compute; discriminate|].
    pose proof (leading_zeros_spec h ltac:(num; lia)). lia.
Qed.

Lemma bi_to_float_w_exact c a x :
  represents a x ->
  bi_to_float_w None c a =
    if negb (is_inline x) && (Z.abs x <? 2 ^ 1024) then UB else bi_to_float c a.
Proof.
  intros Ha. unfold bi_to_float_w, bi_to_float. rewrite (bi_to_double_w_exact c a x Ha).
  destruct (negb (is_inline x) && (Z.abs x <? 2 ^ 1024)); reflexivity.
Qed.

Lemma finite_w d : dbl_pattern d -> double_is_finite_w d = negb (Z.testbit d 31).
Proof.
  intros Hd. unfold double_is_finite_w. change DBL_ABS_MASK with (Z.ones 63). rewrite Z.land_ones by lia.
  unfold s32. unfold u32. change W32 with (2 ^ 32). set (q := d mod 2 ^ 32).
  pose proof (Z.mod_pos_bound d (2 ^ 32) ltac:(lia)) as Q. fold q in Q.
  assert (Z.testbit d 31 = Z.testbit q 31) as ->.
  { unfold q. now rewrite Z.mod_pow2_bits_low by lia. }
  change DBL_EXP_MASK with 9218868437227405312. change (2 ^ 63) with 9223372036854775808.
  change (2 ^ 32) with 4294967296 in *.
  rewrite Z.testbit_eqb by lia. change (2 ^ 31) with 2147483648.
  destruct (Z.ltb_spec q 2147483648) as [G|G].
  - rewrite Z.div_small by lia. change (0 mod 2 =? 1) with false. cbn [negb].
    rewrite Z.mod_small by lia. apply Z.ltb_lt. lia.
  - assert (q / 2147483648 = 1) as ->.
    { symmetry. apply (Z.div_unique q 2147483648 1 (q - 2147483648)); lia. }
    change (1 mod 2 =? 1) with true. cbn [negb].
    assert ((q - 4294967296) mod 9223372036854775808 = q - 4294967296 + 9223372036854775808) as ->.
    { symmetry. apply (Z.mod_unique _ _ (-1)); [left; lia|lia]. }
    apply Z.ltb_ge. lia.
Qed.

Lemma bi_of_double_w_exact c d :
  dbl_pattern d ->
  if Z.testbit d 31 then bi_of_double_w c d = Throw OverflowError
  else returns (bi_of_double_w c d) (win_of_double d).
Proof.
  intros Hd. pose proof (finite_w d Hd) as F. unfold bi_of_double_w. rewrite F.
  destruct (Z.testbit d 31); [reflexivity|]. cbn [negb]. unfold win_of_double.
  destruct (Z.eqb_spec (dbl_exp d) 2047) as [E|E].
  - rewrite parts_fields by assumption. rewrite E. change (2047 =? 0) with false. change (2047 =? 2047) with true. cbn iota beta.
    pose proof (pattern_fields d Hd) as (FR & _ & _). change (2 ^ 52) with 4503599627370496 in FR.
    apply returns_wp. wstep. apply wp_massert; [destruct (dbl_negative d); reflexivity|].
    destruct (Z.eqb_spec (dbl_frac d) 0) as [Z0|Z0].
    { rewrite Z0. eapply wp_mono; [apply bi_zero_spec|]. intros r Hr. change (0 / 2) with 0. unfold dbl_signed.
      destruct (dbl_negative d); exact Hr. }
    wstep. apply wp_massert; [apply Z.ltb_lt; lia|]. wstep. apply wp_massert; [reflexivity|].
    change (-1 <=? 0) with true. change (-1 <=? -64) with false. cbn iota.
    unfold shr64. cbn [bind]. change (- -1) with 1.
    change ((0 <=? 1) && (1 <? 64)) with true. cbn [bind].
    rewrite Z.shiftr_div_pow2 by lia. change (2 ^ 1) with 2.
    wstep. eapply wp_mono; [apply bi_of_uint64_spec|].
    { pose proof (Z.div_pos (dbl_frac d) 2). pose proof (Z.div_le_upper_bound (dbl_frac d) 2 4503599627370496).
      change W64 with 18446744073709551616. lia. }
    intros b Hb.
    replace ((if dbl_negative d then -1 else 1) <? 0) with (dbl_negative d) by (now destruct (dbl_negative d)).
    eapply wp_mono; [apply negate_fields; exact Hb|]. intros r Hr. exact Hr.
  - pose proof (of_double_finite c d Hd E) as H. unfold bi_of_double in H. rewrite finite_test in H by assumption.
    rewrite (proj2 (Z.eqb_neq _ _) E) in H. cbn [negb] in H. exact H.
Qed.

(** ** Parsing *)

Lemma win_sum_digit v d : 0 <= v -> 0 <= d < 10 ->
  win_sum v d = Some (if is_inline v then v + d else carry_dropped v d).
Proof.
  intros Hv Hd. unfold win_sum. assert (is_inline d = true) as I by (apply inline_yes; num; lia).
  rewrite I, andb_true_r. destruct (is_inline v) eqn:Iv; [reflexivity|].
  rewrite (proj2 (Z.ltb_ge v 0)), (proj2 (Z.ltb_ge d 0)) by lia. cbn [xorb].
  unfold win_mag_sum. now rewrite Iv, I.
Qed.

Lemma carry_dropped_nonneg v d : 0 <= v -> 0 <= d < 2 ^ 64 -> 0 <= carry_dropped v d.
Proof.
  intros Hv Hd. unfold carry_dropped. destruct (Z.leb_spec (2 ^ 64) (v mod 2 ^ 64 + d)) as [G|G]; [|lia].
  pose proof (Z.mod_le v (2 ^ 64) Hv ltac:(lia)). lia.
Qed.

Lemma parse_loop_w_exact c s b z :
  represents b z -> 0 <= z ->
  wp (parse_loop_w None c s b) (fun r => represents r (fold_left win_digit (leading_digits s) z)).
Proof.
  revert b z. induction s as [|ch s IH]; intros b z Hb Hz; cbn [parse_loop_w leading_digits].
  - exact Hb.
  - destruct (code_digit ch) as [E1 E2]. rewrite E1. destruct (digit_of ch) as [d|]; [|exact Hb].
    destruct (E2 d eq_refl) as [Ec Hd]. rewrite Ec. replace (48 + d - 48) with d by ring.
    cbn [fold_left]. wstep. eapply wp_mono; [apply bi_of_int32_spec; num; lia|]. intros ten Ht.
    pose proof (bi_mul_w_exact c b ten z 10 Hb Ht) as M. unfold win_product in M.
    rewrite (limbs32_small 10), andb_false_r in M by (num; lia). apply meets_inv in M.
    destruct M as (p & -> & Hp). cbn [bind].
    wstep. eapply wp_mono; [apply bi_of_uint32_spec; unfold UINT_MAX; num; lia|]. intros q Hq.
    pose proof (bi_add_w_exact c p q _ _ Hp Hq) as A. rewrite win_sum_digit in A by lia. apply meets_inv in A.
    destruct A as (r & -> & Hr). cbn [bind].
    eapply IH.
    + exact Hr.
    + fold (win_digit z d). unfold win_digit. destruct (is_inline (z * 10)); [lia|].
      apply carry_dropped_nonneg; lia.
Qed.

Theorem parse_w_exact c s : returns (bi_parse_w None c s) (win_signed_decimal s).
Proof.
  apply returns_wp. unfold bi_parse_w. wstep. eapply wp_mono; [apply bi_zero_spec|]. intros b0 H0.
  assert (forall s, wp (parse_loop_w None c s b0) (fun r => represents r (win_decimal s))) as L.
  { intros t. eapply wp_mono; [apply (parse_loop_w_exact c t b0 0 H0); lia|]. intros r Hr. exact Hr. }
  destruct s as [|ch t].
  - wstep. eapply wp_mono; [apply L|]. intros r Hr. exact Hr.
  - assert (win_signed_decimal (String ch t) =
      if code ch =? 45 then - win_decimal t else if code ch =? 43 then win_decimal t else win_decimal (String ch t)) as ->.
    { destruct (code ch =? 45) eqn:E1; [apply code_minus in E1; now subst ch|].
      destruct (code ch =? 43) eqn:E2; [apply code_plus in E2; now subst ch|].
      destruct ch as [[] [] [] [] [] [] [] []]; try reflexivity; discriminate. }
    destruct (code ch =? 45) eqn:E1; [|destruct (code ch =? 43) eqn:E2].
    + wstep. eapply wp_mono; [apply L|]. intros r Hr. now apply bi_neg_spec.
    + wstep. eapply wp_mono; [apply L|]. intros r Hr. exact Hr.
    + wstep. eapply wp_mono; [apply L|]. intros r Hr. exact Hr.
Qed.

Theorem try_parse_w_exact c s old :
  exists r, bi_try_parse_w None c s old = Ret (true, r) /\ represents r (win_signed_decimal s).
Proof.
  destruct (parse_w_exact c s) as (r & E & H). exists r. unfold bi_try_parse_w. rewrite E. auto.
Qed.

(** ** get_bit_length *)

Lemma limb_count_len a x n :
  represents a x -> limb_count x n -> n = Z.max 1 (Z.of_nat (List.length (bits_of a))).
Proof.
  intros Ha (H1 & H2 & H3). pose proof (repr_length a x n Ha ltac:(lia) H2) as A.
  pose proof (H3 (Z.max 1 (Z.of_nat (List.length (bits_of a)))) ltac:(lia) (length_fits a x Ha)) as B. lia.
Qed.

Lemma top_zeros h : limb h -> 0 <= (if h =? 0 then 32 else 31 - Z.log2 h) <= 32.
Proof.
  unfold limb. intros Hh. destruct (Z.eqb_spec h 0); [lia|]. pose proof (Z.log2_nonneg h).
  assert (Z.log2 h < 32); [|lia]. apply Z.log2_lt_pow2; [lia|]. change (2 ^ 32) with W32. num; lia.
Qed.

Lemma bit_length_w_eq c a x :
  represents a x -> Z.of_nat (List.length (bits_of a)) * 32 <= INT_MAX ->
  bi_bit_length_w c a = bi_bit_length c a.
Proof.
  intros Ha Hn. unfold bi_bit_length_w, bi_bit_length. rewrite (assert_valid_ok _ _ _ Ha). cbn [bind].
  apply repr_parts in Ha. destruct a as [s l]; cbn [sign_of bits_of] in *. inv_parts Ha; nils.
  - assert ((if x <? 0 then chk32 c (- x) else Ret x) = Ret (Z.abs x)) as ->.
    { destruct (Z.ltb_spec x 0); [rewrite chk32_ok by (num; lia)|]; f_equal; lia. }
    cbn [bind]. rewrite u32_small by (num; lia).
    assert (limb (Z.abs x)) as L by (unfold limb; num; lia). pose proof (top_zeros _ L) as T.
    rewrite leading_zeros_count_spec by assumption.
    cbn [bind]. change (Z.of_nat 1 * 32) with 32.
    rewrite chk32_ok by (num; lia). cbn [bind].
    rewrite chk32_ok, chk64_ok by (num; lia). cbn [bind]. now rewrite chk32_ok by (num; lia).
  - assert (1 <= List.length l)%nat as Hl1 by (destruct l; [congruence|cbn [List.length]; lia]).
    rewrite rd_ok by lia. cbn [bind].
    pose proof (limbs_nth l (List.length l - 1) Hl) as Hx. rewrite leading_zeros_count_spec by assumption.
    pose proof (top_zeros _ Hx) as T. cbn [bind].
    rewrite chk32_ok by (num; lia). cbn [bind].
    rewrite chk32_ok, chk64_ok by (num; lia). cbn [bind]. now rewrite chk32_ok by (num; lia).
Qed.

Lemma chk32_wrap c x : strict c = false -> chk32 c x = Ret (s32 x).
Proof.
  intros H. unfold chk32. rewrite H. destruct ((INT_MIN <=? x) && (x <=? INT_MAX)) eqn:E; [|reflexivity].
  apply andb_prop in E as [E1 E2]. apply Z.leb_le in E1, E2. now rewrite s32_small by lia.
Qed.

Lemma s32_minus x y : s32 (s32 x - y) = s32 (x - y).
Proof.
  assert (u32 (s32 x - y) = u32 (x - y)) as E.
  { unfold s32, u32. cbv zeta. rewrite <- (Zminus_mod_idemp_l x). destruct (x mod W32 <? 2147483648); [reflexivity|].
    change 4294967296 with W32. replace (x mod W32 - W32 - y) with (x mod W32 - y + -1 * W32) by ring. now rewrite Z.mod_add by easy. }
  unfold s32 at 1. rewrite E. reflexivity.
Qed.

Lemma bit_length_w_wraps c a x k :
  represents a x -> strict c = false -> Z.of_nat (List.length (bits_of a)) < 2 ^ 31 -> bi_bit_length c a = Ret k -> bi_bit_length_w c a = Ret (u64 (s32 k)).
Proof.
  intros Ha Hst Hn. change (2 ^ 31) with 2147483648 in Hn. unfold bi_bit_length_w, bi_bit_length. rewrite (assert_valid_ok _ _ _ Ha). cbn [bind].
  assert (forall s h l n, limb h -> Z.of_nat n < 2147483648 -> (1 <= n)%nat ->
    (lz <- leading_zeros_count h ;; bitLength <- chk64 c (Z.of_nat n * 32 - lz) ;;
      if 0 <=? s then Ret (u64 bitLength) else if negb (Z.land h (u32 (h - 1)) =? 0) then Ret (u64 bitLength)
      else z <- all_zero_below l (n - 1) ;; if z : bool then Ret (u64 (bitLength - 1)) else Ret (u64 bitLength)) = Ret k ->
    (lz <- leading_zeros_count h ;; total <- chk32 c (Z.of_nat n * 32) ;; bitLength <- chk32 c (total - lz) ;;
      if 0 <=? s then Ret (u64 bitLength) else if negb (Z.land h (u32 (h - 1)) =? 0) then Ret (u64 bitLength)
      else z <- all_zero_below l (n - 1) ;; if z : bool then r <- chk32 c (bitLength - 1) ;; Ret (u64 r) else Ret (u64 bitLength))
    = Ret (u64 (s32 k))) as K.
  { intros s h l n Hh Hn2 Hn1. pose proof (top_zeros h Hh) as T. rewrite leading_zeros_count_spec by assumption. cbn [bind].
    set (z := if h =? 0 then 32 else 31 - Z.log2 h) in *. rewrite chk64_ok by (num; lia). cbn [bind].
    rewrite !chk32_wrap by assumption. cbn [bind]. rewrite !chk32_wrap by assumption. cbn [bind]. rewrite s32_minus.
    assert (forall y, - 1 <= y < 2 ^ 62 -> u64 (s32 (u64 y)) = u64 (s32 y)) as U.
    { intros y Hy. f_equal. unfold s32. replace (u32 (u64 y)) with (u32 y); [reflexivity|].
      unfold u32, u64. change W64 with (W32 * W32). rewrite Z.rem_mul_r by easy. rewrite (Z.mul_comm W32), Z.mod_add by easy. now rewrite Z.mod_mod by easy. }
    change (2 ^ 62) with 4611686018427387904 in U.
    destruct (0 <=? s); [intros [= <-]; rewrite U by lia; reflexivity|].
    destruct (negb (Z.land h (u32 (h - 1)) =? 0)); [intros [= <-]; rewrite U by lia; reflexivity|].
    destruct (all_zero_below l (n - 1)) as [t| | | |]; cbn [bind]; try discriminate.
    destruct t; intros [= <-]; rewrite U by lia; [|reflexivity]. rewrite chk32_wrap by assumption. cbn [bind]. now rewrite s32_minus. }
  apply repr_parts in Ha. destruct a as [s l]; cbn [sign_of bits_of] in *. inv_parts Ha; nils.
  - assert ((if x <? 0 then chk32 c (- x) else Ret x) = Ret (Z.abs x)) as ->.
    { destruct (Z.ltb_spec x 0); [rewrite chk32_ok by (num; lia)|]; f_equal; lia. }
    cbn [bind]. rewrite u32_small by (num; lia). apply (K x (Z.abs x) [] 1%nat); [unfold limb; num; lia|reflexivity|lia].
  - assert (1 <= List.length l)%nat as Hl1 by (destruct l; [congruence|cbn [List.length]; lia]).
    rewrite rd_ok by lia. cbn [bind]. apply K; [apply limbs_nth; assumption|assumption|assumption].
Qed.

Lemma bit_length_w_overflow c a x :
  represents a x -> strict c = true -> INT_MAX < Z.of_nat (List.length (bits_of a)) * 32 ->
  bi_bit_length_w c a = Undef SignedOverflow.
Proof.
  intros Ha Hst Hn. unfold bi_bit_length_w. rewrite (assert_valid_ok _ _ _ Ha). cbn [bind].
  apply repr_parts in Ha. destruct a as [s l]; cbn [sign_of bits_of] in *. inv_parts Ha; nils.
  - cbn [List.length] in Hn. num; lia.
  - assert (1 <= List.length l)%nat as Hl1 by (destruct l; [congruence|cbn [List.length]; lia]).
    rewrite rd_ok by lia. cbn [bind].
    pose proof (limbs_nth l (List.length l - 1) Hl) as Hx. rewrite leading_zeros_count_spec by assumption.
    cbn [bind]. unfold chk32 at 1. rewrite (proj2 (Z.leb_gt _ INT_MAX) Hn), andb_false_r, Hst. reflexivity.
Qed.

Theorem bit_length_w_exact c a x n :
  represents a x -> limb_count x n ->
  (n < 2 ^ 26 -> exists k, bi_bit_length_w c a = Ret k /\ least_width x k) /\
  (2 ^ 26 <= n -> strict c = true -> bi_bit_length_w c a = Undef SignedOverflow) /\
  (2 ^ 26 <= n < 2 ^ 31 -> strict c = false -> exists k, bi_bit_length_w c a = Ret (((k + 2 ^ 31) mod 2 ^ 32 - 2 ^ 31) mod 2 ^ 64) /\ least_width x k).
Proof.
  intros Ha Hn. pose proof (limb_count_len a x n Ha Hn) as E. change (2 ^ 26) with 67108864. split; [|split].
  - intros H. rewrite (bit_length_w_eq c a x Ha) by (num; lia). apply bi_bit_length_spec; [exact Ha|].
    change (2 ^ 31) with 2147483648. lia.
  - intros H Hst. apply (bit_length_w_overflow c a x Ha Hst). num; lia.
  - intros H Hst. assert (Z.of_nat (List.length (bits_of a)) < 2 ^ 31) as L by lia.
    destruct (bi_bit_length_spec c a x Ha L) as (k & B & W). exists k. split; [|exact W].
    rewrite (bit_length_w_wraps c a x k Ha Hst L B). unfold u64. change (2 ^ 64) with W64. do 2 f_equal.
    unfold s32, u32. cbv zeta. change (2 ^ 31) with 2147483648. change (2 ^ 32) with W32.
    pose proof (Z.mod_pos_bound k W32 ltac:(easy)) as R. pose proof (Z.div_mod k W32 ltac:(easy)) as D.
    set (r := k mod W32) in *. set (q := k / W32) in *. clearbody r q. rewrite D. change W32 with 4294967296 in *.
    destruct (Z.ltb_spec r 2147483648).
    + replace (4294967296 * q + r + 2147483648) with (r + 2147483648 + q * 4294967296) by ring.
      rewrite Z.mod_add, Z.mod_small by lia. lia.
    + replace (4294967296 * q + r + 2147483648) with (r - 2147483648 + (q + 1) * 4294967296) by ring.
      rewrite Z.mod_add, Z.mod_small by lia. lia.
Qed.
