(** Proofs about conversions and predicates with limb counts kept in [int]. *)
From Verif Require Import Machine Facts Spec AddSubFacts SquMulFacts DivCoreFacts SpecFacts BigIntFacts
  CompareFacts ConvFacts SpecApi SpecGcd ShiftFacts WordFacts BigInt BarrettFacts RunExact LeakyModPow SpecActual ActualFacts
  IntSizes SpecSizes IntSizesFacts IntLimbs SpecLimbs IntLimbsFacts
  CalcDivRem BigIntDouble SpecDouble DoubleFacts SpecHelpers HelperFacts SpecPyRun PyRunFacts IntConv SpecIntConv.
Ltac Zify.zify_post_hook ::= idtac.

Lemma limb_at_nth x l i : limbs l -> val l = Z.abs x -> 0 <= i < Z.of_nat (length l) ->
  limb_at x i = nth (Z.to_nat i) l 0.
Proof.
  intros Hl Hv Hi. unfold limb_at. rewrite <- Hv. set (k := Z.to_nat i).
  replace (2 ^ (32 * i)) with (Bp k) by (rewrite Bp_pow2; unfold k; now rewrite Z2Nat.id by lia).
  pose proof (Bp_pos k) as P. pose proof (vl_bound l k Hl) as B.
  rewrite (val_split l k) by (unfold k; lia). rewrite (skipn_nth l k) by (unfold k; lia). cbn [val].
  replace (vl l k + Bp k * (nth k l 0 + W32 * val (skipn (S k) l)))
    with (vl l k + (nth k l 0 + W32 * val (skipn (S k) l)) * Bp k) by ring.
  rewrite Z.div_add, Z.div_small, Z.add_0_l by lia. change (2 ^ 32) with W32.
  rewrite Z.mul_comm, Z.mod_add by easy. apply Z.mod_small. apply (limbs_nth l k Hl).
Qed.

Lemma rdz_nth (l : list Z) i : 0 <= i < Z.of_nat (length l) -> rdz l i = Ret (nth (Z.to_nat i) l 0).
Proof.
  intros H. unfold rdz. rewrite (proj2 (Z.ltb_ge i 0)) by lia. apply rd_ok. lia.
Qed.
Lemma rdz_neg (l : list Z) i : i < 0 -> rdz l i = Undef OutOfBounds.
Proof. intros H. unfold rdz. now rewrite (proj2 (Z.ltb_lt i 0)) by lia. Qed.

Lemma one_bit_land h : 0 <= h < W32 -> (Z.land h (u32 (h - 1)) =? 0) = one_bit h.
Proof.
  intros H. unfold one_bit. destruct (Z.eqb_spec h 0) as [->|N]; [reflexivity|]. cbn [orb].
  rewrite u32_small by lia. apply Bool.eq_true_iff_eq. rewrite !Z.eqb_eq. rewrite land_pow2 by lia. split.
  - intros (k & Hk & E). subst h. rewrite Z.log2_pow2 by lia. reflexivity.
  - intros E. exists (Z.log2 h). split; [apply Z.log2_nonneg|exact E].
Qed.

(** A long number: its sign and its limbs. *)
Lemma long_parts a x : represents a x -> 2147483648 <= Z.abs x ->
  exists s l, a = Big s l /\ (s = 1 \/ s = -1) /\ l <> [] /\ limbs l /\ top_nz l /\ val l = Z.abs x /\ s = Z.sgn x /\
    limbs_of x = Z.of_nat (length l).
Proof.
  intros Ha Hx. pose proof (limbs_of_length a x Ha) as L. apply represents_view in Ha.
  inversion Ha as [z Hz E1 E2|s l Hs Hne Hl Ht Hv E1 E2]; subst a x; cbn [bits_of] in L.
  - unfold INT_MIN, INT_MAX in Hz. lia.
  - exists s, l. assert (0 < val l) as P by (destruct Hs; subst s; lia).
    split; [reflexivity|]. split; [exact Hs|]. split; [exact Hne|]. split; [exact Hl|]. split; [exact Ht|].
    destruct Hs; subst s; (split; [lia|]; split; [|destruct l; [congruence|cbn [length] in *; lia]]);
      [rewrite Z.sgn_pos by lia|rewrite Z.sgn_neg by lia]; reflexivity.
Qed.
Lemma short_parts a x : represents a x -> Z.abs x < 2147483648 -> a = Big x [].
Proof.
  intros Ha Hx. apply represents_view in Ha. inversion Ha as [z Hz E1 E2|s l Hs Hne Hl Ht Hv E1 E2]; subst; [reflexivity|].
  unfold INT_MIN, INT_MAX in *. destruct Hs; subst s; lia.
Qed.

Lemma int_length x (l : list Z) : limbs_of x = Z.of_nat (length l) -> int_limbs x = s32 (Z.of_nat (length l)).
Proof. intros E. unfold int_limbs. now rewrite int_of_s32, E. Qed.

(** The index at which the top limb is read. *)
Lemma top_read c x l : limbs l -> val l = Z.abs x -> limbs_of x = Z.of_nat (length l) ->
  (i <- chk32 c (s32 (Z.of_nat (length l)) - 1) ;; h <- rdz l i ;; Ret (i, h)) =
  (i <- top_index c x ;; Ret (i, limb_at x i)) /\
  (forall i, top_index c x = Ret i -> 0 <= i < Z.of_nat (length l) /\ i <= 2147483647 /\ chk32 c (s32 (Z.of_nat (length l)) - 1) = Ret i
     /\ rdz l i = Ret (limb_at x i) /\ limb 0 /\ limb (limb_at x i) /\
     ((0 < int_limbs x /\ i = int_limbs x - 1) \/ (int_limbs x = -2147483648 /\ i = 2147483647 /\ strict c = false))).
Proof.
  intros Hl Hv HL. pose proof (int_length x l HL) as EI. unfold top_index.
  pose proof (int_of_range (limbs_of x)) as IR. fold (int_limbs x) in IR. rewrite <- EI.
  destruct (visited_shape c (int_limbs x)) as [(v & EV)|EV]; rewrite EV; cbn [bind].
  - pose proof EV as VL. rewrite EI in VL. apply visited_le in VL as (VL1 & VL2).
    assert (exists i, chk32 c (int_limbs x - 1) = Ret i /\ (0 < v -> i = v - 1) /\ (v <= 0 -> i < 0)) as (i & -> & I1 & I2).
    { destruct (visited_cases c _ v IR EV) as [(-> & N)|(E & -> & S)].
      - exists (int_limbs x - 1). split; [apply chk32_in; unfold INT_MIN, INT_MAX; lia|]. lia.
      - exists 2147483647. rewrite E, chk32_wrap by (unfold INT_MIN; lia). rewrite S. split; [reflexivity|lia]. }
    cbn [bind]. destruct (Z.leb_spec v 0) as [V|V].
    + rewrite rdz_neg by auto. split; [reflexivity|]. discriminate.
    + rewrite (I1 V). rewrite rdz_nth by lia. cbn [bind]. rewrite (limb_at_nth x l) by (auto; lia).
      split; [reflexivity|]. intros i' E. injection E as <-. split; [lia|]. split; [lia|]. split; [reflexivity|].
      rewrite (limb_at_nth x l) by (auto; lia).
      split; [rewrite rdz_nth by lia; reflexivity|]. split; [unfold limb; num; lia|]. split; [apply limbs_nth, Hl|].
      destruct (visited_cases c _ v IR EV) as [(-> & N)|(E & -> & S)]; [left; lia|right; auto].
  - unfold visited in EV. change (- 2 ^ 31) with (-2147483648) in EV.
    destruct (Z.eqb_spec (int_limbs x) (-2147483648)) as [E|]; [|discriminate EV].
    destruct (strict c) eqn:S; [|discriminate EV]. rewrite E, chk32_wrap by (unfold INT_MIN; lia). rewrite S.
    split; [reflexivity|]. discriminate.
Qed.

Lemma top_index_shape c x : (exists i, top_index c x = Ret i) \/ (exists u, top_index c x = Undef u).
Proof.
  unfold top_index. destruct (visited_shape c (int_limbs x)) as [(v & ->)| ->]; cbn [bind]; [destruct (v <=? 0)|]; eauto.
Qed.

(** ** is_power_of_two *)

Theorem power_of_two_i_spec c a x : represents a x -> bi_is_power_of_two_i c a = power_of_two_any x.
Proof.
  intros Ha. unfold bi_is_power_of_two_i, power_of_two_any. rewrite (assert_valid_ok _ _ _ Ha). cbn [bind].
  change (2 ^ 31) with 2147483648. destruct (Z.ltb_spec (Z.abs x) 2147483648) as [S|S].
  { rewrite (short_parts a x Ha S). cbn [bits_of sign_of is_nil]. rewrite chk32_in by (unfold INT_MIN, INT_MAX; lia). cbn [bind].
    f_equal. destruct (Z.ltb_spec 0 x) as [P|P]; cbn [andb].
    - unfold one_bit. rewrite (proj2 (Z.eqb_neq x 0)) by lia. cbn [orb negb]. rewrite andb_true_r.
      apply Bool.eq_true_iff_eq. rewrite !Z.eqb_eq, land_pow2 by lia. split.
      + intros (k & Hk & E). rewrite E at 2. rewrite Z.log2_pow2 by lia. exact E.
      + intros E. exists (Z.log2 x). split; [apply Z.log2_nonneg|exact E].
    - destruct (Z.eqb_spec x 0) as [->|N]; [reflexivity|]. cbn [negb]. rewrite andb_true_r. apply Z.eqb_neq.
      assert (Z.land x (x - 1) < 0) by (apply Z.land_neg; lia). lia. }
  destruct (long_parts a x Ha S) as (s & l & -> & Hs & Hn & Hl & Ht & Hv & E & HL). cbn [bits_of sign_of].
  rewrite is_nil_ne by exact Hn.
  destruct (Z.ltb_spec x 0) as [N|N].
  { rewrite Z.sgn_neg in E by lia. subst s. reflexivity. }
  rewrite Z.sgn_pos in E by lia. subst s. change (negb (1 =? 1)) with false. cbv iota.
  rewrite HL, int_of_s32. set (i := s32 (Z.of_nat (length l) - 1)).
  assert (1 <= Z.of_nat (length l)) as L1 by (destruct l; [congruence|cbn [length]; lia]).
  destruct (Z.ltb_spec i 0) as [I|I]; [now rewrite rdz_neg|].
  assert (i <= Z.of_nat (length l) - 1) as I2.
  { unfold i in *. rewrite <- int_of_s32 in *. apply int_of_nonneg; lia. }
  rewrite rdz_nth by lia. cbn [bind]. rewrite (limb_at_nth x l) by (auto; lia).
  rewrite one_bit_land by (apply limbs_nth, Hl). rewrite (low_vl x l) by (auto; lia).
  destruct (one_bit _); cbn [negb andb]; [|reflexivity]. apply all_zero_below_spec; [exact Hl|lia].
Qed.

(** ** get_bit_length *)

Theorem bit_length_i_spec c a x : represents a x -> 2147483648 <= Z.abs x -> bi_bit_length_i c a = bit_length_any c x.
Proof.
  intros Ha S. unfold bi_bit_length_i, bit_length_any. rewrite (assert_valid_ok _ _ _ Ha). cbn [bind].
  destruct (long_parts a x Ha S) as (s & l & -> & Hs & Hn & Hl & Ht & Hv & E & HL). cbn [bits_of sign_of].
  rewrite is_nil_ne by exact Hn. destruct (top_read c x l Hl Hv HL) as (T1 & T2). cbv zeta.
  pose proof (int_of_range (limbs_of x)) as IR. fold (int_limbs x) in IR.
  rewrite <- (int_length x l HL) in *.
  destruct (top_index_shape c x) as [(i & EI)|(u & EI)]; rewrite EI in *; cbn [bind] in *.
  2:{ destruct (chk32 c (int_limbs x - 1)) as [i| | | |]; cbn [bind] in *; try congruence.
      destruct (rdz l i) as [h| | | |]; cbn [bind] in *; congruence. }
  destruct (T2 i eq_refl) as (I1 & I2 & -> & R & _ & B & K). cbn [bind]. rewrite R. cbn [bind]. clear T1 T2.
  set (h := limb_at x i) in *. rewrite leading_zeros_count_spec by exact B. cbn [bind].
  assert ((if h =? 0 then 32 else 31 - Z.log2 h) = zeros_before 32 h) as -> by (unfold zeros_before; destruct (h =? 0); lia).
  assert (0 <= zeros_before 32 h <= 32) as ZB.
  { unfold zeros_before. destruct (Z.eqb_spec h 0); [lia|]. unfold limb in B.
    assert (Z.log2 h < 32) by (apply Z.log2_lt_pow2; [lia|change (2 ^ 32) with W32; lia]). pose proof (Z.log2_nonneg h). lia. }
  rewrite chk64_ok by (num; lia). cbn [bind]. rewrite (Z.mul_comm (int_limbs x)).
  rewrite one_bit_land by exact B. change (u64 ?t) with (t mod 2 ^ 64).
  destruct (Z.ltb_spec x 0) as [N|N].
  - rewrite Z.sgn_neg in E by lia. subst s. change (0 <=? -1) with false. cbv iota. cbn [andb].
    destruct (one_bit h); cbn [negb andb]; [|reflexivity].
    assert (chk32 c (int_limbs x - 2) = Ret (i - 1)) as ->.
    { destruct K as [(K1 & ->)|(K1 & -> & K2)].
      - rewrite chk32_in by (unfold INT_MIN, INT_MAX; lia). f_equal. ring.
      - rewrite K1, chk32_wrap by (unfold INT_MIN; lia). now rewrite K2. }
    cbn [bind]. replace (i - 1 + 1) with i by ring. rewrite all_zero_below_spec by (auto; lia). cbn [bind].
    rewrite (low_vl x l) by (auto; lia). now destruct (_ =? 0).
  - rewrite Z.sgn_pos in E by lia. subst s. reflexivity.
Qed.

(** ** The integer conversions *)

Lemma low_one x a l : limbs (a :: l) -> val (a :: l) = Z.abs x -> low x 1 = a.
Proof.
  intros Hl Hv. rewrite (low_vl x (a :: l)) by (auto; cbn [length]; lia). change (Z.to_nat 1) with 1%nat.
  rewrite vl_S, vl_0, Bp_0. cbn [nth]. ring.
Qed.
Lemma low_two x a b l : limbs (a :: b :: l) -> val (a :: b :: l) = Z.abs x -> low x 2 = a + W32 * b.
Proof.
  intros Hl Hv. rewrite (low_vl x (a :: b :: l)) by (auto; cbn [length]; lia). change (Z.to_nat 2) with 2%nat.
  rewrite !vl_S, vl_0, Bp_0, Bp_1. cbn [nth]. ring.
Qed.

Lemma taken_read x l : l <> [] -> limbs l -> val l = Z.abs x -> limbs_of x = Z.of_nat (length l) ->
  0 <= taken x < W64 /\
  match l with [] => Ret 0 | b0 :: _ =>
    if 1 <? int_limbs x then b1 <- rd l 1 ;; Ret (Z.lor (u64 (Z.shiftl b1 kcbitUint)) b0) else Ret b0 end = Ret (taken x).
Proof.
  intros Hn Hl Hv HL. destruct l as [|a l]; [congruence|]. unfold taken.
  assert (limb a) as Ba by now inversion Hl.
  destruct (Z.ltb_spec 1 (int_limbs x)) as [G|G].
  - assert (2 <= limbs_of x) as L2.
    { unfold int_limbs in G. pose proof (int_of_nonneg (limbs_of x) ltac:(rewrite HL; lia) ltac:(lia)). lia. }
    destruct l as [|b l]; [cbn [length] in HL; lia|]. rewrite (low_two x a b l Hl Hv).
    assert (limb b) as Bb by (inversion Hl as [|? ? ? Hl']; now inversion Hl'). unfold limb in *.
    split; [num; lia|]. unfold rd. cbn [nth_error bind]. f_equal. apply lor_two; assumption.
  - rewrite (low_one x a l Hl Hv). unfold limb in Ba. split; [num; lia|reflexivity].
Qed.

Theorem to_long_i_spec c a x : represents a x -> bi_to_long_i c a = long_any c x.
Proof.
  intros Ha. unfold bi_to_long_i, long_any. change (2 ^ 31) with 2147483648. change (2 ^ 63) with 9223372036854775808.
  destruct (Z.ltb_spec (Z.abs x) 2147483648) as [S|S]; [now rewrite (short_parts a x Ha S)|].
  destruct (long_parts a x Ha S) as (s & l & -> & Hs & Hn & Hl & Ht & Hv & E & HL). cbn [bits_of sign_of].
  destruct (taken_read x l Hn Hl Hv HL) as (B & R). rewrite <- (int_length x l HL).
  destruct l as [|b0 l]; [congruence|]. cbv zeta. destruct (2 <? int_limbs x); [reflexivity|]. rewrite R. cbn [bind]. clear R.
  set (v := taken x) in *. clearbody v.
  assert ((s = 1 /\ 0 < x) \/ (s = -1 /\ x < 0)) as X.
  { destruct Hs as [Hs|Hs]; rewrite Hs in E; symmetry in E; [left; apply Z.sgn_pos_iff in E|right; apply Z.sgn_neg_iff in E]; auto. }
  destruct (Z.eqb_spec v 0) as [->|V0].
  { cbn [orb]. change (s64 0) with 0. destruct X as [(-> & X)|(-> & X)]; reflexivity. }
  cbn [orb]. destruct (Z.ltb_spec 9223372036854775808 v) as [G|G].
  { rewrite s64_hi by lia. destruct X as [(-> & X)|(-> & X)].
    - change (0 <? 1) with true. change (1 <? 0) with false. cbn [bind andb]. rewrite (proj2 (Z.ltb_ge 0 (v - W64))) by (num; lia).
      rewrite andb_false_r. reflexivity.
    - change (0 <? -1) with false. cbv iota. rewrite chk64_ok by (num; lia). cbn [bind]. rewrite andb_false_r.
      rewrite (proj2 (Z.ltb_ge (- (v - W64)) 0)) by (num; lia). reflexivity. }
  destruct (Z.eqb_spec v 9223372036854775808) as [->|V1].
  { destruct X as [(-> & X)|(-> & X)].
    - rewrite (proj2 (Z.ltb_lt 0 x)) by lia. reflexivity.
    - rewrite (proj2 (Z.ltb_ge 0 x)) by lia. change (0 <? -1) with false. cbv iota.
      change (- s64 9223372036854775808) with 9223372036854775808. rewrite chk64_min. destruct (strict c); reflexivity. }
  rewrite s64_lo by (num; lia). destruct X as [(-> & X)|(-> & X)].
  - change (0 <? 1) with true. cbn [bind]. rewrite (proj2 (Z.ltb_lt 0 v)) by lia. cbn [andb orb]. f_equal. rewrite <- E. ring.
  - change (0 <? -1) with false. cbv iota. rewrite chk64_ok by (num; lia). cbn [bind]. rewrite andb_false_r.
    rewrite (proj2 (Z.ltb_lt (- v) 0)) by lia. change (-1 <? 0) with true. cbn [andb orb]. f_equal. rewrite <- E. ring.
Qed.

Theorem to_ulong_i_spec c a x : represents a x -> bi_to_ulong_i c a = ulong_any x.
Proof.
  intros Ha. unfold bi_to_ulong_i, ulong_any. change (2 ^ 31) with 2147483648.
  destruct (Z.le_gt_cases 2147483648 (Z.abs x)) as [S|S].
  - destruct (long_parts a x Ha S) as (s & l & -> & Hs & Hn & Hl & Ht & Hv & E & HL). cbn [bits_of sign_of].
    destruct (taken_read x l Hn Hl Hv HL) as (B & R). rewrite <- (int_length x l HL).
    destruct l as [|b0 l]; [congruence|]. cbv zeta. 
    destruct (Z.ltb_spec x 0) as [N|N].
    + rewrite Z.sgn_neg in E by lia. subst s. change (-1 <? 0) with true. now rewrite orb_true_r.
    + rewrite Z.sgn_pos in E by lia. subst s. change (1 <? 0) with false. rewrite orb_false_r.
      rewrite (proj2 (Z.ltb_ge x 2147483648)) by lia. destruct (2 <? int_limbs x); [reflexivity|]. exact R.
  - rewrite (short_parts a x Ha S). cbn [bits_of sign_of]. destruct (Z.ltb_spec x 0); [reflexivity|].
    rewrite (proj2 (Z.ltb_lt x 2147483648)) by lia. rewrite u64_small by (num; lia). reflexivity.
Qed.

(** ** get_hash_code *)

Lemma limb_hash_low l s n : limbs l -> (n <= length l)%nat ->
  for_down n (fun iv hash => x <- rd l iv ;; Ret (s32 (combine_hash (u32 hash) (u32 (s32 x))))) s
  = Ret (limb_hash n (val l) s).
Proof.
  revert n. induction l as [|d t IH]; intros n H Hn.
  { cbn [length] in Hn. replace n with O by lia. reflexivity. }
  destruct n as [|n]; [reflexivity|]. cbn [length] in Hn.
  apply Forall_cons_iff in H as (Hd & Ht). rewrite for_down_last.
  cbn [val limb_hash]. change (2 ^ 32) with W32.
  assert ((d + W32 * val t) / W32 = val t) as -> by (rewrite Z.mul_comm, Z.div_add by easy; rewrite Z.div_small by exact Hd; lia).
  assert ((d + W32 * val t) mod W32 = d) as -> by (rewrite Z.mul_comm, Z.mod_add by easy; rewrite Z.mod_small by exact Hd; reflexivity).
  unfold rd in *. cbn [nth_error]. rewrite (IH n Ht) by lia. cbn [bind]. f_equal. rewrite int_of_s32. f_equal. unfold combine_hash.
  rewrite rotate_exact by apply u32_limb. f_equal.
  unfold s32, u32. cbv zeta. rewrite (Z.mod_small d) by exact Hd. destruct (Z.ltb_spec d 2147483648).
  - apply Z.mod_small, Hd.
  - change 4294967296 with W32. replace (d - W32) with (d + -1 * W32) by ring. rewrite Z.mod_add by easy. apply Z.mod_small, Hd.
Qed.

Theorem hash_i_spec c a x : represents a x -> bi_hash_i c a = hash_any c x.
Proof.
  intros Ha. unfold bi_hash_i, hash_any. change (2 ^ 31) with 2147483648.
  destruct (Z.ltb_spec (Z.abs x) 2147483648) as [S|S]; [now rewrite (short_parts a x Ha S)|].
  destruct (long_parts a x Ha S) as (s & l & -> & Hs & Hn & Hl & Ht & Hv & E & HL). cbn [bits_of sign_of].
  rewrite is_nil_ne by exact Hn. pose proof (int_length x l HL) as EI. rewrite <- EI.
  pose proof (int_of_range (limbs_of x)) as IR. fold (int_limbs x) in IR.
  destruct (visited_shape c (int_limbs x)) as [(v & EV)|EV]; rewrite EV; cbn [bind].
  - pose proof EV as VL. rewrite EI in VL. apply visited_le in VL as (VL1 & VL2).
    assert (exists i, chk32 c (int_limbs x - 1) = Ret i /\ i + 1 = v) as (i & -> & <-).
    { destruct (visited_cases c _ v IR EV) as [(-> & N)|(E' & -> & S')].
      - exists (int_limbs x - 1). split; [apply chk32_in; unfold INT_MIN, INT_MAX; lia|]. lia.
      - exists 2147483647. rewrite E', chk32_wrap by (unfold INT_MIN; lia). rewrite S'. split; [reflexivity|lia]. }
    cbn [bind]. rewrite <- Hv, E. apply limb_hash_low; [exact Hl|lia].
  - unfold visited in EV. change (- 2 ^ 31) with (-2147483648) in EV.
    destruct (Z.eqb_spec (int_limbs x) (-2147483648)) as [E'|]; [|discriminate EV].
    destruct (strict c) eqn:S'; [|discriminate EV]. rewrite E', chk32_wrap by (unfold INT_MIN; lia). now rewrite S'.
Qed.

(** ** operator double *)

Lemma rounded_again d (neg : bool) m e V j : 0 < V -> m = scaled V j -> Z.log2 m = Z.log2 V + j -> 63 <= Z.log2 m ->
  rounded_down d neg m e -> rounded_down d neg V (e + j).
Proof.
  intros HV Em El Hm. assert (m <> 0) as M0 by (intros ->; cbn in Hm; lia).
  unfold rounded_down. rewrite (proj2 (Z.eqb_neq m 0)), (proj2 (Z.eqb_neq V 0)) by lia. cbv zeta.
  replace (Z.log2 V + (e + j)) with (Z.log2 m + e) by lia.
  destruct (1024 <=? Z.log2 m + e); [auto|]. intros (A & B & C & D & E). repeat (split; [assumption|]).
  rewrite E, Em. rewrite scaled_down by lia. f_equal. ring.
Qed.

Lemma from_limbs s exp f : limbs f -> f <> [] -> top_nz f ->
  let h := nth (length f - 1) f 0 in
  let m := if Nat.ltb 1 (length f) then nth (length f - 2) f 0 else 0 in
  let lo := if Nat.ltb 2 (length f) then nth (length f - 3) f 0 else 0 in
  let z := cbit_high_zero32 (u32 h) in
  0 <= z < 32 /\
  exists d, (x1 <- shl64 h (32 + z) ;; x2 <- shl64 m z ;; x3 <- shr64 lo (32 - z) ;;
    get_double_from_parts s exp (Z.lor (Z.lor x1 x2) x3)) = Ret d /\
    rounded_down d (s <? 0) (val f) (exp - ((Z.of_nat (length f) - 2) * 32 - z)).
Proof.
  intros Hl Hn Ht. cbv zeta. pose proof (top64 f Hl Hn Ht) as (T1 & T2 & T3 & T4). revert T1 T2 T3 T4.
  pose proof (limbs_nth f (length f - 1) Hl) as Hh.
  rewrite (u32_small (nth (length f - 1) f 0)) by exact Hh. change (cbit_high_zero32 (nth (length f - 1) f 0)) with (leading_zeros (nth (length f - 1) f 0)).
  set (h := nth (length f - 1) f 0) in *. set (m := if Nat.ltb 1 (length f) then _ else 0). set (lo := if Nat.ltb 2 (length f) then _ else 0).
  set (z := leading_zeros h). set (e := (Z.of_nat (length f) - 2) * 32 - z).
  set (man := Z.lor (Z.lor (u64 (Z.shiftl h (32 + z))) (u64 (Z.shiftl m z))) (Z.shiftr lo (32 - z))).
  intros T1 T2 T3 T4. split; [exact T1|].
  unfold shl64. rewrite (proj2 (Z.leb_le 0 (32 + z))), (proj2 (Z.ltb_lt (32 + z) 64)) by lia. cbn [andb bind].
  rewrite (proj2 (Z.leb_le 0 z)), (proj2 (Z.ltb_lt z 64)) by lia. cbn [andb bind].
  unfold shr64. rewrite (proj2 (Z.leb_le 0 (32 - z))), (proj2 (Z.ltb_lt (32 - z) 64)) by lia. cbn [andb bind].
  fold man. clearbody man.
  destruct (from_parts_general s exp man) as (d & -> & R); [split; [|lia]; transitivity (2 ^ 63); [discriminate|lia]|].
  exists d. split; [reflexivity|].
  assert (Z.log2 man = 63) as LM by (apply Z.log2_unique; [lia|exact T2]).
  assert (0 < val f) as VP by (pose proof (top_nz_bound f Hl Hn Ht); pose proof (Bp_pos (length f - 1)); lia).
  replace (exp - e) with (exp + - e) by ring. apply (rounded_again d (s <? 0) man exp (val f) (- e)); [exact VP| |lia|lia|exact R].
  rewrite T4. unfold scaled. destruct (Z.leb_spec 0 e) as [P|P].
  - destruct (Z.leb_spec 0 (- e)) as [Q|Q]; [|now rewrite Z.opp_involutive].
    replace e with 0 by lia. change (- 0) with 0. change (2 ^ 0) with 1. now rewrite Z.div_1_r, Z.mul_1_r.
  - now rewrite (proj2 (Z.leb_le 0 (- e))) by lia.
Qed.

Theorem to_double_i_spec c a x : represents a x -> 2147483648 <= Z.abs x -> double_any c x (bi_to_double_i c a).
Proof.
  intros Ha S. unfold double_any, bi_to_double_i.
  destruct (long_parts a x Ha S) as (s & l & -> & Hs & Hn & Hl & Ht & Hv & E & HL). cbn [bits_of sign_of].
  rewrite is_nil_ne by exact Hn. pose proof (int_length x l HL) as EI. destruct (top_read c x l Hl Hv HL) as (T1 & T2).
  rewrite <- EI in *. cbv zeta.
  pose proof (int_of_range (limbs_of x)) as IR. fold (int_limbs x) in IR.
  assert ((s = 1 /\ 0 < x) \/ (s = -1 /\ x < 0)) as X.
  { destruct Hs as [Hs|Hs]; rewrite Hs in E; symmetry in E; [left; apply Z.sgn_pos_iff in E|right; apply Z.sgn_neg_iff in E]; auto. }
  assert ((s <? 0) = (x <? 0)) as SX.
  { destruct X as [(-> & X)|(-> & X)]; symmetry; [apply Z.ltb_ge; lia|apply Z.ltb_lt; lia]. }
  destruct (Z.ltb_spec 32 (int_limbs x)) as [G|G].
  { f_equal. rewrite <- SX. destruct X as [(-> & _)|(-> & _)]; reflexivity. }
  destruct (top_index_shape c x) as [(i & EX)|(u & EX)]; rewrite EX in *; cbn [bind] in *.
  2:{ destruct (chk32 c (int_limbs x - 1)) as [i| | | |]; cbn [bind] in *; try congruence.
      destruct (rdz l i) as [h| | | |]; cbn [bind] in *; congruence. }
  destruct (T2 i eq_refl) as (I1 & I2 & -> & R & _ & B & K). cbn [bind]. rewrite R. cbn [bind]. clear T1 T2 EX.
  destruct K as [(K1 & K2)|(K1 & K2 & K3)].
  - rewrite (proj2 (Z.ltb_lt 0 (int_limbs x))) by lia. set (r := int_limbs x) in *. clearbody r. subst i.
    assert (limb_at x (r - 1) = nth (Z.to_nat r - 1) l 0) as LA.
    { rewrite (limb_at_nth x l) by (auto; lia). f_equal. lia. }
    rewrite (chk32_in c (r - 2)) by (unfold INT_MIN, INT_MAX; lia). 
    assert (exists m, (if 1 <? r then rdz l (r - 2) else Ret 0) = Ret m /\
      m = if Nat.ltb 1 (Z.to_nat r) then nth (Z.to_nat r - 2) l 0 else 0) as (m & -> & Em).
    { destruct (Z.ltb_spec 1 r) as [Q|Q].
      - rewrite rdz_nth by lia. eexists. split; [reflexivity|]. rewrite (proj2 (Nat.ltb_lt 1 _)) by lia. f_equal. lia.
      - exists 0. split; [reflexivity|]. now rewrite (proj2 (Nat.ltb_ge 1 _)) by lia. }
    cbn [bind].
    assert (exists m, (if 2 <? r then rdz l (r - 3) else Ret 0) = Ret m /\
      m = if Nat.ltb 2 (Z.to_nat r) then nth (Z.to_nat r - 3) l 0 else 0) as (lo & -> & Elo).
    { destruct (Z.ltb_spec 2 r) as [Q|Q].
      - rewrite rdz_nth by lia. eexists. split; [reflexivity|]. rewrite (proj2 (Nat.ltb_lt 2 _)) by lia. f_equal. lia.
      - exists 0. split; [reflexivity|]. now rewrite (proj2 (Nat.ltb_ge 2 _)) by lia. }
    cbn [bind]. rewrite chk32_in by (unfold INT_MIN, INT_MAX; lia). cbn [bind].
    destruct (Z.eqb_spec (limb_at x (r - 1)) 0) as [Z0|Z0].
    { rewrite Z0. change (cbit_high_zero32 (u32 0)) with 32. rewrite chk32_in by (unfold INT_MIN, INT_MAX; lia). reflexivity. }
    set (f := firstn (Z.to_nat r) l).
    assert (length f = Z.to_nat r) as Lf by (unfold f; rewrite firstn_length; lia).
    assert (forall k, (k < Z.to_nat r)%nat -> nth k f 0 = nth k l 0) as Nf.
    { intros k Hk. unfold f. rewrite <- (firstn_skipn (Z.to_nat r) l) at 2. rewrite app_nth1; [reflexivity|]. fold f. lia. }
    assert (limbs f) as Hf by (apply limbs_firstn, Hl).
    assert (top_nz f) as Tf by (unfold top_nz; rewrite Lf, Nf by lia; now rewrite <- LA).
    assert (f <> []) as Nnil by (intros Q; rewrite Q in Lf; cbn [length] in Lf; lia).
    destruct (from_limbs s ((r - 2) * 32 - cbit_high_zero32 (u32 (limb_at x (r - 1)))) f Hf Nnil Tf) as (B1 & d & Ed & Rd).
    rewrite Lf in *.
    rewrite (Nf (Z.to_nat r - 1)%nat), <- LA in * by lia.
    rewrite chk32_in by (unfold INT_MIN, INT_MAX; lia). cbn [bind].
    assert (m = if Nat.ltb 1 (Z.to_nat r) then nth (Z.to_nat r - 2) f 0 else 0) as Em'.
    { rewrite Em. destruct (Nat.ltb_spec 1 (Z.to_nat r)); [now rewrite Nf by lia|reflexivity]. }
    assert (lo = if Nat.ltb 2 (Z.to_nat r) then nth (Z.to_nat r - 3) f 0 else 0) as Elo'.
    { rewrite Elo. destruct (Nat.ltb_spec 2 (Z.to_nat r)); [now rewrite Nf by lia|reflexivity]. }
    rewrite <- Em', <- Elo' in Ed. exists d. split; [exact Ed|].
    rewrite Z2Nat.id in Rd by lia. rewrite Z.sub_diag in Rd. rewrite <- SX.
    rewrite (low_vl x l) by (auto; lia). replace (vl l (Z.to_nat r)) with (val f); [exact Rd|].
    reflexivity.
  - rewrite (proj2 (Z.ltb_ge 0 (int_limbs x))) by lia. rewrite K1.
    change (1 <? -2147483648) with false. change (2 <? -2147483648) with false. cbn [bind].
    rewrite (chk32_wrap c (-2147483648 - 2)) by (unfold INT_MIN; lia). rewrite K3. cbn [bind].
    change (s32 (-2147483648 - 2)) with 2147483646. rewrite (chk32_wrap c (2147483646 * 32)) by (unfold INT_MAX; lia).
    rewrite K3. cbn [bind]. change (s32 (2147483646 * 32)) with (-64).
    destruct (Z.eqb_spec (limb_at x i) 0) as [Z0|Z0].
    { rewrite Z0. change (cbit_high_zero32 (u32 0)) with 32. rewrite chk32_in by (unfold INT_MIN, INT_MAX; lia). reflexivity. }
    set (h := limb_at x i) in *. clearbody h.
    destruct (from_limbs s (-64 - cbit_high_zero32 (u32 h)) [h]) as (B1 & d & Ed & Rd);
      [constructor; [exact B|constructor]|discriminate|exact Z0|].
    cbn [length Nat.sub nth Nat.ltb Nat.leb] in B1, Ed, Rd. rewrite chk32_in by (unfold INT_MIN, INT_MAX; lia). cbn [bind].
    exists d. split; [exact Ed|]. rewrite <- SX. rewrite val1 in Rd.
    replace (-64 - cbit_high_zero32 (u32 h) - ((Z.of_nat 1 - 2) * 32 - cbit_high_zero32 (u32 h))) with (-32) in Rd by lia. exact Rd.
Qed.
