(** Proofs about right shifts of negative numbers with limb counts kept in [int],
    and shifts by any amount. *)
From Verif Require Import Machine Facts Spec AddSubFacts SquMulFacts DivCoreFacts SpecFacts BigIntFacts
  CompareFacts ConvFacts SpecApi SpecGcd ShiftFacts WordFacts BigInt BarrettFacts RunExact LeakyModPow SpecActual ActualFacts
  IntSizes SpecSizes IntSizesFacts IntLimbs SpecLimbs IntLimbsFacts IntShiftFacts.
Ltac Zify.zify_post_hook ::= idtac.

Lemma chk_width c r : -2147483648 <= r <= 2147483647 ->
  chk32 c (32 * r) = if strict c && ((67108864 <=? r) || (r <? -67108864)) then Undef SignedOverflow
                     else Ret (int_of (32 * r)).
Proof.
  intros R. rewrite int_of_s32.
  destruct (Z.leb_spec 67108864 r) as [H|H]; cbn [orb].
  - rewrite chk32_wrap by (unfold INT_MAX; lia). rewrite Bool.andb_true_r. reflexivity.
  - destruct (Z.ltb_spec r (-67108864)) as [G|G].
    + rewrite chk32_wrap by (unfold INT_MIN; lia). rewrite Bool.andb_true_r. reflexivity.
    + rewrite Bool.andb_false_r. rewrite chk32_in by (unfold INT_MIN, INT_MAX; lia). f_equal. symmetry.
      apply (s32_shifted _ _ 0); [ring|]. unfold INT_MIN, INT_MAX; lia.
Qed.

(** The lowest [k] limbs of the two's complement. *)
Lemma complement_low (t xd : list Z) x k : limbs t -> length t = length xd -> val t = Bp (length xd) - Z.abs x -> x < 0 ->
  (k <= length t)%nat -> vl t k = x mod 2 ^ (32 * Z.of_nat k).
Proof.
  intros Ht Hlen Hv Hx Hk. rewrite (vl_mod t k (length t)) by auto. rewrite vl_all, Hv, Z.abs_neq by lia.
  rewrite <- Bp_pow2. replace (length xd) with ((length xd - k) + k)%nat by lia. rewrite Bp_add.
  replace (Bp (length xd - k) * Bp k - - x) with (x + Bp (length xd - k) * Bp k) by ring.
  apply Z_mod_plus_full.
Qed.

Lemma shr_pos_i_neg c a x n : represents a x -> x < 0 -> 0 < n < 2147483648 ->
  denotes (bi_shr_pos_i c a n) (shr_any c x n).
Proof.
  intros Ha Hx Hn. unfold bi_shr_pos_i, shr_any. rewrite (proj2 (Z.leb_gt 0 x)) by exact Hx.
  destruct (parts_int c a x Ha) as (xd & -> & Hl & Hv & Hr & Hlen). cbn [bind].
  rewrite (proj2 (Z.ltb_lt x 0)) by exact Hx. cbn [bind andb]. rewrite Hr. cbv zeta.
  set (r := int_limbs x) in *. pose proof (int_of_range (limbs_of x)) as R. fold (int_limbs x) in R. fold r in R.
  assert (r <= Z.of_nat (length xd)) as Lr.
  { unfold r, int_limbs in *. pose proof (int_of_le (limbs_of x) ltac:(lia)). lia. }
  pose proof (quot_32 n Hn) as Q. unfold kcbitUint. set (d := n / 32) in *.
  rewrite chk_width by exact R. change (- 2 ^ 26) with (-67108864). change (2 ^ 26) with 67108864.
  destruct (strict c && ((67108864 <=? r) || (r <? -67108864))) eqn:Ew; [reflexivity|]. cbn [bind].
  destruct (Z.leb_spec (int_of (32 * r)) n) as [He|He].
  { cbn [denotes]. exists s_bnMinusOneInt. split; [reflexivity|]. apply repr_minus_one. }
  assert (n - d * 32 = n mod 32) as ->.
  { pose proof (Z.div_mod n 32 ltac:(lia)) as D. fold d in D. lia. }
  pose proof (Z.mod_pos_bound n 32 ltac:(lia)) as M. set (sm := n mod 32) in *.
  assert (n = 32 * d + sm) as En by (apply Z.div_mod; lia).
  assert (2 ^ n = Bp (Z.to_nat d) * 2 ^ sm) as Epow.
  { rewrite Bp_pow2, Z2Nat.id, <- Z.pow_add_r by lia. f_equal. lia. }
  assert (r <> -2147483648) as Rmin by (intros E; rewrite E in He; change (int_of (32 * -2147483648)) with 0 in He; lia).
  destruct (wp_inv _ _ (make_twos_complement_spec xd Hl)) as (t & -> & T1 & T2 & T3). cbn [bind].
  rewrite (proj2 (Z.eqb_neq (val xd) 0)), Hv in T3 by lia.
  rewrite (chk32_in c (r - 1)) by (unfold INT_MIN, INT_MAX; lia).
  destruct (Z.ltb_spec r 0) as [N|N].
  - assert (strict c = false) as Es.
    { destruct (strict c) eqn:Es; [exfalso|reflexivity]. cbn [andb] in Ew. apply Bool.orb_false_iff in Ew as (_ & Ew).
      apply Z.ltb_ge in Ew. rewrite int_of_small in He by lia. lia. }
    assert (exists zl, chk32 c (r - d) = Ret zl) as (zl & ->).
    { unfold chk32. rewrite Es. match goal with |- context [if ?b then _ else _] => destruct b end; eexists; reflexivity. }
    cbn [bind]. replace (Z.to_nat (r - 1 + 1 - d)) with O by lia.
    pose proof (shr_none t (Z.to_nat d) sm true (r - 1) (Z.to_nat zl)) as Nn. unfold kcbitUint in Nn.
    cbn [andb] in Nn. cbv zeta in Nn. rewrite Nn. cbn [bind denotes].
    destruct (wp_inv _ _ (make_twos_complement_spec (zeros (Z.to_nat zl)) (limbs_zeros _))) as (z & -> & Z1 & Z2 & Z3).
    rewrite val_zeros in Z3. cbn [bind]. apply returns_wp. apply mag_result; [exact Z2|]. rewrite Z3. reflexivity.
  - assert (int_of (32 * r) <= 32 * r) as I1 by (apply int_of_le; lia).
    assert (d < r) as Dr by lia.
    rewrite (chk32_in c (r - d)) by (unfold INT_MIN, INT_MAX; lia). cbn [bind].
    replace (r - 1 + 1 - d) with (r - d) by ring. rewrite nat_sub_z by lia.
    set (k := Z.to_nat r) in *. set (ds := Z.to_nat d) in *.
    destruct (shr_loops t k ds sm true (r - 1) T2 ltac:(lia) ltac:(lia) M ltac:(lia)) as (zd & E & A & B & C).
    unfold kcbitUint in E. cbn [andb] in E. cbv zeta in E. rewrite E. cbn [bind andb]. clear E.
    destruct (wp_inv _ _ (make_twos_complement_spec zd B)) as (z & -> & Z1 & Z2 & Z3). cbn [bind].
    rewrite (complement_low t xd x k T2 T1 T3 Hx ltac:(lia)) in C. replace (Z.of_nat k) with r in C by lia.
    rewrite <- Epow in C. rewrite (proj2 (Nat.eqb_neq (k - ds) 0)) in C by lia. rewrite A in Z3.
    pose proof (Z.mod_pos_bound x (2 ^ (32 * r)) ltac:(apply pow2_pos; lia)) as Hm.
    set (m := x mod 2 ^ (32 * r)) in *. pose proof (pow2_pos n ltac:(lia)) as P2.
    assert (0 <= m / 2 ^ n) as Hq by (apply Z.div_pos; lia).
    assert (2 ^ (32 * r) = Bp (k - ds) * Bp ds) as EB.
    { rewrite <- Bp_add, Bp_pow2. f_equal. lia. }
    cbn [negb andb] in C. destruct (Z.eqb_spec sm 0) as [E0|E0]; cbn [negb andb] in *.
    + rewrite Z.add_0_r in C. assert (2 ^ n = Bp ds) as E2 by (rewrite Epow, E0; change (2 ^ 0) with 1; ring).
      destruct (Z.ltb_spec m (2 ^ n)) as [G|G].
      * rewrite (Z.div_small m) in C by lia. rewrite C in Z3. rewrite Z.eqb_refl in Z3. cbn [denotes].
        apply returns_wp. apply mag_result; [exact Z2|]. rewrite Z3. reflexivity.
      * assert (1 <= m / 2 ^ n) by (apply Z.div_le_lower_bound; lia).
        rewrite (proj2 (Z.eqb_neq (val zd) 0)) in Z3 by lia. cbn [denotes].
        apply returns_wp. apply mag_result; [exact Z2|]. rewrite Z3, C, EB, <- E2.
        replace (m - Bp (k - ds) * 2 ^ n) with (m + - Bp (k - ds) * 2 ^ n) by ring.
        rewrite Z.div_add by lia. ring.
    + set (N' := 2 ^ (32 - sm) * Bp (k - ds - 1)) in *.
      assert (0 < N') as HN0.
      { unfold N'. apply Z.mul_pos_pos; [apply pow2_pos; lia|apply Bp_pos]. }
      assert (N' * 2 ^ sm = Bp (k - ds)) as HN.
      { unfold N'. replace (k - ds)%nat with (S (k - ds - 1)) at 2 by lia. rewrite Bp_S.
        replace W32 with (2 ^ (32 - sm) * 2 ^ sm); [ring|].
        rewrite <- Z.pow_add_r by lia. replace (32 - sm + sm) with 32 by lia. reflexivity. }
      assert (2 <= 2 ^ sm) as Hsm2.
      { pose proof (Z.pow_le_mono_r 2 1 sm ltac:(lia) ltac:(lia)) as P. exact P. }
      assert (1 * N' <= (2 ^ sm - 1) * N') by (apply Z.mul_le_mono_nonneg_r; lia).
      rewrite (proj2 (Z.eqb_neq (val zd) 0)) in Z3 by lia. cbn [denotes].
      apply returns_wp. apply mag_result; [exact Z2|]. rewrite Z3, C, EB, <- HN.
      replace (m - N' * 2 ^ sm * Bp ds) with (m + - N' * 2 ^ n) by (rewrite Epow; ring).
      rewrite Z.div_add by lia. ring.
Qed.

Lemma shr_pos_i_spec c a x n : represents a x -> 0 < n < 2147483648 ->
  denotes (bi_shr_pos_i c a n) (shr_any c x n).
Proof.
  intros Ha Hn. destruct (Z.lt_ge_cases x 0); [now apply shr_pos_i_neg|]. apply shr_pos_i_nonneg; auto; lia.
Qed.

Lemma denotes_bind o (z : outcome Z) (f : bigint -> outcome bigint) (g : Z -> outcome Z) :
  denotes o z -> (forall b v, represents b v -> denotes (f b) (g v)) -> denotes (bind o f) (bind z g).
Proof.
  intros H K. destruct z as [v| | | |]; cbn [denotes] in H; try (subst o; reflexivity).
  destruct H as (b & -> & Hb). cbn [bind]. now apply K.
Qed.

Lemma shl_i_spec c a x n : represents a x -> -2147483648 <= n < 2147483648 ->
  sized_denotes (bi_shl_i c a n) (left_any c x n).
Proof.
  intros Ha Hn. unfold bi_shl_i, left_any. change (- 2 ^ 31) with INT_MIN. change (2 ^ 31 - 1) with INT_MAX.
  destruct (Z.eqb_spec n 0) as [E|E]; [exists a; auto|].
  destruct (Z.eqb_spec n INT_MIN) as [G|G].
  { cbn [sized_denotes]. apply denotes_bind; [apply shr_pos_i_spec; [exact Ha|unfold INT_MAX; lia]|].
    intros b v Hb. apply shr_pos_i_spec; [exact Hb|lia]. }
  unfold INT_MIN in G. destruct (Z.ltb_spec n 0); [apply shr_pos_i_spec; [exact Ha|lia]|apply shl_pos_i_spec; [exact Ha|lia]].
Qed.

Lemma shr_i_spec c a x n : represents a x -> -2147483648 <= n < 2147483648 ->
  sized_denotes (bi_shr_i c a n) (right_any c x n).
Proof.
  intros Ha Hn. unfold bi_shr_i, right_any. change (- 2 ^ 31) with INT_MIN. change (2 ^ 31 - 1) with INT_MAX.
  destruct (Z.eqb_spec n 0) as [E|E]; [exists a; auto|].
  destruct (Z.eqb_spec n INT_MIN) as [G|G].
  { pose proof (shl_pos_i_spec c a x INT_MAX Ha ltac:(unfold INT_MAX; lia)) as H.
    destruct (shl_any c x INT_MAX) as [z|], (bi_shl_pos_i c a INT_MAX) as [o|]; cbn [sized_denotes] in H; try tauto.
    destruct z as [v| | | |]; cbn [denotes] in H; try (subst o; reflexivity).
    destruct H as (b & -> & Hb). apply shl_pos_i_spec; [exact Hb|lia]. }
  unfold INT_MIN in G. destruct (Z.ltb_spec n 0); [apply shl_pos_i_spec; [exact Ha|lia]|apply shr_pos_i_spec; [exact Ha|lia]].
Qed.
