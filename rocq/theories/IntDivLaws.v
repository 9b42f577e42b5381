(** Laws of division with lengths kept in [int]. *)
From Verif Require Import Machine Facts Spec AddSubFacts SquMulFacts DivRemFacts DivCoreFacts SpecFacts BigIntFacts
  CompareFacts ConvFacts SpecApi SpecGcd ShiftFacts WordFacts BigInt CalcDivRem ArithLaws BarrettFacts RunExact LeakyModPow SpecActual ActualFacts
  IntSizes SpecSizes IntSizesFacts IntLimbs SpecLimbs IntLimbsFacts IntLimbsLaws IntConvFacts BytesFacts IntAdd SpecIntAdd IntAddFacts
  IntAddLaws IntTextLaws IntDiv SpecIntDiv IntDivFacts.
Ltac Zify.zify_post_hook ::= idtac.

(** ** div_rem *)
Theorem div_rem_any_holds c a b x y : represents a x -> represents b y -> div_rem_any c x y (bi_div_rem_i c a b).
Proof.
  intros Ha Hb. unfold div_rem_any. change (2 ^ 31) with 2147483648. cbv zeta.
  destruct (Z.ltb_spec (Z.abs x) 2147483648) as [X|X].
  { assert (bi_div_rem_i c a b = bi_div_rem c a b) as ->.
    { rewrite (short_parts _ _ Ha X). unfold bi_div_rem_i, bi_div_rem. cbn [bits_of is_nil andb]. now destruct (is_nil (bits_of b)). }
    destruct (Z.eqb_spec y 0) as [->|Y0]; [eapply bi_div_rem_zero; eauto|].
    apply (div_rem_call c a b x y Ha Hb Y0). change (- 2 ^ 31) with (-2147483648). lia. }
  unfold bi_div_rem_i. rewrite (valid_ok c a x Ha), (valid_ok c b y Hb). cbn [bind].
  destruct (long_parts a x Ha X) as (s & l & -> & Hs & N & Hl & Ht & Hv & Sx & LX). cbn [bits_of sign_of]. rewrite (nil_false l N). cbn [andb].
  assert ((s <? 0) = (x <? 0)) as -> by (destruct (Z.ltb_spec x 0); [apply Z.ltb_lt|apply Z.ltb_ge]; lia).
  destruct (Z.ltb_spec (Z.abs y) 2147483648) as [Y|Y].
  { rewrite (short_parts _ _ Hb Y). cbn [bits_of sign_of is_nil]. rewrite abs32_ok by (unfold INT_MIN, INT_MAX; lia). cbn [bind].
    destruct (seen_rounds x l N Hl Hv LX) as (-> & ->). rewrite (int_length _ _ LX). change (2 ^ 32) with W32.
    assert (forall q r, calc_divrem_u_i c l (Z.abs y) = Ret (q, r) -> length q = length l -> limbs q -> 0 <= r < W32 ->
      exists oq z, ('(bits, rest) <- calc_divrem_u_i c l (Z.abs y) ;;
          r <- bi_of_uint32 c (if x <? 0 then u32 (-1 * rest) else rest) ;;
          q <- bi_of_mag_i c bits (xorb (x <? 0) (y <? 0)) ;; Ret (q, r)) = (q <- oq ;; Ret (q, z)) /\
        held c (s32 (Z.of_nat (length l))) (xorb (x <? 0) (y <? 0)) (val q) oq /\ represents z (signed (x <? 0) r mod W32)) as K.
    { intros q r -> Lq Hq Br. cbn [bind].
      assert ((if x <? 0 then u32 (-1 * r) else r) = signed (x <? 0) r mod W32) as ->.
      { unfold signed. destruct (x <? 0); [unfold u32; f_equal; ring|]. symmetry. now apply Z.mod_small. }
      pose proof (Z.mod_pos_bound (signed (x <? 0) r) W32 ltac:(num; lia)) as B.
      assert (wp (bi_of_uint32 c (signed (x <? 0) r mod W32)) (fun z => represents z (signed (x <? 0) r mod W32))) as W
        by (apply bi_of_uint32_spec; unfold UINT_MAX; num; lia).
      apply wp_inv in W as (z & -> & Hz). cbn [bind]. exists (bi_of_mag_i c q (xorb (x <? 0) (y <? 0))), z. split; [reflexivity|].
      split; [rewrite <- Lq; now apply of_mag_held|exact Hz]. }
    destruct (Z.eqb_spec y 0) as [->|Y0]; cbn [andb].
    - change (Z.abs 0) with 0 in *. rewrite calc_divrem_u_i_zero in * by exact N.
      destruct (Nat.ltb_spec 0 (rounds_i l)) as [P|P]; [reflexivity|].
      destruct (K _ _ eq_refl (length_zeros _) (limbs_zeros _) ltac:(num; lia)) as (oq & z & K1 & K2 & K3).
      exists oq, z. split; [exact K1|]. rewrite Zdiv_0_r. rewrite val_zeros in K2. split; [exact K2|].
      replace (rounds_i l) with O by lia. exact K3.
    - assert (limb (Z.abs y)) as Ly by (unfold limb; num; lia).
      pose proof (calc_divrem_u_i_spec c l (Z.abs y) N Hl Ly ltac:(lia)) as W.
      apply wp_inv in W as ([q r] & E & Lq & Hq & Br & D).
      destruct (K q r E Lq Hq ltac:(unfold limb in Ly; lia)) as (oq & z & K1 & K2 & K3). exists oq, z. split; [exact K1|].
      assert (val q = vl l (rounds_i l) / Z.abs y) as <- by (apply Z.div_unique with r; [left; exact Br|rewrite D; ring]).
      assert (r = vl l (rounds_i l) mod Z.abs y) as <- by (apply Z.mod_unique with (val q); [left; exact Br|rewrite D; ring]).
      split; [exact K2|exact K3]. }
  destruct (long_parts b y Hb Y) as (s' & l' & -> & Hs' & N' & Hl' & Ht' & Hv' & Sy & LY). cbn [bits_of sign_of]. rewrite (nil_false l' N').
  assert ((s' <? 0) = (y <? 0)) as -> by (destruct (Z.ltb_spec y 0); [apply Z.ltb_lt|apply Z.ltb_ge]; lia).
  rewrite LX, LY. destruct (Nat.ltb_spec (length l) (length l')) as [G|G].
  { rewrite (proj2 (Z.ltb_lt _ _)) by lia.
    assert (wp (bi_of_int32 c 0) (fun z => represents z 0)) as W by (apply bi_of_int32_spec; num; lia).
    apply wp_inv in W as (z & -> & Hz). exists z, (Big s l). auto. }
  rewrite (proj2 (Z.ltb_ge _ _)) by lia. apply (by_long_case c x y l l'); auto.
  unfold calc_divrem_i. rewrite arrays_asserted by assumption. cbv zeta.
  pose proof (core_i_spec c l l' (zeros (length l - length l' + 1)) _ Hl Hl' G (or_intror (conj eq_refl eq_refl))) as K. cbv zeta in K.
  rewrite bind_assoc. eapply long_case_bind; [|exact K]. clear K. intros K.
  apply wp_inv in K as ([l1 b1] & E & K1 & K2 & K3 & K4).
  rewrite E. cbn [bind]. destruct (K4 (zeros_some _)) as (K5 & K6 & K7). rewrite length_zeros in K5.
  exists (bi_of_mag_i c b1 (xorb (x <? 0) (y <? 0))), (bi_of_mag_i c l1 (x <? 0)). split; [reflexivity|]. split.
  - replace (Z.of_nat (length l) - Z.of_nat (length l') + 1) with (Z.of_nat (length b1)) by (rewrite K5; lia). rewrite int_of_s32.
    replace (part_quotient x y) with (val b1); [now apply of_mag_held|]. rewrite K7. unfold part_quotient.
    rewrite (int_length _ _ LX), (int_length _ _ LY).
    rewrite (low_vl_all y l' _ Hl' Hv'), (low_vl_all x l _ Hl Hv) by (rewrite <- int_of_s32; apply int_of_le; lia). reflexivity.
  - rewrite (int_length _ _ LX), <- K1.
    replace (part_remainder x y) with (val l1); [now apply of_mag_held|]. rewrite K3. unfold part_remainder.
    rewrite (int_length _ _ LX), (int_length _ _ LY).
    rewrite (low_vl_all y l' _ Hl' Hv'), (low_vl_all x l _ Hl Hv), Hv by (rewrite <- int_of_s32; apply int_of_le; lia). reflexivity.
Qed.

(** ** Sizes that fit *)
Lemma signed_quot x y : y <> 0 -> signed (xorb (x <? 0) (y <? 0)) (Z.abs x / Z.abs y) = Z.quot x y.
Proof.
  intros H. rewrite <- Z.quot_div_nonneg by lia. unfold signed.
  destruct (Z.ltb_spec x 0), (Z.ltb_spec y 0); cbn [xorb].
  - rewrite !Z.abs_neq by lia. now apply Z.quot_opp_opp.
  - rewrite (Z.abs_neq x), (Z.abs_eq y) by lia. rewrite Z.quot_opp_l by lia. ring.
  - rewrite (Z.abs_eq x), (Z.abs_neq y) by lia. rewrite Z.quot_opp_r by lia. ring.
  - rewrite !Z.abs_eq by lia. reflexivity.
Qed.
Lemma signed_rem x y : y <> 0 -> signed (x <? 0) (Z.abs x mod Z.abs y) = Z.rem x y.
Proof.
  intros H. rewrite <- Z.rem_mod_nonneg by lia. unfold signed. rewrite Z.rem_abs_r by lia.
  destruct (Z.ltb_spec x 0); [rewrite Z.abs_neq by lia; rewrite Z.rem_opp_l by lia; ring|now rewrite Z.abs_eq by lia].
Qed.

Lemma seen_all x : limbs_of x <= 2147483648 -> seen x = limbs_of x /\ low x (seen x) = Z.abs x.
Proof.
  intros H. destruct (limbs_bound x) as (P & _). unfold seen. rewrite int_of_small by lia.
  replace (limbs_of x - 1 + 1) with (limbs_of x) by ring. split; [reflexivity|]. apply low_all. lia.
Qed.

Lemma div_room x y : 2147483648 <= Z.abs y -> limbs_of y <= limbs_of x ->
  0 <= Z.abs x / Z.abs y < 2 ^ (32 * (limbs_of x - limbs_of y + 1)).
Proof.
  intros Y L. destruct (limbs_bound x) as (Px & Bx). destruct (limbs_bound y) as (Py & By).
  split; [apply Z.div_pos; lia|]. apply Z.div_lt_upper_bound; [lia|].
  assert (2 ^ (32 * (limbs_of y - 1)) <= Z.abs y) as D.
  { destruct (Z.eq_dec (limbs_of y) 1) as [->|]; [change (2 ^ (32 * (1 - 1))) with 1; lia|]. apply limbs_at_least; lia. }
  replace (32 * limbs_of x) with (32 * (limbs_of y - 1) + 32 * (limbs_of x - limbs_of y + 1)) in Bx by ring.
  rewrite Z.pow_add_r in Bx by lia. pose proof (pow2_pos (32 * (limbs_of x - limbs_of y + 1)) ltac:(lia)). nia.
Qed.

Theorem div_i_fits c a b x y : represents a x -> represents b y -> limbs_of x < 2 ^ 31 ->
  (y <> 0 -> returns (bi_div_i c a b) (Z.quot x y) /\ returns (bi_rem_i c a b) (Z.rem x y)) /\
  (y = 0 -> bi_div_i c a b = Throw DivideByZero /\ bi_rem_i c a b = Throw DivideByZero /\ bi_div_rem_i c a b = Throw DivideByZero).
Proof.
  change (2 ^ 31) with 2147483648. intros Ha Hb Hx. pose proof (quotient_any_holds c a b x y Ha Hb) as Q.
  pose proof (remainder_any_holds c a b x y Ha Hb) as R. pose proof (div_rem_any_holds c a b x y Ha Hb) as D.
  unfold quotient_any in Q. unfold remainder_any in R. unfold div_rem_any in D. change (2 ^ 31) with 2147483648 in *.
  destruct (Z.ltb_spec (Z.abs x) 2147483648) as [X|X].
  { destruct (Z.eqb_spec y 0) as [->|Y0]; split; intros; try contradiction; auto. }
  destruct (limbs_bound x) as (Px & Bx). destruct (seen_all x ltac:(lia)) as (S1 & S2). rewrite S2 in *. rewrite S1 in *.
  rewrite (int_limbs_small x Hx) in *.
  destruct (Z.ltb_spec (Z.abs y) 2147483648) as [Y|Y].
  { destruct (Z.eqb_spec y 0) as [->|Y0].
    - rewrite (proj2 (Z.ltb_lt 0 _)) in * by lia. cbn [andb] in *. split; intros; [contradiction|]. auto.
    - cbn [andb] in *. split; [|contradiction]. intros _. split.
      + rewrite <- signed_quot by exact Y0. apply (held_exact c (limbs_of x)); [|exact Q]. left. split; [lia|].
        split; [apply Z.div_pos; lia|]. apply Z.div_lt_upper_bound; [lia|]. nia.
      + rewrite <- signed_rem by exact Y0. exact R. }
  split; [|intros ->; cbn in Y; lia]. intros Y0.
  destruct (Z.ltb_spec (limbs_of x) (limbs_of y)) as [G|G].
  { pose proof (limbs_less x y G). replace (Z.quot x y) with 0 by (symmetry; apply Z.quot_small_iff; lia).
    replace (Z.rem x y) with x by (symmetry; apply Z.rem_small_iff; lia). auto. }
  destruct (limbs_bound y) as (Py & By).
  assert (forall A (o : outcome A) P, by_long c x y o P -> P) as K.
  { intros A o P H. unfold by_long in H. rewrite (int_limbs_small x Hx), (int_limbs_small y ltac:(lia)) in H.
    rewrite (proj2 (Z.ltb_ge (limbs_of x) 1)), (proj2 (Z.ltb_ge (limbs_of y) 1)), (proj2 (Z.ltb_ge (limbs_of x) (limbs_of y))) in H by lia.
    rewrite Bool.andb_false_r in H. change (- 2 ^ 31) with (-2147483648) in H. rewrite (proj2 (Z.eqb_neq (limbs_of y) _)) in H by lia.
    rewrite low_all in H by lia. rewrite (proj2 (Z.ltb_ge (Z.abs y) _)) in H; [exact H|].
    destruct (Z.eq_dec (limbs_of y) 1) as [->|]; [change (2 ^ (32 * (1 - 1))) with 1; lia|]. apply limbs_at_least; lia. }
  apply K in Q. apply K in R. unfold part_quotient in Q. unfold part_remainder in R.
  rewrite (int_limbs_small x Hx), (int_limbs_small y ltac:(lia)) in *. rewrite (proj2 (Z.ltb_ge (limbs_of x) (limbs_of y))) in * by lia.
  rewrite !low_all in * by lia. rewrite int_of_small in Q by lia. split.
  - rewrite <- signed_quot by exact Y0. apply (held_exact c (limbs_of x - limbs_of y + 1)); [|exact Q]. left. split; [lia|]. now apply div_room.
  - rewrite <- signed_rem by exact Y0. apply (held_exact c (limbs_of x)).
    + left. split; [lia|]. pose proof (Z.mod_pos_bound (Z.abs x) (Z.abs y) ltac:(lia)). pose proof (Z.mod_le (Z.abs x) (Z.abs y) ltac:(lia) ltac:(lia)). lia.
    + now replace (Z.abs x - Z.abs x + Z.abs x mod Z.abs y) with (Z.abs x mod Z.abs y) in R by ring.
Qed.

(** ** Sizes that do not *)
Theorem div_i_wide c a b x y : represents a x -> represents b y -> 2 ^ 31 < limbs_of x < 2 ^ 32 -> Z.abs y < 2 ^ 31 ->
  returns (bi_div_i c a b) (if xorb (x <? 0) (y <? 0) then -1 else 1) /\ returns (bi_rem_i c a b) 0.
Proof.
  change (2 ^ 31) with 2147483648. change (2 ^ 32) with 4294967296. intros Ha Hb Hx Hy. pose proof (quotient_any_holds c a b x y Ha Hb) as Q.
  pose proof (remainder_any_holds c a b x y Ha Hb) as R. unfold quotient_any in Q. unfold remainder_any in R.
  change (2 ^ 31) with 2147483648 in *. pose proof (limbs_two x ltac:(lia)) as X.
  rewrite (proj2 (Z.ltb_ge (Z.abs x) _)) in Q, R by lia. rewrite (proj2 (Z.ltb_lt (Z.abs y) _)) in Q, R by lia.
  assert (seen x <= 0) as S by (unfold seen; rewrite int_of_back by lia; lia).
  rewrite (proj2 (Z.ltb_ge 0 (seen x))) in Q, R by lia. rewrite Bool.andb_false_r in Q, R. rewrite (low_none x _ S) in Q, R.
  destruct (Z.eq_dec (Z.abs y) 0) as [E|E]; [rewrite E in Q, R; rewrite Zdiv_0_r in Q|rewrite Z.div_0_l in Q by exact E].
  all: (split; [apply (held_none c (int_limbs x)); [unfold int_limbs; rewrite int_of_back by lia; lia|exact Q]|]).
  - change (0 mod 0) with 0 in R. unfold signed in R. now destruct (x <? 0).
  - rewrite Z.mod_0_l in R by exact E. unfold signed in R. now destruct (x <? 0).
Qed.

Theorem div_i_wide_long c a b x y : represents a x -> represents b y -> 2 ^ 31 <= limbs_of x < 2 ^ 32 -> 2 ^ 31 <= Z.abs y -> limbs_of y < 2 ^ 31 ->
  if dbg c then bi_div_i c a b = AssertFail /\ bi_rem_i c a b = AssertFail
  else returns (bi_rem_i c a b) x /\
    returns (bi_div_i c a b) (if limbs_of x - limbs_of y + 1 <? 2 ^ 31 then 0 else if xorb (x <? 0) (y <? 0) then -1 else 1).
Proof.
  change (2 ^ 31) with 2147483648. change (2 ^ 32) with 4294967296. intros Ha Hb Hx Hy Ly. pose proof (quotient_any_holds c a b x y Ha Hb) as Q.
  pose proof (remainder_any_holds c a b x y Ha Hb) as R. unfold quotient_any in Q. unfold remainder_any in R.
  change (2 ^ 31) with 2147483648 in *. pose proof (limbs_two x ltac:(lia)) as X. destruct (limbs_bound y) as (Py & By).
  rewrite (proj2 (Z.ltb_ge (Z.abs x) _)) in Q, R by lia. rewrite (proj2 (Z.ltb_ge (Z.abs y) _)) in Q, R by lia.
  rewrite (proj2 (Z.ltb_ge (limbs_of x) _)) in Q, R by lia.
  assert (int_limbs x < 0) as NX by (unfold int_limbs; rewrite int_of_back by lia; lia).
  unfold by_long in Q, R. rewrite (int_limbs_small y Ly) in Q, R. rewrite (proj2 (Z.ltb_lt (int_limbs x) 1)) in Q, R by lia. cbn [orb] in Q, R.
  rewrite Bool.andb_true_r in Q, R. destruct (dbg c); [auto|].
  change (- 2 ^ 31) with (-2147483648) in *. rewrite (proj2 (Z.eqb_neq (limbs_of y) _)) in Q, R by lia.
  rewrite (proj2 (Z.ltb_ge (limbs_of y) 1)) in Q, R by lia. rewrite low_all in Q, R by lia.
  rewrite (proj2 (Z.ltb_ge (Z.abs y) (2 ^ _))) in Q, R
    by (destruct (Z.eq_dec (limbs_of y) 1) as [->|]; [change (2 ^ (32 * (1 - 1))) with 1; lia|apply limbs_at_least; lia]).
  unfold part_quotient in Q. unfold part_remainder in R. rewrite (int_limbs_small y Ly), (proj2 (Z.ltb_lt (int_limbs x) (limbs_of y))) in Q, R by lia.
  split.
  - apply held_exact in R; [|right; lia]. replace (signed (x <? 0) (Z.abs x)) with x in R; [exact R|].
    unfold signed. destruct (Z.ltb_spec x 0); lia.
  - destruct (Z.ltb_spec (limbs_of x - limbs_of y + 1) 2147483648) as [G|G].
    + rewrite int_of_small in Q by lia. apply held_exact in Q.
      * unfold signed in Q. now destruct (xorb _ _).
      * left. split; [lia|]. split; [lia|]. apply pow2_pos. lia.
    + apply held_none in Q; [exact Q|]. rewrite int_of_back by lia. lia.
Qed.

Theorem div_i_wide_both c a b x y : represents a x -> represents b y -> 2 ^ 31 <= limbs_of y <= 2 ^ 32 -> limbs_of y <= limbs_of x ->
  let bad := if dbg c then AssertFail else Undef (if strict c && (limbs_of y =? 2 ^ 31) then SignedOverflow else OutOfBounds) in
  bi_div_i c a b = bad /\ bi_rem_i c a b = bad.
Proof.
  change (2 ^ 31) with 2147483648. change (2 ^ 32) with 4294967296. intros Ha Hb Ly Hxy. pose proof (quotient_any_holds c a b x y Ha Hb) as Q.
  pose proof (remainder_any_holds c a b x y Ha Hb) as R. unfold quotient_any in Q. unfold remainder_any in R.
  change (2 ^ 31) with 2147483648 in *. pose proof (limbs_two x ltac:(lia)) as X. pose proof (limbs_two y ltac:(lia)) as Y.
  rewrite (proj2 (Z.ltb_ge (Z.abs x) _)) in Q, R by lia. rewrite (proj2 (Z.ltb_ge (Z.abs y) _)) in Q, R by lia.
  rewrite (proj2 (Z.ltb_ge (limbs_of x) _)) in Q, R by lia.
  assert (int_limbs y = limbs_of y - 4294967296) as NY by (unfold int_limbs; apply int_of_back; lia).
  unfold by_long in Q, R. rewrite (proj2 (Z.ltb_lt (int_limbs y) 1)) in Q, R by lia. rewrite Bool.orb_true_r in Q, R. cbn [orb] in Q, R.
  rewrite Bool.andb_true_r in Q, R. destruct (dbg c); [auto|].
  change (- 2 ^ 31) with (-2147483648) in *. destruct (Z.eqb_spec (limbs_of y) 2147483648) as [E|E].
  - rewrite andb_true_r. rewrite (proj2 (Z.eqb_eq (int_limbs y) _)) in Q, R by lia.
    replace (- int_limbs y) with (limbs_of y) in Q, R by lia. rewrite low_all in Q, R by lia.
    pose proof (limbs_at_least y (limbs_of y - 1) ltac:(lia) ltac:(lia)) as T.
    rewrite (proj2 (Z.ltb_ge (Z.abs y) _)) in Q, R by exact T. auto.
  - rewrite andb_false_r. rewrite (proj2 (Z.eqb_neq (int_limbs y) _)) in Q, R by lia.
    auto.
Qed.

Lemma div_wide_case k : k = 2 ^ 31 -> exists a,
  represents a (2 ^ (32 * k)) /\
  forall c b, (represents b 0 -> returns (bi_div_i c a b) 1 /\ returns (bi_rem_i c a b) 0) /\
    (represents b (-7) -> returns (bi_div_i c a b) (-1) /\ returns (bi_rem_i c a b) 0) /\
    (represents b (2 ^ 40) -> dbg c = false -> returns (bi_div_i c a b) 1 /\ returns (bi_rem_i c a b) (2 ^ (32 * k))) /\
    (represents b (2 ^ 40) -> dbg c = true -> bi_div_i c a b = AssertFail /\ bi_rem_i c a b = AssertFail).
Proof.
  intros Hk. destruct (represents_total (2 ^ (32 * k))) as (a & Ha). exists a. split; [exact Ha|].
  change (2 ^ 31) with 2147483648 in Hk.
  pose proof (Z.pow_le_mono_r 2 32 (32 * k) ltac:(lia) ltac:(lia)) as Q. change (2 ^ 32) with 4294967296 in Q.
  assert (limbs_of (2 ^ (32 * k)) = k + 1) as L by (replace (2 ^ (32 * k)) with (2 ^ (32 * k) + 0) by ring; apply limbs_of_power; lia).
  assert ((2 ^ (32 * k) <? 0) = false) as NX by (apply Z.ltb_ge; lia).
  intros c b. split; [|split; [|split]]; intros Hb.
  - destruct (div_i_wide c a b _ _ Ha Hb) as (A & B); [rewrite L; change (2 ^ 31) with 2147483648; change (2 ^ 32) with 4294967296; lia|reflexivity|].
    rewrite NX in A. split; assumption.
  - destruct (div_i_wide c a b _ _ Ha Hb) as (A & B); [rewrite L; change (2 ^ 31) with 2147483648; change (2 ^ 32) with 4294967296; lia|reflexivity|].
    rewrite NX in A. split; assumption.
  - intros D. pose proof (div_i_wide_long c a b _ _ Ha Hb) as W. rewrite D, NX, L in W.
    replace (limbs_of (2 ^ 40)) with 2 in W by reflexivity.
    change (2 ^ 31) with 2147483648 in W. change (2 ^ 32) with 4294967296 in W.
    rewrite (proj2 (Z.ltb_ge (k + 1 - 2 + 1) _)) in W by lia.
    destruct W as (W1 & W2); [lia|change (Z.abs (2 ^ 40)) with 1099511627776; lia|lia|]. split; [exact W2|exact W1].
  - intros D. pose proof (div_i_wide_long c a b _ _ Ha Hb) as W. rewrite D, L in W.
    replace (limbs_of (2 ^ 40)) with 2 in W by reflexivity.
    change (2 ^ 31) with 2147483648 in W. change (2 ^ 32) with 4294967296 in W.
    apply W; [lia|change (Z.abs (2 ^ 40)) with 1099511627776; lia|lia].
Qed.
