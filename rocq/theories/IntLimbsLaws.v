(** Lemmas quoted by PropLimbs.v: consequences for short and long numbers. *)
From Verif Require Import Machine Facts Spec AddSubFacts SpecFacts BigIntFacts
  CompareFacts ConvFacts SpecApi SpecGcd ShiftFacts BigInt RunExact LeakyModPow SpecActual ActualFacts
  IntSizes SpecSizes IntSizesFacts IntLimbs SpecLimbs IntLimbsFacts IntShiftFacts IntShiftNeg.
Ltac Zify.zify_post_hook ::= idtac.

Lemma int_limbs_small x : limbs_of x < 2147483648 -> int_limbs x = limbs_of x.
Proof. intros H. destruct (limbs_of_count x) as (L & _). apply int_of_small. lia. Qed.

Lemma int_limbs_wrapped x k : -2147483648 <= limbs_of x - k * 4294967296 < 2147483648 ->
  int_limbs x = limbs_of x - k * 4294967296.
Proof.
  intros H. unfold int_limbs. rewrite int_of_s32. apply (s32_shifted _ _ k); [ring|]. unfold INT_MIN, INT_MAX. lia.
Qed.

Lemma fewer_limbs x y : limbs_of x < limbs_of y -> Z.abs x < Z.abs y.
Proof.
  intros H. destruct (limbs_of_count x) as (X1 & X2 & _). destruct (limbs_of_count y) as (Y1 & _ & Y3).
  destruct (Z.lt_ge_cases (Z.abs x) (Z.abs y)) as [G|G]; [exact G|exfalso].
  specialize (Y3 (limbs_of x) X1). unfold fits_limbs in *. lia.
Qed.

Lemma order_abs x y : Z.sgn x = Z.sgn y -> Z.sgn x * order (Z.abs x) (Z.abs y) = order x y.
Proof.
  intros H. destruct (Z.sgn_spec x) as [(A & B)|[(A & B)|(A & B)]]; rewrite B in *;
    destruct (Z.sgn_spec y) as [(A' & B')|[(A' & B')|(A' & B')]]; rewrite B' in H; try discriminate.
  - rewrite !Z.abs_eq by lia. ring.
  - subst x y. reflexivity.
  - rewrite !Z.abs_neq, order_opp by lia. ring.
Qed.

Lemma visited_small c r : 0 <= r -> visited c r = Ret r.
Proof. intros H. unfold visited. change (- 2 ^ 31) with (-2147483648). now rewrite (proj2 (Z.eqb_neq r _)) by lia. Qed.

Lemma compared_small c x y : limbs_of x < 2147483648 -> limbs_of y < 2147483648 -> compared c x y = Ret (order x y).
Proof.
  intros Hx Hy. unfold compared. destruct (both_long x y) eqn:B; [|reflexivity].
  assert (Z.sgn x = Z.sgn y) as S.
  { unfold both_long in B. apply andb_prop in B as (_ & B). now apply Z.eqb_eq in B. }
  rewrite !int_limbs_small by assumption. destruct (limbs_of_count x) as (L1 & _). rewrite <- (order_abs x y S).
  destruct (Z.eqb_spec (limbs_of x) (limbs_of y)) as [E|E].
  - rewrite visited_small by lia. cbn [bind]. now rewrite !low_all by lia.
  - f_equal. f_equal. assert (limbs_of x < limbs_of y \/ limbs_of y < limbs_of x) as [G|G] by lia.
    + now rewrite !order_lt by (auto using fewer_limbs).
    + now rewrite !order_gt by (auto using fewer_limbs).
Qed.

Lemma equal_small c x y : limbs_of x < 2147483648 -> limbs_of y < 2147483648 -> found_equal c x y = Ret (x =? y).
Proof.
  intros Hx Hy. unfold found_equal. destruct (Z.eqb_spec x y) as [E|E]; [reflexivity|].
  destruct (both_long x y) eqn:B; [|reflexivity]. cbn [andb].
  destruct (Z.eqb_spec (limbs_of x) (limbs_of y)) as [L|L]; [|reflexivity].
  assert (Z.sgn x = Z.sgn y) as S.
  { unfold both_long in B. apply andb_prop in B as (_ & B). now apply Z.eqb_eq in B. }
  destruct (limbs_of_count x) as (L1 & _). rewrite int_limbs_small, visited_small by lia. cbn [bind].
  rewrite !low_all by lia. f_equal. apply Z.eqb_neq. intros A. apply E.
  rewrite <- (Z.abs_sgn x), <- (Z.abs_sgn y), A, S. reflexivity.
Qed.

Lemma compare_i_fits c a b x y : represents a x -> represents b y -> limbs_of x < 2 ^ 31 -> limbs_of y < 2 ^ 31 ->
  bi_compare_i c a b = Ret (order x y) /\ bi_equals_i c a b = Ret (x =? y).
Proof.
  intros Ha Hb Hx Hy. rewrite (compare_i_spec c a b x y Ha Hb), (equals_i_spec c a b x y Ha Hb).
  split; [now apply compared_small|now apply equal_small].
Qed.

Lemma operators_i c a b x y : represents a x -> represents b y ->
  bi_lt_i c a b = (r <- compared c x y ;; Ret (r <? 0)) /\
  bi_gt_i c a b = (r <- compared c y x ;; Ret (r <? 0)) /\
  bi_le_i c a b = (r <- compared c y x ;; Ret (negb (r <? 0))) /\
  bi_ge_i c a b = (r <- compared c x y ;; Ret (negb (r <? 0))) /\
  bi_eq_i c a b = found_equal c x y /\
  bi_ne_i c a b = (r <- found_equal c x y ;; Ret (negb r)) /\
  bi_max_i c a b = (r <- compared c x y ;; Ret (if r <? 0 then b else a)) /\
  bi_min_i c a b = (r <- compared c x y ;; Ret (if r <=? 0 then a else b)).
Proof.
  intros Ha Hb. unfold bi_le_i, bi_ge_i, bi_gt_i, bi_lt_i, bi_eq_i, bi_ne_i, bi_max_i, bi_min_i.
  rewrite (compare_i_spec c a b x y Ha Hb), (compare_i_spec c b a y x Hb Ha), (equals_i_spec c a b x y Ha Hb).
  repeat split; try reflexivity; [destruct (compared c y x)|destruct (compared c x y)]; reflexivity.
Qed.

Lemma long_abs x : 2147483648 <= limbs_of x -> 2147483648 <= Z.abs x.
Proof.
  intros H. destruct (Z.le_gt_cases 2147483648 (Z.abs x)) as [G|G]; [exact G|exfalso].
  destruct (limbs_of_count x) as (_ & _ & L). specialize (L 1 ltac:(lia)). unfold fits_limbs in L.
  change (2 ^ (32 * 1)) with 4294967296 in L. lia.
Qed.

Lemma both_long_intro x y : 2147483648 <= Z.abs x -> 2147483648 <= Z.abs y -> Z.sgn x = Z.sgn y -> both_long x y = true.
Proof.
  intros H1 H2 H3. unfold both_long. change (2 ^ 31) with 2147483648.
  rewrite !(proj2 (Z.leb_le 2147483648 _)) by assumption. cbn [andb]. now apply Z.eqb_eq.
Qed.

Lemma same_length_lost c a b x y : represents a x -> represents b y -> Z.sgn x = Z.sgn y ->
  limbs_of x = limbs_of y -> 2 ^ 31 < limbs_of x <= 2 ^ 32 ->
  bi_compare_i c a b = Ret 0 /\ bi_equals_i c a b = Ret true.
Proof.
  change (2 ^ 31) with 2147483648. change (2 ^ 32) with 4294967296. intros Ha Hb S E L.
  rewrite (compare_i_spec c a b x y Ha Hb), (equals_i_spec c a b x y Ha Hb).
  assert (both_long x y = true) as B by (apply both_long_intro; [apply long_abs; lia|apply long_abs; lia|exact S]).
  unfold compared, found_equal. rewrite B, E, Z.eqb_refl. cbn [andb].
  assert (int_limbs x = int_limbs y) as I by (unfold int_limbs; now rewrite E). rewrite I, Z.eqb_refl.
  assert (int_limbs y = limbs_of y - 1 * 4294967296) as J by (apply int_limbs_wrapped; lia).
  assert (visited c (int_limbs y) = Ret (int_limbs y)) as ->.
  { unfold visited. change (- 2 ^ 31) with (-2147483648). now rewrite (proj2 (Z.eqb_neq _ _)) by lia. }
  cbn [bind]. rewrite !low_none by lia. split; [now rewrite order_eq, Z.mul_0_r|]. now destruct (x =? y).
Qed.

Lemma longer_is_less c a b x y : represents a x -> represents b y -> 0 < x -> 2 ^ 31 <= y ->
  limbs_of y < 2 ^ 31 <= limbs_of x -> limbs_of x < 2 ^ 32 ->
  y < x /\ bi_compare_i c a b = Ret (-1) /\ bi_compare_i c b a = Ret 1 /\
  bi_lt_i c a b = Ret true /\ bi_max_i c a b = Ret b /\ bi_min_i c a b = Ret a.
Proof.
  change (2 ^ 31) with 2147483648. change (2 ^ 32) with 4294967296. intros Ha Hb Hx Hy L1 L2.
  assert (y < x) as L by (pose proof (fewer_limbs y x ltac:(lia)); lia). split; [exact L|].
  unfold bi_lt_i, bi_max_i, bi_min_i.
  rewrite (compare_i_spec c a b x y Ha Hb), (compare_i_spec c b a y x Hb Ha).
  destruct (limbs_of_count y) as (Y1 & _).
  assert (int_limbs x = limbs_of x - 1 * 4294967296) as I by (apply int_limbs_wrapped; lia).
  assert (int_limbs y = limbs_of y) as J by (apply int_limbs_small; lia).
  unfold compared. rewrite !both_long_intro by (rewrite ?Z.abs_eq, ?Z.sgn_pos by lia; auto; lia).
  rewrite !(proj2 (Z.eqb_neq _ _)) by lia. rewrite !Z.sgn_pos by lia.
  rewrite order_lt, (order_gt (int_limbs y)) by lia. repeat split.
Qed.

(** ** Shifts *)

Lemma sgn_abs_mul x p : Z.sgn x * Z.abs x * p = x * p.
Proof. rewrite (Z.mul_comm (Z.sgn x)), Z.abs_sgn. reflexivity. Qed.

Lemma shl_i_fits c a x n : represents a x -> 0 <= n < 2 ^ 31 -> limbs_of x + n / 32 + 1 < 2 ^ 31 ->
  exists r, bi_shl_i c a n = Sized (Ret r) /\ represents r (x * 2 ^ n).
Proof.
  change (2 ^ 31) with 2147483648. intros Ha Hn L. pose proof (shl_i_spec c a x n Ha ltac:(lia)) as H.
  assert (left_any c x n = Sized (Ret (x * 2 ^ n))) as E.
  { unfold left_any. change (- 2 ^ 31) with (-2147483648). destruct (Z.eqb_spec n 0) as [->|N]; [change (2 ^ 0) with 1; now rewrite Z.mul_1_r|].
    rewrite (proj2 (Z.eqb_neq n (-2147483648))), (proj2 (Z.ltb_ge n 0)) by lia. unfold shl_any.
    pose proof (quot_32 n ltac:(lia)) as Q. destruct (limbs_of_count x) as (X1 & _).
    change (2 ^ 31) with 2147483648. rewrite int_limbs_small by lia.
    rewrite (proj2 (Z.leb_gt 2147483648 _)), (proj2 (Z.ltb_ge _ 0)), (proj2 (Z.leb_le 0 _)) by lia.
    rewrite low_all by lia. now rewrite sgn_abs_mul. }
  rewrite E in H. destruct (bi_shl_i c a n) as [o|]; [|destruct H]. destruct H as (r & -> & Hr). exists r. auto.
Qed.

Lemma shl_any_inv c a x n z : represents a x -> 0 < n < 2 ^ 31 -> shl_any c x n = z -> sized_denotes (bi_shl_i c a n) z.
Proof.
  change (2 ^ 31) with 2147483648. intros Ha Hn <-. pose proof (shl_i_spec c a x n Ha ltac:(lia)) as H.
  unfold left_any in H. change (- 2 ^ 31) with (-2147483648) in H.
  rewrite (proj2 (Z.eqb_neq n 0)), (proj2 (Z.eqb_neq n (-2147483648))), (proj2 (Z.ltb_ge n 0)) in H by lia. exact H.
Qed.

Lemma shl_i_overflows c a x n : represents a x -> 0 < n < 2 ^ 31 ->
  limbs_of x < 2 ^ 31 <= limbs_of x + n / 32 + 1 ->
  bi_shl_i c a n = if strict c then Sized (Undef SignedOverflow) else LengthError.
Proof.
  intros Ha Hn L.
  assert (shl_any c x n = if strict c then Sized (Undef SignedOverflow) else LengthError) as E.
  { unfold shl_any. rewrite int_limbs_small by (change 2147483648 with (2 ^ 31); lia).
    now rewrite (proj2 (Z.leb_le (2 ^ 31) _)) by lia. }
  pose proof (shl_any_inv c a x n _ Ha Hn E) as H.
  destruct (strict c), (bi_shl_i c a n) as [o|]; cbn [sized_denotes denotes] in H; try tauto. now subst o.
Qed.

Lemma shl_i_throws c a x n : represents a x -> 0 < n < 2 ^ 31 ->
  2 ^ 31 <= limbs_of x -> limbs_of x + n / 32 + 1 < 2 ^ 32 -> bi_shl_i c a n = LengthError.
Proof.
  intros Ha Hn L1 L2.
  assert (shl_any c x n = LengthError) as E.
  { change (2 ^ 31) with 2147483648 in *. change (2 ^ 32) with 4294967296 in *.
    pose proof (quot_32 n Hn) as Q.
    unfold shl_any. rewrite (int_limbs_wrapped x 1) by lia. change (2 ^ 31) with 2147483648.
    now rewrite (proj2 (Z.leb_gt 2147483648 _)), (proj2 (Z.ltb_lt _ 0)) by lia. }
  pose proof (shl_any_inv c a x n _ Ha Hn E) as H. now destruct (bi_shl_i c a n).
Qed.

Lemma shl_i_zero c a x n : represents a x -> 0 < n < 2 ^ 31 -> limbs_of x = 2 ^ 32 ->
  exists r, bi_shl_i c a n = Sized (Ret r) /\ represents r 0.
Proof.
  intros Ha Hn L.
  assert (shl_any c x n = Sized (Ret 0)) as E.
  { change (2 ^ 31) with 2147483648 in *. change (2 ^ 32) with 4294967296 in *.
    pose proof (quot_32 n Hn) as Q.
    unfold shl_any. rewrite (int_limbs_wrapped x 1) by lia. rewrite L. change (2 ^ 31) with 2147483648.
    change (4294967296 - 1 * 4294967296) with 0.
    rewrite (proj2 (Z.leb_gt 2147483648 _)), (proj2 (Z.ltb_ge _ 0)) by lia. cbn [Z.leb Z.compare].
    rewrite low_none by lia. f_equal. f_equal. ring. }
  pose proof (shl_any_inv c a x n _ Ha Hn E) as H. destruct (bi_shl_i c a n) as [o|]; [|destruct H].
  destruct H as (r & -> & Hr). exists r. auto.
Qed.

Lemma shr_any_inv c a x n z : represents a x -> 0 < n < 2 ^ 31 -> shr_any c x n = z ->
  exists o, bi_shr_i c a n = Sized o /\ denotes o z.
Proof.
  change (2 ^ 31) with 2147483648. intros Ha Hn <-. pose proof (shr_i_spec c a x n Ha ltac:(lia)) as H.
  unfold right_any in H. change (- 2 ^ 31) with (-2147483648) in H.
  rewrite (proj2 (Z.eqb_neq n 0)), (proj2 (Z.eqb_neq n (-2147483648))), (proj2 (Z.ltb_ge n 0)) in H by lia.
  destruct (bi_shr_i c a n) as [o|]; [|destruct H]. exists o. auto.
Qed.

Lemma shr_i_fits c a x n : represents a x -> 0 < n < 2 ^ 31 ->
  (0 <= x /\ limbs_of x < 2 ^ 31) \/ (x < 0 /\ limbs_of x < 2 ^ 26 /\ drops_ones x n = false) ->
  exists r, bi_shr_i c a n = Sized (Ret r) /\ represents r (x / 2 ^ n).
Proof.
  intros Ha Hn K.
  assert (shr_any c x n = Ret (x / 2 ^ n)) as E.
  { change (2 ^ 31) with 2147483648 in *. change (2 ^ 26) with 67108864 in *. destruct (limbs_of_count x) as (X1 & X2 & _).
    unfold shr_any. change (- 2 ^ 31) with (-2147483648). change (- 2 ^ 26) with (-67108864). change (2 ^ 26) with 67108864.
    rewrite int_limbs_small by lia. pose proof (quot_32 n Hn) as Q.
    destruct K as [(K1 & K2)|(K1 & K2 & K3)].
    - rewrite (proj2 (Z.leb_le 0 x)), (proj2 (Z.eqb_neq (limbs_of x) (-2147483648))), (proj2 (Z.ltb_ge _ (-2147483648))) by lia.
      cbn [orb]. rewrite Bool.andb_false_r, low_all, Z.abs_eq by lia. reflexivity.
    - rewrite (proj2 (Z.leb_gt 0 x)), (proj2 (Z.leb_gt 67108864 _)), (proj2 (Z.ltb_ge _ (-67108864))) by lia.
      cbn [orb]. rewrite Bool.andb_false_r. rewrite int_of_small by lia.
      unfold fits_limbs in X2. rewrite Z.abs_neq in X2 by lia. set (L := limbs_of x) in *.
      destruct (Z.leb_spec (32 * L) n) as [G|G].
      { f_equal. symmetry. apply div_neg_one; [exact K1|]. pose proof (Z.pow_le_mono_r 2 (32 * L) n ltac:(lia) ltac:(lia)). lia. }
      rewrite (proj2 (Z.ltb_ge L 0)) by lia.
      assert (x mod 2 ^ (32 * L) = x + 2 ^ (32 * L)) as ->.
      { symmetry. apply (Z.mod_unique_pos _ _ (-1)); lia. }
      unfold drops_ones in K3. fold L in K3. rewrite (proj2 (Z.ltb_lt n (32 * L))), Bool.andb_true_r in K3 by exact G.
      replace (x + 2 ^ (32 * L) <? 2 ^ n) with (2 ^ (32 * L) - 2 ^ n <? - x);
        [|destruct (Z.ltb_spec (2 ^ (32 * L) - 2 ^ n) (- x)), (Z.ltb_spec (x + 2 ^ (32 * L)) (2 ^ n)); auto; lia].
      rewrite K3. do 2 f_equal. ring. }
  destruct (shr_any_inv c a x n _ Ha Hn E) as (o & -> & r & -> & Hr). exists r. auto.
Qed.

Lemma shr_i_lost c a x n : represents a x -> 0 <= x -> 0 < n < 2 ^ 31 -> 2 ^ 31 + n / 32 <= limbs_of x <= 2 ^ 32 ->
  2 ^ 31 < limbs_of x -> exists r, bi_shr_i c a n = Sized (Ret r) /\ represents r 0 /\ 0 < x / 2 ^ n.
Proof.
  intros Ha Hx Hn L1 L2.
  assert (shr_any c x n = Ret 0) as E.
  { change (2 ^ 31) with 2147483648 in *. change (2 ^ 32) with 4294967296 in *. unfold shr_any.
    change (- 2 ^ 31) with (-2147483648). pose proof (quot_32 n Hn) as Q.
    rewrite (int_limbs_wrapped x 1) by lia.
    rewrite (proj2 (Z.leb_le 0 x)), (proj2 (Z.eqb_neq _ (-2147483648))), (proj2 (Z.ltb_ge _ (-2147483648))) by lia.
    cbn [orb]. rewrite Bool.andb_false_r, low_none by lia. rewrite Z.div_0_l; [reflexivity|].
    pose proof (pow2_pos n ltac:(lia)). lia. }
  destruct (shr_any_inv c a x n _ Ha Hn E) as (o & -> & r & -> & Hr). exists r. split; [reflexivity|]. split; [exact Hr|].
  change (2 ^ 31) with 2147483648 in *. pose proof (pow2_pos n ltac:(lia)) as P. apply Z.div_str_pos. split; [exact P|].
  destruct (Z.le_gt_cases (2 ^ n) x) as [G|G]; [exact G|exfalso]. pose proof (quot_32 n Hn) as Q.
  destruct (limbs_of_count x) as (_ & _ & X3). specialize (X3 (n / 32 + 1) ltac:(lia)). unfold fits_limbs in X3.
  rewrite Z.abs_eq in X3 by lia.
  pose proof (Z.pow_le_mono_r 2 n (32 * (n / 32 + 1)) ltac:(lia)) as W.
  pose proof (Z.div_mod n 32 ltac:(lia)). pose proof (Z.mod_pos_bound n 32 ltac:(lia)). lia.
Qed.

(** ** Numbers this long *)

Lemma limbs_of_power k e : 0 <= k -> 0 <= e < 2 ^ (32 * k) -> limbs_of (2 ^ (32 * k) + e) = k + 1.
Proof.
  intros Hk He. apply limbs_of_eq. pose proof (pow2_pos (32 * k) ltac:(lia)) as P. split; [lia|]. unfold fits_limbs.
  rewrite Z.abs_eq by lia. split.
  - replace (32 * (k + 1)) with (1 + (31 + 32 * k)) by ring. rewrite Z.pow_add_r by lia. change (2 ^ 1) with 2.
    pose proof (Z.pow_le_mono_r 2 (32 * k) (31 + 32 * k)). lia.
  - intros m Hm F. destruct (Z.le_gt_cases (k + 1) m) as [G|G]; [exact G|exfalso].
    pose proof (Z.pow_le_mono_r 2 (32 * m) (32 * k)). lia.
Qed.

Lemma lost_case k : k = 2 ^ 31 -> exists a b,
  represents a (2 ^ (32 * k) + 5) /\ represents b (2 ^ (32 * k) + 6) /\
  Z.sgn (2 ^ (32 * k) + 5) = Z.sgn (2 ^ (32 * k) + 6) /\
  limbs_of (2 ^ (32 * k) + 5) = limbs_of (2 ^ (32 * k) + 6) /\ 2 ^ 31 < limbs_of (2 ^ (32 * k) + 5) <= 2 ^ 32.
Proof.
  intros Hk. destruct (represents_total (2 ^ (32 * k) + 5)) as (a & Ha), (represents_total (2 ^ (32 * k) + 6)) as (b & Hb).
  exists a, b. split; [exact Ha|]. split; [exact Hb|]. clear Ha Hb a b. change (2 ^ 31) with 2147483648 in *.
  change (2 ^ 32) with 4294967296.
  pose proof (pow2_pos (32 * k) ltac:(lia)) as P. pose proof (Z.pow_le_mono_r 2 32 (32 * k) ltac:(lia) ltac:(lia)) as Q.
  change (2 ^ 32) with 4294967296 in Q.
  rewrite !Z.sgn_pos by lia. rewrite !limbs_of_power by lia. lia.
Qed.

Lemma less_case k : k = 2 ^ 31 -> exists a b,
  represents a (2 ^ (32 * k)) /\ represents b (2 ^ 40) /\ 0 < 2 ^ (32 * k) /\ 2 ^ 31 <= 2 ^ 40 /\
  limbs_of (2 ^ 40) < 2 ^ 31 <= limbs_of (2 ^ (32 * k)) /\ limbs_of (2 ^ (32 * k)) < 2 ^ 32.
Proof.
  intros Hk. destruct (represents_total (2 ^ (32 * k))) as (a & Ha), (represents_total (2 ^ 40)) as (b & Hb).
  exists a, b. split; [exact Ha|]. split; [exact Hb|]. clear Ha Hb a b. change (2 ^ 31) with 2147483648 in *.
  change (2 ^ 32) with 4294967296. change (limbs_of (2 ^ 40)) with 2.
  pose proof (pow2_pos (32 * k) ltac:(lia)) as P. split; [exact P|]. split; [change (2 ^ 40) with 1099511627776; lia|].
  rewrite <- (Z.add_0_r (2 ^ (32 * k))), limbs_of_power by lia. lia.
Qed.

Lemma overflow_case k : k = 2 ^ 31 -> exists a,
  represents a (2 ^ (32 * (k - 3))) /\ limbs_of (2 ^ (32 * (k - 3))) < 2 ^ 31 <= limbs_of (2 ^ (32 * (k - 3))) + 64 / 32 + 1.
Proof.
  intros Hk. destruct (represents_total (2 ^ (32 * (k - 3)))) as (a & Ha). exists a. split; [exact Ha|]. clear Ha a.
  change (2 ^ 31) with 2147483648 in *. change (64 / 32) with 2.
  pose proof (pow2_pos (32 * (k - 3)) ltac:(lia)) as P.
  rewrite <- (Z.add_0_r (2 ^ (32 * (k - 3)))), limbs_of_power by lia. lia.
Qed.

Lemma zero_shift_case k : k = 2 ^ 32 -> exists a, represents a (2 ^ (32 * (k - 1))) /\ limbs_of (2 ^ (32 * (k - 1))) = 2 ^ 32.
Proof.
  intros Hk. destruct (represents_total (2 ^ (32 * (k - 1)))) as (a & Ha). exists a. split; [exact Ha|]. clear Ha a.
  change (2 ^ 32) with 4294967296 in *. pose proof (pow2_pos (32 * (k - 1)) ltac:(lia)) as P.
  rewrite <- (Z.add_0_r (2 ^ (32 * (k - 1)))), limbs_of_power by lia. lia.
Qed.
