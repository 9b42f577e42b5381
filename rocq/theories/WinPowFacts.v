(** The LLP64 reading: pow. *)
From Verif Require Import Facts CalcAddSub CalcSquMul AddSubFacts SquMulFacts Spec SpecFacts BigInt BigIntFacts.
From Verif Require Import CalcPowMod SpecApi PowFacts.
From Verif Require Import WinCalc WinBigInt SpecWin WinFacts WinMulFacts.
Ltac Zify.zify_post_hook ::= idtac.

Lemma isbuf_limbs32 size b v : isbuf size b v -> limbs32 v = Nat.leb 32 (bb_len b).
Proof.
  intros [_ _ _ _ H L]. unfold limbs32. rewrite <- Bp_31, Z.abs_eq by lia.
  destruct (Nat.leb_spec 32 (bb_len b)) as [G|G].
  - apply Z.leb_le. pose proof (Bp_le 31 (bb_len b - 1) ltac:(lia)). specialize (L ltac:(lia)). lia.
  - apply Z.leb_gt. pose proof (Bp_le (bb_len b) 31 ltac:(lia)). lia.
Qed.

Lemma buf_mul_self_w_eq c size this value temp x y :
  isbuf size this x -> isbuf size value y -> bb_bits temp = zeros size ->
  (bb_len this + bb_len value <= size)%nat ->
  buf_mul_self_w None c this value temp =
    if limbs32 x && limbs32 y then UB else buf_mul_self c this value temp.
Proof.
  intros Hx Hy Ht Hn. rewrite (isbuf_limbs32 _ _ _ Hx), (isbuf_limbs32 _ _ _ Hy).
  destruct (isbuf_prefix _ _ _ Hx) as (X1 & X2 & X3 & _). destruct (isbuf_prefix _ _ _ Hy) as (Y1 & Y2 & Y3 & _).
  pose proof Hx as [Sx _ _ Nx Bx _]. pose proof Hy as [Sy _ _ Ny By _].
  unfold buf_mul_self_w, buf_mul_self. cbv zeta.
  assert (forall l n, (n <= length l)%nat -> slice l 0 n = Ret (firstn n l)) as Hsl.
  { intros l n H. unfold slice. cbn [Nat.add skipn]. now rewrite (proj2 (Nat.leb_le _ _) H). }
  rewrite !Hsl by lia. rewrite Ht. rewrite !Hsl by (rewrite length_zeros; lia). cbn [bind].
  rewrite firstn_zeros by lia.
  set (p := firstn (bb_len this) (bb_bits this)) in *. set (q := firstn (bb_len value) (bb_bits value)) in *.
  clearbody p q. rewrite <- X2, <- Y2.
  destruct (Nat.ltb_spec (length p) (length q)) as [G|G].
  - rewrite calc_mul_core_w_ub by (auto; f_equal; lia).
    destruct (Nat.leb_spec 32 (length p)) as [A|A], (Nat.leb_spec 32 (length q)) as [B|B]; cbn [andb]; try lia.
    all: rewrite ?(proj2 (Nat.ltb_ge (length p) 32) A), ?(proj2 (Nat.ltb_lt (length p) 32) A); try reflexivity.
    all: cbn [calc_mul_core]; rewrite !massert_true by (apply Nat.eqb_eq || apply Nat.leb_le; rewrite ?length_zeros; lia);
      cbn [bind]; change MultiplyThreshold with 32%nat;
      rewrite (proj2 (Nat.ltb_lt (length p) 32) A); reflexivity.
  - rewrite calc_mul_core_w_ub by (auto; f_equal; lia).
    destruct (Nat.leb_spec 32 (length p)) as [A|A], (Nat.leb_spec 32 (length q)) as [B|B]; cbn [andb]; try lia.
    all: rewrite ?(proj2 (Nat.ltb_ge (length q) 32) B), ?(proj2 (Nat.ltb_lt (length q) 32) B); try reflexivity.
    all: cbn [calc_mul_core]; rewrite !massert_true by (apply Nat.eqb_eq || apply Nat.leb_le; rewrite ?length_zeros; lia);
      cbn [bind]; change MultiplyThreshold with 32%nat;
      rewrite (proj2 (Nat.ltb_lt (length q) 32) B); reflexivity.
Qed.

Lemma buf_square_self_w_eq c size this temp x :
  isbuf size this x -> bb_bits temp = zeros size -> (bb_len this + bb_len this <= size)%nat ->
  buf_square_self_w None c this temp = if limbs32 x then UB else buf_square_self c this temp.
Proof.
  intros Hx Ht Hn. rewrite (isbuf_limbs32 _ _ _ Hx).
  destruct (isbuf_prefix _ _ _ Hx) as (X1 & X2 & X3 & _). pose proof Hx as [Sx _ _ Nx Bx _].
  unfold buf_square_self_w, buf_square_self. cbv zeta.
  assert (forall l n, (n <= length l)%nat -> slice l 0 n = Ret (firstn n l)) as Hsl.
  { intros l n H. unfold slice. cbn [Nat.add skipn]. now rewrite (proj2 (Nat.leb_le _ _) H). }
  rewrite !Hsl by lia. rewrite Ht. rewrite !Hsl by (rewrite length_zeros; lia). cbn [bind].
  rewrite firstn_zeros by lia.
  set (p := firstn (bb_len this) (bb_bits this)) in *. clearbody p. rewrite <- X2.
  rewrite calc_square_core_w_ub by (auto using limbs_zeros; rewrite ?length_zeros; lia).
  destruct (Nat.leb_spec 32 (length p)) as [A|A].
  - rewrite (proj2 (Nat.ltb_ge (length p) 32) A). reflexivity.
  - rewrite (proj2 (Nat.ltb_lt (length p) 32) A).
    cbn [calc_square_core]. rewrite !massert_true by (apply Nat.eqb_eq; rewrite ?length_zeros; lia).
    cbn [bind]. change SquareThreshold with 32%nat. rewrite (proj2 (Nat.ltb_lt (length p) 32) A). reflexivity.
Qed.

(** No product of the loop has two factors of 32 limbs or more. *)
Fixpoint pow_small (fuel : nat) (p v r : Z) : bool :=
  if p =? 0 then true else
  match fuel with
  | O => true
  | S fuel =>
      negb (Z.odd p && (limbs32 r && limbs32 v)) &&
      (if p =? 1 then true
       else negb (limbs32 v) && pow_small fuel (Z.shiftr p 1) (v * v) (r * (if Z.odd p then v else 1)))
  end.

Lemma pow_core_loop_w_eq fuel c size : forall p value result temp v r,
  0 <= p < 2 ^ Z.of_nat fuel -> isbuf size value v -> isbuf size result r -> bb_bits temp = zeros size ->
  Z.of_nat (bb_len result) + Z.of_nat (bb_len value) * p <= Z.of_nat size ->
  pow_core_loop_w None fuel c p value result temp =
    if pow_small fuel p v r then pow_core_loop fuel c p value result temp else UB.
Proof.
  induction fuel as [|fuel IH]; intros p value result temp v r Hp Hv Hr Ht Hn; cbn [pow_core_loop_w pow_core_loop pow_small].
  - assert (p = 0) as -> by (change (2 ^ Z.of_nat 0) with 1 in Hp; lia). reflexivity.
  - destruct (Z.eqb_spec p 0) as [->|P0]; [reflexivity|].
    rewrite odd_land.
    pose proof (half p) as E. pose proof (half_lt p fuel Hp) as HL. set (h := Z.shiftr p 1) in *.
    set (lv := Z.of_nat (bb_len value)) in *.
    assert (lv * 1 <= lv * p) as G1 by (apply Z.mul_le_mono_nonneg_l; lia).
    assert (wp (if Z.odd p then buf_mul_self c result value temp else Ret (result, temp)) (fun st =>
      isbuf size (fst st) (r * (if Z.odd p then v else 1)) /\ bb_bits (snd st) = zeros size /\
      Z.of_nat (bb_len (fst st)) <= Z.of_nat (bb_len result) + (if Z.odd p then lv else 0))) as W.
    { destruct (Z.odd p).
      - eapply wp_mono; [apply buf_mul_self_spec; eauto; lia|]. intros st (A & B & C).
        split; [exact A|]. split; [exact B|]. lia.
      - wstep. cbn [fst snd]. rewrite Z.mul_1_r. split; [exact Hr|]. split; [exact Ht|]. lia. }
    assert ((if Z.odd p then buf_mul_self_w None c result value temp else Ret (result, temp)) =
      if Z.odd p && (limbs32 r && limbs32 v) then UB
      else if Z.odd p then buf_mul_self c result value temp else Ret (result, temp)) as ->.
    { destruct (Z.odd p); [|reflexivity]. cbn [andb]. eapply buf_mul_self_w_eq; eauto. lia. }
    destruct (Z.odd p && (limbs32 r && limbs32 v)); [reflexivity|]. cbn [negb andb].
    apply wp_inv in W. destruct W as ((r1, t1) & -> & R1 & T1 & L1). cbn [fst snd bind] in *.
    destruct (Z.eqb_spec p 1) as [P1|P1]; cbn [negb].
    + cbn [bind]. assert (h = 0) as -> by (unfold h; rewrite P1; reflexivity).
      destruct fuel; reflexivity.
    + assert (lv * 2 <= lv * p) as G2 by (apply Z.mul_le_mono_nonneg_l; lia).
      rewrite (buf_square_self_w_eq c size value t1 v) by (auto; lia).
      destruct (limbs32 v) eqn:L32; [reflexivity|]. cbn [negb andb].
      pose proof (buf_square_self_spec c size value t1 v Hv T1 ltac:(lia)) as W2.
      apply wp_inv in W2. destruct W2 as ((v1, t2) & -> & A & B & C). cbn [fst snd bind] in *.
      apply (IH h v1 r1 t2 (v * v)); eauto.
      assert (Z.of_nat (bb_len v1) * h <= (lv + lv) * h) by (apply Z.mul_le_mono_nonneg_r; lia).
      assert (lv * p = (lv + lv) * h + (if Z.odd p then lv else 0)) as F.
      { rewrite E at 1. destruct (Z.odd p); ring. }
      lia.
Qed.

Lemma limbs32_mono a b : 0 <= a <= b -> limbs32 a = true -> limbs32 b = true.
Proof. unfold limbs32. intros H. rewrite !Z.leb_le. lia. Qed.

Lemma pow_small_closed fuel : forall p v r,
  0 < p < 2 ^ Z.of_nat fuel -> 1 <= v -> 1 <= r ->
  pow_small fuel p v r =
    negb (((2 <=? p) && limbs32 (v ^ 2 ^ (Z.log2 p - 1))) ||
          (limbs32 (r * v ^ (p - 2 ^ Z.log2 p)) && limbs32 (v ^ 2 ^ Z.log2 p))).
Proof.
  induction fuel as [|fuel IH]; intros p v r Hp Hv Hr.
  { change (2 ^ Z.of_nat 0) with 1 in Hp. lia. }
  cbn [pow_small]. rewrite (proj2 (Z.eqb_neq p 0)) by lia.
  destruct (Z.eqb_spec p 1) as [->|P1].
  { change (Z.odd 1) with true. change (2 <=? 1) with false. change (Z.log2 1) with 0. cbn [andb orb].
    change (1 - 2 ^ 0) with 0. change (2 ^ 0) with 1. rewrite Z.pow_0_r, Z.pow_1_r, Z.mul_1_r, andb_true_r. reflexivity. }
  rewrite (proj2 (Z.leb_le 2 p)) by lia. cbn [andb].
  pose proof (half p) as E. pose proof (half_lt p fuel ltac:(lia)) as HL.
  set (h := Z.shiftr p 1) in *.
  assert (1 <= h) as H1 by (destruct (Z.odd p); lia).
  assert (Z.log2 h = Z.log2 p - 1) as EL.
  { unfold h. rewrite Z.log2_shiftr by lia. apply Z.max_r. pose proof (Z.log2_le_mono 2 p ltac:(lia)) as L2.
    change (Z.log2 2) with 1 in L2. lia. }
  pose proof (Z.log2_nonneg h) as K0. set (k := Z.log2 h) in *. assert (Z.log2 p = k + 1) as EP by lia. rewrite EP.
  replace (k + 1 - 1) with k by ring.
  assert (1 <= r * (if Z.odd p then v else 1)) as Hr'.
  { destruct (Z.odd p); [|lia]. replace 1 with (1 * 1) by reflexivity. apply Z.mul_le_mono_nonneg; lia. }
  rewrite IH by nia. fold k.
  assert (v * v = v ^ 2) as EV by ring.
  assert ((v * v) ^ 2 ^ k = v ^ 2 ^ (k + 1)) as E1.
  { rewrite EV, <- Z.pow_mul_r by lia. f_equal. rewrite Z.pow_add_r by lia. ring. }
  rewrite E1.
  assert (2 ^ k <= h) as Hk by (apply Z.log2_spec; lia).
  assert (r * (if Z.odd p then v else 1) * (v * v) ^ (h - 2 ^ k) = r * v ^ (p - 2 ^ (k + 1))) as E2.
  { rewrite EV, <- Z.pow_mul_r by lia. rewrite <- Z.mul_assoc. f_equal.
    replace (p - 2 ^ (k + 1)) with ((if Z.odd p then 1 else 0) + 2 * (h - 2 ^ k))
      by (rewrite E at 2; rewrite Z.pow_add_r by lia; change (2 ^ 1) with 2; ring).
    rewrite Z.pow_add_r by (destruct (Z.odd p); lia).
    destruct (Z.odd p); [now rewrite Z.pow_1_r|now rewrite Z.pow_0_r]. }
  rewrite E2.
  assert (1 <= 2 ^ k) as P2 by (pose proof (Z.pow_pos_nonneg 2 k); lia).
  assert (v <= v ^ 2 ^ k) as Hm.
  { rewrite <- (Z.pow_1_r v) at 1. apply Z.pow_le_mono_r; lia. }
  assert ((2 <=? h) && limbs32 ((v * v) ^ 2 ^ (k - 1)) = (2 <=? h) && limbs32 (v ^ 2 ^ k)) as E3.
  { destruct (Z.leb_spec 2 h) as [L|L]; [|reflexivity]. cbn [andb]. f_equal.
    assert (1 <= k) as Lk by (apply Z.log2_le_pow2; lia).
    rewrite EV, <- Z.pow_mul_r by (try apply Z.pow_nonneg; lia). f_equal.
    replace k with (1 + (k - 1)) at 2 by ring. rewrite Z.pow_add_r by lia. change (2 ^ 1) with 2. reflexivity. }
  rewrite E3.
  destruct (limbs32 v) eqn:LV.
  - rewrite (limbs32_mono v (v ^ 2 ^ k)) by (auto; lia). rewrite andb_false_l, andb_false_r. reflexivity.
  - cbn [andb negb]. rewrite andb_false_r, andb_false_r. cbn [negb andb].
    destruct (Z.leb_spec 2 h) as [L|L]; [reflexivity|]. cbn [andb orb].
    assert (h = 1) as Eh by lia. assert (k = 0) as -> by (unfold k; rewrite Eh; reflexivity).
    change (2 ^ 0) with 1. rewrite (Z.pow_1_r v), LV. reflexivity.
Qed.

Lemma limbs32_pow_abs x e : 0 <= e -> limbs32 (x ^ e) = limbs32 (Z.abs x ^ e).
Proof. intros H. unfold limbs32. rewrite !Z.abs_pow, Z.abs_involutive. reflexivity. Qed.

Lemma pow_small_win x e :
  1 <= Z.abs x -> 2 <= e < 2 ^ 32 ->
  pow_small bit_fuel e (Z.abs x) 1 =
    negb (limbs32 (x ^ 2 ^ (Z.log2 e - 1)) || limbs32 (x ^ (e - 2 ^ Z.log2 e))).
Proof.
  intros Hx He. rewrite pow_small_closed by (change (Z.of_nat bit_fuel) with 33; lia).
  rewrite (proj2 (Z.leb_le 2 e)) by lia. cbn [andb]. rewrite Z.mul_1_l. do 2 f_equal.
  - symmetry. apply limbs32_pow_abs. apply Z.pow_nonneg. lia.
  - pose proof (Z.log2_spec e ltac:(lia)) as L. pose proof (Z.log2_nonneg e).
    rewrite Z.pow_succ_r in L by lia.
    rewrite (limbs32_pow_abs x) by lia.
    destruct (limbs32 (Z.abs x ^ (e - 2 ^ Z.log2 e))) eqn:E; [|reflexivity]. cbn [andb].
    apply (limbs32_mono (Z.abs x ^ (e - 2 ^ Z.log2 e))); [|assumption].
    split; [apply Z.pow_nonneg; lia|apply Z.pow_le_mono_r; lia].
Qed.

Lemma pow_core_w_eq c size p value v :
  0 <= p < 2 ^ 32 -> isbuf size value v -> 1 + Z.of_nat (bb_len value) * p <= Z.of_nat size ->
  pow_core_w None c p value = if pow_small bit_fuel p v 1 then pow_core c p value else UB.
Proof.
  intros Hp Hv Hn. unfold pow_core_w, pow_core. pose proof Hv as [Sz _ _ _ _ _]. rewrite Sz. cbv zeta.
  assert (0 <= Z.of_nat (bb_len value) * p) by (apply Z.mul_nonneg_nonneg; lia).
  pose proof (buf_of_u_spec size 0 ltac:(num; lia) ltac:(lia)) as W0. apply wp_inv in W0.
  destruct W0 as (temp & -> & T & _). cbn [bind].
  pose proof (buf_of_u_spec size 1 ltac:(num; lia) ltac:(lia)) as W0. apply wp_inv in W0.
  destruct W0 as (result & -> & R & RL). cbn [bind].
  rewrite (pow_core_loop_w_eq bit_fuel c size p value result temp v 1); auto.
  - destruct (pow_small bit_fuel p v 1); reflexivity.
  - change (Z.of_nat bit_fuel) with 33. lia.
  - pose proof T as [TS TL TV _ _ _]. rewrite (val_zero_zeros _ TL TV). now rewrite TS.
  - lia.
Qed.

Lemma calc_pow_u_w_eq c v p :
  limb v -> 0 <= p < 2 ^ 32 ->
  calc_pow_u_w None c v p =
    if (1 + p <? INT_MAX) && negb (pow_small bit_fuel p v 1) then UB else calc_pow_u c v p.
Proof.
  intros Hv Hp. unfold calc_pow_u_w, calc_pow_u, pow_bound.
  rewrite pow_bound_exact by (change (Z.of_nat bit_fuel) with 33; num; lia). rewrite Z.mul_1_l.
  destruct (Z.ltb_spec (1 + p) INT_MAX); [|reflexivity]. cbn [bind andb].
  pose proof (buf_of_u_spec (Z.to_nat (1 + p)) v Hv ltac:(lia)) as W. apply wp_inv in W.
  destruct W as (b & -> & B & L). cbn [bind].
  rewrite (pow_core_w_eq c _ p b v) with (2 := B); auto.
  - destruct (pow_small bit_fuel p v 1); reflexivity.
  - assert (Z.of_nat (bb_len b) * p <= 1 * p) by (apply Z.mul_le_mono_nonneg_r; lia). lia.
Qed.

Lemma calc_pow_v_w_eq c l p :
  limbs l -> l <> [] -> 0 < p < 2 ^ 32 ->
  calc_pow_v_w None c l p =
    if (1 + Z.of_nat (length l) * p <? INT_MAX) && negb (pow_small bit_fuel p (val l) 1) then UB else calc_pow_v c l p.
Proof.
  intros Hl Hne Hp. unfold calc_pow_v_w, calc_pow_v, pow_bound.
  assert (1 <= length l)%nat as H1 by (destruct l; [congruence|cbn [length]; lia]).
  rewrite pow_bound_exact by (change (Z.of_nat bit_fuel) with 33; num; lia).
  destruct (Z.ltb_spec (1 + Z.of_nat (length l) * p) INT_MAX); [|reflexivity]. cbn [bind andb].
  assert (Z.of_nat (length l) * 1 <= Z.of_nat (length l) * p) as G by (apply Z.mul_le_mono_nonneg_l; lia).
  set (size := Z.to_nat (1 + Z.of_nat (length l) * p)).
  pose proof (val_bound l Hl) as VB. pose proof (Bp_le (length l) size ltac:(lia)) as BL.
  pose proof (buf_of_v_spec size l Hl ltac:(lia)) as W. apply wp_inv in W. destruct W as (b & -> & B). cbn [bind].
  rewrite (pow_core_w_eq c size p b (val l)); auto; [destruct (pow_small bit_fuel p (val l) 1); reflexivity|lia|].
  pose proof B as [_ _ _ _ _ Lo].
  assert (bb_len b <= length l)%nat as Lb.
  { destruct (Nat.le_gt_cases (bb_len b) (length l)) as [|K]; [assumption|exfalso].
    specialize (Lo ltac:(lia)). pose proof (Bp_le (length l) (bb_len b - 1) ltac:(lia)). lia. }
  assert (Z.of_nat (bb_len b) * p <= Z.of_nat (length l) * p) by (apply Z.mul_le_mono_nonneg_r; lia). lia.
Qed.

Lemma limbs32_unit_pow x e : Z.abs x <= 1 -> limbs32 (x ^ e) = false.
Proof.
  intros H. destruct (Z.le_gt_cases 0 e) as [G|G]; [|now rewrite Z.pow_neg_r].
  unfold limbs32. rewrite Z.abs_pow. apply Z.leb_gt. eapply Z.le_lt_trans with (m := 1); [|reflexivity].
  rewrite <- (Z.pow_1_l e) by assumption. apply Z.pow_le_mono_l. lia.
Qed.

Lemma bi_pow_w_exact c a x e n :
  represents a x -> limb_count x n -> - 2 ^ 31 <= e < 2 ^ 31 ->
  (e < 0 -> bi_pow_w None c a e = Throw OutOfRange) /\
  (0 <= e -> Z.abs x <= 1 \/ e <= 1 \/ n * e + 1 < 2 ^ 31 - 1 -> meets (bi_pow_w None c a e) (win_power x e)) /\
  (1 < e -> 1 < Z.abs x -> 2 ^ 31 - 1 <= n * e + 1 -> bi_pow_w None c a e = Throw OverflowError).
Proof.
  intros Ha Hn He. pose proof (bi_pow_family c a x e n Ha Hn He) as (F1 & F2 & F3).
  pose proof (limb_count_length a x n Ha Hn) as En. unfold bi_pow in F1, F2, F3. unfold bi_pow_w.
  destruct (Z.ltb_spec e 0) as [E|E].
  { split; [auto|]. split; lia. }
  split; [lia|]. rewrite (assert_valid_ok c a x Ha) in *. cbn [bind] in *.
  unfold win_power.
  destruct (Z.eqb_spec e 0) as [->|E0].
  { split; [|lia]. intros _ H. cbn [Z.log2]. change (2 ^ (0 - 1)) with 0. change (0 - 2 ^ 0) with (-1).
    rewrite Z.pow_0_r, (Z.pow_neg_r x (-1)) by lia. apply F2; auto; lia. }
  destruct (Z.eqb_spec e 1) as [->|E1].
  { split; [|lia]. intros _ H. cbn [Z.log2]. change (2 ^ (0 - 1)) with 0. change (1 - 2 ^ 0) with 0.
    rewrite Z.pow_0_r. apply F2; auto; lia. }
  specialize (F2 E). clear F1.
  pose proof Ha as Pa. apply repr_parts in Pa. destruct a as [s l]. cbn [sign_of bits_of] in *.
  inv_parts Pa; nils.
  - cbn [is_nil andb length] in *.
    destruct (Z.eqb_spec x 1) as [->|X1].
    { split; [|lia]. intros _ H. rewrite !limbs32_unit_pow by lia. apply F2. lia. }
    destruct (Z.eqb_spec x (-1)) as [->|X2].
    { split; [|lia]. intros _ H. rewrite !limbs32_unit_pow by lia. apply F2. lia. }
    destruct (Z.eqb_spec x 0) as [->|X3].
    { split; [|lia]. intros _ H. rewrite !limbs32_unit_pow by lia. apply F2. lia. }
    rewrite abs32_ok in * by (num; lia). cbn [bind] in *. rewrite abs32_ok in * by (num; lia). cbn [bind] in *.
    rewrite (Z.abs_eq e) in * by lia.
    rewrite calc_pow_u_w_eq by (num; lia). rewrite pow_small_win by lia. rewrite negb_involutive.
    split.
    + intros _ H.
      rewrite (proj2 (Z.ltb_lt (1 + e) INT_MAX)) by (num; lia). cbn [andb].
      destruct (limbs32 (x ^ 2 ^ (Z.log2 e - 1)) || limbs32 (x ^ (e - 2 ^ Z.log2 e))); [cbn [meets bind]; reflexivity|].
      apply F2. lia.
    + intros. rewrite (proj2 (Z.ltb_ge (1 + e) INT_MAX)) by (num; lia). cbn [andb]. apply F3; lia.
  - rewrite is_nil_ne in * by assumption. cbn [andb] in *.
    rewrite abs32_ok in * by (num; lia). cbn [bind] in *. rewrite (Z.abs_eq e) in * by lia.
    assert (Z.abs (s * val l) = val l) as Ea by (signs; lia).
    assert (1 <= Z.of_nat (length l)) as L1 by (destruct l; [congruence|cbn [length]; lia]).
    rewrite (Z.max_r 1 (Z.of_nat (length l))) in * by lia.
    rewrite calc_pow_v_w_eq by (assumption || lia). 
    replace (pow_small bit_fuel e (val l) 1) with (pow_small bit_fuel e (Z.abs (s * val l)) 1) by now rewrite Ea.
    rewrite pow_small_win by lia. rewrite negb_involutive.
    split.
    + intros _ H.
      rewrite (proj2 (Z.ltb_lt _ INT_MAX)) by (num; lia). cbn [andb].
      destruct (limbs32 ((s * val l) ^ 2 ^ (Z.log2 e - 1)) || limbs32 ((s * val l) ^ (e - 2 ^ Z.log2 e))); [cbn [meets bind]; reflexivity|].
      apply F2. lia.
    + intros. rewrite (proj2 (Z.ltb_ge _ INT_MAX)) by (num; lia). cbn [andb]. apply F3; lia.
Qed.
