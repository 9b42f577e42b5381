(** Correctness of src/BigIntegerCalculator/DivRem.cpp. *)
From Verif Require Import Facts CalcAddSub AddSubFacts CalcDivRem.

Ltac Zify.zify_post_hook ::= idtac.

(** ** Division by one limb *)

Lemma lor_carry carry l :
  limb carry -> limb l -> Z.lor (u64 (Z.shiftl carry 32)) l = carry * W32 + l.
Proof.
  intros Hc Hl. rewrite Z.shiftl_mul_pow2 by lia. change (2 ^ 32) with W32.
  rewrite u64_small by (num; lia). now apply lor_shl32.
Qed.

Lemma div_step_arith carry l rhs :
  0 <= carry < rhs -> limb l -> limb rhs ->
  let value := carry * W32 + l in
  0 <= value / rhs < W32 /\ 0 <= value mod rhs < rhs /\
  value = value / rhs * rhs + value mod rhs /\
  u64 (value - u64 (value / rhs * rhs)) = value mod rhs.
Proof.
  intros Hc Hl Hr value.
  assert (0 <= value < rhs * W32) as Hv by (unfold value; num; nia).
  pose proof (Z.div_mod value rhs ltac:(lia)) as Hdm.
  pose proof (Z.mod_pos_bound value rhs ltac:(lia)) as Hm.
  assert (0 <= value / rhs < W32) as Hq.
  { split; [apply Z.div_pos; lia|]. apply Z.div_lt_upper_bound; lia. }
  assert (value = value / rhs * rhs + value mod rhs) as Heq by lia.
  repeat split; try lia.
  rewrite (u64_small (value / rhs * rhs)) by (num; lia).
  rewrite u64_small by (num; lia). lia.
Qed.

Lemma calc_divrem_u_spec c lhs rhs :
  lhs <> [] -> limbs lhs -> limb rhs -> rhs <> 0 ->
  wp (calc_divrem_u c lhs rhs) (fun qr =>
    let '(q, r) := qr in
    length q = length lhs /\ limbs q /\ 0 <= r < rhs /\ val lhs = val q * rhs + r).
Proof.
  intros Hne Hl Hr Hr0. unfold calc_divrem_u.
  wstep. wstep; [now rewrite is_nil_false|]. wstep.
  eapply wp_for_down with (I := fun i st =>
    let '(q, carry) := st in
    length q = length lhs /\ limbs q /\ 0 <= carry < rhs /\
    val (skipn i lhs) = val (skipn i q) * rhs + carry).
  - repeat split; try (num; lia); auto using limbs_zeros, length_zeros.
    rewrite skipn_all, skipn_all2 by (rewrite length_zeros; lia). cbn [val]. lia.
  - intros i [q carry] Hi (Hq & Hlq & Hc & Hv).
    pose proof (limbs_nth _ i Hl) as H0.
    wstep. wstep; [assumption|]. cbv zeta.
    rewrite lor_carry by (auto; num; lia).
    destruct (Z.eqb_spec rhs 0); [lia|].
    destruct (div_step_arith carry (nth i lhs 0) rhs) as (A1 & A2 & A3 & A4); auto.
    unfold udiv. destruct (Z.eqb_spec rhs 0); [lia|].
    repeat wstep; [lia|]. rewrite A4, u32_small by assumption.
    repeat split; try lia.
    + now rewrite length_upd.
    + apply limbs_upd; auto.
    + rewrite skipn_upd_at, skipn_nth by lia. cbn [val]. rewrite Hv. lia.
  - intros [q carry] (Hq & Hlq & Hc & Hv). wstep. cbn [skipn] in Hv.
    rewrite u32_small by (num; lia). auto.
Qed.

Lemma calc_div_u_eq c lhs rhs :
  calc_div_u c lhs rhs = bind (calc_divrem_u c lhs rhs) (fun qr => Ret (fst qr)).
Proof.
  unfold calc_div_u, calc_divrem_u. destruct (massert c _); cbn [bind]; auto.
  match goal with |- bind ?m _ = _ => destruct m as [[? ?]| | | |] end; reflexivity.
Qed.

Lemma calc_div_u_spec c lhs rhs :
  lhs <> [] -> limbs lhs -> limb rhs -> rhs <> 0 ->
  wp (calc_div_u c lhs rhs) (fun q =>
    length q = length lhs /\ limbs q /\ val q = val lhs / rhs).
Proof.
  intros. rewrite calc_div_u_eq. wstep.
  eapply wp_mono; [apply calc_divrem_u_spec; auto|].
  intros [q r] (A & B & C & D). wstep. repeat split; auto.
  apply Z.div_unique with r; [lia|]. cbn [fst]. lia.
Qed.

Lemma calc_rem_u_spec c lhs rhs :
  lhs <> [] -> limbs lhs -> limb rhs -> rhs <> 0 ->
  wp (calc_rem_u c lhs rhs) (fun r => r = val lhs mod rhs).
Proof.
  intros Hne Hl Hr Hr0. unfold calc_rem_u.
  wstep. wstep; [now rewrite is_nil_false|]. wstep.
  eapply wp_for_down with (I := fun i carry =>
    0 <= carry < rhs /\ exists k, val (skipn i lhs) = k * rhs + carry).
  - split; [num; lia|]. exists 0. rewrite skipn_all. cbn [val]. lia.
  - intros i carry Hi (Hc & k & Hv).
    pose proof (limbs_nth _ i Hl) as H0.
    wstep. wstep; [assumption|]. cbv zeta.
    rewrite lor_carry by (auto; num; lia).
    destruct (Z.eqb_spec rhs 0); [lia|].
    destruct (div_step_arith carry (nth i lhs 0) rhs) as (A1 & A2 & A3 & A4); auto.
    unfold umod. destruct (Z.eqb_spec rhs 0); [lia|].
    repeat wstep. split; [assumption|].
    exists (W32 * k + (carry * W32 + nth i lhs 0) / rhs).
    rewrite skipn_nth by lia. cbn [val]. rewrite Hv. lia.
  - intros carry (Hc & k & Hv). wstep. cbn [skipn] in Hv.
    rewrite u32_small by (num; lia).
    apply Z.mod_unique with k; lia.
Qed.

(** Division by zero throws before anything is computed. *)
Lemma for_down_throw {S : Type} n (body : nat -> S -> outcome S) s e :
  (0 < n)%nat -> (forall i s, (i < n)%nat -> body i s = Throw e) ->
  for_down n body s = Throw e.
Proof. intros Hn H. destruct n as [|n]; [lia|]. cbn [for_down]. rewrite H by lia. reflexivity. Qed.

Lemma calc_divrem_u_zero c lhs :
  lhs <> [] -> calc_divrem_u c lhs 0 = Throw DivideByZero.
Proof.
  intros Hne. unfold calc_divrem_u, massert. rewrite is_nil_false by assumption.
  rewrite for_down_throw with (e := DivideByZero).
  - now destruct (dbg c).
  - destruct lhs; [congruence|simpl; lia].
  - intros i [q k] Hi. unfold rd. rewrite (nth_error_nth' _ 0) by assumption. reflexivity.
Qed.

Lemma calc_div_u_zero c lhs : lhs <> [] -> calc_div_u c lhs 0 = Throw DivideByZero.
Proof. intros. rewrite calc_div_u_eq, calc_divrem_u_zero; auto. Qed.

Lemma calc_rem_u_zero c lhs :
  lhs <> [] -> calc_rem_u c lhs 0 = Throw DivideByZero.
Proof.
  intros Hne. unfold calc_rem_u, massert. rewrite is_nil_false by assumption.
  rewrite for_down_throw with (e := DivideByZero).
  - now destruct (dbg c).
  - destruct lhs; [congruence|simpl; lia].
  - intros i k Hi. unfold rd. rewrite (nth_error_nth' _ 0) by assumption. reflexivity.
Qed.

(** ** leading_zeros *)

Lemma leading_zeros_spec x :
  0 < x < W32 ->
  0 <= leading_zeros x < 32 /\ 2147483648 <= x * 2 ^ leading_zeros x < W32.
Proof.
  intros Hx. unfold leading_zeros. destruct (Z.eqb_spec x 0); [lia|].
  (* each stage keeps: v = x * 2^count, v < 2^32, v >= 2^b *)
  assert (forall v count a b m k, k = a ->
    0 <= a -> 0 <= b -> a + b = 32 -> m = Z.shiftl (Z.ones a) b ->
    0 <= count -> 0 < v < W32 -> v = x * 2 ^ count ->
    let r := if Z.land v m =? 0 then (count + k, u32 (Z.shiftl v k)) else (count, v) in
    2 ^ (2 * b - 32) <= v ->
    count <= fst r <= count + k /\ 0 < snd r < W32 /\ snd r = x * 2 ^ fst r /\ 2 ^ b <= snd r) as Stage.
  { intros v count a b m k -> Ha Hb Hab Hm Hc Hv Hvx r Hlow. unfold r.
    rewrite (land_himask_zero v a b m) by (auto; rewrite Hab; change (2 ^ 32) with W32; lia).
    destruct (Z.ltb_spec v (2 ^ b)) as [Hlt|Hge]; cbn [fst snd]; [|lia].
    rewrite Z.shiftl_mul_pow2 by lia.
    assert (v * 2 ^ a < W32).
    { change W32 with (2 ^ 32). rewrite <- Hab, Z.pow_add_r by lia.
      pose proof (pow2_pos a Ha). nia. }
    pose proof (pow2_pos a Ha).
    rewrite u32_small by nia.
    repeat split; try lia; try nia.
    - rewrite Hvx, Z.pow_add_r by lia. ring.
    - destruct (Z.le_gt_cases 0 (2 * b - 32)).
      + replace (2 ^ b) with (2 ^ (2 * b - 32) * 2 ^ a).
        * nia.
        * rewrite <- Z.pow_add_r by lia. f_equal. lia.
      + assert (2 ^ b <= 2 ^ a) by (apply Z.pow_le_mono_r; lia). nia. }
  assert (Z.land x 4294901760 = Z.land x (Z.shiftl (Z.ones 16) 16)) as Em by reflexivity.
  pose proof (Stage x 0 16 16 4294901760 16 eq_refl ltac:(lia) ltac:(lia) eq_refl eq_refl
    ltac:(lia) Hx ltac:(change (2 ^ 0) with 1; lia) ltac:(change (2 ^ (2 * 16 - 32)) with 1; lia)) as S1.
  destruct (if Z.land x 4294901760 =? 0 then (16, u32 (Z.shiftl x 16)) else (0, x)) as [c1 v1] eqn:E1.
  assert (S1' : 0 <= c1 <= 16 /\ 0 < v1 < W32 /\ v1 = x * 2 ^ c1 /\ 2 ^ 16 <= v1).
  { change (0 + 16) with 16 in S1. rewrite E1 in S1. exact S1. }
  clear S1 E1. destruct S1' as (A1 & B1 & C1 & D1).
  pose proof (Stage v1 c1 8 24 4278190080 8 eq_refl ltac:(lia) ltac:(lia) eq_refl eq_refl
    ltac:(lia) B1 C1 D1) as S2. cbv zeta in S2.
  destruct (if Z.land v1 4278190080 =? 0 then (c1 + 8, u32 (Z.shiftl v1 8)) else (c1, v1)) as [c2 v2].
  destruct S2 as (A2 & B2 & C2 & D2). cbn [fst snd] in *.
  pose proof (Stage v2 c2 4 28 4026531840 4 eq_refl ltac:(lia) ltac:(lia) eq_refl eq_refl
    ltac:(lia) B2 C2 D2) as S3. cbv zeta in S3.
  destruct (if Z.land v2 4026531840 =? 0 then (c2 + 4, u32 (Z.shiftl v2 4)) else (c2, v2)) as [c3 v3].
  destruct S3 as (A3 & B3 & C3 & D3). cbn [fst snd] in *.
  pose proof (Stage v3 c3 2 30 3221225472 2 eq_refl ltac:(lia) ltac:(lia) eq_refl eq_refl
    ltac:(lia) B3 C3 D3) as S4. cbv zeta in S4.
  destruct (if Z.land v3 3221225472 =? 0 then (c3 + 2, u32 (Z.shiftl v3 2)) else (c3, v3)) as [c4 v4].
  destruct S4 as (A4 & B4 & C4 & D4). cbn [fst snd] in *.
  pose proof (Stage v4 c4 1 31 2147483648 1 eq_refl ltac:(lia) ltac:(lia) eq_refl eq_refl
    ltac:(lia) B4 C4 D4) as S5. cbv zeta in S5.
  change (2 ^ 31) with 2147483648 in S5.
  destruct (Z.land v4 2147483648 =? 0); cbn [fst snd] in S5;
    destruct S5 as (A5 & B5 & C5 & D5); rewrite <- C5; lia.
Qed.

(** ** The digit guess *)

(** [d], [v] are the leading parts of the divisor [D] and the dividend [X];
    [qs] is the true quotient digit. *)
Lemma guess_bounds P D X d dr v wr dHi dLo vHi vLo qs :
  0 < P -> D = d * P + dr -> 0 <= dr < P -> X = v * P + wr -> 0 <= wr < P ->
  d = dHi * W32 + dLo -> limb dLo -> v = vHi * W32 + vLo -> limb vLo ->
  2147483648 <= dHi < W32 -> 0 <= vHi ->
  qs * D <= X < (qs + 1) * D -> 0 <= qs < W32 ->
  let q := Z.min UINT_MAX (v / d) in
  let q0 := Z.min UINT_MAX (vHi / dHi) in
  qs <= q <= qs + 1 /\ q <= q0 <= q + 2.
Proof.
  intros HP HD Hdr HX Hwr Hd HdLo Hv HvLo HdHi HvHi Hq Hqr q q0.
  unfold UINT_MAX in *.
  assert (0 < d) as Hd0 by (num; lia).
  assert (qs * d <= v) as H1.
  { destruct (Z.le_gt_cases (qs * d) v) as [|Hgt]; [assumption|exfalso].
    assert ((v + 1) * P <= qs * d * P) as E1 by (apply Z.mul_le_mono_nonneg_r; lia).
    assert (0 <= qs * dr) as E2 by (apply Z.mul_nonneg_nonneg; lia).
    rewrite HD in Hq. lia. }
  assert (qs <= v / d) as H2 by (apply Z.div_le_lower_bound; lia).
  pose proof (Z.mul_div_le v d Hd0) as H3.
  pose proof (Z.mul_succ_div_gt v d Hd0) as H4.
  set (k := v / d) in *. clearbody k.
  assert (k * dHi <= vHi) as H5.
  { assert (0 <= k * dLo) by (apply Z.mul_nonneg_nonneg; num; lia).
    assert (k * dHi * W32 <= d * k) by (rewrite Hd; lia).
    num. lia. }
  assert (k <= vHi / dHi) as H6 by (apply Z.div_le_lower_bound; lia).
  pose proof (Z.mul_div_le vHi dHi ltac:(lia)) as H10.
  set (g := vHi / dHi) in *. clearbody g.
  assert (q <= qs + 1) as H7.
  { destruct (Z.le_gt_cases q (qs + 1)) as [|Hgt]; [assumption|exfalso].
    assert ((qs + 2) * d <= k * d) as E1 by (apply Z.mul_le_mono_nonneg_r; lia).
    assert ((qs + 2) * d * P <= v * P) as E2 by (apply Z.mul_le_mono_nonneg_r; lia).
    assert ((qs + 1) * dr <= (qs + 1) * P) as E3 by (apply Z.mul_le_mono_nonneg_l; lia).
    rewrite HD in Hq.
    assert (d * P < (qs + 1) * P) as E4 by lia.
    apply Z.mul_lt_mono_pos_r in E4; [|assumption]. num. lia. }
  assert (q0 <= q + 2) as H8.
  { destruct (Z.le_gt_cases 4294967295 k) as [Hb|Hb].
    { unfold q, q0. lia. }
    assert (g <= k + 2) as H9.
    { destruct (Z.le_gt_cases g (k + 2)) as [|Hgt]; [assumption|exfalso].
      assert (dHi * (k + 3) <= dHi * g) as E1 by (apply Z.mul_le_mono_nonneg_l; lia).
      assert (v < (k + 1) * dHi * W32 + (k + 1) * dLo) as E2 by (rewrite Hd in H4; lia).
      assert ((k + 1) * dLo <= (k + 1) * W32) as E3 by (apply Z.mul_le_mono_nonneg_l; num; lia).
      num. lia. }
    unfold q, q0. lia. }
  unfold q, q0 in *. num. lia.
Qed.

Lemma divide_guess_too_big_spec c q vHi vLo dHi dLo :
  0 <= q < W32 -> limb vLo -> 0 <= vHi -> limb dHi -> limb dLo ->
  divide_guess_too_big c q vHi vLo dHi dLo =
  Ret (vHi * W32 + vLo <? q * (dHi * W32 + dLo)).
Proof.
  intros Hq HvLo HvHi HdHi HdLo. unfold divide_guess_too_big, massert, UINT_MAX.
  assert ((q <=? 4294967295) = true) as -> by (apply Z.leb_le; num; lia).
  replace (if dbg c then if true then Ret tt else AssertFail else Ret tt) with (Ret tt)
    by now destruct (dbg c).
  cbn [bind].
  assert (0 <= dHi * q <= (W32 - 1) * (W32 - 1)) as H1 by (num; nia).
  assert (0 <= dLo * q <= (W32 - 1) * (W32 - 1)) as H2 by (num; nia).
  rewrite (u64_small (dHi * q)), (u64_small (dLo * q)) by (num; lia).
  set (lo := dLo * q) in *.
  pose proof (split32 lo) as Hs. pose proof (u32_range lo) as Hr.
  assert (0 <= Z.shiftr lo 32 < W32) as Hsr by (apply shiftr32_range; num; lia).
  rewrite u64_small by (num; lia).
  rewrite land_low32. fold (u32 lo).
  set (a := dHi * q + Z.shiftr lo 32).
  assert (q * (dHi * W32 + dLo) = a * W32 + u32 lo) as ->.
  { unfold a. replace (q * (dHi * W32 + dLo)) with (dHi * q * W32 + lo) by (unfold lo; ring). lia. }
  num.
  destruct (Z.ltb_spec a vHi); [|destruct (Z.ltb_spec vHi a);
    [|destruct (Z.ltb_spec (u32 lo) vLo); [|destruct (Z.ltb_spec vLo (u32 lo))]]];
  f_equal; symmetry; first [apply Z.ltb_lt | apply Z.ltb_ge]; lia.
Qed.

Lemma guess_loop_spec fuel c digit vHi vLo dHi dLo q :
  limb vLo -> 0 <= vHi -> limb dHi -> limb dLo ->
  0 < dHi * W32 + dLo ->
  q = Z.min UINT_MAX ((vHi * W32 + vLo) / (dHi * W32 + dLo)) ->
  q <= digit < W32 -> digit <= q + Z.of_nat fuel ->
  guess_loop fuel c digit vHi vLo dHi dLo = Ret q.
Proof.
  intros HvLo HvHi HdHi HdLo Hd Hq. revert digit.
  set (v := vHi * W32 + vLo) in *. set (d := dHi * W32 + dLo) in *.
  assert (0 <= v / d) by (apply Z.div_pos; unfold v; num; lia).
  pose proof (Z.mul_div_le v d Hd) as H3.
  pose proof (Z.mul_succ_div_gt v d Hd) as H4.
  unfold UINT_MAX in *.
  assert (forall x, x * d <= v -> x <= v / d) as H5
    by (intros; apply Z.div_le_lower_bound; lia).
  set (k := v / d) in *. clearbody k.
  assert (forall x, x <= k -> x * d <= v) as H6.
  { intros x Hx. apply Z.le_trans with (k * d); [|lia]. apply Z.mul_le_mono_nonneg_r; lia. }
  induction fuel as [|fuel IH]; intros digit Hdig Hf; cbn [guess_loop].
  - assert (digit = q) as -> by lia.
    rewrite divide_guess_too_big_spec by (auto; lia). cbn [bind]. fold v d.
    destruct (Z.ltb_spec v (q * d)) as [Hlt|]; [|reflexivity].
    pose proof (H6 q ltac:(lia)). lia.
  - rewrite divide_guess_too_big_spec by (auto; lia). cbn [bind]. fold v d.
    destruct (Z.ltb_spec v (digit * d)) as [Hlt|Hge].
    + assert (q < digit).
      { destruct (Z.eq_dec q digit) as [E|]; [exfalso|lia]. pose proof (H6 q ltac:(lia)). subst digit. lia. }
      rewrite u64_small by (num; lia). apply IH; lia.
    + f_equal. pose proof (H5 digit ltac:(lia)). num. lia.
Qed.

(** ** Multiply-and-subtract, add-back *)

Lemma subtract_divisor_spec c lhs rhs q :
  limbs lhs -> limbs rhs -> (length rhs <= length lhs)%nat -> 0 <= q < W32 ->
  wp (subtract_divisor c lhs rhs q) (fun st =>
    let '(l, carry) := st in
    length l = length lhs /\ limbs l /\ limb carry /\
    skipn (length rhs) l = skipn (length rhs) lhs /\
    vl l (length rhs) = vl lhs (length rhs) - q * val rhs + carry * Bp (length rhs)).
Proof.
  intros Hl Hr Hlen Hq. unfold subtract_divisor.
  wstep. wstep; [now apply Nat.leb_le|].
  wstep. wstep; [apply Z.leb_le; unfold UINT_MAX; num; lia|].
  wstep. eapply wp_for_up with (I := fun i st =>
    let '(l, carry) := st in
    length l = length lhs /\ limbs l /\ limb carry /\
    skipn i l = skipn i lhs /\
    vl l i = vl lhs i - q * vl rhs i + carry * Bp i).
  - repeat split; auto; try (num; lia). rewrite !vl_0, Bp_0. ring.
  - intros i [l carry] Hi (Hb & Hlb & Hc & Hs & Hv).
    pose proof (limbs_nth _ i Hl) as H0. pose proof (limbs_nth _ i Hr) as H1.
    pose proof (nth_skipn_eq _ _ _ Hs) as Hnth.
    wstep. wstep; [lia|]. cbv zeta.
    assert (0 <= nth i rhs 0 * q <= (W32 - 1) * (W32 - 1)) as Hp by (num; nia).
    rewrite (u64_small (nth i rhs 0 * q)) by (num; lia).
    rewrite u64_small by (num; lia).
    set (k := carry + nth i rhs 0 * q) in *.
    assert (0 <= k <= W32 * (W32 - 1)) as Hk by (unfold k; num; lia).
    pose proof (split32 k) as Hsp. pose proof (u32_range k) as Hrg.
    assert (0 <= Z.shiftr k 32 < W32) as Hsr by (apply shiftr32_range; num; lia).
    set (g := u32 k) in *. set (h := Z.shiftr k 32) in *.
    wstep. wstep; [lia|]. rewrite Hnth.
    set (x := nth i lhs 0) in *.
    assert (exists b, (if x <? g then u64 (h + 1) else h) = h + b /\
                      u32 (x - g) = x - g + b * W32 /\ limb (h + b)) as (b & E1 & E2 & E3).
    { destruct (Z.ltb_spec x g).
      - exists 1. rewrite u64_small by (num; lia). repeat split; try (num; lia).
        unfold u32. symmetry. apply Z.mod_unique with (-1); num; lia.
      - exists 0. rewrite u32_small by (num; lia). repeat split; num; lia. }
    rewrite E1, E2.
    wstep. wstep; [lia|]. wstep.
    repeat split; try (num; lia).
    + now rewrite length_upd.
    + apply limbs_upd; [assumption|]. rewrite <- E2. apply u32_limb.
    + rewrite skipn_upd by lia. now apply skipn_S_eq.
    + rewrite vl_upd_S, !vl_S, Bp_S, Hv by lia. fold x.
      assert (carry = g + W32 * h - nth i rhs 0 * q) as E by (unfold k in Hsp; lia).
      clearbody g h. rewrite E. ring.
  - intros [l carry] (Hb & Hlb & Hc & Hs & Hv). wstep. rewrite Nat.add_0_l in *.
    rewrite u32_small by assumption. rewrite vl_all in Hv. auto.
Qed.

Lemma add_divisor_spec c lhs rhs :
  limbs lhs -> limbs rhs -> (length rhs <= length lhs)%nat ->
  wp (add_divisor c lhs rhs) (fun st =>
    let '(l, carry) := st in
    length l = length lhs /\ limbs l /\ 0 <= carry <= 1 /\
    skipn (length rhs) l = skipn (length rhs) lhs /\
    vl l (length rhs) + carry * Bp (length rhs) = vl lhs (length rhs) + val rhs).
Proof.
  intros Hl Hr Hlen. unfold add_divisor.
  wstep. wstep; [now apply Nat.leb_le|].
  wstep. eapply wp_for_up with (I := fun i st =>
    let '(l, carry) := st in
    length l = length lhs /\ limbs l /\ 0 <= carry <= 1 /\
    skipn i l = skipn i lhs /\
    vl l i + carry * Bp i = vl lhs i + vl rhs i).
  - repeat split; auto; try (num; lia).
  - intros i [l carry] Hi (Hb & Hlb & Hc & Hs & Hv).
    pose proof (limbs_nth _ i Hl) as H0. pose proof (limbs_nth _ i Hr) as H1.
    pose proof (nth_skipn_eq _ _ _ Hs) as Hnth.
    repeat wstep; try lia. rewrite Hnth.
    rewrite (u64_small (nth i lhs 0 + carry)) by (num; lia).
    rewrite u64_small by (num; lia).
    set (t := nth i lhs 0 + carry + nth i rhs 0).
    assert (0 <= Z.shiftr t 32 < 2) by (apply shiftr32_range; subst t; num; lia).
    repeat split; try lia.
    + now rewrite length_upd.
    + apply limbs_upd; [assumption|apply u32_limb].
    + rewrite skipn_upd by lia. now apply skipn_S_eq.
    + rewrite vl_upd_S, !vl_S, Bp_S by lia.
      rewrite (carry_step _ _ _ (nth i lhs 0 + nth i rhs 0) _ t Hv) by (unfold t; ring). ring.
  - intros [l carry] (Hb & Hlb & Hc & Hs & Hv). wstep. rewrite Nat.add_0_l in *.
    rewrite u32_small by (num; lia). rewrite vl_all in Hv. auto.
Qed.

(** ** Normalisation *)

(** Leading four limbs of a prefix. *)
Lemma top4 l i :
  (1 <= i)%nat -> limbs l ->
  exists rest, 0 <= rest < Bp i /\
  vl l (S i) * (W32 * W32 * W32) =
  ((nth i l 0 * W32 + nth (i - 1) l 0) * (W32 * W32)
   + (if Nat.ltb 1 i then nth (i - 2) l 0 else 0) * W32
   + (if Nat.ltb 2 i then nth (i - 3) l 0 else 0)) * Bp i + rest.
Proof.
  intros Hi Hl. destruct i as [|[|[|k]]]; [lia| | |].
  - exists 0. split; [rewrite Bp_1; num; lia|].
    cbn [Nat.sub Nat.ltb Nat.leb]. rewrite !vl_S, vl_0, !Bp_S, Bp_0. ring.
  - exists 0. split; [pose proof (Bp_pos 2); lia|].
    cbn [Nat.sub Nat.ltb Nat.leb]. rewrite !vl_S, vl_0, !Bp_S, Bp_0. ring.
  - exists (vl l k * (W32 * W32 * W32)).
    pose proof (vl_bound l k Hl) as Hb.
    split; [rewrite !Bp_S; num; lia|].
    change (Nat.ltb 1 (S (S (S k)))) with true. change (Nat.ltb 2 (S (S (S k)))) with true.
    cbv iota.
    replace (S (S (S k)) - 1)%nat with (S (S k)) by lia.
    replace (S (S (S k)) - 2)%nat with (S k) by lia.
    replace (S (S (S k)) - 3)%nat with k by lia.
    rewrite !vl_S, !Bp_S. ring.
Qed.

(** Scaling by s = 2^shift and dropping the low part. *)
Lemma norm_value X N P rest s bs :
  X * (W32 * W32 * W32) = N * P + rest -> 0 <= rest < P ->
  0 < s -> 0 < bs -> s * bs = W32 ->
  exists r, 0 <= r < P /\ X * s * (W32 * W32) = N / bs * P + r.
Proof.
  intros HX Hr Hs Hbs Hsb.
  pose proof (Z.div_mod N bs ltac:(lia)) as Hdm.
  pose proof (Z.mod_pos_bound N bs Hbs) as Hm.
  set (v := N / bs) in *. set (e := N mod bs) in *.
  exists (X * s * (W32 * W32) - v * P). split; [|ring].
  assert (W32 * (X * s * (W32 * W32) - v * P) = s * (e * P + rest)) as E.
  { transitivity (s * (X * (W32 * W32 * W32)) - W32 * (v * P)); [ring|].
    rewrite HX, Hdm, <- Hsb. ring. }
  assert (0 <= e * P <= (bs - 1) * P) as E1.
  { split; [apply Z.mul_nonneg_nonneg; lia|apply Z.mul_le_mono_nonneg_r; lia]. }
  assert (0 <= s * (e * P + rest) < s * (bs * P)) as E2.
  { split; [apply Z.mul_nonneg_nonneg; lia|apply Z.mul_lt_mono_pos_l; lia]. }
  replace (s * (bs * P)) with (W32 * P) in E2 by (rewrite <- Hsb; ring).
  num. lia.
Qed.

Lemma norm_digits hi lo nx shift :
  0 < shift < 32 -> 0 <= hi -> limb lo -> limb nx ->
  let s := 2 ^ shift in let bs := 2 ^ (32 - shift) in
  let h := Z.lor (hi * s) (Z.shiftr lo (32 - shift)) in
  let l := Z.lor (u32 (Z.shiftl lo shift)) (Z.shiftr nx (32 - shift)) in
  h * W32 + l = (hi * (W32 * W32) + lo * W32 + nx) / bs /\ limb l /\ 0 <= h.
Proof.
  intros Hsh Hhi Hlo Hnx s bs h l.
  assert (0 < s) as Hs0 by (apply pow2_pos; lia).
  assert (0 < bs) as Hb0 by (apply pow2_pos; lia).
  assert (s * bs = W32) as Hsb.
  { unfold s, bs. rewrite <- Z.pow_add_r by lia. replace (shift + (32 - shift)) with 32 by lia. reflexivity. }
  assert (forall x, limb x -> 0 <= x / bs < s) as Hdiv.
  { intros x Hx. split; [apply Z.div_pos; num; lia|]. apply Z.div_lt_upper_bound; [lia|].
    num. lia. }
  assert (h = hi * s + lo / bs) as Eh.
  { unfold h. rewrite Z.shiftr_div_pow2 by lia. fold bs. apply lor_add; [lia|apply Hdiv; auto]. }
  pose proof (Z.div_mod lo bs ltac:(lia)) as Hdm.
  pose proof (Z.mod_pos_bound lo bs Hb0) as Hm.
  assert (u32 (Z.shiftl lo shift) = (lo mod bs) * s) as Eu.
  { rewrite Z.shiftl_mul_pow2 by lia. fold s. unfold u32.
    symmetry. apply Z.mod_unique with (lo / bs).
    - left. rewrite <- Hsb. nia.
    - rewrite <- Hsb. nia. }
  assert (l = (lo mod bs) * s + nx / bs) as El.
  { unfold l. rewrite Eu, Z.shiftr_div_pow2 by lia. fold bs. apply lor_add; [lia|apply Hdiv; auto]. }
  pose proof (Hdiv lo Hlo). pose proof (Hdiv nx Hnx).
  repeat split.
  - replace (hi * (W32 * W32) + lo * W32 + nx) with ((hi * W32 * s + lo * s) * bs + nx)
      by (rewrite <- Hsb; ring).
    rewrite Z.div_add_l by lia. rewrite Eh, El. rewrite <- Hsb. nia.
  - rewrite El. nia.
  - rewrite El, <- Hsb. nia.
  - rewrite Eh. nia.
Qed.
