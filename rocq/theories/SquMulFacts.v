(** Correctness of src/BigIntegerCalculator/SquMul.cpp. *)
From Verif Require Import Facts CalcAddSub AddSubFacts CalcSquMul.

Lemma calc_subtract_core_spec c lhs rhs core :
  limbs lhs -> limbs rhs -> limbs core ->
  (length rhs <= length lhs)%nat -> (length lhs <= length core)%nat ->
  val lhs + val rhs <= val core ->
  wp (calc_subtract_core c lhs rhs core)
     (fun r => length r = length core /\ limbs r /\ val r = val core - val lhs - val rhs).
Proof.
  intros Hl Hr Hk Hlen1 Hlen2 Hfit. unfold calc_subtract_core.
  wstep. wstep. { now apply Nat.leb_le. }
  wstep. wstep. { now apply Nat.leb_le. }
  set (I := fun i (st : list Z * Z) =>
    let '(b, carry) := st in
    length b = length core /\ limbs b /\ skipn i b = skipn i core /\ -2 <= carry <= 0 /\
    vl b i + carry * Bp i = vl core i - vl lhs i - vl rhs i).
  wstep. eapply wp_for_up with (I := I).
  - unfold I. repeat split; try lia; auto.
  - intros i [b carry] Hi (Hb & Hlb & Hs & Hc & Hv).
    pose proof (limbs_nth _ i Hl) as H0. pose proof (limbs_nth _ i Hr) as H1.
    pose proof (limbs_nth _ i Hk) as H2.
    pose proof (nth_skipn_eq _ _ _ Hs) as Hnth.
    repeat wstep; rewrite ?Hnth; try lia; try (num; lia).
    set (t := nth i core 0 + carry - nth i lhs 0 - nth i rhs 0).
    assert (-2 <= Z.shiftr t 32 < 1).
    { apply shiftr32_range. subst t. num; lia. }
    unfold I. repeat split; try lia.
    + rewrite length_upd; lia.
    + apply limbs_upd; [assumption|apply u32_limb].
    + rewrite skipn_upd by lia. now apply skipn_S_eq.
    + rewrite vl_upd_S, !vl_S, Bp_S by lia.
      rewrite (carry_step _ _ _ (nth i core 0 - nth i lhs 0 - nth i rhs 0) _ t Hv)
        by (unfold t; ring). ring.
  - intros [b carry] HI. wstep.
    eapply wp_for_up with (I := I); [exact HI| |].
    + intros i [b' carry'] Hi (Hb & Hlb & Hs & Hc & Hv).
      pose proof (limbs_nth _ i Hl) as H0. pose proof (limbs_nth _ i Hk) as H2.
      pose proof (nth_skipn_eq _ _ _ Hs) as Hnth.
      repeat wstep; rewrite ?Hnth; try lia; try (num; lia).
      set (t := nth i core 0 + carry' - nth i lhs 0).
      assert (-2 <= Z.shiftr t 32 < 1).
      { apply shiftr32_range. subst t. num; lia. }
      unfold I. repeat split; try lia.
      * rewrite length_upd; lia.
      * apply limbs_upd; [assumption|apply u32_limb].
      * rewrite skipn_upd by lia. now apply skipn_S_eq.
      * rewrite vl_upd_S, !vl_S, Bp_S by lia. rewrite (nth_beyond rhs) by lia.
        rewrite (carry_step _ _ _ (nth i core 0 - nth i lhs 0) _ t Hv) by (unfold t; ring). ring.
    + clear b carry HI. intros [b carry] HI.
      replace (length rhs + (length lhs - length rhs))%nat with (length lhs) in * by lia.
      wstep. eapply wp_for_up_while with (I := I); [exact HI| |].
      * intros i [b' carry'] Hi _ (Hb & Hlb & Hs & Hc & Hv).
        pose proof (limbs_nth _ i Hk) as H2.
        pose proof (nth_skipn_eq _ _ _ Hs) as Hnth.
        repeat wstep; rewrite ?Hnth; try lia; try (num; lia).
        set (t := nth i core 0 + carry').
        assert (-2 <= Z.shiftr t 32 < 1).
        { apply shiftr32_range. subst t. num; lia. }
        unfold I. repeat split; try lia.
        -- rewrite length_upd; lia.
        -- apply limbs_upd; [assumption|apply u32_limb].
        -- rewrite skipn_upd by lia. now apply skipn_S_eq.
        -- rewrite vl_upd_S, !vl_S, Bp_S by lia.
           rewrite (nth_beyond rhs), (nth_beyond lhs) by lia.
           rewrite (carry_step _ _ _ (nth i core 0) _ t Hv) by (unfold t; ring). ring.
      * intros i [b' carry'] Hi (Hb & Hlb & Hs & Hc & Hv) Hend. cbn [snd] in Hend.
        assert (val b' + carry' * Bp i = val core - val lhs - val rhs) as Hval.
        { rewrite (val_split b' i), (val_split core i), Hs by lia.
          rewrite (vl_ge rhs), (vl_ge lhs) in Hv by lia. lia. }
        assert (carry' = 0) as ->.
        { destruct Hend as [->|Hf].
          - replace (length lhs + (length core - length lhs))%nat with (length core) in * by lia.
            pose proof (val_bound _ Hlb) as Hvb. rewrite Hb in Hvb. nia.
          - apply negb_false_iff, Z.eqb_eq in Hf. exact Hf. }
        wstep. repeat split; auto. lia.
Qed.

(** ** Schoolbook product *)

Lemma calc_mul_u_spec c lhs rhs :
  lhs <> [] -> limbs lhs -> limb rhs ->
  wp (calc_mul_u c lhs rhs)
     (fun r => length r = S (length lhs) /\ limbs r /\ val r = val lhs * rhs).
Proof.
  intros Hne Hl Hr. unfold calc_mul_u.
  wstep. wstep; [now rewrite is_nil_false|]. wstep.
  eapply wp_for_up with (I := fun i st =>
    let '(bits, carry) := st in
    length bits = S (length lhs) /\ limbs (firstn i bits) /\ limb carry /\
    vl bits i + carry * Bp i = vl lhs i * rhs).
  - repeat split; try lia; try constructor. rewrite length_zeros. lia.
  - intros i [bits carry] Hi (Hb & Hlb & Hc & Hv).
    pose proof (limbs_nth _ i Hl) as H0.
    repeat wstep; try lia.
    assert (0 <= nth i lhs 0 * rhs <= (W32 - 1) * (W32 - 1)) by (num; nia).
    rewrite (u64_small (nth i lhs 0 * rhs)) by (num; lia).
    rewrite u64_small by (num; lia).
    set (t := nth i lhs 0 * rhs + carry).
    assert (0 <= Z.shiftr t 32 < W32).
    { apply shiftr32_range. subst t. num; lia. }
    repeat split; try (num; lia).
    + rewrite length_upd; lia.
    + apply pfx_step; [lia|assumption|apply u32_limb].
    + rewrite vl_upd_S, vl_S, Bp_S by lia.
      rewrite (carry_step _ _ _ (nth i lhs 0 * rhs) _ t Hv) by (unfold t; ring). ring.
  - intros [bits carry] (Hb & Hlb & Hc & Hv). rewrite Nat.add_0_l in *.
    wstep; [lia|]. rewrite length_upd. split; [assumption|].
    assert (limbs (firstn (S (length lhs)) (upd bits (length lhs) (u32 carry)))) as HL.
    { apply pfx_step; [lia|assumption|apply u32_limb]. }
    rewrite firstn_all2 in HL by (rewrite length_upd; lia). split; [assumption|].
    rewrite <- (vl_ge _ (S (length lhs))) by (rewrite length_upd; lia).
    rewrite vl_upd_S by lia. rewrite u32_small by (num; lia).
    rewrite Hv, vl_all. reflexivity.
Qed.

Lemma mul_inner_spec lv rv i bits :
  limbs lv -> limbs rv -> limbs bits ->
  (i < length rv)%nat -> (i + length lv <= length bits)%nat ->
  wp (mul_inner lv rv i bits) (fun st =>
    let '(b, carry) := st in
    length b = length bits /\ limbs b /\ limb carry /\
    vl b (i + length lv) + carry * Bp (i + length lv) =
    vl bits (i + length lv) + val lv * nth i rv 0 * Bp i).
Proof.
  intros Hl Hr Hbits Hi Hlen. unfold mul_inner.
  pose proof (limbs_nth _ i Hr) as Hri.
  eapply wp_for_up with (I := fun j st =>
    let '(b, carry) := st in
    length b = length bits /\ limbs b /\ limb carry /\
    skipn (i + j) b = skipn (i + j) bits /\
    vl b (i + j) + carry * Bp (i + j) = vl bits (i + j) + vl lv j * nth i rv 0 * Bp i).
  - repeat split; try (num; lia); auto.
  - intros j [b carry] Hj (Hb & Hlb & Hc & Hs & Hv).
    pose proof (limbs_nth _ j Hl) as H0.
    pose proof (limbs_nth _ (i + j) Hbits) as H1.
    pose proof (nth_skipn_eq _ _ _ Hs) as Hnth.
    repeat wstep; try lia. rewrite Hnth.
    assert (0 <= nth j lv 0 * nth i rv 0 <= (W32 - 1) * (W32 - 1)) by (num; nia).
    rewrite (u64_small (nth (i + j) bits 0 + carry)) by (num; lia).
    rewrite (u64_small (nth j lv 0 * _)) by (num; lia).
    rewrite u64_small by (num; lia).
    set (t := nth (i + j) bits 0 + carry + nth j lv 0 * nth i rv 0).
    assert (0 <= Z.shiftr t 32 < W32).
    { apply shiftr32_range. subst t. num; lia. }
    replace (i + S j)%nat with (S (i + j)) by lia.
    repeat split; try (num; lia).
    + rewrite length_upd; lia.
    + apply limbs_upd; [assumption|apply u32_limb].
    + rewrite skipn_upd by lia. now apply skipn_S_eq.
    + rewrite vl_upd_S, !vl_S, Bp_S by lia.
      rewrite (carry_step _ _ _ (nth (i + j) bits 0 + nth j lv 0 * nth i rv 0) _ t Hv)
        by (unfold t; ring).
      rewrite Bp_add. ring.
  - intros [b carry] (Hb & Hlb & Hc & Hs & Hv). rewrite Nat.add_0_l in *.
    rewrite vl_all in Hv. auto.
Qed.

Lemma mul_school_spec lv rv bits :
  limbs lv -> limbs rv -> limbs bits ->
  length bits = (length lv + length rv)%nat -> vl bits (length lv) = 0 ->
  wp (mul_school lv rv bits)
     (fun r => length r = (length lv + length rv)%nat /\ limbs r /\ val r = val lv * val rv).
Proof.
  intros Hl Hr Hbits Hlen Hz. unfold mul_school.
  eapply wp_for_up with (I := fun i b =>
    length b = length bits /\ limbs b /\ vl b (i + length lv) = val lv * vl rv i).
  - repeat split; auto; rewrite vl_0, Nat.add_0_l, Hz; ring.
  - intros i b Hi (Hb & Hlb & Hv). wstep.
    eapply wp_mono; [apply mul_inner_spec; auto; lia|].
    intros [b' carry] (Hb' & Hlb' & Hc & Hv').
    wstep; [lia|].
    repeat split.
    + rewrite length_upd; lia.
    + apply limbs_upd; [assumption|apply u32_limb].
    + replace (S i + length lv)%nat with (S (i + length lv)) by lia.
      rewrite vl_upd_S, vl_S by lia. rewrite u32_small by (num; lia).
      rewrite Hv', Hv. ring.
  - intros b (Hb & Hlb & Hv). rewrite Nat.add_0_l in *. rewrite vl_all in Hv.
    rewrite vl_ge in Hv by lia. repeat split; auto; lia.
Qed.

(** ** Schoolbook square *)

Lemma square_inner_spec value i bits :
  limbs value -> limbs bits -> (i < length value)%nat -> (i + i <= length bits)%nat ->
  wp (square_inner value i bits) (fun st =>
    let '(b, carry) := st in
    length b = length bits /\ limbs b /\ 0 <= carry <= 2 * W32 - 2 /\
    vl b (i + i) + carry * Bp (i + i) =
    vl bits (i + i) + 2 * vl value i * nth i value 0 * Bp i).
Proof.
  intros Hl Hbits Hi Hlen. unfold square_inner.
  pose proof (limbs_nth _ i Hl) as Hri.
  eapply wp_for_up with (I := fun j st =>
    let '(b, carry) := st in
    length b = length bits /\ limbs b /\ 0 <= carry <= 2 * W32 - 2 /\
    skipn (i + j) b = skipn (i + j) bits /\
    vl b (i + j) + carry * Bp (i + j) =
    vl bits (i + j) + 2 * vl value j * nth i value 0 * Bp i).
  - repeat split; try (num; lia); auto.
  - intros j [b carry] Hj (Hb & Hlb & Hc & Hs & Hv).
    pose proof (limbs_nth _ j Hl) as H0.
    pose proof (limbs_nth _ (i + j) Hbits) as H1.
    pose proof (nth_skipn_eq _ _ _ Hs) as Hnth.
    repeat wstep; try lia. rewrite Hnth.
    assert (0 <= nth j value 0 * nth i value 0 <= (W32 - 1) * (W32 - 1)) as Hp by (num; nia).
    rewrite (u64_small (nth (i + j) bits 0 + carry)) by (num; lia).
    rewrite (u64_small (nth j value 0 * _)) by (num; lia).
    set (p := nth j value 0 * nth i value 0) in *.
    set (d := nth (i + j) bits 0 + carry).
    set (t := d + 2 * p).
    rewrite (Z.shiftr_div_pow2 d 1) by lia.
    rewrite (Z.shiftl_mul_pow2 p 1) by lia.
    change (2 ^ 1) with 2.
    rewrite (u64_small (p + d / 2)) by (unfold d; num; lia).
    assert (u32 (u64 (d + u64 (p * 2))) = u32 t) as ->.
    { unfold t, u32, u64, W64, W32. lia. }
    assert (Z.shiftr (p + d / 2) 31 = Z.shiftr t 32) as ->.
    { rewrite !Z.shiftr_div_pow2 by lia. unfold t.
      change (2 ^ 31) with 2147483648. change (2 ^ 32) with 4294967296. lia. }
    assert (0 <= Z.shiftr t 32 < 2 * W32 - 1).
    { apply shiftr32_range. subst t d. num; lia. }
    replace (i + S j)%nat with (S (i + j)) by lia.
    repeat split; try (num; lia).
    + rewrite length_upd; lia.
    + apply limbs_upd; [assumption|apply u32_limb].
    + rewrite skipn_upd by lia. now apply skipn_S_eq.
    + rewrite vl_upd_S, !vl_S, Bp_S by lia.
      rewrite (carry_step _ _ _ (nth (i + j) bits 0 + 2 * p) _ t Hv)
        by (unfold t, d; ring).
      rewrite Bp_add. unfold p. ring.
  - intros [b carry] (Hb & Hlb & Hc & Hs & Hv). auto.
Qed.

Lemma square_school_spec value bits :
  limbs value -> limbs bits -> length bits = (length value + length value)%nat ->
  wp (square_school value bits)
     (fun r => length r = (length value + length value)%nat /\ limbs r /\
               val r = val value * val value).
Proof.
  intros Hl Hbits Hlen. unfold square_school.
  eapply wp_for_up with (I := fun i b =>
    length b = length bits /\ limbs b /\ vl b (i + i) = vl value i * vl value i).
  - repeat split; auto.
  - intros i b Hi (Hb & Hlb & Hv). wstep.
    pose proof (limbs_nth _ i Hl) as H0.
    eapply wp_mono; [apply square_inner_spec; auto; lia|].
    intros [b' carry] (Hb' & Hlb' & Hc & Hv').
    wstep. wstep; [lia|].
    assert (0 <= nth i value 0 * nth i value 0 <= (W32 - 1) * (W32 - 1)) as Hp by (num; nia).
    rewrite (u64_small (nth i value 0 * _)) by (num; lia).
    rewrite u64_small by (num; lia).
    set (t := nth i value 0 * nth i value 0 + carry).
    assert (0 <= Z.shiftr t 32 < W32) by (apply shiftr32_range; subst t; num; lia).
    wstep. wstep; [lia|].
    wstep; [rewrite length_upd; lia|].
    repeat split.
    + rewrite !length_upd; lia.
    + repeat apply limbs_upd; try assumption; apply u32_limb.
    + replace (S i + S i)%nat with (S (S (i + i))) by lia.
      replace (i + i + 1)%nat with (S (i + i)) by lia.
      rewrite vl_upd_S by (rewrite length_upd; lia).
      rewrite vl_upd_S, vl_S by lia. rewrite (u32_small (Z.shiftr t 32)) by lia.
      pose proof (split32 t) as Hs.
      rewrite Bp_S.
      transitivity (vl b' (i + i) + (u32 t + W32 * Z.shiftr t 32) * Bp (i + i)); [ring|].
      rewrite <- Hs. unfold t.
      transitivity (vl b' (i + i) + carry * Bp (i + i) + nth i value 0 * nth i value 0 * Bp (i + i)); [ring|].
      rewrite Hv', Hv, Bp_add. ring.
  - intros b (Hb & Hlb & Hv). rewrite Nat.add_0_l, vl_all, vl_ge in Hv by lia.
    repeat split; auto; lia.
Qed.

(** ** Karatsuba *)

Lemma skipn_zeros n k : skipn n (zeros k) = zeros (k - n).
Proof.
  unfold zeros. revert k; induction n as [|n IH]; intros [|k]; cbn [repeat skipn Nat.sub]; auto.
Qed.

Lemma firstn_zeros n k : (n <= k)%nat -> firstn n (zeros k) = zeros n.
Proof.
  unfold zeros. revert k; induction n as [|n IH]; intros [|k] H; cbn [repeat firstn]; auto; try lia.
  f_equal. apply IH; lia.
Qed.

Lemma length_skipn_pos (l : list Z) n : (n < length l)%nat -> skipn n l <> [].
Proof. intros H E. pose proof (skipn_length n l) as H1. rewrite E in H1. simpl in H1. lia. Qed.

(** Recombination of the three partial results. *)
Lemma karatsuba_join c low high core n total :
  limbs low -> limbs high -> limbs core ->
  length low = (n + n)%nat -> (2 <= n)%nat -> core <> [] ->
  (length core <= n + length high)%nat ->
  val low + Bp (n + n) * val high + Bp n * val core = total ->
  total < Bp (n + n + length high) ->
  wp (part <- slice (low ++ high) n (length (low ++ high) - n) ;;
      part <- calc_add_self c part core ;;
      splice (low ++ high) n part)
     (fun r => length r = (n + n + length high)%nat /\ limbs r /\ val r = total).
Proof.
  intros H1 H2 H3 Hlow Hn Hc Hlen Hval Hfit.
  assert (limbs (low ++ high)) as Hlh by (apply limbs_app; auto).
  assert (length (low ++ high) = (n + n + length high)%nat) as Hll
    by (rewrite app_length; lia).
  wstep. wstep; [lia|].
  rewrite firstn_all2 by (rewrite skipn_length; lia).
  set (part := skipn n (low ++ high)).
  assert (length part = (n + length high)%nat) as Hlp
    by (unfold part; rewrite skipn_length; lia).
  assert (vl (low ++ high) n + Bp n * val part = val low + Bp (n + n) * val high) as Hpv.
  { unfold part. rewrite <- val_split by lia. rewrite val_app, Hlow. reflexivity. }
  pose proof (vl_bound (low ++ high) n Hlh) as Hvb.
  wstep. eapply wp_mono.
  { apply calc_add_self_spec; auto.
    - apply length_skipn_pos. lia.
    - apply limbs_skipn; assumption.
    - lia.
    - rewrite Hlp. rewrite <- Nat.add_assoc, Bp_add in Hfit.
      pose proof (Bp_pos n). nia. }
  intros r (Hr1 & Hr2 & Hr3). wstep; [lia|].
  rewrite skipn_all2 by lia. rewrite app_nil_r.
  repeat split.
  - rewrite app_length, firstn_length. lia.
  - apply limbs_app. split; [apply limbs_firstn; assumption|assumption].
  - rewrite val_app, firstn_length, Nat.min_l by lia.
    fold (vl (low ++ high) n). rewrite Hr3. lia.
Qed.

Lemma div2_bounds n : (Nat.div2 n + Nat.div2 n <= n <= Nat.div2 n + Nat.div2 n + 1)%nat.
Proof.
  pose proof (Nat.div2_odd n) as H. destruct (Nat.odd n); simpl Nat.b2n in H; lia.
Qed.

Lemma prod_fit a b m n : 0 <= a < Bp m -> 0 <= b < Bp n -> a * b < Bp (m + n).
Proof. intros. rewrite Bp_add. nia. Qed.

Lemma calc_square_core_spec fuel c value bits :
  limbs value -> limbs bits -> length bits = (length value + length value)%nat ->
  (length value < fuel)%nat ->
  wp (calc_square_core fuel c value bits)
     (fun r => length r = (length value + length value)%nat /\ limbs r /\
               val r = val value * val value).
Proof.
  revert value bits. induction fuel as [|fuel IH]; intros value bits Hl Hbits Hlen Hf; [lia|].
  cbn [calc_square_core].
  wstep. wstep; [now apply Nat.eqb_eq|].
  destruct (Nat.ltb_spec (length value) SquareThreshold) as [Hs|Hs].
  { apply square_school_spec; auto. }
  unfold SquareThreshold in Hs.
  pose proof (div2_bounds (length value)) as Hd.
  set (n := Nat.div2 (length value)) in *.
  cbv zeta.
  wstep. wstep; [lia|]. cbn [skipn].
  wstep. wstep; [lia|]. rewrite (firstn_all2 (n := length value - n)) by (rewrite skipn_length; lia).
  set (vlo := firstn n value). set (vhi := skipn n value).
  assert (limbs vlo) as Hvlo by (apply limbs_firstn; auto).
  assert (limbs vhi) as Hvhi by (apply limbs_skipn; auto).
  assert (length vlo = n) as Llo by (unfold vlo; rewrite firstn_length; lia).
  assert (length vhi = (length value - n)%nat) as Lhi by (unfold vhi; rewrite skipn_length; lia).
  assert (val value = val vlo + Bp n * val vhi) as Hval by (apply (val_split value n); lia).
  wstep. wstep; [lia|]. cbn [skipn].
  wstep. eapply wp_mono.
  { apply IH; auto; try lia. apply limbs_firstn; auto. rewrite firstn_length. lia. }
  intros low (Hlow1 & Hlow2 & Hlow3).
  wstep. wstep; [lia|]. cbn [firstn app].
  replace (0 + length low)%nat with (n + n)%nat by lia.
  assert (length (low ++ skipn (n + n) bits) = length bits) as Hlb.
  { rewrite app_length, skipn_length. lia. }
  wstep. wstep; [lia|].
  rewrite skipn_app_exact by lia.
  rewrite (firstn_all2 (n := length _ - _)) by (rewrite skipn_length; lia).
  wstep. eapply wp_mono.
  { apply IH; auto; try lia. apply limbs_skipn; auto. rewrite skipn_length. lia. }
  intros high (Hh1 & Hh2 & Hh3).
  wstep. wstep; [lia|].
  rewrite (skipn_all2 (n := (n + n + length high)%nat)) by lia. rewrite app_nil_r.
  rewrite firstn_app_exact by lia.
  wstep. eapply wp_mono.
  { apply calc_add_core_spec; auto; try lia. rewrite length_zeros. lia. }
  intros fold (Hf1 & Hf2 & Hf3).
  wstep. eapply wp_mono.
  { apply IH; auto; try lia. apply limbs_zeros. rewrite length_zeros. lia. }
  intros core (Hc1 & Hc2 & Hc3).
  pose proof (val_bound _ Hvlo) as B1. pose proof (val_bound _ Hvhi) as B2.
  wstep. eapply wp_mono.
  { apply calc_subtract_core_spec; auto; try lia.
    rewrite Hc3, Hf3, Hh3, Hlow3. nia. }
  intros core' (Hk1 & Hk2 & Hk3).
  eapply wp_mono.
  { eapply karatsuba_join with (n := n) (total := val value * val value); auto; try lia.
    - intros ->. cbn [length] in Hk1. lia.
    - rewrite Hk3, Hc3, Hf3, Hh3, Hlow3, Hval, Bp_add. ring.
    - replace (n + n + length high)%nat with (length value + length value)%nat by lia.
      apply prod_fit; apply val_bound; auto. }
  intros r (Hr1 & Hr2 & Hr3). repeat split; auto. lia.
Qed.

Lemma calc_square_spec c value :
  value <> [] -> limbs value ->
  wp (calc_square c value)
     (fun r => length r = (length value + length value)%nat /\ limbs r /\
               val r = val value * val value).
Proof.
  intros Hne Hl. unfold calc_square. wstep. wstep; [now rewrite is_nil_false|].
  apply calc_square_core_spec; auto.
  - apply limbs_zeros.
  - rewrite length_zeros. lia.
Qed.

Lemma calc_mul_core_spec fuel c lv rv :
  limbs lv -> limbs rv -> (length rv <= length lv)%nat -> (length rv < fuel)%nat ->
  wp (calc_mul_core fuel c lv rv (zeros (length lv + length rv)))
     (fun r => length r = (length lv + length rv)%nat /\ limbs r /\ val r = val lv * val rv).
Proof.
  revert lv rv. induction fuel as [|fuel IH]; intros lv rv Hl Hr Hlen Hf; [lia|].
  cbn [calc_mul_core].
  wstep. wstep; [now apply Nat.leb_le|].
  wstep. wstep; [apply Nat.eqb_eq; now rewrite length_zeros|].
  destruct (Nat.ltb_spec (length rv) MultiplyThreshold) as [Hs|Hs].
  { apply mul_school_spec; auto. apply limbs_zeros. apply length_zeros. apply vl_zeros. }
  unfold MultiplyThreshold in Hs.
  pose proof (div2_bounds (length rv)) as Hd.
  set (n := Nat.div2 (length rv)) in *.
  cbv zeta.
  wstep. wstep; [lia|]. cbn [skipn].
  wstep. wstep; [lia|]. rewrite (firstn_all2 (n := length lv - n)) by (rewrite skipn_length; lia).
  wstep. wstep; [lia|]. cbn [skipn].
  wstep. wstep; [lia|]. rewrite (firstn_all2 (n := length rv - n)) by (rewrite skipn_length; lia).
  set (llo := firstn n lv). set (lhi := skipn n lv).
  set (rlo := firstn n rv). set (rhi := skipn n rv).
  assert (limbs llo) as Hllo by (apply limbs_firstn; auto).
  assert (limbs lhi) as Hlhi by (apply limbs_skipn; auto).
  assert (limbs rlo) as Hrlo by (apply limbs_firstn; auto).
  assert (limbs rhi) as Hrhi by (apply limbs_skipn; auto).
  assert (length llo = n) as Lllo by (unfold llo; rewrite firstn_length; lia).
  assert (length lhi = (length lv - n)%nat) as Llhi by (unfold lhi; rewrite skipn_length; lia).
  assert (length rlo = n) as Lrlo by (unfold rlo; rewrite firstn_length; lia).
  assert (length rhi = (length rv - n)%nat) as Lrhi by (unfold rhi; rewrite skipn_length; lia).
  assert (val lv = val llo + Bp n * val lhi) as Hlval by (apply (val_split lv n); lia).
  assert (val rv = val rlo + Bp n * val rhi) as Hrval by (apply (val_split rv n); lia).
  wstep. wstep; [rewrite length_zeros; lia|]. cbn [skipn].
  rewrite firstn_zeros by lia.
  replace (n + n)%nat with (length llo + length rlo)%nat at 1 by lia.
  wstep. eapply wp_mono.
  { apply IH; auto; lia. }
  intros low (Hlow1 & Hlow2 & Hlow3).
  wstep. wstep; [rewrite length_zeros; lia|]. cbn [firstn app].
  replace (0 + length low)%nat with (n + n)%nat by lia.
  rewrite skipn_zeros.
  set (rest := (length lv + length rv - (n + n))%nat).
  assert (length (low ++ zeros rest) = (length lv + length rv)%nat) as Hlb.
  { rewrite app_length, length_zeros. unfold rest. lia. }
  wstep. wstep; [lia|].
  rewrite Hlb. rewrite skipn_app_exact by lia.
  fold rest. rewrite firstn_zeros by lia.
  replace rest with (length lhi + length rhi)%nat at 1 by (unfold rest; lia).
  wstep. eapply wp_mono.
  { apply IH; auto; lia. }
  intros high (Hh1 & Hh2 & Hh3).
  wstep. wstep; [lia|].
  rewrite (skipn_all2 (n := (n + n + length high)%nat)) by lia. rewrite app_nil_r.
  rewrite firstn_app_exact by lia.
  wstep. eapply wp_mono.
  { apply calc_add_core_spec with (lhs := lhi) (rhs := llo); auto; try lia.
    rewrite length_zeros. lia. }
  intros lfold (Hlf1 & Hlf2 & Hlf3).
  wstep. eapply wp_mono.
  { apply calc_add_core_spec with (lhs := rhi) (rhs := rlo); auto; try lia.
    rewrite length_zeros. lia. }
  intros rfold (Hrf1 & Hrf2 & Hrf3).
  replace (length lv - n + 1 + (length rv - n + 1))%nat
    with (length lfold + length rfold)%nat by lia.
  wstep. eapply wp_mono.
  { apply IH; auto; lia. }
  intros core (Hc1 & Hc2 & Hc3).
  pose proof (val_bound _ Hllo) as B1. pose proof (val_bound _ Hlhi) as B2.
  pose proof (val_bound _ Hrlo) as B3. pose proof (val_bound _ Hrhi) as B4.
  wstep. eapply wp_mono.
  { apply calc_subtract_core_spec with (lhs := high) (rhs := low); auto; try lia.
    rewrite Hc3, Hlf3, Hrf3, Hh3, Hlow3. nia. }
  intros core' (Hk1 & Hk2 & Hk3).
  eapply wp_mono.
  { eapply karatsuba_join with (n := n) (total := val lv * val rv); auto; try lia.
    - intros ->. cbn [length] in Hk1. lia.
    - rewrite Hk3, Hc3, Hlf3, Hrf3, Hh3, Hlow3, Hlval, Hrval, Bp_add. ring.
    - replace (n + n + length high)%nat with (length lv + length rv)%nat by lia.
      apply prod_fit; apply val_bound; auto. }
  intros r (Hr1 & Hr2 & Hr3). repeat split; auto. lia.
Qed.

Lemma calc_mul_spec c lhs rhs :
  lhs <> [] -> rhs <> [] -> limbs lhs -> limbs rhs -> (length rhs <= length lhs)%nat ->
  wp (calc_mul c lhs rhs)
     (fun r => length r = (length lhs + length rhs)%nat /\ limbs r /\
               val r = val lhs * val rhs).
Proof.
  intros. unfold calc_mul. repeat wstep; try (now rewrite is_nil_false).
  { now apply Nat.leb_le. }
  apply calc_mul_core_spec; auto.
Qed.
