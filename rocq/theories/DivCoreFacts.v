(** Correctness of the long-division core, DivRem.cpp:124-201. *)
From Verif Require Import Facts CalcAddSub AddSubFacts CalcDivRem DivRemFacts.

Ltac Zify.zify_post_hook ::= idtac.

Lemma small_mult P x y a : 0 < P -> 0 <= x < P -> 0 <= y < P -> x = y + a * P -> a = 0.
Proof.
  intros HP Hx Hy E.
  destruct (Z.lt_trichotomy a 0) as [H|[H|H]]; [exfalso|assumption|exfalso].
  - assert (a * P <= -1 * P) by (apply Z.mul_le_mono_nonneg_r; lia). lia.
  - assert (1 * P <= a * P) by (apply Z.mul_le_mono_nonneg_r; lia). lia.
Qed.

(** Limbs above position [i] when the value is small. *)
Lemma high_limbs lhs i :
  limbs lhs -> (i <= length lhs)%nat -> val lhs < W32 * Bp i ->
  val (skipn i lhs) = nth i lhs 0 /\ vl lhs (S i) = val lhs /\
  ((i < length lhs)%nat -> val (skipn (S i) lhs) = 0).
Proof.
  intros Hl Hi Hv.
  pose proof (val_split lhs i Hi) as Hs.
  pose proof (vl_bound lhs i Hl) as Hb.
  pose proof (Bp_pos i) as HP.
  assert (val (skipn i lhs) < W32) as Hlt.
  { apply Z.mul_lt_mono_pos_l with (Bp i); lia. }
  destruct (Nat.lt_ge_cases i (length lhs)) as [Hlt'|Hge].
  - rewrite skipn_nth in * by assumption. cbn [val] in *.
    pose proof (limbs_nth _ i Hl) as H0.
    pose proof (val_bound _ (limbs_skipn (S i) _ Hl)) as H1.
    assert (val (skipn (S i) lhs) = 0) as E by (num; lia).
    rewrite E in *. repeat split; auto; [lia|]. rewrite vl_S. lia.
  - rewrite skipn_all2, nth_overflow by lia. repeat split; auto; [|lia].
    apply vl_ge. lia.
Qed.

Lemma wp_shl32 x k (Q : Z -> Prop) : 0 <= k < 32 -> Q (u32 (Z.shiftl x k)) -> wp (shl32 x k) Q.
Proof.
  intros Hk HQ. unfold shl32.
  assert ((0 <=? k) && (k <? 32) = true) as -> by (rewrite andb_true_iff, Z.leb_le, Z.ltb_lt; lia).
  exact HQ.
Qed.
Lemma wp_shl64 x k (Q : Z -> Prop) : 0 <= k < 64 -> Q (u64 (Z.shiftl x k)) -> wp (shl64 x k) Q.
Proof.
  intros Hk HQ. unfold shl64.
  assert ((0 <=? k) && (k <? 64) = true) as -> by (rewrite andb_true_iff, Z.leb_le, Z.ltb_lt; lia).
  exact HQ.
Qed.
Lemma wp_shr32 x k (Q : Z -> Prop) : 0 <= k < 32 -> Q (Z.shiftr x k) -> wp (shr32 x k) Q.
Proof.
  intros Hk HQ. unfold shr32.
  assert ((0 <=? k) && (k <? 32) = true) as -> by (rewrite andb_true_iff, Z.leb_le, Z.ltb_lt; lia).
  exact HQ.
Qed.
Lemma wp_shr64 x k (Q : Z -> Prop) : 0 <= k < 64 -> Q (Z.shiftr x k) -> wp (shr64 x k) Q.
Proof.
  intros Hk HQ. unfold shr64.
  assert ((0 <=? k) && (k <? 64) = true) as -> by (rewrite andb_true_iff, Z.leb_le, Z.ltb_lt; lia).
  exact HQ.
Qed.

Lemma wp_opt_rd (b : bool) l i (Q : Z -> Prop) :
  (b = true -> (i < length l)%nat) -> Q (if b then nth i l 0 else 0) ->
  wp (if b then rd l i else Ret 0) Q.
Proof. intros H HQ. destruct b; [apply wp_rd; auto|exact HQ]. Qed.

Lemma opt_limb (b : bool) l i : limbs l -> limb (if b then nth i l 0 else 0).
Proof. intros H. destruct b; [apply limbs_nth; assumption|split; reflexivity]. Qed.

(** The normalised leading digits computed at 139-152 and 165-172. *)
Lemma norm_divisor hi lo (nxm : outcome Z) nx shift :
  0 <= shift < 32 -> limb hi -> limb lo -> limb nx -> hi * 2 ^ shift < W32 ->
  nxm = Ret nx ->
  wp (if 0 <? shift then
       divNx <- nxm ;;
       h1 <- shl32 hi shift ;; h2 <- shr32 lo (32 - shift) ;;
       l1 <- shl32 lo shift ;; l2 <- shr32 divNx (32 - shift) ;;
       Ret (Z.lor h1 h2, Z.lor l1 l2)
     else Ret (hi, lo)) (fun p =>
    let '(h, l) := p in
    h * W32 + l = (hi * (W32 * W32) + lo * W32 + nx) / 2 ^ (32 - shift) /\ limb l /\ 0 <= h).
Proof.
  intros Hsh Hhi Hlo Hnx Hfit ->.
  destruct (Z.ltb_spec 0 shift) as [H0|H0].
  - pose proof (pow2_pos shift ltac:(lia)) as Hp.
    wstep. wstep.
    wstep. apply wp_shl32; [lia|]. wstep. apply wp_shr32; [lia|].
    wstep. apply wp_shl32; [lia|]. wstep. apply wp_shr32; [lia|]. wstep.
    rewrite (Z.shiftl_mul_pow2 hi) by lia.
    rewrite (u32_small (hi * 2 ^ shift)) by (num; nia).
    apply norm_digits; auto; num; lia.
  - replace shift with 0 by lia. wstep. change (2 ^ (32 - 0)) with W32.
    repeat split; try (num; lia).
    replace (hi * (W32 * W32) + lo * W32 + nx) with ((hi * W32 + lo) * W32 + nx) by ring.
    rewrite Z.div_add_l by (num; lia). rewrite Z.div_small by assumption. ring.
Qed.

Lemma norm_dividend hi lo (nxm : outcome Z) nx shift :
  0 <= shift < 32 -> 0 <= hi -> limb lo -> limb nx -> hi * 2 ^ shift < W64 ->
  nxm = Ret nx ->
  wp (if 0 <? shift then
       valNx <- nxm ;;
       h1 <- shl64 hi shift ;; h2 <- shr32 lo (32 - shift) ;;
       l1 <- shl32 lo shift ;; l2 <- shr32 valNx (32 - shift) ;;
       Ret (Z.lor h1 h2, Z.lor l1 l2)
     else Ret (hi, lo)) (fun p =>
    let '(h, l) := p in
    h * W32 + l = (hi * (W32 * W32) + lo * W32 + nx) / 2 ^ (32 - shift) /\ limb l /\ 0 <= h).
Proof.
  intros Hsh Hhi Hlo Hnx Hfit ->.
  destruct (Z.ltb_spec 0 shift) as [H0|H0].
  - pose proof (pow2_pos shift ltac:(lia)) as Hp.
    wstep. wstep.
    wstep. apply wp_shl64; [lia|]. wstep. apply wp_shr32; [lia|].
    wstep. apply wp_shl32; [lia|]. wstep. apply wp_shr32; [lia|]. wstep.
    rewrite (Z.shiftl_mul_pow2 hi) by lia.
    rewrite (u64_small (hi * 2 ^ shift)) by (split; [apply Z.mul_nonneg_nonneg; lia|assumption]).
    apply norm_digits; auto; num; lia.
  - replace shift with 0 by lia. wstep. change (2 ^ (32 - 0)) with W32.
    repeat split; try (num; lia).
    replace (hi * (W32 * W32) + lo * W32 + nx) with ((hi * W32 + lo) * W32 + nx) by ring.
    rewrite Z.div_add_l by (num; lia). rewrite Z.div_small by assumption. ring.
Qed.

Lemma opt_rd_eq (b : bool) l i :
  (b = true -> (i < length l)%nat) ->
  (if b then rd l i else Ret 0) = Ret (if b then nth i l 0 else 0).
Proof.
  intros H. destruct b; [|reflexivity]. unfold rd. now rewrite (nth_error_nth' _ 0) by auto.
Qed.

Lemma divide_step_spec fuel c lhs rhs bits n shift divHi divLo dr :
  (2 <= fuel)%nat -> limbs lhs -> limbs rhs -> rhs <> [] ->
  (n + length rhs <= length lhs)%nat ->
  0 <= shift < 32 -> limb divLo -> 2147483648 <= divHi < W32 ->
  val rhs * 2 ^ shift * (W32 * W32) = (divHi * W32 + divLo) * Bp (length rhs) + dr ->
  0 <= dr < Bp (length rhs) ->
  val lhs < val rhs * Bp (S n) ->
  bits = [] \/ (n < length bits)%nat ->
  wp (divide_step fuel c rhs shift (32 - shift) divHi divLo n (lhs, bits)) (fun st =>
    let '(lhs', bits') := st in
    let q := val lhs / (val rhs * Bp n) in
    length lhs' = length lhs /\ limbs lhs' /\ val lhs' = val lhs - q * val rhs * Bp n /\
    0 <= q < W32 /\ bits' = (if is_nil bits then bits else upd bits n q)).
Proof.
  intros Hfuel Hl Hr Hne Hn Hsh HdLo HdHi Hdiv Hdr HX Hbits.
  set (m := length rhs) in *. set (D := val rhs) in *. set (X := val lhs) in *.
  assert (1 <= m)%nat as Hm by (unfold m; destruct rhs; [congruence|simpl; lia]).
  set (s := 2 ^ shift) in *.
  assert (0 < s) as Hs0 by (apply pow2_pos; lia).
  assert (0 < 2 ^ (32 - shift)) as Hb0 by (apply pow2_pos; lia).
  assert (s * 2 ^ (32 - shift) = W32) as Hsb.
  { unfold s. rewrite <- Z.pow_add_r by lia. replace (shift + (32 - shift)) with 32 by lia. reflexivity. }
  pose proof (Bp_pos m) as HPm. pose proof (Bp_pos n) as HPn.
  pose proof (val_bound _ Hr) as HDb. fold m D in HDb.
  pose proof (val_bound _ Hl) as HXb. fold X in HXb.
  set (d := divHi * W32 + divLo) in *.
  assert (D * s < Bp m) as HDs.
  { assert (d * Bp m <= (W32 * W32 - 1) * Bp m) by (apply Z.mul_le_mono_nonneg_r; unfold d; num; lia).
    num. lia. }
  assert (0 < D) as HD0.
  { assert (0 < d * Bp m) by (apply Z.mul_pos_pos; unfold d; num; lia).
    assert (0 < D * s) by (num; lia).
    destruct (Z.le_gt_cases D 0); [|assumption].
    assert (D * s <= 0 * s) by (apply Z.mul_le_mono_nonneg_r; lia). lia. }
  set (i := (n + m)%nat) in *.
  assert (Bp i = Bp n * Bp m) as HBi by apply Bp_add.
  pose proof (Bp_pos i) as HPi.
  assert (X < W32 * Bp i) as HXi.
  { rewrite HBi. rewrite Bp_S in HX.
    assert (D * Bp n <= Bp m * Bp n) by (apply Z.mul_le_mono_nonneg_r; lia). num. lia. }
  destruct (high_limbs lhs i Hl Hn HXi) as (Ht1 & Ht2 & Ht3).
  set (t := nth i lhs 0) in *.
  assert (limb t) as Htl by (apply limbs_nth; assumption).
  fold X in Ht2.
  (* the true digit *)
  set (qs := X / (D * Bp n)) in *.
  assert (0 < D * Bp n) as HDn by (apply Z.mul_pos_pos; lia).
  pose proof (Z.mul_div_le X (D * Bp n) HDn) as Hq1.
  pose proof (Z.mul_succ_div_gt X (D * Bp n) HDn) as Hq2.
  assert (0 <= qs < W32) as Hqr.
  { split; [apply Z.div_pos; lia|]. apply Z.div_lt_upper_bound; [assumption|].
    rewrite Bp_S in HX. lia. }
  fold qs in Hq1, Hq2. clearbody qs.
  (* normalised dividend *)
  destruct (top4 lhs i ltac:(lia) Hl) as (rest & Hrest & Htop).
  fold t in Htop. rewrite Ht2 in Htop.
  set (v1 := nth (i - 1) lhs 0) in *.
  set (v2 := if Nat.ltb 1 i then nth (i - 2) lhs 0 else 0) in *.
  set (v3 := if Nat.ltb 2 i then nth (i - 3) lhs 0 else 0) in *.
  assert (limb v1) as Hv1 by (apply limbs_nth; assumption).
  assert (limb v2) as Hv2 by (apply opt_limb; assumption).
  assert (limb v3) as Hv3 by (apply opt_limb; assumption).
  set (N := (t * W32 + v1) * (W32 * W32) + v2 * W32 + v3) in *.
  destruct (norm_value X N (Bp i) rest s (2 ^ (32 - shift)) Htop Hrest Hs0 Hb0 Hsb)
    as (wr' & Hwr & HXv).
  set (v := N / 2 ^ (32 - shift)) in *.
  assert (v < W32 * W32 * W32) as Hvb.
  { apply Z.mul_lt_mono_pos_r with (Bp i); [assumption|].
    apply Z.le_lt_trans with (X * s * (W32 * W32)); [lia|].
    assert (X * s < W32 * Bp i) as E.
    { rewrite Bp_S in HX.
      assert (X * s < D * (W32 * Bp n) * s) as E1 by (apply Z.mul_lt_mono_pos_r; lia).
      assert (D * s * Bp n <= Bp m * Bp n) as E2 by (apply Z.mul_le_mono_nonneg_r; lia).
      rewrite HBi. num. lia. }
    num. lia. }
  assert ((t * W32 + v1) * s < W64) as Hfit.
  { assert ((t * W32 + v1) * s * W32 <= v) as E.
    { unfold v. apply Z.div_le_lower_bound; [assumption|].
      replace (2 ^ (32 - shift) * ((t * W32 + v1) * s * W32))
        with ((t * W32 + v1) * (W32 * (s * 2 ^ (32 - shift)))) by ring.
      rewrite Hsb. unfold N. num. lia. }
    num. lia. }
  assert (0 <= (t * W32 + v1)) as Hhi0 by (num; lia).
  (* run *)
  unfold divide_step. fold m. fold i.
  wstep. apply wp_opt_rd; [intros E; apply Nat.ltb_lt in E; assumption|].
  replace (if Nat.ltb i (length lhs) then nth i lhs 0 else 0) with t
    by (destruct (Nat.ltb_spec i (length lhs)); [reflexivity|unfold t; now rewrite nth_overflow by lia]).
  wstep. wstep; [lia|].
  replace (Z.to_nat (Z.of_nat i - 1)) with (i - 1)%nat by lia. fold v1.
  cbv zeta. rewrite lor_carry by assumption.
  wstep. apply wp_opt_rd; [intros E; apply Nat.ltb_lt in E; lia|]. fold v2.
  wstep. eapply wp_mono.
  { apply norm_dividend with (nx := v3); auto.
    unfold v3. apply opt_rd_eq. intros E; apply Nat.ltb_lt in E; lia. }
  intros [vHi vLo] (Hv & HvLo & HvHi). fold N in Hv. fold v in Hv.
  destruct (Z.eqb_spec divHi 0) as [|_]; [lia|].
  unfold udiv. destruct (Z.eqb_spec divHi 0) as [|_]; [lia|].
  wstep. wstep.
  replace (if UINT_MAX <? vHi / divHi then UINT_MAX else vHi / divHi)
    with (Z.min UINT_MAX (vHi / divHi))
    by (destruct (Z.ltb_spec UINT_MAX (vHi / divHi)); lia).
  destruct (guess_bounds (Bp i) (D * s * (W32 * W32) * Bp n) (X * s * (W32 * W32))
              d (dr * Bp n) v wr' divHi divLo vHi vLo qs) as (Hg1 & Hg2); auto.
  { rewrite Hdiv, HBi. ring. }
  { split; [apply Z.mul_nonneg_nonneg; lia|]. rewrite HBi, (Z.mul_comm (Bp n)).
    apply Z.mul_lt_mono_pos_r; lia. }
  { assert (0 <= s * (W32 * W32)) by (apply Z.mul_nonneg_nonneg; num; lia).
    split.
    - replace (qs * (D * s * (W32 * W32) * Bp n)) with (D * Bp n * qs * (s * (W32 * W32))) by ring.
      replace (X * s * (W32 * W32)) with (X * (s * (W32 * W32))) by ring.
      apply Z.mul_le_mono_nonneg_r; lia.
    - replace ((qs + 1) * (D * s * (W32 * W32) * Bp n)) with (D * Bp n * (qs + 1) * (s * (W32 * W32))) by ring.
      replace (X * s * (W32 * W32)) with (X * (s * (W32 * W32))) by ring.
      apply Z.mul_lt_mono_pos_r; [|lia]. num. lia. }
  wstep.
  rewrite (guess_loop_spec fuel c _ vHi vLo divHi divLo (Z.min UINT_MAX (v / d)));
    [|assumption|assumption|num; lia|assumption|fold d; unfold d; num; lia|now rewrite Hv|
      unfold UINT_MAX in *; num; lia|lia].
  set (q := Z.min UINT_MAX (v / d)) in *.
  assert (q <= UINT_MAX) as Hqmax by (unfold q; lia).
  clearbody q. cbn [wp].
  (* window *)
  set (low := vl lhs n) in *.
  set (part := skipn n lhs) in *.
  pose proof (vl_bound lhs n Hl) as Hlow. fold low in Hlow.
  assert (X = low + Bp n * val part) as HXs by (apply val_split; lia).
  assert (limbs part) as Hpl by (apply limbs_skipn; assumption).
  assert (length part = (length lhs - n)%nat) as Hplen by (unfold part; apply skipn_length).
  assert (skipn m part = skipn i lhs) as Hpsk by (unfold part, i; apply skipn_skipn').
  assert (val part = vl part m + t * Bp m) as HW.
  { rewrite (val_split part m) by lia. rewrite Hpsk, Ht1. ring. }
  set (W := val part) in *.
  assert (qs * D <= W < (qs + 1) * D) as HWq.
  { split.
    - assert (-1 < W - qs * D); [|lia]. apply Z.mul_lt_mono_pos_l with (Bp n); lia.
    - apply Z.mul_lt_mono_pos_l with (Bp n); lia. }
  (* the array update *)
  wstep. eapply wp_mono with (P := fun p =>
    let '(l', g) := p in
    length l' = length lhs /\ limbs l' /\ g = qs /\
    vl l' i = low + Bp n * (W - qs * D) /\ skipn i l' = skipn i lhs).
  { destruct (Z.ltb_spec 0 q) as [Hq0|Hq0].
    - wstep. wstep; [lia|]. rewrite firstn_all2 by (rewrite skipn_length; lia). fold part.
      wstep. eapply wp_mono.
      { apply subtract_divisor_spec; auto; [unfold m in *; lia|]. unfold UINT_MAX in *; num; lia. }
      intros [p1 k] (Hp1 & Hp2 & Hk & Hp3 & Hp4). fold m D in Hp3, Hp4.
      pose proof (vl_bound p1 m Hp2) as Hp5.
      wstep. eapply wp_mono with (P := fun pg =>
        let '(p', g) := pg in
        length p' = length part /\ limbs p' /\ g = qs /\
        vl p' m = W - qs * D /\ skipn m p' = skipn m part).
      { destruct (Z.eq_dec q qs) as [E|E].
        - assert (k = t) as Ek.
          { assert (k - t = 0); [|lia].
            apply (small_mult (Bp m) (vl p1 m) (W - qs * D)); rewrite ?Hp4, ?E in *; lia. }
          subst k. rewrite Z.eqb_refl. cbn [negb]. wstep.
          repeat split; auto. rewrite Hp4, E. lia.
        - assert (q = qs + 1) as Eq by lia.
          assert (k = t + 1) as Ek.
          { assert (k - t - 1 = 0); [|lia].
            apply (small_mult (Bp m) (vl p1 m) (W - q * D + Bp m)); rewrite ?Hp4, ?Eq in *; lia. }
          destruct (Z.eqb_spec k t) as [|_]; [lia|]. cbn [negb].
          wstep. wstep. { rewrite u32_small by (num; lia). apply Z.eqb_eq. assumption. }
          wstep. eapply wp_mono.
          { apply add_divisor_spec; auto. fold m. lia. }
          intros [p2 k2] (Ha1 & Ha2 & Ha3 & Ha4 & Ha5). fold m D in Ha4, Ha5.
          pose proof (vl_bound p2 m Ha2) as Ha6.
          assert (k2 = 1) as ->.
          { assert (1 - k2 = 0); [|lia].
            apply (small_mult (Bp m) (vl p2 m) (W - qs * D)); rewrite ?Hp4, ?Ek, ?Eq in *; lia. }
          wstep. wstep; [reflexivity|]. wstep.
          repeat split; auto; try lia.
          + rewrite u64_small by (num; lia). lia.
          + rewrite Ha4. assumption. }
      intros [p' g] (Hg3 & Hg4 & -> & Hg5 & Hg6).
      wstep. wstep; [lia|].
      rewrite (skipn_all2 (n := (n + length p')%nat)) by lia. rewrite app_nil_r. wstep.
      assert (length (firstn n lhs) = n) as Hfn by (rewrite firstn_length; lia).
      repeat split.
      + rewrite app_length, Hfn. lia.
      + apply limbs_app. split; [apply limbs_firstn; assumption|assumption].
      + unfold vl, i. rewrite <- Hfn at 1. rewrite firstn_app_2, val_app, Hfn.
        fold (vl p' m). rewrite Hg5. reflexivity.
      + unfold i. rewrite <- (skipn_skipn' (firstn n lhs ++ p') n m).
        rewrite skipn_app_exact by assumption. rewrite Hg6. exact Hpsk.
    - wstep. assert (q = 0 /\ qs = 0) as (-> & ->) by lia.
      repeat split; auto.
      assert (t = 0) as Et.
      { apply (small_mult (Bp m) W (vl part m)); try lia. apply vl_bound; assumption. }
      rewrite Et in HW.
      assert (vl lhs i = X) as Ev.
      { rewrite vl_S in Ht2. fold t in Ht2. rewrite Et in Ht2. lia. }
      rewrite Ev. lia. }
  intros [l' g] (HA1 & HA2 & -> & HA3 & HA4).
  wstep. eapply wp_mono with (P := fun b' => b' = (if is_nil bits then bits else upd bits n qs)).
  { destruct bits as [|b0 bits]; cbn [is_nil].
    - now wstep.
    - destruct Hbits as [|Hbits]; [congruence|]. wstep; [assumption|].
      now rewrite u32_small by assumption. }
  intros b' ->.
  assert (low + Bp n * (W - qs * D) = X - qs * D * Bp n) as Hfinal by lia.
  rewrite Hfinal in HA3.
  rewrite HA1. wstep.
  destruct (Nat.ltb_spec i (length lhs)) as [Hi|Hi].
  - wstep; [lia|]. wstep. repeat split; auto; try lia.
    + rewrite length_upd. assumption.
    + apply limbs_upd; [assumption|split; reflexivity].
    + rewrite (val_split _ i) by (rewrite length_upd; lia).
      rewrite vl_upd_le, HA3, skipn_upd_at by lia. cbn [val].
      rewrite (skipn_S_eq _ _ _ HA4), Ht3 by assumption. lia.
  - wstep. wstep. repeat split; auto; try lia. rewrite vl_ge in HA3 by lia. exact HA3.
Qed.

Lemma calc_div_core_fuel_spec fuel c lhs rhs bits :
  (2 <= fuel)%nat -> limbs lhs -> limbs rhs -> rhs <> [] -> top_nz rhs ->
  (length rhs <= length lhs)%nat ->
  bits = [] \/ length bits = (length lhs - length rhs + 1)%nat ->
  wp (calc_div_core_fuel fuel c lhs rhs bits) (fun st =>
    let '(lhs', bits') := st in
    length lhs' = length lhs /\ limbs lhs' /\ val lhs' = val lhs mod val rhs /\
    (bits <> [] -> length bits' = length bits /\ limbs bits' /\ val bits' = val lhs / val rhs)).
Proof.
  intros Hfuel Hl Hr Hne Htop Hlen Hbits. unfold calc_div_core_fuel.
  set (m := length rhs) in *.
  assert (1 <= m)%nat as Hm by (unfold m; destruct rhs; [congruence|simpl; lia]).
  wstep. wstep; [apply Nat.leb_le; lia|].
  wstep. wstep; [apply Nat.leb_le; lia|].
  wstep. wstep; [apply Nat.leb_le; lia|].
  wstep. wstep.
  { destruct Hbits as [->|Hb]; [apply orb_true_r|]. rewrite Hb, Nat.eqb_refl. reflexivity. }
  wstep. wstep; [fold m; lia|].
  replace (Z.to_nat (Z.of_nat m - 1)) with (m - 1)%nat by lia.
  wstep. apply wp_opt_rd; [intros E; apply Nat.ltb_lt in E; unfold m in *; lia|].
  set (h := nth (m - 1) rhs 0). set (l := if Nat.ltb 1 m then nth (m - 2) rhs 0 else 0).
  assert (limb h) as Hh by (apply limbs_nth; assumption).
  assert (limb l) as Hll by (apply opt_limb; assumption).
  assert (h <> 0) as Hh0 by exact Htop.
  destruct (leading_zeros_spec h) as (Hz1 & Hz2); [num; lia|].
  set (shift := leading_zeros h) in *. cbv zeta. clearbody shift.
  destruct (top4 rhs m Hm Hr) as (rest & Hrest & Htop4).
  rewrite (nth_overflow rhs 0 (n := m)) in Htop4 by (unfold m; lia).
  rewrite (vl_ge rhs) in Htop4 by (unfold m; lia). fold h l in Htop4.
  set (x := if Nat.ltb 2 m then nth (m - 3) rhs 0 else 0) in *.
  assert (limb x) as Hx by (apply opt_limb; assumption).
  rewrite Z.mul_0_l, Z.add_0_l in Htop4.
  assert (0 < 2 ^ shift) as Hs0 by (apply pow2_pos; lia).
  assert (0 < 2 ^ (32 - shift)) as Hb0 by (apply pow2_pos; lia).
  assert (2 ^ shift * 2 ^ (32 - shift) = W32) as Hsb.
  { rewrite <- Z.pow_add_r by lia. replace (shift + (32 - shift)) with 32 by lia. reflexivity. }
  destruct (norm_value _ _ _ _ _ _ Htop4 Hrest Hs0 Hb0 Hsb) as (dr & Hdr & HDv).
  wstep. eapply wp_mono.
  { apply norm_divisor with (nx := x); auto; try lia.
    unfold x. apply opt_rd_eq. intros E; apply Nat.ltb_lt in E; unfold m in *; lia. }
  intros [divHi divLo] (Hd & HdLo & HdHi).
  rewrite <- Hd in HDv.
  assert (2147483648 <= divHi < W32) as HdH.
  { set (N := h * (W32 * W32) + l * W32 + x) in *.
    assert (h * 2 ^ shift * W32 <= N / 2 ^ (32 - shift)) as E1.
    { apply Z.div_le_lower_bound; [assumption|].
      replace (2 ^ (32 - shift) * (h * 2 ^ shift * W32))
        with (h * W32 * (2 ^ shift * 2 ^ (32 - shift))) by ring.
      rewrite Hsb. unfold N. num. lia. }
    assert (N / 2 ^ (32 - shift) < (h * 2 ^ shift + 2 ^ shift) * W32) as E2.
    { apply Z.div_lt_upper_bound; [assumption|].
      replace (2 ^ (32 - shift) * ((h * 2 ^ shift + 2 ^ shift) * W32))
        with ((h + 1) * W32 * (2 ^ shift * 2 ^ (32 - shift))) by ring.
      rewrite Hsb. unfold N. num. lia. }
    assert (h * 2 ^ shift + 2 ^ shift <= W32) as E3.
    { rewrite <- Hsb. rewrite <- Hsb in Hz2.
      assert (h < 2 ^ (32 - shift)).
      { apply Z.mul_lt_mono_pos_r with (2 ^ shift); lia. }
      replace (h * 2 ^ shift + 2 ^ shift) with (2 ^ shift * (h + 1)) by ring.
      apply Z.mul_le_mono_nonneg_l; lia. }
    num. lia. }
  assert (0 < val rhs) as HD0.
  { pose proof (top_nz_bound _ Hr Hne Htop). pose proof (Bp_pos (length rhs - 1)). lia. }
  eapply wp_for_down with (I := fun n st =>
    let '(l', b') := st in
    length l' = length lhs /\ limbs l' /\ val l' < val rhs * Bp n /\
    length b' = length bits /\
    exists Q, val lhs = val l' + Q * val rhs * Bp n /\
      (bits <> [] -> limbs (skipn n b') /\ val (skipn n b') = Q)).
  - repeat split; auto.
    + replace (length lhs + 1 - m)%nat with (length lhs - (m - 1))%nat by lia.
      pose proof (val_bound _ Hl) as Hb.
      pose proof (top_nz_bound _ Hr Hne Htop) as Ht. fold m in Ht.
      assert (Bp (length lhs) = Bp (m - 1) * Bp (length lhs - (m - 1))) as E.
      { rewrite <- Bp_add. f_equal. lia. }
      rewrite E in Hb. pose proof (Bp_pos (length lhs - (m - 1))) as HP.
      assert (Bp (m - 1) * Bp (length lhs - (m - 1)) <= val rhs * Bp (length lhs - (m - 1)))
        by (apply Z.mul_le_mono_nonneg_r; lia). lia.
    + exists 0. split; [ring|]. intros Hn0. rewrite skipn_all2 by (destruct Hbits; [congruence|lia]).
      split; [constructor|reflexivity].
  - intros n [l' b'] Hn (H1 & H2 & H3 & H4 & Q & H5 & H6).
    eapply wp_mono.
    { apply divide_step_spec with (dr := dr); auto; try (fold m; lia).
      destruct Hbits as [->|Hb]; [left; destruct b'; [reflexivity|discriminate]|right; lia]. }
    intros [l2 b2] (A1 & A2 & A3 & A4 & A5).
    set (q := val l' / (val rhs * Bp n)) in *.
    pose proof (Bp_pos n) as HPn.
    assert (0 < val rhs * Bp n) as HDn by (apply Z.mul_pos_pos; lia).
    pose proof (Z.mul_succ_div_gt (val l') (val rhs * Bp n) HDn) as Hq2. fold q in Hq2.
    repeat split; auto; try lia.
    + rewrite A5. destruct (is_nil b'); [assumption|]. rewrite length_upd. assumption.
    + exists (Q * W32 + q). split.
      * rewrite A3, H5, Bp_S. ring.
      * intros Hn0. destruct (H6 Hn0) as (B1 & B2).
        assert (n < length b')%nat as Hnb by (destruct Hbits; [congruence|lia]).
        assert (b2 = upd b' n q) as ->.
        { rewrite A5. destruct b'; [simpl in Hnb; lia|reflexivity]. }
        rewrite skipn_upd_at by assumption. split.
        -- constructor; [exact A4|exact B1].
        -- cbn [val]. rewrite B2. ring.
  - intros [l' b'] (H1 & H2 & H3 & H4 & Q & H5 & H6). rewrite Bp_0, Z.mul_1_r in *.
    pose proof (val_bound _ H2) as Hvb.
    repeat split; auto.
    + apply Z.mod_unique with Q; lia.
    + apply H6; assumption.
    + destruct (H6 H) as (_ & E). cbn [skipn] in E. rewrite E.
      apply Z.div_unique with (val l'); lia.
Qed.

Lemma calc_div_core_spec c lhs rhs bits :
  limbs lhs -> limbs rhs -> rhs <> [] -> top_nz rhs ->
  (length rhs <= length lhs)%nat ->
  bits = [] \/ length bits = (length lhs - length rhs + 1)%nat ->
  wp (calc_div_core c lhs rhs bits) (fun st =>
    let '(lhs', bits') := st in
    length lhs' = length lhs /\ limbs lhs' /\ val lhs' = val lhs mod val rhs /\
    (bits <> [] -> length bits' = length bits /\ limbs bits' /\ val bits' = val lhs / val rhs)).
Proof. apply calc_div_core_fuel_spec. unfold guess_fuel. lia. Qed.

Lemma calc_div_core_wp_common c lhs rhs :
  lhs <> [] -> rhs <> [] -> (length rhs <= length lhs)%nat ->
  forall A (k : outcome A),
  (massert c (negb (is_nil lhs)) ;;; massert c (negb (is_nil rhs)) ;;;
   massert c (Nat.leb (length rhs) (length lhs)) ;;; k) = k.
Proof.
  intros H1 H2 H3 A k. rewrite !is_nil_false by assumption.
  rewrite (proj2 (Nat.leb_le _ _) H3). unfold massert. now destruct (dbg c).
Qed.

Lemma calc_divrem_spec c lhs rhs :
  limbs lhs -> limbs rhs -> rhs <> [] -> top_nz rhs ->
  (length rhs <= length lhs)%nat ->
  wp (calc_divrem c lhs rhs) (fun qr =>
    let '(q, r) := qr in
    length q = (length lhs - length rhs + 1)%nat /\ length r = length lhs /\
    limbs q /\ limbs r /\
    val q = val lhs / val rhs /\ val r = val lhs mod val rhs).
Proof.
  intros Hl Hr Hne Ht Hlen. unfold calc_divrem.
  assert (lhs <> []) as Hn1 by (intros ->; destruct rhs; simpl in *; [congruence|lia]).
  rewrite calc_div_core_wp_common by assumption.
  wstep. eapply wp_mono.
  { apply calc_div_core_spec; auto. right. apply length_zeros. }
  intros [l b] (A & B & C & D). wstep.
  destruct D as (D1 & D2 & D3).
  { intros E. apply (f_equal (@length Z)) in E. rewrite length_zeros in E. simpl in E. lia. }
  rewrite length_zeros in D1. repeat split; auto.
Qed.

Lemma calc_div_spec c lhs rhs :
  limbs lhs -> limbs rhs -> rhs <> [] -> top_nz rhs ->
  (length rhs <= length lhs)%nat ->
  wp (calc_div c lhs rhs) (fun q =>
    length q = (length lhs - length rhs + 1)%nat /\ limbs q /\ val q = val lhs / val rhs).
Proof.
  intros Hl Hr Hne Ht Hlen. unfold calc_div.
  assert (lhs <> []) as Hn1 by (intros ->; destruct rhs; simpl in *; [congruence|lia]).
  rewrite calc_div_core_wp_common by assumption.
  wstep. eapply wp_mono.
  { apply calc_div_core_spec; auto. right. apply length_zeros. }
  intros [l b] (A & B & C & D). wstep.
  destruct D as (D1 & D2 & D3).
  { intros E. apply (f_equal (@length Z)) in E. rewrite length_zeros in E. simpl in E. lia. }
  rewrite length_zeros in D1. repeat split; auto.
Qed.

Lemma calc_rem_spec c lhs rhs :
  limbs lhs -> limbs rhs -> rhs <> [] -> top_nz rhs ->
  (length rhs <= length lhs)%nat ->
  wp (calc_rem c lhs rhs) (fun r =>
    length r = length lhs /\ limbs r /\ val r = val lhs mod val rhs).
Proof.
  intros Hl Hr Hne Ht Hlen. unfold calc_rem.
  assert (lhs <> []) as Hn1 by (intros ->; destruct rhs; simpl in *; [congruence|lia]).
  rewrite calc_div_core_wp_common by assumption.
  wstep. eapply wp_mono.
  { apply calc_div_core_spec; auto. }
  intros [l b] (A & B & C & D). wstep. repeat split; auto.
Qed.
