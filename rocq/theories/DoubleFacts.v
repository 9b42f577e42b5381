(** Proofs about the conversions from and to double. *)
From Verif Require Import Facts AddSubFacts Spec SpecFacts SpecApi BigInt BigIntFacts CompareFacts
  ShiftFacts ConvFacts WordFacts CalcDivRem DivRemFacts DivCoreFacts TextFacts SpecDouble BigIntDouble.
Open Scope Z_scope.

Ltac Zify.zify_post_hook ::= idtac.

(** ** Fields *)

Lemma pattern_fields d : dbl_pattern d ->
  0 <= dbl_frac d < 2 ^ 52 /\ 0 <= dbl_exp d < 2048 /\
  d = (if dbl_negative d then 2 ^ 63 else 0) + dbl_exp d * 2 ^ 52 + dbl_frac d.
Proof.
  unfold dbl_pattern, dbl_negative, dbl_exp, dbl_frac. intros Hd.
  change (2 ^ 64) with 18446744073709551616 in Hd. change (2 ^ 63) with 9223372036854775808.
  change (2 ^ 52) with 4503599627370496. change (2 ^ 11) with 2048.
  pose proof (Z.div_mod d 4503599627370496 ltac:(lia)) as D1.
  pose proof (Z.mod_pos_bound d 4503599627370496 ltac:(lia)) as M1.
  set (q := d / 4503599627370496) in *. set (f := d mod 4503599627370496) in *. clearbody q f.
  pose proof (Z.div_mod q 2048 ltac:(lia)) as D2. pose proof (Z.mod_pos_bound q 2048 ltac:(lia)) as M2.
  set (s := q / 2048) in *. set (e := q mod 2048) in *. clearbody s e.
  destruct (Z.leb_spec 9223372036854775808 d); assert (s = 0 \/ s = 1) as [-> | ->] by lia; lia.
Qed.

(** A pattern put together from its fields. *)
Lemma fields_pattern neg e f : 0 <= e < 2048 -> 0 <= f < 2 ^ 52 ->
  let d := (if neg : bool then 2 ^ 63 else 0) + e * 2 ^ 52 + f in
  dbl_pattern d /\ dbl_negative d = neg /\ dbl_exp d = e /\ dbl_frac d = f.
Proof.
  intros He Hf. unfold dbl_pattern, dbl_negative, dbl_exp, dbl_frac.
  change (2 ^ 64) with 18446744073709551616. change (2 ^ 63) with 9223372036854775808.
  change (2 ^ 52) with 4503599627370496 in *. change (2 ^ 11) with 2048.
  set (d := (if neg then 9223372036854775808 else 0) + e * 4503599627370496 + f). cbv zeta.
  assert (d / 4503599627370496 = (if neg then 2048 else 0) + e) as E1.
  { symmetry. apply (Z.div_unique _ _ _ f); [lia|]. unfold d. destruct neg; lia. }
  assert (d mod 4503599627370496 = f) as E2.
  { symmetry. apply (Z.mod_unique _ _ ((if neg then 2048 else 0) + e)); [lia|]. unfold d. destruct neg; lia. }
  split; [unfold d; destruct neg; lia|]. split; [destruct (Z.leb_spec 9223372036854775808 d); unfold d in *; destruct neg; lia || reflexivity|].
  split; [|exact E2]. rewrite E1. destruct neg.
  - replace (2048 + e) with (e + 1 * 2048) by ring. rewrite Z.mod_add by lia. now apply Z.mod_small.
  - now apply Z.mod_small.
Qed.

Lemma finite_test d : dbl_pattern d -> double_is_finite d = negb (dbl_exp d =? 2047).
Proof.
  intros Hd. pose proof (pattern_fields d Hd) as (F & E & D). unfold double_is_finite.
  change DBL_ABS_MASK with (Z.ones 63). rewrite Z.land_ones by lia.
  assert (d mod 2 ^ 63 = dbl_exp d * 2 ^ 52 + dbl_frac d) as ->.
  { symmetry. apply (Z.mod_unique _ _ (if dbl_negative d then 1 else 0)).
    - left. change (2 ^ 63) with (2048 * 2 ^ 52). change (2 ^ 52) with 4503599627370496 in *. lia.
    - rewrite D at 1. destruct (dbl_negative d); ring. }
  change (2 ^ 52) with 4503599627370496 in *. unfold DBL_EXP_MASK.
  destruct (Z.ltb_spec (dbl_exp d * 4503599627370496 + dbl_frac d) 9218868437227405312), (Z.eqb_spec (dbl_exp d) 2047);
    cbn [negb]; try reflexivity; lia.
Qed.

Lemma parts_fields d : dbl_pattern d ->
  get_double_parts d =
    ((if dbl_negative d then -1 else 1),
     (if dbl_exp d =? 0 then (if dbl_frac d =? 0 then 0 else -1074)
      else if dbl_exp d =? 2047 then -1 else dbl_exp d - 1075),
     (if dbl_exp d =? 0 then dbl_frac d else if dbl_exp d =? 2047 then dbl_frac d else 2 ^ 52 + dbl_frac d),
     negb (dbl_exp d =? 2047)).
Proof.
  intros Hd. pose proof (pattern_fields d Hd) as (F & E & D). unfold get_double_parts.
  assert (1 - Z.land (s32 (Z.shiftr d 62)) 2 = if dbl_negative d then -1 else 1) as ->.
  { assert (Z.shiftr d 62 = 2 * (if dbl_negative d then 1 else 0) + dbl_exp d / 1024) as S0.
    { rewrite Z.shiftr_div_pow2 by lia. pose proof (Z.div_mod (dbl_exp d) 1024 ltac:(lia)) as DM.
      pose proof (Z.mod_pos_bound (dbl_exp d) 1024 ltac:(lia)) as MB.
      symmetry. apply (Z.div_unique _ _ _ ((dbl_exp d mod 1024) * 2 ^ 52 + dbl_frac d)).
      - left. change (2 ^ 62) with (1024 * 2 ^ 52). change (2 ^ 52) with 4503599627370496 in *. lia.
      - rewrite D at 1. rewrite DM at 1. change (2 ^ 63) with (2048 * 2 ^ 52). change (2 ^ 62) with (1024 * 2 ^ 52).
        destruct (dbl_negative d); ring. }
    assert (0 <= dbl_exp d / 1024 < 2) as B by (split; [apply Z.div_pos; lia|apply Z.div_lt_upper_bound; lia]).
    rewrite S0. assert (dbl_exp d / 1024 = 0 \/ dbl_exp d / 1024 = 1) as [-> | ->] by lia;
      destruct (dbl_negative d); reflexivity. }
  assert (Z.land d DBL_FRAC_MASK = dbl_frac d) as ->.
  { change DBL_FRAC_MASK with (Z.ones 52). now rewrite Z.land_ones by lia. }
  assert (Z.land (s32 (Z.shiftr d 52)) 2047 = dbl_exp d) as ->.
  { rewrite Z.shiftr_div_pow2 by lia. change 2047 with (Z.ones 11). rewrite Z.land_ones by lia.
    rewrite s32_small; [reflexivity|]. unfold dbl_pattern in Hd. split.
    - transitivity 0; [num; lia|]. apply Z.div_pos; lia.
    - apply Z.lt_succ_r. apply Z.div_lt_upper_bound; [lia|]. change (2 ^ 52) with 4503599627370496.
      change (2 ^ 64) with 18446744073709551616 in Hd. num; lia. }
  destruct (Z.eqb_spec (dbl_exp d) 0) as [H0|H0].
  - rewrite H0. cbn [Z.eqb negb]. destruct (dbl_frac d =? 0); reflexivity.
  - destruct (Z.eqb_spec (dbl_exp d) 2047) as [H1|H1]; [reflexivity|]. cbn [negb].
    assert (Z.lor (dbl_frac d) DBL_HIDDEN = 2 ^ 52 + dbl_frac d) as -> ; [|reflexivity].
    change DBL_HIDDEN with (1 * 2 ^ 52). rewrite Z.lor_comm, lor_add by lia. ring.
Qed.

Lemma significand_range d : dbl_pattern d -> 0 <= dbl_significand d < 2 ^ 53 /\
  (dbl_exp d <> 0 -> 2 ^ 52 <= dbl_significand d) /\ -1074 <= dbl_scale d /\
  (dbl_exp d = 0 -> dbl_significand d < 2 ^ 52 /\ dbl_scale d = -1074).
Proof.
  intros Hd. pose proof (pattern_fields d Hd) as (F & E & D). unfold dbl_significand, dbl_scale.
  change (2 ^ 53) with (2 * 2 ^ 52). change (2 ^ 52) with 4503599627370496 in *.
  destruct (Z.eqb_spec (dbl_exp d) 0); lia.
Qed.

(** ** BigInteger(double) *)

Lemma negate_fields c b v neg :
  represents b v ->
  wp (s <- (if neg : bool then chk32 c (- sign_of b) else Ret (sign_of b)) ;; checked c (Big s (bits_of b)))
     (fun r => represents r (if neg then - v else v)).
Proof.
  intros Hb. destruct neg.
  - pose proof (parts_sign _ _ _ (repr_parts _ _ Hb)) as [S1 _].
    rewrite chk32_ok by (num; lia). cbn [bind]. apply wp_checked, represents_view. now apply parts_neg, repr_parts.
  - cbn [bind]. destruct b as [s l]. cbn [sign_of bits_of]. apply wp_checked. exact Hb.
Qed.

(** The three top limbs of man * 2^exp, where exp = 32 * cu - cbit. *)
Lemma three_limbs man cu cbit :
  2 ^ 63 <= man < 2 ^ 64 -> 0 <= cbit < 32 ->
  let w0 := if 0 <? cbit then u32 (Z.shiftl (u32 man) (32 - cbit)) else 0 in
  let w1 := u32 (Z.shiftr man cbit) in
  let w2 := u32 (Z.shiftr man (cbit + 32)) in
  limbs (zeros cu ++ [w0; w1; w2]) /\ w2 <> 0 /\
  val (zeros cu ++ [w0; w1; w2]) = man * 2 ^ (32 * Z.of_nat (S cu) - cbit).
Proof.
  intros Hm Hc. cbv zeta. change (2 ^ 63) with 9223372036854775808 in Hm. change (2 ^ 64) with W64 in Hm.
  set (p := 2 ^ cbit). assert (0 < p) as Hp by (apply Z.pow_pos_nonneg; lia).
  set (r := 2 ^ (32 - cbit)). assert (p * r = W32) as Hpr
    by (unfold p, r; rewrite <- Z.pow_add_r by lia; now replace (cbit + (32 - cbit)) with 32 by lia).
  assert (0 < r) as Hr by (apply Z.pow_pos_nonneg; lia).
  assert ((if 0 <? cbit then u32 (Z.shiftl (u32 man) (32 - cbit)) else 0) = (man mod p) * r) as ->.
  { destruct (Z.ltb_spec 0 cbit) as [H|H].
    - rewrite Z.shiftl_mul_pow2 by lia. fold r. unfold u32.
      rewrite Z.mul_mod_idemp_l by (num; lia). rewrite <- Hpr.
      rewrite Z.mul_mod_distr_r by lia. reflexivity.
    - assert (cbit = 0) as E by lia. unfold p. rewrite E. change (2 ^ 0) with 1. rewrite Z.mod_1_r. ring. }
  assert (Z.shiftr man (cbit + 32) = man / p / W32) as ->.
  { rewrite <- Z.shiftr_shiftr, !Z.shiftr_div_pow2 by lia. reflexivity. }
  rewrite Z.shiftr_div_pow2 by lia. fold p.
  pose proof (Z.div_mod man p ltac:(lia)) as DM. pose proof (Z.mod_pos_bound man p Hp) as MB.
  set (q := man / p) in *. set (t := man mod p) in *.
  pose proof (Z.div_mod q W32 ltac:(num; lia)) as DM2. pose proof (Z.mod_pos_bound q W32 ltac:(num; lia)) as MB2.
  assert (p < W32) as Hp32.
  { change W32 with (2 ^ 32). apply Z.pow_lt_mono_r; lia. }
  assert (p <= 2147483648) as Hp31.
  { change 2147483648 with (2 ^ 31). apply Z.pow_le_mono_r; lia. }
  assert (0 < q / W32 < W32) as Hq2.
  { split.
    - apply Z.div_str_pos. split; [num; lia|]. apply Z.div_le_lower_bound; [lia|].
      transitivity (2147483648 * W32); [apply Z.mul_le_mono_nonneg_r; num; lia|num; lia].
    - apply Z.div_lt_upper_bound; [num; lia|]. apply Z.div_lt_upper_bound; [lia|].
      apply Z.lt_le_trans with (1 * W64); [lia|]. change (W32 * W32) with W64. apply Z.mul_le_mono_nonneg_r; num; lia. }
  rewrite !(u32_small (q / W32)) by lia. unfold u32.
  set (q2 := q / W32) in *. set (q1 := q mod W32) in *.
  assert (0 <= t * r < W32) as Ht.
  { split; [apply Z.mul_nonneg_nonneg; lia|]. rewrite <- Hpr. apply Z.mul_lt_mono_pos_r; lia. }
  split; [apply limbs_app; split; [apply limbs_zeros|repeat constructor; unfold limb; lia]|].
  split; [lia|]. rewrite val_app, val_zeros, length_zeros. cbn [val]. rewrite Bp_pow2.
  replace (32 * Z.of_nat (S cu) - cbit) with (32 * Z.of_nat cu + (32 - cbit)) by lia.
  rewrite Z.pow_add_r by lia. fold r. set (B := 2 ^ (32 * Z.of_nat cu)). clearbody B q2 q1 q t r p.
  rewrite DM, DM2. transitivity (B * (t * r + (W32 * q2 + q1) * (p * r))); [rewrite Hpr; ring|ring].
Qed.

Theorem of_double_finite c d : dbl_pattern d -> dbl_finite d -> returns (bi_of_double c d) (dbl_trunc d).
Proof.
  intros Hd Hf. apply returns_wp. unfold bi_of_double. rewrite finite_test by exact Hd.
  unfold dbl_finite in Hf. rewrite (proj2 (Z.eqb_neq _ _) Hf). cbn [negb]. rewrite parts_fields by exact Hd.
  rewrite (proj2 (Z.eqb_neq _ _) Hf). cbn [negb].
  pose proof (significand_range d Hd) as (SR & SN & SC & SD).
  pose proof (pattern_fields d Hd) as (FR & ER & _).
  assert ((if dbl_exp d =? 0 then dbl_frac d else 2 ^ 52 + dbl_frac d) = dbl_significand d) as -> by reflexivity.
  unfold dbl_trunc. set (m := dbl_significand d) in *.
  wstep. apply wp_massert; [destruct (dbl_negative d); reflexivity|].
  destruct (Z.eqb_spec m 0) as [M0|M0].
  { rewrite M0. eapply wp_mono; [apply bi_zero_spec|]. intros r Hr.
    assert (dbl_signed d (if 0 <=? dbl_scale d then 0 * 2 ^ dbl_scale d else 0 / 2 ^ (- dbl_scale d)) = 0) as ->; [|exact Hr].
    unfold dbl_signed. rewrite Z.mul_0_l, Z.div_0_l by (apply Z.pow_nonzero; unfold dbl_scale; destruct (dbl_exp d =? 0); lia).
    destruct (0 <=? dbl_scale d), (dbl_negative d); reflexivity. }
  set (e := if dbl_exp d =? 0 then (if dbl_frac d =? 0 then 0 else -1074) else dbl_exp d - 1075).
  assert (e = dbl_scale d) as Ee.
  { unfold e, dbl_scale, m, dbl_significand in *. destruct (dbl_exp d =? 0); [|reflexivity].
    destruct (Z.eqb_spec (dbl_frac d) 0); [lia|reflexivity]. }
  clearbody e. rewrite <- Ee in *.
  assert (e <= 971) as Eup by (rewrite Ee; unfold dbl_scale; destruct (dbl_exp d =? 0); lia).
  assert (0 < e -> 2 ^ 52 <= m) as EN.
  { intros He. apply SN. intros E0. destruct (SD E0). lia. }
  wstep. apply wp_massert; [apply Z.ltb_lt; exact (proj2 SR)|].
  wstep. apply wp_massert.
  { apply orb_true_iff. destruct (Z.leb_spec e 0); [now left|right]. apply Z.leb_le, EN. lia. }
  assert (forall v, dbl_signed d v = if dbl_negative d then - v else v) as DS by reflexivity.
  assert (((if dbl_negative d then -1 else 1) <? 0) = dbl_negative d) as Sg by (destruct (dbl_negative d); reflexivity).
  destruct (Z.leb_spec e 0) as [He|He].
  - destruct (Z.leb_spec e (-64)) as [H64|H64].
    + eapply wp_mono; [apply bi_zero_spec|]. intros r Hr.
      destruct (Z.leb_spec 0 e); [lia|]. rewrite Z.div_small.
      * unfold dbl_signed. destruct (dbl_negative d); exact Hr.
      * split; [lia|]. apply Z.lt_le_trans with (2 ^ 53); [lia|]. apply Z.pow_le_mono_r; lia.
    + wstep. apply wp_shr64; [lia|]. rewrite Z.shiftr_div_pow2 by lia.
      assert ((if 0 <=? e then m * 2 ^ e else m / 2 ^ (- e)) = m / 2 ^ (- e)) as ->.
      { destruct (Z.leb_spec 0 e); [|reflexivity]. assert (e = 0) as -> by lia.
        change (2 ^ 0) with 1. change (2 ^ (- 0)) with 1. now rewrite Z.mul_1_r, Z.div_1_r. }
      set (v := m / 2 ^ (- e)).
      assert (0 <= v < W64) as Hv.
      { split; [apply Z.div_pos; [lia|apply Z.pow_pos_nonneg; lia]|].
        apply Z.div_lt_upper_bound; [apply Z.pow_pos_nonneg; lia|].
        apply Z.lt_le_trans with (1 * W64); [change (2 ^ 53) with 9007199254740992 in SR; num; lia|].
        apply Z.mul_le_mono_nonneg_r; [num; lia|]. apply (Z.pow_le_mono_r 2 0); lia. }
      wstep. eapply wp_mono; [apply (bi_of_uint64_spec c v Hv)|]. intros b Hb. cbn beta in Hb.
      rewrite Sg, DS. apply (negate_fields c b v _ Hb).
  - destruct (Z.leb_spec 0 e) as [_|]; [|lia]. specialize (EN He). destruct (Z.leb_spec e 11) as [H11|H11].
    + wstep. apply wp_shl64; [lia|]. rewrite Z.shiftl_mul_pow2 by lia.
      assert (0 <= m * 2 ^ e < W64) as Hv.
      { split; [apply Z.mul_nonneg_nonneg; [lia|apply Z.pow_nonneg; lia]|].
        change W64 with (2 ^ 53 * 2 ^ 11). apply Z.lt_le_trans with (2 ^ 53 * 2 ^ e).
        - apply Z.mul_lt_mono_pos_r; [apply Z.pow_pos_nonneg; lia|lia].
        - apply Z.mul_le_mono_nonneg_l; [lia|]. apply Z.pow_le_mono_r; lia. }
      rewrite u64_small by exact Hv.
      wstep. eapply wp_mono; [apply (bi_of_uint64_spec c _ Hv)|]. intros b Hb. cbn beta in Hb.
      rewrite Sg, DS. apply (negate_fields c b _ _ Hb).
    + wstep. apply wp_shl64; [lia|]. rewrite Z.shiftl_mul_pow2 by lia.
      assert (2 ^ 63 <= m * 2 ^ 11 < 2 ^ 64) as Hv.
      { change (2 ^ 63) with (2 ^ 52 * 2 ^ 11). change (2 ^ 64) with (2 ^ 53 * 2 ^ 11).
        split; [apply Z.mul_le_mono_nonneg_r; lia|apply Z.mul_lt_mono_pos_r; lia]. }
      rewrite u64_small by (change W64 with (2 ^ 64); lia). cbv zeta. unfold kcbitUint in *.
      rewrite (Z.quot_div_nonneg (e - 11 - 1) 32) by lia.
      pose proof (Z.div_mod (e - 11 - 1) 32 ltac:(lia)) as DM. pose proof (Z.mod_pos_bound (e - 11 - 1) 32 ltac:(lia)) as MB.
      pose proof (Z.div_pos (e - 11 - 1) 32 ltac:(lia) ltac:(lia)) as QP.
      set (q := (e - 11 - 1) / 32) in *. set (rr := (e - 11 - 1) mod 32) in *. clearbody q rr.
      set (cbit := (q + 1) * 32 - (e - 11)). assert (0 <= cbit < 32) as Hc by (unfold cbit; lia).
      wstep. apply wp_massert; [apply andb_true_iff; lia|]. wstep. apply wp_massert; [apply Z.leb_le; lia|].
      set (man := m * 2 ^ 11) in *.
      pose proof (three_limbs man (Z.to_nat q) cbit Hv Hc) as (L1 & L2 & L3).
      set (w0 := if 0 <? cbit then u32 (Z.shiftl (u32 man) (32 - cbit)) else 0) in *.
      set (w1 := u32 (Z.shiftr man cbit)) in *. set (w2 := u32 (Z.shiftr man (cbit + 32))) in *.
      set (n := Z.to_nat q) in *.
      assert (zeros (Z.to_nat (q + 1 + 2)) = zeros n ++ [0; 0; 0]) as ->.
      { unfold zeros. change [0; 0; 0] with (repeat 0 3). rewrite <- repeat_app. f_equal. lia. }
      wstep. apply wp_shr64; [lia|].
      wstep. apply wp_wrz; [rewrite app_length, length_zeros; cbn [length]; lia|]. fold w2.
      assert (upd (zeros n ++ [0; 0; 0]) (Z.to_nat (q + 1 + 1)) w2 = zeros n ++ [0; 0; w2]) as ->.
      { replace (zeros n ++ [0; 0; 0]) with ((zeros n ++ [0; 0]) ++ [0]) by (now rewrite <- app_assoc).
        replace (Z.to_nat (q + 1 + 1)) with (length (zeros n ++ [0; 0])) by (rewrite app_length, length_zeros; cbn [length]; lia).
        rewrite upd_app. now rewrite <- app_assoc. }
      wstep. apply wp_shr64; [lia|].
      wstep. apply wp_wrz; [rewrite app_length, length_zeros; cbn [length]; lia|]. fold w1.
      assert (upd (zeros n ++ [0; 0; w2]) (Z.to_nat (q + 1)) w1 = zeros n ++ [0; w1; w2]) as ->.
      { replace (zeros n ++ [0; 0; w2]) with ((zeros n ++ [0]) ++ 0 :: [w2]) by (now rewrite <- app_assoc).
        replace (Z.to_nat (q + 1)) with (length (zeros n ++ [0])) by (rewrite app_length, length_zeros; cbn [length]; lia).
        rewrite upd_app. now rewrite <- app_assoc. }
      apply wp_bind_cut with (P := fun l => l = zeros n ++ [w0; w1; w2]).
      * unfold w0. destruct (Z.ltb_spec 0 cbit) as [Hp|Hp]; [|wstep; reflexivity].
        unfold shl32. rewrite (proj2 (Z.leb_le _ _)) by lia. rewrite (proj2 (Z.ltb_lt _ _)) by lia. cbn [andb bind].
        apply wp_wrz; [rewrite app_length, length_zeros; cbn [length]; lia|].
        replace (Z.to_nat (q + 1 - 1)) with (length (zeros n)) by (rewrite length_zeros; lia). apply upd_app.
      * intros bits ->. apply wp_checked.
        assert (man * 2 ^ (32 * Z.of_nat (S n) - cbit) = m * 2 ^ e) as EV.
        { unfold man. rewrite <- Z.mul_assoc, <- Z.pow_add_r by lia. f_equal. f_equal. lia. }
        rewrite EV in L3.
        apply repr_big; [destruct (dbl_negative d); auto|destruct (zeros n); discriminate|exact L1| | |].
        -- unfold top_nz. rewrite <- last_nth. replace (zeros n ++ [w0; w1; w2]) with ((zeros n ++ [w0; w1]) ++ [w2]) by (now rewrite <- app_assoc).
           rewrite PosFacts.last_snoc. exact L2.
        -- rewrite L3. transitivity (2 ^ 52 * 1); [change (2 ^ 52) with 4503599627370496; lia|].
           pose proof (Z.pow_pos_nonneg 2 e ltac:(lia) ltac:(lia)). apply Z.mul_le_mono_nonneg; lia.
        -- rewrite L3. unfold dbl_signed. destruct (dbl_negative d); ring.
Qed.

Theorem of_double_infinite c d : dbl_pattern d -> ~ dbl_finite d -> bi_of_double c d = Throw OverflowError.
Proof.
  intros Hd Hf. unfold bi_of_double. rewrite finite_test by exact Hd. unfold dbl_finite in Hf.
  destruct (Z.eqb_spec (dbl_exp d) 2047); [reflexivity|tauto].
Qed.

(** ** operator double *)

Lemma cbit32_eq u : cbit_high_zero32 u = leading_zeros u.
Proof. reflexivity. Qed.

Lemma cbit64_top man : 2 ^ 63 <= man < 2 ^ 64 -> cbit_high_zero64 man = 0.
Proof.
  intros H. unfold cbit_high_zero64.
  assert (2147483648 <= Z.shiftr man 32 < W32) as B.
  { rewrite Z.shiftr_div_pow2 by lia. split.
    - apply Z.div_le_lower_bound; [lia|]. change (2 ^ 32 * 2147483648) with (2 ^ 63). lia.
    - apply Z.div_lt_upper_bound; [lia|]. change (2 ^ 32 * W32) with (2 ^ 64). lia. }
  assert (Z.land man 18446744069414584320 <> 0) as N.
  { intros E. assert (Z.testbit (Z.land man 18446744069414584320) 63 = false) as T by (rewrite E; apply Z.bits_0).
    rewrite Z.land_spec in T. change (Z.testbit 18446744069414584320 63) with true in T. rewrite andb_true_r in T.
    assert (man / 2 ^ 63 = 1) as Q.
    { symmetry. apply (Z.div_unique _ _ _ (man - 2 ^ 63)); [|ring]. left. change (2 ^ 64) with (2 * 2 ^ 63) in H. lia. }
    rewrite Z.testbit_odd, Z.shiftr_div_pow2, Q in T by lia. discriminate. }
  rewrite (proj2 (Z.eqb_neq _ _) N). rewrite u32_small by lia. rewrite cbit32_eq.
  destruct (leading_zeros_spec (Z.shiftr man 32) ltac:(lia)) as [R1 R2].
  set (lz := leading_zeros (Z.shiftr man 32)) in *. set (h := Z.shiftr man 32) in *.
  destruct (Z.eq_dec lz 0) as [E|E]; [exact E|exfalso].
  assert (2 ^ 1 <= 2 ^ lz) as P by (apply Z.pow_le_mono_r; lia). change (2 ^ 1) with 2 in P.
  assert (2147483648 * 2 <= h * 2 ^ lz) by (apply Z.mul_le_mono_nonneg; lia). num; lia.
Qed.

Lemma land_frac man : 2 ^ 52 <= man < 2 ^ 53 -> Z.land man DBL_FRAC_MASK = man - 2 ^ 52.
Proof.
  intros H. change DBL_FRAC_MASK with (Z.ones 52). rewrite Z.land_ones by lia.
  symmetry. apply (Z.mod_unique _ _ 1); [|ring]. left. change (2 ^ 53) with (2 * 2 ^ 52) in H. lia.
Qed.

(** A 64-bit significand with its top bit set. *)
Lemma from_parts_spec sign exp man :
  2 ^ 63 <= man < 2 ^ 64 -> - 1085 < exp < 961 ->
  get_double_from_parts sign exp man =
    Ret ((if sign <? 0 then 2 ^ 63 else 0) + (exp + 1086) * 2 ^ 52 + (man / 2 ^ 11 - 2 ^ 52)).
Proof.
  intros Hm He. unfold get_double_from_parts. destruct (Z.eqb_spec man 0) as [E|_]; [change (2 ^ 63) with 9223372036854775808 in Hm; lia|].
  rewrite cbit64_top by exact Hm. cbv zeta. change (0 - 11) with (-11). change (-11 <? 0) with true. cbv iota.
  change (- -11) with 11. unfold shr64 at 1. cbn [Z.leb Z.ltb Z.compare Pos.compare Pos.compare_cont andb bind]. rewrite Z.shiftr_div_pow2 by lia.
  assert (2 ^ 52 <= man / 2 ^ 11 < 2 ^ 53) as Hq.
  { split; [apply Z.div_le_lower_bound; [lia|change (2 ^ 11 * 2 ^ 52) with (2 ^ 63); lia]|].
    apply Z.div_lt_upper_bound; [lia|]. change (2 ^ 11 * 2 ^ 53) with (2 ^ 64). lia. }
  set (q := man / 2 ^ 11) in *. clearbody q.
  destruct (Z.leb_spec 2047 (exp - -11 + 1075)); [lia|]. destruct (Z.leb_spec (exp - -11 + 1075) 0); [lia|].
  unfold shl64. cbn [Z.leb Z.ltb Z.compare Pos.compare Pos.compare_cont andb bind]. rewrite Z.shiftl_mul_pow2 by lia.
  replace (exp - -11 + 1075) with (exp + 1086) by lia.
  rewrite u64_small by (change W64 with (4096 * 2 ^ 52); change (2 ^ 52) with 4503599627370496; lia).
  rewrite land_frac by exact Hq. rewrite (Z.lor_comm (q - 2 ^ 52)), lor_add by (change (2 ^ 53) with (2 * 2 ^ 52) in Hq; lia).
  destruct (sign <? 0); [|f_equal; ring]. apply f_equal.
  change DBL_SIGN with (1 * 2 ^ 63). rewrite Z.lor_comm, lor_add.
  - change (2 ^ 63) with (2048 * 2 ^ 52). ring.
  - lia.
  - change (2 ^ 63) with (2048 * 2 ^ 52). change (2 ^ 53) with (2 * 2 ^ 52) in Hq. change (2 ^ 52) with 4503599627370496 in *. lia.
Qed.

(** The double so built, in terms of its fields. *)
Lemma built_exact (neg : bool) E sig :
  2 ^ 52 <= sig < 2 ^ 53 -> 1 <= E < 2047 ->
  let d := (if neg then 2 ^ 63 else 0) + E * 2 ^ 52 + (sig - 2 ^ 52) in
  forall z, (if neg then - sig else sig) * 2 ^ Z.max 0 (E - 1075) = z * 2 ^ Z.max 0 (1075 - E) ->
  dbl_exact d z.
Proof.
  intros Hs HE d z EQ.
  destruct (fields_pattern neg E (sig - 2 ^ 52) ltac:(lia) ltac:(change (2 ^ 53) with (2 * 2 ^ 52) in Hs; lia)) as (P & N & X & F).
  fold d in P, N, X, F. split; [exact P|]. split; [unfold dbl_finite; lia|].
  unfold dbl_signed, dbl_significand, dbl_scale. rewrite N, X, F.
  destruct (Z.eqb_spec E 0); [lia|]. replace (2 ^ 52 + (sig - 2 ^ 52)) with sig by ring.
  replace (- (E - 1075)) with (1075 - E) by ring. exact EQ.
Qed.

(** The leading 64 bits of a limb array. *)
Lemma top64 l (Hl : limbs l) (Hn : l <> []) (Ht : top_nz l) :
  let len := length l in
  let h := nth (len - 1) l 0 in
  let m := if Nat.ltb 1 len then nth (len - 2) l 0 else 0 in
  let lo := if Nat.ltb 2 len then nth (len - 3) l 0 else 0 in
  let z := leading_zeros h in
  let e := (Z.of_nat len - 2) * 32 - z in
  let man := Z.lor (Z.lor (u64 (Z.shiftl h (32 + z))) (u64 (Z.shiftl m z))) (Z.shiftr lo (32 - z)) in
  0 <= z < 32 /\ 2 ^ 63 <= man < 2 ^ 64 /\ Z.log2 (val l) = e + 63 /\
  man = if 0 <=? e then val l / 2 ^ e else val l * 2 ^ (- e).
Proof.
  cbv zeta. set (len := length l). assert (0 < len)%nat as Hlen by (unfold len; destruct l; [congruence|cbn [length]; lia]).
  set (h := nth (len - 1) l 0).
  assert (limb h) as Hh by (apply limbs_nth, Hl). assert (h <> 0) as Hh0 by exact Ht.
  destruct (leading_zeros_spec h ltac:(num; lia)) as [Z1 Z2]. set (z := leading_zeros h) in *. clearbody z.
  set (m := if Nat.ltb 1 len then nth (len - 2) l 0 else 0).
  assert (limb m) as Hm by (unfold m; destruct (Nat.ltb 1 len); [apply limbs_nth, Hl|unfold limb; num; lia]).
  set (lo := if Nat.ltb 2 len then nth (len - 3) l 0 else 0).
  assert (limb lo) as Hlo by (unfold lo; destruct (Nat.ltb 2 len); [apply limbs_nth, Hl|unfold limb; num; lia]).
  set (e := (Z.of_nat len - 2) * 32 - z).
  set (p := 2 ^ z) in *. assert (0 < p) as Hp by (apply Z.pow_pos_nonneg; lia).
  set (r := 2 ^ (32 - z)). assert (0 < r) as Hr by (apply Z.pow_pos_nonneg; lia).
  assert (p * r = W32) as Hpr by (unfold p, r; rewrite <- Z.pow_add_r by lia; now replace (z + (32 - z)) with 32 by lia).
  assert (2 ^ (32 + z) = W32 * p) as E32 by (unfold p; rewrite Z.pow_add_r by lia; reflexivity).
  assert (p <= 2147483648) as Hp31 by (change 2147483648 with (2 ^ 31); apply Z.pow_le_mono_r; lia).
  (* the three pieces add up *)
  set (man := Z.lor (Z.lor (u64 (Z.shiftl h (32 + z))) (u64 (Z.shiftl m z))) (Z.shiftr lo (32 - z))).
  assert (0 <= lo / r < p) as Hlr.
  { split; [apply Z.div_pos; num; lia|]. apply Z.div_lt_upper_bound; [lia|]. rewrite Z.mul_comm, Hpr. apply Hlo. }
  assert (0 <= m * p < W32 * p) as Hmp.
  { split; [apply Z.mul_nonneg_nonneg; num; lia|]. apply Z.mul_lt_mono_pos_r; [lia|apply Hm]. }
  assert (man = (h * W32 + m) * p + lo / r) as EM.
  { unfold man. rewrite !Z.shiftl_mul_pow2, Z.shiftr_div_pow2 by lia. fold p r. rewrite E32.
    rewrite !u64_small.
    - rewrite <- E32. rewrite (lor_add h (m * p) (32 + z)) by (rewrite ?E32; lia).
      rewrite E32. replace (h * (W32 * p) + m * p) with ((h * W32 + m) * p) by ring.
      unfold p at 1. rewrite lor_add by (fold p; lia). fold p. reflexivity.
    - change W64 with (W32 * W32). split; [lia|]. apply Z.lt_le_trans with (W32 * p); [lia|]. apply Z.mul_le_mono_nonneg_l; num; lia.
    - replace (h * (W32 * p)) with (W32 * (h * p)) by ring. change W64 with (W32 * W32).
      split; [apply Z.mul_nonneg_nonneg; num; lia|]. apply Z.mul_lt_mono_pos_l; [num; lia|lia]. }
  (* the 96-bit window *)
  set (T := (h * W32 + m) * W32 + lo).
  assert (man = T / r) as ET.
  { rewrite EM. unfold T. rewrite <- Hpr at 3. replace ((h * W32 + m) * (p * r) + lo) with (lo + ((h * W32 + m) * p) * r) by ring.
    rewrite Z.div_add by lia. ring. }
  assert (2 ^ 63 <= man < 2 ^ 64) as Bman.
  { change (2 ^ 63) with (2147483648 * W32). change (2 ^ 64) with (W32 * W32). rewrite EM. 
    replace ((h * W32 + m) * p + lo / r) with (W32 * (h * p) + m * p + lo / r) by ring.
    assert (W32 * 2147483648 <= W32 * (h * p)) by (apply Z.mul_le_mono_nonneg_l; num; lia).
    split; [lia|].
    assert (h * p <= W32 - p) as Hhp.
    { (* h * p is a multiple of p below W32 = p * r *)
      rewrite <- Hpr in Z2 |- *. assert (h < r) by (apply (Z.mul_lt_mono_pos_r p); lia).
      assert (h * p <= (r - 1) * p) by (apply Z.mul_le_mono_nonneg_r; lia). lia. }
    assert (m * p <= (W32 - 1) * p) by (apply Z.mul_le_mono_nonneg_r; num; lia).
    assert (W32 * (h * p) <= W32 * (W32 - p)) by (apply Z.mul_le_mono_nonneg_l; num; lia). lia. }
  split; [exact Z1|]. split; [exact Bman|].
  (* value of the array against the window *)
  assert (man = if 0 <=? e then val l / 2 ^ e else val l * 2 ^ (- e)) as EV.
  { destruct len as [|[|[|k]]] eqn:EL; [lia| | |].
    - (* one limb *)
      assert (val l = h) as Ev.
      { unfold h. rewrite <- (vl_all l). unfold len in EL. rewrite EL. rewrite vl_S, vl_0, Bp_0. cbn [Nat.sub]. ring. }
      unfold m, lo in EM. cbn [Nat.ltb Nat.leb] in EM. rewrite Z.div_0_l in EM by lia.
      assert (e < 0) by (unfold e; lia). destruct (Z.leb_spec 0 e); [lia|].
      replace (- e) with (32 + z) by (unfold e; lia). rewrite E32, Ev, EM. ring.
    - (* two limbs *)
      assert (val l = h * W32 + m) as Ev.
      { unfold h, m. rewrite <- (vl_all l). unfold len in EL. rewrite EL. rewrite !vl_S, vl_0, Bp_0, Bp_1. cbn [Nat.sub Nat.ltb Nat.leb]. ring. }
      unfold lo in EM. cbn [Nat.ltb Nat.leb] in EM. rewrite Z.div_0_l in EM by lia.
      destruct (Z.leb_spec 0 e).
      + assert (z = 0) as Ez by (unfold e in *; lia). unfold e. rewrite Ez. change (2 ^ ((Z.of_nat 2 - 2) * 32 - 0)) with 1.
        rewrite Z.div_1_r, Ev, EM. unfold p. rewrite Ez. change (2 ^ 0) with 1. ring.
      + replace (- e) with z by (unfold e; lia). fold p. rewrite Ev, EM. ring.
    - (* three or more *)
      assert (T = val (skipn k l)) as Ev.
      { unfold len in EL. rewrite (skipn_nth l k), (skipn_nth l (S k)), (skipn_nth l (S (S k))) by lia.
        rewrite (skipn_all2 l) by lia. cbn [val]. unfold T, h, m, lo. cbn [Nat.ltb Nat.leb].
        replace (S (S (S k)) - 1)%nat with (S (S k)) by lia. replace (S (S (S k)) - 2)%nat with (S k) by lia.
        replace (S (S (S k)) - 3)%nat with k by lia. ring. }
      assert (T = val l / Bp k) as Ed.
      { rewrite Ev. apply (Z.div_unique _ _ _ (vl l k)); [left; apply vl_bound, Hl|].
        rewrite (val_split l k) by (unfold len in EL; lia). ring. }
      assert (0 <= e) by (unfold e; lia). destruct (Z.leb_spec 0 e); [|lia].
      rewrite ET, Ed, Bp_pow2. rewrite Z.div_div; [|apply Z.pow_nonzero; lia|lia].
      unfold r. rewrite <- Z.pow_add_r by lia. f_equal. f_equal. unfold e. lia. }
  split; [|exact EV].
  pose proof (val_bound l Hl) as VB.
  assert (0 < val l) as VP by (pose proof (top_nz_bound l Hl Hn Ht); pose proof (Bp_pos (length l - 1)); lia).
  apply Z.log2_unique; [unfold e; lia|]. rewrite EV in Bman. destruct (Z.leb_spec 0 e) as [He|He].
  - pose proof (Z.pow_pos_nonneg 2 e ltac:(lia) He) as P.
    replace (e + 63) with (63 + e) by ring. rewrite Z.pow_succ_r, Z.pow_add_r by lia.
    pose proof (Z.mul_div_le (val l) (2 ^ e) P). pose proof (Z.mul_succ_div_gt (val l) (2 ^ e) P).
    set (q := val l / 2 ^ e) in *. set (pe := 2 ^ e) in *. clearbody q pe.
    split.
    + transitivity (pe * q); [rewrite Z.mul_comm; apply Z.mul_le_mono_nonneg_l; lia|lia].
    + apply Z.lt_le_trans with (pe * Z.succ q); [lia|]. rewrite Z.mul_assoc. change (2 * 2 ^ 63) with (2 ^ 64).
      rewrite Z.mul_comm. apply Z.mul_le_mono_nonneg_r; lia.
  - pose proof (Z.pow_pos_nonneg 2 (- e) ltac:(lia) ltac:(lia)) as P.
    assert (2 ^ 63 = 2 ^ (e + 63) * 2 ^ (- e)) as E63 by (rewrite <- Z.pow_add_r by (unfold e; lia); f_equal; lia).
    assert (2 ^ 64 = 2 ^ Z.succ (e + 63) * 2 ^ (- e)) as E64 by (rewrite <- Z.pow_add_r by (unfold e; lia); f_equal; lia).
    rewrite E63, E64 in Bman. split; [apply (Z.mul_le_mono_pos_r _ _ (2 ^ (- e))); lia|apply (Z.mul_lt_mono_pos_r (2 ^ (- e))); lia].
Qed.

Lemma quot_signed neg V p : 0 < p -> 0 <= V ->
  Z.quot (if neg : bool then - V else V) p = if neg then - (V / p) else V / p.
Proof.
  intros Hp HV. destruct neg; [rewrite Z.quot_opp_l by lia|]; rewrite Z.quot_div_nonneg by lia; reflexivity.
Qed.

Lemma int_to_double_exact n : INT_MIN < n <= INT_MAX ->
  dbl_exact (int_to_double n) n /\ (n = 0 -> int_to_double n = 0).
Proof.
  intros Hn. split; [|intros ->; reflexivity]. unfold int_to_double.
  destruct (Z.eqb_spec n 0) as [->|H0].
  - split; [unfold dbl_pattern; lia|]. split; [discriminate|reflexivity].
  - cbv zeta. set (a := Z.abs n). assert (0 < a < 2 ^ 31) as Ha by (unfold a; change (2 ^ 31) with 2147483648; num; lia).
    pose proof (Z.log2_spec a ltac:(lia)) as L. pose proof (Z.log2_nonneg a) as L0.
    assert (Z.log2 a < 31) as L1 by (apply Z.log2_lt_pow2; lia). set (e := Z.log2 a) in *. clearbody e.
    assert (2 ^ 52 = 2 ^ e * 2 ^ (52 - e)) as E52 by (rewrite <- Z.pow_add_r by lia; f_equal; lia).
    assert (2 ^ 53 = 2 ^ Z.succ e * 2 ^ (52 - e)) as E53 by (rewrite <- Z.pow_add_r by lia; f_equal; lia).
    pose proof (Z.pow_pos_nonneg 2 (52 - e) ltac:(lia) ltac:(lia)) as P.
    change DBL_SIGN with (2 ^ 63). change DBL_HIDDEN with (2 ^ 52).
    apply (built_exact (n <? 0) (e + 1023) (a * 2 ^ (52 - e))).
    + rewrite E52, E53. split; [apply Z.mul_le_mono_nonneg_r; lia|apply Z.mul_lt_mono_pos_r; lia].
    + lia.
    + rewrite Z.max_l, Z.max_r by lia. replace (1075 - (e + 1023)) with (52 - e) by ring. change (2 ^ 0) with 1.
      unfold a. destruct (Z.ltb_spec n 0); [rewrite Z.abs_neq by lia|rewrite Z.abs_eq by lia]; ring.
Qed.

Lemma trunc53_small x : Z.abs x < 2 ^ 53 -> trunc53 x = x.
Proof.
  intros H. unfold trunc53. rewrite Z.max_l.
  - change (2 ^ 0) with 1. rewrite Z.quot_1_r. cbv zeta. ring.
  - destruct (Z.eq_dec (Z.abs x) 0) as [->|]; [cbn; lia|].
    assert (Z.log2 (Z.abs x) < 53) by (apply Z.log2_lt_pow2; lia). lia.
Qed.

Theorem to_double_finite c b x :
  represents b x -> Z.abs x < 2 ^ 1024 ->
  exists d, bi_to_double c b = Ret d /\ dbl_exact d (trunc53 x) /\ (x = 0 -> d = 0).
Proof.
  intros Hb Hx. pose proof (repr_length b x 32 Hb ltac:(lia) Hx) as HL. apply represents_view in Hb.
  inversion Hb as [z Hz Z1 Z2|s l Hs Hnl Hll Htl Hvl Z1 Z2]; subst b x; cbn [bits_of] in HL; unfold bi_to_double; cbn [bits_of sign_of].
  - cbn [is_nil]. exists (int_to_double z). split; [reflexivity|].
    rewrite trunc53_small by (change (2 ^ 53) with 9007199254740992; num; lia). now apply int_to_double_exact.
  - rewrite is_nil_ne by exact Hnl. cbv zeta.
    destruct (Nat.ltb_spec 32 (length l)) as [Hc|_]; [lia|].
    pose proof (top64 l Hll Hnl Htl) as (T1 & T2 & T3 & T4).
    assert (0 < length l)%nat as Hlen by (destruct l; [congruence|cbn [length]; lia]).
    set (len := length l) in *. set (h := nth (len - 1) l 0) in *.
    assert (limb h) as Hh by (apply limbs_nth, Hll).
    set (m := if Nat.ltb 1 len then nth (len - 2) l 0 else 0) in *.
    set (lo := if Nat.ltb 2 len then nth (len - 3) l 0 else 0) in *.
    set (lz := leading_zeros h) in *. set (e := (Z.of_nat len - 2) * 32 - lz) in *.
    set (man := Z.lor (Z.lor (u64 (Z.shiftl h (32 + lz))) (u64 (Z.shiftl m lz))) (Z.shiftr lo (32 - lz))) in *.
    assert (rd l (len - 1) = Ret h) as -> by (unfold rd; rewrite (nth_error_nth' _ 0) by (unfold len in *; lia); reflexivity).
    cbn [bind].
    assert ((if Nat.ltb 1 len then rd l (len - 2) else Ret 0) = Ret m) as ->.
    { unfold m. destruct (Nat.ltb_spec 1 len); [|reflexivity].
      unfold rd. rewrite (nth_error_nth' _ 0) by (unfold len in *; lia). reflexivity. }
    cbn [bind].
    assert ((if Nat.ltb 2 len then rd l (len - 3) else Ret 0) = Ret lo) as ->.
    { unfold lo. destruct (Nat.ltb_spec 2 len); [|reflexivity].
      unfold rd. rewrite (nth_error_nth' _ 0) by (unfold len in *; lia). reflexivity. }
    cbn [bind]. rewrite u32_small by exact Hh. rewrite cbit32_eq. fold lz.
    unfold shl64. rewrite (proj2 (Z.leb_le 0 (32 + lz))), (proj2 (Z.ltb_lt (32 + lz) 64)) by lia. cbn [andb bind].
    rewrite (proj2 (Z.leb_le 0 lz)), (proj2 (Z.ltb_lt lz 64)) by lia. cbn [andb bind].
    unfold shr64. rewrite (proj2 (Z.leb_le 0 (32 - lz))), (proj2 (Z.ltb_lt (32 - lz) 64)) by lia. cbn [andb bind].
    fold e. fold man. clearbody man. rewrite from_parts_spec by (try exact T2; unfold e; lia).
    assert ((s <? 0) = (s * val l <? 0)) as Es by (destruct Hs; subst s; [|]; symmetry; [apply Z.ltb_ge|apply Z.ltb_lt]; lia).
    eexists. split; [reflexivity|]. split; [|destruct Hs; subst s; lia].
    assert (2 ^ 52 <= man / 2 ^ 11 < 2 ^ 53) as Hq.
    { split; [apply Z.div_le_lower_bound; [lia|change (2 ^ 11 * 2 ^ 52) with (2 ^ 63); lia]|].
      apply Z.div_lt_upper_bound; [lia|]. change (2 ^ 11 * 2 ^ 53) with (2 ^ 64). lia. }
    apply built_exact; [exact Hq|unfold e; lia|].
    replace (e + 1086 - 1075) with (e + 11) by ring. replace (1075 - (e + 1086)) with (- (e + 11)) by ring.
    assert (s * val l = if s <? 0 then - val l else val l) as EX by (destruct Hs; subst s; cbn [Z.ltb Z.compare]; ring).
    rewrite EX. unfold trunc53.
    assert (Z.abs (if s <? 0 then - val l else val l) = val l) as EA by (destruct (s <? 0); lia).
    rewrite EA, T3. replace (e + 63 - 52) with (e + 11) by ring. cbv zeta.
    rewrite quot_signed by (try apply Z.pow_pos_nonneg; lia).
    assert (man / 2 ^ 11 * 2 ^ Z.max 0 (e + 11) = val l / 2 ^ Z.max 0 (e + 11) * 2 ^ Z.max 0 (e + 11) * 2 ^ Z.max 0 (- (e + 11))) as EQ.
    { rewrite T4. destruct (Z.leb_spec 0 e) as [He|He].
      - rewrite Z.max_r, Z.max_l by lia. rewrite Z.div_div by (try apply Z.pow_nonzero; lia).
        rewrite <- Z.pow_add_r by lia. change (2 ^ 0) with 1. ring.
      - destruct (Z.le_gt_cases 0 (e + 11)) as [H11|H11].
        + rewrite Z.max_r, Z.max_l by lia. change (2 ^ 0) with 1.
          replace (2 ^ 11) with (2 ^ (e + 11) * 2 ^ (- e)) by (rewrite <- Z.pow_add_r by lia; f_equal; lia).
          rewrite Z.div_mul_cancel_r by (apply Z.pow_nonzero; lia). ring.
        + rewrite Z.max_l, Z.max_r by lia. change (2 ^ 0) with 1. rewrite Z.div_1_r.
          replace (2 ^ (- e)) with (2 ^ (- (e + 11)) * 2 ^ 11) by (rewrite <- Z.pow_add_r by lia; f_equal; lia).
          rewrite Z.mul_assoc, Z.div_mul by lia. ring. }
    destruct (s <? 0); [|exact EQ]. rewrite !Z.mul_opp_l. now rewrite EQ.
Qed.

Theorem to_double_infinite c b x :
  represents b x -> 2 ^ 1024 <= Z.abs x ->
  bi_to_double c b = Ret (if x <? 0 then minus_infinity else plus_infinity).
Proof.
  intros Hb Hx. pose proof (length_fits b x Hb) as LF. unfold fits_limbs in LF.
  assert (32 < Z.of_nat (length (bits_of b))) as HL.
  { destruct (Z.lt_ge_cases 32 (Z.of_nat (length (bits_of b)))) as [H|H]; [exact H|exfalso].
    pose proof (Z.pow_le_mono_r 2 (32 * Z.max 1 (Z.of_nat (length (bits_of b)))) 1024 ltac:(lia) ltac:(lia)) as P.
    set (big := 2 ^ 1024) in *. clearbody big. lia. }
  apply represents_view in Hb.
  inversion Hb as [z Hz Z1 Z2|s l Hs Hnl Hll Htl Hvl Z1 Z2]; subst b x; cbn [bits_of length] in *; [lia|].
  unfold bi_to_double. cbn [bits_of sign_of]. rewrite is_nil_ne by exact Hnl. cbv zeta.
  destruct (Nat.ltb_spec 32 (length l)); [|lia]. f_equal. destruct Hs; subst s.
  - destruct (Z.ltb_spec (1 * val l) 0); [lia|reflexivity].
  - destruct (Z.ltb_spec (-1 * val l) 0); [reflexivity|lia].
Qed.

(** ** Exactly representable integers *)

(** A non-zero integer value pins down the fields. *)
Lemma exact_fields d z : dbl_exact d z -> z <> 0 ->
  dbl_exp d <> 0 /\ dbl_negative d = (z <? 0) /\
  dbl_significand d * 2 ^ Z.max 0 (dbl_scale d) = Z.abs z * 2 ^ Z.max 0 (- dbl_scale d) /\
  Z.log2 (Z.abs z) = 52 + dbl_scale d.
Proof.
  intros (P & F & E) Hz. pose proof (significand_range d P) as (SR & SN & SC & SD).
  set (sg := dbl_significand d) in *. set (k := dbl_scale d) in *.
  pose proof (Z.pow_pos_nonneg 2 (Z.max 0 k) ltac:(lia) ltac:(lia)) as P1.
  pose proof (Z.pow_pos_nonneg 2 (Z.max 0 (- k)) ltac:(lia) ltac:(lia)) as P2.
  set (A := 2 ^ Z.max 0 k) in *. set (B := 2 ^ Z.max 0 (- k)) in *.
  assert (0 <= sg * A) as SA by (apply Z.mul_nonneg_nonneg; lia).
  assert (dbl_negative d = (z <? 0) /\ sg * A = Z.abs z * B) as [N E2].
  { unfold dbl_signed in E. destruct (dbl_negative d).
    - assert (z * B = - (sg * A)) as E1 by (rewrite <- E; ring).
      assert (z < 0).
      { destruct (Z.lt_ge_cases z 0); [assumption|exfalso]. assert (0 < z * B) by (apply Z.mul_pos_pos; lia). lia. }
      split; [symmetry; now apply Z.ltb_lt|]. rewrite Z.abs_neq by lia. rewrite Z.mul_opp_l, E1. ring.
    - assert (0 <= z).
      { destruct (Z.lt_ge_cases z 0); [exfalso|assumption]. assert (0 < (- z) * B) by (apply Z.mul_pos_pos; lia). lia. }
      split; [symmetry; now apply Z.ltb_ge|]. rewrite Z.abs_eq by lia. exact E. }
  assert (B <= sg * A) as BB.
  { rewrite E2. assert (1 * B <= Z.abs z * B) by (apply Z.mul_le_mono_nonneg_r; lia). lia. }
  assert (dbl_exp d <> 0) as EX.
  { intros E0. destruct (SD E0) as [S1 S2]. unfold A, B in BB. rewrite S2 in BB. change (Z.max 0 (- -1074)) with 1074 in BB. change (Z.max 0 (-1074)) with 0 in BB.
    change (2 ^ 0) with 1 in BB. pose proof (Z.pow_le_mono_r 2 52 1074 ltac:(lia) ltac:(lia)).
    set (big := 2 ^ 1074) in *. clearbody big. lia. }
  split; [exact EX|]. split; [exact N|]. split; [exact E2|]. specialize (SN EX).
  destruct (Z.le_gt_cases 0 k) as [K|K].
  - unfold A, B in *. rewrite Z.max_r, Z.max_l in * by lia. change (2 ^ 0) with 1 in *.
    apply Z.log2_unique; [lia|]. rewrite Z.pow_succ_r, Z.pow_add_r by lia. change (2 ^ 53) with (2 * 2 ^ 52) in SR.
    replace (Z.abs z) with (sg * 2 ^ k) by lia. split; [apply Z.mul_le_mono_nonneg_r; lia|].
    rewrite Z.mul_assoc. apply Z.mul_lt_mono_pos_r; lia.
  - unfold A, B in *. rewrite Z.max_l, Z.max_r in * by lia. change (2 ^ 0) with 1 in *.
    assert (0 <= 52 + k) as K2.
    { destruct (Z.le_gt_cases 0 (52 + k)) as [|K3]; [assumption|exfalso].
      pose proof (Z.pow_le_mono_r 2 53 (- k) ltac:(lia) ltac:(lia)). lia. }
    assert (2 ^ 52 = 2 ^ (52 + k) * 2 ^ (- k)) as E52 by (rewrite <- Z.pow_add_r by lia; f_equal; lia).
    assert (2 ^ 53 = 2 ^ Z.succ (52 + k) * 2 ^ (- k)) as E53 by (rewrite <- Z.pow_add_r by lia; f_equal; lia).
    apply Z.log2_unique; [lia|]. split.
    + apply (Z.mul_le_mono_pos_r _ _ (2 ^ (- k))); lia.
    + apply (Z.mul_lt_mono_pos_r (2 ^ (- k))); lia.
Qed.

Theorem dbl_exact_unique d d' z : dbl_exact d z -> dbl_exact d' z -> z <> 0 -> d = d'.
Proof.
  intros H H' Hz. destruct (exact_fields d z H Hz) as (E1 & E2 & E3 & E4).
  destruct (exact_fields d' z H' Hz) as (F1 & F2 & F3 & F4).
  destruct H as (P & _). destruct H' as (P' & _).
  pose proof (pattern_fields d P) as (_ & _ & D). pose proof (pattern_fields d' P') as (_ & _ & D').
  assert (dbl_scale d = dbl_scale d') as ES by lia.
  assert (dbl_significand d = dbl_significand d') as EG.
  { rewrite <- ES in F3. pose proof (Z.pow_pos_nonneg 2 (Z.max 0 (dbl_scale d)) ltac:(lia) ltac:(lia)) as PP.
    apply (Z.mul_reg_r _ _ (2 ^ Z.max 0 (dbl_scale d))); lia. }
  unfold dbl_scale, dbl_significand in *. destruct (Z.eqb_spec (dbl_exp d) 0), (Z.eqb_spec (dbl_exp d') 0); try lia.
  rewrite D, D', E2, F2. assert (dbl_exp d = dbl_exp d') as -> by lia. assert (dbl_frac d = dbl_frac d') as -> by lia. reflexivity.
Qed.

Lemma exact_trunc d z : dbl_exact d z -> dbl_trunc d = z.
Proof.
  intros (P & F & E). unfold dbl_trunc. pose proof (significand_range d P) as (SR & _ & SC & _).
  set (sg := dbl_significand d) in *. set (k := dbl_scale d) in *.
  destruct (Z.leb_spec 0 k) as [K|K].
  - rewrite Z.max_r, Z.max_l in E by lia. change (2 ^ 0) with 1 in E. rewrite Z.mul_1_r in E. rewrite <- E.
    unfold dbl_signed. destruct (dbl_negative d); ring.
  - rewrite Z.max_l, Z.max_r in E by lia. change (2 ^ 0) with 1 in E. rewrite Z.mul_1_r in E.
    pose proof (Z.pow_nonzero 2 (- k) ltac:(lia) ltac:(lia)) as PP.
    unfold dbl_signed in *. destruct (dbl_negative d).
    + assert (sg = (- z) * 2 ^ (- k)) as -> by (rewrite Z.mul_opp_l, <- E; ring). rewrite Z.div_mul by exact PP. ring.
    + rewrite E. apply Z.div_mul. exact PP.
Qed.

Lemma trunc53_multiple x m k : 0 <= k -> Z.abs m < 2 ^ 53 -> x = m * 2 ^ k -> trunc53 x = x.
Proof.
  intros Hk Hm ->. destruct (Z.eq_dec m 0) as [->|H0]; [reflexivity|].
  pose proof (Z.pow_pos_nonneg 2 k ltac:(lia) Hk) as P.
  assert (Z.abs (m * 2 ^ k) = Z.abs m * 2 ^ k) as EA by (rewrite Z.abs_mul; f_equal; lia).
  unfold trunc53. cbv zeta. rewrite EA, Z.log2_mul_pow2 by lia.
  assert (Z.log2 (Z.abs m) < 53) as L by (apply Z.log2_lt_pow2; lia).
  set (j := Z.max 0 (k + Z.log2 (Z.abs m) - 52)). assert (0 <= j <= k) as Hj by (unfold j; lia).
  replace (m * 2 ^ k) with (m * 2 ^ (k - j) * 2 ^ j) by (rewrite <- Z.mul_assoc, <- Z.pow_add_r by lia; do 2 f_equal; lia).
  rewrite Z.quot_mul by (apply Z.pow_nonzero; lia). reflexivity.
Qed.

Theorem to_double_exact c b x m k :
  represents b x -> x = m * 2 ^ k -> 0 <= k -> Z.abs m < 2 ^ 53 -> Z.abs x < 2 ^ 1024 ->
  exists d, bi_to_double c b = Ret d /\ dbl_exact d x.
Proof.
  intros Hb E Hk Hm Hx. destruct (to_double_finite c b x Hb Hx) as (d & Ed & D & _). exists d. split; [exact Ed|].
  now rewrite (trunc53_multiple x m k) in D by assumption.
Qed.

Theorem double_round_trip c d z :
  dbl_exact d z -> exists b d', bi_of_double c d = Ret b /\ represents b z /\
    bi_to_double c b = Ret d' /\ dbl_exact d' z /\ (z <> 0 -> d' = d).
Proof.
  intros H. destruct (of_double_finite c d (proj1 H) (proj1 (proj2 H))) as (b & Eb & Rb).
  rewrite (exact_trunc d z H) in Rb. exists b.
  assert (Z.abs z < 2 ^ 1024 /\ trunc53 z = z) as [Hz Ht].
  { destruct (Z.eq_dec z 0) as [->|N].
    - split; [|reflexivity]. change (Z.abs 0) with 0. apply Z.pow_pos_nonneg; lia.
    - destruct (exact_fields d z H N) as (E1 & E2 & E3 & E4). destruct H as (P & F & E).
      pose proof (significand_range d P) as (SR & _ & SC & _). pose proof (pattern_fields d P) as (_ & ER & _).
      assert (dbl_scale d <= 971) as S1.
      { unfold dbl_scale. destruct (dbl_exp d =? 0); [lia|]. unfold dbl_finite in F. lia. }
      split; [apply Z.log2_lt_pow2; lia|].
      destruct (Z.le_gt_cases 0 (dbl_scale d)) as [K|K].
      + rewrite Z.max_r, Z.max_l in E by lia. change (2 ^ 0) with 1 in E. rewrite Z.mul_1_r in E.
        apply (trunc53_multiple z (dbl_signed d (dbl_significand d)) (dbl_scale d)); [lia| |now symmetry].
        unfold dbl_signed. destruct (dbl_negative d); lia.
      + apply trunc53_small. apply Z.log2_lt_pow2; lia. }
  destruct (to_double_finite c b z Rb Hz) as (d' & Ed & D & _). rewrite Ht in D. exists d'.
  split; [exact Eb|]. split; [exact Rb|]. split; [exact Ed|]. split; [exact D|].
  intros N. exact (dbl_exact_unique d' d z D H N).
Qed.
