(** Proofs about log. *)
From Verif Require Import Facts AddSubFacts Spec SpecFacts SpecApi BigInt BigIntFacts CompareFacts
  ShiftFacts ConvFacts WordFacts PowFacts CalcDivRem DivRemFacts TextFacts SpecDouble BigIntDouble DoubleFacts BigIntLog.
Open Scope Z_scope.

Ltac Zify.zify_post_hook ::= idtac.

Lemma log_undefined c b x base :
  represents b x -> x < 0 \/ base = DBL_ONE -> bi_log c b base = Ret LNaN.
Proof.
  intros Hb H. unfold bi_log. rewrite (repr_sign_ltb b x Hb).
  destruct H as [H|H]; [rewrite (proj2 (Z.ltb_lt _ _) H); reflexivity|].
  subst base. rewrite Z.eqb_refl, orb_true_r. reflexivity.
Qed.

Lemma abs_mask d : dbl_pattern d -> Z.land d DBL_ABS_MASK = dbl_exp d * 2 ^ 52 + dbl_frac d.
Proof.
  intros Hd. pose proof (pattern_fields d Hd) as (F & E & D).
  change DBL_ABS_MASK with (Z.ones 63). rewrite Z.land_ones by lia.
  symmetry. apply (Z.mod_unique _ _ (if dbl_negative d then 1 else 0)).
  - left. change (2 ^ 63) with (2048 * 2 ^ 52). change (2 ^ 52) with 4503599627370496 in *. lia.
  - rewrite D at 1. destruct (dbl_negative d); ring.
Qed.

Lemma wrapper_regular a base : dbl_regular_base base -> log_wrapper a base = LRatio a base.
Proof.
  intros (P & F & Z0 & N1). unfold log_wrapper, double_is_nan, double_is_infinity, dbl_is_zero.
  rewrite abs_mask by exact P. pose proof (pattern_fields base P) as (FR & ER & D).
  unfold dbl_finite in F. unfold dbl_significand in Z0. unfold DBL_EXP_MASK, DBL_SIGN, DBL_ONE.
  change (2 ^ 52) with 4503599627370496 in *.
  destruct (Z.ltb_spec 9218868437227405312 (dbl_exp base * 4503599627370496 + dbl_frac base)); [lia|].
  destruct (Z.eqb_spec base 4607182418800017408) as [E|_].
  { exfalso. apply N1. rewrite E. reflexivity. }
  destruct (Z.eqb_spec base 0) as [E|_]; [exfalso; apply Z0; rewrite E; reflexivity|].
  destruct (Z.eqb_spec base 9223372036854775808) as [E|_]; [exfalso; apply Z0; rewrite E; reflexivity|].
  destruct (Z.eqb_spec (dbl_exp base * 4503599627370496 + dbl_frac base) 9218868437227405312); [lia|].
  cbn [orb]. rewrite andb_false_r. reflexivity.
Qed.

Lemma regular_tests base : dbl_regular_base base ->
  (base =? DBL_ONE) = false /\ (base =? DBL_EXP_MASK) = false /\ dbl_is_zero base = false.
Proof.
  intros (P & F & Z0 & N1). unfold dbl_is_zero.
  split; [apply Z.eqb_neq; intros ->; apply N1; reflexivity|].
  split; [apply Z.eqb_neq; intros ->; apply F; reflexivity|].
  apply orb_false_iff; split; apply Z.eqb_neq; intros ->; apply Z0; reflexivity.
Qed.

(** A value below 2^31, for any base the first tests let through. *)
Lemma log_small_any c b x base :
  represents b x -> 0 <= x < 2 ^ 31 ->
  (base =? DBL_ONE) = false -> (base =? DBL_EXP_MASK) = false -> dbl_is_zero base = false ->
  bi_log c b base = Ret (log_wrapper x base).
Proof.
  intros Hb Hx T1 T2 T3. change (2 ^ 31) with 2147483648 in Hx. unfold bi_log. rewrite (repr_sign_ltb b x Hb).
  rewrite T1, T2, T3. destruct (Z.ltb_spec x 0); [lia|]. cbn [orb bind].
  apply represents_view in Hb. inversion Hb as [z Hz Z1 Z2|s l Hs Hnl Hll Htl Hvl Z1 Z2]; subst b x; cbn [bits_of sign_of].
  - reflexivity.
  - exfalso. destruct Hs; subst s; lia.
Qed.

Theorem log_small c b x base :
  represents b x -> 0 <= x < 2 ^ 31 -> dbl_regular_base base -> bi_log c b base = Ret (LRatio x base).
Proof.
  intros Hb Hx HB. destruct (regular_tests base HB) as (T1 & T2 & T3).
  rewrite (log_small_any c b x base Hb Hx T1 T2 T3). now rewrite wrapper_regular.
Qed.

(** A value above 2^31, for any base the first tests let through. *)
Lemma log_shape c b x n base :
  represents b x -> 2 ^ 31 <= x -> limb_count x n -> n <= 2 ^ 57 ->
  (base =? DBL_ONE) = false -> (base =? DBL_EXP_MASK) = false -> dbl_is_zero base = false ->
  exists m k, bi_log c b base = Ret (LShifted (log_wrapper m base) k base) /\ 2 ^ 63 <= m < 2 ^ 64 /\
    m = (if 0 <=? k then x / 2 ^ k else x * 2 ^ (- k)) /\ - (64) <= k <= 2 ^ 62.
Proof.
  intros Hb Hx Hn Hn2 HB1 HB2 HB3. pose proof (limb_count_length b x n Hb Hn) as LL.
  change (2 ^ 31) with 2147483648 in Hx. unfold bi_log. rewrite (repr_sign_ltb b x Hb).
  rewrite HB1, HB2, HB3. destruct (Z.ltb_spec x 0); [lia|]. cbn [orb bind].
  apply represents_view in Hb.
  inversion Hb as [z Hz Z1 Z2|s l Hs Hnl Hll Htl Hvl Z1 Z2]; subst b x; cbn [bits_of sign_of] in *; [num; lia|].
  assert (s = 1) as -> by (destruct Hs; [assumption|subst s; lia]). rewrite Z.mul_1_l in *.
  rewrite is_nil_ne by exact Hnl. cbv zeta.
  pose proof (top64 l Hll Hnl Htl) as (T1 & T2 & T3 & T4).
  assert (0 < length l)%nat as Hlen by (destruct l; [congruence|cbn [length]; lia]).
  set (len := length l) in *. set (h := nth (len - 1) l 0) in *.
  assert (limb h) as Hh by (apply limbs_nth, Hll).
  set (m := if Nat.ltb 1 len then nth (len - 2) l 0 else 0) in *.
  set (lo := if Nat.ltb 2 len then nth (len - 3) l 0 else 0) in *.
  set (lz := leading_zeros h) in *. set (e := (Z.of_nat len - 2) * 32 - lz) in *.
  set (man := Z.lor (Z.lor (u64 (Z.shiftl h (32 + lz))) (u64 (Z.shiftl m lz))) (Z.shiftr lo (32 - lz))) in *.
  assert (rd l (len - 1) = Ret h) as -> by (unfold rd; rewrite (nth_error_nth' _ 0) by (unfold len in *; lia); reflexivity).
  cbn [bind].
  assert ((if Nat.ltb 1 len then rd l (len - 2) else Ret 0) = Ret m) as ->.
  { unfold m. destruct (Nat.ltb_spec 1 len); [|reflexivity].
    unfold rd. rewrite (nth_error_nth' _ 0) by (unfold len in *; lia). reflexivity. }
  cbn [bind].
  assert ((if Nat.ltb 2 len then rd l (len - 3) else Ret 0) = Ret lo) as ->.
  { unfold lo. destruct (Nat.ltb_spec 2 len); [|reflexivity].
    unfold rd. rewrite (nth_error_nth' _ 0) by (unfold len in *; lia). reflexivity. }
  cbn [bind]. rewrite u32_small by exact Hh. rewrite cbit32_eq. fold lz.
  unfold shl64. rewrite (proj2 (Z.leb_le 0 (32 + lz))), (proj2 (Z.ltb_lt (32 + lz) 64)) by lia. cbn [andb bind].
  rewrite (proj2 (Z.leb_le 0 lz)), (proj2 (Z.ltb_lt lz 64)) by lia. cbn [andb bind].
  unfold shr64. rewrite (proj2 (Z.leb_le 0 (32 - lz))), (proj2 (Z.ltb_lt (32 - lz) 64)) by lia. cbn [andb bind].
  fold man. clearbody man.
  change (2 ^ 57) with 144115188075855872 in Hn2.
  exists man, e. split; [|split; [exact T2|split; [exact T4|]]].
  2:{ unfold e. change (2 ^ 62) with 4611686018427387904. lia. }
  replace (s64 (Z.of_nat len * 32 - lz) - 64) with e; [reflexivity|].
  unfold s64. rewrite u64_small by (num; lia). destruct (Z.ltb_spec (Z.of_nat len * 32 - lz) 9223372036854775808); unfold e; lia.
Qed.

Theorem log_big c b x n base :
  represents b x -> 2 ^ 31 <= x -> limb_count x n -> n <= 2 ^ 57 -> dbl_regular_base base ->
  exists m k, bi_log c b base = Ret (LShifted (LRatio m base) k base) /\ 2 ^ 63 <= m < 2 ^ 64 /\
    m = (if 0 <=? k then x / 2 ^ k else x * 2 ^ (- k)).
Proof.
  intros Hb Hx Hn Hn2 HB. destruct (regular_tests base HB) as (B1 & B2 & B3).
  destruct (log_shape c b x n base Hb Hx Hn Hn2 B1 B2 B3) as (m & k & E & Hm & Em & _).
  exists m, k. rewrite wrapper_regular in E by exact HB. auto.
Qed.

Theorem log_error x m k :
  0 < x -> 2 ^ 63 <= m -> m = (if 0 <=? k then x / 2 ^ k else x * 2 ^ (- k)) ->
  0 <= x * 2 ^ Z.max 0 (- k) - m * 2 ^ Z.max 0 k /\
  (x * 2 ^ Z.max 0 (- k) - m * 2 ^ Z.max 0 k) * 2 ^ 63 < x * 2 ^ Z.max 0 (- k).
Proof.
  intros Hx Hm E. destruct (Z.leb_spec 0 k) as [K|K].
  - rewrite Z.max_l, Z.max_r by lia. change (2 ^ 0) with 1. rewrite Z.mul_1_r.
    pose proof (Z.pow_pos_nonneg 2 k ltac:(lia) K) as P. set (p := 2 ^ k) in *.
    pose proof (Z.div_mod x p ltac:(lia)) as DM. pose proof (Z.mod_pos_bound x p P) as MB.
    rewrite <- E in DM. set (r := x mod p) in *. clearbody r p.
    replace (x - m * p) with r by lia. split; [lia|].
    apply Z.lt_le_trans with (p * 2 ^ 63); [apply Z.mul_lt_mono_pos_r; lia|].
    transitivity (p * m); [apply Z.mul_le_mono_nonneg_l; lia|lia].
  - rewrite Z.max_r, Z.max_l by lia. change (2 ^ 0) with 1. rewrite Z.mul_1_r, E, Z.sub_diag, Z.mul_0_l.
    split; [lia|]. apply Z.mul_pos_pos; [lia|]. apply Z.pow_pos_nonneg; lia.
Qed.

Theorem log_split c b x n base :
  represents b x -> 2 ^ 31 <= x -> limb_count x n -> n <= 2 ^ 57 -> dbl_regular_base base ->
  exists m k, bi_log c b base = Ret (LShifted (LRatio m base) k base) /\ 2 ^ 63 <= m < 2 ^ 64 /\
    0 <= x * 2 ^ Z.max 0 (- k) - m * 2 ^ Z.max 0 k /\
    (x * 2 ^ Z.max 0 (- k) - m * 2 ^ Z.max 0 k) * 2 ^ 63 < x * 2 ^ Z.max 0 (- k).
Proof.
  intros Hb Hx Hn Hn2 HB. destruct (log_big c b x n base Hb Hx Hn Hn2 HB) as (m & k & E & Hm & Em).
  exists m, k. split; [exact E|]. split; [exact Hm|].
  apply log_error; [change (2 ^ 31) with 2147483648 in Hx; lia|lia|exact Em].
Qed.

(** The remaining bases: infinities, zeros and NaN. *)
Lemma log_base_infinite c b x :
  represents b x -> 0 <= x -> bi_log c b plus_infinity = Ret (if x =? 1 then LBits 0 else LNaN).
Proof.
  intros Hb Hx. unfold bi_log. rewrite (repr_sign_ltb b x Hb). destruct (Z.ltb_spec x 0); [lia|].
  change (plus_infinity =? DBL_ONE) with false. change (plus_infinity =? DBL_EXP_MASK) with true. cbn [orb].
  rewrite (bi_is_one_spec c b x Hb). reflexivity.
Qed.

Lemma log_base_zero c b x d :
  represents b x -> 0 <= x -> d = 0 \/ d = 2 ^ 63 ->
  bi_log c b d = Ret (if x =? 1 then LRatio 1 d else LNaN).
Proof.
  intros Hb Hx Hd. unfold bi_log. rewrite (repr_sign_ltb b x Hb). destruct (Z.ltb_spec x 0); [lia|].
  assert (dbl_is_zero d = true) as Z0 by (destruct Hd; subst; reflexivity).
  assert ((d =? DBL_ONE) = false) as -> by (destruct Hd; subst; reflexivity).
  assert ((d =? DBL_EXP_MASK) = false) as -> by (destruct Hd; subst; reflexivity).
  rewrite Z0. cbn [orb]. rewrite (bi_is_one_spec c b x Hb). cbn [bind].
  destruct (Z.eqb_spec x 1) as [->|]; cbn [negb]; [|reflexivity].
  rewrite (represents_unique _ _ _ Hb repr_one). cbn [s_bnOneInt bits_of sign_of is_nil].
  unfold log_wrapper. destruct Hd; subst; reflexivity.
Qed.

Lemma log_base_nan c b x d :
  represents b x -> 0 <= x < 2 ^ 31 -> dbl_pattern d -> dbl_exp d = 2047 -> dbl_frac d <> 0 ->
  bi_log c b d = Ret (LBits d).
Proof.
  intros Hb Hx P E F. change (2 ^ 31) with 2147483648 in Hx.
  unfold bi_log. rewrite (repr_sign_ltb b x Hb). destruct (Z.ltb_spec x 0); [lia|].
  destruct (Z.eqb_spec d DBL_ONE) as [->|]; [exfalso; revert E; discriminate|].
  destruct (Z.eqb_spec d DBL_EXP_MASK) as [->|]; [exfalso; apply F; reflexivity|].
  assert (dbl_is_zero d = false) as ->.
  { unfold dbl_is_zero. apply orb_false_iff. split; apply Z.eqb_neq; intros ->; revert E; discriminate. }
  cbn [orb bind]. apply represents_view in Hb.
  inversion Hb as [z Hz Z1 Z2|s l Hs Hnl Hll Htl Hvl Z1 Z2]; subst b x; cbn [bits_of sign_of is_nil].
  2:{ exfalso. destruct Hs; subst s; lia. }
  unfold log_wrapper, double_is_nan. rewrite abs_mask by exact P. rewrite E.
  pose proof (pattern_fields d P) as (FR & ER & D). unfold DBL_EXP_MASK. change (2 ^ 52) with 4503599627370496 in *.
  destruct (Z.ltb_spec 9218868437227405312 (2047 * 4503599627370496 + dbl_frac d)); [reflexivity|lia].
Qed.
