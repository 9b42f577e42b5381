(** Proofs about operator float. *)
From Verif Require Import Facts Spec SpecApi BigInt SpecFacts SpecDouble SpecFloat BigIntDouble BigIntFloat DoubleFacts.
Open Scope Z_scope.
Ltac Zify.zify_post_hook ::= idtac.

Lemma pow2_pos k : 0 <= k -> 0 < 2 ^ k. Proof. intros. apply Z.pow_pos_nonneg; lia. Qed.

(** ** Rounding *)

Definition rnd (q r h : Z) : Z := if 2 * r <? h then q else if h <? 2 * r then q + 1 else q + q mod 2.

Lemma round_even_rnd p x : let k := Z.max 0 (Z.log2 (Z.abs x) + 1 - p) in
  round_even p x = Z.sgn x * (rnd (Z.abs x / 2 ^ k) (Z.abs x mod 2 ^ k) (2 ^ k) * 2 ^ k).
Proof. reflexivity. Qed.

Lemma rnd_scale q r h m : 0 < m -> rnd q (r * m) (h * m) = rnd q r h.
Proof.
  intros Hm. unfold rnd.
  assert (2 * (r * m) <? h * m = (2 * r <? h)) as ->.
  { replace (2 * (r * m)) with (2 * r * m) by ring. apply Bool.eq_iff_eq_true. rewrite !Z.ltb_lt. symmetry. apply Z.mul_lt_mono_pos_r, Hm. }
  assert (h * m <? 2 * (r * m) = (h <? 2 * r)) as ->; [|reflexivity].
  replace (2 * (r * m)) with (2 * r * m) by ring. apply Bool.eq_iff_eq_true. rewrite !Z.ltb_lt. symmetry. apply Z.mul_lt_mono_pos_r, Hm.
Qed.

Lemma rnd_code q r n : 1 <= n ->
  (if (2 ^ (n - 1) <? r) || ((r =? 2 ^ (n - 1)) && Z.odd q) then q + 1 else q) = rnd q r (2 ^ n).
Proof.
  intros Hn. unfold rnd. assert (2 ^ n = 2 * 2 ^ (n - 1)) as ->.
  { rewrite <- Z.pow_succ_r by lia. f_equal. lia. }
  set (h := 2 ^ (n - 1)). clearbody h.
  destruct (Z.ltb_spec h r), (Z.eqb_spec r h), (Z.ltb_spec (2 * r) (2 * h)), (Z.ltb_spec (2 * h) (2 * r)); try lia; cbn [orb andb]; try reflexivity.
  rewrite Zodd_mod. unfold Zeq_bool. pose proof (Z.mod_pos_bound q 2 ltac:(lia)) as B.
  assert (q mod 2 = 0 \/ q mod 2 = 1) as [-> | ->] by lia; cbn; lia.
Qed.

(** Scaling the argument. *)
Lemma div_scale a k j : 0 <= k -> 0 <= j -> (a * 2 ^ j) / 2 ^ (k + j) = a / 2 ^ k /\ (a * 2 ^ j) mod 2 ^ (k + j) = (a mod 2 ^ k) * 2 ^ j.
Proof.
  intros Hk Hj. pose proof (pow2_pos k Hk). pose proof (pow2_pos j Hj). rewrite Z.pow_add_r by lia.
  split; [apply Z.div_mul_cancel_r; lia|apply Z.mul_mod_distr_r; lia].
Qed.

(** [rnd] of the 53-bit significand against [round_even 24]. *)
Lemma significand_round v s L :
  v <> 0 -> L = Z.log2 (Z.abs v) -> s * 2 ^ Z.max 0 (L - 52) = Z.abs v * 2 ^ Z.max 0 (52 - L) ->
  rnd (s / 2 ^ 29) (s mod 2 ^ 29) (2 ^ 29) * 2 ^ Z.max 0 (L - 23) = Z.abs (round_even 24 v) * 2 ^ Z.max 0 (23 - L).
Proof.
  intros Hv EL E. rewrite round_even_rnd, <- EL. pose proof (Z.log2_nonneg (Z.abs v)) as L0. rewrite <- EL in L0.
  set (k := Z.max 0 (L + 1 - 24)). replace (Z.max 0 (L - 23)) with k by lia.
  assert (forall q r h, 0 <= q -> 0 <= rnd q r h) as RP.
  { intros q r h Hq. unfold rnd. pose proof (Z.mod_pos_bound q 2 ltac:(lia)). destruct (2 * r <? h), (h <? 2 * r); lia. }
  pose proof (pow2_pos k ltac:(lia)) as PK.
  assert (0 <= Z.abs v / 2 ^ k) as QP by (apply Z.div_pos; lia).
  rewrite Z.abs_mul, (Z.abs_eq (_ * _)) by (apply Z.mul_nonneg_nonneg; [apply RP, QP|lia]).
  replace (Z.abs (Z.sgn v)) with 1 by (destruct v; [contradiction|reflexivity|reflexivity]). rewrite Z.mul_1_l.
  destruct (Z.le_gt_cases 23 L) as [G|G].
  - replace (Z.max 0 (23 - L)) with 0 by lia. change (2 ^ 0) with 1. rewrite Z.mul_1_r. f_equal.
    destruct (Z.le_gt_cases 52 L) as [G2|G2].
    + rewrite Z.max_r, Z.max_l in E by lia. change (2 ^ 0) with 1 in E. rewrite Z.mul_1_r in E. rewrite <- E.
      destruct (div_scale s 29 (L - 52) ltac:(lia) ltac:(lia)) as (D1 & D2).
      replace (29 + (L - 52)) with k in D1, D2 by lia. rewrite D1, D2.
      replace (2 ^ k) with (2 ^ 29 * 2 ^ (L - 52)) by (rewrite <- Z.pow_add_r by lia; f_equal; lia).
      now rewrite rnd_scale by (apply pow2_pos; lia).
    + rewrite Z.max_l, Z.max_r in E by lia. change (2 ^ 0) with 1 in E. rewrite Z.mul_1_r in E. rewrite E.
      destruct (div_scale (Z.abs v) k (52 - L) ltac:(lia) ltac:(lia)) as (D1 & D2).
      replace (k + (52 - L)) with 29 in D1, D2 by lia. rewrite D1, D2.
      replace (2 ^ 29) with (2 ^ k * 2 ^ (52 - L)) by (rewrite <- Z.pow_add_r by lia; f_equal; lia).
      now rewrite rnd_scale by (apply pow2_pos; lia).
  - replace k with 0 in * by lia. change (2 ^ 0) with 1. rewrite Z.mod_1_r, Z.div_1_r, !Z.mul_1_r.
    rewrite Z.max_l, Z.max_r in E by lia. change (2 ^ 0) with 1 in E. rewrite Z.mul_1_r in E. rewrite E.
    replace (Z.max 0 (23 - L)) with (23 - L) by lia.
    replace (52 - L) with ((23 - L) + 29) by lia. rewrite Z.pow_add_r by lia. rewrite Z.mul_assoc.
    rewrite Z.div_mul, Z.mod_mul by lia. reflexivity.
Qed.

(** ** The conversion double -> float *)

Lemma to_float_fields d : dbl_pattern d -> dbl_exp d <> 0 -> dbl_exp d <> 2047 -> 897 <= dbl_exp d ->
  double_to_float d = (if dbl_negative d then 2 ^ 31 else 0) +
    Z.min (255 * 2 ^ 23) ((dbl_exp d - 897) * 2 ^ 23 + rnd (dbl_significand d / 2 ^ 29) (dbl_significand d mod 2 ^ 29) (2 ^ 29)).
Proof.
  intros P E0 E1 E2. pose proof (pattern_fields d P) as (F & E & D). unfold double_to_float. cbv zeta.
  rewrite Z.shiftr_div_pow2 by lia. rewrite Z.shiftr_div_pow2 by lia.
  change 2047 with (Z.ones 11). change DBL_FRAC_MASK with (Z.ones 52). rewrite !Z.land_ones by lia.
  fold (dbl_exp d). fold (dbl_frac d).
  change (Z.ones 11) with 2047. rewrite (proj2 (Z.eqb_neq (dbl_exp d) 2047)) by exact E1.
  rewrite (proj2 (Z.eqb_neq (dbl_exp d) 0)) by exact E0.
  replace (Z.max 1 (dbl_exp d) - 896) with (dbl_exp d - 896) by lia.
  rewrite (proj2 (Z.leb_le 1 (dbl_exp d - 896))) by lia.
  replace (Z.max 1 (dbl_exp d - 896) - 1) with (dbl_exp d - 897) by lia.
  rewrite rnd_code by lia.
  replace (dbl_frac d + DBL_HIDDEN) with (dbl_significand d)
    by (unfold dbl_significand; rewrite (proj2 (Z.eqb_neq (dbl_exp d) 0)) by exact E0; change DBL_HIDDEN with (2 ^ 52); lia).
  f_equal. unfold dbl_pattern, dbl_negative in *. change (2 ^ 64) with (2 * 2 ^ 63) in P.
  destruct (Z.leb_spec (2 ^ 63) d) as [K|K].
  - replace (d / 2 ^ 63) with 1; [reflexivity|]. apply (Z.div_unique _ _ _ (d - 2 ^ 63)); lia.
  - rewrite Z.div_small by lia. reflexivity.
Qed.

Lemma flt_fields neg e f : 0 <= e < 256 -> 0 <= f < 2 ^ 23 ->
  let d := (if neg : bool then 2 ^ 31 else 0) + e * 2 ^ 23 + f in
  flt_pattern d /\ flt_negative d = neg /\ flt_exp d = e /\ flt_frac d = f.
Proof.
  intros He Hf. unfold flt_pattern, flt_negative, flt_exp, flt_frac.
  change (2 ^ 32) with 4294967296. change (2 ^ 31) with 2147483648.
  change (2 ^ 23) with 8388608 in *. change (2 ^ 8) with 256.
  set (d := (if neg then 2147483648 else 0) + e * 8388608 + f). cbv zeta.
  assert (d / 8388608 = (if neg then 256 else 0) + e) as E1.
  { symmetry. apply (Z.div_unique _ _ _ f); [lia|]. unfold d. destruct neg; lia. }
  assert (d mod 8388608 = f) as E2.
  { symmetry. apply (Z.mod_unique _ _ ((if neg then 256 else 0) + e)); [lia|]. unfold d. destruct neg; lia. }
  split; [unfold d; destruct neg; lia|]. split; [destruct (Z.leb_spec 2147483648 d); unfold d in *; destruct neg; lia || reflexivity|].
  split; [|exact E2]. rewrite E1. destruct neg.
  - replace (256 + e) with (e + 1 * 256) by ring. rewrite Z.mod_add by lia. now apply Z.mod_small.
  - now apply Z.mod_small.
Qed.

(** A rounded significand [q] at exponent field [be]. *)
Lemma flt_pack (neg : bool) be q z : 1 <= be -> 2 ^ 23 <= q <= 2 ^ 24 -> (be - 1) * 2 ^ 23 + q < 255 * 2 ^ 23 ->
  q * 2 ^ Z.max 0 (be - 150) = Z.abs z * 2 ^ Z.max 0 (150 - be) -> neg = (z <? 0) ->
  flt_exact ((if neg then 2 ^ 31 else 0) + ((be - 1) * 2 ^ 23 + q)) z.
Proof.
  intros Hb Hq Hm E Hn.
  assert (z = if neg then - Z.abs z else Z.abs z) as Ez by (destruct (Z.ltb_spec z 0); subst neg; lia).
  change (2 ^ 24) with (2 * 2 ^ 23) in Hq.
  destruct (Z.eq_dec q (2 * 2 ^ 23)) as [->|Nq].
  - assert (be + 1 < 255) as B by lia.
    destruct (flt_fields neg (be + 1) 0 ltac:(lia) ltac:(lia)) as (F1 & F2 & F3 & F4).
    replace ((if neg then 2 ^ 31 else 0) + ((be - 1) * 2 ^ 23 + 2 * 2 ^ 23)) with ((if neg then 2 ^ 31 else 0) + (be + 1) * 2 ^ 23 + 0) by ring.
    split; [exact F1|]. unfold flt_significand, flt_scale. rewrite F2, F3, F4. split; [lia|].
    rewrite (proj2 (Z.eqb_neq (be + 1) 0)) by lia. rewrite Z.add_0_r.
    assert (2 ^ 23 * 2 ^ Z.max 0 (be + 1 - 150) = Z.abs z * 2 ^ Z.max 0 (- (be + 1 - 150))) as G.
    { destruct (Z.le_gt_cases 150 be) as [K|K].
      - rewrite Z.max_r, Z.max_l in E by lia. rewrite Z.max_r, Z.max_l by lia. change (2 ^ 0) with 1 in *.
        replace (be + 1 - 150) with (Z.succ (be - 150)) by lia. rewrite Z.pow_succ_r by lia. lia.
      - rewrite Z.max_l, Z.max_r in E by lia. rewrite Z.max_l, Z.max_r by lia. change (2 ^ 0) with 1 in *.
        replace (150 - be) with (Z.succ (- (be + 1 - 150))) in E by lia. rewrite Z.pow_succ_r in E by lia. lia. }
    rewrite Ez. destruct neg; lia.
  - destruct (flt_fields neg be (q - 2 ^ 23) ltac:(lia) ltac:(lia)) as (F1 & F2 & F3 & F4).
    replace ((if neg then 2 ^ 31 else 0) + ((be - 1) * 2 ^ 23 + q)) with ((if neg then 2 ^ 31 else 0) + be * 2 ^ 23 + (q - 2 ^ 23)) by ring.
    split; [exact F1|]. unfold flt_significand, flt_scale. rewrite F2, F3, F4. split; [lia|].
    rewrite (proj2 (Z.eqb_neq be 0)) by lia. replace (2 ^ 23 + (q - 2 ^ 23)) with q by ring.
    replace (- (be - 150)) with (150 - be) by ring. rewrite Ez. destruct neg; lia.
Qed.

Lemma rnd_range s : 2 ^ 52 <= s < 2 ^ 53 -> 2 ^ 23 <= rnd (s / 2 ^ 29) (s mod 2 ^ 29) (2 ^ 29) <= 2 ^ 24.
Proof.
  intros H. assert (2 ^ 23 <= s / 2 ^ 29 < 2 ^ 24) as B.
  { split; [apply Z.div_le_lower_bound; lia|apply Z.div_lt_upper_bound; lia]. }
  unfold rnd. pose proof (Z.mod_pos_bound (s / 2 ^ 29) 2 ltac:(lia)).
  destruct (2 * (s mod 2 ^ 29) <? 2 ^ 29), (2 ^ 29 <? 2 * (s mod 2 ^ 29)); lia.
Qed.

Lemma round_sign p x : x <> 0 -> 0 < p -> Z.sgn (round_even p x) = Z.sgn x.
Proof.
  intros Hx Hp. rewrite round_even_rnd. cbv zeta. set (k := Z.max 0 (Z.log2 (Z.abs x) + 1 - p)).
  pose proof (pow2_pos k ltac:(lia)) as PK. pose proof (Z.log2_spec (Z.abs x) ltac:(lia)) as L. pose proof (Z.log2_nonneg (Z.abs x)).
  assert (1 <= Z.abs x / 2 ^ k) as Q.
  { apply Z.div_le_lower_bound; [lia|]. rewrite Z.mul_1_r.
    assert (2 ^ k <= 2 ^ Z.log2 (Z.abs x)) by (apply Z.pow_le_mono_r; lia). lia. }
  set (q := Z.abs x / 2 ^ k) in *. clearbody q.
  assert (1 <= rnd q (Z.abs x mod 2 ^ k) (2 ^ k)) as R.
  { unfold rnd. pose proof (Z.mod_pos_bound q 2 ltac:(lia)). destruct (2 * (Z.abs x mod 2 ^ k) <? 2 ^ k), (2 ^ k <? 2 * (Z.abs x mod 2 ^ k)); lia. }
  set (u := rnd q (Z.abs x mod 2 ^ k) (2 ^ k)) in *. clearbody u.
  assert (0 < u * 2 ^ k) by (apply Z.mul_pos_pos; lia).
  rewrite Z.sgn_mul, (Z.sgn_pos (_ * _)) by assumption. rewrite Z.mul_1_r. now destruct x.
Qed.

Lemma float_of_exact d v : dbl_exact d v -> v <> 0 -> Z.abs v < 2 ^ 128 - 2 ^ 103 ->
  flt_exact (double_to_float d) (round_even 24 v).
Proof.
  intros H Hv HB. destruct (exact_fields d v H Hv) as (E1 & E2 & E3 & E4). destruct H as (P & F & _).
  pose proof (significand_range d P) as (SR & SN & _). specialize (SN E1).
  pose proof (Z.log2_nonneg (Z.abs v)) as L0.
  assert (dbl_scale d = dbl_exp d - 1075) as ES by (unfold dbl_scale; now rewrite (proj2 (Z.eqb_neq (dbl_exp d) 0)) by exact E1).
  set (L := Z.log2 (Z.abs v)) in *. unfold dbl_finite in F.
  rewrite to_float_fields by (assumption || lia).
  assert (L < 128) as L128.
  { unfold L. apply Z.log2_lt_pow2; [lia|]. assert (0 < 2 ^ 103) by reflexivity. lia. }
  set (s := dbl_significand d) in *. pose proof (rnd_range s ltac:(lia)) as RR.
  replace (Z.max 0 (dbl_scale d)) with (Z.max 0 (L - 52)) in E3 by lia. replace (- dbl_scale d) with (52 - L) in E3 by lia.
  pose proof (significand_round v s L Hv eq_refl E3) as SRd.
  assert ((dbl_exp d - 897) * 2 ^ 23 + rnd (s / 2 ^ 29) (s mod 2 ^ 29) (2 ^ 29) < 255 * 2 ^ 23) as OV.
  { change (2 ^ 24) with (2 * 2 ^ 23) in RR. assert (0 < 2 ^ 23) by reflexivity.
    destruct (Z.eq_dec L 127) as [E127|]; [|assert (dbl_exp d - 897 <= 252) by lia; lia].
    assert (s < 2 ^ 53 - 2 ^ 28) as SB.
    { rewrite E127 in E3. change (Z.max 0 (127 - 52)) with 75 in E3. change (Z.max 0 (52 - 127)) with 0 in E3. change (2 ^ 0) with 1 in E3.
      rewrite Z.mul_1_r in E3. rewrite <- E3 in HB. replace (2 ^ 128 - 2 ^ 103) with ((2 ^ 53 - 2 ^ 28) * 2 ^ 75) in HB by reflexivity.
      apply Z.mul_lt_mono_pos_r in HB; [exact HB|reflexivity]. }
    assert (rnd (s / 2 ^ 29) (s mod 2 ^ 29) (2 ^ 29) < 2 * 2 ^ 23); [|lia].
    pose proof (Z.div_mod s (2 ^ 29) ltac:(lia)) as DM. pose proof (Z.mod_pos_bound s (2 ^ 29) ltac:(lia)) as MB.
    set (q := s / 2 ^ 29) in *. set (r := s mod 2 ^ 29) in *. clearbody q r. unfold rnd.
    change (2 ^ 29) with 536870912 in *. change (2 ^ 53) with 9007199254740992 in *. change (2 ^ 28) with 268435456 in *. change (2 ^ 23) with 8388608 in *.
    destruct (Z.ltb_spec (2 * r) 536870912); [lia|]. assert (q < 16777215) by lia.
    pose proof (Z.mod_pos_bound q 2 ltac:(lia)). destruct (536870912 <? 2 * r); lia. }
  rewrite Z.min_r by lia.
  replace (dbl_exp d - 897) with ((dbl_exp d - 896) - 1) by ring.
  apply flt_pack; [lia|lia|replace (dbl_exp d - 896 - 1) with (dbl_exp d - 897) by ring; exact OV| |].
  - replace (Z.max 0 (dbl_exp d - 896 - 150)) with (Z.max 0 (L - 23)) by lia.
    replace (Z.max 0 (150 - (dbl_exp d - 896))) with (Z.max 0 (23 - L)) by lia. exact SRd.
  - rewrite E2. pose proof (round_sign 24 v Hv ltac:(lia)) as SG.
    destruct (Z.ltb_spec v 0), (Z.ltb_spec (round_even 24 v) 0); try reflexivity;
      destruct v; destruct (round_even 24 _); try discriminate SG; lia.
Qed.

Lemma float_overflow d v : dbl_exact d v -> 2 ^ 128 - 2 ^ 103 <= Z.abs v ->
  double_to_float d = if v <? 0 then flt_minus_infinity else flt_plus_infinity.
Proof.
  intros H HB. assert (v <> 0) as Hv.
  { intros ->. change (Z.abs 0) with 0 in HB. assert (2 ^ 103 < 2 ^ 128) by reflexivity. lia. }
  destruct (exact_fields d v H Hv) as (E1 & E2 & E3 & E4). destruct H as (P & F & _).
  pose proof (significand_range d P) as (SR & SN & _). specialize (SN E1).
  assert (dbl_scale d = dbl_exp d - 1075) as ES by (unfold dbl_scale; now rewrite (proj2 (Z.eqb_neq (dbl_exp d) 0)) by exact E1).
  assert (127 <= Z.log2 (Z.abs v)) as L127.
  { apply Z.log2_le_pow2; [lia|]. assert (2 ^ 127 <= 2 ^ 128 - 2 ^ 103) by (vm_compute; discriminate). lia. }
  unfold dbl_finite in F. rewrite to_float_fields by (assumption || lia). rewrite E2.
  set (L := Z.log2 (Z.abs v)) in *. set (s := dbl_significand d) in *.
  pose proof (rnd_range s ltac:(lia)) as RR.
  rewrite Z.min_l.
  { unfold flt_minus_infinity, flt_plus_infinity. destruct (v <? 0); ring. }
  assert (0 < 2 ^ 23) by reflexivity.
  destruct (Z.le_gt_cases 128 L) as [G|G]; [assert (254 * 2 ^ 23 <= (dbl_exp d - 897) * 2 ^ 23) by (apply Z.mul_le_mono_nonneg_r; lia); lia|].
  assert (L = 127) as E127 by lia. replace (dbl_scale d) with 75 in E3 by lia. change (Z.max 0 75) with 75 in E3. change (Z.max 0 (- (75))) with 0 in E3.
  change (2 ^ 0) with 1 in E3. rewrite Z.mul_1_r in E3. rewrite <- E3 in HB.
  replace (2 ^ 128 - 2 ^ 103) with ((2 ^ 53 - 2 ^ 28) * 2 ^ 75) in HB by reflexivity.
  apply Z.mul_le_mono_pos_r in HB; [|reflexivity].
  assert (rnd (s / 2 ^ 29) (s mod 2 ^ 29) (2 ^ 29) = 2 * 2 ^ 23) as ->; [|replace (dbl_exp d - 897) with 253 by lia; lia].
  pose proof (Z.div_mod s (2 ^ 29) ltac:(lia)) as DM. pose proof (Z.mod_pos_bound s (2 ^ 29) ltac:(lia)) as MB.
  set (q := s / 2 ^ 29) in *. set (r := s mod 2 ^ 29) in *. clearbody q r. unfold rnd.
  change (2 ^ 29) with 536870912 in *. change (2 ^ 53) with 9007199254740992 in *. change (2 ^ 28) with 268435456 in *. change (2 ^ 23) with 8388608 in *.
  assert (q = 16777215) as -> by lia.
  destruct (Z.ltb_spec (2 * r) 536870912); [lia|]. destruct (536870912 <? 2 * r); reflexivity.
Qed.

(** ** Truncation to 53 bits, then rounding *)

Lemma trunc53_abs x : let j := Z.max 0 (Z.log2 (Z.abs x) - 52) in
  trunc53 x = Z.sgn x * (Z.abs x / 2 ^ j * 2 ^ j).
Proof.
  cbv zeta. unfold trunc53. set (j := Z.max 0 (Z.log2 (Z.abs x) - 52)). pose proof (pow2_pos j ltac:(lia)) as P.
  destruct (Z.lt_trichotomy x 0) as [G|[-> |G]].
  - rewrite Z.sgn_neg, Z.abs_neq by lia. replace x with (- - x) at 1 by lia. rewrite Z.quot_opp_l, Z.quot_div_nonneg by lia. ring.
  - rewrite Z.quot_0_l by lia. reflexivity.
  - rewrite Z.sgn_pos, Z.abs_eq by lia. rewrite Z.quot_div_nonneg by lia. ring.
Qed.

(** Everything about [a = |x|] with more than 53 bits. *)
Lemma trunc53_parts x : 52 < Z.log2 (Z.abs x) ->
  let k := Z.log2 (Z.abs x) - 23 in let j := k - 29 in
  exists q t e, 2 ^ 23 <= q < 2 ^ 24 /\ 0 <= t < 2 ^ 29 /\ 0 <= e < 2 ^ j /\ 0 < j /\
    Z.abs x = q * 2 ^ k + t * 2 ^ j + e /\ Z.abs (trunc53 x) = q * 2 ^ k + t * 2 ^ j /\
    Z.sgn (trunc53 x) = Z.sgn x.
Proof.
  intros HL k j. rewrite trunc53_abs. cbv zeta. replace (Z.max 0 (Z.log2 (Z.abs x) - 52)) with j by lia.
  assert (x <> 0) as Hx by (intros ->; cbn in HL; lia).
  pose proof (Z.log2_spec (Z.abs x) ltac:(lia)) as LS. set (a := Z.abs x) in *. assert (0 < a) as A0 by lia. clearbody a.
  pose proof (pow2_pos j ltac:(lia)) as PJ.
  assert (2 ^ k = 2 ^ 29 * 2 ^ j) as EK by (rewrite <- Z.pow_add_r by lia; f_equal; lia).
  replace (Z.log2 a) with (23 + (29 + j)) in LS by lia.
  rewrite <- (Z.add_succ_l 23), !Z.pow_add_r in LS by lia. change (2 ^ Z.succ 23) with (2 ^ 24) in LS.
  pose proof (Z.div_mod a (2 ^ j) ltac:(lia)) as D1. pose proof (Z.mod_pos_bound a (2 ^ j) PJ) as M1.
  set (w := a / 2 ^ j) in *. set (e := a mod 2 ^ j) in *. clearbody w e.
  pose proof (Z.div_mod w (2 ^ 29) ltac:(lia)) as D2. pose proof (Z.mod_pos_bound w (2 ^ 29) ltac:(lia)) as M2.
  set (q := w / 2 ^ 29) in *. set (t := w mod 2 ^ 29) in *. clearbody q t.
  set (J := 2 ^ j) in *. clearbody J.
  assert (2 ^ 23 * 2 ^ 29 <= w) as W1.
  { destruct (Z.le_gt_cases (2 ^ 23 * 2 ^ 29) w) as [|K]; [assumption|exfalso].
    assert (J * (w + 1) <= J * (2 ^ 23 * 2 ^ 29)) by (apply Z.mul_le_mono_nonneg_l; lia). lia. }
  assert (w < 2 ^ 24 * 2 ^ 29) as W2.
  { destruct (Z.lt_ge_cases w (2 ^ 24 * 2 ^ 29)) as [|K]; [assumption|exfalso].
    assert (J * (2 ^ 24 * 2 ^ 29) <= J * w) by (apply Z.mul_le_mono_nonneg_l; lia). lia. }
  exists q, t, e. rewrite EK.
  split; [change (2 ^ 29) with 536870912 in *; change (2 ^ 23) with 8388608 in *; change (2 ^ 24) with 16777216 in *; lia|].
  split; [lia|]. split; [lia|]. split; [lia|].
  assert (w * J = q * (2 ^ 29 * J) + t * J) as EW by (rewrite D2 at 1; ring).
  split; [lia|].
  assert (0 < w * J) as WP by (apply Z.mul_pos_pos; lia).
  split.
  - rewrite Z.abs_mul, (Z.abs_eq (w * J)) by lia. replace (Z.abs (Z.sgn x)) with 1 by (destruct x; [contradiction|reflexivity|reflexivity]). lia.
  - rewrite Z.sgn_mul, (Z.sgn_pos (w * J)) by lia. rewrite Z.mul_1_r. now destruct x.
Qed.

(** Rounding a number given by its parts. *)
Lemma round_parts x q k r : 2 ^ 23 <= q < 2 ^ 24 -> 0 <= k -> 0 <= r < 2 ^ k -> Z.abs x = q * 2 ^ k + r ->
  round_even 24 x = Z.sgn x * (rnd q r (2 ^ k) * 2 ^ k).
Proof.
  intros Hq Hk Hr E. pose proof (pow2_pos k Hk) as PK.
  assert (Z.log2 (Z.abs x) = 23 + k) as EL.
  { apply Z.log2_unique; [lia|]. replace (Z.succ (23 + k)) with (24 + k) by lia. rewrite !Z.pow_add_r by lia. rewrite E.
    assert (2 ^ 23 * 2 ^ k <= q * 2 ^ k) by (apply Z.mul_le_mono_nonneg_r; lia).
    assert ((q + 1) * 2 ^ k <= 2 ^ 24 * 2 ^ k) by (apply Z.mul_le_mono_nonneg_r; lia). lia. }
  rewrite round_even_rnd, EL. cbv zeta. replace (Z.max 0 (23 + k + 1 - 24)) with k by lia. rewrite E.
  assert ((q * 2 ^ k + r) / 2 ^ k = q) as -> by (symmetry; apply (Z.div_unique _ _ q r); lia).
  assert ((q * 2 ^ k + r) mod 2 ^ k = r) as -> by (symmetry; apply (Z.mod_unique _ _ q r); lia). reflexivity.
Qed.

Lemma trunc_round x : ~ just_above_tie x -> round_even 24 (trunc53 x) = round_even 24 x.
Proof.
  intros NT. destruct (Z.le_gt_cases (Z.log2 (Z.abs x)) 52) as [HL|HL].
  { f_equal. destruct (Z.eq_dec x 0) as [->|Hx]; [reflexivity|]. apply trunc53_small. apply Z.log2_lt_pow2; lia. }
  destruct (trunc53_parts x HL) as (q & t & e & Hq & Ht & He & Hj & E1 & E2 & E3).
  set (k := Z.log2 (Z.abs x) - 23) in *. set (j := k - 29) in *.
  pose proof (pow2_pos j ltac:(lia)) as PJ.
  assert (2 ^ k = 2 ^ 29 * 2 ^ j) as EK by (rewrite <- Z.pow_add_r by lia; f_equal; lia).
  assert ((t + 1) * 2 ^ j <= 2 ^ 29 * 2 ^ j) as TB by (apply Z.mul_le_mono_nonneg_r; lia).
  assert (0 <= t * 2 ^ j) as T0 by (apply Z.mul_nonneg_nonneg; lia).
  rewrite (round_parts x q k (t * 2 ^ j + e)) by (lia || (rewrite E1; ring)).
  rewrite (round_parts (trunc53 x) q k (t * 2 ^ j)) by lia.
  rewrite E3. do 2 f_equal. unfold rnd. rewrite EK.
  assert (2 ^ 29 = 2 * 2 ^ 28) as E29 by reflexivity. set (H := 2 ^ 28) in *. rewrite E29 in *. set (J := 2 ^ j) in *.
  destruct (Z.lt_trichotomy t H) as [G|[G|G]].
  - assert ((t + 1) * J <= H * J) by (apply Z.mul_le_mono_nonneg_r; lia).
    rewrite !(proj2 (Z.ltb_lt _ _)) by lia. reflexivity.
  - subst t. rewrite (proj2 (Z.ltb_ge (2 * (H * J)) (2 * H * J))) by lia.
    rewrite (proj2 (Z.ltb_ge (2 * H * J) (2 * (H * J)))) by lia.
    rewrite (proj2 (Z.ltb_ge (2 * (H * J + e)) (2 * H * J))) by lia.
    destruct (Z.ltb_spec (2 * H * J) (2 * (H * J + e))) as [K|K]; [|reflexivity].
    pose proof (Z.mod_pos_bound q 2 ltac:(lia)) as MB.
    assert (q mod 2 = 1) as ->; [|reflexivity].
    destruct (Z.eq_dec (q mod 2) 0) as [Q0|]; [exfalso|lia]. apply NT. exists q, k, e.
    split; [exact Hq|]. split; [exact Q0|]. split; [lia|]. split; [fold j; fold J; lia|].
    rewrite E1. replace (2 ^ (k - 1)) with (H * J); [reflexivity|]. unfold H, J. rewrite <- Z.pow_add_r by lia. f_equal. lia.
  - assert ((H + 1) * J <= t * J) by (apply Z.mul_le_mono_nonneg_r; lia).
    rewrite !(proj2 (Z.ltb_ge _ (2 * H * J))) by lia. rewrite !(proj2 (Z.ltb_lt (2 * H * J) _)) by lia. reflexivity.
Qed.

Lemma trunc_round_tie x : just_above_tie x ->
  exists q k e, 0 < k /\ 0 < q /\ 0 < e < 2 ^ (k - 1) /\ Z.abs x = q * 2 ^ k + 2 ^ (k - 1) + e /\
    round_even 24 (trunc53 x) = Z.sgn x * (q * 2 ^ k) /\ round_even 24 x = Z.sgn x * ((q + 1) * 2 ^ k) /\ x <> 0.
Proof.
  intros (q & k & e & Hq & Q0 & Hk & He & E). exists q, k, e. set (j := k - 29) in *.
  pose proof (pow2_pos j ltac:(lia)) as PJ.
  assert (2 ^ k = 2 * (2 ^ 28 * 2 ^ j)) as EK.
  { rewrite <- Z.pow_add_r by lia. rewrite <- Z.pow_succ_r by lia. f_equal. lia. }
  assert (2 ^ (k - 1) = 2 ^ 28 * 2 ^ j) as EH by (rewrite <- Z.pow_add_r by lia; f_equal; lia).
  assert (x <> 0) as Hx. { intros ->. change (Z.abs 0) with 0 in E. pose proof (pow2_pos k ltac:(lia)). assert (0 <= q * 2 ^ k) by (apply Z.mul_nonneg_nonneg; lia). pose proof (pow2_pos (k - 1) ltac:(lia)). lia. }
  split; [lia|]. split; [lia|]. split; [lia|]. split; [exact E|].
  assert (Z.log2 (Z.abs x) = 23 + k) as EL.
  { apply Z.log2_unique; [lia|]. replace (Z.succ (23 + k)) with (24 + k) by lia. rewrite !Z.pow_add_r by lia. rewrite E.
    assert (2 ^ 23 * 2 ^ k <= q * 2 ^ k) by (apply Z.mul_le_mono_nonneg_r; lia).
    assert ((q + 1) * 2 ^ k <= 2 ^ 24 * 2 ^ k) by (apply Z.mul_le_mono_nonneg_r; lia). lia. }
  assert (Z.abs (trunc53 x) = q * 2 ^ k + 2 ^ (k - 1) /\ Z.sgn (trunc53 x) = Z.sgn x) as (ET & ES).
  { rewrite trunc53_abs. cbv zeta. rewrite EL. replace (Z.max 0 (23 + k - 52)) with j by lia.
    assert (Z.abs x / 2 ^ j * 2 ^ j = q * 2 ^ k + 2 ^ (k - 1)) as ->.
    { assert (Z.abs x / 2 ^ j = 2 * q * 2 ^ 28 + 2 ^ 28) as ->; [|rewrite EK, EH; ring].
      symmetry. apply (Z.div_unique _ _ _ e); [lia|]. rewrite E, EK, EH. ring. }
    pose proof (pow2_pos (k - 1) ltac:(lia)). assert (0 <= q * 2 ^ k) by (apply Z.mul_nonneg_nonneg; lia).
    split.
    - rewrite Z.abs_mul, (Z.abs_eq (_ + _)) by lia. replace (Z.abs (Z.sgn x)) with 1 by (destruct x; [contradiction|reflexivity|reflexivity]). lia.
    - rewrite Z.sgn_mul, (Z.sgn_pos (_ + _)) by lia. rewrite Z.mul_1_r. now destruct x. }
  split; [|split; [|exact Hx]].
  - rewrite (round_parts (trunc53 x) q k (2 ^ (k - 1))) by lia. rewrite ES. do 2 f_equal. unfold rnd.
    rewrite !(proj2 (Z.ltb_ge _ _)) by lia. lia.
  - rewrite (round_parts x q k (2 ^ (k - 1) + e)) by lia. do 2 f_equal. unfold rnd.
    rewrite (proj2 (Z.ltb_ge _ _)), (proj2 (Z.ltb_lt _ _)) by lia. reflexivity.
Qed.

(** ** operator float *)

Lemma trunc53_zero x : trunc53 x = 0 -> x = 0.
Proof.
  intros H. destruct (Z.eq_dec x 0) as [|Hx]; [assumption|exfalso].
  destruct (Z.le_gt_cases (Z.log2 (Z.abs x)) 52) as [HL|HL].
  - rewrite trunc53_small in H by (apply Z.log2_lt_pow2; lia). contradiction.
  - destruct (trunc53_parts x HL) as (q & t & e & _ & _ & _ & _ & _ & _ & E). rewrite H in E. destruct x; cbn in E; [contradiction|discriminate|discriminate].
Qed.

Lemma trunc53_le x : Z.abs (trunc53 x) <= Z.abs x.
Proof.
  destruct (Z.eq_dec x 0) as [->|Hx]; [reflexivity|].
  destruct (Z.le_gt_cases (Z.log2 (Z.abs x)) 52) as [HL|HL].
  - rewrite trunc53_small by (apply Z.log2_lt_pow2; lia). lia.
  - destruct (trunc53_parts x HL) as (q & t & e & _ & _ & He & _ & E1 & E2 & _). lia.
Qed.

Lemma trunc53_threshold x : 2 ^ 128 - 2 ^ 103 <= Z.abs x -> 2 ^ 128 - 2 ^ 103 <= Z.abs (trunc53 x) /\ (trunc53 x <? 0) = (x <? 0).
Proof.
  intros H. assert (2 ^ 127 <= Z.abs x) as H1 by (assert (2 ^ 127 <= 2 ^ 128 - 2 ^ 103) by (vm_compute; discriminate); lia).
  assert (127 <= Z.log2 (Z.abs x)) as L by (apply Z.log2_le_pow2; [assert (0 < 2 ^ 127) by reflexivity; lia|exact H1]).
  destruct (trunc53_parts x ltac:(lia)) as (q & t & e & Hq & Ht & He & Hj & E1 & E2 & E3).
  split.
  2:{ destruct (Z.ltb_spec (trunc53 x) 0), (Z.ltb_spec x 0); try reflexivity; destruct x, (trunc53 _); try discriminate E3; lia. }
  rewrite E2. set (k := Z.log2 (Z.abs x) - 23) in *. set (j := k - 29) in *.
  assert (2 ^ k = 2 ^ 29 * 2 ^ j) as EK by (rewrite <- Z.pow_add_r by lia; f_equal; lia).
  assert (2 ^ j = 2 ^ 75 * 2 ^ (j - 75)) as EJ by (rewrite <- Z.pow_add_r by lia; f_equal; lia).
  pose proof (pow2_pos (j - 75) ltac:(lia)) as P.
  assert (2 ^ 128 - 2 ^ 103 = (2 ^ 53 - 2 ^ 28) * 2 ^ 75) as ET by reflexivity.
  destruct (Z.eq_dec j 75) as [J75|J75].
  - rewrite ET in *. rewrite EK in *. rewrite J75 in *. clear EJ EK ET E3 E2.
    destruct (Z.le_gt_cases (2 ^ 53 - 2 ^ 28) (q * 2 ^ 29 + t)) as [K|K].
    + assert ((2 ^ 53 - 2 ^ 28) * 2 ^ 75 <= (q * 2 ^ 29 + t) * 2 ^ 75) by (apply Z.mul_le_mono_nonneg_r; [vm_compute; discriminate|exact K]). lia.
    + exfalso. assert ((q * 2 ^ 29 + t + 1) * 2 ^ 75 <= (2 ^ 53 - 2 ^ 28) * 2 ^ 75) by (apply Z.mul_le_mono_nonneg_r; [vm_compute; discriminate|lia]). lia.
  - assert (76 <= j) as J76 by lia.
    assert (2 ^ 105 <= 2 ^ k) as G by (apply Z.pow_le_mono_r; lia).
    assert (2 ^ 23 * 2 ^ 105 <= q * 2 ^ k) by (apply Z.mul_le_mono_nonneg; (vm_compute; discriminate) || lia).
    assert (2 ^ 128 = 2 ^ 23 * 2 ^ 105) by reflexivity. assert (0 < 2 ^ 103) by reflexivity.
    assert (0 <= t * 2 ^ j) by (apply Z.mul_nonneg_nonneg; [lia|apply Z.pow_nonneg; lia]). lia.
Qed.

Lemma to_float_finite c b x : represents b x -> Z.abs x < 2 ^ 128 - 2 ^ 103 ->
  exists f, bi_to_float c b = Ret f /\ flt_exact f (round_even 24 (trunc53 x)) /\ (x = 0 -> f = 0).
Proof.
  intros Hb Hx. destruct (to_double_finite c b x Hb) as (d & Ed & D & Z0).
  { assert (2 ^ 128 - 2 ^ 103 <= 2 ^ 1024) by (vm_compute; discriminate). lia. }
  exists (double_to_float d). unfold bi_to_float. rewrite Ed. split; [reflexivity|].
  destruct (Z.eq_dec x 0) as [->|N].
  - rewrite (Z0 eq_refl). split; [|reflexivity]. vm_compute. repeat split; discriminate || reflexivity.
  - split; [|contradiction]. apply float_of_exact; [exact D| |].
    + intros E. apply N, trunc53_zero, E.
    + pose proof (trunc53_le x). lia.
Qed.

Lemma to_float_infinite c b x : represents b x -> 2 ^ 128 - 2 ^ 103 <= Z.abs x ->
  bi_to_float c b = Ret (if x <? 0 then flt_minus_infinity else flt_plus_infinity).
Proof.
  intros Hb Hx. unfold bi_to_float. destruct (Z.lt_ge_cases (Z.abs x) (2 ^ 1024)) as [H|H].
  - destruct (to_double_finite c b x Hb H) as (d & -> & D & _). cbn [bind].
    destruct (trunc53_threshold x Hx) as (T1 & T2). rewrite (float_overflow d _ D T1), T2. reflexivity.
  - rewrite (to_double_infinite c b x Hb H). cbn [bind]. destruct (x <? 0); vm_compute; reflexivity.
Qed.

Lemma to_float_right c b x : represents b x -> Z.abs x < 2 ^ 128 - 2 ^ 103 -> ~ just_above_tie x ->
  exists f, bi_to_float c b = Ret f /\ flt_exact f (round_even 24 x).
Proof.
  intros Hb Hx HT. destruct (to_float_finite c b x Hb Hx) as (f & E & F & _). rewrite (trunc_round x HT) in F. eauto.
Qed.

Lemma to_float_wrong c b x : represents b x -> Z.abs x < 2 ^ 128 - 2 ^ 103 -> just_above_tie x ->
  exists f z, bi_to_float c b = Ret f /\ flt_exact f z /\ Z.abs z < Z.abs (round_even 24 x) /\
    Z.abs (x - round_even 24 x) < Z.abs (x - z).
Proof.
  intros Hb Hx HT. destruct (to_float_finite c b x Hb Hx) as (f & E & F & _).
  destruct (trunc_round_tie x HT) as (q & k & e & Hk & Hq & He & EA & E1 & E2 & N).
  exists f, (round_even 24 (trunc53 x)). split; [exact E|]. split; [exact F|]. rewrite E1, E2.
  pose proof (pow2_pos k ltac:(lia)) as PK. pose proof (pow2_pos (k - 1) ltac:(lia)) as PK1.
  assert (2 ^ k = 2 * 2 ^ (k - 1)) as EK by (rewrite <- Z.pow_succ_r by lia; f_equal; lia).
  assert (0 < q * 2 ^ k) by (apply Z.mul_pos_pos; lia).
  rewrite Z.mul_add_distr_r. set (Q := q * 2 ^ k) in *. clearbody Q.
  destruct (Z.lt_trichotomy x 0) as [G|[G|G]]; [rewrite (Z.sgn_neg x G) in *| |rewrite (Z.sgn_pos x G) in *]; lia.
Qed.

(** ** [round_even] is the nearest multiple *)

Lemma rnd_nearest q r k m : 0 < k -> 0 <= r < k -> Z.abs (q * k + r - rnd q r k * k) <= Z.abs (q * k + r - m * k).
Proof.
  intros Hk Hr.
  assert (Z.min r (k - r) <= Z.abs (q * k + r - m * k)) as G.
  { destruct (Z.le_gt_cases m q) as [C|C].
    - assert (0 <= (q - m) * k) by (apply Z.mul_nonneg_nonneg; lia). lia.
    - assert (1 * k <= (m - q) * k) by (apply Z.mul_le_mono_nonneg_r; lia). lia. }
  unfold rnd. pose proof (Z.mod_pos_bound q 2 ltac:(lia)).
  destruct (Z.ltb_spec (2 * r) k); [lia|]. destruct (Z.ltb_spec k (2 * r)); [lia|].
  assert (q mod 2 = 0 \/ q mod 2 = 1) as [-> | ->] by lia; lia.
Qed.

Lemma round_even_nearest p x m s : 0 < p -> Z.abs m < 2 ^ p -> 0 <= s ->
  Z.abs (x - round_even p x) <= Z.abs (x - m * 2 ^ s).
Proof.
  intros Hp Hm Hs. rewrite round_even_rnd. cbv zeta. set (k := Z.max 0 (Z.log2 (Z.abs x) + 1 - p)).
  destruct (Z.eq_dec x 0) as [->|Hx]; [cbn; lia|].
  assert (exists g, Z.abs (Z.abs x - g) <= Z.abs (x - m * 2 ^ s) /\ g <= Z.abs (m * 2 ^ s) /\ (g = m * 2 ^ s \/ g = - (m * 2 ^ s))) as (g & G1 & G2 & G3).
  { destruct (Z.lt_ge_cases x 0); [exists (- (m * 2 ^ s))|exists (m * 2 ^ s)]; lia. }
  transitivity (Z.abs (Z.abs x - rnd (Z.abs x / 2 ^ k) (Z.abs x mod 2 ^ k) (2 ^ k) * 2 ^ k)).
  { destruct (Z.lt_trichotomy x 0) as [G|[G|G]]; [rewrite (Z.sgn_neg x G)| |rewrite (Z.sgn_pos x G)]; lia. }
  etransitivity; [|exact G1]. clear G1.
  pose proof (pow2_pos k ltac:(lia)) as PK. pose proof (pow2_pos s Hs) as PS.
  pose proof (Z.log2_spec (Z.abs x) ltac:(lia)) as LS. set (a := Z.abs x) in *. assert (0 < a) as A0 by lia. clearbody a.
  pose proof (Z.div_mod a (2 ^ k) ltac:(lia)) as D. pose proof (Z.mod_pos_bound a (2 ^ k) PK) as MB.
  replace (Z.abs (a - rnd (a / 2 ^ k) (a mod 2 ^ k) (2 ^ k) * 2 ^ k)) with (Z.abs (a / 2 ^ k * 2 ^ k + a mod 2 ^ k - rnd (a / 2 ^ k) (a mod 2 ^ k) (2 ^ k) * 2 ^ k)) by (f_equal; lia).
  assert (forall n, Z.abs (a / 2 ^ k * 2 ^ k + a mod 2 ^ k - rnd (a / 2 ^ k) (a mod 2 ^ k) (2 ^ k) * 2 ^ k) <= Z.abs (a - n * 2 ^ k)) as NR.
  { intros n. etransitivity; [apply (rnd_nearest _ _ _ n); lia|]. apply Z.eq_le_incl. f_equal. lia. }
  destruct (Z.le_gt_cases k s) as [C|C].
  - (* g is a multiple of 2^k *)
    assert (2 ^ s = 2 ^ (s - k) * 2 ^ k) as ES by (rewrite <- Z.pow_add_r by lia; f_equal; lia).
    destruct G3 as [-> | ->].
    + rewrite ES, Z.mul_assoc. apply NR.
    + rewrite ES, Z.mul_assoc, <- Z.mul_opp_l. apply NR.
  - (* g lies below the binade of a, whose least element is a multiple of 2^k *)
    assert (k = Z.log2 a + 1 - p) as EKL by lia.
    etransitivity; [apply (NR (2 ^ (p - 1)))|].
    assert (2 ^ (p - 1) * 2 ^ k = 2 ^ Z.log2 a) as EL by (rewrite <- Z.pow_add_r by lia; f_equal; lia). rewrite EL.
    assert (Z.abs (m * 2 ^ s) <= 2 ^ Z.log2 a); [|lia].
    rewrite Z.abs_mul, (Z.abs_eq (2 ^ s)) by lia.
    transitivity (2 ^ p * 2 ^ s); [apply Z.mul_le_mono_nonneg_r; lia|].
    rewrite <- Z.pow_add_r by lia. apply Z.pow_le_mono_r; lia.
Qed.

(** When two multiples are equally near, [round_even] takes the one whose
    significand is even. *)
Lemma round_even_tie p x m s : 0 < p -> 2 ^ (p - 1) <= m < 2 ^ p -> 0 < s -> Z.abs x = m * 2 ^ s + 2 ^ (s - 1) ->
  round_even p x = Z.sgn x * ((if Z.even m then m else m + 1) * 2 ^ s).
Proof.
  intros Hp Hm Hs E. pose proof (pow2_pos s ltac:(lia)) as PS. pose proof (pow2_pos (s - 1) ltac:(lia)) as PS1.
  pose proof (pow2_pos (p - 1) ltac:(lia)) as PP.
  assert (2 ^ s = 2 * 2 ^ (s - 1)) as ES by (rewrite <- Z.pow_succ_r by lia; f_equal; lia).
  assert (Z.log2 (Z.abs x) = p - 1 + s) as EL.
  { apply Z.log2_unique; [lia|]. replace (Z.succ (p - 1 + s)) with (p + s) by lia. rewrite !Z.pow_add_r by lia. rewrite E.
    assert (2 ^ (p - 1) * 2 ^ s <= m * 2 ^ s) by (apply Z.mul_le_mono_nonneg_r; lia).
    assert ((m + 1) * 2 ^ s <= 2 ^ p * 2 ^ s) by (apply Z.mul_le_mono_nonneg_r; lia). lia. }
  rewrite round_even_rnd, EL. cbv zeta. replace (Z.max 0 (p - 1 + s + 1 - p)) with s by lia. rewrite E.
  assert ((m * 2 ^ s + 2 ^ (s - 1)) / 2 ^ s = m) as -> by (symmetry; apply (Z.div_unique _ _ m (2 ^ (s - 1))); lia).
  assert ((m * 2 ^ s + 2 ^ (s - 1)) mod 2 ^ s = 2 ^ (s - 1)) as -> by (symmetry; apply (Z.mod_unique _ _ m (2 ^ (s - 1))); lia).
  do 2 f_equal. unfold rnd. rewrite !(proj2 (Z.ltb_ge _ _)) by lia.
  rewrite Zmod_even. destruct (Z.even m); lia.
Qed.
