(** BigInteger::mod_pow. *)
From Coq Require Import Zpow_facts.
From Verif Require Import Facts Spec AddSubFacts SquMulFacts DivRemFacts DivCoreFacts SpecFacts BigIntFacts SpecApi ConvFacts.
From Verif Require Import CompareFacts CalcAddSub CalcSquMul CalcDivRem CalcPowMod BigInt ConvLaws ShiftFacts WordFacts PowFacts ModPowFacts.

Ltac Zify.zify_post_hook ::= idtac.

Lemma rem_pow x e m : m <> 0 -> 0 <= e ->
  Z.rem (x ^ e) m = if (x <? 0) && Z.odd e then - (Z.abs x ^ e mod Z.abs m) else Z.abs x ^ e mod Z.abs m.
Proof.
  intros Hm He. rewrite <- Z.rem_abs_r by exact Hm. rewrite <- (pow_sign x e He).
  assert (0 <= Z.abs x ^ e) by (apply Z.pow_nonneg; lia).
  destruct ((x <? 0) && Z.odd e).
  - rewrite Z.rem_opp_l by lia. rewrite Z.rem_mod_nonneg by lia. reflexivity.
  - apply Z.rem_mod_nonneg; lia.
Qed.

Lemma exp_parts a e : represents a e -> 0 <= e ->
  (sign_of a <? 0) = false /\
  ((bits_of a = [] /\ sign_of a = e /\ e < 2 ^ 31) \/
   (bits_of a <> [] /\ limbs (bits_of a) /\ val (bits_of a) = e)).
Proof.
  intros Ha He. rewrite (repr_sign_ltb a e Ha), (proj2 (Z.ltb_ge _ _) He). split; [reflexivity|].
  apply repr_parts in Ha. destruct a as [s l]. cbn [sign_of bits_of] in *. inv_parts Ha.
  - left. split; [reflexivity|]. split; [reflexivity|]. num; lia.
  - right. split; [assumption|]. split; [assumption|]. signs; lia.
Qed.

Lemma val_parts a x : represents a x ->
  (bits_of a = [] /\ sign_of a = x /\ INT_MIN < x <= INT_MAX) \/
  (bits_of a <> [] /\ limbs (bits_of a) /\ top_nz (bits_of a) /\ val (bits_of a) = Z.abs x /\ 2 ^ 31 <= Z.abs x).
Proof.
  intros Ha. apply repr_parts in Ha. destruct a as [s l]. cbn [sign_of bits_of] in *. inv_parts Ha.
  - left. auto.
  - right. split; [assumption|]. split; [assumption|]. split; [assumption|]. signs; lia.
Qed.

Lemma mod_pow_negative c a b m x e z :
  represents a x -> represents b e -> represents m z -> e < 0 -> bi_mod_pow c a b m = Throw OutOfRange.
Proof.
  intros _ Hb _ He. unfold bi_mod_pow. rewrite (repr_sign_ltb b e Hb), (proj2 (Z.ltb_lt _ _) He). reflexivity.
Qed.

Lemma even_guard c b e (neg : bool) : represents b e ->
  (if neg then bi_is_even c b else Ret true) = Ret (negb (neg && Z.odd e)).
Proof.
  intros Hb. destruct neg; [|reflexivity]. rewrite (bi_is_even_spec c b e Hb). cbn [andb]. now rewrite Z.negb_odd.
Qed.

(** |m| < 2^31. *)
Lemma mod_pow_small c a b m x e z :
  represents a x -> represents b e -> represents m z -> 0 <= e -> z <> 0 -> Z.abs z < 2 ^ 31 ->
  returns (bi_mod_pow c a b m)
    (let r := Z.rem (x ^ e) z in if r <? 0 then r + 2 ^ 32 else r).
Proof.
  intros Ha Hb Hm He Hz Hs. apply returns_wp. unfold bi_mod_pow.
  destruct (exp_parts b e Hb He) as (-> & Eb).
  rewrite (assert_valid_ok c a x Ha), (assert_valid_ok c b e Hb), (assert_valid_ok c m z Hm). cbn [bind].
  destruct (val_parts m z Hm) as [(M1 & M2 & M3)|(_ & _ & _ & _ & M)]; [|lia].
  rewrite M1, M2. cbn [is_nil]. wstep. apply wp_abs32; [exact M3|]. wstep.
  assert (limb (Z.abs z)) as Lz by (num; lia). assert (0 < Z.abs z) as Pz by lia.
  assert (limb 1) as L1 by (num; lia).
  eapply wp_mono with (P := fun r => r = Z.abs x ^ e mod Z.abs z).
  { destruct (val_parts a x Ha) as [(A1 & A2 & A3)|(A1 & A2 & A3 & A4 & A5)].
    - rewrite A1, A2. cbn [is_nil]. wstep. apply wp_abs32; [exact A3|].
      assert (limb (Z.abs x)) as Lx by (num; lia).
      destruct Eb as [(E1 & E2 & E3)|(E1 & E2 & E3)].
      + rewrite E1, E2. cbn [is_nil]. wstep. apply wp_abs32; [num; lia|]. unfold calc_powmod_uuu. rewrite (Z.abs_eq e) by lia.
        eapply wp_mono; [apply powmod_u_loop_spec; auto; change (Z.of_nat bit_fuel) with 33; lia|].
        cbn beta. intros r ->. now rewrite Z.mul_1_l.
      + rewrite (is_nil_ne _ E1). unfold calc_powmod_uvu.
        eapply wp_mono; [apply powmod_v_core_spec; auto|]. cbn beta. intros r ->. now rewrite Z.mul_1_l, E3.
    - rewrite (is_nil_ne _ A1).
      pose proof (calc_rem_u_spec c (bits_of a) (Z.abs z)) as RS.
      assert (limb (val (bits_of a) mod Z.abs z)) as Lr.
      { pose proof (Z.mod_pos_bound (val (bits_of a)) (Z.abs z) Pz). num; lia. }
      destruct Eb as [(E1 & E2 & E3)|(E1 & E2 & E3)].
      + rewrite E1, E2. cbn [is_nil]. wstep. apply wp_abs32; [num; lia|]. unfold calc_powmod_vuu. rewrite (Z.abs_eq e) by lia.
        wstep. eapply wp_mono; [apply RS; [exact A1|exact A2|exact Lz|lia]|]. cbn beta. intros r ->.
        eapply wp_mono; [apply powmod_u_loop_spec; auto; change (Z.of_nat bit_fuel) with 33; lia|].
        cbn beta. intros r ->. rewrite Z.mul_1_l, <- Zpower_mod by lia. now rewrite A4.
      + rewrite (is_nil_ne _ E1). unfold calc_powmod_vvu.
        wstep. eapply wp_mono; [apply RS; [exact A1|exact A2|exact Lz|lia]|]. cbn beta. intros r ->.
        eapply wp_mono; [apply powmod_v_core_spec; auto|]. cbn beta. intros r ->.
        rewrite Z.mul_1_l, <- Zpower_mod by lia. now rewrite A4, E3. }
  cbn beta. intros r ->. rewrite (repr_sign_ltb a x Ha), (even_guard c b e _ Hb). cbn [bind].
  rewrite Bool.negb_involutive. cbv zeta. rewrite rem_pow by assumption.
  pose proof (Z.mod_pos_bound (Z.abs x ^ e) (Z.abs z) Pz) as MB. set (r := Z.abs x ^ e mod Z.abs z) in *. clearbody r.
  eapply wp_mono; [apply bi_of_uint32_spec|].
  - destruct ((x <? 0) && Z.odd e); [pose proof (u32_range (-1 * r))|]; unfold UINT_MAX; num; lia.
  - intros v Hv. destruct ((x <? 0) && Z.odd e).
    + destruct (Z.eq_dec r 0) as [->|N].
      * exact Hv.
      * rewrite (proj2 (Z.ltb_lt (- r) 0)) by lia. replace (- r + 2 ^ 32) with (u32 (-1 * r)); [exact Hv|].
        unfold u32. symmetry. apply (Z.mod_unique_pos _ _ (-1)); num; lia.
    + rewrite (proj2 (Z.ltb_ge r 0)) by lia. exact Hv.
Qed.

Lemma mod_pow_small_ok c a b m x e z :
  represents a x -> represents b e -> represents m z -> 0 <= e -> z <> 0 -> Z.abs z < 2 ^ 31 ->
  0 <= Z.rem (x ^ e) z -> returns (bi_mod_pow c a b m) (Z.rem (x ^ e) z).
Proof.
  intros Ha Hb Hm He Hz Hs Hr. pose proof (mod_pow_small c a b m x e z Ha Hb Hm He Hz Hs) as P. cbv zeta in P.
  rewrite (proj2 (Z.ltb_ge _ _) Hr) in P. exact P.
Qed.

Lemma mod_pow_small_bad c a b m x e z :
  represents a x -> represents b e -> represents m z -> 0 <= e -> z <> 0 -> Z.abs z < 2 ^ 31 ->
  Z.rem (x ^ e) z < 0 -> returns (bi_mod_pow c a b m) (Z.rem (x ^ e) z + 2 ^ 32).
Proof.
  intros Ha Hb Hm He Hz Hs Hr. pose proof (mod_pow_small c a b m x e z Ha Hb Hm He Hz Hs) as P. cbv zeta in P.
  rewrite (proj2 (Z.ltb_lt _ _) Hr) in P. exact P.
Qed.

(** 2^31 <= |m| < 2^992. *)
Lemma mod_pow_medium c a b m x e z :
  represents a x -> represents b e -> represents m z -> 0 <= e -> 2 ^ 31 <= Z.abs z -> fits_limbs z 31 ->
  returns (bi_mod_pow c a b m) (Z.rem (x ^ e) z).
Proof.
  intros Ha Hb Hm He Hz Hs. apply returns_wp. unfold bi_mod_pow.
  pose proof (repr_length m z 31 Hm ltac:(lia) Hs) as Lm.
  destruct (exp_parts b e Hb He) as (-> & Eb).
  rewrite (assert_valid_ok c a x Ha), (assert_valid_ok c b e Hb), (assert_valid_ok c m z Hm). cbn [bind].
  destruct (val_parts m z Hm) as [(M1 & M2 & M3)|(M1 & M2 & M3 & M4 & M5)]; [num; lia|].
  rewrite (is_nil_ne _ M1). wstep.
  assert (length (bits_of m) < ReducerThreshold)%nat as Lt by (unfold ReducerThreshold; lia).
  assert (1 < val (bits_of m)) as Pz by lia.
  eapply wp_mono with (P := fun l => limbs l /\ val l = Z.abs x ^ e mod Z.abs z).
  { rewrite <- M4. destruct (val_parts a x Ha) as [(A1 & A2 & A3)|(A1 & A2 & A3 & A4 & A5)].
    - rewrite A1, A2. cbn [is_nil]. wstep. apply wp_abs32; [exact A3|].
      assert (limb (Z.abs x)) as Lx by (num; lia).
      destruct Eb as [(E1 & E2 & E3)|(E1 & E2 & E3)].
      + rewrite E1, E2. cbn [is_nil]. wstep. apply wp_abs32; [num; lia|]. rewrite (Z.abs_eq e) by lia.
        apply calc_powmod_uuv_spec; auto. lia.
      + rewrite (is_nil_ne _ E1), <- E3. apply calc_powmod_uvv_spec; auto.
    - rewrite (is_nil_ne _ A1), <- A4.
      destruct Eb as [(E1 & E2 & E3)|(E1 & E2 & E3)].
      + rewrite E1, E2. cbn [is_nil]. wstep. apply wp_abs32; [num; lia|]. rewrite (Z.abs_eq e) by lia.
        apply calc_powmod_vuv_spec; auto. lia.
      + rewrite (is_nil_ne _ E1), <- E3. apply calc_powmod_vvv_spec; auto. }
  intros l (L1 & L2). rewrite (repr_sign_ltb a x Ha), (even_guard c b e _ Hb). cbn [bind].
  rewrite Bool.negb_involutive. apply mag_result; [exact L1|]. rewrite rem_pow by lia. rewrite L2. reflexivity.
Qed.

(** m = 0. *)
Lemma mod_pow_zero c a b m x e :
  represents a x -> represents b e -> represents m 0 -> 0 <= e ->
  bi_mod_pow c a b m =
    if (Z.abs x <? 2 ^ 31) && (2 ^ 32 <=? e) then Undef DivByZero else Throw DivideByZero.
Proof.
  intros Ha Hb Hm He. unfold bi_mod_pow.
  destruct (exp_parts b e Hb He) as (-> & Eb).
  rewrite (assert_valid_ok c a x Ha), (assert_valid_ok c b e Hb), (assert_valid_ok c m 0 Hm). cbn [bind].
  destruct (val_parts m 0 Hm) as [(M1 & M2 & M3)|(_ & _ & _ & _ & M)]; [|lia].
  rewrite M1, M2. cbn [is_nil]. rewrite abs32_ok by exact M3. cbn [bind]. change (Z.abs 0) with 0.
  destruct (val_parts a x Ha) as [(A1 & A2 & A3)|(A1 & A2 & A3 & A4 & A5)].
  - rewrite A1, A2. cbn [is_nil]. rewrite abs32_ok by exact A3. cbn [bind].
    rewrite (proj2 (Z.ltb_lt (Z.abs x) (2 ^ 31))) by (num; lia). cbn [andb].
    destruct Eb as [(E1 & E2 & E3)|(E1 & E2 & E3)].
    + rewrite E1, E2. cbn [is_nil]. rewrite abs32_ok by (num; lia). cbn [bind].
      unfold calc_powmod_uuu, bit_fuel. rewrite powmod_u_loop_zero. cbn [bind].
      rewrite (proj2 (Z.leb_gt _ _)) by lia. reflexivity.
    + rewrite (is_nil_ne _ E1). unfold calc_powmod_uvu, powmod_v_core.
      destruct (bits_of b) as [|b0 [|b1 t]] eqn:Eb; [congruence| |].
      * cbn [length Nat.sub for_up bind]. change (Z.of_nat 1 - 1) with 0. cbn [rdz rd nth_error bind].
        change (rdz [b0] 0) with (Ret b0). cbn [bind]. unfold bit_fuel. rewrite powmod_u_loop_zero. cbn [bind].
        cbn [val] in E3. inversion E2 as [|u v Hu Hv]; subst u v. rewrite (proj2 (Z.leb_gt _ _)) by (num; lia). reflexivity.
      * assert (2 ^ 32 <= e) as Be.
        { pose proof (val_parts b e Hb) as V. rewrite Eb in V. destruct V as [(V & _)|(_ & V1 & V2 & V3 & _)]; [discriminate|].
          pose proof (top_nz_bound _ V1 E1 V2) as TB. cbn [length] in TB.
          pose proof (Bp_le 1 (S (S (length t)) - 1) ltac:(lia)) as B1. rewrite Bp_1 in B1.
          rewrite Z.abs_eq in V3 by lia. change (2 ^ 32) with W32. lia. }
        rewrite (proj2 (Z.leb_le _ _) Be). cbn [length Nat.sub].
        replace (for_up (S (length t)) 0) with (for_up (S:=Z*Z) (S (length t)) 0) by reflexivity.
        cbn [for_up]. change (rd (b0 :: b1 :: t) 0) with (Ret b0). cbn [bind].
        unfold powmod_bits_step at 1. destruct (Z.land b0 1 =? 1); reflexivity.
  - rewrite (is_nil_ne _ A1). rewrite (proj2 (Z.ltb_ge (Z.abs x) (2 ^ 31))) by lia. cbn [andb].
    destruct Eb as [(E1 & E2 & E3)|(E1 & E2 & E3)].
    + rewrite E1, E2. cbn [is_nil]. rewrite abs32_ok by (num; lia). cbn [bind].
      unfold calc_powmod_vuu. rewrite calc_rem_u_zero by exact A1. reflexivity.
    + rewrite (is_nil_ne _ E1). unfold calc_powmod_vvu. rewrite calc_rem_u_zero by exact A1. reflexivity.
Qed.
