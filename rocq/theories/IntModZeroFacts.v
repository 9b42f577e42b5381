(** Proofs about mod_pow by 0 with lengths kept in [int]. *)
From Verif Require Import Machine Facts Spec SpecActual AddSubFacts SpecFacts BigIntFacts ConvFacts SpecGcd SpecApi WordFacts ModPowFacts ModPowApi ActualFacts BigInt CalcDivRem CalcPowMod
  IntSizes SpecSizes IntSizesFacts IntLimbs SpecLimbs IntLimbsFacts IntLimbsLaws IntConvFacts BytesFacts IntBitsFacts IntAdd SpecIntAdd IntAddFacts
  IntAddLaws IntTextLaws IntDiv SpecIntDiv IntDivFacts IntMulFacts IntMulLaws IntGcd IntGcdLaws IntPow SpecIntPow IntPowFacts IntPowLaws SpecIntModZero.
Ltac Zify.zify_post_hook ::= idtac.

Lemma rem_u_zero c l : l <> [] ->
  calc_rem_u_i c l 0 = if Nat.eqb (rounds_i l) 0 then Ret 0 else Throw DivideByZero.
Proof.
  intros N. unfold calc_rem_u_i. rewrite (nil_false l N). cbn [negb]. assert (massert c true = Ret tt) as -> by (unfold massert; now destruct (dbg c)).
  cbn [bind]. assert (rounds_i l <= length l)%nat as R.
  { unfold rounds_i. pose proof (int_of_le (Z.of_nat (length l) - 1)) as H. rewrite int_of_s32 in H.
    assert (1 <= length l)%nat by (destruct l; [congruence|cbn [length]; lia]). lia. }
  destruct (rounds_i l) as [|k]; [reflexivity|]. cbn [for_down Nat.eqb]. unfold rd.
  rewrite (nth_error_nth' l 0) by lia. reflexivity.
Qed.

Lemma core_zero c l v : l <> [] ->
  powmod_v_core_i c l 0 v 1 = if Nat.ltb 1 (length l) then Undef DivByZero else Throw DivideByZero.
Proof.
  intros N. unfold powmod_v_core_i. cbv zeta. destruct l as [|p [|p' l]]; [congruence| |].
  - cbn [length Nat.ltb Nat.leb]. change (Z.of_nat 1 - 1) with 0. change (Z.to_nat (Z.min 0 (INT_MAX + 1))) with 0%nat. cbn [for_up bind].
    change (INT_MAX <? 0) with false. cbn beta iota. cbn [bind]. change (rdz [p] 0) with (Ret p). cbn [bind].
    unfold bit_fuel. apply powmod_u_loop_zero.
  - cbn [length]. change (Nat.ltb 1 (S (S (length l)))) with true. cbn beta iota.
    destruct (Z.to_nat (Z.min (Z.of_nat (S (S (length l))) - 1) (INT_MAX + 1))) as [|k] eqn:K; [unfold INT_MAX in K; lia|].
    cbn [for_up]. change (rd (p :: p' :: l) 0) with (Ret p). cbn [bind].
    unfold powmod_bits_step at 1. destruct (Z.land p 1 =? 1); reflexivity.
Qed.

Theorem mod_zero_any_holds c a b x e : represents a x -> represents b e -> bi_mod_pow_int_i c a b 0 = mod_zero_any x e.
Proof.
  intros Ha Hb. unfold bi_mod_pow_int_i, mod_zero_any. rewrite (repr_sign_ltb b e Hb). destruct (Z.ltb_spec e 0) as [E|E]; [reflexivity|].
  assert (represents (Big 0 []) 0) as Hm by (apply repr_small; unfold INT_MIN, INT_MAX; lia).
  rewrite (valid_ok c a x Ha), (valid_ok c b e Hb), (valid_ok c _ 0 Hm). cbn [bind].
  rewrite abs32_ok by (unfold INT_MIN, INT_MAX; lia). cbn [bind]. change (Z.abs 0) with 0.
  unfold zero_unseen. change (2 ^ 31) with 2147483648. change (2 ^ 32) with 4294967296.
  assert (exists v, (if is_nil (bits_of a) then abs32 c (sign_of a) else calc_rem_u_i c (bits_of a) 0) =
    if (Z.abs x <? 2147483648) || (seen x <=? 0) then Ret v else Throw DivideByZero) as (v & ->).
  { destruct (Z.ltb_spec (Z.abs x) 2147483648) as [X|X].
    - rewrite (short_parts _ _ Ha X). cbn [bits_of sign_of is_nil orb]. rewrite abs32_ok by (unfold INT_MIN, INT_MAX; lia). eauto.
    - destruct (long_parts a x Ha X) as (s & l & -> & Hs' & N & Hl & Ht & Hv & Sx & LX). cbn [bits_of orb]. rewrite (nil_false l N).
      destruct (seen_rounds x l N Hl Hv LX) as (_ & R). rewrite rem_u_zero by exact N. exists 0.
      replace (seen x <=? 0) with (Nat.eqb (rounds_i l) 0); [reflexivity|].
      destruct (Z.ltb_spec 0 (seen x)), (Nat.ltb_spec 0 (rounds_i l)), (Nat.eqb_spec (rounds_i l) 0), (Z.leb_spec (seen x) 0); auto; try discriminate; lia. }
  destruct (_ || _); [|reflexivity]. cbn [bind andb].
  assert ((if is_nil (bits_of b) then e0 <- abs32 c (sign_of b) ;; powmod_u_loop bit_fuel e0 0 v 1 else powmod_v_core_i c (bits_of b) 0 v 1) =
    if 4294967296 <=? e then Undef DivByZero else Throw DivideByZero) as ->; [|destruct (_ <=? e); reflexivity].
  destruct (Z.lt_ge_cases (Z.abs e) 2147483648) as [G|G].
  - rewrite (short_parts _ _ Hb G). cbn [bits_of sign_of is_nil]. rewrite abs32_ok by (unfold INT_MIN, INT_MAX; lia). cbn [bind].
    rewrite (proj2 (Z.leb_gt 4294967296 e)) by lia. unfold bit_fuel. apply powmod_u_loop_zero.
  - destruct (long_parts b e Hb G) as (s & l & -> & Hs' & N & Hl & Ht & Hv & Sx & LX). cbn [bits_of sign_of]. rewrite (nil_false l N).
    rewrite core_zero by exact N. rewrite Z.abs_eq in Hv by lia.
    replace (4294967296 <=? e) with (Nat.ltb 1 (length l)); [reflexivity|].
    pose proof (top_nz_bound l Hl N Ht) as TB. destruct (val_bound l Hl) as (_ & VB).
    destruct (Nat.ltb_spec 1 (length l)) as [L|L].
    + pose proof (Bp_le 1 (length l - 1) ltac:(lia)) as P. change (Bp 1) with 4294967296 in P. symmetry. apply Z.leb_le. lia.
    + pose proof (Bp_le (length l) 1 L) as P. change (Bp 1) with 4294967296 in P. symmetry. apply Z.leb_gt. lia.
Qed.

(** Where the claim holds. *)
Theorem mod_zero_throws c a b x e : represents a x -> represents b e -> 0 <= e ->
  (bi_mod_pow_int_i c a b 0 = Throw DivideByZero <-> e < 2 ^ 32 \/ 2 ^ 31 <= Z.abs x /\ 0 < seen x).
Proof.
  intros Ha Hb E. rewrite (mod_zero_any_holds c a b x e Ha Hb). unfold mod_zero_any, zero_unseen.
  change (2 ^ 31) with 2147483648. change (2 ^ 32) with 4294967296. rewrite (proj2 (Z.ltb_ge e 0) E).
  destruct (Z.ltb_spec (Z.abs x) 2147483648), (Z.leb_spec (seen x) 0), (Z.leb_spec 4294967296 e); cbn [orb andb]; split; intros K; try discriminate; auto; lia.
Qed.

Theorem mod_zero_long c a b x e : represents a x -> represents b e -> 2 ^ 32 <= e -> 2 ^ 31 < limbs_of x <= 2 ^ 32 ->
  bi_mod_pow_int_i c a b 0 = Undef DivByZero.
Proof.
  intros Ha Hb. change (2 ^ 31) with 2147483648. change (2 ^ 32) with 4294967296. intros E L.
  rewrite (mod_zero_any_holds c a b x e Ha Hb). unfold mod_zero_any, zero_unseen.
  change (2 ^ 31) with 2147483648. change (2 ^ 32) with 4294967296.
  rewrite (proj2 (Z.ltb_ge e 0)), (proj2 (Z.leb_le _ _) E) by lia.
  rewrite (proj2 (Z.leb_le (seen x) 0)); [now rewrite orb_true_r|]. unfold seen. rewrite int_of_back by lia. lia.
Qed.
