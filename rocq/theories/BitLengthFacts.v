(** get_bit_length for every integer, on both data models. *)
From Coq Require Import String.
From Verif Require Import Facts Spec AddSubFacts SpecFacts BigIntFacts SpecApi SpecGcd BigInt.
From Verif Require Import ShiftFacts ConvFacts LeakyModPow WinBigInt WinConvFacts ApiMem PyRun PyClass SpecPyClass.
Ltac Zify.zify_post_hook ::= idtac.

Lemma least_width_unique x n m : least_width x n -> least_width x m -> n = m.
Proof. intros (A & B & C) (D & E & F). apply Z.le_antisymm; [now apply C|now apply F]. Qed.

Lemma width_least x : least_width x (width x).
Proof.
  unfold width. destruct (Z.eqb_spec x 0) as [->|N0]; [repeat split; try lia; intros; lia|].
  destruct (Z.eqb_spec x (-1)) as [->|N1]; [repeat split; try lia; intros; lia|].
  set (m := if x <? 0 then - x - 1 else x).
  assert (0 < m) as Hm by (unfold m; destruct (Z.ltb_spec x 0); lia).
  pose proof (Z.log2_spec m Hm) as (L1 & L2). pose proof (Z.log2_nonneg m).
  assert (forall k, - 2 ^ k <= x < 2 ^ k <-> 0 <= m < 2 ^ k) as E by (intros k; unfold m; destruct (Z.ltb_spec x 0); lia).
  split; [lia|]. split; [apply E; rewrite Z.add_1_r; lia|].
  intros k Hk K. apply E in K. assert (Z.log2 m < k); [|lia]. apply Z.log2_lt_pow2; lia.
Qed.

Lemma u64_s64 x : u64 (s64 x) = u64 x.
Proof.
  unfold s64, u64. cbv zeta. destruct (x mod W64 <? 9223372036854775808); [now rewrite Z.mod_mod by easy|].
  replace (x mod W64 - W64) with (x mod W64 + -1 * W64) by ring. rewrite Z.mod_add by easy. now rewrite Z.mod_mod by easy.
Qed.
Lemma u64_s64_pred x : u64 (s64 x - 1) = u64 (x - 1).
Proof. unfold u64. rewrite <- (Zminus_mod_idemp_l (s64 x)). fold (u64 (s64 x)). rewrite u64_s64. unfold u64. now rewrite Zminus_mod_idemp_l. Qed.

(** The code after the top limb [h] of [n] limbs has been found. *)
Definition short (s h : Z) (zb : bool) (v : Z) : Z :=
  if 0 <=? s then v else if negb (Z.land h (u32 (h - 1)) =? 0) then v else if zb then v - 1 else v.
Lemma tail_wide c s h l n zb v :
  limb h -> (1 <= n)%nat -> all_zero_below l (n - 1) = Ret zb -> v = Z.of_nat n * 32 - (if h =? 0 then 32 else 31 - Z.log2 h) ->
  (lz <- leading_zeros_count h ;; bitLength <- chk64 c (Z.of_nat n * 32 - lz) ;;
      if 0 <=? s then Ret (u64 bitLength) else if negb (Z.land h (u32 (h - 1)) =? 0) then Ret (u64 bitLength)
      else z <- all_zero_below l (n - 1) ;; if z : bool then Ret (u64 (bitLength - 1)) else Ret (u64 bitLength))
  = if strict c && (2 ^ 63 <=? v) then Undef SignedOverflow else Ret (u64 (short s h zb v)).
Proof.
  intros Hh Hn Hz Hv. pose proof (top_zeros h Hh) as T. rewrite leading_zeros_count_spec by assumption. cbn [bind].
  rewrite <- Hv. rewrite Hz. unfold chk64. change (2 ^ 63) with 9223372036854775808.
  assert ((LONG_MIN <=? v) = true) as -> by (apply Z.leb_le; unfold LONG_MIN; lia). cbn [andb].
  replace (v <=? LONG_MAX) with (negb (9223372036854775808 <=? v)) by (unfold LONG_MAX; apply Bool.eq_true_iff_eq; rewrite negb_true_iff, Z.leb_gt, Z.leb_le; lia).
  unfold short. destruct (9223372036854775808 <=? v); cbn [negb].
  - destruct (strict c); cbn [andb bind]; [reflexivity|].
    destruct (0 <=? s); [now rewrite u64_s64|]. destruct (negb _); [now rewrite u64_s64|]. destruct zb; [now rewrite u64_s64_pred|now rewrite u64_s64].
  - rewrite andb_false_r. cbn [bind]. destruct (0 <=? s); [reflexivity|]. destruct (negb _); [reflexivity|]. now destruct zb.
Qed.

Lemma tail_narrow c s h l n zb v :
  limb h -> (1 <= n)%nat -> all_zero_below l (n - 1) = Ret zb -> v = Z.of_nat n * 32 - (if h =? 0 then 32 else 31 - Z.log2 h) ->
  (lz <- leading_zeros_count h ;; total <- chk32 c (Z.of_nat n * 32) ;; bitLength <- chk32 c (total - lz) ;;
      if 0 <=? s then Ret (u64 bitLength) else if negb (Z.land h (u32 (h - 1)) =? 0) then Ret (u64 bitLength)
      else z <- all_zero_below l (n - 1) ;; if z : bool then r <- chk32 c (bitLength - 1) ;; Ret (u64 r) else Ret (u64 bitLength))
  = if strict c && (2 ^ 26 <=? Z.of_nat n) then Undef SignedOverflow else Ret (u64 (s32 (short s h zb v))).
Proof.
  intros Hh Hn Hz Hv. pose proof (top_zeros h Hh) as T. rewrite leading_zeros_count_spec by assumption. cbn [bind].
  set (z := if h =? 0 then 32 else 31 - Z.log2 h) in *. rewrite Hz. change (2 ^ 26) with 67108864. unfold short.
  destruct (strict c) eqn:St; cbn [andb].
  - destruct (Z.leb_spec 67108864 (Z.of_nat n)) as [B|B].
    + unfold chk32 at 1. assert ((Z.of_nat n * 32 <=? INT_MAX) = false) as -> by (apply Z.leb_gt; num; lia).
      now rewrite andb_false_r, St.
    + rewrite chk32_ok by (num; lia). cbn [bind]. rewrite chk32_ok by (num; lia). cbn [bind]. rewrite <- Hv.
      rewrite chk32_ok by (num; lia).
      destruct (0 <=? s); [now rewrite s32_small by (num; lia)|]. destruct (negb _); [now rewrite s32_small by (num; lia)|].
      destruct zb; cbn [bind]; now rewrite s32_small by (num; lia).
  - rewrite !chk32_wrap by assumption. cbn [bind]. rewrite !chk32_wrap by assumption. cbn [bind]. rewrite s32_minus, <- Hv.
    destruct (0 <=? s); [reflexivity|]. destruct (negb _); [reflexivity|]. destruct zb; [|reflexivity].
    rewrite chk32_wrap by assumption. cbn [bind]. now rewrite s32_minus.
Qed.

(** The top limb, and the width in its terms. *)
Lemma width_short x : 
  width x = if 0 <=? x then nbits x else if Z.land (- x) (- x - 1) =? 0 then nbits (- x) - 1 else nbits (- x).
Proof.
  apply (least_width_unique x); [apply width_least|].
  destruct (Z.leb_spec 0 x); [now apply least_width_pos|now apply least_width_neg].
Qed.

Lemma nbits_log x : x <> 0 -> nbits (Z.abs x) = Z.log2 (Z.abs x) + 1.
Proof. intros H. unfold nbits. destruct (Z.eqb_spec (Z.abs x) 0); lia. Qed.

Theorem bit_length_exact d c a x : represents a x -> bit_length d c a = bit_length_of d c x.
Proof.
  intros Ha. pose proof (limbs_of_length a x Ha) as L.
  enough (exists s h l n zb v,
    limb h /\ (1 <= n)%nat /\ all_zero_below l (n - 1) = Ret zb /\ v = Z.of_nat n * 32 - (if h =? 0 then 32 else 31 - Z.log2 h) /\
    short s h zb v = width x /\ (2 ^ 63 <=? v) = (2 ^ 63 <=? Z.log2 (Z.abs x) + 1) /\ Z.of_nat n = limbs_of x /\
    bi_bit_length c a = (lz <- leading_zeros_count h ;; bitLength <- chk64 c (Z.of_nat n * 32 - lz) ;;
      if 0 <=? s then Ret (u64 bitLength) else if negb (Z.land h (u32 (h - 1)) =? 0) then Ret (u64 bitLength)
      else z <- all_zero_below l (n - 1) ;; if z : bool then Ret (u64 (bitLength - 1)) else Ret (u64 bitLength)) /\
    bi_bit_length_w c a = (lz <- leading_zeros_count h ;; total <- chk32 c (Z.of_nat n * 32) ;; bitLength <- chk32 c (total - lz) ;;
      if 0 <=? s then Ret (u64 bitLength) else if negb (Z.land h (u32 (h - 1)) =? 0) then Ret (u64 bitLength)
      else z <- all_zero_below l (n - 1) ;; if z : bool then r <- chk32 c (bitLength - 1) ;; Ret (u64 r) else Ret (u64 bitLength))) as
    (s & h & l & n & zb & v & Hh & Hn & Hz & Hv & W & B & N & E1 & E2).
  { unfold bit_length, bit_length_of. destruct d.
    - rewrite E1, (tail_wide c s h l n zb v Hh Hn Hz Hv), W, B. reflexivity.
    - rewrite E2, (tail_narrow c s h l n zb v Hh Hn Hz Hv), W, N.
      destruct (strict c && _); [reflexivity|]. f_equal. unfold u64. change (2 ^ 64) with W64. f_equal.
      generalize (width x) as k. intros k. unfold s32, u32. cbv zeta. change (2 ^ 31) with 2147483648. change (2 ^ 32) with W32.
      pose proof (Z.mod_pos_bound k W32 ltac:(easy)) as R. pose proof (Z.div_mod k W32 ltac:(easy)) as D.
      set (r := k mod W32) in *. set (q := k / W32) in *. clearbody r q. rewrite D. change W32 with 4294967296 in *.
      destruct (Z.ltb_spec r 2147483648).
      + replace (4294967296 * q + r + 2147483648) with (r + 2147483648 + q * 4294967296) by ring.
        rewrite Z.mod_add, Z.mod_small by lia. lia.
      + replace (4294967296 * q + r + 2147483648) with (r - 2147483648 + (q + 1) * 4294967296) by ring.
        rewrite Z.mod_add, Z.mod_small by lia. lia. }
  unfold bi_bit_length, bi_bit_length_w. rewrite (assert_valid_ok _ _ _ Ha). cbn [bind].
  apply repr_parts in Ha. destruct a as [s l]; cbn [sign_of bits_of] in *. inv_parts Ha; nils.
  - assert ((if x <? 0 then chk32 c (- x) else Ret x) = Ret (Z.abs x)) as ->.
    { destruct (Z.ltb_spec x 0); [rewrite chk32_ok by (num; lia)|]; f_equal; lia. }
    cbn [bind]. rewrite u32_small by (num; lia).
    assert (limb (Z.abs x)) as Hl by (unfold limb; num; lia).
    exists x, (Z.abs x), [], 1%nat, true, (nbits (Z.abs x)).
    split; [exact Hl|]. split; [lia|]. split; [reflexivity|]. split; [unfold nbits; destruct (Z.abs x =? 0); lia|].
    split; [|split; [|split; [|split; reflexivity]]].
    + rewrite width_short. unfold short. destruct (Z.leb_spec 0 x); [now rewrite Z.abs_eq by lia|].
      rewrite Z.abs_neq by lia. rewrite u32_small by (num; lia).
      destruct (Z.land (- x) (- x - 1) =? 0); reflexivity.
    + destruct (Z.eq_dec x 0) as [->|N]; [reflexivity|now rewrite nbits_log].
    + exact (eq_sym L).
  - assert (1 <= List.length l)%nat as Hl1 by (destruct l; [congruence|cbn [List.length]; lia]).
    rewrite rd_ok by lia. cbn [bind].
    pose proof (limbs_nth l (List.length l - 1) Hl) as Hx. pose proof Hx as Hx'. unfold limb in Hx'. pose proof Ht as Ht'. unfold top_nz in Ht'.
    pose proof (top_nz_bound l Hl Hne Ht) as Hb. pose proof (Bp_pos (List.length l - 1)).
    exists s, (nth (List.length l - 1) l 0), l, (List.length l), (vl l (List.length l - 1) =? 0), (nbits (val l)).
    split; [exact Hx|]. split; [exact Hl1|]. split; [apply all_zero_below_spec; auto; lia|].
    split; [rewrite (proj2 (Z.eqb_neq _ _) Ht'); now apply nbits_val|].
    split; [|split; [|split; [|split; reflexivity]]].
    + rewrite width_short. unfold short. destruct Hs; subst s.
      * cbn [Z.leb Z.compare]. rewrite Z.mul_1_l. destruct (Z.leb_spec 0 (val l)); [reflexivity|lia].
      * change (0 <=? -1) with false. cbv iota. destruct (Z.leb_spec 0 (-1 * val l)); [lia|].
        replace (- (-1 * val l)) with (val l) by ring. rewrite (u32_small (nth (List.length l - 1) l 0 - 1)) by lia.
        pose proof (val_pow2 l Hne Hl Ht) as P. rewrite <- land_pow2 in P by lia.
        destruct (Z.eqb_spec (Z.land (nth (List.length l - 1) l 0) (nth (List.length l - 1) l 0 - 1)) 0) as [E|E]; cbn [negb].
        -- destruct (Z.eqb_spec (vl l (List.length l - 1)) 0) as [E'|E'];
             destruct (Z.eqb_spec (Z.land (val l) (val l - 1)) 0) as [F|F]; tauto.
        -- destruct (Z.eqb_spec (Z.land (val l) (val l - 1)) 0) as [F|F]; [tauto|reflexivity].
    + assert (Z.abs (s * val l) = val l) as -> by (destruct Hs; subst s; lia). pose proof (nbits_log (val l) ltac:(lia)) as NL. rewrite Z.abs_eq in NL by lia. now rewrite NL.
    + rewrite L. f_equal. lia.
Qed.
