(** Proofs about the greatest common divisor with lengths kept in [int]. *)
From Verif Require Import Machine Facts Spec AddSubFacts SquMulFacts DivRemFacts DivCoreFacts SpecFacts BigIntFacts
  CompareFacts ConvFacts SpecApi SpecGcd ShiftFacts WordFacts BigInt CalcAddSub CalcGcd CalcDivRem BarrettFacts RunExact LeakyModPow SpecActual ActualFacts
  GcdFacts GcdExact IntSizes SpecSizes IntSizesFacts IntLimbs SpecLimbs IntLimbsFacts IntConvFacts BytesFacts IntAdd SpecIntAdd IntAddFacts
  IntAddLaws IntDiv SpecIntDiv IntDivFacts IntGcd SpecIntGcd.
Ltac Zify.zify_post_hook ::= idtac.

(** ** The order *)
Definition not_less (l r : list Z) : Prop :=
  (length r <= length l)%nat /\ (length r = length l -> vl r (compared l) <= vl l (compared l)).

Lemma ordered_i_ok c l r : l <> [] -> r <> [] -> limbs l -> limbs r -> not_less l r -> ordered_i c l r = Ret tt.
Proof.
  intros N1 N2 Hl Hr (Hlen & Hcmp). unfold ordered_i. destruct (dbg c); [|reflexivity].
  rewrite calc_compare_i_spec by assumption. cbn [bind]. apply massert_true, Z.leb_le.
  rewrite (proj2 (Nat.ltb_ge _ _)) by lia. destruct (Nat.ltb_spec (length r) (length l)) as [G|G]; [lia|].
  assert (length r = length l) as E by lia. specialize (Hcmp E).
  destruct (Z.compare_spec (vl l (compared l)) (vl r (compared l))); lia.
Qed.

Lemma order_found c l l' x y : l <> [] -> l' <> [] -> limbs l -> limbs l' -> val l = Z.abs x -> val l' = Z.abs y ->
  limbs_of x = Z.of_nat (length l) -> limbs_of y = Z.of_nat (length l') ->
  exists cmp, calc_compare_i c l l' = Ret cmp /\ (cmp <? 0) = found_less x y /\
    (if found_less x y then not_less l' l else not_less l l').
Proof.
  intros N N' Hl Hl' Hv Hv' LX LY. rewrite calc_compare_i_spec by assumption. eexists. split; [reflexivity|].
  unfold found_less, not_less.
  assert (length l' = length l -> low x (int_of (limbs_of x - 1) + 1) = vl l (compared l) /\
    low y (int_of (limbs_of x - 1) + 1) = vl l' (compared l)) as Cmp.
  { intros E. assert (int_of (limbs_of x - 1) + 1 <= Z.of_nat (length l)) as B.
    { rewrite LX. destruct l; [contradiction|]. cbn [length]. pose proof (int_of_le (Z.of_nat (Datatypes.S (length l)) - 1) ltac:(lia)). lia. }
    rewrite (low_vl_all x l), (low_vl_all y l') by (auto; lia). unfold compared. rewrite LX, int_of_s32. auto. }
  rewrite LX in Cmp |- *. rewrite LY.
  destruct (Nat.ltb_spec (length l) (length l')) as [G|G].
  - rewrite (proj2 (Z.eqb_neq _ _)) by lia. rewrite (proj2 (Z.ltb_lt (Z.of_nat (length l)) (Z.of_nat (length l')))) by lia.
    repeat split; lia.
  - destruct (Nat.ltb_spec (length l') (length l)) as [G2|G2].
    + rewrite (proj2 (Z.eqb_neq _ _)) by lia. rewrite (proj2 (Z.ltb_ge (Z.of_nat (length l)) (Z.of_nat (length l')))) by lia.
      repeat split; lia.
    + assert (length l' = length l) as E by lia. destruct (Cmp E) as (C1 & C2). rewrite (proj2 (Z.eqb_eq _ _)) by lia. cbv zeta. rewrite C1, C2.
      assert (compared l' = compared l) as EC by (unfold compared; now rewrite E).
      destruct (Z.compare_spec (vl l (compared l)) (vl l' (compared l))) as [V|V|V].
      * rewrite (proj2 (Z.ltb_ge (vl l (compared l)) _)) by lia. repeat split; lia.
      * rewrite (proj2 (Z.ltb_lt (vl l (compared l)) _)) by lia. rewrite EC. repeat split; lia.
      * rewrite (proj2 (Z.ltb_ge (vl l (compared l)) _)) by lia. repeat split; lia.
Qed.

(** ** One and two limbs *)
Lemma gcd_below m y b : 0 < Z.abs y < b -> 0 <= Z.gcd m y < b.
Proof.
  intros H. pose proof (Z.gcd_nonneg m y). pose proof (Z.divide_pos_le (Z.gcd m y) (Z.abs y) ltac:(lia)) as D.
  rewrite Z.divide_abs_r in D. specialize (D (Z.gcd_divide_r m y)). lia.
Qed.

Lemma gcd_by_one c l x y : l <> [] -> limbs l -> val l = Z.abs x -> limbs_of x = Z.of_nat (length l) -> 0 < y < W32 ->
  returns (temp <- calc_rem_u_i c l y ;; g <- calc_gcd32 y temp ;; bi_of_uint32 c g) (Z.gcd (low x (seen x)) y).
Proof.
  intros N Hl Hv LX Hy. destruct (seen_rounds x l N Hl Hv LX) as (-> & _). apply returns_wp. wstep.
  eapply wp_mono; [apply calc_rem_u_i_spec; [exact N|exact Hl|exact (conj (Z.lt_le_incl _ _ (proj1 Hy)) (proj2 Hy))|lia]|].
  cbn beta. intros t ->. pose proof (Z.mod_pos_bound (vl l (rounds_i l)) y ltac:(lia)) as MB.
  rewrite calc_gcd32_spec by lia. cbn [bind]. rewrite gcd_swap by lia. apply bi_of_uint32_spec.
  pose proof (gcd_below (vl l (rounds_i l)) y W32 ltac:(lia)). unfold UINT_MAX. num; lia.
Qed.

Lemma gcd_u_i_by_one c l x y : l <> [] -> limbs l -> val l = Z.abs x -> limbs_of x = Z.of_nat (length l) -> 0 < Z.abs y < W32 ->
  returns (g <- calc_gcd_u_i c l (Z.abs y) ;; bi_of_uint32 c g) (Z.gcd (low x (seen x)) y).
Proof.
  intros N Hl Hv LX Hy. unfold calc_gcd_u_i. rewrite (massert_true c (Nat.leb _ _)) by (destruct l; [congruence|reflexivity]).
  rewrite massert_true by (rewrite (proj2 (Z.eqb_neq _ _)) by lia; reflexivity). cbn [bind]. rewrite bind_assoc, <- (Z.gcd_abs_r _ y).
  now apply gcd_by_one.
Qed.

Lemma low_two (l : list Z) : limbs l -> (2 <= length l)%nat -> nth 0 l 0 + W32 * nth 1 l 0 = val l mod W64.
Proof.
  intros Hl H. destruct l as [|a [|b l]]; cbn [length] in H; try lia. cbn [nth]. change (val (a :: b :: l)) with (a + W32 * (b + W32 * val l)).
  inversion Hl as [|u v Ha Hl1]; subst u v. inversion Hl1 as [|u v Hb Hl2]; subst u v. unfold limb in *.
  replace (a + W32 * (b + W32 * val l)) with (a + W32 * b + val l * W64) by (change W64 with (W32 * W32); ring).
  rewrite Z.mod_add by (num; lia). rewrite Z.mod_small; [reflexivity|]. change W64 with (W32 * W32). num; nia.
Qed.

Lemma gcd_by_two c l l' x y : l <> [] -> limbs l -> limbs l' -> top_nz l' -> (length l' <= length l)%nat -> length l' = 2%nat ->
  val l = Z.abs x -> val l' = Z.abs y -> limbs_of x = Z.of_nat (length l) ->
  let o := (tempBits <- calc_rem_i c l l' ;; r1 <- rd l' 1 ;; r0 <- rd l' 0 ;; t1 <- rd tempBits 1 ;; t0 <- rd tempBits 0 ;;
    res <- calc_gcd64 (Z.lor (u64 (Z.shiftl r1 32)) r0) (Z.lor (u64 (Z.shiftl t1 32)) t0) ;; bi_of_uint64 c res) in
  let k := int_limbs x in
  if dbg c && (k <? 2) then o = AssertFail else returns o (Z.gcd (low x (if k <? 2 then 2 else k)) y).
Proof.
  intros N Hl Hl' Ht' Hlen H2 Hv Hv' LX o k. unfold o, k. rewrite (int_length _ _ LX).
  assert (l' <> []) as N' by (intros ->; discriminate H2).
  pose proof (core_i_spec c l l' [] 0 Hl Hl' Hlen (or_introl (conj eq_refl eq_refl))) as K. cbv zeta in K.
  unfold calc_rem_i. rewrite arrays_asserted by assumption. cbv zeta. rewrite bind_assoc.
  unfold long_case in K. pose proof (top_nz_bound l' Hl' N' Ht') as TB. pose proof (val_bound l' Hl') as VB.
  rewrite H2 in K, TB, VB |- *. change (s32 (Z.of_nat 2)) with 2 in K |- *. change (Z.to_nat 2) with 2%nat in K.
  assert (vl l' 2 = val l') as V2 by (rewrite <- H2; apply vl_all). rewrite V2 in K.
  change (2 ^ (32 * (2 - 1))) with (Bp (2 - 1)) in K. rewrite (proj2 (Z.ltb_ge (val l') _)) in K by lia.
  change (2 <? 1) with false in K. change (2 =? -2147483648) with false in K. rewrite orb_false_r in K.
  set (L := s32 (Z.of_nat (length l))) in *.
  replace ((L <? 1) || (L <? 2)) with (L <? 2) in K by (destruct (Z.ltb_spec L 1), (Z.ltb_spec L 2); auto; lia).
  destruct (dbg c && (L <? 2)); [now rewrite K|].
  assert (L <= Z.of_nat (length l)) as LE by (unfold L; rewrite <- int_of_s32; apply int_of_le; lia).
  apply returns_wp. apply wp_inv in K as ([t b1] & E & K1 & K2 & K3 & _). rewrite E. cbn [bind].
  pose proof (Bp_pos (2 - 1)) as P1. assert (0 < val l') as P0 by lia. change (Bp 2) with W64 in VB.
  wstep. wstep; [lia|]. wstep. wstep; [lia|]. wstep. wstep; [lia|]. wstep. wstep; [lia|].
  change 32 with kcbitUint. rewrite !lor_two by (apply limbs_nth; auto; lia).
  rewrite !low_two by (auto; lia). rewrite (Z.mod_small (val l')) by lia.
  set (m := low x (if L <? 2 then 2 else L)). assert (val t mod W64 mod val l' = m mod val l') as EM.
  { unfold m. rewrite K3. destruct (Z.ltb_spec L 2) as [G|G].
    - rewrite Hv. unfold low. change (2 ^ (32 * Z.max 0 2)) with W64. reflexivity.
    - rewrite (low_vl_all x l L Hl Hv) by lia. set (w := vl l (Z.to_nat L)) in *.
      pose proof (Z.mod_pos_bound w (val l') P0) as MB.
      assert ((val l - w + w mod val l') mod W64 = w mod val l') as ->; [|apply Z.mod_mod; lia].
      pose proof (val_split l (Z.to_nat L) ltac:(lia)) as Q. fold w in Q. set (q := val (skipn (Z.to_nat L) l)) in *.
      assert (exists d, Bp (Z.to_nat L) = d * W64) as (d & Hd).
      { exists (Bp (Z.to_nat L - 2)). change W64 with (Bp 2). rewrite <- Bp_add. f_equal. lia. }
      replace (val l - w + w mod val l') with (w mod val l' + (q * d) * W64) by (rewrite Q, Hd; ring).
      rewrite Z.mod_add by (num; lia). apply Z.mod_small. lia. }
  wstep. eapply wp_mono; [apply calc_gcd64_spec; [lia|apply Z.mod_pos_bound; num; lia]|]. cbn beta. intros g ->.
  assert (Z.gcd (val l') (val t mod W64) = Z.gcd m y) as ->.
  { rewrite <- (Z.gcd_abs_r m), <- Hv', <- (gcd_swap m (val l')) by lia. rewrite <- EM. symmetry. rewrite gcd_swap by lia. apply Z.gcd_comm. }
  apply bi_of_uint64_spec. apply gcd_below. lia.
Qed.

(** ** The public function *)
Lemma compare_i_same c (l r : list Z) : l <> [] -> Z.of_nat (length l) < 2147483648 -> calc_compare_i c l r = calc_compare c l r.
Proof.
  intros N H. unfold calc_compare_i, calc_compare. assert (1 <= length l)%nat by (destruct l; [congruence|cbn [length]; lia]).
  rewrite s32_small by (unfold INT_MIN, INT_MAX; lia). now replace (Z.to_nat (Z.of_nat (length l) - 1 + 1)) with (length l) by lia.
Qed.

Lemma gcd_arrays_holds fuel c s s' l l' x y : represents (Big s l) x -> represents (Big s' l') y -> l <> [] -> l' <> [] ->
  limbs l -> limbs l' -> top_nz l' -> val l = Z.abs x -> val l' = Z.abs y ->
  limbs_of x = Z.of_nat (length l) -> limbs_of y = Z.of_nat (length l') -> not_less l l' ->
  gcd_arrays fuel c x y (bi_gcd_bits_i fuel c l l').
Proof.
  intros Ha Hb N N' Hl Hl' Ht' Hv Hv' LX LY Hnl. unfold gcd_arrays, bi_gcd_bits_i. cbv zeta.
  pose proof (ordered_i_ok c l l' N N' Hl Hl' Hnl) as Ord. rewrite Ord. cbn [before]. destruct Hnl as (Hlen & Hcmp).
  rewrite LY. destruct (Nat.eqb_spec (length l') 1) as [E1|E1].
  { rewrite E1. change (Z.of_nat 1 =? 1) with true. cbn beta iota. destruct l' as [|r0 [|]]; try discriminate E1.
    change (rd [r0] 0) with (Ret r0). cbn [bind comes]. change (val [r0]) with (r0 + W32 * 0) in Hv'. rewrite Z.mul_0_r, Z.add_0_r in Hv'.
    inversion Hl' as [|u v Hu _]; subst u v. rewrite <- (Z.gcd_abs_r _ y), <- Hv'. apply gcd_by_one; auto.
    pose proof (top_nz_bound [r0] Hl' N' Ht') as TB. change (Bp (length [r0] - 1)) with 1 in TB.
    change (val [r0]) with (r0 + W32 * 0) in TB. unfold limb in Hu. lia. }
  rewrite (proj2 (Z.eqb_neq (Z.of_nat (length l')) 1)) by lia.
  destruct (Nat.eqb_spec (length l') 2) as [E2|E2].
  { rewrite E2. change (Z.of_nat 2 =? 2) with true. cbn beta iota.
    pose proof (gcd_by_two c l l' x y N Hl Hl' Ht' Hlen E2 Hv Hv' LX) as K. cbv zeta in K.
    destruct (dbg c && _); [now rewrite K|exact K]. }
  rewrite (proj2 (Z.eqb_neq (Z.of_nat (length l')) 2)) by lia.
  assert (3 <= length l')%nat as L3 by (destruct l' as [|? [|? [|]]]; cbn [length] in *; try congruence; lia).
  unfold calc_gcd_i. rewrite !(massert_true c (Nat.leb _ _)) by (apply Nat.leb_le; lia). cbn [bind]. rewrite Ord. cbn [before].
  rewrite (int_length _ _ LX), (int_length _ _ LY). destruct (_ || _); [reflexivity|].
  change (2 ^ 31) with 2147483648. rewrite LX. intros B B'.
  rewrite !(proj2 (Z.leb_le _ INT_MAX)) by (unfold INT_MAX; lia). cbn [andb comes].
  pose proof (gcd_exact c _ _ x y fuel Ha Hb) as G. unfold bi_gcd in G.
  rewrite (assert_valid_ok c _ x Ha), (assert_valid_ok c _ y Hb) in G. cbn [bind bits_of sign_of] in G.
  rewrite (nil_false l N), (nil_false l' N') in G. cbn [andb] in G.
  rewrite <- compare_i_same in G by auto.
  assert (exists cmp, calc_compare_i c l l' = Ret cmp /\ 0 <= cmp) as (cmp & C & P).
  { rewrite calc_compare_i_spec by assumption. eexists. split; [reflexivity|].
    rewrite (proj2 (Nat.ltb_ge _ _)) by lia. destruct (Nat.ltb_spec (length l') (length l)) as [G1|G1]; [lia|].
    assert (length l' = length l) as E by lia. specialize (Hcmp E).
    destruct (Z.compare_spec (vl l (compared l)) (vl l' (compared l))); lia. }
  rewrite C in G. cbn [bind] in G. rewrite (proj2 (Z.ltb_ge cmp 0)) in G by lia. unfold bi_gcd_bits in G.
  rewrite <- compare_i_same in G by auto. change (ordered_i c l l') with (if dbg c then cmp <- calc_compare_i c l l' ;; massert c (0 <=? cmp) else Ret tt) in Ord.
  rewrite Ord in G. cbn [bind] in G. rewrite (proj2 (Nat.eqb_neq _ _) E1), (proj2 (Nat.eqb_neq _ _) E2) in G. exact G.
Qed.

Theorem gcd_any_holds fuel c a b x y : represents a x -> represents b y -> gcd_any fuel c x y (bi_gcd_i fuel c a b).
Proof.
  intros Ha Hb. unfold gcd_any. change (2 ^ 31) with 2147483648. unfold bi_gcd_i.
  rewrite (valid_ok c a x Ha), (valid_ok c b y Hb). cbn [bind before].
  destruct (Z.ltb_spec (Z.abs x) 2147483648) as [X|X]; destruct (Z.ltb_spec (Z.abs y) 2147483648) as [Y|Y]; cbn [andb].
  - rewrite (short_parts _ _ Ha X), (short_parts _ _ Hb Y). cbn [bits_of sign_of is_nil andb comes].
    rewrite !abs32_ok by (unfold INT_MIN, INT_MAX; lia). cbn [bind]. rewrite calc_gcd32_spec by (num; lia). cbn [bind]. rewrite gcd_abs2.
    apply returns_wp, bi_of_uint32_spec. destruct (Z.eq_dec y 0) as [->|Y0].
    + rewrite Z.gcd_0_r. unfold UINT_MAX; num; lia.
    + pose proof (gcd_below x y 2147483648 ltac:(lia)). unfold UINT_MAX; num; lia.
  - rewrite (short_parts _ _ Ha X).
    destruct (long_parts b y Hb Y) as (s' & l' & -> & Hs' & N' & Hl' & Ht' & Hv' & Sy & LY). cbn [bits_of sign_of is_nil]. rewrite (nil_false l' N'). cbn [andb].
    destruct (Z.eqb_spec x 0) as [->|X0]; cbn [negb comes].
    + rewrite (int_length _ _ LY), <- Hv'. now apply of_mag_held.
    + rewrite abs32_ok by (unfold INT_MIN, INT_MAX; lia). cbn [bind]. apply gcd_u_i_by_one; auto. num; lia.
  - rewrite (short_parts _ _ Hb Y).
    destruct (long_parts a x Ha X) as (s & l & -> & Hs & N & Hl & Ht & Hv & Sx & LX). cbn [bits_of sign_of is_nil]. rewrite (nil_false l N). cbn [andb].
    destruct (Z.eqb_spec y 0) as [->|Y0]; cbn [negb comes].
    + rewrite (int_length _ _ LX), <- Hv. now apply of_mag_held.
    + rewrite abs32_ok by (unfold INT_MIN, INT_MAX; lia). cbn [bind]. apply gcd_u_i_by_one; auto. num; lia.
  - destruct (long_parts a x Ha X) as (s & l & -> & Hs & N & Hl & Ht & Hv & Sx & LX).
    destruct (long_parts b y Hb Y) as (s' & l' & -> & Hs' & N' & Hl' & Ht' & Hv' & Sy & LY). cbn [bits_of sign_of].
    rewrite (nil_false l N), (nil_false l' N'). cbn [andb].
    destruct (order_found c l l' x y N N' Hl Hl' Hv Hv' LX LY) as (cmp & -> & Ec & O). cbn [before]. rewrite Ec.
    destruct (found_less x y).
    + now apply (gcd_arrays_holds fuel c s' s).
    + now apply (gcd_arrays_holds fuel c s s').
Qed.

(** ** Below 2^31 limbs, and above *)
Lemma seen_small x : 1 <= limbs_of x < 2147483648 -> low x (seen x) = Z.abs x.
Proof.
  intros H. unfold seen. rewrite int_of_small by lia. apply low_all. lia.
Qed.
