(** Conversion to and from two's complement dwords; bitwise operators. *)
From Verif Require Import Facts Spec SpecPos PosFacts AddSubFacts SquMulFacts DivCoreFacts SpecFacts BigIntFacts CompareFacts ConvFacts SpecApi ShiftFacts BigInt.

Ltac Zify.zify_post_hook ::= idtac.

Lemma pos_val l : positional W32 l = val l.
Proof. induction l as [|d l IH]; [reflexivity|]. cbn [positional val]. now rewrite IH. Qed.

Lemma bp_Bp n : bp W32 n = Bp n.
Proof. reflexivity. Qed.

Lemma digits_limbs l : digits W32 l <-> limbs l.
Proof. reflexivity. Qed.

Lemma W32_ok : 2 <= W32. Proof. discriminate. Qed.
Lemma W32_even : W32 mod 2 = 0. Proof. reflexivity. Qed.

Lemma testbit31 x : limb x -> Z.testbit x 31 = (2147483648 <=? x).
Proof.
  intros H. unfold limb, W32 in H. destruct (Z.leb_spec 2147483648 x).
  - apply Z.testbit_true; [lia|]. replace (x / 2 ^ 31) with 1; [reflexivity|].
    apply (Z.div_unique_pos _ _ _ (x - 2147483648)); lia.
  - apply Z.testbit_false; [lia|]. rewrite Z.div_small; [reflexivity|lia].
Qed.

Lemma land_high x : limb x -> Z.land x 2147483648 = if 2147483648 <=? x then 2147483648 else 0.
Proof.
  intros H. rewrite <- (testbit31 x H). change 2147483648 with (2 ^ 31). apply Z.bits_inj'. intros i Hi.
  rewrite Z.land_spec, Z.pow2_bits_eqb by lia. destruct (Z.eqb_spec 31 i) as [<-|Hn].
  - rewrite Bool.andb_true_r. destruct (Z.testbit x 31); [now rewrite Z.pow2_bits_true by lia|now rewrite Z.bits_0].
  - rewrite Bool.andb_false_r. destruct (Z.testbit x 31); [now rewrite Z.pow2_bits_false by lia|now rewrite Z.bits_0].
Qed.

(** [h] is the sign-extension word of a negative ([hz = 1]) or other ([hz = 0]) number. *)
Definition hword (hz : Z) : Z := if hz =? 1 then UINT_MAX else 0.

Lemma scan_msb_spec d hz m :
  (m < length d)%nat -> hz = 0 \/ hz = 1 ->
  wp (scan_msb d (hword hz) m) (fun k => (k <= m)%nat /\
    vl d (S k) - hz * Bp (S k) = vl d (S m) - hz * Bp (S m) /\
    (k = O \/ nth k d 0 <> hword hz)).
Proof.
  intros Hm Hz. induction m as [|m IH]; cbn [scan_msb].
  - wstep. auto.
  - wstep. wstep; [lia|]. destruct (Z.eqb_spec (nth (S m) d 0) (hword hz)) as [E|E]; cbn [negb].
    + eapply wp_mono; [apply IH; lia|]. intros k (A & B & C). split; [lia|]. split; [|exact C].
      rewrite B, (vl_S d (S m)), E, (Bp_S (S m)) by lia.
      unfold hword. destruct Hz as [-> | ->]; [cbn|]; try (change (1 =? 1) with true; cbn beta iota; unfold UINT_MAX; num); ring.
    + wstep. auto.
Qed.

Lemma nth_firstn_lt (l : list Z) k i : (i < k)%nat -> nth i (firstn k l) 0 = nth i l 0.
Proof.
  revert l i. induction k as [|k IH]; intros [|x l] [|i] H; try lia; try reflexivity.
  cbn [firstn nth]. apply IH. lia.
Qed.

Lemma firstn_val d k : val (firstn k d) = vl d k.
Proof. reflexivity. Qed.

Theorem to_words_spec c a x :
  represents a x ->
  wp (bi_to_uint32_array c a) (fun l => limbs l /\ complement W32 l = x /\
    (x = 0 -> l = []) /\
    forall n, (n < length l)%nat -> (n = O -> x <> 0) -> ~ cfits W32 n x).
Proof.
  intros Ha. pose proof Ha as Hr. apply repr_parts in Ha. destruct a as [s bits].
  unfold bi_to_uint32_array. cbn [sign_of bits_of] in *.
  destruct (is_nil bits && (s =? 0)) eqn:E0.
  { apply Bool.andb_true_iff in E0. destruct E0 as [E1 E2]. apply Z.eqb_eq in E2. subst s.
    destruct bits; [|discriminate]. inv_parts Ha; [|congruence].
    wstep. split; [constructor|]. split; [reflexivity|]. split; [auto|]. cbn [length]. lia. }
  assert (x <> 0 /\ wp (if is_nil bits then Ret ([u32 s], if s <? 0 then UINT_MAX else 0)
       else if s =? -1 then d <- make_twos_complement bits ;; Ret (d, UINT_MAX)
       else Ret (bits, 0)) (fun p => exists hz, (hz = 0 \/ hz = 1) /\ snd p = hword hz /\ (hz = 1 <-> x < 0) /\
         limbs (fst p) /\ fst p <> [] /\ val (fst p) - hz * Bp (length (fst p)) = x)) as (Hx & Hpair).
  { inv_parts Ha.
    - cbn [is_nil andb] in *. apply Z.eqb_neq in E0. split; [exact E0|].
      wstep. cbn [fst snd length val]. rewrite Bp_S, Bp_0. unfold u32.
      destruct (Z.ltb_spec x 0) as [G|G].
      + exists 1. split; [now right|]. split; [reflexivity|]. split; [lia|].
        replace (x mod W32) with (x + W32) by (apply (Z.mod_unique_pos _ _ (-1)); num; lia).
        split; [constructor; [num; lia|constructor]|]. split; [discriminate|]. num; lia.
      + exists 0. split; [now left|]. split; [reflexivity|]. split; [lia|].
        rewrite Z.mod_small by (num; lia).
        split; [constructor; [num; lia|constructor]|]. split; [discriminate|]. num; lia.
    - destruct bits as [|b0 bits0]; [congruence|]. cbn [is_nil]. remember (b0 :: bits0) as bits. clear Heqbits b0 bits0.
      split; [signs; lia|].
      destruct (Z.eqb_spec s (-1)) as [Es|Es].
      + wstep. eapply wp_mono; [apply make_twos_complement_spec; auto|].
        intros d (A & B & C). wstep. cbn [fst snd]. exists 1. split; [now right|]. split; [reflexivity|].
        split; [subst s; lia|]. split; [exact B|]. split; [destruct d, bits; cbn in A; congruence|].
        rewrite C, A. rewrite (proj2 (Z.eqb_neq _ _)) by lia. subst s. ring.
      + wstep. cbn [fst snd]. exists 0. split; [now left|]. split; [reflexivity|].
        split; [signs; lia|]. split; [assumption|]. split; [assumption|]. signs; [ring|lia]. }
  wstep. eapply wp_mono; [exact Hpair|]. clear Hpair E0 Ha Hr s bits.
  intros (d & h) (hz & Hz & Hh & Hneg & Hl & Hne & Hv). cbn [fst snd] in *. subst h.
  assert (1 <= length d)%nat as Hlen by (destruct d; [congruence|cbn [length]; lia]).
  wstep. eapply wp_mono; [apply scan_msb_spec; [lia|exact Hz]|].
  intros k (A & B & C). wstep. wstep; [lia|]. wstep. wstep; [lia|]. wstep.
  replace (S (length d - 1)) with (length d) in B by lia. rewrite vl_all in B. rewrite Hv in B. clear Hv.
  replace (k + 1)%nat with (S k) by lia. replace (S k - 0)%nat with (S k) by lia. cbn [skipn].
  set (t := firstn (S k) d). set (w := nth k d 0) in *.
  assert (limb w) as Hw by (now apply limbs_nth).
  assert (limbs t) as Ht by (now apply limbs_firstn).
  assert (length t = S k) as Lt by (unfold t; rewrite firstn_length; lia).
  assert (last t 0 = w) as Hlast.
  { rewrite last_nth, Lt. unfold t. rewrite nth_firstn_lt by lia. unfold w. f_equal. lia. }
  assert (vl d (S k) = val t) as Et by reflexivity. rewrite Et in B.
  pose proof (val_bound t Ht) as Vt. rewrite Lt in Vt.
  assert (vl d (S k) = vl d k + w * Bp k) as Es by (rewrite vl_S by lia; unfold w; ring).
  pose proof (vl_bound d k Hl) as Vk. pose proof (Bp_pos k) as Pk.
  rewrite Et in Es.
  assert (Z.land (hword hz) 2147483648 = if hz =? 1 then 2147483648 else 0) as ->.
  { destruct Hz as [-> | ->]; reflexivity. }
  rewrite (land_high w Hw).
  assert (complement W32 (t ++ [hword hz]) = x) as Cext.
  { rewrite complement_snoc by apply W32_ok. rewrite pos_val, bp_Bp, Lt.
    replace (if W32 <=? 2 * hword hz then hword hz - W32 else hword hz) with (- hz); [rewrite <- B; ring|].
    destruct Hz as [-> | ->]; reflexivity. }
  assert (forall n, cfits W32 n x -> (n <= k)%nat -> cfits W32 k x) as Fle.
  { intros n F L. exact (cfits_le _ W32_ok _ _ _ L F). }
  assert (2147483648 <=? w = negb (hz =? 1) ->
    limbs (t ++ [hword hz]) /\ complement W32 (t ++ [hword hz]) = x /\ (x = 0 -> t ++ [hword hz] = []) /\
    forall n, (n < length (t ++ [hword hz]))%nat -> (n = O -> x <> 0) -> ~ cfits W32 n x) as Hext.
  { intros Ew. split; [|split; [exact Cext|split; [tauto|]]].
    - apply limbs_app. split; [exact Ht|]. constructor; [|constructor].
      destruct Hz as [-> | ->]; unfold hword, UINT_MAX; num; cbn; lia.
    - intros n Hn _ F. rewrite app_length, Lt in Hn. cbn [length] in Hn.
      assert (cfits W32 (S k) x) as F' by (eapply cfits_le; [apply W32_ok| |exact F]; lia).
      unfold cfits in F'. rewrite bp_Bp, Bp_S in F'. rewrite Bp_S in B.
      destruct Hz as [-> | ->]; cbn in Ew.
      + apply Z.leb_le in Ew.
        assert (2147483648 * Bp k <= w * Bp k) by (apply Z.mul_le_mono_nonneg_r; lia).
        num; lia.
      + apply Z.leb_gt in Ew.
        assert (w * Bp k <= 2147483647 * Bp k) by (apply Z.mul_le_mono_nonneg_r; lia).
        num; lia. }
  assert (2147483648 <=? w = (hz =? 1) ->
    limbs t /\ complement W32 t = x /\ (x = 0 -> t = []) /\
    forall n, (n < length t)%nat -> (n = O -> x <> 0) -> ~ cfits W32 n x) as Hno.
  { intros Ew. split; [exact Ht|]. split; [|split; [tauto|]].
    - unfold complement. rewrite Hlast, Lt, pos_val. fold (bp W32 (S k)). rewrite bp_Bp.
      replace (W32 <=? 2 * w) with (2147483648 <=? w).
      2:{ destruct (Z.leb_spec 2147483648 w), (Z.leb_spec W32 (2 * w)); num; lia. }
      rewrite Ew. destruct Hz as [-> | ->]; cbn -[Z.mul Bp] in *; lia.
    - rewrite Lt. intros n Hn Hn0 F.
      destruct C as [-> | C].
      { assert (n = O) by lia. subst n. apply cfits_0 in F. tauto. }
      assert (cfits W32 k x) as F' by (apply (Fle n F); lia).
      unfold cfits in F'. rewrite bp_Bp in F'. rewrite Bp_S in B. unfold hword, UINT_MAX in C.
      destruct Hz as [-> | ->]; cbn in Ew, C.
      + unfold limb in Hw. assert (1 * Bp k <= w * Bp k) by (apply Z.mul_le_mono_nonneg_r; lia). lia.
      + assert (w * Bp k <= 4294967294 * Bp k) by (apply Z.mul_le_mono_nonneg_r; [lia|num; lia]). num; lia. }
  destruct (2147483648 <=? w) eqn:Ew, (hz =? 1) eqn:Eh; cbn [Z.eqb negb Pos.eqb]; auto.
Qed.

(** ** BigInteger(uint_array) *)

Lemma top_firstn l k :
  limbs l -> (1 <= k <= length l)%nat -> vl l k = vl l (length l) -> nth (k - 1) l 0 <> 0 ->
  top_nz (firstn k l) /\ limbs (firstn k l) /\ firstn k l <> [] /\ val (firstn k l) = val l /\
  length (firstn k l) = k.
Proof.
  intros Hl Hk Hv Hn. assert (length (firstn k l) = k) as L by (rewrite firstn_length; lia).
  split; [unfold top_nz; rewrite L, nth_firstn_lt by lia; exact Hn|].
  split; [now apply limbs_firstn|]. split; [intros E; rewrite E in L; cbn [length] in L; lia|].
  split; [|exact L]. rewrite <- (vl_all l), <- Hv. reflexivity.
Qed.

Theorem of_words_spec c l :
  limbs l -> wp (bi_of_dwords c l) (fun r => represents r (complement W32 l)).
Proof.
  intros Hl. unfold bi_of_dwords.
  assert (exists neg, wp (if Nat.ltb 0 (length l)
     then top <- rd l (length l - 1) ;; Ret (Z.land top 2147483648 =? 2147483648)
     else Ret false) (fun r => r = neg) /\ (neg = true <-> W32 <= 2 * last l 0) /\
     complement W32 l = val l - (if neg : bool then Bp (length l) else 0)) as (neg & Hn & Hneg & Hc).
  { assert (complement W32 l = val l - (if W32 <=? 2 * last l 0 then Bp (length l) else 0)) as Hc0.
    { unfold complement. now rewrite pos_val. }
    rewrite last_nth in *. pose proof (limbs_nth l (length l - 1) Hl) as Ht.
    exists (W32 <=? 2 * nth (length l - 1) l 0). split; [|split; [apply Z.leb_le|exact Hc0]].
    destruct (Nat.ltb_spec 0 (length l)) as [H|H].
    - wstep. wstep; [lia|]. wstep. rewrite land_high by exact Ht.
      destruct (Z.leb_spec 2147483648 (nth (length l - 1) l 0)), (Z.leb_spec W32 (2 * nth (length l - 1) l 0));
        try reflexivity; num; lia.
    - wstep. destruct l; [reflexivity|cbn [length] in H; lia]. }
  wstep. eapply wp_mono; [exact Hn|]. cbn beta. intros r ->. clear Hn. rewrite Hc.
  wstep. eapply wp_mono; [apply trim_len_spec; lia|]. intros k (A & B & C).
  pose proof (val_bound l Hl) as Vb.
  destruct (Nat.eqb_spec k 0) as [K0|K0].
  { subst k. rewrite vl_all in B. cbn in B. unfold vl in B. cbn [firstn val] in B.
    destruct neg.
    - exfalso. destruct Hneg as [Hneg _]. specialize (Hneg eq_refl). rewrite last_nth in Hneg.
      destruct l as [|x0 l0]; [cbn in Hneg; num; lia|].
      assert (top_nz (x0 :: l0)) as T by (unfold top_nz; num; lia).
      pose proof (top_nz_bound _ Hl ltac:(discriminate) T). pose proof (Bp_pos (length (x0 :: l0) - 1)). lia.
    - apply wp_checked. rewrite <- B. apply repr_zero. }
  destruct C as [C|C]; [lia|].
  destruct (top_firstn l k Hl ltac:(lia) B C) as (T1 & T2 & T3 & T4 & T5).
  assert (neg = true -> k = length l) as Kneg.
  { intros ->. destruct Hneg as [Hneg _]. specialize (Hneg eq_refl). rewrite last_nth in Hneg.
    destruct (Nat.lt_ge_cases k (length l)) as [L|L]; [exfalso|lia].
    assert (nth (length l - 1) l 0 = 0); [|num; lia].
    assert (vl l (length l - 1) <= val l - nth (length l - 1) l 0 * Bp (length l - 1)) as V1.
    { rewrite <- (vl_all l). replace (length l) with (S (length l - 1)) at 2 by lia. rewrite vl_S by lia. lia. }
    pose proof (vl_bound l k Hl) as V2. rewrite B, vl_all in V2.
    pose proof (Bp_le k (length l - 1) ltac:(lia)) as V3.
    pose proof (vl_bound l (length l - 1) Hl) as V4.
    pose proof (limbs_nth l (length l - 1) Hl) as V5. unfold limb in V5.
    destruct (Z.eq_dec (nth (length l - 1) l 0) 0) as [E|E]; [exact E|exfalso].
    assert (1 * Bp (length l - 1) <= nth (length l - 1) l 0 * Bp (length l - 1))
      by (apply Z.mul_le_mono_nonneg_r; [pose proof (Bp_pos (length l - 1)); lia|lia]).
    lia. }
  destruct (Nat.eqb_spec k 1) as [K1|K1].
  { subst k. wstep. wstep; [lia|]. pose proof (limbs_nth l 0 Hl) as H0. set (v := nth 0 l 0) in *.
    assert (val l = v) as Ev.
    { rewrite <- T4. unfold v. destruct l as [|x0 l0]; [cbn [length] in A; lia|]. cbn [firstn val nth]. ring. }
    cbn [Nat.sub] in C. fold v in C. unfold limb in H0.
    assert (s32 v = if v <? 2147483648 then v else v - W32) as Es.
    { unfold s32. rewrite u32_small by exact H0. reflexivity. }
    rewrite Ev. destruct neg; cbn [negb].
    - rewrite Bool.andb_false_r. specialize (Kneg eq_refl). rewrite <- Kneg, Bp_S, Bp_0.
      destruct Hneg as [Hneg _]. specialize (Hneg eq_refl). rewrite last_nth, <- Kneg in Hneg.
      cbn [Nat.sub] in Hneg. fold v in Hneg. rewrite Es. destruct (Z.ltb_spec v 2147483648); [num; lia|].
      destruct (Z.eqb_spec INT_MIN (v - W32)) as [E|E]; apply wp_checked.
      + replace (v - W32 * 1) with INT_MIN by lia. exact repr_minint.
      + replace (v - W32 * 1) with (v - W32) by ring. apply repr_small. num; lia.
    - rewrite Bool.andb_true_r, Z.sub_0_r, Es. destruct (Z.ltb_spec v 2147483648) as [G|G].
      + destruct (Z.ltb_spec v 0); [lia|]. destruct (Z.eqb_spec INT_MIN v); [num; lia|].
        apply wp_checked, repr_small. num; lia.
      + destruct (Z.ltb_spec (v - W32) 0); [|num; lia]. apply wp_checked.
        replace v with (1 * v) at 2 by ring. apply repr_limb1; auto; num; lia. }
  assert (2147483648 <= val (firstn k l)) as Vbig.
  { pose proof (top_nz_bound _ T2 T3 T1) as TB. rewrite T5 in TB.
    pose proof (Bp_le 1 (k - 1) ltac:(lia)) as TB2. rewrite Bp_S, Bp_0 in TB2. num; lia. }
  destruct neg; cbn [negb].
  2:{ rewrite Z.sub_0_r.
      assert (represents (Big 1 (firstn k l)) (val l)) as R.
      { apply repr_big; auto. rewrite T4. ring. }
      destruct (Nat.eqb_spec k (length l)) as [E|E]; apply wp_checked; [|exact R].
      subst k. now rewrite firstn_all in R. }
  specialize (Kneg eq_refl). subst k. rewrite firstn_all in *.
  wstep. eapply wp_mono; [apply make_twos_complement_spec; auto|]. intros m (M1 & M2 & M3).
  rewrite (proj2 (Z.eqb_neq (val l) 0)) in M3 by lia.
  wstep. eapply wp_mono; [apply trim_len_spec; lia|]. intros j (J1 & J2 & J3).
  wstep. wstep; [lia|].
  assert (j <> 0)%nat as J0.
  { intros ->. rewrite vl_all in J2. unfold vl in J2. cbn [firstn val] in J2. lia. }
  destruct J3 as [J3|J3]; [lia|].
  destruct (top_firstn m j M2 ltac:(lia) J2 J3) as (U1 & U2 & U3 & U4 & U5).
  replace (val l - Bp (length l)) with (- val m) by lia.
  pose proof (limbs_nth m 0 M2) as H0.
  assert (represents (Big (-1) (firstn j m)) (- val m) ->
    wp (if negb (Nat.eqb j (length m)) then checked c (Big (-1) (firstn j m)) else checked c (Big (-1) m))
      (fun r => represents r (- val m))) as Hend.
  { intros R. destruct (Nat.eqb_spec j (length m)) as [E|E]; cbn [negb]; apply wp_checked; [|exact R].
    subst j. now rewrite firstn_all in R. }
  destruct (Nat.eqb_spec j 1) as [E1|E1]; cbn [andb].
  - subst j. set (v := nth 0 m 0) in *.
    assert (val m = v) as Ev.
    { rewrite <- U4. unfold v. destruct m as [|x0 m0]; [cbn [length] in J1; lia|]. cbn [firstn val nth]. ring. }
    assert (firstn 1 m = [v]) as Ef.
    { unfold v. destruct m as [|x0 m0]; [cbn [length] in J1; lia|]. reflexivity. }
    cbn [Nat.sub] in J3. fold v in J3. unfold limb in H0.
    assert (s32 v = if v <? 2147483648 then v else v - W32) as Es.
    { unfold s32. rewrite u32_small by exact H0. reflexivity. }
    rewrite Es. destruct (Z.ltb_spec v 2147483648) as [G|G].
    + destruct (Z.ltb_spec 0 v); [|lia]. destruct (Z.eqb_spec v 1) as [E|E].
      { apply wp_checked. rewrite Ev, E. apply repr_minus_one. }
      destruct (Z.eqb_spec v kuMaskHighBit) as [E'|E']; [unfold kuMaskHighBit in E'; lia|].
      apply wp_checked. rewrite Ev. replace (- v) with (-1 * v) by ring. apply repr_small. num; lia.
    + destruct (Z.ltb_spec 0 (v - W32)); [num; lia|]. apply Hend. rewrite Ef, Ev.
      replace (- v) with (-1 * v) by ring. apply repr_limb1; auto; num; lia.
  - apply Hend. apply repr_big; auto; [|rewrite U4; ring].
    pose proof (top_nz_bound _ U2 U3 U1) as TB. rewrite U5 in TB.
    pose proof (Bp_le 1 (j - 1) ltac:(lia)) as TB2. rewrite Bp_S, Bp_0 in TB2. num; lia.
Qed.

(** ** Bitwise operators *)

(** What is needed of a bit operation on integers. *)
Record bitop (op : Z -> Z -> Z) : Prop := {
  bo_shift : forall x y n, 0 <= n -> op x y / 2 ^ n = op (x / 2 ^ n) (y / 2 ^ n);
  bo_mod : forall x y n, 0 <= n -> op (x mod 2 ^ n) (y mod 2 ^ n) = op x y mod 2 ^ n;
  bo_sign : forall x y, (x = 0 \/ x = -1) -> (y = 0 \/ y = -1) -> op x y = 0 \/ op x y = -1
}.

Lemma bitop_testbit op (f : bool -> bool -> bool) :
  (forall x y n, 0 <= n -> Z.testbit (op x y) n = f (Z.testbit x n) (Z.testbit y n)) ->
  f false false = false -> bitop op.
Proof.
  intros Hf H0. split.
  - intros x y n Hn. apply Z.bits_inj'. intros i Hi.
    rewrite Hf, <- !Z.shiftr_div_pow2, !Z.shiftr_spec, Hf by lia. reflexivity.
  - intros x y n Hn. apply Z.bits_inj'. intros i Hi. rewrite Hf by lia.
    destruct (Z.lt_ge_cases i n) as [L|L].
    + rewrite !Z.mod_pow2_bits_low, Hf by lia. reflexivity.
    + rewrite !Z.mod_pow2_bits_high by lia. exact H0.
  - intros x y Hx Hy.
    assert (forall z, (forall i, 0 <= i -> Z.testbit z i = Z.testbit z 0) -> z = 0 \/ z = -1) as Hz.
    { intros z H. destruct (Z.testbit z 0); [right|left]; apply Z.bits_inj'; intros i Hi.
      - rewrite H, Z.bits_m1 by lia. reflexivity.
      - now rewrite H, Z.bits_0 by lia. }
    apply Hz. intros i Hi. rewrite !Hf by lia.
    destruct Hx as [-> | ->], Hy as [-> | ->]; rewrite ?Z.bits_0, ?Z.bits_m1 by lia; reflexivity.
Qed.

Lemma bitop_xor : bitop Z.lxor.
Proof. apply (bitop_testbit _ xorb); [intros; apply Z.lxor_spec|reflexivity]. Qed.
Lemma bitop_and : bitop Z.land.
Proof. apply (bitop_testbit _ andb); [intros; apply Z.land_spec|reflexivity]. Qed.
Lemma bitop_or : bitop Z.lor.
Proof. apply (bitop_testbit _ orb); [intros; apply Z.lor_spec|reflexivity]. Qed.

Lemma fits_shift x k : 0 <= k -> - 2 ^ k <= x < 2 ^ k <-> x / 2 ^ k = 0 \/ x / 2 ^ k = -1.
Proof.
  intros Hk. pose proof (pow2_pos k Hk) as P.
  pose proof (Z.div_mod x (2 ^ k) ltac:(lia)) as D. pose proof (Z.mod_pos_bound x (2 ^ k) P) as M.
  set (q := x / 2 ^ k) in *. set (r := x mod 2 ^ k) in *. set (p := 2 ^ k) in *. clearbody p q r.
  split; [intros H|intros [-> | ->]; lia].
  assert (-1 <= q <= 0); [|lia]. split.
  - destruct (Z.le_gt_cases (-1) q) as [G|G]; [exact G|].
    assert (p * q <= p * (-2)) by (apply Z.mul_le_mono_nonneg_l; lia). lia.
  - destruct (Z.le_gt_cases q 0) as [G|G]; [exact G|].
    assert (p * 1 <= p * q) by (apply Z.mul_le_mono_nonneg_l; lia). lia.
Qed.

Lemma bitop_fits op x y k :
  bitop op -> 0 <= k -> - 2 ^ k <= x < 2 ^ k -> - 2 ^ k <= y < 2 ^ k -> - 2 ^ k <= op x y < 2 ^ k.
Proof.
  intros Ho Hk Hx Hy. rewrite fits_shift in * by lia. rewrite (bo_shift _ Ho) by lia.
  now apply (bo_sign _ Ho).
Qed.

Lemma cfits_pow2 n x : (n <> 0)%nat ->
  cfits W32 n x <-> - 2 ^ (32 * Z.of_nat n - 1) <= x < 2 ^ (32 * Z.of_nat n - 1).
Proof.
  intros Hn. unfold cfits. rewrite bp_Bp, Bp_pow2.
  replace (32 * Z.of_nat n) with (1 + (32 * Z.of_nat n - 1)) at 1 2 by ring.
  rewrite Z.pow_add_r by lia. change (2 ^ 1) with 2. lia.
Qed.

Lemma bitop_cfits op n x y : bitop op -> cfits W32 n x -> cfits W32 n y -> cfits W32 n (op x y).
Proof.
  intros Ho Hx Hy. destruct (Nat.eq_dec n 0) as [->|Hn].
  - apply cfits_0 in Hx, Hy. subst x y. unfold cfits. rewrite bp_Bp, Bp_0.
    assert (op 0 0 = 0) as E.
    { pose proof (bo_mod _ Ho 0 0 0 ltac:(lia)) as M. rewrite !Z.mod_1_r in M. exact M. }
    rewrite E. lia.
  - rewrite cfits_pow2 in * by exact Hn. apply bitop_fits; auto. lia.
Qed.

Lemma repr_sign_ltb a x : represents a x -> (sign_of a <? 0) = (x <? 0).
Proof.
  intros Ha. apply repr_parts in Ha. destruct a as [s l]. cbn [sign_of bits_of] in *.
  inv_parts Ha; [reflexivity|]. destruct (Z.ltb_spec s 0), (Z.ltb_spec (s * val l) 0); signs; lia.
Qed.

Lemma ext_rd l neg i : (i < length l)%nat \/ True ->
  wp (if Nat.ltb i (length l) then rd l i else Ret (if neg : bool then UINT_MAX else 0))
     (fun v => v = ext W32 l neg i).
Proof.
  intros _. unfold ext. destruct (Nat.ltb_spec i (length l)) as [H|H].
  - wstep; [exact H|reflexivity].
  - wstep. destruct neg; reflexivity.
Qed.

Theorem bitop_words_spec c op a b x y :
  bitop op -> represents a x -> represents b y ->
  wp (bi_bitop_words c op a b) (fun r => represents r (op x y)).
Proof.
  intros Ho Ha Hb. unfold bi_bitop_words.
  wstep. eapply wp_mono; [eapply to_words_spec; eauto|]. intros lx (Lx & Cx & _).
  wstep. eapply wp_mono; [eapply to_words_spec; eauto|]. intros ly (Ly & Cy & _).
  rewrite (repr_sign_ltb _ _ Ha), (repr_sign_ltb _ _ Hb).
  rewrite length_zeros. set (n := Nat.max (length lx) (length ly)).
  wstep. eapply wp_mono with (P := fun z => length z = n /\ limbs z /\
    forall i, (i < n)%nat -> nth i z 0 = (op x y / Bp i) mod W32).
  - eapply wp_for_up with (I := fun i z => length z = n /\ limbs z /\
      forall j, (j < i)%nat -> nth j z 0 = (op x y / Bp j) mod W32).
    + rewrite length_zeros. split; [reflexivity|]. split; [apply limbs_zeros|]. lia.
    + intros i z Hi (A & B & C). cbn [Nat.add] in *.
      wstep. eapply wp_mono; [apply ext_rd; now right|]. cbn beta. intros xu ->.
      wstep. eapply wp_mono; [apply ext_rd; now right|]. cbn beta. intros yu ->.
      assert (op (ext W32 lx (x <? 0) i) (ext W32 ly (y <? 0) i) = (op x y / Bp i) mod W32) as E.
      { pose proof (complement_ext W32 W32_ok W32_even lx i Lx) as E1. rewrite Cx in E1.
        pose proof (complement_ext W32 W32_ok W32_even ly i Ly) as E2. rewrite Cy in E2.
        rewrite E1, E2, bp_Bp. change W32 with (2 ^ 32). rewrite (bo_mod _ Ho) by lia. f_equal.
        rewrite Bp_pow2. symmetry. apply (bo_shift _ Ho). lia. }
      rewrite E. wstep; [lia|].
      split; [now rewrite length_upd|].
      split; [apply limbs_upd; [exact B|]; unfold limb; apply Z.mod_pos_bound; reflexivity|].
      intros j Hj. destruct (Nat.eq_dec j i) as [->|Hn].
      * rewrite nth_upd_same by lia. reflexivity.
      * rewrite nth_upd_other by lia. apply C. lia.
    + intros z (A & B & C). auto.
  - intros z (A & B & C).
    assert (complement W32 z = op x y) as E.
    { apply complement_unique; [apply W32_ok|apply W32_even|exact B| |rewrite A; exact C].
      rewrite A. apply bitop_cfits; [exact Ho| |].
      - rewrite <- Cx. eapply cfits_le; [apply W32_ok| |apply complement_range; [apply W32_ok|apply W32_even|exact Lx]]. lia.
      - rewrite <- Cy. eapply cfits_le; [apply W32_ok| |apply complement_range; [apply W32_ok|apply W32_even|exact Ly]]. lia. }
    rewrite <- E. now apply of_words_spec.
Qed.

Lemma bitop_trivial c op a b x y :
  bitop op -> represents a x -> represents b y -> is_nil (bits_of a) && is_nil (bits_of b) = true ->
  wp (bi_of_int32 c (op (sign_of a) (sign_of b))) (fun r => represents r (op x y)).
Proof.
  intros Ho Ha Hb E. apply Bool.andb_true_iff in E. destruct E as [E1 E2].
  apply repr_parts in Ha, Hb. destruct a as [s l], b as [s' l']. cbn [sign_of bits_of] in *.
  destruct l; [|discriminate]. destruct l'; [|discriminate].
  inv_parts Ha; [|congruence]. inv_parts Hb; [|congruence].
  apply bi_of_int32_spec. pose proof (bitop_fits op x y 31 Ho ltac:(lia)) as F.
  change (2 ^ 31) with 2147483648 in F. num; lia.
Qed.

Theorem bi_xor_spec c a b x y :
  represents a x -> represents b y -> wp (bi_xor c a b) (fun r => represents r (Z.lxor x y)).
Proof.
  intros Ha Hb. unfold bi_xor. destruct (is_nil (bits_of a) && is_nil (bits_of b)) eqn:E.
  - apply bitop_trivial; auto. apply bitop_xor.
  - apply bitop_words_spec; auto. apply bitop_xor.
Qed.

Theorem bi_and_spec c a b x y :
  represents a x -> represents b y -> wp (bi_and c a b) (fun r => represents r (Z.land x y)).
Proof.
  intros Ha Hb. unfold bi_and. rewrite (bi_is_zero_spec c a x Ha), (bi_is_zero_spec c b y Hb). cbn [bind].
  destruct (Z.eqb_spec x 0) as [->|Hx]; cbn [bind].
  { rewrite Z.land_0_l. apply bi_zero_spec. }
  destruct (Z.eqb_spec y 0) as [->|Hy]; cbn [bind].
  { rewrite Z.land_0_r. apply bi_zero_spec. }
  destruct (is_nil (bits_of a) && is_nil (bits_of b)) eqn:E.
  - apply bitop_trivial; auto. apply bitop_and.
  - apply bitop_words_spec; auto. apply bitop_and.
Qed.

Theorem bi_or_spec c a b x y :
  represents a x -> represents b y -> wp (bi_or c a b) (fun r => represents r (Z.lor x y)).
Proof.
  intros Ha Hb. unfold bi_or. rewrite (bi_is_zero_spec c a x Ha). cbn [bind].
  destruct (Z.eqb_spec x 0) as [->|Hx].
  { wstep. now rewrite Z.lor_0_l. }
  rewrite (bi_is_zero_spec c b y Hb). cbn [bind].
  destruct (Z.eqb_spec y 0) as [->|Hy].
  { wstep. now rewrite Z.lor_0_r. }
  destruct (is_nil (bits_of a) && is_nil (bits_of b)) eqn:E.
  - apply bitop_trivial; auto. apply bitop_or.
  - apply bitop_words_spec; auto. apply bitop_or.
Qed.

(** ** Corollaries *)

Lemma bitwise_family c a b x y :
  represents a x -> represents b y ->
  returns (bi_and c a b) (Z.land x y) /\ returns (bi_or c a b) (Z.lor x y) /\
  returns (bi_xor c a b) (Z.lxor x y) /\ returns (bi_not c a) (Z.lnot x).
Proof.
  intros Ha Hb. split; [now apply returns_wp, bi_and_spec|]. split; [now apply returns_wp, bi_or_spec|].
  split; [now apply returns_wp, bi_xor_spec|]. now apply returns_wp, bi_not_spec.
Qed.

(** The same, bit by bit. *)
Lemma bitwise_bits c a b x y :
  represents a x -> represents b y ->
  exists p q r s, returns (bi_and c a b) p /\ returns (bi_or c a b) q /\ returns (bi_xor c a b) r /\
    returns (bi_not c a) s /\
    forall n, 0 <= n ->
      Z.testbit p n = Z.testbit x n && Z.testbit y n /\
      Z.testbit q n = Z.testbit x n || Z.testbit y n /\
      Z.testbit r n = xorb (Z.testbit x n) (Z.testbit y n) /\
      Z.testbit s n = negb (Z.testbit x n).
Proof.
  intros Ha Hb. destruct (bitwise_family c a b x y Ha Hb) as (A & B & C & D).
  exists (Z.land x y), (Z.lor x y), (Z.lxor x y), (Z.lnot x).
  split; [exact A|]. split; [exact B|]. split; [exact C|]. split; [exact D|].
  intros n Hn. split; [apply Z.land_spec|]. split; [apply Z.lor_spec|].
  split; [apply Z.lxor_spec|apply Z.lnot_spec; exact Hn].
Qed.

Lemma to_words_returns c a x :
  represents a x ->
  exists l, bi_to_uint32_array c a = Ret l /\ digits (2 ^ 32) l /\ complement (2 ^ 32) l = x /\
    forall l', digits (2 ^ 32) l' -> complement (2 ^ 32) l' = x -> (length l <= length l')%nat.
Proof.
  intros Ha. destruct (wp_inv _ _ (to_words_spec c a x Ha)) as (l & E & A & B & C & D).
  exists l. change (2 ^ 32) with W32. split; [exact E|]. split; [exact A|]. split; [exact B|].
  intros l' H1 H2. destruct (Nat.le_gt_cases (length l) (length l')) as [L|L]; [exact L|exfalso].
  apply (D (length l')); [exact L| |].
  - intros H0 Hx. rewrite (C Hx) in L. cbn [length] in L. lia.
  - rewrite <- H2. apply complement_range; [apply W32_ok|apply W32_even|exact H1].
Qed.

Lemma of_words_returns c l : digits (2 ^ 32) l -> returns (bi_of_dwords c l) (complement (2 ^ 32) l).
Proof. intros H. now apply returns_wp, of_words_spec. Qed.

Lemma words_round_trip c a x :
  represents a x -> (l <- bi_to_uint32_array c a ;; bi_of_dwords c l) = Ret a.
Proof.
  intros Ha. destruct (to_words_returns c a x Ha) as (l & E & A & B & _). rewrite E. cbn [bind].
  destruct (of_words_returns c l A) as (r & Er & Hr). rewrite Er. f_equal.
  rewrite B in Hr. exact (represents_unique _ _ _ Hr Ha).
Qed.
