(** Proofs about shifts with limb counts kept in [int]. *)
From Verif Require Import Machine Facts Spec AddSubFacts SquMulFacts DivCoreFacts SpecFacts BigIntFacts
  CompareFacts ConvFacts SpecApi SpecGcd ShiftFacts WordFacts BigInt BarrettFacts RunExact LeakyModPow SpecActual ActualFacts
  IntSizes SpecSizes IntSizesFacts IntLimbs SpecLimbs IntLimbsFacts.
Ltac Zify.zify_post_hook ::= idtac.

(** ** Left shift *)

(** The loops over the lowest [n] limbs. *)
Lemma shl_loops c xd n sh ds sm (neg : bool) z :
  limbs xd -> (n <= length xd)%nat -> 0 <= sm < 32 -> 2 ^ sh = Bp ds * 2 ^ sm ->
  (if neg then - (vl xd n * 2 ^ sh) else vl xd n * 2 ^ sh) = z ->
  wp (zd <-
        (if sm =? 0 then
           for_up n 0 (fun i zd => x <- rd xd i ;; wr zd (i + ds) x) (zeros (n + ds + 1))
         else
           '(zd, carry) <-
             for_up n 0 (fun i st =>
               let '(zd, carry) := st in
               rot <- rd xd i ;;
               hi <- shl32 rot sm ;;
               zd <- wr zd (i + ds) (Z.lor hi carry) ;;
               carry <- shr32 rot (kcbitUint - sm) ;;
               Ret (zd, carry)) (zeros (n + ds + 1), 0) ;;
           wr zd (n + ds) carry) ;;
      bi_of_mag c zd neg) (fun r => represents r z).
Proof.
  intros Hl Hn Hsm Epow Hz.
  assert (forall zd, limbs zd -> val zd = vl xd n * 2 ^ sh ->
    wp (bi_of_mag c zd neg) (fun r => represents r z)) as Hfin.
  { intros zd Hzd Hzv. apply mag_result; auto. now rewrite Hzv. }
  pose proof (Bp_pos ds) as HBd. wstep.
  destruct (Z.eqb_spec sm 0) as [E|E].
  - eapply wp_for_up with (I := fun i zd =>
      length zd = (n + ds + 1)%nat /\ limbs zd /\ vl zd (i + ds) = vl xd i * Bp ds /\
      val (skipn (i + ds) zd) = 0).
    + rewrite length_zeros. split; [reflexivity|]. split; [apply limbs_zeros|].
      split; [rewrite vl_zeros, vl_0; ring|]. cbn [Nat.add].
      rewrite skipn_zeros. apply val_zeros.
    + intros i zd Hi (A & B & C & D). wstep. wstep; [lia|]. wstep; [lia|].
      rewrite length_upd. split; [assumption|].
      split; [apply limbs_upd; auto; now apply limbs_nth|].
      rewrite skipn_nth in D by lia. cbn [val] in D.
      pose proof (limbs_nth zd (i + ds) B) as H1. pose proof (val_bound _ (limbs_skipn (S (i + ds)) _ B)) as H2.
      unfold limb in H1. cbn [Nat.add]. split.
      * rewrite vl_upd_S by lia. rewrite (vl_S xd), C, Bp_add. ring.
      * rewrite skipn_upd by lia. num; lia.
    + intros zd (A & B & C & D). apply Hfin; auto.
      rewrite (val_split zd (0 + n + ds)) by lia. cbn [Nat.add] in *. rewrite D, C, Epow, E.
      change (2 ^ 0) with 1. ring.
  - wstep. eapply wp_for_up with (I := fun i st => let '(zd, carry) := st in
      length zd = (n + ds + 1)%nat /\ limbs zd /\
      vl zd (i + ds) + carry * Bp (i + ds) = vl xd i * 2 ^ sh /\
      0 <= carry < 2 ^ sm /\ val (skipn (i + ds) zd) = 0).
    + rewrite length_zeros. split; [reflexivity|]. split; [apply limbs_zeros|].
      pose proof (pow2_pos sm ltac:(lia)).
      split; [rewrite vl_zeros, vl_0; ring|]. split; [lia|]. cbn [Nat.add].
      rewrite skipn_zeros. apply val_zeros.
    + intros i (zd & carry) Hi (A & B & C & Hc & D).
      pose proof (limbs_nth xd i Hl) as Hx.
      destruct (shl_digit (nth i xd 0) sm Hx ltac:(lia)) as (hi & lo & E1 & E2 & Hhi & Hlo & E3).
      wstep. wstep; [lia|]. wstep. apply wp_shl32; [lia|]. rewrite E1.
      rewrite lor_add by lia. wstep. wstep; [lia|]. wstep. unfold kcbitUint.
      apply wp_shr32; [lia|]. rewrite E2. wstep.
      rewrite length_upd. split; [assumption|].
      assert (limb (lo * 2 ^ sm + carry)) as Hlim.
      { unfold limb. assert (2 ^ (32 - sm) * 2 ^ sm = W32) as HW.
        { rewrite <- Z.pow_add_r by lia. replace (32 - sm + sm) with 32 by lia. reflexivity. }
        assert ((lo + 1) * 2 ^ sm <= 2 ^ (32 - sm) * 2 ^ sm) by (apply Z.mul_le_mono_nonneg_r; lia).
        assert (0 <= lo * 2 ^ sm) by (apply Z.mul_nonneg_nonneg; lia). lia. }
      split; [apply limbs_upd; auto|].
      rewrite skipn_nth in D by lia. cbn [val] in D.
      pose proof (limbs_nth zd (i + ds) B) as H1. pose proof (val_bound _ (limbs_skipn (S (i + ds)) _ B)) as H2.
      unfold limb in H1. cbn [Nat.add]. split.
      * rewrite vl_upd_S by lia. rewrite (vl_S xd).
        replace ((vl xd i + nth i xd 0 * Bp i) * 2 ^ sh)
          with (vl xd i * 2 ^ sh + nth i xd 0 * Bp i * 2 ^ sh) by ring.
        rewrite <- C, Bp_S, Epow.
        replace (nth i xd 0 * Bp i * (Bp ds * 2 ^ sm)) with (nth i xd 0 * 2 ^ sm * Bp (i + ds)) by (rewrite Bp_add; ring).
        rewrite E3. ring.
      * split; [lia|]. rewrite skipn_upd by lia. num; lia.
    + intros (zd & carry) (A & B & C & Hc & D). cbn [Nat.add] in *.
      wstep; [lia|].
      assert (limb carry) as Hlim.
      { unfold limb. pose proof (Z.pow_le_mono_r 2 sm 32 ltac:(lia) ltac:(lia)) as H. change (2 ^ 32) with W32 in H. lia. }
      apply Hfin; [apply limbs_upd; auto|].
      rewrite val_upd by lia. rewrite (val_split zd (n + ds)) by lia. rewrite D.
      rewrite skipn_nth in D by lia. cbn [val] in D.
      pose proof (limbs_nth zd (n + ds) B) as H1. pose proof (val_bound _ (limbs_skipn (S (n + ds)) _ B)) as H2.
      unfold limb in H1. assert (nth (n + ds) zd 0 = 0) as -> by (num; lia).
      rewrite <- C. ring.
Qed.

Lemma parts_int c a x : represents a x ->
  exists xd, bi_parts c a = Ret (xd, x <? 0) /\ limbs xd /\ val xd = Z.abs x /\
    s32 (Z.of_nat (length xd)) = int_limbs x /\ Z.of_nat (length xd) = limbs_of x.
Proof.
  intros Ha. destruct (wp_inv _ _ (bi_parts_spec c a x Ha)) as ((xd & neg) & -> & Hneg & Hl & Hv & _ & Htriv & Hbig).
  cbn [fst snd] in *. subst neg. exists xd. split; [reflexivity|]. split; [exact Hl|]. split; [exact Hv|].
  assert (Z.of_nat (length xd) = limbs_of x) as L.
  { rewrite (limbs_of_length a x Ha). destruct (bits_of a) eqn:Eb; [rewrite Htriv by reflexivity; reflexivity|].
    rewrite Hbig by discriminate. cbn [length]. lia. }
  split; [|exact L]. unfold int_limbs. now rewrite int_of_s32, L.
Qed.

Lemma sgn_low x v : (if x <? 0 then - (v) else v) = Z.sgn x * v \/ x = 0.
Proof.
  destruct (Z.ltb_spec x 0); [left; rewrite Z.sgn_neg by lia; ring|].
  destruct (Z.eq_dec x 0); [now right|left]. rewrite Z.sgn_pos by lia. ring.
Qed.

Lemma low_zero r : low 0 r = 0.
Proof. unfold low. apply Zmod_0_l. Qed.

Lemma quot_32 n : 0 < n < 2147483648 -> 0 <= n / 32 < 67108864.
Proof. intros H. pose proof (Z.div_mod n 32 ltac:(lia)). pose proof (Z.mod_pos_bound n 32 ltac:(lia)). lia. Qed.

Lemma shl_pos_i_spec c a x n : represents a x -> 0 < n < 2147483648 ->
  sized_denotes (bi_shl_pos_i c a n) (shl_any c x n).
Proof.
  intros Ha Hn. unfold bi_shl_pos_i, shl_any.
  destruct (parts_int c a x Ha) as (xd & -> & Hl & Hv & Hr & Hlen). rewrite Hr.
  set (r := int_limbs x) in *. pose proof (int_of_range (limbs_of x)) as R. fold (int_limbs x) in R. fold r in R.
  pose proof (quot_32 n Hn) as Q. unfold kcbitUint. set (d := n / 32) in *. change (2 ^ 31) with 2147483648.
  destruct (Z.leb_spec 2147483648 (r + d + 1)) as [H1|H1].
  { assert ((t <- chk32 c (r + d) ;; chk32 c (t + 1)) =
      if strict c then Undef SignedOverflow else Ret (r + d + 1 - 4294967296)) as ->.
    { destruct (Z.eq_dec (r + d) 2147483647) as [E|E].
      - rewrite chk32_in by (unfold INT_MIN, INT_MAX; lia). cbn [bind]. rewrite chk32_wrap by (unfold INT_MAX; lia).
        rewrite (s32_shifted _ (r + d + 1 - 4294967296) 1) by (unfold INT_MIN, INT_MAX; lia). reflexivity.
      - rewrite chk32_wrap by (unfold INT_MAX; lia). destruct (strict c) eqn:Es; [reflexivity|]. cbn [bind].
        rewrite (s32_shifted _ (r + d - 4294967296) 1) by (unfold INT_MIN, INT_MAX; lia).
        rewrite chk32_in by (unfold INT_MIN, INT_MAX; lia). f_equal. ring. }
    destruct (strict c); [reflexivity|]. rewrite (proj2 (Z.ltb_lt _ 0)) by lia. exact I. }
  assert ((t <- chk32 c (r + d) ;; chk32 c (t + 1)) = Ret (r + d + 1)) as ->.
  { rewrite chk32_in by (unfold INT_MIN, INT_MAX; lia). cbn [bind]. apply chk32_in. unfold INT_MIN, INT_MAX; lia. }
  destruct (Z.ltb_spec (r + d + 1) 0) as [H2|H2]; [exact I|].
  assert (n - d * 32 = n mod 32) as ->.
  { pose proof (Z.div_mod n 32 ltac:(lia)) as D. fold d in D. lia. }
  pose proof (Z.mod_pos_bound n 32 ltac:(lia)) as M.
  assert (2 ^ n = Bp (Z.to_nat d) * 2 ^ (n mod 32)) as Epow.
  { rewrite Bp_pow2, Z2Nat.id, <- Z.pow_add_r by lia. f_equal. apply Z.div_mod. lia. }
  cbv zeta. destruct (Z.leb_spec 0 r) as [H3|H3].
  - cbn [sized_denotes denotes]. apply returns_wp.
    replace (Z.to_nat (r + d + 1)) with (Z.to_nat r + Z.to_nat d + 1)%nat by lia.
    apply (shl_loops c xd (Z.to_nat r) n (Z.to_nat d) (n mod 32) (x <? 0)); auto.
    + unfold r, int_limbs in *. pose proof (int_of_le (limbs_of x) ltac:(lia)). lia.
    + assert (r <= Z.of_nat (length xd)) as L.
      { unfold r, int_limbs in *. pose proof (int_of_le (limbs_of x) ltac:(lia)). lia. }
      rewrite <- (low_vl_all x xd r) by auto.
      destruct (sgn_low x (low x r * 2 ^ n)) as [->|E]; [ring|]. rewrite E, low_zero. reflexivity.
  - replace (Z.to_nat r) with O by lia. cbn [for_up bind].
    destruct (Z.eqb_spec (n mod 32) 0) as [E|E].
    + cbn [bind sized_denotes denotes]. apply returns_wp. apply mag_result; [apply limbs_zeros|].
      rewrite val_zeros. destruct (x <? 0); reflexivity.
    + cbn [sized_denotes denotes Nat.add]. unfold wr.
      rewrite (proj2 (Nat.ltb_ge (Z.to_nat d) _)); [reflexivity|]. rewrite length_zeros. lia.
Qed.

(** ** Right shift *)

(** The loops over the lowest [n] limbs. *)
Lemma shr_loops (w : list Z) n ds sm (neg : bool) top :
  limbs w -> (n <= length w)%nat -> (ds <= n)%nat -> 0 <= sm < 32 -> top = Z.of_nat n - 1 ->
  exists zd,
    (if sm =? 0 then for_down (n - ds) (fun k zd => x <- rd w (k + ds) ;; wr zd k x) (zeros (n - ds))
     else
       '(zd, _) <-
         for_down (n - ds) (fun k st =>
           let '(zd, carry) := st in
           let i := (k + ds)%nat in
           rot <- rd w i ;;
           lo <- shr32 rot sm ;;
           zd <-
             (if neg && (Z.of_nat i =? top)
              then m <- shl32 UINT_MAX (kcbitUint - sm) ;; wr zd k (Z.lor lo m)
              else wr zd k (Z.lor lo carry)) ;;
           carry <- shl32 rot (kcbitUint - sm) ;;
           Ret (zd, carry)) (zeros (n - ds), 0) ;;
       Ret zd) = Ret zd /\
    length zd = (n - ds)%nat /\ limbs zd /\
    val zd = vl w n / (Bp ds * 2 ^ sm) +
      (if neg && negb (sm =? 0) && negb (Nat.eqb (n - ds) 0)
       then (2 ^ sm - 1) * (2 ^ (32 - sm) * Bp (n - ds - 1)) else 0).
Proof.
  intros Hl Hn Hds Hsm ->. pose proof (Bp_pos ds) as HB. pose proof (pow2_pos sm ltac:(lia)) as HP.
  assert (length (firstn n w) = n) as Ln by (rewrite firstn_length; lia).
  assert (limbs (firstn n w)) as Lw by now apply limbs_firstn.
  destruct (Z.eqb_spec sm 0) as [E|E].
  - destruct (wp_inv _ _ (shr_copy (firstn n w) ds Lw ltac:(lia))) as (zd & Ez & A & B & C). rewrite Ln in *.
    exists zd. split; [|].
    { rewrite <- Ez. apply for_down_eq. intros i s Hi. rewrite rd_firstn by lia. reflexivity. }
    split; [exact A|]. split; [exact B|]. rewrite Bool.andb_false_r. cbn [andb negb]. rewrite C. fold (vl w n).
    rewrite E. change (2 ^ 0) with 1. rewrite Z.mul_1_r. ring.
  - destruct (wp_inv _ _ (shr_loop neg (firstn n w) ds sm Lw ltac:(lia) ltac:(lia))) as ((zd & carry) & Ez & A & B & C).
    cbn [fst] in *. rewrite Ln in *. exists zd. split; [|].
    { erewrite for_down_eq; [rewrite Ez; reflexivity|]. intros i (s & t) Hi. unfold shr_body. cbv zeta.
      rewrite rd_firstn by lia. rewrite Ln.
      replace (Z.of_nat (i + ds) =? Z.of_nat n - 1) with (Nat.eqb (i + ds) (n - 1)); [reflexivity|].
      destruct (Nat.eqb_spec (i + ds) (n - 1)), (Z.eqb_spec (Z.of_nat (i + ds)) (Z.of_nat n - 1)); auto; lia. }
    split; [exact A|]. split; [exact B|]. rewrite C. fold (vl w n). rewrite div_pow_nest by lia.
    destruct neg; reflexivity.
Qed.

Lemma shr_none (w : list Z) ds sm (neg : bool) top zl :
  (if sm =? 0 then for_down 0 (fun k zd => x <- rd w (k + ds) ;; wr zd k x) (zeros zl)
   else
     '(zd, _) <-
       for_down 0 (fun k st =>
         let '(zd, carry) := st in
         let i := (k + ds)%nat in
         rot <- rd w i ;;
         lo <- shr32 rot sm ;;
         zd <-
           (if neg && (Z.of_nat i =? top)
            then m <- shl32 UINT_MAX (kcbitUint - sm) ;; wr zd k (Z.lor lo m)
            else wr zd k (Z.lor lo carry)) ;;
         carry <- shl32 rot (kcbitUint - sm) ;;
         Ret (zd, carry)) (zeros zl, 0) ;;
     Ret zd) = Ret (zeros zl).
Proof. destruct (sm =? 0); reflexivity. Qed.

Lemma zero_mag c n (neg : bool) : returns (bi_of_mag c (zeros n) neg) 0.
Proof. apply returns_wp. apply mag_result; [apply limbs_zeros|]. rewrite val_zeros. destruct neg; reflexivity. Qed.

Lemma low_bound x r : 0 <= r -> 0 <= low x r < 2 ^ (32 * r).
Proof. intros H. unfold low. rewrite Z.max_r by lia. apply Z.mod_pos_bound. apply pow2_pos. lia. Qed.

Lemma nat_sub_z r d : 0 <= d <= r -> Z.to_nat (r - d) = (Z.to_nat r - Z.to_nat d)%nat.
Proof. lia. Qed.

(** Non-negative numbers. *)
Lemma shr_pos_i_nonneg c a x n : represents a x -> 0 <= x -> 0 < n < 2147483648 ->
  denotes (bi_shr_pos_i c a n) (shr_any c x n).
Proof.
  intros Ha Hx Hn. unfold bi_shr_pos_i, shr_any. rewrite (proj2 (Z.leb_le 0 x)) by exact Hx.
  destruct (parts_int c a x Ha) as (xd & -> & Hl & Hv & Hr & Hlen). cbn [bind].
  rewrite (proj2 (Z.ltb_ge x 0)) by exact Hx. cbn [bind andb]. rewrite Hr. cbv zeta.
  set (r := int_limbs x) in *. pose proof (int_of_range (limbs_of x)) as R. fold (int_limbs x) in R. fold r in R.
  assert (r <= Z.of_nat (length xd)) as Lr.
  { unfold r, int_limbs in *. pose proof (int_of_le (limbs_of x) ltac:(lia)). lia. }
  pose proof (quot_32 n Hn) as Q. unfold kcbitUint. set (d := n / 32) in *.
  assert (n - d * 32 = n mod 32) as ->.
  { pose proof (Z.div_mod n 32 ltac:(lia)) as D. fold d in D. lia. }
  pose proof (Z.mod_pos_bound n 32 ltac:(lia)) as M. set (sm := n mod 32) in *.
  assert (2 ^ n = Bp (Z.to_nat d) * 2 ^ sm) as Epow.
  { rewrite Bp_pow2, Z2Nat.id, <- Z.pow_add_r by lia. f_equal. apply Z.div_mod. lia. }
  change (- 2 ^ 31) with (-2147483648).
  assert (forall v, v <= Z.of_nat (length xd) -> 0 <= d <= v -> forall top, top = v - 1 ->
    returns (zd <- (if sm =? 0 then for_down (Z.to_nat (v - d)) (fun k zd => x <- rd xd (k + Z.to_nat d) ;; wr zd k x) (zeros (Z.to_nat (v - d)))
       else '(zd, _) <- for_down (Z.to_nat (v - d)) (fun k st =>
           let '(zd, carry) := st in
           rot <- rd xd (k + Z.to_nat d) ;;
           lo <- shr32 rot sm ;;
           zd <- wr zd k (Z.lor lo carry) ;;
           carry <- shl32 rot (32 - sm) ;;
           Ret (zd, carry)) (zeros (Z.to_nat (v - d)), 0) ;;
       Ret zd) ;; bi_of_mag c zd false) (low x v / 2 ^ n)) as Core.
  { intros v Hv1 Hv2 top Ht. rewrite nat_sub_z by lia.
    destruct (shr_loops xd (Z.to_nat v) (Z.to_nat d) sm false top Hl ltac:(lia) ltac:(lia) ltac:(lia) ltac:(lia)) as (zd & E & A & B & C).
    unfold kcbitUint in E. cbn [andb] in E. cbv zeta in E. rewrite E. cbn [bind]. apply returns_wp. apply mag_result; [exact B|].
    rewrite C, <- Epow. cbn [andb]. rewrite Z.add_0_r. rewrite (low_vl_all x xd v) by auto. reflexivity. }
  destruct (Z.eqb_spec r (-2147483648)) as [E|E].
  - (* the least int *)
    cbn [orb]. rewrite Bool.andb_true_r. destruct (strict c) eqn:Es.
    + cbn [denotes]. destruct (Z.eq_dec d 0) as [D|D].
      * rewrite chk32_in by (unfold INT_MIN, INT_MAX; lia). cbn [bind].
        rewrite chk32_wrap by (unfold INT_MIN, INT_MAX; lia). rewrite Es. reflexivity.
      * rewrite chk32_wrap by (unfold INT_MIN, INT_MAX; lia). rewrite Es. reflexivity.
    + assert (2147483648 <= Z.of_nat (length xd)) as Lbig.
      { destruct (Z.le_gt_cases 2147483648 (Z.of_nat (length xd))) as [G|G]; [exact G|exfalso].
        rewrite (s32_shifted (Z.of_nat (length xd)) (Z.of_nat (length xd)) 0) in Hr by (unfold INT_MIN, INT_MAX; lia). lia. }
      assert (chk32 c (r - 1) = Ret 2147483647) as ->.
      { rewrite chk32_wrap by (unfold INT_MIN, INT_MAX; lia). rewrite Es.
        rewrite (s32_shifted (r - 1) 2147483647 (-1)) by (unfold INT_MIN, INT_MAX; lia). reflexivity. }
      destruct (Z.ltb_spec n 32) as [N|N].
      * assert (d = 0) as D0 by (apply Z.div_small; lia). rewrite D0, Z.sub_0_r.
        rewrite chk32_in by (unfold INT_MIN, INT_MAX; lia). cbn [bind denotes].
        assert (sm = n) as Sn by (apply Z.mod_small; lia). rewrite Sn, (proj2 (Z.eqb_neq n 0)) by lia.
        replace (Z.to_nat r) with O by lia.
        assert (exists m, Z.to_nat (2147483647 + 1 - 0) = S m /\ Z.of_nat m = 2147483647) as (m & -> & Em).
        { exists (Z.to_nat 2147483647). lia. }
        cbn [for_down]. rewrite rd_ok by lia. cbn [bind]. unfold shr32.
        rewrite (proj2 (Z.leb_le 0 n)), (proj2 (Z.ltb_lt n 32)) by lia. reflexivity.
      * assert (1 <= d) as D1 by (apply Z.div_le_lower_bound; lia).
        rewrite chk32_wrap by (unfold INT_MIN, INT_MAX; lia). rewrite Es.
        rewrite (s32_shifted (r - d) (2147483648 - d) (-1)) by (unfold INT_MIN, INT_MAX; lia). cbn [bind denotes].
        change (2147483647 + 1) with 2147483648. change (2 ^ 31) with 2147483648.
        apply (Core 2147483648 Lbig ltac:(lia) 2147483647). reflexivity.
  - cbn [orb]. destruct (Z.ltb_spec (r - d) (-2147483648)) as [G|G].
    + rewrite Bool.andb_true_r. destruct (strict c) eqn:Es.
      { cbn [denotes]. rewrite chk32_wrap by (unfold INT_MIN, INT_MAX; lia). rewrite Es. reflexivity. }
      rewrite chk32_wrap by (unfold INT_MIN, INT_MAX; lia). rewrite Es. cbn [bind].
      rewrite chk32_in by (unfold INT_MIN, INT_MAX; lia). cbn [bind denotes].
      replace (Z.to_nat (r - 1 + 1 - d)) with O by lia.
      pose proof (shr_none xd (Z.to_nat d) sm false (r - 1) (Z.to_nat (s32 (r - d)))) as N. unfold kcbitUint in N.
      cbn [andb] in N. cbv zeta in N. rewrite N. cbn [bind]. rewrite low_none by lia.
      rewrite Z.div_0_l by (pose proof (pow2_pos n ltac:(lia)); lia). apply zero_mag.
    + rewrite Bool.andb_false_r. rewrite chk32_in by (unfold INT_MIN, INT_MAX; lia). cbn [bind].
      rewrite chk32_in by (unfold INT_MIN, INT_MAX; lia). cbn [bind denotes].
      replace (r - 1 + 1 - d) with (r - d) by ring.
      destruct (Z.le_gt_cases d r) as [K|K]; [apply (Core r Lr ltac:(lia) (r - 1)); reflexivity|].
      replace (Z.to_nat (r - d)) with O by lia.
      pose proof (shr_none xd (Z.to_nat d) sm false (r - 1) O) as N. unfold kcbitUint in N.
      cbn [andb] in N. cbv zeta in N. rewrite N. cbn [bind].
      replace (low x r / 2 ^ n) with 0; [apply zero_mag|]. symmetry. apply Z.div_small.
      destruct (Z.le_gt_cases 0 r) as [P|P]; [|rewrite low_none by lia; pose proof (pow2_pos n ltac:(lia)); lia].
      pose proof (low_bound x r P). pose proof (Z.pow_le_mono_r 2 (32 * r) n ltac:(lia)).
      pose proof (Z.div_mod n 32 ltac:(lia)) as D. fold d in D. lia.
Qed.
