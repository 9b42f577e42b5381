(** Proofs about words and bitwise operators for numbers of any size. *)
From Verif Require Import Machine Facts AddSubFacts Spec SpecFacts SpecApi SpecGcd SpecActual BigInt BigIntFacts CompareFacts
  ShiftFacts ConvFacts SpecPos PosFacts WordFacts BytesFacts BarrettFacts ActualFacts LeakyModPow RunExact IntSizes IntSizesFacts
  SpecLimbs IntLimbsFacts IntLimbsLaws IntConvFacts IntConvLaws IntAddLaws IntBits SpecIntBits.
Ltac Zify.zify_post_hook ::= idtac.

(** ** The number of words *)

Lemma words_cfits v n : (1 <= n)%nat -> cfits W32 n v <-> words v <= Z.of_nat n.
Proof.
  intros Hn. unfold cfits, words. rewrite bp_Bp, Bp_pow2. set (m := if v <? 0 then - v - 1 else v).
  assert (0 <= m) as M0 by (unfold m; destruct (Z.ltb_spec v 0); lia).
  assert (2 ^ (32 * Z.of_nat n) = 2 * 2 ^ (32 * Z.of_nat n - 1)) as E.
  { rewrite <- Z.pow_succ_r by lia. f_equal. lia. }
  rewrite E. assert (- (2 * 2 ^ (32 * Z.of_nat n - 1)) <= 2 * v < 2 * 2 ^ (32 * Z.of_nat n - 1) <-> m < 2 ^ (32 * Z.of_nat n - 1)) as ->.
  { unfold m. destruct (Z.ltb_spec v 0); pose proof (pow2_pos (32 * Z.of_nat n - 1) ltac:(lia)); lia. }
  pose proof (Z.log2_nonneg m) as L0.
  pose proof (Z.div_mod (Z.log2 m + 1) 32 ltac:(lia)) as D. pose proof (Z.mod_pos_bound (Z.log2 m + 1) 32 ltac:(lia)) as B.
  destruct (Z.eq_dec m 0) as [->|N].
  - split; intros _; [change (Z.log2 0) with 0 in *; lia|apply pow2_pos; lia].
  - rewrite (Z.log2_lt_pow2 m (32 * Z.of_nat n - 1)) by lia. lia.
Qed.

Lemma words_pos v : 1 <= words v.
Proof.
  unfold words. pose proof (Z.log2_nonneg (if v <? 0 then - v - 1 else v)).
  pose proof (Z.div_pos (Z.log2 (if v <? 0 then - v - 1 else v) + 1) 32). lia.
Qed.

Lemma words_length v l : limbs l -> complement W32 l = v -> l <> [] ->
  (forall n, (0 < n < length l)%nat -> ~ cfits W32 n v) -> words v = Z.of_nat (length l).
Proof.
  intros Hl Hv Hne H. assert (1 <= length l)%nat as L by (destruct l; [congruence|cbn [length]; lia]).
  assert (words v <= Z.of_nat (length l)) as U.
  { apply words_cfits; [exact L|]. rewrite <- Hv. apply complement_range; [apply W32_ok|apply W32_even|exact Hl]. }
  destruct (Z.eq_dec (words v) (Z.of_nat (length l))) as [E|N]; [exact E|exfalso].
  pose proof (words_pos v) as P. apply (H (Z.to_nat (words v))); [lia|]. apply words_cfits; lia.
Qed.

(** ** The scan and the trimmed array *)

Definition extra (w hz : Z) : bool := negb (Z.land w 2147483648 =? Z.land (hword hz) 2147483648).

Lemma trimmed_spec d hz m : limbs d -> hz = 0 \/ hz = 1 -> (m < length d)%nat ->
  exists k, scan_msb d (hword hz) m = Ret k /\ (k <= m)%nat /\
    let t := firstn (S k) d ++ (if extra (nth k d 0) hz then [hword hz] else []) in
    limbs t /\ complement W32 t = vl d (S m) - hz * Bp (S m) /\
    (forall n, (0 < n < length t)%nat -> ~ cfits W32 n (vl d (S m) - hz * Bp (S m))).
Proof.
  intros Hl Hz Hm. destruct (wp_inv _ _ (scan_msb_spec d hz m Hm Hz)) as (k & -> & A & B & C).
  exists k. split; [reflexivity|]. split; [exact A|]. cbv zeta. rewrite <- B. set (x := vl d (S k) - hz * Bp (S k)) in *.
  assert (x = vl d (S k) - hz * Bp (S k)) as B' by reflexivity. clearbody x. clear B. rename B' into B. symmetry in B.
  set (t := firstn (S k) d). set (w := nth k d 0) in *.
  assert (limb w) as Hw by (now apply limbs_nth).
  assert (limbs t) as Ht by (now apply limbs_firstn).
  assert (length t = S k) as Lt by (unfold t; rewrite firstn_length; lia).
  assert (last t 0 = w) as Hlast.
  { rewrite last_nth, Lt. unfold t. rewrite nth_firstn_lt by lia. unfold w. f_equal. lia. }
  assert (vl d (S k) = val t) as Et by reflexivity. rewrite Et in B.
  pose proof (val_bound t Ht) as Vt. rewrite Lt in Vt.
  assert (vl d (S k) = vl d k + w * Bp k) as Es by (rewrite vl_S by lia; unfold w; ring).
  pose proof (vl_bound d k Hl) as Vk. pose proof (Bp_pos k) as Pk.
  rewrite Et in Es. unfold extra.
  assert (Z.land (hword hz) 2147483648 = if hz =? 1 then 2147483648 else 0) as ->.
  { destruct Hz as [-> | ->]; reflexivity. }
  rewrite (land_high w Hw).
  assert (complement W32 (t ++ [hword hz]) = x) as Cext.
  { rewrite complement_snoc by apply W32_ok. rewrite pos_val, bp_Bp, Lt.
    replace (if W32 <=? 2 * hword hz then hword hz - W32 else hword hz) with (- hz); [rewrite <- B; ring|].
    destruct Hz as [-> | ->]; reflexivity. }
  assert (2147483648 <=? w = negb (hz =? 1) ->
    limbs (t ++ [hword hz]) /\ complement W32 (t ++ [hword hz]) = x /\
    forall n, (0 < n < length (t ++ [hword hz]))%nat -> ~ cfits W32 n x) as Hext.
  { intros Ew. split; [|split; [exact Cext|]].
    - apply limbs_app. split; [exact Ht|]. constructor; [|constructor].
      destruct Hz as [-> | ->]; unfold hword, UINT_MAX; num; cbn; lia.
    - intros n Hn F. rewrite app_length, Lt in Hn. cbn [length] in Hn.
      assert (cfits W32 (S k) x) as F' by (eapply cfits_le; [apply W32_ok| |exact F]; lia).
      unfold cfits in F'. rewrite bp_Bp, Bp_S in F'. rewrite Bp_S in B.
      destruct Hz as [-> | ->]; cbn in Ew.
      + apply Z.leb_le in Ew.
        assert (2147483648 * Bp k <= w * Bp k) by (apply Z.mul_le_mono_nonneg_r; lia).
        num; lia.
      + apply Z.leb_gt in Ew.
        assert (w * Bp k <= 2147483647 * Bp k) by (apply Z.mul_le_mono_nonneg_r; lia).
        num; lia. }
  assert (2147483648 <=? w = (hz =? 1) ->
    limbs (t ++ []) /\ complement W32 (t ++ []) = x /\
    forall n, (0 < n < length (t ++ []))%nat -> ~ cfits W32 n x) as Hno.
  { intros Ew. rewrite app_nil_r. split; [exact Ht|]. split.
    - unfold complement. rewrite Hlast, Lt, pos_val. fold (bp W32 (S k)). rewrite bp_Bp.
      replace (W32 <=? 2 * w) with (2147483648 <=? w).
      2:{ destruct (Z.leb_spec 2147483648 w), (Z.leb_spec W32 (2 * w)); num; lia. }
      rewrite Ew. destruct Hz as [-> | ->]; cbn -[Z.mul Bp] in *; lia.
    - rewrite Lt. intros n Hn F. destruct C as [-> | C]; [lia|].
      assert (cfits W32 k x) as F' by (eapply cfits_le; [apply W32_ok| |exact F]; lia).
      unfold cfits in F'. rewrite bp_Bp in F'. rewrite Bp_S in B. unfold hword, UINT_MAX in C.
      destruct Hz as [-> | ->]; cbn in Ew, C.
      + unfold limb in Hw. assert (1 * Bp k <= w * Bp k) by (apply Z.mul_le_mono_nonneg_r; lia). lia.
      + assert (w * Bp k <= 4294967294 * Bp k) by (apply Z.mul_le_mono_nonneg_r; [lia|num; lia]). num; lia. }
  destruct (2147483648 <=? w) eqn:Ew, (hz =? 1) eqn:Eh; cbn [Z.eqb negb Pos.eqb]; auto.
Qed.

(** ** to_uint32_array *)

Definition words_of (o : sized (list Z)) (z : sized Z) : Prop :=
  match z with
  | Sized (Ret v) => exists l, o = Sized (Ret l) /\ limbs l /\ complement W32 l = v /\ Z.of_nat (length l) < 2147483648
  | Sized (Throw e) => o = Sized (Throw e)
  | Sized (Undef u) => o = Sized (Undef u)
  | Sized AssertFail => o = Sized AssertFail
  | Sized NoFuel => o = Sized NoFuel
  | LengthError => o = LengthError
  end.

Lemma limbs_of_small x : Z.abs x < 2147483648 -> limbs_of x = 1.
Proof.
  intros H. destruct (limbs_of_count x) as (L1 & _ & L). specialize (L 1 ltac:(lia)). unfold fits_limbs in L.
  change (2 ^ (32 * 1)) with 4294967296 in L. specialize (L ltac:(lia)). lia.
Qed.

(** The words before trimming. *)
Lemma pre_words s bits x : represents (Big s bits) x -> x <> 0 ->
  exists d hz, (if is_nil bits then Ret ([u32 s], if s <? 0 then UINT_MAX else 0)
       else if s =? -1 then d <- make_twos_complement bits ;; Ret (d, UINT_MAX)
       else Ret (bits, 0)) = Ret (d, hword hz) /\ (hz = 0 \/ hz = 1) /\ (hz = 1 <-> x < 0) /\ limbs d /\
    Z.of_nat (length d) = limbs_of x /\ val d - hz * Bp (length d) = x.
Proof.
  intros Ha Hx. destruct (Z.lt_ge_cases (Z.abs x) 2147483648) as [S|G].
  - pose proof (short_parts _ x Ha S) as E. injection E as -> ->. cbn [is_nil]. rewrite (limbs_of_small x S).
    exists [u32 x], (if x <? 0 then 1 else 0). cbn [length val]. rewrite Bp_S, Bp_0. unfold u32.
    destruct (Z.ltb_spec x 0) as [G|G].
    + split; [reflexivity|]. split; [now right|]. split; [lia|].
      replace (x mod W32) with (x + W32) by (apply (Z.mod_unique_pos _ _ (-1)); num; lia).
      split; [constructor; [num; lia|constructor]|]. split; [reflexivity|]. num; lia.
    + split; [reflexivity|]. split; [now left|]. split; [lia|].
      rewrite Z.mod_small by (num; lia).
      split; [constructor; [num; lia|constructor]|]. split; [reflexivity|]. num; lia.
  - destruct (long_parts _ x Ha G) as (s' & l & E & Hs & Hne & Hl & Ht & Hv & Es & L). injection E as <- <-.
    rewrite is_nil_ne by exact Hne. destruct (Z.eqb_spec s (-1)) as [E|E].
    + pose proof (make_twos_complement_spec bits Hl) as W. apply wp_inv in W. destruct W as (d & -> & A & B & C).
      cbn [bind]. exists d, 1. split; [reflexivity|]. split; [now right|].
      assert (x < 0) as N by (rewrite E in Es; destruct (Z.sgn_spec x) as [(?&?)|[(?&?)|(?&?)]]; lia).
      split; [lia|]. split; [exact B|]. split; [rewrite A; symmetry; exact L|].
      rewrite C, A. rewrite (proj2 (Z.eqb_neq _ _)) by lia. lia.
    + exists bits, 0. split; [reflexivity|]. split; [now left|].
      assert (0 < x) as P by (destruct Hs as [Hs|Hs]; [|congruence]; rewrite Hs in Es; destruct (Z.sgn_spec x) as [(?&?)|[(?&?)|(?&?)]]; lia).
      split; [lia|]. split; [exact Hl|]. split; [symmetry; exact L|]. lia.
Qed.

Lemma cut_words d hz x r : limbs d -> (hz = 0 \/ hz = 1) -> (hz = 1 <-> x < 0) -> val d - hz * Bp (length d) = x ->
  (r <= length d)%nat -> vl d r - hz * Bp r = cut x (Z.of_nat r).
Proof.
  intros Hl Hz Hs Hv Hr. unfold cut. rewrite <- Bp_pow2.
  assert (x mod Bp r = vl d r) as ->.
  { rewrite (vl_mod d r (length d)) by (auto; lia). rewrite vl_all. rewrite <- Hv.
    replace (length d) with ((length d - r) + r)%nat at 1 by lia. rewrite Bp_add.
    replace (val d - hz * (Bp (length d - r) * Bp r)) with (val d + - (hz * Bp (length d - r)) * Bp r) by ring.
    apply Z.mod_add. pose proof (Bp_pos r). lia. }
  destruct (Z.ltb_spec x 0), Hz as [-> | ->]; lia.
Qed.

Theorem to_words_i c a x : represents a x -> words_of (bi_to_uint32_array_i c a) (worded c x).
Proof.
  intros Ha. destruct (Z.eq_dec x 0) as [->|Hx].
  { rewrite (short_parts a 0 Ha) by (cbn; lia). exists []. split; [reflexivity|]. split; [constructor|].
    split; [reflexivity|]. cbn [length]. lia. }
  destruct a as [s bits]. unfold bi_to_uint32_array_i. cbn [sign_of bits_of].
  replace (is_nil bits && (s =? 0)) with false.
  2:{ symmetry. apply Bool.andb_false_iff. destruct bits as [|b0 bits0]; [right|now left]. apply Z.eqb_neq. intros ->.
      apply represents_view in Ha. inversion Ha; congruence. }
  destruct (pre_words s bits x Ha Hx) as (d & hz & -> & Hz & Hs & Hl & Ln & Hv). cbn [then_sized].
  destruct (limbs_of_count x) as (L1 & _). unfold worded. cbv zeta. rewrite int_of_s32, <- Ln.
  set (start := s32 (Z.of_nat (length d) - 1)). rewrite <- Ln in L1.
  pose proof (s32_range (Z.of_nat (length d) - 1)) as RG. fold start in RG. unfold INT_MIN, INT_MAX in RG.
  assert (start <= Z.of_nat (length d) - 1) as SL.
  { unfold start. rewrite <- int_of_s32. apply int_of_le. lia. }
  change (2 ^ 31) with 2147483648.
  destruct (Z.leb_spec (start + 1) 0) as [N|P].
  { rewrite (proj2 (Z.ltb_ge 0 start)) by lia. cbn [bind]. unfold rdz. now rewrite (proj2 (Z.ltb_lt start 0)) by lia. }
  destruct (trimmed_spec d hz (Z.to_nat start) Hl Hz ltac:(lia)) as (k & Ek & Hk & T). cbv zeta in T.
  rewrite (cut_words d hz x (S (Z.to_nat start)) Hl Hz Hs Hv ltac:(lia)) in T.
  replace (Z.of_nat (S (Z.to_nat start))) with (start + 1) in T by lia.
  set (v := cut x (start + 1)) in *. destruct T as (T1 & T2 & T3).
  set (t := firstn (S k) d ++ (if extra (nth k d 0) hz then [hword hz] else [])) in *.
  assert ((if 0 <? start then k <- scan_msb d (hword hz) (Z.to_nat start) ;; Ret (Z.of_nat k) else Ret start) = Ret (Z.of_nat k)) as ->.
  { destruct (Z.ltb_spec 0 start); [now rewrite Ek|]. assert (start = 0) as -> by lia. cbn [Z.to_nat] in Hk. f_equal. lia. }
  cbn [bind]. unfold rdz. rewrite (proj2 (Z.ltb_ge (Z.of_nat k) 0)) by lia. rewrite Nat2Z.id, rd_ok by lia. cbn [bind then_sized].
  fold (extra (nth k d 0) hz).
  set (e := extra (nth k d 0) hz) in *.
  assert (length t = (S k + if e then 1 else 0)%nat) as Lt.
  { unfold t. rewrite app_length, firstn_length. destruct e; cbn [length]; lia. }
  assert (words v = Z.of_nat (length t)) as W.
  { apply words_length; auto. intros E. rewrite E in Lt. cbn [length] in Lt. lia. }
  rewrite W.
  assert (Z.of_nat (length t) = Z.of_nat k + 1 + (if e then 1 else 0)) as Lz by (destruct e; lia).
  destruct (Z.leb_spec 2147483648 (Z.of_nat (length t))) as [Big|Small].
  - assert ((n <- chk32 c (Z.of_nat k + 1);; chk32 c (n + (if e then 1 else 0))) =
      if strict c then Undef SignedOverflow else Ret (s32 (Z.of_nat (length t)))) as ->.
    { destruct (Z.eq_dec (Z.of_nat k + 1) 2147483648) as [E|N].
      - rewrite E, chk32_wrap by (unfold INT_MIN, INT_MAX; lia). destruct (strict c); [reflexivity|]. cbn [bind].
        change (s32 2147483648) with (-2147483648). rewrite chk32_ok by (unfold INT_MIN, INT_MAX; destruct e; lia).
        f_equal. symmetry. apply (s32_shifted _ _ 1); [destruct e; lia|unfold INT_MIN, INT_MAX; destruct e; lia].
      - rewrite chk32_ok by (unfold INT_MIN, INT_MAX; lia). cbn [bind]. rewrite Lz. apply chk32_wrap. unfold INT_MIN, INT_MAX; destruct e; lia. }
    destruct (strict c); [reflexivity|]. cbn [then_sized].
    rewrite (proj2 (Z.ltb_lt (s32 (Z.of_nat (length t))) 0)); [reflexivity|].
    rewrite (s32_shifted _ (Z.of_nat (length t) - 4294967296) 1); [destruct e; lia|lia|unfold INT_MIN, INT_MAX; destruct e; lia].
  - rewrite chk32_ok by (unfold INT_MIN, INT_MAX; destruct e; lia). cbn [bind].
    rewrite chk32_ok by (unfold INT_MIN, INT_MAX; destruct e; lia). cbn [then_sized].
    rewrite (proj2 (Z.ltb_ge _ 0)) by (destruct e; lia). rewrite Nat2Z.id.
    exists t. split; [|split; [exact T1|split; [exact T2|lia]]]. f_equal.
    assert (slice d 0 (k + 1) = Ret (firstn (S k) d)) as ->.
    { unfold slice. cbn [skipn]. destruct (Nat.leb_spec (0 + (k + 1)) (length d)); [|lia]. do 2 f_equal. lia. }
    cbn [bind]. unfold t. destruct e; [reflexivity|]. now rewrite app_nil_r.
Qed.

(** ** BigInteger(uint_array) *)

Lemma trim_len_same l n : trim_len_i l (Z.of_nat n) = (k <- trim_len l n ;; Ret (Z.of_nat k)).
Proof. unfold trim_len_i. destruct (Z.ltb_spec 0 (Z.of_nat n)); [now rewrite Nat2Z.id|]. now replace n with O by lia. Qed.

Lemma of_nat_eqb n m : (Z.of_nat n =? Z.of_nat m) = Nat.eqb n m.
Proof. destruct (Nat.eqb_spec n m); [apply Z.eqb_eq|apply Z.eqb_neq]; lia. Qed.

Lemma of_dwords_same c l : limbs l -> Z.of_nat (length l) < 2147483648 -> bi_of_dwords_i c l = bi_of_dwords c l.
Proof.
  intros Hl H. unfold bi_of_dwords_i, bi_of_dwords. cbv zeta. rewrite s32_small by (unfold INT_MIN, INT_MAX; lia).
  apply bind_eq.
  { destruct (Z.ltb_spec 0 (Z.of_nat (length l))) as [P|P], (Nat.ltb_spec 0 (length l)); try lia; [|reflexivity].
    unfold rdz. rewrite (proj2 (Z.ltb_ge (Z.of_nat (length l) - 1) 0)) by lia.
    now replace (Z.to_nat (Z.of_nat (length l) - 1)) with (length l - 1)%nat by lia. }
  intros neg _. rewrite trim_len_same. destruct (trim_len l (length l)) as [k| | | |]; try reflexivity. cbn [bind].
  change 0 with (Z.of_nat 0) at 1. change 1 with (Z.of_nat 1) at 1. rewrite !of_nat_eqb, !Nat2Z.id.
  destruct (Nat.eqb k 0); [reflexivity|]. destruct (Nat.eqb k 1); [reflexivity|]. destruct neg; [|reflexivity]. cbn [negb].
  apply bind_eq; [reflexivity|]. intros d Ed.
  assert (length d = length l) as E.
  { pose proof (make_twos_complement_spec l Hl) as W. rewrite Ed in W. apply wp_inv in W. destruct W as (d' & E & A & _). congruence. }
  rewrite E. rewrite s32_small by (unfold INT_MIN, INT_MAX; lia). rewrite trim_len_same.
  destruct (trim_len d (length l)) as [j| | | |]; try reflexivity. cbn [bind].
  apply bind_eq; [reflexivity|]. intros v0 _. change 1 with (Z.of_nat 1) at 1. now rewrite !of_nat_eqb, Nat2Z.id.
Qed.

(** ** The operators *)

Lemma cut_sign x r : 0 <= r -> (cut x r <? 0) = (x <? 0).
Proof.
  intros Hr. unfold cut. pose proof (Z.mod_pos_bound x (2 ^ (32 * r)) (pow2_pos (32 * r) ltac:(lia))).
  destruct (x <? 0); [apply Z.ltb_lt|apply Z.ltb_ge]; lia.
Qed.

Lemma worded_sign c x v : worded c x = Sized (Ret v) -> (v <? 0) = (x <? 0).
Proof.
  unfold worded. cbv zeta. set (r := int_of (limbs_of x - 1) + 1). destruct (Z.leb_spec r 0); [discriminate|].
  destruct (2 ^ 31 <=? words (cut x r)); [destruct (strict c); discriminate|]. intros E. injection E as <-. apply cut_sign. lia.
Qed.

Theorem bitop_words_i_spec c op a b x y : bitop op -> represents a x -> represents b y ->
  sized_denotes (bi_bitop_words_i c op a b) (bitwise_any c op x y).
Proof.
  intros Ho Ha Hb. unfold bi_bitop_words_i, bitwise_any.
  pose proof (to_words_i c a x Ha) as Wx. pose proof (to_words_i c b y Hb) as Wy.
  pose proof (worded_sign c x) as Sx. pose proof (worded_sign c y) as Sy.
  destruct (worded c x) as [ox|]; [|rewrite Wx; exact I].
  destruct ox as [v|e|u| |]; try (cbn in Wx; rewrite Wx; reflexivity).
  destruct Wx as (lx & -> & Lx & Cx & Nx). cbn [after_sized then_sized].
  destruct (worded c y) as [oy|]; [|cbn in Wy; rewrite Wy; exact I].
  destruct oy as [w|e|u| |]; try (cbn in Wy; rewrite Wy; reflexivity).
  destruct Wy as (ly & -> & Ly & Cy & Ny). cbn [after_sized then_sized sized_denotes denotes].
  rewrite (repr_sign_ltb _ _ Ha), (repr_sign_ltb _ _ Hb), <- (Sx v eq_refl), <- (Sy w eq_refl). clear Sx Sy Ha Hb.
  cbv zeta. rewrite length_zeros. set (n := Nat.max (length lx) (length ly)). apply returns_wp.
  wstep. eapply wp_mono with (P := fun z => length z = n /\ limbs z /\
    forall i, (i < n)%nat -> nth i z 0 = (op v w / Bp i) mod W32).
  - eapply wp_for_up with (I := fun i z => length z = n /\ limbs z /\
      forall j, (j < i)%nat -> nth j z 0 = (op v w / Bp j) mod W32).
    + rewrite length_zeros. split; [reflexivity|]. split; [apply limbs_zeros|]. lia.
    + intros i z Hi (A & B & C). cbn [Nat.add] in *.
      wstep. eapply wp_mono; [apply ext_rd; now right|]. cbn beta. intros xu ->.
      wstep. eapply wp_mono; [apply ext_rd; now right|]. cbn beta. intros yu ->.
      assert (op (ext W32 lx (v <? 0) i) (ext W32 ly (w <? 0) i) = (op v w / Bp i) mod W32) as E.
      { pose proof (complement_ext W32 W32_ok W32_even lx i Lx) as E1. rewrite Cx in E1.
        pose proof (complement_ext W32 W32_ok W32_even ly i Ly) as E2. rewrite Cy in E2.
        rewrite E1, E2, bp_Bp. change W32 with (2 ^ 32). rewrite (bo_mod _ Ho) by lia. f_equal.
        rewrite Bp_pow2. symmetry. apply (bo_shift _ Ho). lia. }
      rewrite E. wstep; [lia|].
      split; [now rewrite length_upd|].
      split; [apply limbs_upd; [exact B|]; unfold limb; apply Z.mod_pos_bound; reflexivity|].
      intros j Hj. destruct (Nat.eq_dec j i) as [->|Hn].
      * rewrite nth_upd_same by lia. reflexivity.
      * rewrite nth_upd_other by lia. apply C. lia.
    + intros z (A & B & C). auto.
  - intros z (A & B & C).
    assert (complement W32 z = op v w) as E.
    { apply complement_unique; [apply W32_ok|apply W32_even|exact B| |rewrite A; exact C].
      rewrite A. apply bitop_cfits; [exact Ho| |].
      - rewrite <- Cx. eapply cfits_le; [apply W32_ok| |apply complement_range; [apply W32_ok|apply W32_even|exact Lx]]. lia.
      - rewrite <- Cy. eapply cfits_le; [apply W32_ok| |apply complement_range; [apply W32_ok|apply W32_even|exact Ly]]. lia. }
    rewrite <- E. rewrite of_dwords_same by (auto; lia). now apply of_words_spec.
Qed.
