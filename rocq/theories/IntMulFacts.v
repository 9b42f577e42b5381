(** Proofs about multiplication with lengths kept in [int]. *)
From Verif Require Import Machine Facts Spec AddSubFacts SquMulFacts SpecFacts BigIntFacts
  CompareFacts ConvFacts SpecApi SpecGcd BigInt CalcSquMul RunExact LeakyModPow SpecActual ActualFacts
  IntSizes SpecSizes IntSizesFacts IntLimbs SpecLimbs IntLimbsFacts IntConvFacts BytesFacts IntAdd SpecIntAdd IntAddFacts
  IntAddLaws IntBitsFacts IntDiv SpecIntDiv IntDivFacts IntMul SpecIntMul.
Ltac Zify.zify_post_hook ::= idtac.

Lemma s32_plus m n : s32 (s32 m + s32 n) = s32 (m + n).
Proof.
  rewrite <- !int_of_s32. unfold int_of. cbv zeta. change (2 ^ 31) with 2147483648. change (2 ^ 32) with 4294967296.
  replace (((m + 2147483648) mod 4294967296 - 2147483648) + ((n + 2147483648) mod 4294967296 - 2147483648) + 2147483648)
    with ((m + 2147483648) mod 4294967296 + ((n + 2147483648) mod 4294967296 + -2147483648)) by ring.
  f_equal. rewrite Z.add_mod_idemp_l by discriminate.
  rewrite Z.add_comm, <- Z.add_assoc, Z.add_mod_idemp_l by discriminate. f_equal. ring.
Qed.

(** ** Grammar school *)
(** The inner loop leaves the limbs above alone. *)
Lemma mul_inner_rest lv rv i bits :
  limbs lv -> limbs rv -> limbs bits ->
  (i < length rv)%nat -> (i + length lv <= length bits)%nat ->
  wp (mul_inner lv rv i bits) (fun st =>
    let '(b, carry) := st in
    length b = length bits /\ limbs b /\ limb carry /\
    vl b (i + length lv) + carry * Bp (i + length lv) = vl bits (i + length lv) + val lv * nth i rv 0 * Bp i /\
    skipn (i + length lv) b = skipn (i + length lv) bits).
Proof.
  intros Hl Hr Hbits Hi Hlen.
  assert (wp (mul_inner lv rv i bits) (fun st => length (fst st) = length bits /\ skipn (i + length lv) (fst st) = skipn (i + length lv) bits)) as A.
  { unfold mul_inner. eapply wp_for_up with (I := fun j (st : list Z * Z) =>
      length (fst st) = length bits /\ skipn (i + j) (fst st) = skipn (i + j) bits).
    - split; reflexivity.
    - intros j [b carry] Hj (Hb & Hs). cbn [fst] in *. repeat wstep; try lia. cbn [fst].
      split; [rewrite length_upd; lia|]. replace (i + S j)%nat with (S (i + j)) by lia.
      rewrite skipn_upd by lia. now apply skipn_S_eq.
    - intros [b carry] H. exact H. }
  pose proof (mul_inner_spec lv rv i bits Hl Hr Hbits Hi Hlen) as B.
  apply wp_inv in A as ([b carry] & E & A1 & A2). rewrite E in *. cbn [wp fst] in *. tauto.
Qed.

Lemma for_up_stops {S : Type} (I : nat -> S -> Prop) k n start body (s : S) e :
  (k < n)%nat -> I start s ->
  (forall i s, (start <= i < start + k)%nat -> I i s -> wp (body i s) (I (Datatypes.S i))) ->
  (forall s, I (start + k)%nat s -> body (start + k)%nat s = Undef e) ->
  for_up n start body s = Undef e.
Proof.
  revert n start s. induction k as [|k IH]; intros n start s Hn H0 Hb Hs; (destruct n as [|n]; [lia|]); cbn [for_up].
  - rewrite Nat.add_0_r in Hs. now rewrite (Hs s H0).
  - pose proof (Hb start s ltac:(lia) H0) as W. apply wp_inv in W as (s' & -> & W). cbn [bind].
    apply IH; [lia|exact W| |].
    + intros i t Hi. apply Hb. lia.
    + intros t. replace (Datatypes.S start + k)%nat with (start + Datatypes.S k)%nat by lia. apply Hs.
Qed.

Section school.
Variables (c : cfg) (left right : list Z) (l r : Z) (total : nat).
Hypothesis (Hl : limbs left) (Hr : limbs right).
Hypothesis (Bl : 0 <= l <= Z.of_nat (length left)) (Br : r <= Z.of_nat (length right)).
Hypothesis (Bt : l + r <= Z.of_nat total).
Let lv := firstn (Z.to_nat l) left.

Definition school_inv (i : nat) (b : list Z) : Prop :=
  length b = total /\ limbs b /\ vl b (i + Z.to_nat l) = val lv * vl right i /\
  skipn (i + Z.to_nat l) b = zeros (total - (i + Z.to_nat l)).

Lemma lv_length : length lv = Z.to_nat l.
Proof. unfold lv. apply firstn_length_le. lia. Qed.

Lemma school_start : school_inv 0 (zeros total).
Proof.
  unfold school_inv. rewrite length_zeros, skipn_zeros. repeat split; auto using limbs_zeros.
  rewrite vl_0, Z.mul_0_r. destruct (Nat.le_gt_cases (0 + Z.to_nat l) total).
  - unfold vl. rewrite firstn_zeros by lia. apply val_zeros.
  - unfold vl. rewrite firstn_all2 by (rewrite length_zeros; lia). apply val_zeros.
Qed.

Lemma school_round i b : Z.of_nat i < r -> school_inv i b ->
  wp (mul_inner lv right i b) (fun st =>
    let '(b', carry) := st in
    length b' = total /\ limb carry /\ limbs b' /\ school_inv (S i) (upd b' (i + Z.to_nat l) (u32 carry))).
Proof.
  intros Hi (Hb & Hlb & Hv & Hs). pose proof lv_length as LV.
  eapply wp_mono; [apply mul_inner_rest; auto; [apply limbs_firstn, Hl|lia|rewrite LV; lia]|].
  intros [b' carry] (A1 & A2 & A3 & A4 & A5). rewrite LV in *. split; [lia|]. split; [exact A3|]. split; [exact A2|].
  unfold school_inv. repeat split.
  - rewrite length_upd; lia.
  - apply limbs_upd; [assumption|apply u32_limb].
  - replace (S i + Z.to_nat l)%nat with (S (i + Z.to_nat l)) by lia.
    rewrite vl_upd_S, vl_S by lia. rewrite u32_small by (num; lia). rewrite A4, Hv. ring.
  - replace (S i + Z.to_nat l)%nat with (S (i + Z.to_nat l)) by lia. rewrite skipn_upd by lia.
    rewrite Hs, <- skipn_zeros in A5. rewrite <- skipn_zeros. now apply skipn_S_eq.
Qed.

Lemma school_step i b : Z.of_nat i < r -> Z.of_nat i + l <= 2147483647 -> school_inv i b ->
  wp ('(bits, carry) <- mul_inner lv right i b ;; k <- chk32 c (Z.of_nat i + l) ;; wrz bits k (u32 carry)) (school_inv (S i)).
Proof.
  intros Hi Hk H. wstep. eapply wp_mono; [apply school_round; eauto|].
  intros [b' carry] (A & B & C & D). rewrite chk32_ok by (unfold INT_MIN, INT_MAX; lia). cbn [bind].
  unfold wrz. rewrite (proj2 (Z.ltb_ge _ _)) by lia. replace (Z.to_nat (Z.of_nat i + l)) with (i + Z.to_nat l)%nat by lia.
  wstep; [|exact D]. lia.
Qed.

Lemma school_whole : l + r <= 2147483648 ->
  wp (mul_school_i c left l right r (zeros total)) (fun b =>
    length b = total /\ limbs b /\ val b = vl left (Z.to_nat l) * vl right (Z.to_nat r)).
Proof.
  intros G. unfold mul_school_i. fold lv. eapply wp_for_up with (I := school_inv).
  - apply school_start.
  - intros i b Hi H. apply school_step; auto; lia.
  - intros b (A & B & D & E). rewrite Nat.add_0_l in *. split; [exact A|]. split; [exact B|].
    destruct (Nat.le_gt_cases (Z.to_nat r + Z.to_nat l) (length b)) as [F|F].
    + rewrite (val_split b _ F), D, E, val_zeros. unfold lv, vl. ring.
    + rewrite vl_ge in D by lia. exact D.
Qed.

Lemma school_past : 2147483648 < l + r -> l < 2147483648 ->
  mul_school_i c left l right r (zeros total) = Undef (if strict c then SignedOverflow else OutOfBounds).
Proof.
  intros G L. unfold mul_school_i. fold lv. apply for_up_stops with (I := school_inv) (k := Z.to_nat (2147483648 - l)).
  - lia.
  - apply school_start.
  - intros i b Hi H. apply school_step; auto; lia.
  - intros b H. rewrite Nat.add_0_l in *. pose proof (school_round (Z.to_nat (2147483648 - l)) b ltac:(lia) H) as W.
    apply wp_inv in W as ([b' carry] & -> & _). cbn [bind].
    replace (Z.of_nat (Z.to_nat (2147483648 - l)) + l) with 2147483648 by lia. unfold chk32.
    change ((INT_MIN <=? 2147483648) && (2147483648 <=? INT_MAX)) with false. cbn [andb].
    destruct (strict c); reflexivity.
Qed.
End school.

(** A negative left length: the carry of the first round has a negative index. *)
Lemma school_negative c left l right r bits : l < 0 -> -2147483648 <= l -> 1 <= r ->
  mul_school_i c left l right r bits = Undef OutOfBounds.
Proof.
  intros L M R. unfold mul_school_i. replace (Z.to_nat l) with O by lia.
  destruct (Z.to_nat r) as [|n] eqn:E; [lia|]. cbn [for_up firstn mul_inner length bind].
  rewrite chk32_ok by (unfold INT_MIN, INT_MAX; lia). cbn [bind]. unfold wrz. now rewrite (proj2 (Z.ltb_lt _ _)) by lia.
Qed.

(** ** The cores *)
Lemma half_even n : 32 <= n -> 1 <= Z.shiftr n 1 /\ Z.shiftl (Z.shiftr n 1) 1 = 2 * Z.shiftr n 1 /\
  2 * Z.shiftr n 1 <= n <= 2 * Z.shiftr n 1 + 1.
Proof.
  intros H. rewrite Z.shiftr_div_pow2, Z.shiftl_mul_pow2 by lia. change (2 ^ 1) with 2.
  pose proof (Z.div_mod n 2 ltac:(lia)). pose proof (Z.mod_pos_bound n 2 ltac:(lia)). lia.
Qed.

Lemma low_product c left right n bits total : limbs left -> limbs right -> 0 <= n -> n <= Z.of_nat (length left) ->
  n <= Z.of_nat (length right) -> bits = zeros total -> 2 * n <= Z.of_nat total ->
  forall A (k : list Z -> outcome A), exists b, length b = total /\ skipn (Z.to_nat (2 * n)) b = zeros (total - Z.to_nat (2 * n)) /\
  (leftLow <- slice left 0 (Z.to_nat n) ;;
   rightLow <- slice right 0 (Z.to_nat n) ;;
   bitsLow <- slice bits 0 (Z.to_nat (2 * n)) ;;
   bitsLow <- calc_mul_core (S (length rightLow)) c leftLow rightLow bitsLow ;;
   bits <- splice bits 0 bitsLow ;; k bits) = k b.
Proof.
  intros Hl Hr N0 NL NR -> NT A k. rewrite !slice_low by (rewrite ?length_zeros; lia). cbn [bind].
  set (lv := firstn (Z.to_nat n) left). set (rv := firstn (Z.to_nat n) right).
  assert (length lv = Z.to_nat n) as LL by (unfold lv; apply firstn_length_le; lia).
  assert (length rv = Z.to_nat n) as LR by (unfold rv; apply firstn_length_le; lia).
  rewrite firstn_zeros by lia. replace (Z.to_nat (2 * n)) with (length lv + length rv)%nat by lia.
  assert (wp (calc_mul_core (S (length rv)) c lv rv (zeros (length lv + length rv))) (fun p => length p = (length lv + length rv)%nat)) as W.
  { eapply wp_mono; [apply calc_mul_core_spec; [apply limbs_firstn, Hl|apply limbs_firstn, Hr|lia|lia]|]. intros p (P & _). exact P. }
  apply wp_inv in W as (p & -> & P). cbn [bind]. unfold splice. rewrite length_zeros, P, (proj2 (Nat.leb_le _ _)) by lia. cbn [bind firstn app].
  rewrite Nat.add_0_l, skipn_zeros. eexists. split; [|split; [|reflexivity]].
  - rewrite app_length, length_zeros. lia.
  - rewrite skipn_app, P, Nat.sub_diag, skipn_all2 by lia. reflexivity.
Qed.

Lemma low_square c value n bits total : limbs value -> 0 <= n -> n <= Z.of_nat (length value) ->
  bits = zeros total -> 2 * n <= Z.of_nat total ->
  forall A (k : list Z -> outcome A), exists b, length b = total /\ skipn (Z.to_nat (2 * n)) b = zeros (total - Z.to_nat (2 * n)) /\
  (valueLow <- slice value 0 (Z.to_nat n) ;;
   bitsLow <- slice bits 0 (Z.to_nat (2 * n)) ;;
   bitsLow <- calc_square_core (S (length valueLow)) c valueLow bitsLow ;;
   bits <- splice bits 0 bitsLow ;; k bits) = k b.
Proof.
  intros Hl N0 NL -> NT A k. rewrite !slice_low by (rewrite ?length_zeros; lia). cbn [bind].
  set (lv := firstn (Z.to_nat n) value).
  assert (length lv = Z.to_nat n) as LL by (unfold lv; apply firstn_length_le; lia).
  rewrite firstn_zeros by lia. replace (Z.to_nat (2 * n)) with (length lv + length lv)%nat by lia.
  assert (wp (calc_square_core (S (length lv)) c lv (zeros (length lv + length lv))) (fun p => length p = (length lv + length lv)%nat)) as W.
  { eapply wp_mono; [apply calc_square_core_spec; [apply limbs_firstn, Hl|apply limbs_zeros|apply length_zeros|lia]|]. intros p (P & _). exact P. }
  apply wp_inv in W as (p & -> & P). cbn [bind]. unfold splice. rewrite length_zeros, P, (proj2 (Nat.leb_le _ _)) by lia. cbn [bind firstn app].
  rewrite Nat.add_0_l, skipn_zeros. eexists. split; [|split; [|reflexivity]].
  - rewrite app_length, length_zeros. lia.
  - rewrite skipn_app, P, Nat.sub_diag, skipn_all2 by lia. reflexivity.
Qed.

Lemma chk32_over c x : strict c = true -> x < -2147483648 \/ 2147483647 < x -> chk32 c x = Undef SignedOverflow.
Proof.
  intros S H. unfold chk32, INT_MIN, INT_MAX. rewrite S. destruct H.
  - now rewrite (proj2 (Z.leb_gt _ _)) by lia.
  - rewrite (proj2 (Z.leb_gt x _)) by lia. now rewrite andb_false_r.
Qed.

(** Without assertions. *)
Lemma mul_split fuel c left l right r bits bl : dbg c = false -> 32 <= r -> r <= l -> 2147483647 < l + r -> l <= 2147483647 ->
  calc_mul_core_i (S fuel) c left l right r bits bl =
    let n := Z.shiftr r 1 in
    bitsHighLength <- chk32 c (bl - Z.shiftl n 1) ;;
    leftLow <- slice left 0 (Z.to_nat n) ;;
    rightLow <- slice right 0 (Z.to_nat n) ;;
    bitsLow <- slice bits 0 (Z.to_nat (Z.shiftl n 1)) ;;
    bitsLow <- calc_mul_core (S (length rightLow)) c leftLow rightLow bitsLow ;;
    bits <- splice bits 0 bitsLow ;;
    calc_mul_core_i fuel c (skipn (Z.to_nat n) left) (l - n) (skipn (Z.to_nat n) right) (r - n)
      (skipn (Z.to_nat (Z.shiftl n 1)) bits) bitsHighLength ;;;
    leftFoldLength <- chk32 c (l - n + 1) ;;
    chk32 c (leftFoldLength + (r - n + 1)) ;;;
    NoFuel.
Proof.
  intros D R L S M. destruct (half_even r R) as (H1 & _ & H2). cbn [calc_mul_core_i]. rewrite !massert_or, D. cbn [andb bind].
  change (Z.of_nat MultiplyThreshold) with 32. rewrite (proj2 (Z.ltb_ge r 32)) by lia.
  rewrite (proj2 (Z.leb_gt (l + r) INT_MAX)) by (unfold INT_MAX; lia). rewrite andb_false_r.
  cbv zeta. rewrite (chk32_ok c (l - _)) by (unfold INT_MIN, INT_MAX; lia). reflexivity.
Qed.

Lemma mul_core_strict c left right l r total fuel : dbg c = false -> strict c = true -> limbs left -> limbs right ->
  32 <= r -> r <= l -> 2147483648 <= l + r -> l <= 2147483647 -> l <= Z.of_nat (length left) -> r <= Z.of_nat (length right) ->
  l + r <= Z.of_nat total -> (2 <= fuel)%nat ->
  calc_mul_core_i fuel c left l right r (zeros total) (l + r - 4294967296) = Undef SignedOverflow.
Proof.
  intros D S Hl Hr R L Big M LL LR LT F. destruct fuel as [|[|fuel]]; [lia|lia|]. destruct (half_even r R) as (H1 & H2 & H3).
  rewrite mul_split by lia || assumption. cbv zeta. rewrite H2. set (n := Z.shiftr r 1) in *.
  destruct (Z.lt_ge_cases (l + r - 4294967296 - 2 * n) (-2147483648)) as [O|O].
  { now rewrite chk32_over by auto. }
  rewrite chk32_ok by (unfold INT_MIN, INT_MAX; lia). cbn [bind].
  match goal with |- context [bind (splice _ _ _) ?k] => pose (kk := k) end.
  destruct (low_product c left right n (zeros total) total Hl Hr ltac:(lia) ltac:(lia) ltac:(lia) eq_refl ltac:(lia) _ kk) as (b & B1 & B2 & B3).
  unfold kk in B3 at 1. rewrite B3. unfold kk. clear B3 kk. rewrite B2.
  destruct (Z.lt_ge_cases (r - n) 32) as [G|G].
  - assert (wp (calc_mul_core_i (Datatypes.S fuel) c (skipn (Z.to_nat n) left) (l - n) (skipn (Z.to_nat n) right) (r - n)
      (zeros (total - Z.to_nat (2 * n))) (l + r - 4294967296 - 2 * n)) (fun _ => True)) as W.
    { cbn [calc_mul_core_i]. rewrite !massert_or, D. cbn [andb bind]. change (Z.of_nat MultiplyThreshold) with 32.
      rewrite (proj2 (Z.ltb_lt (r - n) 32)) by lia.
      eapply wp_mono; [apply school_whole; [apply limbs_skipn, Hl|apply limbs_skipn, Hr|rewrite skipn_length; lia|rewrite skipn_length; lia|lia|lia]|].
      auto. }
    apply wp_inv in W as (x & -> & _). cbn [bind]. rewrite (chk32_ok c (l - n + 1)) by (unfold INT_MIN, INT_MAX; lia). cbn [bind].
    now rewrite chk32_over by (auto; right; lia).
  - destruct (half_even (r - n) G) as (I1 & I2 & I3). rewrite mul_split by lia || assumption. cbv zeta. rewrite I2.
    now rewrite chk32_over by (auto; left; lia).
Qed.

Lemma mul_core_negative c fuel : dbg c = false -> forall left right l r total, limbs left -> limbs right ->
  1 <= r -> l < 0 -> -2147483648 <= l - r -> r <= Z.of_nat (length left) -> r <= Z.of_nat (length right) ->
  2 * r <= Z.of_nat total -> r < Z.of_nat fuel ->
  calc_mul_core_i fuel c left l right r (zeros total) (l + r) = Undef OutOfBounds.
Proof.
  intros D. induction fuel as [|fuel IH]; intros left right l r total Hl Hr R L M LL LR LT F; [lia|].
  cbn [calc_mul_core_i]. rewrite !massert_or, D. cbn [andb bind]. change (Z.of_nat MultiplyThreshold) with 32.
  destruct (Z.ltb_spec r 32) as [G|G]; [apply school_negative; lia|].
  rewrite (proj2 (Z.leb_gt r l)) by lia. cbn [andb]. destruct (half_even r G) as (H1 & H2 & H3). rewrite H2. cbv zeta.
  set (n := Z.shiftr r 1) in *. rewrite (chk32_ok c (l - n)) by (unfold INT_MIN, INT_MAX; lia). cbn [bind].
  rewrite (chk32_ok c (l + r - 2 * n)) by (unfold INT_MIN, INT_MAX; lia). cbn [bind].
  match goal with |- context [bind (splice _ _ _) ?k] => pose (kk := k) end.
  destruct (low_product c left right n (zeros total) total Hl Hr ltac:(lia) ltac:(lia) ltac:(lia) eq_refl ltac:(lia) _ kk) as (b & B1 & B2 & B3).
  unfold kk in B3 at 1. rewrite B3. unfold kk. clear B3 kk. rewrite B2.
  replace (l + r - 2 * n) with ((l - n) + (r - n)) by ring.
  rewrite IH; [reflexivity|apply limbs_skipn, Hl|apply limbs_skipn, Hr|lia|lia|lia|rewrite skipn_length; lia|rewrite skipn_length; lia|lia|lia].
Qed.

Lemma mul_core_cases c left right : limbs left -> limbs right -> (length right <= length left)%nat ->
  let l := s32 (Z.of_nat (length left)) in
  let r := s32 (Z.of_nat (length right)) in
  let total := (length left + length right)%nat in
  let o := calc_mul_core_i (S (length right)) c left l right r (zeros total) (s32 (Z.of_nat total)) in
  let whole := wp o (fun b => length b = total /\ limbs b /\ val b = vl left (Z.to_nat l) * vl right (Z.to_nat r)) in
  if dbg c && ((l <? 0) || (r <? 0) || (l <? r)) then o = AssertFail
  else if dbg c && strict c && (2147483648 <=? l + r) then o = Undef SignedOverflow
  else if r <? 1 then whole
  else if r <? 32 then
    if l <? 0 then o = Undef OutOfBounds
    else if l + r <=? 2147483648 then whole
    else o = Undef (if strict c then SignedOverflow else OutOfBounds)
  else
    (r <= l -> l + r < 2147483648 -> whole) /\
    (r <= l -> 2147483648 <= l + r -> strict c = true -> o = Undef SignedOverflow) /\
    (l < 0 -> -2147483648 <= l - r -> o = Undef OutOfBounds).
Proof.
  intros Hl Hr Hlen l r total o.
  pose proof (s32_range (Z.of_nat (length left))) as BL. pose proof (s32_range (Z.of_nat (length right))) as BR. fold l in BL. fold r in BR.
  unfold INT_MIN, INT_MAX in BL, BR.
  pose proof (int_of_le (Z.of_nat (length left)) ltac:(lia)) as IL. rewrite int_of_s32 in IL. fold l in IL.
  pose proof (int_of_le (Z.of_nat (length right)) ltac:(lia)) as IR. rewrite int_of_s32 in IR. fold r in IR.
  assert (s32 (Z.of_nat total) = s32 (l + r)) as K.
  { unfold total, l, r. rewrite s32_plus. f_equal. lia. }
  set (body := if r <? 32 then mul_school_i c left l right r (zeros total)
    else if (r <=? l) && (l + r <=? INT_MAX) then
    left <- slice left 0 (Z.to_nat l) ;;
    right <- slice right 0 (Z.to_nat r) ;;
    part <- slice (zeros total) 0 (Z.to_nat (l + r)) ;;
    part <- calc_mul_core (S (length right)) c left right part ;;
    Ret (part ++ skipn (length part) (zeros total))
    else NoFuel).
  assert (o = if dbg c && ((l <? 0) || (r <? 0) || (l <? r)) then AssertFail
    else if dbg c && strict c && (2147483648 <=? l + r) then Undef SignedOverflow
    else if (r <? 32) || ((r <=? l) && (l + r <=? INT_MAX)) then body else o) as E.
  { unfold o at 1. cbn [calc_mul_core_i]. rewrite !massert_or. rewrite !Z.leb_antisym.
    change (Z.of_nat MultiplyThreshold) with 32.
    destruct (dbg c) eqn:D; cbn [andb negb bind].
    2:{ destruct (Z.ltb_spec r 32) as [G|G]; cbn [orb].
        - unfold body. try rewrite (proj2 (Z.ltb_lt r 32)) by lia. reflexivity.
        - destruct (negb (l <? r) && negb (INT_MAX <? l + r)) eqn:Q.
          + unfold body. try rewrite (proj2 (Z.ltb_ge r 32)) by lia. rewrite !Z.leb_antisym, Q. reflexivity.
          + unfold o. cbn [calc_mul_core_i]. rewrite !massert_or, D. cbn [andb bind]. change (Z.of_nat MultiplyThreshold) with 32.
            rewrite (proj2 (Z.ltb_ge r 32)) by lia. rewrite !Z.leb_antisym, Q. reflexivity. }
    rewrite !negb_involutive.
    destruct (Z.ltb_spec l 0) as [A|A]; [reflexivity|]. destruct (Z.ltb_spec r 0) as [B|B]; [reflexivity|].
    destruct (Z.ltb_spec l r) as [C|C]; [reflexivity|]. cbn [orb negb].
    assert (forall A (k : outcome A), ((n <- chk32 c (l + r) ;; massert c (s32 (Z.of_nat total) =? n)) ;;; k) =
      if strict c && negb (l + r <? 2147483648) then Undef SignedOverflow else k) as Drop.
    { intros T k. destruct (Z.ltb_spec (l + r) 2147483648) as [F|F]; cbn [negb].
      - rewrite andb_false_r, chk32_ok by (unfold INT_MIN, INT_MAX; lia). cbn [bind]. unfold massert.
        rewrite D, K, s32_small, Z.eqb_refl by (unfold INT_MIN, INT_MAX; lia). reflexivity.
      - rewrite andb_true_r. unfold chk32, INT_MIN, INT_MAX. rewrite (proj2 (Z.leb_gt (l + r) _)) by lia. rewrite andb_false_r.
        destruct (strict c); [reflexivity|]. cbn [bind]. unfold massert. rewrite D, K, Z.eqb_refl. reflexivity. }
    rewrite Drop. destruct (strict c && negb (l + r <? 2147483648)) eqn:Q0; [reflexivity|].
    destruct (Z.ltb_spec r 32) as [G|G]; cbn [orb].
    - unfold body. try rewrite (proj2 (Z.ltb_lt r 32)) by lia. reflexivity.
    - cbn [andb]. destruct (negb (INT_MAX <? l + r)) eqn:Q.
      + unfold body. try rewrite (proj2 (Z.ltb_ge r 32)) by lia. rewrite !Z.leb_antisym, Q. rewrite (proj2 (Z.ltb_ge l r)) by lia. reflexivity.
      + unfold o. cbn [calc_mul_core_i]. rewrite !massert_or, D. rewrite !Z.leb_antisym. cbn [andb]. change (Z.of_nat MultiplyThreshold) with 32.
        rewrite (proj2 (Z.ltb_ge l 0)), (proj2 (Z.ltb_ge r 0)), (proj2 (Z.ltb_ge l r)) by lia. cbn [negb]. rewrite Drop.
        rewrite (proj2 (Z.ltb_ge r 32)) by lia. rewrite Q. reflexivity. }
  intros whole. destruct (dbg c && ((l <? 0) || (r <? 0) || (l <? r))) eqn:D1; [exact E|].
  destruct (dbg c && strict c && (2147483648 <=? l + r)) eqn:D2; [exact E|].
  destruct (Z.ltb_spec r 1) as [R1|R1].
  { unfold whole. rewrite E, (proj2 (Z.ltb_lt r 32)) by lia. cbn [orb]. unfold body. rewrite (proj2 (Z.ltb_lt r 32)) by lia.
    unfold mul_school_i. replace (Z.to_nat r) with O by lia. cbn [for_up]. apply wp_ret.
    rewrite length_zeros, val_zeros, vl_0, Z.mul_0_r. auto using limbs_zeros. }
  destruct (Z.ltb_spec r 32) as [R2|R2].
  { unfold whole. rewrite E. cbn [orb]. unfold body. destruct (Z.ltb_spec l 0) as [L0|L0]; [apply school_negative; lia|].
    destruct (Z.leb_spec (l + r) 2147483648) as [F|F].
    - apply school_whole; auto; unfold total; lia.
    - apply school_past; auto; unfold total; lia. }
  split; [|split].
  - intros G1 G2. unfold whole. rewrite E. unfold body. rewrite (proj2 (Z.leb_le r l)) by lia. rewrite (proj2 (Z.leb_le (l + r) INT_MAX)) by (unfold INT_MAX; lia). cbn [andb orb].
    rewrite !slice_low by (rewrite ?length_zeros; unfold total; lia). cbn [bind].
    set (lv := firstn (Z.to_nat l) left). set (rv := firstn (Z.to_nat r) right).
    assert (length lv = Z.to_nat l) as LL by (unfold lv; apply firstn_length_le; lia).
    assert (length rv = Z.to_nat r) as LR by (unfold rv; apply firstn_length_le; lia).
    rewrite firstn_zeros by (unfold total; lia). replace (Z.to_nat (l + r)) with (length lv + length rv)%nat by lia.
    wstep. eapply wp_mono; [apply calc_mul_core_spec; [apply limbs_firstn, Hl|apply limbs_firstn, Hr|lia|lia]|].
    intros p (P1 & P2 & P3). wstep. rewrite skipn_zeros. split; [|split].
    + rewrite app_length, length_zeros. unfold total. lia.
    + apply limbs_app. split; [exact P2|apply limbs_zeros].
    + rewrite val_app, val_zeros, P3. unfold lv, rv, vl. ring.
  - intros G1 G2 S. rewrite S in D2. rewrite (proj2 (Z.leb_le 2147483648 _)) in D2 by lia. rewrite !andb_true_r in D2.
    unfold o. rewrite K. assert (s32 (l + r) = l + r - 4294967296) as ->.
    { symmetry. rewrite <- (s32_small (l + r - 4294967296)) by (unfold INT_MIN, INT_MAX; lia).
      apply (s32_eq (l + r) _ (-1)). change W32 with 4294967296. ring. }
    apply mul_core_strict; auto; unfold total; lia.
  - intros G1 G2. rewrite (proj2 (Z.ltb_lt l 0)) in D1 by lia. cbn [orb] in D1. rewrite andb_true_r in D1.
    unfold o. rewrite K, s32_small by (unfold INT_MIN, INT_MAX; lia). apply mul_core_negative; auto; unfold total; lia.
Qed.

Lemma square_split fuel c v l bits bl : dbg c = false -> 1 <= l -> 2147483647 < l + l ->
  calc_square_core_i (S fuel) c v l bits bl =
    let n := Z.shiftr l 1 in
    bitsHighLength <- chk32 c (bl - Z.shiftl n 1) ;;
    valueLow <- slice v 0 (Z.to_nat n) ;;
    bitsLow <- slice bits 0 (Z.to_nat (Z.shiftl n 1)) ;;
    bitsLow <- calc_square_core (S (length valueLow)) c valueLow bitsLow ;;
    bits <- splice bits 0 bitsLow ;;
    calc_square_core_i fuel c (skipn (Z.to_nat n) v) (l - n) (skipn (Z.to_nat (Z.shiftl n 1)) bits) bitsHighLength ;;;
    chk32 c ((l - n + 1) + (l - n + 1)) ;;;
    NoFuel.
Proof.
  intros D L S. cbn [calc_square_core_i]. rewrite !massert_or, D. cbn [andb bind].
  rewrite (proj2 (Z.ltb_ge l 1)) by lia. now rewrite (proj2 (Z.leb_gt (l + l) INT_MAX)) by (unfold INT_MAX; lia).
Qed.

Lemma square_core_strict c v l total fuel : dbg c = false -> strict c = true -> limbs v ->
  1073741824 <= l <= 2147483647 -> l <= Z.of_nat (length v) -> l + l <= Z.of_nat total -> (2 <= fuel)%nat ->
  calc_square_core_i fuel c v l (zeros total) (l + l - 4294967296) = Undef SignedOverflow.
Proof.
  intros D S Hl L LL LT F. destruct fuel as [|[|fuel]]; [lia|lia|]. destruct (half_even l ltac:(lia)) as (H1 & H2 & H3).
  rewrite square_split by lia || assumption. cbv zeta. rewrite H2. set (n := Z.shiftr l 1) in *.
  destruct (Z.lt_ge_cases (l + l - 4294967296 - 2 * n) (-2147483648)) as [O|O].
  { now rewrite chk32_over by auto. }
  rewrite chk32_ok by (unfold INT_MIN, INT_MAX; lia). cbn [bind].
  match goal with |- context [bind (splice _ _ _) ?k] => pose (kk := k) end.
  destruct (low_square c v n (zeros total) total Hl ltac:(lia) ltac:(lia) eq_refl ltac:(lia) _ kk) as (b & B1 & B2 & B3).
  unfold kk in B3 at 1. rewrite B3. unfold kk. clear B3 kk. rewrite B2.
  destruct (half_even (l - n) ltac:(lia)) as (I1 & I2 & I3). rewrite square_split by lia || assumption. cbv zeta. rewrite I2.
  now rewrite chk32_over by (auto; left; lia).
Qed.

Lemma square_core_cases c v : v <> [] -> limbs v ->
  let l := s32 (Z.of_nat (length v)) in
  let total := (length v + length v)%nat in
  let o := calc_square_core_i (S (length v)) c v l (zeros total) (s32 (Z.of_nat total)) in
  if dbg c && (l <? 0) then o = AssertFail
  else if l <? 1073741824 then
    wp o (fun b => length b = total /\ limbs b /\ val b = vl v (Z.to_nat l) * vl v (Z.to_nat l))
  else strict c = true -> o = Undef SignedOverflow.
Proof.
  intros NN Hl l total o.
  pose proof (s32_range (Z.of_nat (length v))) as BL. fold l in BL. unfold INT_MIN, INT_MAX in BL.
  pose proof (int_of_le (Z.of_nat (length v)) ltac:(lia)) as IL. rewrite int_of_s32 in IL. fold l in IL.
  assert (s32 (Z.of_nat total) = s32 (l + l)) as K.
  { unfold total, l. rewrite s32_plus. f_equal. lia. }
  destruct (Z.ltb_spec l 1073741824) as [S|S].
  2:{ rewrite (proj2 (Z.ltb_ge l 0)) by lia. rewrite andb_false_r. intros ST. destruct (dbg c) eqn:D.
      - unfold o. cbn [calc_square_core_i]. rewrite massert_or, Z.leb_antisym, negb_involutive, (proj2 (Z.ltb_ge l 0)), andb_false_r, D by lia.
        now rewrite chk32_over by (auto; right; lia).
      - unfold o. rewrite K. assert (s32 (l + l) = l + l - 4294967296) as ->.
        { symmetry. rewrite <- (s32_small (l + l - 4294967296)) by (unfold INT_MIN, INT_MAX; lia).
          apply (s32_eq (l + l) _ (-1)). change W32 with 4294967296. ring. }
        assert (1 <= length v)%nat by (destruct v; [congruence|cbn [length]; lia]).
        apply square_core_strict; auto; unfold total; lia. }
  unfold o. cbn [calc_square_core_i]. rewrite massert_or, Z.leb_antisym, negb_involutive.
  destruct (dbg c && (l <? 0)) eqn:D0; [reflexivity|].
  assert (forall A (k : outcome A), ((if dbg c then n <- chk32 c (l + l) ;; massert c (s32 (Z.of_nat total) =? n) else Ret tt) ;;; k) = k) as Drop.
  { intros A k. destruct (dbg c) eqn:D; [|reflexivity]. cbn [andb] in D0. apply Z.ltb_ge in D0.
    rewrite chk32_ok by (unfold INT_MIN, INT_MAX; lia). cbn [bind]. unfold massert. rewrite K, s32_small, Z.eqb_refl, D by (unfold INT_MIN, INT_MAX; lia). reflexivity. }
  rewrite Drop. destruct (Z.ltb_spec l 1) as [L1|L1].
  { apply wp_ret. replace (Z.to_nat l) with O by lia. rewrite length_zeros, val_zeros, vl_0. auto using limbs_zeros. }
  rewrite (proj2 (Z.leb_le (l + l) INT_MAX)) by (unfold INT_MAX; lia).
  rewrite !slice_low by (rewrite ?length_zeros; unfold total; lia). cbn [bind].
  set (lv := firstn (Z.to_nat l) v).
  assert (length lv = Z.to_nat l) as LL by (unfold lv; apply firstn_length_le; lia).
  rewrite firstn_zeros by (unfold total; lia).
  wstep. eapply wp_mono; [apply calc_square_core_spec; [apply limbs_firstn, Hl|apply limbs_zeros|rewrite length_zeros; lia|lia]|].
  intros p (P1 & P2 & P3). wstep. rewrite skipn_zeros. split; [|split].
  - rewrite app_length, length_zeros. unfold total. lia.
  - apply limbs_app. split; [exact P2|apply limbs_zeros].
  - rewrite val_app, val_zeros, P3. unfold lv, vl. ring.
Qed.

(** ** The operator *)
Lemma long_product c b s neg l l' : l <> [] -> l' <> [] -> limbs l -> limbs l' -> val l = Z.abs b -> val l' = Z.abs s ->
  limbs_of b = Z.of_nat (length l) -> limbs_of s = Z.of_nat (length l') -> (length l' <= length l)%nat ->
  long_product_any c b s neg (bits <- calc_mul_i c l l' ;; bi_of_mag_i c bits neg).
Proof.
  intros N N' Hl Hl' Hv Hv' LB LS Hlen. unfold long_product_any. change (- 2 ^ 31) with (-2147483648). change (2 ^ 31) with 2147483648. cbv zeta.
  unfold calc_mul_i. rewrite arrays_asserted by assumption. cbv zeta. rewrite length_zeros.
  pose proof (mul_core_cases c l l' Hl Hl' Hlen) as K. cbv zeta in K.
  rewrite (int_length _ _ LB), (int_length _ _ LS).
  rewrite (low_vl_all b l _ Hl Hv), (low_vl_all s l' _ Hl' Hv') by (rewrite <- int_of_s32; apply int_of_le; lia).
  rewrite LB, LS, int_of_s32.
  set (o := calc_mul_core_i _ c l _ l' _ _ _) in *.
  set (P := wp o _) in K.
  assert (P -> held c (s32 (Z.of_nat (length l) + Z.of_nat (length l'))) neg
    (vl l (Z.to_nat (s32 (Z.of_nat (length l)))) * vl l' (Z.to_nat (s32 (Z.of_nat (length l')))))
    (bits <- o ;; bi_of_mag_i c bits neg)) as Whole.
  { intros H. apply held_bind. eapply wp_mono; [exact H|]. intros z (A & B & D). split; [rewrite A; f_equal; lia|]. split; [exact B|exact D]. }
  destruct (dbg c && _); [now rewrite K|]. destruct (dbg c && _ && _); [now rewrite K|].
  destruct (_ <? 1); [exact (Whole K)|]. destruct (_ <? 32).
  - destruct (_ <? 0); [now rewrite K|]. destruct (_ <=? 2147483648); [exact (Whole K)|now rewrite K].
  - destruct K as (K1 & K2 & K3). split; [|split].
    + intros H1 H2. exact (Whole (K1 H1 H2)).
    + intros H1 H2 S. now rewrite (K2 H1 H2 S).
    + intros H1 H2. now rewrite (K3 H1 H2).
Qed.

Lemma long_square c x neg l : l <> [] -> limbs l -> val l = Z.abs x -> limbs_of x = Z.of_nat (length l) ->
  square_any c x neg (bits <- calc_square_i c l ;; bi_of_mag_i c bits neg).
Proof.
  intros N Hl Hv LX. unfold square_any. change (2 ^ 30) with 1073741824. cbv zeta.
  unfold calc_square_i. rewrite massert_or, (nil_false l N). cbn [negb]. rewrite andb_false_r. cbv zeta. rewrite length_zeros.
  pose proof (square_core_cases c l N Hl) as K. cbv zeta in K.
  rewrite (int_length _ _ LX). rewrite (low_vl_all x l _ Hl Hv) by (rewrite <- int_of_s32; apply int_of_le; lia).
  rewrite LX, int_of_s32. set (o := calc_square_core_i _ c l _ _ _) in *.
  destruct (dbg c && _); [now rewrite K|]. destruct (_ <? 1073741824).
  - apply held_bind. eapply wp_mono; [exact K|]. intros z (A & B & D). split; [rewrite A; f_equal; lia|]. split; [exact B|exact D].
  - intros S. now rewrite (K S).
Qed.

Theorem product_any_holds c a b x y : represents a x -> represents b y -> product_any c x y (bi_mul_i c a b).
Proof.
  intros Ha Hb. unfold product_any. change (2 ^ 31) with 2147483648. cbv zeta.
  destruct ((Z.abs x <? 2147483648) && (Z.abs y <? 2147483648)) eqn:B.
  { apply andb_true_iff in B as (X & Y). apply Z.ltb_lt in X, Y.
    assert (bi_mul_i c a b = bi_mul c a b) as ->.
    { rewrite (short_parts _ _ Ha X), (short_parts _ _ Hb Y). reflexivity. }
    now apply returns_wp, bi_mul_spec. }
  unfold bi_mul_i. rewrite (valid_ok c a x Ha), (valid_ok c b y Hb). cbn [bind].
  destruct (Z.ltb_spec (Z.abs x) 2147483648) as [X|X].
  { cbn [andb orb] in *. apply Z.ltb_ge in B.
    destruct (long_parts b y Hb B) as (s' & l' & -> & Hs' & N' & Hl' & Ht' & Hv' & Sy & LY). cbn [bits_of sign_of].
    rewrite (short_parts _ _ Ha X). cbn [bits_of sign_of is_nil]. rewrite (nil_false l' N'). cbn [andb].
    assert ((s' <? 0) = (y <? 0)) as -> by (destruct (Z.ltb_spec y 0); [apply Z.ltb_lt|apply Z.ltb_ge]; lia).
    rewrite abs32_ok by (unfold INT_MIN, INT_MAX; lia). cbn [bind].
    pose proof (limbs_of_small x ltac:(lia)) as LX. pose proof (limbs_bound y) as (P & _).
    rewrite LX, Z.max_r by lia. rewrite LY, int_of_s32. apply held_bind.
    eapply wp_mono; [apply calc_mul_u_spec; [exact N'|exact Hl'|unfold limb; num; lia]|].
    intros z (Q1 & Q2 & Q3). split; [rewrite Q1; f_equal; lia|]. split; [exact Q2|rewrite Q3, Hv'; ring]. }
  destruct (long_parts a x Ha X) as (s & l & -> & Hs & N & Hl & Ht & Hv & Sx & LX). cbn [bits_of sign_of]. rewrite (nil_false l N). cbn [andb orb].
  assert ((s <? 0) = (x <? 0)) as -> by (destruct (Z.ltb_spec x 0); [apply Z.ltb_lt|apply Z.ltb_ge]; lia).
  destruct (Z.ltb_spec (Z.abs y) 2147483648) as [Y|Y].
  { rewrite (short_parts _ _ Hb Y). cbn [bits_of sign_of is_nil]. rewrite abs32_ok by (unfold INT_MIN, INT_MAX; lia). cbn [bind].
    pose proof (limbs_of_small y ltac:(lia)) as LY. pose proof (limbs_bound x) as (P & _).
    rewrite LY, Z.max_l by lia. rewrite LX, int_of_s32. apply held_bind.
    eapply wp_mono; [apply calc_mul_u_spec; [exact N|exact Hl|unfold limb; num; lia]|].
    intros z (Q1 & Q2 & Q3). split; [rewrite Q1; f_equal; lia|]. split; [exact Q2|rewrite Q3, Hv; ring]. }
  destruct (long_parts b y Hb Y) as (s' & l' & -> & Hs' & N' & Hl' & Ht' & Hv' & Sy & LY). cbn [bits_of sign_of]. rewrite (nil_false l' N').
  assert ((s' <? 0) = (y <? 0)) as -> by (destruct (Z.ltb_spec y 0); [apply Z.ltb_lt|apply Z.ltb_ge]; lia).
  destruct (vec_eqb l l') eqn:Ev.
  { apply vec_eqb_spec in Ev. subst l'. rewrite (proj2 (Z.eqb_eq (Z.abs x) (Z.abs y))) by lia. now apply long_square. }
  assert (Z.abs x <> Z.abs y) as NE.
  { intros E. assert (l = l') as EL by (apply val_inj; auto; lia). apply vec_eqb_spec in EL. congruence. }
  rewrite (proj2 (Z.eqb_neq (Z.abs x) (Z.abs y)) NE), LX, LY.
  destruct (Nat.ltb_spec (length l) (length l')) as [G|G].
  - rewrite (proj2 (Z.ltb_lt _ _)) by lia. apply long_product; auto. lia.
  - rewrite (proj2 (Z.ltb_ge _ _)) by lia. now apply long_product.
Qed.
