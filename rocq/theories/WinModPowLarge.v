(** The LLP64 reading: mod_pow with a modulus of 32 limbs or more. *)
From Verif Require Import Facts Spec AddSubFacts SquMulFacts DivRemFacts DivCoreFacts SpecFacts BigIntFacts SpecApi ConvFacts.
From Verif Require Import CompareFacts CalcAddSub CalcSquMul CalcDivRem CalcPowMod BigInt ConvLaws ShiftFacts WordFacts PowFacts ModPowFacts ModPowApi ReducerFacts GcdFacts.
From Verif Require Import WinCalc WinBigInt SpecWin WinFacts WinMulFacts WinPowFacts WinModPowFacts.
Ltac Zify.zify_post_hook ::= idtac.

Lemma slice_pre l k n : (k + n <= length l)%nat -> slice l k n = Ret (firstn n (skipn k l)).
Proof. intros H. unfold slice. now rewrite (proj2 (Nat.leb_le _ _) H). Qed.

Lemma divmul_w_eq c lv ll rv rl bits k :
  limbs lv -> limbs rv -> (ll <= length lv)%nat -> (rl <= length rv)%nat -> (ll - k + rl <= length bits)%nat ->
  reducer_divmul_w None c lv ll rv rl bits k =
    (if Nat.leb 32 (ll - k) && Nat.leb 32 rl then UB else reducer_divmul c lv ll rv rl bits k).
Proof.
  intros Hl Hr Hll Hrl Hb. unfold reducer_divmul_w, reducer_divmul. rewrite fill_all. cbn [bind].
  destruct (Nat.ltb_spec k ll) as [K|K].
  2:{ replace (ll - k)%nat with O by lia. reflexivity. }
  rewrite !slice_pre by (rewrite ?length_zeros; lia). cbn [bind skipn].
  rewrite firstn_zeros by lia.
  set (p := firstn (ll - k) (skipn k lv)).
  assert (limbs p) as Lp by (apply limbs_firstn, limbs_skipn, Hl).
  assert (length p = ll - k)%nat as Np by (unfold p; rewrite firstn_length, skipn_length; lia).
  assert (limbs (firstn rl rv)) as Lq by (apply limbs_firstn, Hr).
  assert (length (firstn rl rv) = rl)%nat as Nq by (rewrite firstn_length; lia).
  set (q := firstn rl rv) in *. clearbody p q. rewrite <- Np, <- Nq.
  destruct (Nat.ltb_spec (length p) (length q)) as [G|G].
  - rewrite calc_mul_core_w_ub by (auto; f_equal; lia).
    destruct (Nat.leb_spec 32 (length p)) as [A|A], (Nat.leb_spec 32 (length q)) as [B|B]; cbn [andb]; try lia.
    all: rewrite ?(proj2 (Nat.ltb_ge (length p) 32) A), ?(proj2 (Nat.ltb_lt (length p) 32) A); try reflexivity.
    all: cbn [calc_mul_core]; rewrite !massert_true by (apply Nat.eqb_eq || apply Nat.leb_le; rewrite ?length_zeros; lia);
      cbn [bind]; change MultiplyThreshold with 32%nat;
      rewrite (proj2 (Nat.ltb_lt (length p) 32) A); reflexivity.
  - rewrite calc_mul_core_w_ub by (auto; f_equal; lia).
    destruct (Nat.leb_spec 32 (length p)) as [A|A], (Nat.leb_spec 32 (length q)) as [B|B]; cbn [andb]; try lia.
    all: rewrite ?(proj2 (Nat.ltb_ge (length q) 32) B), ?(proj2 (Nat.ltb_lt (length q) 32) B); try reflexivity.
    all: cbn [calc_mul_core]; rewrite !massert_true by (apply Nat.eqb_eq || apply Nat.leb_le; rewrite ?length_zeros; lia);
      cbn [bind]; change MultiplyThreshold with 32%nat;
      rewrite (proj2 (Nat.ltb_lt (length q) 32) B); reflexivity.
Qed.

Lemma sub_self_nil_w w c l : calc_sub_self_w w c l [] = Ret l.
Proof.
  unfold calc_sub_self_w. cbn [length]. rewrite for_up_0. cbn [bind].
  assert (forall n start body, for_up_while n start (fun st : list Z * Z => negb (snd st =? 0)) body (l, 0) = Ret (l, 0)) as E.
  { intros n start body. destruct n; reflexivity. }
  rewrite E. reflexivity.
Qed.

Lemma isbuf_len_eq size l i j x : isbuf size (Buf l i) x -> isbuf size (Buf l j) x -> i = j.
Proof.
  intros A B. pose proof (isbuf_len_le _ _ _ _ _ _ A B (Z.le_refl _)). pose proof (isbuf_len_le _ _ _ _ _ _ B A (Z.le_refl _)).
  cbn [bb_len] in *. lia.
Qed.

Lemma limbs32_unit v : 0 <= v <= 1 -> limbs32 v = false.
Proof. intros H. apply limbs32_small. num. lia. Qed.

Lemma unit_square v : 0 <= v <= 1 -> v * v = v.
Proof. intros H. assert (v = 0 \/ v = 1) as [->| ->] by lia; reflexivity. Qed.

Lemma pow_small_unit fuel : forall p v r, 0 <= v <= 1 -> pow_small fuel p v r = true.
Proof.
  induction fuel as [|fuel IH]; intros p v r H; cbn [pow_small]; destruct (p =? 0); try reflexivity.
  rewrite (limbs32_unit v H), !andb_false_r. cbn [negb andb]. destruct (p =? 1); [reflexivity|].
  apply IH. now rewrite unit_square.
Qed.

Section Large.
Variables (c : cfg) (m : list Z).
Hypothesis Hm : limbs m.
Hypothesis Hne : m <> [].
Hypothesis Ht : top_nz m.
Let n := length m.
Hypothesis Hn : (32 <= n)%nat.
Let size := (n + n)%nat.

Lemma submod_loop_w_cases fuel lv ll y :
  isbuf size (Buf lv ll) y ->
  submod_loop_w None (S fuel) c lv ll m = (if y <? val m then Ret (lv, ll) else UB).
Proof.
  intros Hb. pose proof Hb as [Sz L V N H Lo]. cbn [bb_bits bb_len] in *.
  destruct (isbuf_prefix _ _ _ Hb) as (P1 & P2 & P3 & P4); cbn [bb_bits bb_len] in *.
  pose proof (m_lo m Hm Hne Ht) as ML. pose proof (m_hi m Hm) as MH. change (length m) with n in ML, MH.
  cbn [submod_loop_w]. rewrite slice_pre by (cbn [Nat.add]; lia). cbn [bind skipn].
  assert (exists z, calc_compare_core c (firstn ll lv) m = Ret z /\ (z <? 0) = (y <? val m)) as (z & -> & Ez).
  { destruct (Nat.lt_trichotomy ll n) as [G|[G|G]].
    - exists (-1). unfold calc_compare_core. rewrite P2. fold n. rewrite (proj2 (Nat.ltb_lt _ _) G). split; [reflexivity|].
      symmetry. apply Z.ltb_lt. pose proof (Bp_le ll (n - 1) ltac:(lia)). lia.
    - exists (cmpz y (val m)). rewrite calc_compare_core_spec; auto; [|left; rewrite P2; exact G]. rewrite P3. split; [reflexivity|].
      unfold cmpz. destruct (Z.compare_spec y (val m)); symmetry; [apply Z.ltb_ge|apply Z.ltb_lt|apply Z.ltb_ge]; lia.
    - exists 1. unfold calc_compare_core. rewrite P2. fold n. rewrite (proj2 (Nat.ltb_ge _ _)) by lia.
      rewrite (proj2 (Nat.ltb_lt _ _) G). split; [reflexivity|]. symmetry. apply Z.ltb_ge.
      specialize (Lo ltac:(lia)). pose proof (Bp_le n (ll - 1) ltac:(lia)). lia. }
  cbn [bind]. rewrite Ez. destruct (Z.ltb_spec y (val m)) as [Y|Y]; [reflexivity|].
  assert (n <= ll)%nat as G.
  { destruct (Nat.le_gt_cases n ll) as [|K]; [assumption|exfalso]. pose proof (Bp_le ll (n - 1) ltac:(lia)). lia. }
  rewrite slice_pre by (fold n; cbn [Nat.add]; lia). cbn [bind skipn].
  apply ub_first. apply calc_sub_self_w_ub; [fold n; lia|]. fold n. rewrite firstn_length. lia.
Qed.

Lemma reduce_w_cases R this x :
  reducer_ok m R -> isbuf size this x -> (bb_len this <= n + n - 1)%nat ->
  (x < val m -> exists R', buf_reduce_fast_w None c this R = Ret (this, R') /\ reducer_ok m R') /\
  (val m <= x -> buf_reduce_fast_w None c this R = UB).
Proof.
  intros HR Hb Hlen. pose proof HR as [R1 R2 R3 [R4 R5] R6 R7 R8]. unfold buf_reduce_fast_w, reducer_reduce_w. rewrite R1.
  cbv zeta. fold n.
  pose proof (m_lo m Hm Hne Ht) as ML. pose proof (m_hi m Hm) as MH. change (length m) with n in R3, R5, R7, R8, ML, MH.
  pose proof Hb as [Sz L V N H Lo]. destruct (isbuf_prefix _ _ _ Hb) as (P1 & P2 & P3 & P4).
  destruct (Nat.ltb_spec (bb_len this) n) as [G|G].
  { split.
    - intros _. exists R. cbn [bind]. split; [now destruct this|exact HR].
    - intros K. pose proof (Bp_le (bb_len this) (n - 1) ltac:(lia)). lia. }
  rewrite divmul_w_eq by (auto; lia).
  pose proof (divmul_spec c (bb_bits this) (bb_len this) (fr_mu R) (fr_mulen R) (fr_q1 R) (n - 1) L R2 ltac:(lia) R4 ltac:(lia)) as W.
  apply wp_inv in W. destruct W as ((q1, l1) & E1 & Q1 & L1). rewrite E1. cbn [fst snd] in Q1, L1. rewrite R6, R3 in Q1.
  change (vl (bb_bits this) (bb_len this)) with (val (firstn (bb_len this) (bb_bits this))) in Q1. rewrite P3 in Q1.
  pose proof Q1 as [QS QL QV QN QH QLo]. cbn [bb_bits bb_len] in *.
  pose proof (divmul_spec c q1 l1 m n (fr_q2 R) (n + 1) QL Hm ltac:(lia) ltac:(lia) ltac:(lia)) as W.
  apply wp_inv in W. destruct W as ((q2, l2) & E2 & Q2 & L2). cbn [fst snd] in Q2, L2.
  pose proof (divmul_w_eq c q1 l1 m n (fr_q2 R) (n + 1) QL Hm ltac:(lia) ltac:(lia) ltac:(lia)) as E3. rewrite E2 in E3.
  assert (vl q1 l1 = val q1) as EV.
  { destruct (upper_zero q1 l1 QL ltac:(lia) ltac:(lia)) as (_ & E). exact E. }
  rewrite EV, QV in Q2. rewrite (vl_ge m n) in Q2 by (unfold n; lia).
  assert (Bp (n + n) = Bp (n - 1) * Bp (n + 1)) as EB by (rewrite <- Bp_add; f_equal; lia).
  pose proof (Bp_le (bb_len this) (n + n) ltac:(lia)) as BL.
  rewrite EB in Q1, Q2, QH.
  destruct (barrett (Bp (n - 1)) (Bp (n + 1)) x (val m) _ _ _ (Bp_pos _) (Bp_pos _) ML ltac:(lia) eq_refl eq_refl eq_refl)
    as (Bq1 & Bq2).
  set (qh := x / Bp (n - 1) * (Bp (n - 1) * Bp (n + 1) / val m) / Bp (n + 1)) in *.
  pose proof Q2 as [TS TL TV TN TH TLo]. cbn [bb_bits bb_len] in *.
  assert (l2 <= bb_len this)%nat as Hl2.
  { destruct (Nat.le_gt_cases l2 (bb_len this)) as [|K]; [assumption|exfalso].
    specialize (TLo ltac:(lia)). pose proof (Bp_le (bb_len this) (l2 - 1) ltac:(lia)). lia. }
  assert (reducer_ok m (Red m (fr_mu R) q1 q2 (fr_mulen R))) as HR'.
  { split; cbn [fr_modulus fr_mu fr_mulen fr_q1 fr_q2]; auto; try congruence; change (length m) with n; lia. }
  destruct this as [bits len]. cbn [bb_bits bb_len] in *.
  assert (l2 = O -> reducer_submod_w None c bits len q2 l2 m (n + 1) = (if x <? val m then Ret len else UB)) as SM.
  { intros ->.
    assert (len <= n + 1)%nat as Ln.
    { destruct (Nat.le_gt_cases len (n + 1)) as [|K]; [assumption|exfalso].
      specialize (Lo ltac:(lia)). rewrite Bp_0 in TH. pose proof (Bp_le (n + 1) (len - 1) ltac:(lia)) as Z1.
      rewrite Bp_add, Bp_1 in Z1. pose proof (Bp_pos n). num. nia. }
    unfold reducer_submod_w. rewrite (proj2 (Nat.ltb_ge (n + 1) len)) by lia.
    rewrite (proj2 (Nat.ltb_ge (n + 1) 0)) by lia. cbv zeta. rewrite Nat.max_0_r.
    rewrite !slice_pre by (cbn [Nat.add]; lia). cbn [bind firstn skipn]. rewrite sub_self_nil_w. cbn [bind].
    assert (splice bits 0 (firstn len bits) = Ret bits) as ->.
    { unfold splice. cbn [Nat.add firstn app]. rewrite P2, (proj2 (Nat.leb_le _ _)) by lia. now rewrite firstn_skipn. }
    cbn [bind].
    pose proof (make_isbuf bits len L ltac:(lia) ltac:(lia)) as W. apply wp_inv in W. destruct W as (j & -> & J & _).
    rewrite Sz, V in J. pose proof (isbuf_len_eq _ _ _ _ _ J Hb) as ->. cbn [bind].
    rewrite (submod_loop_w_cases 999 bits len x Hb : submod_loop_w None submod_fuel c bits len m = _).
    destruct (x <? val m); [|reflexivity]. cbn [bind]. unfold fill. rewrite (proj2 (Nat.leb_le _ _)) by lia. reflexivity. }
  split.
  - intros Hx.
    assert (len = n) as En.
    { destruct (Nat.le_gt_cases len n) as [|K]; [lia|exfalso].
      specialize (Lo ltac:(lia)). pose proof (Bp_le n (len - 1) ltac:(lia)). lia. }
    rewrite (proj2 (Nat.leb_gt 32 (len - (n - 1)))) by lia. cbn [andb bind]. rewrite E3.
    assert (qh = 0) as Q0.
    { assert (0 <= qh) by (apply Z.div_pos; [lia|apply Bp_pos]).
      destruct (Z.eq_dec qh 0) as [|K]; [assumption|exfalso]. nia. }
    assert (l2 = O) as L0.
    { destruct (Nat.eq_dec l2 0) as [|K]; [assumption|exfalso]. specialize (TLo K). rewrite Q0 in TLo. pose proof (Bp_pos (l2 - 1)). lia. }
    assert (l1 <= n + 1)%nat as Hl1.
    { destruct (Nat.le_gt_cases l1 (n + 1)) as [|K]; [assumption|exfalso].
      specialize (QLo ltac:(lia)). pose proof (Bp_le (n + 1) (l1 - 1) ltac:(lia)).
      assert (1 <= qh); [|lia]. apply Z.div_le_lower_bound; [apply Bp_pos|]. rewrite EB in QLo. lia. }
    rewrite (proj2 (Nat.leb_gt 32 (l1 - (n + 1)))) by lia. cbn [andb bind].
    rewrite SM by exact L0. rewrite (proj2 (Z.ltb_lt _ _) Hx). cbn [bind].
    exists (Red m (fr_mu R) q1 q2 (fr_mulen R)). split; [reflexivity|exact HR'].
  - intros Hx. destruct (Nat.leb 32 (len - (n - 1)) && Nat.leb 32 (fr_mulen R)); [reflexivity|]. cbn [bind]. rewrite E3.
    destruct (Nat.leb 32 (l1 - (n + 1)) && Nat.leb 32 n); [reflexivity|]. cbn [bind].
    destruct (Nat.eq_dec l2 0) as [L0|L0].
    + rewrite SM by exact L0. rewrite (proj2 (Z.ltb_ge _ _) Hx). reflexivity.
    + apply ub_first. unfold reducer_submod_w. cbv zeta.
      assert (exists ll, (if Nat.ltb (n + 1) len then (n + 1)%nat else len) = ll /\ (1 <= ll <= len)%nat) as (ll & -> & Hll).
      { destruct (Nat.ltb_spec (n + 1) len); eexists; split; try reflexivity; lia. }
      assert (exists rl, (if Nat.ltb (n + 1) l2 then (n + 1)%nat else l2) = rl /\ (1 <= rl <= l2)%nat) as (rl & -> & Hrl).
      { destruct (Nat.ltb_spec (n + 1) l2); eexists; split; try reflexivity; lia. }
      rewrite !slice_pre by (cbn [Nat.add]; lia). cbn [bind skipn].
      do 2 apply ub_first. apply calc_sub_self_w_ub.
      * rewrite firstn_length. lia.
      * rewrite firstn_length. lia.
Qed.

Definition red_state (R : reducer) (value result temp : bitsbuf) (v r : Z) : Prop :=
  reducer_ok m R /\ isbuf size value v /\ (bb_len value <= n)%nat /\ isbuf size result r /\ r < val m /\
  bb_bits temp = zeros size /\ (1 <= v /\ 1 <= r \/ v = 0).

(** The conditional product and its reduction. *)
Lemma red_mul R (odd : bool) value result temp v r : red_state R value result temp v r ->
  let o := (if odd then
      '(result, temp) <- buf_mul_self_w None c result value temp ;;
      '(result, red) <- buf_reduce_fast_w None c result R ;; Ret (result, temp, red)
    else Ret (result, temp, R)) in
  let u := if odd then v else 1 in
  (odd && (limbs32 r && limbs32 v) = false -> r * u < val m -> exists result' temp' R', o = Ret (result', temp', R') /\
    red_state R' value result' temp' v (r * u)) /\
  (odd && (limbs32 r && limbs32 v) = true \/ val m <= r * u -> o = UB).
Proof.
  intros (HR & Hv & Lv & Hr & Rm & Htm & Hp). destruct odd; cbn [andb].
  2:{ split; [|intros [K|K]; [discriminate|rewrite Z.mul_1_r in K; lia]].
      intros _ _. exists result, temp, R. split; [reflexivity|]. rewrite Z.mul_1_r. unfold red_state. tauto. }
  pose proof (m_hi m Hm) as MH. change (length m) with n in MH.
  pose proof (isbuf_len _ _ _ n Hr ltac:(lia)) as Lr.
  rewrite (buf_mul_self_w_eq c size result value temp r v) by (auto; unfold size; lia).
  destruct (limbs32 r && limbs32 v) eqn:E32.
  { split; [discriminate|]. intros _. reflexivity. }
  assert (bb_len result + bb_len value <= n + n - 1)%nat as Ls.
  { rewrite (isbuf_limbs32 _ _ _ Hr), (isbuf_limbs32 _ _ _ Hv) in E32.
    destruct (Nat.leb_spec 32 (bb_len result)), (Nat.leb_spec 32 (bb_len value)); try discriminate; lia. }
  pose proof (buf_mul_self_spec c size result value temp r v Hr Hv Htm ltac:(unfold size; lia)) as W.
  apply wp_inv in W. destruct W as ((r1, t1) & -> & R1 & T1 & L1). cbn [fst snd] in R1, T1, L1. cbn [bind].
  destruct (reduce_w_cases R r1 (r * v) HR R1 ltac:(lia)) as (A & B). split.
  - intros _ K. destruct (A K) as (R' & -> & HR'). cbn [bind]. exists r1, t1, R'. split; [reflexivity|].
    split; [exact HR'|]. split; [exact Hv|]. split; [exact Lv|]. split; [exact R1|]. split; [exact K|]. split; [exact T1|].
    destruct Hp as [(P1 & P2)|P]; [left|now right]. split; [exact P1|]. nia.
  - intros [K|K]; [discriminate|]. now rewrite (B K).
Qed.

(** The square and its reduction. *)
Lemma red_square R value result temp v r : red_state R value result temp v r ->
  let o := ('(value, temp) <- buf_square_self_w None c value temp ;;
      '(value, red) <- buf_reduce_fast_w None c value R ;; Ret (value, temp, red)) in
  (limbs32 v = false -> v * v < val m -> exists value' temp' R', o = Ret (value', temp', R') /\
    red_state R' value' result temp' (v * v) r) /\
  (limbs32 v = true \/ val m <= v * v -> o = UB).
Proof.
  intros (HR & Hv & Lv & Hr & Rm & Htm & Hp).
  pose proof (m_hi m Hm) as MH. change (length m) with n in MH.
  rewrite (buf_square_self_w_eq c size value temp v) by (auto; unfold size; lia).
  destruct (limbs32 v) eqn:E32.
  { split; [discriminate|]. intros _. reflexivity. }
  assert (bb_len value <= 31)%nat as Ls.
  { rewrite (isbuf_limbs32 _ _ _ Hv) in E32. apply Nat.leb_gt in E32. lia. }
  pose proof (buf_square_self_spec c size value temp v Hv Htm ltac:(unfold size; lia)) as W.
  apply wp_inv in W. destruct W as ((v1, t1) & -> & V1 & T1 & L1). cbn [fst snd] in V1, T1, L1. cbn [bind].
  destruct (reduce_w_cases R v1 (v * v) HR V1 ltac:(lia)) as (A & B). split.
  - intros _ K. destruct (A K) as (R' & -> & HR'). cbn [bind]. exists v1, t1, R'. split; [reflexivity|].
    split; [exact HR'|]. split; [exact V1|]. split; [apply (isbuf_len _ _ _ _ V1); lia|]. split; [exact Hr|]. split; [exact Rm|].
    split; [exact T1|]. destruct Hp as [(P1 & P2)|P]; [left; nia|right; now rewrite P].
  - intros [K|K]; [discriminate|]. now rewrite (B K).
Qed.

Lemma powred_loop_w_cases fuel : forall p R value result temp v r,
  0 <= p < 2 ^ Z.of_nat fuel -> red_state R value result temp v r ->
  (pow_small fuel p v r = true -> r * v ^ p < val m -> exists b,
     powred_loop_w None fuel c p R value result temp = Ret b /\ isbuf size b (r * v ^ p)) /\
  (pow_small fuel p v r = false \/ val m <= r * v ^ p -> powred_loop_w None fuel c p R value result temp = UB).
Proof.
  induction fuel as [|fuel IH]; intros p R value result temp v r Hp HS; cbn [powred_loop_w pow_small].
  { assert (p = 0) as -> by (change (2 ^ Z.of_nat 0) with 1 in Hp; lia). change (0 =? 0) with true. cbn beta iota.
    rewrite Z.pow_0_r, Z.mul_1_r. destruct HS as (_ & _ & _ & Hr & Rm & _). split; [eauto|]. intros [K|K]; [discriminate|lia]. }
  destruct (Z.eqb_spec p 0) as [->|P0].
  { rewrite Z.pow_0_r, Z.mul_1_r. destruct HS as (_ & _ & _ & Hr & Rm & _). split; [eauto|]. intros [K|K]; [discriminate|lia]. }
  rewrite odd_land. pose proof (half_lt p fuel Hp) as HL. pose proof (half p) as E.
  pose proof (pow_half v p ltac:(lia)) as PH. rewrite PH. clear PH. set (h := Z.shiftr p 1) in *.
  destruct (red_mul R (Z.odd p) value result temp v r HS) as (A & B). cbv zeta in A, B.
  set (u := if Z.odd p then v else 1) in *.
  assert (val m <= r * u -> val m <= r * (u * (v * v) ^ h)) as G1.
  { intros K. destruct HS as (_ & _ & _ & _ & Rm & _ & [(V1 & R1)|V0]).
    - assert (0 < (v * v) ^ h) by (apply Z.pow_pos_nonneg; [apply Z.mul_pos_pos|]; lia).
      assert (r * u * 1 <= r * u * (v * v) ^ h) by (apply Z.mul_le_mono_nonneg_l; lia). lia.
    - exfalso. unfold u in K. rewrite V0 in K. pose proof (Mpos m Hm Hne Ht). destruct (Z.odd p); lia. }
  destruct (Z.odd p && (limbs32 r && limbs32 v)) eqn:E32; cbn [negb andb].
  { split; [discriminate|]. intros _. rewrite B by (now left). reflexivity. }
  destruct (Z.lt_ge_cases (r * u) (val m)) as [RU|RU].
  2:{ split; [intros _ K; specialize (G1 RU); lia|]. intros _. rewrite B by (now right). reflexivity. }
  destruct (A eq_refl RU) as (result' & temp' & R' & -> & HS'). cbn [bind]. clear A B.
  destruct (Z.eqb_spec p 1) as [P1|P1]; cbn [negb andb bind].
  { assert (h = 0) as Eh by (unfold h; rewrite P1; reflexivity). rewrite Eh.
    assert (powred_loop_w None fuel c 0 R' value result' temp' = Ret result') as -> by (destruct fuel; reflexivity).
    rewrite Z.pow_0_r, Z.mul_1_r. destruct HS' as (_ & _ & _ & Hr' & _). split; [eauto|]. intros [K|K]; [discriminate|lia]. }
  assert (1 <= h) as H1 by (destruct (Z.odd p); lia).
  destruct (red_square R' value result' temp' v (r * u) HS') as (A & B). cbv zeta in A, B.
  assert (val m <= v * v -> val m <= r * (u * (v * v) ^ h)) as G2.
  { intros K. pose proof (Mpos m Hm Hne Ht) as MP. rewrite Z.mul_assoc. destruct HS' as (_ & _ & _ & _ & _ & _ & [(V1 & R1)|V0]); [|exfalso; rewrite V0 in K; lia].
    assert ((v * v) ^ 1 <= (v * v) ^ h) as K1 by (apply Z.pow_le_mono_r; lia). rewrite Z.pow_1_r in K1.
    assert (1 * (v * v) ^ h <= r * u * (v * v) ^ h) by (apply Z.mul_le_mono_nonneg_r; lia). lia. }
  destruct (limbs32 v) eqn:L32; cbn [negb andb].
  { split; [discriminate|]. intros _. rewrite B by (now left). reflexivity. }
  destruct (Z.lt_ge_cases (v * v) (val m)) as [VV|VV].
  2:{ split; [intros _ K; specialize (G2 VV); lia|]. intros _. rewrite B by (now right). reflexivity. }
  destruct (A eq_refl VV) as (value' & temp2 & R2 & -> & HS2). cbn [bind]. clear A B.
  rewrite Z.mul_assoc. apply (IH h R2 value' result' temp2 (v * v) (r * u)); [exact HL|exact HS2].
Qed.

(** ** Exponents of several limbs *)

Lemma red_step_eq p R value result temp :
  powred_v_step_w None c (p, R, value, result, temp) =
  ('(result, temp, red) <- (if Z.odd p then
      '(result, temp) <- buf_mul_self_w None c result value temp ;;
      '(result, red) <- buf_reduce_fast_w None c result R ;; Ret (result, temp, red)
    else Ret (result, temp, R)) ;;
   '(value, temp, red) <- ('(value, temp) <- buf_square_self_w None c value temp ;;
      '(value, red) <- buf_reduce_fast_w None c value red ;; Ret (value, temp, red)) ;;
   Ret (Z.shiftr p 1, red, value, result, temp)).
Proof.
  unfold powred_v_step_w. rewrite odd_land.
  destruct (if Z.odd p then _ else _) as [((r1, t1), R1)| | | |]; cbn [bind]; try reflexivity.
  destruct (buf_square_self_w None c value t1) as [(v1, t2)| | | |]; cbn [bind]; try reflexivity.
  destruct (buf_reduce_fast_w None c v1 R1) as [(v2, R2)| | | |]; reflexivity.
Qed.

Lemma steps_ub k : forall j p R value result temp v r,
  red_state R value result temp v r -> 2 <= v -> limbs32 (v ^ 2 ^ Z.of_nat k) = true ->
  for_up (S k) j (fun _ st => powred_v_step_w None c st) (p, R, value, result, temp) = UB.
Proof.
  induction k as [|k IH]; intros j p R value result temp v r HS V2 HL; rewrite for_up_S, red_step_eq.
  all: destruct (red_mul R (Z.odd p) value result temp v r HS) as (A & B); cbv zeta in A, B;
    destruct (Z.odd p && (limbs32 r && limbs32 v)); [rewrite B by (now left); reflexivity|];
    destruct (Z.lt_ge_cases (r * (if Z.odd p then v else 1)) (val m)) as [RU|RU];
      [|rewrite B by (now right); reflexivity];
    destruct (A eq_refl RU) as (result' & temp' & R' & -> & HS'); cbn [bind]; clear A B;
    destruct (red_square R' value result' temp' v _ HS') as (A & B); cbv zeta in A, B.
  - change (2 ^ Z.of_nat 0) with 1 in HL. rewrite Z.pow_1_r in HL. rewrite B by (now left). reflexivity.
  - destruct (limbs32 v) eqn:L32; [rewrite B by (now left); reflexivity|].
    destruct (Z.lt_ge_cases (v * v) (val m)) as [VV|VV]; [|rewrite B by (now right); reflexivity].
    destruct (A eq_refl VV) as (value' & temp2 & R2 & -> & HS2). cbn [bind].
    apply (IH _ _ R2 value' result' temp2 (v * v) _ HS2); [nia|].
    rewrite <- HL. f_equal. rewrite Nat2Z.inj_succ, Z.pow_succ_r by lia.
    rewrite Z.pow_mul_r by (try apply Z.pow_nonneg; lia). f_equal. ring.
Qed.

Lemma steps_unit k : forall j p R value result temp v r,
  red_state R value result temp v r -> 0 <= v <= 1 -> exists p' R' value' result' temp' r',
  for_up k j (fun _ st => powred_v_step_w None c st) (p, R, value, result, temp) = Ret (p', R', value', result', temp') /\
  red_state R' value' result' temp' v r' /\ (v = 1 -> r' = r).
Proof.
  induction k as [|k IH]; intros j p R value result temp v r HS V1.
  { rewrite for_up_0. exists p, R, value, result, temp, r. auto. }
  rewrite for_up_S, red_step_eq. pose proof (Mpos m Hm Hne Ht) as MP.
  destruct (red_mul R (Z.odd p) value result temp v r HS) as (A & _). cbv zeta in A.
  rewrite (limbs32_unit v V1), !andb_false_r in A.
  pose proof HS as (_ & _ & _ & [_ _ _ _ RH _] & Rm & _).
  set (u := if Z.odd p then v else 1) in *.
  assert (u = 0 \/ u = 1) as Hu by (unfold u; destruct (Z.odd p); lia).
  destruct (A eq_refl) as (result' & temp' & R' & -> & HS'); [destruct Hu as [-> | ->]; lia|]. cbn [bind]. clear A.
  destruct (red_square R' value result' temp' v _ HS') as (A & _). cbv zeta in A.
  rewrite (unit_square v V1) in A.
  destruct (A (limbs32_unit v V1)) as (value' & temp2 & R2 & -> & HS2).
  { assert (1 < val m); [|lia]. pose proof (m_lo m Hm Hne Ht) as ML. change (length m) with n in ML.
    pose proof (Bp_le 1 (n - 1) ltac:(lia)) as K. rewrite Bp_1 in K. num. lia. }
  cbn [bind].
  destruct (IH (S j) (Z.shiftr p 1) R2 value' result' temp2 v (r * u) HS2 V1) as (p3 & R3 & v3 & r3 & t3 & z3 & -> & H3 & H4).
  exists p3, R3, v3, r3, t3, z3. split; [reflexivity|]. split; [exact H3|]. intros Ev. rewrite (H4 Ev).
  unfold u. rewrite Ev. destruct (Z.odd p); ring.
Qed.

Lemma outer_unit e : forall k j R value result temp v r, (j + k <= length e)%nat ->
  red_state R value result temp v r -> 0 <= v <= 1 -> exists R' value' result' temp' r',
  for_up k j (fun i st =>
      let '(red, value, result, temp) := st in
      p <- rd e i ;;
      '(_, red, value, result, temp) <-
        for_up 32 0 (fun _ st => powred_v_step_w None c st) (p, red, value, result, temp) ;;
      Ret (red, value, result, temp)) (R, value, result, temp) = Ret (R', value', result', temp') /\
  red_state R' value' result' temp' v r' /\ (v = 1 -> r' = r).
Proof.
  induction k as [|k IH]; intros j R value result temp v r Hj HS V1.
  { rewrite for_up_0. exists R, value, result, temp, r. auto. }
  rewrite (for_up_S k). rewrite rd_ok by lia. cbn [bind].
  destruct (steps_unit 32 0 (nth j e 0) R value result temp v r HS V1) as (p2 & R2 & v2 & r2 & t2 & z2 & -> & H2 & E2).
  cbn [bind].
  destruct (IH (S j) R2 v2 r2 t2 v z2 ltac:(lia) H2 V1) as (R3 & v3 & r3 & t3 & z3 & -> & H3 & E3).
  exists R3, v3, r3, t3, z3. split; [reflexivity|]. split; [exact H3|]. intros Ev. rewrite E3, E2 by exact Ev. reflexivity.
Qed.

Lemma powred_v_loop_w_cases e R value result temp v :
  limbs e -> e <> [] -> top_nz e -> red_state R value result temp v 1 -> 0 <= v ->
  (v <= 1 -> exists b, powred_v_loop_w None c e R value result temp = Ret b /\ isbuf size b v) /\
  (2 <= v -> powred_v_loop_w None c e R value result temp = UB).
Proof.
  intros He Hn0 Hte HS V0. pose proof (nonempty_length e Hn0) as Le. unfold powred_v_loop_w. split.
  - intros V1.
    destruct (outer_unit e (length e) 0 R value result temp v 1 ltac:(lia) HS ltac:(lia)) as (R2 & v2 & r2 & t2 & z2 & -> & H2 & E2).
    cbn [bind].
    assert (rdz e (Z.of_nat (length e) - 1) = Ret (nth (length e - 1) e 0)) as ->.
    { unfold rdz. rewrite (proj2 (Z.ltb_ge _ 0)) by lia.
      replace (Z.to_nat (Z.of_nat (length e) - 1)) with (length e - 1)%nat by lia. apply rd_ok. lia. }
    cbn [bind]. pose proof (limbs_nth e (length e - 1) He) as G. unfold top_nz in Hte.
    set (p := nth (length e - 1) e 0) in *.
    destruct (powred_loop_w_cases bit_fuel p R2 v2 r2 t2 v z2) as (A & _); [change (Z.of_nat bit_fuel) with 33; num; lia|exact H2|].
    assert (z2 * v ^ p = v) as EV.
    { assert (v = 0 \/ v = 1) as [-> | ->] by lia.
      - rewrite Z.pow_0_l by (num; lia). apply Z.mul_0_r.
      - rewrite Z.pow_1_l by (num; lia). rewrite E2 by reflexivity. reflexivity. }
    rewrite EV in A. apply A; [apply pow_small_unit; lia|].
    pose proof (m_lo m Hm Hne Ht) as ML. change (length m) with n in ML.
    pose proof (Bp_le 1 (n - 1) ltac:(lia)) as K. rewrite Bp_1 in K. num. lia.
  - intros V2. apply ub_first. destruct (length e) as [|k] eqn:EL; [lia|]. rewrite (for_up_S k), rd_ok by lia. cbn [bind].
    do 2 apply ub_first. apply (steps_ub 31 _ _ _ _ _ _ v 1 HS V2).
    unfold limbs32. apply Z.leb_le. rewrite Z.abs_eq by (apply Z.pow_nonneg; lia).
    apply Z.le_trans with (2 ^ 2 ^ Z.of_nat 31).
    + apply Z.pow_le_mono_r; [lia|]. change (2 ^ Z.of_nat 31) with 2147483648. lia.
    + apply Z.pow_le_mono_l. lia.
Qed.

(** ** pow_core *)

Lemma core_start value v : isbuf size value v -> (bb_len value <= n)%nat -> exists tb rb R,
  buf_of_u size 0 = Ret tb /\ buf_of_u size 1 = Ret rb /\ reducer_make c m = Ret R /\ red_state R value rb tb v 1.
Proof.
  intros Hv Lv.
  pose proof (buf_of_u_spec size 0 ltac:(num; lia) ltac:(unfold size; lia)) as W. apply wp_inv in W. destruct W as (tb & E1 & T & _).
  pose proof (buf_of_u_spec size 1 ltac:(num; lia) ltac:(unfold size; lia)) as W. apply wp_inv in W. destruct W as (rb & E2 & Rb & _).
  pose proof (reducer_make_spec c m Hm Hne Ht ltac:(fold n; lia)) as W. apply wp_inv in W. destruct W as (R & E3 & HR).
  exists tb, rb, R. split; [exact E1|]. split; [exact E2|]. split; [exact E3|].
  pose proof (m_lo m Hm Hne Ht) as ML. change (length m) with n in ML.
  pose proof (Bp_le 1 (n - 1) ltac:(lia)) as K. rewrite Bp_1 in K. pose proof Hv as [_ _ _ _ HH _].
  split; [exact HR|]. split; [exact Hv|]. split; [exact Lv|]. split; [exact Rb|]. split; [num; lia|].
  split; [now apply isbuf_zeros|]. lia.
Qed.

Lemma core_u_w_cases p value v : 0 <= p < 2 ^ 32 -> isbuf size value v -> (bb_len value <= n)%nat ->
  (pow_small bit_fuel p v 1 = true -> v ^ p < val m -> exists l,
     powmod_core_u_w None c p m value = Ret l /\ limbs l /\ val l = v ^ p) /\
  (pow_small bit_fuel p v 1 = false \/ val m <= v ^ p -> powmod_core_u_w None c p m value = UB).
Proof.
  intros Hp Hv Lv. unfold powmod_core_u_w. pose proof Hv as [Sz _ _ _ _ _]. rewrite Sz. cbv zeta.
  destruct (core_start value v Hv Lv) as (tb & rb & R & -> & -> & E3 & HS). cbn [bind].
  rewrite (proj2 (Nat.ltb_ge (length m) ReducerThreshold)) by exact Hn. rewrite E3. cbn [bind].
  destruct (powred_loop_w_cases bit_fuel p R value rb tb v 1) as (A & B); [change (Z.of_nat bit_fuel) with 33; lia|exact HS|].
  rewrite Z.mul_1_l in A, B. split.
  - intros K1 K2. destruct (A K1 K2) as (b & -> & [_ BL BV _ _ _]). cbn [bind]. eauto.
  - intros K. rewrite (B K). reflexivity.
Qed.

Lemma core_v_w_cases e value v : limbs e -> e <> [] -> top_nz e -> isbuf size value v -> (bb_len value <= n)%nat ->
  (v <= 1 -> exists l, powmod_core_v_w None c e m value = Ret l /\ limbs l /\ val l = v) /\
  (2 <= v -> powmod_core_v_w None c e m value = UB).
Proof.
  intros He Hn0 Hte Hv Lv. unfold powmod_core_v_w. pose proof Hv as [Sz _ _ _ HH _]. rewrite Sz. cbv zeta.
  destruct (core_start value v Hv Lv) as (tb & rb & R & -> & -> & E3 & HS). cbn [bind].
  rewrite (proj2 (Nat.ltb_ge (length m) ReducerThreshold)) by exact Hn. rewrite E3. cbn [bind].
  destruct (powred_v_loop_w_cases e R value rb tb v He Hn0 Hte HS ltac:(lia)) as (A & B). split.
  - intros K1. destruct (A K1) as (b & -> & [_ BL BV _ _ _]). cbn [bind]. eauto.
  - intros K. rewrite (B K). reflexivity.
Qed.

Lemma start_buf l : limbs l -> exists b, powmod_buf c l m = Ret b /\
  isbuf size b (if Nat.ltb n (length l) then val l mod val m else val l) /\ (bb_len b <= n)%nat.
Proof.
  intros Hl. unfold powmod_buf. fold n. fold size. pose proof (m_hi m Hm) as MH. change (length m) with n in MH.
  pose proof (Mpos m Hm Hne Ht) as MP. pose proof (Bp_le n size ltac:(unfold size; lia)) as BL.
  destruct (Nat.ltb_spec n (length l)) as [G|G].
  - pose proof (calc_rem_spec c l m) as W. specialize (W Hl Hm Hne Ht ltac:(fold n; lia)).
    apply wp_inv in W. destruct W as (r & -> & A & B & C). cbn [bind].
    pose proof (Z.mod_pos_bound (val l) (val m) MP) as MB.
    pose proof (buf_of_v_spec size r B ltac:(lia)) as W. apply wp_inv in W. destruct W as (b & -> & Hb). rewrite C in Hb.
    exists b. split; [reflexivity|]. split; [exact Hb|]. apply (isbuf_len _ _ _ _ Hb). lia.
  - pose proof (val_bound l Hl) as VB. pose proof (Bp_le (length l) n G).
    pose proof (buf_of_v_spec size l Hl ltac:(lia)) as W. apply wp_inv in W. destruct W as (b & -> & Hb).
    exists b. split; [reflexivity|]. split; [exact Hb|]. apply (isbuf_len _ _ _ _ Hb). lia.
Qed.
End Large.

Lemma log2_limbs l : limbs l -> l <> [] -> top_nz l -> Z.log2 (val l) / 32 + 1 = Z.of_nat (length l).
Proof.
  intros Hl Hn Ht. pose proof (val_bound l Hl) as VB. pose proof (top_nz_bound l Hl Hn Ht) as TB.
  pose proof (nonempty_length l Hn) as L. rewrite Bp_pow2 in VB, TB.
  pose proof (Z.pow_pos_nonneg 2 (32 * Z.of_nat (length l - 1)) ltac:(lia) ltac:(lia)) as P.
  assert (32 * Z.of_nat (length l - 1) <= Z.log2 (val l)) as A by (apply Z.log2_le_pow2; lia).
  assert (Z.log2 (val l) < 32 * Z.of_nat (length l)) as B by (apply Z.log2_lt_pow2; lia).
  assert (Z.log2 (val l) / 32 = Z.of_nat (length l) - 1); [|lia].
  symmetry. apply (Z.div_unique_pos _ _ _ (Z.log2 (val l) - 32 * (Z.of_nat (length l) - 1))); lia.
Qed.

Lemma pow_small_one fuel v : pow_small (S fuel) 1 v 1 = true.
Proof.
  cbn [pow_small]. change (1 =? 0) with false. change (1 =? 1) with true. cbn iota. change (limbs32 1) with false.
  now rewrite andb_false_l, andb_false_r.
Qed.

(** What [win_power] says of the loop. *)
Lemma win_power_small v e : 0 <= v -> 0 <= e < 2 ^ 32 ->
  win_power v e = if pow_small bit_fuel e v 1 then Some (v ^ e) else None.
Proof.
  intros Hv He. unfold win_power.
  destruct (Z.le_gt_cases v 1) as [V1|V1].
  { rewrite !limbs32_unit_pow by lia. rewrite pow_small_unit by lia. reflexivity. }
  destruct (Z.le_gt_cases 2 e) as [E2|E2].
  - pose proof (pow_small_win v e ltac:(lia) ltac:(lia)) as K. rewrite Z.abs_eq in K by lia. rewrite K.
    destruct (limbs32 (v ^ 2 ^ (Z.log2 e - 1)) || limbs32 (v ^ (e - 2 ^ Z.log2 e))); reflexivity.
  - assert (e = 0 \/ e = 1) as [-> | ->] by lia.
    + change (Z.log2 0) with 0. change (2 ^ (0 - 1)) with 0. change (0 - 2 ^ 0) with (-1). rewrite Z.pow_0_r.
      change (v ^ -1) with 0. reflexivity.
    + change (Z.log2 1) with 0. change (2 ^ (0 - 1)) with 0. change (1 - 2 ^ 0) with 0. rewrite Z.pow_0_r.
      change (limbs32 1) with false. cbn [orb]. unfold bit_fuel. now rewrite pow_small_one.
Qed.

Lemma win_power_big v e : 2 <= v -> 2 ^ 31 <= e -> win_power v e = None.
Proof.
  intros Hv He. unfold win_power.
  assert (limbs32 (v ^ 2 ^ (Z.log2 e - 1)) = true) as ->; [|reflexivity].
  assert (31 <= Z.log2 e) as L by (apply Z.log2_le_pow2; lia).
  unfold limbs32. apply Z.leb_le. rewrite Z.abs_eq by (apply Z.pow_nonneg; lia).
  apply Z.le_trans with (2 ^ 2 ^ (Z.log2 e - 1)).
  - apply Z.pow_le_mono_r; [lia|]. apply Z.le_trans with (2 ^ 30); [lia|]. apply Z.pow_le_mono_r; lia.
  - apply Z.pow_le_mono_l. lia.
Qed.

Theorem mod_pow_w_large c a b m x e z :
  represents a x -> represents b e -> represents m z -> 0 <= e -> limbs32 z = true ->
  meets (bi_mod_pow_w None c a b m) (win_mod_pow x e z).
Proof.
  intros Ha Hb Hm He Hz. unfold bi_mod_pow_w.
  destruct (exp_parts b e Hb He) as (-> & Eb).
  rewrite (assert_valid_ok c a x Ha), (assert_valid_ok c b e Hb), (assert_valid_ok c m z Hm). cbn [bind].
  destruct (val_parts m z Hm) as [(M1 & M2 & M3)|(M1 & M2 & M3 & M4 & M5)].
  { exfalso. rewrite limbs32_small in Hz; [discriminate|num; lia]. }
  rewrite (is_nil_ne _ M1). cbv zeta.
  assert (32 <= length (bits_of m))%nat as L32.
  { apply Nat.leb_le. rewrite <- Hz, <- (limbs32_abs z), <- M4. symmetry. now apply limbs32_val. }
  rewrite (repr_sign_ltb a x Ha), (even_guard c b e _ Hb). cbn [bind].
  unfold win_mod_pow, win_base. rewrite <- M4. rewrite log2_limbs by assumption. rewrite <- Bp_pow2.
  set (n := length (bits_of m)) in *.
  set (v := if Z.abs x <? Bp n then Z.abs x else Z.abs x mod val (bits_of m)).
  assert (0 < val (bits_of m)) as MP by lia.
  assert (0 <= v) as V0.
  { unfold v. destruct (Z.abs x <? Bp n); [lia|]. apply Z.mod_pos_bound. lia. }
  (* one limb *)
  assert (forall o w, (exists buf, w = buf /\ isbuf (n + n) buf v /\ (bb_len buf <= n)%nat) -> 0 <= e < 2 ^ 32 ->
    o = powmod_core_u_w None c e (bits_of m) w ->
    meets (bits <- o ;; bi_of_mag c bits (negb (negb ((x <? 0) && Z.odd e))))
      (if v ^ e <? val (bits_of m) then match win_power v e with
         | Some r => Some (if (x <? 0) && Z.odd e then - r else r) | None => None end else None)) as KU.
  { intros o w (buf & -> & B & BL) He2 ->. destruct (core_u_w_cases c (bits_of m) M2 M1 M3 L32 e buf v He2 B BL) as (P & Q).
    rewrite win_power_small by assumption.
    destruct (Z.ltb_spec (v ^ e) (val (bits_of m))) as [VE|VE].
    - destruct (pow_small bit_fuel e v 1).
      + destruct (P eq_refl VE) as (l & -> & Ll & Vl). cbn [bind meets]. rewrite negb_involutive. apply returns_wp.
        apply mag_result; [exact Ll|]. now rewrite Vl.
      + rewrite Q by (now left). reflexivity.
    - rewrite Q by (now right). reflexivity. }
  (* several limbs *)
  assert (forall o w, (exists buf, w = buf /\ isbuf (n + n) buf v /\ (bb_len buf <= n)%nat) -> 2 ^ 31 <= e ->
    limbs (bits_of b) -> bits_of b <> [] -> top_nz (bits_of b) -> o = powmod_core_v_w None c (bits_of b) (bits_of m) w ->
    meets (bits <- o ;; bi_of_mag c bits (negb (negb ((x <? 0) && Z.odd e))))
      (if v ^ e <? val (bits_of m) then match win_power v e with
         | Some r => Some (if (x <? 0) && Z.odd e then - r else r) | None => None end else None)) as KV.
  { intros o w (buf & -> & B & BL) He2 Lb Nb Tb ->. destruct (core_v_w_cases c (bits_of m) M2 M1 M3 L32 (bits_of b) buf v Lb Nb Tb B BL) as (P & Q).
    destruct (Z.le_gt_cases v 1) as [V1|V1].
    - destruct (P V1) as (l & -> & Ll & Vl).
      assert (v ^ e = v) as EV.
      { assert (v = 0 \/ v = 1) as [-> | ->] by lia; [apply Z.pow_0_l|apply Z.pow_1_l]; lia. }
      unfold win_power. rewrite !limbs32_unit_pow by lia. cbn [orb]. rewrite EV.
      rewrite (proj2 (Z.ltb_lt v _)) by (num; lia). cbn [bind meets]. rewrite negb_involutive. apply returns_wp.
      apply mag_result; [exact Ll|]. now rewrite Vl.
    - rewrite Q by lia. rewrite win_power_big by lia. destruct (v ^ e <? val (bits_of m)); reflexivity. }
  assert (limbs (bits_of b) /\ top_nz (bits_of b) \/ bits_of b = []) as Tb.
  { destruct (val_parts b e Hb) as [(K & _)|(_ & K1 & K2 & _)]; auto. }
  destruct (val_parts a x Ha) as [(A1 & A2 & A3)|(A1 & A2 & A3 & A4 & A5)].
  - rewrite A1, A2. cbn [is_nil]. rewrite abs32_ok by exact A3. cbn [bind].
    assert (limb (Z.abs x)) as Lx by (num; lia).
    assert (v = Z.abs x) as EV.
    { unfold v. rewrite (proj2 (Z.ltb_lt _ _)); [reflexivity|]. pose proof (Bp_le 1 n ltac:(lia)) as K. rewrite Bp_1 in K. num; lia. }
    pose proof (buf_of_u_spec (n + n) (Z.abs x) Lx ltac:(lia)) as W. apply wp_inv in W. destruct W as (buf & E0 & B & BL).
    rewrite <- EV in B.
    destruct Eb as [(E1 & E2 & E3)|(E1 & E2 & E3)].
    + rewrite E1, E2. cbn [is_nil]. rewrite abs32_ok by (num; lia). cbn [bind]. rewrite (Z.abs_eq e) by lia.
      apply (KU _ buf); [exists buf; split; [reflexivity|split; [exact B|lia]]|lia|].
      unfold calc_powmod_uuv_w. fold n. rewrite E0. reflexivity.
    + rewrite (is_nil_ne _ E1).
      apply (KV _ buf); [exists buf; split; [reflexivity|split; [exact B|lia]]| | | | |]; try tauto.
      * destruct (val_parts b e Hb) as [(K & _)|(_ & _ & _ & _ & K)]; [contradiction|lia].
      * unfold calc_powmod_uvv_w. fold n. rewrite E0. reflexivity.
  - rewrite (is_nil_ne _ A1).
    destruct (start_buf c (bits_of m) M2 M1 M3 L32 (bits_of a) A2) as (buf & E0 & B & BL). change (length (bits_of m)) with n in B, BL.
    assert ((if Nat.ltb n (length (bits_of a)) then val (bits_of a) mod val (bits_of m) else val (bits_of a)) = v) as EV.
    { unfold v. rewrite <- A4. pose proof (val_bound _ A2) as VB. pose proof (top_nz_bound _ A2 A1 A3) as TB.
      destruct (Nat.ltb_spec n (length (bits_of a))) as [G|G].
      - rewrite (proj2 (Z.ltb_ge _ _)); [reflexivity|]. pose proof (Bp_le n (length (bits_of a) - 1) ltac:(lia)). lia.
      - rewrite (proj2 (Z.ltb_lt _ _)); [reflexivity|]. pose proof (Bp_le (length (bits_of a)) n ltac:(lia)). lia. }
    rewrite EV in B.
    destruct Eb as [(E1 & E2 & E3)|(E1 & E2 & E3)].
    + rewrite E1, E2. cbn [is_nil]. rewrite abs32_ok by (num; lia). cbn [bind]. rewrite (Z.abs_eq e) by lia.
      apply (KU _ buf); [exists buf; split; [reflexivity|split; [exact B|lia]]|lia|].
      unfold calc_powmod_vuv_w. rewrite E0. reflexivity.
    + rewrite (is_nil_ne _ E1).
      apply (KV _ buf); [exists buf; split; [reflexivity|split; [exact B|lia]]| | | | |]; try tauto.
      * destruct (val_parts b e Hb) as [(K & _)|(_ & _ & _ & _ & K)]; [contradiction|lia].
      * unfold calc_powmod_vvv_w. rewrite E0. reflexivity.
Qed.

(** Where it is defined, the LLP64 result is the remainder. *)
Theorem win_mod_pow_rem x e z r : z <> 0 -> 0 <= e -> win_mod_pow x e z = Some r -> r = Z.rem (x ^ e) z.
Proof.
  intros Hz He. unfold win_mod_pow, win_power.
  destruct (Z.ltb_spec (win_base x z ^ e) (Z.abs z)) as [H|H]; [|discriminate].
  destruct (_ || _); [discriminate|]. intros E. injection E as <-. rewrite rem_pow by assumption.
  assert (Z.abs x ^ e mod Z.abs z = win_base x z ^ e) as ->; [|reflexivity].
  assert (0 <= win_base x z) as P.
  { unfold win_base. destruct (_ <? _); [lia|]. apply Z.mod_pos_bound. lia. }
  rewrite <- (Z.mod_small (win_base x z ^ e) (Z.abs z)) by (split; [apply Z.pow_nonneg; lia|exact H]).
  unfold win_base. destruct (_ <? _); [reflexivity|]. rewrite Zpower_mod by lia. reflexivity.
Qed.
