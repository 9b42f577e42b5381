(** FastReducer.cpp: the reduction never fails, but its result is discarded
    (the value is passed by copy), so mod_pow with a modulus of 32 limbs or
    more returns an unreduced power. *)
From Verif Require Import Facts Spec AddSubFacts SquMulFacts DivRemFacts DivCoreFacts SpecFacts BigIntFacts SpecApi ConvFacts.
From Verif Require Import CompareFacts CalcAddSub CalcSquMul CalcDivRem CalcPowMod BigInt ConvLaws ShiftFacts WordFacts PowFacts ModPowFacts ModPowApi.

Ltac Zify.zify_post_hook ::= idtac.

(** ** Barrett reduction *)

Lemma barrett P B x m X mu qh :
  0 < P -> 0 < B -> P <= m -> 0 <= x < P * B ->
  X = x / P -> mu = (P * B) / m -> qh = X * mu / B ->
  0 <= qh * m <= x /\ x - qh * m < 3 * m.
Proof.
  intros HP HB Hm Hx EX Emu Eq.
  pose proof (Z.div_mod x P ltac:(lia)) as D1. pose proof (Z.mod_pos_bound x P HP) as M1. rewrite <- EX in D1.
  pose proof (Z.div_mod (P * B) m ltac:(lia)) as D2. pose proof (Z.mod_pos_bound (P * B) m ltac:(lia)) as M2. rewrite <- Emu in D2.
  pose proof (Z.div_mod (X * mu) B ltac:(lia)) as D3. pose proof (Z.mod_pos_bound (X * mu) B HB) as M3. rewrite <- Eq in D3.
  assert (0 <= X < B) as HX.
  { split; [subst X; apply Z.div_pos; lia|]. subst X. apply Z.div_lt_upper_bound; lia. }
  assert (0 <= mu) as Hmu by (subst mu; apply Z.div_pos; [apply Z.mul_nonneg_nonneg; lia|lia]).
  assert (0 <= qh) as Hqh by (subst qh; apply Z.div_pos; [apply Z.mul_nonneg_nonneg; lia|lia]).
  set (x0 := x mod P) in *. set (r0 := (P * B) mod m) in *. set (t := (X * mu) mod B) in *.
  clearbody x0 r0 t. clear EX Emu Eq.
  assert (B * (x - qh * m) = X * r0 + x0 * B + m * t) as E.
  { rewrite D1. replace (B * (P * X + x0 - qh * m)) with (X * (P * B) + x0 * B - m * (B * qh)) by ring.
    rewrite D2. replace (B * qh) with (X * mu - t) by lia. ring. }
  assert (0 <= X * r0) as G1 by (apply Z.mul_nonneg_nonneg; lia).
  assert (0 <= x0 * B) as G2 by (apply Z.mul_nonneg_nonneg; lia).
  assert (0 <= m * t) as G3 by (apply Z.mul_nonneg_nonneg; lia).
  assert (X * r0 <= B * m) as G4 by (apply Z.mul_le_mono_nonneg; lia).
  assert (x0 * B < m * B) as G5 by (apply Z.mul_lt_mono_pos_r; lia).
  assert (m * t < m * B) as G6 by (apply Z.mul_lt_mono_pos_l; lia).
  split; [split|].
  - apply Z.mul_nonneg_nonneg; lia.
  - destruct (Z.le_gt_cases (qh * m) x) as [|N]; [assumption|exfalso].
    assert (B * (x - qh * m) < B * 0) by (apply Z.mul_lt_mono_pos_l; lia). lia.
  - destruct (Z.lt_ge_cases (x - qh * m) (3 * m)) as [|N]; [assumption|exfalso].
    assert (B * (3 * m) <= B * (x - qh * m)) by (apply Z.mul_le_mono_nonneg_l; lia). lia.
Qed.

Lemma vl_high l k n : limbs l -> (k <= n <= length l)%nat -> val (firstn (n - k) (skipn k l)) = vl l n / Bp k.
Proof.
  intros Hl H. rewrite <- skipn_firstn_comm. unfold vl at 1.
  assert (length (firstn n l) = n) as L by (rewrite firstn_length; lia).
  pose proof (val_split (firstn n l) k ltac:(lia)) as E.
  pose proof (vl_bound (firstn n l) k (limbs_firstn n l Hl)) as B.
  apply (Z.div_unique_pos _ _ _ (vl (firstn n l) k)); lia.
Qed.

Lemma fill_all l : fill l (length l) 0 = Ret (zeros (length l)).
Proof. unfold fill. rewrite Nat.leb_refl, skipn_all, app_nil_r. reflexivity. Qed.

Lemma divmul_spec c lv ll rv rl bits k :
  limbs lv -> limbs rv -> (ll <= length lv)%nat -> (rl <= length rv)%nat -> (ll - k + rl <= length bits)%nat ->
  wp (reducer_divmul c lv ll rv rl bits k) (fun st =>
    isbuf (length bits) (Buf (fst st) (snd st)) (vl lv ll / Bp k * vl rv rl) /\ (snd st <= ll - k + rl)%nat).
Proof.
  intros Hl Hr Hll Hrl Hb. unfold reducer_divmul. rewrite fill_all. cbn [bind].
  pose proof (vl_bound rv rl Hr) as RB.
  destruct (Nat.ltb_spec k ll) as [K|K].
  - wstep. wstep; [lia|]. wstep. wstep; [lia|]. cbn [skipn]. wstep. apply slice_zeros; [lia|]. wstep.
    pose proof (vl_high lv k ll Hl ltac:(lia)) as EV.
    set (p := firstn (ll - k) (skipn k lv)) in *.
    assert (limbs p) as Lp by (apply limbs_firstn, limbs_skipn, Hl).
    assert (length p = ll - k)%nat as Np by (unfold p; rewrite firstn_length, skipn_length; lia).
    assert (limbs (firstn rl rv)) as Lq by (apply limbs_firstn, Hr).
    assert (length (firstn rl rv) = rl)%nat as Nq by (rewrite firstn_length; lia).
    change (vl rv rl) with (val (firstn rl rv)) in *.
    set (q := firstn rl rv) in *. clearbody p q. rewrite <- EV. clear EV.
    eapply wp_mono with (P := fun r => length r = (ll - k + rl)%nat /\ limbs r /\ val r = val p * val q).
    { rewrite <- Np, <- Nq. destruct (Nat.ltb_spec (length p) (length q)) as [G|G].
      - eapply wp_mono; [rewrite Nat.add_comm; apply calc_mul_core_spec; auto; lia|].
        intros r (A & B & C). split; [lia|]. split; [exact B|]. rewrite C. ring.
      - eapply wp_mono; [apply calc_mul_core_spec; auto; lia|].
        intros r (A & B & C). auto. }
    intros t (T1 & T2 & T3). wstep. wstep; [rewrite length_zeros; lia|]. cbn [firstn app Nat.add].
    rewrite skipn_zeros, T1.
    assert (length (t ++ zeros (length bits - (ll - k + rl))) = length bits) as LL by (rewrite app_length, length_zeros; lia).
    wstep. eapply wp_mono; [apply make_isbuf|].
    + apply limbs_app. split; [exact T2|apply limbs_zeros].
    + rewrite LL. exact Hb.
    + rewrite pad_val, T3. apply prod_fit; [rewrite <- Np|rewrite <- Nq]; now apply val_bound.
    + intros j (J1 & J2). wstep. cbn [fst snd]. rewrite LL, pad_val, T3 in J1. split; [exact J1|exact J2].
  - wstep. cbn [fst snd]. split; [|lia].
    pose proof (vl_bound lv ll Hl) as LB. pose proof (Bp_le ll k K).
    rewrite Z.div_small by lia. rewrite Z.mul_0_l.
    split; cbn [bb_bits bb_len]; auto using limbs_zeros, length_zeros, val_zeros; try lia.
    rewrite Bp_0. lia.
Qed.

Section Reduce.
Variables (c : cfg) (m : list Z).
Hypothesis Hm : limbs m.
Hypothesis Hne : m <> [].
Hypothesis Ht : top_nz m.
Let n := length m.
Hypothesis Hn : (2 <= n)%nat.

Lemma m_lo : Bp (n - 1) <= val m. Proof. now apply top_nz_bound. Qed.
Lemma m_hi : val m < Bp n. Proof. now apply val_bound. Qed.

Record reducer_ok (R : reducer) : Prop := {
  rd_mod : fr_modulus R = m;
  rd_limbs : limbs (fr_mu R);
  rd_val : val (fr_mu R) = Bp (n + n) / val m;
  rd_mulen : (fr_mulen R <= length (fr_mu R))%nat /\ (fr_mulen R <= n + 2)%nat;
  rd_muval : vl (fr_mu R) (fr_mulen R) = val (fr_mu R);
  rd_q1 : length (fr_q1 R) = (n * 2 + 2)%nat;
  rd_q2 : length (fr_q2 R) = (n * 2 + 1)%nat
}.

Lemma reducer_make_spec : wp (reducer_make c m) reducer_ok.
Proof.
  unfold reducer_make. fold n. wstep. wstep; [rewrite length_zeros; lia|].
  set (r := upd (zeros (n * 2 + 1)) (n * 2) 1).
  assert (length r = (n * 2 + 1)%nat) as Lr by (unfold r; rewrite length_upd; apply length_zeros).
  assert (limbs r) as Hr by (apply limbs_upd; [apply limbs_zeros|num; lia]).
  assert (val r = Bp (n + n)) as Vr.
  { unfold r. rewrite val_upd by (rewrite length_zeros; lia). rewrite val_zeros.
    assert (nth (n * 2) (zeros (n * 2 + 1)) 0 = 0) as -> by apply nth_repeat.
    replace (n * 2)%nat with (n + n)%nat by lia. ring. }
  wstep. eapply wp_mono; [apply calc_div_spec; auto; rewrite Lr; fold n; lia|].
  intros mu (A & B & C). rewrite Lr in A. fold n in A. wstep.
  eapply wp_mono; [apply actual_length_spec; lia|]. intros k (K1 & K2 & _). wstep.
  split; cbn [fr_modulus fr_mu fr_mulen fr_q1 fr_q2]; auto using length_zeros.
  - congruence.
  - lia.
  - rewrite K2. apply vl_all.
Qed.

Lemma submod_loop_spec fuel : forall lv ll y size,
  isbuf size (Buf lv ll) y -> y < Z.of_nat fuel * val m + val m ->
  wp (submod_loop fuel c lv ll m) (fun st => (snd st <= length (fst st))%nat).
Proof.
  pose proof m_lo as ML. pose proof m_hi as MH. pose proof (Bp_pos (n - 1)) as BP.
  induction fuel as [|fuel IH]; intros lv ll y size Hb Hy; cbn [submod_loop];
    pose proof Hb as [S L V N H Lo]; cbn [bb_bits bb_len] in *;
    destruct (isbuf_prefix _ _ _ Hb) as (P1 & P2 & P3 & P4); cbn [bb_bits bb_len] in *;
    wstep; (wstep; [lia|]); cbn [skipn];
    assert (wp (calc_compare_core c (firstn ll lv) m) (fun z => z < 0 \/ val m <= y /\ (n <= ll)%nat /\ 0 <= z)) as CMP.
  1,3: destruct (Nat.lt_trichotomy ll n) as [G|[G|G]];
    [ unfold calc_compare_core; rewrite P2; fold n; rewrite (proj2 (Nat.ltb_lt _ _) G); wstep; left; lia
    | rewrite calc_compare_core_spec; auto; [|left; rewrite P2; exact G]; wstep; rewrite P3; unfold cmpz;
      destruct (Z.compare_spec y (val m)); [right|left|right]; lia
    | unfold calc_compare_core; rewrite P2; fold n; rewrite (proj2 (Nat.ltb_ge _ _)) by lia;
      rewrite (proj2 (Nat.ltb_lt _ _) G); wstep; right; specialize (Lo ltac:(lia));
      pose proof (Bp_le n (ll - 1) ltac:(lia)); lia ].
  - wstep. eapply wp_mono; [exact CMP|]. intros z Hz. cbn beta in Hz. destruct (Z.ltb_spec z 0); [wstep; cbn [fst snd]; lia|exfalso].
    change (Z.of_nat 0) with 0 in Hy. rewrite Z.mul_0_l in Hy. lia.
  - wstep. eapply wp_mono; [exact CMP|]. intros z Hz. cbn beta in Hz. destruct (Z.ltb_spec z 0) as [|Hz0]; [wstep; cbn [fst snd]; lia|].
    destruct Hz as [|(Y & G & _)]; [lia|]. fold n. rewrite Nat.max_l by exact G.
    wstep. wstep; [lia|]. cbn [skipn]. wstep.
    eapply wp_mono; [apply calc_sub_self_spec; auto; [rewrite P2; exact G|lia]|].
    intros t (T1 & T2 & T3). rewrite P2 in T1. rewrite P3 in T3. wstep. wstep; [lia|]. cbn [firstn app Nat.add].
    rewrite T1, P4.
    assert (length (t ++ zeros (size - ll)) = size) as LL by (rewrite app_length, length_zeros; lia).
    wstep. eapply wp_mono; [apply make_isbuf|].
    + apply limbs_app. split; [exact T2|apply limbs_zeros].
    + rewrite LL. exact N.
    + rewrite pad_val, T3. lia.
    + intros j (J1 & J2). rewrite LL, pad_val, T3 in J1.
      apply (IH _ _ _ size J1). rewrite Nat2Z.inj_succ in Hy. lia.
Qed.

Lemma reduce_spec R size this x :
  reducer_ok R -> isbuf size this x -> (bb_len this <= n + 1)%nat ->
  wp (reducer_reduce c R (bb_bits this) (bb_len this)) (fun _ => True).
Proof.
  intros HR Hb Hlen. pose proof HR as [R1 R2 R3 [R4 R5] R6 R7 R8]. unfold reducer_reduce. rewrite R1. fold n.
  destruct (Nat.ltb_spec (bb_len this) n) as [G|G]; [now wstep|].
  pose proof Hb as [S L V N H Lo]. destruct (isbuf_prefix _ _ _ Hb) as (P1 & P2 & P3 & P4).
  wstep. eapply wp_mono; [apply divmul_spec; auto; lia|].
  intros (q1, l1) (Q1 & L1). cbn [fst snd] in Q1, L1. rewrite R6, R3 in Q1.
  pose proof Q1 as [QS QL QV QN QH QLo]. cbn [bb_bits bb_len] in *.
  wstep. eapply wp_mono; [apply divmul_spec; auto; unfold n in *; lia|].
  intros (q2, l2) (Q2 & L2). cbn [fst snd] in Q2, L2.
  assert (vl q1 l1 = val q1) as E1.
  { destruct (upper_zero q1 l1 QL ltac:(lia) ltac:(lia)) as (_ & E). exact E. }
  rewrite E1, QV in Q2. change (length m) with n in Q2. rewrite (vl_ge m n) in Q2 by (unfold n; lia).
  change (vl (bb_bits this) (bb_len this)) with (val (firstn (bb_len this) (bb_bits this))) in Q2. rewrite P3 in Q2.
  pose proof m_lo as ML. pose proof m_hi as MH.
  assert (Bp (n + n) = Bp (n - 1) * Bp (n + 1)) as EB by (rewrite <- Bp_add; f_equal; lia).
  pose proof (Bp_le (bb_len this) (n + n) ltac:(lia)) as BL.
  rewrite EB in Q2.
  destruct (barrett (Bp (n - 1)) (Bp (n + 1)) x (val m) _ _ _ (Bp_pos _) (Bp_pos _) ML ltac:(lia) eq_refl eq_refl eq_refl)
    as (Bq1 & Bq2).
  set (y := x / Bp (n - 1) * (Bp (n - 1) * Bp (n + 1) / val m) / Bp (n + 1) * val m) in *. clearbody y.
  pose proof Q2 as [TS TL TV TN TH TLo]. cbn [bb_bits bb_len] in *.
  assert (l2 <= bb_len this)%nat as Hl2.
  { destruct (Nat.le_gt_cases l2 (bb_len this)) as [|K]; [assumption|exfalso].
    specialize (TLo ltac:(lia)). pose proof (Bp_le (bb_len this) (l2 - 1) ltac:(lia)). lia. }
  wstep. unfold reducer_submod. rewrite (proj2 (Nat.ltb_ge (n + 1) (bb_len this))) by lia.
  rewrite (proj2 (Nat.ltb_ge (n + 1) l2)) by lia. rewrite Nat.max_l by exact Hl2.
  wstep. wstep; [lia|]. wstep. wstep; [lia|]. cbn [skipn]. wstep.
  assert (val (firstn l2 q2) = y) as Ey.
  { destruct (upper_zero q2 l2 TL ltac:(lia) ltac:(lia)) as (_ & E). unfold vl in E. lia. }
  eapply wp_mono; [apply calc_sub_self_spec; auto using limbs_firstn; [rewrite P2, firstn_length; lia|lia]|].
  intros t (T1 & T2 & T3). rewrite P2 in T1. rewrite P3, Ey in T3. wstep. wstep; [lia|]. cbn [firstn app Nat.add].
  rewrite T1, P4.
  assert (length (t ++ zeros (size - bb_len this)) = size) as LL by (rewrite app_length, length_zeros; lia).
  wstep. eapply wp_mono; [apply make_isbuf|].
  + apply limbs_app. split; [exact T2|apply limbs_zeros].
  + rewrite LL. exact N.
  + rewrite pad_val, T3. lia.
  + intros j (J1 & J2). rewrite LL, pad_val, T3 in J1. wstep.
    eapply wp_mono; [apply (submod_loop_spec submod_fuel _ _ _ size J1)|].
    * change (Z.of_nat submod_fuel) with 1000. lia.
    * intros (lv, ll) Hll. cbn [fst snd] in Hll. wstep. wstep; [lia|]. wstep. wstep. exact I.
Qed.
End Reduce.

(** ** mod_pow with exponent 1 *)

Lemma powred_one c m value result temp size v :
  limbs m -> m <> [] -> top_nz m -> (2 <= length m)%nat -> size = (length m + length m)%nat ->
  isbuf size value v -> (bb_len value <= length m)%nat ->
  isbuf size result 1 -> (bb_len result <= 1)%nat -> bb_bits temp = zeros size ->
  wp (red <- reducer_make c m ;; powred_loop bit_fuel c 1 red value result temp)
     (fun b => limbs (bb_bits b) /\ val (bb_bits b) = v).
Proof.
  intros Hm Hne Ht Hn Hs Hv Hvl Hr Hrl Htm. wstep. eapply wp_mono; [now apply reducer_make_spec|].
  intros R HR. unfold bit_fuel. cbn [powred_loop]. change (1 =? 0) with false. change (Z.land 1 1 =? 1) with true.
  change (negb (1 =? 1)) with false. change (Z.shiftr 1 1 =? 0) with true. cbn beta iota.
  wstep. wstep. eapply wp_mono; [apply buf_mul_self_spec; eauto; lia|].
  intros (r1, t1) (A & B & C). cbn [fst snd] in A, B, C. rewrite Z.mul_1_l in A.
  unfold buf_reduce_fast. wstep. wstep. eapply wp_mono; [eapply reduce_spec; eauto; lia|].
  intros (k, R2) _. wstep. wstep. wstep. wstep. destruct A. wstep. cbn [bb_bits]. auto.
Qed.

Lemma mod_pow_one_large c a b m x z n :
  represents a x -> represents b 1 -> represents m z ->
  32 <= n -> limb_count x n -> limb_count z n ->
  returns (bi_mod_pow c a b m) x.
Proof.
  intros Ha Hb Hm Hn Hx Hz. apply returns_wp. unfold bi_mod_pow.
  pose proof (limb_count_length a x n Ha Hx) as La. pose proof (limb_count_length m z n Hm Hz) as Lm.
  apply (represents_unique _ (Big 1 [])) in Hb; [|apply repr_small; num; lia]. subst b.
  assert (represents (Big 1 []) 1) as Hb by (apply repr_small; num; lia).
  cbn [sign_of bits_of]. change (1 <? 0) with false. cbn [is_nil].
  rewrite (assert_valid_ok c a x Ha), (assert_valid_ok c _ 1 Hb), (assert_valid_ok c m z Hm). cbn [bind].
  destruct (val_parts m z Hm) as [(M1 & M2 & M3)|(M1 & M2 & M3 & M4 & M5)]; [rewrite M1 in Lm; cbn [length] in Lm; lia|].
  destruct (val_parts a x Ha) as [(A1 & A2 & A3)|(A1 & A2 & A3 & A4 & A5)]; [rewrite A1 in La; cbn [length] in La; lia|].
  rewrite (is_nil_ne _ M1), (is_nil_ne _ A1). rewrite abs32_ok by (num; lia). cbn [bind]. change (Z.abs 1) with 1.
  assert (length (bits_of a) = length (bits_of m)) as EL by lia.
  assert (32 <= length (bits_of m))%nat as L32 by lia.
  unfold calc_powmod_vuv, powmod_buf, powmod_core_u. wstep. wstep.
  rewrite (proj2 (Nat.ltb_ge (length (bits_of m)) (length (bits_of a)))) by lia.
  set (size := (length (bits_of m) + length (bits_of m))%nat) in *.
  pose proof (val_bound _ A2) as VB.
  eapply wp_mono; [apply buf_of_v_spec; [exact A2|pose proof (Bp_le (length (bits_of a)) size ltac:(unfold size; lia)); lia]|].
  intros v Hv. pose proof Hv as [S _ _ _ _ Lo]. rewrite S.
  assert (bb_len v <= length (bits_of m))%nat as Lv.
  { destruct (Nat.le_gt_cases (bb_len v) (length (bits_of m))) as [|K]; [assumption|exfalso].
    specialize (Lo ltac:(lia)). pose proof (Bp_le (length (bits_of a)) (bb_len v - 1) ltac:(lia)). lia. }
  wstep. eapply wp_mono; [apply buf_of_u_spec; [num; lia|unfold size; lia]|]. intros temp (T & _).
  wstep. eapply wp_mono; [apply buf_of_u_spec; [num; lia|unfold size; lia]|]. intros result (Rs & RL).
  rewrite (proj2 (Nat.ltb_ge (length (bits_of m)) ReducerThreshold)) by (unfold ReducerThreshold; lia).
  wstep. eapply wp_mono; [eapply (powred_one c (bits_of m) v result temp size (val (bits_of a))); auto; try lia|].
  { pose proof T as [TS TL TV _ _ _]. rewrite (val_zero_zeros _ TL TV). now rewrite TS. }
  intros r (R1 & R2). wstep. rewrite (repr_sign_ltb a x Ha), (even_guard c _ 1 _ Hb). cbn [bind].
  apply mag_result; [exact R1|]. rewrite R2, A4. change (Z.odd 1) with true. rewrite Bool.andb_true_r, Bool.negb_involutive.
  destruct (Z.ltb_spec x 0); lia.
Qed.

(** ** mod_pow when no reduction is needed *)

Lemma isbuf_len size b v k : isbuf size b v -> v < Bp k -> (bb_len b <= k)%nat.
Proof.
  intros [_ _ _ _ _ Lo] H. destruct (Nat.le_gt_cases (bb_len b) k) as [|K]; [assumption|exfalso].
  specialize (Lo ltac:(lia)). pose proof (Bp_le k (bb_len b - 1) ltac:(lia)). lia.
Qed.

Lemma reduce_short c R b size v n :
  length (fr_modulus R) = n -> (1 <= n)%nat -> isbuf size b v -> v < Bp (n - 1) -> buf_reduce_fast c b R = Ret (b, R).
Proof.
  intros Hn H1 Hb Hv. pose proof (isbuf_len _ _ _ _ Hb Hv). unfold buf_reduce_fast, reducer_reduce. rewrite Hn.
  rewrite (proj2 (Nat.ltb_lt _ _)) by lia. cbn [bind]. now destruct b.
Qed.

Section Short.
Variables (c : cfg) (R : reducer) (n size : nat).
Hypothesis Hn : length (fr_modulus R) = n.
Hypothesis H1 : (1 <= n)%nat.
Hypothesis Hs : size = (n + n)%nat.

Lemma short_square value temp v : isbuf size value v -> bb_bits temp = zeros size -> 0 <= v -> v * v < Bp (n - 1) ->
  wp ('(value, temp) <- buf_square_self c value temp ;; '(value, red) <- buf_reduce_fast c value R ;; Ret (value, temp, red))
     (fun st => isbuf size (fst (fst st)) (v * v) /\ bb_bits (snd (fst st)) = zeros size /\ snd st = R).
Proof.
  intros Hv Ht V0 Hb.
  assert (v < Bp (n - 1)) as Hb1.
  { destruct (Z.eq_dec v 0); [pose proof (Bp_pos (n - 1)); lia|]. assert (v * 1 <= v * v) by (apply Z.mul_le_mono_nonneg_l; lia). lia. }
  pose proof (isbuf_len _ _ _ _ Hv Hb1).
  wstep. eapply wp_mono; [apply buf_square_self_spec; eauto; lia|]. intros (v1, t1) (A & B & _). cbn [fst snd] in A, B.
  rewrite (reduce_short c R v1 size (v * v) n) by assumption. cbn [bind]. repeat wstep. cbn [fst snd]. auto.
Qed.

Lemma short_mul (odd : bool) result value temp r v :
  isbuf size result r -> isbuf size value v -> bb_bits temp = zeros size ->
  r < Bp (n - 1) -> v < Bp (n - 1) -> r * (if odd then v else 1) < Bp (n - 1) ->
  wp (if odd then
        '(result, temp) <- buf_mul_self c result value temp ;;
        '(result, red) <- buf_reduce_fast c result R ;; Ret (result, temp, red)
      else Ret (result, temp, R))
     (fun st => isbuf size (fst (fst st)) (r * (if odd then v else 1)) /\ bb_bits (snd (fst st)) = zeros size /\ snd st = R).
Proof.
  intros Hr Hv Ht R1 V1 M. destruct odd.
  - pose proof (isbuf_len _ _ _ _ Hv V1). pose proof (isbuf_len _ _ _ _ Hr R1).
    wstep. eapply wp_mono; [apply buf_mul_self_spec; eauto; lia|]. intros (r1, t1) (A & B & _). cbn [fst snd] in A, B.
    rewrite (reduce_short c R r1 size (r * v) n) by assumption. cbn [bind]. repeat wstep. cbn [fst snd]. auto.
  - wstep. cbn [fst snd]. rewrite Z.mul_1_r. auto.
Qed.

Lemma powred_short fuel : forall p value result temp v r V W,
  0 <= p < 2 ^ Z.of_nat fuel -> isbuf size value v -> isbuf size result r -> bb_bits temp = zeros size ->
  0 <= v <= V -> 1 <= V -> 0 <= r <= W -> 1 <= W -> V < Bp (n - 1) -> W * V ^ p < Bp (n - 1) ->
  wp (powred_loop fuel c p R value result temp) (fun b => isbuf size b (r * v ^ p)).
Proof.
  induction fuel as [|fuel IH]; intros p value result temp v r V W Hp Hv Hr Ht Bv V1 Br W1 VB HB; cbn [powred_loop].
  - assert (p = 0) as -> by (change (2 ^ Z.of_nat 0) with 1 in Hp; lia). change (0 =? 0) with true. cbn beta iota.
    wstep. rewrite Z.pow_0_r, Z.mul_1_r. exact Hr.
  - destruct (Z.eqb_spec p 0) as [->|P0].
    { wstep. rewrite Z.pow_0_r, Z.mul_1_r. exact Hr. }
    rewrite odd_land, pow_half by lia. rewrite pow_half in HB by lia.
    pose proof (half_lt p fuel Hp) as HL. pose proof (half p) as E. set (h := Z.shiftr p 1) in *.
    assert (1 <= (V * V) ^ h) as G.
    { assert (0 < (V * V) ^ h) by (apply Z.pow_pos_nonneg; [apply Z.mul_pos_pos|]; lia). lia. }
    set (U := if Z.odd p then V else 1) in *. set (u := if Z.odd p then v else 1).
    assert (1 <= U) as U1 by (unfold U; destruct (Z.odd p); lia).
    assert (0 <= u <= U) as Bu by (unfold u, U; destruct (Z.odd p); lia).
    assert (r * u <= W * U) as Bru by (apply Z.mul_le_mono_nonneg; lia).
    assert (0 <= r * u) as Zru by (apply Z.mul_nonneg_nonneg; lia).
    assert (1 <= W * U) as W2 by (assert (1 * 1 <= W * U) by (apply Z.mul_le_mono_nonneg; lia); lia).
    assert (W * 1 <= W * U) as W3 by (apply Z.mul_le_mono_nonneg_l; lia).
    rewrite Z.mul_assoc in HB.
    assert (W * U * 1 <= W * U * (V * V) ^ h) as HB2 by (apply Z.mul_le_mono_nonneg_l; lia).
    wstep. eapply wp_mono; [apply (short_mul (Z.odd p) result value temp r v); auto; fold u; lia|].
    intros ((r1, t1), R1) (A & B & ER). cbn [fst snd] in A, B, ER. subst R1. fold u in A. wstep.
    destruct (Z.eqb_spec p 1) as [P1|P1]; cbn [negb].
    + wstep. assert (h = 0) as Eh by (unfold h; rewrite P1; reflexivity). rewrite Eh.
      destruct fuel; cbn [powred_loop]; change (0 =? 0) with true; cbn beta iota; wstep; rewrite Z.pow_0_r, Z.mul_1_r; exact A.
    + assert (v * v <= V * V) as VV by (apply Z.mul_le_mono_nonneg; lia).
      assert (0 <= v * v) as VV0 by (apply Z.mul_nonneg_nonneg; lia).
      assert (1 <= V * V) as VV1 by (assert (1 * 1 <= V * V) by (apply Z.mul_le_mono_nonneg; lia); lia).
      assert (V * V < Bp (n - 1)) as VV2.
      { assert (1 <= h) by (destruct (Z.odd p); lia).
        assert ((V * V) ^ 1 <= (V * V) ^ h) as K by (apply Z.pow_le_mono_r; lia). rewrite Z.pow_1_r in K.
        assert (1 * (V * V) ^ h <= W * U * (V * V) ^ h) by (apply Z.mul_le_mono_nonneg_r; lia). lia. }
      eapply wp_mono; [apply (short_square value t1 v); auto; lia|].
      intros ((v1, t2), R2) (A2 & B2 & ER). cbn [fst snd] in A2, B2, ER. subst R2.
      eapply wp_mono; [apply (IH h v1 r1 t2 (v * v) (r * u) (V * V) (W * U)); auto|].
      intros b Hb. rewrite <- Z.mul_assoc in Hb. exact Hb.
Qed.
End Short.

Lemma pow_pos_le x e : 0 <= x -> 1 <= e -> x <= x ^ e.
Proof.
  intros Hx He. destruct (Z.eq_dec x 0) as [->|]; [rewrite Z.pow_0_l; lia|].
  rewrite <- (Z.pow_1_r x) at 1. apply Z.pow_le_mono_r; lia.
Qed.

Lemma powmod_core_u_short c m value v p :
  limbs m -> m <> [] -> top_nz m -> (32 <= length m)%nat -> isbuf (length m + length m) value v ->
  0 <= v -> 0 <= p < 2 ^ 32 -> v < Bp (length m - 1) -> v ^ p < Bp (length m - 1) ->
  wp (powmod_core_u c p m value) (fun l => limbs l /\ val l = v ^ p).
Proof.
  intros Hm Hne Ht Hn Hv V0 Hp Hb0 Hb. unfold powmod_core_u. pose proof Hv as [S _ _ _ _ _]. rewrite S.
  wstep. eapply wp_mono; [apply buf_of_u_spec; [num; lia|lia]|]. intros temp (T & _).
  wstep. eapply wp_mono; [apply buf_of_u_spec; [num; lia|lia]|]. intros result (Rs & RL).
  rewrite (proj2 (Nat.ltb_ge (length m) ReducerThreshold)) by (unfold ReducerThreshold; lia).
  wstep. wstep. eapply wp_mono; [apply reducer_make_spec; auto; lia|]. intros R HR. destruct HR as [RM _ _ _ _ _ _].
  assert (1 < Bp (length m - 1)) as B1.
  { pose proof (Bp_le 1 (length m - 1) ltac:(lia)) as K. rewrite Bp_1 in K. num; lia. }
  assert (bb_bits temp = zeros (length m + length m)) as Zt.
  { pose proof T as [TS TL TV _ _ _]. rewrite (val_zero_zeros _ TL TV). now rewrite TS. }
  assert (bit_fuel = 33%nat) as BF by reflexivity.
  eapply wp_mono; [apply (powred_short c R (length m) (length m + length m) ltac:(congruence) ltac:(lia) eq_refl
    bit_fuel p value result temp v 1 (Z.max 1 v) 1); auto; try lia|].
  - rewrite BF. change (2 ^ Z.of_nat 33) with (2 ^ 33). lia.
  - rewrite Z.mul_1_l. destruct (Z.eq_dec v 0) as [->|N].
    + change (Z.max 1 0) with 1. rewrite Z.pow_1_l by lia. exact B1.
    + rewrite Z.max_r by lia. exact Hb.
  - intros b Hbb. rewrite Z.mul_1_l in Hbb. wstep. destruct Hbb. auto.
Qed.

Lemma mod_pow_large_short c a b m x e z n :
  represents a x -> represents b e -> represents m z -> 32 <= n -> limb_count z n ->
  0 <= e < 2 ^ 31 -> fits_limbs x (n - 1) -> fits_limbs (x ^ e) (n - 1) ->
  returns (bi_mod_pow c a b m) (Z.rem (x ^ e) z).
Proof.
  intros Ha Hb Hm Hn Hz He Hx Hxe. apply returns_wp. unfold bi_mod_pow.
  pose proof (limb_count_length m z n Hm Hz) as Lm.
  destruct (exp_parts b e Hb ltac:(lia)) as (-> & Eb).
  rewrite (assert_valid_ok c a x Ha), (assert_valid_ok c b e Hb), (assert_valid_ok c m z Hm). cbn [bind].
  destruct (val_parts m z Hm) as [(M1 & M2 & M3)|(M1 & M2 & M3 & M4 & M5)]; [rewrite M1 in Lm; cbn [length] in Lm; lia|].
  rewrite (is_nil_ne _ M1). wstep.
  assert (32 <= length (bits_of m))%nat as L32 by lia.
  assert (Bp (length (bits_of m) - 1) = 2 ^ (32 * (n - 1))) as EB by (rewrite Bp_pow2; f_equal; lia).
  unfold fits_limbs in Hx, Hxe. rewrite <- EB in Hx, Hxe. rewrite Z.abs_pow in Hxe.
  pose proof (top_nz_bound _ M2 M1 M3) as TB. rewrite M4 in TB.
  assert (0 <= Z.abs x ^ e) as P0 by (apply Z.pow_nonneg; lia).
  eapply wp_mono with (P := fun l => limbs l /\ val l = Z.abs x ^ e).
  { destruct Eb as [(E1 & E2 & E3)|(E1 & E2 & E3)].
    2:{ exfalso. pose proof (val_parts b e Hb) as [(K & _)|(_ & _ & _ & _ & K)]; [congruence|lia]. }
    rewrite E1, E2. cbn [is_nil].
    destruct (val_parts a x Ha) as [(A1 & A2 & A3)|(A1 & A2 & A3 & A4 & A5)].
    - rewrite A1, A2. cbn [is_nil]. wstep. apply wp_abs32; [exact A3|]. wstep. apply wp_abs32; [num; lia|].
      rewrite (Z.abs_eq e) by lia. unfold calc_powmod_uuv.
      wstep. eapply wp_mono; [apply buf_of_u_spec; [num; lia|lia]|]. intros v (Hv & _).
      apply powmod_core_u_short; auto; lia.
    - rewrite (is_nil_ne _ A1). wstep. apply wp_abs32; [num; lia|]. rewrite (Z.abs_eq e) by lia. unfold calc_powmod_vuv, powmod_buf.
      assert (length (bits_of a) <= length (bits_of m) - 1)%nat as La.
      { destruct (Nat.le_gt_cases (length (bits_of a)) (length (bits_of m) - 1)) as [|K]; [assumption|exfalso].
        pose proof (top_nz_bound _ A2 A1 A3) as TA. rewrite A4 in TA.
        pose proof (Bp_le (length (bits_of m) - 1) (length (bits_of a) - 1) ltac:(lia)). lia. }
      rewrite (proj2 (Nat.ltb_ge (length (bits_of m)) (length (bits_of a)))) by lia.
      wstep. pose proof (val_bound _ A2) as VB. rewrite <- A4 in *.
      eapply wp_mono; [apply buf_of_v_spec; [exact A2|]|].
      + pose proof (Bp_le (length (bits_of a)) (length (bits_of m) + length (bits_of m)) ltac:(lia)). lia.
      + intros v Hv. apply powmod_core_u_short; auto; lia. }
  intros l (L1 & L2). rewrite (repr_sign_ltb a x Ha), (even_guard c b e _ Hb). cbn [bind].
  rewrite Bool.negb_involutive. apply mag_result; [exact L1|]. rewrite rem_pow by lia. rewrite L2.
  rewrite Z.mod_small by lia. reflexivity.
Qed.
