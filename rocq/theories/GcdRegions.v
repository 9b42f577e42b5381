(** greatest_common_divisor: the three regions of operands, and runs through a
    Lehmer step on operands of different lengths. *)
From Verif Require Import Facts Spec AddSubFacts SquMulFacts DivRemFacts DivCoreFacts SpecFacts BigIntFacts SpecApi ConvFacts.
From Verif Require Import CompareFacts CalcAddSub CalcDivRem CalcPowMod CalcGcd BigInt ShiftFacts WordFacts PowFacts ModPowFacts ModPowApi ConvLaws ReducerFacts SpecGcd GcdFacts.
Ltac Zify.zify_post_hook ::= idtac.

(** ** Regions *)

Lemma scale_of x : 2 ^ 64 <= x -> exists k, 0 <= k /\ 2 ^ 62 <= x / 2 ^ k < 2 ^ 63.
Proof.
  intros H. pose proof (Z.log2_spec x ltac:(lia)) as L. pose proof (Z.log2_le_mono _ _ H) as M.
  rewrite Z.log2_pow2 in M by lia. exists (Z.log2 x - 62). split; [lia|].
  pose proof (Z.pow_pos_nonneg 2 (Z.log2 x - 62) ltac:(lia) ltac:(lia)) as P.
  split.
  - apply Z.div_le_lower_bound; [lia|]. rewrite <- Z.pow_add_r by lia. replace (Z.log2 x - 62 + 62) with (Z.log2 x) by lia. lia.
  - apply Z.div_lt_upper_bound; [lia|]. rewrite <- Z.pow_add_r by lia. replace (Z.log2 x - 62 + 63) with (Z.succ (Z.log2 x)) by lia. lia.
Qed.

Lemma step_dec x y : 2 ^ 64 <= x -> lehmer_step x y \/ ~ lehmer_step x y.
Proof.
  intros H. destruct (scale_of x H) as (k & Hk & HX). rewrite (taken_iff x y k Hk HX).
  destruct (Z.lt_ge_cases 0 (y / 2 ^ k)); [|right; lia].
  destruct (Z.lt_ge_cases (x / 2 ^ k / (y / 2 ^ k)) (2 ^ 31)); [|right; lia].
  destruct (Z.le_gt_cases (x / 2 ^ k / (y / 2 ^ k)) ((x / 2 ^ k) mod (y / 2 ^ k))); [left; auto|right; lia].
Qed.

Lemma count_exists x : 0 < x -> exists n, limb_count x n.
Proof.
  intros H. pose proof (Z.log2_spec x H) as L. pose proof (Z.log2_nonneg x) as G0.
  pose proof (Z.div_mod (Z.log2 x) 32 ltac:(lia)) as D. pose proof (Z.mod_pos_bound (Z.log2 x) 32 ltac:(lia)) as M.
  pose proof (Z.div_pos (Z.log2 x) 32 G0 ltac:(lia)) as Q.
  exists (Z.log2 x / 32 + 1). unfold limb_count, fits_limbs. rewrite Z.abs_eq by lia.
  split; [lia|]. split.
  - assert (2 ^ Z.succ (Z.log2 x) <= 2 ^ (32 * (Z.log2 x / 32 + 1))) by (apply Z.pow_le_mono_r; lia). lia.
  - intros m Hm F. destruct (Z.le_gt_cases (Z.log2 x / 32 + 1) m) as [|K]; [assumption|exfalso].
    assert (2 ^ (32 * m) <= 2 ^ Z.log2 x) by (apply Z.pow_le_mono_r; lia). lia.
Qed.

Lemma count_unique x n m : limb_count x n -> limb_count x m -> n = m.
Proof. intros (A1 & A2 & A3) (B1 & B2 & B3). specialize (A3 m B1 B2). specialize (B3 n A1 A2). lia. Qed.

Lemma count_low x n : 2 ^ 32 <= x -> limb_count x n -> 2 ^ (32 * (n - 1)) <= x < 2 ^ (32 * n).
Proof.
  intros H (A1 & A2 & A3). unfold fits_limbs in *. rewrite Z.abs_eq in * by lia. split; [|exact A2].
  destruct (Z.le_gt_cases (2 ^ (32 * (n - 1))) x) as [|K]; [assumption|exfalso].
  destruct (Z.eq_dec n 1) as [->|N]; [lia|]. specialize (A3 (n - 1) ltac:(lia) K). lia.
Qed.

(** A Lehmer step needs operands whose ratio is below 2^32. *)
Lemma step_ratio x y : 0 <= y -> lehmer_step x y -> x < 2 ^ 32 * y.
Proof.
  intros Hy (k & Hk & HX & HY & Q & _).
  pose proof (Z.pow_pos_nonneg 2 k ltac:(lia) Hk) as PK. set (K := 2 ^ k) in *. clearbody K.
  pose proof (Z.div_mod x K ltac:(lia)) as Dx. pose proof (Z.mod_pos_bound x K PK) as Mx.
  pose proof (Z.div_mod y K ltac:(lia)) as Dy. pose proof (Z.mod_pos_bound y K PK) as My.
  set (X := x / K) in *. set (Y := y / K) in *. clearbody X Y.
  assert (X < 2 ^ 31 * Y) as L.
  { pose proof (Z.div_mod X Y ltac:(lia)) as D. pose proof (Z.mod_pos_bound X Y HY) as M.
    assert (Y * (X / Y) <= Y * (2 ^ 31 - 1)) by (apply Z.mul_le_mono_nonneg_l; lia). lia. }
  assert (K * (X + 1) <= K * (2 ^ 31 * Y)) as G by (apply Z.mul_le_mono_nonneg_l; lia).
  assert (K * Y <= y) by lia. lia.
Qed.

Lemma step_lengths x y n m : 2 ^ 64 <= y -> y <= x -> lehmer_step x y -> limb_count x n -> limb_count y m -> n = m \/ n = m + 1.
Proof.
  intros H64 Hyx HS Cx Cy. pose proof (step_ratio x y ltac:(lia) HS) as R.
  pose proof (count_low x n ltac:(lia) Cx) as Lx. pose proof (count_low y m ltac:(lia) Cy) as Ly.
  destruct Cx as (N1 & _). destruct Cy as (M1 & _).
  destruct (Z.lt_trichotomy n m) as [G|[G|G]]; [exfalso|auto|right].
  - assert (2 ^ (32 * n) <= 2 ^ (32 * (m - 1))) by (apply Z.pow_le_mono_r; lia). lia.
  - destruct (Z.eq_dec n (m + 1)) as [|N]; [assumption|exfalso].
    assert (2 ^ (32 * (m + 1)) <= 2 ^ (32 * (n - 1))) as P by (apply Z.pow_le_mono_r; lia).
    replace (32 * (m + 1)) with (32 + 32 * m) in P by lia. rewrite Z.pow_add_r in P by lia. lia.
Qed.

Lemma regions x y : 0 <= y <= x -> euclid_run x y \/ lehmer_stuck x y \/ lehmer_uneven x y.
Proof.
  intros H. assert (exists n, (Z.to_nat y < n)%nat) as (n & Hn) by (exists (S (Z.to_nat y)); lia).
  revert x y H Hn. induction n as [|n IH]; intros x y H Hn; [lia|].
  destruct (Z.lt_ge_cases y (2 ^ 64)) as [S64|S64]; [left; now apply run_small|].
  destruct (step_dec x y ltac:(lia)) as [HS|HS].
  - right. destruct (count_exists x ltac:(lia)) as (j & Cj). destruct (count_exists y ltac:(lia)) as (i & Ci).
    destruct (step_lengths x y j i S64 ltac:(lia) HS Cj Ci) as [->| ->].
    + left. now apply (stuck_here x y i).
    + right. now apply (uneven_here x y i).
  - pose proof (Z.mod_pos_bound x y ltac:(lia)) as MB.
    destruct (IH y (x mod y) ltac:(lia) ltac:(lia)) as [E|[E|E]].
    + left. now apply run_step.
    + right; left. now apply stuck_step.
    + right; right. now apply uneven_step.
Qed.

Lemma run_not_stuck x y : euclid_run x y -> ~ lehmer_stuck x y /\ ~ lehmer_uneven x y.
Proof.
  induction 1 as [x y H|x y H HS _ IH].
  - split; intros K; inversion K; lia.
  - split; intros K; inversion K; subst; tauto.
Qed.

Lemma stuck_not_uneven x y : lehmer_stuck x y -> ~ lehmer_uneven x y.
Proof.
  induction 1 as [x y n H Cx Cy HS|x y H HS _ IH]; intros K; inversion K as [? ? m ? Dx Dy ?|]; subst; try tauto.
  pose proof (count_unique _ _ _ Cx Dx). pose proof (count_unique _ _ _ Cy Dy). lia.
Qed.

Lemma regions_exact x y : 0 <= y <= x ->
  (euclid_run x y \/ lehmer_stuck x y \/ lehmer_uneven x y) /\
  ~ (euclid_run x y /\ lehmer_stuck x y) /\ ~ (euclid_run x y /\ lehmer_uneven x y) /\
  ~ (lehmer_stuck x y /\ lehmer_uneven x y).
Proof.
  intros H. split; [now apply regions|]. split; [|split]; intros (A & B).
  - destruct (run_not_stuck x y A). auto.
  - destruct (run_not_stuck x y A). auto.
  - exact (stuck_not_uneven x y A B).
Qed.

(** ** Numbers close to each other *)

Lemma close_stuck x y n : 2 ^ 64 <= y -> limb_count x n -> limb_count y n ->
  2 ^ (Z.log2 x - 61) <= x - y -> 2 ^ (Z.log2 x - 61) <= 2 * y - x -> lehmer_stuck x y.
Proof.
  intros H64 Cx Cy HD H2. apply (stuck_here x y n H64 Cx Cy).
  pose proof (Z.log2_nonneg x) as G0.
  assert (0 <= 2 ^ (Z.log2 x - 61)) as P0 by (apply Z.pow_nonneg; lia).
  pose proof (Z.log2_spec x ltac:(lia)) as L.
  assert (64 <= Z.log2 x) as M. { pose proof (Z.log2_le_mono (2 ^ 64) x ltac:(lia)) as M. rewrite Z.log2_pow2 in M by lia. exact M. }
  set (k := Z.log2 x - 62) in *. exists k. split; [lia|].
  pose proof (Z.pow_pos_nonneg 2 k ltac:(lia) ltac:(lia)) as PK.
  replace (Z.log2 x - 61) with (k + 1) in HD, H2 by lia. rewrite Z.pow_add_r in HD, H2 by lia. change (2 ^ 1) with 2 in HD, H2.
  assert (2 ^ Z.log2 x = 2 ^ k * 2 ^ 62) as E1 by (rewrite <- Z.pow_add_r by lia; f_equal; lia).
  assert (2 ^ Z.succ (Z.log2 x) = 2 ^ k * 2 ^ 63) as E2 by (rewrite <- Z.pow_add_r by lia; f_equal; lia).
  rewrite E1, E2 in L. set (K := 2 ^ k) in *. clearbody K. clear E1 E2.
  pose proof (Z.div_mod x K ltac:(lia)) as Dx. pose proof (Z.mod_pos_bound x K PK) as Mx.
  pose proof (Z.div_mod y K ltac:(lia)) as Dy. pose proof (Z.mod_pos_bound y K PK) as My.
  set (X := x / K) in *. set (Y := y / K) in *.
  assert (2 ^ 62 <= X < 2 ^ 63) as BX.
  { split; [apply Z.div_le_lower_bound; lia|apply Z.div_lt_upper_bound; lia]. }
  clearbody X Y.
  assert (X < 2 * Y) as U1.
  { destruct (Z.lt_ge_cases X (2 * Y)) as [|N]; [assumption|exfalso].
    assert (K * (2 * Y) <= K * X) by (apply Z.mul_le_mono_nonneg_l; lia). lia. }
  assert (Y + 1 <= X) as U2.
  { destruct (Z.le_gt_cases (Y + 1) X) as [|N]; [assumption|exfalso].
    assert (K * X <= K * Y) by (apply Z.mul_le_mono_nonneg_l; lia). lia. }
  split; [exact BX|]. split; [lia|].
  assert (X / Y = 1) as E by (symmetry; apply (Z.div_unique X Y 1 (X - Y)); lia).
  assert (X mod Y = X - Y) as E' by (symmetry; apply (Z.mod_unique X Y 1 (X - Y)); lia).
  rewrite E, E'. lia.
Qed.

Lemma gcd_close c a b x y n fuel :
  represents a x -> represents b y -> 2 ^ 64 <= y -> limb_count x n -> limb_count y n ->
  2 ^ (Z.log2 x - 61) <= x - y -> 2 ^ (Z.log2 x - 61) <= 2 * y - x ->
  bi_gcd fuel c a b = NoFuel \/ (dbg c = true /\ bi_gcd fuel c a b = AssertFail).
Proof.
  intros Ha Hb H64 Cx Cy H1 H2. apply (gcd_stuck c a b x y fuel Ha Hb).
  assert (0 <= 2 ^ (Z.log2 x - 61)) as P0 by (apply Z.pow_nonneg; lia).
  rewrite !Z.abs_eq, Z.max_l, Z.min_r by lia. now apply (close_stuck x y n).
Qed.

(** ** A Lehmer step on operands of different lengths *)

Lemma guess_once X Y : 0 < Y <= X -> X < 2 ^ 63 -> X / Y < 2 ^ 31 -> X / Y <= X mod Y ->
  Y mod (X mod Y) < Y / (X mod Y) ->
  wp (lehmer_guess euclid_fuel (Leh 1 0 0 1 X Y 0)) (fun s => liter s = 1).
Proof.
  intros HY HX Q M T. assert (exists f, euclid_fuel = S f) as (f & ->) by (now exists 199%nat). cbn [lehmer_guess lx ly la lb lc ld liter].
  assert (1 <= X / Y) as Q1 by (apply Z.div_le_lower_bound; lia).
  pose proof (Z.mod_pos_bound X Y ltac:(lia)) as MB.
  rewrite (proj2 (Z.eqb_neq Y 0)) by lia. unfold udiv at 1. rewrite (proj2 (Z.eqb_neq Y 0)) by lia. cbn [bind].
  rewrite (proj2 (Z.ltb_ge UINT_MAX (X / Y))) by (unfold UINT_MAX; num; lia).
  cbv zeta. rewrite u64_rem by (num; lia).
  destruct (u64_comb (X / Y) 1 0) as (-> & G1); [unfold UINT_MAX; num; lia|num; lia|num; lia|].
  destruct (u64_comb (X / Y) 0 1) as (-> & G2); [unfold UINT_MAX; num; lia|num; lia|num; lia|].
  rewrite (proj2 (Z.ltb_ge INT_MAX (1 + X / Y * 0))) by (num; lia).
  rewrite (proj2 (Z.ltb_ge INT_MAX (0 + X / Y * 1))) by (num; lia). cbn [orb].
  rewrite (proj2 (Z.ltb_ge (X mod Y) (0 + X / Y * 1))) by lia. cbn [orb].
  rewrite !u64_small by (num; lia).
  rewrite (proj2 (Z.ltb_ge (Y - 0) (X mod Y + (1 + X / Y * 0)))) by lia.
  rewrite !u32_small by (num; lia).
  replace (0 + X / Y * 1) with (X / Y) by lia. replace (1 + X / Y * 0) with 1 by lia.
  destruct (X mod Y =? X / Y); [wstep; reflexivity|].
  unfold udiv at 1. rewrite (proj2 (Z.eqb_neq (X mod Y) 0)) by lia. cbn [bind].
  destruct (Z.ltb_spec UINT_MAX (Y / (X mod Y))) as [Q'|Q']; [wstep; reflexivity|].
  assert (0 <= Y / (X mod Y)) as Q0' by (apply Z.div_pos; lia).
  rewrite u64_rem by (num; lia).
  destruct (u64_comb (Y / (X mod Y)) 0 1) as (-> & G4); [lia|num; lia|num; lia|].
  match goal with |- wp (if ?b then _ else _) _ => destruct b end; [wstep; reflexivity|].
  rewrite (proj2 (Z.ltb_lt (Y mod (X mod Y)) (0 + Y / (X mod Y) * 1))) by lia. cbn [orb]. wstep. reflexivity.
Qed.

(** The clobbered buffer: limbs [n; nth 1; 0; ...; 0; top]. *)
Lemma core_uneven c sx sy xb yb x y s n :
  isbuf sx xb x -> isbuf sy yb y -> bb_len xb = S n -> bb_len yb = n -> (3 <= n)%nat -> Z.of_nat n < W32 ->
  x mod Bp n < 2 ^ 64 -> coef s ->
  exists len, (1 <= len <= 2)%nat /\
    lehmer_core c xb yb (la s) (lb s) (lc s) (ld s) = Ret (Buf (upd (bb_bits xb) 0 (Z.of_nat n)) len, yb) /\
    vl (upd (bb_bits xb) 0 (Z.of_nat n)) len = clobbered x (Z.of_nat n) /\
    nth (len - 1) (upd (bb_bits xb) 0 (Z.of_nat n)) 0 <> 0 /\
    Z.of_nat n + W32 * nth 1 (bb_bits xb) 0 = clobbered x (Z.of_nat n).
Proof.
  intros Hx Hy LX LY N3 NW HL (A & B & C & D & _). pose proof Hx as [S L V N _ _]. pose proof Hy as [Sy Ly _ Ny _ _].
  set (bits := bb_bits xb) in *. set (bits' := upd bits 0 (Z.of_nat n)).
  assert (0 < length bits)%nat as L0 by lia.
  assert (limbs bits') as L' by (apply limbs_upd; [exact L|unfold limb; num; lia]).
  assert (length bits' = length bits) as LE by apply length_upd.
  assert (x mod Bp n = vl bits n) as EM.
  { pose proof (val_split bits n ltac:(lia)) as E. rewrite <- V. symmetry.
    apply (Z.mod_unique _ _ (val (skipn n bits))); [left; now apply vl_bound|]. lia. }
  assert (forall i, (1 <= i)%nat -> vl bits' i = vl bits i - nth 0 bits 0 + Z.of_nat n) as EU.
  { intros i Hi. induction i as [|i IH]; [lia|]. destruct i as [|i].
    - unfold bits'. rewrite vl_upd_S by lia. rewrite vl_S, !vl_0. change (Bp 0) with 1. lia.
    - rewrite vl_S, (vl_S bits), IH by lia. unfold bits'. rewrite nth_upd_other by lia. lia. }
  assert (vl bits 2 = nth 0 bits 0 + W32 * nth 1 bits 0) as E2.
  { rewrite !vl_S, vl_0. change (Bp 0) with 1. change (Bp 1) with W32. lia. }
  assert (vl bits n = vl bits 2) as E3.
  { pose proof (vl_bound bits 2 L) as VB. rewrite EM in HL. change (2 ^ 64) with (Bp 2) in HL.
    destruct (upper_zero (firstn n bits) 2) as (_ & E).
    - now apply limbs_firstn.
    - rewrite firstn_length. lia.
    - exact HL.
    - unfold vl in *. rewrite firstn_firstn in E. now replace (Nat.min 2 n) with 2%nat in E by lia. }
  assert (x mod 2 ^ 32 = nth 0 bits 0) as EL.
  { change (2 ^ 32) with (Bp 1). pose proof (val_split bits 1 ltac:(lia)) as E. rewrite <- V. symmetry.
    assert (vl bits 1 = nth 0 bits 0) as E1 by (rewrite vl_S, vl_0; change (Bp 0) with 1; lia).
    apply (Z.mod_unique _ _ (val (skipn 1 bits))); [left; rewrite <- E1; now apply vl_bound|]. lia. }
  assert (clobbered x (Z.of_nat n) = Z.of_nat n + W32 * nth 1 bits 0) as EC.
  { unfold clobbered. rewrite <- Bp_pow2, EM, EL, E3, E2. change (2 ^ 32) with W32. rewrite (Z.mod_small (Z.of_nat n)) by lia. lia. }
  assert (vl bits' n = clobbered x (Z.of_nat n)) as EV by (rewrite EU, E3, E2, EC by lia; lia).
  pose proof (limbs_nth bits 1 L) as NL. unfold limb in NL.
  pose proof (actual_length_spec bits' n ltac:(lia)) as W. apply wp_inv in W. destruct W as (len & EA & A1 & A2 & A3).
  assert (1 <= len)%nat as LE1.
  { destruct len; [|lia]. rewrite vl_0 in A2. num; lia. }
  assert (nth (len - 1) bits' 0 <> 0) as TN by (destruct A3; [lia|assumption]).
  exists len. split.
  { split; [exact LE1|]. destruct (Nat.le_gt_cases len 2) as [|K]; [assumption|exfalso].
    pose proof (vl_bound bits' (len - 1) L') as VB. pose proof (limbs_nth bits' (len - 1) L') as NB. unfold limb in NB.
    replace len with (Datatypes.S (len - 1)) in A2 by lia. rewrite vl_S in A2.
    pose proof (Bp_le 2 (len - 1) ltac:(lia)) as G. change (Bp 2) with (W32 * W32) in G.
    assert (1 * Bp (len - 1) <= nth (len - 1) bits' 0 * Bp (len - 1)) by (apply Z.mul_le_mono_nonneg_r; lia).
    rewrite EC in EV. num; lia. }
  split.
  - unfold lehmer_core.
    assert (forall b k, b = true -> massert c b ;;; k = k :> outcome (bitsbuf * bitsbuf)) as MA.
    { intros b k ->. unfold massert. now destruct (dbg c). }
    rewrite !MA; [|apply andb_true_intro; split; apply Z.leb_le; lia|apply andb_true_intro; split; apply Z.leb_le; lia
      |apply Nat.leb_le; lia|apply Nat.leb_le; lia|apply Nat.leb_le; lia].
    pose proof (core_loop c _ _ _ _ (bb_bits xb) (bb_bits yb) (bb_len yb) A B C D L Ly ltac:(fold bits; lia) ltac:(lia)) as W.
    apply wp_inv in W. destruct W as (r & -> & _). cbn [bind].
    rewrite (refresh_same _ _ _ Hy). unfold buf_refresh. rewrite LX, LY.
    rewrite (proj2 (Nat.ltb_lt _ _)) by lia. replace (Datatypes.S n - n)%nat with 1%nat by lia.
    unfold fill. rewrite (proj2 (Nat.leb_le _ _)) by (fold bits; lia). cbn [bind repeat app].
    rewrite u32_small by lia.
    assert (Z.of_nat n :: skipn 1 (bb_bits xb) = bits') as ->.
    { unfold bits', bits. fold bits in L0. unfold bits in L0. destruct (bb_bits xb); [cbn in L0; lia|reflexivity]. }
    rewrite EA. reflexivity.
  - split; [rewrite A2; exact EV|]. split; [exact TN|]. symmetry; exact EC.
Qed.

Lemma reduce_prefix c l bits bits2 len :
  firstn len bits = firstn len bits2 -> (len <= length bits)%nat -> (len <= length bits2)%nat ->
  buf_reduce_buf c l (Buf bits len) = buf_reduce_buf c l (Buf bits2 len).
Proof.
  intros E H1 H2. unfold buf_reduce_buf, slice. cbn [bb_bits bb_len skipn Nat.add]. rewrite E.
  rewrite (proj2 (Nat.leb_le len (length bits)) H1), (proj2 (Nat.leb_le len (length bits2)) H2). reflexivity.
Qed.

Lemma round_uneven c sx sy xb yb x y n :
  isbuf sx xb x -> isbuf sy yb y -> bb_len xb = S n -> bb_len yb = n -> (3 <= n)%nat -> Z.of_nat n < W32 ->
  x mod Bp n < 2 ^ 64 -> y <= x -> lehmer_step x y ->
  exists len, let rb := Buf (upd (bb_bits xb) 0 (Z.of_nat n)) len in (1 <= len <= 2)%nat /\
    (lehmer_round c xb yb = Ret (yb, rb) \/ (lehmer_round c xb yb = Ret (rb, yb) /\ ~ lehmer_once x y)) /\
    vl (bb_bits rb) len = clobbered x (Z.of_nat n) /\
    nth (len - 1) (bb_bits rb) 0 <> 0 /\
    Z.of_nat n + W32 * nth 1 (bb_bits xb) 0 = clobbered x (Z.of_nat n).
Proof.
  intros Hx Hy LX LY N3 NW HL Hyx Hn. unfold lehmer_round.
  destruct (extract_total c sx sy xb yb x y Hx Hy ltac:(lia)) as (X & Y & BX & BY & -> & K).
  destruct (K Hyx) as (k & Hk & X62 & EX & EY). clear K.
  assert (Y <= X) as YX by (rewrite EX, EY; apply Z.div_le_mono; [apply Z.pow_pos_nonneg; lia|exact Hyx]).
  assert (forall b j, b = true -> massert c b ;;; j = j :> outcome (Z * Z)) as MA.
  { intros b j ->. unfold massert. now destruct (dbg c). }
  rewrite MA by (apply Z.leb_le; exact YX). cbn [bind].
  pose proof (guess_first X Y ltac:(lia) ltac:(lia)) as G. apply wp_inv in G. destruct G as (s & EG & C & F & _).
  assert (lehmer_once x y -> liter s = 1) as ONCE.
  { intros (j & Hj & HJ & O1 & O2 & O3 & O4).
    assert (j = k) as ->.
    { assert (lehmer_step x y) as (j' & Hj' & HJ' & _) by exact Hn. clear - Hj HJ Hk X62 BX EX.
      assert (forall i i', 0 <= i -> i < i' -> 2 ^ 62 <= x / 2 ^ i' -> x / 2 ^ i < 2 ^ 63 -> False) as U.
      { intros i i' Hi Hlt H1 H2.
        assert (x / 2 ^ i' = x / 2 ^ i / 2 ^ (i' - i)) as E.
        { rewrite Z.div_div by (try apply Z.pow_pos_nonneg; try apply Z.pow_nonzero; lia). f_equal. rewrite <- Z.pow_add_r by lia. f_equal. lia. }
        rewrite E in H1. assert (2 ^ 1 <= 2 ^ (i' - i)) as G by (apply Z.pow_le_mono_r; lia). change (2 ^ 1) with 2 in G.
        assert (0 < 2 ^ 62) as P62 by reflexivity.
        assert (x / 2 ^ i / 2 ^ (i' - i) < 2 ^ 62); [|lia].
        apply Z.div_lt_upper_bound; [lia|].
        assert (2 * 2 ^ 62 <= 2 ^ (i' - i) * 2 ^ 62) by (apply Z.mul_le_mono_nonneg_r; lia). lia. }
      destruct (Z.lt_trichotomy j k) as [G|[G|G]]; [exfalso|exact G|exfalso].
      - apply (U j k); lia.
      - apply (U k j); lia. }
    rewrite <- EX, <- EY in *.
    pose proof (guess_once X Y ltac:(lia) ltac:(lia) O2 O3 O4) as W. rewrite EG in W. exact W. }
  rewrite EG. cbn [bind].
  apply (taken_iff x y k Hk ltac:(lia)) in Hn. rewrite <- EX, <- EY in Hn.
  rewrite (proj2 (Z.eqb_neq (lb s) 0)) by (apply F; tauto).
  destruct (core_uneven c sx sy xb yb x y s n Hx Hy LX LY N3 NW HL C) as (len & H1 & -> & H2 & H3 & H4).
  exists len. cbn [bb_bits bind]. split; [exact H1|]. split; [|auto].
  destruct (Z.rem (liter s) 2 =? 1) eqn:R; [left; reflexivity|right]. split; [reflexivity|].
  intros O. rewrite (ONCE O) in R. discriminate R.
Qed.

Lemma extract_short c xb yb : (1 <= bb_len xb <= 2)%nat -> (bb_len xb <= length (bb_bits xb))%nat ->
  extract_digits c xb yb = if dbg c then AssertFail else Undef OutOfBounds.
Proof.
  intros H1 H2. unfold extract_digits, massert. destruct (dbg c).
  - rewrite (proj2 (Z.leb_gt 3 _)) by lia. reflexivity.
  - cbn [bind]. unfold rdz at 1. rewrite (proj2 (Z.ltb_ge _ 0)) by lia. unfold rd. rewrite (nth_error_nth' _ 0) by lia. cbn [bind].
    unfold rdz at 1. destruct (Z.ltb_spec (Z.of_nat (bb_len xb) - 2) 0) as [G|G]; [reflexivity|].
    unfold rd. rewrite (nth_error_nth' _ 0) by lia. cbn [bind].
    unfold rdz at 1. rewrite (proj2 (Z.ltb_lt _ 0)) by lia. reflexivity.
Qed.

Lemma calc_gcd_uneven c lv rv x y n fuel :
  limbs lv -> limbs rv -> lv <> [] -> rv <> [] -> top_nz lv -> top_nz rv -> val lv = x -> val rv = y ->
  y <= x -> length lv = S n -> length rv = n -> (3 <= n)%nat -> Z.of_nat n < W32 -> x mod Bp n < 2 ^ 64 -> lehmer_step x y ->
  (exists l, calc_gcd (S (S fuel)) c lv rv = Ret l /\ limbs l /\ val l = Z.gcd y (clobbered x (Z.of_nat n))) \/
  (calc_gcd (S (S fuel)) c lv rv = (if dbg c then AssertFail else Undef OutOfBounds) /\ ~ lehmer_once x y).
Proof.
  intros Ll Lr Nl Nr Tl Tr Vl Vr Hyx EL ER N3 NW HM HS.
  pose proof (buf_of_v_spec (length lv) lv Ll ltac:(apply val_bound, Ll)) as W. apply wp_inv in W. destruct W as (xb & E1 & Hx).
  pose proof (buf_of_v_spec (length rv) rv Lr ltac:(apply val_bound, Lr)) as W. apply wp_inv in W. destruct W as (yb & E2 & Hy).
  rewrite Vl in Hx. rewrite Vr in Hy.
  assert (forall s b v k, isbuf s b v -> Bp k <= v < Bp (S k) -> bb_len b = S k) as LEN.
  { intros s b v k Hb Hv. pose proof (isbuf_len _ _ _ _ Hb ltac:(apply Hv)) as U.
    pose proof Hb as [_ _ _ _ HB _]. destruct (Nat.le_gt_cases (S k) (bb_len b)) as [|K]; [lia|exfalso].
    pose proof (Bp_le (bb_len b) k ltac:(lia)). lia. }
  assert (bb_len xb = S n) as LX.
  { apply (LEN _ _ _ _ Hx). pose proof (top_nz_bound lv Ll Nl Tl) as TB. pose proof (val_bound lv Ll) as VB. rewrite EL in *.
    replace (S n - 1)%nat with n in TB by lia. lia. }
  assert (bb_len yb = n) as LY.
  { replace n with (S (n - 1)) by lia. apply (LEN _ _ _ _ Hy). pose proof (top_nz_bound rv Lr Nr Tr) as TB. pose proof (val_bound rv Lr) as VB. rewrite ER in *.
    replace (S (n - 1)) with n by lia. lia. }
  assert (0 < y) as Y0.
  { pose proof Hy as [_ _ _ _ _ Lo]. specialize (Lo ltac:(lia)). pose proof (Bp_pos (bb_len yb - 1)). lia. }
  destruct (round_uneven c _ _ xb yb x y n Hx Hy LX LY N3 NW HM Hyx HS) as (len & H1 & HR & H2 & H3 & H4).
  cbn [bb_bits] in *. set (bits' := upd (bb_bits xb) 0 (Z.of_nat n)) in *. set (rb := Buf bits' len) in *.
  pose proof Hx as [Sx Lx _ _ _ _]. pose proof Hy as [Sy Lyb _ _ _ _].
  assert (limbs bits') as L' by (apply limbs_upd; [exact Lx|unfold limb; num; lia]).
  assert (length bits' = S n) as LB by (unfold bits'; rewrite length_upd; lia).
  assert (forall T (k : bitsbuf * bitsbuf -> outcome T), calc_gcd (S (S fuel)) c lv rv =
    ('(lbuf, _) <- ('(lbuf, rbuf) <- lehmer_loop (S (S fuel)) c xb yb ;;
       (if Nat.ltb 0 (bb_len rbuf) then
          lbuf <- buf_reduce_buf c lbuf rbuf ;;
          x1 <- rd (bb_bits rbuf) 1 ;; x0 <- rd (bb_bits rbuf) 0 ;;
          y1 <- rd (bb_bits lbuf) 1 ;; y0 <- rd (bb_bits lbuf) 0 ;;
          let x := Z.lor (u64 (Z.shiftl x1 32)) x0 in
          let y := Z.lor (u64 (Z.shiftl y1 32)) y0 in
          g <- calc_gcd64 x y ;;
          lbuf <- buf_overwrite lbuf g ;;
          rbuf <- buf_overwrite rbuf 0 ;;
          Ret (lbuf, rbuf)
        else Ret (lbuf, rbuf))) ;; Ret (bb_bits lbuf))) as E.
  { intros _ _. unfold calc_gcd, calc_gcd_buf. rewrite E1, E2. rewrite calc_compare_spec by auto. rewrite Vl, Vr.
    assert (0 <=? cmpz x y = true) as CM.
    { unfold cmpz. destruct (Z.compare_spec x y); [reflexivity|lia|reflexivity]. }
    unfold massert. cbn [bind].
    repeat rewrite (proj2 (Nat.leb_le _ _)) by lia.
    destruct (dbg c); cbn [bind]; rewrite ?CM; cbn [bind]; repeat rewrite (proj2 (Nat.leb_le _ _)) by lia; cbn [bind];
    reflexivity. }
  rewrite (E unit (fun _ => Ret tt)). clear E.
  assert (lehmer_loop (S (S fuel)) c xb yb = ('(l, r) <- lehmer_round c xb yb ;; lehmer_loop (S fuel) c l r)) as ->.
  { cbn [lehmer_loop]. rewrite LY, (proj2 (Nat.ltb_lt 2 n)) by lia. reflexivity. }
  destruct HR as [-> |(-> & O)]; cbn [bind].
  - left.
    assert (lehmer_loop (S fuel) c yb rb = Ret (yb, rb)) as ->.
    { cbn [lehmer_loop]. unfold rb at 1. cbn [bb_len]. rewrite (proj2 (Nat.ltb_ge 2 len)) by lia. reflexivity. }
    cbn [bind]. unfold rb at 1. cbn [bb_len]. rewrite (proj2 (Nat.ltb_lt 0 len)) by lia.
    set (v := clobbered x (Z.of_nat n)) in *.
    set (rb2 := Buf (firstn len bits' ++ zeros (S n - len)) len).
    assert (isbuf (S n) rb2 v) as HB.
    { split; cbn [bb_bits bb_len rb2].
      - rewrite app_length, firstn_length, length_zeros. lia.
      - apply limbs_app. split; [now apply limbs_firstn|apply limbs_zeros].
      - rewrite pad_val. exact H2.
      - lia.
      - rewrite <- H2. now apply vl_bound.
      - intros _. rewrite <- H2. replace len with (S (len - 1)) at 2 by lia. rewrite vl_S.
        pose proof (vl_bound bits' (len - 1) L'). pose proof (limbs_nth bits' (len - 1) L') as NB. unfold limb in NB.
        pose proof (Bp_pos (len - 1)).
        assert (1 * Bp (len - 1) <= nth (len - 1) bits' 0 * Bp (len - 1)) by (apply Z.mul_le_mono_nonneg_r; lia). lia. }
    unfold rb at 1. rewrite (reduce_prefix c yb bits' (firstn len bits' ++ zeros (S n - len)) len).
    2:{ rewrite firstn_app, firstn_length, firstn_firstn. replace (Nat.min len len) with len by lia.
        replace (len - Nat.min len (length bits'))%nat with O by lia. cbn [firstn]. now rewrite app_nil_r. }
    2:{ lia. }
    2:{ rewrite app_length, firstn_length, length_zeros. lia. }
    fold rb2.
    assert (0 < v < 2 ^ 64) as V0.
    { pose proof HB as [_ _ _ _ Hi Lo]. specialize (Lo ltac:(cbn [bb_len rb2]; lia)). pose proof (Bp_pos (bb_len rb2 - 1)).
      pose proof (Bp_le len 2 ltac:(lia)) as G. change (Bp 2) with (2 ^ 64) in G. cbn [bb_len rb2] in *. lia. }
    pose proof (reduce_buf_spec c _ _ yb rb2 y v Hy HB ltac:(lia) ltac:(cbn [bb_len rb2]; lia)) as W.
    apply wp_inv in W. destruct W as (lb' & -> & B1 & _). cbn [bind].
    pose proof (Z.mod_pos_bound y v ltac:(lia)) as MB. pose proof B1 as [S1 _ _ _ _ _].
    match goal with |- exists l, ?o = Ret l /\ _ => assert (wp o (fun l => limbs l /\ val l = Z.gcd y v)) as W end.
    2:{ apply wp_inv in W. destruct W as (l & -> & W). exists l. auto. }
    wstep. wstep. wstep; [unfold rb; cbn [bb_bits]; lia|]. wstep. wstep; [unfold rb; cbn [bb_bits]; lia|].
    wstep. wstep; [lia|]. wstep. wstep; [lia|]. cbv zeta.
    rewrite (low64 _ _ _ B1) by lia.
    assert (Z.lor (u64 (Z.shiftl (nth 1 (bb_bits rb) 0) 32)) (nth 0 (bb_bits rb) 0) = v) as ->.
    { change 32 with kcbitUint. unfold rb; cbn [bb_bits]. rewrite lor_two by (now apply limbs_nth). unfold bits'.
      rewrite nth_upd_same, nth_upd_other by lia. exact H4. }
    wstep. eapply wp_mono; [apply calc_gcd64_spec; change W64 with (2 ^ 64); lia|]. intros g ->. rewrite gcd_swap by lia.
    assert (0 <= Z.gcd y v < W64) as GB.
    { pose proof (Z.gcd_nonneg y v). split; [assumption|].
      pose proof (Z.divide_pos_le _ _ ltac:(apply V0) (Z.gcd_divide_r y v)). change W64 with (2 ^ 64). lia. }
    wstep. eapply wp_mono; [apply (overwrite_spec _ _ _ _ B1); auto; lia|]. intros r1 (C1 & C2).
    wstep. unfold buf_overwrite. unfold rb. cbn [bb_bits bb_len]. rewrite (proj2 (Nat.ltb_ge 2 len)) by lia. wstep. wstep. wstep.
    wstep; [lia|]. wstep. wstep; [rewrite length_upd; lia|]. wstep. wstep. wstep. auto.
  - right. split; [|exact O].
    assert (lehmer_loop (S fuel) c rb yb = if dbg c then AssertFail else Undef OutOfBounds) as ->.
    { cbn [lehmer_loop]. rewrite LY, (proj2 (Nat.ltb_lt 2 n)) by lia. unfold lehmer_round.
      rewrite extract_short by (unfold rb; cbn [bb_len bb_bits]; lia). destruct (dbg c); reflexivity. }
    destruct (dbg c); reflexivity.
Qed.

Lemma count_length b v n : represents b v -> 2 ^ 64 <= Z.abs v -> limb_count (Z.abs v) n -> Z.of_nat (length (bits_of b)) = n.
Proof.
  intros Hb H64 Hn. assert (limb_count v n) as Hn'.
  { destruct Hn as (A1 & A2 & A3). unfold limb_count, fits_limbs in *. rewrite Z.abs_involutive in *. auto. }
  rewrite (limb_count_length b v n Hb Hn').
  destruct (val_parts b v Hb) as [(A1 & A2 & A3)|(A1 & A2 & A3 & A4 & A5)]; [num; lia|].
  destruct (bits_of b); [congruence|cbn [length]; lia].
Qed.

Lemma gcd_uneven c a b x y n fuel :
  let X := Z.max (Z.abs x) (Z.abs y) in let Y := Z.min (Z.abs x) (Z.abs y) in
  represents a x -> represents b y -> limb_count X (n + 1) -> limb_count Y n -> 2 ^ 64 <= Y -> n < 2 ^ 32 ->
  X mod 2 ^ (32 * n) < 2 ^ 64 -> lehmer_step X Y -> (2 <= fuel)%nat ->
  returns (bi_gcd fuel c a b) (Z.gcd Y (clobbered X n)) \/
  (bi_gcd fuel c a b = (if dbg c then AssertFail else Undef OutOfBounds) /\ ~ lehmer_once X Y).
Proof.
  intros X Y Ha Hb CX CY H64 NW HM HS HF.
  destruct (val_parts a x Ha) as [(A1 & A2 & A3)|(A1 & A2 & A3 & A4 & A5)]; [num; lia|].
  destruct (val_parts b y Hb) as [(B1 & B2 & B3)|(B1 & B2 & B3 & B4 & B5)]; [num; lia|].
  assert (exists lv rv, limbs lv /\ limbs rv /\ lv <> [] /\ rv <> [] /\ top_nz lv /\ top_nz rv /\
    val lv = X /\ val rv = Y /\ Z.of_nat (length lv) = n + 1 /\ Z.of_nat (length rv) = n /\
    bi_gcd fuel c a b = bi_gcd_bits fuel c lv rv) as (lv & rv & L1 & L2 & L3 & L4 & L5 & L6 & L7 & L8 & L9 & L10 & E).
  { unfold X, Y in *. destruct (Z.lt_ge_cases (Z.abs x) (Z.abs y)) as [G|G].
    - rewrite Z.max_r in CX by lia. rewrite Z.min_l in CY by lia.
      exists (bits_of b), (bits_of a). do 6 (split; [assumption|]). split; [lia|]. split; [lia|].
      split; [apply (count_length b y); auto; lia|]. split; [apply (count_length a x); auto; lia|].
      unfold bi_gcd. rewrite (assert_valid_ok c a x Ha), (assert_valid_ok c b y Hb). cbn [bind].
      rewrite (is_nil_ne _ A1), (is_nil_ne _ B1). cbn [andb]. rewrite calc_compare_spec by auto. cbn [bind].
      unfold cmpz. rewrite A4, B4. rewrite (proj2 (Z.compare_lt_iff _ _) G). reflexivity.
    - rewrite Z.max_l in CX by lia. rewrite Z.min_r in CY by lia.
      exists (bits_of a), (bits_of b). do 6 (split; [assumption|]). split; [lia|]. split; [lia|].
      split; [apply (count_length a x); auto; lia|]. split; [apply (count_length b y); auto; lia|].
      unfold bi_gcd. rewrite (assert_valid_ok c a x Ha), (assert_valid_ok c b y Hb). cbn [bind].
      rewrite (is_nil_ne _ A1), (is_nil_ne _ B1). cbn [andb]. rewrite calc_compare_spec by auto. cbn [bind].
      unfold cmpz. rewrite A4, B4. destruct (Z.compare_spec (Z.abs x) (Z.abs y)); [reflexivity|lia|reflexivity]. }
  assert (3 <= n) as N3.
  { destruct (count_low Y n ltac:(lia) CY) as (_ & U). destruct (Z.le_gt_cases 3 n) as [|K]; [assumption|exfalso].
    destruct CY as (N1 & _). assert (2 ^ (32 * n) <= 2 ^ 64) by (apply Z.pow_le_mono_r; lia). lia. }
  set (m := length rv) in *.
  assert (X mod Bp m < 2 ^ 64) as HM' by (rewrite Bp_pow2, L10; exact HM).
  assert (exists f, fuel = S (S f)) as (f & ->) by (exists (fuel - 2)%nat; lia).
  destruct (calc_gcd_uneven c lv rv X Y m f L1 L2 L3 L4 L5 L6 L7 L8 ltac:(unfold X, Y; lia) ltac:(lia) eq_refl ltac:(lia)
    ltac:(num; lia) HM' HS) as [(l & EL & LL & VL)|(EL & O)];
  assert (bi_gcd_bits (S (S f)) c lv rv = (bits <- calc_gcd (S (S f)) c lv rv ;; bi_of_mag c bits false)) as EB.
  1,3: unfold bi_gcd_bits; fold m; rewrite !(proj2 (Nat.eqb_neq _ _)) by lia; rewrite calc_compare_spec by auto;
    rewrite L7, L8;
    assert (0 <=? cmpz X Y = true) as CM by (unfold cmpz; destruct (Z.compare_spec X Y); [reflexivity|unfold X, Y in *; lia|reflexivity]);
    unfold massert; destruct (dbg c); cbn [bind]; rewrite ?CM; reflexivity.
  - left. apply returns_wp. rewrite E, EB, EL. cbn [bind]. rewrite <- L10, <- VL. apply mag_result; auto.
  - right. split; [|exact O]. rewrite E, EB, EL. destruct (dbg c); reflexivity.
Qed.
