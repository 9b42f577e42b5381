(** The LLP64 reading: greatest_common_divisor. *)
From Verif Require Import Facts Spec AddSubFacts SquMulFacts DivRemFacts DivCoreFacts SpecFacts BigIntFacts SpecApi ConvFacts.
From Verif Require Import CompareFacts CalcAddSub CalcDivRem CalcPowMod CalcGcd BigInt ShiftFacts WordFacts PowFacts.
From Verif Require Import ModPowFacts ModPowApi ConvLaws ReducerFacts SpecGcd GcdFacts GcdRegions.
From Verif Require Import WinCalc WinBigInt SpecWin WinFacts.
Ltac Zify.zify_post_hook ::= idtac.

Lemma round_w_same w c sx sy xb yb x y :
  isbuf sx xb x -> isbuf sy yb y -> (3 <= bb_len yb <= bb_len xb)%nat -> y <= x -> ~ lehmer_step x y ->
  lehmer_round_w w c xb yb = lehmer_round c xb yb.
Proof.
  intros Hx Hy HL Hyx Hn. unfold lehmer_round_w, lehmer_round.
  destruct (extract_total c sx sy xb yb x y Hx Hy HL) as (X & Y & BX & BY & -> & K).
  destruct (K Hyx) as (k & Hk & X62 & EX & EY). clear K.
  assert (Y <= X) as YX by (rewrite EX, EY; apply Z.div_le_mono; [apply Z.pow_pos_nonneg; lia|exact Hyx]).
  rewrite (massert_true c (Y <=? X)) by (apply Z.leb_le; exact YX). cbn [bind].
  pose proof (guess_first X Y ltac:(lia) ltac:(lia)) as G. apply wp_inv in G. destruct G as (s & -> & C & _ & F). cbn [bind].
  rewrite F; [reflexivity|].
  intros R. apply Hn. apply (taken_iff x y k Hk); [lia|]. rewrite <- EX, <- EY. tauto.
Qed.

Lemma round_w_step c sx sy xb yb x y :
  isbuf sx xb x -> isbuf sy yb y -> (3 <= bb_len yb <= bb_len xb)%nat -> y <= x -> lehmer_step x y ->
  lehmer_round_w None c xb yb = UB.
Proof.
  intros Hx Hy HL Hyx Hn. unfold lehmer_round_w.
  destruct (extract_total c sx sy xb yb x y Hx Hy HL) as (X & Y & BX & BY & -> & K).
  destruct (K Hyx) as (k & Hk & X62 & EX & EY). clear K.
  assert (Y <= X) as YX by (rewrite EX, EY; apply Z.div_le_mono; [apply Z.pow_pos_nonneg; lia|exact Hyx]).
  rewrite (massert_true c (Y <=? X)) by (apply Z.leb_le; exact YX). cbn [bind].
  pose proof (guess_first X Y ltac:(lia) ltac:(lia)) as G. apply wp_inv in G. destruct G as (s & -> & C & F & _). cbn [bind].
  apply (taken_iff x y k Hk ltac:(lia)) in Hn. rewrite <- EX, <- EY in Hn.
  rewrite (proj2 (Z.eqb_neq (lb s) 0)) by (apply F; tauto).
  apply ub_first. unfold lehmer_core_w.
  rewrite !massert_true; [cbn [bind]| | | | |].
  - pose proof Hx as [Sx _ _ Nx _ _]. pose proof Hy as [Sy _ _ Ny _ _].
    apply ub_for_up; [lia|]. apply ub_rd; [lia|]. apply ub_rd; [lia|]. reflexivity.
  - unfold coef in C. rewrite !andb_true_iff, !Z.leb_le. num. lia.
  - unfold coef in C. rewrite !andb_true_iff, !Z.leb_le. num. lia.
  - apply Nat.leb_le. lia.
  - apply Nat.leb_le. lia.
  - apply Nat.leb_le. lia.
Qed.

Lemma loop_w_run w c x y : euclid_run x y -> 0 <= y <= x -> forall fuel sx sy xb yb,
  isbuf sx xb x -> isbuf sy yb y -> lehmer_loop_w w fuel c xb yb = lehmer_loop fuel c xb yb.
Proof.
  induction 1 as [x y H64|x y H64 Hs _ IH]; intros Hyx fuel sx sy xb yb Hx Hy.
  - assert (bb_len yb <= 2)%nat as L2 by (apply (isbuf_len _ _ _ _ Hy); change (Bp 2) with (2 ^ 64); lia).
    destruct fuel; cbn [lehmer_loop lehmer_loop_w]; rewrite (proj2 (Nat.ltb_ge 2 _)) by lia; reflexivity.
  - pose proof (Z.mod_pos_bound x y ltac:(lia)) as MB.
    destruct fuel as [|fuel]; [reflexivity|].
    pose proof (isbuf_three _ _ _ Hy H64) as Ly. pose proof (isbuf_len_le _ _ _ _ _ _ Hx Hy ltac:(lia)) as Lxy.
    cbn [lehmer_loop lehmer_loop_w]; rewrite (proj2 (Nat.ltb_lt 2 _)) by lia.
    rewrite (round_w_same w c sx sy xb yb x y) by (auto; lia).
    pose proof (round_euclid c sx sy xb yb x y Hx Hy ltac:(lia) ltac:(pose proof Hx as [_ _ _ N _ _]; lia) ltac:(lia) Hs) as R.
    apply wp_inv in R. destruct R as ((l', r') & -> & E & B & _). cbn [fst snd] in E, B. subst l'. cbn [bind].
    apply (IH ltac:(lia) fuel sy sx yb r' Hy B).
Qed.

Lemma loop_w_ub c n : forall x y, 0 <= y <= x -> (Z.to_nat y < n)%nat -> ~ euclid_run x y ->
  forall fuel sx sy xb yb, (n <= fuel)%nat -> isbuf sx xb x -> isbuf sy yb y ->
  lehmer_loop_w None fuel c xb yb = UB.
Proof.
  induction n as [|n IH]; intros x y H Hn Hr fuel sx sy xb yb Hf Hx Hy; [lia|].
  destruct (Z.lt_ge_cases y (2 ^ 64)) as [S64|S64]; [destruct Hr; now apply run_small|].
  destruct fuel as [|fuel]; [lia|].
  pose proof (isbuf_three _ _ _ Hy S64) as Ly. pose proof (isbuf_len_le _ _ _ _ _ _ Hx Hy ltac:(lia)) as Lxy.
  cbn [lehmer_loop_w]; rewrite (proj2 (Nat.ltb_lt 2 _)) by lia.
  destruct (step_dec x y ltac:(lia)) as [HS|HS].
  - apply ub_first. apply (round_w_step c sx sy xb yb x y); auto; lia.
  - pose proof (Z.mod_pos_bound x y ltac:(lia)) as MB.
    rewrite (round_w_same None c sx sy xb yb x y) by (auto; lia).
    pose proof (round_euclid c sx sy xb yb x y Hx Hy ltac:(lia) ltac:(pose proof Hx as [_ _ _ N _ _]; lia) ltac:(lia) HS) as R.
    apply wp_inv in R. destruct R as ((l', r') & -> & E & B & _). cbn [fst snd] in E, B. subst l'. cbn [bind].
    apply (IH y (x mod y)) with (sx := sy) (sy := sx); auto; try lia.
    intros G. apply Hr. now apply run_step.
Qed.

Lemma calc_gcd_w_cases c lv rv x y :
  limbs lv -> limbs rv -> lv <> [] -> rv <> [] -> top_nz lv -> top_nz rv -> val lv = x -> val rv = y ->
  y <= x -> 2 ^ 64 <= y ->
  (euclid_run x y -> forall w fuel, calc_gcd_w w fuel c lv rv = calc_gcd fuel c lv rv) /\
  (~ euclid_run x y -> forall fuel, (Z.to_nat y < fuel)%nat -> calc_gcd_w None fuel c lv rv = UB).
Proof.
  intros Ll Lr Nl Nr Tl Tr Vl Vr Hyx H64.
  assert (3 <= length rv)%nat as L3.
  { destruct (Nat.le_gt_cases 3 (length rv)) as [|K]; [assumption|exfalso]. pose proof (val_bound rv Lr) as B.
    pose proof (Bp_le (length rv) 2 ltac:(lia)) as G. change (Bp 2) with (2 ^ 64) in G. lia. }
  assert (length rv <= length lv)%nat as LL.
  { destruct (Nat.le_gt_cases (length rv) (length lv)) as [|K]; [assumption|exfalso]. pose proof (val_bound lv Ll) as B.
    pose proof (top_nz_bound rv Lr Nr Tr) as TB. pose proof (Bp_le (length lv) (length rv - 1) ltac:(lia)). lia. }
  pose proof (buf_of_v_spec (length lv) lv Ll ltac:(apply val_bound, Ll)) as W. apply wp_inv in W. destruct W as (xb & E1 & Hx).
  pose proof (buf_of_v_spec (length rv) rv Lr ltac:(apply val_bound, Lr)) as W. apply wp_inv in W. destruct W as (yb & E2 & Hy).
  rewrite Vl in Hx. rewrite Vr in Hy.
  pose proof (isbuf_three _ _ _ Hy H64) as B3. pose proof (isbuf_len_le _ _ _ _ _ _ Hx Hy Hyx) as BL.
  split.
  - intros HR w fuel. unfold calc_gcd_w, calc_gcd, calc_gcd_buf_w, calc_gcd_buf. rewrite E1, E2. cbn [bind].
    rewrite (loop_w_run w c x y HR ltac:(lia) fuel _ _ xb yb Hx Hy). reflexivity.
  - intros HR fuel Hf. unfold calc_gcd_w, calc_gcd_buf_w.
    rewrite !massert_true with (b := Nat.leb 2 _) by (apply Nat.leb_le; lia). cbn [bind].
    apply ub_dbg.
    { rewrite calc_compare_spec by auto. cbn [bind]. apply wp_massert; [|exact Logic.I]. rewrite Vl, Vr.
      unfold cmpz. destruct (Z.compare_spec x y); [reflexivity|lia|reflexivity]. }
    rewrite E1, E2. cbn [bind].
    rewrite !massert_true by (apply Nat.leb_le; lia). cbn [bind].
    rewrite (loop_w_ub c fuel x y ltac:(lia) Hf HR fuel _ _ xb yb (Nat.le_refl _) Hx Hy). reflexivity.
Qed.

Lemma gcd_bits_w_cases c lv rv :
  limbs lv -> limbs rv -> lv <> [] -> rv <> [] -> top_nz lv -> top_nz rv -> val rv <= val lv ->
  (euclid_run (val lv) (val rv) -> forall w fuel, bi_gcd_bits_w w fuel c lv rv = bi_gcd_bits fuel c lv rv) /\
  (~ euclid_run (val lv) (val rv) -> forall fuel, (Z.to_nat (val rv) < fuel)%nat -> bi_gcd_bits_w None fuel c lv rv = UB).
Proof.
  intros Ll Lr Nl Nr Tl Tr Hle.
  destruct (Z.lt_ge_cases (val rv) (2 ^ 64)) as [H64|H64].
  - split; [|intros H; destruct H; now apply run_small].
    intros _ w fuel. unfold bi_gcd_bits_w, bi_gcd_bits.
    assert (length rv <= 2)%nat as L2.
    { destruct (Nat.le_gt_cases (length rv) 2) as [|K]; [assumption|exfalso]. pose proof (top_nz_bound rv Lr Nr Tr) as TB.
      pose proof (Bp_le 2 (length rv - 1) ltac:(lia)) as G. change (Bp 2) with (2 ^ 64) in G. lia. }
    destruct rv as [|r0 [|r1 [|]]]; [congruence|reflexivity|reflexivity|cbn [length] in L2; lia].
  - assert (3 <= length rv)%nat as L3.
    { destruct (Nat.le_gt_cases 3 (length rv)) as [|K]; [assumption|exfalso]. pose proof (val_bound rv Lr) as B.
      pose proof (Bp_le (length rv) 2 ltac:(lia)) as G. change (Bp 2) with (2 ^ 64) in G. lia. }
    destruct (calc_gcd_w_cases c lv rv _ _ Ll Lr Nl Nr Tl Tr eq_refl eq_refl Hle H64) as (A & B).
    unfold bi_gcd_bits_w, bi_gcd_bits.
    rewrite (proj2 (Nat.eqb_neq (length rv) 1)), (proj2 (Nat.eqb_neq (length rv) 2)) by lia.
    split.
    + intros HR w fuel. now rewrite (A HR w fuel).
    + intros HR fuel Hf. apply ub_dbg.
      { rewrite calc_compare_spec by auto. cbn [bind]. apply wp_massert; [|exact Logic.I].
        unfold cmpz. destruct (Z.compare_spec (val lv) (val rv)); [reflexivity|lia|reflexivity]. }
      now rewrite (B HR fuel Hf).
Qed.

Theorem gcd_w_exact c a b x y :
  represents a x -> represents b y ->
  let X := Z.max (Z.abs x) (Z.abs y) in let Y := Z.min (Z.abs x) (Z.abs y) in
  (euclid_run X Y -> exists N, forall fuel, (N <= fuel)%nat -> returns (bi_gcd_w None fuel c a b) (Z.gcd x y)) /\
  (~ euclid_run X Y -> exists N, forall fuel, (N <= fuel)%nat -> bi_gcd_w None fuel c a b = UB).
Proof.
  intros Ha Hb X Y.
  assert ((euclid_run X Y -> forall fuel, bi_gcd_w None fuel c a b = bi_gcd fuel c a b) /\
    (~ euclid_run X Y -> forall fuel, (Z.to_nat Y < fuel)%nat -> bi_gcd_w None fuel c a b = UB)) as (K1 & K2).
  { destruct (val_parts a x Ha) as [(A1 & A2 & A3)|(A1 & A2 & A3 & A4 & A5)].
    { split; [|intros H; destruct H; apply run_small; unfold Y; num; change (2 ^ 64) with 18446744073709551616; lia].
      intros _ fuel. unfold bi_gcd_w, bi_gcd. rewrite A1. cbn [is_nil andb].
      destruct (is_nil (bits_of b)); reflexivity. }
    destruct (val_parts b y Hb) as [(B1 & B2 & B3)|(B1 & B2 & B3 & B4 & B5)].
    { split; [|intros H; destruct H; apply run_small; unfold Y; num; change (2 ^ 64) with 18446744073709551616; lia].
      intros _ fuel. unfold bi_gcd_w, bi_gcd. rewrite B1. cbn [is_nil]. rewrite !andb_true_r.
      destruct (is_nil (bits_of a)); reflexivity. }
    unfold X, Y. clear X Y. rewrite <- A4, <- B4 in *.
    unfold bi_gcd_w, bi_gcd. rewrite (assert_valid_ok c a x Ha), (assert_valid_ok c b y Hb). cbn [bind].
    rewrite (is_nil_ne _ A1), (is_nil_ne _ B1). cbn [andb]. rewrite calc_compare_spec by auto. cbn [bind].
    unfold cmpz. destruct (Z.compare_spec (val (bits_of a)) (val (bits_of b))) as [E|E|E].
    - change (0 <? 0) with false. cbn iota. rewrite Z.max_l, Z.min_r by lia.
      destruct (gcd_bits_w_cases c (bits_of a) (bits_of b)) as (G1 & G2); auto; lia.
    - change (-1 <? 0) with true. cbn iota. rewrite Z.max_r, Z.min_l by lia.
      destruct (gcd_bits_w_cases c (bits_of b) (bits_of a)) as (G1 & G2); auto; lia.
    - change (1 <? 0) with false. cbn iota. rewrite Z.max_l, Z.min_r by lia.
      destruct (gcd_bits_w_cases c (bits_of a) (bits_of b)) as (G1 & G2); auto; lia. }
  split.
  - intros HR. destruct (gcd_run c a b x y Ha Hb HR) as (N & HN). exists N. intros fuel HF. rewrite K1 by exact HR. now apply HN.
  - intros HR. exists (S (Z.to_nat Y)). intros fuel HF. apply K2; [exact HR|lia].
Qed.
