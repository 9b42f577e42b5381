(** greatest_common_divisor in the LLP64 reading, on all operands: the model
    follows [win_gcd_rounds] round by round. *)
From Verif Require Import Facts Spec AddSubFacts SquMulFacts DivRemFacts DivCoreFacts SpecFacts BigIntFacts SpecApi ConvFacts.
From Verif Require Import CompareFacts CalcAddSub CalcDivRem CalcPowMod CalcGcd BigInt ShiftFacts WordFacts PowFacts ModPowFacts ModPowApi ConvLaws ReducerFacts SpecGcd GcdFacts GcdRegions.
From Verif Require Import PosFacts RunExact SpecActual GcdExact WinCalc WinBigInt SpecWin WinFacts WinGcdFacts SpecWinRun.
Ltac Zify.zify_post_hook ::= idtac.

Lemma isbuf_reduce c sx sy xb yb x y : isbuf sx xb x -> isbuf sy yb y -> 0 < y ->
  wp (buf_reduce_buf c xb yb) (fun b => isbuf sx b (x mod y)).
Proof.
  intros Hx Hy Y0. destruct (Nat.le_gt_cases (bb_len yb) sx) as [G|G].
  - eapply wp_mono; [apply (reduce_buf_spec c sx sy xb yb x y Hx Hy Y0 G)|]. intros b (B & _). exact B.
  - pose proof Hx as [_ _ _ Nx Bx _]. pose proof Hy as [_ _ _ _ _ Ly].
    unfold buf_reduce_buf. destruct (Nat.leb_spec (bb_len yb) (bb_len xb)) as [K|K]; [lia|]. cbn [wp].
    specialize (Ly ltac:(lia)). pose proof (Bp_le (bb_len xb) (bb_len yb - 1) ltac:(lia)). rewrite Z.mod_small by lia. exact Hx.
Qed.

Lemma round_w_exact c sx sy xb yb x y : isbuf sx xb x -> isbuf sy yb y -> 2 ^ 64 <= y ->
  follows (lehmer_round_w None c xb yb)
    (if x <? 2 ^ 64 then (if dbg c then AssertFail else Undef OutOfBounds)
     else if dbg c && ((limbs_of x <? limbs_of y) || (fst (leading x y) <? snd (leading x y))) then AssertFail
     else if snd (cofactor x y) =? 0 then Ret (y, x mod y) else Undef ShiftRange)
    (fun st v => isbuf sy (fst st) (fst v) /\ isbuf sx (snd st) (snd v)).
Proof.
  intros Hx Hy H64. unfold lehmer_round_w. rewrite (extract_exact c _ _ _ _ x y Hx Hy H64).
  destruct (Z.ltb_spec x (2 ^ 64)) as [X64|X64]; [destruct (dbg c); reflexivity|].
  destruct (dbg c && ((limbs_of x <? limbs_of y) || (fst (leading x y) <? snd (leading x y)))) eqn:ED; [reflexivity|].
  cbn [bind]. pose proof (leading_range x y X64) as (RX & RY). unfold cofactor. destruct (leading x y) as [X Y] eqn:EL. cbn [fst snd] in *.
  destruct (guess_exact euclid_fuel (Leh 1 0 0 1 X Y 0)) as (s & -> & C & EG & GE0).
  { unfold inner, coef. cbn [lx ly la lb lc ld liter]. num. repeat split; lia. }
  { cbn [ly]. assert (2 ^ 63 <= 2 ^ Z.of_nat euclid_fuel) by (apply Z.pow_le_mono_r; unfold euclid_fuel; lia). lia. }
  cbn [lx ly la lb lc ld liter] in EG, GE0. change (2 * euclid_fuel)%nat with 400%nat in EG. rewrite EG. cbn [bind snd].
  destruct (buf_limbs _ _ _ Hx ltac:(lia)) as (ELx & Lx1). destruct (buf_limbs _ _ _ Hy ltac:(lia)) as (ELy & Ly1).
  destruct (Z.eqb_spec (lb s) 0) as [B0|B0].
  { pose proof (isbuf_reduce c sx sy xb yb x y Hx Hy ltac:(lia)) as W. apply wp_inv in W. destruct W as (b & -> & Db). cbn [bind follows].
    eexists. split; [reflexivity|]. split; assumption. }
  cbn [follows]. apply ub_first. unfold lehmer_core_w.
  assert (bb_len yb <= bb_len xb)%nat as LC.
  { destruct (Nat.le_gt_cases (bb_len yb) (bb_len xb)) as [G|G]; [exact G|exfalso].
    unfold leading in EL. rewrite (proj2 (Z.ltb_lt _ _)) in EL by lia. injection EL as _ EY. subst Y.
    rewrite guess_S in EG. change (0 =? 0) with true in EG. cbn [orb] in EG. injection EG as _ EB. congruence. }
  rewrite !massert_true; [cbn [bind]| | | | |].
  - pose proof Hx as [Sx _ _ Nx _ _]. pose proof Hy as [Sy _ _ Ny _ _].
    apply ub_for_up; [lia|]. apply ub_rd; [lia|]. apply ub_rd; [lia|]. reflexivity.
  - unfold coef in C. rewrite !andb_true_iff, !Z.leb_le. num. lia.
  - unfold coef in C. rewrite !andb_true_iff, !Z.leb_le. num. lia.
  - apply Nat.leb_le. lia.
  - apply Nat.leb_le. lia.
  - apply Nat.leb_le. lia.
Qed.

Lemma loop_w_exact c fuel : forall sx sy xb yb x y, (2 <= sx)%nat -> (2 <= sy)%nat -> isbuf sx xb x -> isbuf sy yb y ->
  follows ('(l, r) <- lehmer_loop_w None fuel c xb yb ;; gcd_tail c l r) (win_gcd_rounds fuel (dbg c) x y)
    (fun l v => limbs l /\ val l = v).
Proof.
  induction fuel as [|fuel IH]; intros sx sy xb yb x y Sx Sy Hx Hy; cbn [lehmer_loop_w win_gcd_rounds];
    (destruct (Z.ltb_spec y (2 ^ 64)) as [H|H];
     [rewrite (proj2 (Nat.ltb_ge 2 _)) by (now apply (buf_short _ _ _ Hy)); cbn [bind follows];
      pose proof (tail_exact c xb yb x 0 y 0 (isbuf_dbuf _ _ _ Hx Sx) (isbuf_dbuf _ _ _ Hy Sy) H) as W; apply wp_inv in W;
      rewrite Z.add_0_r in W; exact W|]);
    (assert (2 < bb_len yb)%nat as L by (destruct (Nat.lt_ge_cases 2 (bb_len yb)) as [|G]; [assumption|exfalso]; apply (buf_short _ _ _ Hy) in G; lia);
     rewrite (proj2 (Nat.ltb_lt 2 _) L)).
  - reflexivity.
  - pose proof (round_w_exact c sx sy xb yb x y Hx Hy H) as R.
    destruct (x <? 2 ^ 64).
    { destruct (dbg c); cbn [follows] in *; now rewrite R. }
    destruct (dbg c && _); [cbn [follows] in *; now rewrite R|].
    destruct (snd (cofactor x y) =? 0); cbn [follows] in *; [|now rewrite R].
    destruct R as ((l, r) & -> & D1 & D2). cbn [bind fst snd] in *. apply (IH sy sx); assumption.
Qed.

Lemma loop_w_short c fuel xb yb sx sy x y : (sx < 2)%nat -> (2 <= sy)%nat -> isbuf sx xb x -> isbuf sy yb y -> dbg c = false ->
  follows ('(l, r) <- lehmer_loop_w None fuel c xb yb ;; gcd_tail c l r)
    (if (0 <? y) && (y <? 2 ^ 64) then Undef OutOfBounds else win_gcd_rounds fuel (dbg c) x y)
    (fun l v => limbs l /\ val l = v).
Proof.
  intros S1 S2 Hx Hy D. pose proof (loop_short c fuel xb yb sx sy x y S1 S2 Hx Hy D) as K. rewrite D in *.
  assert (x < 2 ^ 64) as X64. { apply (buf_short _ _ _ Hx). pose proof Hx as [_ _ _ N _ _]. lia. }
  destruct (Z.ltb_spec y (2 ^ 64)) as [H|H].
  - assert (lehmer_loop_w None fuel c xb yb = lehmer_loop fuel c xb yb) as ->.
    { destruct fuel; cbn [lehmer_loop lehmer_loop_w]; rewrite (proj2 (Nat.ltb_ge 2 _)) by (now apply (buf_short _ _ _ Hy)); reflexivity. }
    replace (win_gcd_rounds fuel false x y) with (gcd_rounds fuel false x 0 y 0); [exact K|].
    destruct fuel; cbn [gcd_rounds win_gcd_rounds]; rewrite (proj2 (Z.ltb_lt _ _) H), Z.add_0_r; reflexivity.
  - rewrite Bool.andb_false_r in *.
    assert (2 < bb_len yb)%nat as L by (destruct (Nat.lt_ge_cases 2 (bb_len yb)) as [|G]; [assumption|exfalso]; apply (buf_short _ _ _ Hy) in G; lia).
    destruct fuel; cbn [lehmer_loop lehmer_loop_w gcd_rounds win_gcd_rounds] in *; rewrite (proj2 (Nat.ltb_lt 2 _) L), (proj2 (Z.ltb_ge _ _) H) in *; [exact K|].
    rewrite (proj2 (Z.ltb_lt _ _) X64). pose proof (round_w_exact c sx sy xb yb x y Hx Hy H) as R.
    rewrite (proj2 (Z.ltb_lt _ _) X64), D in R. cbn [follows] in *. now rewrite R.
Qed.

Lemma calc_gcd_w_exact fuel c lv rv : limbs lv -> limbs rv -> dbg c && raw_less lv rv = false -> (3 <= length rv)%nat ->
  follows (calc_gcd_w None fuel c lv rv)
    (if dbg c && ((val rv <? 2 ^ 32) || (limbs_of (val lv) <? limbs_of (val rv))) then AssertFail
     else if Nat.ltb (length lv) 2 && (0 <? val rv) && (val rv <? 2 ^ 64) then Undef OutOfBounds
     else win_gcd_rounds fuel (dbg c) (val lv) (val rv))
    (fun l v => limbs l /\ val l = v).
Proof.
  intros Ll Lr RL L3. unfold calc_gcd_w, calc_gcd_buf_w. rewrite !massert_pick, compare_assert by assumption.
  assert (dbg c && negb (Nat.leb 2 (length lv)) = false /\ dbg c && (is_nil lv || is_nil rv || raw_less lv rv) = false) as (K1 & K2).
  { destruct (dbg c) eqn:D; [|auto]. cbn [andb] in *. apply not_less in RL as LL. rewrite RL.
    rewrite (proj2 (Nat.leb_le 2 (length lv))) by lia. destruct lv; [cbn in LL; lia|]. destruct rv; [cbn in L3; lia|]. auto. }
  rewrite K1, K2. rewrite (proj2 (Nat.leb_le 2 (length rv))) by lia. rewrite Bool.andb_false_r. cbn [bind].
  pose proof (buf_of_v_spec (length lv) lv Ll ltac:(apply val_bound, Ll)) as W. apply wp_inv in W. destruct W as (xb & E1 & Hx).
  pose proof (buf_of_v_spec (length rv) rv Lr ltac:(apply val_bound, Lr)) as W. apply wp_inv in W. destruct W as (yb & E2 & Hy).
  rewrite E1, E2. cbn [bind]. rewrite !massert_pick. rewrite <- (asserts_exact _ _ _ _ _ _ Hx Hy).
  destruct (dbg c && negb (Nat.leb 2 (bb_len xb))) eqn:A1.
  { apply andb_prop in A1 as [-> ->]. reflexivity. }
  destruct (dbg c && negb (Nat.leb 2 (bb_len yb))) eqn:A2.
  { apply andb_prop in A2 as [-> ->]. rewrite Bool.orb_true_r. reflexivity. }
  destruct (dbg c && negb (Nat.leb (bb_len yb) (bb_len xb))) eqn:A3.
  { apply andb_prop in A3 as [-> ->]. rewrite Bool.orb_true_r. reflexivity. }
  assert (dbg c && (negb (Nat.leb 2 (bb_len xb)) || negb (Nat.leb 2 (bb_len yb)) || negb (Nat.leb (bb_len yb) (bb_len xb))) = false) as ->.
  { destruct (dbg c); [|reflexivity]. cbn [andb] in *. now rewrite A1, A2, A3. }
  match goal with |- follows ?o _ _ =>
    assert (o = ('(l, r) <- lehmer_loop_w None fuel c xb yb ;; gcd_tail c l r)) as -> end.
  { destruct (lehmer_loop_w None fuel c xb yb) as [(l', r')| | | |]; reflexivity. }
  destruct (Nat.ltb_spec (length lv) 2) as [G|G]; cbn [andb].
  - assert (dbg c = false) as D by (destruct (dbg c); [rewrite (proj2 (Nat.leb_gt 2 (length lv)) G) in K1; discriminate|reflexivity]).
    apply (loop_w_short c fuel xb yb (length lv) (length rv)); auto; lia.
  - apply (loop_w_exact c fuel (length lv) (length rv)); auto; lia.
Qed.

Lemma gcd_bits_w_exact fuel c lv rv : limbs lv -> limbs rv -> denotes (bi_gcd_bits_w None fuel c lv rv) (win_raw_gcd fuel c lv rv).
Proof.
  intros Ll Lr. unfold win_raw_gcd. cbv zeta. destruct (Nat.leb_spec (length rv) 2) as [L2|L3].
  { pose proof (gcd_bits_exact fuel c lv rv Ll Lr) as D.
    replace (bi_gcd_bits_w None fuel c lv rv) with (bi_gcd_bits fuel c lv rv); [exact D|].
    destruct rv as [|r0 [|r1 [|r2 rv]]]; [|reflexivity|reflexivity|cbn [length] in L2; lia].
    unfold bi_gcd_bits, bi_gcd_bits_w. cbn [length Nat.eqb]. unfold calc_gcd, calc_gcd_w, calc_gcd_buf, calc_gcd_buf_w.
    change (buf_of_v (length (@nil Z)) []) with (Ret (Buf [] 0)). cbn [bind].
    destruct fuel; reflexivity. }
  unfold bi_gcd_bits_w. rewrite compare_assert by assumption.
  rewrite (proj2 (Nat.eqb_neq (length rv) 1)), (proj2 (Nat.eqb_neq (length rv) 2)) by lia.
  destruct (dbg c && raw_less lv rv) eqn:RL.
  { apply andb_prop in RL as [-> ->]. rewrite Bool.orb_true_r. reflexivity. }
  assert (dbg c && (is_nil lv || is_nil rv || raw_less lv rv) = false) as ->.
  { destruct (dbg c) eqn:D; [|reflexivity]. cbn [andb] in *. pose proof (not_less _ _ RL) as LL. rewrite RL.
    destruct lv; [cbn [length] in LL; lia|]. destruct rv; [cbn [length] in L3; lia|]. reflexivity. }
  assert (forall b, dbg c && (raw_less lv rv || b) = dbg c && b) as E.
  { intros b. destruct (dbg c); [|reflexivity]. cbn [andb] in *. now rewrite RL. }
  rewrite <- Bool.orb_assoc, E. unfold number. rewrite <- !val_positional.
  cbn [bind]. apply follows_mag. now apply calc_gcd_w_exact.
Qed.

Theorem gcd_w_every c a b x y fuel : represents a x -> represents b y ->
  denotes (bi_gcd_w None fuel c a b) (win_gcd fuel (dbg c) x y).
Proof.
  intros Ha Hb. unfold win_gcd.
  destruct (Z.lt_ge_cases (Z.min (Z.abs x) (Z.abs y)) (2 ^ 64)) as [H|H].
  { assert (win_gcd_rounds fuel (dbg c) (Z.max (Z.abs x) (Z.abs y)) (Z.min (Z.abs x) (Z.abs y)) = actual_gcd fuel (dbg c) x y) as ->.
    { unfold actual_gcd. destruct fuel; cbn [gcd_rounds win_gcd_rounds]; rewrite (proj2 (Z.ltb_lt _ _) H), Z.add_0_r; reflexivity. }
    replace (bi_gcd_w None fuel c a b) with (bi_gcd fuel c a b); [now apply gcd_exact|].
    destruct (val_parts a x Ha) as [(A1 & A2 & A3)|(A1 & A2 & A3 & A4 & A5)].
    { unfold bi_gcd_w, bi_gcd. rewrite A1. cbn [is_nil andb]. destruct (is_nil (bits_of b)); reflexivity. }
    destruct (val_parts b y Hb) as [(B1 & B2 & B3)|(B1 & B2 & B3 & B4 & B5)].
    { unfold bi_gcd_w, bi_gcd. rewrite B1. cbn [is_nil]. rewrite !Bool.andb_true_r.
      destruct (is_nil (bits_of a)); reflexivity. }
    rewrite <- A4, <- B4 in *.
    unfold bi_gcd_w, bi_gcd. rewrite (assert_valid_ok c a x Ha), (assert_valid_ok c b y Hb). cbn [bind].
    rewrite (is_nil_ne _ A1), (is_nil_ne _ B1). cbn [andb]. rewrite calc_compare_spec by auto. cbn [bind]. unfold cmpz.
    destruct (Z.compare_spec (val (bits_of a)) (val (bits_of b))) as [E|E|E].
    - change (0 <? 0) with false. cbn beta iota. rewrite Z.min_r in H by lia. symmetry.
      apply (gcd_bits_w_cases c (bits_of a) (bits_of b)); auto; try lia. now apply run_small.
    - change (-1 <? 0) with true. cbn beta iota. rewrite Z.min_l in H by lia. symmetry.
      apply (gcd_bits_w_cases c (bits_of b) (bits_of a)); auto; try lia. now apply run_small.
    - change (1 <? 0) with false. cbn beta iota. rewrite Z.min_r in H by lia. symmetry.
      apply (gcd_bits_w_cases c (bits_of a) (bits_of b)); auto; try lia. now apply run_small. }
  destruct (val_parts a x Ha) as [(A1 & A2 & A3)|(A1 & A2 & A3 & A4 & A5)]; [num; lia|].
  destruct (val_parts b y Hb) as [(B1 & B2 & B3)|(B1 & B2 & B3 & B4 & B5)]; [num; lia|].
  rewrite <- A4, <- B4 in *.
  assert (forall l l', limbs l -> limbs l' -> l <> [] -> l' <> [] -> top_nz l -> top_nz l' -> val l' <= val l -> 2 ^ 64 <= val l' ->
    denotes (bi_gcd_bits_w None fuel c l l') (win_gcd_rounds fuel (dbg c) (val l) (val l'))) as K.
  { intros l l' L1 L2 N1 N2 T1 T2 V V64.
    assert (3 <= length l')%nat as L3.
    { destruct (Nat.le_gt_cases 3 (length l')) as [|G]; [assumption|exfalso]. pose proof (val_bound l' L2) as B.
      pose proof (Bp_le (length l') 2 ltac:(lia)) as G'. change (Bp 2) with (2 ^ 64) in G'. lia. }
    pose proof (gcd_bits_w_exact fuel c l l' L1 L2) as D. unfold win_raw_gcd in D. cbv zeta in D.
    unfold raw_less, number in D. rewrite <- !val_positional in D.
    assert (length l' <= length l)%nat as LL.
    { destruct (Nat.le_gt_cases (length l') (length l)) as [|G]; [assumption|exfalso]. pose proof (val_bound l L1) as B.
      pose proof (top_nz_bound l' L2 N2 T2) as TB. pose proof (Bp_le (length l) (length l' - 1) ltac:(lia)). lia. }
    rewrite (proj2 (Nat.ltb_ge (length l) (length l'))), (proj2 (Z.ltb_ge (val l) (val l'))) in D by lia.
    rewrite !Bool.andb_false_r in D. cbn [orb] in D.
    rewrite (proj2 (Nat.leb_gt (length l') 2)), (proj2 (Nat.ltb_ge (length l) 2)) in D by lia. cbn [andb] in D.
    rewrite (proj2 (Z.ltb_ge (val l') (2 ^ 32))) in D by (change (2 ^ 64) with 18446744073709551616 in V64; change (2 ^ 32) with 4294967296; lia).
    assert (limbs_of (val l) <? limbs_of (val l') = false) as E.
    { apply Z.ltb_ge. unfold limbs_of. rewrite !Z.abs_eq by lia. apply Z.add_le_mono_r, Z.div_le_mono; [lia|]. now apply Z.log2_le_mono. }
    rewrite E in D. cbn [orb] in D. rewrite Bool.andb_false_r in D. exact D. }
  unfold bi_gcd_w. rewrite (assert_valid_ok c a x Ha), (assert_valid_ok c b y Hb). cbn [bind].
  rewrite (is_nil_ne _ A1), (is_nil_ne _ B1). cbn [andb]. rewrite calc_compare_spec by auto. cbn [bind]. unfold cmpz.
  destruct (Z.compare_spec (val (bits_of a)) (val (bits_of b))) as [E|E|E].
  - change (0 <? 0) with false. cbn beta iota. rewrite Z.max_l, Z.min_r in * by lia. apply K; auto; lia.
  - change (-1 <? 0) with true. cbn beta iota. rewrite Z.max_r, Z.min_l in * by lia. apply K; auto; lia.
  - change (1 <? 0) with false. cbn beta iota. rewrite Z.max_l, Z.min_r in * by lia. apply K; auto; lia.
Qed.
