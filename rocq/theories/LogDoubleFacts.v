(** Proofs about log in binary64 arithmetic. *)
From Coq Require Import ZArith Reals Lra Lia Psatz.
From Flocq Require Import Core Relative BinarySingleNaN.
From Verif Require Import Machine Spec SpecApi BigInt SpecDouble SpecLog SpecLogDouble BigIntDouble BigIntLog
  BigIntLogDouble LogFacts LogReal DoubleFacts.
Open Scope R_scope.

Ltac Zify.zify_post_hook ::= idtac.

(** ** Relative errors *)

Definition rel (d x y : R) : Prop := Rabs (x - y) <= d * Rabs y.

Lemma rel_weaken d d' x y : d <= d' -> rel d x y -> rel d' x y.
Proof.
  intros H R. apply Rle_trans with (1 := R). apply Rmult_le_compat_r; [apply Rabs_pos|exact H].
Qed.

Lemma rel_refl x : rel 0 x x.
Proof. unfold rel. rewrite Rminus_diag_eq, Rabs_R0 by reflexivity. lra. Qed.

Lemma rel_abs d x y : rel d x y -> (1 - d) * Rabs y <= Rabs x <= (1 + d) * Rabs y.
Proof.
  unfold rel. intros H. split.
  - pose proof (Rabs_triang_inv y x) as T. rewrite <- (Rabs_Ropp (y - x)) in T. replace (- (y - x)) with (x - y) in T by ring. lra.
  - replace x with (y + (x - y)) by ring. pose proof (Rabs_triang y (x - y)). lra.
Qed.

Lemma rel_nonzero d x y : d < 1 -> rel d x y -> y <> 0 -> x <> 0.
Proof.
  intros D H Y X. apply rel_abs in H as (H & _). rewrite X, Rabs_R0 in H. apply Rabs_pos_lt in Y. nra.
Qed.

Lemma rel_trans d1 d2 x y z : rel d1 x y -> rel d2 y z -> 0 <= d1 -> rel (d1 + d2 + d1 * d2) x z.
Proof.
  intros H1 H2 D1. pose proof (rel_abs _ _ _ H2) as (_ & A). unfold rel in *.
  replace (x - z) with ((x - y) + (y - z)) by ring. apply Rle_trans with (1 := Rabs_triang _ _).
  apply Rle_trans with (d1 * ((1 + d2) * Rabs z) + d2 * Rabs z).
  - apply Rplus_le_compat; [|exact H2]. apply Rle_trans with (1 := H1). apply Rmult_le_compat_l; assumption.
  - right. ring.
Qed.

Lemma rel_div d1 d2 x y x' y' :
  rel d1 x x' -> rel d2 y y' -> 0 <= d1 -> 0 <= d2 <= / 2 -> y' <> 0 -> rel ((d1 + d2) / (1 - d2)) (x / y) (x' / y').
Proof.
  intros H1 H2 D1 D2 Y'. pose proof (rel_nonzero d2 y y' ltac:(lra) H2 Y') as Y.
  pose proof (rel_abs _ _ _ H2) as (A & _). unfold rel in *.
  replace (x / y - x' / y') with (((x - x') * y' - x' * (y - y')) / (y * y')) by (field; auto).
  unfold Rdiv. rewrite !Rabs_mult, !Rabs_inv, !Rabs_mult.
  apply Rabs_pos_lt in Y'. apply Rabs_pos_lt in Y.
  set (ay := Rabs y) in *. set (ay' := Rabs y') in *. set (ax' := Rabs x') in *.
  assert (0 <= ax') as X0 by apply Rabs_pos.
  assert (Rabs ((x - x') * y' - x' * (y - y')) <= (d1 + d2) * (ax' * ay')) as N.
  { unfold Rminus at 1. apply Rle_trans with (1 := Rabs_triang _ _). rewrite Rabs_Ropp, !Rabs_mult. fold ay' ax'.
    apply Rle_trans with (d1 * ax' * ay' + ax' * (d2 * ay')); [|right; ring].
    apply Rplus_le_compat; [apply Rmult_le_compat_r; lra|apply Rmult_le_compat_l; lra]. }
  apply Rle_trans with ((d1 + d2) * (ax' * ay') * / (ay * ay')).
  - apply Rmult_le_compat_r; [|exact N]. left. apply Rinv_0_lt_compat. now apply Rmult_lt_0_compat.
  - apply Rmult_le_reg_r with (ay * ay' * (1 - d2)); [apply Rmult_lt_0_compat; [now apply Rmult_lt_0_compat|lra]|].
    replace ((d1 + d2) * (ax' * ay') * / (ay * ay') * (ay * ay' * (1 - d2))) with ((d1 + d2) * ax' * ((1 - d2) * ay')) by (field; split; lra).
    replace ((d1 + d2) * / (1 - d2) * (ax' * / ay') * (ay * ay' * (1 - d2))) with ((d1 + d2) * ax' * ay) by (field; split; lra).
    apply Rmult_le_compat_l; [apply Rmult_le_pos; lra|exact A].
Qed.

Lemma rel_plus d k x y x' y' :
  rel d x x' -> rel d y y' -> Rabs x' + Rabs y' <= k * Rabs (x' + y') -> 0 <= d -> rel (d * k) (x + y) (x' + y').
Proof.
  intros H1 H2 K D. unfold rel in *. replace (x + y - (x' + y')) with ((x - x') + (y - y')) by ring.
  apply Rle_trans with (1 := Rabs_triang _ _). apply Rle_trans with (d * (Rabs x' + Rabs y')); [lra|].
  rewrite Rmult_assoc. apply Rmult_le_compat_l; assumption.
Qed.

(** ** Rounding *)

Definition ulp1 : R := / 9007199254740992.

Lemma ulp1_pow : ulp1 = / 2 * bpow radix2 (- 53 + 1).
Proof. change (bpow radix2 (-53 + 1)) with (/ 4503599627370496). unfold ulp1. lra. Qed.

Notation rnd := (round radix2 (SpecFloat.fexp 53 1024) (round_mode mode_NE)).

(** Neither tiny nor huge. *)
Definition moderate (x : R) : Prop := x = 0 \/ bpow radix2 (-1000) <= Rabs x <= bpow radix2 1000.

Lemma rnd_rel x : moderate x -> rel ulp1 (rnd x) x.
Proof.
  intros [->|(L & _)].
  - rewrite round_0 by auto with typeclass_instances. unfold rel. rewrite Rminus_0_r, Rabs_R0. lra.
  - unfold rel. rewrite ulp1_pow. change (round_mode mode_NE) with (Znearest (fun x => negb (Z.even x))).
    change (SpecFloat.fexp 53 1024) with (FLT_exp (-1074) 53).
    apply relative_error_N_FLT; [reflexivity|]. apply Rle_trans with (2 := L). apply bpow_le. lia.
Qed.

Lemma rnd_small x : moderate x -> Rlt_bool (Rabs (rnd x)) (bpow radix2 1024) = true.
Proof.
  intros H. apply Rlt_bool_true. pose proof (rel_abs _ _ _ (rnd_rel x H)) as (_ & U).
  assert (Rabs x <= bpow radix2 1000) as B.
  { destruct H as [->|(_ & H)]; [rewrite Rabs_R0; apply bpow_ge_0|exact H]. }
  apply Rle_lt_trans with (2 * bpow radix2 1000).
  - apply Rle_trans with (1 := U). apply Rmult_le_compat; [unfold ulp1; lra|apply Rabs_pos|unfold ulp1; lra|exact B].
  - change 2 with (bpow radix2 1). rewrite <- bpow_plus. apply bpow_lt. lia.
Qed.

Lemma div_ok x y :
  is_finite x = true -> B2R y <> 0 -> moderate (B2R x / B2R y) ->
  is_finite (d_div x y) = true /\ rel ulp1 (B2R (d_div x y)) (B2R x / B2R y).
Proof.
  intros F Y M. pose proof (@Bdiv_correct 53 1024 prec53 prec53_lt mode_NE x y Y) as H.
  rewrite rnd_small in H by exact M. destruct H as (E & F' & _). unfold d_div. rewrite E, F'.
  split; [exact F|now apply rnd_rel].
Qed.

Lemma add_ok x y :
  is_finite x = true -> is_finite y = true -> moderate (B2R x + B2R y) ->
  is_finite (d_add x y) = true /\ rel ulp1 (B2R (d_add x y)) (B2R x + B2R y).
Proof.
  intros FX FY M. pose proof (@Bplus_correct 53 1024 prec53 prec53_lt mode_NE x y FX FY) as H.
  rewrite rnd_small in H by exact M. destruct H as (E & F' & _). unfold d_add. rewrite E, F'.
  split; [reflexivity|now apply rnd_rel].
Qed.

Lemma int_moderate n : (Z.abs n <= 2 ^ 64)%Z -> moderate (IZR n).
Proof.
  intros H. destruct (Z.eq_dec n 0) as [->|N]; [now left|right]. rewrite <- abs_IZR. split.
  - apply Rle_trans with (IZR 1); [|apply IZR_le; lia]. change (IZR 1) with (bpow radix2 0). apply bpow_le. lia.
  - apply Rle_trans with (IZR (2 ^ 64)); [apply IZR_le, H|]. change (IZR (2 ^ 64)) with (bpow radix2 64). apply bpow_le. lia.
Qed.

Lemma int_ok n : (Z.abs n <= 2 ^ 64)%Z ->
  is_finite (int_double n) = true /\ rel ulp1 (B2R (int_double n)) (IZR n).
Proof.
  intros H. pose proof (@binary_normalize_correct 53 1024 prec53 prec53_lt mode_NE n 0 false) as E.
  cbv zeta in E. assert (F2R (Float radix2 n 0) = IZR n) as EF by (unfold F2R; cbn [Fnum Fexp bpow]; lra).
  rewrite EF in E. rewrite rnd_small in E by now apply int_moderate. destruct E as (E & F & _).
  unfold int_double. rewrite E, F. split; [reflexivity|]. now apply rnd_rel, int_moderate.
Qed.

Lemma int_exact n : (Z.abs n <= 2 ^ 53)%Z -> B2R (int_double n) = IZR n.
Proof.
  intros H. pose proof (@binary_normalize_correct 53 1024 prec53 prec53_lt mode_NE n 0 false) as E.
  cbv zeta in E. assert (F2R (Float radix2 n 0) = IZR n) as EF by (unfold F2R; cbn [Fnum Fexp bpow]; lra).
  rewrite EF in E. rewrite rnd_small in E by (apply int_moderate; lia). destruct E as (E & _).
  unfold int_double. rewrite E. apply round_generic; [auto with typeclass_instances|].
  change (SpecFloat.fexp 53 1024) with (FLT_exp (-1074) 53).
  destruct (Z.eq_dec (Z.abs n) (2 ^ 53)) as [E2|N].
  - assert (IZR n = IZR (Z.sgn n) * bpow radix2 53) as ->.
    { change (bpow radix2 53) with (IZR (2 ^ 53)). rewrite <- E2, <- mult_IZR. f_equal. lia. }
    apply generic_format_FLT. exists (Float radix2 (Z.sgn n) 53); cbn [Fnum Fexp].
    + reflexivity.
    + change (radix2 ^ 53)%Z with (2 ^ 53)%Z. lia.
    + lia.
  - apply generic_format_FLT. exists (Float radix2 n 0); cbn [Fnum Fexp]; [now rewrite EF| |lia].
    change (radix2 ^ 53)%Z with (2 ^ 53)%Z. lia.
Qed.

(** The double with a given finite pattern is the number the pattern denotes. *)
Lemma bits_ok d : dbl_pattern d -> dbl_finite d ->
  is_finite (bits_double d) = true /\ B2R (bits_double d) = dbl_real d.
Proof.
  intros P F. unfold bits_double. unfold dbl_finite in F. destruct (Z.eqb_spec (dbl_exp d) 2047); [contradiction|].
  pose proof (pattern_fields d P) as (FR & ER & _).
  set (m := dbl_signed d (dbl_significand d)).
  assert (Z.abs m < 2 ^ 53)%Z as Hm.
  { unfold m, dbl_signed, dbl_significand. change (2 ^ 53)%Z with 9007199254740992%Z. change (2 ^ 52)%Z with 4503599627370496%Z in *.
    destruct (dbl_negative d), (dbl_exp d =? 0)%Z; lia. }
  assert (-1074 <= dbl_scale d <= 971)%Z as Hs.
  { unfold dbl_scale. destruct (Z.eqb_spec (dbl_exp d) 0); lia. }
  pose proof (@binary_normalize_correct 53 1024 prec53 prec53_lt mode_NE m (dbl_scale d) (dbl_negative d)) as E.
  cbv zeta in E. rewrite round_generic in E; [|auto with typeclass_instances|].
  2:{ change (SpecFloat.fexp 53 1024) with (FLT_exp (-1074) 53). apply generic_format_FLT.
      exists (Float radix2 m (dbl_scale d)); cbn [Fnum Fexp]; [reflexivity|exact Hm|lia]. }
  assert (F2R (Float radix2 m (dbl_scale d)) = dbl_real d) as EF.
  { unfold F2R, dbl_real. cbn [Fnum Fexp]. fold m. f_equal. rewrite bpow_powerRZ. reflexivity. }
  rewrite EF in E. rewrite Rlt_bool_true in E.
  - destruct E as (E & E2 & _). rewrite E, E2. auto.
  - rewrite <- EF, <- F2R_Zabs. unfold F2R. cbn [Fnum Fexp].
    apply Rlt_le_trans with (IZR (2 ^ 53) * bpow radix2 (dbl_scale d)).
    + apply Rmult_lt_compat_r; [apply bpow_gt_0|]. now apply IZR_lt.
    + change (IZR (2 ^ 53)) with (bpow radix2 53). rewrite <- bpow_plus. apply bpow_le. lia.
Qed.

(** ** Orders of magnitude *)

Definition bd (lo hi : Z) (x : R) : Prop := bpow radix2 lo <= Rabs x <= bpow radix2 hi.

Lemma bd_moderate lo hi x : bd lo hi x -> (-1000 <= lo)%Z -> (hi <= 1000)%Z -> moderate x.
Proof.
  intros (B1 & B2) L H. right. split.
  - apply Rle_trans with (2 := B1). now apply bpow_le.
  - apply Rle_trans with (1 := B2). now apply bpow_le.
Qed.

Lemma bd_nonzero lo hi x : bd lo hi x -> x <> 0.
Proof. intros (B1 & _) ->. rewrite Rabs_R0 in B1. pose proof (bpow_gt_0 radix2 lo). lra. Qed.

Lemma bd_div l1 h1 l2 h2 x y : bd l1 h1 x -> bd l2 h2 y -> bd (l1 - h2) (h1 - l2) (x / y).
Proof.
  intros (A1 & A2) (B1 & B2). pose proof (bpow_gt_0 radix2 l2) as P2. pose proof (bpow_gt_0 radix2 l1) as P1.
  unfold bd, Rdiv. rewrite Rabs_mult, Rabs_inv. unfold Zminus. rewrite !bpow_plus, !bpow_opp.
  split; apply Rmult_le_compat; try assumption; try apply Rabs_pos; try apply bpow_ge_0.
  - left. apply Rinv_0_lt_compat, bpow_gt_0.
  - apply Rinv_le_contravar; [lra|exact B2].
  - left. apply Rinv_0_lt_compat. lra.
  - apply Rinv_le_contravar; assumption.
Qed.

Lemma bd_rel d lo hi x y : rel d x y -> bd lo hi y -> d <= / 2 -> bd (lo - 1) (hi + 1) x.
Proof.
  intros H (B1 & B2) D. apply rel_abs in H as (H1 & H2). pose proof (Rabs_pos y).
  unfold bd. replace (lo - 1)%Z with (lo + -1)%Z by lia. rewrite !bpow_plus.
  change (bpow radix2 (-1)) with (/ 2). change (bpow radix2 1) with 2. split; nra.
Qed.

(** ** Logarithms *)

Lemma ln_upper t : 0 < t -> ln t <= t - 1.
Proof.
  intros H. destruct (Req_dec t 1) as [->|N]; [rewrite ln_1; lra|].
  assert (ln t <> 0) as L by (intros E; apply N; apply ln_inv; [lra|lra|now rewrite ln_1]).
  pose proof (exp_ineq1 (ln t) L) as E. rewrite exp_ln in E by exact H. lra.
Qed.

Lemma ln_lower t : 0 < t -> 1 - / t <= ln t.
Proof.
  intros H. pose proof (ln_upper (/ t) (Rinv_0_lt_compat _ H)) as U. rewrite ln_Rinv in U by exact H. lra.
Qed.

Lemma ln2_bounds : / 2 <= ln 2 <= 1.
Proof. pose proof (ln_upper 2 ltac:(lra)). pose proof (ln_lower 2 ltac:(lra)). lra. Qed.

Lemma ln_bpow e : ln (bpow radix2 e) = IZR e * ln 2.
Proof.
  destruct (Z.le_gt_cases 0 e) as [H|H].
  - rewrite <- ln_pow2 by exact H. f_equal. symmetry. apply (IZR_Zpower radix2). exact H.
  - replace e with (- - e)%Z at 1 by lia. rewrite bpow_opp, ln_Rinv by apply bpow_gt_0.
    replace (bpow radix2 (- e)) with (IZR (2 ^ (- e))) by (apply (IZR_Zpower radix2); lia).
    rewrite ln_pow2 by lia. rewrite opp_IZR. ring.
Qed.

Lemma valid53 : Valid_exp (FLT_exp (-1074) 53).
Proof. exact (@FLT_exp_valid (-1074) 53 prec53). Qed.

(** Doubles other than 1 keep a distance from 1. *)
Lemma ln_double_bounds (y : double) :
  is_finite y = true -> 0 < B2R y -> B2R y <> 1 -> bd (-54) 11 (ln (B2R y)).
Proof.
  intros F P N. pose proof valid53 as VE. set (v := B2R y) in *.
  assert (generic_format radix2 (FLT_exp (-1074) 53) v) as G by apply (generic_format_B2R 53 1024 y).
  assert (generic_format radix2 (FLT_exp (-1074) 53) 1) as G1.
  { change 1 with (bpow radix2 0). apply generic_format_bpow. vm_compute. discriminate. }
  split.
  - change (bpow radix2 (-54)) with (/ 18014398509481984). destruct (Rtotal_order v 1) as [L|[E|L]]; [|contradiction|].
    + pose proof (pred_ge_gt radix2 (FLT_exp (-1074) 53) v 1 G G1 L) as Q.
      change 1 with (bpow radix2 0) in Q. rewrite pred_bpow in Q.
      change (FLT_exp (-1074) 53 0) with (-53)%Z in Q. change (bpow radix2 0) with 1 in Q.
      change (bpow radix2 (-53)) with (/ 9007199254740992) in Q.
      pose proof (ln_upper v P) as U. rewrite Rabs_left by lra. lra.
    + pose proof (succ_le_lt radix2 (FLT_exp (-1074) 53) 1 v G1 G L) as Q.
      rewrite succ_eq_pos in Q by lra. change 1 with (bpow radix2 0) in Q at 2. rewrite ulp_bpow in Q.
      change (FLT_exp (-1074) 53 (0 + 1)) with (-52)%Z in Q.
      change (bpow radix2 (-52)) with (/ 4503599627370496) in Q.
      pose proof (ln_lower v P) as U.
      assert (/ v <= / (1 + / 4503599627370496)) as I by (apply Rinv_le_contravar; lra).
      assert (/ (1 + / 4503599627370496) <= 1 - / 18014398509481984) as J.
      { apply Rmult_le_reg_r with (1 + / 4503599627370496); [lra|]. rewrite Rinv_l by lra. lra. }
      rewrite Rabs_pos_eq by lra. lra.
  - change (bpow radix2 11) with 2048. pose proof ln2_bounds as T.
    assert (v < bpow radix2 1024) as U1.
    { pose proof (abs_B2R_lt_emax 53 1024 y) as H. fold v in H. rewrite Rabs_pos_eq in H by lra. exact H. }
    assert (bpow radix2 (-1074) <= v) as U2.
    { destruct y as [s|s| |s m e H]; try (cbn in P; lra).
      pose proof (abs_B2R_ge_emin 53 1024 (B754_finite s m e H) eq_refl) as Q. fold v in Q.
      rewrite Rabs_pos_eq in Q by lra. exact Q. }
    assert (ln v < ln (bpow radix2 1024)) as V1 by now apply ln_increasing.
    assert (ln (bpow radix2 (-1074)) <= ln v) as V2.
    { destruct U2 as [U2|<-]; [left; apply ln_increasing; [apply bpow_gt_0|exact U2]|lra]. }
    rewrite ln_bpow in V1, V2. apply Rabs_le. lra.
Qed.

Lemma logf_rel logf y : libm_log logf -> is_finite y = true -> 0 < B2R y ->
  is_finite (logf y) = true /\ rel (2 * ulp1) (B2R (logf y)) (ln (B2R y)).
Proof.
  intros H F P. destruct (log_positive logf H y F P) as (F' & E). split; [exact F'|].
  unfold rel. replace (2 * ulp1) with (/ 2 ^ 52); [exact E|]. unfold ulp1. replace (2 ^ 52) with 4503599627370496 by lra. lra.
Qed.

Lemma B2R_not_nan (y : double) : B2R y <> 0 -> is_nan y = false.
Proof. destruct y; cbn; auto. intros H. now contradiction H. Qed.

(** The divisor std::log(base) / std::log(2.0). *)
Lemma divisor_ok logf (y : double) :
  libm_log logf -> is_finite y = true -> 0 < B2R y -> B2R y <> 1 ->
  is_finite (log2_wrapper logf y) = true /\
  rel (51 / 10 * ulp1) (B2R (log2_wrapper logf y)) (ln (B2R y) / ln 2) /\
  bd (-57) 15 (B2R (log2_wrapper logf y)).
Proof.
  intros H F P N. unfold log2_wrapper. rewrite B2R_not_nan by lra.
  destruct (logf_rel logf y H F P) as (F1 & R1). pose proof (ln_double_bounds y F P N) as B1.
  destruct (int_ok 2 ltac:(lia)) as (F2 & _). pose proof (int_exact 2 ltac:(lia)) as E2.
  destruct (logf_rel logf (int_double 2) H F2 ltac:(rewrite E2; lra)) as (F3 & R3). rewrite E2 in R3.
  pose proof ln2_bounds as T. assert (bd (-1) 0 (ln 2)) as B2.
  { split; rewrite Rabs_pos_eq by lra; [change (bpow radix2 (-1)) with (/ 2)|change (bpow radix2 0) with 1]; lra. }
  pose proof (bd_rel _ _ _ _ _ R1 B1 ltac:(unfold ulp1; lra)) as B3.
  pose proof (bd_rel _ _ _ _ _ R3 B2 ltac:(unfold ulp1; lra)) as B4.
  pose proof (bd_div _ _ _ _ _ _ B3 B4) as B5.
  destruct (div_ok (logf y) (logf (int_double 2)) F1 (bd_nonzero _ _ _ B4) (bd_moderate _ _ _ B5 ltac:(lia) ltac:(lia))) as (F5 & R5).
  split; [exact F5|]. split.
  - pose proof (rel_div _ _ _ _ _ _ R1 R3 ltac:(unfold ulp1; lra) ltac:(unfold ulp1; lra) ltac:(lra)) as R6.
    assert (rel (4001 / 1000 * ulp1) (B2R (logf y) / B2R (logf (int_double 2))) (ln (B2R y) / ln 2)) as R7.
    { apply rel_weaken with (2 := R6). apply Rmult_le_reg_r with (1 - 2 * ulp1); [unfold ulp1; lra|].
      unfold Rdiv at 1. rewrite Rmult_assoc, Rinv_l by (unfold ulp1; lra). unfold ulp1. lra. }
    pose proof (rel_trans _ _ _ _ _ R5 R7 ltac:(unfold ulp1; lra)) as R8.
    apply rel_weaken with (2 := R8). unfold ulp1. lra.
  - pose proof (bd_rel _ _ _ _ _ R5 B5 ltac:(unfold ulp1; lra)) as B6. exact B6.
Qed.

(** The quotient std::log(a) / std::log(base), given the accuracy of the first logarithm. *)
Lemma quotient_ok (f g : double) a l b :
  is_finite f = true -> rel (31 / 10 * ulp1) (B2R f) a -> rel (2 * ulp1) (B2R g) l ->
  bd (-1) 7 a -> bd (-54) 11 l -> b = a / l ->
  is_finite (d_div f g) = true /\ rel (62 / 10 * ulp1) (B2R (d_div f g)) b.
Proof.
  intros F R1 R2 B1 B2 ->.
  pose proof (bd_rel _ _ _ _ _ R1 B1 ltac:(unfold ulp1; lra)) as B3.
  pose proof (bd_rel _ _ _ _ _ R2 B2 ltac:(unfold ulp1; lra)) as B4.
  pose proof (bd_div _ _ _ _ _ _ B3 B4) as B5.
  destruct (div_ok f g F (bd_nonzero _ _ _ B4) (bd_moderate _ _ _ B5 ltac:(lia) ltac:(lia))) as (F5 & R5).
  split; [exact F5|].
  pose proof (rel_div _ _ _ _ _ _ R1 R2 ltac:(unfold ulp1; lra) ltac:(unfold ulp1; lra) (bd_nonzero _ _ _ B2)) as R6.
  assert (rel (511 / 100 * ulp1) (B2R f / B2R g) (a / l)) as R7.
  { apply rel_weaken with (2 := R6). apply Rmult_le_reg_r with (1 - 2 * ulp1); [unfold ulp1; lra|].
    unfold Rdiv at 1. rewrite Rmult_assoc, Rinv_l by (unfold ulp1; lra). unfold ulp1. lra. }
  pose proof (rel_trans _ _ _ _ _ R5 R7 ltac:(unfold ulp1; lra)) as R8.
  apply rel_weaken with (2 := R8). unfold ulp1. lra.
Qed.

Lemma ln_m_bounds m : (2 ^ 63 <= m < 2 ^ 64)%Z -> 63 * ln 2 <= ln (IZR m) <= 64 * ln 2.
Proof.
  intros (M1 & M2). pose proof (IZR_le _ _ M1) as R1. apply Z.lt_le_incl in M2. pose proof (IZR_le _ _ M2) as R2.
  assert (0 < IZR (2 ^ 63)) as P by (apply (IZR_lt 0); reflexivity).
  rewrite <- (ln_pow2 63), <- (ln_pow2 64) by lia.
  split.
  - destruct R1 as [R1| ->]; [left; now apply ln_increasing|lra].
  - destruct R2 as [R2| ->]; [left; apply ln_increasing; lra|lra].
Qed.

(** std::log of the 64-bit mantissa, which is rounded on conversion. *)
Lemma ln_mantissa_ok logf m : libm_log logf -> (2 ^ 63 <= m < 2 ^ 64)%Z ->
  is_finite (logf (int_double m)) = true /\ rel (31 / 10 * ulp1) (B2R (logf (int_double m))) (ln (IZR m)).
Proof.
  intros H M. pose proof (ln_m_bounds m M) as LB. pose proof ln2_bounds as T.
  destruct (int_ok m ltac:(lia)) as (F & R0). pose proof (IZR_lt 0 m ltac:(lia)) as MP.
  pose proof (rel_abs _ _ _ R0) as (A1 & A2). set (f := B2R (int_double m)) in *.
  assert (0 < f) as FP.
  { unfold rel in R0. rewrite (Rabs_pos_eq (IZR m)) in R0 by lra. apply Rabs_le_inv in R0. unfold ulp1 in R0. lra. }
  rewrite (Rabs_pos_eq f), (Rabs_pos_eq (IZR m)) in A1, A2 by lra.
  destruct (logf_rel logf (int_double m) H F FP) as (F1 & R1). fold f in R1. split; [exact F1|].
  assert (rel ulp1 (ln f) (ln (IZR m))) as R2.
  { unfold rel. rewrite (Rabs_pos_eq (ln (IZR m))) by lra.
    replace (ln f - ln (IZR m)) with (ln (f / IZR m)).
    2:{ unfold Rdiv. rewrite ln_mult, ln_Rinv; try lra. now apply Rinv_0_lt_compat. }
    assert (1 - ulp1 <= f / IZR m <= 1 + ulp1) as Q.
    { unfold Rdiv. split; apply Rmult_le_reg_r with (IZR m); try exact MP; rewrite Rmult_assoc, Rinv_l by lra; lra. }
    assert (0 < f / IZR m) as QP by (unfold ulp1 in Q; lra).
    pose proof (ln_upper _ QP) as U. pose proof (ln_lower _ QP) as L.
    assert (/ (f / IZR m) <= / (1 - ulp1)) as I by (apply Rinv_le_contravar; [unfold ulp1; lra|lra]).
    assert (/ (1 - ulp1) <= 1 + 2 * ulp1) as J.
    { apply Rmult_le_reg_r with (1 - ulp1); [unfold ulp1; lra|]. rewrite Rinv_l by (unfold ulp1; lra). unfold ulp1. lra. }
    apply Rle_trans with (2 * ulp1); [apply Rabs_le; unfold ulp1 in *; lra|]. unfold ulp1. lra. }
  pose proof (rel_trans _ _ _ _ _ R1 R2 ltac:(unfold ulp1; lra)) as R3.
  apply rel_weaken with (2 := R3). unfold ulp1. lra.
Qed.

(** The whole sum. *)
Lemma shifted_ok logf base m k :
  libm_log logf -> dbl_pattern base -> dbl_finite base -> 0 < dbl_real base -> dbl_real base <> 1 ->
  (2 ^ 63 <= m < 2 ^ 64)%Z -> (- (32) <= k <= 2 ^ 62)%Z ->
  is_finite (log_eval logf (LShifted (LRatio m base) k base)) = true /\
  rel (26 * ulp1) (B2R (log_eval logf (LShifted (LRatio m base) k base)))
    (ln (IZR m) / ln (dbl_real base) + IZR k / (ln (dbl_real base) / ln 2)).
Proof.
  intros H P F B0 B1 M K. cbn [log_eval]. destruct (bits_ok base P F) as (FB & EB).
  set (y := bits_double base) in *. rewrite <- EB in B0, B1 |- *.
  destruct (divisor_ok logf y H FB B0 B1) as (FD & RD & BD). set (D := log2_wrapper logf y) in *. clearbody D.
  pose proof (ln_double_bounds y FB B0 B1) as BL. set (B := ln (B2R y)) in *.
  pose proof (ln_m_bounds m M) as LM. pose proof ln2_bounds as T.
  pose proof (bd_nonzero _ _ _ BL) as BN.
  (* first term *)
  destruct (ln_mantissa_ok logf m H M) as (FM & RM). destruct (logf_rel logf y H FB B0) as (FY & RY). fold B in RY.
  assert (bd (-1) 7 (ln (IZR m))) as BM.
  { split; rewrite Rabs_pos_eq by lra; [change (bpow radix2 (-1)) with (/ 2)|change (bpow radix2 7) with 128]; lra. }
  destruct (quotient_ok _ _ _ _ _ FM RM RY BM BL eq_refl) as (FQ & RQ).
  set (q := d_div (logf (int_double m)) (logf y)) in *. clearbody q.
  (* second term *)
  destruct (int_ok k ltac:(lia)) as (FK & RK).
  assert (ln 2 <> 0) as TN by lra.
  pose proof (rel_div _ _ _ _ _ _ RK RD ltac:(unfold ulp1; lra) ltac:(unfold ulp1; lra)
    (Rmult_integral_contrapositive_currified _ _ BN (Rinv_neq_0_compat _ TN))) as R1.
  fold (B / ln 2) in R1.
  assert (rel (611 / 100 * ulp1) (B2R (int_double k) / B2R D) (IZR k / (B / ln 2))) as R2.
  { apply rel_weaken with (2 := R1). apply Rmult_le_reg_r with (1 - 51 / 10 * ulp1); [unfold ulp1; lra|].
    unfold Rdiv at 1. rewrite Rmult_assoc, Rinv_l by (unfold ulp1; lra). unfold ulp1. lra. }
  assert (moderate (B2R (int_double k) / B2R D)) as MD.
  { destruct (Z.eq_dec k 0) as [->|N].
    - left. rewrite int_exact by lia. unfold Rdiv. apply Rmult_0_l.
    - assert (bd 0 63 (IZR k)) as BK.
      { split; rewrite <- abs_IZR.
        - change (bpow radix2 0) with (IZR 1). apply IZR_le. lia.
        - change (bpow radix2 63) with (IZR (2 ^ 63)). apply IZR_le. lia. }
      pose proof (bd_rel _ _ _ _ _ RK BK ltac:(unfold ulp1; lra)) as BK2.
      apply (bd_moderate _ _ _ (bd_div _ _ _ _ _ _ BK2 BD) ltac:(lia) ltac:(lia)). }
  destruct (div_ok (int_double k) D FK (bd_nonzero _ _ _ BD) MD) as (FT & RT).
  set (t := d_div (int_double k) D) in *. clearbody t.
  pose proof (rel_trans _ _ _ _ _ RT R2 ltac:(unfold ulp1; lra)) as R3.
  assert (rel (72 / 10 * ulp1) (B2R t) (IZR k / (B / ln 2))) as R4 by (apply rel_weaken with (2 := R3); unfold ulp1; lra).
  apply (rel_weaken _ (72 / 10 * ulp1)) in RQ; [|unfold ulp1; lra].
  (* sum *)
  assert (- (32) <= IZR k) as K1 by (destruct K as (K1 & _); apply IZR_le in K1; exact K1).
  assert (IZR k <= 4611686018427387904) as K2 by (destruct K as (_ & K2); apply IZR_le in K2; exact K2).
  assert (ln (IZR m) / B + IZR k / (B / ln 2) = (ln (IZR m) + IZR k * ln 2) / B) as EV by (field; split; lra).
  set (S0 := ln (IZR m) + IZR k * ln 2) in *.
  assert (31 * ln 2 <= S0) as SL by (unfold S0; nra).
  assert (S0 <= 64 + 4611686018427387904) as SU by (unfold S0; nra).
  assert (Rabs (ln (IZR m) / B) + Rabs (IZR k / (B / ln 2)) <= 31 / 10 * Rabs (ln (IZR m) / B + IZR k / (B / ln 2))) as KK.
  { rewrite EV. replace (IZR k / (B / ln 2)) with (IZR k * ln 2 / B) by (field; split; lra).
    unfold Rdiv. rewrite !Rabs_mult, !Rabs_inv. pose proof (Rinv_0_lt_compat _ (Rabs_pos_lt _ BN)) as IB.
    rewrite (Rabs_pos_eq (ln (IZR m))), (Rabs_pos_eq S0), (Rabs_pos_eq (ln 2)) by lra.
    rewrite <- Rmult_plus_distr_r, <- Rmult_assoc. apply Rmult_le_compat_r; [lra|].
    unfold S0. destruct (Rle_or_lt 0 (IZR k)) as [K0|K0].
    - rewrite (Rabs_pos_eq (IZR k)) by exact K0. nra.
    - rewrite (Rabs_left (IZR k)) by exact K0. nra. }
  pose proof (rel_plus _ _ _ _ _ _ RQ R4 KK ltac:(unfold ulp1; lra)) as R5.
  assert (bd (-8) 117 (ln (IZR m) / B + IZR k / (B / ln 2))) as BV.
  { rewrite EV. apply (bd_div 3 63 (-54) 11); [|exact BL].
    split; rewrite Rabs_pos_eq by lra; [change (bpow radix2 3) with 8|change (bpow radix2 63) with 9223372036854775808]; lra. }
  pose proof (bd_rel _ _ _ _ _ R5 BV ltac:(unfold ulp1; lra)) as BV2.
  destruct (add_ok q t FQ FT (bd_moderate _ _ _ BV2 ltac:(lia) ltac:(lia))) as (FS & RS).
  split; [exact FS|]. pose proof (rel_trans _ _ _ _ _ RS R5 ltac:(unfold ulp1; lra)) as R6.
  apply rel_weaken with (2 := R6). unfold ulp1. lra.
Qed.

(** C63. *)
Theorem log_accurate logf c b x n base :
  libm_log logf -> represents b x -> (1 <= x)%Z -> limb_count x n -> (n <= 2 ^ 57)%Z ->
  dbl_pattern base -> dbl_finite base -> 0 < dbl_real base -> dbl_real base <> 1 ->
  exists r, bi_log_double logf c b base = Ret r /\ is_finite r = true /\
    Rabs (B2R r - ln (IZR x) / ln (dbl_real base)) <= / 2 ^ 48 * Rabs (ln (IZR x) / ln (dbl_real base)).
Proof.
  intros H Hb Hx Hn Hn2 P F B0 B1. pose proof (regular_of_real base P F B0 B1) as HR.
  unfold bi_log_double. pose proof ln2_bounds as T.
  destruct (bits_ok base P F) as (FB & EB).
  assert (bd (-54) 11 (ln (dbl_real base))) as BL.
  { rewrite <- EB in *. now apply ln_double_bounds. }
  pose proof (bd_nonzero _ _ _ BL) as BN.
  replace (/ 2 ^ 48) with (32 * ulp1) by (unfold ulp1; replace (2 ^ 48) with 281474976710656 by lra; lra).
  destruct (Z.lt_ge_cases x (2 ^ 31)) as [Hs|Hs].
  - rewrite (log_small c b x base Hb ltac:(lia) HR). cbn [bind]. eexists. split; [reflexivity|]. cbn [log_eval].
    destruct (int_ok x ltac:(lia)) as (FX & _). pose proof (int_exact x ltac:(lia)) as EX.
    assert (1 <= IZR x) as XP by (apply (IZR_le 1); lia).
    destruct (logf_rel logf (int_double x) H FX ltac:(rewrite EX; lra)) as (FA & RA). rewrite EX in RA.
    destruct (logf_rel logf (bits_double base) H FB ltac:(rewrite EB; exact B0)) as (FY & RY). rewrite EB in RY.
    destruct (Z.eq_dec x 1) as [->|N1].
    + rewrite ln_1 in *. unfold rel in RA. rewrite Rabs_R0, Rmult_0_r, Rminus_0_r in RA.
      assert (B2R (logf (int_double 1)) = 0) as E0.
      { destruct (Req_dec (B2R (logf (int_double 1))) 0) as [E|E]; [exact E|]. apply Rabs_pos_lt in E. lra. }
      destruct (div_ok (logf (int_double 1)) (logf (bits_double base)) FA) as (FD & RD).
      * apply (rel_nonzero (2 * ulp1) _ (ln (dbl_real base))); [unfold ulp1; lra|exact RY|exact BN].
      * left. rewrite E0. unfold Rdiv. apply Rmult_0_l.
      * split; [exact FD|]. unfold rel in RD. rewrite E0 in RD. unfold Rdiv in *. rewrite Rmult_0_l in *.
        rewrite Rabs_R0, Rmult_0_r in *. exact RD.
    + assert (2 <= IZR x) as X2 by (apply (IZR_le 2); lia).
      assert (IZR x <= IZR (2 ^ 31)) as X3 by (apply IZR_le; lia).
      assert (ln 2 <= ln (IZR x)) as L1 by (destruct X2 as [X2| <-]; [left; apply ln_increasing; lra|lra]).
      assert (ln (IZR x) <= ln (IZR (2 ^ 31))) as L2.
      { destruct X3 as [X3| ->]; [left; apply ln_increasing; lra|lra]. }
      rewrite (ln_pow2 31) in L2 by lia.
      assert (bd (-1) 7 (ln (IZR x))) as BX.
      { split; rewrite Rabs_pos_eq by lra; [change (bpow radix2 (-1)) with (/ 2)|change (bpow radix2 7) with 128]; lra. }
      apply (rel_weaken _ (31 / 10 * ulp1)) in RA; [|unfold ulp1; lra].
      destruct (quotient_ok _ _ _ _ _ FA RA RY BX BL eq_refl) as (FQ & RQ). split; [exact FQ|].
      apply rel_weaken with (2 := RQ). unfold ulp1. lra.
  - destruct (regular_tests base HR) as (T1 & T2 & T3).
    destruct (log_shape c b x n base Hb Hs Hn Hn2 T1 T2 T3) as (m & k & E & Hm & Em & Hk).
    rewrite wrapper_regular in E by exact HR. rewrite E. cbn [bind].
    assert (- (32) <= k)%Z as Hk32.
    { destruct (Z.leb_spec 0 k) as [K|K]; [lia|]. destruct (Z.le_gt_cases (- (32)) k) as [|K2]; [assumption|exfalso].
      assert (2 ^ 33 <= 2 ^ (- k))%Z as Q by (apply Z.pow_le_mono_r; lia).
      change (2 ^ 33)%Z with 8589934592%Z in Q. change (2 ^ 31)%Z with 2147483648%Z in Hs.
      destruct Hm as (_ & Hm). change (2 ^ 64)%Z with 18446744073709551616%Z in Hm.
      set (p := (2 ^ (- k))%Z) in *. clearbody p. nia. }
    destruct (shifted_ok logf base m k H P F B0 B1 Hm ltac:(lia)) as (FS & RS).
    eexists. split; [reflexivity|]. split; [exact FS|].
    destruct (log_error x m k ltac:(lia) ltac:(lia) Em) as (S1 & S2).
    destruct (ln_split x m k ltac:(lia) ltac:(lia) S1 S2) as (D1 & D2).
    set (V := ln (IZR m) / ln (dbl_real base) + IZR k / (ln (dbl_real base) / ln 2)) in *.
    assert (31 * ln 2 <= ln (IZR x)) as LX.
    { rewrite <- (ln_pow2 31) by lia. apply IZR_le in Hs. assert (0 < IZR (2 ^ 31)) by (apply (IZR_lt 0); reflexivity).
      destruct Hs as [Hs|E2]; [left; now apply ln_increasing|]. right. f_equal. exact E2. }
    assert (rel (/ 10 * ulp1) V (ln (IZR x) / ln (dbl_real base))) as RV.
    { unfold rel, V.
      replace (ln (IZR m) / ln (dbl_real base) + IZR k / (ln (dbl_real base) / ln 2) - ln (IZR x) / ln (dbl_real base))
        with (- (ln (IZR x) - (ln (IZR m) + IZR k * ln 2)) / ln (dbl_real base)) by (field; split; lra).
      unfold Rdiv. rewrite !Rabs_mult, !Rabs_inv, Rabs_Ropp, (Rabs_pos_eq _ D1), (Rabs_pos_eq (ln (IZR x))) by lra.
      rewrite <- Rmult_assoc. apply Rmult_le_compat_r; [left; now apply Rinv_0_lt_compat, Rabs_pos_lt|].
      apply Rle_trans with (1 := D2). replace (/ 2 ^ 62) with (/ 4611686018427387904) by (f_equal; lra). unfold ulp1. lra. }
    pose proof (rel_trans _ _ _ _ _ RS RV ltac:(unfold ulp1; lra)) as R6.
    apply rel_weaken with (2 := R6). unfold ulp1. lra.
Qed.

(** ** Special values *)

Lemma div_nan_l y : d_div B754_nan y = B754_nan.
Proof. now destruct y as [[]|[]| |[] ? ? ?]. Qed.
Lemma div_nan_r x : d_div x B754_nan = B754_nan.
Proof. now destruct x as [[]|[]| |[] ? ? ?]. Qed.
Lemma add_nan_l y : d_add B754_nan y = B754_nan.
Proof. now destruct y as [[]|[]| |[] ? ? ?]. Qed.

Lemma bits_nan d : dbl_exp d = 2047%Z -> dbl_frac d <> 0%Z -> bits_double d = B754_nan.
Proof.
  intros E F. unfold bits_double. rewrite E, Z.eqb_refl. now rewrite (proj2 (Z.eqb_neq _ _) F).
Qed.

(** Whatever the value, a base whose std::log is NaN gives NaN. *)
Lemma log_bad_base logf c b x n base :
  represents b x -> limb_count x n -> (n <= 2 ^ 57)%Z ->
  dbl_is_zero base = false -> (base =? DBL_EXP_MASK)%Z = false ->
  logf (bits_double base) = B754_nan -> (double_is_nan base = true -> bits_double base = B754_nan) ->
  bi_log_double logf c b base = Ret B754_nan.
Proof.
  intros Hb Hn Hn2 T3 T2 L N. unfold bi_log_double.
  destruct (Z.lt_ge_cases x 0) as [Hx|Hx]; [now rewrite (log_undefined c b x base Hb (or_introl Hx))|].
  destruct (base =? DBL_ONE)%Z eqn:T1.
  { apply Z.eqb_eq in T1. now rewrite (log_undefined c b x base Hb (or_intror T1)). }
  assert (forall a, log_eval logf (log_wrapper a base) = B754_nan) as W.
  { intros a. unfold log_wrapper. destruct (double_is_nan base); [cbn [log_eval]; auto|].
    rewrite T1. destruct (_ && _)%bool; [reflexivity|]. cbn [log_eval]. rewrite L. apply div_nan_r. }
  destruct (Z.lt_ge_cases x (2 ^ 31)) as [Hs|Hs].
  - rewrite (log_small_any c b x base Hb (conj Hx Hs) T1 T2 T3). cbn [bind]. now rewrite W.
  - destruct (log_shape c b x n base Hb Hs Hn Hn2 T1 T2 T3) as (m & k & E & _). rewrite E. cbn [bind log_eval].
    now rewrite W, add_nan_l.
Qed.

Lemma infinite_div s (y : double) : is_finite y = true -> B2R y <> 0 ->
  d_div (B754_infinity s) y = B754_infinity (if Rlt_bool (B2R y) 0 then negb s else s).
Proof.
  intros F N. destruct y as [t|t| |t m e H]; try discriminate; [now contradiction N|].
  unfold d_div. cbn [Bdiv B2R]. f_equal. destruct t; cbn [cond_Zopp].
  - rewrite Rlt_bool_true by (apply F2R_lt_0; reflexivity). now destruct s.
  - rewrite Rlt_bool_false by (apply F2R_ge_0; discriminate). now destruct s.
Qed.

Lemma zero_div s (y : double) : is_finite y = true -> B2R y <> 0 ->
  d_div (B754_zero s) y = B754_zero (if Rlt_bool (B2R y) 0 then negb s else s).
Proof.
  intros F N. destruct y as [t|t| |t m e H]; try discriminate; [now contradiction N|].
  unfold d_div. cbn [Bdiv B2R]. f_equal. destruct t; cbn [cond_Zopp].
  - rewrite Rlt_bool_true by (apply F2R_lt_0; reflexivity). now destruct s.
  - rewrite Rlt_bool_false by (apply F2R_ge_0; discriminate). now destruct s.
Qed.

Lemma int_zero : int_double 0 = B754_zero false.
Proof. reflexivity. Qed.

(** The sign of std::log(base). *)
Lemma logf_sign logf (y : double) : libm_log logf -> is_finite y = true -> 0 < B2R y -> B2R y <> 1 ->
  is_finite (logf y) = true /\ B2R (logf y) <> 0 /\ Rlt_bool (B2R (logf y)) 0 = Rlt_bool (B2R y) 1.
Proof.
  intros H F P N. destruct (logf_rel logf y H F P) as (F1 & R1). split; [exact F1|].
  pose proof (ln_double_bounds y F P N) as B. pose proof (bd_nonzero _ _ _ B) as N0.
  split; [apply (rel_nonzero (2 * ulp1) _ _ ltac:(unfold ulp1; lra) R1 N0)|].
  unfold rel in R1. destruct (Rlt_or_le (B2R y) 1) as [L|L].
  - assert (ln (B2R y) < 0) as Q by (rewrite <- ln_1; now apply ln_increasing).
    rewrite (Rabs_left (ln (B2R y))) in R1 by exact Q. apply Rabs_le_inv in R1.
    rewrite !Rlt_bool_true; [reflexivity|exact L|]. unfold ulp1 in R1. lra.
  - assert (0 < ln (B2R y)) as Q by (rewrite <- ln_1; apply ln_increasing; lra).
    rewrite (Rabs_pos_eq (ln (B2R y))) in R1 by lra. apply Rabs_le_inv in R1.
    rewrite !Rlt_bool_false; [reflexivity|exact L|]. unfold ulp1 in R1. lra.
Qed.

Lemma log_zero_value logf c b base : libm_log logf -> represents b 0 -> dbl_pattern base -> dbl_finite base ->
  0 < dbl_real base -> dbl_real base <> 1 ->
  bi_log_double logf c b base = Ret (B754_infinity (negb (Rlt_bool (dbl_real base) 1))).
Proof.
  intros H Hb P F B0 B1. pose proof (regular_of_real base P F B0 B1) as HR. destruct (bits_ok base P F) as (FB & EB).
  unfold bi_log_double. rewrite (log_small c b 0 base Hb ltac:(lia) HR). cbn [bind log_eval].
  rewrite int_zero, (log_of_zero logf H). rewrite <- EB in *.
  destruct (logf_sign logf _ H FB B0 B1) as (F1 & N1 & S1). rewrite infinite_div by assumption. rewrite S1.
  now destruct (Rlt_bool _ 1).
Qed.

Lemma log_one_value logf c b base : libm_log logf -> represents b 1 -> dbl_pattern base -> dbl_finite base ->
  0 < dbl_real base -> dbl_real base <> 1 ->
  bi_log_double logf c b base = Ret (B754_zero (Rlt_bool (dbl_real base) 1)).
Proof.
  intros H Hb P F B0 B1. pose proof (regular_of_real base P F B0 B1) as HR. destruct (bits_ok base P F) as (FB & EB).
  unfold bi_log_double. rewrite (log_small c b 1 base Hb ltac:(lia) HR). cbn [bind log_eval].
  rewrite (log_of_one logf H (int_double 1)) by (apply int_exact; lia). rewrite <- EB in *.
  destruct (logf_sign logf _ H FB B0 B1) as (F1 & N1 & S1). rewrite zero_div by assumption. rewrite S1.
  now destruct (Rlt_bool _ 1).
Qed.

Lemma real_sign d : dbl_pattern d -> dbl_finite d -> dbl_significand d <> 0%Z ->
  if dbl_negative d then dbl_real d < 0 else 0 < dbl_real d.
Proof.
  intros P F N. pose proof (pattern_fields d P) as (FR & ER & _).
  assert (0 < dbl_significand d)%Z as Q.
  { unfold dbl_significand in *. change (2 ^ 52)%Z with 4503599627370496%Z in *. destruct (dbl_exp d =? 0)%Z; lia. }
  unfold dbl_real, dbl_signed. assert (0 < powerRZ 2 (dbl_scale d)) as W by (apply powerRZ_lt; lra).
  pose proof (IZR_lt 0 _ Q). destruct (dbl_negative d); [rewrite opp_IZR|]; nra.
Qed.

Lemma pattern_zero d : dbl_pattern d -> dbl_exp d = 0%Z -> dbl_frac d = 0%Z -> d = 0%Z \/ d = (2 ^ 63)%Z.
Proof.
  intros P E F. pose proof (pattern_fields d P) as (_ & _ & D). rewrite E, F in D.
  change (2 ^ 63)%Z with 9223372036854775808%Z in *. destruct (dbl_negative d); lia.
Qed.

Lemma pattern_infinite d : dbl_pattern d -> dbl_exp d = 2047%Z -> dbl_frac d = 0%Z ->
  d = if dbl_negative d then minus_infinity else plus_infinity.
Proof.
  intros P E F. pose proof (pattern_fields d P) as (_ & _ & D). rewrite E, F in D. rewrite D at 1.
  unfold minus_infinity, plus_infinity. destruct (dbl_negative d); reflexivity.
Qed.

Lemma log_to_nan logf c b x n d : libm_log logf -> represents b x -> limb_count x n -> (n <= 2 ^ 57)%Z ->
  dbl_pattern d -> dbl_exp d = 2047%Z -> dbl_frac d <> 0%Z -> bi_log_double logf c b d = Ret B754_nan.
Proof.
  intros H Hb Hn Hn2 P E F. pose proof (bits_nan d E F) as N.
  apply (log_bad_base logf c b x n); auto.
  - unfold dbl_is_zero. apply orb_false_iff. split; apply Z.eqb_neq; intros ->; revert E; discriminate.
  - apply Z.eqb_neq. intros ->. apply F. reflexivity.
  - rewrite N. apply (log_of_nan logf H).
Qed.

Lemma log_to_negative logf c b x n d : libm_log logf -> represents b x -> limb_count x n -> (n <= 2 ^ 57)%Z ->
  dbl_pattern d -> dbl_negative d = true -> d <> (2 ^ 63)%Z -> bi_log_double logf c b d = Ret B754_nan.
Proof.
  intros H Hb Hn Hn2 P N Z0. pose proof (pattern_fields d P) as (FR & ER & D).
  assert (dbl_is_zero d = false) as T3.
  { unfold dbl_is_zero. apply orb_false_iff. split; apply Z.eqb_neq; [intros ->; revert N; discriminate|exact Z0]. }
  assert ((d =? DBL_EXP_MASK)%Z = false) as T2 by (apply Z.eqb_neq; intros ->; revert N; discriminate).
  destruct (Z.eq_dec (dbl_exp d) 2047) as [E|E].
  - destruct (Z.eq_dec (dbl_frac d) 0) as [F|F]; [|now apply (log_to_nan logf c b x n)].
    apply (log_bad_base logf c b x n); auto.
    + unfold bits_double. rewrite E, F, N. apply (log_of_minus_infinity logf H).
    + rewrite (pattern_infinite d P E F), N. discriminate.
  - apply (log_bad_base logf c b x n); auto.
    + destruct (bits_ok d P E) as (_ & EB). apply (log_of_negative logf H). rewrite EB.
      pose proof (real_sign d P E) as RS. rewrite N in RS. apply RS. intros Z1. apply Z0.
      unfold dbl_significand in Z1. change (2 ^ 52)%Z with 4503599627370496%Z in *.
      destruct (Z.eqb_spec (dbl_exp d) 0) as [E0|E0]; [|lia].
      destruct (pattern_zero d P E0 Z1) as [->|]; [discriminate N|assumption].
    + intros Q. exfalso. unfold double_is_nan in Q. rewrite abs_mask in Q by exact P. apply Z.ltb_lt in Q.
      unfold DBL_EXP_MASK in Q. change (2 ^ 52)%Z with 4503599627370496%Z in *. lia.
Qed.

(** C63, every call. *)
Theorem log_total logf c b x n base :
  libm_log logf -> represents b x -> limb_count x n -> (n <= 2 ^ 57)%Z -> dbl_pattern base ->
  exists r, bi_log_double logf c b base = Ret r /\ log_meaning x base r.
Proof.
  intros H Hb Hn Hn2 P.
  assert (exists r, bi_log_double logf c b base = Ret r) as (r & E).
  { unfold bi_log_double. destruct (Z.lt_ge_cases x 0) as [Hx|Hx].
    { rewrite (log_undefined c b x base Hb (or_introl Hx)). cbn [bind]. eauto. }
    destruct (base =? DBL_ONE)%Z eqn:T1.
    { apply Z.eqb_eq in T1. rewrite (log_undefined c b x base Hb (or_intror T1)). cbn [bind]. eauto. }
    destruct (base =? DBL_EXP_MASK)%Z eqn:T2.
    { apply Z.eqb_eq in T2. change DBL_EXP_MASK with plus_infinity in T2. subst base. rewrite (log_base_infinite c b x Hb Hx). cbn [bind]. eauto. }
    destruct (dbl_is_zero base) eqn:T3.
    { unfold dbl_is_zero in T3. apply orb_true_iff in T3. rewrite !Z.eqb_eq in T3.
      rewrite (log_base_zero c b x base Hb Hx T3). cbn [bind]. eauto. }
    destruct (Z.lt_ge_cases x (2 ^ 31)) as [Hs|Hs].
    - rewrite (log_small_any c b x base Hb (conj Hx Hs) T1 T2 T3). cbn [bind]. eauto.
    - destruct (log_shape c b x n base Hb Hs Hn Hn2 T1 T2 T3) as (m & k & E & _). rewrite E. cbn [bind]. eauto. }
  exists r. split; [exact E|].
  assert (forall r', bi_log_double logf c b base = Ret r' -> r = r') as U by (intros r' E'; congruence).
  constructor.
  - intros Hx. apply U. unfold bi_log_double. now rewrite (log_undefined c b x base Hb (or_introl Hx)).
  - intros X F. apply U. now apply (log_to_nan logf c b x n).
  - intros N Z0. apply U. now apply (log_to_negative logf c b x n).
  - intros B1. apply U. unfold bi_log_double. now rewrite (log_undefined c b x base Hb (or_intror B1)).
  - intros B1 Hx. apply U. unfold bi_log_double. rewrite B1, (log_base_infinite c b x Hb Hx). cbn [bind].
    now destruct (x =? 1)%Z.
  - intros B1 Hx. apply U. unfold bi_log_double. rewrite (log_base_zero c b x base Hb Hx B1). cbn [bind].
    destruct (x =? 1)%Z; [|reflexivity]. cbn [log_eval]. rewrite (log_of_one logf H (int_double 1)) by (apply int_exact; lia).
    assert (bits_double base = B754_zero (dbl_negative base)) as -> by (destruct B1; subst base; reflexivity).
    now rewrite (log_of_zero logf H).
  - intros X F B1. subst x. apply U. rewrite (log_zero_value logf c b base H Hb P F) by lra. rewrite Rlt_bool_false by lra. reflexivity.
  - intros X F B1. subst x. apply U. rewrite (log_zero_value logf c b base H Hb P F) by lra. rewrite Rlt_bool_true by lra. reflexivity.
  - intros X F B1. subst x. apply U. rewrite (log_one_value logf c b base H Hb P F) by lra. rewrite Rlt_bool_false by lra. reflexivity.
  - intros X F B1. subst x. apply U. rewrite (log_one_value logf c b base H Hb P F) by lra. rewrite Rlt_bool_true by lra. reflexivity.
  - intros X F B0 B1. destruct (log_accurate logf c b x n base H Hb X Hn Hn2 P F B0 B1) as (r' & E' & F' & A').
    rewrite (U r' E'). split; assumption.
Qed.

(** ** A library function as asked for: the correctly rounded logarithm *)

Definition round_log (x : double) : double :=
  match x with
  | B754_zero _ => B754_infinity true
  | B754_infinity false => B754_infinity false
  | B754_finite false _ _ _ =>
      let r := rnd (ln (B2R x)) in
      @binary_normalize 53 1024 prec53 prec53_lt mode_NE
        (Ztrunc (scaled_mantissa radix2 (SpecFloat.fexp 53 1024) r)) (cexp radix2 (SpecFloat.fexp 53 1024) r) false
  | _ => B754_nan
  end.

Theorem libm_log_exists : libm_log round_log.
Proof.
  assert (forall x, is_finite x = true -> 0 < B2R x ->
    is_finite (round_log x) = true /\ B2R (round_log x) = rnd (ln (B2R x))) as C.
  { intros x F P. destruct x as [s|s| |[|] m e Hme]; cbn in P; try lra; try discriminate.
    { exfalso. revert P. apply Rle_not_lt. apply F2R_le_0. discriminate. }
    unfold round_log. set (x := B754_finite false m e Hme) in *. cbv zeta. set (r := rnd (ln (B2R x))).
    assert (generic_format radix2 (SpecFloat.fexp 53 1024) r) as G.
    { apply generic_format_round; [exact valid53|auto with typeclass_instances]. }
    assert (F2R (Float radix2 (Ztrunc (scaled_mantissa radix2 (SpecFloat.fexp 53 1024) r))
      (cexp radix2 (SpecFloat.fexp 53 1024) r)) = r) as EF by (symmetry; exact G).
    match goal with |- context [binary_normalize _ _ _ _ _ ?a ?b false] =>
      pose proof (@binary_normalize_correct 53 1024 prec53 prec53_lt mode_NE a b false) as E end.
    cbv zeta in E. rewrite EF in E. rewrite (round_generic radix2 _ _ r G) in E.
    assert (moderate (ln (B2R x))) as M.
    { destruct (Req_dec (B2R x) 1) as [->|N]; [left; apply ln_1|].
      apply (bd_moderate _ _ _ (ln_double_bounds x eq_refl P N)); lia. }
    pose proof (rnd_small _ M) as Q. fold r in Q. rewrite Q in E. destruct E as (E & E2 & _). auto. }
  constructor.
  - intros x F P. destruct (C x F P) as (F' & E). split; [exact F'|]. rewrite E.
    destruct (Req_dec (B2R x) 1) as [->|N].
    + rewrite ln_1, round_0 by auto with typeclass_instances. rewrite Rminus_0_r, Rabs_R0. lra.
    + pose proof (rnd_rel _ (bd_moderate _ _ _ (ln_double_bounds x F P N) ltac:(lia) ltac:(lia))) as R1.
      apply Rle_trans with (1 := R1). apply Rmult_le_compat_r; [apply Rabs_pos|].
      unfold ulp1. replace (/ 2 ^ 52) with (/ 4503599627370496) by (f_equal; lra). lra.
  - intros x E1. assert (is_finite x = true) as F by (destruct x; cbn in *; auto; lra).
    destruct x as [s|s| |[|] m e Hme]; try (cbn in E1; lra).
    { exfalso. assert (B2R (B754_finite true m e Hme : double) <= 0) by (apply F2R_le_0; discriminate). lra. }
    unfold round_log. rewrite E1, ln_1, round_0 by auto with typeclass_instances.
    unfold scaled_mantissa. rewrite Rmult_0_l. rewrite Ztrunc_IZR. reflexivity.
  - reflexivity.
  - intros x N. destruct x as [s|s| |[|] m e Hme]; cbn in N; try lra; [reflexivity|].
    exfalso. revert N. apply Rle_not_lt. apply F2R_ge_0. discriminate.
  - reflexivity.
  - reflexivity.
  - reflexivity.
Qed.

(** ** log and log10 *)

Theorem ln_accurate logf c b x n :
  libm_log logf -> represents b x -> (1 <= x)%Z -> limb_count x n -> (n <= 2 ^ 57)%Z ->
  exists r, bi_ln_double logf c b = Ret r /\ is_finite r = true /\
    Rabs (B2R r - ln (IZR x)) <= / 2 ^ 47 * Rabs (ln (IZR x)).
Proof.
  intros H Hb Hx Hn Hn2. pose proof e_nearest as E. set (d := dbl_real DBL_E) in *.
  replace (/ 2 ^ 52) with (2 * ulp1) in E by (unfold ulp1; replace (2 ^ 52) with 4503599627370496 by lra; lra).
  pose proof (exp_ineq1 1 ltac:(lra)) as E2. apply Rabs_le_inv in E.
  assert (3 / 2 <= d) as D1 by (unfold ulp1 in E; lra).
  destruct (log_accurate logf c b x n DBL_E H Hb Hx Hn Hn2 ltac:(split; [discriminate|reflexivity]) ltac:(discriminate))
    as (r & E1 & F1 & A1); fold d; try lra. fold d in A1.
  exists r. split; [exact E1|]. split; [exact F1|].
  replace (/ 2 ^ 48) with (32 * ulp1) in A1 by (unfold ulp1; replace (2 ^ 48) with 281474976710656 by lra; lra).
  assert (- (2 * ulp1) <= ln d - 1 <= 2 * ulp1) as L.
  { assert (ln d - 1 = ln (d / exp 1)) as ->.
    { unfold Rdiv. rewrite ln_mult, ln_Rinv, ln_exp; try apply exp_pos; [ring|lra|apply Rinv_0_lt_compat, exp_pos]. }
    assert (d = (d / exp 1) * exp 1) as Q by (field; lra). set (q := d / exp 1) in *.
    assert (0 < q) as QP by (unfold q; apply Rdiv_lt_0_compat; lra).
    pose proof (ln_upper q QP) as U. pose proof (ln_lower q QP) as W.
    assert (- ulp1 <= q - 1 <= ulp1) as QB by (rewrite Q in E; split; nra).
    assert (/ q <= 1 + 2 * ulp1) as I.
    { apply Rmult_le_reg_r with q; [exact QP|]. rewrite Rinv_l by lra. unfold ulp1 in *. nra. }
    lra. }
  assert (rel (5 * ulp1) (ln (IZR x) / ln d) (ln (IZR x))) as R2.
  { unfold rel. assert (/ 2 <= ln d) as LP by (unfold ulp1 in L; lra).
    replace (ln (IZR x) / ln d - ln (IZR x)) with (ln (IZR x) * ((1 - ln d) / ln d)) by (field; lra).
    rewrite Rabs_mult, Rmult_comm. apply Rmult_le_compat_r; [apply Rabs_pos|].
    unfold Rdiv. rewrite Rabs_mult, Rabs_inv, (Rabs_pos_eq (ln d)) by lra.
    apply Rmult_le_reg_r with (ln d); [lra|]. rewrite Rmult_assoc, Rinv_l, Rmult_1_r by lra.
    apply Rle_trans with (2 * ulp1); [apply Rabs_le; lra|]. unfold ulp1 in *. lra. }
  pose proof (rel_trans _ _ _ _ _ A1 R2 ltac:(unfold ulp1; lra)) as R3.
  apply rel_weaken with (2 := R3). unfold ulp1. replace (/ 2 ^ 47) with (/ 140737488355328) by (f_equal; lra). lra.
Qed.

Theorem log10_accurate logf c b x n :
  libm_log logf -> represents b x -> (1 <= x)%Z -> limb_count x n -> (n <= 2 ^ 57)%Z ->
  exists r, bi_log10_double logf c b = Ret r /\ is_finite r = true /\
    Rabs (B2R r - ln (IZR x) / ln 10) <= / 2 ^ 48 * Rabs (ln (IZR x) / ln 10).
Proof.
  intros H Hb Hx Hn Hn2. pose proof ten_real as E.
  destruct (log_accurate logf c b x n DBL_TEN H Hb Hx Hn Hn2 ltac:(split; [discriminate|reflexivity]) ltac:(discriminate))
    as (r & E1 & F1 & A1); try (rewrite E; lra).
  exists r. rewrite E in A1. auto.
Qed.
