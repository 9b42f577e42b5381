(** Proofs about the logarithms of the tests: the operators of the calculators, a log10 as asked
    for, and bounds of concrete logarithms. *)
From Coq Require Import String ZArith Reals Lra Lia Psatz.
From Flocq Require Import Core Relative BinarySingleNaN.
From Verif Require Import Machine Facts Spec SpecFacts SpecApi SpecPos SpecDouble SpecLog SpecLogDouble SpecText SpecActual SpecReference
  BigInt BigIntBytes BigIntFacts BigIntDouble BigIntLog BigIntLogDouble LogFacts LogReal DoubleFacts LogDoubleFacts
  TestOracle TestCalc CalcFacts OracleFacts OracleFacts3 OracleTotal SpecTestLog TestLog TestLogFacts TestLogFacts2 TestLogFacts3.
Open Scope R_scope.

Ltac Zify.zify_post_hook ::= idtac.

(** ** The operators *)

Section Operators.
  Context (logf log10f : double -> double) (cast : double -> outcome Z) (c : cfg).

  Lemma sn_unary_log op b : is_log op -> sn_unary c (sn_log1 logf log10f cast c) b op = sn_log1 logf log10f cast c op b.
  Proof. intros [-> | ->]; reflexivity. Qed.

  Lemma mine_unary_log op b x : is_log op -> represents b x ->
    mine_unary c (mine_log1 logf log10f cast c) b op = mine_log1 logf log10f cast c op b.
  Proof.
    intros OP Hb. unfold mine_unary. destruct (wp_inv _ _ (shortest_wp c b x Hb)) as (l & -> & _). cbn [bind].
    destruct OP; subst op; reflexivity.
  Qed.

  Lemma sn_binary_log fuel a b z : returns (sn_log2 logf log10f cast c "bLog" a b) z ->
    denotes_pair (sn_binary fuel c (sn_log2 logf log10f cast c) a b "bLog") (Ret z) 0.
  Proof.
    intros (r & E & R). unfold sn_binary, bi_zero.
    destruct (wp_inv _ _ (int32_wp c 0 ltac:(lia))) as (o & -> & O). cbn [bind].
    cbn [String.eqb Ascii.eqb Bool.eqb orb]. rewrite E. cbn [bind denotes_pair]. eauto.
  Qed.

  Lemma mine_binary_log a b x y z : represents a x -> represents b y -> returns (mine_log2 logf log10f cast c "bLog" a b) z ->
    denotes_pair (mine_binary c (mine_log2 logf log10f cast c) a b "bLog") (Ret z) 0.
  Proof.
    intros Ha Hb (r & E & R). unfold mine_binary.
    destruct (wp_inv _ _ (shortest_wp c a x Ha)) as (l1 & -> & _). cbn [bind].
    destruct (wp_inv _ _ (shortest_wp c b y Hb)) as (l2 & -> & _). cbn [bind].
    destruct (wp_inv _ _ (int32_wp c 0 ltac:(lia))) as (o & -> & O). cbn [bind].
    cbn [String.eqb Ascii.eqb Bool.eqb orb]. rewrite E. cbn [bind denotes_pair]. eauto.
  Qed.
End Operators.

(** ** The claims *)

Theorem unary_log10 logf log10f cast c b x n z : libm_log logf -> libm_log10 log10f ->
  represents b x -> (2 <= x)%Z -> limb_count x n -> (n <= 2 ^ 26)%Z ->
  clear (ln (IZR x) / ln 10) -> ceiling (ln (IZR x) / ln 10) z ->
  returns (sn_unary c (sn_log1 logf log10f cast c) b "uLog10") z /\
  returns (mine_unary c (mine_log1 logf log10f cast c) b "uLog10") z.
Proof.
  intros HL HT Hb X Hn N C Z. rewrite sn_unary_log by (right; reflexivity). rewrite (mine_unary_log _ _ _ _ _ _ x) by (right; reflexivity) || assumption.
  split; [now apply (sn_log10_ok logf log10f HL HT cast c b x n)|now apply (mine_log10_ok logf log10f HL HT cast c b x n)].
Qed.

Theorem unary_ln logf log10f cast c b x n z : libm_log logf -> libm_log10 log10f ->
  represents b x -> (2 <= x)%Z -> limb_count x n -> (n <= 2 ^ 26)%Z ->
  clear (ln (IZR x)) -> ceiling (ln (IZR x)) z ->
  returns (sn_unary c (sn_log1 logf log10f cast c) b "uLog") z /\
  returns (mine_unary c (mine_log1 logf log10f cast c) b "uLog") z.
Proof.
  intros HL HT Hb X Hn N C Z. rewrite sn_unary_log by (left; reflexivity). rewrite (mine_unary_log _ _ _ _ _ _ x) by (left; reflexivity) || assumption.
  split; [now apply (sn_ln_ok logf log10f HL HT cast c b x n)|now apply (mine_ln_ok logf log10f HL HT cast c b x n)].
Qed.

Theorem unary_special logf log10f cast c op b x : libm_log logf -> libm_log10 log10f -> is_log op ->
  represents b x -> (x <= 1)%Z -> let z := if (x <? 0)%Z then (-101)%Z else if (x =? 0)%Z then (-102)%Z else 0%Z in
  returns (sn_unary c (sn_log1 logf log10f cast c) b op) z /\
  (x = 1%Z \/ (exists f, cast (first_log x) = Ret f /\ (f <= 100)%Z) ->
   returns (mine_unary c (mine_log1 logf log10f cast c) b op) z).
Proof.
  intros HL HT OP Hb X z. rewrite sn_unary_log, (mine_unary_log _ _ _ _ _ _ x) by assumption.
  split; [now apply sn_log1_special|]. intros D.
  assert (exists f, double_to_int cast (first_log x) = Ret f /\ (f <= 100)%Z) as (f & Ef & F).
  { destruct D as [->|(f & Ef & F)]; [exists 0%Z; split; [reflexivity|lia]|]. unfold double_to_int, first_log in *.
    destruct (Z.ltb_spec x 0); [exists f; auto|]. destruct (Z.eqb_spec x 0); [exists f; auto|]. exists 0%Z. split; [reflexivity|lia]. }
  now apply (mine_log1_special logf log10f HL HT cast c op b x f).
Qed.

Theorem unary_undefined logf log10f cast c op b x u : libm_log logf -> is_log op ->
  represents b x -> (x <= 0)%Z -> cast (first_log x) = Undef u ->
  mine_unary c (mine_log1 logf log10f cast c) b op = Undef u.
Proof.
  intros HL OP Hb X E. rewrite (mine_unary_log _ _ _ _ _ _ x) by assumption. now apply (mine_log1_undefined logf log10f HL cast c op b x u).
Qed.

Theorem binary_regular logf log10f cast fuel c a b x y n z : libm_log logf -> libm_log10 log10f ->
  represents a x -> represents b y -> limb_count x n -> (n <= 2 ^ 26)%Z -> (2 <= x)%Z -> (2 <= y < 2 ^ 1024)%Z ->
  clear (ln (IZR x) / ln (IZR y)) -> ceiling (ln (IZR x) / ln (IZR y)) z ->
  denotes_pair (sn_binary fuel c (sn_log2 logf log10f cast c) a b "bLog") (Ret z) 0 /\
  ((x < 2 ^ 1024)%Z -> denotes_pair (mine_binary c (mine_log2 logf log10f cast c) a b "bLog") (Ret z) 0).
Proof.
  intros HL HT Ha Hb Hn N X Y C Z. split; [|intros XB].
  - apply sn_binary_log. now apply (sn_regular logf log10f HL HT cast c a b x y n).
  - apply (mine_binary_log _ _ _ _ _ _ x y); [assumption..|]. now apply (mine_regular logf log10f HL HT cast c a b x y n).
Qed.

Theorem binary_special logf log10f cast fuel c a b x y n : libm_log logf -> libm_log10 log10f ->
  represents a x -> represents b y -> limb_count x n -> (n <= 2 ^ 26)%Z -> (x <= 1 \/ y <= 1 \/ 2 ^ 1024 <= y)%Z ->
  denotes_pair (sn_binary fuel c (sn_log2 logf log10f cast c) a b "bLog") (Ret (ratio_special x y)) 0 /\
  denotes_pair (mine_binary c (mine_log2 logf log10f cast c) a b "bLog") (Ret (ratio_special x y)) 0.
Proof.
  intros HL HT Ha Hb Hn N S. split.
  - apply sn_binary_log. now apply (sn_special logf log10f HL HT cast c a b x y n).
  - apply (mine_binary_log _ _ _ _ _ _ x y); [assumption..|]. now apply (mine_special logf log10f HL HT cast c a b x y).
Qed.

Theorem binary_large logf log10f cast fuel c a b x y n : libm_log logf -> libm_log10 log10f ->
  represents a x -> represents b y -> limb_count x n -> (n <= 2 ^ 26)%Z -> (2 ^ 1024 <= x)%Z -> (2 <= y < 2 ^ 1024)%Z ->
  (exists z, denotes_pair (sn_binary fuel c (sn_log2 logf log10f cast c) a b "bLog") (Ret z) 0 /\ (1 <= z)%Z) /\
  denotes_pair (mine_binary c (mine_log2 logf log10f cast c) a b "bLog") (Ret (-103)%Z) 0.
Proof.
  intros HL HT Ha Hb Hn N X Y. assert (2 <= x)%Z as X2 by (clear -X; apply Z.le_trans with (2 := X); vm_compute; discriminate). split.
  - destruct (sn_positive logf log10f HL HT cast c a b x y n Ha Hb Hn N X2 Y) as (z & R & Z). exists z. split; [now apply sn_binary_log|exact Z].
  - apply (mine_binary_log _ _ _ _ _ _ x y); [assumption..|]. now apply (mine_large logf log10f HL cast c a b x y).
Qed.

Theorem unary_same logf log10f cast c b x : libm_log logf -> represents b x -> (1 <= x < 2 ^ 31)%Z ->
  sn_unary c (sn_log1 logf log10f cast c) b "uLog10" = mine_unary c (mine_log1 logf log10f cast c) b "uLog10".
Proof.
  intros HL Hb X. rewrite sn_unary_log, (mine_unary_log _ _ _ _ _ _ x) by (assumption || (right; reflexivity)). now apply (same_log10 logf log10f cast c b x).
Qed.

Theorem binary_same logf log10f cast fuel c a b x y : libm_log logf -> represents a x -> represents b y ->
  (2 <= x < 2 ^ 31)%Z -> (2 <= y < 2 ^ 1024)%Z ->
  sn_binary fuel c (sn_log2 logf log10f cast c) a b "bLog" = mine_binary c (mine_log2 logf log10f cast c) a b "bLog".
Proof.
  intros HL Ha Hb (X & XB) Y. pose proof (same_ratio logf log10f HL cast c a b x y Ha Hb X Y XB) as E. unfold sn_binary, mine_binary, bi_zero.
  destruct (wp_inv _ _ (shortest_wp c a x Ha)) as (l1 & -> & _). cbn [bind].
  destruct (wp_inv _ _ (shortest_wp c b y Hb)) as (l2 & -> & _). cbn [bind].
  destruct (wp_inv _ _ (int32_wp c 0 ltac:(lia))) as (o & -> & O). cbn [bind].
  cbn [String.eqb Ascii.eqb Bool.eqb orb]. now rewrite E.
Qed.

(** ** A log10 as asked for *)

Definition round_log10 (x : double) : double :=
  match x with
  | B754_finite false _ _ _ =>
      let r := rnd (ln (B2R x) / ln 10) in
      @binary_normalize 53 1024 prec53 prec53_lt mode_NE
        (Ztrunc (scaled_mantissa radix2 (SpecFloat.fexp 53 1024) r)) (cexp radix2 (SpecFloat.fexp 53 1024) r) false
  | _ => B754_nan
  end.

Theorem libm_log10_exists : libm_log10 round_log10.
Proof.
  assert (forall x : double, is_finite x = true -> 0 < B2R x -> B2R x <> 1 -> bd (-56) 11 (ln (B2R x) / ln 10)) as MO.
  { intros x F P N. apply (bd_div (-54) 11 0 2 _ _ (ln_double_bounds x F P N)). pose proof ln10_bounds as T.
    change (bd 0 2 (ln 10)) with (1 <= Rabs (ln 10) <= 4). rewrite Rabs_pos_eq; lra. }
  assert (forall x : double, is_finite x = true -> 0 < B2R x ->
    is_finite (round_log10 x) = true /\ B2R (round_log10 x) = rnd (ln (B2R x) / ln 10)) as C.
  { intros x F P. destruct x as [s|s| |[|] m e Hme]; cbn in P; try lra; try discriminate.
    { exfalso. revert P. apply Rle_not_lt. apply F2R_le_0. discriminate. }
    unfold round_log10. set (x := B754_finite false m e Hme) in *. cbv zeta. set (r := rnd (ln (B2R x) / ln 10)).
    assert (generic_format radix2 (SpecFloat.fexp 53 1024) r) as G.
    { apply generic_format_round; [exact valid53|auto with typeclass_instances]. }
    assert (F2R (Float radix2 (Ztrunc (scaled_mantissa radix2 (SpecFloat.fexp 53 1024) r))
      (cexp radix2 (SpecFloat.fexp 53 1024) r)) = r) as EF by (symmetry; exact G).
    match goal with |- context [binary_normalize _ _ _ _ _ ?a ?b false] =>
      pose proof (@binary_normalize_correct 53 1024 prec53 prec53_lt mode_NE a b false) as E end.
    cbv zeta in E. rewrite EF in E. rewrite (round_generic radix2 _ _ r G) in E.
    assert (moderate (ln (B2R x) / ln 10)) as M.
    { destruct (Req_dec (B2R x) 1) as [->|N]; [left; rewrite ln_1; unfold Rdiv; ring|].
      apply (bd_moderate _ _ _ (MO x eq_refl P N)); lia. }
    pose proof (rnd_small _ M) as Q. fold r in Q. rewrite Q in E. destruct E as (E & E2 & _). auto. }
  intros x F P. destruct (C x F P) as (F' & E). split; [exact F'|]. rewrite E.
  destruct (Req_dec (B2R x) 1) as [->|N].
  - rewrite ln_1. replace (0 / ln 10) with 0 by (unfold Rdiv; ring). rewrite round_0 by auto with typeclass_instances.
    rewrite Rminus_0_r, Rabs_R0. lra.
  - pose proof (rnd_rel _ (bd_moderate _ _ _ (MO x F P N) ltac:(lia) ltac:(lia))) as R1.
    apply Rle_trans with (1 := R1). apply Rmult_le_compat_r; [apply Rabs_pos|].
    unfold ulp1. replace (/ 2 ^ 52) with (/ 4503599627370496) by (f_equal; lra). lra.
Qed.

(** ** Bounds of concrete logarithms *)

(** A number well between two integers is clear of all of them. *)
Lemma clear_between L (k : Z) : (0 <= k <= 1000000)%Z -> IZR k + / 1000 <= L <= IZR k + 1 - / 1000 -> clear L.
Proof.
  intros K B i. apply Rle_lt_trans with (/ 2000).
  - unfold margin. replace (2 ^ 52) with 4503599627370496 by lra.
    assert (0 <= IZR k <= 1000000) as KR by (split; apply IZR_le; lia). assert (0 <= L <= 1000001) as LR by lra.
    assert (L * (L + 64) <= 1000001 * 1000065) by (apply Rmult_le_compat; lra). lra.
  - apply Rlt_le_trans with (/ 1000); [lra|]. destruct (Z.le_gt_cases i k) as [H|H].
    + apply IZR_le in H. rewrite Rabs_pos_eq by lra. lra.
    + assert (k + 1 <= i)%Z as H1 by lia. apply IZR_le in H1. rewrite plus_IZR in H1. rewrite Rabs_left1 by lra. lra.
Qed.

Lemma ceiling_between L k : IZR k + / 1000 <= L <= IZR k + 1 - / 1000 -> ceiling L (k + 1).
Proof. intros H. unfold ceiling. rewrite plus_IZR. lra. Qed.

(** y^a <= x^m <= y^b *)
Lemma ratio_between (x y : R) (m a b : nat) : 1 < x -> 1 < y -> (0 < m)%nat -> y ^ a <= x ^ m -> x ^ m <= y ^ b ->
  INR a / INR m <= ln x / ln y <= INR b / INR m.
Proof.
  intros X Y M A B. assert (0 < INR m) as MP by (apply lt_0_INR; lia).
  assert (0 < ln y) as LY by (rewrite <- ln_1; apply ln_increasing; lra).
  assert (forall z k, 0 < z -> ln (z ^ k) = INR k * ln z) as P by (intros; apply ln_pow; assumption).
  assert (INR a * ln y <= INR m * ln x) as H1 by (rewrite <- !P by lra; apply ln_le_mono; [apply pow_lt; lra|exact A]).
  assert (INR m * ln x <= INR b * ln y) as H2 by (rewrite <- !P by lra; apply ln_le_mono; [apply pow_lt; lra|exact B]).
  split; apply Rmult_le_reg_r with (INR m * ln y); try (apply Rmult_lt_0_compat; assumption).
  - replace (INR a / INR m * (INR m * ln y)) with (INR a * ln y) by (field; lra).
    replace (ln x / ln y * (INR m * ln y)) with (INR m * ln x) by (field; lra). exact H1.
  - replace (INR b / INR m * (INR m * ln y)) with (INR b * ln y) by (field; lra).
    replace (ln x / ln y * (INR m * ln y)) with (INR m * ln x) by (field; lra). exact H2.
Qed.

Lemma ratio_between_int (x y m a b k : Z) : (1 < x)%Z -> (1 < y)%Z -> (0 < m)%Z -> (0 <= a)%Z -> (0 <= b)%Z ->
  (y ^ a <= x ^ m)%Z -> (x ^ m <= y ^ b)%Z -> (1000 * k * m + m <= 1000 * a)%Z -> (1000 * b <= 1000 * (k + 1) * m - m)%Z ->
  IZR k + / 1000 <= ln (IZR x) / ln (IZR y) <= IZR k + 1 - / 1000.
Proof.
  intros X Y M A B H1 H2 H3 H4. apply IZR_lt in X as XR, Y as YR, M as MR.
  assert (forall z e, (0 <= e)%Z -> IZR (z ^ e) = IZR z ^ Z.to_nat e) as P.
  { intros z e E. rewrite <- (Z2Nat.id e E) at 1. now rewrite <- pow_IZR. }
  assert (forall e, (0 <= e)%Z -> INR (Z.to_nat e) = IZR e) as Q by (intros e E; now rewrite INR_IZR_INZ, Z2Nat.id).
  apply IZR_le in H1, H2, H3, H4. rewrite !P in H1, H2 by lia.
  destruct (ratio_between (IZR x) (IZR y) (Z.to_nat m) (Z.to_nat a) (Z.to_nat b)) as (R1 & R2); try assumption; [lia|].
  rewrite !Q in R1, R2 by lia.
  rewrite minus_IZR in H4. rewrite plus_IZR in H3. rewrite !mult_IZR in H3, H4. rewrite plus_IZR in H4.
  split.
  - apply Rle_trans with (2 := R1). apply Rmult_le_reg_r with (IZR m); [assumption|].
    unfold Rdiv. rewrite Rmult_assoc, Rinv_l by lra. lra.
  - apply Rle_trans with (1 := R2). apply Rmult_le_reg_r with (IZR m); [assumption|].
    unfold Rdiv. rewrite Rmult_assoc, Rinv_l by lra. lra.
Qed.

Lemma exp_1_bounds : 2718 / 1000 <= exp 1 <= 2719 / 1000.
Proof.
  pose proof e_nearest as E. apply Rabs_le_inv in E. replace (/ 2 ^ 52) with (/ 4503599627370496) in E by (f_equal; lra).
  assert (dbl_real DBL_E = 6121026514868073 / 2251799813685248) as V.
  { unfold dbl_real. change (dbl_signed DBL_E (dbl_significand DBL_E)) with 6121026514868073%Z.
    change (dbl_scale DBL_E) with (-51)%Z. change (powerRZ 2 (-51)) with (/ 2 ^ 51).
    replace (2 ^ 51) with 2251799813685248 by lra. lra. }
  rewrite V in E. lra.
Qed.

Lemma ln_between_int (x m a b k : Z) : (1 < x)%Z -> (0 < m)%Z -> (0 <= a)%Z -> (0 <= b)%Z ->
  (2719 ^ a <= 1000 ^ a * x ^ m)%Z -> (1000 ^ b * x ^ m <= 2718 ^ b)%Z -> (1000 * k * m + m <= 1000 * a)%Z -> (1000 * b <= 1000 * (k + 1) * m - m)%Z ->
  IZR k + / 1000 <= ln (IZR x) <= IZR k + 1 - / 1000.
Proof.
  intros X M A B H1 H2 H3 H4. apply IZR_lt in X as XR, M as MR.
  assert (forall z e, (0 <= e)%Z -> IZR (z ^ e) = IZR z ^ Z.to_nat e) as P.
  { intros z e E. rewrite <- (Z2Nat.id e E) at 1. now rewrite <- pow_IZR. }
  assert (forall e, (0 <= e)%Z -> INR (Z.to_nat e) = IZR e) as Q by (intros e E; now rewrite INR_IZR_INZ, Z2Nat.id).
  apply IZR_le in H1, H2, H3, H4. rewrite mult_IZR in H1, H2. rewrite !P in H1, H2 by lia.
  pose proof exp_1_bounds as (E1 & E2).
  assert (forall e, 0 < 1000 ^ e) as PP by (intros; apply pow_lt; lra).
  destruct (ratio_between (IZR x) (exp 1) (Z.to_nat m) (Z.to_nat a) (Z.to_nat b)) as (R1 & R2); try assumption; [lra|lia|..].
  - apply Rle_trans with ((2719 / 1000) ^ Z.to_nat a); [apply pow_incr; lra|].
    unfold Rdiv. rewrite Rpow_mult_distr, pow_inv by lra. apply Rmult_le_reg_r with (1000 ^ Z.to_nat a); [apply PP|].
    rewrite Rmult_assoc, Rinv_l by (apply Rgt_not_eq, PP). lra.
  - apply Rle_trans with ((2718 / 1000) ^ Z.to_nat b); [|apply pow_incr; lra].
    unfold Rdiv. rewrite Rpow_mult_distr, pow_inv by lra. apply Rmult_le_reg_r with (1000 ^ Z.to_nat b); [apply PP|].
    rewrite Rmult_assoc, Rinv_l by (apply Rgt_not_eq, PP). lra.
  - rewrite ln_exp in R1, R2. unfold Rdiv in R1, R2. rewrite Rinv_1, Rmult_1_r in R1, R2. rewrite !Q in R1, R2 by lia.
    rewrite minus_IZR in H4. rewrite plus_IZR in H3. rewrite !mult_IZR in H3, H4. rewrite plus_IZR in H4.
    split.
    + apply Rle_trans with (2 := R1). apply Rmult_le_reg_r with (IZR m); [assumption|]. rewrite Rmult_assoc, Rinv_l by lra. lra.
    + apply Rle_trans with (1 := R2). apply Rmult_le_reg_r with (IZR m); [assumption|]. rewrite Rmult_assoc, Rinv_l by lra. lra.
Qed.
