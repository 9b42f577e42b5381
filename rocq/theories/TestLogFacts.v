(** Proofs about the logarithms of the tests. *)
From Coq Require Import String ZArith Reals Lra Lia Psatz.
From Flocq Require Import Core Relative BinarySingleNaN.
From Verif Require Import Machine Facts Spec SpecFacts SpecApi BigInt BigIntFacts CompareFacts SpecDouble SpecLog SpecLogDouble
  BigIntDouble BigIntLog BigIntLogDouble LogFacts LogReal DoubleFacts LogDoubleFacts SpecTestLog TestLog.
Open Scope R_scope.

Ltac Zify.zify_post_hook ::= idtac.

Lemma wp_returns o z : wp o (fun r => represents r z) -> returns o z.
Proof. unfold returns. destruct o; cbn; try contradiction. eauto. Qed.

(** ** Bit patterns *)

(** The fields of a finite double. *)
Lemma bounded_fields m e : SpecFloat.bounded 53 1024 m e = true ->
  (-1074 <= e <= 971)%Z /\ (Zpos m < 2 ^ 53)%Z /\ ((Zpos m < 2 ^ 52)%Z -> e = (-1074)%Z).
Proof.
  intros H. unfold SpecFloat.bounded, SpecFloat.canonical_mantissa in H. apply andb_prop in H as (H1 & H2).
  apply Zeq_bool_eq in H1. apply Z.leb_le in H2. unfold SpecFloat.fexp, SpecFloat.emin in H1.
  rewrite Digits.Zpos_digits2_pos in H1.
  pose proof (Digits.Zdigits_correct radix2 (Zpos m)) as (D1 & D2). rewrite Z.abs_eq in D1, D2 by lia.
  change (Zpower radix2) with (Z.pow 2) in D1, D2. set (k := Digits.Zdigits radix2 (Zpos m)) in *. clearbody k.
  change (1024 - 53)%Z with 971%Z in H2. change (3 - 1024 - 53)%Z with (-1074)%Z in H1.
  split; [lia|]. split.
  - apply Z.lt_le_trans with (1 := D2). apply Z.pow_le_mono_r; lia.
  - intros L. destruct (Z.le_gt_cases k 52) as [K|K]; [lia|].
    assert (2 ^ 52 <= 2 ^ (k - 1))%Z by (apply Z.pow_le_mono_r; lia). lia.
Qed.

Lemma double_bits_fields (s : bool) m e H :
  let d := double_bits (B754_finite s m e H : double) in
  dbl_pattern d /\ dbl_finite d /\ dbl_negative d = s /\ dbl_significand d = Zpos m /\ dbl_scale d = e.
Proof.
  destruct (bounded_fields m e H) as (E & M & C). cbv zeta. unfold double_bits.
  change DBL_SIGN with (2 ^ 63)%Z. destruct (Z.ltb_spec (Zpos m) (2 ^ 52)) as [L|L].
  - pose proof (fields_pattern s 0 (Zpos m) ltac:(lia) ltac:(lia)) as (P & N & X & F).
    rewrite Z.mul_0_l, Z.add_0_r in *. split; [exact P|]. unfold dbl_finite, dbl_significand, dbl_scale.
    rewrite N, X, F. cbn [Z.eqb]. split; [discriminate|]. split; [reflexivity|]. split; [reflexivity|].
    rewrite (C L). reflexivity.
  - pose proof (fields_pattern s (e + 1075) (Zpos m - 2 ^ 52) ltac:(lia)
      ltac:(change (2 ^ 53)%Z with 9007199254740992%Z in M; change (2 ^ 52)%Z with 4503599627370496%Z in *; lia)) as (P & N & X & F).
    rewrite <- Z.add_assoc in P, N, X, F. split; [exact P|]. unfold dbl_finite, dbl_significand, dbl_scale.
    rewrite N, X, F. destruct (Z.eqb_spec (e + 1075) 0) as [|_]; [lia|]. repeat split; lia.
Qed.

Lemma double_bits_exact (d : double) z : is_finite d = true -> B2R d = IZR z -> dbl_exact (double_bits d) z.
Proof.
  intros F E. destruct d as [s|s| |s m e H]; try discriminate.
  - cbn [B2R] in E. apply (eq_IZR 0) in E. subst z. destruct s; (split; [split; [discriminate|reflexivity]|]; split; [discriminate|reflexivity]).
  - destruct (double_bits_fields s m e H) as (P & FI & N & S & SC). split; [exact P|]. split; [exact FI|].
    unfold dbl_signed. rewrite N, S, SC. cbn [B2R] in E. unfold F2R in E. cbn [Fnum Fexp] in E.
    change (SpecFloat.cond_Zopp s (Zpos m)) with (if s then (- Zpos m)%Z else Zpos m) in E.
    set (v := if s then (- Zpos m)%Z else Zpos m) in *. apply eq_IZR. rewrite !mult_IZR.
    change 2%Z with (radix_val radix2). rewrite !IZR_Zpower by lia. rewrite <- E.
    rewrite Rmult_assoc, <- bpow_plus. f_equal. f_equal. lia.
Qed.

(** ** Rounding to integers *)

Lemma ceil_ok (v : double) z : is_finite v = true -> ceiling (B2R v) z ->
  is_finite (d_ceil v) = true /\ B2R (d_ceil v) = IZR z.
Proof.
  intros F C. destruct (@Bnearbyint_correct 53 1024 prec53_lt mode_UP v) as (E & F' & _). unfold d_ceil.
  rewrite E, F'. split; [exact F|]. rewrite round_FIX_IZR. f_equal. cbn [round_mode]. apply Zceil_imp.
  rewrite minus_IZR. exact C.
Qed.

Lemma to_int_ok cast (x : double) n : is_finite x = true -> IZR n <= B2R x < IZR n + 1 -> (0 <= n <= INT_MAX)%Z ->
  double_to_int cast x = Ret n.
Proof.
  intros F C N. unfold double_to_int. rewrite F. pose proof (@Btrunc_correct 53 1024 prec53_lt x) as E.
  rewrite round_FIX_IZR in E. apply eq_IZR in E. rewrite E.
  assert (Ztrunc (B2R x) = n) as ->.
  { rewrite Ztrunc_floor; [|apply (IZR_le 0) in N as (N & _) || (destruct N as (N & _); apply (IZR_le 0) in N); lra].
    apply Zfloor_imp. rewrite plus_IZR. exact C. }
  cbv zeta. rewrite (proj2 (Z.leb_le INT_MIN n)), (proj2 (Z.leb_le n INT_MAX)) by (unfold INT_MIN; lia). reflexivity.
Qed.

(** The floor of a moderate number converts to int. *)
Lemma floor_to_int cast (x : double) : is_finite x = true -> Rabs (B2R x) < 2147483647 ->
  double_to_int cast (d_floor x) = Ret (Zfloor (B2R x)).
Proof.
  intros F B. destruct (@Bnearbyint_correct 53 1024 prec53_lt mode_DN x) as (E & F' & _).
  unfold double_to_int, d_floor. rewrite F', F. pose proof (@Btrunc_correct 53 1024 prec53_lt (@Bnearbyint 53 1024 prec53_lt mode_DN x)) as T.
  rewrite round_FIX_IZR in T. apply eq_IZR in T. rewrite T, E, round_FIX_IZR, Ztrunc_IZR. cbn [round_mode].
  apply Rabs_lt_inv in B. pose proof (Zfloor_lb (B2R x)) as L. pose proof (Zfloor_ub (B2R x)) as U.
  assert (Zfloor (B2R x) < 2147483647)%Z by (apply lt_IZR; lra).
  assert (-2147483649 < Zfloor (B2R x))%Z by (apply lt_IZR; lra).
  cbv zeta. unfold INT_MIN, INT_MAX. rewrite (proj2 (Z.leb_le _ _)), (proj2 (Z.leb_le _ _)) by lia. reflexivity.
Qed.

Lemma ceiling_exists L : exists z, ceiling L z.
Proof.
  exists (Zceil L). pose proof (Zceil_ub L). split; [|assumption].
  destruct (Rlt_or_le (IZR (Zceil L) - 1) L) as [|H1]; [assumption|exfalso].
  rewrite <- minus_IZR in H1. apply Zceil_glb in H1. lia.
Qed.

Lemma ceiling_unique L y z : ceiling L y -> ceiling L z -> y = z.
Proof.
  intros (A1 & A2) (B1 & B2). assert (y < z + 1)%Z by (apply lt_IZR; rewrite plus_IZR; lra).
  assert (z < y + 1)%Z by (apply lt_IZR; rewrite plus_IZR; lra). lia.
Qed.

(** A number within the margin has the same ceiling. *)
Lemma ceiling_close L v z : clear L -> Rabs (v - L) <= margin L -> ceiling L z -> ceiling v z.
Proof.
  intros C D (Z1 & Z2). pose proof (C z) as C1. pose proof (C (z - 1)%Z) as C2. rewrite minus_IZR in C2.
  rewrite Rabs_left1 in C1 by lra. rewrite Rabs_pos_eq in C2 by lra. apply Rabs_le_inv in D. unfold ceiling. lra.
Qed.

Lemma ln10_bounds : 8 / 5 <= ln 10 <= 4.
Proof.
  pose proof ln2_bounds as T. replace 10 with (2 * (2 * (2 * (10 / 8)))) at 1 2 by lra.
  rewrite !ln_mult by lra. pose proof (ln_lower (10 / 8) ltac:(lra)) as A. pose proof (ln_upper (10 / 8) ltac:(lra)) as B.
  replace (/ (10 / 8)) with (8 / 10) in A by lra. lra.
Qed.

Section Approximate.
  Context (log10f : double -> double) (L10 : libm_log10 log10f).

  Lemma approximate_ok cast c (v : double) z :
    is_finite v = true -> Rabs (B2R v) <= 1125899906842624 -> ceiling (B2R v) z ->
    returns (approximate log10f cast c v) z.
  Proof.
    intros F B C. destruct (ceil_ok v z F C) as (FC & EC).
    pose proof (double_bits_exact _ z FC EC) as X. destruct X as (P & FI & _).
    pose proof (exact_trunc _ z (double_bits_exact _ z FC EC)) as T.
    destruct (of_double_finite c _ P FI) as (r & Er & Hr). rewrite T in Hr.
    assert (exists w, bi_zero c = Ret w /\ represents w 0) as (w & Ew & Hw).
    { apply wp_returns. apply bi_of_int32_spec. unfold INT_MIN, INT_MAX. lia. }
    assert (approximate log10f cast c v =
      if negb (z =? 0)%Z then
        size <- double_to_int cast (d_floor (log10f (if Bltb (int_double 0) v then v else Bopp v))) ;;
        (if (17 <? size)%Z then
            ten <- bi_of_int32 c 10 ;; e <- chk32 c (size - 17) ;; p <- bi_pow c ten e ;; r0 <- bi_rem c r p ;; bi_sub c r r0
          else Ret r)
      else Ret r) as ->.
    { unfold approximate. destruct v as [s|s| |s m e H]; try discriminate;
        rewrite Er; cbn [bind]; rewrite Ew; cbn [bind]; rewrite (bi_ne_spec c r w z 0 Hr Hw); reflexivity. }
    destruct (Z.eqb_spec z 0) as [->|NZ]; cbn [negb]; [exists r; auto|].
    assert (B2R v <> 0) as VN.
    { intros E. rewrite E in C. destruct C as (C1 & C2). apply NZ. assert (z < 1)%Z by (apply lt_IZR; lra).
      assert (0 <= z)%Z by (apply le_IZR; lra). lia. }
    set (a := if Bltb (int_double 0) v then v else Bopp v).
    assert (is_finite a = true /\ B2R a = Rabs (B2R v)) as (FA & EA).
    { unfold a. rewrite (Bltb_correct _ _ (int_double 0) v eq_refl F), (int_exact 0) by lia.
      destruct (Rlt_bool_spec 0 (B2R v)) as [H|H].
      - rewrite Rabs_pos_eq by lra. auto.
      - rewrite is_finite_Bopp, B2R_Bopp, Rabs_left1 by lra. auto. }
    clearbody a. assert (0 < B2R a) as PA by (rewrite EA; now apply Rabs_pos_lt).
    destruct (L10 a FA PA) as (FL & RL). pose proof ln10_bounds as TB. rewrite EA in RL, PA.
    replace (/ 2 ^ 52) with (2 * ulp1) in RL by (unfold ulp1; replace (2 ^ 52) with 4503599627370496 by lra; lra).
    assert (ln (Rabs (B2R v)) <= 50 * ln 2) as LU.
    { rewrite <- (ln_pow2 50) by lia. change (2 ^ 50)%Z with 1125899906842624%Z.
      destruct B as [B| ->]; [left; now apply ln_increasing|lra]. }
    assert (Rabs (ln (Rabs (B2R v))) <= 2048) as LA.
    { destruct (Req_dec (B2R a) 1) as [E1|N1]; [rewrite <- EA, E1, ln_1, Rabs_R0; lra|].
      destruct (ln_double_bounds a FA ltac:(rewrite EA; exact PA) N1) as (_ & U). rewrite <- EA. exact U. }
    set (l := ln (Rabs (B2R v))) in *. clearbody l. set (g := B2R (log10f a)) in *.
    assert (l / ln 10 <= 50 * ln 2 / ln 10) as Q1 by (apply Rmult_le_compat_r; [left; apply Rinv_0_lt_compat; lra|exact LU]).
    assert (50 * ln 2 / ln 10 <= 50 / 3) as Q2.
    { assert (3 * ln 2 <= ln 10) as T3.
      { replace 3 with (IZR 3) by reflexivity. rewrite <- (ln_pow2 3) by lia. change (2 ^ 3)%Z with 8%Z.
        left. apply ln_increasing; lra. }
      apply Rmult_le_reg_r with (ln 10); [lra|]. unfold Rdiv at 1. rewrite Rmult_assoc, Rinv_l by lra. lra. }
    assert (Rabs (l / ln 10) <= 2048) as Q3.
    { unfold Rdiv. rewrite Rabs_mult, Rabs_inv, (Rabs_pos_eq (ln 10)) by lra.
      apply Rmult_le_reg_r with (ln 10); [lra|]. rewrite Rmult_assoc, Rinv_l by lra. pose proof (Rabs_pos l). nra. }
    set (t := l / ln 10) in *. clearbody t.
    assert (2 * ulp1 * Rabs t <= / 1000) as Q4 by (unfold ulp1; pose proof (Rabs_pos t); lra).
    assert (Rabs (g - t) <= / 1000) as Q5 by lra. apply Rabs_le_inv in Q5. apply Rabs_le_inv in Q3.
    rewrite (floor_to_int cast _ FL); [|fold g; apply Rabs_lt; lra]. cbn [bind]. fold g.
    destruct (Z.ltb_spec 17 (Zfloor g)) as [S|_]; [exfalso|exists r; auto].
    apply IZR_lt in S. pose proof (Zfloor_lb g). lra.
  Qed.
End Approximate.

(** ** Logarithms of the converted operands *)

Lemma exact_real d z : dbl_exact d z -> is_finite (bits_double d) = true /\ B2R (bits_double d) = IZR z.
Proof.
  intros (P & F & E). destruct (bits_ok d P F) as (FB & EB). split; [exact FB|]. rewrite EB. unfold dbl_real.
  apply (f_equal IZR) in E. rewrite !mult_IZR in E.
  change 2%Z with (radix_val radix2) in E. rewrite !IZR_Zpower in E by lia.
  change 2 with (IZR radix2). rewrite <- bpow_powerRZ.
  set (m := IZR (dbl_signed d (dbl_significand d))) in *. set (k := dbl_scale d) in *. clearbody m k.
  apply Rmult_eq_reg_r with (bpow radix2 (Z.max 0 (- k))); [|apply Rgt_not_eq, bpow_gt_0].
  rewrite <- E, Rmult_assoc, <- bpow_plus. f_equal. f_equal. lia.
Qed.

Lemma ln_le_mono a b : 0 < a -> a <= b -> ln a <= ln b.
Proof. intros A [B| ->]; [left; now apply ln_increasing|lra]. Qed.

Lemma trunc53_close x : (1 <= x)%Z ->
  (1 <= trunc53 x)%Z /\ (trunc53 x <= x)%Z /\ ((x - trunc53 x) * 2 ^ 52 <= x)%Z /\ ((x < 2 ^ 53)%Z -> trunc53 x = x).
Proof.
  intros X. destruct (Z.lt_ge_cases x (2 ^ 53)) as [S|S].
  - rewrite trunc53_small by lia. split; [exact X|]. split; [lia|]. split; [|auto]. rewrite Z.sub_diag. lia.
  - unfold trunc53. rewrite Z.abs_eq by lia. pose proof (Z.log2_spec x ltac:(lia)) as (L1 & L2).
    assert (53 <= Z.log2 x)%Z as L3 by (change 53%Z with (Z.log2 (2 ^ 53)) at 1; now apply Z.log2_le_mono).
    rewrite Z.max_r by lia. cbv zeta. set (k := (Z.log2 x - 52)%Z) in *.
    assert (2 ^ Z.log2 x = 2 ^ 52 * 2 ^ k)%Z as EK by (rewrite <- Z.pow_add_r by lia; f_equal; lia).
    assert (0 < 2 ^ k)%Z as PK by (apply Z.pow_pos_nonneg; lia).
    rewrite Z.quot_div_nonneg by lia. pose proof (Z.div_mod x (2 ^ k) ltac:(lia)) as D.
    pose proof (Z.mod_pos_bound x (2 ^ k) PK) as M. rewrite EK in L1. set (p := (2 ^ k)%Z) in *. clearbody p.
    set (q := (x / p)%Z) in *. set (r := (x mod p)%Z) in *. clearbody q r.
    change (2 ^ 52)%Z with 4503599627370496%Z in *. change (2 ^ 53)%Z with 9007199254740992%Z in *. clear L2 EK.
    assert (1 <= q)%Z by nia. split; [nia|]. split; [nia|]. split; [|lia]. nia.
Qed.

Lemma ln_trunc x : (2 <= x)%Z -> rel (/ 10 * ulp1) (ln (IZR (trunc53 x))) (ln (IZR x)).
Proof.
  intros X. destruct (trunc53_close x ltac:(lia)) as (T1 & T2 & T3 & T4).
  destruct (Z.lt_ge_cases x (2 ^ 53)) as [S|S].
  { rewrite (T4 S). apply rel_weaken with (2 := rel_refl _). unfold ulp1. lra. }
  clear T4. apply IZR_le in T1, T2, T3, S. rewrite mult_IZR, minus_IZR in T3.
  change (2 ^ 52)%Z with 4503599627370496%Z in T3.
  assert (53 * ln 2 <= ln (IZR x)) as L.
  { rewrite <- (ln_pow2 53) by lia. apply ln_le_mono; [|exact S]. apply (IZR_lt 0). reflexivity. }
  pose proof ln2_bounds as T. assert (0 < IZR x) as XP by lra.
  set (t := IZR (trunc53 x)) in *. set (y := IZR x) in *. clearbody t y.
  unfold rel. rewrite (Rabs_pos_eq (ln y)) by lra.
  assert (ln t - ln y = ln (t / y)) as ->.
  { unfold Rdiv. rewrite ln_mult, ln_Rinv; try lra. now apply Rinv_0_lt_compat. }
  assert (1 - 2 * ulp1 <= t / y <= 1) as Q.
  { unfold Rdiv. split; apply Rmult_le_reg_r with y; try exact XP; rewrite Rmult_assoc, Rinv_l by lra; unfold ulp1; lra. }
  assert (0 < t / y) as QP by (unfold ulp1 in Q; lra).
  pose proof (ln_upper _ QP) as U. pose proof (ln_lower _ QP) as W.
  assert (/ (t / y) <= 1 + 21 / 10 * ulp1) as I.
  { apply Rmult_le_reg_r with (t / y); [exact QP|]. rewrite Rinv_l by lra. unfold ulp1 in *. nra. }
  apply Rabs_le. unfold ulp1 in *. lra.
Qed.

(** A positive operand that fits a double, converted. *)
Lemma to_double_ln c b x : represents b x -> (2 <= x)%Z -> (x < 2 ^ 1024)%Z ->
  exists d, bi_to_double c b = Ret d /\ dbl_exact d (trunc53 x) /\ is_finite (bits_double d) = true /\
    2 <= B2R (bits_double d) /\ rel (/ 10 * ulp1) (ln (B2R (bits_double d))) (ln (IZR x)).
Proof.
  intros Hb X U. destruct (to_double_finite c b x Hb ltac:(lia)) as (d & E & D & _).
  destruct (exact_real d _ D) as (F & R). exists d. rewrite R. split; [exact E|]. split; [exact D|]. split; [exact F|].
  split; [|now apply ln_trunc]. destruct (trunc53_close x ltac:(lia)) as (T1 & _ & T3 & T4). apply (IZR_le 2).
  destruct (Z.lt_ge_cases x (2 ^ 53)) as [S|S]; [now rewrite (T4 S)|].
  change (2 ^ 52)%Z with 4503599627370496%Z in T3. change (2 ^ 53)%Z with 9007199254740992%Z in S. lia.
Qed.

(** std::log of a finite double of 2 or more that is close to [x]. *)
Lemma logf_close logf (y : double) l : libm_log logf -> is_finite y = true -> 2 <= B2R y ->
  rel (/ 10 * ulp1) (ln (B2R y)) l ->
  is_finite (logf y) = true /\ rel (22 / 10 * ulp1) (B2R (logf y)) l.
Proof.
  intros H F Y R. destruct (logf_rel logf y H F ltac:(lra)) as (FL & RL). split; [exact FL|].
  pose proof (rel_trans _ _ _ _ _ RL R ltac:(unfold ulp1; lra)) as R2. apply rel_weaken with (2 := R2). unfold ulp1. lra.
Qed.

Lemma int_double_one : B2R (int_double 1) = 1. Proof. apply (int_exact 1). lia. Qed.
Lemma int_double_zero : B2R (int_double 0) = 0. Proof. apply (int_exact 0). lia. Qed.

Lemma csharp_regular logf (a base : double) : is_nan a = false -> is_finite base = true -> B2R base <> 0 -> B2R base <> 1 ->
  csharp_log logf a base = d_div (logf a) (logf base).
Proof.
  intros F1 F2 B0 B1. unfold csharp_log. rewrite F1.
  rewrite B2R_not_nan by exact B0.
  rewrite (Beqb_correct _ _ base (int_double 1) F2 eq_refl), (Beqb_correct _ _ base (int_double 0) F2 eq_refl).
  rewrite int_double_one, int_double_zero, !Req_bool_false by assumption. rewrite F2. cbn [negb orb]. now rewrite Bool.andb_false_r.
Qed.

(** The quotient of two computed logarithms of numbers of 2 or more. *)
Lemma ratio_ok logf (a base : double) la lb : libm_log logf ->
  is_finite a = true -> 2 <= B2R a -> rel (/ 10 * ulp1) (ln (B2R a)) la ->
  is_finite base = true -> 2 <= B2R base -> rel (/ 10 * ulp1) (ln (B2R base)) lb ->
  0 < la -> 0 < lb ->
  is_finite (csharp_log logf a base) = true /\ rel (6 * ulp1) (B2R (csharp_log logf a base)) (la / lb).
Proof.
  intros H FA A RA FB B RB PA PB. rewrite csharp_regular by (try apply B2R_not_nan; auto; lra).
  destruct (logf_close logf a la H FA A RA) as (F1 & R1). destruct (logf_close logf base lb H FB B RB) as (F2 & R2).
  assert (bd (-54) 11 (ln (B2R a))) as BA by (apply ln_double_bounds; auto; lra).
  assert (bd (-54) 11 (ln (B2R base))) as BB by (apply ln_double_bounds; auto; lra).
  destruct (logf_rel logf a H FA ltac:(lra)) as (_ & Q1). destruct (logf_rel logf base H FB ltac:(lra)) as (_ & Q2).
  pose proof (bd_rel _ _ _ _ _ Q1 BA ltac:(unfold ulp1; lra)) as B3.
  pose proof (bd_rel _ _ _ _ _ Q2 BB ltac:(unfold ulp1; lra)) as B4.
  pose proof (bd_div _ _ _ _ _ _ B3 B4) as B5.
  destruct (div_ok (logf a) (logf base) F1 (bd_nonzero _ _ _ B4) (bd_moderate _ _ _ B5 ltac:(lia) ltac:(lia))) as (F5 & R5).
  split; [exact F5|].
  pose proof (rel_div _ _ _ _ _ _ R1 R2 ltac:(unfold ulp1; lra) ltac:(unfold ulp1; lra) ltac:(lra)) as R6.
  assert (rel (441 / 100 * ulp1) (B2R (logf a) / B2R (logf base)) (la / lb)) as R7.
  { apply rel_weaken with (2 := R6). apply Rmult_le_reg_r with (1 - 22 / 10 * ulp1); [unfold ulp1; lra|].
    unfold Rdiv at 1. rewrite Rmult_assoc, Rinv_l by (unfold ulp1; lra). unfold ulp1. lra. }
  pose proof (rel_trans _ _ _ _ _ R5 R7 ltac:(unfold ulp1; lra)) as R8.
  apply rel_weaken with (2 := R8). unfold ulp1. lra.
Qed.

(** ** Dividing by ten and adding up *)

Lemma shrink_ok c n b x : represents b x -> (0 <= x)%Z -> returns (shrink c n b) (x / 10 ^ Z.of_nat n).
Proof.
  intros Hb X. apply wp_returns. unfold shrink. apply wp_bind.
  eapply wp_mono; [apply bi_of_int32_spec; unfold INT_MIN, INT_MAX; lia|]. intros t Ht. cbn beta in Ht.
  apply (wp_for_up n 0 _ b (fun i r => represents r (x / 10 ^ Z.of_nat i))).
  - rewrite Z.div_1_r. exact Hb.
  - intros i r _ Hr. eapply wp_mono; [apply (bi_div_spec c r t _ 10 Hr Ht); lia|]. intros q Hq. cbn beta in Hq.
    assert (0 < 10 ^ Z.of_nat i)%Z as P by (apply Z.pow_pos_nonneg; lia).
    rewrite Z.quot_div_nonneg in Hq by (try apply Z.div_pos; lia). rewrite Z.div_div in Hq by lia.
    rewrite Nat2Z.inj_succ, Z.pow_succ_r by lia. now rewrite (Z.mul_comm 10).
  - auto.
Qed.

Lemma add_up_ok S ds T (s : double) : is_finite s = true -> Rabs (B2R s - S) <= ds -> 0 <= S -> T <= 1000000000000 ->
  forall n (v : double) T0 e0, is_finite v = true -> Rabs (B2R v - T0) <= e0 -> 1 <= T0 -> T0 + INR n * S <= T ->
  e0 + INR n * (ds + ulp1 * (T + 1)) <= / 2 ->
  is_finite (add_up n s v) = true /\ Rabs (B2R (add_up n s v) - (T0 + INR n * S)) <= e0 + INR n * (ds + ulp1 * (T + 1)).
Proof.
  intros FS DS SP TB. induction n as [|n IH]; intros v T0 e0 FV DV TP TT EE.
  - cbn [add_up INR]. rewrite !Rmult_0_l, !Rplus_0_r. auto.
  - rewrite S_INR in *. pose proof (pos_INR n) as NP. cbn [add_up].
    pose proof (Rabs_pos (B2R s - S)) as DP.
    assert (0 <= ds + ulp1 * (T + 1)) as CP by (unfold ulp1; nra).
    assert (T0 + S <= T) as T1 by nra. assert (e0 + (ds + ulp1 * (T + 1)) <= / 2) as E1 by nra.
    apply Rabs_le_inv in DS as DS'. apply Rabs_le_inv in DV as DV'.
    assert (moderate (B2R v + B2R s)) as M.
    { right. assert (/ 4 <= B2R v + B2R s <= 1099511627776) as (A & B) by (unfold ulp1 in *; nra).
      rewrite Rabs_pos_eq by lra. split.
      - apply Rle_trans with (2 := A). change (/ 4) with (bpow radix2 (-2)). apply bpow_le. lia.
      - apply Rle_trans with (1 := B). change 1099511627776 with (bpow radix2 40). apply bpow_le. lia. }
    destruct (add_ok v s FV FS M) as (FA & RA).
    assert (Rabs (B2R (d_add v s) - (T0 + S)) <= e0 + (ds + ulp1 * (T + 1))) as D2.
    { unfold rel in RA.
      assert (Rabs (B2R v + B2R s) <= T + 1) as U by (apply Rabs_le; unfold ulp1 in *; nra).
      assert (Rabs (B2R (d_add v s) - (B2R v + B2R s)) <= ulp1 * (T + 1)) as RA2.
      { apply Rle_trans with (1 := RA). apply Rmult_le_compat_l; [unfold ulp1; lra|exact U]. }
      apply Rabs_le_inv in RA2. apply Rabs_le. lra. }
    destruct (IH (d_add v s) (T0 + S) _ FA D2 ltac:(lra) ltac:(lra) ltac:(lra)) as (FI & RI).
    split; [exact FI|]. replace (T0 + (INR n + 1) * S) with (T0 + S + INR n * S) by ring.
    apply Rle_trans with (1 := RI). right. ring.
Qed.

Lemma ln_pow10 k : ln (IZR (10 ^ Z.of_nat k)) = INR k * ln 10.
Proof. rewrite <- pow_IZR, ln_pow by lra. reflexivity. Qed.

Lemma ln_limbs x n : (1 <= x)%Z -> limb_count x n -> (n <= 2 ^ 26)%Z -> ln (IZR x) <= 2147483648 * ln 2.
Proof.
  intros X (N1 & F & _) N. unfold fits_limbs in F. pose proof ln2_bounds as T.
  apply Rle_trans with (ln (IZR (2 ^ (32 * n)))).
  - apply ln_le_mono; [apply (IZR_lt 0); lia|]. apply IZR_le. lia.
  - rewrite ln_pow2 by lia. apply Rmult_le_compat_r; [lra|]. apply (IZR_le _ 2147483648). change (2 ^ 26)%Z with 67108864%Z in N. lia.
Qed.

(** What the reference does before it takes the logarithm: [k] digits are cut off. *)
Lemma cut_digits logf cast c b x n :
  libm_log logf -> represents b x -> (2 <= x)%Z -> limb_count x n -> (n <= 2 ^ 26)%Z ->
  exists r f k y, bi_log_double logf c b DBL_TEN = Ret r /\ double_to_int cast r = Ret f /\
    k = (if (100 <? f)%Z then Z.to_nat (f - 100) else O) /\ y = (x / 10 ^ Z.of_nat k)%Z /\ (2 <= y < 2 ^ 1024)%Z /\
    INR k <= ln (IZR x) / ln 10 /\ (k <> O -> 40 <= ln (IZR y)) /\
    (k = O -> y = x) /\
    0 <= ln (IZR x) - INR k * ln 10 - ln (IZR y) <= / 1000 * ulp1.
Proof.
  intros H Hb X Hn N. pose proof ln10_bounds as T10. pose proof ln2_bounds as T2.
  destruct (log10_accurate logf c b x n H Hb ltac:(lia) Hn ltac:(apply Z.le_trans with (1 := N); vm_compute; discriminate)) as (r & E & F & A).
  exists r. set (L := ln (IZR x) / ln 10) in *.
  pose proof (ln_limbs x n ltac:(lia) Hn N) as LU.
  assert (ln 2 <= ln (IZR x)) as LL by (apply ln_le_mono; [lra|apply (IZR_le 2); lia]).
  assert (3 * ln 2 <= ln 10) as T3.
  { replace 3 with (IZR 3) by reflexivity. rewrite <- (ln_pow2 3) by lia. change (2 ^ 3)%Z with 8%Z. left. apply ln_increasing; lra. }
  assert (L * ln 10 = ln (IZR x)) as EL by (unfold L; field; lra).
  assert (0 < L <= 715827883) as LB by (split; [apply Rmult_lt_reg_r with (ln 10); lra|apply Rmult_le_reg_r with (ln 10); lra]).
  rewrite Rabs_pos_eq with (x := L) in A by lra.
  replace (/ 2 ^ 48) with (/ 281474976710656) in A by (f_equal; lra).
  assert (Rabs (B2R r - L) <= / 281474976710656 * L) as A' by exact A. apply Rabs_le_inv in A'.
  set (f := Zfloor (B2R r)). pose proof (Zfloor_lb (B2R r)) as F1. pose proof (Zfloor_ub (B2R r)) as F2. fold f in F1, F2.
  assert (0 <= f)%Z as F3 by (apply (Zfloor_lub 0); lra).
  assert (f <= INT_MAX)%Z as F4 by (unfold INT_MAX; apply le_IZR; lra).
  exists f. set (k := if (100 <? f)%Z then Z.to_nat (f - 100) else O). exists k. exists (x / 10 ^ Z.of_nat k)%Z.
  split; [exact E|]. split; [apply to_int_ok; auto|]. split; [reflexivity|]. split; [reflexivity|].
  assert ((k = O /\ IZR f <= 100) \/ (INR k = IZR f - 100 /\ 1 <= INR k)) as K.
  { unfold k. destruct (Z.ltb_spec 100 f) as [G|G].
    - right. rewrite INR_IZR_INZ, Z2Nat.id, minus_IZR by lia. split; [reflexivity|]. assert (101 <= f)%Z as G2 by lia. apply IZR_le in G2. lra.
    - left. split; [reflexivity|]. apply IZR_le in G. exact G. }
  assert (ln (IZR (2 ^ 1024)) = 1024 * ln 2) as E1024 by (rewrite ln_pow2 by lia; reflexivity).
  assert (0 < 2 ^ 1024)%Z as P1024 by reflexivity.
  set (big := (2 ^ 1024)%Z) in *. clearbody big.
  clearbody k. destruct K as [(K & KF)|(K & K1)].
  - subst k. change (10 ^ Z.of_nat 0)%Z with 1%Z. rewrite Z.div_1_r. cbn [INR].
    split; [split; [exact X|]|].
    + apply lt_IZR. apply ln_lt_inv; [apply (IZR_lt 0); lia|now apply (IZR_lt 0)|]. rewrite E1024, <- EL. nra.
    + split; [lra|]. split; [congruence|]. split; [reflexivity|]. unfold ulp1. lra.
  - assert (99 <= L - INR k <= 102) as LK by lra.
    set (p := (10 ^ Z.of_nat k)%Z). assert (0 < p)%Z as PP by (apply Z.pow_pos_nonneg; lia).
    assert (ln (IZR p) = INR k * ln 10) as EP by apply ln_pow10. clearbody p.
    pose proof (Z.div_mod x p ltac:(lia)) as D. pose proof (Z.mod_pos_bound x p PP) as M.
    set (y := (x / p)%Z) in *. set (w := (x mod p)%Z) in *. clearbody y w.
    assert (IZR x = IZR p * IZR y + IZR w) as DR by (rewrite <- mult_IZR, <- plus_IZR; now f_equal).
    assert (0 <= IZR w < IZR p) as MR by (destruct M as (M1 & M2); apply IZR_le in M1; apply IZR_lt in M2; auto).
    apply IZR_lt in PP. assert (0 < IZR x) as XP by (apply (IZR_lt 0); lia).
    set (q := IZR x / IZR p). assert (0 < q) as QP by (apply Rdiv_lt_0_compat; lra).
    assert (ln q = (L - INR k) * ln 10) as EQ.
    { unfold q, Rdiv. rewrite ln_mult, ln_Rinv, EP; try lra. now apply Rinv_0_lt_compat. }
    assert (q = IZR y + IZR w / IZR p) as YQ by (unfold q; rewrite DR; field; lra).
    assert (0 <= IZR w / IZR p < 1) as WB.
    { split; [apply Rmult_le_pos; [lra|left; now apply Rinv_0_lt_compat]|]. apply Rmult_lt_reg_r with (IZR p); [exact PP|].
      unfold Rdiv. rewrite Rmult_assoc, Rinv_l by lra. lra. }
    assert (IZR (2 ^ 100) < q) as Q1.
    { apply ln_lt_inv; [apply (IZR_lt 0); reflexivity|exact QP|]. rewrite ln_pow2 by lia. rewrite EQ.
      replace (IZR 100) with 100 by reflexivity. nra. }
    assert (IZR (2 ^ 99) <= IZR y) as Y1.
    { change (2 ^ 100)%Z with (2 * 2 ^ 99)%Z in Q1. rewrite mult_IZR in Q1.
      assert (1 <= IZR (2 ^ 99)) by (apply (IZR_le 1); discriminate). lra. }
    assert (IZR (2 ^ 99) = 633825300114114700748351602688) as E99 by reflexivity. rewrite E99 in Y1.
    split; [split|].
    + apply (le_IZR 2). lra.
    + apply lt_IZR. apply Rle_lt_trans with q; [lra|]. apply ln_lt_inv; [exact QP|now apply (IZR_lt 0)|]. rewrite E1024, EQ. nra.
    + split; [lra|]. split.
      * intros _. apply Rle_trans with (ln (IZR (2 ^ 99))); [rewrite ln_pow2 by lia; lra|]. apply ln_le_mono; rewrite E99; lra.
      * split; [intros ->; cbn [INR] in K1; lra|].
        assert (ln (IZR x) - INR k * ln 10 - ln (IZR y) = ln (q / IZR y)) as ->.
        { unfold Rdiv. rewrite ln_mult, ln_Rinv; try (apply Rinv_0_lt_compat); try lra. }
        destruct (ln_lt_bound (q / IZR y) (IZR w / IZR p / IZR y)) as (B1 & B2).
        { apply Rmult_le_pos; [lra|]. left. apply Rinv_0_lt_compat. lra. }
        { rewrite YQ. field. split; lra. }
        split; [exact B1|]. apply Rle_trans with (1 := B2).
        apply Rmult_le_reg_r with (IZR y); [lra|]. unfold Rdiv at 1. rewrite Rmult_assoc, Rinv_l, Rmult_1_r by lra. unfold ulp1. nra.
Qed.
