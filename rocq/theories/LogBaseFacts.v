(** Facts about the doubles of the test of log(value, base). *)
From Coq Require Import String ZArith Reals Lra Lia Psatz.
From Flocq Require Import Core Relative BinarySingleNaN.
From Verif Require Import Machine Facts Spec SpecFacts SpecApi SpecPos SpecDouble SpecLog SpecLogDouble SpecText SpecActual SpecReference
  BigInt BigIntBytes BigIntFacts BigIntDouble BigIntLog BigIntLogDouble LogFacts LogReal DoubleFacts LogDoubleFacts
  TestOracle TestCalc CalcFacts OracleFacts OracleFacts3 OracleTotal SpecTestLog TestLog TestLogFacts TestLogFacts2 TestLogFacts3 TestLogFacts4 TestLogBody.
Open Scope R_scope.

Ltac Zify.zify_post_hook ::= idtac.

(** ** Bit patterns *)

Lemma bits_pattern (d : double) : dbl_pattern (double_bits d).
Proof.
  destruct d as [[]|[]| |s m e H]; try (split; [discriminate|reflexivity]).
  apply (double_bits_fields s m e H).
Qed.

Lemma bits_real (d : double) : is_finite d = true -> dbl_finite (double_bits d) /\ dbl_real (double_bits d) = B2R d.
Proof.
  intros F. destruct d as [s|s| |s m e H]; try discriminate.
  - destruct s; (split; [discriminate|]); unfold dbl_real; cbn [B2R].
    + change (dbl_signed _ _) with 0%Z. ring.
    + change (dbl_signed _ _) with 0%Z. ring.
  - destruct (double_bits_fields s m e H) as (P & FI & N & S & SC). split; [exact FI|].
    unfold dbl_real, dbl_signed. rewrite N, S, SC. cbn [B2R]. unfold F2R. cbn [Fnum Fexp].
    change 2 with (IZR radix2). rewrite <- bpow_powerRZ. destruct s; reflexivity.
Qed.

Lemma bits_back (d : double) : is_finite d = true -> B2R d <> 0 -> bits_double (double_bits d) = d.
Proof.
  intros F N. destruct (bits_real d F) as (FI & R). destruct (bits_ok _ (bits_pattern d) FI) as (F2 & R2).
  apply double_eq; [exact F2|exact F|congruence|congruence].
Qed.

(** ** NextDouble *)

Definition inv_max : double := d_div (int_double 1) (int_double INT_MAX).
Definition unit_double (v : Z) : double := d_mul (int_double v) inv_max.

Lemma unit_zero : unit_double 0 = B754_zero false. Proof. vm_compute. reflexivity. Qed.
Lemma unit_one_bits : double_bits (unit_double INT_MAX) = (1023 * 2 ^ 52)%Z. Proof. vm_compute. reflexivity. Qed.

Lemma inv_max_real : is_finite inv_max = true /\ B2R inv_max = 4503599629467648 * bpow radix2 (-83).
Proof. split; vm_compute; [reflexivity|]. reflexivity. Qed.

Lemma below_one_format : generic_format radix2 (SpecFloat.fexp 53 1024) (1 - / 4294967296).
Proof.
  destruct (bits_ok (1023 * 2 ^ 52 - 2 ^ 21)%Z) as (F & R); [split; [discriminate|reflexivity]|discriminate|].
  assert (dbl_real (1023 * 2 ^ 52 - 2 ^ 21) = 1 - / 4294967296) as E.
  { unfold dbl_real. change (dbl_signed _ _) with 9007199252643840%Z. change (dbl_scale _) with (-53)%Z.
    change (powerRZ 2 (-53)) with (/ 2 ^ 53). replace (2 ^ 53) with 9007199254740992 by lra. lra. }
  rewrite <- E, <- R. apply generic_format_B2R.
Qed.

Lemma unit_inside v : (0 < v < INT_MAX)%Z -> is_finite (unit_double v) = true /\ 0 < B2R (unit_double v) < 1.
Proof.
  intros V. unfold INT_MAX in V. destruct inv_max_real as (FI & RI).
  pose proof (@Bmult_correct 53 1024 prec53 prec53_lt mode_NE (int_double v) inv_max) as C.
  pose proof (int_exact v ltac:(change (2 ^ 53)%Z with 9007199254740992%Z; lia)) as RV.
  destruct (int_ok v ltac:(change (2 ^ 64)%Z with 18446744073709551616%Z; lia)) as (FV & _).
  rewrite RV, RI in C. change (bpow radix2 (-83)) with (/ 9671406556917033397649408) in C.
  assert (1 <= IZR v <= 2147483646) as VR by (split; apply IZR_le; lia).
  set (p := IZR v * (4503599629467648 * / 9671406556917033397649408)) in *.
  assert (/ 2147483648 <= p <= 1 - / 4294967296) as P by (unfold p; lra).
  change (round _ _ _ p) with (rnd p) in C.
  assert (/ 2147483648 <= rnd p <= 1 - / 4294967296) as R.
  { split.
    - apply Rle_trans with (rnd (/ 2147483648)).
      + right. symmetry. apply round_generic; [auto with typeclass_instances|]. change (/ 2147483648) with (bpow radix2 (-31)).
        apply generic_format_bpow. vm_compute. discriminate.
      + apply round_le; [apply valid53|auto with typeclass_instances|apply P].
    - apply Rle_trans with (rnd (1 - / 4294967296)).
      + apply round_le; [apply valid53|auto with typeclass_instances|apply P].
      + right. apply round_generic; [auto with typeclass_instances|exact below_one_format]. }
  rewrite Rlt_bool_true in C.
  - destruct C as (E & F & _). unfold unit_double, d_mul. rewrite E, F, FV, FI. split; [reflexivity|]. lra.
  - rewrite Rabs_pos_eq by lra. apply Rlt_trans with 1; [lra|]. change 1 with (bpow radix2 0). apply bpow_lt. lia.
Qed.

(** std::min(NextDouble(), 0.5) *)
Lemma half_zero : at_most_half (unit_double 0) = B754_zero false. Proof. vm_compute. reflexivity. Qed.
Lemma half_real : is_finite (d_div (int_double 1) (int_double 2)) = true /\ B2R (d_div (int_double 1) (int_double 2)) = / 2.
Proof.
  destruct (div_ok (int_double 1) (int_double 2) eq_refl) as (F & _).
  { rewrite (int_exact 2) by lia. lra. }
  { rewrite (int_exact 2), (int_exact 1) by lia. right. rewrite Rabs_pos_eq by lra. split.
    - apply Rle_trans with (bpow radix2 (-1)); [apply bpow_le; lia|]. change (bpow radix2 (-1)) with (/ 2). lra.
    - apply Rle_trans with (bpow radix2 0); [change (bpow radix2 0) with 1; lra|apply bpow_le; lia]. }
  split; [exact F|]. vm_compute. lra.
Qed.
Lemma half_small v : (0 < v <= INT_MAX)%Z ->
  is_finite (at_most_half (unit_double v)) = true /\ 0 < B2R (at_most_half (unit_double v)) <= / 2.
Proof.
  intros V. destruct half_real as (FH & RH).
  assert (is_finite (unit_double v) = true /\ 0 < B2R (unit_double v)) as (F & P).
  { destruct (Z.eq_dec v INT_MAX) as [->|N]; [|destruct (unit_inside v) as (F & P); [unfold INT_MAX in *; lia|split; [exact F|lra]]].
    split; [vm_compute; reflexivity|]. destruct (bits_real (unit_double INT_MAX) ltac:(vm_compute; reflexivity)) as (_ & <-).
    rewrite unit_one_bits. unfold dbl_real. change (dbl_signed _ _) with 4503599627370496%Z. change (dbl_scale _) with (-52)%Z.
    change (powerRZ 2 (-52)) with (/ 2 ^ 52). replace (2 ^ 52) with 4503599627370496 by lra. lra. }
  unfold at_most_half. cbv zeta. rewrite (Bltb_correct _ _ _ _ FH F), RH.
  destruct (Rlt_bool_spec (/ 2) (B2R (unit_double v))) as [H|H]; [rewrite FH, RH; split; [reflexivity|lra]|split; [exact F|lra]].
Qed.

(** ** ApproxEqual *)

Section Compare.
  Context (logf : double -> double) (HL : libm_log logf) (tolerance : double) (FT : is_finite tolerance = true) (T0 : 0 <= B2R tolerance).

  Lemma approx_unfold (v e : double) : is_finite v = true ->
    approx_equal tolerance v e = if Beqb e (int_double 0) then Beqb v (int_double 0)
                                 else Bleb (d_abs (d_sub (d_div v e) (int_double 1))) tolerance.
  Proof. destruct v; try discriminate; reflexivity. Qed.

  Lemma approx_same (v : double) : is_finite v = true -> B2R v <> 0 -> approx_equal tolerance v v = true.
  Proof using FT T0.
    intros F N. rewrite (approx_unfold v v F). rewrite (Beqb_correct _ _ v (int_double 0) F eq_refl), int_double_zero, Req_bool_false by exact N.
    destruct (div_int v v 1 F N) as (FD & RD); [unfold Rdiv; now apply Rinv_r|lia|].
    assert (is_int_double (d_sub (d_div v v) (int_double 1)) 0) as (FS & RS).
    { pose proof (@Bminus_correct 53 1024 prec53 prec53_lt mode_NE (d_div v v) (int_double 1) FD eq_refl) as C.
      rewrite RD, int_double_one in C. replace (1 - 1) with 0 in C by ring. rewrite round_0 in C by auto with typeclass_instances.
      rewrite Rabs_R0, Rlt_bool_true in C by apply bpow_gt_0. destruct C as (E & F1 & _). split; [exact F1|exact E]. }
    unfold d_abs. rewrite Bleb_correct; [|now rewrite is_finite_Babs|exact FT]. rewrite B2R_Babs, RS, Rabs_R0. now apply Rle_bool_true.
  Qed.

  Definition tol46 : R := bpow radix2 (-46).
  Lemma tol46_ulp : tol46 = 128 * ulp1.
  Proof. unfold tol46, ulp1. change (bpow radix2 (-46)) with (/ 70368744177664). lra. Qed.

  Lemma sub_near x y : is_finite x = true -> is_finite y = true -> Rabs (B2R x - B2R y) <= tol46 ->
    is_finite (d_sub x y) = true /\ Rabs (B2R (d_sub x y)) <= tol46.
  Proof.
    intros FX FY D. pose proof (@Bminus_correct 53 1024 prec53 prec53_lt mode_NE x y FX FY) as C.
    assert (generic_format radix2 (SpecFloat.fexp 53 1024) tol46) as G.
    { apply generic_format_bpow. vm_compute. discriminate. }
    assert (Rabs (rnd (B2R x - B2R y)) <= tol46) as R.
    { apply Rabs_le_inv in D as (D1 & D2). apply Rabs_le. split.
      - apply Rle_trans with (rnd (- tol46)).
        + right. symmetry. apply round_generic; [auto with typeclass_instances|now apply generic_format_opp].
        + apply round_le; [apply valid53|auto with typeclass_instances|exact D1].
      - apply Rle_trans with (rnd tol46).
        + apply round_le; [apply valid53|auto with typeclass_instances|exact D2].
        + right. apply round_generic; [auto with typeclass_instances|exact G]. }
    rewrite Rlt_bool_true in C.
    - destruct C as (E & F & _). unfold d_sub. split; [exact F|]. rewrite E. exact R.
    - apply Rle_lt_trans with (1 := R). apply bpow_lt. lia.
  Qed.

  Lemma approx_near (v e : double) L : is_finite v = true -> is_finite e = true -> L <> 0 ->
    rel (32 * ulp1) (B2R v) L -> rel (6 * ulp1) (B2R e) L -> tol46 <= B2R tolerance -> approx_equal tolerance v e = true.
  Proof using FT T0.
    intros FV FE L0 R1 R2 T. rewrite (approx_unfold v e FV).
    pose proof (rel_nonzero (6 * ulp1) _ _ ltac:(unfold ulp1; lra) R2 L0) as E0.
    rewrite (Beqb_correct _ _ e (int_double 0) FE eq_refl), int_double_zero, Req_bool_false by exact E0.
    pose proof (rel_div _ _ _ _ _ _ R1 R2 ltac:(unfold ulp1; lra) ltac:(unfold ulp1; lra) L0) as R3.
    replace (L / L) with 1 in R3 by (symmetry; unfold Rdiv; now apply Rinv_r).
    assert (rel (40 * ulp1) (B2R v / B2R e) 1) as R4.
    { apply rel_weaken with (2 := R3). apply Rmult_le_reg_r with (1 - 6 * ulp1); [unfold ulp1; lra|].
      unfold Rdiv at 1. rewrite Rmult_assoc, Rinv_l by (unfold ulp1; lra). unfold ulp1. lra. }
    unfold rel in R4. rewrite Rabs_R1 in R4. apply Rabs_le_inv in R4.
    destruct (div_ok v e FV E0) as (FD & RD).
    { right. rewrite Rabs_pos_eq by (unfold ulp1 in R4; lra). split.
      - apply Rle_trans with (/ 2); [change (/ 2) with (bpow radix2 (-1)); apply bpow_le; lia|unfold ulp1 in R4; lra].
      - apply Rle_trans with 2; [unfold ulp1 in R4; lra|change 2 with (bpow radix2 1); apply bpow_le; lia]. }
    unfold rel in RD. rewrite (Rabs_pos_eq (_ / _)) in RD by (unfold ulp1 in R4; lra). apply Rabs_le_inv in RD.
    destruct (sub_near (d_div v e) (int_double 1) FD eq_refl) as (FS & RS).
    { rewrite int_double_one, tol46_ulp. apply Rabs_le. unfold ulp1 in *. lra. }
    unfold d_abs. rewrite Bleb_correct; [|now rewrite is_finite_Babs|exact FT]. rewrite B2R_Babs. apply Rle_bool_true. lra.
  Qed.

  (** The quotient of two computed logarithms, the base being below 1. *)
  Lemma ratio_below (a base : double) la : is_finite a = true -> 2 <= B2R a -> rel (/ 10 * ulp1) (ln (B2R a)) la ->
    is_finite base = true -> 0 < B2R base <= / 2 -> la <> 0 ->
    is_finite (csharp_log logf a base) = true /\ rel (6 * ulp1) (B2R (csharp_log logf a base)) (la / ln (B2R base)).
  Proof using HL.
    intros FA A RA FB B L0. rewrite csharp_regular by (try apply B2R_not_nan; auto; lra).
    destruct (logf_close logf a la HL FA A RA) as (F1 & R1).
    destruct (logf_rel logf base HL FB ltac:(lra)) as (F2 & R2).
    assert (bd (-54) 11 (ln (B2R a))) as BA by (apply ln_double_bounds; auto; lra).
    assert (bd (-54) 11 (ln (B2R base))) as BB by (apply ln_double_bounds; auto; lra).
    destruct (logf_rel logf a HL FA ltac:(lra)) as (_ & Q1).
    pose proof (bd_rel _ _ _ _ _ Q1 BA ltac:(unfold ulp1; lra)) as B3.
    pose proof (bd_rel _ _ _ _ _ R2 BB ltac:(unfold ulp1; lra)) as B4.
    pose proof (bd_div _ _ _ _ _ _ B3 B4) as B5.
    destruct (div_ok (logf a) (logf base) F1 (bd_nonzero _ _ _ B4) (bd_moderate _ _ _ B5 ltac:(lia) ltac:(lia))) as (F5 & R5).
    split; [exact F5|].
    pose proof (rel_div _ _ _ _ _ _ R1 R2 ltac:(unfold ulp1; lra) ltac:(unfold ulp1; lra) (bd_nonzero _ _ _ BB)) as R6.
    assert (rel (441 / 100 * ulp1) (B2R (logf a) / B2R (logf base)) (la / ln (B2R base))) as R7.
    { apply rel_weaken with (2 := R6). apply Rmult_le_reg_r with (1 - 2 * ulp1); [unfold ulp1; lra|].
      unfold Rdiv at 1. rewrite Rmult_assoc, Rinv_l by (unfold ulp1; lra). unfold ulp1. lra. }
    pose proof (rel_trans _ _ _ _ _ R5 R7 ltac:(unfold ulp1; lra)) as R8.
    apply rel_weaken with (2 := R8). unfold ulp1. lra.
  Qed.

  (** log(temp, newbase) against csharp_log_wrapper((double) temp, newbase). *)
  Lemma compare_ok c b x v : represents b x -> (0 <= x < 2 ^ 1024)%Z -> (0 <= v <= INT_MAX)%Z ->
    let base := at_most_half (unit_double v) in
    exists r t, log_base logf c b base = Ret r /\ bi_to_double c b = Ret t /\
      ((x < 2 ^ 31)%Z \/ tol46 <= B2R tolerance -> approx_equal tolerance r (csharp_log logf (bits_double t) base) = true).
  Proof using HL FT T0.
    intros Hb X V base. assert (2 < 2 ^ 1024)%Z as P1024 by reflexivity.
    destruct (to_double_cases c b x Hb) as (t & Et & P & C1 & C2 & C3 & C4 & C5).
    assert (exists n, limb_count x n /\ (n <= 2 ^ 57)%Z) as (n & Hn & N).
    { exists (SpecGcd.limbs_of x). split; [apply LeakyModPow.limbs_of_count|]. unfold SpecGcd.limbs_of. rewrite Z.abs_eq by lia.
      assert (Z.log2 x <= 1024)%Z as L.
      { change 1024%Z with (Z.log2 (2 ^ 1024)) at 1. apply Z.log2_le_mono. lia. }
      assert (Z.log2 x / 32 <= 1024 / 32)%Z by (apply Z.div_le_mono; lia). change (1024 / 32)%Z with 32%Z in *.
      change (2 ^ 57)%Z with 144115188075855872%Z. clear -H. destruct (x =? 0)%Z; lia. }
    destruct (log_total logf c b x n (double_bits base) HL Hb Hn N (bits_pattern base)) as (r & Er & M).
    exists r, t. split; [exact Er|]. split; [exact Et|].
    destruct (Z.eq_dec v 0) as [V0|V0].
    { intros _. assert (base = B754_zero false) as EB by (unfold base; rewrite V0; apply half_zero). clearbody base. subst base.
      rewrite (to_zero _ _ _ M (or_introl eq_refl) ltac:(lia)). destruct (Z.eqb_spec x 1) as [X1|X1].
      - rewrite (C3 X1). destruct (exact_real (1023 * 2 ^ 52) 1) as (F1 & R1).
        { split; [split; [discriminate|reflexivity]|]. split; [discriminate|reflexivity]. }
        unfold csharp_log. replace (bits_double (1023 * 2 ^ 52)) with (int_double 1) in * by (apply double_eq; [reflexivity|reflexivity|rewrite int_double_one; symmetry; apply (exact_real _ 1), one_pattern|rewrite int_double_one; lra]).
        change (is_nan (int_double 1)) with false. cbv iota. cbn [is_nan]. change (Beqb (B754_zero false) (int_double 1)) with false. cbv iota.
        change (Beqb (int_double 1) (int_double 1)) with true. cbn [negb andb].
        rewrite (log_of_one logf HL _ int_double_one), (log_of_zero logf HL). reflexivity.
      - assert (csharp_log logf (bits_double t) (B754_zero false) = B754_nan) as ->; [|reflexivity].
        unfold csharp_log. destruct (is_nan (bits_double t)) eqn:NT; [destruct (bits_double t); try discriminate; reflexivity|].
        cbn [is_nan]. change (Beqb (B754_zero false) (int_double 1)) with false. cbv iota.
        replace (Beqb (bits_double t) (int_double 1)) with false; [reflexivity|]. symmetry.
        destruct (Z.eq_dec x 0) as [X0|X0]; [rewrite (C2 X0); reflexivity|].
        destruct (exact_real t _ (C4 ltac:(lia))) as (FB & RB). rewrite (Beqb_correct _ _ _ (int_double 1) FB eq_refl), int_double_one, RB.
        apply Req_bool_false. destruct (base_pattern x t ltac:(lia) (C4 ltac:(lia))) as (_ & _ & _ & _ & _ & B2). lra. }
    destruct (half_small v ltac:(lia)) as (FB & BB). fold base in FB, BB. clearbody base.
    destruct (bits_real base FB) as (FI & RI). rewrite <- RI in BB.
    destruct (logf_sign logf base HL FB ltac:(rewrite <- RI; lra) ltac:(rewrite <- RI; lra)) as (F1 & N1 & S1).
    rewrite (Rlt_bool_true (B2R base) 1) in S1 by (rewrite <- RI; lra).
    destruct (Z.eq_dec x 0) as [X0|X0].
    { intros _. rewrite (zero_to_small _ _ _ M X0 FI) by lra. rewrite (C2 X0). change (bits_double 0) with (B754_zero false : double).
      rewrite csharp_regular by (reflexivity || assumption || (rewrite <- RI; lra)).
      rewrite (log_of_zero logf HL), (infinite_div true _ F1 N1), S1. reflexivity. }
    destruct (Z.eq_dec x 1) as [X1|X1].
    { intros _. rewrite (one_to_small _ _ _ M X1 FI) by lra. rewrite (C3 X1). replace (bits_double (1023 * 2 ^ 52)) with (int_double 1) by (apply double_eq; [reflexivity|reflexivity|rewrite int_double_one; symmetry; apply (exact_real _ 1), one_pattern|rewrite int_double_one; lra]).
      rewrite csharp_regular by (reflexivity || assumption || (rewrite <- RI; lra)).
      rewrite (log_of_one logf HL _ int_double_one), (zero_div false _ F1 N1), S1. reflexivity. }
    destruct (of_positive _ _ _ M ltac:(lia) FI ltac:(lra) ltac:(lra)) as (FR & RR).
    destruct (to_double_ln c b x Hb ltac:(lia) ltac:(lia)) as (t' & Et' & D & FA & A2 & RA).
    assert (t' = t) as -> by congruence.
    assert (ln (IZR x) <> 0) as LX.
    { assert (ln 2 <= ln (IZR x)) as Q by (apply ln_le_mono; [lra|apply (IZR_le 2); lia]). pose proof ln2_bounds. lra. }
    assert (bd (-54) 11 (ln (B2R base))) as BD by (apply ln_double_bounds; auto; rewrite <- RI; lra).
    assert (ln (IZR x) / ln (B2R base) <> 0) as L0.
    { unfold Rdiv. apply Rmult_integral_contrapositive_currified; [exact LX|]. apply Rinv_neq_0_compat, (bd_nonzero _ _ _ BD). }
    rewrite RI in RR. replace (/ 2 ^ 48) with (32 * ulp1) in RR by (unfold ulp1; replace (2 ^ 48) with 281474976710656 by lra; lra).
    destruct (ratio_below (bits_double t) base _ FA A2 RA FB ltac:(rewrite <- RI; lra) LX) as (FC & RC).
    intros [XS|T].
    - replace (csharp_log logf (bits_double t) base) with r.
      { apply approx_same; [exact FR|]. apply (rel_nonzero (32 * ulp1) _ _) with (2 := RR); [unfold ulp1; lra|exact L0]. }
      assert (dbl_regular_base (double_bits base)) as HR by (apply regular_of_real; [apply bits_pattern|exact FI|lra|lra]).
      unfold bi_log_double in Er. rewrite (log_small c b x _ Hb ltac:(lia) HR) in Er. cbn [bind log_eval] in Er. injection Er as <-.
      rewrite csharp_regular; [|apply B2R_not_nan; lra|assumption|rewrite <- RI; lra|rewrite <- RI; lra].
      rewrite (bits_back base FB) by (rewrite <- RI; lra). replace (int_double x) with (bits_double t); [reflexivity|].
      destruct (int_ok x ltac:(change (2 ^ 31)%Z with 2147483648%Z in XS; lia)) as (FX & _). apply double_eq; [exact FA|exact FX| |lra].
      destruct (exact_real _ _ D) as (_ & R1). rewrite R1, trunc53_small by (change (2 ^ 31)%Z with 2147483648%Z in XS; change (2 ^ 53)%Z with 9007199254740992%Z; lia).
      symmetry. apply int_exact. change (2 ^ 31)%Z with 2147483648%Z in XS. lia.
    - now apply (approx_near r _ (ln (IZR x) / ln (B2R base))).
  Qed.
End Compare.
