(** Proofs about the logarithms of the tests: bLog. *)
From Coq Require Import String ZArith Reals Lra Lia Psatz.
From Flocq Require Import Core Relative BinarySingleNaN.
From Verif Require Import Machine Facts Spec SpecFacts SpecApi BigInt BigIntFacts SpecDouble SpecLog SpecLogDouble
  BigIntDouble BigIntLog BigIntLogDouble LogFacts LogReal DoubleFacts LogDoubleFacts SpecTestLog TestLog TestLogFacts TestLogFacts2.
Open Scope R_scope.

Ltac Zify.zify_post_hook ::= idtac.

Lemma one_pattern : dbl_exact (1023 * 2 ^ 52) 1.
Proof. split; [split; [discriminate|reflexivity]|]. split; [discriminate|reflexivity]. Qed.

Lemma infinite_pattern : bits_double plus_infinity = B754_infinity false. Proof. reflexivity. Qed.

Section Binary.
  Context (logf log10f : double -> double) (HL : libm_log logf) (HT : libm_log10 log10f).
  Context (cast : double -> outcome Z) (c : cfg) (a b : bigint) (x y n : Z).
  Context (Ha : represents a x) (Hb : represents b y) (Hn : limb_count x n) (N : (n <= 2 ^ 26)%Z).

  Notation sn := (sn_log2 logf log10f cast c "bLog" a b).
  Notation mine := (mine_log2 logf log10f cast c "bLog" a b).

  (** A base of 2 or more that a double holds. *)
  Lemma base_pattern d : (2 <= y < 2 ^ 1024)%Z -> dbl_exact d (trunc53 y) ->
    dbl_pattern d /\ dbl_finite d /\ dbl_real d = IZR (trunc53 y) /\ is_finite (bits_double d) = true /\
    B2R (bits_double d) = IZR (trunc53 y) /\ 2 <= IZR (trunc53 y).
  Proof.
    intros Y D. destruct (exact_real d _ D) as (F & R). pose proof D as (P & FI & _).
    split; [exact P|]. split; [exact FI|]. destruct (bits_ok d P FI) as (_ & R2).
    split; [now rewrite <- R2|]. split; [exact F|]. split; [exact R|]. apply (IZR_le 2).
    destruct (trunc53_close y ltac:(lia)) as (T1 & _ & T3 & T4).
    destruct (Z.lt_ge_cases y (2 ^ 53)) as [S|S]; [rewrite (T4 S); lia|].
    change (2 ^ 52)%Z with 4503599627370496%Z in T3. change (2 ^ 53)%Z with 9007199254740992%Z in S. lia.
  Qed.

  Lemma positive_log d : is_finite (bits_double d) = true -> 2 <= B2R (bits_double d) ->
    is_finite (logf (bits_double d)) = true /\ B2R (logf (bits_double d)) <> 0 /\
    Rlt_bool (B2R (logf (bits_double d))) 0 = false.
  Proof using HL.
    intros F B. destruct (logf_sign logf _ HL F ltac:(lra) ltac:(lra)) as (F1 & N1 & S1).
    split; [exact F1|]. split; [exact N1|]. rewrite S1. apply Rlt_bool_false. lra.
  Qed.

  Lemma sn_special : (x <= 1 \/ y <= 1 \/ 2 ^ 1024 <= y)%Z -> returns sn (ratio_special x y).
  Proof using HL HT Ha Hb Hn N.
    intros S. assert (2 < 2 ^ 1024)%Z as P1024 by reflexivity. unfold sn_log2.
    destruct (to_double_cases c b y Hb) as (d & Ed & P & C1 & C2 & C3 & C4 & C5). rewrite Ed. cbn [bind].
    destruct (log_total logf c a x n d HL Ha Hn) as (r & Er & M); [|exact P|].
    { apply Z.le_trans with (1 := N). vm_compute. discriminate. }
    rewrite Er. cbn [bind]. destruct M. unfold ratio_special.
    destruct (Z.ltb_spec x 0) as [X|X]; cbn [orb].
    { rewrite (of_negative X). apply approximate_nan. }
    destruct (Z.ltb_spec y 0) as [Y|Y]; cbn [orb].
    { destruct (C1 Y) as (Q1 & Q2 & _). rewrite (to_negative Q1 Q2). apply approximate_nan. }
    destruct (Z.eqb_spec y 1) as [Y1|Y1].
    { rewrite (to_one (C3 Y1)). apply approximate_nan. }
    destruct (Z.eqb_spec y 0) as [Y0|Y0]; cbn [orb].
    { rewrite (to_zero (or_introl (C2 Y0)) X). destruct (x =? 1)%Z; [apply (approximate_zero log10f HT)|apply approximate_nan]. }
    destruct (Z.leb_spec (2 ^ 1024) y) as [YB|YB].
    { rewrite (to_infinity (C5 YB) X). destruct (x =? 1)%Z; [apply (approximate_zero log10f HT)|apply approximate_nan]. }
    destruct (base_pattern d ltac:(lia) (C4 ltac:(lia))) as (_ & FD & RD & _ & _ & T2).
    destruct (Z.eqb_spec x 0) as [X0|X0].
    - rewrite (zero_to_large X0 FD) by (rewrite RD; lra). apply (approximate_infinite log10f cast c true).
    - rewrite (one_to_large ltac:(set (big := (2 ^ 1024)%Z) in *; clearbody big; lia) FD) by (rewrite RD; lra). apply (approximate_zero log10f HT).
  Qed.

  Lemma mine_special : (x <= 1 \/ y <= 1 \/ 2 ^ 1024 <= y)%Z -> returns mine (ratio_special x y).
  Proof using HL HT Ha Hb.
    intros S. assert (2 < 2 ^ 1024)%Z as P1024 by reflexivity. unfold mine_log2.
    destruct (to_double_cases c a x Ha) as (e & Ee & PE & A1 & A2 & A3 & A4 & A5). rewrite Ee. cbn [bind].
    destruct (to_double_cases c b y Hb) as (d & Ed & P & C1 & C2 & C3 & C4 & C5). rewrite Ed. cbn [bind].
    unfold ratio_special.
    destruct (Z.ltb_spec x 0) as [X|X]; cbn [orb].
    { destruct (A1 X) as (_ & _ & Q). rewrite csharp_nan_l by (apply (log_negative logf HL), Q). apply approximate_nan. }
    destruct (Z.ltb_spec y 0) as [Y|Y]; cbn [orb].
    { destruct (C1 Y) as (_ & _ & Q). rewrite csharp_nan_r by (apply (log_negative logf HL), Q). apply approximate_nan. }
    (* the value is 0, 1, larger or infinite *)
    assert ((x = 0%Z /\ bits_double e = B754_zero false) \/
            (x = 1%Z /\ is_nan (bits_double e) = false /\ Beqb (bits_double e) (int_double 1) = true /\ logf (bits_double e) = B754_zero false) \/
            (x <> 0%Z /\ x <> 1%Z /\ is_nan (bits_double e) = false /\ Beqb (bits_double e) (int_double 1) = false)) as V.
    { destruct (Z.eq_dec x 0) as [X0|X0]; [left; rewrite (A2 X0); auto|right].
      destruct (Z.eq_dec x 1) as [X1|X1]; [left|right].
      - rewrite (A3 X1). destruct (exact_real _ _ one_pattern) as (F1 & R1). split; [exact X1|].
        split; [apply B2R_not_nan; lra|]. split; [|now apply log_of_one].
        rewrite Beqb_correct by (assumption || reflexivity). rewrite int_double_one. now apply Req_bool_true.
      - split; [exact X0|]. split; [exact X1|]. destruct (Z.lt_ge_cases x (2 ^ 1024)) as [XB|XB].
        + pose proof (A4 ltac:(set (big := (2 ^ 1024)%Z) in *; clearbody big; lia)) as D.
          destruct (exact_real _ _ D) as (F1 & R1).
          assert (2 <= IZR (trunc53 x)) as T.
          { apply (IZR_le 2). destruct (trunc53_close x ltac:(lia)) as (T1 & _ & T3 & T4).
            destruct (Z.lt_ge_cases x (2 ^ 53)) as [Q|Q]; [rewrite (T4 Q); lia|].
            change (2 ^ 52)%Z with 4503599627370496%Z in T3. change (2 ^ 53)%Z with 9007199254740992%Z in Q. lia. }
          split; [apply B2R_not_nan; rewrite R1; lra|]. rewrite Beqb_correct by (assumption || reflexivity).
          rewrite int_double_one, R1. apply Req_bool_false. lra.
        + rewrite (A5 XB), infinite_pattern. auto. }
    assert (is_nan (bits_double e) = false) as NE by (destruct V as [(_ & ->)|[(_ & ? & _)|(_ & _ & ? & _)]]; auto).
    unfold csharp_log. rewrite NE.
    destruct (Z.eqb_spec y 1) as [Y1|Y1].
    { destruct (exact_real _ _ one_pattern) as (F1 & R1). rewrite (C3 Y1).
      rewrite B2R_not_nan by lra. rewrite Beqb_correct by (assumption || reflexivity). rewrite int_double_one, R1, Req_bool_true by reflexivity.
      apply approximate_nan. }
    destruct (Z.eqb_spec y 0) as [Y0|Y0]; cbn [orb].
    { rewrite (C2 Y0). change (bits_double 0) with (B754_zero false : double). cbn [is_nan].
      change (Beqb (B754_zero false : double) (int_double 1)) with false.
      change (Beqb (B754_zero false : double) (int_double 0)) with true. cbn [orb].
      rewrite (log_of_zero logf HL).
      destruct V as [(X0 & V)|[(X1 & _ & V1 & V2)|(X0 & X1 & _ & V)]].
      - rewrite V. change (Beqb (B754_zero false : double) (int_double 1)) with false. cbn [negb andb].
        destruct (Z.eqb_spec x 1); [lia|]. apply approximate_nan.
      - rewrite V1, V2. cbn [negb andb]. rewrite X1. cbn [Z.eqb Pos.eqb]. apply (approximate_zero log10f HT).
      - rewrite V. cbn [negb andb]. destruct (Z.eqb_spec x 1); [lia|]. apply approximate_nan. }
    destruct (Z.leb_spec (2 ^ 1024) y) as [YB|YB].
    { rewrite (C5 YB), infinite_pattern. cbn [is_nan is_finite negb].
      change (Beqb (B754_infinity false : double) (int_double 1)) with false.
      change (Beqb (B754_infinity false : double) (int_double 0)) with false. cbn [orb].
      rewrite (log_of_infinity logf HL).
      destruct V as [(X0 & V)|[(X1 & _ & V1 & V2)|(X0 & X1 & _ & V)]].
      - rewrite V. change (Beqb (B754_zero false : double) (int_double 1)) with false. cbn [negb andb].
        destruct (Z.eqb_spec x 1); [lia|]. apply approximate_nan.
      - rewrite V1, V2. cbn [negb andb]. rewrite X1. cbn [Z.eqb Pos.eqb]. apply (approximate_zero log10f HT).
      - rewrite V. cbn [negb andb]. destruct (Z.eqb_spec x 1); [lia|]. apply approximate_nan. }
    destruct (base_pattern d ltac:(lia) (C4 ltac:(lia))) as (_ & _ & _ & FB & RB & T2).
    pose proof (csharp_regular logf (bits_double e) (bits_double d) NE FB ltac:(rewrite RB; lra) ltac:(rewrite RB; lra)) as Q.
    unfold csharp_log in Q. rewrite NE in Q. rewrite Q.
    destruct (positive_log d FB ltac:(rewrite RB; lra)) as (F1 & N1 & S1).
    destruct (Z.eqb_spec x 0) as [X0|X0].
    - destruct V as [(_ & V)|[(X1 & _)|(X1 & _)]]; [|lia|lia]. rewrite V, (log_of_zero logf HL), (infinite_div true _ F1 N1), S1.
      apply (approximate_infinite log10f cast c true).
    - destruct V as [(X1 & V)|[(X1 & _ & V1 & V2)|(_ & X1 & _)]]; [lia| |set (big := (2 ^ 1024)%Z) in *; clearbody big; lia].
      rewrite V2, (zero_div false _ F1 N1), S1. apply (approximate_zero log10f HT).
  Qed.

  Section Regular.
    Context (X : (2 <= x)%Z) (Y : (2 <= y < 2 ^ 1024)%Z).

    Lemma ln_x_range : / 2 <= ln (IZR x) <= 2147483648.
    Proof using X Hn N. exact (ln_range x n X Hn N). Qed.

    Lemma ln_y_lower : ln 2 <= ln (IZR y).
    Proof using Y. apply ln_le_mono; [lra|]. apply (IZR_le 2). lia. Qed.

    Lemma ratio_range : 0 < ln (IZR x) / ln (IZR y) <= 4294967296.
    Proof using X Y Hn N.
      pose proof ln_x_range as R. pose proof ln_y_lower as T. pose proof ln2_bounds as T2. split; [apply Rdiv_lt_0_compat; lra|].
      apply Rmult_le_reg_r with (ln (IZR y)); [lra|]. unfold Rdiv. rewrite Rmult_assoc, Rinv_l by lra. lra.
    Qed.

    (** What the library computes, whatever its second argument's rounding. *)
    Lemma sn_close : exists d r, bi_to_double c b = Ret d /\ bi_log_double logf c a d = Ret r /\ is_finite r = true /\
      rel (33 * ulp1) (B2R r) (ln (IZR x) / ln (IZR y)).
    Proof using HL Ha Hb Hn N X Y.
      destruct (to_double_ln c b y Hb ltac:(lia) ltac:(lia)) as (d & Ed & D & FB & B2 & R). exists d.
      destruct (base_pattern d Y D) as (P & FD & RD & _ & RB & T2).
      destruct (log_accurate logf c a x n d HL Ha ltac:(lia) Hn) as (r & Er & F & A); try (rewrite ?RD; assumption || lra).
      { apply Z.le_trans with (1 := N). vm_compute. discriminate. }
      exists r. split; [exact Ed|]. split; [exact Er|]. split; [exact F|].
      rewrite RD in A. rewrite RB in R. pose proof ln_y_lower as L. pose proof ln2_bounds as L2.
      replace (/ 2 ^ 48) with (32 * ulp1) in A by (unfold ulp1; replace (2 ^ 48) with 281474976710656 by lra; lra).
      assert (rel (/ 5 * ulp1) (ln (IZR x) / ln (IZR (trunc53 y))) (ln (IZR x) / ln (IZR y))) as R2.
      { pose proof (rel_div _ _ _ _ _ _ (rel_refl (ln (IZR x))) R ltac:(lra) ltac:(unfold ulp1; lra) ltac:(lra)) as R3.
        apply rel_weaken with (2 := R3). apply Rmult_le_reg_r with (1 - / 10 * ulp1); [unfold ulp1; lra|].
        unfold Rdiv at 1. rewrite Rmult_assoc, Rinv_l by (unfold ulp1; lra). unfold ulp1. lra. }
      pose proof (rel_trans _ _ _ _ _ A R2 ltac:(unfold ulp1; lra)) as R3. apply rel_weaken with (2 := R3). unfold ulp1. lra.
    Qed.

    Lemma close_margin L v k : 0 < L -> k <= 128 -> rel (k * ulp1) v L -> Rabs (v - L) <= margin L.
    Proof. intros P K R. apply Rle_trans with (1 := R). rewrite Rabs_pos_eq, margin_ulp by lra. unfold ulp1. nra. Qed.

    Lemma approximate_near (v : double) L z : is_finite v = true -> 0 <= L <= 4294967296 -> clear L ->
      Rabs (B2R v - L) <= margin L -> ceiling L z -> returns (approximate log10f cast c v) z.
    Proof using HT.
      intros F LB C D Z. pose proof (clear_small L C) as M. apply Rabs_le_inv in D as D'.
      apply (approximate_ok log10f HT); [exact F|apply Rabs_le; lra|]. now apply (ceiling_close L).
    Qed.

    Lemma sn_regular z : clear (ln (IZR x) / ln (IZR y)) -> ceiling (ln (IZR x) / ln (IZR y)) z -> returns sn z.
    Proof using HL HT Ha Hb Hn N X Y.
      intros C Z. destruct sn_close as (d & r & Ed & Er & F & R). unfold sn_log2. rewrite Ed. cbn [bind]. rewrite Er. cbn [bind].
      pose proof ratio_range as LR. apply (approximate_near r (ln (IZR x) / ln (IZR y))); try assumption; [lra|].
      apply (close_margin _ _ 33); [lra|lra|exact R].
    Qed.

    Lemma mine_regular z : (x < 2 ^ 1024)%Z -> clear (ln (IZR x) / ln (IZR y)) -> ceiling (ln (IZR x) / ln (IZR y)) z -> returns mine z.
    Proof using HL HT Ha Hb Hn N X Y.
      intros XB C Z. unfold mine_log2. destruct (to_double_ln c a x Ha X XB) as (e & Ee & _ & FA & A2 & RA).
      destruct (to_double_ln c b y Hb ltac:(lia) ltac:(lia)) as (d & Ed & _ & FB & B2 & RB).
      rewrite Ee. cbn [bind]. rewrite Ed. cbn [bind]. pose proof ln_x_range as LX. pose proof ln_y_lower as LY. pose proof ln2_bounds as L2.
      destruct (ratio_ok logf _ _ _ _ HL FA A2 RA FB B2 RB ltac:(lra) ltac:(lra)) as (F & R).
      pose proof ratio_range as LR. apply (approximate_near _ (ln (IZR x) / ln (IZR y))); try assumption; [lra|].
      apply (close_margin _ _ 6); [lra|lra|exact R].
    Qed.

    (** A value too large for a double. *)
    Lemma mine_large : (2 ^ 1024 <= x)%Z -> returns mine (-103).
    Proof using HL Ha Hb X Y.
      intros XB. unfold mine_log2. rewrite (to_double_infinite c a x Ha ltac:(lia)). cbn [bind].
      destruct (Z.ltb_spec x 0) as [|_]; [set (big := (2 ^ 1024)%Z) in *; clearbody big; lia|]. rewrite infinite_pattern.
      destruct (to_double_ln c b y Hb ltac:(lia) ltac:(lia)) as (d & Ed & _ & FB & B2 & _). rewrite Ed. cbn [bind].
      destruct (positive_log d FB B2) as (F1 & N1 & S1).
      rewrite csharp_regular by (reflexivity || assumption || lra). rewrite (log_of_infinity logf HL), (infinite_div false _ F1 N1), S1.
      apply (approximate_infinite log10f cast c false).
    Qed.

    Lemma sn_positive : exists z, returns sn z /\ (1 <= z)%Z.
    Proof using HL HT Ha Hb Hn N X Y.
      destruct sn_close as (d & r & Ed & Er & F & R). unfold sn_log2. rewrite Ed. cbn [bind]. rewrite Er. cbn [bind].
      pose proof ratio_range as LR. unfold rel in R. rewrite (Rabs_pos_eq (_ / _)) in R by lra. apply Rabs_le_inv in R. unfold ulp1 in R.
      destruct (ceiling_exists (B2R r)) as (z & Z). exists z. split.
      - apply (approximate_ok log10f HT); [exact F|apply Rabs_le; lra|exact Z].
      - destruct Z as (_ & Z). assert (0 < z)%Z by (apply (lt_IZR 0); lra). lia.
    Qed.

    (** A value of at most 31 bits: the same double on both sides. *)
    Lemma same_ratio : (x < 2 ^ 31)%Z -> sn = mine.
    Proof using HL Ha Hb X Y.
      intros XS. unfold sn_log2, mine_log2.
      assert (2 ^ 31 < 2 ^ 1024)%Z as P1024 by reflexivity.
      destruct (to_double_ln c a x Ha X ltac:(lia)) as (e & Ee & DE & FA & A2 & _).
      destruct (to_double_ln c b y Hb ltac:(lia) ltac:(lia)) as (d & Ed & D & FB & B2 & _). rewrite Ee, Ed. cbn [bind].
      destruct (base_pattern d Y D) as (P & FD & RD & _ & RB & T2).
      assert (dbl_regular_base d) as HR by (apply regular_of_real; auto; rewrite RD; lra).
      unfold bi_log_double. rewrite (log_small c a x d Ha ltac:(lia) HR). cbn [bind log_eval].
      rewrite csharp_regular; [|apply B2R_not_nan; lra|assumption|lra|lra].
      replace (int_double x) with (bits_double e); [reflexivity|].
      destruct (int_ok x ltac:(change (2 ^ 31)%Z with 2147483648%Z in XS; lia)) as (FX & _). apply double_eq; [exact FA|exact FX| |lra].
      destruct (exact_real _ _ DE) as (_ & R1). rewrite R1, trunc53_small by (change (2 ^ 31)%Z with 2147483648%Z in XS; change (2 ^ 53)%Z with 9007199254740992%Z; lia).
      symmetry. apply int_exact. change (2 ^ 31)%Z with 2147483648%Z in XS. lia.
    Qed.
  End Regular.
End Binary.

(** uLog10 of a number of at most 31 bits. *)
Lemma same_log10 logf log10f cast c b x : libm_log logf -> represents b x -> (1 <= x < 2 ^ 31)%Z ->
  sn_log1 logf log10f cast c "uLog10" b = mine_log1 logf log10f cast c "uLog10" b.
Proof.
  intros HL Hb X. unfold sn_log1, mine_log1, bi_log10_double. cbn [String.eqb Ascii.eqb Bool.eqb].
  assert (2 ^ 31 < 2 ^ 1024)%Z as P1024 by reflexivity.
  assert (exists r, bi_log_double logf c b DBL_TEN = Ret r /\ exists f, double_to_int cast r = Ret f /\ (f <= 100)%Z) as (r & Er & f & Ef & F).
  { destruct (Z.eq_dec x 1) as [->|X1].
    - exists (B754_zero false). split; [now apply (mine_first logf HL c b 1)|]. exists 0%Z. split; [reflexivity|lia].
    - assert (limb_count x 1) as Hn.
      { split; [lia|]. split; [|intros; assumption]. unfold fits_limbs. change (2 ^ (32 * 1))%Z with 4294967296%Z.
        change (2 ^ 31)%Z with 2147483648%Z in X. lia. }
      destruct (cut_digits logf cast c b x 1 HL Hb ltac:(lia) Hn ltac:(lia)) as (r & f & k & y & E1 & E2 & Ek & Ey & Y & _ & K8 & _ & D).
      exists r. split; [exact E1|]. exists f. split; [exact E2|]. destruct (Z.le_gt_cases f 100) as [|G]; [assumption|exfalso].
      rewrite (proj2 (Z.ltb_lt _ _) G) in Ek. specialize (K8 ltac:(lia)).
      assert (ln (IZR x) <= 31 * ln 2) as LU.
      { change 31 with (IZR 31). rewrite <- (ln_pow2 31) by lia. apply ln_le_mono; [apply (IZR_lt 0); lia|]. apply IZR_le. lia. }
      pose proof ln2_bounds as T2. pose proof ln10_bounds as T10. pose proof (pos_INR k) as KP. nra. }
  rewrite Er. cbn [bind]. rewrite Ef. cbn [bind]. destruct (Z.ltb_spec 100 f) as [|_]; [lia|]. cbv zeta.
  assert (shrink c 0 b = Ret b) as ->.
  { unfold shrink. cbn [for_up]. assert (wp (bi_of_int32 c 10) (fun _ => True)) as W.
    { eapply wp_mono; [apply bi_of_int32_spec; unfold INT_MIN, INT_MAX; lia|auto]. }
    destruct (bi_of_int32 c 10); try contradiction. reflexivity. }
  cbn [bind add_up]. clear f Ef F. change (2 ^ 31)%Z with 2147483648%Z in *.
  destruct (to_double_finite c b x Hb ltac:(lia)) as (d & Ed & D & _). rewrite Ed. cbn [bind].
  rewrite trunc53_small in D by (change (2 ^ 53)%Z with 9007199254740992%Z; lia).
  destruct (exact_real _ _ D) as (FD & RD). assert (1 <= IZR x) as XR by (apply (IZR_le 1); lia).
  destruct ten_double as (F10 & B10). rewrite csharp_regular; [|apply B2R_not_nan; lra|assumption|lra|lra].
  destruct ten_pattern as (PT & FT & _).
  assert (dbl_regular_base DBL_TEN) as HR by (apply regular_of_real; auto; rewrite ten_real; lra).
  unfold bi_log_double in Er. rewrite (log_small c b x DBL_TEN Hb) in Er; [|change (2 ^ 31)%Z with 2147483648%Z; lia|exact HR].
  cbn [bind log_eval] in Er. injection Er as <-. f_equal.
  destruct (int_ok x ltac:(lia)) as (FX & _). pose proof (int_exact x ltac:(lia)) as RX.
  replace (int_double x) with (bits_double d) by (apply double_eq; auto; [congruence|lra]).
  destruct (bits_ok DBL_TEN PT FT) as (FT2 & RT). rewrite ten_real in RT.
  assert (bits_double DBL_TEN = int_double 10) as -> by (apply (double_eq _ _ FT2 F10); rewrite RT; lra). reflexivity.
Qed.
