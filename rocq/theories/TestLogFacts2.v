(** Proofs about the logarithms of the tests: the operators of the two calculators. *)
From Coq Require Import String ZArith Reals Lra Lia Psatz.
From Flocq Require Import Core Relative BinarySingleNaN.
From Verif Require Import Machine Facts Spec SpecFacts SpecApi BigInt BigIntFacts SpecDouble SpecLog SpecLogDouble
  BigIntDouble BigIntLog BigIntLogDouble LogFacts LogReal DoubleFacts LogDoubleFacts SpecTestLog TestLog TestLogFacts.
Open Scope R_scope.

Ltac Zify.zify_post_hook ::= idtac.

Lemma margin_ulp L : margin L = 2 * ulp1 * L * (L + 64).
Proof. unfold margin, ulp1. replace (2 ^ 52) with 4503599627370496 by lra. lra. Qed.

Lemma clear_small L : clear L -> margin L < / 2.
Proof.
  intros C. destruct (ceiling_exists L) as (z & Z1 & Z2). pose proof (C z) as C1. pose proof (C (z - 1)%Z) as C2.
  rewrite minus_IZR in C2. rewrite Rabs_left1 in C1 by lra. rewrite Rabs_pos_eq in C2 by lra. lra.
Qed.

Section Unary.
  Context (logf log10f : double -> double) (HL : libm_log logf) (HT : libm_log10 log10f).
  Context (cast : double -> outcome Z) (c : cfg).

  Lemma ten_double : is_finite (int_double 10) = true /\ B2R (int_double 10) = 10.
  Proof. split; [apply (int_ok 10); lia|apply (int_exact 10); lia]. Qed.

  (** A value within the margin is rounded up as [L] is. *)
  Lemma approximate_close (v : double) L z : is_finite v = true -> 0 <= L <= 2147483648 -> clear L ->
    Rabs (B2R v - L) <= margin L -> ceiling L z -> returns (approximate log10f cast c v) z.
  Proof.
    intros F LB C D Z. pose proof (clear_small L C) as M. apply Rabs_le_inv in D as D'.
    apply (approximate_ok log10f HT); [exact F|apply Rabs_le; lra|]. now apply (ceiling_close L).
  Qed.

  Section Large.
    Context (b : bigint) (x n : Z) (Hb : represents b x) (X : (2 <= x)%Z) (Hn : limb_count x n) (N : (n <= 2 ^ 26)%Z).

    Lemma small57 : (n <= 2 ^ 57)%Z.
    Proof using N. apply Z.le_trans with (1 := N). vm_compute. discriminate. Qed.

    Lemma ln_range : / 2 <= ln (IZR x) <= 2147483648.
    Proof using X Hn N.
      pose proof (ln_limbs x n ltac:(lia) Hn N) as U. pose proof ln2_bounds as T.
      assert (ln 2 <= ln (IZR x)) by (apply ln_le_mono; [lra|apply (IZR_le 2); lia]). lra.
    Qed.

    Lemma log10_range : 0 < ln (IZR x) / ln 10 <= 2147483648.
    Proof using X Hn N.
      pose proof ln_range as R. pose proof ln10_bounds as T. split; [apply Rdiv_lt_0_compat; lra|].
      apply Rmult_le_reg_r with (ln 10); [lra|]. unfold Rdiv. rewrite Rmult_assoc, Rinv_l by lra. lra.
    Qed.

    (** What is rounded lies within the margin. *)
    Lemma sn_log10_near (Q : outcome bigint -> Prop) : margin (ln (IZR x) / ln 10) < / 2 ->
      (forall v : double, is_finite v = true -> Rabs (B2R v - ln (IZR x) / ln 10) <= margin (ln (IZR x) / ln 10) -> Q (approximate log10f cast c v)) ->
      Q (sn_log1 logf log10f cast c "uLog10" b).
    Proof using HL Hb X Hn N.
      intros CS HQ. destruct (log10_accurate logf c b x n HL Hb ltac:(lia) Hn small57) as (r & E & F & A).
      unfold sn_log1. cbn [String.eqb Ascii.eqb Bool.eqb]. rewrite E. cbn [bind].
      pose proof log10_range as R. set (L := ln (IZR x) / ln 10) in *. clearbody L.
      apply HQ; [exact F|]. apply Rle_trans with (1 := A).
      rewrite margin_ulp, Rabs_pos_eq by lra. replace (/ 2 ^ 48) with (32 * ulp1) by (unfold ulp1; replace (2 ^ 48) with 281474976710656 by lra; lra).
      unfold ulp1. nra.
    Qed.

    (** What is rounded lies within the margin. *)
    Lemma sn_ln_near (Q : outcome bigint -> Prop) : margin (ln (IZR x)) < / 2 ->
      (forall v : double, is_finite v = true -> Rabs (B2R v - ln (IZR x)) <= margin (ln (IZR x)) -> Q (approximate log10f cast c v)) ->
      Q (sn_log1 logf log10f cast c "uLog" b).
    Proof using HL Hb X Hn N.
      intros CS HQ. destruct (ln_accurate logf c b x n HL Hb ltac:(lia) Hn small57) as (r & E & F & A).
      unfold sn_log1. cbn [String.eqb Ascii.eqb Bool.eqb]. rewrite E. cbn [bind].
      pose proof ln_range as R. set (L := ln (IZR x)) in *. clearbody L.
      apply HQ; [exact F|]. apply Rle_trans with (1 := A).
      rewrite margin_ulp, Rabs_pos_eq by lra. replace (/ 2 ^ 47) with (64 * ulp1) by (unfold ulp1; replace (2 ^ 47) with 140737488355328 by lra; lra).
      unfold ulp1. nra.
    Qed.

    (** What is rounded lies within the margin. *)
    Lemma mine_log10_near (Q : outcome bigint -> Prop) : margin (ln (IZR x) / ln 10) < / 2 ->
      (forall v : double, is_finite v = true -> Rabs (B2R v - ln (IZR x) / ln 10) <= margin (ln (IZR x) / ln 10) -> Q (approximate log10f cast c v)) ->
      Q (mine_log1 logf log10f cast c "uLog10" b).
    Proof using HL Hb X Hn N.
      intros CS HQ. destruct (cut_digits logf cast c b x n HL Hb X Hn N)
        as (r & f & k & y & E1 & E2 & Ek & Ey & Y & KL & K8 & K0 & D).
      unfold mine_log1. rewrite E1. cbn [bind]. rewrite E2. cbn [bind]. rewrite <- Ek. clear Ek.
      destruct (shrink_ok c k b x Hb ltac:(lia)) as (b' & Es & Hb'). rewrite Es. cbn [bind]. rewrite <- Ey in Hb'.
      destruct (to_double_ln c b' y Hb' ltac:(lia) ltac:(lia)) as (d & Ed & _ & Fd & Bd & Rd). rewrite Ed. cbn [bind].
      cbn [String.eqb Ascii.eqb Bool.eqb].
      destruct ten_double as (F10 & B10). pose proof ln10_bounds as T10. pose proof ln2_bounds as T2.
      assert (ln 2 <= ln (IZR y)) as LY by (apply ln_le_mono; [lra|apply (IZR_le 2); lia]).
      destruct (ratio_ok logf (bits_double d) (int_double 10) (ln (IZR y)) (ln 10) HL Fd Bd Rd F10 ltac:(lra)) as (FV & RV); try lra.
      { rewrite B10. apply rel_weaken with (2 := rel_refl _). unfold ulp1. lra. }
      set (v := csharp_log logf (bits_double d) (int_double 10)) in *. clearbody v.
      pose proof log10_range as R. set (L := ln (IZR x) / ln 10) in *.
      assert (ln (IZR x) = L * ln 10) as EL by (unfold L; field; lra). rewrite EL in D. clearbody L.
      set (T0 := ln (IZR y) / ln 10) in *. assert (ln (IZR y) = T0 * ln 10) as ET by (unfold T0; field; lra). rewrite ET in *. clearbody T0.
      assert (0 < T0) as TP by nra. unfold rel in RV. rewrite (Rabs_pos_eq T0) in RV by lra.
      rewrite margin_ulp in CS.
      assert (0 <= L - INR k - T0 <= / 1000 * ulp1) as D'.
      { replace (L * ln 10 - INR k * ln 10 - T0 * ln 10) with ((L - INR k - T0) * ln 10) in D by ring. split.
        - apply Rmult_le_reg_r with (ln 10); lra.
        - unfold ulp1 in *. nra. }
      destruct k as [|k].
      - cbn [add_up]. rewrite (K0 eq_refl) in *. cbn [INR] in D'.
        assert (T0 = L) as -> by (apply Rmult_eq_reg_r with (ln 10); lra).
        apply HQ; [exact FV|]. apply Rle_trans with (1 := RV).
        rewrite margin_ulp. unfold ulp1. nra.
      - assert (1 <= INR (S k)) as K1 by (rewrite S_INR; pose proof (pos_INR k); lra).
        set (kr := INR (S k)) in *.
        assert (1 <= T0) as T1 by (pose proof (K8 ltac:(congruence)); nra).
        assert (6 * ulp1 * T0 + kr * (0 + ulp1 * (L + 1)) <= ulp1 * L * (L + 8)) as EB by (unfold ulp1 in *; nra).
        destruct (add_up_ok 1 0 L (int_double 1)) with (n := S k) (v := v) (T0 := T0) (e0 := 6 * ulp1 * T0) as (FU & RU); fold kr;
          try assumption; try lra.
        { rewrite int_double_one, Rminus_diag_eq, Rabs_R0 by reflexivity. lra. }
        { unfold ulp1 in *. nra. }
        fold kr in RU. set (w := add_up (S k) (int_double 1) v) in *. clearbody w.
        apply HQ; [exact FU|]. rewrite margin_ulp.
        assert (ulp1 * L * (L + 8) + ulp1 <= 2 * ulp1 * L * (L + 64)) as ME by (unfold ulp1; nra).
        apply Rabs_le_inv in RU. apply Rabs_le. unfold ulp1 in *. lra.
    Qed.

    (** What is rounded lies within the margin. *)
    Lemma mine_ln_near (Q : outcome bigint -> Prop) : margin (ln (IZR x)) < / 2 ->
      (forall v : double, is_finite v = true -> Rabs (B2R v - ln (IZR x)) <= margin (ln (IZR x)) -> Q (approximate log10f cast c v)) ->
      Q (mine_log1 logf log10f cast c "uLog" b).
    Proof using HL Hb X Hn N.
      intros CS HQ. destruct (cut_digits logf cast c b x n HL Hb X Hn N)
        as (r & f & k & y & E1 & E2 & Ek & Ey & Y & KL & K8 & K0 & D).
      unfold mine_log1. rewrite E1. cbn [bind]. rewrite E2. cbn [bind]. rewrite <- Ek. clear Ek.
      destruct (shrink_ok c k b x Hb ltac:(lia)) as (b' & Es & Hb'). rewrite Es. cbn [bind]. rewrite <- Ey in Hb'.
      destruct (to_double_ln c b' y Hb' ltac:(lia) ltac:(lia)) as (d & Ed & _ & Fd & Bd & Rd). rewrite Ed. cbn [bind].
      cbn [String.eqb Ascii.eqb Bool.eqb].
      destruct ten_double as (F10 & B10). pose proof ln10_bounds as T10. pose proof ln2_bounds as T2.
      assert (ln 2 <= ln (IZR y)) as LY by (apply ln_le_mono; [lra|apply (IZR_le 2); lia]).
      destruct (logf_close logf (bits_double d) (ln (IZR y)) HL Fd Bd Rd) as (FV & RV).
      destruct (logf_rel logf (int_double 10) HL F10 ltac:(lra)) as (FS & RS). rewrite B10 in RS.
      unfold rel in RS. rewrite (Rabs_pos_eq (ln 10)) in RS by lra.
      set (v := logf (bits_double d)) in *. clearbody v.
      pose proof ln_range as R. set (L := ln (IZR x)) in *.
      set (T0 := ln (IZR y)) in *. assert (k = O -> T0 = L) as KT by (intros KE; unfold T0, L; now rewrite (K0 KE)). clearbody T0 L.
      unfold rel in RV. rewrite (Rabs_pos_eq T0) in RV by lra.
      rewrite margin_ulp in CS.
      destruct k as [|k].
      - cbn [add_up]. rewrite (KT eq_refl) in *.
        apply HQ; [exact FV|]. apply Rle_trans with (1 := RV).
        rewrite margin_ulp. unfold ulp1. nra.
      - assert (1 <= INR (S k)) as K1 by (rewrite S_INR; pose proof (pos_INR k); lra).
        set (kr := INR (S k)) in *. specialize (K8 ltac:(congruence)).
        assert (kr * ln 10 <= L) as KL' by lra.
        assert (kr * (8 / 5) <= L) as KL2 by nra.
        assert (22 / 10 * ulp1 * T0 + kr * (8 * ulp1 + ulp1 * (L + 1)) <= ulp1 * L * (L + 12)) as EB by (unfold ulp1 in *; nra).
        destruct (add_up_ok (ln 10) (8 * ulp1) L (logf (int_double 10))) with (n := S k) (v := v) (T0 := T0) (e0 := 22 / 10 * ulp1 * T0) as (FU & RU); fold kr;
          try assumption; try lra.
        { apply Rle_trans with (1 := RS). unfold ulp1. lra. }
        { unfold ulp1 in *. nra. }
        fold kr in RU. set (w := add_up (S k) (logf (int_double 10)) v) in *. clearbody w.
        apply HQ; [exact FU|]. rewrite margin_ulp.
        assert (ulp1 * L * (L + 12) + ulp1 <= 2 * ulp1 * L * (L + 64)) as ME by (unfold ulp1; nra).
        apply Rabs_le_inv in RU. apply Rabs_le. unfold ulp1 in *. lra.
    Qed.

    Lemma sn_log10_ok z : clear (ln (IZR x) / ln 10) -> ceiling (ln (IZR x) / ln 10) z ->
      returns (sn_log1 logf log10f cast c "uLog10" b) z.
    Proof using HL HT Hb X Hn N.
      intros C Z. apply (sn_log10_near (fun o => returns o z)); [now apply clear_small|]. intros v F D. pose proof log10_range as R.
      apply (approximate_close v (ln (IZR x) / ln 10) z F); try assumption. lra.
    Qed.

    Lemma sn_ln_ok z : clear (ln (IZR x)) -> ceiling (ln (IZR x)) z ->
      returns (sn_log1 logf log10f cast c "uLog" b) z.
    Proof using HL HT Hb X Hn N.
      intros C Z. apply (sn_ln_near (fun o => returns o z)); [now apply clear_small|]. intros v F D. pose proof ln_range as R.
      apply (approximate_close v (ln (IZR x)) z F); try assumption. lra.
    Qed.

    Lemma mine_log10_ok z : clear (ln (IZR x) / ln 10) -> ceiling (ln (IZR x) / ln 10) z ->
      returns (mine_log1 logf log10f cast c "uLog10" b) z.
    Proof using HL HT Hb X Hn N.
      intros C Z. apply (mine_log10_near (fun o => returns o z)); [now apply clear_small|]. intros v F D. pose proof log10_range as R.
      apply (approximate_close v (ln (IZR x) / ln 10) z F); try assumption. lra.
    Qed.

    Lemma mine_ln_ok z : clear (ln (IZR x)) -> ceiling (ln (IZR x)) z ->
      returns (mine_log1 logf log10f cast c "uLog" b) z.
    Proof using HL HT Hb X Hn N.
      intros C Z. apply (mine_ln_near (fun o => returns o z)); [now apply clear_small|]. intros v F D. pose proof ln_range as R.
      apply (approximate_close v (ln (IZR x)) z F); try assumption. lra.
    Qed.
  End Large.
End Unary.

(** ** Special values *)

Lemma trunc53_negative x : (x < 0)%Z -> (trunc53 x < 0)%Z.
Proof.
  intros X. assert (trunc53 x = - trunc53 (- x))%Z as ->.
  { unfold trunc53. rewrite Z.abs_opp. cbv zeta. rewrite Z.quot_opp_l by (apply Z.pow_nonzero; lia). ring. }
  destruct (trunc53_close (- x) ltac:(lia)). lia.
Qed.

Lemma double_eq (x y : double) : is_finite x = true -> is_finite y = true -> B2R x = B2R y -> B2R x <> 0 -> x = y.
Proof.
  intros FX FY E N. apply B2R_inj; [| |exact E].
  - destruct x; auto; now contradiction N.
  - rewrite E in N. destruct y; auto; now contradiction N.
Qed.

Lemma to_double_cases c b x : represents b x -> exists d, bi_to_double c b = Ret d /\ dbl_pattern d /\
  ((x < 0)%Z -> dbl_negative d = true /\ d <> (2 ^ 63)%Z /\ (B2R (bits_double d) < 0 \/ bits_double d = B754_infinity true)) /\
  (x = 0%Z -> d = 0%Z) /\ (x = 1%Z -> d = (1023 * 2 ^ 52)%Z) /\
  ((2 <= x < 2 ^ 1024)%Z -> dbl_exact d (trunc53 x)) /\
  ((2 ^ 1024 <= x)%Z -> d = plus_infinity).
Proof.
  intros Hb. assert (2 < 2 ^ 1024)%Z as P1024 by reflexivity.
  destruct (Z.lt_ge_cases (Z.abs x) (2 ^ 1024)) as [S|S].
  - destruct (to_double_finite c b x Hb S) as (d & E & D & Z0). exists d. split; [exact E|]. split; [apply D|].
    set (big := (2 ^ 1024)%Z) in *. clearbody big. split; [|split; [exact Z0|split; [|split; [auto|lia]]]].
    + intros X. pose proof (trunc53_negative x X) as T. destruct (exact_fields d _ D ltac:(lia)) as (E1 & E2 & _).
      rewrite (proj2 (Z.ltb_lt _ _) T) in E2. split; [exact E2|]. split; [intros ->; now apply E1|].
      left. destruct (exact_real d _ D) as (_ & R). rewrite R. now apply (IZR_lt _ 0).
    + intros ->. apply (dbl_exact_unique _ _ 1); [exact D| |discriminate].
      split; [split; [discriminate|reflexivity]|]. split; [discriminate|reflexivity].
  - rewrite (to_double_infinite c b x Hb S). set (big := (2 ^ 1024)%Z) in *. clearbody big. destruct (Z.ltb_spec x 0) as [X|X].
    + exists minus_infinity. split; [reflexivity|]. split; [split; [discriminate|reflexivity]|].
      split; [|repeat split; try lia]. intros _. split; [reflexivity|]. split; [discriminate|]. right. reflexivity.
    + exists plus_infinity. split; [reflexivity|]. split; [split; [discriminate|reflexivity]|].
      split; [lia|]. split; [lia|]. split; [lia|]. split; [lia|]. reflexivity.
Qed.

Lemma csharp_nan_l logf a base : logf a = B754_nan -> csharp_log logf a base = B754_nan.
Proof.
  intros L. unfold csharp_log. destruct (is_nan a) eqn:NA; [destruct a; try discriminate; reflexivity|].
  destruct (is_nan base) eqn:NB; [destruct base; try discriminate; reflexivity|].
  destruct (Beqb base _); [reflexivity|]. destruct (_ && _)%bool; [reflexivity|]. rewrite L. apply div_nan_l.
Qed.

Lemma csharp_nan_r logf a base : logf base = B754_nan -> csharp_log logf a base = B754_nan.
Proof.
  intros L. unfold csharp_log. destruct (is_nan a) eqn:NA; [destruct a; try discriminate; reflexivity|].
  destruct (is_nan base) eqn:NB; [destruct base; try discriminate; reflexivity|].
  destruct (Beqb base _); [reflexivity|]. destruct (_ && _)%bool; [reflexivity|]. rewrite L. apply div_nan_r.
Qed.

Section Special.
  Context (logf log10f : double -> double) (HL : libm_log logf) (HT : libm_log10 log10f).
  Context (cast : double -> outcome Z) (c : cfg).

  Lemma log_negative (a : double) : B2R a < 0 \/ a = B754_infinity true -> logf a = B754_nan.
  Proof using HL. intros [H| ->]; [now apply log_of_negative|now apply log_of_minus_infinity]. Qed.

  Lemma approximate_nan : returns (approximate log10f cast c B754_nan) (-101).
  Proof. apply wp_returns, bi_of_int32_spec. unfold INT_MIN, INT_MAX. lia. Qed.
  Lemma approximate_infinite s : returns (approximate log10f cast c (B754_infinity s)) (if s then -102 else -103).
  Proof. destruct s; apply wp_returns, bi_of_int32_spec; unfold INT_MIN, INT_MAX; lia. Qed.
  Lemma approximate_zero s : returns (approximate log10f cast c (B754_zero s)) 0.
  Proof using HT. apply (approximate_ok log10f HT); [reflexivity| |]; cbn [B2R]; [rewrite Rabs_R0; lra|]. unfold ceiling. lra. Qed.

  Lemma ten_positive : is_finite (logf (int_double 10)) = true /\ B2R (logf (int_double 10)) <> 0 /\
    Rlt_bool (B2R (logf (int_double 10))) 0 = false.
  Proof using HL.
    destruct (ten_double) as (F & B). destruct (logf_sign logf (int_double 10) HL F ltac:(lra) ltac:(lra)) as (F1 & N1 & S1).
    split; [exact F1|]. split; [exact N1|]. rewrite S1, B. apply Rlt_bool_false. lra.
  Qed.

  Lemma e_pattern : dbl_pattern DBL_E /\ dbl_finite DBL_E /\ 1 < dbl_real DBL_E.
  Proof.
    split; [split; [discriminate|reflexivity]|]. split; [discriminate|]. pose proof e_nearest as E. apply Rabs_le_inv in E.
    pose proof (exp_ineq1 1 ltac:(lra)) as E2. assert (/ 2 ^ 52 <= / 4) by (apply Rinv_le_contravar; lra). lra.
  Qed.

  Lemma ten_pattern : dbl_pattern DBL_TEN /\ dbl_finite DBL_TEN /\ 1 < dbl_real DBL_TEN.
  Proof. split; [split; [discriminate|reflexivity]|]. split; [discriminate|]. rewrite ten_real. lra. Qed.

  (** What the library's logarithms of 0, 1 and negative numbers are. *)
  Lemma sn_log1_special op b x : is_log op -> represents b x -> (x <= 1)%Z ->
    returns (sn_log1 logf log10f cast c op b) (if x <? 0 then -101 else if x =? 0 then -102 else 0).
  Proof using HL HT.
    intros OP Hb X. unfold sn_log1, bi_log10_double, bi_ln_double.
    assert (exists base, (if (op =? "uLog10")%string then bi_log_double logf c b DBL_TEN else bi_log_double logf c b DBL_E)
      = bi_log_double logf c b base /\ dbl_pattern base /\ dbl_finite base /\ 1 < dbl_real base) as (base & -> & P & F & B1).
    { destruct OP; subst op; cbn [String.eqb Ascii.eqb Bool.eqb].
      - exists DBL_E. split; [reflexivity|apply e_pattern].
      - exists DBL_TEN. split; [reflexivity|apply ten_pattern]. }
    destruct (Z.ltb_spec x 0) as [N|N].
    - unfold bi_log_double. rewrite (log_undefined c b x base Hb (or_introl N)). cbn [bind log_eval]. apply approximate_nan.
    - destruct (Z.eqb_spec x 0) as [->|N0].
      + rewrite (log_zero_value logf c b base HL Hb P F) by lra. rewrite Rlt_bool_false by lra. cbn [bind negb].
        apply (approximate_infinite true).
      + assert (x = 1)%Z as -> by lia. rewrite (log_one_value logf c b base HL Hb P F) by lra. cbn [bind]. apply approximate_zero.
  Qed.

  Lemma mine_first b x : represents b x -> (x <= 1)%Z -> bi_log_double logf c b DBL_TEN = Ret (first_log x).
  Proof using HL.
    intros Hb X. unfold first_log. destruct ten_pattern as (P & F & B1). destruct (Z.ltb_spec x 0) as [N|N].
    - unfold bi_log_double. now rewrite (log_undefined c b x _ Hb (or_introl N)).
    - destruct (Z.eqb_spec x 0) as [->|N0].
      + rewrite (log_zero_value logf c b _ HL Hb P F) by lra. now rewrite Rlt_bool_false by lra.
      + assert (x = 1)%Z as -> by lia. rewrite (log_one_value logf c b _ HL Hb P F) by lra. now rewrite Rlt_bool_false by lra.
  Qed.

  Lemma mine_log1_special op b x f : is_log op -> represents b x -> (x <= 1)%Z ->
    double_to_int cast (first_log x) = Ret f -> (f <= 100)%Z ->
    returns (mine_log1 logf log10f cast c op b) (if x <? 0 then -101 else if x =? 0 then -102 else 0).
  Proof using HL HT.
    intros OP Hb X Ef F. unfold mine_log1. rewrite (mine_first b x Hb X). cbn [bind]. rewrite Ef. cbn [bind].
    destruct (Z.ltb_spec 100 f) as [|_]; [lia|]. cbv zeta.
    assert (shrink c 0 b = Ret b) as ->.
    { unfold shrink. cbn [for_up]. assert (wp (bi_of_int32 c 10) (fun _ => True)) as W.
      { eapply wp_mono; [apply bi_of_int32_spec; unfold INT_MIN, INT_MAX; lia|auto]. }
      destruct (bi_of_int32 c 10); try contradiction. reflexivity. }
    cbn [bind add_up]. destruct (to_double_cases c b x Hb) as (d & Ed & _ & C1 & C2 & C3 & _). rewrite Ed. cbn [bind].
    destruct (Z.ltb_spec x 0) as [N|N].
    - destruct (C1 N) as (_ & _ & C). pose proof (log_negative _ C) as Q. rewrite (csharp_nan_l _ _ _ Q), Q.
      destruct (op =? "uLog10")%string; apply approximate_nan.
    - destruct ten_double as (F10 & B10). destruct ten_positive as (T1 & T2 & T3). destruct (Z.eqb_spec x 0) as [E|N0].
      + rewrite (C2 E). change (bits_double 0) with (B754_zero false : double).
        rewrite csharp_regular by (reflexivity || assumption || lra). rewrite (log_of_zero logf HL), (infinite_div true _ T1 T2), T3.
        destruct (op =? "uLog10")%string; apply (approximate_infinite true).
      + rewrite (C3 ltac:(lia)). assert (B2R (bits_double (1023 * 2 ^ 52)) = 1) as B1.
        { destruct (exact_real (1023 * 2 ^ 52) 1) as (_ & R); [|exact R].
          split; [split; [discriminate|reflexivity]|]. split; [discriminate|reflexivity]. }
        rewrite csharp_regular; [|apply B2R_not_nan; lra|assumption|lra|lra].
        rewrite (log_of_one logf HL _ B1), (zero_div false _ T1 T2), T3.
        destruct (op =? "uLog10")%string; apply approximate_zero.
  Qed.

  (** When that conversion is undefined, so is the whole. *)
  Lemma mine_log1_undefined op b x u : represents b x -> (x <= 0)%Z ->
    cast (first_log x) = Undef u -> mine_log1 logf log10f cast c op b = Undef u.
  Proof using HL.
    intros Hb X E. unfold mine_log1. rewrite (mine_first b x Hb ltac:(lia)). cbn [bind].
    assert (double_to_int cast (first_log x) = Undef u) as ->; [|reflexivity].
    unfold double_to_int, first_log in *. destruct (Z.ltb_spec x 0); [exact E|]. destruct (Z.eqb_spec x 0); [exact E|lia].
  Qed.
End Special.
