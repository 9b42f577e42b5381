(** Proofs about the logarithms of the tests: LargeValueLogTests. *)
From Coq Require Import String ZArith Reals Lra Lia Psatz.
From Flocq Require Import Core Relative BinarySingleNaN.
From Verif Require Import Machine Facts Spec SpecFacts SpecApi BigInt BigIntFacts ShiftFacts SpecDouble SpecLog SpecLogDouble
  BigIntDouble BigIntLog BigIntLogDouble LogFacts LogReal DoubleFacts LogDoubleFacts SpecTestLog TestLog TestLogFacts TestLogFacts2 GcdRegions.
Open Scope R_scope.

Ltac Zify.zify_post_hook ::= idtac.

(** ** Exact operations *)

Lemma int_format z : (Z.abs z <= 2 ^ 53)%Z -> generic_format radix2 (SpecFloat.fexp 53 1024) (IZR z).
Proof. intros H. rewrite <- (int_exact z H). apply generic_format_B2R. Qed.

Lemma int_finite_bound z : (Z.abs z <= 2 ^ 53)%Z -> Rlt_bool (Rabs (IZR z)) (bpow radix2 1024) = true.
Proof.
  intros H. apply Rlt_bool_true. rewrite <- abs_IZR. apply Rle_lt_trans with (bpow radix2 53).
  - change (bpow radix2 53) with (IZR (2 ^ 53)). now apply IZR_le.
  - apply bpow_lt. lia.
Qed.

Definition is_int_double (d : double) (z : Z) : Prop := is_finite d = true /\ B2R d = IZR z.

Lemma int_is z : (Z.abs z <= 2 ^ 53)%Z -> is_int_double (int_double z) z.
Proof. intros H. split; [apply int_ok; change (2 ^ 64)%Z with (2048 * 2 ^ 53)%Z; lia|now apply int_exact]. Qed.

Lemma add_int x y a b : is_int_double x a -> is_int_double y b -> (Z.abs (a + b) <= 2 ^ 53)%Z -> is_int_double (d_add x y) (a + b).
Proof.
  intros (FX & EX) (FY & EY) H. pose proof (@Bplus_correct 53 1024 prec53 prec53_lt mode_NE x y FX FY) as C.
  rewrite EX, EY, <- plus_IZR in C. rewrite round_generic in C; [|auto with typeclass_instances|now apply int_format].
  rewrite int_finite_bound in C by exact H. destruct C as (E & F & _). split; [exact F|exact E].
Qed.

Lemma mul_int x y a b : is_int_double x a -> is_int_double y b -> (Z.abs (a * b) <= 2 ^ 53)%Z -> is_int_double (d_mul x y) (a * b).
Proof.
  intros (FX & EX) (FY & EY) H. pose proof (@Bmult_correct 53 1024 prec53 prec53_lt mode_NE x y) as C.
  rewrite EX, EY, <- mult_IZR in C. rewrite round_generic in C; [|auto with typeclass_instances|now apply int_format].
  rewrite int_finite_bound in C by exact H. rewrite FX, FY in C. destruct C as (E & F & _). split; [exact F|exact E].
Qed.

(** A quotient that is an integer. *)
Lemma div_int x y z : is_finite x = true -> B2R y <> 0 -> B2R x / B2R y = IZR z -> (Z.abs z <= 2 ^ 53)%Z -> is_int_double (d_div x y) z.
Proof.
  intros FX Y E H. pose proof (@Bdiv_correct 53 1024 prec53 prec53_lt mode_NE x y Y) as C.
  rewrite E in C. rewrite round_generic in C; [|auto with typeclass_instances|now apply int_format].
  rewrite int_finite_bound in C by exact H. rewrite FX in C. destruct C as (E' & F & _). split; [exact F|exact E'].
Qed.

(** ** The comparison *)

Definition tol51 : R := bpow radix2 (-51).

Lemma tol51_ulp : tol51 = 4 * ulp1.
Proof. unfold tol51, ulp1. change (bpow radix2 (-51)) with (/ 2251799813685248). lra. Qed.

(** A difference of at most 2^-51 is rounded to at most that. *)
Lemma sub_small x y : is_finite x = true -> is_finite y = true -> Rabs (B2R x - B2R y) <= tol51 ->
  is_finite (d_sub x y) = true /\ Rabs (B2R (d_sub x y)) <= tol51.
Proof.
  intros FX FY D. pose proof (@Bminus_correct 53 1024 prec53 prec53_lt mode_NE x y FX FY) as C.
  assert (generic_format radix2 (SpecFloat.fexp 53 1024) tol51) as G.
  { apply generic_format_bpow. vm_compute. discriminate. }
  assert (Rabs (rnd (B2R x - B2R y)) <= tol51) as R.
  { apply Rabs_le_inv in D as (D1 & D2). apply Rabs_le. split.
    - apply Rle_trans with (rnd (- tol51)).
      + right. symmetry. apply round_generic; [auto with typeclass_instances|now apply generic_format_opp].
      + apply round_le; [apply valid53|auto with typeclass_instances|exact D1].
    - apply Rle_trans with (rnd tol51).
      + apply round_le; [apply valid53|auto with typeclass_instances|exact D2].
      + right. apply round_generic; [auto with typeclass_instances|exact G]. }
  rewrite Rlt_bool_true in C.
  - destruct C as (E & F & _). unfold d_sub. split; [exact F|]. rewrite E. exact R.
  - apply Rle_lt_trans with (1 := R). apply bpow_lt. lia.
Qed.

Lemma approx_ok tolerance (v e : double) : is_finite v = true -> is_finite e = true -> 1 <= B2R e <= 18014398509481984 ->
  rel (2 * ulp1) (B2R v) (B2R e) -> is_finite tolerance = true -> tol51 <= B2R tolerance ->
  approx_equal tolerance v e = true.
Proof.
  intros FV FE E R FT T.
  assert (approx_equal tolerance v e =
    if Beqb e (int_double 0) then Beqb v (int_double 0)
    else Bleb (d_abs (d_sub (d_div v e) (int_double 1))) tolerance) as -> by (destruct v; try discriminate; reflexivity).
  rewrite (Beqb_correct _ _ e (int_double 0) FE eq_refl), int_double_zero, Req_bool_false by lra.
  unfold rel in R. rewrite (Rabs_pos_eq (B2R e)) in R by lra. apply Rabs_le_inv in R as R'.
  assert (1 - 2 * ulp1 <= B2R v / B2R e <= 1 + 2 * ulp1) as Q.
  { split; apply Rmult_le_reg_r with (B2R e); try lra; unfold Rdiv; rewrite Rmult_assoc, Rinv_l by lra; lra. }
  destruct (div_ok v e FV ltac:(lra)) as (FD & RD).
  { right. rewrite Rabs_pos_eq by (unfold ulp1 in Q; lra). split.
    - apply Rle_trans with (/ 2); [change (/ 2) with (bpow radix2 (-1)); apply bpow_le; lia|unfold ulp1 in Q; lra].
    - apply Rle_trans with 2; [unfold ulp1 in Q; lra|change 2 with (bpow radix2 1); apply bpow_le; lia]. }
  unfold rel in RD. rewrite (Rabs_pos_eq (_ / _)) in RD by (unfold ulp1 in Q; lra). apply Rabs_le_inv in RD.
  destruct (sub_small (d_div v e) (int_double 1) FD eq_refl) as (FS & RS).
  { rewrite int_double_one, tol51_ulp. apply Rabs_le. unfold ulp1 in *. lra. }
  unfold d_abs. rewrite Bleb_correct; [|now rewrite is_finite_Babs|exact FT]. rewrite B2R_Babs. apply Rle_bool_true. lra.
Qed.

(** ** The logarithm of a power of two *)

Lemma two_bits : bits_double DBL_TWO = int_double 2.
Proof.
  destruct (exact_real DBL_TWO 2) as (F & R).
  { split; [split; [discriminate|reflexivity]|]. split; [discriminate|reflexivity]. }
  destruct (int_is 2 ltac:(lia)) as (F2 & R2). apply (double_eq _ _ F F2); rewrite R; [now rewrite R2|lra].
Qed.

Lemma two_regular : dbl_regular_base DBL_TWO.
Proof. split; [split; [discriminate|reflexivity]|]. split; [discriminate|]. split; discriminate. Qed.

Lemma log_power logf c b s : libm_log logf -> represents b (2 ^ s) -> (2 ^ 20 <= s <= 2 ^ 40)%Z ->
  exists r, bi_log_double logf c b DBL_TWO = Ret r /\ is_finite r = true /\ rel (2 * ulp1) (B2R r) (IZR s).
Proof.
  intros H Hb S. assert (0 < 2 ^ s)%Z as XP by (apply Z.pow_pos_nonneg; lia).
  assert (2 ^ 31 <= 2 ^ s)%Z as X31 by (apply Z.pow_le_mono_r; [reflexivity|change (2 ^ 20)%Z with 1048576%Z in S; lia]).
  destruct (count_exists (2 ^ s) XP) as (n & Hn).
  assert (n <= 2 ^ 57)%Z as N.
  { destruct Hn as (_ & _ & M). apply Z.le_trans with (s / 32 + 1)%Z.
    - apply M.
      + pose proof (Z.div_pos s 32). change (2 ^ 20)%Z with 1048576%Z in S. lia.
      + unfold fits_limbs. rewrite Z.abs_eq by lia. apply Z.pow_lt_mono_r; [reflexivity| |]; pose proof (Z.div_mod s 32 ltac:(lia)); pose proof (Z.mod_pos_bound s 32 ltac:(lia)); change (2 ^ 20)%Z with 1048576%Z in S; lia.
    - assert (s / 32 <= 2 ^ 40)%Z by (apply Z.div_le_upper_bound; change (2 ^ 40)%Z with 1099511627776%Z in *; lia).
      change (2 ^ 57)%Z with 144115188075855872%Z. change (2 ^ 40)%Z with 1099511627776%Z in *. lia. }
  destruct (log_shape c b (2 ^ s) n DBL_TWO Hb X31 Hn N eq_refl eq_refl eq_refl) as (m & k & E & Hm & Em & Hk).
  rewrite wrapper_regular in E by exact two_regular. unfold bi_log_double. rewrite E. cbn [bind log_eval].
  eexists. split; [reflexivity|]. rewrite two_bits. clear E.
  destruct (log_error (2 ^ s) m k XP ltac:(lia) Em) as (S1 & S2).
  destruct (ln_split (2 ^ s) m k XP ltac:(lia) S1 S2) as (D1 & D2). clear S1 S2 Em X31 XP.
  rewrite ln_pow2 in D1, D2 by lia. pose proof (ln_m_bounds m Hm) as LM. pose proof ln2_bounds as T2.
  assert (1048576 <= IZR s <= 1099511627776) as SR by (destruct S as (S1 & S2); apply IZR_le in S1, S2; auto).
  replace (/ 2 ^ 62) with (/ 4611686018427387904) in D2 by (f_equal; lra).
  destruct (int_is 2 ltac:(lia)) as (F2 & B2).
  (* the divisor is exactly 1 *)
  destruct (logf_rel logf (int_double 2) H F2 ltac:(rewrite B2; lra)) as (FT & RT). rewrite B2 in RT.
  assert (bd (-1) 0 (ln 2)) as BT.
  { split; rewrite Rabs_pos_eq by lra; [change (bpow radix2 (-1)) with (/ 2)|change (bpow radix2 0) with 1]; lra. }
  pose proof (bd_nonzero _ _ _ (bd_rel _ _ _ _ _ RT BT ltac:(unfold ulp1; lra))) as NT.
  unfold log2_wrapper. rewrite B2R_not_nan by (rewrite B2; lra).
  destruct (div_int (logf (int_double 2)) (logf (int_double 2)) 1 FT NT ltac:(field; exact NT) ltac:(lia)) as (F1 & E1).
  (* so the second term is exact *)
  assert (Z.abs k <= 2 ^ 53)%Z as KB.
  { assert (-65 < IZR k < 1099511627777) as (K1 & K2).
    { assert (0 <= IZR s * ln 2 <= 1099511627776 * ln 2) as SB by (split; [apply Rmult_le_pos; lra|apply Rmult_le_compat_r; lra]).
      split; apply Rmult_lt_reg_r with (ln 2); lra. }
    apply (lt_IZR (-65)) in K1. apply (lt_IZR _ 1099511627777) in K2. change (2 ^ 53)%Z with 9007199254740992%Z. lia. }
  destruct (int_is k KB) as (FK & EK).
  destruct (div_int (int_double k) (d_div (logf (int_double 2)) (logf (int_double 2))) k FK) as (F3 & E3); try assumption.
  { rewrite E1. lra. }
  { rewrite E1, EK. field. }
  set (t := d_div (int_double k) _) in *. clearbody t.
  (* the first term *)
  destruct (ln_mantissa_ok logf m H Hm) as (FM & RM).
  assert (bd (-1) 7 (ln (IZR m))) as BM.
  { split; rewrite Rabs_pos_eq by lra; [change (bpow radix2 (-1)) with (/ 2)|change (bpow radix2 7) with 128]; lra. }
  assert (bd (-54) 11 (ln 2)) as BL.
  { split; [apply Rle_trans with (2 := proj1 BT)|apply Rle_trans with (1 := proj2 BT)]; apply bpow_le; lia. }
  destruct (quotient_ok _ _ _ _ _ FM RM RT BM BL eq_refl) as (FQ & RQ).
  set (q := d_div (logf (int_double m)) _) in *. clearbody q.
  assert (62 <= ln (IZR m) / ln 2 <= 65) as QB.
  { split; apply Rmult_le_reg_r with (ln 2); try lra; unfold Rdiv; rewrite Rmult_assoc, Rinv_l by lra; lra. }
  assert (Rabs (ln (IZR m) / ln 2 + IZR k - IZR s) <= ulp1) as D3.
  { replace (ln (IZR m) / ln 2 + IZR k - IZR s) with (- ((IZR s * ln 2 - (ln (IZR m) + IZR k * ln 2)) / ln 2)) by (field; lra).
    rewrite Rabs_Ropp, Rabs_pos_eq; [|apply Rmult_le_pos; [exact D1|left; apply Rinv_0_lt_compat; lra]].
    apply Rmult_le_reg_r with (ln 2); [lra|]. unfold Rdiv. rewrite Rmult_assoc, Rinv_l by lra. unfold ulp1. lra. }
  set (g := ln (IZR m) / ln 2) in *. clearbody g. unfold rel in RQ. rewrite (Rabs_pos_eq g) in RQ by lra.
  apply Rabs_le_inv in RQ. apply Rabs_le_inv in D3.
  assert (Rabs (B2R q + B2R t - IZR s) <= 500 * ulp1) as D4 by (rewrite E3; apply Rabs_le; unfold ulp1 in *; lra).
  apply Rabs_le_inv in D4.
  destruct (add_ok q t FQ F3) as (FS & RS).
  { right. rewrite Rabs_pos_eq by (unfold ulp1 in D4; lra). split.
    - apply Rle_trans with 1; [change 1 with (bpow radix2 0); apply bpow_le; lia|unfold ulp1 in D4; lra].
    - apply Rle_trans with 2199023255552; [unfold ulp1 in D4; lra|change 2199023255552 with (bpow radix2 41); apply bpow_le; lia]. }
  split; [exact FS|]. unfold rel in *. rewrite (Rabs_pos_eq (_ + _)) in RS by (unfold ulp1 in D4; lra). rewrite (Rabs_pos_eq (IZR s)) by lra.
  apply Rabs_le_inv in RS. apply Rabs_le. unfold ulp1 in *. lra.
Qed.

(** ** The loops *)

Theorem large_value_ok logf tolerance c start bigs small smalls :
  libm_log logf -> is_finite tolerance = true -> Rabs (B2R tolerance - / 10 ^ 15) <= / 10 ^ 16 ->
  (0 <= start <= INT_MAX)%Z -> (0 <= small)%Z -> (0 <= smalls <= INT_MAX)%Z -> (small * smalls <= INT_MAX)%Z -> (small <= INT_MAX)%Z -> (0 <= bigs <= 256)%Z ->
  large_value_log_tests logf tolerance c start bigs small smalls = Ret true.
Proof.
  intros H FT TT S1 S2 S3 S4 S5 S6.
  assert (tol51 <= B2R tolerance) as TL.
  { apply Rabs_le_inv in TT. replace (/ 10 ^ 15) with (/ 1000000000000000) in TT by (f_equal; lra).
    replace (/ 10 ^ 16) with (/ 10000000000000000) in TT by (f_equal; lra). rewrite tol51_ulp. unfold ulp1. lra. }
  assert (wp (large_value_log_tests logf tolerance c start bigs small smalls) (fun r => r = true)) as W.
  2:{ destruct (large_value_log_tests logf tolerance c start bigs small smalls); cbn in W; try contradiction. now rewrite W. }
  change (INT_MAX) with 2147483647%Z in *.
  unfold large_value_log_tests. apply wp_bind.
  eapply wp_mono; [apply bi_of_int32_spec; unfold INT_MIN, INT_MAX; lia|]. intros one Hone. cbn beta in Hone.
  apply wp_bind. destruct (bi_shl_exact c one 1 start Hone ltac:(unfold INT_MAX; lia)) as (init & Ei & Hi). rewrite Ei. cbn [wp].
  rewrite Z.mul_1_l in Hi.
  apply (wp_for_up (Z.to_nat smalls) 0 _ true (fun _ ok => ok = true)); [reflexivity| |auto].
  intros i ok Hi1 ->. assert (0 <= Z.of_nat i < smalls)%Z as HI by lia.
  assert ((Z.of_nat i + 1) * small <= 2147483647)%Z as HS by nia.
  assert (0 <= (Z.of_nat i + 1) * small)%Z as HS0 by (apply Z.mul_nonneg_nonneg; lia).
  rewrite chk32_ok by (unfold INT_MIN, INT_MAX; lia). cbn [bind].
  rewrite chk32_ok by (unfold INT_MIN, INT_MAX; lia). cbn [bind].
  set (i1 := (Z.of_nat i + 1)%Z) in *.
  destruct (bi_shl_exact c init (2 ^ start) (i1 * small) Hi ltac:(unfold INT_MAX; lia)) as (temp & Et & Ht). rewrite Et. cbn [bind].
  rewrite <- Z.pow_add_r in Ht by lia.
  apply wp_bind.
  apply (wp_for_up (Z.to_nat bigs) 0 _ (temp, true) (fun j '(t, ok) => ok = true /\ represents t (2 ^ (start + i1 * small + 214748364 * Z.of_nat j)))).
  - split; [reflexivity|]. now rewrite Z.mul_0_r, Z.add_0_r.
  - intros j [t ok] Hj (-> & Hr). assert (0 <= Z.of_nat j < 256)%Z as HJ by lia.
    change (INT_MAX / 10)%Z with 214748364%Z.
    assert (INT_MIN <= Z.of_nat j + 1 <= INT_MAX)%Z as J1 by (unfold INT_MIN, INT_MAX; lia).
    assert (exists t2, bi_shl c t 214748364 = Ret t2 /\ represents t2 (2 ^ (start + small * i1 + 214748364 * (Z.of_nat j + 1)))) as (t2 & E2 & H2).
    { remember 214748364%Z as B eqn:EB. destruct (bi_shl_exact c t _ B Hr ltac:(unfold INT_MAX; lia)) as (t2 & E2 & H2).
      exists t2. split; [exact E2|]. rewrite <- Z.pow_add_r in H2 by lia.
      replace (start + small * i1 + B * (Z.of_nat j + 1))%Z with (start + i1 * small + B * Z.of_nat j + B)%Z by ring. exact H2. }
    rewrite E2. cbn [bind]. rewrite (chk32_ok c _ J1). cbn [bind].
    set (j1 := (Z.of_nat j + 1)%Z) in *.
    set (p := (small * i1)%Z) in *. assert (0 <= p <= 2147483647)%Z as HP by lia.
    pose proof (int_is start ltac:(lia)) as A1. pose proof (int_is 214748364 ltac:(lia)) as A2. pose proof (int_is j1 ltac:(lia)) as A3.
    assert (is_int_double (d_mul (int_double small) (int_double i1)) p) as A4.
    { apply mul_int; [apply int_is; lia|apply int_is; lia|fold p; lia]. }
    pose proof (add_int _ _ _ _ A1 A4 ltac:(lia)) as A5. pose proof (mul_int _ _ _ _ A2 A3 ltac:(lia)) as A6.
    destruct (add_int _ _ _ _ A5 A6 ltac:(lia)) as (FE & EE).
    set (e := d_add (d_add _ _) _) in *. clearbody e. clear A1 A2 A3 A4 A5 A6.
    destruct (log_power logf c t2 _ H H2) as (r & Er & Fr & Rr).
    { change (2 ^ 20)%Z with 1048576%Z. change (2 ^ 40)%Z with 1099511627776%Z. lia. }
    rewrite Er. cbn [bind wp]. split.
    + apply approx_ok; auto.
      * rewrite EE. split; [apply (IZR_le 1)|apply (IZR_le _ 18014398509481984)]; lia.
      * rewrite EE. exact Rr.
    + replace (Z.of_nat (S j)) with j1 by lia. unfold p in H2. rewrite (Z.mul_comm i1 small). exact H2.
  - intros [t ok] (-> & _). reflexivity.
Qed.
