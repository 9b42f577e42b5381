(** Proofs about log over the real numbers. *)
From Coq Require Import ZArith Reals Lra Lia.
From Verif Require Import Machine Spec SpecApi BigInt SpecDouble SpecLog BigIntLog LogFacts.
Open Scope R_scope.

Lemma pow2_powerRZ k : (0 <= k)%Z -> IZR (2 ^ k) = powerRZ 2 k.
Proof.
  intros Hk. rewrite <- (Z2Nat.id k Hk). rewrite <- pow_IZR, pow_powerRZ. reflexivity.
Qed.

Lemma ln_pow2 k : (0 <= k)%Z -> ln (IZR (2 ^ k)) = IZR k * ln 2.
Proof.
  intros Hk. rewrite <- (Z2Nat.id k Hk) at 1. rewrite <- pow_IZR, ln_pow by lra.
  now rewrite INR_IZR_INZ, Z2Nat.id.
Qed.

Lemma ln_lt_bound y d : 0 <= d -> y = 1 + d -> 0 <= ln y <= d.
Proof.
  intros Hd ->. split.
  - destruct Hd as [Hd|<-]; [|rewrite Rplus_0_r, ln_1; lra]. rewrite <- ln_1. left. apply ln_increasing; lra.
  - destruct Hd as [Hd|<-]; [|rewrite Rplus_0_r, ln_1; lra].
    left. apply exp_lt_inv. rewrite exp_ln by lra. apply exp_ineq1. lra.
Qed.

(** x and m * 2^k are close, so are their logarithms. *)
Lemma ln_split (x m k : Z) :
  (0 < x)%Z -> (2 ^ 63 <= m)%Z ->
  (0 <= x * 2 ^ Z.max 0 (- k) - m * 2 ^ Z.max 0 k)%Z ->
  ((x * 2 ^ Z.max 0 (- k) - m * 2 ^ Z.max 0 k) * 2 ^ 63 < x * 2 ^ Z.max 0 (- k))%Z ->
  0 <= ln (IZR x) - (ln (IZR m) + IZR k * ln 2) <= / 2 ^ 62.
Proof.
  intros Hx Hm H1 H2.
  pose proof (Z.pow_pos_nonneg 2 (Z.max 0 (- k)) ltac:(lia) ltac:(lia)) as P1.
  pose proof (Z.pow_pos_nonneg 2 (Z.max 0 k) ltac:(lia) ltac:(lia)) as P2.
  assert (ln (IZR (2 ^ Z.max 0 k)) - ln (IZR (2 ^ Z.max 0 (- k))) = IZR k * ln 2) as EK.
  { rewrite !ln_pow2 by lia. rewrite <- Rmult_minus_distr_r, <- minus_IZR. f_equal. f_equal. lia. }
  set (A := (2 ^ Z.max 0 (- k))%Z) in *. set (B := (2 ^ Z.max 0 k)%Z) in *. clearbody A B.
  assert (0 < m)%Z as Hm0 by lia.
  pose proof (IZR_lt 0 x Hx) as RX. pose proof (IZR_lt 0 m Hm0) as RM.
  pose proof (IZR_lt 0 A P1) as RA. pose proof (IZR_lt 0 B P2) as RB.
  assert (ln (IZR x) - (ln (IZR m) + IZR k * ln 2) = ln (IZR (x * A) / IZR (m * B))) as ->.
  { rewrite <- EK. unfold Rdiv. rewrite !mult_IZR. rewrite ln_mult, ln_Rinv, !ln_mult; try assumption; try lra;
      try (apply Rinv_0_lt_compat); apply Rmult_lt_0_compat; assumption. }
  set (p := (x * A)%Z) in *. set (q := (m * B)%Z) in *.
  assert (0 < q)%Z as Hq by (apply Z.mul_pos_pos; lia). pose proof (IZR_lt 0 q Hq) as RQ.
  assert ((p - q) * 2 ^ 62 <= q)%Z as H3.
  { change (2 ^ 63)%Z with 9223372036854775808%Z in H2. change (2 ^ 62)%Z with 4611686018427387904%Z. lia. }
  destruct (ln_lt_bound (IZR p / IZR q) (IZR (p - q) / IZR q)) as (L1 & L2).
  - apply Rmult_le_pos; [now apply (IZR_le 0)|]. left. now apply Rinv_0_lt_compat.
  - rewrite minus_IZR. field. lra.
  - split; [exact L1|]. apply Rle_trans with (1 := L2).
    apply IZR_le in H3. rewrite mult_IZR in H3. change (2 ^ 62)%Z with 4611686018427387904%Z in H3.
    apply Rmult_le_reg_r with (IZR q); [exact RQ|]. unfold Rdiv. rewrite Rmult_assoc, Rinv_l, Rmult_1_r by lra.
    replace (/ 2 ^ 62) with (/ 4611686018427387904) by (f_equal; lra). lra.
Qed.

Lemma regular_of_real base :
  dbl_pattern base -> dbl_finite base -> 0 < dbl_real base -> dbl_real base <> 1 -> dbl_regular_base base.
Proof.
  intros P F H1 H2. split; [exact P|]. split; [exact F|]. split.
  - intros E. unfold dbl_real, dbl_signed in H1. rewrite E in H1. change (- 0)%Z with 0%Z in H1.
    destruct (dbl_negative base); rewrite Rmult_0_l in H1; lra.
  - intros E. apply H2. subst base. unfold dbl_real.
    change (dbl_signed (1023 * 2 ^ 52) (dbl_significand (1023 * 2 ^ 52))) with (2 ^ 52)%Z.
    change (dbl_scale (1023 * 2 ^ 52)) with (- 52)%Z. rewrite pow2_powerRZ by lia.
    rewrite <- powerRZ_add by lra. reflexivity.
Qed.

Theorem log_real c b x n base :
  represents b x -> (1 <= x)%Z -> limb_count x n -> (n <= 2 ^ 57)%Z ->
  dbl_pattern base -> dbl_finite base -> 0 < dbl_real base -> dbl_real base <> 1 ->
  exists e v, bi_log c b base = Ret e /\ log_value e v /\
    Rabs (v - ln (IZR x) / ln (dbl_real base)) <= / 2 ^ 62 / Rabs (ln (dbl_real base)).
Proof.
  intros Hb Hx Hn Hn2 P F B0 B1. pose proof (regular_of_real base P F B0 B1) as HR.
  assert (ln (dbl_real base) <> 0) as L0.
  { rewrite <- ln_1. intros E. apply B1. apply ln_inv; lra. }
  assert (0 < / 2 ^ 62) as I62 by (apply Rinv_0_lt_compat; apply pow_lt; lra).
  destruct (Z.lt_ge_cases x (2 ^ 31)) as [Hs|Hs].
  - exists (LRatio x base), (ln (IZR x) / ln (dbl_real base)). split; [apply log_small; auto; lia|].
    split; [constructor|]. rewrite Rminus_diag_eq, Rabs_R0 by reflexivity.
    apply Rmult_le_pos; [lra|]. left. apply Rinv_0_lt_compat. now apply Rabs_pos_lt.
  - destruct (log_split c b x n base Hb ltac:(lia) Hn Hn2 HR) as (m & k & E & Hm & S1 & S2).
    destruct (ln_split x m k ltac:(lia) ltac:(lia) S1 S2) as (B2 & B3).
    eexists. exists (ln (IZR m) / ln (dbl_real base) + IZR k / (ln (dbl_real base) / ln 2)).
    split; [exact E|]. split; [constructor; constructor|].
    assert (0 < ln 2) as L2 by (rewrite <- ln_1; apply ln_increasing; lra).
    replace (ln (IZR m) / ln (dbl_real base) + IZR k / (ln (dbl_real base) / ln 2) - ln (IZR x) / ln (dbl_real base))
      with (- (ln (IZR x) - (ln (IZR m) + IZR k * ln 2)) / ln (dbl_real base)) by (field; split; lra).
    unfold Rdiv. rewrite Rabs_mult, Rabs_inv, Rabs_Ropp, (Rabs_pos_eq _ B2).
    apply Rmult_le_compat_r; [|exact B3]. left. apply Rinv_0_lt_compat. now apply Rabs_pos_lt.
Qed.

(** ** The base of natural logarithms *)

Fixpoint zfact (n : nat) : Z := match n with O => 1 | S m => Z.of_nat n * zfact m end%Z.
Fixpoint zalt (n : nat) : Z :=
  match n with O => 1 | S m => Z.of_nat n * zalt m + (if Nat.even n then 1 else -1) end%Z.

Lemma zfact_pos n : (0 < zfact n)%Z.
Proof. induction n; cbn [zfact]; [lia|]. apply Z.mul_pos_pos; lia. Qed.

Lemma fact_zfact n : INR (fact n) = IZR (zfact n).
Proof.
  induction n as [|n IH]; [reflexivity|]. change (fact (S n)) with (S n * fact n)%nat.
  rewrite mult_INR, IH, INR_IZR_INZ, <- mult_IZR. reflexivity.
Qed.

Lemma alt_sign n : (-1) ^ n = IZR (if Nat.even n then 1 else -1).
Proof.
  induction n as [|n IH]; [reflexivity|]. rewrite Nat.even_succ, <- Nat.negb_even. cbn [pow]. rewrite IH.
  destruct (Nat.even n); cbn [negb]; lra.
Qed.

Definition inv_fact (i : nat) : R := / INR (fact i).

Lemma alt_sum n : sum_f_R0 (tg_alt inv_fact) n = IZR (zalt n) / IZR (zfact n).
Proof.
  induction n as [|n IH].
  - unfold tg_alt, inv_fact. cbn. lra.
  - cbn [sum_f_R0]. rewrite IH. unfold tg_alt, inv_fact. rewrite alt_sign, fact_zfact.
    cbn [zalt zfact]. rewrite plus_IZR, !mult_IZR.
    pose proof (IZR_lt 0 _ (zfact_pos n)). assert (0 < IZR (Z.of_nat (S n))) by (apply (IZR_lt 0); lia).
    field. lra.
Qed.

Lemma exp_minus_one_bounds N :
  IZR (zalt (S (2 * N))) / IZR (zfact (S (2 * N))) <= exp (-1) <= IZR (zalt (2 * N)) / IZR (zfact (2 * N)).
Proof.
  rewrite <- !alt_sum. apply alternated_series_ineq.
  - intros n. unfold inv_fact. apply Rinv_le_contravar; [apply INR_fact_lt_0|].
    apply le_INR. apply fact_le. lia.
  - intros eps He. destruct (cv_speed_pow_fact 1 eps He) as (M & HM). exists M. intros n Hn.
    specialize (HM n Hn). rewrite pow1 in HM. unfold Rdiv in HM. rewrite Rmult_1_l in HM. exact HM.
  - pose proof (proj2_sig (exist_exp (-1))) as H. unfold exp_in, infinite_sum in H.
    intros eps He. destruct (H eps He) as (M & HM). exists M. intros n Hn. specialize (HM n Hn).
    unfold exp. rewrite (sum_eq _ (fun i => / INR (fact i) * (-1) ^ i)); [exact HM|].
    intros i _. unfold tg_alt, inv_fact. ring.
Qed.

Lemma e_nearest : Rabs (dbl_real DBL_E - exp 1) <= / 2 ^ 52.
Proof.
  destruct (exp_minus_one_bounds 10) as (L & U).
  assert (exp 1 = / exp (-1)) as -> by (rewrite <- exp_Ropp; f_equal; lra).
  set (t := exp (-1)) in *.
  assert (IZR (zalt (S (2 * 10))) / IZR (zfact (S (2 * 10))) = 18795307255050944540 / 51090942171709440000) as E1
    by (vm_compute (zalt _); vm_compute (zfact _); reflexivity).
  assert (IZR (zalt (2 * 10)) / IZR (zfact (2 * 10)) = 895014631192902121 / 2432902008176640000) as E2
    by (vm_compute (zalt _); vm_compute (zfact _); reflexivity).
  rewrite E1 in L. rewrite E2 in U. clear E1 E2. clearbody t.
  assert (0 < t) as T by lra.
  assert (dbl_real DBL_E = 6121026514868073 / 2251799813685248) as ->.
  { unfold dbl_real. change (dbl_signed DBL_E (dbl_significand DBL_E)) with 6121026514868073%Z.
    change (dbl_scale DBL_E) with (-51)%Z. change (powerRZ 2 (-51)) with (/ 2 ^ 51).
    replace (2 ^ 51) with 2251799813685248 by lra. reflexivity. }
  replace (/ 2 ^ 52) with (/ 4503599627370496) by (f_equal; lra).
  apply Rabs_le. split.
  - apply Rmult_le_reg_r with t; [exact T|]. rewrite Rmult_minus_distr_r, Rinv_l by lra. lra.
  - apply Rmult_le_reg_r with t; [exact T|]. rewrite Rmult_minus_distr_r, Rinv_l by lra. lra.
Qed.

Lemma ten_real : dbl_real DBL_TEN = 10.
Proof.
  unfold dbl_real. change (dbl_signed DBL_TEN (dbl_significand DBL_TEN)) with 5629499534213120%Z.
  change (dbl_scale DBL_TEN) with (-49)%Z. change (powerRZ 2 (-49)) with (/ 2 ^ 49).
  replace (2 ^ 49) with 562949953421312 by lra. lra.
Qed.

(** log(v) and log10(v) use the doubles nearest e and equal to 10. *)
Theorem log_bases :
  (exists d, dbl_pattern d /\ dbl_finite d /\ Rabs (dbl_real d - exp 1) <= / 2 ^ 52 /\ forall c v, bi_ln c v = bi_log c v d) /\
  (exists d, dbl_pattern d /\ dbl_finite d /\ dbl_real d = 10 /\ forall c v, bi_log10 c v = bi_log c v d).
Proof.
  split; [exists DBL_E|exists DBL_TEN]; (split; [split; [discriminate|reflexivity]|]); (split; [discriminate|]); split.
  - exact e_nearest.
  - reflexivity.
  - exact ten_real.
  - reflexivity.
Qed.
