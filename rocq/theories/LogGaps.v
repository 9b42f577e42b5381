(** No integer below 2^31 has a natural logarithm close to an integer. *)
From Coq Require Import ZArith Reals Lra Lia List.
From Flocq Require Import Core.
From Verif Require Import SpecDouble SpecLog BigIntLog LogReal SpecTestLog TestLogFacts TestLogFacts5.
Import ListNotations.
Open Scope R_scope.

Ltac Zify.zify_post_hook ::= idtac.

(** A number this far from two integers is clear of all of them. *)
Lemma clear_gap L (k : Z) : (0 <= k <= 21)%Z -> IZR k + / 2 ^ 40 <= L <= IZR k + 1 - / 2 ^ 40 -> clear L.
Proof.
  intros K B i. replace (2 ^ 40) with 1099511627776 in B by lra.
  assert (0 <= IZR k <= 21) as KR by (split; apply IZR_le; lia). assert (0 <= L <= 22) as LR by lra.
  apply Rlt_le_trans with (/ 1099511627776).
  - unfold margin. replace (2 ^ 52) with 4503599627370496 by lra.
    assert (L * (L + 64) <= 22 * 86) by (apply Rmult_le_compat; lra). lra.
  - destruct (Z.le_gt_cases i k) as [H|H].
    + apply IZR_le in H. rewrite Rabs_pos_eq by lra. lra.
    + assert (k + 1 <= i)%Z as H1 by lia. apply IZR_le in H1. rewrite plus_IZR in H1. rewrite Rabs_left1 by lra. lra.
Qed.

Lemma exp_1_close : 12242053029736145 / 4503599627370496 <= exp 1 <= 12242053029736147 / 4503599627370496.
Proof.
  pose proof e_nearest as E. apply Rabs_le_inv in E. replace (/ 2 ^ 52) with (/ 4503599627370496) in E by (f_equal; lra).
  assert (dbl_real DBL_E = 6121026514868073 / 2251799813685248) as V.
  { unfold dbl_real. change (dbl_signed DBL_E (dbl_significand DBL_E)) with 6121026514868073%Z.
    change (dbl_scale DBL_E) with (-51)%Z. change (powerRZ 2 (-51)) with (/ 2 ^ 51).
    replace (2 ^ 51) with 2251799813685248 by lra. lra. }
  rewrite V in E. lra.
Qed.

Lemma ln_exp_pow k : ln (exp 1 ^ k) = INR k.
Proof. rewrite ln_pow by apply exp_pos. rewrite ln_exp. ring. Qed.

(** [m] is below e^k and [m + 1] above, by a factor of 1 + 2^-39. *)
Definition gap (k m : Z) : bool :=
  ((12242053029736147 ^ k * (2 ^ 39 + 1) <=? (m + 1) * 2 ^ 39 * 4503599627370496 ^ k) &&
   ((m =? 1) || (m * (2 ^ 39 + 1) * 4503599627370496 ^ k <=? 12242053029736145 ^ k * 2 ^ 39)))%Z%bool.

Lemma pow_div a b k : b <> 0 -> (a / b) ^ k = a ^ k / b ^ k.
Proof. intros B. unfold Rdiv. now rewrite Rpow_mult_distr, pow_inv. Qed.

Lemma ln_1_plus : / 2 ^ 40 <= ln (1 + / 2 ^ 39).
Proof.
  replace (2 ^ 40) with 1099511627776 by lra. replace (2 ^ 39) with 549755813888 by lra.
  destruct (Rle_or_lt (/ 1099511627776) (ln (1 + / 549755813888))) as [H|H]; [exact H|exfalso].
  apply exp_increasing in H. rewrite exp_ln in H by lra.
  assert (exp (/ 1099511627776) <= / (1 - / 1099511627776)) as U.
  { pose proof (exp_ineq1_le (- / 1099511627776)) as E. rewrite exp_Ropp in E.
    apply Rinv_le_contravar in E; [|lra]. rewrite Rinv_inv in E. exact E. }
  assert (/ (1 - / 1099511627776) <= 1 + / 549755813888); [|lra].
  apply Rmult_le_reg_l with (1 - / 1099511627776); [lra|]. rewrite Rinv_r by lra. lra.
Qed.

Lemma gap_ok (k m : Z) : (0 <= k)%Z -> (1 <= m)%Z -> gap k m = true ->
  IZR k + / 2 ^ 40 <= ln (IZR (m + 1)) /\ (m <> 1%Z -> ln (IZR m) <= IZR k - / 2 ^ 40).
Proof.
  intros K M G. unfold gap in G. apply andb_prop in G as (G1 & G2). apply Z.leb_le in G1.
  assert (forall z, IZR (z ^ k) = IZR z ^ Z.to_nat k) as P by (intros z; rewrite <- (Z2Nat.id k K) at 1; now rewrite <- pow_IZR).
  assert (INR (Z.to_nat k) = IZR k) as Q by (now rewrite INR_IZR_INZ, Z2Nat.id).
  pose proof exp_1_close as (E1 & E2). pose proof ln_1_plus as L1.
  assert (0 < 4503599627370496 ^ Z.to_nat k) as PB by (apply pow_lt; lra).
  assert (0 < exp 1 ^ Z.to_nat k) as PE by (apply pow_lt, exp_pos).
  assert (1 <= IZR m) as MR by (apply IZR_le; exact M).
  split.
  - rewrite <- Q, <- ln_exp_pow. apply Rle_trans with (ln (exp 1 ^ Z.to_nat k) + ln (1 + / 2 ^ 39)); [lra|].
    assert (0 < 1 + / 2 ^ 39) by (replace (2 ^ 39) with 549755813888 by lra; lra).
    rewrite <- ln_mult by assumption. apply ln_le_mono; [now apply Rmult_lt_0_compat|].
    assert (exp 1 ^ Z.to_nat k <= (12242053029736147 / 4503599627370496) ^ Z.to_nat k) as U by (apply pow_incr; pose proof (exp_pos 1); lra).
    rewrite pow_div in U by lra.
    apply IZR_le in G1. change (2 ^ 39)%Z with 549755813888%Z in G1. rewrite !mult_IZR, !P in G1. rewrite (plus_IZR 549755813888 1) in G1.
    replace (2 ^ 39) with 549755813888 in * by lra.
    apply Rle_trans with (12242053029736147 ^ Z.to_nat k / 4503599627370496 ^ Z.to_nat k * (1 + / 549755813888)); [apply Rmult_le_compat_r; [lra|exact U]|].
    apply Rmult_le_reg_r with (4503599627370496 ^ Z.to_nat k); [exact PB|].
    unfold Rdiv. rewrite (Rmult_assoc _ (/ _)), (Rmult_comm (/ _)), Rmult_assoc, Rmult_assoc, Rinv_l by lra. lra.
  - intros M1. apply Bool.orb_prop in G2 as [G2|G2]; [apply Z.eqb_eq in G2; contradiction|]. apply Z.leb_le in G2.
    assert (ln (IZR m) + ln (1 + / 2 ^ 39) <= IZR k); [|lra].
    assert (0 < 1 + / 2 ^ 39) by (replace (2 ^ 39) with 549755813888 by lra; lra).
    rewrite <- ln_mult by (assumption || lra). rewrite <- Q, <- ln_exp_pow. apply ln_le_mono; [apply Rmult_lt_0_compat; lra|].
    assert ((12242053029736145 / 4503599627370496) ^ Z.to_nat k <= exp 1 ^ Z.to_nat k) as U by (apply pow_incr; lra).
    rewrite pow_div in U by lra.
    apply IZR_le in G2. change (2 ^ 39)%Z with 549755813888%Z in G2. rewrite !mult_IZR, !P in G2. rewrite (plus_IZR 549755813888 1) in G2.
    replace (2 ^ 39) with 549755813888 in * by lra.
    apply Rle_trans with (2 := U). apply Rmult_le_reg_r with (4503599627370496 ^ Z.to_nat k); [exact PB|].
    unfold Rdiv. rewrite (Rmult_assoc _ (/ _)), Rinv_l by lra. lra.
Qed.

(** The integer parts of the powers of e. *)
Definition powers_of_e : list Z :=
  [1; 2; 7; 20; 54; 148; 403; 1096; 2980; 8103; 22026; 59874; 162754; 442413; 1202604; 3269017; 8886110; 24154952;
   65659969; 178482300; 485165195; 1318815734; 3584912846]%Z.

Lemma gaps : forallb (fun i => gap (Z.of_nat i) (nth i powers_of_e 0)%Z) (seq 0 23) = true.
Proof. vm_compute. reflexivity. Qed.

Theorem clear_ln_small x : (2 <= x < 2 ^ 31)%Z -> clear (ln (IZR x)).
Proof.
  intros X. assert (exists i, (i < 22)%nat /\ (nth i powers_of_e 0 < x <= nth (S i) powers_of_e 0)%Z) as (i & I & B).
  { change (2 ^ 31)%Z with 2147483648%Z in X.
    assert (forall n, (nth 0 powers_of_e 0 < x)%Z -> (x <= nth n powers_of_e 0)%Z ->
      exists i, (i < n)%nat /\ (nth i powers_of_e 0 < x <= nth (S i) powers_of_e 0)%Z) as H.
    { induction n as [|n IH]; intros H0 Hn; [lia|].
      destruct (Z.le_gt_cases x (nth n powers_of_e 0%Z)) as [C|C].
      - destruct (IH H0 C) as (i & I & B). exists i. split; [lia|exact B].
      - exists n. split; [lia|]. split; [lia|exact Hn]. }
    apply (H 22%nat); cbn [nth powers_of_e]; lia. }
  pose proof (proj1 (forallb_forall _ _) gaps) as G. cbv beta in G.
  assert (forall j, (j < 23)%nat -> (1 <= nth j powers_of_e 0)%Z) as P1.
  { intros j J. do 23 (destruct j as [|j]; [cbn [nth powers_of_e]; lia|]). lia. }
  pose proof (G i ltac:(apply in_seq; lia)) as G1. pose proof (G (S i) ltac:(apply in_seq; lia)) as G2.
  destruct (gap_ok (Z.of_nat i) _ ltac:(lia) (P1 i ltac:(lia)) G1) as (L1 & _).
  destruct (gap_ok (Z.of_nat (S i)) _ ltac:(lia) (P1 (S i) ltac:(lia)) G2) as (_ & L2).
  pose proof (P1 i ltac:(lia)) as PI.
  apply (clear_gap _ (Z.of_nat i)); [lia|]. split.
  - apply Rle_trans with (1 := L1). apply ln_le_mono; [apply IZR_lt; lia|apply IZR_le; lia].
  - apply Rle_trans with (ln (IZR (nth (S i) powers_of_e 0%Z))); [apply ln_le_mono; [apply IZR_lt; lia|apply IZR_le; lia]|].
    rewrite Nat2Z.inj_succ, succ_IZR in L2. apply L2. lia.
Qed.
