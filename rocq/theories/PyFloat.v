(** Conversion of BigIntegers to Python floats. *)
From Coq Require Import ZArith Lia.
From Verif Require Import Machine Spec SpecDouble SpecFloat SpecPy PyBind Facts DoubleFacts FloatFacts PyFacts.
Open Scope Z_scope.
Ltac Zify.zify_post_hook ::= idtac.

Lemma dbl_of_exact z : Z.abs z < 2 ^ 1024 -> (2 ^ Z.max 0 (Z.log2 (Z.abs z) - 52) | z) -> dbl_exact (dbl_of z) z.
Proof.
  intros B D. unfold dbl_of. destruct (Z.eqb_spec z 0) as [->|N].
  { split; [unfold dbl_pattern; lia|]. split; [discriminate|reflexivity]. }
  cbv zeta. pose proof (Z.log2_spec (Z.abs z) ltac:(lia)) as L. pose proof (Z.log2_nonneg (Z.abs z)) as L0.
  assert (Z.log2 (Z.abs z) < 1024) as L1 by (apply Z.log2_lt_pow2; lia).
  apply Z.divide_abs_r in D. destruct D as (w & D).
  assert (z = if z <? 0 then - Z.abs z else Z.abs z) as Ez by (destruct (Z.ltb_spec z 0); lia).
  set (neg := z <? 0) in *. set (a := Z.abs z) in *. assert (0 < a) as A0 by (unfold a; lia). clearbody neg a.
  set (l := Z.log2 a) in *. rewrite Ez. clearbody l. clear Ez N z.
  assert (exists sig, a * 2 ^ Z.max 0 (52 - l) / 2 ^ Z.max 0 (l - 52) = sig /\ 2 ^ 52 <= sig < 2 ^ 53 /\
    sig * 2 ^ Z.max 0 (l - 52) = a * 2 ^ Z.max 0 (52 - l)) as (sig & -> & S1 & S2).
  { destruct (Z.le_gt_cases l 52) as [C|C].
    - rewrite (Z.max_r 0 (52 - l)), (Z.max_l 0 (l - 52)) by lia. change (2 ^ 0) with 1. rewrite Z.div_1_r.
      exists (a * 2 ^ (52 - l)). split; [reflexivity|]. split; [|ring].
      assert (2 ^ 52 = 2 ^ l * 2 ^ (52 - l)) as E1 by (rewrite <- Z.pow_add_r by lia; f_equal; lia).
      assert (2 ^ 53 = 2 ^ Z.succ l * 2 ^ (52 - l)) as E2 by (rewrite <- Z.pow_add_r by lia; f_equal; lia).
      pose proof (pow2_pos (52 - l) ltac:(lia)) as P. rewrite E1, E2.
      split; [apply Z.mul_le_mono_nonneg_r; lia|apply Z.mul_lt_mono_pos_r; lia].
    - rewrite (Z.max_l 0 (52 - l)) by lia. rewrite (Z.max_r 0 (l - 52)) in * by lia. change (2 ^ 0) with 1. rewrite Z.mul_1_r.
      pose proof (pow2_pos (l - 52) ltac:(lia)) as P. exists w. rewrite D, Z.div_mul by lia. split; [reflexivity|]. split; [|reflexivity].
      assert (2 ^ l = 2 ^ 52 * 2 ^ (l - 52)) as E1 by (rewrite <- Z.pow_add_r by lia; f_equal; lia).
      assert (2 ^ Z.succ l = 2 ^ 53 * 2 ^ (l - 52)) as E2 by (rewrite <- Z.pow_add_r by lia; f_equal; lia).
      rewrite D, E1, E2 in L. destruct L as (L2 & L3).
      split; [now apply Z.mul_le_mono_pos_r in L2|now apply Z.mul_lt_mono_pos_r in L3]. }
  apply built_exact; [exact S1|lia|].
  replace (l + 1023 - 1075) with (l - 52) by ring. replace (1075 - (l + 1023)) with (52 - l) by ring.
  destruct neg; [rewrite !Z.mul_opp_l|]; lia.
Qed.

(** [round_even p x] in terms of the leading bits of [x]. *)
Lemma round_even_shape p x : 0 < p -> x <> 0 ->
  let k := Z.max 0 (Z.log2 (Z.abs x) + 1 - p) in
  exists w, Z.abs (round_even p x) = w * 2 ^ k /\ 0 < w <= 2 ^ p /\ 2 ^ Z.log2 (Z.abs x) <= w * 2 ^ k.
Proof.
  intros Hp Hx k. rewrite round_even_rnd. cbv zeta. fold k.
  pose proof (Z.log2_spec (Z.abs x) ltac:(lia)) as LS. set (a := Z.abs x) in *. assert (0 < a) as A0 by lia.
  pose proof (pow2_pos k ltac:(lia)) as PK. pose proof (Z.log2_nonneg a) as L0.
  pose proof (Z.div_mod a (2 ^ k) ltac:(lia)) as D. pose proof (Z.mod_pos_bound a (2 ^ k) PK) as MB.
  set (q := a / 2 ^ k) in *. set (r := a mod 2 ^ k) in *.
  exists (rnd q r (2 ^ k)).
  assert (0 < q) as Q0.
  { destruct (Z.le_gt_cases q 0) as [G|]; [exfalso|assumption].
    assert (2 ^ k * q <= 0) by (apply Z.mul_nonneg_nonpos; lia).
    assert (2 ^ k <= 2 ^ Z.log2 a) by (apply Z.pow_le_mono_r; lia). lia. }
  assert (q < 2 ^ p) as QP.
  { unfold q. apply Z.div_lt_upper_bound; [lia|]. rewrite <- Z.pow_add_r by lia.
    eapply Z.lt_le_trans; [apply LS|]. apply Z.pow_le_mono_r; lia. }
  assert (q <= rnd q r (2 ^ k) <= q + 1) as RB.
  { unfold rnd. pose proof (Z.mod_pos_bound q 2 ltac:(lia)). destruct (2 * r <? 2 ^ k), (2 ^ k <? 2 * r); lia. }
  split; [|split; [lia|]].
  - rewrite Z.abs_mul. assert (0 <= rnd q r (2 ^ k) * 2 ^ k) by (apply Z.mul_nonneg_nonneg; lia). rewrite (Z.abs_eq (_ * _)) by lia.
    replace (Z.abs (Z.sgn x)) with 1 by (destruct x; [contradiction|reflexivity|reflexivity]). ring.
  - assert (2 ^ Z.log2 a <= q * 2 ^ k) as G.
    { destruct (Z.le_gt_cases (Z.log2 a + 1 - p) 0) as [C|C].
      - assert (k = 0) as K0 by lia. unfold r in *. rewrite K0 in *. change (2 ^ 0) with 1 in *. lia.
      - assert (2 ^ Z.log2 a = 2 ^ (p - 1) * 2 ^ k) as E by (rewrite <- Z.pow_add_r by lia; f_equal; lia).
        rewrite E. apply Z.mul_le_mono_nonneg_r; [lia|]. unfold q. apply Z.div_le_lower_bound; [lia|]. lia. }
    assert (q * 2 ^ k <= rnd q r (2 ^ k) * 2 ^ k) by (apply Z.mul_le_mono_nonneg_r; lia). lia.
Qed.

Lemma round_even_divides x : (2 ^ Z.max 0 (Z.log2 (Z.abs (round_even 53 x)) - 52) | round_even 53 x).
Proof.
  destruct (Z.eq_dec x 0) as [->|N]; [change (round_even 53 0) with 0; apply Z.divide_0_r|].
  destruct (round_even_shape 53 x ltac:(lia) N) as (w & E & W & G). cbv zeta in *.
  set (k := Z.max 0 (Z.log2 (Z.abs x) + 1 - 53)) in *. pose proof (pow2_pos k ltac:(lia)) as PK.
  apply Z.divide_abs_r. rewrite E. clear E.
  destruct (Z.eq_dec w (2 ^ 53)) as [->|NW].
  - rewrite <- Z.pow_add_r by lia. rewrite Z.log2_pow2 by lia. replace (Z.max 0 (53 + k - 52)) with (k + 1) by lia.
    exists (2 ^ 52). rewrite <- Z.pow_add_r by lia. f_equal. lia.
  - assert (Z.log2 (w * 2 ^ k) <= 52 + k).
    { rewrite Z.log2_mul_pow2 by lia. assert (Z.log2 w < 53) by (apply Z.log2_lt_pow2; lia). lia. }
    set (j := Z.max 0 (Z.log2 (w * 2 ^ k) - 52)) in *. exists (w * 2 ^ (k - j)).
    rewrite <- Z.mul_assoc, <- Z.pow_add_r by lia. do 2 f_equal. lia.
Qed.

(** The threshold of overflow. *)
Lemma round_even_bound x : Z.abs x < 2 ^ 1024 - 2 ^ 970 <-> Z.abs (round_even 53 x) < 2 ^ 1024.
Proof.
  assert (0 < 2 ^ 970) as P970 by reflexivity.
  assert (2 ^ 1024 = (2 ^ 53 * 2) * 2 ^ 970) as E1024 by reflexivity.
  assert (2 ^ 971 = 2 * 2 ^ 970) as E971 by reflexivity.
  assert (forall m, Z.abs m < 2 ^ 53 -> Z.abs (x - round_even 53 x) <= Z.abs (x - m * 2 ^ 971)) as NR.
  { intros m Hm. apply round_even_nearest; lia. }
  assert (x = 0 \/ Z.sgn (round_even 53 x) = Z.sgn x) as SG.
  { destruct (Z.eq_dec x 0); [now left|right]. now apply round_sign. }
  split; intros H.
  - destruct (Z.lt_ge_cases (Z.abs (round_even 53 x)) (2 ^ 1024)) as [|K]; [assumption|exfalso].
    destruct SG as [-> |SG]; [change (Z.abs (round_even 53 0)) with 0 in K; lia|].
    destruct (Z.lt_trichotomy x 0) as [G|[G|G]].
    + pose proof (NR (- (2 ^ 53 - 1)) ltac:(lia)). rewrite (Z.sgn_neg x G) in SG. apply Z.sgn_neg_iff in SG. lia.
    + subst x. change (Z.abs (round_even 53 0)) with 0 in K. lia.
    + pose proof (NR (2 ^ 53 - 1) ltac:(lia)). rewrite (Z.sgn_pos x G) in SG. apply Z.sgn_pos_iff in SG. lia.
  - destruct (Z.lt_ge_cases (Z.abs x) (2 ^ 1024 - 2 ^ 970)) as [|K]; [assumption|exfalso].
    assert (x <> 0) as N by (intros ->; change (Z.abs 0) with 0 in K; lia).
    assert (1023 <= Z.log2 (Z.abs x)) as L.
    { apply Z.log2_le_pow2; [lia|]. assert (2 ^ 1023 <= 2 ^ 1024 - 2 ^ 970) by (vm_compute; discriminate). lia. }
    rewrite round_even_rnd in H. cbv zeta in H. rewrite Z.abs_mul in H.
    replace (Z.abs (Z.sgn x)) with 1 in H by (destruct x; [contradiction|reflexivity|reflexivity]). rewrite Z.mul_1_l in H.
    destruct (Z.eq_dec (Z.log2 (Z.abs x)) 1023) as [E|E].
    + rewrite E in H. change (Z.max 0 (1023 + 1 - 53)) with 971 in H.
      pose proof (Z.div_mod (Z.abs x) (2 ^ 971) ltac:(lia)) as D. pose proof (Z.mod_pos_bound (Z.abs x) (2 ^ 971) ltac:(lia)) as MB.
      set (q := Z.abs x / 2 ^ 971) in *. set (r := Z.abs x mod 2 ^ 971) in *.
      assert (Z.abs x < 2 ^ 1024) as B by (apply Z.log2_lt_pow2; lia).
      assert (q < 2 ^ 53) as Q1.
      { apply Z.div_lt_upper_bound; [lia|]. lia. }
      assert (2 ^ 53 - 1 <= q) as Q2.
      { apply Z.div_le_lower_bound; [lia|]. lia. }
      assert (q = 2 ^ 53 - 1) as EQ by lia.
      assert (2 ^ 971 <= 2 * r) as HR by lia.
      assert (rnd q r (2 ^ 971) = 2 ^ 53) as ER.
      { unfold rnd. rewrite (proj2 (Z.ltb_ge _ _)) by lia. destruct (2 ^ 971 <? 2 * r); [lia|]. rewrite EQ. reflexivity. }
      rewrite ER in H. vm_compute in H. discriminate H.
    + destruct (round_even_shape 53 x ltac:(lia) N) as (w & E1 & W & G). cbv zeta in *.
      rewrite round_even_rnd in E1. cbv zeta in E1. rewrite Z.abs_mul in E1.
      replace (Z.abs (Z.sgn x)) with 1 in E1 by (destruct x; [contradiction|reflexivity|reflexivity]). rewrite Z.mul_1_l in E1.
      assert (2 ^ 1024 <= 2 ^ Z.log2 (Z.abs x)) by (apply Z.pow_le_mono_r; lia). lia.
Qed.

Lemma py_float_rounds c a x : represents a x -> Z.abs x < 2 ^ 1024 - 2 ^ 970 ->
  exists d, py_float c a = Ret d /\ dbl_exact d (round_even 53 x) /\ (x = 0 -> d = 0).
Proof.
  intros Ha Hx. unfold py_float. rewrite (to_py_returns c a x Ha). cbn [bind]. unfold py_int_float. cbv zeta.
  apply round_even_bound in Hx. rewrite (proj2 (Z.leb_gt _ _)) by exact Hx.
  eexists. split; [reflexivity|]. split; [apply dbl_of_exact; [exact Hx|apply round_even_divides]|intros ->; reflexivity].
Qed.

Lemma py_float_overflow c a x : represents a x -> 2 ^ 1024 - 2 ^ 970 <= Z.abs x -> py_float c a = Throw OverflowError.
Proof.
  intros Ha Hx. unfold py_float. rewrite (to_py_returns c a x Ha). cbn [bind]. unfold py_int_float. cbv zeta.
  rewrite (proj2 (Z.leb_le _ _)); [reflexivity|].
  destruct (Z.le_gt_cases (2 ^ 1024) (Z.abs (round_even 53 x))) as [|G]; [assumption|]. apply round_even_bound in G. lia.
Qed.

(** Integers of at most 53 bits are converted exactly, and as operator double does. *)
Lemma round_even_small p x : 0 < p -> Z.abs x < 2 ^ p -> round_even p x = x.
Proof.
  intros Hp Hx. rewrite round_even_rnd. cbv zeta. destruct (Z.eq_dec x 0) as [->|N]; [reflexivity|].
  assert (Z.log2 (Z.abs x) < p) by (apply Z.log2_lt_pow2; lia). rewrite Z.max_l by lia. change (2 ^ 0) with 1.
  rewrite Z.div_1_r, Z.mod_1_r. unfold rnd. change (2 * 0 <? 1) with true. cbv iota. destruct x; cbn; lia.
Qed.

(** operator double truncates, float() rounds: the same double only if rounding
    is down. *)
Lemma py_float_double c a x : represents a x -> Z.abs x < 2 ^ 1024 - 2 ^ 970 ->
  (py_float c a = BigIntDouble.bi_to_double c a <-> round_even 53 x = trunc53 x).
Proof.
  intros Ha Hx. destruct (py_float_rounds c a x Ha Hx) as (d & E & D & Z1).
  destruct (to_double_finite c a x Ha) as (d' & E' & D' & Z2).
  { assert (0 < 2 ^ 970) by reflexivity. lia. }
  rewrite E, E'. split; intros H.
  - inversion H; subst d'. apply exact_trunc in D, D'. congruence.
  - f_equal. destruct (Z.eq_dec x 0) as [G|N]; [now rewrite Z1, Z2|].
    rewrite H in D. apply (dbl_exact_unique _ _ _ D D'). intros T. apply N, trunc53_zero, T.
Qed.
