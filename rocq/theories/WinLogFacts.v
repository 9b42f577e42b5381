From Coq Require Import ZArith Lia Reals.
From Verif Require Import Machine Facts WordFacts Spec SpecDouble BigInt BigIntDouble DoubleFacts WinBigInt
  BigIntLog LogFacts BigIntLogDouble SpecLogDouble LogDoubleFacts WinLog.
Open Scope Z_scope.
Ltac Zify.zify_post_hook ::= idtac.

(** The three tests of the LP64 build. *)
Theorem is_finite_spec d : dbl_pattern d -> double_is_finite d = true <-> dbl_finite d.
Proof.
  intros H. rewrite (finite_test d H), Bool.negb_true_iff, Z.eqb_neq. reflexivity.
Qed.

Lemma frac_range d : 0 <= dbl_frac d < 2 ^ 52.
Proof. apply Z.mod_pos_bound. reflexivity. Qed.
Lemma exp_range d : 0 <= dbl_exp d < 2048.
Proof. apply (Z.mod_pos_bound _ (2 ^ 11)). reflexivity. Qed.

Theorem is_nan_spec d : dbl_pattern d ->
  double_is_nan d = true <-> dbl_exp d = 2047 /\ dbl_frac d <> 0.
Proof.
  intros H. unfold double_is_nan. rewrite (abs_mask d H), Z.ltb_lt.
  pose proof (frac_range d). pose proof (exp_range d).
  unfold DBL_EXP_MASK. change (2 ^ 52) with 4503599627370496 in *. lia.
Qed.

Theorem is_infinity_spec d : dbl_pattern d ->
  double_is_infinity d = true <-> d = plus_infinity \/ d = minus_infinity.
Proof.
  intros H. unfold double_is_infinity. rewrite (abs_mask d H), Z.eqb_eq.
  pose proof (frac_range d). pose proof (exp_range d).
  split.
  - intros E. assert (X : dbl_exp d = 2047 /\ dbl_frac d = 0).
    { unfold DBL_EXP_MASK in E. change (2 ^ 52) with 4503599627370496 in *. lia. }
    destruct X as [X1 X2]. pose proof (pattern_infinite d H X1 X2) as Y.
    destruct (dbl_negative d); auto.
  - intros [-> | ->]; reflexivity.
Qed.

(** The tests of the LLP64 build look at bit 31 only. *)
Lemma low_half_mask d :
  Z.land (s32 d) DBL_ABS_MASK = if d mod 2 ^ 32 <? 2 ^ 31 then d mod 2 ^ 32 else 2 ^ 63 - 2 ^ 32 + d mod 2 ^ 32.
Proof.
  change DBL_ABS_MASK with (Z.ones 63). rewrite Z.land_ones by discriminate.
  assert (E : s32 d = if d mod 2 ^ 32 <? 2 ^ 31 then d mod 2 ^ 32 else d mod 2 ^ 32 - 2 ^ 32) by reflexivity.
  rewrite E. pose proof (Z.mod_pos_bound d (2 ^ 32) eq_refl).
  destruct (Z.ltb_spec (d mod 2 ^ 32) (2 ^ 31)) as [L|L].
  - apply Z.mod_small. change (2 ^ 31) with 2147483648 in *. change (2 ^ 63) with 9223372036854775808. lia.
  - symmetry. apply (Z.mod_unique _ _ (-1)).
    + left. change (2 ^ 31) with 2147483648 in *. change (2 ^ 32) with 4294967296 in *.
      change (2 ^ 63) with 9223372036854775808. lia.
    + change (2 ^ 32) with 4294967296. change (2 ^ 63) with 9223372036854775808. lia.
Qed.

Theorem is_finite_win d : double_is_finite_w d = (d mod 2 ^ 32 <? 2 ^ 31).
Proof.
  unfold double_is_finite_w. rewrite low_half_mask. pose proof (Z.mod_pos_bound d (2 ^ 32) eq_refl).
  change (2 ^ 31) with 2147483648 in *. change (2 ^ 32) with 4294967296 in *.
  change (2 ^ 63) with 9223372036854775808. unfold DBL_EXP_MASK.
  destruct (Z.ltb_spec (d mod 4294967296) 2147483648); [apply Z.ltb_lt|apply Z.ltb_ge]; lia.
Qed.
Theorem is_nan_win d : double_is_nan_w d = negb (d mod 2 ^ 32 <? 2 ^ 31).
Proof.
  unfold double_is_nan_w. rewrite low_half_mask. pose proof (Z.mod_pos_bound d (2 ^ 32) eq_refl).
  change (2 ^ 31) with 2147483648 in *. change (2 ^ 32) with 4294967296 in *.
  change (2 ^ 63) with 9223372036854775808. unfold DBL_EXP_MASK.
  destruct (Z.ltb_spec (d mod 4294967296) 2147483648); [apply Z.ltb_ge|apply Z.ltb_lt]; lia.
Qed.
Theorem is_infinity_win d : double_is_infinity_w d = false.
Proof.
  unfold double_is_infinity_w. rewrite low_half_mask. pose proof (Z.mod_pos_bound d (2 ^ 32) eq_refl).
  change (2 ^ 31) with 2147483648 in *. change (2 ^ 32) with 4294967296 in *.
  change (2 ^ 63) with 9223372036854775808. unfold DBL_EXP_MASK. apply Z.eqb_neq.
  destruct (Z.ltb_spec (d mod 4294967296) 2147483648); lia.
Qed.

(** log: the test it gets wrong is asked about minus infinity only. *)
Lemma wrapper_win a base : dbl_pattern base -> base <> plus_infinity -> base <> minus_infinity ->
  log_wrapper_w a base = log_wrapper a base.
Proof.
  intros H P M. unfold log_wrapper_w, log_wrapper. rewrite is_infinity_win.
  destruct (double_is_infinity base) eqn:E; [|reflexivity].
  apply is_infinity_spec in E; [|exact H]. tauto.
Qed.

Lemma wrapper_minus a logf : libm_log logf ->
  log_eval logf (log_wrapper_w a minus_infinity) = B754_nan /\
  log_eval logf (log_wrapper a minus_infinity) = B754_nan.
Proof.
  intros L.
  assert (R : log_eval logf (LRatio a minus_infinity) = B754_nan).
  { cbn [log_eval]. change (bits_double minus_infinity) with (B754_infinity true : double).
    rewrite (log_of_minus_infinity _ L). apply div_nan_r. }
  unfold log_wrapper_w, log_wrapper. rewrite is_infinity_win.
  change (double_is_nan minus_infinity) with false. change (minus_infinity =? DBL_ONE) with false.
  change (dbl_is_zero minus_infinity) with false. cbn [orb]. rewrite Bool.andb_false_r.
  split; [exact R|]. destruct (_ && _)%bool; [reflexivity|exact R].
Qed.

Theorem log_win logf c b base : libm_log logf -> dbl_pattern base ->
  bi_log_double_w logf c b base = bi_log_double logf c b base.
Proof.
  intros L H. unfold bi_log_double_w, bi_log_double, bi_log_w, bi_log.
  destruct ((sign_of b <? 0) || (base =? DBL_ONE))%bool; [reflexivity|].
  destruct (Z.eqb_spec base DBL_EXP_MASK) as [P|P]; [reflexivity|].
  assert (W : forall a, log_eval logf (log_wrapper_w a base) = log_eval logf (log_wrapper a base)).
  { intros a. destruct (Z.eq_dec base minus_infinity) as [->|M].
    - destruct (wrapper_minus a logf L) as [-> ->]. reflexivity.
    - rewrite wrapper_win; [reflexivity|exact H|exact P|exact M]. }
  destruct (if dbl_is_zero base then _ else _) as [[|]|e|u| |]; cbn [bind]; try reflexivity.
  destruct (is_nil (bits_of b)); cbn [bind]; [rewrite W; reflexivity|].
  destruct (rd (bits_of b) (length (bits_of b) - 1)) as [h|e|u| |]; cbn [bind]; try reflexivity.
  destruct (if Nat.ltb 1 _ then _ else _) as [m|e|u| |]; cbn [bind]; try reflexivity.
  destruct (if Nat.ltb 2 _ then _ else _) as [l|e|u| |]; cbn [bind]; try reflexivity.
  destruct (shl64 h _) as [x1|e|u| |]; cbn [bind]; try reflexivity.
  destruct (shl64 m _) as [x2|e|u| |]; cbn [bind]; try reflexivity.
  destruct (shr64 l _) as [x3|e|u| |]; cbn [bind]; try reflexivity.
  cbn [log_eval]. rewrite W. reflexivity.
Qed.

Lemma classes_win d :
  double_is_finite_w d = (d mod 2 ^ 32 <? 2 ^ 31) /\ double_is_nan_w d = negb (d mod 2 ^ 32 <? 2 ^ 31) /\
  double_is_infinity_w d = false.
Proof. split; [apply is_finite_win|]. split; [apply is_nan_win|apply is_infinity_win]. Qed.

Lemma log_win_meaning logf c b x n base :
  libm_log logf -> represents b x -> SpecApi.limb_count x n -> n <= 2 ^ 57 -> dbl_pattern base ->
  exists r, bi_log_double_w logf c b base = Ret r /\ log_meaning x base r.
Proof.
  intros L R N B P. rewrite (log_win logf c b base L P). exact (log_total logf c b x n base L R N B P).
Qed.

Lemma ln_win logf c b : libm_log logf ->
  bi_ln_double_w logf c b = bi_ln_double logf c b /\ bi_log10_double_w logf c b = bi_log10_double logf c b.
Proof.
  intros L. split; apply log_win; try exact L; (split; [discriminate|reflexivity]).
Qed.
