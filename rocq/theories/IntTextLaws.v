(** Consequences for to_string of numbers of any size. *)
From Coq Require Import String Ascii.
From Verif Require Import Facts AddSubFacts Spec SpecFacts SpecApi SpecGcd SpecActual BigInt BigIntFacts CompareFacts
  ShiftFacts ConvFacts WordFacts PowFacts SpecPos PosFacts SpecText BigIntText TextFacts IntSizes IntSizesFacts
  SpecLimbs IntLimbsFacts IntConvFacts IntConvLaws SpecIntAdd IntAddFacts BytesFacts ActualFacts LeakyModPow RunExact IntLimbsLaws IntAddLaws SpecLimbs
  IntText SpecIntText IntTextFacts.
Open Scope Z_scope.
Ltac Zify.zify_post_hook ::= idtac.
Local Notation length := List.length.

Lemma to_string_i_short c a x : represents a x -> Z.abs x < 2 ^ 31 ->
  exists s, bi_to_string_i c a = Sized (Ret s) /\ numeral s x.
Proof.
  change (2 ^ 31) with 2147483648. intros Ha Hx. rewrite (short_parts a x Ha Hx).
  exists (std_to_string x). split; [reflexivity|apply std_to_string_numeral].
Qed.

Theorem to_string_i_text c a x : represents a x ->
  (Z.abs x < 2 ^ 31 -> exists s, bi_to_string_i c a = Sized (Ret s) /\ numeral s x) /\
  (2 ^ 31 <= Z.abs x -> text_any c x (bi_to_string_i c a)).
Proof. intros Ha. split; [now apply to_string_i_short|now apply to_string_i_spec]. Qed.

(** Below 2^31 limbs the wrapped count is the count. *)
Lemma to_string_i_same c a x : represents a x -> limbs_of x < 2 ^ 31 -> bi_to_string_i c a = Sized (bi_to_string c a).
Proof.
  change (2 ^ 31) with 2147483648. intros Ha Hn. pose proof (limbs_of_length a x Ha) as L.
  unfold bi_to_string_i, bi_to_string. destruct (is_nil (bits_of a)) eqn:E; [reflexivity|]. cbv zeta.
  destruct (bits_of a) as [|h l0] eqn:B; [discriminate|]. rewrite <- B in *. clear E.
  assert (0 < Z.of_nat (length (bits_of a)) < 2147483648) as R by (rewrite B in *; cbn [List.length] in *; lia).
  rewrite s32_small by (unfold INT_MIN, INT_MAX; lia). set (n := Z.of_nat (length (bits_of a))) in *.
  change (INT_MAX / 10) with 214748364. destruct (Z.ltb_spec 214748364 n) as [H|H]; [reflexivity|].
  rewrite chk32_ok by (unfold INT_MIN, INT_MAX; lia). rewrite Z.quot_div_nonneg by lia.
  pose proof (Z.div_pos (n * 10) 9 ltac:(lia) ltac:(lia)) as P. rewrite (proj2 (Z.ltb_ge _ 0)) by lia.
  rewrite chk32_ok by (unfold INT_MIN, INT_MAX; lia). cbn [bind].
  replace (Z.to_nat (n - 1 + 1)) with (length (bits_of a)) by lia. reflexivity.
Qed.

Lemma not_low x r : 0 < r < limbs_of x -> 0 < x -> low x r < x.
Proof.
  intros H P. unfold low. rewrite Z.max_r, Z.abs_eq by lia. destruct (limbs_of_count x) as (_ & _ & L).
  pose proof (Z.mod_pos_bound x (2 ^ (32 * r)) (pow2_pos (32 * r) ltac:(lia))) as MB.
  destruct (Z.lt_ge_cases x (2 ^ (32 * r))) as [K|K]; [|lia].
  specialize (L r ltac:(lia)). unfold fits_limbs in L. rewrite Z.abs_eq in L by lia. specialize (L K). lia.
Qed.

Theorem to_string_i_fits c a x : represents a x -> limbs_of x < 2 ^ 31 ->
  (limbs_of x <= 214748364 -> ~ sign_hits x -> exists s, bi_to_string_i c a = Sized (Ret s) /\ numeral s x) /\
  (limbs_of x <= 214748364 -> sign_hits x -> bi_to_string_i c a = Sized (Undef OutOfBounds)) /\
  (214748364 < limbs_of x -> bi_to_string_i c a = Sized (Throw OverflowError)).
Proof.
  intros Ha Hn. rewrite (to_string_i_same c a x Ha Hn).
  split; [|split].
  - intros H1 H2. destruct (to_string_ok c a x _ Ha (limbs_of_count x) H1 H2) as (s & -> & N). eauto.
  - intros H1 H2. now rewrite (to_string_oob c a x _ Ha (limbs_of_count x) H1 H2).
  - intros H1. now rewrite (to_string_too_large c a x _ Ha (limbs_of_count x) H1).
Qed.

Lemma long_limbs x : 2 <= limbs_of x -> 2147483648 <= Z.abs x.
Proof.
  intros H. destruct (limbs_of_count x) as (_ & _ & L). destruct (Z.lt_ge_cases (Z.abs x) 2147483648) as [K|K]; [|exact K].
  specialize (L 1 ltac:(lia)). unfold fits_limbs in L. change (2 ^ (32 * 1)) with 4294967296 in L. specialize (L ltac:(lia)). lia.
Qed.

Lemma int_of_back n : 2147483648 <= n < 6442450944 -> int_of n = n - 4294967296.
Proof.
  intros H. unfold int_of. change (2 ^ 31) with 2147483648. change (2 ^ 32) with 4294967296.
  replace (n + 2147483648) with ((n - 2147483648) + 1 * 4294967296) by lia. rewrite Z.mod_add by lia.
  rewrite Z.mod_small by lia. lia.
Qed.
Lemma int_of_inside n : -2147483648 <= n < 2147483648 -> int_of n = n.
Proof.
  intros H. unfold int_of. change (2 ^ 31) with 2147483648. change (2 ^ 32) with 4294967296.
  rewrite Z.mod_small by lia. lia.
Qed.

Theorem to_string_i_wide c a x : represents a x ->
  (2 ^ 31 <= limbs_of x < 2 ^ 32 - 214748364 -> strict c = true -> bi_to_string_i c a = Sized (Undef SignedOverflow)) /\
  (2 ^ 32 - 214748364 <= limbs_of x < 2 ^ 32 - 2 -> bi_to_string_i c a = LengthError) /\
  (2 ^ 32 - 2 <= limbs_of x <= 2 ^ 32 -> bi_to_string_i c a = Sized (Undef OutOfBounds)) /\
  (2 ^ 32 < limbs_of x <= 2 ^ 32 + 214748364 -> 0 < x -> low x (limbs_of x - 2 ^ 32) <> 0 ->
   exists s, bi_to_string_i c a = Sized (Ret s) /\ numeral s (low x (limbs_of x - 2 ^ 32)) /\ ~ numeral s x).
Proof.
  change (2 ^ 31) with 2147483648. change (2 ^ 32) with 4294967296. intros Ha.
  assert (2 <= limbs_of x -> text_any c x (bi_to_string_i c a)) as T.
  { intros H. apply to_string_i_spec; [exact Ha|]. change (2 ^ 31) with 2147483648. now apply long_limbs. }
  unfold text_any in T. unfold int_limbs in T. cbv zeta in T. change (- 2 ^ 31) with (-2147483648) in T.
  split; [|split; [|split]].
  - intros H S. specialize (T ltac:(lia)). rewrite int_of_back in T by lia. rewrite S in T.
    rewrite (proj2 (Z.ltb_ge 214748364 _)) in T by lia. rewrite (proj2 (Z.ltb_lt _ (-214748364))) in T by lia. exact T.
  - intros H. specialize (T ltac:(lia)). rewrite int_of_back in T by lia. set (r := limbs_of x - 4294967296) in *.
    rewrite (proj2 (Z.ltb_ge 214748364 _)) in T by lia. rewrite (proj2 (Z.ltb_ge _ (-214748364))), Bool.andb_false_r in T by lia.
    rewrite (int_of_inside (10 * r)) in T by lia.
    rewrite (proj2 (Z.ltb_lt _ 0)) in T; [exact T|].
    replace (10 * r) with (- (- r * 10)) by ring. rewrite Z.quot_opp_l, Z.quot_div_nonneg by lia.
    pose proof (Z.div_le_lower_bound (- r * 10) 9 3 ltac:(lia) ltac:(lia)). lia.
  - intros H. specialize (T ltac:(lia)). rewrite int_of_back in T by lia. set (r := limbs_of x - 4294967296) in *.
    assert (r = -2 \/ r = -1 \/ r = 0) as [E|[E|E]] by lia; rewrite E in T; cbn [Z.ltb Z.eqb Z.compare Pos.eqb] in T;
      rewrite Bool.andb_false_r in T;
      match type of T with context [?q <? 0] => let v := eval vm_compute in q in change q with v in T end;
      cbn [Z.ltb Z.compare] in T; destruct T as (t & -> & _ & T2); rewrite low_none in T2 by lia;
      (destruct T2 as (T2 & _); [apply Z.pow_pos_nonneg; lia|]); now rewrite T2 by (left; reflexivity).
  - intros H P N. specialize (T ltac:(lia)). rewrite int_of_back in T by lia. set (r := limbs_of x - 4294967296) in *.
    rewrite (proj2 (Z.ltb_ge 214748364 _)) in T by lia. rewrite (proj2 (Z.ltb_ge r (-214748364))), Bool.andb_false_r in T by lia.
    rewrite (int_of_inside (10 * r)), Z.quot_div_nonneg in T by lia.
    pose proof (Z.div_mod (10 * r) 9 ltac:(lia)) as DM. pose proof (Z.mod_pos_bound (10 * r) 9 ltac:(lia)) as MB.
    set (q := 10 * r / 9) in *. rewrite (proj2 (Z.ltb_ge (q + 2) 0)) in T by lia.
    rewrite (proj2 (Z.eqb_neq r _)) in T by lia. destruct T as (t & -> & _ & T2).
    assert (low x r < 10 ^ (9 * (q + 2))) as LT.
    { assert (low x r < 2 ^ (32 * r)) as B.
      { unfold low. rewrite Z.max_r by lia. apply Z.mod_pos_bound, pow2_pos. lia. }
      eapply Z.lt_le_trans; [exact B|].
      assert (~ 10 ^ (9 * (q + 2)) < 2 ^ (32 * r)) as K; [|lia]. intros K.
      pose proof (cap_bound (Z.to_nat (q + 2)) (Z.to_nat r) (10 ^ (9 * (q + 2)))) as CB.
      unfold bp in CB. rewrite Bp_pow2, !Z2Nat.id in CB by lia. rewrite Z.pow_mul_r in CB, K by lia. change (10 ^ 9) with 1000000000 in CB, K.
      specialize (CB (Z.le_refl _) K). lia. }
    destruct (T2 LT) as (_ & T3). rewrite (proj2 (Z.ltb_ge x 0)) in T3 by lia.
    destruct T3 as (s & -> & NS); [exact N|intros (F & _); discriminate|]. unfold signed in NS.
    exists s. split; [reflexivity|]. split; [exact NS|]. intros NX.
    pose proof (numeral_parse _ _ NS) as A1. pose proof (numeral_parse _ _ NX) as A2.
    pose proof (not_low x r ltac:(lia) P). lia.
Qed.

Lemma text_case k : k = 2 ^ 32 -> exists a b d,
  represents a (2 ^ (32 * k) + 5) /\ represents b (- 2 ^ (32 * (k - 3))) /\ represents d (2 ^ (32 * (k - 1000))) /\
  forall c, bi_to_string_i c a = Sized (Ret "5"%string) /\ bi_to_string_i c b = Sized (Undef OutOfBounds) /\
    bi_to_string_i c d = LengthError.
Proof.
  intros Hk. change (2 ^ 32) with 4294967296 in Hk.
  destruct (represents_total (2 ^ (32 * k) + 5)) as (a & Ha), (represents_total (- 2 ^ (32 * (k - 3)))) as (b & Hb),
    (represents_total (2 ^ (32 * (k - 1000)))) as (d & Hd).
  exists a, b, d. split; [exact Ha|]. split; [exact Hb|]. split; [exact Hd|].
  pose proof (Z.pow_le_mono_r 2 32 (32 * k) ltac:(lia) ltac:(lia)) as Q. change (2 ^ 32) with 4294967296 in Q.
  assert (limbs_of (2 ^ (32 * k) + 5) = k + 1) as L1 by (apply limbs_of_power; lia).
  assert (limbs_of (- 2 ^ (32 * (k - 3))) = k - 3 + 1) as L2.
  { unfold limbs_of. rewrite Z.abs_opp. fold (limbs_of (2 ^ (32 * (k - 3)))). rewrite <- (Z.add_0_r (2 ^ _)).
    apply limbs_of_power; pose proof (pow2_pos (32 * (k - 3)) ltac:(lia)); lia. }
  assert (limbs_of (2 ^ (32 * (k - 1000))) = k - 1000 + 1) as L3.
  { rewrite <- (Z.add_0_r (2 ^ _)). apply limbs_of_power; pose proof (pow2_pos (32 * (k - 1000)) ltac:(lia)); lia. }
  intros c. split; [|split].
  - destruct (to_string_i_wide c a _ Ha) as (_ & _ & _ & W). change (2 ^ 32) with 4294967296 in W.
    rewrite L1 in W. replace (k + 1 - 4294967296) with 1 in W by lia.
    assert (low (2 ^ (32 * k) + 5) 1 = 5) as E.
    { unfold low. rewrite Z.abs_eq by lia. change (2 ^ (32 * Z.max 0 1)) with 4294967296.
      replace (32 * k) with (32 * k - 32 + 32) by ring. rewrite Z.pow_add_r by lia. change (2 ^ 32) with 4294967296.
      rewrite Z.add_comm, Z.mod_add by lia. reflexivity. }
    rewrite E in W. destruct (W ltac:(lia) ltac:(lia) ltac:(lia)) as (s & -> & N & _).
    now rewrite (numeral_unique s "5"%string 5 N (std_to_string_numeral 5)).
  - destruct (to_string_i_wide c b _ Hb) as (_ & _ & W & _). change (2 ^ 32) with 4294967296 in W. apply W. lia.
  - destruct (to_string_i_wide c d _ Hd) as (_ & W & _ & _). change (2 ^ 32) with 4294967296 in W. apply W. lia.
Qed.
