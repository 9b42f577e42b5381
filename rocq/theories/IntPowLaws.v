(** Laws of powers with lengths kept in [int]. *)
From Verif Require Import Machine Facts Spec SpecFacts SpecApi SpecGcd BigInt ShiftFacts RunExact ModPowApi SpecActual
  IntSizes SpecSizes IntSizesFacts IntLimbs SpecLimbs IntLimbsFacts IntLimbsLaws IntConvFacts IntBitsFacts IntAdd SpecIntAdd IntAddFacts
  IntAddLaws IntTextLaws IntDiv SpecIntDiv IntDivFacts IntMulLaws IntGcdFacts IntGcdLaws IntPow SpecIntPow IntPowFacts.
Ltac Zify.zify_post_hook ::= idtac.

(** ** pow *)
Lemma int_limbs_below x : limbs_of x < 2147483648 -> int_limbs x = limbs_of x.
Proof. intros H. destruct (limbs_bound x) as (A & _). unfold int_limbs. apply int_of_small. lia. Qed.

Theorem pow_i_below c a x e : represents a x -> 0 <= e < 2 ^ 31 -> limbs_of x < 2 ^ 31 ->
  if (1 <? e) && (1 <? Z.abs x) && (2 ^ 31 - 1 <=? limbs_of x * e + 1) then bi_pow_i c a e = Sized (Throw OverflowError)
  else gives (bi_pow_i c a e) (x ^ e).
Proof.
  intros Ha He L. pose proof (pow_any_holds c a x e Ha ltac:(change (2 ^ 31) with 2147483648 in *; lia)) as H. unfold pow_any in H. cbv zeta in H.
  change (2 ^ 31) with 2147483648 in L. rewrite (int_limbs_below x L) in H. destruct (limbs_bound x) as (A & _).
  rewrite (proj2 (Z.ltb_ge e 0)), (proj2 (Z.ltb_ge (limbs_of x) 0)) in H by lia. rewrite low_all in H by lia.
  replace (Z.sgn x * Z.abs x) with x in H by lia.
  destruct (Z.ltb_spec 1 e) as [E|E]; [rewrite (proj2 (Z.leb_gt e 1)) in H by lia|rewrite (proj2 (Z.leb_le e 1)) in H by lia]; exact H.
Qed.

(** A number whose size is negative as an int. *)
Theorem pow_i_wide c a x e : represents a x -> 1 < e < 2 ^ 31 -> int_limbs x < 0 ->
  (strict c = true -> bi_pow_i c a e = Sized (Undef SignedOverflow)) /\
  (strict c = false -> - 2 ^ 30 <= int_limbs x \/ Z.odd e = true -> bi_pow_i c a e = Sized (Throw OverflowError)) /\
  (strict c = false -> limbs_of x = 2 ^ 31 -> Z.even e = true -> bi_pow_i c a e = Sized (Undef OutOfBounds)) /\
  (forall z, ~ gives (bi_pow_i c a e) z).
Proof.
  intros Ha He L. pose proof (pow_any_holds c a x e Ha ltac:(change (2 ^ 31) with 2147483648 in *; lia)) as H. unfold pow_any in H. cbv zeta in H.
  rewrite (proj2 (Z.ltb_ge e 0)), (proj2 (Z.leb_gt e 1)) in H by lia. rewrite (proj2 (Z.ltb_lt _ _) L) in H.
  split; [intros S; rewrite S in H; exact H|]. split; [|split].
  - intros St [Q|Q]; rewrite St in H; [rewrite (proj2 (Z.ltb_ge _ _) Q) in H; exact H|].
    rewrite <- Z.negb_odd, Q in H. cbn [negb] in H. rewrite andb_false_r in H. exact H.
  - intros St L31 Ev. rewrite St, Ev in H. unfold int_limbs in H. rewrite L31 in H. change (int_of (2 ^ 31)) with (-2147483648) in H.
    change (2 ^ 31 - 1) with 2147483647 in H. change (2 ^ 31) with 2147483648 in H. change (-2147483648 <? - 2 ^ 30) with true in H.
    change (-2147483648 + 2147483648) with 0 in H. rewrite Z.mul_0_l in H. exact H.
  - intros z (p & E & b & R & _). subst p. rewrite E in H. destruct (strict c); [discriminate H|]. destruct (_ && _); discriminate H.
Qed.

Theorem pow_i_lost c a x e : represents a x -> 1 < e < 2 ^ 31 -> 2 ^ 31 <= limbs_of x -> 0 <= int_limbs x -> int_limbs x * e + 1 < 2 ^ 31 - 1 ->
  gives (bi_pow_i c a e) ((Z.sgn x * low x (int_limbs x)) ^ e).
Proof.
  intros Ha He L G B. pose proof (pow_any_holds c a x e Ha ltac:(change (2 ^ 31) with 2147483648 in *; lia)) as H. unfold pow_any in H. cbv zeta in H.
  rewrite (proj2 (Z.ltb_ge e 0)), (proj2 (Z.leb_gt e 1)) in H by lia.
  rewrite (proj2 (Z.ltb_ge _ _) G), (proj2 (Z.leb_gt _ _) B), andb_false_r in H. exact H.
Qed.

(** The square of 2^(32 k) + 3 is 9. *)
Theorem pow_lost_case : forall k, k = 2 ^ 32 -> exists a, represents a (2 ^ (32 * k) + 3) /\
  forall c, gives (bi_pow_i c a 2) 9 /\ (2 ^ (32 * k) + 3) ^ 2 <> 9.
Proof.
  intros k Hk. change (2 ^ 32) with 4294967296 in Hk. destruct (represents_total (2 ^ (32 * k) + 3)) as (a & Ha). exists a. split; [exact Ha|].
  assert (3 < 2 ^ (32 * k)) as P.
  { apply Z.lt_le_trans with (2 ^ 32); [reflexivity|]. apply Z.pow_le_mono_r; lia. }
  assert (limbs_of (2 ^ (32 * k) + 3) = k + 1) as L by (rewrite limbs_of_power; lia).
  assert (int_limbs (2 ^ (32 * k) + 3) = 1) as N.
  { unfold int_limbs. rewrite L, int_of_back by lia. lia. }
  intros c. split.
  - assert (Z.sgn (2 ^ (32 * k) + 3) * low (2 ^ (32 * k) + 3) 1 = 3) as E.
    { rewrite Z.sgn_pos by lia. unfold low. rewrite Z.abs_eq by lia. change (32 * Z.max 0 1) with 32.
      replace (2 ^ (32 * k)) with (2 ^ (32 * (k - 1)) * 2 ^ 32) by (rewrite <- Z.pow_add_r by lia; f_equal; lia).
      rewrite Z.add_comm, Z.mul_1_l. rewrite Z.mod_add by discriminate. reflexivity. }
    pose proof (pow_i_lost c a _ 2 Ha ltac:(split; reflexivity)) as H. rewrite N, E in H. apply H; [|discriminate|reflexivity].
    rewrite L. clear - Hk. change (2 ^ 31) with 2147483648. lia.
  - set (y := 2 ^ (32 * k)) in *. clearbody y. rewrite Z.pow_2_r. nia.
Qed.

(** ** mod_pow by an int *)
Lemma base_exact x : limbs_of x <= 2147483648 -> base_used x = Z.abs x.
Proof.
  intros H. unfold base_used. destruct (Z.abs x <? 2 ^ 31); [reflexivity|]. destruct (limbs_bound x) as (A & _).
  unfold seen. rewrite int_of_small by lia. apply low_all. lia.
Qed.

Lemma exponent_exact e : 0 <= e -> limbs_of e <= 2147483649 -> exponent_used e = e.
Proof.
  intros He H. destruct (limbs_bound e) as (A & _). unfold exponent_used. cbv zeta. change (2 ^ 31) with 2147483648.
  rewrite Z.min_l by lia. unfold low. rewrite Z.max_r, Z.abs_eq by lia. pose proof (pow2_pos (32 * (limbs_of e - 1)) ltac:(lia)) as P.
  pose proof (Z.div_mod e (2 ^ (32 * (limbs_of e - 1))) ltac:(lia)). lia.
Qed.

Theorem mod_pow_i_below c a b x e z : represents a x -> represents b e -> 0 <= e -> z <> 0 -> Z.abs z < 2 ^ 31 ->
  limbs_of x <= 2 ^ 31 -> limbs_of e <= 2 ^ 31 ->
  returns (bi_mod_pow_int_i c a b z) (let r := Z.rem (x ^ e) z in if r <? 0 then r + 2 ^ 32 else r).
Proof.
  intros Ha Hb He Hz Hs Lx Le. pose proof (mod_pow_any_holds c a b x e z Ha Hb Hz Hs) as H. unfold mod_pow_any in H.
  rewrite (proj2 (Z.ltb_ge e 0)), (proj2 (Z.ltb_ge _ _) Le), andb_false_r in H by lia. cbv zeta in H |- *.
  change (2 ^ 31) with 2147483648 in *. rewrite base_exact, exponent_exact in H by lia. rewrite rem_pow by assumption.
  pose proof (Z.mod_pos_bound (Z.abs x ^ e) (Z.abs z) ltac:(lia)) as MB. set (r := Z.abs x ^ e mod Z.abs z) in *. clearbody r.
  change (2 ^ 32) with 4294967296 in *. destruct ((x <? 0) && Z.odd e).
  - destruct (Z.eq_dec r 0) as [->|N]; [exact H|]. rewrite (proj2 (Z.ltb_lt (- r) 0)) by lia.
    replace (- r mod 4294967296) with (- r + 4294967296) in H; [exact H|]. apply (Z.mod_unique_pos _ _ (-1)); lia.
  - rewrite (proj2 (Z.ltb_ge r 0)) by lia. exact H.
Qed.

Theorem mod_pow_i_base c a b x e z : represents a x -> represents b e -> 0 < e -> z <> 0 -> Z.abs z < 2 ^ 31 ->
  2 ^ 31 < limbs_of x <= 2 ^ 32 -> limbs_of e <= 2 ^ 31 -> returns (bi_mod_pow_int_i c a b z) 0.
Proof.
  intros Ha Hb He Hz Hs Lx Le. pose proof (mod_pow_any_holds c a b x e z Ha Hb Hz Hs) as H. unfold mod_pow_any in H.
  rewrite (proj2 (Z.ltb_ge e 0)), (proj2 (Z.ltb_ge _ _) Le), andb_false_r in H by lia. cbv zeta in H.
  change (2 ^ 31) with 2147483648 in *. change (2 ^ 32) with 4294967296 in *. rewrite exponent_exact in H by lia.
  unfold base_used in H. change (2 ^ 31) with 2147483648 in H. pose proof (wide_abs x ltac:(lia)) as X. rewrite (proj2 (Z.ltb_ge (Z.abs x) _)) in H by lia.
  rewrite seen_none, Z.pow_0_l, Z.mod_0_l in H by lia. destruct ((x <? 0) && Z.odd e); exact H.
Qed.

Theorem mod_pow_i_strict c a b x e z : represents a x -> represents b e -> 0 <= e -> z <> 0 -> Z.abs z < 2 ^ 31 ->
  strict c = true -> 2 ^ 31 < limbs_of e -> bi_mod_pow_int_i c a b z = Undef SignedOverflow.
Proof.
  intros Ha Hb He Hz Hs S Le. pose proof (mod_pow_any_holds c a b x e z Ha Hb Hz Hs) as H. unfold mod_pow_any in H.
  rewrite (proj2 (Z.ltb_ge e 0)), (proj2 (Z.ltb_lt _ _) Le), S in H by lia. exact H.
Qed.

(** Periods of the powers of two. *)
Lemma period p n j : 0 < p -> 0 < n -> 2 ^ n mod p = 1 mod p -> 0 <= j -> 2 ^ j mod p = 2 ^ (j mod n) mod p.
Proof.
  intros Hp Hn H Hj. pose proof (Z.div_mod j n ltac:(lia)) as D. pose proof (Z.mod_pos_bound j n ltac:(lia)) as B.
  pose proof (Z.div_pos j n Hj Hn) as Q. rewrite D at 1. rewrite Z.pow_add_r, Z.pow_mul_r by (try (apply Z.mul_nonneg_nonneg); lia).
  rewrite Z.mul_mod, (Zpower_mod _ _ _ Hp), H, <- (Zpower_mod 1), Z.pow_1_l, <- Z.mul_mod, Z.mul_1_l by lia. reflexivity.
Qed.

Lemma power_127 j r s : 0 <= j -> j mod 3 = r -> 2 ^ r mod 7 = s -> 2 ^ (2 ^ j) mod 127 = 2 ^ s mod 127.
Proof.
  intros Hj Hr Hs. rewrite (period 127 7) by (try reflexivity; try apply Z.pow_nonneg; lia).
  rewrite (period 7 3 j) by (try reflexivity; lia). now rewrite Hr, Hs.
Qed.

(** 2 to the 2^(32 (k + 1)), the top limb of which is taken for the one below. *)
Theorem mod_pow_wide_case : forall k, k = 2 ^ 31 -> exists b, represents b (2 ^ (32 * (k + 1))) /\
  forall c a, represents a 2 ->
    (strict c = true -> bi_mod_pow_int_i c a b 127 = Undef SignedOverflow) /\
    (strict c = false -> returns (bi_mod_pow_int_i c a b 127) 4) /\
    Z.rem (2 ^ 2 ^ (32 * (k + 1))) 127 = 2.
Proof.
  intros k Hk. change (2 ^ 31) with 2147483648 in Hk. destruct (represents_total (2 ^ (32 * (k + 1)))) as (b & Hb). exists b. split; [exact Hb|].
  pose proof (pow2_pos (32 * (k + 1)) ltac:(lia)) as P. pose proof (pow2_pos (32 * k) ltac:(lia)) as P'.
  assert (limbs_of (2 ^ (32 * (k + 1))) = k + 2) as L.
  { rewrite <- (Z.add_0_r (2 ^ _)), limbs_of_power by lia. lia. }
  assert (exponent_used (2 ^ (32 * (k + 1))) = 2 ^ (32 * k)) as E.
  { unfold exponent_used. rewrite L. cbv zeta. change (2 ^ 31) with 2147483648. replace (k + 2 - 1) with (k + 1) by ring.
    replace (Z.min (k + 1) 2147483648) with k by lia. unfold low. rewrite Z.max_r, Z.abs_eq by lia.
    rewrite Z.div_same by lia. replace (2 ^ (32 * (k + 1)) mod 2 ^ (32 * k)) with 0; [ring|].
    replace (32 * (k + 1)) with (32 + 32 * k) by ring. rewrite Z.pow_add_r by lia. symmetry. apply Z.mod_mul. lia. }
  assert (2 ^ 2 ^ (32 * k) mod 127 = 4) as V.
  { rewrite (power_127 (32 * k) 1 2); [reflexivity|lia| |reflexivity]. subst k. reflexivity. }
  assert (2 ^ 2 ^ (32 * (k + 1)) mod 127 = 2) as V'.
  { rewrite (power_127 (32 * (k + 1)) 0 1); [reflexivity|lia| |reflexivity]. subst k. reflexivity. }
  generalize dependent (2 ^ (32 * (k + 1))). intros e Hb P L E V'. generalize dependent (2 ^ (32 * k)). intros f P' V E.
  assert (0 <= 2 ^ e) as Q by (apply Z.pow_nonneg; discriminate).
  intros c a Ha. split; [|split].
  - intros S. apply (mod_pow_i_strict c a b 2 e 127 Ha Hb); auto; try discriminate; try reflexivity; [lia|]. change (2 ^ 31) with 2147483648. lia.
  - intros S. pose proof (mod_pow_any_holds c a b 2 e 127 Ha Hb ltac:(discriminate) ltac:(reflexivity)) as H. unfold mod_pow_any in H.
    rewrite (proj2 (Z.ltb_ge e 0)), S, E in H by lia. cbn [andb] in H. change (base_used 2) with 2 in H. change (Z.abs 127) with 127 in H.
    change (2 <? 0) with false in H. cbn [andb] in H. cbv zeta in H. rewrite V in H. exact H.
  - rewrite Z.rem_mod_nonneg; [exact V'|exact Q|reflexivity].
Qed.

(** A power of two, to the first power, modulo 3. *)
Theorem mod_pow_base_case c k a b : 2 ^ 31 <= k < 2 ^ 32 -> represents a (2 ^ (32 * k)) -> represents b 1 ->
  returns (bi_mod_pow_int_i c a b 3) 0 /\ Z.rem (2 ^ (32 * k)) 3 = 1.
Proof.
  intros Hk Ha Hb. assert (0 <= k) as P by (clear Ha; change (2 ^ 31) with 2147483648 in Hk; lia).
  pose proof (pow2_pos (32 * k) ltac:(lia)) as PP. split.
  - refine (mod_pow_i_base c a b _ 1 3 Ha Hb eq_refl _ eq_refl _ _); [discriminate| |discriminate].
    rewrite <- (Z.add_0_r (2 ^ (32 * k))), limbs_of_power; [|exact P|split; [apply Z.le_refl|exact PP]].
    clear Ha PP. change (2 ^ 31) with 2147483648 in *. change (2 ^ 32) with 4294967296 in *. lia.
  - rewrite Z.rem_mod_nonneg; [|apply Z.lt_le_incl; exact PP|reflexivity]. rewrite (period 3 2) by (try reflexivity; lia).
    replace (32 * k) with (16 * k * 2) by ring. rewrite Z.mod_mul by discriminate. reflexivity.
Qed.
