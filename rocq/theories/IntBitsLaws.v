(** Consequences: sizes for which the bitwise operators are exact, and sizes for
    which they are not. *)
From Verif Require Import Machine Facts AddSubFacts Spec SpecFacts SpecApi SpecGcd SpecActual BigInt BigIntFacts CompareFacts
  ShiftFacts ConvFacts SpecPos PosFacts WordFacts BytesFacts ActualFacts LeakyModPow RunExact IntSizes IntSizesFacts
  SpecLimbs IntLimbsFacts IntLimbsLaws IntConvFacts IntConvLaws IntAddLaws IntTextLaws IntBits SpecIntBits IntBitsFacts.
Ltac Zify.zify_post_hook ::= idtac.

Lemma cut_all x r : 1 <= r -> limbs_of x <= r -> cut x r = x.
Proof.
  intros Hr H. destruct (limbs_bound x) as (_ & B). unfold cut.
  assert (Z.abs x < 2 ^ (32 * r)) as B'.
  { eapply Z.lt_le_trans; [exact B|]. apply Z.pow_le_mono_r; lia. }
  destruct (Z.ltb_spec x 0).
  - assert (x mod 2 ^ (32 * r) = x + 2 ^ (32 * r)) as ->; [|lia]. symmetry. apply (Z.mod_unique_pos _ _ (-1)); lia.
  - rewrite Z.mod_small by lia. lia.
Qed.

Lemma words_limbs x : words x <= limbs_of x + 1.
Proof.
  destruct (limbs_bound x) as (L & B). pose proof (words_cfits x (Z.to_nat (limbs_of x + 1)) ltac:(lia)) as W.
  rewrite Z2Nat.id in W by lia. apply W. unfold cfits. rewrite bp_Bp, Bp_pow2, Z2Nat.id by lia.
  replace (32 * (limbs_of x + 1)) with (32 * limbs_of x + 32) by ring. rewrite Z.pow_add_r by lia.
  change (2 ^ 32) with 4294967296. lia.
Qed.

Lemma worded_exact c x : limbs_of x <= 2147483648 -> words x < 2147483648 -> worded c x = Sized (Ret x).
Proof.
  intros L W. destruct (limbs_bound x) as (L1 & _). unfold worded. cbv zeta. rewrite int_of_small by lia.
  replace (limbs_of x - 1 + 1) with (limbs_of x) by ring. rewrite (proj2 (Z.leb_gt _ 0)) by lia.
  rewrite cut_all by lia. change (2 ^ 31) with 2147483648. now rewrite (proj2 (Z.leb_gt _ _)) by lia.
Qed.

Lemma worded_small c x : limbs_of x < 2147483647 -> worded c x = Sized (Ret x).
Proof. intros H. pose proof (words_limbs x). apply worded_exact; lia. Qed.

Lemma worded_wide c x : 2147483648 < limbs_of x <= 4294967296 -> worded c x = Sized (Undef OutOfBounds).
Proof.
  intros H. unfold worded. cbv zeta. rewrite int_of_back by lia. now rewrite (proj2 (Z.leb_le _ 0)) by lia.
Qed.

Lemma words_above x k : 1 <= k -> k < limbs_of x -> k < words x.
Proof.
  intros Hk H. destruct (Z.lt_ge_cases k (words x)) as [L|L]; [exact L|exfalso].
  pose proof (limbs_at_least x k Hk H) as B.
  pose proof (proj2 (words_cfits x (Z.to_nat k) ltac:(lia))) as W. rewrite Z2Nat.id in W by lia. specialize (W L).
  unfold cfits in W. rewrite bp_Bp, Bp_pow2, Z2Nat.id in W by lia.
  pose proof (pow2_pos (32 * k) ltac:(lia)). lia.
Qed.
Lemma words_many x : limbs_of x = 2147483648 -> 2147483648 <= words x.
Proof. intros H. pose proof (words_above x 2147483647 ltac:(lia) ltac:(lia)). lia. Qed.

Lemma worded_edge c x : limbs_of x = 2147483648 ->
  worded c x = if strict c then Sized (Undef SignedOverflow) else LengthError.
Proof.
  intros H. unfold worded. cbv zeta. rewrite int_of_small by lia. rewrite cut_all by lia.
  rewrite (proj2 (Z.leb_gt _ 0)) by lia. change (2 ^ 31) with 2147483648.
  now rewrite (proj2 (Z.leb_le _ _)) by (now apply words_many).
Qed.

Lemma bitop_small_i c op a b x y : bitop op -> represents a x -> represents b y ->
  is_nil (bits_of a) && is_nil (bits_of b) = true ->
  sized_denotes (Sized (bi_of_int32 c (op (sign_of a) (sign_of b)))) (bitwise_any c op x y).
Proof.
  intros Ho Ha Hb E. pose proof (bitop_trivial c op a b x y Ho Ha Hb E) as W.
  apply Bool.andb_true_iff in E. destruct E as [E1 E2].
  assert (forall a x, represents a x -> is_nil (bits_of a) = true -> worded c x = Sized (Ret x)) as K.
  { clear. intros a x Ha E. apply worded_small. destruct (Z.lt_ge_cases (Z.abs x) 2147483648) as [S|G].
    - rewrite (limbs_of_small x S). lia.
    - destruct (long_parts a x Ha G) as (s & l & -> & _ & Hne & _). cbn [bits_of] in E. destruct l; [congruence|discriminate]. }
  unfold bitwise_any. rewrite (K a x Ha E1), (K b y Hb E2). cbn [sized_denotes denotes]. now apply returns_wp.
Qed.

Theorem bitwise_i_spec c a b x y : represents a x -> represents b y ->
  sized_denotes (bi_and_i c a b) (and_any c x y) /\
  sized_denotes (bi_or_i c a b) (or_any c x y) /\
  sized_denotes (bi_xor_i c a b) (xor_any c x y).
Proof.
  intros Ha Hb. split; [|split].
  - unfold bi_and_i, and_any. rewrite (bi_is_zero_spec c a x Ha), (bi_is_zero_spec c b y Hb). cbn [bind].
    destruct (Z.eqb_spec x 0) as [->|Hx]; cbn [bind then_sized orb]; [apply returns_wp, bi_zero_spec|].
    destruct (Z.eqb_spec y 0) as [->|Hy]; cbn [bind then_sized orb]; [apply returns_wp, bi_zero_spec|].
    destruct (is_nil (bits_of a) && is_nil (bits_of b)) eqn:E.
    + apply bitop_small_i; auto. apply bitop_and.
    + apply bitop_words_i_spec; auto. apply bitop_and.
  - unfold bi_or_i, or_any. rewrite (bi_is_zero_spec c a x Ha). cbn [then_sized].
    destruct (Z.eqb_spec x 0) as [->|Hx]; [cbn [sized_denotes denotes]; exists b; auto|].
    rewrite (bi_is_zero_spec c b y Hb). cbn [then_sized].
    destruct (Z.eqb_spec y 0) as [->|Hy]; [cbn [sized_denotes denotes]; exists a; auto|].
    destruct (is_nil (bits_of a) && is_nil (bits_of b)) eqn:E.
    + apply bitop_small_i; auto. apply bitop_or.
    + apply bitop_words_i_spec; auto. apply bitop_or.
  - unfold bi_xor_i, xor_any. destruct (is_nil (bits_of a) && is_nil (bits_of b)) eqn:E.
    + apply bitop_small_i; auto. apply bitop_xor.
    + apply bitop_words_i_spec; auto. apply bitop_xor.
Qed.

Lemma bitwise_exact c op x y : words x < 2147483648 -> words y < 2147483648 ->
  limbs_of x <= 2147483648 -> limbs_of y <= 2147483648 -> bitwise_any c op x y = Sized (Ret (op x y)).
Proof. intros. unfold bitwise_any. now rewrite !worded_exact by assumption. Qed.

Theorem bitwise_i_fits c a b x y : represents a x -> represents b y ->
  limbs_of x < 2 ^ 31 - 1 -> limbs_of y < 2 ^ 31 - 1 ->
  sized_denotes (bi_and_i c a b) (Sized (Ret (Z.land x y))) /\
  sized_denotes (bi_or_i c a b) (Sized (Ret (Z.lor x y))) /\
  sized_denotes (bi_xor_i c a b) (Sized (Ret (Z.lxor x y))).
Proof.
  change (2 ^ 31) with 2147483648. intros Ha Hb Lx Ly. destruct (bitwise_i_spec c a b x y Ha Hb) as (A & O & X).
  pose proof (words_limbs x). pose proof (words_limbs y).
  unfold and_any in A. unfold or_any in O. unfold xor_any in X. rewrite !bitwise_exact in A, O, X by lia.
  destruct (Z.eqb_spec x 0) as [->|Nx]; cbn [orb] in A.
  { rewrite Z.land_0_l, Z.lor_0_l. auto. }
  destruct (Z.eqb_spec y 0) as [->|Ny].
  { rewrite Z.land_0_r, Z.lor_0_r. auto. }
  auto.
Qed.

Theorem bitwise_i_wide c a b x y : represents a x -> represents b y -> y <> 0 ->
  (limbs_of x = 2 ^ 31 ->
   let bad := if strict c then Sized (Undef SignedOverflow) else LengthError in
   bi_and_i c a b = bad /\ bi_or_i c a b = bad /\ bi_xor_i c a b = bad) /\
  (2 ^ 31 < limbs_of x <= 2 ^ 32 ->
   bi_and_i c a b = Sized (Undef OutOfBounds) /\ bi_or_i c a b = Sized (Undef OutOfBounds) /\
   bi_xor_i c a b = Sized (Undef OutOfBounds)).
Proof.
  change (2 ^ 31) with 2147483648. change (2 ^ 32) with 4294967296. intros Ha Hb Hy.
  destruct (bitwise_i_spec c a b x y Ha Hb) as (A & O & X).
  assert (2 <= limbs_of x -> (x =? 0) = false) as NZ.
  { intros H. apply Z.eqb_neq. intros ->. rewrite limbs_of_small in H by (cbn; lia). lia. }
  unfold and_any in A. unfold or_any in O. unfold xor_any in X. unfold bitwise_any in A, O, X.
  rewrite (proj2 (Z.eqb_neq y 0) Hy) in A, O. rewrite Bool.orb_false_r in A.
  assert (forall o : sized bigint, sized_denotes o (Sized (Undef OutOfBounds)) -> o = Sized (Undef OutOfBounds)) as U.
  { intros [o|] H; cbn in H; [congruence|contradiction]. }
  assert (forall o : sized bigint, sized_denotes o (Sized (Undef SignedOverflow)) -> o = Sized (Undef SignedOverflow)) as V.
  { intros [o|] H; cbn in H; [congruence|contradiction]. }
  assert (forall o : sized bigint, sized_denotes o LengthError -> o = LengthError) as E.
  { intros [o|] H; cbn in H; [contradiction|reflexivity]. }
  split; intros H; rewrite NZ in A, O by lia.
  - rewrite worded_edge in A, O, X by exact H. cbv zeta. destruct (strict c); auto.
  - rewrite worded_wide in A, O, X by exact H. auto.
Qed.

(** ** The words themselves *)

Theorem to_words_i_returns c a x : represents a x ->
  match worded c x with
  | Sized (Ret v) => exists l, bi_to_uint32_array_i c a = Sized (Ret l) /\ digits (2 ^ 32) l /\ complement (2 ^ 32) l = v
  | Sized (Undef u) => bi_to_uint32_array_i c a = Sized (Undef u)
  | LengthError => bi_to_uint32_array_i c a = LengthError
  | _ => False
  end.
Proof.
  intros Ha. pose proof (to_words_i c a x Ha) as W.
  assert (forall o, worded c x = Sized o -> (exists v, o = Ret v) \/ (exists u, o = Undef u)) as K.
  { unfold worded. cbv zeta. destruct (_ <=? 0); [intros o E; injection E as <-; eauto|].
    destruct (_ <=? _); [destruct (strict c); [intros o E; injection E as <-; eauto|discriminate]|]. intros o E; injection E as <-; eauto. }
  destruct (worded c x) as [o|]; [|exact W]. destruct (K o eq_refl) as [(v & ->)|(u & ->)]; [|exact W].
  destruct W as (l & E & Hl & Hc & _). exists l. auto.
Qed.

Theorem of_words_i c l : digits (2 ^ 32) l ->
  (Z.of_nat (length l) < 2 ^ 31 -> returns (bi_of_dwords_i c l) (complement (2 ^ 32) l)) /\
  (2 ^ 31 <= Z.of_nat (length l) < 2 ^ 32 -> last l 0 <> 0 -> returns (bi_of_dwords_i c l) (positional (2 ^ 32) l)) /\
  (Z.of_nat (length l) = 2 ^ 32 -> returns (bi_of_dwords_i c l) 0).
Proof.
  change (2 ^ 31) with 2147483648. change (2 ^ 32) with W32. intros Hl. split; [|split].
  - intros H. rewrite of_dwords_same by assumption. now apply returns_wp, of_words_spec.
  - intros H Ht. assert (l <> []) as Hne by (intros ->; cbn [length] in H; lia).
    assert (s32 (Z.of_nat (length l)) = Z.of_nat (length l) - 4294967296) as E.
    { apply (s32_shifted _ _ 1); [lia|unfold INT_MIN, INT_MAX, W32 in *; lia]. }
    unfold W32 in H. unfold bi_of_dwords_i. cbv zeta. rewrite E. set (r := Z.of_nat (length l) - 4294967296) in *.
    assert (r < 0) as R by (unfold r; lia). unfold trim_len_i.
    rewrite (proj2 (Z.ltb_ge 0 r)) by lia. cbn [bind negb]. rewrite (proj2 (Z.eqb_neq r 0)) by lia.
    rewrite (proj2 (Z.eqb_neq r 1)) by lia. rewrite Z.eqb_refl. cbn [negb].
    assert (top_nz l) as Tp by (unfold top_nz; rewrite <- last_nth; exact Ht).
    assert (4294967296 <= val l) as Vb.
    { pose proof (top_nz_bound l Hl Hne Tp) as B. pose proof (Bp_le 1 (length l - 1) ltac:(lia)) as B1.
      change (Bp 1) with 4294967296 in B1. lia. }
    assert (represents (Big 1 l) (val l)) as R0.
    { rewrite <- (Z.mul_1_l (val l)). apply represents_view. constructor; auto; num; lia. }
    exists (Big 1 l). rewrite pos_val. split; [apply (checked_ok c _ _ R0)|exact R0].
  - intros H. unfold bi_of_dwords_i. cbv zeta.
    assert (s32 (Z.of_nat (length l)) = 0) as -> by (apply (s32_shifted _ _ 1); [unfold W32 in H; lia|unfold INT_MIN, INT_MAX; lia]).
    unfold trim_len_i. cbn [Z.ltb Z.compare bind Z.eqb]. apply returns_wp, bi_zero_spec.
Qed.

Lemma worded_low c k e : k = 4294967296 -> 0 <= e < 2147483648 -> worded c (2 ^ (32 * k) + e) = Sized (Ret e).
Proof.
  intros Hk He. pose proof (Z.pow_le_mono_r 2 32 (32 * k) ltac:(lia) ltac:(lia)) as Q. change (2 ^ 32) with 4294967296 in Q.
  unfold worded. cbv zeta. rewrite limbs_of_power by lia. replace (k + 1 - 1) with k by ring.
  rewrite int_of_back by lia. replace (k - 4294967296 + 1) with 1 by lia. cbn [Z.leb Z.compare].
  assert (cut (2 ^ (32 * k) + e) 1 = e) as ->.
  { unfold cut. rewrite (proj2 (Z.ltb_ge _ 0)) by lia. change (2 ^ (32 * 1)) with 4294967296.
    replace (32 * k) with (32 * k - 32 + 32) by ring. rewrite Z.pow_add_r by lia. change (2 ^ 32) with 4294967296.
    rewrite Z.add_comm, Z.mod_add by lia. rewrite Z.mod_small by lia. lia. }
  change (2 ^ 31) with 2147483648. pose proof (words_limbs e) as W. rewrite limbs_of_small in W by lia.
  now rewrite (proj2 (Z.leb_gt _ _)) by lia.
Qed.

Lemma bits_case k : k = 2 ^ 32 -> exists a,
  represents a (2 ^ (32 * k) + 5) /\
  forall c b, (represents b 0 -> sized_denotes (bi_xor_i c a b) (Sized (Ret 5))) /\
    (represents b (-1) -> sized_denotes (bi_and_i c a b) (Sized (Ret 5))) /\
    (represents b 2 -> sized_denotes (bi_or_i c a b) (Sized (Ret 7))).
Proof.
  change (2 ^ 32) with 4294967296. intros Hk. destruct (represents_total (2 ^ (32 * k) + 5)) as (a & Ha). exists a. split; [exact Ha|].
  pose proof (fun c => worded_low c k 5 Hk ltac:(lia)) as W. pose proof (pow2_pos (32 * k) ltac:(lia)) as P.
  set (x := 2 ^ (32 * k) + 5) in *. assert ((x =? 0) = false) as NZ by (apply Z.eqb_neq; unfold x; lia). clearbody x.
  assert (forall c y, Z.abs y < 2147483648 -> worded c y = Sized (Ret y)) as S.
  { intros c y H. apply worded_small. rewrite limbs_of_small by exact H. lia. }
  intros c b. split; [|split]; intros Hb; destruct (bitwise_i_spec c a b _ _ Ha Hb) as (A & O & X).
  - unfold xor_any, bitwise_any in X. rewrite W, S in X by (cbn; lia). exact X.
  - unfold and_any, bitwise_any in A. rewrite NZ, W, S in A by (cbn; lia). exact A.
  - unfold or_any, bitwise_any in O. rewrite NZ, W, S in O by (cbn; lia). exact O.
Qed.

Lemma ones_value n : positional W32 (repeat 4294967295 n) = Bp n - 1.
Proof. induction n as [|n IH]; [reflexivity|]. cbn [repeat positional]. rewrite IH, Bp_S. num; ring. Qed.
Lemma ones_last n : (0 < n)%nat -> last (repeat 4294967295 n) 0 = 4294967295.
Proof. induction n as [|n IH]; intros H; [lia|]. destruct n as [|n]; [reflexivity|]. exact (IH ltac:(lia)). Qed.

Lemma words_case k : k = 2 ^ 31 -> exists l,
  digits (2 ^ 32) l /\ Z.of_nat (length l) = k /\ complement (2 ^ 32) l = -1 /\
  forall c, returns (bi_of_dwords_i c l) (2 ^ (32 * k) - 1).
Proof.
  change (2 ^ 32) with W32. change (2 ^ 31) with 2147483648. intros Hk. exists (repeat 4294967295 (Z.to_nat k)).
  assert (limbs (repeat 4294967295 (Z.to_nat k))) as Hl.
  { apply Forall_forall. intros z Hz. apply repeat_spec in Hz. subst z. num; lia. }
  assert (Z.of_nat (length (repeat 4294967295 (Z.to_nat k))) = k) as L by (rewrite repeat_length; lia).
  pose proof (ones_last (Z.to_nat k) ltac:(lia)) as T. pose proof (ones_value (Z.to_nat k)) as V.
  rewrite Bp_pow2, Z2Nat.id in V by lia.
  split; [exact Hl|]. split; [exact L|]. split.
  - unfold complement. rewrite T, V, L. change (W32 <=? 2 * 4294967295) with true. cbv iota.
    change W32 with (2 ^ 32). rewrite <- Z.pow_mul_r by lia. ring.
  - intros c. destruct (of_words_i c _ Hl) as (_ & W & _). rewrite <- V. apply W; [|rewrite T; lia].
    rewrite L. change (2 ^ 31) with 2147483648. change (2 ^ 32) with 4294967296. lia.
Qed.
