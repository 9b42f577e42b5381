(** Laws of multiplication with lengths kept in [int]. *)
From Verif Require Import Machine Facts Spec AddSubFacts SquMulFacts SpecFacts BigIntFacts
  CompareFacts ConvFacts SpecApi SpecGcd BigInt RunExact LeakyModPow SpecActual ActualFacts
  IntSizes SpecSizes IntSizesFacts IntLimbs SpecLimbs IntLimbsFacts IntLimbsLaws IntConvFacts BytesFacts IntAdd SpecIntAdd IntAddFacts
  IntAddLaws IntTextLaws IntBitsFacts IntMul SpecIntMul IntMulFacts.
Ltac Zify.zify_post_hook ::= idtac.

Lemma sign_product x y : signed (xorb (x <? 0) (y <? 0)) (Z.abs x * Z.abs y) = x * y.
Proof.
  unfold signed. destruct (Z.ltb_spec x 0), (Z.ltb_spec y 0); cbn [xorb].
  - rewrite !Z.abs_neq by lia. ring.
  - rewrite Z.abs_neq, Z.abs_eq by lia. ring.
  - rewrite Z.abs_eq, Z.abs_neq by lia. ring.
  - rewrite !Z.abs_eq by lia. ring.
Qed.

Lemma product_bound x y : 0 <= Z.abs x * Z.abs y < 2 ^ (32 * (limbs_of x + limbs_of y)).
Proof.
  destruct (limbs_bound x) as (A & B). destruct (limbs_bound y) as (A' & B'). split; [nia|].
  replace (32 * (limbs_of x + limbs_of y)) with (32 * limbs_of x + 32 * limbs_of y) by ring. rewrite Z.pow_add_r by lia.
  apply Z.mul_lt_mono_nonneg; lia.
Qed.

Lemma limbs_abs x y : Z.abs x = Z.abs y -> limbs_of x = limbs_of y.
Proof.
  intros E. destruct (Z.lt_trichotomy (limbs_of x) (limbs_of y)) as [H|[H|H]]; [|exact H|]; apply limbs_less in H; lia.
Qed.

Lemma held_fits c n x y o : n = limbs_of x + limbs_of y -> n < 2147483648 ->
  held c (int_of n) (xorb (x <? 0) (y <? 0)) (Z.abs x * Z.abs y) o -> returns o (x * y).
Proof.
  intros E Hn H. destruct (limbs_bound x) as (A & _). destruct (limbs_bound y) as (A' & _). rewrite int_of_small in H by lia.
  rewrite <- sign_product. apply (held_exact c n); [|exact H]. left. split; [lia|]. rewrite E. apply product_bound.
Qed.

Theorem mul_i_fits c a b x y : represents a x -> represents b y -> limbs_of x + limbs_of y < 2 ^ 31 ->
  returns (bi_mul_i c a b) (x * y).
Proof.
  intros Ha Hb. change (2 ^ 31) with 2147483648. intros Hn. pose proof (product_any_holds c a b x y Ha Hb) as H.
  unfold product_any in H. change (2 ^ 31) with 2147483648 in H. cbv zeta in H.
  destruct (limbs_bound x) as (A & _). destruct (limbs_bound y) as (A' & _).
  destruct (Z.ltb_spec (Z.abs x) 2147483648) as [X|X]; destruct (Z.ltb_spec (Z.abs y) 2147483648) as [Y|Y]; cbn [andb orb] in H.
  - exact H.
  - pose proof (limbs_of_small x X) as L. rewrite L, Z.max_r in H by lia. eapply held_fits; [|idtac|exact H]; lia.
  - pose proof (limbs_of_small y Y) as L. rewrite L, Z.max_l in H by lia. eapply held_fits; [|idtac|exact H]; lia.
  - destruct (Z.eqb_spec (Z.abs x) (Z.abs y)) as [E|E].
    { pose proof (limbs_abs x y E) as L. unfold square_any in H. change (2 ^ 30) with 1073741824 in H. cbv zeta in H.
      rewrite int_limbs_small in H by lia. rewrite (proj2 (Z.ltb_ge (limbs_of x) 0)) in H by lia. rewrite andb_false_r in H.
      rewrite (proj2 (Z.ltb_lt (limbs_of x) _)) in H by lia. rewrite low_all in H by lia. rewrite E in H at 2.
      eapply held_fits; [|idtac|exact H]; lia. }
    assert (forall s t neg o, limbs_of s + limbs_of t < 2147483648 -> limbs_of t <= limbs_of s -> long_product_any c s t neg o ->
      held c (int_of (limbs_of s + limbs_of t)) neg (Z.abs s * Z.abs t) o) as K.
    { intros s t neg o Hs Ht G. destruct (limbs_bound s) as (B & _). destruct (limbs_bound t) as (B' & _).
      unfold long_product_any in G. change (2 ^ 31) with 2147483648 in G. cbv zeta in G. rewrite !int_limbs_small in G by lia.
      rewrite (proj2 (Z.ltb_ge (limbs_of s) 0)), (proj2 (Z.ltb_ge (limbs_of t) 0)), (proj2 (Z.ltb_ge (limbs_of s) (limbs_of t))) in G by lia.
      cbn [orb] in G. rewrite andb_false_r in G. rewrite (proj2 (Z.leb_gt 2147483648 _)) in G by lia. rewrite andb_false_r in G.
      rewrite !low_all in G by lia. rewrite (proj2 (Z.leb_le (limbs_of s + limbs_of t) _)) in G by lia.
      destruct (limbs_of t <? 1); [exact G|]. destruct (limbs_of t <? 32); [exact G|]. destruct G as (G & _). apply G; lia. }
    destruct (Z.ltb_spec (limbs_of x) (limbs_of y)) as [G|G].
    + apply K in H; [|lia|lia]. rewrite Z.add_comm, Z.mul_comm in H. eapply held_fits; [|idtac|exact H]; lia.
    + apply K in H; [|lia|lia]. eapply held_fits; [|idtac|exact H]; lia.
Qed.

Lemma wide_abs x : 2 <= limbs_of x -> 2147483648 <= Z.abs x.
Proof. intros H. pose proof (limbs_two x H). lia. Qed.

Theorem mul_i_zero c a b x : represents a x -> represents b 0 -> 2 ^ 31 - 1 <= limbs_of x < 2 ^ 32 - 1 ->
  returns (bi_mul_i c a b) (if x <? 0 then -1 else 1) /\ returns (bi_mul_i c b a) (if x <? 0 then -1 else 1).
Proof.
  intros Ha Hb. change (2 ^ 31 - 1) with 2147483647. change (2 ^ 32 - 1) with 4294967295. intros Hn.
  pose proof (wide_abs x ltac:(lia)) as X. pose proof (limbs_of_small 0 ltac:(lia)) as L0.
  pose proof (product_any_holds c a b x 0 Ha Hb) as H. pose proof (product_any_holds c b a 0 x Hb Ha) as H'.
  unfold product_any in H, H'. change (2 ^ 31) with 2147483648 in H, H'. cbv zeta in H, H'.
  change (Z.abs 0 <? 2147483648) with true in H, H'. rewrite (proj2 (Z.ltb_ge (Z.abs x) _)) in H, H' by lia. cbn [andb orb] in H, H'.
  rewrite L0 in H, H'. rewrite Z.max_l in H by lia. rewrite Z.max_r in H' by lia. change (Z.abs 0) with 0 in H, H'.
  rewrite Z.mul_0_r in H. rewrite Z.mul_0_l in H'. change (0 <? 0) with false in H, H'. rewrite xorb_false_r in H. rewrite xorb_false_l in H'.
  rewrite int_of_back in H, H' by lia. apply held_none in H, H'; try lia. unfold signed in H, H'. destruct (x <? 0); auto.
Qed.

Lemma held_gone c n neg o : 4294967296 <= n < 8589934592 -> held c (int_of n) neg 0 o ->
  returns o (if n <? 6442450944 then 0 else if neg then -1 else 1).
Proof.
  intros Hn H. destruct (Z.ltb_spec n 6442450944) as [G|G].
  - rewrite int_of_back in H by lia. apply (held_exact c (n - 4294967296) neg 0) in H.
    + unfold signed in H. destruct neg; exact H.
    + left. split; [lia|]. split; [lia|]. apply pow2_pos. lia.
  - assert (int_of n = n - 8589934592) as E.
    { unfold int_of. change (2 ^ 31) with 2147483648. change (2 ^ 32) with 4294967296.
      replace (n + 2147483648) with ((n - 6442450944) + 2 * 4294967296) by lia. rewrite Z.mod_add by lia.
      rewrite Z.mod_small by lia. lia. }
    rewrite E in H. apply held_none in H; [|lia]. unfold signed in H. destruct neg; exact H.
Qed.

Lemma wide_limbs x : 2147483648 <= limbs_of x < 4294967296 -> int_limbs x = limbs_of x - 4294967296.
Proof. intros H. unfold int_limbs. apply int_of_back. lia. Qed.

Theorem mul_i_wide c a b x y : represents a x -> represents b y ->
  2 ^ 31 <= limbs_of x < 2 ^ 32 -> 2 ^ 31 <= limbs_of y < 2 ^ 32 ->
  if dbg c then bi_mul_i c a b = AssertFail
  else returns (bi_mul_i c a b)
    (if limbs_of x + limbs_of y <? 2 ^ 32 + 2 ^ 31 then 0 else if xorb (x <? 0) (y <? 0) then -1 else 1).
Proof.
  intros Ha Hb. change (2 ^ 32 + 2 ^ 31) with 6442450944. change (2 ^ 31) with 2147483648. change (2 ^ 32) with 4294967296. intros Hx Hy.
  pose proof (wide_abs x ltac:(lia)) as X. pose proof (wide_abs y ltac:(lia)) as Y.
  pose proof (product_any_holds c a b x y Ha Hb) as H. unfold product_any in H. change (2 ^ 31) with 2147483648 in H. cbv zeta in H.
  rewrite (proj2 (Z.ltb_ge (Z.abs x) _)), (proj2 (Z.ltb_ge (Z.abs y) _)) in H by lia. cbn [andb orb] in H.
  destruct (Z.eqb_spec (Z.abs x) (Z.abs y)) as [E|E].
  { pose proof (limbs_abs x y E) as L. unfold square_any in H. change (2 ^ 30) with 1073741824 in H. cbv zeta in H.
    rewrite wide_limbs in H by lia. rewrite (proj2 (Z.ltb_lt (_ - _) 0)) in H by lia. rewrite andb_true_r in H.
    destruct (dbg c); [exact H|]. rewrite (proj2 (Z.ltb_lt (_ - _) _)) in H by lia. rewrite low_none in H by lia. rewrite Z.mul_0_l in H.
    replace (limbs_of x + limbs_of y) with (2 * limbs_of x) by lia. apply (held_gone c); [lia|exact H]. }
  assert (forall s t neg o, 2147483648 <= limbs_of s < 4294967296 -> 2147483648 <= limbs_of t < 4294967296 -> long_product_any c s t neg o ->
    if dbg c then o = AssertFail else held c (int_of (limbs_of s + limbs_of t)) neg 0 o) as K.
  { intros s t neg o Hs Ht G. unfold long_product_any in G. cbv zeta in G. rewrite !wide_limbs in G by lia.
    rewrite (proj2 (Z.ltb_lt (limbs_of s - _) 0)) in G by lia. cbn [orb] in G. rewrite andb_true_r in G.
    destruct (dbg c); [exact G|]. cbn [andb] in G. rewrite (proj2 (Z.ltb_lt (limbs_of t - _) 1)) in G by lia.
    rewrite !low_none in G by lia. rewrite Z.mul_0_l in G. exact G. }
  destruct (Z.ltb_spec (limbs_of x) (limbs_of y)) as [G|G]; apply K in H; try lia; (destruct (dbg c); [exact H|]).
  - rewrite Z.add_comm in H. apply (held_gone c); [lia|exact H].
  - apply (held_gone c); [lia|exact H].
Qed.

(** A product by a number of 2 to 31 limbs that ends past INT_MAX. *)
Theorem mul_i_past c a b x y : represents a x -> represents b y ->
  2 ^ 31 - limbs_of y < limbs_of x < 2 ^ 32 -> 2 ^ 31 <= Z.abs y -> limbs_of y < 32 ->
  let bad := if limbs_of x <? 2 ^ 31 then Undef (if strict c then SignedOverflow else OutOfBounds)
             else if dbg c then AssertFail else Undef OutOfBounds in
  bi_mul_i c a b = bad /\ bi_mul_i c b a = bad.
Proof.
  intros Ha Hb. change (2 ^ 31) with 2147483648. change (2 ^ 32) with 4294967296. intros Hn Y R.
  destruct (limbs_bound y) as (A' & _).
  pose proof (wide_abs x ltac:(lia)) as X.
  assert (Z.abs x <> Z.abs y) as NE by (intros E; apply limbs_abs in E; lia).
  assert (forall neg o, long_product_any c x y neg o -> o = if limbs_of x <? 2147483648 then Undef (if strict c then SignedOverflow else OutOfBounds)
             else if dbg c then AssertFail else Undef OutOfBounds) as K.
  { intros neg o G. unfold long_product_any in G. change (2 ^ 31) with 2147483648 in G. cbv zeta in G. rewrite (int_limbs_small y) in G by lia.
    rewrite (proj2 (Z.ltb_ge (limbs_of y) 0)), (proj2 (Z.ltb_ge (limbs_of y) 1)), (proj2 (Z.ltb_lt (limbs_of y) 32)) in G by lia.
    destruct (Z.ltb_spec (limbs_of x) 2147483648) as [S|S].
    - rewrite int_limbs_small in G by lia.
      rewrite (proj2 (Z.ltb_ge (limbs_of x) 0)), (proj2 (Z.ltb_ge (limbs_of x) (limbs_of y))) in G by lia.
      cbn [orb] in G. rewrite andb_false_r in G. rewrite (proj2 (Z.leb_le 2147483648 _)) in G by lia. rewrite andb_true_r in G.
      rewrite (proj2 (Z.leb_gt (limbs_of x + limbs_of y) _)) in G by lia. destruct (dbg c), (strict c); exact G.
    - rewrite wide_limbs in G by lia. rewrite (proj2 (Z.ltb_lt (limbs_of x - _) 0)) in G by lia. cbn [orb] in G. rewrite andb_true_r in G.
      destruct (dbg c); [exact G|]. exact G. }
  pose proof (product_any_holds c a b x y Ha Hb) as H. pose proof (product_any_holds c b a y x Hb Ha) as H'.
  unfold product_any in H, H'. change (2 ^ 31) with 2147483648 in H, H'. cbv zeta in H, H'.
  rewrite (proj2 (Z.ltb_ge (Z.abs x) _)), (proj2 (Z.ltb_ge (Z.abs y) _)) in H, H' by lia. cbn [andb orb] in H, H'.
  rewrite (proj2 (Z.eqb_neq (Z.abs x) (Z.abs y))) in H by exact NE. rewrite (proj2 (Z.eqb_neq (Z.abs y) (Z.abs x))) in H' by lia.
  rewrite (proj2 (Z.ltb_ge (limbs_of x) (limbs_of y))) in H by lia. rewrite (proj2 (Z.ltb_lt (limbs_of y) (limbs_of x))) in H' by lia.
  split; eapply K; eassumption.
Qed.

(** The left length is negative, and stays so. *)
Theorem mul_i_far c a b x y : represents a x -> represents b y ->
  2 ^ 31 + limbs_of y <= limbs_of x < 2 ^ 32 -> 2 ^ 31 <= Z.abs y ->
  let bad := if dbg c then AssertFail else Undef OutOfBounds in
  bi_mul_i c a b = bad /\ bi_mul_i c b a = bad.
Proof.
  intros Ha Hb. change (2 ^ 31) with 2147483648. change (2 ^ 32) with 4294967296. intros Hn Y.
  destruct (limbs_bound y) as (A' & _).
  pose proof (wide_abs x ltac:(lia)) as X.
  assert (Z.abs x <> Z.abs y) as NE by (intros E; apply limbs_abs in E; lia).
  assert (forall neg o, long_product_any c x y neg o -> o = if dbg c then AssertFail else Undef OutOfBounds) as K.
  { intros neg o G. unfold long_product_any in G. change (- 2 ^ 31) with (-2147483648) in G. change (2 ^ 31) with 2147483648 in G. cbv zeta in G.
    rewrite (int_limbs_small y) in G by lia. rewrite (proj2 (Z.ltb_ge (limbs_of y) 1)) in G by lia.
    rewrite wide_limbs in G by lia. rewrite (proj2 (Z.ltb_lt (limbs_of x - _) 0)) in G by lia. cbn [orb] in G. rewrite andb_true_r in G.
    destruct (dbg c); [exact G|]. cbn [andb] in G. destruct (limbs_of y <? 32); [exact G|]. apply G; lia. }
  pose proof (product_any_holds c a b x y Ha Hb) as H. pose proof (product_any_holds c b a y x Hb Ha) as H'.
  unfold product_any in H, H'. change (2 ^ 31) with 2147483648 in H, H'. cbv zeta in H, H'.
  rewrite (proj2 (Z.ltb_ge (Z.abs x) _)), (proj2 (Z.ltb_ge (Z.abs y) _)) in H, H' by lia. cbn [andb orb] in H, H'.
  rewrite (proj2 (Z.eqb_neq (Z.abs x) (Z.abs y))) in H by exact NE. rewrite (proj2 (Z.eqb_neq (Z.abs y) (Z.abs x))) in H' by lia.
  rewrite (proj2 (Z.ltb_ge (limbs_of x) (limbs_of y))) in H by lia. rewrite (proj2 (Z.ltb_lt (limbs_of y) (limbs_of x))) in H' by lia.
  split; eapply K; eassumption.
Qed.

(** Each length fits in an int, and their sum does not. *)
Theorem mul_i_strict c a b x y : represents a x -> represents b y -> strict c = true ->
  2 ^ 31 <= Z.abs x -> 2 ^ 31 <= Z.abs y -> limbs_of x < 2 ^ 31 -> limbs_of y < 2 ^ 31 -> 2 ^ 31 < limbs_of x + limbs_of y ->
  bi_mul_i c a b = Undef SignedOverflow.
Proof.
  intros Ha Hb S. change (2 ^ 31) with 2147483648. intros X Y LX LY Big.
  destruct (limbs_bound x) as (A & _). destruct (limbs_bound y) as (A' & _).
  pose proof (product_any_holds c a b x y Ha Hb) as H.
  unfold product_any in H. change (2 ^ 31) with 2147483648 in H. cbv zeta in H.
  rewrite (proj2 (Z.ltb_ge (Z.abs x) _)), (proj2 (Z.ltb_ge (Z.abs y) _)) in H by lia. cbn [andb orb] in H.
  destruct (Z.eqb_spec (Z.abs x) (Z.abs y)) as [E|E].
  { pose proof (limbs_abs x y E) as L. unfold square_any in H. change (2 ^ 30) with 1073741824 in H. cbv zeta in H.
    rewrite int_limbs_small in H by lia. rewrite (proj2 (Z.ltb_ge (limbs_of x) 0)) in H by lia. rewrite andb_false_r in H.
    rewrite (proj2 (Z.ltb_ge (limbs_of x) _)) in H by lia. exact (H S). }
  assert (forall s t neg o, limbs_of s < 2147483648 -> 1 <= limbs_of t <= limbs_of s -> 2147483648 < limbs_of s + limbs_of t -> long_product_any c s t neg o ->
    o = Undef SignedOverflow) as K.
  { intros s t neg o Hs Ht Hb' G. unfold long_product_any in G. change (- 2 ^ 31) with (-2147483648) in G. change (2 ^ 31) with 2147483648 in G. cbv zeta in G.
    rewrite !int_limbs_small in G by lia.
    rewrite (proj2 (Z.ltb_ge (limbs_of s) 0)), (proj2 (Z.ltb_ge (limbs_of t) 0)), (proj2 (Z.ltb_ge (limbs_of s) (limbs_of t))) in G by lia.
    cbn [orb] in G. rewrite andb_false_r in G. rewrite S in G. rewrite (proj2 (Z.leb_le 2147483648 _)) in G by lia. rewrite !andb_true_r in G.
    destruct (dbg c); [exact G|]. rewrite (proj2 (Z.ltb_ge (limbs_of t) 1)) in G by lia. rewrite (proj2 (Z.leb_gt (limbs_of s + limbs_of t) _)) in G by lia.
    destruct (limbs_of t <? 32); [exact G|]. apply G; [lia|lia|reflexivity]. }
  destruct (Z.ltb_spec (limbs_of x) (limbs_of y)) as [G|G]; (eapply K; [| | |exact H]; lia).
Qed.

Theorem mul_wide_case : forall k, k = 2 ^ 31 -> exists a,
  represents a (2 ^ (32 * k)) /\
  forall c b, (represents b 0 -> returns (bi_mul_i c a b) 1) /\
    (dbg c = false -> returns (bi_mul_i c a a) 0) /\
    (dbg c = true -> bi_mul_i c a a = AssertFail) /\
    (represents b (2 ^ 40) -> bi_mul_i c a b = if dbg c then AssertFail else Undef OutOfBounds).
Proof.
  intros k Ek. change (2 ^ 31) with 2147483648 in Ek. destruct (represents_total (2 ^ (32 * k))) as (a & Ha).
  exists a. split; [exact Ha|]. pose proof (limbs_of_power k 0 ltac:(lia)) as L. rewrite Z.add_0_r in L.
  specialize (L ltac:(split; [lia|apply pow2_pos; lia])).
  assert ((2 ^ (32 * k) <? 0) = false) as P by (apply Z.ltb_ge, Z.lt_le_incl, pow2_pos; lia).
  generalize dependent (2 ^ (32 * k)). intros z Ha L P.
  intros c b. split; [|split; [|split]].
  - intros Hb. pose proof (mul_i_zero c a b z Ha Hb) as H. change (2 ^ 31 - 1) with 2147483647 in H. change (2 ^ 32 - 1) with 4294967295 in H.
    destruct (H ltac:(lia)) as (H1 & _). rewrite P in H1. exact H1.
  - intros D. pose proof (mul_i_wide c a a z z Ha Ha) as H. change (2 ^ 32 + 2 ^ 31) with 6442450944 in H.
    change (2 ^ 31) with 2147483648 in H. change (2 ^ 32) with 4294967296 in H. specialize (H ltac:(lia) ltac:(lia)).
    rewrite D, (proj2 (Z.ltb_lt _ _)) in H by lia. exact H.
  - intros D. pose proof (mul_i_wide c a a z z Ha Ha) as H. change (2 ^ 32 + 2 ^ 31) with 6442450944 in H.
    change (2 ^ 31) with 2147483648 in H. change (2 ^ 32) with 4294967296 in H. specialize (H ltac:(lia) ltac:(lia)).
    rewrite D in H. exact H.
  - intros Hb. assert (limbs_of (2 ^ 40) = 2) as L2 by reflexivity.
    pose proof (mul_i_past c a b z (2 ^ 40) Ha Hb) as H. rewrite L2 in H. change (2 ^ 31) with 2147483648 in H. change (2 ^ 32) with 4294967296 in H.
    specialize (H ltac:(lia) ltac:(lia) ltac:(lia)). cbv zeta in H. rewrite (proj2 (Z.ltb_ge _ _)) in H by lia. apply H.
Qed.

Theorem mul_strict_case : forall k, k = 2 ^ 30 -> exists a,
  represents a (2 ^ (32 * k)) /\ forall c, strict c = true -> bi_mul_i c a a = Undef SignedOverflow.
Proof.
  intros k Ek. change (2 ^ 30) with 1073741824 in Ek. destruct (represents_total (2 ^ (32 * k))) as (a & Ha).
  exists a. split; [exact Ha|]. pose proof (limbs_of_power k 0 ltac:(lia)) as L. rewrite Z.add_0_r in L.
  specialize (L ltac:(split; [lia|apply pow2_pos; lia])).
  generalize dependent (2 ^ (32 * k)). intros z Ha L c S. pose proof (mul_i_strict c a a z z Ha Ha S) as H.
  change (2 ^ 31) with 2147483648 in H. pose proof (wide_abs z ltac:(lia)). apply H; lia.
Qed.
