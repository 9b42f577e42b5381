(** What the description of mod_pow by long moduli of any size comes to. *)
From Verif Require Import Machine Facts Spec SpecFacts SpecApi SpecGcd ConvFacts LeakyModPow ModPowApi BigInt CalcPowMod RunExact SpecActual
  IntSizes SpecSizes IntSizesFacts SpecLimbs ActualFacts IntLimbsFacts IntLimbsLaws IntConvFacts IntBitsFacts IntAddLaws IntTextLaws IntGcdLaws IntPow SpecIntPow IntPowFacts IntPowLaws IntModPow SpecIntModPow IntModPowFacts.
Ltac Zify.zify_post_hook ::= idtac.

(** Bases of fewer than 2^31 limbs. *)
Lemma any_short c x e z o : mod_pow_long_any c x e z o -> limbs_of x < 2 ^ 31 ->
  let size := int_of (2 * limbs_of z) in
  if e <? 0 then o = Sized (Throw OutOfRange)
  else if size <? 0 then o = LengthError
  else if (size <? limbs_of x) && (limbs_of x <=? limbs_of z) then o = Sized (Undef OutOfBounds)
  else limbs_of z < 2 ^ 29 ->
    if strict c && (limbs_of z <? 32) && (2 ^ 31 <? limbs_of e) then o = Sized (Undef SignedOverflow)
    else exists p, o = Sized p /\ denotes p (power_mod (dbg c) x (if limbs_of z <? 32 then exponent_used e else e) z).
Proof.
  intros H Hx size. unfold mod_pow_long_any in H. cbv zeta in H. fold size in H. destruct (e <? 0); [exact H|].
  destruct (limbs_of_count x) as (P & _). replace (int_limbs x <? 0) with false in H; [cbn [andb] in H; rewrite (proj2 (Z.ltb_lt _ _) Hx) in H; exact H|].
  symmetry. apply Z.ltb_ge. clear H. change (2 ^ 31) with 2147483648 in Hx.
  unfold int_limbs. rewrite int_of_s32, s32_small by (unfold INT_MIN, INT_MAX; lia). lia.
Qed.

(** Moduli of fewer than 2^29 limbs. *)
Lemma any_below c a b m x e z : represents a x -> represents b e -> represents m z ->
  2 ^ 31 <= Z.abs z -> 0 <= e -> limbs_of x < 2 ^ 31 -> limbs_of z < 2 ^ 29 ->
  if strict c && (limbs_of z <? 32) && (2 ^ 31 <? limbs_of e) then bi_mod_pow_long_i c a b m = Sized (Undef SignedOverflow)
  else exists p, bi_mod_pow_long_i c a b m = Sized p /\ denotes p (power_mod (dbg c) x (if limbs_of z <? 32 then exponent_used e else e) z).
Proof.
  intros Ha Hb Hm Hz E Hx L. pose proof (mod_pow_long_any_holds c a b m x e z Ha Hb Hm Hz) as H.
  apply any_short in H; [|exact Hx]. rewrite (proj2 (Z.ltb_ge e 0) E) in H.
  assert (0 < limbs_of z) as P by (destruct (limbs_of_count z); lia).
  revert H. change (2 ^ 29) with 536870912 in *. rewrite int_of_s32, s32_small by (unfold INT_MIN, INT_MAX; lia).
  rewrite (proj2 (Z.ltb_ge (2 * limbs_of z) 0)) by lia.
  destruct (Z.ltb_spec (2 * limbs_of z) (limbs_of x)), (Z.leb_spec (limbs_of x) (limbs_of z)); cbn [andb]; try lia; intros K; exact (K L).
Qed.

Theorem mod_pow_long_below c a b m x e z : represents a x -> represents b e -> represents m z ->
  2 ^ 31 <= Z.abs z -> limbs_of x < 2 ^ 31 -> (limbs_of z < 32 -> limbs_of e <= 2 ^ 31) -> limbs_of z < 2 ^ 29 ->
  exists p, bi_mod_pow_long_i c a b m = Sized p /\ denotes p (power_mod (dbg c) x e z).
Proof.
  intros Ha Hb Hm Hz Hx He L. destruct (Z.ltb_spec e 0) as [E|E].
  { pose proof (mod_pow_long_any_holds c a b m x e z Ha Hb Hm Hz) as H. apply any_short in H; [|exact Hx]. rewrite (proj2 (Z.ltb_lt e 0) E) in H.
    rewrite H. eexists. split; [reflexivity|]. unfold power_mod. now rewrite (proj2 (Z.ltb_lt e 0) E). }
  pose proof (any_below c a b m x e z Ha Hb Hm Hz E Hx L) as H. destruct (Z.ltb_spec (limbs_of z) 32) as [Q|Q].
  - specialize (He Q). change (2 ^ 31) with 2147483648 in He, H. rewrite (proj2 (Z.ltb_ge 2147483648 _) He), andb_false_r in H.
    rewrite exponent_exact in H by lia. exact H.
  - rewrite andb_false_r in H. exact H.
Qed.

(** Exponents of more than 2^31 limbs. *)
Theorem mod_pow_long_strict c a b m x e z : represents a x -> represents b e -> represents m z ->
  2 ^ 31 <= Z.abs z -> 0 <= e -> limbs_of x < 2 ^ 31 -> limbs_of z < 32 -> strict c = true -> 2 ^ 31 < limbs_of e ->
  bi_mod_pow_long_i c a b m = Sized (Undef SignedOverflow).
Proof.
  intros Ha Hb Hm Hz E Hx L S Le.
  assert (limbs_of z < 2 ^ 29) as L' by (change (2 ^ 29) with 536870912; lia).
  pose proof (any_below c a b m x e z Ha Hb Hm Hz E Hx L') as H.
  rewrite S, (proj2 (Z.ltb_lt _ _) L), (proj2 (Z.ltb_lt _ _) Le) in H. exact H.
Qed.

Lemma power_61 j r s t : 0 <= j -> j mod 60 = r -> 2 ^ r mod 61 = s -> 2 ^ s = t -> t < 2305843009213693951 ->
  2 ^ (2 ^ j) mod 2305843009213693951 = t.
Proof.
  intros Hj Hr Hs Ht B. rewrite (period 2305843009213693951 61) by (try reflexivity; try apply Z.pow_nonneg; lia).
  rewrite (period 61 60 j) by (try reflexivity; lia). rewrite Hr, Hs, Ht. apply Z.mod_small. split; [|exact B].
  rewrite <- Ht. apply Z.pow_nonneg. discriminate.
Qed.

(** 2 to the 2^(32 (k + 1)), the top limb of which is taken for the one below. *)
Theorem mod_pow_long_lost : forall k, k = 2 ^ 31 -> exists b m, represents b (2 ^ (32 * (k + 1))) /\ represents m (2 ^ 61 - 1) /\
  forall c a, represents a 2 ->
    (strict c = true -> bi_mod_pow_long_i c a b m = Sized (Undef SignedOverflow)) /\
    (strict c = false -> exists p, bi_mod_pow_long_i c a b m = Sized p /\ returns p (2 ^ 22)) /\
    Z.rem (2 ^ 2 ^ (32 * (k + 1))) (2 ^ 61 - 1) = 2 ^ 34.
Proof.
  intros k Hk. change (2 ^ 31) with 2147483648 in Hk. destruct (represents_total (2 ^ (32 * (k + 1)))) as (b & Hb).
  destruct (represents_total (2 ^ 61 - 1)) as (m & Hm). exists b, m. split; [exact Hb|]. split; [exact Hm|].
  pose proof (pow2_pos (32 * (k + 1)) ltac:(lia)) as P. pose proof (pow2_pos (32 * k) ltac:(lia)) as P'.
  assert (limbs_of (2 ^ (32 * (k + 1))) = k + 2) as L.
  { rewrite <- (Z.add_0_r (2 ^ _)), limbs_of_power by lia. lia. }
  assert (exponent_used (2 ^ (32 * (k + 1))) = 2 ^ (32 * k)) as E.
  { unfold exponent_used. rewrite L. cbv zeta. change (2 ^ 31) with 2147483648. replace (k + 2 - 1) with (k + 1) by ring.
    replace (Z.min (k + 1) 2147483648) with k by lia. unfold low. rewrite Z.max_r, Z.abs_eq by lia.
    rewrite Z.div_same by lia. replace (2 ^ (32 * (k + 1)) mod 2 ^ (32 * k)) with 0; [ring|].
    replace (32 * (k + 1)) with (32 + 32 * k) by ring. rewrite Z.pow_add_r by lia. symmetry. apply Z.mod_mul. lia. }
  change (2 ^ 61 - 1) with 2305843009213693951 in *.
  assert (2 ^ 2 ^ (32 * k) mod 2305843009213693951 = 2 ^ 22) as V.
  { apply (power_61 (32 * k) 16 22); [lia|subst k; reflexivity|reflexivity|reflexivity|reflexivity]. }
  assert (2 ^ 2 ^ (32 * (k + 1)) mod 2305843009213693951 = 2 ^ 34) as V'.
  { apply (power_61 (32 * (k + 1)) 48 34); [lia|subst k; reflexivity|reflexivity|reflexivity|reflexivity]. }
  generalize dependent (2 ^ (32 * (k + 1))). intros e Hb P L E V'. generalize dependent (2 ^ (32 * k)). intros f P' V E.
  assert (0 <= 2 ^ e) as Q by (apply Z.pow_nonneg; discriminate).
  assert (0 <= 2 ^ f) as Q' by (apply Z.pow_nonneg; discriminate).
  intros c a Ha. split; [|split].
  - intros S. apply (mod_pow_long_strict c a b m 2 e 2305843009213693951 Ha Hb Hm); auto; try discriminate; try reflexivity; [lia|].
    change (2 ^ 31) with 2147483648. lia.
  - intros S. pose proof (any_below c a b m 2 e 2305843009213693951 Ha Hb Hm ltac:(discriminate) ltac:(lia) eq_refl eq_refl) as H.
    rewrite S, E in H. change (limbs_of 2305843009213693951 <? 32) with true in H. cbn [andb] in H.
    destruct H as (p & Hp & D). exists p. split; [exact Hp|]. unfold power_mod in D. rewrite (proj2 (Z.ltb_ge f 0)) in D by lia.
    change (2305843009213693951 =? 0) with false in D. change (Z.abs 2305843009213693951 <? 2 ^ 31) with false in D.
    change (Z.abs 2305843009213693951 <? 2 ^ 992) with true in D. cbn beta iota in D.
    rewrite Z.rem_mod_nonneg, V in D; [exact D|exact Q'|reflexivity].
  - rewrite Z.rem_mod_nonneg; [exact V'|exact Q|reflexivity].
Qed.

Theorem mod_pow_long_wide c a b m x e z : represents a x -> represents b e -> represents m z -> 0 <= e -> limbs_of x < 2 ^ 31 ->
  2 ^ 30 <= limbs_of z < 2 ^ 31 -> bi_mod_pow_long_i c a b m = LengthError.
Proof.
  intros Ha Hb Hm He Hx L. change (2 ^ 30) with 1073741824 in L. change (2 ^ 31) with 2147483648 in L.
  assert (2 ^ 31 <= Z.abs z) as Hz.
  { change (2 ^ 31) with 2147483648. destruct (Z.lt_ge_cases (Z.abs z) 2147483648) as [S|S]; [|exact S]. rewrite (limbs_of_small z S) in L. lia. }
  pose proof (mod_pow_long_any_holds c a b m x e z Ha Hb Hm Hz) as H. apply any_short in H; [|exact Hx].
  rewrite (proj2 (Z.ltb_ge e 0)) in H by lia. rewrite int_of_back in H by lia. rewrite (proj2 (Z.ltb_lt (_ - _) 0)) in H by lia. exact H.
Qed.

Theorem mod_pow_long_half c a b m x e z : represents a x -> represents b e -> represents m z -> 0 <= e -> limbs_of x < 2 ^ 31 ->
  limbs_of z = 2 ^ 31 -> bi_mod_pow_long_i c a b m = Sized (Undef OutOfBounds).
Proof.
  intros Ha Hb Hm He Hx L. change (2 ^ 31) with 2147483648 in L.
  assert (2 ^ 31 <= Z.abs z) as Hz.
  { change (2 ^ 31) with 2147483648. destruct (Z.lt_ge_cases (Z.abs z) 2147483648) as [S|S]; [|exact S]. rewrite (limbs_of_small z S) in L. lia. }
  pose proof (mod_pow_long_any_holds c a b m x e z Ha Hb Hm Hz) as H. apply any_short in H; [|exact Hx].
  destruct (limbs_of_count x) as (P & _). change (2 ^ 31) with 2147483648 in Hx.
  rewrite (proj2 (Z.ltb_ge e 0)) in H by lia. rewrite L in H. rewrite int_of_back in H by lia.
  change (2 * 2147483648 - 4294967296) with 0 in H. change (0 <? 0) with false in H. cbn beta iota in H.
  rewrite (proj2 (Z.ltb_lt 0 _)), (proj2 (Z.leb_le (limbs_of x) _)) in H by lia. exact H.
Qed.

(** A base whose size is negative as an int. *)
Theorem mod_pow_long_base c a b m x e z : represents a x -> represents b e -> represents m z -> 0 <= e -> 2 ^ 31 <= limbs_of x < 2 ^ 32 ->
  2 ^ 31 <= Z.abs z -> limbs_of z < 2 ^ 30 ->
  bi_mod_pow_long_i c a b m = Sized (if dbg c then AssertFail else Undef OutOfBounds).
Proof.
  intros Ha Hb Hm He Lx Hz Lz. change (2 ^ 31) with 2147483648 in *. change (2 ^ 32) with 4294967296 in *. change (2 ^ 30) with 1073741824 in *.
  rewrite (mod_pow_long_back c a b m x e z Ha Hb Hm Hz He); [|unfold int_limbs; rewrite int_of_back by lia; lia|lia].
  destruct (limbs_of_count z) as (P & _). rewrite int_of_s32, s32_small by (unfold INT_MIN, INT_MAX; lia).
  rewrite (proj2 (Z.ltb_ge (2 * limbs_of z) 0)) by lia. now destruct (dbg c).
Qed.

(** 1 modulo a number of 2^30 limbs. *)
Theorem mod_pow_long_case : forall k, k = 2 ^ 30 -> exists m, represents m (2 ^ (32 * (k - 1))) /\
  forall c a, represents a 1 -> bi_mod_pow_long_i c a a m = LengthError /\ Z.rem (1 ^ 1) (2 ^ (32 * (k - 1))) = 1.
Proof.
  intros k Hk. change (2 ^ 30) with 1073741824 in Hk. destruct (represents_total (2 ^ (32 * (k - 1)))) as (m & Hm). exists m. split; [exact Hm|].
  pose proof (pow2_pos (32 * (k - 1)) ltac:(lia)) as P.
  assert (limbs_of (2 ^ (32 * (k - 1))) = k) as L.
  { rewrite <- (Z.add_0_r (2 ^ _)), limbs_of_power by lia. lia. }
  assert (1 < 2 ^ (32 * (k - 1))) as G by (apply Z.pow_gt_1; lia).
  intros c a Ha. split.
  - apply (mod_pow_long_wide c a a m 1 1 _ Ha Ha Hm); [lia|reflexivity|]. rewrite L. clear - Hk.
    change (2 ^ 30) with 1073741824. change (2 ^ 31) with 2147483648. lia.
  - rewrite Z.pow_1_l by lia. apply Z.rem_small. lia.
Qed.

Lemma limbs_both x : 1 <= Z.abs x -> 1 <= limbs_of x /\ Z.abs x < 2 ^ (32 * limbs_of x) /\ 2 ^ (32 * (limbs_of x - 1)) <= Z.abs x.
Proof.
  intros H. destruct (limbs_bound x) as (A & B). split; [exact A|]. split; [exact B|].
  destruct (Z.eq_dec (limbs_of x) 1) as [->|N]; [exact H|]. apply limbs_at_least; lia.
Qed.

(** A base whose size comes back positive is cut. *)
Lemma cut_like x z w : x <> 0 -> 0 <= w < Z.abs z -> 2147483648 <= Z.abs z -> limbs_of z < 32 ->
  let y := Z.sgn x * (w + 4294967296 * Z.abs z) in
  Z.sgn y = Z.sgn x /\ limbs_of z < limbs_of y < 2147483648 /\ Z.abs y = w + 4294967296 * Z.abs z.
Proof.
  intros Hx Hw Hz Lz y. assert (Z.abs y = w + 4294967296 * Z.abs z) as A.
  { unfold y. rewrite Z.abs_mul. assert (Z.abs (Z.sgn x) = 1) as -> by lia. lia. }
  split; [unfold y; rewrite Z.sgn_mul, (Z.sgn_pos (_ + _)) by lia; lia|]. split; [|exact A].
  destruct (limbs_both z) as (Z1 & Z2 & Z3); [lia|]. destruct (limbs_both y) as (Y1 & Y2 & Y3); [lia|].
  split.
  - destruct (Z.lt_ge_cases (limbs_of z) (limbs_of y)) as [L|L]; [exact L|exfalso].
    pose proof (Z.pow_le_mono_r 2 (32 * limbs_of y) (32 * limbs_of z) ltac:(lia) ltac:(lia)) as Q.
    replace (32 * limbs_of z) with (32 + 32 * (limbs_of z - 1)) in Q by ring. rewrite Z.pow_add_r in Q by lia. change (2 ^ 32) with 4294967296 in Q. lia.
  - destruct (Z.lt_ge_cases (limbs_of y) 2147483648) as [L|L]; [exact L|exfalso].
    pose proof (Z.pow_le_mono_r 2 (33 + 32 * limbs_of z) (32 * (limbs_of y - 1)) ltac:(lia) ltac:(lia)) as Q.
    rewrite Z.pow_add_r in Q by lia. change (2 ^ 33) with 8589934592 in Q. lia.
Qed.

Theorem mod_pow_long_cut c a b m x e z : represents a x -> represents b e -> represents m z -> 0 <= e -> limbs_of e <= 2 ^ 31 ->
  2 ^ 31 <= Z.abs z < 2 ^ 992 -> 2 ^ 31 <= limbs_of x -> 0 <= int_limbs x -> dbg c = false \/ limbs_of z <= int_limbs x ->
  exists p, bi_mod_pow_long_i c a b m = Sized p /\ returns p (Z.rem ((Z.sgn x * low x (int_limbs x)) ^ e) z).
Proof.
  intros Ha Hb Hm He Le (Hz & Hz') Lx I D. change (2 ^ 31) with 2147483648 in Hz, Lx, Le.
  destruct (limbs_both z) as (Z1 & Z2 & Z3); [lia|].
  assert (limbs_of z < 32) as Lz.
  { destruct (Z.lt_ge_cases (limbs_of z) 32) as [L|L]; [exact L|exfalso].
    pose proof (Z.pow_le_mono_r 2 992 (32 * (limbs_of z - 1)) ltac:(lia) ltac:(lia)). lia. }
  pose proof (mod_pow_long_again c a b m x e z Ha Hb Hm Hz He I Lx ltac:(lia)) as H.
  replace (dbg c && (int_limbs x <? limbs_of z)) with false in H.
  2:{ destruct D as [->|D]; [reflexivity|]. rewrite (proj2 (Z.ltb_ge _ _) D). now rewrite andb_false_r. }
  rewrite int_of_s32, s32_small in H by (unfold INT_MIN, INT_MAX; lia). rewrite (proj2 (Z.ltb_ge (2 * limbs_of z) 0)) in H by lia.
  specialize (H ltac:(lia)). rewrite (proj2 (Z.ltb_ge 2147483648 _) Le), andb_false_r, (proj2 (Z.ltb_lt _ _) Lz), exponent_exact in H by lia.
  destruct H as (p & Hp & H). exists p. split; [exact Hp|].
  assert (x <> 0) as Nx by (intros ->; change (limbs_of 0) with 1 in Lx; lia).
  set (v := low x (int_limbs x)) in *.
  assert (0 <= v) as Pv by (unfold v, low; apply Z.mod_pos_bound, pow2_pos; lia).
  pose proof (Z.mod_pos_bound v (Z.abs z) ltac:(lia)) as MB.
  destruct (cut_like x z (v mod Z.abs z) Nx MB Hz Lz) as (Y1 & Y2 & Y3). set (y := Z.sgn x * (v mod Z.abs z + 4294967296 * Z.abs z)) in *.
  assert (Z.abs y mod Z.abs z = v mod Z.abs z) as Y4 by (rewrite Y3, Z.mod_add by lia; apply Z.mod_mod; lia).
  specialize (H y Y1 Y2 Y4). unfold power_mod in H. rewrite (proj2 (Z.ltb_ge e 0) He), (proj2 (Z.eqb_neq z 0)) in H by lia.
  change (2 ^ 31) with 2147483648 in H. rewrite (proj2 (Z.ltb_ge (Z.abs z) _) Hz), (proj2 (Z.ltb_lt _ _) Hz') in H.
  replace (Z.rem ((Z.sgn x * v) ^ e) z) with (Z.rem (y ^ e) z); [exact H|].
  rewrite !rem_pow by lia. replace (Z.abs (Z.sgn x * v)) with v by (rewrite Z.abs_mul; assert (Z.abs (Z.sgn x) = 1) as -> by lia; lia).
  assert (Z.abs y ^ e mod Z.abs z = v ^ e mod Z.abs z) as ->.
  { rewrite (Zpower_mod (Z.abs y)), Y4, <- Zpower_mod by lia. reflexivity. }
  replace (y <? 0) with (x <? 0) by (destruct (Z.ltb_spec x 0), (Z.ltb_spec y 0); auto; lia).
  destruct (Z.eq_dec v 0) as [V|V].
  - rewrite V, Z.mul_0_r. change (0 <? 0) with false. cbn [andb]. destruct ((x <? 0) && Z.odd e) eqn:O; [|reflexivity].
    apply andb_prop in O as (_ & O). assert (e <> 0) by (intros ->; discriminate O). rewrite Z.pow_0_l, Z.mod_0_l by lia. reflexivity.
  - replace (Z.sgn x * v <? 0) with (x <? 0); [reflexivity|].
    destruct (Z.ltb_spec x 0) as [K|K], (Z.ltb_spec (Z.sgn x * v) 0) as [K'|K']; auto; [rewrite Z.sgn_neg in K' by lia|rewrite Z.sgn_pos in K' by lia]; lia.
Qed.

(** 2^(2^37) + 3, to the first power. *)
Theorem mod_pow_long_cut_case : forall k, k = 2 ^ 32 -> exists a m, represents a (2 ^ (32 * k) + 3) /\ represents m (2 ^ 61 - 1) /\
  forall c b, dbg c = false -> represents b 1 ->
    (exists p, bi_mod_pow_long_i c a b m = Sized p /\ returns p 3) /\
    Z.rem ((2 ^ (32 * k) + 3) ^ 1) (2 ^ 61 - 1) = 2 ^ 55 + 3.
Proof.
  intros k Hk. change (2 ^ 32) with 4294967296 in Hk. destruct (represents_total (2 ^ (32 * k) + 3)) as (a & Ha).
  destruct (represents_total (2 ^ 61 - 1)) as (m & Hm). exists a, m. split; [exact Ha|]. split; [exact Hm|].
  pose proof (Z.pow_le_mono_r 2 32 (32 * k) ltac:(lia) ltac:(lia)) as P. change (2 ^ 32) with 4294967296 in P.
  assert (limbs_of (2 ^ (32 * k) + 3) = k + 1) as L by (rewrite limbs_of_power by lia; reflexivity).
  assert (int_limbs (2 ^ (32 * k) + 3) = 1) as I by (unfold int_limbs; rewrite L, int_of_s32; subst k; reflexivity).
  assert (low (2 ^ (32 * k) + 3) 1 = 3) as Lo.
  { unfold low. change (32 * Z.max 0 1) with 32. rewrite Z.abs_eq by lia. replace (32 * k) with (32 * (k - 1) + 32) by ring.
    rewrite Z.pow_add_r, Z.add_comm, Z.mod_add by lia. reflexivity. }
  assert ((2 ^ (32 * k) + 3) mod 2305843009213693951 = 2 ^ 55 + 3) as V.
  { rewrite Z.add_mod, (period 2305843009213693951 61 (32 * k)) by (try reflexivity; lia).
    replace ((32 * k) mod 61) with 55 by (subst k; reflexivity). reflexivity. }
  change (2 ^ 61 - 1) with 2305843009213693951 in *. generalize dependent (2 ^ (32 * k)). intros t Ha P L I Lo V.
  intros c b D Hb. split.
  - destruct (mod_pow_long_cut c a b m (t + 3) 1 2305843009213693951 Ha Hb Hm) as (p & Hp & R);
      [discriminate|discriminate|split; [discriminate|reflexivity]| |rewrite I; discriminate|now left|].
    + rewrite L. change (2 ^ 31) with 2147483648. lia.
    + exists p. split; [exact Hp|]. rewrite I, Lo, Z.sgn_pos in R by lia. exact R.
  - rewrite Z.pow_1_r, Z.rem_mod_nonneg by lia. exact V.
Qed.
