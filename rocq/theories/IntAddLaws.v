(** Consequences: sizes for which sums and differences are exact, and sizes for
    which they are not. *)
From Verif Require Import Machine Facts Spec SpecFacts SpecApi SpecGcd BigIntFacts BigInt ShiftFacts LeakyModPow RunExact SpecActual ActualFacts
  SpecLimbs IntLimbsFacts IntLimbsLaws IntConvFacts IntConvLaws IntAdd SpecIntAdd IntAddFacts.
Ltac Zify.zify_post_hook ::= idtac.

Lemma limbs_bound x : 1 <= limbs_of x /\ Z.abs x < 2 ^ (32 * limbs_of x).
Proof. destruct (limbs_of_count x) as (A & B & _). split; [exact A|exact B]. Qed.

Lemma limbs_at_least x k : 1 <= k -> k < limbs_of x -> 2 ^ (32 * k) <= Z.abs x.
Proof.
  intros Hk H. destruct (limbs_of_count x) as (_ & _ & C). destruct (Z.lt_ge_cases (Z.abs x) (2 ^ (32 * k))) as [G|G]; [|exact G].
  specialize (C k ltac:(lia) G). lia.
Qed.

Lemma limbs_two x : 2 <= limbs_of x -> 4294967296 <= Z.abs x.
Proof. intros H. exact (limbs_at_least x 1 ltac:(lia) ltac:(lia)). Qed.

Lemma limbs_less x y : limbs_of x < limbs_of y -> Z.abs x < Z.abs y.
Proof.
  intros H. destruct (limbs_bound x) as (A & B). pose proof (limbs_at_least y (limbs_of x) A H). lia.
Qed.

(** A number stored without a limb lost. *)
Lemma held_exact c r neg m o : 0 <= r /\ 0 <= m < 2 ^ (32 * r) \/ r < 0 /\ 2147483648 <= m ->
  held c r neg m o -> returns o (signed neg m).
Proof.
  intros H. unfold held. change (2 ^ 31) with 2147483648. destruct (Z.ltb_spec r 0) as [R|R].
  - destruct H as [H|(_ & H)].
    + lia.
    + rewrite (proj2 (Z.eqb_neq m 0)) by lia. rewrite (proj2 (Z.ltb_ge m _)) by lia. auto.
  - destruct H as [H|H]; [|lia]. assert (low m r = m) as ->; [|destruct (_ <? _); auto].
    unfold low. rewrite Z.abs_eq, Z.max_r by lia. apply Z.mod_small. exact (proj2 H).
Qed.

Lemma held_none c r neg o : r < 0 -> held c r neg 0 o -> returns o (signed neg 1).
Proof. intros R. unfold held. rewrite (proj2 (Z.ltb_lt r 0)) by lia. auto. Qed.

Lemma pow_step n : 1 <= n -> 2 ^ (32 * n) + 2 ^ (32 * n) <= 2 ^ (32 * (n + 1)).
Proof.
  intros H. replace (32 * (n + 1)) with (32 + 32 * n) by ring. rewrite Z.pow_add_r by lia. change (2 ^ 32) with 4294967296.
  pose proof (pow2_pos (32 * n) ltac:(lia)). lia.
Qed.

(** ** Below 2^31 limbs *)

Definition in_int (c : cfg) (x y : Z) : Prop :=
  limbs_of x < 2147483648 /\ limbs_of y < 2147483648 /\
  (dbg c && strict c = true -> limbs_of x < 2147483647 /\ limbs_of y < 2147483647).

Lemma int_limbs_small x : limbs_of x < 2147483648 -> int_limbs x = limbs_of x.
Proof. intros H. destruct (limbs_bound x) as (A & _). apply int_of_small. lia. Qed.

Lemma sum_room m n : 1 <= n < 2147483648 -> 2147483648 <= m < 2 ^ (32 * n) + 2 ^ (32 * n) ->
  0 <= int_of (n + 1) /\ 0 <= m < 2 ^ (32 * int_of (n + 1)) \/ int_of (n + 1) < 0 /\ 2147483648 <= m.
Proof.
  intros Hn Hm. pose proof (pow_step n ltac:(lia)) as P. destruct (Z.lt_ge_cases (n + 1) 2147483648) as [K|K].
  - left. rewrite int_of_small by lia. lia.
  - right. rewrite int_of_wide by lia. lia.
Qed.

Lemma lengthened_exact c x y o : in_int c x y -> ~ (Z.abs x < 2147483648 /\ Z.abs y < 2147483648) ->
  lengthened c x y o -> returns o (signed (x <? 0) (Z.abs x + Z.abs y)).
Proof.
  intros (HX & HY & HS) Big. destruct (limbs_bound x) as (X1 & X2), (limbs_bound y) as (Y1 & Y2). unfold lengthened. cbv zeta.
  change (2 ^ 31 - 1) with 2147483647. change (2 ^ 31) with 2147483648.
  assert (2147483648 <= Z.abs x + Z.abs y) as M.
  { destruct (Z.lt_ge_cases (Z.abs x) 2147483648), (Z.lt_ge_cases (Z.abs y) 2147483648); [tauto|lia|lia|lia]. }
  assert (forall n, limbs_of x <= n -> limbs_of y <= n -> n < 2147483648 ->
    held c (int_of (n + 1)) (x <? 0) (Z.abs x + Z.abs y) o -> returns o (signed (x <? 0) (Z.abs x + Z.abs y))) as Fin.
  { intros n Nx Ny Nn. apply held_exact. apply sum_room; [lia|].
    pose proof (Z.pow_le_mono_r 2 (32 * limbs_of x) (32 * n) ltac:(lia) ltac:(lia)).
    pose proof (Z.pow_le_mono_r 2 (32 * limbs_of y) (32 * n) ltac:(lia) ltac:(lia)). lia. }
  destruct (_ || _); [apply Fin; lia|].
  destruct (Z.ltb_spec (limbs_of x) (limbs_of y)) as [G|G].
  - rewrite ?(int_limbs_small x HX), ?(int_limbs_small y HY).
    rewrite !(proj2 (Z.ltb_ge _ 0)), (proj2 (Z.ltb_ge (limbs_of y) _)) by lia. cbn [orb]. rewrite andb_false_r.
    assert (dbg c && strict c && (limbs_of y =? 2147483647) = false) as ->.
    { destruct (dbg c && strict c) eqn:E; [|reflexivity]. specialize (HS eq_refl). apply Z.eqb_neq. lia. }
    rewrite Z.max_l, !low_all by lia. rewrite (Z.add_comm (Z.abs y)). apply Fin; lia.
  - rewrite ?(int_limbs_small x HX), ?(int_limbs_small y HY).
    rewrite !(proj2 (Z.ltb_ge _ 0)), (proj2 (Z.ltb_ge (limbs_of x) _)) by lia. cbn [orb]. rewrite andb_false_r.
    assert (dbg c && strict c && (limbs_of x =? 2147483647) = false) as ->.
    { destruct (dbg c && strict c) eqn:E; [|reflexivity]. specialize (HS eq_refl). apply Z.eqb_neq. lia. }
    rewrite Z.max_l, !low_all by lia. apply Fin; lia.
Qed.

Lemma found_less_small x y : limbs_of x <= 2147483648 -> found_less x y = (Z.abs x <? Z.abs y).
Proof.
  intros H. destruct (limbs_bound x) as (X1 & X2). unfold found_less. cbv zeta. destruct (Z.eqb_spec (limbs_of x) (limbs_of y)) as [E|E].
  - rewrite int_of_small by lia. rewrite !low_all by lia. reflexivity.
  - destruct (Z.ltb_spec (limbs_of x) (limbs_of y)) as [G|G].
    + symmetry. apply Z.ltb_lt. now apply limbs_less.
    + symmetry. apply Z.ltb_ge. apply Z.lt_le_incl, limbs_less. lia.
Qed.

Lemma limbs_le x y : Z.abs x <= Z.abs y -> limbs_of x <= limbs_of y.
Proof. intros H. destruct (Z.lt_ge_cases (limbs_of y) (limbs_of x)) as [G|G]; [|exact G]. pose proof (limbs_less _ _ G). lia. Qed.

Definition taken_sign (x y : Z) : bool := if Z.abs x <? Z.abs y then 0 <=? x else x <? 0.

Lemma shortened_exact c x y o : limbs_of x < 2147483648 -> limbs_of y < 2147483648 ->
  ~ (Z.abs x < 2147483648 /\ Z.abs y < 2147483648) ->
  shortened c x y o -> returns o (signed (taken_sign x y) (Z.abs (Z.abs x - Z.abs y))).
Proof.
  intros HX HY Big. destruct (limbs_bound x) as (X1 & X2), (limbs_bound y) as (Y1 & Y2). unfold shortened, taken_sign. cbv zeta.
  change (2 ^ 31) with 2147483648. rewrite ?(int_limbs_small x HX), ?(int_limbs_small y HY).
  destruct (Z.ltb_spec (Z.abs x) 2147483648) as [X|X].
  { rewrite (proj2 (Z.ltb_lt (Z.abs x) (Z.abs y))) by lia. replace (Z.abs (Z.abs x - Z.abs y)) with (Z.abs y - Z.abs x) by lia.
    apply held_exact. left. lia. }
  destruct (Z.ltb_spec (Z.abs y) 2147483648) as [Y|Y].
  { rewrite (proj2 (Z.ltb_ge (Z.abs x) (Z.abs y))) by lia. replace (Z.abs (Z.abs x - Z.abs y)) with (Z.abs x - Z.abs y) by lia.
    apply held_exact. left. lia. }
  rewrite found_less_small by lia. destruct (Z.ltb_spec (Z.abs x) (Z.abs y)) as [G|G].
  - pose proof (limbs_le x y ltac:(lia)) as L. rewrite ?(int_limbs_small x HX), ?(int_limbs_small y HY).
    rewrite !(low_all y), !(low_all x) by lia.
    rewrite !(proj2 (Z.ltb_ge _ 0)), (proj2 (Z.ltb_ge (limbs_of y) _)), (proj2 (Z.ltb_ge (Z.abs y) _)) by lia.
    cbn [orb]. rewrite andb_false_r. rewrite (Z.max_l (limbs_of y) (limbs_of x)), (Z.max_r 0) by lia. rewrite Z.mod_small by lia.
    replace (Z.abs (Z.abs x - Z.abs y)) with (Z.abs y - Z.abs x) by lia. apply held_exact. left. lia.
  - pose proof (limbs_le y x ltac:(lia)) as L. rewrite ?(int_limbs_small x HX), ?(int_limbs_small y HY).
    rewrite !(low_all y), !(low_all x) by lia.
    rewrite !(proj2 (Z.ltb_ge _ 0)), (proj2 (Z.ltb_ge (limbs_of x) _)), (proj2 (Z.ltb_ge (Z.abs x) _)) by lia.
    cbn [orb]. rewrite andb_false_r. rewrite (Z.max_l (limbs_of x) (limbs_of y)), (Z.max_r 0) by lia. rewrite Z.mod_small by lia.
    replace (Z.abs (Z.abs x - Z.abs y)) with (Z.abs x - Z.abs y) by lia. apply held_exact. left. lia.
Qed.

Ltac sign_cases := unfold signed, taken_sign in *;
  repeat match goal with |- context [?a <? ?b] => destruct (Z.ltb_spec a b) | |- context [?a <=? ?b] => destruct (Z.leb_spec a b) end; try lia.

Theorem add_sub_i_fits c a b x y : represents a x -> represents b y -> limbs_of x < 2 ^ 31 -> limbs_of y < 2 ^ 31 ->
  (dbg c = false \/ strict c = false \/ limbs_of x < 2 ^ 31 - 1 /\ limbs_of y < 2 ^ 31 - 1) ->
  returns (bi_add_i c a b) (x + y) /\ returns (bi_sub_i c a b) (x - y).
Proof.
  change (2 ^ 31 - 1) with 2147483647. change (2 ^ 31) with 2147483648. intros Ha Hb HX HY HS.
  assert (in_int c x y) as In.
  { split; [exact HX|]. split; [exact HY|]. intros E. apply andb_true_iff in E as (E1 & E2). destruct HS as [S|[S|S]]; [congruence|congruence|exact S]. }
  pose proof (sum_any_holds c a b x y Ha Hb) as S. pose proof (difference_any_holds c a b x y Ha Hb) as D.
  unfold sum_any in S. unfold difference_any in D. change (2 ^ 31) with 2147483648 in *.
  destruct ((Z.abs x <? 2147483648) && (Z.abs y <? 2147483648)) eqn:B; [auto|].
  assert (~ (Z.abs x < 2147483648 /\ Z.abs y < 2147483648)) as Big.
  { intros (B1 & B2). apply Z.ltb_lt in B1, B2. rewrite B1, B2 in B. discriminate. }
  destruct (Bool.eqb (x <? 0) (y <? 0)) eqn:E.
  - apply Bool.eqb_prop in E. apply (lengthened_exact c x y _ In Big) in S. apply (shortened_exact c x y _ HX HY Big) in D.
    assert (x < 0 <-> y < 0) as Same by (rewrite <- !Z.ltb_lt; rewrite E; reflexivity).
    split; [replace (x + y) with (signed (x <? 0) (Z.abs x + Z.abs y)); [exact S|]
      |replace (x - y) with (signed (taken_sign x y) (Z.abs (Z.abs x - Z.abs y))); [exact D|]]; clear - Same; sign_cases.
  - apply Bool.eqb_false_iff in E. apply (lengthened_exact c x y _ In Big) in D. apply (shortened_exact c x y _ HX HY Big) in S.
    assert (x < 0 <-> 0 <= y) as Differ.
    { destruct (Z.ltb_spec x 0), (Z.ltb_spec y 0); try congruence; lia. }
    split; [replace (x + y) with (signed (taken_sign x y) (Z.abs (Z.abs x - Z.abs y))); [exact S|]
      |replace (x - y) with (signed (x <? 0) (Z.abs x + Z.abs y)); [exact D|]]; clear - Differ; sign_cases.
Qed.

(** ** An int and a number of any length *)

Theorem add_sub_i_short c a b x y : represents a x -> represents b y -> limbs_of x < 2 ^ 32 - 1 -> Z.abs y < 2 ^ 31 ->
  returns (bi_add_i c a b) (x + y) /\ returns (bi_add_i c b a) (x + y) /\
  returns (bi_sub_i c a b) (x - y) /\ returns (bi_sub_i c b a) (y - x).
Proof.
  change (2 ^ 32 - 1) with 4294967295. change (2 ^ 31) with 2147483648. intros Ha Hb HX HY.
  destruct (limbs_bound x) as (X1 & X2).
  assert (limbs_of y = 1) as LY.
  { apply limbs_of_eq. unfold limb_count, fits_limbs. change (2 ^ (32 * 1)) with 4294967296. split; [lia|]. split; [lia|]. intros; assumption. }
  destruct (Z.lt_ge_cases (limbs_of x) 2147483647) as [K|K].
  - destruct (add_sub_i_fits c a b x y Ha Hb) as (A1 & A2); [change (2 ^ 31) with 2147483648; lia|change (2 ^ 31) with 2147483648; lia|
      right; right; change (2 ^ 31 - 1) with 2147483647; lia|].
    destruct (add_sub_i_fits c b a y x Hb Ha) as (B1 & B2); [change (2 ^ 31) with 2147483648; lia|change (2 ^ 31) with 2147483648; lia|
      right; right; change (2 ^ 31 - 1) with 2147483647; lia|].
    rewrite Z.add_comm in B1. auto.
  - pose proof (limbs_two x ltac:(lia)) as XB. pose proof (limbs_at_least x (limbs_of x - 1) ltac:(lia) ltac:(lia)) as XL.
    assert (forall neg m o, m = Z.abs x + Z.abs y -> held c (int_of (limbs_of x + 1)) neg m o -> returns o (signed neg m)) as Up.
    { intros neg m o -> H. eapply held_exact; [|exact H]. right. rewrite int_of_wide by lia. lia. }
    assert (forall neg m o, m = Z.abs x - Z.abs y -> held c (int_limbs x) neg m o -> returns o (signed neg m)) as Down.
    { intros neg m o -> H. eapply held_exact; [|exact H]. unfold int_limbs. destruct (Z.lt_ge_cases (limbs_of x) 2147483648) as [K2|K2].
      - left. rewrite int_of_small by lia. lia.
      - right. rewrite int_of_wide by lia. lia. }
    pose proof (sum_any_holds c a b x y Ha Hb) as S1. pose proof (difference_any_holds c a b x y Ha Hb) as D1.
    pose proof (sum_any_holds c b a y x Hb Ha) as S2. pose proof (difference_any_holds c b a y x Hb Ha) as D2.
    unfold sum_any in S1, S2. unfold difference_any in D1, D2. unfold lengthened, shortened in *. change (2 ^ 31) with 2147483648 in *.
    rewrite (proj2 (Z.ltb_ge (Z.abs x) 2147483648)) in * by lia. rewrite (proj2 (Z.ltb_lt (Z.abs y) 2147483648)) in * by lia.
    cbn [andb orb] in *. rewrite LY in *. rewrite Z.max_l in S1, D1 by lia. rewrite Z.max_r in S2, D2 by lia.
    rewrite (Z.add_comm (Z.abs y)) in S2, D2.
    destruct (Bool.eqb (x <? 0) (y <? 0)) eqn:E.
    + apply Bool.eqb_prop in E. rewrite <- E, Bool.eqb_reflx in S2, D2.
      assert (x < 0 <-> y < 0) as Same by (rewrite <- !Z.ltb_lt; rewrite E; reflexivity).
      apply Up in S1, S2; [|reflexivity|reflexivity]. apply Down in D1, D2; [|reflexivity|reflexivity].
      split; [eapply eq_ind; [exact S1|]|split; [eapply eq_ind; [exact S2|]|split; [eapply eq_ind; [exact D1|]|eapply eq_ind; [exact D2|]]]];
        clear - Same XB HY; sign_cases.
    + apply Bool.eqb_false_iff in E. assert (x < 0 <-> 0 <= y) as Differ.
      { destruct (Z.ltb_spec x 0), (Z.ltb_spec y 0); try congruence; lia. }
      assert (Bool.eqb (y <? 0) (x <? 0) = false) as E' by (apply Bool.eqb_false_iff; congruence). rewrite E' in S2, D2.
      apply Up in D1, D2; [|reflexivity|reflexivity]. apply Down in S1, S2; [|reflexivity|reflexivity].
      split; [eapply eq_ind; [exact S1|]|split; [eapply eq_ind; [exact S2|]|split; [eapply eq_ind; [exact D1|]|eapply eq_ind; [exact D2|]]]];
        clear - Differ XB HY; sign_cases.
Qed.

(** ** From 2^31 limbs on *)

Definition wide (x : Z) : Prop := 2147483648 <= limbs_of x < 4294967295.

Lemma wide_int x : wide x -> 2147483648 <= Z.abs x /\ int_limbs x < 0 /\ int_of (limbs_of x + 1) < 0.
Proof.
  intros H. unfold wide in H. split; [pose proof (limbs_two x ltac:(lia)); lia|]. unfold int_limbs. rewrite !int_of_wide by lia. lia.
Qed.

Lemma lengthened_wide c x y o : wide x -> wide y -> lengthened c x y o ->
  if dbg c then o = AssertFail else returns o (Z.sgn x).
Proof.
  intros Wx Wy. destruct (wide_int x Wx) as (X1 & X2 & X3), (wide_int y Wy) as (Y1 & Y2 & Y3).
  unfold lengthened. change (2 ^ 31 - 1) with 2147483647. change (2 ^ 31) with 2147483648.
  rewrite (proj2 (Z.ltb_ge (Z.abs x) _)), (proj2 (Z.ltb_ge (Z.abs y) _)) by lia. cbn [orb].
  assert (Z.sgn x = signed (x <? 0) 1) as -> by (unfold signed; destruct (Z.ltb_spec x 0); lia).
  destruct (limbs_of x <? limbs_of y); cbv zeta.
  - rewrite (proj2 (Z.ltb_lt (int_limbs y) 0)) by lia. cbn [orb]. rewrite andb_true_r. destruct (dbg c); [auto|]. cbn [andb].
    rewrite !low_none by lia. apply held_none. lia.
  - rewrite (proj2 (Z.ltb_lt (int_limbs x) 0)) by lia. cbn [orb]. rewrite andb_true_r. destruct (dbg c); [auto|]. cbn [andb].
    rewrite !low_none by lia. apply held_none. lia.
Qed.

Lemma shortened_wide c x y o : wide x -> wide y -> shortened c x y o ->
  if dbg c then o = AssertFail else returns o (if found_less x y then - Z.sgn x else Z.sgn x).
Proof.
  intros Wx Wy. destruct (wide_int x Wx) as (X1 & X2 & X3), (wide_int y Wy) as (Y1 & Y2 & Y3).
  unfold shortened. change (2 ^ 31) with 2147483648.
  rewrite (proj2 (Z.ltb_ge (Z.abs x) _)), (proj2 (Z.ltb_ge (Z.abs y) _)) by lia.
  destruct (found_less x y); cbv zeta.
  - rewrite (proj2 (Z.ltb_lt (int_limbs y) 0)) by lia. cbn [orb]. rewrite andb_true_r. destruct (dbg c); [auto|].
    rewrite !low_none by lia. rewrite Zmod_0_l. intros H. apply held_none in H; [|lia].
    replace (- Z.sgn x) with (signed (0 <=? x) 1); [exact H|]. unfold signed. destruct (Z.leb_spec 0 x); lia.
  - rewrite (proj2 (Z.ltb_lt (int_limbs x) 0)) by lia. cbn [orb]. rewrite andb_true_r. destruct (dbg c); [auto|].
    rewrite !low_none by lia. rewrite Zmod_0_l. intros H. apply held_none in H; [|lia].
    replace (Z.sgn x) with (signed (x <? 0) 1); [exact H|]. unfold signed. destruct (Z.ltb_spec x 0); lia.
Qed.

Lemma found_less_wide x y : wide x -> limbs_of x <> limbs_of y \/ 2147483648 < limbs_of x ->
  found_less x y = (limbs_of x <? limbs_of y).
Proof.
  intros W H. unfold wide in W. unfold found_less. cbv zeta. destruct (Z.eqb_spec (limbs_of x) (limbs_of y)) as [E|E]; [|reflexivity].
  rewrite int_of_wide by lia. rewrite !low_none by lia. rewrite E. now rewrite !Z.ltb_irrefl.
Qed.

Theorem add_sub_i_wide c a b x y : represents a x -> represents b y ->
  2 ^ 31 <= limbs_of x < 2 ^ 32 - 1 -> 2 ^ 31 <= limbs_of y < 2 ^ 32 - 1 ->
  (dbg c = true -> bi_add_i c a b = AssertFail /\ bi_sub_i c a b = AssertFail) /\
  (dbg c = false ->
   (Z.sgn x = Z.sgn y -> returns (bi_add_i c a b) (Z.sgn x)) /\
   (Z.sgn x <> Z.sgn y -> returns (bi_sub_i c a b) (Z.sgn x)) /\
   (limbs_of x < limbs_of y ->
    (Z.sgn x = Z.sgn y -> returns (bi_sub_i c a b) (- Z.sgn x)) /\
    (Z.sgn x <> Z.sgn y -> returns (bi_add_i c a b) (- Z.sgn x))) /\
   (limbs_of y < limbs_of x \/ limbs_of x = limbs_of y /\ 2 ^ 31 < limbs_of x ->
    (Z.sgn x = Z.sgn y -> returns (bi_sub_i c a b) (Z.sgn x)) /\
    (Z.sgn x <> Z.sgn y -> returns (bi_add_i c a b) (Z.sgn x)))).
Proof.
  change (2 ^ 32 - 1) with 4294967295. change (2 ^ 31) with 2147483648. intros Ha Hb Wx Wy.
  destruct (wide_int x Wx) as (X1 & _), (wide_int y Wy) as (Y1 & _).
  pose proof (sum_any_holds c a b x y Ha Hb) as S. pose proof (difference_any_holds c a b x y Ha Hb) as D.
  unfold sum_any in S. unfold difference_any in D. change (2 ^ 31) with 2147483648 in *.
  rewrite (proj2 (Z.ltb_ge (Z.abs x) _)) in S, D by lia. cbn [andb] in S, D.
  assert (Z.sgn x = Z.sgn y <-> Bool.eqb (x <? 0) (y <? 0) = true) as Sg.
  { rewrite Bool.eqb_true_iff. destruct (Z.ltb_spec x 0), (Z.ltb_spec y 0); split; intros; try reflexivity; try discriminate; lia. }
  destruct (Bool.eqb (x <? 0) (y <? 0)).
  - assert (Z.sgn x = Z.sgn y) as Es by tauto. apply (lengthened_wide c x y _ Wx Wy) in S. apply (shortened_wide c x y _ Wx Wy) in D.
    split; intros Db; rewrite Db in S, D; [auto|]. split; [auto|]. split; [contradiction|].
    split; intros L; (split; [intros _|contradiction]); rewrite found_less_wide in D by (assumption || lia).
    + now rewrite (proj2 (Z.ltb_lt _ _)) in D by lia.
    + now rewrite (proj2 (Z.ltb_ge _ _)) in D by lia.
  - assert (Z.sgn x <> Z.sgn y) as Es by (intros E; apply Sg in E; discriminate).
    apply (lengthened_wide c x y _ Wx Wy) in D. apply (shortened_wide c x y _ Wx Wy) in S.
    split; intros Db; rewrite Db in S, D; [auto|]. split; [contradiction|]. split; [auto|].
    split; intros L; (split; [contradiction|intros _]); rewrite found_less_wide in S by (assumption || lia).
    + now rewrite (proj2 (Z.ltb_lt _ _)) in S by lia.
    + now rewrite (proj2 (Z.ltb_ge _ _)) in S by lia.
Qed.

Lemma add_wide_case k : k = 2 ^ 31 -> exists a,
  represents a (2 ^ (32 * k) + 5) /\ 2 ^ 31 < limbs_of (2 ^ (32 * k) + 5) < 2 ^ 32 - 1 /\
  (forall c, dbg c = false -> returns (bi_add_i c a a) 1 /\ returns (bi_sub_i c a a) 1) /\
  (forall c, dbg c = true -> bi_add_i c a a = AssertFail /\ bi_sub_i c a a = AssertFail) /\
  (forall c b, represents b 7 -> returns (bi_sub_i c a b) (2 ^ (32 * k) - 2)).
Proof.
  intros Hk. destruct (represents_total (2 ^ (32 * k) + 5)) as (a & Ha). exists a. split; [exact Ha|].
  change (2 ^ 31) with 2147483648 in *. change (2 ^ 32) with 4294967296.
  pose proof (Z.pow_le_mono_r 2 32 (32 * k) ltac:(lia) ltac:(lia)) as Q. change (2 ^ 32) with 4294967296 in Q.
  assert (limbs_of (2 ^ (32 * k) + 5) = k + 1) as L by (apply limbs_of_power; lia). rewrite L.
  assert (Z.sgn (2 ^ (32 * k) + 5) = 1) as Sg by (apply Z.sgn_pos; lia).
  split; [lia|]. split; [|split].
  - intros c D. destruct (add_sub_i_wide c a a _ _ Ha Ha) as (_ & W); try (rewrite L; change (2 ^ 32 - 1) with 4294967295; change (2 ^ 31) with 2147483648; lia).
    destruct (W D) as (W1 & _ & _ & W2). rewrite Sg in W1, W2. split; [now apply W1|]. apply W2; [|reflexivity].
    right. split; [reflexivity|]. rewrite L. change (2 ^ 31) with 2147483648. lia.
  - intros c D. destruct (add_sub_i_wide c a a _ _ Ha Ha) as (W & _); try (rewrite L; change (2 ^ 32 - 1) with 4294967295; change (2 ^ 31) with 2147483648; lia).
    now apply W.
  - intros c b Hb. destruct (add_sub_i_short c a b _ _ Ha Hb) as (_ & _ & W & _).
    + rewrite L. change (2 ^ 32 - 1) with 4294967295. lia.
    + change (2 ^ 31) with 2147483648. lia.
    + replace (2 ^ (32 * k) - 2) with (2 ^ (32 * k) + 5 - 7) by ring. exact W.
Qed.
