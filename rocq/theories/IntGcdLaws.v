(** Laws of the greatest common divisor with lengths kept in [int]. *)
From Verif Require Import Machine Facts Spec SpecFacts SpecApi SpecGcd BigInt ShiftFacts RunExact GcdFacts GcdExact SpecActual
  IntSizes SpecSizes IntSizesFacts IntLimbs SpecLimbs IntLimbsFacts IntLimbsLaws IntConvFacts IntBitsFacts IntAdd SpecIntAdd IntAddFacts
  IntAddLaws IntTextLaws IntDiv SpecIntDiv IntDivFacts IntMulLaws IntGcd SpecIntGcd IntGcdFacts.
Ltac Zify.zify_post_hook ::= idtac.

Lemma actual_small fuel debug x y : Z.min (Z.abs x) (Z.abs y) < 2 ^ 64 -> actual_gcd fuel debug x y = Ret (Z.gcd x y).
Proof.
  intros H. unfold actual_gcd. destruct fuel; cbn [gcd_rounds]; rewrite (proj2 (Z.ltb_lt _ _) H), Z.add_0_r; f_equal; rewrite <- (gcd_abs2 x y);
    (destruct (Z.le_gt_cases (Z.abs x) (Z.abs y)); [rewrite Z.max_r, Z.min_l, Z.gcd_comm by lia|rewrite Z.max_l, Z.min_r by lia]; reflexivity).
Qed.

Lemma limbs_up_to x k : limbs_of x <= k -> Z.abs x < 2 ^ (32 * k).
Proof.
  intros H. destruct (limbs_bound x) as (A & B). eapply Z.lt_le_trans; [exact B|]. apply Z.pow_le_mono_r; lia.
Qed.

Lemma actual_swap fuel debug x y : actual_gcd fuel debug x y = actual_gcd fuel debug y x.
Proof. unfold actual_gcd. now rewrite Z.max_comm, Z.min_comm. Qed.

Lemma arrays_below fuel c x y o : limbs_of x < 2147483648 -> limbs_of y < 2147483648 -> (limbs_of y <= 2 -> 2 <= limbs_of y -> 2 <= limbs_of x) ->
  gcd_arrays fuel c x y o -> comes o (fun o => denotes o (actual_gcd fuel (dbg c) x y)).
Proof.
  intros Hx Hy H2 H. unfold gcd_arrays in H. change (2 ^ 31) with 2147483648 in H. cbv zeta in H.
  destruct (limbs_bound x) as (A & _). destruct (limbs_bound y) as (A' & _).
  rewrite !int_limbs_small in H by assumption.
  destruct (Z.eqb_spec (limbs_of y) 1) as [E|E].
  { rewrite seen_small, Z.gcd_abs_l in H by lia. rewrite actual_small; [exact H|].
    pose proof (limbs_up_to y 2 ltac:(lia)) as B. change (32 * 2) with 64 in B. lia. }
  destruct (Z.eqb_spec (limbs_of y) 2) as [E2|E2].
  { rewrite (proj2 (Z.ltb_ge (limbs_of x) 2)), andb_false_r in H by lia. rewrite low_all, Z.gcd_abs_l in H by lia. rewrite actual_small; [exact H|].
    pose proof (limbs_up_to y 2 ltac:(lia)) as B. change (32 * 2) with 64 in B. lia. }
  rewrite (proj2 (Z.ltb_ge (limbs_of x) 0)), (proj2 (Z.ltb_ge (limbs_of y) 0)) in H by lia. cbn [orb] in H. apply H; assumption.
Qed.

Lemma small_min x y : Z.abs x < 2147483648 \/ Z.abs y < 2147483648 -> Z.min (Z.abs x) (Z.abs y) < 2 ^ 64.
Proof. change (2 ^ 64) with 18446744073709551616. lia. Qed.

Theorem gcd_i_below fuel c a b x y : represents a x -> represents b y -> limbs_of x < 2 ^ 31 -> limbs_of y < 2 ^ 31 ->
  comes (bi_gcd_i fuel c a b) (fun o => denotes o (actual_gcd fuel (dbg c) x y)).
Proof.
  intros Ha Hb. change (2 ^ 31) with 2147483648. intros Hx Hy. pose proof (gcd_any_holds fuel c a b x y Ha Hb) as H.
  unfold gcd_any in H. change (2 ^ 31) with 2147483648 in H.
  destruct (limbs_bound x) as (A & B). destruct (limbs_bound y) as (A' & B').
  destruct (Z.ltb_spec (Z.abs x) 2147483648) as [X|X]; destruct (Z.ltb_spec (Z.abs y) 2147483648) as [Y|Y]; cbn [andb] in H.
  - rewrite actual_small by (apply small_min; lia). exact H.
  - rewrite actual_small by (apply small_min; lia). destruct (Z.eqb_spec x 0) as [->|X0].
    + rewrite Z.gcd_0_l. rewrite int_limbs_small in H by lia. destruct (bi_gcd_i fuel c a b) as [o|]; [|contradiction]. cbn [comes] in *.
      apply held_exact in H; [exact H|]. left. split; [lia|]. split; [lia|exact B'].
    + rewrite seen_small, Z.gcd_abs_l, Z.gcd_comm in H by lia. exact H.
  - rewrite actual_small by (apply small_min; lia). destruct (Z.eqb_spec y 0) as [->|Y0].
    + rewrite Z.gcd_0_r. rewrite int_limbs_small in H by lia. destruct (bi_gcd_i fuel c a b) as [o|]; [|contradiction]. cbn [comes] in *.
      apply held_exact in H; [exact H|]. left. split; [lia|]. split; [lia|exact B].
    + rewrite seen_small, Z.gcd_abs_l in H by lia. exact H.
  - destruct (found_less x y) eqn:F; unfold found_less in F.
    + rewrite actual_swap. apply arrays_below in H; auto. intros _ G. destruct (Z.eqb_spec (limbs_of x) (limbs_of y)) as [E|E]; [lia|].
      apply Z.ltb_lt in F. lia.
    + apply arrays_below in H; auto. intros _ G. destruct (Z.eqb_spec (limbs_of x) (limbs_of y)) as [E|E]; [lia|].
      apply Z.ltb_ge in F. lia.
Qed.

Lemma seen_none x : 2147483648 < limbs_of x <= 4294967296 -> low x (seen x) = 0.
Proof. intros H. unfold seen. rewrite int_of_back by lia. apply low_none. lia. Qed.

Lemma found_shorter x y : limbs_of y < limbs_of x -> found_less x y = false /\ found_less y x = true.
Proof.
  intros H. unfold found_less. rewrite !(proj2 (Z.eqb_neq _ _)) by lia.
  split; [apply Z.ltb_ge; lia|apply Z.ltb_lt; lia].
Qed.

Theorem gcd_i_one fuel c a b x y : represents a x -> represents b y -> 2 ^ 31 < limbs_of x <= 2 ^ 32 -> limbs_of y = 1 -> y <> 0 ->
  comes (bi_gcd_i fuel c a b) (fun o => returns o (Z.abs y)) /\ comes (bi_gcd_i fuel c b a) (fun o => returns o (Z.abs y)).
Proof.
  intros Ha Hb. change (2 ^ 31) with 2147483648. change (2 ^ 32) with 4294967296. intros Hx Hy Y0.
  pose proof (wide_abs x ltac:(lia)) as X. destruct (found_shorter x y ltac:(lia)) as (F1 & F2).
  pose proof (gcd_any_holds fuel c a b x y Ha Hb) as H. pose proof (gcd_any_holds fuel c b a y x Hb Ha) as H'.
  unfold gcd_any in H, H'. change (2 ^ 31) with 2147483648 in H, H'.
  rewrite (proj2 (Z.ltb_ge (Z.abs x) _)) in H, H' by lia. rewrite (proj2 (Z.eqb_neq y 0) Y0), F1 in H. rewrite (proj2 (Z.eqb_neq y 0) Y0), F2 in H'.
  unfold gcd_arrays in H, H'. rewrite Hy in H, H'. change (1 =? 1) with true in H, H'. cbv zeta in H, H'. rewrite andb_false_r in H'. cbn [andb] in H.
  destruct (Z.abs y <? 2147483648); rewrite (seen_none x Hx) in H, H'; rewrite Z.gcd_0_l in H, H'; auto.
Qed.

Theorem gcd_i_two fuel c a b x y : represents a x -> represents b y -> 2 ^ 31 <= limbs_of x < 2 ^ 32 -> limbs_of y = 2 ->
  forall o, o = bi_gcd_i fuel c a b \/ o = bi_gcd_i fuel c b a ->
  if dbg c then o = Sized AssertFail else comes o (fun o => returns o (Z.gcd (Z.abs x mod 2 ^ 64) y)).
Proof.
  intros Ha Hb. change (2 ^ 31) with 2147483648. change (2 ^ 32) with 4294967296. intros Hx Hy o Ho.
  pose proof (wide_abs x ltac:(lia)) as X. pose proof (wide_abs y ltac:(lia)) as Y. destruct (found_shorter x y ltac:(lia)) as (F1 & F2).
  assert (gcd_arrays fuel c x y o) as K.
  { destruct Ho as [->| ->].
    - pose proof (gcd_any_holds fuel c a b x y Ha Hb) as H. unfold gcd_any in H. change (2 ^ 31) with 2147483648 in H.
      rewrite (proj2 (Z.ltb_ge (Z.abs x) _)), (proj2 (Z.ltb_ge (Z.abs y) _)), F1 in H by lia. exact H.
    - pose proof (gcd_any_holds fuel c b a y x Hb Ha) as H. unfold gcd_any in H. change (2 ^ 31) with 2147483648 in H.
      rewrite (proj2 (Z.ltb_ge (Z.abs x) _)), (proj2 (Z.ltb_ge (Z.abs y) _)), F2 in H by lia. exact H. }
  unfold gcd_arrays in K. rewrite Hy in K. change (2 =? 1) with false in K. change (2 =? 2) with true in K. cbv zeta in K.
  rewrite wide_limbs in K by lia. rewrite (proj2 (Z.ltb_lt (_ - _) 2)) in K by lia. rewrite andb_true_r in K. exact K.
Qed.

Theorem gcd_i_length fuel c a b x y : represents a x -> represents b y -> 2 ^ 31 <= limbs_of x < 2 ^ 32 -> 3 <= limbs_of y < 2 ^ 32 ->
  bi_gcd_i fuel c a b = LengthError /\ bi_gcd_i fuel c b a = LengthError.
Proof.
  intros Ha Hb. change (2 ^ 31) with 2147483648. change (2 ^ 32) with 4294967296. intros Hx Hy.
  pose proof (wide_abs x ltac:(lia)) as X. pose proof (wide_abs y ltac:(lia)) as Y.
  assert (int_limbs x < 0) as W by (rewrite wide_limbs by lia; lia).
  assert (forall o, gcd_arrays fuel c x y o -> o = LengthError) as K1.
  { intros o. unfold gcd_arrays. cbv zeta. rewrite (proj2 (Z.eqb_neq _ 1)), (proj2 (Z.eqb_neq _ 2)), (proj2 (Z.ltb_lt _ 0) W) by lia. auto. }
  assert (forall o, gcd_arrays fuel c y x o -> o = LengthError) as K2.
  { intros o. unfold gcd_arrays. cbv zeta. rewrite (proj2 (Z.eqb_neq _ 1)), (proj2 (Z.eqb_neq _ 2)), (proj2 (Z.ltb_lt _ 0) W), orb_true_r by lia. auto. }
  split.
  - pose proof (gcd_any_holds fuel c a b x y Ha Hb) as H. unfold gcd_any in H. change (2 ^ 31) with 2147483648 in H.
    rewrite (proj2 (Z.ltb_ge (Z.abs x) _)), (proj2 (Z.ltb_ge (Z.abs y) _)) in H by lia. destruct (found_less x y); auto.
  - pose proof (gcd_any_holds fuel c b a y x Hb Ha) as H. unfold gcd_any in H. change (2 ^ 31) with 2147483648 in H.
    rewrite (proj2 (Z.ltb_ge (Z.abs x) _)), (proj2 (Z.ltb_ge (Z.abs y) _)) in H by lia. destruct (found_less y x); auto.
Qed.

(** gcd(x, 0) is still |x|. *)
Theorem gcd_i_zero fuel c a b x : represents a x -> represents b 0 -> 2 ^ 31 <= limbs_of x < 2 ^ 32 ->
  comes (bi_gcd_i fuel c a b) (fun o => returns o (Z.abs x)) /\ comes (bi_gcd_i fuel c b a) (fun o => returns o (Z.abs x)).
Proof.
  intros Ha Hb. change (2 ^ 31) with 2147483648. change (2 ^ 32) with 4294967296. intros Hx. pose proof (wide_abs x ltac:(lia)) as X.
  pose proof (gcd_any_holds fuel c a b x 0 Ha Hb) as H. pose proof (gcd_any_holds fuel c b a 0 x Hb Ha) as H'.
  unfold gcd_any in H, H'. change (2 ^ 31) with 2147483648 in H, H'. change (Z.abs 0 <? 2147483648) with true in H, H'.
  rewrite (proj2 (Z.ltb_ge (Z.abs x) _)) in H, H' by lia. cbn [andb] in H, H'. change (0 =? 0) with true in H, H'. cbv beta iota in H, H'.
  rewrite wide_limbs in H, H' by lia.
  destruct (bi_gcd_i fuel c a b) as [o|]; [|contradiction]. destruct (bi_gcd_i fuel c b a) as [o'|]; [|contradiction]. cbn [comes] in *.
  apply held_exact in H; [|right; lia]. apply held_exact in H'; [|right; lia]. auto.
Qed.

(** A power of two of k + 1 limbs and the number 3. *)
Lemma four_mod_three k : 0 <= k -> 4 ^ k mod 3 = 1.
Proof.
  revert k. apply natlike_ind; [reflexivity|]. intros k Q IH. unfold Z.succ. rewrite Z.pow_add_r by lia. change (4 ^ 1) with 4.
  rewrite Z.mul_mod, IH by lia. reflexivity.
Qed.

Theorem gcd_i_three fuel c k a b : 2 ^ 31 <= k < 2 ^ 32 -> represents a (2 ^ (32 * k)) -> represents b 3 ->
  comes (bi_gcd_i fuel c a b) (fun o => returns o 3) /\ Z.gcd (2 ^ (32 * k)) 3 = 1.
Proof.
  intros Hk Ha Hb. assert (0 <= k) as P by (clear Ha; change (2 ^ 31) with 2147483648 in Hk; lia).
  split.
  - refine (proj1 (gcd_i_one fuel c a b _ 3 Ha Hb _ _ _)); [|reflexivity|discriminate].
    rewrite <- (Z.add_0_r (2 ^ (32 * k))), limbs_of_power; [|exact P|split; [apply Z.le_refl|apply pow2_pos; lia]].
    clear Ha. change (2 ^ 31) with 2147483648 in *. change (2 ^ 32) with 4294967296 in *. lia.
  - clear Ha Hb Hk. rewrite Z.gcd_comm, <- Z.gcd_mod by discriminate.
    replace (32 * k) with (2 * (16 * k)) by ring. rewrite Z.pow_mul_r by lia. change (2 ^ 2) with 4. rewrite four_mod_three by lia. reflexivity.
Qed.

Theorem gcd_wide_case : forall k, k = 2 ^ 31 -> exists a, represents a (2 ^ (32 * k)) /\
  forall fuel c b, (represents b 0 -> comes (bi_gcd_i fuel c a b) (fun o => returns o (2 ^ (32 * k)))) /\
    (represents b 3 -> comes (bi_gcd_i fuel c a b) (fun o => returns o 3)) /\
    (represents b (2 ^ 40 + 1) -> dbg c = true -> bi_gcd_i fuel c b a = Sized AssertFail) /\
    (represents b (2 ^ 40) -> dbg c = false -> comes (bi_gcd_i fuel c b a) (fun o => returns o (2 ^ 40))) /\
    (represents b (2 ^ 64) -> bi_gcd_i fuel c a b = LengthError) /\
    bi_gcd_i fuel c a a = LengthError.
Proof.
  intros k Hk. destruct (represents_total (2 ^ (32 * k))) as (a & Ha). exists a. split; [exact Ha|].
  assert (2 ^ 31 <= k < 2 ^ 32) as Bk by (rewrite Hk; split; [apply Z.le_refl|reflexivity]).
  assert (0 <= k) as P by (clear Ha; change (2 ^ 31) with 2147483648 in Bk; lia).
  pose proof (pow2_pos (32 * k) ltac:(lia)) as PP.
  assert (limbs_of (2 ^ (32 * k)) = k + 1) as L.
  { rewrite <- (Z.add_0_r (2 ^ (32 * k))), limbs_of_power; [reflexivity|exact P|split; [apply Z.le_refl|exact PP]]. }
  assert (2 ^ 31 <= limbs_of (2 ^ (32 * k)) < 2 ^ 32) as BL.
  { rewrite L, Hk. split; [discriminate|reflexivity]. }
  assert (2 ^ (32 * k) mod 2 ^ 64 = 0) as M.
  { assert (2 <= k) as K2 by (clear - Bk; change (2 ^ 31) with 2147483648 in Bk; lia). clear - K2 P.
    replace (32 * k) with (32 * k - 64 + 64) by ring. rewrite Z.pow_add_r by lia. apply Z.mod_mul. discriminate. }
  intros fuel c b. repeat split.
  - intros Hb. pose proof (proj1 (gcd_i_zero fuel c a b _ Ha Hb BL)) as H. rewrite Z.abs_eq in H by (apply Z.lt_le_incl; exact PP). exact H.
  - intros Hb. exact (proj1 (gcd_i_three fuel c k a b Bk Ha Hb)).
  - intros Hb D. pose proof (gcd_i_two fuel c a b _ _ Ha Hb BL eq_refl _ (or_intror eq_refl)) as H. rewrite D in H. exact H.
  - intros Hb D. pose proof (gcd_i_two fuel c a b _ _ Ha Hb BL eq_refl _ (or_intror eq_refl)) as H. rewrite D in H.
    rewrite Z.abs_eq in H by (apply Z.lt_le_incl; exact PP). rewrite M in H. exact H.
  - intros Hb. apply (fun K => proj1 (gcd_i_length fuel c a b _ _ Ha Hb BL K)). split; [discriminate|reflexivity].
  - refine (proj1 (gcd_i_length fuel c a a _ _ Ha Ha BL _)). split; [|exact (proj2 BL)]. rewrite L, Hk. discriminate.
Qed.
