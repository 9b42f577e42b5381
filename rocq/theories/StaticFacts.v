(** Lemmas quoted by PropStatic.v. *)
From Coq Require Import String.
From Verif Require Import Facts Spec SpecPos SpecApi SpecGcd SpecActual SpecStatic AddSubFacts SpecFacts BigIntFacts CompareFacts SpecApi LimbFacts.
From Verif Require Import CalcAddSub CalcSquMul CalcDivRem CalcPowMod CalcGcd BigInt BigIntBytes BigIntText BigIntDouble StaticInit.
From Verif Require Import ApiRun PosFacts ConvFacts ShiftFacts WordFacts BytesFacts ToBytesFacts DivRemFacts ArithLaws ActualFacts RunFacts TextFacts LeakyModPow.
Open Scope list_scope.
Open Scope Z_scope.

Ltac Zify.zify_post_hook ::= idtac.

Lemma initialise_ok c : initialise c = Ret initialised.
Proof. destruct c as [[|] ?]; reflexivity. Qed.

Lemma bind_same {A B} (o : outcome A) (f g : A -> outcome B) P :
  pc o P -> (forall a, P a -> f a = g a) -> bind o f = bind o g.
Proof. intros H E. destruct o; cbn [bind]; try reflexivity. apply E. now apply H. Qed.

Lemma mag_same c l n : limbs l -> bi_of_mag_s zeroed c l n = bi_of_mag c l n.
Proof.
  intros Hl. unfold bi_of_mag_s, bi_of_mag. eapply bind_same; [apply pc_true|]. intros k _.
  eapply (bind_same _ _ _ limb).
  { destruct (Nat.eqb k 1); [now apply pc_rd|apply pc_ret; apply limb_const; reflexivity]. }
  intros v Hv. destruct (Nat.eqb k 0); [reflexivity|]. destruct (Nat.eqb k 1); [|reflexivity]. cbn [andb].
  destruct (Z.ltb_spec v kuMaskHighBit) as [G|G]; [|reflexivity]. cbv zeta.
  unfold limb, kuMaskHighBit in *. rewrite (s32_small v) by (num; lia).
  replace ((if n then - v else v) =? INT_MIN) with false; [reflexivity|].
  symmetry. apply Z.eqb_neq. destruct n; num; lia.
Qed.

Lemma int32_early c v : bi_of_int32_s zeroed c v = unless (is_min v) (bi_of_int32 c v).
Proof.
  unfold bi_of_int32_s, bi_of_int32, is_min. change INT_MIN with (- 2 ^ 31).
  destruct (v =? - 2 ^ 31); [destruct c as [[|] ?]|]; reflexivity.
Qed.
Lemma int64_early c v : bi_of_int64_s zeroed c v = unless (is_min v) (bi_of_int64 c v).
Proof.
  unfold bi_of_int64_s, bi_of_int64, is_min. change (- 2 ^ 31) with INT_MIN.
  destruct (Z.eqb_spec v INT_MIN) as [->|]; [destruct c as [[|] ?]; reflexivity|].
  destruct (_ && _); reflexivity.
Qed.

(** ** Sums, differences, products *)

Lemma repr_inline a x : represents a x ->
  (bits_of a = [] /\ in_sign x = true /\ sign_of a = x) \/ (bits_of a <> [] /\ in_sign x = false).
Proof.
  intros H. apply represents_view in H.
  inversion H as [z Hz Z1 Z2|s l Hs Hnl Hll Htl Hvl Z1 Z2]; subst a; cbn [bits_of sign_of]; unfold in_sign.
  - left. split; [reflexivity|]. split; [|reflexivity]. apply Z.ltb_lt. change (2 ^ 31) with 2147483648. num; lia.
  - right. split; [assumption|]. apply Z.ltb_ge. change (2 ^ 31) with 2147483648. destruct Hs; subst; num; lia.
Qed.

Ltac mags := first [apply mag_same; assumption | eapply bind_same; [first [apply pc_add_u|apply pc_add|apply pc_sub_u|apply pc_sub|apply pc_true]|intros]; mags].

Lemma add_parts_early c l s l' s' :
  bi_add_parts_s zeroed c l s l' s' =
  if is_nil l && is_nil l' then (v <- chk64 c (s + s') ;; unless (is_min v) (bi_of_int64 c v)) else bi_add_parts c l s l' s'.
Proof.
  unfold bi_add_parts_s, bi_add_parts. destruct (is_nil l), (is_nil l'); cbn [andb];
    try (eapply bind_same; [apply pc_true|]; intros v _; try apply int64_early);
    try (eapply bind_same; [apply pc_add_u|]; intros ? ?; now apply mag_same).
  destruct (Nat.ltb _ _); (eapply bind_same; [apply pc_add|]; intros ? ?; now apply mag_same).
Qed.
Lemma sub_parts_early c l s l' s' :
  bi_sub_parts_s zeroed c l s l' s' =
  if is_nil l && is_nil l' then (v <- chk64 c (s - s') ;; unless (is_min v) (bi_of_int64 c v)) else bi_sub_parts c l s l' s'.
Proof.
  unfold bi_sub_parts_s, bi_sub_parts. destruct (is_nil l), (is_nil l'); cbn [andb];
    try (eapply bind_same; [apply pc_true|]; intros v _; try apply int64_early);
    try (eapply bind_same; [apply pc_sub_u|]; intros ? ?; now apply mag_same).
  destruct (_ <? 0); (eapply bind_same; [apply pc_sub|]; intros ? ?; now apply mag_same).
Qed.

Lemma chk64_small c v : - 2 ^ 63 <= v < 2 ^ 63 -> chk64 c v = Ret v.
Proof.
  intros H. unfold chk64. change LONG_MIN with (- 2 ^ 63). change LONG_MAX with (2 ^ 63 - 1).
  rewrite !(proj2 (Z.leb_le _ _)) by lia. reflexivity.
Qed.
Lemma chk32_small c v : - 2 ^ 31 <= v < 2 ^ 31 -> chk32 c v = Ret v.
Proof.
  intros H. unfold chk32. change INT_MIN with (- 2 ^ 31). change INT_MAX with (2 ^ 31 - 1).
  rewrite !(proj2 (Z.leb_le _ _)) by lia. reflexivity.
Qed.
Lemma in_sign_iff x : in_sign x = true <-> - 2147483648 < x < 2147483648.
Proof. unfold in_sign. rewrite Z.ltb_lt. change (2 ^ 31) with 2147483648. lia. Qed.


Lemma lost_big x y z : in_sign x && in_sign y = false -> lost_small x y z = false.
Proof. unfold lost_small. now intros ->. Qed.

Lemma nil_eq {A} (l : list A) : l = [] -> match l with [] => true | _ => false end = true.
Proof. now intros ->. Qed.

(** Both operands small, or the test for that fails. *)
Lemma both_small a b x y : represents a x -> represents b y ->
  (in_sign x && in_sign y = true /\ is_nil (bits_of a) && is_nil (bits_of b) = true /\ sign_of a = x /\ sign_of b = y /\
   - 2147483648 < x < 2147483648 /\ - 2147483648 < y < 2147483648) \/
  (in_sign x && in_sign y = false /\ is_nil (bits_of a) && is_nil (bits_of b) = false).
Proof.
  intros Ha Hb. destruct (repr_inline a x Ha) as [(A1 & A2 & A3)|(A1 & A2)].
  - destruct (repr_inline b y Hb) as [(B1 & B2 & B3)|(B1 & B2)].
    + left. rewrite A1, B1, A2, B2. apply in_sign_iff in A2, B2. auto 10.
    + right. rewrite B2, !Bool.andb_false_r. split; [reflexivity|]. destruct (bits_of b); [congruence|]. apply Bool.andb_false_r.
  - right. rewrite A2. split; [reflexivity|]. destruct (bits_of a); [congruence|reflexivity].
Qed.

Lemma add_early c a b x y : represents a x -> represents b y ->
  bi_add_s zeroed c a b = unless (lost_small x y (x + y)) (bi_add c a b).
Proof.
  intros Ha Hb. unfold bi_add_s, bi_add. rewrite (assert_valid_ok c a x Ha), (assert_valid_ok c b y Hb). cbn [bind].
  destruct (both_small a b x y Ha Hb) as [(E & N & Ea & Eb & Rx & Ry)|(E & N)].
  - unfold lost_small. rewrite E, Ea, Eb. cbn [andb].
    apply Bool.andb_true_iff in N as (N1 & N2). destruct (bits_of a); [|discriminate]. destruct (bits_of b); [|discriminate].
    rewrite add_parts_early. rewrite (chk32_small c (-1 * y)) by (change (2 ^ 31) with 2147483648; lia). cbn [bind].
    rewrite sub_parts_early. unfold bi_add_parts, bi_sub_parts. cbn [is_nil andb].
    replace (x - -1 * y) with (x + y) by ring.
    rewrite (chk64_small c (x + y)) by (change (2 ^ 63) with 9223372036854775808; lia). cbn [bind].
    destruct (xorb _ _); reflexivity.
  - rewrite (lost_big _ _ _ E). cbn [unless]. destruct (xorb _ _).
    + eapply bind_same; [apply pc_true|]. intros n _. rewrite sub_parts_early, N. reflexivity.
    + rewrite add_parts_early, N. reflexivity.
Qed.
Lemma sub_early c a b x y : represents a x -> represents b y ->
  bi_sub_s zeroed c a b = unless (lost_small x y (x - y)) (bi_sub c a b).
Proof.
  intros Ha Hb. unfold bi_sub_s, bi_sub. rewrite (assert_valid_ok c a x Ha), (assert_valid_ok c b y Hb). cbn [bind].
  destruct (both_small a b x y Ha Hb) as [(E & N & Ea & Eb & Rx & Ry)|(E & N)].
  - unfold lost_small. rewrite E, Ea, Eb. cbn [andb].
    apply Bool.andb_true_iff in N as (N1 & N2). destruct (bits_of a); [|discriminate]. destruct (bits_of b); [|discriminate].
    rewrite sub_parts_early. rewrite (chk32_small c (-1 * y)) by (change (2 ^ 31) with 2147483648; lia). cbn [bind].
    rewrite add_parts_early. unfold bi_add_parts, bi_sub_parts. cbn [is_nil andb].
    replace (x + -1 * y) with (x - y) by ring.
    rewrite (chk64_small c (x - y)) by (change (2 ^ 63) with 9223372036854775808; lia). cbn [bind].
    destruct (xorb _ _); reflexivity.
  - rewrite (lost_big _ _ _ E). cbn [unless]. destruct (xorb _ _).
    + eapply bind_same; [apply pc_true|]. intros n _. rewrite add_parts_early, N. reflexivity.
    + rewrite sub_parts_early, N. reflexivity.
Qed.

Lemma repr_limbs a x : represents a x -> limbs (bits_of a).
Proof. intros (H & _). now apply canonical_limbs. Qed.

Lemma pc_mul_limbs c l r : limbs l -> limbs r -> pc (calc_mul c l r) limbs.
Proof.
  intros Hl Hr. unfold calc_mul. do 3 (eapply pc_bind; [apply pc_true|]; intros _ _).
  apply pc_mul_core; auto using limbs_zeros.
Qed.
Lemma pc_square_limbs c l : limbs l -> pc (calc_square c l) limbs.
Proof.
  intros Hl. unfold calc_square. eapply pc_bind; [apply pc_true|]; intros _ _. apply pc_square_core; auto using limbs_zeros.
Qed.
Lemma pc_mul_u c l r : pc (calc_mul_u c l r) limbs.
Proof. unfold calc_mul_u. lim. Qed.
Lemma mul_early c a b x y : represents a x -> represents b y ->
  bi_mul_s zeroed c a b = unless (lost_small x y (x * y)) (bi_mul c a b).
Proof.
  intros Ha Hb. unfold bi_mul_s, bi_mul. rewrite (assert_valid_ok c a x Ha), (assert_valid_ok c b y Hb). cbn [bind].
  pose proof (repr_limbs _ _ Ha) as La. pose proof (repr_limbs _ _ Hb) as Lb.
  destruct (both_small a b x y Ha Hb) as [(E & N & Ea & Eb & Rx & Ry)|(E & N)]; rewrite N.
  - unfold lost_small. rewrite E, Ea, Eb. cbn [andb].
    rewrite (chk64_small c (x * y)) by (change (2 ^ 63) with 9223372036854775808; nia). cbn [bind]. apply int64_early.
  - rewrite (lost_big _ _ _ E). cbn [unless]. cbv zeta.
    destruct (is_nil (bits_of a)); [|destruct (is_nil (bits_of b))].
    + do 2 (eapply bind_same; [first [apply pc_mul_u|apply pc_true]|]; intros ? ?). now apply mag_same.
    + do 2 (eapply bind_same; [first [apply pc_mul_u|apply pc_true]|]; intros ? ?). now apply mag_same.
    + destruct (vec_eqb _ _); [|destruct (Nat.ltb _ _)];
        (eapply bind_same; [first [apply pc_square_limbs; assumption|apply pc_mul_limbs; assumption]|]; intros ? ?; now apply mag_same).
Qed.

(** ** Division: unaffected *)

Lemma unless_false o : unless false o = o. Proof. reflexivity. Qed.
Lemma min_above v : -2147483648 < v -> is_min v = false.
Proof. intros H. apply Z.eqb_neq. change (- 2 ^ 31) with (-2147483648). lia. Qed.

Lemma int_quot_bound x y : -2147483648 < x < 2147483648 -> y <> 0 -> -2147483648 < Z.quot x y < 2147483648.
Proof.
  intros Hx Hy. pose proof (Z.quot_abs x y Hy) as Q.
  assert (Z.abs (Z.quot x y) <= Z.abs x); [|lia]. rewrite <- Q. apply Z.quot_le_upper_bound; [lia|].
  assert (1 * Z.abs x <= Z.abs y * Z.abs x) by (apply Z.mul_le_mono_nonneg_r; lia). lia.
Qed.
Lemma int_rem_bound x y : -2147483648 < x < 2147483648 -> y <> 0 -> -2147483648 < Z.rem x y < 2147483648.
Proof.
  intros Hx Hy. pose proof (Z.rem_abs x y Hy) as Q.
  assert (Z.abs (Z.rem x y) <= Z.abs x); [|lia]. rewrite <- Q. apply Z.rem_le; lia.
Qed.

Lemma zero_same c : bi_zero_s zeroed c = bi_zero c. Proof. reflexivity. Qed.
Lemma one_same c : bi_one_s zeroed c = bi_one c. Proof. reflexivity. Qed.
Lemma minus_one_same c : bi_minus_one_s zeroed c = bi_minus_one c. Proof. reflexivity. Qed.

Lemma pc_div_u c l r : pc (calc_div_u c l r) limbs.
Proof. unfold calc_div_u. lim. Qed.
Lemma pc_rem_u_zero c l : l <> [] -> pc (calc_rem_u c l 0) (fun _ => False).
Proof.
  intros Hl. destruct l as [|d l]; [congruence|]. unfold calc_rem_u. eapply pc_bind; [apply pc_true|]. intros _ _.
  eapply (pc_bind _ _ (fun _ => False)); [|intros ? []]. cbn [length for_down].
  eapply (pc_bind _ _ (fun _ => False)); [|intros ? []]. eapply pc_bind; [apply pc_true|]. intros. apply pc_throw.
Qed.

Lemma div_same c a b x y : represents a x -> represents b y -> bi_div_s zeroed c a b = bi_div c a b.
Proof.
  intros Ha Hb. unfold bi_div_s, bi_div. rewrite (assert_valid_ok c a x Ha), (assert_valid_ok c b y Hb). cbn [bind].
  pose proof (repr_limbs _ _ Ha) as La. pose proof (repr_limbs _ _ Hb) as Lb.
  destruct (both_small a b x y Ha Hb) as [(E & N & Ea & Eb & Rx & Ry)|(E & N)]; rewrite N.
  - rewrite Ea, Eb. destruct (Z.eqb_spec y 0) as [|Hy]; [reflexivity|]. unfold int_div.
    rewrite (proj2 (Z.eqb_neq y 0) Hy). pose proof (int_quot_bound x y ltac:(lia) Hy) as B.
    rewrite chk32_small by (change (2 ^ 31) with 2147483648; lia). cbn [bind].
    now rewrite int64_early, min_above by lia.
  - cbv zeta. destruct (is_nil (bits_of a)); [reflexivity|]. destruct (is_nil (bits_of b)).
    + do 2 (eapply bind_same; [first [apply pc_div_u|apply pc_true]|]; intros ? ?). now apply mag_same.
    + destruct (Nat.ltb _ _); [reflexivity|]. eapply bind_same; [now apply pc_div|]. intros ? ?. now apply mag_same.
Qed.
Lemma rem_same c a b x y : represents a x -> represents b y -> bi_rem_s zeroed c a b = bi_rem c a b.
Proof.
  intros Ha Hb. unfold bi_rem_s, bi_rem. rewrite (assert_valid_ok c a x Ha), (assert_valid_ok c b y Hb). cbn [bind].
  pose proof (repr_limbs _ _ Ha) as La. pose proof (repr_limbs _ _ Hb) as Lb.
  destruct (both_small a b x y Ha Hb) as [(E & N & Ea & Eb & Rx & Ry)|(E & N)]; rewrite N.
  - rewrite Ea, Eb. destruct (Z.eqb_spec y 0) as [|Hy]; [reflexivity|]. unfold int_mod.
    rewrite (proj2 (Z.eqb_neq y 0) Hy). pose proof (int_quot_bound x y ltac:(lia) Hy) as B.
    pose proof (int_rem_bound x y ltac:(lia) Hy) as B'.
    rewrite chk32_small by (change (2 ^ 31) with 2147483648; lia). cbn [bind].
    now rewrite int32_early, min_above by lia.
  - cbv zeta. destruct (is_nil (bits_of a)) eqn:Na; [reflexivity|]. destruct (is_nil (bits_of b)) eqn:Nb.
    + destruct (repr_inline b y Hb) as [(B1 & B2 & B3)|(B1 & _)]; [|destruct (bits_of b); [congruence|discriminate]].
      apply in_sign_iff in B2. rewrite B3.
      assert (Eba : bits_of a <> []) by (destruct (bits_of a); [discriminate Na|discriminate]).
      destruct (Z.eq_dec y 0) as [->|Hy].
      { unfold abs32. rewrite chk32_small by (change (2 ^ 31) with 2147483648; lia). cbn [bind].
        eapply bind_same; [apply pc_rem_u_zero; exact Eba|]. intros ? []. }
      eapply (bind_same _ _ _ (fun v => v = Z.abs y)).
      { unfold abs32. rewrite chk32_small by (change (2 ^ 31) with 2147483648; lia). cbn [bind].
        apply pc_ret. apply u32_small. num; lia. }
      intros v ->. eapply (bind_same _ _ _ (fun r => 0 <= r < Z.abs y)).
      { apply pc_wp. eapply wp_mono; [apply calc_rem_u_spec; [exact Eba|exact La|unfold limb; num; lia|lia]|].
        cbn beta. intros r ->. apply Z.mod_pos_bound. lia. }
      intros r Hr. rewrite int64_early, min_above; [reflexivity|]. destruct (_ <? 0); lia.
    + destruct (Nat.ltb _ _); [reflexivity|]. eapply bind_same; [now apply pc_rem|]. intros ? ?. now apply mag_same.
Qed.
Lemma div_rem_same c a b x y : represents a x -> represents b y -> bi_div_rem_s zeroed c a b = bi_div_rem c a b.
Proof.
  intros Ha Hb. unfold bi_div_rem_s, bi_div_rem. rewrite (assert_valid_ok c a x Ha), (assert_valid_ok c b y Hb). cbn [bind].
  pose proof (repr_limbs _ _ Ha) as La. pose proof (repr_limbs _ _ Hb) as Lb.
  destruct (both_small a b x y Ha Hb) as [(E & N & Ea & Eb & Rx & Ry)|(E & N)]; rewrite N.
  - rewrite Ea, Eb. destruct (Z.eqb_spec y 0) as [|Hy]; [reflexivity|]. unfold int_mod, int_div.
    rewrite (proj2 (Z.eqb_neq y 0) Hy). pose proof (int_quot_bound x y ltac:(lia) Hy) as B.
    pose proof (int_rem_bound x y ltac:(lia) Hy) as B'.
    rewrite chk32_small by (change (2 ^ 31) with 2147483648; lia). cbn [bind].
    rewrite !int32_early, !min_above by lia. reflexivity.
  - cbv zeta. destruct (is_nil (bits_of a)); [reflexivity|]. destruct (is_nil (bits_of b)).
    + eapply bind_same; [apply pc_true|]. intros v _. eapply bind_same; [apply pc_divrem_u|]. intros (q, r) (Hq & Hr).
      cbn [fst snd] in *. eapply bind_same; [apply pc_true|]. intros r' _. now rewrite mag_same.
    + destruct (Nat.ltb _ _); [reflexivity|]. eapply bind_same; [now apply pc_divrem|]. intros (q, r) H.
      destruct H as (H1 & H2). cbn [fst snd] in *. now rewrite !mag_same.
Qed.

(** ** One more, one less, complement, absolute value *)

Lemma inc_same c a x : represents a x -> bi_inc_s zeroed c a = bi_inc c a.
Proof.
  intros Ha. unfold bi_inc_s, bi_inc. rewrite one_same.
  eapply (bind_same _ _ _ (fun o => represents o 1)); [apply pc_wp, bi_one_spec|]. intros o Ho.
  rewrite (add_early c a o x 1 Ha Ho). unfold lost_small.
  destruct (in_sign x) eqn:E; [|reflexivity]. apply in_sign_iff in E. rewrite min_above by lia. reflexivity.
Qed.
Lemma dec_early c a x : represents a x -> bi_dec_s zeroed c a = unless (x =? - 2 ^ 31 + 1) (bi_dec c a).
Proof.
  intros Ha. unfold bi_dec_s, bi_dec. rewrite one_same.
  destruct (wp_inv _ _ (bi_one_spec c)) as (o & -> & Ho). cbn [bind].
  rewrite (sub_early c a o x 1 Ha Ho). f_equal. unfold lost_small, is_min. change (in_sign 1) with true.
  change (- 2 ^ 31) with (-2147483648). rewrite Bool.andb_true_r.
  destruct (in_sign x) eqn:E; cbn [andb].
  - destruct (Z.eqb_spec (x - 1) (-2147483648)), (Z.eqb_spec x (-2147483648 + 1)); reflexivity || lia.
  - symmetry. apply Z.eqb_neq. intros ->. discriminate E.
Qed.
Lemma not_same c a x : represents a x -> bi_not_s zeroed c a = bi_not c a.
Proof.
  intros Ha. pose proof (inc_same c a x Ha) as H. unfold bi_inc_s, bi_inc, bi_not_s, bi_not in *.
  rewrite one_same in *. destruct (wp_inv _ _ (bi_one_spec c)) as (o & Eo & Ho). rewrite Eo in *. cbn [bind] in *. now rewrite H.
Qed.
Lemma abs_same c a : bi_abs_s zeroed c a = bi_abs c a.
Proof. unfold bi_abs_s, bi_abs. now rewrite zero_same. Qed.

(** ** Shifts *)

Lemma shl_pos_same c a x n : represents a x -> bi_shl_pos_s zeroed c a n = bi_shl_pos c a n.
Proof.
  intros Ha. unfold bi_shl_pos_s, bi_shl_pos. cbv zeta.
  eapply bind_same; [apply pc_parts; exact (proj1 Ha)|]. intros (xd, negx) Hx. cbn [fst] in Hx.
  eapply (bind_same _ _ _ limbs); [|intros zd Hz; now apply mag_same].
  destruct (_ =? 0).
  - apply pc_for_up; [apply limbs_zeros|]. intros k zd Hz. eapply pc_bind; [now apply pc_rd|]. intros. now apply pc_wr.
  - eapply (pc_bind _ _ (fun p => limbs (fst p) /\ limb (snd p))).
    + apply (pc_for_up _ _ _ _ (fun p => limbs (fst p) /\ limb (snd p))).
      * split; [apply limbs_zeros|apply limb_const; reflexivity].
      * intros k (zd, cr) (Hz & Hcr). cbn [fst snd] in *.
        eapply pc_bind; [now apply pc_rd|]. intros rot Hrot. eapply pc_bind; [apply pc_shl32|]. intros hi Hhi.
        eapply (pc_bind _ _ limbs); [apply pc_wr; [assumption|now apply limb_lor]|]. intros zd' Hz'.
        eapply pc_bind; [now apply pc_shr32|]. intros cr' Hcr'. apply pc_ret. now split.
    + intros (zd, cr) (Hz & Hcr). cbn [fst snd] in *. now apply pc_wr.
Qed.

Lemma unless_bind {A} (o : outcome A) f g lost : (forall a, o = Ret a -> f a = unless lost (g a)) ->
  (lost = true -> exists a, o = Ret a) -> bind o f = unless lost (bind o g).
Proof.
  intros H L. destruct o; cbn [bind]; [now apply H|..]; (destruct lost; [destruct (L eq_refl); discriminate|reflexivity]).
Qed.

Lemma shr_pos_early c a x n : represents a x -> 0 < n ->
  bi_shr_pos_s zeroed c a n = unless (lost_shift c x n) (bi_shr_pos c a n).
Proof.
  intros Ha Hn. unfold bi_shr_pos_s, bi_shr_pos. cbv zeta.
  destruct (wp_inv _ _ (bi_parts_spec c a x Ha)) as ((xd & neg) & -> & Hneg & Hxd & _ & _ & Htriv & Hbig).
  cbn [fst snd bind] in *. subst neg.
  assert (L : Z.of_nat (length xd) = limbs_of x).
  { rewrite (limbs_of_length a x Ha).
    destruct (bits_of a) eqn:Eb; [rewrite Htriv by reflexivity; reflexivity|]. rewrite Hbig by discriminate. cbn [length]. lia. }
  rewrite L. unfold kcbitUint.
  assert (P : 0 < limbs_of x) by (rewrite (limbs_of_length a x Ha); lia).
  assert (E : chk32 c (32 * limbs_of x) =
    if strict c && (67108864 <=? limbs_of x) then Undef SignedOverflow else Ret (int_of (32 * limbs_of x))).
  { rewrite int_of_s32. unfold chk32. rewrite (proj2 (Z.leb_le INT_MIN _)) by (num; lia). cbn [andb].
    destruct (Z.leb_spec (32 * limbs_of x) INT_MAX) as [G|G].
    - rewrite (proj2 (Z.leb_gt _ _)) by (num; lia). rewrite Bool.andb_false_r. f_equal. symmetry.
      unfold s32. rewrite u32_small by (num; lia). cbv zeta. now rewrite (proj2 (Z.ltb_lt _ _)) by (num; lia).
    - rewrite (proj2 (Z.leb_le _ _)) by (num; lia). rewrite Bool.andb_true_r. reflexivity. }
  unfold lost_shift. change (2 ^ 26) with 67108864. rewrite E. clear E.
  destruct (x <? 0); cbn [andb bind];
    [destruct (strict c && (67108864 <=? limbs_of x)); cbn [andb bind negb];
       [reflexivity|destruct (int_of (32 * limbs_of x) <=? n); [reflexivity|]]|];
    rewrite unless_false.
  - eapply (bind_same _ _ _ limbs); [now apply pc_twos|]. intros xd2 Hx2.
    eapply (bind_same _ _ _ limbs); [|intros zd Hz].
    { destruct (_ =? 0).
      - apply pc_for_down; [apply limbs_zeros|]. intros k zd Hz. eapply pc_bind; [now apply pc_rd|]. intros. now apply pc_wr.
      - eapply (pc_bind _ _ (fun p => limbs (fst p))); [|intros (zd, cr) H; now apply pc_ret].
        eapply pc_mono; [apply (pc_for_down _ _ _ (fun p => limbs (fst p) /\ limb (snd p)))|].
        + split; [apply limbs_zeros|apply limb_const; reflexivity].
        + intros k (zd, cr) (Hz & Hcr). cbn [fst snd] in *.
          eapply pc_bind; [now apply pc_rd|]. intros rot Hrot. eapply pc_bind; [now apply pc_shr32|]. intros lo Hlo.
          eapply (pc_bind _ _ limbs).
          { destruct (Nat.eqb _ _).
            - eapply pc_bind; [apply pc_shl32|]. intros m Hm. apply pc_wr; [assumption|now apply limb_lor].
            - apply pc_wr; [assumption|now apply limb_lor]. }
          intros zd' Hz'. eapply pc_bind; [apply pc_shl32|]. intros cr' Hc'. apply pc_ret. now split.
        + intros p (H & _). exact H. }
    eapply (bind_same _ _ _ limbs); [now apply pc_twos|]. intros zd' Hz'. now apply mag_same.
  - eapply (bind_same _ _ _ limbs); [|intros zd Hz].
    { destruct (_ =? 0).
      - apply pc_for_down; [apply limbs_zeros|]. intros k zd Hz. eapply pc_bind; [now apply pc_rd|]. intros. now apply pc_wr.
      - eapply (pc_bind _ _ (fun p => limbs (fst p))); [|intros (zd, cr) H; now apply pc_ret].
        eapply pc_mono; [apply (pc_for_down _ _ _ (fun p => limbs (fst p) /\ limb (snd p)))|].
        + split; [apply limbs_zeros|apply limb_const; reflexivity].
        + intros k (zd, cr) (Hz & Hcr). cbn [fst snd] in *.
          eapply pc_bind; [now apply pc_rd|]. intros rot Hrot. eapply pc_bind; [now apply pc_shr32|]. intros lo Hlo.
          eapply (pc_bind _ _ limbs).
          { apply pc_wr; [assumption|now apply limb_lor]. }
          intros zd' Hz'. eapply pc_bind; [apply pc_shl32|]. intros cr' Hc'. apply pc_ret. now split.
        + intros p (H & _). exact H. }
    now apply mag_same.
Qed.

Lemma early_twice c a x : represents a x ->
  (r <- bi_shr_pos_s zeroed c a INT_MAX ;; bi_shr_pos_s zeroed c r 1) =
  unless (lost_shift_by c x (2 ^ 31)) (r <- bi_shr_pos c a INT_MAX ;; bi_shr_pos c r 1).
Proof.
  intros Ha. unfold lost_shift_by. change (2 ^ 31 <=? 0) with false. change (2 ^ 31 <? 2 ^ 31) with false. cbv iota.
  change (2 ^ 31 - 1) with INT_MAX. rewrite (shr_pos_early c a x INT_MAX Ha eq_refl).
  pose proof (shr_pos_exact c a x INT_MAX Ha eq_refl) as D.
  destruct (lost_shift c x INT_MAX); cbn [orb unless bind].
  - rewrite (shr_pos_early c (Big 0 []) 0 1 repr_zero eq_refl). cbn [unless]. destruct c as [[|] ?]; reflexivity.
  - destruct (right_shift c x INT_MAX) as [z| | | |]; cbn [denotes] in D; try (rewrite D; reflexivity).
    destruct D as (r & -> & Hr). cbn [bind]. now apply shr_pos_early.
Qed.
Lemma shr_early c a x n : represents a x -> is_int n ->
  bi_shr_s zeroed c a n = unless (lost_shift_by c x n) (bi_shr c a n).
Proof.
  intros Ha (N1 & N2). unfold bi_shr_s, bi_shr, lost_shift_by.
  destruct (Z.eqb_spec n 0) as [->|N0]; [reflexivity|]. destruct (Z.eqb_spec n INT_MIN) as [->|Nm].
  { change (INT_MIN <=? 0) with true. cbn [unless]. rewrite (shl_pos_same c a x INT_MAX Ha).
    eapply (bind_same _ _ _ canonical); [apply pc_shl_pos; [exact (proj1 Ha)|num; lia]|]. intros r Hr.
    apply (shl_pos_same c r (value r)). now apply canonical_represents. }
  destruct (Z.ltb_spec n 0) as [L|L].
  - rewrite (proj2 (Z.leb_le n 0)) by lia. cbn [unless]. now apply (shl_pos_same c a x).
  - rewrite (proj2 (Z.leb_gt n 0)) by lia. rewrite (proj2 (Z.ltb_lt n (2 ^ 31))) by (change (2 ^ 31) with 2147483648; num; lia).
    apply shr_pos_early; [assumption|lia].
Qed.
Lemma shl_early c a x n : represents a x -> is_int n ->
  bi_shl_s zeroed c a n = unless (lost_shift_by c x (- n)) (bi_shl c a n).
Proof.
  intros Ha (N1 & N2). unfold bi_shl_s, bi_shl.
  destruct (Z.eqb_spec n 0) as [->|N0]; [reflexivity|]. destruct (Z.eqb_spec n INT_MIN) as [->|Nm].
  { change (- INT_MIN) with (2 ^ 31). now apply early_twice. }
  unfold lost_shift_by. destruct (Z.ltb_spec n 0) as [L|L].
  - rewrite (proj2 (Z.leb_gt (- n) 0)) by lia.
    rewrite (proj2 (Z.ltb_lt (- n) (2 ^ 31))) by (change (2 ^ 31) with 2147483648; num; lia).
    apply shr_pos_early; [assumption|lia].
  - rewrite (proj2 (Z.leb_le (- n) 0)) by lia. cbn [unless]. now apply (shl_pos_same c a x).
Qed.

(** ** Dwords and bit operations *)

Lemma bind_unless {A} (o : outcome A) f g lost P :
  wp o P -> (forall a, P a -> f a = unless lost (g a)) -> bind o f = unless lost (bind o g).
Proof. intros H E. destruct (wp_inv _ _ H) as (a & -> & Ha). cbn [bind]. now apply E. Qed.
Lemma checked_big0 c : checked c (Big 0 []) = Ret (Big 0 []).
Proof. destruct c as [[|] ?]; reflexivity. Qed.

Lemma dwords_early c l : limbs l ->
  bi_of_dwords_s zeroed c l = unless (lost_dwords (length l) (complement W32 l)) (bi_of_dwords c l).
Proof.
  intros Hl. unfold bi_of_dwords_s, bi_of_dwords.
  assert (exists neg, wp (if Nat.ltb 0 (length l)
     then top <- rd l (length l - 1) ;; Ret (Z.land top 2147483648 =? 2147483648)
     else Ret false) (fun r => r = neg) /\ (neg = true <-> W32 <= 2 * last l 0) /\
     complement W32 l = val l - (if neg : bool then Bp (length l) else 0)) as (neg & Hn & Hneg & Hc).
  { assert (complement W32 l = val l - (if W32 <=? 2 * last l 0 then Bp (length l) else 0)) as Hc0.
    { unfold complement. now rewrite pos_val. }
    rewrite last_nth in *. pose proof (limbs_nth l (length l - 1) Hl) as Ht.
    exists (W32 <=? 2 * nth (length l - 1) l 0). split; [|split; [apply Z.leb_le|exact Hc0]].
    destruct (Nat.ltb_spec 0 (length l)) as [H|H].
    - wstep. wstep; [lia|]. wstep. rewrite land_high by exact Ht.
      destruct (Z.leb_spec 2147483648 (nth (length l - 1) l 0)), (Z.leb_spec W32 (2 * nth (length l - 1) l 0));
        try reflexivity; num; lia.
    - wstep. destruct l; [reflexivity|cbn [length] in H; lia]. }
  eapply bind_unless; [exact Hn|]. cbn beta. intros r ->. clear Hn. rewrite Hc. clear Hc.
  eapply bind_unless; [apply trim_len_spec; lia|]. intros k (A & B & C).
  pose proof (val_bound l Hl) as Vb. unfold lost_dwords, is_min. change (- 2 ^ 31) with (-2147483648).
  assert (neg = true -> k = length l /\ (1 <= length l)%nat) as Kneg.
  { intros ->. destruct Hneg as [Hneg _]. specialize (Hneg eq_refl). rewrite last_nth in Hneg.
    destruct (Nat.lt_ge_cases k (length l)) as [L|L]; [exfalso|].
    2:{ split; [lia|]. destruct l; [cbn in Hneg; num; lia|cbn [length]; lia]. }
    assert (nth (length l - 1) l 0 = 0); [|num; lia].
    assert (vl l (length l - 1) <= val l - nth (length l - 1) l 0 * Bp (length l - 1)) as V1.
    { rewrite <- (vl_all l). replace (length l) with (S (length l - 1)) at 2 by lia. rewrite vl_S by lia. lia. }
    pose proof (vl_bound l k Hl) as V2. rewrite B, vl_all in V2.
    pose proof (Bp_le k (length l - 1) ltac:(lia)) as V3.
    pose proof (vl_bound l (length l - 1) Hl) as V4.
    pose proof (limbs_nth l (length l - 1) Hl) as V5. unfold limb in V5.
    destruct (Z.eq_dec (nth (length l - 1) l 0) 0) as [E|E]; [exact E|exfalso].
    assert (1 * Bp (length l - 1) <= nth (length l - 1) l 0 * Bp (length l - 1))
      by (apply Z.mul_le_mono_nonneg_r; [pose proof (Bp_pos (length l - 1)); lia|lia]).
    lia. }
  assert (neg = false -> (if Nat.leb (length l) 1 then val l - (if neg then Bp (length l) else 0) =? -2147483648
    else val l - (if neg then Bp (length l) else 0) =? -1) = false) as Pos.
  { intros ->. destruct (Nat.leb _ _); apply Z.eqb_neq; lia. }
  destruct neg; [|clear Kneg; rewrite (Pos eq_refl), unless_false].
  2:{ destruct (Nat.eqb k 0); [reflexivity|]. destruct (Nat.eqb k 1); [|reflexivity].
      eapply bind_same; [now apply pc_rd|]. intros v Hv. cbn [negb]. rewrite Bool.andb_true_r. unfold limb in Hv.
      unfold s32. rewrite u32_small by lia. cbv zeta. destruct (Z.ltb_spec v 2147483648) as [G|G].
      - destruct (Z.ltb_spec v 0); [lia|]. destruct (Z.eqb_spec INT_MIN v); [num; lia|reflexivity].
      - destruct (Z.ltb_spec (v - W32) 0); [reflexivity|num; lia]. }
  destruct (Kneg eq_refl) as (-> & L1). clear Kneg Pos. destruct C as [C|C]; [lia|].
  destruct Hneg as [Hneg _]. specialize (Hneg eq_refl). rewrite last_nth in Hneg.
  destruct (Nat.eqb_spec (length l) 0) as [|_]; [lia|].
  destruct (Nat.eqb_spec (length l) 1) as [K1|K1].
  { rewrite K1 in *. change (Nat.leb 1 1) with true. cbv iota.
    apply (bind_unless _ _ _ _ (fun v => v = nth 0 l 0)); [apply wp_rd; [lia|reflexivity]|]. cbn beta. intros v ->.
    pose proof (limbs_nth l 0 Hl) as H0. set (v := nth 0 l 0) in *. unfold limb in H0.
    assert (val l = v) as ->.
    { unfold v. destruct l as [|x0 [|]]; try discriminate K1. cbn [val nth]. ring. }
    cbn [Nat.sub] in Hneg. fold v in Hneg. cbn [negb]. rewrite Bool.andb_false_r, Bp_S, Bp_0.
    unfold s32. rewrite u32_small by lia. cbv zeta. destruct (Z.ltb_spec v 2147483648) as [G|G]; [num; lia|].
    replace (v - W32 * 1) with (v - W32) by ring. change (-2147483648) with INT_MIN. rewrite (Z.eqb_sym _ INT_MIN).
    destruct (INT_MIN =? v - W32); [apply checked_big0|reflexivity]. }
  rewrite (proj2 (Nat.leb_gt _ 1)) by lia. cbn [negb].
  eapply bind_unless; [apply make_twos_complement_spec; auto|]. intros m (M1 & M2 & M3).
  assert (V0 : val l <> 0).
  { assert (top_nz l) as T. { unfold top_nz. exact C. }
    pose proof (top_nz_bound l Hl ltac:(destruct l; [cbn [length] in L1; lia|discriminate]) T). pose proof (Bp_pos (length l - 1)). lia. }
  rewrite (proj2 (Z.eqb_neq (val l) 0) V0) in M3. clear A B C.
  eapply bind_unless; [apply trim_len_spec; lia|]. intros j (J1 & J2 & J3).
  assert (j <> 0)%nat as J0.
  { intros ->. rewrite vl_all in J2. unfold vl in J2. cbn [firstn val] in J2. lia. }
  destruct J3 as [J3|J3]; [lia|].
  destruct (top_firstn m j M2 ltac:(lia) J2 J3) as (U1 & U2 & U3 & U4 & U5).
  apply (bind_unless _ _ _ _ (fun v => v = nth 0 m 0)); [apply wp_rd; [lia|reflexivity]|]. cbn beta. intros v ->.
  replace (val l - Bp (length l)) with (- val m) by lia.
  pose proof (limbs_nth m 0 M2) as H0. set (v := nth 0 m 0) in *. unfold limb in H0.
  destruct (Nat.eqb_spec j 1) as [E1|E1]; cbn [andb].
  - subst j. assert (val m = v) as ->.
    { rewrite <- U4. unfold v. destruct m as [|x0 m0]; [cbn [length] in J1; lia|]. cbn [firstn val nth]. ring. }
    unfold s32. rewrite u32_small by lia. cbv zeta. destruct (Z.ltb_spec v 2147483648) as [G|G].
    + cbn [Nat.sub] in J3. fold v in J3. destruct (Z.ltb_spec 0 v); [|lia]. destruct (Z.eqb_spec v 1) as [->|E].
      { apply checked_big0. }
      rewrite (proj2 (Z.eqb_neq (- v) (-1))) by lia. rewrite unless_false.
      destruct (Z.eqb_spec v kuMaskHighBit) as [E'|E']; [unfold kuMaskHighBit in E'; lia|reflexivity].
    + destruct (Z.ltb_spec 0 (v - W32)); [num; lia|]. rewrite (proj2 (Z.eqb_neq (- v) (-1))) by lia. reflexivity.
  - rewrite (proj2 (Z.eqb_neq (- val m) (-1))); [reflexivity|].
    pose proof (top_nz_bound _ U2 U3 U1) as TB. rewrite U5 in TB.
    pose proof (Bp_le 1 (j - 1) ltac:(lia)) as TB2. rewrite Bp_S, Bp_0 in TB2. num; lia.
Qed.

Lemma dword_length a x l : represents a x -> digits (2 ^ 32) l -> complement (2 ^ 32) l = x ->
  (forall l', digits (2 ^ 32) l' -> complement (2 ^ 32) l' = x -> (length l <= length l')%nat) ->
  Nat.leb (length l) 1 = in_dword x.
Proof.
  intros Ha Hl Hx Hm. unfold in_dword. change (2 ^ 32) with W32 in *. change (2 ^ 31) with 2147483648.
  destruct (Nat.leb_spec (length l) 1) as [L|L].
  - symmetry. rewrite <- Hx. apply Bool.andb_true_iff. rewrite Z.leb_le, Z.ltb_lt.
    destruct l as [|d [|]]; [change (complement W32 []) with 0; lia| |cbn [length] in L; lia]. inversion Hl as [|? ? Hd _]; subst.
    unfold complement. cbn [positional last length]. change (Z.of_nat 1) with 1. rewrite Z.pow_1_r.
    destruct (Z.leb_spec W32 (2 * d)); num; lia.
  - symmetry. apply Bool.not_true_iff_false. rewrite Bool.andb_true_iff, Z.leb_le, Z.ltb_lt. intros (A & B).
    assert (length l <= length [(x mod W32)%Z])%nat; [apply Hm|cbn [length] in *; lia].
    + constructor; [|constructor]. apply Z.mod_pos_bound. reflexivity.
    + unfold complement. cbn [positional last length]. change (Z.of_nat 1) with 1. rewrite Z.pow_1_r.
      destruct (Z.le_gt_cases 0 x).
      * rewrite Z.mod_small by (num; lia). destruct (Z.leb_spec W32 (2 * x)); num; lia.
      * replace (x mod W32) with (x + W32) by (apply (Z.mod_unique_pos _ _ (-1)); num; lia).
        destruct (Z.leb_spec W32 (2 * (x + W32))); num; lia.
Qed.

Lemma bitop_words_early c op a b x y : bitop op -> represents a x -> represents b y ->
  bi_bitop_words_s zeroed c op a b = unless (lost_bits x y (op x y)) (bi_bitop_words c op a b).
Proof.
  intros Ho Ha Hb. unfold bi_bitop_words_s, bi_bitop_words.
  destruct (to_words_returns c a x Ha) as (lx & -> & Lx & Cx & Mx).
  destruct (to_words_returns c b y Hb) as (ly & -> & Ly & Cy & My). cbn [bind]. cbv zeta.
  rewrite (repr_sign_ltb _ _ Ha), (repr_sign_ltb _ _ Hb), length_zeros.
  pose proof (dword_length a x lx Ha Lx Cx Mx) as Dx. pose proof (dword_length b y ly Hb Ly Cy My) as Dy. clear Mx My.
  change (2 ^ 32) with W32 in *. set (n := Nat.max (length lx) (length ly)).
  eapply bind_unless with (P := fun z => length z = n /\ limbs z /\
    forall i, (i < n)%nat -> nth i z 0 = (op x y / Bp i) mod W32).
  - eapply wp_for_up with (I := fun i z => length z = n /\ limbs z /\
      forall j, (j < i)%nat -> nth j z 0 = (op x y / Bp j) mod W32).
    + rewrite length_zeros. split; [reflexivity|]. split; [apply limbs_zeros|]. lia.
    + intros i z Hi (A & B & C). cbn [Nat.add] in *.
      wstep. eapply wp_mono; [apply ext_rd; now right|]. cbn beta. intros xu ->.
      wstep. eapply wp_mono; [apply ext_rd; now right|]. cbn beta. intros yu ->.
      assert (op (ext W32 lx (x <? 0) i) (ext W32 ly (y <? 0) i) = (op x y / Bp i) mod W32) as E.
      { pose proof (complement_ext W32 W32_ok W32_even lx i Lx) as E1. rewrite Cx in E1.
        pose proof (complement_ext W32 W32_ok W32_even ly i Ly) as E2. rewrite Cy in E2.
        rewrite E1, E2, bp_Bp. change W32 with (2 ^ 32). rewrite (bo_mod _ Ho) by lia. f_equal.
        rewrite Bp_pow2. symmetry. apply (bo_shift _ Ho). lia. }
      rewrite E. wstep; [lia|].
      split; [now rewrite length_upd|].
      split; [apply limbs_upd; [exact B|]; unfold limb; apply Z.mod_pos_bound; reflexivity|].
      intros j Hj. destruct (Nat.eq_dec j i) as [->|Hn].
      * rewrite nth_upd_same by lia. reflexivity.
      * rewrite nth_upd_other by lia. apply C. lia.
    + intros z (A & B & C). auto.
  - intros z (A & B & C).
    assert (complement W32 z = op x y) as E.
    { apply complement_unique; [apply W32_ok|apply W32_even|exact B| |rewrite A; exact C].
      rewrite A. apply bitop_cfits; [exact Ho| |].
      - rewrite <- Cx. eapply cfits_le; [apply W32_ok| |apply complement_range; [apply W32_ok|apply W32_even|exact Lx]]. lia.
      - rewrite <- Cy. eapply cfits_le; [apply W32_ok| |apply complement_range; [apply W32_ok|apply W32_even|exact Ly]]. lia. }
    rewrite (dwords_early c z B), A, E. f_equal. unfold lost_dwords, lost_bits. rewrite <- Dx, <- Dy.
    replace (Nat.leb n 1) with (Nat.leb (length lx) 1 && Nat.leb (length ly) 1); [reflexivity|]. unfold n.
    destruct (Nat.leb_spec (length lx) 1), (Nat.leb_spec (length ly) 1), (Nat.leb_spec (Nat.max (length lx) (length ly)) 1);
      reflexivity || lia.
Qed.

Lemma in_sign_dword x : in_sign x = true -> in_dword x = true.
Proof.
  rewrite in_sign_iff. intros H. unfold in_dword. change (2 ^ 31) with 2147483648.
  apply Bool.andb_true_iff. rewrite Z.leb_le, Z.ltb_lt. lia.
Qed.
Lemma lost_bits_zero x y : lost_bits x y 0 = false.
Proof. unfold lost_bits. now destruct (_ && _). Qed.

Lemma bitop_early c op a b x y : bitop op -> represents a x -> represents b y ->
  (if is_nil (bits_of a) && is_nil (bits_of b) then bi_of_int32_s zeroed c (op (sign_of a) (sign_of b))
   else bi_bitop_words_s zeroed c op a b) =
  unless (lost_bits x y (op x y))
    (if is_nil (bits_of a) && is_nil (bits_of b) then bi_of_int32 c (op (sign_of a) (sign_of b))
     else bi_bitop_words c op a b).
Proof.
  intros Ho Ha Hb. destruct (both_small a b x y Ha Hb) as [(E & N & Ea & Eb & Rx & Ry)|(E & N)]; rewrite N.
  - rewrite Ea, Eb, int32_early. f_equal. unfold lost_bits. apply Bool.andb_true_iff in E as (E1 & E2).
    now rewrite (in_sign_dword _ E1), (in_sign_dword _ E2).
  - now apply bitop_words_early.
Qed.
Lemma xor_early c a b x y : represents a x -> represents b y ->
  bi_xor_s zeroed c a b = unless (lost_bits x y (Z.lxor x y)) (bi_xor c a b).
Proof. intros Ha Hb. apply (bitop_early c Z.lxor); auto using bitop_xor. Qed.
Lemma and_early c a b x y : represents a x -> represents b y ->
  bi_and_s zeroed c a b = unless (lost_bits x y (Z.land x y)) (bi_and c a b).
Proof.
  intros Ha Hb. unfold bi_and_s, bi_and. rewrite (bi_is_zero_spec c a x Ha), (bi_is_zero_spec c b y Hb). cbn [bind].
  destruct (Z.eqb_spec x 0) as [->|Hx]; cbn [bind].
  { now rewrite Z.land_0_l, lost_bits_zero. }
  destruct (Z.eqb_spec y 0) as [->|Hy]; cbn [bind].
  { now rewrite Z.land_0_r, lost_bits_zero. }
  apply (bitop_early c Z.land); auto using bitop_and.
Qed.
Lemma or_early c a b x y : represents a x -> represents b y ->
  bi_or_s zeroed c a b = unless (negb (x =? 0) && negb (y =? 0) && lost_bits x y (Z.lor x y)) (bi_or c a b).
Proof.
  intros Ha Hb. unfold bi_or_s, bi_or. rewrite (bi_is_zero_spec c a x Ha), (bi_is_zero_spec c b y Hb). cbn [bind].
  destruct (x =? 0); [reflexivity|]. destruct (y =? 0); [reflexivity|]. cbn [negb andb].
  apply (bitop_early c Z.lor); auto using bitop_or.
Qed.

(** ** Powers *)

Lemma pc_pow_loops c v n : limbs (bb_bits v) -> pc (pow_core c n v) limbs.
Proof.
  intros Hv. unfold pow_core. cbv zeta. eapply pc_bind; [apply pc_buf_u, limb_const; reflexivity|]. intros t Ht.
  eapply pc_bind; [apply pc_buf_u, limb_const; reflexivity|]. intros r Hr.
  eapply pc_bind; [now apply pc_pow_core_loop|]. intros r' Hr'. now apply pc_ret.
Qed.
Lemma pc_pow_u c v e : limb v -> pc (calc_pow_u c v e) limbs.
Proof.
  intros Hv. unfold calc_pow_u. eapply pc_bind; [apply pc_true|]. intros size _.
  eapply pc_bind; [now apply pc_buf_u|]. intros. now apply pc_pow_loops.
Qed.
Lemma pc_pow_v c l e : limbs l -> pc (calc_pow_v c l e) limbs.
Proof.
  intros Hv. unfold calc_pow_v. eapply pc_bind; [apply pc_true|]. intros size _.
  eapply pc_bind; [now apply pc_buf_v|]. intros. now apply pc_pow_loops.
Qed.
Lemma pow_early c a x e : represents a x -> bi_pow_s zeroed c a e = unless (lost_pow x e) (bi_pow c a e).
Proof.
  intros Ha. pose proof (repr_limbs _ _ Ha) as La. unfold bi_pow_s, bi_pow, lost_pow.
  rewrite (assert_valid_ok c a x Ha). cbn [bind].
  destruct (Z.ltb_spec e 0) as [He|He].
  { rewrite (proj2 (Z.eqb_neq e 0)), (proj2 (Z.ltb_ge 0 e)), Bool.andb_false_r by lia. reflexivity. }
  destruct (Z.eqb_spec e 0) as [->|E0]; [reflexivity|]. cbn [orb]. rewrite (proj2 (Z.ltb_lt 0 e)) by lia.
  rewrite Bool.andb_true_r. destruct (Z.eqb_spec e 1) as [->|E1]; [now rewrite Bool.andb_false_r|]. cbv zeta.
  assert (Ev : negb (Z.land e 1 =? 0) = negb (Z.even e)).
  { change 1 with (Z.ones 1). rewrite Z.land_ones by lia. change (2 ^ 1) with 2. rewrite Zmod_even. now destruct (Z.even e). }
  rewrite Ev. destruct (repr_inline a x Ha) as [(A1 & A2 & A3)|(A1 & A2)].
  - rewrite A1, A3. cbn [is_nil andb]. destruct (Z.eqb_spec x 1) as [->|X1]; [reflexivity|].
    destruct (Z.eqb_spec x (-1)) as [->|X2]; [destruct (Z.even e); reflexivity|]. cbn [andb].
    destruct (x =? 0); [reflexivity|]. rewrite unless_false.
    eapply bind_same; [apply pc_true|]. intros e' _.
    eapply (bind_same _ _ _ limbs); [|intros; now apply mag_same].
    eapply pc_bind; [apply pc_abs32|]. intros v Hv. now apply pc_pow_u.
  - assert (N : is_nil (bits_of a) = false) by (destruct (bits_of a); [congruence|reflexivity]).
    rewrite N. cbn [andb]. destruct (Z.eqb_spec x (-1)) as [->|X2]; [discriminate A2|]. cbn [andb]. rewrite unless_false.
    eapply bind_same; [apply pc_true|]. intros e' _.
    eapply (bind_same _ _ _ limbs); [|intros; now apply mag_same]. now apply pc_pow_v.
Qed.

(** ** Greatest common divisor, modular power: unaffected *)

Lemma gcd_bits_same fuel c a b : limbs a -> limbs b -> bi_gcd_bits_s fuel zeroed c a b = bi_gcd_bits fuel c a b.
Proof.
  intros Ha Hb. unfold bi_gcd_bits_s, bi_gcd_bits. eapply bind_same; [apply pc_true|]. intros _ _.
  destruct (Nat.eqb _ _); [reflexivity|]. destruct (Nat.eqb _ _); [reflexivity|].
  eapply bind_same; [now apply pc_gcd|]. intros. now apply mag_same.
Qed.
Lemma gcd_same fuel c a b x y : represents a x -> represents b y -> bi_gcd_s fuel zeroed c a b = bi_gcd fuel c a b.
Proof.
  intros Ha Hb. pose proof (repr_limbs _ _ Ha) as La. pose proof (repr_limbs _ _ Hb) as Lb.
  unfold bi_gcd_s, bi_gcd. do 2 (eapply bind_same; [apply pc_true|]; intros _ _). cbv zeta.
  destruct (is_nil (bits_of a)), (is_nil (bits_of b)); cbn [andb]; [reflexivity| | |].
  - destruct (negb _); [reflexivity|now apply mag_same].
  - destruct (negb _); [reflexivity|now apply mag_same].
  - eapply bind_same; [apply pc_true|]. intros cmp _. destruct (cmp <? 0); now apply gcd_bits_same.
Qed.
Lemma mod_pow_same c a b m x e z : represents a x -> represents b e -> represents m z ->
  bi_mod_pow_s zeroed c a b m = bi_mod_pow c a b m.
Proof.
  intros Ha Hb Hm. apply repr_limbs in Ha, Hb, Hm. unfold bi_mod_pow_s, bi_mod_pow.
  destruct (_ <? 0); [reflexivity|]. do 3 (eapply bind_same; [apply pc_true|]; intros _ _). cbv zeta.
  destruct (is_nil (bits_of m)); [reflexivity|]. eapply (bind_same _ _ _ limbs).
  { destruct (is_nil (bits_of a)); [eapply pc_bind; [apply pc_abs32|]; intros v Hv|];
      (destruct (is_nil (bits_of b)); [eapply pc_bind; [apply pc_true|]; intros ? _|]).
    - now apply pc_powmod_uuv.
    - now apply pc_powmod_uvv.
    - now apply pc_powmod_vuv.
    - now apply pc_powmod_vvv. }
  intros r Hr. eapply bind_same; [apply pc_true|]. intros even _. now apply mag_same.
Qed.
Lemma double_same c v : bi_of_double_s zeroed c v = bi_of_double c v.
Proof.
  unfold bi_of_double_s, bi_of_double. now rewrite !zero_same.
Qed.

(** ** Text: unaffected *)

Lemma parse_loop_same c s b z : represents b z -> 0 <= z -> parse_loop_s zeroed c s b = parse_loop c s b.
Proof.
  revert b z. induction s as [|ch s IH]; intros b z Hb Hz; cbn [parse_loop_s parse_loop]; [reflexivity|].
  destruct (_ && _) eqn:E; [|reflexivity]. apply Bool.andb_true_iff in E as (E1 & E2). apply Z.leb_le in E1, E2.
  change (bi_of_int32_s zeroed c 10) with (bi_of_int32 c 10).
  eapply (bind_same _ _ _ (fun t => represents t 10)); [apply pc_wp, bi_of_int32_spec; num; lia|]. intros t Ht.
  rewrite (mul_early c b t z 10 Hb Ht). unfold lost_small. rewrite (min_above (z * 10)), Bool.andb_false_r, unless_false by lia.
  eapply (bind_same _ _ _ (fun p => represents p (z * 10))); [now apply pc_wp, bi_mul_spec|]. intros p Hp.
  eapply (bind_same _ _ _ (fun d => represents d (code ch - 48))); [apply pc_wp, bi_of_uint32_spec; unfold UINT_MAX; lia|]. intros d Hd.
  rewrite (add_early c p d _ _ Hp Hd). unfold lost_small.
  rewrite (min_above (z * 10 + (code ch - 48))), Bool.andb_false_r, unless_false by lia.
  eapply (bind_same _ _ _ (fun q => represents q (z * 10 + (code ch - 48)))); [now apply pc_wp, bi_add_spec|]. intros q Hq.
  apply (IH q _ Hq). lia.
Qed.
Lemma parse_same c s : bi_parse_s zeroed c s = bi_parse c s.
Proof.
  unfold bi_parse_s, bi_parse. rewrite zero_same.
  eapply (bind_same _ _ _ (fun b => represents b 0)); [apply pc_wp, bi_zero_spec|]. intros b Hb.
  destruct s as [|ch t]; [reflexivity|]. destruct (code ch =? 45); [|destruct (code ch =? 43)];
    now rewrite (parse_loop_same c _ b 0 Hb (Z.le_refl 0)).
Qed.

(** ** Bytes *)

Definition finish_big_s (sc : statics) (c : cfg) (val : list Z) (isNegative : bool) : outcome bigint :=
  if isNegative then
    val <- make_twos_complement val ;;
    len <- trim_len val (length val) ;;
    v0 <- (if Nat.eqb len 1 then rd val 0 else Ret 0) ;;
    if Nat.eqb len 1 && (v0 =? 1) then Ret (minus_one_int sc)
    else if Nat.eqb len 1 && (v0 =? kuMaskHighBit) then Ret (min_int sc)
    else if Nat.eqb len 1 && (0 <? s32 v0) then checked c (Big (-1 * s32 v0) [])
    else if negb (Nat.eqb len (length val)) then checked c (Big (-1) (firstn len val))
    else checked c (Big (-1) val)
  else checked c (Big 1 val).
Definition small_case_s (sc : statics) (c : cfg) (value : list Z) (byteCount : nat) (isNegative isBigEndian : bool) : outcome bigint :=
    let sign := if isNegative : bool then -1 else 0 in
    sign <-
      (if isBigEndian then
         for_up byteCount 0 (fun i sign =>
           s <- shl8_int c sign ;; v <- rd value i ;; Ret (Z.lor s v)) sign
       else
         for_down byteCount (fun i sign =>
           s <- shl8_int c sign ;; v <- rd value i ;; Ret (Z.lor s v)) sign) ;;
    let this := if (sign <? 0) && negb isNegative then Big 1 [u32 sign] else Big sign [] in
    let this := if sign_of this =? INT_MIN then min_int sc else this in
    checked c this.

Lemma of_bytes_s_unfold sc c value u be :
  bi_of_bytes_s sc c value u be =
  (r <- first_step value u be ;;
   let '(value, byteCount, isNegative) := r in
   if Nat.eqb byteCount 0 then checked c (Big 0 [])
   else if Nat.leb byteCount 4 then small_case_s sc c value byteCount isNegative be
   else
     let unalignedBytes := Nat.modulo byteCount 4 in
     let dwordCount := (Nat.div byteCount 4 + (if Nat.eqb unalignedBytes 0 then 0 else 1))%nat in
     let full := (dwordCount - (if Nat.eqb unalignedBytes 0 then 0 else 1))%nat in
     st <- full_words value byteCount dwordCount full be ;;
     let '(val, _) := st in
     val <-
       (if Nat.eqb unalignedBytes 0 then Ret val
        else
          val <- (if isNegative : bool then wr val (dwordCount - 1) UINT_MAX else Ret val) ;;
          top_word value val byteCount unalignedBytes full be) ;;
     finish_big_s sc c val isNegative).
Proof. reflexivity. Qed.

Lemma finish_big_early c dw l (neg : bool) A :
  words_at A dw dw 0 l -> (2 <= dw)%nat ->
  (if neg then - Bp dw < A < 0 else Bp (dw - 1) <= A < Bp dw) ->
  finish_big_s zeroed c l neg = unless (is_min A || (A =? -1)) (finish_big c l neg).
Proof.
  intros W Hd HA. destruct (words_val _ _ _ W) as (L & Hl & Hv). unfold finish_big_s, finish_big.
  pose proof (Bp_pos (dw - 1)) as PB.
  destruct neg.
  2:{ rewrite min_above by lia. rewrite (proj2 (Z.eqb_neq A (-1))) by lia. reflexivity. }
  assert (val l = A + Bp dw) as Hv2.
  { rewrite Hv. symmetry. apply (Z.mod_unique_pos _ _ (-1)); lia. }
  clear Hv. eapply bind_unless; [apply make_twos_complement_spec; auto|]. intros m (M1 & M2 & M3).
  rewrite (proj2 (Z.eqb_neq (val l) 0)) in M3 by lia. rewrite L in M3, M1.
  assert (val m = - A) as Vm by lia. clear M3.
  eapply bind_unless; [apply trim_len_spec; lia|]. intros j (J1 & J2 & J3).
  assert (j <> 0)%nat as J0.
  { intros ->. rewrite vl_all in J2. unfold vl in J2. cbn [firstn val] in J2. lia. }
  destruct J3 as [J3|J3]; [lia|].
  destruct (top_firstn m j M2 ltac:(lia) J2 J3) as (U1 & U2 & U3 & U4 & U5).
  pose proof (limbs_nth m 0 M2) as H0. unfold is_min. change (- 2 ^ 31) with (-2147483648).
  destruct (Nat.eqb_spec j 1) as [E1|E1]; cbn [andb].
  - apply (bind_unless _ _ _ _ (fun v => v = nth 0 m 0)); [apply wp_rd; [lia|reflexivity]|]. cbn beta. intros v ->.
    subst j. set (v := nth 0 m 0) in *.
    assert (val m = v) as Ev.
    { rewrite <- U4. unfold v. destruct m as [|x0 m0]; [cbn [length] in J1; lia|]. cbn [firstn val nth]. ring. }
    assert (A = - v) as -> by lia. clearbody v. unfold limb in H0.
    destruct (Z.eqb_spec v 1) as [->|N1]; [reflexivity|].
    destruct (Z.eqb_spec v kuMaskHighBit) as [->|N2]; [reflexivity|]. unfold kuMaskHighBit in N2.
    rewrite (proj2 (Z.eqb_neq (- v) (-1))), (proj2 (Z.eqb_neq (- v) (-2147483648))) by lia. reflexivity.
  - cbn [bind]. pose proof (top_nz_bound _ U2 U3 U1) as TB. rewrite U5 in TB.
    pose proof (Bp_le 1 (j - 1) ltac:(lia)) as TB2. rewrite Bp_S, Bp_0 in TB2.
    rewrite (proj2 (Z.eqb_neq A (-1))), (proj2 (Z.eqb_neq A (-2147483648))) by (num; lia). reflexivity.
Qed.

Lemma small_case_early c be v n neg A :
  trimmed be v n neg A -> (n <= 4)%nat -> strict c = false \/ neg = false ->
  small_case_s zeroed c v n neg be = unless (is_min A) (small_case c v n neg be).
Proof.
  intros T Hn Hc. unfold small_case_s, small_case. cbv zeta.
  assert ((if neg then -1 else 0) = s32 (A / p8 n)) as E0.
  { rewrite (t_top _ _ _ _ _ T). now destruct neg. }
  rewrite E0.
  eapply bind_unless with (P := fun s => s = s32 A).
  { destruct be.
    - eapply wp_for_up with (I := fun i s => s = s32 (A / p8 (n - i))).
      + now rewrite Nat.sub_0_r.
      + intros i s Hi ->. replace (n - i)%nat with (S (n - S i)) by lia.
        pose proof (small_step c true v n neg A (n - S i) (fun s => s = s32 (A / p8 (n - S i))) T Hn Hc
          ltac:(lia) eq_refl) as P.
        replace (idx true n (n - S i)) with i in P by (cbn [idx]; lia). exact P.
      + intros s ->. replace (n - (0 + n))%nat with O by lia. now rewrite bp_0, Z.div_1_r.
    - eapply wp_for_down with (I := fun i s => s = s32 (A / p8 i)).
      + reflexivity.
      + intros i s Hi ->. apply (small_step c false v n neg A i (fun s => s = s32 (A / p8 i)) T Hn Hc Hi eq_refl).
      + intros s ->. now rewrite bp_0, Z.div_1_r. }
  cbn beta. intros s ->. pose proof (trimmed_range _ _ _ _ _ T) as R.
  pose proof (bp_le 256 B8_ok n 4 Hn) as L. change (p8 4) with 4294967296 in L.
  unfold is_min. change (- 2 ^ 31) with INT_MIN.
  destruct neg; cbn [negb]; cbn beta iota in R.
  - rewrite Bool.andb_false_r. rewrite s32_small by (num; lia). cbn [sign_of].
    destruct (A =? INT_MIN); [apply checked_big0|reflexivity].
  - rewrite (proj2 (Z.eqb_neq A INT_MIN)), unless_false by (num; lia).
    rewrite Bool.andb_true_r. unfold s32. rewrite (u32_small A) by (num; lia). cbv zeta.
    destruct (Z.ltb_spec A 2147483648) as [G|G].
    + destruct (Z.ltb_spec A 0); [lia|]. cbn [sign_of]. destruct (Z.eqb_spec A INT_MIN); [num; lia|]. reflexivity.
    + destruct (Z.ltb_spec (A - W32) 0); [|num; lia]. reflexivity.
Qed.
Lemma small_case_strict c v n be sc : strict c = true -> (n <> 0)%nat ->
  small_case_s sc c v n true be = Undef ShiftNegative /\ small_case c v n true be = Undef ShiftNegative.
Proof.
  intros Hs N0. unfold small_case_s, small_case. destruct n as [|n]; [lia|]. cbn [for_up for_down].
  assert (shl8_int c (-1) = Undef ShiftNegative) as -> by (unfold shl8_int; rewrite Hs; reflexivity).
  destruct be; split; reflexivity.
Qed.

Lemma bytes_early c value u be : bytes value ->
  bi_of_bytes_s zeroed c value u be =
  unless (lost_bytes c (length value) (bytes_value u be value)) (bi_of_bytes c value u be).
Proof.
  intros Hv. rewrite of_bytes_s_unfold, of_bytes_unfold.
  assert (wp (first_step value u be) (fun r => let '(v, n, neg) := r in
    trimmed be v n neg (bytes_value u be value) /\ (neg = true -> n = length value))) as FS.
  { pose proof (first_step_spec value u be Hv) as F.
    destruct (first_step value u be) as [((v & n) & neg)| | | |] eqn:E; try contradiction F.
    cbn [wp] in *. split; [exact F|]. intros ->.
    unfold first_step in E. destruct (Nat.ltb 0 (length value)); [|congruence].
    destruct (if be then rd value 0 else rd value (length value - 1)) as [m| | | |]; try discriminate E.
    cbn [bind] in E. destruct (m =? 0) eqn:Em; [|congruence]. apply Z.eqb_eq in Em. rewrite Em in E.
    destruct be.
    - destruct (be_skip _ _ _); discriminate E.
    - destruct (trim_len _ _); discriminate E. }
  eapply bind_unless; [exact FS|]. clear FS. set (A := bytes_value u be value) in *.
  intros ((v & n) & neg) (T & Hlen). pose proof (trimmed_range _ _ _ _ _ T) as R.
  assert (Pos : 0 <= A -> lost_bytes c (length value) A = false).
  { intros P. unfold lost_bytes. rewrite min_above by lia. rewrite (proj2 (Z.eqb_neq A (-1))) by lia.
    now destruct (Nat.leb _ _). }
  destruct (Nat.eqb_spec n 0) as [N0|N0].
  { destruct neg; [lia|]. now rewrite Pos by lia. }
  destruct (Nat.leb_spec n 4) as [N4|N4].
  { destruct neg.
    - unfold lost_bytes. rewrite <- (Hlen eq_refl), (proj2 (Nat.leb_le n 4)) by lia. destruct (strict c) eqn:Es.
      + destruct (small_case_strict c v n be zeroed Es N0) as (-> & ->). now rewrite Bool.andb_false_r.
      + rewrite Bool.andb_true_r. apply small_case_early; auto.
    - rewrite Pos by lia. rewrite (small_case_early c be v n false A T N4) by auto. now rewrite min_above by lia. }
  assert (Lost : lost_bytes c (length value) A = is_min A || (A =? -1)).
  { destruct neg.
    - unfold lost_bytes. rewrite <- (Hlen eq_refl), (proj2 (Nat.leb_gt n 4)) by lia. reflexivity.
    - rewrite Pos by lia. rewrite min_above, (proj2 (Z.eqb_neq A (-1))) by lia. reflexivity. }
  rewrite Lost. clear Lost Pos.
  cbv zeta. set (un := Nat.modulo n 4). set (q := Nat.div n 4).
  assert (n = 4 * q + un)%nat as En by (apply Nat.div_mod; lia).
  assert (un < 4)%nat as Hun by (apply Nat.mod_upper_bound; lia).
  set (dw := (q + (if Nat.eqb un 0 then 0 else 1))%nat).
  assert (dw - (if Nat.eqb un 0 then 0 else 1) = q)%nat as Efull by (unfold dw; lia).
  rewrite Efull.
  eapply bind_unless; [apply (full_words_spec be v n neg A dw q T); [unfold dw; lia|lia]|].
  intros (l & cb) W. cbn [fst] in W.
  assert (p8 n <= Bp dw) as Hle.
  { rewrite <- p8_4. apply bp_le; [lia|]. unfold dw. destruct (Nat.eqb_spec un 0); lia. }
  assert (2 <= dw)%nat as Hdw.
  { unfold dw. destruct (Nat.eqb_spec un 0); lia. }
  assert (if neg then - Bp dw < A < 0 else Bp (dw - 1) <= A < Bp dw) as HA.
  { destruct neg; [lia|]. split; [|lia]. pose proof (t_low _ _ _ _ _ T N0) as L. rewrite <- p8_4.
    pose proof (bp_le 256 B8_ok (4 * (dw - 1)) (n - 1)) as B.
    assert (4 * (dw - 1) <= n - 1)%nat by (unfold dw; destruct (Nat.eqb_spec un 0); lia). lia. }
  assert (dw = q + (if Nat.eqb un 0 then 0 else 1))%nat as Edw by reflexivity.
  clearbody dw un q. clear Efull.
  destruct (Nat.eqb_spec un 0) as [U0|U0].
  { cbn [bind]. apply (finish_big_early c dw); auto. rewrite Nat.add_0_r in Edw. rewrite Edw in *. exact W. }
  replace (q + 1)%nat with (S q) in Edw by lia. subst dw.
  eapply bind_unless; [|intros l3 W3; apply (finish_big_early c (S q)); [exact W3|auto..]].
  wstep. eapply wp_mono with (P := words_at A (S q) q ((A / p8 n) mod W32)).
  { rewrite (t_top _ _ _ _ _ T). destruct neg.
    - replace (S q - 1)%nat with q by lia. change (-1 mod W32) with UINT_MAX. pose proof W as (L & _). wstep; [lia|].
      eapply words_at_upd; [lia| |exact W]. unfold UINT_MAX; num; lia.
    - wstep. exact W. }
  intros l2 W2. eapply wp_mono; [apply (top_word_spec be v n neg A (S q) q un l2 T); [lia|lia|exact W2]|].
  intros l3 W3. exact W3.
Qed.

(** ** After initialisation *)

Lemma parse_loop_after c s b : parse_loop_s initialised c s b = parse_loop c s b.
Proof.
  revert b. induction s as [|ch s IH]; intros b; cbn [parse_loop_s parse_loop]; [reflexivity|].
  destruct (_ && _); [|reflexivity]. repeat (apply bind_same with (P := fun _ => True); [intros ? ?; exact I|]; intros ? _).
  apply IH.
Qed.
Lemma parse_after c s : bi_parse_s initialised c s = bi_parse c s.
Proof.
  unfold bi_parse_s, bi_parse. apply bind_same with (P := fun _ => True); [intros ? ?; exact I|]. intros b _.
  destruct s as [|ch t]; [reflexivity|]. destruct (code ch =? 45); [|destruct (code ch =? 43)]; now rewrite parse_loop_after.
Qed.

Lemma after_all c a b m n k l u be s fuel :
  bi_of_int32_s initialised c n = bi_of_int32 c n /\ bi_of_int64_s initialised c n = bi_of_int64 c n /\
  bi_of_dwords_s initialised c l = bi_of_dwords c l /\ bi_of_bytes_s initialised c l u be = bi_of_bytes c l u be /\
  bi_of_double_s initialised c n = bi_of_double c n /\ bi_parse_s initialised c s = bi_parse c s /\
  bi_zero_s initialised c = bi_zero c /\ bi_one_s initialised c = bi_one c /\ bi_minus_one_s initialised c = bi_minus_one c /\
  bi_add_s initialised c a b = bi_add c a b /\ bi_sub_s initialised c a b = bi_sub c a b /\
  bi_mul_s initialised c a b = bi_mul c a b /\ bi_div_s initialised c a b = bi_div c a b /\
  bi_rem_s initialised c a b = bi_rem c a b /\ bi_div_rem_s initialised c a b = bi_div_rem c a b /\
  bi_inc_s initialised c a = bi_inc c a /\ bi_dec_s initialised c a = bi_dec c a /\
  bi_not_s initialised c a = bi_not c a /\ bi_abs_s initialised c a = bi_abs c a /\
  bi_shl_s initialised c a k = bi_shl c a k /\ bi_shr_s initialised c a k = bi_shr c a k /\
  bi_xor_s initialised c a b = bi_xor c a b /\ bi_and_s initialised c a b = bi_and c a b /\
  bi_or_s initialised c a b = bi_or c a b /\ bi_pow_s initialised c a k = bi_pow c a k /\
  bi_gcd_s fuel initialised c a b = bi_gcd fuel c a b /\ bi_mod_pow_s initialised c a b m = bi_mod_pow c a b m.
Proof. repeat split; try reflexivity. apply parse_after. Qed.

(** ** As integers *)

Lemma unless_returns lost o z : returns o z -> returns (unless lost o) (if lost then 0 else z).
Proof. intros H. destruct lost; [|exact H]. exists (Big 0 []). split; [reflexivity|apply repr_zero]. Qed.

Lemma sums_early c a b x y : represents a x -> represents b y ->
  returns (bi_add_s zeroed c a b) (if lost_small x y (x + y) then 0 else x + y) /\
  returns (bi_sub_s zeroed c a b) (if lost_small x y (x - y) then 0 else x - y) /\
  returns (bi_mul_s zeroed c a b) (if lost_small x y (x * y) then 0 else x * y).
Proof.
  intros Ha Hb. rewrite (add_early c a b x y Ha Hb), (sub_early c a b x y Ha Hb), (mul_early c a b x y Ha Hb).
  repeat split; apply unless_returns, returns_wp.
  - now apply bi_add_spec.
  - now apply bi_sub_spec.
  - now apply bi_mul_spec.
Qed.
Lemma bits_early c a b x y : represents a x -> represents b y ->
  returns (bi_xor_s zeroed c a b) (if lost_bits x y (Z.lxor x y) then 0 else Z.lxor x y) /\
  returns (bi_and_s zeroed c a b) (if lost_bits x y (Z.land x y) then 0 else Z.land x y) /\
  returns (bi_or_s zeroed c a b)
    (if negb (x =? 0) && negb (y =? 0) && lost_bits x y (Z.lor x y) then 0 else Z.lor x y).
Proof.
  intros Ha Hb. rewrite (xor_early c a b x y Ha Hb), (and_early c a b x y Ha Hb), (or_early c a b x y Ha Hb).
  destruct (bitwise_family c a b x y Ha Hb) as (A & O1 & X & _).
  repeat split; apply unless_returns; assumption.
Qed.
Lemma ints_early c n : (is_int n -> returns (bi_of_int32_s zeroed c n) (if is_min n then 0 else n)) /\
  (- 2 ^ 63 < n < 2 ^ 63 -> returns (bi_of_int64_s zeroed c n) (if is_min n then 0 else n)).
Proof.
  rewrite int32_early, int64_early. split; intros H; apply unless_returns, returns_wp.
  - apply bi_of_int32_spec. unfold is_int in H. change (2 ^ 31) with 2147483648 in H. num; lia.
  - apply bi_of_int64_spec. change (2 ^ 63) with 9223372036854775808 in H. num; lia.
Qed.
Lemma sequences_early c l :
  (digits (2 ^ 32) l ->
   returns (bi_of_dwords_s zeroed c l)
     (if lost_dwords (length l) (complement (2 ^ 32) l) then 0 else complement (2 ^ 32) l)) /\
  (forall u be, digits 256 l -> strict c = false ->
   returns (bi_of_bytes_s zeroed c l u be)
     (if lost_bytes c (length l) (bytes_value u be l) then 0 else bytes_value u be l)).
Proof.
  split.
  - intros H. rewrite (dwords_early c l H). apply unless_returns. now apply of_words_returns.
  - intros u be H Hs. rewrite (bytes_early c l u be H). apply unless_returns, returns_wp. apply of_bytes_spec; auto.
Qed.
Lemma one_off_early c a x : represents a x ->
  returns (bi_inc_s zeroed c a) (x + 1) /\ returns (bi_dec_s zeroed c a) (if x =? - 2 ^ 31 + 1 then 0 else x - 1) /\
  returns (bi_not_s zeroed c a) (Z.lnot x) /\ returns (bi_abs_s zeroed c a) (Z.abs x).
Proof.
  intros Ha. rewrite (inc_same c a x Ha), (dec_early c a x Ha), (not_same c a x Ha), abs_same.
  destruct (add_sub_family c a a x x Ha Ha) as (_ & H2 & H3 & H4 & H5).
  destruct (add_family c a a x x Ha Ha) as (_ & H6).
  repeat split; try assumption; try apply unless_returns; try assumption.
  destruct (bitwise_family c a a x x Ha Ha) as (_ & _ & _ & H7). exact H7.
Qed.

(** The other functions, outcome by outcome. *)
Lemma shifts_early c a x n : represents a x -> is_int n ->
  bi_shl_s zeroed c a n = unless (lost_shift_by c x (- n)) (bi_shl c a n) /\
  bi_shr_s zeroed c a n = unless (lost_shift_by c x n) (bi_shr c a n).
Proof. intros Ha Hn. split; [now apply shl_early|now apply shr_early]. Qed.

Lemma unaffected c a b m x y z n s fuel : represents a x -> represents b y -> represents m z ->
  bi_div_s zeroed c a b = bi_div c a b /\ bi_rem_s zeroed c a b = bi_rem c a b /\
  bi_div_rem_s zeroed c a b = bi_div_rem c a b /\ bi_gcd_s fuel zeroed c a b = bi_gcd fuel c a b /\
  bi_mod_pow_s zeroed c a b m = bi_mod_pow c a b m /\ bi_inc_s zeroed c a = bi_inc c a /\
  bi_not_s zeroed c a = bi_not c a /\ bi_abs_s zeroed c a = bi_abs c a /\
  bi_parse_s zeroed c s = bi_parse c s /\ bi_of_double_s zeroed c n = bi_of_double c n /\
  bi_zero_s zeroed c = bi_zero c /\ bi_one_s zeroed c = bi_one c /\ bi_minus_one_s zeroed c = bi_minus_one c.
Proof.
  intros Ha Hb Hm. split; [now apply (div_same c a b x y)|]. split; [now apply (rem_same c a b x y)|].
  split; [now apply (div_rem_same c a b x y)|]. split; [now apply (gcd_same fuel c a b x y)|].
  split; [now apply (mod_pow_same c a b m x y z)|]. split; [now apply (inc_same c a x)|].
  split; [now apply (not_same c a x)|]. split; [apply abs_same|]. split; [apply parse_same|].
  split; [apply double_same|]. split; [apply zero_same|]. split; [apply one_same|apply minus_one_same].
Qed.

Lemma pow_zero_early c a x : represents a x -> bi_pow_s zeroed c a 0 = Ret (Big 0 []) /\ bi_pow c a 0 = Ret (Big 1 []).
Proof.
  intros Ha. rewrite (pow_early c a x 0 Ha). split; [reflexivity|].
  unfold bi_pow. now rewrite (assert_valid_ok c a x Ha).
Qed.
