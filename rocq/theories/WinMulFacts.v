(** The LLP64 reading: multiplication. *)
From Verif Require Import Facts CalcAddSub CalcSquMul AddSubFacts SquMulFacts Spec SpecFacts BigInt BigIntFacts.
From Verif Require ConvFacts.
From Verif Require Import WinCalc WinBigInt SpecWin WinFacts.
Ltac Zify.zify_post_hook ::= idtac.

Lemma Bp_31 : Bp 31 = 2 ^ 992.
Proof. rewrite ConvFacts.Bp_pow2. reflexivity. Qed.

Lemma limbs32_val l : limbs l -> l <> [] -> top_nz l -> limbs32 (val l) = Nat.leb 32 (length l).
Proof.
  intros Hl Hn Ht. unfold limbs32. rewrite <- Bp_31.
  pose proof (val_bound l Hl) as Hv. rewrite Z.abs_eq by lia.
  pose proof (top_nz_bound l Hl Hn Ht) as Hb.
  destruct (Nat.leb_spec 32 (length l)) as [H|H].
  - apply Z.leb_le. pose proof (Bp_le 31 (length l - 1) ltac:(lia)). lia.
  - apply Z.leb_gt. pose proof (Bp_le (length l) 31 ltac:(lia)). lia.
Qed.

Lemma limbs32_abs x : limbs32 (Z.abs x) = limbs32 x.
Proof. unfold limbs32. now rewrite Z.abs_involutive. Qed.

Lemma limbs32_small x : INT_MIN < x <= INT_MAX -> limbs32 x = false.
Proof.
  intros H. unfold limbs32. apply Z.leb_gt. eapply Z.le_lt_trans with (m := 2147483647); [num; lia|reflexivity].
Qed.

Lemma parts_limbs32 l s x : parts l s x -> limbs32 x = Nat.leb 32 (length l).
Proof.
  intros H. pose proof (parts_abs _ _ _ H) as V. inv_parts H.
  - now apply limbs32_small.
  - rewrite <- limbs32_abs, <- V by assumption. now apply limbs32_val.
Qed.

Lemma calc_square_w_ub c value :
  value <> [] -> limbs value ->
  calc_square_w None c value =
    if Nat.leb 32 (length value) then UB else square_school value (zeros (length value * 2)).
Proof.
  intros Hn Hl. unfold calc_square_w. rewrite massert_true by now rewrite is_nil_false. cbn [bind].
  rewrite calc_square_core_w_ub; auto using limbs_zeros; [|rewrite length_zeros; lia].
  destruct (Nat.leb_spec 32 (length value)), (Nat.ltb_spec (length value) 32); try lia; reflexivity.
Qed.

Lemma calc_mul_w_ub c lhs rhs :
  lhs <> [] -> rhs <> [] -> limbs lhs -> limbs rhs -> (length rhs <= length lhs)%nat ->
  calc_mul_w None c lhs rhs =
    if Nat.leb 32 (length rhs) then UB else mul_school lhs rhs (zeros (length lhs + length rhs)).
Proof.
  intros H1 H2 Hl Hr Hlen. unfold calc_mul_w. rewrite massert_true by now rewrite is_nil_false. cbn [bind].
  rewrite massert_true by now rewrite is_nil_false. cbn [bind].
  rewrite massert_true by now apply Nat.leb_le. cbn [bind].
  rewrite calc_mul_core_w_ub by auto.
  destruct (Nat.leb_spec 32 (length rhs)), (Nat.ltb_spec (length rhs) 32); try lia; reflexivity.
Qed.

Lemma bi_mul_w_exact c a b x y :
  represents a x -> represents b y -> meets (bi_mul_w None c a b) (win_product x y).
Proof.
  intros Ha Hb. unfold bi_mul_w.
  rewrite (assert_valid_ok c a x Ha), (assert_valid_ok c b y Hb). cbn [bind].
  pose proof (repr_parts _ _ Ha) as Pa. pose proof (repr_parts _ _ Hb) as Pb.
  destruct (parts_sign _ _ _ Pa) as (R1 & S1). destruct (parts_sign _ _ _ Pb) as (R2 & S2).
  unfold win_product. rewrite (parts_limbs32 _ _ _ Pa), (parts_limbs32 _ _ _ Pb).
  pose proof (bi_mul_spec c a b x y Ha Hb) as H. unfold bi_mul in H.
  rewrite (assert_valid_ok c a x Ha), (assert_valid_ok c b y Hb) in H. cbn [bind] in H.
  destruct a as [s l], b as [s' l']. cbn [sign_of bits_of] in *. rewrite S1, S2 in *.
  assert (forall m, limbs m -> val m = Z.abs x * Z.abs y ->
    wp (bi_of_mag c m (xorb (x <? 0) (y <? 0))) (fun r => represents r (x * y))) as Hfin.
  { intros m Hm Hv. apply mag_result; auto. rewrite Hv. apply mul_sign; apply abs_ltb. }
  pose proof (parts_abs _ _ _ Pa) as Va. pose proof (parts_abs _ _ _ Pb) as Vb.
  inv_parts Pa; inv_parts Pb; nils; change (Nat.leb 32 (length (@nil Z))) with false; cbn [andb].
  - cbn [is_nil andb] in *. apply returns_wp. exact H.
  - apply returns_wp. cbn [is_nil andb] in H. rewrite is_nil_ne in H by assumption. exact H.
  - rewrite andb_false_r. apply returns_wp. cbn [is_nil andb] in H. rewrite is_nil_ne in H by assumption. exact H.
  - destruct (vec_eqb l l') eqn:E.
    + apply vec_eqb_spec in E. subst l'. rewrite andb_diag, calc_square_w_ub by assumption.
      destruct (Nat.leb_spec 32 (length l)); [cbn [meets]; reflexivity|]. apply returns_wp. wstep.
      eapply wp_mono; [apply square_school_spec; auto using limbs_zeros; rewrite length_zeros; lia|].
      intros r (A & B & C). apply Hfin; auto. rewrite C.
      rewrite <- Va, <- Vb by assumption. ring.
    + destruct (Nat.ltb_spec (length l) (length l')); rewrite calc_mul_w_ub by (auto; lia).
      * destruct (Nat.leb_spec 32 (length l)), (Nat.leb_spec 32 (length l')); cbn [andb]; try lia; try (cbn [meets]; reflexivity).
        all: apply returns_wp; wstep; eapply wp_mono;
          [apply mul_school_spec; auto using limbs_zeros, length_zeros, vl_zeros|].
        all: intros r (A & B & C); apply Hfin; auto; rewrite C, <- Va, <- Vb by assumption; ring.
      * destruct (Nat.leb_spec 32 (length l)), (Nat.leb_spec 32 (length l')); cbn [andb]; try lia; try (cbn [meets]; reflexivity).
        all: apply returns_wp; wstep; eapply wp_mono;
          [apply mul_school_spec; auto using limbs_zeros, length_zeros, vl_zeros|].
        all: intros r (A & B & C); apply Hfin; auto; rewrite C, <- Va, <- Vb by assumption; ring.
Qed.
