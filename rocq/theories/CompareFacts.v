(** Correctness of negation, comparison, equality, hash and the predicates. *)
From Verif Require Import Facts Spec AddSubFacts SpecFacts BigIntFacts BigInt.

Ltac Zify.zify_post_hook ::= idtac.

Theorem bi_neg_spec c a x : represents a x -> wp (bi_neg c a) (fun r => represents r (- x)).
Proof.
  intros Ha. unfold bi_neg, bi_raw. apply repr_parts in Ha.
  destruct (parts_sign _ _ _ Ha) as (R & _).
  wstep. wstep; [num; lia|]. apply wp_checked. apply represents_view. now apply parts_neg.
Qed.

Theorem bi_pos_spec c a x : represents a x -> wp (bi_pos c a) (fun r => represents r x).
Proof. intros Ha. unfold bi_pos, bi_raw. apply wp_checked. now destruct a. Qed.

Lemma bi_one_spec c : wp (bi_one c) (fun r => represents r 1).
Proof. apply bi_of_int32_spec. num; lia. Qed.
Lemma bi_zero_spec c : wp (bi_zero c) (fun r => represents r 0).
Proof. apply bi_of_int32_spec. num; lia. Qed.
Lemma bi_minus_one_spec c : wp (bi_minus_one c) (fun r => represents r (-1)).
Proof. apply bi_of_int32_spec. num; lia. Qed.

Theorem bi_inc_spec c a x : represents a x -> wp (bi_inc c a) (fun r => represents r (x + 1)).
Proof.
  intros Ha. unfold bi_inc. wstep. eapply wp_mono; [apply bi_one_spec|]. intros o Ho.
  now apply bi_add_spec.
Qed.

Theorem bi_dec_spec c a x : represents a x -> wp (bi_dec c a) (fun r => represents r (x - 1)).
Proof.
  intros Ha. unfold bi_dec. wstep. eapply wp_mono; [apply bi_one_spec|]. intros o Ho.
  now apply bi_sub_spec.
Qed.

(** ** compare_to *)

Lemma get_diff_length_spec a b n :
  limbs a -> limbs b -> (n <= length a)%nat -> (n <= length b)%nat ->
  wp (get_diff_length a b n) (fun k =>
    (k = O -> vl a n = vl b n) /\
    (k <> O -> (k <= n)%nat /\ nth (k - 1) a 0 <> nth (k - 1) b 0 /\
       (nth (k - 1) a 0 < nth (k - 1) b 0 <-> vl a n < vl b n) /\ vl a n <> vl b n)).
Proof.
  intros Ha Hb. induction n as [|n IH]; intros H1 H2; cbn [get_diff_length].
  - wstep. split; intros; [reflexivity|congruence].
  - wstep. wstep; [lia|]. wstep. wstep; [lia|].
    pose proof (vl_bound a n Ha) as Ba. pose proof (vl_bound b n Hb) as Bb.
    destruct (Z.eqb_spec (nth n a 0) (nth n b 0)) as [E|E]; cbn [negb].
    + eapply wp_mono; [apply IH; lia|]. intros k (A & B). rewrite !vl_S, E. split.
      * intros Hk. rewrite (A Hk). reflexivity.
      * intros Hk. destruct (B Hk) as (B1 & B2 & B3 & B4). repeat split; try lia; tauto || lia.
    + wstep. split; [discriminate|]. intros _.
      replace (S n - 1)%nat with n by lia. rewrite !vl_S.
      set (p := nth n a 0) in *. set (q := nth n b 0) in *. set (u := vl a n) in *. set (v := vl b n) in *.
      set (B := Bp n) in *. clearbody p q u v B.
      assert (p < q \/ q < p) as [Hpq|Hpq] by lia.
      * assert ((p + 1) * B <= q * B) by (apply Z.mul_le_mono_nonneg_r; lia).
        repeat split; lia.
      * assert ((q + 1) * B <= p * B) by (apply Z.mul_le_mono_nonneg_r; lia).
        repeat split; lia.
Qed.

Lemma lxor_sign x y : (Z.lxor x y <? 0) = xorb (x <? 0) (y <? 0).
Proof.
  pose proof (Z.lxor_nonneg x y) as H.
  destruct (Z.ltb_spec (Z.lxor x y) 0), (Z.ltb_spec x 0), (Z.ltb_spec y 0); cbn; try reflexivity; lia.
Qed.

(** The result of compare_to has the sign of the comparison. *)
Definition cmp_ok (r x y : Z) : Prop := (r < 0 <-> x < y) /\ (r = 0 <-> x = y) /\ (0 < r <-> y < x).

Theorem bi_compare_spec c a b x y :
  represents a x -> represents b y -> wp (bi_compare c a b) (fun r => cmp_ok r x y /\ INT_MIN <= r <= INT_MAX).
Proof.
  intros Ha Hb. unfold bi_compare, cmp_ok. wstep. eapply wp_valid; eauto. wstep. eapply wp_valid; eauto.
  apply repr_parts in Ha. apply repr_parts in Hb.
  destruct (parts_sign _ _ _ Ha) as (R1 & S1). destruct (parts_sign _ _ _ Hb) as (R2 & S2).
  destruct a as [s l], b as [s' l']. cbn [sign_of bits_of] in *.
  rewrite lxor_sign, S1, S2.
  destruct (Z.ltb_spec x 0) as [Hx|Hx], (Z.ltb_spec y 0) as [Hy|Hy]; cbn [xorb];
    try (wstep; num; lia).
  all: inv_parts Ha; inv_parts Hb; nils; cbn [orb].
  all: try (wstep; [num; lia|]).
  all: try (signs; try lia; try (wstep; num; lia); try (num; lia)).
  all: try (destruct (Z.ltb_spec x y); [wstep; num; lia|]; destruct (Z.ltb_spec y x); wstep; num; lia).
  all: destruct (Nat.ltb_spec (length l') (length l)) as [F|F];
    [pose proof (length_lt_val l' l ltac:(assumption) ltac:(assumption) ltac:(assumption) ltac:(assumption) F);
     wstep; num; lia|].
  all: destruct (Nat.ltb_spec (length l) (length l')) as [F'|F'];
    [pose proof (length_lt_val l l' ltac:(assumption) ltac:(assumption) ltac:(assumption) ltac:(assumption) F');
     wstep; num; lia|].
  all: wstep; eapply wp_mono; [apply get_diff_length_spec; auto; lia|]; intros k (A & B).
  all: rewrite vl_all, (vl_ge l') in A by lia; rewrite vl_all, (vl_ge l') in B by lia.
  all: destruct (Nat.eqb_spec k 0) as [Ek|Ek]; [rewrite (A Ek); wstep; num; lia|].
  all: destruct (B Ek) as (B1 & B2 & B3 & B4).
  all: wstep; wstep; [lia|]; wstep; wstep; [lia|].
  all: destruct (Z.ltb_spec (nth (k - 1) l 0) (nth (k - 1) l' 0)) as [G|G].
  all: wstep; num; try lia.
Qed.

Definition bool_of (P : Prop) (b : bool) : Prop := b = true <-> P.

Theorem bi_lt_spec c a b x y :
  represents a x -> represents b y -> bi_lt c a b = Ret (x <? y).
Proof.
  intros Ha Hb. destruct (wp_inv _ _ (bi_compare_spec c a b x y Ha Hb)) as (r & E & (H & _) & _).
  unfold bi_lt. rewrite E. cbn [bind]. f_equal.
  destruct (Z.ltb_spec r 0), (Z.ltb_spec x y); auto; lia.
Qed.
Theorem bi_gt_spec c a b x y :
  represents a x -> represents b y -> bi_gt c a b = Ret (y <? x).
Proof. intros Ha Hb. unfold bi_gt. now apply bi_lt_spec. Qed.
Theorem bi_le_spec c a b x y :
  represents a x -> represents b y -> bi_le c a b = Ret (x <=? y).
Proof.
  intros Ha Hb. unfold bi_le. rewrite (bi_gt_spec c a b x y Ha Hb). cbn [bind].
  now rewrite Z.leb_antisym.
Qed.
Theorem bi_ge_spec c a b x y :
  represents a x -> represents b y -> bi_ge c a b = Ret (y <=? x).
Proof.
  intros Ha Hb. unfold bi_ge. rewrite (bi_lt_spec c a b x y Ha Hb). cbn [bind].
  now rewrite Z.leb_antisym.
Qed.

(** ** equals *)

Lemma vec_eqb_refl a : vec_eqb a a = true.
Proof. now apply vec_eqb_spec. Qed.

Theorem bi_equals_spec c a b x y :
  represents a x -> represents b y -> bi_equals c a b = Ret (x =? y).
Proof.
  intros Ha Hb. unfold bi_equals.
  rewrite (assert_valid_ok _ _ _ Ha), (assert_valid_ok _ _ _ Hb). cbn [bind].
  destruct (Z.eqb_spec x y) as [<-|E].
  - pose proof (represents_unique _ _ _ Ha Hb) as <-. now rewrite Z.eqb_refl, vec_eqb_refl.
  - destruct (Z.eqb_spec (sign_of a) (sign_of b)) as [Es|Es]; cbn [negb]; [|reflexivity].
    destruct (vec_eqb (bits_of a) (bits_of b)) eqn:Ev.
    { exfalso. apply E. apply vec_eqb_spec in Ev. destruct a, b; cbn in *; subst.
      eapply represents_fun; eauto. }
    destruct (is_nil (bits_of a) || is_nil (bits_of b)) eqn:En; [reflexivity|].
    destruct (Nat.eqb_spec (length (bits_of a)) (length (bits_of b))) as [El|El]; cbn [negb]; [|reflexivity].
    apply repr_parts in Ha. apply repr_parts in Hb. destruct a as [s l], b as [s' l'].
    cbn [sign_of bits_of] in *.
    assert (l <> [] /\ l' <> []) as (N1 & N2) by (destruct l, l'; cbn in En; split; congruence).
    inv_parts Ha; [congruence|]. inv_parts Hb; [congruence|].
    destruct (wp_inv _ _ (get_diff_length_spec l l' (length l) ltac:(assumption) ltac:(assumption)
      ltac:(lia) ltac:(lia))) as (k & Ek & A & B).
    rewrite Ek. cbn [bind]. destruct (Nat.eqb_spec k 0) as [E0|E0]; [|reflexivity].
    exfalso. apply E. rewrite vl_all, (vl_ge l') in A by lia. now rewrite (A E0).
Qed.

Theorem bi_ne_spec c a b x y :
  represents a x -> represents b y -> bi_ne c a b = Ret (negb (x =? y)).
Proof. intros Ha Hb. unfold bi_ne. now rewrite (bi_equals_spec c a b x y Ha Hb). Qed.

Theorem bi_max_spec c a b x y :
  represents a x -> represents b y -> wp (bi_max c a b) (fun r => represents r (Z.max x y)).
Proof.
  intros Ha Hb. unfold bi_max. wstep. eapply wp_mono; [eapply bi_compare_spec; eauto|].
  intros r ((A & _) & _). wstep. destruct (Z.ltb_spec r 0).
  - now rewrite Z.max_r by lia.
  - now rewrite Z.max_l by lia.
Qed.
Theorem bi_min_spec c a b x y :
  represents a x -> represents b y -> wp (bi_min c a b) (fun r => represents r (Z.min x y)).
Proof.
  intros Ha Hb. unfold bi_min. wstep. eapply wp_mono; [eapply bi_compare_spec; eauto|].
  intros r ((A & B & C) & _). wstep. destruct (Z.leb_spec r 0).
  - now rewrite Z.min_l by lia.
  - now rewrite Z.min_r by lia.
Qed.

Theorem bi_abs_spec c a x : represents a x -> wp (bi_abs c a) (fun r => represents r (Z.abs x)).
Proof.
  intros Ha. unfold bi_abs. wstep. eapply wp_mono; [apply bi_zero_spec|]. intros z Hz.
  rewrite (bi_ge_spec c a z x 0 Ha Hz). cbn [bind].
  destruct (Z.leb_spec 0 x).
  - wstep. now rewrite Z.abs_eq by lia.
  - rewrite Z.abs_neq by lia. now apply bi_neg_spec.
Qed.

Theorem bi_not_spec c a x : represents a x -> wp (bi_not c a) (fun r => represents r (Z.lnot x)).
Proof.
  intros Ha. unfold bi_not. wstep. eapply wp_mono; [apply bi_one_spec|]. intros o Ho.
  wstep. eapply wp_mono; [apply (bi_add_spec c a o x 1 Ha Ho)|]. intros r Hr.
  replace (Z.lnot x) with (- (x + 1)) by (unfold Z.lnot; lia). now apply bi_neg_spec.
Qed.

(** ** Predicates *)

Lemma shiftr31 x : INT_MIN <= x <= INT_MAX -> Z.shiftr x 31 = if x <? 0 then -1 else 0.
Proof.
  intros H. rewrite Z.shiftr_div_pow2 by lia. change (2 ^ 31) with 2147483648.
  symmetry. destruct (Z.ltb_spec x 0); num.
  - apply Z.div_unique_pos with (r := x + 2147483648); lia.
  - apply Z.div_unique_pos with (r := x); lia.
Qed.

Theorem bi_sign_spec c a x : represents a x -> bi_sign c a = Ret (Z.sgn x).
Proof.
  intros Ha. unfold bi_sign. rewrite (assert_valid_ok _ _ _ Ha). cbn [bind].
  apply repr_parts in Ha. destruct (parts_sign _ _ _ Ha) as (R & S).
  rewrite chk32_ok by (num; lia). cbn [bind]. rewrite !shiftr31 by (num; lia). f_equal.
  assert ((sign_of a =? 0) = (x =? 0)) as E0.
  { inversion Ha as [z Hz E1 E2|s l Hs Hne Hl Ht Hv E1 E2]; [reflexivity|].
    destruct (Z.eqb_spec (sign_of a) 0), (Z.eqb_spec (sign_of a * val (bits_of a)) 0); auto;
      destruct Hs as [Hs|Hs]; rewrite Hs in *; lia. }
  destruct (Z.ltb_spec (sign_of a) 0), (Z.ltb_spec x 0), (Z.ltb_spec (- sign_of a) 0),
    (Z.eqb_spec (sign_of a) 0), (Z.eqb_spec x 0); try discriminate; lia.
Qed.

Lemma sign_zero a x : represents a x -> (sign_of a =? 0) = (x =? 0).
Proof.
  intros Ha. apply repr_parts in Ha.
  inversion Ha as [z Hz E1 E2|s l Hs Hne Hl Ht Hv E1 E2]; [reflexivity|].
  destruct (Z.eqb_spec (sign_of a) 0), (Z.eqb_spec (sign_of a * val (bits_of a)) 0); auto;
    destruct Hs as [Hs|Hs]; rewrite Hs in *; lia.
Qed.

Theorem bi_is_zero_spec c a x : represents a x -> bi_is_zero c a = Ret (x =? 0).
Proof.
  intros Ha. unfold bi_is_zero. rewrite (assert_valid_ok _ _ _ Ha). cbn [bind].
  now rewrite (sign_zero a x Ha).
Qed.

Theorem bi_is_one_spec c a x : represents a x -> bi_is_one c a = Ret (x =? 1).
Proof.
  intros Ha. unfold bi_is_one. rewrite (assert_valid_ok _ _ _ Ha). cbn [bind]. f_equal.
  apply repr_parts in Ha. destruct a as [s l]; cbn [sign_of bits_of] in *. inv_parts Ha; nils.
  - now rewrite Bool.andb_true_r.
  - rewrite Bool.andb_false_r. symmetry. apply Z.eqb_neq. signs; lia.
Qed.

Lemma land1 x : (Z.land x 1 =? 0) = Z.even x.
Proof.
  change 1 with (Z.ones 1). rewrite Z.land_ones by lia. change (2 ^ 1) with 2.
  rewrite Zmod_even. now destruct (Z.even x).
Qed.

Lemma even_val x l : Z.even (val (x :: l)) = Z.even x.
Proof.
  cbn [val]. rewrite Z.even_add, Z.even_mul. change (Z.even W32) with true. cbn [orb].
  now destruct (Z.even x).
Qed.

Theorem bi_is_even_spec c a x : represents a x -> bi_is_even c a = Ret (Z.even x).
Proof.
  intros Ha. unfold bi_is_even. rewrite (assert_valid_ok _ _ _ Ha). cbn [bind].
  apply repr_parts in Ha. destruct a as [s l]; cbn [sign_of bits_of] in *. inv_parts Ha.
  - now rewrite land1.
  - destruct l as [|b0 l]; [congruence|]. rewrite land1, <- (even_val b0 l), Z.even_mul. f_equal.
    signs; reflexivity.
Qed.

(** ** Hash *)

Lemma s32_range x : INT_MIN <= s32 x <= INT_MAX.
Proof.
  unfold s32. pose proof (u32_range x). cbv zeta. destruct (Z.ltb_spec (u32 x) 2147483648); num; lia.
Qed.

Theorem bi_hash_range c a x :
  represents a x -> wp (bi_hash c a) (fun h => INT_MIN <= h <= INT_MAX).
Proof.
  intros Ha. unfold bi_hash. apply repr_parts in Ha. destruct (parts_sign _ _ _ Ha) as (R & _).
  destruct (is_nil (bits_of a)).
  - wstep. lia.
  - eapply wp_for_down with (I := fun _ h => INT_MIN <= h <= INT_MAX); [lia| |auto].
    intros i h Hi Hh. wstep. wstep; [lia|]. wstep. apply s32_range.
Qed.
