(** Proofs about comparison, equality and shifts with limb counts kept in [int]. *)
From Verif Require Import Machine Facts Spec AddSubFacts SquMulFacts DivCoreFacts SpecFacts BigIntFacts
  CompareFacts ConvFacts SpecApi SpecGcd ShiftFacts WordFacts BigInt BarrettFacts RunExact LeakyModPow SpecActual ActualFacts
  IntSizes SpecSizes IntSizesFacts IntLimbs SpecLimbs.
Ltac Zify.zify_post_hook ::= idtac.

Lemma int_of_range x : -2147483648 <= int_of x <= 2147483647.
Proof. rewrite int_of_s32. pose proof (s32_range x) as H. unfold INT_MIN, INT_MAX in H. lia. Qed.

Lemma int_of_small x : -2147483648 <= x < 2147483648 -> int_of x = x.
Proof.
  intros H. unfold int_of. change (2 ^ 31) with 2147483648. change (2 ^ 32) with 4294967296.
  rewrite Z.mod_small; lia.
Qed.

Lemma int_of_nonneg x : 0 <= x -> 0 <= int_of x -> int_of x <= x.
Proof. intros. now apply int_of_le. Qed.

Lemma chk32_wrap c x : x < INT_MIN \/ INT_MAX < x ->
  chk32 c x = if strict c then Undef SignedOverflow else Ret (s32 x).
Proof.
  intros H. unfold chk32. destruct (Z.leb_spec INT_MIN x), (Z.leb_spec x INT_MAX); cbn [andb]; try reflexivity. lia.
Qed.

Lemma s32_shifted x y k : x = y + k * 4294967296 -> INT_MIN <= y <= INT_MAX -> s32 x = y.
Proof. intros -> H. eapply s32_shift; [|exact H]. unfold W32. reflexivity. Qed.

(** ** Low limbs *)

Lemma low_vl x l r : limbs l -> val l = Z.abs x -> 0 <= r <= Z.of_nat (length l) -> low x r = vl l (Z.to_nat r).
Proof.
  intros Hl Hv Hr. unfold low. rewrite Z.max_r by lia. rewrite (vl_mod l (Z.to_nat r) (length l)) by (auto; lia).
  rewrite vl_all, Hv, Bp_pow2, Z2Nat.id by lia. reflexivity.
Qed.

Lemma low_none x r : r <= 0 -> low x r = 0.
Proof. intros H. unfold low. rewrite Z.max_l by lia. change (2 ^ (32 * 0)) with 1. apply Z.mod_1_r. Qed.

Lemma low_vl_all x l r : limbs l -> val l = Z.abs x -> r <= Z.of_nat (length l) -> low x r = vl l (Z.to_nat r).
Proof.
  intros Hl Hv Hr. destruct (Z.le_gt_cases 0 r); [apply low_vl; auto|].
  rewrite low_none by lia. replace (Z.to_nat r) with O by lia. now rewrite vl_0.
Qed.

Lemma low_all x r : limbs_of x <= r -> low x r = Z.abs x.
Proof.
  intros H. destruct (limbs_of_count x) as (L1 & L2 & _). unfold fits_limbs in L2. unfold low. rewrite Z.max_r by lia.
  apply Z.mod_small. split; [lia|]. eapply Z.lt_le_trans; [exact L2|]. apply Z.pow_le_mono_r; lia.
Qed.

Lemma order_sgn x y : order x y = Z.sgn (x - y).
Proof. unfold order. rewrite Z.compare_sub. now destruct (x - y). Qed.

Lemma order_opp x y : order (- x) (- y) = - order x y.
Proof. rewrite !order_sgn, <- Z.sgn_opp. f_equal. ring. Qed.

(** ** The scan *)

Lemma visited_cases c r v : -2147483648 <= r <= 2147483647 -> visited c r = Ret v ->
  (v = r /\ r <> -2147483648) \/ (r = -2147483648 /\ v = 2147483648 /\ strict c = false).
Proof.
  unfold visited. change (- 2 ^ 31) with (-2147483648). change (2 ^ 31) with 2147483648. intros Hr.
  destruct (Z.eqb_spec r (-2147483648)) as [E|E].
  - destruct (strict c) eqn:Es; intros H; [discriminate H|]. injection H as <-. right. auto.
  - intros H. injection H as <-. left. auto.
Qed.

Lemma diff_i c l l' r v :
  limbs l -> limbs l' -> -2147483648 <= r <= 2147483647 -> visited c r = Ret v ->
  v <= Z.of_nat (length l) -> v <= Z.of_nat (length l') ->
  exists k, get_diff_length_i c l l' r = Ret (s32 (Z.of_nat k)) /\ Z.of_nat k <= Z.max 0 v /\
    (Z.of_nat k = 2147483648 -> strict c = false) /\
    (k = O -> vl l (Z.to_nat v) = vl l' (Z.to_nat v)) /\
    (k <> O -> nth (k - 1) l 0 <> nth (k - 1) l' 0 /\
       (nth (k - 1) l 0 < nth (k - 1) l' 0 <-> vl l (Z.to_nat v) < vl l' (Z.to_nat v)) /\
       vl l (Z.to_nat v) <> vl l' (Z.to_nat v)).
Proof.
  intros Hl Hl' Hr Hv H1 H2. unfold get_diff_length_i.
  assert (exists iv, chk32 c (r - 1) = Ret iv /\ iv < 2147483648 /\ (iv <? 0) = (v <=? 0) /\ (0 <= iv -> iv + 1 = v)
      /\ (v = 2147483648 -> strict c = false)) as (iv & -> & B & S & E & F).
  { destruct (visited_cases c r v Hr Hv) as [(-> & N)|(-> & -> & N)].
    - exists (r - 1). rewrite chk32_in by (unfold INT_MIN, INT_MAX; lia). split; [reflexivity|]. split; [lia|].
      split; [destruct (Z.ltb_spec (r - 1) 0), (Z.leb_spec r 0); auto; lia|]. lia.
    - exists 2147483647. rewrite chk32_wrap by (unfold INT_MIN; lia). rewrite N.
      rewrite (s32_shifted (-2147483648 - 1) 2147483647 (-1)) by (unfold INT_MIN, INT_MAX; lia).
      split; [reflexivity|]. split; [lia|]. split; [reflexivity|]. split; [lia|auto]. }
  cbn [bind]. rewrite S. destruct (Z.leb_spec v 0) as [V|V].
  { exists O. split; [reflexivity|]. split; [lia|]. split; [lia|]. split; [|congruence].
    intros _. replace (Z.to_nat v) with O by lia. now rewrite !vl_0. }
  apply Z.ltb_ge in S. rewrite (E S).
  destruct (wp_inv _ _ (get_diff_length_spec l l' (Z.to_nat v) Hl Hl' ltac:(lia) ltac:(lia))) as (k & -> & A0 & A1).
  cbn [bind]. exists k. destruct (Nat.eqb_spec k 0) as [K|K].
  { subst k. split; [reflexivity|]. split; [lia|]. split; [lia|]. split; [exact A0|congruence]. }
  destruct (A1 K) as (K1 & K2). split; [|split; [lia|]; split; [intros G; apply F; lia|]; split; [congruence|auto]].
  destruct (Z.eq_dec (Z.of_nat k) 2147483648) as [G|G].
  - rewrite chk32_wrap by (unfold INT_MAX; lia). rewrite F by lia. reflexivity.
  - rewrite chk32_in by (unfold INT_MIN, INT_MAX; lia). f_equal. symmetry. apply (s32_shifted _ _ 0); [lia|].
    unfold INT_MIN, INT_MAX; lia.
Qed.

Lemma diff_overflow c l l' r e : visited c r = Undef e -> get_diff_length_i c l l' r = Undef SignedOverflow /\ e = SignedOverflow.
Proof.
  unfold visited, get_diff_length_i. change (- 2 ^ 31) with (-2147483648). destruct (Z.eqb_spec r (-2147483648)) as [->|]; [|discriminate].
  destruct (strict c) eqn:Es; [|discriminate]. intros H. injection H as <-. rewrite chk32_wrap by (unfold INT_MIN; lia).
  now rewrite Es.
Qed.

Lemma visited_shape c r : (exists v, visited c r = Ret v) \/ visited c r = Undef SignedOverflow.
Proof. unfold visited. destruct (r =? _); [destruct (strict c)|]; eauto. Qed.

Lemma visited_le c n v : visited c (s32 (Z.of_nat n)) = Ret v -> v <= Z.of_nat n /\ v <= 2147483648.
Proof.
  intros H. pose proof (s32_range (Z.of_nat n)) as R. unfold INT_MIN, INT_MAX in R.
  destruct (visited_cases c _ v R H) as [(-> & _)|(E & -> & _)].
  - rewrite <- int_of_s32 in *. pose proof (int_of_le (Z.of_nat n)). lia.
  - split; [|lia]. destruct (Z.le_gt_cases 2147483648 (Z.of_nat n)) as [G|G]; [exact G|exfalso].
    rewrite (s32_shifted (Z.of_nat n) (Z.of_nat n) 0) in E by (unfold INT_MIN, INT_MAX; lia). lia.
Qed.

(** The limb at which two numbers are found to differ. *)
Lemma last_i c k : (Z.of_nat k = 2147483648 -> strict c = false) -> (1 <= k)%nat -> Z.of_nat k <= 2147483648 ->
  exists i, chk32 c (s32 (Z.of_nat k) - 1) = Ret i /\ i = Z.of_nat k - 1.
Proof.
  intros Hs Hk Hb. exists (Z.of_nat k - 1). split; [|reflexivity]. destruct (Z.eq_dec (Z.of_nat k) 2147483648) as [G|G].
  - rewrite G in *. rewrite chk32_wrap; [rewrite Hs by reflexivity; reflexivity|]. left. reflexivity.
  - rewrite (s32_shifted (Z.of_nat k) (Z.of_nat k) 0) by (unfold INT_MIN, INT_MAX; lia).
    apply chk32_in. unfold INT_MIN, INT_MAX; lia.
Qed.

Lemma s32_zero k : Z.of_nat k <= 2147483648 -> (s32 (Z.of_nat k) =? 0) = Nat.eqb k 0.
Proof.
  intros H. destruct (Nat.eqb_spec k 0) as [->|N]; [reflexivity|]. apply Z.eqb_neq.
  destruct (Z.eq_dec (Z.of_nat k) 2147483648) as [G|G]; [rewrite G; discriminate|].
  rewrite (s32_shifted (Z.of_nat k) (Z.of_nat k) 0); unfold INT_MIN, INT_MAX; lia.
Qed.

Lemma int_limbs_length a x : represents a x -> 2147483648 <= Z.abs x ->
  int_limbs x = s32 (Z.of_nat (length (bits_of a))).
Proof.
  intros Ha Hx. unfold int_limbs. rewrite (limbs_of_length a x Ha), int_of_s32.
  apply represents_view in Ha. inversion Ha as [z Hz E1 E2|s l Hs Hne Hl Ht Hv E1 E2]; subst a; cbn [bits_of].
  - unfold INT_MIN, INT_MAX in Hz. lia.
  - destruct l; [congruence|]. cbn [length]. try reflexivity; f_equal; lia.
Qed.

Lemma both_long_yes x y s : s = 1 \/ s = -1 -> 2147483648 <= x -> 2147483648 <= y -> both_long (s * x) (s * y) = true.
Proof.
  intros Hs Hx Hy. unfold both_long. change (2 ^ 31) with 2147483648.
  rewrite !(proj2 (Z.leb_le 2147483648 _)) by (destruct Hs; subst s; lia). cbn [andb]. apply Z.eqb_eq.
  destruct Hs; subst s; [rewrite !Z.sgn_pos by lia|rewrite !Z.sgn_neg by lia]; reflexivity.
Qed.

Lemma both_long_sign x y : x < 0 <= y \/ y < 0 <= x -> both_long x y = false.
Proof.
  intros H. unfold both_long. rewrite Bool.andb_false_iff. right. apply Z.eqb_neq. intros E.
  destruct H as [H|H]; [rewrite (Z.sgn_neg x) in E by lia|rewrite (Z.sgn_neg y) in E by lia]; lia.
Qed.

Lemma both_long_small x y : Z.abs x < 2147483648 \/ Z.abs y < 2147483648 -> both_long x y = false.
Proof.
  intros H. unfold both_long. change (2 ^ 31) with 2147483648.
  destruct H as [H|H]; [rewrite (proj2 (Z.leb_gt 2147483648 (Z.abs x))) by lia; reflexivity|].
  rewrite (proj2 (Z.leb_gt 2147483648 (Z.abs y))) by lia. now rewrite Bool.andb_false_r.
Qed.

Lemma order_lt x y : x < y -> order x y = -1.
Proof. intros H. unfold order. now rewrite (proj2 (Z.compare_lt_iff x y)). Qed.
Lemma order_gt x y : y < x -> order x y = 1.
Proof. intros H. unfold order. now rewrite (proj2 (Z.compare_gt_iff x y)). Qed.
Lemma order_eq x : order x x = 0.
Proof. unfold order. now rewrite Z.compare_refl. Qed.

Lemma compare_i_spec c a b x y : represents a x -> represents b y -> bi_compare_i c a b = compared c x y.
Proof.
  intros Ha Hb. unfold bi_compare_i, compared.
  rewrite (assert_valid_ok _ _ _ Ha), (assert_valid_ok _ _ _ Hb). cbn [bind].
  pose proof (int_limbs_length a x Ha) as Ia. pose proof (int_limbs_length b y Hb) as Ib.
  pose proof (repr_parts _ _ Ha) as Pa. pose proof (repr_parts _ _ Hb) as Pb.
  destruct (parts_sign _ _ _ Pa) as (R1 & S1). destruct (parts_sign _ _ _ Pb) as (R2 & S2).
  rewrite lxor_sign, S1, S2. unfold INT_MIN, INT_MAX in R1, R2.
  destruct (Z.ltb_spec x 0) as [Hx|Hx], (Z.ltb_spec y 0) as [Hy|Hy]; cbn [xorb].
  2,3: rewrite both_long_sign by lia; f_equal; symmetry; first [apply order_lt; lia|apply order_gt; lia].
  all: destruct a as [s l], b as [s' l']; cbn [sign_of bits_of] in *.
  all: inv_parts Pa; inv_parts Pb; nils; cbn [orb].
  all: try (unfold INT_MIN, INT_MAX in *).
  (* both short *)
  1,5: rewrite both_long_small by lia; f_equal;
    destruct (Z.ltb_spec x y); [now rewrite order_lt|]; destruct (Z.ltb_spec y x); [now rewrite order_gt|];
    replace y with x by lia; now rewrite order_eq.
  (* one short *)
  1,4: rewrite both_long_small by lia; signs; try lia; rewrite chk32_in by (unfold INT_MIN, INT_MAX; lia); f_equal; symmetry;
    first [apply order_gt; lia|apply order_lt; lia].
  1,3: rewrite both_long_small by lia; signs; try lia; f_equal; symmetry; first [apply order_lt; lia|apply order_gt; lia].
  (* both long *)
  all: assert (s = s') as <- by (signs; lia).
  all: rewrite both_long_yes by auto; rewrite Ia, Ib by (signs; lia).
  all: assert (Z.sgn (s * val l) = s) as -> by (signs; [rewrite Z.sgn_pos by lia|rewrite Z.sgn_neg by lia]; reflexivity).
  all: set (r := s32 (Z.of_nat (length l))); set (r' := s32 (Z.of_nat (length l'))).
  all: pose proof (s32_range (Z.of_nat (length l))) as Rr; fold r in Rr; unfold INT_MIN, INT_MAX in Rr.
  all: assert (chk32 c (- s) = Ret (- s)) as Cs by (apply chk32_in; unfold INT_MIN, INT_MAX; lia).
  all: destruct (Z.eqb_spec r r') as [E|E];
    [|destruct (Z.ltb_spec r' r);
      [rewrite order_gt by lia; f_equal; ring|rewrite (proj2 (Z.ltb_lt r r')) by lia; rewrite Cs, order_lt by lia; f_equal; ring]].
  all: rewrite <- E, Z.ltb_irrefl.
  all: destruct (visited_shape c r) as [(v & Ev)|Ev];
    [|destruct (diff_overflow c l l' r _ Ev) as (Eo & _); rewrite Eo, Ev; reflexivity].
  all: pose proof (visited_le c (length l) v Ev) as (L1 & L3).
  all: assert (v <= Z.of_nat (length l')) as L2 by (apply (visited_le c (length l') v); fold r'; now rewrite <- E).
  all: destruct (diff_i c l l' r v ltac:(assumption) ltac:(assumption) Rr Ev L1 L2) as (k & Ek & K0 & K1 & K2 & K3).
  all: rewrite Ek, Ev; cbn [bind]; rewrite s32_zero by lia.
  all: assert (low (s * val l) v = vl l (Z.to_nat v) /\ low (s * val l') v = vl l' (Z.to_nat v)) as (W1 & W2)
    by (split; apply low_vl_all; auto; signs; lia).
  all: rewrite W1, W2.
  all: destruct (Nat.eqb_spec k 0) as [Hk|Hk]; [rewrite (K2 Hk), order_eq, Z.mul_0_r; reflexivity|].
  all: destruct (K3 Hk) as (N1 & N2 & N3).
  all: destruct (last_i c k K1 ltac:(lia) ltac:(lia)) as (i & -> & ->); cbn [bind].
  all: unfold rdz; rewrite !(proj2 (Z.ltb_ge _ 0)) by lia.
  all: replace (Z.to_nat (Z.of_nat k - 1)) with (k - 1)%nat by lia.
  all: rewrite !rd_ok by lia; cbn [bind].
  all: destruct (Z.ltb_spec (nth (k - 1) l 0) (nth (k - 1) l' 0)) as [G|G].
  all: try (rewrite Cs, order_lt by (apply N2; exact G); f_equal; ring).
  all: rewrite order_gt by lia; f_equal; ring.
Qed.

Lemma equals_i_spec c a b x y : represents a x -> represents b y -> bi_equals_i c a b = found_equal c x y.
Proof.
  intros Ha Hb. unfold bi_equals_i, found_equal.
  rewrite (assert_valid_ok _ _ _ Ha), (assert_valid_ok _ _ _ Hb). cbn [bind].
  destruct (Z.eqb_spec x y) as [<-|E].
  { pose proof (represents_unique _ _ _ Ha Hb) as <-. now rewrite Z.eqb_refl, vec_eqb_refl. }
  pose proof (int_limbs_length a x Ha) as Ia.
  pose proof (limbs_of_length a x Ha) as La. pose proof (limbs_of_length b y Hb) as Lb.
  pose proof (repr_parts _ _ Ha) as Pa. pose proof (repr_parts _ _ Hb) as Pb.
  destruct (parts_sign _ _ _ Pa) as (R1 & S1). destruct (parts_sign _ _ _ Pb) as (R2 & S2).
  destruct a as [s l], b as [s' l']; cbn [sign_of bits_of] in *.
  destruct (Z.eqb_spec s s') as [Es|Es]; cbn [negb].
  2:{ assert (both_long x y = false) as ->; [|reflexivity].
      inv_parts Pa; inv_parts Pb; unfold INT_MIN, INT_MAX in *.
      1,2,3: apply both_long_small; lia.
      apply both_long_sign. signs; lia. }
  subst s'. destruct (vec_eqb l l') eqn:Ev.
  { exfalso. apply E. apply vec_eqb_spec in Ev. subst l'. eapply represents_fun; eauto. }
  inv_parts Pa; inv_parts Pb; nils; cbn [orb]; unfold INT_MIN, INT_MAX in *.
  1,2,3: rewrite both_long_small by lia; reflexivity.
  rewrite both_long_yes by auto. cbn [andb]. rewrite Ia by (signs; lia). rewrite La, Lb.
  assert (1 <= length l)%nat by (destruct l; [congruence|cbn [length]; lia]).
  assert (1 <= length l')%nat by (destruct l'; [congruence|cbn [length]; lia]).
  destruct (Nat.eqb_spec (length l) (length l')) as [El|El]; cbn [negb].
  2:{ rewrite (proj2 (Z.eqb_neq _ _)) by lia. reflexivity. }
  rewrite (proj2 (Z.eqb_eq _ _)) by lia.
  set (r := s32 (Z.of_nat (length l))).
  pose proof (s32_range (Z.of_nat (length l))) as Rr; fold r in Rr; unfold INT_MIN, INT_MAX in Rr.
  destruct (visited_shape c r) as [(v & V)|V];
    [|destruct (diff_overflow c l l' r _ V) as (Eo & _); rewrite Eo, V; reflexivity].
  pose proof (visited_le c (length l) v V) as (L1 & L3). assert (v <= Z.of_nat (length l')) as L2 by lia.
  destruct (diff_i c l l' r v ltac:(assumption) ltac:(assumption) Rr V L1 L2) as (k & Ek & K0 & K1 & K2 & K3).
  rewrite Ek, V. cbn [bind]. rewrite s32_zero by lia. f_equal.
  rewrite (low_vl_all (s * val l) l v), (low_vl_all (s * val l') l' v) by (auto; signs; lia).
  destruct (Nat.eqb_spec k 0) as [Hk|Hk].
  - rewrite (K2 Hk). now rewrite Z.eqb_refl.
  - destruct (K3 Hk) as (_ & _ & N). symmetry. now apply Z.eqb_neq.
Qed.
