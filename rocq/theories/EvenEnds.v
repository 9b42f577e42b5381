(** How the test of is_even ends with any engine. *)
From Coq Require Import String.
From Verif Require Import Machine SpecOracle SpecNumbers Spec BigIntFacts ConvFacts ArithLaws BigInt TestOracle TestRandom TestNumbers TestBodies TestConstants NumberFacts
  Facts CompareFacts TextFacts OracleFacts3 TestConstantFacts BodyFacts.
Ltac Zify.zify_post_hook ::= idtac.

Section Ends.
  Context {E : Type} (engine : E -> Z * E) (seeded : Z -> E) (c : cfg).

  (** Returns something with [P], or overflows, or goes on. *)
  Definition ends {A : Type} (P : A -> Prop) (o : outcome A) : Prop :=
    (exists a, o = Ret a /\ P a) \/ (strict c = true /\ o = Undef SignedOverflow) \/ (strict c = false /\ o = NoFuel).

  Lemma ends_bind {A B : Type} (P : A -> Prop) (Q : B -> Prop) o k :
    ends P o -> (forall a, P a -> ends Q (k a)) -> ends Q (bind o k).
  Proof.
    intros [(a & -> & H)|[(S & ->)|(S & ->)]] K; cbn [bind]; [now apply K|right; left; auto|right; right; auto].
  Qed.
  Lemma ends_ret {A : Type} (P : A -> Prop) a : P a -> ends P (Ret a).
  Proof. intros H. left. eauto. Qed.

  (** A number as Random::Next returns it. *)
  Definition drawn (v : Z) : Prop := 0 <= v <= INT_MAX \/ (strict c = false /\ v = INT_MIN).
  Lemma drawn_strict v : drawn v -> strict c = true -> 0 <= v.
  Proof. intros [H|(H & _)]; [lia|congruence]. Qed.

  Lemma next_ends e : ends (fun r => drawn (fst r)) (next_int engine c e).
  Proof.
    unfold next_int. destruct (engine e) as (u & e1). pose proof (s32_range u) as R.
    assert (INT_MIN <= Z.abs (s32 u)) as L by (unfold INT_MIN; lia).
    unfold chk32. rewrite (proj2 (Z.leb_le _ _) L). cbn [andb].
    destruct (Z.leb_spec (Z.abs (s32 u)) INT_MAX); cbn [bind].
    - apply ends_ret. left. cbn [fst]. split; [apply Z.abs_nonneg|assumption].
    - destruct (strict c) eqn:Hc; cbn [bind]; [right; left; auto|]. apply ends_ret. right. cbn [fst]. split; [exact Hc|].
      assert (s32 u = -2147483648) as -> by (unfold INT_MIN, INT_MAX in *; lia). reflexivity.
  Qed.

  Lemma loop_ends fuel n : (strict c = true -> 0 <= n <= INT_MAX) -> forall r e,
    (strict c = true -> n <= Z.of_nat fuel + Z.of_nat (String.length r)) ->
    ends (fun _ => True) (digits_loop engine fuel c n r e).
  Proof.
    intros H. induction fuel as [|fuel IH]; intros r e L; cbn [digits_loop].
    - destruct (Z.ltb_spec (Z.of_nat (String.length r)) (u64 n)); [|now apply ends_ret].
      destruct (strict c) eqn:Hc; [|right; right; auto].
      rewrite u64_small in H0 by (specialize (H eq_refl); unfold INT_MAX, W64 in *; lia). specialize (L eq_refl). lia.
    - destruct (Z.ltb_spec (Z.of_nat (String.length r)) (u64 n)); [|now apply ends_ret].
      eapply ends_bind; [apply next_ends|]. intros (v & e1) V. cbn [fst] in *. apply IH. intros Hc.
      rewrite length_app. specialize (L Hc). pose proof (proj2 (to_string_pos v (drawn_strict v V Hc))). lia.
  Qed.

  Lemma number_ends fuel m seed : m <> 0 -> -400 <= m <= 400 -> (strict c = true -> 0 < m) -> 400 <= Z.of_nat fuel ->
    ends (fun _ => True) (build_random_number engine seeded fuel c m seed).
  Proof.
    intros Z0 M P F. unfold build_random_number. eapply ends_bind; [apply next_ends|]. intros (v & e1) V. cbn [fst] in *.
    rewrite (proj2 (Z.eqb_neq m 0) Z0). pose proof (Z.rem_bound_abs v m Z0) as R.
    rewrite chk32_ok by (unfold INT_MIN, INT_MAX; lia). cbn [bind].
    assert (strict c = true -> 0 <= Z.rem v m + 1 <= 400) as N.
    { intros Hc. pose proof (Z.rem_bound_pos v m (drawn_strict v V Hc) (P Hc)). lia. }
    eapply ends_bind; [apply loop_ends|].
    - intros Hc. specialize (N Hc). unfold INT_MAX. lia.
    - intros Hc. specialize (N Hc). lia.
    - intros (r & e2) _. eapply ends_bind; [apply next_ends|]. intros (w & e3) _. now apply ends_ret.
  Qed.

  Lemma digits_count m : drawn m ->
    Z.rem m 400 + 1 <> 0 /\ -400 <= Z.rem m 400 + 1 <= 400 /\ (strict c = true -> 0 < Z.rem m 400 + 1).
  Proof.
    intros [H|(H & ->)].
    - pose proof (Z.rem_bound_pos m 400 ltac:(lia) ltac:(lia)). lia.
    - change (Z.rem INT_MIN 400 + 1) with (-47). rewrite H. repeat split; lia || discriminate.
  Qed.

  Lemma even_number_ends fuel seed_first e : 400 <= Z.of_nat fuel ->
    ends (fun _ => True) (even_test_number engine seeded fuel seed_first c e).
  Proof.
    intros F. unfold even_test_number. eapply ends_bind; [apply next_ends|]. intros (v & e1) V. cbn [fst] in V.
    eapply ends_bind; [apply next_ends|]. intros (w & e2) W. cbn [fst] in W.
    destruct (digits_count v V) as (V0 & V1 & V2), (digits_count w W) as (W0 & W1 & W2).
    destruct seed_first; (eapply ends_bind; [now apply number_ends|]; intros s _; now apply ends_ret).
  Qed.

  Lemma samples_ends reps fuel seed_first check : 400 <= Z.of_nat fuel ->
    (forall b z, represents b z -> check b = Ret true) -> forall e,
    ends (fun r => fst r = true) (even_samples engine seeded reps fuel seed_first c check e).
  Proof.
    intros F C. induction reps as [|reps IH]; intros e; cbn [even_samples]; [now apply ends_ret|].
    eapply ends_bind; [now apply even_number_ends|]. intros (s & e1) _.
    destruct (parse_returns c s) as (b & -> & R). cbn [bind]. rewrite (C b _ R). cbn [bind].
    eapply ends_bind; [apply IH|]. intros (k & e2) H. cbn [fst] in H. subst k. now apply ends_ret.
  Qed.
End Ends.

Lemma even_checks c : (forall b z, represents b z -> check_twice c b = Ret true) /\
  (forall b z, represents b z -> check_twice_less_one c b = Ret true) /\
  (forall b z, represents b z -> check_minus_twice c b = Ret true).
Proof.
  repeat split; intros b z R.
  - unfold check_twice. destruct (wp_inv _ _ (int32_wp c 2 ltac:(lia))) as (t & -> & T). cbn [bind].
    destruct (mul_returns c b t z 2 R T) as (p & -> & P). cbn [bind]. rewrite (verify_even_exact c p _ _ P), even_twice. reflexivity.
  - unfold check_twice_less_one. destruct (wp_inv _ _ (int32_wp c 2 ltac:(lia))) as (t & -> & T). cbn [bind].
    destruct (mul_returns c b t z 2 R T) as (p & -> & P). cbn [bind].
    destruct (wp_inv _ _ (bi_one_spec c)) as (o & -> & O). cbn [bind].
    destruct (sub_returns c p o _ 1 P O) as (d & -> & D). cbn [bind]. rewrite (verify_even_exact c d _ _ D), Z.even_sub, even_twice.
    reflexivity.
  - unfold check_minus_twice. destruct (wp_inv _ _ (int32_wp c (-2) ltac:(lia))) as (t & -> & T). cbn [bind].
    destruct (mul_returns c b t z (-2) R T) as (p & -> & P). cbn [bind]. rewrite (verify_even_exact c p _ _ P).
    replace (z * -2) with ((- z) * 2) by lia. rewrite even_twice. reflexivity.
Qed.

Theorem even_test_ends (E : Type) (engine : E -> Z * E) (seeded : Z -> E) fuel seed_first c e : 400 <= Z.of_nat fuel ->
  is_even_test engine seeded fuel seed_first c e = Ret true \/
  is_even_test engine seeded fuel seed_first c e = (if strict c then Undef SignedOverflow else NoFuel).
Proof.
  intros F.
  assert (ends c (fun k => k = true) (is_even_test engine seeded fuel seed_first c e)) as H.
  { destruct (even_checks c) as (C1 & C2 & C3).
    unfold is_even_test. cbv zeta.
    match goal with |- ends _ _ (x <- ?p ;; _) => assert (p = Ret true) as -> by (destruct c as [[] []]; vm_compute; reflexivity) end.
    cbn [bind]. eapply ends_bind; [now apply samples_ends|]. intros (k1 & e1) K1. cbn [fst] in K1. subst k1.
    eapply ends_bind; [now apply samples_ends|]. intros (k2 & e2) K2. cbn [fst] in K2. subst k2.
    match goal with |- ends _ _ (x <- ?p ;; _) => assert (p = Ret true) as -> by (destruct c as [[] []]; vm_compute; reflexivity) end.
    cbn [bind]. eapply ends_bind; [now apply samples_ends|]. intros (k3 & e3) K3. cbn [fst] in K3. subst k3.
    match goal with |- ends _ _ (x <- ?p ;; _) => assert (p = Ret true) as -> by (destruct c as [[] []]; vm_compute; reflexivity) end.
    now apply ends_ret. }
  destruct H as [(a & -> & ->)|[(-> & ->)|(-> & ->)]]; auto.
Qed.
