(** How the tests of TestConstants.v end. *)
From Coq Require Import String.
From Verif Require Import Facts Spec SpecPos SpecOracle SpecNumbers SpecBodies BigInt BigIntBytes ToBytesFacts ArithLaws ConvLaws
  TestOracle TestCalc TestRandom TestNumbers TestBodies TestConstants OracleFacts2 RandomFacts NumberFacts BodyFacts.

Ltac Zify.zify_post_hook ::= idtac.

Lemma in_turn_cons p checks : p = Ret true -> in_turn (p :: checks) = in_turn checks.
Proof. now intros ->. Qed.

Lemma in_turn_true checks : Forall (fun p => p = Ret true) checks -> in_turn checks = Ret true.
Proof. induction 1; [reflexivity|]. now rewrite in_turn_cons. Qed.

Lemma in_turn_repeat p n : p = Ret true -> in_turn (repeat p n) = Ret true.
Proof. intros H. apply in_turn_true. apply Forall_forall. now intros q ->%repeat_spec. Qed.

Section Configured.
  Context (c : cfg).

  Lemma same_value_ok a b x : returns a x -> returns b x -> same_value c a b = Ret true.
  Proof.
    intros (p & -> & P) (q & -> & Q). unfold same_value. cbn [bind].
    rewrite (proj1 (equal_calls c p q x x P Q)). now rewrite Z.eqb_refl.
  Qed.

  Lemma both_ret f a b x y z : returns a x -> returns b y ->
    (forall p q, represents p x -> represents q y -> returns (f p q) z) -> returns (both f a b) z.
  Proof. intros (p & -> & P) (q & -> & Q) H. unfold both. cbn [bind]. now apply H. Qed.

  Lemma constants_ok : returns (bi_zero c) 0 /\ returns (bi_one c) 1 /\ returns (bi_minus_one c) (-1).
  Proof.
    repeat split.
    - exists (Big 0 []). split; [now destruct c as [[] []]|]. split; [cbn; lia|reflexivity].
    - exists (Big 1 []). split; [now destruct c as [[] []]|]. split; [cbn; lia|reflexivity].
    - exists (Big (-1) []). split; [now destruct c as [[] []]|]. split; [cbn; lia|reflexivity].
  Qed.

  Lemma zero_constants_ok : zero_constants c = Ret true.
  Proof. destruct c as [[] []]; vm_compute; reflexivity. Qed.
  Lemma one_constants_ok : one_constants c = Ret true.
  Proof. destruct c as [[] []]; vm_compute; reflexivity. Qed.
  Lemma minus_one_constants_end : minus_one_constants c = if strict c then Undef ShiftNegative else Ret true.
  Proof. destruct c as [[] []]; vm_compute; reflexivity. Qed.

  Context {E : Type} (draw : E -> Z -> Z -> Z * E) (copied : bool) (B : in_bounds draw).

  Lemma drawn_value e : exists b,
    bi_of_bytes c (any_bytes draw copied 0 1024 e) false false = Ret b /\
    represents b (complement 256 (any_bytes draw copied 0 1024 e)) /\
    ref_is_zero (any_bytes draw copied 0 1024 e) = (complement 256 (any_bytes draw copied 0 1024 e) =? 0).
  Proof.
    destruct (any_random draw copied B 0 1024 e ltac:(lia)) as (L & _). set (l := any_bytes _ _ _ _ _) in *. clearbody l.
    pose proof (low7_value l L) as (N & _).
    destruct (of_bytes_returns c l false false (low7_digits l L)) as (b & -> & R); [right; left; exact N|].
    exists b. split; [reflexivity|]. split; [exact R|].
    rewrite (ref_is_zero_raw l (low7_digits l L)). unfold complement.
    replace (256 <=? 2 * last l 0) with false; [f_equal; lia|]. symmetry. apply Z.leb_gt.
    assert (last l 0 < 128); [|lia]. clear - L. induction L as [|b l Hb L IH]; [cbn; lia|]. destruct l; [cbn; lia|exact IH].
  Qed.

  Lemma zero_sample_ok e : zero_sample draw copied c e = Ret true.
  Proof.
    destruct (drawn_value e) as (b & EB & R & Z0). unfold zero_sample. rewrite EB, Z0. cbn [bind]. clear EB Z0.
    set (v := complement 256 _) in *. clearbody v. clear e.
    destruct constants_ok as (C0 & C1 & CM). assert (returns (Ret b) v) as RB by (now exists b).
    rewrite in_turn_true; cbn [bind].
    2:{ repeat apply Forall_cons; try apply Forall_nil; eapply same_value_ok.
        - exact C0.
        - eapply both_ret; [exact C0|exact RB|]. intros p q P Q. change 0 with (0 * v) at 1. now apply mul_returns.
        - exact RB.
        - eapply both_ret; [exact RB|exact C0|]. intros p q P Q. replace v with (v - 0) by lia. apply sub_returns; [|exact Q]. now replace (v - 0) with v by lia.
        - eapply both_ret; [exact CM|exact RB|]. intros p q P Q. apply mul_returns; eassumption.
        - eapply both_ret; [exact C0|exact RB|]. intros p q P Q. replace (-1 * v) with (0 - v) by lia. now apply sub_returns.
        - exact RB.
        - eapply both_ret; [exact RB|exact C0|]. intros p q P Q. destruct (add_returns c p q v 0 P Q) as (r & -> & H). rewrite Z.add_0_r in H. now exists r.
        - exact RB.
        - eapply both_ret; [exact C0|exact RB|]. intros p q P Q. exact (add_returns c p q 0 v P Q). }
    assert (both (bi_div c) (Ret b) (bi_zero c) = Throw DivideByZero) as ->.
    { destruct C0 as (z & -> & RZ). unfold both. cbn [bind]. exact (proj1 (div_zero_calls c b z v R RZ)). }
    cbn [bind expect_divide_by_zero]. destruct (Z.eqb_spec v 0) as [->|NZ]; cbn [negb bind]; [reflexivity|].
    rewrite (same_value_ok _ _ 0); [reflexivity|exact C0|].
    eapply both_ret; [exact C0|exact RB|]. intros p q P Q. rewrite <- (Z.quot_0_l v NZ). now apply div_returns.
  Qed.

  Lemma one_sample_ok e : one_sample draw copied c e = Ret true.
  Proof.
    destruct (drawn_value e) as (b & EB & R & _). unfold one_sample. rewrite EB. cbn [bind]. clear EB.
    set (v := complement 256 _) in *. clearbody v. clear e.
    destruct constants_ok as (_ & C1 & _). assert (returns (Ret b) v) as RB by (now exists b).
    apply in_turn_true. repeat apply Forall_cons; try apply Forall_nil; (eapply same_value_ok; [exact RB|]); (eapply both_ret; [try exact C1; exact RB|try exact C1; exact RB|]); intros p q P Q.
    - destruct (mul_returns c p q 1 v P Q) as (r & -> & H). rewrite Z.mul_1_l in H. now exists r.
    - destruct (div_returns c p q v 1 P Q ltac:(lia)) as (r & -> & H). rewrite Z.quot_1_r in H. now exists r.
  Qed.

  Lemma minus_one_sample_ok e : minus_one_sample draw copied c e = Ret true.
  Proof.
    destruct (drawn_value e) as (b & EB & R & _). unfold minus_one_sample. rewrite EB. cbn [bind]. clear EB.
    set (v := complement 256 _) in *. clearbody v. clear e.
    destruct constants_ok as (_ & _ & CM). assert (returns (Ret b) v) as RB by (now exists b).
    apply in_turn_true. repeat apply Forall_cons; try apply Forall_nil; (eapply same_value_ok; [exact (neg_returns c b v R)|]); (eapply both_ret; [try exact CM; exact RB|try exact CM; exact RB|]); intros p q P Q.
    - destruct (mul_returns c p q (-1) v P Q) as (r & -> & H). replace (-1 * v) with (- v) in H by lia. now exists r.
    - destruct (div_returns c p q v (-1) P Q ltac:(lia)) as (r & -> & H). replace (Z.quot v (-1)) with (- v) in H by (change (-1) with (- (1)); rewrite Z.quot_opp_r, Z.quot_1_r; lia). now exists r.
  Qed.

  Theorem property_tests e :
    zero_tests draw copied c e = Ret true /\ one_tests draw copied c e = Ret true /\
    minus_one_tests draw copied c e = (if strict c then Undef ShiftNegative else Ret true).
  Proof.
    unfold zero_tests, one_tests, minus_one_tests. split; [|split].
    - rewrite in_turn_cons by apply zero_constants_ok. apply in_turn_repeat, zero_sample_ok.
    - rewrite in_turn_cons by apply one_constants_ok. apply in_turn_repeat, one_sample_ok.
    - pose proof minus_one_constants_end as H. destruct (strict c).
      + cbn [in_turn]. now rewrite H.
      + rewrite in_turn_cons by exact H. apply in_turn_repeat, minus_one_sample_ok.
  Qed.
End Configured.

Theorem predicate_tests c : is_zero_test c = Ret true /\ is_one_test c = Ret true.
Proof. split; destruct c as [[] []]; vm_compute; reflexivity. Qed.

Theorem even_test_passes (E : Type) (engine : E -> Z * E) (seeded : Z -> E) fuel seed_first c e :
  engine_ok engine -> no_min engine -> 400 <= Z.of_nat fuel ->
  is_even_test engine seeded fuel seed_first c e = Ret true.
Proof.
  intros K N F.
  pose proof (fun e => even_samples_pass engine seeded 5 fuel seed_first c e K N F) as S.
  unfold is_even_test. cbv zeta.
  match goal with |- (x <- ?p ;; _) = _ => assert (p = Ret true) as -> by (destruct c as [[] []]; vm_compute; reflexivity) end.
  cbn [bind]. destruct (S e) as ((e1 & ->) & _). cbn [bind]. destruct (S e1) as (_ & (e2 & ->) & _). cbn [bind].
  match goal with |- (x <- ?p ;; _) = _ => assert (p = Ret true) as -> by (destruct c as [[] []]; vm_compute; reflexivity) end.
  cbn [bind]. destruct (S e2) as (_ & _ & (e3 & ->)). cbn [bind].
  match goal with |- (x <- ?p ;; _) = _ => assert (p = Ret true) as -> by (destruct c as [[] []]; vm_compute; reflexivity) end.
  reflexivity.
Qed.

Theorem power_of_two_test_exact (E : Type) (draw : E -> Z -> Z -> Z * E) cast c e :
  in_bounds draw -> (forall b, cast 256 = Ret b -> 0 <= b < 256) ->
  is_power_of_two_test draw cast c e = power_verdict cast (drawn_byte draw e) (drawn_bit draw e).
Proof.
  intros B K. rewrite <- (samples_exact draw cast c e B K). unfold is_power_of_two_test. cbv zeta.
  do 7 (rewrite all_pass_cons by (destruct c as [[] []]; vm_compute; reflexivity)). apply all_pass_one.
Qed.
