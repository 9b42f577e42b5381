(** The tests' reference implementation on every operand. *)
From Coq Require Import String.
From Verif Require Import Facts Spec SpecFacts SpecPos PosFacts BytesFacts ToBytesFacts ConvFacts WordFacts BigInt BigIntBytes
  SpecActual SpecPyRun PyRunFacts SpecPyClass PyClassFacts SpecOracle SpecReference TestOracle OracleFacts OracleFacts2 OracleFacts3 CalcFacts.

Ltac Zify.zify_post_hook ::= idtac.

Lemma shortest_wp c a x : represents a x -> wp (bi_to_bytes c a false false) (fun l => enc l x /\ pv l = ref_exponent x).
Proof.
  intros Ha. destruct (to_bytes_returns c a x false false Ha) as (l & -> & D & V & N & M); [discriminate|].
  assert (enc l x) as E by (split; [exact D|]; now split).
  apply wp_ret. split; [exact E|]. rewrite (enc_pv l x E). unfold ref_exponent. destruct (x <? 0); [|reflexivity].
  pose proof (shortest_unique false false l x D V N M) as U. pose proof (encoding_value false false x ltac:(discriminate)) as (_ & _ & L).
  rewrite <- U in L. rewrite L. unfold p8. pose proof (byte_count_pos false x). rewrite Z2Nat.id by lia. reflexivity.
Qed.

Lemma ref_divide_total l1 l2 x y : enc l1 x -> enc l2 y -> wp (ref_divide l1 l2) (fun r => enc r (ref_quotient x y)).
Proof.
  intros E1 E2. unfold ref_quotient. destruct (Z.eqb_spec y 0) as [->|N]; [now apply ref_divide_zero|now apply ref_divide_spec].
Qed.

Theorem mine_binary_total c lg a b x y op f : strict c = false -> represents a x -> represents b y ->
  In (op, f) ref_binary_table -> denotes_pair (mine_binary c lg a b op) (f x y) (second_result op x y).
Proof.
  intros Hc Ha Hb Hin. unfold mine_binary.
  destruct (wp_inv _ _ (shortest_wp c a x Ha)) as (l1 & -> & E1 & _). cbn [bind].
  destruct (wp_inv _ _ (shortest_wp c b y Hb)) as (l2 & -> & E2 & _). cbn [bind].
  destruct (wp_inv _ _ (int32_wp c 0 ltac:(lia))) as (z & -> & Hz). cbn [bind].
  assert (forall o v, wp o (fun r => enc r v) -> second_result op x y = 0 ->
    denotes_pair (r <- of_ref c o ;; Ret (r, z)) (Ret v) (second_result op x y)) as Wrap.
  { intros o v W S. destruct (wp_inv _ _ (of_ref_wp c o v Hc W)) as (r & -> & Hr). cbn [bind denotes_pair]. rewrite S. eauto. }
  assert (forall l s, enc l s -> second_result op x y = 0 ->
    denotes_pair (r <- of_ref c (ref_shift_left c l1 l) ;; Ret (r, z)) (ref_shift x s) (second_result op x y)) as Shift.
  { intros l s E S. pose proof (ref_shift_left_total c l1 l x s Hc E1 E) as T. unfold ref_shift in *. cbv zeta in *.
    destruct (an_int (Z.quot s 8)); [now apply Wrap|]. rewrite T. reflexivity. }
  unfold ref_binary_table in Hin. cbn [In] in Hin.
  repeat (destruct Hin as [Hin|Hin]; [injection Hin as <- <-|]); [..|contradiction];
    cbn [String.eqb Ascii.eqb Bool.eqb orb].
  - apply Wrap; [|reflexivity].
    eapply wp_bind_cut; [apply (ref_negate_spec _ _ E1)|]. intros n1 (N1 & _).
    eapply wp_bind_cut; [apply (ref_negate_spec _ _ E2)|]. intros n2 (N2 & _).
    eapply wp_bind_cut; [apply (ref_max_spec _ _ _ _ N1 N2)|]. intros m M. cbv beta in M.
    eapply wp_mono; [apply (ref_negate_spec _ _ M)|]. intros r (R & _).
    replace (Z.min x y) with (- Z.max (- x) (- y)) by lia. exact R.
  - apply Wrap; [|reflexivity]. apply (ref_max_spec _ _ _ _ E1 E2).
  - destruct (wp_inv _ _ (ref_negate_spec _ _ E2)) as (n & -> & N & _). cbn [bind]. now apply Shift.
  - now apply Shift.
  - apply Wrap; [|reflexivity]. apply (ref_bitwise_spec _ _ _ _ _ bitop_xor E1 E2).
  - apply Wrap; [|reflexivity]. apply (ref_bitwise_spec _ _ _ _ _ bitop_or E1 E2).
  - apply Wrap; [|reflexivity]. apply (ref_bitwise_spec _ _ _ _ _ bitop_and E1 E2).
  - apply Wrap; [|reflexivity]. apply (ref_remainder_total _ _ _ _ E1 E2).
  - apply Wrap; [|reflexivity]. apply (ref_divide_total _ _ _ _ E1 E2).
  - apply Wrap; [|reflexivity]. apply (ref_multiply_spec _ _ _ _ E1 E2).
  - apply Wrap; [|reflexivity]. eapply wp_bind_cut; [apply (ref_negate_spec _ _ E2)|]. intros n (N & _).
    eapply wp_mono; [apply (ref_add_spec _ _ _ _ E1 N)|]. intros r (R & _). exact R.
  - apply Wrap; [|reflexivity]. eapply wp_mono; [apply (ref_add_spec _ _ _ _ E1 E2)|]. intros r (R & _). exact R.
  - apply Wrap; [|reflexivity]. apply (ref_gcd_spec _ _ _ _ E1 E2).
  - rewrite (big_count_exact c b y Hb). unfold big_count, ref_power. rewrite Hc. cbn [andb]. fold (an_int y).
    destruct (an_int y) eqn:I; [|reflexivity]. apply an_int_iff in I. cbn [bind].
    destruct (wp_inv _ _ (int32_wp c y I)) as (b2 & -> & Hb2). cbn [bind].
    destruct (wp_inv _ _ (shortest_wp c b2 y Hb2)) as (l3 & -> & E3 & P3). cbn [bind].
    apply Wrap; [|reflexivity]. rewrite <- P3. apply ref_pow_raw; [exact E1|apply E3|apply E3].
  - destruct (wp_inv _ _ (of_ref_wp c _ _ Hc (ref_divide_total _ _ _ _ E1 E2))) as (q & -> & Hq). cbn [bind].
    destruct (wp_inv _ _ (of_ref_wp c _ _ Hc (ref_remainder_total _ _ _ _ E1 E2))) as (r & -> & Hr). cbn [bind denotes_pair]. eauto.
  - apply Wrap; [|reflexivity]. apply (ref_remainder_total _ _ _ _ E1 E2).
  - apply Wrap; [|reflexivity]. apply (ref_divide_total _ _ _ _ E1 E2).
  - apply Wrap; [|reflexivity]. apply (ref_multiply_spec _ _ _ _ E1 E2).
  - apply Wrap; [|reflexivity]. eapply wp_bind_cut; [apply (ref_negate_spec _ _ E2)|]. intros n (N & _).
    eapply wp_mono; [apply (ref_add_spec _ _ _ _ E1 N)|]. intros r (R & _). exact R.
  - apply Wrap; [|reflexivity]. eapply wp_mono; [apply (ref_add_spec _ _ _ _ E1 E2)|]. intros r (R & _). exact R.
Qed.

Theorem mine_ternary_total c a b m x e z : strict c = false -> represents a x -> represents b e -> represents m z ->
  returns (mine_ternary c a b m "tModPow") (ref_power_mod x e z).
Proof.
  intros Hc Ha Hb Hm. unfold mine_ternary. apply returns_wp.
  eapply wp_bind_cut; [apply (shortest_wp c a x Ha)|]. intros l1 (E1 & _).
  eapply wp_bind_cut; [apply (shortest_wp c b e Hb)|]. intros l2 (E2 & P2).
  eapply wp_bind_cut; [apply (shortest_wp c m z Hm)|]. intros l3 (E3 & _).
  cbn [String.eqb Ascii.eqb Bool.eqb]. apply of_ref_wp; [exact Hc|].
  unfold ref_power_mod. rewrite <- P2. apply ref_mod_pow_raw; [exact E1|apply E2|apply E2|exact E3].
Qed.

Lemma ref_names : map fst ref_binary_table = map fst binary_table.
Proof. reflexivity. Qed.

(** Where the operator means something, this is its meaning. *)
Theorem ref_table_meaning op f ok g x y : In (op, (f, ok)) binary_table -> In (op, g) ref_binary_table -> ok y = true ->
  g x y = Ret (f x y).
Proof.
  intros Hf Hg Hok.
  assert (an_int y = true -> Z.abs y < 2 ^ 34) as Rg.
  { intros H. apply an_int_iff in H. change (2 ^ 34) with 17179869184. lia. }
  assert (nonzero y = true -> ref_quotient x y = Z.quot x y) as Q.
  { unfold nonzero, ref_quotient. intros H. apply negb_true_iff in H. now rewrite H. }
  assert ((0 <=? y) && an_int y = true -> ref_power x y = Ret (x ^ y)) as P.
  { intros H. apply andb_true_iff in H. destruct H as (H0 & H1). unfold ref_power. rewrite H1. unfold ref_exponent.
    apply Z.leb_le in H0. destruct (Z.ltb_spec y 0); [lia|reflexivity]. }
  unfold binary_table in Hf. cbn [In] in Hf. unfold ref_binary_table in Hg. cbn [In] in Hg.
  repeat (destruct Hf as [Hf|Hf]; [injection Hf as <- <- <-; repeat (destruct Hg as [Hg|Hg]; [try discriminate Hg; injection Hg as <-|]); try contradiction|]);
    [..|contradiction]; cbv beta; try reflexivity; try (now rewrite Q); try (now apply P).
  - rewrite ref_shift_small by (rewrite Z.abs_opp; auto). reflexivity.
  - apply ref_shift_small. auto.
Qed.

Lemma ref_raises op f x y : In (op, f) ref_binary_table -> (exists v, f x y = Ret v) \/ f x y = Throw OverflowError.
Proof.
  unfold ref_binary_table. cbn [In]. intros H.
  repeat (destruct H as [H|H]; [injection H as _ <-; try (left; eexists; reflexivity)|]); [..|contradiction].
  - unfold ref_shift. cbv zeta. destruct (an_int _); eauto.
  - unfold ref_shift. cbv zeta. destruct (an_int _); eauto.
  - unfold ref_power. destruct (an_int _); eauto.
Qed.

Corollary binary_every_operand c lg a b x y op f : strict c = false -> represents a x -> represents b y ->
  In (op, f) ref_binary_table ->
  match f x y with
  | Ret v => exists r s, mine_binary c lg a b op = Ret (r, s) /\ represents r v /\ represents s (second_result op x y)
  | o => mine_binary c lg a b op = Throw OverflowError /\ o = Throw OverflowError
  end.
Proof.
  intros Hc Ha Hb H. pose proof (mine_binary_total c lg a b x y op f Hc Ha Hb H) as D.
  destruct (ref_raises op f x y H) as [(v & E)|E]; rewrite E in *; [exact D|]. now split.
Qed.
