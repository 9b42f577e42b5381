(** The tests' reference implementation is exact: shifts, and the operators by
    name. *)
From Coq Require Import String.
From Verif Require Import Facts Spec SpecFacts SpecPos PosFacts BytesFacts ToBytesFacts WordFacts BigInt BigIntBytes
  SpecPyRun PyRunFacts SpecOracle SpecReference TestOracle OracleFacts OracleFacts2.

Ltac Zify.zify_post_hook ::= idtac.

Lemma of_ref_wp c o x : strict c = false -> wp o (fun l => enc l x) -> wp (of_ref c o) (fun r => represents r x).
Proof.
  intros Hs H. unfold of_ref. eapply wp_bind_cut; [exact H|]. intros l (D & _ & V). apply returns_wp.
  rewrite <- V. apply (of_bytes_returns c l false false D). now left.
Qed.

Lemma bytes_wp c a x : represents a x -> wp (bi_to_bytes c a false false) (fun l => enc l x).
Proof.
  intros Ha. destruct (to_bytes_returns c a x false false Ha) as (l & -> & D & V & N & _); [discriminate|].
  apply wp_ret. split; [exact D|]. now split.
Qed.

Lemma to_int_wp c a x : strict c = false -> represents a x -> - 2 ^ 31 <= x < 2 ^ 31 -> bi_to_int c a = Ret x.
Proof.
  intros Hs Ha Hx. rewrite (big_count_exact c a x Ha). unfold big_count. rewrite Hs. cbn [andb].
  destruct (Z.leb_spec (- 2 ^ 31) x); [|lia]. destruct (Z.ltb_spec x (2 ^ 31)); [|lia]. reflexivity.
Qed.

(** ** ShiftLeft *)

Lemma enc_byte b : 0 <= b < 256 -> enc [b] (if 128 <=? b then b - 256 else b).
Proof.
  intros H. split; [repeat constructor; lia|]. split; [discriminate|].
  unfold complement. cbn [last length positional]. change (256 ^ Z.of_nat 1) with 256.
  destruct (Z.leb_spec 128 b), (Z.leb_spec 256 (2 * b)); lia.
Qed.

Lemma shift_bits l x k : - 7 <= k <= 7 -> enc l x ->
  wp (for_up (Z.to_nat (Z.abs k)) 0 (fun _ b => if k <? 0 then ref_shift_right b else ref_shift_grow b) l)
     (fun r => enc r (Z.shiftl x k)).
Proof.
  intros Hk E. destruct (Z.ltb_spec k 0) as [H|H].
  - eapply wp_for_up with (I := fun i r => enc r (x / 2 ^ Z.of_nat i)).
    + change (2 ^ Z.of_nat 0) with 1. rewrite Z.div_1_r. exact E.
    + intros i r _ Hr. eapply wp_mono; [apply (ref_shift_right_spec _ _ Hr)|]. cbv beta. intros s (Hs & _).
      pose proof (pow2_pos i). rewrite pow2_S, (Z.mul_comm 2 (2 ^ _)), <- Z.div_div by lia. exact Hs.
    + intros r Hr. cbn [Nat.add] in Hr. rewrite Z.shiftl_div_pow2 by lia.
      replace (- k) with (Z.of_nat (Z.to_nat (Z.abs k))) by lia. exact Hr.
  - eapply wp_mono; [apply (ref_grow_by_spec _ _ _ E)|]. cbv beta. intros r Hr. rewrite Z.shiftl_mul_pow2 by lia.
    replace k with (Z.of_nat (Z.to_nat (Z.abs k))) at 1 by lia. exact Hr.
Qed.

Lemma enc_skip l x k : enc l x -> (k < length l)%nat -> enc (skipn k l) (x / p8 k).
Proof.
  intros E H. pose proof E as (D & N & _).
  assert (digits 256 (skipn k l)) as Ds.
  { unfold digits in *. rewrite <- (firstn_skipn k l) in D. apply Forall_app in D. apply D. }
  assert (digits 256 (firstn k l)) as Df by now apply Forall_firstn.
  pose proof (pv_bound _ Df) as B. rewrite firstn_length, Nat.min_l in B by lia.
  destruct (pv_mod l x E) as (q & Q). pose proof (enc_range l x E) as R.
  rewrite <- (firstn_skipn k l) in Q at 1. rewrite (pos_app 256), firstn_length, Nat.min_l in Q by lia. fold (p8 k) in Q.
  assert (p8 (length l) = p8 k * p8 (length l - k)) as P.
  { rewrite !p8_pow, <- Z.pow_add_r by lia. f_equal. lia. }
  pose proof (p8_pos k) as Pk. pose proof (p8_pos (length l - k)) as Pl.
  assert (x / p8 k = pv (skipn k l) - q * p8 (length l - k)) as ->.
  { symmetry. apply (Z.div_unique_pos _ _ _ (pv (firstn k l))); [exact B|]. rewrite P in Q. lia. }
  apply (enc_mod _ _ q); [exact Ds|apply ne_length; rewrite skipn_length; lia| |rewrite skipn_length; lia].
  rewrite skipn_length. rewrite P in Q, R.
  destruct (p8_half (length l - k) ltac:(lia)) as (h & Hh & Hh0). rewrite Hh in *.
  set (T := pv (skipn k l) - q * (2 * h)) in *.
  assert (p8 k * T <= x < p8 k * (T + 1)) as X by (subst T; lia).
  assert (- h <= T < h); [|lia]. split.
  - destruct (Z.le_gt_cases (- h) T) as [G|G]; [exact G|].
    assert (p8 k * (T + 1) <= p8 k * (- h)) by (apply Z.mul_le_mono_nonneg_l; lia). lia.
  - destruct (Z.lt_ge_cases T h) as [G|G]; [exact G|].
    assert (p8 k * h <= p8 k * T) by (apply Z.mul_le_mono_nonneg_l; lia). lia.
Qed.

Lemma enc_far l x k : enc l x -> Z.of_nat (length l) <= k -> x / 2 ^ (8 * k) = if x <? 0 then -1 else 0.
Proof.
  intros E H. pose proof (enc_range l x E) as R. pose proof (p8_pos (length l)) as P.
  assert (p8 (length l) <= 2 ^ (8 * k)) as L by (rewrite p8_pow; apply Z.pow_le_mono_r; lia).
  destruct (Z.ltb_spec x 0).
  - symmetry. apply (Z.div_unique_pos _ _ _ (x + 2 ^ (8 * k))); lia.
  - apply Z.div_small. lia.
Qed.

Lemma enc_zeros k l x : enc l x -> enc (zeros k ++ l) (x * p8 k).
Proof.
  intros E. pose proof E as (D & N & _). destruct (pv_mod l x E) as (q & Q). pose proof (enc_range l x E) as R.
  pose proof (p8_pos k) as P.
  assert (p8 (k + length l) = p8 k * p8 (length l)) as PA by (rewrite !p8_pow, <- Z.pow_add_r by lia; f_equal; lia).
  apply (enc_mod _ _ q).
  - unfold digits. apply Forall_app. split; [apply digits_zeros|exact D].
  - destruct l; [congruence|]. intros C. apply app_eq_nil in C. destruct C. discriminate.
  - rewrite app_length, zeros_len, PA. set (B := p8 k) in *. set (L := p8 (length l)) in *.
    assert (B * (- L) <= B * (2 * x)) by (apply Z.mul_le_mono_nonneg_l; lia).
    assert (B * (2 * x) < B * L) by (apply Z.mul_lt_mono_pos_l; lia). lia.
  - rewrite app_length, zeros_len, PA, (pos_app 256), zeros_len, pv_zeros, Q. fold (p8 k). ring.
Qed.

Lemma an_int_iff y : an_int y = true <-> - 2147483648 <= y < 2147483648.
Proof.
  unfold an_int. change (2 ^ 31) with 2147483648. rewrite andb_true_iff, Z.leb_le, Z.ltb_lt. reflexivity.
Qed.

Lemma ref_shift_left_total c l1 l2 x s : strict c = false -> enc l1 x -> enc l2 s ->
  match ref_shift x s with
  | Ret v => wp (ref_shift_left c l1 l2) (fun r => enc r v)
  | _ => ref_shift_left c l1 l2 = Throw OverflowError
  end.
Proof.
  intros Hc E1 E2. unfold ref_shift.
  assert (enc [8] 8) as E8 by exact (enc_byte 8 ltac:(lia)).
  assert (Z.quot s 8 * 8 + Z.rem s 8 = s) as QR by (rewrite Z.mul_comm; symmetry; apply Z.quot_rem').
  assert (0 <= s -> 0 <= Z.rem s 8 < 8) as R1 by (intros; apply Z.rem_bound_pos; lia).
  assert (s < 0 -> - 8 < Z.rem s 8 <= 0) as R2.
  { intros. pose proof (Z.rem_bound_pos (- s) 8 ltac:(lia) ltac:(lia)) as B. rewrite Z.rem_opp_l in B by lia. lia. }
  pose proof (ref_divide_spec _ _ _ _ E2 E8 ltac:(lia)) as DV. pose proof (ref_remainder_spec _ _ _ _ E2 E8 ltac:(lia)) as RM.
  set (q := Z.quot s 8) in *. set (r := Z.rem s 8) in *. clearbody q r. cbv zeta.
  destruct (an_int q) eqn:Hq.
  2: { unfold ref_shift_left. apply wp_inv in DV. destruct DV as (lq & -> & Eq). cbn [bind].
       destruct (of_bytes_returns c lq false false (proj1 Eq) (or_introl Hc)) as (bq & -> & Bq). cbn [bind].
       replace (bytes_value false false lq) with q in Bq by (symmetry; apply Eq).
       rewrite (big_count_exact c bq q Bq). unfold big_count. unfold an_int in Hq. rewrite Hq. reflexivity. }
  apply an_int_iff in Hq. unfold ref_shift_left.
  eapply wp_bind_cut; [exact DV|]. intros lq Eq. cbv beta in Eq.
  eapply wp_bind_cut.
  { apply returns_wp. apply (of_bytes_returns c lq false false (proj1 Eq)). now left. }
  intros bq Bq. cbv beta in Bq. replace (bytes_value false false lq) with q in Bq by (symmetry; apply Eq).
  rewrite (to_int_wp c bq q Hc Bq) by (change (2 ^ 31) with 2147483648; lia). cbn [bind].
  eapply wp_bind_cut; [exact RM|]. intros lr Er. cbv beta in Er.
  eapply wp_bind_cut.
  { apply returns_wp. apply (of_bytes_returns c lr false false (proj1 Er)). now left. }
  intros br Br. cbv beta in Br. replace (bytes_value false false lr) with r in Br by (symmetry; apply Er).
  rewrite (to_int_wp c br r Hc Br) by (change (2 ^ 31) with 2147483648; lia). cbn [bind]. cbv zeta.
  replace (u8 (r + 128) - 128) with r by (rewrite u8_small by lia; lia).
  eapply wp_bind_cut; [apply (shift_bits l1 x r); [lia|exact E1]|]. intros m Em. cbv beta in Em.
  change (2 ^ 31) with 2147483648. change (2 ^ 64 - 2 ^ 32) with 18446744069414584320.
  destruct (Z.ltb_spec q 0) as [Q|Q].
  - assert (exists w, chk32 c (- q) = Ret w /\ u64 w = if q =? -2147483648 then 18446744071562067968 else - q) as (w & -> & W).
    { destruct (Z.eqb_spec q (-2147483648)) as [->|N].
      - exists (-2147483648). split; [|reflexivity]. unfold chk32. rewrite Hc. reflexivity.
      - exists (- q). split; [apply chk32_ok; unfold INT_MIN, INT_MAX; lia|]. unfold u64. apply Z.mod_small. change W64 with 18446744073709551616. lia. }
    cbn [bind]. rewrite W.
    set (k := if q =? -2147483648 then 18446744071562067968 else - q).
    assert (0 < k) as Hk by (subst k; destruct (q =? -2147483648); lia).
    assert (Z.shiftl x (if q =? -2147483648 then s - 8 * 18446744069414584320 else s) = Z.shiftl x r / 2 ^ (8 * k)) as Sh.
    { rewrite !Z.shiftl_div_pow2, Z.div_div, <- Z.pow_add_r
        by (try apply Z.pow_nonzero; try apply Z.pow_pos_nonneg; try lia; destruct (q =? -2147483648); lia).
      f_equal. f_equal. subst k. destruct (Z.eqb_spec q (-2147483648)); lia. }
    clearbody k. change (- (2147483648)) with (-2147483648). rewrite Sh.
    destruct (Z.leb_spec (Z.of_nat (length m)) k) as [L|L].
    + eapply wp_bind_cut; [apply (top_set_spec _ _ Em)|]. intros n ->. apply wp_ret.
      rewrite (enc_far m _ _ Em L). destruct (Z.shiftl x r <? 0); [exact (enc_byte 255 ltac:(lia))|exact (enc_byte 0 ltac:(lia))].
    + apply wp_ret.
      replace (2 ^ (8 * k)) with (p8 (Z.to_nat k)) by (rewrite p8_pow; f_equal; lia).
      apply enc_skip; [exact Em|lia].
  - apply wp_ret. destruct (Z.eqb_spec q (- (2147483648))) as [|_]; [lia|].
    assert (Z.shiftl x s = Z.shiftl x r * p8 (Z.to_nat q)) as ->.
    { destruct (Z.lt_ge_cases s 0) as [S|S].
      { assert (q = 0) as Q0 by lia. rewrite Q0 in *. change (p8 (Z.to_nat 0)) with 1. rewrite Z.mul_1_r. f_equal. lia. }
      rewrite p8_pow, !Z.shiftl_mul_pow2, <- Z.mul_assoc, <- Z.pow_add_r by lia. f_equal. f_equal. lia. }
    apply enc_zeros. exact Em.
Qed.

Lemma ref_shift_small x s : Z.abs s < 2 ^ 34 -> ref_shift x s = Ret (Z.shiftl x s).
Proof.
  intros Hs. unfold ref_shift. cbv zeta. pose proof (Z.quot_rem' s 8) as QR.
  assert (0 <= s -> 0 <= Z.rem s 8 < 8) as R1 by (intros; apply Z.rem_bound_pos; lia).
  assert (s < 0 -> - 8 < Z.rem s 8 <= 0) as R2.
  { intros. pose proof (Z.rem_bound_pos (- s) 8 ltac:(lia) ltac:(lia)) as B. rewrite Z.rem_opp_l in B by lia. lia. }
  set (q := Z.quot s 8) in *. set (r := Z.rem s 8) in *. clearbody q r.
  change (2 ^ 34) with (8 * 2147483648) in Hs. change (2 ^ 31) with 2147483648.
  rewrite (proj2 (an_int_iff q)) by lia. destruct (Z.eqb_spec q (- (2147483648))) as [|_]; [lia|]. reflexivity.
Qed.

Lemma ref_shift_left_spec c l1 l2 x s : strict c = false -> enc l1 x -> enc l2 s -> Z.abs s < 2 ^ 34 ->
  wp (ref_shift_left c l1 l2) (fun r => enc r (Z.shiftl x s)).
Proof.
  intros Hc E1 E2 Hs. pose proof (ref_shift_left_total c l1 l2 x s Hc E1 E2) as T. rewrite (ref_shift_small x s Hs) in T. exact T.
Qed.

(** ** The operators *)

Lemma int32_wp c v : - 2 ^ 31 <= v < 2 ^ 31 -> wp (bi_of_int32 c v) (fun r => represents r v).
Proof. intros H. apply bi_of_int32_spec. change (2 ^ 31) with 2147483648 in H. unfold INT_MIN, INT_MAX. lia. Qed.

Lemma mine_unary_wp c lg a x op f : strict c = false -> represents a x -> In (op, f) unary_table ->
  wp (mine_unary c lg a op) (fun r => represents r (f x)).
Proof.
  intros Hc Ha Hin. unfold mine_unary. eapply wp_bind_cut; [apply (bytes_wp c a x Ha)|]. intros l E. cbv beta in E.
  unfold unary_table in Hin. cbn [In] in Hin.
  assert (enc [1] 1) as E1 by apply enc_one.
  assert (enc [255] (-1)) as Em by exact (enc_byte 255 ltac:(lia)).
  assert (enc [0] 0) as E0 by exact (enc_byte 0 ltac:(lia)).
  repeat (destruct Hin as [Hin|Hin]; [injection Hin as <- <-|]); [..|contradiction]; cbn [String.eqb Ascii.eqb Bool.eqb orb].
  - rewrite (ref_is_zero_spec l x E). destruct (Z.eqb_spec x 0) as [->|N]; [apply int32_wp; lia|].
    eapply wp_bind_cut; [apply (ref_max_spec _ _ _ _ E E0)|]. intros t Et. cbv beta in Et.
    rewrite (ref_is_zero_spec t _ Et). destruct (Z.eqb_spec (Z.max x 0) 0).
    + rewrite Z.sgn_neg by lia. apply int32_wp. lia.
    + rewrite Z.sgn_pos by lia. apply int32_wp. lia.
  - apply of_ref_wp; [exact Hc|]. unfold Z.lnot, Z.pred. apply (ref_not_spec _ _ E).
  - eapply wp_bind_cut; [apply (top_set_spec _ _ E)|]. intros n ->. apply of_ref_wp; [exact Hc|].
    destruct (Z.ltb_spec x 0).
    + eapply wp_mono; [apply (ref_negate_spec _ _ E)|]. intros r (R & _). rewrite Z.abs_neq by lia. exact R.
    + apply wp_ret. rewrite Z.abs_eq by lia. exact E.
  - apply of_ref_wp; [exact Hc|]. eapply wp_mono; [apply (ref_negate_spec _ _ E)|]. intros r (R & _). exact R.
  - apply of_ref_wp; [exact Hc|]. eapply wp_mono; [apply (ref_negate_spec _ _ E)|]. intros r (R & _). exact R.
  - apply of_ref_wp; [exact Hc|]. eapply wp_mono; [apply (ref_add_spec _ _ _ _ E Em)|]. intros r (R & _). exact R.
  - apply of_ref_wp; [exact Hc|]. eapply wp_mono; [apply (ref_add_spec _ _ _ _ E E1)|]. intros r (R & _). exact R.
  - apply wp_ret. exact Ha.
  - apply of_ref_wp; [exact Hc|]. apply (ref_multiply_spec _ _ _ _ E E).
  - apply of_ref_wp; [exact Hc|]. apply (ref_multiply_spec _ _ _ _ E E).
Qed.

Lemma eqb_no op names name : ~ In op names -> In name names -> (op =? name)%string = false.
Proof. intros N H. apply String.eqb_neq. intros ->. contradiction. Qed.

Lemma mine_unary_other c lg a x op : strict c = false -> represents a x ->
  ~ In op (map fst unary_table) -> ~ takes_log op ->
  wp (mine_unary c lg a op) (fun r => represents r (x * x)).
Proof.
  intros Hc Ha N L. unfold mine_unary. eapply wp_bind_cut; [apply (bytes_wp c a x Ha)|]. intros l E. cbv beta in E.
  assert (forall name, In name (map fst unary_table) -> (op =? name)%string = false) as K by (intros; now apply (eqb_no op (map fst unary_table))).
  assert (forall name, In name ["uLog10"; "uLog"]%string -> (op =? name)%string = false) as K2.
  { intros name H. apply String.eqb_neq. intros ->. apply L. unfold takes_log. cbn [In] in H. intuition (subst; auto). }
  unfold unary_table in K. cbn [map fst] in K.
  repeat first [rewrite K by (cbn [In]; auto 15)|rewrite K2 by (cbn [In]; auto)]. cbn [orb]. apply of_ref_wp; [exact Hc|]. apply (ref_multiply_spec _ _ _ _ E E).
Qed.

Lemma mine_binary_wp c lg a b x y op f ok : strict c = false -> represents a x -> represents b y ->
  In (op, (f, ok)) binary_table -> ok y = true ->
  wp (mine_binary c lg a b op) (fun '(r, s) => represents r (f x y) /\ represents s (second_result op x y)).
Proof.
  intros Hc Ha Hb Hin Hok. unfold mine_binary.
  eapply wp_bind_cut; [apply (bytes_wp c a x Ha)|]. intros l1 E1. cbv beta in E1.
  eapply wp_bind_cut; [apply (bytes_wp c b y Hb)|]. intros l2 E2. cbv beta in E2.
  eapply wp_bind_cut; [apply (int32_wp c 0); lia|]. intros z Hz. cbv beta in Hz.
  assert (forall o v, wp o (fun r => represents r v) -> second_result op x y = 0 ->
    wp (r <- o ;; Ret (r, z)) (fun '(r, s) => represents r v /\ represents s (second_result op x y))) as Wrap.
  { intros o v W S. eapply wp_bind_cut; [exact W|]. intros r Hr. apply wp_ret. rewrite S. now split. }
  unfold binary_table in Hin. cbn [In] in Hin.
  assert (- 2 ^ 31 <= y < 2 ^ 31 -> Z.abs y < 2 ^ 34) as Rg.
  { change (2 ^ 31) with 2147483648. change (2 ^ 34) with 17179869184. lia. }
  assert (an_int y = true -> - 2 ^ 31 <= y < 2 ^ 31) as Ai.
  { unfold an_int. intros H. apply andb_true_iff in H. destruct H as [H1 H2]. apply Z.leb_le in H1. apply Z.ltb_lt in H2. now split. }
  assert (nonzero y = true -> y <> 0) as Nz.
  { unfold nonzero. intros H. apply negb_true_iff, Z.eqb_neq in H. exact H. }
  repeat (destruct Hin as [Hin|Hin]; [injection Hin as <- <- <-|]); [..|contradiction];
    cbn [String.eqb Ascii.eqb Bool.eqb orb]; try (apply Wrap; [|reflexivity]).
  - apply of_ref_wp; [exact Hc|].
    eapply wp_bind_cut; [apply (ref_negate_spec _ _ E1)|]. intros n1 (N1 & _).
    eapply wp_bind_cut; [apply (ref_negate_spec _ _ E2)|]. intros n2 (N2 & _).
    eapply wp_bind_cut; [apply (ref_max_spec _ _ _ _ N1 N2)|]. intros m M. cbv beta in M.
    eapply wp_mono; [apply (ref_negate_spec _ _ M)|]. intros r (R & _).
    replace (Z.min x y) with (- Z.max (- x) (- y)) by lia. exact R.
  - apply of_ref_wp; [exact Hc|]. apply (ref_max_spec _ _ _ _ E1 E2).
  - apply of_ref_wp; [exact Hc|].
    eapply wp_bind_cut; [apply (ref_negate_spec _ _ E2)|]. intros n (N & _).
    apply (ref_shift_left_spec c _ _ _ _ Hc E1 N). rewrite Z.abs_opp. auto.
  - apply of_ref_wp; [exact Hc|]. apply (ref_shift_left_spec c _ _ _ _ Hc E1 E2). auto.
  - apply of_ref_wp; [exact Hc|]. apply (ref_bitwise_spec _ _ _ _ _ bitop_xor E1 E2).
  - apply of_ref_wp; [exact Hc|]. apply (ref_bitwise_spec _ _ _ _ _ bitop_or E1 E2).
  - apply of_ref_wp; [exact Hc|]. apply (ref_bitwise_spec _ _ _ _ _ bitop_and E1 E2).
  - apply of_ref_wp; [exact Hc|]. apply (ref_remainder_spec _ _ _ _ E1 E2); auto.
  - apply of_ref_wp; [exact Hc|]. apply (ref_divide_spec _ _ _ _ E1 E2); auto.
  - apply of_ref_wp; [exact Hc|]. apply (ref_multiply_spec _ _ _ _ E1 E2).
  - apply of_ref_wp; [exact Hc|]. eapply wp_bind_cut; [apply (ref_negate_spec _ _ E2)|]. intros n (N & _).
    eapply wp_mono; [apply (ref_add_spec _ _ _ _ E1 N)|]. intros r (R & _). exact R.
  - apply of_ref_wp; [exact Hc|]. eapply wp_mono; [apply (ref_add_spec _ _ _ _ E1 E2)|]. intros r (R & _). exact R.
  - apply of_ref_wp; [exact Hc|]. apply (ref_gcd_spec _ _ _ _ E1 E2).
  - apply andb_true_iff in Hok. destruct Hok as [H0 Hi]. apply Z.leb_le in H0. specialize (Ai Hi).
    rewrite (to_int_wp c b y Hc Hb Ai). cbn [bind].
    eapply wp_bind_cut; [apply (int32_wp c y Ai)|]. intros b2 Hb2. cbv beta in Hb2.
    eapply wp_bind_cut; [apply (bytes_wp c b2 y Hb2)|]. intros l3 E3. cbv beta in E3.
    apply of_ref_wp; [exact Hc|]. now apply (ref_pow_spec _ _ _ _ E1 E3).
  - eapply wp_bind_cut; [apply of_ref_wp; [exact Hc|]; apply (ref_divide_spec _ _ _ _ E1 E2); auto|]. intros q Hq. cbv beta in Hq.
    eapply wp_bind_cut; [apply of_ref_wp; [exact Hc|]; apply (ref_remainder_spec _ _ _ _ E1 E2); auto|]. intros r Hr. cbv beta in Hr.
    apply wp_ret. split; [exact Hq|exact Hr].
  - apply of_ref_wp; [exact Hc|]. apply (ref_remainder_spec _ _ _ _ E1 E2); auto.
  - apply of_ref_wp; [exact Hc|]. apply (ref_divide_spec _ _ _ _ E1 E2); auto.
  - apply of_ref_wp; [exact Hc|]. apply (ref_multiply_spec _ _ _ _ E1 E2).
  - apply of_ref_wp; [exact Hc|]. eapply wp_bind_cut; [apply (ref_negate_spec _ _ E2)|]. intros n (N & _).
    eapply wp_mono; [apply (ref_add_spec _ _ _ _ E1 N)|]. intros r (R & _). exact R.
  - apply of_ref_wp; [exact Hc|]. eapply wp_mono; [apply (ref_add_spec _ _ _ _ E1 E2)|]. intros r (R & _). exact R.
Qed.

Lemma mine_binary_other c lg a b x y op : represents a x -> represents b y ->
  ~ In op (map fst binary_table) -> ~ takes_log op -> mine_binary c lg a b op = Throw InvalidArgument.
Proof.
  intros Ha Hb N L. unfold mine_binary.
  destruct (wp_inv _ _ (bytes_wp c a x Ha)) as (l1 & -> & _). cbn [bind].
  destruct (wp_inv _ _ (bytes_wp c b y Hb)) as (l2 & -> & _). cbn [bind].
  destruct (wp_inv _ _ (int32_wp c 0 ltac:(lia))) as (z & -> & _). cbn [bind].
  assert (forall name, In name (map fst binary_table) -> (op =? name)%string = false) as K by (intros; now apply (eqb_no op (map fst binary_table))).
  assert ((op =? "bLog")%string = false) as K2 by (apply String.eqb_neq; intros ->; apply L; unfold takes_log; auto).
  unfold binary_table in K. cbn [map fst] in K. rewrite K2. rewrite !K by (cbn [In]; auto 25). reflexivity.
Qed.

Lemma mine_ternary_wp c a b m x e z : strict c = false -> represents a x -> represents b e -> represents m z ->
  0 <= e -> z <> 0 -> wp (mine_ternary c a b m "tModPow") (fun r => represents r (Z.rem (x ^ e) z)).
Proof.
  intros Hc Ha Hb Hm He Hz. unfold mine_ternary.
  eapply wp_bind_cut; [apply (bytes_wp c a x Ha)|]. intros l1 E1. cbv beta in E1.
  eapply wp_bind_cut; [apply (bytes_wp c b e Hb)|]. intros l2 E2. cbv beta in E2.
  eapply wp_bind_cut; [apply (bytes_wp c m z Hm)|]. intros l3 E3. cbv beta in E3.
  cbn [String.eqb Ascii.eqb Bool.eqb]. apply of_ref_wp; [exact Hc|]. now apply ref_mod_pow_spec.
Qed.
