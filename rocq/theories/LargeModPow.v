(** mod_pow with a modulus of 32 limbs or more: exponents 0, 1 and 2, bases of
    absolute value at most 1, and the buffer overrun. *)
From Verif Require Import Facts Spec AddSubFacts SquMulFacts DivRemFacts DivCoreFacts SpecFacts BigIntFacts SpecApi ConvFacts.
From Verif Require Import CompareFacts CalcAddSub CalcSquMul CalcDivRem CalcPowMod BigInt ConvLaws ShiftFacts WordFacts PowFacts ModPowFacts ModPowApi.
From Verif Require Import SpecReduce ReducerFacts BarrettFacts.

Ltac Zify.zify_post_hook ::= idtac.

(** ** The way in *)

(** The value the power loop starts from: a base with more limbs than the
    modulus is reduced first. *)
Definition base_of (x z n : Z) : Z := if Z.abs x <? 2 ^ (32 * n) then Z.abs x else Z.abs x mod Z.abs z.

Lemma large_entry c a b m x e z n :
  represents a x -> represents b e -> represents m z -> 0 <= e -> 32 <= n -> limb_count z n ->
  exists vb, isbuf (length (bits_of m) + length (bits_of m)) vb (base_of x z n) /\
    (bb_len vb <= length (bits_of m))%nat /\
    bi_mod_pow c a b m =
      (bits <- (if is_nil (bits_of b) then powmod_core_u c e (bits_of m) vb
                else powmod_core_v c (bits_of b) (bits_of m) vb) ;;
       bi_of_mag c bits ((x <? 0) && Z.odd e)).
Proof.
  intros Ha Hb Hm He Hn Hz. unfold bi_mod_pow.
  pose proof (limb_count_length m z n Hm Hz) as Lm.
  rewrite (repr_sign_ltb a x Ha), (even_guard c b e _ Hb). cbn [bind]. rewrite Bool.negb_involutive.
  destruct (exp_parts b e Hb He) as (-> & Eb).
  rewrite (assert_valid_ok c a x Ha), (assert_valid_ok c b e Hb), (assert_valid_ok c m z Hm). cbn [bind].
  destruct (val_parts m z Hm) as [(M1 & M2 & M3)|(M1 & M2 & M3 & M4 & M5)]; [rewrite M1 in Lm; cbn [length] in Lm; lia|].
  rewrite (is_nil_ne _ M1). set (L := length (bits_of m)) in *.
  assert (Bp L = 2 ^ (32 * n)) as EB by (rewrite Bp_pow2; f_equal; lia).
  pose proof (val_bound _ M2) as MH. fold L in MH.
  assert (forall k, e < 2 ^ 31 -> (e0 <- abs32 c e ;; k e0) = (k e : outcome (list Z))) as EA.
  { intros k H. rewrite abs32_ok by (num; lia). cbn [bind]. now rewrite Z.abs_eq by lia. }
  destruct (val_parts a x Ha) as [(A1 & A2 & A3)|(A1 & A2 & A3 & A4 & A5)].
  - rewrite A1, A2. cbn [is_nil]. rewrite abs32_ok by exact A3. cbn [bind].
    pose proof (buf_of_u_spec (L + L) (Z.abs x) ltac:(num; lia) ltac:(lia)) as W.
    apply wp_inv in W. destruct W as (vb & E & I & K). exists vb. unfold base_of.
    assert (Z.abs x < 2 ^ (32 * n)) as S.
    { rewrite <- EB. pose proof (Bp_le 1 L ltac:(lia)) as B1. rewrite Bp_1 in B1. num; lia. }
    rewrite (proj2 (Z.ltb_lt _ _) S). split; [exact I|]. split; [lia|].
    destruct Eb as [(E1 & E2 & E3)|(E1 & E2 & E3)].
    + rewrite E1, E2. cbn [is_nil]. rewrite EA by exact E3. unfold calc_powmod_uuv. fold L. rewrite E. reflexivity.
    + rewrite (is_nil_ne _ E1). unfold calc_powmod_uvv. fold L. rewrite E. reflexivity.
  - rewrite (is_nil_ne _ A1).
    pose proof (val_bound _ A2) as AH. rewrite A4 in AH.
    assert (wp (powmod_buf c (bits_of a) (bits_of m)) (fun vb => isbuf (L + L) vb (base_of x z n) /\ (bb_len vb <= L)%nat)) as W.
    { unfold powmod_buf, base_of. rewrite <- EB. fold L. pose proof (Bp_le L (L + L) ltac:(lia)) as BL.
      destruct (Nat.ltb_spec L (length (bits_of a))) as [G|G].
      - pose proof (top_nz_bound _ A2 A1 A3) as TA. rewrite A4 in TA.
        pose proof (Bp_le L (length (bits_of a) - 1) ltac:(lia)).
        rewrite (proj2 (Z.ltb_ge _ _)) by lia. wstep.
        eapply wp_mono; [apply calc_rem_spec; auto; fold L; lia|]. intros r (R1 & R2 & R3). rewrite A4, M4 in R3.
        pose proof (Z.mod_pos_bound (Z.abs x) (Z.abs z) ltac:(lia)) as MB.
        eapply wp_mono; [apply buf_of_v_spec; [exact R2|lia]|]. intros vb Hvb. rewrite R3 in Hvb.
        split; [exact Hvb|]. eapply isbuf_len; [exact Hvb|lia].
      - pose proof (Bp_le (length (bits_of a)) L G). rewrite (proj2 (Z.ltb_lt _ _)) by lia.
        eapply wp_mono; [apply buf_of_v_spec; [exact A2|lia]|]. intros vb Hvb. rewrite A4 in Hvb.
        split; [exact Hvb|]. eapply isbuf_len; [exact Hvb|lia]. }
    apply wp_inv in W. destruct W as (vb & E & I & K). exists vb. split; [exact I|]. split; [exact K|].
    destruct Eb as [(E1 & E2 & E3)|(E1 & E2 & E3)].
    + rewrite E1, E2. cbn [is_nil]. rewrite EA by exact E3. unfold calc_powmod_vuv. rewrite E. reflexivity.
    + rewrite (is_nil_ne _ E1). unfold calc_powmod_vvv. rewrite E. reflexivity.
Qed.

(** ** The loops, exponent by exponent *)

Lemma isbuf_exact sz b v : isbuf sz b v -> exact_len (vl (bb_bits b) (bb_len b)) (bb_len b) /\ vl (bb_bits b) (bb_len b) = v.
Proof.
  intros H. destruct (isbuf_prefix _ _ _ H) as (_ & _ & P & _). fold (vl (bb_bits b) (bb_len b)) in P. rewrite P.
  destruct H as [_ _ _ _ Hi Lo]. split; [split; [lia|exact Lo]|reflexivity].
Qed.

Section Loop.
Variables (c : cfg) (m : list Z).
Hypothesis Hm : limbs m.
Hypothesis Hne : m <> [].
Hypothesis Ht : top_nz m.
Let n := length m.
Let size := (n + n)%nat.
Hypothesis Hn : (32 <= n)%nat.

Lemma unit_bufs : wp (temp <- buf_of_u size 0 ;; result <- buf_of_u size 1 ;; Ret (temp, result))
  (fun st => bb_bits (fst st) = zeros size /\ isbuf size (snd st) 1 /\ (bb_len (snd st) <= 1)%nat).
Proof.
  wstep. eapply wp_mono; [apply buf_of_u_spec; [num; lia|unfold size; lia]|]. intros temp (T & _).
  wstep. eapply wp_mono; [apply buf_of_u_spec; [num; lia|unfold size; lia]|]. intros result (Rs & RL).
  wstep. cbn [fst snd]. split; [|auto]. pose proof T as [TS TL TV _ _ _]. rewrite (val_zero_zeros _ TL TV). now rewrite TS.
Qed.

Lemma reduce_ok R v len :
  reducer_good m R -> limbs v -> (len <= length v)%nat -> (len <= n + n)%nat -> exact_len (vl v len) len ->
  (len < n + n)%nat \/ Bp (n - 1) < val m ->
  wp (reducer_reduce c R v len) (fun st => exact_len (vl v len mod val m) (fst st) /\ reducer_good m (snd st)).
Proof.
  intros HG L N N2 E D. pose proof HG as [OK _].
  assert (len - (n - 1) + fr_mulen R <= n * 2 + 2)%nat as Hq.
  { destruct D as [D|D].
    - destruct OK as [_ _ _ [_ R5] _ _ _]. fold n in R5. lia.
    - pose proof (mulen_short m ltac:(fold n; lia) R HG D) as K. fold n in K. lia. }
  pose proof (reduce_exact c m Hm Hne Ht ltac:(fold n; lia) R v len OK Hq L N N2 E) as W.
  destruct (reducer_reduce c R v len) as [(k, R')| | | |] eqn:Er; try contradiction.
  split; [exact W|]. cbn [snd]. exact (reduce_good c m ltac:(fold n; lia) R v len k R' HG Er).
Qed.

(** Multiplying a clean buffer by the low limbs of a buffer that the reducer
    has shortened. *)
Lemma mul_dirty this bits k temp x :
  isbuf size this x -> limbs bits -> length bits = size -> (k <= size)%nat -> bb_bits temp = zeros size ->
  (bb_len this + k <= size)%nat ->
  wp (buf_mul_self c this (Buf bits k) temp)
     (fun r => isbuf size (fst r) (x * vl bits k) /\ bb_bits (snd r) = zeros size /\
               (bb_len (fst r) <= bb_len this + k)%nat).
Proof.
  intros Hx Hl Hs Hk Htm Hsz. unfold buf_mul_self. cbn [bb_bits bb_len].
  destruct (isbuf_prefix _ _ _ Hx) as (X1 & X2 & X3 & _). pose proof Hx as [Sx _ _ Nx Bx _].
  assert (limbs (firstn k bits)) as Y1 by now apply limbs_firstn.
  assert (length (firstn k bits) = k) as Y2 by (rewrite firstn_length; lia).
  wstep. wstep; [lia|]. wstep. wstep; [lia|]. cbn [skipn]. rewrite Htm.
  wstep. apply slice_zeros; [lia|]. wstep.
  eapply wp_mono with (P := fun r => length r = (bb_len this + k)%nat /\ limbs r /\ val r = x * vl bits k).
  { unfold vl. set (p := firstn (bb_len this) (bb_bits this)) in *. set (q := firstn k bits) in *.
    clearbody p q. rewrite <- X2, <- Y2.
    destruct (Nat.ltb_spec (length p) (length q)) as [G|G].
    - eapply wp_mono; [rewrite Nat.add_comm; apply calc_mul_core_spec; auto; lia|].
      intros r (A & B & C). split; [lia|]. split; [exact B|]. rewrite C, X3. ring.
    - eapply wp_mono; [apply calc_mul_core_spec; auto; lia|].
      intros r (A & B & C). split; [lia|]. split; [exact B|]. rewrite C, X3. ring. }
  intros t (T1 & T2 & T3). wstep. wstep; [rewrite length_zeros; lia|]. cbn [firstn app].
  rewrite skipn_zeros, T1. cbn [Nat.add].
  eapply buf_apply_spec; cbn [bb_bits]; eauto.
  - rewrite app_length, length_zeros. lia.
  - apply limbs_app. split; [exact T2|apply limbs_zeros].
  - rewrite pad_val. exact T3.
  - apply prod_fit; [lia|]. now apply vl_bound.
Qed.

Lemma core_zero vb v : isbuf size vb v -> wp (powmod_core_u c 0 m vb) (fun l => limbs l /\ val l = 1).
Proof.
  intros [S _ _ _ _ _]. unfold powmod_core_u. rewrite S.
  wstep. eapply wp_mono; [apply buf_of_u_spec; [num; lia|unfold size; lia]|]. intros temp (T & _).
  wstep. eapply wp_mono; [apply buf_of_u_spec; [num; lia|unfold size; lia]|]. intros result ([RS RL RV _ _ _] & _).
  fold n. rewrite (proj2 (Nat.ltb_ge n ReducerThreshold)) by (unfold ReducerThreshold; lia).
  wstep. wstep. eapply wp_mono; [apply reducer_make_good; auto; fold n; lia|]. intros R HR.
  unfold bit_fuel. cbn [powred_loop]. change (0 =? 0) with true. cbn beta iota. wstep. wstep. auto.
Qed.

Lemma core_one vb v : isbuf size vb v -> (bb_len vb <= n)%nat ->
  wp (powmod_core_u c 1 m vb) (fun l => limbs l /\ val l = v).
Proof.
  intros Hv Hl. pose proof Hv as [S _ _ _ _ _]. unfold powmod_core_u. rewrite S.
  wstep. eapply wp_mono; [apply buf_of_u_spec; [num; lia|unfold size; lia]|]. intros temp (T & _).
  wstep. eapply wp_mono; [apply buf_of_u_spec; [num; lia|unfold size; lia]|]. intros result (Rs & RL).
  fold n. rewrite (proj2 (Nat.ltb_ge n ReducerThreshold)) by (unfold ReducerThreshold; lia).
  wstep. eapply wp_mono; [eapply (powred_one c m vb result temp size v); auto; fold n; try lia|].
  { pose proof T as [TS TL TV _ _ _]. rewrite (val_zero_zeros _ TL TV). now rewrite TS. }
  intros b B. wstep. exact B.
Qed.

(** Exponent 2: the square is cut to the length of its remainder. *)
Lemma core_two vb v : isbuf size vb v -> (bb_len vb <= n)%nat ->
  v * v < Bp (n + n - 1) \/ Bp (n - 1) < val m ->
  wp (powmod_core_u c 2 m vb)
     (fun l => limbs l /\ exists k, exact_len ((v * v) mod val m) k /\ val l = (v * v) mod Bp k).
Proof.
  intros Hv Hl D. pose proof Hv as [S _ _ _ _ _]. unfold powmod_core_u. rewrite S.
  wstep. eapply wp_mono; [apply buf_of_u_spec; [num; lia|unfold size; lia]|]. intros temp (T & _).
  wstep. eapply wp_mono; [apply buf_of_u_spec; [num; lia|unfold size; lia]|]. intros result (Rs & RL).
  fold n. rewrite (proj2 (Nat.ltb_ge n ReducerThreshold)) by (unfold ReducerThreshold; lia).
  assert (bb_bits temp = zeros size) as Zt.
  { pose proof T as [TS TL TV _ _ _]. rewrite (val_zero_zeros _ TL TV). now rewrite TS. }
  pose proof (m_lo m Hm Hne Ht) as ML. pose proof (m_hi m Hm) as MH. fold n in ML, MH. pose proof (Bp_pos (n - 1)) as BP.
  wstep. wstep. eapply wp_mono; [apply reducer_make_good; auto; fold n; lia|]. intros R HR.
  unfold bit_fuel. cbn [powred_loop]. change (2 =? 0) with false. change (Z.land 2 1 =? 1) with false.
  change (negb (2 =? 1)) with true. change (Z.shiftr 2 1) with 1.
  change (1 =? 0) with false. change (Z.land 1 1 =? 1) with true.
  change (negb (1 =? 1)) with false. change (Z.shiftr 1 1 =? 0) with true. cbn beta iota.
  cbn [bind].
  wstep. wstep. eapply wp_mono; [apply buf_square_self_spec; eauto; unfold size; lia|].
  intros (v1, t1) (A & B & C). cbn [fst snd] in A, B, C.
  destruct (isbuf_exact _ _ _ A) as (E1 & E2). pose proof A as [AS AL AV AN AH ALo].
  unfold buf_reduce_fast at 1. wstep. wstep.
  assert (bb_len v1 <= n + n)%nat as N2 by (unfold size in *; lia).
  eapply wp_mono; [apply (reduce_ok R (bb_bits v1) (bb_len v1) HR AL ltac:(lia) N2 E1)|].
  { destruct D as [D|D]; [|now right]. left. rewrite E2 in E1.
    pose proof (exact_len_le _ _ (n + n - 1) E1 D). lia. }
  intros (k, R2) (K & G2). cbn [fst snd] in K, G2. rewrite E2 in K. wstep. wstep.
  assert (k <= n)%nat as Kn.
  { eapply exact_len_le; [exact K|]. pose proof (Z.mod_pos_bound (v * v) (val m) ltac:(lia)). lia. }
  wstep. wstep. eapply wp_mono; [apply (mul_dirty result (bb_bits v1) k t1 1); auto; unfold size; lia|].
  intros (r3, t3) (A3 & B3 & C3). cbn [fst snd] in A3, B3, C3. rewrite Z.mul_1_l in A3.
  destruct (isbuf_exact _ _ _ A3) as (E31 & E32). pose proof A3 as [AS3 AL3 AV3 AN3 AH3 ALo3].
  unfold buf_reduce_fast at 1. wstep. wstep.
  eapply wp_mono; [apply (reduce_ok R2 (bb_bits r3) (bb_len r3) G2 AL3 ltac:(lia) ltac:(unfold size in *; lia) E31)|].
  { left. lia. }
  intros (k3, R3) _. repeat wstep. cbn [bb_bits].
  split; [exact AL3|]. exists k. split; [exact K|]. rewrite AV3.
  rewrite (vl_mod (bb_bits v1) k (length (bb_bits v1)) AL) by lia. rewrite vl_all, AV. reflexivity.
Qed.
End Loop.

(** ** Overrun *)

Lemma for_up_undef {A} n start (body : nat -> A -> outcome A) (s : A) u :
  body start s = Undef u -> for_up (S n) start body s = Undef u.
Proof. intros H. cbn [for_up]. now rewrite H. Qed.

Section Overrun.
Variables (c : cfg) (m : list Z).
Hypothesis Hm : limbs m.
Hypothesis Hne : m <> [].
Hypothesis Ht : top_nz m.
Let n := length m.
Let size := (n + n)%nat.
Hypothesis Hn : (32 <= n)%nat.
Hypothesis Hpow : val m = Bp (n - 1).

Lemma square_overrun R value temp v :
  reducer_good m R -> isbuf size value v -> (bb_len value <= n)%nat -> bb_bits temp = zeros size ->
  Bp (n + n - 1) <= v * v ->
  ('(value, temp) <- buf_square_self c value temp ;; '(value, red) <- buf_reduce_fast c value R ;; Ret (value, temp, red))
    = Undef OutOfBounds.
Proof.
  intros HG Hv Hl Htm Hb.
  pose proof (buf_square_self_spec c size value temp v Hv Htm ltac:(unfold size; lia)) as W. apply wp_inv in W.
  destruct W as ((v1, t1) & -> & A & _ & C). cbn [fst snd bind] in *. unfold buf_reduce_fast.
  destruct A as [AS AL AV AN AH ALo].
  rewrite (reduce_overrun c m); auto; try (fold n; unfold size in *; lia).
  fold n. assert (~ (bb_len v1 <= n + n - 1)%nat) as K; [|unfold size in *; lia].
  intros K. pose proof (Bp_le _ _ K). lia.
Qed.

Lemma cond_mul (odd : bool) R result value temp r v :
  reducer_good m R -> isbuf size result r -> (bb_len result <= 1)%nat -> isbuf size value v -> (bb_len value <= n)%nat ->
  bb_bits temp = zeros size ->
  wp (if odd then
        '(result, temp) <- buf_mul_self c result value temp ;;
        '(result, red) <- buf_reduce_fast c result R ;; Ret (result, temp, red)
      else Ret (result, temp, R))
     (fun st => bb_bits (snd (fst st)) = zeros size /\ reducer_good m (snd st)).
Proof.
  intros HG Hr Hrl Hv Hl Htm. destruct odd; [|wstep; cbn [fst snd]; auto].
  wstep. eapply wp_mono; [apply buf_mul_self_spec; eauto; unfold size; lia|].
  intros (r1, t1) (A & B & C). cbn [fst snd] in A, B, C. pose proof A as [AS AL AV AN AH ALo].
  destruct (isbuf_exact _ _ _ A) as (E1 & _).
  unfold buf_reduce_fast. wstep. wstep.
  eapply wp_mono; [apply (reduce_ok c m Hm Hne Ht Hn R (bb_bits r1) (bb_len r1)); auto; try (fold n; lia); try lia|].
  intros (k, R2) (K & G2). repeat wstep. cbn [fst snd] in *. auto.
Qed.

Lemma loop_overrun fuel p R value result temp r v :
  2 <= p -> reducer_good m R -> isbuf size result r -> (bb_len result <= 1)%nat ->
  isbuf size value v -> (bb_len value <= n)%nat -> bb_bits temp = zeros size -> Bp (n + n - 1) <= v * v ->
  powred_loop (S fuel) c p R value result temp = Undef OutOfBounds.
Proof.
  intros Hp HG Hr Hrl Hv Hl Htm Hb. cbn [powred_loop].
  rewrite (proj2 (Z.eqb_neq p 0)) by lia. rewrite (proj2 (Z.eqb_neq p 1)) by lia. cbn [negb].
  pose proof (cond_mul (Z.land p 1 =? 1) R result value temp r v HG Hr Hrl Hv Hl Htm) as W. apply wp_inv in W.
  destruct W as (((r1, t1), R1) & -> & T1 & G1). cbn [fst snd bind] in *.
  rewrite (square_overrun R1 value t1 v) by assumption. reflexivity.
Qed.

Lemma v_loop_overrun power R value result temp r v :
  power <> [] -> reducer_good m R -> isbuf size result r -> (bb_len result <= 1)%nat ->
  isbuf size value v -> (bb_len value <= n)%nat -> bb_bits temp = zeros size -> Bp (n + n - 1) <= v * v ->
  powred_v_loop c power R value result temp = Undef OutOfBounds.
Proof.
  intros Hp HG Hr Hrl Hv Hl Htm Hb. destruct power as [|p power]; [congruence|]. unfold powred_v_loop.
  pose proof (cond_mul (Z.land p 1 =? 1) R result value temp r v HG Hr Hrl Hv Hl Htm) as W. apply wp_inv in W.
  destruct W as (((r1, t1), R1) & E & T1 & G1). cbn [fst snd] in *.
  pose proof (square_overrun R1 value t1 v G1 Hv Hl T1 Hb) as SQ.
  assert (powred_v_step c (p, R, value, result, temp) = Undef OutOfBounds) as ST.
  { unfold powred_v_step. rewrite E. cbn [bind].
    destruct (buf_square_self c value t1) as [(v1, t2)| | | |]; cbn [bind] in *; try discriminate; try (injection SQ as ->; reflexivity).
    destruct (buf_reduce_fast c v1 R1) as [(v2, R2)| | | |]; cbn [bind] in *; try discriminate; injection SQ as ->; reflexivity. }
  cbn [length]. rewrite (for_up_undef _ _ _ _ OutOfBounds); [reflexivity|]. cbn beta iota.
  change (rd (p :: power) 0) with (Ret p). cbn [bind].
  rewrite (for_up_undef _ _ _ _ OutOfBounds); [reflexivity|]. cbn beta. exact ST.
Qed.
End Overrun.

(** ** Bases of absolute value at most 1 *)

Section Unit.
Variables (c : cfg) (R : reducer) (n size : nat).
Hypothesis Hn : length (fr_modulus R) = n.
Hypothesis H1 : (2 <= n)%nat.
Hypothesis Hs : size = (n + n)%nat.

Lemma unit_lt u : 0 <= u <= 1 -> u < Bp (n - 1).
Proof. intros H. pose proof (Bp_le 1 (n - 1) ltac:(lia)) as K. rewrite Bp_1 in K. num; lia. Qed.

Lemma unit_step p value result temp v r :
  0 <= v <= 1 -> 0 <= r <= 1 -> isbuf size value v -> isbuf size result r -> bb_bits temp = zeros size ->
  wp (powred_v_step c (p, R, value, result, temp)) (fun st =>
    let '(p', R', value', result', temp') := st in
    p' = Z.shiftr p 1 /\ R' = R /\ isbuf size value' v /\
    isbuf size result' (r * (if Z.land p 1 =? 1 then v else 1)) /\ bb_bits temp' = zeros size).
Proof.
  intros Bv Br Hv Hr Htm. unfold powred_v_step.
  assert (0 <= r * (if Z.land p 1 =? 1 then v else 1) <= 1) as M.
  { destruct (Z.land p 1 =? 1); assert (r = 0 \/ r = 1) as [->| ->] by lia; lia. }
  wstep. eapply wp_mono; [apply (short_mul c R n size Hn ltac:(lia) Hs (Z.land p 1 =? 1) result value temp r v); auto; now apply unit_lt|].
  intros ((r1, t1), R1) (A & B & ER). cbn [fst snd] in A, B, ER. subst R1.
  assert (v * v = v) as EV by (assert (v = 0 \/ v = 1) as [->| ->] by lia; reflexivity).
  pose proof (short_square c R n size Hn ltac:(lia) Hs value t1 v Hv B ltac:(lia) ltac:(rewrite EV; now apply unit_lt)) as W.
  rewrite EV in W. cbn beta iota.
  destruct (buf_square_self c value t1) as [(v1, t2)| | | |]; cbn [bind] in W |- *; try contradiction.
  destruct (buf_reduce_fast c v1 R) as [(v2, R2)| | | |]; cbn [bind] in W |- *; try contradiction.
  destruct W as (W1 & W2 & W3). cbn [fst snd] in *. wstep. auto 10.
Qed.

Lemma unit_v_loop power value result temp v :
  0 <= v <= 1 -> limbs power -> power <> [] -> top_nz power ->
  isbuf size value v -> isbuf size result 1 -> bb_bits temp = zeros size ->
  wp (powred_v_loop c power R value result temp) (fun b => isbuf size b v).
Proof.
  intros Bv Hp Hne Ht Hv Hr Htm. unfold powred_v_loop. wstep.
  set (I := fun (_ : nat) (st : reducer * bitsbuf * bitsbuf * bitsbuf) =>
    let '(R', value', result', temp') := st in
    R' = R /\ isbuf size value' v /\ (exists r, 0 <= r <= 1 /\ (v = 1 -> r = 1) /\ isbuf size result' r) /\
    bb_bits temp' = zeros size).
  eapply wp_for_up with (I := I).
  - unfold I. split; [reflexivity|]. split; [exact Hv|]. split; [|exact Htm]. exists 1. split; [lia|auto].
  - intros i (((R', value'), result'), temp') Hi (-> & Hv' & (r & Br & Er & Hr') & Htm'). wstep. wstep; [lia|].
    set (p := nth i power 0). wstep.
    set (J := fun (_ : nat) (st : Z * reducer * bitsbuf * bitsbuf * bitsbuf) =>
      let '(_, R', value', result', temp') := st in
      R' = R /\ isbuf size value' v /\ (exists r, 0 <= r <= 1 /\ (v = 1 -> r = 1) /\ isbuf size result' r) /\
      bb_bits temp' = zeros size).
    eapply wp_for_up with (I := J).
    + unfold J. split; [reflexivity|]. split; [exact Hv'|]. split; [|exact Htm']. exists r. auto.
    + intros j ((((q, R2), v2), r2), t2) Hj (-> & Hv2 & (s & Bs & Es & Hr2) & Ht2).
      eapply wp_mono; [apply (unit_step q v2 r2 t2 v s); auto|].
      intros ((((q', R3), v3), r3), t3) (_ & -> & A & B & C). unfold J. split; [reflexivity|]. split; [exact A|]. split; [|exact C].
      eexists. split; [|split; [|exact B]].
      * destruct (Z.land q 1 =? 1); assert (s = 0 \/ s = 1) as [->| ->] by lia; lia.
      * intros V1. rewrite (Es V1). destruct (Z.land q 1 =? 1); lia.
    + intros ((((q', R3), v3), r3), t3) HJ. wstep. exact HJ.
  - intros (((R', value'), result'), temp') (-> & Hv' & (r & Br & Er & Hr') & Htm'). wstep.
    assert (0 < length power)%nat as LP by (destruct power; [congruence|cbn [length]; lia]).
    wstep; [lia|]. replace (Z.to_nat (Z.of_nat (length power) - 1)) with (length power - 1)%nat by lia.
    unfold top_nz in Ht. pose proof (limbs_nth power (length power - 1) Hp) as LT. unfold limb in LT.
    set (p := nth (length power - 1) power 0) in *.
    assert (0 <= p < 2 ^ Z.of_nat bit_fuel) as PB by (change (Z.of_nat bit_fuel) with 33; num; lia).
    eapply wp_mono; [apply (powred_short c R n size Hn ltac:(lia) Hs bit_fuel p value' result' temp' v r 1 1 PB); auto; try lia|].
    + apply unit_lt. lia.
    + rewrite Z.pow_1_l by lia. apply unit_lt. lia.
    + intros b Hb. replace (r * v ^ p) with v in Hb; [exact Hb|].
      assert (v = 0 \/ v = 1) as [->| ->] by lia; [rewrite Z.pow_0_l by lia; ring|].
      rewrite Er, Z.pow_1_l by lia. reflexivity.
Qed.
End Unit.

(** ** The API *)

Lemma large_modulus m z n : represents m z -> 32 <= n -> limb_count z n ->
  bits_of m <> [] /\ limbs (bits_of m) /\ top_nz (bits_of m) /\ val (bits_of m) = Z.abs z /\
  Z.of_nat (length (bits_of m)) = n /\ Bp (length (bits_of m) - 1) = 2 ^ (32 * (n - 1)).
Proof.
  intros Hm Hn Hz. pose proof (limb_count_length m z n Hm Hz) as Lm.
  destruct (val_parts m z Hm) as [(M1 & M2 & M3)|(M1 & M2 & M3 & M4 & M5)]; [rewrite M1 in Lm; cbn [length] in Lm; lia|].
  repeat (split; [assumption|]). split; [lia|]. rewrite Bp_pow2. f_equal. lia.
Qed.

Lemma small_exponent b e : represents b e -> 0 <= e < 2 ^ 31 -> bits_of b = [].
Proof.
  intros Hb He. destruct (val_parts b e Hb) as [(E & _)|(_ & _ & _ & _ & E)]; [exact E|lia].
Qed.

Lemma mod_pow_large_0 c a b m x z n :
  represents a x -> represents b 0 -> represents m z -> 32 <= n -> limb_count z n ->
  returns (bi_mod_pow c a b m) 1.
Proof.
  intros Ha Hb Hm Hn Hz. destruct (large_modulus m z n Hm Hn Hz) as (M1 & M2 & M3 & M4 & M5 & M6).
  destruct (large_entry c a b m x 0 z n Ha Hb Hm ltac:(lia) Hn Hz) as (vb & V1 & V2 & ->).
  rewrite (small_exponent b 0 Hb ltac:(lia)). cbn [is_nil]. apply returns_wp. wstep.
  eapply wp_mono; [apply (core_zero c (bits_of m) M2 M1 M3 ltac:(lia) vb _ V1)|]. intros l (L1 & L2).
  apply mag_result; [exact L1|]. rewrite Bool.andb_false_r. lia.
Qed.

Lemma mod_pow_large_1 c a b m x z n :
  represents a x -> represents b 1 -> represents m z -> 32 <= n -> limb_count z n ->
  returns (bi_mod_pow c a b m) (Z.sgn x * base_of x z n).
Proof.
  intros Ha Hb Hm Hn Hz. destruct (large_modulus m z n Hm Hn Hz) as (M1 & M2 & M3 & M4 & M5 & M6).
  destruct (large_entry c a b m x 1 z n Ha Hb Hm ltac:(lia) Hn Hz) as (vb & V1 & V2 & ->).
  rewrite (small_exponent b 1 Hb ltac:(lia)). cbn [is_nil]. apply returns_wp. wstep.
  eapply wp_mono; [apply (core_one c (bits_of m) M2 M1 M3 ltac:(lia) vb _ V1 V2)|]. intros l (L1 & L2).
  apply mag_result; [exact L1|]. rewrite L2. change (Z.odd 1) with true. rewrite Bool.andb_true_r.
  destruct (Z.ltb_spec x 0) as [G|G]; [rewrite Z.sgn_neg by lia; lia|].
  destruct (Z.eq_dec x 0) as [->|N]; [|rewrite Z.sgn_pos by lia; lia].
  unfold base_of. change (Z.abs 0) with 0. rewrite (proj2 (Z.ltb_lt _ _)); [reflexivity|]. apply Z.pow_pos_nonneg; lia.
Qed.

Lemma mod_pow_large_2 c a b m x z n k :
  represents a x -> represents b 2 -> represents m z -> 32 <= n -> limb_count z n ->
  let v := base_of x z n in
  v * v < 2 ^ (32 * (2 * n - 1)) \/ Z.abs z <> 2 ^ (32 * (n - 1)) ->
  exact_length ((v * v) mod Z.abs z) k ->
  returns (bi_mod_pow c a b m) ((v * v) mod 2 ^ (32 * Z.of_nat k)).
Proof.
  intros Ha Hb Hm Hn Hz v D K. destruct (large_modulus m z n Hm Hn Hz) as (M1 & M2 & M3 & M4 & M5 & M6).
  destruct (large_entry c a b m x 2 z n Ha Hb Hm ltac:(lia) Hn Hz) as (vb & V1 & V2 & ->). fold v in V1.
  rewrite (small_exponent b 2 Hb ltac:(lia)). cbn [is_nil]. apply returns_wp. wstep.
  pose proof (m_lo _ M2 M1 M3) as ML.
  assert (Bp (length (bits_of m) + length (bits_of m) - 1) = 2 ^ (32 * (2 * n - 1))) as EB by (rewrite Bp_pow2; f_equal; lia).
  eapply wp_mono; [apply (core_two c (bits_of m) M2 M1 M3 ltac:(lia) vb v V1 V2); rewrite EB, M6, M4 in *; lia|].
  intros l (L1 & j & J & L2). rewrite M4 in J. apply exact_len_spec in K. rewrite (exact_len_unique _ _ _ J K) in L2.
  apply mag_result; [exact L1|]. change (Z.odd 2) with false. rewrite Bool.andb_false_r, L2, Bp_pow2. reflexivity.
Qed.

Lemma mod_pow_large_unit c a b m x e z n :
  represents a x -> represents b e -> represents m z -> 32 <= n -> limb_count z n -> 0 <= e -> Z.abs x <= 1 ->
  returns (bi_mod_pow c a b m) (Z.rem (x ^ e) z).
Proof.
  intros Ha Hb Hm Hn Hz He Hx. destruct (large_modulus m z n Hm Hn Hz) as (M1 & M2 & M3 & M4 & M5 & M6).
  destruct (large_entry c a b m x e z n Ha Hb Hm He Hn Hz) as (vb & V1 & V2 & ->).
  assert (1 < 2 ^ (32 * (n - 1))) as P1 by (apply Z.pow_gt_1; lia).
  assert (2 ^ (32 * (n - 1)) <= 2 ^ (32 * n)) as P2 by (apply Z.pow_le_mono_r; lia).
  unfold base_of in V1. rewrite (proj2 (Z.ltb_lt _ _)) in V1 by lia. set (v := Z.abs x) in *.
  assert (0 <= v <= 1) as Bv by (unfold v in *; lia).
  pose proof (m_lo _ M2 M1 M3) as ML. rewrite M6, M4 in ML.
  assert (0 <= v ^ e <= 1) as BE.
  { assert (v = 0 \/ v = 1) as [->| ->] by lia; [|rewrite Z.pow_1_l by lia; lia].
    destruct (Z.eq_dec e 0) as [->|]; [rewrite Z.pow_0_r; lia|rewrite Z.pow_0_l by lia; lia]. }
  apply returns_wp. wstep.
  eapply wp_mono with (P := fun l => limbs l /\ val l = v ^ e).
  { destruct (exp_parts b e Hb He) as (_ & [(E1 & E2 & E3)|(E1 & E2 & E3)]).
    - rewrite E1. cbn [is_nil]. apply powmod_core_u_short; auto; try lia; rewrite M6; lia.
    - rewrite (is_nil_ne _ E1). unfold powmod_core_v. pose proof V1 as [S _ _ _ _ _]. rewrite S.
      wstep. eapply wp_mono; [apply buf_of_u_spec; [num; lia|lia]|]. intros temp (T & _).
      wstep. eapply wp_mono; [apply buf_of_u_spec; [num; lia|lia]|]. intros result (Rs & RL).
      rewrite (proj2 (Nat.ltb_ge (length (bits_of m)) ReducerThreshold)) by (unfold ReducerThreshold; lia).
      wstep. wstep. eapply wp_mono; [apply reducer_make_spec; auto; lia|]. intros R HR. destruct HR as [RM _ _ _ _ _ _].
      destruct (val_parts b e Hb) as [(K & _)|(_ & _ & K & _ & K2)]; [congruence|].
      eapply wp_mono; [apply (unit_v_loop c R (length (bits_of m)) _ ltac:(congruence) ltac:(lia) eq_refl (bits_of b) vb result temp v); auto|].
      + pose proof T as [TS TL TV _ _ _]. rewrite (val_zero_zeros _ TL TV). now rewrite TS.
      + intros l [LS LL LV _ _ _]. wstep. split; [exact LL|]. rewrite LV.
        assert (v = 0 \/ v = 1) as [->| ->] by lia; [rewrite Z.pow_0_l by lia|rewrite Z.pow_1_l by lia]; reflexivity. }
  intros l (L1 & L2). apply mag_result; [exact L1|]. rewrite rem_pow by lia. rewrite L2. fold v.
  rewrite Z.mod_small by lia. reflexivity.
Qed.

Lemma mod_pow_overrun c a b m x e z n :
  represents a x -> represents b e -> represents m z -> 32 <= n -> Z.abs z = 2 ^ (32 * (n - 1)) -> 2 <= e ->
  Z.abs x < 2 ^ (32 * n) -> 2 ^ (32 * (2 * n - 1)) <= x * x ->
  bi_mod_pow c a b m = Undef OutOfBounds.
Proof.
  intros Ha Hb Hm Hn Ez He Hx Hxx.
  assert (limb_count z n) as Hz.
  { split; [lia|]. unfold fits_limbs. rewrite Ez. split; [apply Z.pow_lt_mono_r; lia|]. intros j J1 J2.
    apply Z.pow_lt_mono_r_iff in J2; lia. }
  destruct (large_modulus m z n Hm Hn Hz) as (M1 & M2 & M3 & M4 & M5 & M6).
  destruct (large_entry c a b m x e z n Ha Hb Hm ltac:(lia) Hn Hz) as (vb & V1 & V2 & ->).
  unfold base_of in V1. rewrite (proj2 (Z.ltb_lt _ _)) in V1 by lia.
  rewrite <- Z.abs_square in Hxx. set (v := Z.abs x) in *.
  assert (Bp (length (bits_of m) + length (bits_of m) - 1) = 2 ^ (32 * (2 * n - 1))) as EB by (rewrite Bp_pow2; f_equal; lia).
  rewrite <- EB in Hxx. assert (val (bits_of m) = Bp (length (bits_of m) - 1)) as PB by congruence.
  set (L := length (bits_of m)) in *.
  pose proof (buf_of_u_spec (L + L) 0 ltac:(num; lia) ltac:(lia)) as W. apply wp_inv in W. destruct W as (temp & T1 & T2 & _).
  pose proof (buf_of_u_spec (L + L) 1 ltac:(num; lia) ltac:(lia)) as W. apply wp_inv in W. destruct W as (result & R1 & R2 & R3).
  pose proof (reducer_make_good c (bits_of m) M2 M1 M3 ltac:(fold L; lia)) as W. apply wp_inv in W. destruct W as (R & G1 & G2).
  assert (bb_bits temp = zeros (L + L)) as Zt.
  { pose proof T2 as [TS TL TV _ _ _]. rewrite (val_zero_zeros _ TL TV). now rewrite TS. }
  pose proof V1 as [S _ _ _ _ _].
  destruct (exp_parts b e Hb ltac:(lia)) as (_ & [(E1 & E2 & E3)|(E1 & E2 & E3)]).
  - rewrite E1. cbn [is_nil]. unfold powmod_core_u. rewrite S, T1, R1. cbn [bind]. fold L.
    rewrite (proj2 (Nat.ltb_ge L ReducerThreshold)) by (unfold ReducerThreshold; lia). rewrite G1. cbn [bind].
    unfold bit_fuel. rewrite (loop_overrun c (bits_of m) M2 M1 M3 ltac:(fold L; lia) PB _ e R vb result temp 1 v); auto; try lia.
  - rewrite (is_nil_ne _ E1). unfold powmod_core_v. rewrite S, T1, R1. cbn [bind]. fold L.
    rewrite (proj2 (Nat.ltb_ge L ReducerThreshold)) by (unfold ReducerThreshold; lia). rewrite G1. cbn [bind].
    rewrite (v_loop_overrun c (bits_of m) M2 M1 M3 ltac:(fold L; lia) PB (bits_of b) R vb result temp 1 v); auto.
Qed.

