(** Modular powers (PowMod.cpp:67-250). *)
From Coq Require Import Zpow_facts.
From Verif Require Import Facts Spec AddSubFacts SquMulFacts DivRemFacts DivCoreFacts SpecFacts BigIntFacts SpecApi ConvFacts.
From Verif Require Import CalcAddSub CalcSquMul CalcDivRem CalcPowMod BigInt ConvLaws PowFacts.

Ltac Zify.zify_post_hook ::= idtac.

(** ** Congruences *)

Lemma cong_pow m a a' b b' h : 0 < m ->
  a mod m = a' mod m -> b mod m = b' mod m -> (a * b ^ h) mod m = (a' * b' ^ h) mod m.
Proof.
  intros Hm Ha Hb. rewrite Z.mul_mod, (Zpower_mod b h m Hm), Ha, Hb, <- (Zpower_mod b' h m Hm), <- Z.mul_mod by lia.
  reflexivity.
Qed.

Lemma cong_mul m a a' b b' : 0 < m ->
  a mod m = a' mod m -> b mod m = b' mod m -> (a * b) mod m = (a' * b') mod m.
Proof. intros Hm Ha Hb. rewrite Z.mul_mod, Ha, Hb, <- Z.mul_mod by lia. reflexivity. Qed.

Lemma cong_self m a : 0 < m -> (a mod m) mod m = a mod m.
Proof. intros. apply Z.mod_mod. lia. Qed.

(** One square-and-multiply step. *)
Lemma cong_step m r v p r' v' t : 0 < m -> 0 <= p ->
  (r * v ^ p) mod m = t -> r' mod m = (r * (if Z.odd p then v else 1)) mod m ->
  v' mod m = (v * v) mod m -> (r' * v' ^ Z.shiftr p 1) mod m = t.
Proof.
  intros Hm Hp Ht Hr Hv. rewrite pow_half, Z.mul_assoc in Ht by exact Hp. rewrite <- Ht.
  now apply cong_pow.
Qed.

(** ** Word-sized modulus *)

Lemma umod_ok x m (Q : Z -> Prop) : 0 < m -> Q (x mod m) -> wp (umod x m) Q.
Proof. intros H HQ. unfold umod. rewrite (proj2 (Z.eqb_neq m 0)) by lia. exact HQ. Qed.

Lemma mul_u64 x y : limb x -> limb y -> u64 (x * y) = x * y.
Proof. intros Hx Hy. apply u64_small. num; nia. Qed.

Lemma powmod_u_loop_spec fuel : forall p m v r,
  0 <= p < 2 ^ Z.of_nat fuel -> limb m -> 0 < m -> limb v -> limb r ->
  wp (powmod_u_loop fuel p m v r) (fun x => x = (r * v ^ p) mod m).
Proof.
  induction fuel as [|fuel IH]; intros p m v r Hp Hm Hm0 Hv Hr; cbn [powmod_u_loop];
    rewrite (proj2 (Z.eqb_neq m 0)) by lia.
  all: assert (forall x, 0 <= x mod m < m) as MB by (intros; apply Z.mod_pos_bound; lia).
  - assert (p = 0) as -> by (change (2 ^ Z.of_nat 0) with 1 in Hp; lia). change (0 =? 0) with true. cbn beta iota.
    wstep. apply umod_ok; [lia|]. wstep. pose proof (MB r). rewrite u32_small by (num; lia).
    rewrite Z.pow_0_r, Z.mul_1_r. reflexivity.
  - destruct (Z.eqb_spec p 0) as [->|P0].
    { wstep. apply umod_ok; [lia|]. wstep. pose proof (MB r). rewrite u32_small by (num; lia).
      rewrite Z.pow_0_r, Z.mul_1_r. reflexivity. }
    rewrite odd_land. pose proof (half_lt p fuel Hp) as HL.
    wstep. eapply wp_mono with (P := fun r' => limb r' /\ r' mod m = (r * (if Z.odd p then v else 1)) mod m).
    { destruct (Z.odd p).
      - apply umod_ok; [lia|]. rewrite mul_u64 by assumption. pose proof (MB (r * v)). split; [num; lia|]. now apply cong_self.
      - wstep. rewrite Z.mul_1_r. auto. }
    intros r' (R1 & R2). wstep.
    destruct (Z.eqb_spec p 1) as [P1|P1]; cbn [negb].
    + wstep. eapply wp_mono; [apply IH; auto|]. cbn beta. intros x ->. subst p. change (Z.shiftr 1 1) with 0.
      rewrite Z.pow_0_r, Z.mul_1_r, R2. rewrite Z.pow_1_r. reflexivity.
    + apply umod_ok; [lia|]. rewrite mul_u64 by assumption. pose proof (MB (v * v)).
      eapply wp_mono; [apply IH; auto; num; lia|]. cbn beta. intros x ->.
      eapply cong_step; [lia|apply Hp|reflexivity|exact R2|now apply cong_self].
Qed.

Lemma powmod_u_loop_zero fuel p v r : powmod_u_loop (S fuel) p 0 v r = Throw DivideByZero.
Proof.
  cbn [powmod_u_loop]. change (0 =? 0) with true. cbn beta iota.
  destruct (Z.eqb_spec p 0) as [E|E]; [reflexivity|].
  destruct (Z.land p 1 =? 1) eqn:O; cbn [bind]; [reflexivity|].
  destruct (Z.eqb_spec p 1) as [->|]; [discriminate|]. reflexivity.
Qed.

(** The 32 rounds for one exponent limb, abstractly. *)
Lemma shiftr_small p : limb p -> Z.shiftr p 32 = 0.
Proof. intros H. rewrite Z.shiftr_div_pow2 by lia. apply Z.div_small. num; lia. Qed.

Lemma powmod_bits_spec m p v r :
  limb m -> 0 < m -> limb p -> limb v -> limb r ->
  wp (for_up 32 0 (fun _ st => powmod_bits_step m st) (p, v, r)) (fun st =>
    let '(_, v', r') := st in
    limb v' /\ limb r' /\ v' mod m = v ^ W32 mod m /\ r' mod m = (r * v ^ p) mod m).
Proof.
  intros Hm Hm0 Hp Hv Hr.
  assert (forall x, 0 <= x mod m < m) as MB by (intros; apply Z.mod_pos_bound; lia).
  eapply wp_for_up with (I := fun i st => let '(p', v', r') := st in
    limb v' /\ limb r' /\ p' = Z.shiftr p (Z.of_nat i) /\ v' mod m = v ^ (2 ^ Z.of_nat i) mod m /\
    (r' * v' ^ p') mod m = (r * v ^ p) mod m).
  - change (Z.of_nat 0) with 0. rewrite Z.shiftr_0_r, Z.pow_0_r, Z.pow_1_r. auto.
  - intros i ((p', v'), r') Hi (H1 & H2 & -> & H4 & H5). unfold powmod_bits_step. rewrite odd_land.
    assert (0 <= Z.shiftr p (Z.of_nat i)) as Hs by (apply Z.shiftr_nonneg; num; lia).
    wstep. eapply wp_mono with (P := fun r2 => limb r2 /\ r2 mod m = (r' * (if Z.odd (Z.shiftr p (Z.of_nat i)) then v' else 1)) mod m).
    { destruct (Z.odd _).
      - apply umod_ok; [lia|]. rewrite mul_u64 by assumption. pose proof (MB (r' * v')). split; [num; lia|]. now apply cong_self.
      - wstep. rewrite Z.mul_1_r. auto. }
    intros r2 (R1 & R2). wstep. apply umod_ok; [lia|]. rewrite mul_u64 by assumption. pose proof (MB (v' * v')).
    wstep. split; [num; lia|]. split; [exact R1|]. split; [|split].
    + rewrite Z.shiftr_shiftr by lia. f_equal. lia.
    + rewrite cong_self by lia. rewrite (cong_mul m v' _ v' _ ltac:(lia) H4 H4).
      rewrite <- Z.pow_add_r by (apply Z.pow_nonneg; lia). f_equal. f_equal.
      rewrite Nat2Z.inj_succ, Z.pow_succ_r by lia. ring.
    + eapply cong_step; [lia|exact Hs|exact H5|exact R2|now apply cong_self].
  - intros ((p', v'), r') (H1 & H2 & -> & H4 & H5). change (Z.of_nat (0 + 32)) with 32 in *.
    rewrite shiftr_small, Z.pow_0_r, Z.mul_1_r in H5 by exact Hp. change (2 ^ 32) with W32 in H4. auto.
Qed.

Lemma skipn_val e i : (i < length e)%nat -> val (skipn i e) = nth i e 0 + W32 * val (skipn (S i) e).
Proof. intros H. rewrite skipn_nth by exact H. reflexivity. Qed.

(** What one exponent limb does to the pair (value, result). *)
Lemma cong_limb m e i v r v' r' t : 0 < m -> limbs e -> (i < length e)%nat ->
  (r * v ^ val (skipn i e)) mod m = t ->
  v' mod m = v ^ W32 mod m -> r' mod m = (r * v ^ nth i e 0) mod m ->
  (r' * v' ^ val (skipn (S i) e)) mod m = t.
Proof.
  intros Hm He Hi Ht Hv Hr. rewrite (cong_pow m r' _ v' _ _ Hm Hr Hv), <- Ht. f_equal.
  pose proof (limbs_nth e i He) as N. pose proof (val_bound _ (limbs_skipn (S i) e He)) as B.
  rewrite (skipn_val e i) by exact Hi. unfold limb in N. clear - N B.
  assert (0 < W32) as W by reflexivity. generalize dependent W32. intros w N W.
  rewrite Z.pow_add_r by (apply N || (apply Z.mul_nonneg_nonneg; lia)). rewrite Z.pow_mul_r by lia. ring.
Qed.

Lemma skipn_last e : e <> [] -> val (skipn (length e - 1) e) = nth (length e - 1) e 0.
Proof.
  intros H. assert (1 <= length e)%nat by (destruct e; [congruence|cbn [length]; lia]).
  rewrite skipn_val by lia. rewrite skipn_all2 by lia. cbn [val]. ring.
Qed.

Lemma powmod_v_core_spec e m v r :
  limbs e -> e <> [] -> limb m -> 0 < m -> limb v -> limb r ->
  wp (powmod_v_core e m v r) (fun x => x = (r * v ^ val e) mod m).
Proof.
  intros He Hne Hm Hm0 Hv Hr. unfold powmod_v_core.
  assert (1 <= length e)%nat by (destruct e; [congruence|cbn [length]; lia]).
  wstep. eapply wp_for_up with (I := fun i st => let '(v', r') := st in
    limb v' /\ limb r' /\ (r' * v' ^ val (skipn i e)) mod m = (r * v ^ val e) mod m).
  - cbn [skipn]. auto.
  - intros i (v', r') Hi (H1 & H2 & H3). wstep. wstep; [lia|]. wstep.
    eapply wp_mono; [apply powmod_bits_spec; auto using limbs_nth|].
    intros ((p2, v2), r2) (A & B & C & D). wstep. split; [exact A|]. split; [exact B|].
    eapply cong_limb; eauto. lia.
  - intros (v', r') (H1 & H2 & H3). wstep. wstep; [lia|].
    replace (Z.to_nat (Z.of_nat (length e) - 1)) with (length e - 1)%nat by lia.
    cbn [Nat.add] in H3. rewrite skipn_last in H3 by exact Hne. rewrite <- H3.
    pose proof (limbs_nth e (length e - 1) He).
    apply powmod_u_loop_spec; auto. change (Z.of_nat bit_fuel) with 33. num; lia.
Qed.

(** ** Multi-limb modulus below the reducer threshold *)

Lemma buf_reduce_spec c size this m x :
  isbuf size this x -> limbs m -> m <> [] -> top_nz m -> (length m <= size)%nat ->
  wp (buf_reduce c this m) (fun b => isbuf size b (x mod val m) /\ (bb_len b <= length m)%nat).
Proof.
  intros Hx Hm Hne Ht Hsz. unfold buf_reduce. destruct (isbuf_prefix _ _ _ Hx) as (X1 & X2 & X3 & X4).
  pose proof Hx as [S L V N B Lo]. pose proof (top_nz_bound m Hm Hne Ht) as TB. pose proof (val_bound m Hm) as VB.
  pose proof (Bp_pos (length m - 1)) as PB.
  destruct (Nat.leb_spec (length m) (bb_len this)) as [H|H].
  - wstep. wstep; [lia|]. cbn [skipn]. wstep.
    set (p := firstn (bb_len this) (bb_bits this)) in *.
    eapply wp_mono; [apply (calc_div_core_spec c p m []); auto; lia|].
    intros (q, b') (Q1 & Q2 & Q3 & _). wstep. wstep; [rewrite Q1, X2; lia|]. cbn [firstn app Nat.add].
    rewrite Q1, X2, X4. rewrite X3 in Q3.
    pose proof (Z.mod_pos_bound x (val m) ltac:(lia)) as MB.
    assert (length (q ++ zeros (size - bb_len this)) = size) as LL by (rewrite app_length, length_zeros; lia).
    wstep. eapply wp_mono; [apply make_isbuf|].
    + apply limbs_app. split; [exact Q2|apply limbs_zeros].
    + rewrite LL. exact Hsz.
    + rewrite pad_val. lia.
    + intros k (K1 & K2). wstep. rewrite LL, pad_val, Q3 in K1. split; [exact K1|exact K2].
  - wstep. pose proof (Bp_le (bb_len this) (length m - 1) ltac:(lia)). rewrite Z.mod_small by lia.
    split; [exact Hx|lia].
Qed.

(** The state between steps. *)
Definition pm_state (size M : nat) (b : bitsbuf) (v : Z) : Prop := isbuf size b v /\ (bb_len b <= M)%nat.

Section Mod.
Variables (c : cfg) (m : list Z).
Hypothesis Hm : limbs m.
Hypothesis Hne : m <> [].
Hypothesis Ht : top_nz m.
Let M := length m.
Let size := (M + M)%nat.

Lemma Mpos : 0 < val m.
Proof. pose proof (top_nz_bound m Hm Hne Ht). pose proof (Bp_pos (length m - 1)). lia. Qed.

Lemma pm_mul result value temp r v :
  pm_state size M result r -> pm_state size M value v -> bb_bits temp = zeros size ->
  wp ('(result, temp) <- buf_mul_self c result value temp ;;
      result <- buf_reduce c result m ;; Ret (result, temp))
     (fun st => pm_state size M (fst st) ((r * v) mod val m) /\ bb_bits (snd st) = zeros size).
Proof.
  intros (R & RL) (V & VL) T. wstep. eapply wp_mono; [apply buf_mul_self_spec; eauto; unfold size; lia|].
  intros (r1, t1) (A & B & _). cbn [fst snd] in A, B. wstep.
  eapply wp_mono; [apply buf_reduce_spec; eauto; unfold size, M; lia|]. intros r2 (C & D). wstep. cbn [fst snd].
  split; [split; [exact C|exact D]|exact B].
Qed.

Lemma pm_square value temp v :
  pm_state size M value v -> bb_bits temp = zeros size ->
  wp ('(value, temp) <- buf_square_self c value temp ;;
      value <- buf_reduce c value m ;; Ret (value, temp))
     (fun st => pm_state size M (fst st) ((v * v) mod val m) /\ bb_bits (snd st) = zeros size).
Proof.
  intros (V & VL) T. wstep. eapply wp_mono; [apply buf_square_self_spec; eauto; unfold size; lia|].
  intros (r1, t1) (A & B & _). cbn [fst snd] in A, B. wstep.
  eapply wp_mono; [apply buf_reduce_spec; eauto; unfold size, M; lia|]. intros r2 (C & D). wstep. cbn [fst snd].
  split; [split; [exact C|exact D]|exact B].
Qed.

Lemma pm_cond_mul (b : bool) result value temp r v :
  pm_state size M result r -> pm_state size M value v -> bb_bits temp = zeros size ->
  wp (if b then '(result, temp) <- buf_mul_self c result value temp ;;
      result <- buf_reduce c result m ;; Ret (result, temp) else Ret (result, temp))
     (fun st => exists r', pm_state size M (fst st) r' /\ bb_bits (snd st) = zeros size /\
        r' mod val m = (r * (if b then v else 1)) mod val m /\ (r < val m -> r' < val m)).
Proof.
  intros R V T. pose proof Mpos as P. destruct b.
  - eapply wp_mono; [apply pm_mul; eauto|]. intros st (A & B). exists ((r * v) mod val m).
    pose proof (Z.mod_pos_bound (r * v) (val m) P). split; [exact A|]. split; [exact B|]. split; [now apply cong_self|lia].
  - wstep. exists r. cbn [fst snd]. rewrite Z.mul_1_r. auto.
Qed.

Lemma powmod_loop_spec fuel : forall p value result temp v r,
  0 <= p < 2 ^ Z.of_nat fuel -> pm_state size M value v -> pm_state size M result r -> bb_bits temp = zeros size ->
  wp (powmod_loop fuel c p m value result temp) (fun b => exists r', isbuf size b r' /\
    r' mod val m = (r * v ^ p) mod val m /\ (r < val m -> r' < val m)).
Proof.
  induction fuel as [|fuel IH]; intros p value result temp v r Hp Hv Hr Htm; cbn [powmod_loop].
  - assert (p = 0) as -> by (change (2 ^ Z.of_nat 0) with 1 in Hp; lia). change (0 =? 0) with true. cbn beta iota.
    wstep. exists r. rewrite Z.pow_0_r, Z.mul_1_r. destruct Hr. auto.
  - destruct (Z.eqb_spec p 0) as [->|P0].
    { wstep. exists r. rewrite Z.pow_0_r, Z.mul_1_r. destruct Hr. auto. }
    rewrite odd_land. pose proof (half_lt p fuel Hp) as HL. pose proof Mpos as MP.
    wstep. eapply wp_mono; [apply pm_cond_mul; eauto|].
    intros (r1, t1) (r' & R1 & T1 & C1 & L1). cbn [fst snd] in R1, T1. wstep.
    destruct (Z.eqb_spec p 1) as [P1|P1]; cbn [negb].
    + wstep. eapply wp_mono; [apply (IH _ value r1 t1 v r'); auto|].
      intros b (r2 & A & B & C). exists r2. split; [exact A|]. split; [|auto].
      subst p. change (Z.shiftr 1 1) with 0 in B. rewrite Z.pow_0_r, Z.mul_1_r in B. rewrite B, C1, Z.pow_1_r. reflexivity.
    + eapply wp_mono; [apply pm_square; eauto|]. intros (v1, t2) (A & B). cbn [fst snd] in A, B.
      eapply wp_mono; [apply (IH (Z.shiftr p 1) v1 r1 t2 ((v * v) mod val m) r'); auto|].
      intros b (r2 & D & E & F). exists r2. split; [exact D|]. split; [|auto]. rewrite E.
      eapply cong_step; [exact MP|apply Hp|reflexivity|exact C1|now apply cong_self].
Qed.

Lemma powmod_v_bits_spec p value result temp v r :
  limb p -> pm_state size M value v -> pm_state size M result r -> bb_bits temp = zeros size ->
  wp (for_up 32 0 (fun _ st => powmod_v_step c m st) (p, value, result, temp)) (fun st =>
    let '(_, value', result', temp') := st in exists v' r',
    pm_state size M value' v' /\ pm_state size M result' r' /\ bb_bits temp' = zeros size /\
    v' mod val m = v ^ W32 mod val m /\ r' mod val m = (r * v ^ p) mod val m /\ (r < val m -> r' < val m)).
Proof.
  intros Hp Hv Hr Htm. pose proof Mpos as MP.
  eapply wp_for_up with (I := fun i st => let '(p', value', result', temp') := st in exists v' r',
    pm_state size M value' v' /\ pm_state size M result' r' /\ bb_bits temp' = zeros size /\
    p' = Z.shiftr p (Z.of_nat i) /\ v' mod val m = v ^ (2 ^ Z.of_nat i) mod val m /\
    (r' * v' ^ p') mod val m = (r * v ^ p) mod val m /\ (r < val m -> r' < val m)).
  - exists v, r. change (Z.of_nat 0) with 0. rewrite Z.shiftr_0_r, Z.pow_0_r, Z.pow_1_r. tauto.
  - intros i (((p', value'), result'), temp') Hi (v' & r' & H1 & H2 & H3 & -> & H5 & H6 & H7).
    unfold powmod_v_step. rewrite odd_land.
    assert (0 <= Z.shiftr p (Z.of_nat i)) as Hs by (apply Z.shiftr_nonneg; num; lia).
    wstep. eapply wp_mono; [apply pm_cond_mul; eauto|].
    intros (r1, t1) (r2 & R1 & T1 & C1 & L1). cbn [fst snd] in R1, T1.
    pose proof (pm_square value' t1 v' H1 T1) as PS. apply wp_inv in PS. destruct PS as ((v2, t2) & E & A & B).
    cbn [fst snd] in A, B.
    assert (('(value0, temp0) <- buf_square_self c value' t1;;
       value1 <- buf_reduce c value0 m;;
       Ret (Z.shiftr (Z.shiftr p (Z.of_nat i)) 1, value1, r1, temp0)) =
      Ret (Z.shiftr (Z.shiftr p (Z.of_nat i)) 1, v2, r1, t2)) as ->.
    { destruct (buf_square_self c value' t1) as [(x, y)| | | |]; cbn [bind] in *; try discriminate.
      destruct (buf_reduce c x m); cbn [bind] in *; try discriminate. injection E as -> ->. reflexivity. }
    wstep. exists ((v' * v') mod val m), r2. split; [exact A|]. split; [exact R1|]. split; [exact B|].
    split; [rewrite Z.shiftr_shiftr by lia; f_equal; lia|]. split; [|split; [|auto]].
    + rewrite cong_self by lia. rewrite (cong_mul _ v' _ v' _ MP H5 H5).
      rewrite <- Z.pow_add_r by (apply Z.pow_nonneg; lia). f_equal. f_equal.
      rewrite Nat2Z.inj_succ, Z.pow_succ_r by lia. ring.
    + eapply cong_step; [lia|exact Hs|exact H6|exact C1|now apply cong_self].
  - intros (((p', value'), result'), temp') (v' & r' & H1 & H2 & H3 & -> & H5 & H6 & H7).
    change (Z.of_nat (0 + 32)) with 32 in *.
    rewrite shiftr_small, Z.pow_0_r, Z.mul_1_r in H6 by exact Hp. change (2 ^ 32) with W32 in H5.
    exists v', r'. tauto.
Qed.

Lemma powmod_v_loop_spec e value result temp v r :
  limbs e -> e <> [] -> pm_state size M value v -> pm_state size M result r -> bb_bits temp = zeros size ->
  wp (powmod_v_loop c e m value result temp) (fun b => exists r', isbuf size b r' /\
    r' mod val m = (r * v ^ val e) mod val m /\ (r < val m -> r' < val m)).
Proof.
  intros He Hne' Hv Hr Htm. unfold powmod_v_loop. pose proof Mpos as MP.
  assert (1 <= length e)%nat by (destruct e; [congruence|cbn [length]; lia]).
  wstep. eapply wp_for_up with (I := fun i st => let '(value', result', temp') := st in exists v' r',
    pm_state size M value' v' /\ pm_state size M result' r' /\ bb_bits temp' = zeros size /\
    (r' * v' ^ val (skipn i e)) mod val m = (r * v ^ val e) mod val m /\ (r < val m -> r' < val m)).
  - exists v, r. cbn [skipn]. tauto.
  - intros i ((value', result'), temp') Hi (v' & r' & H1 & H2 & H3 & H4 & H5). wstep. wstep; [lia|]. wstep.
    eapply wp_mono; [apply powmod_v_bits_spec; eauto using limbs_nth|].
    intros (((p2, v2), r2), t2) (v3 & r3 & A & B & C & D & E & F). wstep. exists v3, r3.
    split; [exact A|]. split; [exact B|]. split; [exact C|]. split; [|auto].
    eapply cong_limb; eauto. lia.
  - intros ((value', result'), temp') (v' & r' & H1 & H2 & H3 & H4 & H5). wstep. wstep; [lia|].
    replace (Z.to_nat (Z.of_nat (length e) - 1)) with (length e - 1)%nat by lia.
    cbn [Nat.add] in H4. rewrite skipn_last in H4 by exact Hne'.
    pose proof (limbs_nth e (length e - 1) He).
    eapply wp_mono; [apply (powmod_loop_spec bit_fuel _ value' result' temp' v' r'); auto|].
    { change (Z.of_nat bit_fuel) with 33. num; lia. }
    intros b (r2 & A & B & C). exists r2. split; [exact A|]. split; [congruence|auto].
Qed.

Hypothesis Hlt : (length m < ReducerThreshold)%nat.
Hypothesis H1m : 1 < val m.

Lemma temp_zeros b : isbuf size b 0 -> bb_bits b = zeros size.
Proof. intros [A B C _ _ _]. rewrite <- A. now apply val_zero_zeros. Qed.

Lemma M1 : (1 <= M)%nat.
Proof. unfold M. destruct m; [congruence|cbn [length]; lia]. Qed.

Lemma powmod_core_u_spec p value v :
  0 <= p < 2 ^ 32 -> pm_state size M value v ->
  wp (powmod_core_u c p m value) (fun l => limbs l /\ val l = v ^ p mod val m).
Proof.
  intros Hp Hv. unfold powmod_core_u. pose proof Hv as ([S _ _ _ _ _] & _). rewrite S. pose proof M1.
  wstep. eapply wp_mono; [apply buf_of_u_spec; [num; lia|unfold size; lia]|]. intros temp (T & _).
  wstep. eapply wp_mono; [apply buf_of_u_spec; [num; lia|unfold size; lia]|]. intros result (R & RL).
  rewrite (proj2 (Nat.ltb_lt _ _) Hlt). wstep.
  eapply wp_mono; [apply (powmod_loop_spec bit_fuel p value result temp v 1); auto|].
  - change (Z.of_nat bit_fuel) with 33. lia.
  - split; [exact R|lia].
  - now apply temp_zeros.
  - intros b (r' & [_ BL BV _ BB _] & C & D). wstep. split; [exact BL|]. rewrite BV.
    rewrite Z.mul_1_l in C. rewrite <- C. symmetry. apply Z.mod_small. lia.
Qed.

Lemma powmod_core_v_spec e value v :
  limbs e -> e <> [] -> pm_state size M value v ->
  wp (powmod_core_v c e m value) (fun l => limbs l /\ val l = v ^ val e mod val m).
Proof.
  intros He Hne' Hv. unfold powmod_core_v. pose proof Hv as ([S _ _ _ _ _] & _). rewrite S. pose proof M1.
  wstep. eapply wp_mono; [apply buf_of_u_spec; [num; lia|unfold size; lia]|]. intros temp (T & _).
  wstep. eapply wp_mono; [apply buf_of_u_spec; [num; lia|unfold size; lia]|]. intros result (R & RL).
  rewrite (proj2 (Nat.ltb_lt _ _) Hlt). wstep.
  eapply wp_mono; [apply (powmod_v_loop_spec e value result temp v 1); auto|].
  - split; [exact R|lia].
  - now apply temp_zeros.
  - intros b (r' & [_ BL BV _ BB _] & C & D). wstep. split; [exact BL|]. rewrite BV.
    rewrite Z.mul_1_l in C. rewrite <- C. symmetry. apply Z.mod_small. lia.
Qed.

Lemma small_buf b x : isbuf size b x -> x < Bp M -> pm_state size M b x.
Proof.
  intros B H. split; [exact B|]. destruct B as [_ _ _ _ _ Lo].
  destruct (Nat.le_gt_cases (bb_len b) M) as [G|G]; [exact G|exfalso]. specialize (Lo ltac:(lia)).
  pose proof (Bp_le M (bb_len b - 1) ltac:(lia)). lia.
Qed.

Lemma powmod_buf_spec v : limbs v ->
  wp (powmod_buf c v m) (fun b => exists x, pm_state size M b x /\ x mod val m = val v mod val m).
Proof.
  intros Hv. unfold powmod_buf. fold M. pose proof (val_bound m Hm) as VM. pose proof (val_bound v Hv) as VV. fold M in VM.
  pose proof (Bp_le M size ltac:(unfold size; lia)) as BL.
  destruct (Nat.ltb_spec M (length v)) as [H|H].
  - wstep. eapply wp_mono; [apply calc_rem_spec; auto; unfold M in H; lia|]. intros r (A & B & C).
    pose proof (Z.mod_pos_bound (val v) (val m) Mpos) as MB.
    eapply wp_mono; [apply buf_of_v_spec; [exact B|fold size; lia]|]. intros b Hb. exists (val r).
    split; [apply small_buf; [exact Hb|lia]|]. rewrite C. apply cong_self, Mpos.
  - pose proof (Bp_le (length v) M H).
    eapply wp_mono; [apply buf_of_v_spec; [exact Hv|fold size; lia]|]. intros b Hb. exists (val v).
    split; [apply small_buf; [exact Hb|lia]|reflexivity].
Qed.

Lemma u_buf v : limb v -> wp (buf_of_u (length m + length m) v) (fun b => pm_state size M b v).
Proof.
  intros Hv. pose proof M1. eapply wp_mono; [apply buf_of_u_spec; [exact Hv|fold M; lia]|]. intros b (A & B).
  split; [exact A|lia].
Qed.

Lemma calc_powmod_uuv_spec v p : limb v -> 0 <= p < 2 ^ 32 ->
  wp (calc_powmod_uuv c v p m) (fun l => limbs l /\ val l = v ^ p mod val m).
Proof.
  intros Hv Hp. unfold calc_powmod_uuv. wstep. eapply wp_mono; [now apply u_buf|]. intros b B. now apply powmod_core_u_spec.
Qed.

Lemma calc_powmod_uvv_spec v e : limb v -> limbs e -> e <> [] ->
  wp (calc_powmod_uvv c v e m) (fun l => limbs l /\ val l = v ^ val e mod val m).
Proof.
  intros Hv He Hn. unfold calc_powmod_uvv. wstep. eapply wp_mono; [now apply u_buf|]. intros b B. now apply powmod_core_v_spec.
Qed.

Lemma calc_powmod_vuv_spec v p : limbs v -> 0 <= p < 2 ^ 32 ->
  wp (calc_powmod_vuv c v p m) (fun l => limbs l /\ val l = val v ^ p mod val m).
Proof.
  intros Hv Hp. unfold calc_powmod_vuv. wstep. eapply wp_mono; [now apply powmod_buf_spec|]. intros b (x & B & E).
  eapply wp_mono; [exact (powmod_core_u_spec p b x Hp B)|]. intros l (L1 & L2). split; [exact L1|].
  rewrite L2, (Zpower_mod x), E, <- Zpower_mod by apply Mpos. reflexivity.
Qed.

Lemma calc_powmod_vvv_spec v e : limbs v -> limbs e -> e <> [] ->
  wp (calc_powmod_vvv c v e m) (fun l => limbs l /\ val l = val v ^ val e mod val m).
Proof.
  intros Hv He Hn. unfold calc_powmod_vvv. wstep. eapply wp_mono; [now apply powmod_buf_spec|]. intros b (x & B & E).
  eapply wp_mono; [exact (powmod_core_v_spec e b x He Hn B)|]. intros l (L1 & L2). split; [exact L1|].
  rewrite L2, (Zpower_mod x), E, <- Zpower_mod by apply Mpos. reflexivity.
Qed.
End Mod.
