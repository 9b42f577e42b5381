(** mod_pow with a modulus of 32 limbs or more computes [leaky_mod_pow] of
    SpecModPow.v. *)
From Verif Require Import Facts Spec AddSubFacts SquMulFacts DivRemFacts DivCoreFacts SpecFacts BigIntFacts SpecApi ConvFacts.
From Verif Require Import CompareFacts CalcAddSub CalcSquMul CalcDivRem CalcPowMod BigInt ConvLaws ShiftFacts WordFacts PowFacts ModPowFacts ModPowApi.
From Verif Require Import SpecReduce SpecGcd ReducerFacts BarrettFacts PowLaws LargeModPow SafeModPow SpecModPow LeakyProduct.

Ltac Zify.zify_post_hook ::= idtac.

(** ** Limb counts *)

Lemma pow32_le_iff x n : 0 < x -> 0 <= n -> (x < 2 ^ (32 * n) <-> Z.log2 x / 32 + 1 <= n).
Proof.
  intros Hx Hn. rewrite (Z.log2_lt_pow2 x (32 * n) Hx).
  pose proof (Z.div_mod (Z.log2 x) 32 ltac:(lia)). pose proof (Z.mod_pos_bound (Z.log2 x) 32 ltac:(lia)). lia.
Qed.

Lemma limbs_of_count x : limb_count x (limbs_of x).
Proof.
  unfold limbs_of, limb_count, fits_limbs.
  assert (0 <= Z.log2 (Z.abs x) / 32) as H0 by (apply Z.div_pos; [apply Z.log2_nonneg|lia]).
  destruct (Z.eq_dec x 0) as [->|N].
  - change (Z.log2 (Z.abs 0) / 32 + 1) with 1. change (Z.abs 0) with 0. split; [lia|].
    split; [reflexivity|]. intros; lia.
  - split; [lia|]. split; [apply pow32_le_iff; lia|].
    intros m Hm H. apply pow32_le_iff in H; lia.
Qed.

Lemma limbs_of_eq x n : limb_count x n -> limbs_of x = n.
Proof. intros (B1 & B2 & B3). destruct (limbs_of_count x) as (A1 & A2 & A3). specialize (A3 n B1 B2). specialize (B3 _ A1 A2). lia. Qed.

Lemma limbs_of_length a x : represents a x -> limbs_of x = Z.of_nat (Nat.max 1 (length (bits_of a))).
Proof.
  intros Ha. apply limbs_of_eq. split; [lia|]. split.
  - rewrite Nat2Z.inj_max. now apply length_fits.
  - intros m Hm Hf. pose proof (repr_length a x m Ha ltac:(lia) Hf). lia.
Qed.

Lemma limbs_of_pos x : 1 <= limbs_of x.
Proof. apply limbs_of_count. Qed.

Lemma large_limbs z : 2 ^ 992 <= Z.abs z -> 32 <= limbs_of z.
Proof.
  intros H. destruct (Z.le_gt_cases 32 (limbs_of z)) as [G|G]; [exact G|exfalso].
  destruct (limbs_of_count z) as (_ & F & _). unfold fits_limbs in F.
  assert (2 ^ (32 * limbs_of z) <= 2 ^ 992) by (apply Z.pow_le_mono_r; lia). lia.
Qed.

Lemma exact_length_limbs r : 0 < r -> exact_length r (Z.to_nat (limbs_of r)).
Proof.
  intros Hr. pose proof (limbs_of_pos r) as P. unfold exact_length. rewrite Z2Nat.id by lia.
  unfold limbs_of in *. rewrite (Z.abs_eq r) in * by lia. split; [apply pow32_le_iff; lia|].
  intros _. destruct (Z.le_gt_cases (2 ^ (32 * (Z.log2 r / 32 + 1 - 1))) r) as [G|G]; [exact G|exfalso].
  apply pow32_le_iff in G; lia.
Qed.

Lemma len_of_exact y k : 0 <= y -> exact_len y k -> Z.of_nat k = len_of y.
Proof.
  intros Hy H. unfold len_of. destruct (Z.eqb_spec y 0) as [->|N].
  - assert (k = O) as ->; [|reflexivity]. apply (exact_len_unique 0 k 0 H). split; [reflexivity|congruence].
  - pose proof (exact_length_limbs y ltac:(lia)) as E. apply exact_len_spec in E.
    rewrite (exact_len_unique y k _ H E). apply Z2Nat.id. pose proof (limbs_of_pos y). lia.
Qed.

(** ** Buffers *)

Definition as_buffer (b : bitsbuf) : buffer := (val (bb_bits b), Z.of_nat (bb_len b)).

Lemma counts_vl b : limbs (bb_bits b) -> (bb_len b <= length (bb_bits b))%nat ->
  counts (as_buffer b) = vl (bb_bits b) (bb_len b).
Proof. intros L H. unfold counts, as_buffer. cbn [fst snd]. now rewrite low_Bp, (vl_mod (bb_bits b) (bb_len b) (length (bb_bits b))), vl_all by auto. Qed.

Lemma rest_skipn l k : limbs l -> (k <= length l)%nat -> rest (Z.of_nat k) (val l) = Bp k * val (skipn k l).
Proof.
  intros L H. unfold rest. rewrite low_Bp, <- (vl_all l) at 1. rewrite vl_all.
  rewrite <- (vl_all l) at 2. rewrite <- vl_mod by auto. rewrite (val_split l k) by lia. ring.
Qed.

Lemma val_zeros_app k l : val (repeat 0 k ++ l) = Bp k * val l.
Proof. rewrite val_app, repeat_length. fold (zeros k). rewrite val_zeros. ring. Qed.

Lemma wp_both {A} (o : outcome A) (P Q : A -> Prop) : wp o P -> wp o Q -> wp o (fun a => P a /\ Q a).
Proof. destruct o; cbn [wp]; tauto. Qed.

Lemma mirrors_wpa {A B} c (P : A -> B -> Prop) (Q : A -> Prop) o z :
  mirrors P o z -> wpa c o Q -> mirrors (fun a b => P a b /\ Q a) o z.
Proof. destruct z; cbn [mirrors]; auto; destruct o; cbn [wp wpa]; tauto. Qed.

Section Leaky.
Variables (c : cfg) (m : list Z).
Hypothesis Hm : limbs m.
Hypothesis Hne : m <> [].
Hypothesis Ht : top_nz m.
Let n := length m.
Let size := (n + n)%nat.
Hypothesis Hn : (32 <= n)%nat.

Definition pairs (r : bitsbuf * bitsbuf) (z : buffer * Z) : Prop :=
  as_buffer (fst r) = fst z /\ val (bb_bits (snd r)) = snd z.

Lemma apply_leaky this temp r total old p :
  sized m this -> (bb_len this <= size)%nat -> limbs temp -> length temp = size -> (total <= size)%nat ->
  length r = total -> limbs r -> val r = p ->
  wp (buf_apply this (Buf (r ++ skipn total temp) old) total)
     (fun st => pairs st (swapped (as_buffer this) (val temp) p (Z.of_nat total))).
Proof.
  intros (S1 & S2) Hl T1 T2 Htot R1 R2 R3. unfold buf_apply. cbn [bb_bits bb_len]. fold n in S2. unfold size in *.
  assert (limbs (r ++ skipn total temp)) as HL by (apply limbs_app; split; [exact R2|now apply limbs_skipn]).
  assert (length (r ++ skipn total temp) = (n + n)%nat) as HK by (rewrite app_length, skipn_length; lia).
  wstep. wstep; [lia|].
  wstep. eapply wp_mono; [apply actual_exact; [exact HL|lia]|]. intros k (K1 & K2 & K3). wstep.
  rewrite (splice_prefix _ r _ R1) in K3.
  unfold pairs, swapped, as_buffer. cbn [fst snd bb_bits bb_len]. split.
  - f_equal.
    + rewrite val_app, R1, R3, rest_skipn by (auto; lia). reflexivity.
    + apply len_of_exact; [|rewrite <- R3; exact K3]. rewrite <- R3. apply (val_bound r R2).
  - rewrite rest_skipn by (auto; lia). apply val_zeros_app.
Qed.

Lemma mul_leaky this value temp :
  sized m this -> sized m value -> sized m temp -> (bb_len this <= n)%nat -> (bb_len value <= n)%nat ->
  mirrors pairs (buf_mul_self c this value temp)
    (times (dbg c) (as_buffer this) (as_buffer value) (val (bb_bits temp))).
Proof.
  intros Hs Hv Htm L1 L2. pose proof Hs as (S1 & S2). pose proof Hv as (V1 & V2). pose proof Htm as (T1 & T2).
  fold n in S2, V2, T2. unfold buf_mul_self, times.
  rewrite !counts_vl by (auto; lia). change (snd (as_buffer this)) with (Z.of_nat (bb_len this)).
  change (snd (as_buffer value)) with (Z.of_nat (bb_len value)).
  rewrite <- Nat2Z.inj_add, !Nat2Z.id.
  eapply mirrors_left with (P := eq _); [wstep; [lia|reflexivity]|]. intros p <-. cbn [skipn].
  eapply mirrors_left with (P := eq _); [wstep; [lia|reflexivity]|]. intros q <-. cbn [skipn].
  eapply mirrors_left with (P := eq _); [wstep; [lia|reflexivity]|]. intros t <-. cbn [skipn].
  rewrite low_Bp.
  replace (val (bb_bits temp) mod Bp (bb_len this + bb_len value)) with (val (firstn (bb_len this + bb_len value) (bb_bits temp))).
  2:{ fold (vl (bb_bits temp) (bb_len this + bb_len value)).
      rewrite (vl_mod (bb_bits temp) _ (length (bb_bits temp)) T1), vl_all by lia. reflexivity. }
  unfold vl.
  set (p := firstn (bb_len this) (bb_bits this)). set (q := firstn (bb_len value) (bb_bits value)).
  set (t := firstn (bb_len this + bb_len value) (bb_bits temp)).
  assert (limbs p /\ limbs q /\ limbs t) as (P1 & Q1 & U1) by (repeat split; now apply limbs_firstn).
  assert (length p = bb_len this) as P2 by (unfold p; rewrite firstn_length; lia).
  assert (length q = bb_len value) as Q2 by (unfold q; rewrite firstn_length; lia).
  assert (length t = (bb_len this + bb_len value)%nat) as U2 by (unfold t; rewrite firstn_length; lia).
  clearbody p q t.
  eapply mirrors_bind with (P := fun r z => length r = (bb_len this + bb_len value)%nat /\ limbs r /\ val r = z).
  { rewrite <- U2, <- P2, <- Q2.
    destruct (Nat.ltb_spec (length p) (length q)) as [G|G].
    - rewrite (proj2 (Z.ltb_lt (Z.of_nat (length p)) (Z.of_nat (length q)))) by lia. apply mul_core_leaky; auto; lia.
    - rewrite (proj2 (Z.ltb_ge (Z.of_nat (length p)) (Z.of_nat (length q)))) by lia. apply mul_core_leaky; auto; lia. }
  intros r z (R1 & R2 & R3). apply mirrors_wp.
  wstep. wstep; [lia|]. cbn [firstn app Nat.add]. rewrite R1.
  eapply wp_mono; [apply (apply_leaky this (bb_bits temp) r (bb_len this + bb_len value) (bb_len temp) z); auto; unfold size; lia|].
  auto.
Qed.

Lemma square_leaky value temp :
  sized m value -> sized m temp -> (bb_len value <= n)%nat ->
  wp (buf_square_self c value temp) (fun r => pairs r (squared (as_buffer value) (val (bb_bits temp)))).
Proof.
  intros Hv Htm L2. pose proof Hv as (V1 & V2). pose proof Htm as (T1 & T2). fold n in V2, T2.
  unfold squared. rewrite !counts_vl by (auto; lia). unfold vl. cbn [as_buffer snd].
  unfold buf_square_self. wstep. wstep; [lia|]. wstep. wstep; [lia|]. cbn [skipn].
  set (q := firstn (bb_len value) (bb_bits value)). set (t := firstn (bb_len value + bb_len value) (bb_bits temp)).
  assert (limbs q /\ limbs t) as (Q1 & U1) by (split; now apply limbs_firstn).
  assert (length q = bb_len value) as Q2 by (unfold q; rewrite firstn_length; lia).
  assert (length t = (bb_len value + bb_len value)%nat) as U2 by (unfold t; rewrite firstn_length; lia).
  wstep. eapply wp_mono; [apply calc_square_core_spec; auto; lia|]. rewrite Q2. intros r (R1 & R2 & R3).
  wstep. wstep; [lia|]. cbn [firstn app Nat.add]. rewrite R1.
  replace (2 * Z.of_nat (bb_len value)) with (Z.of_nat (bb_len value + bb_len value)) by lia.
  apply apply_leaky; auto; unfold size; lia.
Qed.

Lemma reduce_leaky R b :
  reducer_good m R -> fresh m b -> Bp (n - 1) < val m \/ vl (bb_bits b) (bb_len b) < Bp (n + n - 1) ->
  wp (buf_reduce_fast c b R) (fun st => as_buffer (fst st) = shortened (val m) (as_buffer b)).
Proof.
  intros HG ((F1 & F2) & F3 & F4) D. unfold buf_reduce_fast. fold n in F2, F3.
  pose proof (m_lo m Hm Hne Ht) as ML. fold n in ML. pose proof (Bp_pos (n - 1)) as BP.
  wstep. eapply wp_mono; [apply (reduce_ok c m Hm Hne Ht Hn R (bb_bits b) (bb_len b)); auto; try (fold n; lia)|].
  { destruct D as [D|D]; [now right|left]. pose proof (exact_len_le _ _ (n + n - 1) F4 D). fold n. lia. }
  intros (k, R2) (K & G). cbn [fst snd] in K, G. wstep. cbn [fst snd].
  unfold shortened. rewrite counts_vl by (auto; lia). unfold as_buffer. cbn [fst snd bb_bits bb_len].
  f_equal. apply len_of_exact; [|exact K]. apply Z.mod_pos_bound. lia.
Qed.

(** ** The loops *)

Definition as_state (value result temp : bitsbuf) : power_state :=
  (as_buffer value, as_buffer result, val (bb_bits temp)).

Lemma pairs_eq r z : pairs r z -> z = (as_buffer (fst r), val (bb_bits (snd r))).
Proof. intros (A & B). rewrite A, B. now destruct z. Qed.

Lemma mul_step_leaky odd R value result temp :
  state_ok m R value result temp ->
  mirrors (fun st z => z = as_state value (fst (fst st)) (snd (fst st)) /\
                       state_ok m (snd st) value (fst (fst st)) (snd (fst st)))
    (if odd : bool then
       '(result, temp) <- buf_mul_self c result value temp ;;
       '(result, red) <- buf_reduce_fast c result R ;; Ret (result, temp, red)
     else Ret (result, temp, R))
    (bit_times (dbg c) (val m) odd (as_state value result temp)).
Proof.
  intros HS. pose proof HS as (HG & (V1 & V2 & V3) & (R1 & R2 & R3) & Htm). fold n in V2, R2.
  apply (mirrors_wpa c); [|now apply mul_step].
  unfold bit_times, as_state. destruct odd; [|apply mirrors_ret; reflexivity].
  eapply mirrors_bind.
  { apply (mirrors_wpa c); [apply mul_leaky; auto|apply (mul_any c m Hn); auto]. }
  intros (r1, t1) z (P & A & B & C). apply pairs_eq in P. subst z. cbn [fst snd] in *.
  eapply mirrors_left; [apply (reduce_leaky R r1 HG A)|].
  { destruct R3 as [R3|R3]; [now left|right]. destruct A as ((A1 & A2) & A3 & A4).
    pose proof (proj1 A4) as K. pose proof (Bp_le (bb_len r1) (n + n - 1) ltac:(fold n in R3; lia)). lia. }
  intros (r2, R') E. cbn [fst snd] in E. apply mirrors_ret. cbn [fst snd]. now rewrite E.
Qed.

Lemma square_step_leaky R value result temp :
  state_ok m R value result temp ->
  wp ('(value, temp) <- buf_square_self c value temp ;;
      '(value, red) <- buf_reduce_fast c value R ;; Ret (value, temp, red))
     (fun st => bit_square (val m) (as_state value result temp) = as_state (fst (fst st)) result (snd (fst st)) /\
                state_ok m (snd st) (fst (fst st)) result (snd (fst st))).
Proof.
  intros HS. pose proof HS as (HG & (V1 & V2 & V3) & HR & Htm). fold n in V2.
  assert (forall {A} (o : outcome A) P Q, wp o P -> wpa c o Q -> wp o (fun a => P a /\ Q a)) as both
    by (intros A o P Q; destruct o; cbn [wp wpa]; tauto).
  apply both; [|now apply square_step].
  wstep. eapply wp_mono; [apply both; [apply square_leaky|apply (square_any c m Hn)]; auto|].
  intros (v1, t1) (P & A & B & C). apply pairs_eq in P. cbn [fst snd] in *.
  wstep. eapply wp_mono; [apply (reduce_leaky R v1 HG A); rewrite C; exact V3|].
  intros (v2, R') E. cbn [fst snd] in E. wstep. cbn [fst snd].
  unfold bit_square, as_state. rewrite P. now rewrite E.
Qed.

Lemma loop_leaky fuel : forall f p R value result temp,
  0 <= p < 2 ^ Z.of_nat fuel -> p < 2 ^ Z.of_nat f -> state_ok m R value result temp ->
  mirrors (fun b z => as_buffer b = snd (fst z) /\ sized m b)
    (powred_loop fuel c p R value result temp) (short_loop f (dbg c) (val m) p (as_state value result temp)).
Proof.
  induction fuel as [|fuel IH]; intros f p R value result temp Hp Hf HS; cbn [powred_loop].
  - assert (p = 0) as -> by (change (2 ^ Z.of_nat 0) with 1 in Hp; lia).
    destruct f; cbn [short_loop]; (apply mirrors_ret; split; [reflexivity|apply HS]).
  - destruct (Z.eqb_spec p 0) as [->|N].
    { destruct f; cbn [short_loop]; (apply mirrors_ret; split; [reflexivity|apply HS]). }
    destruct f as [|f]; [change (2 ^ Z.of_nat 0) with 1 in Hf; lia|]. cbn [short_loop].
    rewrite (proj2 (Z.eqb_neq p 0) N). rewrite odd_land.
    eapply mirrors_bind; [apply mul_step_leaky; exact HS|]. intros ((r1, t1), R1) z (-> & H1). cbn [fst snd] in *.
    eapply mirrors_left with (P := fun st =>
      (if p =? 1 then as_state value r1 t1 else bit_square (val m) (as_state value r1 t1)) =
        as_state (fst (fst st)) r1 (snd (fst st)) /\ state_ok m (snd st) (fst (fst st)) r1 (snd (fst st))).
    { destruct (p =? 1); cbn [negb]; [wstep; split; [reflexivity|exact H1]|apply square_step_leaky; exact H1]. }
    intros ((v2, t2), R2) (E & H2). cbn [fst snd] in *. rewrite E.
    rewrite <- Z.div2_div, Z.div2_spec. apply IH; [exact (half_lt p fuel Hp)| |exact H2].
    exact (proj2 (half_lt p f (conj (proj1 Hp) Hf))).
Qed.

Lemma v_step_leaky p e R value result temp :
  Z.odd p = Z.odd e -> state_ok m R value result temp ->
  mirrors (fun st z => let '(p', R', v', r', t') := st in
      p' = Z.shiftr p 1 /\ z = as_state v' r' t' /\ state_ok m R' v' r' t')
    (powred_v_step c (p, R, value, result, temp))
    (st <- bit_times (dbg c) (val m) (Z.odd e) (as_state value result temp) ;; Ret (bit_square (val m) st)).
Proof.
  intros Ho HS. unfold powred_v_step. rewrite odd_land, Ho.
  eapply mirrors_bind; [apply mul_step_leaky; exact HS|]. intros ((r1, t1), R1) z (-> & H1). cbn [fst snd] in *.
  pose proof (square_step_leaky R1 value r1 t1 H1) as W.
  destruct (buf_square_self c value t1) as [(v1, t2)| | | |]; cbn [bind wp] in W; try contradiction. cbn [bind].
  destruct (buf_reduce_fast c v1 R1) as [(v2, R2)| | | |]; cbn [bind wp] in W; try contradiction. cbn [bind].
  destruct W as (E & H2). cbn [fst snd] in *. apply mirrors_ret. auto.
Qed.

Lemma bind_assoc {A B C} (o : outcome A) (f : A -> outcome B) (g : B -> outcome C) :
  bind (bind o f) g = bind o (fun a => bind (f a) g).
Proof. now destruct o. Qed.

Lemma long_S k debug q e st :
  long_loop (S k) debug q e st =
  (st <- (st <- bit_times debug q (Z.odd e) st ;; Ret (bit_square q st)) ;; long_loop k debug q (e / 2) st).
Proof. cbn [long_loop]. rewrite bind_assoc. reflexivity. Qed.

Lemma long_add j : forall k debug q e st,
  long_loop (j + k) debug q e st = (st <- long_loop j debug q e st ;; long_loop k debug q (e / 2 ^ Z.of_nat j) st).
Proof.
  induction j as [|j IH]; intros k debug q e st.
  - cbn [Nat.add long_loop bind]. change (2 ^ Z.of_nat 0) with 1. now rewrite Z.div_1_r.
  - rewrite Nat.add_succ_l, !long_S.
    destruct (st <- bit_times debug q (Z.odd e) st ;; Ret (bit_square q st)) as [s| | | |]; cbn [bind]; try reflexivity.
    rewrite IH. destruct (long_loop j debug q (e / 2) s); cbn [bind]; try reflexivity.
    f_equal. rewrite Z.div_div by (try apply Z.pow_pos_nonneg; lia).
    f_equal. rewrite Nat2Z.inj_succ, Z.pow_succ_r by lia. reflexivity.
Qed.

Lemma v_steps_leaky k : forall i p e R value result temp,
  0 <= e -> p = e mod 2 ^ Z.of_nat k -> state_ok m R value result temp ->
  mirrors (fun st z => let '(p', R', v', r', t') := st in z = as_state v' r' t' /\ state_ok m R' v' r' t')
    (for_up k i (fun _ st => powred_v_step c st) (p, R, value, result, temp))
    (long_loop k (dbg c) (val m) e (as_state value result temp)).
Proof.
  induction k as [|k IH]; intros i p e R value result temp He Hp HS.
  - cbn [for_up long_loop]. apply mirrors_ret. auto.
  - rewrite long_S. cbn [for_up].
    assert (0 < 2 ^ Z.of_nat k) as P2 by (apply Z.pow_pos_nonneg; lia).
    rewrite Nat2Z.inj_succ, Z.pow_succ_r, Z.rem_mul_r in Hp by lia.
    pose proof (Z.mod_pos_bound e 2 ltac:(lia)) as B.
    assert (Z.odd p = Z.odd e) as Ho.
    { rewrite Hp, Z.odd_add_mul_2. rewrite Zmod_odd. now destruct (Z.odd e). }
    eapply mirrors_bind; [apply v_step_leaky; [exact Ho|exact HS]|].
    intros ((((p', R'), v'), r'), t') z (-> & -> & H'). apply IH; [apply Z.div_pos; lia| |exact H'].
    rewrite <- Z.div2_spec, Z.div2_div, Hp, Z.mul_comm, Z.div_add by lia. rewrite (Z.div_small (e mod 2)) by lia. reflexivity.
Qed.

Lemma for_up_round {T} k j body (s : T) : for_up (S k) j body s = (s' <- body j s ;; for_up k (S j) body s').
Proof. reflexivity. Qed.

Lemma v_limbs_leaky power k : forall i R value result temp,
  limbs power -> (i + k = length power)%nat -> state_ok m R value result temp ->
  mirrors (fun st z => let '(R', v', r', t') := st in z = as_state v' r' t' /\ state_ok m R' v' r' t')
    (for_up k i (fun i st =>
      let '(red, value, result, temp) := st in
      p <- rd power i ;;
      '(_, red, value, result, temp) <-
        for_up 32 0 (fun _ st => powred_v_step c st) (p, red, value, result, temp) ;;
      Ret (red, value, result, temp)) (R, value, result, temp))
    (long_loop (32 * k) (dbg c) (val m) (val (skipn i power)) (as_state value result temp)).
Proof.
  induction k as [|k IH]; intros i R value result temp HP Hi HS.
  - cbn [for_up Nat.mul long_loop]. apply mirrors_ret. auto.
  - replace (32 * S k)%nat with (32 + 32 * k)%nat by lia. rewrite long_add.
    rewrite (for_up_round k).
    pose proof (limbs_nth power i HP) as Ln. pose proof (val_bound _ (limbs_skipn (S i) _ HP)) as Nn.
    assert (val (skipn i power) = nth i power 0 + W32 * val (skipn (S i) power)) as Ev by (rewrite skipn_nth by lia; reflexivity).
    eapply mirrors_bind with (P := fun st z => let '(R', v', r', t') := st in z = as_state v' r' t' /\ state_ok m R' v' r' t').
    { eapply mirrors_left with (P := eq (nth i power 0)); [wstep; [lia|reflexivity]|]. intros p <-.
      pose proof (v_steps_leaky 32 0 (nth i power 0) (val (skipn i power)) R value result temp) as W.
      specialize (W ltac:(rewrite Ev; num; lia)).
      change (2 ^ Z.of_nat 32) with W32 in W.
      specialize (W ltac:(rewrite Ev, Z.mul_comm, Z.mod_add by (num; lia); symmetry; apply Z.mod_small; exact Ln) HS).
      destruct (long_loop 32 (dbg c) (val m) (val (skipn i power)) (as_state value result temp)) as [z| | | |];
        cbn [mirrors] in W |- *; try contradiction.
      - apply wp_inv in W. destruct W as (((((p', R'), v'), r'), t') & -> & W). cbn [bind]. exact W.
      - now rewrite W. }
    intros (((R', v'), r'), t') z (-> & H').
    change (2 ^ Z.of_nat 32) with W32.
    replace (val (skipn i power) / W32) with (val (skipn (S i) power)).
    2:{ rewrite Ev, Z.mul_comm, Z.div_add, Z.div_small by (num; lia). ring. }
    apply IH; auto. lia.
Qed.

Lemma v_loop_leaky power R value result temp :
  limbs power -> power <> [] -> state_ok m R value result temp ->
  mirrors (fun b z => as_buffer b = snd (fst z) /\ sized m b)
    (powred_v_loop c power R value result temp)
    (st <- long_loop (32 * length power) (dbg c) (val m) (val power) (as_state value result temp) ;;
     short_loop 32 (dbg c) (val m) (val power / Bp (length power - 1)) st).
Proof.
  intros HP Hpne HS. unfold powred_v_loop.
  assert (0 < length power)%nat as LP by (destruct power; [congruence|cbn [length]; lia]).
  eapply mirrors_bind; [exact (v_limbs_leaky power (length power) 0 R value result temp HP eq_refl HS)|].
  intros (((R1, v1), r1), t1) z (-> & H1).
  eapply mirrors_left with (P := eq (nth (length power - 1) power 0)).
  { wstep; [lia|]. f_equal. lia. }
  intros p <-. pose proof (limbs_nth power (length power - 1) HP) as Ln.
  replace (val power / Bp (length power - 1)) with (nth (length power - 1) power 0).
  { apply loop_leaky; [|change (2 ^ Z.of_nat 32) with W32; apply Ln|exact H1]. change (Z.of_nat bit_fuel) with 33. num; lia. }
  pose proof (vl_bound power (length power - 1) HP) as VB. pose proof (Bp_pos (length power - 1)) as BP.
  assert (val power = vl power (length power - 1) + Bp (length power - 1) * nth (length power - 1) power 0) as ->.
  { rewrite <- (vl_all power). replace (length power) with (S (length power - 1)) at 1 by lia. rewrite vl_S. ring. }
  rewrite (Z.mul_comm (Bp _)), Z.div_add, Z.div_small by lia. ring.
Qed.
End Leaky.

Lemma core_leaky c m vb e pw : limbs m -> m <> [] -> top_nz m -> (32 <= length m)%nat -> 0 <= e < 2 ^ 31 -> limbs pw -> pw <> [] ->
  val_ok m vb ->
  let start := (as_buffer vb, (1, 1), 0) in
  mirrors (fun l z => limbs l /\ val l = fst (snd (fst z))) (powmod_core_u c e m vb) (short_loop 32 (dbg c) (val m) e start) /\
  mirrors (fun l z => limbs l /\ val l = fst (snd (fst z))) (powmod_core_v c pw m vb)
    (st <- long_loop (32 * length pw) (dbg c) (val m) (val pw) start ;;
     short_loop 32 (dbg c) (val m) (val pw / Bp (length pw - 1)) st).
Proof.
  intros M2 M1 M3 HL He P1 P2 HV start. pose proof HV as ((V1 & V2) & _).
  pose proof (buf_of_u_spec (length m + length m) 0 ltac:(num; lia) ltac:(lia)) as W. apply wp_inv in W.
  destruct W as (temp & T1 & T2 & _).
  pose proof (buf_of_u_spec (length m + length m) 1 ltac:(num; lia) ltac:(lia)) as W. apply wp_inv in W.
  destruct W as (result & R1 & R2 & R3).
  pose proof (reducer_make_good c m M2 M1 M3 ltac:(lia)) as W. apply wp_inv in W. destruct W as (R & G1 & G2).
  assert (state_ok m R vb result temp) as HS.
  { destruct T2 as [TS TL _ _ _ _]. destruct R2 as [RS RL RV _ RK _].
    split; [exact G2|]. split; [exact HV|]. split; [|split; [exact TL|exact TS]].
    split; [split; [exact RL|exact RS]|]. split; [lia|right; lia]. }
  assert (start = as_state vb result temp) as ->.
  { unfold start, as_state. destruct T2 as [_ _ TV _ _ _]. destruct R2 as [_ _ RV _ RK _]. rewrite TV.
    replace (as_buffer result) with (1, 1); [reflexivity|]. unfold as_buffer. rewrite RV.
    destruct (bb_len result) as [|[|k]]; [|reflexivity|lia]. exfalso. change (Bp 0) with 1 in RK. lia. }
  unfold powmod_core_u, powmod_core_v. rewrite V2, T1, R1. cbn [bind].
  rewrite (proj2 (Nat.ltb_ge (length m) ReducerThreshold)) by (unfold ReducerThreshold; lia). rewrite G1. cbn [bind].
  assert (forall o z, mirrors (fun b z => as_buffer b = snd (fst z) /\ sized m b) o z ->
    mirrors (fun l (z : power_state) => limbs l /\ val l = fst (snd (fst z))) (b <- o ;; Ret (bb_bits b)) z) as K.
  { intros o z. destruct z as [z| | | |]; cbn [mirrors]; try contradiction.
    - intros W. wstep. eapply wp_mono; [exact W|]. intros b (E & (B & _)). wstep. split; [exact B|].
      now rewrite <- E.
    - intros ->. reflexivity. }
  split; apply K.
  - apply (loop_leaky c m M2 M1 M3 HL bit_fuel 32 e R vb result temp); [change (Z.of_nat bit_fuel) with 33| |exact HS]; [lia|].
    change (Z.of_nat 32) with 32. lia.
  - apply (v_loop_leaky c m M2 M1 M3 HL pw R vb result temp P1 P2 HS).
Qed.

Lemma mod_pow_leaky c a b m x e z n :
  represents a x -> represents b e -> represents m z -> 0 <= e -> 32 <= n -> limb_count z n ->
  (Z.abs z <> 2 ^ (32 * (n - 1)) \/ 2 ^ (32 * n) <= Z.abs x \/ x * x < 2 ^ (32 * (2 * n - 1))) ->
  mirrors represents (bi_mod_pow c a b m) (leaky_mod_pow (dbg c) x e z).
Proof.
  intros Ha Hb Hm He Hn Hz HO. destruct (large_modulus m z n Hm Hn Hz) as (M1 & M2 & M3 & M4 & M5 & M6).
  destruct (large_entry c a b m x e z n Ha Hb Hm He Hn Hz) as (vb & V1 & V2 & ->).
  unfold leaky_mod_pow. rewrite (limbs_of_eq z n Hz). fold (base_of x z n). cbv zeta. rewrite <- M4.
  assert (as_buffer vb = (base_of x z n, len_of (base_of x z n))) as Ev.
  { pose proof (isbuf_exact _ _ _ V1) as (X1 & X2). pose proof V1 as [_ _ SV _ SH _]. unfold as_buffer. rewrite SV. f_equal.
    apply len_of_exact; [lia|]. now rewrite X2 in X1. }
  pose proof (large_val_ok m vb x z n V1 V2 M2 M1 M3 M4 (conj M5 M6) Hn HO) as HV.
  eapply mirrors_bind with (P := fun l (st : power_state) => limbs l /\ val l = fst (snd (fst st))).
  - rewrite <- Ev. destruct (val_parts b e Hb) as [(E1 & E2 & E3)|(E1 & E2 & E3 & E4 & E5)].
    + rewrite E1. cbn [is_nil]. rewrite (proj2 (Z.ltb_lt e (2 ^ 31))) by (num; lia).
      apply (core_leaky c (bits_of m) vb e [1]); auto; try (num; lia); try discriminate.
      constructor; [num; lia|constructor].
    + rewrite (is_nil_ne _ E1). rewrite (proj2 (Z.ltb_ge e (2 ^ 31))) by (num; lia).
      destruct (core_leaky c (bits_of m) vb 0 (bits_of b) M2 M1 M3 ltac:(lia) ltac:(lia) E2 E1 HV) as (_ & W).
      cbv zeta in W. rewrite E4, (Z.abs_eq e He) in W.
      assert (0 < length (bits_of b))%nat as LP by (destruct (bits_of b); [congruence|cbn [length]; lia]).
      rewrite (limbs_of_length b e Hb), Nat2Z.id, Nat.max_r by lia.
      rewrite Bp_pow2, Nat2Z.inj_sub in W by lia. exact W.
  - intros l st (L1 & L2). apply mirrors_wp. eapply wp_mono; [apply bi_of_mag_spec; exact L1|].
    intros r Hr. rewrite L2 in Hr. exact Hr.
Qed.

(** Exponents 0 and 1 *)
Lemma low_len v : 0 <= v -> low (len_of v) v = v.
Proof.
  intros Hv. unfold low, len_of. destruct (Z.eqb_spec v 0) as [->|N]; [reflexivity|].
  destruct (limbs_of_count v) as (_ & F & _). unfold fits_limbs in F. apply Z.mod_small. lia.
Qed.

Lemma low_0 k : low k 0 = 0.
Proof. unfold low. apply Zmod_0_l. Qed.

Lemma leaky_exponent_0 d x z : leaky_mod_pow d x 0 z = Ret 1.
Proof. unfold leaky_mod_pow. cbn [Z.ltb Z.compare]. cbn [short_loop]. cbn. now rewrite andb_false_r. Qed.

Lemma leaky_exponent_1 d x z : z <> 0 -> 32 <= limbs_of z ->
  leaky_mod_pow d x 1 z = Ret (if x <? 0 then - base_of x z (limbs_of z) else base_of x z (limbs_of z)).
Proof.
  intros Nz Hn. unfold leaky_mod_pow. fold (base_of x z (limbs_of z)). set (v := base_of x z (limbs_of z)).
  assert (0 <= v) as Hv.
  { unfold v, base_of. destruct (_ <? _); [lia|]. apply Z.mod_pos_bound. lia. }
  change (1 <? 2 ^ 31) with true. cbn beta iota zeta. cbn [short_loop]. change (1 =? 0) with false. change (1 / 2) with 0.
  change (1 =? 1) with true. change (0 =? 0) with true. cbn beta iota. change (Z.odd 1) with true. rewrite andb_true_r.
  unfold bit_times, times. cbn [fst snd]. rewrite low_0. unfold counts. cbn [fst snd]. rewrite (low_len v Hv).
  change (low 1 1) with 1.
  assert (0 <= len_of v) as Hl by (unfold len_of; destruct (v =? 0); [lia|pose proof (limbs_of_pos v); lia]).
  assert (forall f la lb a b, lb < 32 -> leaky_product f d la lb a b 0 = Ret (a * b)) as K.
  { intros f la lb a b H. destruct f; cbn [leaky_product]; rewrite (proj2 (Z.ltb_lt lb 32)) by lia; rewrite low_0; f_equal; ring. }
  assert (rest (1 + len_of v) 0 = 0) as R0 by (unfold rest; rewrite low_0; ring).
  destruct (Z.ltb_spec 1 (len_of v)).
  - rewrite K by lia. cbn [bind swapped fst snd shortened]. rewrite R0, Z.mul_1_r, Z.add_0_r. reflexivity.
  - rewrite K by lia. cbn [bind swapped fst snd shortened]. rewrite R0, Z.mul_1_l, Z.add_0_r. reflexivity.
Qed.
