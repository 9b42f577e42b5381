(** The LLP64 reading: mod_pow. *)
From Verif Require Import Facts Spec AddSubFacts SquMulFacts DivRemFacts DivCoreFacts SpecFacts BigIntFacts SpecApi ConvFacts.
From Verif Require Import CompareFacts CalcAddSub CalcSquMul CalcDivRem CalcPowMod BigInt ConvLaws ShiftFacts WordFacts PowFacts ModPowFacts ModPowApi ReducerFacts GcdFacts.
From Verif Require Import WinCalc WinBigInt SpecWin WinFacts WinMulFacts WinPowFacts.
Ltac Zify.zify_post_hook ::= idtac.

Lemma for_up_0 {T} j body (s : T) : for_up 0 j body s = Ret s. Proof. reflexivity. Qed.
Lemma for_up_S {T} k j body (s : T) : for_up (S k) j body s = (s' <- body j s ;; for_up k (S j) body s').
Proof. reflexivity. Qed.

(** ** Moduli below 32 limbs *)

Lemma isbuf_zeros size b : isbuf size b 0 -> bb_bits b = zeros size.
Proof. intros [A B C _ _ _]. rewrite <- A. now apply val_zero_zeros. Qed.

Section Medium.
Variables (c : cfg) (m : list Z).
Hypothesis Hm : limbs m.
Hypothesis Hne : m <> [].
Hypothesis Ht : top_nz m.
Hypothesis Hlt : (length m < 32)%nat.
Let M := length m.
Let size := (M + M)%nat.

Lemma pm_limbs32 b v : pm_state size M b v -> limbs32 v = false.
Proof. intros (B & L). rewrite (isbuf_limbs32 _ _ _ B). apply Nat.leb_gt. unfold M in L. lia. Qed.

Lemma pm_mul_w value result temp v r : pm_state size M value v -> pm_state size M result r -> bb_bits temp = zeros size ->
  buf_mul_self_w None c result value temp = buf_mul_self c result value temp.
Proof.
  intros Hv Hr Hz. rewrite (buf_mul_self_w_eq c size result value temp r v); [|apply Hr|apply Hv|exact Hz|].
  - now rewrite (pm_limbs32 _ _ Hv), andb_false_r.
  - destruct Hv, Hr. unfold size. lia.
Qed.

Lemma pm_square_w value temp v : pm_state size M value v -> bb_bits temp = zeros size ->
  buf_square_self_w None c value temp = buf_square_self c value temp.
Proof.
  intros Hv Hz. rewrite (buf_square_self_w_eq c size value temp v); [|apply Hv|exact Hz|].
  - now rewrite (pm_limbs32 _ _ Hv).
  - destruct Hv. unfold size. lia.
Qed.

Lemma powmod_loop_w_eq fuel : forall p value result temp v r,
  0 <= p < 2 ^ Z.of_nat fuel -> pm_state size M value v -> pm_state size M result r -> bb_bits temp = zeros size ->
  powmod_loop_w None fuel c p m value result temp = powmod_loop fuel c p m value result temp.
Proof.
  induction fuel as [|fuel IH]; intros p value result temp v r Hp Hv Hr Htm; cbn [powmod_loop powmod_loop_w]; [reflexivity|].
  destruct (Z.eqb_spec p 0) as [->|P0]; [reflexivity|].
  rewrite odd_land. pose proof (half_lt p fuel Hp) as HL.
  rewrite (pm_mul_w value result temp v r) by assumption.
  pose proof (pm_cond_mul c m Hm Hne Ht (Z.odd p) result value temp r v Hr Hv Htm) as W. apply wp_inv in W.
  destruct W as ((r1, t1) & -> & r' & R1 & T1 & _). cbn [fst snd] in R1, T1. cbn [bind].
  destruct (Z.eqb_spec p 1) as [P1|P1]; cbn [negb bind].
  - apply (IH _ value r1 t1 v r'); auto.
  - rewrite (pm_square_w value t1 v) by assumption.
    pose proof (pm_square c m Hm Hne Ht value t1 v Hv T1) as W. apply wp_inv in W.
    destruct W as ((v1, t2) & -> & V1 & T2). cbn [fst snd] in V1, T2. cbn [bind].
    eapply IH; eauto.
Qed.

Lemma powmod_v_step_w_eq p value result temp v r :
  pm_state size M value v -> pm_state size M result r -> bb_bits temp = zeros size ->
  powmod_v_step_w None c m (p, value, result, temp) = powmod_v_step c m (p, value, result, temp) /\
  wp (powmod_v_step c m (p, value, result, temp)) (fun st => let '(_, value', result', temp') := st in
    (exists v', pm_state size M value' v') /\ (exists r', pm_state size M result' r') /\ bb_bits temp' = zeros size).
Proof.
  intros Hv Hr Htm. unfold powmod_v_step_w, powmod_v_step. rewrite odd_land.
  rewrite (pm_mul_w value result temp v r) by assumption.
  pose proof (pm_cond_mul c m Hm Hne Ht (Z.odd p) result value temp r v Hr Hv Htm) as W. apply wp_inv in W.
  destruct W as ((r1, t1) & -> & r' & R1 & T1 & _). cbn [fst snd] in R1, T1. cbn [bind].
  rewrite (pm_square_w value t1 v) by assumption. split; [reflexivity|].
  pose proof (pm_square c m Hm Hne Ht value t1 v Hv T1) as W. apply wp_inv in W.
  destruct W as ((v1, t2) & E & V1 & T2). cbn [fst snd] in V1, T2.
  destruct (buf_square_self c value t1) as [(x, y)| | | |]; cbn [bind] in *; try discriminate.
  destruct (buf_reduce c x m); cbn [bind] in *; try discriminate. injection E as -> ->. wstep. eauto.
Qed.

Lemma powmod_v_bits_w_eq k : forall j p value result temp v r,
  pm_state size M value v -> pm_state size M result r -> bb_bits temp = zeros size ->
  for_up k j (fun _ st => powmod_v_step_w None c m st) (p, value, result, temp) =
  for_up k j (fun _ st => powmod_v_step c m st) (p, value, result, temp).
Proof.
  induction k as [|k IH]; intros j p value result temp v r Hv Hr Htm; [now rewrite !for_up_0|]. rewrite !for_up_S.
  destruct (powmod_v_step_w_eq p value result temp v r Hv Hr Htm) as (-> & W).
  apply wp_inv in W. destruct W as ((((p', value'), result'), temp') & -> & (v' & V) & (r' & R) & T). cbn [bind].
  eapply IH; eauto.
Qed.

Lemma powmod_v_outer_w_eq e : limbs e -> forall k j value result temp v r, (j + k <= length e)%nat ->
  pm_state size M value v -> pm_state size M result r -> bb_bits temp = zeros size ->
  let body := fun stp => for_up k j (fun i (st : bitsbuf * bitsbuf * bitsbuf) =>
      let '(value, result, temp) := st in
      p <- rd e i ;;
      '(_, value, result, temp) <- for_up 32 0 (fun _ st => stp st) (p, value, result, temp) ;;
      Ret (value, result, temp)) (value, result, temp) in
  body (powmod_v_step_w None c m) = body (powmod_v_step c m) /\
  wp (body (powmod_v_step c m)) (fun st => let '(value', result', temp') := st in
    (exists v', pm_state size M value' v') /\ (exists r', pm_state size M result' r') /\ bb_bits temp' = zeros size).
Proof.
  intros He. induction k as [|k IH]; intros j value result temp v r Hj Hv Hr Htm body; subst body.
  { cbv beta. rewrite !for_up_0. split; [reflexivity|]. wstep. eauto. }
  cbv beta. rewrite !(for_up_S k). rewrite (rd_ok e j) by lia. cbn [bind].
  rewrite (powmod_v_bits_w_eq 32 0 _ value result temp v r) by assumption.
  pose proof (powmod_v_bits_spec c m Hm Hne Ht (nth j e 0) value result temp v r (limbs_nth e j He) Hv Hr Htm) as W.
  apply wp_inv in W. destruct W as ((((p', value'), result'), temp') & -> & v' & r' & V & R & T & _). cbn [bind].
  apply (IH (S j) value' result' temp' v' r'); auto. lia.
Qed.

Lemma powmod_v_loop_w_eq e value result temp v r :
  limbs e -> e <> [] -> pm_state size M value v -> pm_state size M result r -> bb_bits temp = zeros size ->
  powmod_v_loop_w None c e m value result temp = powmod_v_loop c e m value result temp.
Proof.
  intros He Hn Hv Hr Htm. unfold powmod_v_loop_w, powmod_v_loop.
  assert (0 < length e)%nat as L by (now apply nonempty_length).
  destruct (powmod_v_outer_w_eq e He (length e - 1) 0 value result temp v r ltac:(lia) Hv Hr Htm) as (E & W).
  cbv beta zeta in E, W. rewrite E. apply wp_inv in W.
  destruct W as (((value', result'), temp') & -> & (v' & V) & (r' & R) & T). cbn [bind].
  assert (rdz e (Z.of_nat (length e) - 1) = Ret (nth (length e - 1) e 0)) as ->.
  { unfold rdz. rewrite (proj2 (Z.ltb_ge _ 0)) by lia.
    replace (Z.to_nat (Z.of_nat (length e) - 1)) with (length e - 1)%nat by lia. apply rd_ok. lia. }
  cbn [bind]. eapply powmod_loop_w_eq; eauto. pose proof (limbs_nth e (length e - 1) He) as G.
  change (Z.of_nat bit_fuel) with 33. num. lia.
Qed.

Lemma one_buf c0 : wp (buf_of_u size c0) (fun b => isbuf size b c0 /\ (bb_len b <= 1)%nat) ->
  exists b, buf_of_u size c0 = Ret b /\ isbuf size b c0 /\ (bb_len b <= 1)%nat.
Proof. intros W. now apply wp_inv in W. Qed.

Lemma powmod_core_u_w_eq p value v : 0 <= p < 2 ^ 32 -> pm_state size M value v ->
  powmod_core_u_w None c p m value = powmod_core_u c p m value.
Proof.
  intros Hp Hv. unfold powmod_core_u_w, powmod_core_u. pose proof Hv as ([Sz _ _ _ _ _] & _). rewrite Sz. cbv zeta.
  pose proof (nonempty_length m Hne) as M1. change (length m) with M in M1.
  destruct (one_buf 0) as (tb & -> & T & _); [apply buf_of_u_spec; [num; lia|unfold size; lia]|]. cbn [bind].
  destruct (one_buf 1) as (rb & -> & R & RL); [apply buf_of_u_spec; [num; lia|unfold size; lia]|]. cbn [bind].
  rewrite (proj2 (Nat.ltb_lt (length m) ReducerThreshold)) by exact Hlt.
  rewrite (powmod_loop_w_eq bit_fuel p value rb tb v 1); [reflexivity|change (Z.of_nat bit_fuel) with 33; lia|exact Hv| |].
  - split; [exact R|lia].
  - now apply (isbuf_zeros size).
Qed.

Lemma powmod_core_v_w_eq e value v : limbs e -> e <> [] -> pm_state size M value v ->
  powmod_core_v_w None c e m value = powmod_core_v c e m value.
Proof.
  intros He Hn Hv. unfold powmod_core_v_w, powmod_core_v. pose proof Hv as ([Sz _ _ _ _ _] & _). rewrite Sz. cbv zeta.
  pose proof (nonempty_length m Hne) as M1. change (length m) with M in M1.
  destruct (one_buf 0) as (tb & -> & T & _); [apply buf_of_u_spec; [num; lia|unfold size; lia]|]. cbn [bind].
  destruct (one_buf 1) as (rb & -> & R & RL); [apply buf_of_u_spec; [num; lia|unfold size; lia]|]. cbn [bind].
  rewrite (proj2 (Nat.ltb_lt (length m) ReducerThreshold)) by exact Hlt.
  rewrite (powmod_v_loop_w_eq e value rb tb v 1); [reflexivity|exact He|exact Hn|exact Hv| |].
  - split; [exact R|lia].
  - now apply (isbuf_zeros size).
Qed.

Lemma pm_u_buf v : limb v -> wp (buf_of_u (length m + length m) v) (fun b => pm_state size M b v).
Proof.
  intros Hv. pose proof (nonempty_length m Hne) as L. eapply wp_mono; [apply buf_of_u_spec; [exact Hv|lia]|].
  intros b (A & B). split; [exact A|unfold M; lia].
Qed.

Lemma calc_uuv_w_eq v p : limb v -> 0 <= p < 2 ^ 32 -> calc_powmod_uuv_w None c v p m = calc_powmod_uuv c v p m.
Proof.
  intros Hv Hp. unfold calc_powmod_uuv_w, calc_powmod_uuv.
  pose proof (pm_u_buf v Hv) as W. apply wp_inv in W. destruct W as (b & -> & B). cbn [bind].
  eapply powmod_core_u_w_eq; eauto.
Qed.

Lemma calc_uvv_w_eq v e : limb v -> limbs e -> e <> [] -> calc_powmod_uvv_w None c v e m = calc_powmod_uvv c v e m.
Proof.
  intros Hv He Hn. unfold calc_powmod_uvv_w, calc_powmod_uvv.
  pose proof (pm_u_buf v Hv) as W. apply wp_inv in W. destruct W as (b & -> & B). cbn [bind].
  eapply powmod_core_v_w_eq; eauto.
Qed.

Lemma calc_vuv_w_eq v p : limbs v -> 0 <= p < 2 ^ 32 -> calc_powmod_vuv_w None c v p m = calc_powmod_vuv c v p m.
Proof.
  intros Hv Hp. unfold calc_powmod_vuv_w, calc_powmod_vuv.
  pose proof (powmod_buf_spec c m Hm Hne Ht Hlt v Hv) as W. apply wp_inv in W. destruct W as (b & -> & x & B & _). cbn [bind].
  eapply powmod_core_u_w_eq; eauto.
Qed.

Lemma calc_vvv_w_eq v e : limbs v -> limbs e -> e <> [] -> calc_powmod_vvv_w None c v e m = calc_powmod_vvv c v e m.
Proof.
  intros Hv He Hn. unfold calc_powmod_vvv_w, calc_powmod_vvv.
  pose proof (powmod_buf_spec c m Hm Hne Ht Hlt v Hv) as W. apply wp_inv in W. destruct W as (b & -> & x & B & _). cbn [bind].
  eapply powmod_core_v_w_eq; eauto.
Qed.
End Medium.

Lemma mod_pow_w_negative w c a b m e : represents b e -> e < 0 -> bi_mod_pow_w w c a b m = Throw OutOfRange.
Proof.
  intros Hb He. unfold bi_mod_pow_w. rewrite (repr_sign_ltb b e Hb), (proj2 (Z.ltb_lt _ _) He). reflexivity.
Qed.

Theorem mod_pow_w_small c a b m x e z :
  represents a x -> represents b e -> represents m z -> limbs32 z = false ->
  bi_mod_pow_w None c a b m = bi_mod_pow c a b m.
Proof.
  intros Ha Hb Hm Hz. unfold bi_mod_pow_w, bi_mod_pow.
  destruct (Z.lt_ge_cases e 0) as [He|He].
  { rewrite (repr_sign_ltb b e Hb), (proj2 (Z.ltb_lt _ _) He). reflexivity. }
  destruct (exp_parts b e Hb He) as (-> & Eb).
  rewrite (assert_valid_ok c a x Ha), (assert_valid_ok c b e Hb), (assert_valid_ok c m z Hm). cbn [bind].
  destruct (val_parts m z Hm) as [(M1 & M2 & M3)|(M1 & M2 & M3 & M4 & M5)].
  { rewrite M1. cbn [is_nil]. reflexivity. }
  rewrite (is_nil_ne _ M1).
  assert (length (bits_of m) < 32)%nat as Lt.
  { apply Nat.leb_gt. rewrite <- Hz, <- limbs32_abs, <- M4. symmetry. now apply limbs32_val. }
  destruct (val_parts a x Ha) as [(A1 & A2 & A3)|(A1 & A2 & A3 & A4 & A5)];
    destruct Eb as [(E1 & E2 & E3)|(E1 & E2 & E3)].
  - rewrite A1, E1, A2, E2. cbn [is_nil]. rewrite !abs32_ok by (num; lia). cbn [bind].
    rewrite calc_uuv_w_eq by (auto; num; lia). reflexivity.
  - rewrite A1, A2. rewrite (is_nil_ne _ E1). cbn [is_nil]. rewrite !abs32_ok by (num; lia). cbn [bind].
    rewrite calc_uvv_w_eq by (auto; num; lia). reflexivity.
  - rewrite (is_nil_ne _ A1), E1, E2. cbn [is_nil]. rewrite !abs32_ok by (num; lia). cbn [bind].
    rewrite calc_vuv_w_eq by (auto; num; lia). reflexivity.
  - rewrite (is_nil_ne _ A1), (is_nil_ne _ E1).
    rewrite calc_vvv_w_eq by auto. reflexivity.
Qed.
