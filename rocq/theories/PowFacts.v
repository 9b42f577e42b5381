(** Scratch buffers (BitsBuffer.cpp) and integer powers (PowMod.cpp:6-59). *)
From Verif Require Import Facts Spec AddSubFacts SquMulFacts DivRemFacts DivCoreFacts SpecFacts BigIntFacts SpecApi ShiftFacts ConvLaws ConvFacts.
From Verif Require Import CalcAddSub CalcSquMul CalcDivRem CalcPowMod BigInt.

Ltac Zify.zify_post_hook ::= idtac.

(** ** Buffers *)

Lemma actual_length_spec l n :
  (n <= length l)%nat ->
  wp (actual_length l n) (fun k => (k <= n)%nat /\ vl l k = vl l n /\
                              (k = O \/ nth (k - 1) l 0 <> 0)).
Proof.
  induction n as [|n IH]; intros Hn; cbn [actual_length].
  - wstep. auto.
  - wstep. wstep; [lia|]. destruct (Z.eqb_spec (nth n l 0) 0) as [E|E].
    + eapply wp_mono; [apply IH; lia|]. intros k (A & B & C). split; [lia|]. split; [|exact C].
      rewrite B, vl_S, E. ring.
    + wstep. split; [lia|]. split; [reflexivity|]. right. now replace (S n - 1)%nat with n by lia.
Qed.

(** [b] is a buffer of [size] limbs holding [v], with an exact length. *)
Record isbuf (size : nat) (b : bitsbuf) (v : Z) : Prop := {
  ib_size : length (bb_bits b) = size;
  ib_limbs : limbs (bb_bits b);
  ib_val : val (bb_bits b) = v;
  ib_len : (bb_len b <= size)%nat;
  ib_hi : 0 <= v < Bp (bb_len b);
  ib_lo : bb_len b <> O -> Bp (bb_len b - 1) <= v
}.

Lemma val_zero_zeros l : limbs l -> val l = 0 -> l = zeros (length l).
Proof.
  unfold zeros. induction 1 as [|x l Hx Hl IH]; intros E; [reflexivity|]. cbn [val] in E. cbn [length repeat].
  pose proof (val_bound l Hl) as B. assert (x = 0 /\ val l = 0) as (-> & E2) by (num; lia). f_equal. auto.
Qed.

Lemma upper_zero l n : limbs l -> (n <= length l)%nat -> val l < Bp n ->
  skipn n l = zeros (length l - n) /\ vl l n = val l.
Proof.
  intros Hl Hn Hv. pose proof (val_split l n Hn) as E. pose proof (vl_bound l n Hl) as B.
  pose proof (val_bound _ (limbs_skipn n l Hl)) as S. pose proof (Bp_pos n) as P.
  assert (val (skipn n l) = 0) as Z.
  { destruct (Z.eq_dec (val (skipn n l)) 0) as [|N]; [assumption|exfalso].
    assert (Bp n * 1 <= Bp n * val (skipn n l)) by (apply Z.mul_le_mono_nonneg_l; lia). lia. }
  split; [|rewrite Z in E; lia].
  rewrite (val_zero_zeros _ (limbs_skipn n l Hl) Z) at 1. now rewrite skipn_length.
Qed.

Lemma make_isbuf l n :
  limbs l -> (n <= length l)%nat -> val l < Bp n ->
  wp (actual_length l n) (fun k => isbuf (length l) (Buf l k) (val l) /\ (k <= n)%nat).
Proof.
  intros Hl Hn Hv. eapply wp_mono; [apply actual_length_spec; exact Hn|]. intros k (A & B & C).
  destruct (upper_zero l n Hl Hn Hv) as (_ & E). split; [|exact A].
  split; cbn [bb_bits bb_len]; auto; try lia.
  - rewrite <- E, <- B. now apply vl_bound.
  - intros Hk. destruct C as [C|C]; [contradiction|]. rewrite <- E, <- B.
    replace k with (S (k - 1)) at 2 by lia. rewrite vl_S.
    pose proof (vl_bound l (k - 1) Hl) as VB. pose proof (limbs_nth l (k - 1) Hl) as N. unfold limb in N.
    pose proof (Bp_pos (k - 1)) as P.
    assert (1 * Bp (k - 1) <= nth (k - 1) l 0 * Bp (k - 1)) by (apply Z.mul_le_mono_nonneg_r; lia). lia.
Qed.

Lemma buf_of_u_spec size v : limb v -> (1 <= size)%nat ->
  wp (buf_of_u size v) (fun b => isbuf size b v /\ (bb_len b <= 1)%nat).
Proof.
  intros Hv Hs. unfold buf_of_u. wstep. wstep; [rewrite length_zeros; lia|]. wstep.
  assert (val (upd (zeros size) 0 v) = v) as E.
  { rewrite val_upd by (rewrite length_zeros; lia). rewrite val_zeros, Bp_0.
    replace (nth 0 (zeros size) 0) with 0 by (destruct size; reflexivity). ring. }
  unfold limb in Hv.
  destruct (Z.eqb_spec v 0); (split; [split|]); cbn [bb_bits bb_len]; auto; try lia;
    try (rewrite length_upd; apply length_zeros);
    try (apply limbs_upd; [apply limbs_zeros|exact Hv]).
  all: try (change (Bp 0) with 1; lia).
  all: change (Bp (1 - 1)) with 1; lia.
Qed.

Lemma firstn_prefix_val l n : (n <= length l)%nat -> val (firstn n l) = vl l n.
Proof. reflexivity. Qed.

Lemma pad_val s n : val (s ++ zeros n) = val s.
Proof. rewrite val_app, val_zeros. ring. Qed.

Lemma buf_of_v_spec size l : limbs l -> val l < Bp size ->
  wp (buf_of_v size l) (fun b => isbuf size b (val l)).
Proof.
  intros Hl Hv. unfold buf_of_v. wstep.
  eapply wp_mono; [apply make_isbuf; [exact Hl|lia|apply val_bound, Hl]|].
  intros k ([_ _ _ K1 K2 K3] & K). cbn [bb_bits bb_len] in *.
  assert (k <= size)%nat as Hk.
  { destruct (Nat.le_gt_cases k size) as [G|G]; [exact G|exfalso].
    specialize (K3 ltac:(lia)). pose proof (Bp_le size (k - 1) ltac:(lia)). lia. }
  wstep. wstep; [rewrite firstn_length, length_zeros; lia|]. wstep. cbn [firstn app].
  rewrite skipn_zeros. rewrite firstn_length, Nat.min_l by lia. cbn [Nat.add].
  destruct (upper_zero l k Hl K1 ltac:(lia)) as (_ & E).
  split; cbn [bb_bits bb_len]; auto.
  - rewrite app_length, firstn_length, length_zeros. lia.
  - apply limbs_app. split; [now apply limbs_firstn|apply limbs_zeros].
  - rewrite pad_val. exact E.
Qed.

Lemma isbuf_prefix size b v : isbuf size b v ->
  limbs (firstn (bb_len b) (bb_bits b)) /\ length (firstn (bb_len b) (bb_bits b)) = bb_len b /\
  val (firstn (bb_len b) (bb_bits b)) = v /\ skipn (bb_len b) (bb_bits b) = zeros (size - bb_len b).
Proof.
  intros [S L V N H _]. split; [now apply limbs_firstn|]. split; [rewrite firstn_length; lia|].
  destruct (upper_zero (bb_bits b) (bb_len b) L ltac:(lia) ltac:(lia)) as (A & B). rewrite S in A.
  split; [unfold vl in B; lia|exact A].
Qed.

Lemma repeat_zeros n m : repeat 0 n ++ zeros m = zeros (n + m).
Proof. unfold zeros. symmetry. apply repeat_app. Qed.

(** Apply, when temp holds the padded product. *)
Lemma buf_apply_spec size this temp x v n :
  isbuf size this x -> length (bb_bits temp) = size -> limbs (bb_bits temp) ->
  val (bb_bits temp) = v -> v < Bp n -> (n <= size)%nat ->
  wp (buf_apply this temp n) (fun r => isbuf size (fst r) v /\ bb_bits (snd r) = zeros size /\
    (bb_len (fst r) <= n)%nat).
Proof.
  intros Ht Hs Hl Hv Hb Hn. unfold buf_apply. pose proof Ht as [S L _ N _ _].
  destruct (isbuf_prefix _ _ _ Ht) as (_ & _ & _ & Z).
  wstep. wstep; [lia|]. wstep.
  eapply wp_mono; [apply make_isbuf; [exact Hl|lia|lia]|]. intros k (K & Kn). wstep. cbn [fst snd bb_bits bb_len].
  rewrite Hs, Hv in K. split; [exact K|]. split; [|exact Kn].
  rewrite Z, repeat_zeros. f_equal. lia.
Qed.

Lemma slice_zeros size n (Q : list Z -> Prop) : (n <= size)%nat -> Q (zeros n) -> wp (slice (zeros size) 0 n) Q.
Proof.
  intros H HQ. wstep; [rewrite length_zeros; lia|]. cbn [skipn]. now rewrite firstn_zeros.
Qed.

Lemma buf_mul_self_spec c size this value temp x y :
  isbuf size this x -> isbuf size value y -> bb_bits temp = zeros size ->
  (bb_len this + bb_len value <= size)%nat ->
  wp (buf_mul_self c this value temp) (fun r => isbuf size (fst r) (x * y) /\ bb_bits (snd r) = zeros size /\
    (bb_len (fst r) <= bb_len this + bb_len value)%nat).
Proof.
  intros Hx Hy Ht Hn. unfold buf_mul_self.
  destruct (isbuf_prefix _ _ _ Hx) as (X1 & X2 & X3 & _). destruct (isbuf_prefix _ _ _ Hy) as (Y1 & Y2 & Y3 & _).
  pose proof Hx as [Sx _ _ Nx Bx _]. pose proof Hy as [Sy _ _ Ny By _].
  wstep. wstep; [lia|]. wstep. wstep; [lia|]. cbn [skipn]. rewrite Ht.
  wstep. apply slice_zeros; [lia|]. wstep.
  eapply wp_mono with (P := fun r => length r = (bb_len this + bb_len value)%nat /\ limbs r /\ val r = x * y).
  { set (p := firstn (bb_len this) (bb_bits this)) in *. set (q := firstn (bb_len value) (bb_bits value)) in *.
    clearbody p q. rewrite <- X2, <- Y2.
    destruct (Nat.ltb_spec (length p) (length q)) as [G|G].
    - eapply wp_mono; [rewrite Nat.add_comm; apply calc_mul_core_spec; auto; lia|].
      intros r (A & B & C). split; [lia|]. split; [exact B|]. rewrite C, X3, Y3. ring.
    - eapply wp_mono; [apply calc_mul_core_spec; auto; lia|].
      intros r (A & B & C). split; [lia|]. split; [exact B|]. rewrite C, X3, Y3. ring. }
  intros t (T1 & T2 & T3). wstep. wstep; [rewrite length_zeros; lia|]. cbn [firstn app].
  rewrite skipn_zeros, T1. cbn [Nat.add].
  eapply buf_apply_spec; cbn [bb_bits]; eauto.
  - rewrite app_length, length_zeros. lia.
  - apply limbs_app. split; [exact T2|apply limbs_zeros].
  - rewrite pad_val. exact T3.
  - apply prod_fit; lia.
Qed.

Lemma buf_square_self_spec c size this temp x :
  isbuf size this x -> bb_bits temp = zeros size -> (bb_len this + bb_len this <= size)%nat ->
  wp (buf_square_self c this temp) (fun r => isbuf size (fst r) (x * x) /\ bb_bits (snd r) = zeros size /\
    (bb_len (fst r) <= bb_len this + bb_len this)%nat).
Proof.
  intros Hx Ht Hn. unfold buf_square_self.
  destruct (isbuf_prefix _ _ _ Hx) as (X1 & X2 & X3 & _). pose proof Hx as [Sx _ _ Nx Bx _].
  wstep. wstep; [lia|]. cbn [skipn]. rewrite Ht. wstep. apply slice_zeros; [lia|]. wstep.
  eapply wp_mono; [apply calc_square_core_spec; [exact X1|apply limbs_zeros|rewrite length_zeros; lia|lia]|].
  intros t (T1 & T2 & T3). rewrite X2 in T1. rewrite X3 in T3. wstep. wstep; [rewrite length_zeros; lia|]. cbn [firstn app].
  rewrite skipn_zeros, T1. cbn [Nat.add].
  eapply buf_apply_spec; cbn [bb_bits]; eauto.
  - rewrite app_length, length_zeros. lia.
  - apply limbs_app. split; [exact T2|apply limbs_zeros].
  - rewrite pad_val. exact T3.
  - apply prod_fit; lia.
Qed.

(** ** pow *)

Lemma odd_land p : (Z.land p 1 =? 1) = Z.odd p.
Proof.
  change 1 with (Z.ones 1) at 1. rewrite Z.land_ones by lia. change (2 ^ 1) with 2.
  rewrite Zmod_odd. destruct (Z.odd p); reflexivity.
Qed.

Lemma half p : p = 2 * Z.shiftr p 1 + (if Z.odd p then 1 else 0).
Proof. rewrite <- Z.div2_spec. pose proof (Z.div2_odd p) as E. unfold Z.b2z in E. exact E. Qed.

Lemma half_lt p n : 0 <= p < 2 ^ Z.of_nat (S n) -> 0 <= Z.shiftr p 1 < 2 ^ Z.of_nat n.
Proof.
  intros H. pose proof (half p) as E. rewrite Nat2Z.inj_succ, Z.pow_succ_r in H by lia.
  destruct (Z.odd p); lia.
Qed.

Lemma pow_half v p : 0 <= p ->
  v ^ p = (if Z.odd p then v else 1) * (v * v) ^ Z.shiftr p 1.
Proof.
  intros Hp. pose proof (half p) as E. assert (0 <= Z.shiftr p 1) by (apply Z.shiftr_nonneg; exact Hp).
  rewrite E at 1. rewrite Z.pow_add_r by (destruct (Z.odd p); lia).
  rewrite Z.pow_mul_r by lia. rewrite Z.pow_2_r. destruct (Z.odd p); ring.
Qed.

Lemma pow_bound_exact fuel : forall p v r,
  0 <= p < 2 ^ Z.of_nat fuel -> 1 <= v -> 0 <= r < INT_MAX ->
  pow_bound_loop fuel p v r = if r + v * p <? INT_MAX then Ret (r + v * p) else Throw OverflowError.
Proof.
  induction fuel as [|fuel IH]; intros p v r Hp Hv Hr; cbn [pow_bound_loop].
  - assert (p = 0) as -> by (change (2 ^ Z.of_nat 0) with 1 in Hp; lia). change (0 =? 0) with true. cbn beta iota.
    rewrite Z.mul_0_r, Z.add_0_r, (proj2 (Z.ltb_lt _ _)) by lia. reflexivity.
  - destruct (Z.eqb_spec p 0) as [->|P0].
    { rewrite Z.mul_0_r, Z.add_0_r, (proj2 (Z.ltb_lt _ _)) by lia. reflexivity. }
    rewrite odd_land. pose proof (half p) as E. pose proof (half_lt p fuel Hp) as HL. set (h := Z.shiftr p 1) in *.
    assert (v * 1 <= v * p) as G1 by (apply Z.mul_le_mono_nonneg_l; lia).
    assert (forall r', r' + (v + v) * h = r' + v * (2 * h)) as G2 by (intros; ring).
    destruct (Z.odd p) eqn:Ho.
    + destruct (Z.ltb_spec v (INT_MAX - r)) as [L|L].
      2:{ cbn [bind]. rewrite (proj2 (Z.ltb_ge _ _)) by lia. reflexivity. }
      cbn [bind]. destruct (Z.eqb_spec p 1) as [P1|P1]; cbn [negb].
      * cbn [bind]. assert (h = 0) as -> by lia. rewrite P1, Z.mul_1_r.
        destruct fuel; cbn [pow_bound_loop]; change (0 =? 0) with true; cbn beta iota;
          rewrite (proj2 (Z.ltb_lt _ _)) by lia; reflexivity.
      * assert (v * 2 <= v * p) by (apply Z.mul_le_mono_nonneg_l; lia).
        destruct (Z.ltb_spec v (INT_MAX - v)) as [L2|L2]; cbn [bind].
        2:{ rewrite (proj2 (Z.ltb_ge _ _)) by lia. reflexivity. }
        rewrite IH by lia. replace (r + v + (v + v) * h) with (r + v * p); [reflexivity|]. rewrite E. ring.
    + cbn [bind]. destruct (Z.eqb_spec p 1) as [P1|P1]; cbn [negb]; [rewrite P1 in Ho; discriminate|].
      assert (v * 2 <= v * p) by (apply Z.mul_le_mono_nonneg_l; lia).
      destruct (Z.ltb_spec v (INT_MAX - v)) as [L2|L2]; cbn [bind].
      2:{ rewrite (proj2 (Z.ltb_ge _ _)) by lia. reflexivity. }
      rewrite IH by lia. replace (r + (v + v) * h) with (r + v * p); [reflexivity|]. rewrite E. ring.
Qed.

Lemma pow_core_loop_spec fuel c size : forall p value result temp v r,
  0 <= p < 2 ^ Z.of_nat fuel -> isbuf size value v -> isbuf size result r -> bb_bits temp = zeros size ->
  Z.of_nat (bb_len result) + Z.of_nat (bb_len value) * p <= Z.of_nat size ->
  wp (pow_core_loop fuel c p value result temp) (fun b => isbuf size b (r * v ^ p)).
Proof.
  induction fuel as [|fuel IH]; intros p value result temp v r Hp Hv Hr Ht Hn; cbn [pow_core_loop].
  - assert (p = 0) as -> by (change (2 ^ Z.of_nat 0) with 1 in Hp; lia). change (0 =? 0) with true. cbn beta iota.
    wstep. rewrite Z.pow_0_r, Z.mul_1_r. exact Hr.
  - destruct (Z.eqb_spec p 0) as [->|P0].
    { wstep. rewrite Z.pow_0_r, Z.mul_1_r. exact Hr. }
    rewrite odd_land, pow_half by lia.
    pose proof (half p) as E. pose proof (half_lt p fuel Hp) as HL. set (h := Z.shiftr p 1) in *.
    set (lv := Z.of_nat (bb_len value)) in *.
    assert (lv * 1 <= lv * p) as G1 by (apply Z.mul_le_mono_nonneg_l; lia).
    wstep. eapply wp_mono with (P := fun st =>
      isbuf size (fst st) (r * (if Z.odd p then v else 1)) /\ bb_bits (snd st) = zeros size /\
      Z.of_nat (bb_len (fst st)) <= Z.of_nat (bb_len result) + (if Z.odd p then lv else 0)).
    { destruct (Z.odd p).
      - eapply wp_mono; [apply buf_mul_self_spec; eauto; lia|]. intros st (A & B & C).
        split; [exact A|]. split; [exact B|]. lia.
      - wstep. cbn [fst snd]. rewrite Z.mul_1_r. split; [exact Hr|]. split; [exact Ht|]. lia. }
    intros (r1, t1) (R1 & T1 & L1). cbn [fst snd] in R1, T1, L1. wstep.
    destruct (Z.eqb_spec p 1) as [P1|P1]; cbn [negb].
    + wstep. assert (h = 0) as Eh by (unfold h; rewrite P1; reflexivity). rewrite Eh.
      destruct fuel; cbn [pow_core_loop]; change (0 =? 0) with true; cbn beta iota; wstep;
        rewrite Z.pow_0_r, Z.mul_1_r; exact R1.
    + assert (lv * 2 <= lv * p) as G2 by (apply Z.mul_le_mono_nonneg_l; lia).
      eapply wp_mono; [apply buf_square_self_spec; eauto; lia|].
      intros (v1, t2) (A & B & C). cbn [fst snd] in A, B, C.
      eapply wp_mono; [apply (IH h v1 r1 t2 (v * v)); eauto|].
      * assert (Z.of_nat (bb_len v1) * h <= (lv + lv) * h) by (apply Z.mul_le_mono_nonneg_r; lia).
        assert (lv * p = (lv + lv) * h + (if Z.odd p then lv else 0)) as F.
        { rewrite E at 1. destruct (Z.odd p); ring. }
        lia.
      * intros b Hb. rewrite <- Z.mul_assoc in Hb. exact Hb.
Qed.

Lemma pow_core_spec c size p value v :
  0 <= p < 2 ^ 32 -> isbuf size value v -> 1 + Z.of_nat (bb_len value) * p <= Z.of_nat size ->
  wp (pow_core c p value) (fun l => limbs l /\ val l = v ^ p).
Proof.
  intros Hp Hv Hn. unfold pow_core. pose proof Hv as [S _ _ _ _ _]. rewrite S.
  assert (0 <= Z.of_nat (bb_len value) * p) by (apply Z.mul_nonneg_nonneg; lia).
  assert (1 <= size)%nat by lia.
  wstep. eapply wp_mono; [apply buf_of_u_spec; [num; lia|lia]|]. intros temp (T & _).
  wstep. eapply wp_mono; [apply buf_of_u_spec; [num; lia|lia]|]. intros result (R & RL).
  wstep. eapply wp_mono; [eapply pow_core_loop_spec; eauto|].
  - change (Z.of_nat bit_fuel) with 33. lia.
  - pose proof T as [TS TL TV _ _ _]. rewrite (val_zero_zeros _ TL TV). now rewrite TS.
  - lia.
  - intros b [_ BL BV _ _ _]. wstep. split; [exact BL|]. rewrite BV. ring.
Qed.

Lemma calc_pow_u_exact c v p :
  limb v -> 0 <= p < 2 ^ 32 ->
  if 1 + p <? INT_MAX then wp (calc_pow_u c v p) (fun l => limbs l /\ val l = v ^ p)
  else calc_pow_u c v p = Throw OverflowError.
Proof.
  intros Hv Hp. unfold calc_pow_u, pow_bound.
  rewrite pow_bound_exact by (change (Z.of_nat bit_fuel) with 33; num; lia). rewrite Z.mul_1_l.
  destruct (Z.ltb_spec (1 + p) INT_MAX); [|reflexivity]. cbn [bind].
  wstep. eapply wp_mono; [apply buf_of_u_spec; [exact Hv|lia]|]. intros b (B & L).
  eapply pow_core_spec; eauto.
  assert (Z.of_nat (bb_len b) * p <= 1 * p) by (apply Z.mul_le_mono_nonneg_r; lia). lia.
Qed.

Lemma calc_pow_v_exact c l p :
  limbs l -> l <> [] -> 0 < p < 2 ^ 32 ->
  if 1 + Z.of_nat (length l) * p <? INT_MAX
  then wp (calc_pow_v c l p) (fun r => limbs r /\ val r = val l ^ p)
  else calc_pow_v c l p = Throw OverflowError.
Proof.
  intros Hl Hne Hp. unfold calc_pow_v, pow_bound.
  assert (1 <= length l)%nat as H1 by (destruct l; [congruence|cbn [length]; lia]).
  rewrite pow_bound_exact by (change (Z.of_nat bit_fuel) with 33; num; lia).
  destruct (Z.ltb_spec (1 + Z.of_nat (length l) * p) INT_MAX); [|reflexivity]. cbn [bind].
  assert (Z.of_nat (length l) * 1 <= Z.of_nat (length l) * p) as G by (apply Z.mul_le_mono_nonneg_l; lia).
  set (size := Z.to_nat (1 + Z.of_nat (length l) * p)).
  pose proof (val_bound l Hl) as VB. pose proof (Bp_le (length l) size ltac:(lia)) as BL.
  wstep. eapply wp_mono; [apply buf_of_v_spec; [exact Hl|lia]|]. intros b B.
  eapply pow_core_spec; [lia|exact B|]. pose proof B as [_ _ _ _ _ Lo].
  assert (bb_len b <= length l)%nat as Lb.
  { destruct (Nat.le_gt_cases (bb_len b) (length l)) as [|K]; [assumption|exfalso].
    specialize (Lo ltac:(lia)). pose proof (Bp_le (length l) (bb_len b - 1) ltac:(lia)). lia. }
  assert (Z.of_nat (bb_len b) * p <= Z.of_nat (length l) * p) by (apply Z.mul_le_mono_nonneg_r; lia). lia.
Qed.

(** ** BigInteger::pow *)

Lemma limb_count_length a x n :
  represents a x -> limb_count x n -> n = Z.max 1 (Z.of_nat (length (bits_of a))).
Proof.
  intros Ha (H1 & H2 & H3). pose proof (repr_length a x n Ha ltac:(lia) H2) as A.
  pose proof (H3 (Z.max 1 (Z.of_nat (length (bits_of a)))) ltac:(lia) (length_fits a x Ha)) as B. lia.
Qed.

Lemma odd_land0 e : negb (Z.land e 1 =? 0) = Z.odd e.
Proof.
  change 1 with (Z.ones 1). rewrite Z.land_ones by lia. change (2 ^ 1) with 2.
  rewrite Zmod_odd. destruct (Z.odd e); reflexivity.
Qed.

Lemma pow_sign z e : 0 <= e -> (if (z <? 0) && Z.odd e then - (Z.abs z) ^ e else (Z.abs z) ^ e) = z ^ e.
Proof.
  intros He. destruct (Z.ltb_spec z 0) as [H|H]; cbn [andb].
  - replace z with (- Z.abs z) at 3 by lia. destruct (Z.odd e) eqn:O.
    + rewrite Z.pow_opp_odd; [reflexivity|]. now apply Z.odd_spec.
    + rewrite Z.pow_opp_even; [reflexivity|]. apply Z.even_spec. rewrite <- Z.negb_odd, O. reflexivity.
  - now rewrite Z.abs_eq.
Qed.

Lemma bi_pow_family c a x e n :
  represents a x -> limb_count x n -> - 2 ^ 31 <= e < 2 ^ 31 ->
  (e < 0 -> bi_pow c a e = Throw OutOfRange) /\
  (0 <= e -> Z.abs x <= 1 \/ e <= 1 \/ n * e + 1 < 2 ^ 31 - 1 -> returns (bi_pow c a e) (x ^ e)) /\
  (1 < e -> 1 < Z.abs x -> 2 ^ 31 - 1 <= n * e + 1 -> bi_pow c a e = Throw OverflowError).
Proof.
  intros Ha Hn He. pose proof (limb_count_length a x n Ha Hn) as En. unfold bi_pow.
  split; [|split].
  - intros H. rewrite (proj2 (Z.ltb_lt _ _) H). reflexivity.
  - intros H0 Hc. rewrite (proj2 (Z.ltb_ge _ _) H0). rewrite (assert_valid_ok c a x Ha). cbn [bind].
    apply returns_wp.
    destruct (Z.eqb_spec e 0) as [->|E0]; [wstep; rewrite Z.pow_0_r; apply repr_small; num; lia|].
    destruct (Z.eqb_spec e 1) as [->|E1]; [wstep; rewrite Z.pow_1_r; exact Ha|].
    rewrite odd_land0. pose proof Ha as Ha'. apply repr_parts in Ha'. destruct a as [s l]. cbn [sign_of bits_of] in *.
    inv_parts Ha'; nils.
    + cbn [length] in *.
      destruct (Z.eqb_spec x 1) as [->|X1]; [wstep; rewrite Z.pow_1_l by lia; exact Ha|].
      destruct (Z.eqb_spec x (-1)) as [->|X2].
      { wstep. pose proof (pow_sign (-1) e H0) as P. change (-1 <? 0) with true in P. change (Z.abs (-1)) with 1 in P.
        rewrite Z.pow_1_l in P by lia. cbn [andb] in P. rewrite <- P. destruct (Z.odd e); [exact Ha|apply repr_small; num; lia]. }
      destruct (Z.eqb_spec x 0) as [->|X3]; [wstep; rewrite Z.pow_0_l by lia; exact Ha|].
      wstep. apply wp_abs32; [num; lia|]. rewrite (Z.abs_eq e) by lia. wstep. wstep. apply wp_abs32; [num; lia|].
      pose proof (calc_pow_u_exact c (Z.abs x) e ltac:(num; lia) ltac:(lia)) as P.
      destruct (Z.ltb_spec (1 + e) INT_MAX) as [L|L]; [|exfalso; num; lia].
      eapply wp_mono; [exact P|]. intros r (R1 & R2). apply mag_result; [exact R1|]. rewrite R2. now apply pow_sign.
    + 
      wstep. apply wp_abs32; [num; lia|]. rewrite (Z.abs_eq e) by lia. wstep.
      pose proof (calc_pow_v_exact c l e ltac:(assumption) ltac:(assumption) ltac:(lia)) as P.
      assert (1 <= Z.of_nat (length l)) as L1 by (destruct l; [congruence|cbn [length]; lia]).
      rewrite Z.max_r in Hc by lia.
      assert (Z.abs (s * val l) = val l) as Ea by (signs; lia).
      destruct (Z.ltb_spec (1 + Z.of_nat (length l) * e) INT_MAX) as [L|L]; [|exfalso; num; lia].
      eapply wp_mono; [exact P|]. intros r (R1 & R2). apply mag_result; [exact R1|]. rewrite R2.
      pose proof (pow_sign (s * val l) e H0) as PS. rewrite Ea in PS. rewrite <- PS.
      replace (s * val l <? 0) with (s <? 0); [reflexivity|].
      destruct (Z.ltb_spec s 0), (Z.ltb_spec (s * val l) 0); signs; lia.
  - intros H1 Hx Hc. rewrite (proj2 (Z.ltb_ge e 0)) by lia. rewrite (assert_valid_ok c a x Ha). cbn [bind].
    rewrite (proj2 (Z.eqb_neq e 0)), (proj2 (Z.eqb_neq e 1)) by lia.
    apply repr_parts in Ha. destruct a as [s l]. cbn [sign_of bits_of] in *.
    inv_parts Ha; nils.
    + cbn [length] in *. rewrite (proj2 (Z.eqb_neq x 1)), (proj2 (Z.eqb_neq x (-1))), (proj2 (Z.eqb_neq x 0)) by lia.
      rewrite abs32_ok by (num; lia). cbn [bind]. rewrite abs32_ok by (num; lia). cbn [bind].
      rewrite (Z.abs_eq e) by lia.
      pose proof (calc_pow_u_exact c (Z.abs x) e ltac:(num; lia) ltac:(lia)) as P.
      destruct (Z.ltb_spec (1 + e) INT_MAX) as [L|L]; [exfalso; num; lia|]. now rewrite P.
    +  rewrite abs32_ok by (num; lia). cbn [bind].
      rewrite (Z.abs_eq e) by lia.
      pose proof (calc_pow_v_exact c l e ltac:(assumption) ltac:(assumption) ltac:(lia)) as P.
      assert (1 <= Z.of_nat (length l)) as L1 by (destruct l; [congruence|cbn [length]; lia]).
      rewrite Z.max_r in Hc by lia.
      destruct (Z.ltb_spec (1 + Z.of_nat (length l) * e) INT_MAX) as [L|L]; [exfalso; num; lia|]. now rewrite P.
Qed.
