(** The tests' byte arithmetic is exact: division, bitwise operations, gcd,
    multiplication, powers. *)
From Verif Require Import Facts SpecPos PosFacts BytesFacts WordFacts BigInt BigIntBytes TestOracle OracleFacts.

Ltac Zify.zify_post_hook ::= idtac.

Lemma pow2_pos n : 0 < 2 ^ Z.of_nat n.
Proof. apply Z.pow_pos_nonneg; lia. Qed.

Lemma rem_zero a : Z.rem a 0 = a.
Proof. destruct a; reflexivity. Qed.

Lemma pow2_S n : 2 ^ Z.of_nat (S n) = 2 * 2 ^ Z.of_nat n.
Proof. rewrite Nat2Z.inj_succ, Z.pow_succ_r by lia. reflexivity. Qed.

Lemma pow2_add a b : 2 ^ Z.of_nat (a + b) = 2 ^ Z.of_nat a * 2 ^ Z.of_nat b.
Proof. rewrite Nat2Z.inj_add, Z.pow_add_r by lia. reflexivity. Qed.

Lemma pv_zeros n : pv (zeros n) = 0.
Proof. unfold zeros. induction n as [|n IH]; [reflexivity|]. cbn [repeat positional]. rewrite IH. reflexivity. Qed.

Lemma digits_zeros n : digits 256 (zeros n).
Proof. unfold zeros, digits. induction n as [|n IH]; constructor; [lia|exact IH]. Qed.

Lemma zeros_len n : length (zeros n) = n.
Proof. apply repeat_length. Qed.

(** ** GetBytes *)

Lemma bit_step V k : V / 2 ^ Z.of_nat k = 2 * (V / 2 ^ Z.of_nat (S k)) + b2z (Z.testbit V (Z.of_nat k)).
Proof.
  pose proof (pow2_pos k). pose proof (odd_div (V / 2 ^ Z.of_nat k)) as O.
  rewrite pow2_S, (Z.mul_comm 2 (2 ^ _)), <- Z.div_div by lia. rewrite Z.testbit_odd, Z.shiftr_div_pow2 by lia. exact O.
Qed.

Lemma lor1_even m : 0 <= m < 256 -> Z.even m = true -> Z.lor m 1 = m + 1 /\ 0 <= m + 1 < 256.
Proof.
  intros H E.
  assert (negb (Z.even m) || ((Z.lor m 1 =? m + 1) && (m + 1 <? 256)) = true) as A.
  { apply (byte_all (fun m => negb (Z.even m) || ((Z.lor m 1 =? m + 1) && (m + 1 <? 256)))); [vm_compute; reflexivity|exact H]. }
  rewrite E in A. cbn [negb orb] in A. apply andb_true_iff in A. destruct A as [A1 A2].
  apply Z.eqb_eq in A1. apply Z.ltb_lt in A2. lia.
Qed.

Lemma ref_get_bytes_spec bs size : digits 256 bs -> (Nat.div size 8 + 1 <= length bs)%nat -> pv bs < 2 ^ Z.of_nat size ->
  wp (ref_get_bytes bs size) (fun r => enc r (pv bs)).
Proof.
  intros D L H. pose proof (pv_bound bs D) as B. set (V := pv bs) in *. unfold ref_get_bytes.
  assert (forall k, (size <= k)%nat -> V / 2 ^ Z.of_nat k = 0) as Z0.
  { intros k Hk. apply Z.div_small. split; [lia|]. apply (Z.lt_le_trans _ _ _ H). apply Z.pow_le_mono_r; lia. }
  assert (forall k, (size <= k)%nat -> Z.testbit V (Z.of_nat k) = false) as T0.
  { intros k Hk. pose proof (bit_step V k) as Bs. rewrite !Z0 in Bs by lia. now destruct (Z.testbit V (Z.of_nat k)). }
  pose proof (Nat.div_mod size 8 ltac:(lia)) as DM. pose proof (Nat.mod_upper_bound size 8 ltac:(lia)) as DM'.
  eapply wp_for_down with (I := fun i m => enc m (V / 2 ^ Z.of_nat (8 * i))).
  - rewrite Z0 by lia. split; [repeat constructor; lia|]. split; [discriminate|reflexivity].
  - intros i m Hi E.
    eapply wp_for_down with (I := fun j m => enc m (V / 2 ^ Z.of_nat (8 * i + j))).
    + replace (8 * i + 8)%nat with (8 * S i)%nat by lia. exact E.
    + clear m E. intros j m Hj E. replace (8 * i + S j)%nat with (S (8 * i + j)) in E by lia.
      set (k := (8 * i + j)%nat) in *.
      eapply wp_bind_cut; [apply (ref_shift_grow_spec m _ E)|]. intros g (G & _).
      assert (0 <= V / 2 ^ Z.of_nat (S k)) as P by (apply Z.div_pos; [lia|apply pow2_pos]).
      eapply wp_bind_cut with (P := fun one => one = Z.testbit V (Z.of_nat k)).
      { destruct (Nat.ltb_spec k size); [|apply wp_ret; symmetry; now apply T0]. apply bits_get_spec; [exact D| |lia].
        subst k. assert (8 * i + j < 8 * (Nat.div size 8 + 1))%nat by lia. lia. }
      intros one ->. rewrite (bit_step V k). set (M := V / 2 ^ Z.of_nat (S k)) in *.
      destruct (Z.testbit V (Z.of_nat k)); cbn [b2z]; [|apply wp_ret; replace (2 * M + 0) with (2 * M) by lia; exact G].
      pose proof G as (Dg & Ng & _). pose proof (enc_pv g _ G) as Pg. pose proof (enc_range g _ G) as Rg.
      destruct g as [|g0 g]; [congruence|]. cbn [positional] in Pg.
      destruct (Z.ltb_spec (2 * M) 0); [lia|].
      apply wp_bind, wp_rd; [cbn [length]; lia|]. apply wp_wr; [cbn [length]; lia|]. cbn [nth upd].
      inversion Dg as [|? ? Hg0 Dg']; subst.
      assert (Z.even g0 = true) as Ev.
      { replace g0 with (2 * (M - 128 * pv g)) by lia. apply Z.even_mul. }
      destruct (lor1_even g0 Hg0 Ev) as (-> & Hg1).
      apply (enc_mod _ _ 0); [constructor; assumption|discriminate| |cbn [positional]; lia].
      cbn [length] in *. rewrite p8_S in *. pose proof (p8_pos (length g)). lia.
    + intros s E'. replace (8 * i + 0)%nat with (8 * i)%nat in E' by lia. exact E'.
  - intros s E. change (2 ^ Z.of_nat (8 * 0)) with 1 in E. rewrite Z.div_1_r in E. exact E.
Qed.

(** ** Division *)

Lemma ref_operands_spec l1 l2 x y : enc l1 x -> enc l2 y ->
  wp (ref_operands l1 l2) (fun '(p1, p2, r1, r2) => p1 = negb (x <? 0) /\ p2 = negb (y <? 0) /\
    enc r1 (Z.abs x) /\ enc r2 (Z.abs y)).
Proof.
  intros E1 E2. unfold ref_operands.
  eapply wp_bind_cut; [apply (top_set_spec _ _ E1)|]. intros n1 ->.
  eapply wp_bind_cut; [apply (top_set_spec _ _ E2)|]. intros n2 ->.
  assert (forall l z, enc l z -> wp (if z <? 0 then ref_negate l else Ret l) (fun r => enc r (Z.abs z))) as A.
  { intros l z E. destruct (Z.ltb_spec z 0).
    - eapply wp_mono; [apply (ref_negate_spec l z E)|]. intros r (R & _). rewrite Z.abs_neq by lia. exact R.
    - apply wp_ret. rewrite Z.abs_eq by lia. exact E. }
  eapply wp_bind_cut; [apply (A _ _ E1)|]. intros b1 B1.
  eapply wp_bind_cut; [apply (A _ _ E2)|]. intros b2 B2.
  eapply wp_bind_cut; [apply (ref_trim_spec _ _ B1)|]. intros c1 (C1 & _).
  eapply wp_bind_cut; [apply (ref_trim_spec _ _ B2)|]. intros c2 (C2 & _).
  apply wp_ret. split; [reflexivity|]. split; [reflexivity|]. now split.
Qed.

Lemma ref_grow_by_spec n l x : enc l x -> wp (ref_grow_by n l) (fun r => enc r (x * 2 ^ Z.of_nat n)).
Proof.
  intros E. unfold ref_grow_by. eapply wp_for_up with (I := fun i r => enc r (x * 2 ^ Z.of_nat i)).
  - change (2 ^ Z.of_nat 0) with 1. rewrite Z.mul_1_r. exact E.
  - intros i r _ Hr. eapply wp_mono; [apply (ref_shift_grow_spec _ _ Hr)|]. intros s (Hs & _).
    rewrite pow2_S. replace (x * (2 * 2 ^ Z.of_nat i)) with (2 * (x * 2 ^ Z.of_nat i)) by ring. exact Hs.
  - intros r Hr. exact Hr.
Qed.

Lemma ref_subtract_loop_spec n l1 l2 X D :
  0 < D -> 0 <= X < D * 2 ^ Z.of_nat n -> enc l1 X -> enc l2 (D * 2 ^ Z.of_nat n / 2) ->
  wp (ref_subtract_loop n l1 l2 (zeros (Nat.div n 8 + 1))) (fun '(r, br) => enc r (X mod D) /\
    digits 256 br /\ length br = (Nat.div n 8 + 1)%nat /\ pv br = X / D).
Proof.
  intros HD HX E1 E2. unfold ref_subtract_loop.
  pose proof (Nat.div_mod n 8 ltac:(lia)) as DM. pose proof (Nat.mod_upper_bound n 8 ltac:(lia)) as DM'.
  set (L := (Nat.div n 8 + 1)%nat) in *.
  assert (n <= 8 * L)%nat as HL by (subst L; lia). clearbody L. clear DM DM'.
  eapply wp_bind_cut with (P := fun '(b1, b2, br) => enc b1 (X mod D) /\ digits 256 br /\ length br = L /\ pv br = X / D);
    [|intros [[b1 b2] br] H; apply wp_ret; exact H].
  eapply wp_for_down with (I := fun i '(b1, b2, br) => exists R q, enc b1 R /\ enc b2 (D * 2 ^ Z.of_nat i / 2) /\
    digits 256 br /\ length br = L /\ pv br = q * 2 ^ Z.of_nat i /\ X = pv br * D + R /\ 0 <= R < D * 2 ^ Z.of_nat i).
  - exists X, 0. split; [exact E1|]. split; [exact E2|]. split; [apply digits_zeros|]. split; [apply zeros_len|].
    rewrite pv_zeros. split; [lia|]. split; [lia|exact HX].
  - intros i [[b1 b2] br] Hi (R & q & B1 & B2 & Db & Lb & Q & HXQ & HR).
    pose proof (pow2_pos i) as P. rewrite pow2_S in *.
    replace (D * (2 * 2 ^ Z.of_nat i)) with (D * 2 ^ Z.of_nat i * 2) in B2 by ring. rewrite Z.div_mul in B2 by lia.
    set (T := 2 ^ Z.of_nat i) in *. set (DT := D * T) in *.
    eapply wp_bind_cut; [apply (ref_negate_spec _ _ B2)|]. intros m (M & _).
    eapply wp_bind_cut; [apply (ref_add_spec _ _ _ _ B1 M)|]. intros s (S & _).
    eapply wp_bind_cut; [apply (ref_negate_spec _ _ M)|]. intros d (Dd & _). rewrite Z.opp_involutive in Dd.
    pose proof S as (Ds & Ns & _). apply ne_length in Ns.
    apply wp_bind, wp_rd; [lia|]. rewrite <- last_nth. pose proof (enc_sign s _ S) as Sg.
    eapply wp_bind_cut with (P := fun '(b1, br) => exists R q, enc b1 R /\ digits 256 br /\ length br = L /\
      pv br = q * T /\ X = pv br * D + R /\ 0 <= R < DT).
    { destruct (Z.ltb_spec (last s 0) 128) as [C|C].
      - eapply wp_bind_cut; [apply bits_set_spec; [exact Db|lia|lia|]|].
        { rewrite Q. replace (q * (2 * T)) with (q * 2 ^ Z.of_nat (Datatypes.S i)) by (rewrite pow2_S; reflexivity).
          apply Z.mul_pow2_bits_low. lia. }
        intros br' (Db' & Lb' & Pb'). apply wp_ret. exists (R + - DT), (2 * q + 1).
        fold T in Pb'. rewrite Pb'. split; [exact S|]. split; [exact Db'|]. split; [lia|].
        split; [rewrite Q; ring|]. split; [unfold DT; rewrite HXQ; ring|]. unfold DT in *. lia.
      - eapply wp_bind_cut; [apply (ref_add_spec _ _ _ _ S Dd)|]. intros b (Bb & _).
        replace (R + - DT + DT) with R in Bb by ring. apply wp_ret. exists R, (2 * q).
        split; [exact Bb|]. split; [exact Db|]. split; [lia|]. split; [rewrite Q; ring|]. split; [exact HXQ|]. lia. }
    intros [c1 br'] (R' & q' & C1 & Db' & Lb' & Q' & X' & HR').
    eapply wp_bind_cut; [apply (ref_shift_right_spec _ _ Dd)|]. intros h (Hh & _). apply wp_ret.
    exists R', q'. repeat (split; [assumption|]). exact HR'.
  - intros [[b1 b2] br] (R & q & B1 & _ & Db & Lb & _ & HXQ & HR). change (2 ^ Z.of_nat 0) with 1 in HR.
    rewrite Z.mul_1_r in HR.
    rewrite <- (Z.mod_unique X D (pv br) R), <- (Z.div_unique X D (pv br) R) by (lia || (left; lia)).
    repeat (split; [assumption|]). reflexivity.
Qed.

(** What both divisions do after taking absolute values. *)
Lemma locs X D k1 k2 : 0 <= X -> 0 < D ->
  (X = 0 /\ k1 = O) \/ 2 ^ Z.of_nat k1 <= X < 2 ^ (Z.of_nat k1 + 1) ->
  (D = 0 /\ k2 = O) \/ 2 ^ Z.of_nat k2 <= D < 2 ^ (Z.of_nat k2 + 1) ->
  if Nat.ltb k1 k2 then X < D else X < D * 2 ^ Z.of_nat (k1 - k2 + 1).
Proof.
  intros HX HD H1 [[H2 _]|[H2 _]]; [lia|].
  assert (X < 2 ^ Z.of_nat (S k1)) as U.
  { destruct H1 as [[-> _]|[_ H1]]; [apply pow2_pos|]. replace (Z.of_nat (S k1)) with (Z.of_nat k1 + 1) by lia. exact H1. }
  destruct (Nat.ltb_spec k1 k2) as [C|C].
  - apply (Z.lt_le_trans _ _ _ U). apply Z.le_trans with (2 := H2). apply Z.pow_le_mono_r; lia.
  - apply (Z.lt_le_trans _ _ _ U). replace (S k1) with (k2 + (k1 - k2 + 1))%nat by lia. rewrite pow2_add.
    apply Z.mul_le_mono_nonneg_r; [pose proof (pow2_pos (k1 - k2 + 1)); lia|exact H2].
Qed.

Lemma ref_divide_spec l1 l2 x y : enc l1 x -> enc l2 y -> y <> 0 -> wp (ref_divide l1 l2) (fun r => enc r (Z.quot x y)).
Proof.
  intros E1 E2 Hy. unfold ref_divide.
  eapply wp_bind_cut; [apply (ref_operands_spec _ _ _ _ E1 E2)|].
  intros [[[p1 p2] a] b] (-> & -> & Ea & Eb). set (X := Z.abs x) in *. set (D := Z.abs y) in *.
  assert (0 <= X /\ 0 < D) as [HX HD] by (subst X D; lia).
  eapply wp_bind_cut; [apply (last_one_spec _ _ Ea); lia|]. intros k1 (K1 & _).
  eapply wp_bind_cut; [apply (last_one_spec _ _ Eb); lia|]. intros k2 (K2 & _).
  pose proof (locs X D k1 k2 HX HD K1 K2) as LO.
  assert (Z.quot x y = Z.sgn x * Z.sgn y * (X / D)) as QE by (apply Z.quot_div; exact Hy).
  destruct (Nat.ltb k1 k2).
  - apply wp_ret. rewrite QE, Z.div_small, Z.mul_0_r by lia.
    split; [repeat constructor; lia|]. split; [discriminate|reflexivity].
  - set (sh := (k1 - k2)%nat) in *.
    eapply wp_bind_cut; [apply (ref_grow_by_spec sh _ _ Eb)|]. intros b' Eb'.
    eapply wp_bind_cut; [apply (ref_subtract_loop_spec (sh + 1) _ _ X D); [exact HD|lia|exact Ea|]|].
    { rewrite Nat.add_comm. cbn [Nat.add]. rewrite pow2_S.
      replace (D * (2 * 2 ^ Z.of_nat sh)) with (D * 2 ^ Z.of_nat sh * 2) by ring. rewrite Z.div_mul by lia. exact Eb'. }
    intros [r br] (_ & Db & Lb & Vb).
    eapply wp_bind_cut; [apply (ref_get_bytes_spec br (sh + 1) Db); [lia|]|].
    { rewrite Vb. apply Z.div_lt_upper_bound; lia. }
    intros res Er. rewrite Vb in Er.
    pose proof (Z.div_pos X D HX HD) as Q0.
    destruct (Bool.eqb (negb (x <? 0)) (negb (y <? 0))) eqn:S; cbn [negb].
    + apply wp_ret. rewrite QE. destruct (Z.eq_dec x 0) as [->|Hx].
      { exact Er. }
      replace (Z.sgn x * Z.sgn y) with 1; [rewrite Z.mul_1_l; exact Er|].
      destruct (Z.ltb_spec x 0), (Z.ltb_spec y 0); try discriminate S;
        first [rewrite (Z.sgn_neg x) by lia|rewrite (Z.sgn_pos x) by lia]; first [rewrite (Z.sgn_neg y) by lia|rewrite (Z.sgn_pos y) by lia]; reflexivity.
    + eapply wp_mono; [apply (ref_negate_spec _ _ Er)|]. intros q (Eq & _). rewrite QE.
      destruct (Z.eq_dec x 0) as [->|Hx].
      { exact Eq. }
      replace (Z.sgn x * Z.sgn y) with (-1); [replace (-1 * (X / D)) with (- (X / D)) by ring; exact Eq|].
      destruct (Z.ltb_spec x 0), (Z.ltb_spec y 0); try discriminate S;
        first [rewrite (Z.sgn_neg x) by lia|rewrite (Z.sgn_pos x) by lia]; first [rewrite (Z.sgn_neg y) by lia|rewrite (Z.sgn_pos y) by lia]; reflexivity.
Qed.

Lemma ref_remainder_spec l1 l2 x y : enc l1 x -> enc l2 y -> y <> 0 -> wp (ref_remainder l1 l2) (fun r => enc r (Z.rem x y)).
Proof.
  intros E1 E2 Hy. unfold ref_remainder.
  eapply wp_bind_cut; [apply (ref_operands_spec _ _ _ _ E1 E2)|].
  intros [[[p1 p2] a] b] (-> & -> & Ea & Eb). set (X := Z.abs x) in *. set (D := Z.abs y) in *.
  assert (0 <= X /\ 0 < D) as [HX HD] by (subst X D; lia).
  eapply wp_bind_cut; [apply (last_one_spec _ _ Ea); lia|]. intros k1 (K1 & _).
  eapply wp_bind_cut; [apply (last_one_spec _ _ Eb); lia|]. intros k2 (K2 & _).
  pose proof (locs X D k1 k2 HX HD K1 K2) as LO.
  assert (Z.rem x y = Z.sgn x * (X mod D)) as QE by (apply Z.rem_mod; exact Hy).
  eapply wp_bind_cut with (P := fun r => enc r (X mod D)).
  { destruct (Nat.ltb k1 k2).
    - apply wp_ret. rewrite Z.mod_small by lia. exact Ea.
    - set (sh := (k1 - k2)%nat) in *.
      eapply wp_bind_cut; [apply (ref_grow_by_spec sh _ _ Eb)|]. intros b' Eb'.
      eapply wp_bind_cut; [apply (ref_subtract_loop_spec (sh + 1) _ _ X D); [exact HD|lia|exact Ea|]|].
      { rewrite Nat.add_comm. cbn [Nat.add]. rewrite pow2_S.
        replace (D * (2 * 2 ^ Z.of_nat sh)) with (D * 2 ^ Z.of_nat sh * 2) by ring. rewrite Z.div_mul by lia. exact Eb'. }
      intros [r br] (Er & _). apply wp_ret. exact Er. }
  intros r Er. destruct (Z.ltb_spec x 0) as [C|C]; cbn [negb].
  - eapply wp_mono; [apply (ref_negate_spec _ _ Er)|]. intros q (Eq & _). rewrite QE, Z.sgn_neg by lia.
    replace (-1 * (X mod D)) with (- (X mod D)) by ring. exact Eq.
  - apply wp_ret. rewrite QE. destruct (Z.eq_dec x 0) as [->|Hx].
    + exact Er.
    + rewrite Z.sgn_pos, Z.mul_1_l by lia. exact Er.
Qed.

(** By 0, the remainder is the dividend, and every bit of the quotient is set. *)
Lemma ref_subtract_zero n l1 l2 X : 0 <= X -> enc l1 X -> enc l2 0 ->
  wp (ref_subtract_loop n l1 l2 (zeros (Nat.div n 8 + 1))) (fun '(r, br) => enc r X /\
    digits 256 br /\ length br = (Nat.div n 8 + 1)%nat /\ pv br = 2 ^ Z.of_nat n - 1).
Proof.
  intros HX E1 E2. unfold ref_subtract_loop.
  pose proof (Nat.div_mod n 8 ltac:(lia)) as DM. pose proof (Nat.mod_upper_bound n 8 ltac:(lia)) as DM'.
  set (L := (Nat.div n 8 + 1)%nat) in *.
  assert (n <= 8 * L)%nat as HL by (subst L; lia). clearbody L. clear DM DM'.
  eapply wp_bind_cut with (P := fun '(b1, b2, br) => enc b1 X /\ digits 256 br /\ length br = L /\ pv br = 2 ^ Z.of_nat n - 1);
    [|intros [[b1 b2] br] H; apply wp_ret; exact H].
  eapply wp_for_down with (I := fun i '(b1, b2, br) => enc b1 X /\ enc b2 0 /\
    digits 256 br /\ length br = L /\ pv br = 2 ^ Z.of_nat n - 2 ^ Z.of_nat i).
  - split; [exact E1|]. split; [exact E2|]. split; [apply digits_zeros|]. split; [apply zeros_len|]. rewrite pv_zeros. lia.
  - intros i [[b1 b2] br] Hi (B1 & B2 & Db & Lb & Q).
    eapply wp_bind_cut; [apply (ref_negate_spec _ _ B2)|]. intros m (M & _). change (- 0) with 0 in M.
    eapply wp_bind_cut; [apply (ref_add_spec _ _ _ _ B1 M)|]. intros s (S & _). rewrite Z.add_0_r in S.
    eapply wp_bind_cut; [apply (ref_negate_spec _ _ M)|]. intros d (Dd & _). change (- 0) with 0 in Dd.
    pose proof S as (Ds & Ns & _). apply ne_length in Ns.
    apply wp_bind, wp_rd; [lia|]. rewrite <- last_nth. pose proof (enc_sign s _ S) as Sg.
    destruct (Z.ltb_spec (last s 0) 128) as [C|C]; [|lia].
    eapply wp_bind_cut with (P := fun '(b1, br) => enc b1 X /\ digits 256 br /\ length br = L /\ pv br = 2 ^ Z.of_nat n - 2 ^ Z.of_nat i).
    { eapply wp_bind_cut; [apply bits_set_spec; [exact Db|lia|lia|]|].
      { rewrite Q. replace n with (Datatypes.S i + (n - Datatypes.S i))%nat by lia. rewrite pow2_add.
        replace (2 ^ Z.of_nat (Datatypes.S i) * 2 ^ Z.of_nat (n - Datatypes.S i) - 2 ^ Z.of_nat (Datatypes.S i))
          with ((2 ^ Z.of_nat (n - Datatypes.S i) - 1) * 2 ^ Z.of_nat (Datatypes.S i)) by ring.
        apply Z.mul_pow2_bits_low. lia. }
      intros br' (Db' & Lb' & Pb'). apply wp_ret. split; [exact S|]. split; [exact Db'|]. split; [lia|].
      rewrite Pb', Q, pow2_S. lia. }
    intros [c1 br'] (C1 & Db' & Lb' & Q').
    eapply wp_bind_cut; [apply (ref_shift_right_spec _ _ Dd)|]. intros h (Hh & _). change (0 / 2) with 0 in Hh. apply wp_ret.
    repeat (split; [assumption|]). exact Q'.
  - intros [[b1 b2] br] (B1 & _ & Db & Lb & Q). change (2 ^ Z.of_nat 0) with 1 in Q.
    repeat (split; [assumption|]). exact Q.
Qed.

Lemma loc_zero k : (0 = 0 /\ k = O) \/ 2 ^ Z.of_nat k <= 0 < 2 ^ (Z.of_nat k + 1) -> k = O.
Proof. intros [[_ H]|H]; [exact H|]. pose proof (pow2_pos k). lia. Qed.

Lemma loc_log2 X k : 0 <= X -> (X = 0 /\ k = O) \/ 2 ^ Z.of_nat k <= X < 2 ^ (Z.of_nat k + 1) -> Z.of_nat k = Z.log2 X.
Proof.
  intros HX [[-> ->]|H]; [reflexivity|]. symmetry. apply Z.log2_unique; [lia|]. rewrite <- Z.add_1_r. exact H.
Qed.

Lemma ref_divide_zero l1 l2 x : enc l1 x -> enc l2 0 ->
  wp (ref_divide l1 l2) (fun r => enc r ((if x <? 0 then -1 else 1) * (2 ^ (Z.log2 (Z.abs x) + 1) - 1))).
Proof.
  intros E1 E2. unfold ref_divide.
  eapply wp_bind_cut; [apply (ref_operands_spec _ _ _ _ E1 E2)|].
  intros [[[p1 p2] a] b] (-> & -> & Ea & Eb). change (Z.abs 0) with 0 in Eb. change (negb (0 <? 0)) with true.
  set (X := Z.abs x) in *. assert (0 <= X) as HX by (subst X; lia).
  eapply wp_bind_cut; [apply (last_one_spec _ _ Ea); lia|]. intros k1 (K1 & _). apply loc_log2 in K1; [|exact HX].
  eapply wp_bind_cut; [apply (last_one_spec _ _ Eb); lia|]. intros k2 (K2 & _). apply loc_zero in K2. subst k2.
  cbn [Nat.ltb Nat.leb]. rewrite Nat.sub_0_r.
  eapply wp_bind_cut; [apply (ref_grow_by_spec k1 _ _ Eb)|]. intros b' Eb'. rewrite Z.mul_0_l in Eb'.
  eapply wp_bind_cut; [apply (ref_subtract_zero (k1 + 1) _ _ X HX Ea Eb')|]. intros [r br] (_ & Db & Lb & Vb).
  eapply wp_bind_cut; [apply (ref_get_bytes_spec br (k1 + 1) Db); [lia|rewrite Vb; lia]|]. intros res Er.
  rewrite Vb in Er. replace (Z.of_nat (k1 + 1)) with (Z.log2 X + 1) in Er by lia.
  destruct (x <? 0); cbn [negb Bool.eqb].
  - eapply wp_mono; [apply (ref_negate_spec _ _ Er)|]. cbv beta. intros q (Eq & _).
    replace (-1 * (2 ^ (Z.log2 X + 1) - 1)) with (- (2 ^ (Z.log2 X + 1) - 1)) by ring. exact Eq.
  - apply wp_ret. rewrite Z.mul_1_l. exact Er.
Qed.

Lemma ref_remainder_total l1 l2 x y : enc l1 x -> enc l2 y -> wp (ref_remainder l1 l2) (fun r => enc r (Z.rem x y)).
Proof.
  intros E1 E2. destruct (Z.eq_dec y 0) as [->|Hy]; [|now apply ref_remainder_spec]. rewrite rem_zero. unfold ref_remainder.
  eapply wp_bind_cut; [apply (ref_operands_spec _ _ _ _ E1 E2)|].
  intros [[[p1 p2] a] b] (-> & -> & Ea & Eb). change (Z.abs 0) with 0 in Eb.
  set (X := Z.abs x) in *. assert (0 <= X) as HX by (subst X; lia).
  eapply wp_bind_cut; [apply (last_one_spec _ _ Ea); lia|]. intros k1 (K1 & _).
  eapply wp_bind_cut; [apply (last_one_spec _ _ Eb); lia|]. intros k2 (K2 & _). apply loc_zero in K2. subst k2.
  cbn [Nat.ltb Nat.leb]. rewrite Nat.sub_0_r.
  eapply wp_bind_cut with (P := fun r => enc r X).
  { eapply wp_bind_cut; [apply (ref_grow_by_spec k1 _ _ Eb)|]. intros b' Eb'. rewrite Z.mul_0_l in Eb'.
    eapply wp_bind_cut; [apply (ref_subtract_zero (k1 + 1) _ _ X HX Ea Eb')|]. intros [r br] (Er & _). apply wp_ret. exact Er. }
  intros r Er. destruct (Z.ltb_spec x 0) as [C|C]; cbn [negb].
  - eapply wp_mono; [apply (ref_negate_spec _ _ Er)|]. cbv beta. intros q (Eq & _). replace (- X) with x in Eq by (subst X; lia). exact Eq.
  - apply wp_ret. replace x with X by (subst X; lia). exact Er.
Qed.

(** ** Zero, maximum, complement, bitwise *)

Lemma ref_is_zero_spec l x : enc l x -> ref_is_zero l = (x =? 0).
Proof.
  intros E. pose proof (enc_pv l x E) as P. pose proof (enc_range l x E) as R. pose proof (p8_pos (length l)) as B.
  assert (forall l, digits 256 l -> ref_is_zero l = (pv l =? 0)) as A.
  { clear. intros l D. induction D as [|d l Hd Hl IH]; [reflexivity|]. cbn [ref_is_zero forallb positional].
    unfold ref_is_zero in IH. rewrite IH. pose proof (pv_bound l Hl).
    destruct (Z.eqb_spec d 0), (Z.eqb_spec (pv l) 0), (Z.eqb_spec (d + 256 * pv l) 0); reflexivity || (exfalso; lia). }
  rewrite A by apply E. rewrite P.
  destruct (Z.ltb_spec x 0), (Z.eqb_spec x 0), (Z.eqb_spec (x + p8 (length l)) 0); try reflexivity; lia.
Qed.

Lemma ref_is_zero_raw l : digits 256 l -> ref_is_zero l = (pv l =? 0).
Proof.
  intros D. induction l as [|d l IH]; [reflexivity|]. inversion D as [|? ? Hd Dl]; subst. cbn [ref_is_zero forallb positional].
  fold (ref_is_zero l). rewrite (IH Dl). pose proof (pv_bound l Dl).
  destruct (Z.eqb_spec d 0), (Z.eqb_spec (pv l) 0), (Z.eqb_spec (d + 256 * pv l) 0); cbn [andb]; reflexivity || lia.
Qed.

Lemma last_one_raw l : digits 256 l -> (0 < length l)%nat ->
  wp (last_one l) (fun k => ((pv l = 0 /\ k = O) \/ 2 ^ Z.of_nat k <= pv l < 2 ^ (Z.of_nat k + 1)) /\ (k < 8 * length l)%nat).
Proof.
  intros D N. pose proof (pv_bound l D) as B. rewrite p8_pow in B. unfold last_one.
  eapply wp_mono; [apply top_bit_spec; [exact D|lia|]|].
  - replace (Z.of_nat (8 * length l)) with (8 * Z.of_nat (length l)) by lia. lia.
  - cbv beta. intros k K. split; [exact K|]. destruct K as [[_ ->]|[K _]]; [lia|].
    destruct (Nat.lt_ge_cases k (8 * length l)) as [|G]; [assumption|].
    pose proof (Z.pow_le_mono_r 2 (8 * Z.of_nat (length l)) (Z.of_nat k) ltac:(lia) ltac:(lia)). lia.
Qed.

Lemma ref_max_spec l1 l2 x y : enc l1 x -> enc l2 y -> wp (ref_max l1 l2) (fun r => enc r (Z.max x y)).
Proof.
  intros E1 E2. unfold ref_max.
  eapply wp_bind_cut; [apply (top_set_spec _ _ E1)|]. intros n1 ->.
  eapply wp_bind_cut; [apply (top_set_spec _ _ E2)|]. intros n2 ->.
  destruct (Bool.eqb (x <? 0) (y <? 0)) eqn:S; cbn [negb].
  - eapply wp_bind_cut; [apply (ref_negate_spec _ _ E2)|]. intros m (M & _).
    eapply wp_bind_cut; [apply (ref_add_spec _ _ _ _ E1 M)|]. intros s (Sm & _).
    eapply wp_bind_cut; [apply (top_set_spec _ _ Sm)|]. intros n ->. apply wp_ret.
    destruct (Z.ltb_spec (x + - y) 0); [rewrite Z.max_r by lia; exact E2|rewrite Z.max_l by lia; exact E1].
  - apply wp_ret. destruct (Z.ltb_spec x 0), (Z.ltb_spec y 0); try discriminate S.
    + rewrite Z.max_r by lia. exact E2.
    + rewrite Z.max_l by lia. exact E1.
Qed.

Lemma ref_not_spec l x : enc l x -> wp (ref_not l) (fun r => enc r (- x - 1)).
Proof.
  intros E. pose proof E as (D & N & _). unfold ref_not. apply wp_ret.
  assert (map (fun b => u8 (Z.lxor b 255)) l = map (fun b => Z.lxor b 255) l) as ->.
  { clear -D. induction D as [|d l Hd Hl IH]; [reflexivity|]. cbn [map]. rewrite IH. f_equal.
    rewrite lxor255 by lia. apply u8_small. lia. }
  destruct (flip_digits l D) as (Df & Pf).
  assert (length (map (fun b => Z.lxor b 255) l) = length l) as Lf by apply map_length. pose proof (enc_range l x E) as R.
  destruct (pv_mod l x E) as (k & Hk).
  apply (enc_mod _ _ (1 - k)); [exact Df|apply ne_length; rewrite Lf; now apply ne_length| |].
  - rewrite Lf. apply ne_length in N. destruct (p8_half _ N) as (h & Hh & _). lia.
  - rewrite Lf. lia.
Qed.

Lemma p8_split i n : (i < n)%nat -> p8 n = p8 i * (256 * p8 (n - i - 1)).
Proof.
  intros H. rewrite <- p8_S. replace (S (n - i - 1)) with (n - i)%nat by lia.
  rewrite !p8_pow, <- Z.pow_add_r by lia. f_equal. lia.
Qed.

Lemma enc_nth l x i : enc l x -> (i < length l)%nat -> nth i l 0 = x / p8 i mod 256.
Proof.
  intros E H. rewrite (pos_nth 256 B8_ok l i (proj1 E)). destruct (pv_mod l x E) as (k & ->).
  rewrite (p8_split i (length l) H). pose proof (p8_pos i).
  replace (x + k * (p8 i * (256 * p8 (length l - i - 1)))) with (x + k * p8 (length l - i - 1) * 256 * p8 i) by ring.
  fold (p8 i). rewrite Z.div_add, Z.mod_add by lia. reflexivity.
Qed.

Lemma ref_bitwise_spec op l1 l2 x y : bitop op -> enc l1 x -> enc l2 y ->
  wp (ref_bitwise op l1 l2) (fun r => enc r (op x y)).
Proof.
  intros Ho E1 E2. unfold ref_bitwise.
  eapply wp_bind_cut; [apply (normalize_spec _ _ _ _ E1 E2)|].
  intros [a b] (Ea & Eb & La & Lb). cbn [fst snd] in *. set (n := Nat.max (length l1) (length l2)) in *.
  assert (0 < n)%nat as Hn by (destruct E1 as (_ & N & _); apply ne_length in N; lia).
  pose proof (enc_range _ _ Ea) as Ra. pose proof (enc_range _ _ Eb) as Rb. rewrite La in *. rewrite Lb in *.
  eapply wp_for_up with (I := fun i r => length r = i /\ digits 256 r /\ pv r = op x y mod p8 i).
  - rewrite p8_0, Z.mod_1_r. repeat split. constructor.
  - intros i r Hi (Hl & Hd & Hv). apply wp_bind, wp_rd; [lia|]. apply wp_bind, wp_rd; [lia|]. apply wp_ret.
    rewrite (enc_nth a x i Ea), (enc_nth b y i Eb) by lia.
    assert (op (x / p8 i mod 256) (y / p8 i mod 256) = op x y / p8 i mod 256) as ->.
    { rewrite (p8_pow i). change 256 with (2 ^ 8). rewrite (bo_mod _ Ho), <- (bo_shift _ Ho) by lia. reflexivity. }
    pose proof (Z.mod_pos_bound (op x y / p8 i) 256 ltac:(lia)) as B.
    rewrite u8_small by exact B. rewrite snoc_len, pv_snoc, Hl. split; [lia|]. split; [now apply digits_snoc|].
    rewrite Hv, p8_S, (Z.mul_comm 256). symmetry. apply Z.rem_mul_r; [pose proof (p8_pos i); lia|lia].
  - intros r (Hl & Hd & Hv). cbn [Nat.add] in *. pose proof (p8_pos n) as P.
    apply (enc_mod _ _ (- (op x y / p8 n))); [exact Hd|apply ne_length; lia| |].
    + rewrite Hl. rewrite p8_pow in *.
      replace (8 * Z.of_nat n) with (1 + (8 * Z.of_nat n - 1)) in * by ring.
      rewrite Z.pow_add_r in * by lia. change (2 ^ 1) with 2 in *.
      pose proof (bitop_fits op x y (8 * Z.of_nat n - 1) Ho ltac:(lia) ltac:(lia) ltac:(lia)). lia.
    + rewrite Hl, Hv. pose proof (Z.div_mod (op x y) (p8 n) ltac:(lia)). lia.
Qed.

(** ** Greatest common divisor *)

Definition gcd_round (st : list Z * list Z) : outcome (list Z * list Z) :=
  r <- ref_remainder (fst st) (snd st) ;; Ret (snd st, r).

Lemma gcd_round_spec a b x y : enc a x -> enc b y -> 0 <= x -> 0 < y ->
  wp (gcd_round (a, b)) (fun '(a', b') => enc a' y /\ enc b' (x mod y)).
Proof.
  intros Ea Eb Hx Hy. unfold gcd_round. cbn [fst snd].
  eapply wp_bind_cut; [apply (ref_remainder_spec _ _ _ _ Ea Eb); lia|]. intros r Er. apply wp_ret.
  split; [exact Eb|]. rewrite <- Z.rem_mod_nonneg by lia. exact Er.
Qed.

Lemma gcd_while k : forall fuel a b x y, enc a x -> enc b y -> 0 <= x -> 0 <= y < 2 ^ Z.of_nat k -> (2 * k <= fuel)%nat ->
  wp (while_fuel fuel (fun st => negb (ref_is_zero (snd st))) gcd_round (a, b)) (fun '(a', _) => enc a' (Z.gcd x y)).
Proof.
  assert (forall fuel a b x, enc a x -> enc b 0 -> 0 <= x ->
    wp (while_fuel fuel (fun st => negb (ref_is_zero (snd st))) gcd_round (a, b)) (fun '(a', _) => enc a' (Z.gcd x 0))) as Stop.
  { intros fuel a b x Ea Eb Hx. destruct fuel; cbn [while_fuel snd]; rewrite (ref_is_zero_spec b 0 Eb); cbn [Z.eqb negb];
      apply wp_ret; rewrite Z.gcd_0_r, Z.abs_eq by lia; exact Ea. }
  induction k as [|k IH]; intros fuel a b x y Ea Eb Hx Hy Hf.
  - change (2 ^ Z.of_nat 0) with 1 in Hy. replace y with 0 in * by lia. now apply (Stop fuel a b).
  - destruct (Z.eq_dec y 0) as [->|Ny]; [now apply (Stop fuel a b)|].
    destruct fuel as [|[|fuel]]; [lia|lia|].
    cbn [while_fuel snd]. rewrite (ref_is_zero_spec b y Eb). destruct (Z.eqb_spec y 0); [lia|]. cbn [negb].
    eapply wp_bind_cut; [apply (gcd_round_spec a b x y Ea Eb Hx); lia|]. intros [a1 b1] (Ea1 & Eb1).
    pose proof (Z.mod_pos_bound x y ltac:(lia)) as M.
    assert (Z.gcd x y = Z.gcd y (x mod y)) as -> by (rewrite (Z.gcd_comm y), Z.gcd_mod by lia; apply Z.gcd_comm).
    set (r := x mod y) in *.
    destruct (Z.eq_dec r 0) as [R0|R0].
    { rewrite R0 in *. apply (Stop (S fuel) a1 b1); [exact Ea1|exact Eb1|lia]. }
    cbn [while_fuel snd]. rewrite (ref_is_zero_spec b1 r Eb1). destruct (Z.eqb_spec r 0); [lia|]. cbn [negb].
    eapply wp_bind_cut; [apply (gcd_round_spec a1 b1 y r Ea1 Eb1); lia|]. intros [a2 b2] (Ea2 & Eb2).
    pose proof (Z.mod_pos_bound y r ltac:(lia)) as M2. pose proof (Z.div_mod y r ltac:(lia)) as DM.
    assert (1 <= y / r) as Q by (apply Z.div_le_lower_bound; lia).
    assert (r * 1 <= r * (y / r)) as Q' by (apply Z.mul_le_mono_nonneg_l; lia).
    replace (Z.gcd y r) with (Z.gcd r (y mod r)) by (rewrite (Z.gcd_comm r), Z.gcd_mod by lia; apply Z.gcd_comm).
    apply IH; [exact Ea2|exact Eb2|lia| |lia]. rewrite pow2_S in Hy. lia.
Qed.

Lemma ref_gcd_spec l1 l2 x y : enc l1 x -> enc l2 y -> wp (ref_gcd l1 l2) (fun r => enc r (Z.gcd x y)).
Proof.
  intros E1 E2. unfold ref_gcd.
  eapply wp_bind_cut; [apply (ref_operands_spec _ _ _ _ E1 E2)|].
  intros [[[p1 p2] a] b] (_ & _ & Ea & Eb). fold gcd_round.
  eapply wp_bind_cut; [apply (gcd_while (8 * length b) _ a b (Z.abs x) (Z.abs y) Ea Eb); [lia| |lia]|].
  - pose proof (enc_range b _ Eb) as R. rewrite p8_pow in R. rewrite Nat2Z.inj_mul. lia.
  - intros [a' b'] Ea'. apply wp_ret. rewrite Z.gcd_abs_l, Z.gcd_abs_r in Ea'. exact Ea'.
Qed.

(** ** Multiplication *)

Lemma set_length_spec l n : (n <= length l)%nat -> wp (ref_set_length l n) (fun r => r = firstn n l).
Proof.
  intros H. unfold ref_set_length. eapply wp_for_up with (I := fun i r => r = firstn i l).
  - reflexivity.
  - intros i r Hi ->. apply wp_bind, wp_rd; [lia|]. apply wp_ret.
    rewrite <- (firstn_skipn i l) at 3. rewrite firstn_app, firstn_firstn, firstn_length.
    replace (Nat.min (S i) i) with i by lia. replace (S i - Nat.min i (length l))%nat with 1%nat by lia. f_equal.
    assert (skipn i l = nth i l 0 :: skipn (S i) l) as ->; [|reflexivity].
    clear -Hi H. assert (i < length l)%nat as G by lia. clear Hi H. revert l G.
    induction i as [|i IH]; intros [|d l] G; cbn [length] in G; try lia; [reflexivity|]. cbn [skipn nth]. now apply IH; lia.
  - intros r ->. reflexivity.
Qed.

Lemma pv_firstn_mod n l : digits 256 l -> (n <= length l)%nat -> pv (firstn n l) = pv l mod p8 n.
Proof.
  intros D H. rewrite <- (firstn_skipn n l) at 2. rewrite (pos_app 256), firstn_length, Nat.min_l by lia.
  fold (p8 n). pose proof (pv_bound (firstn n l) (Forall_firstn _ n l D)) as B. rewrite firstn_length, Nat.min_l in B by lia.
  rewrite Z.mul_comm, Z.mod_add by lia. symmetry. now apply Z.mod_small.
Qed.

Lemma ref_multiply_spec l1 l2 x y : enc l1 x -> enc l2 y -> wp (ref_multiply l1 l2) (fun r => enc r (x * y)).
Proof.
  intros E1 E2. unfold ref_multiply.
  eapply wp_bind_cut; [apply (normalize_spec _ _ _ _ E1 E2)|].
  intros [a b] (Ea & Eb & La & Lb). cbn [fst snd] in *. set (n := Nat.max (length l1) (length l2)) in *.
  assert (0 < n)%nat as Hn by (destruct E1 as (_ & N & _); apply ne_length in N; lia).
  pose proof (enc_range _ _ Ea) as Ra. pose proof (enc_range _ _ Eb) as Rb. rewrite La in *. rewrite Lb in *.
  assert (enc (zeros (2 * n)) 0) as E0.
  { apply (enc_mod _ _ 0); [apply digits_zeros|apply ne_length; rewrite zeros_len; lia| |rewrite pv_zeros; lia].
    pose proof (p8_pos (length (zeros (2 * n)))). lia. }
  eapply wp_bind_cut; [apply (normalize_spec _ _ _ _ Eb E0)|].
  intros [b' z1] (Eb' & Ez1 & Lb' & Lz1). cbn [fst snd] in *. rewrite zeros_len, Lb in *.
  eapply wp_bind_cut; [apply (normalize_spec _ _ _ _ Ea Ez1)|].
  intros [a' z2] (Ea' & Ez2 & La' & Lz2). cbn [fst snd] in *. rewrite Lz1, La in *.
  replace (Nat.max n (2 * n)) with (2 * n)%nat in * by lia. replace (Nat.max n (2 * n)) with (2 * n)%nat in * by lia.
  set (N := (2 * n)%nat) in *. rewrite Lb'.
  assert (0 < N)%nat as HN by lia. pose proof (p8_pos N) as PN.
  set (Y := pv b'). destruct (pv_mod b' y Eb') as (ky & Ky). rewrite Lb' in Ky.
  pose proof (pv_bound b' (proj1 Eb')) as BY. rewrite Lb' in BY. fold Y in Ky, BY.
  eapply wp_bind_cut with (P := fun r => digits 256 r /\ (N <= length r)%nat /\ exists k, pv r = x * Y + k * p8 N).
  { eapply wp_for_down with (I := fun i r => digits 256 r /\ (N <= length r)%nat /\
      exists k, pv r = (if Nat.eqb i 0 then x * Y else 2 * (x * (Y / 2 ^ Z.of_nat i))) + k * p8 N).
    - split; [apply Ez2|]. split; [lia|]. exists 0. destruct (Nat.eqb_spec (8 * N) 0); [lia|].
      rewrite Z.div_small by (rewrite Nat2Z.inj_mul; rewrite p8_pow in BY; exact BY).
      pose proof (enc_pv z2 0 Ez2) as P. change (0 <? 0) with false in P. rewrite P. lia.
    - intros i r Hi (Dr & Lr & k & Hk). cbn [Nat.eqb] in Hk.
      eapply wp_bind_cut; [apply bits_get_spec; [apply Eb'|lia|lia]|]. intros one ->. fold Y.
      pose proof (bit_step Y i) as Bs. set (T := Y / 2 ^ Z.of_nat (S i)) in *.
      eapply wp_bind_cut with (P := fun r => digits 256 r /\ (N <= length r)%nat /\
        exists k, pv r = x * (Y / 2 ^ Z.of_nat i) + k * p8 N).
      { assert (r <> []) as Nr by (apply ne_length; lia).
        destruct (Z.testbit Y (Z.of_nat i)); cbn [b2z] in Bs.
        - pose proof (self_enc r Dr Nr) as Er.
          eapply wp_mono; [apply (ref_add_spec _ _ _ _ Ea' Er)|]. cbv beta. intros s (Es & Ls).
          split; [apply Es|]. rewrite La' in Ls. split; [lia|].
          destruct (pv_mod s _ Es) as (ks & Ks). destruct (cv_mod r Dr) as (kr & Kr).
          assert (forall m, (N <= m)%nat -> exists q, p8 m = q * p8 N) as Dv.
          { intros m Hm. exists (p8 (m - N)). rewrite !p8_pow, <- Z.pow_add_r by lia. f_equal. lia. }
          destruct (Dv (length s) ltac:(lia)) as (qs & Qs). destruct (Dv (length r) ltac:(lia)) as (qr & Qr).
          exists (k + kr * qr + ks * qs). rewrite Ks, Kr, Hk, Qs, Qr, Bs. ring.
        - apply wp_ret. split; [exact Dr|]. split; [lia|]. exists k. rewrite Hk, Bs. ring. }
      intros s (Ds & Ls & ks & Ks).
      destruct (Nat.eqb_spec i 0) as [->|Ni]; cbn [negb].
      + apply wp_ret. split; [exact Ds|]. split; [lia|]. exists ks. rewrite Ks.
        change (2 ^ Z.of_nat 0) with 1. rewrite Z.div_1_r. reflexivity.
      + eapply wp_mono; [apply (drop_loop s Ds)|]. cbv beta. intros t (Lt & Dt & Vt).
        split; [exact Dt|]. split; [lia|].
        assert (exists q, p8 (length s) = q * p8 N) as (q & Q).
        { exists (p8 (length s - N)). rewrite !p8_pow, <- Z.pow_add_r by lia. f_equal. lia. }
        exists (2 * ks - (if 128 <=? last s 0 then q else 0)).
        destruct (128 <=? last s 0); [rewrite Q in Vt|]; rewrite Ks in Vt; lia.
    - intros r H. exact H. }
  intros r (Dr & Lr & k & Hk).
  eapply wp_mono; [apply (set_length_spec r N Lr)|]. cbv beta. intros s ->.
  assert (length (firstn N r) = N) as Ls by (rewrite firstn_length; lia).
  apply (enc_mod _ _ (- ((x * y) / p8 N))); [now apply Forall_firstn|apply ne_length; lia| |]; rewrite Ls.
  - assert (p8 N = p8 n * p8 n) as -> by (rewrite !p8_pow, <- Z.pow_add_r by lia; f_equal; lia).
    pose proof (p8_pos n) as Pn. set (B := p8 n) in *. clearbody B.
    destruct (Z.abs_spec x) as [[? Hx]|[? Hx]], (Z.abs_spec y) as [[? Hy]|[? Hy]]; nia.
  - rewrite pv_firstn_mod by assumption. rewrite Hk, Z.mod_add, Ky by lia.
    replace (x * (y + ky * p8 N)) with (x * y + x * ky * p8 N) by ring. rewrite Z.mod_add by lia.
    pose proof (Z.div_mod (x * y) (p8 N) ltac:(lia)). lia.
Qed.

(** ** Powers *)

Lemma ref_power_loop_spec reduce f e last1 expo bytes x :
  (forall l v, enc l v -> wp (reduce l) (fun r => enc r (f v))) ->
  (forall a b, f (f a * f b) = f (a * b)) ->
  digits 256 expo -> pv expo = e -> (last1 < 8 * length expo)%nat -> e < 2 ^ Z.of_nat (last1 + 1) ->
  enc bytes (f x) ->
  wp (ref_power_loop reduce expo last1 bytes) (fun '(_, r) => (e = 0 /\ r = []) \/ (0 < e /\ enc r (f (x ^ e)))).
Proof.
  intros Hred Hf De Ee Hlt Hle Eb. pose proof (proj1 (pv_bound expo De)) as He. rewrite Ee in He. unfold ref_power_loop.
  eapply wp_for_up with (I := fun i '(b, r) => ((i <= last1)%nat -> enc b (f (x ^ (2 ^ Z.of_nat i)))) /\
    ((e mod 2 ^ Z.of_nat i = 0 /\ r = []) \/ (0 < e mod 2 ^ Z.of_nat i /\ enc r (f (x ^ (e mod 2 ^ Z.of_nat i)))))).
  - change (2 ^ Z.of_nat 0) with 1. rewrite Z.pow_1_r, Z.mod_1_r. split; [intros _; exact Eb|]. left. now split.
  - intros i [b r] Hi (Hb & Hr). specialize (Hb ltac:(lia)).
    eapply wp_bind_cut; [apply (bits_get_spec expo _ i De); lia|]. intros one ->. rewrite Ee.
    pose proof (pow2_pos i) as P.
    assert (e mod 2 ^ Z.of_nat (S i) = e mod 2 ^ Z.of_nat i + 2 ^ Z.of_nat i * b2z (Z.testbit e (Z.of_nat i))) as St.
    { rewrite pow2_S, (Z.mul_comm 2), Z.rem_mul_r by lia. f_equal. f_equal.
      rewrite Z.testbit_odd, Z.shiftr_div_pow2 by lia. rewrite Zmod_odd. reflexivity. }
    pose proof (Z.mod_pos_bound e (2 ^ Z.of_nat i) P) as M.
    set (E := e mod 2 ^ Z.of_nat i) in *. set (T := 2 ^ Z.of_nat i) in *.
    eapply wp_bind_cut with (P := fun '(b, r) => enc b (f (x ^ T)) /\
      ((e mod 2 ^ Z.of_nat (S i) = 0 /\ r = []) \/ (0 < e mod 2 ^ Z.of_nat (S i) /\ enc r (f (x ^ (e mod 2 ^ Z.of_nat (S i))))))).
    { rewrite St. destruct (Z.testbit e (Z.of_nat i)); cbn [b2z].
      - eapply wp_bind_cut with (P := fun r => enc r (f (x ^ (E + T)))).
        { destruct Hr as [[E0 ->]|[E0 Er]].
          - cbn [is_nil]. apply wp_ret. rewrite E0, Z.add_0_l. exact Hb.
          - destruct r as [|r0 r]; [destruct Er as (_ & Nr & _); congruence|]. cbn [is_nil].
            eapply wp_bind_cut; [apply (ref_multiply_spec _ _ _ _ Er Hb)|]. intros m Em.
            eapply wp_mono; [apply (Hred _ _ Em)|]. cbv beta. intros s Es. rewrite Hf, <- Z.pow_add_r in Es by lia. exact Es. }
        intros r' Er'.
        eapply wp_bind_cut; [apply (ref_trim_spec _ _ Hb)|]. intros b1 (Eb1 & _).
        eapply wp_bind_cut; [apply (ref_trim_spec _ _ Er')|]. intros r1 (Er1 & _). apply wp_ret.
        split; [exact Eb1|]. right. rewrite Z.mul_1_r. split; [lia|exact Er1].
      - apply wp_ret. rewrite Z.mul_0_r, Z.add_0_r. now split. }
    intros [b1 r1] (Eb1 & Er1).
    destruct (Nat.eqb_spec i last1) as [Hl|Hl]; cbn [negb].
    + apply wp_ret. split; [lia|exact Er1].
    + eapply wp_bind_cut; [apply (ref_multiply_spec _ _ _ _ Eb1 Eb1)|]. intros m Em.
      eapply wp_bind_cut; [apply (Hred _ _ Em)|]. intros m' Em'. cbv beta in Em'.
      eapply wp_bind_cut; [apply (ref_trim_spec _ _ Em')|]. intros b2 (Eb2 & _). apply wp_ret.
      split; [|exact Er1]. intros _. rewrite Hf, <- Z.pow_add_r in Eb2 by lia.
      rewrite pow2_S. fold T. replace (2 * T) with (T + T) by ring. exact Eb2.
  - intros [b r] (_ & H). cbn [Nat.add] in H. rewrite Z.mod_small in H by lia. exact H.
Qed.

Lemma enc_one : enc [1] 1.
Proof. split; [repeat constructor; lia|]. split; [discriminate|reflexivity]. Qed.

Lemma loc_bound e k : (e = 0 /\ k = O) \/ 2 ^ Z.of_nat k <= e < 2 ^ (Z.of_nat k + 1) -> e < 2 ^ Z.of_nat (k + 1).
Proof.
  rewrite Nat2Z.inj_add. change (Z.of_nat 1) with 1. intros [[-> ->]|[_ H]]; [reflexivity|exact H].
Qed.

(** The exponent's bytes are read as an unsigned number. *)
Lemma ref_pow_raw l1 l2 x : enc l1 x -> digits 256 l2 -> l2 <> [] -> wp (ref_pow l1 l2) (fun r => enc r (x ^ pv l2)).
Proof.
  intros E1 D2 N2. pose proof (pv_bound l2 D2) as B. apply ne_length in N2. unfold ref_pow. rewrite (ref_is_zero_raw _ D2).
  destruct (Z.eqb_spec (pv l2) 0) as [->|Ne]; [apply wp_ret; apply enc_one|].
  eapply wp_bind_cut; [apply (last_one_raw _ D2 N2)|]. intros k (K & Kl).
  eapply wp_bind_cut; [apply (ref_power_loop_spec Ret (fun v => v) (pv l2) k l2 l1 x);
    [intros l v H; apply wp_ret; exact H|reflexivity|exact D2|reflexivity|exact Kl|now apply loc_bound|exact E1]|].
  intros [b r] [[H _]|[_ Er]]; [lia|]. apply wp_ret.
  destruct r; [destruct Er as (_ & N & _); congruence|exact Er].
Qed.

Lemma enc_pv_pos l e : enc l e -> 0 <= e -> pv l = e.
Proof. intros E He. rewrite (enc_pv l e E). destruct (Z.ltb_spec e 0); [lia|reflexivity]. Qed.

Lemma ref_pow_spec l1 l2 x e : enc l1 x -> enc l2 e -> 0 <= e -> wp (ref_pow l1 l2) (fun r => enc r (x ^ e)).
Proof.
  intros E1 E2 He. rewrite <- (enc_pv_pos l2 e E2 He). apply ref_pow_raw; [exact E1|apply E2|apply E2].
Qed.

Lemma ref_mod_pow_raw l1 l2 l3 x z : enc l1 x -> digits 256 l2 -> l2 <> [] -> enc l3 z ->
  wp (ref_mod_pow l1 l2 l3) (fun r => enc r (Z.rem (x ^ pv l2) z)).
Proof.
  intros E1 D2 N2 E3. pose proof (pv_bound l2 D2) as B. apply ne_length in N2. unfold ref_mod_pow. rewrite (ref_is_zero_raw _ D2).
  destruct (Z.eqb_spec (pv l2) 0) as [->|Ne]; [apply (ref_remainder_total _ _ _ _ enc_one E3)|].
  eapply wp_bind_cut; [apply (last_one_raw _ D2 N2)|]. intros k (K & Kl).
  eapply wp_bind_cut; [apply (ref_remainder_total _ _ _ _ E1 E3)|]. intros b Eb.
  eapply wp_bind_cut; [apply (ref_power_loop_spec (fun r => ref_remainder r l3) (fun v => Z.rem v z) (pv l2) k l2 b x);
    [intros l v H; apply (ref_remainder_total _ _ _ _ H E3)|intros u v; destruct (Z.eq_dec z 0) as [->|]; [now rewrite !rem_zero|symmetry; now apply Z.mul_rem]
    |exact D2|reflexivity|exact Kl|now apply loc_bound|exact Eb]|].
  intros [b' r] [[H _]|[_ Er]]; [lia|].
  destruct r; [destruct Er as (_ & N & _); congruence|]. cbn [is_nil]. apply wp_ret. exact Er.
Qed.

Lemma ref_mod_pow_spec l1 l2 l3 x e z : enc l1 x -> enc l2 e -> enc l3 z -> 0 <= e -> z <> 0 ->
  wp (ref_mod_pow l1 l2 l3) (fun r => enc r (Z.rem (x ^ e) z)).
Proof.
  intros E1 E2 E3 He _. rewrite <- (enc_pv_pos l2 e E2 He). apply ref_mod_pow_raw; [exact E1|apply E2|apply E2|exact E3].
Qed.
