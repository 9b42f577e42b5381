(** The bindings' to_biginteger with big-endian bytes. *)
From Verif Require Import Facts Spec SpecPos SpecPy PosFacts AddSubFacts SpecFacts BigIntFacts CompareFacts SpecApi ArithLaws BytesFacts ToBytesFacts BigInt BigIntBytes PyBind SpecText PowLaws
  PyFacts SpecPyOrder.
From Verif Require TextFacts WordFacts ShiftFacts.

Ltac Zify.zify_post_hook ::= idtac.

Lemma scan_up_rev (m : list Z) hb msb :
  (scan_up (rev m) hb msb = msb /\ forall i, (i < length m)%nat -> nth i m 0 = hb) \/
  exists i, (i < length m)%nat /\ scan_up (rev m) hb msb = nth i m 0 /\ nth i m 0 <> hb /\
    forall j, (i < j < length m)%nat -> nth j m 0 = hb.
Proof.
  induction m as [|d m IH] using rev_ind; [left; split; [reflexivity|]; cbn [length]; intros; lia|].
  rewrite rev_app_distr. cbn [rev app scan_up]. rewrite app_length. cbn [length].
  destruct (Z.eqb_spec d hb) as [E|E]; cbn [negb].
  - destruct IH as [(-> & H)|(i & Hi & -> & N & H)].
    + left. split; [reflexivity|]. intros i Hi. destruct (Nat.eq_dec i (length m)) as [->|]; [now rewrite nth_middle|].
      rewrite app_nth1 by lia. apply H. lia.
    + right. exists i. rewrite app_nth1 by lia. split; [lia|]. split; [reflexivity|]. split; [exact N|].
      intros j Hj. destruct (Nat.eq_dec j (length m)) as [->|]; [now rewrite nth_middle|]. rewrite app_nth1 by lia. apply H. lia.
  - right. exists (length m). rewrite nth_middle. split; [lia|]. split; [reflexivity|]. split; [exact E|]. intros j Hj. lia.
Qed.

(** Bytes of 255 from [i] on. *)
Lemma filled v n i : - p8 n <= v < 0 -> (i <= n)%nat -> (forall j, (i <= j < n)%nat -> (v / p8 j) mod 256 = 255) -> v / p8 i = -1.
Proof.
  intros Hv Hi H. replace i with (n - (n - i))%nat by lia. assert (forall d, (d <= n - i)%nat -> v / p8 (n - d) = -1) as G; [|apply G; lia].
  induction d as [|d IH]; intros Hd.
  - rewrite Nat.sub_0_r. symmetry. apply (Z.div_unique_pos _ _ _ (v + p8 n)); lia.
  - specialize (IH ltac:(lia)). specialize (H (n - S d)%nat ltac:(lia)).
    replace (n - d)%nat with (S (n - S d)) in IH by lia. rewrite bp_S in IH. rewrite Z.mul_comm in IH.
    rewrite <- Z.div_div in IH by (pose proof (bp_pos 256 B8_ok (n - S d)); lia).
    pose proof (Z.div_mod (v / p8 (n - S d)) 256 ltac:(lia)) as D. lia.
Qed.

Lemma bits_of_top w i d : 1 <= d <= 255 -> w / p8 i = d -> (py_num_bits w mod 8 =? 0) = (128 <=? d).
Proof.
  intros Hd E. pose proof (bp_pos 256 B8_ok i) as P.
  assert (p8 i * d <= w < p8 i * (d + 1)) as B by (pose proof (Z.div_mod w (p8 i) ltac:(lia)); pose proof (Z.mod_pos_bound w (p8 i) P); nia).
  assert (0 < w) as W by nia.
  assert (Z.log2 w = 8 * Z.of_nat i + Z.log2 d) as L.
  { apply Z.log2_unique; [pose proof (Z.log2_nonneg d); lia|]. pose proof (Z.log2_spec d ltac:(lia)) as D. pose proof (Z.log2_nonneg d) as N.
    rewrite p8_pow2 in B. replace (Z.succ (8 * Z.of_nat i + Z.log2 d)) with (8 * Z.of_nat i + Z.succ (Z.log2 d)) by lia.
    rewrite !Z.pow_add_r by lia. assert (0 < 2 ^ (8 * Z.of_nat i)) by (apply Z.pow_pos_nonneg; lia). nia. }
  unfold py_num_bits. destruct (Z.eqb_spec w 0); [lia|]. rewrite Z.abs_eq, L by lia.
  replace (8 * Z.of_nat i + Z.log2 d + 1) with (Z.log2 d + 1 + Z.of_nat i * 8) by ring. rewrite Z.mod_add by lia.
  pose proof (Z.log2_nonneg d) as N. pose proof (Z.log2_spec d ltac:(lia)) as D.
  destruct (Z.leb_spec 128 d) as [G|G].
  - assert (Z.log2 d = 7) as -> by (apply Z.log2_unique; lia). reflexivity.
  - assert (Z.log2 d < 7) as K by (apply Z.log2_lt_pow2; lia). rewrite Z.mod_small by lia. apply Z.eqb_neq. lia.
Qed.

Lemma lnot_div v m : 0 < m -> (- v - 1) / m = - (v / m) - 1.
Proof.
  intros H. pose proof (Z.div_mod v m ltac:(lia)) as D. pose proof (Z.mod_pos_bound v m H) as B.
  symmetry. apply (Z.div_unique_pos _ _ _ (m - 1 - v mod m)); lia.
Qed.

(** The branch taken, by the number of bits. *)
Lemma sign_byte v : v < 0 -> let k := byte_need v in
  negb (Z.land (scan_up (rev (low_bytes (S k) v)) 255 (Z.of_nat k)) 128 =? Z.land 255 128) = (py_num_bits (- v - 1) mod 8 =? 0).
Proof.
  intros Hv k. destruct (byte_need_spec v ltac:(lia)) as (Hk & B). fold k in Hk, B. rewrite Z.abs_neq in B by lia.
  pose proof (bp_S 256 k) as PS.
  assert (- p8 (S k) <= v < 0) as Hb by (fold (p8 (S k)) (p8 k) in PS; lia).
  destruct (scan_up_rev (low_bytes (S k) v) 255 (Z.of_nat k)) as [(-> & H)|(i & Hi & -> & N & H)]; rewrite low_bytes_length in *.
  - assert (v = -1) as E.
    { rewrite <- (Z.div_1_r v). change 1 with (p8 0) at 1. apply (filled v (S k)); [exact Hb|lia|].
      intros j Hj. rewrite <- low_bytes_nth with (n := S k) by lia. apply H. lia. }
    unfold k. rewrite E. reflexivity.
  - assert (v / p8 (S i) = -1) as F.
    { apply (filled v (S k)); [exact Hb|lia|]. intros j Hj. rewrite <- low_bytes_nth with (n := S k) by lia. apply H. lia. }
    rewrite low_bytes_nth in N |- * by lia. pose proof (bp_pos 256 B8_ok i) as P.
    rewrite bp_S, Z.mul_comm in F. fold (p8 i) in F, P. rewrite <- Z.div_div in F by lia.
    pose proof (Z.div_mod (v / p8 i) 256 ltac:(lia)) as D. pose proof (Z.mod_pos_bound (v / p8 i) 256 ltac:(lia)) as M.
    rewrite top_bit_ne by lia. rewrite (bits_of_top (- v - 1) i (255 - (v / p8 i) mod 256)).
    + destruct (Z.ltb_spec ((v / p8 i) mod 256) 128), (Z.leb_spec 128 (255 - (v / p8 i) mod 256)); lia || reflexivity.
    + lia.
    + rewrite lnot_div by lia. lia.
Qed.

(** The bytes encode the int. *)
Lemma bytes_of_int_value v : digits 256 (bytes_of_int v) /\ bytes_value (0 <=? v) false (bytes_of_int v) = v.
Proof.
  split; [apply low_bytes_digits|]. unfold bytes_of_int. cbv zeta. destruct (Z.leb_spec 0 v) as [N|N].
  - rewrite (proj2 (Z.ltb_ge v 0)) by lia. cbn [andb]. fold (byte_need v). apply low_bytes_unsigned.
    destruct (Z.eq_dec v 0) as [->|]; [rewrite byte_need_zero, bp_0; lia|]. destruct (byte_need_spec v ltac:(assumption)). lia.
  - rewrite (proj2 (Z.ltb_lt v 0)) by lia. cbn [andb]. destruct (byte_need_spec v ltac:(lia)) as (Hk & B). rewrite Z.abs_neq in B by lia.
    apply low_bytes_signed. destruct (Z.eqb_spec (py_num_bits (- v - 1) mod 8) 0) as [E|E].
    + replace (Z.to_nat ((py_num_bits v + 7) / 8 + 1)) with (S (byte_need v)).
      * destruct (neg_buffer v N) as (_ & F & _). exact F.
      * unfold byte_need. pose proof (Z.div_pos (py_num_bits v + 7) 8) as Q. unfold py_num_bits in Q |- *.
        destruct (Z.eqb_spec v 0); [lia|]. pose proof (Z.log2_nonneg (Z.abs v)). specialize (Q ltac:(lia) ltac:(lia)). lia.
    + fold (byte_need v). set (k := byte_need v) in *. unfold cfits.
      (* the top bit of the highest byte is set: -v - 1 has at most 8 k - 1 bits *)
      destruct (Z.le_gt_cases (- v - 1) 0) as [Z0|Z0].
      { exfalso. apply E. replace v with (-1) by lia. reflexivity. }
      assert (- v - 1 < p8 k) as U by lia.
      assert (2 * (- v - 1) < p8 k) as U2.
      { rewrite p8_pow2 in U |- *. pose proof (Z.log2_spec (- v - 1) Z0) as L. pose proof (Z.log2_nonneg (- v - 1)) as LN.
        assert (Z.log2 (- v - 1) < 8 * Z.of_nat k) as L2 by (apply Z.log2_lt_pow2; lia).
        assert (Z.log2 (- v - 1) + 1 <> 8 * Z.of_nat k) as L3.
        { intros X. apply E. unfold py_num_bits. destruct (Z.eqb_spec (- v - 1) 0); [lia|]. rewrite Z.abs_eq, X by lia.
          rewrite Z.mul_comm. apply Z.mod_mul. lia. }
        apply (Z.lt_le_trans _ (2 ^ (Z.succ (Z.log2 (- v - 1)) + 1))).
        - rewrite Z.pow_add_r by lia. change (2 ^ 1) with 2. lia.
        - apply Z.pow_le_mono_r; lia. }
      assert (exists h, p8 k = 2 * h) as (h & Eh).
      { exists (128 * p8 (k - 1)). replace k with (S (k - 1)) at 1 by lia. rewrite bp_S. fold (p8 (k - 1)). ring. }
      fold (p8 k). lia.
Qed.

Lemma reread_bytes v : reread v = bytes_value (0 <=? v) false (rev (bytes_of_int v)).
Proof. reflexivity. Qed.

Lemma big_endian_calls c v :
  to_biginteger c false v true = bi_of_bytes c (rev (bytes_of_int v)) (0 <=? v) false.
Proof.
  unfold to_biginteger, bytes_of_int. cbv zeta. fold (byte_need v). destruct (Z.ltb_spec v 0) as [N|N].
  - rewrite (proj2 (Z.leb_gt 0 v)) by lia. destruct (neg_buffer v N) as (E & F & P). cbv zeta in *.
    destruct (byte_need_spec v ltac:(lia)) as (Hk & _).
    assert (py_as_bytes v (S (byte_need v)) true true = Some (rev (low_bytes (S (byte_need v)) v))) as ->.
    { unfold py_as_bytes. cbv zeta. unfold bytes_value, le_order. cbn [negb]. rewrite rev_involutive.
      pose proof (low_bytes_signed _ _ F) as S. unfold bytes_value, le_order in S. rewrite S. now rewrite Z.eqb_refl. }
    cbn [negb]. rewrite rev_length, low_bytes_length. replace (S (byte_need v) - 1)%nat with (byte_need v) by lia. cbn [bind].
    rewrite (sign_byte v N). cbn [andb].
    assert (Z.to_nat ((py_num_bits v + 7) / 8 + 1) = S (byte_need v)) as T.
    { unfold byte_need in *. lia. }
    destruct (py_num_bits (- v - 1) mod 8 =? 0); [now rewrite T|]. fold (byte_need v). rewrite E, rev_app_distr. reflexivity.
  - rewrite (proj2 (Z.leb_le 0 v)) by lia. cbn [andb]. fold (byte_need v).
    assert (py_as_bytes v (byte_need v) true false = Some (rev (low_bytes (byte_need v) v))) as ->.
    { pose proof (proj2 (bytes_of_int_value v)) as S. unfold bytes_of_int in S. cbv zeta in S.
      rewrite (proj2 (Z.leb_le 0 v)), (proj2 (Z.ltb_ge v 0)) in S by lia. cbn [andb] in S. fold (byte_need v) in S.
      unfold py_as_bytes. cbv zeta. unfold bytes_value, le_order in *. cbn [negb]. rewrite rev_involutive, S. now rewrite Z.eqb_refl. }
    reflexivity.
Qed.

Lemma digits_rev l : digits 256 l -> digits 256 (rev l).
Proof. intros H. unfold digits in *. now apply Forall_rev. Qed.

Theorem big_endian_returns c v :
  strict c = false \/ 0 <= reread v \/ reread v < - 2 ^ 31 -> returns (to_biginteger c false v true) (reread v).
Proof.
  intros H. rewrite big_endian_calls, reread_bytes in *. pose proof (digits_rev _ (proj1 (bytes_of_int_value v))) as D.
  apply of_bytes_returns; [exact D|]. destruct H as [H|[H|H]]; [now left|now right; left|right; right].
  unfold bytes_value, le_order in H. change (2 ^ 31) with 2147483648 in H. destruct (0 <=? v).
  - pose proof (pos_bound 256 B8_ok _ D) as R. lia.
  - apply (complement_needs 256 B8_ok B8_even 4 _ (complement 256 (rev (bytes_of_int v)))); [|exact D|reflexivity].
    unfold cfits. change (p8 4) with 4294967296. lia.
Qed.

Lemma complement_same l m : digits 256 l -> digits 256 m -> length l = length m -> complement 256 l = complement 256 m ->
  positional 256 l = positional 256 m.
Proof.
  intros Dl Dm L E. pose proof (pos_bound 256 B8_ok l Dl) as Bl. pose proof (pos_bound 256 B8_ok m Dm) as Bm.
  unfold complement in E. rewrite L in E, Bl. fold (p8 (length m)) in E. destruct (256 <=? 2 * last l 0), (256 <=? 2 * last m 0); lia.
Qed.

Theorem reread_exact v : reread v = v <-> rev (bytes_of_int v) = bytes_of_int v.
Proof.
  destruct (bytes_of_int_value v) as (D & E). pose proof (digits_rev _ D) as D'. rewrite reread_bytes. split.
  - intros H. assert (bytes_value (0 <=? v) false (rev (bytes_of_int v)) = bytes_value (0 <=? v) false (bytes_of_int v)) as H' by congruence.
    clear H. rename H' into H. unfold bytes_value, le_order in H. destruct (0 <=? v).
    + apply (TextFacts.positional_inj 256); [lia|exact D'|exact D|now rewrite rev_length|exact H].
    + apply (TextFacts.positional_inj 256); [lia|exact D'|exact D|now rewrite rev_length|].
      apply complement_same; [exact D'|exact D|now rewrite rev_length|exact H].
  - intros H. rewrite H. exact E.
Qed.

Theorem big_endian_short c v :
  -128 <= v < 256 -> strict c = false \/ 0 <= v -> returns (to_biginteger c false v true) v.
Proof.
  intros Hv Hs. assert (reread v = v) as E.
  { apply reread_exact. destruct (Z.eq_dec v (-1)) as [->|N1]; [reflexivity|].
    assert (length (bytes_of_int v) <= 1)%nat as L.
    { unfold bytes_of_int. cbv zeta. rewrite low_bytes_length.
      assert ((py_num_bits v + 7) / 8 <= 1) as B.
      { apply Z.lt_succ_r. apply Z.div_lt_upper_bound; [lia|]. unfold py_num_bits. destruct (Z.eqb_spec v 0); [lia|].
        assert (Z.log2 (Z.abs v) < 8) by (apply Z.log2_lt_pow2; lia). lia. }
      destruct (Z.ltb_spec v 0) as [N|N]; cbn [andb]; [|lia].
      destruct (Z.eqb_spec (py_num_bits (- v - 1) mod 8) 0) as [E|E]; [exfalso|lia].
      unfold py_num_bits in E. destruct (Z.eqb_spec (- v - 1) 0); [lia|]. rewrite Z.abs_eq in E by lia.
      assert (Z.log2 (- v - 1) < 7) by (apply Z.log2_lt_pow2; lia). pose proof (Z.log2_nonneg (- v - 1)).
      rewrite Z.mod_small in E by lia. lia. }
    destruct (bytes_of_int v) as [|a [|b l]]; [reflexivity|reflexivity|cbn [length] in L; lia]. }
  rewrite <- E at 2. apply big_endian_returns. rewrite E. tauto.
Qed.

Theorem big_endian_wrong c v :
  strict c = false -> rev (bytes_of_int v) <> bytes_of_int v ->
  exists z, z <> v /\ returns (to_biginteger c false v true) z.
Proof.
  intros Hs N. exists (reread v). split; [intros E; apply N; now apply reread_exact|]. apply big_endian_returns. now left.
Qed.

Lemma big_endian_zero c : returns (to_biginteger c true 0 true) 0.
Proof. unfold to_biginteger. apply returns_wp, bi_zero_spec. Qed.
