(** Proofs about powers with lengths kept in [int]. *)
From Verif Require Import Machine Facts Spec AddSubFacts SquMulFacts DivRemFacts DivCoreFacts SpecFacts BigIntFacts
  CompareFacts ConvFacts SpecApi SpecGcd ShiftFacts WordFacts BigInt CalcPowMod PowFacts PowLaws ModPowFacts ModPowApi RunExact LeakyModPow SpecActual ActualFacts
  IntSizes SpecSizes IntSizesFacts IntLimbs SpecLimbs IntLimbsFacts IntLimbsLaws IntConvFacts BytesFacts IntBitsFacts IntAdd SpecIntAdd IntAddFacts
  IntAddLaws IntTextLaws IntDiv SpecIntDiv IntDivFacts IntMulFacts IntMulLaws IntGcd IntGcdLaws IntPow SpecIntPow.
Ltac Zify.zify_post_hook ::= idtac.

(** ** pow *)
Lemma pow_bound_same fuel c : forall p v r, 0 <= v <= INT_MAX -> 0 <= r <= INT_MAX ->
  pow_bound_loop_i fuel c p v r = pow_bound_loop fuel p v r.
Proof.
  induction fuel as [|fuel IH]; intros p v r Hv Hr; cbn [pow_bound_loop_i pow_bound_loop]; [reflexivity|].
  destruct (p =? 0); [reflexivity|]. unfold INT_MAX in *.
  rewrite !(chk32_ok c (2147483647 - _)) by (unfold INT_MIN, INT_MAX; lia). cbn [bind].
  assert (forall r', 0 <= r' <= 2147483647 ->
    (v' <- (if negb (p =? 1) then if v <? 2147483647 - v then chk32 c (v + v) else Throw OverflowError else Ret v) ;;
     pow_bound_loop_i fuel c (Z.shiftr p 1) v' r') =
    (v' <- (if negb (p =? 1) then if v <? 2147483647 - v then Ret (v + v) else Throw OverflowError else Ret v) ;;
     pow_bound_loop fuel (Z.shiftr p 1) v' r')) as K.
  { intros r' Hr'. destruct (p =? 1); cbn [negb bind]; [apply IH; assumption|].
    destruct (Z.ltb_spec v (2147483647 - v)) as [G|G]; [|reflexivity].
    rewrite chk32_ok by (unfold INT_MIN, INT_MAX; lia). cbn [bind]. apply IH; lia. }
  destruct (Z.land p 1 =? 1); cbn [bind]; [|apply K; lia].
  destruct (Z.ltb_spec v (2147483647 - r)) as [G|G]; [|reflexivity].
  rewrite chk32_ok by (unfold INT_MIN, INT_MAX; lia). cbn [bind]. apply K. lia.
Qed.

Lemma s32_back n : 2147483648 <= n < 6442450944 -> s32 n = n - 4294967296.
Proof. intros H. rewrite <- int_of_s32. now apply int_of_back. Qed.

Lemma pow_bound_wrapped fuel c p v : 1 < p -> -2147483648 <= v < 0 ->
  let o := pow_bound_loop_i (S fuel) c p v 1 in
  if strict c then o = Undef SignedOverflow else -1073741824 <= v -> o = Throw OverflowError.
Proof.
  intros Hp Hv o. unfold o. cbn [pow_bound_loop_i]. rewrite (proj2 (Z.eqb_neq p 0)), (proj2 (Z.eqb_neq p 1)) by lia. cbn [negb].
  assert (exists r, (if Z.land p 1 =? 1 then room <- chk32 c (INT_MAX - 1) ;; if v <? room then chk32 c (1 + v) else Throw OverflowError else Ret 1) = Ret r) as (r & ->).
  { destruct (Z.land p 1 =? 1); [|eauto]. rewrite chk32_ok by (unfold INT_MIN, INT_MAX; lia). cbn [bind].
    rewrite (proj2 (Z.ltb_lt v _)) by (unfold INT_MAX; lia). rewrite chk32_ok by (unfold INT_MIN, INT_MAX; lia). eauto. }
  cbn [bind]. destruct (strict c) eqn:S.
  - rewrite (chk32_over c (INT_MAX - v) S) by (unfold INT_MAX; lia). reflexivity.
  - intros Q. unfold chk32 at 1. rewrite S. rewrite (proj2 (Z.leb_gt (INT_MAX - v) INT_MAX)) by (unfold INT_MAX; lia). rewrite andb_false_r.
    cbn [bind]. rewrite s32_back by (unfold INT_MAX; lia). rewrite (proj2 (Z.ltb_ge v _)) by (unfold INT_MAX; lia). reflexivity.
Qed.

Lemma land_1_mod p : Z.land p 1 = p mod 2.
Proof. change 1 with (Z.ones 1). rewrite Z.land_ones by lia. reflexivity. Qed.

(** Where ints wrap: a bound on the result that is negative is refused at the next odd bit. *)
Lemma pow_bound_negative fuel c : strict c = false -> forall p v r, 0 < p < 2 ^ Z.of_nat fuel -> 0 <= v <= 2147483647 ->
  -2147483647 <= r <= -1073741824 -> pow_bound_loop_i fuel c p v r = Throw OverflowError.
Proof.
  intros St. induction fuel as [|fuel IH]; intros p v r Hp Hv Hr; cbn [pow_bound_loop_i].
  { change (2 ^ Z.of_nat 0) with 1 in Hp. lia. }
  rewrite (proj2 (Z.eqb_neq p 0)) by lia. pose proof (half_lt p fuel ltac:(lia)) as HL. rewrite land_1_mod.
  destruct (Z.eqb_spec (p mod 2) 1) as [O|O].
  - unfold chk32 at 1. rewrite St. rewrite (proj2 (Z.leb_gt (INT_MAX - r) INT_MAX)) by (unfold INT_MAX; lia). rewrite andb_false_r. cbn [bind].
    rewrite s32_back by (unfold INT_MAX; lia). rewrite (proj2 (Z.ltb_ge v _)) by (unfold INT_MAX; lia). reflexivity.
  - cbn [bind]. destruct (Z.eqb_spec p 1) as [->|P1]; [exfalso; apply O; reflexivity|]. cbn [negb].
    rewrite chk32_ok by (unfold INT_MIN, INT_MAX; lia). cbn [bind]. destruct (Z.ltb_spec v (INT_MAX - v)) as [G|G]; [|reflexivity].
    unfold INT_MAX in G. rewrite chk32_ok by (unfold INT_MIN, INT_MAX; lia). cbn [bind].
    apply IH; [|lia|exact Hr]. split; [|apply HL]. rewrite Z.shiftr_div_pow2 by lia. change (2 ^ 1) with 2. apply Z.div_str_pos. lia.
Qed.

Lemma pow_bound_nothing fuel : forall p r, 0 <= p < 2 ^ Z.of_nat fuel -> 0 <= r < INT_MAX -> pow_bound_loop fuel p 0 r = Ret r.
Proof.
  unfold INT_MAX. induction fuel as [|fuel IH]; intros p r Hp Hr; cbn [pow_bound_loop].
  - assert (p = 0) as -> by (change (2 ^ Z.of_nat 0) with 1 in Hp; lia). reflexivity.
  - destruct (p =? 0); [reflexivity|]. pose proof (half_lt p fuel Hp) as HL. unfold INT_MAX.
    rewrite (proj2 (Z.ltb_lt 0 (2147483647 - r))) by lia. change (0 <? 2147483647 - 0) with true. cbn beta iota.
    rewrite Z.add_0_r. change (0 + 0) with 0. destruct (Z.land p 1 =? 1), (negb (p =? 1)); cbn [bind]; now apply IH.
Qed.

(** Below -2^30 the size is doubled to one that is not negative. *)
Lemma pow_bound_doubled fuel c p n : strict c = false -> 1 < p < 2 ^ Z.of_nat (S fuel) -> -2147483648 <= n < -1073741824 ->
  pow_bound_loop_i (S fuel) c p n 1 =
  if Z.even p && ((n + 2147483648) * p + 1 <? 2147483647) then Ret ((n + 2147483648) * p + 1) else Throw OverflowError.
Proof.
  intros St Hp Hn. cbn [pow_bound_loop_i].
  rewrite (proj2 (Z.eqb_neq p 0)), (proj2 (Z.eqb_neq p 1)) by lia. cbn [negb].
  assert ((room <- chk32 c (INT_MAX - n) ;; (if n <? room then chk32 c (n + n) else Throw OverflowError)) = Ret (2 * n + 4294967296)) as V.
  { unfold chk32. rewrite St. rewrite (proj2 (Z.leb_gt (INT_MAX - n) INT_MAX)) by (unfold INT_MAX; lia). rewrite andb_false_r. cbn [bind].
    rewrite s32_back by (unfold INT_MAX; lia). rewrite (proj2 (Z.ltb_lt n _)) by (unfold INT_MAX; lia).
    rewrite (proj2 (Z.leb_gt INT_MIN (n + n))) by (unfold INT_MIN; lia). cbn [andb].
    f_equal. rewrite <- int_of_s32. unfold int_of. change (2 ^ 31) with 2147483648. change (2 ^ 32) with 4294967296.
    replace (n + n + 2147483648) with (2 * n + 6442450944 + (-1) * 4294967296) by lia. rewrite Z.mod_add by lia. rewrite Z.mod_small by lia. lia. }
  rewrite V. pose proof (half_lt p fuel ltac:(lia)) as HL.
  assert (0 < Z.shiftr p 1) as HP by (rewrite Z.shiftr_div_pow2 by lia; change (2 ^ 1) with 2; apply Z.div_str_pos; lia).
  rewrite land_1_mod. rewrite Zmod_odd. rewrite <- Z.negb_odd. destruct (Z.odd p) eqn:O; cbn [negb andb].
  - change (1 =? 1) with true. cbv iota. rewrite chk32_ok by (unfold INT_MIN, INT_MAX; lia). cbn [bind].
    rewrite (proj2 (Z.ltb_lt n _)) by (unfold INT_MAX; lia). rewrite chk32_ok by (unfold INT_MIN, INT_MAX; lia). cbn [bind].
    apply pow_bound_negative; auto; lia.
  - change (0 =? 1) with false. cbv iota. cbn [bind].
    rewrite pow_bound_same by (unfold INT_MAX; lia).
    assert ((n + 2147483648) * p = (2 * n + 4294967296) * Z.shiftr p 1) as EQ.
    { rewrite Z.shiftr_div_pow2 by lia. change (2 ^ 1) with 2. pose proof (Z.div_mod p 2 ltac:(lia)) as DM. rewrite Zmod_odd, O in DM. lia. }
    rewrite EQ. set (q := Z.shiftr p 1) in *. set (v := 2 * n + 4294967296) in *.
    assert (0 <= v <= 2147483646) as BV by (unfold v; lia). clearbody q v.
    destruct (Z.eq_dec v 0) as [->|V0].
    + rewrite pow_bound_nothing by (unfold INT_MAX; lia). reflexivity.
    + rewrite pow_bound_exact by (unfold INT_MAX; lia). unfold INT_MAX. now rewrite Z.add_comm.
Qed.

(** The low limbs, also if there are none. *)
Lemma calc_pow_v_i_spec c l p : limbs l -> 0 < p < 2 ^ 32 -> 0 <= s32 (Z.of_nat (length l)) ->
  let n := s32 (Z.of_nat (length l)) in
  if 2 ^ 31 - 1 <=? n * p + 1 then calc_pow_v_i c l p = Sized (Throw OverflowError)
  else exists o, calc_pow_v_i c l p = Sized o /\ wp o (fun r => limbs r /\ val r = vl l (Z.to_nat n) ^ p).
Proof.
  intros Hl Hp Hn n. fold n in Hn. pose proof (s32_range (Z.of_nat (length l))) as B. fold n in B.
  pose proof (int_of_le (Z.of_nat (length l)) ltac:(lia)) as IL. rewrite int_of_s32 in IL. fold n in IL.
  unfold calc_pow_v_i. cbv zeta. fold n. rewrite pow_bound_same by (unfold INT_MAX in *; lia). rewrite (proj2 (Z.ltb_ge n 0)) by lia.
  change (2 ^ 31 - 1) with 2147483647. set (l0 := firstn (Z.to_nat n) l).
  assert (length l0 = Z.to_nat n) as L0 by (unfold l0; rewrite firstn_length; lia).
  assert (limbs l0) as Hl0 by (now apply limbs_firstn).
  destruct (Z.eq_dec n 0) as [N0|N0].
  - rewrite N0. change (2147483647 <=? 0 * p + 1) with false. cbn beta iota.
    rewrite pow_bound_nothing by (change (Z.of_nat bit_fuel) with 33; unfold INT_MAX; change (2 ^ 33) with 8589934592; change (2 ^ 32) with 4294967296 in Hp; lia).
    cbn [before]. change (1 <? 0) with false. cbn beta iota. eexists. split; [reflexivity|].
    assert (l0 = []) as -> by (destruct l0; [reflexivity|cbn [length] in L0; lia]).
    wstep. eapply wp_mono; [apply buf_of_v_spec; [constructor|change (val []) with 0; apply Bp_pos]|]. intros b Bb.
    rewrite vl_0. change (val []) with 0 in Bb. eapply pow_core_spec; [lia|exact Bb|].
    pose proof Bb as [_ _ _ _ _ Lo]. assert (bb_len b = O) as ->.
    { destruct (Nat.eq_dec (bb_len b) 0) as [|K]; [assumption|]. specialize (Lo K). pose proof (Bp_pos (bb_len b - 1)). lia. }
    cbn [Z.of_nat]. change (Z.to_nat 1) with 1%nat. lia.
  - assert (l0 <> []) as Nl by (intros E; rewrite E in L0; cbn [length] in L0; lia).
    pose proof (calc_pow_v_exact c l0 p Hl0 Nl Hp) as W. unfold calc_pow_v, pow_bound in W. rewrite L0 in W. rewrite Z2Nat.id in W by lia.
    rewrite pow_bound_exact in W |- * by (change (Z.of_nat bit_fuel) with 33; unfold INT_MAX; change (2 ^ 33) with 8589934592; change (2 ^ 32) with 4294967296 in Hp; lia).
    unfold INT_MAX in *. assert (0 <= n * p) as NP by (apply Z.mul_nonneg_nonneg; lia).
    destruct (Z.ltb_spec (1 + n * p) 2147483647) as [G|G].
    + rewrite (proj2 (Z.leb_gt _ _)) by lia. cbn [before]. rewrite (proj2 (Z.ltb_ge (1 + n * p) 0)) by lia.
      eexists. split; [reflexivity|]. exact W.
    + rewrite (proj2 (Z.leb_le _ _)) by lia. reflexivity.
Qed.

Lemma gives_ret b z : represents b z -> gives (Sized (Ret b)) z.
Proof. intros H. eexists. split; [reflexivity|]. exists b. auto. Qed.

Theorem pow_any_holds c a x e : represents a x -> - 2 ^ 31 <= e < 2 ^ 31 -> pow_any c x e (bi_pow_i c a e).
Proof.
  intros Ha He. unfold pow_any. cbv zeta. change (- 2 ^ 31) with (-2147483648) in He. change (2 ^ 31) with 2147483648 in *.
  destruct (Z.ltb_spec e 0) as [E|E].
  { unfold bi_pow_i. now rewrite (proj2 (Z.ltb_lt _ _) E). }
  destruct (Z.leb_spec e 1) as [E1|E1].
  { unfold bi_pow_i. rewrite (proj2 (Z.ltb_ge _ _) E), (valid_ok c a x Ha). cbn [before].
    destruct (Z.eqb_spec e 0) as [->|E0]; [apply gives_ret; rewrite Z.pow_0_r; apply repr_small; num; lia|].
    assert (e = 1) as -> by lia. change (1 =? 1) with true. cbn beta iota. apply gives_ret. rewrite Z.pow_1_r. exact Ha. }
  destruct (limbs_of_count x) as (Cn1 & Cn2 & Cn3). pose proof (conj Cn1 (conj Cn2 Cn3)) as Cn. fold (limb_count x (limbs_of x)) in Cn.
  destruct (Z.lt_ge_cases (Z.abs x) 2147483648) as [S|S].
  - assert (int_limbs x = 1) as -> by (unfold int_limbs; rewrite (limbs_of_small x S); reflexivity).
    pose proof (limbs_of_small x S) as L1. change (1 <? 0) with false. cbn beta iota.
    replace (Z.sgn x * low x 1) with x.
    2:{ rewrite low_all by (rewrite L1; lia). lia. }
    assert (bi_pow_i c a e = Sized (bi_pow c a e)) as ->.
    { pose proof (short_parts _ _ Ha S) as ->. unfold bi_pow_i, bi_pow. rewrite (proj2 (Z.ltb_ge _ _) E), (valid_ok c _ x Ha). cbn [before bind bits_of sign_of is_nil andb].
      destruct (e =? 0); [reflexivity|]. destruct (e =? 1); [reflexivity|]. destruct (x =? 1); [reflexivity|]. destruct (x =? -1); [reflexivity|].
      destruct (x =? 0); [reflexivity|]. rewrite !(abs32_ok c e) by (unfold INT_MIN, INT_MAX; lia). cbn [before bind then_sized].
      reflexivity. }
    destruct (Z.ltb_spec 1 (Z.abs x)) as [X|X]; cbn [andb].
    + destruct (Z.leb_spec (2147483648 - 1) (1 * e + 1)) as [B|B].
      * f_equal. apply (pow_overflow c a x e _ Ha Cn); auto; change (2 ^ 31) with 2147483648; lia.
      * eexists. split; [reflexivity|]. apply (pow_exact c a x e _ Ha Cn); auto; change (2 ^ 31) with 2147483648; lia.
    + eexists. split; [reflexivity|]. apply (pow_exact c a x e _ Ha Cn); auto; change (2 ^ 31) with 2147483648; lia.
  - destruct (long_parts a x Ha S) as (s & l & -> & Hs & Nl & Hl & Ht & Hv & Sx & LX).
    rewrite (proj2 (Z.ltb_lt 1 (Z.abs x))) by lia. cbn [andb].
    unfold bi_pow_i. rewrite (proj2 (Z.ltb_ge _ _) E), (valid_ok c _ x Ha). cbn [before bits_of sign_of].
    rewrite (proj2 (Z.eqb_neq e 0)), (proj2 (Z.eqb_neq e 1)), (nil_false l Nl) by lia. cbn [andb].
    rewrite abs32_ok by (unfold INT_MIN, INT_MAX; lia). cbn [before]. rewrite Z.abs_eq by lia.
    rewrite (int_length x l LX). set (n := s32 (Z.of_nat (length l))). pose proof (s32_range (Z.of_nat (length l))) as BN. fold n in BN.
    unfold INT_MIN, INT_MAX in BN. destruct (Z.ltb_spec n 0) as [G|G].
    + pose proof (pow_bound_wrapped 32 c e n E1 ltac:(lia)) as K. cbv zeta in K. change 33%nat with bit_fuel in K.
      unfold calc_pow_v_i. cbv zeta. fold n. change (- 2 ^ 30) with (-1073741824).
      destruct (strict c) eqn:St; [now rewrite K|]. destruct (Z.ltb_spec n (-1073741824)) as [Q|Q]; [|now rewrite K].
      cbn [andb]. change bit_fuel with 33%nat. rewrite (pow_bound_doubled 32 c e n St) by (change (2 ^ Z.of_nat 33) with 8589934592; lia). change (2147483648 - 1) with 2147483647.
      destruct (Z.even e && _); [|reflexivity]. cbn [before].
      rewrite (proj2 (Z.ltb_ge ((n + 2147483648) * e + 1) 0)) by nia. rewrite (proj2 (Z.ltb_lt n 0) G). reflexivity.
    + pose proof (calc_pow_v_i_spec c l e Hl ltac:(change (2 ^ 32) with 4294967296; lia) G) as W. cbv zeta in W. fold n in W.
      change (2 ^ 31 - 1) with (2147483648 - 1) in W. destruct (2147483648 - 1 <=? n * e + 1); [now rewrite W|].
      destruct W as (o & -> & W). cbn [then_sized]. eexists. split; [reflexivity|]. apply wp_inv in W as (r & -> & R1 & R2). cbn [bind].
      pose proof (int_of_le (Z.of_nat (length l)) ltac:(lia)) as IL. rewrite int_of_s32 in IL. fold n in IL.
      rewrite (low_vl_all x l n Hl Hv) by lia. apply returns_wp. eapply wp_mono; [apply bi_of_mag_spec; exact R1|].
      intros b Hb. cbn beta in Hb. rewrite R2 in Hb. replace ((Z.sgn x * vl l (Z.to_nat n)) ^ e) with
        (if (s <? 0) && negb (Z.land e 1 =? 0) then - vl l (Z.to_nat n) ^ e else vl l (Z.to_nat n) ^ e); [exact Hb|].
      rewrite odd_land0. pose proof (vl_bound l (Z.to_nat n) Hl) as VB. set (y := vl l (Z.to_nat n)) in *. clearbody y.
      pose proof (pow_sign (Z.sgn x * y) e E) as PS. rewrite <- PS. rewrite Sx. clear PS Hb.
      assert (Z.sgn x = 1 \/ Z.sgn x = -1) as [->| ->] by (rewrite <- Sx; exact Hs).
      * change (1 <? 0) with false. rewrite (proj2 (Z.ltb_ge (1 * y) 0)) by lia. cbn [andb]. rewrite Z.mul_1_l, Z.abs_eq by lia. reflexivity.
      * change (-1 <? 0) with true. replace (Z.abs (-1 * y)) with y by lia. destruct (Z.ltb_spec (-1 * y) 0) as [Y|Y]; [reflexivity|].
        replace y with 0 by lia. rewrite Z.pow_0_l by lia. destruct (Z.odd e); reflexivity.
Qed.

(** ** mod_pow by an int *)
Lemma pow_shift v b p : 0 <= b -> 0 <= p -> (v ^ b) ^ p = v ^ (p * b).
Proof. intros. rewrite <- Z.pow_mul_r by lia. f_equal. ring. Qed.

Lemma powmod_v_core_i_spec c e m v r : limbs e -> e <> [] -> limb m -> 0 < m -> limb v -> limb r ->
  let last := Z.of_nat (length e) - 1 in
  let k := Z.to_nat (Z.min last 2147483648) in
  let o := powmod_v_core_i c e m v r in
  if strict c && (2147483647 <? last) then o = Undef SignedOverflow
  else wp o (fun x => x = (r * v ^ (vl e k + nth (Z.to_nat last) e 0 * Bp k)) mod m).
Proof.
  intros He Hne Hm Hm0 Hv Hr last k o. unfold o, powmod_v_core_i. cbv zeta. change (INT_MAX + 1) with 2147483648. fold last. fold k.
  assert (1 <= length e)%nat as L1 by (destruct e; [congruence|cbn [length]; lia]).
  assert (k <= length e - 1)%nat as Hk by (unfold k, last; lia).
  match goal with |- context [bind (for_up k 0 ?f ?s) _] => set (loop := for_up k 0 f s) end.
  assert (wp loop (fun st => let '(v', r') := st in
    limb v' /\ limb r' /\ v' mod m = v ^ Bp k mod m /\ r' mod m = (r * v ^ vl e k) mod m)) as W.
  { unfold loop. eapply wp_for_up with (I := fun i st => let '(v', r') := st in
      limb v' /\ limb r' /\ v' mod m = v ^ Bp i mod m /\ r' mod m = (r * v ^ vl e i) mod m).
    - change (Bp 0) with 1. rewrite vl_0, Z.pow_1_r, Z.pow_0_r, Z.mul_1_r. auto.
    - intros i (v', r') Hi (H1 & H2 & H3 & H4). wstep. wstep; [lia|]. wstep.
      eapply wp_mono; [apply powmod_bits_spec; auto using limbs_nth|].
      intros ((p2, v2), r2) (A & B & C & D). wstep. split; [exact A|]. split; [exact B|].
      pose proof (Bp_pos i) as PB. pose proof (limbs_nth e i He) as N. destruct (vl_bound e i He) as (VB & _). unfold limb in N. split.
      + rewrite C. pose proof (cong_pow m 1 1 v' _ W32 Hm0 eq_refl H3) as K. rewrite !Z.mul_1_l in K. rewrite K.
        rewrite pow_shift by (try discriminate; lia). rewrite Bp_S. reflexivity.
      + rewrite D. rewrite (cong_pow m r' _ v' _ (nth i e 0) Hm0 H4 H3). rewrite pow_shift by lia. rewrite vl_S.
        rewrite Z.pow_add_r by (try (apply Z.mul_nonneg_nonneg); lia). f_equal. ring.
    - cbn [Nat.add]. auto. }
  apply wp_inv in W as ((v', r') & -> & H1 & H2 & H3 & H4). cbn [bind].
  change INT_MAX with 2147483647. destruct (strict c) eqn:S; cbn [andb].
  { destruct (Z.ltb_spec 2147483647 last) as [G|G]; [rewrite (chk32_over c _ S) by lia; reflexivity|]. cbn [bind].
    wstep. wstep; [unfold last; lia|]. pose proof (limbs_nth e (Z.to_nat last) He) as N.
    eapply wp_mono; [apply powmod_u_loop_spec; auto; change (Z.of_nat bit_fuel) with 33; num; lia|]. cbn beta. intros x ->.
    rewrite (cong_pow m r' _ v' _ _ Hm0 H4 H3). pose proof (Bp_pos k) as PB. destruct (vl_bound e k He) as (VB & _). unfold limb in N.
    rewrite pow_shift by lia. rewrite Z.pow_add_r by (try (apply Z.mul_nonneg_nonneg); lia). f_equal. ring. }
  assert (exists t, (if 2147483647 <? last then chk32 c 2147483648 else Ret 0) = Ret t) as (t & ->).
  { destruct (2147483647 <? last); [|eauto]. unfold chk32. rewrite S. destruct (_ && _); eauto. }
  cbn [bind]. wstep. wstep; [unfold last; lia|]. pose proof (limbs_nth e (Z.to_nat last) He) as N.
  eapply wp_mono; [apply powmod_u_loop_spec; auto; change (Z.of_nat bit_fuel) with 33; num; lia|]. cbn beta. intros x ->.
  rewrite (cong_pow m r' _ v' _ _ Hm0 H4 H3). pose proof (Bp_pos k) as PB. destruct (vl_bound e k He) as (VB & _). unfold limb in N.
  rewrite pow_shift by lia. rewrite Z.pow_add_r by (try (apply Z.mul_nonneg_nonneg); lia). f_equal. ring.
Qed.

Lemma top_quotient (l : list Z) : limbs l -> l <> [] -> val l / Bp (length l - 1) = nth (length l - 1) l 0.
Proof.
  intros Hl N. pose proof (val_split l (length l - 1) ltac:(lia)) as E. rewrite skipn_last in E by exact N.
  pose proof (vl_bound l (length l - 1) Hl) as B. symmetry. apply (Z.div_unique_pos _ _ _ (vl l (length l - 1))); lia.
Qed.

Lemma pow_Bp q : 0 <= q -> 2 ^ (32 * q) = Bp (Z.to_nat q).
Proof. intros H. rewrite <- pow_limbs. now rewrite Z.max_r. Qed.

Lemma exponent_list e (l : list Z) : limbs l -> l <> [] -> val l = e -> limbs_of e = Z.of_nat (length l) ->
  let last := Z.of_nat (length l) - 1 in
  let k := Z.to_nat (Z.min last 2147483648) in
  exponent_used e = vl l k + nth (Z.to_nat last) l 0 * Bp k.
Proof.
  intros Hl N Hv L last k. destruct (val_bound l Hl) as (P & _). unfold exponent_used. cbv zeta. rewrite L. fold last.
  change (2 ^ 31) with 2147483648.
  assert (1 <= length l)%nat as L1 by (destruct l; [congruence|cbn [length]; lia]).
  rewrite (low_vl_all e l) by (auto; unfold last; lia). fold k.
  rewrite (pow_Bp (Z.min last 2147483648)) by (unfold last; lia). fold k.
  rewrite (pow_Bp last) by (unfold last; lia). replace (Z.to_nat last) with (length l - 1)%nat by (unfold last; lia).
  rewrite <- Hv, top_quotient by assumption. ring.
Qed.

Lemma exponent_short e : 0 <= e < 2147483648 -> exponent_used e = e.
Proof.
  intros H. unfold exponent_used. rewrite (limbs_of_small e) by lia. cbv zeta. change (1 - 1) with 0. change (Z.min 0 (2 ^ 31)) with 0.
  rewrite low_none by lia. change (2 ^ (32 * 0)) with 1. rewrite Z.div_1_r. ring.
Qed.

Theorem mod_pow_any_holds c a b x e z : represents a x -> represents b e -> z <> 0 -> Z.abs z < 2 ^ 31 ->
  mod_pow_any c x e z (bi_mod_pow_int_i c a b z).
Proof.
  intros Ha Hb Hz. change (2 ^ 31) with 2147483648. intros Hs. unfold mod_pow_any, bi_mod_pow_int_i. change (2 ^ 31) with 2147483648.
  rewrite (repr_sign_ltb b e Hb). destruct (Z.ltb_spec e 0) as [E|E]; [reflexivity|].
  assert (represents (Big z []) z) as Hm by (apply repr_small; unfold INT_MIN, INT_MAX; lia).
  rewrite (valid_ok c a x Ha), (valid_ok c b e Hb), (valid_ok c _ z Hm). cbn [bind].
  rewrite abs32_ok by (unfold INT_MIN, INT_MAX; lia). cbn [bind].
  assert (limb (Z.abs z)) as Lz by (unfold limb; num; lia). assert (0 < Z.abs z) as Pz by lia. assert (limb 1) as L1 by (unfold limb; num; lia).
  assert (exists v, (if is_nil (bits_of a) then abs32 c (sign_of a) else calc_rem_u_i c (bits_of a) (Z.abs z)) = Ret v /\ limb v /\
    v mod Z.abs z = base_used x mod Z.abs z) as (v & -> & Lv & Ev).
  { unfold base_used. change (2 ^ 31) with 2147483648. destruct (Z.ltb_spec (Z.abs x) 2147483648) as [X|X].
    - rewrite (short_parts _ _ Ha X). cbn [bits_of sign_of is_nil]. rewrite abs32_ok by (unfold INT_MIN, INT_MAX; lia).
      exists (Z.abs x). split; [reflexivity|]. split; [unfold limb; num; lia|reflexivity].
    - destruct (long_parts a x Ha X) as (s & l & -> & Hs' & N & Hl & Ht & Hv & Sx & LX). cbn [bits_of]. rewrite (nil_false l N).
      destruct (seen_rounds x l N Hl Hv LX) as (-> & _).
      pose proof (calc_rem_u_i_spec c l (Z.abs z) N Hl Lz ltac:(lia)) as W. apply wp_inv in W as (r & -> & ->).
      pose proof (Z.mod_pos_bound (vl l (rounds_i l)) (Z.abs z) Pz) as MB.
      eexists. split; [reflexivity|]. split; [unfold limb; num; lia|]. apply Z.mod_mod. lia. }
  cbn [bind].
  match goal with |- context [bind (if is_nil (bits_of b) then ?f else ?g) _] => set (core := if is_nil (bits_of b) then f else g) end.
  assert (if strict c && (2147483648 <? limbs_of e) then core = Undef SignedOverflow
    else core = Ret (base_used x ^ exponent_used e mod Z.abs z)) as K.
  { assert (forall k, (1 * v ^ k) mod Z.abs z = base_used x ^ k mod Z.abs z) as Q.
    { intros k. rewrite Z.mul_1_l. rewrite (Zpower_mod v k _ Pz), Ev, <- Zpower_mod by exact Pz. reflexivity. }
    unfold core. destruct (Z.lt_ge_cases (Z.abs e) 2147483648) as [S|S].
    - rewrite (limbs_of_small e) by lia. change (2147483648 <? 1) with false. rewrite andb_false_r.
      rewrite (short_parts _ _ Hb S). cbn [bits_of sign_of is_nil]. rewrite abs32_ok by (unfold INT_MIN, INT_MAX; lia). cbn [bind].
      rewrite Z.abs_eq by lia. rewrite exponent_short by lia.
      pose proof (powmod_u_loop_spec bit_fuel e (Z.abs z) v 1) as W. change (2 ^ Z.of_nat bit_fuel) with 8589934592 in W.
      specialize (W ltac:(lia) Lz Pz Lv L1). apply wp_inv in W as (r & -> & ->). now rewrite Q.
    - destruct (long_parts b e Hb S) as (s & l & -> & Hs' & N & Hl & Ht & Hv & Sx & LX). cbn [bits_of sign_of]. rewrite (nil_false l N).
      rewrite Z.abs_eq in Hv by lia. pose proof (powmod_v_core_i_spec c l (Z.abs z) v 1 Hl N Lz Pz Lv L1) as W. cbv zeta in W.
      rewrite <- (exponent_list e l Hl N Hv LX) in W. rewrite <- LX in W.
      replace (2147483648 <? limbs_of e) with (2147483647 <? limbs_of e - 1).
      2:{ destruct (Z.ltb_spec 2147483647 (limbs_of e - 1)), (Z.ltb_spec 2147483648 (limbs_of e)); auto; lia. }
      destruct (strict c && _); [exact W|]. apply wp_inv in W as (r & -> & ->). now rewrite Q. }
  destruct (strict c && _); [now rewrite K|]. rewrite K. cbn [bind]. rewrite (repr_sign_ltb a x Ha), (even_guard c b e _ Hb). cbn [bind].
  rewrite Bool.negb_involutive. set (r := base_used x ^ exponent_used e mod Z.abs z).
  assert (0 <= r < Z.abs z) as MB by (apply Z.mod_pos_bound; lia). clearbody r. apply returns_wp.
  replace (- r mod 2 ^ 32) with (u32 (-1 * r)) by (unfold u32; change W32 with (2 ^ 32); f_equal; lia).
  apply bi_of_uint32_spec. destruct ((x <? 0) && Z.odd e); [pose proof (u32_range (-1 * r))|]; unfold UINT_MAX; num; lia.
Qed.
