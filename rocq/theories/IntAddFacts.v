(** Proofs about addition and subtraction with lengths kept in [int]. *)
From Verif Require Import Machine Facts Spec AddSubFacts SquMulFacts DivCoreFacts SpecFacts BigIntFacts
  CompareFacts ConvFacts SpecApi SpecGcd ShiftFacts WordFacts BigInt CalcAddSub BarrettFacts RunExact LeakyModPow SpecActual ActualFacts
  IntSizes SpecSizes IntSizesFacts IntLimbs SpecLimbs IntLimbsFacts IntConvFacts BytesFacts IntAdd SpecIntAdd.
Ltac Zify.zify_post_hook ::= idtac.

(** ** The array constructor *)

Lemma stored c l (neg : bool) : limbs l -> 2147483648 <= val l ->
  returns (checked c (Big (if neg then -1 else 1) (pop_zeros (length l) l))) (signed neg (val l)).
Proof.
  intros Hl Hv. apply returns_wp, wp_checked. destruct (pop_zeros_spec (length l) l eq_refl Hl) as (j & P1 & P2 & P3 & P4).
  assert (1 <= j)%nat as Hj by (destruct j; [rewrite vl_0 in P3; lia|lia]).
  assert (val (pop_zeros (length l) l) = val l) as Hpv by (rewrite P1; exact P3).
  apply repr_big.
  - destruct neg; auto.
  - rewrite P1. intros E. apply (f_equal (@length Z)) in E. rewrite firstn_length in E. cbn [length] in E. lia.
  - rewrite P1. now apply limbs_firstn.
  - rewrite P1. apply top_nz_firstn; [lia|]. destruct P4; [lia|assumption].
  - rewrite Hpv. exact Hv.
  - rewrite Hpv. unfold signed. destruct neg; ring.
Qed.

Lemma popped_zero l : limbs l -> val l = 0 -> pop_zeros (length l) l = [].
Proof.
  intros Hl Hv. destruct (pop_zeros_spec (length l) l eq_refl Hl) as (j & P1 & P2 & P3 & P4). rewrite P1.
  destruct j as [|j]; [reflexivity|]. exfalso. destruct P4 as [P4|P4]; [lia|].
  pose proof (limbs_nth l j Hl) as B. pose proof (vl_bound l j Hl) as V. pose proof (Bp_pos j) as P. rewrite vl_S in P3.
  replace (S j - 1)%nat with j in P4 by lia. destruct B as (B & _). nia.
Qed.

Lemma popped_one l : limbs l -> 0 < val l < 2147483648 -> pop_zeros (length l) l = [val l].
Proof.
  intros Hl Hv. destruct (pop_zeros_spec (length l) l eq_refl Hl) as (j & P1 & P2 & P3 & P4).
  destruct (trimmed_facts l j Hl P2 P3 P4) as (F0 & F1 & F2). rewrite P1.
  destruct j as [|[|j]]; [rewrite F0 in Hv; lia| |].
  - destruct F1 as (F1 & _); [reflexivity|]. destruct l as [|a l]; [cbn [val] in Hv; lia|]. cbn [firstn]. cbn [nth] in F1. f_equal. symmetry. exact F1.
  - pose proof (F2 ltac:(lia)) as G. change W32 with 4294967296 in G. lia.
Qed.

Theorem of_mag_held c l (neg : bool) : limbs l -> held c (s32 (Z.of_nat (length l))) neg (val l) (bi_of_mag_i c l neg).
Proof.
  intros Hl. unfold held, bi_of_mag_i. cbv zeta. set (r := s32 (Z.of_nat (length l))).
  change (2 ^ 31) with 2147483648. destruct (val_bound l Hl) as (NN & _).
  destruct (Z.ltb_spec r 0) as [R|R].
  - rewrite (proj2 (Z.ltb_ge 0 r)) by lia. cbn [bind]. rewrite (proj2 (Z.eqb_neq r 1)) by lia. cbn [bind andb].
    rewrite (proj2 (Z.eqb_neq r 0)) by lia. cbn [sign_of bits_of].
    destruct (Z.eqb_spec (val l) 0) as [E|E].
    + rewrite (popped_zero l Hl E). apply returns_wp, wp_checked. unfold signed. destruct neg; apply repr_small; num; lia.
    + destruct (Z.ltb_spec (val l) 2147483648) as [K|K]; [|now apply stored].
      rewrite (popped_one l Hl) by lia. unfold checked, assert_valid, signed, massert, kuMaskHighBit. cbn [sign_of bits_of length Nat.ltb Nat.leb orb last].
      destruct (dbg c); [|now destruct neg]. rewrite (proj2 (Z.leb_gt _ (val l))) by lia. now destruct neg.
  - assert (r <= Z.of_nat (length l)) as RL by (unfold r; rewrite <- int_of_s32; apply int_of_le; lia).
    assert (low (val l) r = vl l (Z.to_nat r)) as LW by (apply low_vl; [exact Hl|lia|lia]).
    rewrite LW. set (n := Z.to_nat r). assert (n <= length l)%nat as NL by (unfold n; lia).
    assert (wp (if 0 <? r then k <- trim_len l n ;; Ret (Z.of_nat k) else Ret r)
      (fun k => exists j, k = Z.of_nat j /\ (j <= n)%nat /\ vl l j = vl l n /\ (j = O \/ nth (j - 1) l 0 <> 0))) as W.
    { destruct (Z.ltb_spec 0 r).
      - apply wp_bind. eapply wp_mono; [apply trim_len_spec; exact NL|]. intros k H1. apply wp_ret. exists k. split; [reflexivity|exact H1].
      - apply wp_ret. exists O. unfold n. replace r with 0 by lia. repeat split; auto. }
    apply wp_inv in W as (k & -> & j & -> & J1 & J2 & J3). cbn [bind].
    assert (limbs (firstn n l)) as Hf by now apply limbs_firstn.
    assert (length (firstn n l) = n) as Lf by (rewrite firstn_length; lia).
    destruct (trimmed_facts (firstn n l) j Hf) as (F0 & F1 & F2).
    { lia. }
    { unfold vl. rewrite firstn_firstn, Nat.min_l by lia. exact J2. }
    { destruct J3 as [->|J3]; [now left|]. destruct j as [|j]; [now left|]. right. replace (S j - 1)%nat with j in * by lia. rewrite nth_firstn_lt by lia. exact J3. }
    fold (vl l n) in F0, F1, F2. change W32 with 4294967296 in F2.
    pose proof (vl_bound l n Hl) as VB.
    assert (vl l n <= val l) as VL.
    { rewrite (val_split l n) by lia. destruct (val_bound _ (limbs_skipn n l Hl)) as (SN & _). pose proof (Bp_pos n). nia. }
    destruct j as [|[|j]].
    + rewrite (F0 eq_refl). cbn [Z.of_nat bind]. change (0 =? 1) with false. change (0 =? 0) with true. cbn [bind andb].
      change (0 <? 2147483648) with true. cbv iota. cbn [sign_of bits_of s_bnZeroInt length pop_zeros]. apply returns_wp, wp_checked.
      unfold signed. destruct neg; apply repr_zero.
    + destruct (F1 eq_refl) as (E1 & E2). change (Z.of_nat 1) with 1. change (1 =? 1) with true. change (1 =? 0) with false. cbv iota.
      rewrite rd_ok by lia. cbn [bind andb]. rewrite nth_firstn_lt in E1 by lia. rewrite <- E1. unfold kuMaskHighBit.
      destruct (Z.ltb_spec (vl l n) 2147483648) as [K|K].
      * rewrite s32_small by (num; lia). rewrite (proj2 (Z.eqb_neq _ INT_MIN)) by (destruct neg; num; lia).
        cbn [sign_of bits_of length pop_zeros]. apply returns_wp, wp_checked. unfold signed. destruct neg; apply repr_small; num; lia.
      * cbn [sign_of bits_of]. apply stored; [exact Hl|lia].
    + specialize (F2 ltac:(lia)). rewrite (proj2 (Z.eqb_neq (Z.of_nat (S (S j))) 1)) by lia. rewrite (proj2 (Z.eqb_neq (Z.of_nat (S (S j))) 0)) by lia.
      cbn [bind andb sign_of bits_of]. rewrite (proj2 (Z.ltb_ge (vl l n) 2147483648)) by lia. apply stored; [exact Hl|lia].
Qed.

(** ** The loops *)

Definition add_run (lhs : list Z) (nl : nat) (rhs : list Z) (nr : nat) (bits : list Z) : outcome (list Z) :=
  '(bits, carry) <-
    for_up nr 0 (fun i st =>
      let '(bits, carry) := st in
      l <- rd lhs i ;;
      r <- rd rhs i ;;
      let digit := u64 (u64 (l + carry) + r) in
      bits <- wr bits i (u32 digit) ;;
      Ret (bits, Z.shiftr digit 32)) (bits, 0) ;;
  '(bits, carry) <-
    for_up (nl - nr) nr (fun i st =>
      let '(bits, carry) := st in
      l <- rd lhs i ;;
      let digit := u64 (l + carry) in
      bits <- wr bits i (u32 digit) ;;
      Ret (bits, Z.shiftr digit 32)) (bits, carry) ;;
  wr bits (Nat.max nl nr) (u32 carry).

Lemma val_step b i v : (i < length b)%nat -> nth i b 0 = 0 -> val (upd b i v) = val b + v * Bp i.
Proof. intros H E. rewrite val_upd by exact H. rewrite E. ring. Qed.

Lemma add_run_spec lhs nl rhs nr : limbs lhs -> limbs rhs -> (nl <= length lhs)%nat -> (nr <= length rhs)%nat -> (nr <= length lhs)%nat ->
  wp (add_run lhs nl rhs nr (zeros (length lhs + 1)))
    (fun r => length r = S (length lhs) /\ limbs r /\ val r = vl lhs (Nat.max nl nr) + vl rhs nr).
Proof.
  intros Hl Hr N1 N2 N3. unfold add_run.
  set (I := fun i (st : list Z * Z) =>
    let '(bits, carry) := st in
    length bits = S (length lhs) /\ limbs bits /\ 0 <= carry <= 1 /\ (forall j, (i <= j)%nat -> nth j bits 0 = 0) /\
    val bits + carry * Bp i = vl lhs i + vl rhs (Nat.min i nr)).
  assert (forall i b carry x, I i (b, carry) -> (i < length lhs)%nat -> 0 <= x < W32 + W32 - 1 ->
    vl lhs (S i) + vl rhs (Nat.min (S i) nr) = vl lhs i + vl rhs (Nat.min i nr) + x * Bp i ->
    I (S i) (upd b i (u32 (x + carry)), Z.shiftr (x + carry) 32)) as Step.
  { intros i b carry x (Hb & Hlb & Hc & Hz & Hv) Hi Hx E.
    assert (0 <= Z.shiftr (x + carry) 32 < 2) as SR by (apply shiftr32_range; num; lia).
    unfold I. split; [rewrite length_upd; exact Hb|]. split; [apply limbs_upd; [exact Hlb|apply u32_limb]|].
    split; [lia|]. split; [intros j Hj; rewrite nth_upd_other by lia; apply Hz; lia|].
    rewrite E. rewrite val_step by (lia || (apply Hz; lia)). rewrite Bp_S. apply (carry_step _ _ carry); [exact Hv|ring]. }
  wstep. eapply wp_for_up with (I := I).
  - unfold I. split; [rewrite length_zeros; lia|]. split; [apply limbs_zeros|]. split; [lia|].
    split; [intros j _; apply nth_zeros_any|]. rewrite val_zeros, !vl_0. reflexivity.
  - intros i [b carry] Hi HI. pose proof HI as (Hb & Hlb & Hc & Hz & Hv).
    repeat wstep; try lia.
    pose proof (limbs_nth _ i Hl) as H0. pose proof (limbs_nth _ i Hr) as H1.
    rewrite (u64_small (nth i lhs 0 + carry)) by (num; lia). rewrite u64_small by (num; lia).
    replace (nth i lhs 0 + carry + nth i rhs 0) with (nth i lhs 0 + nth i rhs 0 + carry) by ring.
    apply Step; [exact HI|lia|unfold limb in *; lia|]. rewrite !Nat.min_l by lia. rewrite !vl_S. ring.
  - intros [b carry] HI. wstep. cbn [plus] in HI. eapply wp_for_up with (I := I); [exact HI| |].
    + intros i [b' carry'] Hi HI'. pose proof HI' as (Hb & Hlb & Hc & Hz & Hv).
      repeat wstep; try lia. pose proof (limbs_nth _ i Hl) as H0. rewrite u64_small by (num; lia).
      apply Step; [exact HI'|lia|unfold limb in *; num; lia|]. rewrite !Nat.min_r by lia. rewrite !vl_S. ring.
    + intros [b' carry'] (Hb & Hlb & Hc & Hz & Hv).
      replace (nr + (nl - nr))%nat with (Nat.max nl nr) in * by lia. rewrite Nat.min_r in Hv by lia.
      wstep; [lia|]. split; [rewrite length_upd; exact Hb|]. split; [apply limbs_upd; [exact Hlb|apply u32_limb]|].
      rewrite val_step by (lia || (apply Hz; lia)). rewrite u32_small by (num; lia). exact Hv.
Qed.

Definition sub_run (c : cfg) (lhs : list Z) (nl : nat) (rhs : list Z) (nr : nat) (bits : list Z) : outcome (list Z) :=
  '(bits, carry) <-
    for_up nr 0 (fun i st =>
      let '(bits, carry) := st in
      l <- rd lhs i ;;
      r <- rd rhs i ;;
      d1 <- chk64 c (l + carry) ;;
      digit <- chk64 c (d1 - r) ;;
      bits <- wr bits i (u32 digit) ;;
      Ret (bits, Z.shiftr digit 32)) (bits, 0) ;;
  '(bits, carry) <-
    for_up (nl - nr) nr (fun i st =>
      let '(bits, carry) := st in
      l <- rd lhs i ;;
      digit <- chk64 c (l + carry) ;;
      bits <- wr bits i (u32 digit) ;;
      Ret (bits, Z.shiftr digit 32)) (bits, carry) ;;
  massert c (carry =? 0) ;;;
  Ret bits.

Lemma val_no_limbs (l : list Z) : (forall j, nth j l 0 = 0) -> val l = 0.
Proof.
  induction l as [|a l IH]; intros H; [reflexivity|]. cbn [val]. rewrite IH by (intros j; exact (H (S j))).
  pose proof (H O) as E. cbn [nth] in E. rewrite E. ring.
Qed.

Lemma sub_run_spec c lhs nl rhs nr : limbs lhs -> limbs rhs -> (nl <= length lhs)%nat -> (nr <= length rhs)%nat -> (nr <= length lhs)%nat ->
  let q := Nat.max nl nr in
  (dbg c = true /\ vl lhs q < vl rhs nr /\ sub_run c lhs nl rhs nr (zeros (length lhs)) = AssertFail) \/
  ((dbg c = false \/ vl rhs nr <= vl lhs q) /\
   wp (sub_run c lhs nl rhs nr (zeros (length lhs)))
    (fun r => length r = length lhs /\ limbs r /\ val r = (vl lhs q - vl rhs nr) mod Bp q)).
Proof.
  intros Hl Hr N1 N2 N3 q.
  set (I := fun i (st : list Z * Z) =>
    let '(bits, carry) := st in
    length bits = length lhs /\ limbs bits /\ -1 <= carry <= 0 /\ (forall j, (i <= j)%nat -> nth j bits 0 = 0) /\
    val bits + carry * Bp i = vl lhs i - vl rhs (Nat.min i nr)).
  assert (forall i b carry x, I i (b, carry) -> (i < length lhs)%nat -> - W32 < x < W32 ->
    vl lhs (S i) - vl rhs (Nat.min (S i) nr) = vl lhs i - vl rhs (Nat.min i nr) + x * Bp i ->
    I (S i) (upd b i (u32 (x + carry)), Z.shiftr (x + carry) 32)) as Step.
  { intros i b carry x (Hb & Hlb & Hc & Hz & Hv) Hi Hx E.
    assert (-1 <= Z.shiftr (x + carry) 32 < 1) as SR by (apply shiftr32_range; num; lia).
    unfold I. split; [rewrite length_upd; exact Hb|]. split; [apply limbs_upd; [exact Hlb|apply u32_limb]|].
    split; [lia|]. split; [intros j Hj; rewrite nth_upd_other by lia; apply Hz; lia|].
    rewrite E. rewrite val_step by (lia || (apply Hz; lia)). rewrite Bp_S. apply (carry_step _ _ carry); [exact Hv|ring]. }
  assert (exists b carry, I q (b, carry) /\
    sub_run c lhs nl rhs nr (zeros (length lhs)) = (massert c (carry =? 0) ;;; Ret b)) as (b & carry & HI & E).
  { assert (wp (for_up nr 0 (fun i st =>
      let '(bits, carry) := st in
      l <- rd lhs i ;;
      r <- rd rhs i ;;
      d1 <- chk64 c (l + carry) ;;
      digit <- chk64 c (d1 - r) ;;
      bits <- wr bits i (u32 digit) ;;
      Ret (bits, Z.shiftr digit 32)) (zeros (length lhs), 0)) (I nr)) as W1.
    { eapply wp_for_up with (I := I).
      - unfold I. split; [rewrite length_zeros; lia|]. split; [apply limbs_zeros|]. split; [lia|].
        split; [intros j _; apply nth_zeros_any|]. rewrite val_zeros, !vl_0. reflexivity.
      - intros i [b carry] Hi HI. pose proof HI as (Hb & Hlb & Hc & Hz & Hv).
        pose proof (limbs_nth _ i Hl) as H0. pose proof (limbs_nth _ i Hr) as H1.
        repeat wstep; try lia; try (num; lia).
        replace (nth i lhs 0 + carry - nth i rhs 0) with (nth i lhs 0 - nth i rhs 0 + carry) by ring.
        apply Step; [exact HI|lia|unfold limb in *; lia|]. rewrite !Nat.min_l by lia. rewrite !vl_S. ring.
      - intros st HI. exact HI. }
    apply wp_inv in W1 as ([b1 c1] & E1 & HI1).
    assert (wp (for_up (nl - nr) nr (fun i st =>
      let '(bits, carry) := st in
      l <- rd lhs i ;;
      digit <- chk64 c (l + carry) ;;
      bits <- wr bits i (u32 digit) ;;
      Ret (bits, Z.shiftr digit 32)) (b1, c1)) (I q)) as W2.
    { eapply wp_for_up with (I := I); [exact HI1| |].
      - intros i [b' carry'] Hi HI'. pose proof HI' as (Hb & Hlb & Hc & Hz & Hv). pose proof (limbs_nth _ i Hl) as H0.
        repeat wstep; try lia; try (num; lia).
        apply Step; [exact HI'|lia|unfold limb in *; num; lia|]. rewrite !Nat.min_r by lia. rewrite !vl_S. ring.
      - intros st HI. replace (nr + (nl - nr))%nat with q in HI by (unfold q; lia). exact HI. }
    apply wp_inv in W2 as ([b2 c2] & E2 & HI2).
    exists b2, c2. split; [exact HI2|]. unfold sub_run. rewrite E1. cbn [bind]. rewrite E2. reflexivity. }
  destruct HI as (Hb & Hlb & Hc & Hz & Hv). rewrite Nat.min_r in Hv by (unfold q; lia).
  assert (val b = vl b q) as VB.
  { rewrite (val_split b q) by (unfold q; lia). assert (val (skipn q b) = 0) as ->; [|ring].
    apply val_no_limbs. intros j. rewrite nth_skipn. apply Hz. lia. }
  pose proof (vl_bound b q Hlb) as B1. rewrite <- VB in B1. pose proof (Bp_pos q) as BP.
  assert (length b = length lhs /\ limbs b /\ val b = (vl lhs q - vl rhs nr) mod Bp q) as R.
  { split; [exact Hb|]. split; [exact Hlb|]. rewrite <- Hv. rewrite Z.mod_add by lia. now rewrite Z.mod_small by lia. }
  rewrite E. destruct (Z.eqb_spec carry 0) as [Z0|Z0].
  - right. split; [right; rewrite Z0 in Hv; lia|]. unfold massert. destruct (dbg c); exact R.
  - destruct (dbg c) eqn:D.
    + left. split; [reflexivity|]. split; [nia|]. unfold massert. rewrite D. reflexivity.
    + right. split; [now left|]. unfold massert. rewrite D. exact R.
Qed.

(** ** The calculator *)

Lemma to_nat_length (l : list Z) : (Z.to_nat (s32 (Z.of_nat (length l))) <= length l)%nat.
Proof. pose proof (int_of_le (Z.of_nat (length l)) ltac:(lia)) as H. rewrite int_of_s32 in H. lia. Qed.

Lemma s32_succ n : s32 (s32 n + 1) = s32 (n + 1).
Proof. destruct (s32_mod n) as (k & E). apply (s32_eq (n + 1) _ k). rewrite E. ring. Qed.

Lemma not_nil (l : list Z) : l <> [] -> negb (is_nil l) = true.
Proof. destruct l; [contradiction|reflexivity]. Qed.

Lemma massert_true c b : b = true -> massert c b = Ret tt.
Proof. intros ->. unfold massert. now destruct (dbg c). Qed.

Lemma massert_off c b : dbg c = false -> massert c b = Ret tt.
Proof. intros D. unfold massert. now rewrite D. Qed.

Lemma massert_fail c b {A} (k : outcome A) : dbg c = true -> b = false -> (massert c b ;;; k) = AssertFail.
Proof. intros D ->. unfold massert. now rewrite D. Qed.

Lemma calc_add_i_spec c l r : l <> [] -> r <> [] -> limbs l -> limbs r -> (length r <= length l)%nat ->
  let L := s32 (Z.of_nat (length l)) in let R := s32 (Z.of_nat (length r)) in
  if dbg c && ((L <? 0) || (R <? 0) || (L <? R)) then calc_add_i c l r = AssertFail
  else if dbg c && strict c && (L =? 2147483647) then calc_add_i c l r = Undef SignedOverflow
  else wp (calc_add_i c l r) (fun z => length z = S (length l) /\ limbs z /\
    val z = vl l (Z.to_nat (Z.max L R)) + vl r (Z.to_nat R)).
Proof.
  intros N1 N2 Hl Hr Hlen L R. unfold calc_add_i.
  rewrite (massert_true c (negb (is_nil l))) by now apply not_nil. rewrite (massert_true c (negb (is_nil r))) by now apply not_nil.
  rewrite (massert_true c (Nat.leb _ _)) by now apply Nat.leb_le. cbn [bind]. cbv zeta. fold L R.
  rewrite length_zeros. unfold calc_add_core_i. cbv zeta.
  pose proof (to_nat_length l) as NL. pose proof (to_nat_length r) as NR. fold L in NL. fold R in NR.
  pose proof (add_run_spec l (Z.to_nat L) r (Z.to_nat R) Hl Hr NL NR ltac:(lia)) as Run. rewrite <- Z2Nat.inj_max in Run.
  destruct (dbg c) eqn:D; cbn [andb].
  - destruct (Z.ltb_spec L 0) as [G1|G1]; cbn [orb].
    { apply massert_fail; [exact D|]. apply Z.leb_gt. exact G1. }
    rewrite (massert_true c (0 <=? L)) by now apply Z.leb_le. cbn [bind].
    destruct (Z.ltb_spec R 0) as [G2|G2]; cbn [orb].
    { apply massert_fail; [exact D|]. apply Z.leb_gt. exact G2. }
    rewrite (massert_true c (0 <=? R)) by now apply Z.leb_le. cbn [bind].
    destruct (Z.ltb_spec L R) as [G3|G3].
    { apply massert_fail; [exact D|]. apply Z.leb_gt. exact G3. }
    rewrite (massert_true c (R <=? L)) by now apply Z.leb_le. cbn [bind].
    assert (s32 (L + 1) = s32 (Z.of_nat (length l + 1))) as E.
    { unfold L. rewrite s32_succ. f_equal. lia. }
    pose proof (s32_range (Z.of_nat (length l))) as LB. fold L in LB. unfold INT_MIN, INT_MAX in LB.
    destruct (Z.eqb_spec L 2147483647) as [G4|G4].
    + rewrite andb_true_r. rewrite chk32_wrap by (unfold INT_MIN, INT_MAX; lia).
      destruct (strict c) eqn:S; [reflexivity|]. cbn [bind]. rewrite E.
      rewrite massert_true by apply Z.eqb_refl. cbn [bind]. exact Run.
    + rewrite andb_false_r. rewrite <- E. rewrite s32_small by (unfold INT_MIN, INT_MAX; lia).
      unfold chk32. rewrite (proj2 (Z.leb_le INT_MIN (L + 1))) by (unfold INT_MIN; lia).
      rewrite (proj2 (Z.leb_le (L + 1) INT_MAX)) by (unfold INT_MAX; lia). cbn [andb bind].
      rewrite massert_true by apply Z.eqb_refl. cbn [bind]. exact Run.
  - rewrite !massert_off by exact D. cbn [bind]. exact Run.
Qed.

Definition compared (l : list Z) : nat := Z.to_nat (s32 (Z.of_nat (length l) - 1) + 1).

Lemma compared_length (l : list Z) : l <> [] -> (compared l <= length l)%nat.
Proof.
  intros N. destruct l as [|a l]; [contradiction|]. unfold compared. pose proof (int_of_le (Z.of_nat (length (a :: l)) - 1)) as H.
  rewrite int_of_s32 in H. cbn [length] in *. lia.
Qed.

Lemma calc_compare_i_spec c l r : l <> [] -> r <> [] -> limbs l -> limbs r ->
  calc_compare_i c l r = Ret (
    if Nat.ltb (length l) (length r) then -1
    else if Nat.ltb (length r) (length l) then 1
    else match vl l (compared l) ?= vl r (compared l) with Lt => -1 | Eq => 0 | Gt => 1 end).
Proof.
  intros N1 N2 Hl Hr. unfold calc_compare_i.
  rewrite (massert_true c (negb (is_nil l))) by now apply not_nil. rewrite (massert_true c (negb (is_nil r))) by now apply not_nil.
  cbn [bind]. destruct (Nat.ltb_spec (length l) (length r)); [reflexivity|].
  destruct (Nat.ltb_spec (length r) (length l)); [reflexivity|].
  pose proof (compared_length l N1). apply compare_loop_spec; auto. unfold compared in *. lia.
Qed.

Lemma calc_sub_i_spec c l r : l <> [] -> r <> [] -> limbs l -> limbs r -> (length r <= length l)%nat ->
  (length r = length l -> vl r (compared l) <= vl l (compared l)) ->
  let L := s32 (Z.of_nat (length l)) in let R := s32 (Z.of_nat (length r)) in
  let q := Z.to_nat (Z.max L R) in
  if dbg c && ((L <? 0) || (R <? 0) || (L <? R) || (vl l (Z.to_nat L) <? vl r (Z.to_nat R)))
  then calc_sub_i c l r = AssertFail
  else wp (calc_sub_i c l r) (fun z => length z = length l /\ limbs z /\
    val z = (vl l q - vl r (Z.to_nat R)) mod Bp q).
Proof.
  intros N1 N2 Hl Hr Hlen Hcmp L R q. unfold calc_sub_i.
  rewrite (massert_true c (negb (is_nil l))) by now apply not_nil. rewrite (massert_true c (negb (is_nil r))) by now apply not_nil.
  rewrite (massert_true c (Nat.leb _ _)) by now apply Nat.leb_le. cbn [bind]. cbv zeta. fold L R.
  rewrite length_zeros. fold L.
  assert ((if dbg c then cmp <- calc_compare_i c l r ;; massert c (0 <=? cmp) else Ret tt) = Ret tt) as ->.
  { destruct (dbg c); [|reflexivity]. rewrite calc_compare_i_spec by assumption. cbn [bind]. apply massert_true, Z.leb_le.
    destruct (Nat.ltb_spec (length l) (length r)); [lia|]. destruct (Nat.ltb_spec (length r) (length l)); [lia|].
    destruct (Z.compare_spec (vl l (compared l)) (vl r (compared l))); lia. }
  cbn [bind]. unfold calc_sub_core_i. cbv zeta.
  pose proof (to_nat_length l) as NL. pose proof (to_nat_length r) as NR. fold L in NL. fold R in NR.
  pose proof (sub_run_spec c l (Z.to_nat L) r (Z.to_nat R) Hl Hr NL NR ltac:(lia)) as Run.
  rewrite <- Z2Nat.inj_max in Run. fold q in Run. cbv zeta in Run.
  destruct (dbg c) eqn:D; cbn [andb].
  - destruct (Z.ltb_spec L 0) as [G1|G1]; cbn [orb].
    { apply massert_fail; [exact D|]. apply Z.leb_gt. exact G1. }
    rewrite (massert_true c (0 <=? L)) by now apply Z.leb_le. cbn [bind].
    destruct (Z.ltb_spec R 0) as [G2|G2]; cbn [orb].
    { apply massert_fail; [exact D|]. apply Z.leb_gt. exact G2. }
    rewrite (massert_true c (0 <=? R)) by now apply Z.leb_le. cbn [bind].
    destruct (Z.ltb_spec L R) as [G3|G3].
    { apply massert_fail; [exact D|]. apply Z.leb_gt. exact G3. }
    rewrite (massert_true c (R <=? L)) by now apply Z.leb_le. cbn [bind orb].
    assert (q = Z.to_nat L) as Q by (unfold q; now rewrite Z.max_l by lia). rewrite Q in Run.
    assert (calc_compare_core_i c l L r R =
      Ret (if R <? L then 1 else match vl l (Z.to_nat L) ?= vl r (Z.to_nat R) with Lt => -1 | Eq => 0 | Gt => 1 end)) as ->.
    { unfold calc_compare_core_i. rewrite (massert_true c (0 <=? L)) by now apply Z.leb_le.
      rewrite (massert_true c (0 <=? R)) by now apply Z.leb_le. cbn [bind].
      rewrite (proj2 (Z.ltb_ge L R)) by lia. destruct (Z.ltb_spec R L) as [G4|G4]; [reflexivity|].
      pose proof (s32_range (Z.of_nat (length l))) as LB. fold L in LB.
      unfold chk32. rewrite (proj2 (Z.leb_le INT_MIN (L - 1))) by (unfold INT_MIN; lia).
      rewrite (proj2 (Z.leb_le (L - 1) INT_MAX)) by lia. cbn [andb bind]. replace (L - 1 + 1) with L by ring.
      replace R with L by lia. replace R with L in NR by lia. apply compare_loop_spec; auto. }
    cbn [bind]. rewrite (massert_true c (L =? L)) by apply Z.eqb_refl.
    destruct (Z.ltb_spec (vl l (Z.to_nat L)) (vl r (Z.to_nat R))) as [G5|G5].
    + destruct (Z.ltb_spec R L) as [G4|G4].
      * rewrite massert_true by reflexivity. cbn [bind]. destruct Run as [(_ & _ & Run)|([?|?] & _)]; [exact Run|discriminate|lia].
      * rewrite (proj2 (Z.compare_lt_iff _ _) G5). now apply massert_fail.
    + rewrite massert_true.
      * cbn [bind]. destruct Run as [(_ & ? & _)|(_ & Run)]; [lia|]. rewrite Q. exact Run.
      * apply Z.leb_le. destruct (R <? L); [lia|]. destruct (Z.compare_spec (vl l (Z.to_nat L)) (vl r (Z.to_nat R))); lia.
  - rewrite !massert_off by exact D. cbn [bind]. destruct Run as [(? & _)|(_ & Run)]; [discriminate|exact Run].
Qed.

(** ** The operators *)

Lemma held_bind c (m : outcome (list Z)) neg r v :
  wp m (fun z => s32 (Z.of_nat (length z)) = r /\ limbs z /\ val z = v) ->
  held c r neg v (bits <- m ;; bi_of_mag_i c bits neg).
Proof.
  intros H. apply wp_inv in H as (z & -> & <- & Hl & <-). cbn [bind]. now apply of_mag_held.
Qed.

Lemma view_short s l x : parts l s x -> Z.abs x < 2147483648 -> s = x /\ l = [] /\ limbs_of x = 1.
Proof.
  intros H Hx. pose proof (proj2 (represents_view _ _) H) as Ha. pose proof (short_parts _ _ Ha Hx) as E. inversion E. subst.
  split; [reflexivity|]. split; [reflexivity|]. rewrite (limbs_of_length _ _ Ha). reflexivity.
Qed.

Lemma view_long s l x : parts l s x -> 2147483648 <= Z.abs x ->
  l <> [] /\ limbs l /\ val l = Z.abs x /\ limbs_of x = Z.of_nat (length l).
Proof.
  intros H Hx. pose proof (proj2 (represents_view _ _) H) as Ha.
  destruct (long_parts _ _ Ha Hx) as (s' & l' & E & _ & N & Hl & _ & Hv & _ & L). inversion E. subst. auto.
Qed.

Lemma nil_false (l : list Z) : l <> [] -> is_nil l = false.
Proof. destruct l; [contradiction|reflexivity]. Qed.

Lemma le_positive n (l : list Z) : limbs_of n = Z.of_nat (length l) -> l <> [] -> 1 <= limbs_of n.
Proof. intros -> N. destruct l; [contradiction|]. cbn [length]. lia. Qed.

Theorem add_parts_any c l s x l' s' y : parts l s x -> parts l' s' y ->
  ~ (Z.abs x < 2147483648 /\ Z.abs y < 2147483648) -> lengthened c x y (bi_add_parts_i c l s l' s').
Proof.
  intros Hx Hy Hbig. destruct (parts_sign _ _ _ Hx) as (_ & Sx). unfold lengthened. change (2 ^ 31 - 1) with 2147483647. change (2 ^ 31) with 2147483648.
  destruct (Z.ltb_spec (Z.abs x) 2147483648) as [X|X].
  - destruct (view_short _ _ _ Hx X) as (-> & -> & LX). destruct (Z.lt_ge_cases (Z.abs y) 2147483648) as [Y|Y]; [tauto|].
    destruct (view_long _ _ _ Hy Y) as (N & Hl & Hv & LY). pose proof (le_positive _ _ LY N) as P. cbn [orb].
    unfold bi_add_parts_i. cbv zeta. rewrite (nil_false _ N). cbn [is_nil andb].
    rewrite abs32_ok by (unfold INT_MIN, INT_MAX; lia). cbn [bind]. apply held_bind.
    eapply wp_mono; [apply calc_add_u_spec; [exact N|exact Hl|unfold limb; num; lia]|].
    intros z (A & B & C). split; [|split; [exact B|rewrite C; lia]].
    rewrite int_of_s32, A, LX, Z.max_r, LY by lia. f_equal. lia.
  - destruct (view_long _ _ _ Hx X) as (N & Hl & Hv & LX). pose proof (le_positive _ _ LX N) as P. cbn [orb].
    destruct (Z.ltb_spec (Z.abs y) 2147483648) as [Y|Y].
    + destruct (view_short _ _ _ Hy Y) as (-> & -> & LY).
      unfold bi_add_parts_i. cbv zeta. rewrite (nil_false _ N). cbn [is_nil andb].
      rewrite abs32_ok by (unfold INT_MIN, INT_MAX; lia). cbn [bind]. rewrite Sx. apply held_bind.
      eapply wp_mono; [apply calc_add_u_spec; [exact N|exact Hl|unfold limb; num; lia]|].
      intros z (A & B & C). split; [|split; [exact B|rewrite C; lia]].
      rewrite int_of_s32, A, LY, Z.max_l, LX by lia. f_equal. lia.
    + destruct (view_long _ _ _ Hy Y) as (N' & Hl' & Hv' & LY).
      unfold bi_add_parts_i. cbv zeta. rewrite (nil_false _ N), (nil_false _ N'). cbn [is_nil andb]. rewrite Sx, LX, LY.
      pose proof (int_of_le (Z.of_nat (length l)) ltac:(lia)) as IL. pose proof (int_of_le (Z.of_nat (length l')) ltac:(lia)) as IL'.
      destruct (Nat.ltb_spec (length l) (length l')) as [G|G].
      * rewrite (proj2 (Z.ltb_lt (Z.of_nat (length l)) (Z.of_nat (length l')))) by lia.
        pose proof (calc_add_i_spec c l' l N' N Hl' Hl ltac:(lia)) as A. cbv zeta in A.
        rewrite (low_vl_all y l') by (auto; rewrite !(int_length _ _ LX), !(int_length _ _ LY), <- !int_of_s32; lia).
        rewrite (low_vl_all x l) by (auto; rewrite !(int_length _ _ LX), <- !int_of_s32; lia).
        rewrite LY, !(int_length _ _ LX), !(int_length _ _ LY).
        destruct (dbg c && _) eqn:D1; [now rewrite A|]. destruct (dbg c && strict c && _) eqn:D2; [now rewrite A|].
        apply held_bind. eapply wp_mono; [exact A|]. intros z (Z1 & Z2 & Z3). split; [|split; [exact Z2|exact Z3]].
        rewrite int_of_s32, Z1. f_equal. lia.
      * rewrite (proj2 (Z.ltb_ge (Z.of_nat (length l)) (Z.of_nat (length l')))) by lia.
        pose proof (calc_add_i_spec c l l' N N' Hl Hl' ltac:(lia)) as A. cbv zeta in A.
        rewrite (low_vl_all x l) by (auto; rewrite !(int_length _ _ LX), !(int_length _ _ LY), <- !int_of_s32; lia).
        rewrite (low_vl_all y l') by (auto; rewrite !(int_length _ _ LY), <- !int_of_s32; lia).
        rewrite LX, !(int_length _ _ LX), !(int_length _ _ LY).
        destruct (dbg c && _) eqn:D1; [now rewrite A|]. destruct (dbg c && strict c && _) eqn:D2; [now rewrite A|].
        apply held_bind. eapply wp_mono; [exact A|]. intros z (Z1 & Z2 & Z3). split; [|split; [exact Z2|exact Z3]].
        rewrite int_of_s32, Z1. f_equal. lia.
Qed.

Lemma pow_limbs q : 2 ^ (32 * Z.max 0 q) = Bp (Z.to_nat q).
Proof. rewrite Bp_pow2. f_equal. f_equal. lia. Qed.

Theorem sub_parts_any c l s x l' s' y : parts l s x -> parts l' s' y ->
  ~ (Z.abs x < 2147483648 /\ Z.abs y < 2147483648) -> shortened c x y (bi_sub_parts_i c l s l' s').
Proof.
  intros Hx Hy Hbig. destruct (parts_sign _ _ _ Hx) as (_ & Sx).
  assert ((0 <=? s) = (0 <=? x)) as Gx by (rewrite !Z.leb_antisym; now rewrite Sx).
  unfold shortened. change (2 ^ 31) with 2147483648.
  destruct (Z.ltb_spec (Z.abs x) 2147483648) as [X|X].
  - destruct (view_short _ _ _ Hx X) as (-> & -> & LX). destruct (Z.lt_ge_cases (Z.abs y) 2147483648) as [Y|Y]; [tauto|].
    destruct (view_long _ _ _ Hy Y) as (N & Hl & Hv & LY).
    unfold bi_sub_parts_i. cbv zeta. rewrite (nil_false _ N). cbn [is_nil andb].
    rewrite abs32_ok by (unfold INT_MIN, INT_MAX; lia). cbn [bind]. apply held_bind.
    eapply wp_mono; [apply calc_sub_u_spec; [exact N|exact Hl|unfold limb; num; lia|lia]|].
    intros z (A & B & C). split; [|split; [exact B|rewrite C; lia]]. now rewrite (int_length _ _ LY), A.
  - destruct (view_long _ _ _ Hx X) as (N & Hl & Hv & LX).
    destruct (Z.ltb_spec (Z.abs y) 2147483648) as [Y|Y].
    + destruct (view_short _ _ _ Hy Y) as (-> & -> & LY).
      unfold bi_sub_parts_i. cbv zeta. rewrite (nil_false _ N). cbn [is_nil andb].
      rewrite abs32_ok by (unfold INT_MIN, INT_MAX; lia). cbn [bind]. rewrite Sx. apply held_bind.
      eapply wp_mono; [apply calc_sub_u_spec; [exact N|exact Hl|unfold limb; num; lia|lia]|].
      intros z (A & B & C). split; [|split; [exact B|rewrite C; lia]]. now rewrite (int_length _ _ LX), A.
    + destruct (view_long _ _ _ Hy Y) as (N' & Hl' & Hv' & LY).
      unfold bi_sub_parts_i. cbv zeta. rewrite (nil_false _ N), (nil_false _ N'). cbn [is_nil andb]. rewrite Sx, Gx.
      pose proof (int_of_le (Z.of_nat (length l)) ltac:(lia)) as IL. pose proof (int_of_le (Z.of_nat (length l')) ltac:(lia)) as IL'.
      pose proof (compared_length l N) as CL.
      assert (forall a b u v neg, a <> [] -> b <> [] -> limbs a -> limbs b -> val a = Z.abs u -> val b = Z.abs v ->
        limbs_of u = Z.of_nat (length a) -> limbs_of v = Z.of_nat (length b) -> (length b <= length a)%nat ->
        (length b = length a -> vl b (compared a) <= vl a (compared a)) ->
        let L := int_limbs u in let R := int_limbs v in
        if dbg c && ((L <? 0) || (R <? 0) || (L <? R) || (low u L <? low v R))
        then (bits <- calc_sub_i c a b ;; bi_of_mag_i c bits neg) = AssertFail
        else held c L neg ((low u (Z.max L R) - low v R) mod 2 ^ (32 * Z.max 0 (Z.max L R)))
          (bits <- calc_sub_i c a b ;; bi_of_mag_i c bits neg)) as Go.
      { clear - Hx. intros a b u v neg Na Nb Ha Hb Va Vb La Lb Hab Hc L R.
        pose proof (int_of_le (Z.of_nat (length a)) ltac:(lia)) as IL. pose proof (int_of_le (Z.of_nat (length b)) ltac:(lia)) as IL'.
        pose proof (calc_sub_i_spec c a b Na Nb Ha Hb Hab Hc) as A. cbv zeta in A.
        unfold L, R. rewrite !(low_vl_all u a) by (auto; rewrite ?(int_length _ _ La), ?(int_length _ _ Lb), <- !int_of_s32; lia).
        rewrite !(low_vl_all v b) by (auto; rewrite ?(int_length _ _ Lb), <- !int_of_s32; lia).
        rewrite pow_limbs, !(int_length _ _ La), !(int_length _ _ Lb).
        destruct (dbg c && _) eqn:D1; [now rewrite A|].
        apply held_bind. eapply wp_mono; [exact A|]. intros z (Z1 & Z2 & Z3). rewrite Z1. auto. }
      cbv zeta in Go. unfold found_less.
      assert (length l' = length l -> low x (int_of (limbs_of x - 1) + 1) = vl l (compared l) /\
        low y (int_of (limbs_of x - 1) + 1) = vl l' (compared l)) as Cmp.
      { intros E. assert (int_of (limbs_of x - 1) + 1 <= Z.of_nat (length l)) as B.
        { rewrite LX. destruct l; [contradiction|]. cbn [length]. pose proof (int_of_le (Z.of_nat (Datatypes.S (length l)) - 1) ltac:(lia)). lia. }
        rewrite (low_vl_all x l), (low_vl_all y l') by (auto; lia). unfold compared. rewrite LX, int_of_s32. auto. }
      rewrite calc_compare_i_spec by assumption. cbn [bind]. rewrite LX in Cmp |- *. rewrite LY.
      destruct (Nat.ltb_spec (length l) (length l')) as [G|G].
      * rewrite (proj2 (Z.eqb_neq _ _)) by lia. rewrite (proj2 (Z.ltb_lt (Z.of_nat (length l)) (Z.of_nat (length l')))) by lia.
        cbn [Z.ltb Z.compare]. apply Go; auto; lia.
      * destruct (Nat.ltb_spec (length l') (length l)) as [G2|G2].
        -- rewrite (proj2 (Z.eqb_neq _ _)) by lia. rewrite (proj2 (Z.ltb_ge (Z.of_nat (length l)) (Z.of_nat (length l')))) by lia.
           cbn [Z.ltb Z.compare]. apply Go; auto; lia.
        -- assert (length l' = length l) as E by lia. destruct (Cmp E) as (C1 & C2). rewrite (proj2 (Z.eqb_eq _ _)) by lia. rewrite C1, C2.
           assert (compared l' = compared l) as EC by (unfold compared; now rewrite E).
           destruct (Z.compare_spec (vl l (compared l)) (vl l' (compared l))) as [V|V|V].
           ++ rewrite (proj2 (Z.ltb_ge (vl l (compared l)) _)) by lia. cbn [Z.ltb Z.compare]. apply Go; auto; lia.
           ++ rewrite (proj2 (Z.ltb_lt (vl l (compared l)) _)) by lia. cbn [Z.ltb Z.compare]. apply Go; auto; try lia. rewrite EC. lia.
           ++ rewrite (proj2 (Z.ltb_ge (vl l (compared l)) _)) by lia. cbn [Z.ltb Z.compare]. apply Go; auto; lia.
Qed.

Lemma limbs_of_neg x : limbs_of (- x) = limbs_of x.
Proof. unfold limbs_of. now rewrite Z.abs_opp. Qed.

Lemma low_neg x r : low (- x) r = low x r.
Proof. unfold low. now rewrite Z.abs_opp. Qed.

Lemma lengthened_neg c x y o : lengthened c x (- y) o -> lengthened c x y o.
Proof.
  unfold lengthened, int_limbs. rewrite Z.abs_opp, limbs_of_neg.
  destruct (_ || _); [auto|]. destruct (limbs_of x <? limbs_of y); cbv zeta; rewrite ?limbs_of_neg, !low_neg; auto.
Qed.

Lemma shortened_neg c x y o : shortened c x (- y) o -> shortened c x y o.
Proof.
  unfold shortened, int_limbs, found_less. cbv zeta. rewrite Z.abs_opp, !limbs_of_neg, !low_neg.
  destruct (Z.abs x <? 2 ^ 31); [auto|]. destruct (Z.abs y <? 2 ^ 31); [auto|].
  destruct (if _ =? _ then _ else _); rewrite ?limbs_of_neg, !low_neg; auto.
Qed.

Lemma valid_ok c a x : represents a x -> assert_valid c a = Ret tt.
Proof.
  intros H. assert (wp (assert_valid c a) (fun _ => True)) as W by (eapply wp_valid; [exact H|exact I]).
  apply wp_inv in W as ([] & E & _). exact E.
Qed.

Lemma add_short c a b x y : represents a x -> represents b y -> Z.abs x < 2147483648 -> Z.abs y < 2147483648 ->
  bi_add_i c a b = bi_add c a b /\ bi_sub_i c a b = bi_sub c a b.
Proof.
  intros Ha Hb X Y. rewrite (short_parts _ _ Ha X), (short_parts _ _ Hb Y). unfold bi_add_i, bi_add, bi_sub_i, bi_sub.
  split; reflexivity.
Qed.

Theorem sum_any_holds c a b x y : represents a x -> represents b y -> sum_any c x y (bi_add_i c a b).
Proof.
  intros Ha Hb. unfold sum_any. change (2 ^ 31) with 2147483648.
  destruct ((Z.abs x <? 2147483648) && (Z.abs y <? 2147483648)) eqn:B.
  - apply andb_true_iff in B as (B1 & B2). apply Z.ltb_lt in B1, B2. rewrite (proj1 (add_short c a b x y Ha Hb B1 B2)).
    now apply returns_wp, bi_add_spec.
  - assert (~ (Z.abs x < 2147483648 /\ Z.abs y < 2147483648)) as Big.
    { intros (B1 & B2). apply Z.ltb_lt in B1, B2. rewrite B1, B2 in B. discriminate. }
    unfold bi_add_i. rewrite (valid_ok c a x Ha), (valid_ok c b y Hb). cbn [bind].
    apply repr_parts in Ha. apply repr_parts in Hb.
    destruct (parts_sign _ _ _ Ha) as (R1 & S1). destruct (parts_sign _ _ _ Hb) as (R2 & S2). rewrite S1, S2.
    destruct (x <? 0), (y <? 0); cbn [xorb Bool.eqb]; try (now apply add_parts_any).
    all: rewrite chk32_ok by (unfold INT_MIN, INT_MAX in *; lia); cbn [bind]; replace (-1 * sign_of b) with (- sign_of b) by ring.
    all: apply shortened_neg, sub_parts_any; [exact Ha|now apply parts_neg|rewrite Z.abs_opp; exact Big].
Qed.

Theorem difference_any_holds c a b x y : represents a x -> represents b y -> difference_any c x y (bi_sub_i c a b).
Proof.
  intros Ha Hb. unfold difference_any. change (2 ^ 31) with 2147483648.
  destruct ((Z.abs x <? 2147483648) && (Z.abs y <? 2147483648)) eqn:B.
  - apply andb_true_iff in B as (B1 & B2). apply Z.ltb_lt in B1, B2. rewrite (proj2 (add_short c a b x y Ha Hb B1 B2)).
    now apply returns_wp, bi_sub_spec.
  - assert (~ (Z.abs x < 2147483648 /\ Z.abs y < 2147483648)) as Big.
    { intros (B1 & B2). apply Z.ltb_lt in B1, B2. rewrite B1, B2 in B. discriminate. }
    unfold bi_sub_i. rewrite (valid_ok c a x Ha), (valid_ok c b y Hb). cbn [bind].
    apply repr_parts in Ha. apply repr_parts in Hb.
    destruct (parts_sign _ _ _ Ha) as (R1 & S1). destruct (parts_sign _ _ _ Hb) as (R2 & S2). rewrite S1, S2.
    destruct (x <? 0), (y <? 0); cbn [xorb Bool.eqb]; try (now apply sub_parts_any).
    all: rewrite chk32_ok by (unfold INT_MIN, INT_MAX in *; lia); cbn [bind]; replace (-1 * sign_of b) with (- sign_of b) by ring.
    all: apply lengthened_neg, add_parts_any; [exact Ha|now apply parts_neg|rewrite Z.abs_opp; exact Big].
Qed.
