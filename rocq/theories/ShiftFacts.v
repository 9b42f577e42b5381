(** Two's complement of a limb array; left and right shift. *)
From Verif Require Import Facts Spec AddSubFacts SquMulFacts DivCoreFacts SpecFacts BigIntFacts CompareFacts ConvFacts SpecApi BigInt.

Ltac Zify.zify_post_hook ::= idtac.

(** ** dangerous_make_twos_complement *)

Lemma not32_eq x : limb x -> not32 x = W32 - 1 - x.
Proof.
  intros H. unfold not32, u32, limb in *. replace (Z.lnot x) with (- x - 1) by (unfold Z.lnot; lia).
  symmetry. apply (Z.mod_unique_pos _ _ (-1)); num; lia.
Qed.

Lemma neg32_eq x : limb x -> u32 (not32 x + 1) = if x =? 0 then 0 else W32 - x.
Proof.
  intros H. rewrite not32_eq by assumption. unfold limb in H.
  destruct (Z.eqb_spec x 0) as [->|E].
  - reflexivity.
  - rewrite u32_small by lia. ring.
Qed.

(** State of the negation after [i] limbs: [carry] says that all of them were zero. *)
Definition twos_state (d0 d : list Z) (i : nat) (carry : bool) : Prop :=
  length d = length d0 /\ limbs d /\ (1 <= i <= length d0)%nat /\ skipn i d = skipn i d0 /\
  (nth (i - 1) d 0 =? 0) = carry /\
  (if carry then vl d i = 0 /\ vl d0 i = 0 else vl d i = Bp i - vl d0 i /\ vl d0 i <> 0).

Lemma twos_carry_spec d0 n i d carry :
  limbs d0 -> n = (length d0 - i)%nat -> twos_state d0 d i carry ->
  wp (twos_carry n i d) (fun r => exists carry', twos_state d0 (fst r) (snd r) carry' /\
                                  (carry' = true -> snd r = length d0)).
Proof.
  intros Hd0. revert i d carry. induction n as [|n IH]; intros i d carry Hn (A & B & C & D & E & F);
    cbn [twos_carry]; wstep; wstep; try (rewrite ?A; lia);
    replace (Z.to_nat (Z.of_nat i - 1)) with (i - 1)%nat by lia; rewrite E.
  - destruct carry; wstep; cbn [fst snd]; [exists true|exists false]; (split; [|intros; lia]).
    all: unfold twos_state; tauto.
  - destruct carry.
    + wstep. wstep; [lia|]. wstep. wstep; [lia|].
      assert (nth i d 0 = nth i d0 0) as Ex by now apply nth_skipn_eq.
      rewrite Ex. pose proof (limbs_nth d0 i Hd0) as Hx. rewrite neg32_eq by assumption.
      set (x := nth i d0 0) in *. unfold limb in Hx. destruct F as (F1 & F2).
      apply (IH _ _ (x =? 0)); [lia|]. unfold twos_state.
      rewrite length_upd. split; [assumption|]. split.
      { apply limbs_upd; auto. unfold limb. destruct (Z.eqb_spec x 0); num; lia. }
      split; [lia|]. split.
      { rewrite skipn_upd by lia. now apply skipn_S_eq. }
      replace (S i - 1)%nat with i by lia. rewrite nth_upd_same by lia.
      rewrite vl_upd_S by lia. rewrite (vl_S d0), F1, F2. fold x.
      destruct (Z.eqb_spec x 0) as [E0|E0].
      * split; [reflexivity|]. rewrite E0. lia.
      * split; [apply Z.eqb_neq; lia|]. rewrite Bp_S. pose proof (Bp_pos i). split; [lia|].
        assert (1 * Bp i <= x * Bp i) by (apply Z.mul_le_mono_nonneg_r; lia). lia.
    + wstep. cbn [fst snd]. exists false. split; [|discriminate].
      unfold twos_state; tauto.
Qed.

Lemma make_twos_complement_spec d :
  limbs d ->
  wp (make_twos_complement d) (fun r =>
    length r = length d /\ limbs r /\ val r = if val d =? 0 then 0 else Bp (length d) - val d).
Proof.
  intros Hd. unfold make_twos_complement. destruct d as [|x0 d0].
  { cbn [is_nil]. wstep. repeat split; auto. }
  assert (1 <= length (x0 :: d0))%nat as Hlen by (cbn [length]; lia). cbn [is_nil].
  remember (x0 :: d0) as d eqn:Ed. clear Ed x0 d0.
  wstep. wstep; [lia|]. wstep. wstep; [lia|].
  set (x := nth 0 d 0). pose proof (limbs_nth d 0 Hd) as Hx. fold x in Hx.
  rewrite neg32_eq by assumption. wstep. rewrite length_upd. unfold limb in Hx.
  eapply wp_mono; [apply (twos_carry_spec d _ _ _ (x =? 0)); auto|].
  { unfold twos_state. rewrite length_upd. split; [reflexivity|]. split.
    { apply limbs_upd; auto. unfold limb. destruct (Z.eqb_spec x 0); num; lia. }
    split; [lia|]. split; [now rewrite skipn_upd by lia|].
    replace (1 - 1)%nat with 0%nat by lia. rewrite nth_upd_same by lia.
    rewrite vl_upd_S by lia. rewrite (vl_S d 0). fold x. rewrite !vl_0, Bp_0, Bp_1.
    destruct (Z.eqb_spec x 0) as [E0|E0].
    - split; [reflexivity|]. rewrite E0. split; reflexivity.
    - split; [apply Z.eqb_neq; lia|]. split; lia. }
  intros (d' & i) (carry & (A & B & C & D & E & F) & G). cbn [fst snd] in *.
  eapply wp_for_up with (I := fun j r =>
    length r = length d /\ limbs r /\ skipn j r = skipn j d /\
    (if carry then vl r j = 0 /\ vl d j = 0 else vl r j = Bp j - vl d j /\ vl d j <> 0)).
  - auto.
  - intros j r Hj (A' & B' & D' & F'). wstep. wstep; [lia|]. wstep; [lia|].
    assert (nth j r 0 = nth j d 0) as -> by now apply nth_skipn_eq.
    pose proof (limbs_nth d j Hd) as Hy. rewrite not32_eq by assumption. unfold limb in Hy.
    rewrite length_upd. split; [assumption|]. split.
    { apply limbs_upd; auto. unfold limb. lia. }
    split. { rewrite skipn_upd by lia. now apply skipn_S_eq. }
    rewrite vl_upd_S by lia. rewrite (vl_S d).
    destruct carry; [rewrite G in Hj by reflexivity; lia|].
    destruct F' as (F1 & F2). rewrite F1, Bp_S. pose proof (vl_bound d j Hd). pose proof (Bp_pos j).
    split; [ring|].
    assert (0 <= nth j d 0 * Bp j) by (apply Z.mul_nonneg_nonneg; lia). lia.
  - intros r (A' & B' & D' & F').
    replace (i + (length d' - i))%nat with (length d) in F' by lia.
    rewrite vl_all, (vl_ge r) in F' by lia. split; [assumption|]. split; [assumption|].
    destruct carry; destruct F' as (F1 & F2).
    + rewrite F1, F2. reflexivity.
    + rewrite (proj2 (Z.eqb_neq _ _) F2). assumption.
Qed.

(** ** Parts *)

Lemma bi_parts_spec c a x :
  represents a x ->
  wp (bi_parts c a) (fun p => snd p = (x <? 0) /\ limbs (fst p) /\ val (fst p) = Z.abs x /\
    fst p <> [] /\
    (bits_of a = [] -> length (fst p) = 1%nat) /\ (bits_of a <> [] -> fst p = bits_of a)).
Proof.
  intros Ha. apply repr_parts in Ha. destruct (parts_sign _ _ _ Ha) as (R & S).
  unfold bi_parts. destruct a as [s l]; cbn [sign_of bits_of] in *. rewrite S.
  pose proof (parts_abs _ _ _ Ha) as Va.
  inv_parts Ha; nils.
  - destruct (Z.ltb_spec x 0) as [H|H]; wstep; [wstep; wstep; [num; lia|wstep]|wstep]; wstep; cbn [fst snd].
    all: rewrite u32_small by (num; lia).
    all: split; [reflexivity|]; split; [repeat constructor; num; lia|]; split; [cbn [val]; lia|].
    all: split; [discriminate|]; split; [reflexivity|congruence].
  - wstep. wstep. wstep. cbn [fst snd]. split; [reflexivity|]. split; [assumption|]. split; [auto|].
    split; [assumption|]. split; [congruence|auto].
Qed.

(** ** Left shift *)

Lemma shift_split sh :
  0 <= sh -> exists ds sm, ds = Z.to_nat (sh / kcbitUint) /\ sm = sh - sh / kcbitUint * kcbitUint /\
    0 <= sm < 32 /\ sh = 32 * Z.of_nat ds + sm /\ 2 ^ sh = Bp ds * 2 ^ sm.
Proof.
  intros H. unfold kcbitUint. exists (Z.to_nat (sh / 32)), (sh - sh / 32 * 32).
  pose proof (Z.div_mod sh 32 ltac:(lia)) as D. pose proof (Z.mod_pos_bound sh 32 ltac:(lia)) as M.
  pose proof (Z.div_pos sh 32 H ltac:(lia)). set (q := sh / 32) in *. clearbody q.
  rewrite Bp_pow2, <- Z.pow_add_r by lia. rewrite Z2Nat.id by assumption.
  split; [reflexivity|]. split; [reflexivity|]. split; [lia|]. split; [lia|].
  f_equal. lia.
Qed.

Lemma shl_digit x k :
  limb x -> 0 < k < 32 ->
  exists hi lo, u32 (Z.shiftl x k) = lo * 2 ^ k /\ Z.shiftr x (32 - k) = hi /\
    0 <= hi < 2 ^ k /\ 0 <= lo < 2 ^ (32 - k) /\ x * 2 ^ k = hi * W32 + lo * 2 ^ k.
Proof.
  intros Hx Hk. exists (x / 2 ^ (32 - k)), (x mod 2 ^ (32 - k)).
  assert (2 ^ k * 2 ^ (32 - k) = W32) as HW.
  { rewrite <- Z.pow_add_r by lia. replace (k + (32 - k)) with 32 by lia. reflexivity. }
  pose proof (pow2_pos k ltac:(lia)) as Hp. pose proof (pow2_pos (32 - k) ltac:(lia)) as Hq.
  pose proof (Z.div_mod x (2 ^ (32 - k)) ltac:(lia)) as D.
  pose proof (Z.mod_pos_bound x (2 ^ (32 - k)) ltac:(lia)) as M. unfold limb in Hx.
  rewrite Z.shiftl_mul_pow2, Z.shiftr_div_pow2 by lia.
  assert (0 <= x / 2 ^ (32 - k)) as Hh by (apply Z.div_pos; lia).
  assert (x / 2 ^ (32 - k) < 2 ^ k) as Hh2.
  { apply Z.div_lt_upper_bound; lia. }
  set (h := x / 2 ^ (32 - k)) in *. set (l := x mod 2 ^ (32 - k)) in *. clearbody h l.
  set (p := 2 ^ k) in *. set (q := 2 ^ (32 - k)) in *. clearbody p q.
  assert (x * p = h * W32 + l * p) as E by (rewrite D, <- HW; ring).
  split; [|repeat split; auto; lia].
  unfold u32. symmetry. apply (Z.mod_unique_pos _ _ h).
  - split; [apply Z.mul_nonneg_nonneg; lia|]. rewrite <- HW.
    rewrite (Z.mul_comm p q). apply Z.mul_lt_mono_pos_r; lia.
  - lia.
Qed.

Theorem bi_shl_pos_spec c a x sh :
  represents a x -> 0 <= sh -> wp (bi_shl_pos c a sh) (fun r => represents r (x * 2 ^ sh)).
Proof.
  intros Ha Hsh. unfold bi_shl_pos.
  destruct (shift_split sh Hsh) as (ds & sm & <- & <- & Hsm & Esh & Epow).
  wstep. eapply wp_mono; [eapply bi_parts_spec; eauto|].
  intros (xd & neg) (Hneg & Hl & Hv & _). cbn [fst snd] in *. subst neg.
  assert (forall zd, limbs zd -> val zd = Z.abs x * 2 ^ sh ->
    wp (bi_of_mag c zd (x <? 0)) (fun r => represents r (x * 2 ^ sh))) as Hfin.
  { intros zd Hz Hzv. apply mag_result; auto. rewrite Hzv. rewrite (abs_ltb x) at 4.
    destruct (x <? 0); ring. }
  pose proof (Bp_pos ds) as HBd. wstep.
  destruct (Z.eqb_spec sm 0) as [E|E].
  - eapply wp_for_up with (I := fun i zd =>
      length zd = (length xd + ds + 1)%nat /\ limbs zd /\ vl zd (i + ds) = vl xd i * Bp ds /\
      val (skipn (i + ds) zd) = 0).
    + rewrite length_zeros. split; [reflexivity|]. split; [apply limbs_zeros|].
      split; [rewrite vl_zeros, vl_0; ring|]. cbn [Nat.add].
      rewrite skipn_zeros. apply val_zeros.
    + intros i zd Hi (A & B & C & D). wstep. wstep; [lia|]. wstep; [lia|].
      rewrite length_upd. split; [assumption|].
      split; [apply limbs_upd; auto; now apply limbs_nth|].
      rewrite skipn_nth in D by lia. cbn [val] in D.
      pose proof (limbs_nth zd (i + ds) B) as H1. pose proof (val_bound _ (limbs_skipn (S (i + ds)) _ B)) as H2.
      unfold limb in H1. cbn [Nat.add]. split.
      * rewrite vl_upd_S by lia. rewrite (vl_S xd), C, Bp_add. ring.
      * rewrite skipn_upd by lia. num; lia.
    + intros zd (A & B & C & D). apply Hfin; auto.
      rewrite (val_split zd (0 + length xd + ds)) by lia. cbn [Nat.add] in *. rewrite D, C, vl_all, Hv, Epow, E.
      change (2 ^ 0) with 1. ring.
  - wstep. eapply wp_for_up with (I := fun i st => let '(zd, carry) := st in
      length zd = (length xd + ds + 1)%nat /\ limbs zd /\
      vl zd (i + ds) + carry * Bp (i + ds) = vl xd i * 2 ^ sh /\
      0 <= carry < 2 ^ sm /\ val (skipn (i + ds) zd) = 0).
    + rewrite length_zeros. split; [reflexivity|]. split; [apply limbs_zeros|].
      pose proof (pow2_pos sm ltac:(lia)).
      split; [rewrite vl_zeros, vl_0; ring|]. split; [lia|]. cbn [Nat.add].
      rewrite skipn_zeros. apply val_zeros.
    + intros i (zd & carry) Hi (A & B & C & Hc & D).
      pose proof (limbs_nth xd i Hl) as Hx.
      destruct (shl_digit (nth i xd 0) sm Hx ltac:(lia)) as (hi & lo & E1 & E2 & Hhi & Hlo & E3).
      wstep. wstep; [lia|]. wstep. apply wp_shl32; [lia|]. rewrite E1.
      rewrite lor_add by lia. wstep. wstep; [lia|]. wstep. unfold kcbitUint.
      apply wp_shr32; [lia|]. rewrite E2. wstep.
      rewrite length_upd. split; [assumption|].
      assert (limb (lo * 2 ^ sm + carry)) as Hlim.
      { unfold limb. assert (2 ^ (32 - sm) * 2 ^ sm = W32) as HW.
        { rewrite <- Z.pow_add_r by lia. replace (32 - sm + sm) with 32 by lia. reflexivity. }
        assert ((lo + 1) * 2 ^ sm <= 2 ^ (32 - sm) * 2 ^ sm) by (apply Z.mul_le_mono_nonneg_r; lia).
        assert (0 <= lo * 2 ^ sm) by (apply Z.mul_nonneg_nonneg; lia). lia. }
      split; [apply limbs_upd; auto|].
      rewrite skipn_nth in D by lia. cbn [val] in D.
      pose proof (limbs_nth zd (i + ds) B) as H1. pose proof (val_bound _ (limbs_skipn (S (i + ds)) _ B)) as H2.
      unfold limb in H1. cbn [Nat.add]. split.
      * rewrite vl_upd_S by lia. rewrite (vl_S xd).
        replace ((vl xd i + nth i xd 0 * Bp i) * 2 ^ sh)
          with (vl xd i * 2 ^ sh + nth i xd 0 * Bp i * 2 ^ sh) by ring.
        rewrite <- C, Bp_S, Epow.
        replace (nth i xd 0 * Bp i * (Bp ds * 2 ^ sm)) with (nth i xd 0 * 2 ^ sm * Bp (i + ds)) by (rewrite Bp_add; ring).
        rewrite E3. ring.
      * split; [lia|]. rewrite skipn_upd by lia. num; lia.
    + intros (zd & carry) (A & B & C & Hc & D). cbn [Nat.add] in *.
      wstep; [lia|].
      assert (limb carry) as Hlim.
      { unfold limb. pose proof (Z.pow_le_mono_r 2 sm 32 ltac:(lia) ltac:(lia)) as H. change (2 ^ 32) with W32 in H. lia. }
      apply Hfin; [apply limbs_upd; auto|].
      rewrite val_upd by lia. rewrite (val_split zd (length xd + ds)) by lia. rewrite D.
      rewrite skipn_nth in D by lia. cbn [val] in D.
      pose proof (limbs_nth zd (length xd + ds) B) as H1. pose proof (val_bound _ (limbs_skipn (S (length xd + ds)) _ B)) as H2.
      unfold limb in H1. assert (nth (length xd + ds) zd 0 = 0) as -> by (num; lia).
      rewrite <- Hv, <- vl_all, <- C. ring.
Qed.

(** ** Right shift *)

Lemma div_pow_nest x a b : 0 < a -> 0 < b -> x / (a * b) = x / a / b.
Proof. intros. symmetry. apply Z.div_div; lia. Qed.

Lemma val_skipn_div l n : limbs l -> val (skipn n l) = val l / Bp n.
Proof.
  intros Hl. destruct (Nat.le_gt_cases n (length l)) as [H|H].
  - rewrite (val_split l n) by assumption. rewrite Z.mul_comm, Z.div_add by (pose proof (Bp_pos n); lia).
    rewrite Z.div_small by (now apply vl_bound). reflexivity.
  - rewrite skipn_all2 by lia. cbn [val]. symmetry. apply Z.div_small.
    pose proof (val_bound l Hl). pose proof (Bp_le (length l) n). lia.
Qed.

Lemma shr_digit rot X k :
  limb rot -> 0 <= X -> 0 < k < 32 ->
  exists lo hi, Z.shiftr rot k = hi /\ u32 (Z.shiftl rot (32 - k)) = lo * 2 ^ (32 - k) /\
    0 <= lo < 2 ^ k /\ 0 <= hi < 2 ^ (32 - k) /\
    (rot + W32 * X) mod 2 ^ k = lo /\
    (rot + W32 * X) / 2 ^ k = hi + (X mod 2 ^ k) * 2 ^ (32 - k) + W32 * (X / 2 ^ k).
Proof.
  intros Hr HX Hk. exists (rot mod 2 ^ k), (rot / 2 ^ k).
  assert (2 ^ (32 - k) * 2 ^ k = W32) as HW.
  { rewrite <- Z.pow_add_r by lia. replace (32 - k + k) with 32 by lia. reflexivity. }
  pose proof (pow2_pos k ltac:(lia)) as Hp. pose proof (pow2_pos (32 - k) ltac:(lia)) as Hq.
  unfold limb in Hr. rewrite Z.shiftr_div_pow2, Z.shiftl_mul_pow2 by lia.
  pose proof (Z.div_mod rot (2 ^ k) ltac:(lia)) as D1. pose proof (Z.mod_pos_bound rot (2 ^ k) ltac:(lia)) as M1.
  pose proof (Z.div_mod X (2 ^ k) ltac:(lia)) as D2. pose proof (Z.mod_pos_bound X (2 ^ k) ltac:(lia)) as M2.
  assert (0 <= rot / 2 ^ k < 2 ^ (32 - k)) as Hh.
  { split; [apply Z.div_pos; lia|]. apply Z.div_lt_upper_bound; lia. }
  set (p := 2 ^ k) in *. set (q := 2 ^ (32 - k)) in *.
  set (h := rot / p) in *. set (l := rot mod p) in *. set (Y := X / p) in *. set (m := X mod p) in *.
  clearbody h l Y m p q.
  split; [reflexivity|]. split.
  { unfold u32. symmetry. apply (Z.mod_unique_pos _ _ h).
    - split; [apply Z.mul_nonneg_nonneg; lia|]. rewrite <- HW, (Z.mul_comm q p).
      apply Z.mul_lt_mono_pos_r; lia.
    - rewrite D1, <- HW. ring. }
  split; [lia|]. split; [lia|].
  assert (rot + W32 * X = p * (h + m * q + W32 * Y) + l) as E.
  { rewrite D1, D2, <- HW. ring. }
  rewrite E. split.
  - symmetry. apply (Z.mod_unique_pos _ _ (h + m * q + W32 * Y)); lia.
  - symmetry. apply (Z.div_unique_pos _ _ _ l); lia.
Qed.

Definition shr_body (neg : bool) (xd : list Z) (ds : nat) (sm : Z) (k : nat) (st : list Z * Z) :=
  let '(zd, carry) := st in
  let i := (k + ds)%nat in
  rot <- rd xd i ;;
  lo <- shr32 rot sm ;;
  zd <-
    (if neg && Nat.eqb i (length xd - 1)
     then m <- shl32 UINT_MAX (kcbitUint - sm) ;; wr zd k (Z.lor lo m)
     else wr zd k (Z.lor lo carry)) ;;
  carry <- shl32 rot (kcbitUint - sm) ;;
  Ret (zd, carry).

Lemma shr_loop neg xd ds sm :
  limbs xd -> (ds <= length xd)%nat -> 0 < sm < 32 ->
  let zl := (length xd - ds)%nat in
  wp (for_down zl (shr_body neg xd ds sm) (zeros zl, 0)) (fun st =>
    length (fst st) = zl /\ limbs (fst st) /\
    val (fst st) = val xd / Bp ds / 2 ^ sm +
      (if neg && negb (Nat.eqb zl 0) then (2 ^ sm - 1) * (2 ^ (32 - sm) * Bp (zl - 1)) else 0)).
Proof.
  intros Hl Hds Hsm zl.
  assert (2 ^ (32 - sm) * 2 ^ sm = W32) as HW.
  { rewrite <- Z.pow_add_r by lia. replace (32 - sm + sm) with 32 by lia. reflexivity. }
  pose proof (pow2_pos sm ltac:(lia)) as Hp. pose proof (pow2_pos (32 - sm) ltac:(lia)) as Hq.
  eapply wp_for_down with (I := fun k st => let '(zd, carry) := st in
    length zd = zl /\ limbs zd /\
    carry = (val (skipn (k + ds) xd) mod 2 ^ sm) * 2 ^ (32 - sm) /\
    val (skipn k zd) = val (skipn (k + ds) xd) / 2 ^ sm +
      (if neg && negb (Nat.eqb zl k) then (2 ^ sm - 1) * (2 ^ (32 - sm) * Bp (zl - 1 - k)) else 0)).
  - rewrite length_zeros. split; [reflexivity|]. split; [apply limbs_zeros|].
    replace (zl + ds)%nat with (length xd) by lia. rewrite skipn_all. cbn [val].
    rewrite Zmod_0_l, Z.div_0_l by lia. rewrite Nat.eqb_refl, Bool.andb_false_r.
    split; [reflexivity|]. rewrite skipn_zeros. apply val_zeros.
  - intros k (zd & carry) Hk (A & B & C & D). unfold shr_body. cbv zeta. unfold kcbitUint.
    pose proof (limbs_nth xd (k + ds) Hl) as Hr.
    pose proof (val_bound _ (limbs_skipn (S k + ds) _ Hl)) as HX.
    set (X := val (skipn (S k + ds) xd)) in *.
    destruct (shr_digit _ X sm Hr ltac:(lia) ltac:(lia)) as (lo & hi & E1 & E2 & Hlo & Hhi & E3 & E4).
    wstep. wstep; [lia|]. wstep. apply wp_shr32; [lia|]. rewrite E1.
    assert (val (skipn (k + ds) xd) = nth (k + ds) xd 0 + W32 * X) as EX.
    { rewrite skipn_nth by lia. reflexivity. }
    pose proof (Z.mod_pos_bound X (2 ^ sm) ltac:(lia)) as HM.
    set (m := X mod 2 ^ sm) in *.
    assert (0 <= m * 2 ^ (32 - sm)) as Hm0 by (apply Z.mul_nonneg_nonneg; lia).
    assert (limb (m * 2 ^ (32 - sm) + hi)) as Hlim.
    { assert ((m + 1) * 2 ^ (32 - sm) <= 2 ^ sm * 2 ^ (32 - sm)) by (apply Z.mul_le_mono_nonneg_r; lia).
      unfold limb. lia. }
    wstep.
    assert (forall zd' v, length zd' = zl -> limbs zd' ->
      val (skipn k zd') = (nth (k + ds) xd 0 + W32 * X) / 2 ^ sm + v ->
      v = (if neg && negb (Nat.eqb zl k) then (2 ^ sm - 1) * (2 ^ (32 - sm) * Bp (zl - 1 - k)) else 0) ->
      wp (carry <- shl32 (nth (k + ds) xd 0) (32 - sm) ;; Ret (zd', carry)) (fun st => let '(zd, carry) := st in
        length zd = zl /\ limbs zd /\
        carry = (val (skipn (k + ds) xd) mod 2 ^ sm) * 2 ^ (32 - sm) /\
        val (skipn k zd) = val (skipn (k + ds) xd) / 2 ^ sm +
          (if neg && negb (Nat.eqb zl k) then (2 ^ sm - 1) * (2 ^ (32 - sm) * Bp (zl - 1 - k)) else 0))) as Hrest.
    { intros zd' v L1 L2 L3 ->. wstep. apply wp_shl32; [lia|]. rewrite E2. wstep.
      split; [assumption|]. split; [assumption|]. rewrite EX, E3. split; [reflexivity|exact L3]. }
    destruct neg; cbn [andb] in *.
    + destruct (Nat.eqb_spec (k + ds) (length xd - 1)) as [Et|Et].
      * assert (S k + ds = length xd)%nat as Etop by lia.
        assert (X = 0) as HX0 by (unfold X; rewrite Etop, skipn_all; reflexivity).
        wstep. apply wp_shl32; [lia|].
        assert (u32 (Z.shiftl UINT_MAX (32 - sm)) = (2 ^ sm - 1) * 2 ^ (32 - sm)) as ->.
        { rewrite Z.shiftl_mul_pow2 by lia. unfold u32, UINT_MAX. symmetry.
          apply (Z.mod_unique_pos _ _ (2 ^ (32 - sm) - 1)); [|num; lia].
          split; [apply Z.mul_nonneg_nonneg; lia|]. lia. }
        rewrite Z.lor_comm, lor_add by lia. wstep; [lia|].
        apply (Hrest _ ((2 ^ sm - 1) * 2 ^ (32 - sm))).
        -- now rewrite length_upd.
        -- apply limbs_upd; auto. unfold limb.
           assert (0 <= (2 ^ sm - 1) * 2 ^ (32 - sm)) by (apply Z.mul_nonneg_nonneg; lia). lia.
        -- rewrite skipn_upd_at by lia. rewrite E4. subst m. rewrite HX0, Zmod_0_l, Z.div_0_l by lia.
           rewrite skipn_all2 by lia. cbn [val]. ring.
        -- destruct (Nat.eqb_spec zl k); [lia|]. cbn [negb]. replace (zl - 1 - k)%nat with 0%nat by lia.
           rewrite Bp_0. ring.
      * rewrite C, Z.lor_comm, lor_add by lia. wstep; [lia|].
        eapply Hrest; [now rewrite length_upd|apply limbs_upd; auto| |reflexivity].
        rewrite skipn_upd_at by lia. cbn [val]. rewrite D, E4.
        destruct (Nat.eqb_spec zl (S k)); [lia|]. destruct (Nat.eqb_spec zl k); [lia|]. cbn [negb].
        replace (zl - 1 - k)%nat with (S (zl - 1 - S k)) by lia. rewrite Bp_S. ring.
    + rewrite C, Z.lor_comm, lor_add by lia. wstep; [lia|].
      eapply Hrest; [now rewrite length_upd|apply limbs_upd; auto| |reflexivity].
      rewrite skipn_upd_at by lia. cbn [val]. rewrite D, E4. ring.
  - intros (zd & carry) (A & B & C & D). cbn [fst]. cbn [Nat.add skipn] in D.
    split; [assumption|]. split; [assumption|]. rewrite D, val_skipn_div by assumption.
    replace (zl - 1 - 0)%nat with (zl - 1)%nat by lia. reflexivity.
Qed.

Lemma shr_copy xd ds :
  limbs xd -> (ds <= length xd)%nat ->
  let zl := (length xd - ds)%nat in
  wp (for_down zl (fun k zd => x <- rd xd (k + ds) ;; wr zd k x) (zeros zl)) (fun zd =>
    length zd = zl /\ limbs zd /\ val zd = val xd / Bp ds).
Proof.
  intros Hl Hds zl.
  eapply wp_for_down with (I := fun k zd =>
    length zd = zl /\ limbs zd /\ val (skipn k zd) = val (skipn (k + ds) xd)).
  - rewrite length_zeros. split; [reflexivity|]. split; [apply limbs_zeros|].
    replace (zl + ds)%nat with (length xd) by lia. rewrite skipn_all, skipn_zeros, val_zeros. reflexivity.
  - intros k zd Hk (A & B & C). wstep. wstep; [lia|]. wstep; [lia|].
    split; [now rewrite length_upd|]. split; [apply limbs_upd; auto; now apply limbs_nth|].
    rewrite skipn_upd_at by lia. cbn [val]. rewrite C.
    rewrite (skipn_nth xd (k + ds)) by lia. reflexivity.
  - intros zd (A & B & C). cbn [Nat.add skipn] in C. split; [assumption|]. split; [assumption|].
    now rewrite C, val_skipn_div.
Qed.

Lemma neg_floor M n x p : x < 0 -> 0 < p -> M = n * p -> x / p = - (n - (M + x) / p).
Proof.
  intros Hx Hp ->. replace (n * p + x) with (x + n * p) by ring. rewrite Z.div_add by lia. lia.
Qed.

Lemma div_neg_one x p : x < 0 -> - x <= p -> x / p = -1.
Proof. intros. symmetry. apply (Z.div_unique_pos _ _ _ (x + p)); lia. Qed.

Lemma length_fits a x :
  represents a x -> fits_limbs x (Z.max 1 (Z.of_nat (length (bits_of a)))).
Proof.
  intros Ha. apply represents_view in Ha. unfold fits_limbs.
  inversion Ha as [z Hz Z1 Z2|s l Hs Hnl Hll Htl Hvl Z1 Z2]; subst a; cbn [bits_of length].
  - change (2 ^ (32 * Z.max 1 (Z.of_nat 0))) with 4294967296. num; lia.
  - pose proof (val_bound l Hll) as Hb. rewrite Bp_pow2 in Hb.
    destruct l; [congruence|]. cbn [length] in *. rewrite Z.max_r by lia. destruct Hs; subst; lia.
Qed.

(** [w] is the product 32 * length as the int the code computes. *)
Theorem bi_shr_pos_gen c a x sh w :
  represents a x -> 0 < sh ->
  (x < 0 -> w <= 32 * Z.of_nat (Nat.max 1 (length (bits_of a))) /\
            chk32 c (32 * Z.of_nat (Nat.max 1 (length (bits_of a)))) = Ret w) ->
  wp (bi_shr_pos c a sh) (fun r =>
    if (x <? 0) && (w <=? sh) then r = s_bnMinusOneInt
    else (~ shr_bad x sh -> represents r (x / 2 ^ sh)) /\ (shr_bad x sh -> represents r 0)).
Proof.
  intros Ha Hsh Hsize. unfold bi_shr_pos.
  destruct (shift_split sh ltac:(lia)) as (ds & sm & <- & <- & Hsm & Esh & Epow).
  wstep. eapply wp_mono; [eapply bi_parts_spec; eauto|].
  intros (xd & neg) (Hneg & Hl & Hv & Hne & Htriv & Hbig). cbn [fst snd] in *. subst neg.
  pose proof (val_bound _ Hl) as Hb. pose proof (Bp_pos ds) as HBd.
  pose proof (pow2_pos sm ltac:(lia)) as Hpm.
  assert (1 <= length xd)%nat as Hxl by (destruct xd; [congruence|cbn [length]; lia]).
  assert ((x < 0 -> ~ shr_bad x sh) -> ~ shr_bad x sh) as Hpos_ok.
  { intros H. destruct (Z.lt_ge_cases x 0) as [H0|H0]; [auto|].
    intros (k & n & Hk & E & F). pose proof (Z.pow_lt_mono_r 2 (32 * k) (32 * n)). lia. }
  destruct (Z.ltb_spec x 0) as [Hx|Hx].
  2:{ (* non-negative *)
    wstep. wstep. wstep. wstep. assert (~ shr_bad x sh) as Hnb by (apply Hpos_ok; lia).
    rewrite Z.abs_eq in Hv by lia.
    assert (forall zd, limbs zd -> val zd = x / 2 ^ sh ->
      wp (bi_of_mag c zd false) (fun r =>
        (~ shr_bad x sh -> represents r (x / 2 ^ sh)) /\ (shr_bad x sh -> represents r 0))) as Hfin.
    { intros zd Hz Hzv. eapply wp_mono; [apply mag_result; [exact Hz|exact Hzv]|].
      cbn beta. intros r Hr. tauto. }
    wstep. destruct (Nat.le_gt_cases ds (length xd)) as [Hds|Hds].
    - destruct (Z.eqb_spec sm 0) as [E|E].
      + eapply wp_mono; [apply shr_copy; auto|]. intros zd (A & B & C). repeat wstep.
        apply Hfin; auto. rewrite C, Hv, Epow, E. f_equal. ring.
      + wstep. eapply wp_mono; [apply (shr_loop false xd ds sm); auto; lia|].
        intros (zd & carry) (A & B & C). cbn [fst andb] in *. repeat wstep.
        apply Hfin; auto. rewrite C, Hv, Epow, Z.add_0_r, div_pow_nest by lia. reflexivity.
    - replace (length xd - ds)%nat with 0%nat by lia. cbn [zeros repeat for_down].
      assert (x / 2 ^ sh = 0) as E0.
      { apply Z.div_small. pose proof (Bp_le (length xd) ds ltac:(lia)).
        assert (Bp ds * 1 <= Bp ds * 2 ^ sm) by (apply Z.mul_le_mono_nonneg_l; lia). lia. }
      destruct (sm =? 0); repeat wstep; apply Hfin; auto; constructor. }
  rewrite Z.abs_neq in Hv by lia. specialize (Hsize Hx).
  replace (Nat.max 1 (length (bits_of a))) with (length xd) in Hsize.
  2:{ destruct (bits_of a) eqn:Eb; [rewrite Htriv by reflexivity; reflexivity|].
      rewrite Hbig by discriminate. cbn [length]. lia. }
  destruct Hsize as (Hw & Hchk). unfold kcbitUint. wstep. rewrite Hchk. cbn [bind]. wstep.
  cbn [andb]. destruct (Z.leb_spec w sh) as [He|He].
  { (* everything shifted out *) wstep. reflexivity. }
  assert (ds < length xd)%nat as Hds by lia.
  wstep. eapply wp_mono; [apply make_twos_complement_spec; auto|].
  intros t (T1 & T2 & T3). rewrite Hv in T3. rewrite (proj2 (Z.eqb_neq (- x) 0)) in T3 by lia.
  set (M := Bp (length xd)) in *. set (zl := (length xd - ds)%nat) in *.
  assert (M = Bp zl * Bp ds) as HM.
  { unfold M. replace (length xd) with (zl + ds)%nat by lia. apply Bp_add. }
  rewrite <- T1. wstep.
  replace (length t - ds)%nat with zl by lia.
  destruct (Z.eqb_spec sm 0) as [E|E].
  - (* whole limbs *)
    replace zl with (length t - ds)%nat at 1 2 by lia.
    eapply wp_mono; [apply shr_copy; auto; lia|]. intros zd (A & B & C). wstep.
    eapply wp_mono; [apply make_twos_complement_spec; auto|]. intros r (R1 & R2 & R3).
    rewrite T3 in C. replace (M - - x) with (M + x) in C by ring.
    pose proof (neg_floor M (Bp zl) x (Bp ds) Hx HBd HM) as HF.
    replace (2 ^ sh) with (Bp ds) by (rewrite Epow, E; change (2 ^ 0) with 1; ring).
    rewrite A in R3. replace (length t - ds)%nat with zl in R3 by lia.
    assert (shr_bad x sh <-> M + x < Bp ds) as Hbad.
    { split.
      - intros (k & n & Hk & E1 & F). assert (k = Z.of_nat ds) as -> by lia.
        rewrite <- Bp_pow2 in F.
        assert (n = Z.of_nat (length xd)) as ->.
        { assert (32 * n <= 32 * Z.of_nat (length xd)).
          { destruct (Z.le_gt_cases (32 * n) (32 * Z.of_nat (length xd))) as [G|G]; [exact G|exfalso].
            pose proof (Z.pow_le_mono_r 2 (32 * (Z.of_nat (length xd) + 1)) (32 * n) ltac:(lia) ltac:(lia)) as P.
            replace (32 * (Z.of_nat (length xd) + 1)) with (32 + 32 * Z.of_nat (length xd)) in P by ring.
            rewrite Z.pow_add_r in P by lia. rewrite <- Bp_pow2 in P. fold M in P.
            pose proof (Bp_le ds (length xd) ltac:(lia)) as Q. fold M in Q.
            change (2 ^ 32) with 4294967296 in P. lia. }
          assert (length xd - 1 < Z.to_nat n)%nat; [|lia].
          apply Nat2Z.inj_lt. rewrite Z2Nat.id by lia.
          destruct (Z.le_gt_cases n (Z.of_nat (length xd) - 1)) as [G|G]; [exfalso|lia].
          (* then -x < 2^(32 n) <= Bp (xl - 1) <= -x *)
          assert (bits_of a <> []) as Hnb.
          { intros G'. rewrite (Htriv G') in G. lia. }
          rewrite (Hbig Hnb) in *. pose proof Ha as Ha'. apply represents_view in Ha'.
          inversion Ha' as [z Hz Z1 Z2|s l Hs Hnl Hll Htl Hvl Z1 Z2]; subst a; [apply Hnb; reflexivity|].
          cbn [bits_of] in *.
          pose proof (top_nz_bound l Hll Hnl Htl) as TB. rewrite Bp_pow2 in TB.
          pose proof (Z.pow_le_mono_r 2 (32 * n) (32 * Z.of_nat (length l - 1)) ltac:(lia) ltac:(lia)). lia. }
        rewrite <- Bp_pow2 in F. fold M in F. lia.
      - intros G. exists (Z.of_nat ds), (Z.of_nat (length xd)). rewrite <- !Bp_pow2. fold M. lia. }
    destruct (Z.eqb_spec (val zd) 0) as [E0|E0].
    + assert (M + x < Bp ds) as G.
      { assert (0 <= M + x) by (unfold M; lia). rewrite C in E0.
        apply Z.div_small_iff in E0; lia. }
      eapply wp_mono; [apply bi_of_mag_spec; exact R2|]. cbn beta iota. rewrite R3.
      intros rr Hr. split; intros; [tauto|]. exact Hr.
    + assert (~ (M + x < Bp ds)) as G.
      { intros G. apply E0. rewrite C. apply Z.div_small. unfold M in *. lia. }
      eapply wp_mono; [apply (mag_result _ _ _ (x / Bp ds)); [exact R2|]|].
      * rewrite R3, HF, C. reflexivity.
      * intros rr Hr. tauto.
  - (* partial limb *)
    assert (~ shr_bad x sh) as Hnb.
    { intros (k & n & Hk & E1 & F). apply E. lia. }
    wstep.
    eapply wp_mono with (P := fun st : list Z * Z =>
      length (fst st) = zl /\ limbs (fst st) /\
      val (fst st) = val t / Bp ds / 2 ^ sm + (2 ^ sm - 1) * (2 ^ (32 - sm) * Bp (zl - 1))).
    { pose proof (shr_loop true t ds sm T2 ltac:(lia) ltac:(lia)) as L. cbv zeta in L.
      replace (length t - ds)%nat with zl in L by lia. unfold shr_body, kcbitUint in L.
      assert (Nat.eqb zl 0 = false) as Ez by (apply Nat.eqb_neq; lia). rewrite Ez in L. exact L. }
    intros (zd & carry) (A & B & C). cbn [fst] in *. wstep. wstep.
    eapply wp_mono; [apply make_twos_complement_spec; auto|]. intros r (R1 & R2 & R3).
    rewrite T3, <- div_pow_nest, <- Epow in C by lia. replace (M - - x) with (M + x) in C by ring.
    set (N := 2 ^ (32 - sm) * Bp (zl - 1)) in *.
    assert (N * 2 ^ sm = Bp zl) as HN.
    { unfold N. replace zl with (S (zl - 1)) at 2 by lia. rewrite Bp_S.
      replace W32 with (2 ^ (32 - sm) * 2 ^ sm); [ring|].
      rewrite <- Z.pow_add_r by lia. replace (32 - sm + sm) with 32 by lia. reflexivity. }
    assert (M = N * 2 ^ sh) as HM2 by (rewrite HM, Epow, <- HN; ring).
    pose proof (neg_floor M N x (2 ^ sh) Hx ltac:(apply pow2_pos; lia) HM2) as HF.
    assert (0 <= (M + x) / 2 ^ sh) as Hq0 by (apply Z.div_pos; [unfold M; lia|apply pow2_pos; lia]).
    assert (0 < N) as HN0.
    { unfold N. apply Z.mul_pos_pos; [apply pow2_pos; lia|apply Bp_pos]. }
    assert (2 <= 2 ^ sm) as Hsm2.
    { pose proof (Z.pow_le_mono_r 2 1 sm ltac:(lia) ltac:(lia)) as P. exact P. }
    assert (1 * N <= (2 ^ sm - 1) * N) by (apply Z.mul_le_mono_nonneg_r; lia).
    rewrite (proj2 (Z.eqb_neq (val zd) 0)) in R3 by lia.
    eapply wp_mono; [apply (mag_result _ _ _ (x / 2 ^ sh)); [exact R2|]|].
    + rewrite R3, A, HF, C, <- HN. ring.
    + intros rr Hr. tauto.
Qed.

Lemma shr_out_neg a x sh :
  represents a x -> x < 0 -> 32 * Z.of_nat (Nat.max 1 (length (bits_of a))) <= sh ->
  ~ shr_bad x sh /\ x / 2 ^ sh = -1.
Proof.
  intros Ha Hx He. pose proof (length_fits a x Ha) as F. unfold fits_limbs in F.
  assert (- x < 2 ^ sh) as Hle.
  { pose proof (Z.pow_le_mono_r 2 (32 * Z.max 1 (Z.of_nat (length (bits_of a)))) sh ltac:(lia) ltac:(lia)). lia. }
  split; [|apply div_neg_one; lia].
  intros (k & n & Hk & E & G).
  pose proof (Z.pow_le_mono_r 2 (32 * (k + 1)) (32 * n) ltac:(lia) ltac:(lia)) as P.
  replace (32 * (k + 1)) with (32 + 32 * k) in P by ring. rewrite Z.pow_add_r in P by lia.
  change (2 ^ 32) with 4294967296 in P. rewrite <- E in *. pose proof (pow2_pos sh ltac:(lia)). lia.
Qed.

Theorem bi_shr_pos_spec c a x sh :
  represents a x -> 0 < sh -> (x < 0 -> Z.of_nat (length (bits_of a)) < 2 ^ 26) ->
  wp (bi_shr_pos c a sh) (fun r =>
    (~ shr_bad x sh -> represents r (x / 2 ^ sh)) /\ (shr_bad x sh -> represents r 0)).
Proof.
  intros Ha Hsh Hsize. change (2 ^ 26) with 67108864 in Hsize.
  eapply wp_mono; [apply (bi_shr_pos_gen c a x sh (32 * Z.of_nat (Nat.max 1 (length (bits_of a)))) Ha Hsh)|].
  - intros Hx. specialize (Hsize Hx). split; [lia|]. unfold chk32.
    rewrite !(proj2 (Z.leb_le _ _)) by (num; lia). reflexivity.
  - cbn beta. intros r Hr. destruct (Z.ltb_spec x 0) as [Hx|Hx]; [|exact Hr].
    destruct (Z.leb_spec (32 * Z.of_nat (Nat.max 1 (length (bits_of a)))) sh) as [He|He]; [|exact Hr].
    cbn [andb] in Hr. subst r. destruct (shr_out_neg a x sh Ha Hx He) as (H1 & H2).
    split; [|tauto]. intros _. rewrite H2. apply repr_minus_one.
Qed.

Lemma repr_length a x n :
  represents a x -> 0 <= n -> fits_limbs x n -> Z.of_nat (length (bits_of a)) <= n.
Proof.
  intros Ha Hn Hf. apply represents_view in Ha.
  inversion Ha as [z Hz Z1 Z2|s l Hs Hnl Hll Htl Hvl Z1 Z2]; subst a; cbn [bits_of length]; [lia|].
  unfold fits_limbs in Hf. pose proof (top_nz_bound l Hll Hnl Htl) as TB. rewrite Bp_pow2 in TB.
  assert (Z.abs x = val l) as E.
  { pose proof (val_bound l Hll). destruct Hs; subst; lia. }
  rewrite E in Hf. destruct (Z.le_gt_cases (Z.of_nat (length l)) n) as [H|H]; [exact H|exfalso].
  pose proof (Z.pow_le_mono_r 2 (32 * n) (32 * Z.of_nat (length l - 1)) ltac:(lia) ltac:(lia)). lia.
Qed.

Lemma minus_one_bits a : represents a (-1) -> bits_of a = [].
Proof.
  intros H. rewrite (represents_unique _ _ _ H (repr_minus_one)). reflexivity.
Qed.

Theorem bi_shl_exact c a x s :
  represents a x -> 0 <= s <= INT_MAX -> returns (bi_shl c a s) (x * 2 ^ s).
Proof.
  intros Ha Hs. unfold bi_shl. destruct (Z.eqb_spec s 0) as [->|].
  { exists a. split; [reflexivity|]. change (2 ^ 0) with 1. now rewrite Z.mul_1_r. }
  destruct (Z.eqb_spec s INT_MIN); [num; lia|].
  destruct (Z.ltb_spec s 0); [lia|]. apply returns_wp. apply bi_shl_pos_spec; [exact Ha|lia].
Qed.

Lemma shr_pos_returns c a x s :
  represents a x -> 0 < s -> (x < 0 -> Z.of_nat (length (bits_of a)) < 2 ^ 26) ->
  ~ shr_bad x s -> returns (bi_shr_pos c a s) (x / 2 ^ s).
Proof.
  intros Ha Hs Hl Hb. apply returns_wp. eapply wp_mono; [eapply bi_shr_pos_spec; eauto|].
  cbn beta. intros r (H & _). auto.
Qed.

Lemma shr_pos_bad c a x s :
  represents a x -> 0 < s -> (x < 0 -> Z.of_nat (length (bits_of a)) < 2 ^ 26) ->
  shr_bad x s -> returns (bi_shr_pos c a s) 0.
Proof.
  intros Ha Hs Hl Hb. apply returns_wp. eapply wp_mono; [eapply bi_shr_pos_spec; eauto|].
  cbn beta. intros r (_ & H). auto.
Qed.

Lemma not_bad_mod x s : s mod 32 <> 0 -> ~ shr_bad x s.
Proof.
  intros H (k & n & Hk & E & _). apply H. rewrite E, Z.mul_comm. apply Z.mod_mul. lia.
Qed.

Lemma shr_huge c a x p :
  represents a x -> (x < 0 -> Z.of_nat (length (bits_of a)) < 2 ^ 26) -> 2147483647 <= p -> p mod 32 <> 0 ->
  returns (r <- bi_shr_pos c a p ;; bi_shr_pos c r 1) (x / 2 ^ (p + 1)).
Proof.
  intros Ha Hl Hp Hm.
  destruct (shr_pos_returns c a x p Ha ltac:(lia) Hl (not_bad_mod _ _ Hm)) as (r & E & Hr).
  rewrite E. cbn [bind]. rewrite Z.pow_add_r, div_pow_nest by (try apply pow2_pos; lia).
  apply shr_pos_returns; [exact Hr|lia| |apply not_bad_mod; discriminate].
  intros Hneg. assert (x < 0) as Hx.
  { pose proof (pow2_pos p ltac:(lia)). destruct (Z.lt_ge_cases x 0) as [G|G]; [exact G|].
    pose proof (Z.div_pos x (2 ^ p) ltac:(lia) ltac:(lia)). lia. }
  specialize (Hl Hx). change (2 ^ 26) with 67108864 in *.
  assert (x / 2 ^ p = -1) as E1.
  { apply div_neg_one; [exact Hx|]. pose proof (length_fits a x Ha) as F. unfold fits_limbs in F.
    pose proof (Z.pow_le_mono_r 2 (32 * Z.max 1 (Z.of_nat (length (bits_of a)))) p ltac:(lia) ltac:(lia)). lia. }
  rewrite E1 in Hr. rewrite (minus_one_bits r Hr). reflexivity.
Qed.

Theorem bi_shl_spec c a x s :
  represents a x -> INT_MIN <= s <= INT_MAX -> (s < 0 -> x < 0 -> fits_limbs x (2 ^ 26 - 1)) ->
  ~ shr_bad x (- s) ->
  returns (bi_shl c a s) (shifted x s).
Proof.
  intros Ha Hs Hf Hb. unfold shifted. destruct (Z.ltb_spec s 0) as [Hn|Hn].
  2:{ apply bi_shl_exact; [exact Ha|lia]. }
  assert (x < 0 -> Z.of_nat (length (bits_of a)) < 2 ^ 26) as Hl.
  { intros Hx. pose proof (repr_length a x (2 ^ 26 - 1) Ha ltac:(discriminate) (Hf Hn Hx)). lia. }
  unfold bi_shl. destruct (Z.eqb_spec s 0); [lia|]. destruct (Z.eqb_spec s INT_MIN) as [->|].
  - change (- INT_MIN) with (INT_MAX + 1). apply shr_huge; [exact Ha|exact Hl|discriminate|discriminate].
  - destruct (Z.ltb_spec s 0); [|lia]. apply shr_pos_returns; auto. lia.
Qed.

Lemma shl_huge c a x p :
  represents a x -> 0 <= p ->
  returns (r <- bi_shl_pos c a p ;; bi_shl_pos c r 1) (x * 2 ^ (p + 1)).
Proof.
  intros Ha Hp. apply returns_wp. wstep.
  eapply wp_mono; [eapply bi_shl_pos_spec; eauto|]. intros r Hr. cbn beta in Hr.
  rewrite Z.pow_add_r, Z.mul_assoc by lia. apply bi_shl_pos_spec; [exact Hr|lia].
Qed.

Theorem bi_shr_spec c a x s :
  represents a x -> INT_MIN <= s <= INT_MAX -> (0 < s -> x < 0 -> fits_limbs x (2 ^ 26 - 1)) ->
  ~ shr_bad x s ->
  returns (bi_shr c a s) (shifted x (- s)).
Proof.
  intros Ha Hs Hf Hb. unfold shifted, bi_shr. destruct (Z.eqb_spec s 0) as [->|].
  { change (- 0 <? 0) with false. cbn beta iota.
    exists a. split; [reflexivity|]. change (2 ^ - 0) with 1. now rewrite Z.mul_1_r. }
  destruct (Z.eqb_spec s INT_MIN) as [->|].
  { change (- INT_MIN <? 0) with false. cbn beta iota. change (- INT_MIN) with (INT_MAX + 1).
    apply shl_huge; [exact Ha|discriminate]. }
  destruct (Z.ltb_spec s 0) as [Hn|Hn].
  - rewrite (proj2 (Z.ltb_ge _ _)) by lia. apply returns_wp, bi_shl_pos_spec; [exact Ha|lia].
  - rewrite (proj2 (Z.ltb_lt _ _)) by lia. rewrite Z.opp_involutive.
    apply shr_pos_returns; [exact Ha|lia| |exact Hb].
    intros Hx. pose proof (repr_length a x (2 ^ 26 - 1) Ha ltac:(discriminate) (Hf ltac:(lia) Hx)). lia.
Qed.

(** In the bad region the result is 0 instead of the (negative) floor. *)
Theorem bi_shr_wrong c a x s :
  represents a x -> s <= INT_MAX -> fits_limbs x (2 ^ 26 - 1) -> shr_bad x s ->
  returns (bi_shr c a s) 0 /\ x / 2 ^ s < 0.
Proof.
  intros Ha Hs Hf Hb. pose proof Hb as (k & n & Hk & E & F).
  assert (x < 0) as Hx.
  { pose proof (Z.pow_lt_mono_r 2 (32 * k) (32 * n)). lia. }
  split.
  - unfold bi_shr. destruct (Z.eqb_spec s 0); [lia|]. destruct (Z.eqb_spec s INT_MIN); [num; lia|].
    destruct (Z.ltb_spec s 0); [lia|]. apply (shr_pos_bad c a x s Ha ltac:(lia)); [|exact Hb].
    intros _. pose proof (repr_length a x (2 ^ 26 - 1) Ha ltac:(discriminate) Hf). lia.
  - pose proof (pow2_pos s ltac:(lia)) as P. apply Z.div_lt_upper_bound; lia.
Qed.

(** From 2^26 limbs on, the product 32 * length no longer fits an int. *)
Theorem bi_shr_wide c a x s :
  represents a x -> x < 0 -> 2 ^ 26 <= Z.of_nat (length (bits_of a)) < 2 ^ 27 -> 0 < s <= INT_MAX ->
  bi_shr c a s = if strict c then Undef SignedOverflow else Ret s_bnMinusOneInt.
Proof.
  intros Ha Hx Hl Hs. change (2 ^ 26) with 67108864 in Hl. change (2 ^ 27) with 134217728 in Hl.
  unfold bi_shr. destruct (Z.eqb_spec s 0); [lia|]. destruct (Z.eqb_spec s INT_MIN); [num; lia|].
  destruct (Z.ltb_spec s 0); [lia|]. unfold bi_shr_pos.
  destruct (wp_inv _ _ (bi_parts_spec c a x Ha)) as ((xd & neg) & -> & Hneg & _ & _ & _ & _ & Hbig).
  cbn [fst snd bind] in *. subst neg. rewrite (proj2 (Z.ltb_lt x 0)) by lia.
  assert (bits_of a <> []) as Hne by (intros E; rewrite E in Hl; cbn [length] in Hl; lia).
  rewrite (Hbig Hne). unfold chk32, kcbitUint.
  rewrite (proj2 (Z.leb_gt (32 * Z.of_nat (length (bits_of a))) INT_MAX)) by (num; lia).
  rewrite Bool.andb_false_r. destruct (strict c); [reflexivity|]. cbn [bind].
  rewrite (proj2 (Z.leb_le _ _)); [reflexivity|].
  unfold s32, u32. rewrite Z.mod_small by (num; lia). cbv zeta.
  rewrite (proj2 (Z.ltb_ge _ _)) by lia. num; lia.
Qed.

Theorem bi_shl_negative c a s : INT_MIN < s < 0 -> bi_shl c a s = bi_shr c a (- s).
Proof.
  intros Hs. unfold bi_shl, bi_shr.
  destruct (Z.eqb_spec s 0); [lia|]. destruct (Z.eqb_spec (- s) 0); [lia|].
  destruct (Z.eqb_spec s INT_MIN); [lia|]. destruct (Z.eqb_spec (- s) INT_MIN); [num; lia|].
  destruct (Z.ltb_spec s 0); [|lia]. destruct (Z.ltb_spec (- s) 0); [lia|]. reflexivity.
Qed.

Theorem bi_shl_min c a x :
  represents a x -> (x < 0 -> fits_limbs x (2 ^ 26 - 1)) ->
  returns (bi_shl c a INT_MIN) (x / 2 ^ (2 ^ 31)).
Proof.
  intros Ha Hf. change (2 ^ 31) with (INT_MAX + 1). unfold bi_shl.
  change (INT_MIN =? 0) with false. change (INT_MIN =? INT_MIN) with true. cbn beta iota.
  apply shr_huge; [exact Ha| |discriminate|discriminate].
  intros Hx. pose proof (repr_length a x (2 ^ 26 - 1) Ha ltac:(discriminate) (Hf Hx)). lia.
Qed.

Theorem bi_shr_negative c a x s :
  represents a x -> INT_MIN <= s <= 0 -> returns (bi_shr c a s) (x * 2 ^ (- s)).
Proof.
  intros Ha Hs. unfold bi_shr. destruct (Z.eqb_spec s 0) as [->|].
  { exists a. split; [reflexivity|]. change (2 ^ - 0) with 1. now rewrite Z.mul_1_r. }
  destruct (Z.eqb_spec s INT_MIN) as [->|].
  { change (- INT_MIN) with (INT_MAX + 1). apply shl_huge; [exact Ha|discriminate]. }
  destruct (Z.ltb_spec s 0) as [Hn|Hn]; [|lia].
  apply returns_wp, bi_shl_pos_spec; [exact Ha|lia].
Qed.

Theorem bi_shr_floor c a x s :
  represents a x -> 0 <= s <= INT_MAX -> (x < 0 -> fits_limbs x (2 ^ 26 - 1)) ->
  ~ shr_bad x s -> returns (bi_shr c a s) (x / 2 ^ s).
Proof.
  intros Ha Hs Hf Hb.
  assert (returns (bi_shr c a s) (shifted x (- s))) as H.
  { apply bi_shr_spec; [exact Ha|num; lia|intros _; exact Hf|exact Hb]. }
  unfold shifted in H. destruct (Z.ltb_spec (- s) 0) as [G|G].
  - now rewrite Z.opp_involutive in H.
  - assert (s = 0) by lia. subst s. change (2 ^ - 0) with 1 in H. change (2 ^ 0) with 1.
    now rewrite Z.mul_1_r in H; rewrite Z.div_1_r.
Qed.

(** A negative number of 2^26 limbs. *)
Lemma limbs_repeat1 n : limbs (repeat 1 n).
Proof. induction n; [constructor|]. constructor; [unfold limb; num; lia|assumption]. Qed.

Lemma nth_repeat_in n i : (i < n)%nat -> nth i (repeat 1 n) 0 = 1.
Proof. revert i. induction n; intros [|i] H; [lia|lia|reflexivity|]. apply IHn. lia. Qed.

Lemma wide_witness n : (2 <= n)%nat ->
  exists x, represents (Big (-1) (repeat 1 n)) x /\ x < - 2 ^ 32.
Proof.
  intros Hn. exists (- val (repeat 1 n)).
  assert (2 ^ 32 < val (repeat 1 n)) as Hv.
  { destruct n as [|[|n]]; [lia|lia|]. cbn [repeat val]. pose proof (val_bound _ (limbs_repeat1 n)).
    change (2 ^ 32) with W32. assert (0 <= W32 * val (repeat 1 n)) by (apply Z.mul_nonneg_nonneg; num; lia).
    num; lia. }
  split; [|lia]. apply repr_big.
  - now right.
  - destruct n; [lia|discriminate].
  - apply limbs_repeat1.
  - unfold top_nz. rewrite nth_repeat_in; [discriminate|]. rewrite repeat_length. lia.
  - change (2 ^ 32) with 4294967296 in Hv. lia.
  - ring.
Qed.

(** For such an operand >> is undefined (signed overflow) or returns -1. *)
Theorem bi_shr_wide_wrong :
  exists a x, represents a x /\ x < 0 /\ forall c, ~ returns (bi_shr c a 1) (x / 2 ^ 1).
Proof.
  destruct (wide_witness (Z.to_nat (2 ^ 26))) as (x & Hr & Hx).
  { apply Nat2Z.inj_le. rewrite Z2Nat.id by discriminate. discriminate. }
  exists (Big (-1) (repeat 1 (Z.to_nat (2 ^ 26)))), x. change (2 ^ 32) with 4294967296 in Hx.
  split; [exact Hr|]. split; [lia|]. intros c (r & E & R).
  rewrite (bi_shr_wide c _ x 1) in E; [|exact Hr|lia| |num; lia].
  - destruct (strict c); [discriminate|]. injection E as <-.
    pose proof (represents_fun _ _ _ R repr_minus_one) as F. change (2 ^ 1) with 2 in F.
    pose proof (Z.div_mod x 2 ltac:(lia)). pose proof (Z.mod_pos_bound x 2 ltac:(lia)). lia.
  - cbn [bits_of]. rewrite repeat_length, Z2Nat.id by discriminate. split; [discriminate|reflexivity].
Qed.
