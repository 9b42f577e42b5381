(** Proofs about operator double where long has 32 bits and over-wide shifts give
    some value. *)
From Verif Require Import Facts AddSubFacts Spec SpecFacts SpecApi BigInt BigIntFacts CompareFacts
  ShiftFacts ConvFacts WordFacts CalcDivRem DivRemFacts DivCoreFacts TextFacts SpecDouble BigIntDouble DoubleFacts SpecHelpers HelperFacts
  WinCalc WinBigInt SpecWin WinFacts.
Open Scope Z_scope.

Ltac Zify.zify_post_hook ::= idtac.

Lemma lor_below a b k : 0 <= k -> 0 <= a < 2 ^ k -> 0 <= b < 2 ^ k -> 0 <= Z.lor a b < 2 ^ k.
Proof.
  intros Hk Ha Hb. split; [apply Z.lor_nonneg; lia|].
  destruct (Z.eq_dec (Z.lor a b) 0) as [->|N]; [apply Z.pow_pos_nonneg; lia|].
  apply Z.log2_lt_pow2. { assert (0 <= Z.lor a b) by (apply Z.lor_nonneg; lia). lia. }
  rewrite Z.log2_lor by lia. apply Z.max_lub_lt.
  - destruct (Z.eq_dec a 0) as [->|]; [|apply Z.log2_lt_pow2; lia].
    destruct (Z.eq_dec k 0) as [->|]; [|cbn; lia]. change (2 ^ 0) with 1 in *. contradiction N. assert (b = 0) as -> by lia. reflexivity.
  - destruct (Z.eq_dec b 0) as [->|]; [|apply Z.log2_lt_pow2; lia].
    destruct (Z.eq_dec k 0) as [->|]; [|cbn; lia]. change (2 ^ 0) with 1 in *. contradiction N. assert (a = 0) as -> by lia. reflexivity.
Qed.

Lemma ulong_shl_some f x k : exists y, ulong_shl (Some f) x k = Ret y /\ 0 <= y < 2 ^ 32.
Proof. unfold ulong_shl. destruct ((0 <=? k) && (k <? 32)); eexists; (split; [reflexivity|]); apply u32_range. Qed.

Lemma ulong_shr_some f x k : 0 <= x < 2 ^ 32 -> exists y, ulong_shr (Some f) x k = Ret y /\ 0 <= y < 2 ^ 32.
Proof.
  intros H. unfold ulong_shr. destruct (Z.leb_spec 0 k), (Z.ltb_spec k 32); cbn [andb];
    eexists; (split; [reflexivity|]); try apply u32_range.
  rewrite Z.shiftr_div_pow2 by lia. pose proof (Z.pow_pos_nonneg 2 k ltac:(lia) ltac:(lia)).
  split; [apply Z.div_pos; lia|]. apply Z.div_lt_upper_bound; [lia|]. apply Z.lt_le_trans with (1 * 2 ^ 32); [lia|].
  apply Z.mul_le_mono_nonneg_r; lia.
Qed.

(** A significand of 32 bits instead of 64. *)
Lemma short_significand d neg man e x : 0 <= man < 2 ^ 32 -> -63 <= e <= 960 -> 2 ^ (e + 63) <= x ->
  rounded_down d neg man e -> dbl_pattern d /\ dbl_finite d /\ Z.abs (dbl_trunc d) * 2 ^ 31 < x.
Proof.
  intros Hm He Hx R. pose proof (Z.pow_pos_nonneg 2 (e + 63) ltac:(lia) ltac:(lia)) as PX.
  unfold rounded_down in R. destruct (Z.eqb_spec man 0) as [E|N].
  { rewrite R. destruct neg.
    - split; [split; vm_compute; [discriminate|reflexivity]|]. split; [vm_compute; discriminate|].
      change (Z.abs (dbl_trunc (2 ^ 63)) * 2 ^ 31) with 0. lia.
    - split; [split; vm_compute; [discriminate|reflexivity]|]. split; [vm_compute; discriminate|].
      change (Z.abs (dbl_trunc 0) * 2 ^ 31) with 0. lia. }
  cbv zeta in R. set (t := Z.log2 man) in *.
  assert (0 <= t < 32) as T by (split; [apply Z.log2_nonneg|apply Z.log2_lt_pow2; lia]).
  rewrite (proj2 (Z.leb_gt _ _)) in R by lia. destruct R as (R1 & R2 & R3 & R4 & R5).
  split; [exact R1|]. split; [exact R2|]. clearbody t.
  rewrite Z.max_r in R4 by lia. rewrite R4 in R5. replace (e - (t + e - 52)) with (52 - t) in R5 by ring.
  unfold scaled in R5. rewrite (proj2 (Z.leb_le _ _)) in R5 by lia.
  unfold dbl_trunc. rewrite R4, R5.
  assert (Z.abs (dbl_signed d (if 0 <=? t + e - 52 then man * 2 ^ (52 - t) * 2 ^ (t + e - 52) else man * 2 ^ (52 - t) / 2 ^ (- (t + e - 52))))
    = if 0 <=? t + e - 52 then man * 2 ^ (52 - t) * 2 ^ (t + e - 52) else man * 2 ^ (52 - t) / 2 ^ (- (t + e - 52))) as ->.
  { unfold dbl_signed. assert (0 <= man * 2 ^ (52 - t)) by (apply Z.mul_nonneg_nonneg; [lia|apply Z.pow_nonneg; lia]).
    destruct (0 <=? t + e - 52) eqn:G.
    - assert (0 <= man * 2 ^ (52 - t) * 2 ^ (t + e - 52)) by (apply Z.mul_nonneg_nonneg; [lia|apply Z.pow_nonneg; lia]).
      destruct (dbl_negative d); lia.
    - assert (0 <= man * 2 ^ (52 - t) / 2 ^ (- (t + e - 52))).
      { apply Z.div_pos; [lia|]. apply Z.leb_gt in G. apply Z.pow_pos_nonneg; lia. }
      destruct (dbl_negative d); lia. }
  destruct (Z.leb_spec 0 (t + e - 52)) as [G|G].
  - rewrite <- !Z.mul_assoc, <- !Z.pow_add_r by lia.
    apply Z.lt_le_trans with (2 ^ (e + 63)); [|exact Hx]. replace (e + 63) with (32 + (e + 31)) by ring.
    replace (52 - t + (t + e - 52 + 31)) with (e + 31) by ring. rewrite (Z.pow_add_r 2 32) by lia.
    apply Z.mul_lt_mono_pos_r; [apply Z.pow_pos_nonneg; lia|lia].
  - set (q := 2 ^ (- (t + e - 52))). assert (0 < q) as Q by (apply Z.pow_pos_nonneg; lia).
    pose proof (Z.mul_div_le (man * 2 ^ (52 - t)) q Q) as D. set (v := man * 2 ^ (52 - t) / q) in *. clearbody v.
    apply Z.lt_le_trans with (2 ^ (e + 63)); [|exact Hx].
    apply (Z.mul_lt_mono_pos_l q); [exact Q|].
    replace (q * (v * 2 ^ 31)) with (q * v * 2 ^ 31) by ring.
    apply Z.le_lt_trans with (man * 2 ^ (52 - t) * 2 ^ 31); [apply Z.mul_le_mono_nonneg_r; lia|].
    unfold q. rewrite <- Z.pow_add_r by lia. replace (- (t + e - 52) + (e + 63)) with (32 + ((52 - t) + 31)) by ring.
    rewrite <- Z.mul_assoc, <- Z.pow_add_r by lia. rewrite (Z.pow_add_r 2 32) by lia.
    apply Z.mul_lt_mono_pos_r; [apply Z.pow_pos_nonneg; lia|lia].
Qed.

Lemma bi_to_double_w_any f c a x :
  represents a x -> 2 ^ 31 <= Z.abs x < 2 ^ 1024 ->
  exists d, bi_to_double_w (Some f) c a = Ret d /\ dbl_pattern d /\ dbl_finite d /\ Z.abs (dbl_trunc d) * 2 ^ 31 < Z.abs x.
Proof.
  intros Ha Hx. apply repr_parts in Ha. 
  pose proof (parts_abs _ _ _ Ha) as Va. destruct a as [s l]. unfold bi_to_double_w. cbn [sign_of bits_of] in *.
  inv_parts Ha. { exfalso. change (2 ^ 31) with 2147483648 in Hx. num. lia. }
  rewrite is_nil_ne by assumption. cbv zeta.
  specialize (Va ltac:(assumption)). rewrite <- Va in Hx.
  assert (2 ^ 1024 = Bp 32) as E24 by (rewrite ConvFacts.Bp_pow2; reflexivity). rewrite E24 in Hx. clear E24.
  pose proof (top_nz_bound l ltac:(assumption) ltac:(assumption) ltac:(assumption)) as T.
  pose proof (nonempty_length l ltac:(assumption)) as N.
  destruct (Nat.ltb_spec 32 (List.length l)) as [G|G].
  { exfalso. pose proof (Bp_le 32 (List.length l - 1) ltac:(lia)). lia. }
  pose proof (top64 l ltac:(assumption) ltac:(assumption) ltac:(assumption)) as TT. cbv zeta in TT.
  destruct TT as (Z1 & _ & TL & _).
  rewrite rd_ok by lia. cbn [bind].
  assert (limb (nth (List.length l - 1) l 0)) as Lh by (apply limbs_nth; assumption).
  assert (exists m, (if Nat.ltb 1 (List.length l) then rd l (List.length l - 2) else Ret 0) = Ret m /\ limb m) as (m & -> & Lm).
  { destruct (Nat.ltb_spec 1 (List.length l)).
    - rewrite rd_ok by lia. eexists. split; [reflexivity|]. apply limbs_nth; assumption.
    - exists 0. split; [reflexivity|]. unfold limb; num; lia. }
  cbn [bind].
  assert (exists m, (if Nat.ltb 2 (List.length l) then rd l (List.length l - 3) else Ret 0) = Ret m /\ limb m) as (lo & -> & Ll).
  { destruct (Nat.ltb_spec 2 (List.length l)).
    - rewrite rd_ok by lia. eexists. split; [reflexivity|]. apply limbs_nth; assumption.
    - exists 0. split; [reflexivity|]. unfold limb; num; lia. }
  cbn [bind]. rewrite cbit32_eq. rewrite u32_small by exact Lh.
  set (z := leading_zeros (nth (List.length l - 1) l 0)) in *.
  destruct (ulong_shl_some f (nth (List.length l - 1) l 0) (32 + z)) as (x1 & -> & B1). cbn [bind].
  destruct (ulong_shl_some f m z) as (x2 & -> & B2). cbn [bind].
  destruct (ulong_shr_some f lo (32 - z) Ll) as (x3 & -> & B3). cbn [bind].
  set (man := Z.lor (Z.lor x1 x2) x3).
  assert (0 <= man < 2 ^ 32) as BM by (unfold man; repeat apply lor_below; lia).
  set (e := (Z.of_nat (List.length l) - 2) * 32 - z) in *.
  destruct (from_parts_general s e man) as (d & -> & R).
  { change (2 ^ 64) with (2 ^ 32 * 2 ^ 32). change (2 ^ 32) with 4294967296 in *. lia. }
  exists d. split; [reflexivity|]. rewrite <- Va.
  apply (short_significand d (s <? 0) man e (val l)); auto.
  - unfold e. lia.
  - rewrite <- TL. apply Z.log2_spec. change (2 ^ 31) with 2147483648 in Hx. lia.
Qed.
