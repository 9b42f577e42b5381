(** Proofs about division with lengths kept in [int]. *)
From Verif Require Import Machine Facts Spec AddSubFacts SquMulFacts DivRemFacts DivCoreFacts SpecFacts BigIntFacts
  CompareFacts ConvFacts SpecApi SpecGcd ShiftFacts WordFacts BigInt CalcDivRem BarrettFacts RunExact LeakyModPow SpecActual ActualFacts
  IntSizes SpecSizes IntSizesFacts IntLimbs SpecLimbs IntLimbsFacts IntConvFacts BytesFacts IntAdd SpecIntAdd IntAddFacts
  IntAddLaws IntDiv SpecIntDiv.
Ltac Zify.zify_post_hook ::= idtac.

(** ** A divisor of one limb *)
Lemma rounds_le (l : list Z) : l <> [] -> (rounds_i l <= length l)%nat.
Proof.
  intros N. unfold rounds_i. rewrite <- int_of_s32. pose proof (int_of_le (Z.of_nat (length l) - 1)) as H.
  destruct l; [congruence|]. cbn [length] in *. lia.
Qed.

Lemma nth_low (l : list Z) k i : (i < k)%nat -> nth i (firstn k l) 0 = nth i l 0.
Proof.
  revert k i. induction l as [|a l IH]; intros [|k] [|i] H; cbn [firstn nth]; try reflexivity; try lia. apply IH. lia.
Qed.

Lemma calc_divrem_u_i_spec c lhs rhs :
  lhs <> [] -> limbs lhs -> limb rhs -> rhs <> 0 ->
  wp (calc_divrem_u_i c lhs rhs) (fun qr =>
    let '(q, r) := qr in
    length q = length lhs /\ limbs q /\ 0 <= r < rhs /\ vl lhs (rounds_i lhs) = val q * rhs + r).
Proof.
  intros Hne Hl Hr Hr0. pose proof (rounds_le lhs Hne) as Hk. unfold calc_divrem_u_i.
  set (k := rounds_i lhs) in *. set (w := firstn k lhs).
  assert (length w = k) as Hw by (unfold w; rewrite firstn_length_le; auto).
  assert (limbs w) as Hlw by (apply limbs_firstn, Hl).
  wstep. wstep; [now rewrite is_nil_false|]. wstep.
  eapply wp_for_down with (I := fun i st =>
    let '(q, carry) := st in
    length q = length lhs /\ limbs q /\ 0 <= carry < rhs /\
    val (skipn i w) = val (skipn i q) * rhs + carry).
  - repeat split; try (num; lia); auto using limbs_zeros, length_zeros.
    rewrite skipn_all2 by lia. rewrite skipn_zeros, val_zeros. cbn [val]. lia.
  - intros i [q carry] Hi (Hq & Hlq & Hc & Hv).
    pose proof (limbs_nth _ i Hl) as H0.
    wstep. wstep; [lia|]. cbv zeta.
    rewrite lor_carry by (auto; num; lia).
    destruct (Z.eqb_spec rhs 0); [lia|].
    destruct (div_step_arith carry (nth i lhs 0) rhs) as (A1 & A2 & A3 & A4); auto.
    unfold udiv. destruct (Z.eqb_spec rhs 0); [lia|].
    repeat wstep; [lia|]. rewrite A4, u32_small by assumption.
    repeat split; try lia.
    + now rewrite length_upd.
    + apply limbs_upd; auto.
    + rewrite skipn_upd_at, skipn_nth by lia. cbn [val]. rewrite Hv. unfold w. rewrite nth_low by lia. lia.
  - intros [q carry] (Hq & Hlq & Hc & Hv). wstep. cbn [skipn] in Hv.
    rewrite u32_small by (num; lia). auto.
Qed.

Lemma calc_div_u_i_eq c lhs rhs :
  calc_div_u_i c lhs rhs = bind (calc_divrem_u_i c lhs rhs) (fun qr => Ret (fst qr)).
Proof.
  unfold calc_div_u_i, calc_divrem_u_i. destruct (massert c _); cbn [bind]; auto.
  match goal with |- bind ?m _ = _ => destruct m as [[? ?]| | | |] end; reflexivity.
Qed.

Lemma calc_div_u_i_spec c lhs rhs :
  lhs <> [] -> limbs lhs -> limb rhs -> rhs <> 0 ->
  wp (calc_div_u_i c lhs rhs) (fun q =>
    length q = length lhs /\ limbs q /\ val q = vl lhs (rounds_i lhs) / rhs).
Proof.
  intros. rewrite calc_div_u_i_eq. wstep.
  eapply wp_mono; [apply calc_divrem_u_i_spec; auto|].
  intros [q r] (A & B & C & D). wstep. repeat split; auto.
  apply Z.div_unique with r; [lia|]. cbn [fst]. lia.
Qed.

Lemma calc_rem_u_i_spec c lhs rhs :
  lhs <> [] -> limbs lhs -> limb rhs -> rhs <> 0 ->
  wp (calc_rem_u_i c lhs rhs) (fun r => r = vl lhs (rounds_i lhs) mod rhs).
Proof.
  intros Hne Hl Hr Hr0. pose proof (rounds_le lhs Hne) as Hk. unfold calc_rem_u_i.
  set (k := rounds_i lhs) in *. unfold vl. set (w := firstn k lhs).
  assert (length w = k) as Hw by (unfold w; rewrite firstn_length_le; auto).
  wstep. wstep; [now rewrite is_nil_false|]. wstep.
  eapply wp_for_down with (I := fun i carry =>
    0 <= carry < rhs /\ exists m, val (skipn i w) = m * rhs + carry).
  - split; [num; lia|]. exists 0. rewrite skipn_all2 by lia. cbn [val]. lia.
  - intros i carry Hi (Hc & m & Hv).
    pose proof (limbs_nth _ i Hl) as H0.
    wstep. wstep; [lia|]. cbv zeta.
    rewrite lor_carry by (auto; num; lia).
    destruct (Z.eqb_spec rhs 0); [lia|].
    destruct (div_step_arith carry (nth i lhs 0) rhs) as (A1 & A2 & A3 & A4); auto.
    unfold umod. destruct (Z.eqb_spec rhs 0); [lia|].
    repeat wstep. split; [assumption|].
    exists (W32 * m + (carry * W32 + nth i lhs 0) / rhs).
    rewrite skipn_nth by lia. cbn [val]. rewrite Hv. unfold w. rewrite nth_low by lia. lia.
  - intros carry (Hc & m & Hv). wstep. cbn [skipn] in Hv.
    rewrite u32_small by (num; lia).
    apply Z.mod_unique with m; lia.
Qed.

(** A zero divisor is found in the first round; without rounds the array of zeros is the quotient. *)
Lemma calc_divrem_u_i_zero c lhs : lhs <> [] ->
  calc_divrem_u_i c lhs 0 = if Nat.ltb 0 (rounds_i lhs) then Throw DivideByZero else Ret (zeros (length lhs), 0).
Proof.
  intros Hne. pose proof (rounds_le lhs Hne) as Hk. unfold calc_divrem_u_i, massert. rewrite is_nil_false by assumption.
  destruct (Nat.ltb_spec 0 (rounds_i lhs)) as [P|P].
  - rewrite for_down_throw with (e := DivideByZero).
    + now destruct (dbg c).
    + exact P.
    + intros i [q k] Hi. unfold rd. rewrite (nth_error_nth' _ 0) by lia. reflexivity.
  - replace (rounds_i lhs) with O by lia. now destruct (dbg c).
Qed.

Lemma calc_rem_u_i_zero c lhs : lhs <> [] ->
  calc_rem_u_i c lhs 0 = if Nat.ltb 0 (rounds_i lhs) then Throw DivideByZero else Ret 0.
Proof.
  intros Hne. pose proof (rounds_le lhs Hne) as Hk. unfold calc_rem_u_i, massert. rewrite is_nil_false by assumption.
  destruct (Nat.ltb_spec 0 (rounds_i lhs)) as [P|P].
  - rewrite for_down_throw with (e := DivideByZero).
    + now destruct (dbg c).
    + exact P.
    + intros i k Hi. unfold rd. rewrite (nth_error_nth' _ 0) by lia. reflexivity.
  - replace (rounds_i lhs) with O by lia. now destruct (dbg c).
Qed.

(** ** A divisor in an array *)
Lemma scale_zero c rhs r : 1 <= r <= Z.of_nat (length rhs) -> r < 2147483648 -> nth (Z.to_nat (r - 1)) rhs 0 = 0 ->
  div_scale_i c rhs r = Undef ShiftRange.
Proof.
  intros H1 H2 H3. unfold div_scale_i. rewrite chk32_ok by (unfold INT_MIN, INT_MAX; lia). cbn [bind].
  rewrite rdz_nth by lia. rewrite H3. cbn [bind].
  destruct (Z.ltb_spec 1 r); [rewrite rdz_nth by lia|]; cbn [bind]; change (leading_zeros 0) with 32; cbv zeta;
    change (0 <? 32) with true; cbv iota; (destruct (Z.ltb_spec 2 r); [rewrite rdz_nth by lia|]); reflexivity.
Qed.

Lemma scale_ok c rhs r : limbs rhs -> 1 <= r <= Z.of_nat (length rhs) -> r < 2147483648 -> nth (Z.to_nat (r - 1)) rhs 0 <> 0 ->
  div_scale_i c rhs r = Ret tt.
Proof.
  intros Hl H1 H2 H3. unfold div_scale_i. rewrite chk32_ok by (unfold INT_MIN, INT_MAX; lia). cbn [bind].
  rewrite rdz_nth by lia. cbn [bind]. pose proof (limbs_nth _ (Z.to_nat (r - 1)) Hl) as Hh.
  set (h := nth (Z.to_nat (r - 1)) rhs 0) in *. destruct (leading_zeros_spec h) as (Z1 & _); [unfold limb in Hh; num; lia|].
  set (s := leading_zeros h) in *. clearbody s. cbv zeta.
  destruct (Z.ltb_spec 1 r); [rewrite rdz_nth by lia|]; cbn [bind]; (destruct (Z.ltb_spec 0 s); [|reflexivity]);
    (destruct (Z.ltb_spec 2 r); [rewrite rdz_nth by lia|]); cbn [bind]; unfold shl32, shr32;
    rewrite !(proj2 (Z.leb_le _ _)), !(proj2 (Z.ltb_lt _ _)) by lia; reflexivity.
Qed.

Lemma top_value l r : limbs l -> 1 <= r -> (vl l (Z.to_nat r) <? 2 ^ (32 * (r - 1))) = (nth (Z.to_nat (r - 1)) l 0 =? 0).
Proof.
  intros Hl H. replace (Z.to_nat r) with (S (Z.to_nat (r - 1))) by lia. rewrite vl_S.
  pose proof (vl_bound l (Z.to_nat (r - 1)) Hl) as B. pose proof (limbs_nth _ (Z.to_nat (r - 1)) Hl) as N. unfold limb in N.
  replace (2 ^ (32 * (r - 1))) with (Bp (Z.to_nat (r - 1))) by (rewrite Bp_pow2; f_equal; lia).
  set (h := nth (Z.to_nat (r - 1)) l 0) in *. set (P := Bp (Z.to_nat (r - 1))) in *. set (v := vl l (Z.to_nat (r - 1))) in *. clearbody h P v.
  destruct (Z.eqb_spec h 0) as [->|E]; [apply Z.ltb_lt; lia|apply Z.ltb_ge; nia].
Qed.

Lemma slice_low (l : list Z) n : (n <= length l)%nat -> slice l 0 n = Ret (firstn n l).
Proof. intros H. unfold slice. now rewrite (proj2 (Nat.leb_le _ _)) by lia. Qed.

Lemma massert_or {A} c b (k : outcome A) : (massert c b ;;; k) = if dbg c && negb b then AssertFail else k.
Proof. unfold massert. destruct (dbg c), b; reflexivity. Qed.

(** The quotient has as many limbs as the sizes, as ints, say, if it has any. *)
Lemma room_quot L R : 0 <= R <= L -> 1 <= s32 R <= s32 L ->
  s32 (L - R + 1) = s32 L - s32 R + 1 /\ s32 L - s32 R + 1 <= L - R + 1.
Proof.
  intros H1 H2. pose proof (s32_range L) as BL. pose proof (s32_range R) as BR. unfold INT_MIN, INT_MAX in *.
  assert (s32 (L - R + 1) = s32 L - s32 R + 1) as E.
  { rewrite <- (s32_small (s32 L - s32 R + 1)) by (unfold INT_MIN, INT_MAX; lia).
    rewrite <- !int_of_s32. unfold int_of. rewrite <- !int_of_s32 in *. unfold int_of in *.
    change (2 ^ 31) with 2147483648 in *. change (2 ^ 32) with 4294967296 in *.
    pose proof (Z.div_mod (L + 2147483648) 4294967296 ltac:(lia)) as D1. pose proof (Z.div_mod (R + 2147483648) 4294967296 ltac:(lia)) as D2.
    set (a := (L + 2147483648) mod 4294967296) in *. set (b := (R + 2147483648) mod 4294967296) in *.
    replace (L - R + 1 + 2147483648) with (a - b + 1 + 2147483648 + ((L + 2147483648) / 4294967296 - (R + 2147483648) / 4294967296) * 4294967296) by lia.
    rewrite Z.mod_add by lia. f_equal. f_equal. lia. }
  split; [exact E|]. rewrite <- E. rewrite <- int_of_s32. apply int_of_le. lia.
Qed.

Definition long_case {A : Type} (c : cfg) (lhs rhs : list Z) (o : outcome A) (P : Prop) : Prop :=
  let l := s32 (Z.of_nat (length lhs)) in
  let r := s32 (Z.of_nat (length rhs)) in
  if dbg c && ((l <? 1) || (r <? 1) || (l <? r)) then o = AssertFail
  else if r =? -2147483648 then
    o = Undef (if strict c then SignedOverflow
               else if vl rhs (Z.to_nat (- r)) <? 2 ^ (32 * (- r - 1)) then ShiftRange else OutOfBounds)
  else if r <? 1 then o = Undef OutOfBounds
  else if vl rhs (Z.to_nat r) <? 2 ^ (32 * (r - 1)) then o = Undef ShiftRange
  else P.

(** *** A size of INT_MIN *)
Lemma s32_min (n : nat) : s32 (Z.of_nat n) = -2147483648 -> 2147483648 <= Z.of_nat n.
Proof.
  intros E. rewrite <- int_of_s32 in E. unfold int_of in E. change (2 ^ 31) with 2147483648 in E. change (2 ^ 32) with 4294967296 in E.
  destruct (Z.lt_ge_cases (Z.of_nat n) 2147483648) as [L|L]; [|exact L]. rewrite Z.mod_small in E by lia. lia.
Qed.

Lemma lor_below a b k : 0 <= k -> 0 <= a < 2 ^ k -> 0 <= b < 2 ^ k -> 0 <= Z.lor a b < 2 ^ k.
Proof.
  intros K A B. split; [apply Z.lor_nonneg; lia|].
  destruct (Z.eq_dec a 0) as [->|A0]; [rewrite Z.lor_0_l; lia|]. destruct (Z.eq_dec b 0) as [->|B0]; [rewrite Z.lor_0_r; lia|].
  assert (0 < Z.lor a b) as P.
  { assert (Z.lor a b <> 0) by (rewrite Z.lor_eq_0_iff; lia). pose proof (proj2 (Z.lor_nonneg a b)). lia. }
  apply Z.log2_lt_pow2; [exact P|]. rewrite Z.log2_lor by lia. apply Z.max_lub_lt; apply Z.log2_lt_pow2; lia.
Qed.

Lemma guess_first_kept c q vh vlo d : dbg c = false -> 0 <= q -> 0 <= d -> d * q <= vh -> 0 <= vh < 2 ^ 64 -> 0 <= vlo ->
  guess_loop guess_fuel c q vh vlo d 0 = Ret q.
Proof.
  intros D Hq Hd H V V0. unfold guess_fuel. cbn [guess_loop]. unfold divide_guess_too_big, massert. rewrite D. cbn [bind]. cbv zeta.
  rewrite Z.mul_0_l. change (u64 0) with 0. change (Z.shiftr 0 32) with 0. change (Z.land 0 4294967295) with 0. rewrite Z.add_0_r.
  assert (0 <= d * q) by nia. unfold u64. change (2 ^ 64) with W64 in V. rewrite !(Z.mod_small (d * q)) by (rewrite ?Z.mod_small; lia).
  destruct (Z.ltb_spec (d * q) vh); [reflexivity|]. rewrite (proj2 (Z.ltb_ge vh (d * q))) by lia.
  destruct (0 <? vlo); [reflexivity|]. now rewrite (proj2 (Z.ltb_ge vlo 0)) by lia.
Qed.

Lemma round_min c L s d bl i lhs bits : dbg c = false -> strict c = false -> limbs lhs -> 0 <= s < 32 -> 0 < d ->
  L <= Z.of_nat (length lhs) ->
  1 <= i <= 2147483647 /\ i <= Z.of_nat (length lhs) \/ i = -2147483648 /\ L = -2147483648 /\ 2147483648 <= Z.of_nat (length lhs) ->
  let o := div_round_min_i c L s d bl i lhs bits in
  o = Undef OutOfBounds \/ exists lhs' bits', o = Ret (lhs', bits') /\ limbs lhs' /\ length lhs' = length lhs.
Proof.
  intros D St Hl Hs Hd HL Hi o. unfold o, div_round_min_i. cbv zeta.
  assert (forall x, exists n, chk32 c x = Ret n) as CK.
  { intros x. unfold chk32. rewrite St. destruct (_ && _); eauto. }
  destruct (CK (i - INT_MIN)) as (n & ->). cbn [bind].
  assert (exists t, (if i <? L then rdz lhs i else Ret 0) = Ret t /\ limb t) as (t & -> & Ht).
  { destruct (Z.ltb_spec i L); [|exists 0; split; [reflexivity|unfold limb; num; lia]].
    destruct Hi as [Hi|Hi]; [|lia]. rewrite rdz_nth by lia. eexists. split; [reflexivity|now apply limbs_nth]. }
  cbn [bind].
  assert (exists j, chk32 c (i - 1) = Ret j /\ 0 <= j < Z.of_nat (length lhs)) as (j & -> & Hj).
  { destruct Hi as [Hi|(-> & _ & Hi)].
    - exists (i - 1). split; [apply chk32_ok; unfold INT_MIN, INT_MAX; lia|lia].
    - exists 2147483647. split; [|lia]. unfold chk32. rewrite St. reflexivity. }
  cbn [bind]. rewrite rdz_nth by lia. cbn [bind]. pose proof (limbs_nth _ (Z.to_nat j) Hl) as Hv1. set (v1 := nth (Z.to_nat j) lhs 0) in *. clearbody v1.
  assert (exists w, (if 1 <? i then rdz lhs (i - 2) else Ret 0) = Ret w /\ limb w) as (w & -> & Hw).
  { destruct (Z.ltb_spec 1 i); [|exists 0; split; [reflexivity|unfold limb; num; lia]].
    rewrite rdz_nth by lia. eexists. split; [reflexivity|now apply limbs_nth]. }
  assert (exists x, (if 2 <? i then rdz lhs (i - 3) else Ret 0) = Ret x /\ limb x) as (x & -> & Hx).
  { destruct (Z.ltb_spec 2 i); [|exists 0; split; [reflexivity|unfold limb; num; lia]].
    rewrite rdz_nth by lia. eexists. split; [reflexivity|now apply limbs_nth]. }
  cbn [bind]. unfold limb in *. num.
  assert (forall z, 0 <= u64 z < 2 ^ 64) as U by (intros z; apply Z.mod_pos_bound; reflexivity).
  assert (0 <= Z.lor (u64 (Z.shiftl t 32)) v1 < 2 ^ 64) as V.
  { apply lor_below; [lia|apply U|]. change (2 ^ 64) with 18446744073709551616. lia. }
  set (vh := Z.lor (u64 (Z.shiftl t 32)) v1) in *. clearbody vh.
  assert (forall a k, 0 <= a < 4294967296 -> 0 <= Z.shiftr a k -> 0 <= k -> Z.shiftr a k < 4294967296) as SR.
  { intros a k A _ K. rewrite Z.shiftr_div_pow2 by lia. pose proof (Z.pow_pos_nonneg 2 k ltac:(lia) K). apply Z.div_lt_upper_bound; nia. }
  assert (exists vh' vl', (if 0 <? s then
       h1 <- shl64 vh s ;; h2 <- shr32 w (32 - s) ;; l1 <- shl32 w s ;; l2 <- shr32 x (32 - s) ;; Ret (Z.lor h1 h2, Z.lor l1 l2)
     else Ret (vh, w)) = Ret (vh', vl') /\ 0 <= vh' < 2 ^ 64 /\ 0 <= vl') as (vh' & vl' & -> & V1 & V2).
  { destruct (Z.ltb_spec 0 s) as [P|P]; [|exists vh, w; repeat split; lia].
    unfold shl64, shl32, shr32. rewrite !(proj2 (Z.leb_le _ _)), !(proj2 (Z.ltb_lt _ _)) by lia. cbn [andb bind].
    assert (0 <= Z.shiftr w (32 - s)) as W0 by (apply Z.shiftr_nonneg; lia).
    assert (0 <= Z.shiftr x (32 - s)) as X0 by (apply Z.shiftr_nonneg; lia).
    eexists _, _. split; [reflexivity|]. split.
    - apply lor_below; [lia|apply U|]. pose proof (SR w (32 - s) ltac:(lia) W0 ltac:(lia)). change (2 ^ 64) with 18446744073709551616. lia.
    - apply Z.lor_nonneg. split; [|exact X0]. unfold u32. apply Z.mod_pos_bound. reflexivity. }
  cbn [bind]. rewrite (proj2 (Z.eqb_neq d 0)) by lia. unfold udiv. rewrite (proj2 (Z.eqb_neq d 0)) by lia. cbn [bind].
  set (q := if UINT_MAX <? vh' / d then UINT_MAX else vh' / d).
  assert (0 <= q /\ d * q <= vh') as (Q1 & Q2).
  { pose proof (Z.mul_div_le vh' d ltac:(lia)). pose proof (Z.div_pos vh' d ltac:(lia) ltac:(lia)). unfold q, UINT_MAX.
    destruct (Z.ltb_spec 4294967295 (vh' / d)); split; nia. }
  rewrite guess_first_kept by (auto; lia). cbn [bind].
  assert (forall g, exists lhs' bits', (wrz bits n g = Undef OutOfBounds \/ wrz bits n g = Ret bits') /\
    (if i <? L then wrz lhs i 0 else Ret lhs) = Ret lhs' /\ limbs lhs' /\ length lhs' = length lhs) as Wr.
  { intros g. assert (exists b', wrz bits n g = Undef OutOfBounds \/ wrz bits n g = Ret b') as (b' & B).
    { unfold wrz, wr. destruct (n <? 0); [exists bits; now left|]. destruct (Nat.ltb _ _); [eauto|exists bits; now left]. }
    destruct (Z.ltb_spec i L) as [C|C]; [|exists lhs, b'; auto].
    destruct Hi as [Hi|Hi]; [|lia].
    exists (upd lhs (Z.to_nat i) 0), b'. split; [exact B|]. split.
    { unfold wrz, wr. rewrite (proj2 (Z.ltb_ge i 0)) by lia. now rewrite (proj2 (Nat.ltb_lt (Z.to_nat i) (length lhs))) by lia. } split; [apply limbs_upd; [exact Hl|unfold limb; num; lia]|apply length_upd]. }
  assert (forall g, (bits <- (if bl =? 0 then Ret bits else wrz bits n (u32 g)) ;;
      lhs <- (if i <? L then wrz lhs i 0 else Ret lhs) ;; Ret (lhs, bits)) = Undef OutOfBounds \/
    exists lhs' bits', (bits <- (if bl =? 0 then Ret bits else wrz bits n (u32 g)) ;;
      lhs <- (if i <? L then wrz lhs i 0 else Ret lhs) ;; Ret (lhs, bits)) = Ret (lhs', bits') /\ limbs lhs' /\ length lhs' = length lhs) as En.
  { intros g. destruct (Wr (u32 g)) as (l' & b' & B & -> & L1 & L2). destruct (bl =? 0); [right; exists l', bits; auto|].
    destruct B as [->| ->]; [now left|right; exists l', b'; auto]. }
  destruct (0 <? q); [|cbn [bind]; apply En]. destruct (_ || _); [now left|]. cbn [bind]. apply En.
Qed.

Lemma round_min_ends c L s d bl i lhs bits : strict c = false -> -2147483648 < i <= 0 -> L <= i \/ i = 0 ->
  div_round_min_i c L s d bl i lhs bits = Undef OutOfBounds.
Proof.
  intros St Hi HL. unfold div_round_min_i. cbv zeta. unfold chk32 at 1. rewrite St.
  assert (forall A (k : Z -> outcome A), (j <- chk32 c (i - 1) ;; v1 <- rdz lhs j ;; k v1) = Undef OutOfBounds) as E'.
  { intros A k. rewrite chk32_ok by (unfold INT_MIN, INT_MAX; lia). cbn [bind]. now rewrite rdz_neg by lia. }
  assert ((if i <? L then rdz lhs i else Ret 0) = Undef OutOfBounds \/ exists t, (if i <? L then rdz lhs i else Ret 0) = Ret t) as [T|(t & T)].
  { destruct (i <? L); [|eauto]. unfold rdz, rd. destruct (i <? 0); [now left|]. destruct (nth_error _ _); [eauto|now left]. }
  all: destruct ((INT_MIN <=? i - INT_MIN) && (i - INT_MIN <=? INT_MAX)); cbn [bind]; rewrite T; cbn [bind]; auto.
Qed.

Lemma loop_min_down c L s d bl : dbg c = false -> strict c = false -> 0 <= s < 32 -> 0 < d -> forall fuel i lhs bits, limbs lhs ->
  L <= Z.of_nat (length lhs) -> 0 <= i <= 2147483647 -> i <= Z.of_nat (length lhs) -> (Z.to_nat i < fuel)%nat ->
  div_loop_min_i fuel c L s d bl i lhs bits = Undef OutOfBounds.
Proof.
  intros D St Hs Hd. induction fuel as [|f IH]; intros i lhs bits Hl HL Hi Hi' Hf; [lia|]. cbn [div_loop_min_i].
  destruct (Z.eq_dec i 0) as [->|I0]; [now rewrite round_min_ends by (auto; lia)|].
  destruct (round_min c L s d bl i lhs bits D St Hl Hs Hd HL ltac:(left; lia)) as [->|(l' & b' & -> & L1 & L2)]; [reflexivity|].
  cbn [bind]. rewrite chk32_ok by (unfold INT_MIN, INT_MAX; lia). cbn [bind]. apply IH; auto; try lia.
Qed.

Lemma loop_min c s d bl lhs bits : dbg c = false -> strict c = false -> 0 <= s < 32 -> 0 < d -> limbs lhs -> 2147483648 <= Z.of_nat (length lhs) ->
  let l := s32 (Z.of_nat (length lhs)) in
  div_loop_min_i (S (S (length lhs))) c l s d bl l lhs bits = Undef OutOfBounds.
Proof.
  intros D St Hs Hd Hl H l. pose proof (s32_range (Z.of_nat (length lhs))) as B. unfold INT_MIN, INT_MAX in B. fold l in B.
  pose proof (int_of_le (Z.of_nat (length lhs)) ltac:(lia)) as IL. rewrite int_of_s32 in IL. fold l in IL.
  destruct (Z.le_gt_cases 0 l) as [P|P]; [apply loop_min_down; auto; lia|].
  cbn [div_loop_min_i]. destruct (Z.eq_dec l (-2147483648)) as [E|E].
  - destruct (round_min c l s d bl l lhs bits D St Hl Hs Hd ltac:(lia) ltac:(right; lia)) as [->|(l' & b' & -> & L1 & L2)]; [reflexivity|].
    cbn [bind]. rewrite E. unfold chk32. rewrite St. change ((INT_MIN <=? -2147483648 - 1) && (-2147483648 - 1 <=? INT_MAX)) with false. cbv iota. cbn [bind].
    change (s32 (-2147483648 - 1)) with 2147483647.
    apply (loop_min_down c (-2147483648) s d bl D St Hs Hd (S (length lhs))); auto; lia.
  - now rewrite round_min_ends by (auto; lia).
Qed.

Lemma core_min c lhs rhs bl bits : dbg c = false -> limbs lhs -> limbs rhs -> (length rhs <= length lhs)%nat ->
  s32 (Z.of_nat (length rhs)) = -2147483648 ->
  let l := s32 (Z.of_nat (length lhs)) in
  let r := -2147483648 in
  (div_scale_i c rhs r ;;; j <- chk32 c (r - 1) ;; divHi <- rdz rhs j ;; let shift := leading_zeros divHi in
      divHi <- shl32 divHi shift ;; div_loop_min_i (S (S (length lhs))) c l shift divHi bl l lhs bits) =
  Undef (if strict c then SignedOverflow
         else if nth (Z.to_nat 2147483647) rhs 0 =? 0 then ShiftRange else OutOfBounds).
Proof.
  intros D Hl Hr Hlen E l r. pose proof (s32_min _ E) as M. unfold div_scale_i, r.
  destruct (strict c) eqn:St; [unfold chk32; rewrite St; reflexivity|].
  assert (chk32 c (-2147483648 - 1) = Ret 2147483647) as -> by (unfold chk32; rewrite St; reflexivity). cbn [bind].
  rewrite rdz_nth by lia. cbn [bind]. change (1 <? -2147483648) with false. change (2 <? -2147483648) with false. cbv iota. cbn [bind]. cbv zeta.
  pose proof (limbs_nth _ (Z.to_nat 2147483647) Hr) as Hh. set (h := nth (Z.to_nat 2147483647) rhs 0) in *. clearbody h.
  destruct (Z.eqb_spec h 0) as [->|H0]; [reflexivity|]. unfold limb in Hh. num.
  destruct (leading_zeros_spec h) as (Z1 & Z2); [num; lia|]. set (s := leading_zeros h) in *. clearbody s.
  assert ((if 0 <? s then shl32 h s ;;; shr32 0 (32 - s) ;;; shl32 0 s ;;; shr32 0 (32 - s) ;;; Ret tt else Ret tt) = Ret tt) as EQ.
  { destruct (Z.ltb_spec 0 s); [|reflexivity]. unfold shl32, shr32. rewrite !(proj2 (Z.leb_le _ _)), !(proj2 (Z.ltb_lt _ _)) by lia. reflexivity. }
  rewrite EQ. cbn [bind]. unfold shl32. rewrite (proj2 (Z.leb_le 0 s)), (proj2 (Z.ltb_lt s 32)) by lia. cbn [andb bind].
  apply loop_min; auto; [| lia].
  rewrite Z.shiftl_mul_pow2 by lia. unfold u32. num. rewrite Z.mod_small by lia. lia.
Qed.

Lemma core_i_spec c lhs rhs bits bl : limbs lhs -> limbs rhs -> (length rhs <= length lhs)%nat ->
  bits = [] /\ bl = 0 \/ bits = zeros (length lhs - length rhs + 1) /\ bl = s32 (Z.of_nat (length bits)) ->
  let l := s32 (Z.of_nat (length lhs)) in
  let r := s32 (Z.of_nat (length rhs)) in
  let o := calc_div_core_i c lhs l rhs r bits bl in
  long_case c lhs rhs o (wp o (fun st =>
    let '(lhs', bits') := st in
    length lhs' = length lhs /\ limbs lhs' /\
    val lhs' = (if l <? r then val lhs else val lhs - vl lhs (Z.to_nat l) + vl lhs (Z.to_nat l) mod vl rhs (Z.to_nat r)) /\
    (bits <> [] -> length bits' = length bits /\ limbs bits' /\
       val bits' = if l <? r then 0 else vl lhs (Z.to_nat l) / vl rhs (Z.to_nat r)))).
Proof.
  intros Hl Hr Hlen Hbits l r o. unfold long_case. fold l r.
  pose proof (s32_range (Z.of_nat (length lhs))) as BL. pose proof (s32_range (Z.of_nat (length rhs))) as BR. fold l in BL. fold r in BR.
  unfold INT_MIN, INT_MAX in BL, BR.
  pose proof (int_of_le (Z.of_nat (length lhs)) ltac:(lia)) as IL. rewrite int_of_s32 in IL. fold l in IL.
  pose proof (int_of_le (Z.of_nat (length rhs)) ltac:(lia)) as IR. rewrite int_of_s32 in IR. fold r in IR.
  assert (o = if dbg c && ((l <? 1) || (r <? 1) || (l <? r)) then AssertFail
    else div_scale_i c rhs r ;;; if r <=? 0 then
      j <- chk32 c (r - 1) ;; divHi <- rdz rhs j ;; let shift := leading_zeros divHi in
      divHi <- shl32 divHi shift ;; div_loop_min_i (S (S (length lhs))) c l shift divHi bl l lhs bits
    else if l <? r then Ret (lhs, bits) else
    left <- slice lhs 0 (Z.to_nat l) ;; right <- slice rhs 0 (Z.to_nat r) ;;
    part <- slice bits 0 (if bl =? 0 then O else Z.to_nat (l - r + 1)) ;;
    '(left, part) <- calc_div_core c left right part ;;
    Ret (left ++ skipn (Z.to_nat l) lhs, part ++ skipn (length part) bits)) as E.
  { unfold o, calc_div_core_i. rewrite !massert_or. rewrite !Z.leb_antisym.
    destruct (dbg c) eqn:D; cbn [andb negb bind]; [|reflexivity].
    rewrite !negb_involutive.
    destruct (Z.ltb_spec l 1) as [A|A]; [reflexivity|]. destruct (Z.ltb_spec r 1) as [B|B]; [reflexivity|].
    destruct (Z.ltb_spec l r) as [C|C]; [reflexivity|]. cbn [orb].
    rewrite (chk32_ok c (l - r)) by (unfold INT_MIN, INT_MAX; lia). cbn [bind].
    rewrite chk32_ok by (unfold INT_MIN, INT_MAX; lia). cbn [bind]. unfold massert at 1. rewrite D.
    assert ((bl =? l - r + 1) || (bl =? 0) = true) as ->; [|reflexivity].
    destruct Hbits as [(_ & ->)|(-> & ->)]; [apply orb_true_r|].
    apply orb_true_iff. left. apply Z.eqb_eq. rewrite length_zeros. unfold l, r in *.
    rewrite Nat2Z.inj_add, Nat2Z.inj_sub by exact Hlen. apply room_quot; lia. }
  rewrite E. destruct (dbg c && ((l <? 1) || (r <? 1) || (l <? r))) eqn:DB; [reflexivity|].
  destruct (Z.eqb_spec r (-2147483648)) as [R0|R0].
  { rewrite (proj2 (Z.leb_le r 0)) by lia. rewrite top_value by (auto; lia).
    replace (- r - 1) with 2147483647 by lia. rewrite R0.
    apply core_min; auto. rewrite (proj2 (Z.ltb_lt r 1)) in DB by lia. rewrite orb_true_r in DB. cbn [orb] in DB.
    now rewrite andb_true_r in DB. }
  destruct (Z.ltb_spec r 1) as [R1|R1].
  { unfold div_scale_i. rewrite chk32_ok by (unfold INT_MIN, INT_MAX; lia). cbn [bind]. rewrite rdz_neg by lia. reflexivity. }
  rewrite top_value by (auto; lia). destruct (Z.eqb_spec (nth (Z.to_nat (r - 1)) rhs 0) 0) as [T|T].
  { rewrite scale_zero by (auto; lia). reflexivity. }
  rewrite scale_ok by (auto; lia). cbn [bind]. rewrite (proj2 (Z.leb_gt r 0)) by lia.
  destruct (Z.ltb_spec l r) as [C|C].
  { apply wp_ret. split; [reflexivity|]. split; [exact Hl|]. split; [reflexivity|]. intros N.
    destruct Hbits as [(-> & _)|(-> & _)]; [congruence|]. split; [reflexivity|]. split; [apply limbs_zeros|apply val_zeros]. }
  rewrite !slice_low by lia. cbn [bind].
  set (left := firstn (Z.to_nat l) lhs). set (right := firstn (Z.to_nat r) rhs).
  assert (length left = Z.to_nat l) as LL by (unfold left; apply firstn_length_le; lia).
  assert (length right = Z.to_nat r) as LR by (unfold right; apply firstn_length_le; lia).
  assert (limbs left) as Ll by (apply limbs_firstn, Hl). assert (limbs right) as Lr by (apply limbs_firstn, Hr).
  assert (right <> []) as NR by (intros Q; rewrite Q in LR; cbn [length] in LR; lia).
  assert (top_nz right) as TR.
  { apply top_nz_firstn; [lia|]. replace (Z.to_nat r - 1)%nat with (Z.to_nat (r - 1)) by lia. exact T. }
  assert (exists part, slice bits 0 (if bl =? 0 then O else Z.to_nat (l - r + 1)) = Ret part /\
    (part = [] \/ length part = (length left - length right + 1)%nat) /\ (bits <> [] -> part <> [] /\ val (skipn (length part) bits) = 0 /\
      limbs (skipn (length part) bits) /\ (length part <= length bits)%nat)) as (part & EP & P1 & P2).
  { destruct Hbits as [(-> & ->)|(-> & ->)].
    - exists []. split; [reflexivity|]. split; [now left|congruence].
    - destruct (room_quot (Z.of_nat (length lhs)) (Z.of_nat (length rhs)) ltac:(lia) ltac:(fold l r; lia)) as (Q1 & Q2). fold l r in Q1, Q2.
      rewrite length_zeros, Nat2Z.inj_add, Nat2Z.inj_sub by exact Hlen. change (Z.of_nat 1) with 1. rewrite Q1.
      rewrite (proj2 (Z.eqb_neq (l - r + 1) 0)) by lia.
      exists (zeros (Z.to_nat (l - r + 1))). rewrite slice_low by (rewrite length_zeros; lia). rewrite firstn_zeros by lia.
      split; [reflexivity|]. rewrite !length_zeros. split; [right; lia|]. intros _. split; [|split; [|split; [|lia]]].
      + intros Q. apply (f_equal (@length Z)) in Q. rewrite length_zeros in Q. cbn [length] in Q. lia.
      + rewrite skipn_zeros. apply val_zeros.
      + rewrite skipn_zeros. apply limbs_zeros. }
  rewrite EP. cbn [bind]. wstep. eapply wp_mono; [apply (calc_div_core_spec c left right part Ll Lr NR TR); [lia|exact P1]|].
  intros [l' b'] (A1 & A2 & A3 & A4). wstep. split; [|split; [|split]].
  - rewrite app_length, A1, LL, skipn_length. lia.
  - apply limbs_app. split; [exact A2|apply limbs_skipn, Hl].
  - rewrite val_app, A1, LL, A3. change (val left) with (vl lhs (Z.to_nat l)). change (val right) with (vl rhs (Z.to_nat r)).
    rewrite (val_split lhs (Z.to_nat l)) at 1 by lia. ring.
  - intros N. destruct (P2 N) as (NP & V0 & L0 & LP). destruct (A4 NP) as (B1 & B2 & B3). split; [|split].
    + rewrite app_length, skipn_length, B1. lia.
    + apply limbs_app. split; [exact B2|rewrite B1; exact L0].
    + rewrite val_app, B1, V0, B3. change (val left) with (vl lhs (Z.to_nat l)). change (val right) with (vl rhs (Z.to_nat r)). ring.
Qed.

(** ** The operators *)
Lemma seen_rounds x (l : list Z) : l <> [] -> limbs l -> val l = Z.abs x -> limbs_of x = Z.of_nat (length l) ->
  low x (seen x) = vl l (rounds_i l) /\ (0 <? seen x) = Nat.ltb 0 (rounds_i l).
Proof.
  intros N Hl Hv L. unfold seen, rounds_i. rewrite L, int_of_s32.
  pose proof (int_of_le (Z.of_nat (length l) - 1)) as H. rewrite int_of_s32 in H.
  assert (0 < Z.of_nat (length l)) as P by (destruct l; [congruence|cbn [length]; lia]).
  split; [apply low_vl_all; auto; lia|].
  destruct (Z.ltb_spec 0 (s32 (Z.of_nat (length l) - 1) + 1)); destruct (Nat.ltb_spec 0 (Z.to_nat (s32 (Z.of_nat (length l) - 1) + 1))); auto; lia.
Qed.

Lemma by_long_case {A : Type} c x y l l' (o : outcome A) P : limbs l' -> val l' = Z.abs y ->
  limbs_of x = Z.of_nat (length l) -> limbs_of y = Z.of_nat (length l') -> long_case c l l' o P -> by_long c x y o P.
Proof.
  intros Hl' Hv' LX LY H. unfold by_long. change (- 2 ^ 31) with (-2147483648).
  rewrite (int_length _ _ LX), (int_length _ _ LY).
  rewrite (low_vl_all y l' (s32 (Z.of_nat (length l'))) Hl' Hv') by (rewrite <- int_of_s32; apply int_of_le; lia).
  unfold long_case in H. destruct (Z.eqb_spec (s32 (Z.of_nat (length l'))) (-2147483648)) as [E|E]; [|exact H].
  rewrite E in *. rewrite (low_vl_all y l' (- (-2147483648)) Hl' Hv') by (pose proof (s32_min _ E); lia). exact H.
Qed.

Lemma long_case_bind {A B : Type} c lhs rhs (o : outcome A) (k : A -> outcome B) (P Q : Prop) :
  (P -> Q) -> long_case c lhs rhs o P -> long_case c lhs rhs (bind o k) Q.
Proof.
  intros PQ H. unfold long_case in *. destruct (dbg c && _); [now rewrite H|].
  destruct (_ =? -2147483648); [now rewrite H|]. destruct (_ <? 1); [now rewrite H|].
  destruct (_ <? 2 ^ _); [now rewrite H|]. exact (PQ H).
Qed.

Lemma arrays_asserted {A} c (l r : list Z) (k : outcome A) : l <> [] -> r <> [] -> (length r <= length l)%nat ->
  (massert c (negb (is_nil l)) ;;; massert c (negb (is_nil r)) ;;; massert c (Nat.leb (length r) (length l)) ;;; k) = k.
Proof. intros. now apply calc_div_core_wp_common. Qed.

Lemma zeros_some n : zeros (n + 1) <> [].
Proof. intros E. apply (f_equal (@length Z)) in E. rewrite length_zeros in E. cbn [length] in E. lia. Qed.

Theorem quotient_any_holds c a b x y : represents a x -> represents b y -> quotient_any c x y (bi_div_i c a b).
Proof.
  intros Ha Hb. unfold quotient_any. change (2 ^ 31) with 2147483648. cbv zeta.
  destruct (Z.ltb_spec (Z.abs x) 2147483648) as [X|X].
  { assert (bi_div_i c a b = bi_div c a b) as ->.
    { rewrite (short_parts _ _ Ha X). unfold bi_div_i, bi_div. cbn [bits_of is_nil andb]. now destruct (is_nil (bits_of b)). }
    destruct (Z.eqb_spec y 0) as [->|Y0]; [eapply bi_div_zero; eauto|]. now apply returns_wp, bi_div_spec. }
  unfold bi_div_i. rewrite (valid_ok c a x Ha), (valid_ok c b y Hb). cbn [bind].
  destruct (long_parts a x Ha X) as (s & l & -> & Hs & N & Hl & Ht & Hv & Sx & LX). cbn [bits_of sign_of]. rewrite (nil_false l N). cbn [andb].
  assert ((s <? 0) = (x <? 0)) as -> by (destruct (Z.ltb_spec x 0); [apply Z.ltb_lt|apply Z.ltb_ge]; lia).
  destruct (Z.ltb_spec (Z.abs y) 2147483648) as [Y|Y].
  { rewrite (short_parts _ _ Hb Y). cbn [bits_of sign_of is_nil]. rewrite abs32_ok by (unfold INT_MIN, INT_MAX; lia). cbn [bind].
    destruct (seen_rounds x l N Hl Hv LX) as (-> & ->). rewrite (int_length _ _ LX).
    destruct (Z.eqb_spec y 0) as [->|Y0]; cbn [andb].
    - rewrite calc_div_u_i_eq. change (Z.abs 0) with 0. rewrite calc_divrem_u_i_zero by exact N.
      destruct (Nat.ltb 0 (rounds_i l)); [reflexivity|]. rewrite Zdiv_0_r. cbn [bind fst].
      match goal with |- held _ _ ?n _ _ => pose proof (of_mag_held c (zeros (length l)) n (limbs_zeros _)) as H end.
      rewrite length_zeros, val_zeros in H. exact H.
    - apply held_bind. eapply wp_mono; [apply calc_div_u_i_spec; [exact N|exact Hl|unfold limb; num; lia|lia]|].
      intros z (A & B & C). now rewrite A. }
  destruct (long_parts b y Hb Y) as (s' & l' & -> & Hs' & N' & Hl' & Ht' & Hv' & Sy & LY). cbn [bits_of sign_of]. rewrite (nil_false l' N').
  assert ((s' <? 0) = (y <? 0)) as -> by (destruct (Z.ltb_spec y 0); [apply Z.ltb_lt|apply Z.ltb_ge]; lia).
  rewrite LX, LY. destruct (Nat.ltb_spec (length l) (length l')) as [G|G].
  { rewrite (proj2 (Z.ltb_lt _ _)) by lia. apply returns_wp, wp_ret. apply repr_small. unfold INT_MIN, INT_MAX. lia. }
  rewrite (proj2 (Z.ltb_ge _ _)) by lia. apply (by_long_case c x y l l'); auto.
  unfold calc_div_i. rewrite arrays_asserted by assumption. cbv zeta.
  pose proof (core_i_spec c l l' (zeros (length l - length l' + 1)) _ Hl Hl' G (or_intror (conj eq_refl eq_refl))) as K. cbv zeta in K.
  rewrite bind_assoc. eapply long_case_bind; [|exact K]. clear K. intros K.
  match type of K with wp ?m _ => set (o := m) in * end. apply wp_inv in K as ([l1 b1] & E & _ & _ & _ & K4).
  rewrite E. cbn [bind]. destruct (K4 (zeros_some _)) as (K5 & K6 & K7). rewrite length_zeros in K5.
  replace (Z.of_nat (length l) - Z.of_nat (length l') + 1) with (Z.of_nat (length b1)) by (rewrite K5; lia). rewrite int_of_s32.
  replace (part_quotient x y) with (val b1); [now apply of_mag_held|]. rewrite K7. unfold part_quotient.
  rewrite (int_length _ _ LX), (int_length _ _ LY).
  rewrite (low_vl_all y l' _ Hl' Hv'), (low_vl_all x l _ Hl Hv) by (rewrite <- int_of_s32; apply int_of_le; lia). reflexivity.
Qed.

Theorem remainder_any_holds c a b x y : represents a x -> represents b y -> remainder_any c x y (bi_rem_i c a b).
Proof.
  intros Ha Hb. unfold remainder_any. change (2 ^ 31) with 2147483648. cbv zeta.
  destruct (Z.ltb_spec (Z.abs x) 2147483648) as [X|X].
  { assert (bi_rem_i c a b = bi_rem c a b) as ->.
    { rewrite (short_parts _ _ Ha X). unfold bi_rem_i, bi_rem. cbn [bits_of is_nil andb]. now destruct (is_nil (bits_of b)). }
    destruct (Z.eqb_spec y 0) as [->|Y0]; [eapply bi_rem_zero; eauto|]. now apply returns_wp, bi_rem_spec. }
  unfold bi_rem_i. rewrite (valid_ok c a x Ha), (valid_ok c b y Hb). cbn [bind].
  destruct (long_parts a x Ha X) as (s & l & -> & Hs & N & Hl & Ht & Hv & Sx & LX). cbn [bits_of sign_of]. rewrite (nil_false l N). cbn [andb].
  assert ((s <? 0) = (x <? 0)) as -> by (destruct (Z.ltb_spec x 0); [apply Z.ltb_lt|apply Z.ltb_ge]; lia).
  destruct (Z.ltb_spec (Z.abs y) 2147483648) as [Y|Y].
  { rewrite (short_parts _ _ Hb Y). cbn [bits_of sign_of is_nil]. rewrite abs32_ok by (unfold INT_MIN, INT_MAX; lia). cbn [bind].
    destruct (seen_rounds x l N Hl Hv LX) as (-> & ->).
    destruct (Z.eqb_spec y 0) as [->|Y0]; cbn [andb].
    - change (Z.abs 0) with 0. rewrite calc_rem_u_i_zero by exact N.
      destruct (Nat.ltb_spec 0 (rounds_i l)) as [P|P]; [reflexivity|]. replace (rounds_i l) with O by lia. cbn [bind]. rewrite vl_0.
      change (0 mod 0) with 0. replace (if x <? 0 then -1 * 0 else 0) with 0 by (now destruct (x <? 0)).
      replace (signed (x <? 0) 0) with 0 by (unfold signed; now destruct (x <? 0)).
      apply returns_wp, bi_of_int64_spec. num; lia.
    - assert (wp (calc_rem_u_i c l (Z.abs y)) (fun r => r = vl l (rounds_i l) mod Z.abs y)) as W
        by (apply calc_rem_u_i_spec; [exact N|exact Hl|unfold limb; num; lia|lia]).
      apply wp_inv in W as (r & -> & Er). cbn [bind]. rewrite <- Er. unfold signed.
      pose proof (Z.mod_pos_bound (vl l (rounds_i l)) (Z.abs y) ltac:(lia)) as B. rewrite <- Er in B.
      replace (if x <? 0 then -1 * r else r) with (if x <? 0 then - r else r) by (destruct (x <? 0); ring).
      apply returns_wp, bi_of_int64_spec. destruct (x <? 0); num; lia. }
  destruct (long_parts b y Hb Y) as (s' & l' & -> & Hs' & N' & Hl' & Ht' & Hv' & Sy & LY). cbn [bits_of sign_of]. rewrite (nil_false l' N').
  rewrite LX, LY. destruct (Nat.ltb_spec (length l) (length l')) as [G|G].
  { rewrite (proj2 (Z.ltb_lt _ _)) by lia. exists (Big s l). split; [reflexivity|exact Ha]. }
  rewrite (proj2 (Z.ltb_ge _ _)) by lia. apply (by_long_case c x y l l'); auto.
  unfold calc_rem_i. rewrite arrays_asserted by assumption. cbv zeta.
  pose proof (core_i_spec c l l' [] 0 Hl Hl' G (or_introl (conj eq_refl eq_refl))) as K. cbv zeta in K.
  rewrite bind_assoc. eapply long_case_bind; [|exact K]. clear K. intros K.
  apply wp_inv in K as ([l1 b1] & E & K1 & K2 & K3 & _).
  rewrite E. cbn [bind]. rewrite (int_length _ _ LX), <- K1.
  replace (part_remainder x y) with (val l1); [now apply of_mag_held|]. rewrite K3. unfold part_remainder.
  rewrite (int_length _ _ LX), (int_length _ _ LY).
  rewrite (low_vl_all y l' _ Hl' Hv'), (low_vl_all x l _ Hl Hv), Hv by (rewrite <- int_of_s32; apply int_of_le; lia). reflexivity.
Qed.
