(** Correctness of src/BigIntegerCalculator/AddSub.cpp. *)
From Verif Require Import Facts CalcAddSub.

Ltac num := unfold limb, W32, W64, LONG_MIN, LONG_MAX, INT_MIN, INT_MAX in *.

Lemma calc_add_u_spec c lhs rhs :
  lhs <> [] -> limbs lhs -> limb rhs ->
  wp (calc_add_u c lhs rhs)
     (fun r => length r = S (length lhs) /\ limbs r /\ val r = val lhs + rhs).
Proof.
  intros Hne Hl Hr. unfold calc_add_u.
  assert (0 < length lhs)%nat as Hlen by (destruct lhs; [congruence|simpl; lia]).
  repeat wstep; try (now rewrite is_nil_false); try lia.
  { pose proof (limbs_nth _ 0 Hl). num; lia. }
  { rewrite length_zeros; lia. }
  eapply wp_for_up with (I := fun i st =>
    let '(bits, carry) := st in
    length bits = S (length lhs) /\ limbs (firstn i bits) /\ 0 <= carry <= 1 /\
    vl bits i + carry * Bp i = vl lhs i + rhs).
  - set (t := nth 0 lhs 0 + rhs).
    pose proof (limbs_nth _ 0 Hl) as H0.
    assert (Z.shiftr t 32 < 2 /\ 0 <= Z.shiftr t 32).
    { pose proof (shiftr32_range t 0 2). subst t. num; lia. }
    repeat split; try lia.
    + rewrite length_upd, length_zeros. lia.
    + apply pfx_step; [rewrite length_zeros; lia|constructor|apply u32_limb].
    + rewrite vl_upd_S by (rewrite length_zeros; lia).
      rewrite vl_0, !vl_S, vl_0, !Bp_0, Bp_1.
      pose proof (split32 t) as Hs. unfold t in *. lia.
  - intros i [bits carry] Hi (Hb & Hlb & Hc & Hv).
    repeat wstep; try lia.
    + pose proof (limbs_nth _ i Hl). num; lia.
    + set (t := nth i lhs 0 + carry).
      pose proof (limbs_nth _ i Hl) as H0.
      assert (0 <= Z.shiftr t 32 < 2).
      { apply shiftr32_range. subst t. num; lia. }
      repeat split; try lia.
      * rewrite length_upd; lia.
      * apply pfx_step; [lia|assumption|apply u32_limb].
      * rewrite vl_upd_S, vl_S, Bp_S by lia.
        rewrite (carry_step _ _ _ (nth i lhs 0) _ t Hv) by (unfold t; ring). ring.
  - intros [bits carry] (Hb & Hlb & Hc & Hv).
    replace (1 + (length lhs - 1))%nat with (length lhs) in * by lia.
    wstep; [lia|]. rewrite length_upd. split; [assumption|].
    assert (limbs (firstn (S (length lhs)) (upd bits (length lhs) (u32 carry)))) as HL.
    { apply pfx_step; [lia|assumption|apply u32_limb]. }
    rewrite firstn_all2 in HL by (rewrite length_upd; lia). split; [assumption|].
    rewrite <- (vl_ge _ (S (length lhs))) by (rewrite length_upd; lia).
    rewrite vl_upd_S by lia. rewrite u32_small by (num; lia).
    rewrite Hv, vl_all. reflexivity.
Qed.

Lemma calc_add_core_spec c lhs rhs bits :
  limbs lhs -> limbs rhs -> (length rhs <= length lhs)%nat ->
  length bits = S (length lhs) ->
  wp (calc_add_core c lhs rhs bits)
     (fun r => length r = S (length lhs) /\ limbs r /\ val r = val lhs + val rhs).
Proof.
  intros Hl Hr Hlen Hbits. unfold calc_add_core.
  wstep. wstep. { now apply Nat.leb_le. }
  wstep. wstep. { apply Nat.eqb_eq. lia. }
  set (I := fun i (st : list Z * Z) =>
    let '(bits, carry) := st in
    length bits = S (length lhs) /\ limbs (firstn i bits) /\ 0 <= carry <= 1 /\
    vl bits i + carry * Bp i = vl lhs i + vl rhs i).
  wstep. eapply wp_for_up with (I := I).
  - unfold I. repeat split; try lia; try constructor.
  - intros i [b carry] Hi (Hb & Hlb & Hc & Hv).
    repeat wstep; try lia.
    pose proof (limbs_nth _ i Hl) as H0. pose proof (limbs_nth _ i Hr) as H1.
    rewrite (u64_small (nth i lhs 0 + carry)) by (num; lia).
    rewrite u64_small by (num; lia).
    set (t := nth i lhs 0 + carry + nth i rhs 0).
    assert (0 <= Z.shiftr t 32 < 2).
    { apply shiftr32_range. subst t. num; lia. }
    unfold I. repeat split; try lia.
    + rewrite length_upd; lia.
    + apply pfx_step; [lia|assumption|apply u32_limb].
    + rewrite vl_upd_S, !vl_S, Bp_S by lia.
      rewrite (carry_step _ _ _ (nth i lhs 0 + nth i rhs 0) _ t Hv) by (unfold t; ring). ring.
  - intros [b carry] HI. wstep.
    eapply wp_for_up with (I := I); [exact HI| |].
    + intros i [b' carry'] Hi (Hb & Hlb & Hc & Hv).
      repeat wstep; try lia.
      pose proof (limbs_nth _ i Hl) as H0.
      rewrite u64_small by (num; lia).
      set (t := nth i lhs 0 + carry').
      assert (0 <= Z.shiftr t 32 < 2).
      { apply shiftr32_range. subst t. num; lia. }
      unfold I. repeat split; try lia.
      * rewrite length_upd; lia.
      * apply pfx_step; [lia|assumption|apply u32_limb].
      * rewrite vl_upd_S, !vl_S, Bp_S by lia. rewrite (nth_beyond rhs) by lia.
        rewrite (carry_step _ _ _ (nth i lhs 0) _ t Hv) by (unfold t; ring). ring.
    + intros [b' carry'] (Hb & Hlb & Hc & Hv).
      replace (length rhs + (length lhs - length rhs))%nat with (length lhs) in * by lia.
      rewrite Nat.max_l by lia.
      wstep; [lia|]. rewrite length_upd. split; [assumption|].
      assert (limbs (firstn (S (length lhs)) (upd b' (length lhs) (u32 carry')))) as HL.
      { apply pfx_step; [lia|assumption|apply u32_limb]. }
      rewrite firstn_all2 in HL by (rewrite length_upd; lia). split; [assumption|].
      rewrite <- (vl_ge _ (S (length lhs))) by (rewrite length_upd; lia).
      rewrite vl_upd_S by lia. rewrite u32_small by (num; lia).
      rewrite Hv, vl_all, (vl_ge rhs) by lia. reflexivity.
Qed.

Lemma calc_add_spec c lhs rhs :
  lhs <> [] -> rhs <> [] -> limbs lhs -> limbs rhs -> (length rhs <= length lhs)%nat ->
  wp (calc_add c lhs rhs)
     (fun r => length r = S (length lhs) /\ limbs r /\ val r = val lhs + val rhs).
Proof.
  intros. unfold calc_add. repeat wstep; try (now rewrite is_nil_false).
  { now apply Nat.leb_le. }
  apply calc_add_core_spec; auto. rewrite length_zeros. lia.
Qed.

Lemma calc_add_self_spec c lhs rhs :
  lhs <> [] -> rhs <> [] ->
  limbs lhs -> limbs rhs -> (length rhs <= length lhs)%nat ->
  val lhs + val rhs < Bp (length lhs) ->
  wp (calc_add_self c lhs rhs)
     (fun r => length r = length lhs /\ limbs r /\ val r = val lhs + val rhs).
Proof.
  intros Hn1 Hn2 Hl Hr Hlen Hfit. unfold calc_add_self.
  assert (0 < length rhs)%nat as Hr0 by (destruct rhs; [congruence|simpl; lia]).
  wstep. eapply wp_mono with (P := fun _ => True).
  { destruct (dbg c); [|exact Logic.I]. repeat wstep; try lia; auto.
    pose proof (limbs_nth _ 0 Hl) as H0. pose proof (limbs_nth _ 0 Hr) as H1.
    apply andb_true_iff. rewrite !Z.leb_le. num; lia. }
  intros _ _. wstep. wstep. { now apply Nat.leb_le. }
  set (I := fun i (st : list Z * Z) =>
    let '(b, carry) := st in
    length b = length lhs /\ limbs b /\ skipn i b = skipn i lhs /\ 0 <= carry <= 1 /\
    vl b i + carry * Bp i = vl lhs i + vl rhs i).
  wstep. eapply wp_for_up with (I := I).
  - unfold I. repeat split; try lia; auto.
  - intros i [b carry] Hi (Hb & Hlb & Hs & Hc & Hv).
    pose proof (limbs_nth _ i Hl) as H0. pose proof (limbs_nth _ i Hr) as H1.
    pose proof (nth_skipn_eq _ _ _ Hs) as Hnth.
    repeat wstep; rewrite ?Hnth; try lia; try (num; lia).
    set (t := nth i lhs 0 + carry + nth i rhs 0).
    assert (0 <= Z.shiftr t 32 < 2).
    { apply shiftr32_range. subst t. num; lia. }
    unfold I. repeat split; try lia.
    + rewrite length_upd; lia.
    + apply limbs_upd; [assumption|apply u32_limb].
    + rewrite skipn_upd by lia. now apply skipn_S_eq.
    + rewrite vl_upd_S, !vl_S, Bp_S by lia.
      rewrite (carry_step _ _ _ (nth i lhs 0 + nth i rhs 0) _ t Hv) by (unfold t; ring). ring.
  - intros [b carry] HI. wstep.
    eapply wp_for_up_while with (I := I); [exact HI| |].
    + intros i [b' carry'] Hi _ (Hb & Hlb & Hs & Hc & Hv).
      pose proof (limbs_nth _ i Hl) as H0.
      pose proof (nth_skipn_eq _ _ _ Hs) as Hnth.
      repeat wstep; rewrite ?Hnth; try lia; try (num; lia).
      set (t := nth i lhs 0 + carry').
      assert (0 <= Z.shiftr t 32 < 2).
      { apply shiftr32_range. subst t. num; lia. }
      unfold I. repeat split; try lia.
      * rewrite length_upd; lia.
      * apply limbs_upd; [assumption|apply u32_limb].
      * rewrite skipn_upd by lia. now apply skipn_S_eq.
      * rewrite vl_upd_S, !vl_S, Bp_S by lia. rewrite (nth_beyond rhs) by lia.
        rewrite (carry_step _ _ _ (nth i lhs 0) _ t Hv) by (unfold t; ring). ring.
    + intros i [b' carry'] Hi (Hb & Hlb & Hs & Hc & Hv) Hend. cbn [snd] in Hend.
      assert (val b' + carry' * Bp i = val lhs + val rhs) as Hval.
      { rewrite (val_split b' i), (val_split lhs i), Hs by lia.
        rewrite (vl_ge rhs) in Hv by lia. lia. }
      assert (carry' = 0) as ->.
      { destruct Hend as [->|Hf].
        - replace (0 + length rhs + (length lhs - (0 + length rhs)))%nat with (length lhs) in * by lia.
          replace (length rhs + (length lhs - length rhs))%nat with (length lhs) in * by lia.
          pose proof (val_bound _ Hlb) as Hvb.
          destruct (Z.eq_dec carry' 0); [assumption|].
          assert (carry' = 1) as -> by lia. lia.
        - apply negb_false_iff, Z.eqb_eq in Hf. exact Hf. }
      repeat wstep; [reflexivity|]. repeat split; auto. lia.
Qed.

(** ** Comparison *)

Lemma compare_loop_spec lhs rhs n :
  limbs lhs -> limbs rhs -> (n <= length lhs)%nat -> (n <= length rhs)%nat ->
  compare_loop lhs rhs n =
  Ret (match vl lhs n ?= vl rhs n with Lt => -1 | Eq => 0 | Gt => 1 end).
Proof.
  intros Hl Hr. induction n as [|n IH]; intros H1 H2; simpl.
  - reflexivity.
  - unfold rd. rewrite !(nth_error_nth' _ 0) by lia. cbn [bind].
    pose proof (vl_bound _ n Hl) as B1. pose proof (vl_bound _ n Hr) as B2.
    rewrite !vl_S.
    destruct (Z.ltb_spec (nth n lhs 0) (nth n rhs 0)) as [Hlt|Hge].
    + destruct (Z.compare_spec (vl lhs n + nth n lhs 0 * Bp n) (vl rhs n + nth n rhs 0 * Bp n)); auto; nia.
    + destruct (Z.ltb_spec (nth n rhs 0) (nth n lhs 0)) as [Hlt|Hge'].
      * destruct (Z.compare_spec (vl lhs n + nth n lhs 0 * Bp n) (vl rhs n + nth n rhs 0 * Bp n)); auto; nia.
      * rewrite IH by lia. replace (nth n lhs 0) with (nth n rhs 0) by lia.
        destruct (Z.compare_spec (vl lhs n) (vl rhs n)), (Z.compare_spec (vl lhs n + nth n rhs 0 * Bp n) (vl rhs n + nth n rhs 0 * Bp n)); auto; lia.
Qed.

(** With equal lengths, or with no leading zeros, the length test agrees with
    the values. *)
Definition cmpz (x y : Z) : Z := match x ?= y with Lt => -1 | Eq => 0 | Gt => 1 end.

Definition top_nz (l : list Z) : Prop := nth (length l - 1) l 0 <> 0.

Lemma top_nz_bound l : limbs l -> l <> [] -> top_nz l -> Bp (length l - 1) <= val l.
Proof.
  intros Hl Hne Ht. unfold top_nz in Ht.
  assert (0 < length l)%nat by (destruct l; [congruence|simpl; lia]).
  rewrite <- vl_all. replace (length l) with (S (length l - 1)) at 2 by lia.
  rewrite vl_S. pose proof (vl_bound l (length l - 1) Hl).
  pose proof (limbs_nth _ (length l - 1) Hl). num. nia.
Qed.

Lemma length_lt_val a b :
  limbs a -> limbs b -> b <> [] -> top_nz b -> (length a < length b)%nat -> val a < val b.
Proof.
  intros Ha Hb Hne Ht H.
  pose proof (val_bound _ Ha). pose proof (top_nz_bound _ Hb Hne Ht).
  pose proof (Bp_le (length a) (length b - 1)). lia.
Qed.

Lemma calc_compare_core_spec c lhs rhs :
  limbs lhs -> limbs rhs ->
  length lhs = length rhs \/ (lhs <> [] /\ rhs <> [] /\ top_nz lhs /\ top_nz rhs) ->
  calc_compare_core c lhs rhs = Ret (cmpz (val lhs) (val rhs)).
Proof.
  intros Hl Hr H. unfold calc_compare_core, cmpz.
  destruct (Nat.ltb_spec (length lhs) (length rhs)) as [H1|H1].
  { destruct H as [H|(Hn1 & Hn2 & H2 & H3)]; [lia|].
    pose proof (length_lt_val lhs rhs Hl Hr Hn2 H3 H1) as Hlt.
    now rewrite (proj2 (Z.compare_lt_iff _ _) Hlt). }
  destruct (Nat.ltb_spec (length rhs) (length lhs)) as [H2|H2].
  { destruct H as [H|(Hn1 & Hn2 & H3 & H4)]; [lia|].
    pose proof (length_lt_val rhs lhs Hr Hl Hn1 H3 H2) as Hlt.
    now rewrite (proj2 (Z.compare_gt_iff _ _) Hlt). }
  rewrite compare_loop_spec by (auto; lia).
  rewrite vl_all, (vl_ge rhs) by lia. reflexivity.
Qed.

Lemma calc_compare_spec c lhs rhs :
  lhs <> [] -> rhs <> [] -> limbs lhs -> limbs rhs ->
  length lhs = length rhs \/ (top_nz lhs /\ top_nz rhs) ->
  calc_compare c lhs rhs = Ret (cmpz (val lhs) (val rhs)).
Proof.
  intros Hn1 Hn2 Hl Hr H.
  rewrite <- (calc_compare_core_spec c lhs rhs) by (auto; tauto).
  unfold calc_compare, calc_compare_core, massert.
  rewrite !is_nil_false by assumption. now destruct (dbg c).
Qed.

(** The debug assertion of subtract only needs the values to be ordered. *)
Lemma calc_compare_core_ge c lhs rhs :
  limbs lhs -> limbs rhs -> (length rhs <= length lhs)%nat -> val rhs <= val lhs ->
  wp (calc_compare_core c lhs rhs) (fun z => 0 <= z).
Proof.
  intros Hl Hr Hlen Hv. unfold calc_compare_core.
  destruct (Nat.ltb_spec (length lhs) (length rhs)) as [H1|H1]; [lia|].
  destruct (Nat.ltb_spec (length rhs) (length lhs)) as [H2|H2]; [wstep; lia|].
  rewrite compare_loop_spec by (auto; lia).
  rewrite vl_all, (vl_ge rhs) by lia. wstep.
  destruct (Z.compare_spec (val lhs) (val rhs)); lia.
Qed.

(** ** Subtraction *)

Lemma calc_sub_u_spec c lhs rhs :
  lhs <> [] -> limbs lhs -> limb rhs -> rhs <= val lhs ->
  wp (calc_sub_u c lhs rhs)
     (fun r => length r = length lhs /\ limbs r /\ val r = val lhs - rhs).
Proof.
  intros Hne Hl Hr Hge. unfold calc_sub_u.
  assert (0 < length lhs)%nat as Hlen by (destruct lhs; [congruence|simpl; lia]).
  pose proof (limbs_nth _ 0 Hl) as H0.
  repeat wstep; try (now rewrite is_nil_false); try lia.
  eapply wp_mono with (P := fun _ => True).
  { destruct (dbg c); [|exact Logic.I]. repeat wstep; try lia; auto.
    apply orb_true_iff. rewrite Z.leb_le, Nat.leb_le.
    destruct lhs as [|x [|y t]]; simpl in *; [lia| |right; lia].
    left. lia. }
  intros _ _. repeat wstep; try lia.
  { num; lia. }
  { rewrite length_zeros; lia. }
  eapply wp_for_up with (I := fun i st =>
    let '(bits, carry) := st in
    length bits = length lhs /\ limbs (firstn i bits) /\ -1 <= carry <= 0 /\
    vl bits i + carry * Bp i = vl lhs i - rhs).
  - set (t := nth 0 lhs 0 - rhs).
    assert (-1 <= Z.shiftr t 32 < 1).
    { apply shiftr32_range. subst t. num; lia. }
    repeat split; try lia.
    + rewrite length_upd, length_zeros. lia.
    + apply pfx_step; [rewrite length_zeros; lia|constructor|apply u32_limb].
    + rewrite vl_upd_S by (rewrite length_zeros; lia).
      rewrite vl_0, !vl_S, vl_0, !Bp_0, Bp_1.
      pose proof (split32 t) as Hs. unfold t in *. lia.
  - intros i [bits carry] Hi (Hb & Hlb & Hc & Hv).
    pose proof (limbs_nth _ i Hl) as Hi0.
    repeat wstep; try lia.
    + num; lia.
    + set (t := nth i lhs 0 + carry).
      assert (-1 <= Z.shiftr t 32 < 1).
      { apply shiftr32_range. subst t. num; lia. }
      repeat split; try lia.
      * rewrite length_upd; lia.
      * apply pfx_step; [lia|assumption|apply u32_limb].
      * rewrite vl_upd_S, vl_S, Bp_S by lia.
        rewrite (carry_step _ _ _ (nth i lhs 0) _ t Hv) by (unfold t; ring). ring.
  - intros [bits carry] (Hb & Hlb & Hc & Hv).
    replace (1 + (length lhs - 1))%nat with (length lhs) in * by lia.
    rewrite firstn_all2 in Hlb by lia.
    rewrite (vl_ge bits), vl_all in Hv by lia.
    pose proof (val_bound _ Hlb) as Hvb. rewrite Hb in Hvb.
    wstep. repeat split; auto.
    assert (carry = 0) by nia. nia.
Qed.

Lemma calc_sub_core_spec c lhs rhs bits :
  limbs lhs -> limbs rhs -> (length rhs <= length lhs)%nat ->
  val rhs <= val lhs -> length bits = length lhs ->
  wp (calc_sub_core c lhs rhs bits)
     (fun r => length r = length lhs /\ limbs r /\ val r = val lhs - val rhs).
Proof.
  intros Hl Hr Hlen Hge Hbits. unfold calc_sub_core.
  wstep. wstep. { now apply Nat.leb_le. }
  wstep. eapply wp_mono with (P := fun _ => True).
  { destruct (dbg c); [|exact Logic.I]. wstep.
    eapply wp_mono; [apply calc_compare_core_ge; auto|].
    intros z Hz. wstep; auto. now apply Z.leb_le. }
  intros _ _. wstep. wstep. { now apply Nat.eqb_eq. }
  set (I := fun i (st : list Z * Z) =>
    let '(bits, carry) := st in
    length bits = length lhs /\ limbs (firstn i bits) /\ -1 <= carry <= 0 /\
    vl bits i + carry * Bp i = vl lhs i - vl rhs i).
  wstep. eapply wp_for_up with (I := I).
  - unfold I. repeat split; try lia; try constructor.
  - intros i [b carry] Hi (Hb & Hlb & Hc & Hv).
    pose proof (limbs_nth _ i Hl) as H0. pose proof (limbs_nth _ i Hr) as H1.
    repeat wstep; try lia; try (num; lia).
    set (t := nth i lhs 0 + carry - nth i rhs 0).
    assert (-1 <= Z.shiftr t 32 < 1).
    { apply shiftr32_range. subst t. num; lia. }
    unfold I. repeat split; try lia.
    + rewrite length_upd; lia.
    + apply pfx_step; [lia|assumption|apply u32_limb].
    + rewrite vl_upd_S, !vl_S, Bp_S by lia.
      rewrite (carry_step _ _ _ (nth i lhs 0 - nth i rhs 0) _ t Hv) by (unfold t; ring). ring.
  - intros [b carry] HI. wstep.
    eapply wp_for_up with (I := I); [exact HI| |].
    + intros i [b' carry'] Hi (Hb & Hlb & Hc & Hv).
      pose proof (limbs_nth _ i Hl) as H0.
      repeat wstep; try lia; try (num; lia).
      set (t := nth i lhs 0 + carry').
      assert (-1 <= Z.shiftr t 32 < 1).
      { apply shiftr32_range. subst t. num; lia. }
      unfold I. repeat split; try lia.
      * rewrite length_upd; lia.
      * apply pfx_step; [lia|assumption|apply u32_limb].
      * rewrite vl_upd_S, !vl_S, Bp_S by lia. rewrite (nth_beyond rhs) by lia.
        rewrite (carry_step _ _ _ (nth i lhs 0) _ t Hv) by (unfold t; ring). ring.
    + intros [b' carry'] (Hb & Hlb & Hc & Hv).
      replace (length rhs + (length lhs - length rhs))%nat with (length lhs) in * by lia.
      rewrite firstn_all2 in Hlb by lia.
      rewrite (vl_ge b'), vl_all, (vl_ge rhs) in Hv by lia.
      pose proof (val_bound _ Hlb) as Hvb. rewrite Hb in Hvb.
      assert (carry' = 0) as -> by nia.
      repeat wstep; [reflexivity|]. repeat split; auto. lia.
Qed.

Lemma calc_sub_spec c lhs rhs :
  lhs <> [] -> rhs <> [] -> limbs lhs -> limbs rhs -> (length rhs <= length lhs)%nat ->
  val rhs <= val lhs ->
  wp (calc_sub c lhs rhs)
     (fun r => length r = length lhs /\ limbs r /\ val r = val lhs - val rhs).
Proof.
  intros Hn1 Hn2 Hl Hr Hlen Hge. unfold calc_sub.
  repeat wstep; try (now rewrite is_nil_false).
  { now apply Nat.leb_le. }
  eapply wp_mono with (P := fun _ => True).
  { destruct (dbg c); [|exact Logic.I]. wstep.
    assert (calc_compare c lhs rhs = calc_compare_core c lhs rhs) as ->.
    { unfold calc_compare, calc_compare_core, massert.
      rewrite !is_nil_false by assumption. now destruct (dbg c). }
    eapply wp_mono; [apply calc_compare_core_ge; auto|].
    intros z Hz. wstep; auto. now apply Z.leb_le. }
  intros _ _. apply calc_sub_core_spec; auto. apply length_zeros.
Qed.

Lemma calc_sub_self_spec c lhs rhs :
  limbs lhs -> limbs rhs -> (length rhs <= length lhs)%nat ->
  val rhs <= val lhs ->
  wp (calc_sub_self c lhs rhs)
     (fun r => length r = length lhs /\ limbs r /\ val r = val lhs - val rhs).
Proof.
  intros Hl Hr Hlen Hfit. unfold calc_sub_self.
  set (I := fun i (st : list Z * Z) =>
    let '(b, carry) := st in
    length b = length lhs /\ limbs b /\ skipn i b = skipn i lhs /\ -1 <= carry <= 0 /\
    vl b i + carry * Bp i = vl lhs i - vl rhs i).
  wstep. eapply wp_for_up with (I := I).
  - unfold I. repeat split; try lia; auto.
  - intros i [b carry] Hi (Hb & Hlb & Hs & Hc & Hv).
    pose proof (limbs_nth _ i Hl) as H0. pose proof (limbs_nth _ i Hr) as H1.
    pose proof (nth_skipn_eq _ _ _ Hs) as Hnth.
    repeat wstep; rewrite ?Hnth; try lia; try (num; lia).
    set (t := nth i lhs 0 + carry - nth i rhs 0).
    assert (-1 <= Z.shiftr t 32 < 1).
    { apply shiftr32_range. subst t. num; lia. }
    unfold I. repeat split; try lia.
    + rewrite length_upd; lia.
    + apply limbs_upd; [assumption|apply u32_limb].
    + rewrite skipn_upd by lia. now apply skipn_S_eq.
    + rewrite vl_upd_S, !vl_S, Bp_S by lia.
      rewrite (carry_step _ _ _ (nth i lhs 0 - nth i rhs 0) _ t Hv) by (unfold t; ring). ring.
  - intros [b carry] HI. wstep.
    eapply wp_for_up_while with (I := I); [exact HI| |].
    + intros i [b' carry'] Hi _ (Hb & Hlb & Hs & Hc & Hv).
      pose proof (limbs_nth _ i Hl) as H0.
      pose proof (nth_skipn_eq _ _ _ Hs) as Hnth.
      repeat wstep; rewrite ?Hnth; try lia; try (num; lia).
      set (t := nth i lhs 0 + carry').
      assert (-1 <= Z.shiftr t 32 < 1).
      { apply shiftr32_range. subst t. num; lia. }
      unfold I. repeat split; try lia.
      * rewrite length_upd; lia.
      * apply limbs_upd; [assumption|apply u32_limb].
      * rewrite skipn_upd by lia. now apply skipn_S_eq.
      * rewrite vl_upd_S, !vl_S, Bp_S by lia. rewrite (nth_beyond rhs) by lia.
        rewrite (carry_step _ _ _ (nth i lhs 0) _ t Hv) by (unfold t; ring). ring.
    + intros i [b' carry'] Hi (Hb & Hlb & Hs & Hc & Hv) Hend. cbn [snd] in Hend.
      assert (val b' + carry' * Bp i = val lhs - val rhs) as Hval.
      { rewrite (val_split b' i), (val_split lhs i), Hs by lia.
        rewrite (vl_ge rhs) in Hv by lia. lia. }
      assert (carry' = 0) as ->.
      { destruct Hend as [->|Hf].
        - replace (length rhs + (length lhs - length rhs))%nat with (length lhs) in * by lia.
          pose proof (val_bound _ Hlb) as Hvb. rewrite Hb in Hvb. nia.
        - apply negb_false_iff, Z.eqb_eq in Hf. exact Hf. }
      repeat wstep. repeat split; auto. lia.
Qed.
