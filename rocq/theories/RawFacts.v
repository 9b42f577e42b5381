(** The add and subtract overloads on limb arrays, for arbitrary arrays. *)
From Verif Require Import Facts Spec AddSubFacts SpecFacts BigIntFacts BigInt CalcAddSub.

Ltac Zify.zify_post_hook ::= idtac.

Lemma bind_case {A B} (o : outcome A) (k : A -> outcome B) (P : A -> Prop) (Q : outcome B -> Prop) :
  wp o P -> (forall a, P a -> Q (k a)) -> Q (bind o k).
Proof. intros H HQ. destruct (wp_inv _ _ H) as (a & -> & Ha). cbn [bind]. auto. Qed.

Lemma massert_case {B} c b (k : outcome B) (Q : outcome B -> Prop) :
  b = true -> Q k -> Q (massert c b ;;; k).
Proof. intros -> H. unfold massert. destruct (dbg c); exact H. Qed.

(** The loops of subtract, whatever the operands. *)
Lemma calc_sub_core_case c lhs rhs bits (Q : outcome (list Z) -> Prop) :
  limbs lhs -> limbs rhs -> (length rhs <= length lhs)%nat -> length bits = length lhs ->
  ((length rhs < length lhs)%nat \/ val rhs <= val lhs) ->
  (forall b carry, length b = length lhs -> limbs b -> -1 <= carry <= 0 ->
     val b + carry * Bp (length lhs) = val lhs - val rhs -> Q (massert c (carry =? 0) ;;; Ret b)) ->
  Q (calc_sub_core c lhs rhs bits).
Proof.
  intros Hl Hr Hlen Hbits Hge HQ. unfold calc_sub_core.
  apply massert_case; [now apply Nat.leb_le|].
  eapply (bind_case _ _ (fun _ => True)).
  { destruct (dbg c); [|exact Logic.I]. wstep. unfold calc_compare_core.
    destruct (Nat.ltb_spec (length lhs) (length rhs)) as [H1|H1]; [lia|].
    destruct (Nat.ltb_spec (length rhs) (length lhs)) as [H2|H2]; [wstep; wstep; [reflexivity|exact Logic.I]|].
    rewrite compare_loop_spec by (auto; lia). rewrite vl_all, (vl_ge rhs) by lia. wstep.
    wstep; [|exact Logic.I]. apply Z.leb_le. destruct (Z.compare_spec (val lhs) (val rhs)); lia. }
  intros _ _. apply massert_case; [now apply Nat.eqb_eq|].
  set (I := fun i (st : list Z * Z) =>
    let '(bits, carry) := st in
    length bits = length lhs /\ limbs (firstn i bits) /\ -1 <= carry <= 0 /\
    vl bits i + carry * Bp i = vl lhs i - vl rhs i).
  eapply (bind_case _ _ (I (length rhs))).
  { eapply wp_for_up with (I := I).
    - unfold I. repeat split; try lia; try constructor.
    - intros i [b carry] Hi (Hb & Hlb & Hc & Hv).
      pose proof (limbs_nth _ i Hl) as H0. pose proof (limbs_nth _ i Hr) as H1.
      repeat wstep; try lia; try (num; lia).
      set (t := nth i lhs 0 + carry - nth i rhs 0).
      assert (-1 <= Z.shiftr t 32 < 1).
      { apply shiftr32_range. subst t. num; lia. }
      unfold I. repeat split; try lia.
      + rewrite length_upd; lia.
      + apply pfx_step; [lia|assumption|apply u32_limb].
      + rewrite vl_upd_S, !vl_S, Bp_S by lia.
        rewrite (carry_step _ _ _ (nth i lhs 0 - nth i rhs 0) _ t Hv) by (unfold t; ring). ring.
    - intros st HI. exact HI. }
  intros [b carry] HI.
  eapply (bind_case _ _ (I (length lhs))).
  { eapply wp_for_up with (I := I); [exact HI| |].
    - intros i [b' carry'] Hi (Hb & Hlb & Hc & Hv).
      pose proof (limbs_nth _ i Hl) as H0.
      repeat wstep; try lia; try (num; lia).
      set (t := nth i lhs 0 + carry').
      assert (-1 <= Z.shiftr t 32 < 1).
      { apply shiftr32_range. subst t. num; lia. }
      unfold I. repeat split; try lia.
      + rewrite length_upd; lia.
      + apply pfx_step; [lia|assumption|apply u32_limb].
      + rewrite vl_upd_S, !vl_S, Bp_S by lia. rewrite (nth_beyond rhs) by lia.
        rewrite (carry_step _ _ _ (nth i lhs 0) _ t Hv) by (unfold t; ring). ring.
    - intros st Hst. replace (length rhs + (length lhs - length rhs))%nat with (length lhs) in Hst by lia. exact Hst. }
  intros [b' carry'] (Hb & Hlb & Hc & Hv).
  rewrite firstn_all2 in Hlb by lia.
  rewrite (vl_ge b'), vl_all, (vl_ge rhs) in Hv by lia.
  apply HQ; auto.
Qed.

Lemma wrap_value v carry d M : 0 <= v < M -> v + carry * M = d -> v = d mod M.
Proof. intros Hv <-. rewrite Z.mod_add by lia. symmetry. now apply Z.mod_small. Qed.

Lemma calc_sub_raw c lhs rhs :
  lhs <> [] -> rhs <> [] -> limbs lhs -> limbs rhs -> (length rhs <= length lhs)%nat ->
  ((length rhs < length lhs)%nat \/ val rhs <= val lhs) ->
  if dbg c && (val lhs - val rhs <? 0) then calc_sub c lhs rhs = AssertFail
  else exists r, calc_sub c lhs rhs = Ret r /\ limbs r /\ val r = (val lhs - val rhs) mod Bp (length lhs).
Proof.
  intros Hn1 Hn2 Hl Hr Hlen Hge.
  assert (forall Q : outcome (list Z) -> Prop, Q (calc_sub_core c lhs rhs (zeros (length lhs))) -> Q (calc_sub c lhs rhs)) as Hred.
  { intros Q HQ. unfold calc_sub.
    apply massert_case; [now rewrite is_nil_false|]. apply massert_case; [now rewrite is_nil_false|].
    apply massert_case; [now apply Nat.leb_le|].
    eapply (bind_case _ _ (fun _ => True)).
    { destruct (dbg c) eqn:Ed; [|exact Logic.I]. wstep. unfold calc_compare, massert. rewrite Ed.
      rewrite !is_nil_false by assumption. cbn [negb bind].
      destruct (Nat.ltb_spec (length lhs) (length rhs)) as [H1|H1]; [lia|].
      destruct (Nat.ltb_spec (length rhs) (length lhs)) as [H2|H2]; [exact Logic.I|].
      rewrite compare_loop_spec by (auto; lia). rewrite vl_all, (vl_ge rhs) by lia. wstep.
      destruct (Z.compare_spec (val lhs) (val rhs)); try exact Logic.I. lia. }
    intros _ _. exact HQ. }
  apply (Hred (fun o => if dbg c && (val lhs - val rhs <? 0) then o = AssertFail
    else exists r, o = Ret r /\ limbs r /\ val r = (val lhs - val rhs) mod Bp (length lhs))).
  apply (calc_sub_core_case c lhs rhs (zeros (length lhs)) (fun o => if dbg c && (val lhs - val rhs <? 0) then o = AssertFail
    else exists r, o = Ret r /\ limbs r /\ val r = (val lhs - val rhs) mod Bp (length lhs))); auto; [apply length_zeros|].
  intros b carry Hb Hlb Hc Hv. pose proof (val_bound _ Hlb) as Hvb. rewrite Hb in Hvb.
  assert (val b = (val lhs - val rhs) mod Bp (length lhs)) as Hval by (eapply wrap_value; eauto).
  unfold massert. destruct (dbg c); cbn [andb].
  2:{ exists b. auto. }
  destruct (Z.ltb_spec (val lhs - val rhs) 0) as [Hn|Hn].
  - assert (carry = -1) as -> by (destruct (Z.eq_dec carry 0); [subst; lia|lia]). reflexivity.
  - assert (carry = 0) as ->.
    { destruct (Z.eq_dec carry 0); [assumption|]. assert (carry = -1) as -> by lia. lia. }
    exists b. auto.
Qed.

Lemma calc_sub_u_raw c lhs rhs :
  lhs <> [] -> limbs lhs -> limb rhs ->
  if dbg c && Nat.eqb (length lhs) 1 && (val lhs - rhs <? 0) then calc_sub_u c lhs rhs = AssertFail
  else exists r, calc_sub_u c lhs rhs = Ret r /\ limbs r /\ val r = (val lhs - rhs) mod Bp (length lhs).
Proof.
  intros Hne Hl Hr.
  assert (0 < length lhs)%nat as Hlen by (destruct lhs; [congruence|cbn [length]; lia]).
  pose proof (limbs_nth _ 0 Hl) as H0.
  destruct (dbg c && Nat.eqb (length lhs) 1 && (val lhs - rhs <? 0)) eqn:E.
  { apply andb_prop in E as [E E3]. apply andb_prop in E as [E1 E2].
    apply Nat.eqb_eq in E2. apply Z.ltb_lt in E3.
    destruct lhs as [|x [|y t]]; try discriminate. unfold calc_sub_u, massert. rewrite E1.
    cbn [is_nil negb bind rd nth_error length]. cbn [val] in E3.
    rewrite (proj2 (Z.leb_gt rhs x)) by lia. reflexivity. }
  destruct (wp_inv (calc_sub_u c lhs rhs) (fun r => limbs r /\ val r = (val lhs - rhs) mod Bp (length lhs))) as (r & E1 & E2 & E3).
  2:{ exists r. auto. }
  unfold calc_sub_u. wstep. wstep. { now rewrite is_nil_false. }
  wstep. eapply wp_mono with (P := fun _ => True).
  { destruct (dbg c); [|exact Logic.I]. repeat wstep; try lia; auto.
    apply orb_true_iff. rewrite Z.leb_le, Nat.leb_le. cbn [andb] in E.
    destruct (Nat.eqb_spec (length lhs) 1) as [E1|E1]; [|right; lia]. cbn [andb] in E. apply Z.ltb_ge in E.
    left. destruct lhs as [|x [|y t]]; try discriminate. cbn [nth val] in *. lia. }
  intros _ _. repeat wstep; try lia.
  { num; lia. }
  { rewrite length_zeros; lia. }
  eapply wp_for_up with (I := fun i st =>
    let '(bits, carry) := st in
    length bits = length lhs /\ limbs (firstn i bits) /\ -1 <= carry <= 0 /\
    vl bits i + carry * Bp i = vl lhs i - rhs).
  - set (t := nth 0 lhs 0 - rhs).
    assert (-1 <= Z.shiftr t 32 < 1).
    { apply shiftr32_range. subst t. num; lia. }
    repeat split; try lia.
    + rewrite length_upd, length_zeros. lia.
    + apply pfx_step; [rewrite length_zeros; lia|constructor|apply u32_limb].
    + rewrite vl_upd_S by (rewrite length_zeros; lia).
      rewrite vl_0, !vl_S, vl_0, !Bp_0, Bp_1.
      pose proof (split32 t) as Hs. unfold t in *. lia.
  - intros i [bits carry] Hi (Hb & Hlb & Hc & Hv).
    pose proof (limbs_nth _ i Hl) as Hi0.
    repeat wstep; try lia.
    + num; lia.
    + set (t := nth i lhs 0 + carry).
      assert (-1 <= Z.shiftr t 32 < 1).
      { apply shiftr32_range. subst t. num; lia. }
      repeat split; try lia.
      * rewrite length_upd; lia.
      * apply pfx_step; [lia|assumption|apply u32_limb].
      * rewrite vl_upd_S, vl_S, Bp_S by lia.
        rewrite (carry_step _ _ _ (nth i lhs 0) _ t Hv) by (unfold t; ring). ring.
  - intros [bits carry] (Hb & Hlb & Hc & Hv).
    replace (1 + (length lhs - 1))%nat with (length lhs) in * by lia.
    rewrite firstn_all2 in Hlb by lia.
    rewrite (vl_ge bits), vl_all in Hv by lia.
    pose proof (val_bound _ Hlb) as Hvb. rewrite Hb in Hvb.
    wstep. split; [exact Hlb|]. eapply wrap_value; eauto.
Qed.

Lemma abs32_int c t : - 2 ^ 31 <= t < 2 ^ 31 ->
  abs32 c t = if strict c && (t =? - 2 ^ 31) then Undef SignedOverflow else Ret (Z.abs t).
Proof.
  change (2 ^ 31) with 2147483648. intros H. unfold abs32, chk32.
  destruct (Z.eqb_spec t (- (2147483648))) as [->|N].
  - cbn. destruct (strict c); reflexivity.
  - rewrite Bool.andb_false_r. rewrite !(proj2 (Z.leb_le _ _)) by (num; lia). cbn [andb bind].
    now rewrite u32_small by (num; lia).
Qed.

Lemma of_mag_signed c l (neg : bool) z :
  limbs l -> val l = z -> returns (bi_of_mag c l neg) (if neg then - z else z).
Proof. intros H E. apply returns_wp, mag_result; [exact H|]. now rewrite E. Qed.
