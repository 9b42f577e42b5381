(** calc_mul_core on a target that is not zero: [leaky_product] of SpecModPow.v. *)
From Verif Require Import Facts CalcAddSub AddSubFacts CalcSquMul SquMulFacts SpecFacts BigIntFacts ConvFacts BarrettFacts SpecModPow.

Ltac Zify.zify_post_hook ::= idtac.

(** ** Two runs side by side *)

Definition mirrors {A B} (P : A -> B -> Prop) (o : outcome A) (z : outcome B) : Prop :=
  match z with
  | Ret b => wp o (fun a => P a b)
  | AssertFail => o = AssertFail
  | _ => False
  end.

Lemma mirrors_ret {A B} (P : A -> B -> Prop) a b : P a b -> mirrors P (Ret a) (Ret b).
Proof. exact (fun H => H). Qed.

Lemma mirrors_bind {A B C D} (P : A -> B -> Prop) (Q : C -> D -> Prop) o z (k : A -> outcome C) (k' : B -> outcome D) :
  mirrors P o z -> (forall a b, P a b -> mirrors Q (k a) (k' b)) -> mirrors Q (bind o k) (bind z k').
Proof.
  destruct z as [b| | | |]; cbn [mirrors bind]; try contradiction.
  - intros W H. apply wp_inv in W. destruct W as (a & -> & HP). cbn [bind]. now apply H.
  - intros -> _. reflexivity.
Qed.

Lemma mirrors_left {A B C} (P : A -> Prop) (Q : C -> B -> Prop) o z (k : A -> outcome C) :
  wp o P -> (forall a, P a -> mirrors Q (k a) z) -> mirrors Q (bind o k) z.
Proof. intros W H. apply wp_inv in W. destruct W as (a & -> & HP). cbn [bind]. now apply H. Qed.

Lemma mirrors_mono {A B} (P Q : A -> B -> Prop) o z : mirrors P o z -> (forall a b, P a b -> Q a b) -> mirrors Q o z.
Proof. destruct z; cbn [mirrors]; auto. intros W H. eapply wp_mono; [exact W|]. intros x. apply H. Qed.

Lemma mirrors_wp {A B} (P : A -> B -> Prop) o b : wp o (fun a => P a b) -> mirrors P o (Ret b).
Proof. exact (fun H => H). Qed.

(** ** The pieces *)

Lemma low_Bp n y : low (Z.of_nat n) y = y mod Bp n.
Proof. unfold low. now rewrite Bp_pow2. Qed.

Lemma mul_school_leaky lv rv bits :
  limbs lv -> limbs rv -> limbs bits -> length bits = (length lv + length rv)%nat ->
  wp (mul_school lv rv bits)
     (fun r => length r = (length lv + length rv)%nat /\ limbs r /\ val r = val lv * val rv + vl bits (length lv)).
Proof.
  intros Hl Hr Hbits Hlen. unfold mul_school.
  eapply wp_for_up with (I := fun i b =>
    length b = length bits /\ limbs b /\ vl b (i + length lv) = val lv * vl rv i + vl bits (length lv)).
  - repeat split; auto; rewrite vl_0, Nat.add_0_l; ring.
  - intros i b Hi (Hb & Hlb & Hv). wstep.
    eapply wp_mono; [apply mul_inner_spec; auto; lia|].
    intros [b' carry] (Hb' & Hlb' & Hc & Hv').
    wstep; [lia|].
    repeat split.
    + rewrite length_upd; lia.
    + apply limbs_upd; [assumption|apply u32_limb].
    + replace (S i + length lv)%nat with (S (i + length lv)) by lia.
      rewrite vl_upd_S, vl_S by lia. rewrite u32_small by (num; lia).
      rewrite Hv', Hv. ring.
  - intros b (Hb & Hlb & Hv). rewrite Nat.add_0_l in *. rewrite vl_all in Hv.
    rewrite vl_ge in Hv by lia. repeat split; auto; lia.
Qed.

Lemma mod_of_carry a b carry B : 0 <= a < B -> a + carry * B = b -> a = b mod B.
Proof. intros Ha <-. rewrite Z.mod_add by lia. symmetry. apply Z.mod_small. lia. Qed.

Lemma subtract_core_mod c lhs rhs core :
  limbs lhs -> limbs rhs -> limbs core ->
  (length rhs <= length lhs)%nat -> (length lhs <= length core)%nat ->
  wp (calc_subtract_core c lhs rhs core)
     (fun r => length r = length core /\ limbs r /\ val r = (val core - val lhs - val rhs) mod Bp (length core)).
Proof.
  intros Hl Hr Hk Hlen1 Hlen2. unfold calc_subtract_core.
  wstep. wstep. { now apply Nat.leb_le. }
  wstep. wstep. { now apply Nat.leb_le. }
  set (I := fun i (st : list Z * Z) =>
    let '(b, carry) := st in
    length b = length core /\ limbs b /\ skipn i b = skipn i core /\ -2 <= carry <= 0 /\
    vl b i + carry * Bp i = vl core i - vl lhs i - vl rhs i).
  wstep. eapply wp_for_up with (I := I).
  - unfold I. repeat split; try lia; auto.
  - intros i [b carry] Hi (Hb & Hlb & Hs & Hc & Hv).
    pose proof (limbs_nth _ i Hl) as H0. pose proof (limbs_nth _ i Hr) as H1.
    pose proof (limbs_nth _ i Hk) as H2.
    pose proof (nth_skipn_eq _ _ _ Hs) as Hnth.
    repeat wstep; rewrite ?Hnth; try lia; try (num; lia).
    set (t := nth i core 0 + carry - nth i lhs 0 - nth i rhs 0).
    assert (-2 <= Z.shiftr t 32 < 1).
    { apply shiftr32_range. subst t. num; lia. }
    unfold I. repeat split; try lia.
    + rewrite length_upd; lia.
    + apply limbs_upd; [assumption|apply u32_limb].
    + rewrite skipn_upd by lia. now apply skipn_S_eq.
    + rewrite vl_upd_S, !vl_S, Bp_S by lia.
      rewrite (carry_step _ _ _ (nth i core 0 - nth i lhs 0 - nth i rhs 0) _ t Hv)
        by (unfold t; ring). ring.
  - intros [b carry] HI. wstep.
    eapply wp_for_up with (I := I); [exact HI| |].
    + intros i [b' carry'] Hi (Hb & Hlb & Hs & Hc & Hv).
      pose proof (limbs_nth _ i Hl) as H0. pose proof (limbs_nth _ i Hk) as H2.
      pose proof (nth_skipn_eq _ _ _ Hs) as Hnth.
      repeat wstep; rewrite ?Hnth; try lia; try (num; lia).
      set (t := nth i core 0 + carry' - nth i lhs 0).
      assert (-2 <= Z.shiftr t 32 < 1).
      { apply shiftr32_range. subst t. num; lia. }
      unfold I. repeat split; try lia.
      * rewrite length_upd; lia.
      * apply limbs_upd; [assumption|apply u32_limb].
      * rewrite skipn_upd by lia. now apply skipn_S_eq.
      * rewrite vl_upd_S, !vl_S, Bp_S by lia. rewrite (nth_beyond rhs) by lia.
        rewrite (carry_step _ _ _ (nth i core 0 - nth i lhs 0) _ t Hv) by (unfold t; ring). ring.
    + clear b carry HI. intros [b carry] HI.
      replace (length rhs + (length lhs - length rhs))%nat with (length lhs) in * by lia.
      wstep. eapply wp_for_up_while with (I := I); [exact HI| |].
      * intros i [b' carry'] Hi _ (Hb & Hlb & Hs & Hc & Hv).
        pose proof (limbs_nth _ i Hk) as H2.
        pose proof (nth_skipn_eq _ _ _ Hs) as Hnth.
        repeat wstep; rewrite ?Hnth; try lia; try (num; lia).
        set (t := nth i core 0 + carry').
        assert (-2 <= Z.shiftr t 32 < 1).
        { apply shiftr32_range. subst t. num; lia. }
        unfold I. repeat split; try lia.
        -- rewrite length_upd; lia.
        -- apply limbs_upd; [assumption|apply u32_limb].
        -- rewrite skipn_upd by lia. now apply skipn_S_eq.
        -- rewrite vl_upd_S, !vl_S, Bp_S by lia.
           rewrite (nth_beyond rhs), (nth_beyond lhs) by lia.
           rewrite (carry_step _ _ _ (nth i core 0) _ t Hv) by (unfold t; ring). ring.
      * intros i [b' carry'] Hi (Hb & Hlb & Hs & Hc & Hv) Hend. cbn [snd] in Hend.
        assert (val b' + carry' * Bp i = val core - val lhs - val rhs) as Hval.
        { rewrite (val_split b' i), (val_split core i), Hs by lia.
          rewrite (vl_ge rhs), (vl_ge lhs) in Hv by lia. lia. }
        pose proof (val_bound _ Hlb) as Hvb. rewrite Hb in Hvb.
        wstep. split; [exact Hb|]. split; [exact Hlb|].
        apply mod_of_carry with (carry := carry'); [exact Hvb|]. rewrite <- Hval.
        destruct Hend as [->|Hf].
        -- now replace (length lhs + (length core - length lhs))%nat with (length core) by lia.
        -- apply negb_false_iff, Z.eqb_eq in Hf. rewrite Hf. ring.
Qed.

Lemma add_self_mirrors c lhs rhs :
  lhs <> [] -> rhs <> [] -> limbs lhs -> limbs rhs -> (length rhs <= length lhs)%nat ->
  mirrors (fun r z => length r = length lhs /\ limbs r /\ val r = z) (calc_add_self c lhs rhs)
    (if dbg c && (Bp (length lhs) <=? val lhs + val rhs) then AssertFail
     else Ret ((val lhs + val rhs) mod Bp (length lhs))).
Proof.
  intros Hn1 Hn2 Hl Hr Hlen. unfold calc_add_self.
  assert (0 < length rhs)%nat as Hr0 by (destruct rhs; [congruence|cbn [length]; lia]).
  eapply mirrors_left with (P := fun _ => True).
  { destruct (dbg c); [|exact Logic.I]. repeat wstep; try lia; auto.
    pose proof (limbs_nth _ 0 Hl) as H0. pose proof (limbs_nth _ 0 Hr) as H1.
    apply andb_true_iff. rewrite !Z.leb_le. num; lia. }
  intros _ _. eapply mirrors_left with (P := fun _ => True); [wstep; [now apply Nat.leb_le|exact Logic.I]|]. intros _ _.
  set (I := fun i (st : list Z * Z) =>
    let '(b, carry) := st in
    length b = length lhs /\ limbs b /\ skipn i b = skipn i lhs /\ 0 <= carry <= 1 /\
    vl b i + carry * Bp i = vl lhs i + vl rhs i).
  eapply mirrors_left with (P := I (length rhs)).
  { eapply wp_for_up with (I := I).
    - unfold I. repeat split; try lia; auto.
    - intros i [b carry] Hi (Hb & Hlb & Hs & Hc & Hv).
      pose proof (limbs_nth _ i Hl) as H0. pose proof (limbs_nth _ i Hr) as H1.
      pose proof (nth_skipn_eq _ _ _ Hs) as Hnth.
      repeat wstep; rewrite ?Hnth; try lia; try (num; lia).
      set (t := nth i lhs 0 + carry + nth i rhs 0).
      assert (0 <= Z.shiftr t 32 < 2).
      { apply shiftr32_range. subst t. num; lia. }
      unfold I. repeat split; try lia.
      + rewrite length_upd; lia.
      + apply limbs_upd; [assumption|apply u32_limb].
      + rewrite skipn_upd by lia. now apply skipn_S_eq.
      + rewrite vl_upd_S, !vl_S, Bp_S by lia.
        rewrite (carry_step _ _ _ (nth i lhs 0 + nth i rhs 0) _ t Hv) by (unfold t; ring). ring.
    - intros st H. now rewrite Nat.add_0_l in H. }
  intros [b carry] HI.
  eapply mirrors_left with (P := fun st : list Z * Z => let '(b, carry) := st in
    length b = length lhs /\ limbs b /\ 0 <= carry /\ val b + carry * Bp (length lhs) = val lhs + val rhs).
  { eapply wp_for_up_while with (I := I); [exact HI| |].
    + intros i [b' carry'] Hi _ (Hb & Hlb & Hs & Hc & Hv).
      pose proof (limbs_nth _ i Hl) as H0.
      pose proof (nth_skipn_eq _ _ _ Hs) as Hnth.
      repeat wstep; rewrite ?Hnth; try lia; try (num; lia).
      set (t := nth i lhs 0 + carry').
      assert (0 <= Z.shiftr t 32 < 2).
      { apply shiftr32_range. subst t. num; lia. }
      unfold I. repeat split; try lia.
      * rewrite length_upd; lia.
      * apply limbs_upd; [assumption|apply u32_limb].
      * rewrite skipn_upd by lia. now apply skipn_S_eq.
      * rewrite vl_upd_S, !vl_S, Bp_S by lia. rewrite (nth_beyond rhs) by lia.
        rewrite (carry_step _ _ _ (nth i lhs 0) _ t Hv) by (unfold t; ring). ring.
    + intros i [b' carry'] Hi (Hb & Hlb & Hs & Hc & Hv) Hend. cbn [snd] in Hend.
      assert (val b' + carry' * Bp i = val lhs + val rhs) as Hval.
      { rewrite (val_split b' i), (val_split lhs i), Hs by lia.
        rewrite (vl_ge rhs) in Hv by lia. lia. }
      split; [exact Hb|]. split; [exact Hlb|]. split; [lia|]. rewrite <- Hval. destruct Hend as [->|Hf].
      * now replace (length rhs + (length lhs - length rhs))%nat with (length lhs) by lia.
      * apply negb_false_iff, Z.eqb_eq in Hf. rewrite Hf. ring. }
  clear b carry HI I. intros [b carry] (Hb & Hlb & Hc & Hv). cbn beta iota.
  pose proof (val_bound _ Hlb) as VB. rewrite Hb in VB. pose proof (Bp_pos (length lhs)) as BP.
  unfold massert. destruct (dbg c); cbn [andb].
  - destruct (Z.leb_spec (Bp (length lhs)) (val lhs + val rhs)) as [G|G], (Z.eqb_spec carry 0) as [E|E]; cbn [bind].
    + exfalso. rewrite E in Hv. lia.
    + reflexivity.
    + apply mirrors_ret. split; [exact Hb|]. split; [exact Hlb|]. now apply mod_of_carry with (carry := carry).
    + exfalso. nia.
  - cbn [bind]. apply mirrors_ret. split; [exact Hb|]. split; [exact Hlb|]. now apply mod_of_carry with (carry := carry).
Qed.

(** Recombination. *)
Lemma karatsuba_tail c lo hi core n :
  limbs lo -> limbs hi -> limbs core ->
  length lo = (n + n)%nat -> (2 <= n)%nat -> core <> [] -> (length core <= n + length hi)%nat ->
  let p := val lo + Bp n * val core + Bp (n + n) * val hi in
  mirrors (fun r z => length r = (n + n + length hi)%nat /\ limbs r /\ val r = z)
    (part <- slice (lo ++ hi) n (length (lo ++ hi) - n) ;;
     part <- calc_add_self c part core ;;
     splice (lo ++ hi) n part)
    (if dbg c && (Bp (n + n + length hi) <=? p) then AssertFail else Ret (p mod Bp (n + n + length hi))).
Proof.
  intros H1 H2 H3 Hlow Hn Hc Hlen p.
  assert (limbs (lo ++ hi)) as Hlh by (apply limbs_app; auto).
  assert (length (lo ++ hi) = (n + n + length hi)%nat) as Hll by (rewrite app_length; lia).
  eapply mirrors_left with (P := fun part => length part = (n + length hi)%nat /\ limbs part /\
     vl (lo ++ hi) n + Bp n * val part = val lo + Bp (n + n) * val hi).
  { wstep; [lia|]. rewrite firstn_all2 by (rewrite skipn_length; lia).
    split; [rewrite skipn_length; lia|]. split; [now apply limbs_skipn|].
    rewrite <- val_split by lia. now rewrite val_app, Hlow. }
  intros part (P1 & P2 & P3).
  pose proof (vl_bound (lo ++ hi) n Hlh) as VB. set (v0 := vl (lo ++ hi) n) in *.
  assert (p = v0 + Bp n * (val part + val core)) as Ep by (unfold p; lia).
  assert (Bp (n + n + length hi) = Bp n * Bp (n + length hi)) as EB by (rewrite <- Bp_add; f_equal; lia).
  pose proof (Bp_pos n) as Bn. pose proof (Bp_pos (n + length hi)) as Bm.
  assert ((Bp (n + n + length hi) <=? p) = (Bp (n + length hi) <=? val part + val core)) as Et.
  { rewrite Ep, EB. destruct (Z.leb_spec (Bp (n + length hi)) (val part + val core)) as [G|G].
    - apply Z.leb_le. nia.
    - apply Z.leb_gt. assert (val part + val core + 1 <= Bp (n + length hi)) by lia. nia. }
  assert (part <> []) as Pn by (intros ->; cbn [length] in P1; lia).
  pose proof (add_self_mirrors c part core Pn Hc P2 H3 ltac:(lia)) as W. rewrite P1 in W.
  rewrite Et. destruct (dbg c && _).
  - cbn [mirrors] in W |- *. rewrite W. reflexivity.
  - cbn [mirrors] in W. eapply mirrors_left; [exact W|]. intros r (R1 & R2 & R3). apply mirrors_wp.
    wstep; [lia|]. rewrite skipn_all2 by lia. rewrite app_nil_r. split; [rewrite app_length, firstn_length; lia|].
    split; [apply limbs_app; split; [now apply limbs_firstn|exact R2]|].
    rewrite val_app, firstn_length, Nat.min_l by lia. fold (vl (lo ++ hi) n). fold v0. rewrite R3, Ep, EB.
    rewrite Z.rem_mul_r by lia.
    rewrite (Z.mul_comm (Bp n) (val part + val core)), Z.mod_add, Z.div_add by lia.
    rewrite (Z.mod_small v0) by lia. rewrite (Z.div_small v0) by lia. now rewrite Z.add_0_l.
Qed.

Lemma mul_core_leaky fuel c : forall lv rv bits F,
  limbs lv -> limbs rv -> limbs bits -> (length rv <= length lv)%nat -> length bits = (length lv + length rv)%nat ->
  (length rv < fuel)%nat -> (length rv <= F)%nat ->
  mirrors (fun r z => length r = length bits /\ limbs r /\ val r = z) (calc_mul_core fuel c lv rv bits)
    (leaky_product F (dbg c) (Z.of_nat (length lv)) (Z.of_nat (length rv)) (val lv) (val rv) (val bits)).
Proof.
  induction fuel as [|fuel IH]; intros lv rv bits F Hl Hr Hb Hlen Hbl Hf HF; [lia|]. cbn [calc_mul_core].
  eapply mirrors_left with (P := fun _ => True); [wstep; [now apply Nat.leb_le|exact Logic.I]|]. intros _ _.
  eapply mirrors_left with (P := fun _ => True); [wstep; [now apply Nat.eqb_eq|exact Logic.I]|]. intros _ _.
  destruct (Nat.ltb_spec (length rv) MultiplyThreshold) as [Hs|Hs]; unfold MultiplyThreshold in Hs.
  { assert (leaky_product F (dbg c) (Z.of_nat (length lv)) (Z.of_nat (length rv)) (val lv) (val rv) (val bits) =
      Ret (val lv * val rv + low (Z.of_nat (length lv)) (val bits))) as ->.
    { assert (Z.of_nat (length rv) <? 32 = true) as E by (apply Z.ltb_lt; lia). destruct F; cbn [leaky_product]; now rewrite E. }
    apply mirrors_wp. eapply wp_mono; [apply mul_school_leaky; auto|]. intros r (R1 & R2 & R3).
    split; [lia|]. split; [exact R2|]. rewrite R3, low_Bp, <- (vl_all bits), <- vl_mod by (auto; lia). reflexivity. }
  destruct F as [|F]; [lia|]. cbn [leaky_product].
  rewrite (proj2 (Z.ltb_ge (Z.of_nat (length rv)) 32)) by lia.
  pose proof (div2_bounds (length rv)) as Hd.
  assert (Z.of_nat (length rv) / 2 = Z.of_nat (Nat.div2 (length rv))) as En.
  { rewrite Nat.div2_div, Nat2Z.inj_div. reflexivity. }
  set (n := Nat.div2 (length rv)) in *. rewrite En. cbv zeta.
  assert (forall l k, limbs l -> (k <= length l)%nat -> low (Z.of_nat k) (val l) = val (firstn k l)) as LO.
  { intros l k L K. rewrite low_Bp, <- (vl_all l), <- vl_mod by (auto; lia). reflexivity. }
  assert (forall l k, limbs l -> (k <= length l)%nat -> val l / Bp k = val (skipn k l)) as HI.
  { intros l k L K. rewrite (val_split l k) by lia. pose proof (vl_bound l k L). pose proof (Bp_pos k).
    rewrite (Z.mul_comm (Bp k)), Z.div_add by lia. rewrite Z.div_small by lia. ring. }
  rewrite <- !Bp_pow2.
  replace (2 ^ (64 * Z.of_nat n)) with (Bp (n + n)) by (rewrite Bp_pow2; f_equal; lia).
  replace (2 * Z.of_nat n) with (Z.of_nat (n + n)) by lia.
  rewrite !LO, !HI by (auto; lia).
  eapply mirrors_left with (P := eq (firstn n lv)); [wstep; [lia|]; reflexivity|]. intros ? <-.
  eapply mirrors_left with (P := eq (skipn n lv)); [wstep; [lia|]; rewrite firstn_all2 by (rewrite skipn_length; lia); reflexivity|]. intros ? <-.
  eapply mirrors_left with (P := eq (firstn n rv)); [wstep; [lia|]; reflexivity|]. intros ? <-.
  eapply mirrors_left with (P := eq (skipn n rv)); [wstep; [lia|]; rewrite firstn_all2 by (rewrite skipn_length; lia); reflexivity|]. intros ? <-.
  eapply mirrors_left with (P := eq (firstn (n + n) bits)); [wstep; [lia|]; reflexivity|]. intros ? <-.
  set (llo := firstn n lv). set (lhi := skipn n lv).
  set (rlo := firstn n rv). set (rhi := skipn n rv).
  set (blo := firstn (n + n) bits). set (bhi := skipn (n + n) bits).
  assert (limbs llo /\ limbs lhi /\ limbs rlo /\ limbs rhi /\ limbs blo /\ limbs bhi) as (Hllo & Hlhi & Hrlo & Hrhi & Hblo & Hbhi).
  { repeat split; first [now apply limbs_firstn | now apply limbs_skipn]. }
  assert (length llo = n) as Lllo by (unfold llo; rewrite firstn_length; lia).
  assert (length lhi = (length lv - n)%nat) as Llhi by (unfold lhi; rewrite skipn_length; lia).
  assert (length rlo = n) as Lrlo by (unfold rlo; rewrite firstn_length; lia).
  assert (length rhi = (length rv - n)%nat) as Lrhi by (unfold rhi; rewrite skipn_length; lia).
  assert (length blo = (n + n)%nat) as Lblo by (unfold blo; rewrite firstn_length; lia).
  assert (length bhi = (length lv + length rv - (n + n))%nat) as Lbhi by (unfold bhi; rewrite skipn_length; lia).
  eapply mirrors_bind.
  { pose proof (IH llo rlo blo F Hllo Hrlo Hblo ltac:(lia) ltac:(lia) ltac:(lia) ltac:(lia)) as W.
    rewrite Lllo, Lrlo in W. exact W. }
  intros lo p0 (Lo1 & Lo2 & Lo3).
  eapply mirrors_left with (P := eq (lo ++ bhi)).
  { wstep; [lia|]. cbn [firstn app]. replace (0 + length lo)%nat with (n + n)%nat by lia. reflexivity. }
  intros ? <-.
  eapply mirrors_left with (P := eq bhi).
  { wstep; [rewrite app_length; lia|]. rewrite app_length. rewrite skipn_app_exact by lia.
    rewrite firstn_all2 by lia. reflexivity. }
  intros ? <-.
  eapply mirrors_bind.
  { pose proof (IH lhi rhi bhi F Hlhi Hrhi Hbhi ltac:(lia) ltac:(lia) ltac:(lia) ltac:(lia)) as W.
    rewrite Llhi, Lrhi, !Nat2Z.inj_sub in W by lia. exact W. }
  intros hi p1 (Hi1 & Hi2 & Hi3).
  eapply mirrors_left with (P := eq (lo ++ hi)).
  { wstep; [rewrite app_length; lia|]. rewrite (skipn_all2 (n := (n + n + length hi)%nat)) by (rewrite app_length; lia).
    rewrite app_nil_r, firstn_app_exact by lia. reflexivity. }
  intros ? <-.
  eapply mirrors_left.
  { apply calc_add_core_spec with (lhs := lhi) (rhs := llo); auto; try lia. rewrite length_zeros. lia. }
  intros lfold (Hlf1 & Hlf2 & Hlf3).
  eapply mirrors_left.
  { apply calc_add_core_spec with (lhs := rhi) (rhs := rlo); auto; try lia. rewrite length_zeros. lia. }
  intros rfold (Hrf1 & Hrf2 & Hrf3).
  replace (length lv - n + 1 + (length rv - n + 1))%nat with (length lfold + length rfold)%nat by lia.
  eapply mirrors_left; [apply calc_mul_core_spec; auto; lia|].
  intros core (Hc1 & Hc2 & Hc3).
  eapply mirrors_left.
  { apply subtract_core_mod with (lhs := hi) (rhs := lo); auto; lia. }
  intros core' (Hk1 & Hk2 & Hk3).
  assert (val core' = low (Z.of_nat (length lv) + Z.of_nat (length rv) - Z.of_nat (n + n) + 2)
     ((val llo + val lhi) * (val rlo + val rhi) - p0 - p1)) as Emid.
  { replace (Z.of_nat (length lv) + Z.of_nat (length rv) - Z.of_nat (n + n) + 2) with (Z.of_nat (length core)) by lia.
    rewrite low_Bp, Hk3, Hc3, Hlf3, Hrf3, Hi3, Lo3. f_equal. ring. }
  rewrite <- Emid.
  assert (core' <> []) as Nc by (intros ->; cbn [length] in Hk1; lia).
  pose proof (karatsuba_tail c lo hi core' n Lo2 Hi2 Hk2 ltac:(lia) ltac:(lia) Nc ltac:(lia)) as W. cbv zeta in W.
  rewrite Lo3, Hi3 in W.
  replace (n + n + length hi)%nat with (length lv + length rv)%nat in W by lia.
  replace (Z.of_nat (length lv) + Z.of_nat (length rv)) with (Z.of_nat (length lv + length rv)) by lia.
  rewrite <- Bp_pow2, low_Bp, Hbl. exact W.
Qed.
