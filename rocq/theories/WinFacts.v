(** Facts about the LLP64 reading (WinCalc.v, WinBigInt.v). *)
From Verif Require Import Facts CalcAddSub CalcSquMul AddSubFacts SquMulFacts Spec SpecFacts BigInt BigIntFacts.
From Verif Require Import WinCalc WinBigInt SpecWin.
Ltac Zify.zify_post_hook ::= idtac.

Notation UB := (Undef ShiftRange) (only parsing).

(** ** Undefined behaviour or a result *)

Definition orub {A} (o : outcome A) (Q : A -> Prop) : Prop := o = UB \/ wp o Q.

Lemma ub_bind {A B} (m : outcome A) (k : A -> outcome B) P :
  orub m P -> (forall a, P a -> k a = UB) -> bind m k = UB.
Proof.
  intros [->|H] K; [reflexivity|]. apply wp_inv in H. destruct H as (a & -> & Ha). now apply K.
Qed.

Lemma ub_bind_wp {A B} (m : outcome A) (k : A -> outcome B) P :
  wp m P -> (forall a, P a -> k a = UB) -> bind m k = UB.
Proof. intros H. apply ub_bind. now right. Qed.

Lemma ub_massert {B} c b (k : unit -> outcome B) : b = true -> k tt = UB -> bind (massert c b) k = UB.
Proof. intros -> H. unfold massert. destruct (dbg c); exact H. Qed.

Lemma ub_rd {B} l i (k : Z -> outcome B) : (i < length l)%nat -> k (nth i l 0) = UB -> bind (rd l i) k = UB.
Proof. intros H K. eapply ub_bind_wp; [apply wp_rd with (Q := fun v => v = nth i l 0); auto|]. now intros ? ->. Qed.

Lemma ub_wr {B} l i v (k : list Z -> outcome B) :
  (i < length l)%nat -> k (upd l i v) = UB -> bind (wr l i v) k = UB.
Proof. intros H K. eapply ub_bind_wp; [apply wp_wr with (Q := fun r => r = upd l i v); auto|]. now intros ? ->. Qed.

Lemma ub_for_up {T B} n start body (s : T) (k : T -> outcome B) :
  (0 < n)%nat -> body start s = UB -> bind (for_up n start body s) k = UB.
Proof. intros H K. destruct n; [lia|]. cbn [for_up]. now rewrite K. Qed.

Lemma ub_first {A B} (m : outcome A) (k : A -> outcome B) : m = UB -> bind m k = UB.
Proof. now intros ->. Qed.

Lemma ub_dbg {B} c (m : outcome unit) (k : unit -> outcome B) :
  wp m (fun _ => True) -> k tt = UB -> bind (if dbg c then m else Ret tt) k = UB.
Proof.
  intros H K. eapply ub_bind_wp with (P := fun _ => True); [destruct (dbg c); [exact H|exact Logic.I]|].
  now intros [] _.
Qed.

(** ** The functions that shift a long by 32 *)

Lemma nonempty_length (l : list Z) : l <> [] -> (0 < length l)%nat.
Proof. destruct l; [congruence|cbn; lia]. Qed.

Lemma calc_sub_u_w_ub c lhs rhs :
  lhs <> [] -> limbs lhs -> limb rhs -> rhs <= val lhs -> calc_sub_u_w None c lhs rhs = UB.
Proof.
  intros Hne Hl Hr Hge. unfold calc_sub_u_w. pose proof (nonempty_length _ Hne) as Hlen.
  pose proof (limbs_nth _ 0 Hl) as H0.
  apply ub_massert; [now rewrite is_nil_false|].
  apply ub_dbg.
  { repeat wstep; try lia; auto. apply orb_true_iff. rewrite Z.leb_le, Nat.leb_le.
    destruct lhs as [|x [|y t]]; cbn [length nth val] in *; [lia| |right; lia].
    left. lia. }
  apply ub_rd; [lia|]. cbv zeta. apply ub_wr; [rewrite length_zeros; lia|]. reflexivity.
Qed.

Lemma calc_sub_core_w_ub c lhs rhs bits :
  limbs lhs -> limbs rhs -> (0 < length rhs <= length lhs)%nat ->
  val rhs <= val lhs -> length bits = length lhs -> calc_sub_core_w None c lhs rhs bits = UB.
Proof.
  intros Hl Hr Hlen Hge Hb. unfold calc_sub_core_w.
  apply ub_massert; [apply Nat.leb_le; lia|].
  apply ub_dbg.
  { wstep. eapply wp_mono; [apply calc_compare_core_ge; auto; lia|].
    intros z Hz. wstep; auto. now apply Z.leb_le. }
  apply ub_massert; [now apply Nat.eqb_eq|].
  apply ub_for_up; [lia|]. apply ub_rd; [lia|]. apply ub_rd; [lia|]. cbv zeta.
  apply ub_wr; [lia|]. reflexivity.
Qed.

Lemma calc_sub_w_ub c lhs rhs :
  lhs <> [] -> rhs <> [] -> limbs lhs -> limbs rhs -> (length rhs <= length lhs)%nat ->
  val rhs <= val lhs -> calc_sub_w None c lhs rhs = UB.
Proof.
  intros Hn1 Hn2 Hl Hr Hlen Hge. unfold calc_sub_w. pose proof (nonempty_length _ Hn2).
  apply ub_massert; [now rewrite is_nil_false|].
  apply ub_massert; [now rewrite is_nil_false|].
  apply ub_massert; [now apply Nat.leb_le|].
  apply ub_dbg.
  { wstep. assert (calc_compare c lhs rhs = calc_compare_core c lhs rhs) as ->.
    { unfold calc_compare, calc_compare_core, massert.
      rewrite !is_nil_false by assumption. now destruct (dbg c). }
    eapply wp_mono; [apply calc_compare_core_ge; auto|].
    intros z Hz. wstep; auto. now apply Z.leb_le. }
  apply calc_sub_core_w_ub; auto; try lia. apply length_zeros.
Qed.

Lemma calc_sub_self_w_ub c lhs rhs :
  (0 < length rhs)%nat -> (0 < length lhs)%nat -> calc_sub_self_w None c lhs rhs = UB.
Proof.
  intros H1 H2. unfold calc_sub_self_w. apply ub_for_up; [lia|].
  apply ub_rd; [lia|]. apply ub_rd; [lia|]. cbv zeta. apply ub_wr; [lia|]. reflexivity.
Qed.

Lemma calc_subtract_core_w_ub c lhs rhs core :
  (0 < length rhs <= length lhs)%nat -> (length lhs <= length core)%nat ->
  calc_subtract_core_w None c lhs rhs core = UB.
Proof.
  intros H1 H2. unfold calc_subtract_core_w.
  apply ub_massert; [apply Nat.leb_le; lia|]. apply ub_massert; [apply Nat.leb_le; lia|].
  apply ub_for_up; [lia|]. apply ub_rd; [lia|]. apply ub_rd; [lia|]. apply ub_rd; [lia|].
  cbv zeta. apply ub_wr; [lia|]. reflexivity.
Qed.

(** ** Addition of one limb *)

Lemma s32_01 x : 0 <= x <= 1 -> s32 x = x.
Proof. intros. apply s32_small. num; lia. Qed.

Lemma Bp_2 : Bp 2 = 2 ^ 64. Proof. reflexivity. Qed.

Lemma calc_add_u_w_spec c lhs rhs :
  lhs <> [] -> limbs lhs -> limb rhs ->
  wp (calc_add_u_w c lhs rhs)
     (fun r => length r = S (length lhs) /\ limbs r /\ val r = carry_dropped (val lhs) rhs).
Proof.
  intros Hne Hl Hr. unfold calc_add_u_w.
  pose proof (nonempty_length _ Hne) as Hlen.
  repeat wstep; try (now rewrite is_nil_false); try lia.
  { pose proof (limbs_nth _ 0 Hl). num; lia. }
  { rewrite length_zeros; lia. }
  set (t := nth 0 lhs 0 + rhs).
  pose proof (limbs_nth _ 0 Hl) as H0.
  assert (0 <= Z.shiftr t 32 < 2) as Ht.
  { apply shiftr32_range. subst t. num; lia. }
  rewrite (s32_01 (Z.shiftr t 32)) by lia.
  set (r1 := nth 1 lhs 0 + Z.shiftr t 32).
  (* what the loop has dropped after limb 1 *)
  set (lost := Z.shiftr r1 32).
  pose proof (limbs_nth _ 1 Hl) as H1.
  assert (0 <= lost < 2) as Hlost.
  { apply shiftr32_range. subst r1. num; lia. }
  eapply wp_for_up with (I := fun i st =>
    let '(bits, carry) := st in
    length bits = S (length lhs) /\ limbs (firstn i bits) /\
    ((i = 1%nat /\ carry = Z.shiftr t 32 /\ vl bits 1 + carry * Bp 1 = vl lhs 1 + rhs) \/
     ((2 <= i)%nat /\ carry = 0 /\ vl bits i = vl lhs i + rhs - lost * Bp 2))).
  - split; [rewrite length_upd, length_zeros; lia|]. split.
    + apply pfx_step; [rewrite length_zeros; lia|constructor|apply u32_limb].
    + left. split; [reflexivity|]. split; [reflexivity|].
      rewrite vl_upd_S by (rewrite length_zeros; lia).
      rewrite vl_0, !vl_S, vl_0, !Bp_0, Bp_1.
      pose proof (split32 t) as Hs. unfold t in *. lia.
  - intros i [bits carry] Hi (Hb & Hlb & HI).
    repeat wstep; try lia.
    assert (0 <= carry <= 1) as Hc by (destruct HI as [(_ & -> & _)|(_ & -> & _)]; lia).
    pose proof (limbs_nth _ i Hl) as Hni.
    set (t' := nth i lhs 0 + carry).
    rewrite (Z.shiftr_div_pow2 (u32 t')) by lia.
    pose proof (u32_range t') as Hu.
    rewrite (Z.div_small (u32 t')) by (unfold W32 in Hu; lia).
    rewrite (u32_small (u32 t')) by exact Hu.
    split; [rewrite length_upd; lia|]. split; [apply pfx_step; [lia|assumption|apply u32_limb]|].
    right. split; [lia|]. split; [reflexivity|].
    rewrite vl_upd_S, vl_S by lia.
    destruct HI as [(-> & Ec & Hv)|(Hi2 & -> & Hv)].
    + assert (t' = r1) as Et by (unfold t', r1; now rewrite Ec).
      pose proof (split32 t') as Hs. rewrite Et in Hs at 3. fold lost in Hs.
      replace (Bp 2) with (W32 * Bp 1) by (rewrite (Bp_S 1); ring).
      replace (u32 t') with (t' - W32 * lost) by lia. unfold t'. rewrite Bp_1 in *. lia.
    + unfold t'. rewrite Z.add_0_r, u32_small by (num; lia). lia.
  - intros [bits carry] (Hb & Hlb & HI).
    replace (1 + (length lhs - 1))%nat with (length lhs) in * by lia.
    wstep; [lia|]. rewrite length_upd. split; [assumption|].
    assert (limbs (firstn (S (length lhs)) (upd bits (length lhs) (u32 carry)))) as HL.
    { apply pfx_step; [lia|assumption|apply u32_limb]. }
    rewrite firstn_all2 in HL by (rewrite length_upd; lia). split; [assumption|].
    rewrite <- (vl_ge _ (S (length lhs))) by (rewrite length_upd; lia).
    rewrite vl_upd_S by lia.
    assert (0 <= carry <= 1) as Hc by (destruct HI as [(_ & -> & _)|(_ & -> & _)]; lia).
    rewrite u32_small by (num; lia).
    unfold carry_dropped.
    destruct HI as [(E1 & Ec & Hv)|(E2 & -> & Hv)].
    + rewrite E1 in *. assert (vl lhs 1 = val lhs) as Ev by (apply vl_ge; lia). rewrite Hv, Ev.
      pose proof (val_bound _ Hl) as Hvb. rewrite E1, Bp_1 in Hvb.
      rewrite Z.mod_small by (unfold W32 in Hvb; lia).
      destruct (Z.leb_spec (2 ^ 64) (val lhs + rhs)); [num; lia|reflexivity].
    + rewrite Hv, vl_all, Z.mul_0_l, Z.add_0_r.
      (* lost is the carry out of bit 63 *)
      assert (val lhs mod 2 ^ 64 = vl lhs 2) as Em.
      { rewrite (val_split lhs 2) by lia. rewrite Bp_2, Z.mul_comm, Z_mod_plus_full.
        apply Z.mod_small. pose proof (vl_bound lhs 2 Hl) as B. rewrite Bp_2 in B. exact B. }
      rewrite Em, Bp_2.
      assert (vl lhs 2 + rhs = u32 t + W32 * u32 r1 + 2 ^ 64 * lost) as Es.
      { rewrite !vl_S, vl_0, Bp_0, Bp_1. pose proof (split32 t) as S1. pose proof (split32 r1) as S2.
        fold lost in S2. unfold t in S1 at 1. unfold r1 in S2 at 1. unfold W32 in *. lia. }
      pose proof (u32_range t) as U1. pose proof (u32_range r1) as U2.
      destruct (Z.leb_spec (2 ^ 64) (vl lhs 2 + rhs)); unfold W32 in *; nia.
Qed.

(** ** Addition and subtraction *)

Lemma inline_yes x : INT_MIN < x <= INT_MAX -> is_inline x = true.
Proof.
  intros H. unfold is_inline. change (2 ^ 31) with 2147483648.
  rewrite (proj2 (Z.ltb_lt _ _)), (proj2 (Z.ltb_lt _ _)) by (num; lia). reflexivity.
Qed.

Lemma inline_no x : 2147483648 <= Z.abs x -> is_inline x = false.
Proof.
  intros H. unfold is_inline. change (2 ^ 31) with 2147483648.
  destruct (Z.ltb_spec (- (2147483648)) x), (Z.ltb_spec x 2147483648); try reflexivity. lia.
Qed.

Lemma parts_inline l s x : parts l s x -> is_inline x = is_nil l.
Proof.
  intros H. inv_parts H.
  - now apply inline_yes.
  - rewrite is_nil_ne by assumption. apply inline_no. signs; lia.
Qed.

Lemma bi_add_parts_w_small w c l s x l' s' y :
  parts l s x -> parts l' s' y -> is_inline x && is_inline y = true ->
  bi_add_parts_w w c l s l' s' = bi_add_parts c l s l' s'.
Proof.
  intros Hx Hy. rewrite (parts_inline _ _ _ Hx), (parts_inline _ _ _ Hy). intros E.
  unfold bi_add_parts_w, bi_add_parts. now rewrite E.
Qed.

Lemma bi_sub_parts_w_small w c l s x l' s' y :
  parts l s x -> parts l' s' y -> is_inline x && is_inline y = true ->
  bi_sub_parts_w w c l s l' s' = bi_sub_parts c l s l' s'.
Proof.
  intros Hx Hy. rewrite (parts_inline _ _ _ Hx), (parts_inline _ _ _ Hy). intros E.
  unfold bi_sub_parts_w, bi_sub_parts. now rewrite E.
Qed.

Lemma bi_add_parts_w_spec w c l s x l' s' y :
  parts l s x -> parts l' s' y -> (y <> 0 -> (x <? 0) = (y <? 0)) ->
  is_inline x && is_inline y = false ->
  wp (bi_add_parts_w w c l s l' s')
     (fun r => represents r (if x <? 0 then - win_mag_sum (- x) (Z.abs y) else win_mag_sum x (Z.abs y))).
Proof.
  intros Hx Hy Hs Hbig. unfold bi_add_parts_w.
  pose proof (parts_sign _ _ _ Hx) as (Hsr & Hsx). pose proof (parts_sign _ _ _ Hy) as (Hsr' & Hsy).
  assert ((if x <? 0 then - win_mag_sum (- x) (Z.abs y) else win_mag_sum x (Z.abs y)) =
          (if x <? 0 then - win_mag_sum (Z.abs x) (Z.abs y) else win_mag_sum (Z.abs x) (Z.abs y))) as ->.
  { destruct (Z.ltb_spec x 0).
    - now rewrite (Z.abs_neq x) by lia.
    - now rewrite (Z.abs_eq x) by lia. }
  assert (forall v, INT_MIN < v <= INT_MAX -> is_inline (Z.abs v) = true) as A1.
  { intros v Hv. apply inline_yes. num; lia. }
  assert (forall m q, 2147483648 <= val m -> q = 1 \/ q = -1 -> is_inline (Z.abs (q * val m)) = false) as A2.
  { intros m q Hm Hq. apply inline_no. signs; lia. }
  assert (forall m q, 2147483648 <= val m -> q = 1 \/ q = -1 -> Z.abs (q * val m) = val m) as A3.
  { intros m q Hm Hq. signs; lia. }
  inv_parts Hx; inv_parts Hy; nils.
  - rewrite !inline_yes in Hbig by assumption. discriminate.
  - wstep. eapply wp_abs32; [num; lia|]. wstep.
    eapply wp_mono; [apply calc_add_u_w_spec; auto using abs_limb|].
    intros r (A & B & C). apply mag_result; auto. rewrite C.
    unfold win_mag_sum. rewrite A1, A3 by assumption. reflexivity.
  - wstep. eapply wp_abs32; [num; lia|]. wstep.
    eapply wp_mono; [apply calc_add_u_w_spec; auto using abs_limb|].
    intros r (A & B & C). apply mag_result; auto. rewrite C, Hsx.
    unfold win_mag_sum. rewrite A2, A1, A3 by assumption. reflexivity.
  - destruct (Nat.ltb_spec (length l) (length l')); wstep.
    all: eapply wp_mono; [apply calc_add_spec; auto; lia|].
    all: intros r (A & B & C); apply mag_result; auto; rewrite C.
    all: rewrite Hsx; unfold win_mag_sum; rewrite !A2, !A3 by assumption; destruct (s * val l <? 0); lia.
Qed.

Lemma length_le_val a b :
  val a <= val b -> limbs a -> limbs b -> a <> [] -> top_nz a -> (length a <= length b)%nat.
Proof.
  intros Hv Ha Hb Hn Ht. destruct (Nat.le_gt_cases (length a) (length b)) as [?|Hgt]; [assumption|].
  pose proof (length_lt_val b a Hb Ha Hn Ht Hgt). lia.
Qed.

Lemma bi_sub_parts_w_ub c l s x l' s' y :
  parts l s x -> parts l' s' y -> is_inline x && is_inline y = false ->
  bi_sub_parts_w None c l s l' s' = UB.
Proof.
  intros Hx Hy Hbig. unfold bi_sub_parts_w.
  pose proof (parts_sign _ _ _ Hx) as (Hsr & Hsx). pose proof (parts_sign _ _ _ Hy) as (Hsr' & Hsy).
  inv_parts Hx; inv_parts Hy; nils.
  - rewrite !inline_yes in Hbig by assumption. discriminate.
  - rewrite abs32_ok by assumption. cbn [bind].
    now rewrite calc_sub_u_w_ub by auto using abs_limb, abs_small_lt.
  - rewrite abs32_ok by assumption. cbn [bind].
    now rewrite calc_sub_u_w_ub by auto using abs_limb, abs_small_lt.
  - rewrite calc_compare_spec by auto. cbn [bind].
    unfold cmpz. destruct (Z.compare_spec (val l) (val l')) as [E|E|E]; cbn [Z.ltb Z.compare].
    + rewrite calc_sub_w_ub by (auto; try lia; apply length_le_val; auto; lia). reflexivity.
    + rewrite calc_sub_w_ub by (auto; try lia; apply length_le_val; auto; lia). reflexivity.
    + rewrite calc_sub_w_ub by (auto; try lia; apply length_le_val; auto; lia). reflexivity.
Qed.

Lemma inline_opp y : is_inline (- y) = is_inline y.
Proof.
  unfold is_inline. change (2 ^ 31) with 2147483648.
  destruct (Z.ltb_spec (- (2147483648)) (- y)), (Z.ltb_spec (- y) 2147483648),
    (Z.ltb_spec (- (2147483648)) y), (Z.ltb_spec y 2147483648); try reflexivity; lia.
Qed.

Lemma bi_add_w_exact c a b x y :
  represents a x -> represents b y -> meets (bi_add_w None c a b) (win_sum x y).
Proof.
  intros Ha Hb. unfold bi_add_w.
  rewrite (assert_valid_ok c a x Ha), (assert_valid_ok c b y Hb). cbn [bind].
  pose proof (repr_parts _ _ Ha) as Pa. pose proof (repr_parts _ _ Hb) as Pb.
  destruct (parts_sign _ _ _ Pa) as (R1 & S1). destruct (parts_sign _ _ _ Pb) as (R2 & S2).
  rewrite S1, S2. unfold win_sum.
  replace (-1 * sign_of b) with (- sign_of b) by ring.
  rewrite (chk32_ok c (- sign_of b)) by (num; lia). cbn [bind].
  destruct (is_inline x && is_inline y) eqn:I.
  - pose proof (bi_add_spec c a b x y Ha Hb) as H. unfold bi_add in H.
    rewrite (assert_valid_ok c a x Ha), (assert_valid_ok c b y Hb), S1, S2 in H. cbn [bind] in H.
    replace (-1 * sign_of b) with (- sign_of b) in H by ring.
    rewrite (chk32_ok c (- sign_of b)) in H by (num; lia). cbn [bind] in H.
    cbn [meets]. apply returns_wp. destruct (xorb (x <? 0) (y <? 0)).
    + rewrite (bi_sub_parts_w_small _ _ _ _ x _ _ (- y)); auto using parts_neg. now rewrite inline_opp.
    + rewrite (bi_add_parts_w_small _ _ _ _ x _ _ y); auto.
  - destruct (xorb (x <? 0) (y <? 0)) eqn:E.
    + cbn [meets]. apply (bi_sub_parts_w_ub _ _ _ x _ _ (- y)); auto using parts_neg. now rewrite inline_opp.
    + cbn [meets]. apply returns_wp.
      assert ((x <? 0) = (y <? 0)) as Es by (destruct (x <? 0), (y <? 0); cbn in E; congruence).
      eapply wp_mono; [apply (bi_add_parts_w_spec None c _ _ x _ _ y); auto|].
      intros r Hr. destruct (Z.ltb_spec x 0).
      * rewrite (Z.abs_neq y) in Hr; [exact Hr|]. symmetry in Es. apply Z.ltb_lt in Es. lia.
      * rewrite (Z.abs_eq y) in Hr; [exact Hr|]. symmetry in Es. now apply Z.ltb_ge in Es.
Qed.

Lemma bi_sub_w_exact c a b x y :
  represents a x -> represents b y -> meets (bi_sub_w None c a b) (win_difference x y).
Proof.
  intros Ha Hb. unfold bi_sub_w.
  rewrite (assert_valid_ok c a x Ha), (assert_valid_ok c b y Hb). cbn [bind].
  pose proof (repr_parts _ _ Ha) as Pa. pose proof (repr_parts _ _ Hb) as Pb.
  destruct (parts_sign _ _ _ Pa) as (R1 & S1). destruct (parts_sign _ _ _ Pb) as (R2 & S2).
  rewrite S1, S2. unfold win_difference.
  replace (-1 * sign_of b) with (- sign_of b) by ring.
  rewrite (chk32_ok c (- sign_of b)) by (num; lia). cbn [bind].
  destruct (is_inline x && is_inline y) eqn:I.
  - pose proof (bi_sub_spec c a b x y Ha Hb) as H. unfold bi_sub in H.
    rewrite (assert_valid_ok c a x Ha), (assert_valid_ok c b y Hb), S1, S2 in H. cbn [bind] in H.
    replace (-1 * sign_of b) with (- sign_of b) in H by ring.
    rewrite (chk32_ok c (- sign_of b)) in H by (num; lia). cbn [bind] in H.
    cbn [meets]. apply returns_wp. destruct (xorb (x <? 0) (y <? 0)).
    + rewrite (bi_add_parts_w_small _ _ _ _ x _ _ (- y)); auto using parts_neg. now rewrite inline_opp.
    + rewrite (bi_sub_parts_w_small _ _ _ _ x _ _ y); auto.
  - destruct (xorb (x <? 0) (y <? 0)) eqn:E.
    + cbn [meets]. apply returns_wp.
      eapply wp_mono; [apply (bi_add_parts_w_spec None c _ _ x _ _ (- y)); auto using parts_neg|].
      * intros Hy. destruct (ltb_opp_false _ _ E); [assumption|lia].
      * now rewrite inline_opp.
      * intros r Hr. destruct (Z.ltb_spec x 0), (Z.ltb_spec y 0); cbn in E; try discriminate.
        -- rewrite Z.abs_opp, (Z.abs_eq y) in Hr by lia. exact Hr.
        -- rewrite Z.abs_opp, (Z.abs_neq y) in Hr by lia. exact Hr.
    + cbn [meets]. now apply (bi_sub_parts_w_ub _ _ _ x _ _ y).
Qed.

(** ** Multiplication *)

Lemma orub_mono {A} (m : outcome A) (P Q : A -> Prop) : orub m P -> (forall a, P a -> Q a) -> orub m Q.
Proof. intros [H|H] K; [now left|right; eapply wp_mono; eauto]. Qed.

Lemma massert_true c b : b = true -> massert c b = Ret tt.
Proof. intros ->. unfold massert. now destruct (dbg c). Qed.

Lemma calc_square_core_w_ub fuel c value bits :
  limbs value -> limbs bits -> length bits = (length value + length value)%nat ->
  (length value < fuel)%nat ->
  calc_square_core_w None fuel c value bits =
    (if Nat.ltb (length value) 32 then square_school value bits else UB).
Proof.
  revert value bits. induction fuel as [|fuel IH]; intros value bits Hl Hbits Hlen Hf; [lia|].
  assert (forall v b, limbs v -> limbs b -> length b = (length v + length v)%nat -> (length v < fuel)%nat ->
    orub (calc_square_core_w None fuel c v b)
      (fun r => length r = (length v + length v)%nat /\ limbs r)) as IH'.
  { intros v b H1 H2 H3 H4. rewrite IH by assumption.
    destruct (Nat.ltb (length v) 32); [right|now left].
    eapply wp_mono; [apply square_school_spec; auto|]. now intros r (? & ? & ?). }
  cbn [calc_square_core_w].
  rewrite (massert_true c) by now apply Nat.eqb_eq. cbn [bind].
  change SquareThreshold with 32%nat.
  destruct (Nat.ltb_spec (length value) 32) as [Hs|Hs]; [reflexivity|].
  pose proof (div2_bounds (length value)) as Hd.
  set (n := Nat.div2 (length value)) in *. cbv zeta.
  eapply ub_bind_wp; [apply wp_slice with (Q := fun r => limbs r /\ length r = n); [lia|]|].
  { split; [now apply limbs_firstn|]. cbn [skipn]. rewrite firstn_length. lia. }
  intros vlo (L1 & L2).
  eapply ub_bind_wp; [apply wp_slice with (Q := fun r => limbs r /\ length r = (length value - n)%nat); [lia|]|].
  { split; [now apply limbs_firstn, limbs_skipn|]. rewrite firstn_length, skipn_length. lia. }
  intros vhi (L3 & L4).
  eapply ub_bind_wp; [apply wp_slice with (Q := fun r => limbs r /\ length r = (n + n)%nat); [lia|]|].
  { split; [now apply limbs_firstn|]. cbn [skipn]. rewrite firstn_length. lia. }
  intros blo (L5 & L6).
  eapply ub_bind; [apply IH'; auto; lia|]. intros low (L7 & L8).
  eapply ub_bind_wp; [apply wp_splice with (Q := fun r => limbs r /\ length r = length bits); [lia|]|].
  { cbn [firstn app Nat.add]. split.
    - apply limbs_app. split; [assumption|now apply limbs_skipn].
    - rewrite app_length, skipn_length. lia. }
  intros bits1 (L9 & L10).
  eapply ub_bind_wp; [apply wp_slice with (Q := fun r => limbs r /\ length r = (length bits - (n + n))%nat); [lia|]|].
  { split; [now apply limbs_firstn, limbs_skipn|]. rewrite firstn_length, skipn_length. lia. }
  intros bhi (L11 & L12).
  eapply ub_bind; [apply IH'; auto; lia|]. intros high (L13 & L14).
  eapply ub_bind_wp; [apply wp_splice with (Q := fun r => True); [lia|exact Logic.I]|]. intros bits2 _.
  eapply ub_bind_wp; [apply calc_add_core_spec; auto; try lia; rewrite length_zeros; lia|].
  intros fold (F1 & F2 & _).
  eapply ub_bind; [apply IH'; auto; try lia; [apply limbs_zeros|rewrite length_zeros; lia]|].
  intros core (C1 & C2).
  apply ub_first. apply calc_subtract_core_w_ub; lia.
Qed.

Lemma calc_mul_core_w_ub fuel c lv rv bits :
  limbs lv -> limbs rv -> (length rv <= length lv)%nat -> (length rv < fuel)%nat ->
  bits = zeros (length lv + length rv) ->
  calc_mul_core_w None fuel c lv rv bits =
    (if Nat.ltb (length rv) 32 then mul_school lv rv bits else UB).
Proof.
  revert lv rv bits. induction fuel as [|fuel IH]; intros lv rv bits Hl Hr Hlen Hf Hb; [lia|].
  assert (forall l r b, limbs l -> limbs r -> (length r <= length l)%nat -> (length r < fuel)%nat ->
    b = zeros (length l + length r) ->
    orub (calc_mul_core_w None fuel c l r b)
      (fun q => length q = (length l + length r)%nat /\ limbs q)) as IH'.
  { intros l r b H1 H2 H3 H4 ->. rewrite IH by auto.
    destruct (Nat.ltb (length r) 32); [right|now left].
    eapply wp_mono; [apply mul_school_spec; auto|now intros q (? & ? & ?)].
    apply limbs_zeros. apply length_zeros. apply vl_zeros. }
  assert (length bits = (length lv + length rv)%nat) as Hbl by (rewrite Hb; apply length_zeros).
  cbn [calc_mul_core_w].
  rewrite (massert_true c) by now apply Nat.leb_le. cbn [bind].
  rewrite (massert_true c) by now apply Nat.eqb_eq. cbn [bind].
  change MultiplyThreshold with 32%nat.
  destruct (Nat.ltb_spec (length rv) 32) as [Hs|Hs]; [reflexivity|].
  pose proof (div2_bounds (length rv)) as Hd.
  set (n := Nat.div2 (length rv)) in *. cbv zeta.
  eapply ub_bind_wp; [apply wp_slice with (Q := fun r => limbs r /\ length r = n); [lia|]|].
  { split; [now apply limbs_firstn|]. cbn [skipn]. rewrite firstn_length. lia. }
  intros llo (L1 & L2).
  eapply ub_bind_wp; [apply wp_slice with (Q := fun r => limbs r /\ length r = (length lv - n)%nat); [lia|]|].
  { split; [now apply limbs_firstn, limbs_skipn|]. rewrite firstn_length, skipn_length. lia. }
  intros lhi (L3 & L4).
  eapply ub_bind_wp; [apply wp_slice with (Q := fun r => limbs r /\ length r = n); [lia|]|].
  { split; [now apply limbs_firstn|]. cbn [skipn]. rewrite firstn_length. lia. }
  intros rlo (L5 & L6).
  eapply ub_bind_wp; [apply wp_slice with (Q := fun r => limbs r /\ length r = (length rv - n)%nat); [lia|]|].
  { split; [now apply limbs_firstn, limbs_skipn|]. rewrite firstn_length, skipn_length. lia. }
  intros rhi (L7 & L8).
  eapply ub_bind_wp; [apply wp_slice with (Q := fun r => r = zeros (n + n)); [lia|]|].
  { cbn [skipn]. rewrite Hb. apply firstn_zeros. lia. }
  intros blo ->.
  eapply ub_bind; [apply IH'; auto; try lia; f_equal; lia|]. intros low (L9 & L10).
  eapply ub_bind_wp; [apply wp_splice with
    (Q := fun r => r = low ++ zeros (length lv + length rv - (n + n))); [lia|]|].
  { cbn [firstn app Nat.add]. rewrite Hb, skipn_zeros. do 2 f_equal. lia. }
  intros bits1 ->.
  assert (length (low ++ zeros (length lv + length rv - (n + n))) = (length lv + length rv)%nat) as Hlb.
  { rewrite app_length, length_zeros. lia. }
  eapply ub_bind_wp; [apply wp_slice with (Q := fun r => r = zeros (length lhi + length rhi)); [lia|]|].
  { rewrite skipn_app_exact by lia. rewrite firstn_zeros by lia. f_equal. lia. }
  intros bhi ->.
  eapply ub_bind; [apply IH'; auto; lia|]. intros high (L13 & L14).
  eapply ub_bind_wp; [apply wp_splice with (Q := fun r => True); [lia|exact Logic.I]|]. intros bits2 _.
  eapply ub_bind_wp; [apply calc_add_core_spec with (lhs := lhi) (rhs := llo); auto; try lia; rewrite length_zeros; lia|].
  intros lfold (F1 & F2 & _).
  eapply ub_bind_wp; [apply calc_add_core_spec with (lhs := rhi) (rhs := rlo); auto; try lia; rewrite length_zeros; lia|].
  intros rfold (F3 & F4 & _).
  eapply ub_bind; [apply IH' with (r := rfold) (l := lfold); auto; try lia; f_equal; lia|].
  intros core (C1 & C2).
  apply ub_first. apply calc_subtract_core_w_ub; lia.
Qed.
