(** mod_pow with a modulus of 32 limbs or more: whatever the (wrong) values in
    its buffers are, outside the overrun of LargeModPow.v it performs no
    undefined operation; at worst an assert fails in a debug build. *)
From Verif Require Import Facts Spec AddSubFacts SquMulFacts DivRemFacts DivCoreFacts SpecFacts BigIntFacts SpecApi ConvFacts.
From Verif Require Import CompareFacts CalcAddSub CalcSquMul CalcDivRem CalcPowMod BigInt ConvLaws ShiftFacts WordFacts PowFacts ModPowFacts ModPowApi.
From Verif Require Import SpecReduce ReducerFacts BarrettFacts PowLaws LargeModPow Examples.

Ltac Zify.zify_post_hook ::= idtac.

(** ** Returning, or failing an assert *)

Definition wpa (c : cfg) {A} (o : outcome A) (Q : A -> Prop) : Prop :=
  match o with Ret a => Q a | AssertFail => dbg c = true | _ => False end.

Lemma wpa_wp c {A} (o : outcome A) Q : wp o Q -> wpa c o Q.
Proof. destruct o; simpl; auto; contradiction. Qed.

Lemma wpa_mono c {A} (o : outcome A) (P Q : A -> Prop) : wpa c o P -> (forall a, P a -> Q a) -> wpa c o Q.
Proof. destruct o; simpl; auto. Qed.

Lemma wpa_bind c {A B} (o : outcome A) (k : A -> outcome B) P Q :
  wpa c o P -> (forall a, P a -> wpa c (k a) Q) -> wpa c (bind o k) Q.
Proof. destruct o; simpl; auto. Qed.

Lemma wpa_ret c {A} (a : A) (Q : A -> Prop) : Q a -> wpa c (Ret a) Q.
Proof. exact (fun H => H). Qed.

Lemma wpa_massert c b (Q : unit -> Prop) : Q tt -> wpa c (massert c b) Q.
Proof. intros H. unfold massert. destruct (dbg c) eqn:E; [destruct b; simpl; auto|exact H]. Qed.

Lemma wpa_for_up c {S : Type} n start body (s : S) (I : S -> Prop) :
  I s -> (forall i s, (start <= i < start + n)%nat -> I s -> wpa c (body i s) I) -> wpa c (for_up n start body s) I.
Proof.
  revert start s. induction n as [|n IH]; intros start s H0 Hb; cbn [for_up]; [exact H0|].
  eapply wpa_bind; [apply Hb; [lia|exact H0]|]. intros s' Hs'. apply IH; [exact Hs'|]. intros i t Hi. apply Hb. lia.
Qed.

(** ** The products, for any contents of the target *)

Lemma mul_school_any lv rv bits :
  limbs lv -> limbs rv -> limbs bits -> length bits = (length lv + length rv)%nat ->
  wp (mul_school lv rv bits) (fun r => length r = length bits /\ limbs r).
Proof.
  intros Hl Hr Hbits Hlen. unfold mul_school.
  eapply wp_for_up with (I := fun _ b => length b = length bits /\ limbs b); [auto| |auto].
  intros i b Hi (Hb & Hlb). wstep. eapply wp_mono; [apply mul_inner_spec; auto; lia|].
  intros (b2, carry) (A & B & C & _). wstep; [lia|]. rewrite length_upd. split; [lia|]. apply limbs_upd; [exact B|apply u32_limb].
Qed.

Lemma subtract_core_any c lhs rhs core :
  limbs lhs -> limbs rhs -> limbs core -> (length rhs <= length lhs)%nat -> (length lhs <= length core)%nat ->
  wp (calc_subtract_core c lhs rhs core) (fun r => length r = length core /\ limbs r).
Proof.
  intros Hl Hr Hk Hlen1 Hlen2. unfold calc_subtract_core.
  wstep. wstep. { now apply Nat.leb_le. }
  wstep. wstep. { now apply Nat.leb_le. }
  set (I := fun (i : nat) (st : list Z * Z) =>
    let '(b, carry) := st in length b = length core /\ limbs b /\ -2 <= carry <= 0).
  assert (forall b i t, length b = length core -> limbs b -> - 2 * W32 <= t < W32 -> I i (upd b i (u32 t), Z.shiftr t 32)) as ST.
  { intros b i t Hb Hlb Ht. unfold I. rewrite length_upd. split; [exact Hb|]. split; [apply limbs_upd; [exact Hlb|apply u32_limb]|].
    assert (-2 <= Z.shiftr t 32 < 1) by (apply shiftr32_range; num; lia). lia. }
  assert (forall b i, limbs b -> limb (nth i b 0)) as NT by (intros; now apply limbs_nth).
  wstep. eapply wp_for_up with (I := I).
  - unfold I. repeat split; auto; lia.
  - intros i [b carry] Hi (Hb & Hlb & Hc).
    pose proof (NT _ i Hl) as H0. pose proof (NT _ i Hr) as H1. pose proof (NT _ i Hlb) as H2. unfold limb in *.
    repeat wstep; try lia; try (num; lia). refine (ST b i _ Hb Hlb _). num; lia.
  - intros [b carry] HI. wstep. eapply wp_for_up with (I := I); [exact HI| |].
    + intros i [b' carry'] Hi (Hb & Hlb & Hc).
      pose proof (NT _ i Hl) as H0. pose proof (NT _ i Hlb) as H2. unfold limb in *.
      repeat wstep; try lia; try (num; lia). refine (ST b' i _ Hb Hlb _). num; lia.
    + intros [b' carry'] HI'. wstep. eapply wp_for_up_while with (I := I); [exact HI'| |].
      * intros i [b2 carry2] Hi _ (Hb & Hlb & Hc). pose proof (NT _ i Hlb) as H2. unfold limb in *.
        repeat wstep; try lia; try (num; lia). refine (ST b2 i _ Hb Hlb _). num; lia.
      * intros i [b2 carry2] Hi (Hb & Hlb & Hc) _. wstep. auto.
Qed.

Lemma add_self_any c lhs rhs :
  lhs <> [] -> rhs <> [] -> limbs lhs -> limbs rhs -> (length rhs <= length lhs)%nat ->
  wpa c (calc_add_self c lhs rhs) (fun r => length r = length lhs /\ limbs r).
Proof.
  intros Hn1 Hn2 Hl Hr Hlen. unfold calc_add_self.
  assert (0 < length rhs)%nat as Hr0 by (destruct rhs; [congruence|cbn [length]; lia]).
  eapply wpa_bind with (P := fun _ => True).
  { destruct (dbg c) eqn:E; [|exact Logic.I]. eapply wpa_bind with (P := fun _ => True); [apply wpa_wp; wstep; [lia|exact Logic.I]|]. intros.
    eapply wpa_bind with (P := fun _ => True); [apply wpa_wp; wstep; [lia|exact Logic.I]|]. intros. now apply wpa_massert. }
  intros _ _. eapply wpa_bind with (P := fun _ => True); [now apply wpa_massert|]. intros _ _.
  set (I := fun (i : nat) (st : list Z * Z) =>
    let '(b, carry) := st in length b = length lhs /\ limbs b /\ 0 <= carry <= 1).
  assert (forall b i t, length b = length lhs -> limbs b -> 0 <= t < 2 * W32 -> I i (upd b i (u32 t), Z.shiftr t 32)) as ST.
  { intros b i t Hb Hlb Ht. unfold I. rewrite length_upd. split; [exact Hb|]. split; [apply limbs_upd; [exact Hlb|apply u32_limb]|].
    assert (0 <= Z.shiftr t 32 < 2) by (apply shiftr32_range; num; lia). lia. }
  assert (forall b i, limbs b -> limb (nth i b 0)) as NT by (intros; now apply limbs_nth).
  eapply wpa_bind with (P := I O).
  { apply wpa_wp. eapply wp_for_up with (I := I).
    - unfold I. repeat split; auto; lia.
    - intros i [b carry] Hi (Hb & Hlb & Hc).
      pose proof (NT _ i Hr) as H1. pose proof (NT _ i Hlb) as H2. unfold limb in *.
      repeat wstep; try lia; try (num; lia). refine (ST b i _ Hb Hlb _). num; lia.
    - intros s H. exact H. }
  intros [b carry] HI. eapply wpa_bind with (P := I O).
  { apply wpa_wp. eapply wp_for_up_while with (I := I); [exact HI| |].
    - intros i [b2 carry2] Hi _ (Hb & Hlb & Hc). pose proof (NT _ i Hlb) as H2. unfold limb in *.
      repeat wstep; try lia; try (num; lia). refine (ST b2 i _ Hb Hlb _). num; lia.
    - intros i s Hi H _. exact H. }
  intros [b2 carry2] (Hb & Hlb & _). eapply wpa_bind with (P := fun _ => True); [now apply wpa_massert|]. intros _ _.
  apply wpa_ret. auto.
Qed.

Lemma mul_core_any fuel c : forall lv rv bits,
  limbs lv -> limbs rv -> limbs bits -> (length rv <= length lv)%nat -> length bits = (length lv + length rv)%nat ->
  (length rv < fuel)%nat ->
  wpa c (calc_mul_core fuel c lv rv bits) (fun r => length r = length bits /\ limbs r).
Proof.
  induction fuel as [|fuel IH]; intros lv rv bits Hl Hr Hb Hlen Hbl Hf; [lia|]. cbn [calc_mul_core].
  eapply wpa_bind with (P := fun _ => True); [now apply wpa_massert|]. intros _ _.
  eapply wpa_bind with (P := fun _ => True); [now apply wpa_massert|]. intros _ _.
  destruct (Nat.ltb_spec (length rv) MultiplyThreshold) as [Hs|Hs]; [apply wpa_wp, mul_school_any; auto|].
  unfold MultiplyThreshold in Hs.
  set (n := Nat.div2 (length rv)).
  assert (16 <= n /\ n + n <= length rv)%nat as (N1 & N2).
  { unfold n. pose proof (Nat.div2_odd (length rv)) as D. destruct (Nat.odd (length rv)); cbn [Nat.b2n] in D; lia. }
  clearbody n. cbn beta zeta.
  assert (forall l off len (k : list Z -> outcome (list Z)) Q, (off + len <= length l)%nat -> limbs l ->
    (forall s, length s = len -> limbs s -> wpa c (k s) Q) -> wpa c (bind (slice l off len) k) Q) as SL.
  { intros l off len k Q H1 H2 H3. eapply wpa_bind with (P := eq _); [apply wpa_wp, wp_slice; [exact H1|reflexivity]|].
    intros s <-. apply H3; [rewrite firstn_length, skipn_length; lia|now apply limbs_firstn, limbs_skipn]. }
  assert (forall l off s (k : list Z -> outcome (list Z)) Q, (off + length s <= length l)%nat -> limbs l -> limbs s ->
    (forall t, length t = length l -> limbs t -> wpa c (k t) Q) -> wpa c (bind (splice l off s) k) Q) as SP.
  { intros l off s k Q H1 H2 H3 H4. eapply wpa_bind with (P := eq _); [apply wpa_wp, wp_splice; [exact H1|reflexivity]|].
    intros t <-. apply H4; [rewrite !app_length, firstn_length, skipn_length; lia|].
    apply limbs_app. split; [now apply limbs_firstn|]. apply limbs_app. split; [exact H3|now apply limbs_skipn]. }
  apply SL; [lia|exact Hl|]. intros ll LL1 LL2. apply SL; [lia|exact Hl|]. intros lh LH1 LH2.
  apply SL; [lia|exact Hr|]. intros rl RL1 RL2. apply SL; [lia|exact Hr|]. intros rh RH1 RH2.
  apply SL; [lia|exact Hb|]. intros bl BL1 BL2.
  eapply wpa_bind; [apply (IH ll rl bl); auto; lia|]. intros bl' (BL3 & BL4).
  apply SP; [lia|exact Hb|exact BL4|]. intros b1 B1 B2.
  apply SL; [lia|exact B2|]. intros bh BH1 BH2.
  eapply wpa_bind; [apply (IH lh rh bh); auto; lia|]. intros bh' (BH3 & BH4).
  apply SP; [lia|exact B2|exact BH4|]. intros b2 B3 B4.
  eapply wpa_bind; [apply wpa_wp, (calc_add_core_spec c lh ll); auto; rewrite ?length_zeros; lia|]. intros lf (LF1 & LF2 & _).
  eapply wpa_bind; [apply wpa_wp, (calc_add_core_spec c rh rl); auto; rewrite ?length_zeros; lia|]. intros rf (RF1 & RF2 & _).
  eapply wpa_bind; [apply (IH lf rf); auto using limbs_zeros; rewrite ?length_zeros; lia|]. intros core (C1 & C2). rewrite length_zeros in C1.
  eapply wpa_bind; [apply wpa_wp, (subtract_core_any c bh' bl' core); auto; lia|]. intros core' (C3 & C4).
  apply SL; [lia|exact B4|]. intros part P1 P2.
  eapply wpa_bind; [apply (add_self_any c part core'); auto; try lia|].
  { intros ->. cbn [length] in P1. lia. }
  { intros ->. cbn [length] in C3. lia. }
  intros part' (P3 & P4). apply wpa_wp. wstep; [lia|].
  split; [rewrite !app_length, firstn_length, skipn_length; lia|].
  apply limbs_app. split; [now apply limbs_firstn|]. apply limbs_app. split; [exact P4|now apply limbs_skipn].
Qed.

(** ** The loops *)

Section Safe.
Variables (c : cfg) (m : list Z).
Hypothesis Hm : limbs m.
Hypothesis Hne : m <> [].
Hypothesis Ht : top_nz m.
Let n := length m.
Let size := (n + n)%nat.
Hypothesis Hn : (32 <= n)%nat.

(** The modulus is not a power of the base. *)
Let wide := Bp (n - 1) < val m.

Definition sized (b : bitsbuf) : Prop := limbs (bb_bits b) /\ length (bb_bits b) = size.
Definition fresh (b : bitsbuf) : Prop :=
  sized b /\ (bb_len b <= size)%nat /\ exact_len (vl (bb_bits b) (bb_len b)) (bb_len b).
Definition res_ok (b : bitsbuf) : Prop := sized b /\ (bb_len b <= n)%nat /\ (wide \/ (bb_len b <= n - 1)%nat).
Definition val_ok (b : bitsbuf) : Prop :=
  sized b /\ (bb_len b <= n)%nat /\
  (wide \/ vl (bb_bits b) (bb_len b) * vl (bb_bits b) (bb_len b) < Bp (n + n - 1)).

Lemma res_val b : res_ok b -> val_ok b.
Proof.
  intros (S & L & D). split; [exact S|]. split; [exact L|]. destruct D as [D|D]; [now left|right].
  pose proof (vl_bound (bb_bits b) (bb_len b) (proj1 S)) as VB. pose proof (Bp_le _ _ D) as BL.
  assert (vl (bb_bits b) (bb_len b) * vl (bb_bits b) (bb_len b) < Bp (n - 1) * Bp n) as K.
  { pose proof (Bp_le (n - 1) n ltac:(lia)). pose proof (Bp_pos n). pose proof (Bp_pos (n - 1)).
    apply Z.mul_lt_mono_nonneg; lia. }
  rewrite <- Bp_add in K. now replace (n - 1 + n)%nat with (n + n - 1)%nat in K by lia.
Qed.

Lemma apply_any this temp total :
  sized this -> sized temp -> (bb_len this <= size)%nat -> (total <= size)%nat ->
  wp (buf_apply this temp total) (fun r => fresh (fst r) /\ (bb_len (fst r) <= total)%nat /\
    vl (bb_bits (fst r)) (bb_len (fst r)) = vl (bb_bits temp) total /\ sized (snd r)).
Proof.
  intros (S1 & S2) (T1 & T2) Hl Htot. unfold buf_apply. wstep. wstep; [lia|].
  wstep. eapply wp_mono; [apply actual_exact; [exact T1|lia]|]. intros k (K1 & K2 & K3). wstep.
  cbn [fst snd bb_bits bb_len]. unfold fresh, sized. cbn [bb_bits bb_len]. rewrite K2.
  split; [split; [auto|split; [lia|exact K3]]|]. split; [lia|]. split; [reflexivity|].
  split.
  - apply limbs_app. split; [|now apply limbs_skipn]. apply Forall_forall. intros x Hx. apply repeat_spec in Hx. subst x. num; lia.
  - rewrite app_length, repeat_length, skipn_length. lia.
Qed.

Lemma mul_any this value temp :
  sized this -> sized value -> sized temp -> (bb_len this <= n)%nat -> (bb_len value <= n)%nat ->
  wpa c (buf_mul_self c this value temp) (fun r =>
    fresh (fst r) /\ (bb_len (fst r) <= bb_len this + bb_len value)%nat /\ sized (snd r)).
Proof.
  intros Hs Hv Htm L1 L2. pose proof Hs as (S1 & S2). pose proof Hv as (V1 & V2). pose proof Htm as (T1 & T2).
  unfold buf_mul_self. unfold size in *.
  eapply wpa_bind with (P := eq _); [apply wpa_wp; wstep; [lia|reflexivity]|]. intros p <-. cbn [skipn].
  eapply wpa_bind with (P := eq _); [apply wpa_wp; wstep; [lia|reflexivity]|]. intros q <-. cbn [skipn].
  eapply wpa_bind with (P := eq _); [apply wpa_wp; wstep; [lia|reflexivity]|]. intros t <-. cbn [skipn].
  set (p := firstn (bb_len this) (bb_bits this)). set (q := firstn (bb_len value) (bb_bits value)).
  set (t := firstn (bb_len this + bb_len value) (bb_bits temp)).
  assert (limbs p /\ limbs q /\ limbs t) as (P1 & Q1 & U1) by (repeat split; now apply limbs_firstn).
  assert (length p = bb_len this) as P2 by (unfold p; rewrite firstn_length; lia).
  assert (length q = bb_len value) as Q2 by (unfold q; rewrite firstn_length; lia).
  assert (length t = (bb_len this + bb_len value)%nat) as U2 by (unfold t; rewrite firstn_length; lia).
  clearbody p q t.
  eapply wpa_bind with (P := fun r => length r = (bb_len this + bb_len value)%nat /\ limbs r).
  { rewrite <- U2. destruct (Nat.ltb_spec (bb_len this) (bb_len value)); apply mul_core_any; auto; lia. }
  intros r (R1 & R2).
  eapply wpa_bind with (P := fun l => limbs l /\ length l = (n + n)%nat).
  { apply wpa_wp. wstep; [lia|]. cbn [firstn app]. split; [apply limbs_app; split; [exact R2|now apply limbs_skipn]|].
    rewrite app_length, skipn_length. lia. }
  intros l (L3 & L4). apply wpa_wp.
  eapply wp_mono; [apply (apply_any this (Buf l (bb_len temp)) (bb_len this + bb_len value)); auto; unfold size; try lia|].
  { split; cbn [bb_bits]; auto. }
  intros st (A & B & _ & D). auto.
Qed.

Lemma square_any value temp :
  sized value -> sized temp -> (bb_len value <= n)%nat ->
  wpa c (buf_square_self c value temp) (fun r =>
    fresh (fst r) /\ sized (snd r) /\
    vl (bb_bits (fst r)) (bb_len (fst r)) = vl (bb_bits value) (bb_len value) * vl (bb_bits value) (bb_len value)).
Proof.
  intros Hv Htm L2. pose proof Hv as (V1 & V2). pose proof Htm as (T1 & T2). apply wpa_wp.
  unfold buf_square_self. unfold size in *. wstep. wstep; [lia|]. wstep. wstep; [lia|]. cbn [skipn].
  set (q := firstn (bb_len value) (bb_bits value)). set (t := firstn (bb_len value + bb_len value) (bb_bits temp)).
  assert (limbs q /\ limbs t) as (Q1 & U1) by (split; now apply limbs_firstn).
  assert (length q = bb_len value) as Q2 by (unfold q; rewrite firstn_length; lia).
  assert (length t = (bb_len value + bb_len value)%nat) as U2 by (unfold t; rewrite firstn_length; lia).
  wstep. eapply wp_mono; [apply calc_square_core_spec; auto; lia|]. rewrite Q2. intros r (R1 & R2 & R3).
  wstep. wstep; [lia|]. cbn [firstn app].
  eapply wp_mono; [apply (apply_any value (Buf _ (bb_len temp)) (bb_len value + bb_len value)); auto; unfold size; try lia|].
  { split; cbn [bb_bits]; [apply limbs_app; split; [exact R2|now apply limbs_skipn]|].
    rewrite app_length, skipn_length. unfold size. lia. }
  intros st (A & B & C & D). split; [exact A|]. split; [exact D|]. rewrite C. cbn [bb_bits].
  rewrite (splice_prefix _ r _ R1). exact R3.
Qed.

Lemma reduce_any R b :
  reducer_good m R -> fresh b -> wide \/ vl (bb_bits b) (bb_len b) < Bp (n + n - 1) ->
  wpa c (buf_reduce_fast c b R) (fun st => res_ok (fst st) /\ reducer_good m (snd st)).
Proof.
  intros HG ((F1 & F2) & F3 & F4) D. apply wpa_wp. unfold buf_reduce_fast. unfold size in *.
  pose proof (m_lo m Hm Hne Ht) as ML. pose proof (m_hi m Hm) as MH. fold n in ML, MH. pose proof (Bp_pos (n - 1)) as BP.
  wstep. eapply wp_mono; [apply (reduce_ok c m Hm Hne Ht Hn R (bb_bits b) (bb_len b)); auto; try (fold n; lia)|].
  { destruct D as [D|D]; [now right|left]. pose proof (exact_len_le _ _ (n + n - 1) F4 D). fold n. lia. }
  intros (k, R2) (K & G). cbn [fst snd] in K, G. wstep. cbn [fst snd]. split; [|exact G].
  pose proof (Z.mod_pos_bound (vl (bb_bits b) (bb_len b)) (val m) ltac:(lia)) as MB.
  split; [split; assumption|]. cbn [bb_len]. split; [eapply exact_len_le; [exact K|lia]|].
  destruct (Z.eq_dec (val m) (Bp (n - 1))) as [E|E]; [right|left; unfold wide; lia].
  eapply exact_len_le; [exact K|lia].
Qed.

Definition state_ok (R : reducer) (value result temp : bitsbuf) : Prop :=
  reducer_good m R /\ val_ok value /\ res_ok result /\ sized temp.

Lemma mul_step (odd : bool) R value result temp :
  state_ok R value result temp ->
  wpa c (if odd then
           '(result, temp) <- buf_mul_self c result value temp ;;
           '(result, red) <- buf_reduce_fast c result R ;; Ret (result, temp, red)
         else Ret (result, temp, R))
      (fun st => state_ok (snd st) value (fst (fst st)) (snd (fst st))).
Proof.
  intros (HG & (V1 & V2 & V3) & (R1 & R2 & R3) & Htm).
  assert (val_ok value) as HV by (split; auto). assert (res_ok result) as HR by (split; auto).
  destruct odd; [|apply wpa_ret; split; cbn [fst snd]; auto].
  eapply wpa_bind; [apply mul_any; eauto|]. intros (r1, t1) (A & B & C). cbn [fst snd] in *.
  eapply wpa_bind; [apply (reduce_any R r1 HG A)|].
  { destruct R3 as [R3|R3]; [now left|right]. destruct A as ((A1 & A2) & A3 & A4).
    pose proof (proj1 A4) as K. pose proof (Bp_le (bb_len r1) (n + n - 1) ltac:(lia)). lia. }
  intros (r2, R') (D & E). apply wpa_ret. cbn [fst snd] in *. split; auto.
Qed.

Lemma square_step R value result temp :
  state_ok R value result temp ->
  wpa c ('(value, temp) <- buf_square_self c value temp ;;
         '(value, red) <- buf_reduce_fast c value R ;; Ret (value, temp, red))
      (fun st => state_ok (snd st) (fst (fst st)) result (snd (fst st))).
Proof.
  intros (HG & (V1 & V2 & V3) & HR & Htm).
  eapply wpa_bind; [apply square_any; eauto|]. intros (v1, t1) (A & B & C). cbn [fst snd] in *.
  eapply wpa_bind; [apply (reduce_any R v1 HG A); rewrite C; exact V3|].
  intros (v2, R') (D & E). apply wpa_ret. cbn [fst snd] in *. split; auto. split; [now apply res_val|auto].
Qed.

Lemma loop_any fuel : forall p R value result temp,
  0 <= p < 2 ^ Z.of_nat fuel -> state_ok R value result temp ->
  wpa c (powred_loop fuel c p R value result temp) sized.
Proof.
  induction fuel as [|fuel IH]; intros p R value result temp Hp HS; cbn [powred_loop].
  - assert (p = 0) as -> by (change (2 ^ Z.of_nat 0) with 1 in Hp; lia). apply wpa_ret. apply HS.
  - destruct (Z.eqb_spec p 0); [apply wpa_ret; apply HS|].
    eapply wpa_bind; [apply mul_step; exact HS|]. intros ((r1, t1), R1) H1. cbn [fst snd] in H1.
    eapply wpa_bind with (P := fun st => state_ok (snd st) (fst (fst st)) r1 (snd (fst st))).
    { destruct (negb (p =? 1)); [apply square_step; exact H1|apply wpa_ret; exact H1]. }
    intros ((v2, t2), R2) H2. cbn [fst snd] in H2. apply IH; [|exact H2].
    exact (half_lt p fuel Hp).
Qed.

Lemma v_step_any p R value result temp :
  state_ok R value result temp ->
  wpa c (powred_v_step c (p, R, value, result, temp))
      (fun st => let '(_, R', v', r', t') := st in state_ok R' v' r' t').
Proof.
  intros HS. unfold powred_v_step.
  eapply wpa_bind; [apply mul_step; exact HS|]. intros ((r1, t1), R1) H1. cbn [fst snd] in H1.
  pose proof (square_step R1 value r1 t1 H1) as W.
  destruct (buf_square_self c value t1) as [(v1, t2)| | | |]; cbn [bind] in *; auto.
  destruct (buf_reduce_fast c v1 R1) as [(v2, R2)| | | |]; cbn [bind] in *; auto.
Qed.

Lemma v_loop_any power R value result temp :
  limbs power -> power <> [] -> state_ok R value result temp ->
  wpa c (powred_v_loop c power R value result temp) sized.
Proof.
  intros Hp Hpne HS. unfold powred_v_loop.
  eapply wpa_bind; [apply (wpa_for_up c _ _ _ _ (fun st => let '(R', v', r', t') := st in state_ok R' v' r' t')); [exact HS|]|].
  - intros i (((R1, v1), r1), t1) Hi H1.
    eapply wpa_bind with (P := fun _ => True); [apply wpa_wp; wstep; [lia|exact I]|]. intros p _.
    eapply wpa_bind; [apply (wpa_for_up c _ _ _ _ (fun st => let '(_, R', v', r', t') := st in state_ok R' v' r' t')); [exact H1|]|].
    + intros j ((((q, R2), v2), r2), t2) _ H2. now apply v_step_any.
    + intros ((((q, R2), v2), r2), t2) H2. now apply wpa_ret.
  - intros (((R1, v1), r1), t1) H1. assert (0 < length power)%nat as LP by (destruct power; [congruence|cbn [length]; lia]).
    eapply wpa_bind with (P := limb); [apply wpa_wp; wstep; [lia|]; apply limbs_nth; exact Hp|]. intros p Lp.
    apply loop_any; [|exact H1]. change (Z.of_nat bit_fuel) with 33. num; lia.
Qed.
End Safe.

Lemma core_any c m vb e pw : limbs m -> m <> [] -> top_nz m -> (32 <= length m)%nat -> 0 <= e < 2 ^ 31 -> limbs pw -> pw <> [] ->
  val_ok m vb ->
  wpa c (powmod_core_u c e m vb) limbs /\ wpa c (powmod_core_v c pw m vb) limbs.
Proof.
  intros M2 M1 M3 HL He P1 P2 HV. pose proof HV as ((V1 & V2) & _).
  pose proof (buf_of_u_spec (length m + length m) 0 ltac:(num; lia) ltac:(lia)) as W. apply wp_inv in W.
  destruct W as (temp & T1 & T2 & _).
  pose proof (buf_of_u_spec (length m + length m) 1 ltac:(num; lia) ltac:(lia)) as W. apply wp_inv in W.
  destruct W as (result & R1 & R2 & R3).
  pose proof (reducer_make_good c m M2 M1 M3 ltac:(lia)) as W. apply wp_inv in W. destruct W as (R & G1 & G2).
  assert (state_ok m R vb result temp) as HS.
  { destruct T2 as [TS TL _ _ _ _]. destruct R2 as [RS RL RV _ RK _].
    split; [exact G2|]. split; [exact HV|]. split; [|split; [exact TL|exact TS]].
    split; [split; [exact RL|exact RS]|]. split; [lia|right; lia]. }
  unfold powmod_core_u, powmod_core_v. rewrite V2, T1, R1. cbn [bind].
  rewrite (proj2 (Nat.ltb_ge (length m) ReducerThreshold)) by (unfold ReducerThreshold; lia). rewrite G1. cbn [bind].
  split.
  - eapply wpa_bind; [apply (loop_any c m M2 M1 M3 HL bit_fuel e R vb result temp); [|exact HS]|].
    + change (Z.of_nat bit_fuel) with 33. lia.
    + intros l (L1 & _). now apply wpa_ret.
  - eapply wpa_bind; [apply (v_loop_any c m M2 M1 M3 HL pw R vb result temp P1 P2 HS)|].
    intros l (L1 & _). now apply wpa_ret.
Qed.

Lemma large_val_ok m vb x z n :
  isbuf (length (bits_of m) + length (bits_of m)) vb (base_of x z n) -> (bb_len vb <= length (bits_of m))%nat ->
  limbs (bits_of m) -> bits_of m <> [] -> top_nz (bits_of m) -> val (bits_of m) = Z.abs z ->
  Z.of_nat (length (bits_of m)) = n /\ Bp (length (bits_of m) - 1) = 2 ^ (32 * (n - 1)) -> 32 <= n ->
  (Z.abs z <> 2 ^ (32 * (n - 1)) \/ 2 ^ (32 * n) <= Z.abs x \/ x * x < 2 ^ (32 * (2 * n - 1))) ->
  val_ok (bits_of m) vb.
Proof.
  intros V1 V2 M2 M1 M3 M4 (M5 & M6) Hn HO.
  assert (Bp (length (bits_of m) + length (bits_of m) - 1) = 2 ^ (32 * (2 * n - 1))) as EB by (rewrite Bp_pow2; f_equal; lia).
  pose proof (m_lo _ M2 M1 M3) as ML. rewrite M6, M4 in ML.
 pose proof (isbuf_exact _ _ _ V1) as (X1 & X2). pose proof V1 as [SS SL SV _ _ _].
    split; [split; [exact SL|exact SS]|]. split; [exact V2|]. rewrite X2, EB, M6, M4.
    destruct (Z.eq_dec (Z.abs z) (2 ^ (32 * (n - 1)))) as [E|E]; [right|left; lia].
    destruct HO as [HO|[HO|HO]]; [congruence| |].
    - unfold base_of. rewrite (proj2 (Z.ltb_ge _ _) HO). rewrite E.
      assert (0 < 2 ^ (32 * (n - 1))) as PP by (apply Z.pow_pos_nonneg; lia).
      pose proof (Z.mod_pos_bound (Z.abs x) _ PP) as MB. set (r := Z.abs x mod 2 ^ (32 * (n - 1))) in *.
      assert (2 ^ (32 * (n - 1)) * 2 ^ (32 * (n - 1)) <= 2 ^ (32 * (2 * n - 1))) as Q.
      { rewrite <- Z.pow_add_r by lia. apply Z.pow_le_mono_r; lia. }
      clear -MB Q PP. nia.
    - unfold base_of. destruct (Z.ltb_spec (Z.abs x) (2 ^ (32 * n))) as [G|G]; [now rewrite Z.abs_square|].
      exfalso. assert (2 ^ (32 * n) * 2 ^ (32 * n) <= Z.abs x * Z.abs x) as Q.
      { assert (0 < 2 ^ (32 * n)) by (apply Z.pow_pos_nonneg; lia). apply Z.mul_le_mono_nonneg; lia. }
      rewrite Z.abs_square, <- Z.pow_add_r in Q by lia.
      assert (2 ^ (32 * (2 * n - 1)) <= 2 ^ (32 * n + 32 * n)) by (apply Z.pow_le_mono_r; lia). lia.
Qed.

Lemma mod_pow_large_any c a b m x e z n :
  represents a x -> represents b e -> represents m z -> 0 <= e -> 32 <= n -> limb_count z n ->
  (Z.abs z <> 2 ^ (32 * (n - 1)) \/ 2 ^ (32 * n) <= Z.abs x \/ x * x < 2 ^ (32 * (2 * n - 1))) ->
  wpa c (bi_mod_pow c a b m) canonical.
Proof.
  intros Ha Hb Hm He Hn Hz HO. destruct (large_modulus m z n Hm Hn Hz) as (M1 & M2 & M3 & M4 & M5 & M6).
  destruct (large_entry c a b m x e z n Ha Hb Hm He Hn Hz) as (vb & V1 & V2 & ->).
  pose proof (large_val_ok m vb x z n V1 V2 M2 M1 M3 M4 (conj M5 M6) Hn HO) as HV.
  assert (forall o, wpa c o limbs -> wpa c (bits <- o ;; bi_of_mag c bits ((x <? 0) && Z.odd e)) canonical) as K.
  { intros o Ho. eapply wpa_bind; [exact Ho|]. intros l Hl. apply wpa_wp.
    eapply wp_mono; [apply bi_of_mag_spec; exact Hl|]. intros r (Hr & _). exact Hr. }
  apply K. destruct (exp_parts b e Hb He) as (_ & [(E1 & E2 & E3)|(E1 & E2 & E3)]).
  - rewrite E1. cbn [is_nil]. apply (core_any c (bits_of m) vb e [1]); auto; try lia; try discriminate.
    constructor; [num; lia|constructor].
  - rewrite (is_nil_ne _ E1).
    destruct (val_parts b e Hb) as [(K1 & _)|(_ & K1 & _)]; [congruence|].
    apply (core_any c (bits_of m) vb 0 (bits_of b)); auto; lia.
Qed.

(** ** Every call of mod_pow *)

Definition quiet (c : cfg) (o : outcome bigint) : Prop :=
  match o with
  | Ret r => canonical r
  | Throw _ => True
  | AssertFail => dbg c = true
  | _ => False
  end.

Lemma quiet_returns c o z : returns o z -> quiet c o.
Proof. intros (r & -> & (H & _)). exact H. Qed.

Lemma mod_pow_undefined_iff c a b m x e z :
  represents a x -> represents b e -> represents m z -> 0 <= e ->
  (mod_pow_undefined x e z /\ exists u, bi_mod_pow c a b m = Undef u) \/
  (~ mod_pow_undefined x e z /\ quiet c (bi_mod_pow c a b m)).
Proof.
  intros Ha Hb Hm He.
  assert (forall n, 32 <= n -> 2 ^ 992 <= 2 ^ (32 * (n - 1))) as Big by (intros; apply Z.pow_le_mono_r; lia).
  assert (2 ^ 31 <= 2 ^ 992) as B31 by (apply Z.pow_le_mono_r; lia).
  destruct (Z.eq_dec z 0) as [->|Nz].
  - assert (mod_pow_undefined x e 0 -> Z.abs x < 2 ^ 31 /\ 2 ^ 32 <= e) as U.
    { intros [U|(n & N1 & N2 & _)]; [tauto|]. specialize (Big n N1). rewrite <- N2 in Big. cbn [Z.abs] in Big. lia. }
    destruct (Z_lt_ge_dec (Z.abs x) (2 ^ 31)) as [H1|H1], (Z_lt_ge_dec e (2 ^ 32)) as [H2|H2].
    + right. split; [intros K; apply U in K; lia|].
      rewrite (mod_pow_zero_throws c a b m x e Ha Hb Hm He ltac:(lia)). exact I.
    + left. split; [left; lia|]. exists DivByZero. apply (mod_pow_zero_undef c a b m x e); auto. lia.
    + right. split; [intros K; apply U in K; lia|].
      rewrite (mod_pow_zero_throws c a b m x e Ha Hb Hm He ltac:(lia)). exact I.
    + right. split; [intros K; apply U in K; lia|].
      rewrite (mod_pow_zero_throws c a b m x e Ha Hb Hm He ltac:(lia)). exact I.
  - destruct (Z_lt_ge_dec (Z.abs z) (2 ^ 992)) as [Hz|Hz].
    { right. split.
      - intros [(K & _)|(n & N1 & N2 & _)]; [congruence|]. specialize (Big n N1). lia.
      - destruct (Z_lt_ge_dec (Z.abs z) (2 ^ 31)) as [Hs|Hs].
        + destruct (Z_lt_ge_dec (Z.rem (x ^ e) z) 0).
          * eapply quiet_returns. apply mod_pow_small_bad with (x := x) (e := e) (z := z); auto.
          * eapply quiet_returns. apply mod_pow_small_ok with (x := x) (e := e) (z := z); auto; lia.
        + eapply quiet_returns. apply mod_pow_medium with (x := x) (e := e) (z := z); auto; lia. }
    assert (exists n, limb_count z n) as (n & Ln).
    { exists (Z.max 1 (Z.of_nat (length (bits_of m)))). split; [lia|]. split.
      - exact (length_fits m z Hm).
      - intros j Hj Fj. pose proof (repr_length m z j Hm ltac:(lia) Fj). lia. }
    assert (32 <= n) as Hn.
    { destruct (Z_lt_ge_dec n 32); [exfalso|lia]. destruct Ln as (L1 & L2 & _). unfold fits_limbs in L2.
      assert (2 ^ (32 * n) <= 2 ^ 992) by (apply Z.pow_le_mono_r; lia). lia. }
    assert (Z.abs z = 2 ^ (32 * (n - 1)) /\ 2 <= e /\ Z.abs x < 2 ^ (32 * n) /\ 2 ^ (32 * (2 * n - 1)) <= x * x \/
            ~ (Z.abs z = 2 ^ (32 * (n - 1)) /\ 2 <= e /\ Z.abs x < 2 ^ (32 * n) /\ 2 ^ (32 * (2 * n - 1)) <= x * x)) as [O|O] by lia.
    + left. split; [right; exists n; tauto|]. exists OutOfBounds. apply (mod_pow_overrun c a b m x e z n); tauto.
    + right. split.
      * intros [(K & _)|(k & K1 & K2 & K3)]; [congruence|]. apply O. assert (k = n) as ->; [|tauto].
        destruct Ln as (L1 & L2 & L3). unfold fits_limbs in *. rewrite K2 in *.
        apply Z.pow_lt_mono_r_iff in L2; [|lia|lia]. specialize (L3 k ltac:(lia)).
        assert (2 ^ (32 * (k - 1)) < 2 ^ (32 * k)) as T by (apply Z.pow_lt_mono_r; lia). specialize (L3 T). lia.
      * destruct (Z_lt_ge_dec e 2) as [E|E].
        -- assert (e = 0 \/ e = 1) as [->| ->] by lia; eapply quiet_returns.
           ++ eapply mod_pow_large_0; eauto.
           ++ eapply mod_pow_large_1; eauto.
        -- assert (wpa c (bi_mod_pow c a b m) canonical) as W by (apply (mod_pow_large_any c a b m x e z n); auto; lia).
           destruct (bi_mod_pow c a b m); cbn [wpa quiet] in *; auto; contradiction.
Qed.

(** ** Statements quoted by PropReduce.v *)

Lemma mod_pow_undefined_exactly c a b m x e z :
  represents a x -> represents b e -> represents m z -> 0 <= e ->
  ((exists u, bi_mod_pow c a b m = Undef u) <-> mod_pow_undefined x e z).
Proof.
  intros Ha Hb Hm He. destruct (mod_pow_undefined_iff c a b m x e z Ha Hb Hm He) as [(U & V)|(U & V)]; [tauto|].
  split; [|tauto]. intros (u & E). rewrite E in V. destruct V.
Qed.

Lemma mod_pow_quiet c a b m x e z :
  represents a x -> represents b e -> represents m z -> 0 <= e -> ~ mod_pow_undefined x e z ->
  (exists r, bi_mod_pow c a b m = Ret r /\ canonical r) \/ (exists k, bi_mod_pow c a b m = Throw k) \/
  (dbg c = true /\ bi_mod_pow c a b m = AssertFail).
Proof.
  intros Ha Hb Hm He Hd. destruct (mod_pow_undefined_iff c a b m x e z Ha Hb Hm He) as [(U & V)|(U & V)]; [tauto|].
  destruct (bi_mod_pow c a b m); cbn [quiet] in V; try contradiction; eauto.
Qed.

Lemma reduced_base_defined x e z : z <> 0 -> Z.abs x <= Z.abs z -> ~ mod_pow_undefined x e z.
Proof.
  intros Nz Hx [(K & _)|(n & K1 & K2 & _ & _ & K3)]; [contradiction|].
  rewrite <- Z.abs_square in K3. rewrite K2 in Hx.
  assert (Z.abs x * Z.abs x <= 2 ^ (32 * (n - 1)) * 2 ^ (32 * (n - 1))) as Q by (apply Z.mul_le_mono_nonneg; lia).
  rewrite <- Z.pow_add_r in Q by lia.
  assert (2 ^ (32 * (n - 1) + 32 * (n - 1)) < 2 ^ (32 * (2 * n - 1))) by (apply Z.pow_lt_mono_r; lia). lia.
Qed.

Lemma mod_pow_exponent_0 c a b m x z n :
  represents a x -> represents b 0 -> represents m z -> 32 <= n -> limb_count z n ->
  returns (bi_mod_pow c a b m) (Z.rem (x ^ 0) z).
Proof.
  intros Ha Hb Hm Hn Hz. destruct (large_modulus m z n Hm Hn Hz) as (M1 & M2 & M3 & M4 & M5 & M6).
  pose proof (m_lo _ M2 M1 M3) as ML. rewrite M6, M4 in ML.
  assert (1 < 2 ^ (32 * (n - 1))) as P1 by (apply Z.pow_gt_1; lia).
  rewrite rem_pow by lia. rewrite Bool.andb_false_r, Z.pow_0_r, Z.mod_small by lia.
  eapply mod_pow_large_0; eauto.
Qed.

Lemma mod_pow_exponent_1 c a b m x z n :
  represents a x -> represents b 1 -> represents m z -> 32 <= n -> limb_count z n ->
  2 ^ (32 * n) <= Z.abs x \/ Z.abs x < Z.abs z -> returns (bi_mod_pow c a b m) (Z.rem (x ^ 1) z).
Proof.
  intros Ha Hb Hm Hn Hz HO. destruct (large_modulus m z n Hm Hn Hz) as (M1 & M2 & M3 & M4 & M5 & M6).
  pose proof (m_lo _ M2 M1 M3) as ML. rewrite M6, M4 in ML.
  assert (1 < 2 ^ (32 * (n - 1))) as P1 by (apply Z.pow_gt_1; lia).
  rewrite rem_pow by lia. rewrite Z.pow_1_r. change (Z.odd 1) with true. rewrite Bool.andb_true_r.
  pose proof (mod_pow_large_1 c a b m x z n Ha Hb Hm Hn Hz) as W. unfold base_of in W.
  assert ((if Z.abs x <? 2 ^ (32 * n) then Z.abs x else Z.abs x mod Z.abs z) = Z.abs x mod Z.abs z) as E.
  { destruct (Z.ltb_spec (Z.abs x) (2 ^ (32 * n))); [|reflexivity]. symmetry. apply Z.mod_small. lia. }
  rewrite E in W. pose proof (Z.mod_pos_bound (Z.abs x) (Z.abs z) ltac:(lia)) as MB.
  assert (x = 0 -> Z.abs x mod Z.abs z = 0) as Z0 by (intros ->; apply Z.mod_0_l; lia).
  replace (if x <? 0 then - (Z.abs x mod Z.abs z) else Z.abs x mod Z.abs z) with (Z.sgn x * (Z.abs x mod Z.abs z)); [exact W|].
  destruct (Z.ltb_spec x 0); [rewrite Z.sgn_neg by lia; lia|].
  destruct (Z.eq_dec x 0) as [X|X]; [rewrite (Z0 X); lia|rewrite Z.sgn_pos by lia; lia].
Qed.

Lemma mod_pow_exponent_2 c a b m x z n v k :
  represents a x -> represents b 2 -> represents m z -> 32 <= n -> limb_count z n ->
  (Z.abs x < 2 ^ (32 * n) /\ v = Z.abs x \/ 2 ^ (32 * n) <= Z.abs x /\ v = Z.abs x mod Z.abs z) ->
  v * v < 2 ^ (32 * (2 * n - 1)) \/ Z.abs z <> 2 ^ (32 * (n - 1)) ->
  exact_length ((v * v) mod Z.abs z) k -> returns (bi_mod_pow c a b m) ((v * v) mod 2 ^ (32 * Z.of_nat k)).
Proof.
  intros Ha Hb Hm Hn Hz Hv. assert (v = base_of x z n) as ->; [|exact (mod_pow_large_2 c a b m x z n k Ha Hb Hm Hn Hz)].
  unfold base_of. destruct (Z.ltb_spec (Z.abs x) (2 ^ (32 * n))); lia.
Qed.
