(** FastReducer.cpp: the length FastReducer::Reduce returns is the length of
    the remainder, although the remainder itself is lost with the copy it was
    computed in; and what that makes of mod_pow with exponent 2. *)
From Verif Require Import Facts Spec AddSubFacts SquMulFacts DivRemFacts DivCoreFacts SpecFacts BigIntFacts SpecApi ConvFacts.
From Verif Require Import CompareFacts CalcAddSub CalcSquMul CalcDivRem CalcPowMod BigInt ConvLaws ShiftFacts WordFacts PowFacts ModPowFacts ModPowApi.
From Verif Require Import SpecReduce ReducerFacts.

Ltac Zify.zify_post_hook ::= idtac.

(** ** subtract_self modulo a power of the base *)

Lemma calc_sub_self_mod c lhs rhs :
  limbs lhs -> limbs rhs -> (length rhs <= length lhs)%nat ->
  wp (calc_sub_self c lhs rhs)
     (fun r => length r = length lhs /\ limbs r /\ val r = (val lhs - val rhs) mod Bp (length lhs)).
Proof.
  intros Hl Hr Hlen. unfold calc_sub_self.
  set (I := fun i (st : list Z * Z) =>
    let '(b, carry) := st in
    length b = length lhs /\ limbs b /\ skipn i b = skipn i lhs /\ -1 <= carry <= 0 /\
    vl b i + carry * Bp i = vl lhs i - vl rhs i).
  wstep. eapply wp_for_up with (I := I).
  - unfold I. repeat split; try lia; auto.
  - intros i [b carry] Hi (Hb & Hlb & Hs & Hc & Hv).
    pose proof (limbs_nth _ i Hl) as H0. pose proof (limbs_nth _ i Hr) as H1.
    pose proof (nth_skipn_eq _ _ _ Hs) as Hnth.
    repeat wstep; rewrite ?Hnth; try lia; try (num; lia).
    set (t := nth i lhs 0 + carry - nth i rhs 0).
    assert (-1 <= Z.shiftr t 32 < 1).
    { apply shiftr32_range. subst t. num; lia. }
    unfold I. repeat split; try lia.
    + rewrite length_upd; lia.
    + apply limbs_upd; [assumption|apply u32_limb].
    + rewrite skipn_upd by lia. now apply skipn_S_eq.
    + rewrite vl_upd_S, !vl_S, Bp_S by lia.
      rewrite (carry_step _ _ _ (nth i lhs 0 - nth i rhs 0) _ t Hv) by (unfold t; ring). ring.
  - intros [b carry] HI. wstep.
    eapply wp_for_up_while with (I := I); [exact HI| |].
    + intros i [b' carry'] Hi _ (Hb & Hlb & Hs & Hc & Hv).
      pose proof (limbs_nth _ i Hl) as H0.
      pose proof (nth_skipn_eq _ _ _ Hs) as Hnth.
      repeat wstep; rewrite ?Hnth; try lia; try (num; lia).
      set (t := nth i lhs 0 + carry').
      assert (-1 <= Z.shiftr t 32 < 1).
      { apply shiftr32_range. subst t. num; lia. }
      unfold I. repeat split; try lia.
      * rewrite length_upd; lia.
      * apply limbs_upd; [assumption|apply u32_limb].
      * rewrite skipn_upd by lia. now apply skipn_S_eq.
      * rewrite vl_upd_S, !vl_S, Bp_S by lia. rewrite (nth_beyond rhs) by lia.
        rewrite (carry_step _ _ _ (nth i lhs 0) _ t Hv) by (unfold t; ring). ring.
    + intros i [b' carry'] Hi (Hb & Hlb & Hs & Hc & Hv) Hend. cbn [snd] in Hend.
      assert (val b' + carry' * Bp i = val lhs - val rhs) as Hval.
      { rewrite (val_split b' i), (val_split lhs i), Hs by lia.
        rewrite (vl_ge rhs) in Hv by lia. lia. }
      repeat wstep. repeat split; auto. pose proof (val_bound _ Hlb) as Hvb. rewrite Hb in Hvb.
      destruct Hend as [->|Hf].
      * replace (length rhs + (length lhs - length rhs))%nat with (length lhs) in * by lia.
        apply (Z.mod_unique_pos _ _ carry'); [lia|]. lia.
      * apply negb_false_iff, Z.eqb_eq in Hf. subst carry'. rewrite Z.mul_0_l, Z.add_0_r in Hval. rewrite <- Hval.
        symmetry. apply Z.mod_small. exact Hvb.
Qed.

(** ** Prefixes *)

Definition exact_len (y : Z) (k : nat) : Prop := y < Bp k /\ (k <> O -> Bp (k - 1) <= y).

Lemma exact_len_spec y k : exact_len y k <-> exact_length y k.
Proof.
  unfold exact_len, exact_length. rewrite (Bp_pow2 k). destruct k as [|k]; [intuition lia|].
  replace (S k - 1)%nat with k by lia. rewrite (Bp_pow2 k). now replace (Z.of_nat (S k) - 1) with (Z.of_nat k) by lia.
Qed.

Lemma exact_len_le y k j : exact_len y k -> y < Bp j -> (k <= j)%nat.
Proof.
  intros (_ & Lo) H. destruct (Nat.le_gt_cases k j) as [|G]; [assumption|exfalso].
  specialize (Lo ltac:(lia)). pose proof (Bp_le j (k - 1) ltac:(lia)). lia.
Qed.

Lemma exact_len_unique y k j : exact_len y k -> exact_len y j -> k = j.
Proof.
  intros A B. pose proof (exact_len_le y k j A (proj1 B)). pose proof (exact_len_le y j k B (proj1 A)). lia.
Qed.

Lemma actual_exact l n : limbs l -> (n <= length l)%nat ->
  wp (actual_length l n) (fun k => (k <= n)%nat /\ vl l k = vl l n /\ exact_len (vl l n) k).
Proof.
  intros Hl Hn. eapply wp_mono; [apply actual_length_spec; exact Hn|]. intros k (A & B & C).
  split; [exact A|]. split; [exact B|]. rewrite <- B. split; [now apply vl_bound|]. intros Hk.
  destruct C as [C|C]; [contradiction|].
  replace k with (S (k - 1)) at 2 by lia. rewrite vl_S.
  pose proof (vl_bound l (k - 1) Hl) as VB. pose proof (limbs_nth l (k - 1) Hl) as N. unfold limb in N.
  pose proof (Bp_pos (k - 1)) as P.
  assert (1 * Bp (k - 1) <= nth (k - 1) l 0 * Bp (k - 1)) by (apply Z.mul_le_mono_nonneg_r; lia). lia.
Qed.

Lemma splice_prefix (l t : list Z) n : length t = n -> vl (t ++ l) n = val t.
Proof. intros <-. unfold vl. now rewrite firstn_app, Nat.sub_diag, firstn_O, app_nil_r, firstn_all. Qed.

Lemma vl_mod l a n : limbs l -> (a <= n)%nat -> vl l a = vl l n mod Bp a.
Proof.
  intros Hl H. unfold vl at 2. destruct (Nat.le_gt_cases (length (firstn n l)) a) as [K|K].
  - rewrite Z.mod_small.
    + rewrite <- (vl_ge (firstn n l) a K). unfold vl. rewrite firstn_firstn. now rewrite Nat.min_l.
    + pose proof (val_bound _ (limbs_firstn n l Hl)). pose proof (Bp_le _ _ K). lia.
  - rewrite (val_split (firstn n l) a) by lia. rewrite Z.mul_comm, Z.mod_add by (pose proof (Bp_pos a); lia).
    unfold vl. rewrite firstn_firstn, Nat.min_l by exact H. symmetry. apply Z.mod_small. now apply vl_bound.
Qed.

Section Reduce.
Variables (c : cfg) (m : list Z).
Hypothesis Hm : limbs m.
Hypothesis Hne : m <> [].
Hypothesis Ht : top_nz m.
Let n := length m.
Hypothesis Hn : (2 <= n)%nat.

Lemma submod_loop_len fuel : forall lv ll,
  limbs lv -> (ll <= length lv)%nat -> (n <= length lv)%nat -> exact_len (vl lv ll) ll ->
  vl lv ll < Z.of_nat fuel * val m + val m ->
  wp (submod_loop fuel c lv ll m) (fun st =>
    (snd st <= length (fst st))%nat /\ exact_len (vl lv ll mod val m) (snd st)).
Proof.
  pose proof (m_lo m Hm Hne Ht) as ML. pose proof (m_hi m Hm) as MH. fold n in ML, MH. pose proof (Bp_pos (n - 1)) as BP.
  induction fuel as [|fuel IH]; intros lv ll L N NN E Hy; cbn [submod_loop];
    pose proof E as (H & Lo); pose proof (vl_bound lv ll L) as VB;
    assert (length (firstn ll lv) = ll) as P2 by (rewrite firstn_length; lia);
    assert (limbs (firstn ll lv)) as P1 by (apply limbs_firstn; exact L);
    wstep; (wstep; [lia|]); cbn [skipn];
    assert (wp (calc_compare_core c (firstn ll lv) m)
      (fun z => z < 0 /\ vl lv ll < val m \/ val m <= vl lv ll /\ (n <= ll)%nat /\ 0 <= z)) as CMP.
  1,3: destruct (Nat.lt_trichotomy ll n) as [G|[G|G]];
    [ unfold calc_compare_core; rewrite P2; fold n; rewrite (proj2 (Nat.ltb_lt _ _) G); wstep; left;
      pose proof (Bp_le ll (n - 1) ltac:(lia)); lia
    | rewrite calc_compare_core_spec; auto; [|left; rewrite P2; exact G]; wstep; fold (vl lv ll); unfold cmpz;
      destruct (Z.compare_spec (vl lv ll) (val m)); [right|left|right]; lia
    | unfold calc_compare_core; rewrite P2; fold n; rewrite (proj2 (Nat.ltb_ge _ _)) by lia;
      rewrite (proj2 (Nat.ltb_lt _ _) G); wstep; right; specialize (Lo ltac:(lia));
      pose proof (Bp_le n (ll - 1) ltac:(lia)); lia ].
  - wstep. eapply wp_mono; [exact CMP|]. intros z Hz. cbn beta in Hz. destruct (Z.ltb_spec z 0).
    + wstep; cbn [fst snd]. split; [lia|]. rewrite Z.mod_small by lia. exact E.
    + exfalso. change (Z.of_nat 0) with 0 in Hy. rewrite Z.mul_0_l in Hy. lia.
  - wstep. eapply wp_mono; [exact CMP|]. intros z Hz. cbn beta in Hz. destruct (Z.ltb_spec z 0) as [|Hz0].
    { wstep; cbn [fst snd]. split; [lia|]. rewrite Z.mod_small by lia. exact E. }
    destruct Hz as [|(Y & G & _)]; [lia|]. fold n. rewrite Nat.max_l by exact G.
    wstep. wstep; [lia|]. cbn [skipn]. wstep.
    eapply wp_mono; [apply calc_sub_self_spec; auto; fold (vl lv ll); lia|].
    intros t (T1 & T2 & T3). rewrite P2 in T1. fold (vl lv ll) in T3. wstep. wstep; [lia|]. cbn [firstn app Nat.add].
    rewrite T1.
    assert (limbs (t ++ skipn ll lv)) as L2 by (apply limbs_app; split; [exact T2|now apply limbs_skipn]).
    assert (length (t ++ skipn ll lv) = length lv) as LL by (rewrite app_length, skipn_length; lia).
    wstep. eapply wp_mono; [apply actual_exact; [exact L2|lia]|].
    intros j (J1 & J2 & J3). rewrite (splice_prefix _ t ll T1) in J2, J3.
    rewrite Nat2Z.inj_succ in Hy.
    eapply wp_mono; [apply (IH (t ++ skipn ll lv) j); auto; try lia|].
    + rewrite J2. exact J3.
    + intros (lv2, k) (K1 & K2). cbn [fst snd] in *. split; [exact K1|].
      replace (vl lv ll mod val m) with (vl (t ++ skipn ll lv) j mod val m); [exact K2|].
      rewrite J2, T3. replace (vl lv ll - val m) with (vl lv ll + (-1) * val m) by ring. apply Z.mod_add. lia.
Qed.

(** The length of mu: n + 1 limbs, but n + 2 when the modulus is a power of
    the base. *)
Record reducer_good (R : reducer) : Prop := {
  rg_ok : reducer_ok m R;
  rg_mulen : exact_len (Bp (n + n) / val m) (fr_mulen R)
}.

Lemma reducer_make_good : wp (reducer_make c m) reducer_good.
Proof.
  pose proof (m_lo m Hm Hne Ht) as ML. pose proof (m_hi m Hm) as MH. fold n in ML, MH. pose proof (Bp_pos (n - 1)) as BP.
  pose proof (reducer_make_spec c m Hm Hne Ht Hn) as OK. unfold reducer_make in *. fold n. fold n in OK.
  set (r := upd (zeros (n * 2 + 1)) (n * 2) 1) in *.
  assert (wr (zeros (n * 2 + 1)) (n * 2) 1 = Ret r) as Er.
  { unfold wr. rewrite length_zeros. rewrite (proj2 (Nat.ltb_lt _ _)) by lia. reflexivity. }
  rewrite Er in *. cbn [bind] in *. destruct (calc_div c r m) as [mu| | | |]; cbn [bind] in *; auto.
  destruct (actual_length mu (length mu)) as [k| | | |] eqn:Ek; cbn [bind] in *; auto.
  split; [exact OK|]. cbn [fr_mulen]. destruct OK as [_ A B _ _ _ _]. cbn [fr_mu] in *. fold n in B.
  pose proof (actual_exact mu (length mu) A ltac:(lia)) as W. rewrite Ek in W. destruct W as (_ & _ & W).
  rewrite vl_all, B in W. exact W.
Qed.

Lemma mulen_short R : reducer_good R -> Bp (n - 1) < val m -> (fr_mulen R <= n + 1)%nat.
Proof.
  intros [_ G] H. eapply exact_len_le; [exact G|]. pose proof (Bp_pos (n - 1)) as BP.
  apply Z.div_lt_upper_bound; [lia|]. replace (n + n)%nat with (n - 1 + (n + 1))%nat by lia. rewrite Bp_add.
  apply Z.mul_lt_mono_pos_r; [apply Bp_pos|exact H].
Qed.

Lemma mulen_long R : reducer_good R -> Bp (n - 1) = val m -> fr_mulen R = (n + 2)%nat.
Proof.
  intros [_ G] H. pose proof (Bp_pos (n - 1)) as BP. rewrite <- H in G.
  replace (n + n)%nat with (n - 1 + (n + 1))%nat in G by lia. rewrite Bp_add, Z.mul_comm, Z.div_mul in G by lia.
  apply (exact_len_unique _ _ (n + 2) G). split; [|intros _; now replace (n + 2 - 1)%nat with (n + 1)%nat by lia].
  replace (n + 2)%nat with (S (n + 1)) by lia. rewrite Bp_S. pose proof (Bp_pos (n + 1)). num; lia.
Qed.

Lemma reduce_exact R v len :
  reducer_ok m R -> (len - (n - 1) + fr_mulen R <= n * 2 + 2)%nat -> limbs v -> (len <= length v)%nat -> (len <= n + n)%nat -> exact_len (vl v len) len ->
  wp (reducer_reduce c R v len) (fun st => exact_len (vl v len mod val m) (fst st)).
Proof.
  intros HR Hq L N N2 E. pose proof HR as [R1 R2 R3 [R4 R5] R6 R7 R8]. unfold reducer_reduce. rewrite R1. fold n. fold n in R3, R5, R7, R8.
  pose proof (m_lo m Hm Hne Ht) as ML. pose proof (m_hi m Hm) as MH. fold n in ML, MH.
  pose proof (vl_bound v len L) as VB. pose proof (Bp_pos (n - 1)) as BP.
  destruct (Nat.ltb_spec len n) as [G|G].
  { wstep. cbn [fst]. pose proof (Bp_le len (n - 1) ltac:(lia)). rewrite Z.mod_small by lia. exact E. }
  wstep. eapply wp_mono; [apply divmul_spec; auto; lia|].
  intros (q1, l1) (Q1 & L1). cbn [fst snd] in Q1, L1. rewrite R6, R3 in Q1.
  pose proof Q1 as [QS QL QV QN QH QLo]. cbn [bb_bits bb_len] in *.
  wstep. eapply wp_mono; [apply divmul_spec; auto; unfold n in *; lia|].
  intros (q2, l2) (Q2 & L2). cbn [fst snd] in Q2, L2.
  assert (vl q1 l1 = val q1) as E1.
  { destruct (upper_zero q1 l1 QL ltac:(lia) ltac:(lia)) as (_ & E1). exact E1. }
  rewrite E1, QV in Q2. change (length m) with n in Q2. rewrite (vl_ge m n) in Q2 by (unfold n; lia).
  assert (Bp (n + n) = Bp (n - 1) * Bp (n + 1)) as EB by (rewrite <- Bp_add; f_equal; lia).
  pose proof (Bp_le len (n + n) ltac:(lia)) as BL.
  rewrite EB in Q2.
  set (x := vl v len) in *.
  destruct (barrett (Bp (n - 1)) (Bp (n + 1)) x (val m) _ _ _ (Bp_pos _) (Bp_pos _) ML ltac:(lia) eq_refl eq_refl eq_refl)
    as (Bq1 & Bq2).
  set (qh := x / Bp (n - 1) * (Bp (n - 1) * Bp (n + 1) / val m) / Bp (n + 1)) in *.
  assert ((x - qh * val m) mod val m = x mod val m) as EM.
  { replace (x - qh * val m) with (x + - qh * val m) by ring. apply Z.mod_add. lia. }
  set (y := qh * val m) in *. clearbody y.
  assert (3 * val m < Bp (n + 1)) as M3.
  { replace (n + 1)%nat with (S n) by lia. rewrite Bp_S. num; lia. }
  pose proof Q2 as [TS TL TV TN TH TLo]. cbn [bb_bits bb_len] in *.
  assert (exact_len y l2) as EL2 by (split; [lia|exact TLo]).
  pose proof (exact_len_le y l2 len EL2 ltac:(lia)) as Hl2.
  wstep. unfold reducer_submod.
  set (a := if Nat.ltb (n + 1) len then (n + 1)%nat else len).
  set (b := if Nat.ltb (n + 1) l2 then (n + 1)%nat else l2).
  assert (a = Nat.min (n + 1) len) as Ea by (unfold a; destruct (Nat.ltb_spec (n + 1) len); lia).
  assert (b = Nat.min (n + 1) l2) as Eb by (unfold b; destruct (Nat.ltb_spec (n + 1) l2); lia).
  clearbody a b. rewrite Nat.max_l by lia.
  wstep. wstep; [lia|]. wstep. wstep; [lia|]. cbn [skipn]. wstep.
  assert (length (firstn a v) = a) as La by (rewrite firstn_length; lia).
  assert (length (firstn b q2) = b) as Lb by (rewrite firstn_length; lia).
  eapply wp_mono; [apply calc_sub_self_mod; auto using limbs_firstn; lia|].
  rewrite La. intros t (T1 & T2 & T3). fold (vl v a) (vl q2 b) in T3.
  assert (val t = x - y) as T4.
  { rewrite T3. rewrite (vl_mod v a len L ltac:(lia)). fold x.
    assert (vl q2 b = y mod Bp a) as ->.
    { rewrite <- TV, <- (vl_all q2). destruct (Nat.le_gt_cases l2 a) as [K|K].
      - replace b with l2 by lia. rewrite Z.mod_small.
        + destruct (upper_zero q2 l2 TL ltac:(lia) ltac:(lia)) as (_ & E2). now rewrite vl_all.
        + rewrite vl_all, TV. pose proof (Bp_le l2 a K). lia.
      - replace b with a by lia. apply vl_mod; [exact TL|lia]. }
    rewrite <- Zminus_mod. apply Z.mod_small. split; [lia|].
    destruct (Nat.le_gt_cases len (n + 1)) as [K|K]; [replace a with len by lia; lia|].
    replace a with (n + 1)%nat by lia. lia. }
  rewrite <- EM, <- T4.
  wstep. wstep; [lia|]. cbn [firstn app Nat.add]. rewrite T1.
  assert (limbs (t ++ skipn a v)) as L3 by (apply limbs_app; split; [exact T2|now apply limbs_skipn]).
  assert (length (t ++ skipn a v) = length v) as LL by (rewrite app_length, skipn_length; lia).
  wstep. eapply wp_mono; [apply actual_exact; [exact L3|lia]|].
  intros j (J1 & J2 & J3). rewrite (splice_prefix _ t a T1) in J2, J3.
  wstep. eapply wp_mono; [apply (submod_loop_len submod_fuel (t ++ skipn a v) j); auto; try lia|].
  - rewrite J2. exact J3.
  - change (Z.of_nat submod_fuel) with 1000. rewrite J2. lia.
  - intros (lv, ll) (Hll & K). cbn [fst snd] in Hll, K. rewrite J2 in K. wstep. wstep; [lia|]. wstep. wstep. exact K.
Qed.

(** Too long a value for a modulus that is a power of the base. *)
Lemma reduce_overrun R v len :
  reducer_good R -> Bp (n - 1) = val m -> len = (n + n)%nat -> (len <= length v)%nat ->
  reducer_reduce c R v len = Undef OutOfBounds.
Proof.
  intros HG E -> N. pose proof (mulen_long R HG E) as ML. destruct HG as [[R1 R2 R3 [R4 R5] R6 R7 R8] _].
  unfold reducer_reduce. rewrite R1. fold n. fold n in R7. rewrite (proj2 (Nat.ltb_ge _ _)) by lia.
  unfold reducer_divmul at 1. rewrite fill_all. cbn [bind]. rewrite (proj2 (Nat.ltb_lt _ _)) by lia.
  unfold slice at 1. rewrite (proj2 (Nat.leb_le _ _)) by lia. cbn [bind].
  unfold slice at 1. rewrite (proj2 (Nat.leb_le _ _)) by lia. cbn [bind].
  unfold slice at 1. rewrite length_zeros. rewrite (proj2 (Nat.leb_gt _ _)) by lia. reflexivity.
Qed.

Lemma divmul_length lv ll rv rl bits k b l :
  reducer_divmul c lv ll rv rl bits k = Ret (b, l) -> length b = length bits.
Proof.
  unfold reducer_divmul. rewrite fill_all. cbn [bind]. intros H. destruct (Nat.ltb k ll).
  - destruct (slice lv k _); cbn [bind] in H; try discriminate.
    destruct (slice rv 0 rl); cbn [bind] in H; try discriminate.
    destruct (slice (zeros (length bits)) 0 _); cbn [bind] in H; try discriminate.
    match type of H with bind ?e _ = _ => destruct e as [t| | | |]; cbn [bind] in H; try discriminate end.
    unfold splice in H. destruct (Nat.leb_spec (0 + length t) (length (zeros (length bits)))) as [K|K]; cbn [bind] in H; [|discriminate].
    match type of H with bind ?e _ = _ => destruct e; cbn [bind] in H; try discriminate end.
    injection H as <- _. cbn [firstn app]. rewrite length_zeros in K. rewrite app_length, skipn_length, length_zeros. lia.
  - injection H as <- _. apply length_zeros.
Qed.

Lemma reduce_good R v len k R' : reducer_good R -> reducer_reduce c R v len = Ret (k, R') -> reducer_good R'.
Proof.
  intros HG H. pose proof HG as [[R1 R2 R3 R4 R6 R7 R8] G]. unfold reducer_reduce in H. rewrite R1 in H. fold n in H.
  destruct (Nat.ltb len n); [now injection H as _ <-|].
  destruct (reducer_divmul c v len _ _ _ _) as [(q1, l1)| | | |] eqn:E1; cbn [bind] in H; try discriminate.
  destruct (reducer_divmul c q1 l1 _ _ _ _) as [(q2, l2)| | | |] eqn:E2; cbn [bind] in H; try discriminate.
  destruct (reducer_submod c v len q2 l2 m (n + 1)) as [j| | | |]; cbn [bind] in H; try discriminate.
  injection H as _ <-. apply divmul_length in E1, E2.
  split; [split|]; cbn [fr_modulus fr_mu fr_mulen fr_q1 fr_q2]; auto; congruence.
Qed.

Lemma reducer_for_good R : reducer_for c m R -> reducer_good R.
Proof.
  induction 1 as [R E|R v len k R' _ IH E].
  - pose proof reducer_make_good as W. rewrite E in W. exact W.
  - eapply reduce_good; eauto.
Qed.
End Reduce.

(** ** In the terms of the specification *)

Lemma limbs_forall l : Forall (fun d => 0 <= d < 2 ^ 32) l -> limbs l.
Proof. intros H. eapply Forall_impl; [|exact H]. intros d Hd. exact Hd. Qed.

Lemma top_of_last m : last m 0 <> 0 -> m <> [] /\ top_nz m.
Proof.
  intros H. assert (m <> []) as Hne by (intros ->; now apply H). split; [exact Hne|]. unfold top_nz. now rewrite <- last_nth.
Qed.

Lemma power_of_base (m : list Z) : m <> [] -> 2 ^ (32 * (Z.of_nat (length m) - 1)) = Bp (length m - 1).
Proof. intros H. rewrite Bp_pow2. destruct m; [congruence|]. cbn [length]. do 2 f_equal. lia. Qed.

Lemma reduce_public c m R v len :
  Forall (fun d => 0 <= d < 2 ^ 32) m -> last m 0 <> 0 -> (2 <= length m)%nat -> reducer_for c m R ->
  Forall (fun d => 0 <= d < 2 ^ 32) v -> (len <= length v)%nat -> exact_length (magnitude (firstn len v)) len ->
  (len < 2 * length m)%nat \/ len = (2 * length m)%nat /\ magnitude m <> 2 ^ (32 * (Z.of_nat (length m) - 1)) ->
  exists k R', reducer_reduce c R v len = Ret (k, R') /\
    exact_length (magnitude (firstn len v) mod magnitude m) k.
Proof.
  intros Hm Ht Hn HR Hv Hl E Hlen. apply limbs_forall in Hm, Hv. destruct (top_of_last m Ht) as (Hne & Ht').
  pose proof (reducer_for_good c m Hm Hne Ht' Hn R HR) as G. pose proof G as [OK GM].
  rewrite !magnitude_val in *. rewrite power_of_base in Hlen by exact Hne.
  rewrite <- exact_len_spec in E.
  pose proof (m_lo m Hm Hne Ht') as ML.
  assert (len - (length m - 1) + fr_mulen R <= length m * 2 + 2)%nat as Hq.
  { destruct Hlen as [|(-> & NE)]; [destruct OK as [_ _ _ [_ R5] _ _ _]; lia|].
    pose proof (mulen_short m Hn R G ltac:(lia)). lia. }
  pose proof (reduce_exact c m Hm Hne Ht' Hn R v len OK Hq Hv Hl ltac:(lia) E) as W.
  destruct (reducer_reduce c R v len) as [(k, R')| | | |] eqn:Er; try contradiction.
  exists k, R'. split; [reflexivity|]. now apply exact_len_spec.
Qed.

Lemma reduce_public_overrun c m R v len :
  Forall (fun d => 0 <= d < 2 ^ 32) m -> last m 0 <> 0 -> (2 <= length m)%nat -> reducer_for c m R ->
  (len <= length v)%nat -> len = (2 * length m)%nat -> magnitude m = 2 ^ (32 * (Z.of_nat (length m) - 1)) ->
  reducer_reduce c R v len = Undef OutOfBounds.
Proof.
  intros Hm Ht Hn HR Hl Hlen E. apply limbs_forall in Hm. destruct (top_of_last m Ht) as (Hne & Ht').
  rewrite magnitude_val, power_of_base in E by exact Hne.
  apply (reduce_overrun c m); auto; try lia. now apply (reducer_for_good c).
Qed.

Lemma reducer_make_public c m :
  Forall (fun d => 0 <= d < 2 ^ 32) m -> last m 0 <> 0 -> (2 <= length m)%nat -> exists R, reducer_make c m = Ret R.
Proof.
  intros Hm Ht Hn. apply limbs_forall in Hm. destruct (top_of_last m Ht) as (Hne & Ht').
  pose proof (reducer_make_good c m Hm Hne Ht' Hn) as W. destruct (reducer_make c m) as [R| | | |]; try contradiction. now exists R.
Qed.
