(** The LLP64 reading, whatever the compiler makes of the out-of-range shift. *)
From Verif Require Import Facts Spec AddSubFacts SpecFacts BigIntFacts BigInt CompareFacts ConvFacts.
From Verif Require Import WinCalc WinBigInt SpecWin WinFacts.
Ltac Zify.zify_post_hook ::= idtac.

Lemma unit_inv {B} (m : outcome unit) (k : unit -> outcome B) r : bind m k = Ret r -> k tt = Ret r.
Proof. destruct m as [[]| | | |]; cbn [bind]; [auto|discriminate..]. Qed.

Lemma bind_ret_inv {A B} (m : outcome A) (k : A -> outcome B) r : bind m k = Ret r -> exists x, m = Ret x /\ k x = Ret r.
Proof. destruct m; cbn [bind]; [eauto|discriminate..]. Qed.

Lemma sub_two_limbs f c a0 a1 b0 b1 l :
  calc_sub_w (Some f) c [a0; a1] [b0; b1] = Ret l ->
  l = [u32 (s32 (u32 (u32 (a0 + 0) - b0)));
       u32 (s32 (u32 (u32 (a1 + s32 (f (s32 (u32 (u32 (a0 + 0) - b0))) 32)) - b1)))].
Proof.
  unfold calc_sub_w, calc_sub_core_w. intros H. do 7 apply unit_inv in H.
  cbn in H. apply unit_inv in H. now injection H as <-.
Qed.

(** The two subtractions below meet the same first digit, 2, and need a borrow
    of 0 after one and of -1 after the other. *)
Lemma sub_two_returns f c a0 a1 b0 b1 z :
  limb a0 -> limb a1 -> limb b0 -> limb b1 -> a1 <> 0 -> b1 < a1 -> b1 <> 0 ->
  returns (bi_sub_w (Some f) c (Big 1 [a0; a1]) (Big 1 [b0; b1])) z ->
  z = u32 (s32 (u32 (u32 (a0 + 0) - b0))) +
      W32 * u32 (s32 (u32 (u32 (a1 + s32 (f (s32 (u32 (u32 (a0 + 0) - b0))) 32)) - b1))).
Proof.
  intros A0 A1 B0 B1 N H1 N2 (r & E & R). unfold bi_sub_w in E. do 2 apply unit_inv in E.
  cbn [sign_of bits_of] in E. change (xorb (1 <? 0) (1 <? 0)) with false in E. cbn iota in E.
  unfold bi_sub_parts_w in E. cbn [is_nil andb] in E.
  assert (limbs [a0; a1]) as LA by (constructor; [exact A0|constructor; [exact A1|constructor]]).
  assert (limbs [b0; b1]) as LB by (constructor; [exact B0|constructor; [exact B1|constructor]]).
  rewrite (calc_compare_spec c [a0; a1] [b0; b1] ltac:(discriminate) ltac:(discriminate) LA LB (or_introl eq_refl)) in E.
  cbn [bind] in E.
  assert (cmpz (val [a0; a1]) (val [b0; b1]) <? 0 = false) as K.
  { apply Z.ltb_ge. unfold cmpz. cbn [val]. rewrite !Z.mul_0_r, !Z.add_0_r.
    destruct (Z.compare_spec (a0 + W32 * a1) (b0 + W32 * b1)); try lia. exfalso. num. lia. }
  rewrite K in E. apply bind_ret_inv in E. destruct E as (l & E1 & E2). apply sub_two_limbs in E1. subst l.
  change (1 <? 0) with false in E2.
  assert (forall x, limb (u32 x)) as LU by (intros x; pose proof (u32_range x); num; lia).
  match type of E2 with bi_of_mag c [?p; ?q] _ = _ => set (p0 := p) in *; set (q0 := q) in * end.
  pose proof (mag_result c [p0; q0] false (p0 + W32 * q0)) as W.
  rewrite E2 in W. apply (represents_fun r).
  - exact R.
  - apply W; [repeat constructor; apply LU|]. cbn [val]. ring.
Qed.

Theorem every_compiler f c : exists a b x y,
  represents a x /\ represents b y /\ ~ returns (bi_sub_w (Some f) c a b) (x - y).
Proof.
  set (t := s32 (f 2 32)).
  destruct (Z.eq_dec (u32 (s32 (u32 (u32 (5 + t) - 1)))) 4) as [E|E].
  - exists (Big 1 [1; 5]), (Big 1 [4294967295; 1]), (1 * (1 + W32 * 5)), (1 * (4294967295 + W32 * 1)).
    split; [apply repr_limb2; auto; num; lia|].
    split; [apply repr_limb2; auto; num; lia|].
    intros H. apply sub_two_returns in H; try (num; lia).
    change (s32 (u32 (u32 (1 + 0) - 4294967295))) with 2 in H. fold t in H. rewrite E in H. revert H. vm_compute. discriminate.
  - exists (Big 1 [2; 5]), (Big 1 [0; 1]), (1 * (2 + W32 * 5)), (1 * (0 + W32 * 1)).
    split; [apply repr_limb2; auto; num; lia|].
    split; [apply repr_limb2; auto; num; lia|].
    intros H. apply sub_two_returns in H; try (num; lia).
    change (s32 (u32 (u32 (2 + 0) - 0))) with 2 in H. fold t in H. apply E. change (u32 2) with 2 in H. num. lia.
Qed.
