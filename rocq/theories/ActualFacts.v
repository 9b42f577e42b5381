(** Lemmas quoted by PropActual.v: what every call does, right or wrong. *)
From Coq Require Import String.
From Verif Require Import Facts Spec AddSubFacts SpecFacts BigIntFacts SpecApi BigInt BigIntText BigIntBytes BigIntDouble.
From Verif Require Import ArithLaws ApiMem SpecMem MemFacts ApiRun SpecPos SpecText SpecDouble SpecGcd SpecReduce SpecRun PosFacts.
From Verif Require Import WordFacts ShiftFacts ConvLaws BytesFacts ToBytesFacts DoubleFacts TextFacts PowFacts ModPowApi ReducerFacts LargeModPow PowLaws GcdFacts SafeModPow.
From Verif Require Import CalcAddSub RawFacts RunExact SpecModPow SpecActual GcdExact LeakyProduct LeakyModPow.

Ltac Zify.zify_post_hook ::= idtac.

(** ** Wrapping *)

Lemma int_of_s32 x : int_of x = s32 x.
Proof.
  unfold int_of, s32, u32. cbv zeta. change (2 ^ 31) with 2147483648. change (2 ^ 32) with W32.
  pose proof (Z.mod_pos_bound x W32 eq_refl) as B. pose proof (Z.div_mod x W32 ltac:(discriminate)) as D.
  destruct (Z.ltb_spec (x mod W32) 2147483648).
  - rewrite <- (Z.mod_unique_pos (x + 2147483648) W32 (x / W32) (x mod W32 + 2147483648)); num; lia.
  - rewrite <- (Z.mod_unique_pos (x + 2147483648) W32 (x / W32 + 1) (x mod W32 - 2147483648)); num; lia.
Qed.

Lemma int_of_le x : 0 <= x -> int_of x <= x.
Proof.
  intros H. unfold int_of. change (2 ^ 31) with 2147483648. change (2 ^ 32) with 4294967296.
  pose proof (Z.mod_le (x + 2147483648) 4294967296). lia.
Qed.

(** ** Shifts *)

Lemma drops_ones_bad x n : x < 0 -> 0 < n -> (drops_ones x n = true <-> shr_bad x n).
Proof.
  intros Hx Hn. unfold drops_ones, shr_bad. rewrite !andb_true_iff, Z.eqb_eq, !Z.ltb_lt.
  pose proof (limbs_of_count x) as (L1 & L2 & L3). unfold fits_limbs in *. rewrite Z.abs_neq in * by lia.
  split.
  - intros ((H1 & H2) & H3). exists (n / 32), (limbs_of x).
    pose proof (Z.div_mod n 32 ltac:(lia)) as D. rewrite H1 in D.
    replace (32 * (n / 32)) with n by lia. lia.
  - intros (k & l & Hk & E & F). subst n.
    assert (l = limbs_of x) as ->; [|split; [split|]; [|lia|lia]].
    + assert (limbs_of x <= l) by (apply L3; lia).
      destruct (Z.le_gt_cases l (limbs_of x)) as [G|G]; [lia|exfalso].
      assert (2 ^ (32 * limbs_of x) <= 2 ^ (32 * (l - 1))) as P1 by (apply Z.pow_le_mono_r; lia).
      assert (2 ^ (32 * k) <= 2 ^ (32 * (l - 1))) as P2 by (apply Z.pow_le_mono_r; lia).
      replace (32 * l) with (32 + 32 * (l - 1)) in F by ring. rewrite Z.pow_add_r in F by lia.
      change (2 ^ 32) with 4294967296 in F. lia.
    + rewrite Z.mul_comm. apply Z.mod_mul. lia.
Qed.

Lemma shr_pos_exact c a x n :
  represents a x -> 0 < n -> denotes (bi_shr_pos c a n) (right_shift c x n).
Proof.
  intros Ha Hn. unfold right_shift. destruct (Z.leb_spec 0 x) as [Hx|Hx].
  { apply returns_wp. eapply wp_mono; [eapply (bi_shr_pos_gen c a x n 0 Ha Hn); lia|]. cbn beta.
    rewrite (proj2 (Z.ltb_ge _ _)) by lia. cbn [andb]. intros r (H & _). apply H.
    intros (k & l & Hk & E & F). pose proof (Z.pow_lt_mono_r 2 (32 * k) (32 * l)). lia. }
  rewrite (limbs_of_length a x Ha). set (l := Z.of_nat (Nat.max 1 (length (bits_of a)))).
  change (2 ^ 26) with 67108864.
  assert (chk32 c (32 * l) = if strict c && (67108864 <=? l) then Undef SignedOverflow else Ret (int_of (32 * l))) as E.
  { rewrite int_of_s32. unfold chk32. rewrite (proj2 (Z.leb_le INT_MIN _)) by (unfold l; num; lia). cbn [andb].
    destruct (Z.leb_spec (32 * l) INT_MAX) as [G|G].
    - rewrite (proj2 (Z.leb_gt _ _)) by (num; lia). rewrite Bool.andb_false_r. f_equal. symmetry.
      unfold s32. rewrite u32_small by (unfold l in *; num; lia). cbv zeta. now rewrite (proj2 (Z.ltb_lt _ _)) by (num; lia).
    - rewrite (proj2 (Z.leb_le _ _)) by (num; lia). rewrite Bool.andb_true_r. reflexivity. }
  destruct (strict c && (67108864 <=? l)) eqn:Es.
  - cbn [denotes]. unfold bi_shr_pos.
    destruct (wp_inv _ _ (bi_parts_spec c a x Ha)) as ((xd & neg) & -> & Hneg & _ & _ & _ & Htriv & Hbig).
    cbn [fst snd bind] in *. subst neg. rewrite (proj2 (Z.ltb_lt x 0)) by lia.
    replace (Z.of_nat (length xd)) with l; [unfold kcbitUint; rewrite E; reflexivity|]. unfold l.
    destruct (bits_of a) eqn:Eb; [rewrite Htriv by reflexivity; reflexivity|].
    rewrite Hbig by discriminate. cbn [length]. lia.
  - pose proof (bi_shr_pos_gen c a x n (int_of (32 * l)) Ha Hn) as W. fold l in W.
    assert (wp (bi_shr_pos c a n) (fun r =>
      if (x <? 0) && (int_of (32 * l) <=? n) then r = s_bnMinusOneInt
      else (~ shr_bad x n -> represents r (x / 2 ^ n)) /\ (shr_bad x n -> represents r 0))) as W'.
    { apply W. intros _. split; [apply int_of_le; unfold l; lia|exact E]. }
    clear W. rewrite (proj2 (Z.ltb_lt x 0)) in W' by lia. cbn [andb] in W'.
    destruct (int_of (32 * l) <=? n).
    + cbn [denotes]. apply returns_wp. eapply wp_mono; [exact W'|]. cbn beta. intros r ->. apply repr_minus_one.
    + destruct (drops_ones x n) eqn:Ed; cbn [denotes]; apply returns_wp; (eapply wp_mono; [exact W'|]); cbn beta;
        intros r (H1 & H2).
      * apply H2, drops_ones_bad; auto.
      * apply H1. intros B. apply drops_ones_bad in B; auto. congruence.
Qed.

Lemma right_shift_minus_one c n : 0 < n -> right_shift c (-1) n = Ret (-1).
Proof.
  intros Hn. unfold right_shift. change (0 <=? -1) with false. change (limbs_of (-1)) with 1.
  change (2 ^ 26 <=? 1) with false. rewrite Bool.andb_false_r.
  assert (drops_ones (-1) n = false) as ->.
  { destruct (drops_ones (-1) n) eqn:E; [|reflexivity]. apply drops_ones_bad in E; [|lia|exact Hn].
    destruct E as (k & l & Hk & -> & F).
    assert (2 ^ (32 * (k + 1)) <= 2 ^ (32 * l)) as P by (apply Z.pow_le_mono_r; lia).
    replace (32 * (k + 1)) with (32 + 32 * k) in P by ring. rewrite Z.pow_add_r in P by lia.
    change (2 ^ 32) with 4294967296 in P. pose proof (pow2_pos (32 * k) ltac:(lia)). lia. }
  pose proof (pow2_pos n ltac:(lia)) as P. rewrite div_neg_one by lia.
  destruct (int_of (32 * 1) <=? n); reflexivity.
Qed.

Lemma int_of_max x : int_of x <= 2147483647.
Proof.
  unfold int_of. change (2 ^ 31) with 2147483648. change (2 ^ 32) with 4294967296.
  pose proof (Z.mod_pos_bound (x + 2147483648) 4294967296). lia.
Qed.

Lemma shr_twice_exact c a x :
  represents a x -> denotes (r <- bi_shr_pos c a INT_MAX ;; bi_shr_pos c r 1) (right_shift c x (2 ^ 31)).
Proof.
  intros Ha. pose proof (shr_pos_exact c a x INT_MAX Ha ltac:(reflexivity)) as H1.
  unfold right_shift in *. destruct (Z.leb_spec 0 x) as [Hx|Hx].
  - destruct H1 as (r & -> & Hr). cbn [bind].
    pose proof (shr_pos_exact c r _ 1 Hr ltac:(lia)) as H2. unfold right_shift in H2.
    rewrite (proj2 (Z.leb_le 0 _)) in H2 by (apply Z.div_pos; [lia|apply pow2_pos; discriminate]).
    change (2 ^ 31) with (INT_MAX + 1). rewrite Z.pow_add_r by discriminate.
    rewrite div_pow_nest by (apply pow2_pos; discriminate). exact H2.
  - destruct (strict c && (2 ^ 26 <=? limbs_of x)) eqn:Es; [cbn [denotes] in *; rewrite H1; reflexivity|].
    pose proof (int_of_max (32 * limbs_of x)) as M.
    rewrite (proj2 (Z.leb_le _ INT_MAX)) in H1 by (num; lia).
    rewrite (proj2 (Z.leb_le _ (2 ^ 31))) by (change (2 ^ 31) with 2147483648; lia).
    destruct H1 as (r & -> & Hr). cbn [bind].
    pose proof (shr_pos_exact c r _ 1 Hr ltac:(lia)) as H2. rewrite right_shift_minus_one in H2 by lia. exact H2.
Qed.

Lemma shl_exact c a x n : represents a x -> is_int n -> denotes (bi_shl c a n) (shift_by c x n).
Proof.
  intros Ha Hn. unfold is_int in Hn. change (2 ^ 31) with 2147483648 in Hn. unfold shift_by.
  destruct (Z.leb_spec 0 n) as [H|H]; [apply bi_shl_exact; [exact Ha|num; lia]|].
  unfold bi_shl. rewrite (proj2 (Z.eqb_neq n 0)) by lia.
  destruct (Z.eqb_spec n INT_MIN) as [->|N]; [now apply shr_twice_exact|].
  rewrite (proj2 (Z.ltb_lt n 0)) by lia. apply shr_pos_exact; [exact Ha|lia].
Qed.

Lemma shr_exact c a x n : represents a x -> is_int n -> denotes (bi_shr c a n) (shift_by c x (- n)).
Proof.
  intros Ha Hn. unfold is_int in Hn. change (2 ^ 31) with 2147483648 in Hn. unfold shift_by.
  destruct (Z.leb_spec 0 (- n)) as [H|H]; [apply bi_shr_negative; [exact Ha|num; lia]|].
  unfold bi_shr. rewrite (proj2 (Z.eqb_neq n 0)), (proj2 (Z.eqb_neq n INT_MIN)) by (num; lia).
  rewrite (proj2 (Z.ltb_ge n 0)) by lia. rewrite Z.opp_involutive. apply shr_pos_exact; [exact Ha|lia].
Qed.

(** ** Limb arrays *)

Lemma ne_case (l : list Z) : l = [] \/ l <> [].
Proof. destruct l; [left; reflexivity|right; discriminate]. Qed.

Lemma abs_int_limb t : - 2 ^ 31 <= t < 2 ^ 31 -> limb (Z.abs t).
Proof. change (2 ^ 31) with 2147483648. unfold limb. num; lia. Qed.

Lemma int64_sum c v : - 2 ^ 63 < v < 2 ^ 63 -> returns (s <- chk64 c v ;; bi_of_int64 c s) v.
Proof.
  intros H. unfold chk64. change (2 ^ 63) with 9223372036854775808 in H.
  rewrite !(proj2 (Z.leb_le _ _)) by (num; lia). cbn [andb bind].
  apply returns_wp, bi_of_int64_spec. num; lia.
Qed.

Lemma add_parts_exact c l s l' s' :
  limbs l -> limbs l' -> is_int s -> is_int s' ->
  denotes (bi_add_parts c l s l' s') (raw_sum c l s l' s').
Proof.
  intros Hl Hl' Hs Hs'. unfold bi_add_parts, raw_sum, is_int, number in *. rewrite <- !val_positional.
  destruct l as [|d l], l' as [|d' l']; cbn [is_nil andb].
  - apply int64_sum. change (2 ^ 31) with 2147483648 in *. change (2 ^ 63) with 9223372036854775808. lia.
  - rewrite abs32_int by exact Hs. destruct (strict c && (s =? - 2 ^ 31)); [reflexivity|]. cbn [bind denotes].
    destruct (wp_inv _ _ (calc_add_u_spec c (d' :: l') (Z.abs s) ltac:(discriminate) Hl' (abs_int_limb _ Hs))) as (r & -> & _ & R & V).
    cbn [bind]. now apply of_mag_signed.
  - rewrite abs32_int by exact Hs'. destruct (strict c && (s' =? - 2 ^ 31)); [reflexivity|]. cbn [bind denotes].
    destruct (wp_inv _ _ (calc_add_u_spec c (d :: l) (Z.abs s') ltac:(discriminate) Hl (abs_int_limb _ Hs'))) as (r & -> & _ & R & V).
    cbn [bind]. now apply of_mag_signed.
  - cbn [denotes]. destruct (Nat.ltb_spec (length (d :: l)) (length (d' :: l'))) as [H|H].
    + destruct (wp_inv _ _ (calc_add_spec c (d' :: l') (d :: l) ltac:(discriminate) ltac:(discriminate) Hl' Hl ltac:(lia))) as (r & -> & _ & R & V).
      cbn [bind]. apply of_mag_signed; [exact R|]. rewrite V. apply Z.add_comm.
    + destruct (wp_inv _ _ (calc_add_spec c (d :: l) (d' :: l') ltac:(discriminate) ltac:(discriminate) Hl Hl' ltac:(lia))) as (r & -> & _ & R & V).
      cbn [bind]. now apply of_mag_signed.
Qed.

Lemma raw_minus_exact c o l y checked (neg : bool) :
  (if dbg c && checked && (val l - y <? 0) then o = AssertFail
   else exists r, o = Ret r /\ limbs r /\ val r = (val l - y) mod Bp (length l)) ->
  denotes (bits <- o ;; bi_of_mag c bits neg) (raw_minus c l y checked neg).
Proof.
  intros H. unfold raw_minus, number. rewrite <- val_positional. cbv zeta.
  destruct (dbg c && checked && (val l - y <? 0)); [subst o; reflexivity|].
  destruct H as (r & -> & R & V). cbn [bind denotes]. apply of_mag_signed; [exact R|]. now rewrite V, ConvFacts.Bp_pow2.
Qed.

Lemma sub_parts_exact c l s l' s' :
  limbs l -> limbs l' -> is_int s -> is_int s' ->
  denotes (bi_sub_parts c l s l' s') (raw_diff c l s l' s').
Proof.
  intros Hl Hl' Hs Hs'. unfold bi_sub_parts, raw_diff, is_int, raw_less in *.
  destruct l as [|d l], l' as [|d' l']; cbn [is_nil andb].
  - apply int64_sum. change (2 ^ 31) with 2147483648 in *. change (2 ^ 63) with 9223372036854775808. lia.
  - rewrite abs32_int by exact Hs. destruct (strict c && (s =? - 2 ^ 31)); [reflexivity|]. cbn [bind].
    apply raw_minus_exact, calc_sub_u_raw; [discriminate|exact Hl'|now apply abs_int_limb].
  - rewrite abs32_int by exact Hs'. destruct (strict c && (s' =? - 2 ^ 31)); [reflexivity|]. cbn [bind].
    apply raw_minus_exact, calc_sub_u_raw; [discriminate|exact Hl|now apply abs_int_limb].
  - unfold number. rewrite <- !val_positional.
    set (a := d :: l) in *. set (b := d' :: l') in *.
    assert (a <> []) as Na by discriminate. assert (b <> []) as Nb by discriminate. clearbody a b.
    assert (calc_compare c a b = Ret (if Nat.ltb (length a) (length b) then -1
      else if Nat.ltb (length b) (length a) then 1 else cmpz (val a) (val b))) as ->.
    { unfold calc_compare, massert. rewrite !is_nil_false by assumption. cbn [negb].
      assert (forall b' : bool, (if b' then Ret tt else Ret tt) = Ret tt) as Hd by (intros []; reflexivity). rewrite !Hd. cbn [bind].
      destruct (Nat.ltb_spec (length a) (length b)); [reflexivity|].
      destruct (Nat.ltb_spec (length b) (length a)); [reflexivity|].
      rewrite compare_loop_spec by (auto; lia). rewrite vl_all, (vl_ge b) by lia. reflexivity. }
    cbn [bind].
    assert (forall x y : list Z, x <> [] -> y <> [] -> limbs x -> limbs y -> (length y <= length x)%nat ->
      ((length y < length x)%nat \/ val y <= val x) -> forall neg,
      denotes (bits <- calc_sub c x y ;; bi_of_mag c bits neg) (raw_minus c x (val y) true neg)) as K.
    { intros x y Nx Ny Lx Ly Hlen Hge neg. apply raw_minus_exact. rewrite Bool.andb_true_r. now apply calc_sub_raw. }
    destruct (Nat.ltb_spec (length a) (length b)) as [H1|H1]; cbn [orb].
    { change (-1 <? 0) with true. cbn beta iota. apply K; auto; lia. }
    destruct (Nat.ltb_spec (length b) (length a)) as [H2|H2].
    { rewrite (proj2 (Nat.eqb_neq _ _)) by lia. cbn [andb]. change (1 <? 0) with false. cbn beta iota.
      apply K; auto; lia. }
    rewrite (proj2 (Nat.eqb_eq (length a) (length b))) by lia. cbn [andb]. unfold cmpz.
    destruct (Z.compare_spec (val a) (val b)) as [E|E|E].
    + rewrite (proj2 (Z.ltb_ge (val a) (val b))) by lia. change (0 <? 0) with false. cbn beta iota. apply K; auto; lia.
    + rewrite (proj2 (Z.ltb_lt (val a) (val b))) by lia. change (-1 <? 0) with true. cbn beta iota. apply K; auto; lia.
    + rewrite (proj2 (Z.ltb_ge (val a) (val b))) by lia. change (1 <? 0) with false. cbn beta iota. apply K; auto; lia.
Qed.

(** ** mod_pow *)

Lemma mod_pow_exact c a b m x e z :
  represents a x -> represents b e -> represents m z -> denotes (bi_mod_pow c a b m) (power_mod (dbg c) x e z).
Proof.
  intros Ha Hb Hm. unfold power_mod.
  destruct (Z.ltb_spec e 0) as [He|He]; [eapply mod_pow_negative; eauto|].
  destruct (Z.eqb_spec z 0) as [->|Nz].
  { rewrite (mod_pow_zero c a b m x e Ha Hb Hm He).
    destruct ((Z.abs x <? 2 ^ 31) && (2 ^ 32 <=? e)); reflexivity. }
  destruct (Z.ltb_spec (Z.abs z) (2 ^ 31)) as [H31|H31]; [now apply mod_pow_small|].
  destruct (Z.ltb_spec (Z.abs z) (2 ^ 992)) as [H992|H992]; [now apply mod_pow_medium|].
  pose proof (large_limbs z H992) as Hn. pose proof (limbs_of_count z) as Hz.
  destruct (overruns x e z) eqn:Eo.
  { unfold overruns in Eo. cbv zeta in Eo. apply andb_prop in Eo as [Eo E4]. apply andb_prop in Eo as [Eo E3].
    apply andb_prop in Eo as [E1 E2]. apply Z.leb_le in E1, E4. apply Z.eqb_eq in E2. apply Z.ltb_lt in E3.
    cbn [denotes]. eapply mod_pow_overrun; eauto. }
  destruct (Z.eq_dec e 0) as [->|N0].
  { rewrite leaky_exponent_0. eapply mod_pow_large_0; eauto. }
  destruct (Z.eq_dec e 1) as [->|N1].
  { rewrite leaky_exponent_1 by (auto; lia). cbn [denotes].
    pose proof (mod_pow_large_1 c a b m x z (limbs_of z) Ha Hb Hm Hn Hz) as W.
    assert (x = 0 -> base_of x z (limbs_of z) = 0) as B0.
    { intros ->. unfold base_of. change (Z.abs 0) with 0. rewrite Zmod_0_l. now destruct (_ <? _). }
    destruct (Z.ltb_spec x 0); [rewrite Z.sgn_neg in W by lia; now rewrite Z.opp_eq_mul_m1, Z.mul_comm|].
    destruct (Z.eq_dec x 0) as [X|X]; [rewrite (B0 X) in *; rewrite Z.mul_0_r in W; exact W|].
    rewrite Z.sgn_pos, Z.mul_1_l in W by lia. exact W. }
  assert (mirrors represents (bi_mod_pow c a b m) (leaky_mod_pow (dbg c) x e z)) as W.
  { apply mod_pow_leaky with (n := limbs_of z); auto.
    destruct (Z.eq_dec (Z.abs z) (2 ^ (32 * (limbs_of z - 1)))) as [E|E]; [right|now left].
    unfold overruns in Eo. cbv zeta in Eo. rewrite (proj2 (Z.eqb_eq _ _) E), (proj2 (Z.leb_le 2 e)) in Eo by lia. cbn [andb] in Eo.
    destruct (Z.ltb_spec (Z.abs x) (2 ^ (32 * limbs_of z))) as [G|G]; cbn [andb] in Eo; [|now left].
    right. now apply Z.leb_gt in Eo. }
  destruct (leaky_mod_pow (dbg c) x e z) as [v| | | |]; cbn [mirrors denotes] in *; try contradiction; [|exact W].
  apply wp_inv in W. destruct W as (r & E & R). exists r. auto.
Qed.

Lemma mod_pow_right_iff c a b m x e z :
  represents a x -> represents b e -> represents m z ->
  (returns (bi_mod_pow c a b m) (Z.rem (x ^ e) z) <-> power_mod (dbg c) x e z = Ret (Z.rem (x ^ e) z)).
Proof.
  intros Ha Hb Hm. pose proof (mod_pow_exact c a b m x e z Ha Hb Hm) as D. split.
  - intros (r & E & R). destruct (power_mod (dbg c) x e z) as [v| | | |]; cbn [denotes] in D; try (rewrite E in D; discriminate).
    destruct D as (r' & E' & R'). rewrite E in E'. injection E' as <-. f_equal. destruct R as (_ & <-). destruct R' as (_ & <-). reflexivity.
  - intros E. rewrite E in D. exact D.
Qed.

Lemma mod_pow_assert_iff c a b m x e z :
  represents a x -> represents b e -> represents m z ->
  (bi_mod_pow c a b m = AssertFail <-> power_mod (dbg c) x e z = AssertFail).
Proof.
  intros Ha Hb Hm. pose proof (mod_pow_exact c a b m x e z Ha Hb Hm) as D.
  destruct (power_mod (dbg c) x e z) as [v|k|u| |]; cbn [denotes] in D; split; try discriminate; intros E;
    try (rewrite E in D; discriminate); auto.
  destruct D as (r & E' & _). rewrite E in E'. discriminate.
Qed.

(** ** Every call *)

Lemma agrees_into m s r o z : stands_for m s -> denotes o z -> agrees (into r o m) m (keep s r z).
Proof.
  intros H D. destruct z; cbn [denotes keep bind agrees] in *; try (subst o; reflexivity).
  destruct D as (b & -> & Hb). exists (put m r b). split; [reflexivity|]. now apply stands_put.
Qed.

Lemma agrees_ret m s r o z : stands_for m s -> returns o z -> agrees (into r o m) m (Ret (set s r z)).
Proof. intros H D. exact (agrees_into m s r o (Ret z) H D). Qed.

Lemma div_op_divides o : div_op o = true <-> divides o.
Proof. unfold divides. destruct o; cbn; split; try discriminate; auto; intros [H|H]; discriminate. Qed.

Lemma agrees_shl c m s p n :
  stands_for m s -> is_int n -> agrees (mem_shl c p n m) m (keep s p (shift_by c (s p) n)).
Proof.
  intros H Hn. unfold mem_shl. destruct (Z.eqb_spec n 0) as [->|].
  - exists m. split; [reflexivity|]. apply stands_same; [exact H|]. change (2 ^ 0) with 1. lia.
  - apply agrees_into; [exact H|]. now apply shl_exact.
Qed.

Lemma agrees_shr c m s p n :
  stands_for m s -> is_int n -> agrees (mem_shr c p n m) m (keep s p (shift_by c (s p) (- n))).
Proof.
  intros H Hn. unfold mem_shr. destruct (Z.eqb_spec n 0) as [->|].
  - exists m. split; [reflexivity|]. apply stands_same; [exact H|]. change (2 ^ (- 0)) with 1. lia.
  - destruct (Z.ltb_spec n 0); destruct (Z.eqb_spec n INT_MIN); cbn [andb negb].
    + apply agrees_into; [exact H|]. apply shr_exact; [apply H|exact Hn].
    + apply agrees_shl; [exact H|].
      unfold is_int in *. change (2 ^ 31) with 2147483648 in *. num; lia.
    + apply agrees_into; [exact H|]. apply shr_exact; [apply H|exact Hn].
    + apply agrees_into; [exact H|]. apply shr_exact; [apply H|exact Hn].
Qed.

Lemma set_reread s p r new : set s r new p = reread p r (s p) new.
Proof. reflexivity. Qed.

Lemma agrees_div_rem c m s r d v t fuel :
  stands_for m s -> agrees (run_cmd fuel c (DivRem r d v t) m) m (actual fuel c s (DivRem r d v t)).
Proof.
  intros H. cbn [run_cmd actual]. unfold quot_rem. cbv zeta.
  destruct (Z.eqb_spec (s v) 0) as [E|N].
  { cbn [bind agrees]. unfold seq. pose proof (H v) as Hv. rewrite E in Hv.
    now rewrite (mem_div_rem_zero c m d v t (s d) (H d) Hv). }
  rewrite !set_reread.
  destruct ((Z.abs (s d) <? 2 ^ 31) && (Z.abs (s v) <? 2 ^ 31)) eqn:B.
  - apply andb_prop in B as [B1 B2]. apply Z.ltb_lt in B1, B2.
    assert (stored_rem (s d) (s v) = Z.rem (s d) (s v)) as ->.
    { apply stored_rem_plain. unfold div_rem_bad. change (2 ^ 31) with 2147483648 in *. num; lia. }
    destruct (mem_div_rem_small c m d v t (s d) (s v) (H d) (H v) N (conj B1 B2)) as (rem & R & A1 & A2).
    cbv zeta in A1, A2. destruct (Z.eqb_spec (reread v t (s v) (Z.rem (s d) (s v))) 0) as [E|E].
    + cbn [bind agrees]. unfold seq. now rewrite (A1 E).
    + destruct (A2 E) as (q & E2 & Q). cbn [bind agrees]. unfold seq. rewrite E2.
      exists (put (put m t rem) r q). split; [reflexivity|]. apply stands_put; [now apply stands_put|exact Q].
  - assert (~ both_small (s d) (s v)) as B'.
    { intros (B1 & B2). apply Z.ltb_lt in B1, B2. rewrite B1, B2 in B. discriminate. }
    destruct (mem_div_rem_big c m d v t (s d) (s v) (H d) (H v) N B') as (rem & q & R & E & Q).
    cbn [bind agrees]. unfold seq. rewrite E.
    exists (put (put m t rem) r q). split; [reflexivity|]. apply stands_put; [now apply stands_put|exact Q].
Qed.

Theorem agrees_cmd fuel c s k m :
  typed k -> stands_for m s -> agrees (run_cmd fuel c k m) m (actual fuel c s k).
Proof.
  intros T ST. destruct k; cbn [typed] in T; cbn [run_cmd actual]; mem_reads.
  - exists (put m r bi_default). split; [reflexivity|]. apply stands_put; [exact ST|apply repr_zero].
  - apply agrees_ret; [exact ST|]. now apply ctor_family.
  - apply agrees_ret; [exact ST|]. now apply ctor_family.
  - destruct (ctor_family c v) as (_ & _ & A & _). destruct (strict c) eqn:Ec; cbn [andb].
    + destruct (Z.eqb_spec v (- 2 ^ 63)) as [->|E].
      * rewrite ctor_strict by assumption. reflexivity.
      * apply agrees_ret; [exact ST|]. apply A; auto.
    + apply agrees_ret; [exact ST|]. apply A; auto.
  - apply agrees_ret; [exact ST|]. now apply ctor_family.
  - destruct (Z.eqb_spec (dbl_exp pattern) 2047) as [E|E].
    + rewrite of_double_infinite; [reflexivity|exact T|]. intros N. now apply N.
    + apply agrees_ret; [exact ST|]. now apply of_double_finite.
  - apply agrees_ret; [exact ST|]. now apply signed_limbs_val.
  - destruct (strict c) eqn:Ec; cbn [andb]; [|apply agrees_ret; [exact ST|]; apply of_bytes_returns; auto].
    destruct (Z.ltb_spec (bytes_value isUnsigned isBigEndian bytes) 0) as [Hn|Hn]; cbn [andb];
      [|apply agrees_ret; [exact ST|]; apply of_bytes_returns; auto].
    destruct (Nat.leb_spec (length bytes) 4) as [Hl|Hl]; [|apply agrees_ret; [exact ST|]; apply of_bytes_returns; auto].
    rewrite of_bytes_strict by auto. reflexivity.
  - apply (agrees_ret _ _ r (Ret (m p))); [exact ST|]. exists (m p). split; [reflexivity|apply ST].
  - apply agrees_ret; [exact ST|]. apply ctor_family. change (2 ^ 31) with 2147483648; lia.
  - apply agrees_ret; [exact ST|]. apply ctor_family. change (2 ^ 31) with 2147483648; lia.
  - apply agrees_ret; [exact ST|]. apply ctor_family. change (2 ^ 31) with 2147483648; lia.
  - apply agrees_ret; [exact ST|]. apply parse_returns.
  - destruct (parse_returns c s0) as (b & E & Hb). unfold bi_try_parse. rewrite E.
    exists (put m result b). split; [reflexivity|]. now apply stands_put.
  - destruct (div_op o && (s rhs =? 0)) eqn:E.
    + apply andb_prop in E as [E1 E2]. apply div_op_divides in E1. apply Z.eqb_eq in E2.
      pose proof (run_assign_pure o c this rhs m) as P. pose proof (ST rhs) as Hq. rewrite E2 in Hq.
      rewrite (pure_assign_zero o c _ _ (s this) E1 (ST this) Hq) in P. exact P.
    + destruct (run_assign_exact o c m this rhs (s this) (s rhs) (ST this) (ST rhs)) as (m' & b & E' & R & OC).
      * intros D N. apply div_op_divides in D. rewrite D, N in E. discriminate.
      * exists m'. split; [exact E'|]. eapply stands_only; eauto.
  - destruct (div_op o && (s rhs =? 0)) eqn:E.
    + apply andb_prop in E as [E1 E2]. apply div_op_divides in E1. apply Z.eqb_eq in E2.
      pose proof (ST rhs) as Hq. rewrite E2 in Hq.
      rewrite bin_pure, (pure_assign_zero o c _ _ (s lhs) E1 (ST lhs) Hq). reflexivity.
    + apply agrees_ret; [exact ST|]. rewrite bin_pure. apply pure_assign_exact; [apply ST|apply ST|].
      intros D N. apply div_op_divides in D. rewrite D, N in E. discriminate.
  - now apply agrees_shl.
  - now apply agrees_shr.
  - apply agrees_into; [exact ST|]. now apply shl_exact.
  - apply agrees_into; [exact ST|]. now apply shr_exact.
  - destruct (add_family c (m this) (m this) _ _ (ST this) (ST this)) as (_ & b & E & R).
    exists (put m this b). split; [|now apply stands_put]. unfold bi_inc in E. unfold mem_inc, seq, lift.
    destruct (bi_one c); try discriminate. cbn [bind load] in *. now rewrite E.
  - destruct (add_sub_family c (m this) (m this) _ _ (ST this) (ST this)) as (_ & (b & E & R) & _).
    exists (put m this b). split; [|now apply stands_put]. unfold bi_dec in E. unfold mem_dec, seq, lift.
    destruct (bi_one c); try discriminate. cbn [bind load] in *. now rewrite E.
  - apply agrees_ret; [exact ST|]. now apply (add_sub_family c (m p) (m p) _ _ (ST p) (ST p)).
  - apply agrees_ret; [exact ST|]. now apply (add_sub_family c (m p) (m p) _ _ (ST p) (ST p)).
  - apply agrees_ret; [exact ST|]. replace (- s p - 1) with (Z.lnot (s p)) by (unfold Z.lnot; lia).
    now apply (bitwise_family c (m p) (m p) _ _ (ST p) (ST p)).
  - apply agrees_ret; [exact ST|]. now apply (add_sub_family c (m p) (m p) _ _ (ST p) (ST p)).
  - exact (agrees_div_rem c m s r dividend divisor remainder fuel ST).
  - unfold is_int in T. destruct (Z.ltb_spec exponent 0) as [L|L].
    { rewrite (pow_negative c (m p) (s p) exponent); auto; [reflexivity|lia]. }
    pose proof (limbs_of_count (s p)) as Hn.
    destruct ((1 <? exponent) && (1 <? Z.abs (s p)) && (2 ^ 31 - 1 <=? limbs_of (s p) * exponent + 1)) eqn:E.
    + apply andb_prop in E as [E E3]. apply andb_prop in E as [E1 E2]. apply Z.ltb_lt in E1, E2. apply Z.leb_le in E3.
      rewrite (pow_overflow c (m p) (s p) exponent (limbs_of (s p))); auto; [reflexivity|lia].
    + apply agrees_ret; [exact ST|]. eapply pow_exact; eauto; [lia|].
      destruct (Z.ltb_spec 1 exponent); [|right; left; lia].
      destruct (Z.ltb_spec 1 (Z.abs (s p))); [|left; lia]. cbn [andb] in E. apply Z.leb_gt in E. auto.
  - apply agrees_into; [exact ST|]. now apply mod_pow_exact.
  - apply agrees_into; [exact ST|]. apply gcd_exact; apply ST.
  - destruct T as (T1 & T2). apply agrees_into; [exact ST|]. now apply gcd_bits_exact.
  - destruct T as (T1 & T2 & T3 & T4). apply agrees_into; [exact ST|]. now apply add_parts_exact.
  - destruct T as (T1 & T2 & T3 & T4). apply agrees_into; [exact ST|]. now apply sub_parts_exact.
Qed.

Theorem calls_exact fuel c l : forall s m,
  Forall typed l -> stands_for m s ->
  match actual_calls fuel c s l with
  | Some (tr, s') => exists m', run_calls fuel c l m = Some (tr, m') /\ stands_for m' s'
  | None => run_calls fuel c l m = None
  end.
Proof.
  induction l as [|k l IH]; intros s m H ST; cbn [actual_calls].
  { now exists m. }
  inversion H as [|k' l' T H' E1]; subst k' l'. clear H. rename H' into H.
  pose proof (agrees_cmd fuel c s k m T ST) as H1. cbn [run_calls].
  destruct (actual fuel c s k) as [s1|e|u| |] eqn:E; cbn [agrees] in H1.
  - destruct H1 as (m1 & -> & S1). specialize (IH s1 m1 H S1).
    destruct (actual_calls fuel c s1 l) as [(tr & s')|]; cbn [option_map fst snd].
    + destruct IH as (m2 & -> & S2). now exists m2.
    + now rewrite IH.
  - rewrite H1. specialize (IH s m H ST). destruct (actual_calls fuel c s l) as [(tr & s')|]; cbn [option_map fst snd].
    + destruct IH as (m2 & -> & S2). now exists m2.
    + now rewrite IH.
  - destruct (run_cmd fuel c k m) as (o & m'). cbn [fst] in H1. now subst o.
  - destruct (run_cmd fuel c k m) as (o & m'). cbn [fst] in H1. now subst o.
  - destruct (run_cmd fuel c k m) as (o & m'). cbn [fst] in H1. now subst o.
Qed.
