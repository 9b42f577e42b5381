(** Proofs about mod_pow by long moduli with sizes kept in [int]. *)
From Verif Require Import Machine Facts Spec AddSubFacts SquMulFacts DivRemFacts DivCoreFacts SpecFacts BigIntFacts
  CompareFacts ConvFacts SpecApi SpecGcd ShiftFacts WordFacts BigInt CalcDivRem CalcPowMod PowFacts PowLaws ModPowFacts ModPowApi RunExact LeakyModPow SpecActual ActualFacts
  IntSizes SpecSizes IntSizesFacts IntLimbs SpecLimbs IntLimbsFacts IntLimbsLaws IntConvFacts BytesFacts IntBitsFacts IntAdd SpecIntAdd IntAddFacts
  IntAddLaws IntTextLaws IntDiv SpecIntDiv IntDivFacts IntMulFacts IntMulLaws IntGcd IntGcdLaws IntPow SpecIntPow IntPowFacts IntModPow SpecIntModPow.
Ltac Zify.zify_post_hook ::= idtac.

Lemma calc_rem_i_same c l m : limbs l -> limbs m -> m <> [] -> top_nz m -> (length m <= length l)%nat ->
  Z.of_nat (length l) <= INT_MAX ->
  calc_rem_i c l m = calc_rem c l m /\ exists r, calc_rem c l m = Ret r /\ length r = length l /\ limbs r /\ val r = val l mod val m.
Proof.
  intros Hl Hm N T G B. unfold INT_MAX in B.
  pose proof (calc_rem_spec c l m Hl Hm N T G) as W. apply wp_inv in W as (r & E & R1 & R2 & R3).
  split; [|exists r; auto]. rewrite E.
  assert (l <> []) as Nl by (intros ->; destruct m; cbn [length] in *; [congruence|lia]).
  assert (1 <= length m)%nat as Lm by (destruct m; [congruence|cbn [length]; lia]).
  unfold calc_rem_i. rewrite arrays_asserted by assumption. cbv zeta.
  pose proof (core_i_spec c l m [] 0 Hl Hm G (or_introl (conj eq_refl eq_refl))) as K. cbv zeta in K. unfold long_case in K.
  rewrite !s32_small in * by (unfold INT_MIN, INT_MAX; lia).
  rewrite (proj2 (Z.ltb_ge (Z.of_nat (length l)) 1)), (proj2 (Z.ltb_ge (Z.of_nat (length m)) 1)),
    (proj2 (Z.ltb_ge (Z.of_nat (length l)) (Z.of_nat (length m)))) in K by lia.
  cbn [orb] in K. rewrite andb_false_r in K. rewrite (proj2 (Z.eqb_neq (Z.of_nat (length m)) _)) in K by lia.
  rewrite !Nat2Z.id, !vl_all in K. rewrite pow_Bp in K by lia. replace (Z.to_nat (Z.of_nat (length m) - 1)) with (length m - 1)%nat in K by lia.
  rewrite (proj2 (Z.ltb_ge (val m) _)) in K by (now apply top_nz_bound).
  apply wp_inv in K as ([l1 b1] & -> & K1 & K2 & K3 & _). cbn [bind]. f_equal. apply val_inj_len; auto; lia.
Qed.

Lemma actual_length_top l : l <> [] -> limbs l -> top_nz l -> actual_length l (length l) = Ret (length l).
Proof.
  intros N Hl T. pose proof (actual_length_spec l (length l) (le_n _)) as W. apply wp_inv in W as (k & E & K1 & K2 & K3).
  rewrite E. f_equal. destruct (Nat.eq_dec k (length l)) as [|D]; [assumption|exfalso].
  rewrite vl_all in K2. pose proof (top_nz_bound l Hl N T) as TB. pose proof (vl_bound l k Hl) as VB.
  pose proof (Bp_le k (length l - 1) ltac:(lia)). lia.
Qed.

Lemma of_v_sized size l : limbs l -> Z.of_nat (length l) <= INT_MAX ->
  buf_of_v_i size l = if size <? 0 then LengthError else Sized (buf_of_v (Z.to_nat size) l).
Proof.
  intros Hl B. unfold buf_of_v_i. cbv zeta. rewrite s32_small by (unfold INT_MIN in *; lia).
  rewrite (proj2 (Z.ltb_ge (Z.of_nat _) 0)) by lia. rewrite Nat2Z.id, firstn_all.
  pose proof (actual_length_spec l (length l) (le_n _)) as W. apply wp_inv in W as (k & -> & _). reflexivity.
Qed.

(** The remainder of an array whose size is negative as an int. *)
Lemma calc_rem_i_back c l m : limbs l -> limbs m -> m <> [] -> top_nz m -> (length m <= length l)%nat ->
  Z.of_nat (length m) <= INT_MAX -> s32 (Z.of_nat (length l)) < 0 -> calc_rem_i c l m = if dbg c then AssertFail else Ret l.
Proof.
  intros Hl Hm N T G B S. unfold INT_MAX in B.
  assert (l <> []) as Nl by (intros ->; destruct m; cbn [length] in *; [congruence|lia]).
  assert (1 <= length m)%nat as Lm by (destruct m; [congruence|cbn [length]; lia]).
  unfold calc_rem_i. rewrite arrays_asserted by assumption. cbv zeta.
  pose proof (core_i_spec c l m [] 0 Hl Hm G (or_introl (conj eq_refl eq_refl))) as K. cbv zeta in K. unfold long_case in K.
  rewrite (s32_small (Z.of_nat (length m))) in * by (unfold INT_MIN, INT_MAX; lia).
  rewrite (proj2 (Z.ltb_lt (s32 _) 1)) in K by lia. cbn [orb] in K. rewrite andb_true_r in K. destruct (dbg c); [now rewrite K|].
  rewrite (proj2 (Z.ltb_ge (Z.of_nat (length m)) 1)), (proj2 (Z.eqb_neq (Z.of_nat (length m)) _)) in K by lia.
  rewrite !Nat2Z.id, !vl_all in K. rewrite pow_Bp in K by lia. replace (Z.to_nat (Z.of_nat (length m) - 1)) with (length m - 1)%nat in K by lia.
  rewrite (proj2 (Z.ltb_ge (val m) _)) in K by (now apply top_nz_bound).
  rewrite (proj2 (Z.ltb_lt (s32 _) (Z.of_nat (length m)))) in K by lia.
  apply wp_inv in K as ([l1 b1] & -> & K1 & K2 & K3 & _). cbn [bind]. f_equal. apply val_inj_len; auto.
Qed.

Theorem mod_pow_long_back c a b m x e z : represents a x -> represents b e -> represents m z -> 2147483648 <= Z.abs z ->
  0 <= e -> int_limbs x < 0 -> limbs_of z < 2147483648 ->
  bi_mod_pow_long_i c a b m = if dbg c then Sized AssertFail else if int_of (2 * limbs_of z) <? 0 then LengthError else Sized (Undef OutOfBounds).
Proof.
  intros Ha Hb Hm Hz He L Lz. unfold bi_mod_pow_long_i.
  rewrite (repr_sign_ltb b e Hb), (proj2 (Z.ltb_ge e 0) He), (valid_ok c a x Ha), (valid_ok c b e Hb), (valid_ok c m z Hm). cbn [bind before].
  assert (2147483648 <= limbs_of x) as Lx.
  { destruct (Z.lt_ge_cases (limbs_of x) 2147483648) as [Q|Q]; [|exact Q]. destruct (limbs_of_count x) as (P & _).
    unfold int_limbs in L. rewrite int_of_s32, s32_small in L by (unfold INT_MIN, INT_MAX; lia). lia. }
  assert (2147483648 <= Z.abs x) as X.
  { destruct (Z.lt_ge_cases (Z.abs x) 2147483648) as [S|S]; [rewrite (limbs_of_small x S) in Lx; lia|exact S]. }
  destruct (long_parts m z Hm Hz) as (s & l & -> & Hs & N & Hl & Ht & Hv & Sz & LZ).
  destruct (long_parts a x Ha X) as (s' & l' & -> & Hs' & N' & Hl' & Ht' & Hv' & Sx & LX).
  unfold powmod_buf_i. cbn [bits_of sign_of]. cbv zeta. rewrite (nil_false l' N').
  replace (s32 (Z.of_nat (length l) + Z.of_nat (length l))) with (int_of (2 * limbs_of z)) by (rewrite int_of_s32, LZ; f_equal; lia).
  rewrite (int_length x l' LX) in L. rewrite (proj2 (Nat.ltb_lt (length l) (length l'))) by lia.
  rewrite calc_rem_i_back by (auto; unfold INT_MAX; lia). destruct (dbg c); [reflexivity|]. cbn [before].
  unfold buf_of_v_i. cbv zeta. rewrite (proj2 (Z.ltb_lt _ _) L). destruct (_ <? 0); reflexivity.
Qed.

(** ** The exponent *)

Lemma nth_error_cut (l : list Z) i k : (i < k)%nat -> nth_error (firstn k l) i = nth_error l i.
Proof.
  revert i k. induction l as [|x l IH]; intros i k H; [now rewrite firstn_nil|].
  destruct k as [|k]; [lia|]. destruct i as [|i]; [reflexivity|]. cbn [firstn nth_error]. apply IH. lia.
Qed.

(** The limbs of the exponent that are used. *)
Definition limbs_used (l : list Z) : list Z :=
  let k := Z.to_nat (Z.min (Z.of_nat (length l) - 1) 2147483648) in firstn k l ++ [nth (length l - 1) l 0].

Lemma limbs_used_length l : l <> [] -> length (limbs_used l) = S (Z.to_nat (Z.min (Z.of_nat (length l) - 1) 2147483648)).
Proof.
  intros N. unfold limbs_used. cbv zeta. rewrite app_length, firstn_length. cbn [length].
  assert (1 <= length l)%nat by (destruct l; [congruence|cbn [length]; lia]). lia.
Qed.

Lemma powmod_v_loop_i_cut c l m value result temp : l <> [] ->
  strict c = false \/ Z.of_nat (length l) <= 2147483648 ->
  powmod_v_loop_i c l m value result temp = powmod_v_loop c (limbs_used l) m value result temp.
Proof.
  intros N H. assert (1 <= length l)%nat as L1 by (destruct l; [congruence|cbn [length]; lia]).
  unfold powmod_v_loop_i, powmod_v_loop. cbv zeta. rewrite limbs_used_length by exact N. change (INT_MAX + 1) with 2147483648.
  set (k := Z.to_nat (Z.min (Z.of_nat (length l) - 1) 2147483648)). replace (S k - 1)%nat with k by lia.
  replace (Z.of_nat (S k) - 1) with (Z.of_nat k) by lia.
  assert (k <= length l - 1)%nat as Kl by (unfold k; lia).
  assert (limbs_used l = firstn k l ++ [nth (length l - 1) l 0]) as -> by reflexivity.
  rewrite (for_up_eq (fun _ _ => True)) with (b2 := fun i st =>
      let '(value, result, temp) := st in
      p <- rd (firstn k l ++ [nth (length l - 1) l 0]) i ;;
      '(_, value, result, temp) <-
        for_up 32 0 (fun _ st => powmod_v_step c m st) (p, value, result, temp) ;;
      Ret (value, result, temp)); auto.
  2:{ intros i ((v', r'), t') Hi _. unfold rd. rewrite nth_error_app1 by (rewrite firstn_length; lia).
      rewrite nth_error_cut by lia. reflexivity. }
  match goal with |- bind ?o _ = _ => destruct o as [((v', r'), t')| | | |] end; try reflexivity. cbn [bind].
  assert (exists t, (if INT_MAX <? Z.of_nat (length l) - 1 then chk32 c 2147483648 else Ret 0) = Ret t) as (t & ->).
  { unfold INT_MAX. destruct (Z.ltb_spec 2147483647 (Z.of_nat (length l) - 1)) as [G|G]; [|eauto].
    unfold chk32. destruct H as [->|H]; [|lia]. destruct (_ && _); eauto. }
  cbn [bind]. unfold rdz, rd. rewrite (proj2 (Z.ltb_ge (Z.of_nat (length l) - 1) 0)), (proj2 (Z.ltb_ge (Z.of_nat k) 0)) by lia.
  rewrite Nat2Z.id. replace (Z.to_nat (Z.of_nat (length l) - 1)) with (length l - 1)%nat by lia.
  rewrite nth_error_app2 by (rewrite firstn_length; lia). rewrite firstn_length, Nat.min_l by lia. rewrite Nat.sub_diag. cbn [nth_error].
  rewrite (nth_error_nth' l 0) by lia. reflexivity.
Qed.

(** Where ints do not wrap, the index overflows. *)
Lemma powmod_v_loop_i_over c l m value result temp v r : limbs m -> m <> [] -> top_nz m -> limbs l -> l <> [] ->
  pm_state (length m + length m) (length m) value v -> pm_state (length m + length m) (length m) result r ->
  bb_bits temp = zeros (length m + length m) -> strict c = true -> 2147483648 < Z.of_nat (length l) ->
  powmod_v_loop_i c l m value result temp = Undef SignedOverflow.
Proof.
  intros Hm Nm Tm Hl N Hv Hr Ht S H.
  assert (limbs (limbs_used l)) as Hu.
  { unfold limbs_used. apply limbs_app. split; [now apply limbs_firstn|]. constructor; [now apply limbs_nth|constructor]. }
  assert (limbs_used l <> []) as Nu by (intros E; apply (f_equal (@length Z)) in E; rewrite limbs_used_length in E by exact N; discriminate E).
  pose proof (powmod_v_loop_spec c m Hm Nm Tm (limbs_used l) value result temp v r Hu Nu Hv Hr Ht) as W.
  apply wp_inv in W as (bf & W & _). revert W. unfold powmod_v_loop_i, powmod_v_loop. cbv zeta. rewrite limbs_used_length by exact N.
  change (INT_MAX + 1) with 2147483648.
  set (k := Z.to_nat (Z.min (Z.of_nat (length l) - 1) 2147483648)). cbn [Nat.sub]. rewrite Nat.sub_0_r.
  assert (k <= length l - 1)%nat as Kl by (unfold k; lia).
  assert (limbs_used l = firstn k l ++ [nth (length l - 1) l 0]) as -> by reflexivity.
  rewrite (for_up_eq (fun _ _ => True) (fun i st =>
      let '(value, result, temp) := st in
      p <- rd l i ;;
      '(_, value, result, temp) <-
        for_up 32 0 (fun _ st => powmod_v_step c m st) (p, value, result, temp) ;;
      Ret (value, result, temp)) (fun i st =>
      let '(value, result, temp) := st in
      p <- rd (firstn k l ++ [nth (length l - 1) l 0]) i ;;
      '(_, value, result, temp) <-
        for_up 32 0 (fun _ st => powmod_v_step c m st) (p, value, result, temp) ;;
      Ret (value, result, temp))); auto.
  2:{ intros i ((v', r'), t') Hi _. unfold rd. rewrite nth_error_app1 by (rewrite firstn_length; lia).
      rewrite nth_error_cut by lia. reflexivity. }
  match goal with |- bind ?o _ = _ -> _ => destruct o as [((v', r'), t')| | | |] end; try discriminate. intros _. cbn [bind].
  unfold INT_MAX. rewrite (proj2 (Z.ltb_lt 2147483647 _)) by lia. rewrite (chk32_over c _ S) by lia. reflexivity.
Qed.

Lemma exponent_nonneg e : 0 <= e -> 0 <= exponent_used e.
Proof.
  intros He. unfold exponent_used. cbv zeta. destruct (limbs_of_count e) as (P & _). change (2 ^ 31) with 2147483648.
  set (k := Z.min (limbs_of e - 1) 2147483648). pose proof (pow2_pos (32 * k) ltac:(unfold k; lia)) as K.
  assert (0 <= e / 2 ^ (32 * (limbs_of e - 1))) as D by (apply Z.div_pos; [lia|apply pow2_pos; lia]).
  assert (0 <= low e k) as M by (unfold low; apply Z.mod_pos_bound, pow2_pos; lia).
  pose proof (Z.mul_nonneg_nonneg _ _ (Z.lt_le_incl _ _ K) D). lia.
Qed.

(** What is left to do with the exponent [b]. *)
Definition rest_plain (c : cfg) (value exponent modulus : bigint) (v : bitsbuf) : outcome bigint :=
  bits <-
    (if is_nil (bits_of exponent) then
       e <- abs32 c (sign_of exponent) ;; powmod_core_u c e (bits_of modulus) v
     else powmod_core_v c (bits_of exponent) (bits_of modulus) v) ;;
  even <- (if sign_of value <? 0 then bi_is_even c exponent else Ret true) ;;
  bi_of_mag c bits (negb even).

Lemma rest_cut c a b m x e z : represents a x -> represents b e -> represents m z -> 2147483648 <= Z.abs z -> 0 <= e -> limbs_of z < 536870912 ->
  strict c && (limbs_of z <? 32) && (2147483648 <? limbs_of e) = false ->
  exists b', represents b' (if limbs_of z <? 32 then exponent_used e else e) /\ forall v, powmod_rest_i c a b m v = rest_plain c a b' m v.
Proof.
  intros Ha Hb Hm Hz He Lz H. destruct (long_parts m z Hm Hz) as (sm & lm & -> & Hsm & Nm & Hlm & Htm & Hvm & Sz & LZ).
  unfold powmod_rest_i, rest_plain. cbn [bits_of]. change (2 ^ 29) with 536870912. rewrite (proj2 (Z.leb_gt 536870912 _)) by lia.
  destruct (Z.lt_ge_cases (Z.abs e) 2147483648) as [G|G].
  { exists b. split.
    - rewrite exponent_short by lia. now destruct (_ <? 32).
    - intros v. rewrite (short_parts _ _ Hb G). reflexivity. }
  destruct (long_parts b e Hb G) as (s & l & -> & Hs & N & Hl & Ht & Hv & Se & LE). cbn [bits_of sign_of]. rewrite (nil_false l N).
  rewrite Z.sgn_pos in Se by lia. subst s. rewrite Z.abs_eq in Hv by lia.
  assert (1 <= length l)%nat as L1 by (destruct l; [congruence|cbn [length]; lia]).
  destruct (Z.ltb_spec (limbs_of z) 32) as [Q|Q].
  2:{ exists (Big 1 l). split; [exact Hb|]. intros v. cbn [bits_of]. rewrite (nil_false l N).
      unfold powmod_core_v_i, powmod_core_v. rewrite (proj2 (Nat.ltb_ge _ _)) by (unfold ReducerThreshold; lia). reflexivity. }
  assert (strict c = false \/ Z.of_nat (length l) <= 2147483648) as H'.
  { destruct (strict c); [|now left]. cbn [andb] in H. apply Z.ltb_ge in H. right. lia. }
  set (k := Z.to_nat (Z.min (Z.of_nat (length l) - 1) 2147483648)).
  assert (limbs_used l <> []) as Nu by (intros E; apply (f_equal (@length Z)) in E; rewrite limbs_used_length in E by exact N; discriminate E).
  assert (limbs (limbs_used l)) as Hu.
  { unfold limbs_used. apply limbs_app. split; [now apply limbs_firstn|]. constructor; [now apply limbs_nth|constructor]. }
  assert (exponent_used e = val (limbs_used l)) as EU.
  { rewrite (exponent_list e l Hl N Hv LE). cbv zeta. fold k. unfold limbs_used. cbv zeta. fold k. rewrite val_app.
    rewrite firstn_length, Nat.min_l by (unfold k; lia). replace (Z.to_nat (Z.of_nat (length l) - 1)) with (length l - 1)%nat by lia.
    change (val (firstn k l)) with (vl l k). cbn [val]. ring. }
  pose proof (top_nz_bound l Hl N Ht) as TB.
  assert (top_nz (limbs_used l)) as Tu.
  { unfold top_nz in *. rewrite limbs_used_length by exact N. fold k. unfold limbs_used. cbv zeta. fold k. cbn [Nat.sub]. rewrite Nat.sub_0_r.
    rewrite app_nth2 by (rewrite firstn_length; unfold k; lia). rewrite firstn_length, Nat.min_l, Nat.sub_diag by (unfold k; lia). exact Ht. }
  assert (represents (Big 1 (limbs_used l)) (exponent_used e)) as Hb'.
  { apply repr_big; auto; [|rewrite EU; ring]. destruct (Nat.eq_dec (length l) 1) as [O|O].
    + assert (limbs_used l = l) as ->; [|lia]. unfold limbs_used. destruct l as [|y [|y' l]]; try (cbn [length] in O; lia). reflexivity.
    + pose proof (top_nz_bound _ Hu Nu Tu) as TB'. rewrite limbs_used_length in TB' by exact N. fold k in TB'.
      pose proof (Bp_le 1 (S k - 1) ltac:(unfold k; lia)) as P. change (Bp 1) with 4294967296 in P. lia. }
  exists (Big 1 (limbs_used l)). split; [exact Hb'|].
  intros v. cbn [bits_of sign_of]. rewrite (nil_false _ Nu).
  assert (powmod_core_v_i c l lm v = powmod_core_v c (limbs_used l) lm v) as ->.
  { unfold powmod_core_v_i, powmod_core_v. rewrite (proj2 (Nat.ltb_lt _ _)) by (unfold ReducerThreshold; lia).
    destruct (buf_of_u _ 0); try reflexivity. cbn [bind]. destruct (buf_of_u _ 1); try reflexivity. cbn [bind].
    now rewrite powmod_v_loop_i_cut. }
  assert (bi_is_even c (Big 1 l) = bi_is_even c (Big 1 (limbs_used l))) as ->; [|reflexivity].
  unfold bi_is_even. rewrite (valid_ok c _ _ Hb), (valid_ok c _ _ Hb'). cbn [bind bits_of]. clear - N.
  destruct l as [|y l]; [congruence|]. unfold limbs_used. cbv zeta.
  destruct l as [|y' l]; [reflexivity|].
  destruct (Z.to_nat _) eqn:K; [cbn [length] in K; lia|]. reflexivity.
Qed.

(** Where ints do not wrap. *)
Lemma rest_over c a b m v x e z : represents b e -> represents m z -> 2147483648 <= Z.abs z -> 0 <= e ->
  strict c && (limbs_of z <? 32) && (2147483648 <? limbs_of e) = true ->
  pm_state (length (bits_of m) + length (bits_of m)) (length (bits_of m)) v x ->
  powmod_rest_i c a b m v = Undef SignedOverflow.
Proof.
  intros Hb Hm Hz He H Hv. apply andb_prop in H as (H & H2). apply andb_prop in H as (H0 & H1). apply Z.ltb_lt in H1, H2.
  destruct (long_parts m z Hm Hz) as (sm & lm & -> & Hsm & Nm & Hlm & Htm & Hvm & Sz & LZ). cbn [bits_of] in *.
  assert (2147483648 <= Z.abs e) as S.
  { destruct (Z.lt_ge_cases (Z.abs e) 2147483648) as [S|S]; [rewrite (limbs_of_small e S) in H2; lia|exact S]. }
  destruct (long_parts b e Hb S) as (s & l & -> & Hs & N & Hl & Ht & Hvl & Se & LE).
  assert (1 <= length lm)%nat as L1 by (destruct lm; [congruence|cbn [length]; lia]).
  unfold powmod_rest_i. cbn [bits_of sign_of]. change (2 ^ 29) with 536870912. rewrite (proj2 (Z.leb_gt 536870912 _)) by lia.
  rewrite (nil_false l N). unfold powmod_core_v_i. rewrite (proj2 (Nat.ltb_lt _ _)) by (unfold ReducerThreshold; lia). cbv zeta.
  destruct Hv as (Hv & Hv'). assert (length (bb_bits v) = (length lm + length lm)%nat) as -> by (apply Hv).
  pose proof (buf_of_u_spec (length lm + length lm) 0 ltac:(unfold limb; num; lia) ltac:(lia)) as W0. apply wp_inv in W0 as (b0 & -> & W0). cbn [bind].
  pose proof (buf_of_u_spec (length lm + length lm) 1 ltac:(unfold limb; num; lia) ltac:(lia)) as W1. apply wp_inv in W1 as (b1 & -> & W1). cbn [bind].
  rewrite (powmod_v_loop_i_over c l lm v b1 b0 x 1); auto; try lia; try reflexivity.
  - split; assumption.
  - split; [apply W1|]. destruct W1. lia.
  - apply temp_zeros. apply W0.
Qed.

(** ** Bases whose size comes back positive *)

Lemma vl_mod l n : limbs l -> vl l n = val l mod Bp n.
Proof.
  intros Hl. destruct (Nat.le_gt_cases n (length l)) as [L|L].
  - pose proof (val_split l n L) as E. apply (Z.mod_unique_pos _ _ (val (skipn n l))); [apply vl_bound; exact Hl|]. rewrite E. ring.
  - unfold vl. rewrite firstn_all2 by lia. symmetry. apply Z.mod_small. pose proof (val_bound l Hl). pose proof (Bp_le (length l) n ltac:(lia)). lia.
Qed.

Lemma calc_rem_i_again c l m n : limbs l -> limbs m -> m <> [] -> top_nz m -> (length m <= length l)%nat ->
  Z.of_nat (length m) <= INT_MAX -> s32 (Z.of_nat (length l)) = Z.of_nat n ->
  if dbg c && (Z.of_nat n <? Z.of_nat (length m)) then calc_rem_i c l m = AssertFail
  else exists r, calc_rem_i c l m = Ret r /\ length r = length l /\ limbs r /\ vl r n = vl l n mod val m.
Proof.
  intros Hl Hm N T G B E. unfold INT_MAX in B.
  assert (l <> []) as Nl by (intros ->; destruct m; cbn [length] in *; [congruence|lia]).
  assert (1 <= length m)%nat as Lm by (destruct m; [congruence|cbn [length]; lia]).
  unfold calc_rem_i. rewrite arrays_asserted by assumption. cbv zeta.
  pose proof (core_i_spec c l m [] 0 Hl Hm G (or_introl (conj eq_refl eq_refl))) as K. cbv zeta in K. unfold long_case in K.
  rewrite (s32_small (Z.of_nat (length m))) in * by (unfold INT_MIN, INT_MAX; lia). rewrite E in *.
  replace ((Z.of_nat n <? 1) || (Z.of_nat (length m) <? 1) || (Z.of_nat n <? Z.of_nat (length m))) with (Z.of_nat n <? Z.of_nat (length m)) in K.
  2:{ destruct (Z.ltb_spec (Z.of_nat n) 1), (Z.ltb_spec (Z.of_nat (length m)) 1), (Z.ltb_spec (Z.of_nat n) (Z.of_nat (length m))); auto; lia. }
  destruct (dbg c && (Z.of_nat n <? Z.of_nat (length m))); [now rewrite K|].
  rewrite (proj2 (Z.ltb_ge (Z.of_nat (length m)) 1)), (proj2 (Z.eqb_neq (Z.of_nat (length m)) _)) in K by lia.
  rewrite !Nat2Z.id, !vl_all in K. rewrite pow_Bp in K by lia. replace (Z.to_nat (Z.of_nat (length m) - 1)) with (length m - 1)%nat in K by lia.
  pose proof (top_nz_bound m Hm N T) as TB. rewrite (proj2 (Z.ltb_ge (val m) _)) in K by exact TB.
  apply wp_inv in K as ([l1 b1] & -> & K1 & K2 & K3 & _). cbn [bind]. exists l1. split; [reflexivity|]. split; [exact K1|]. split; [exact K2|].
  pose proof (vl_bound l n Hl) as VB. rewrite (vl_mod l1 n K2), K3. destruct (Z.ltb_spec (Z.of_nat n) (Z.of_nat (length m))) as [Q|Q].
  - rewrite <- vl_mod by exact Hl. symmetry. apply Z.mod_small. pose proof (Bp_le n (length m - 1) ltac:(lia)). lia.
  - pose proof (Z.mod_pos_bound (vl l n) (val m) ltac:(pose proof (Bp_pos (length m - 1)); lia)) as MB.
    pose proof (Z.mod_le (vl l n) (val m) ltac:(lia) ltac:(pose proof (Bp_pos (length m - 1)); lia)) as ML.
    symmetry. apply (Z.mod_unique_pos _ _ (val l / Bp n)); [lia|]. rewrite (vl_mod l n Hl) at 1.
    pose proof (Z.div_mod (val l) (Bp n) ltac:(pose proof (Bp_pos n); lia)). lia.
Qed.

Lemma isbuf_eq size b b' v : isbuf size b v -> isbuf size b' v -> b = b'.
Proof.
  intros [A1 A2 A3 A4 A5 A6] [B1 B2 B3 B4 B5 B6]. destruct b as [l n], b' as [l' n']. cbn [bb_bits bb_len] in *.
  assert (l = l') as -> by (apply val_inj_len; auto; lia). f_equal.
  destruct (Nat.lt_trichotomy n n') as [L|[L|L]]; [|exact L|].
  - specialize (B6 ltac:(lia)). pose proof (Bp_le n (n' - 1) ltac:(lia)). lia.
  - specialize (A6 ltac:(lia)). pose proof (Bp_le n' (n - 1) ltac:(lia)). lia.
Qed.

Theorem mod_pow_long_again c a b m x e z : represents a x -> represents b e -> represents m z -> 2147483648 <= Z.abs z ->
  0 <= e -> 0 <= int_limbs x -> 2147483648 <= limbs_of x -> limbs_of z < 2147483648 ->
  if dbg c && (int_limbs x <? limbs_of z) then bi_mod_pow_long_i c a b m = Sized AssertFail
  else if int_of (2 * limbs_of z) <? 0 then bi_mod_pow_long_i c a b m = LengthError
  else limbs_of z < 536870912 ->
    if strict c && (limbs_of z <? 32) && (2147483648 <? limbs_of e) then bi_mod_pow_long_i c a b m = Sized (Undef SignedOverflow)
    else exists p, bi_mod_pow_long_i c a b m = Sized p /\ forall y, Z.sgn y = Z.sgn x -> limbs_of z < limbs_of y < 2147483648 ->
      Z.abs y mod Z.abs z = low x (int_limbs x) mod Z.abs z ->
      denotes p (power_mod (dbg c) y (if limbs_of z <? 32 then exponent_used e else e) z).
Proof.
  intros Ha Hb Hm Hz E I Lx Lz. unfold bi_mod_pow_long_i.
  pose proof (valid_ok c m z Hm) as Vm.
  rewrite (repr_sign_ltb b e Hb), (proj2 (Z.ltb_ge e 0) E), (valid_ok c a x Ha), (valid_ok c b e Hb), Vm. cbn [bind before].
  set (e' := if limbs_of z <? 32 then exponent_used e else e).
  set (over := strict c && (limbs_of z <? 32) && (2147483648 <? limbs_of e)).
  assert (0 <= e') as E'.
  { unfold e'. destruct (_ <? 32); [|exact E]. apply exponent_nonneg. exact E. }
  assert (limbs_of z < 536870912 -> over = true \/ over = false /\ exists b', represents b' e' /\ forall v, powmod_rest_i c a b m v = rest_plain c a b' m v) as B.
  { intros Q. destruct over eqn:O; [now left|right]. split; [reflexivity|]. exact (rest_cut c a b m x e z Ha Hb Hm Hz E Q O). }
  pose proof (fun v u => rest_over c a b m v u e z Hb Hm Hz E) as OV. fold over in OV.
  assert (2147483648 <= Z.abs x) as X.
  { destruct (Z.lt_ge_cases (Z.abs x) 2147483648) as [S|S]; [rewrite (limbs_of_small x S) in Lx; lia|exact S]. }
  destruct (long_parts m z Hm Hz) as (s & l & -> & Hs & N & Hl & Ht & Hv & Sz & LZ).
  destruct (long_parts a x Ha X) as (s' & l' & -> & Hs' & N' & Hl' & Ht' & Hv' & Sx & LX).
  assert (1 <= length l)%nat as L1 by (destruct l; [congruence|cbn [length]; lia]).
  unfold powmod_buf_i. cbn [bits_of sign_of] in OV |- *. cbv zeta. rewrite (nil_false l' N').
  replace (s32 (Z.of_nat (length l) + Z.of_nat (length l))) with (int_of (2 * limbs_of z)) by (rewrite int_of_s32, LZ; f_equal; lia).
  set (size := int_of (2 * limbs_of z)).
  rewrite (proj2 (Nat.ltb_lt (length l) (length l'))) by lia.
  set (n := Z.to_nat (int_limbs x)).
  assert (s32 (Z.of_nat (length l')) = Z.of_nat n) as En by (rewrite <- (int_length x l' LX); unfold n; lia).
  pose proof (calc_rem_i_again c l' l n Hl' Hl N Ht ltac:(lia) ltac:(unfold INT_MAX; lia) En) as R.
  replace (int_limbs x) with (Z.of_nat n) by (unfold n; lia). rewrite <- LZ in R.
  destruct (dbg c && (Z.of_nat n <? limbs_of z)); [now rewrite R|].
  destruct R as (r & -> & R1 & R2 & R3). cbn [before].
  assert (n <= length l')%nat as Nn.
  { pose proof (int_of_le (Z.of_nat (length l')) ltac:(lia)) as Q. rewrite int_of_s32, En in Q. lia. }
  assert (buf_of_v_i size r = if size <? 0 then LengthError else Sized (buf_of_v (Z.to_nat size) (firstn n r))) as ->.
  { unfold buf_of_v_i. cbv zeta. rewrite R1, En, Nat2Z.id. rewrite (proj2 (Z.ltb_ge (Z.of_nat n) 0)) by lia.
    pose proof (actual_length_spec r n ltac:(lia)) as W. apply wp_inv in W as (k & -> & _). reflexivity. }
  destruct (Z.ltb_spec size 0) as [Z0|Z0]; [reflexivity|]. cbn [then_sized]. intros L2.
  assert (Z.to_nat size = (length l + length l)%nat) as ->.
  { unfold size. rewrite int_of_s32, s32_small by (unfold INT_MIN, INT_MAX; lia). lia. }
  assert (low x (Z.of_nat n) = vl l' n) as Lo.
  { rewrite (low_vl_all x l') by (auto; lia). now rewrite Nat2Z.id. }
  rewrite Lo. pose proof (val_bound l Hl) as VL.
  assert (0 < val l) as Pl by lia.
  pose proof (Z.mod_pos_bound (vl l' n) (val l) Pl) as MB.
  pose proof (buf_of_v_spec (length l + length l) (firstn n r) (limbs_firstn n r R2)) as W. change (val (firstn n r)) with (vl r n) in W. rewrite R3 in W.
  specialize (W ltac:(pose proof (Bp_le (length l) (length l + length l) ltac:(lia)); lia)).
  apply wp_inv in W as (bf & -> & W1). cbn [bind].
  destruct (B L2) as [O|(O & b' & Hb' & RP)]; rewrite O.
  { rewrite (OV bf (vl l' n mod val l) O); [reflexivity|]. apply (small_buf l); [|exact W1|lia].
    apply andb_prop in O as (O & _); apply andb_prop in O as (_ & O); apply Z.ltb_lt in O; unfold ReducerThreshold; lia. }
  eexists. split; [reflexivity|]. intros y Sy Ly My. rewrite RP. destruct (represents_total y) as (ay & Hay).
  pose proof (mod_pow_exact c ay b' _ y e' z Hay Hb' Hm) as D.
  assert (2147483648 <= Z.abs y) as Y.
  { destruct (Z.lt_ge_cases (Z.abs y) 2147483648) as [S|S]; [rewrite (limbs_of_small y S) in Ly; lia|exact S]. }
  pose proof (valid_ok c ay y Hay) as Vy.
  destruct (long_parts ay y Hay Y) as (sy & ly & -> & Hsy & Ny & Hly & Hty & Hvy & Syy & LY).
  unfold bi_mod_pow in D. rewrite (repr_sign_ltb b' e' Hb'), (proj2 (Z.ltb_ge e' 0) E'), Vy, (valid_ok c b' e' Hb'), Vm in D.
  cbn [bind bits_of sign_of] in D. rewrite (nil_false l N), (nil_false ly Ny) in D. cbv zeta in D.
  assert (powmod_buf c ly l = Ret bf) as PB.
  { unfold powmod_buf. cbv zeta. rewrite (proj2 (Nat.ltb_lt (length l) (length ly))) by lia.
    destruct (calc_rem_i_same c ly l Hly Hl N Ht ltac:(lia) ltac:(unfold INT_MAX; lia)) as (_ & q & -> & Q1 & Q2 & Q3). cbn [bind].
    rewrite Hvy in Q3. rewrite <- Hv in My. rewrite My in Q3.
    pose proof (buf_of_v_spec (length l + length l) q Q2) as W. rewrite Q3 in W.
    specialize (W ltac:(pose proof (Bp_le (length l) (length l + length l) ltac:(lia)); lia)).
    apply wp_inv in W as (bq & -> & W2). f_equal. exact (isbuf_eq _ _ _ _ W2 W1). }
  assert (sy = s') as -> by congruence.
  match type of D with denotes ?o _ => assert (rest_plain c (Big s' l') b' (Big s l) bf = o) as -> end; [|exact D].
  unfold rest_plain. cbn [bits_of sign_of].
  destruct (is_nil (bits_of b')); [destruct (abs32 c (sign_of b')) eqn:Ab|]; cbn [bind];
    unfold calc_powmod_vuv, calc_powmod_vvv; rewrite ?PB; reflexivity.
Qed.

Theorem mod_pow_long_any_holds c a b m x e z : represents a x -> represents b e -> represents m z ->
  2 ^ 31 <= Z.abs z -> mod_pow_long_any c x e z (bi_mod_pow_long_i c a b m).
Proof.
  intros Ha Hb Hm. change (2 ^ 31) with 2147483648. intros Hz.
  unfold mod_pow_long_any. cbv zeta. change (2 ^ 31) with 2147483648. change (2 ^ 29) with 536870912.
  destruct (Z.ltb_spec e 0) as [E|E].
  { unfold bi_mod_pow_long_i. now rewrite (repr_sign_ltb b e Hb), (proj2 (Z.ltb_lt e 0) E). }
  destruct ((int_limbs x <? 0) && (limbs_of z <? 2147483648)) eqn:BK.
  { apply andb_prop in BK as (BK1 & BK2). apply Z.ltb_lt in BK1, BK2. rewrite (mod_pow_long_back c a b m x e z Ha Hb Hm Hz E BK1 BK2).
    destruct (dbg c); [reflexivity|]. destruct (_ <? 0); reflexivity. }
  destruct (Z.ltb_spec (limbs_of x) 2147483648) as [Hx|Hx].
  2:{ intros Lz. rewrite (proj2 (Z.ltb_lt _ _) Lz), andb_true_r in BK. apply Z.ltb_ge in BK.
      exact (mod_pow_long_again c a b m x e z Ha Hb Hm Hz E BK Hx Lz). }
  clear BK. unfold bi_mod_pow_long_i. rewrite (repr_sign_ltb b e Hb), (proj2 (Z.ltb_ge e 0) E).
  set (e' := if limbs_of z <? 32 then exponent_used e else e).
  set (over := strict c && (limbs_of z <? 32) && (2147483648 <? limbs_of e)).
  assert (0 <= e') as E'.
  { unfold e'. destruct (_ <? 32); [|exact E]. apply exponent_nonneg. exact E. }
  assert (limbs_of z < 536870912 -> over = true \/ over = false /\ exists b', represents b' e' /\ forall v, powmod_rest_i c a b m v = rest_plain c a b' m v) as B.
  { intros Q. destruct over eqn:O; [now left|right]. split; [reflexivity|]. exact (rest_cut c a b m x e z Ha Hb Hm Hz E Q O). }
  assert (forall b', represents b' e' -> (sign_of b' <? 0) = false) as Sb by (intros b' Hb'; rewrite (repr_sign_ltb b' e' Hb'); now apply Z.ltb_ge).
  assert (forall b', represents b' e' -> assert_valid c b' = Ret tt) as Vb' by (intros b' Hb'; exact (valid_ok c b' e' Hb')).
  assert (forall b', represents b' e' -> denotes (bi_mod_pow c a b' m) (power_mod (dbg c) x e' z)) as X by
    (intros b' Hb'; exact (mod_pow_exact c a b' m x e' z Ha Hb' Hm)).
  pose proof (fun v u => rest_over c a b m v u e z Hb Hm Hz E) as OV. fold over in OV.
  pose proof (valid_ok c a x Ha) as Va. pose proof (valid_ok c b e Hb) as Vb. pose proof (valid_ok c m z Hm) as Vm.
  rewrite Va, Vb, Vm. cbn [bind before].
  destruct (long_parts m z Hm Hz) as (s & l & -> & Hs & N & Hl & Ht & Hv & Sz & LZ). cbn [bits_of sign_of] in OV |- *.
  assert (1 <= length l)%nat as L1 by (destruct l; [congruence|cbn [length]; lia]).
  unfold powmod_buf_i. cbn [bits_of]. cbv zeta.
  replace (s32 (Z.of_nat (length l) + Z.of_nat (length l))) with (int_of (2 * limbs_of z)) by (rewrite int_of_s32, LZ; f_equal; lia).
  set (size := int_of (2 * limbs_of z)).
  assert (limbs_of z < 536870912 -> Z.to_nat size = (length l + length l)%nat /\ 0 <= size) as Sm.
  { intros Q. unfold size. rewrite int_of_s32, s32_small by (unfold INT_MIN, INT_MAX; lia). lia. }
  assert (limbs_of z < 1073741824 -> size = 2 * limbs_of z) as Sn.
  { intros Q. unfold size. rewrite int_of_s32, s32_small by (unfold INT_MIN, INT_MAX; lia). lia. }
  assert (forall o v, o = v -> denotes o (power_mod (dbg c) x e' z) -> exists p, Sized v = Sized p /\ denotes p (power_mod (dbg c) x e' z)) as Q.
  { intros o v <- D. eauto. }
  destruct (Z.lt_ge_cases (Z.abs x) 2147483648) as [S|S].
  - rewrite (short_parts _ _ Ha S) in X, OV, B, Va |- *. cbn [bits_of sign_of is_nil]. rewrite abs32_ok by (unfold INT_MIN, INT_MAX; lia).
    cbn [before bind]. unfold buf_of_u_i. rewrite (limbs_of_small x S). destruct (Z.ltb_spec size 0) as [Z0|Z0]; [reflexivity|].
    cbn [then_sized].
    rewrite (proj2 (Z.leb_le 1 (limbs_of z))) by lia. rewrite andb_true_r.
    destruct (Z.ltb_spec size 1) as [Z1|Z1].
    { replace size with 0 by lia. reflexivity. }
    intros Lz. destruct (Sm Lz) as (-> & _).
    pose proof (buf_of_u_spec (length l + length l) (Z.abs x) ltac:(unfold limb; num; lia) ltac:(lia)) as W.
    apply wp_inv in W as (bf & W & W1 & W2).
    destruct (B Lz) as [O|(O & b' & Hb' & RP)]; rewrite O.
    { rewrite W. cbn [bind]. rewrite (OV bf (Z.abs x) O); [reflexivity|]. split; [exact W1|lia]. }
    refine (Q _ _ _ (X b' Hb')). clear Q X.
    unfold bi_mod_pow. rewrite (Sb b' Hb'), Va, (Vb' b' Hb'), Vm. cbn [bind bits_of sign_of is_nil]. rewrite (nil_false l N). cbv zeta.
    rewrite (abs32_ok c x) by (unfold INT_MIN, INT_MAX; lia). rewrite W. cbn [bind]. rewrite RP. unfold rest_plain. cbn [bits_of sign_of].
    destruct (is_nil (bits_of b')); [destruct (abs32 c (sign_of b')) eqn:Ab|]; cbn [bind];
      unfold calc_powmod_uuv, calc_powmod_uvv; cbv zeta; rewrite ?W; reflexivity.
  - destruct (long_parts a x Ha S) as (s' & l' & -> & Hs' & N' & Hl' & Ht' & Hv' & Sx & LX). cbn [bits_of sign_of].
    rewrite (nil_false l' N').
    assert (exists v, (if Nat.ltb (length l) (length l') then before (calc_rem_i c l' l) (fun tmp => buf_of_v_i size tmp) else buf_of_v_i size l') =
        (if size <? 0 then LengthError else Sized (buf_of_v (Z.to_nat size) v)) /\
      (if Nat.ltb (length l) (length l') then calc_rem c l' l else Ret l') = Ret v /\ (Nat.ltb (length l) (length l') = false -> v = l') /\
      limbs v /\ val v < Bp (length l)) as (v & -> & Ev & Kv & Lv & Bv).
    { destruct (Nat.ltb_spec (length l) (length l')) as [G|G].
      - destruct (calc_rem_i_same c l' l Hl' Hl N Ht ltac:(lia) ltac:(unfold INT_MAX; lia)) as (-> & r & -> & R1 & R2 & R3).
        exists r. cbn [before]. rewrite of_v_sized by (auto; unfold INT_MAX; lia). repeat split; auto; try discriminate.
        pose proof (val_bound l Hl). pose proof (Z.mod_pos_bound (val l') (val l) ltac:(lia)). lia.
      - exists l'. rewrite of_v_sized by (auto; unfold INT_MAX; lia). repeat split; auto.
        pose proof (val_bound l' Hl'). pose proof (Bp_le (length l') (length l) G). lia. }
    destruct (Z.ltb_spec size 0) as [Z0|Z0]; [reflexivity|]. cbn [then_sized].
    destruct (Z.ltb_spec size (limbs_of x)) as [Z1|Z1], (Z.leb_spec (limbs_of x) (limbs_of z)) as [Z2|Z2]; cbn [andb].
    { assert (Nat.ltb (length l) (length l') = false) as G by (apply Nat.ltb_ge; lia). rewrite (Kv G).
      unfold buf_of_v. rewrite actual_length_top by assumption. cbn [bind]. unfold splice. rewrite firstn_all, length_zeros. cbn [Nat.add].
      rewrite (proj2 (Nat.leb_gt _ _)) by lia. reflexivity. }
    all: intros Lz; destruct (Sm Lz) as (-> & _).
    all: pose proof (buf_of_v_spec (length l + length l) v Lv ltac:(pose proof (Bp_le (length l) (length l + length l) ltac:(lia)); lia)) as W;
      apply wp_inv in W as (bf & W & W1).
    all: assert (powmod_buf c l' l = Ret bf) as PB by
      (unfold powmod_buf; cbv zeta; destruct (Nat.ltb (length l) (length l')); [rewrite Ev; exact W|injection Ev as ->; exact W]).
    all: rewrite W; cbn [bind]; destruct (B Lz) as [O|(O & b' & Hb' & RP)]; rewrite O;
      [rewrite (OV bf (val v) O); [reflexivity|apply (small_buf l); [|exact W1|exact Bv]]|].
    all: try (apply andb_prop in O as (O & _); apply andb_prop in O as (_ & O); apply Z.ltb_lt in O; unfold ReducerThreshold; lia).
    all: refine (Q _ _ _ (X b' Hb')); clear Q X.
    all: unfold bi_mod_pow; rewrite (Sb b' Hb'), Va, (Vb' b' Hb'), Vm; cbn [bind bits_of sign_of]; rewrite (nil_false l N), (nil_false l' N'); cbv zeta.
    all: rewrite RP; unfold rest_plain; cbn [bits_of sign_of].
    all: destruct (is_nil (bits_of b')); [destruct (abs32 c (sign_of b')) eqn:Ab|]; cbn [bind];
      unfold calc_powmod_vuv, calc_powmod_vvv; rewrite ?PB; reflexivity.
Qed.

(** ** Base and modulus of 2^31 limbs and more *)
Theorem mod_pow_long_both c a b m x e z : represents a x -> represents b e -> represents m z -> 0 <= e ->
  2147483648 <= limbs_of z <= 4294967296 ->
  (limbs_of z < limbs_of x -> bi_mod_pow_long_i c a b m =
     Sized (if dbg c then AssertFail else Undef (if strict c && (limbs_of z =? 2147483648) then SignedOverflow else OutOfBounds))) /\
  (2147483648 <= limbs_of x <= limbs_of z -> limbs_of x < 4294967296 -> bi_mod_pow_long_i c a b m =
     if int_of (2 * limbs_of z) <? 0 then LengthError else Sized (Undef OutOfBounds)).
Proof.
  intros Ha Hb Hm He Lz. unfold bi_mod_pow_long_i.
  rewrite (repr_sign_ltb b e Hb), (proj2 (Z.ltb_ge e 0) He), (valid_ok c a x Ha), (valid_ok c b e Hb), (valid_ok c m z Hm). cbn [bind before].
  pose proof (limbs_two z ltac:(lia)) as Hz.
  destruct (long_parts m z Hm ltac:(lia)) as (s & l & -> & Hs & N & Hl & Ht & Hv & Sz & LZ).
  assert (2147483648 <= limbs_of x -> exists s' l', a = Big s' l' /\ l' <> [] /\ limbs l' /\ limbs_of x = Z.of_nat (length l')) as PX.
  { intros Lx. pose proof (limbs_two x ltac:(lia)) as X.
    destruct (long_parts a x Ha ltac:(lia)) as (s' & l' & -> & _ & N' & Hl' & _ & _ & _ & LX). exists s', l'. auto. }
  split.
  - intros Lx. destruct (PX ltac:(lia)) as (s' & l' & -> & N' & Hl' & LX).
    unfold powmod_buf_i. cbn [bits_of sign_of]. cbv zeta. rewrite (nil_false l' N').
    rewrite (proj2 (Nat.ltb_lt (length l) (length l'))) by lia.
    pose proof (core_i_spec c l' l [] 0 Hl' Hl ltac:(lia) (or_introl (conj eq_refl eq_refl))) as K. cbv zeta in K. unfold long_case in K.
    rewrite LZ in *. rewrite (s32_back (Z.of_nat (length l))) in K by lia. set (r := Z.of_nat (length l) - 4294967296) in *.
    rewrite (proj2 (Z.ltb_lt r 1)) in K by lia. rewrite orb_true_r in K. cbn [orb] in K. rewrite andb_true_r in K.
    unfold calc_rem_i. rewrite arrays_asserted by (auto; lia). cbv zeta. rewrite (s32_back (Z.of_nat (length l))) by lia. fold r.
    destruct (dbg c); [rewrite K; reflexivity|].
    destruct (Z.eqb_spec (Z.of_nat (length l)) 2147483648) as [E|E].
    + rewrite andb_true_r. rewrite (proj2 (Z.eqb_eq r _)) in K by lia. replace (- r) with (Z.of_nat (length l)) in K by lia.
      rewrite Nat2Z.id, vl_all in K. rewrite pow_Bp in K by lia. replace (Z.to_nat (Z.of_nat (length l) - 1)) with (length l - 1)%nat in K by lia.
      rewrite (proj2 (Z.ltb_ge (val l) _)) in K by (now apply top_nz_bound). rewrite K. reflexivity.
    + rewrite andb_false_r. rewrite (proj2 (Z.eqb_neq r _)) in K by lia. rewrite K. reflexivity.
  - intros Lx Lx'. destruct (PX ltac:(lia)) as (s' & l' & -> & N' & Hl' & LX).
    unfold powmod_buf_i. cbn [bits_of sign_of]. cbv zeta. rewrite (nil_false l' N').
    rewrite (proj2 (Nat.ltb_ge (length l) (length l'))) by lia.
    replace (s32 (Z.of_nat (length l) + Z.of_nat (length l))) with (int_of (2 * limbs_of z)) by (rewrite int_of_s32, LZ; f_equal; lia).
    unfold buf_of_v_i. cbv zeta. rewrite (s32_back (Z.of_nat (length l'))) by lia.
    rewrite (proj2 (Z.ltb_lt (_ - 4294967296) 0)) by lia. destruct (_ <? 0); reflexivity.
Qed.
