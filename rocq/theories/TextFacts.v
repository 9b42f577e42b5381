(** Proofs about the decimal text conversions. *)
From Coq Require Import String Ascii DecimalString Decimal DecimalZ DecimalPos DecimalFacts.
From Verif Require Import Facts AddSubFacts Spec SpecFacts SpecApi BigInt BigIntFacts CompareFacts
  ShiftFacts ConvFacts WordFacts PowFacts SpecPos PosFacts SpecText BigIntText.
Open Scope Z_scope.

Ltac Zify.zify_post_hook ::= idtac.

(** ** Characters *)

Lemma code_digit ch :
  (48 <=? code ch) && (code ch <=? 57) = match digit_of ch with Some _ => true | None => false end /\
  forall d, digit_of ch = Some d -> code ch = 48 + d /\ 0 <= d < 10.
Proof.
  destruct ch as [[] [] [] [] [] [] [] []]; (split; [reflexivity|]); intros d H; vm_compute in H;
    (discriminate H || (injection H as <-; split; [reflexivity|lia])).
Qed.

Lemma code_minus ch : (code ch =? 45) = true -> ch = "-"%char.
Proof. destruct ch as [[] [] [] [] [] [] [] []]; cbv; intros; (discriminate || reflexivity). Qed.
Lemma code_plus ch : (code ch =? 43) = true -> ch = "+"%char.
Proof. destruct ch as [[] [] [] [] [] [] [] []]; cbv; intros; (discriminate || reflexivity). Qed.

Lemma signed_other ch t :
  (code ch =? 45) = false -> (code ch =? 43) = false -> signed_decimal (String ch t) = decimal (String ch t).
Proof. destruct ch as [[] [] [] [] [] [] [] []]; intros H1 H2; vm_compute in H1, H2; (discriminate || reflexivity). Qed.

(** ** parse *)

Definition horner (a : Z) (l : list Z) : Z := fold_left (fun a d => a * 10 + d) l a.

Lemma horner_pos l a : horner a l = a * 10 ^ Z.of_nat (List.length l) + positional 10 (rev l).
Proof.
  revert a. induction l as [|d l IH]; intros a; cbn [horner fold_left rev List.length].
  - cbn [positional]. change (10 ^ Z.of_nat 0) with 1. ring.
  - change (fold_left (fun a d => a * 10 + d) l (a * 10 + d)) with (horner (a * 10 + d) l).
    rewrite IH, pos_app, rev_length. cbn [positional]. unfold bp.
    rewrite Nat2Z.inj_succ, Z.pow_succ_r by lia. ring.
Qed.

Lemma parse_loop_spec c s b z :
  represents b z -> wp (parse_loop c s b) (fun r => represents r (horner z (leading_digits s))).
Proof.
  revert b z. induction s as [|ch s IH]; intros b z Hb; cbn [parse_loop leading_digits].
  - exact Hb.
  - destruct (code_digit ch) as [E1 E2]. rewrite E1. destruct (digit_of ch) as [d|]; [|exact Hb].
    destruct (E2 d eq_refl) as [Ec Hd]. rewrite Ec. replace (48 + d - 48) with d by ring.
    cbn [horner fold_left]. wstep. eapply wp_mono; [apply bi_of_int32_spec; num; lia|]. intros ten Ht.
    wstep. eapply wp_mono; [apply (bi_mul_spec c b ten z 10 Hb Ht)|]. intros p Hp.
    wstep. eapply wp_mono; [apply bi_of_uint32_spec; unfold UINT_MAX; num; lia|]. intros q Hq.
    wstep. eapply wp_mono; [apply (bi_add_spec c p q _ _ Hp Hq)|]. intros r Hr.
    apply (IH r _ Hr).
Qed.

Theorem parse_returns c s : returns (bi_parse c s) (signed_decimal s).
Proof.
  apply returns_wp. unfold bi_parse. wstep. eapply wp_mono; [apply bi_zero_spec|]. intros b0 H0.
  assert (forall s, wp (parse_loop c s b0) (fun r => represents r (decimal s))) as L.
  { intros t. eapply wp_mono; [apply (parse_loop_spec c t b0 0 H0)|]. intros r Hr. cbn beta in Hr.
    rewrite horner_pos in Hr. exact Hr. }
  destruct s as [|ch t].
  - wstep. eapply wp_mono; [apply L|]. intros r Hr. exact Hr.
  - destruct (code ch =? 45) eqn:E1; [|destruct (code ch =? 43) eqn:E2].
    + apply code_minus in E1. subst ch. wstep. eapply wp_mono; [apply L|]. intros r Hr.
      now apply bi_neg_spec.
    + apply code_plus in E2. subst ch. wstep. eapply wp_mono; [apply L|]. intros r Hr. exact Hr.
    + rewrite signed_other by assumption. wstep. eapply wp_mono; [apply L|]. intros r Hr. exact Hr.
Qed.

Theorem try_parse_always c s old :
  exists r, bi_try_parse c s old = Ret (true, r) /\ represents r (signed_decimal s).
Proof.
  destruct (parse_returns c s) as (r & E & H). exists r. unfold bi_try_parse. rewrite E. auto.
Qed.

(** ** std::to_string *)

Fixpoint udigits (d : uint) : list Z :=
  match d with
  | Nil => []
  | D0 d => 0 :: udigits d | D1 d => 1 :: udigits d | D2 d => 2 :: udigits d | D3 d => 3 :: udigits d
  | D4 d => 4 :: udigits d | D5 d => 5 :: udigits d | D6 d => 6 :: udigits d | D7 d => 7 :: udigits d
  | D8 d => 8 :: udigits d | D9 d => 9 :: udigits d
  end.

Lemma udigits_leading d : leading_digits (NilEmpty.string_of_uint d) = udigits d.
Proof. induction d; cbn [NilEmpty.string_of_uint leading_digits udigits digit_of]; congruence. Qed.

Lemma udigits_length d : String.length (NilEmpty.string_of_uint d) = List.length (udigits d).
Proof. induction d; cbn [NilEmpty.string_of_uint String.length udigits List.length]; congruence. Qed.

Lemma udigits_acc d p : Zpos (Pos.of_uint_acc d p) = horner (Zpos p) (udigits d).
Proof.
  revert p. induction d; intros p; cbn [Pos.of_uint_acc udigits horner fold_left]; try reflexivity;
    rewrite IHd; unfold horner; f_equal; lia.
Qed.

Lemma udigits_val d : Z.of_N (Pos.of_uint d) = horner 0 (udigits d).
Proof. induction d; cbn [Pos.of_uint udigits horner fold_left]; try reflexivity; try exact IHd; apply udigits_acc. Qed.

Lemma nzhead_head d u : nzhead d <> D0 u.
Proof. induction d; cbn [nzhead]; auto; discriminate. Qed.

Lemma to_uint_head p u : Pos.to_uint p <> D0 u.
Proof.
  intros E. pose proof (Unsigned.to_of (Pos.to_uint p)) as H. rewrite Unsigned.of_to in H. cbn [N.to_uint] in H.
  rewrite E in H. unfold unorm in H. destruct (nzhead (D0 u)) eqn:N; try discriminate H.
  - pose proof (Unsigned.of_to p) as V. rewrite E, H in V. cbn in V. injection H as ->. discriminate V.
  - exact (nzhead_head _ _ N).
Qed.

Lemma to_uint_numeral p :
  let t := NilZero.string_of_uint (Pos.to_uint p) in
  all_digits t /\ t <> EmptyString /\ decimal t = Zpos p /\ (forall u, t = String "0"%char u -> u = EmptyString).
Proof.
  pose proof (Unsigned.to_uint_nonnil p) as NN. pose proof (to_uint_head p) as NH.
  assert (NilZero.string_of_uint (Pos.to_uint p) = NilEmpty.string_of_uint (Pos.to_uint p)) as ->
    by (destruct (Pos.to_uint p); congruence || reflexivity).
  cbv zeta. split; [unfold all_digits; now rewrite udigits_leading, udigits_length|].
  split; [destruct (Pos.to_uint p); cbn [NilEmpty.string_of_uint]; congruence|].
  split.
  - unfold decimal. rewrite udigits_leading.
    transitivity (horner 0 (udigits (Pos.to_uint p))); [rewrite horner_pos; ring|].
    rewrite <- udigits_val, Unsigned.of_to. reflexivity.
  - intros u E. destruct (Pos.to_uint p); cbn [NilEmpty.string_of_uint] in E; try discriminate E.
    exfalso. now apply (NH u0).
Qed.

Lemma std_to_string_numeral z : numeral (std_to_string z) z.
Proof.
  unfold numeral, std_to_string, Z.to_int, NilZero.string_of_int. destruct z as [|p|p].
  - exists "0"%string. cbn. repeat split; auto; [discriminate|]. intros u [= <-]. reflexivity.
  - destruct (to_uint_numeral p) as (A & B & C & D).
    exists (NilZero.string_of_uint (Pos.to_uint p)). cbn [Z.ltb Z.compare String.append Z.abs]. auto.
  - destruct (to_uint_numeral p) as (A & B & C & D).
    exists (NilZero.string_of_uint (Pos.to_uint p)). cbn [Z.ltb Z.compare String.append Z.abs]. auto.
Qed.

(** ** Numerals are unique *)

Lemma digit_of_inj a b d : digit_of a = Some d -> digit_of b = Some d -> a = b.
Proof.
  intros A B. destruct (code_digit a) as [_ Ha]. destruct (code_digit b) as [_ Hb].
  destruct (Ha d A) as [Ca _]. destruct (Hb d B) as [Cb _]. unfold code in Ca, Cb.
  rewrite <- (ascii_nat_embedding a), <- (ascii_nat_embedding b). f_equal. lia.
Qed.

Lemma leading_length s : (List.length (leading_digits s) <= String.length s)%nat.
Proof.
  induction s as [|ch s IH]; cbn [leading_digits String.length]; [cbn; lia|].
  destruct (digit_of ch); cbn [List.length]; lia.
Qed.

Lemma leading_inj s t : all_digits s -> all_digits t -> leading_digits s = leading_digits t -> s = t.
Proof.
  unfold all_digits. revert t. induction s as [|a s IH]; intros [|b t] Hs Ht E;
    cbn [leading_digits String.length] in *; try reflexivity.
  - destruct (digit_of b); cbn [List.length] in *; [discriminate|lia].
  - destruct (digit_of a); cbn [List.length] in *; [discriminate|lia].
  - destruct (digit_of a) as [d|] eqn:Ea; [|cbn [List.length] in Hs; lia].
    destruct (digit_of b) as [e|] eqn:Eb; [|cbn [List.length] in Ht; lia].
    cbn [List.length] in *. injection E as -> E. f_equal; [eapply digit_of_inj; eassumption|].
    apply IH; [lia|lia|assumption].
Qed.

Lemma leading_range s : digits 10 (leading_digits s).
Proof.
  induction s as [|ch s IH]; cbn [leading_digits]; [constructor|].
  destruct (digit_of ch) as [d|] eqn:E; constructor; [|exact IH].
  destruct (code_digit ch) as [_ H]. now apply H.
Qed.

(** Most-significant-first digits without a leading zero are determined by the value. *)
Lemma pos_top b l d : 2 <= b -> digits b l -> 0 < d -> b ^ Z.of_nat (List.length l) <= positional b (l ++ [d]).
Proof.
  intros Hb Hl Hd. rewrite pos_app. cbn [positional]. pose proof (pos_bound b Hb l Hl).
  pose proof (bp_pos b Hb (List.length l)). unfold bp in *.
  replace (d + b * 0) with d by ring.
  assert (b ^ Z.of_nat (List.length l) * 1 <= b ^ Z.of_nat (List.length l) * d) by (apply Z.mul_le_mono_nonneg_l; lia). lia.
Qed.

Lemma positional_inj b l m : 2 <= b -> digits b l -> digits b m -> List.length l = List.length m ->
  positional b l = positional b m -> l = m.
Proof.
  intros Hb Hl. revert m. induction Hl as [|d l Hd Hl IH]; intros [|e m] Hm L E; try discriminate; [reflexivity|].
  inversion Hm as [|? ? He Hm']; subst. cbn [positional List.length] in *.
  assert (d = e) as ->.
  { rewrite <- (Z.mod_small d b), <- (Z.mod_small e b) by lia.
    rewrite <- (Z.mod_add d (positional b l) b), <- (Z.mod_add e (positional b m) b) by lia. f_equal. lia. }
  f_equal. apply IH; auto. assert (b * positional b l = b * positional b m) as F by lia.
  apply Z.mul_reg_l in F; [exact F|lia].
Qed.

Lemma decimal_width_length s : all_digits s -> s <> EmptyString ->
  (forall u, s = String "0"%char u -> u = EmptyString) -> decimal s <> 0 ->
  10 ^ (Z.of_nat (String.length s) - 1) <= decimal s < 10 ^ Z.of_nat (String.length s).
Proof.
  intros Ha Hn Hz Hd. unfold decimal in *. pose proof (leading_range s) as R. unfold all_digits in Ha.
  rewrite <- Ha. pose proof (pos_bound 10 ltac:(lia) (rev (leading_digits s)) (Forall_rev R)) as PB.
  rewrite rev_length in PB. split; [|exact (proj2 PB)].
  destruct s as [|ch s]; [congruence|]. cbn [leading_digits String.length] in *.
  destruct (digit_of ch) as [d|] eqn:E; [|cbn [List.length] in Ha; lia].
  cbn [rev List.length] in *. inversion R as [|? ? Hd1 R1]; subst.
  replace (Z.of_nat (S (List.length (leading_digits s))) - 1) with (Z.of_nat (List.length (rev (leading_digits s))))
    by (rewrite rev_length; lia).
  apply pos_top; [lia|now apply Forall_rev|].
  destruct (Z.eq_dec d 0) as [->|]; [|lia]. exfalso.
  assert (ch = "0"%char) by (apply (digit_of_inj _ _ 0 E); reflexivity). subst ch.
  rewrite (Hz s eq_refl) in Hd. apply Hd. reflexivity.
Qed.

Theorem numeral_unique s t z : numeral s z -> numeral t z -> s = t.
Proof.
  intros (u & -> & A1 & A2 & A3 & A4) (v & -> & B1 & B2 & B3 & B4). f_equal.
  assert (String.length u = String.length v) as L.
  { destruct (Z.eq_dec (Z.abs z) 0) as [E|E].
    - assert (forall w, all_digits w -> w <> EmptyString -> decimal w = 0 ->
        (forall u, w = String "0"%char u -> u = EmptyString) -> String.length w = 1%nat) as K.
      { intros w W1 W2 W3 W4. destruct w as [|ch w]; [congruence|].
        unfold all_digits, decimal in *. pose proof (leading_range (String ch w)) as R.
        cbn [leading_digits String.length] in *.
        destruct (digit_of ch) as [d|] eqn:Ed; [|cbn [List.length] in W1; lia].
        inversion R as [|? ? Hd1 R1]; subst. cbn [rev] in W3.
        destruct (Z.eq_dec d 0) as [->|Hd].
        - assert (ch = "0"%char) by (apply (digit_of_inj _ _ 0 Ed); reflexivity). subst ch.
          now rewrite (W4 w eq_refl).
        - pose proof (pos_top 10 (rev (leading_digits w)) d ltac:(lia) (Forall_rev R1) ltac:(lia)).
          pose proof (Z.pow_pos_nonneg 10 (Z.of_nat (List.length (rev (leading_digits w)))) ltac:(lia) ltac:(lia)). lia. }
      rewrite (K u), (K v); auto; lia.
    - pose proof (decimal_width_length u A1 A2 A4 ltac:(lia)) as H1.
      pose proof (decimal_width_length v B1 B2 B4 ltac:(lia)) as H2. rewrite A3 in H1. rewrite B3 in H2.
      assert (forall m n : nat, 10 ^ (Z.of_nat m - 1) < 10 ^ Z.of_nat n -> (m <= n)%nat) as K.
      { intros m n H. destruct m as [|m]; [lia|]. apply Z.pow_lt_mono_r_iff in H; lia. }
      pose proof (K (String.length u) (String.length v) ltac:(lia)).
      pose proof (K (String.length v) (String.length u) ltac:(lia)). lia. }
  apply leading_inj; [assumption|assumption|].
  rewrite <- (rev_involutive (leading_digits u)), <- (rev_involutive (leading_digits v)). f_equal.
  apply (positional_inj 10); [lia|apply Forall_rev, leading_range|apply Forall_rev, leading_range| |].
  - rewrite !rev_length. unfold all_digits in *. lia.
  - unfold decimal in *. lia.
Qed.

Lemma numeral_parse s z : numeral s z -> signed_decimal s = z.
Proof.
  intros (t & -> & A1 & A2 & A3 & A4). destruct (Z.ltb_spec z 0) as [H|H]; cbn [String.append].
  - cbn [signed_decimal]. lia.
  - rewrite Z.abs_eq in A3 by lia. rewrite <- A3. destruct t as [|ch t]; [congruence|].
    unfold all_digits in A1. cbn [leading_digits String.length] in A1.
    destruct (digit_of ch) as [d|] eqn:E; [|cbn [List.length] in A1; lia].
    destruct (code_digit ch) as [_ K]. destruct (K d E) as [Kc Kd].
    apply signed_other; apply Z.eqb_neq; lia.
Qed.

(** ** to_string: conversion to base 10^9 *)

Notation D9 := 1000000000 (only parsing).

Lemma make_ulong_ok x y : 0 <= x < W32 -> 0 <= y < W32 -> make_ulong x y = x * W32 + y.
Proof.
  intros Hx Hy. unfold make_ulong, kcbitUint. rewrite Z.shiftl_mul_pow2 by lia.
  rewrite u64_small by (change (2 ^ 32) with W32; num; lia).
  rewrite lor_add by (change (2 ^ 32) with W32; num; lia). reflexivity.
Qed.

Lemma upd_app l x r v : upd (l ++ x :: r) (List.length l) v = l ++ v :: r.
Proof. induction l as [|a l IH]; cbn [app upd List.length]; congruence. Qed.

Lemma firstn_S_nth (l : list Z) j : (j < List.length l)%nat -> firstn (S j) l = firstn j l ++ [nth j l 0].
Proof.
  revert j. induction l as [|a l IH]; intros [|j] H; cbn [List.length] in H; try lia; [reflexivity|].
  cbn [firstn nth app]. f_equal. apply IH. lia.
Qed.

Lemma nth_app_mid (l : list Z) x r : nth (List.length l) (l ++ x :: r) 0 = x.
Proof. induction l as [|a l IH]; [reflexivity|exact IH]. Qed.

Lemma inner_spec c ds rest carry0 :
  digits D9 ds -> limb carry0 ->
  wp (for_up (List.length ds) 0 (fun iuDst st =>
        let '(rguDst, uCarry) := st in
        x <- rd rguDst iuDst ;;
        massert c (x <? kuBase) ;;;
        let uuRes := make_ulong x uCarry in
        rguDst <- wr rguDst iuDst (u32 (uuRes mod kuBase)) ;;
        Ret (rguDst, u32 (uuRes / kuBase))) (ds ++ rest, carry0))
     (fun st => exists ds', fst st = ds' ++ rest /\ List.length ds' = List.length ds /\ digits D9 ds' /\
        limb (snd st) /\
        positional D9 ds' + bp D9 (List.length ds) * snd st = W32 * positional D9 ds + carry0).
Proof.
  intros Hds Hc0.
  apply wp_for_up with (I := fun i st => exists dn td, ds = firstn i ds ++ td /\ List.length td = (List.length ds - i)%nat /\
    fst st = dn ++ td ++ rest /\ List.length dn = i /\ digits D9 dn /\ limb (snd st) /\
    positional D9 dn + bp D9 i * snd st = W32 * positional D9 (firstn i ds) + carry0).
  - exists [], ds. cbn [firstn app List.length positional fst snd]. rewrite bp_0.
    repeat split; auto; try lia; try (apply Hc0). constructor.
  - intros i [R carry] Hi (dn & td & Eds & Ltd & ER & Ldn & Hdn & Hcar & EQ). cbn [fst snd] in *. subst R.
    destruct td as [|x td]; [cbn [List.length] in Ltd; lia|].
    assert (0 <= x < D9) as Hx.
    { rewrite Eds in Hds. apply Forall_app in Hds. destruct Hds as [_ Hds]. now inversion Hds. }
    assert (firstn (S i) ds = firstn i ds ++ [x]) as Ef.
    { rewrite Eds at 1. rewrite firstn_app. rewrite firstn_length.
      replace (Nat.min i (List.length ds)) with i by lia. replace (S i - i)%nat with 1%nat by lia.
      rewrite firstn_firstn. now replace (Nat.min (S i) i) with i by lia. }
    cbn [app]. wstep. apply wp_rd; [rewrite app_length; cbn [List.length]; lia|].
    assert (nth i (dn ++ x :: td ++ rest) 0 = x) as -> by (rewrite <- Ldn; apply nth_app_mid). wstep.
    apply wp_massert; [apply Z.ltb_lt; exact (proj2 Hx)|]. cbv zeta.
    rewrite make_ulong_ok; [|num; lia|exact Hcar]. set (uu := x * W32 + carry). unfold kuBase.
    assert (0 <= uu < D9 * W32) as Huu by (unfold uu; num; lia).
    pose proof (Z.div_mod uu D9 ltac:(lia)) as DM. pose proof (Z.mod_pos_bound uu D9 ltac:(lia)) as MB.
    set (q := uu / D9) in *. set (r := uu mod D9) in *.
    assert (0 <= q < W32) as Hq.
    { split; [apply Z.div_pos; lia|apply Z.div_lt_upper_bound; lia]. }
    clearbody q r. rewrite !u32_small by (num; lia).
    wstep. apply wp_wr; [rewrite app_length; cbn [List.length]; lia|]. wstep. cbn [fst snd].
    assert (upd (dn ++ x :: td ++ rest) i r = dn ++ r :: td ++ rest) as -> by (rewrite <- Ldn; apply upd_app).
    exists (dn ++ [r]), td. rewrite Ef, <- !app_assoc. cbn [app].
    split; [exact Eds|]. split; [cbn [List.length] in Ltd; lia|]. split; [reflexivity|].
    split; [rewrite app_length; cbn [List.length]; lia|].
    split; [apply Forall_app; split; [exact Hdn|constructor; [lia|constructor]]|]. split; [exact Hq|].
    rewrite !pos_app. cbn [positional]. rewrite Ldn, firstn_length.
    replace (Nat.min i (List.length ds)) with i by lia. rewrite bp_S.
    transitivity (positional D9 dn + bp D9 i * (D9 * q + r)); [ring|]. rewrite <- DM. unfold uu.
    transitivity (positional D9 dn + bp D9 i * carry + W32 * (bp D9 i * x)); [ring|]. rewrite EQ. ring.
  - intros [R carry] (dn & td & Eds & Ltd & ER & Ldn & Hdn & Hcar & EQ). cbn [fst snd] in *.
    cbn [Nat.add] in *. assert (td = []) as -> by (destruct td; [reflexivity|cbn [List.length] in Ltd; lia]).
    rewrite firstn_all in EQ. exists dn. cbn [app] in ER. auto 10.
Qed.

Lemma cap_bound n k V : bp D9 n <= V -> V < Bp k -> 9 * Z.of_nat n < 10 * Z.of_nat k.
Proof.
  intros H1 H2. unfold bp in H1. rewrite Bp_pow2 in H2.
  destruct (Z.lt_ge_cases (9 * Z.of_nat n) (10 * Z.of_nat k)) as [H|H]; [exact H|exfalso].
  assert (2 ^ (32 * Z.of_nat k) <= D9 ^ Z.of_nat n) as L; [|lia].
  apply (Z.pow_le_mono_l_iff _ _ 9); [apply Z.pow_nonneg; lia|apply Z.pow_nonneg; lia|lia|].
  rewrite <- !Z.pow_mul_r by lia.
  transitivity (D9 ^ (10 * Z.of_nat k)); [|apply Z.pow_le_mono_r; lia].
  replace (32 * Z.of_nat k * 9) with (288 * Z.of_nat k) by ring.
  rewrite (Z.pow_mul_r 2 288), (Z.pow_mul_r D9 10) by lia.
  apply Z.pow_le_mono_l. split; [apply Z.pow_nonneg; lia|]. vm_compute. discriminate.
Qed.

Lemma to_base_spec c bits cuMax :
  limbs bits -> 10 * Z.of_nat (List.length bits) / 9 + 2 <= Z.of_nat cuMax ->
  wp (to_base1e9 c bits cuMax) (fun st => exists ds rest, fst st = ds ++ rest /\ snd st = List.length ds /\
    digits D9 ds /\ positional D9 ds = val bits /\ (ds <> [] -> 0 < last ds 0)).
Proof.
  intros Hl Hcu. unfold to_base1e9.
  apply wp_for_down with (I := fun k st => exists ds rest, fst st = ds ++ rest /\ snd st = List.length ds /\
    List.length (fst st) = cuMax /\ digits D9 ds /\ positional D9 ds = val (skipn k bits) /\
    (ds <> [] -> 0 < last ds 0)).
  - exists [], (zeros cuMax). rewrite skipn_all. cbn [fst snd app List.length positional val].
    rewrite length_zeros. repeat split; auto; [constructor|congruence].
  - intros k [R n] Hk (ds & rest & ER & En & EL & Hds & HV & Hlast). cbn [fst snd] in *. subst R n.
    wstep. apply wp_rd; [lia|]. set (x := nth k bits 0).
    assert (limb x) as Hx by (apply limbs_nth; exact Hl).
    assert (val (skipn k bits) = x + W32 * val (skipn (S k) bits)) as Ev
      by (rewrite (skipn_nth bits k) by lia; reflexivity).
    pose proof (val_bound (skipn k bits) (limbs_skipn _ _ Hl)) as VB. rewrite skipn_length in VB.
    wstep. eapply wp_mono; [apply (inner_spec c ds rest x Hds Hx)|].
    intros [R uC] (ds' & ER & Lds & Hds' & HuC & EQ). cbn [fst snd] in *. subst R.
    assert (positional D9 ds' + bp D9 (List.length ds') * uC = val (skipn k bits)) as EQ'
      by (rewrite Lds, EQ, HV, Ev; ring).
    pose proof (pos_bound D9 ltac:(lia) ds' Hds') as PB'.
    pose proof (bp_pos D9 ltac:(lia) (List.length ds')) as BP.
    set (P := bp D9 (List.length ds')) in *. rewrite <- Lds. rewrite app_length in EL. rewrite <- Lds in EL.
    destruct (Z.eqb_spec uC 0) as [Z0|N0]; cbn [negb].
    + subst uC. wstep. cbn [fst snd]. exists ds', rest. split; [reflexivity|]. split; [reflexivity|].
      split; [rewrite app_length; lia|]. split; [exact Hds'|]. split; [lia|].
      intros Hne. destruct (snoc_case ds') as [->|(m & d & ->)]; [congruence|]. rewrite last_snoc.
      destruct (snoc_case ds) as [->|(m0 & d0 & ->)]; [rewrite app_length in Lds; cbn [List.length] in Lds; lia|].
      assert (m0 ++ [d0] <> []) as Hne0 by (destruct m0; discriminate). specialize (Hlast Hne0).
      rewrite last_snoc in Hlast. rewrite !app_length in Lds. cbn [List.length] in Lds.
      apply Forall_app in Hds. destruct Hds as [Hm0 Hd0]. apply Forall_app in Hds'. destruct Hds' as [Hm Hd].
      inversion Hd as [|? ? Hd1 _]; subst.
      pose proof (pos_top D9 m0 d0 ltac:(lia) Hm0 Hlast) as T0.
      destruct (Z.eq_dec d 0) as [->|]; [exfalso|lia].
      rewrite pos_app in EQ'. cbn [positional] in EQ'. pose proof (pos_bound D9 ltac:(lia) m Hm) as PBm.
      unfold bp in PBm. replace (List.length m) with (List.length m0) in PBm by lia.
      set (Q := D9 ^ Z.of_nat (List.length m0)) in *.
      assert (val (skipn (S k) bits) <= val (skipn k bits)) as LE.
      { rewrite Ev. pose proof (val_bound (skipn (S k) bits) (limbs_skipn _ _ Hl)). num; lia. }
      rewrite HV in T0. lia.
    + set (n := List.length ds') in *.
      assert (P <= val (skipn k bits)) as LE.
      { rewrite <- EQ'. assert (P * 1 <= P * uC) by (apply Z.mul_le_mono_nonneg_l; num; lia). lia. }
      pose proof (cap_bound n (List.length bits - k) _ LE (proj2 VB)) as CB.
      assert (forall a, 9 * a < 10 * Z.of_nat (List.length bits) -> a + 2 <= Z.of_nat cuMax) as CAP.
      { intros a Ha. pose proof (Z.div_le_lower_bound (10 * Z.of_nat (List.length bits)) 9 a ltac:(lia) ltac:(lia)). lia. }
      pose proof (CAP (Z.of_nat n) ltac:(lia)) as C1.
      destruct rest as [|r0 rest]; [cbn [List.length] in EL; lia|].
      wstep. apply wp_wr; [rewrite app_length; cbn [List.length]; fold n; lia|].
      assert (upd (ds' ++ r0 :: rest) n (uC mod kuBase) = ds' ++ (uC mod kuBase) :: rest) as -> by apply upd_app.
      cbv zeta.
      pose proof (Z.div_mod uC kuBase ltac:(unfold kuBase; lia)) as DM.
      pose proof (Z.mod_pos_bound uC kuBase ltac:(unfold kuBase; lia)) as MB.
      pose proof (Z.div_pos uC kuBase ltac:(num; lia) ltac:(unfold kuBase; lia)) as QP.
      assert (uC / kuBase < 5) as QB by (apply Z.div_lt_upper_bound; unfold kuBase; num; lia).
      set (q := uC / kuBase) in *. set (r := uC mod kuBase) in *. clearbody q r. unfold kuBase in *.
      cbn [List.length] in EL.
      destruct (Z.eqb_spec q 0) as [Zq|Nq]; cbn [negb].
      * subst q. wstep. cbn [fst snd]. exists (ds' ++ [r]), rest.
        split; [now rewrite <- app_assoc|]. split; [rewrite app_length; cbn [List.length]; fold n; lia|].
        split; [rewrite app_length; cbn [List.length]; fold n; lia|].
        split; [apply Forall_app; split; [exact Hds'|constructor; [lia|constructor]]|].
        split; [rewrite pos_app; cbn [positional]; fold n; fold P; rewrite <- EQ'; rewrite DM; ring|].
        intros _. rewrite last_snoc. lia.
      * assert (bp D9 (S n) <= val (skipn k bits)) as LE2.
        { rewrite bp_S. fold P. rewrite <- EQ'.
          assert (D9 <= uC) by lia. assert (P * D9 <= P * uC) by (apply Z.mul_le_mono_nonneg_l; lia). lia. }
        pose proof (cap_bound (S n) (List.length bits - k) _ LE2 (proj2 VB)) as CB2.
        pose proof (CAP (Z.of_nat (S n)) ltac:(lia)) as C2.
        destruct rest as [|r1 rest]; [cbn [List.length] in EL; lia|].
        wstep. apply wp_wr; [rewrite app_length; cbn [List.length]; fold n; lia|].
        assert (upd (ds' ++ r :: r1 :: rest) (S n) q = (ds' ++ [r]) ++ q :: rest) as ->.
        { replace (ds' ++ r :: r1 :: rest) with ((ds' ++ [r]) ++ r1 :: rest) by (now rewrite <- app_assoc).
          replace (S n) with (List.length (ds' ++ [r])) by (rewrite app_length; cbn [List.length]; fold n; lia).
          apply upd_app. }
        wstep. cbn [fst snd]. exists (ds' ++ [r; q]), rest.
        split; [now rewrite <- !app_assoc|]. split; [rewrite app_length; cbn [List.length]; fold n; lia|].
        cbn [List.length] in EL.
        split; [rewrite <- app_assoc; rewrite app_length; cbn [List.length app]; fold n; lia|].
        split; [apply Forall_app; split; [exact Hds'|constructor; [lia|constructor; [lia|constructor]]]|].
        split; [rewrite pos_app; cbn [positional]; fold n; fold P; rewrite <- EQ'; rewrite DM; ring|].
        intros _. replace (ds' ++ [r; q]) with ((ds' ++ [r]) ++ [q]) by (now rewrite <- app_assoc).
        rewrite last_snoc. lia.
  - intros [R n] (ds & rest & ER & En & EL & Hds & HV & Hlast). cbn [fst snd] in *. exists ds, rest.
    cbn [skipn] in HV. auto 10.
Qed.

(** ** to_string: digits *)

Definition chr (d : Z) : Z := 48 + d.

(** The digits [ds] (least significant first) fill the buffer from [ich] on. *)
Definition region (rgch : list Z) (ich : Z) (ds : list Z) : Prop :=
  exists pre z0, rgch = pre ++ map chr (rev ds) ++ [z0] /\ Z.of_nat (List.length pre) = ich.

Lemma region_write rgch ich ds d :
  region rgch ich ds -> 0 < ich ->
  wp (wrz rgch (ich - 1) (48 + d)) (fun r => region r (ich - 1) (ds ++ [d])).
Proof.
  intros (pre & z0 & -> & L) Hi. destruct (snoc_case pre) as [->|(p & y & ->)]; [cbn [List.length] in L; lia|].
  rewrite app_length in L. cbn [List.length] in L.
  apply wp_wrz; [rewrite !app_length; cbn [List.length]; lia|].
  replace (Z.to_nat (ich - 1)) with (List.length p) by lia. rewrite <- app_assoc. cbn [app]. rewrite upd_app.
  exists p, z0. rewrite rev_app_distr. split; [reflexivity|lia].
Qed.

Lemma nine_spec rgch ich ds u :
  region rgch ich ds -> 9 <= ich -> 0 <= u < D9 ->
  wp (for_up 9 0 (fun _ st =>
            let '(rgch, ichDst, uDig) := st in
            rgch <- wrz rgch (ichDst - 1) (48 + uDig mod 10) ;;
            Ret (rgch, ichDst - 1, uDig / 10)) (rgch, ich, u))
     (fun st => exists e, region (fst (fst st)) (ich - 9) (ds ++ e) /\ snd (fst st) = ich - 9 /\
        List.length e = 9%nat /\ digits 10 e /\ positional 10 e = u).
Proof.
  intros HR Hi Hu.
  apply wp_for_up with (I := fun j st => exists e, region (fst (fst st)) (ich - Z.of_nat j) (ds ++ e) /\
    snd (fst st) = ich - Z.of_nat j /\ List.length e = j /\ digits 10 e /\ 0 <= snd st /\
    positional 10 e + bp 10 j * snd st = u).
  - exists []. cbn [fst snd List.length positional]. rewrite app_nil_r, bp_0, Z.sub_0_r.
    split; [exact HR|]. split; [reflexivity|]. split; [reflexivity|]. split; [constructor|]. lia.
  - intros j [[r i] v] Hj (e & HR' & Ei & Le & He & Hv & EQ). cbn [fst snd] in *. subst i.
    wstep. eapply wp_mono; [apply region_write; [exact HR'|lia]|]. intros r' Hr'. cbn beta in Hr'. wstep. cbn [fst snd].
    pose proof (Z.div_mod v 10 ltac:(lia)) as DM. pose proof (Z.mod_pos_bound v 10 ltac:(lia)) as MB.
    pose proof (Z.div_pos v 10 Hv ltac:(lia)) as QP. set (q := v / 10) in *. set (d := v mod 10) in *. clearbody q d.
    exists (e ++ [d]). rewrite <- app_assoc in Hr'.
    replace (ich - Z.of_nat (S j)) with (ich - Z.of_nat j - 1) by lia.
    split; [exact Hr'|]. split; [reflexivity|]. split; [rewrite app_length; cbn [List.length]; lia|].
    split; [apply Forall_app; split; [exact He|constructor; [lia|constructor]]|]. split; [exact QP|].
    rewrite pos_app. cbn [positional]. rewrite Le, bp_S. rewrite <- EQ, DM. ring.
  - intros [[r i] v] (e & HR' & Ei & Le & He & Hv & EQ). cbn [fst snd Nat.add] in *.
    exists e. change (Z.of_nat 9) with 9 in *. split; [exact HR'|]. split; [exact Ei|]. split; [exact Le|].
    split; [exact He|]. pose proof (pos_bound 10 ltac:(lia) e He) as PB. rewrite Le in PB.
    change (bp 10 9) with D9 in *. assert (v = 0) by lia. subst v. lia.
Qed.

Lemma last_digits_spec fuel u rgch ich ds :
  region rgch ich ds -> 0 <= u -> u < 10 ^ Z.of_nat fuel -> u < 10 ^ ich -> 0 <= ich ->
  wp (last_digits fuel u rgch ich) (fun st => exists e,
    region (fst st) (snd st) (ds ++ e) /\ snd st = ich - Z.of_nat (List.length e) /\
    digits 10 e /\ positional 10 e = u /\ (e <> [] -> 0 < last e 0)).
Proof.
  revert u rgch ich ds. induction fuel as [|fuel IH]; intros u rgch ich ds HR Hu Hf Hi Hp; cbn [last_digits].
  - change (10 ^ Z.of_nat 0) with 1 in Hf. assert (u = 0) by lia. subst u. cbn [Z.eqb]. wstep. cbn [fst snd].
    exists []. cbn [List.length positional]. rewrite app_nil_r, Z.sub_0_r.
    split; [exact HR|]. split; [reflexivity|]. split; [constructor|]. split; [reflexivity|congruence].
  - destruct (Z.eqb_spec u 0) as [->|Hn].
    + wstep. cbn [fst snd]. exists []. cbn [List.length positional]. rewrite app_nil_r, Z.sub_0_r.
      split; [exact HR|]. split; [reflexivity|]. split; [constructor|]. split; [reflexivity|congruence].
    + assert (0 < ich) as Hi0.
      { destruct (Z.eq_dec ich 0) as [->|]; [|lia]. change (10 ^ 0) with 1 in Hi. lia. }
      wstep. eapply wp_mono; [apply region_write; [exact HR|exact Hi0]|]. intros r' Hr'. cbn beta in Hr'.
      pose proof (Z.div_mod u 10 ltac:(lia)) as DM. pose proof (Z.mod_pos_bound u 10 ltac:(lia)) as MB.
      pose proof (Z.div_pos u 10 Hu ltac:(lia)) as QP. set (q := u / 10) in *. set (d := u mod 10) in *. clearbody q d.
      rewrite Nat2Z.inj_succ, Z.pow_succ_r in Hf by lia.
      assert (10 ^ ich = 10 * 10 ^ (ich - 1)) as Ei
        by (rewrite <- Z.pow_succ_r by lia; f_equal; lia). rewrite Ei in Hi.
      eapply wp_mono; [apply (IH q r' (ich - 1) _ Hr' QP); lia|].
      intros [r i] (e & HR' & Ei' & He & Hv & Hl). cbn [fst snd] in *. exists (d :: e).
      rewrite <- app_assoc in HR'. cbn [app] in HR'. cbn [List.length positional].
      split; [exact HR'|]. split; [lia|]. split; [constructor; [lia|exact He]|]. split; [lia|].
      intros _. destruct e as [|y e]; [|apply Hl; discriminate]. cbn [last positional] in *. lia.
Qed.

(** ** to_string *)

Lemma chr_digit d : 0 <= d < 10 -> digit_of (ascii_of_nat (Z.to_nat (chr d))) = Some d.
Proof.
  intros H. assert (d = 0 \/ d = 1 \/ d = 2 \/ d = 3 \/ d = 4 \/ d = 5 \/ d = 6 \/ d = 7 \/ d = 8 \/ d = 9) as K by lia.
  repeat (destruct K as [->|K]; [reflexivity|]). subst d. reflexivity.
Qed.

Lemma codes_leading l : digits 10 l ->
  leading_digits (string_of_codes (map chr l)) = l /\
  String.length (string_of_codes (map chr l)) = List.length l.
Proof.
  induction 1 as [|d l Hd Hl IH]; [split; reflexivity|]. destruct IH as [I1 I2].
  cbn [map string_of_codes leading_digits String.length List.length]. rewrite chr_digit by exact Hd. split; congruence.
Qed.

Lemma codes_numeral l z :
  digits 10 l -> l <> [] -> 0 < last l 0 -> positional 10 l = Z.abs z ->
  numeral (String.append (if z <? 0 then "-"%string else EmptyString) (string_of_codes (map chr (rev l)))) z.
Proof.
  intros Hd Hn Ht Hv. pose proof (codes_leading (rev l) (Forall_rev Hd)) as [L1 L2].
  exists (string_of_codes (map chr (rev l))). split; [reflexivity|].
  split; [unfold all_digits; now rewrite L1, L2|].
  destruct (snoc_case l) as [->|(m & d & ->)]; [congruence|]. rewrite last_snoc in Ht.
  rewrite rev_app_distr in *. cbn [rev app map string_of_codes] in *. split; [discriminate|].
  split; [unfold decimal; rewrite L1; cbn [rev]; now rewrite rev_involutive|].
  intros u [= E _]. cbn [leading_digits] in L1.
  assert (digit_of (ascii_of_nat (Z.to_nat (chr d))) = Some 0) as E0 by (rewrite E; reflexivity).
  rewrite E0 in L1. injection L1 as ? ?. lia.
Qed.

Lemma region_slice rgch ich ds :
  region rgch ich ds -> slice rgch (Z.to_nat ich) (List.length ds) = Ret (map chr (rev ds)).
Proof.
  intros (pre & z0 & -> & L). replace (Z.to_nat ich) with (List.length pre) by lia.
  unfold slice. rewrite (proj2 (Nat.leb_le _ _)).
  - rewrite skipn_app_exact by reflexivity. rewrite firstn_app.
    replace (List.length ds) with (List.length (map chr (rev ds))) by (rewrite map_length, rev_length; reflexivity).
    rewrite firstn_all, Nat.sub_diag. cbn [firstn]. now rewrite app_nil_r.
  - rewrite !app_length, map_length, rev_length. lia.
Qed.

Lemma region_sign rgch ich ds :
  region rgch ich ds -> 0 < ich ->
  exists r, wrz rgch (ich - 1) 45 = Ret r /\
    slice r (Z.to_nat (ich - 1)) (S (List.length ds)) = Ret (45 :: map chr (rev ds)).
Proof.
  intros HR Hi. pose proof (region_write rgch ich ds (-3) HR Hi) as W. apply wp_inv in W.
  destruct W as (r & E & HR'). exists r. split; [exact E|].
  pose proof (region_slice _ _ _ HR') as S0. rewrite app_length in S0. cbn [List.length] in S0.
  replace (List.length ds + 1)%nat with (S (List.length ds)) in S0 by lia. rewrite S0, rev_app_distr. reflexivity.
Qed.

(** Everything up to the sign. *)
Lemma to_string_digits c s l :
  limbs l -> l <> [] -> 0 < val l -> Z.of_nat (List.length l) <= INT_MAX / 10 ->
  exists rgch ich cch ds,
    region rgch ich ds /\ ich + Z.of_nat (List.length ds) = cch /\ ich < 9 /\ cch mod 9 = 0 /\
    digits 10 ds /\ ds <> [] /\ 0 < last ds 0 /\ positional 10 ds = val l /\
    bi_to_string c (Big s l) =
      ('(rgch, ichDst) <-
        (if s <? 0 then
           rgch <- wrz rgch (ich - 1) 45 ;; Ret (rgch, ich - 1)
         else Ret (rgch, ich)) ;;
       s <- slice rgch (Z.to_nat ichDst) (Z.to_nat (cch - ichDst)) ;;
       Ret (string_of_codes s)).
Proof.
  intros Hl Hn Hv Hlen. unfold bi_to_string. cbn [bits_of sign_of]. rewrite is_nil_ne by exact Hn.
  cbv zeta. destruct (Z.ltb_spec (INT_MAX / 10) (Z.of_nat (List.length l))) as [H|_]; [lia|].
  change (INT_MAX / 10) with 214748364 in Hlen.
  pose proof (to_base_spec c l (Z.to_nat (Z.of_nat (List.length l) * 10 / 9 + 2)) Hl) as W.
  assert (0 <= Z.of_nat (List.length l) * 10 / 9) as DP by (apply Z.div_pos; lia).
  lapply W; [clear W; intros W|rewrite Z2Nat.id by lia; rewrite Z.mul_comm; lia].
  apply wp_inv in W. destruct W as ([R n] & -> & ds & rest & ER & En & Hds & HV & Hlast). cbn [fst snd] in *. subst R n.
  cbn [bind].
  assert (ds <> []) as Hne by (intros ->; cbn [positional] in HV; lia). specialize (Hlast Hne).
  destruct (snoc_case ds) as [->|(m & top & ->)]; [congruence|]. rewrite last_snoc in Hlast.
  rewrite app_length. cbn [List.length]. set (n := List.length m) in *.
  apply Forall_app in Hds. destruct Hds as [Hm Ht]. inversion Ht as [|? ? Ht1 _]; subst.
  pose proof (pos_top D9 m top ltac:(lia) Hm Hlast) as PT. rewrite HV in PT.
  pose proof (val_bound l Hl) as VB. pose proof (cap_bound n (List.length l) _ PT (proj2 VB)) as CB.
  destruct (Z.ltb_spec (INT_MAX / 9) (Z.of_nat (n + 1))) as [H|_]; [change (INT_MAX / 9) with 238609294 in H; lia|].
  destruct (Z.eqb_spec (Z.of_nat (n + 1) * 9) INT_MAX) as [H|_]; [unfold INT_MAX in H; lia|].
  assert (region (zeros (Z.to_nat (Z.of_nat (n + 1) * 9 + 1))) (Z.of_nat (n + 1) * 9) []) as R0.
  { exists (zeros (Z.to_nat (Z.of_nat (n + 1) * 9))), 0. rewrite length_zeros. cbn [rev map app].
    split; [|lia]. unfold zeros. change [0] with (repeat 0 1). rewrite <- repeat_app. f_equal. lia. }
  replace (n + 1 - 1)%nat with n by lia.
  match goal with |- context [for_up n 0 ?body ?s0] =>
    assert (wp (for_up n 0 body s0) (fun st => exists e, region (fst st) 9 e /\ snd st = 9 /\
      List.length e = (9 * n)%nat /\ digits 10 e /\ positional 10 e = positional D9 m)) as W
  end.
  { apply wp_for_up with (I := fun j st => exists e, region (fst st) (Z.of_nat (n + 1) * 9 - 9 * Z.of_nat j) e /\
      snd st = Z.of_nat (n + 1) * 9 - 9 * Z.of_nat j /\
      List.length e = (9 * j)%nat /\ digits 10 e /\ positional 10 e = positional D9 (firstn j m)).
    - exists []. cbn [fst snd firstn positional]. change (9 * Z.of_nat 0) with 0. rewrite Z.sub_0_r.
      split; [exact R0|]. split; [reflexivity|]. split; [reflexivity|]. split; [constructor|reflexivity].
    - intros j [r i] Hj (e & HR & Ei & Le & He & EQ). cbn [fst snd] in *. subst i.
      wstep. apply wp_rd; [rewrite !app_length; fold n; lia|].
      assert (nth j ((m ++ [top]) ++ rest) 0 = nth j m 0) as -> by (rewrite <- app_assoc, app_nth1; [reflexivity|fold n; lia]).
      assert (0 <= nth j m 0 < D9) as Hx by (apply (proj1 (Forall_forall _ _) Hm), nth_In; fold n; lia).
      wstep. apply wp_massert; [apply Z.ltb_lt; exact (proj2 Hx)|].
      wstep. eapply wp_mono; [apply (nine_spec r _ e _ HR); [lia|exact Hx]|].
      intros [[r' i'] u'] (e' & HR' & Ei' & Le' & He' & EQ'). cbn [fst snd] in *. subst i'. wstep. cbn [fst snd].
      exists (e ++ e'). replace (Z.of_nat (n + 1) * 9 - 9 * Z.of_nat (S j)) with (Z.of_nat (n + 1) * 9 - 9 * Z.of_nat j - 9) by lia.
      split; [exact HR'|]. split; [reflexivity|]. split; [rewrite app_length; lia|].
      split; [apply Forall_app; auto|]. rewrite pos_app, EQ, EQ', Le.
      rewrite (firstn_S_nth m j) by (fold n; lia). rewrite pos_app. cbn [positional]. rewrite firstn_length.
      replace (Nat.min j (List.length m)) with j by (fold n; lia). unfold bp.
      change D9 with (10 ^ 9). rewrite <- Z.pow_mul_r by lia. rewrite Nat2Z.inj_mul. change (Z.of_nat 9) with 9. ring.
    - intros [r i] (e & HR & Ei & Le & He & EQ). cbn [fst snd Nat.add] in *. exists e.
      replace (Z.of_nat (n + 1) * 9 - 9 * Z.of_nat n) with 9 in * by lia. unfold n in EQ at 1. rewrite firstn_all in EQ. auto. }
  apply wp_inv in W. destruct W as ([r i] & -> & e & HR & Ei & Le & He & EQ). cbn [fst snd] in *. subst i. cbn [bind].
  assert (rdz ((m ++ [top]) ++ rest) (Z.of_nat (n + 1) - 1) = Ret top) as ->.
  { unfold rdz. destruct (Z.ltb_spec (Z.of_nat (n + 1) - 1) 0); [lia|].
    replace (Z.to_nat (Z.of_nat (n + 1) - 1)) with n by lia. rewrite <- app_assoc. unfold rd.
    rewrite nth_error_app2 by (fold n; lia). fold n. rewrite Nat.sub_diag. reflexivity. }
  cbn [bind].
  pose proof (last_digits_spec dec_fuel top r 9 e HR ltac:(lia) ltac:(change (10 ^ Z.of_nat dec_fuel) with 100000000000000000000; lia)
    ltac:(change (10 ^ 9) with D9; lia) ltac:(lia)) as W.
  apply wp_inv in W. destruct W as ([r' i'] & -> & e' & HR' & Ei' & He' & EQ' & Hl'). cbn [fst snd] in *. cbn [bind].
  assert (e' <> []) as Hne' by (intros ->; cbn [positional] in EQ'; lia).
  assert (List.length e' <> O) as Le' by (destruct e'; [congruence|discriminate]).
  exists r', i', (Z.of_nat (n + 1) * 9), (e ++ e').
  split; [exact HR'|]. split; [rewrite app_length; lia|]. split; [lia|]. split; [apply Z.mod_mul; lia|].
  split; [apply Forall_app; auto|]. split; [destruct e, e'; congruence || discriminate|].
  destruct (snoc_case e') as [->|(e1 & d & ->)]; [congruence|].
  split; [rewrite app_assoc, last_snoc; specialize (Hl' Hne'); now rewrite last_snoc in Hl'|].
  split; [|reflexivity].
  rewrite pos_app, EQ', EQ, Le. rewrite <- HV, pos_app. cbn [positional]. unfold bp. fold n.
  change D9 with (10 ^ 9). rewrite <- Z.pow_mul_r by lia. rewrite Nat2Z.inj_mul. change (Z.of_nat 9) with 9. ring.
Qed.

Lemma decimal_width_unique z k k' : decimal_width z k -> decimal_width z k' -> k = k'.
Proof.
  intros [H1 [H2 H3]] [H1' [H2' H3']].
  pose proof (proj2 (Z.pow_lt_mono_r_iff 10 (k - 1) k' ltac:(lia) ltac:(lia)) ) as A.
  pose proof (proj2 (Z.pow_lt_mono_r_iff 10 (k' - 1) k ltac:(lia) ltac:(lia)) ) as B. lia.
Qed.

Lemma digits_width ds z : digits 10 ds -> ds <> [] -> 0 < last ds 0 -> positional 10 ds = Z.abs z ->
  decimal_width z (Z.of_nat (List.length ds)).
Proof.
  intros Hd Hn Hl Hv. pose proof (pos_bound 10 ltac:(lia) ds Hd) as PB. unfold bp in PB.
  destruct (snoc_case ds) as [->|(m & d & ->)]; [congruence|]. rewrite last_snoc in Hl.
  apply Forall_app in Hd. destruct Hd as [Hm _]. pose proof (pos_top 10 m d ltac:(lia) Hm Hl) as PT.
  rewrite app_length in *. cbn [List.length] in *. unfold decimal_width.
  replace (Z.of_nat (List.length m + 1) - 1) with (Z.of_nat (List.length m)) by lia. lia.
Qed.

Theorem to_string_ok c b x n :
  represents b x -> limb_count x n -> n <= 214748364 -> ~ sign_hits x ->
  exists s, bi_to_string c b = Ret s /\ numeral s x.
Proof.
  intros Hb Hn Hn2 Hbad. pose proof (limb_count_length b x n Hb Hn) as LL. apply represents_view in Hb.
  inversion Hb as [z Hz Z1 Z2|s l Hs Hnl Hll Htl Hvl Z1 Z2]; subst b x; cbn [bits_of] in LL.
  - exists (std_to_string z). split; [reflexivity|apply std_to_string_numeral].
  - destruct (to_string_digits c s l Hll Hnl ltac:(lia) ltac:(change (INT_MAX / 10) with 214748364; lia))
      as (rgch & ich & cch & ds & HR & E1 & Hi & Hc & Hd & Hdn & Hdl & Hdv & ->).
    assert (Z.abs (s * val l) = val l) as EA by (destruct Hs; subst s; lia).
    assert (0 <= ich) as Hi0 by (destruct HR as (pre & z0 & _ & L); lia).
    assert ((s <? 0) = (s * val l <? 0)) as Es by (destruct Hs; subst s; [|]; symmetry; [apply Z.ltb_ge|apply Z.ltb_lt]; lia).
    pose proof (codes_numeral ds (s * val l) Hd Hdn Hdl ltac:(lia)) as CN.
    rewrite Es. destruct (Z.ltb_spec (s * val l) 0) as [Hneg|Hpos].
    + assert (0 < ich) as Hi1.
      { destruct (Z.eq_dec ich 0) as [->|]; [|lia]. exfalso. apply Hbad.
        split; [change (2 ^ 31) with 2147483648; lia|]. exists (cch / 9).
        replace (9 * (cch / 9)) with (Z.of_nat (List.length ds))
          by (pose proof (Z.div_mod cch 9 ltac:(lia)); lia).
        apply digits_width; auto. lia. }
      destruct (region_sign _ _ _ HR Hi1) as (r & -> & S0). cbn [bind].
      replace (Z.to_nat (cch - (ich - 1))) with (S (List.length ds)) by lia. rewrite S0. cbn [bind].
      eexists. split; [reflexivity|]. exact CN.
    + cbn [bind]. replace (Z.to_nat (cch - ich)) with (List.length ds) by lia.
      rewrite (region_slice _ _ _ HR). cbn [bind]. eexists. split; [reflexivity|]. exact CN.
Qed.

Theorem to_string_oob c b x n :
  represents b x -> limb_count x n -> n <= 214748364 -> sign_hits x ->
  bi_to_string c b = Undef OutOfBounds.
Proof.
  intros Hb Hn Hn2 [Hx (k & Hk)]. pose proof (limb_count_length b x n Hb Hn) as LL. apply represents_view in Hb.
  change (2 ^ 31) with 2147483648 in Hx.
  inversion Hb as [z Hz Z1 Z2|s l Hs Hnl Hll Htl Hvl Z1 Z2]; subst b x; cbn [bits_of] in LL; [num; lia|].
  destruct (to_string_digits c s l Hll Hnl ltac:(lia) ltac:(change (INT_MAX / 10) with 214748364; lia))
      as (rgch & ich & cch & ds & HR & E1 & Hi & Hc & Hd & Hdn & Hdl & Hdv & ->).
  assert (s = -1) as -> by (destruct Hs; [subst s; lia|assumption]). cbn [Z.ltb Z.compare].
  assert (0 <= ich) as Hi0 by (destruct HR as (pre & z0 & _ & L); lia).
  pose proof (digits_width ds (-1 * val l) Hd Hdn Hdl ltac:(lia)) as DW.
  pose proof (decimal_width_unique _ _ _ Hk DW) as EK.
  assert (ich = 0) as ->.
  { pose proof (Z.div_mod cch 9 ltac:(lia)) as DM. rewrite Hc in DM. lia. }
  reflexivity.
Qed.

Theorem to_string_too_large c b x n :
  represents b x -> limb_count x n -> 214748364 < n -> bi_to_string c b = Throw OverflowError.
Proof.
  intros Hb Hn Hn2. pose proof (limb_count_length b x n Hb Hn) as LL.
  unfold bi_to_string. destruct (is_nil (bits_of b)) eqn:E.
  - destruct (bits_of b); [cbn [List.length] in LL; lia|discriminate].
  - cbv zeta. destruct (Z.ltb_spec (INT_MAX / 10) (Z.of_nat (List.length (bits_of b)))) as [_|H]; [reflexivity|].
    change (INT_MAX / 10) with 214748364 in H. lia.
Qed.

Theorem parse_to_string c b x n :
  represents b x -> limb_count x n -> n <= 214748364 -> ~ sign_hits x ->
  exists s, bi_to_string c b = Ret s /\ returns (bi_parse c s) x.
Proof.
  intros Hb Hn Hn2 Hbad. destruct (to_string_ok c b x n Hb Hn Hn2 Hbad) as (s & E & H).
  exists s. split; [exact E|]. rewrite <- (numeral_parse s x H). apply parse_returns.
Qed.

Theorem try_parse_well_formed c s old :
  well_formed s -> exists r, bi_try_parse c s old = Ret (true, r) /\ represents r (signed_decimal s).
Proof. intros _. apply try_parse_always. Qed.

Theorem try_parse_malformed c s old :
  ~ well_formed s -> exists r, bi_try_parse c s old = Ret (true, r) /\ represents r (signed_decimal s).
Proof. intros _. apply try_parse_always. Qed.

Lemma width_compute z k : (1 <=? k) && (10 ^ (k - 1) <=? Z.abs z) && (Z.abs z <? 10 ^ k) = true -> decimal_width z k.
Proof.
  intros H. apply andb_true_iff in H. destruct H as [H H3]. apply andb_true_iff in H. destruct H as [H1 H2].
  unfold decimal_width. lia.
Qed.

Lemma sign_hits_not z k : decimal_width z k -> k mod 9 <> 0 -> ~ sign_hits z.
Proof.
  intros H Hk [_ [j Hj]]. pose proof (decimal_width_unique _ _ _ H Hj) as ->.
  apply Hk. rewrite Z.mul_comm. apply Z.mod_mul. lia.
Qed.
