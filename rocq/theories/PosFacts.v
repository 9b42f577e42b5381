(** Facts about positional and complement notation. *)
From Coq Require Import ZArith List Lia.
From Verif Require Import Machine Facts SpecPos.
Import ListNotations.
Open Scope Z_scope.

Ltac Zify.zify_post_hook ::= idtac.

Section Base.
  Variable b : Z.
  Hypothesis Hb : 2 <= b.

  Definition bp (n : nat) : Z := b ^ Z.of_nat n.

  Lemma bp_0 : bp 0 = 1. Proof. reflexivity. Qed.
  Lemma bp_S n : bp (S n) = b * bp n.
  Proof. unfold bp. rewrite Nat2Z.inj_succ, Z.pow_succ_r by lia. reflexivity. Qed.
  Lemma bp_pos n : 0 < bp n.
  Proof. unfold bp. apply Z.pow_pos_nonneg; lia. Qed.
  Lemma bp_add n m : bp (n + m) = bp n * bp m.
  Proof. unfold bp. rewrite Nat2Z.inj_add, Z.pow_add_r by lia. reflexivity. Qed.
  Lemma bp_le n m : (n <= m)%nat -> bp n <= bp m.
  Proof. intros H. unfold bp. apply Z.pow_le_mono_r; lia. Qed.

  Lemma pos_bound l : digits b l -> 0 <= positional b l < bp (length l).
  Proof.
    induction 1 as [|d l Hd Hl IH]; cbn [positional length]; [rewrite bp_0; lia|].
    rewrite bp_S.
    assert (b * positional b l <= b * (bp (length l) - 1)) by (apply Z.mul_le_mono_nonneg_l; lia).
    assert (0 <= b * positional b l) by (apply Z.mul_nonneg_nonneg; lia). lia.
  Qed.

  Lemma pos_app l m : positional b (l ++ m) = positional b l + bp (length l) * positional b m.
  Proof.
    induction l as [|d l IH]; cbn [positional app length].
    - rewrite bp_0. ring.
    - rewrite IH, bp_S. ring.
  Qed.

  Lemma digits_app l m : digits b (l ++ m) <-> digits b l /\ digits b m.
  Proof. apply Forall_app. Qed.

  Lemma pos_repeat d n : (b - 1) * positional b (repeat d n) = d * (bp n - 1).
  Proof.
    induction n as [|n IH]; cbn [repeat positional]; [rewrite bp_0; ring|].
    rewrite bp_S. transitivity ((b - 1) * d + b * ((b - 1) * positional b (repeat d n))); [ring|].
    rewrite IH. ring.
  Qed.

  Lemma pos_nth l i : digits b l -> nth i l 0 = (positional b l / bp i) mod b.
  Proof.
    revert i. induction l as [|d l IH]; intros i Hl.
    - cbn [positional]. rewrite Z.div_0_l by (pose proof (bp_pos i); lia). rewrite Z.mod_0_l by lia.
      now destruct i.
    - inversion Hl; subst. destruct i as [|i]; cbn [nth positional].
      + rewrite bp_0, Z.div_1_r, Z.mul_comm, Z.mod_add by lia. symmetry. now apply Z.mod_small.
      + rewrite IH by assumption. rewrite bp_S, <- Z.div_div by (pose proof (bp_pos i); lia).
        rewrite (Z.mul_comm b (positional b l)), Z.div_add by lia.
        rewrite (Z.div_small d b) by lia. reflexivity.
  Qed.

  Lemma pos_digits l V :
    (forall i, (i < length l)%nat -> nth i l 0 = (V / bp i) mod b) ->
    positional b l = V mod bp (length l).
  Proof.
    revert V. induction l as [|d l IH]; intros V H; cbn [positional length].
    - rewrite bp_0, Z.mod_1_r. reflexivity.
    - rewrite (IH (V / b)).
      + pose proof (H O ltac:(cbn [length]; lia)) as H0. cbn [nth] in H0.
        rewrite bp_0, Z.div_1_r in H0. rewrite bp_S, Z.rem_mul_r by (pose proof (bp_pos (length l)); lia).
        now rewrite H0.
      + intros i Hi. specialize (H (S i) ltac:(cbn [length]; lia)). cbn [nth] in H. rewrite H.
        rewrite bp_S, Z.div_div by (pose proof (bp_pos i); lia). reflexivity.
  Qed.

  (** Base at least 2 and even from here on. *)
  Hypothesis Heven : b mod 2 = 0.

  Lemma bp_even n : exists h, bp (S n) = 2 * h /\ 0 < h.
  Proof.
    exists (b / 2 * bp n). rewrite bp_S. pose proof (Z.div_mod b 2 ltac:(lia)) as E. rewrite Heven in E.
    split; [rewrite E at 1; ring|]. apply Z.mul_pos_pos; [|apply bp_pos].
    apply Z.div_str_pos. lia.
  Qed.

  Lemma last_snoc (l : list Z) d : last (l ++ [d]) 0 = d.
  Proof. induction l as [|x l IH]; [reflexivity|]. cbn [app last]. destruct (l ++ [d]) eqn:E; [|exact IH]. now destruct l. Qed.

  Lemma complement_snoc l d :
    complement b (l ++ [d]) = positional b l + bp (length l) * (if b <=? 2 * d then d - b else d).
  Proof.
    unfold complement. rewrite last_snoc, pos_app. cbn [positional]. rewrite app_length. cbn [length].
    replace (b ^ Z.of_nat (length l + 1)) with (b * bp (length l))
      by (rewrite <- bp_S; unfold bp; f_equal; lia).
    destruct (b <=? 2 * d); ring.
  Qed.

  Lemma snoc_case (l : list Z) : l = [] \/ exists m d, l = m ++ [d].
  Proof.
    destruct l as [|x l]; [now left|right].
    destruct (exists_last (l := x :: l)) as (m & d & E); [discriminate|]. eauto.
  Qed.

  (** Range of an n-digit complement number, doubled. *)
  Definition cfits (n : nat) (V : Z) : Prop := - bp n <= 2 * V < bp n.

  Lemma cfits_0 V : cfits 0 V -> V = 0.
  Proof. unfold cfits. rewrite bp_0. lia. Qed.

  Lemma cfits_le n m V : (n <= m)%nat -> cfits n V -> cfits m V.
  Proof. intros H F. unfold cfits in *. pose proof (bp_le n m H). lia. Qed.

  Lemma complement_range l : digits b l -> cfits (length l) (complement b l).
  Proof.
    intros Hl. destruct (snoc_case l) as [->|(m & d & ->)].
    - unfold cfits, complement. cbn [positional last length]. rewrite bp_0.
      destruct (Z.leb_spec b (2 * 0)); lia.
    - apply digits_app in Hl. destruct Hl as [Hm Hd]. inversion Hd as [|? ? Hd0 _]; subst.
      rewrite complement_snoc. pose proof (pos_bound m Hm) as P. unfold cfits.
      rewrite app_length. cbn [length]. replace (length m + 1)%nat with (S (length m)) by lia.
      rewrite bp_S. pose proof (bp_pos (length m)) as Q. set (B := bp (length m)) in *. clearbody B.
      pose proof (Z.div_mod b 2 ltac:(lia)) as E. rewrite Heven in E. set (h := b / 2) in *. clearbody h.
      destruct (Z.leb_spec b (2 * d)).
      + assert (- h * B <= (d - b) * B <= -1 * B) by (split; apply Z.mul_le_mono_nonneg_r; lia). lia.
      + assert (0 * B <= d * B <= (h - 1) * B) by (split; apply Z.mul_le_mono_nonneg_r; lia). lia.
  Qed.

  Lemma complement_sign l : digits b l -> complement b l < 0 <-> b <= 2 * last l 0.
  Proof.
    intros Hl. destruct (snoc_case l) as [->|(m & d & ->)].
    - unfold complement. cbn [positional last length]. destruct (Z.leb_spec b (2 * 0)); lia.
    - apply digits_app in Hl. destruct Hl as [Hm Hd]. inversion Hd as [|? ? Hd0 _]; subst.
      rewrite complement_snoc, last_snoc. pose proof (pos_bound m Hm) as P.
      pose proof (bp_pos (length m)) as Q. set (B := bp (length m)) in *. clearbody B.
      destruct (Z.leb_spec b (2 * d)).
      + assert ((d - b) * B <= -1 * B) by (apply Z.mul_le_mono_nonneg_r; lia). lia.
      + assert (0 <= B * d) by (apply Z.mul_nonneg_nonneg; lia). lia.
  Qed.

  (** Digit [i] of the infinite expansion. *)
  Definition ext (l : list Z) (neg : bool) (i : nat) : Z :=
    if Nat.ltb i (length l) then nth i l 0 else if neg then b - 1 else 0.

  Lemma complement_ext l i :
    digits b l -> ext l (complement b l <? 0) i = (complement b l / bp i) mod b.
  Proof.
    intros Hl. pose proof (complement_range l Hl) as R. pose proof (bp_pos i) as Q. unfold ext.
    destruct (Nat.ltb_spec i (length l)) as [H|H].
    - rewrite pos_nth by exact Hl. unfold complement. fold (bp (length l)).
      destruct (b <=? 2 * last l 0); [|now rewrite Z.sub_0_r].
      replace (length l) with (S (length l - S i) + i)%nat at 1 by lia. rewrite bp_add, bp_S.
      set (B := bp (length l - S i)). clearbody B.
      replace (positional b l - b * B * bp i) with (positional b l + - (b * B) * bp i) by ring.
      rewrite Z.div_add by lia. replace (- (b * B)) with (- B * b) by ring. now rewrite Z.mod_add by lia.
    - pose proof (bp_le _ _ H) as L. unfold cfits in R.
      destruct (Z.ltb_spec (complement b l) 0) as [N|N].
      + replace (complement b l / bp i) with (-1).
        * apply (Z.mod_unique_pos _ _ (-1)); lia.
        * apply (Z.div_unique_pos _ _ _ (complement b l + bp i)); lia.
      + rewrite (Z.div_small (complement b l)) by lia. symmetry. apply Z.mod_0_l. lia.
  Qed.

  Lemma complement_unique l V :
    digits b l -> cfits (length l) V ->
    (forall i, (i < length l)%nat -> nth i l 0 = (V / bp i) mod b) ->
    complement b l = V.
  Proof.
    intros Hl F H. pose proof (pos_digits l V H) as P. pose proof (complement_sign l Hl) as S.
    pose proof (complement_range l Hl) as R. pose proof (bp_pos (length l)) as Q.
    assert (complement b l mod bp (length l) = V mod bp (length l)) as E.
    { rewrite <- P. unfold complement. fold (bp (length l)).
      destruct (b <=? 2 * last l 0).
      - replace (positional b l - bp (length l)) with (positional b l + (-1) * bp (length l)) by ring.
        rewrite Z.mod_add by lia. apply Z.mod_small, pos_bound, Hl.
      - rewrite Z.sub_0_r. apply Z.mod_small, pos_bound, Hl. }
    unfold cfits in *. clear P H S.
    pose proof (Z.div_mod (complement b l) (bp (length l)) ltac:(lia)) as D1.
    pose proof (Z.div_mod V (bp (length l)) ltac:(lia)) as D2. rewrite E in D1.
    set (m := V mod bp (length l)) in *. set (B := bp (length l)) in *.
    set (q1 := complement b l / B) in *. set (q2 := V / B) in *. set (C := complement b l) in *.
    clearbody m B q1 q2 C.
    assert (C - V = B * (q1 - q2)) as D by lia.
    assert (q1 = q2) as ->; [|lia].
    destruct (Z.lt_trichotomy q1 q2) as [L|[L|L]]; [|exact L|]; exfalso.
    - assert (B * (q1 - q2) <= B * (-1)) by (apply Z.mul_le_mono_nonneg_l; lia). lia.
    - assert (B * 1 <= B * (q1 - q2)) by (apply Z.mul_le_mono_nonneg_l; lia). lia.
  Qed.

  (** A number that does not fit [n] digits needs more than [n]. *)
  Lemma complement_needs n l V :
    ~ cfits n V -> digits b l -> complement b l = V -> (n < length l)%nat.
  Proof.
    intros N Hl <-. destruct (Nat.lt_ge_cases n (length l)) as [H|H]; [exact H|exfalso].
    apply N. eapply cfits_le; [exact H|]. now apply complement_range.
  Qed.
End Base.
