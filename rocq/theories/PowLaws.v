(** Forms of the pow and mod_pow lemmas quoted by PropPow.v. *)
From Verif Require Import Facts Spec AddSubFacts SpecFacts BigIntFacts SpecApi BigInt PowFacts ModPowFacts ModPowApi ReducerFacts.

Ltac Zify.zify_post_hook ::= idtac.

Lemma pow_exact c a x e n :
  represents a x -> limb_count x n -> 0 <= e < 2 ^ 31 ->
  Z.abs x <= 1 \/ e <= 1 \/ n * e + 1 < 2 ^ 31 - 1 -> returns (bi_pow c a e) (x ^ e).
Proof. intros Ha Hn He H. apply (bi_pow_family c a x e n Ha Hn); auto; lia. Qed.

Lemma pow_overflow c a x e n :
  represents a x -> limb_count x n -> 1 < e < 2 ^ 31 -> 1 < Z.abs x -> 2 ^ 31 - 1 <= n * e + 1 ->
  bi_pow c a e = Throw OverflowError.
Proof. intros Ha Hn He H1 H2. apply (bi_pow_family c a x e n Ha Hn); auto; lia. Qed.

Lemma pow_negative c a x e : represents a x -> - 2 ^ 31 <= e < 0 -> bi_pow c a e = Throw OutOfRange.
Proof. intros _ He. unfold bi_pow. rewrite (proj2 (Z.ltb_lt e 0)) by lia. reflexivity. Qed.

Lemma mod_pow_one_wrong c a b m x z n :
  represents a x -> represents b 1 -> represents m z ->
  32 <= n -> limb_count x n -> limb_count z n -> Z.abs z <= Z.abs x ->
  returns (bi_mod_pow c a b m) x /\ Z.rem (x ^ 1) z <> x.
Proof.
  intros Ha Hb Hm Hn Hx Hz H. split; [now apply (mod_pow_one_large c a b m x z n)|].
  rewrite Z.pow_1_r. intros E. destruct (Z.eq_dec z 0) as [->|N].
  - destruct Hz as (_ & _ & K). specialize (K 1 ltac:(lia) ltac:(reflexivity)). lia.
  - pose proof (Z.rem_bound_abs x z N). lia.
Qed.

Lemma mod_pow_zero_throws c a b m x e :
  represents a x -> represents b e -> represents m 0 -> 0 <= e ->
  2 ^ 31 <= Z.abs x \/ e < 2 ^ 32 -> bi_mod_pow c a b m = Throw DivideByZero.
Proof.
  intros Ha Hb Hm He H. rewrite (mod_pow_zero c a b m x e Ha Hb Hm He).
  destruct (Z.ltb_spec (Z.abs x) (2 ^ 31)); destruct (Z.leb_spec (2 ^ 32) e); cbn [andb]; reflexivity || lia.
Qed.

Lemma mod_pow_zero_undef c a b m x e :
  represents a x -> represents b e -> represents m 0 -> Z.abs x < 2 ^ 31 -> 2 ^ 32 <= e ->
  bi_mod_pow c a b m = Undef DivByZero.
Proof.
  intros Ha Hb Hm Hx He. rewrite (mod_pow_zero c a b m x e Ha Hb Hm ltac:(lia)).
  rewrite (proj2 (Z.ltb_lt _ _) Hx), (proj2 (Z.leb_le _ _) He). reflexivity.
Qed.

(** Deciding [limb_count] on literals of more than one limb. *)
Lemma limb_count_compute x n : (2 <=? n) && (Z.abs x <? 2 ^ (32 * n)) && (2 ^ (32 * (n - 1)) <=? Z.abs x) = true -> limb_count x n.
Proof.
  intros H. apply andb_prop in H. destruct H as (H & H3). apply andb_prop in H. destruct H as (H1 & H2).
  apply Z.leb_le in H1, H3. apply Z.ltb_lt in H2. split; [lia|]. split; [exact H2|].
  intros m M1 M2. unfold fits_limbs in M2. destruct (Z.le_gt_cases n m) as [|K]; [assumption|exfalso].
  assert (2 ^ (32 * m) <= 2 ^ (32 * (n - 1))) by (apply Z.pow_le_mono_r; lia). lia.
Qed.
