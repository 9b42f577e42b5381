(** The Python bindings. *)
From Verif Require Import Facts Spec SpecPos SpecPy PosFacts AddSubFacts SpecFacts BigIntFacts CompareFacts SpecApi ArithLaws BytesFacts ToBytesFacts BigInt BigIntBytes PyBind SpecText PowLaws.
From Verif Require TextFacts WordFacts ShiftFacts ConvFacts.

Ltac Zify.zify_post_hook ::= idtac.

Lemma low_bytes_length n v : length (low_bytes n v) = n.
Proof. revert v. induction n as [|n IH]; intros v; cbn [low_bytes length]; [reflexivity|]. now rewrite IH. Qed.

Lemma low_bytes_digits n v : digits 256 (low_bytes n v).
Proof.
  revert v. induction n as [|n IH]; intros v; cbn [low_bytes]; constructor; [|apply IH].
  apply Z.mod_pos_bound. reflexivity.
Qed.

Lemma low_bytes_nth n v i : (i < n)%nat -> nth i (low_bytes n v) 0 = (v / p8 i) mod 256.
Proof.
  revert v i. induction n as [|n IH]; intros v i Hi; [lia|]. cbn [low_bytes].
  destruct i as [|i]; cbn [nth]; [now rewrite bp_0, Z.div_1_r|].
  rewrite IH by lia. rewrite bp_S, Z.div_div by (pose proof (p8_pos i); lia). reflexivity.
Qed.

Lemma low_bytes_pos n v : positional 256 (low_bytes n v) = v mod p8 n.
Proof.
  rewrite (pos_digits 256 B8_ok _ v), low_bytes_length; [reflexivity|].
  intros i Hi. rewrite low_bytes_length in Hi. now apply low_bytes_nth.
Qed.

Lemma low_bytes_unsigned n v : 0 <= v < p8 n -> bytes_value true false (low_bytes n v) = v.
Proof. intros H. unfold bytes_value, le_order. rewrite low_bytes_pos. now apply Z.mod_small. Qed.

Lemma low_bytes_signed n v : cfits 256 n v -> bytes_value false false (low_bytes n v) = v.
Proof.
  intros H. unfold bytes_value, le_order. apply (complement_unique 256 B8_ok B8_even).
  - apply low_bytes_digits.
  - now rewrite low_bytes_length.
  - intros i Hi. rewrite low_bytes_length in Hi. now apply low_bytes_nth.
Qed.

Lemma p8_pow2 n : p8 n = 2 ^ (8 * Z.of_nat n).
Proof. unfold bp. change 256 with (2 ^ 8). rewrite <- Z.pow_mul_r by lia. reflexivity. Qed.

(** The number of bytes asked for: just enough for [|v|]. *)
Definition byte_need (v : Z) : nat := Z.to_nat ((py_num_bits v + 7) / 8).

Lemma byte_need_spec v : v <> 0 -> (1 <= byte_need v)%nat /\ p8 (byte_need v - 1) <= Z.abs v < p8 (byte_need v).
Proof.
  intros Hv. unfold byte_need, py_num_bits. destruct (Z.eqb_spec v 0) as [|_]; [contradiction|].
  pose proof (Z.log2_nonneg (Z.abs v)) as L0. pose proof (Z.log2_spec (Z.abs v) ltac:(lia)) as L.
  set (b := Z.log2 (Z.abs v)) in *. clearbody b. replace (b + 1 + 7) with (b + 1 * 8) by ring.
  rewrite Z.div_add by lia. pose proof (Z.div_mod b 8 ltac:(lia)) as D. pose proof (Z.mod_pos_bound b 8 ltac:(lia)) as M.
  set (q := b / 8) in *. set (r := b mod 8) in *. clearbody q r.
  split; [lia|]. rewrite !p8_pow2. split.
  - apply (Z.le_trans _ (2 ^ b)); [|lia]. apply Z.pow_le_mono_r; lia.
  - apply (Z.lt_le_trans _ (2 ^ Z.succ b)); [lia|]. apply Z.pow_le_mono_r; lia.
Qed.

Lemma byte_need_zero : byte_need 0 = O. Proof. reflexivity. Qed.

(** What the scan over the bytes of a negative number returns. *)
Lemma scan_down_spec buf hb n msb :
  (n < length buf)%nat ->
  exists r, scan_down buf hb n msb = Ret r /\
    ((r = msb /\ forall i, (1 <= i <= n)%nat -> nth i buf 0 = hb) \/
     exists i, (1 <= i <= n)%nat /\ r = nth i buf 0 /\ r <> hb /\ forall j, (i < j <= n)%nat -> nth j buf 0 = hb).
Proof.
  induction n as [|n IH]; intros Hn; cbn [scan_down].
  - exists msb. split; [reflexivity|]. left. split; [reflexivity|]. intros i Hi. lia.
  - unfold rd. rewrite (nth_error_nth' buf 0 Hn). cbn [bind].
    destruct (Z.eqb_spec (nth (S n) buf 0) hb) as [E|E]; cbn [negb].
    + destruct (IH ltac:(lia)) as (r & -> & H). exists r. split; [reflexivity|].
      destruct H as [(-> & H)|(i & Hi & -> & Hr & H)].
      * left. split; [reflexivity|]. intros i Hi. destruct (Nat.eq_dec i (S n)) as [->|]; [exact E|]. apply H. lia.
      * right. exists i. split; [lia|]. split; [reflexivity|]. split; [exact Hr|].
        intros j Hj. destruct (Nat.eq_dec j (S n)) as [->|]; [exact E|]. apply H. lia.
    + exists (nth (S n) buf 0). split; [reflexivity|]. right. exists (S n). split; [lia|].
      split; [reflexivity|]. split; [exact E|]. intros j Hj. lia.
Qed.

(** A negative number in one byte more than its magnitude needs. *)
Lemma neg_buffer v :
  v < 0 ->
  let k := byte_need v in let l := low_bytes k v in
  low_bytes (S k) v = l ++ [255] /\ cfits 256 (S k) v /\ positional 256 l = v + p8 k.
Proof.
  intros Hv k l. destruct (byte_need_spec v ltac:(lia)) as (Hk & B). fold k in Hk, B.
  rewrite (Z.abs_neq v) in B by lia.
  assert (positional 256 l = v + p8 k) as P.
  { unfold l. rewrite low_bytes_pos. symmetry. apply (Z.mod_unique_pos _ _ (-1)); lia. }
  split; [|split; [|exact P]].
  - apply (nth_ext _ _ 0 0).
    + rewrite app_length, low_bytes_length. unfold l. rewrite low_bytes_length. cbn [length]. lia.
    + intros i Hi. rewrite low_bytes_length in Hi. rewrite low_bytes_nth by exact Hi.
      destruct (Nat.eq_dec i k) as [->|N].
      * replace k with (length l) at 2 by apply low_bytes_length. rewrite nth_middle.
        replace (v / p8 k) with (-1); [reflexivity|]. apply (Z.div_unique_pos _ _ _ (v + p8 k)); lia.
      * rewrite app_nth1 by (unfold l; rewrite low_bytes_length; lia). unfold l. rewrite low_bytes_nth by lia. reflexivity.
  - unfold cfits. rewrite bp_S. lia.
Qed.

Lemma firstn_snoc (l : list Z) d : firstn (length (l ++ [d]) - 1) (l ++ [d]) = l.
Proof.
  rewrite app_length. cbn [length]. replace (length l + 1 - 1)%nat with (length l + 0)%nat by lia.
  rewrite firstn_app_2. cbn [firstn]. apply app_nil_r.
Qed.

(** The top bit of a byte. *)
Lemma top_bit_ne x : 0 <= x < 256 -> negb (Z.land x 128 =? Z.land 255 128) = (x <? 128).
Proof.
  intros H. pose proof (land128 x H) as L. change (Z.land 255 128) with 128.
  assert (Z.land x 128 = 0 \/ Z.land x 128 = 128) as D.
  { replace (Z.land x 128) with (Z.land x (2 ^ 7)) by reflexivity.
    destruct (Z.testbit x 7) eqn:T; [right|left]; apply Z.bits_inj'; intros n Hn;
      rewrite Z.land_spec, Z.pow2_bits_eqb by lia.
    - change 128 with (2 ^ 7). rewrite Z.pow2_bits_eqb by lia. destruct (Z.eqb_spec 7 n) as [<-|]; [now rewrite T|now rewrite andb_false_r].
    - rewrite Z.bits_0. destruct (Z.eqb_spec 7 n) as [<-|]; [now rewrite T|now rewrite andb_false_r]. }
  destruct D as [D|D]; rewrite D in *; cbn in L |- *; destruct (Z.ltb_spec x 128), (Z.leb_spec 128 x); try lia; discriminate.
Qed.

(** The buffer handed to the byte constructor for a negative number: [l] or [l ++ [255]]. *)
Lemma of_py_neg c v :
  v < 0 ->
  exists l, of_py c false v = bi_of_bytes c l false false /\ digits 256 l /\ bytes_value false false l = v /\
    (length l <= S (byte_need v))%nat /\
    (byte_need v = 4%nat -> - 2 ^ 31 <= v -> v <> - 2 ^ 24 -> length l = 4%nat).
Proof.
  intros Hv. destruct (neg_buffer v Hv) as (E & F & P). destruct (byte_need_spec v ltac:(lia)) as (Hk & B).
  unfold of_py, to_biginteger. destruct (Z.ltb_spec v 0) as [_|]; [|lia]. fold (byte_need v).
  set (k := byte_need v) in *. set (l := low_bytes k v) in *.
  assert (length l = k) as Hl by apply low_bytes_length.
  assert (digits 256 l) as Dl by apply low_bytes_digits.
  assert (digits 256 (l ++ [255])) as Db by (rewrite <- E; apply low_bytes_digits).
  unfold py_as_bytes. cbv zeta. pose proof (low_bytes_signed _ _ F) as SV. rewrite E in SV |- *.
  cbn [negb]. rewrite SV, Z.eqb_refl. cbn [negb].
  assert (length (l ++ [255]) = S k) as L1 by (rewrite app_length; cbn [length]; lia).
  rewrite L1. cbn [Nat.sub]. rewrite Nat.sub_0_r.
  destruct (scan_down_spec (l ++ [255]) 255 k (Z.of_nat k) ltac:(lia)) as (r & -> & H). cbn [bind].
  assert (nth k (l ++ [255]) 0 = 255) as N1 by (rewrite <- Hl; apply nth_middle).
  assert (forall i, (i < k)%nat -> nth i (l ++ [255]) 0 = nth i l 0) as N2 by (intros; apply app_nth1; lia).
  replace (firstn k (l ++ [255])) with l by (symmetry; rewrite <- (firstn_snoc l 255) at 2; f_equal; lia).
  assert (last l 0 = nth (k - 1) l 0) as La.
  { destruct (snoc_case l) as [El|(m & d & El)]; [apply (f_equal (@length Z)) in El; cbn [length] in El; lia|].
    rewrite El in Hl |- *. rewrite last_snoc. rewrite app_length in Hl. cbn [length] in Hl.
    replace (k - 1)%nat with (length m) by lia. symmetry. apply nth_middle. }
  assert (128 <= nth (k - 1) l 0 -> bytes_value false false l = v) as OK.
  { intros T. unfold bytes_value, le_order, complement. rewrite P, La.
    destruct (Z.leb_spec 256 (2 * nth (k - 1) l 0)); [|lia]. rewrite Hl. fold (p8 k). ring. }
  pose proof (bytes_nth l (k - 1) Dl) as Rk.
  assert (- 2 ^ 31 <= v -> v <> - 2 ^ 24 -> k = 4%nat -> 128 <= nth (k - 1) l 0 /\ nth (k - 1) l 0 <> 255) as T4.
  { intros V1 V2 K4. change (2 ^ 31) with 2147483648 in *. change (2 ^ 24) with 16777216 in *. rewrite K4 in *.
    change (p8 4) with 4294967296 in *. change (p8 (4 - 1)) with 16777216 in *. change (4 - 1)%nat with 3%nat in *.
    clear -P Hl Dl V1 V2 B Hv.
    destruct l as [|a0 [|a1 [|a2 [|a3 [|]]]]]; try discriminate Hl. cbn [positional nth] in *.
    inversion Dl as [|? ? D0 Dl1]; subst. inversion Dl1 as [|? ? D1 Dl2]; subst.
    inversion Dl2 as [|? ? D2 Dl3]; subst. inversion Dl3 as [|? ? D3 _]; subst. lia. }
  destruct H as [(-> & H)|(i & Hi & -> & Hr & H)].
  - destruct (Nat.eq_dec k 1) as [K1|K1].
    + exists (l ++ [255]). rewrite K1. split; [reflexivity|]. split; [exact Db|]. split; [exact SV|]. split; lia.
    + assert (nth (k - 1) l 0 = 255) as T by (rewrite <- N2 by lia; apply H; lia).
      destruct (negb _).
      * exists (l ++ [255]). split; [reflexivity|]. split; [exact Db|]. split; [exact SV|]. split; [lia|].
        intros K4 V1 V2. destruct (T4 V1 V2 K4). congruence.
      * exists l. split; [reflexivity|]. split; [exact Dl|]. split; [apply OK; lia|]. split; lia.
  - assert (i <> k) as Nk by congruence.
    rewrite N2 in * by lia.
    rewrite top_bit_ne by (now apply bytes_nth).
    destruct (Z.ltb_spec (nth i l 0) 128) as [T|T].
    + exists (l ++ [255]). split; [reflexivity|]. split; [exact Db|]. split; [exact SV|]. split; [lia|].
      intros K4 V1 V2. destruct (T4 V1 V2 K4) as (A & A').
      destruct (Nat.eq_dec i (k - 1)) as [->|]; [lia|].
      specialize (H (k - 1)%nat ltac:(lia)). rewrite N2 in H by lia. congruence.
    + exists l. split; [reflexivity|]. split; [exact Dl|]. split; [|split; lia].
      apply OK. destruct (Nat.eq_dec i (k - 1)) as [->|]; [lia|].
      specialize (H (k - 1)%nat ltac:(lia)). rewrite N2 in H by lia. lia.
Qed.

Lemma of_py_returns c z v :
  (z = true -> v = 0) -> strict c = false \/ 0 <= v \/ v < - 2 ^ 31 -> returns (of_py c z v) v.
Proof.
  intros Hz Hs. destruct z.
  - rewrite (Hz eq_refl). unfold of_py, to_biginteger. apply returns_wp. apply bi_zero_spec.
  - destruct (Z.lt_ge_cases v 0) as [N|N].
    + destruct (of_py_neg c v N) as (l & -> & D & E & _). apply (returns_eq _ _ _) with (2 := E). apply of_bytes_returns; [exact D|]. rewrite E.
      destruct Hs as [Hs|[Hs|Hs]]; [now left|lia|right; right].
      apply (complement_needs 256 B8_ok B8_even 4 l v); [|exact D|exact E].
      unfold cfits. change (p8 4) with 4294967296. change (2 ^ 31) with 2147483648 in Hs. lia.
    + unfold of_py, to_biginteger. destruct (Z.ltb_spec v 0); [lia|]. fold (byte_need v).
      assert (0 <= v < p8 (byte_need v)) as B.
      { destruct (Z.eq_dec v 0) as [->|]; [rewrite byte_need_zero, bp_0; lia|].
        destruct (byte_need_spec v ltac:(assumption)). lia. }
      pose proof (low_bytes_unsigned _ _ B) as S. unfold py_as_bytes. cbv zeta. cbn [negb]. rewrite S, Z.eqb_refl.
      apply (returns_eq _ _ _) with (2 := S). apply of_bytes_returns; [apply low_bytes_digits|]. right. left. rewrite S. lia.
Qed.

Lemma of_py_strict c v :
  strict c = true -> - 2 ^ 31 <= v < 0 -> v <> - 2 ^ 24 -> of_py c false v = Undef ShiftNegative.
Proof.
  intros Hs Hv Hn. destruct (of_py_neg c v ltac:(lia)) as (l & -> & D & E & L1 & L2).
  apply of_bytes_strict; [exact D|exact Hs|lia|].
  destruct (byte_need_spec v ltac:(lia)) as (Hk & B). change (2 ^ 31) with 2147483648 in *.
  destruct (Nat.lt_ge_cases (byte_need v) 4) as [K|K]; [lia|].
  destruct (Nat.eq_dec (byte_need v) 4) as [K4|K4]; [rewrite L2; lia|exfalso].
  pose proof (bp_le 256 B8_ok 4 (byte_need v - 1) ltac:(lia)) as Q. change (p8 4) with 4294967296 in Q. lia.
Qed.

Lemma to_py_returns c a x : represents a x -> to_py c a = Ret x.
Proof.
  intros Ha. destruct (to_bytes_returns c a x false false Ha) as (l & E & _ & V & _); [discriminate|].
  unfold to_py, to_py_int. cbn [negb]. rewrite E. cbn [bind]. unfold py_from_bytes. cbn [negb]. now rewrite V.
Qed.

Lemma to_py_int_returns c a x s be :
  represents a x -> (s = false -> 0 <= x) -> to_py_int c a s be = Ret x.
Proof.
  intros Ha Hs. destruct (to_bytes_returns c a x (negb s) be Ha) as (l & E & _ & V & _);
    [destruct s; [discriminate|now intros _; apply Hs]|].
  unfold to_py_int. rewrite E. cbn [bind]. unfold py_from_bytes. now rewrite V.
Qed.

Lemma py_round_trip c z v :
  (z = true -> v = 0) -> strict c = false \/ 0 <= v \/ v < - 2 ^ 31 -> (b <- of_py c z v ;; to_py c b) = Ret v.
Proof. intros Hz Hs. destruct (of_py_returns c z v Hz Hs) as (b & -> & H). cbn [bind]. now apply to_py_returns. Qed.

(** Buffers. *)
Lemma copy_range_spec m p n :
  0 <= p -> p + Z.of_nat n <= Z.of_nat (length m) ->
  copy_range m p n = Ret (map (fun i => nth (Z.to_nat (p + Z.of_nat i)) m 0) (seq 0 n)).
Proof.
  revert p. induction n as [|n IH]; intros p H1 H2; [reflexivity|]. cbn [copy_range seq map].
  unfold rdz. destruct (Z.ltb_spec p 0); [lia|]. unfold rd.
  rewrite (nth_error_nth' m 0) by lia. cbn [bind]. rewrite IH by lia. cbn [bind].
  f_equal. f_equal; [f_equal; lia|]. rewrite <- seq_shift, map_map. apply map_ext. intros i. f_equal. lia.
Qed.

Lemma copy_range_oob m p n :
  Z.of_nat (length m) < p + Z.of_nat n -> (0 < n)%nat -> copy_range m p n = Undef OutOfBounds.
Proof.
  revert p. induction n as [|n IH]; intros p H Hn; [lia|]. cbn [copy_range].
  unfold rdz. destruct (Z.ltb_spec p 0); [reflexivity|]. unfold rd.
  destruct (Z.lt_ge_cases p (Z.of_nat (length m))) as [L|L].
  - rewrite (nth_error_nth' m 0) by lia. cbn [bind]. rewrite IH by lia. reflexivity.
  - replace (nth_error m (Z.to_nat p)) with (@None Z); [reflexivity|]. symmetry. apply nth_error_None. lia.
Qed.

Lemma nth_digits m i : digits 256 m -> 0 <= nth i m 0 < 256.
Proof. apply bytes_nth. Qed.

Lemma exposed_digits b : digits 256 (mem b) -> digits 256 (exposed b).
Proof. intros H. unfold exposed. apply Forall_forall. intros x Hx. apply in_map_iff in Hx. destruct Hx as (i & <- & _). now apply bytes_nth. Qed.

Lemma exposed_length b : length (exposed b) = size b.
Proof. unfold exposed. now rewrite map_length, seq_length. Qed.

Lemma buffer_returns c b :
  buffer_ok b -> stride b = 1 \/ (size b <= 1)%nat ->
  strict c = false \/ 0 <= bytes_value false false (exposed b) \/ (4 < size b)%nat ->
  returns (py_init_buffer c b) (bytes_value false false (exposed b)).
Proof.
  intros (Hd & Hb) Hs Hc. unfold py_init_buffer.
  assert (copy_range (mem b) (ptr b) (size b) = Ret (exposed b)) as ->.
  { destruct (size b) as [|n] eqn:En; [unfold exposed; rewrite En; reflexivity|].
    pose proof (Hb O ltac:(lia)) as B0. pose proof (Hb n ltac:(lia)) as Bn.
    assert (Z.of_nat n * stride b = Z.of_nat n) as Es by (destruct Hs as [->|Hs]; [lia|replace n with O by lia; reflexivity]).
    rewrite copy_range_spec by lia. f_equal. unfold exposed. rewrite En. apply map_ext_in. intros i Hi.
    apply in_seq in Hi. f_equal. f_equal. f_equal. destruct Hs as [->|Hs]; [lia|]. replace i with O by lia. reflexivity. }
  cbn [bind]. apply of_bytes_returns; [now apply exposed_digits|]. now rewrite exposed_length.
Qed.

Lemma buffer_oob c b :
  (0 < size b)%nat -> Z.of_nat (length (mem b)) < ptr b + Z.of_nat (size b) ->
  py_init_buffer c b = Undef OutOfBounds.
Proof. intros H1 H2. unfold py_init_buffer. rewrite copy_range_oob by assumption. reflexivity. Qed.

Lemma reversed_ok m : digits 256 m -> buffer_ok (Buffer m (Z.of_nat (length m) - 1) (length m) (-1)).
Proof. intros H. split; [exact H|]. cbn [mem ptr size stride]. intros i Hi. lia. Qed.

Lemma buffer_reversed c m :
  digits 256 m -> (2 <= length m)%nat ->
  let b := Buffer m (Z.of_nat (length m) - 1) (length m) (-1) in
  buffer_ok b /\ exposed b = rev m /\ py_init_buffer c b = Undef OutOfBounds.
Proof.
  intros Hm Hl b. split; [now apply reversed_ok|]. split.
  - apply (nth_ext _ _ 0 0); [now rewrite exposed_length, rev_length|]. intros i Hi. rewrite exposed_length in Hi.
    cbn [size b] in Hi. rewrite rev_nth by exact Hi. unfold exposed. cbn [ptr stride size mem b].
    set (f := fun i => nth (Z.to_nat (Z.of_nat (length m) - 1 + Z.of_nat i * -1)) m 0).
    rewrite (nth_indep _ 0 (f O)) by now rewrite map_length, seq_length.
    rewrite map_nth, seq_nth by exact Hi. unfold f. f_equal. lia.
  - apply buffer_oob; cbn [size mem ptr b]; lia.
Qed.

(** Operators with an int operand. *)
Lemma of_py_arg c z v : py_arg c z v -> returns (of_py c z v) v.
Proof. intros (H1 & H2). now apply of_py_returns. Qed.

Lemma compare_int c z v a x :
  represents a x -> py_arg c z v ->
  py_lt_int c z a v = Ret (x <? v) /\ py_le_int c z a v = Ret (x <=? v) /\ py_eq_int c z a v = Ret (x =? v) /\
  py_gt_int c z a v = Ret (v <? x) /\ py_ge_int c z a v = Ret (v <=? x).
Proof.
  intros Ha Hv. unfold py_lt_int, py_le_int, py_eq_int, py_gt_int, py_ge_int.
  destruct (of_py_arg c z v Hv) as (b & -> & Hb). cbn [bind].
  destruct (order_calls c a b x v Ha Hb) as (A & B & C & D & _). destruct (equal_calls c a b x v Ha Hb) as (E & _).
  now rewrite A, B, C, D, E.
Qed.

Lemma arith_int c z v a x :
  represents a x -> py_arg c z v ->
  returns (py_add_int c z a v) (x + v) /\ returns (py_sub_int c z a v) (x - v) /\
  returns (py_mul_int c z a v) (x * v) /\ returns (py_and_int c z a v) (Z.land x v) /\
  returns (py_or_int c z a v) (Z.lor x v) /\ returns (py_xor_int c z a v) (Z.lxor x v).
Proof.
  intros Ha Hv. unfold py_add_int, py_sub_int, py_mul_int, py_and_int, py_or_int, py_xor_int.
  destruct (of_py_arg c z v Hv) as (b & -> & Hb). cbn [bind].
  destruct (WordFacts.bitwise_family c a b x v Ha Hb) as (A & B & C & _).
  split; [rewrite Z.add_comm; now apply add_returns|]. split; [now apply sub_returns|].
  split; [now apply mul_returns|]. auto.
Qed.

Lemma to_py_bind c o r : returns o r -> (b <- o ;; to_py c b) = Ret r.
Proof. intros (b & -> & H). cbn [bind]. now apply to_py_returns. Qed.

Lemma arith_reflected c z v a x :
  represents a x -> py_arg c z v ->
  py_radd c z a v = Ret (v + x) /\ py_rsub c z a v = Ret (v - x) /\ py_rmul c z a v = Ret (v * x) /\
  py_rand c z a v = Ret (Z.land v x) /\ py_ror c z a v = Ret (Z.lor v x) /\ py_rxor c z a v = Ret (Z.lxor v x).
Proof.
  intros Ha Hv. unfold py_radd, py_rsub, py_rmul, py_rand, py_ror, py_rxor.
  destruct (of_py_arg c z v Hv) as (b & -> & Hb). cbn [bind].
  destruct (WordFacts.bitwise_family c a b x v Ha Hb) as (A & B & C & _).
  rewrite (Z.land_comm v), (Z.lor_comm v), (Z.lxor_comm v), (Z.add_comm v).
  split; [now apply to_py_bind, add_returns|]. split; [now apply to_py_bind, sub_returns|].
  split; [now apply to_py_bind, mul_returns|]. split; [now apply to_py_bind|]. split; now apply to_py_bind.
Qed.

Lemma div_int c z v a x :
  represents a x -> py_arg c z v -> v <> 0 ->
  returns (py_floordiv_int c z a v) (Z.quot x v) /\ returns (py_truediv_int c z a v) (Z.quot x v) /\
  returns (py_mod_int c z a v) (Z.rem x v).
Proof.
  intros Ha Hv H0. unfold py_floordiv_int, py_truediv_int, py_mod_int.
  destruct (of_py_arg c z v Hv) as (b & -> & Hb). cbn [bind].
  split; [now apply div_returns|]. split; [now apply div_returns|now apply rem_returns].
Qed.

Lemma div_reflected c z v a x :
  represents a x -> py_arg c z v -> x <> 0 ->
  py_rfloordiv c z a v = Ret (Z.quot v x) /\ py_rtruediv c z a v = Ret (Z.quot v x) /\
  py_rmod c z a v = Ret (Z.rem v x).
Proof.
  intros Ha Hv H0. unfold py_rfloordiv, py_rtruediv, py_rmod.
  destruct (of_py_arg c z v Hv) as (b & -> & Hb). cbn [bind].
  split; [now apply to_py_bind, div_returns|]. split; [now apply to_py_bind, div_returns|now apply to_py_bind, rem_returns].
Qed.

(** Truncation against floor. *)
Lemma quot_floor x y :
  y <> 0 ->
  (Z.rem x y = 0 \/ Z.sgn x = Z.sgn y -> Z.quot x y = x / y /\ Z.rem x y = x mod y) /\
  (Z.rem x y <> 0 -> Z.sgn x <> Z.sgn y -> Z.quot x y = x / y + 1 /\ Z.rem x y = x mod y - y).
Proof.
  intros Hy. pose proof (Z.quot_rem' x y) as D. pose proof (Z.rem_bound_abs x y Hy) as B.
  pose proof (Z.rem_sign_nz x y Hy) as Sg.
  set (q := Z.quot x y) in *. set (r := Z.rem x y) in *. clearbody q r.
  split.
  - intros H. assert (0 <= r < y \/ y < r <= 0) as R by (destruct (Z.eq_dec r 0); [lia|]; destruct H as [H|H]; [lia|]; specialize (Sg ltac:(assumption)); lia).
    split; [apply (Z.div_unique _ _ _ r)|apply (Z.mod_unique _ _ q)]; auto; lia.
  - intros Hr Hs. specialize (Sg Hr).
    assert (0 <= r + y < y \/ y < r + y <= 0) as R by lia.
    assert (x = y * (q - 1) + (r + y)) as D' by (rewrite D; ring).
    pose proof (Z.div_unique _ _ _ _ R D') as E1. pose proof (Z.mod_unique _ _ _ _ R D') as E2. lia.
Qed.

(** Hash. *)
Lemma py_hash_equal c a b x :
  represents a x -> represents b x -> exists h, py_hash c a = Ret h /\ py_hash c b = Ret h.
Proof.
  intros Ha Hb. destruct (hash_call c a b x Ha Hb) as (h & E1 & E2 & _). unfold py_hash, py_hash_raw.
  rewrite E1, E2. cbn [bind]. destruct (chk64 c _) eqn:E; try (unfold chk64 in E; cbn in E; discriminate).
  eexists. split; reflexivity.
Qed.

Lemma hash_const c : chk64 c (2166136261 * 16777619) = Ret 36342608889142559.
Proof. reflexivity. Qed.

Lemma py_hash_small c a v :
  represents a v -> - 2 ^ 31 < v < 2 ^ 31 -> exists h, py_hash c a = Ret h /\ h <> py_int_hash v.
Proof.
  intros Ha Hv. unfold py_hash, py_hash_raw, bi_hash.
  pose proof Ha as Hp. apply repr_parts in Hp. destruct a as [s l]. inv_parts Hp.
  - cbn [is_nil bits_of sign_of bind]. rewrite hash_const. cbn [bind]. eexists. split; [reflexivity|].
    assert (forall w, - 2 ^ 32 <= w < 2 ^ 32 -> Z.shiftr w 32 = 0 \/ Z.shiftr w 32 = -1) as Sm.
    { intros w Hw. rewrite Z.shiftr_div_pow2 by lia. change (2 ^ 32) with 4294967296 in *.
      destruct (Z.lt_ge_cases w 0); [right|left].
      - symmetry. apply (Z.div_unique_pos _ _ _ (w + 4294967296)); lia.
      - apply Z.div_small. lia. }
    set (k := Z.lxor 36342608889142559 v).
    assert (~ - 2 ^ 32 <= k < 2 ^ 32) as Nk.
    { intros C. apply Sm in C. unfold k in C. rewrite Z.shiftr_lxor in C.
      change (Z.shiftr 36342608889142559 32) with 8461673 in C.
      destruct (Sm v) as [E|E]; [change (2 ^ 32) with 4294967296; change (2 ^ 31) with 2147483648 in Hv; lia| |]; rewrite E in C; vm_compute in C; destruct C; discriminate. }
    unfold py_slot_hash. change (2 ^ 32) with 4294967296 in Nk. change (2 ^ 31) with 2147483648 in Hv. destruct (Z.eqb_spec k (-1)); [lia|].
    unfold py_int_hash. rewrite (Z.mod_small (Z.abs v)) by (change (2 ^ 61 - 1) with 2305843009213693951; lia).
    rewrite Z.mul_comm, Z.abs_sgn. cbv zeta. destruct (Z.eqb_spec v (-1)); lia.
  - exfalso. change (2 ^ 31) with 2147483648 in Hv. num. destruct Hs as [->| ->]; lia.
Qed.

(** Counts and exponents. *)
Lemma cast_int_spec v :
  (- 2 ^ 31 <= v < 2 ^ 31 -> cast_int v = Ret v) /\ (~ - 2 ^ 31 <= v < 2 ^ 31 -> cast_int v = Throw CastError).
Proof.
  change (2 ^ 31) with 2147483648. unfold cast_int, INT_MIN, INT_MAX.
  destruct (Z.leb_spec (-2147483648) v), (Z.leb_spec v 2147483647); cbn [andb]; split; intros; try reflexivity; lia.
Qed.

Lemma to_int_in c s n : represents s n -> - 2 ^ 31 < n < 2 ^ 31 -> bi_to_int c s = Ret n.
Proof.
  intros Hs Hn. rewrite (ConvFacts.bi_to_int_spec c s n Hs ltac:(right; lia)). unfold in_range.
  destruct (Z.leb_spec (- 2 ^ 31) n), (Z.ltb_spec n (2 ^ 31)); try lia. reflexivity.
Qed.

Lemma to_int_out c s n : represents s n -> n < - 2 ^ 31 \/ 2 ^ 31 <= n -> bi_to_int c s = Throw OverflowError.
Proof.
  intros Hs Hn. rewrite (ConvFacts.bi_to_int_spec c s n Hs ltac:(right; lia)). unfold in_range.
  destruct (Z.leb_spec (- 2 ^ 31) n), (Z.ltb_spec n (2 ^ 31)); try lia; reflexivity.
Qed.

Lemma lshift_family c a s x n :
  represents a x -> represents s n ->
  (0 <= n < 2 ^ 31 ->
     returns (py_lshift c a s) (x * 2 ^ n) /\ returns (py_lshift_int c a n) (x * 2 ^ n) /\
     forall z v, py_arg c z v -> py_rlshift c z s v = Ret (v * 2 ^ n)) /\
  (n < - 2 ^ 31 \/ 2 ^ 31 <= n -> py_lshift c a s = Throw OverflowError /\ py_lshift_int c a n = Throw CastError).
Proof.
  intros Ha Hs. unfold py_lshift, py_lshift_int. destruct (cast_int_spec n) as (C1 & C2). split; intros Hn.
  - rewrite (to_int_in c s n Hs ltac:(lia)), C1 by lia. cbn [bind].
    assert (0 <= n <= INT_MAX) as Hn' by (num; change (2 ^ 31) with 2147483648 in Hn; lia).
    split; [now apply ShiftFacts.bi_shl_exact|]. split; [now apply ShiftFacts.bi_shl_exact|].
    intros z v Hv. unfold py_rlshift. destruct (of_py_arg c z v Hv) as (b & -> & Hb). cbn [bind].
    rewrite (to_int_in c s n Hs ltac:(lia)). cbn [bind]. now apply to_py_bind, ShiftFacts.bi_shl_exact.
  - rewrite (to_int_out c s n Hs Hn), C2 by lia. split; reflexivity.
Qed.

Lemma rshift_family c a s x n :
  represents a x -> represents s n ->
  (0 <= n < 2 ^ 31 ->
     ((x < 0 -> fits_limbs x (2 ^ 26 - 1)) -> ~ shr_bad x n ->
        returns (py_rshift c a s) (x / 2 ^ n) /\ returns (py_rshift_int c a n) (x / 2 ^ n)) /\
     forall z v, py_arg c z v -> (v < 0 -> fits_limbs v (2 ^ 26 - 1)) -> ~ shr_bad v n ->
       py_rrshift c z s v = Ret (v / 2 ^ n)) /\
  (n < - 2 ^ 31 \/ 2 ^ 31 <= n -> py_rshift c a s = Throw OverflowError /\ py_rshift_int c a n = Throw CastError).
Proof.
  intros Ha Hs. unfold py_rshift, py_rshift_int. destruct (cast_int_spec n) as (C1 & C2). split; intros Hn.
  - rewrite (to_int_in c s n Hs ltac:(lia)), C1 by lia. cbn [bind].
    assert (0 <= n <= INT_MAX) as Hn' by (num; change (2 ^ 31) with 2147483648 in Hn; lia).
    split; [intros Hf Hb; split; now apply ShiftFacts.bi_shr_floor|].
    intros z v Hv Hf Hbad. unfold py_rrshift. destruct (of_py_arg c z v Hv) as (b & -> & Hb). cbn [bind].
    rewrite (to_int_in c s n Hs ltac:(lia)). cbn [bind]. now apply to_py_bind, ShiftFacts.bi_shr_floor.
  - rewrite (to_int_out c s n Hs Hn), C2 by lia. split; reflexivity.
Qed.

Lemma pow_family c a s x e n :
  represents a x -> represents s e -> limb_count x n ->
  (0 <= e < 2 ^ 31 -> Z.abs x <= 1 \/ e <= 1 \/ n * e + 1 < 2 ^ 31 - 1 ->
     returns (py_pow c a s) (x ^ e) /\ returns (py_pow_int c a e) (x ^ e)) /\
  (- 2 ^ 31 < e < 0 -> py_pow c a s = Throw OutOfRange /\ py_pow_int c a e = Throw OutOfRange) /\
  (e < - 2 ^ 31 \/ 2 ^ 31 <= e -> py_pow c a s = Throw OverflowError /\ py_pow_int c a e = Throw OverflowError).
Proof.
  intros Ha Hs Hn. unfold py_pow, py_pow_int. destruct (cast_int_spec e) as (C1 & C2). split; [|split]; intros He.
  - intros Hc. rewrite (to_int_in c s e Hs ltac:(lia)), C1 by lia. cbn [bind]. split; eapply PowLaws.pow_exact; eauto.
  - rewrite (to_int_in c s e Hs ltac:(lia)), C1 by lia. cbn [bind]. split; eapply PowLaws.pow_negative; eauto; lia.
  - rewrite (to_int_out c s e Hs He), C2 by lia. split; reflexivity.
Qed.

Lemma rpow_returns c z v s e n :
  py_arg c z v -> represents s e -> limb_count v n -> 0 <= e < 2 ^ 31 ->
  Z.abs v <= 1 \/ e <= 1 \/ n * e + 1 < 2 ^ 31 - 1 -> py_rpow c z s v = Ret (v ^ e).
Proof.
  intros Hv Hs Hn He Hc. unfold py_rpow. destruct (of_py_arg c z v Hv) as (b & -> & Hb). cbn [bind].
  rewrite (to_int_in c s e Hs ltac:(lia)). cbn [bind]. apply to_py_bind. eapply PowLaws.pow_exact; eauto.
Qed.

(** divmod. *)
Lemma divmod_int c z v a x :
  represents a x -> py_arg c z v -> v <> 0 ->
  ~ (x <= - 2 ^ 31 /\ - 2 ^ 31 < v < 2 ^ 31 /\ Z.rem x v <> 0) ->
  exists q r, py_divmod_int c z a v = Ret (q, r) /\ represents q (Z.quot x v) /\ represents r (Z.rem x v).
Proof.
  intros Ha Hv H0 Hn. unfold py_divmod_int. destruct (of_py_arg c z v Hv) as (b & -> & Hb). cbn [bind].
  now apply div_rem_call.
Qed.

Lemma divmod_int_bad c z v a x :
  represents a x -> py_arg c z v -> v <> 0 ->
  x <= - 2 ^ 31 -> - 2 ^ 31 < v < 2 ^ 31 -> Z.rem x v <> 0 ->
  exists q r, py_divmod_int c z a v = Ret (q, r) /\ represents q (Z.quot x v) /\
              represents r (2 ^ 32 + Z.rem x v) /\ ~ represents r (Z.rem x v).
Proof.
  intros Ha Hv H0 H1 H2 H3. unfold py_divmod_int. destruct (of_py_arg c z v Hv) as (b & -> & Hb). cbn [bind].
  now apply div_rem_bad_call.
Qed.

Lemma div_zero_int c z v a x :
  represents a x -> py_arg c z v ->
  (v = 0 -> py_floordiv_int c z a v = Throw DivideByZero /\ py_truediv_int c z a v = Throw DivideByZero /\
            py_mod_int c z a v = Throw DivideByZero /\ py_divmod_int c z a v = Throw DivideByZero) /\
  (x = 0 -> py_rfloordiv c z a v = Throw DivideByZero /\ py_rtruediv c z a v = Throw DivideByZero /\
            py_rmod c z a v = Throw DivideByZero /\ py_rdivmod_str c z a v = Throw DivideByZero).
Proof.
  intros Ha Hv. unfold py_floordiv_int, py_truediv_int, py_mod_int, py_divmod_int, py_rfloordiv, py_rtruediv, py_rmod, py_rdivmod_str.
  destruct (of_py_arg c z v Hv) as (b & -> & Hb). cbn [bind]. split; intros ->.
  - destruct (div_zero_calls c a b x Ha Hb) as (A & B & C). now rewrite A, B, C.
  - destruct (div_zero_calls c b a v Hb Ha) as (A & B & C). now rewrite A, B, C.
Qed.

Lemma rdivmod_returns c z v a x n m :
  represents a x -> py_arg c z v -> x <> 0 ->
  ~ (v <= - 2 ^ 31 /\ - 2 ^ 31 < x < 2 ^ 31 /\ Z.rem v x <> 0) ->
  limb_count (Z.quot v x) n -> n <= 214748364 -> ~ sign_hits (Z.quot v x) ->
  limb_count (Z.rem v x) m -> m <= 214748364 -> ~ sign_hits (Z.rem v x) ->
  exists s t, py_rdivmod_str c z a v = Ret (s, t) /\ numeral s (Z.quot v x) /\ numeral t (Z.rem v x).
Proof.
  intros Ha Hv H0 Hn L1 B1 S1 L2 B2 S2. unfold py_rdivmod_str. destruct (of_py_arg c z v Hv) as (b & -> & Hb). cbn [bind].
  destruct (div_rem_call c b a v x Hb Ha H0 Hn) as (q & r & -> & Hq & Hr). cbn [bind fst snd].
  destruct (TextFacts.to_string_ok c q _ n Hq L1 B1 S1) as (s & -> & Ns). cbn [bind].
  destruct (TextFacts.to_string_ok c r _ m Hr L2 B2 S2) as (t & -> & Nt). cbn [bind]. eauto.
Qed.

Lemma rdivmod_oob c z v a x n :
  represents a x -> py_arg c z v -> x <> 0 ->
  limb_count (Z.quot v x) n -> n <= 214748364 -> sign_hits (Z.quot v x) ->
  py_rdivmod_str c z a v = Undef OutOfBounds.
Proof.
  intros Ha Hv H0 L1 B1 S1. unfold py_rdivmod_str. destruct (of_py_arg c z v Hv) as (b & -> & Hb). cbn [bind].
  destruct (wp_inv _ _ (bi_div_rem_spec c b a v x Hb Ha H0)) as ((q & r) & -> & A & _). cbn [bind fst snd] in *.
  now rewrite (TextFacts.to_string_oob c q _ n A L1 B1 S1).
Qed.

Lemma floor_agree c z v a x :
  represents a x -> py_arg c z v -> v <> 0 -> Z.rem x v = 0 \/ Z.sgn x = Z.sgn v ->
  returns (py_floordiv_int c z a v) (py_floordiv x v) /\ returns (py_mod_int c z a v) (py_mod x v).
Proof.
  intros Ha Hv H0 H. destruct (div_int c z v a x Ha Hv H0) as (A & _ & B). destruct (quot_floor x v H0) as (Q & _).
  destruct (Q H) as (E1 & E2). unfold py_floordiv, py_mod. now rewrite <- E1, <- E2.
Qed.

Lemma floor_differ c z v a x :
  represents a x -> py_arg c z v -> v <> 0 -> Z.rem x v <> 0 -> Z.sgn x <> Z.sgn v ->
  returns (py_floordiv_int c z a v) (py_floordiv x v + 1) /\ returns (py_mod_int c z a v) (py_mod x v - v).
Proof.
  intros Ha Hv H0 H1 H2. destruct (div_int c z v a x Ha Hv H0) as (A & _ & B). destruct (quot_floor x v H0) as (_ & Q).
  destruct (Q H1 H2) as (E1 & E2). unfold py_floordiv, py_mod. now rewrite <- E1, <- E2.
Qed.
