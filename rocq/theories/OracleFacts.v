(** The tests' byte arithmetic is exact: addition, negation, trimming, one-bit
    shifts, bit access. *)
From Verif Require Import Facts SpecPos PosFacts BytesFacts BigInt BigIntBytes TestOracle.

Ltac Zify.zify_post_hook ::= idtac.

Notation pv := (positional 256).
Notation cv := (complement 256).

(** [l] is a non-empty byte string encoding [x]. *)
Definition enc (l : list Z) (x : Z) : Prop := digits 256 l /\ l <> [] /\ cv l = x.

Lemma p8_0 : p8 0 = 1. Proof. reflexivity. Qed.
Lemma p8_S n : p8 (S n) = 256 * p8 n. Proof. apply bp_S. Qed.

Lemma p8_half n : (0 < n)%nat -> exists h, p8 n = 2 * h /\ 0 < h.
Proof. intros H. destruct n as [|n]; [lia|]. apply bp_even; [exact B8_ok|reflexivity]. Qed.

Lemma ne_length {A} (l : list A) : l <> [] <-> (0 < length l)%nat.
Proof. destruct l; cbn [length]; split; intros; try lia; try discriminate; congruence. Qed.

Lemma enc_range l x : enc l x -> - p8 (length l) <= 2 * x < p8 (length l).
Proof. intros (D & _ & <-). exact (complement_range 256 B8_ok B8_even l D). Qed.

Lemma enc_sign l x : enc l x -> (x < 0 <-> 128 <= last l 0).
Proof. intros (D & _ & <-). rewrite (complement_sign 256 B8_ok l D). lia. Qed.

Lemma enc_pv l x : enc l x -> pv l = if x <? 0 then x + p8 (length l) else x.
Proof.
  intros E. pose proof (enc_sign l x E) as S. destruct E as (D & _ & E). revert E. unfold complement.
  fold (p8 (length l)). destruct (Z.ltb_spec x 0), (Z.leb_spec 256 (2 * last l 0)); lia.
Qed.

Lemma pv_bound l : digits 256 l -> 0 <= pv l < p8 (length l).
Proof. apply pos_bound. exact B8_ok. Qed.

Lemma last_nth (l : list Z) : last l 0 = nth (length l - 1) l 0.
Proof.
  destruct (snoc_case l) as [->|(m & d & ->)]; [reflexivity|].
  rewrite last_snoc, app_length. cbn [length]. replace (length m + 1 - 1)%nat with (length m) by lia.
  rewrite app_nth2 by lia. now rewrite Nat.sub_diag.
Qed.

(** Recognising an encoding by its value modulo 256^n. *)
Lemma cv_mod l : digits 256 l -> exists k, cv l = pv l + k * p8 (length l).
Proof.
  intros D. unfold complement. fold (p8 (length l)).
  destruct (256 <=? 2 * last l 0); [exists (-1)|exists 0]; lia.
Qed.

Lemma mult_zero B k a : 0 < B -> - B < a < B -> a = k * B -> k = 0.
Proof.
  intros HB Ha E. destruct (Z.lt_trichotomy k 0) as [L|[L|L]]; [|exact L|]; exfalso.
  - assert (k * B <= -1 * B) by (apply Z.mul_le_mono_nonneg_r; lia). lia.
  - assert (1 * B <= k * B) by (apply Z.mul_le_mono_nonneg_r; lia). lia.
Qed.

Lemma enc_mod l x k : digits 256 l -> l <> [] -> - p8 (length l) <= 2 * x < p8 (length l) ->
  pv l = x + k * p8 (length l) -> enc l x.
Proof.
  intros D N R E. split; [exact D|]. split; [exact N|].
  destruct (cv_mod l D) as (j & Ej). pose proof (complement_range 256 B8_ok B8_even l D) as C. unfold cfits in C.
  pose proof (p8_pos (length l)) as P.
  assert (j + k = 0) as Z0.
  { apply (mult_zero (p8 (length l)) _ (cv l - x)); lia. }
  rewrite E in Ej. assert (cv l = x + (j + k) * p8 (length l)) as -> by lia. rewrite Z0. lia.
Qed.

Lemma pv_snoc l d : pv (l ++ [d]) = pv l + p8 (length l) * d.
Proof. rewrite pos_app. cbn [positional]. lia. Qed.

Lemma pv_firstn_S l i : (i < length l)%nat -> pv (firstn (S i) l) = pv (firstn i l) + p8 i * nth i l 0.
Proof.
  intros H. assert (firstn (S i) l = firstn i l ++ [nth i l 0]) as ->.
  { revert i H. induction l as [|x l IH]; intros i H; cbn [length] in H; [lia|].
    destruct i as [|i]; [reflexivity|]. cbn [firstn app nth]. f_equal. apply IH. lia. }
  rewrite pv_snoc, firstn_length, Nat.min_l by lia. reflexivity.
Qed.

Lemma digits_nth l i : digits 256 l -> 0 <= nth i l 0 < 256.
Proof. intros D. now apply bytes_nth. Qed.

Lemma digits_snoc l d : digits 256 l -> 0 <= d < 256 -> digits 256 (l ++ [d]).
Proof. intros. apply digits_app. split; [assumption|]. constructor; [assumption|constructor]. Qed.

Lemma snoc_ne (l : list Z) d : l ++ [d] <> [].
Proof. now destruct l. Qed.

Lemma snoc_len (l : list Z) d : length (l ++ [d]) = S (length l).
Proof. rewrite app_length. cbn [length]. lia. Qed.

(** The sign test. *)
Lemma top_set_digits l : digits 256 l -> l <> [] -> wp (top_set l) (fun b => b = (128 <=? last l 0)).
Proof.
  intros D N. unfold top_set. apply ne_length in N. apply wp_bind, wp_rd; [lia|]. apply wp_ret.
  rewrite land128 by (now apply digits_nth). now rewrite last_nth.
Qed.

Lemma top_set_spec l x : enc l x -> wp (top_set l) (fun b => b = (x <? 0)).
Proof.
  intros E. eapply wp_mono; [apply top_set_digits; apply E|]. intros b ->.
  pose proof (enc_sign l x E). destruct (Z.leb_spec 128 (last l 0)), (Z.ltb_spec x 0); lia || reflexivity.
Qed.

(** Sign extension and its inverse. *)
Definition fill_byte (x : Z) : Z := if x <? 0 then 255 else 0.

Lemma fill_digit x : 0 <= fill_byte x < 256.
Proof. unfold fill_byte. destruct (x <? 0); lia. Qed.

Lemma enc_ext l x : enc l x -> enc (l ++ [fill_byte x]) x.
Proof.
  intros E. pose proof (enc_pv l x E) as P. pose proof (enc_range l x E) as R. destruct E as (D & N & _).
  pose proof (p8_pos (length l)) as Q.
  apply (enc_mod _ x (if x <? 0 then 1 else 0)); [apply digits_snoc; [exact D|apply fill_digit]|apply snoc_ne| |].
  - rewrite snoc_len, p8_S. lia.
  - rewrite pv_snoc, snoc_len, p8_S, P. unfold fill_byte. destruct (x <? 0); lia.
Qed.

Lemma enc_pad k l x : enc l x -> enc (l ++ repeat (fill_byte x) k) x.
Proof.
  revert l. induction k as [|k IH]; intros l E; cbn [repeat]; [now rewrite app_nil_r|].
  change (fill_byte x :: repeat (fill_byte x) k) with ([fill_byte x] ++ repeat (fill_byte x) k).
  rewrite app_assoc. apply IH. now apply enc_ext.
Qed.

Lemma normalize_spec l1 l2 x y : enc l1 x -> enc l2 y ->
  wp (ref_normalize l1 l2) (fun p => enc (fst p) x /\ enc (snd p) y /\
    length (fst p) = Nat.max (length l1) (length l2) /\ length (snd p) = Nat.max (length l1) (length l2)).
Proof.
  intros E1 E2. unfold ref_normalize.
  eapply wp_bind_cut; [apply (top_set_spec _ _ E1)|]. intros n1 ->.
  eapply wp_bind_cut; [apply (top_set_spec _ _ E2)|]. intros n2 ->.
  fold (fill_byte x).
  destruct (Nat.ltb_spec (length l1) (length l2)) as [H|H].
  - destruct (Nat.ltb_spec (length l2) (length (l1 ++ repeat (fill_byte x) (length l2 - length l1)))) as [K|K];
      rewrite app_length, repeat_length in K; [lia|].
    apply wp_ret. cbn [fst snd]. split; [now apply enc_pad|]. split; [exact E2|].
    rewrite app_length, repeat_length. lia.
  - fold (fill_byte y).
    destruct (Nat.ltb_spec (length l2) (length l1)) as [K|K]; apply wp_ret; cbn [fst snd].
    + split; [exact E1|]. split; [now apply enc_pad|]. rewrite app_length, repeat_length. lia.
    + split; [exact E1|]. split; [exact E2|]. lia.
Qed.

(** ** Addition *)

Definition b2z (b : bool) : Z := if b then 1 else 0.

Lemma carry_out_spec t carry : 0 <= t <= 510 ->
  exists d carry', carry_out t carry = (d, carry') /\ 0 <= d < 256 /\ d + 256 * b2z carry' = t + b2z carry.
Proof.
  intros H. unfold carry_out. destruct carry; cbn [b2z];
    [destruct (Z.ltb_spec 255 (t + 1))|destruct (Z.ltb_spec 255 t)];
    (eexists _, _; split; [reflexivity|]; cbn [b2z]; lia).
Qed.

Lemma u8_small x : 0 <= x < 256 -> u8 x = x.
Proof. intros. unfold u8. now apply Z.mod_small. Qed.

Lemma add_loop l1 l2 n : digits 256 l1 -> digits 256 l2 -> length l1 = n -> length l2 = n ->
  wp (for_up n 0 (fun i st =>
      let '(bnew, carry) := st in
      x <- rd l1 i ;;
      y <- rd l2 i ;;
      let '(temp, carry) := carry_out (x + y) carry in
      Ret (bnew ++ [u8 temp], carry)) ([], false))
    (fun st => length (fst st) = n /\ digits 256 (fst st) /\ exists k, pv (fst st) = pv l1 + pv l2 + k * p8 n).
Proof.
  intros D1 D2 L1 L2.
  eapply wp_for_up with (I := fun i st => length (fst st) = i /\ digits 256 (fst st) /\
    pv (fst st) + b2z (snd st) * p8 i = pv (firstn i l1) + pv (firstn i l2)).
  - cbn. repeat split. constructor.
  - intros i [bnew carry] Hi (Hl & Hd & Hv). cbn [fst snd] in *.
    apply wp_bind, wp_rd; [lia|]. apply wp_bind, wp_rd; [lia|].
    pose proof (digits_nth l1 i D1). pose proof (digits_nth l2 i D2).
    destruct (carry_out_spec (nth i l1 0 + nth i l2 0) carry ltac:(lia)) as (d & carry' & -> & Hd' & E).
    apply wp_ret. cbn [fst snd]. rewrite u8_small by exact Hd'. rewrite snoc_len.
    split; [lia|]. split; [now apply digits_snoc|].
    rewrite pv_snoc, Hl, p8_S, !pv_firstn_S by lia.
    assert (p8 i * d + b2z carry' * (256 * p8 i) = p8 i * (nth i l1 0 + nth i l2 0) + p8 i * b2z carry).
    { replace (p8 i * d + b2z carry' * (256 * p8 i)) with (p8 i * (d + 256 * b2z carry')) by ring. rewrite E. ring. }
    lia.
  - intros [bnew carry] (Hl & Hd & Hv). cbn [fst snd Nat.add] in *. split; [exact Hl|]. split; [exact Hd|].
    exists (- b2z carry). rewrite !firstn_all2 in Hv by lia. lia.
Qed.

Lemma pv_mod l x : enc l x -> exists k, pv l = x + k * p8 (length l).
Proof. intros E. rewrite (enc_pv l x E). destruct (x <? 0); [exists 1|exists 0]; lia. Qed.

Lemma self_enc l : digits 256 l -> l <> [] -> enc l (cv l).
Proof. intros. split; [assumption|]. now split. Qed.

Lemma ref_add_spec l1 l2 x y : enc l1 x -> enc l2 y ->
  wp (ref_add l1 l2) (fun r => enc r (x + y) /\ (Nat.max (length l1) (length l2) <= length r <= Nat.max (length l1) (length l2) + 1)%nat).
Proof.
  intros E1 E2. unfold ref_add.
  eapply wp_bind_cut; [apply (top_set_spec _ _ E1)|]. intros n1 ->.
  eapply wp_bind_cut; [apply (top_set_spec _ _ E2)|]. intros n2 ->.
  eapply wp_bind_cut; [apply (normalize_spec _ _ _ _ E1 E2)|].
  intros [a b] (Ea & Eb & La & Lb). cbn [fst snd] in *.
  set (n := Nat.max (length l1) (length l2)) in *.
  assert (0 < n)%nat as Hn by (destruct E1 as (_ & N & _); apply ne_length in N; lia).
  rewrite La.
  eapply wp_bind_cut; [apply (add_loop a b n); [apply Ea|apply Eb|exact La|exact Lb]|].
  intros [bnew carry] (Hl & Hd & k & Hk). cbn [fst] in *. rewrite <- Hl in Hk.
  assert (bnew <> []) as Nb by (apply ne_length; lia).
  pose proof (self_enc bnew Hd Nb) as Es. set (s := cv bnew) in *.
  destruct (pv_mod a x Ea) as (ka & Ka). destruct (pv_mod b y Eb) as (kb & Kb).
  destruct (pv_mod bnew s Es) as (ks & Ks). rewrite La in Ka. rewrite Lb in Kb. rewrite Hl in *.
  pose proof (enc_range a x Ea) as Ra. pose proof (enc_range b y Eb) as Rb. rewrite La in Ra. rewrite Lb in Rb.
  pose proof (enc_range bnew s Es) as Rs. rewrite Hl in Rs.
  eapply wp_bind_cut; [apply (top_set_spec _ _ Es)|]. intros ns ->.
  set (B := p8 n) in *. assert (0 < B) as HB by apply p8_pos.
  assert (x + y - s = (ks - ka - kb - k) * B) as Q by lia. set (q := ks - ka - kb - k) in *. clearbody q.
  pose proof (enc_pv bnew s Es) as Pv. rewrite Hl in Pv. fold B in Pv.
  destruct (Bool.eqb (x <? 0) (y <? 0) && negb (Bool.eqb (x <? 0) (s <? 0))) eqn:C.
  - apply wp_ret. rewrite snoc_len, Hl. split; [|lia].
    assert (q = if x <? 0 then -1 else 1) as Eq.
    { destruct (Z.ltb_spec x 0), (Z.ltb_spec y 0), (Z.ltb_spec s 0); try discriminate C.
      - assert (q + 1 = 0); [|lia]. apply (mult_zero B _ (x + y - s + B)); lia.
      - assert (q - 1 = 0); [|lia]. apply (mult_zero B _ (x + y - s - B)); lia. }
    apply (enc_mod _ _ (if x <? 0 then 1 else 0)).
    + apply digits_snoc; [exact Hd|]. destruct (x <? 0); lia.
    + apply snoc_ne.
    + rewrite snoc_len, Hl, p8_S. fold B. lia.
    + rewrite snoc_len, pv_snoc, Hl, p8_S. fold B. rewrite Eq in Q.
      destruct (Z.ltb_spec x 0), (Z.ltb_spec y 0), (Z.ltb_spec s 0); try discriminate C; lia.
  - apply wp_ret. split; [|lia].
    assert (q = 0) as ->.
    { apply (mult_zero B _ (x + y - s)); [exact HB| |exact Q].
      destruct (Z.ltb_spec x 0), (Z.ltb_spec y 0), (Z.ltb_spec s 0); try discriminate C; lia. }
    replace (x + y) with s by lia. exact Es.
Qed.

(** ** Negation *)

(** A statement about bytes, checked byte by byte. *)
Lemma byte_all (f : Z -> bool) b : forallb f (map Z.of_nat (seq 0 256)) = true -> 0 <= b < 256 -> f b = true.
Proof.
  intros A H. rewrite forallb_forall in A. apply A, in_map_iff. exists (Z.to_nat b). split; [lia|].
  apply in_seq. lia.
Qed.

Lemma lxor255 b : 0 <= b < 256 -> Z.lxor b 255 = 255 - b.
Proof.
  intros H. apply Z.eqb_eq. apply (byte_all (fun b => Z.lxor b 255 =? 255 - b)); [vm_compute; reflexivity|exact H].
Qed.

Lemma flip_digits l : digits 256 l -> digits 256 (map (fun b => Z.lxor b 255) l) /\
  pv (map (fun b => Z.lxor b 255) l) = p8 (length l) - 1 - pv l.
Proof.
  induction 1 as [|d l Hd Hl (D & E)]; cbn [map positional length]; [split; [constructor|reflexivity]|].
  rewrite lxor255 by exact Hd. split; [constructor; [lia|exact D]|]. rewrite E, p8_S. ring.
Qed.

Lemma Forall_firstn (P : Z -> Prop) n l : Forall P l -> Forall P (firstn n l).
Proof. intros H. revert n. induction H; intros [|n]; cbn [firstn]; constructor; auto. Qed.

Lemma zeros_below l n : digits 256 l -> (n <= length l)%nat ->
  ((forall i, (i < n)%nat -> nth i l 0 = 0) <-> pv (firstn n l) = 0).
Proof.
  intros D. induction n as [|n IH]; intros H.
  - split; [reflexivity|]. intros _ i Hi. lia.
  - rewrite pv_firstn_S by lia. specialize (IH ltac:(lia)).
    pose proof (digits_nth l n D) as B. pose proof (p8_pos n) as P.
    assert (0 <= pv (firstn n l)) as F by (apply pv_bound; now apply Forall_firstn).
    split.
    + intros Z0. rewrite (Z0 n) by lia. rewrite (proj1 IH); [lia|]. intros i Hi. apply Z0. lia.
    + intros S0. assert (0 <= p8 n * nth n l 0) as M by (apply Z.mul_nonneg_nonneg; lia).
      assert (pv (firstn n l) = 0) as F0 by lia. assert (p8 n * nth n l 0 = 0) as M0 by lia.
      apply Z.mul_eq_0 in M0. intros i Hi. destruct (Nat.eq_dec i n) as [->|Ne]; [lia|].
      apply (proj2 IH F0). lia.
Qed.

Lemma neg_loop l n : digits 256 l -> length l = n -> (0 < n)%nat ->
  wp (for_up n 0 (fun i st =>
      let '(bnew, carry) := st in
      x <- rd l i ;;
      let '(temp, carry) := carry_out ((if Nat.eqb i 0 then 1 else 0) + x) carry in
      Ret (bnew ++ [u8 temp], carry)) ([], false))
    (fun st => length (fst st) = n /\ digits 256 (fst st) /\ exists k, pv (fst st) = pv l + 1 + k * p8 n).
Proof.
  intros D L Hn.
  eapply wp_for_up with (I := fun i st => length (fst st) = i /\ digits 256 (fst st) /\
    pv (fst st) + b2z (snd st) * p8 i = pv (firstn i l) + (if Nat.eqb i 0 then 0 else 1)).
  - cbn. repeat split. constructor.
  - intros i [bnew carry] Hi (Hl & Hd & Hv). cbn [fst snd] in *.
    apply wp_bind, wp_rd; [lia|]. pose proof (digits_nth l i D).
    destruct (carry_out_spec ((if Nat.eqb i 0 then 1 else 0) + nth i l 0) carry) as (d & carry' & -> & Hd' & E).
    { destruct (Nat.eqb i 0); lia. }
    apply wp_ret. cbn [fst snd]. rewrite u8_small by exact Hd'. rewrite snoc_len.
    split; [lia|]. split; [now apply digits_snoc|].
    rewrite pv_snoc, Hl, p8_S, !pv_firstn_S by lia.
    assert (p8 i * d + b2z carry' * (256 * p8 i) = p8 i * ((if Nat.eqb i 0 then 1 else 0) + nth i l 0) + p8 i * b2z carry).
    { replace (p8 i * d + b2z carry' * (256 * p8 i)) with (p8 i * (d + 256 * b2z carry')) by ring. rewrite E. ring. }
    change (Nat.eqb (S i) 0) with false. cbv iota.
    destruct (Nat.eqb_spec i 0) as [->|]; [|lia]. rewrite p8_0 in *. lia.
  - intros [bnew carry] (Hl & Hd & Hv). cbn [fst snd Nat.add] in *. split; [exact Hl|]. split; [exact Hd|].
    exists (- b2z carry). rewrite !firstn_all2 in Hv by lia. destruct (Nat.eqb_spec n 0); lia.
Qed.

Lemma land_top t : 0 <= t < 256 -> negb (Z.land t 128 =? 0) && (Z.land t 127 =? 0) = (t =? 128).
Proof.
  intros H. apply eqb_prop.
  apply (byte_all (fun t => Bool.eqb (negb (Z.land t 128 =? 0) && (Z.land t 127 =? 0)) (t =? 128)));
    [vm_compute; reflexivity|exact H].
Qed.

Lemma ref_negate_spec l x : enc l x -> wp (ref_negate l) (fun r => enc r (- x) /\ (length l <= length r <= length l + 1)%nat).
Proof.
  intros E. pose proof E as (D & N & _). apply ne_length in N. unfold ref_negate.
  destruct (flip_digits l D) as (Df & Pf). set (f := map (fun b => Z.lxor b 255) l) in *.
  assert (length f = length l) as Lf by apply map_length. rewrite Lf.
  eapply wp_bind_cut; [apply (neg_loop f (length l) Df Lf N)|].
  intros [bnew carry] (Hl & Hd & k & Hk). cbn [fst] in *.
  apply wp_bind, wp_rd; [lia|]. rewrite land_top by (now apply digits_nth). rewrite Hl.
  eapply wp_bind_cut.
  { eapply wp_for_down with (I := fun i b => b = true <->
      nth (length l - 1) bnew 0 = 128 /\ forall j, (i <= j < length l - 1)%nat -> nth j bnew 0 = 0).
    - rewrite Z.eqb_eq. split; [intros ->; split; [reflexivity|intros; lia]|tauto].
    - intros i s Hi Hs. apply wp_bind, wp_rd; [lia|]. apply wp_ret. rewrite andb_true_iff, Hs, Z.eqb_eq.
      split.
      + intros [[T Hj] Z0]. split; [exact T|]. intros j Hj'. destruct (Nat.eq_dec j i) as [->|]; [exact Z0|apply Hj; lia].
      + intros [T Hj]. split; [split; [exact T|]|apply Hj; lia]. intros j Hj'. apply Hj. lia.
    - intros b Hb. exact Hb. }
  intros bsame Hs. apply wp_ret.
  pose proof (enc_range l x E) as R. destruct (pv_mod l x E) as (kx & Kx). rewrite Pf in Hk.
  pose proof (pv_bound bnew Hd) as Bb. rewrite Hl in Bb.
  assert (bsame = true <-> 2 * pv bnew = p8 (length l)) as Hs'.
  { rewrite Hs. set (m := (length l - 1)%nat) in *.
    assert (length l = S m) as Lm by lia.
    assert (pv bnew = pv (firstn m bnew) + p8 m * nth m bnew 0) as ->.
    { rewrite <- (firstn_all bnew) at 1. rewrite Hl, Lm. apply pv_firstn_S. lia. }
    rewrite Lm, p8_S.
    pose proof (zeros_below bnew m Hd ltac:(lia)) as Zb.
    assert (0 <= pv (firstn m bnew) < p8 m) as F.
    { pose proof (pv_bound (firstn m bnew) (Forall_firstn _ _ _ Hd)) as F. rewrite firstn_length, Nat.min_l in F by lia. exact F. }
    pose proof (p8_pos m) as P. set (t := nth m bnew 0) in *. split.
    - intros [-> Hz]. rewrite (proj1 Zb); [lia|]. intros i Hi. apply Hz. lia.
    - intros S2. assert (t = 128) as T.
      { destruct (Z.lt_trichotomy t 128) as [Lt|[Lt|Lt]]; [|exact Lt|]; exfalso.
        - assert (p8 m * t <= p8 m * 127) by (apply Z.mul_le_mono_nonneg_l; lia). lia.
        - assert (p8 m * 129 <= p8 m * t) by (apply Z.mul_le_mono_nonneg_l; lia). lia. }
      split; [exact T|]. rewrite T in S2. intros j Hj. apply (proj2 Zb); lia. }
  destruct (p8_half (length l) N) as (h & Hh & Hp). set (B := p8 (length l)) in *.
  assert (pv bnew = - x + (1 + k - kx) * B) as Q by lia. set (q := 1 + k - kx) in *. clearbody q.
  destruct bsame.
  - assert (2 * pv bnew = B) as S2 by (now apply Hs'). rewrite snoc_len, Hl. split; [|lia].
    assert (q = 0 \/ q = 1) as Hq.
    { destruct (Z.le_gt_cases q (-1)) as [G|G]; [assert (q * B <= -1 * B) by (apply Z.mul_le_mono_nonneg_r; lia); lia|].
      destruct (Z.le_gt_cases 2 q) as [G'|G']; [assert (2 * B <= q * B) by (apply Z.mul_le_mono_nonneg_r; lia); lia|lia]. }
    assert (- x = pv bnew) as -> by (destruct Hq as [-> | ->]; lia).
    apply (enc_mod _ _ 0); [apply digits_snoc; [exact Hd|lia]|apply snoc_ne| |].
    + rewrite snoc_len, p8_S, Hl. fold B. lia.
    + rewrite pv_snoc. lia.
  - split; [|lia]. apply (enc_mod _ _ q); [exact Hd|apply ne_length; lia| |rewrite Hl; exact Q].
    rewrite Hl. fold B. split; [lia|].
    assert (2 * x <> - B); [|lia]. intros Hx. assert (false = true); [|discriminate]. apply Hs'.
    assert (q = 0); [|lia].
    destruct (Z.le_gt_cases q (-1)) as [G|G]; [assert (q * B <= -1 * B) by (apply Z.mul_le_mono_nonneg_r; lia); lia|].
    destruct (Z.le_gt_cases 1 q) as [G'|G']; [assert (1 * B <= q * B) by (apply Z.mul_le_mono_nonneg_r; lia); lia|lia].
Qed.

(** ** Trimming *)

Lemma firstn_snoc (m : list Z) d : firstn (length (m ++ [d]) - 1) (m ++ [d]) = m.
Proof. rewrite snoc_len. replace (S (length m) - 1)%nat with (length m) by lia. rewrite firstn_app, Nat.sub_diag, firstn_all. cbn [firstn]. apply app_nil_r. Qed.

Lemma enc_chop m d x : m <> [] -> enc (m ++ [d]) x -> d = (if 128 <=? last m 0 then 255 else 0) -> enc m x.
Proof.
  intros Nm E Hd. pose proof E as (D & _ & _). apply digits_app in D. destruct D as (Dm & _).
  pose proof (self_enc m Dm Nm) as Es. pose proof (enc_ext m _ Es) as Ex. unfold fill_byte in Ex.
  pose proof (enc_sign m _ Es) as Sg.
  replace (if cv m <? 0 then 255 else 0) with d in Ex.
  - destruct E as (_ & _ & E), Ex as (_ & _ & Ex). rewrite <- E, Ex. exact Es.
  - rewrite Hd. destruct (Z.ltb_spec (cv m) 0), (Z.leb_spec 128 (last m 0)); reflexivity || lia.
Qed.

Lemma ref_trim_loop_spec n l x : enc l x -> wp (ref_trim_loop n l) (fun r => enc r x /\ (length r <= length l)%nat).
Proof.
  revert l. induction n as [|n IH]; intros l E; cbn [ref_trim_loop]; [apply wp_ret; split; [exact E|lia]|].
  destruct (Nat.ltb_spec 1 (length l)) as [H|H]; [|apply wp_ret; split; [exact E|lia]].
  apply wp_bind, wp_rd; [lia|]. apply wp_bind, wp_rd; [lia|].
  destruct (snoc_case l) as [->|(m & d & ->)]; [cbn [length] in H; lia|].
  rewrite firstn_snoc. rewrite snoc_len in *.
  assert (m <> []) as Nm by (apply ne_length; lia).
  replace (S (length m) - 1)%nat with (length m) by lia.
  rewrite app_nth2, Nat.sub_diag by lia. cbn [nth].
  replace (nth (S (length m) - 2) (m ++ [d]) 0) with (last m 0).
  2:{ rewrite last_nth, app_nth1 by lia. f_equal; lia. }
  pose proof E as (D & _ & _). apply digits_app in D. destruct D as (Dm & Dd). inversion Dd as [|? ? Hd _]; subst.
  assert (0 <= last m 0 < 256) as Hm by (rewrite last_nth; now apply digits_nth).
  pose proof (land128 d Hd) as Ld. pose proof (land128 _ Hm) as Lm.
  apply (f_equal negb) in Lm. rewrite negb_involutive in Lm. rewrite Lm.
  assert (forall (b : bool), (b = true -> d = (if 128 <=? last m 0 then 255 else 0)) ->
    wp (if b then ref_trim_loop n m else Ret (m ++ [d])) (fun r => enc r x /\ (length r <= S (length m))%nat)) as K.
  { intros [|] Hb.
    - eapply wp_mono; [apply IH, (enc_chop m d x Nm E), Hb; reflexivity|]. cbv beta. intros r [R1 R2]. split; [exact R1|lia].
    - apply wp_ret. split; [exact E|]. rewrite snoc_len. lia. }
  destruct (Z.land d 128 =? 0); apply K; rewrite andb_true_iff, Z.eqb_eq; intros [-> B].
  - destruct (128 <=? last m 0); [discriminate B|reflexivity].
  - destruct (128 <=? last m 0); [reflexivity|discriminate B].
Qed.

Lemma ref_trim_spec l x : enc l x -> wp (ref_trim l) (fun r => enc r x /\ (length r <= length l)%nat).
Proof. apply ref_trim_loop_spec. Qed.

(** ** One-bit shifts *)

Lemma drop_loop l : digits 256 l ->
  wp (ref_shift_drop l) (fun r => length r = length l /\ digits 256 r /\
    pv r + (if 128 <=? last l 0 then p8 (length l) else 0) = 2 * pv l).
Proof.
  intros D. unfold ref_shift_drop.
  eapply wp_for_up with (I := fun i r => length r = i /\ digits 256 r /\
    pv r + (if (0 <? Z.of_nat i) && (128 <=? nth (i - 1) l 0) then p8 i else 0) = 2 * pv (firstn i l)).
  - cbn. repeat split. constructor.
  - intros i r Hi (Hl & Hd & Hv). apply wp_bind, wp_rd; [lia|]. pose proof (digits_nth l i D) as B.
    set (b := nth i l 0) in *.
    set (t := if 128 <=? b then 1 else 0).
    assert (u8 ((if 127 <? b then b - 128 else b) * 2) = 2 * b - 256 * t) as ->.
    { subst t. destruct (Z.ltb_spec 127 b), (Z.leb_spec 128 b); try lia; rewrite u8_small; lia. }
    eapply wp_bind_cut with (P := fun d => d = 2 * b - 256 * t + (if (0 <? Z.of_nat i) && (128 <=? nth (i - 1) l 0) then 1 else 0)).
    { destruct (Nat.eqb_spec i 0) as [->|Ni]; cbn [negb].
      - apply wp_ret. cbn [Z.of_nat Z.ltb Z.compare andb]. change (0 <? Z.of_nat 0) with false. cbn [andb]. lia.
      - apply wp_bind, wp_rd; [lia|]. apply wp_ret. destruct (Z.ltb_spec 0 (Z.of_nat i)); [|lia]. cbn [andb].
        destruct (Z.leb_spec 128 (nth (i - 1) l 0)); [|lia]. rewrite u8_small; [reflexivity|].
        subst t. destruct (Z.leb_spec 128 b); lia. }
    intros d ->. apply wp_ret. rewrite snoc_len, pv_snoc, Hl, pv_firstn_S by lia. fold b.
    assert (0 <= 2 * b - 256 * t <= 254) as Rt by (subst t; destruct (Z.leb_spec 128 b); lia).
    set (g := (0 <? Z.of_nat i) && (128 <=? nth (i - 1) l 0)) in *.
    split; [lia|]. split; [apply digits_snoc; [exact Hd|]; destruct g; lia|].
    replace (S i - 1)%nat with i by lia. destruct (Z.ltb_spec 0 (Z.of_nat (S i))); [|lia]. cbn [andb].
    fold b. rewrite p8_S. subst t. destruct (128 <=? b), g; lia.
  - intros r (Hl & Hd & Hv). cbn [Nat.add] in *. split; [exact Hl|]. split; [exact Hd|].
    rewrite firstn_all in Hv. rewrite <- last_nth in Hv.
    destruct l as [|a l]; [destruct r; [reflexivity|discriminate Hl]|]. destruct (Z.ltb_spec 0 (Z.of_nat (length (a :: l)))) as [P|P]; [exact Hv|cbn [length] in P; lia].
Qed.

Lemma ref_shift_grow_spec l x : enc l x -> wp (ref_shift_grow l) (fun r => enc r (2 * x) /\ (length r <= length l + 1)%nat).
Proof.
  intros E. pose proof E as (D & N & _). unfold ref_shift_grow.
  eapply wp_bind_cut; [apply (drop_loop l D)|]. intros r (Hl & Hd & Hv).
  apply ne_length in N. apply wp_bind, wp_rd; [lia|]. rewrite <- last_nth.
  pose proof (enc_pv l x E) as P. pose proof (enc_sign l x E) as Sg. pose proof (enc_range l x E) as R.
  pose proof (p8_pos (length l)) as Q.
  (* how far x is from the end of the range, by its top byte *)
  assert (exists q, p8 (length l) = 256 * q /\ 0 < q /\ pv l = pv (firstn (length l - 1) l) + q * last l 0 /\
     0 <= pv (firstn (length l - 1) l) < q) as (q & Hq & Hq0 & Ht & Hr).
  { exists (p8 (length l - 1)). rewrite <- p8_S. replace (S (length l - 1)) with (length l) by lia.
    split; [reflexivity|]. split; [apply p8_pos|].
    assert (digits 256 (firstn (length l - 1) l)) as Df by now apply Forall_firstn.
    pose proof (pv_bound _ Df) as B. rewrite firstn_length, Nat.min_l in B by lia. split; [|exact B].
    rewrite last_nth. rewrite <- (firstn_all l) at 1. replace (length l) with (S (length l - 1)) at 1 by lia.
    rewrite pv_firstn_S by lia. reflexivity. }
  assert (0 <= last l 0 < 256) as Ht0 by (rewrite last_nth; now apply digits_nth).
  set (t := last l 0) in *. set (B := p8 (length l)) in *.
  assert (forall k, t <= k -> q * t <= q * k) as Up by (intros; apply Z.mul_le_mono_nonneg_l; lia).
  assert (forall k, k <= t -> q * k <= q * t) as Dn by (intros; apply Z.mul_le_mono_nonneg_l; lia).
  assert (r <> []) as Nr by (apply ne_length; lia).
  apply wp_ret.
  destruct ((63 <? t) && (t <? 128)) eqn:C1.
  - apply andb_true_iff in C1. destruct C1 as [C1 C1']. apply Z.ltb_lt in C1, C1'.
    assert ((127 <? t) && (t <? 192) = false) as -> by (destruct (Z.ltb_spec 127 t); [lia|reflexivity]).
    rewrite snoc_len. split; [|lia].
    destruct (Z.ltb_spec x 0); [lia|].
    apply (enc_mod _ _ 0); [apply digits_snoc; [exact Hd|lia]|apply snoc_ne|rewrite snoc_len, p8_S, Hl; fold B; lia|].
    rewrite pv_snoc. destruct (Z.leb_spec 128 t); lia.
  - destruct ((127 <? t) && (t <? 192)) eqn:C2.
    + apply andb_true_iff in C2. destruct C2 as [C2 C2']. apply Z.ltb_lt in C2, C2'.
      rewrite snoc_len. split; [|lia]. destruct (Z.ltb_spec x 0); [|lia].
      apply (enc_mod _ _ 1); [apply digits_snoc; [exact Hd|lia]|apply snoc_ne|rewrite snoc_len, p8_S, Hl; fold B; lia|].
      rewrite pv_snoc, snoc_len, p8_S, Hl. fold B. destruct (Z.leb_spec 128 t); lia.
    + split; [|lia].
      apply (enc_mod _ _ (if x <? 0 then 1 else 0)); [exact Hd|exact Nr| |]; rewrite Hl; fold B.
      * apply andb_false_iff in C1, C2. rewrite !Z.ltb_ge in C1, C2.
        destruct (Z.ltb_spec x 0).
        -- pose proof (Dn 192 ltac:(lia)). lia.
        -- pose proof (Up 63 ltac:(lia)). lia.
      * destruct (Z.ltb_spec x 0), (Z.leb_spec 128 t); lia.
Qed.

Lemma land1_mod x : (Z.land x 1 =? 1) = Z.odd x.
Proof. change 1 with (Z.ones 1) at 1. rewrite Z.land_ones by lia. change (2 ^ 1) with 2. rewrite Zmod_odd. now destruct (Z.odd x). Qed.

Lemma b2z_range b : 0 <= b2z b <= 1.
Proof. destruct b; cbn [b2z]; lia. Qed.

Lemma odd_div x : x = 2 * (x / 2) + b2z (Z.odd x).
Proof. pose proof (Z.div_mod x 2 ltac:(lia)) as E. rewrite Zmod_odd in E. unfold b2z. exact E. Qed.

Lemma ref_shift_right_spec l x : enc l x -> wp (ref_shift_right l) (fun r => enc r (x / 2) /\ length r = length l).
Proof.
  intros E. pose proof E as (D & N & _). unfold ref_shift_right. apply ne_length in N.
  pose proof (enc_pv l x E) as P. pose proof (enc_sign l x E) as Sg. pose proof (enc_range l x E) as R.
  set (n := length l) in *.
  (* the bit shifted into byte i *)
  set (inb := fun i => if Nat.eqb i n then b2z (x <? 0) else b2z (Z.odd (nth i l 0))).
  eapply wp_for_up with (I := fun i r => length r = i /\ digits 256 r /\
    2 * pv r + inb O = pv (firstn i l) + p8 i * inb i /\
    (i = n -> (128 <=? last r 0) = (x <? 0))).
  - cbn [firstn positional length]. rewrite p8_0. repeat split; [constructor|lia|]. intros; lia.
  - intros i r Hi (Hl & Hd & Hv & _). apply wp_bind, wp_rd; [lia|]. pose proof (digits_nth l i D) as B.
    set (b := nth i l 0) in *. pose proof (odd_div b) as Ob. set (h := b / 2) in *.
    assert (0 <= h < 128) as Hh by (unfold b2z in Ob; destruct (Z.odd b); lia).
    eapply wp_bind_cut with (P := fun d => d = if Nat.eqb i (n - 1) then h else h + 128 * inb (S i)).
    { destruct (Nat.eqb_spec i (n - 1)) as [Ei|Ei]; cbn [negb]; [now apply wp_ret|].
      apply wp_bind, wp_rd; [lia|]. apply wp_ret. rewrite land1_mod. unfold inb.
      destruct (Nat.eqb_spec (S i) n); [lia|]. replace (i + 1)%nat with (S i) by lia.
      destruct (Z.odd (nth (S i) l 0)); cbn [b2z]; [rewrite u8_small by lia; lia|lia]. }
    intros d ->.
    eapply wp_bind_cut with (P := fun d => d = h + 128 * inb (S i)).
    { destruct (Nat.eqb_spec i (n - 1)) as [Ei|Ei]; [|now apply wp_ret].
      apply wp_bind, wp_rd; [lia|]. apply wp_ret. rewrite land128 by (now apply digits_nth).
      unfold n at 1. rewrite <- last_nth. unfold inb. destruct (Nat.eqb_spec (S i) n); [|lia].
      destruct (Z.leb_spec 128 (last l 0)), (Z.ltb_spec x 0); cbn [b2z]; try lia. rewrite u8_small by lia. lia. }
    intros d ->. apply wp_ret.
    assert (0 <= inb (S i) <= 1) as Hb.
    { unfold inb. destruct (Nat.eqb (S i) n); apply b2z_range. }
    rewrite snoc_len. split; [lia|]. split; [apply digits_snoc; [exact Hd|lia]|]. split.
    + rewrite pv_snoc, Hl, pv_firstn_S, p8_S by lia. fold b.
      assert (inb i = b2z (Z.odd b)) as Ii by (unfold inb; destruct (Nat.eqb_spec i n); [lia|reflexivity]).
      rewrite Ii in Hv.
      assert (p8 i * b = p8 i * (2 * h + b2z (Z.odd b))) by (rewrite <- Ob; reflexivity). lia.
    + intros Hn. rewrite last_snoc. unfold inb. rewrite Hn, Nat.eqb_refl. unfold b2z.
      destruct (Z.ltb_spec x 0), (Z.leb_spec 128 (h + 128 * 1)), (Z.leb_spec 128 (h + 128 * 0)); lia || reflexivity.
  - intros r (Hl & Hd & Hv & Ht). cbn [Nat.add] in *. split; [|exact Hl].
    specialize (Ht eq_refl). split; [exact Hd|]. split; [apply ne_length; lia|].
    rewrite firstn_all2 in Hv by lia. unfold complement. fold (p8 (length r)). rewrite Hl.
    replace (256 <=? 2 * last r 0) with (x <? 0) by (rewrite <- Ht; destruct (Z.leb_spec 128 (last r 0)), (Z.leb_spec 256 (2 * last r 0)); lia || reflexivity).
    assert (inb n = b2z (x <? 0)) as In by (unfold inb; now rewrite Nat.eqb_refl). rewrite In in Hv.
    assert (0 <= inb O <= 1) as Hb.
    { unfold inb. destruct (Nat.eqb 0 n); apply b2z_range. }
    apply (Z.div_unique_pos _ _ _ (inb O)); [lia|]. fold n in P. unfold b2z in Hv. destruct (x <? 0); lia.
Qed.

(** ** Bits *)

Lemma p8_pow n : p8 n = 2 ^ (8 * Z.of_nat n).
Proof. unfold bp. change 256 with (2 ^ 8). rewrite <- Z.pow_mul_r by lia. reflexivity. Qed.

Lemma idx_split idx : Z.of_nat idx = Z.of_nat (Nat.modulo idx 8) + 8 * Z.of_nat (Nat.div idx 8) /\
  0 <= Z.of_nat (Nat.modulo idx 8) < 8.
Proof.
  pose proof (Nat.div_mod idx 8 ltac:(lia)). pose proof (Nat.mod_upper_bound idx 8 ltac:(lia)). lia.
Qed.

Lemma bitset_at_spec l idx : digits 256 l -> (idx < 8 * length l)%nat ->
  wp (bitset_at l idx) (fun b => b = Z.testbit (pv l) (Z.of_nat idx)).
Proof.
  intros D H. unfold bitset_at. apply wp_bind, wp_rd; [apply Nat.div_lt_upper_bound; lia|]. apply wp_ret.
  rewrite (pos_nth 256 B8_ok l (Nat.div idx 8) D), p8_pow. change 256 with (2 ^ 8) at 2.
  destruct (idx_split idx) as (E & R). rewrite Z.mod_pow2_bits_low, Z.div_pow2_bits by lia. now rewrite <- E.
Qed.

Lemma bits_get_spec l size idx : digits 256 l -> (idx < 8 * length l)%nat -> (idx < size)%nat ->
  wp (bits_get l size idx) (fun b => b = Z.testbit (pv l) (Z.of_nat idx)).
Proof.
  intros D H S. unfold bits_get. destruct (Nat.leb_spec size idx); [lia|]. now apply bitset_at_spec.
Qed.

Lemma mod_testbit x k n i : 0 <= i < n -> Z.testbit (x + k * 2 ^ n) i = Z.testbit x i.
Proof.
  intros H. rewrite <- (Z.mod_pow2_bits_low (x + k * 2 ^ n) n i) by lia. rewrite Z.mod_add by (apply Z.pow_nonzero; lia).
  apply Z.mod_pow2_bits_low. lia.
Qed.

Lemma enc_bit l x size idx : enc l x -> (idx < 8 * length l)%nat -> (idx < size)%nat ->
  wp (bits_get l size idx) (fun b => b = Z.testbit x (Z.of_nat idx)).
Proof.
  intros E H S. eapply wp_mono; [apply bits_get_spec; [apply E|exact H|exact S]|]. intros b ->.
  destruct (pv_mod l x E) as (k & ->). rewrite p8_pow. apply mod_testbit. lia.
Qed.

Lemma top_bit_spec l n : digits 256 l -> (n <= 8 * length l)%nat -> pv l < 2 ^ Z.of_nat n ->
  wp (top_bit l n) (fun k => (pv l = 0 /\ k = O) \/ 2 ^ Z.of_nat k <= pv l < 2 ^ (Z.of_nat k + 1)).
Proof.
  intros D. pose proof (pv_bound l D) as B. induction n as [|n IH]; intros H L; cbn [top_bit].
  - apply wp_ret. left. change (2 ^ Z.of_nat 0) with 1 in L. lia.
  - eapply wp_bind_cut; [apply bits_get_spec; [exact D|lia|lia]|]. intros b ->.
    assert (0 < 2 ^ Z.of_nat n) as P by (apply Z.pow_pos_nonneg; lia).
    rewrite Nat2Z.inj_succ, Z.pow_succ_r in L by lia.
    destruct (Z.testbit (pv l) (Z.of_nat n)) eqn:T.
    + apply wp_ret. right. rewrite Z.pow_add_r by lia. split; [|lia].
      destruct (Z.le_gt_cases (2 ^ Z.of_nat n) (pv l)) as [G|G]; [exact G|].
      rewrite <- (Z.mod_small (pv l) (2 ^ Z.of_nat n)) in T by lia. rewrite Z.mod_pow2_bits_high in T by lia. discriminate.
    + apply IH; [lia|]. destruct (Z.le_gt_cases (2 ^ Z.of_nat n) (pv l)) as [G|G]; [|exact G].
      rewrite Z.testbit_false in T by lia.
      assert (pv l / 2 ^ Z.of_nat n = 1) as Q by (symmetry; apply (Z.div_unique_pos _ _ _ (pv l - 2 ^ Z.of_nat n)); lia).
      rewrite Q in T. discriminate T.
Qed.

Lemma last_one_spec l x : enc l x -> 0 <= x ->
  wp (last_one l) (fun k => ((x = 0 /\ k = O) \/ 2 ^ Z.of_nat k <= x < 2 ^ (Z.of_nat k + 1)) /\ (k < 8 * length l)%nat).
Proof.
  intros E H. pose proof (enc_pv l x E) as P. destruct (Z.ltb_spec x 0); [lia|]. unfold last_one.
  pose proof (pv_bound l (proj1 E)) as B. rewrite p8_pow in B.
  eapply wp_mono; [apply top_bit_spec; [apply E|lia|]|].
  - replace (Z.of_nat (8 * length l)) with (8 * Z.of_nat (length l)) by lia. lia.
  - cbv beta. rewrite P. intros k K. split; [exact K|]. destruct E as (_ & N & _). apply ne_length in N.
    destruct K as [[_ ->]|K]; [lia|]. rewrite P in B.
    assert (Z.of_nat k < 8 * Z.of_nat (length l)); [|lia].
    apply (Z.pow_lt_mono_r_iff 2); lia.
Qed.

Lemma pv_upd l i v : (i < length l)%nat -> pv (upd l i v) = pv l + (v - nth i l 0) * p8 i.
Proof.
  revert i. induction l as [|d l IH]; intros i H; cbn [length] in H; [lia|].
  destruct i as [|i]; cbn [upd positional nth]; [rewrite p8_0; lia|]. rewrite IH by lia. rewrite p8_S. ring.
Qed.

Lemma digits_upd l i v : digits 256 l -> 0 <= v < 256 -> digits 256 (upd l i v).
Proof.
  intros D Hv. revert i. induction D as [|d l Hd Hl IH]; intros i; [constructor|].
  destruct i as [|i]; cbn [upd]; constructor; auto. apply IH.
Qed.

Lemma setbit_add w k : 0 <= w < 256 -> 0 <= k < 8 -> Z.testbit w k = false ->
  Z.setbit w k = w + 2 ^ k /\ 0 <= Z.setbit w k < 256.
Proof.
  intros Hw Hk T.
  assert (forallb (fun k => forallb (fun w => Z.testbit w k || ((Z.setbit w k =? w + 2 ^ k) && (Z.setbit w k <? 256)))
    (map Z.of_nat (seq 0 256))) (map Z.of_nat (seq 0 8)) = true) as A by (vm_compute; reflexivity).
  rewrite forallb_forall in A. specialize (A k). rewrite in_map_iff in A.
  specialize (A ltac:(exists (Z.to_nat k); split; [lia|apply in_seq; lia])).
  pose proof (byte_all _ w A Hw) as B. cbv beta in B. rewrite T in B. cbn [orb] in B.
  apply andb_true_iff in B. destruct B as [B1 B2]. apply Z.eqb_eq in B1. apply Z.ltb_lt in B2.
  split; [exact B1|]. split; [|exact B2]. rewrite B1. assert (0 < 2 ^ k) by (apply Z.pow_pos_nonneg; lia). lia.
Qed.

Lemma bits_set_spec l size idx : digits 256 l -> (idx < 8 * length l)%nat -> (idx < size)%nat ->
  Z.testbit (pv l) (Z.of_nat idx) = false ->
  wp (bits_set l size idx) (fun r => digits 256 r /\ length r = length l /\ pv r = pv l + 2 ^ Z.of_nat idx).
Proof.
  intros D H S T. unfold bits_set. destruct (Nat.leb_spec size idx); [lia|].
  assert (Nat.div idx 8 < length l)%nat as Q by (apply Nat.div_lt_upper_bound; lia).
  apply wp_bind, wp_rd; [exact Q|]. apply wp_wr; [exact Q|].
  destruct (idx_split idx) as (E & R).
  assert (Z.testbit (nth (Nat.div idx 8) l 0) (Z.of_nat (Nat.modulo idx 8)) = false) as T'.
  { rewrite (pos_nth 256 B8_ok l (Nat.div idx 8) D), p8_pow. change 256 with (2 ^ 8) at 2.
    rewrite Z.mod_pow2_bits_low, Z.div_pow2_bits by lia. now rewrite <- E. }
  destruct (setbit_add _ _ (digits_nth l (Nat.div idx 8) D) R T') as (S1 & S2).
  split; [now apply digits_upd|]. split; [apply length_upd|]. rewrite pv_upd by exact Q. rewrite S1, p8_pow, E.
  rewrite Z.pow_add_r by lia. ring.
Qed.
