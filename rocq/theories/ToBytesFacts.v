(** to_byte_array and get_byte_count. *)
From Verif Require Import Facts Spec SpecPos PosFacts AddSubFacts SquMulFacts DivCoreFacts SpecFacts BigIntFacts CompareFacts ConvFacts SpecApi ShiftFacts WordFacts BytesFacts BigInt BigIntBytes.

Ltac Zify.zify_post_hook ::= idtac.

(** Word [i] of the infinite two's complement expansion. *)
Definition word_of (V : Z) (i : nat) : Z := (V / Bp i) mod W32.

Lemma word_limb V i : limb (word_of V i).
Proof. apply Z.mod_pos_bound. num; lia. Qed.

(** First non-zero limb. *)
Lemma first_nonzero_spec fuel l i :
  limbs l -> (length l <= fuel + i)%nat -> (i < length l)%nat -> (forall j, (j < i)%nat -> nth j l 0 = 0) ->
  val l <> 0 ->
  wp (first_nonzero fuel l i) (fun k => (k < length l)%nat /\ nth k l 0 <> 0 /\
    forall j, (j < k)%nat -> nth j l 0 = 0).
Proof.
  revert i. induction fuel as [|fuel IH]; intros i Hl Hf Hi Hz Hv; cbn [first_nonzero].
  - lia.
  - wstep. wstep; [exact Hi|]. destruct (Z.eqb_spec (nth i l 0) 0) as [E|E].
    + assert (forall j, (j < S i)%nat -> nth j l 0 = 0) as Hz'.
      { intros j Hj. destruct (Nat.eq_dec j i) as [->|]; [exact E|apply Hz; lia]. }
      apply IH; auto; [lia|]. destruct (Nat.eq_dec (S i) (length l)) as [Es|]; [exfalso|lia].
      apply Hv. rewrite <- pos_val. apply pos_zeros; [apply W32_ok|]. intros j.
      destruct (Nat.lt_ge_cases j (length l)); [apply Hz'; lia|now apply nth_overflow].
    + wstep. auto.
Qed.

Lemma vl_zero_below l k : (k <= length l)%nat -> (forall j, (j < k)%nat -> nth j l 0 = 0) -> vl l k = 0.
Proof.
  intros Hk H. induction k as [|k IH]; [reflexivity|]. rewrite vl_S by lia. rewrite IH by (auto with arith; lia).
  rewrite H by lia. ring.
Qed.

Lemma vl_mono l k m : limbs l -> (k <= m <= length l)%nat -> vl l k <= vl l m.
Proof.
  intros Hl H. induction m as [|m IH]; [now replace k with O by lia|].
  destruct (Nat.eq_dec k (S m)) as [->|]; [lia|]. rewrite vl_S by lia.
  pose proof (limbs_nth l m Hl) as Hn. pose proof (Bp_pos m).
  assert (0 <= nth m l 0 * Bp m) by (apply Z.mul_nonneg_nonneg; num; lia). lia.
Qed.

(** The two's complement word [i] computed from the magnitude. *)
Lemma neg_word l nz i :
  limbs l -> (nz < length l)%nat -> nth nz l 0 <> 0 -> (forall j, (j < nz)%nat -> nth j l 0 = 0) ->
  (i < length l)%nat ->
  word_of (- val l) i = if Nat.leb i nz then u32 (not32 (nth i l 0) + 1) else not32 (nth i l 0).
Proof.
  intros Hl Hnz Hn Hz Hi. pose proof (Bp_pos i) as PB. pose proof (limbs_nth l i Hl) as Hw.
  rewrite not32_eq by exact Hw.
  assert (val l = vl l i + Bp i * (nth i l 0 + W32 * val (skipn (S i) l))) as E.
  { rewrite (val_split l i) by lia. f_equal. rewrite skipn_nth by exact Hi. reflexivity. }
  set (hi := val (skipn (S i) l)) in *. clearbody hi. set (w := nth i l 0) in *.
  pose proof (vl_bound l i Hl) as Vb. unfold word_of. rewrite E.
  destruct (Nat.leb_spec i nz) as [L|L].
  - rewrite (vl_zero_below l i) by (try lia; intros j Hj; apply Hz; lia).
    replace (- (0 + Bp i * (w + W32 * hi))) with (- (w + W32 * hi) * Bp i) by ring.
    rewrite Z.div_mul by lia. unfold u32.
    replace (- (w + W32 * hi)) with (- w + (- hi) * W32) by ring. rewrite Z.mod_add by (num; lia).
    replace (W32 - 1 - w + 1) with (- w + 1 * W32) by ring. now rewrite Z.mod_add by (num; lia).
  - assert (0 < vl l i) as Vp.
    { assert (vl l i <> 0); [|lia]. intros V0.
      assert (vl l (S nz) = 0) as V1.
      { pose proof (vl_bound l (S nz) Hl). pose proof (vl_mono l (S nz) i Hl ltac:(lia)). lia. }
      rewrite vl_S in V1 by lia. rewrite vl_zero_below in V1 by (auto; lia).
      pose proof (Bp_pos nz). assert (nth nz l 0 * Bp nz = 0) by lia.
      apply Z.mul_eq_0 in H0. lia. }
    replace (- (vl l i + Bp i * (w + W32 * hi))) with ((Bp i - vl l i) + (- (w + W32 * hi) - 1) * Bp i) by ring.
    rewrite Z.div_add, Z.div_small by lia.
    replace (0 + (- (w + W32 * hi) - 1)) with ((W32 - 1 - w) + (- hi - 1) * W32) by ring.
    rewrite Z.mod_add by (num; lia). apply Z.mod_small. num; lia.
Qed.

Definition neg_part (V w : Z) : Z := if V <? 0 then w else 0.

Definition dword_at (sign : Z) (bits : list Z) (nz i : nat) : Z :=
  if sign =? -1 then
    let dword := not32 (nth i bits 0) in
    if Nat.leb i nz then u32 (dword + 1) else dword
  else nth i bits 0.

Definition word_count (b : bigint) : nat := if is_nil (bits_of b) then 1%nat else length (bits_of b).

Record head_ok (b : bigint) (V hb : Z) (nz : nat) (hd : Z) : Prop := {
  h_byte : hb = neg_part V 255;
  h_limb : limb hd;
  h_top : V / Bp (word_count b - 1) = hd - neg_part V W32;
  h_words : forall i, (i < word_count b - 1)%nat -> dword_at (sign_of b) (bits_of b) nz i = word_of V i;
  h_big : (2 <= word_count b)%nat -> Bp (word_count b - 1) <= Z.abs V
}.

Lemma bytes_head_spec c b V :
  represents b V -> V <> 0 ->
  wp (bytes_head c (sign_of b) (bits_of b)) (fun r => let '(hb, nz, hd) := r in head_ok b V hb nz hd).
Proof.
  intros Hb HV. apply repr_parts in Hb. destruct b as [s l]. unfold bytes_head.
  cbn [sign_of bits_of] in *. inv_parts Hb.
  - cbn [is_nil]. wstep. split; cbn [word_count sign_of bits_of is_nil Nat.sub]; try lia.
    + unfold neg_part. reflexivity.
    + unfold u32. apply Z.mod_pos_bound. num; lia.
    + unfold neg_part. rewrite Bp_0, Z.div_1_r. unfold u32.
      destruct (Z.ltb_spec V 0).
      * replace (V mod W32) with (V + W32) by (apply (Z.mod_unique_pos _ _ (-1)); num; lia). lia.
      * rewrite Z.mod_small by (num; lia). lia.
  - assert (word_count (Big s l) = length l) as Ewc by (destruct l; [congruence|reflexivity]).
    destruct (is_nil l) eqn:En; [destruct l; [congruence|discriminate]|]. clear En.
    assert (1 <= length l)%nat as Hlen by (destruct l; [congruence|cbn [length]; lia]).
    match goal with H : top_nz l |- _ => rename H into Htop end.
    match goal with H : limbs l |- _ => rename H into Hl end.
    pose proof (top_nz_bound l Hl ltac:(assumption) Htop) as TB.
    assert (val l = vl l (length l - 1) + nth (length l - 1) l 0 * Bp (length l - 1)) as Vsplit.
    { rewrite <- (vl_all l). replace (length l) with (S (length l - 1)) at 1 by lia. rewrite vl_S by lia. ring. }
    pose proof (vl_bound l (length l - 1) Hl) as Vb.
    assert (forall V', V' = - val l -> V' / Bp (length l - 1) =
      word_of V' (length l - 1) - W32) as Hneg.
    { intros V' ->. unfold word_of. pose proof (Bp_pos (length l - 1)) as PB.
      pose proof (limbs_nth l (length l - 1) Hl) as Hw. unfold limb in Hw.
      assert (- W32 <= - val l / Bp (length l - 1) < 0) as R.
      { split.
        - apply Z.div_le_lower_bound; [lia|]. pose proof (val_bound l Hl) as Vb2.
          replace (length l) with (S (length l - 1)) in Vb2 by lia. rewrite Bp_S in Vb2. lia.
        - apply Z.div_lt_upper_bound; lia. }
      set (q := - val l / Bp (length l - 1)) in *. clearbody q.
      replace (q mod W32) with (q + W32); [ring|]. apply (Z.mod_unique_pos _ _ (-1)); lia. }
    destruct (Z.eqb_spec s (-1)) as [Es|Es].
    + assert (s * val l < 0) as Vneg by (subst s; lia).
      wstep. wstep; [lia|]. wstep. wstep; [apply Bool.negb_true_iff, Z.eqb_neq; exact Htop|].
      wstep. eapply wp_mono; [apply first_nonzero_spec; [exact Hl|lia|lia|lia|lia]|].
      intros nz (N1 & N2 & N3).
      assert (s * val l = - val l) as EV by (subst s; ring).
      pose proof (fun i Hi => neg_word l nz i Hl N1 N2 N3 Hi) as NW.
      pose proof (limbs_nth l (length l - 1) Hl) as Hw.
      wstep. eapply wp_mono with (P := fun hd => hd = word_of (- val l) (length l - 1)).
      { rewrite NW by lia. destruct (Nat.eqb_spec (length l - 1) nz) as [E|E].
        - wstep. wstep.
          + apply Z.leb_le. rewrite not32_eq by exact Hw. unfold top_nz in Htop. unfold UINT_MAX. num; lia.
          + wstep. destruct (Nat.leb_spec (length l - 1) nz); [reflexivity|lia].
        - wstep. destruct (Nat.leb_spec (length l - 1) nz); [lia|reflexivity]. }
      cbn beta. intros hd ->. wstep. rewrite EV in *. unfold neg_part.
      split; rewrite ?Ewc; cbn [sign_of bits_of].
      * unfold neg_part. now rewrite (proj2 (Z.ltb_lt _ _)) by lia.
      * apply word_limb.
      * unfold neg_part. rewrite (proj2 (Z.ltb_lt _ _)) by lia. now apply Hneg.
      * intros i Hi. unfold dword_at. rewrite Es. cbn [Z.eqb Pos.eqb]. rewrite NW by lia. reflexivity.
      * lia.
    + assert (s = 1) as -> by (signs; lia). rewrite Z.mul_1_l in *.
      wstep. wstep; [reflexivity|]. wstep. wstep; [lia|]. wstep.
      split; rewrite ?Ewc; cbn [sign_of bits_of].
      * unfold neg_part. now rewrite (proj2 (Z.ltb_ge _ _)) by lia.
      * now apply limbs_nth.
      * unfold neg_part. rewrite (proj2 (Z.ltb_ge _ _)) by lia. rewrite Z.sub_0_r. symmetry.
        apply (Z.div_unique_pos _ _ _ (vl l (length l - 1))); [lia|]. lia.
      * intros i Hi. unfold dword_at. change (1 =? -1) with false. cbn beta iota.
        unfold word_of. rewrite <- pos_val, <- bp_Bp. apply pos_nth; [apply W32_ok|exact Hl].
      * lia.
Qed.

(** ** Number of bytes *)

Lemma u8_range x : 0 <= u8 x < 256.
Proof. unfold u8. apply Z.mod_pos_bound. lia. Qed.

Lemma four_bytes D : limb D ->
  exists b0 b1 b2 b3, D = b0 + 256 * b1 + 65536 * b2 + 16777216 * b3 /\
    0 <= b0 < 256 /\ 0 <= b1 < 256 /\ 0 <= b2 < 256 /\ 0 <= b3 < 256 /\
    u8 D = b0 /\ u8 (Z.shiftr D 8) = b1 /\ u8 (Z.shiftr D 16) = b2 /\ u8 (Z.shiftr D 24) = b3.
Proof.
  intros HD. exists (u8 D), (u8 (Z.shiftr D 8)), (u8 (Z.shiftr D 16)), (u8 (Z.shiftr D 24)).
  split; [|repeat split; apply u8_range].
  rewrite !Z.shiftr_div_pow2 by lia. unfold u8.
  change (2 ^ 8) with 256. change (2 ^ 16) with (256 * 256). change (2 ^ 24) with (256 * 256 * 256).
  rewrite <- !Z.div_div by lia.
  pose proof (Z.div_mod D 256 ltac:(lia)) as E0. pose proof (Z.div_mod (D / 256) 256 ltac:(lia)) as E1.
  pose proof (Z.div_mod (D / 256 / 256) 256 ltac:(lia)) as E2.
  assert (0 <= D / 256 / 256 / 256 < 256) as E3.
  { split; [repeat (apply Z.div_pos; [|lia]); num; lia|].
    repeat (apply Z.div_lt_upper_bound; [lia|]). num; lia. }
  rewrite (Z.mod_small (D / 256 / 256 / 256)) by exact E3. lia.
Qed.

Lemma p8_split n m : p8 (4 * n + m) = p8 m * Bp n.
Proof. rewrite bp_add by lia. rewrite p8_4. ring. Qed.

(** The value as [s] times 256^k plus lower bytes. *)
Lemma msb_split b V hb nz hd msb m :
  head_ok b V hb nz hd -> V <> 0 -> bytes_msb hb hd = (msb, m) ->
  let k := (4 * (word_count b - 1) + m)%nat in
  (m <= 3)%nat /\ 0 <= msb < 256 /\
  (exists L, 0 <= L < p8 k /\ V = (msb - neg_part V 256) * p8 k + L) /\
  (k <> O -> p8 k <= V \/ V <= - p8 k).
Proof.
  intros H HV E k. pose proof H as [Hb Hl Ht Hw Hbig].
  destruct (four_bytes hd Hl) as (b0 & b1 & b2 & b3 & ED & R0 & R1 & R2 & R3 & U0 & U1 & U2 & U3).
  unfold bytes_msb in E. rewrite U0, U1, U2, U3 in E.
  set (n := (word_count b - 1)%nat) in *. pose proof (Bp_pos n) as PB.
  pose proof (Z.div_mod V (Bp n) ltac:(lia)) as DV. pose proof (Z.mod_pos_bound V (Bp n) PB) as MV.
  rewrite Ht in DV. set (r := V mod Bp n) in *. clearbody r.
  assert (exists low, 0 <= low < p8 m /\ hd - neg_part V W32 = (msb - neg_part V 256) * p8 m + low /\
    (m <= 3)%nat /\ 0 <= msb < 256 /\ (m = O \/ msb <> hb)) as (low & HL & HH & Hm & Hmsb & Hne).
  { unfold neg_part in *. destruct (V <? 0); subst hb;
    destruct (Z.eqb_spec b3 255), (Z.eqb_spec b2 255), (Z.eqb_spec b1 255),
      (Z.eqb_spec b3 0), (Z.eqb_spec b2 0), (Z.eqb_spec b1 0); cbn [negb] in E; injection E as <- <-; try lia;
    first [ exists 0; change (p8 0) with 1; split; [lia|split; [num; lia|split; [lia|split; [lia|now left]]]]
          | exists b0; change (p8 1) with 256; split; [lia|split; [num; lia|split; [lia|split; [lia|right; lia]]]]
          | exists (b0 + 256 * b1); change (p8 2) with 65536; split; [lia|split; [num; lia|split; [lia|split; [lia|right; lia]]]]
          | exists (b0 + 256 * b1 + 65536 * b2); change (p8 3) with 16777216; split; [lia|split; [num; lia|split; [lia|split; [lia|right; lia]]]] ]. }
  assert (p8 k = p8 m * Bp n) as Ek by apply p8_split.
  set (s := msb - neg_part V 256) in *.
  assert (V = s * p8 k + (low * Bp n + r) /\ 0 <= low * Bp n + r < p8 k) as (EV & RL).
  { rewrite Ek. split.
    - rewrite DV at 1. rewrite HH. ring.
    - assert (0 <= low * Bp n) by (apply Z.mul_nonneg_nonneg; lia).
      assert (low * Bp n <= (p8 m - 1) * Bp n) by (apply Z.mul_le_mono_nonneg_r; lia). lia. }
  split; [exact Hm|]. split; [exact Hmsb|]. split.
  { exists (low * Bp n + r). split; [exact RL|exact EV]. }
  intros Hk. pose proof (p8_pos k) as Pk. set (P := p8 k) in *.
  destruct Hne as [-> | Hne].
  - (* m = 0: at least two words *)
    assert (2 <= word_count b)%nat as W2 by (unfold k, n in Hk; lia).
    specialize (Hbig W2). fold n in Hbig.
    assert (P = Bp n) as EP by (rewrite Ek; change (p8 0) with 1; ring). lia.
  - unfold s, neg_part in EV. subst hb. unfold neg_part in Hne. destruct (Z.ltb_spec V 0).
    + right. assert ((msb - 256) * P <= -2 * P) by (apply Z.mul_le_mono_nonneg_r; lia). lia.
    + left. assert (1 * P <= (msb - 0) * P) by (apply Z.mul_le_mono_nonneg_r; lia). lia.
Qed.

Definition extra_byte (hb msb : Z) (u : bool) : bool :=
  negb (Z.land msb 128 =? Z.land hb 128) && negb u.

Lemma extra_byte_eq V msb u : 0 <= msb < 256 ->
  extra_byte (neg_part V 255) msb u = negb (Bool.eqb (128 <=? msb) (V <? 0)) && negb u.
Proof.
  intros H. unfold extra_byte. f_equal. f_equal.
  pose proof (land128 msb H) as E.
  assert (Z.land msb 128 = 0 \/ Z.land msb 128 = 128) as D.
  { change 128 with (2 ^ 7). rewrite <- Z.land_comm.
    destruct (Z.testbit msb 7) eqn:T; [right|left]; apply Z.bits_inj'; intros i Hi;
      rewrite Z.land_spec, ?Z.bits_0, Z.pow2_bits_eqb by lia;
      destruct (Z.eqb_spec 7 i) as [<-|]; rewrite ?T; auto. }
  unfold neg_part. destruct D as [D|D]; rewrite D in *; rewrite <- E; destruct (V <? 0); reflexivity.
Qed.

(** [n] bytes hold [V]; no shorter non-empty string does. *)
Definition holds (u : bool) (n : nat) (V : Z) : Prop := if u then 0 <= V < p8 n else cfits 256 n V.

Lemma byte_len_ok b V hb nz hd msb m u :
  head_ok b V hb nz hd -> V <> 0 -> (u = true -> 0 < V) -> bytes_msb hb hd = (msb, m) ->
  let len := (4 * (word_count b - 1) + m + 1 + (if extra_byte hb msb u then 1 else 0))%nat in
  holds u len V /\ (forall n, (n < len)%nat -> n <> O -> ~ holds u n V).
Proof.
  intros H HV Hu E len.
  destruct (msb_split b V hb nz hd msb m H HV E) as (Hm & Hmsb & (L & RL & EV) & Hk).
  set (k := (4 * (word_count b - 1) + m)%nat) in *. fold k in len.
  pose proof (p8_pos k) as Pk.
  assert (holds u len V /\ ((len - 1 <> O)%nat -> ~ holds u (len - 1) V)) as (A & B).
  { unfold len. pose proof H as [Hb _ _ _ _]. subst hb. rewrite extra_byte_eq by exact Hmsb. unfold neg_part in EV.
    assert (p8 (k + 1) = 256 * p8 k) as E1 by (rewrite Nat.add_1_r; apply bp_S; lia).
    assert (p8 (k + 1 + 1) = 65536 * p8 k) as E2.
    { replace (k + 1 + 1)%nat with (S (S k)) by lia. rewrite !bp_S by lia. ring. }
    unfold holds, cfits.
    destruct u; cbn [negb]; rewrite ?Bool.andb_false_r, ?Bool.andb_true_r, ?Nat.add_0_r.
    - specialize (Hu eq_refl). destruct (Z.ltb_spec V 0); [lia|]. rewrite E1.
      replace (k + 1 - 1)%nat with k by lia.
      assert ((msb - 0) * p8 k <= 255 * p8 k) by (apply Z.mul_le_mono_nonneg_r; lia).
      split; [lia|]. intros Hk0. specialize (Hk Hk0). lia.
    - destruct (Z.leb_spec 128 msb), (Z.ltb_spec V 0); cbn [Bool.eqb negb]; rewrite ?Nat.add_0_r, ?E1, ?E2;
        rewrite ?Nat.add_sub, ?E1; set (P := p8 k) in *.
      + assert (-128 * P <= (msb - 256) * P <= -1 * P) by (split; apply Z.mul_le_mono_nonneg_r; lia).
        split; [lia|]. intros Hk0. specialize (Hk Hk0). fold P in Hk. lia.
      + assert (128 * P <= (msb - 0) * P <= 255 * P) by (split; apply Z.mul_le_mono_nonneg_r; lia).
        split; lia.
      + assert (-256 * P <= (msb - 256) * P <= -129 * P) by (split; apply Z.mul_le_mono_nonneg_r; lia).
        split; lia.
      + assert (0 * P <= (msb - 0) * P <= 127 * P) by (split; apply Z.mul_le_mono_nonneg_r; lia).
        split; [lia|]. intros Hk0. specialize (Hk Hk0). fold P in Hk. lia. }
  split; [exact A|]. intros n Hn Hn0 F. apply B; [lia|]. unfold holds, cfits in *.
  pose proof (bp_le 256 B8_ok n (len - 1) ltac:(lia)). destruct u; lia.
Qed.

(** ** Bytes of a word *)

Lemma word_byte V i t : (t <= 3)%nat ->
  u8 (Z.shiftr (word_of V i) (8 * Z.of_nat t)) = byte_of V (4 * i + t).
Proof.
  intros Ht. unfold word_of, byte_of, u8. rewrite p8_split, Z.shiftr_div_pow2 by lia.
  rewrite Z.pow_mul_r by lia. change (2 ^ 8) with 256. change (256 ^ Z.of_nat t) with (p8 t).
  pose proof (p8_pos t) as P. pose proof (Bp_pos i) as Q. rewrite (Z.mul_comm (p8 t)), <- Z.div_div by lia.
  set (x := V / Bp i). clearbody x.
  pose proof (Z.div_mod x W32 ltac:(num; lia)) as E.
  assert (W32 = p8 t * (p8 (3 - t) * 256)) as EW.
  { rewrite <- (Z.mul_comm 256), <- bp_S, <- bp_add by lia. replace (t + S (3 - t))%nat with 4%nat by lia. reflexivity. }
  rewrite E at 2. set (r := x mod W32) in *. set (q := x / W32) in *. clearbody r q.
  rewrite EW. replace (p8 t * (p8 (3 - t) * 256) * q + r) with (r + (p8 (3 - t) * q * 256) * p8 t) by ring.
  rewrite Z.div_add by lia. now rewrite Z.mod_add by lia.
Qed.

Lemma high_word b V hb nz hd : head_ok b V hb nz hd -> hd = word_of V (word_count b - 1).
Proof.
  intros [_ Hl Ht _ _]. unfold word_of. rewrite Ht. unfold neg_part. destruct (V <? 0).
  - replace (hd - W32) with (hd + (-1) * W32) by ring. rewrite Z.mod_add by (num; lia). symmetry. now apply Z.mod_small.
  - rewrite Z.sub_0_r. symmetry. now apply Z.mod_small.
Qed.

(** ** Writing the bytes *)

Record written (be : bool) (len : nat) (V : Z) (dest : list Z) (j : nat) : Prop := {
  w_len : length dest = len;
  w_bytes : bytes dest;
  w_get : forall i, (i < j)%nat -> nth (idx be len i) dest 0 = byte_of V i
}.

Lemma written_zeros be len V : written be len V (zeros len) 0.
Proof.
  split; [apply length_zeros| |lia]. apply Forall_forall. intros x Hx. apply repeat_spec in Hx. lia.
Qed.

Lemma write_step be len V dest j z v : written be len V dest j -> (j < len)%nat ->
  z = zidx be len (Z.of_nat j) -> v = byte_of V j ->
  wp (wrz dest z v) (fun d => written be len V d (S j)).
Proof.
  intros [L B G] Hj -> ->. pose proof (byte_range V j) as R. wstep.
  { rewrite L. destruct be; cbn [zidx]; lia. }
  replace (Z.to_nat (zidx be len (Z.of_nat j))) with (idx be len j) by (destruct be; cbn [zidx idx]; lia).
  split.
  - now rewrite length_upd.
  - revert B R. generalize (idx be len j), (byte_of V j). clear. intros i v B R. revert i.
    induction B; intros [|i]; cbn [upd]; try constructor; auto. apply IHB.
  - intros i Hi. destruct (Nat.eq_dec i j) as [->|Hne].
    + apply nth_upd_same. rewrite L. destruct be; cbn [idx]; lia.
    + rewrite nth_upd_other; [apply G; lia|]. destruct be; cbn [idx]; lia.
Qed.

Lemma zidx_S be len j : zidx be len (Z.of_nat j) + (if be then -1 else 1) = zidx be len (Z.of_nat (S j)).
Proof. destruct be; cbn [zidx]; lia. Qed.

Lemma written_value u be len V dest : written be len V dest len -> holds u len V -> bytes_value u be dest = V.
Proof.
  intros [L B G] H.
  assert (forall i, (i < length (le_order be dest))%nat -> nth i (le_order be dest) 0 = (V / p8 i) mod 256) as N.
  { intros i Hi. rewrite le_length in Hi. rewrite le_nth by exact Hi. rewrite L in *. apply G. exact Hi. }
  unfold bytes_value. destruct u; unfold holds in H.
  - rewrite (pos_digits 256 B8_ok _ V N), le_length, L. now apply Z.mod_small.
  - apply (complement_unique 256 B8_ok B8_even); [now apply le_bytes|now rewrite le_length, L|exact N].
Qed.

Lemma extra_top b V hb nz hd msb m :
  head_ok b V hb nz hd -> V <> 0 -> bytes_msb hb hd = (msb, m) ->
  hb = byte_of V (4 * (word_count b - 1) + m + 1).
Proof.
  intros H HV E. destruct (msb_split b V hb nz hd msb m H HV E) as (Hm & Hmsb & (L & RL & EV) & _).
  pose proof H as [Hb _ _ _ _]. set (k := (4 * (word_count b - 1) + m)%nat) in *.
  unfold byte_of. rewrite Nat.add_1_r, bp_S by lia. pose proof (p8_pos k) as P. set (p := p8 k) in *.
  subst hb. unfold neg_part in *. destruct (Z.ltb_spec V 0).
  - replace (V / (256 * p)) with (-1); [reflexivity|].
    assert (-256 * p <= (msb - 256) * p <= -1 * p) by (split; apply Z.mul_le_mono_nonneg_r; lia).
    apply (Z.div_unique_pos _ _ _ (V + 256 * p)); lia.
  - rewrite Z.div_small; [reflexivity|].
    assert ((msb - 0) * p <= 255 * p) by (apply Z.mul_le_mono_nonneg_r; lia). lia.
Qed.

Lemma repr_sign_zero b V : represents b V -> sign_of b = 0 -> V = 0.
Proof.
  intros H E. apply repr_parts in H. destruct b as [s l]. cbn [sign_of] in E. subst s. inv_parts H; [reflexivity|lia].
Qed.

(** The two modes together. *)
Lemma to_bytes_mode_spec c mode b V u be :
  represents b V -> V <> 0 -> (u = true -> 0 < V) ->
  exists len, holds u len V /\ len <> O /\ (forall n, (n < len)%nat -> n <> O -> ~ holds u n V) /\
    match mode with
    | CountOnly => bi_to_bytes_mode c mode b u be = Ret ([], Z.of_nat len)
    | AllocateArray => exists d, bi_to_bytes_mode c mode b u be = Ret (d, 0) /\ length d = len /\ bytes d /\
        bytes_value u be d = V
    end.
Proof.
  intros Hb HV Hu. pose proof (bytes_head_spec c b V Hb HV) as HH.
  apply wp_inv in HH. destruct HH as (((hb, nz), hd) & EH & H).
  destruct (bytes_msb hb hd) as (msb, m) eqn:EM.
  pose proof (byte_len_ok b V hb nz hd msb m u H HV Hu EM) as (HL & HM).
  set (len := (4 * (word_count b - 1) + m + 1 + (if extra_byte hb msb u then 1 else 0))%nat) in *.
  exists len. split; [exact HL|]. split; [unfold len; lia|]. split; [exact HM|].
  assert ((if is_nil (bits_of b) then (m + 1 + (if extra_byte hb msb u then 1 else 0))%nat
     else (4 * (length (bits_of b) - 1) + (m + 1 + (if extra_byte hb msb u then 1 else 0)))%nat) = len) as EL.
  { unfold len, word_count. destruct (is_nil (bits_of b)); lia. }
  pose proof (extra_top b V hb nz hd msb m H HV EM) as ET.
  destruct (msb_split b V hb nz hd msb m H HV EM) as (Hm & _ & _ & _).
  pose proof (high_word b V hb nz hd H) as Ehd. pose proof H as [_ _ _ Hw _].
  unfold bi_to_bytes_mode.
  assert (sign_of b =? 0 = false) as Es0.
  { apply Z.eqb_neq. intros E. apply HV. apply (repr_sign_zero b V Hb). exact E. }
  assert (u && (sign_of b <? 0) = false) as Es1.
  { destruct u; [|reflexivity]. cbn [andb]. rewrite (repr_sign_ltb b V Hb). apply Z.ltb_ge. specialize (Hu eq_refl). lia. }
  rewrite Es0, Es1, EH. cbn [bind]. rewrite EM. fold (extra_byte hb msb u). cbv zeta. rewrite EL.
  destruct mode; [|reflexivity].
  match goal with |- exists d, ?X = _ /\ _ =>
    assert (wp X (fun r => exists d, r = (d, 0) /\ length d = len /\ bytes d /\ bytes_value u be d = V)) as WP end.
  2:{ apply wp_inv in WP. destruct WP as (r & E & d & -> & R). exists d. tauto. }
  clear EH EL. set (xt := extra_byte hb msb u) in *. clearbody xt.
  set (n := (word_count b - 1)%nat) in *.
  replace (if be then Z.of_nat len - 1 else 0) with (zidx be len (Z.of_nat 0)) by (destruct be; cbn [zidx]; lia).
  set (inc := if be then -1 else 1).
  assert (forall j, zidx be len (Z.of_nat j) + inc = zidx be len (Z.of_nat (S j))) as ZS by (intros j; apply zidx_S).
  wstep. eapply wp_mono with
    (P := fun r => written be len V (fst r) (4 * n) /\ snd r = zidx be len (Z.of_nat (4 * n))).
  { destruct (is_nil (bits_of b)) eqn:En.
    - assert (n = O) as -> by (unfold n, word_count; rewrite En; reflexivity).
      wstep. cbn [fst snd]. split; [apply written_zeros|reflexivity].
    - assert (n = length (bits_of b) - 1)%nat as En' by (unfold n, word_count; rewrite En; reflexivity).
      rewrite <- En'.
      eapply wp_for_up with (I := fun i r => written be len V (fst r) (4 * i) /\ snd r = zidx be len (Z.of_nat (4 * i))).
      + cbn [fst snd]. split; [apply written_zeros|reflexivity].
      + intros i (dest, cur) Hi (W & EC). cbn [fst snd] in W, EC. subst cur.
        wstep. wstep; [lia|]. fold (dword_at (sign_of b) (bits_of b) nz i). rewrite Hw by lia.
        assert (4 * i + 3 < len)%nat as Hlen by (unfold len; lia).
        rewrite !ZS.
        wstep. eapply wp_mono; [apply (write_step be len V _ (4 * i)); [exact W|lia|reflexivity|]|].
        { pose proof (word_byte V i 0 ltac:(lia)) as E. rewrite Nat.add_0_r in E. exact E. }
        intros d1 W1. wstep. eapply wp_mono; [apply (write_step be len V _ (S (4 * i))); [exact W1|lia|reflexivity|]|].
        { pose proof (word_byte V i 1 ltac:(lia)) as E. rewrite Nat.add_1_r in E. exact E. }
        intros d2 W2. wstep. eapply wp_mono; [apply (write_step be len V _ (S (S (4 * i)))); [exact W2|lia|reflexivity|]|].
        { pose proof (word_byte V i 2 ltac:(lia)) as E. replace (S (S (4 * i))) with (4 * i + 2)%nat by lia. exact E. }
        intros d3 W3. wstep. eapply wp_mono; [apply (write_step be len V _ (S (S (S (4 * i))))); [exact W3|lia|reflexivity|]|].
        { pose proof (word_byte V i 3 ltac:(lia)) as E. replace (S (S (S (4 * i)))) with (4 * i + 3)%nat by lia. exact E. }
        intros d4 W4. wstep. cbn [fst snd]. rewrite ?ZS. replace (4 * S i)%nat with (S (S (S (S (4 * i))))) by lia.
        split; [exact W4|reflexivity].
      + intros (d, cur) (W & EC). split; [exact W|exact EC]. }
  intros (dest, cur) (W & EC). cbn [fst snd] in W, EC. subst cur.
  assert (len = 4 * n + m + 1 + (if xt then 1 else 0))%nat as Elen by reflexivity. clearbody len.
  wstep. eapply wp_mono; [apply (write_step be len V _ (4 * n)); [exact W|lia|reflexivity|]|].
  { pose proof (word_byte V n 0 ltac:(lia)) as E. rewrite Nat.add_0_r in E. rewrite Ehd. exact E. }
  intros d1 W1. wstep.
  eapply wp_mono with
    (P := fun r => written be len V (fst r) (4 * n + m + 1) /\ snd r = zidx be len (Z.of_nat (4 * n + m))).
  { destruct (Nat.eqb_spec m 0) as [Em|Em].
    { wstep. cbn [fst snd]. rewrite Em, Nat.add_0_r, Nat.add_1_r. split; [exact W1|reflexivity]. }
    rewrite ?ZS.
    wstep. eapply wp_mono; [apply (write_step be len V _ (S (4 * n))); [exact W1|lia|reflexivity|]|].
    { pose proof (word_byte V n 1 ltac:(lia)) as E. rewrite Nat.add_1_r in E. rewrite Ehd. exact E. }
    intros d2 W2. destruct (Nat.eqb_spec m 1) as [Em1|Em1].
    { wstep. cbn [fst snd]. rewrite Em1. replace (4 * n + 1 + 1)%nat with (S (S (4 * n))) by lia. rewrite Nat.add_1_r.
      split; [exact W2|reflexivity]. }
    rewrite ?ZS.
    wstep. eapply wp_mono; [apply (write_step be len V _ (S (S (4 * n)))); [exact W2|lia|reflexivity|]|].
    { pose proof (word_byte V n 2 ltac:(lia)) as E. replace (S (S (4 * n))) with (4 * n + 2)%nat by lia. rewrite Ehd. exact E. }
    intros d3 W3. destruct (Nat.eqb_spec m 2) as [Em2|Em2].
    { wstep. cbn [fst snd]. rewrite Em2. replace (4 * n + 2 + 1)%nat with (S (S (S (4 * n)))) by lia.
      replace (4 * n + 2)%nat with (S (S (4 * n))) by lia. split; [exact W3|reflexivity]. }
    rewrite ?ZS.
    wstep. eapply wp_mono; [apply (write_step be len V _ (S (S (S (4 * n))))); [exact W3|lia|reflexivity|]|].
    { pose proof (word_byte V n 3 ltac:(lia)) as E. replace (S (S (S (4 * n)))) with (4 * n + 3)%nat by lia. rewrite Ehd. exact E. }
    intros d4 W4. wstep. cbn [fst snd]. assert (m = 3%nat) as -> by lia.
    replace (4 * n + 3 + 1)%nat with (S (S (S (S (4 * n))))) by lia.
    replace (4 * n + 3)%nat with (S (S (S (4 * n)))) by lia. split; [exact W4|reflexivity]. }
  intros (d2, cur) (W2 & EC). cbn [fst snd] in W2, EC. subst cur.
  wstep. wstep.
  { destruct be; [reflexivity|]. cbn [orb zidx]. destruct xt; cbn [negb andb orb]; [|rewrite Bool.orb_false_r];
      apply Z.eqb_eq; lia. }
  wstep. wstep.
  { destruct be; [|reflexivity]. cbn [orb zidx negb]. destruct xt; cbn [negb andb orb]; [|rewrite Bool.orb_false_r];
      apply Z.eqb_eq; lia. }
  wstep. eapply wp_mono with (P := fun d => written be len V d len).
  { destruct xt.
    - rewrite ZS. assert (S (4 * n + m + 1) = len) as Es by lia.
      eapply wp_mono; [apply (write_step be len V d2 (4 * n + m + 1)); [exact W2|lia|f_equal; lia|exact ET]|].
      intros d Wd. rewrite Es in Wd. exact Wd.
    - wstep. assert (4 * n + m + 1 = len)%nat as Es by lia. rewrite Es in W2. exact W2. }
  intros d3 W3. wstep. exists d3. split; [reflexivity|]. pose proof W3 as [L B _].
  split; [exact L|]. split; [exact B|]. eapply written_value; [exact W3|exact HL].
Qed.

(** ** Laws *)

Lemma holds_bytes u be l : bytes l -> holds u (length l) (bytes_value u be l).
Proof.
  intros H. unfold holds, bytes_value. destruct u.
  - pose proof (pos_bound 256 B8_ok _ (le_bytes be l H)) as P. now rewrite le_length in P.
  - pose proof (complement_range 256 B8_ok B8_even _ (le_bytes be l H)) as P. now rewrite le_length in P.
Qed.

Lemma to_bytes_returns c a x u be :
  represents a x -> (u = true -> 0 <= x) ->
  exists l, bi_to_bytes c a u be = Ret l /\ digits 256 l /\ bytes_value u be l = x /\ l <> [] /\
    forall l', digits 256 l' -> bytes_value u be l' = x -> l' <> [] -> (length l <= length l')%nat.
Proof.
  intros Ha Hu. destruct (Z.eq_dec x 0) as [->|Hx].
  - apply represents_unique with (b := Big 0 []) in Ha; [|apply repr_zero]. subst a.
    exists [0]. split; [reflexivity|]. split; [repeat constructor; lia|]. split; [destruct u, be; reflexivity|].
    split; [discriminate|]. intros l' _ _ Hn. destruct l'; [congruence|cbn [length]; lia].
  - destruct (to_bytes_mode_spec c AllocateArray a x u be Ha Hx) as (len & HL & Hn & HM & d & E & L & B & EV).
    { intros E. specialize (Hu E). lia. }
    exists d. unfold bi_to_bytes. rewrite E. cbn [bind]. split; [reflexivity|]. split; [exact B|].
    split; [exact EV|]. split; [intros ->; cbn [length] in L; congruence|].
    intros l' Hl' Ev' Hn'. rewrite L. destruct (Nat.le_gt_cases len (length l')) as [G|G]; [exact G|exfalso].
    apply (HM (length l')); [lia|destruct l'; [congruence|discriminate]|].
    rewrite <- Ev'. now apply holds_bytes.
Qed.

Lemma to_bytes_throws c a x be : represents a x -> x < 0 ->
  bi_to_bytes c a true be = Throw RuntimeError /\ bi_byte_count c a true = Throw RuntimeError.
Proof.
  intros Ha Hx. unfold bi_to_bytes, bi_byte_count, bi_to_bytes_mode.
  assert (sign_of a =? 0 = false) as ->.
  { apply Z.eqb_neq. intros E. pose proof (repr_sign_zero a x Ha E). lia. }
  rewrite (repr_sign_ltb a x Ha). apply Z.ltb_lt in Hx. rewrite Hx. split; reflexivity.
Qed.

Lemma byte_count_returns c a x u be :
  represents a x -> (u = true -> 0 <= x) ->
  exists l, bi_to_bytes c a u be = Ret l /\ bi_byte_count c a u = Ret (Z.of_nat (length l)).
Proof.
  intros Ha Hu. destruct (Z.eq_dec x 0) as [->|Hx].
  - apply represents_unique with (b := Big 0 []) in Ha; [|apply repr_zero]. subst a.
    exists [0]. split; reflexivity.
  - assert (u = true -> 0 < x) as Hu' by (intros E; specialize (Hu E); lia).
    destruct (to_bytes_mode_spec c AllocateArray a x u be Ha Hx Hu') as (len & HL & Hn & HM & d & E & L & B & EV).
    destruct (to_bytes_mode_spec c CountOnly a x u false Ha Hx Hu') as (len' & HL' & Hn' & HM' & E').
    exists d. unfold bi_to_bytes, bi_byte_count. rewrite E, E'. cbn [bind]. split; [reflexivity|].
    f_equal. f_equal. rewrite L.
    destruct (Nat.lt_trichotomy len len') as [G|[G|G]]; [exfalso; apply (HM' len); assumption|congruence|].
    exfalso. apply (HM len'); assumption.
Qed.

Lemma byte_count_value c a x u :
  represents a x -> (u = true -> 0 <= x) ->
  exists n, bi_byte_count c a u = Ret n /\ 1 <= n /\
    forall m, 1 <= m -> (n <= m <-> if u then x < 256 ^ m else - 256 ^ m <= 2 * x < 256 ^ m).
Proof.
  intros Ha Hu. destruct (Z.eq_dec x 0) as [->|Hx].
  - apply represents_unique with (b := Big 0 []) in Ha; [|apply repr_zero]. subst a.
    exists 1. split; [reflexivity|]. split; [lia|]. intros m Hm.
    pose proof (Z.pow_pos_nonneg 256 m). destruct u; lia.
  - assert (u = true -> 0 < x) as Hu' by (intros E; specialize (Hu E); lia).
    destruct (to_bytes_mode_spec c CountOnly a x u false Ha Hx Hu') as (len & HL & Hn & HM & E).
    exists (Z.of_nat len). unfold bi_byte_count. rewrite E. cbn [bind]. split; [reflexivity|]. split; [lia|].
    intros m Hm. replace (256 ^ m) with (p8 (Z.to_nat m)) by (unfold bp; rewrite Z2Nat.id by lia; reflexivity).
    split.
    + intros G. pose proof (bp_le 256 B8_ok len (Z.to_nat m) ltac:(lia)) as P. unfold holds, cfits in HL.
      destruct u; lia.
    + intros G. destruct (Z.le_gt_cases (Z.of_nat len) m) as [K|K]; [exact K|exfalso].
      apply (HM (Z.to_nat m)); [lia|lia|]. unfold holds, cfits. destruct u; [specialize (Hu eq_refl)|]; lia.
Qed.

Lemma bytes_round_trip c a x u be :
  represents a x -> (u = true -> 0 <= x) -> strict c = false \/ 0 <= x \/ x < - 2 ^ 31 ->
  (l <- bi_to_bytes c a u be ;; bi_of_bytes c l u be) = Ret a.
Proof.
  intros Ha Hu Hs. destruct (to_bytes_returns c a x u be Ha Hu) as (l & E & D & V & Hn & _).
  rewrite E. cbn [bind]. pose proof (of_bytes_spec c l u be D) as S.
  assert (strict c = false \/ 0 <= bytes_value u be l \/ (4 < length l)%nat) as Hs'.
  { destruct Hs as [Hs|[Hs|Hs]]; [now left|right; left; lia|right; right].
    pose proof (holds_bytes u be l D) as K. rewrite V in K. destruct u; [specialize (Hu eq_refl); lia|].
    unfold holds, cfits in K. destruct (Nat.lt_ge_cases 4 (length l)) as [G|G]; [exact G|exfalso].
    pose proof (bp_le 256 B8_ok (length l) 4 G) as P. change (p8 4) with 4294967296 in P. lia. }
  specialize (S Hs'). apply wp_inv in S. destruct S as (r & -> & R). f_equal. rewrite V in R.
  eapply represents_unique; [exact R|exact Ha].
Qed.

Lemma of_bytes_returns c l u be :
  digits 256 l -> strict c = false \/ 0 <= bytes_value u be l \/ (4 < length l)%nat ->
  returns (bi_of_bytes c l u be) (bytes_value u be l).
Proof. intros D H. apply returns_wp. now apply of_bytes_spec. Qed.

(** ** The overload with a pointer *)

Lemma bytes_ptr_spec c a x u be p :
  represents a x -> (u = true -> 0 <= x) ->
  exists l, bi_to_bytes c a u be = Ret l /\
    bi_to_bytes_ptr c CountOnly a u be p =
      (match p with None => Undef OutOfBounds | Some _ => Ret ([], Some (Z.of_nat (length l))) end) /\
    bi_to_bytes_ptr c AllocateArray a u be p =
      (if x =? 0 then match p with None => Undef OutOfBounds | Some _ => Ret (l, Some (Z.of_nat (length l))) end
       else Ret (l, p)).
Proof.
  intros Ha Hu. destruct (Z.eq_dec x 0) as [->|Hx].
  - apply represents_unique with (b := Big 0 []) in Ha; [|apply repr_zero]. subst a.
    exists [0]. repeat split.
  - assert (u = true -> 0 < x) as Hu' by (intros E; specialize (Hu E); lia).
    destruct (to_bytes_mode_spec c AllocateArray a x u be Ha Hx Hu') as (len & HL & Hn & HM & d & E & L & B & EV).
    destruct (to_bytes_mode_spec c CountOnly a x u be Ha Hx Hu') as (len' & HL' & Hn' & HM' & E').
    exists d. unfold bi_to_bytes, bi_to_bytes_ptr. rewrite E, E'. cbn [bind].
    assert (sign_of a =? 0 = false) as ->.
    { apply Z.eqb_neq. intros S0. pose proof (repr_sign_zero a x Ha S0). lia. }
    rewrite (proj2 (Z.eqb_neq x 0)) by exact Hx. cbn [orb].
    split; [reflexivity|]. split; [|reflexivity]. destruct p as [v|]; [|reflexivity]. do 4 f_equal. rewrite L.
    destruct (Nat.lt_trichotomy len len') as [G|[G|G]]; [exfalso; apply (HM' len); assumption|congruence|].
    exfalso. apply (HM len'); assumption.
Qed.

Lemma bytes_ptr_throws c a x be p mode : represents a x -> x < 0 ->
  bi_to_bytes_ptr c mode a true be p = Throw RuntimeError.
Proof.
  intros Ha Hx. unfold bi_to_bytes_ptr, bi_to_bytes_mode.
  assert (sign_of a =? 0 = false) as ->.
  { apply Z.eqb_neq. intros E. pose proof (repr_sign_zero a x Ha E). lia. }
  rewrite (repr_sign_ltb a x Ha). apply Z.ltb_lt in Hx. rewrite Hx. destruct mode; reflexivity.
Qed.

(** With a pointer, and the count wanted or the value zero: right. *)
Lemma bytes_ptr_right c a x u be v mode : represents a x -> (u = true -> 0 <= x) -> mode = CountOnly \/ x = 0 ->
  exists l, bi_to_bytes c a u be = Ret l /\
    bi_to_bytes_ptr c mode a u be (Some v) =
      Ret (match mode with CountOnly => [] | AllocateArray => l end, Some (Z.of_nat (length l))).
Proof.
  intros Ha Hu H. destruct (bytes_ptr_spec c a x u be (Some v) Ha Hu) as (l & E & E1 & E2). exists l. split; [exact E|].
  destruct mode; [|exact E1]. destruct H as [H|H]; [discriminate|]. subst x. exact E2.
Qed.
Lemma bytes_ptr_unwritten c a x u be p : represents a x -> (u = true -> 0 <= x) -> x <> 0 ->
  exists l, bi_to_bytes c a u be = Ret l /\ bi_to_bytes_ptr c AllocateArray a u be p = Ret (l, p).
Proof.
  intros Ha Hu H. destruct (bytes_ptr_spec c a x u be p Ha Hu) as (l & E & E1 & E2). exists l. split; [exact E|].
  rewrite (proj2 (Z.eqb_neq x 0) H) in E2. exact E2.
Qed.
Lemma bytes_ptr_null c a x u be mode : represents a x -> (u = true -> 0 <= x) ->
  (bi_to_bytes_ptr c mode a u be None = Undef OutOfBounds <-> mode = CountOnly \/ x = 0).
Proof.
  intros Ha Hu. destruct (bytes_ptr_spec c a x u be None Ha Hu) as (l & E & E1 & E2).
  destruct mode.
  - rewrite E2. destruct (Z.eqb_spec x 0); split; intros H; tauto || discriminate || (destruct H; [discriminate|contradiction]).
  - rewrite E1. tauto.
Qed.
