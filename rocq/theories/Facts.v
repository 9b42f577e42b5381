(** Reasoning rules for outcomes and loops, and the value of limb arrays. *)
From Coq Require Export Lia Zdiv Zpow_facts.
From Verif Require Export Machine.

Ltac Zify.zify_post_hook ::= Z.div_mod_to_equations.

#[global] Arguments Z.add : simpl never.
#[global] Arguments Z.sub : simpl never.
#[global] Arguments Z.mul : simpl never.
#[global] Arguments Z.opp : simpl never.
#[global] Arguments Z.div : simpl never.
#[global] Arguments Z.modulo : simpl never.
#[global] Arguments Z.pow : simpl never.
#[global] Arguments Z.shiftl : simpl never.
#[global] Arguments Z.shiftr : simpl never.
#[global] Arguments Z.of_nat : simpl never.
#[global] Arguments Z.to_nat : simpl never.
#[global] Arguments Z.land : simpl never.
#[global] Arguments Z.lor : simpl never.
#[global] Arguments Z.lxor : simpl never.

(** ** Outcomes *)

Definition wp {A} (m : outcome A) (Q : A -> Prop) : Prop :=
  match m with Ret a => Q a | _ => False end.

Lemma wp_inv {A} (m : outcome A) Q : wp m Q -> exists a, m = Ret a /\ Q a.
Proof. destruct m; simpl; try contradiction. eauto. Qed.

Lemma wp_ret {A} (a : A) (Q : A -> Prop) : Q a -> wp (Ret a) Q.
Proof. exact (fun H => H). Qed.

Lemma wp_mono {A} (m : outcome A) (P Q : A -> Prop) :
  wp m P -> (forall a, P a -> Q a) -> wp m Q.
Proof. destruct m; simpl; auto. Qed.

Lemma wp_bind {A B} (m : outcome A) (k : A -> outcome B) Q :
  wp m (fun a => wp (k a) Q) -> wp (bind m k) Q.
Proof. destruct m; simpl; auto. Qed.

Lemma wp_bind_cut {A B} (m : outcome A) (k : A -> outcome B) P Q :
  wp m P -> (forall a, P a -> wp (k a) Q) -> wp (bind m k) Q.
Proof. destruct m; simpl; auto. Qed.

Lemma wp_massert c b (Q : unit -> Prop) : b = true -> Q tt -> wp (massert c b) Q.
Proof. intros -> H. unfold massert. destruct (dbg c); exact H. Qed.

Lemma wp_rd l i (Q : Z -> Prop) : (i < length l)%nat -> Q (nth i l 0) -> wp (rd l i) Q.
Proof.
  intros Hi HQ. unfold rd.
  rewrite (nth_error_nth' l 0 Hi). exact HQ.
Qed.

Lemma wp_rdz l i (Q : Z -> Prop) :
  0 <= i < Z.of_nat (length l) -> Q (nth (Z.to_nat i) l 0) -> wp (rdz l i) Q.
Proof.
  intros Hi HQ. unfold rdz.
  destruct (Z.ltb_spec i 0); [lia|]. apply wp_rd; [lia|exact HQ].
Qed.

Lemma wp_wr l i v (Q : list Z -> Prop) :
  (i < length l)%nat -> Q (upd l i v) -> wp (wr l i v) Q.
Proof.
  intros Hi HQ. unfold wr. rewrite (proj2 (Nat.ltb_lt _ _) Hi). exact HQ.
Qed.

Lemma wp_wrz l i v (Q : list Z -> Prop) :
  0 <= i < Z.of_nat (length l) -> Q (upd l (Z.to_nat i) v) -> wp (wrz l i v) Q.
Proof.
  intros Hi HQ. unfold wrz.
  destruct (Z.ltb_spec i 0); [lia|]. apply wp_wr; [lia|exact HQ].
Qed.

Lemma wp_slice l off len (Q : list Z -> Prop) :
  (off + len <= length l)%nat -> Q (firstn len (skipn off l)) -> wp (slice l off len) Q.
Proof.
  intros Hi HQ. unfold slice. rewrite (proj2 (Nat.leb_le _ _) Hi). exact HQ.
Qed.

Lemma wp_splice l off s (Q : list Z -> Prop) :
  (off + length s <= length l)%nat ->
  Q (firstn off l ++ s ++ skipn (off + length s) l) -> wp (splice l off s) Q.
Proof.
  intros Hi HQ. unfold splice. rewrite (proj2 (Nat.leb_le _ _) Hi). exact HQ.
Qed.

Lemma wp_fill l n v (Q : list Z -> Prop) :
  (n <= length l)%nat -> Q (repeat v n ++ skipn n l) -> wp (fill l n v) Q.
Proof.
  intros Hi HQ. unfold fill. rewrite (proj2 (Nat.leb_le _ _) Hi). exact HQ.
Qed.

Lemma chk64_ok c x : LONG_MIN <= x <= LONG_MAX -> chk64 c x = Ret x.
Proof.
  intros [H1 H2]. unfold chk64.
  rewrite (proj2 (Z.leb_le _ _) H1), (proj2 (Z.leb_le _ _) H2). reflexivity.
Qed.

Lemma chk32_ok c x : INT_MIN <= x <= INT_MAX -> chk32 c x = Ret x.
Proof.
  intros [H1 H2]. unfold chk32.
  rewrite (proj2 (Z.leb_le _ _) H1), (proj2 (Z.leb_le _ _) H2). reflexivity.
Qed.

Lemma wp_chk64 c x (Q : Z -> Prop) : LONG_MIN <= x <= LONG_MAX -> Q x -> wp (chk64 c x) Q.
Proof. intros H HQ. rewrite chk64_ok; auto. Qed.

Lemma wp_chk32 c x (Q : Z -> Prop) : INT_MIN <= x <= INT_MAX -> Q x -> wp (chk32 c x) Q.
Proof. intros H HQ. rewrite chk32_ok; auto. Qed.

Lemma u32_small x : 0 <= x < W32 -> u32 x = x.
Proof. intros; apply Z.mod_small; assumption. Qed.
Lemma u64_small x : 0 <= x < W64 -> u64 x = x.
Proof. intros; apply Z.mod_small; assumption. Qed.
Lemma u32_range x : 0 <= u32 x < W32.
Proof. apply Z.mod_pos_bound. reflexivity. Qed.
Lemma u64_range x : 0 <= u64 x < W64.
Proof. apply Z.mod_pos_bound. reflexivity. Qed.

Lemma abs32_ok c x : INT_MIN < x <= INT_MAX -> abs32 c x = Ret (Z.abs x).
Proof.
  intros H. unfold abs32. rewrite chk32_ok by (unfold INT_MIN, INT_MAX in *; lia). simpl.
  f_equal. apply u32_small. unfold INT_MIN, INT_MAX, W32 in *; lia.
Qed.

Lemma wp_abs32 c x (Q : Z -> Prop) : INT_MIN < x <= INT_MAX -> Q (Z.abs x) -> wp (abs32 c x) Q.
Proof. intros H HQ. rewrite abs32_ok; auto. Qed.

Lemma s32_small x : INT_MIN <= x <= INT_MAX -> s32 x = x.
Proof.
  unfold s32, INT_MIN, INT_MAX, u32, W32. intros H.
  destruct (Z.ltb_spec (x mod 4294967296) 2147483648); lia.
Qed.

(** ** Loops *)

Lemma wp_for_up {S : Type} n start body (s : S) (I : nat -> S -> Prop) (Q : S -> Prop) :
  I start s ->
  (forall i s, (start <= i < start + n)%nat -> I i s -> wp (body i s) (I (Datatypes.S i))) ->
  (forall s, I (start + n)%nat s -> Q s) ->
  wp (for_up n start body s) Q.
Proof.
  revert start s. induction n as [|n IH]; intros start s H0 Hb HQ; simpl.
  - apply HQ. now rewrite Nat.add_0_r.
  - apply wp_bind. eapply wp_mono; [apply Hb; [lia|exact H0]|].
    intros s' Hs'. apply IH; auto.
    + intros; apply Hb; auto; lia.
    + intros s2 H2. apply HQ. now replace (start + Datatypes.S n)%nat with (Datatypes.S start + n)%nat by lia.
Qed.

Lemma wp_for_down {S : Type} n body (s : S) (I : nat -> S -> Prop) (Q : S -> Prop) :
  I n s ->
  (forall i s, (i < n)%nat -> I (Datatypes.S i) s -> wp (body i s) (I i)) ->
  (forall s, I O s -> Q s) ->
  wp (for_down n body s) Q.
Proof.
  revert s. induction n as [|n IH]; intros s H0 Hb HQ; simpl.
  - apply HQ, H0.
  - apply wp_bind. eapply wp_mono; [apply Hb; [lia|exact H0]|].
    intros s' Hs'. apply IH; auto.
Qed.

(** A counted loop that may stop early: it either runs to the end or stops at
    some [i] with the condition false. *)
Lemma wp_for_up_while {S : Type} n start cond body (s : S) (I : nat -> S -> Prop) (Q : S -> Prop) :
  I start s ->
  (forall i s, (start <= i < start + n)%nat -> cond s = true -> I i s ->
               wp (body i s) (I (Datatypes.S i))) ->
  (forall i s, (start <= i <= start + n)%nat -> I i s ->
               (i = start + n)%nat \/ cond s = false -> Q s) ->
  wp (for_up_while n start cond body s) Q.
Proof.
  revert start s. induction n as [|n IH]; intros start s H0 Hb HQ; simpl.
  - apply (HQ start); auto; lia.
  - destruct (cond s) eqn:E.
    + apply wp_bind. eapply wp_mono; [apply Hb; [lia|exact E|exact H0]|].
      intros s' Hs'. apply IH; auto.
      * intros; apply Hb; auto; lia.
      * intros i s2 Hi H2 H3. apply (HQ i); auto; [lia|]. destruct H3; [left; lia|auto].
    + apply (HQ start); auto; lia.
Qed.

(** ** Limb arrays *)

Definition limb (x : Z) : Prop := 0 <= x < W32.
Definition limbs (l : list Z) : Prop := Forall limb l.

(** Value of a little-endian limb array. *)
Fixpoint val (l : list Z) : Z :=
  match l with [] => 0 | x :: t => x + W32 * val t end.

Definition Bp (n : nat) : Z := W32 ^ Z.of_nat n.

Lemma Bp_0 : Bp 0 = 1. Proof. reflexivity. Qed.
Lemma Bp_S n : Bp (S n) = W32 * Bp n.
Proof. unfold Bp. rewrite Nat2Z.inj_succ, Z.pow_succ_r by lia. reflexivity. Qed.
Lemma Bp_1 : Bp 1 = W32. Proof. reflexivity. Qed.
Lemma Bp_pos n : 0 < Bp n.
Proof. apply Z.pow_pos_nonneg; [reflexivity|lia]. Qed.
Lemma Bp_add m n : Bp (m + n) = Bp m * Bp n.
Proof. unfold Bp. rewrite Nat2Z.inj_add, Z.pow_add_r by lia. reflexivity. Qed.
Lemma Bp_le m n : (m <= n)%nat -> Bp m <= Bp n.
Proof. intros. apply Z.pow_le_mono_r; [reflexivity|lia]. Qed.
Lemma Bp_lt m n : (m < n)%nat -> Bp m < Bp n.
Proof. intros. apply Z.pow_lt_mono_r; [reflexivity|lia|lia]. Qed.

#[global] Opaque Bp.

Lemma val_app a b : val (a ++ b) = val a + Bp (length a) * val b.
Proof.
  induction a as [|x a IH]; cbn [val app length].
  - rewrite Bp_0. ring.
  - rewrite IH, Bp_S. ring.
Qed.

Lemma val_bound l : limbs l -> 0 <= val l < Bp (length l).
Proof.
  induction 1 as [|x l Hx Hl IH]; cbn [val length].
  - rewrite Bp_0. lia.
  - rewrite Bp_S. unfold limb, W32 in *. lia.
Qed.

Lemma val_zeros n : val (zeros n) = 0.
Proof.
  unfold zeros. induction n as [|n IH]; cbn [repeat val]; [reflexivity|rewrite IH; reflexivity].
Qed.

Lemma length_zeros n : length (zeros n) = n.
Proof. apply repeat_length. Qed.

Lemma limbs_zeros n : limbs (zeros n).
Proof. unfold limbs, zeros. apply Forall_forall. intros x Hx. apply repeat_spec in Hx.
  subst. split; [reflexivity|reflexivity]. Qed.

Lemma limbs_nth l i : limbs l -> limb (nth i l 0).
Proof.
  intros H. destruct (Nat.lt_ge_cases i (length l)) as [Hi|Hi].
  - eapply Forall_forall; [exact H|]. apply nth_In; exact Hi.
  - rewrite nth_overflow by exact Hi. split; reflexivity.
Qed.

Lemma limbs_app a b : limbs (a ++ b) <-> limbs a /\ limbs b.
Proof. apply Forall_app. Qed.

Lemma limbs_firstn n l : limbs l -> limbs (firstn n l).
Proof. intros H. rewrite <- (firstn_skipn n l) in H. now apply limbs_app in H. Qed.
Lemma limbs_skipn n l : limbs l -> limbs (skipn n l).
Proof. intros H. rewrite <- (firstn_skipn n l) in H. now apply limbs_app in H. Qed.

Lemma length_upd l i v : length (upd l i v) = length l.
Proof. revert i; induction l; intros [|i]; simpl; auto. Qed.

Lemma limbs_upd l i v : limbs l -> limb v -> limbs (upd l i v).
Proof.
  intros H Hv. revert i; induction H as [|x l Hx H IH]; intros [|i]; simpl; constructor; auto.
  apply IH.
Qed.

Lemma nth_upd_same l i v d : (i < length l)%nat -> nth i (upd l i v) d = v.
Proof.
  revert i; induction l as [|x l IH]; intros [|i] H; simpl in *; try lia; auto.
  apply IH; lia.
Qed.

Lemma nth_upd_other l i j v d : i <> j -> nth j (upd l i v) d = nth j l d.
Proof.
  revert i j; induction l as [|x l IH]; intros [|i] [|j] H; simpl; try congruence; auto.
Qed.

Lemma firstn_upd l i v n : (n <= i)%nat -> firstn n (upd l i v) = firstn n l.
Proof.
  revert i n; induction l as [|x l IH]; intros [|i] [|n] H; simpl; try lia; auto.
  f_equal. apply IH; lia.
Qed.

Lemma skipn_upd l i v n : (i < n)%nat -> skipn n (upd l i v) = skipn n l.
Proof.
  revert i n; induction l as [|x l IH]; intros [|i] [|n] H; simpl; try lia; auto.
  apply IH; lia.
Qed.

Lemma upd_eq l i v : (i < length l)%nat -> upd l i v = firstn i l ++ v :: skipn (S i) l.
Proof.
  revert i; induction l as [|x l IH]; intros [|i] H; simpl in *; try lia; auto.
  f_equal. apply IH; lia.
Qed.

(** Value of the first [n] limbs. *)
Definition vl (l : list Z) (n : nat) : Z := val (firstn n l).
#[global] Arguments vl : simpl never.

Lemma vl_0 l : vl l 0 = 0. Proof. reflexivity. Qed.
Lemma vl_all l : vl l (length l) = val l.
Proof. unfold vl. now rewrite firstn_all. Qed.
Lemma vl_ge l n : (length l <= n)%nat -> vl l n = val l.
Proof. intros. unfold vl. now rewrite firstn_all2. Qed.

Lemma vl_S l n : vl l (S n) = vl l n + nth n l 0 * Bp n.
Proof.
  unfold vl. revert n; induction l as [|x l IH]; intros [|n].
  - reflexivity.
  - simpl. ring.
  - simpl. rewrite Bp_0. ring.
  - rewrite Bp_S. change (firstn (S (S n)) (x :: l)) with (x :: firstn (S n) l).
    change (firstn (S n) (x :: l)) with (x :: firstn n l).
    change (nth (S n) (x :: l) 0) with (nth n l 0).
    cbn [val]. rewrite IH. ring.
Qed.

Lemma vl_upd_le l i v n : (n <= i)%nat -> vl (upd l i v) n = vl l n.
Proof. intros. unfold vl. now rewrite firstn_upd. Qed.

Lemma vl_upd_S l i v : (i < length l)%nat -> vl (upd l i v) (S i) = vl l i + v * Bp i.
Proof. intros. rewrite vl_S, vl_upd_le, nth_upd_same; auto. Qed.

Lemma vl_bound l n : limbs l -> 0 <= vl l n < Bp n.
Proof.
  intros H. unfold vl. pose proof (val_bound _ (limbs_firstn n _ H)) as Hb.
  pose proof (Bp_le (length (firstn n l)) n).
  rewrite firstn_length in *. lia.
Qed.

Lemma val_split l n : (n <= length l)%nat -> val l = vl l n + Bp n * val (skipn n l).
Proof.
  intros H. unfold vl. rewrite <- (firstn_skipn n l) at 1. rewrite val_app, firstn_length.
  now rewrite Nat.min_l by lia.
Qed.

Lemma vl_zeros k n : vl (zeros k) n = 0.
Proof.
  unfold vl, zeros. revert n; induction k as [|k IH]; intros [|n]; cbn [repeat firstn val]; auto.
  rewrite IH. reflexivity.
Qed.

Lemma val_upd l i v : (i < length l)%nat -> val (upd l i v) = val l + (v - nth i l 0) * Bp i.
Proof.
  revert i; induction l as [|x l IH]; intros [|i] H; cbn [val length upd nth] in *; try lia.
  - rewrite Bp_0. lia.
  - rewrite Bp_S, IH by lia. ring.
Qed.

(** Splitting a machine word at bit 32. *)
Lemma split32 x : x = u32 x + W32 * Z.shiftr x 32.
Proof.
  rewrite Z.shiftr_div_pow2 by lia. unfold u32, W32.
  change (2 ^ 32) with 4294967296. lia.
Qed.

Lemma shiftr32_range x lo hi :
  lo * W32 <= x < hi * W32 -> lo <= Z.shiftr x 32 < hi.
Proof.
  intros. pose proof (split32 x). pose proof (u32_range x). unfold W32 in *. lia.
Qed.

Lemma is_nil_false l : l <> [] -> is_nil l = false.
Proof. destruct l; [congruence|reflexivity]. Qed.
Lemma is_nil_length l : is_nil l = Nat.eqb (length l) 0.
Proof. destruct l; reflexivity. Qed.

(** One symbolic-execution step: the goal is [wp prog Q]. *)
Ltac wstep :=
  match goal with
  | |- wp (bind _ _) _ => apply wp_bind
  | |- wp (Ret _) _ => apply wp_ret
  | |- wp (massert _ _) _ => apply wp_massert
  | |- wp (rd _ _) _ => apply wp_rd
  | |- wp (wr _ _ _) _ => apply wp_wr
  | |- wp (rdz _ _) _ => apply wp_rdz
  | |- wp (wrz _ _ _) _ => apply wp_wrz
  | |- wp (chk64 _ _) _ => apply wp_chk64
  | |- wp (chk32 _ _) _ => apply wp_chk32
  | |- wp (slice _ _ _) _ => apply wp_slice
  | |- wp (splice _ _ _) _ => apply wp_splice
  | |- wp (fill _ _ _) _ => apply wp_fill
  end.

(** ** Carry propagation *)

Lemma pfx_step l i v :
  (i < length l)%nat -> limbs (firstn i l) -> limb v ->
  limbs (firstn (S i) (upd l i v)).
Proof.
  intros Hi Hl Hv. rewrite upd_eq by assumption.
  replace (S i) with (length (firstn i l) + 1)%nat by (rewrite firstn_length; lia).
  rewrite firstn_app_2. cbn [firstn]. apply limbs_app. split; [exact Hl|].
  constructor; [exact Hv|constructor].
Qed.

Lemma u32_limb x : limb (u32 x).
Proof. apply u32_range. Qed.

Lemma carry_step P v carry x s t :
  v + carry * P = s -> t = carry + x ->
  (v + u32 t * P) + Z.shiftr t 32 * (W32 * P) = s + x * P.
Proof.
  intros <- Ht. pose proof (split32 t) as H.
  transitivity (v + (u32 t + W32 * Z.shiftr t 32) * P); [ring|].
  rewrite <- H, Ht. ring.
Qed.

Lemma nth_skipn_eq (l l' : list Z) i :
  skipn i l = skipn i l' -> nth i l 0 = nth i l' 0.
Proof.
  assert (forall (m : list Z), nth i m 0 = nth 0 (skipn i m) 0) as E.
  { clear. induction i; intros [|x m]; cbn [nth skipn]; auto. }
  intros H. now rewrite (E l), (E l'), H.
Qed.

Lemma skipn_skipn' {A} (l : list A) a b : skipn b (skipn a l) = skipn (a + b) l.
Proof.
  revert l; induction a as [|a IH]; intros [|x l]; cbn [skipn Nat.add]; auto.
  apply skipn_nil.
Qed.

Lemma skipn_S_eq (l l' : list Z) i : skipn i l = skipn i l' -> skipn (S i) l = skipn (S i) l'.
Proof.
  intros H. replace (S i) with (i + 1)%nat by lia. rewrite <- !skipn_skipn'.
  now rewrite H.
Qed.

Lemma nth_beyond (l : list Z) i : (length l <= i)%nat -> nth i l 0 = 0.
Proof. apply nth_overflow. Qed.

Lemma limbs_all l : limbs (firstn (length l) l) -> limbs l.
Proof. now rewrite firstn_all. Qed.

Lemma skipn_app_exact {A} (a b : list A) n : length a = n -> skipn n (a ++ b) = b.
Proof. intros <-. rewrite skipn_app, skipn_all, Nat.sub_diag. reflexivity. Qed.

Lemma firstn_app_exact {A} (a b : list A) n : length a = n -> firstn n (a ++ b) = a.
Proof. intros <-. rewrite firstn_app, firstn_all, Nat.sub_diag. apply app_nil_r. Qed.

(** ** Bit operations *)

Lemma pow2_pos k : 0 <= k -> 0 < 2 ^ k.
Proof. intros. apply Z.pow_pos_nonneg; lia. Qed.

Lemma land_shl_low a b k : 0 <= k -> 0 <= b < 2 ^ k -> Z.land (a * 2 ^ k) b = 0.
Proof.
  intros Hk Hb. apply Z.bits_inj'. intros i Hi.
  rewrite Z.land_spec, Z.bits_0.
  destruct (Z.lt_ge_cases i k) as [H|H].
  - rewrite Z.mul_pow2_bits_low by lia. reflexivity.
  - destruct (Z.eq_dec b 0) as [->|Hb0]; [now rewrite Z.bits_0, andb_false_r|].
    rewrite (Z.bits_above_log2 b i), andb_false_r; try lia; auto.
    apply Z.log2_lt_pow2; [lia|].
    apply Z.lt_le_trans with (2 ^ k); [lia|]. apply Z.pow_le_mono_r; lia.
Qed.

Lemma lor_add a b k : 0 <= k -> 0 <= b < 2 ^ k -> Z.lor (a * 2 ^ k) b = a * 2 ^ k + b.
Proof.
  intros Hk Hb. pose proof (land_shl_low a b k Hk Hb) as H.
  rewrite Z.add_nocarry_lxor by assumption. symmetry. now apply Z.lxor_lor.
Qed.

Lemma lor_shl32 a b : limb b -> Z.lor (a * W32) b = a * W32 + b.
Proof. intros. change W32 with (2 ^ 32). apply lor_add; [lia|exact H]. Qed.

Lemma land_himask x a b :
  0 <= a -> 0 <= b -> 0 <= x < 2 ^ (a + b) ->
  Z.land x (Z.shiftl (Z.ones a) b) = x / 2 ^ b * 2 ^ b.
Proof.
  intros Ha Hb Hx.
  assert (Z.land x (Z.shiftl (Z.ones a) b) = Z.shiftl (Z.land (Z.shiftr x b) (Z.ones a)) b) as ->.
  { apply Z.bits_inj'. intros i Hi. rewrite Z.land_spec.
    destruct (Z.lt_ge_cases i b) as [H|H].
    - rewrite !Z.shiftl_spec_low by lia. apply andb_false_r.
    - rewrite !Z.shiftl_spec by lia. rewrite Z.land_spec, Z.shiftr_spec by lia.
      now replace (i - b + b) with i by lia. }
  rewrite Z.land_ones, Z.shiftr_div_pow2, Z.shiftl_mul_pow2 by lia.
  rewrite Z.mod_small; [reflexivity|].
  rewrite Z.pow_add_r in Hx by lia. pose proof (pow2_pos b Hb).
  split; [apply Z.div_pos; lia|]. apply Z.div_lt_upper_bound; lia.
Qed.

Lemma land_himask_zero x a b m :
  0 <= a -> 0 <= b -> m = Z.shiftl (Z.ones a) b -> 0 <= x < 2 ^ (a + b) ->
  (Z.land x m =? 0) = (x <? 2 ^ b).
Proof.
  intros Ha Hb -> Hx. rewrite land_himask by assumption.
  pose proof (pow2_pos b Hb) as Hp.
  destruct (Z.ltb_spec x (2 ^ b)) as [H|H].
  - rewrite Z.div_small by lia. reflexivity.
  - apply Z.eqb_neq. assert (1 <= x / 2 ^ b) by (apply Z.div_le_lower_bound; lia). nia.
Qed.

Lemma land_low32 x : Z.land x 4294967295 = x mod W32.
Proof. change 4294967295 with (Z.ones 32). rewrite Z.land_ones by lia. reflexivity. Qed.

(** ** Suffixes *)

Lemma skipn_nth (l : list Z) i : (i < length l)%nat -> skipn i l = nth i l 0 :: skipn (S i) l.
Proof.
  revert i; induction l as [|x l IH]; intros [|i] H; cbn [length skipn nth] in *; try lia; auto.
  apply IH; lia.
Qed.

Lemma skipn_upd_at l i v : (i < length l)%nat -> skipn i (upd l i v) = v :: skipn (S i) l.
Proof.
  intros H. rewrite skipn_nth by (rewrite length_upd; lia).
  rewrite nth_upd_same, skipn_upd by lia. reflexivity.
Qed.

Lemma nth_skipn (l : list Z) i j : nth j (skipn i l) 0 = nth (i + j) l 0.
Proof.
  revert l; induction i as [|i IH]; intros [|x l]; cbn [skipn nth Nat.add]; auto.
  now destruct j.
Qed.
