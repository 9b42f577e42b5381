(** Lemmas quoted by PropRun.v: histories of calls compute on integers. *)
From Coq Require Import String.
From Verif Require Import Facts Spec AddSubFacts SpecFacts BigIntFacts SpecApi BigInt BigIntText BigIntBytes BigIntDouble.
From Verif Require Import ArithLaws ApiMem SpecMem MemFacts ApiRun SpecPos SpecText SpecDouble SpecGcd SpecRun PosFacts.
From Verif Require Import WordFacts ShiftFacts ConvLaws BytesFacts ToBytesFacts DoubleFacts TextFacts PowFacts ModPowApi ReducerFacts LargeModPow PowLaws GcdFacts.

Ltac Zify.zify_post_hook ::= idtac.

Lemma represents_total z : exists b, represents b z.
Proof.
  induction z using Z.peano_ind.
  - exists bi_default. apply repr_zero.
  - destruct IHz as (b & Hb). destruct (add_family (Cfg false false) b b z z Hb Hb) as (_ & r & _ & R). now exists r.
  - destruct IHz as (b & Hb). destruct (add_sub_family (Cfg false false) b b z z Hb Hb) as (_ & (r & _ & R) & _). now exists r.
Qed.

(** One call, as seen from the integers. *)
Definition performs (run : outcome unit * mem) (s : zstore) (rep : reply) : Prop :=
  match rep with
  | Stores s1 => exists m', run = (Ret tt, m') /\ stands_for m' s1
  | Raises e => exists m', run = (Throw e, m') /\ stands_for m' s
  end.

Lemma stands_put m s r b z : stands_for m s -> represents b z -> stands_for (put m r b) (set s r z).
Proof. intros H Hb p. unfold put, set. destruct (Nat.eqb p r); auto. Qed.

Lemma stands_only m s m' r b z :
  stands_for m s -> only_changes m m' r b -> represents b z -> stands_for m' (set s r z).
Proof.
  intros H (H1 & H2) Hb p. unfold set. destruct (Nat.eqb_spec p r) as [->|N]; [now rewrite H1|]. rewrite H2 by exact N. apply H.
Qed.

Lemma performs_into m s r o z : stands_for m s -> returns o z -> performs (into r o m) s (Stores (set s r z)).
Proof.
  intros H (b & -> & Hb). exists (put m r b). split; [reflexivity|]. now apply stands_put.
Qed.

Lemma performs_throw m s r e : stands_for m s -> performs (into r (Throw e) m) s (Raises e).
Proof. intros H. exists m. auto. Qed.

Lemma val_positional l : val l = positional (2 ^ 32) l.
Proof. induction l as [|d l IH]; [reflexivity|]. cbn [val positional]. now rewrite IH. Qed.

Lemma signed_limbs_val c l neg : is_words l -> returns (bi_of_mag c l neg) (signed_limbs l neg).
Proof.
  intros H. apply returns_wp. eapply wp_mono; [now apply bi_of_mag_spec|]. cbn beta. intros r Hr.
  unfold signed_limbs. rewrite <- val_positional. exact Hr.
Qed.

Lemma bin_pure : bin = pure_assign.
Proof. reflexivity. Qed.

Lemma pure_assign_zero o c a b x :
  divides o -> represents a x -> represents b 0 -> pure_assign o c a b = Throw DivideByZero.
Proof.
  intros D Ha Hb. destruct (div_zero_calls c a b x Ha Hb) as (E1 & E2 & _).
  destruct D as [-> | ->]; cbn [pure_assign]; assumption.
Qed.

Lemma set_same (s : zstore) p z q : s p = z -> set s p z q = s q.
Proof. intros <-. unfold set. destruct (Nat.eqb_spec q p) as [->|]; reflexivity. Qed.

Lemma stands_same m s p z : stands_for m s -> s p = z -> stands_for m (set s p z).
Proof. intros H E q. rewrite set_same by exact E. apply H. Qed.

Lemma shifted_zero x : shifted x 0 = x.
Proof. unfold shifted. cbn. lia. Qed.

Lemma shl_scope c a x n :
  represents a x -> is_int n -> (n < 0 -> right_shift_ok x (- n)) -> returns (bi_shl c a n) (shifted x n).
Proof.
  intros Ha Hn Hs. unfold is_int in Hn. change (2 ^ 31) with 2147483648 in Hn.
  destruct (Z.lt_ge_cases n 0) as [L|L].
  - destruct (Hs L) as (H1 & H2). apply bi_shl_spec; [exact Ha|num; lia|auto|exact H2].
  - apply bi_shl_spec; [exact Ha|num; lia|lia|]. intros (k & n' & Hk & E & _). lia.
Qed.

Lemma shr_scope c a x n :
  represents a x -> is_int n -> (0 < n -> right_shift_ok x n) -> returns (bi_shr c a n) (shifted x (- n)).
Proof.
  intros Ha Hn Hs. unfold is_int in Hn. change (2 ^ 31) with 2147483648 in Hn.
  destruct (Z.lt_ge_cases 0 n) as [L|L].
  - destruct (Hs L) as (H1 & H2). apply bi_shr_spec; [exact Ha|num; lia|auto|exact H2].
  - apply bi_shr_spec; [exact Ha|num; lia|lia|]. intros (k & n' & Hk & E & _). lia.
Qed.

Lemma performs_shl c m s p n :
  stands_for m s -> is_int n -> (n < 0 -> right_shift_ok (s p) (- n)) ->
  performs (mem_shl c p n m) s (Stores (set s p (shifted (s p) n))).
Proof.
  intros H Hn Hs. unfold mem_shl. destruct (Z.eqb_spec n 0) as [->|].
  - exists m. split; [reflexivity|]. apply stands_same; [exact H|]. now rewrite shifted_zero.
  - apply performs_into; [exact H|]. now apply shl_scope.
Qed.

Lemma performs_shr c m s p n :
  stands_for m s -> is_int n -> (0 < n -> right_shift_ok (s p) n) ->
  performs (mem_shr c p n m) s (Stores (set s p (shifted (s p) (- n)))).
Proof.
  intros H Hn Hs. unfold mem_shr. destruct (Z.eqb_spec n 0) as [->|].
  - exists m. split; [reflexivity|]. apply stands_same; [exact H|]. now rewrite shifted_zero.
  - destruct (Z.ltb_spec n 0); destruct (Z.eqb_spec n INT_MIN); cbn [andb negb].
    + apply performs_into; [exact H|]. apply shr_scope; [apply H|exact Hn|exact Hs].
    + apply performs_shl; [exact H| |lia].
      unfold is_int in *. change (2 ^ 31) with 2147483648 in *. num; lia.
    + apply performs_into; [exact H|]. apply shr_scope; [apply H|exact Hn|exact Hs].
    + apply performs_into; [exact H|]. apply shr_scope; [apply H|exact Hn|exact Hs].
Qed.

Lemma big_count z n : limb_count z n -> 32 <= n -> z <> 0.
Proof.
  intros (_ & _ & H) Hn ->. specialize (H 1 ltac:(lia)). unfold fits_limbs in H.
  change (Z.abs 0 < 2 ^ (32 * 1)) with (0 < 4294967296) in H. lia.
Qed.

Lemma mod_pow_scope c a b m x e z :
  represents a x -> represents b e -> represents m z -> mod_pow_ok x e z ->
  (e < 0 -> bi_mod_pow c a b m = Throw OutOfRange) /\
  (0 <= e -> z = 0 -> bi_mod_pow c a b m = Throw DivideByZero) /\
  (0 <= e -> z <> 0 -> returns (bi_mod_pow c a b m) (Z.rem (x ^ e) z)).
Proof.
  intros Ha Hb Hm K. split; [intros; eapply mod_pow_negative; eauto|].
  change (2 ^ 31) with 2147483648 in K.
  split; intros He Hz.
  - subst z. destruct K as [K|[(_ & K)|[(K & _)|[K|(K1 & n & K2 & K3 & _)]]]]; try lia.
    + eapply mod_pow_zero_throws; eauto.
    + exfalso. exact (big_count 0 n K3 K2 eq_refl).
  - destruct K as [K|[(K & _)|[(_ & K1 & K2)|[(K1 & K2)|(K1 & n & K2 & K3 & K4 & K5)]]]]; try lia.
    + now apply mod_pow_small_ok.
    + now apply mod_pow_medium.
    + destruct K1 as [K1|K1]; [eapply mod_pow_large_short; eauto|eapply mod_pow_large_unit; eauto].
Qed.

Lemma gcd_scope c x y :
  euclid_run (Z.max (Z.abs x) (Z.abs y)) (Z.min (Z.abs x) (Z.abs y)) ->
  exists N, forall fuel a b, (N <= fuel)%nat -> represents a x -> represents b y ->
    returns (bi_gcd fuel c a b) (Z.gcd x y).
Proof.
  intros HR. destruct (represents_total x) as (a & Ha). destruct (represents_total y) as (b & Hb).
  destruct (gcd_run c a b x y Ha Hb HR) as (N & HN). exists N. intros fuel a' b' F Ha' Hb'.
  rewrite (represents_unique _ _ _ Ha' Ha), (represents_unique _ _ _ Hb' Hb). now apply HN.
Qed.

Lemma performs_div_rem c m s r d v t :
  stands_for m s -> t <> d -> t <> v -> s v <> 0 -> div_rem_ok (s d) (s v) ->
  performs (run_cmd O c (DivRem r d v t) m) s
    (Stores (set (set s t (Z.rem (s d) (s v))) r (Z.quot (s d) (s v)))).
Proof.
  intros H T1 T2 N K. cbn [run_cmd].
  destruct (mem_div_rem_distinct c m d v t (s d) (s v) (H d) (H v) N T1 T2) as (m' & q & rem & E & Q & R & OC).
  rewrite stored_rem_plain in R by (rewrite bad_eq; exact K).
  exists (put m' r q). unfold seq. rewrite E. split; [reflexivity|].
  apply stands_put; [|exact Q]. eapply stands_only; eauto.
Qed.

Theorem performs_cmd c s k rep :
  typed k -> in_scope c s k -> effect s k rep ->
  exists N, forall fuel m, (N <= fuel)%nat -> stands_for m s -> performs (run_cmd fuel c k m) s rep.
Proof.
  intros T K E. destruct E; cbn [typed in_scope] in T, K;
    try match goal with |- context [Gcd] =>
      destruct (gcd_scope c _ _ K) as (N & HN); exists N; intros fuel m F ST; cbn [run_cmd];
      exact (performs_into _ _ _ _ _ ST (HN fuel _ _ F (ST _) (ST _))) end;
    exists O; intros fuel m _ ST.
  - exists (put m r bi_default). split; [reflexivity|]. apply stands_put; [exact ST|apply repr_zero].
  - apply performs_into; [exact ST|]. now apply ctor_family.
  - apply performs_into; [exact ST|]. now apply ctor_family.
  - apply performs_into; [exact ST|]. now apply ctor_family.
  - apply performs_into; [exact ST|]. now apply ctor_family.
  - apply performs_into; [exact ST|]. now apply of_double_finite.
  - cbn [run_cmd]. rewrite of_double_infinite by assumption. now apply performs_throw.
  - apply performs_into; [exact ST|]. now apply signed_limbs_val.
  - apply performs_into; [exact ST|]. now apply of_bytes_returns.
  - apply (performs_into _ _ r (Ret (m p))); [exact ST|]. exists (m p). split; [reflexivity|apply ST].
  - apply performs_into; [exact ST|]. apply ctor_family. change (2 ^ 31) with 2147483648; lia.
  - apply performs_into; [exact ST|]. apply ctor_family. change (2 ^ 31) with 2147483648; lia.
  - apply performs_into; [exact ST|]. apply ctor_family. change (2 ^ 31) with 2147483648; lia.
  - apply performs_into; [exact ST|]. apply parse_returns.
  - cbn [run_cmd]. mem_reads. destruct (try_parse_well_formed c t (m r) K) as (b & -> & Hb).
    exists (put m r b). split; [reflexivity|]. now apply stands_put.
  - destruct (run_assign_exact o c m p q (s p) (s q) (ST p) (ST q) H) as (m' & b & E & R & OC).
    exists m'. split; [exact E|]. eapply stands_only; eauto.
  - pose proof (run_assign_pure o c p q m) as P. pose proof (ST q) as Hq. rewrite H0 in Hq.
    rewrite (pure_assign_zero o c _ _ (s p) H (ST p) Hq) in P. exists m. auto.
  - apply performs_into; [exact ST|]. rewrite bin_pure. now apply pure_assign_exact.
  - cbn [run_cmd]. mem_reads. pose proof (ST q) as Hq. rewrite H0 in Hq.
    rewrite bin_pure, (pure_assign_zero o c _ _ (s p) H (ST p) Hq). now apply performs_throw.
  - now apply performs_shl.
  - now apply performs_shr.
  - apply performs_into; [exact ST|]. now apply shl_scope.
  - apply performs_into; [exact ST|]. now apply shr_scope.
  - destruct (add_family c (m p) (m p) _ _ (ST p) (ST p)) as (_ & b & E & R).
    exists (put m p b). split; [|now apply stands_put]. cbn [run_cmd]. unfold bi_inc in E. unfold mem_inc, seq, lift.
    destruct (bi_one c); try discriminate. cbn [bind load] in *. now rewrite E.
  - destruct (add_sub_family c (m p) (m p) _ _ (ST p) (ST p)) as (_ & (b & E & R) & _).
    exists (put m p b). split; [|now apply stands_put]. cbn [run_cmd]. unfold bi_dec in E. unfold mem_dec, seq, lift.
    destruct (bi_one c); try discriminate. cbn [bind load] in *. now rewrite E.
  - apply performs_into; [exact ST|]. now apply (add_sub_family c (m p) (m p) _ _ (ST p) (ST p)).
  - apply performs_into; [exact ST|]. now apply (add_sub_family c (m p) (m p) _ _ (ST p) (ST p)).
  - apply performs_into; [exact ST|]. replace (- s p - 1) with (Z.lnot (s p)) by (unfold Z.lnot; lia).
    now apply (bitwise_family c (m p) (m p) _ _ (ST p) (ST p)).
  - apply performs_into; [exact ST|]. now apply (add_sub_family c (m p) (m p) _ _ (ST p) (ST p)).
  - destruct (K H) as (T1 & T2 & T3). now apply performs_div_rem.
  - exists m. split; [|exact ST]. cbn [run_cmd]. unfold seq. pose proof (ST v) as Hv. rewrite H in Hv.
    now rewrite (mem_div_rem_zero c m d v t (s d) (ST d) Hv).
  - apply performs_into; [exact ST|]. unfold is_int in T. eapply pow_exact; eauto. lia.
  - cbn [run_cmd]. mem_reads. unfold is_int in T. rewrite (pow_overflow c (m p) (s p) e n); auto; [now apply performs_throw|lia].
  - cbn [run_cmd]. mem_reads. unfold is_int in T. rewrite (pow_negative c (m p) (s p) e); auto; [now apply performs_throw|lia].
  - apply performs_into; [exact ST|]. now apply mod_pow_scope.
  - cbn [run_cmd]. mem_reads. destruct (mod_pow_scope c _ _ _ _ _ _ (ST p) (ST e) (ST q) K) as (E & _).
    rewrite E by assumption. now apply performs_throw.
  - cbn [run_cmd]. mem_reads. destruct (mod_pow_scope c _ _ _ _ _ _ (ST p) (ST e) (ST q) K) as (_ & E & _).
    rewrite E by assumption. now apply performs_throw.
Qed.

Theorem history_exact c s l tr s' :
  history c s l tr s' ->
  exists N, forall fuel m, (N <= fuel)%nat -> stands_for m s ->
    exists m', run_calls fuel c l m = Some (tr, m') /\ stands_for m' s'.
Proof.
  induction 1 as [s|s k s1 l tr s2 T K E _ IH|s k e l tr s2 T K E _ IH].
  - exists O. intros fuel m _ H. now exists m.
  - destruct (performs_cmd c s k _ T K E) as (N1 & H1). destruct IH as (N2 & H2).
    exists (Nat.max N1 N2). intros fuel m F H.
    destruct (H1 fuel m ltac:(lia) H) as (m1 & E1 & S1). destruct (H2 fuel m1 ltac:(lia) S1) as (m2 & E2 & S2).
    exists m2. split; [|exact S2]. cbn [run_calls]. now rewrite E1, E2.
  - destruct (performs_cmd c s k _ T K E) as (N1 & H1). destruct IH as (N2 & H2).
    exists (Nat.max N1 N2). intros fuel m F H.
    destruct (H1 fuel m ltac:(lia) H) as (m1 & E1 & S1). destruct (H2 fuel m1 ltac:(lia) S1) as (m2 & E2 & S2).
    exists m2. split; [|exact S2]. cbn [run_calls]. now rewrite E1, E2.
Qed.

(** The ideal effect is a function of the call. *)
Lemma limb_count_unique x n n' : limb_count x n -> limb_count x n' -> n = n'.
Proof. intros (A1 & A2 & A3) (B1 & B2 & B3). specialize (A3 n' B1 B2). specialize (B3 n A1 A2). lia. Qed.

Theorem effect_unique s k r1 r2 : effect s k r1 -> effect s k r2 -> r1 = r2.
Proof.
  intros H1 H2. destruct H1; inversion H2; subst; try reflexivity; try (exfalso; solve [auto]); exfalso; try lia.
  all: try match goal with H1 : limb_count ?x ?a, H2 : limb_count ?x ?b |- _ =>
    pose proof (limb_count_unique x a b H1 H2); subst end.
  all: unfold not in *; solve [lia|auto].
Qed.

Lemma limb_count_total x : exists n, limb_count x n.
Proof.
  destruct (represents_total x) as (a & Ha). exists (Z.max 1 (Z.of_nat (length (bits_of a)))).
  split; [lia|]. split; [now apply length_fits|]. intros m Hm Hf.
  pose proof (repr_length a x m Ha ltac:(lia) Hf). lia.
Qed.

Theorem effect_total c s k : typed k -> in_scope c s k -> exists r, effect s k r.
Proof.
  intros T K. destruct k; cbn [in_scope] in K; try contradiction; try (eexists; constructor; fail).
  - destruct (Z.eq_dec (dbl_exp pattern) 2047) as [E|E]; eexists; [apply ENewDoubleX|apply ENewDouble]; unfold dbl_finite; auto.
  - destruct (Z.eq_dec (s rhs) 0) as [E|E]; [|eexists; apply EAssign; auto].
    destruct o; first [eexists; apply EAssignX; [unfold divides; auto; fail|exact E]|eexists; apply EAssign; intros [D|D]; discriminate D].
  - destruct (Z.eq_dec (s rhs) 0) as [E|E]; [|eexists; apply EBinary; auto].
    destruct o; first [eexists; apply EBinaryX; [unfold divides; auto; fail|exact E]|eexists; apply EBinary; intros [D|D]; discriminate D].
  - destruct (Z.eq_dec (s divisor) 0) as [E|E]; eexists; [apply EDivRemX|apply EDivRem]; exact E.
  - destruct (Z.lt_ge_cases exponent 0) as [L|L]; [eexists; now apply EPowX|].
    destruct (limb_count_total (s p)) as (n & Hn).
    destruct (Z.le_gt_cases (Z.abs (s p)) 1); [eexists; eapply EPow; eauto|].
    destruct (Z.le_gt_cases exponent 1); [eexists; eapply EPow; eauto|].
    destruct (Z.lt_ge_cases (n * exponent + 1) (2 ^ 31 - 1)); [eexists; eapply EPow; eauto|].
    eexists. eapply EPowLarge; eauto.
  - destruct (Z.lt_ge_cases (s exponent) 0) as [L|L]; [eexists; now apply EModPowX|].
    destruct (Z.eq_dec (s modulus) 0); eexists; [now apply EModPowZ|now apply EModPow].
Qed.
