(** Lemmas quoted by PropMem.v: compound assignment and div_rem over a store. *)
From Verif Require Import Facts Spec AddSubFacts SpecFacts BigIntFacts SpecApi BigInt CalcAddSub CalcSquMul CalcDivRem DivRemFacts DivCoreFacts.
From Verif Require Import ArithLaws WordFacts ShiftFacts ApiMem SpecMem.

Ltac Zify.zify_post_hook ::= idtac.

(** The value-level operator a compound assignment computes. *)
Definition pure_assign (o : assign) (c : cfg) (a b : bigint) : outcome bigint :=
  match o with
  | AddA => bi_add c a b | SubA => bi_sub c a b | MulA => bi_mul c a b
  | DivA => bi_div c a b | RemA => bi_rem c a b
  | AndA => bi_and c a b | OrA => bi_or c a b | XorA => bi_xor c a b
  end.

(** [run] behaves as [o] and, on success, stores the result at [p] only. *)
Definition commits (run : outcome unit * mem) (o : outcome bigint) (m : mem) (p : loc) : Prop :=
  match o with
  | Ret z => fst run = Ret tt /\ (forall q, snd run q = if Nat.eqb q p then z else m q)
  | Throw e => run = (Throw e, m)
  | Undef u => run = (Undef u, m)
  | AssertFail => run = (AssertFail, m)
  | NoFuel => run = (NoFuel, m)
  end.

Lemma commits_store (m : mem) p z : commits (store p z m) (Ret z) m p.
Proof. split; reflexivity. Qed.

Lemma commits_skip (m : mem) p : commits (lift (Ret tt) m) (Ret (m p)) m p.
Proof. split; [reflexivity|]. intros q. cbn [lift snd]. destruct (Nat.eqb_spec q p) as [->|]; reflexivity. Qed.

Lemma commits_lift {A} (o : outcome A) (k : A -> act unit) (f : A -> outcome bigint) m p :
  (forall a, o = Ret a -> commits (k a m) (f a) m p) ->
  commits (seq (lift o) k m) (bind o f) m p.
Proof. intros H. unfold seq, lift. destruct o; cbn [bind commits]; auto. Qed.

Lemma commits_last (o : outcome bigint) m p : commits (seq (lift o) (fun z => store p z) m) o m p.
Proof. unfold seq, lift. destruct o; cbn [commits]; try reflexivity. apply commits_store. Qed.

Ltac mem_reads :=
  cbn beta; repeat (match goal with
    | |- context [seq (load ?p) ?k ?m] => change (seq (load p) k m) with (k (m p) m)
    | |- context [seq (sgn ?p) ?k ?m] => change (seq (sgn p) k m) with (k (sign_of (m p)) m)
    | |- context [seq (limbs_at ?p) ?k ?m] => change (seq (limbs_at p) k m) with (k (bits_of (m p)) m)
    | |- context [seq (valid ?c ?p) ?k ?m] => change (seq (valid c p) k m) with (seq (lift (assert_valid c (m p))) k m)
    end; cbn beta).

Ltac mem_go :=
  repeat first
    [ progress mem_reads
    | apply commits_store | apply commits_skip
    | apply commits_last | apply commits_lift; intros
    | progress cbv zeta
    | reflexivity
    | match goal with
      | |- commits ((if ?b then _ else _) _) _ _ _ => destruct b eqn:?
      end ].

Theorem run_assign_pure o c this rhs m :
  commits (run_assign o c this rhs m) (pure_assign o c (m this) (m rhs)) m this.
Proof.
  destruct o; cbn [run_assign pure_assign].
  - unfold mem_add, bi_add. mem_go.
  - unfold mem_sub, bi_sub. mem_go.
  - unfold mem_mul, bi_mul. mem_go.
  - unfold mem_div, bi_div. mem_go.
  - unfold mem_rem, bi_rem. mem_go.
  - unfold mem_and, bi_and, mem_bitop_words. mem_go.
  - unfold mem_or, bi_or, mem_bitop_words. mem_go.
  - unfold mem_xor, bi_xor, mem_bitop_words. mem_go.
Qed.

Lemma run_assign_throw o c this rhs m e m' :
  run_assign o c this rhs m = (Throw e, m') -> m' = m.
Proof.
  intros E. pose proof (run_assign_pure o c this rhs m) as H. rewrite E in H. unfold commits in H.
  destruct (pure_assign o c (m this) (m rhs)); cbn [fst snd] in H; try congruence. destruct H; discriminate.
Qed.

Lemma run_assign_alias o c x y m :
  m y = m x ->
  fst (run_assign o c x x m) = fst (run_assign o c x y m) /\
  (forall p, snd (run_assign o c x x m) p = snd (run_assign o c x y m) p).
Proof.
  intros E. pose proof (run_assign_pure o c x x m) as H1. pose proof (run_assign_pure o c x y m) as H2.
  rewrite E in H2. unfold commits in *.
  destruct (pure_assign o c (m x) (m x)).
  - destruct H1 as (A1 & B1), H2 as (A2 & B2). split; [congruence|]. intros p. now rewrite B1, B2.
  - rewrite H1, H2. now split.
  - rewrite H1, H2. now split.
  - rewrite H1, H2. now split.
  - rewrite H1, H2. now split.
Qed.

Lemma pure_assign_exact o c a b x y :
  represents a x -> represents b y -> (divides o -> y <> 0) ->
  returns (pure_assign o c a b) (meaning o x y).
Proof.
  intros Ha Hb Hd. unfold divides in Hd. destruct (bitwise_family c a b x y Ha Hb) as (B1 & B2 & B3 & _).
  destruct o; cbn [pure_assign meaning]; auto.
  - now apply add_family.
  - now apply add_sub_family.
  - now apply mul_returns.
  - apply div_returns; auto.
  - apply rem_returns; auto.
Qed.

Lemma run_assign_exact o c m p q x y :
  represents (m p) x -> represents (m q) y -> (divides o -> y <> 0) ->
  exists m' r, run_assign o c p q m = (Ret tt, m') /\ represents r (meaning o x y) /\ only_changes m m' p r.
Proof.
  intros Ha Hb Hd. destruct (pure_assign_exact o c _ _ x y Ha Hb Hd) as (r & E & R).
  pose proof (run_assign_pure o c p q m) as H. rewrite E in H. cbn [commits] in H. destruct H as (H1 & H2).
  exists (snd (run_assign o c p q m)), r. rewrite <- H1, <- surjective_pairing. split; [reflexivity|].
  split; [exact R|]. split; [now rewrite H2, Nat.eqb_refl|].
  intros z Hz. rewrite H2. apply Nat.eqb_neq in Hz. now rewrite Hz.
Qed.

Lemma run_assign_throws_iff o c m p q x y :
  represents (m p) x -> represents (m q) y ->
  ((exists e m', run_assign o c p q m = (Throw e, m')) <-> divides o /\ y = 0).
Proof.
  intros Ha Hb. split.
  - intros (e & m' & E).
    assert (divides o \/ ~ divides o) as [D|D] by (destruct o; unfold divides; intuition congruence).
    + split; [exact D|]. destruct (Z.eq_dec y 0) as [|N]; [assumption|exfalso].
      destruct (run_assign_exact o c m p q x y Ha Hb ltac:(auto)) as (? & ? & F & _). congruence.
    + exfalso. destruct (run_assign_exact o c m p q x y Ha Hb ltac:(tauto)) as (? & ? & F & _). congruence.
  - intros (D & ->). exists DivideByZero, m. pose proof (run_assign_pure o c p q m) as H.
    destruct (div_zero_calls c _ _ x Ha Hb) as (Z1 & Z2 & _).
    destruct D as [-> | ->]; cbn [pure_assign] in H; [rewrite Z1 in H|rewrite Z2 in H]; exact H.
Qed.

(** ** div_rem *)

Lemma seq_ret {A B} (o : outcome A) a (k : A -> act B) m : o = Ret a -> seq (lift o) k m = k a m.
Proof. intros ->. reflexivity. Qed.

Lemma mem_div_rem_zero c m d v r x :
  represents (m d) x -> represents (m v) 0 -> mem_div_rem c d v r m = (Throw DivideByZero, m).
Proof.
  intros Ha Hb. unfold mem_div_rem. mem_reads.
  rewrite (seq_ret _ _ _ _ (assert_valid_ok c _ _ Ha)). mem_reads.
  rewrite (seq_ret _ _ _ _ (assert_valid_ok c _ _ Hb)). mem_reads. cbv zeta.
  apply represents_zero in Hb. rewrite Hb. cbn [sign_of bits_of is_nil].
  pose proof Ha as Hv.
  apply represents_view in Hv. remember (m d) as a eqn:Ea.
  destruct Hv as [z Hz|s l Hs Hne Hl Ht Hv]; cbn [sign_of bits_of]; nils.
  - mem_reads. rewrite Hb. reflexivity.
  - mem_reads. rewrite <- Ea, Hb. cbn [sign_of bits_of].
    rewrite (seq_ret _ 0 _ _) by (rewrite abs32_ok by (num; lia); reflexivity).
    unfold seq at 1, lift at 1. now rewrite calc_divrem_u_zero.
Qed.

Definition mwp {A} (run : outcome A * mem) (Q : A -> mem -> Prop) : Prop :=
  match run with (Ret a, m) => Q a m | _ => False end.

Lemma mwp_lift {A B} (o : outcome A) (k : A -> act B) m Q :
  wp o (fun a => mwp (k a m) Q) -> mwp (seq (lift o) k m) Q.
Proof. intros H. destruct (wp_inv _ _ H) as (a & -> & Ha). exact Ha. Qed.

Lemma mwp_last {A} (o : outcome A) m Q : wp o (fun a => Q a m) -> mwp (lift o m) Q.
Proof. intros H. destruct (wp_inv _ _ H) as (a & -> & Ha). exact Ha. Qed.

Lemma mwp_store {B} p b (k : unit -> act B) m Q : mwp (k tt (put m p b)) Q -> mwp (seq (store p b) k m) Q.
Proof. exact (fun H => H). Qed.

Lemma put_read m r b p : put m r b p = if Nat.eqb p r then b else m p.
Proof. reflexivity. Qed.

Lemma repr_sign b z : represents b z -> (sign_of b <? 0) = (z <? 0).
Proof. intros H. apply repr_parts in H. now destruct (parts_sign _ _ _ H). Qed.

Lemma repr_put m r b p x z : represents (m p) x -> represents b z -> represents (put m r b p) (reread p r x z).
Proof. intros H1 H2. unfold put, reread. destruct (Nat.eqb p r); assumption. Qed.

Lemma small_repr b z : represents b z -> Z.abs z < 2 ^ 31 -> b = Big z [].
Proof.
  intros H Hz. change (2 ^ 31) with 2147483648 in Hz. apply (represents_unique b (Big z []) z H).
  apply repr_small. num; lia.
Qed.

Lemma stored_rem_plain x y : ~ div_rem_bad x y -> stored_rem x y = Z.rem x y.
Proof.
  intros H. unfold stored_rem, div_rem_bad in *. change (2 ^ 31) with 2147483648 in *.
  destruct (Z.leb_spec x (- (2147483648))); [|reflexivity].
  destruct (Z.ltb_spec (Z.abs y) 2147483648); [|reflexivity].
  destruct (Z.eqb_spec (Z.rem x y) 0); [reflexivity|]. exfalso. apply H. num; lia.
Qed.

Lemma rem_small_abs x y : Z.abs x < 2 ^ 31 -> y <> 0 -> Z.abs (Z.rem x y) < 2 ^ 31.
Proof.
  change (2 ^ 31) with 2147483648. intros Hx Hy.
  pose proof (rem_range x y ltac:(num; lia) Hy). num; lia.
Qed.

(** Both operands small: the built-in division is redone on what the operands
    read after the remainder was stored. *)
Lemma mem_div_rem_small c m d v r x y :
  represents (m d) x -> represents (m v) y -> y <> 0 -> both_small x y ->
  exists rem, represents rem (Z.rem x y) /\
    let x' := reread d r x (Z.rem x y) in let y' := reread v r y (Z.rem x y) in
    (y' = 0 -> mem_div_rem c d v r m = (Undef DivByZero, put m r rem)) /\
    (y' <> 0 -> exists q, mem_div_rem c d v r m = (Ret q, put m r rem) /\ represents q (Z.quot x' y')).
Proof.
  intros Ha Hb Hy (Sx & Sy).
  pose proof (small_repr _ _ Ha Sx) as Ea. pose proof (small_repr _ _ Hb Sy) as Eb.
  assert (INT_MIN < x <= INT_MAX) as Rx by (change (2 ^ 31) with 2147483648 in *; num; lia).
  pose proof (rem_range x y Rx Hy) as Rr.
  assert (represents (Big (Z.rem x y) []) (Z.rem x y)) as Hr by (apply repr_small; lia).
  exists (Big (Z.rem x y) []). split; [exact Hr|].
  set (R := Z.rem x y) in *.
  pose proof (repr_put m r _ d x R Ha Hr) as Ha'. pose proof (repr_put m r _ v y R Hb Hr) as Hb'.
  cbv zeta. set (x' := reread d r x R) in *. set (y' := reread v r y R) in *.
  assert (Z.abs R < 2 ^ 31) as SR by (apply rem_small_abs; assumption).
  assert (Z.abs x' < 2 ^ 31) as Sx' by (unfold x', reread; destruct (Nat.eqb d r); assumption).
  assert (Z.abs y' < 2 ^ 31) as Sy' by (unfold y', reread; destruct (Nat.eqb v r); assumption).
  pose proof (small_repr _ _ Ha' Sx') as Ea'. pose proof (small_repr _ _ Hb' Sy') as Eb'.
  assert (mem_div_rem c d v r m =
          (let! q := lift (int_div c x' y') in lift (bi_of_int32 c q)) (put m r (Big R []))) as E.
  { unfold mem_div_rem. mem_reads.
    rewrite (seq_ret _ _ _ _ (assert_valid_ok c _ _ Ha)). mem_reads.
    rewrite (seq_ret _ _ _ _ (assert_valid_ok c _ _ Hb)). mem_reads. cbv zeta.
    rewrite Ea, Eb. cbn [bits_of is_nil andb sign_of]. mem_reads. rewrite Eb. cbn [sign_of].
    rewrite (proj2 (Z.eqb_neq _ _) Hy). mem_reads. rewrite Ea, Eb. cbn [sign_of].
    assert (int_mod c x y = Ret R) as ->.
    { destruct (wp_inv _ _ (int_mod_spec c x y (fun z => z = R) Rx Hy eq_refl)) as (? & -> & ->). reflexivity. }
    rewrite (seq_ret _ R _ _ eq_refl).
    assert (bi_of_int32 c R = Ret (Big R [])) as ->.
    { destruct (wp_inv _ _ (bi_of_int32_spec c R ltac:(lia))) as (z & -> & Hz).
      now rewrite (represents_unique _ _ _ Hz Hr). }
    rewrite (seq_ret _ (Big R []) _ _ eq_refl).
    unfold seq at 1, store at 1. mem_reads. rewrite Ea', Eb'. reflexivity. }
  rewrite E. change (2 ^ 31) with 2147483648 in *. split; intros Hy'.
  - rewrite Hy'. reflexivity.
  - assert (INT_MIN < x' <= INT_MAX) as Rx' by (num; lia).
    destruct (wp_inv _ _ (int_div_spec c x' y' (fun z => z = Z.quot x' y') Rx' Hy' eq_refl)) as (? & -> & ->).
    rewrite (seq_ret _ (Z.quot x' y') _ _ eq_refl).
    pose proof (quot_range x' y' Rx' Hy').
    destruct (wp_inv _ _ (bi_of_int32_spec c (Z.quot x' y') ltac:(lia))) as (z & Ez & Hz).
    exists z. unfold lift. rewrite Ez. split; [reflexivity|exact Hz].
Qed.

(** Otherwise only the sign of the quotient depends on the later reads. *)
Lemma late_zero x y x' y' : Z.abs x < Z.abs y -> late_sign x y x' y' = 0.
Proof. intros H. unfold late_sign. rewrite Z.div_small by lia. now destruct (xorb _ _). Qed.

Lemma mem_div_rem_big c m d v r x y :
  represents (m d) x -> represents (m v) y -> y <> 0 -> ~ both_small x y ->
  exists rem q, represents rem (stored_rem x y) /\
    mem_div_rem c d v r m = (Ret q, put m r rem) /\
    represents q (late_sign x y (reread d r x (stored_rem x y)) (reread v r y (stored_rem x y))).
Proof.
  intros Ha0 Hb0 Hy Hns.
  enough (mwp (mem_div_rem c d v r m) (fun q m' => exists rem, m' = put m r rem /\ represents rem (stored_rem x y) /\
    represents q (late_sign x y (reread d r x (stored_rem x y)) (reread v r y (stored_rem x y))))) as K.
  { destruct (mem_div_rem c d v r m) as ([q|?|?| |] & m'); try contradiction. destruct K as (rem & -> & A & B).
    exists rem, q. auto. }
  unfold mem_div_rem. mem_reads.
  rewrite (seq_ret _ _ _ _ (assert_valid_ok c _ _ Ha0)). mem_reads.
  rewrite (seq_ret _ _ _ _ (assert_valid_ok c _ _ Hb0)). mem_reads. cbv zeta.
  pose proof (repr_sign _ _ Ha0) as S1.
  pose proof (repr_parts _ _ Ha0) as Ha. pose proof (repr_parts _ _ Hb0) as Hb.
  destruct (parts_sign _ _ _ Ha) as (R1 & _). destruct (parts_sign _ _ _ Hb) as (R2 & _).
  pose proof (parts_abs _ _ _ Ha) as Va. pose proof (parts_abs _ _ _ Hb) as Vb.
  destruct (m d) as [s l] eqn:Ed, (m v) as [s' l'] eqn:Ev. cbn [sign_of bits_of] in *.
  assert (forall rem q, represents rem (stored_rem x y) ->
            represents q (late_sign x y (reread d r x (stored_rem x y)) (reread v r y (stored_rem x y))) ->
            exists rem0, put m r rem = put m r rem0 /\ represents rem0 (stored_rem x y) /\
              represents q (late_sign x y (reread d r x (stored_rem x y)) (reread v r y (stored_rem x y)))) as Fin
    by (intros rem q A B; exists rem; auto).
  assert (forall rem, represents rem (stored_rem x y) ->
            (sign_of (put m r rem d) <? 0) = (reread d r x (stored_rem x y) <? 0)) as Sd
    by (intros rem Hr; apply repr_sign, repr_put; [now rewrite Ed|exact Hr]).
  assert (forall rem, represents rem (stored_rem x y) ->
            (sign_of (put m r rem v) <? 0) = (reread v r y (stored_rem x y) <? 0)) as Sv
    by (intros rem Hr; apply repr_sign, repr_put; [now rewrite Ev|exact Hr]).
  inv_parts Ha; inv_parts Hb; nils;
    try set (x := s * val l) in *; try set (y := s' * val l') in *.
  - exfalso. apply Hns. split; change (2 ^ 31) with 2147483648; num; lia.
  - mem_reads. rewrite Ed. apply mwp_store.
    assert (Z.abs x < Z.abs y) by (rewrite <- Vb by assumption; num; lia).
    rewrite late_zero by assumption.
    apply mwp_last. eapply wp_mono; [apply bi_of_int32_spec; num; lia|]. intros z Hz'.
    exists (Big x []). split; [reflexivity|]. split; [|exact Hz'].
    rewrite stored_rem_plain by (unfold div_rem_bad; num; lia). now rewrite rem_small.
  - mem_reads. rewrite Ed, Ev. cbn [sign_of bits_of]. apply mwp_lift. apply wp_abs32; [num; lia|].
    apply mwp_lift.
    eapply wp_mono; [apply calc_divrem_u_spec; auto; try (num; lia)|].
    intros (q & rr) (A & B & D & C).
    rewrite Va in C by assumption.
    assert (val q = Z.abs x / Z.abs y /\ rr = Z.abs x mod Z.abs y) as (Hq & Hr).
    { assert (val q = Z.abs x / Z.abs y) as E by (apply (Z.div_unique_pos _ _ _ rr); lia).
      split; [exact E|]. apply (Z.mod_unique_pos _ _ (val q)); lia. }
    pose proof (rem_abs x y Hy) as HR. rewrite <- Hr in HR.
    assert (0 <= rr < 2147483648) as Hrb by (num; lia).
    assert (2147483648 <= Z.abs x) as Habs by (rewrite <- Va by assumption; assumption).
    mem_reads. rewrite Ed. cbn [sign_of]. rewrite S1.
    assert ((if x <? 0 then u32 (-1 * rr) else rr) = stored_rem x y) as ->.
    { unfold stored_rem. change (2 ^ 31) with 2147483648. change (2 ^ 32) with W32.
      rewrite (proj2 (Z.ltb_lt (Z.abs y) 2147483648)) by (num; lia). rewrite Bool.andb_true_r.
      destruct (Z.ltb_spec x 0) as [Hx|Hx].
      - rewrite (proj2 (Z.leb_le x _)) by lia. cbn [andb]. destruct (Z.eqb_spec (Z.rem x y) 0) as [E0|E0]; cbn [negb].
        + assert (rr = 0) as -> by lia. rewrite E0. reflexivity.
        + unfold u32. rewrite <- HR. symmetry. apply (Z.mod_unique_pos _ _ (-1)); num; lia.
      - rewrite (proj2 (Z.leb_gt x _)) by lia. cbn [andb]. exact HR. }
    assert (0 <= stored_rem x y <= UINT_MAX) as Hst.
    { unfold stored_rem, UINT_MAX. change (2 ^ 31) with 2147483648. change (2 ^ 32) with W32.
      destruct (Z.ltb_spec x 0) as [Hx|Hx].
      - rewrite (proj2 (Z.leb_le x _)), (proj2 (Z.ltb_lt (Z.abs y) _)) by (num; lia). cbn [andb].
        destruct (Z.eqb_spec (Z.rem x y) 0); cbn [negb]; num; lia.
      - rewrite (proj2 (Z.leb_gt x _)) by lia. cbn [andb]. num; lia. }
    apply mwp_lift. eapply wp_mono; [apply bi_of_uint32_spec; exact Hst|].
    intros ro Hro. cbn beta in Hro. apply mwp_store. mem_reads. rewrite (Sd ro Hro), (Sv ro Hro).
    apply mwp_last. eapply wp_mono; [apply mag_result; [exact B|rewrite Hq; reflexivity]|].
    intros qq Hqq. apply Fin; [exact Hro|exact Hqq].
  - assert (~ div_rem_bad x y) as Hnb by (unfold div_rem_bad; subst y; signs; num; lia).
    assert (stored_rem x y = Z.rem x y) as Est by now apply stored_rem_plain.
    mem_reads. rewrite Ed, Ev. cbn [bits_of].
    destruct (Nat.ltb_spec (length l) (length l')) as [F|F].
    + mem_reads. rewrite Ed. apply mwp_store.
      assert (Z.abs x < Z.abs y)
        by (rewrite <- Va, <- Vb by assumption; apply length_lt_val; auto).
      rewrite late_zero by assumption.
      apply mwp_last. eapply wp_mono; [apply bi_of_int32_spec; num; lia|]. intros z Hz'.
      exists (Big s l). split; [reflexivity|]. split; [|exact Hz'].
      rewrite Est. now rewrite rem_small.
    + mem_reads. rewrite Ed, Ev. cbn [bits_of]. apply mwp_lift.
      eapply wp_mono; [apply calc_divrem_spec; auto|].
      intros (q & rr) (A & B & C & D & E & G). mem_reads. rewrite Ed. cbn [sign_of]. rewrite S1.
      apply mwp_lift.
      eapply wp_mono; [apply mag_result; [|rewrite G, Va, Vb by assumption; rewrite rem_abs, <- Est by assumption; reflexivity]; auto|].
      intros ro Hro. cbn beta in Hro. apply mwp_store. mem_reads. rewrite (Sd ro Hro), (Sv ro Hro).
      apply mwp_last.
      eapply wp_mono; [apply mag_result; [|rewrite E, Va, Vb by assumption; reflexivity]; auto|].
      intros qq Hqq. apply Fin; [exact Hro|exact Hqq].
Qed.

Lemma both_small_dec x y : both_small x y \/ ~ both_small x y.
Proof. unfold both_small. lia. Qed.

Lemma mem_div_rem_unchanged c m d v r e m' x y :
  represents (m d) x -> represents (m v) y ->
  mem_div_rem c d v r m = (Throw e, m') -> e = DivideByZero /\ y = 0 /\ m' = m.
Proof.
  intros Ha Hb E. destruct (Z.eq_dec y 0) as [->|N].
  { rewrite (mem_div_rem_zero c m d v r x Ha Hb) in E. injection E as <- <-. auto. }
  exfalso. destruct (both_small_dec x y) as [B|B].
  - destruct (mem_div_rem_small c m d v r x y Ha Hb N B) as (rem & _ & H1 & H2). cbv zeta in *.
    destruct (Z.eq_dec (reread v r y (Z.rem x y)) 0) as [F|F].
    + specialize (H1 F). congruence.
    + destruct (H2 F) as (q & G & _). congruence.
  - destruct (mem_div_rem_big c m d v r x y Ha Hb N B) as (rem & q & _ & G & _). congruence.
Qed.

Lemma put_changes m r b : only_changes m (put m r b) r b.
Proof.
  split; [unfold put; now rewrite Nat.eqb_refl|]. intros q Hq. unfold put. apply Nat.eqb_neq in Hq. now rewrite Hq.
Qed.

(** The remainder goes to a third object: the result of div_rem on values. *)
Lemma mem_div_rem_distinct c m d v r x y :
  represents (m d) x -> represents (m v) y -> y <> 0 -> r <> d -> r <> v ->
  exists m' q rem, mem_div_rem c d v r m = (Ret q, m') /\ represents q (Z.quot x y) /\
    represents rem (stored_rem x y) /\ only_changes m m' r rem.
Proof.
  intros Ha Hb Hy H1 H2.
  assert (forall new, reread d r x new = x) as R1.
  { intros new. unfold reread. destruct (Nat.eqb_spec d r); congruence. }
  assert (forall new, reread v r y new = y) as R2.
  { intros new. unfold reread. destruct (Nat.eqb_spec v r); congruence. }
  destruct (both_small_dec x y) as [B|B].
  - destruct (mem_div_rem_small c m d v r x y Ha Hb Hy B) as (rem & A & _ & H). cbv zeta in H.
    rewrite R1, R2 in H. destruct (H Hy) as (q & E & Q).
    exists (put m r rem), q, rem. split; [exact E|]. split; [exact Q|]. split; [|apply put_changes].
    rewrite stored_rem_plain; [exact A|]. destruct B as (B1 & B2). unfold div_rem_bad.
    change (2 ^ 31) with 2147483648 in *. num; lia.
  - destruct (mem_div_rem_big c m d v r x y Ha Hb Hy B) as (rem & q & A & E & Q).
    rewrite R1, R2 in Q. unfold late_sign in Q. cbv zeta in Q. rewrite quot_abs in Q by assumption.
    exists (put m r rem), q, rem. split; [exact E|]. split; [exact Q|]. split; [exact A|apply put_changes].
Qed.

(** Non-negative operands, at least one of them large: any aliasing. *)
Lemma mem_div_rem_nonneg c m d v r x y :
  represents (m d) x -> represents (m v) y -> 0 <= x -> 0 < y -> ~ both_small x y ->
  exists m' q rem, mem_div_rem c d v r m = (Ret q, m') /\ represents q (Z.quot x y) /\
    represents rem (Z.rem x y) /\ only_changes m m' r rem.
Proof.
  intros Ha Hb Hx Hy B.
  destruct (mem_div_rem_big c m d v r x y Ha Hb ltac:(lia) B) as (rem & q & A & E & Q).
  assert (stored_rem x y = Z.rem x y) as Es.
  { apply stored_rem_plain. unfold div_rem_bad. num; lia. }
  rewrite Es in *. pose proof (Z.rem_nonneg x y ltac:(lia) Hx) as P.
  exists (put m r rem), q, rem. split; [exact E|]. split; [|split; [exact A|apply put_changes]].
  assert (late_sign x y (reread d r x (Z.rem x y)) (reread v r y (Z.rem x y)) = Z.quot x y) as <-; [|exact Q].
  unfold late_sign. rewrite (proj2 (Z.ltb_ge (reread d r x _) 0)) by (unfold reread; destruct (Nat.eqb d r); lia).
  rewrite (proj2 (Z.ltb_ge (reread v r y _) 0)) by (unfold reread; destruct (Nat.eqb v r); lia).
  cbn [xorb]. rewrite <- quot_abs by lia. rewrite !(proj2 (Z.ltb_ge _ 0)) by lia. reflexivity.
Qed.

(** The remainder overwrites a small dividend: the quotient is lost. *)
Lemma mem_div_rem_over_dividend c m d v x y :
  represents (m d) x -> represents (m v) y -> y <> 0 -> both_small x y -> d <> v ->
  exists m' q, mem_div_rem c d v d m = (Ret q, m') /\ represents q 0 /\
    (Z.abs y <= Z.abs x -> ~ represents q (Z.quot x y)).
Proof.
  intros Ha Hb Hy B N.
  destruct (mem_div_rem_small c m d v d x y Ha Hb Hy B) as (rem & A & _ & H). cbv zeta in H.
  assert (reread d d x (Z.rem x y) = Z.rem x y) as R1 by (unfold reread; now rewrite Nat.eqb_refl).
  assert (reread v d y (Z.rem x y) = y) as R2 by (unfold reread; destruct (Nat.eqb_spec v d); congruence).
  rewrite R1, R2 in H. destruct (H Hy) as (q & E & Q).
  assert (Z.quot (Z.rem x y) y = 0) as Q0.
  { apply quot_small. apply Z.rem_bound_abs. assumption. }
  rewrite Q0 in Q. exists (put m d rem), q. split; [exact E|]. split; [exact Q|].
  intros L R. pose proof (represents_fun _ _ _ Q R) as F.
  symmetry in F. apply Z.quot_small_iff in F; [lia|assumption].
Qed.

(** The remainder overwrites a small divisor that divides exactly: crash. *)
Lemma mem_div_rem_over_divisor c m d v x y :
  represents (m d) x -> represents (m v) y -> y <> 0 -> both_small x y -> Z.rem x y = 0 ->
  exists m', mem_div_rem c d v v m = (Undef DivByZero, m').
Proof.
  intros Ha Hb Hy B R.
  destruct (mem_div_rem_small c m d v v x y Ha Hb Hy B) as (rem & A & H & _). cbv zeta in H.
  exists (put m v rem). apply H. unfold reread. now rewrite Nat.eqb_refl.
Qed.

(** Exact division of a large negative dividend by a large positive divisor,
    remainder over the dividend: the quotient has the wrong sign. *)
Lemma mem_div_rem_wrong_sign c m d v x y :
  represents (m d) x -> represents (m v) y -> x < 0 -> 0 < y -> ~ both_small x y -> Z.rem x y = 0 -> d <> v ->
  exists m' q, mem_div_rem c d v d m = (Ret q, m') /\ represents q (- Z.quot x y) /\ ~ represents q (Z.quot x y).
Proof.
  intros Ha Hb Hx Hy B R N.
  destruct (mem_div_rem_big c m d v d x y Ha Hb ltac:(lia) B) as (rem & q & A & E & Q).
  assert (stored_rem x y = 0) as Es.
  { rewrite stored_rem_plain; [exact R|]. unfold div_rem_bad. tauto. }
  rewrite Es in *.
  assert (reread d d x 0 = 0) as R1 by (unfold reread; now rewrite Nat.eqb_refl).
  assert (reread v d y 0 = y) as R2 by (unfold reread; destruct (Nat.eqb_spec v d); congruence).
  rewrite R1, R2 in Q. unfold late_sign in Q. rewrite (proj2 (Z.ltb_ge y 0)) in Q by lia. cbn [Z.ltb Z.compare xorb] in Q.
  pose proof (quot_abs x y ltac:(lia)) as K. rewrite (proj2 (Z.ltb_lt x 0) Hx), (proj2 (Z.ltb_ge y 0)) in K by lia.
  cbn [xorb] in K. exists (put m d rem), q. split; [exact E|].
  assert (represents q (- Z.quot x y)) as G by (rewrite <- K, Z.opp_involutive; exact Q).
  split; [exact G|]. intros F. pose proof (represents_fun _ _ _ F G) as H.
  assert (Z.quot x y = 0) as H0 by lia. rewrite H0 in K.
  pose proof (Z.quot_rem' x y) as QR. rewrite R, H0 in QR. lia.
Qed.
