(** Corollaries used by the property files: results as [returns], algebraic laws
    between API calls. *)
From Verif Require Import Facts Spec SpecApi SpecFacts BigIntFacts CompareFacts BigInt.

Lemma add_returns c a b x y : represents a x -> represents b y -> returns (bi_add c a b) (x + y).
Proof. intros. now apply returns_wp, bi_add_spec. Qed.
Lemma sub_returns c a b x y : represents a x -> represents b y -> returns (bi_sub c a b) (x - y).
Proof. intros. now apply returns_wp, bi_sub_spec. Qed.
Lemma mul_returns c a b x y : represents a x -> represents b y -> returns (bi_mul c a b) (x * y).
Proof. intros. now apply returns_wp, bi_mul_spec. Qed.
Lemma div_returns c a b x y :
  represents a x -> represents b y -> y <> 0 -> returns (bi_div c a b) (Z.quot x y).
Proof. intros. now apply returns_wp, bi_div_spec. Qed.
Lemma rem_returns c a b x y :
  represents a x -> represents b y -> y <> 0 -> returns (bi_rem c a b) (Z.rem x y).
Proof. intros. now apply returns_wp, bi_rem_spec. Qed.
Lemma neg_returns c a x : represents a x -> returns (bi_neg c a) (- x).
Proof. intros. now apply returns_wp, bi_neg_spec. Qed.
Lemma pos_returns c a x : represents a x -> returns (bi_pos c a) x.
Proof. intros. now apply returns_wp, bi_pos_spec. Qed.
Lemma abs_returns c a x : represents a x -> returns (bi_abs c a) (Z.abs x).
Proof. intros. now apply returns_wp, bi_abs_spec. Qed.
Lemma inc_returns c a x : represents a x -> returns (bi_inc c a) (x + 1).
Proof. intros. now apply returns_wp, bi_inc_spec. Qed.
Lemma dec_returns c a x : represents a x -> returns (bi_dec c a) (x - 1).
Proof. intros. now apply returns_wp, bi_dec_spec. Qed.
Lemma not_returns c a x : represents a x -> returns (bi_not c a) (Z.lnot x).
Proof. intros. now apply returns_wp, bi_not_spec. Qed.
Lemma max_returns c a b x y : represents a x -> represents b y -> returns (bi_max c a b) (Z.max x y).
Proof. intros. now apply returns_wp, bi_max_spec. Qed.
Lemma min_returns c a b x y : represents a x -> represents b y -> returns (bi_min c a b) (Z.min x y).
Proof. intros. now apply returns_wp, bi_min_spec. Qed.

Lemma add_sub_family c a b x y :
  represents a x -> represents b y ->
  returns (bi_sub c a b) (x - y) /\ returns (bi_dec c a) (x - 1) /\ returns (bi_neg c a) (- x) /\
  returns (bi_pos c a) x /\ returns (bi_abs c a) (Z.abs x).
Proof.
  intros Ha Hb. split; [now apply sub_returns|]. split; [now apply dec_returns|].
  split; [now apply neg_returns|]. split; [now apply pos_returns|now apply abs_returns].
Qed.

Lemma add_family c a b x y :
  represents a x -> represents b y ->
  returns (bi_add c a b) (x + y) /\ returns (bi_inc c a) (x + 1).
Proof. intros Ha Hb. split; [now apply add_returns|now apply inc_returns]. Qed.

(** Remainder facts in elementary terms. *)
Lemma rem_family c a b x y :
  represents a x -> represents b y -> y <> 0 ->
  exists q r, returns (bi_div c a b) q /\ returns (bi_rem c a b) r /\
    x = q * y + r /\ Z.abs r < Z.abs y /\ (r <> 0 -> Z.sgn r = Z.sgn x).
Proof.
  intros Ha Hb Hy. exists (Z.quot x y), (Z.rem x y).
  split; [now apply div_returns|]. split; [now apply rem_returns|].
  split; [rewrite Z.mul_comm; apply Z.quot_rem'|].
  split; [now apply Z.rem_bound_abs|]. intros H. now apply Z.rem_sign_nz.
Qed.

Lemma trunc_div c a b x y :
  represents a x -> represents b y -> y <> 0 ->
  exists q, returns (bi_div c a b) q /\ Z.abs (x - q * y) < Z.abs y /\ Z.abs (q * y) <= Z.abs x.
Proof.
  intros Ha Hb Hy. exists (Z.quot x y). split; [now apply div_returns|].
  pose proof (Z.quot_rem' x y). pose proof (Z.rem_bound_abs x y Hy).
  split; [lia|].
  rewrite Z.mul_comm.
  assert (Z.rem x y = 0 \/ Z.sgn (Z.rem x y) = Z.sgn x) as [E|E].
  { destruct (Z.eq_dec (Z.rem x y) 0); [auto|right]. now apply Z.rem_sign_nz. }
  - lia.
  - assert (Z.abs (Z.rem x y) <= Z.abs x).
    { rewrite <- Z.rem_abs by assumption. rewrite Z.rem_mod_nonneg by lia. apply Z.mod_le; lia. }
    lia.
Qed.

Lemma compare_call c a b x y :
  represents a x -> represents b y ->
  exists r, bi_compare c a b = Ret r /\ (r < 0 <-> x < y) /\ (r = 0 <-> x = y) /\ (r > 0 <-> x > y).
Proof.
  intros Ha Hb. destruct (wp_inv _ _ (bi_compare_spec c a b x y Ha Hb)) as (r & E & (A & B & C) & _).
  exists r. repeat split; try lia; tauto.
Qed.

Lemma order_calls c a b x y :
  represents a x -> represents b y ->
  bi_lt c a b = Ret (x <? y) /\ bi_le c a b = Ret (x <=? y) /\
  bi_gt c a b = Ret (y <? x) /\ bi_ge c a b = Ret (y <=? x) /\
  returns (bi_max c a b) (Z.max x y) /\ returns (bi_min c a b) (Z.min x y).
Proof.
  intros Ha Hb. split; [now apply bi_lt_spec|]. split; [now apply bi_le_spec|].
  split; [now apply bi_gt_spec|]. split; [now apply bi_ge_spec|].
  split; [now apply max_returns|now apply min_returns].
Qed.

Lemma equal_calls c a b x y :
  represents a x -> represents b y ->
  bi_eq c a b = Ret (x =? y) /\ bi_ne c a b = Ret (negb (x =? y)).
Proof. intros Ha Hb. split; [now apply bi_equals_spec|now apply bi_ne_spec]. Qed.

Lemma hash_call c a b x :
  represents a x -> represents b x ->
  exists h, bi_hash c a = Ret h /\ bi_hash c b = Ret h /\ - 2 ^ 31 <= h < 2 ^ 31.
Proof.
  intros Ha Hb. rewrite (represents_unique _ _ _ Hb Ha).
  destruct (wp_inv _ _ (bi_hash_range c a x Ha)) as (h & E & R). exists h.
  repeat split; auto; unfold INT_MIN, INT_MAX in R; lia.
Qed.

Lemma same_intro c o1 o2 z1 z2 : returns o1 z1 -> returns o2 z2 -> z1 = z2 -> same c o1 o2.
Proof.
  intros (r1 & -> & H1) (r2 & -> & H2) <-. exists r1, r2. repeat split; auto.
  unfold bi_eq. rewrite (bi_equals_spec c r1 r2 z1 z1 H1 H2). now rewrite Z.eqb_refl.
Qed.

Lemma returns_bind o z z' f :
  returns o z -> (forall r, represents r z -> returns (f r) z') -> returns (bind o f) z'.
Proof. intros (r & -> & H) Hf. cbn. now apply Hf. Qed.

Lemma returns_ret b z : represents b z -> returns (Ret b) z.
Proof. intros H. exists b. auto. Qed.

Lemma returns_eq o z z' : returns o z -> z = z' -> returns o z'.
Proof. now intros H <-. Qed.

Ltac ret :=
  first [eassumption
        | eapply add_returns; eassumption | eapply sub_returns; eassumption
        | eapply mul_returns; eassumption | eapply neg_returns; eassumption
        | eapply div_returns; eassumption | eapply rem_returns; eassumption
        | apply returns_ret; eassumption
        | eapply returns_bind; [ret|intros ? ?; ret] ].

Ltac law := eapply same_intro; [ret|ret|try ring].

Lemma ring_laws c a b d x y z :
  represents a x -> represents b y -> represents d z ->
  same c (bi_add c a b) (bi_add c b a) /\
  same c (bi_mul c a b) (bi_mul c b a) /\
  same c (r <- bi_add c a b ;; bi_add c r d) (r <- bi_add c b d ;; bi_add c a r) /\
  same c (r <- bi_mul c a b ;; bi_mul c r d) (r <- bi_mul c b d ;; bi_mul c a r) /\
  same c (r <- bi_add c b d ;; bi_mul c a r)
         (p <- bi_mul c a b ;; q <- bi_mul c a d ;; bi_add c p q) /\
  same c (n <- bi_neg c a ;; bi_add c a n) (Ret s_bnZeroInt) /\
  same c (bi_sub c a b) (n <- bi_neg c b ;; bi_add c a n) /\
  same c (n <- bi_neg c a ;; bi_neg c n) (Ret a).
Proof.
  intros Ha Hb Hd. pose proof repr_zero as H0. repeat match goal with |- _ /\ _ => split end; law.
Qed.

Lemma euclid_law c a b x y :
  represents a x -> represents b y -> y <> 0 ->
  same c (q <- bi_div c a b ;; p <- bi_mul c q b ;; r <- bi_rem c a b ;; bi_add c p r) (Ret a).
Proof.
  intros Ha Hb Hy. law. rewrite Z.mul_comm. symmetry. apply Z.quot_rem'.
Qed.

(** Post-increment. *)
Lemma post_inc_call c a x :
  represents a x -> exists r t, bi_post_inc c a = Ret (r, t) /\ represents t (x + 1) /\ represents r (x + 1) /\ ~ represents r x.
Proof.
  intros Ha. destruct (inc_returns c a x Ha) as (r & E & H). exists r, r.
  unfold bi_post_inc. rewrite E. repeat split; auto; try apply H.
  intros H'. pose proof (represents_fun _ _ _ H H'). lia.
Qed.
Lemma post_dec_call c a x :
  represents a x -> exists r t, bi_post_dec c a = Ret (r, t) /\ represents t (x - 1) /\ represents r (x - 1) /\ ~ represents r x.
Proof.
  intros Ha. destruct (dec_returns c a x Ha) as (r & E & H). exists r, r.
  unfold bi_post_dec. rewrite E. repeat split; auto; try apply H.
  intros H'. pose proof (represents_fun _ _ _ H H'). lia.
Qed.

(** div_rem. *)
Lemma bad_eq x y :
  div_rem_bad x y <-> (x <= - 2 ^ 31 /\ - 2 ^ 31 < y < 2 ^ 31 /\ Z.rem x y <> 0).
Proof. unfold div_rem_bad, INT_MIN, INT_MAX. change (2 ^ 31) with 2147483648. lia. Qed.

Lemma div_rem_call c a b x y :
  represents a x -> represents b y -> y <> 0 ->
  ~ (x <= - 2 ^ 31 /\ - 2 ^ 31 < y < 2 ^ 31 /\ Z.rem x y <> 0) ->
  exists q r, bi_div_rem c a b = Ret (q, r) /\ represents q (Z.quot x y) /\ represents r (Z.rem x y).
Proof.
  intros Ha Hb Hy Hn. destruct (wp_inv _ _ (bi_div_rem_spec c a b x y Ha Hb Hy)) as ((q & r) & E & A & B & _).
  exists q, r. cbn [fst snd] in *. split; [exact E|]. split; [exact A|]. apply B. now rewrite bad_eq.
Qed.

Lemma div_rem_bad_call c a b x y :
  represents a x -> represents b y -> y <> 0 ->
  x <= - 2 ^ 31 -> - 2 ^ 31 < y < 2 ^ 31 -> Z.rem x y <> 0 ->
  exists q r, bi_div_rem c a b = Ret (q, r) /\ represents q (Z.quot x y) /\
              represents r (2 ^ 32 + Z.rem x y) /\ ~ represents r (Z.rem x y).
Proof.
  intros Ha Hb Hy H1 H2 H3. destruct (wp_inv _ _ (bi_div_rem_spec c a b x y Ha Hb Hy)) as ((q & r) & E & A & _ & B).
  exists q, r. cbn [fst snd] in *.
  assert (represents r (2 ^ 32 + Z.rem x y)) as Hr by (apply B; rewrite bad_eq; auto).
  split; [exact E|]. split; [exact A|]. split; [exact Hr|].
  intros F. pose proof (represents_fun _ _ _ Hr F). lia.
Qed.

Lemma div_zero_calls c a b x :
  represents a x -> represents b 0 ->
  bi_div c a b = Throw DivideByZero /\ bi_rem c a b = Throw DivideByZero /\
  bi_div_rem c a b = Throw DivideByZero.
Proof.
  intros Ha Hb. split; [eapply bi_div_zero; eauto|]. split; [eapply bi_rem_zero; eauto|].
  eapply bi_div_rem_zero; eauto.
Qed.
