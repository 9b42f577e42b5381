(** Lemmas quoted by PropPyRun.v: what every Python expression evaluates to. *)
From Coq Require Import String.
From Verif Require Import Facts Spec AddSubFacts SpecFacts BigIntFacts SpecApi SpecPos SpecText SpecDouble SpecFloat SpecGcd SpecPy BigInt BigIntText BigIntBytes.
From Verif Require Import ArithLaws ApiMem ApiRun SpecMem MemFacts SpecRun PosFacts WordFacts ShiftFacts ConvFacts ConvLaws BytesFacts ToBytesFacts TextFacts PowFacts ModPowApi PowLaws.
From Verif Require Import RunExact SpecActual LeakyModPow ActualFacts SpecWin SpecWinRun WinCalc WinBigInt WinFacts WinMulFacts WinPowFacts WinConvFacts WinGcdFacts WinRunFacts.
From Verif Require Import PyBind PyFacts FloatFacts CompareFacts PyFloat PyRun SpecPyRun.

Ltac Zify.zify_post_hook ::= idtac.

(** ** Sequencing *)

Lemma yields_bind o z k kz :
  denotes o z -> (forall b v, represents b v -> yields (k b) (kz v)) -> yields (bind o k) (bind z kz).
Proof.
  intros D K. destruct z; cbn [denotes bind yields] in *; try (subst o; reflexivity).
  destruct D as (b & -> & Hb). cbn [bind]. now apply K.
Qed.

Lemma denotes_bind o z k kz :
  denotes o z -> (forall b v, represents b v -> denotes (k b) (kz v)) -> denotes (bind o k) (bind z kz).
Proof.
  intros D K. destruct z; cbn [denotes bind] in *; try (subst o; reflexivity).
  destruct D as (b & -> & Hb). cbn [bind]. now apply K.
Qed.

Lemma yields_same {A} (o z : outcome A) k kz :
  o = z -> (forall v, yields (k v) (kz v)) -> yields (bind o k) (bind z kz).
Proof. intros -> K. destruct z; cbn [bind yields]; auto. Qed.

Lemma yields_big o z : denotes o z -> yields (big o) (v <- z ;; Ret (VBig v)).
Proof. intros D. apply yields_bind; [exact D|]. intros b v H. exists (RBig b). auto. Qed.

Lemma yields_int c o z : denotes o z -> yields (r <- o ;; int_result (to_py c r)) (v <- z ;; Ret (VInt v)).
Proof.
  intros D. apply yields_bind; [exact D|]. intros b v H. rewrite (to_py_returns c b v H). exists (RInt v). split; reflexivity.
Qed.

Lemma yields_to_py c o z : denotes o z -> yields (int_result (r <- o ;; to_py c r)) (v <- z ;; Ret (VInt v)).
Proof.
  intros D. pose proof (yields_int c o z D) as Y. unfold int_result in *. destruct o; exact Y.
Qed.

Lemma yields_bool o t : o = Ret t -> yields (bool_of o) (Ret (VBool t)).
Proof. intros ->. exists (RBool t). split; reflexivity. Qed.

(** ** Operands and counts *)

Lemma operand_exact c z v : (z = true -> v = 0) -> denotes (of_py c z v) (py_operand c v).
Proof.
  intros Hz. unfold py_operand.
  destruct (strict c) eqn:S; cbn [andb]; [|apply of_py_returns; auto].
  destruct (Z.leb_spec (- 2 ^ 31) v); cbn [andb]; [|apply of_py_returns; [exact Hz|right; right; lia]].
  destruct (Z.ltb_spec v 0); cbn [andb]; [|apply of_py_returns; auto].
  assert (z = false) as -> by (destruct z; [specialize (Hz eq_refl); lia|reflexivity]).
  destruct (Z.eqb_spec v (- 2 ^ 24)) as [->|N]; cbn [negb].
  - destruct c as [d s]. cbn [strict] in S. subst s. exists (Big (- 2 ^ 24) []). split; [destruct d; vm_compute; reflexivity|].
    split; [vm_compute; auto|reflexivity].
  - apply of_py_strict; auto.
Qed.

Lemma big_count_exact c a x : represents a x -> bi_to_int c a = big_count c x.
Proof.
  intros Ha. unfold big_count.
  destruct (Z.leb_spec (- 2 ^ 31) x); cbn [andb]; [|apply (to_int_out c a x Ha); lia].
  destruct (Z.ltb_spec x (2 ^ 31)); cbn [andb]; [|apply (to_int_out c a x Ha); lia].
  destruct (Z.eqb_spec x (- 2 ^ 31)) as [E|E].
  - destruct (strict c) eqn:S; cbn [andb].
    + subst x. now apply (narrow_strict c a S).
    + rewrite (proj1 (narrow_family c a x Ha (or_introl S))). subst x. reflexivity.
  - rewrite Bool.andb_false_r. apply (to_int_in c a x Ha). lia.
Qed.

Lemma int_count_exact v : cast_int v = int_count CastError v.
Proof.
  unfold int_count. destruct (cast_int_spec v) as (A & B).
  destruct (Z.leb_spec (- 2 ^ 31) v), (Z.ltb_spec v (2 ^ 31)); cbn [andb]; try (apply B; lia). apply A. lia.
Qed.

Lemma count_int c n k : big_count c n = Ret k -> is_int k /\ k = n.
Proof.
  unfold big_count, is_int. destruct (Z.leb_spec (- 2 ^ 31) n), (Z.ltb_spec n (2 ^ 31)); cbn [andb]; try discriminate.
  destruct (strict c && (n =? - 2 ^ 31)); try discriminate. intros [= <-]. split; [lia|reflexivity].
Qed.

Lemma int_count_int e n k : int_count e n = Ret k -> is_int k /\ k = n.
Proof.
  unfold int_count, is_int. destruct (Z.leb_spec (- 2 ^ 31) n), (Z.ltb_spec n (2 ^ 31)); cbn [andb]; try discriminate.
  intros [= <-]. split; [lia|reflexivity].
Qed.

(** ** Operators *)

Lemma plus_exact d c a b x y : represents a x -> represents b y -> denotes (plus d c a b) (sum_of d x y).
Proof. intros Ha Hb. destruct d; cbn [plus sum_of]; [now apply add_returns|apply meets_denotes; now apply bi_add_w_exact]. Qed.

Lemma minus_exact d c a b x y : represents a x -> represents b y -> denotes (minus d c a b) (difference_of d x y).
Proof. intros Ha Hb. destruct d; cbn [minus difference_of]; [now apply sub_returns|apply meets_denotes; now apply bi_sub_w_exact]. Qed.

Lemma times_exact d c a b x y : represents a x -> represents b y -> denotes (times d c a b) (product_of d x y).
Proof. intros Ha Hb. destruct d; cbn [times product_of]; [exact (pure_assign_exact MulA c a b x y Ha Hb ltac:(intros [E|E]; discriminate E))|apply meets_denotes; now apply bi_mul_w_exact]. Qed.

Lemma invert_exact d c a x : represents a x -> denotes (invert d c a) (complement_of d x).
Proof.
  intros Ha. destruct d; cbn [invert complement_of]; [|apply meets_denotes; now apply bi_not_w_exact].
  replace (- x - 1) with (Z.lnot x) by (unfold Z.lnot; lia). now apply (bitwise_family c a a x x Ha Ha).
Qed.

Lemma raise_exact d c a x e : represents a x -> is_int e -> denotes (raise d c a e) (power_of d x e).
Proof.
  intros Ha He. unfold power_of.
  destruct d; cbn [raise].
  - unfold is_int in He. destruct (Z.ltb_spec e 0) as [L|L]; [apply (pow_negative c a x e); auto; lia|].
    pose proof (limbs_of_count x) as Hn.
    destruct ((1 <? e) && (1 <? Z.abs x) && (2 ^ 31 - 1 <=? limbs_of x * e + 1)) eqn:E.
    + apply andb_prop in E as [E E3]. apply andb_prop in E as [E1 E2]. apply Z.ltb_lt in E1, E2. apply Z.leb_le in E3.
      apply (pow_overflow c a x e (limbs_of x)); auto; lia.
    + eapply pow_exact; eauto; [lia|].
      destruct (Z.ltb_spec 1 e); [|right; left; lia].
      destruct (Z.ltb_spec 1 (Z.abs x)); [|left; lia]. cbn [andb] in E. apply Z.leb_gt in E. auto.
  - destruct (bi_pow_w_exact c a x e (limbs_of x) Ha (limbs_of_count x) He) as (P1 & P2 & P3).
    destruct (Z.ltb_spec e 0) as [L|L]; [now apply P1|].
    destruct ((1 <? e) && (1 <? Z.abs x) && (2 ^ 31 - 1 <=? limbs_of x * e + 1)) eqn:E.
    + apply andb_prop in E as [E E3]. apply andb_prop in E as [E1 E2]. apply Z.ltb_lt in E1, E2. apply Z.leb_le in E3.
      now apply P3.
    + apply meets_denotes, P2; [exact L|].
      destruct (Z.ltb_spec 1 e); [|right; left; lia].
      destruct (Z.ltb_spec 1 (Z.abs x)); [|left; lia]. cbn [andb] in E. apply Z.leb_gt in E. auto.
Qed.

Lemma raise_mod_exact d c a b m x e z : represents a x -> represents b e -> represents m z ->
  denotes (raise_mod d c a b m) (power_mod_of d c x e z).
Proof. intros. destruct d; [now apply mod_pow_exact|now apply mod_pow_w_every]. Qed.

Lemma rem_exact c a b x y : represents a x -> represents b y -> denotes (bi_rem c a b) (divided Z.rem x y).
Proof.
  intros Ha Hb. unfold divided. destruct (Z.eqb_spec y 0) as [->|N].
  - now apply (div_zero_calls c a b x Ha Hb).
  - apply (pure_assign_exact RemA c a b x y Ha Hb). auto.
Qed.

Lemma div_exact c a b x y : represents a x -> represents b y -> denotes (bi_div c a b) (divided Z.quot x y).
Proof.
  intros Ha Hb. unfold divided. destruct (Z.eqb_spec y 0) as [->|N].
  - now apply (div_zero_calls c a b x Ha Hb).
  - apply (pure_assign_exact DivA c a b x y Ha Hb). auto.
Qed.

Lemma div_rem_pair c a b x y : represents a x -> represents b y ->
  if y =? 0 then bi_div_rem c a b = Throw DivideByZero
  else exists q r, bi_div_rem c a b = Ret (q, r) /\ represents q (Z.quot x y) /\ represents r (divmod_rem x y).
Proof.
  intros Ha Hb. destruct (Z.eqb_spec y 0) as [->|N].
  { now apply (div_zero_calls c a b x Ha Hb). }
  unfold divmod_rem. cbv zeta. destruct ((x <=? - 2 ^ 31) && (Z.abs y <? 2 ^ 31) && negb (Z.rem x y =? 0)) eqn:E.
  - apply andb_prop in E as [E E3]. apply andb_prop in E as [E1 E2]. apply Z.leb_le in E1. apply Z.ltb_lt in E2.
    destruct (Z.eqb_spec (Z.rem x y) 0); [discriminate E3|].
    destruct (div_rem_bad_call c a b x y Ha Hb N E1 ltac:(lia) ltac:(assumption)) as (q & r & E & Q & R & _). eauto.
  - apply div_rem_call; auto. intros (H1 & H2 & H3). apply Z.leb_le in H1. apply Z.eqb_neq in H3.
    assert (Z.abs y <? 2 ^ 31 = true) as H4 by (apply Z.ltb_lt; lia). rewrite H1, H3, H4 in E. discriminate.
Qed.

Lemma big_pair d c a b x y : represents a x -> represents b y ->
  yields ('(q, r) <- bi_div_rem c a b ;; Ret (RBigs q r)) (apply d c ODivMod VBig x y).
Proof.
  intros Ha Hb. cbn [apply]. unfold divided. pose proof (div_rem_pair c a b x y Ha Hb) as H. destruct (y =? 0).
  - rewrite H. reflexivity.
  - destruct H as (q & r & -> & Q & R). exists (RBigs q r). split; [reflexivity|]. split; assumption.
Qed.

Lemma bi_big_big d c o a b x y :
  represents a x -> represents b y -> yields (big_big d c o a b) (value_big_big d c o x y).
Proof.
  intros Ha Hb. unfold value_big_big.
  destruct (order_calls c a b x y Ha Hb) as (O1 & O2 & O3 & O4 & _).
  destruct (equal_calls c a b x y Ha Hb) as (O5 & _).
  destruct (bitwise_family c a b x y Ha Hb) as (B1 & B2 & B3 & _).
  destruct o; cbn [big_big counts bind apply].
  - apply yields_big. now apply plus_exact.
  - apply yields_big. now apply minus_exact.
  - apply yields_big. now apply times_exact.
  - apply yields_big. now apply rem_exact.
  - apply yields_big. now apply div_exact.
  - apply yields_big. now apply div_exact.
  - exact (big_pair d c a b x y Ha Hb).
  - rewrite (big_count_exact c b y Hb). destruct (big_count c y) as [n| | | |] eqn:E; cbn [bind yields]; auto.
    apply count_int in E as (E & ->). apply yields_big. now apply raise_exact.
  - unfold py_lshift. rewrite (big_count_exact c b y Hb). destruct (big_count c y) as [n| | | |] eqn:E; cbn [bind yields]; auto.
    apply count_int in E as (E & ->). apply yields_big. now apply shl_exact.
  - unfold py_rshift. rewrite (big_count_exact c b y Hb). destruct (big_count c y) as [n| | | |] eqn:E; cbn [bind yields]; auto.
    apply count_int in E as (E & ->). apply yields_big. now apply shr_exact.
  - exact (yields_big _ (Ret _) B1).
  - exact (yields_big _ (Ret _) B2).
  - exact (yields_big _ (Ret _) B3).
  - now apply yields_bool.
  - now apply yields_bool.
  - now apply yields_bool.
  - rewrite O5. exists (RBool (negb (x =? y))). split; reflexivity.
  - now apply yields_bool.
  - now apply yields_bool.
Qed.

(** BigInteger op int is BigInteger op BigInteger after a conversion, except for
    counts, and for the order of the operands of __add__. *)
Lemma win_mag_comm a b : is_inline a && is_inline b = false -> win_mag_sum a b = win_mag_sum b a.
Proof. unfold win_mag_sum. destruct (is_inline a), (is_inline b); cbn [andb]; intros H; try discriminate; try reflexivity. lia. Qed.

Lemma win_sum_comm x y : win_sum x y = win_sum y x.
Proof.
  unfold win_sum. rewrite (Bool.andb_comm (is_inline y)), (Bool.xorb_comm (y <? 0)).
  destruct (is_inline x && is_inline y) eqn:I; [f_equal; lia|].
  destruct (x <? 0), (y <? 0); cbn [xorb]; try reflexivity.
  - f_equal. f_equal. apply win_mag_comm. now rewrite !inline_opp.
  - f_equal. now apply win_mag_comm.
Qed.

Lemma sum_of_comm d x y : sum_of d x y = sum_of d y x.
Proof. destruct d; cbn [sum_of]; [f_equal; lia|]. f_equal. apply win_sum_comm. Qed.

Ltac py_unfold :=
  unfold py_mod_int, py_truediv_int, py_floordiv_int, py_divmod_int, py_and_int, py_or_int, py_xor_int,
    py_lt_int, py_le_int, py_eq_int, py_gt_int, py_ge_int,
    py_rmod, py_rtruediv, py_rfloordiv, py_rdivmod_str, py_rand, py_ror, py_rxor, py_rlshift, py_rrshift,
    py_lshift_int, py_rshift_int, int_result, big, bool_of.

Lemma big_int_exact d c o a x z v :
  represents a x -> (z = true -> v = 0) -> yields (big_int d c o a z v) (value_big_int d c o x v).
Proof.
  intros Ha Hz. unfold value_big_int. pose proof (operand_exact c z v Hz) as D.
  destruct o; cbn [big_int]; py_unfold; rewrite ?bind_assoc.
  8:{ rewrite int_count_exact. unfold int_count. destruct ((- 2 ^ 31 <=? v) && (v <? 2 ^ 31)) eqn:E; [|reflexivity]. cbn [bind].
      apply yields_big, raise_exact; [exact Ha|]. apply andb_prop in E as [E1 E2]. apply Z.leb_le in E1. apply Z.ltb_lt in E2. split; assumption. }
  8:{ rewrite int_count_exact. destruct (int_count CastError v) as [n| | | |] eqn:E; cbn [bind yields]; auto.
      apply int_count_int in E as (E & ->). apply yields_big. now apply shl_exact. }
  8:{ rewrite int_count_exact. destruct (int_count CastError v) as [n| | | |] eqn:E; cbn [bind yields]; auto.
      apply int_count_int in E as (E & ->). apply yields_big. now apply shr_exact. }
  all: apply yields_bind; [exact D|]; intros b w Hb.
  1:{ cbn [apply]. rewrite sum_of_comm. exact (yields_big _ _ (plus_exact d c b a w x Hb Ha)). }
  1: exact (bi_big_big d c OSub a b x w Ha Hb).
  1: exact (bi_big_big d c OMul a b x w Ha Hb).
  1: exact (bi_big_big d c OMod a b x w Ha Hb).
  1: exact (bi_big_big d c OTrueDiv a b x w Ha Hb).
  1: exact (bi_big_big d c OFloorDiv a b x w Ha Hb).
  1: exact (bi_big_big d c ODivMod a b x w Ha Hb).
  1: exact (bi_big_big d c OAnd a b x w Ha Hb).
  1: exact (bi_big_big d c OOr a b x w Ha Hb).
  1: exact (bi_big_big d c OXor a b x w Ha Hb).
  1: exact (bi_big_big d c OLt a b x w Ha Hb).
  1: exact (bi_big_big d c OLe a b x w Ha Hb).
  1: exact (bi_big_big d c OEq a b x w Ha Hb).
  1: exact (bi_big_big d c ONe a b x w Ha Hb).
  1: exact (bi_big_big d c OGt a b x w Ha Hb).
  1: exact (bi_big_big d c OGe a b x w Ha Hb).
Qed.

(** ** Text *)

Lemma count_digits_width n z : 0 < z -> Z.log2 z <= Z.of_nat n -> decimal_width z (count_digits n z).
Proof.
  revert z. induction n as [|n IH]; intros z Hz Hn; cbn [count_digits]; unfold decimal_width in *; rewrite Z.abs_eq by lia.
  - assert (z = 1) as -> by (destruct (Z.log2_null z) as (H & _); pose proof (Z.log2_nonneg z); lia). cbn. lia.
  - destruct (Z.ltb_spec z 10) as [H|H]; [cbn; lia|].
    assert (0 < z / 10) as P by (apply Z.div_str_pos; lia).
    assert (Z.log2 (z / 10) <= Z.of_nat n) as L.
    { assert (Z.log2 (z / 10) <= Z.log2 (z / 2)) by (apply Z.log2_le_mono, Z.div_le_compat_l; lia).
      change 2 with (2 ^ 1) in H0. rewrite <- Z.shiftr_div_pow2, Z.log2_shiftr in H0 by lia. pose proof (Z.log2_nonneg z). lia. }
    destruct (IH _ P L) as (K & W). rewrite Z.abs_eq in W by lia. set (k := count_digits n (z / 10)) in *. split; [lia|].
    replace (1 + k - 1) with (k - 1 + 1) by lia. replace (1 + k) with (k + 1) by lia.
    rewrite !Z.pow_add_r by lia. change (10 ^ 1) with 10.
    pose proof (Z.div_mod z 10 ltac:(lia)) as E. pose proof (Z.mod_pos_bound z 10 ltac:(lia)) as R. nia.
Qed.

Lemma digits_of_width z : 0 < z -> decimal_width z (digits_of z).
Proof. intros H. apply count_digits_width; [exact H|]. pose proof (Z.log2_nonneg z). rewrite Z2Nat.id; lia. Qed.

Lemma width_unique z k k' : decimal_width z k -> decimal_width z k' -> k = k'.
Proof.
  unfold decimal_width. intros (K & A & B) (K' & A' & B').
  destruct (Z.lt_total k k') as [H|[H|H]]; [|exact H|].
  - pose proof (Z.pow_le_mono_r 10 k (k' - 1) ltac:(lia) ltac:(lia)). lia.
  - pose proof (Z.pow_le_mono_r 10 k' (k - 1) ltac:(lia) ltac:(lia)). lia.
Qed.

Lemma sign_hits_test x : sign_hits x <-> (x <=? - 2 ^ 31) && (digits_of (- x) mod 9 =? 0) = true.
Proof.
  unfold sign_hits. split.
  - intros (H & k & W). apply andb_true_intro. split; [now apply Z.leb_le|].
    assert (decimal_width (- x) (9 * k)) as W' by (unfold decimal_width in *; now rewrite Z.abs_opp).
    rewrite (width_unique _ _ _ (digits_of_width (- x) ltac:(lia)) W'). apply Z.eqb_eq. rewrite Z.mul_comm. now apply Z.mod_mul.
  - intros H. apply andb_prop in H as [H1 H2]. apply Z.leb_le in H1. apply Z.eqb_eq in H2. split; [exact H1|].
    exists (digits_of (- x) / 9). rewrite <- (Z.div_exact _ 9) in H2 by lia. rewrite <- H2.
    pose proof (digits_of_width (- x) ltac:(lia)) as W. unfold decimal_width in *. now rewrite Z.abs_opp in W.
Qed.

Lemma text_exact c a x : represents a x ->
  match text x with
  | Ret z => z = x /\ exists s, bi_to_string c a = Ret s /\ numeral s x
  | Throw e => bi_to_string c a = Throw e
  | Undef u => bi_to_string c a = Undef u
  | _ => False
  end.
Proof.
  intros Ha. unfold text. pose proof (limbs_of_count x) as Hn. destruct (Z.ltb_spec 214748364 (limbs_of x)) as [H|H].
  - exact (to_string_too_large c a x _ Ha Hn H).
  - pose proof (sign_hits_test x) as T. destruct ((x <=? - 2 ^ 31) && (digits_of (- x) mod 9 =? 0)).
    + exact (to_string_oob c a x _ Ha Hn H (proj2 T eq_refl)).
    + split; [reflexivity|]. apply (to_string_ok c a x _ Ha Hn H). intros C. apply T in C. discriminate.
Qed.

Lemma int_big_exact d c o a x z v :
  represents a x -> (z = true -> v = 0) -> yields (int_big d c o z v a) (value_int_big d c o v x).
Proof.
  intros Ha Hz. unfold value_int_big. pose proof (operand_exact c z v Hz) as D.
  destruct o; cbn [int_big counts]; py_unfold; rewrite ?bind_assoc; (apply yields_bind; [exact D|]); intros b w Hb; cbn [bind]; clear D v z Hz.
  - cbn [apply]. rewrite sum_of_comm. exact (yields_int c _ _ (plus_exact d c a b x w Ha Hb)).
  - exact (yields_int c _ _ (minus_exact d c b a w x Hb Ha)).
  - exact (yields_int c _ _ (times_exact d c b a w x Hb Ha)).
  - exact (yields_to_py c _ _ (rem_exact c b a w x Hb Ha)).
  - exact (yields_to_py c _ _ (div_exact c b a w x Hb Ha)).
  - exact (yields_to_py c _ _ (div_exact c b a w x Hb Ha)).
  - pose proof (div_rem_pair c b a w x Hb Ha) as P. unfold divided. destruct (x =? 0); [rewrite P; reflexivity|].
    destruct P as (q & r & -> & Q & R). cbn [bind fst snd].
    pose proof (text_exact c q _ Q) as T1. pose proof (text_exact c r _ R) as T2.
    destruct (text (Z.quot w x)); cbn [bind yields]; try (now rewrite T1); try easy. destruct T1 as (-> & s & -> & S1). cbn [bind].
    destruct (text (divmod_rem w x)); cbn [bind yields]; try (now rewrite T2); try easy. destruct T2 as (-> & t & -> & S2). cbn [bind].
    exists (RTexts s t). split; [reflexivity|]. split; assumption.
  - rewrite (big_count_exact c a x Ha). destruct (big_count c x) as [n| | | |] eqn:E; cbn [bind yields]; auto.
    apply count_int in E as (E & ->). exact (yields_int c _ _ (raise_exact d c b w x Hb E)).
  - rewrite (big_count_exact c a x Ha). destruct (big_count c x) as [n| | | |] eqn:E; cbn [bind yields]; auto.
    apply count_int in E as (E & ->). exact (yields_to_py c _ _ (shl_exact c b w x Hb E)).
  - rewrite (big_count_exact c a x Ha). destruct (big_count c x) as [n| | | |] eqn:E; cbn [bind yields]; auto.
    apply count_int in E as (E & ->). exact (yields_to_py c _ _ (shr_exact c b w x Hb E)).
  - cbn [apply]. rewrite Z.land_comm. exact (yields_to_py c _ (Ret _) (proj1 (bitwise_family c a b x w Ha Hb))).
  - cbn [apply]. rewrite Z.lor_comm. exact (yields_to_py c _ (Ret _) (proj1 (proj2 (bitwise_family c a b x w Ha Hb)))).
  - cbn [apply]. rewrite Z.lxor_comm. exact (yields_to_py c _ (Ret _) (proj1 (proj2 (proj2 (bitwise_family c a b x w Ha Hb))))).
  - exact (bi_big_big d c OGt a b x w Ha Hb).
  - exact (bi_big_big d c OGe a b x w Ha Hb).
  - cbn [apply]. rewrite Z.eqb_sym. exact (bi_big_big d c OEq a b x w Ha Hb).
  - cbn [apply]. rewrite Z.eqb_sym. exact (bi_big_big d c ONe a b x w Ha Hb).
  - exact (bi_big_big d c OLt a b x w Ha Hb).
  - exact (bi_big_big d c OLe a b x w Ha Hb).
Qed.

(** ** Hash *)

Lemma rotate_exact u : limb u -> Z.lor (u32 (Z.shiftl u 7)) (Z.shiftr u 25) = rotate7 u.
Proof.
  intros H. unfold rotate7, u32. rewrite Z.shiftl_mul_pow2, Z.shiftr_div_pow2 by lia. change (2 ^ 32) with W32.
  replace ((u * 2 ^ 7) mod W32) with (((u mod 2 ^ 25)) * 2 ^ 7).
  - apply lor_add; [lia|]. split; [apply Z.div_pos; num; lia|]. apply Z.div_lt_upper_bound; [lia|]. change (2 ^ 25 * 2 ^ 7) with 4294967296. num. lia.
  - change W32 with (2 ^ 25 * 2 ^ 7). now rewrite Z.mul_mod_distr_r by lia.
Qed.

Lemma for_down_last {A} n (body : nat -> A -> outcome A) s :
  for_down (S n) body s = bind (for_down n (fun i => body (S i)) s) (body O).
Proof.
  revert s. induction n as [|n IH]; intros s.
  - cbn [for_down bind]. destruct (body O s); reflexivity.
  - change (for_down (S (S n)) body s) with (bind (body (S n) s) (for_down (S n) body)).
    cbn [for_down]. rewrite bind_assoc. destruct (body (S n) s) as [t| | | |]; cbn [bind]; auto. apply IH.
Qed.

Lemma limb_hash_exact l s : limbs l ->
  for_down (List.length l) (fun iv hash => x <- rd l iv ;; Ret (s32 (combine_hash (u32 hash) (u32 (s32 x))))) s
  = Ret (limb_hash (List.length l) (val l) s).
Proof.
  induction l as [|d t IH]; intros H; [reflexivity|].
  apply Forall_cons_iff in H as (Hd & Ht). cbn [List.length]. rewrite for_down_last.
  cbn [val limb_hash]. change (2 ^ 32) with W32.
  assert ((d + W32 * val t) / W32 = val t) as -> by (rewrite Z.mul_comm, Z.div_add by easy; rewrite Z.div_small by exact Hd; lia).
  assert ((d + W32 * val t) mod W32 = d) as -> by (rewrite Z.mul_comm, Z.mod_add by easy; rewrite Z.mod_small by exact Hd; reflexivity).
  unfold rd in *. cbn [nth_error]. rewrite (IH Ht). cbn [bind]. f_equal. rewrite int_of_s32. f_equal. unfold combine_hash.
  rewrite rotate_exact by apply u32_limb. f_equal.
  unfold s32, u32. cbv zeta. rewrite (Z.mod_small d) by exact Hd. destruct (Z.ltb_spec d 2147483648).
  - apply Z.mod_small, Hd.
  - change 4294967296 with W32. replace (d - W32) with (d + -1 * W32) by ring. rewrite Z.mod_add by easy. apply Z.mod_small, Hd.
Qed.

Lemma hash_exact c a x : represents a x -> bi_hash c a = Ret (hash_code x).
Proof.
  intros Ha. pose proof (limbs_of_length a x Ha) as L. apply repr_parts in Ha. destruct a as [s l]. cbn [bits_of sign_of] in *.
  unfold bi_hash, hash_code. cbn [bits_of sign_of]. inv_parts Ha.
  - cbn [is_nil]. destruct (Z.ltb_spec (Z.abs x) (2 ^ 31)) as [H|H]; [reflexivity|]. change (2 ^ 31) with 2147483648 in H. num. lia.
  - rewrite is_nil_ne by assumption. assert (Z.abs (s * val l) = val l) as E by (destruct Hs as [-> | ->]; lia). rewrite E.
    destruct (Z.ltb_spec (val l) (2 ^ 31)) as [H|H]; [change (2 ^ 31) with 2147483648 in H; lia|].
    assert (Z.sgn (s * val l) = s) as -> by (destruct Hs as [-> | ->]; lia).
    assert (Z.to_nat (limbs_of (s * val l)) = List.length l) as -> by (rewrite L; destruct l; [congruence|cbn [List.length]; lia]).
    now apply limb_hash_exact.
Qed.

(** ** Unary operators and methods *)

Lemma unary_exact d c u a x : represents a x -> yields (unary d c u a) (value_unary d c u x).
Proof.
  intros Ha. destruct (predicate_family c a x Ha) as (_ & _ & EV & SG & p & PW & PE).
  destruct u; cbn [unary value_unary].
  - exact (yields_big _ (Ret _) (neg_returns c a x Ha)).
  - exact (yields_big _ (Ret _) (pos_returns c a x Ha)).
  - exact (yields_big _ (Ret _) (abs_returns c a x Ha)).
  - exact (yields_big _ _ (invert_exact d c a x Ha)).
  - unfold py_int. rewrite (to_py_returns c a x Ha). exists (RInt x). split; reflexivity.
  - unfold py_int. rewrite (to_py_returns c a x Ha). exists (RInt x). split; reflexivity.
  - destruct (Z.ltb_spec (Z.abs x) (2 ^ 1024 - 2 ^ 970)) as [H|H].
    + destruct (py_float_rounds c a x Ha H) as (f & -> & F1 & F2). exists (RFloat f). split; [reflexivity|]. split; [exact F1|].
      intros Z. apply F2. destruct (Z.eq_dec x 0) as [E|N]; [exact E|]. pose proof (round_sign 53 x N ltac:(lia)) as R. rewrite Z in R. change (Z.sgn 0) with 0 in R. lia.
    + rewrite (py_float_overflow c a x Ha H). reflexivity.
  - pose proof (text_exact c a x Ha) as T. destruct (text x); cbn [bind yields]; try (now rewrite T); try easy.
    destruct T as (-> & s & -> & N). exists (RText s). split; [reflexivity|exact N].
  - unfold py_hash, py_hash_raw. rewrite (hash_exact c a x Ha). rewrite hash_const. cbn [bind]. eexists. split; [reflexivity|].
    cbn [shows]. reflexivity.
  - unfold py_bytes. destruct (to_bytes_returns c a x false false Ha ltac:(discriminate)) as (l & -> & L). exists (RBytes l). split; [reflexivity|exact L].
  - unfold py_to_array. destruct (u && (x <? 0)) eqn:E.
    + apply andb_prop in E as [-> E]. apply Z.ltb_lt in E. rewrite (proj1 (to_bytes_throws c a x be Ha E)). reflexivity.
    + destruct (to_bytes_returns c a x u be Ha) as (l & -> & L); [intros ->; apply Z.ltb_ge in E; exact E|]. exists (RBytes l). split; [reflexivity|exact L].
  - exists (RBig a). split; [reflexivity|exact Ha].
  - rewrite PW. apply yields_bool. f_equal. apply eq_true_iff_eq. rewrite PE, andb_true_iff, Z.ltb_lt, Z.eqb_eq. split.
    + intros (k & K & ->). split; [apply Z.pow_pos_nonneg; lia|]. now rewrite Z.log2_pow2.
    + intros (H & E). exists (Z.log2 x). split; [apply Z.log2_nonneg|exact E].
  - now apply yields_bool.
  - rewrite SG. exists (RInt (Z.sgn x)). split; reflexivity.
Qed.

(** ** Buffers *)

Lemma copy_range_firstn m p n :
  0 <= p -> p + Z.of_nat n <= Z.of_nat (List.length m) -> copy_range m p n = Ret (firstn n (skipn (Z.to_nat p) m)).
Proof.
  revert p. induction n as [|n IH]; intros p H1 H2; [reflexivity|]. cbn [copy_range].
  unfold rdz. destruct (Z.ltb_spec p 0); [lia|]. unfold rd.
  rewrite (nth_error_nth' m 0) by lia. cbn [bind]. rewrite IH by lia. cbn [bind]. f_equal.
  replace (Z.to_nat (p + 1)) with (S (Z.to_nat p)) by lia.
  assert (forall k, (k < List.length m)%nat -> skipn k m = nth k m 0 :: skipn (S k) m) as K.
  { clear. induction m as [|x m IH]; intros k Hk; cbn [List.length] in Hk; [lia|].
    destruct k; [reflexivity|]. cbn [skipn nth]. rewrite IH by lia. reflexivity. }
  rewrite (K (Z.to_nat p)) by lia. reflexivity.
Qed.

Lemma buffer_exact c b : digits 256 (SpecPy.mem b) -> denotes (py_init_buffer c b) (buffer_value c b).
Proof.
  intros D. unfold py_init_buffer, buffer_value. cbv zeta. destruct b as [m p n st]. cbn [SpecPy.mem ptr size] in *.
  destruct n as [|n].
  - cbn [Nat.ltb Nat.leb andb firstn copy_range bind]. change (bytes_value false false [] <? 0) with false.
    rewrite andb_false_r. cbn [andb]. apply (of_bytes_returns c [] false false); [constructor|]. right. left. cbv. discriminate.
  - change (Nat.ltb 0 (S n)) with true. cbn [andb]. destruct (Z.ltb_spec p 0) as [P|P]; cbn [orb].
    { cbn [copy_range]. unfold rdz. destruct (Z.ltb_spec p 0); [reflexivity|lia]. }
    destruct (Z.ltb_spec (Z.of_nat (List.length m)) (p + Z.of_nat (S n))) as [Q|Q].
    { rewrite (copy_range_oob m p (S n) Q) by lia. reflexivity. }
    rewrite copy_range_firstn by assumption. cbn [bind]. set (l := firstn (S n) (skipn (Z.to_nat p) m)).
    assert (digits 256 l) as Dl by (rewrite <- (firstn_skipn (Z.to_nat p) m) in D; apply Forall_app in D as (_ & D); rewrite <- (firstn_skipn (S n)) in D; exact (proj1 (proj1 (Forall_app _ _ _) D))).
    assert (List.length l = S n) as Ll by (unfold l; rewrite firstn_length, skipn_length; lia).
    rewrite <- Ll. destruct (strict c) eqn:St; cbn [andb].
    + destruct (Z.ltb_spec (bytes_value false false l) 0); cbn [andb].
      * destruct (Nat.leb_spec (List.length l) 4).
        -- now apply of_bytes_strict.
        -- apply of_bytes_returns; auto.
      * apply of_bytes_returns; auto.
    + apply of_bytes_returns; auto.
Qed.

(** ** Expressions and scripts *)

Theorem eval_exact d c m s e : py_typed e -> stands_for m s -> yields (eval d c m e) (value_of d c s e).
Proof.
  intros T S. destruct e; cbn [eval value_of py_typed] in *.
  - apply yields_big. now apply operand_exact.
  - apply yields_big. now apply buffer_exact.
  - exact (yields_big _ (Ret _) (proj2 (returns_wp _ _) (bi_zero_spec c))).
  - exact (yields_big _ (Ret _) (proj2 (returns_wp _ _) (bi_one_spec c))).
  - exact (yields_big _ (Ret _) (proj2 (returns_wp _ _) (bi_minus_one_spec c))).
  - apply unary_exact, S.
  - apply bi_big_big; apply S.
  - apply big_int_exact; [apply S|exact T].
  - apply int_big_exact; [apply S|exact T].
  - apply yields_big. apply raise_mod_exact; apply S.
  - apply yields_bind; [now apply operand_exact|]. intros b w Hb. apply yields_big. apply raise_mod_exact; [apply S|exact Hb|apply S].
  - apply yields_bind; [now apply operand_exact|]. intros b w Hb. apply yields_big. apply raise_mod_exact; [apply S|apply S|exact Hb].
Qed.

Lemma bind_result_stands m s x y r v : stands_for m s -> shows r v -> stands_for (bind_result m x y r) (set_result s x y v).
Proof.
  intros S H. destruct v, r; cbn [shows bind_result set_result] in *; try contradiction; try exact S.
  - now apply stands_put.
  - destruct H. apply stands_put; [apply stands_put|]; assumption.
Qed.

Theorem script_exact d c l m s :
  Forall (fun i => py_typed (snd i)) l -> stands_for m s ->
  match script_values d c l s with
  | Some (vs, s') => exists rs m', script d c l m = Some (rs, m') /\ Forall2 shown rs vs /\ stands_for m' s'
  | None => script d c l m = None
  end.
Proof.
  revert m s. induction l as [|((x, y), e) l IH]; intros m s T S; cbn [script script_values].
  - exists [], m. split; [reflexivity|]. split; [constructor|exact S].
  - apply Forall_cons_iff in T as (Te & T). cbn [snd] in Te. pose proof (eval_exact d c m s e Te S) as E.
    destruct (value_of d c s e) as [v|ex| | |]; cbn [yields] in E; try (now rewrite E).
    + destruct E as (r & -> & H). pose proof (IH _ _ T (bind_result_stands m s x y r v S H)) as I.
      destruct (script_values d c l (set_result s x y v)) as [(vs & s')|].
      * destruct I as (rs & m' & -> & F & S'). exists (inl r :: rs), m'. split; [reflexivity|]. split; [constructor; [exact H|exact F]|exact S'].
      * now rewrite I.
    + rewrite E. pose proof (IH _ _ T S) as I. destruct (script_values d c l s) as [(vs & s')|].
      * destruct I as (rs & m' & -> & F & S'). exists (inr ex :: rs), m'. split; [reflexivity|]. split; [constructor; [reflexivity|exact F]|exact S'].
      * now rewrite I.
Qed.
