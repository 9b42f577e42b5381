(** The stack calculator of the tests ends exactly as [verdict] says. *)
From Coq Require Import String Ascii.
From Verif Require Import Facts Spec SpecFacts SpecPos SpecText TextFacts PosFacts BytesFacts ToBytesFacts ConvFacts CompareFacts BigIntFacts ArithLaws ConvLaws WordFacts
  BigInt BigIntBytes BigIntText SpecGcd SpecActual ActualFacts GcdExact ApiRun PyRun SpecPyRun PyRunFacts SpecOracle TestOracle TestCalc
  OracleFacts OracleFacts2 OracleFacts3.

Ltac Zify.zify_post_hook ::= idtac.

Lemma lookup_in {A} (t : list (string * A)) op f : lookup t op = Some f -> In (op, f) t.
Proof.
  induction t as [|[n g] t IH]; cbn [lookup In]; [discriminate|].
  destruct (String.eqb_spec op n) as [->|]; [intros [= ->]; now left|right; auto].
Qed.

Lemma lookup_none {A} (t : list (string * A)) op : lookup t op = None -> ~ In op (map fst t).
Proof.
  induction t as [|[n g] t IH]; cbn [lookup map fst In]; [auto|].
  destruct (String.eqb_spec op n) as [->|N]; [discriminate|]. intros H [C|C]; [congruence|]. now apply IH.
Qed.

Lemma lookup_some {A} (t : list (string * A)) op : In op (map fst t) -> exists f, lookup t op = Some f.
Proof.
  induction t as [|[n g] t IH]; cbn [lookup map fst In]; [contradiction|].
  destruct (String.eqb_spec op n) as [->|N]; [eauto|]. intros [C|C]; [congruence|]. now apply IH.
Qed.

(** ** The library's side *)

Lemma sn_unary_exact c lg a x op f : represents a x -> In (op, f) unary_table ->
  returns (sn_unary c lg a op) (f x).
Proof.
  intros Ha Hin. unfold sn_unary. unfold unary_table in Hin. cbn [In] in Hin.
  repeat (destruct Hin as [Hin|Hin]; [injection Hin as <- <-|]); [..|contradiction]; cbn [String.eqb Ascii.eqb Bool.eqb].
  - rewrite (bi_sign_spec c a x Ha). cbn [bind]. apply returns_wp. apply int32_wp. lia.
  - now apply not_returns.
  - now apply abs_returns.
  - now apply neg_returns.
  - now apply neg_returns.
  - rewrite <- Z.sub_1_r. now apply dec_returns.
  - rewrite <- Z.add_1_r. now apply inc_returns.
  - now apply pos_returns.
  - now apply mul_returns.
  - now apply mul_returns.
Qed.

Lemma sn_unary_other c lg a op : ~ In op (map fst unary_table) -> ~ takes_log op -> sn_unary c lg a op = Throw RuntimeError.
Proof.
  intros N L. unfold sn_unary.
  assert (forall name, In name (map fst unary_table) -> (op =? name)%string = false) as K by (intros; now apply (eqb_no op (map fst unary_table))).
  assert (forall name, In name ["uLog10"; "uLog"]%string -> (op =? name)%string = false) as K2.
  { intros name H. apply String.eqb_neq. intros ->. apply L. unfold takes_log. cbn [In] in H. intuition (subst; auto). }
  unfold unary_table in K. cbn [map fst] in K.
  repeat first [rewrite K by (cbn [In]; auto 15)|rewrite K2 by (cbn [In]; auto)]. reflexivity.
Qed.

(** A result and what was stored besides. *)
Definition denotes_pair (o : outcome (bigint * bigint)) (z : outcome Z) (s : Z) : Prop :=
  match z with
  | Ret v => exists a b, o = Ret (a, b) /\ represents a v /\ represents b s
  | Throw e => o = Throw e
  | Undef u => o = Undef u
  | AssertFail => o = AssertFail
  | NoFuel => o = NoFuel
  end.

Lemma denotes_with o z b : denotes o z -> represents b 0 -> denotes_pair (r <- o ;; Ret (r, b)) z 0.
Proof.
  intros D Hb. destruct z; cbn [denotes denotes_pair] in *; try (rewrite D; reflexivity).
  destruct D as (r & -> & Hr). exists r, b. auto.
Qed.

Lemma denotes_ret o v : returns o v -> denotes o (Ret v).
Proof. exact (fun H => H). Qed.

Lemma denotes_count c b y k kz : represents b y -> (forall n, is_int n -> denotes (k n) (kz n)) ->
  denotes (n <- bi_to_int c b ;; k n) (n <- big_count c y ;; kz n).
Proof.
  intros Hb K. rewrite (big_count_exact c b y Hb). destruct (big_count c y) as [n| | | |] eqn:E; cbn [bind denotes]; auto.
  apply count_int in E as (E & _). now apply K.
Qed.

Lemma sn_binary_exact fuel c lg a b x y op g : represents a x -> represents b y ->
  In (op, g) (lib_binary_table fuel c) ->
  denotes_pair (sn_binary fuel c lg a b op) (g x y) (lib_second_result op x y).
Proof.
  intros Ha Hb Hin. unfold sn_binary.
  destruct (wp_inv _ _ (bi_zero_spec c)) as (z & -> & Hz). cbn [bind].
  unfold lib_binary_table in Hin. cbn [In] in Hin.
  repeat (destruct Hin as [Hin|Hin]; [injection Hin as <- <-|]); [..|contradiction];
    cbn [String.eqb Ascii.eqb Bool.eqb lib_second_result]; try (apply denotes_with; [|exact Hz]).
  - destruct (order_calls c b a y x Hb Ha) as (-> & _). cbn [bind denotes]. eexists. split; [reflexivity|].
    destruct (Z.ltb_spec y x); [rewrite Z.min_r by lia; exact Hb|rewrite Z.min_l by lia; exact Ha].
  - destruct (order_calls c a b x y Ha Hb) as (-> & _). cbn [bind denotes]. eexists. split; [reflexivity|].
    destruct (Z.ltb_spec x y); [rewrite Z.max_r by lia; exact Hb|rewrite Z.max_l by lia; exact Ha].
  - apply denotes_count; [exact Hb|]. intros n Hn. now apply shr_exact.
  - apply denotes_count; [exact Hb|]. intros n Hn. now apply shl_exact.
  - apply denotes_ret, returns_wp. now apply bi_xor_spec.
  - apply denotes_ret, returns_wp. now apply bi_or_spec.
  - apply denotes_ret, returns_wp. now apply bi_and_spec.
  - now apply rem_exact.
  - now apply div_exact.
  - now apply mul_returns.
  - now apply sub_returns.
  - now apply add_returns.
  - now apply gcd_exact.
  - apply denotes_count; [exact Hb|]. intros n Hn. exact (raise_exact LP64 c a x n Ha Hn).
  - pose proof (div_rem_pair c a b x y Ha Hb) as P. unfold divided. destruct (Z.eqb_spec y 0); [exact P|].
    destruct P as (q & r & -> & Q & R). exists q, r. auto.
  - now apply rem_exact.
  - now apply div_exact.
  - now apply mul_returns.
  - now apply sub_returns.
  - now apply add_returns.
Qed.

Lemma sn_binary_other fuel c lg a b op : ~ In op (map fst binary_table) -> ~ takes_log op ->
  sn_binary fuel c lg a b op = Throw RuntimeError.
Proof.
  intros N L. unfold sn_binary. destruct (wp_inv _ _ (bi_zero_spec c)) as (z & -> & _). cbn [bind].
  assert (forall name, In name (map fst binary_table) -> (op =? name)%string = false) as K by (intros; now apply (eqb_no op (map fst binary_table))).
  assert ((op =? "bLog")%string = false) as K2 by (apply String.eqb_neq; intros ->; apply L; unfold takes_log; auto).
  unfold binary_table in K. cbn [map fst] in K. rewrite K2. rewrite !K by (cbn [In]; auto 25). reflexivity.
Qed.

Lemma binary_names fuel c : map fst (lib_binary_table fuel c) = map fst binary_table.
Proof. reflexivity. Qed.

Lemma count_ok c y n : big_count c y = Ret n -> an_int y = true /\ n = y.
Proof.
  intros H. apply count_int in H as (H & ->). unfold is_int in H. unfold an_int. split; [|reflexivity].
  apply andb_true_iff. split; [apply Z.leb_le|apply Z.ltb_lt]; lia.
Qed.

(** When the library returns, the operands make sense. *)
Lemma lib_domain fuel c op g f ok x y v :
  lookup (lib_binary_table fuel c) op = Some g -> lookup binary_table op = Some (f, ok) -> g x y = Ret v -> ok y = true.
Proof.
  intros Hg Hf Hv. apply lookup_in in Hg. unfold lib_binary_table in Hg. cbn [In] in Hg.
  assert (divided Z.rem x y = Ret v \/ divided Z.quot x y = Ret v -> nonzero y = true) as D.
  { unfold divided, nonzero. destruct (y =? 0); [|reflexivity]. intros [?|?]; discriminate. }
  repeat (destruct Hg as [Hg|Hg]; [injection Hg as <- <-; cbn in Hf; injection Hf as <- <-|]); [..|contradiction];
    try reflexivity; try (apply D; auto; fail).
  - destruct (big_count c y) eqn:E; try discriminate. now apply count_ok in E.
  - destruct (big_count c y) eqn:E; try discriminate. now apply count_ok in E.
  - destruct (big_count c y) eqn:E; try discriminate. apply count_ok in E as (E & ->). cbn [bind] in Hv.
    rewrite E. unfold power_of in Hv. destruct (Z.ltb_spec y 0); [discriminate|]. destruct (Z.leb_spec 0 y); [reflexivity|lia].
Qed.

Lemma sn_ternary_exact c a b m x y z op g : represents a x -> represents b y -> represents m z ->
  In (op, g) (lib_ternary_table c) -> denotes (sn_ternary c a b m op) (g x y z).
Proof.
  intros Ha Hb Hm Hin. unfold lib_ternary_table in Hin. cbn [In] in Hin. destruct Hin as [Hin|[]]. injection Hin as <- <-.
  unfold sn_ternary. cbn [String.eqb Ascii.eqb Bool.eqb]. now apply mod_pow_exact.
Qed.

(** ** Comparing texts *)

Lemma text_step {A} c a b v w (K : outcome A) d : represents a v -> represents b w ->
  (ts <- bi_to_string c a ;; tm <- bi_to_string c b ;; if (ts =? tm)%string then K else d) =
  (same <- same_text v w ;; if same : bool then K else d).
Proof.
  intros Ha Hb. unfold same_text. pose proof (text_exact c a v Ha) as Ta. pose proof (text_exact c b w Hb) as Tb.
  destruct (text v) as [z| | | |]; cbn [bind]; try (now rewrite Ta); try contradiction.
  destruct Ta as (-> & s & -> & Ns). cbn [bind].
  destruct (text w) as [z| | | |]; cbn [bind]; try (now rewrite Tb); try contradiction.
  destruct Tb as (-> & t & -> & Nt). cbn [bind].
  assert ((s =? t)%string = (v =? w)) as ->; [|reflexivity].
  destruct (Z.eqb_spec v w) as [->|N].
  - apply String.eqb_eq. now apply (numeral_unique s t w).
  - apply String.eqb_neq. intros ->. apply N. now rewrite <- (numeral_parse t v Ns), <- (numeral_parse t w Nt).
Qed.

Lemma same_text_inv v w (K K' : outcome bool) : (v = w -> K = K') ->
  (same <- same_text v w ;; if same : bool then K else Ret false) = (same <- same_text v w ;; if same : bool then K' else Ret false).
Proof.
  intros H. unfold same_text. unfold text.
  destruct (214748364 <? limbs_of v); [reflexivity|]. destruct (_ && _); [reflexivity|]. cbn [bind].
  destruct (214748364 <? limbs_of w); [reflexivity|]. destruct (_ && _); [reflexivity|]. cbn [bind].
  destruct (Z.eqb_spec v w); [now apply H|reflexivity].
Qed.

(** ** The loop *)

Lemma char0_byte op : 0 <= char0 op < 256.
Proof.
  unfold char0. destruct op as [|ch]; [lia|]. pose proof (nat_ascii_bounded ch) as B.
  apply inj_lt in B. change (Z.of_nat 256) with 256 in B. lia.
Qed.

Lemma construction_spec ops : forall bytes, digits 256 bytes ->
  match construction_bytes ops bytes with
  | Ret (bs, rest) => digits 256 bs /\ (length rest < length ops)%nat /\ incl rest ops
  | o => o = Undef OutOfBounds
  end.
Proof.
  induction ops as [|op ops IH]; intros bytes D; cbn [construction_bytes]; [reflexivity|].
  destruct (op =? "endmake")%string; [split; [exact D|]; split; [cbn [length]; lia|intros t H; now right]|].
  specialize (IH (bytes ++ [char0 op])%list). destruct (construction_bytes ops (bytes ++ [char0 op])) as [[bs rest]| | | |];
    try (apply IH; apply digits_snoc; [exact D|apply char0_byte]).
  destruct IH as (D' & L & I); [apply digits_snoc; [exact D|apply char0_byte]|].
  split; [exact D'|]. split; [cbn [length]; lia|]. intros t H. right. now apply I.
Qed.

Lemma verdict_making fuel c outs ops : forall bytes st,
  verdict fuel c outs ops (Some bytes) st =
  ('(bs, rest) <- construction_bytes ops bytes ;;
   let v := complement 256 bs in
   same <- same_text v v ;; if same : bool then verdict fuel c outs rest None (v :: st) else Ret false).
Proof.
  induction ops as [|op ops IH]; intros bytes st; cbn [verdict construction_bytes bind]; [reflexivity|].
  destruct (op =? "endmake")%string; [reflexivity|]. exact (IH (bytes ++ [char0 op])%list st).
Qed.

Lemma ne_same c a x : represents a x -> bi_ne c a a = Ret false.
Proof. intros H. destruct (equal_calls c a a x x H H) as (_ & ->). now rewrite Z.eqb_refl. Qed.

Lemma verify_loop_exact fuel c sl1 ml1 sl2 ml2 outs : strict c = false ->
  forall n ops sn st so mo,
  (length ops < n)%nat -> (forall op, In op ops -> ~ takes_log op) -> Forall2 represents sn st ->
  (outs = true -> represents so 0 /\ represents mo 0) ->
  verify_loop fuel c sl1 ml1 sl2 ml2 n outs (Calc sn sn ops so mo) = verdict fuel c outs ops None st.
Proof.
  intros Hc. induction n as [|n IH]; intros ops sn st so mo Hn Hlog HS HO; [lia|].
  cbn [verify_loop]. unfold do_next. cbn [operators snCalc myCalc snOut myOut].
  destruct ops as [|op ops]; [reflexivity|]. cbn [length] in Hn. cbn [verdict].
  pose proof (Hlog op (or_introl eq_refl)) as L1.
  assert (forall t, In t ops -> ~ takes_log t) as Hlog' by (intros t Ht; apply Hlog; now right).
  (* what follows once both calculators have pushed their results *)
  assert (forall ops' a b v w sn st so' mo' s1 s2, (length ops' <= length ops)%nat -> incl ops' ops ->
    represents a v -> represents b w -> Forall2 represents sn st ->
    (outs = true -> represents so' s1 /\ represents mo' s2) ->
    (ts <- bi_to_string c a ;; tm <- bi_to_string c b ;;
     if (ts =? tm)%string then
       s <- (if outs then verify_out c (Calc (a :: sn) (b :: sn) ops' so' mo') else Ret (Calc (a :: sn) (b :: sn) ops' so' mo')) ;;
       verify_loop fuel c sl1 ml1 sl2 ml2 n outs s
     else Ret false) =
    (same <- same_text v w ;; if same : bool then
       (if outs && dbg c && negb (s1 =? s2) then AssertFail else verdict fuel c outs ops' None (v :: st)) else Ret false)) as Go.
  { intros ops' a b v w sn' st' so' mo' s1 s2 HL HI Hav Hbw HS' HO'.
    rewrite (text_step c a b v w _ _ Hav Hbw). apply same_text_inv. intros <-.
    rewrite <- (represents_unique _ _ _ Hav Hbw).
    destruct outs; cbn [andb bind].
    - destruct (HO' eq_refl) as (H1 & H2). unfold verify_out. cbn [snOut myOut operators snCalc myCalc].
      destruct (equal_calls c so' mo' s1 s2 H1 H2) as (-> & _).
      destruct (wp_inv _ _ (int32_wp c 0 ltac:(lia))) as (z & -> & Hz).
      destruct (dbg c); cbn [bind andb]; [destruct (s1 =? s2); cbn [negb bind]; [|reflexivity]|].
      + apply IH; [lia|intros t Ht; apply Hlog', HI, Ht|now constructor|auto].
      + apply IH; [lia|intros t Ht; apply Hlog', HI, Ht|now constructor|auto].
    - apply IH; [lia|intros t Ht; apply Hlog', HI, Ht|now constructor|discriminate]. }
  assert (forall (b : bool) x y, (if b && negb (x =? x) then AssertFail else y) = y :> outcome bool) as Same.
  { intros b x y. rewrite Z.eqb_refl. cbn [negb]. now rewrite andb_false_r. }
  unfold begins, starts_with.
  destruct (match op with String a _ => Ascii.eqb a "u" | EmptyString => false end).
  { (* unary *)
    destruct HS as [|a x sn st Ha HS]; cbn [pop_top bind]; [reflexivity|].
    destruct (lookup unary_table op) as [f|] eqn:Lk.
    - apply lookup_in in Lk. destruct (sn_unary_exact c sl1 a x op f Ha Lk) as (r & -> & Hr). cbn [bind].
      destruct (wp_inv _ _ (mine_unary_wp c ml1 a x op f Hc Ha Lk)) as (m & -> & Hm). cbn [bind].
      unfold check_values. rewrite (ne_same c a x Ha). cbn [bind pop_top snCalc myCalc].
      rewrite (Go ops r m (f x) (f x) sn st so mo 0 0 (le_n _) (incl_refl _) Hr Hm HS HO).
      apply same_text_inv. intros _. apply (Same (outs && dbg c)).
    - rewrite (sn_unary_other c sl1 a op (lookup_none _ _ Lk) L1). reflexivity. }
  destruct (match op with String a _ => Ascii.eqb a "b" | EmptyString => false end).
  { (* binary *)
    destruct HS as [|a x sn st Ha HS]; cbn [pop_top bind]; [reflexivity|].
    destruct HS as [|b y sn st Hb HS]; cbn [pop_top bind]; [reflexivity|].
    destruct (lookup (lib_binary_table fuel c) op) as [g|] eqn:Lg.
    - destruct (lookup_some binary_table op) as ((f & ok) & Lf).
      { rewrite <- (binary_names fuel c). apply (in_map fst _ (op, g)). now apply lookup_in. }
      rewrite Lf. pose proof (sn_binary_exact fuel c sl2 a b x y op g Ha Hb (lookup_in _ _ _ Lg)) as D.
      destruct (g x y) as [v| | | |] eqn:Eg; cbn [denotes_pair] in D; try (rewrite D; reflexivity).
      destruct D as (r & s & -> & Hr & Hs). cbn [bind].
      pose proof (lib_domain fuel c op g f ok x y v Lg Lf Eg) as Hok.
      destruct (wp_inv _ _ (mine_binary_wp c ml2 a b x y op f ok Hc Ha Hb (lookup_in _ _ _ Lf) Hok)) as ((m & ms) & -> & Hm & Hms). cbn [bind].
      unfold check_values. rewrite (ne_same c a x Ha), (ne_same c b y Hb). cbn [bind pop_top snCalc myCalc].
      rewrite (Go ops r m v (f x y) sn st s ms _ _ (le_n _) (incl_refl _) Hr Hm HS (fun _ => conj Hs Hms)).
      destruct (same_text v (f x y)) as [[|]| | | |]; reflexivity.
    - assert (~ In op (map fst binary_table)) as N by (rewrite <- (binary_names fuel c); now apply lookup_none).
      rewrite (sn_binary_other fuel c sl2 a b op N L1). reflexivity. }
  destruct (match op with String a _ => Ascii.eqb a "t" | EmptyString => false end).
  { (* ternary *)
    destruct HS as [|a x sn st Ha HS]; cbn [pop_top bind]; [reflexivity|].
    destruct HS as [|b y sn st Hb HS]; cbn [pop_top bind]; [reflexivity|].
    destruct HS as [|m z sn st Hm HS]; cbn [pop_top bind]; [reflexivity|].
    destruct (lookup (lib_ternary_table c) op) as [g|] eqn:Lg.
    - apply lookup_in in Lg. pose proof (sn_ternary_exact c a b m x y z op g Ha Hb Hm Lg) as D.
      destruct (g x y z) as [v| | | |] eqn:Eg; cbn [denotes] in D; try (rewrite D; reflexivity).
      destruct D as (r & -> & Hr). cbn [bind].
      cbn [lib_ternary_table In] in Lg. destruct Lg as [Lg|[]]. injection Lg as <- <-.
      assert (0 <= y /\ z <> 0) as (Hy & Hz).
      { unfold power_mod in Eg. destruct (Z.ltb_spec y 0); [discriminate|]. destruct (Z.eqb_spec z 0); [|now split].
        destruct ((Z.abs x <? 2 ^ 31) && (2 ^ 32 <=? y)); discriminate. }
      destruct (wp_inv _ _ (mine_ternary_wp c a b m x y z Hc Ha Hb Hm Hy Hz)) as (w & -> & Hw). cbn [bind].
      unfold check_values. rewrite (ne_same c a x Ha), (ne_same c b y Hb), (ne_same c m z Hm). cbn [bind pop_top snCalc myCalc].
      rewrite (Go ops r w v (Z.rem (x ^ y) z) sn st so mo 0 0 (le_n _) (incl_refl _) Hr Hw HS HO).
      apply same_text_inv. intros _. apply (Same (outs && dbg c)).
    - apply lookup_none in Lg. cbn [lib_ternary_table map fst In] in Lg.
      unfold sn_ternary. rewrite (proj2 (String.eqb_neq op "tModPow")) by (intros ->; apply Lg; now left). reflexivity. }
  destruct (op =? "make")%string.
  { rewrite verdict_making. unfold do_construction.
    pose proof (construction_spec ops [] (Forall_nil _)) as C.
    destruct (construction_bytes ops []) as [[bs rest]| | | |]; try (rewrite C; reflexivity).
    destruct C as (D & Lr & Ir). cbn [bind].
    destruct (of_bytes_returns c bs false false D (or_introl Hc)) as (r & -> & Hr). cbn [bind pop_top snCalc myCalc]. cbv zeta.
    unfold bytes_value, le_order in Hr.
    rewrite (Go rest r r _ _ sn st so mo 0 0 ltac:(lia) Ir Hr Hr HS HO).
    apply same_text_inv. intros _. apply (Same (outs && dbg c)). }
  destruct (op =? "Corruption")%string.
  { destruct (wp_inv _ _ (int32_wp c (-33) ltac:(lia))) as (r & -> & Hr). cbn [bind].
    destruct (wp_inv _ _ (int32_wp c (-555) ltac:(lia))) as (m & -> & Hm). cbn [bind pop_top snCalc myCalc].
    rewrite (text_step c r m (-33) (-555) _ _ Hr Hm). reflexivity. }
  destruct (wp_inv _ _ (int32_wp c 0 ltac:(lia))) as (z & -> & Hz). cbn [bind].
  destruct (parse_returns c op) as (r & E & Hr). unfold bi_try_parse. rewrite E. cbn [bind pop_top snCalc myCalc]. cbv zeta.
  rewrite (Go ops r r _ _ sn st so mo 0 0 (le_n _) (incl_refl _) Hr Hr HS HO).
  apply same_text_inv. intros _. apply (Same (outs && dbg c)).
Qed.

Theorem verify_exact fuel c sl1 ml1 sl2 ml2 outs input : strict c = false ->
  (forall op, In op (tokens input) -> ~ takes_log op) ->
  verify fuel c sl1 ml1 sl2 ml2 outs input = verdict fuel c outs (tokens input) None [].
Proof.
  intros Hc Hl. unfold verify, new_calc. destruct (wp_inv _ _ (int32_wp c 0 ltac:(lia))) as (z & -> & Hz). cbn [bind operators].
  apply verify_loop_exact; [exact Hc|lia|exact Hl|constructor|auto].
Qed.

(** ** Texts *)

Definition no_blank (t : string) : Prop := forall a b, t <> (a ++ " " ++ b)%string.

Lemma cut_last s : forall t, no_blank s -> cut_blanks s t = [(t ++ s)%string].
Proof.
  induction s as [|ch s IH]; intros t H; cbn [cut_blanks].
  - f_equal. induction t as [|x t IHt]; [reflexivity|]. cbn [String.append]. now rewrite <- IHt.
  - destruct (Ascii.eqb_spec ch " ") as [->|N]; [exfalso; now apply (H ""%string s)|].
    rewrite IH by (intros a b ->; now apply (H (String ch a) b)). f_equal.
    clear. induction t as [|x t IHt]; [reflexivity|]. cbn [String.append]. now rewrite IHt.
Qed.

Lemma cut_first s rest : forall t, no_blank s -> cut_blanks (s ++ String " " rest) t = (t ++ s)%string :: tokens rest.
Proof.
  induction s as [|ch s IH]; intros t H; cbn [String.append cut_blanks].
  - cbn [Ascii.eqb Bool.eqb]. f_equal. induction t as [|x t IHt]; [reflexivity|]. cbn [String.append]. now rewrite <- IHt.
  - destruct (Ascii.eqb_spec ch " ") as [->|N]; [exfalso; now apply (H ""%string s)|].
    rewrite IH by (intros a b ->; now apply (H (String ch a) b)). f_equal.
    clear. induction t as [|x t IHt]; [reflexivity|]. cbn [String.append]. now rewrite IHt.
Qed.

Lemma cut_pieces s : forall t, no_blank t -> pieces (t ++ s) (cut_blanks s t).
Proof.
  induction s as [|ch s IH]; intros t H; cbn [cut_blanks].
  - split; [discriminate|]. split; [now repeat constructor|]. cbn [String.concat].
    clear H. induction t as [|x t IHt]; [reflexivity|]. cbn [String.append]. now rewrite IHt.
  - destruct (Ascii.eqb_spec ch " ") as [->|N].
    + destruct (IH ""%string) as (A & B & C).
      { intros a b E. destruct a; discriminate E. }
      split; [discriminate|]. split; [now constructor|]. cbn [String.append] in C.
      destruct (cut_blanks s "") as [|x l]; [now elim A|].
      change (t ++ String " " s = t ++ String " " (String.concat " " (x :: l)))%string. now rewrite <- C.
    + replace (t ++ String ch s)%string with ((t ++ String ch "") ++ s)%string.
      2:{ clear. induction t as [|x t IHt]; [reflexivity|]. cbn [String.append]. now rewrite IHt. }
      apply IH. intros a b E. revert a E H. clear -N. induction t as [|x t IHt]; intros a E H.
      * destruct a as [|y a]; [injection E as E1 _; congruence|]. destruct a; discriminate E.
      * destruct a as [|y a]; [injection E as -> E; now apply (H ""%string t)|].
        injection E as <- E. apply (IHt a E). intros a' b' ->. now apply (H (String x a') b').
Qed.

Lemma tokens_pieces input toks : pieces input toks <-> toks = tokens input.
Proof.
  split.
  - intros (A & B & ->). revert A. induction B as [|t l Ht B IH]; intros A; [now elim A|].
    destruct l as [|u l].
    + cbn [String.concat]. unfold tokens. now rewrite cut_last.
    + change (String.concat " " (t :: u :: l)) with (t ++ String " " (String.concat " " (u :: l)))%string.
      unfold tokens. rewrite cut_first by exact Ht. cbn [String.append]. f_equal. apply IH. discriminate.
  - intros ->. apply (cut_pieces input ""). intros a b E. destruct a; discriminate E.
Qed.

(** ** The notation for byte strings *)

Definition tokens_of (b : Z) : list string := if b =? 32 then [""%string; ""%string] else [String (char_of b) ""].

Lemma char_of_blank b : 0 <= b < 256 -> Ascii.eqb (char_of b) " " = (b =? 32).
Proof.
  intros H. unfold char_of. destruct (Z.eqb_spec b 32) as [->|N]; [reflexivity|].
  apply Ascii.eqb_neq. intros E. apply N. apply (f_equal nat_of_ascii) in E. rewrite nat_ascii_embedding in E by lia.
  change (nat_of_ascii " ") with 32%nat in E. lia.
Qed.

Lemma char0_of b : 0 <= b < 256 -> char0 (String (char_of b) "") = b.
Proof. intros H. cbn [char0]. unfold char_of. rewrite nat_ascii_embedding by lia. lia. Qed.

Lemma tokens_byte b s : 0 <= b < 256 ->
  tokens (String (char_of b) (String " " s)) = (tokens_of b ++ tokens s)%list.
Proof.
  intros H. unfold tokens, tokens_of. cbn [cut_blanks]. rewrite (char_of_blank b H). destruct (b =? 32); reflexivity.
Qed.

Lemma append_assoc (s t u : string) : ((s ++ t) ++ u = s ++ (t ++ u))%string.
Proof. induction s as [|ch s IH]; cbn [String.append]; [reflexivity|now rewrite IH]. Qed.

Lemma tokens_print bytes rest : digits 256 bytes ->
  tokens (print_bytes bytes ++ rest) = ("make" :: flat_map tokens_of bytes ++ "endmake" :: tokens rest)%string%list.
Proof.
  intros D. unfold print_bytes. rewrite append_assoc.
  change (tokens ("make " ++ ((fold_right (fun b s => String (char_of b) (String " " s)) "" bytes ++ "endmake ") ++ rest)))%string with
    ("make"%string :: tokens ((fold_right (fun b s => String (char_of b) (String " " s)) "" bytes ++ "endmake ") ++ rest)%string).
  f_equal. induction D as [|b l Hb D IH]; cbn [fold_right flat_map].
  - reflexivity.
  - cbn [String.append]. rewrite (tokens_byte b _ Hb), IH. now rewrite app_assoc.
Qed.

Lemma construction_tokens bytes : digits 256 bytes -> forall acc rest,
  construction_bytes (flat_map tokens_of bytes ++ "endmake"%string :: rest) acc = Ret (acc ++ blanks_lost bytes, rest)%list.
Proof.
  intros D. induction D as [|b l Hb D IH]; intros acc rest; unfold blanks_lost in *; cbn [flat_map].
  - cbn [app]. cbn [construction_bytes String.eqb Ascii.eqb Bool.eqb]. now rewrite app_nil_r.
  - unfold tokens_of at 1. destruct (b =? 32).
    + cbn [app]. cbn [construction_bytes String.eqb]. cbn [char0]. rewrite IH. now rewrite <- !app_assoc.
    + cbn [app]. cbn [construction_bytes].
      replace (String (char_of b) "" =? "endmake")%string with false by (cbn [String.eqb]; now destruct (Ascii.eqb _ _)).
      rewrite (char0_of b Hb), IH. now rewrite <- app_assoc.
Qed.

Lemma blanks_lost_digits bytes : digits 256 bytes -> digits 256 (blanks_lost bytes).
Proof.
  intros D. unfold blanks_lost. induction D as [|b l Hb D IH]; [constructor|]. cbn [flat_map].
  destruct (b =? 32); cbn [app]; repeat constructor; auto; lia.
Qed.

Lemma complement_cons b l : l <> [] -> complement 256 (b :: l) = b + 256 * complement 256 l.
Proof.
  intros N. unfold complement. cbn [positional].
  replace (last (b :: l) 0) with (last l 0) by (destruct l; [congruence|reflexivity]).
  cbn [List.length]. rewrite Nat2Z.inj_succ, Z.pow_succ_r by lia. destruct (256 <=? 2 * last l 0); ring.
Qed.

Lemma complement_hd b l : 0 <= b < 256 -> complement 256 (b :: l) mod 256 = b.
Proof.
  intros H. destruct l as [|d l].
  - unfold complement. cbn [positional last List.length]. rewrite Z.mul_0_r, Z.add_0_r.
    change (Z.of_nat 1) with 1. rewrite Z.pow_1_r. destruct (256 <=? 2 * b).
    + replace (b - 256) with (b + -1 * 256) by ring. rewrite Z.mod_add by lia. now apply Z.mod_small.
    + rewrite Z.sub_0_r. now apply Z.mod_small.
  - rewrite complement_cons by discriminate. rewrite Z.mul_comm, Z.mod_add by lia. now apply Z.mod_small.
Qed.

Lemma blanks_lost_nil l : blanks_lost l = [] -> l = [].
Proof. destruct l as [|b l]; [auto|]. unfold blanks_lost. cbn [flat_map]. destruct (b =? 32); discriminate. Qed.

Lemma blanks_lost_value bytes : digits 256 bytes ->
  (complement 256 (blanks_lost bytes) = complement 256 bytes <-> ~ In 32 bytes).
Proof.
  intros D. induction D as [|b l Hb D IH]; [split; [intros _ []|reflexivity]|].
  change (blanks_lost (b :: l)) with ((if b =? 32 then [0; 0] else [b]) ++ blanks_lost l)%list.
  destruct (Z.eqb_spec b 32) as [->|N].
  - split; [|intros H; exfalso; apply H; now left]. intros E. exfalso.
    apply (f_equal (fun v => v mod 256)) in E. cbn [app] in E. rewrite !complement_hd in E by lia. discriminate.
  - cbn [app]. destruct l as [|d l].
    { split; [intros _ [C|[]]; now apply N|reflexivity]. }
    rewrite (complement_cons b (d :: l)) by discriminate.
    rewrite complement_cons by (intros C; apply blanks_lost_nil in C; discriminate).
    split.
    + intros E [C|C]; [now apply N|]. apply IH in C; [exact C|]. lia.
    + intros H. f_equal. f_equal. apply IH. intros C. apply H. now right.
Qed.

(** ** Operands printed by the tests *)

Lemma verdict_print fuel c outs bytes rest st : digits 256 bytes ->
  verdict fuel c outs (tokens (print_bytes bytes ++ rest)) None st =
  (let v := complement 256 (blanks_lost bytes) in
   same <- same_text v v ;; if same : bool then verdict fuel c outs (tokens rest) None (v :: st) else Ret false).
Proof.
  intros D. rewrite (tokens_print bytes rest D). cbn [verdict starts_with Ascii.eqb Bool.eqb String.eqb].
  rewrite verdict_making, (construction_tokens bytes D). reflexivity.
Qed.

(** ** Which operators can make a test fail *)

Lemma same_text_refl v b : same_text v v = Ret b -> b = true.
Proof.
  unfold same_text, text. destruct (214748364 <? limbs_of v); [discriminate|]. destruct (_ && _); [discriminate|]. cbn [bind].
  rewrite Z.eqb_refl. now intros [= <-].
Qed.

Lemma lib_right fuel c op g f ok x y v : ~ In op blamed ->
  lookup (lib_binary_table fuel c) op = Some g -> lookup binary_table op = Some (f, ok) -> g x y = Ret v -> v = f x y.
Proof.
  intros B Hg Hf Hv. apply lookup_in in Hg. unfold lib_binary_table in Hg. cbn [In] in Hg.
  assert (forall h, divided h x y = Ret v -> v = h x y) as D.
  { unfold divided. intros h. destruct (y =? 0); [discriminate|]. now intros [= <-]. }
  repeat (destruct Hg as [Hg|Hg]; [injection Hg as <- <-; cbn in Hf; injection Hf as <- <-|]); [..|contradiction];
    try (exfalso; apply B; unfold blamed; cbn [In]; auto 10; fail);
    try (injection Hv as <-; reflexivity); try (now apply D).
  destruct (big_count c y) eqn:E; try discriminate. apply count_ok in E as (E & ->). cbn [bind] in Hv.
  unfold power_of in Hv. destruct (y <? 0); [discriminate|]. destruct (_ && _); [discriminate|]. now injection Hv.
Qed.

Lemma fails_only_by fuel c outs ops : forall making st,
  verdict fuel c outs ops making st = Ret false -> exists op, In op ops /\ In op blamed.
Proof.
  induction ops as [|op ops IH]; intros making st; cbn [verdict]; [destruct making; discriminate|].
  intros H.
  assert (forall v st', (same <- same_text v v ;; if same : bool then verdict fuel c outs ops None (v :: st') else Ret false) = Ret false ->
    exists o, In o (op :: ops) /\ In o blamed) as Go.
  { intros v st' Hv. destruct (same_text v v) as [b| | | |] eqn:E; try discriminate. apply same_text_refl in E. subst b. cbn [bind] in Hv.
    destruct (IH _ _ Hv) as (o & I & B). exists o. split; [now right|exact B]. }
  destruct making as [bytes|].
  { destruct (op =? "endmake")%string; [exact (Go _ _ H)|]. destruct (IH _ _ H) as (o & I & B). exists o. split; [now right|exact B]. }
  destruct (starts_with "u" op).
  { destruct st as [|x st]; [discriminate|]. destruct (lookup unary_table op); [exact (Go _ _ H)|discriminate]. }
  destruct (starts_with "b" op).
  { destruct st as [|x [|y st]]; [discriminate..|].
    destruct (lookup (lib_binary_table fuel c) op) as [g|] eqn:Lg; [|discriminate].
    destruct (lookup binary_table op) as [(f & ok)|] eqn:Lf; [|discriminate].
    destruct (in_dec string_dec op blamed) as [B|B]; [exists op; split; [now left|exact B]|].
    destruct (g x y) as [v| | | |] eqn:Eg; try discriminate. cbn [bind] in H.
    rewrite <- (lib_right fuel c op g f ok x y v B Lg Lf Eg) in H.
    destruct (same_text v v) as [b| | | |] eqn:E; try discriminate. apply same_text_refl in E. subst b. cbn [bind negb] in H.
    destruct (outs && dbg c && _); [discriminate|]. destruct (IH _ _ H) as (o & I & B'). exists o. split; [now right|exact B']. }
  destruct (starts_with "t" op).
  { destruct st as [|x [|y [|z st]]]; [discriminate..|].
    destruct (lookup (lib_ternary_table c) op) as [g|] eqn:Lg; [|discriminate].
    apply lookup_in in Lg. cbn [lib_ternary_table In] in Lg. destruct Lg as [Lg|[]]. injection Lg as <- _.
    exists "tModPow"%string. split; [now left|]. unfold blamed. cbn [In]. auto 10. }
  destruct (op =? "make")%string; [destruct (IH _ _ H) as (o & I & B); exists o; split; [now right|exact B]|].
  destruct (String.eqb_spec op "Corruption") as [->|]; [|exact (Go _ _ H)].
  exists "Corruption"%string. split; [now left|]. unfold blamed. cbn [In]. auto 10.
Qed.

(** ** The byte functions *)

Lemma encoded_of o x : wp o (fun l => enc l x) -> encoded o x.
Proof. intros H. apply wp_inv in H as (l & -> & H). now exists l. Qed.

Lemma bytes_exact l1 l2 l3 x y z : encodes l1 x -> encodes l2 y -> encodes l3 z ->
  encoded (ref_add l1 l2) (x + y) /\ encoded (ref_negate l1) (- x) /\ encoded (ref_multiply l1 l2) (x * y) /\
  encoded (ref_max l1 l2) (Z.max x y) /\ encoded (ref_gcd l1 l2) (Z.gcd x y) /\
  encoded (ref_not l1) (Z.lnot x) /\ encoded (ref_and l1 l2) (Z.land x y) /\
  encoded (ref_or l1 l2) (Z.lor x y) /\ encoded (ref_xor l1 l2) (Z.lxor x y) /\
  encoded (ref_trim l1) x /\ encoded (ref_shift_grow l1) (2 * x) /\ encoded (ref_shift_right l1) (x / 2) /\
  (y <> 0 -> encoded (ref_divide l1 l2) (Z.quot x y) /\ encoded (ref_remainder l1 l2) (Z.rem x y)) /\
  (0 <= y -> encoded (ref_pow l1 l2) (x ^ y)) /\
  (0 <= y -> z <> 0 -> encoded (ref_mod_pow l1 l2 l3) (Z.rem (x ^ y) z)).
Proof.
  intros E1 E2 E3. unfold ref_and, ref_or, ref_xor.
  repeat match goal with |- _ /\ _ => split end; intros; try split; apply encoded_of.
  - eapply wp_mono; [apply (ref_add_spec l1 l2 x y E1 E2)|]. now intros r (H & _).
  - eapply wp_mono; [apply (ref_negate_spec l1 x E1)|]. now intros r (H & _).
  - now apply ref_multiply_spec.
  - now apply ref_max_spec.
  - now apply ref_gcd_spec.
  - replace (Z.lnot x) with (- x - 1) by (unfold Z.lnot; lia). now apply ref_not_spec.
  - apply ref_bitwise_spec; [apply bitop_and|exact E1|exact E2].
  - apply ref_bitwise_spec; [apply bitop_or|exact E1|exact E2].
  - apply ref_bitwise_spec; [apply bitop_xor|exact E1|exact E2].
  - eapply wp_mono; [apply (ref_trim_spec l1 x E1)|]. now intros r (H & _).
  - eapply wp_mono; [apply (ref_shift_grow_spec l1 x E1)|]. now intros r (H & _).
  - eapply wp_mono; [apply (ref_shift_right_spec l1 x E1)|]. now intros r (H & _).
  - now apply ref_divide_spec.
  - now apply ref_remainder_spec.
  - now apply ref_pow_spec.
  - now apply ref_mod_pow_spec.
Qed.

Lemma bytes_shift c l1 l2 x s : strict c = false -> encodes l1 x -> encodes l2 s -> Z.abs s < 2 ^ 34 ->
  encoded (ref_shift_left c l1 l2) (Z.shiftl x s).
Proof. intros. apply encoded_of. now apply ref_shift_left_spec. Qed.

Lemma mine_unary_exact c lg a x op f : strict c = false -> represents a x -> In (op, f) unary_table ->
  returns (mine_unary c lg a op) (f x).
Proof. intros. apply returns_wp. now apply mine_unary_wp. Qed.

Lemma mine_unary_unknown c lg a x op : strict c = false -> represents a x ->
  ~ In op (map fst unary_table) -> ~ takes_log op ->
  returns (mine_unary c lg a op) (x * x) /\ sn_unary c lg a op = Throw RuntimeError.
Proof. intros. split; [apply returns_wp; now apply mine_unary_other|now apply sn_unary_other]. Qed.

Lemma mine_binary_exact c lg a b x y op f ok : strict c = false -> represents a x -> represents b y ->
  In (op, (f, ok)) binary_table -> ok y = true ->
  exists r s, mine_binary c lg a b op = Ret (r, s) /\ represents r (f x y) /\ represents s (second_result op x y).
Proof.
  intros Hc Ha Hb H K. destruct (wp_inv _ _ (mine_binary_wp c lg a b x y op f ok Hc Ha Hb H K)) as ((r & s) & -> & Hr & Hs). eauto.
Qed.

Lemma mine_ternary_exact c a b m x e z : strict c = false -> represents a x -> represents b e -> represents m z ->
  0 <= e -> z <> 0 -> returns (mine_ternary c a b m "tModPow") (Z.rem (x ^ e) z).
Proof. intros. apply returns_wp. now apply mine_ternary_wp. Qed.

(** ** The notation, seen from the calculator *)
Lemma printed_value c bytes rest : strict c = false -> digits 256 bytes ->
  exists toks, tokens (print_bytes bytes ++ rest) = ("make"%string :: toks) /\
  exists b, do_construction c toks = Ret (b, tokens rest) /\ represents b (operand bytes).
Proof.
  intros Hc D. rewrite (tokens_print bytes rest D). eexists. split; [reflexivity|].
  unfold do_construction. rewrite (construction_tokens bytes D). cbn [app bind].
  destruct (of_bytes_returns c _ false false (blanks_lost_digits bytes D) (or_introl Hc)) as (b & -> & Hb). cbn [bind].
  exists b. split; [reflexivity|exact Hb].
Qed.
