(** The identity tests compare exactly what [ends_with] says. *)
From Coq Require Import String Ascii.
From Verif Require Import Facts Spec SpecFacts SpecPos SpecText TextFacts PosFacts BytesFacts ToBytesFacts ConvFacts CompareFacts BigIntFacts ArithLaws ConvLaws WordFacts
  BigInt BigIntBytes BigIntText SpecGcd SpecActual ActualFacts GcdExact ApiRun PyRun SpecPyRun PyRunFacts SpecOracle SpecReference SpecIdentity TestOracle TestCalc
  OracleFacts OracleFacts2 OracleFacts3 CalcFacts OracleTotal.

Ltac Zify.zify_post_hook ::= idtac.

(** ** Both loops end *)

Section Runs.
Context (fuel : nat) (c : cfg) (sl1 ml1 : string -> bigint -> outcome bigint)
        (sl2 ml2 : string -> bigint -> bigint -> outcome bigint).

Notation next := (do_next fuel c sl1 ml1 sl2 ml2).

(** The operators one by one. *)
Fixpoint drain (n : nat) (s : calc) : outcome calc :=
  match n with
  | O => NoFuel
  | S n => o <- next s ;; match o with None => Ret s | Some s => drain n s end
  end.

Definition weight (ops : list string) : nat :=
  fold_right (fun op n => (n + if (op =? "Corruption")%string then 1 else 2)%nat) 0%nat ops.

Lemma weight_app ops ops' : weight (ops ++ ops') = (weight ops + weight ops')%nat.
Proof. induction ops as [|op ops IH]; cbn [weight fold_right app]; [reflexivity|]. fold (weight (ops ++ ops')) (weight ops). lia. Qed.

Lemma weight_length ops : (weight ops <= 2 * length ops)%nat.
Proof.
  induction ops as [|op ops IH]; cbn [weight fold_right length]; [lia|]. fold (weight ops). destruct (op =? "Corruption")%string; lia.
Qed.

Lemma construction_weight ops : forall bytes bs rest,
  construction_bytes ops bytes = Ret (bs, rest) -> (weight rest <= weight ops)%nat.
Proof.
  induction ops as [|op ops IH]; intros bytes bs rest; cbn [construction_bytes]; [discriminate|].
  cbn [weight fold_right]. fold (weight ops). destruct (op =? "endmake")%string.
  - intros [= _ <-]. lia.
  - intros H. apply IH in H. lia.
Qed.

Lemma check_weight d ops ops' : check_values d ops = Ret ops' -> (weight ops' <= weight ops + 1)%nat.
Proof.
  unfold check_values. destruct d as [[|]| | | |]; cbn [bind]; try discriminate; intros [= <-]; [|lia].
  rewrite weight_app. cbn. lia.
Qed.

Ltac unbind H :=
  repeat match type of H with
  | bind ?o _ = _ => let E := fresh "E" in destruct o eqn:E; try discriminate H; cbn [bind] in H
  | (let (_, _) := ?p in _) = _ => destruct p
  end.

Lemma next_weight s s' : next s = Ret (Some s') -> (weight (operators s') < weight (operators s))%nat.
Proof.
  unfold do_next. destruct (operators s) as [|op ops]; [discriminate|].
  cbn [weight fold_right]. fold (weight ops). unfold begins. intros H.
  assert (forall ch, (op =? "Corruption")%string = true -> match op with String a _ => Ascii.eqb a ch | EmptyString => false end = Ascii.eqb "C" ch) as NC.
  { intros ch E. apply String.eqb_eq in E. now subst op. }
  destruct (match op with String a _ => Ascii.eqb a "u" | EmptyString => false end) eqn:U.
  { destruct (op =? "Corruption")%string; [rewrite (NC "u"%char eq_refl) in U; discriminate|].
    unbind H. apply check_weight in E3. injection H as <-. cbn [operators]. lia. }
  destruct (match op with String a _ => Ascii.eqb a "b" | EmptyString => false end) eqn:B.
  { destruct (op =? "Corruption")%string; [rewrite (NC "b"%char eq_refl) in B; discriminate|].
    unbind H. match goal with E : check_values _ _ = _ |- _ => apply check_weight in E end.
    injection H as <-. cbn [operators]. lia. }
  destruct (match op with String a _ => Ascii.eqb a "t" | EmptyString => false end) eqn:T.
  { destruct (op =? "Corruption")%string; [rewrite (NC "t"%char eq_refl) in T; discriminate|].
    unbind H. match goal with E : check_values _ _ = _ |- _ => apply check_weight in E end.
    injection H as <-. cbn [operators]. lia. }
  destruct (op =? "make")%string eqn:M.
  { unfold do_construction in H.
    destruct (construction_bytes ops []) as [[bs rest]| | | |] eqn:E; try discriminate H. cbn [bind] in H.
    apply construction_weight in E. destruct (bi_of_bytes c bs false false); try discriminate H. cbn [bind] in H.
    injection H as <-. cbn [operators].
    destruct (op =? "Corruption")%string; lia. }
  destruct (op =? "Corruption")%string eqn:C.
  { unbind H. injection H as <-. cbn [operators]. lia. }
  unbind H. destruct b; injection H as <-; cbn [operators]; lia.
Qed.

Lemma next_none s : next s = Ret None -> operators s = [].
Proof.
  unfold do_next. destruct (operators s) as [|op ops]; [reflexivity|]. intros H. exfalso.
  repeat match type of H with
  | (if ?b then _ else _) = _ => destruct b
  end; unbind H; try discriminate H. destruct b; discriminate H.
Qed.

Lemma next_empty s : operators s = [] -> next s = Ret None.
Proof. unfold do_next. intros ->. reflexivity. Qed.

Lemma run_drain n : forall m s, (weight (operators s) < n)%nat -> (weight (operators s) < m)%nat ->
  run_loop fuel c sl1 ml1 sl2 ml2 n s = drain m s.
Proof.
  induction n as [n IH] using lt_wf_ind. intros m s Hn Hm.
  destruct n as [|n]; [lia|]. destruct m as [|m]; [lia|]. cbn [run_loop drain].
  destruct (next s) as [[s1|]| | | |] eqn:E1; cbn [bind]; try reflexivity.
  apply next_weight in E1. destruct m as [|m]; [lia|]. cbn [drain].
  destruct (next s1) as [[s2|]| | | |] eqn:E2; cbn [bind]; try reflexivity.
  - apply next_weight in E2. apply IH; lia.
  - apply next_none in E2. destruct n as [|n]; [rewrite E2 in *; cbn in *; lia|].
    cbn [run_loop]. rewrite (next_empty _ E2). reflexivity.
Qed.

(** ** What they end with *)

Definition spoilt (k : nat) : list string := repeat "Corruption"%string k.

Lemma spoilt_snoc k : (spoilt k ++ ["Corruption"%string])%list = spoilt (S k).
Proof. unfold spoilt. induction k as [|k IH]; cbn [repeat app]; [reflexivity|]. now rewrite IH. Qed.

Lemma construction_spoilt k ops : forall bytes,
  construction_bytes (ops ++ spoilt k) bytes =
  match construction_bytes ops bytes with Ret (bs, rest) => Ret (bs, rest ++ spoilt k)%list | o => o end.
Proof.
  induction ops as [|op ops IH]; intros bytes; cbn [construction_bytes app].
  - revert bytes. induction k as [|k IH]; intros bytes; cbn; [reflexivity|apply IH].
  - destruct (op =? "endmake")%string; [reflexivity|apply IH].
Qed.

Lemma ends_making ops : forall bytes lib ref d,
  ends_with fuel c ops (Some bytes) lib ref d =
  match construction_bytes ops bytes with
  | Ret (bs, rest) => let v := complement 256 bs in ends_with fuel c rest None (v :: lib) (v :: ref) d
  | _ => Undef OutOfBounds
  end.
Proof.
  induction ops as [|op ops IH]; intros bytes lib ref d; cbn [ends_with construction_bytes]; [reflexivity|].
  destruct (op =? "endmake")%string; [reflexivity|]. exact (IH (bytes ++ [char0 op])%list lib ref d).
Qed.

(** The top of the library's stack is [v]. *)
Definition tops (sn : list bigint) (v : option Z) : Prop :=
  match v, sn with
  | None, [] => True
  | Some z, a :: _ => represents a z
  | _, _ => False
  end.
Definition ends (o : outcome calc) (v : outcome (option Z)) : Prop :=
  match v with
  | Ret v => exists s, o = Ret s /\ tops (snCalc s) v
  | Throw e => o = Throw e
  | Undef u => o = Undef u
  | AssertFail => o = AssertFail
  | NoFuel => o = NoFuel
  end.

Lemma drain_spoilt k : forall n sn my so mo, (k < n)%nat -> k <> 0%nat ->
  ends (drain n (Calc sn my (spoilt k) so mo)) (Ret (Some (-33))).
Proof.
  induction k as [|k IH]; intros n sn my so mo Hn Hk; [now destruct Hk|].
  destruct n as [|n]; [lia|]. cbn [drain spoilt repeat]. unfold do_next. cbn [operators snCalc myCalc snOut myOut begins].
  cbn [Ascii.eqb Bool.eqb String.eqb].
  destruct (wp_inv _ _ (int32_wp c (-33) ltac:(lia))) as (r & -> & Hr). cbn [bind].
  destruct (wp_inv _ _ (int32_wp c (-555) ltac:(lia))) as (m & -> & Hm). cbn [bind].
  destruct k as [|k]; [|apply IH; lia].
  destruct n as [|n]; [lia|]. cbn [drain spoilt repeat]. rewrite next_empty by reflexivity. cbn [bind ends].
  eexists. split; [reflexivity|]. exact Hr.
Qed.

Lemma weight_spoilt k : weight (spoilt k) = k.
Proof. induction k as [|k IH]; [reflexivity|]. cbn [spoilt repeat weight fold_right]. fold (spoilt k) (weight (spoilt k)). rewrite IH. cbn. lia. Qed.

Lemma check_exact b ops k : exists k', (k' <= S k)%nat /\ negb (Nat.eqb k 0) || b = negb (Nat.eqb k' 0) /\
  check_values (Ret b) (ops ++ spoilt k) = Ret (ops ++ spoilt k')%list.
Proof.
  unfold check_values. cbn [bind]. destruct b.
  - exists (S k). split; [lia|]. split; [apply orb_true_r|]. now rewrite <- app_assoc, spoilt_snoc.
  - exists k. split; [lia|]. split; [apply orb_false_r|reflexivity].
Qed.

Lemma drain_exact : strict c = false -> forall n ops k sn my lib ref so mo,
  (weight (ops ++ spoilt k) < n)%nat -> (forall op, In op ops -> ~ takes_log op) ->
  Forall2 represents sn lib -> Forall2 represents my ref -> length lib = length ref ->
  ends (drain n (Calc sn my (ops ++ spoilt k) so mo)) (ends_with fuel c ops None lib ref (negb (Nat.eqb k 0))).
Proof.
  intros Hc. induction n as [|n IH]; intros ops k sn my lib ref so mo Hn Hlog HS HM HL; [lia|].
  destruct ops as [|op ops].
  { cbn [ends_with app]. destruct k as [|k].
    - cbn [Nat.eqb negb spoilt repeat drain]. rewrite next_empty by reflexivity. cbn [bind ends snCalc].
      eexists. split; [reflexivity|]. cbn [snCalc]. destruct HS; cbn [tops hd_error]; [exact I|assumption].
    - cbn [Nat.eqb negb]. apply drain_spoilt; [|lia]. cbn [app] in Hn. rewrite weight_spoilt in Hn. exact Hn. }
  rewrite weight_app, weight_spoilt in Hn. cbn [weight fold_right] in Hn. fold (weight ops) in Hn.
  pose proof (Hlog op (or_introl eq_refl)) as L1.
  assert (forall t, In t ops -> ~ takes_log t) as Hlog' by (intros t Ht; apply Hlog; now right).
  cbn [app drain]. unfold do_next. cbn [operators snCalc myCalc snOut myOut].
  cbn [ends_with].
  assert (forall ch, (op =? "Corruption")%string = true -> match op with String a _ => Ascii.eqb a ch | EmptyString => false end = Ascii.eqb "C" ch) as NC.
  { intros ch E. apply String.eqb_eq in E. now subst op. }
  unfold begins, starts_with.
  destruct (match op with String a _ => Ascii.eqb a "u" | EmptyString => false end) eqn:U.
  { destruct (op =? "Corruption")%string; [rewrite (NC "u"%char eq_refl) in U; discriminate|].
    destruct HS as [|a x sn lib Ha HS]; cbn [pop_top bind]; [reflexivity|].
    destruct HM as [|b x' my ref Hb HM]; cbn [length] in HL; [lia|].
    destruct (lookup unary_table op) as [f|] eqn:Lk.
    - apply lookup_in in Lk. destruct (sn_unary_exact c sl1 a x op f Ha Lk) as (r & -> & Hr). cbn [bind pop_top].
      destruct (wp_inv _ _ (mine_unary_wp c ml1 b x' op f Hc Hb Lk)) as (m & -> & Hm). cbn [bind pop_top].
      destruct (equal_calls c a b x x' Ha Hb) as (_ & ->).
      destruct (check_exact (negb (x =? x')) ops k) as (k' & Hk & Ek & ->). cbn [bind].
      rewrite Ek. apply (IH ops k' (r :: sn) (m :: my) (f x :: lib) (f x' :: ref)); [rewrite weight_app, weight_spoilt; lia|exact Hlog'|now constructor|now constructor|cbn [length]; lia].
    - rewrite (sn_unary_other c sl1 a op (lookup_none _ _ Lk) L1). reflexivity. }
  destruct (match op with String a _ => Ascii.eqb a "b" | EmptyString => false end) eqn:B.
  { destruct (op =? "Corruption")%string; [rewrite (NC "b"%char eq_refl) in B; discriminate|].
    destruct HS as [|a x sn lib Ha HS]; cbn [pop_top bind]; [reflexivity|].
    destruct HM as [|a' x' my ref Ha' HM]; cbn [length] in HL; [lia|].
    destruct HS as [|b y sn lib Hb HS]; cbn [pop_top bind]; [reflexivity|].
    destruct HM as [|b' y' my ref Hb' HM]; cbn [length] in HL; [lia|].
    destruct (lookup (lib_binary_table fuel c) op) as [g|] eqn:Lg.
    - destruct (lookup_some ref_binary_table op) as (f & Lf).
      { rewrite ref_names, <- (binary_names fuel c). apply (in_map fst _ (op, g)). now apply lookup_in. }
      rewrite Lf. pose proof (sn_binary_exact fuel c sl2 a b x y op g Ha Hb (lookup_in _ _ _ Lg)) as D.
      destruct (g x y) as [w| | | |] eqn:Eg; cbn [denotes_pair] in D; try (rewrite D; reflexivity).
      destruct D as (r & s & -> & Hr & Hs). cbn [bind pop_top].
      pose proof (mine_binary_total c ml2 a' b' x' y' op f Hc Ha' Hb' (lookup_in _ _ _ Lf)) as D.
      destruct (f x' y') as [w'| | | |] eqn:Ef; cbn [denotes_pair] in D; try (rewrite D; reflexivity).
      destruct D as (m & ms & -> & Hm & Hms). cbn [bind].
      destruct (equal_calls c a a' x x' Ha Ha') as (_ & ->). destruct (equal_calls c b b' y y' Hb Hb') as (_ & ->). cbn [bind].
      assert ((if negb (x =? x') then Ret true else Ret (negb (y =? y'))) = Ret (negb (x =? x') || negb (y =? y'))) as -> by now destruct (x =? x').
      destruct (check_exact (negb (x =? x') || negb (y =? y')) ops k) as (k' & Hk & Ek & ->). cbn [bind].
      rewrite <- orb_assoc, Ek. apply (IH ops k' (r :: sn) (m :: my) (w :: lib) (w' :: ref)); [rewrite weight_app, weight_spoilt; lia|exact Hlog'|now constructor|now constructor|cbn [length]; lia].
    - assert (~ In op (map fst binary_table)) as N by (rewrite <- (binary_names fuel c); now apply lookup_none).
      rewrite (sn_binary_other fuel c sl2 a b op N L1). reflexivity. }
  destruct (match op with String a _ => Ascii.eqb a "t" | EmptyString => false end) eqn:T.
  { destruct (op =? "Corruption")%string; [rewrite (NC "t"%char eq_refl) in T; discriminate|].
    destruct HS as [|a x sn lib Ha HS]; cbn [pop_top bind]; [reflexivity|].
    destruct HM as [|a' x' my ref Ha' HM]; cbn [length] in HL; [lia|].
    destruct HS as [|b y sn lib Hb HS]; cbn [pop_top bind]; [reflexivity|].
    destruct HM as [|b' y' my ref Hb' HM]; cbn [length] in HL; [lia|].
    destruct HS as [|e z sn lib He HS]; cbn [pop_top bind]; [reflexivity|].
    destruct HM as [|e' z' my ref He' HM]; cbn [length] in HL; [lia|].
    destruct (lookup (lib_ternary_table c) op) as [g|] eqn:Lg.
    - apply lookup_in in Lg. pose proof (sn_ternary_exact c a b e x y z op g Ha Hb He Lg) as D.
      destruct (g x y z) as [w| | | |] eqn:Eg; cbn [denotes] in D; try (rewrite D; reflexivity).
      destruct D as (r & -> & Hr). cbn [bind pop_top].
      cbn [lib_ternary_table In] in Lg. destruct Lg as [Lg|[]]. injection Lg as <- <-.
      destruct (mine_ternary_total c a' b' e' x' y' z' Hc Ha' Hb' He') as (m & -> & Hm). cbn [bind].
      destruct (equal_calls c a a' x x' Ha Ha') as (_ & ->). destruct (equal_calls c b b' y y' Hb Hb') as (_ & ->).
      destruct (equal_calls c e e' z z' He He') as (_ & ->). cbn [bind].
      assert ((if negb (x =? x') then Ret true else if negb (y =? y') then Ret true else Ret (negb (z =? z')))
              = Ret (negb (x =? x') || negb (y =? y') || negb (z =? z'))) as ->.
      { now destruct (x =? x'), (y =? y'). }
      destruct (check_exact (negb (x =? x') || negb (y =? y') || negb (z =? z')) ops k) as (k' & Hk & Ek & ->). cbn [bind].
      rewrite <- !orb_assoc. rewrite <- !orb_assoc in Ek. rewrite Ek. apply (IH ops k' (r :: sn) (m :: my) (w :: lib) (ref_power_mod x' y' z' :: ref)); [rewrite weight_app, weight_spoilt; lia|exact Hlog'|now constructor|now constructor|cbn [length]; lia].
    - apply lookup_none in Lg. cbn [lib_ternary_table map fst In] in Lg.
      unfold sn_ternary. rewrite (proj2 (String.eqb_neq op "tModPow")) by (intros ->; apply Lg; now left). reflexivity. }
  destruct (op =? "make")%string eqn:M.
  { rewrite ends_making. unfold do_construction. rewrite construction_spoilt.
    pose proof (construction_spec ops [] (Forall_nil _)) as C.
    pose proof (construction_weight ops []) as W.
    destruct (construction_bytes ops []) as [[bs rest]| | | |]; try (rewrite C; reflexivity).
    destruct C as (D & Lr & Ir). specialize (W bs rest eq_refl). cbn [bind].
    destruct (of_bytes_returns c bs false false D (or_introl Hc)) as (r & -> & Hr). cbn [bind]. cbv zeta.
    unfold bytes_value, le_order in Hr.
    apply (IH rest k (r :: sn) (r :: my) (complement 256 bs :: lib) (complement 256 bs :: ref));
      [rewrite weight_app, weight_spoilt; destruct (op =? "Corruption")%string; lia|intros t Ht; apply Hlog', Ir, Ht|now constructor|now constructor|cbn [length]; lia]. }
  destruct (op =? "Corruption")%string eqn:C.
  { destruct (wp_inv _ _ (int32_wp c (-33) ltac:(lia))) as (r & -> & Hr). cbn [bind].
    destruct (wp_inv _ _ (int32_wp c (-555) ltac:(lia))) as (m & -> & Hm). cbn [bind].
    apply (IH ops k (r :: sn) (m :: my) (-33 :: lib) (-555 :: ref)); [rewrite weight_app, weight_spoilt; lia|exact Hlog'|now constructor|now constructor|cbn [length]; lia]. }
  destruct (wp_inv _ _ (int32_wp c 0 ltac:(lia))) as (z & -> & Hz). cbn [bind].
  destruct (parse_returns c op) as (r & E & Hr). unfold bi_try_parse. rewrite E. cbn [bind]. cbv zeta.
  apply (IH ops k (r :: sn) (r :: my) (signed_decimal op :: lib) (signed_decimal op :: ref)); [rewrite weight_app, weight_spoilt; lia|exact Hlog'|now constructor|now constructor|cbn [length]; lia].
Qed.

Lemma run_exact input : strict c = false -> (forall op, In op (tokens input) -> ~ takes_log op) ->
  forall z, ends (run_loop fuel c sl1 ml1 sl2 ml2 (2 * length (tokens input) + 1) (Calc [] [] (tokens input) z z))
    (ends_with fuel c (tokens input) None [] [] false).
Proof.
  intros Hc Hl z. pose proof (weight_length (tokens input)) as W.
  rewrite (run_drain _ (2 * length (tokens input) + 1)) by (cbn [operators]; lia).
  pose proof (drain_exact Hc (2 * length (tokens input) + 1) (tokens input) 0 [] [] [] [] z z) as D.
  cbn [spoilt repeat] in D. rewrite app_nil_r in D. apply D; [lia|exact Hl|constructor|constructor|reflexivity].
Qed.
End Runs.

(** ** The tests *)

Lemma compared_texts c sn1 sn2 v w : tops sn1 v -> tops sn2 w ->
  ('(top1, _) <- pop_top sn1 ;; t1 <- bi_to_string c top1 ;;
   '(top2, _) <- pop_top sn2 ;; t2 <- bi_to_string c top2 ;; Ret (t1 =? t2)%string) = compared v w.
Proof.
  intros H1 H2. destruct v as [v|], sn1 as [|a sn1]; cbn [tops] in H1; try contradiction; [|reflexivity].
  cbn [pop_top bind compared].
  destruct w as [w|], sn2 as [|b sn2]; cbn [tops] in H2; try contradiction; cbn [pop_top bind].
  - pose proof (text_step c a b v w (Ret true) (Ret false) H1 H2) as T. unfold same_text in T |- *.
    pose proof (text_exact c a v H1) as Ta. destruct (text v) as [z| | | |]; cbn [bind] in *; try (now rewrite Ta); try contradiction.
    destruct Ta as (-> & s & Es & Ns). rewrite Es in *. cbn [bind] in *.
    pose proof (text_exact c b w H2) as Tb. destruct (text w) as [z| | | |]; cbn [bind] in *; try (now rewrite Tb); try contradiction.
    destruct Tb as (-> & t & Et & Nt). rewrite Et in *. cbn [bind] in *.
    destruct (s =? t)%string, (v =? w); congruence.
  - pose proof (text_exact c a v H1) as Ta. destruct (text v) as [z| | | |]; cbn [bind] in *; try (now rewrite Ta); try contradiction.
    destruct Ta as (-> & s & Es & Ns). now rewrite Es.
Qed.

Theorem identity_exact fuel c sl1 ml1 sl2 ml2 in1 in2 : strict c = false ->
  (forall op, In op (tokens in1) \/ In op (tokens in2) -> ~ takes_log op) ->
  verify_identity fuel c sl1 ml1 sl2 ml2 in1 in2 =
    (v <- ends_with fuel c (tokens in1) None [] [] false ;; w <- ends_with fuel c (tokens in2) None [] [] false ;; compared v w).
Proof.
  intros Hc Hl. unfold verify_identity, new_calc.
  destruct (wp_inv _ _ (int32_wp c 0 ltac:(lia))) as (z & -> & Hz). cbn [bind operators].
  pose proof (run_exact fuel c sl1 ml1 sl2 ml2 in1 Hc (fun op H => Hl op (or_introl H)) z) as R1.
  pose proof (run_exact fuel c sl1 ml1 sl2 ml2 in2 Hc (fun op H => Hl op (or_intror H)) z) as R2.
  destruct (ends_with fuel c (tokens in1) None [] [] false) as [v| | | |]; cbn [ends bind] in *; try (now rewrite R1).
  destruct R1 as (s1 & -> & T1). cbn [bind].
  destruct (ends_with fuel c (tokens in2) None [] [] false) as [w| | | |]; cbn [ends bind] in *; try (now rewrite R2).
  destruct R2 as (s2 & -> & T2). cbn [bind].
  now apply compared_texts.
Qed.

Theorem identity_mod_same fuel c sl1 ml1 sl2 ml2 in1 in2 :
  verify_identity_mod fuel c sl1 ml1 sl2 ml2 in1 in2 = verify_identity fuel c sl1 ml1 sl2 ml2 in1 in1.
Proof. reflexivity. Qed.

(** Without anything known about the operators. *)
Theorem identity_mod_blind fuel c sl1 ml1 sl2 ml2 in1 in2 :
  verify_identity_mod fuel c sl1 ml1 sl2 ml2 in1 in2 <> Ret false.
Proof.
  unfold verify_identity_mod. intros H.
  destruct (new_calc c in1) as [s| | | |]; try discriminate H. cbn [bind] in H.
  destruct (run_loop _ _ _ _ _ _ _ s) as [s'| | | |]; try discriminate H. cbn [bind] in H.
  destruct (pop_top (snCalc s')) as [[a l]| | | |]; try discriminate H. cbn [bind] in H.
  destruct (bi_to_string c a) as [t| | | |]; try discriminate H. cbn [bind] in H.
  rewrite String.eqb_refl in H. discriminate H.
Qed.

Theorem library_only fuel c ops : forall making lib ref d,
  let o := ends_with fuel c ops making lib ref d in
  o = Ret (Some (-33)) \/ o = Throw OverflowError \/ o = library_ends fuel c ops making lib \/ length lib <> length ref.
Proof.
  induction ops as [|op ops IH]; intros making lib ref d; cbn [ends_with library_ends]; cbv zeta in *.
  { destruct making; [auto|]. destruct d; auto. }
  assert (forall m l r d, length l = length r -> let o := ends_with fuel c ops m l r d in
    o = Ret (Some (-33)) \/ o = Throw OverflowError \/ o = library_ends fuel c ops m l) as IH'.
  { intros m l r d' E. specialize (IH m l r d'). cbv zeta in *. intuition. }
  destruct (Nat.eq_dec (length lib) (length ref)) as [E|E]; [|auto].
  assert (forall m l r d, length l = length r -> let o := ends_with fuel c ops m l r d in
    o = Ret (Some (-33)) \/ o = Throw OverflowError \/ o = library_ends fuel c ops m l \/ length lib <> length ref) as K.
  { intros m l r d' E'. specialize (IH' m l r d' E'). cbv zeta in *. intuition. }
  clear IH IH'.
  destruct making as [bytes|]; [destruct (op =? "endmake")%string; apply K; cbn [length]; lia|].
  destruct (starts_with "u" op).
  { destruct lib as [|x lib], ref as [|x' ref]; try discriminate E; [auto|].
    destruct (lookup unary_table op); [|auto]. apply K. exact E. }
  destruct (starts_with "b" op).
  { destruct lib as [|x [|y lib]], ref as [|x' [|y' ref]]; try discriminate E; [auto..|].
    destruct (lookup (lib_binary_table fuel c) op) as [g|] eqn:Lg; [|auto].
    destruct (lookup_some ref_binary_table op) as (f & Lf).
    { rewrite ref_names, <- (binary_names fuel c). apply (in_map fst _ (op, g)). now apply lookup_in. }
    rewrite Lf. destruct (g x y); cbn [bind]; auto.
    destruct (ref_raises op f x' y' (lookup_in _ _ _ Lf)) as [(w & ->)| ->]; cbn [bind]; [|auto].
    apply K. cbn [length] in *. lia. }
  destruct (starts_with "t" op).
  { destruct lib as [|x [|y [|z lib]]], ref as [|x' [|y' [|z' ref]]]; try discriminate E; [auto..|].
    destruct (lookup (lib_ternary_table c) op) as [g|]; [|auto].
    destruct (g x y z); cbn [bind]; auto. apply K. cbn [length] in *. lia. }
  destruct (op =? "make")%string; [apply K; exact E|].
  destruct (op =? "Corruption")%string; apply K; cbn [length] in *; lia.
Qed.

Corollary library_alone fuel c ops : let o := ends_with fuel c ops None [] [] false in
  o = Ret (Some (-33)) \/ o = Throw OverflowError \/ o = library_ends fuel c ops None [].
Proof. destruct (library_only fuel c ops None [] [] false) as [|[|[|N]]]; auto. now destruct N. Qed.

Theorem both_differ fuel c sl1 ml1 sl2 ml2 in1 in2 : strict c = false ->
  (forall op, In op (tokens in1) \/ In op (tokens in2) -> ~ takes_log op) ->
  ends_with fuel c (tokens in1) None [] [] false = Ret (Some (-33)) ->
  ends_with fuel c (tokens in2) None [] [] false = Ret (Some (-33)) ->
  verify_identity fuel c sl1 ml1 sl2 ml2 in1 in2 = Ret true.
Proof. intros Hc Hl E1 E2. now rewrite (identity_exact _ _ _ _ _ _ _ _ Hc Hl), E1, E2. Qed.

Theorem identity_mod_exact fuel c sl1 ml1 sl2 ml2 in1 in2 : strict c = false ->
  (forall op, In op (tokens in1) -> ~ takes_log op) ->
  verify_identity_mod fuel c sl1 ml1 sl2 ml2 in1 in2 <> Ret false /\
  verify_identity_mod fuel c sl1 ml1 sl2 ml2 in1 in2 = (v <- ends_with fuel c (tokens in1) None [] [] false ;; compared v v).
Proof.
  intros Hc Hl. split; [apply identity_mod_blind|]. rewrite identity_mod_same.
  rewrite (identity_exact fuel c sl1 ml1 sl2 ml2 in1 in1 Hc) by (intros op [H|H]; now apply Hl).
  now destruct (ends_with fuel c (tokens in1) None [] [] false).
Qed.
