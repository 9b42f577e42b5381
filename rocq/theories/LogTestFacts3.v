(** How the test of log(value, base) ends. *)
From Coq Require Import String Ascii ZArith Reals Lra Lia.
From Flocq Require Import Core BinarySingleNaN.
From Verif Require Import Machine Facts Spec SpecFacts SpecApi SpecPos SpecText SpecActual SpecPyRun SpecReference SpecIdentity SpecOracle SpecBodies
  SpecGcd SpecDouble SpecLog SpecLogDouble SpecTestLog SpecLogBodies SpecNumbers SpecLogTest
  BigInt BigIntText BigIntBytes BigIntFacts BigIntDouble BigIntLogDouble TestOracle TestCalc TestRandom TestNumbers TestBodies TestLog TestLogBody
  LogDoubleFacts TestLogFacts TestLogFacts2 TestLogFacts3 TestLogFacts4 NumberFacts TestShiftFacts LogBodyFacts LogBaseFacts LogTestFacts LogTestFacts2.
Open Scope string_scope.
Open Scope list_scope.
Open Scope Z_scope.

Ltac Zify.zify_post_hook ::= idtac.

(** ** Loops *)

(** Draws that an ASSERT in the body judges. *)
Lemma repeated_judged {E : Type} (a : step E) (f : E -> E) (good : E -> bool) n e :
  (forall ok e, a (ok, e) = Ret (if good e then Some (ok, f e) else None)) ->
  (forall k, (k < n)%nat -> good (Nat.iter k f e) = true) /\ (forall ok, repeated n a (ok, e) = Ret (Some (ok, Nat.iter n f e))) \/
  (exists k, (k < n)%nat /\ good (Nat.iter k f e) = false) /\ (forall ok, repeated n a (ok, e) = Ret None).
Proof.
  intros H. revert e. induction n as [|n IH]; intros e; [left; split; [lia|reflexivity]|].
  destruct (good e) eqn:G.
  - destruct (IH (f e)) as [(A & B)|((k & K & A) & B)].
    + left. split.
      * intros [|k] K; [exact G|]. rewrite iter_in. apply A. lia.
      * intros ok. cbn [repeated]. unfold then_do. rewrite H, G. cbn [bind]. rewrite B. now rewrite iter_in.
    + right. split.
      * exists (S k). split; [lia|]. now rewrite iter_in.
      * intros ok. cbn [repeated]. unfold then_do. rewrite H, G. cbn [bind]. apply B.
  - right. split; [exists O; split; [lia|exact G]|]. intros ok. cbn [repeated]. unfold then_do. rewrite H, G. reflexivity.
Qed.

(** Draws that an ASSERT in a called function judges. *)
Lemma repeated_checked {E : Type} (a : step E) (f : E -> E) (agree clash : E -> Prop) n e :
  (forall e, exists k, (forall ok, a (ok, e) = Ret (Some (ok && k, f e))) /\ (agree e -> k = true) /\ (clash e -> k = false)) ->
  exists k, (forall ok, repeated n a (ok, e) = Ret (Some (ok && k, Nat.iter n f e))) /\
    ((forall j, (j < n)%nat -> agree (Nat.iter j f e)) -> k = true) /\
    ((exists j, (j < n)%nat /\ clash (Nat.iter j f e)) -> k = false).
Proof.
  intros H. revert e. induction n as [|n IH]; intros e.
  { exists true. split; [intros ok; now rewrite Bool.andb_true_r|]. split; [auto|]. intros (j & J & _). lia. }
  destruct (H e) as (k1 & A1 & B1 & C1). destruct (IH (f e)) as (k2 & A2 & B2 & C2). exists (k1 && k2). split; [|split].
  - intros ok. cbn [repeated]. unfold then_do. rewrite A1. cbn [bind]. rewrite A2, Bool.andb_assoc. now rewrite iter_in.
  - intros G. rewrite B1 by apply (G O ltac:(lia)). apply B2. intros j J. specialize (G (S j) ltac:(lia)). now rewrite iter_in in G.
  - intros ([|j] & J & G); [now rewrite (C1 G)|]. rewrite C2; [now rewrite Bool.andb_false_r|]. exists j. split; [lia|]. now rewrite iter_in in G.
Qed.

Lemma repeated_stays {E : Type} (a : step E) n (s : bool * E) k :
  (forall ok, a (ok, snd s) = Ret (Some (ok && k, snd s))) -> repeated (S n) a s = Ret (Some (fst s && k, snd s)).
Proof.
  intros H. destruct s as (ok & e). cbn [fst snd] in *. revert ok. induction n as [|n IH]; intros ok.
  { cbn [repeated]. unfold then_do. rewrite H. reflexivity. }
  change (repeated (S (S n)) a) with (then_do a (repeated (S n) a)). unfold then_do. rewrite H. cbn [bind]. rewrite IH.
  now rewrite <- Bool.andb_assoc, Bool.andb_diag.
Qed.

Section Whole.
  Context (fuel : nat) (c : cfg) (logf log10f : double -> double) (cast : double -> outcome Z)
          (s1 m1 : string -> bigint -> outcome bigint) (tolerance : double)
          (HL : libm_log logf) (HT : libm_log10 log10f).
  Notation run := (verify fuel c s1 m1 (sn_log2 logf log10f cast c) (mine_log2 logf log10f cast c) false).
  Context {E : Type} (draw : E -> Z -> Z -> Z * E) (engine : E -> Z * E) (copied : bool)
          (B : in_bounds draw) (K : engine_ok engine) (NM : no_min engine) (Hc : strict c = false)
          (FT : is_finite tolerance = true) (TT : (Rabs (B2R tolerance - / 10 ^ 15) <= / 10 ^ 16)%R).
  Let next := next_engine engine.
  Let tail1 (fl : nat) : list (step E) :=
    [base_zero draw logf c fl; base_one draw copied run; base_nan draw logf c; base_infinite draw logf c;
     checked (fun _ => run "1 0 bLog"); base_negative draw engine copied run logf c].
  Let tail2 : list (step E) :=
    [value_negative draw run; small_small_base draw engine logf tolerance c; large_small_base draw engine copied logf tolerance c].
  Let tail3 : list (step E) :=
    [two_small draw run; small_and_large draw copied run; two_large draw copied run;
     checked (fun _ => large_value_log_tests logf tolerance c 128 1 0 1)].

  Lemma T0 : (0 <= B2R tolerance)%R.
  Proof using TT. apply Rabs_le_inv in TT. assert (/ 10 ^ 16 <= / 10 ^ 15)%R; [|lra]. apply Rinv_le_contravar; lra. Qed.

  Lemma one_by_one_app (a b : list (step E)) s : one_by_one (a ++ b) s = then_do (one_by_one a) (one_by_one b) s.
  Proof using.
    revert s. induction a as [|x a IH]; intros s; [reflexivity|]. cbn [one_by_one List.app]. unfold then_do at 1.
    unfold then_do at 1. unfold then_do at 1. destruct (x s) as [[s'|]| | | |]; try reflexivity. cbn [bind]. apply IH.
  Qed.

  Lemma test_parts fl s : log_test draw engine copied run logf tolerance c fl s =
    result (then_do (zero_small_base engine logf c) (then_do (one_by_one (tail1 fl)) (then_do (one_by_one tail2) (one_by_one tail3)))) s.
  Proof using HL HT Hc.
    unfold log_test, result. f_equal.
    change [one_to_infinity logf c; checked (fun _ : E => run "0 1 bLog"); zero_value draw run; zero_small_base engine logf c; base_zero draw logf c fl;
      base_one draw copied run; base_nan draw logf c; base_infinite draw logf c; checked (fun _ : E => run "1 0 bLog"); base_negative draw engine copied run logf c;
      value_negative draw run; small_small_base draw engine logf tolerance c; large_small_base draw engine copied logf tolerance c;
      two_small draw run; small_and_large draw copied run; two_large draw copied run; checked (fun _ : E => large_value_log_tests logf tolerance c 128 1 0 1)]
      with (one_to_infinity logf c :: checked (fun _ : E => run "0 1 bLog") :: zero_value draw run :: zero_small_base engine logf c :: (tail1 fl ++ (tail2 ++ tail3))).
    cbn [one_by_one]. unfold then_do at 1. rewrite (one_ok c logf HL). cbn [bind]. unfold then_do at 1.
    rewrite checked_ok by apply (zero_one_ok fuel c logf log10f cast s1 m1 HL HT). cbn [bind]. unfold then_do at 1.
    unfold zero_value. rewrite (repeated_same _ 10 _ (zero_value_ok fuel c logf log10f cast s1 m1 HL HT draw Hc (true, s))). cbn [bind].
    unfold then_do at 1. unfold then_do at 1. destruct (zero_small_base engine logf c (true, s)) as [[s'|]| | | |]; try reflexivity. cbn [bind].
    rewrite one_by_one_app. unfold then_do at 1. unfold then_do at 1. destruct (one_by_one (tail1 fl) s') as [[s''|]| | | |]; try reflexivity. cbn [bind].
    apply one_by_one_app.
  Qed.

  Lemma doubles_loop e :
    (forall k, (k < 10)%nat -> inside (next_of engine (Nat.iter k next e)) = true) /\ (forall ok, zero_small_base engine logf c (ok, e) = Ret (Some (ok, engine1 engine e))) \/
    (exists k, (k < 10)%nat /\ inside (next_of engine (Nat.iter k next e)) = false) /\ (forall ok, zero_small_base engine logf c (ok, e) = Ret None).
  Proof using HL K NM.
    apply (repeated_judged (zero_small_sample engine logf c) next (fun e => inside (next_of engine e)) 10 e).
    intros ok e'. apply (zero_small_ok c logf HL engine K NM).
  Qed.

  Theorem test_fails fl s : (exists k, (k < 10)%nat /\ inside (next_of engine (Nat.iter k next s)) = false) ->
    log_test draw engine copied run logf tolerance c fl s = Ret false.
  Proof using HL HT Hc K NM.
    intros (k & L & F). rewrite test_parts. unfold result, then_do at 1.
    destruct (doubles_loop s) as [(A & _)|(_ & A)]; [rewrite (A k L) in F; discriminate F|]. rewrite A. reflexivity.
  Qed.

  Lemma base_zero_loop fl ok e : base_zero draw logf c fl (ok, e) =
    if positive_number draw 8 e =? 1 then NoFuel else match fl with O => NoFuel | S _ => Ret (Some (ok, e)) end.
  Proof using HL.
    unfold base_zero. destruct (base_zero_ok c logf HL draw fl ok e) as (l & El & H). unfold positive_number, made. rewrite El.
    destruct (complement 256 l =? 1).
    - cbn [repeated]. unfold then_do. now rewrite H.
    - destruct fl; [cbn [repeated]; unfold then_do; now rewrite H|]. now apply repeated_same.
  Qed.

  Theorem test_hangs fl s : (forall k, (k < 10)%nat -> inside (next_of engine (Nat.iter k next s)) = true) ->
    positive_number draw 8 (engine1 engine s) = 1 -> log_test draw engine copied run logf tolerance c fl s = NoFuel.
  Proof using HL HT Hc K NM.
    intros I P. rewrite test_parts. unfold result, then_do at 1.
    destruct (doubles_loop s) as [(_ & A)|((k & L & F) & _)]; [|rewrite (I k L) in F; discriminate F]. rewrite A. cbn [bind].
    unfold then_do at 1. cbn [tail1 one_by_one]. unfold then_do at 1. rewrite base_zero_loop, P. reflexivity.
  Qed.

  (** Lines 133-168 *)
  Lemma tail1_end fl e : fl <> O -> positive_number draw 8 e <> 1 ->
    (unsigned_number draw 10 e = 1 \/ (exists k, (k < 10)%nat /\ let f := Nat.iter k next e in next_of engine f = 0 /\ unsigned_number draw 10 (if copied then f else next f) = 1)) /\
      (forall ok, one_by_one (tail1 fl) (ok, e) = Ret None) \/
    (unsigned_number draw 10 e <> 1 /\ (forall k, (k < 10)%nat -> let f := Nat.iter k next e in next_of engine f = 0 -> unsigned_number draw 10 (if copied then f else next f) <> 1)) /\
      (forall ok, one_by_one (tail1 fl) (ok, e) = Ret (Some (ok, Nat.iter 10 next e))).
  Proof using HL HT Hc K NM B.
    intros F N8.
    assert (forall ok, one_by_one (tail1 fl) (ok, e) =
      if unsigned_number draw 10 e =? 1 then Ret None
      else then_do (base_negative draw engine copied run logf c) (one_by_one []) (ok, e)) as U.
    { intros ok. cbn [tail1 one_by_one]. unfold then_do at 1. rewrite base_zero_loop. rewrite (proj2 (Z.eqb_neq _ _) N8).
      destruct fl as [|fl]; [congruence|]. cbn [bind].
      unfold then_do at 1. unfold base_one. rewrite (repeated_same _ 10 _ (base_one_ok fuel c logf log10f cast s1 m1 HL HT draw copied B Hc (ok, e))). cbn [bind].
      unfold then_do at 1. unfold base_nan. rewrite (repeated_same _ 10 _ (base_nan_ok c logf HL draw B (ok, e))). cbn [bind].
      unfold then_do at 1. unfold base_infinite. pose proof (base_infinite_ok c logf HL draw B (ok, e)) as BI. cbn [snd] in BI. unfold unsigned_number.
      destruct (complement 256 (get_random_bytes draw 10 e) =? 1); [cbn [repeated]; unfold then_do at 1; rewrite BI; reflexivity|].
      rewrite (repeated_same _ 10 _ BI). cbn [bind]. unfold then_do at 1. rewrite checked_ok by apply (zero_one_ok fuel c logf log10f cast s1 m1 HL HT). reflexivity. }
    destruct (Z.eqb_spec (unsigned_number draw 10 e) 1) as [X|X]; [left; split; [left; exact X|exact U]|].
    destruct (repeated_judged (base_negative_sample draw engine copied run logf c) next
      (fun f => negb ((next_of engine f =? 0) && (unsigned_number draw 10 (if copied then f else next f) =? 1))) 10 e) as [(A & H)|((k & L & A) & H)].
    { intros ok f. rewrite (base_negative_ok fuel c logf log10f cast s1 m1 HL HT draw engine copied B K NM Hc). unfold unsigned_number, next. now destruct (_ && _). }
    - right. split; [split; [exact X|]|].
      + intros k L f Z0 Z1. specialize (A k L). fold f in A. cbv beta in A. rewrite Z0, Z1 in A. discriminate A.
      + intros ok. rewrite U. unfold then_do, base_negative. rewrite H. reflexivity.
    - left. split.
      + right. exists k. split; [exact L|]. cbv zeta. apply Bool.negb_false_iff, andb_prop in A as (A1 & A2). split; now apply Z.eqb_eq.
      + intros ok. rewrite U. unfold then_do, base_negative. rewrite H. reflexivity.
  Qed.

  Theorem test_fails_later fl s : (forall k, (k < 10)%nat -> inside (next_of engine (Nat.iter k next s)) = true) ->
    positive_number draw 8 (engine1 engine s) <> 1 -> fl <> O ->
    unsigned_number draw 10 (engine1 engine s) = 1 \/
    (exists k, (k < 10)%nat /\ let e := Nat.iter k next (engine1 engine s) in next_of engine e = 0 /\ unsigned_number draw 10 (if copied then e else next e) = 1) ->
    log_test draw engine copied run logf tolerance c fl s = Ret false.
  Proof using HL HT Hc K NM B.
    intros I P F X. rewrite test_parts. unfold result, then_do at 1.
    destruct (doubles_loop s) as [(_ & A)|((k & L & G) & _)]; [|rewrite (I k L) in G; discriminate G]. rewrite A. cbn [bind].
    unfold then_do at 1. destruct (tail1_end fl (engine1 engine s) F P) as [(_ & H)|((N1 & N2) & _)]; [rewrite H; reflexivity|].
    exfalso. destruct X as [X|(k & L & X0 & X1)]; [exact (N1 X)|]. exact (N2 k L X0 X1).
  Qed.

  Lemma start_ok fl s : good_start draw engine copied s -> fl <> O ->
    log_test draw engine copied run logf tolerance c fl s = result (then_do (one_by_one tail2) (one_by_one tail3)) (engine2 engine s).
  Proof using HL HT Hc K NM B.
    intros [I N8 N10 NZ] F. rewrite test_parts. unfold result. f_equal. unfold then_do at 1.
    destruct (doubles_loop s) as [(_ & A)|((k & L & G) & _)]; [|fold next in I; rewrite (I k L) in G; discriminate G]. rewrite A. cbn [bind].
    unfold then_do at 1. destruct (tail1_end fl (engine1 engine s) F N8) as [([X|(k & L & X0 & X1)] & _)|(_ & H)].
    - contradiction (N10 X).
    - contradiction (NZ k L X0 X1).
    - rewrite H. reflexivity.
  Qed.

  Lemma negative_loop ok e : exists x, negative_read draw 10 e = x /\ - 2 ^ 160 <= x < 0 /\
    value_negative draw run (ok, e) = (_ <- text x ;; Ret (Some (ok, e))).
  Proof using HL HT Hc.
    destruct (value_negative_ok fuel c logf log10f cast s1 m1 HL HT draw Hc (ok, e)) as (l & El & D & R & H). cbn [snd] in El.
    exists (operand l). unfold negative_read, made. rewrite El. split; [reflexivity|]. split; [exact R|]. unfold value_negative.
    destruct (text (operand l)) eqn:T; cbn [bind] in *; [now apply repeated_same|..]; cbn [repeated]; unfold then_do; now rewrite H.
  Qed.

  Lemma text_ends x : - 2 ^ 160 <= x < 0 -> text x = Ret x \/ text x = Undef OutOfBounds.
  Proof using.
    intros R. unfold text. replace (214748364 <? limbs_of x) with false; [destruct (_ && _); auto|]. symmetry. apply Z.ltb_ge.
    pose proof (size_short x 160 ltac:(lia) ltac:(lia)) as S. change (2 ^ 26) with 67108864 in S. lia.
  Qed.

  Theorem test_undefined fl s : good_start draw engine copied s -> fl <> O ->
    text (negative_read draw 10 (engine2 engine s)) <> Ret (negative_read draw 10 (engine2 engine s)) ->
    log_test draw engine copied run logf tolerance c fl s = Undef OutOfBounds.
  Proof using HL HT Hc K NM B.
    intros G F T. rewrite (start_ok fl s G F). unfold result, then_do at 1. cbn [tail2 one_by_one]. unfold then_do at 1.
    destruct (negative_loop true (engine2 engine s)) as (x & <- & R & ->). destruct (text_ends _ R) as [T'|T']; [congruence|]. rewrite T'. reflexivity.
  Qed.

  Let size := after_size draw.

  Lemma draws_ok fl s : good_draws draw engine copied logf tolerance c s -> fl <> O ->
    log_test draw engine copied run logf tolerance c fl s = result (one_by_one tail3) (engine4 draw engine s).
  Proof using HL HT Hc K NM B FT TT.
    intros [G T SC LC] F. rewrite (start_ok fl s G F). unfold result. f_equal. unfold then_do at 1. cbn [tail2 one_by_one]. unfold then_do at 1.
    set (e2 := engine2 engine s) in *. destruct (negative_loop true e2) as (x & X & R & ->). rewrite X in T. rewrite T. cbn [bind].
    unfold then_do at 1. unfold small_small_base. rewrite (repeated_some _ next 10 true e2).
    2:{ intros k L. specialize (SC k L). cbv zeta in SC. fold next in SC. unfold logs_close in SC. set (e := Nat.iter k next e2) in *.
        destruct (small_small_ok c logf tolerance HL draw engine K NM FT T0 true e) as (l & b & El & Eb & _ & ->).
        specialize (SC l El). rewrite SC in Eb. injection Eb as <-. reflexivity. }
    cbn [bind]. change (Nat.iter 10 next e2) with (engine3 engine s). unfold then_do at 1. unfold large_small_base.
    rewrite (repeated_some _ (fun e => next (size e)) 10 true (engine3 engine s)); [reflexivity|].
    intros k L. specialize (LC k L). cbv zeta in LC. fold next size in LC. unfold logs_close in LC. set (e := Nat.iter k _ _) in *.
    destruct (large_small_ok c logf tolerance HL draw engine copied B K NM FT T0 true e) as (l & b & El & Eb & _ & ->).
    specialize (LC l El). unfold size, after_size in *. rewrite LC in Eb. injection Eb as <-. reflexivity.
  Qed.

  (** When the comparisons of lines 182 and 189 come out true. *)
  Theorem close_small n e1 e : (1 <= n <= 100)%nat -> positive_number draw n e1 < 2 ^ 31 \/ (bpow radix2 (-46) <= B2R tolerance)%R ->
    logs_close engine logf tolerance c (positive_bytes draw n e1) e.
  Proof using HL K NM FT TT.
    intros N X l El. destruct (proj2 (signed_bytes draw n e1) ltac:(lia)) as ((l' & El' & L & D & P) & _). rewrite El in El'. injection El' as <-.
    unfold positive_number, made in X. rewrite El in X.
    destruct (compare_logs_ok c logf tolerance HL engine K NM FT T0 l e D P ltac:(lia)) as (k & -> & A). now rewrite (A X).
  Qed.

  (** Lines 193-214 *)
  Lemma pairs_end s : exists k, result (one_by_one tail3) (engine4 draw engine s) = Ret k /\
    (small_pairs draw engine bases_agree s -> (forall j, (j < 10)%nat -> mixed_pair draw engine copied bases_agree s j) ->
     (forall j, (j < 10)%nat -> large_pair draw engine copied bases_agree s j) -> k = true) /\
    ((exists j, (j < 10)%nat /\ (mixed_pair draw engine copied bases_clash s j \/ large_pair draw engine copied bases_clash s j)) -> k = false).
  Proof using HL HT Hc B FT TT.
    unfold result. cbn [tail3 one_by_one]. set (e4 := engine4 draw engine s).
    destruct (two_small_ok fuel c logf log10f cast s1 m1 HL HT draw Hc e4) as (l1 & l2 & k1 & E1 & E2 & V & H1).
    unfold then_do at 1. unfold two_small. rewrite (repeated_stays _ 9 (true, e4) k1 H1). cbn [bind fst snd andb].
    destruct (repeated_checked (small_and_large_sample draw copied run) size
      (fun e => bases_agree (positive_read draw (size_of draw e) (bytes_from draw copied e)) (positive_read draw 1 e))
      (fun e => bases_clash (positive_read draw (size_of draw e) (bytes_from draw copied e)) (positive_read draw 1 e)) 10 e4) as (k2 & H2 & A2 & C2).
    { intros e. destruct (small_and_large_ok fuel c logf log10f cast s1 m1 HL HT draw copied B Hc e) as (a & b & k & Ea & Eb & (VA & VC) & H). exists k. split; [exact H|].
      unfold positive_read, made, size_of, bytes_from, after_size. rewrite Ea, Eb. auto. }
    unfold then_do at 1. unfold small_and_large. rewrite H2. cbn [bind]. change (Nat.iter 10 size e4) with (engine5 draw engine s). set (e5 := engine5 draw engine s) in *.
    destruct (repeated_checked (two_large_sample draw copied run) (fun e => size (size e))
      (fun e => bases_agree (positive_read draw (size_of draw (size e)) (bytes_from draw copied (size e))) (positive_read draw (size_of draw e) (bytes_from draw copied e)))
      (fun e => bases_clash (positive_read draw (size_of draw (size e)) (bytes_from draw copied (size e))) (positive_read draw (size_of draw e) (bytes_from draw copied e))) 10 e5) as (k3 & H3 & A3 & C3).
    { intros e. destruct (two_large_ok fuel c logf log10f cast s1 m1 HL HT draw copied B Hc e) as (a & b & k & Ea & Eb & (VA & VC) & H). exists k. split; [exact H|].
      unfold size, positive_read, made, size_of, bytes_from, after_size in *. rewrite Ea, Eb. auto. }
    unfold then_do at 1. unfold two_large. rewrite H3. cbn [bind]. unfold then_do at 1. rewrite checked_ok.
    2:{ cbn [snd]. apply (large_value_ok logf tolerance c 128 1 0 1 HL FT TT); unfold INT_MAX; lia. }
    cbn [bind]. exists (k1 && k2 && k3). split; [reflexivity|]. split.
    - intros P1 P2 P3. unfold small_pairs, positive_read, made in P1. fold e4 in P1. rewrite E1, E2 in P1. rewrite (proj1 V P1), (A2 P2), (A3 P3). reflexivity.
    - intros (j & J & [P|P]).
      + rewrite C2 by (exists j; auto). now rewrite Bool.andb_false_r.
      + rewrite C3 by (exists j; auto). now rewrite Bool.andb_false_r.
  Qed.

  Theorem test_passes fl s : good_draws draw engine copied logf tolerance c s -> fl <> O ->
    small_pairs draw engine bases_agree s -> (forall j, (j < 10)%nat -> mixed_pair draw engine copied bases_agree s j) ->
    (forall j, (j < 10)%nat -> large_pair draw engine copied bases_agree s j) ->
    log_test draw engine copied run logf tolerance c fl s = Ret true.
  Proof using HL HT Hc K NM B FT TT.
    intros G F P1 P2 P3. rewrite (draws_ok fl s G F). destruct (pairs_end s) as (k & -> & A & _). now rewrite (A P1 P2 P3).
  Qed.

  Theorem test_disagrees fl s : good_draws draw engine copied logf tolerance c s -> fl <> O ->
    (exists j, (j < 10)%nat /\ (mixed_pair draw engine copied bases_clash s j \/ large_pair draw engine copied bases_clash s j)) ->
    log_test draw engine copied run logf tolerance c fl s = Ret false.
  Proof using HL HT Hc K NM B FT TT.
    intros G F P. rewrite (draws_ok fl s G F). destruct (pairs_end s) as (k & -> & _ & A). now rewrite (A P).
  Qed.

  Lemma tail2_end ok e : (exists k, one_by_one tail2 (ok, e) = Ret k) \/
    one_by_one tail2 (ok, e) = Undef OutOfBounds /\ text (negative_read draw 10 e) <> Ret (negative_read draw 10 e).
  Proof using HL HT Hc K NM B FT TT.
    destruct (negative_loop ok e) as (x & X & R & N). rewrite X. destruct (text_ends x R) as [T|T].
    2:{ right. split; [|rewrite T; discriminate]. cbn [tail2 one_by_one]. unfold then_do at 1. rewrite N, T. reflexivity. }
    left. cbn [tail2 one_by_one]. unfold then_do at 1. rewrite N, T. cbn [bind]. unfold then_do at 1. unfold small_small_base, large_small_base.
    assert (forall n (s : bool * E), exists k, repeated n (small_small_sample draw engine logf tolerance c) s = Ret k) as A.
    { induction n as [|n IH]; intros (ok1 & e1); [eexists; reflexivity|]. cbn [repeated]. unfold then_do at 1.
      destruct (small_small_ok c logf tolerance HL draw engine K NM FT T0 ok1 e1) as (l & k & _ & _ & _ & ->). cbn [bind]. destruct k; [apply IH|eexists; reflexivity]. }
    assert (forall n (s : bool * E), exists k, repeated n (large_small_sample draw engine copied logf tolerance c) s = Ret k) as A2.
    { induction n as [|n IH]; intros (ok1 & e1); [eexists; reflexivity|]. cbn [repeated]. unfold then_do at 1.
      destruct (large_small_ok c logf tolerance HL draw engine copied B K NM FT T0 ok1 e1) as (l & k & _ & _ & _ & ->). cbn [bind]. destruct k; [apply IH|eexists; reflexivity]. }
    destruct (A 10%nat (ok, e)) as ([s'|] & ->); cbn [bind]; [|eexists; reflexivity]. unfold then_do at 1.
    destruct (A2 10%nat s') as ([s''|] & ->); cbn [bind]; eexists; reflexivity.
  Qed.

  Lemma tail3_end (s : bool * E) : exists k, one_by_one tail3 s = Ret k.
  Proof using HL HT Hc B FT TT.
    assert (forall (a : step E), (forall e, exists k e', forall ok, a (ok, e) = Ret (Some (ok && k, e'))) -> forall n s, exists s', repeated n a s = Ret (Some s')) as R.
    { intros a H. induction n as [|n IH]; intros (ok & e); [eexists; reflexivity|]. cbn [repeated]. unfold then_do. destruct (H e) as (k & e' & ->). cbn [bind]. apply IH. }
    cbn [tail3 one_by_one]. unfold then_do at 1, two_small.
    match goal with |- context [repeated 10 ?a s] => destruct (R a) with (n := 10%nat) (s := s) as (sa & ->) end.
    { intros e. destruct (two_small_ok fuel c logf log10f cast s1 m1 HL HT draw Hc e) as (a & b & k & _ & _ & _ & H). eauto. }
    cbn [bind]. unfold then_do at 1, small_and_large.
    match goal with |- context [repeated 10 ?a sa] => destruct (R a) with (n := 10%nat) (s := sa) as (sb & ->) end.
    { intros e. destruct (small_and_large_ok fuel c logf log10f cast s1 m1 HL HT draw copied B Hc e) as (a & b & k & _ & _ & _ & H). eauto. }
    cbn [bind]. unfold then_do at 1, two_large.
    match goal with |- context [repeated 10 ?a sb] => destruct (R a) with (n := 10%nat) (s := sb) as (sc & ->) end.
    { intros e. destruct (two_large_ok fuel c logf log10f cast s1 m1 HL HT draw copied B Hc e) as (a & b & k & _ & _ & _ & H). eauto. }
    cbn [bind]. unfold then_do. rewrite checked_ok; [eexists; reflexivity|].
    apply (large_value_ok logf tolerance c 128 1 0 1 HL FT TT); unfold INT_MAX; lia.
  Qed.

  (** Nothing else can happen. *)
  Theorem test_ends fl s : let o := log_test draw engine copied run logf tolerance c fl s in
    (exists k, o = Ret k) \/
    (o = NoFuel /\ (fl = O \/ positive_number draw 8 (engine1 engine s) = 1)) \/
    (o = Undef OutOfBounds /\ text (negative_read draw 10 (engine2 engine s)) <> Ret (negative_read draw 10 (engine2 engine s))).
  Proof using HL HT Hc K NM B FT TT.
    cbv zeta. set (T := text (negative_read draw 10 (engine2 engine s)) <> Ret (negative_read draw 10 (engine2 engine s))).
    enough (exists o, log_test draw engine copied run logf tolerance c fl s = o /\
      ((exists k, o = Ret k) \/ (o = NoFuel /\ (fl = O \/ positive_number draw 8 (engine1 engine s) = 1)) \/ (o = Undef OutOfBounds /\ T))) as (o & -> & H) by exact H.
    assert (forall k, (exists k' : bool, Ret k = Ret k') \/ (Ret k = NoFuel /\ (fl = O \/ positive_number draw 8 (engine1 engine s) = 1)) \/ (Ret k = Undef OutOfBounds /\ T)) as RET
      by (intros k; left; eexists; reflexivity).
    rewrite test_parts. unfold result, then_do at 1.
    destruct (doubles_loop s) as [(_ & A)|(_ & A)]; rewrite A; cbn [bind]; [|eexists; split; [reflexivity|apply RET]].
    unfold then_do at 1. destruct fl as [|fl].
    { exists NoFuel. split; [|right; left; auto]. cbn [tail1 one_by_one]. unfold then_do at 1. rewrite base_zero_loop. now destruct (_ =? 1). }
    destruct (Z.eq_dec (positive_number draw 8 (engine1 engine s)) 1) as [P|P].
    { exists NoFuel. split; [|right; left; auto]. cbn [tail1 one_by_one]. unfold then_do at 1. rewrite base_zero_loop, P. reflexivity. }
    destruct (tail1_end (S fl) (engine1 engine s) ltac:(discriminate) P) as [(_ & H)|(_ & H)]; rewrite H; cbn [bind]; [eexists; split; [reflexivity|apply RET]|].
    change (Nat.iter 10 next (engine1 engine s)) with (engine2 engine s). unfold then_do.
    destruct (tail2_end true (engine2 engine s)) as [([s'|] & ->)|(-> & T1)]; cbn [bind].
    - destruct (tail3_end s') as (k & ->). eexists. split; [reflexivity|apply RET].
    - eexists. split; [reflexivity|apply RET].
    - eexists. split; [reflexivity|]. right. right. split; [reflexivity|exact T1].
  Qed.
End Whole.

(** ** A generator for the examples

    The counter's value decides. A size is the largest one possible, and moves the counter far ahead. *)
Definition sized (script : Z -> Z) (e lo hi : Z) : Z * Z :=
  if lo =? 1 then (hi, e + 1000) else (Z.min hi (Z.max lo (script e)), e + 1).
Lemma sized_in_bounds script : in_bounds (sized script).
Proof. intros e lo hi H. unfold sized. destruct (_ =? _); cbn [fst]; lia. Qed.
(** An engine whose state does not change, and one that counts. *)
Definition constant (v e : Z) : Z * Z := (v, e).
Definition counter (e : Z) : Z * Z := (e mod 2 ^ 31, e + 1).
Lemma constant_ok v : 0 <= v < 2 ^ 31 -> engine_ok (constant v) /\ no_min (constant v).
Proof. change (2 ^ 31) with 2147483648. intros V. split; intros e; cbn [constant fst]; [change (2 ^ 32) with 4294967296|change (2 ^ 31) with 2147483648]; lia. Qed.
Lemma counter_ok : engine_ok counter /\ no_min counter.
Proof.
  split; intros e; cbn [counter fst]; pose proof (Z.mod_pos_bound e (2 ^ 31) ltac:(reflexivity)) as M; [|lia].
  change (2 ^ 31) with 2147483648 in *. change (2 ^ 32) with 4294967296. lia.
Qed.
(** Four bytes; the byte 1; the number -10^17; and from 10000 on, 5, 98 blanks and a last byte. *)
Definition four_bytes (e : Z) : Z := nth (Z.to_nat (e mod 1000)) [7; 200; 5; 3] 0.
Definition only_one (e : Z) : Z := if e =? 0 then 1 else 0.
Definition unwritable (e : Z) : Z := (- 10 ^ 17 / 2 ^ (8 * e)) mod 256.
Definition blanks_later (e : Z) : Z := if e <? 10000 then four_bytes e else if e =? 10000 then 5 else if e <? 10099 then 32 else 127.
(** The double nearest to 10^-15. *)
Definition tolerance15 : double := bits_double 4382569440205035030.
Lemma tolerance15_ok : is_finite tolerance15 = true /\ (Rabs (B2R tolerance15 - / 10 ^ 15) <= / 10 ^ 16)%R.
Proof.
  destruct (bits_ok 4382569440205035030) as (F & R); [split; [discriminate|reflexivity]|discriminate|]. split; [exact F|].
  unfold tolerance15. rewrite R. unfold dbl_real.
  change (dbl_signed 4382569440205035030 (dbl_significand 4382569440205035030)) with 5070602400912918%Z.
  change (dbl_scale 4382569440205035030) with (-102)%Z. change (powerRZ 2 (-102)) with (/ 2 ^ 102)%R.
  replace (2 ^ 102)%R with 5070602400912917605986812821504%R by lra.
  replace (10 ^ 15)%R with 1000000000000000%R by lra. replace (10 ^ 16)%R with 10000000000000000%R by lra. apply Rabs_le. lra.
Qed.
Local Ltac good_example script :=
  destruct (constant_ok 12345) as (K & N); [split; [discriminate|reflexivity]|]; destruct tolerance15_ok as (FT & TT);
  assert (forall c0 n e1 e, (1 <= n <= 100)%nat -> (positive_number (sized script) n e1 <? 2 ^ 31) = true ->
    logs_close (constant 12345) round_log tolerance15 c0 (positive_bytes (sized script) n e1) e) as C
    by (intros c0 n e1 e L X; apply (close_small c0 round_log tolerance15 libm_log_exists (sized script) (constant 12345) K N FT TT n e1 e L); left; now apply Z.ltb_lt);
  split;
  [split;
   [intros k L; do 10 (destruct k as [|k]; [vm_compute; reflexivity|]); lia|vm_compute; discriminate|vm_compute; discriminate
   |intros k L; do 10 (destruct k as [|k]; [vm_compute; discriminate|]); lia]
  |vm_compute; reflexivity
  |intros k L; do 10 (destruct k as [|k]; [apply C; [lia|vm_compute; reflexivity]|]); lia
  |intros k L; do 10 (destruct k as [|k]; [apply C; [vm_compute; lia|vm_compute; reflexivity]|]); lia].
Lemma good_four c : good_draws (sized four_bytes) (constant 12345) true round_log tolerance15 c 0.
Proof. good_example four_bytes. Qed.
Lemma good_blanks c : good_draws (sized blanks_later) (constant 12345) true round_log tolerance15 c 0.
Proof. good_example blanks_later. Qed.
