(** How the randomised tests of TestBodies.v end. *)
From Coq Require Import String Ascii.
From Verif Require Import Facts Spec SpecPos PosFacts BytesFacts BigInt SpecGcd SpecActual PyRun SpecPyRun SpecOracle SpecReference SpecIdentity
  TestOracle TestCalc TestRandom TestNumbers TestBodies SpecBodies OracleFacts OracleFacts2 CalcFacts RandomFacts IdentityFacts.

Ltac Zify.zify_post_hook ::= idtac.

(** ** Lists of checks *)

Lemma all_pass_one p : all_pass [p] = p.
Proof. cbn [all_pass]. destruct p; cbn [bind]; auto. now rewrite andb_true_r. Qed.

Lemma samples_same checks : samples checks = all_pass checks.
Proof.
  unfold samples. generalize (all_pass checks) as p. intros p.
  assert (forall n, all_pass (repeat p (S n)) = p) as H; [|exact (H 9%nat)].
  induction n as [|n IH]; [apply all_pass_one|].
  change (repeat p (S (S n))) with (p :: repeat p (S n)). cbn [all_pass] in *. fold all_pass. rewrite IH.
  destruct p; cbn [bind]; auto. now rewrite andb_diag.
Qed.

Lemma all_pass_cons p checks : p = Ret true -> all_pass (p :: checks) = all_pass checks.
Proof. intros ->. cbn [all_pass bind]. destruct (all_pass checks); reflexivity. Qed.

Lemma all_pass_true checks : Forall (fun p => p = Ret true) checks -> all_pass checks = Ret true.
Proof. induction 1; [reflexivity|]. now rewrite all_pass_cons. Qed.

(** ** One printed operand, two printed operands *)

Definition plain (l : list Z) (x : Z) : Prop := digits 256 l /\ operand l = x /\ text x = Ret x.

Lemma plain_random l : random_array l -> plain l (operand l) /\ 0 <= operand l.
Proof.
  intros (L & N). destruct (operand_range l L ltac:(change (2 ^ 28) with 268435456; change (2 ^ 20) with 1048576 in N; lia)) as (P & T). split; [|exact P]. split; [now apply low7_digits|auto].
Qed.

(** What can be written in decimal. *)
Lemma text_bound v k : 0 <= v < 2 ^ k -> k <= 2 ^ 32 -> text v = Ret v.
Proof.
  intros H Hk. change (2 ^ 32) with 4294967296 in Hk. unfold text.
  replace (v <=? - 2 ^ 31) with false by (symmetry; apply Z.leb_gt; change (2 ^ 31) with 2147483648; lia). cbn [andb].
  replace (214748364 <? limbs_of v) with false; [reflexivity|]. symmetry. apply Z.ltb_ge. unfold limbs_of. rewrite Z.abs_eq by lia.
  assert (Z.log2 v <= 4294967296) as L.
  { destruct (Z.eq_dec v 0) as [->|]; [change (Z.log2 0) with 0; lia|]. assert (Z.log2 v < k); [|lia]. apply Z.log2_lt_pow2; lia. }
  assert (Z.log2 v / 32 <= 134217728); [|lia]. apply Z.div_le_upper_bound; lia.
Qed.

(** 2^24, sealed: nothing shall try to compute 2 to this power. *)
Lemma bits_max_exists : { k | k = 2 ^ 24 }.
Proof. now exists (2 ^ 24). Qed.
Definition bits_max : Z := proj1_sig bits_max_exists.
Lemma bits_max_eq : bits_max = 16777216.
Proof. exact (proj2_sig bits_max_exists). Qed.
Lemma random_bound l : random_array l -> 0 <= operand l < 2 ^ bits_max.
Proof.
  intros (L & N). pose proof (low7_value _ (blanks_lost_low l L)) as V. pose proof (blanks_lost_length l) as K. unfold operand.
  split; [lia|]. apply (Z.lt_le_trans _ _ _ (proj2 V)). change 256 with (2 ^ 8). rewrite <- Z.pow_mul_r by lia.
  rewrite bits_max_eq. change (2 ^ 20) with 1048576 in N. apply Z.pow_le_mono_r; lia.
Qed.

Lemma written v : same_text v v = if_written v.
Proof. unfold same_text, if_written, text. destruct (_ <? _); [reflexivity|]. destruct (_ && _); [reflexivity|]. cbn [bind]. now rewrite Z.eqb_refl. Qed.
Lemma written_ok v : text v = Ret v -> if_written v = Ret true.
Proof. unfold if_written. now intros ->. Qed.

Lemma verdict_plain fuel c outs l x rest st : plain l x ->
  verdict fuel c outs (tokens (print_bytes l ++ rest)) None st = verdict fuel c outs (tokens rest) None (x :: st).
Proof.
  intros (D & <- & T). rewrite (verdict_print fuel c outs l rest st D). cbv zeta. fold (operand l).
  now rewrite (same_text_ok _ T).
Qed.

Lemma verdict_unary fuel c op f x : starts_with "u" op = true -> lookup unary_table op = Some f ->
  verdict fuel c false [op] None [x] = same_text (f x) (f x).
Proof.
  intros S U. cbn [verdict]. rewrite S, U. destruct (same_text _ _) as [[]| | | |]; reflexivity.
Qed.

Lemma verdict_binary fuel c op g f ok x y :
  starts_with "b" op = true -> lookup (lib_binary_table fuel c) op = Some g -> lookup binary_table op = Some (f, ok) ->
  verdict fuel c false [op] None [x; y] = (v <- g x y ;; same_text v (f x y)).
Proof.
  intros S G F. cbn [verdict]. rewrite S, G, F.
  replace (starts_with "u" op) with false.
  2: { destruct op as [|a r]; [discriminate|]. cbn [starts_with] in *. apply Ascii.eqb_eq in S. now subst a. }
  destruct (g x y); cbn [bind]; auto. destruct (same_text _ _) as [[]| | | |]; reflexivity.
Qed.

(** Numbers from -1 to 2^(2^24): closed under the operators of the tests below. *)
Definition fits (x : Z) : Prop := -1 <= x < 2 ^ bits_max.
Lemma fits_text x : fits x -> text x = Ret x.
Proof.
  intros (L & U). destruct (Z.eq_dec x (-1)) as [->|]; [reflexivity|].
  apply (text_bound x bits_max); [lia|]. rewrite bits_max_eq. apply Z.leb_le. reflexivity.
Qed.
Lemma fits_random l : random_array l -> fits (operand l).
Proof. intros H. apply random_bound in H. unfold fits. lia. Qed.
Lemma below_pow x k : 0 <= x -> 0 < k -> Z.log2 x < k -> x < 2 ^ k.
Proof.
  intros H K L. destruct (Z.eq_dec x 0) as [->|]; [apply Z.pow_pos_nonneg; lia|]. apply Z.log2_lt_pow2; lia.
Qed.
Lemma log_below x k : 0 <= x < 2 ^ k -> 0 < k -> Z.log2 x < k.
Proof. intros H K. destruct (Z.eq_dec x 0) as [->|]; [change (Z.log2 0) with 0; lia|]. apply Z.log2_lt_pow2; lia. Qed.
Lemma bits_max_pos : 0 < bits_max.
Proof. rewrite bits_max_eq. reflexivity. Qed.
Lemma pow_max_pos : 2 <= 2 ^ bits_max.
Proof. rewrite <- (Z.pow_1_r 2) at 1. apply Z.pow_le_mono_r; [lia|]. rewrite bits_max_eq. apply Z.leb_le. reflexivity. Qed.

Lemma fits_land x y : fits x -> fits y -> fits (Z.land x y).
Proof.
  intros (X & X') (Y & Y'). destruct (Z.eq_dec x (-1)) as [->|]; [rewrite Z.land_m1_l; split; auto|].
  destruct (Z.eq_dec y (-1)) as [->|]; [rewrite Z.land_m1_r; split; auto|].
  assert (0 <= Z.land x y) by (apply Z.land_nonneg; lia). split; [lia|].
  apply below_pow; [lia|exact bits_max_pos|]. pose proof (Z.log2_land x y ltac:(lia) ltac:(lia)).
  pose proof (log_below x _ ltac:(split; [|exact X']; lia) bits_max_pos). lia.
Qed.
Lemma fits_lor x y : fits x -> fits y -> fits (Z.lor x y).
Proof.
  intros (X & X') (Y & Y'). destruct (Z.eq_dec x (-1)) as [->|]; [rewrite Z.lor_m1_l; split; auto; lia|].
  destruct (Z.eq_dec y (-1)) as [->|]; [rewrite Z.lor_m1_r; split; auto; lia|].
  assert (0 <= Z.lor x y) by (apply Z.lor_nonneg; lia). split; [lia|].
  apply below_pow; [lia|exact bits_max_pos|]. rewrite Z.log2_lor by lia.
  pose proof (log_below x _ ltac:(split; [|exact X']; lia) bits_max_pos).
  pose proof (log_below y _ ltac:(split; [|exact Y']; lia) bits_max_pos). lia.
Qed.
Lemma fits_lxor x y : fits x -> fits y -> 0 <= x -> 0 <= y -> fits (Z.lxor x y).
Proof.
  intros (X & X') (Y & Y') P Q. assert (0 <= Z.lxor x y) by (apply Z.lxor_nonneg; lia). split; [lia|].
  apply below_pow; [lia|exact bits_max_pos|]. pose proof (Z.log2_lxor x y P Q).
  pose proof (log_below x _ ltac:(split; [|exact X']; lia) bits_max_pos).
  pose proof (log_below y _ ltac:(split; [|exact Y']; lia) bits_max_pos). lia.
Qed.
Lemma fits_min x y : fits x -> fits y -> fits (Z.min x y).
Proof. unfold fits. lia. Qed.
Lemma fits_max x y : fits x -> fits y -> fits (Z.max x y).
Proof. unfold fits. lia. Qed.

Definition constants : list (list Z * Z) := [([0], 0); ([1], 1); ([255], -1); ([0; 0; 0; 128; 0], 2 ^ 31)].
Lemma constant_plain l x : In (l, x) constants -> plain l x /\ fits x.
Proof.
  assert (fits 0 /\ fits 1 /\ fits (-1) /\ fits (2 ^ 31)) as (F0 & F1 & F2 & F3).
  { pose proof pow_max_pos. unfold fits. repeat split; try lia.
    apply Z.pow_lt_mono_r; [lia|rewrite bits_max_eq; discriminate|]. rewrite bits_max_eq. reflexivity. }
  intros H. cbn [In constants] in H. decompose [or] H; clear H; try contradiction;
    match goal with H : _ = _ |- _ => injection H as <- <- end; (split; [|assumption]);
    (split; [repeat constructor; lia|split; reflexivity]).
Qed.

(** Arrays of two bytes *)
Lemma two_bytes l : low7 l -> List.length l = 2%nat -> 0 <= operand l < 2 ^ 24.
Proof.
  intros L N. destruct l as [|a [|b [|? ?]]]; try discriminate N. inversion L as [|? ? Ha L']; subst. inversion L' as [|? ? Hb _]; subst.
  unfold operand, blanks_lost. cbn [flat_map]. change (2 ^ 24) with 16777216.
  destruct (Z.eqb_spec a 32), (Z.eqb_spec b 32); subst; cbn [app]; unfold complement; cbn [positional last List.length];
    (destruct (Z.leb_spec 256 (2 * 0)); [lia|] || idtac); try (destruct (Z.leb_spec 256 (2 * b)); [lia|]); lia.
Qed.

Section Run.
  Context (fuel : nat) (c : cfg) (s1 m1 : string -> bigint -> outcome bigint) (s2 m2 : string -> bigint -> bigint -> outcome bigint) (Hc : strict c = false).

  Lemma run_plain outs l x op : plain l x -> tokens op = [op] -> ~ takes_log op ->
    verify fuel c s1 m1 s2 m2 outs (print_bytes l ++ op) = verdict fuel c outs [op] None [x].
  Proof.
    intros P T N. rewrite (verify_exact fuel c s1 m1 s2 m2 outs _ Hc).
    - rewrite (verdict_plain fuel c outs l x op [] P). now rewrite T.
    - intros t H L. apply (print_no_log _ _ _ (proj1 P) L) in H. rewrite T in H. destruct H as [<-|[]]. contradiction.
  Qed.

  Lemma run_two outs l1 l2 x y op : plain l2 x -> plain l1 y -> tokens op = [op] -> ~ takes_log op ->
    two (verify fuel c s1 m1 s2 m2 outs) op l1 l2 = verdict fuel c outs [op] None [x; y].
  Proof.
    intros P2 P1 T N. unfold two. rewrite (verify_exact fuel c s1 m1 s2 m2 outs _ Hc).
    - rewrite (verdict_plain fuel c outs l1 y _ [] P1), (verdict_plain fuel c outs l2 x op [y] P2). now rewrite T.
    - intros t H L. apply (print_no_log _ _ _ (proj1 P1) L), (print_no_log _ _ _ (proj1 P2) L) in H.
      rewrite T in H. destruct H as [<-|[]]. contradiction.
  Qed.

  (** ** Unary operators *)

  Lemma run_text input b : (forall op, In op (tokens input) -> ~ takes_log op) ->
    verdict fuel c false (tokens input) None [] = b -> verify fuel c s1 m1 s2 m2 false input = b.
  Proof. intros N <-. now apply verify_exact. Qed.

  Context {E : Type} (draw : E -> Z -> Z -> Z * E) (copied : bool) (B : in_bounds draw).

  Lemma any_random lo hi e : lo <= hi <= 1024 -> random_array (any_bytes draw copied lo hi e).
  Proof.
    intros H. unfold any_bytes. pose proof (B e lo hi ltac:(lia)) as S. destruct (draw e lo hi) as (n & e'). cbn [fst] in S.
    destruct (next_bytes_low draw (Z.to_nat n) B (if copied then e else e')) as (L & N). split; [exact L|].
    unfold get_random_bytes. rewrite N. change (2 ^ 20) with 1048576. lia.
  Qed.

  Lemma small_random n e : (n <= 1024)%nat -> random_array (get_random_bytes draw n e).
  Proof.
    intros H. destruct (next_bytes_low draw n B e) as (L & N). split; [exact L|].
    unfold get_random_bytes. rewrite N. change (2 ^ 20) with 1048576. lia.
  Qed.

  Local Ltac no_log := let T := fresh in intros T; destruct T as [T|[T|T]]; discriminate T.
  Local Ltac literal :=
    apply run_text;
    [let t := fresh in let H := fresh in let T := fresh in intros t H T; cbv in H;
     repeat (destruct H as [<-|H]; [destruct T as [T|[T|T]]; discriminate T|]); contradiction
    |vm_compute; reflexivity].

  Lemma unary_exact lo op f e : 0 <= lo <= 1024 -> In (op, f) unary_table -> In op ["uAbs"; "uSign"; "u++"; "u--"; "u~"]%string ->
    unary_test draw copied (verify fuel c s1 m1 s2 m2 false) lo op e =
    (a <- same_text (f (operand (any_bytes draw copied lo 1024 e))) (f (operand (any_bytes draw copied lo 1024 e))) ;;
     b <- same_text (f (operand (get_random_bytes draw 2 e))) (f (operand (get_random_bytes draw 2 e))) ;; Ret (a && b)).
  Proof.
    intros Hlo U I. unfold unary_test.
    destruct (plain_random _ (any_random lo 1024 e ltac:(lia))) as (P & _).
    destruct (plain_random _ (small_random 2 e ltac:(lia))) as (Q & _).
    set (l := any_bytes draw copied lo 1024 e) in *. set (s := get_random_bytes draw 2 e) in *.
    rewrite !samples_same, !all_pass_one.
    assert (tokens op = [op] /\ ~ takes_log op /\ starts_with "u" op = true /\ lookup unary_table op = Some f /\
      Forall (fun p => p = Ret true) (map (fun t => verify fuel c s1 m1 s2 m2 false (t ++ op)%string)
         ["0 "; "-1 "; "1 ";
          int32_min ++ " "; int32_min ++ " -1 b+ "; int32_min ++ " 1 b+ ";
          int32_max ++ " "; int32_max ++ " -1 b+ "; int32_max ++ " 1 b+ ";
          int64_min ++ " "; int64_min ++ " -1 b+ "; int64_min ++ " 1 b+ ";
          int64_max ++ " "; int64_max ++ " -1 b+ "; int64_max ++ " 1 b+ "]%string)) as (T & N & S & L & F).
    { cbn [In] in I. destruct I as [<-|[<-|[<-|[<-|[<-|[]]]]]];
        (split; [reflexivity|split; [no_log|split; [reflexivity|split]]]);
        try (unfold unary_table in U; cbn [In] in U;
             repeat (destruct U as [U|U]; [first [discriminate U|injection U as <-; reflexivity]|]); contradiction).
      all: cbn [map]; repeat (apply Forall_cons; [literal|]); apply Forall_nil. }
    cbn [app]. match goal with |- context [map ?g ?ts] => set (rest := map g ts) in * end.
    cbn [all_pass]. rewrite (all_pass_true _ F).
    rewrite (run_plain false l _ op P T N), (run_plain false s _ op Q T N).
    rewrite !(verdict_unary fuel c op f _ S L).
    destruct (same_text (f (operand l)) _); cbn [bind]; auto. destruct (same_text (f (operand s)) _); cbn [bind]; auto.
    now rewrite andb_true_r.
  Qed.

  Lemma pred_text x : fits x -> 0 <= x -> text (Z.pred x) = Ret (Z.pred x).
  Proof. intros F H. apply fits_text. unfold fits in *. lia. Qed.
  Lemma succ_text x : fits x -> 0 <= x -> text (Z.succ x) = Ret (Z.succ x).
  Proof.
    intros F H. apply (text_bound _ (bits_max + 1)); [|rewrite bits_max_eq; apply Z.leb_le; reflexivity].
    rewrite Z.pow_add_r by (rewrite ?bits_max_eq; lia). change (2 ^ 1) with 2. unfold fits in F. pose proof pow_max_pos. lia.
  Qed.
  Lemma lnot_text x : 0 <= x < 2 ^ 24 -> text (Z.lnot x) = Ret (Z.lnot x).
  Proof.
    intros H. change (2 ^ 24) with 16777216 in H. unfold text, Z.lnot.
    replace (Z.pred (- x) <=? - 2 ^ 31) with false by (symmetry; apply Z.leb_gt; change (2 ^ 31) with 2147483648; lia). cbn [andb].
    replace (214748364 <? limbs_of (Z.pred (- x))) with false; [reflexivity|]. symmetry. apply Z.ltb_ge. unfold limbs_of.
    replace (Z.abs (Z.pred (- x))) with (x + 1) by lia.
    assert (Z.log2 (x + 1) <= 24) by (change 24 with (Z.log2 (2 ^ 24)); apply Z.log2_le_mono; change (2 ^ 24) with 16777216; lia).
    pose proof (Z.log2_nonneg (x + 1)). rewrite Z.div_small by lia. destruct (x + 1 =? 0); lia.
  Qed.

  Theorem unary_passes lo op e : 0 <= lo <= 1024 -> In op ["uAbs"; "uSign"; "u++"; "u--"]%string ->
    unary_test draw copied (verify fuel c s1 m1 s2 m2 false) lo op e = Ret true.
  Proof.
    intros Hlo I.
    assert (exists f, In (op, f) unary_table /\ forall x, fits x -> 0 <= x -> text (f x) = Ret (f x)) as (f & U & F).
    { cbn [In] in I. destruct I as [<-|[<-|[<-|[<-|[]]]]].
      - exists Z.abs. split; [cbn; auto 10|]. intros x H P. rewrite Z.abs_eq by exact P. now apply fits_text.
      - exists Z.sgn. split; [cbn; auto 10|]. intros x H P. pose proof pow_max_pos. apply fits_text. unfold fits.
        pose proof (Z.sgn_spec x). lia.
      - exists Z.succ. split; [cbn; auto 10|exact succ_text].
      - exists Z.pred. split; [cbn; auto 10|exact pred_text]. }
    rewrite (unary_exact lo op f e Hlo U) by (cbn [In] in *; tauto).
    pose proof (any_random lo 1024 e ltac:(lia)) as R1. pose proof (small_random 2 e ltac:(lia)) as R2.
    rewrite !same_text_ok; [reflexivity|..]; apply F; try (now apply fits_random); now apply random_bound.
  Qed.

  Theorem not_exact e :
    unary_test draw copied (verify fuel c s1 m1 s2 m2 false) 0 "u~" e = if_written (- operand (any_bytes draw copied 0 1024 e) - 1).
  Proof.
    rewrite (unary_exact 0 "u~" Z.lnot e ltac:(lia)) by (cbn; auto 10).
    destruct (next_bytes_low draw 2 B e) as (L & N).
    rewrite (same_text_ok (Z.lnot (operand (get_random_bytes draw 2 e)))) by (apply lnot_text, two_bytes; assumption).
    rewrite written. replace (Z.lnot _) with (- operand (any_bytes draw copied 0 1024 e) - 1) by (unfold Z.lnot; lia).
    unfold if_written. destruct (text _); reflexivity.
  Qed.

  (** ** Binary operators *)

  Lemma two_exact op g f ok l1 l2 x y : plain l2 x -> plain l1 y -> tokens op = [op] -> ~ takes_log op -> starts_with "b" op = true ->
    lookup (lib_binary_table fuel c) op = Some g -> lookup binary_table op = Some (f, ok) -> g x y = Ret (f x y) ->
    two (verify fuel c s1 m1 s2 m2 false) op l1 l2 = if_written (f x y).
  Proof.
    intros P2 P1 T N S G F R. rewrite (run_two false l1 l2 x y op P2 P1 T N), (verdict_binary fuel c op g f ok x y S G F), R.
    apply written.
  Qed.

  Theorem binary_passes hi small1 k kv op e : 0 <= hi <= 1024 -> (small1 <= 1024)%nat -> In (k, kv) constants ->
    In op ["b&"; "b|"; "bMin"; "bMax"]%string ->
    binary_test draw copied (verify fuel c s1 m1 s2 m2 false) hi small1 k op e = Ret true.
  Proof.
    intros Hhi Hs K I.
    assert (forall l1 l2 x y, plain l2 x /\ fits x -> plain l1 y /\ fits y -> two (verify fuel c s1 m1 s2 m2 false) op l1 l2 = Ret true) as T.
    { intros l1 l2 x y (P2 & F2) (P1 & F1). cbn [In] in I. destruct I as [<-|[<-|[<-|[<-|[]]]]].
      all: (erewrite two_exact; [|exact P2|exact P1|reflexivity|no_log|reflexivity|reflexivity|reflexivity|reflexivity]);
        apply written_ok, fits_text; auto using fits_land, fits_lor, fits_min, fits_max. }
    assert (forall l, random_array l -> plain l (operand l) /\ fits (operand l)) as R.
    { intros l H. split; [apply plain_random, H|apply fits_random, H]. }
    pose proof (R _ (any_random 0 hi e ltac:(lia))) as RL. pose proof (R _ (small_random 2 e ltac:(lia))) as RS.
    pose proof (R _ (small_random small1 e Hs)) as R1. clear R.
    pose proof (constant_plain _ _ K) as CK.
    assert (plain [0] 0 /\ fits 0) as C0 by (apply constant_plain; cbn; auto).
    assert (plain [255] (-1) /\ fits (-1)) as C1 by (apply constant_plain; cbn; auto).
    unfold binary_test. cbv zeta. cbn [app]. rewrite !samples_same.
    apply all_pass_true. repeat (apply Forall_cons; [apply all_pass_true; repeat (apply Forall_cons; [eapply T; eassumption|]); apply Forall_nil|]).
    apply Forall_nil.
  Qed.

  Theorem and_passes e : and_test draw copied (verify fuel c s1 m1 s2 m2 false) e = Ret true.
  Proof.
    unfold and_test. apply all_pass_true. apply Forall_cons; [literal|]. apply Forall_cons; [|apply Forall_nil].
    apply (binary_passes 1024 2 _ (2 ^ 31)); [lia|lia|cbn; auto|cbn; auto].
  Qed.

  Theorem xor_exact e :
    binary_test draw copied (verify fuel c s1 m1 s2 m2 false) 1024 5 [0; 0; 0; 128; 0] "b^" e =
    if_written (- operand (any_bytes draw copied 0 1024 e) - 1).
  Proof.
    assert (forall l1 l2 x y, plain l2 x -> plain l1 y -> two (verify fuel c s1 m1 s2 m2 false) "b^" l1 l2 = if_written (Z.lxor x y)) as T.
    { intros l1 l2 x y P2 P1. erewrite two_exact; [|exact P2|exact P1|reflexivity|no_log|reflexivity|reflexivity|reflexivity|reflexivity].
      reflexivity. }
    pose proof (any_random 0 1024 e ltac:(lia)) as RL. pose proof (small_random 2 e ltac:(lia)) as RS.
    pose proof (small_random 5 e ltac:(lia)) as R5.
    destruct (plain_random _ RL) as (PL & NL), (plain_random _ RS) as (PS & NS), (plain_random _ R5) as (P5 & N5).
    pose proof (fits_random _ RL) as FL. pose proof (fits_random _ RS) as FS. pose proof (fits_random _ R5) as F5.
    destruct (constant_plain [0] 0 ltac:(cbn; auto)) as (P0 & F0), (constant_plain [255] (-1) ltac:(cbn; auto)) as (PM & _),
      (constant_plain [0; 0; 0; 128; 0] (2 ^ 31) ltac:(cbn; auto)) as (PK & FK).
    assert (0 <= operand (get_random_bytes draw 2 e) < 2 ^ 24) as S24.
    { destruct (next_bytes_low draw 2 B e) as (L & N). now apply two_bytes. }
    unfold binary_test. cbv zeta. cbn [app]. rewrite !samples_same.
    set (large := any_bytes draw copied 0 1024 e) in *. set (small := get_random_bytes draw 2 e) in *. set (five := get_random_bytes draw 5 e) in *.
    rewrite (T _ _ _ _ PL PL), (T _ _ _ _ PS P5), (T _ _ _ _ PS PL), (T _ _ _ _ PL PS), (T _ _ _ _ P0 PL), (T _ _ _ _ PL P0),
      (T _ _ _ _ P0 PS), (T _ _ _ _ PS P0), (T _ _ _ _ PM PL), (T _ _ _ _ PL PM), (T _ _ _ _ PM PS), (T _ _ _ _ PS PM),
      (T _ _ _ _ PK PL), (T _ _ _ _ PL PK), (T _ _ _ _ PK PS), (T _ _ _ _ PS PK).
    rewrite (Z.lxor_comm (-1) (operand large)), (Z.lxor_comm (-1) (operand small)), !Z.lxor_m1_r.
    assert (forall x y, fits x -> fits y -> 0 <= x -> 0 <= y -> if_written (Z.lxor x y) = Ret true) as X.
    { intros. now apply written_ok, fits_text, fits_lxor. }
    assert (0 <= 2 ^ 31) as N31 by discriminate.
    rewrite !X by (assumption || lia). rewrite (written_ok (Z.lnot (operand small))) by now apply lnot_text.
    replace (Z.lnot (operand large)) with (- operand large - 1) by (unfold Z.lnot; lia).
    unfold if_written. destruct (text _); reflexivity.
  Qed.

  (** ** Products *)

  Definition multiplying : list string := ["bMultiply"; "b*"]%string.

  Lemma product_text x y : 0 <= x < 2 ^ bits_max -> 0 <= y < 2 ^ bits_max -> text (x * y) = Ret (x * y).
  Proof.
    intros X Y. apply (text_bound _ (bits_max + bits_max)); [|rewrite bits_max_eq; apply Z.leb_le; reflexivity].
    rewrite Z.pow_add_r by (rewrite ?bits_max_eq; lia). nia.
  Qed.

  Lemma product_two op l1 l2 : In op multiplying -> (random_array l1 \/ l1 = [0]) -> (random_array l2 \/ l2 = [0]) ->
    two (verify fuel c s1 m1 s2 m2 false) op l1 l2 = Ret true.
  Proof.
    intros I H1 H2.
    assert (forall l, random_array l \/ l = [0] -> plain l (operand l) /\ 0 <= operand l < 2 ^ bits_max) as K.
    { intros l [H| ->]; [split; [apply plain_random, H|apply random_bound, H]|].
      split; [apply (constant_plain [0] 0); cbn; auto|]. pose proof pow_max_pos. change (operand [0]) with 0. lia. }
    destruct (K l1 H1) as (P1 & B1), (K l2 H2) as (P2 & B2).
    cbn [In multiplying] in I. destruct I as [<-|[<-|[]]];
      (erewrite two_exact; [|exact P2|exact P1|reflexivity|no_log|reflexivity|reflexivity|reflexivity|reflexivity]);
      apply written_ok, product_text; assumption.
  Qed.

  Lemma square_one op l : In op ["uMultiply"; "u*"]%string -> random_array l ->
    verify fuel c s1 m1 s2 m2 false (print_bytes l ++ op) = Ret true.
  Proof.
    intros I R. pose proof (random_bound l R) as H. destruct (plain_random l R) as (P & _).
    cbn [In] in I. destruct I as [<-|[<-|[]]];
      (erewrite run_plain; [|exact P|reflexivity|no_log]);
      (erewrite verdict_unary; [|reflexivity|reflexivity]); apply same_text_ok, product_text; exact H.
  Qed.

  Local Ltac passing tac :=
    rewrite ?samples_same; apply all_pass_true; repeat (apply Forall_cons; [tac|]); apply Forall_nil.

  Theorem products_pass e :
    let run := verify fuel c s1 m1 s2 m2 false in
    multiply_two_large draw copied run e = Ret true /\ multiply_two_small draw run e = Ret true /\
    multiply_large_small draw copied run e = Ret true /\ multiply_large_zero draw copied run e = Ret true /\
    multiply_small_zero draw run e = Ret true /\
    op_multiply_positive draw copied run e = Ret true /\ op_multiply_zero draw copied run e = Ret true.
  Proof.
    cbv zeta.
    pose proof (any_random 1 100 e ltac:(lia)) as R1. pose proof (any_random 0 100 e ltac:(lia)) as R0.
    pose proof (small_random 2 e ltac:(lia)) as RS.
    assert (In "bMultiply"%string multiplying /\ In "b*"%string multiplying) as (I1 & I2) by (cbn; auto).
    unfold multiply_two_large, multiply_two_small, multiply_large_small, multiply_large_zero, multiply_small_zero,
      op_multiply_positive, op_multiply_zero. cbv zeta.
    assert (forall checks, Forall (fun p => p = Ret true) checks -> swallow (all_pass checks) = Ret true) as W.
    { intros checks H. now rewrite (all_pass_true _ H). }
    repeat split;
      passing ltac:(first
        [apply product_two; auto
        |passing ltac:(first [apply product_two; auto|apply square_one; [cbn; auto|assumption]
          |apply W; repeat (apply Forall_cons; [apply product_two; auto|]); apply Forall_nil])]).
  Qed.

  (** ** Quotients and remainders *)

  Lemma division_two op outs l1 l2 x y : In (op, outs) dividing -> plain l2 x -> plain l1 y -> 0 <= x -> 0 <= y ->
    two (verify fuel c s1 m1 s2 m2 outs) op l1 l2 = by_zero y.
  Proof.
    intros I P2 P1 X Y. pose proof (proj2 (proj2 P2)) as T2.
    assert (y <> 0 -> text (Z.quot x y) = Ret (Z.quot x y)) as TQ.
    { intros N. apply (text_lower _ x T2). rewrite Z.quot_div_nonneg by lia. split; [apply Z.div_pos; lia|].
      apply Z.div_le_upper_bound; nia. }
    assert (y <> 0 -> text (Z.rem x y) = Ret (Z.rem x y)) as TR.
    { intros N. apply (text_lower _ x T2). rewrite Z.rem_mod_nonneg by lia. pose proof (Z.mod_pos_bound x y ltac:(lia)).
      pose proof (Z.mod_le x y ltac:(lia) ltac:(lia)). lia. }
    cbn [In dividing] in I. destruct I as [I|[I|[I|[I|[I|[]]]]]]; injection I as <- <-;
      (erewrite run_two; [|exact P2|exact P1|reflexivity|no_log]).
    1-4: erewrite verdict_binary; [|reflexivity|reflexivity|reflexivity]; unfold divided, by_zero;
      destruct (Z.eqb_spec y 0) as [E0|E0]; [reflexivity|]; cbn [bind]; apply same_text_ok; auto.
    cbn [verdict starts_with Ascii.eqb Bool.eqb].
    change (lookup (lib_binary_table fuel c) "bDivRem") with (Some (divided Z.quot)).
    change (lookup binary_table "bDivRem") with (Some (Z.quot, nonzero)). cbv beta iota. unfold divided, by_zero.
    destruct (Z.eqb_spec y 0) as [E0|E0]; [reflexivity|]. cbn [bind]. rewrite (same_text_ok _ (TQ E0)). cbn [bind negb].
    unfold lib_second_result, second_result. cbn [String.eqb Ascii.eqb Bool.eqb].
    replace (divmod_rem x y =? Z.rem x y) with true.
    { cbn [negb]. now rewrite andb_false_r. }
    symmetry. apply Z.eqb_eq. unfold divmod_rem. cbv zeta.
    replace (x <=? - 2 ^ 31) with false by (symmetry; apply Z.leb_gt; change (2 ^ 31) with 2147483648; lia). reflexivity.
  Qed.

  Theorem division_exact op outs large small : In (op, outs) dividing -> random_array large -> random_array small ->
    let run := verify fuel c s1 m1 s2 m2 outs in
    let both := _ <- by_zero (operand large) ;; by_zero (operand small) in
    two_large run op large = by_zero (operand large) /\
    two_small run op small = by_zero (operand small) /\
    large_and_small run op large small = both /\
    large_and_zero run op large = by_zero (operand large) /\
    small_and_zero run op small = by_zero (operand small) /\
    positive_test run op large small = both /\ negative_test run op large small = both.
  Proof.
    intros I RL RS. cbv zeta. destruct (plain_random _ RL) as (PL & NL), (plain_random _ RS) as (PS & NS).
    destruct (constant_plain [0] 0 ltac:(cbn; auto)) as (P0 & _).
    unfold positive_test, negative_test, two_large, two_small, large_and_small, large_and_zero, small_and_zero. rewrite !samples_same.
    rewrite (division_two op outs large large _ _ I PL PL NL NL), (division_two op outs small small _ _ I PS PS NS NS),
      (division_two op outs large small _ _ I PS PL NS NL), (division_two op outs small large _ _ I PL PS NL NS),
      (division_two op outs large [0] _ _ I P0 PL ltac:(lia) NL), (division_two op outs small [0] _ _ I P0 PS ltac:(lia) NS),
      (division_two op outs [0] large _ _ I PL P0 NL ltac:(lia)), (division_two op outs [0] small _ _ I PS P0 NS ltac:(lia)).
    change (by_zero 0) with (@Throw bool DivideByZero). unfold by_zero.
    destruct (operand large =? 0), (operand small =? 0); repeat split.
  Qed.

  Theorem boundary_passes op outs : In (op, outs) (dividing ++ map (fun op => (op, false)) multiplying) ->
    boundary_test (verify fuel c s1 m1 s2 m2 outs) op = Ret true.
  Proof.
    intros I. unfold boundary_test.
    assert (forall t, In t ["4294967296.000000"; "8589934592.000000"]%string -> verify fuel c s1 m1 s2 m2 outs (t ++ " 2 " ++ op) = Ret true) as K.
    { intros t Ht. rewrite (verify_exact fuel c s1 m1 s2 m2 outs _ Hc).
      - cbn [In app map dividing multiplying] in I; decompose [or] I; clear I; try contradiction;
          match goal with H : _ = _ |- _ => injection H as <- <- end;
          cbn [In] in Ht; destruct Ht as [<-|[<-|[]]]; destruct c as [[] ?]; vm_compute; reflexivity.
      - intros t' H T. cbn [In app map dividing multiplying] in I. decompose [or] I; clear I; try contradiction;
          match goal with H : _ = _ |- _ => injection H as <- <- end;
          cbn [In] in Ht; destruct Ht as [<-|[<-|[]]]; cbv in H; decompose [or] H; try contradiction; subst t';
          destruct T as [T|[T|T]]; discriminate T. }
    apply all_pass_true. repeat (apply Forall_cons; [apply K; cbn; auto|]). apply Forall_nil.
  Qed.
End Run.
