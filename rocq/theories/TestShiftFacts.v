(** How the shift tests of TestShifts.v end. *)
From Coq Require Import String Ascii.
From Verif Require Import Facts Spec SpecPos PosFacts BytesFacts BigInt SpecGcd SpecActual PyRun SpecPyRun SpecOracle SpecReference SpecIdentity
  TestOracle TestCalc TestRandom TestNumbers TestBodies SpecBodies TestShifts SpecShifts
  OracleFacts OracleFacts2 CalcFacts RandomFacts NumberFacts IdentityFacts BodyFacts.

Ltac Zify.zify_post_hook ::= idtac.

(** ** Signed operands *)

Lemma last_flat_map (f : Z -> list Z) l' b : f b <> [] -> last (flat_map f (l' ++ [b])) 0 = last (f b) 0.
Proof.
  intros N. rewrite flat_map_app. cbn [flat_map]. rewrite app_nil_r.
  destruct (exists_last N) as (p & q & ->). rewrite app_assoc, !last_last. reflexivity.
Qed.

Lemma last_blanks l : (128 <= last (blanks_lost l) 0 <-> 128 <= last l 0).
Proof.
  destruct l as [|a l0]; [cbn; lia|]. destruct (exists_last (l := a :: l0) ltac:(discriminate)) as (l' & b & ->).
  unfold blanks_lost. rewrite last_flat_map by (destruct (b =? 32); discriminate). rewrite last_last.
  destruct (Z.eqb_spec b 32); subst; cbn [last]; lia.
Qed.

Lemma operand_signed l : digits 256 l -> l <> [] ->
  (0 <= complement 256 l <-> 0 <= operand l) /\ Z.abs (operand l) <= 2 ^ (16 * Z.of_nat (List.length l)).
Proof.
  intros D N. pose proof (blanks_lost_digits l D) as D'.
  assert (blanks_lost l <> []) as N' by (intros H; apply N; now apply blanks_lost_nil).
  pose proof (enc_sign l _ (conj D (conj N eq_refl))) as S.
  pose proof (enc_sign (blanks_lost l) _ (conj D' (conj N' eq_refl))) as S'. pose proof (last_blanks l) as LB.
  unfold operand. split; [lia|].
  pose proof (pos_bound 256 ltac:(lia) _ D') as B. unfold bp in B.
  assert (256 ^ Z.of_nat (List.length (blanks_lost l)) <= 2 ^ (16 * Z.of_nat (List.length l))) as P.
  { change 256 with (2 ^ 8). rewrite <- Z.pow_mul_r by lia. apply Z.pow_le_mono_r; [lia|].
    pose proof (blanks_lost_length l). lia. }
  clear S S' LB. unfold complement. destruct (_ <=? _); lia.
Qed.

Lemma positive_random {E} (draw : E -> Z -> Z -> Z * E) n e : n <> O -> (n <= 1024)%nat ->
  exists l, positive_bytes draw n e = Ret l /\ List.length l = n /\ plain l (operand l) /\ 0 <= operand l <= 2 ^ (16 * Z.of_nat n).
Proof.
  intros N H. destruct (proj2 (signed_bytes draw n e) N) as ((l & -> & L & D & P) & _). exists l. split; [reflexivity|]. split; [exact L|].
  assert (l <> []) as NE by (intros ->; cbn in L; lia). destruct (operand_signed l D NE) as (S & A). rewrite L in A.
  assert (0 <= operand l <= 2 ^ (16 * Z.of_nat n)) as R by lia. split; [|exact R].
  split; [exact D|]. split; [reflexivity|]. apply (text_bound _ (16 * Z.of_nat n + 1)); [|change (2 ^ 32) with 4294967296; lia].
  rewrite Z.pow_add_r by lia. change (2 ^ 1) with 2. pose proof (Z.pow_pos_nonneg 2 (16 * Z.of_nat n)). lia.
Qed.

Lemma negative_random {E} (draw : E -> Z -> Z -> Z * E) n e : n <> O ->
  exists l, negative_bytes draw n e = Ret l /\ List.length l = n /\ digits 256 l /\ complement 256 l < 0 /\
    - 2 ^ (16 * Z.of_nat n) <= operand l < 0.
Proof.
  intros N. destruct (proj2 (signed_bytes draw n e) N) as (_ & (l & -> & L & D & P)). exists l. split; [reflexivity|]. split; [exact L|].
  assert (l <> []) as NE by (intros ->; cbn in L; lia). destruct (operand_signed l D NE) as (S & A). rewrite L in A.
  split; [exact D|]. lia.
Qed.

(** ** One shift *)

Lemma text_near v : - 2 ^ 31 < v < 2 ^ 31 -> text v = Ret v.
Proof.
  intros H. change (2 ^ 31) with 2147483648 in H. unfold text.
  replace (v <=? - 2 ^ 31) with false by (symmetry; apply Z.leb_gt; change (2 ^ 31) with 2147483648; lia). cbn [andb].
  replace (214748364 <? limbs_of v) with false; [reflexivity|]. symmetry. apply Z.ltb_ge. unfold limbs_of.
  assert (Z.log2 (Z.abs v) <= 31) by (change 31 with (Z.log2 (2 ^ 31)); apply Z.log2_le_mono; change (2 ^ 31) with 2147483648; lia).
  pose proof (Z.log2_nonneg (Z.abs v)). rewrite Z.div_small by lia. lia.
Qed.

Lemma shift_nonneg c x n : 0 <= x < 2 ^ bits_max -> Z.abs n <= 2 ^ 30 -> shift_ends c x n = Ret true.
Proof.
  intros X N. unfold shift_ends.
  assert (text x = Ret x) as -> by (apply (text_bound x bits_max); [exact X|rewrite bits_max_eq; apply Z.leb_le; reflexivity]).
  cbn [bind].
  assert (shift_by c x n = Ret (Z.shiftl x n)) as ->.
  { unfold shift_by, right_shift. destruct (Z.leb_spec 0 n); [now rewrite Z.shiftl_mul_pow2|].
    destruct (Z.leb_spec 0 x); [|lia]. rewrite <- Z.shiftr_div_pow2 by lia. now rewrite <- Z.shiftl_opp_r, Z.opp_involutive. }
  cbn [bind]. apply same_text_ok. change (2 ^ 30) with 1073741824 in N.
  apply (text_bound _ (bits_max + 1073741824)); [|rewrite bits_max_eq; apply Z.leb_le; reflexivity].
  split; [apply Z.shiftl_nonneg; lia|]. pose proof bits_max_pos.
  destruct (Z.leb_spec 0 n).
  - rewrite Z.shiftl_mul_pow2 by lia. rewrite Z.pow_add_r by lia.
    apply (Z.lt_le_trans _ (2 ^ bits_max * 2 ^ n)); [apply Z.mul_lt_mono_pos_r; [apply Z.pow_pos_nonneg; lia|lia]|].
    apply Z.mul_le_mono_nonneg_l; [lia|]. apply Z.pow_le_mono_r; lia.
  - replace n with (- (- n)) by lia. rewrite Z.shiftl_opp_r, Z.shiftr_div_pow2 by lia.
    apply (Z.le_lt_trans _ x).
    + apply Z.div_le_upper_bound; [apply Z.pow_pos_nonneg; lia|]. pose proof (Z.pow_pos_nonneg 2 (- n)). nia.
    + apply (Z.lt_le_trans _ _ _ (proj2 X)). apply Z.pow_le_mono_r; lia.
Qed.

Section Run.
  Context (fuel : nat) (c : cfg) (s1 m1 : string -> bigint -> outcome bigint) (s2 m2 : string -> bigint -> bigint -> outcome bigint) (Hc : strict c = false).
  Notation run := (verify fuel c s1 m1 s2 m2 false).

  Lemma same_self v : same_text v v = (_ <- text v ;; Ret true).
  Proof. exact (written v). Qed.

  (** Two operands, the second of which may be impossible to write. *)
  Lemma run_written op l1 l2 y : plain l1 y -> digits 256 l2 -> tokens op = [op] -> ~ takes_log op ->
    two run op l1 l2 = (_ <- text (operand l2) ;; verdict fuel c false [op] None [operand l2; y]).
  Proof.
    intros P1 D2 T N. unfold two. rewrite (verify_exact fuel c s1 m1 s2 m2 false _ Hc).
    - rewrite (verdict_plain fuel c false l1 y _ [] P1), (verdict_print fuel c false l2 op [y] D2). cbv zeta. fold (operand l2).
      rewrite same_self, T. destruct (text (operand l2)); reflexivity.
    - intros t H L. apply (print_no_log _ _ _ (proj1 P1) L), (print_no_log _ _ _ D2 L) in H.
      rewrite T in H. destruct H as [<-|[]]. contradiction.
  Qed.

  Lemma count_int n : - 2 ^ 31 < n < 2 ^ 31 -> big_count c n = Ret n.
  Proof.
    intros H. unfold big_count. rewrite Hc. cbn [andb].
    destruct (Z.leb_spec (- 2 ^ 31) n); [|lia]. destruct (Z.ltb_spec n (2 ^ 31)); [reflexivity|lia].
  Qed.

  Local Ltac no_log := let T := fresh in intros T; destruct T as [T|[T|T]]; discriminate T.

  (** [sign] tells the operators apart. *)
  Definition shift_signs : list (string * Z) := [("b<<"%string, 1); ("b>>"%string, -1)].

  Lemma shift_two op sign l1 l2 n : In (op, sign) shift_signs -> plain l1 n -> - 2 ^ 31 < n < 2 ^ 31 -> digits 256 l2 ->
    two run op l1 l2 = shift_ends c (operand l2) (sign * n).
  Proof.
    intros I P H D. cbn [In shift_signs] in I. destruct I as [I|[I|[]]]; injection I as <- <-.
    - rewrite (run_written "b<<" l1 l2 n P D eq_refl ltac:(no_log)). unfold shift_ends.
      destruct (text (operand l2)) eqn:T; cbn [bind]; auto.
      erewrite verdict_binary; [|reflexivity|reflexivity|reflexivity]. cbv beta. rewrite (count_int n H). cbn [bind].
      now rewrite Z.mul_1_l.
    - rewrite (run_written "b>>" l1 l2 n P D eq_refl ltac:(no_log)). unfold shift_ends.
      destruct (text (operand l2)) eqn:T; cbn [bind]; auto.
      erewrite verdict_binary; [|reflexivity|reflexivity|reflexivity]. cbv beta. rewrite (count_int n H). cbn [bind].
      replace (-1 * n) with (- n) by lia. now rewrite Z.shiftl_opp_r.
  Qed.

  (** ** The loops *)

  Context {E : Type} (draw : E -> Z -> Z -> Z * E) (copied : bool) (B : in_bounds draw).

  Lemma sampling_true body next : (forall e : E, body e = Ret (true, next e)) ->
    forall n e, sampling n body e = Ret (true, Nat.iter n next e).
  Proof.
    intros H. induction n as [|n IH]; intros e; [reflexivity|]. cbn [sampling]. rewrite H. cbn [bind]. rewrite IH. cbn [bind].
    do 2 f_equal. clear. induction n as [|n IH]; [reflexivity|]. cbn [Nat.iter nat_rect] in *. unfold Nat.iter in *. cbn [nat_rect]. now rewrite IH.
  Qed.

  Lemma loops_cons body bodies next : (forall e : E, body e = Ret (true, next e)) ->
    forall e, loops (body :: bodies) e = loops bodies (Nat.iter 10 next e).
  Proof.
    intros H e. cbn [loops]. rewrite (sampling_true _ _ H). cbn [bind]. destruct (loops bodies _) as [[]| | | |]; reflexivity.
  Qed.

  (** A first operand that cannot be negative; a second operand that fits. *)
  Definition first_ok (first : E -> outcome (list Z)) : Prop :=
    forall e, exists l, first e = Ret l /\ digits 256 l /\ 0 <= operand l < 2 ^ bits_max.
  Definition second_ok (second : E -> outcome (list Z * E)) (next : E -> E) : Prop :=
    forall e, exists l, second e = Ret (l, next e) /\ digits 256 l /\ Z.abs (operand l) <= 2 ^ 30.

  Lemma near_plain l : digits 256 l -> Z.abs (operand l) <= 2 ^ 30 -> plain l (operand l).
  Proof.
    intros D H. split; [exact D|]. split; [reflexivity|]. apply text_near. change (2 ^ 30) with 1073741824 in H. change (2 ^ 31) with 2147483648. lia.
  Qed.

  Lemma sample_true op sign first second next : In (op, sign) shift_signs -> first_ok first -> second_ok second next ->
    forall e, shift_sample run op first second e = Ret (true, next e).
  Proof.
    intros I F S e. unfold shift_sample. destruct (F e) as (l2 & -> & D2 & X), (S e) as (l1 & -> & D1 & N). cbn [bind].
    rewrite (shift_two op sign l1 l2 (operand l1) I (near_plain l1 D1 N)); [|change (2 ^ 30) with 1073741824 in N; change (2 ^ 31) with 2147483648; lia|exact D2].
    rewrite shift_nonneg; [reflexivity|exact X|]. cbn [In shift_signs] in I. destruct I as [I|[I|[]]]; injection I as <- <-; lia.
  Qed.

  Lemma random_first get : (forall e, random_array (get e)) -> first_ok (fun e => Ret (get e)).
  Proof.
    intros H e. exists (get e). split; [reflexivity|]. split; [apply (proj1 (plain_random _ (H e)))|apply random_bound, H].
  Qed.

  Lemma positive_first n : n <> O -> (n <= 1024)%nat -> first_ok (positive_bytes draw n).
  Proof.
    intros N H e. destruct (positive_random draw n e N H) as (l & R & _ & P & X). exists l. split; [exact R|]. split; [apply P|].
    split; [lia|]. apply (Z.le_lt_trans _ _ _ (proj2 X)). apply Z.pow_lt_mono_r; [lia|rewrite bits_max_eq; lia|rewrite bits_max_eq; lia].
  Qed.

  Lemma two_signed l : digits 256 l -> List.length l = 2%nat -> Z.abs (operand l) <= 2 ^ 24.
  Proof.
    intros L N. destruct l as [|a [|b [|? ?]]]; try discriminate N. inversion L as [|? ? Ha L']; subst. inversion L' as [|? ? Hb _]; subst.
    unfold operand, blanks_lost. cbn [flat_map]. change (2 ^ 24) with 16777216.
    destruct (Z.eqb_spec a 32), (Z.eqb_spec b 32); subst; cbn [app]; unfold complement; cbn [positional last List.length];
      change (Z.of_nat 4) with 4; change (Z.of_nat 3) with 3; change (Z.of_nat 2) with 2;
      change (256 ^ 4) with 4294967296; change (256 ^ 3) with 16777216; change (256 ^ 2) with 65536;
      match goal with |- context [?p <=? ?q] => destruct (Z.leb_spec p q) end; lia.
  Qed.

  Lemma byte_signed b : 0 <= b < 256 -> Z.abs (operand [b]) <= 255.
  Proof.
    intros H. unfold operand, blanks_lost. cbn [flat_map].
    destruct (Z.eqb_spec b 32); subst; cbn [app]; unfold complement; cbn [positional last List.length];
      change (Z.of_nat 2) with 2; change (Z.of_nat 1) with 1; change (256 ^ 2) with 65536; change (256 ^ 1) with 256;
      match goal with |- context [?p <=? ?q] => destruct (Z.leb_spec p q) end; lia.
  Qed.

  Lemma pos_second : second_ok (from_copy (positive_bytes draw 2)) (fun e => e).
  Proof.
    intros e. unfold from_copy. destruct (positive_random draw 2 e ltac:(lia) ltac:(lia)) as (l & -> & L & P & _). cbn [bind].
    exists l. split; [reflexivity|]. split; [apply P|]. pose proof (two_signed l (proj1 P) L).
    change (2 ^ 24) with 16777216 in *. change (2 ^ 30) with 1073741824. lia.
  Qed.
  Lemma neg_second : second_ok (from_copy (negative_bytes draw 2)) (fun e => e).
  Proof.
    intros e. unfold from_copy. destruct (negative_random draw 2 e ltac:(lia)) as (l & -> & L & D & _). cbn [bind].
    exists l. split; [reflexivity|]. split; [exact D|]. pose proof (two_signed l D L).
    change (2 ^ 24) with 16777216 in *. change (2 ^ 30) with 1073741824. lia.
  Qed.
  Lemma fixed_second b : 0 <= b < 256 -> second_ok (fixed_byte b) (fun e => e).
  Proof.
    intros H e. exists [b]. split; [reflexivity|]. split; [now constructor|]. pose proof (byte_signed b H). change (2 ^ 30) with 1073741824. lia.
  Qed.
  Lemma byte_second lo hi : second_ok (drawn_byte draw lo hi) (fun e => snd (draw e lo hi)).
  Proof.
    intros e. unfold drawn_byte. destruct (draw e lo hi) as (v & e'). cbn [snd]. exists [u8 v]. split; [reflexivity|].
    assert (0 <= u8 v < 256) as H by (unfold u8; change (2 ^ 8) with 256; apply Z.mod_pos_bound; lia).
    split; [now constructor|]. pose proof (byte_signed _ H). change (2 ^ 30) with 1073741824. lia.
  Qed.

  (** The bounds of the last two loops. *)
  Definition shift_tests : list (string * (Z * (Z * Z))) := [("b<<"%string, (1, (-1000, -800))); ("b>>"%string, (-1, (800, 1000)))].

  Lemma ints_all (P : Z -> bool) lo hi : lo <= hi -> forallb P (map (fun i => lo + Z.of_nat i) (seq 0 (Z.to_nat (hi - lo + 1)))) = true ->
    forall v, lo <= v <= hi -> P v = true.
  Proof.
    intros H F v Hv. eapply forallb_forall in F; [exact F|]. apply in_map_iff. exists (Z.to_nat (v - lo)).
    split; [lia|]. apply in_seq. lia.
  Qed.

  Lemma int_second_value op sign lo hi v : In (op, (sign, (lo, hi))) shift_tests -> lo <= v <= hi ->
    digits 256 (int_bytes v) /\ Z.abs (operand (int_bytes v)) <= 2 ^ 30 /\ sign * operand (int_bytes v) <= -800.
  Proof.
    intros I Hv.
    assert ((forallb (fun b => (0 <=? b) && (b <? 256)) (int_bytes v) && (Z.abs (operand (int_bytes v)) <=? 2 ^ 30) &&
      (sign * operand (int_bytes v) <=? -800)) = true) as H.
    { cbn [In shift_tests] in I. destruct I as [I|[I|[]]]; injection I as <- <- <- <-; revert v Hv;
        (apply (ints_all (fun v => (forallb (fun b => (0 <=? b) && (b <? 256)) (int_bytes v) && (Z.abs (operand (int_bytes v)) <=? 2 ^ 30) &&
           (_ * operand (int_bytes v) <=? -800))));
         [lia|vm_compute; reflexivity]). }
    apply andb_prop in H as (H & H3). apply andb_prop in H as (H1 & H2). apply Z.leb_le in H2, H3. split; [|now split].
    apply Forall_forall. intros b J. eapply forallb_forall in H1; [|exact J]. apply andb_prop in H1 as (P & Q).
    apply Z.leb_le in P. apply Z.ltb_lt in Q. lia.
  Qed.

  Lemma int_second op sign lo hi : In (op, (sign, (lo, hi))) shift_tests -> second_ok (drawn_int draw lo hi) (fun e => snd (draw e lo hi)).
  Proof.
    intros I e. assert (lo <= hi) as LH by (cbn [In shift_tests] in I; destruct I as [I|[I|[]]]; injection I as <- <- <- <-; lia).
    unfold drawn_int. pose proof (B e lo hi LH) as H. destruct (draw e lo hi) as (v & e'). cbn [fst snd] in *.
    exists (int_bytes v). split; [reflexivity|]. destruct (int_second_value op sign lo hi v I H) as (D & A & _). now split.
  Qed.

  Lemma shift_loops_true op sign first : In (op, sign) shift_signs -> first_ok first ->
    forall rest e, loops (shift_loops draw run op first ++ rest) e = loops rest (after draw 10 (-31) 0 (after draw 10 1 32 e)).
  Proof.
    intros I F rest e. unfold shift_loops. cbn [app].
    rewrite (loops_cons _ _ _ (sample_true op sign first _ _ I F pos_second)).
    rewrite (loops_cons _ _ _ (sample_true op sign first _ _ I F (byte_second 1 32))).
    rewrite (loops_cons _ _ _ (sample_true op sign first _ _ I F (fixed_second 32 ltac:(lia)))).
    rewrite (loops_cons _ _ _ (sample_true op sign first _ _ I F neg_second)).
    rewrite (loops_cons _ _ _ (sample_true op sign first _ _ I F (byte_second (-31) 0))).
    rewrite (loops_cons _ _ _ (sample_true op sign first _ _ I F (fixed_second 224 ltac:(lia)))).
    rewrite (loops_cons _ _ _ (sample_true op sign first _ _ I F (fixed_second 0 ltac:(lia)))).
    reflexivity.
  Qed.

  Lemma negative_sampling op sign lo hi : In (op, (sign, (lo, hi))) shift_tests -> forall n e,
    (r <- sampling n (shift_sample run op (negative_bytes draw 100) (drawn_int draw lo hi)) e ;; Ret (fst r)) =
    negative_loop draw c sign lo hi n e.
  Proof.
    intros I. assert (lo <= hi) as LH by (cbn [In shift_tests] in I; destruct I as [I|[I|[]]]; injection I as <- <- <- <-; lia).
    assert (In (op, sign) shift_signs) as J by (cbn [In shift_tests] in I; destruct I as [I|[I|[]]]; injection I as <- <- <- <-; cbn; auto).
    induction n as [|n IH]; intros e; [reflexivity|]. cbn [sampling negative_loop]. unfold shift_sample at 1, drawn_int at 1.
    destruct (negative_random draw 100 e ltac:(discriminate)) as (l & -> & L & D & _). cbn [bind].
    pose proof (B e lo hi LH) as H. destruct (draw e lo hi) as (v & e'). cbn [fst snd bind] in *.
    destruct (int_second_value op sign lo hi v I H) as (D1 & A & _).
    rewrite (shift_two op sign (int_bytes v) l (operand (int_bytes v)) J (near_plain _ D1 A)); [|change (2 ^ 30) with 1073741824 in A; change (2 ^ 31) with 2147483648; lia|exact D].
    destruct (shift_ends c (operand l) _); cbn [bind]; auto. rewrite <- IH.
    destruct (sampling n _ e') as [(ok & e2)| | | |]; reflexivity.
  Qed.

  Lemma all_loops op sign lo hi e : In (op, (sign, (lo, hi))) shift_tests ->
    (r <- loops (all_shift_loops draw copied run op lo hi) e ;; Ret (fst r)) = negative_loop draw c sign lo hi 10 (engine_then draw lo hi e).
  Proof.
    intros I.
    assert (In (op, sign) shift_signs) as J by (cbn [In shift_tests] in I; destruct I as [I|[I|[]]]; injection I as <- <- <- <-; cbn; auto).
    unfold all_shift_loops.
    rewrite (shift_loops_true op sign _ J (random_first _ (fun e => any_random draw copied B 0 1024 e ltac:(lia)))).
    rewrite (shift_loops_true op sign _ J (random_first _ (fun e => small_random draw B 2 e ltac:(lia)))).
    rewrite (loops_cons _ _ _ (sample_true op sign _ _ _ J (positive_first 100 ltac:(discriminate) ltac:(lia)) (int_second op sign lo hi I))).
    rewrite <- (negative_sampling op sign lo hi I). unfold engine_then, after. cbn [loops].
    destruct (sampling 10 _ _) as [(ok & e2)| | | |]; cbn [bind fst]; auto. now rewrite andb_true_r.
  Qed.

  Theorem shift_tests_exact e :
    shift_left_test draw copied run e = negative_loop draw c 1 (-1000) (-800) 10 (engine_then draw (-1000) (-800) e) /\
    shift_right_test draw copied run e = negative_loop draw c (-1) 800 1000 10 (engine_then draw 800 1000 e).
  Proof.
    split.
    - rewrite <- (all_loops "b<<" 1 (-1000) (-800) e ltac:(cbn; auto)). unfold shift_left_test.
      rewrite (shift_two "b<<" 1 [2] [204; 91; 0; 245; 53; 86; 160; 202] 2 (or_introl eq_refl)).
      + replace (shift_ends c _ _) with (Ret true).
        * cbn [bind]. destruct (loops _ e) as [[]| | | |]; reflexivity.
        * unfold shift_ends. vm_compute. reflexivity.
      + split; [repeat constructor; lia|]. split; reflexivity.
      + change (2 ^ 31) with 2147483648. lia.
      + repeat constructor; lia.
    - rewrite <- (all_loops "b>>" (-1) 800 1000 e ltac:(cbn; auto)). unfold shift_right_test.
      destruct (loops _ e) as [[]| | | |]; reflexivity.
  Qed.

  (** Without a blank byte the result is -1 and the sample passes if the operand can be written. *)
  Lemma shift_to_minus_one x n : - 2 ^ 799 <= x < 0 -> n <= -800 -> shift_ends c x n = if_written x.
  Proof.
    intros X N. unfold shift_ends, if_written. destruct (text x); cbn [bind]; auto.
    assert (limbs_of x <= 25) as L.
    { unfold limbs_of. assert (Z.log2 (Z.abs x) <= 799).
      { rewrite <- (Z.log2_pow2 799) by lia. apply Z.log2_le_mono. lia. }
      assert (Z.log2 (Z.abs x) / 32 < 25); [|lia]. apply Z.div_lt_upper_bound; lia. }
    assert (0 < limbs_of x) as L0 by (unfold limbs_of; pose proof (Z.log2_nonneg (Z.abs x)); pose proof (Z.div_pos (Z.log2 (Z.abs x)) 32); lia).
    assert (shift_by c x n = Ret (-1)) as ->.
    { unfold shift_by, right_shift. destruct (Z.leb_spec 0 n); [lia|]. destruct (Z.leb_spec 0 x); [lia|]. rewrite Hc. cbn [andb].
      replace (int_of (32 * limbs_of x)) with (32 * limbs_of x).
      - destruct (Z.leb_spec (32 * limbs_of x) (- n)); [reflexivity|lia].
      - unfold int_of. change (2 ^ 31) with 2147483648. change (2 ^ 32) with 4294967296. rewrite Z.mod_small; lia. }
    cbn [bind]. replace (Z.shiftl x n) with (-1); [reflexivity|].
    replace n with (- (- n)) by lia. rewrite Z.shiftl_opp_r, Z.shiftr_div_pow2 by lia.
    assert (2 ^ 799 <= 2 ^ (- n)) by (apply Z.pow_le_mono_r; lia).
    apply (Z.div_unique_pos x (2 ^ (- n)) (-1) (x + 2 ^ (- n))); lia.
  Qed.
End Run.
