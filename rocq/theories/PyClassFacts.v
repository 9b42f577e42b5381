(** Lemmas quoted by PropPyClass.v. *)
From Coq Require Import String Ascii.
From Verif Require Import Facts Spec AddSubFacts SpecFacts BigIntFacts SpecApi SpecPos SpecText SpecDouble SpecGcd SpecPy BigInt BigIntText BigIntBytes.
From Verif Require Import CompareFacts PosFacts WordFacts TextFacts DoubleFacts BytesFacts ToBytesFacts PyBind PyFacts ApiMem SpecRun SpecActual PyRun SpecPyRun PyRunFacts PyClass SpecPyClass BitLengthFacts.
Ltac Zify.zify_post_hook ::= idtac.

(** ** Objects made from results *)

Lemma exact_dbl_of d z : dbl_exact d z -> (z = 0 -> d = 0) -> d = dbl_of z.
Proof.
  intros E H0. unfold dbl_of. destruct (Z.eqb_spec z 0) as [->|N]; [now apply H0|].
  destruct (exact_fields d z E N) as (X & G & M & L). destruct E as (P & _).
  pose proof (pattern_fields d P) as (_ & _ & D). cbv zeta. rewrite L.
  replace (52 - (52 + dbl_scale d)) with (- dbl_scale d) by ring. replace (52 + dbl_scale d - 52) with (dbl_scale d) by ring.
  rewrite <- M, Z.div_mul by (apply Z.pow_nonzero; lia).
  unfold dbl_scale, dbl_significand in *. rewrite (proj2 (Z.eqb_neq _ _) X) in *. rewrite G in D.
  rewrite D at 1. destruct (z <? 0); lia.
Qed.

Lemma low_bytes_unique l z :
  digits 256 l -> positional 256 l = z mod p8 (List.length l) -> l = low_bytes (List.length l) z.
Proof.
  intros D E. apply (positional_inj 256); [lia|exact D|apply low_bytes_digits|now rewrite low_bytes_length|]. now rewrite low_bytes_pos.
Qed.

Lemma complement_mod l : digits 256 l -> positional 256 l = complement 256 l mod p8 (List.length l).
Proof.
  intros D. unfold complement. pose proof (pos_bound 256 ltac:(lia) l D) as B. unfold bp. destruct (256 <=? 2 * last l 0).
  - replace (positional 256 l - 256 ^ Z.of_nat (List.length l)) with (positional 256 l + -1 * 256 ^ Z.of_nat (List.length l)) by ring.
    rewrite Z.mod_add by (apply Z.pow_nonzero; lia). now rewrite Z.mod_small.
  - rewrite Z.sub_0_r. now rewrite Z.mod_small.
Qed.

Lemma le_order_involutive be (l : list Z) : le_order be (le_order be l) = l.
Proof. destruct be; [apply rev_involutive|reflexivity]. Qed.
Lemma le_order_length be (l : list Z) : List.length (le_order be l) = List.length l.
Proof. destruct be; [apply rev_length|reflexivity]. Qed.
Lemma le_order_digits be l : digits 256 l -> digits 256 (le_order be l).
Proof. destruct be; [apply Forall_rev|auto]. Qed.

Lemma log2_lt_iff m k : 0 <= m -> 0 < k -> Z.log2 m < k <-> m < 2 ^ k.
Proof.
  intros Hm Hk. destruct (Z.eq_dec m 0) as [->|N].
  - change (Z.log2 0) with 0. pose proof (Z.pow_pos_nonneg 2 k ltac:(lia) ltac:(lia)). lia.
  - split; intros H; [apply Z.log2_lt_pow2|apply Z.log2_lt_pow2]; lia.
Qed.

Lemma holds_count u n z : (1 <= n)%nat -> (u = true -> 0 <= z) ->
  ToBytesFacts.holds u n z <-> byte_count u z <= Z.of_nat n.
Proof.
  intros Hn Hu. unfold ToBytesFacts.holds, byte_count, cfits. fold (p8 n). rewrite !p8_pow2. destruct u.
  - specialize (Hu eq_refl). rewrite <- (log2_lt_iff z (8 * Z.of_nat n)) by lia.
    pose proof (Z.div_mod (Z.log2 z) 8 ltac:(lia)). pose proof (Z.mod_pos_bound (Z.log2 z) 8 ltac:(lia)). lia.
  - set (m := if z <? 0 then - z - 1 else z). assert (0 <= m) as Hm by (unfold m; destruct (Z.ltb_spec z 0); lia).
    assert (2 ^ (8 * Z.of_nat n) = 2 * 2 ^ (8 * Z.of_nat n - 1)) as E.
    { rewrite <- Z.pow_succ_r by lia. f_equal. lia. }
    rewrite E. pose proof (log2_lt_iff m (8 * Z.of_nat n - 1) Hm ltac:(lia)) as L.
    assert (- (2 * 2 ^ (8 * Z.of_nat n - 1)) <= 2 * z < 2 * 2 ^ (8 * Z.of_nat n - 1) <-> m < 2 ^ (8 * Z.of_nat n - 1)) as ->
      by (unfold m; destruct (Z.ltb_spec z 0); lia).
    rewrite <- L. pose proof (Z.div_mod (Z.log2 m + 1) 8 ltac:(lia)). pose proof (Z.mod_pos_bound (Z.log2 m + 1) 8 ltac:(lia)). lia.
Qed.

Lemma byte_count_pos u z : 1 <= byte_count u z.
Proof.
  unfold byte_count. destruct u.
  - pose proof (Z.div_pos (Z.log2 z) 8 (Z.log2_nonneg z)). lia.
  - set (m := if z <? 0 then - z - 1 else z). pose proof (Z.log2_nonneg m). pose proof (Z.div_pos (Z.log2 m + 1) 8). lia.
Qed.

Lemma encoding_value u be z : (u = true -> 0 <= z) ->
  digits 256 (encoding u be z) /\ bytes_value u be (encoding u be z) = z /\ List.length (encoding u be z) = Z.to_nat (byte_count u z).
Proof.
  intros Hu. unfold encoding, bytes_value. rewrite le_order_involutive, le_order_length, low_bytes_length.
  pose proof (byte_count_pos u z).
  assert (ToBytesFacts.holds u (Z.to_nat (byte_count u z)) z) as Hh by (apply holds_count; auto; lia).
  split; [apply le_order_digits, low_bytes_digits|]. split; [|reflexivity].
  destruct u; [exact (low_bytes_unsigned _ _ Hh)|exact (low_bytes_signed _ _ Hh)].
Qed.

Lemma bytes_holds u be l z : digits 256 l -> bytes_value u be l = z -> ToBytesFacts.holds u (List.length l) z.
Proof.
  intros D <-. unfold bytes_value, ToBytesFacts.holds. rewrite <- (le_order_length be l). apply (le_order_digits be) in D.
  destruct u; [exact (pos_bound 256 ltac:(lia) _ D)|exact (complement_range 256 B8_ok B8_even _ D)].
Qed.

Lemma shortest_unique u be l z :
  digits 256 l -> bytes_value u be l = z -> l <> [] ->
  (forall l', digits 256 l' -> bytes_value u be l' = z -> l' <> [] -> (List.length l <= List.length l')%nat) ->
  l = encoding u be z.
Proof.
  intros D V N M.
  assert (u = true -> 0 <= z) as Hu.
  { intros ->. rewrite <- V. unfold bytes_value. exact (proj1 (pos_bound 256 ltac:(lia) _ (le_order_digits be l D))). }
  destruct (encoding_value u be z Hu) as (E1 & E2 & E3). pose proof (byte_count_pos u z).
  assert ((List.length l <= Z.to_nat (byte_count u z))%nat) as L1.
  { rewrite <- E3. apply M; auto. intros C. rewrite C in E3. cbn [List.length] in E3. lia. }
  assert (byte_count u z <= Z.of_nat (List.length l)) as L2.
  { apply holds_count; [destruct l; [congruence|cbn [List.length]; lia]|exact Hu|exact (bytes_holds u be l z D V)]. }
  assert (List.length l = Z.to_nat (byte_count u z)) as L by lia.
  rewrite <- (le_order_involutive be l). unfold encoding. f_equal. rewrite <- L, <- (le_order_length be l).
  pose proof (le_order_digits be l D) as D'. apply low_bytes_unique; [exact D'|].
  unfold bytes_value in V. destruct u.
  - rewrite V. symmetry. apply Z.mod_small. rewrite <- V. exact (pos_bound 256 ltac:(lia) _ D').
  - rewrite <- V. now apply complement_mod.
Qed.

Lemma numeral_decimal s z : numeral s z -> s = decimal_text z.
Proof. intros H. exact (numeral_unique s _ z H (std_to_string_numeral z)). Qed.

Lemma digits_length t z : all_digits t -> t <> EmptyString -> decimal t = Z.abs z ->
  (forall u, t = String "0"%char u -> u = EmptyString) -> Z.of_nat (String.length t) = digits_of (Z.abs z).
Proof.
  intros A N D Z0. destruct (Z.eq_dec z 0) as [->|NZ].
  - assert (numeral t 0) as H by (exists t; repeat split; auto). 
    rewrite (numeral_unique t "0"%string 0 H (std_to_string_numeral 0)). reflexivity.
  - pose proof (decimal_width_length t A N Z0 ltac:(lia)) as W. pose proof (digits_of_width (Z.abs z) ltac:(lia)) as W'.
    rewrite D in W. apply (width_unique (Z.abs z)); [|exact W'].
    split; [destruct t; [congruence|cbn [String.length]; lia]|]. now rewrite Z.abs_involutive.
Qed.

Lemma int_of_str_exact lim s z : numeral s z ->
  int_of_str lim s = if too_long lim z then Throw InvalidArgument else Ret z.
Proof.
  intros H. pose proof (numeral_parse s z H) as P. destruct H as (t & E & A & N & D & Z0).
  unfold int_of_str, too_long. rewrite P. rewrite <- (digits_length t z A N D Z0). 
  assert ((match s with String "-"%char t => t | _ => s end) = t) as ->; [|reflexivity].
  subst s. destruct (z <? 0); cbn [String.append]; [reflexivity|].
  destruct t as [|ch t]; [congruence|]. unfold all_digits in A. cbn [leading_digits String.length] in A.
  destruct (digit_of ch) as [k|] eqn:K; [|cbn [List.length] in A; lia].
  destruct ch as [[] [] [] [] [] [] [] []]; try reflexivity. discriminate K.
Qed.

Lemma to_object_exact lim r v : shows r v ->
  match object_of lim v with
  | Ret v => exists o, to_object lim r = Ret o /\ are_values o v
  | Throw e => to_object lim r = Throw e
  | _ => False
  end.
Proof.
  destruct v, r; cbn [shows]; try easy; cbn [object_of to_object].
  - intros H. eexists; split; [reflexivity|exact H].
  - intros ->. eexists; split; reflexivity.
  - intros ->. eexists; split; reflexivity.
  - intros (H & K). eexists; split; [reflexivity|split; assumption].
  - intros (H & K). rewrite (int_of_str_exact lim _ _ H), (int_of_str_exact lim _ _ K).
    destruct (too_long lim q); cbn [orb bind]; [reflexivity|]. destruct (too_long lim r0); cbn [bind]; [reflexivity|].
    eexists; split; [reflexivity|split; reflexivity].
  - intros H. eexists; split; [reflexivity|]. cbn. f_equal. now apply numeral_decimal.
  - intros (E & H). eexists; split; [reflexivity|]. cbn. f_equal. now apply exact_dbl_of.
  - intros (D & V & N & M). eexists; split; [reflexivity|]. cbn. change (bytes_holding l = bytes_holding (encoding u be z)). f_equal. now apply (shortest_unique u be l z).
Qed.

Lemma wrap_exact lim o v : yields o v ->
  agrees (Some (r <- o ;; to_object lim r)) (Some (r <- v ;; object_of lim r)).
Proof.
  destruct v as [v| | | |]; cbn [yields bind]; try (intros ->; reflexivity).
  intros (r & -> & H). cbn [bind]. pose proof (to_object_exact lim r v H) as T.
  destruct (object_of lim v); try easy; cbn [agrees].
  - destruct T as (o & -> & A). eexists; split; [reflexivity|exact A].
  - now rewrite T.
Qed.

(** ** Choosing a method *)

Definition yields_option (o : option (outcome py_result)) (v : option (outcome py_value)) : Prop :=
  match o, v with Some o, Some v => yields o v | None, None => True | _, _ => False end.
Lemma wrap_option lim o v : yields_option o v ->
  agrees (option_map (fun o => r <- o ;; to_object lim r) o) (option_map (fun o => r <- o ;; object_of lim r) v).
Proof. destruct o, v; cbn [yields_option option_map]; try easy. apply wrap_exact. Qed.

Lemma as_int_integer n : match as_int n with Some (z, v) => integer n = Some v /\ (z = true -> v = 0) | None => integer n = None end.
Proof. destruct n; cbn [as_int integer]; try reflexivity; (split; [reflexivity|]); [apply Z.eqb_eq|discriminate]. Qed.

Lemma overloads_forward d c o : o <> ONe -> o <> OPow -> overloads d c (name_of o) = [Fbb (big_big d c o); Fbi (big_int d c o)].
Proof. destruct o; try congruence; reflexivity. Qed.
Lemma overloads_pow d c : overloads d c "__pow__" =
  [Fbb (big_big d c OPow); Fbi (big_int d c OPow); Fbbb (fun a e m => big (raise_mod d c a e m));
   Fbib (fun a z v m => e <- of_py c z v ;; big (raise_mod d c a e m)); Fbbi (fun a e z v => m <- of_py c z v ;; big (raise_mod d c a e m))].
Proof. reflexivity. Qed.

Lemma forward_call d c o a y : o <> ONe ->
  method d c (name_of o) (PBig a) y =
  match y with
  | PBig b => Some (big_big d c o a b)
  | PNative n => option_map (fun '(z, v) => big_int d c o a z v) (as_int n)
  end.
Proof.
  intros N. unfold method, has, call.
  destruct o; try congruence; 
    (first [rewrite overloads_forward by discriminate | cbn [name_of]; rewrite overloads_pow]); cbn [first_of fold_right accept];
    (destruct y as [b|n]; [reflexivity|]); destruct (as_int n) as [[z v]|]; reflexivity.
Qed.

Definition comparison (o : py_op) : bool := match o with OLt | OLe | OEq | ONe | OGt | OGe => true | _ => false end.
Definition mirror (o : py_op) : py_op := match o with OLt => OGt | OLe => OGe | OGt => OLt | OGe => OLe | o => o end.

Lemma overloads_reflected d c o : comparison o = false -> overloads d c (reflected o) = [Fbi (fun a z v => int_big d c o z v a)].
Proof. destruct o; try discriminate; reflexivity. Qed.

Lemma reflected_call d c o a n : o <> ONe ->
  method d c (reflected o) (PBig a) (PNative n) = option_map (fun '(z, v) => int_big d c o z v a) (as_int n).
Proof.
  intros N. destruct (comparison o) eqn:C.
  - destruct o; try discriminate; try congruence.
    + exact (forward_call d c OGt a (PNative n) ltac:(discriminate)).
    + exact (forward_call d c OGe a (PNative n) ltac:(discriminate)).
    + exact (forward_call d c OEq a (PNative n) ltac:(discriminate)).
    + exact (forward_call d c OLt a (PNative n) ltac:(discriminate)).
    + exact (forward_call d c OLe a (PNative n) ltac:(discriminate)).
  - unfold method, has, call. rewrite overloads_reflected by assumption. cbn [first_of fold_right accept].
    destruct (as_int n) as [[z v]|]; reflexivity.
Qed.

Lemma ne_call d c a y :
  method d c "__ne__" (PBig a) y = option_map (fun o => r <- o ;; Ret (negate r)) (method d c "__eq__" (PBig a) y).
Proof.
  unfold method. assert (has d c "__ne__" = false) as -> by reflexivity. assert (has d c "__eq__" = true) as -> by reflexivity. reflexivity.
Qed.
Lemma negate_bool_of (o : outcome bool) : (r <- bool_of o ;; Ret (negate r)) = (t <- o ;; Ret (RBool (negb t))).
Proof. destruct o; reflexivity. Qed.

Lemma ne_big d c a b : method d c "__ne__" (PBig a) (PBig b) = Some (big_big d c ONe a b).
Proof. rewrite ne_call, (forward_call d c OEq) by discriminate. cbn [option_map big_big]. now rewrite negate_bool_of. Qed.
Lemma ne_int d c a n : method d c "__ne__" (PBig a) (PNative n) = option_map (fun '(z, v) => big_int d c ONe a z v) (as_int n).
Proof.
  rewrite ne_call, (forward_call d c OEq) by discriminate. destruct (as_int n) as [[z v]|]; [|reflexivity].
  cbn [option_map big_int]. now rewrite negate_bool_of.
Qed.

Lemma is_ne o : o = ONe \/ o <> ONe.
Proof. destruct o; (now left) || (right; discriminate). Qed.

(** The method CPython and pybind11 arrive at. *)
Theorem binary_dispatch d c o x y :
  binary d c o x y =
  match x, y with
  | PBig a, PBig b => Some (big_big d c o a b)
  | PBig a, PNative n => option_map (fun '(z, v) => big_int d c o a z v) (as_int n)
  | PNative n, PBig b => if formats o n then Some NoFuel else option_map (fun '(z, v) => int_big d c o z v b) (as_int n)
  | PNative n, PNative _ => if formats o n then Some NoFuel else None
  end.
Proof.
  unfold binary. destruct x as [a|n].
  - destruct (is_ne o) as [->|N]; [destruct y; [apply ne_big|apply ne_int]|now rewrite forward_call].
  - destruct (formats o n); [now destruct y|]. destruct y as [b|m].
    + destruct (is_ne o) as [->|N]; [apply ne_int|now apply reflected_call].
    + destruct o; reflexivity.
Qed.

Lemma binary_exact d c o x y v w : is_value x v -> is_value y w ->
  match v, w with IsNative _, IsNative _ => True | _, _ => yields_option (binary d c o x y) (binary_value d c o v w) end.
Proof.
  intros Hx Hy. rewrite binary_dispatch. destruct x as [a|n], v as [x|n']; try easy; destruct y as [b|m], w as [y|m']; try easy.
  - exact (bi_big_big d c o a b x y Hx Hy).
  - cbn in Hy. subst m'. cbn [binary_value]. unfold with_integer. pose proof (as_int_integer m) as I. destruct (as_int m) as [[z v]|].
    + destruct I as [-> I]. exact (big_int_exact d c o a x z v Hx I).
    + now rewrite I.
  - cbn in Hx. subst n'. cbn [binary_value]. replace (is_formatting o n) with (formats o n) by (now destruct o, n).
    destruct (formats o n); [reflexivity|].
    unfold with_integer. pose proof (as_int_integer n) as I. destruct (as_int n) as [[z v]|].
    + destruct I as [-> I]. exact (int_big_exact d c o b y z v Hy I).
    + now rewrite I.
Qed.

Lemma power3_exact d c x y z u v w : is_value x u -> is_value y v -> is_value z w ->
  yields_option (power3 d c x y z) (power3_value d c u v w).
Proof.
  intros Hx Hy Hz. unfold power3, call. rewrite overloads_pow. cbn [first_of fold_right accept].
  destruct x as [a|n], u as [x|n']; try easy.
  destruct y as [b|n], v as [y|n']; try easy; destruct z as [m|k], w as [z|k']; try easy; cbn [power3_value].
  - exact (yields_big _ _ (raise_mod_exact d c a b m x y z Hx Hy Hz)).
  - cbn in Hz. subst k'. unfold with_integer. pose proof (as_int_integer k) as J. destruct (as_int k) as [[s t]|]; [|now rewrite J].
    destruct J as [-> J]. cbn [option_map yields_option]. apply yields_bind; [now apply operand_exact|]. intros e q Hq.
    apply yields_big. now apply raise_mod_exact.
  - cbn in Hy. subst n'. unfold with_integer. pose proof (as_int_integer n) as J. destruct (as_int n) as [[s t]|]; [|now rewrite J].
    destruct J as [-> J]. cbn [option_map yields_option]. apply yields_bind; [now apply operand_exact|]. intros e q Hq.
    apply yields_big. now apply raise_mod_exact.
Qed.

Lemma new_exact d c x v : is_value x v -> object_ok x -> yields_option (call d c "__init__" [x]) (new_value c v).
Proof.
  intros Hx Ok. change (call d c "__init__" [x]) with
    (match accept (Fi (fun z v => big (py_init_int c z v))) [x] with Some r => Some r | None =>
     match accept (Fbuf (init_buffer c)) [x] with Some r => Some r | None => None end end).
  destruct x as [a|n], v as [x|n']; try easy. cbn in Hx. subst n'. cbn [accept new_value].
  pose proof (as_int_integer n) as J. unfold with_integer.
  destruct n; cbn [as_int option_map integer]; try exact I; try (apply yields_big, operand_exact; apply J).
  unfold init_buffer. destruct ok; cbn [negb]; [|reflexivity]. apply yields_big. now apply buffer_exact.
Qed.

Lemma flag_exact x v : is_value x v -> as_flag x = flag v.
Proof. destruct x as [a|n], v as [z|n']; try easy. intros H. cbn in H. subst n'. destruct n; reflexivity. Qed.

Lemma to_array_exact d c a x l vs : represents a x -> Forall2 is_value l vs ->
  yields_option (call d c "to_array" (PBig a :: l)) (to_array_value d c x vs).
Proof.
  intros Ha F. change (call d c "to_array" (PBig a :: l)) with
    (match accept (Fbff (fun a f g => unary d c (UToArray f g) a)) (PBig a :: l) with Some r => Some r | None => None end).
  unfold to_array_value. destruct F as [|y v l vs Hy F].
  - exact (unary_exact d c (UToArray false false) a x Ha).
  - destruct F as [|z w l vs Hz F].
    + cbn [accept map]. rewrite (flag_exact y v Hy). destruct (flag v) as [t|]; [|exact I].
      exact (unary_exact d c (UToArray t false) a x Ha).
    + destruct F as [|? ? l vs]; cbn [accept map].
      * rewrite (flag_exact y v Hy), (flag_exact z w Hz). destruct (flag v) as [t|]; [|exact I]. destruct (flag w) as [t'|]; [|exact I].
        exact (unary_exact d c (UToArray t t') a x Ha).
      * destruct (flag v); [|exact I]. destruct (flag w); exact I.
Qed.

Lemma unary_call d c u a : (forall f g, u <> UToArray f g) ->
  call d c (unary_name u) (PBig a :: match u with UDeepcopy => [PNative NNone] | _ => [] end) = Some (unary d c u a).
Proof. intros N. destruct u; try reflexivity. destruct (N u be eq_refl). Qed.

(** ** Expressions *)

Lemma natives_values l vs : Forall2 is_value l vs -> natives l = values_of vs.
Proof.
  induction 1 as [|x v l vs H F IH]; [reflexivity|]. cbn [natives values_of fold_right] in *. unfold natives in IH. rewrite IH.
  destruct x, v; try easy. cbn in H. now subst n0.
Qed.

Lemma own_exact py name l vs o v :
  Forall2 is_value l vs -> (natives l = None -> agrees o v) -> agrees (own py name l o) (plain py name vs v).
Proof.
  intros F H. unfold own, plain. rewrite <- (natives_values l vs F). destruct (natives l) as [ns|]; [|now apply H].
  destruct (py name ns) as [[r| | | |]|]; cbn [option_map bind agrees]; try reflexivity.
  eexists; split; [reflexivity|]. destruct r; cbn; auto.
Qed.

Theorem evaluate_exact d c lim py m s e :
  expr_ok e -> SpecPyClass.holds m s -> agrees (evaluate d c lim py m e) (meaning d c lim py s e).
Proof.
  intros Ok Hs. assert (forall p, is_value (m p) (s p)) as V by (intros p; apply Hs).
  assert (forall l, Forall2 is_value (map m l) (map s l)) as VL by (induction l; cbn [map]; constructor; auto).
  destruct e; cbn [evaluate meaning].
  - eexists; split; reflexivity.
  - apply wrap_option, new_exact; [apply V|apply Hs].
  - exact (wrap_option lim (Some _) (Some (Ret (VBig 0))) (yields_big _ (Ret _) (proj2 (returns_wp _ _) (bi_zero_spec c)))).
  - exact (wrap_option lim (Some _) (Some (Ret (VBig 1))) (yields_big _ (Ret _) (proj2 (returns_wp _ _) (bi_one_spec c)))).
  - exact (wrap_option lim (Some _) (Some (Ret (VBig (-1)))) (yields_big _ (Ret _) (proj2 (returns_wp _ _) (bi_minus_one_spec c)))).
  - apply own_exact; [apply (VL [p])|]. intros N. specialize (V p). destruct (m p) as [a|n], (s p) as [x|n']; try easy.
    rewrite unary_call by (intros f g ->; exact Ok). apply (wrap_option lim (Some _) (Some _)). now apply unary_exact.
  - apply own_exact; [apply (VL (p :: args))|]. intros N. pose proof (V p) as Vp. destruct (m p) as [a|n], (s p) as [x|n']; try easy.
    apply wrap_option. apply to_array_exact; [exact Vp|apply VL].
  - apply own_exact; [apply (VL [p])|]. intros N. specialize (V p). destruct (m p) as [a|n], (s p) as [x|n']; try easy.
    apply (wrap_option lim (Some _) (Some _)). unfold int_result. rewrite (bit_length_exact d c a x V).
    apply yields_same; [reflexivity|]. intros k. exists (RInt k). split; reflexivity.
  - apply own_exact; [apply (VL [p])|]. intros N. eexists; split; reflexivity.
  - apply own_exact; [apply (VL [p; q])|]. intros N. pose proof (binary_exact d c o (m p) (m q) (s p) (s q) (V p) (V q)) as B.
    assert (natives [m p; m q] = values_of [s p; s q]) as E by (apply natives_values, (VL [p; q])).
    destruct (s p) as [x|n], (s q) as [y|n']; try (apply wrap_option, B). rewrite N in E. discriminate E.
  - apply own_exact; [apply (VL [p; q; r])|]. intros _. apply wrap_option, power3_exact; apply V.
Qed.

(** ** Scripts *)

Definition value_ok (v : value) : Prop := match v with IsNative n => bytes_ok n | IsBig _ => True end.
Definition values_ok (r : result value) : Prop := match r with One v => value_ok v | Two v w => value_ok v /\ value_ok w end.

Lemma is_value_ok x v : is_value x v -> value_ok v -> object_ok x.
Proof. destruct x, v; try easy. intros H. cbn in H. now subst. Qed.
Lemma object_of_ok lim v r : object_of lim v = Ret r -> values_ok r.
Proof.
  destruct v; cbn [object_of]; try (intros [= <-]; exact I).
  - intros [= <-]. split; exact I.
  - destruct (_ || _); [discriminate|]. intros [= <-]. split; exact I.
  - intros [= <-]. cbn. apply le_order_digits, low_bytes_digits.
Qed.
Lemma wrap_ok lim o r : option_map (fun o => r <- o ;; object_of lim r) o = Some (Ret r) -> values_ok r.
Proof.
  destruct o as [[v| | | |]|]; cbn [option_map bind]; try discriminate. intros [= H]. exact (object_of_ok lim v r H).
Qed.
Lemma plain_ok py name vs o r :
  python_ok py -> Forall value_ok vs -> (o = Some (Ret r) -> values_ok r) -> plain py name vs o = Some (Ret r) -> values_ok r.
Proof.
  intros P F H. unfold plain. destruct (values_of vs) as [ns|] eqn:E; [|exact H].
  assert (Forall bytes_ok ns) as Fn.
  { clear H. revert ns E. induction F as [|v vs Hv F IH]; intros ns; cbn [values_of fold_right]; [intros [= <-]; constructor|].
    destruct v as [z|n]; [discriminate|]. unfold values_of in IH. destruct (fold_right _ _ vs) as [t|]; [|discriminate].
    intros [= <-]. constructor; [exact Hv|]. now apply IH. }
  destruct (py name ns) as [[q| | | |]|] eqn:Q; cbn [option_map bind]; try discriminate.
  intros [= <-]. specialize (P name ns q Fn Q). destruct q; exact P.
Qed.

Lemma meaning_ok d c lim py s e r :
  python_ok py -> expr_ok e -> (forall p, value_ok (s p)) -> meaning d c lim py s e = Some (Ret r) -> values_ok r.
Proof.
  intros P Ok V. assert (forall l, Forall value_ok (map s l)) as VL by (induction l; cbn [map]; constructor; auto).
  destruct e; cbn [meaning]; try (intros [= <-]; exact I).
  - intros [= <-]. exact Ok.
  - apply wrap_ok.
  - apply plain_ok; [exact P|apply (VL [p])|]. destruct (s p); [apply (wrap_ok lim (Some _))|discriminate].
  - apply plain_ok; [exact P|apply (VL (p :: args))|]. destruct (s p); [apply wrap_ok|discriminate].
  - apply plain_ok; [exact P|apply (VL [p])|]. destruct (s p); [apply (wrap_ok lim (Some _))|discriminate].
  - apply plain_ok; [exact P|apply (VL [p])|]. intros [= <-]. exact I.
  - apply plain_ok; [exact P|apply (VL [p; q])|]. apply wrap_ok.
  - apply plain_ok; [exact P|apply (VL [p; q; r0])|]. apply wrap_ok.
Qed.

Lemma assign_holds m s x y r v :
  SpecPyClass.holds m s -> are_values r v -> values_ok v -> SpecPyClass.holds (assign m x y r) (after s x y v).
Proof.
  intros H A Ok p. destruct r as [a|a b], v as [z|z w]; try easy; cbn [assign]; unfold after; rewrite ?(Nat.eqb_sym p).
  - destruct (Nat.eqb x p); [|apply H]. split; [exact A|exact (is_value_ok _ _ A Ok)].
  - destruct A as [A B], Ok as [O1 O2]. destruct (Nat.eqb y p); [split; [exact B|exact (is_value_ok _ _ B O2)]|].
    destruct (Nat.eqb x p); [|apply H]. split; [exact A|exact (is_value_ok _ _ A O1)].
Qed.

Lemma holds_ok m s : SpecPyClass.holds m s -> forall p, value_ok (s p).
Proof. intros H p. destruct (H p) as [V Ok]. destruct (m p), (s p); try easy. cbn in V. now subst. Qed.

Theorem run_script_exact d c lim py l m s :
  python_ok py -> Forall (fun i => expr_ok (snd i)) l -> SpecPyClass.holds m s ->
  match script_meaning d c lim py l s with
  | Some (vs, s') => exists rs m', run_script d c lim py l m = Some (rs, m') /\ Forall2 agree rs vs /\ SpecPyClass.holds m' s'
  | None => run_script d c lim py l m = None
  end.
Proof.
  intros P F. revert m s. induction F as [|[[x y] e] l He F IH]; intros m s H.
  - exists [], m. repeat split; try constructor; apply H.
  - cbn [snd] in He. cbn [run_script script_meaning].
    pose proof (evaluate_exact d c lim py m s e He H) as E.
    assert (forall t m' u s', SpecPyClass.holds m' s' -> agree t u ->
      match (match script_meaning d c lim py l s' with Some (tr, s') => Some (u :: tr, s') | None => None end) with
      | Some (vs, s') => exists rs m'', (match run_script d c lim py l m' with Some (tr, m') => Some (t :: tr, m') | None => None end) = Some (rs, m'')
          /\ Forall2 agree rs vs /\ SpecPyClass.holds m'' s'
      | None => (match run_script d c lim py l m' with Some (tr, m') => Some (t :: tr, m') | None => None end) = None
      end) as K.
    { intros t m' u s' H' A. specialize (IH m' s' H'). destruct (script_meaning d c lim py l s') as [[vs s'']|].
      - destruct IH as (rs & m'' & -> & F2 & H2). exists (t :: rs), m''. split; [reflexivity|]. split; [now constructor|exact H2].
      - now rewrite IH. }
    destruct (meaning d c lim py s e) as [[v|ex| | |]|] eqn:M; cbn [agrees] in E; try (now rewrite E).
    + destruct E as (r & -> & A). apply K; [|exact A]. apply assign_holds; [exact H|exact A|].
      exact (meaning_ok d c lim py s e v P He (holds_ok m s H) M).
    + rewrite E. apply K; [exact H|reflexivity].
    + rewrite E. apply K; [exact H|reflexivity].
Qed.

(** ** Consequences *)

Lemma eq_type_error d c a n : integer n = None ->
  binary d c OEq (PBig a) (PNative n) = None /\ binary d c OEq (PNative n) (PBig a) = None /\
  binary d c ONe (PBig a) (PNative n) = None /\ binary d c ONe (PNative n) (PBig a) = None.
Proof.
  intros H. assert (as_int n = None) as E by (pose proof (as_int_integer n) as I; destruct (as_int n) as [[z v]|]; [destruct I; congruence|reflexivity]).
  rewrite !binary_dispatch, E. cbn [option_map formats]. repeat split; destruct n; reflexivity.
Qed.

Lemma pow3_int_int d c a n m : power3 d c (PBig a) (PNative n) (PNative m) = None.
Proof. unfold power3, call. rewrite overloads_pow. cbn [first_of fold_right accept]. reflexivity. Qed.

Lemma sum_exact c lim l xs v : strict c = false -> Forall2 represents l xs ->
  sum_from LP64 c lim (PNative (NInt v)) l = Some (Ret (PNative (NInt (fold_left Z.add xs v)))).
Proof.
  intros S F. revert v. induction F as [|b x l xs H F IH]; intros v; [reflexivity|].
  cbn [sum_from fold_left]. rewrite binary_dispatch. cbn [as_int option_map formats].
  pose proof (int_big_exact LP64 c OAdd b x (v =? 0) v H (fun E => proj1 (Z.eqb_eq _ _) E)) as Y.
  assert (value_int_big LP64 c OAdd v x = Ret (VInt (v + x))) as E.
  { unfold value_int_big, py_operand. rewrite S. reflexivity. }
  rewrite E in Y. destruct Y as (r & -> & Y). destruct r; try easy. cbn in Y. subst. cbn [bind to_object]. apply IH.
Qed.

Lemma truth_of_zero d c lim py p :
  evaluate d c lim py (fun _ => PBig bi_default) (XTruth p) = Some (Ret (One (PNative (NBool true)))).
Proof. reflexivity. Qed.
