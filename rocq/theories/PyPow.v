(** Lemmas quoted by PropPython.v: three-argument pow, bytes, divmod of two BigIntegers. *)
From Verif Require Import Facts Spec SpecFacts SpecApi SpecPos SpecPy SpecRun BigInt BigIntBytes ToBytesFacts ArithLaws RunExact PyBind PyFacts.

Ltac Zify.zify_post_hook ::= idtac.

Lemma pow_mod_family c a b m x e n :
  represents a x -> represents b e -> represents m n -> mod_pow_ok x e n ->
  let all_are P :=
    P (bi_mod_pow c a b m) /\
    (forall z, py_arg c z e -> P (py_mod_pow_int_exp c z a e m)) /\
    (forall z, py_arg c z n -> P (py_mod_pow_int_mod c z a b n)) in
  (e < 0 -> all_are (fun o => o = Throw OutOfRange)) /\
  (0 <= e -> n = 0 -> all_are (fun o => o = Throw DivideByZero)) /\
  (0 <= e -> n <> 0 -> all_are (fun o => returns o (Z.rem (x ^ e) n))).
Proof.
  intros Ha Hb Hm K. cbv zeta.
  assert (forall P : outcome bigint -> Prop, P (bi_mod_pow c a b m) ->
    P (bi_mod_pow c a b m) /\
    (forall z, py_arg c z e -> P (py_mod_pow_int_exp c z a e m)) /\
    (forall z, py_arg c z n -> P (py_mod_pow_int_mod c z a b n))) as W.
  { intros P HP. split; [exact HP|]. split; intros z (A1 & A2).
    - destruct (of_py_returns c z e A1 A2) as (r & E & R). unfold py_mod_pow_int_exp.
      change (py_init_int c z e) with (of_py c z e) in E. rewrite E. cbn [bind].
      now rewrite (represents_unique _ _ _ R Hb).
    - destruct (of_py_returns c z n A1 A2) as (r & E & R). unfold py_mod_pow_int_mod.
      change (py_init_int c z n) with (of_py c z n) in E. rewrite E. cbn [bind].
      now rewrite (represents_unique _ _ _ R Hm). }
  destruct (mod_pow_scope c a b m x e n Ha Hb Hm K) as (H1 & H2 & H3).
  split; [|split]; intros.
  - apply (W (fun o => o = Throw OutOfRange)). auto.
  - apply (W (fun o => o = Throw DivideByZero)). auto.
  - apply (W (fun o => returns o (Z.rem (x ^ e) n))). auto.
Qed.

Lemma bytes_family c a x :
  represents a x ->
  exists l, py_bytes c a = Ret l /\ py_to_array c a false false = Ret l /\
    digits 256 l /\ bytes_value false false l = x /\ l <> [] /\
    forall l', digits 256 l' -> bytes_value false false l' = x -> l' <> [] -> (length l <= length l')%nat.
Proof.
  intros Ha. destruct (to_bytes_returns c a x false false Ha ltac:(discriminate)) as (l & E & H).
  exists l. split; [exact E|]. split; [exact E|]. exact H.
Qed.

Lemma to_array_family c a x u be :
  represents a x ->
  (u = true -> 0 <= x) ->
  exists l, py_to_array c a u be = Ret l /\ digits 256 l /\ py_from_bytes l be (negb u) = x /\ l <> [] /\
    forall l', digits 256 l' -> bytes_value u be l' = x -> l' <> [] -> (length l <= length l')%nat.
Proof.
  intros Ha Hu. destruct (to_bytes_returns c a x u be Ha Hu) as (l & E & D & V & R).
  exists l. split; [exact E|]. split; [exact D|]. split; [|exact R]. unfold py_from_bytes. now rewrite negb_involutive.
Qed.

Lemma to_array_negative c a x be : represents a x -> x < 0 -> py_to_array c a true be = Throw RuntimeError.
Proof. intros Ha Hx. now apply (to_bytes_throws c a x be Ha). Qed.

Lemma copy_whole m : copy_range m 0 (length m) = Ret m.
Proof.
  assert (forall t h, copy_range (h ++ t) (Z.of_nat (length h)) (length t) = Ret t) as G.
  { induction t as [|d t IH]; intros h; cbn [length copy_range]; [reflexivity|].
    unfold rdz. rewrite (proj2 (Z.ltb_ge (Z.of_nat (length h)) 0)) by lia. rewrite Nat2Z.id.
    unfold rd. rewrite nth_error_app2 by lia. rewrite Nat.sub_diag. cbn [nth_error bind].
    specialize (IH (h ++ [d])). rewrite <- app_assoc in IH. cbn [app] in IH.
    rewrite app_length in IH. cbn [length] in IH. rewrite Nat2Z.inj_add in IH.
    change (Z.of_nat (length h) + 1) with (Z.of_nat (length h) + Z.of_nat 1). now rewrite IH. }
  exact (G m []).
Qed.

Lemma bytes_buffer c a x :
  represents a x -> strict c = false \/ 0 <= x \/ x < - 2 ^ 31 ->
  exists l, py_bytes c a = Ret l /\ py_init_buffer c (Buffer l 0 (length l) 1) = Ret a.
Proof.
  intros Ha Hs. destruct (bytes_family c a x Ha) as (l & E & _). exists l. split; [exact E|].
  pose proof (bytes_round_trip c a x false false Ha ltac:(discriminate) Hs) as R.
  change (py_bytes c a) with (bi_to_bytes c a false false) in E. rewrite E in R. cbn [bind] in R.
  unfold py_init_buffer. cbn [mem ptr size]. rewrite copy_whole. exact R.
Qed.

Lemma divmod_big c a b x y :
  represents a x -> represents b y -> y <> 0 ->
  ~ (x <= - 2 ^ 31 /\ - 2 ^ 31 < y < 2 ^ 31 /\ Z.rem x y <> 0) ->
  exists q r, py_divmod c a b = Ret (q, r) /\ represents q (Z.quot x y) /\ represents r (Z.rem x y).
Proof. intros Ha Hb H0 Hn. unfold py_divmod. now apply div_rem_call. Qed.
