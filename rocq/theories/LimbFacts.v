(** Partial correctness: what a call returns, if it returns, without any claim
    that it does or that its value is right. Used for C01, which speaks about
    every object an API call can produce, including the wrong ones. *)
From Verif Require Import Facts Spec AddSubFacts SpecFacts BigInt CalcAddSub CalcSquMul CalcDivRem CalcPowMod CalcGcd.

Ltac Zify.zify_post_hook ::= idtac.

Definition pc {A} (o : outcome A) (Q : A -> Prop) : Prop := forall a, o = Ret a -> Q a.

Lemma pc_ret {A} (a : A) (Q : A -> Prop) : Q a -> pc (Ret a) Q.
Proof. intros H b E. inversion E; subst; assumption. Qed.
Lemma pc_bind {A B} (m : outcome A) (k : A -> outcome B) (P : A -> Prop) (Q : B -> Prop) :
  pc m P -> (forall a, P a -> pc (k a) Q) -> pc (bind m k) Q.
Proof. intros H1 H2 b. destruct m; cbn [bind]; try discriminate. apply H2, H1. reflexivity. Qed.
Lemma pc_mono {A} (o : outcome A) (P Q : A -> Prop) : pc o P -> (forall a, P a -> Q a) -> pc o Q.
Proof. intros H1 H2 a E. auto. Qed.
Lemma pc_throw {A} e (Q : A -> Prop) : pc (Throw e) Q. Proof. discriminate. Qed.
Lemma pc_undef {A} u (Q : A -> Prop) : pc (Undef u) Q. Proof. discriminate. Qed.
Lemma pc_assert {A} (Q : A -> Prop) : pc AssertFail Q. Proof. discriminate. Qed.
Lemma pc_nofuel {A} (Q : A -> Prop) : pc NoFuel Q. Proof. discriminate. Qed.
Lemma pc_true {A} (o : outcome A) : pc o (fun _ => True). Proof. intros a _. exact I. Qed.
Lemma pc_wp {A} (o : outcome A) Q : wp o Q -> pc o Q.
Proof. intros H a E. destruct (wp_inv _ _ H) as (r & E' & HQ). congruence. Qed.
Lemma pc_returns o z : returns o z -> pc o canonical.
Proof. intros (r & -> & H & _). now apply pc_ret. Qed.

(** What is kept for each type: arrays hold limbs, nothing is said of numbers. *)
Class Keep (A : Type) := keep : A -> Prop.
#[global] Instance keep_list : Keep (list Z) := limbs.
#[global] Instance keep_Z : Keep Z := fun _ => True.
#[global] Instance keep_nat : Keep nat := fun _ => True.
#[global] Instance keep_bool : Keep bool := fun _ => True.
#[global] Instance keep_unit : Keep unit := fun _ => True.
#[global] Instance keep_pair {A B} `{Keep A} `{Keep B} : Keep (A * B) := fun p => keep (fst p) /\ keep (snd p).
#[global] Instance keep_buf : Keep bitsbuf := fun b => limbs (bb_bits b).
#[global] Instance keep_red : Keep reducer := fun r =>
  limbs (fr_modulus r) /\ limbs (fr_mu r) /\ limbs (fr_q1 r) /\ limbs (fr_q2 r).
#[global] Instance keep_leh : Keep lehmer := fun _ => True.

Lemma pc_rd l i : limbs l -> pc (rd l i) limb.
Proof.
  intros H x. unfold rd. destruct (nth_error l i) as [y|] eqn:E; [|discriminate]. intros E'. inversion E'; subst.
  apply nth_error_In in E. unfold limbs in H. rewrite Forall_forall in H. auto.
Qed.
Lemma pc_rdz l i : limbs l -> pc (rdz l i) limb.
Proof. intros H. unfold rdz. destruct (i <? 0); [apply pc_undef|now apply pc_rd]. Qed.
Lemma pc_wr l i v : limbs l -> limb v -> pc (wr l i v) limbs.
Proof. intros Hl Hv. unfold wr. destruct (Nat.ltb _ _); [apply pc_ret; now apply limbs_upd|apply pc_undef]. Qed.
Lemma pc_slice l o n : limbs l -> pc (slice l o n) limbs.
Proof. intros H. unfold slice. destruct (Nat.leb _ _); [apply pc_ret; now apply limbs_firstn, limbs_skipn|apply pc_undef]. Qed.
Lemma pc_splice l o s : limbs l -> limbs s -> pc (splice l o s) limbs.
Proof.
  intros Hl Hs. unfold splice. destruct (Nat.leb _ _); [apply pc_ret|apply pc_undef].
  apply limbs_app; split; [now apply limbs_firstn|]. apply limbs_app; split; [assumption|now apply limbs_skipn].
Qed.
Lemma pc_fill l n v : limbs l -> limb v -> pc (fill l n v) limbs.
Proof.
  intros Hl Hv. unfold fill. destruct (Nat.leb _ _); [apply pc_ret|apply pc_undef].
  apply limbs_app; split; [|now apply limbs_skipn].
  apply Forall_forall. intros x Hx. apply repeat_spec in Hx. now subst.
Qed.
Lemma pc_for_up {T} n start (body : nat -> T -> outcome T) s (I : T -> Prop) :
  I s -> (forall i x, I x -> pc (body i x) I) -> pc (for_up n start body s) I.
Proof.
  intros Hs Hb. revert start s Hs. induction n as [|n IH]; intros start s Hs; cbn [for_up].
  - now apply pc_ret.
  - eapply pc_bind; [now apply Hb|]. intros; now apply IH.
Qed.
Lemma pc_for_down {T} n (body : nat -> T -> outcome T) s (I : T -> Prop) :
  I s -> (forall i x, I x -> pc (body i x) I) -> pc (for_down n body s) I.
Proof.
  intros Hs Hb. revert s Hs. induction n as [|n IH]; intros s Hs; cbn [for_down].
  - now apply pc_ret.
  - eapply pc_bind; [now apply Hb|]. intros; now apply IH.
Qed.
Lemma pc_for_up_while {T} n start cond (body : nat -> T -> outcome T) s (I : T -> Prop) :
  I s -> (forall i x, I x -> pc (body i x) I) -> pc (for_up_while n start cond body s) I.
Proof.
  intros Hs Hb. revert start s Hs. induction n as [|n IH]; intros start s Hs; cbn [for_up_while].
  - now apply pc_ret.
  - destruct (cond s); [|now apply pc_ret]. eapply pc_bind; [now apply Hb|]. intros; now apply IH.
Qed.

Lemma limb_const v : (0 <=? v) && (v <? W32) = true -> limb v.
Proof. intros H. apply andb_prop in H as [H1 H2]. split; [now apply Z.leb_le|now apply Z.ltb_lt]. Qed.

Create HintDb keeps.
#[global] Hint Resolve limbs_zeros u32_limb limbs_firstn limbs_skipn : keeps.
#[global] Hint Extern 2 (limb _) => apply limb_const; reflexivity : keeps.

(** Discharge [keep]/[limbs]/[limb] side goals. *)
Ltac kp :=
  repeat match goal with
    | H : keep (_, _) |- _ => destruct H as [? ?]
    | H : @keep _ keep_pair _ |- _ => destruct H as [? ?]
    end;
  cbv [keep keep_list keep_Z keep_nat keep_bool keep_unit keep_pair keep_buf keep_red keep_leh] in *;
  cbn [fst snd bb_bits bb_len fr_modulus fr_mu fr_q1 fr_q2 fr_mulen] in *;
  repeat match goal with H : _ /\ _ |- _ => destruct H end;
  repeat match goal with |- _ /\ _ => split end; auto with keeps.

(** One step through a term in the outcome monad; [lim] finishes. *)
Ltac lim1 :=
  match goal with
  | |- pc (Ret _) _ => apply pc_ret; solve [kp]
  | |- pc (Throw _) _ => apply pc_throw
  | |- pc (Undef _) _ => apply pc_undef
  | |- pc AssertFail _ => apply pc_assert
  | |- pc NoFuel _ => apply pc_nofuel
  | |- pc _ (fun _ => True) => apply pc_true
  | |- pc _ (@keep Z _) => apply pc_true
  | |- pc _ (@keep nat _) => apply pc_true
  | |- pc _ (@keep bool _) => apply pc_true
  | |- pc _ (@keep unit _) => apply pc_true
  | |- pc _ (@keep lehmer _) => apply pc_true
  | |- pc (bind _ _) _ => eapply (pc_bind _ _ keep); [|intros]
  | |- pc (if ?b then _ else _) _ => destruct b
  | |- pc (let '(_, _) := ?p in _) _ => destruct p
  | |- pc (match ?x with (_, _) => _ end) _ => destruct x
  | |- pc (wr _ _ _) _ => apply pc_wr; solve [kp]
  | |- pc (wrz _ _ _) _ => unfold wrz
  | |- pc (slice _ _ _) _ => apply pc_slice; solve [kp]
  | |- pc (splice _ _ _) _ => apply pc_splice; solve [kp]
  | |- pc (fill _ _ _) _ => apply pc_fill; solve [kp]
  | |- pc (for_up _ _ _ _) _ => apply pc_for_up; [solve [kp]|intros]
  | |- pc (for_down _ _ _) _ => apply pc_for_down; [solve [kp]|intros]
  | |- pc (for_up_while _ _ _ _ _) _ => apply pc_for_up_while; [solve [kp]|intros]
  end; cbv zeta; cbn beta.
Ltac lim := cbv zeta; repeat lim1.

(** ** Calculator *)

Lemma pc_add_u c l r : pc (calc_add_u c l r) keep.
Proof. unfold calc_add_u. lim. Qed.
Lemma pc_add_core c l r b : limbs b -> pc (calc_add_core c l r b) keep.
Proof. intros. unfold calc_add_core. lim. Qed.
Lemma pc_add c l r : pc (calc_add c l r) keep.
Proof. unfold calc_add. lim. apply pc_add_core. kp. Qed.
Lemma pc_add_self c l r : limbs l -> pc (calc_add_self c l r) keep.
Proof. intros. unfold calc_add_self. lim. Qed.
Lemma pc_sub_u c l r : pc (calc_sub_u c l r) keep.
Proof. unfold calc_sub_u. lim. Qed.
Lemma pc_sub_core c l r b : limbs b -> pc (calc_sub_core c l r b) keep.
Proof. intros. unfold calc_sub_core. lim. Qed.
Lemma pc_sub c l r : pc (calc_sub c l r) keep.
Proof. unfold calc_sub. lim. apply pc_sub_core. kp. Qed.
Lemma pc_sub_self c l r : limbs l -> pc (calc_sub_self c l r) keep.
Proof. intros. unfold calc_sub_self. lim. Qed.

Lemma pc_subtract_core c l r b : limbs b -> pc (calc_subtract_core c l r b) keep.
Proof. intros. unfold calc_subtract_core. lim. Qed.
Lemma pc_square_school v b : limbs b -> pc (square_school v b) keep.
Proof. intros. unfold square_school, square_inner. lim. Qed.
Lemma pc_square_core fuel c v b : limbs v -> limbs b -> pc (calc_square_core fuel c v b) keep.
Proof.
  revert v b; induction fuel as [|fuel IH]; intros v b Hv Hb; cbn [calc_square_core]; lim.
  - now apply pc_square_school.
  - apply IH; kp.
  - apply IH; kp.
  - apply pc_add_core. kp.
  - apply IH; kp.
  - apply pc_subtract_core. kp.
  - apply pc_add_self. kp.
Qed.
Lemma pc_mul_school l r b : limbs b -> pc (mul_school l r b) keep.
Proof. intros. unfold mul_school, mul_inner. lim. Qed.
Lemma pc_mul_core fuel c l r b : limbs l -> limbs r -> limbs b -> pc (calc_mul_core fuel c l r b) keep.
Proof.
  revert l r b; induction fuel as [|fuel IH]; intros l r b Hl Hr Hb; cbn [calc_mul_core]; lim.
  - now apply pc_mul_school.
  - apply IH; kp.
  - apply IH; kp.
  - apply pc_add_core. kp.
  - apply pc_add_core. kp.
  - apply IH; kp.
  - apply pc_subtract_core. kp.
  - apply pc_add_self. kp.
Qed.

Lemma pc_divrem_u c l r : pc (calc_divrem_u c l r) (fun p => limbs (fst p) /\ limb (snd p)).
Proof. unfold calc_divrem_u. lim. Qed.
Lemma pc_rem_u c l r : pc (calc_rem_u c l r) limb.
Proof. unfold calc_rem_u. lim. Qed.
Lemma pc_add_divisor c l r : limbs l -> pc (add_divisor c l r) keep.
Proof. intros. unfold add_divisor. lim. Qed.
Lemma pc_subtract_divisor c l r q : limbs l -> pc (subtract_divisor c l r q) keep.
Proof. intros. unfold subtract_divisor. lim. Qed.
Lemma pc_divide_step fuel c rhs s bs dh dl n st : keep st -> pc (divide_step fuel c rhs s bs dh dl n st) keep.
Proof.
  intros H. unfold divide_step. lim.
  all: try (apply pc_subtract_divisor; kp); try (apply pc_add_divisor; kp).
Qed.
Lemma pc_div_core c l r b : limbs l -> limbs b -> pc (calc_div_core c l r b) keep.
Proof.
  intros. unfold calc_div_core, calc_div_core_fuel. lim.
  all: now apply pc_divide_step.
Qed.
Lemma pc_div c l r : limbs l -> pc (calc_div c l r) keep.
Proof. intros. unfold calc_div. lim. apply pc_div_core; kp. Qed.
Lemma pc_rem c l r : limbs l -> pc (calc_rem c l r) keep.
Proof. intros. unfold calc_rem. lim. apply pc_div_core; kp. constructor. Qed.
Lemma pc_divrem c l r : limbs l -> pc (calc_divrem c l r) keep.
Proof. intros. unfold calc_divrem. lim. apply pc_div_core; kp. Qed.
Opaque calc_div_core.

(** ** Buffers and modular powers *)

Lemma pc_buf_u n v : limb v -> pc (buf_of_u n v) keep.
Proof. intros. unfold buf_of_u. lim. Qed.
Lemma pc_buf_v n v : limbs v -> pc (buf_of_v n v) keep.
Proof. intros. unfold buf_of_v. lim. Qed.
Lemma pc_apply a b n : keep a -> keep b -> pc (buf_apply a b n) keep.
Proof. intros. unfold buf_apply. lim. Qed.
Lemma pc_mul_self c a b t : keep a -> keep b -> keep t -> pc (buf_mul_self c a b t) keep.
Proof.
  intros. unfold buf_mul_self. lim.
  - apply pc_mul_core; kp.
  - apply pc_mul_core; kp.
  - apply pc_apply; kp.
Qed.
Lemma pc_square_self c a t : keep a -> keep t -> pc (buf_square_self c a t) keep.
Proof.
  intros. unfold buf_square_self. lim.
  - apply pc_square_core; kp.
  - apply pc_apply; kp.
Qed.
Lemma pc_reduce c a m : keep a -> pc (buf_reduce c a m) keep.
Proof. intros. unfold buf_reduce. lim. apply pc_div_core; kp. constructor. Qed.
Lemma pc_reduce_buf c a m : keep a -> keep m -> pc (buf_reduce_buf c a m) keep.
Proof. intros. unfold buf_reduce_buf. lim. apply pc_div_core; kp. constructor. Qed.
Lemma pc_overwrite a v : keep a -> pc (buf_overwrite a v) keep.
Proof. intros. unfold buf_overwrite. lim. Qed.
Lemma pc_refresh a n : keep a -> pc (buf_refresh a n) keep.
Proof. intros. unfold buf_refresh. lim. Qed.

Lemma pc_pow_core_loop fuel c p v r t : keep v -> keep r -> keep t -> pc (pow_core_loop fuel c p v r t) keep.
Proof.
  revert p v r t; induction fuel as [|fuel IH]; intros p v r t Hv Hr Ht; cbn [pow_core_loop]; lim.
  all: first [apply IH; kp | apply pc_mul_self; kp | apply pc_square_self; kp].
Qed.
Lemma pc_powmod_loop fuel c p m v r t : keep v -> keep r -> keep t -> pc (powmod_loop fuel c p m v r t) keep.
Proof.
  revert p v r t; induction fuel as [|fuel IH]; intros p v r t Hv Hr Ht; cbn [powmod_loop]; lim.
  all: first [apply IH; kp | apply pc_mul_self; kp | apply pc_square_self; kp | apply pc_reduce; kp].
Qed.
Lemma pc_powmod_v_step c m st : keep st -> pc (powmod_v_step c m st) keep.
Proof.
  intros. unfold powmod_v_step. lim.
  all: first [apply pc_mul_self; kp | apply pc_square_self; kp | apply pc_reduce; kp].
Qed.
Lemma pc_powmod_v_loop c p m v r t : keep v -> keep r -> keep t -> pc (powmod_v_loop c p m v r t) keep.
Proof.
  intros. unfold powmod_v_loop. lim.
  - apply pc_powmod_v_step. kp.
  - apply pc_powmod_loop; kp.
Qed.

Lemma pc_reducer_make c m : limbs m -> pc (reducer_make c m) keep.
Proof. intros. unfold reducer_make. lim. apply pc_div; kp. Qed.
Lemma pc_divmul c l n r m b k : limbs l -> limbs r -> limbs b -> pc (reducer_divmul c l n r m b k) keep.
Proof. intros. unfold reducer_divmul. lim. all: apply pc_mul_core; kp. Qed.
Lemma pc_reducer_reduce c r v n : keep r -> limbs v -> pc (reducer_reduce c r v n) keep.
Proof. intros. unfold reducer_reduce. lim. all: apply pc_divmul; kp. Qed.
Lemma pc_reduce_fast c a r : keep a -> keep r -> pc (buf_reduce_fast c a r) keep.
Proof. intros. unfold buf_reduce_fast. lim. apply pc_reducer_reduce; kp. Qed.
Lemma pc_powred_loop fuel c p red v r t :
  keep red -> keep v -> keep r -> keep t -> pc (powred_loop fuel c p red v r t) keep.
Proof.
  revert p red v r t; induction fuel as [|fuel IH]; intros p red v r t Hd Hv Hr Ht; cbn [powred_loop]; lim.
  all: first [apply IH; kp | apply pc_mul_self; kp | apply pc_square_self; kp | apply pc_reduce_fast; kp].
Qed.
Lemma pc_powred_v_step c st : keep st -> pc (powred_v_step c st) keep.
Proof.
  intros. unfold powred_v_step. lim.
  all: first [apply pc_mul_self; kp | apply pc_square_self; kp | apply pc_reduce_fast; kp].
Qed.
Lemma pc_powred_v_loop c p red v r t :
  keep red -> keep v -> keep r -> keep t -> pc (powred_v_loop c p red v r t) keep.
Proof.
  intros. unfold powred_v_loop. lim.
  - apply pc_powred_v_step. kp.
  - apply pc_powred_loop; kp.
Qed.
Lemma pc_powmod_core_u c p m v : limbs m -> keep v -> pc (powmod_core_u c p m v) keep.
Proof.
  intros. unfold powmod_core_u. lim.
  all: first [apply pc_buf_u; kp | apply pc_powmod_loop; kp | apply pc_reducer_make; kp | apply pc_powred_loop; kp].
Qed.
Lemma pc_powmod_core_v c p m v : limbs m -> keep v -> pc (powmod_core_v c p m v) keep.
Proof.
  intros. unfold powmod_core_v. lim.
  all: first [apply pc_buf_u; kp | apply pc_powmod_v_loop; kp | apply pc_reducer_make; kp | apply pc_powred_v_loop; kp].
Qed.
Lemma pc_powmod_buf c v m : limbs v -> pc (powmod_buf c v m) keep.
Proof. intros. unfold powmod_buf. lim. all: first [apply pc_rem; kp | apply pc_buf_v; kp]. Qed.
Lemma pc_powmod_uuv c v p m : limb v -> limbs m -> pc (calc_powmod_uuv c v p m) keep.
Proof. intros. unfold calc_powmod_uuv. lim. now apply pc_buf_u. apply pc_powmod_core_u; kp. Qed.
Lemma pc_powmod_uvv c v p m : limb v -> limbs m -> pc (calc_powmod_uvv c v p m) keep.
Proof. intros. unfold calc_powmod_uvv. lim. now apply pc_buf_u. apply pc_powmod_core_v; kp. Qed.
Lemma pc_powmod_vuv c v p m : limbs v -> limbs m -> pc (calc_powmod_vuv c v p m) keep.
Proof. intros. unfold calc_powmod_vuv. lim. now apply pc_powmod_buf. apply pc_powmod_core_u; kp. Qed.
Lemma pc_powmod_vvv c v p m : limbs v -> limbs m -> pc (calc_powmod_vvv c v p m) keep.
Proof. intros. unfold calc_powmod_vvv. lim. now apply pc_powmod_buf. apply pc_powmod_core_v; kp. Qed.

Lemma pc_powmod_u_loop fuel p m v r : pc (powmod_u_loop fuel p m v r) limb.
Proof.
  revert p v r; induction fuel as [|fuel IH]; intros p v r; cbn [powmod_u_loop]; lim. all: apply IH.
Qed.
Lemma pc_powmod_v_core p m v r : pc (powmod_v_core p m v r) limb.
Proof.
  unfold powmod_v_core. lim; [|apply pc_powmod_u_loop].
  unfold powmod_bits_step. lim.
Qed.

(** ** Greatest common divisors *)

Lemma pc_gcd32_loop fuel a b : limb a -> limb b -> pc (gcd32_loop fuel a b) limb.
Proof.
  revert a b; induction fuel as [|fuel IH]; intros a b Ha Hb; cbn [gcd32_loop].
  - destruct (b =? 0); [now apply pc_ret|apply pc_nofuel].
  - destruct (Z.eqb_spec b 0) as [E|E]; [now apply pc_ret|].
    unfold umod. destruct (Z.eqb_spec b 0); [contradiction|]. cbn [bind]. apply IH; [assumption|].
    unfold limb in *. pose proof (Z.mod_pos_bound a b). lia.
Qed.
Lemma pc_gcd32 a b : limb a -> limb b -> pc (calc_gcd32 a b) limb.
Proof. apply pc_gcd32_loop. Qed.
Definition dlimb (x : Z) : Prop := 0 <= x < W64.
Lemma pc_gcd64_loop fuel a b : dlimb a -> dlimb b -> pc (gcd64_loop fuel a b) (fun p => dlimb (fst p) /\ dlimb (snd p)).
Proof.
  revert a b; induction fuel as [|fuel IH]; intros a b Ha Hb; cbn [gcd64_loop].
  - destruct (UINT_MAX <? b); [apply pc_nofuel|apply pc_ret; auto].
  - destruct (Z.ltb_spec UINT_MAX b) as [E|E]; [|apply pc_ret; auto].
    unfold umod. destruct (Z.eqb_spec b 0); [apply pc_undef|]. cbn [bind]. apply IH; [assumption|].
    unfold dlimb in *. pose proof (Z.mod_pos_bound a b). lia.
Qed.
Lemma pc_gcd64 a b : dlimb a -> dlimb b -> pc (calc_gcd64 a b) dlimb.
Proof.
  intros Ha Hb. unfold calc_gcd64. eapply pc_bind; [now apply pc_gcd64_loop|]. intros (l, r) (Hl & Hr).
  cbn [fst snd] in *. destruct (negb _); [|now apply pc_ret].
  eapply pc_bind; [apply pc_true|]. intros m _. eapply pc_mono; [apply pc_gcd32; apply u32_limb|].
  unfold limb, dlimb, W32, W64. lia.
Qed.

Lemma pc_lehmer_core c x y a b d e : keep x -> keep y -> pc (lehmer_core c x y a b d e) keep.
Proof.
  intros. unfold lehmer_core. repeat (lazymatch goal with
    | |- pc (bind (for_up _ _ _ _) _) _ => eapply (pc_bind _ _ (fun _ => True)); [apply pc_true|intros]
    | _ => lim1 end). all: apply pc_refresh; kp.
Qed.
Lemma pc_lehmer_round c l r : keep l -> keep r -> pc (lehmer_round c l r) keep.
Proof.
  intros. unfold lehmer_round. lim.
  all: first [apply pc_reduce_buf; kp | apply pc_lehmer_core; kp | intros ? _; split; exact I].
Qed.
Lemma pc_lehmer_loop fuel c l r : keep l -> keep r -> pc (lehmer_loop fuel c l r) keep.
Proof.
  revert l r; induction fuel as [|fuel IH]; intros l r Hl Hr; cbn [lehmer_loop]; lim.
  - now apply pc_lehmer_round.
  - apply IH; kp.
Qed.
Lemma pc_gcd_buf fuel c l r : keep l -> keep r -> pc (calc_gcd_buf fuel c l r) keep.
Proof.
  intros. unfold calc_gcd_buf. lim.
  all: first [apply pc_lehmer_loop; kp | apply pc_reduce_buf; kp | apply pc_overwrite; kp].
Qed.
Lemma pc_gcd fuel c l r : limbs l -> limbs r -> pc (calc_gcd fuel c l r) keep.
Proof.
  intros. unfold calc_gcd. lim.
  all: first [apply pc_buf_v; kp | apply pc_gcd_buf; kp].
Qed.
