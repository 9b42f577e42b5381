(** How the identity tests of TestBodies.v end. *)
From Coq Require Import String Ascii.
From Verif Require Import Facts Spec SpecPos PosFacts BytesFacts BigInt SpecGcd SpecActual PyRun SpecPyRun SpecOracle SpecReference SpecIdentity
  TestOracle TestCalc TestRandom TestNumbers TestBodies SpecBodies OracleFacts OracleFacts2 CalcFacts RandomFacts IdentityFacts BodyFacts.

Ltac Zify.zify_post_hook ::= idtac.

(** ** The text of an operand without its last blank *)

Lemma length_append s t : String.length (s ++ t) = (String.length s + String.length t)%nat.
Proof. induction s as [|ch s IH]; cbn [String.append String.length]; [reflexivity|now rewrite IH]. Qed.

Lemma substring_append s t : String.substring 0 (String.length s) (s ++ t) = s.
Proof.
  induction s as [|ch s IH]; cbn [String.append String.length]; [destruct t; reflexivity|]. cbn [String.substring]. now rewrite IH.
Qed.

Lemma but_last_blank s : but_last (s ++ " ") = s.
Proof.
  unfold but_last. rewrite length_append. cbn [String.length]. rewrite Nat.add_sub. apply substring_append.
Qed.

Definition print_body (bytes : list Z) : string :=
  fold_right (fun b s => String (char_of b) (String " " s)) ""%string bytes.

Lemma but_last_print bytes : but_last (print_bytes bytes) = ("make " ++ print_body bytes ++ "endmake")%string.
Proof.
  unfold print_bytes. fold (print_body bytes).
  replace ("make " ++ print_body bytes ++ "endmake ")%string with (("make " ++ print_body bytes ++ "endmake") ++ " ")%string.
  - apply but_last_blank.
  - now rewrite !append_assoc.
Qed.

Lemma tokens_but_last bytes : digits 256 bytes ->
  tokens (but_last (print_bytes bytes)) = ("make" :: flat_map tokens_of bytes ++ ["endmake"])%string%list.
Proof.
  intros D. rewrite but_last_print.
  change (tokens ("make " ++ print_body bytes ++ "endmake")) with ("make"%string :: tokens (print_body bytes ++ "endmake")).
  f_equal. induction D as [|b l Hb D IH]; [reflexivity|]. unfold print_body in *. cbn [fold_right flat_map].
  cbn [String.append]. rewrite (tokens_byte b _ Hb), IH. now rewrite app_assoc.
Qed.

Lemma ends_print fuel c l rest lib ref d : digits 256 l ->
  ends_with fuel c (tokens (print_bytes l ++ rest)) None lib ref d =
  ends_with fuel c (tokens rest) None (operand l :: lib) (operand l :: ref) d.
Proof.
  intros D. rewrite (tokens_print l rest D). cbn [ends_with starts_with Ascii.eqb Bool.eqb String.eqb].
  rewrite ends_making, (construction_tokens l D). reflexivity.
Qed.

Lemma ends_but_last fuel c l : digits 256 l ->
  ends_with fuel c (tokens (but_last (print_bytes l))) None [] [] false = Ret (Some (operand l)).
Proof.
  intros D. rewrite (tokens_but_last l D). cbn [ends_with starts_with Ascii.eqb Bool.eqb String.eqb].
  rewrite ends_making, (construction_tokens l D). reflexivity.
Qed.

Lemma but_last_no_log l t : digits 256 l -> takes_log t -> ~ In t (tokens (but_last (print_bytes l))).
Proof.
  intros D T H. rewrite (tokens_but_last l D) in H.
  assert (t <> "make" /\ t <> "endmake" /\ (String.length t > 1)%nat)%string as (N1 & N2 & N3).
  { unfold takes_log in T. destruct T as [->|[->| ->]]; repeat split; try discriminate; cbn; lia. }
  destruct H as [H|H]; [congruence|]. apply in_app_or in H as [H|[H|[]]]; [|congruence].
  apply in_flat_map in H as (b & _ & H). unfold tokens_of in H.
  destruct (b =? 32); cbn [In] in H; intuition (subst t; cbn in N3; lia).
Qed.

(** Proves [text_ends] of a given text. *)
Ltac closed_ends :=
  split; [vm_compute; reflexivity|
    let t := fresh in let H := fresh in let T := fresh in intros t H T; cbv in H;
    repeat (destruct H as [<-|H]; [destruct T as [T|[T|T]]; discriminate T|]); contradiction].

Section Ident.
  Context (fuel : nat) (c : cfg) (s1 m1 : string -> bigint -> outcome bigint)
          (s2 m2 : string -> bigint -> bigint -> outcome bigint) (Hc : strict c = false).

  Local Notation ident := (verify_identity fuel c s1 m1 s2 m2).

  (** [text_ends t v]: the calculation [t] ends with [v], and takes no logarithm. *)
  Definition text_ends (t : string) (v : outcome Z) : Prop :=
    ends_with fuel c (tokens t) None [] [] false = (x <- v ;; Ret (Some x)) /\
    forall op, In op (tokens t) -> ~ takes_log op.

  Lemma ident_same t1 t2 v : text_ends t1 (Ret v) -> text_ends t2 (Ret v) -> ident t1 t2 = if_written v.
  Proof.
    intros (E1 & L1) (E2 & L2). rewrite identity_exact; [|exact Hc|intros op [H|H]; auto].
    rewrite E1, E2. cbn [bind compared]. unfold same_text, if_written.
    destruct (text v) as [t| | | |]; cbn [bind]; auto. now rewrite Z.eqb_refl.
  Qed.

  Lemma ident_throws t1 t2 x : text_ends t1 (Throw x) -> text_ends t2 (Ret 0) -> ident t1 t2 = Throw x.
  Proof.
    intros (E1 & L1) (_ & L2). rewrite identity_exact; [|exact Hc|intros op [H|H]; auto]. now rewrite E1.
  Qed.

  Lemma ends_of_but_last l : digits 256 l -> text_ends (but_last (print_bytes l)) (Ret (operand l)).
  Proof. intros D. split; [now apply ends_but_last|]. intros op H T. exact (but_last_no_log l op D T H). Qed.


  Lemma print_log l rest : digits 256 l -> (forall op, In op (tokens rest) -> ~ takes_log op) ->
    forall op, In op (tokens (print_bytes l ++ rest)) -> ~ takes_log op.
  Proof. intros D H op I T. exact (H op (print_no_log l rest op D T I) T). Qed.

  Local Ltac named := let t := fresh in let H := fresh in let T := fresh in intros t H T; cbv in H;
    repeat (destruct H as [<-|H]; [destruct T as [T|[T|T]]; discriminate T|]); contradiction.

  (** [print l], then 0 or 1, then an operator. *)
  Lemma ends_then l d n op g f v w : digits 256 l -> In (d, n) [("0"%string, 0); ("1"%string, 1)] ->
    tokens op = [op] -> starts_with "u" op = false -> starts_with "b" op = true -> ~ takes_log op ->
    lookup (lib_binary_table fuel c) op = Some g -> lookup ref_binary_table op = Some f ->
    g n (operand l) = v -> f n (operand l) = Ret w ->
    text_ends (print_bytes l ++ d ++ " " ++ op) v.
  Proof.
    intros D Hn T U S N G F Hv Hw.
    assert (tokens (d ++ " " ++ op) = [d; op]) as Td.
    { rewrite <- T. destruct Hn as [Hn|[Hn|[]]]; injection Hn as <- <-; reflexivity. }
    split.
    - rewrite (ends_print fuel c l _ [] [] false D), Td.
      destruct Hn as [Hn|[Hn|[]]]; injection Hn as <- <-; cbn [ends_with starts_with Ascii.eqb Bool.eqb String.eqb];
        match goal with |- context [SpecText.signed_decimal ?t] => let n := eval vm_compute in (SpecText.signed_decimal t) in change (SpecText.signed_decimal t) with n end;
        cbv zeta; rewrite U, S, G, F, Hv, Hw; destruct v; cbn [bind]; auto; now rewrite !Z.eqb_refl.
    - apply (print_log l _ D). rewrite Td. intros op' [<-|[<-|[]]]; [|exact N].
      destruct Hn as [Hn|[Hn|[]]]; injection Hn as <- <-; intros [L|[L|L]]; discriminate L.
  Qed.

  (** 1, then [print l], then an operator. *)
  Lemma ends_one l op g f v w : digits 256 l ->
    tokens op = [op] -> starts_with "u" op = false -> starts_with "b" op = true -> ~ takes_log op ->
    lookup (lib_binary_table fuel c) op = Some g -> lookup ref_binary_table op = Some f ->
    g (operand l) 1 = v -> f (operand l) 1 = Ret w ->
    text_ends ("1" ++ " " ++ print_bytes l ++ op) v.
  Proof.
    intros D T U S N G F Hv Hw.
    change ("1" ++ " " ++ print_bytes l ++ op)%string with ("1 " ++ (print_bytes l ++ op))%string.
    assert (tokens ("1 " ++ (print_bytes l ++ op)) = "1"%string :: tokens (print_bytes l ++ op)) as T1 by reflexivity.
    split.
    - rewrite T1. change (ends_with fuel c ("1"%string :: tokens (print_bytes l ++ op)) None [] [] false) with
        (ends_with fuel c (tokens (print_bytes l ++ op)) None [1] [1] false).
      rewrite (ends_print fuel c l _ _ _ false D), T. cbn [ends_with]. rewrite U, S, G, F, Hv, Hw.
      destruct v; cbn [bind]; auto; now rewrite !Z.eqb_refl.
    - rewrite T1. intros op' [<-|H]; [intros [L|[L|L]]; discriminate L|].
      apply (print_log l op D); [|exact H]. rewrite T. intros o [<-|[]]. exact N.
  Qed.

  (** Two printed operands, then an operator. *)
  Lemma ends_two l1 l2 op g f v w : digits 256 l1 -> digits 256 l2 ->
    tokens op = [op] -> starts_with "u" op = false -> starts_with "b" op = true -> ~ takes_log op ->
    lookup (lib_binary_table fuel c) op = Some g -> lookup ref_binary_table op = Some f ->
    g (operand l2) (operand l1) = v -> f (operand l2) (operand l1) = Ret w ->
    text_ends (print_bytes l1 ++ print_bytes l2 ++ op) v.
  Proof.
    intros D1 D2 T U S N G F Hv Hw. split.
    - rewrite (ends_print fuel c l1 _ _ _ false D1), (ends_print fuel c l2 _ _ _ false D2), T.
      cbn [ends_with]. rewrite U, S, G, F, Hv, Hw. destruct v; cbn [bind]; auto; now rewrite !Z.eqb_refl.
    - apply (print_log l1 _ D1), (print_log l2 _ D2). rewrite T. intros o [<-|[]]. exact N.
  Qed.

  Lemma ends_plus l : digits 256 l -> text_ends (print_bytes l ++ "u+") (Ret (operand l)).
  Proof.
    intros D. split.
    - rewrite (ends_print fuel c l _ _ _ false D). cbn. now rewrite Z.eqb_refl.
    - apply (print_log l _ D). named.
  Qed.

  (** x + 1 below x, and the remainder. *)
  Lemma ends_more l op : In op ["bRemainder"; "b%"]%string -> digits 256 l -> 0 <= operand l ->
    text_ends (print_bytes l ++ "1" ++ " bAdd " ++ print_bytes l ++ op) (Ret (operand l)).
  Proof.
    intros I D P.
    assert (tokens ("1" ++ " bAdd " ++ print_bytes l ++ op) = "1" :: "bAdd" :: tokens (print_bytes l ++ op))%string as T1 by reflexivity.
    assert (tokens op = [op] /\ ~ takes_log op) as (T & N).
    { destruct I as [<-|[<-|[]]]; (split; [reflexivity|]); intros [L|[L|L]]; discriminate L. }
    split.
    - rewrite (ends_print fuel c l _ _ _ false D), T1.
      change (ends_with fuel c ("1" :: "bAdd" :: tokens (print_bytes l ++ op))%string None [operand l] [operand l] false) with
        (ends_with fuel c (tokens (print_bytes l ++ op)) None [1 + operand l] [1 + operand l]
           (negb (1 =? 1) || negb (operand l =? operand l))).
      rewrite !Z.eqb_refl. cbn [negb orb].
      rewrite (ends_print fuel c l _ _ _ false D), T.
      assert (Z.rem (operand l) (1 + operand l) = operand l) as R by (apply Z.rem_small; lia).
      destruct I as [<-|[<-|[]]]; cbn [ends_with starts_with Ascii.eqb Bool.eqb].
      + change (lookup (lib_binary_table fuel c) "bRemainder") with (Some (divided Z.rem)).
        change (lookup ref_binary_table "bRemainder") with (Some (fun x y => Ret (Z.rem x y))). cbv beta iota.
        unfold divided. replace (1 + operand l =? 0) with false by (symmetry; apply Z.eqb_neq; lia).
        cbn [bind]. rewrite R, !Z.eqb_refl. reflexivity.
      + change (lookup (lib_binary_table fuel c) "b%") with (Some (divided Z.rem)).
        change (lookup ref_binary_table "b%") with (Some (fun x y => Ret (Z.rem x y))). cbv beta iota.
        unfold divided. replace (1 + operand l =? 0) with false by (symmetry; apply Z.eqb_neq; lia).
        cbn [bind]. rewrite R, !Z.eqb_refl. reflexivity.
    - apply (print_log l _ D). rewrite T1. intros o [<-|[<-|H]]; [intros [L|[L|L]]; discriminate L..|].
      apply (print_log l op D); [|exact H]. rewrite T. intros o' [<-|[]]. exact N.
  Qed.

  Lemma ident_closed t1 t2 v : text_ends t1 (Ret v) -> text_ends t2 (Ret v) -> text v = Ret v -> ident t1 t2 = Ret true.
  Proof. intros H1 H2 T. rewrite (ident_same _ _ _ H1 H2). now apply written_ok. Qed.

  (** The second text is the first, or ends with [v]. *)
  Definition against (t1 t2 : string) (v : Z) : Prop := t2 = t1 \/ text_ends t2 (Ret v).
  Lemma ident_value t1 t2 v : text_ends t1 (Ret v) -> against t1 t2 v -> text v = Ret v -> ident t1 t2 = Ret true.
  Proof. intros H1 [->|H2] T; now apply (ident_closed _ _ v). Qed.
  Lemma ident_by_zero t1 t2 y : text_ends t1 (if y =? 0 then Throw DivideByZero else Ret 0) -> against t1 t2 0 -> ident t1 t2 = by_zero y.
  Proof.
    unfold by_zero. intros H1 H2. destruct (y =? 0); [|now apply (ident_value _ _ 0)].
    destruct H2 as [->|H2]; [|exact (ident_throws _ _ _ H1 H2)].
    destruct H1 as (E1 & L1). rewrite identity_exact; [|exact Hc|intros op [H|H]; auto]. now rewrite E1.
  Qed.

  Local Ltac no_log := let T := fresh in intros T; destruct T as [T|[T|T]]; discriminate T.
  Local Ltac literal v := apply (ident_closed _ _ v); [closed_ends|closed_ends|vm_compute; reflexivity].

  Lemma random_written l : random_array l -> digits 256 l /\ 0 <= operand l /\ text (operand l) = Ret (operand l).
  Proof. intros H. destruct (plain_random l H) as ((D & _ & T) & P). auto. Qed.

  (** ** Products *)
  Section Draws.
    Context {E : Type} (draw : E -> Z -> Z -> Z * E) (copied : bool) (B : in_bounds draw).

    Theorem product_axioms e :
      multiply_axiom_one draw copied ident e = Ret true /\ multiply_axiom_zero draw copied ident e = Ret true /\
      multiply_axiom_comm draw copied ident e = Ret true /\
      op_multiply_axiom_one draw copied ident e = Ret true /\ op_multiply_axiom_zero draw copied ident e = Ret true.
    Proof.
      pose proof (any_random draw copied B 1 100 e ltac:(lia)) as R1. pose proof (any_random draw copied B 0 100 e ltac:(lia)) as R0.
      destruct (random_written _ R1) as (D1 & P1 & T1), (random_written _ R0) as (D0 & P0 & T0).
      unfold multiply_axiom_one, multiply_axiom_zero, multiply_axiom_comm, op_multiply_axiom_one, op_multiply_axiom_zero. cbv zeta.
      rewrite !samples_same, !all_pass_one.
      split; [|split; [|split; [|split]]]; apply all_pass_true.
      - apply Forall_cons; [literal 2147483647|apply Forall_cons; [literal 9223372036854775807|apply Forall_cons; [|apply Forall_nil]]].
        apply (ident_closed _ _ (operand (any_bytes draw copied 1 100 e))); [|now apply ends_plus|exact T1].
        eapply (ends_then _ "1" 1 "bMultiply"); [exact D1|cbn; auto|reflexivity|reflexivity|reflexivity|no_log|reflexivity|reflexivity| |reflexivity].
        cbv beta. now rewrite Z.mul_1_l.
      - apply Forall_cons; [literal 0|apply Forall_cons; [literal 0|apply Forall_cons; [|apply Forall_nil]]].
        apply (ident_closed _ _ 0); [|closed_ends|reflexivity].
        eapply (ends_then _ "0" 0 "bMultiply"); [exact D1|cbn; auto|reflexivity|reflexivity|reflexivity|no_log|reflexivity|reflexivity|reflexivity|reflexivity].
      - apply Forall_cons; [literal 19807040619342712359383728129|apply Forall_cons; [|apply Forall_nil]].
        apply (ident_closed _ _ (operand (any_bytes draw copied 1 100 e) * operand (any_bytes draw copied 1 100 e))).
        1-2: eapply ends_two; try exact D1; try reflexivity; no_log.
        apply product_text; now apply random_bound.
      - apply Forall_cons; [literal 2147483647|apply Forall_cons; [literal 9223372036854775807|apply Forall_cons; [|apply Forall_nil]]].
        apply (ident_closed _ _ (operand (any_bytes draw copied 0 100 e))); [|now apply ends_plus|exact T0].
        eapply (ends_then _ "1" 1 "b*"); [exact D0|cbn; auto|reflexivity|reflexivity|reflexivity|no_log|reflexivity|reflexivity| |reflexivity].
        cbv beta. now rewrite Z.mul_1_l.
      - apply Forall_cons; [literal 0|apply Forall_cons; [literal 0|apply Forall_cons; [|apply Forall_nil]]].
        apply (ident_closed _ _ 0); [|closed_ends|reflexivity].
        eapply (ends_then _ "0" 0 "b*"); [exact D0|cbn; auto|reflexivity|reflexivity|reflexivity|no_log|reflexivity|reflexivity|reflexivity|reflexivity].
    Qed.
  End Draws.

  (** ** Quotients and remainders. [op] reads a division or a remainder. *)

  Lemma ident_zero l t op : random_array l -> In op ["bDivide"; "bRemainder"; "b%"]%string -> against (print_bytes l ++ "0" ++ " " ++ op) t 0 ->
    ident (print_bytes l ++ "0" ++ " " ++ op) t = by_zero (operand l).
  Proof.
    intros R I H0. destruct (random_written l R) as (D & P & T).
    assert (exists g f, lookup (lib_binary_table fuel c) op = Some g /\ lookup ref_binary_table op = Some f /\ tokens op = [op] /\
      starts_with "u" op = false /\ starts_with "b" op = true /\ ~ takes_log op /\
      g 0 (operand l) = (if operand l =? 0 then Throw DivideByZero else Ret 0) /\ exists w, f 0 (operand l) = Ret w) as
      (g & f & G & F & T' & U & S & N & Hg & w & Hw).
    { destruct I as [<-|[<-|[<-|[]]]]; eexists; eexists; (split; [reflexivity|]); (split; [reflexivity|]);
        do 4 (split; [first [reflexivity|no_log]|]); (split; [|eexists; reflexivity]);
        unfold divided; destruct (Z.eqb_spec (operand l) 0); auto; now rewrite ?Z.quot_0_l, ?Z.rem_0_l. }
    pose proof (ends_then l "0" 0 op g f _ w D (or_introl eq_refl) T' U S N G F Hg Hw) as HE.
    exact (ident_by_zero _ _ _ HE H0).
  Qed.

  Lemma ident_over_one l t op : random_array l -> In op ["bDivide"; "b/"]%string -> against ("1" ++ " " ++ print_bytes l ++ op) t (operand l) ->
    ident ("1" ++ " " ++ print_bytes l ++ op) t = Ret true.
  Proof.
    intros R I H0. destruct (random_written l R) as (D & P & T).
    apply (ident_value _ _ (operand l)); [|exact H0|exact T].
    destruct I as [<-|[<-|[]]]; (eapply ends_one; [exact D|reflexivity|reflexivity|reflexivity|no_log|reflexivity|reflexivity| |reflexivity]);
      unfold divided; cbn [Z.eqb]; now rewrite Z.quot_1_r.
  Qed.

  Lemma ident_mod_one l t op : random_array l -> In op ["bRemainder"; "b%"]%string -> against ("1" ++ " " ++ print_bytes l ++ op) t 0 ->
    ident ("1" ++ " " ++ print_bytes l ++ op) t = Ret true.
  Proof.
    intros R I H0. destruct (random_written l R) as (D & P & T).
    apply (ident_value _ _ 0); [|exact H0|reflexivity].
    destruct I as [<-|[<-|[]]]; (eapply ends_one; [exact D|reflexivity|reflexivity|reflexivity|no_log|reflexivity|reflexivity| |reflexivity]);
      unfold divided; cbn [Z.eqb]; now rewrite Z.rem_1_r.
  Qed.

  Lemma ident_itself l t op : random_array l -> In op ["bRemainder"; "b%"]%string -> against (print_bytes l ++ print_bytes l ++ op) t 0 ->
    ident (print_bytes l ++ print_bytes l ++ op) t = by_zero (operand l).
  Proof.
    intros R I H0. destruct (random_written l R) as (D & P & T).
    assert (text_ends (print_bytes l ++ print_bytes l ++ op) (if operand l =? 0 then Throw DivideByZero else Ret 0)) as HE.
    { destruct I as [<-|[<-|[]]]; (eapply ends_two; [exact D|exact D|reflexivity|reflexivity|reflexivity|no_log|reflexivity|reflexivity| |reflexivity]);
        unfold divided; destruct (Z.eqb_spec (operand l) 0); auto; now rewrite Z.rem_same. }
    exact (ident_by_zero _ _ _ HE H0).
  Qed.

  Lemma ident_more l t op : random_array l -> In op ["bRemainder"; "b%"]%string -> against (print_bytes l ++ "1" ++ " bAdd " ++ print_bytes l ++ op) t (operand l) ->
    ident (print_bytes l ++ "1" ++ " bAdd " ++ print_bytes l ++ op) t = Ret true.
  Proof.
    intros R I H0. destruct (random_written l R) as (D & P & T).
    apply (ident_value _ _ (operand l)); [|exact H0|exact T]. now apply ends_more.
  Qed.

  (** ** The tests. [same]: whether both calculations are made of the first text, as in op_modulus.cpp. *)
  Section Tests.
    Context (same : bool).
    Let check (t1 t2 : string) : outcome bool :=
      if same then verify_identity_mod fuel c s1 m1 s2 m2 t1 t2 else verify_identity fuel c s1 m1 s2 m2 t1 t2.

    Lemma check_ident t1 t2 v b : (forall t, against t1 t v -> ident t1 t = b) -> text_ends t2 (Ret v) -> check t1 t2 = b.
    Proof.
      intros H H2. unfold check. destruct same; [rewrite identity_mod_same|]; apply H; [left; reflexivity|right; exact H2].
    Qed.
    Lemma check_closed t1 t2 v : text_ends t1 (Ret v) -> text_ends t2 (Ret v) -> text v = Ret v -> check t1 t2 = Ret true.
    Proof. intros H1 H2 T. apply (check_ident _ _ v); [|exact H2]. intros t H. now apply (ident_value _ _ v). Qed.
    Local Ltac closed v := apply (check_closed _ _ v); [closed_ends|closed_ends|vm_compute; reflexivity].

    Theorem over_one_passes op l : random_array l -> In op ["bDivide"; "b/"]%string -> over_one check op l = Ret true.
    Proof.
      intros R I. unfold over_one. cbv zeta. rewrite samples_same, all_pass_one. apply all_pass_true.
      apply Forall_cons; [destruct I as [<-|[<-|[]]]; closed 2147483647|].
      apply Forall_cons; [destruct I as [<-|[<-|[]]]; closed 9223372036854775807|].
      apply Forall_cons; [|apply Forall_nil]. apply (check_ident _ _ (operand l)).
      - intros t H. now apply ident_over_one.
      - apply ends_of_but_last, random_written, R.
    Qed.

    Theorem zero_over_exact op l : random_array l -> In op ["bDivide"; "bRemainder"; "b%"]%string -> zero_over check op l = by_zero (operand l).
    Proof.
      intros R I. unfold zero_over. cbv zeta. rewrite samples_same, all_pass_one.
      rewrite all_pass_cons by (destruct I as [<-|[<-|[<-|[]]]]; closed 0).
      rewrite all_pass_cons by (destruct I as [<-|[<-|[<-|[]]]]; closed 0).
      rewrite all_pass_one. apply (check_ident _ _ 0); [|closed_ends]. intros t H. now apply ident_zero.
    Qed.

    Theorem modulo_one_passes op l : random_array l -> In op ["bRemainder"; "b%"]%string -> modulo_one check op l = Ret true.
    Proof.
      intros R I. unfold modulo_one. cbv zeta. rewrite samples_same, all_pass_one. apply all_pass_true.
      apply Forall_cons; [destruct I as [<-|[<-|[]]]; closed 0|]. apply Forall_cons; [destruct I as [<-|[<-|[]]]; closed 0|].
      apply Forall_cons; [|apply Forall_nil]. apply (check_ident _ _ 0); [|closed_ends]. intros t H. now apply ident_mod_one.
    Qed.

    Theorem modulo_itself_exact op l : random_array l -> In op ["bRemainder"; "b%"]%string -> modulo_itself check op l = by_zero (operand l).
    Proof.
      intros R I. unfold modulo_itself. cbv zeta. rewrite samples_same, all_pass_one.
      rewrite all_pass_cons by (destruct I as [<-|[<-|[]]]; closed 0).
      rewrite all_pass_cons by (destruct I as [<-|[<-|[]]]; closed 0).
      rewrite all_pass_one. apply (check_ident _ _ 0); [|closed_ends]. intros t H. now apply ident_itself.
    Qed.

    Lemma last_low l : low7 l -> l <> [] -> exists t, rdz l (Z.of_nat (List.length l) - 1) = Ret t /\ 0 <= t < 128.
    Proof.
      intros L N. destruct (exists_last N) as (l' & t & ->). rewrite app_length. cbn [List.length].
      exists t. split.
      - unfold rdz. replace (Z.of_nat (List.length l' + 1) - 1) with (Z.of_nat (List.length l')) by lia.
        replace (Z.of_nat (List.length l') <? 0) with false by (symmetry; apply Z.ltb_ge; lia).
        rewrite Nat2Z.id. unfold rd. rewrite nth_error_app2 by lia. now rewrite Nat.sub_diag.
      - apply Forall_app in L as (_ & L). now inversion L.
    Qed.

    Theorem modulo_more_passes op l next32 next64 : random_array l -> l <> [] -> In op ["bRemainder"; "b%"]%string ->
      In (next32, next64) [("2147483648", "9223372036854775808"); (int32_max ++ "1", int64_max ++ "1")]%string ->
      modulo_more check op l next32 next64 = Ret true.
    Proof.
      intros R NE I J. unfold modulo_more. cbv zeta. rewrite samples_same, all_pass_one. apply all_pass_true.
      apply Forall_cons; [destruct J as [J|[J|[]]]; injection J as <- <-; destruct I as [<-|[<-|[]]]; closed 2147483647|].
      apply Forall_cons; [destruct J as [J|[J|[]]]; injection J as <- <-; destruct I as [<-|[<-|[]]]; closed 9223372036854775807|].
      apply Forall_cons; [|apply Forall_nil]. destruct (last_low l (proj1 R) NE) as (t & -> & Ht). cbn [bind].
      replace (Z.land t 128) with 0.
      2: { symmetry. change 128 with (2 ^ 7). rewrite <- Z.shiftl_1_l. apply Z.bits_inj'. intros n Hn. rewrite Z.land_spec, Z.bits_0.
           rewrite Z.shiftl_1_l, Z.pow2_bits_eqb by lia. destruct (Z.eqb_spec 7 n) as [<-|]; [|now rewrite andb_false_r].
           rewrite andb_true_r. destruct (Z.eq_dec t 0) as [->|]; [reflexivity|]. apply Z.bits_above_log2; [lia|].
           apply Z.log2_lt_pow2; [lia|]. change (2 ^ 7) with 128. lia. }
      cbn [Z.eqb negb]. cbv zeta. apply (check_ident _ _ (operand l)).
      - intros t' H. now apply ident_more.
      - apply ends_of_but_last, random_written, R.
    Qed.
  End Tests.

  Theorem remainder_axioms_exact l : random_array l -> l <> [] -> remainder_axioms ident "bRemainder" l = by_zero (operand l).
  Proof.
    intros R N. unfold remainder_axioms.
    rewrite all_pass_cons by (exact (modulo_one_passes false "bRemainder" l R (or_introl eq_refl))).
    assert (Z1 : zero_over ident "bRemainder" l = by_zero (operand l)) by exact (zero_over_exact false "bRemainder" l R ltac:(cbn; auto)).
    assert (Z2 : modulo_itself ident "bRemainder" l = by_zero (operand l)) by exact (modulo_itself_exact false "bRemainder" l R ltac:(cbn; auto)).
    assert (Z3 : modulo_more ident "bRemainder" l "2147483648" "9223372036854775808" = Ret true)
      by exact (modulo_more_passes false "bRemainder" l "2147483648" "9223372036854775808" R N (or_introl eq_refl) (or_introl eq_refl)).
    cbn [all_pass]. rewrite Z1, Z2, Z3.
    unfold by_zero. now destruct (operand l =? 0).
  Qed.

  Theorem modulus_axioms_exact l : random_array l -> l <> [] ->
    modulus_axioms (verify_identity_mod fuel c s1 m1 s2 m2) "b%" l = by_zero (operand l).
  Proof.
    intros R N. unfold modulus_axioms.
    rewrite all_pass_cons by (exact (modulo_more_passes true "b%" l (int32_max ++ "1") (int64_max ++ "1") R N (or_intror (or_introl eq_refl)) (or_intror (or_introl eq_refl)))).
    rewrite all_pass_cons by (exact (modulo_one_passes true "b%" l R (or_intror (or_introl eq_refl)))).
    rewrite all_pass_one. exact (zero_over_exact true "b%" l R ltac:(cbn; auto)).
  Qed.
End Ident.

Section Laws.
  Context (fuel : nat) (c : cfg) (s1 m1 : string -> bigint -> outcome bigint) (s2 m2 : string -> bigint -> bigint -> outcome bigint)
          (Hc : strict c = false).

  Theorem quotient_axioms_exact op large : random_array large ->
    let ident := verify_identity fuel c s1 m1 s2 m2 in
    (In op ["bDivide"; "b/"]%string -> over_one ident op large = Ret true) /\
    zero_over ident "bDivide" large = by_zero (operand large).
  Proof.
    intros R. split.
    - intros I. exact (over_one_passes fuel c s1 m1 s2 m2 Hc false op large R I).
    - exact (zero_over_exact fuel c s1 m1 s2 m2 Hc false "bDivide" large R (or_introl eq_refl)).
  Qed.

  Theorem remainder_laws_exact large : random_array large -> large <> [] ->
    remainder_axioms (verify_identity fuel c s1 m1 s2 m2) "bRemainder" large = by_zero (operand large) /\
    modulo_itself (verify_identity_mod fuel c s1 m1 s2 m2) "b%" large = by_zero (operand large) /\
    modulus_axioms (verify_identity_mod fuel c s1 m1 s2 m2) "b%" large = by_zero (operand large).
  Proof.
    intros R N. split; [exact (remainder_axioms_exact fuel c s1 m1 s2 m2 Hc large R N)|]. split.
    - exact (modulo_itself_exact fuel c s1 m1 s2 m2 Hc true "b%" large R (or_intror (or_introl eq_refl))).
    - exact (modulus_axioms_exact fuel c s1 m1 s2 m2 Hc large R N).
  Qed.
End Laws.

(** ** For examples *)

(** No logarithm is taken in these tests. *)
Definition no_log1 (_ : string) (_ : bigint) : outcome bigint := NoFuel.
Definition no_log2 (_ : string) (_ _ : bigint) : outcome bigint := NoFuel.
Definition running (outs : bool) : string -> outcome bool := verify 100 (Cfg false false) no_log1 no_log1 no_log2 no_log2 outs.

(** A generator that draws eight bytes 4. *)
Definition fours (e lo hi : Z) : Z * Z := (if e =? 0 then Z.min hi (Z.max lo 8) else Z.min hi (Z.max lo 4), e + 1).
Lemma fours_in_bounds : in_bounds fours.
Proof. intros e lo hi H. cbn [fours fst]. destruct (e =? 0); lia. Qed.

Lemma random_array_compute l :
  forallb (fun b => (0 <=? b) && (b <? 128)) l && (Z.of_nat (List.length l) <=? 2 ^ 20) = true -> random_array l.
Proof.
  intros H. apply andb_prop in H as (H & L). split; [|now apply Z.leb_le]. apply Forall_forall. intros b I.
  eapply forallb_forall in H; [|exact I]. apply andb_prop in H as (H1 & H2). split; [now apply Z.leb_le|now apply Z.ltb_lt].
Qed.
