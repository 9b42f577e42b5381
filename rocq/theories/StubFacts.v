(** Proofs about the stub fixer. *)
From Coq Require Import String Ascii List Arith Lia.
From Verif Require Import StubFix SpecStub.
Import ListNotations.
Open Scope string_scope.

Lemma app_assoc_s (a b c : string) : (a ++ b) ++ c = a ++ b ++ c.
Proof. induction a as [|x a IH]; [reflexivity|]. cbn [append]. now rewrite IH. Qed.
Lemma app_nil_s (a : string) : a ++ "" = a.
Proof. induction a as [|x a IH]; [reflexivity|]. cbn [append]. now rewrite IH. Qed.
Lemma length_app (a b : string) : String.length (a ++ b) = (String.length a + String.length b)%nat.
Proof. induction a as [|x a IH]; [reflexivity|]. cbn [append String.length]. now rewrite IH. Qed.
Lemma app_inj_l (a b c : string) : a ++ b = a ++ c -> b = c.
Proof. induction a as [|x a IH]; [auto|]. cbn [append]. intros H. apply IH. congruence. Qed.

(** Two ways to cut one string. *)
Lemma cuts (a b c d : string) : a ++ b = c ++ d ->
  (exists u, a = c ++ u /\ d = u ++ b) \/ (exists u, c = a ++ u /\ b = u ++ d).
Proof.
  revert c. induction a as [|x a IH]; intros c H.
  - right. now exists c.
  - destruct c as [|y c]; [left; now exists (String x a)|]. cbn [append] in H. injection H as -> H.
    destruct (IH c H) as [(u & -> & ->)|(u & -> & ->)]; [left|right]; now exists u.
Qed.

Lemma prefix_iff (p s : string) : String.prefix p s = true <-> exists b, s = p ++ b.
Proof.
  revert s. induction p as [|x p IH]; intros s; [split; [now exists s|destruct s; reflexivity]|].
  destruct s as [|y s]; cbn [String.prefix]; [split; [discriminate|intros (b & E); discriminate]|].
  destruct (ascii_dec x y) as [->|N].
  - rewrite IH. split; intros (b & E); exists b; cbn [append] in *; congruence.
  - split; [discriminate|]. intros (b & E). cbn [append] in E. congruence.
Qed.

Lemma occurs_iff (t s : string) : occurs t s = true <-> contains s t.
Proof.
  induction s as [|x s IH]; cbn [occurs]; rewrite Bool.orb_true_iff, prefix_iff.
  - split.
    + intros [(b & E)|E]; [now exists "", b|discriminate].
    + intros ([|y a] & b & E); [left; now exists b|discriminate].
  - rewrite IH. split.
    + intros [(b & E)|(a & b & ->)]; [now exists "", b|now exists (String x a), b].
    + intros ([|y a] & b & E); [left; now exists b|right]. cbn [append] in E. injection E as -> E. now exists a, b.
Qed.
Lemma occurs_not (t s : string) : occurs t s = false <-> ~ contains s t.
Proof. rewrite <- occurs_iff. destruct (occurs t s); split; congruence. Qed.

Lemma replace_skip old new a : forall s, replace_from (String.length a) old new (a ++ s) = replace_from 0 old new s.
Proof. induction a as [|x a IH]; intros s; [reflexivity|]. cbn [append String.length replace_from]. apply IH. Qed.

(** Scanning over text in which no occurrence starts. *)
Lemma replace_none old new s : ~ contains s old -> replace old new s = s.
Proof.
  unfold replace. induction s as [|x s IH]; intros H; [reflexivity|]. cbn [replace_from].
  destruct (String.prefix old (String x s)) eqn:P.
  { apply prefix_iff in P. destruct P as (b & E). destruct H. now exists "", b. }
  f_equal. apply IH. intros (a & b & ->). apply H. now exists (String x a), b.
Qed.

Lemma replace_cut old new a s : old <> "" -> (forall b c, a ++ old = b ++ old ++ c -> b = a) ->
  replace old new (a ++ old ++ s) = a ++ new ++ replace old new s.
Proof.
  intros Ho. unfold replace. induction a as [|x a IH]; intros H.
  - destruct old as [|y old]; [congruence|]. cbn [append]. cbn [replace_from].
    replace (String.prefix (String y old) (String y (old ++ s))) with true by (symmetry; apply prefix_iff; now exists s).
    cbn [String.length]. rewrite Nat.sub_0_r || (replace (S (String.length old) - 1)%nat with (String.length old) by lia).
    f_equal. apply replace_skip.
  - cbn [append replace_from].
    destruct (String.prefix old (String x (a ++ old ++ s))) eqn:P.
    { exfalso. apply prefix_iff in P. destruct P as (b & E).
      assert (String x a ++ old ++ s = old ++ b) as E' by exact E. rewrite <- app_assoc_s in E'.
      destruct (cuts _ _ _ _ E') as [(u & Eu & _)|(u & Eu & _)].
      - assert ("" = String x a) by (apply (H "" u); exact Eu). discriminate.
      - assert (String.length old = String.length ((String x a ++ old) ++ u)) as L by now rewrite <- Eu.
        rewrite !length_app in L. cbn [String.length] in L. lia. }
    f_equal. apply IH. intros b c E. assert (String x b = String x a) as K; [|congruence]. apply (H (String x b) c). cbn [append]. now rewrite E.
Qed.

(** The first occurrence. *)
Lemma first_cut old s : old <> "" -> contains s old ->
  exists a t, s = a ++ old ++ t /\ forall b c, a ++ old = b ++ old ++ c -> b = a.
Proof.
  intros Ho. induction s as [|x s IH]; intros C.
  - destruct C as (a & b & E). assert (String.length "" = String.length (a ++ old ++ b)) as L by now rewrite <- E.
    rewrite !length_app in L. destruct old; [congruence|]. cbn [String.length] in L. lia.
  - destruct (String.prefix old (String x s)) eqn:P.
    + apply prefix_iff in P. destruct P as (t & ->). exists "", t. split; [reflexivity|]. intros b c E. cbn [append] in E.
      assert (String.length old = String.length (b ++ old ++ c)) as L by now rewrite <- E. rewrite !length_app in L.
      destruct b; [reflexivity|]. cbn [String.length] in L. lia.
    + assert (contains s old) as C'.
      { destruct C as ([|y a] & b & E).
        - exfalso. assert (String.prefix old (String x s) = true) by (apply prefix_iff; now exists b). congruence.
        - cbn [append] in E. injection E as -> ->. now exists a, b. }
      destruct (IH C') as (a & t & -> & H). exists (String x a), t. split; [reflexivity|]. intros b c E.
      destruct b as [|y b].
      * exfalso. assert (String.prefix old (String x (a ++ old ++ t)) = true); [|congruence]. apply prefix_iff. exists (c ++ t).
        cbn [append] in E. rewrite <- app_assoc_s, <- app_assoc_s.
        change (String x ((a ++ old) ++ t)) with ((String x (a ++ old)) ++ t). now rewrite E.
      * cbn [append] in E. injection E as -> E. now rewrite (H b c E).
Qed.

Lemma replace_ok old new s : old <> "" -> replaced old new s (replace old new s).
Proof.
  intros Ho. remember (String.length s) as n eqn:N. revert s N. induction n as [n IH] using lt_wf_ind. intros s ->.
  destruct (occurs old s) eqn:E.
  - apply occurs_iff in E. destruct (first_cut old s Ho E) as (a & t & -> & H). rewrite (replace_cut old new a t Ho H).
    apply cut; [exact H|]. apply (IH (String.length t)); [|reflexivity]. rewrite !length_app. destruct old; [congruence|]. cbn [String.length]. lia.
  - apply occurs_not in E. rewrite (replace_none old new s E). now apply none_left.
Qed.

Lemma replaced_unique old new s r : old <> "" -> replaced old new s r -> r = replace old new s.
Proof.
  intros Ho. induction 1 as [s H|a s r H _ IH].
  - now rewrite (replace_none old new s H).
  - rewrite (replace_cut old new a s Ho H). now rewrite IH.
Qed.

(** * A line *)
Lemma wanted_here : wanted = patterns. Proof. reflexivity. Qed.

Lemma fold_last l s : forall now,
  fold_left (fun now p => if occurs (fst p) s then replace (fst p) (snd p) s else now) l now =
  match find (fun p => occurs (fst p) s) (rev l) with Some p => replace (fst p) (snd p) s | None => now end.
Proof.
  induction l as [|p l IH]; intros now; [reflexivity|]. cbn [fold_left rev]. rewrite IH.
  assert (forall (f : string * string -> bool) x y, find f (x ++ y) = match find f x with Some p => Some p | None => find f y end) as F.
  { intros f x y. induction x as [|q x IHx]; [reflexivity|]. cbn. destruct (f q); [reflexivity|exact IHx]. }
  rewrite F. cbn [find]. destruct (find _ (rev l)); [reflexivity|]. now destruct (occurs (fst p) s).
Qed.

Lemma find_split (f : string * string -> bool) : forall l,
  match find f (rev l) with
  | Some p => exists b a, l = (b ++ p :: a)%list /\ f p = true /\ Forall (fun q => f q = false) a
  | None => Forall (fun q => f q = false) l
  end.
Proof.
  induction l as [|p l IH] using rev_ind; [constructor|]. rewrite rev_app_distr. cbn [rev app find].
  destruct (f p) eqn:E.
  - exists l, []. repeat split; [exact E|constructor].
  - destruct (find f (rev l)) as [q|].
    + destruct IH as (b & a & -> & H & A). exists b, (a ++ [p])%list. rewrite <- app_assoc. repeat split; [exact H|].
      apply Forall_app. split; [exact A|]. constructor; [exact E|constructor].
    + apply Forall_app. split; [exact IH|]. constructor; [exact E|constructor].
Qed.

Lemma not_empty : Forall (fun p => fst p <> "") patterns.
Proof. repeat constructor; discriminate. Qed.

Lemma line_exact s : last_replaced wanted s (fix_line s).
Proof.
  unfold fix_line, last_replaced. rewrite fold_last, wanted_here. pose proof (find_split (fun p => occurs (fst p) s) patterns) as H.
  destruct (find _ (rev patterns)) as [(old & new)|].
  - right. destruct H as (b & a & E & O & A). exists b, old, new, a. split; [exact E|]. split; [now apply occurs_iff|]. split.
    + eapply Forall_impl; [|exact A]. intros q Q. now apply occurs_not.
    + apply replace_ok. pose proof not_empty as N. rewrite E in N. apply Forall_app in N. destruct N as (_ & N). now inversion N.
  - left. split; [|reflexivity]. eapply Forall_impl; [|exact H]. intros q Q. now apply occurs_not.
Qed.

Lemma last_unique l s r r' : Forall (fun p => fst p <> "") l -> last_replaced l s r -> last_replaced l s r' -> r = r'.
Proof.
  intros N [(F & ->)|(b & o & n & a & E & C & F & R)] [(F' & ->)|(b' & o' & n' & a' & E' & C' & F' & R')].
  - reflexivity.
  - exfalso. rewrite E' in F. apply Forall_app in F. destruct F as (_ & F). inversion F. subst. now apply H1.
  - exfalso. rewrite E in F'. apply Forall_app in F'. destruct F' as (_ & F'). inversion F'. subst. now apply H1.
  - assert (forall (b b' a a' : list (string * string)) p p', (b ++ p :: a = b' ++ p' :: a')%list ->
      contains s (fst p) -> contains s (fst p') -> Forall (fun p => ~ contains s (fst p)) a -> Forall (fun p => ~ contains s (fst p)) a' -> p = p') as K.
    { clear. induction b as [|q b IH]; intros [|q' b'] a a' p p' E P P' A A'; cbn in E.
      - congruence.
      - injection E as <- ->. exfalso. apply Forall_app in A. destruct A as (_ & A). inversion A. now subst.
      - injection E as <- <-. exfalso. apply Forall_app in A'. destruct A' as (_ & A'). inversion A'. now subst.
      - injection E as _ E. exact (IH b' a a' p p' E P P' A A'). }
    assert ((o, n) = (o', n')) as Q by (apply (K b b' a a'); [congruence|exact C|exact C'|exact F|exact F']).
    injection Q as <- <-.
    assert (o <> "") as No by (rewrite E in N; apply Forall_app in N; destruct N as (_ & N); now inversion N).
    rewrite (replaced_unique o n s r No R), (replaced_unique o n s r' No R'). reflexivity.
Qed.

Lemma line_determined s r : last_replaced wanted s r -> r = fix_line s.
Proof. intros H. apply (last_unique wanted s r (fix_line s) not_empty H (line_exact s)). Qed.

Lemma line_iff s r : r = fix_line s <-> last_replaced wanted s r.
Proof. split; [intros ->; apply line_exact|apply line_determined]. Qed.

(** * What stays *)
Fixpoint clear_of (old t : string) : bool :=
  match old with
  | "" => true
  | String _ r => negb (String.prefix old t) && negb (String.prefix t old) && clear_of r t
  end.
Lemma clear_sound old t : clear_of old t = true -> forall u v p q, old = u ++ v -> v <> "" -> v ++ p = t ++ q -> False.
Proof.
  revert t. induction old as [|x old IH]; intros t H u v p q E Nv C.
  - destruct u; cbn [append] in E; congruence.
  - cbn [clear_of] in H. apply Bool.andb_true_iff in H. destruct H as (H & Hr). apply Bool.andb_true_iff in H. destruct H as (H1 & H2).
    destruct u as [|y u].
    + cbn [append] in E. subst v. destruct (cuts _ _ _ _ C) as [(w & Ew & _)|(w & Ew & _)].
      * rewrite (proj2 (prefix_iff t (String x old))) in H2 by now exists w. discriminate.
      * rewrite (proj2 (prefix_iff (String x old) t)) in H1 by now exists w. discriminate.
    + cbn [append] in E. injection E as -> ->. eapply IH; eauto.
Qed.

Lemma survives old new s r t : clear_of old t = true -> clear_of t old = true -> t <> "" -> old <> "" ->
  replaced old new s r -> contains s t -> contains r t.
Proof.
  intros K K' Nt No. induction 1 as [s H|a s r H _ IH]; [auto|]. intros (x & y & E).
  destruct (cuts _ _ _ _ E) as [(u & -> & E2)|(u & -> & E2)].
  - (* t starts within a, or where a ends *)
    destruct u as [|z u].
    { exfalso. cbn [append] in E2. apply (clear_sound t old K' "" t y s); [reflexivity|exact Nt|exact E2]. }
    destruct (cuts _ _ _ _ E2) as [(v & -> & E3)|(v & Ev & E3)].
    + (* t runs beyond it *)
      destruct v as [|w v].
      * cbn [append] in *. exists x, (new ++ r). rewrite app_nil_s, app_assoc_s. reflexivity.
      * exfalso. apply (clear_sound (String z u ++ String w v) old K' (String z u) (String w v) y s); [reflexivity|discriminate|].
        now rewrite E3.
    + rewrite Ev. exists x, (v ++ new ++ r). rewrite !app_assoc_s. reflexivity.
  - destruct (cuts _ _ _ _ E2) as [(v & Ev & E3)|(v & Ev & E3)].
    + destruct v as [|w v].
      * cbn [append] in E3. rewrite app_nil_s in Ev. destruct (IH (ex_intro _ "" (ex_intro _ y (eq_sym E3)))) as (p & q & ->).
        exists (a ++ new ++ p), q. rewrite !app_assoc_s. reflexivity.
      * exfalso. apply (clear_sound old t K u (String w v) s y); [exact Ev|discriminate|]. now rewrite E3.
    + subst u. destruct IH as (p & q & ->); [now exists v, y|]. exists (a ++ new ++ p), q. rewrite !app_assoc_s. reflexivity.
Qed.

Definition apart (p q : string * string) : Prop :=
  fst p = ": buffer" /\ fst q = "neo3vm::" \/ (fst p = "int_" \/ fst p = "bool_") /\ fst q = "_Shape = Tuple[int, ...]" \/
  clear_of (fst q) (fst p) = true /\ clear_of (fst p) (fst q) = true /\ fst p <> "" /\ fst q <> "".
Lemma all_apart : ForallOrdPairs apart wanted.
Proof.
  unfold wanted.
  repeat (constructor; [repeat (constructor; [first [left; split; reflexivity|
    right; left; (split; [solve [left; reflexivity|right; reflexivity]|reflexivity])|right; right; (split; [vm_compute; reflexivity|]); (split; [vm_compute; reflexivity|]); split; discriminate]|]); constructor|]).
  constructor.
Qed.
Lemma pairs_in {A} (R : A -> A -> Prop) b p a q : ForallOrdPairs R (b ++ p :: a) -> In q a -> R p q.
Proof.
  induction b as [|x b IH]; cbn [app]; intros H I; inversion H as [|y l F G]; subst; [|auto]. rewrite Forall_forall in F. auto.
Qed.

Lemma stale_pattern s before old new after p :
  wanted = (before ++ (old, new) :: after)%list -> contains s old -> In p after -> contains s (fst p) ->
  (old = ": buffer" -> ~ contains s "neo3vm::") -> (old = "int_" \/ old = "bool_" -> ~ contains s "_Shape = Tuple[int, ...]") ->
  contains (fix_line s) old.
Proof.
  intros W C I Cp X Y. destruct (line_exact s) as [(F & _)|(b & o & n & a & E & Co & F & R)].
  { rewrite W in F. apply Forall_app in F. destruct F as (_ & F). inversion F. subst. now destruct H1. }
  assert (In (o, n) after) as Io.
  { rewrite W in E. clear - E I Cp F. revert b E. induction before as [|q before IH]; intros [|q' b] E; cbn in E.
    - injection E as _ _ <-. exfalso. rewrite Forall_forall in F. exact (F p I Cp).
    - injection E as <- ->. apply in_or_app. right. now left.
    - injection E as <- <-. exfalso. rewrite Forall_forall in F. apply (F p); [|exact Cp]. apply in_or_app. right. now right.
    - injection E as _ E. exact (IH b E). }
  assert (clear_of o old = true /\ clear_of old o = true /\ old <> "" /\ o <> "") as (K1 & K2 & K3 & K4).
  { pose proof all_apart as P. rewrite W in P. destruct (pairs_in apart before (old, new) after (o, n) P Io) as [(Q1 & Q2)|[(Q1 & Q2)|Q]]; [| |exact Q]; exfalso.
    - cbn [fst] in Q1, Q2. subst old o. now apply X.
    - cbn [fst] in Q1, Q2. subst o. now apply Y. }
  exact (survives o n s (fix_line s) old K1 K2 K3 K4 R C).
Qed.

(** * The method __int__ *)
Lemma contains_app_l a b t : contains a t -> contains (a ++ b) t.
Proof. intros (x & y & ->). exists x, (y ++ b). now rewrite !app_assoc_s. Qed.
Lemma contains_app_r a b t : contains b t -> contains (a ++ b) t.
Proof. intros (x & y & ->). exists (a ++ x), y. now rewrite !app_assoc_s. Qed.

Lemma int_renamed a b : ~ contains (a ++ "__") "int_" -> ~ contains ("_" ++ b) "int_" ->
  Forall (fun t => ~ contains (a ++ "__int__" ++ b) t) ["bool_"; "from numpy import float64"; "_Shape = Tuple[int, ...]"] ->
  fix_line (a ++ "__int__" ++ b) = a ++ "__int_" ++ b.
Proof.
  intros Ha Hb F. symmetry. apply line_determined. right. exists [(": buffer", ": bytes"); ("neo3vm::", "")], "int_", "int",
    [("bool_", "bool"); ("from numpy import float64", ""); ("_Shape = Tuple[int, ...]", "")].
  split; [reflexivity|].
  assert (a ++ "__int__" ++ b = (a ++ "__") ++ "int_" ++ ("_" ++ b)) as E by (rewrite app_assoc_s; reflexivity).
  split; [now exists (a ++ "__"), ("_" ++ b)|].
  split; [inversion F as [|x1 l1 F1 G1]; subst; inversion G1 as [|x2 l2 F2 G2]; subst; inversion G2 as [|x3 l3 F3 G3]; subst; repeat constructor; assumption|].
  rewrite E. replace (a ++ "__int_" ++ b) with ((a ++ "__") ++ "int" ++ ("_" ++ b)) by (rewrite app_assoc_s; reflexivity).
  apply cut; [|apply none_left; exact Hb].
  intros x y Exy.
  destruct (cuts _ _ _ _ Exy) as [(u & Eu & E2)|(u & Eu & E2)].
  - destruct u as [|c u]; [now rewrite app_nil_s in Eu|]. exfalso.
    destruct u as [|c1 u]; [cbn in E2; congruence|]. destruct u as [|c2 u]; [cbn in E2; congruence|].
    destruct u as [|c3 u]; [cbn in E2; congruence|]. cbn in E2. injection E2 as <- <- <- <- _.
    apply Ha. rewrite Eu. now exists x, u.
  - assert (String.length "int_" = String.length (u ++ "int_" ++ y)) as L by now rewrite <- E2.
    rewrite !length_app in L. cbn [String.length] in L. destruct u; [|cbn [String.length] in L; lia].
    now rewrite app_nil_s in Eu.
Qed.

(** * The file *)
Lemma line_read a rest : (forall x y, a <> x ++ String newline y) -> lines_of (a ++ String newline rest) = (a ++ String newline "") :: lines_of rest.
Proof.
  induction a as [|c a IH]; intros H.
  - cbn [append lines_of]. now rewrite Ascii.eqb_refl.
  - cbn [append lines_of]. destruct (Ascii.eqb_spec c newline) as [->|N]; [exfalso; now apply (H "" a)|].
    rewrite IH; [reflexivity|]. intros x y ->. now apply (H (String c x) y).
Qed.

Lemma last_read a : a <> "" -> (forall x y, a <> x ++ String newline y) -> lines_of a = [a].
Proof.
  induction a as [|c a IH]; intros N H; [now elim N|].
  cbn [lines_of]. destruct (Ascii.eqb_spec c newline) as [->|Nc]; [exfalso; now apply (H "" a)|].
  destruct a as [|d a]; [reflexivity|]. rewrite IH; [reflexivity|discriminate|]. intros x y E. apply (H (String c x) y).
  cbn [append]. now rewrite E.
Qed.

Lemma lines_read l : file_lines l -> lines_of (text_of l) = l.
Proof.
  induction 1 as [|s N H|s l (a & -> & H) _ IH]; [reflexivity| |]; unfold text_of in *; cbn [fold_right].
  - rewrite app_nil_s. now apply last_read.
  - rewrite app_assoc_s. unfold end_of_line. cbn [append]. fold newline. rewrite (line_read a _ H). now rewrite IH.
Qed.

Lemma text_same l : text l = text_of l.
Proof.
  unfold text, text_of. induction l as [|s l IH]; [reflexivity|]. cbn [fold_right]. rewrite <- IH. destruct l as [|t l]; cbn [String.concat].
  - now rewrite app_nil_s.
  - reflexivity.
Qed.

Lemma map_lines l : Forall2 (last_replaced wanted) l (map fix_line l).
Proof. induction l as [|s l IH]; constructor; [apply line_exact|exact IH]. Qed.

Lemma file_exact path l : file_lines l ->
  (~ contains path "neo3vm" -> exists l', Forall2 (last_replaced wanted) l l' /\ fix_stubs path (text l) = text l') /\
  (contains path "neo3vm" -> exists l', fixed import_line l l' /\ fix_stubs path (text l) = text l').
Proof.
  intros H. assert (lines_of (text_of l) = l) as E by (apply lines_read; exact H). unfold fix_stubs. rewrite text_same, E. split; intros C.
  - apply occurs_not in C. rewrite C. exists (map fix_line l). split; [apply map_lines|]. now rewrite text_same.
  - apply occurs_iff in C. rewrite C. eexists. split; [|rewrite text_same; reflexivity].
    destruct l as [|p [|q l]]; cbn [map firstn skipn app].
    + apply (at_end import_line [] []); [cbn; lia|constructor].
    + apply (at_end import_line [p] [fix_line p]); [cbn; lia|]. apply (map_lines [p]).
    + apply third; [apply line_exact|apply line_exact|apply map_lines].
Qed.

Lemma every_file s : exists l, file_lines l /\ s = text l.
Proof.
  exists (lines_of s). rewrite text_same. unfold text_of. induction s as [|c s (F & E)]; cbn [lines_of].
  { split; [constructor|reflexivity]. }
  destruct (Ascii.eqb_spec c newline) as [->|N].
  - split.
    + constructor; [|exact F]. exists "". split; [reflexivity|]. intros [|x a] b Q; discriminate Q.
    + cbn [fold_right append]. now rewrite <- E.
  - destruct F as [|t Nt H|t l (a & -> & H) F]; cbn [fold_right] in *.
    + split; [|now rewrite E]. constructor; [discriminate|].
      intros [|x a] b Q; injection Q as Q1 Q2; [now apply N|]. destruct a; discriminate Q2.
    + split; [|cbn [append] in *; now rewrite <- E]. constructor; [discriminate|].
      intros [|x a] b Q; injection Q as Q1 Q2; [now apply N|]. now apply (H a b).
    + split; [|cbn [append] in *; now rewrite <- E]. constructor; [|exact F]. exists (String c a).
      split; [reflexivity|]. intros [|x b] d Q; injection Q as Q1 Q2; [now apply N|]. now apply (H b d).
Qed.
