(** Proofs about keyword arguments. *)
From Coq Require Import String List Arith Lia Bool.
From Verif Require Import Machine BigInt PyBind BigIntLogDouble PyRun PyClass PyClassLog PyKeywords SpecKeywords.
Import ListNotations.
Open Scope string_scope.
Open Scope list_scope.

Lemma given_iff k kw : given k kw = true <-> In k (map fst kw).
Proof.
  unfold given. rewrite existsb_exists, in_map_iff. split.
  - intros (p & I & E). apply String.eqb_eq in E. exists p. auto.
  - intros (p & E & I). exists p. split; [exact I|]. now apply String.eqb_eq.
Qed.

Lemma look_some k kw v : NoDup (map fst kw) -> (look k kw = Some v <-> In (k, v) kw).
Proof.
  unfold look. induction kw as [|(k' & v') kw IH]; cbn [map fst find]; intros N; [split; [discriminate|contradiction]|].
  inversion N as [|x l Nx Nl]; subst. destruct (String.eqb_spec k k') as [->|D]; cbn [option_map snd].
  - split; [intros [= ->]; now left|]. intros [[= ->]|I]; [reflexivity|]. exfalso. apply Nx. now apply (in_map fst kw (k', v)).
  - rewrite (IH Nl). split; [now right|]. intros [[= -> _]|I]; [congruence|exact I].
Qed.
Lemma look_none k kw : look k kw = None <-> ~ In k (map fst kw).
Proof.
  unfold look. induction kw as [|(k' & v') kw IH]; cbn [map fst find]; [split; auto|].
  destruct (String.eqb_spec k k') as [->|D]; cbn [option_map snd]; [split; [discriminate|intros H; destruct H; now left]|].
  rewrite IH. split; [intros H [E|I]; [congruence|auto]|intros H I; apply H; now right].
Qed.

Lemma without_in k kw p : In p (without k kw) <-> In p kw /\ fst p <> k.
Proof.
  unfold without. rewrite filter_In, negb_true_iff. split; intros (A & B); (split; [exact A|]).
  - apply String.eqb_neq in B. congruence.
  - apply String.eqb_neq. congruence.
Qed.
Lemma without_keys k kw x : In x (map fst (without k kw)) <-> In x (map fst kw) /\ x <> k.
Proof.
  rewrite !in_map_iff. split.
  - intros (p & <- & I). apply without_in in I. destruct I. split; [exists p; auto|assumption].
  - intros ((p & <- & I) & N). exists p. split; [reflexivity|]. apply without_in. auto.
Qed.
Lemma without_nodup k kw : NoDup (map fst kw) -> NoDup (map fst (without k kw)).
Proof.
  unfold without. induction kw as [|p kw IH]; cbn [map filter]; intros N; [constructor|]. inversion N as [|x l Nx Nl]; subst.
  destruct (negb (String.eqb k (fst p))); [|auto]. cbn [map]. constructor; [|auto]. intros I. apply Nx.
  apply (without_keys k kw (fst p)) in I. tauto.
Qed.

Definition fits (kw : list (string * object)) (p : string * option object) (v : object) : Prop :=
  In (fst p, v) kw \/ ~ In (fst p) (map fst kw) /\ snd p = Some v.

Lemma fits_without k kw l vs : ~ In k (map fst l) -> (Forall2 (fits (without k kw)) l vs <-> Forall2 (fits kw) l vs).
Proof.
  revert vs. induction l as [|p l IH]; intros vs N; [split; inversion 1; constructor|].
  assert (fst p <> k) as D by (intros E; apply N; now left).
  assert (~ In k (map fst l)) as N' by (intros I; apply N; now right).
  assert (forall v, fits (without k kw) p v <-> fits kw p v) as F.
  { intros v. unfold fits. rewrite without_in, without_keys. cbn [fst]. tauto. }
  split; inversion 1 as [|x y xs ys H1 H2]; subst; constructor; (now apply F) || (now apply IH).
Qed.

Lemma fill_ok : forall l kw vs, NoDup (map fst l) -> NoDup (map fst kw) ->
  (fill l kw = Some (vs, []) <-> Forall2 (fits kw) l vs /\ Forall (fun k => In k (map fst l)) (map fst kw)).
Proof.
  induction l as [|(k & d) l IH]; intros kw vs Nl Nk; cbn [fill].
  - split.
    + intros [= <- ->]. split; constructor.
    + intros (F & G). inversion F; subst. destruct kw as [|p kw]; [reflexivity|]. inversion G. contradiction.
  - inversion Nl as [|x y Nx Ny]; subst. cbn [map fst].
    destruct (look k kw) as [v|] eqn:L.
    + assert (In (k, v) kw) as I by now apply look_some in L.
      destruct vs as [|v' vs].
      { split; [|intros (F & _); inversion F]. destruct (fill l (without k kw)) as [(? & ?)|]; discriminate. }
      specialize (IH (without k kw) vs Ny (without_nodup k kw Nk)). rewrite (fits_without k kw l vs Nx) in IH.
      assert (option_map (fun '(vs, kw) => (v :: vs, kw)) (fill l (without k kw)) = Some (v' :: vs, []) <->
              v = v' /\ fill l (without k kw) = Some (vs, [])) as E.
      { destruct (fill l (without k kw)) as [(a & b)|]; cbn [option_map]; split; try discriminate; [| |intros (_ & H); discriminate].
        - intros [= -> -> ->]. auto.
        - intros (-> & [= -> ->]). reflexivity. }
      rewrite E, IH. split.
      * intros (-> & F & G). split; [constructor; [now left|exact F]|]. apply Forall_forall. intros x Ix.
        destruct (string_dec x k) as [->|D]; [now left|right]. rewrite Forall_forall in G. apply G. apply without_keys. auto.
      * intros (F & G). inversion F as [|? ? ? ? F1 F2]; subst. split.
        { destruct F1 as [F1|(F1 & _)].
          - apply (look_some k kw v' Nk) in F1. congruence.
          - exfalso. apply F1. exact (in_map fst kw (k, v) I). }
        split; [exact F2|]. apply Forall_forall. intros x Ix. apply without_keys in Ix. destruct Ix as (Ix & D).
        rewrite Forall_forall in G. destruct (G x Ix) as [E'|H]; [congruence|exact H].
    + apply look_none in L. destruct d as [v|].
      * destruct vs as [|v' vs].
        { split; [|intros (F & _); inversion F]. destruct (fill l kw) as [(? & ?)|]; discriminate. }
        specialize (IH kw vs Ny Nk).
        assert (option_map (fun '(vs, kw) => (v :: vs, kw)) (fill l kw) = Some (v' :: vs, []) <-> v = v' /\ fill l kw = Some (vs, [])) as E.
        { destruct (fill l kw) as [(a & b)|]; cbn [option_map]; split; try discriminate; [| |intros (_ & H); discriminate].
          - intros [= -> -> ->]. auto.
          - intros (-> & [= -> ->]). reflexivity. }
        rewrite E, IH. split.
        -- intros (-> & F & G). split; [constructor; [right; auto|exact F]|]. eapply Forall_impl; [|exact G]. intros x H. now right.
        -- intros (F & G). inversion F as [|? ? ? ? F1 F2]; subst. split.
           { destruct F1 as [F1|(_ & F1)]; [exfalso; apply L; exact (in_map fst kw (k, v') F1)|]. cbn [snd] in F1. congruence. }
           split; [exact F2|]. apply Forall_forall. intros x Ix. rewrite Forall_forall in G. destruct (G x Ix) as [E'|H]; [congruence|exact H].
      * split; [discriminate|]. intros (F & _). inversion F as [|? ? ? ? F1 F2]; subst. exfalso.
        destruct F1 as [F1|(_ & F1)]; [apply L; exact (in_map fst kw (k, y) F1)|discriminate].
Qed.

(** All the records there are parameters. *)
Lemma bind_ok l args kw full : NoDup (map fst l) -> NoDup (map fst kw) ->
  (bind_args (List.length l) l args kw = Some full <-> binds l args kw full).
Proof.
  intros Nl Nk. unfold bind_args. set (k := List.length args).
  destruct (Nat.ltb_spec (List.length l) k) as [H|H].
  { split; [discriminate|]. intros (f & r & v & -> & E & _). rewrite app_length in H. lia. }
  replace (Nat.ltb k (List.length l) && Nat.ltb (List.length l) (List.length l)) with false
    by (rewrite (proj2 (Nat.ltb_ge (List.length l) (List.length l)) (Nat.le_refl _)); now rewrite andb_false_r).
  replace (firstn (List.length l - k) (skipn k l)) with (skipn k l)
    by (rewrite firstn_all2; [reflexivity|rewrite skipn_length; lia]).
  assert (NoDup (map fst (firstn k l) ++ map fst (skipn k l))) as N2 by (rewrite <- map_app, firstn_skipn; exact Nl).
  assert (NoDup (map fst (skipn k l))) as Ns.
  { clear - N2. induction (map fst (firstn k l)) as [|x y IH]; [exact N2|]. inversion N2. auto. }
  assert (binds l args kw full <-> exists vs, full = args ++ vs /\ Forall2 (fits kw) (skipn k l) vs /\ Forall (fun k0 => In k0 (map fst (skipn k l))) (map fst kw)) as B.
  { split.
    - intros (f & r & v & -> & E & -> & F & G). exists v. subst k. rewrite <- E, skipn_app, skipn_all, Nat.sub_diag. cbn [skipn app]. auto.
    - intros (vs & -> & F & G). exists (firstn k l), (skipn k l), vs. split; [now rewrite firstn_skipn|].
      split; [rewrite firstn_length; lia|]. auto. }
  rewrite B. destruct (existsb (fun r => given (fst r) kw) (firstn k l)) eqn:X.
  - split; [discriminate|]. intros (vs & _ & _ & G). exfalso. apply existsb_exists in X. destruct X as (p & Ip & Gp). apply given_iff in Gp.
    rewrite Forall_forall in G. specialize (G _ Gp). pose proof (in_map fst _ _ Ip) as Ip'.
    clear - N2 G Ip'. induction (map fst (firstn k l)) as [|x y IH]; [contradiction|]. inversion N2 as [|? ? A1 A2]; subst.
    destruct Ip' as [->|Ip']; [|auto]. apply A1. apply in_or_app. now right.
  - pose proof (fill_ok (skipn k l) kw) as FO. destruct (fill (skipn k l) kw) as [(vs & [|q left])|].
    + split.
      * intros [= <-]. exists vs. split; [reflexivity|]. now apply FO.
      * intros (vs' & -> & F). apply FO in F; [|exact Ns|exact Nk]. injection F as ->. reflexivity.
    + split; [discriminate|]. intros (vs' & -> & F). apply FO in F; [|exact Ns|exact Nk]. discriminate.
    + split; [discriminate|]. intros (vs' & -> & F). apply FO in F; [|exact Ns|exact Nk]. discriminate.
Qed.

Lemma bind_bare n args kw : bind_args n [] args kw = if Nat.eqb (List.length args) n then match kw with [] => Some args | _ => None end else None.
Proof.
  unfold bind_args. rewrite !firstn_nil, !skipn_nil, !firstn_nil. cbn [existsb fill List.length].
  destruct (Nat.eqb_spec (List.length args) n) as [<-|D].
  - rewrite (proj2 (Nat.ltb_ge _ _) (Nat.le_refl _)). cbn [andb]. destruct kw; [now rewrite app_nil_r|reflexivity].
  - destruct (Nat.ltb_spec n (List.length args)); [reflexivity|]. rewrite (proj2 (Nat.ltb_lt (List.length args) n)) by lia.
    rewrite (proj2 (Nat.ltb_lt 0 n)) by lia. reflexivity.
Qed.

(** * Calls *)
Lemma accept_arity o args : accept o args <> None -> (forall f, o <> Fbff f) -> List.length args = arity o.
Proof.
  intros H N. destruct o; try (now destruct (N f));
    destruct args as [|[?|?] [|[?|?] [|[?|?] [|? ?]]]]; cbn in *; try reflexivity; try congruence; destruct n; congruence.
Qed.

Lemma no_flags d c name o : In o (overloads d c name) -> name <> "to_array" -> forall f, o <> Fbff f.
Proof.
  unfold overloads. rewrite in_map_iff. intros ((k & o') & E & I) N f. cbn [snd] in E. subst o'. apply filter_In in I. destruct I as (I & K).
  cbn [fst] in K. apply String.eqb_eq in K. subst k. intros ->.
  unfold methods in I. repeat (destruct I as [I|I]; [first [discriminate|injection I as <- _; congruence]|]). contradiction.
Qed.

Lemma bare_calls d c name args kw : name <> "__init__" -> name <> "to_array" ->
  call_kw d c name args kw = match kw with [] => call d c name args | _ => None end.
Proof.
  intros N1 N2. unfold call_kw, call, first_of, records. rewrite (proj2 (String.eqb_neq _ _) N1), (proj2 (String.eqb_neq _ _) N2).
  pose proof (no_flags d c name) as NF. induction (overloads d c name) as [|o l IH]; cbn [fold_right]; [now destruct kw|].
  rewrite IH by (intros o' I; apply NF; now right). rewrite bind_bare.
  destruct (Nat.eqb_spec (List.length args) (arity o)) as [E|E].
  - destruct kw; reflexivity.
  - destruct kw as [|p kw]; [|reflexivity]. destruct (accept o args) eqn:A; [|reflexivity]. exfalso. apply E.
    apply accept_arity; [congruence|]. apply NF; [now left|exact N2].
Qed.

Lemma named_calls d c name args kw : Forall (fun o => arity o = List.length (records name)) (overloads d c name) ->
  call_kw d c name args kw = match bind_args (List.length (records name)) (records name) args kw with Some full => call d c name full | None => None end.
Proof.
  unfold call_kw, call, first_of. induction 1 as [|o l E _ IH]; cbn [fold_right].
  - now destruct (bind_args _ _ _ _).
  - rewrite IH, E. now destruct (bind_args _ _ _ _).
Qed.

Lemma through_binds d c name ps args kw : records name = ps -> NoDup (map fst ps) -> NoDup (map fst kw) ->
  Forall (fun o => arity o = List.length (records name)) (overloads d c name) ->
  (forall full, binds ps args kw full -> call_kw d c name args kw = call d c name full) /\
  ((forall full, ~ binds ps args kw full) -> call_kw d c name args kw = None).
Proof.
  intros R Np Nk A. rewrite (named_calls d c name args kw A), R. split.
  - intros full B. apply (bind_ok ps args kw full Np Nk) in B. now rewrite B.
  - intros H. destruct (bind_args (List.length ps) ps args kw) as [full|] eqn:E; [|reflexivity].
    apply (bind_ok ps args kw full Np Nk) in E. now destruct (H full).
Qed.

Lemma init_kw d c args kw : NoDup (map fst kw) ->
  (forall full, binds params_init args kw full -> call_kw d c "__init__" args kw = call d c "__init__" full) /\
  ((forall full, ~ binds params_init args kw full) -> call_kw d c "__init__" args kw = None).
Proof.
  intros N. apply through_binds; [reflexivity|repeat constructor; cbn; tauto|exact N|]. cbv [overloads]. cbn. repeat constructor.
Qed.

Lemma to_array_kw d c args kw : NoDup (map fst kw) ->
  (forall full, binds params_to_array args kw full -> call_kw d c "to_array" args kw = call d c "to_array" full) /\
  ((forall full, ~ binds params_to_array args kw full) -> call_kw d c "to_array" args kw = None).
Proof.
  intros N. apply through_binds; [reflexivity| |exact N|cbv [overloads]; cbn; repeat constructor].
  repeat constructor; cbn; intuition discriminate.
Qed.

(** Without keywords, as before. *)
Lemma no_keywords d c name args : call_kw d c name args [] = call d c name args.
Proof.
  destruct (string_dec name "__init__") as [->|N1].
  { destruct args as [|x [|y args]]; cbn; try reflexivity; destruct x as [?|[]]; reflexivity. }
  destruct (string_dec name "to_array") as [->|N2]; [|exact (bare_calls d c name args [] N1 N2)].
  destruct args as [|x [|y [|z [|w args]]]]; cbn; try reflexivity.
  all: destruct x; try reflexivity; destruct (as_flag y); reflexivity.
Qed.

(** * log *)
Lemma log_arity convert c o args : accept_log convert c o args <> None -> List.length args = List.length (log_records o).
Proof. destruct o; destruct args as [|[?|?] [|? [|? ?]]]; cbn; congruence. Qed.

Definition log_pass (convert : bool) (c : cfg) (l : list log_overload) (args : list object) : option (outcome double) :=
  fold_right (fun o r => match accept_log convert c o args with Some x => Some x | None => r end) None l.
Definition log_pass_kw (convert : bool) (c : cfg) (l : list log_overload) (args : list object) (kw : keywords) : option (outcome double) :=
  fold_right (fun o r =>
      match bind_args (List.length (log_records o)) (log_records o) args kw with
      | Some full => match accept_log convert c o full with Some x => Some x | None => r end
      | None => r
      end) None l.

(** At most one of the two parameter lists binds. *)
Lemma one_list args kw full : NoDup (map fst kw) -> binds params_log args kw full -> forall full', ~ binds params_log_base args kw full'.
Proof.
  intros N (f & r & v & E & L & -> & F & G) full' (f' & r' & v' & E' & L' & -> & F' & G').
  unfold params_log, params_log_base, required in *.
  destruct f as [|p f]; destruct f' as [|p' f']; cbn in L, L'; try lia.
  - cbn in E, E'. subst r r'. inversion F' as [|? ? ? ? A1 A2]; subst. inversion A2 as [|? ? ? ? B1 B2]; subst.
    destruct B1 as [B1|(_ & B1)]; [|discriminate]. cbn [fst] in B1. apply (in_map fst) in B1. cbn [fst] in B1.
    rewrite Forall_forall in G. destruct (G _ B1) as [H|H]; [discriminate|contradiction].
  - injection E as <- E. destruct f; [|discriminate]. cbn in E. subst r. injection E' as <- E'.
    destruct f' as [|p2 f']; [|cbn in L, L'; lia]. cbn in E'. subst r'. inversion F' as [|? ? ? ? A1 A2]; subst.
    destruct A1 as [A1|(_ & A1)]; [|discriminate]. cbn [fst] in A1. apply (in_map fst) in A1. cbn [fst] in A1.
    rewrite Forall_forall in G. destruct (G _ A1).
Qed.

Lemma binds_length ps args kw full : binds ps args kw full -> List.length full = List.length ps.
Proof. intros (f & r & v & -> & L & -> & F & _). rewrite !app_length, L. f_equal. clear - F. induction F; cbn [List.length]; congruence. Qed.

Lemma pass_bound convert c l args kw full ps : NoDup (map fst kw) -> ps = params_log \/ ps = params_log_base -> binds ps args kw full ->
  log_pass_kw convert c l args kw = log_pass convert c l full.
Proof.
  intros N P B. pose proof (binds_length _ _ _ _ B) as Lf. induction l as [|o l IH]; [reflexivity|]. cbn [log_pass_kw log_pass fold_right].
  fold (log_pass convert c l full). fold (log_pass_kw convert c l args kw). rewrite IH.
  assert (NoDup (map fst params_log)) as N1 by (repeat constructor; cbn; tauto).
  assert (NoDup (map fst params_log_base)) as N2 by (repeat constructor; cbn; intuition discriminate).
  assert (log_records o = params_log \/ log_records o = params_log_base) as O by (destruct o; auto).
  assert (log_records o = ps \/ log_records o <> ps) as [E|E].
  { destruct O as [-> | ->], P as [-> | ->]; (left; reflexivity) || (right; discriminate). }
  - assert (bind_args (List.length (log_records o)) (log_records o) args kw = Some full) as X.
    { rewrite E. apply bind_ok; [destruct P as [-> | ->]; assumption|exact N|exact B]. }
    unfold param, keywords in *. rewrite X. reflexivity.
  - assert (bind_args (List.length (log_records o)) (log_records o) args kw = None) as X.
    { destruct (bind_args _ _ _ _) as [full'|] eqn:X; [|reflexivity]. exfalso.
      apply bind_ok in X; [|destruct O as [-> | ->]; assumption|exact N].
      destruct O as [O|O], P as [P|P]; rewrite O in X, E; subst ps; try congruence.
      - exact (one_list args kw full' N X full B).
      - exact (one_list args kw full N B full' X). }
    unfold param, keywords in *. rewrite X. destruct (accept_log convert c o full) eqn:A; [|reflexivity]. exfalso.
    assert (List.length full = List.length (log_records o)) as L by (apply (log_arity convert c o full); congruence).
    rewrite Lf in L. destruct O as [O|O], P as [P|P]; rewrite O in L, E; rewrite P in L, E; congruence || discriminate.
Qed.

Lemma log_kw d logf c ten args kw : NoDup (map fst kw) ->
  (forall full, binds params_log args kw full \/ binds params_log_base args kw full ->
     log_call_kw d logf c ten args kw = log_call d logf c ten full) /\
  ((forall full, ~ binds params_log args kw full /\ ~ binds params_log_base args kw full) -> log_call_kw d logf c ten args kw = None).
Proof.
  intros N.
  change (log_call_kw d logf c ten args kw) with
    (match log_pass_kw false c (log_methods d logf c ten) args kw with Some x => Some x | None => log_pass_kw true c (log_methods d logf c ten) args kw end).
  split.
  - intros full B. assert (exists ps, (ps = params_log \/ ps = params_log_base) /\ binds ps args kw full) as (ps & P & B')
      by (destruct B; eauto).
    rewrite !(fun b l => pass_bound b c l args kw full ps N P B'). reflexivity.
  - intros H. assert (forall b l, log_pass_kw b c l args kw = None) as E; [|now rewrite !E].
    intros b l. induction l as [|o l IH]; [reflexivity|]. cbn [log_pass_kw fold_right]. fold (log_pass_kw b c l args kw). rewrite IH.
    destruct (bind_args _ _ _ _) as [full|] eqn:X; [|reflexivity]. exfalso. destruct (H full) as (H1 & H2).
    apply bind_ok in X; [|destruct o; repeat constructor; cbn; intuition discriminate|exact N]. destruct o; (now apply H1) || (now apply H2).
Qed.
Lemma log_no_keywords d logf c ten args : log_call_kw d logf c ten args [] = log_call d logf c ten args.
Proof.
  change (log_call_kw d logf c ten args []) with
    (match log_pass_kw false c (log_methods d logf c ten) args [] with Some x => Some x | None => log_pass_kw true c (log_methods d logf c ten) args [] end).
  assert (forall b l, log_pass_kw b c l args [] = log_pass b c l args) as E; [|now rewrite !E].
  intros b l. induction l as [|o l IH]; [reflexivity|]. cbn [log_pass_kw log_pass fold_right]. fold (log_pass_kw b c l args []). fold (log_pass b c l args).
  rewrite IH. destruct o; destruct args as [|x [|y [|z args]]]; cbn; try reflexivity; destruct x; reflexivity.
Qed.
