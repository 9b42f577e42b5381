(** Property theorems: objects reachable by any history of API calls. *)
From Coq Require Import String.
From Verif Require Import Machine Spec SpecGcd BigInt ApiMem ApiRun RunFacts SpecMem SpecRun RunExact Examples.

(** C01. [reachable c m]: the store [m] can be got to from default objects by
    public calls on any arguments of the right C++ types; calls may throw. *)
Theorem C01_reachable_canonical : forall c m p, reachable c m -> canonical (m p).
Proof. exact reachable_canonical. Qed.
Print Assumptions C01_reachable_canonical.
Theorem C01_same_value_identical : forall c m p q,
  reachable c m -> (value (m p) = value (m q) <-> m p = m q).
Proof. exact reachable_identical. Qed.
Print Assumptions C01_same_value_identical.
Theorem C01_asserts_hold : forall c m p, reachable c m -> assert_valid c (m p) = Ret tt.
Proof. exact reachable_valid. Qed.
Print Assumptions C01_asserts_hold.
(** x = parse("-18446744073709551616"); y = 7; x / 0 throws; x %= y; z = x. *)
Example C01_case : exists m,
  reachable debug_strict m /\ m 0%nat = Big (-2) [] /\ m 1%nat = Big 7 [] /\ m 2%nat = Big (-2) [] /\
  m 3%nat = Big (-1) [0; 0; 1].
Proof.
  pose (m0 := fun _ : loc => bi_default).
  pose (m1 := put m0 0%nat (Big (-1) [0; 0; 1])).
  pose (m2 := put m1 1%nat (Big 7 [])).
  pose (m3 := put m2 3%nat (Big (-1) [0; 0; 1])).
  pose (m5 := put m3 0%nat (Big (-2) [])).
  exists (put m5 2%nat (Big (-2) [])). split; [|auto].
  apply (Returned _ (Copy 2%nat 0%nat) O m5); [|exact I|vm_compute; reflexivity].
  apply (Returned _ (Assign RemA 0%nat 1%nat) O m3); [|exact I|vm_compute; reflexivity].
  apply (Threw _ (Assign DivA 0%nat 2%nat) O DivideByZero m3); [|exact I|vm_compute; reflexivity].
  apply (Returned _ (Copy 3%nat 0%nat) O m2); [|exact I|vm_compute; reflexivity].
  apply (Returned _ (NewInt 1%nat 7) O m1); [|split; [discriminate|reflexivity]|vm_compute; reflexivity].
  apply (Returned _ (Parse 0%nat "-18446744073709551616") O m0); [apply Start|exact I|vm_compute; reflexivity].
Qed.

(** C46. A program of API calls with arguments of the right C++ types, started
    on objects that stand for the integers [s], does what the calls are
    documented to do on integers ([history]: one [effect] after the other, the
    exceptions [tr] being caught), provided each call is [in_scope], that is,
    outside the cases where other properties show the code wrong. [effect] is
    total there and a function. Missing from the full claim: exactly the calls
    out of scope. *)
Theorem C46_history_exact_partial : forall c s l tr s',
  history c s l tr s' ->
  exists N, forall fuel m, (N <= fuel)%nat -> stands_for m s ->
    exists m', run_calls fuel c l m = Some (tr, m') /\ stands_for m' s'.
Proof. exact history_exact. Qed.
Print Assumptions C46_history_exact_partial.
Theorem C46_effect_total : forall c s k, typed k -> in_scope c s k -> exists r, effect s k r.
Proof. exact effect_total. Qed.
Print Assumptions C46_effect_total.
Theorem C46_effect_unique : forall s k r1 r2, effect s k r1 -> effect s k r2 -> r1 = r2.
Proof. exact effect_unique. Qed.
Print Assumptions C46_effect_unique.
(** x = parse("-18446744073709551616"); y = 7; x / z throws; x %= y; --y;
    q = div_rem(y, x, r); y <<= 64; g = gcd(y, r). *)
Definition C46_program : list cmd :=
  [Parse 0%nat "-18446744073709551616"; NewInt 1%nat 7; Binary DivA 5%nat 0%nat 2%nat; Assign RemA 0%nat 1%nat;
   Dec 1%nat; DivRem 2%nat 1%nat 0%nat 3%nat; ShlAssign 1%nat 64; Gcd 4%nat 1%nat 0%nat].
Example C46_case : exists s',
  history debug_strict (fun _ => 0) C46_program
    [None; None; Some DivideByZero; None; None; None; None; None] s' /\
  map s' [0; 1; 2; 3; 4; 5]%nat = [-2; 6 * 2 ^ 64; -3; 0; 2; 0] /\
  option_map (fun p => map (snd p) [0; 1; 2; 3; 4; 5]%nat) (run_calls 1 debug_strict C46_program (fun _ => bi_default)) =
    Some [Big (-2) []; Big 1 [0; 0; 6]; Big (-3) []; Big 0 []; Big 2 []; Big 0 []].
Proof.
  eexists. split; [|split; [|vm_compute; reflexivity]].
  - apply HStores with (s1 := set (fun _ => 0) 0%nat (- 2 ^ 64)); [exact I|exact I|exact (EParse _ _ "-18446744073709551616")|].
    eapply HStores; [split; [discriminate|reflexivity]|exact I|apply ENewInt|].
    eapply HRaises; [exact I|exact I|apply EBinaryX; [left; reflexivity|reflexivity]|].
    eapply HStores; [exact I|exact I|apply EAssign; intros _; discriminate|].
    eapply HStores; [exact I|exact I|apply EDec|].
    eapply HStores; [exact I| |apply EDivRem; discriminate|].
    { intros _. split; [discriminate|]. split; [discriminate|]. intros (H & _). apply H. reflexivity. }
    eapply HStores; [split; [discriminate|reflexivity]|discriminate|apply EShlAssign|].
    eapply HStores; [exact I|apply run_small; reflexivity|apply EGcd|].
    apply HEnd.
  - vm_compute. reflexivity.
Qed.
