(** Property theorems: keyword arguments in calls of the Python module. *)
From Coq Require Import String List.
From Verif Require Import Machine BigInt PyBind BigIntLogDouble PyRun PyClass PyClassLog PyKeywords SpecKeywords KeywordFacts Examples.
Import ListNotations.
Open Scope Z_scope.
Open Scope string_scope.
Open Scope list_scope.

(** C79. A call with positional and keyword arguments is the call with the arguments Python
    would bind to the parameters, and a TypeError ([None]) if it would bind none. (A call
    cannot repeat a keyword.) What the calls without keywords do: C69, C70. *)
Theorem C79_init : forall d c args kw, NoDup (map fst kw) ->
  (forall full, binds params_init args kw full -> call_kw d c "__init__" args kw = call d c "__init__" full) /\
  ((forall full, ~ binds params_init args kw full) -> call_kw d c "__init__" args kw = None).
Proof. exact init_kw. Qed.
Print Assumptions C79_init.
Theorem C79_to_array : forall d c args kw, NoDup (map fst kw) ->
  (forall full, binds params_to_array args kw full -> call_kw d c "to_array" args kw = call d c "to_array" full) /\
  ((forall full, ~ binds params_to_array args kw full) -> call_kw d c "to_array" args kw = None).
Proof. exact to_array_kw. Qed.
Print Assumptions C79_to_array.
Theorem C79_log : forall d logf c ten args kw, NoDup (map fst kw) ->
  (forall full, binds params_log args kw full \/ binds params_log_base args kw full ->
     log_call_kw d logf c ten args kw = log_call d logf c ten full) /\
  ((forall full, ~ binds params_log args kw full /\ ~ binds params_log_base args kw full) -> log_call_kw d logf c ten args kw = None).
Proof. exact log_kw. Qed.
Print Assumptions C79_log.
(** Every other method raises TypeError if it is given a keyword. *)
Theorem C79_others : forall d c name args kw, name <> "__init__" -> name <> "to_array" ->
  call_kw d c name args kw = match kw with [] => call d c name args | _ => None end.
Proof. exact bare_calls. Qed.
Print Assumptions C79_others.
(** Without keywords nothing changes. *)
Theorem C79_positional : forall d c name args, call_kw d c name args [] = call d c name args.
Proof. exact no_keywords. Qed.
Print Assumptions C79_positional.
Theorem C79_log_positional : forall d logf c ten args, log_call_kw d logf c ten args [] = log_call d logf c ten args.
Proof. exact log_no_keywords. Qed.
Print Assumptions C79_log_positional.
(** BigInteger(value=5); BigInteger(-2).to_array(is_bigendian=True, is_unsigned=False) on a
    two-byte value; to_array(False, is_unsigned=True) gives a parameter twice; zero(x=1). *)
Example C79_case :
  let no := PNative (NBool false) in let yes := PNative (NBool true) in let x := PBig (Big (-512) []) in
  NoDup (map fst [("is_bigendian", yes); ("is_unsigned", no)]) /\
  binds params_to_array [x] [("is_bigendian", yes); ("is_unsigned", no)] [x; no; yes] /\
  binds params_to_array [x] [("is_bigendian", yes)] [x; no; yes] /\
  binds params_log_base [x] [("base_value", yes)] [x; yes] /\
  call_kw LP64 debug_strict "__init__" [] [("value", PNative (NInt 5))] = Some (Ret (RBig (Big 5 []))) /\
  call_kw LP64 debug_strict "to_array" [x] [("is_bigendian", yes); ("is_unsigned", no)] = Some (Ret (RBytes [254; 0])) /\
  call_kw LP64 debug_strict "to_array" [x] [] = Some (Ret (RBytes [0; 254])) /\
  call_kw LP64 debug_strict "to_array" [x; no] [("is_unsigned", yes)] = None /\
  call_kw LP64 debug_strict "__init__" [] [("values", PNative (NInt 5))] = None /\
  call_kw LP64 debug_strict "zero" [] [("x", no)] = None.
Proof.
  cbv zeta. split; [repeat constructor; cbn; intuition discriminate|].
  split. { exists [required "self"], [flag "is_unsigned"; flag "is_bigendian"], [PNative (NBool false); PNative (NBool true)].
    repeat split; repeat constructor; cbn; tauto. }
  split. { exists [required "self"], [flag "is_unsigned"; flag "is_bigendian"], [PNative (NBool false); PNative (NBool true)].
    repeat split; try (repeat constructor; cbn; tauto). constructor; [right; cbn; intuition discriminate|]. constructor; [left; cbn; tauto|constructor]. }
  split. { exists [required "value"], [required "base_value"], [PNative (NBool true)]. repeat split; repeat constructor; cbn; tauto. }
  repeat split; vm_compute; reflexivity.
Qed.
