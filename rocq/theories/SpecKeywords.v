(** Keyword arguments as Python binds them. *)
From Coq Require Import String List.
From Verif Require Import PyClass.
Import ListNotations.
Open Scope string_scope.
Open Scope list_scope.

(** A parameter: its name and its default, if any. *)
Definition param := (string * option object)%type.
Definition required (k : string) : param := (k, None).
Definition flag (k : string) : param := (k, Some (PNative (NBool false))).

(** The positional arguments go to the first parameters; each of the others gets its
    keyword argument or else its default; every keyword names one of those. *)
Definition binds (ps : list param) (args : list object) (kw : list (string * object)) (full : list object) : Prop :=
  exists first rest values,
    ps = first ++ rest /\ List.length first = List.length args /\ full = args ++ values /\
    Forall2 (fun p v => In (fst p, v) kw \/ ~ In (fst p) (map fst kw) /\ snd p = Some v) rest values /\
    Forall (fun k => In k (map fst rest)) (map fst kw).

(** BigInteger(value), x.to_array(is_unsigned=False, is_bigendian=False), log(value),
    log(value, base_value). No other method takes keywords. *)
Definition params_init : list param := [required "value"].
Definition params_to_array : list param := [required "self"; flag "is_unsigned"; flag "is_bigendian"].
Definition params_log : list param := [required "value"].
Definition params_log_base : list param := [required "value"; required "base_value"].
