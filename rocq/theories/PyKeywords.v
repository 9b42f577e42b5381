(** Model of keyword arguments in calls of the Python module: pybind11's binding of
    arguments to the parameters named with py::arg (python-bindings.cpp:87-98, 308-318,
    332-341), overload by overload. *)
From Coq Require Import String.
From Verif Require Import Machine BigInt PyBind BigIntLogDouble PyRun PyClass PyClassLog.
Open Scope list_scope.
Open Scope string_scope.

(** The argument records of a method: a name and a default. pybind11 adds self to those of
    a method that has any (pybind11/attr.h); the self of __init__ is always passed by
    CPython and left out here, as in PyClass.v. *)
Definition records (name : string) : list (string * option object) :=
  if String.eqb name "__init__" then [("value", None)]
  else if String.eqb name "to_array" then
    [("self", None); ("is_unsigned", Some (PNative (NBool false))); ("is_bigendian", Some (PNative (NBool false)))]
  else [].
(** The number of C++ parameters. *)
Definition arity (o : overload) : nat :=
  match o with
  | F0 _ => 0 | Fi _ | Fbuf _ | Fb _ => 1 | Fbb _ | Fbi _ | Fbo _ => 2 | Fbbb _ | Fbib _ | Fbbi _ | Fbff _ => 3
  end%nat.

Definition keywords := list (string * object).
Definition given (k : string) (kw : keywords) : bool := existsb (fun p => String.eqb k (fst p)) kw.
Definition look (k : string) (kw : keywords) : option object := option_map snd (find (fun p => String.eqb k (fst p)) kw).
Definition without (k : string) (kw : keywords) : keywords := filter (fun p => negb (String.eqb k (fst p))) kw.

(** The parameters after the positional arguments: from a keyword, which is then used up,
    or the default. *)
Fixpoint fill (l : list (string * option object)) (kw : keywords) : option (list object * keywords) :=
  match l with
  | [] => Some ([], kw)
  | (k, default) :: l =>
      match look k kw with
      | Some v => option_map (fun '(vs, kw) => (v :: vs, kw)) (fill l (without k kw))
      | None => match default with Some v => option_map (fun '(vs, kw) => (v :: vs, kw)) (fill l kw) | None => None end
      end
  end.
(** cpp_function::dispatcher (pybind11/pybind11.h), for one overload of [n] parameters:
    not too many arguments, enough of them or enough records, no positional argument given
    again by keyword, no keyword left over. *)
Definition bind_args (n : nat) (l : list (string * option object)) (args : list object) (kw : keywords) : option (list object) :=
  let k := List.length args in
  if Nat.ltb n k then None
  else if Nat.ltb k n && Nat.ltb (List.length l) n then None
  else if existsb (fun r => given (fst r) kw) (firstn k l) then None
  else match fill (firstn (n - k) (skipn k l)) kw with
       | Some (vs, []) => Some (args ++ vs)%list
       | _ => None
       end.

Definition call_kw (d : data_model) (c : cfg) (name : string) (args : list object) (kw : keywords) : option (outcome py_result) :=
  fold_right (fun o r =>
      match bind_args (arity o) (records name) args kw with
      | Some full => match accept o full with Some x => Some x | None => r end
      | None => r
      end) None (overloads d c name).

(** BigInteger.log and BigInteger.log10 *)
Definition log_records (o : log_overload) : list (string * option object) :=
  match o with Gb _ | Gi _ => [("value", None)] | Gbd _ | Gid _ => [("value", None); ("base_value", None)] end.
Definition log_call_kw (d : data_model) (logf : double -> double) (c : cfg) (ten : bool) (args : list object) (kw : keywords) :
  option (outcome double) :=
  let pass convert := fold_right (fun o r =>
      match bind_args (List.length (log_records o)) (log_records o) args kw with
      | Some full => match accept_log convert c o full with Some x => Some x | None => r end
      | None => r
      end) None (log_methods d logf c ten) in
  match pass false with Some x => Some x | None => pass true end.
