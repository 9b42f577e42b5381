(** Model of the calls BigInteger.log(...) and BigInteger.log10(...) from Python, with
    arguments of any type (bindings/python/python-bindings.cpp:332-341). *)
From Coq Require Import String.
From Verif Require Import Machine SpecPy BigInt PyBind BigIntLog BigIntLogDouble WinLog PyRun PyClass.
Open Scope Z_scope.

Definition log_base (d : data_model) (logf : double -> double) (c : cfg) (a : bigint) (base : Z) : outcome double :=
  match d with LP64 => bi_log_double logf c a base | LLP64 => bi_log_double_w logf c a base end.
Definition log_e (d : data_model) (logf : double -> double) (c : cfg) (a : bigint) : outcome double :=
  match d with LP64 => bi_ln_double logf c a | LLP64 => bi_ln_double_w logf c a end.
Definition log_ten (d : data_model) (logf : double -> double) (c : cfg) (a : bigint) : outcome double :=
  match d with LP64 => bi_log10_double logf c a | LLP64 => bi_log10_double_w logf c a end.

(** The signatures: b a const BigInteger&, i a py::int_&, d a double. *)
Inductive log_overload :=
| Gb (f : bigint -> outcome double)
| Gi (f : bool -> Z -> outcome double)
| Gbd (f : bigint -> Z -> outcome double)
| Gid (f : bool -> Z -> Z -> outcome double).
Definition log_methods (d : data_model) (logf : double -> double) (c : cfg) (ten : bool) : list log_overload :=
  if ten then [Gb (log_ten d logf c); Gi (fun z v => b <- of_py c z v ;; log_ten d logf c b)]
  else [Gb (log_e d logf c); Gi (fun z v => b <- of_py c z v ;; log_e d logf c b);
        Gbd (log_base d logf c); Gid (fun z v base => b <- of_py c z v ;; log_base d logf c b base)].

(** A double argument: a float; in the pass that converts also what float() takes without
    an error, strings and buffers excepted (pybind11/cast.h). An object of another type is taken not to
    have __float__. *)
Definition as_double (convert : bool) (c : cfg) (x : object) : option Z :=
  match x with
  | PNative (NFloat d) => Some d
  | PNative n => if convert then match as_int n with Some (_, v) => py_int_float v | None => None end else None
  | PBig a => if convert then match py_float c a with Ret d => Some d | _ => None end else None
  end.
Definition accept_log (convert : bool) (c : cfg) (o : log_overload) (args : list object) : option (outcome double) :=
  match o, args with
  | Gb f, [PBig a] => Some (f a)
  | Gi f, [PNative n] => option_map (fun '(z, v) => f z v) (as_int n)
  | Gbd f, [PBig a; x] => option_map (f a) (as_double convert c x)
  | Gid f, [PNative n; x] =>
      match as_int n, as_double convert c x with Some (z, v), Some base => Some (f z v base) | _, _ => None end
  | _, _ => None
  end.
(** Both passes of pybind11's dispatcher; [None]: TypeError. *)
Definition log_call (d : data_model) (logf : double -> double) (c : cfg) (ten : bool) (args : list object) : option (outcome double) :=
  let pass convert := fold_right (fun o r => match accept_log convert c o args with Some x => Some x | None => r end) None
                        (log_methods d logf c ten) in
  match pass false with Some x => Some x | None => pass true end.
