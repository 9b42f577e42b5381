(** Specification vocabulary: the arguments of BigInteger.log from Python. *)
From Coq Require Import ZArith.
From Verif Require Import Machine SpecDouble SpecFloat SpecPy PyClass SpecPyClass.
Open Scope Z_scope.

(** The integer whose logarithm is asked for. *)
Definition log_operand (v : value) : option Z := match v with IsBig z => Some z | IsNative n => integer n end.
(** The base as a double: a float, or an integer rounded to one. *)
Definition float_of (v : value) : option Z :=
  let round z := if Z.abs z <? 2 ^ 1024 - 2 ^ 970 then Some (dbl_of (round_even 53 z)) else None in
  match v with
  | IsBig z => round z
  | IsNative (NFloat d) => Some d
  | IsNative n => match integer n with Some z => round z | None => None end
  end.
Definition float_ok (v : value) : Prop := match v with IsNative (NFloat d) => dbl_pattern d | _ => True end.
(** An int that becomes a BigInteger without undefined behaviour. *)
Definition operand_defined (c : cfg) (v : value) (z : Z) : Prop :=
  match v with IsBig _ => True | IsNative _ => strict c = false \/ 0 <= z \/ z < - 2 ^ 31 end.
