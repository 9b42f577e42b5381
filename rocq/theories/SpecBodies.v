(** Specification vocabulary: how the project's randomised tests end. *)
From Coq Require Import ZArith List String Bool.
From Verif Require Import Machine BigInt SpecPyRun SpecOracle.
Import ListNotations.
Open Scope string_scope.
Open Scope Z_scope.

(** A test that divides by [y] and agrees. *)
Definition by_zero (y : Z) : outcome bool := if y =? 0 then Throw DivideByZero else Ret true.
(** A test that agrees, if [v] can be written in decimal. *)
Definition if_written (v : Z) : outcome bool := _ <- text v ;; Ret true.

(** An array of random bytes: what [get_random_bytes] can return. *)
Definition random_array (l : list Z) : Prop := low7 l /\ Z.of_nat (List.length l) <= 2 ^ 20.

(** The division tests: the operator, and whether the second results are compared. *)
Definition dividing : list (string * bool) :=
  [("bDivide", false); ("b/", false); ("bRemainder", false); ("b%", false); ("bDivRem", true)].
