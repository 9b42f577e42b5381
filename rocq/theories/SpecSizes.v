(** Specification for byte strings of any length: how many bytes an integer needs,
    and what is left of a length that is stored in an [int]. *)
From Coq Require Import ZArith List.
From Verif Require Import Machine Spec SpecPos.
Import ListNotations.
Open Scope Z_scope.

(** [n] is the least positive number of bytes that can hold [x]. *)
Definition needs_bytes (u : bool) (x n : Z) : Prop :=
  1 <= n /\ forall m, 1 <= m -> (n <= m <-> if u then x < 256 ^ m else - 256 ^ m <= 2 * x < 256 ^ m).

(** [r] is the 32-bit two's complement integer congruent to [n]. *)
Definition int_of_size (n r : Z) : Prop :=
  - 2 ^ 31 <= r < 2 ^ 31 /\ exists k, n = r + k * 2 ^ 32.

(** Encoding of [x] in exactly [n] bytes. *)
Definition byte_encoding (u be : bool) (x n : Z) (l : list Z) : Prop :=
  digits 256 l /\ bytes_value u be l = x /\ Z.of_nat (length l) = n.
