(** Specification vocabulary: positional notation. *)
From Coq Require Import ZArith List.
Open Scope Z_scope.

(** The natural number written by the little-endian digits [l] in base [b]. *)
Fixpoint positional (b : Z) (l : list Z) : Z :=
  match l with
  | nil => 0
  | d :: t => d + b * positional b t
  end.

Definition digits (b : Z) (l : list Z) : Prop := Forall (fun d => 0 <= d < b) l.

(** The integer written by [l] in complement notation: if the top digit is in
    the upper half, b^n is subtracted. *)
Definition complement (b : Z) (l : list Z) : Z :=
  positional b l - (if b <=? 2 * last l 0 then b ^ Z.of_nat (length l) else 0).

(** Byte strings: [be] big-endian, [u] unsigned. The digits in little-endian
    order, and the integer encoded. *)
Definition le_order (be : bool) (l : list Z) : list Z := if be then rev l else l.
Definition bytes_value (u be : bool) (l : list Z) : Z :=
  if u then positional 256 (le_order be l) else complement 256 (le_order be l).
