(** Specification of the CPython facilities the bindings call. A Python int is
    its mathematical value, a Z. *)
From Coq Require Import ZArith List.
From Verif Require Import Machine SpecPos SpecFloat.
Import ListNotations.
Open Scope Z_scope.

(** int.bit_length(): _PyLong_NumBits. *)
Definition py_num_bits (v : Z) : Z := if v =? 0 then 0 else Z.log2 (Z.abs v) + 1.

(** The [n] low bytes of the infinite two's complement expansion of [v]. *)
Fixpoint low_bytes (n : nat) (v : Z) : list Z :=
  match n with
  | O => []
  | S n => v mod 256 :: low_bytes n (v / 256)
  end.

(** int.to_bytes(n, byteorder, signed=...): _PyLong_AsByteArray fills the buffer
    with the encoding of [v], or fails when [n] bytes cannot hold it. *)
Definition py_as_bytes (v : Z) (n : nat) (be signed : bool) : option (list Z) :=
  let l := if be then rev (low_bytes n v) else low_bytes n v in
  if bytes_value (negb signed) be l =? v then Some l else None.

(** int.from_bytes(l, byteorder, signed=...): _PyLong_FromByteArray. *)
Definition py_from_bytes (l : list Z) (be signed : bool) : Z := bytes_value (negb signed) be l.

(** hash(int): reduction modulo the Mersenne prime 2^61 - 1 with the sign kept;
    -1 is replaced by -2 (Objects/longobject.c long_hash on 64-bit builds). *)
Definition py_int_hash (v : Z) : Z :=
  let h := Z.sgn v * (Z.abs v mod (2 ^ 61 - 1)) in
  if h =? -1 then -2 else h.

(** The double that is exactly [z], an integer of 53 significant bits, |z| < 2^1024. *)
Definition dbl_of (z : Z) : Z :=
  let l := Z.log2 (Z.abs z) in
  if z =? 0 then 0
  else (if z <? 0 then 2 ^ 63 else 0) + (l + 1023) * 2 ^ 52 +
       (Z.abs z * 2 ^ Z.max 0 (52 - l) / 2 ^ Z.max 0 (l - 52) - 2 ^ 52).

(** float(int): PyLong_AsDouble rounds to 53 bits, ties to even, and fails with
    OverflowError when the result is too large (Objects/longobject.c). *)
Definition py_int_float (v : Z) : option Z :=
  let r := round_even 53 v in if 2 ^ 1024 <=? Z.abs r then None else Some (dbl_of r).

(** hash(obj) for a __hash__ that returns a value of Py_ssize_t range
    (Objects/typeobject.c slot_tp_hash). *)
Definition py_slot_hash (h : Z) : Z := if h =? -1 then -2 else h.

(** Python's // and % round towards minus infinity; Z.div and Z.modulo do too. *)
Definition py_floordiv (x y : Z) : Z := x / y.
Definition py_mod (x y : Z) : Z := x mod y.

(** A one-dimensional buffer of unsigned char as the buffer protocol describes it:
    the memory block, the index in it that the pointer designates, the number of
    elements and the distance between consecutive elements. *)
Record py_buffer := Buffer { mem : list Z; ptr : Z; size : nat; stride : Z }.

(** Every element lies inside the block. *)
Definition buffer_ok (b : py_buffer) : Prop :=
  digits 256 (mem b) /\
  forall i, (i < size b)%nat -> 0 <= ptr b + Z.of_nat i * stride b < Z.of_nat (length (mem b)).

(** The elements, in order: what bytes(b) would be. *)
Definition exposed (b : py_buffer) : list Z :=
  map (fun i => nth (Z.to_nat (ptr b + Z.of_nat i * stride b)) (mem b) 0) (seq 0 (size b)).

(** A Python int argument the bindings convert without undefined behaviour.
    [same0]: the argument is the object [0] itself. *)
Definition py_arg (c : cfg) (same0 : bool) (v : Z) : Prop :=
  (same0 = true -> v = 0) /\ (strict c = false \/ 0 <= v \/ v < - 2 ^ 31).
