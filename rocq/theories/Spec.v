(** Specification vocabulary. Nothing here refers to the algorithms: only the
    fields of a BigInteger object (Machine.v) and integer arithmetic. *)
From Coq Require Import ZArith List.
From Verif Require Import Machine.
Open Scope Z_scope.

(** The natural number denoted by a little-endian array of 32-bit limbs. *)
Fixpoint magnitude (l : list Z) : Z :=
  match l with
  | nil => 0
  | d :: t => d + 2 ^ 32 * magnitude t
  end.

(** Canonical form of a BigInteger object: a small value is stored in the sign
    field alone; any other value is a sign and a normalised limb array. *)
Definition canonical (b : bigint) : Prop :=
  match bits_of b with
  | nil => - 2 ^ 31 < sign_of b < 2 ^ 31
  | l => (sign_of b = 1 \/ sign_of b = -1) /\
         Forall (fun d => 0 <= d < 2 ^ 32) l /\ last l 0 <> 0 /\ 2 ^ 31 <= magnitude l
  end.

(** The integer denoted by an object. *)
Definition value (b : bigint) : Z :=
  match bits_of b with
  | nil => sign_of b
  | l => sign_of b * magnitude l
  end.

(** [b] is the canonical object denoting [z]. *)
Definition represents (b : bigint) (z : Z) : Prop := canonical b /\ value b = z.

(** A call returns normally with an object denoting [z]. *)
Definition returns (o : outcome bigint) (z : Z) : Prop :=
  exists r, o = Ret r /\ represents r z.
