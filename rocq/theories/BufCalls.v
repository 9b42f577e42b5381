(** Model of the public functions that only call an operator, and of the overload of
    BitsBuffer::Overwrite that nothing calls. *)
From Verif Require Import Machine BigInt CalcPowMod.

(** BitsBuffer::Overwrite(uint32_t): BitsBuffer.cpp:66-71 *)
Definition buf_overwrite_u (this : bitsbuf) (value : Z) : outcome bitsbuf :=
  bits <- (if Nat.ltb 1 (bb_len this) then fill (bb_bits this) (bb_len this - 1) 1
           else Ret (bb_bits this)) ;;
  bits <- wr bits 0 value ;;
  Ret (Buf bits (if negb (value =? 0) then 1%nat else O)).

(** BigInteger::add: BigInteger.cpp:393-396 *)
Definition named_add (c : cfg) (lhs rhs : bigint) : outcome bigint :=
  _ <- assert_valid c lhs ;; bi_add c lhs rhs.
(** BigInteger::subtract: BigInteger.cpp:398-400 *)
Definition named_subtract (c : cfg) (lhs rhs : bigint) : outcome bigint := bi_sub c lhs rhs.
(** BigInteger::multiply: BigInteger.cpp:533-535 *)
Definition named_multiply (c : cfg) (lhs rhs : bigint) : outcome bigint := bi_mul c lhs rhs.
(** BigInteger::divide: BigInteger.cpp:719-721 *)
Definition named_divide (c : cfg) (dividend divisor : bigint) : outcome bigint := bi_div c dividend divisor.
(** BigInteger::remainder: BigInteger.cpp:1617-1619 *)
Definition named_remainder (c : cfg) (dividend divisor : bigint) : outcome bigint := bi_rem c dividend divisor.
(** Compare: BigInteger.cpp:1139-1141 *)
Definition named_compare (c : cfg) (lhs rhs : bigint) : outcome Z := bi_compare c lhs rhs.
