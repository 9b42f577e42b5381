(** Model of bindings/python/python-bindings.cpp. Python ints are Z; the CPython
    functions called are the ones specified in SpecPy.v. Each overload is a definition
    of its own; which one is called is in PyClass.v. *)
From Coq Require Import String.
From Verif Require Import Machine SpecPos SpecPy BigInt BigIntBytes BigIntText.
Open Scope Z_scope.

(** for (auto i = buffer.size()-1; i > 0; i--) if (buffer[i] != high_byte)
    { msb = buffer[i]; break; }: 51-56. [n] is i. *)
Fixpoint scan_down (buffer : list Z) (high_byte : Z) (n : nat) (msb : Z) : outcome Z :=
  match n with
  | O => Ret msb
  | S n' =>
      b <- rd buffer n ;;
      if negb (b =? high_byte) then Ret b else scan_down buffer high_byte n' msb
  end.

(** for (auto& b : buffer) if (b != high_byte) { msb = b; break; }: 44-49 *)
Fixpoint scan_up (buffer : list Z) (high_byte msb : Z) : Z :=
  match buffer with
  | [] => msb
  | b :: t => if negb (b =? high_byte) then b else scan_up t high_byte msb
  end.

(** to_biginteger: 16-68. [same0] is value.is(py::int_(0)), true only of the int 0
    (False and instances of subclasses of int compare equal to 0 but are other
    objects). high_byte is 0xff at lines 37-40 because is_signed means value < 0.
    Lines 33 and 60-65 do not pass is_bigendian on; every caller uses the default false. *)
Definition to_biginteger (c : cfg) (same0 : bool) (value : Z) (is_bigendian : bool) : outcome bigint :=
  let is_signed := value <? 0 in
  if same0 then bi_zero c
  else
    let n_bytes := Z.to_nat ((py_num_bits value + 7) / 8) in
    let n_bytes := if is_signed then S n_bytes else n_bytes in
    match py_as_bytes value n_bytes is_bigendian is_signed with
    | None => Throw InvalidArgument
    | Some buffer =>
        if negb is_signed then bi_of_bytes c buffer true false
        else
          let high_byte := 255 in
          let msb := Z.of_nat (List.length buffer - 1) in
          msb <- (if is_bigendian then Ret (scan_up buffer high_byte msb)
                  else scan_down buffer high_byte (List.length buffer - 1) msb) ;;
          let need_extra_byte := negb (Z.land msb 128 =? Z.land high_byte 128) in
          if need_extra_byte then bi_of_bytes c buffer false false
          else if is_bigendian then bi_of_bytes c (skipn 1 buffer) false false
          else bi_of_bytes c (firstn (List.length buffer - 1) buffer) false false
    end.

(** to_biginteger(value) with the default argument. *)
Definition of_py (c : cfg) (same0 : bool) (v : Z) : outcome bigint := to_biginteger c same0 v false.

(** to_py_int: 70-78 *)
Definition to_py_int (c : cfg) (value : bigint) (is_signed is_bigendian : bool) : outcome Z :=
  data <- bi_to_bytes c value (negb is_signed) is_bigendian ;;
  Ret (py_from_bytes data is_bigendian is_signed).

(** to_py_int(value) with the default arguments. *)
Definition to_py (c : cfg) (b : bigint) : outcome Z := to_py_int c b true false.

(** obj.cast<int>() on a Python int. *)
Definition cast_int (v : Z) : outcome Z :=
  if (INT_MIN <=? v) && (v <=? INT_MAX) then Ret v else Throw CastError.

(** BigInteger(value: int): 87-89 *)
Definition py_init_int (c : cfg) (z : bool) (v : Z) : outcome bigint := of_py c z v.

(** The vector built from the range [data_ptr, data_ptr + info.size): 95-96. *)
Fixpoint copy_range (m : list Z) (p : Z) (n : nat) : outcome (list Z) :=
  match n with
  | O => Ret []
  | S n => x <- rdz m p ;; t <- copy_range m (p + 1) n ;; Ret (x :: t)
  end.

(** BigInteger(value: buffer): 90-98. info.strides is not looked at. *)
Definition py_init_buffer (c : cfg) (info : py_buffer) : outcome bigint :=
  data <- copy_range (mem info) (ptr info) (size info) ;;
  bi_of_bytes c data false false.

(** Comparisons with an int: 102-104, 108-110, 114-116, 125-127, 131-133 *)
Definition py_lt_int c z (a : bigint) v := b <- of_py c z v ;; bi_lt c a b.
Definition py_le_int c z (a : bigint) v := b <- of_py c z v ;; bi_le c a b.
Definition py_eq_int c z (a : bigint) v := b <- of_py c z v ;; bi_eq c a b.
Definition py_gt_int c z (a : bigint) v := b <- of_py c z v ;; bi_gt c a b.
Definition py_ge_int c z (a : bigint) v := b <- of_py c z v ;; bi_ge c a b.

(** __hash__: 117-121. 2166136261 has type long; 2166136261 * 16777619 is below 2^63;
    the int result of get_hash_code is sign-extended. *)
Definition py_hash_raw (c : cfg) (a : bigint) : outcome Z :=
  h <- bi_hash c a ;; m <- chk64 c (2166136261 * 16777619) ;; Ret (Z.lxor m h).
Definition py_hash (c : cfg) (a : bigint) : outcome Z :=
  h <- py_hash_raw c a ;; Ret (py_slot_hash h).

(** BigInteger op int: 137-139, 147-149, 157-159, 167-169, 225-227, 235-237, 265-268, 277-280, 289-292.
    __add__ and the reflected operators below write their operands in the order
    of the source. *)
Definition py_add_int c z (a : bigint) v := b <- of_py c z v ;; bi_add c b a.
Definition py_sub_int c z (a : bigint) v := b <- of_py c z v ;; bi_sub c a b.
Definition py_mul_int c z (a : bigint) v := b <- of_py c z v ;; bi_mul c a b.
Definition py_mod_int c z (a : bigint) v := b <- of_py c z v ;; bi_rem c a b.
Definition py_truediv_int c z (a : bigint) v := b <- of_py c z v ;; bi_div c a b.
Definition py_floordiv_int c z (a : bigint) v := b <- of_py c z v ;; bi_div c a b.
Definition py_and_int c z (a : bigint) v := b <- of_py c z v ;; bi_and c a b.
Definition py_or_int c z (a : bigint) v := b <- of_py c z v ;; bi_or c a b.
Definition py_xor_int c z (a : bigint) v := b <- of_py c z v ;; bi_xor c a b.

(** int op BigInteger: 140-143, 150-153, 160-163, 174-177, 228-231, 238-241, 269-273, 281-285, 293-297.
    [a] is the BigInteger, [v] the int on the left. *)
Definition py_radd c z (a : bigint) v := b <- of_py c z v ;; r <- bi_add c a b ;; to_py c r.
Definition py_rsub c z (a : bigint) v := b <- of_py c z v ;; r <- bi_sub c b a ;; to_py c r.
Definition py_rmul c z (a : bigint) v := b <- of_py c z v ;; r <- bi_mul c b a ;; to_py c r.
Definition py_rmod c z (a : bigint) v := b <- of_py c z v ;; r <- bi_rem c b a ;; to_py c r.
Definition py_rtruediv c z (a : bigint) v := b <- of_py c z v ;; r <- bi_div c b a ;; to_py c r.
Definition py_rfloordiv c z (a : bigint) v := b <- of_py c z v ;; r <- bi_div c b a ;; to_py c r.
Definition py_rand c z (a : bigint) v := b <- of_py c z v ;; r <- bi_and c a b ;; to_py c r.
Definition py_ror c z (a : bigint) v := b <- of_py c z v ;; r <- bi_or c a b ;; to_py c r.
Definition py_rxor c z (a : bigint) v := b <- of_py c z v ;; r <- bi_xor c a b ;; to_py c r.

(** __divmod__: 182-192; __rdivmod__: 193-198 goes through to_string. [int_of_str]
    is Python's int(str). *)
Definition py_divmod (c : cfg) (a b : bigint) : outcome (bigint * bigint) := bi_div_rem c a b.
Definition py_divmod_int c z (a : bigint) v := b <- of_py c z v ;; bi_div_rem c a b.
Definition py_rdivmod_str c z (a : bigint) v : outcome (string * string) :=
  b <- of_py c z v ;; qr <- bi_div_rem c b a ;;
  q <- bi_to_string c (fst qr) ;; r <- bi_to_string c (snd qr) ;; Ret (q, r).

(** __pow__: 199-201 (the exponent is converted by operator int), 202-209,
    210-212 (reflected), 213-221 (three-argument). *)
Definition py_pow (c : cfg) (base exp : bigint) : outcome bigint :=
  e <- bi_to_int c exp ;; bi_pow c base e.
Definition py_pow_int (c : cfg) (base : bigint) (exp : Z) : outcome bigint :=
  match cast_int exp with
  | Ret e => bi_pow c base e
  | _ => Throw OverflowError
  end.
Definition py_rpow c z (exp : bigint) v :=
  b <- of_py c z v ;; e <- bi_to_int c exp ;; r <- bi_pow c b e ;; to_py c r.
Definition py_mod_pow_int_exp c z (base : bigint) v (modulus : bigint) :=
  e <- of_py c z v ;; bi_mod_pow c base e modulus.
Definition py_mod_pow_int_mod c z (base exp : bigint) v :=
  m <- of_py c z v ;; bi_mod_pow c base exp m.

(** __lshift__, __rshift__ and their reflections: 242-261. A BigInteger count goes
    through operator int. *)
Definition py_lshift (c : cfg) (a s : bigint) : outcome bigint := n <- bi_to_int c s ;; bi_shl c a n.
Definition py_lshift_int (c : cfg) (a : bigint) (v : Z) : outcome bigint := n <- cast_int v ;; bi_shl c a n.
Definition py_rlshift c z (s : bigint) v :=
  b <- of_py c z v ;; n <- bi_to_int c s ;; r <- bi_shl c b n ;; to_py c r.
Definition py_rshift (c : cfg) (a s : bigint) : outcome bigint := n <- bi_to_int c s ;; bi_shr c a n.
Definition py_rshift_int (c : cfg) (a : bigint) (v : Z) : outcome bigint := n <- cast_int v ;; bi_shr c a n.
Definition py_rrshift c z (s : bigint) v :=
  b <- of_py c z v ;; n <- bi_to_int c s ;; r <- bi_shr c b n ;; to_py c r.

(** __int__, __index__: 319, 321 *)
Definition py_int (c : cfg) (a : bigint) : outcome Z := to_py c a.
(** __float__: 320 *)
Definition py_float (c : cfg) (a : bigint) : outcome Z :=
  v <- to_py c a ;; match py_int_float v with Some d => Ret d | None => Throw OverflowError end.
(** __bytes__: 302-305; to_array: 309-313; __deepcopy__: 323-326 *)
Definition py_bytes (c : cfg) (a : bigint) : outcome (list Z) := bi_to_bytes c a false false.
Definition py_to_array (c : cfg) (a : bigint) (u be : bool) : outcome (list Z) := bi_to_bytes c a u be.
Definition py_deepcopy (a : bigint) : bigint := a.
