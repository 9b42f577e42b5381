(** Compound assignments and div_rem over a store of BigInteger objects, so that
    aliased references and partial updates can be talked about. Reads and writes
    happen in source order; a local copy (BigInteger lhs = *this) is a value, a
    reference is an address that is read again at every use. The computations
    between a read and the next write are those of BigInt.v. *)
From Verif Require Import Machine BigInt CalcAddSub CalcSquMul CalcDivRem.

Definition loc := nat.
(** All live objects. *)
Definition mem := loc -> bigint.
Definition put (m : mem) (p : loc) (b : bigint) : mem := fun q => if Nat.eqb q p then b else m q.

(** An action returns or stops (throw, undefined behaviour, failed assert), and
    leaves a store in either case. *)
Definition act (A : Type) := mem -> outcome A * mem.
Definition lift {A} (o : outcome A) : act A := fun m => (o, m).
Definition seq {A B} (a : act A) (k : A -> act B) : act B := fun m =>
  match a m with
  | (Ret x, m') => k x m'
  | (Throw e, m') => (Throw e, m')
  | (Undef u, m') => (Undef u, m')
  | (AssertFail, m') => (AssertFail, m')
  | (NoFuel, m') => (NoFuel, m')
  end.
Notation "'let!' x := a 'in' k" := (seq a (fun x => k)) (at level 200, x name, a at level 100, k at level 200).
Notation "'do!' a 'in' k" := (seq a (fun _ => k)) (at level 200, a at level 100, k at level 200).

Definition load (p : loc) : act bigint := fun m => (Ret (m p), m).
Definition sgn (p : loc) : act Z := fun m => (Ret (sign_of (m p)), m).
Definition limbs_at (p : loc) : act (list Z) := fun m => (Ret (bits_of (m p)), m).
Definition store (p : loc) (b : bigint) : act unit := fun m => (Ret tt, put m p b).
Definition valid (c : cfg) (p : loc) : act unit := fun m => (assert_valid c (m p), m).

(** operator+=: BigInteger.cpp:659-670. lhs and rhs are references. *)
Definition mem_add (c : cfg) (this rhs : loc) : act unit :=
  do! valid c this in
  do! valid c rhs in
  let! ls := sgn this in
  let! rs := sgn rhs in
  if xorb (ls <? 0) (rs <? 0) then
    let! lb := limbs_at this in
    let! ls := sgn this in
    let! rb := limbs_at rhs in
    let! rs := sgn rhs in
    let! n := lift (chk32 c (-1 * rs)) in
    let! z := lift (bi_sub_parts c lb ls rb n) in
    store this z
  else
    let! lb := limbs_at this in
    let! ls := sgn this in
    let! rb := limbs_at rhs in
    let! rs := sgn rhs in
    let! z := lift (bi_add_parts c lb ls rb rs) in
    store this z.

(** operator-=: BigInteger.cpp:469-480. lhs is a copy, rhs a reference. *)
Definition mem_sub (c : cfg) (this rhs : loc) : act unit :=
  let! lhs := load this in
  do! lift (assert_valid c lhs) in
  do! valid c rhs in
  let! rs := sgn rhs in
  if xorb (sign_of lhs <? 0) (rs <? 0) then
    let! rb := limbs_at rhs in
    let! rs := sgn rhs in
    let! n := lift (chk32 c (-1 * rs)) in
    let! z := lift (bi_add_parts c (bits_of lhs) (sign_of lhs) rb n) in
    store this z
  else
    let! rb := limbs_at rhs in
    let! rs := sgn rhs in
    let! z := lift (bi_sub_parts c (bits_of lhs) (sign_of lhs) rb rs) in
    store this z.

(** operator*=: BigInteger.cpp:487-531. lhs is a copy, rhs a reference. *)
Definition mem_mul (c : cfg) (this rhs : loc) : act unit :=
  let! lhs := load this in
  do! lift (assert_valid c lhs) in
  do! valid c rhs in
  let trivialLeft := is_nil (bits_of lhs) in
  let! rb := limbs_at rhs in
  let trivialRight := is_nil rb in
  if trivialLeft && trivialRight then
    let! rs := sgn rhs in
    let! p := lift (chk64 c (sign_of lhs * rs)) in
    let! z := lift (bi_of_int64 c p) in
    store this z
  else if trivialLeft then
    let! rb := limbs_at rhs in
    let! a := lift (abs32 c (sign_of lhs)) in
    let! bits := lift (calc_mul_u c rb a) in
    let! rs := sgn rhs in
    let! z := lift (bi_of_mag c bits (xorb (sign_of lhs <? 0) (rs <? 0))) in
    store this z
  else if trivialRight then
    let! rs := sgn rhs in
    let! a := lift (abs32 c rs) in
    let! bits := lift (calc_mul_u c (bits_of lhs) a) in
    let! rs := sgn rhs in
    let! z := lift (bi_of_mag c bits (xorb (sign_of lhs <? 0) (rs <? 0))) in
    store this z
  else
    let! rb := limbs_at rhs in
    if vec_eqb (bits_of lhs) rb then
      let! bits := lift (calc_square c (bits_of lhs)) in
      let! rs := sgn rhs in
      let! z := lift (bi_of_mag c bits (xorb (sign_of lhs <? 0) (rs <? 0))) in
      store this z
    else
      let! rb := limbs_at rhs in
      if Nat.ltb (length (bits_of lhs)) (length rb) then
        let! bits := lift (calc_mul c rb (bits_of lhs)) in
        let! rs := sgn rhs in
        let! z := lift (bi_of_mag c bits (xorb (sign_of lhs <? 0) (rs <? 0))) in
        store this z
      else
        let! bits := lift (calc_mul c (bits_of lhs) rb) in
        let! rs := sgn rhs in
        let! z := lift (bi_of_mag c bits (xorb (sign_of lhs <? 0) (rs <? 0))) in
        store this z.

(** operator%=: BigInteger.cpp:542-580. divisor is a copy, dividend a reference
    to *this. *)
Definition mem_rem (c : cfg) (this rhs : loc) : act unit :=
  let! divisor := load rhs in
  do! valid c this in
  do! lift (assert_valid c divisor) in
  let! db := limbs_at this in
  let trivialDividend := is_nil db in
  let trivialDivisor := is_nil (bits_of divisor) in
  if trivialDividend && trivialDivisor then
    if sign_of divisor =? 0 then lift (Throw DivideByZero)
    else
      let! ds := sgn this in
      let! r := lift (int_mod c ds (sign_of divisor)) in
      let! z := lift (bi_of_int32 c r) in
      store this z
  else if trivialDividend then lift (Ret tt)
  else if trivialDivisor then
    let! db := limbs_at this in
    let! a := lift (abs32 c (sign_of divisor)) in
    let! r := lift (calc_rem_u c db a) in
    let! ds := sgn this in
    let! z := lift (bi_of_int64 c (if ds <? 0 then -1 * r else r)) in
    store this z
  else
    let! db := limbs_at this in
    if Nat.ltb (length db) (length (bits_of divisor)) then lift (Ret tt)
    else
      let! db := limbs_at this in
      let! bits := lift (calc_rem c db (bits_of divisor)) in
      let! ds := sgn this in
      let! z := lift (bi_of_mag c bits (ds <? 0)) in
      store this z.

(** operator/=: BigInteger.cpp:677-717. divisor is a reference, dividend a copy. *)
Definition mem_div (c : cfg) (this rhs : loc) : act unit :=
  let! dividend := load this in
  do! lift (assert_valid c dividend) in
  do! valid c rhs in
  let trivialDividend := is_nil (bits_of dividend) in
  let! vb := limbs_at rhs in
  let trivialDivisor := is_nil vb in
  if trivialDividend && trivialDivisor then
    let! vs := sgn rhs in
    if vs =? 0 then lift (Throw DivideByZero)
    else
      let! vs := sgn rhs in
      let! q := lift (int_div c (sign_of dividend) vs) in
      let! z := lift (bi_of_int64 c q) in
      store this z
  else if trivialDividend then store this s_bnZeroInt
  else if trivialDivisor then
    let! vs := sgn rhs in
    let! a := lift (abs32 c vs) in
    let! bits := lift (calc_div_u c (bits_of dividend) a) in
    let! vs := sgn rhs in
    let! z := lift (bi_of_mag c bits (xorb (sign_of dividend <? 0) (vs <? 0))) in
    store this z
  else
    let! vb := limbs_at rhs in
    if Nat.ltb (length (bits_of dividend)) (length vb) then store this s_bnZeroInt
    else
      let! vb := limbs_at rhs in
      let! bits := lift (calc_div c (bits_of dividend) vb) in
      let! vs := sgn rhs in
      let! z := lift (bi_of_mag c bits (xorb (sign_of dividend <? 0) (vs <? 0))) in
      store this z.

(** The word loop of ^=, &=, |= works on local arrays made from the copy lhs and
    the reference rhs; rhs._sign is read once more (1028-1029, 1123-1124,
    1178-1179). *)
Definition mem_bitop_words (c : cfg) (op : Z -> Z -> Z) (this rhs : loc) (lhs : bigint) : act unit :=
  let! r := load rhs in
  let! z := lift (bi_bitop_words c op lhs r) in
  store this z.

(** operator^=: BigInteger.cpp:1018-1039 *)
Definition mem_xor (c : cfg) (this rhs : loc) : act unit :=
  let! lhs := load this in
  let! rb := limbs_at rhs in
  if is_nil (bits_of lhs) && is_nil rb then
    let! rs := sgn rhs in
    let! z := lift (bi_of_int32 c (Z.lxor (sign_of lhs) rs)) in
    store this z
  else mem_bitop_words c Z.lxor this rhs lhs.

(** operator&=: BigInteger.cpp:1108-1133 *)
Definition mem_and (c : cfg) (this rhs : loc) : act unit :=
  let! lhs := load this in
  let! zl := lift (bi_is_zero c lhs) in
  let! r := load rhs in
  let! zr := lift (if zl : bool then Ret true else bi_is_zero c r) in
  if zr : bool then
    let! z := lift (bi_zero c) in
    store this z
  else
    let! rb := limbs_at rhs in
    if is_nil (bits_of lhs) && is_nil rb then
      let! rs := sgn rhs in
      let! z := lift (bi_of_int32 c (Z.land (sign_of lhs) rs)) in
      store this z
    else mem_bitop_words c Z.land this rhs lhs.

(** operator|=: BigInteger.cpp:1160-1188 *)
Definition mem_or (c : cfg) (this rhs : loc) : act unit :=
  let! lhs := load this in
  let! zl := lift (bi_is_zero c lhs) in
  if zl : bool then
    let! r := load rhs in
    store this r
  else
    let! r := load rhs in
    let! zr := lift (bi_is_zero c r) in
    if zr : bool then lift (Ret tt)
    else
      let! rb := limbs_at rhs in
      if is_nil (bits_of lhs) && is_nil rb then
        let! rs := sgn rhs in
        let! z := lift (bi_of_int32 c (Z.lor (sign_of lhs) rs)) in
        store this z
      else mem_bitop_words c Z.lor this rhs lhs.

(** operator<<=: BigInteger.cpp:937-976 *)
Definition mem_shl (c : cfg) (this : loc) (shift : Z) : act unit :=
  if shift =? 0 then lift (Ret tt)
  else
    let! b := load this in
    let! z := lift (bi_shl c b shift) in
    store this z.

(** operator>>=: BigInteger.cpp:1046-1101. A negative count goes through <<=
    on the object itself. *)
Definition mem_shr (c : cfg) (this : loc) (shift : Z) : act unit :=
  if shift =? 0 then lift (Ret tt)
  else if (shift <? 0) && negb (shift =? INT_MIN) then mem_shl c this (- shift)
  else
    let! b := load this in
    let! z := lift (bi_shr c b shift) in
    store this z.

(** operator++() and operator++(int): BigInteger.cpp:634-641. Both return a
    reference to the object, here the address [this]. *)
Definition mem_inc (c : cfg) (this : loc) : act loc :=
  let! o := lift (bi_one c) in
  let! b := load this in
  let! z := lift (bi_add c b o) in
  do! store this z in
  lift (Ret this).

(** operator--() and operator--(int): BigInteger.cpp:643-651 *)
Definition mem_dec (c : cfg) (this : loc) : act loc :=
  let! o := lift (bi_one c) in
  let! b := load this in
  let! z := lift (bi_sub c b o) in
  do! store this z in
  lift (Ret this).

(** div_rem: BigInteger.cpp:582-624, its three arguments being references. *)
Definition mem_div_rem (c : cfg) (dividend divisor remainder : loc) : act bigint :=
  do! valid c dividend in
  do! valid c divisor in
  let! db := limbs_at dividend in
  let trivialDividend := is_nil db in
  let! vb := limbs_at divisor in
  let trivialDivisor := is_nil vb in
  if trivialDividend && trivialDivisor then
    let! vs := sgn divisor in
    if vs =? 0 then lift (Throw DivideByZero)
    else
      let! ds := sgn dividend in
      let! vs := sgn divisor in
      let! r := lift (int_mod c ds vs) in
      let! r := lift (bi_of_int32 c r) in
      do! store remainder r in
      let! ds := sgn dividend in
      let! vs := sgn divisor in
      let! q := lift (int_div c ds vs) in
      lift (bi_of_int32 c q)
  else if trivialDividend then
    let! d := load dividend in
    do! store remainder d in
    lift (bi_zero c)
  else if trivialDivisor then
    let! rbits := limbs_at dividend in
    let! vs := sgn divisor in
    let! a := lift (abs32 c vs) in
    let! br := lift (calc_divrem_u c rbits a) in
    let '(bits, rest) := br in
    let! ds := sgn dividend in
    let! r := lift (bi_of_uint32 c (if ds <? 0 then u32 (-1 * rest) else rest)) in
    do! store remainder r in
    let! ds := sgn dividend in
    let! vs := sgn divisor in
    lift (bi_of_mag c bits (xorb (ds <? 0) (vs <? 0)))
  else
    let! db := limbs_at dividend in
    let! vb := limbs_at divisor in
    if Nat.ltb (length db) (length vb) then
      let! d := load dividend in
      do! store remainder d in
      lift (bi_zero c)
    else
      let! lbits := limbs_at dividend in
      let! rbits := limbs_at divisor in
      let! br := lift (calc_divrem c lbits rbits) in
      let '(bits, rest) := br in
      let! ds := sgn dividend in
      let! r := lift (bi_of_mag c rest (ds <? 0)) in
      do! store remainder r in
      let! ds := sgn dividend in
      let! vs := sgn divisor in
      lift (bi_of_mag c bits (xorb (ds <? 0) (vs <? 0))).

(** The eight compound assignments taking a BigInteger. *)
Inductive assign := AddA | SubA | MulA | DivA | RemA | AndA | OrA | XorA.
Definition run_assign (o : assign) (c : cfg) (this rhs : loc) : act unit :=
  match o with
  | AddA => mem_add c this rhs | SubA => mem_sub c this rhs | MulA => mem_mul c this rhs
  | DivA => mem_div c this rhs | RemA => mem_rem c this rhs
  | AndA => mem_and c this rhs | OrA => mem_or c this rhs | XorA => mem_xor c this rhs
  end.
