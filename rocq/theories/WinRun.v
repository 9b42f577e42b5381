(** LLP64 reading of the compound assignments and of histories of calls: the
    definitions of ApiMem.v and ApiRun.v that call a function with a [_w] twin,
    restated over WinCalc.v and WinBigInt.v. See the comment in WinCalc.v. The
    constructor arguments int32_t, uint32_t, int64_t and uint64_t
    (BigInteger.h:24-30) have the same widths in both readings, so [cmd] and
    [typed] are shared. *)
From Coq Require Import String.
From Verif Require Import Machine BigInt BigIntText BigIntBytes BigIntDouble CalcAddSub CalcSquMul CalcDivRem ApiMem ApiRun.
From Verif Require Import WinCalc WinBigInt.

(** operator+=: BigInteger.cpp:659-670. lhs and rhs are references. *)
Definition mem_add_w (w : win) (c : cfg) (this rhs : loc) : act unit :=
  do! valid c this in
  do! valid c rhs in
  let! ls := sgn this in
  let! rs := sgn rhs in
  if xorb (ls <? 0) (rs <? 0) then
    let! lb := limbs_at this in
    let! ls := sgn this in
    let! rb := limbs_at rhs in
    let! rs := sgn rhs in
    let! n := lift (chk32 c (-1 * rs)) in
    let! z := lift (bi_sub_parts_w w c lb ls rb n) in
    store this z
  else
    let! lb := limbs_at this in
    let! ls := sgn this in
    let! rb := limbs_at rhs in
    let! rs := sgn rhs in
    let! z := lift (bi_add_parts_w w c lb ls rb rs) in
    store this z.

(** operator-=: BigInteger.cpp:469-480. lhs is a copy, rhs a reference. *)
Definition mem_sub_w (w : win) (c : cfg) (this rhs : loc) : act unit :=
  let! lhs := load this in
  do! lift (assert_valid c lhs) in
  do! valid c rhs in
  let! rs := sgn rhs in
  if xorb (sign_of lhs <? 0) (rs <? 0) then
    let! rb := limbs_at rhs in
    let! rs := sgn rhs in
    let! n := lift (chk32 c (-1 * rs)) in
    let! z := lift (bi_add_parts_w w c (bits_of lhs) (sign_of lhs) rb n) in
    store this z
  else
    let! rb := limbs_at rhs in
    let! rs := sgn rhs in
    let! z := lift (bi_sub_parts_w w c (bits_of lhs) (sign_of lhs) rb rs) in
    store this z.

(** operator*=: BigInteger.cpp:487-531. lhs is a copy, rhs a reference. *)
Definition mem_mul_w (w : win) (c : cfg) (this rhs : loc) : act unit :=
  let! lhs := load this in
  do! lift (assert_valid c lhs) in
  do! valid c rhs in
  let trivialLeft := is_nil (bits_of lhs) in
  let! rb := limbs_at rhs in
  let trivialRight := is_nil rb in
  if trivialLeft && trivialRight then
    let! rs := sgn rhs in
    let! p := lift (chk64 c (sign_of lhs * rs)) in
    let! z := lift (bi_of_int64 c p) in
    store this z
  else if trivialLeft then
    let! rb := limbs_at rhs in
    let! a := lift (abs32 c (sign_of lhs)) in
    let! bits := lift (calc_mul_u c rb a) in
    let! rs := sgn rhs in
    let! z := lift (bi_of_mag c bits (xorb (sign_of lhs <? 0) (rs <? 0))) in
    store this z
  else if trivialRight then
    let! rs := sgn rhs in
    let! a := lift (abs32 c rs) in
    let! bits := lift (calc_mul_u c (bits_of lhs) a) in
    let! rs := sgn rhs in
    let! z := lift (bi_of_mag c bits (xorb (sign_of lhs <? 0) (rs <? 0))) in
    store this z
  else
    let! rb := limbs_at rhs in
    if vec_eqb (bits_of lhs) rb then
      let! bits := lift (calc_square_w w c (bits_of lhs)) in
      let! rs := sgn rhs in
      let! z := lift (bi_of_mag c bits (xorb (sign_of lhs <? 0) (rs <? 0))) in
      store this z
    else
      let! rb := limbs_at rhs in
      if Nat.ltb (length (bits_of lhs)) (length rb) then
        let! bits := lift (calc_mul_w w c rb (bits_of lhs)) in
        let! rs := sgn rhs in
        let! z := lift (bi_of_mag c bits (xorb (sign_of lhs <? 0) (rs <? 0))) in
        store this z
      else
        let! bits := lift (calc_mul_w w c (bits_of lhs) rb) in
        let! rs := sgn rhs in
        let! z := lift (bi_of_mag c bits (xorb (sign_of lhs <? 0) (rs <? 0))) in
        store this z.

(** operator++() and operator++(int): BigInteger.cpp:634-641. Both return a
    reference to the object, here the address [this]. *)
Definition mem_inc_w (w : win) (c : cfg) (this : loc) : act loc :=
  let! o := lift (bi_one c) in
  let! b := load this in
  let! z := lift (bi_add_w w c b o) in
  do! store this z in
  lift (Ret this).

(** operator--() and operator--(int): BigInteger.cpp:643-651 *)
Definition mem_dec_w (w : win) (c : cfg) (this : loc) : act loc :=
  let! o := lift (bi_one c) in
  let! b := load this in
  let! z := lift (bi_sub_w w c b o) in
  do! store this z in
  lift (Ret this).

Definition run_assign_w (w : win) (o : assign) (c : cfg) (this rhs : loc) : act unit :=
  match o with
  | AddA => mem_add_w w c this rhs | SubA => mem_sub_w w c this rhs | MulA => mem_mul_w w c this rhs
  | _ => run_assign o c this rhs
  end.

(** operator+, -, *: BigInteger.cpp:654-657, 464-467, 482-485 *)
Definition bin_w (w : win) (o : assign) (c : cfg) (a b : bigint) : outcome bigint :=
  match o with
  | AddA => bi_add_w w c a b | SubA => bi_sub_w w c a b | MulA => bi_mul_w w c a b
  | _ => bin o c a b
  end.

(** Run one call; a call that is not listed reaches no [long]. *)
Definition run_cmd_w (w : win) (fuel : nat) (c : cfg) (k : cmd) : act unit :=
  match k with
  | NewDouble r d => into r (bi_of_double_w c d)
  | Parse r s => into r (bi_parse_w w c s)
  | TryParse r s =>
      let! old := load r in
      let! res := lift (bi_try_parse_w w c s old) in
      store r (snd res)
  | Assign o p q => run_assign_w w o c p q
  | Binary o r p q => let! x := load p in let! y := load q in into r (bin_w w o c x y)
  | Inc p => do! mem_inc_w w c p in lift (Ret tt)
  | Dec p => do! mem_dec_w w c p in lift (Ret tt)
  | Not r p => let! x := load p in into r (bi_not_w w c x)
  | Pow r p e => let! x := load p in into r (bi_pow_w w c x e)
  | ModPow r p q s =>
      let! x := load p in let! y := load q in let! z := load s in into r (bi_mod_pow_w w c x y z)
  | Gcd r p q => let! x := load p in let! y := load q in into r (bi_gcd_w w fuel c x y)
  | GcdBits r a b => into r (bi_gcd_bits_w w fuel c a b)
  | AddParts r a s b t => into r (bi_add_parts_w w c a s b t)
  | SubParts r a s b t => into r (bi_sub_parts_w w c a s b t)
  | _ => run_cmd fuel c k
  end.

(** As [reachable] of ApiRun.v. *)
Inductive reachable_w (w : win) (c : cfg) : mem -> Prop :=
| StartW : reachable_w w c (fun _ => bi_default)
| ReturnedW k fuel m m' :
    reachable_w w c m -> typed k -> run_cmd_w w fuel c k m = (Ret tt, m') -> reachable_w w c m'
| ThrewW k fuel e m m' :
    reachable_w w c m -> typed k -> run_cmd_w w fuel c k m = (Throw e, m') -> reachable_w w c m'.

(** A program; exceptions are caught, [None] if a call gets stuck. *)
Fixpoint run_calls_w (w : win) (fuel : nat) (c : cfg) (l : list cmd) (m : mem) : option (list (option exn) * mem) :=
  match l with
  | nil => Some (nil, m)
  | k :: l =>
      match run_cmd_w w fuel c k m with
      | (Ret tt, m') =>
          match run_calls_w w fuel c l m' with Some (tr, m2) => Some (None :: tr, m2) | None => None end
      | (Throw e, m') =>
          match run_calls_w w fuel c l m' with Some (tr, m2) => Some (Some e :: tr, m2) | None => None end
      | _ => None
      end
  end.
