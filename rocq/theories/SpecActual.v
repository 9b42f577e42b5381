(** Specification vocabulary: what each call does in fact, documented or not, as
    a function on a store of integers. It mentions no limbs of objects, only the
    limb arrays a caller passes. *)
From Coq Require Import ZArith List String.
From Verif Require Import Machine Spec SpecPos SpecApi SpecText SpecDouble SpecGcd SpecModPow SpecMem SpecReduce SpecRun ApiMem ApiRun.
Import ListNotations.
Open Scope Z_scope.

(** The value an int holds after wrapping around. *)
Definition int_of (x : Z) : Z := (x + 2 ^ 31) mod 2 ^ 32 - 2 ^ 31.

(** [shr_bad], as a test. *)
Definition drops_ones (x n : Z) : bool :=
  (n mod 32 =? 0) && (n <? 32 * limbs_of x) && (2 ^ (32 * limbs_of x) - 2 ^ n <? - x).

(** x >> n for n > 0. *)
Definition right_shift (c : cfg) (x n : Z) : outcome Z :=
  if 0 <=? x then Ret (x / 2 ^ n)
  else if strict c && (2 ^ 26 <=? limbs_of x) then Undef SignedOverflow
  else if int_of (32 * limbs_of x) <=? n then Ret (-1)
  else if drops_ones x n then Ret 0
  else Ret (x / 2 ^ n).
(** x << n, also for n < 0. *)
Definition shift_by (c : cfg) (x n : Z) : outcome Z :=
  if 0 <=? n then Ret (x * 2 ^ n) else right_shift c x (- n).

(** mod_pow(x, e, z). *)
Definition overruns (x e z : Z) : bool :=
  let n := limbs_of z in
  (2 <=? e) && (Z.abs z =? 2 ^ (32 * (n - 1))) && (Z.abs x <? 2 ^ (32 * n)) && (2 ^ (32 * (2 * n - 1)) <=? x * x).
Definition power_mod (debug : bool) (x e z : Z) : outcome Z :=
  if e <? 0 then Throw OutOfRange
  else if z =? 0 then
    (if (Z.abs x <? 2 ^ 31) && (2 ^ 32 <=? e) then Undef DivByZero else Throw DivideByZero)
  else if Z.abs z <? 2 ^ 31 then
    (let r := Z.rem (x ^ e) z in Ret (if r <? 0 then r + 2 ^ 32 else r))
  else if Z.abs z <? 2 ^ 992 then Ret (Z.rem (x ^ e) z)
  else if overruns x e z then Undef OutOfBounds
  else leaky_mod_pow debug x e z.

(** div_rem(d, v, t): the remainder is stored in [t], the quotient returned. *)
Definition quot_rem (s : zstore) (d v t : loc) : outcome (Z * zstore) :=
  let x := s d in let y := s v in
  if y =? 0 then Throw DivideByZero
  else
    let s' := set s t (stored_rem x y) in
    if (Z.abs x <? 2 ^ 31) && (Z.abs y <? 2 ^ 31) then
      (if s' v =? 0 then Undef DivByZero else Ret (Z.quot (s' d) (s' v), s'))
    else Ret (late_sign x y (s' d) (s' v), s').

(** add and subtract on limb arrays with signs. *)
Definition number (l : list Z) : Z := positional (2 ^ 32) l.
Definition raw_sum (c : cfg) (l : list Z) (s : Z) (l' : list Z) (s' : Z) : outcome Z :=
  let signed z := if s <? 0 then - z else z in
  match l, l' with
  | [], [] => Ret (s + s')
  | [], _ => if strict c && (s =? - 2 ^ 31) then Undef SignedOverflow else Ret (signed (number l' + Z.abs s))
  | _, [] => if strict c && (s' =? - 2 ^ 31) then Undef SignedOverflow else Ret (signed (number l + Z.abs s'))
  | _, _ => Ret (signed (number l + number l'))
  end.
(** The difference of limb arrays wraps around; [checked]: an assert notices. *)
Definition raw_minus (c : cfg) (l : list Z) (y : Z) (checked negative : bool) : outcome Z :=
  let d := number l - y in
  if dbg c && checked && (d <? 0) then AssertFail
  else let z := d mod 2 ^ (32 * Z.of_nat (length l)) in Ret (if negative then - z else z).
Definition raw_less (l l' : list Z) : bool :=
  Nat.ltb (length l) (length l') || Nat.eqb (length l) (length l') && (number l <? number l').
Definition raw_diff (c : cfg) (l : list Z) (s : Z) (l' : list Z) (s' : Z) : outcome Z :=
  match l, l' with
  | [], [] => Ret (s - s')
  | [], _ =>
      if strict c && (s =? - 2 ^ 31) then Undef SignedOverflow
      else raw_minus c l' (Z.abs s) (Nat.eqb (length l') 1) (0 <=? s)
  | _, [] =>
      if strict c && (s' =? - 2 ^ 31) then Undef SignedOverflow
      else raw_minus c l (Z.abs s') (Nat.eqb (length l) 1) (s <? 0)
  | _, _ =>
      if raw_less l l' then raw_minus c l' (number l) true (0 <=? s)
      else raw_minus c l (number l') true (s <? 0)
  end.

(** greatest_common_divisor on limb arrays, meant for the larger first. *)
Definition raw_gcd (fuel : nat) (c : cfg) (l l' : list Z) : outcome Z :=
  let x := number l in let y := number l' in
  if dbg c && raw_less l l' then AssertFail
  else
    match l' with
    | [] => if dbg c then AssertFail else Ret x
    | [_] => match l with
             | [] => Ret y
             | _ => if y =? 0 then Throw DivideByZero else Ret (Z.gcd x y)
             end
    | [_; d] =>
        if d =? 0 then Undef ShiftRange
        else if Nat.ltb (length l) 2 then Undef OutOfBounds
        else Ret (Z.gcd x y)
    | _ =>
        if dbg c && ((y <? 2 ^ 32) || (limbs_of x <? limbs_of y)) then AssertFail
        else if Nat.ltb (length l) 2 && (0 <? y) && (y <? 2 ^ 64) then Undef OutOfBounds
        else gcd_rounds fuel (dbg c) x 0 y 0
    end.

(** A call ends the way [z] says. *)
Definition denotes (o : outcome bigint) (z : outcome Z) : Prop :=
  match z with
  | Ret v => returns o v
  | Throw e => o = Throw e
  | Undef u => o = Undef u
  | AssertFail => o = AssertFail
  | NoFuel => o = NoFuel
  end.

(** The call [k] on the integers [s]. [fuel] bounds the rounds of the main
    loop of gcd; a call that takes more ends with [NoFuel]. *)
Definition div_op (o : assign) : bool := match o with DivA | RemA => true | _ => false end.
Definition keep (s : zstore) (r : loc) (o : outcome Z) : outcome zstore := z <- o ;; Ret (set s r z).
Definition actual (fuel : nat) (c : cfg) (s : zstore) (k : cmd) : outcome zstore :=
  match k with
  | NewDefault r | Zero r => Ret (set s r 0)
  | One r => Ret (set s r 1)
  | MinusOne r => Ret (set s r (-1))
  | NewInt r v | NewUint r v | NewUlong r v => Ret (set s r v)
  | NewLong r v => if strict c && (v =? - 2 ^ 63) then Undef SignedOverflow else Ret (set s r v)
  | NewDouble r d => if dbl_exp d =? 2047 then Throw OverflowError else Ret (set s r (dbl_trunc d))
  | NewMag r l neg => Ret (set s r (signed_limbs l neg))
  | NewBytes r l u be =>
      if strict c && (bytes_value u be l <? 0) && Nat.leb (length l) 4 then Undef ShiftNegative
      else Ret (set s r (bytes_value u be l))
  | Copy r p | Pos r p => Ret (set s r (s p))
  | Parse r t | TryParse r t => Ret (set s r (signed_decimal t))
  | Assign o p q =>
      if div_op o && (s q =? 0) then Throw DivideByZero else Ret (set s p (meaning o (s p) (s q)))
  | Binary o r p q =>
      if div_op o && (s q =? 0) then Throw DivideByZero else Ret (set s r (meaning o (s p) (s q)))
  | ShlAssign p n => keep s p (shift_by c (s p) n)
  | ShrAssign p n => keep s p (shift_by c (s p) (- n))
  | Shl r p n => keep s r (shift_by c (s p) n)
  | Shr r p n => keep s r (shift_by c (s p) (- n))
  | Inc p => Ret (set s p (s p + 1))
  | Dec p => Ret (set s p (s p - 1))
  | Neg r p => Ret (set s r (- s p))
  | Not r p => Ret (set s r (- s p - 1))
  | Abs r p => Ret (set s r (Z.abs (s p)))
  | DivRem r d v t => '(q, s') <- quot_rem s d v t ;; Ret (set s' r q)
  | Pow r p e =>
      if e <? 0 then Throw OutOfRange
      else if (1 <? e) && (1 <? Z.abs (s p)) && (2 ^ 31 - 1 <=? limbs_of (s p) * e + 1) then Throw OverflowError
      else Ret (set s r (s p ^ e))
  | ModPow r p e m => keep s r (power_mod (dbg c) (s p) (s e) (s m))
  | Gcd r p q => keep s r (actual_gcd fuel (dbg c) (s p) (s q))
  | GcdBits r a b => keep s r (raw_gcd fuel c a b)
  | AddParts r a s1 b s2 => keep s r (raw_sum c a s1 b s2)
  | SubParts r a s1 b s2 => keep s r (raw_diff c a s1 b s2)
  end.

(** A call of the model does what [o] says. *)
Definition agrees (run : outcome unit * mem) (m : mem) (o : outcome zstore) : Prop :=
  match o with
  | Ret s => exists m', run = (Ret tt, m') /\ stands_for m' s
  | Throw e => run = (Throw e, m)
  | Undef u => fst run = Undef u
  | AssertFail => fst run = AssertFail
  | NoFuel => fst run = NoFuel
  end.

(** The program [l] on integers; [None] if a call is undefined,
    fails an assertion or does not end. *)
Fixpoint actual_calls (fuel : nat) (c : cfg) (s : zstore) (l : list cmd) : option (list (option exn) * zstore) :=
  match l with
  | nil => Some (nil, s)
  | k :: l =>
      match actual fuel c s k with
      | Ret s1 => option_map (fun p => (None :: fst p, snd p)) (actual_calls fuel c s1 l)
      | Throw e => option_map (fun p => (Some e :: fst p, snd p)) (actual_calls fuel c s l)
      | _ => None
      end
  end.

(** The calls with undefined behaviour, in a build [c] (one that is not [strict]
    defines signed overflow and shifts of negative numbers). *)
Definition undefined_call (fuel : nat) (c : cfg) (s : zstore) (k : cmd) : Prop :=
  let too_long x := strict c = true /\ x < 0 /\ ~ fits_limbs x (2 ^ 26 - 1) in
  match k with
  | NewLong _ v => strict c = true /\ v = - 2 ^ 63
  | NewBytes _ l u be => strict c = true /\ bytes_value u be l < 0 /\ (length l <= 4)%nat
  | ShlAssign p n | Shl _ p n => n < 0 /\ too_long (s p)
  | ShrAssign p n | Shr _ p n => 0 < n /\ too_long (s p)
  | DivRem _ d v t => v = t /\ s v <> 0 /\ both_small (s d) (s v) /\ Z.rem (s d) (s v) = 0
  | ModPow _ p e m => 0 <= s e /\ mod_pow_undefined (s p) (s e) (s m)
  | AddParts _ a s1 b s2 | SubParts _ a s1 b s2 =>
      strict c = true /\ (a = [] /\ b <> [] /\ s1 = - 2 ^ 31 \/ a <> [] /\ b = [] /\ s2 = - 2 ^ 31)
  | Gcd _ p q => dbg c = false /\ lost fuel (Z.max (Z.abs (s p)) (Z.abs (s q))) (Z.min (Z.abs (s p)) (Z.abs (s q)))
  | GcdBits _ a b =>
      (length b = 2%nat /\ last b 0 = 0 /\ (dbg c = true -> raw_less a b = false)) \/
      dbg c = false /\
      ((length a < 2 /\ length b = 2)%nat \/
       (3 <= length b)%nat /\ ((length a < 2)%nat /\ 0 < number b < 2 ^ 64 \/ lost fuel (number a) (number b)))
  | _ => False
  end.
