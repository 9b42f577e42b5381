(** Specification vocabulary: what each call does in the LLP64 build, as a
    function on a store of integers. A call that is not listed does what
    SpecActual.v says. *)
From Coq Require Import ZArith List String.
From Verif Require Import Machine Spec SpecApi SpecText SpecDouble SpecGcd SpecMem SpecRun SpecActual ApiMem ApiRun SpecWin.
Import ListNotations.
Open Scope Z_scope.

Definition defined (z : option Z) : outcome Z :=
  match z with Some z => Ret z | None => Undef ShiftRange end.

(** The main loop of gcd on [x] and [y]: the first step that is not Euclid's is
    undefined. *)
Fixpoint win_gcd_rounds (fuel : nat) (debug : bool) (x y : Z) : outcome Z :=
  if y <? 2 ^ 64 then Ret (Z.gcd x y)
  else
    match fuel with
    | O => NoFuel
    | S fuel =>
        if x <? 2 ^ 64 then (if debug then AssertFail else Undef OutOfBounds)
        else if debug && ((limbs_of x <? limbs_of y) || (fst (leading x y) <? snd (leading x y))) then AssertFail
        else if snd (cofactor x y) =? 0 then win_gcd_rounds fuel debug y (x mod y)
        else Undef ShiftRange
    end.
Definition win_gcd (fuel : nat) (debug : bool) (x y : Z) : outcome Z :=
  win_gcd_rounds fuel debug (Z.max (Z.abs x) (Z.abs y)) (Z.min (Z.abs x) (Z.abs y)).
Definition win_raw_gcd (fuel : nat) (c : cfg) (l l' : list Z) : outcome Z :=
  let x := number l in let y := number l' in
  if Nat.leb (length l') 2 then raw_gcd fuel c l l'
  else if dbg c && (raw_less l l' || (y <? 2 ^ 32) || (limbs_of x <? limbs_of y)) then AssertFail
  else if Nat.ltb (length l) 2 && (0 <? y) && (y <? 2 ^ 64) then Undef OutOfBounds
  else win_gcd_rounds fuel (dbg c) x y.

(** add and subtract on limb arrays with signs. A difference is undefined as
    soon as an array is involved, unless an assert stops the call before. *)
Definition win_raw_sum (c : cfg) (l : list Z) (s : Z) (l' : list Z) (s' : Z) : outcome Z :=
  let signed z := if s <? 0 then - z else z in
  match l, l' with
  | [], [] => Ret (s + s')
  | [], _ => if strict c && (s =? - 2 ^ 31) then Undef SignedOverflow else Ret (signed (carry_dropped (number l') (Z.abs s)))
  | _, [] => if strict c && (s' =? - 2 ^ 31) then Undef SignedOverflow else Ret (signed (carry_dropped (number l) (Z.abs s')))
  | _, _ => Ret (signed (number l + number l'))
  end.
Definition win_raw_minus (c : cfg) (l : list Z) (s : Z) : outcome Z :=
  if strict c && (s =? - 2 ^ 31) then Undef SignedOverflow
  else if dbg c && Nat.eqb (length l) 1 && (number l <? Z.abs s) then AssertFail
  else Undef ShiftRange.
Definition win_raw_diff (c : cfg) (l : list Z) (s : Z) (l' : list Z) (s' : Z) : outcome Z :=
  match l, l' with
  | [], [] => Ret (s - s')
  | [], _ => win_raw_minus c l' s
  | _, [] => win_raw_minus c l s'
  | _, _ => Undef ShiftRange
  end.

Definition win_binary (o : assign) (x y : Z) : outcome Z :=
  match o with
  | AddA => defined (win_sum x y)
  | SubA => defined (win_difference x y)
  | MulA => defined (win_product x y)
  | _ => if div_op o && (y =? 0) then Throw DivideByZero else Ret (meaning o x y)
  end.

(** mod_pow(x, e, z). *)
Definition win_power_mod (debug : bool) (x e z : Z) : outcome Z :=
  if e <? 0 then Throw OutOfRange
  else if limbs32 z then defined (win_mod_pow x e z) else power_mod debug x e z.

Definition actual_win (fuel : nat) (c : cfg) (s : zstore) (k : cmd) : outcome zstore :=
  match k with
  | NewDouble r d => if Z.testbit d 31 then Throw OverflowError else Ret (set s r (win_of_double d))
  | Parse r t | TryParse r t => Ret (set s r (win_signed_decimal t))
  | Assign o p q => keep s p (win_binary o (s p) (s q))
  | Binary o r p q => keep s r (win_binary o (s p) (s q))
  | Inc p => keep s p (defined (win_sum (s p) 1))
  | Dec p => keep s p (defined (win_difference (s p) 1))
  | Not r p => keep s r (defined (win_complement (s p)))
  | Pow r p e =>
      if e <? 0 then Throw OutOfRange
      else if (1 <? e) && (1 <? Z.abs (s p)) && (2 ^ 31 - 1 <=? limbs_of (s p) * e + 1) then Throw OverflowError
      else keep s r (defined (win_power (s p) e))
  | ModPow r p e m => keep s r (win_power_mod (dbg c) (s p) (s e) (s m))
  | Gcd r p q => keep s r (win_gcd fuel (dbg c) (s p) (s q))
  | GcdBits r a b => keep s r (win_raw_gcd fuel c a b)
  | AddParts r a s1 b s2 => keep s r (win_raw_sum c a s1 b s2)
  | SubParts r a s1 b s2 => keep s r (win_raw_diff c a s1 b s2)
  | _ => actual fuel c s k
  end.

(** The program [l]; [None] if a call is undefined, fails an assertion or does
    not end. *)
Fixpoint actual_calls_win (fuel : nat) (c : cfg) (s : zstore) (l : list cmd) : option (list (option exn) * zstore) :=
  match l with
  | nil => Some (nil, s)
  | k :: l =>
      match actual_win fuel c s k with
      | Ret s1 => option_map (fun p => (None :: fst p, snd p)) (actual_calls_win fuel c s1 l)
      | Throw e => option_map (fun p => (Some e :: fst p, snd p)) (actual_calls_win fuel c s l)
      | _ => None
      end
  end.
