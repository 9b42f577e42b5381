(** Specification vocabulary for histories of calls: what each call does to a
    store of integers. *)
From Coq Require Import ZArith List String.
From Verif Require Import Machine Spec SpecPos SpecApi SpecText SpecDouble SpecGcd SpecMem ApiMem ApiRun.
Open Scope Z_scope.

(** The integers the objects stand for. *)
Definition zstore := loc -> Z.
Definition set (s : zstore) (p : loc) (z : Z) : zstore := fun q => if Nat.eqb q p then z else s q.

(** What a call does: it stores integers, or throws and changes nothing. *)
Inductive reply := Stores (s : zstore) | Raises (e : exn).

(** The magnitude of a limb array and its sign. *)
Definition signed_limbs (l : list Z) (negative : bool) : Z :=
  let z := positional (2 ^ 32) l in if negative then - z else z.

(** The documented effect of each call of ApiRun.cmd, the overloads on limb
    arrays excepted. *)
Inductive effect (s : zstore) : cmd -> reply -> Prop :=
| ENewDefault r : effect s (NewDefault r) (Stores (set s r 0))
| ENewInt r v : effect s (NewInt r v) (Stores (set s r v))
| ENewUint r v : effect s (NewUint r v) (Stores (set s r v))
| ENewLong r v : effect s (NewLong r v) (Stores (set s r v))
| ENewUlong r v : effect s (NewUlong r v) (Stores (set s r v))
| ENewDouble r d : dbl_finite d -> effect s (NewDouble r d) (Stores (set s r (dbl_trunc d)))
| ENewDoubleX r d : ~ dbl_finite d -> effect s (NewDouble r d) (Raises OverflowError)
| ENewMag r l neg : effect s (NewMag r l neg) (Stores (set s r (signed_limbs l neg)))
| ENewBytes r l u be : effect s (NewBytes r l u be) (Stores (set s r (bytes_value u be l)))
| ECopy r p : effect s (Copy r p) (Stores (set s r (s p)))
| EZero r : effect s (Zero r) (Stores (set s r 0))
| EOne r : effect s (One r) (Stores (set s r 1))
| EMinusOne r : effect s (MinusOne r) (Stores (set s r (-1)))
| EParse r t : effect s (Parse r t) (Stores (set s r (signed_decimal t)))
| ETryParse r t : effect s (TryParse r t) (Stores (set s r (signed_decimal t)))
| EAssign o p q : (divides o -> s q <> 0) ->
    effect s (Assign o p q) (Stores (set s p (meaning o (s p) (s q))))
| EAssignX o p q : divides o -> s q = 0 -> effect s (Assign o p q) (Raises DivideByZero)
| EBinary o r p q : (divides o -> s q <> 0) ->
    effect s (Binary o r p q) (Stores (set s r (meaning o (s p) (s q))))
| EBinaryX o r p q : divides o -> s q = 0 -> effect s (Binary o r p q) (Raises DivideByZero)
| EShlAssign p n : effect s (ShlAssign p n) (Stores (set s p (shifted (s p) n)))
| EShrAssign p n : effect s (ShrAssign p n) (Stores (set s p (shifted (s p) (- n))))
| EShl r p n : effect s (Shl r p n) (Stores (set s r (shifted (s p) n)))
| EShr r p n : effect s (Shr r p n) (Stores (set s r (shifted (s p) (- n))))
| EInc p : effect s (Inc p) (Stores (set s p (s p + 1)))
| EDec p : effect s (Dec p) (Stores (set s p (s p - 1)))
| ENeg r p : effect s (Neg r p) (Stores (set s r (- s p)))
| EPos r p : effect s (Pos r p) (Stores (set s r (s p)))
| ENot r p : effect s (Not r p) (Stores (set s r (- s p - 1)))
| EAbs r p : effect s (Abs r p) (Stores (set s r (Z.abs (s p))))
| EDivRem r d v t : s v <> 0 ->
    effect s (DivRem r d v t) (Stores (set (set s t (Z.rem (s d) (s v))) r (Z.quot (s d) (s v))))
| EDivRemX r d v t : s v = 0 -> effect s (DivRem r d v t) (Raises DivideByZero)
| EPow r p e n : limb_count (s p) n -> 0 <= e -> Z.abs (s p) <= 1 \/ e <= 1 \/ n * e + 1 < 2 ^ 31 - 1 ->
    effect s (Pow r p e) (Stores (set s r (s p ^ e)))
| EPowLarge r p e n : limb_count (s p) n -> 1 < e -> 1 < Z.abs (s p) -> 2 ^ 31 - 1 <= n * e + 1 ->
    effect s (Pow r p e) (Raises OverflowError)
| EPowX r p e : e < 0 -> effect s (Pow r p e) (Raises OutOfRange)
| EModPow r p e q : 0 <= s e -> s q <> 0 ->
    effect s (ModPow r p e q) (Stores (set s r (Z.rem (s p ^ s e) (s q))))
| EModPowX r p e q : s e < 0 -> effect s (ModPow r p e q) (Raises OutOfRange)
| EModPowZ r p e q : 0 <= s e -> s q = 0 -> effect s (ModPow r p e q) (Raises DivideByZero)
| EGcd r p q : effect s (Gcd r p q) (Stores (set s r (Z.gcd (s p) (s q)))).

(** The calls that the other properties show to be right: outside this, the
    code is known to deviate (or nothing is claimed: the overloads on limb arrays,
    mod_pow with a modulus of 32 limbs when a reduction is needed). *)
Definition right_shift_ok (x n : Z) : Prop := (x < 0 -> fits_limbs x (2 ^ 26 - 1)) /\ ~ shr_bad x n.
Definition div_rem_ok (x y : Z) : Prop := ~ (x <= - 2 ^ 31 /\ - 2 ^ 31 < y < 2 ^ 31 /\ Z.rem x y <> 0).
Definition mod_pow_ok (x e m : Z) : Prop :=
  (e < 0) \/
  (m = 0 /\ (2 ^ 31 <= Z.abs x \/ e < 2 ^ 32)) \/
  (m <> 0 /\ Z.abs m < 2 ^ 31 /\ 0 <= Z.rem (x ^ e) m) \/
  (2 ^ 31 <= Z.abs m < 2 ^ 992) \/
  ((e < 2 ^ 31 \/ Z.abs x <= 1) /\ exists n, 32 <= n /\ limb_count m n /\ fits_limbs x (n - 1) /\ fits_limbs (x ^ e) (n - 1)).
Definition in_scope (c : cfg) (s : zstore) (k : cmd) : Prop :=
  match k with
  | NewLong _ v => strict c = false \/ v <> - 2 ^ 63
  | NewBytes _ l u be => strict c = false \/ 0 <= bytes_value u be l \/ (4 < List.length l)%nat
  | TryParse _ t => well_formed t
  | ShlAssign p n | Shl _ p n => n < 0 -> right_shift_ok (s p) (- n)
  | ShrAssign p n | Shr _ p n => 0 < n -> right_shift_ok (s p) n
  | DivRem _ d v t => s v <> 0 -> t <> d /\ t <> v /\ div_rem_ok (s d) (s v)
  | ModPow _ p e m => mod_pow_ok (s p) (s e) (s m)
  | Gcd _ p q => euclid_run (Z.max (Z.abs (s p)) (Z.abs (s q))) (Z.min (Z.abs (s p)) (Z.abs (s q)))
  | GcdBits _ _ _ | AddParts _ _ _ _ _ | SubParts _ _ _ _ _ => False
  | _ => True
  end.

(** A program: calls whose exceptions are caught. The history records, for each
    call, the exception if there was one. *)
Inductive history (c : cfg) : zstore -> list cmd -> list (option exn) -> zstore -> Prop :=
| HEnd s : history c s nil nil s
| HStores s k s1 l tr s2 :
    typed k -> in_scope c s k -> effect s k (Stores s1) -> history c s1 l tr s2 ->
    history c s (k :: l) (None :: tr) s2
| HRaises s k e l tr s2 :
    typed k -> in_scope c s k -> effect s k (Raises e) -> history c s l tr s2 ->
    history c s (k :: l) (Some e :: tr) s2.

(** The same program run by the model; [None] if a call gets stuck (undefined
    behaviour, failed assertion, fuel used up). *)
Fixpoint run_calls (fuel : nat) (c : cfg) (l : list cmd) (m : mem) : option (list (option exn) * mem) :=
  match l with
  | nil => Some (nil, m)
  | k :: l =>
      match run_cmd fuel c k m with
      | (Ret tt, m') =>
          match run_calls fuel c l m' with Some (tr, m2) => Some (None :: tr, m2) | None => None end
      | (Throw e, m') =>
          match run_calls fuel c l m' with Some (tr, m2) => Some (Some e :: tr, m2) | None => None end
      | _ => None
      end
  end.

(** The objects stand for the integers. *)
Definition stands_for (m : mem) (s : zstore) : Prop := forall p, represents (m p) (s p).
