(** Specification vocabulary for compound assignment and aliasing. *)
From Verif Require Import Machine Spec ApiMem.

(** The integer function a compound assignment stands for. *)
Definition meaning (o : assign) (x y : Z) : Z :=
  match o with
  | AddA => x + y | SubA => x - y | MulA => x * y | DivA => Z.quot x y | RemA => Z.rem x y
  | AndA => Z.land x y | OrA => Z.lor x y | XorA => Z.lxor x y
  end.
(** The assignments that divide. *)
Definition divides (o : assign) : Prop := o = DivA \/ o = RemA.

(** [m'] is [m] except that the object at [p] is now [b]. *)
Definition only_changes (m m' : mem) (p : loc) (b : bigint) : Prop :=
  m' p = b /\ forall q, q <> p -> m' q = m q.

(** Both numbers are stored without limbs. *)
Definition both_small (x y : Z) : Prop := Z.abs x < 2 ^ 31 /\ Z.abs y < 2 ^ 31.

(** The remainder div_rem stores (see C07). *)
Definition stored_rem (x y : Z) : Z :=
  if (x <=? - 2 ^ 31) && (Z.abs y <? 2 ^ 31) && negb (Z.rem x y =? 0) then 2 ^ 32 + Z.rem x y
  else Z.rem x y.

(** The quotient div_rem returns when the operands read [x'] and [y'] after the
    remainder has been stored: the sign comes from these. *)
Definition late_sign (x y x' y' : Z) : Z :=
  let q := Z.abs x / Z.abs y in if xorb (x' <? 0) (y' <? 0) then - q else q.

(** What the address [p] reads after [r] was overwritten by [new]. *)
Definition reread (p r : loc) (old new : Z) : Z := if Nat.eqb p r then new else old.
