(** to_string of src/BigInteger.cpp once more, with the limb count the code
    keeps in [int] wrapped to 32 bits, for numbers of any size. *)
From Coq Require Import String.
From Verif Require Import Machine BigInt BigIntText IntSizes.
Local Notation length := List.length.

(** Base conversion of the lowest [cuSrc] limbs: BigInteger.cpp:853-872. Returns (rguDst, cuDst). *)
Definition to_base1e9_i (c : cfg) (bits : list Z) (cuSrc : nat) (cuMax : nat) : outcome (list Z * nat) :=
  for_down cuSrc (fun iuSrc st =>
    let '(rguDst, cuDst) := st in
    uCarry <- rd bits iuSrc ;;
    '(rguDst, uCarry) <-
      for_up cuDst 0 (fun iuDst st =>
        let '(rguDst, uCarry) := st in
        x <- rd rguDst iuDst ;;
        massert c (x <? kuBase) ;;;
        let uuRes := make_ulong x uCarry in
        rguDst <- wr rguDst iuDst (u32 (uuRes mod kuBase)) ;;
        Ret (rguDst, u32 (uuRes / kuBase))) (rguDst, uCarry) ;;
    if negb (uCarry =? 0) then
      rguDst <- wr rguDst cuDst (uCarry mod kuBase) ;;
      let cuDst := S cuDst in
      let uCarry := uCarry / kuBase in
      if negb (uCarry =? 0) then
        rguDst <- wr rguDst cuDst uCarry ;; Ret (rguDst, S cuDst)
      else Ret (rguDst, cuDst)
    else Ret (rguDst, cuDst)) (zeros cuMax, O).

(** From the blocks of nine digits to the string: BigInteger.cpp:874-915. *)
Definition write_blocks (c : cfg) (sign : Z) (rguDst : list Z) (cuDst : nat) : outcome string :=
  if INT_MAX / 9 <? Z.of_nat cuDst then Throw OverflowError
  else
  let cchMax := Z.of_nat cuDst * 9 in
  if cchMax =? INT_MAX then Throw OverflowError
  else
  let rgch := zeros (Z.to_nat (cchMax + 1)) in
  '(rgch, ichDst) <-
    for_up (cuDst - 1) 0 (fun iuDst st =>
      let '(rgch, ichDst) := st in
      uDig <- rd rguDst iuDst ;;
      massert c (uDig <? kuBase) ;;;
      '(rgch, ichDst, _) <-
        for_up 9 0 (fun _ st =>
          let '(rgch, ichDst, uDig) := st in
          rgch <- wrz rgch (ichDst - 1) (48 + uDig mod 10) ;;
          Ret (rgch, ichDst - 1, uDig / 10)) (rgch, ichDst, uDig) ;;
      Ret (rgch, ichDst)) (rgch, cchMax) ;;
  top <- rdz rguDst (Z.of_nat cuDst - 1) ;;
  '(rgch, ichDst) <- last_digits dec_fuel top rgch ichDst ;;
  '(rgch, ichDst) <-
    (if sign <? 0 then
       rgch <- wrz rgch (ichDst - 1) 45 ;; Ret (rgch, ichDst - 1)
     else Ret (rgch, ichDst)) ;;
  s <- slice rgch (Z.to_nat ichDst) (Z.to_nat (cchMax - ichDst)) ;;
  Ret (string_of_codes s).

(** BigInteger::to_string: BigInteger.cpp:833-916. cuSrc, cuMax and iuSrc are
    ints; cuSrc * 10 (line 850) and --iuSrc (line 856) overflow where they leave
    their range, and a negative cuMax makes the std::vector of line 853 throw
    std::length_error. *)
Definition bi_to_string_i (c : cfg) (b : bigint) : sized string :=
  let bits := bits_of b in
  if is_nil bits then Sized (Ret (std_to_string (sign_of b)))
  else
    let cuSrc := s32 (Z.of_nat (length bits)) in
    if INT_MAX / 10 <? cuSrc then Sized (Throw OverflowError)
    else
    match chk32 c (cuSrc * 10) with
    | Ret m =>
        let cuMax := Z.quot m 9 + 2 in
        if cuMax <? 0 then LengthError
        else Sized (
          iuSrc <- chk32 c (cuSrc - 1) ;;
          '(rguDst, cuDst) <- to_base1e9_i c bits (Z.to_nat (iuSrc + 1)) (Z.to_nat cuMax) ;;
          write_blocks c (sign_of b) rguDst cuDst)
    | Throw e => Sized (Throw e)
    | Undef u => Sized (Undef u)
    | AssertFail => Sized AssertFail
    | NoFuel => Sized NoFuel
    end.
