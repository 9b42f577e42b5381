(** Model of the text conversions of src/BigInteger.cpp. A std::string is a
    Coq string; a char buffer is a list of character codes. *)
From Coq Require Import String Ascii DecimalString.
From Verif Require Import Machine BigInt.

Definition code (a : ascii) : Z := Z.of_nat (nat_of_ascii a).

(** std::to_string(int): decimal, '-' prefix, no leading zeros (library function). *)
Definition std_to_string (n : Z) : string := NilZero.string_of_int (Z.to_int n).

(** The digit loop of BigInteger::parse: BigInteger.cpp:818-826.
    [char] may be signed: codes above 127 are not digits either way. *)
Fixpoint parse_loop (c : cfg) (s : string) (b : bigint) : outcome bigint :=
  match s with
  | EmptyString => Ret b
  | String ch s =>
      if (48 <=? code ch) && (code ch <=? 57) then
        ten <- bi_of_int32 c 10 ;;
        b <- bi_mul c b ten ;;
        d <- bi_of_uint32 c (code ch - 48) ;;
        b <- bi_add c b d ;;
        parse_loop c s b
      else Ret b
  end.

(** BigInteger::parse: BigInteger.cpp:807-831. s[0] of an empty string is '\0'. *)
Definition bi_parse (c : cfg) (s : string) : outcome bigint :=
  b <- bi_zero c ;;
  let '(is_negative, rest) :=
    match s with
    | String ch t =>
        if code ch =? 45 then (true, t) else if code ch =? 43 then (false, t) else (false, s)
    | EmptyString => (false, s)
    end in
  b <- parse_loop c rest b ;;
  if is_negative : bool then bi_neg c b else Ret b.

(** BigInteger::try_parse: BigInteger.cpp:798-805. Returns (ok, result): the new
    value of the [result] argument, whose old value is [old]. *)
Definition bi_try_parse (c : cfg) (s : string) (old : bigint) : outcome (bool * bigint) :=
  match bi_parse c s with
  | Ret b => Ret (true, b)
  | Throw _ => Ret (false, old)
  | Undef u => Undef u
  | AssertFail => AssertFail
  | NoFuel => NoFuel
  end.

Definition kuBase := 1000000000.

(** NumericsHelpers::make_ulong: NumericsHelpers.h:98-100 *)
Definition make_ulong (uHi uLo : Z) : Z := Z.lor (u64 (Z.shiftl uHi kcbitUint)) uLo.

(** Base conversion of to_string: BigInteger.cpp:853-872. Returns (rguDst, cuDst). *)
Definition to_base1e9 (c : cfg) (bits : list Z) (cuMax : nat) : outcome (list Z * nat) :=
  for_down (length bits) (fun iuSrc st =>
    let '(rguDst, cuDst) := st in
    uCarry <- rd bits iuSrc ;;
    '(rguDst, uCarry) <-
      for_up cuDst 0 (fun iuDst st =>
        let '(rguDst, uCarry) := st in
        x <- rd rguDst iuDst ;;
        massert c (x <? kuBase) ;;;
        let uuRes := make_ulong x uCarry in
        rguDst <- wr rguDst iuDst (u32 (uuRes mod kuBase)) ;;
        Ret (rguDst, u32 (uuRes / kuBase))) (rguDst, uCarry) ;;
    if negb (uCarry =? 0) then
      rguDst <- wr rguDst cuDst (uCarry mod kuBase) ;;
      let cuDst := S cuDst in
      let uCarry := uCarry / kuBase in
      if negb (uCarry =? 0) then
        rguDst <- wr rguDst cuDst uCarry ;; Ret (rguDst, S cuDst)
      else Ret (rguDst, cuDst)
    else Ret (rguDst, cuDst)) (zeros cuMax, O).

(** The digit loop for the leading block: BigInteger.cpp:902-905 *)
Fixpoint last_digits (fuel : nat) (uDig : Z) (rgch : list Z) (ichDst : Z) : outcome (list Z * Z) :=
  if uDig =? 0 then Ret (rgch, ichDst) else
  match fuel with
  | O => NoFuel
  | S fuel =>
      rgch <- wrz rgch (ichDst - 1) (48 + uDig mod 10) ;;
      last_digits fuel (uDig / 10) rgch (ichDst - 1)
  end.
Definition dec_fuel : nat := 20.

Fixpoint string_of_codes (l : list Z) : string :=
  match l with
  | [] => EmptyString
  | x :: t => String (ascii_of_nat (Z.to_nat x)) (string_of_codes t)
  end.

(** BigInteger::to_string: BigInteger.cpp:833-916. The buffer obtained from
    new[] is modelled as zero-filled; every byte of it that is returned has
    been written. *)
Definition bi_to_string (c : cfg) (b : bigint) : outcome string :=
  let bits := bits_of b in
  if is_nil bits then Ret (std_to_string (sign_of b))
  else
    let cuSrc := Z.of_nat (length bits) in
    if INT_MAX / 10 <? cuSrc then Throw OverflowError
    else
    let cuMax := cuSrc * 10 / 9 + 2 in
    '(rguDst, cuDst) <- to_base1e9 c bits (Z.to_nat cuMax) ;;
    if INT_MAX / 9 <? Z.of_nat cuDst then Throw OverflowError
    else
    let cchMax := Z.of_nat cuDst * 9 in
    if cchMax =? INT_MAX then Throw OverflowError
    else
    let rgch := zeros (Z.to_nat (cchMax + 1)) in
    '(rgch, ichDst) <-
      for_up (cuDst - 1) 0 (fun iuDst st =>
        let '(rgch, ichDst) := st in
        uDig <- rd rguDst iuDst ;;
        massert c (uDig <? kuBase) ;;;
        '(rgch, ichDst, _) <-
          for_up 9 0 (fun _ st =>
            let '(rgch, ichDst, uDig) := st in
            rgch <- wrz rgch (ichDst - 1) (48 + uDig mod 10) ;;
            Ret (rgch, ichDst - 1, uDig / 10)) (rgch, ichDst, uDig) ;;
        Ret (rgch, ichDst)) (rgch, cchMax) ;;
    top <- rdz rguDst (Z.of_nat cuDst - 1) ;;
    '(rgch, ichDst) <- last_digits dec_fuel top rgch ichDst ;;
    '(rgch, ichDst) <-
      (if sign_of b <? 0 then
         rgch <- wrz rgch (ichDst - 1) 45 ;; Ret (rgch, ichDst - 1)
       else Ret (rgch, ichDst)) ;;
    s <- slice rgch (Z.to_nat ichDst) (Z.to_nat (cchMax - ichDst)) ;;
    Ret (string_of_codes s).
