(** Comparison, equality and shifts of src/BigInteger.cpp once more, with the
    limb counts the code keeps in [int] wrapped to 32 bits. BigInt.v takes those
    counts as exact, which is right below 2^31 limbs; here numbers have any size. *)
From Verif Require Import Machine BigInt IntSizes.

(** BigInteger::get_diff_length: BigInteger.cpp:750-756, [cu] an int. The first
    [--iv] overflows when [cu] is the least int; [iv + 1] when [iv] is the largest. *)
Definition get_diff_length_i (c : cfg) (rgu1 rgu2 : list Z) (cu : Z) : outcome Z :=
  iv <- chk32 c (cu - 1) ;;
  if iv <? 0 then Ret 0
  else
    k <- get_diff_length rgu1 rgu2 (Z.to_nat (iv + 1)) ;;
    if Nat.eqb k 0 then Ret 0 else chk32 c (Z.of_nat k).

(** BigInteger::compare_to: BigInteger.cpp:723-748, with cuThis and cuOther ints
    (lines 738-739). *)
Definition bi_compare_i (c : cfg) (this other : bigint) : outcome Z :=
  assert_valid c this ;;;
  assert_valid c other ;;;
  if Z.lxor (sign_of this) (sign_of other) <? 0 then
    Ret (if sign_of this <? 0 then -1 else 1)
  else if is_nil (bits_of this) then
    if is_nil (bits_of other) then
      Ret (if sign_of this <? sign_of other then -1
           else if sign_of other <? sign_of this then 1 else 0)
    else chk32 c (- sign_of other)
  else
    let cuThis := s32 (Z.of_nat (length (bits_of this))) in
    let cuOther := s32 (Z.of_nat (length (bits_of other))) in
    if is_nil (bits_of other) || (cuOther <? cuThis) then Ret (sign_of this)
    else if cuThis <? cuOther then chk32 c (- sign_of this)
    else
      cuDiff <- get_diff_length_i c (bits_of this) (bits_of other) cuThis ;;
      if cuDiff =? 0 then Ret 0
      else
        i <- chk32 c (cuDiff - 1) ;;
        x <- rdz (bits_of this) i ;; y <- rdz (bits_of other) i ;;
        if x <? y then chk32 c (- sign_of this) else Ret (sign_of this).

(** BigInteger::equals: BigInteger.cpp:779-796. [cu] is a size_t, converted to
    the int parameter of get_diff_length at line 794. *)
Definition bi_equals_i (c : cfg) (this other : bigint) : outcome bool :=
  assert_valid c this ;;;
  assert_valid c other ;;;
  if negb (sign_of this =? sign_of other) then Ret false
  else if vec_eqb (bits_of this) (bits_of other) then Ret true
  else if is_nil (bits_of this) || is_nil (bits_of other) then Ret false
  else if negb (Nat.eqb (length (bits_of this)) (length (bits_of other))) then Ret false
  else
    cuDiff <- get_diff_length_i c (bits_of this) (bits_of other)
                (s32 (Z.of_nat (length (bits_of this)))) ;;
    Ret (cuDiff =? 0).

(** Comparison operators: BigInteger.h:40-50 *)
Definition bi_lt_i c a b := r <- bi_compare_i c a b ;; Ret (r <? 0).
Definition bi_gt_i c a b := bi_lt_i c b a.
Definition bi_le_i c a b := r <- bi_gt_i c a b ;; Ret (negb r).
Definition bi_ge_i c a b := r <- bi_lt_i c a b ;; Ret (negb r).
Definition bi_eq_i c a b := bi_equals_i c a b.
Definition bi_ne_i c a b := r <- bi_equals_i c a b ;; Ret (negb r).

(** Max, Min: BigInteger.cpp:1143-1153 *)
Definition bi_max_i c a b := r <- bi_compare_i c a b ;; Ret (if r <? 0 then b else a).
Definition bi_min_i c a b := r <- bi_compare_i c a b ;; Ret (if r <=? 0 then a else b).

(** BigInteger::operator<<= for shift > 0: BigInteger.cpp:948-975. xl, zl and the
    loop variable are ints; [uint_array zd(zl, 0)] with a negative zl asks for
    more than max_size() elements. *)
Definition bi_shl_pos_i (c : cfg) (b : bigint) (shift : Z) : sized bigint :=
  let digitShift := shift / kcbitUint in
  let smallShift := shift - digitShift * kcbitUint in
  match bi_parts c b with
  | Ret (xd, negx) =>
      let xl := s32 (Z.of_nat (length xd)) in
      match t <- chk32 c (xl + digitShift) ;; chk32 c (t + 1) with
      | Ret zl =>
          if zl <? 0 then LengthError
          else Sized (
            let zd := zeros (Z.to_nat zl) in
            let ds := Z.to_nat digitShift in
            zd <-
              (if smallShift =? 0 then
                 for_up (Z.to_nat xl) 0 (fun i zd => x <- rd xd i ;; wr zd (i + ds) x) zd
               else
                 let carryShift := kcbitUint - smallShift in
                 '(zd, carry) <-
                   for_up (Z.to_nat xl) 0 (fun i st =>
                     let '(zd, carry) := st in
                     rot <- rd xd i ;;
                     hi <- shl32 rot smallShift ;;
                     zd <- wr zd (i + ds) (Z.lor hi carry) ;;
                     carry <- shr32 rot carryShift ;;
                     Ret (zd, carry)) (zd, 0) ;;
                 wr zd (Z.to_nat xl + ds) carry) ;;
            bi_of_mag c zd negx)
      | Throw e => Sized (Throw e)
      | Undef u => Sized (Undef u)
      | AssertFail => Sized AssertFail
      | NoFuel => Sized NoFuel
      end
  | Throw e => Sized (Throw e)
  | Undef u => Sized (Undef u)
  | AssertFail => Sized AssertFail
  | NoFuel => Sized NoFuel
  end.

(** BigInteger::operator>>= for shift > 0: BigInteger.cpp:1057-1100, likewise.
    [top] is xl - 1, the first value of the loop variable (lines 1080, 1086) and
    the one compared with at line 1088. *)
Definition bi_shr_pos_i (c : cfg) (b : bigint) (shift : Z) : outcome bigint :=
  let digitShift := shift / kcbitUint in
  let smallShift := shift - digitShift * kcbitUint in
  '(xd, negx) <- bi_parts c b ;;
  let xl := s32 (Z.of_nat (length xd)) in
  early <-
    (if negx : bool then width <- chk32 c (kcbitUint * xl) ;; Ret (width <=? shift)
     else Ret false) ;;
  if early : bool then Ret s_bnMinusOneInt
  else
    xd <- (if negx then make_twos_complement xd else Ret xd) ;;
    zl <- chk32 c (xl - digitShift) ;;
    (* if (zl < 0) zl = 0 *)
    let zd := zeros (Z.to_nat zl) in
    let ds := Z.to_nat digitShift in
    top <- chk32 c (xl - 1) ;;
    let steps := Z.to_nat (top + 1 - digitShift) in
    zd <-
      (if smallShift =? 0 then
         for_down steps (fun k zd => x <- rd xd (k + ds) ;; wr zd k x) zd
       else
         let carryShift := kcbitUint - smallShift in
         '(zd, _) <-
           for_down steps (fun k st =>
             let '(zd, carry) := st in
             let i := (k + ds)%nat in
             rot <- rd xd i ;;
             lo <- shr32 rot smallShift ;;
             zd <-
               (if negx && (Z.of_nat i =? top)
                then m <- shl32 UINT_MAX carryShift ;; wr zd k (Z.lor lo m)
                else wr zd k (Z.lor lo carry)) ;;
             carry <- shl32 rot carryShift ;;
             Ret (zd, carry)) (zd, 0) ;;
         Ret zd) ;;
    zd <- (if negx then make_twos_complement zd else Ret zd) ;;
    bi_of_mag c zd negx.

(** BigInteger::operator<<=: BigInteger.cpp:937-976 *)
Definition bi_shl_i (c : cfg) (b : bigint) (shift : Z) : sized bigint :=
  if shift =? 0 then Sized (Ret b)
  else if shift =? INT_MIN then
    Sized (r <- bi_shr_pos_i c b INT_MAX ;; bi_shr_pos_i c r 1)
  else if shift <? 0 then Sized (bi_shr_pos_i c b (- shift))
  else bi_shl_pos_i c b shift.

(** BigInteger::operator>>=: BigInteger.cpp:1046-1101 *)
Definition bi_shr_i (c : cfg) (b : bigint) (shift : Z) : sized bigint :=
  if shift =? 0 then Sized (Ret b)
  else if shift =? INT_MIN then
    match bi_shl_pos_i c b INT_MAX with
    | Sized (Ret r) => bi_shl_pos_i c r 1
    | other => other
    end
  else if shift <? 0 then bi_shl_pos_i c b (- shift)
  else Sized (bi_shr_pos_i c b shift).
