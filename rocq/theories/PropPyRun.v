(** Property theorems: what every Python expression over BigInteger objects and
    every Python script evaluates to, on both data models. *)
From Coq Require Import String List.
From Verif Require Import Machine Spec SpecApi SpecText SpecPy SpecRun SpecActual SpecPyRun BigInt BigIntText ApiMem PyBind PyRun PyRunFacts Examples.
Import ListNotations.
Open Scope Z_scope.

(** C66. Operators with a BigInteger and an int on either side, unary operators,
    conversions, methods, pow with three arguments and the constructors. *)
Theorem C66_py_expression_exact : forall d c m s e,
  py_typed e -> stands_for m s -> yields (eval d c m e) (value_of d c s e).
Proof. exact eval_exact. Qed.
Print Assumptions C66_py_expression_exact.
Theorem C66_py_script_exact : forall d c l m s,
  Forall (fun i => py_typed (snd i)) l -> stands_for m s ->
  match script_values d c l s with
  | Some (vs, s') => exists rs m', script d c l m = Some (rs, m') /\ Forall2 shown rs vs /\ stands_for m' s'
  | None => script d c l m = None
  end.
Proof. exact script_exact. Qed.
Print Assumptions C66_py_script_exact.
(** a = BigInteger(2^64 - 1); b = a + 1; c, e = divmod(-(a * a), BigInteger(7));
    divmod(10^30, b); 5 - b; b ** -1; b ** 3; 1 << b; hash(b); str(c); pow(b, 3, a);
    bytes(b); b != 2^64; c // 0. On LLP64 the first sum is 0. *)
Definition C66_script : list (loc * loc * py_expr) :=
  [(0, 9, ENew false (2 ^ 64 - 1)); (1, 9, EBinInt OAdd 0 false 1); (2, 9, EBin OMul 0 0); (2, 9, EUnary UNeg 2);
   (5, 9, ENew false 7); (2, 3, EBin ODivMod 2 5); (9, 9, EIntBin ODivMod false (10 ^ 30) 0); (9, 9, EIntBin OSub false 5 1);
   (9, 9, EBinInt OPow 1 false (-1)); (6, 9, EBinInt OPow 1 false 3); (9, 9, EIntBin OShl false 1 1); (9, 9, EUnary UHash 2);
   (9, 9, EUnary UStr 2); (7, 9, EPow3Exp 1 false 3 0); (9, 9, EUnary UBytes 1); (9, 9, EBinInt ONe 1 false (2 ^ 64));
   (9, 9, EBinInt OFloorDiv 2 true 0); (9, 9, EUnary UFloat 0)]%nat.
Example C66_case :
  Forall (fun i => py_typed (snd i)) C66_script /\
  option_map fst (script_values LP64 release_wrap C66_script (fun _ => 0)) =
    Some [inl (VBig (2 ^ 64 - 1)); inl (VBig (2 ^ 64)); inl (VBig ((2 ^ 64 - 1) ^ 2)); inl (VBig (- (2 ^ 64 - 1) ^ 2));
      inl (VBig 7); inl (VBigs (- ((2 ^ 64 - 1) ^ 2 / 7)) (2 ^ 32 - 1)); inl (VTexts 54210108624 5076944324515372240);
      inl (VInt (5 - 2 ^ 64)); inr OutOfRange; inl (VBig (2 ^ 192)); inr OverflowError; inl (VInt (-36342610560576453));
      inl (VText (- ((2 ^ 64 - 1) ^ 2 / 7))); inl (VBig 1); inl (VBytes false false (2 ^ 64)); inl (VBool false);
      inr DivideByZero; inl (VFloat (2 ^ 64))] /\
  option_map (fun p => map (snd p) [0; 1; 2; 3; 6; 7]%nat) (script LP64 release_wrap C66_script (fun _ => bi_default)) =
    Some [Big 1 [4294967295; 4294967295]; Big 1 [0; 0; 1]; Big (-1) [0; 0; 2454267026; 613566756];
          Big 1 [4294967295]; Big 1 [0; 0; 0; 0; 0; 0; 1]; Big 1 []] /\
  option_map (fun p => snd p 1%nat) (script_values LLP64 release_wrap (firstn 2 C66_script) (fun _ => 0)) = Some 0 /\
  option_map (fun p => snd p 1%nat) (script LLP64 release_wrap (firstn 2 C66_script) (fun _ => bi_default)) = Some (Big 0 []).
Proof.
  split; [repeat constructor; discriminate|]. repeat split; vm_compute; reflexivity.
Qed.

(** C67. get_hash_code() and to_string() for every integer. *)
Theorem C67_hash_exact : forall c a x, represents a x -> bi_hash c a = Ret (hash_code x).
Proof. exact hash_exact. Qed.
Print Assumptions C67_hash_exact.
Theorem C67_text_exact : forall c a x, represents a x ->
  match text x with
  | Ret z => z = x /\ exists s, bi_to_string c a = Ret s /\ numeral s x
  | Throw e => bi_to_string c a = Throw e
  | Undef u => bi_to_string c a = Undef u
  | _ => False
  end.
Proof. exact text_exact. Qed.
Print Assumptions C67_text_exact.
Example C67_case :
  bi_hash debug_strict (Big (-1) [5; 1; 9]) = Ret (hash_code (- (5 + 2 ^ 32 + 9 * 2 ^ 64))) /\
  hash_code (- (5 + 2 ^ 32 + 9 * 2 ^ 64)) = -147590 /\
  text (- 10 ^ 17) = Undef OutOfBounds /\ text (- 10 ^ 16) = Ret (- 10 ^ 16) /\ text (10 ^ 17) = Ret (10 ^ 17) /\
  bi_to_string debug_strict (Big (-1) [1569325056; 23283064]) = Undef OutOfBounds /\
  represents (Big (-1) [1569325056; 23283064]) (- 10 ^ 17).
Proof.
  split; [vm_compute; reflexivity|]. split; [vm_compute; reflexivity|]. split; [vm_compute; reflexivity|].
  split; [vm_compute; reflexivity|]. split; [vm_compute; reflexivity|]. split; [vm_compute; reflexivity|]. repr.
Qed.
