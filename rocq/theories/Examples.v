(** Helpers for the concrete cases shown beside the property theorems. *)
From Verif Require Import Facts Spec SpecFacts.

Definition canonicalb (b : bigint) : bool :=
  match bits_of b with
  | [] => (-2147483648 <? sign_of b) && (sign_of b <? 2147483648)
  | l => ((sign_of b =? 1) || (sign_of b =? -1)) &&
         forallb (fun d => (0 <=? d) && (d <? 4294967296)) l &&
         negb (last l 0 =? 0) && (2147483648 <=? magnitude l)
  end.

Lemma represents_compute b z : canonicalb b = true -> value b = z -> represents b z.
Proof.
  intros H E. split; [|exact E]. clear E z. destruct b as [s l]. unfold canonicalb, canonical in *.
  cbn [sign_of bits_of] in *. change (2 ^ 31) with 2147483648. change (2 ^ 32) with 4294967296.
  destruct l as [|x l].
  - apply Bool.andb_true_iff in H. lia.
  - repeat (apply Bool.andb_true_iff in H; destruct H as [H ?]).
    split; [apply Bool.orb_true_iff in H; lia|]. split.
    + apply Forall_forall. intros y Hy. rewrite forallb_forall in *.
      specialize (H2 y Hy). apply Bool.andb_true_iff in H2. lia.
    + split; [|lia]. destruct (Z.eqb_spec (last (x :: l) 0) 0); [discriminate|assumption].
Qed.

(** Closes [represents b z] for concrete [b] and [z]. *)
Ltac repr := apply represents_compute; vm_compute; reflexivity.

(** The two build configurations of interest. *)
Definition debug_strict := Cfg true true.
Definition release_wrap := Cfg false false.

(** 2^992 + x0, 32 limbs long. *)
Definition big32 (x0 : Z) : bigint := Big 1 (x0 :: zeros 30 ++ [1]).
