(** Proofs about to_string for numbers of any size. *)
From Coq Require Import String Ascii.
From Verif Require Import Facts AddSubFacts Spec SpecFacts SpecApi SpecGcd SpecActual BigInt BigIntFacts CompareFacts
  ShiftFacts ConvFacts WordFacts PowFacts SpecPos PosFacts SpecText BigIntText TextFacts IntSizes IntSizesFacts
  SpecLimbs IntLimbsFacts IntConvFacts IntConvLaws SpecIntAdd IntAddFacts BytesFacts ActualFacts IntText SpecIntText.
Open Scope Z_scope.
Ltac Zify.zify_post_hook ::= idtac.
Local Notation length := List.length.
Notation D9 := 1000000000 (only parsing).

(** One limb of the base conversion. *)
Definition block_step (c : cfg) (bits : list Z) (iuSrc : nat) (st : list Z * nat) : outcome (list Z * nat) :=
    let '(rguDst, cuDst) := st in
    uCarry <- rd bits iuSrc ;;
    '(rguDst, uCarry) <-
      for_up cuDst 0 (fun iuDst st =>
        let '(rguDst, uCarry) := st in
        x <- rd rguDst iuDst ;;
        massert c (x <? kuBase) ;;;
        let uuRes := make_ulong x uCarry in
        rguDst <- wr rguDst iuDst (u32 (uuRes mod kuBase)) ;;
        Ret (rguDst, u32 (uuRes / kuBase))) (rguDst, uCarry) ;;
    if negb (uCarry =? 0) then
      rguDst <- wr rguDst cuDst (uCarry mod kuBase) ;;
      let cuDst := S cuDst in
      let uCarry := uCarry / kuBase in
      if negb (uCarry =? 0) then
        rguDst <- wr rguDst cuDst uCarry ;; Ret (rguDst, S cuDst)
      else Ret (rguDst, cuDst)
    else Ret (rguDst, cuDst).

Definition blocks (V : Z) (cap : nat) (st : list Z * nat) : Prop :=
  exists ds rest, fst st = ds ++ rest /\ snd st = length ds /\ length (fst st) = cap /\
    digits D9 ds /\ positional D9 ds = V /\ (ds <> [] -> 0 < last ds 0).

Lemma wr_out (l : list Z) i v : (length l <= i)%nat -> wr l i v = Undef OutOfBounds.
Proof. intros H. unfold wr. destruct (Nat.ltb_spec i (length l)); [lia|reflexivity]. Qed.
Lemma wr_in (l : list Z) i v : (i < length l)%nat -> wr l i v = Ret (upd l i v).
Proof. intros H. unfold wr. destruct (Nat.ltb_spec i (length l)); [reflexivity|lia]. Qed.

Lemma block_step_spec c bits cap k st : limbs bits -> (k < length bits)%nat -> blocks (val (skipn (S k) bits)) cap st ->
  (exists st', block_step c bits k st = Ret st' /\ blocks (val (skipn k bits)) cap st') \/
  (block_step c bits k st = Undef OutOfBounds /\ bp D9 cap <= val (skipn k bits)).
Proof.
  intros Hl Hk (ds & rest & ER & En & EL & Hds & HV & Hlast). destruct st as [R n]. cbn [fst snd] in *. subst R n.
  unfold block_step. rewrite (rd_ok bits k) by lia. cbn [bind]. set (x := nth k bits 0).
  assert (limb x) as Hx by (apply limbs_nth; exact Hl).
  assert (val (skipn k bits) = x + W32 * val (skipn (S k) bits)) as Ev
    by (rewrite (skipn_nth bits k) by lia; reflexivity).
  pose proof (inner_spec c ds rest x Hds Hx) as W. apply wp_inv in W.
  destruct W as ([R uC] & Ew & ds' & ER & Lds & Hds' & HuC & EQ). cbn [fst snd] in *. subst R.
  cbv zeta in Ew |- *. rewrite Ew. clear Ew. cbn [bind].
  assert (positional D9 ds' + bp D9 (length ds') * uC = val (skipn k bits)) as EQ'
    by (rewrite Lds, EQ, HV, Ev; ring).
  pose proof (pos_bound D9 ltac:(lia) ds' Hds') as PB'.
  pose proof (bp_pos D9 ltac:(lia) (length ds')) as BP.
  set (P := bp D9 (length ds')) in *. rewrite <- Lds. rewrite app_length in EL. rewrite <- Lds in EL.
  destruct (Z.eqb_spec uC 0) as [Z0|N0]; cbn [negb].
  - left. subst uC. eexists. split; [reflexivity|]. exists ds', rest. cbn [fst snd]. split; [reflexivity|]. split; [reflexivity|].
    split; [rewrite app_length; lia|]. split; [exact Hds'|]. split; [lia|].
    intros Hne. destruct (snoc_case ds') as [->|(m & d & ->)]; [congruence|]. rewrite last_snoc.
    destruct (snoc_case ds) as [->|(m0 & d0 & ->)]; [rewrite app_length in Lds; cbn [List.length] in Lds; lia|].
    assert (m0 ++ [d0] <> []) as Hne0 by (destruct m0; discriminate). specialize (Hlast Hne0).
    rewrite last_snoc in Hlast. rewrite !app_length in Lds. cbn [List.length] in Lds.
    apply Forall_app in Hds. destruct Hds as [Hm0 Hd0]. apply Forall_app in Hds'. destruct Hds' as [Hm Hd].
    inversion Hd as [|? ? Hd1 _]; subst.
    pose proof (pos_top D9 m0 d0 ltac:(lia) Hm0 Hlast) as T0.
    destruct (Z.eq_dec d 0) as [->|]; [exfalso|lia].
    rewrite pos_app in EQ'. cbn [positional] in EQ'. pose proof (pos_bound D9 ltac:(lia) m Hm) as PBm.
    unfold bp in PBm. replace (length m) with (length m0) in PBm by lia.
    set (Q := D9 ^ Z.of_nat (length m0)) in *.
    assert (val (skipn (S k) bits) <= val (skipn k bits)) as LE.
    { rewrite Ev. pose proof (val_bound (skipn (S k) bits) (limbs_skipn _ _ Hl)). num; lia. }
    rewrite HV in T0. lia.
  - set (n := length ds') in *.
    assert (P <= val (skipn k bits)) as LE.
    { rewrite <- EQ'. assert (P * 1 <= P * uC) by (apply Z.mul_le_mono_nonneg_l; num; lia). lia. }
    destruct rest as [|r0 rest].
    { right. cbn [List.length] in EL. replace cap with n by lia. split; [|exact LE].
      rewrite app_nil_r, wr_out by (fold n; lia). reflexivity. }
    cbn [List.length] in EL. rewrite wr_in by (rewrite app_length; cbn [List.length]; fold n; lia). cbn [bind].
    assert (upd (ds' ++ r0 :: rest) n (uC mod kuBase) = ds' ++ (uC mod kuBase) :: rest) as -> by apply upd_app.
    cbv zeta.
    pose proof (Z.div_mod uC kuBase ltac:(unfold kuBase; lia)) as DM.
    pose proof (Z.mod_pos_bound uC kuBase ltac:(unfold kuBase; lia)) as MB.
    pose proof (Z.div_pos uC kuBase ltac:(num; lia) ltac:(unfold kuBase; lia)) as QP.
    assert (uC / kuBase < 5) as QB by (apply Z.div_lt_upper_bound; unfold kuBase; num; lia).
    set (q := uC / kuBase) in *. set (r := uC mod kuBase) in *. clearbody q r. unfold kuBase in *.
    destruct (Z.eqb_spec q 0) as [Zq|Nq]; cbn [negb].
    + left. subst q. eexists. split; [reflexivity|]. exists (ds' ++ [r]), rest. cbn [fst snd].
      split; [now rewrite <- app_assoc|]. split; [rewrite app_length; cbn [List.length]; fold n; lia|].
      split; [rewrite app_length; cbn [List.length]; fold n; lia|].
      split; [apply Forall_app; split; [exact Hds'|constructor; [lia|constructor]]|].
      split; [rewrite pos_app; cbn [positional]; fold n; fold P; rewrite <- EQ'; rewrite DM; ring|].
      intros _. rewrite last_snoc. lia.
    + assert (bp D9 (S n) <= val (skipn k bits)) as LE2.
      { rewrite bp_S. fold P. rewrite <- EQ'.
        assert (D9 <= uC) by lia. assert (P * D9 <= P * uC) by (apply Z.mul_le_mono_nonneg_l; lia). lia. }
      destruct rest as [|r1 rest].
      { right. cbn [List.length] in EL. replace cap with (S n) by lia. split; [|exact LE2].
        rewrite wr_out by (rewrite app_length; cbn [List.length]; fold n; lia). reflexivity. }
      left. cbn [List.length] in EL. rewrite wr_in by (rewrite app_length; cbn [List.length]; fold n; lia). cbn [bind].
      assert (upd (ds' ++ r :: r1 :: rest) (S n) q = (ds' ++ [r]) ++ q :: rest) as ->.
      { replace (ds' ++ r :: r1 :: rest) with ((ds' ++ [r]) ++ r1 :: rest) by (now rewrite <- app_assoc).
        replace (S n) with (length (ds' ++ [r])) by (rewrite app_length; cbn [List.length]; fold n; lia).
        apply upd_app. }
      eexists. split; [reflexivity|]. cbn [fst snd]. exists (ds' ++ [r; q]), rest. cbn [fst snd].
      split; [now rewrite <- !app_assoc|]. split; [rewrite app_length; cbn [List.length]; fold n; lia|].
      split; [rewrite <- app_assoc; rewrite app_length; cbn [List.length app]; fold n; lia|].
      split; [apply Forall_app; split; [exact Hds'|constructor; [lia|constructor; [lia|constructor]]]|].
      split; [rewrite pos_app; cbn [positional]; fold n; fold P; rewrite <- EQ'; rewrite DM; ring|].
      intros _. replace (ds' ++ [r; q]) with ((ds' ++ [r]) ++ [q]) by (now rewrite <- app_assoc).
      rewrite last_snoc. lia.
Qed.

Lemma skipn_le (l : list Z) k : limbs l -> val (skipn k l) <= val l.
Proof.
  intros Hl. destruct (Nat.le_gt_cases (length l) k) as [H|H].
  - rewrite skipn_all2 by lia. pose proof (val_bound l Hl). cbn [val]. lia.
  - rewrite <- (firstn_skipn k l) at 2. rewrite val_app.
    pose proof (val_bound (firstn k l) (limbs_firstn _ _ Hl)). pose proof (val_bound (skipn k l) (limbs_skipn _ _ Hl)).
    assert (1 * val (skipn k l) <= Bp (length (firstn k l)) * val (skipn k l)); [|lia].
    apply Z.mul_le_mono_nonneg_r; [lia|]. pose proof (Bp_pos (length (firstn k l))). lia.
Qed.

(** The base conversion, whatever the room. *)
Lemma blocks_loop c bits cap k st : limbs bits -> (k <= length bits)%nat -> blocks (val (skipn k bits)) cap st ->
  (exists st', for_down k (block_step c bits) st = Ret st' /\ blocks (val bits) cap st') \/
  (for_down k (block_step c bits) st = Undef OutOfBounds /\ bp D9 cap <= val bits).
Proof.
  intros Hl. revert st. induction k as [|k IH]; intros st Hk H; [left; exists st; split; [reflexivity|exact H]|].
  cbn [for_down]. destruct (block_step_spec c bits cap k st Hl ltac:(lia) H) as [(st' & -> & H')|(-> & L)].
  - cbn [bind]. apply IH; [lia|exact H'].
  - right. split; [reflexivity|]. pose proof (skipn_le bits k Hl). lia.
Qed.

Lemma to_base_any c bits n cap : limbs bits -> (n <= length bits)%nat ->
  (exists ds rest, to_base1e9_i c bits n cap = Ret (ds ++ rest, length ds) /\ (length ds <= cap)%nat /\
     digits D9 ds /\ positional D9 ds = vl bits n /\ (ds <> [] -> 0 < last ds 0)) \/
  (to_base1e9_i c bits n cap = Undef OutOfBounds /\ bp D9 cap <= vl bits n).
Proof.
  intros Hl Hn.
  assert (to_base1e9_i c bits n cap = for_down n (block_step c (firstn n bits)) (zeros cap, O)) as ->.
  { unfold to_base1e9_i. apply for_down_eq. intros i [R k] Hi. unfold block_step. rewrite rd_firstn by lia. reflexivity. }
  assert (length (firstn n bits) = n) as L by (rewrite firstn_length; lia).
  destruct (blocks_loop c (firstn n bits) cap n (zeros cap, O) (limbs_firstn _ _ Hl) ltac:(lia)) as [(st & -> & B)|(-> & B)].
  - exists [], (zeros cap). rewrite skipn_all2 by lia. cbn [fst snd app List.length positional val].
    rewrite length_zeros. repeat split; auto; [constructor|congruence].
  - left. destruct st as [R m]. destruct B as (ds & rest & ER & En & EL & Hds & HV & Hlast). cbn [fst snd] in *. subst R m.
    exists ds, rest. split; [reflexivity|]. split; [rewrite app_length in EL; lia|]. auto.
  - right. split; [reflexivity|exact B].
Qed.

(** ** The text *)

Lemma write_digits c s ds rest :
  digits D9 ds -> ds <> [] -> 0 < last ds 0 -> Z.of_nat (length ds) <= 238609294 ->
  exists rgch ich cch es,
    region rgch ich es /\ ich + Z.of_nat (length es) = cch /\ ich < 9 /\ cch mod 9 = 0 /\
    digits 10 es /\ es <> [] /\ 0 < last es 0 /\ positional 10 es = positional D9 ds /\
    write_blocks c s (ds ++ rest) (length ds) =
      ('(rgch, ichDst) <-
        (if s <? 0 then
           rgch <- wrz rgch (ich - 1) 45 ;; Ret (rgch, ich - 1)
         else Ret (rgch, ich)) ;;
       s <- slice rgch (Z.to_nat ichDst) (Z.to_nat (cch - ichDst)) ;;
       Ret (string_of_codes s)).
Proof.
  intros Hds Hne Hlast Hlen. unfold write_blocks. cbv zeta.
  destruct (snoc_case ds) as [->|(m & top & ->)]; [congruence|]. rewrite last_snoc in Hlast.
  rewrite app_length in *. cbn [List.length] in *. set (n := length m) in *.
  apply Forall_app in Hds. destruct Hds as [Hm Ht]. inversion Ht as [|? ? Ht1 _]; subst.
  destruct (Z.ltb_spec (INT_MAX / 9) (Z.of_nat (n + 1))) as [H|_]; [change (INT_MAX / 9) with 238609294 in H; lia|].
  destruct (Z.eqb_spec (Z.of_nat (n + 1) * 9) INT_MAX) as [H|_]; [unfold INT_MAX in H; lia|].
  assert (region (zeros (Z.to_nat (Z.of_nat (n + 1) * 9 + 1))) (Z.of_nat (n + 1) * 9) []) as R0.
  { exists (zeros (Z.to_nat (Z.of_nat (n + 1) * 9))), 0. rewrite length_zeros. cbn [rev map app].
    split; [|lia]. unfold zeros. change [0] with (repeat 0 1). rewrite <- repeat_app. f_equal. lia. }
  replace (n + 1 - 1)%nat with n by lia.
  match goal with |- context [for_up n 0 ?body ?s0] =>
    assert (wp (for_up n 0 body s0) (fun st => exists e, region (fst st) 9 e /\ snd st = 9 /\
      length e = (9 * n)%nat /\ digits 10 e /\ positional 10 e = positional D9 m)) as W
  end.
  { apply wp_for_up with (I := fun j st => exists e, region (fst st) (Z.of_nat (n + 1) * 9 - 9 * Z.of_nat j) e /\
      snd st = Z.of_nat (n + 1) * 9 - 9 * Z.of_nat j /\
      length e = (9 * j)%nat /\ digits 10 e /\ positional 10 e = positional D9 (firstn j m)).
    - exists []. cbn [fst snd firstn positional]. change (9 * Z.of_nat 0) with 0. rewrite Z.sub_0_r.
      split; [exact R0|]. split; [reflexivity|]. split; [reflexivity|]. split; [constructor|reflexivity].
    - intros j [r i] Hj (e & HR & Ei & Le & He & EQ). cbn [fst snd] in *. subst i.
      wstep. apply wp_rd; [rewrite !app_length; fold n; lia|].
      assert (nth j ((m ++ [top]) ++ rest) 0 = nth j m 0) as -> by (rewrite <- app_assoc, app_nth1; [reflexivity|fold n; lia]).
      assert (0 <= nth j m 0 < D9) as Hx by (apply (proj1 (Forall_forall _ _) Hm), nth_In; fold n; lia).
      wstep. apply wp_massert; [apply Z.ltb_lt; exact (proj2 Hx)|].
      wstep. eapply wp_mono; [apply (nine_spec r _ e _ HR); [lia|exact Hx]|].
      intros [[r' i'] u'] (e' & HR' & Ei' & Le' & He' & EQ'). cbn [fst snd] in *. subst i'. wstep. cbn [fst snd].
      exists (e ++ e'). replace (Z.of_nat (n + 1) * 9 - 9 * Z.of_nat (S j)) with (Z.of_nat (n + 1) * 9 - 9 * Z.of_nat j - 9) by lia.
      split; [exact HR'|]. split; [reflexivity|]. split; [rewrite app_length; lia|].
      split; [apply Forall_app; auto|]. rewrite pos_app, EQ, EQ', Le.
      rewrite (firstn_S_nth m j) by (fold n; lia). rewrite pos_app. cbn [positional]. rewrite firstn_length.
      replace (Nat.min j (length m)) with j by (fold n; lia). unfold bp.
      change D9 with (10 ^ 9). rewrite <- Z.pow_mul_r by lia. rewrite Nat2Z.inj_mul. change (Z.of_nat 9) with 9. ring.
    - intros [r i] (e & HR & Ei & Le & He & EQ). cbn [fst snd Nat.add] in *. exists e.
      replace (Z.of_nat (n + 1) * 9 - 9 * Z.of_nat n) with 9 in * by lia. unfold n in EQ at 1. rewrite firstn_all in EQ. auto. }
  apply wp_inv in W. destruct W as ([r i] & -> & e & HR & Ei & Le & He & EQ). cbn [fst snd] in *. subst i. cbn [bind].
  assert (rdz ((m ++ [top]) ++ rest) (Z.of_nat (n + 1) - 1) = Ret top) as ->.
  { unfold rdz. destruct (Z.ltb_spec (Z.of_nat (n + 1) - 1) 0); [lia|].
    replace (Z.to_nat (Z.of_nat (n + 1) - 1)) with n by lia. rewrite <- app_assoc. unfold rd.
    rewrite nth_error_app2 by (fold n; lia). fold n. rewrite Nat.sub_diag. reflexivity. }
  cbn [bind].
  pose proof (last_digits_spec dec_fuel top r 9 e HR ltac:(lia) ltac:(change (10 ^ Z.of_nat dec_fuel) with 100000000000000000000; lia)
    ltac:(change (10 ^ 9) with D9; lia) ltac:(lia)) as W.
  apply wp_inv in W. destruct W as ([r' i'] & -> & e' & HR' & Ei' & He' & EQ' & Hl'). cbn [fst snd] in *. cbn [bind].
  assert (e' <> []) as Hne' by (intros ->; cbn [positional] in EQ'; lia).
  assert (length e' <> O) as Le' by (destruct e'; [congruence|discriminate]).
  exists r', i', (Z.of_nat (n + 1) * 9), (e ++ e').
  split; [exact HR'|]. split; [rewrite app_length; lia|]. split; [lia|]. split; [apply Z.mod_mul; lia|].
  split; [apply Forall_app; auto|]. split; [destruct e, e'; congruence || discriminate|].
  destruct (snoc_case e') as [->|(e1 & d & ->)]; [congruence|].
  split; [rewrite app_assoc, last_snoc; specialize (Hl' Hne'); now rewrite last_snoc in Hl'|].
  split; [|reflexivity].
  rewrite pos_app, EQ', EQ, Le. rewrite pos_app. cbn [positional]. unfold bp. fold n.
  change D9 with (10 ^ 9). rewrite <- Z.pow_mul_r by lia. rewrite Nat2Z.inj_mul. change (Z.of_nat 9) with 9. ring.
Qed.

Lemma blocks_printed c s ds rest : digits D9 ds -> (ds <> [] -> 0 < last ds 0) -> Z.of_nat (length ds) <= 238609294 ->
  s = 1 \/ s = -1 -> printed (s <? 0) (positional D9 ds) (write_blocks c s (ds ++ rest) (length ds)).
Proof.
  intros Hds Hlast Hlen Hs. destruct ds as [|d0 ds0] eqn:E.
  { cbn [positional]. split; [reflexivity|]. congruence. }
  rewrite <- E in *. assert (ds <> []) as Hne by (rewrite E; discriminate). clear E. specialize (Hlast Hne).
  destruct (write_digits c s ds rest Hds Hne Hlast Hlen)
    as (rgch & ich & cch & es & HR & E1 & Hi & Hc & Hd & Hdn & Hdl & Hdv & ->).
  assert (0 < positional D9 ds) as Pos.
  { destruct (snoc_case ds) as [->|(m & top & ->)]; [congruence|]. rewrite last_snoc in Hlast.
    apply Forall_app in Hds. destruct Hds as [Hm _]. pose proof (pos_top D9 m top ltac:(lia) Hm Hlast) as PT.
    pose proof (Z.pow_pos_nonneg D9 (Z.of_nat (length m)) ltac:(lia) ltac:(lia)). lia. }
  set (m := positional D9 ds) in *. clearbody m.
  assert (0 <= ich) as Hi0 by (destruct HR as (pre & z0 & _ & L); lia).
  pose proof (digits_width es m Hd Hdn Hdl ltac:(lia)) as DW. pose proof (Z.div_mod cch 9 ltac:(lia)) as DM.
  assert (positional 10 es = Z.abs (signed (s <? 0) m)) as Eabs by (unfold signed; destruct (s <? 0); lia).
  assert ((signed (s <? 0) m <? 0) = (s <? 0)) as Esg.
  { unfold signed. destruct (s <? 0); [apply Z.ltb_lt|apply Z.ltb_ge]; lia. }
  pose proof (codes_numeral es (signed (s <? 0) m) Hd Hdn Hdl Eabs) as CN. rewrite Esg in CN.
  split.
  - intros [H|(Hneg & k & Hk)]; [lia|]. rewrite Hneg. pose proof (decimal_width_unique _ _ _ Hk DW) as EK.
    assert (ich = 0) as -> by lia. reflexivity.
  - intros _ Hbad. destruct (s <? 0) eqn:Es.
    + assert (0 < ich) as Hi1.
      { destruct (Z.eq_dec ich 0) as [->|]; [|lia]. exfalso. apply Hbad. split; [reflexivity|]. exists (cch / 9).
        replace (9 * (cch / 9)) with (Z.of_nat (length es)) by lia. exact DW. }
      destruct (region_sign _ _ _ HR Hi1) as (r & -> & S0). cbn [bind].
      replace (Z.to_nat (cch - (ich - 1))) with (S (length es)) by lia. rewrite S0. cbn [bind].
      eexists. split; [reflexivity|]. exact CN.
    + cbn [bind]. replace (Z.to_nat (cch - ich)) with (length es) by lia.
      rewrite (region_slice _ _ _ HR). cbn [bind]. eexists. split; [reflexivity|]. exact CN.
Qed.

Lemma short_cap ds V r : digits D9 ds -> (ds <> [] -> 0 < last ds 0) -> positional D9 ds = V -> 0 <= r <= 214748364 ->
  V < 2 ^ (32 * r) -> Z.of_nat (length ds) <= 238609294.
Proof.
  intros Hds Hlast HV Hr Hb. destruct (snoc_case ds) as [->|(m & top & ->)]; [cbn [List.length]; lia|].
  rewrite last_snoc in Hlast. assert (m ++ [top] <> []) as Hne by (destruct m; discriminate).
  apply Forall_app in Hds. destruct Hds as [Hm Ht]. pose proof (pos_top D9 m top ltac:(lia) Hm (Hlast Hne)) as PT. rewrite HV in PT.
  pose proof (cap_bound (length m) (Z.to_nat r) V PT) as CB. rewrite Bp_pow2, Z2Nat.id in CB by lia. specialize (CB Hb).
  rewrite app_length. cbn [List.length]. lia.
Qed.

Theorem to_string_i_spec c a x : represents a x -> 2 ^ 31 <= Z.abs x -> text_any c x (bi_to_string_i c a).
Proof.
  change (2 ^ 31) with 2147483648. intros Ha Hx.
  destruct (long_parts a x Ha Hx) as (s & l & -> & Hs & Hne & Hl & Ht & Hv & Es & L).
  unfold bi_to_string_i, text_any. cbn [bits_of sign_of]. rewrite is_nil_ne by exact Hne. cbv zeta.
  rewrite (int_length x l L). set (r := s32 (Z.of_nat (length l))) in *.
  pose proof (s32_range (Z.of_nat (length l))) as RG. fold r in RG. unfold INT_MIN, INT_MAX in RG.
  change (INT_MAX / 10) with 214748364. destruct (Z.ltb_spec 214748364 r) as [H1|H1]; [reflexivity|].
  change (- 2 ^ 31) with (-2147483648). change (2 ^ 31) with 2147483648.
  assert ((s <? 0) = (x <? 0)) as Esx.
  { subst s. destruct (Z.ltb_spec x 0); [rewrite Z.sgn_neg by lia; reflexivity|rewrite Z.sgn_pos by lia; reflexivity]. }
  assert (chk32 c (r * 10) = if strict c && (r <? -214748364) then Undef SignedOverflow else Ret (int_of (10 * r))) as ->.
  { rewrite int_of_s32, (Z.mul_comm 10 r). destruct (Z.ltb_spec r (-214748364)) as [H2|H2].
    - rewrite chk32_wrap by (unfold INT_MIN; lia). now destruct (strict c).
    - rewrite chk32_ok by (unfold INT_MIN, INT_MAX; lia). rewrite s32_small by (unfold INT_MIN, INT_MAX; lia).
      now rewrite Bool.andb_false_r. }
  destruct (strict c && (r <? -214748364)) eqn:S1; [reflexivity|].
  set (cuMax := Z.quot (int_of (10 * r)) 9 + 2).
  destruct (Z.ltb_spec cuMax 0) as [H3|H3]; [reflexivity|].
  eexists. split; [reflexivity|].
  set (k := if r =? -2147483648 then 2147483648 else r).
  assert (r <= Z.of_nat (length l) /\ k <= Z.of_nat (length l)) as (RL & KL).
  { destruct (s32_mod (Z.of_nat (length l))) as (q & M). fold r in M. unfold W32 in M. unfold k.
    destruct (Z.eqb_spec r (-2147483648)); lia. }
  assert (exists i, chk32 c (r - 1) = Ret i /\ Z.to_nat (i + 1) = Z.to_nat k) as (i & -> & Ei).
  { unfold k. destruct (Z.eqb_spec r (-2147483648)) as [E|N].
    - rewrite E in *. destruct (strict c) eqn:S2; [discriminate|]. exists 2147483647. split; [|reflexivity].
      rewrite chk32_wrap, S2 by (unfold INT_MIN; lia). reflexivity.
    - exists (r - 1). split; [apply chk32_ok; unfold INT_MIN, INT_MAX; lia|]. f_equal. lia. }
  cbn [bind]. rewrite Ei. rewrite (low_vl_all x l k Hl Hv KL).
  assert (Z.of_nat (Z.to_nat k) <= Z.of_nat (length l)) as KN by lia.
  destruct (to_base_any c l (Z.to_nat k) (Z.to_nat cuMax) Hl ltac:(lia)) as [(ds & rest & -> & CL & Hds & HV & Hlast)|(-> & B)].
  - cbn [bind]. pose proof (pos_bound D9 ltac:(lia) ds Hds) as PB. unfold bp in PB.
    assert (D9 ^ Z.of_nat (length ds) <= 10 ^ (9 * cuMax)) as PP.
    { rewrite Z.pow_mul_r by lia. change (10 ^ 9) with D9. apply Z.pow_le_mono_r; lia. }
    rewrite HV in PB. split; [lia|]. intros _. rewrite <- Esx, <- HV. apply blocks_printed; auto.
    unfold k in *. destruct (Z.eqb_spec r (-2147483648)) as [E|N].
    + assert (cuMax = 2) as C2 by (unfold cuMax; rewrite E; reflexivity). lia.
    + destruct (Z.le_gt_cases r 0) as [R0|R0].
      * replace (Z.to_nat r) with O in HV by lia. rewrite vl_0 in HV. apply (short_cap ds 0 0); auto; lia.
      * apply (short_cap ds (vl l (Z.to_nat r)) r); auto; [lia|].
        pose proof (vl_bound l (Z.to_nat r) Hl) as VB. rewrite Bp_pow2, Z2Nat.id in VB by lia. lia.
  - cbn [bind]. split; [reflexivity|]. intros H. exfalso. unfold bp in B. rewrite Z2Nat.id in B by lia.
    rewrite Z.pow_mul_r in H by lia. change (10 ^ 9) with D9 in H. lia.
Qed.
