(** WriteBits and the code writers. *)
From Coq Require Import NArith ZArith List Bool Lia ZifyBool ZifyNat ZifyN.
From Verif Require Import SpecBits Base BitBuffer SpecReader BitsLemmas BitBufferProofs
  ReaderProofs Writer SpecWriter WriterProofs.
Import ListNotations.
Open Scope N_scope.
Ltac Zify.zify_post_hook ::= Z.div_mod_to_equations.

(** The value register of WriteBits while the bits [l] are still to be written. *)
Definition W (l : list bool) : N := bval l * 2 ^ (64 - N.of_nat (length l)).

Lemma pow2_pos : forall k, 0 < 2 ^ k.
Proof. intros. apply N.neq_0_lt_0, N.pow_nonzero. lia. Qed.

Lemma W_bound : forall l, (length l <= 64)%nat -> W l < 2 ^ 64.
Proof.
  intros l H. unfold W. pose proof (bval_bound l) as B.
  replace (2 ^ 64) with (2 ^ N.of_nat (length l) * 2 ^ (64 - N.of_nat (length l))).
  - apply N.mul_lt_mono_pos_r; auto using pow2_pos.
  - rewrite <- N.pow_add_r. f_equal. lia.
Qed.

Lemma firstn_repeat_le : forall A (x : A) k m, (k <= m)%nat -> firstn k (repeat x m) = repeat x k.
Proof.
  intros A x. induction k as [|k IH]; intros [|m] H; cbn; try lia; auto.
  f_equal. apply IH. lia.
Qed.

Lemma W_top : forall l, (length l <= 64)%nat ->
  HighestByte (W l) = bval (firstn 8 (l ++ repeat false 8)).
Proof.
  intros l H. unfold HighestByte. rewrite N.shiftr_div_pow2.
  pose proof (W_bound l H) as WB.
  rewrite u8_small by (apply N.div_lt_upper_bound; [lia|]; change (2 ^ 56 * 2 ^ 8) with (2 ^ 64); auto).
  unfold W. set (n := length l) in *.
  destruct (Nat.leb_spec 8 n) as [L|L].
  - rewrite firstn_app. replace (8 - length l)%nat with 0%nat by lia.
    rewrite firstn_O, app_nil_r, bval_firstn by auto. fold n.
    replace (2 ^ 56) with (2 ^ N.of_nat (n - 8) * 2 ^ (64 - N.of_nat n))
      by (rewrite <- N.pow_add_r; f_equal; lia).
    rewrite N.div_mul_cancel_r; auto.
    + apply N.pow_nonzero; lia.
    + apply N.pow_nonzero; lia.
  - rewrite firstn_app. rewrite firstn_all2 by lia. fold n.
    rewrite firstn_repeat_le by lia.
    rewrite bval_app, bval_repeat_false, repeat_length, N.add_0_r.
    replace (64 - N.of_nat n) with (N.of_nat (8 - n) + 56) by lia.
    rewrite N.pow_add_r, N.mul_assoc, N.div_mul; auto. apply N.pow_nonzero; lia.
Qed.

Lemma W_shift : forall l k, (length l <= 64)%nat -> (k <= length l)%nat ->
  u64 (N.shiftl (W l) (N.of_nat k)) = W (skipn k l).
Proof.
  intros l k H K. unfold u64. rewrite N.shiftl_mul_pow2. unfold W at 1.
  rewrite (bval_firstn_skipn l k K).
  set (a := bval (firstn k l)). set (b := bval (skipn k l)). set (n := length l) in *.
  replace ((a * 2 ^ N.of_nat (n - k) + b) * 2 ^ (64 - N.of_nat n) * 2 ^ N.of_nat k)
    with (W (skipn k l) + a * 2 ^ 64).
  - rewrite N.mod_add by (apply N.pow_nonzero; lia). apply N.mod_small.
    apply W_bound. rewrite skipn_length. lia.
  - unfold W. rewrite skipn_length. fold b n.
    replace (2 ^ 64) with (2 ^ N.of_nat (n - k) * (2 ^ (64 - N.of_nat n) * 2 ^ N.of_nat k))
      by (rewrite <- !N.pow_add_r; f_equal; lia).
    replace (2 ^ (64 - N.of_nat (n - k))) with (2 ^ (64 - N.of_nat n) * 2 ^ N.of_nat k)
      by (rewrite <- N.pow_add_r; f_equal; lia).
    lia.
Qed.

Lemma src_bits : forall l, byte_bits (bval (firstn 8 (l ++ repeat false 8))) =
  firstn 8 (l ++ repeat false 8).
Proof.
  intros l. rewrite byte_bits_nbits.
  rewrite <- (nbits_bval (firstn 8 (l ++ repeat false 8))) at 2.
  rewrite firstn_length_le'; auto. rewrite app_length, repeat_length. lia.
Qed.

Lemma fetch_nth : forall B i v, nth_error B (N.to_nat i) = Some v -> fetch B i = Ok v.
Proof. intros B i v H. unfold fetch. now rewrite H. Qed.

Lemma nth_error_ok : forall B i, bytes_ok B -> (i < length B)%nat ->
  exists t, nth_error B i = Some t /\ t < 256.
Proof.
  intros B i O H. destruct (nth_error B i) as [t|] eqn:E.
  - exists t. split; auto. unfold bytes_ok in O. rewrite Forall_forall in O.
    apply O. eapply nth_error_In; eauto.
  - apply nth_error_None in E. lia.
Qed.

Lemma Write_loop_spec : forall fuel a B idx l,
  bytes_ok B -> 8 * idx + N.of_nat (length l) <= 8 * N.of_nat (length B) ->
  (length l < 8 * fuel + 8)%nat -> (length l <= 64)%nat ->
  exists B', Write_loop fuel a B idx (W l) (N.of_nat (length l)) = Ok B' /\
    bytes_ok B' /\ length B' = length B /\
    bits_of B' = patch (8 * N.to_nat idx) l (bits_of B).
Proof.
  induction fuel as [|f IH]; intros a B idx l O H F L; cbn [Write_loop].
  - replace (8 <=? N.of_nat (length l)) with false by lia.
    destruct (0 <? N.of_nat (length l)) eqn:E.
    + destruct (nth_error_ok B (N.to_nat idx) O) as (t & Ht & Bt); [lia|].
      rewrite (fetch_nth _ _ _ Ht). cbn [rbind].
      rewrite W_top by auto.
      set (src := bval (firstn 8 (l ++ repeat false 8))).
      destruct (WritePartialByte_spec a src (N.of_nat (length l)) t 0) as (v & Ev & Bv & Pv);
        try lia.
      * pose proof (bval_bound (firstn 8 (l ++ repeat false 8))) as BB.
        rewrite firstn_length_le' in BB by (rewrite app_length, repeat_length; lia). exact BB.
      * right. unfold src. rewrite firstn_app, firstn_all2 by lia.
        rewrite firstn_repeat_le by lia.
        rewrite bval_app, bval_repeat_false, repeat_length, N.add_0_r.
        replace (8 - N.of_nat (length l)) with (N.of_nat (8 - length l)) by lia.
        apply N.mod_mul. apply N.pow_nonzero; lia.
      * rewrite Ev. cbn [rbind]. unfold store.
        replace (idx <? N.of_nat (length B)) with true by lia.
        eexists. split; [reflexivity|]. split; [now apply update_ok|].
        split; [apply update_length|].
        replace (8 * N.to_nat idx)%nat with (8 * N.to_nat idx + 0)%nat by lia.
        apply update_bits with (t := t); auto; [lia|].
        rewrite Pv. change (N.to_nat 0) with 0%nat. f_equal. rewrite Nat2N.id. unfold src.
        rewrite src_bits, firstn_firstn, Nat.min_l by lia. apply firstn_app_exact.
    + assert (l = []) by (destruct l; auto; cbn in E; lia). subst.
      exists B. rewrite patch_nil. auto.
  - destruct (8 <=? N.of_nat (length l)) eqn:E8.
    + unfold store. replace (idx <? N.of_nat (length B)) with true by lia. cbn [rbind].
      rewrite W_top by auto.
      destruct (nth_error_ok B (N.to_nat idx) O) as (t & Ht & Bt); [lia|].
      set (v := bval (firstn 8 (l ++ repeat false 8))).
      assert (FE : firstn 8 (l ++ repeat false 8) = firstn 8 l).
      { rewrite firstn_app. replace (8 - length l)%nat with 0%nat by lia.
        now rewrite firstn_O, app_nil_r. }
      assert (Lf : length (firstn 8 l) = 8%nat) by (apply firstn_length_le'; lia).
      assert (Bv : v < 256).
      { unfold v. rewrite FE. pose proof (bval_bound (firstn 8 l)) as BB. rewrite Lf in BB. exact BB. }
      assert (Vb : byte_bits v = firstn 8 l).
      { unfold v. rewrite FE, byte_bits_nbits. rewrite <- (nbits_bval (firstn 8 l)) at 2.
        now rewrite Lf. }
      replace (u64 (N.shiftl (W l) 8)) with (W (skipn 8 l))
        by (symmetry; apply (W_shift l 8); lia).
      replace (N.of_nat (length l) - 8) with (N.of_nat (length (skipn 8 l)))
        by (rewrite skipn_length; lia).
      destruct (IH a (update B (N.to_nat idx) v) (idx + 1) (skipn 8 l)) as (B' & E' & O' & L' & P').
      * now apply update_ok.
      * rewrite update_length, skipn_length. lia.
      * rewrite skipn_length. lia.
      * rewrite skipn_length. lia.
      * exists B'. split; [exact E'|]. split; auto. split; [now rewrite L', update_length|].
        rewrite P'.
        rewrite (update_bits B (N.to_nat idx) 0 (firstn 8 l) v t); auto; [|lia|].
        2:{ rewrite Vb. unfold patch. rewrite firstn_O, app_nil_l, Lf.
            rewrite skipn_all2 by (rewrite byte_bits_length; lia). now rewrite app_nil_r. }
        rewrite Nat.add_0_r.
        replace (8 * N.to_nat (idx + 1))%nat with (8 * N.to_nat idx + length (firstn 8 l))%nat by lia.
        rewrite patch_patch.
        -- now rewrite firstn_skipn.
        -- rewrite Lf, skipn_length, bits_of_length. lia.
    + (* same as the base case, one level of fuel left over *)
      specialize (IH a B idx l O H).
      destruct f as [|f'].
      * cbn [Write_loop] in IH. rewrite E8 in IH. apply IH; lia.
      * cbn [Write_loop] in IH. rewrite E8 in IH. apply IH; lia.
Qed.

Lemma nbits_firstn : forall n v k, (k <= n)%nat ->
  firstn k (nbits n v) = nbits k (N.shiftr v (N.of_nat (n - k))).
Proof.
  intros n v k H. apply bval_inj.
  - rewrite firstn_length, !nbits_length. lia.
  - rewrite bval_firstn by (rewrite nbits_length; auto).
    rewrite !bval_nbits, nbits_length, N.shiftr_div_pow2.
    replace (N.of_nat n) with (N.of_nat (n - k) + N.of_nat k) by lia.
    rewrite N.pow_add_r, N.mod_mul_r by (apply N.pow_nonzero; lia).
    rewrite N.add_comm, N.mul_comm, N.div_add_l by (apply N.pow_nonzero; lia).
    rewrite (N.div_small (v mod _)); [lia|]. apply N.mod_lt, N.pow_nonzero. lia.
Qed.

(** The writer's main equation. *)
Lemma WriteBits_spec : forall v n b, bb_wf b -> 1 <= n -> n <= 64 -> v < 2 ^ 64 ->
  n <= N.of_nat (length (bb_rem b)) ->
  exists B', WriteBits v n b = (Ok tt, bb_adv (mkbb B' (bb_byte b) (bb_bit b) (bb_asserts b)) (N.to_nat n)) /\
    bytes_ok B' /\ length B' = length (bb_bytes b) /\
    bits_of B' = patch (bb_pos b) (nbits (N.to_nat n) v) (bits_of (bb_bytes b)).
Proof.
  intros v n b Wf H1 H2 Hv H. pose proof (bb_rem_length b Wf) as RL.
  pose proof Wf as (O & Hbit & Hpos & Hcnt). unfold WriteBits.
  rewrite RemainingBitCount_spec by auto.
  replace (_ <? n) with false by lia.
  rewrite sub64_small by lia. replace (64 <=? 64 - n) with false by lia.
  rewrite sub64_small by lia.
  set (l := nbits (N.to_nat n) v).
  assert (Ll : length l = N.to_nat n) by apply nbits_length.
  assert (EW : u64 (N.shiftl v (64 - n)) = W l).
  { unfold W, u64. rewrite N.shiftl_mul_pow2. unfold l. rewrite bval_nbits, nbits_length, N2Nat.id.
    replace (2 ^ 64) with (2 ^ n * 2 ^ (64 - n)) by (rewrite <- N.pow_add_r; f_equal; lia).
    rewrite N.mul_mod_distr_r; auto; apply N.pow_nonzero; lia. }
  rewrite EW. clear EW.
  destruct (nth_error_ok (bb_bytes b) (N.to_nat (bb_byte b)) O) as (t & Ht & Bt).
  { unfold bb_count in *. lia. }
  rewrite (fetch_nth _ _ _ Ht). cbn [rbind]. rewrite W_top by lia.
  set (k := N.min n (8 - bb_bit b)).
  set (src := bval (firstn 8 (l ++ repeat false 8))).
  assert (LF : length (firstn 8 (l ++ repeat false 8)) = 8%nat)
    by (apply firstn_length_le'; rewrite app_length, repeat_length; lia).
  assert (Bs : src < 256).
  { pose proof (bval_bound (firstn 8 (l ++ repeat false 8))) as BB. rewrite LF in BB. exact BB. }
  assert (Sb : byte_bits src = firstn 8 (l ++ repeat false 8)).
  { unfold src. rewrite byte_bits_nbits. rewrite <- (nbits_bval (firstn 8 (l ++ repeat false 8))) at 2.
    now rewrite LF. }
  assert (Sk : firstn (N.to_nat k) (byte_bits src) = firstn (N.to_nat k) l).
  { rewrite Sb, firstn_firstn, Nat.min_l by lia. rewrite firstn_app.
    replace (N.to_nat k - length l)%nat with 0%nat by lia. now rewrite firstn_O, app_nil_r. }
  destruct (WritePartialByte_spec (bb_asserts b) src k t (bb_bit b)) as (pv & Ev & Bv & Pv); auto; try lia.
  { destruct (N.leb_spec (8 - bb_bit b) n); [left; lia|right].
    assert (k = n) by lia. unfold src.
    rewrite firstn_app, firstn_all2 by lia.
    rewrite firstn_repeat_le by lia.
    rewrite bval_app, bval_repeat_false, repeat_length, N.add_0_r.
    replace (8 - k) with (N.of_nat (8 - length l)) by lia.
    apply N.mod_mul. apply N.pow_nonzero; lia. }
  rewrite Ev. cbn [rbind]. unfold store.
  replace (bb_byte b <? N.of_nat (length (bb_bytes b))) with true by (unfold bb_count in *; lia).
  cbn [rbind]. set (B1 := update (bb_bytes b) (N.to_nat (bb_byte b)) pv).
  assert (O1 : bytes_ok B1) by (apply update_ok; auto).
  assert (L1 : length B1 = length (bb_bytes b)) by apply update_length.
  assert (P1 : bits_of B1 = patch (bb_pos b) (firstn (N.to_nat k) l) (bits_of (bb_bytes b))).
  { unfold B1. rewrite (update_bits _ _ (N.to_nat (bb_bit b)) (firstn (N.to_nat k) l) pv t); auto.
    - f_equal. unfold bb_pos. lia.
    - rewrite firstn_length. lia.
    - now rewrite Pv, Sk. }
  assert (CC : forall B', length B' = length (bb_bytes b) ->  bytes_ok B' ->
    ConsumeBits n (mkbb B' (bb_byte b) (bb_bit b) (bb_asserts b)) =
    (Ok tt, bb_adv (mkbb B' (bb_byte b) (bb_bit b) (bb_asserts b)) (N.to_nat n))).
  { intros B' LB OB.
    assert (WB : bb_wf (mkbb B' (bb_byte b) (bb_bit b) (bb_asserts b))).
    { unfold bb_wf, bb_count in *. cbn [bb_bytes bb_byte bb_bit]. rewrite LB. auto. }
    rewrite ConsumeBits_spec by auto. rewrite bb_rem_length by auto.
    unfold bb_count in *. cbn [bb_bytes bb_byte bb_bit]. rewrite LB.
    replace (_ <? n) with false by lia. reflexivity. }
  destruct (n <=? 8 - bb_bit b) eqn:E.
  - exists B1. split; [now apply CC|]. split; auto. split; auto.
    rewrite P1. rewrite firstn_all2 by lia. reflexivity.
  - assert (K : k = 8 - bb_bit b) by lia.
    assert (KS : u64 (N.shiftl (W l) k) = W (skipn (N.to_nat k) l)).
    { rewrite <- W_shift by lia. now rewrite N2Nat.id. }
    rewrite KS.
    replace (n - k) with (N.of_nat (length (skipn (N.to_nat k) l)))
      by (rewrite skipn_length; lia).
    destruct (Write_loop_spec 8 (bb_asserts b) B1 (bb_byte b + 1) (skipn (N.to_nat k) l))
      as (B' & E' & O' & L' & P'); auto.
    + rewrite skipn_length, L1. unfold bb_count in *. lia.
    + rewrite skipn_length. lia.
    + rewrite skipn_length. lia.
    + rewrite E'. exists B'. split; [apply CC; auto; congruence|]. split; auto.
      split; [congruence|]. rewrite P', P1.
      assert (LK : length (firstn (N.to_nat k) l) = N.to_nat k) by (apply firstn_length_le'; lia).
      replace (8 * N.to_nat (bb_byte b + 1))%nat with (bb_pos b + length (firstn (N.to_nat k) l))%nat
        by (unfold bb_pos; lia).
      rewrite patch_patch.
      * now rewrite firstn_skipn.
      * rewrite LK, skipn_length, bits_of_length. unfold bb_count, bb_pos in *. lia.
Qed.

Lemma WriteBits_full : forall v n b, bb_wf b -> N.of_nat (length (bb_rem b)) < n ->
  WriteBits v n b = (Null, b).
Proof.
  intros v n b Wf H. unfold WriteBits. rewrite RemainingBitCount_spec by auto.
  replace (_ <? n) with true by lia. reflexivity.
Qed.
