(** Proofs about the NAL unit checksum. *)
From Coq Require Import NArith ZArith List Bool Lia ZifyBool ZifyNat ZifyN Permutation.
From Verif Require Import SpecBits Base BitBuffer SpecReader BitsLemmas BitBufferProofs
  ReaderProofs Rbsp SpecRbsp RbspProofs.
Import ListNotations.
Open Scope N_scope.
Ltac Zify.zify_post_hook ::= Z.div_mod_to_equations.

Lemma ReadUInt8_spec : forall b, bb_wf b ->
  ReadUInt8 b = if (8 <=? length (bb_rem b))%nat
                then (Ok (bval (firstn 8 (bb_rem b))), bb_adv b 8) else (Null, b).
Proof.
  intros b W. unfold ReadUInt8, sbind. rewrite ReadBits_spec by auto. unfold rd_ok.
  destruct (8 <=? length (bb_rem b))%nat eqn:E.
  - replace (negb _) with true by lia. change (N.to_nat 8) with 8%nat.
    pose proof (bval_bound (firstn 8 (bb_rem b))) as B. rewrite firstn_length_le in B by lia.
    unfold dcheck. replace (_ <=? 255) with true by lia. rewrite andb_false_r.
    unfold u8. rewrite N.mod_small by lia. reflexivity.
  - replace (negb _) with false by lia. reflexivity.
Qed.

Lemma octets_step : forall l, (8 <= length l)%nat ->
  octets l = bval (firstn 8 l) :: octets (skipn 8 l).
Proof. intros l H. do 8 (destruct l; [cbn in H; lia|]). reflexivity. Qed.
Lemma octets_short : forall l, (length l < 8)%nat -> octets l = [].
Proof. intros l H. do 8 (destruct l; [reflexivity|]). cbn in H. lia. Qed.
Lemma octets_length : forall l, length (octets l) = (length l / 8)%nat.
Proof.
  intros l. remember (length l) as n eqn:E. revert l E.
  induction n as [n IH] using lt_wf_ind. intros l E. subst.
  destruct (Nat.ltb_spec (length l) 8) as [H|H].
  - rewrite octets_short, Nat.div_small by auto. reflexivity.
  - rewrite octets_step by auto. cbn [length].
    rewrite (IH (length (skipn 8 l))); rewrite ?skipn_length; auto; lia.
Qed.
Lemma octets_ok : forall l, bytes_ok (octets l).
Proof.
  intros l. remember (length l) as n eqn:E. revert l E.
  induction n as [n IH] using lt_wf_ind. intros l E. subst.
  destruct (Nat.ltb_spec (length l) 8) as [H|H].
  - rewrite octets_short by auto. constructor.
  - rewrite octets_step by auto. constructor.
    + pose proof (bval_bound (firstn 8 l)) as B. rewrite firstn_length_le in B by lia. exact B.
    + apply (IH (length (skipn 8 l))); rewrite ?skipn_length; auto; lia.
Qed.

Lemma be32_bval : forall a b c d : list bool,
  length a = 8%nat -> length b = 8%nat -> length c = 8%nat -> length d = 8%nat ->
  be32 (bval a) (bval b) (bval c) (bval d) = bval (a ++ b ++ c ++ d).
Proof.
  intros a b c d A B C D. rewrite !bval_app, !app_length, B, C, D.
  unfold be32. change (N.of_nat (8 + (8 + 8))) with 24. change (N.of_nat (8 + 8)) with 16.
  change (N.of_nat 8) with 8. lia.
Qed.

Lemma firstn_split : forall (A : Type) n m (l : list A),
  firstn (n + m) l = firstn n l ++ firstn m (skipn n l).
Proof. induction n; intros m [|x l]; cbn; auto; [now rewrite firstn_nil|]. now rewrite IHn. Qed.

Lemma words_step : forall l, (32 <= length l)%nat ->
  words32 (octets l) = bval (firstn 32 l) :: words32 (octets (skipn 32 l)).
Proof.
  intros l H.
  rewrite octets_step, octets_step, octets_step, octets_step by (rewrite ?skipn_length; lia).
  cbn [words32]. rewrite !skipn_skipn'. cbn [Nat.add].
  rewrite be32_bval by (rewrite firstn_length_le; rewrite ?skipn_length; lia).
  assert (F : firstn 32 l = firstn 8 l ++ firstn 8 (skipn 8 l) ++ firstn 8 (skipn 16 l) ++
    firstn 8 (skipn 24 l)).
  { etransitivity; [exact (firstn_split _ 8 24 l)|]. f_equal.
    etransitivity; [exact (firstn_split _ 8 16 (skipn 8 l))|]. f_equal. rewrite skipn_skipn'.
    etransitivity; [exact (firstn_split _ 8 8 (skipn 16 l))|]. f_equal. now rewrite skipn_skipn'. }
  rewrite F. reflexivity.
Qed.

Lemma words32_ok : forall l, bytes_ok l -> Forall (fun v => v < 2 ^ 32) (words32 l).
Proof.
  intros l. remember (length l) as n eqn:E. revert l E.
  induction n as [n IH] using lt_wf_ind. intros l E H. subst. unfold bytes_ok in *.
  destruct l as [|a [|b [|c [|d t]]]]; cbn [words32]; repeat constructor;
    repeat match goal with H : Forall _ (_ :: _) |- _ => inversion H; subst; clear H end;
    try (unfold be32; lia).
  apply (IH (length t)); auto. cbn. lia.
Qed.
Lemma words32_length : forall l, (length (words32 l) <= (length l + 3) / 4)%nat.
Proof.
  intros l. remember (length l) as n eqn:E. revert l E.
  induction n as [n IH] using lt_wf_ind. intros l E. subst.
  destruct l as [|a [|b [|c [|d t]]]]; cbn [words32 length]; try lia.
  pose proof (IH (length t) ltac:(cbn; lia) t eq_refl). lia.
Qed.
Lemma nsum_bound : forall l, Forall (fun v => v < 2 ^ 32) l ->
  nsum l <= N.of_nat (length l) * (2 ^ 32 - 1).
Proof.
  induction l as [|v l IH]; intros F; cbn [nsum fold_right length]; [lia|].
  inversion F; subst. unfold nsum in *. specialize (IH H2). lia.
Qed.

Lemma sum32_loop_spec : forall fuel sum b, bb_wf b ->
  (length (bb_rem b) < 32 * (fuel + 1))%nat ->
  sum < 2 ^ 64 ->
  exists s b', sum32_loop fuel sum b = (Ok s, b') /\ kept b b' /\
    (length (bb_rem b') < 32)%nat /\ s < 2 ^ 64 /\
    (s + nsum (words32 (octets (bb_rem b')))) mod 2 ^ 64 =
    (sum + nsum (words32 (octets (bb_rem b)))) mod 2 ^ 64.
Proof.
  induction fuel as [|f IH]; intros sum b W F S; cbn [sum32_loop]; unfold ReadUInt32;
    rewrite ReadBits_spec by auto; unfold rd_ok.
  - replace (negb _) with false by lia. exists sum, b. repeat split; auto using kept_refl; try lia; apply W.
  - destruct (Nat.ltb_spec (length (bb_rem b)) 32) as [L|L].
    + replace (negb _) with false by lia. exists sum, b.
      split; [auto|split; [auto using kept_refl|split; auto]].
    + replace (negb _) with true by lia. change (N.to_nat 32) with 32%nat.
      assert (R : bb_rem (bb_adv b 32) = skipn 32 (bb_rem b)) by (apply bb_adv_rem; auto).
      rewrite (words_step (bb_rem b)) by auto. cbn [nsum fold_right].
      fold (nsum (words32 (octets (skipn 32 (bb_rem b))))) in *.
      destruct (IH (u64 (sum + bval (firstn 32 (bb_rem b)))) (bb_adv b 32))
        as (s & b' & E & K & L' & B & V).
      * apply bb_adv_wf; auto.
      * rewrite R, skipn_length. lia.
      * unfold u64. apply N.mod_lt. lia.
      * exists s, b'. rewrite E. split; [auto|]. split.
        { apply kept_trans with (bb_adv b 32); auto. apply kept_adv; auto. }
        split; auto. split; auto. rewrite V, R. unfold u64. rewrite N.add_mod_idemp_l by lia.
        f_equal. lia.
Qed.

Fixpoint padv (i : N) (os : list N) : N :=
  match os with [] => 0 | o :: t => N.shiftl o (8 * (3 - i)) + padv (i + 1) t end.

Lemma tail8_loop_spec : forall fuel i a b, bb_wf b ->
  (length (octets (bb_rem b)) <= fuel)%nat ->
  i + N.of_nat (length (octets (bb_rem b))) <= 3 ->
  exists b', tail8_loop fuel i (N.shiftl a (8 * (4 - i))) b =
    (Ok (i + N.of_nat (length (octets (bb_rem b))),
         N.shiftl a (8 * (4 - i)) + padv i (octets (bb_rem b))), b') /\ kept b b'.
Proof.
  induction fuel as [|f IH]; intros i a b W F I; cbn [tail8_loop]; rewrite RemainingBitCount_spec by auto.
  - rewrite octets_length in F.
    replace (_ && _) with false by lia. rewrite octets_short by lia. cbn [length padv].
    rewrite !N.add_0_r. exists b. auto using kept_refl.
  - destruct (Nat.ltb_spec (length (bb_rem b)) 8) as [L|L].
    + replace (_ && _) with false by lia. rewrite octets_short by lia. cbn [length padv].
      rewrite !N.add_0_r. exists b. auto using kept_refl.
    + rewrite (octets_step (bb_rem b)) in * by auto. cbn [length padv] in *.
      replace (_ && _) with true by lia.
      rewrite ReadUInt8_spec by auto. replace (8 <=? _)%nat with true by lia.
      assert (R : bb_rem (bb_adv b 8) = skipn 8 (bb_rem b)) by (apply bb_adv_rem; auto).
      rewrite <- R in *.
      set (o := bval (firstn 8 (bb_rem b))) in *.
      assert (O : o < 2 ^ 8).
      { pose proof (bval_bound (firstn 8 (bb_rem b))) as B. rewrite firstn_length_le in B by lia. exact B. }
      assert (SO : N.shiftl o (8 * (3 - i)) < 2 ^ (8 * (4 - i))).
      { rewrite N.shiftl_mul_pow2. replace (8 * (4 - i)) with (8 + 8 * (3 - i)) by lia.
        rewrite N.pow_add_r. apply N.mul_lt_mono_pos_r; auto. apply N.neq_0_lt_0, N.pow_nonzero. lia. }
      assert (P32 : 2 ^ (8 * (4 - i)) <= 2 ^ 32) by (apply N.pow_le_mono_r; lia).
      unfold u32. rewrite (N.mod_small (N.shiftl o _)) by lia.
      rewrite lor_shiftl_add by auto.
      assert (E : a * 2 ^ (8 * (4 - i)) + N.shiftl o (8 * (3 - i)) =
                  N.shiftl (2 ^ 8 * a + o) (8 * (4 - (i + 1)))).
      { rewrite !N.shiftl_mul_pow2. replace (8 * (4 - i)) with (8 + 8 * (3 - i)) by lia.
        replace (4 - (i + 1)) with (3 - i) by lia. rewrite N.pow_add_r. ring. }
      rewrite E.
      destruct (IH (i + 1) (2 ^ 8 * a + o) (bb_adv b 8)) as (b' & EQ & K).
      * apply bb_adv_wf; auto.
      * lia.
      * lia.
      * exists b'. rewrite EQ. split.
        { do 3 f_equal; [lia|]. rewrite <- E. rewrite (N.shiftl_mul_pow2 a). lia. }
        apply kept_trans with (bb_adv b 8); auto. apply kept_adv; auto.
Qed.

Lemma padv_words : forall os, (length os <= 3)%nat -> padv 0 os = nsum (words32 os).
Proof.
  intros [|a [|b [|c [|d t]]]] H; cbn [padv words32 nsum fold_right]; unfold be32;
    rewrite ?N.shiftl_mul_pow2; try (cbn [length] in H; lia).
  - change (8 * (3 - 0)) with 24. lia.
  - change (8 * (3 - 0)) with 24. change (8 * (3 - (0 + 1))) with 16. lia.
  - change (8 * (3 - 0)) with 24. change (8 * (3 - (0 + 1))) with 16.
    change (8 * (3 - (0 + 1 + 1))) with 8. lia.
Qed.

Lemma bytes4_spec : forall v, v < 2 ^ 32 ->
  [N.shiftr v 24; u8 (N.shiftr v 16); u8 (N.shiftr v 8); u8 v] = bytes_of_u32 v.
Proof. intros v H. unfold bytes_of_u32, u8. rewrite !N.shiftr_div_pow2. reflexivity. Qed.

Lemma oc_of_bound : forall s, oc_of s < 2 ^ 32.
Proof. intros s. unfold oc_of. destruct (s =? 0); [lia|].
  pose proof (N.mod_lt (s - 1) (2 ^ 32 - 1) ltac:(lia)). lia. Qed.

(** For any size; the 64-bit accumulator wraps. *)
Lemma GetNaluChecksum_gen : forall b, bb_wf b ->
  GetNaluChecksum b =
  (Ok (bytes_of_u32 (2 ^ 32 - 1 - oc_of (nsum (words32 (octets (bb_rem b))) mod 2 ^ 64))), b).
Proof.
  intros b W. unfold GetNaluChecksum, sbind.
  destruct (sum32_loop_spec (S (length (bb_bytes b))) 0 b W) as (s & b1 & E1 & K1 & L1 & B1 & V1).
  { pose proof (bb_rem_le_bytes b). lia. }
  { lia. }
  rewrite E1. pose proof (proj1 K1) as W1.
  assert (O1 : (length (octets (bb_rem b1)) <= 3)%nat) by (rewrite octets_length; lia).
  destruct (tail8_loop_spec 5 0 0 b1 W1) as (b2 & E2 & K2); [lia|lia|].
  change (N.shiftl 0 (8 * (4 - 0))) with 0 in E2. rewrite !N.add_0_l in E2. rewrite E2.
  rewrite seek_back by eauto using kept_trans. cbn [snd]. f_equal. f_equal.
  rewrite padv_words by auto.
  set (n := N.of_nat (length (octets (bb_rem b1)))).
  rewrite N.add_0_l in V1.
  set (t := nsum (words32 (octets (bb_rem b))) mod 2 ^ 64) in *.
  assert (T : t < 2 ^ 64) by (apply N.mod_lt; lia).
  replace (if 0 <? n then u64 (s + nsum (words32 (octets (bb_rem b1)))) else s) with t.
  - pose proof (fold_spec t T) as FS. cbv zeta in FS. rewrite FS.
    rewrite bytes4_spec by lia. reflexivity.
  - destruct (0 <? n) eqn:N0.
    + unfold u64. auto.
    + assert (E0 : octets (bb_rem b1) = []).
      { destruct (octets (bb_rem b1)); auto. unfold n in N0. cbn in N0. lia. }
      rewrite E0 in V1. cbn [words32 nsum fold_right] in V1. rewrite N.add_0_r in V1.
      rewrite <- V1. apply N.mod_small. auto.
Qed.

Lemma GetNaluChecksum_spec : forall b, bb_wf b ->
  nsum (words32 (octets (bb_rem b))) < 2 ^ 64 ->
  GetNaluChecksum b = (Ok (bytes_of_u32 (2 ^ 32 - 1 - oc_sum (words32 (octets (bb_rem b))))), b).
Proof.
  intros b W H. rewrite GetNaluChecksum_gen by auto. rewrite N.mod_small by auto.
  rewrite oc_sum_spec by (apply words32_ok, octets_ok). reflexivity.
Qed.

Lemma checksum_sum_small : forall b, bb_wf b -> N.of_nat (length (bb_bytes b)) <= 2 ^ 34 ->
  nsum (words32 (octets (bb_rem b))) < 2 ^ 64.
Proof.
  intros b W H. pose proof (nsum_bound _ (words32_ok _ (octets_ok (bb_rem b)))) as B.
  pose proof (words32_length (octets (bb_rem b))) as L. rewrite octets_length in L.
  pose proof (bb_rem_le_bytes b) as R. lia.
Qed.

Lemma nsum_zero : forall l, Forall (eq 0) l <-> nsum l = 0.
Proof.
  induction l as [|v l IH]; cbn [nsum fold_right].
  - split; auto.
  - unfold nsum in *. split.
    + intros F. inversion F; subst. apply IH in H2. lia.
    + intros E. constructor; [lia|]. apply IH. lia.
Qed.

(** A buffer with the same bytes and a valid position can be reached by a Seek. *)
Lemma reachable_kept : forall b b', reachable b -> kept b b' -> reachable b'.
Proof.
  intros b b' R (W' & EB & EA). pose proof (reachable_wf b R) as W.
  destruct W' as (H1 & H2 & H3 & H4).
  eapply reach_op with (b := b) (o := OSeek (bb_byte b') (bb_bit b')); eauto.
  - cbn. lia.
  - cbn [run_op]. rewrite Seek_spec by auto. unfold bb_count in *. rewrite <- EB.
    replace (_ && _) with true by lia. cbn. destruct b'; cbn in *. subst. reflexivity.
Qed.
