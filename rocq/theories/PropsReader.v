(** Properties C01-C07: the bit reader. *)
From Coq Require Import NArith ZArith List Bool Lia ZifyBool ZifyNat ZifyN.
From Verif Require Import SpecBits Base BitBuffer SpecReader BitsLemmas BitBufferProofs
  ReaderProofs.
Import ListNotations.
Open Scope N_scope.
Ltac Zify.zify_post_hook ::= Z.div_mod_to_equations.

(** [b'] is the same buffer [n] bits further on. *)
Definition moved (b : bb) (n : nat) (b' : bb) : Prop :=
  bb_bytes b' = bb_bytes b /\ bb_asserts b' = bb_asserts b /\ bb_bit b' < 8 /\
  bb_pos b' = (bb_pos b + n)%nat.

Lemma moved_adv : forall b n, moved b n (bb_adv b n).
Proof.
  intros. unfold moved. rewrite bb_adv_pos. repeat split; auto.
  unfold bb_adv. cbn [bb_bit]. lia.
Qed.

(** C01: reads return the exact big-endian bits and move by exactly n. *)
Theorem C01_read_bits_exact : forall b n, reachable b ->
  1 <= n <= 32 -> n <= N.of_nat (length (bb_rem b)) ->
  exists b', ReadBits n b = (Ok (bval (firstn (N.to_nat n) (bb_rem b))), b') /\
             moved b (N.to_nat n) b' /\
             bb_rem b' = skipn (N.to_nat n) (bb_rem b) /\
             PeekBits n b = Ok (bval (firstn (N.to_nat n) (bb_rem b))).
Proof.
  intros b n R H1 H2. apply reachable_wf in R. exists (bb_adv b (N.to_nat n)).
  unfold ReadBits, PeekBits. rewrite ReadBitsW_spec, PeekBitsW_spec by (auto; lia).
  replace (_ || _) with false by lia. repeat split.
  - unfold bb_adv. cbn [bb_bit]. lia.
  - apply bb_adv_pos.
  - apply bb_adv_rem. lia.
Qed.
Theorem C01_read_bits64_exact : forall b n, reachable b ->
  1 <= n <= 64 -> n <= N.of_nat (length (bb_rem b)) ->
  exists b', ReadBits64 n b = (Ok (bval (firstn (N.to_nat n) (bb_rem b))), b') /\
             moved b (N.to_nat n) b' /\
             bb_rem b' = skipn (N.to_nat n) (bb_rem b) /\
             PeekBits64 n b = Ok (bval (firstn (N.to_nat n) (bb_rem b))).
Proof.
  intros b n R H1 H2. apply reachable_wf in R. exists (bb_adv b (N.to_nat n)).
  unfold ReadBits64, PeekBits64. rewrite ReadBitsW_spec, PeekBitsW_spec by (auto; lia).
  replace (_ || _) with false by lia. repeat split.
  - unfold bb_adv. cbn [bb_bit]. lia.
  - apply bb_adv_pos.
  - apply bb_adv_rem. lia.
Qed.
(** A reachable unaligned buffer: 0b1010 1011 | 1100 1101, after 3 bits. *)
Definition ex_buf : bb := run_ops [OReadBits 3] (mkbb [171; 205] 0 0 false).
Example ex_buf_reachable : reachable ex_buf.
Proof.
  eapply reach_op with (b := mkbb [171; 205] 0 0 false) (o := OReadBits 3).
  - apply (reach_new false [171; 205]); [|reflexivity|reflexivity].
    repeat constructor.
  - reflexivity.
  - reflexivity.
Qed.
Example C01_ex : bb_rem ex_buf =
  [false;true;false;true;true; true;true;false;false;true;true;false;true] /\
  ReadBits 7 ex_buf = (Ok 47, mkbb [171; 205] 1 2 false).
Proof. vm_compute. auto. Qed.

(** C02: impossible reads fail and do not move; no operation reads outside the buffer. *)
Theorem C02_impossible_reads_fail : forall b n, reachable b ->
  n = 0 \/ 32 < n \/ N.of_nat (length (bb_rem b)) < n ->
  ReadBits n b = (Null, b) /\ PeekBits n b = Null.
Proof.
  intros b n R H. apply reachable_wf in R.
  unfold ReadBits, PeekBits. rewrite ReadBitsW_spec, PeekBitsW_spec by (auto; lia).
  replace (_ || _) with true by lia. auto.
Qed.
Theorem C02_impossible_reads64_fail : forall b n, reachable b ->
  n = 0 \/ 64 < n \/ N.of_nat (length (bb_rem b)) < n ->
  ReadBits64 n b = (Null, b) /\ PeekBits64 n b = Null.
Proof.
  intros b n R H. apply reachable_wf in R.
  unfold ReadBits64, PeekBits64. rewrite ReadBitsW_spec, PeekBitsW_spec by (auto; lia).
  replace (_ || _) with true by lia. auto.
Qed.
Theorem C02_no_out_of_bounds : forall b o, reachable b -> op_ok o ->
  fst (run_op o b) <> UB OutOfBounds.
Proof. intros b o R O. apply reachable_wf in R. now apply run_op_kept. Qed.
(** Every operation either succeeds or returns false: no undefined behaviour, no
    failed assert; ReadNonSymmetric needs its documented argument range. *)
Theorem C02_defined : forall b o, reachable b -> op_ok o ->
  (forall n, o = OReadNonSymmetric n -> 1 <= n < 2 ^ 31) ->
  (exists v, fst (run_op o b) = Ok v) \/ fst (run_op o b) = Null.
Proof.
  intros b o R O H. apply reachable_wf in R.
  destruct (run_op_kept o b R O) as (_ & _ & P).
  assert (Q : ns_arg_ok o) by (destruct o; cbn; auto).
  specialize (P Q). destruct (fst (run_op o b)); try contradiction; eauto.
Qed.
Example C02_ex : reachable ex_buf /\
  ReadBits 14 ex_buf = (Null, ex_buf) /\ ReadBits 33 ex_buf = (Null, ex_buf).
Proof. split; [exact ex_buf_reachable|vm_compute; auto]. Qed.

(** C03: positions. *)
Theorem C03_position_valid : forall b, reachable b ->
  bb_byte b <= bb_count b /\ bb_bit b <= 7 /\ (bb_byte b = bb_count b -> bb_bit b = 0) /\
  RemainingBitCount b = 8 * bb_count b - N.of_nat (bb_pos b).
Proof.
  intros b R. apply reachable_wf in R. rewrite RemainingBitCount_spec by auto.
  rewrite bb_rem_length by auto. destruct R as (H1 & H2 & H3 & H4).
  unfold bb_pos. repeat split; lia.
Qed.
(** Seeking to a previously reported offset, after any further operations, gives back
    the very same state, hence the same future. *)
Theorem C03_seek_restores : forall b l, reachable b -> Forall op_ok l ->
  let (byte, bit) := GetCurrentOffset b in
  Seek byte bit (run_ops l b) = (Ok tt, b).
Proof.
  intros b l R F. apply reachable_wf in R. cbn [GetCurrentOffset].
  apply seek_back; auto. now apply run_ops_kept.
Qed.
Theorem C03_seek_exact : forall b y t, reachable b -> 
  Seek y t b = if ((y <? bb_count b) && (t <=? 7)) || ((y =? bb_count b) && (t =? 0))
               then (Ok tt, mkbb (bb_bytes b) y t (bb_asserts b)) else (Null, b).
Proof.
  intros b y t R. apply reachable_wf in R. rewrite Seek_spec by auto.
  replace (_ && _ || _) with ((8 * y + t <=? 8 * bb_count b) && (t <? 8)) by lia. reflexivity.
Qed.
Theorem C03_consume : forall b n, reachable b -> n < 2 ^ 64 ->
  (if n <=? N.of_nat (length (bb_rem b))
   then exists b', ConsumeBits n b = (Ok tt, b') /\ moved b (N.to_nat n) b'
   else ConsumeBits n b = (Null, b)) /\
  (if 8 * n <=? N.of_nat (length (bb_rem b))
   then exists b', ConsumeBytes n b = (Ok tt, b') /\ moved b (N.to_nat (8 * n)) b'
   else ConsumeBytes n b = (Null, b)).
Proof.
  intros b n R H. apply reachable_wf in R. rewrite ConsumeBits_spec, ConsumeBytes_spec by auto.
  split.
  - destruct (n <=? _) eqn:E.
    + replace (_ <? n) with false by lia. eexists; split; eauto using moved_adv.
    + replace (_ <? n) with true by lia. reflexivity.
  - destruct (8 * n <=? _) eqn:E.
    + replace (_ <? 8 * n) with false by lia. eexists; split; eauto using moved_adv.
    + replace (_ <? 8 * n) with true by lia. reflexivity.
Qed.
Example C03_ex : reachable ex_buf /\
  Seek 0 3 (run_ops [OReadUe; OConsumeBytes 1; OReadSe; OSeek 2 0] ex_buf) = (Ok tt, ex_buf).
Proof. split; [exact ex_buf_reachable|vm_compute; auto]. Qed.

(** C04: ReadExponentialGolomb succeeds with v exactly when the remaining bits start
    with the ue(v) codeword, and then consumes exactly that codeword. *)
Theorem C04_ue_sound : forall b v b', reachable b ->
  ReadExponentialGolomb b = (Ok v, b') ->
  v <= 2 ^ 32 - 2 /\
  exists rest, bb_rem b = ue_bits v ++ rest /\ moved b (length (ue_bits v)) b' /\
               bb_rem b' = rest.
Proof.
  intros b v b' R E. apply reachable_wf in R. rewrite ReadExponentialGolomb_spec in E by auto.
  destruct (ue_dec (bb_rem b)) as [[w n]|] eqn:D; [|discriminate].
  assert (w = v) by congruence. assert (b' = bb_adv b n) by congruence. subst.
  apply ue_dec_sound in D. destruct D as (D1 & D2 & D3 & D4). split; [lia|].
  exists (skipn n (bb_rem b)). rewrite <- D3, firstn_skipn, D3, <- D2.
  repeat split.
  - unfold bb_adv. cbn [bb_bit]. lia.
  - apply bb_adv_pos.
  - now apply bb_adv_rem.
Qed.
Theorem C04_ue_complete : forall b v rest, reachable b -> v <= 2 ^ 32 - 2 ->
  bb_rem b = ue_bits v ++ rest ->
  exists b', ReadExponentialGolomb b = (Ok v, b') /\ moved b (length (ue_bits v)) b'.
Proof.
  intros b v rest R H E. apply reachable_wf in R. rewrite ReadExponentialGolomb_spec by auto.
  rewrite E, ue_dec_complete by lia. eexists. split; eauto using moved_adv.
Qed.
(** In all other cases it returns false. *)
Theorem C04_ue_else_fails : forall b, reachable b ->
  (forall v rest, v <= 2 ^ 32 - 2 -> bb_rem b <> ue_bits v ++ rest) ->
  fst (ReadExponentialGolomb b) = Null.
Proof.
  intros b R H. apply reachable_wf in R. rewrite ReadExponentialGolomb_spec by auto.
  destruct (ue_dec (bb_rem b)) as [[w n]|] eqn:D; [|reflexivity].
  apply ue_dec_sound in D. destruct D as (D1 & D2 & D3 & D4).
  destruct (H w (skipn n (bb_rem b))); [lia|]. now rewrite <- D3, firstn_skipn.
Qed.
(** Every value has room in some buffer: 8-byte buffers suffice for all codewords. *)
Example C04_ex : ue_bits 2 = [false; true; true] /\
  fst (ReadExponentialGolomb (mkbb [0; 0; 0; 1; 255; 255; 255; 254] 0 0 false)) = Ok (2 ^ 32 - 2) /\
  fst (ReadExponentialGolomb ex_buf) = Ok 1.
Proof. vm_compute. auto. Qed.

(** C05: with asserts compiled in, a failed Exp-Golomb read does not move. *)
Theorem C05_failed_golomb_restores : forall b, reachable b -> bb_asserts b = true ->
  (fst (ReadExponentialGolomb b) = Null -> snd (ReadExponentialGolomb b) = b) /\
  (fst (ReadSignedExponentialGolomb b) = Null -> snd (ReadSignedExponentialGolomb b) = b).
Proof.
  intros b R A. apply reachable_wf in R.
  rewrite ReadExponentialGolomb_spec, ReadSignedExponentialGolomb_spec by auto. rewrite A.
  destruct (ue_dec (bb_rem b)) as [[w n]|]; cbn; split; auto; discriminate.
Qed.
(** Without asserts the restoring Seek is compiled out: a failed read moves over the
    leading zeros. *)
Theorem C05_failed_golomb_restores_ndebug_refuted : exists b, reachable b /\
  bb_asserts b = false /\ fst (ReadExponentialGolomb b) = Null /\
  bb_pos (snd (ReadExponentialGolomb b)) <> bb_pos b.
Proof.
  exists (mkbb [0] 0 0 false). split.
  - apply (reach_new false [0]); [repeat constructor|reflexivity|reflexivity].
  - vm_compute. repeat split. discriminate.
Qed.
(** What does hold in that build. *)
Theorem C05_failed_golomb_ndebug : forall b, reachable b -> bb_asserts b = false ->
  fst (ReadExponentialGolomb b) = Null ->
  moved b (lead0 (bb_rem b)) (snd (ReadExponentialGolomb b)).
Proof.
  intros b R A. apply reachable_wf in R.
  rewrite ReadExponentialGolomb_spec by auto. rewrite A.
  destruct (ue_dec (bb_rem b)) as [[w n]|]; cbn [fst snd]; [discriminate|].
  intros _. apply moved_adv.
Qed.
Example C05_ex : fst (ReadExponentialGolomb (mkbb [0; 1] 0 0 true)) = Null /\
  snd (ReadExponentialGolomb (mkbb [0; 1] 0 0 true)) = mkbb [0; 1] 0 0 true.
Proof. vm_compute. auto. Qed.

(** C06: signed Exp-Golomb. *)
Theorem C06_se_sound : forall b v b', reachable b ->
  ReadSignedExponentialGolomb b = (Ok v, b') ->
  (- (2 ^ 31 - 1) <= v <= 2 ^ 31 - 1)%Z /\
  exists rest, bb_rem b = se_bits v ++ rest /\ moved b (length (se_bits v)) b' /\
               bb_rem b' = rest.
Proof.
  intros b v b' R E. apply reachable_wf in R.
  rewrite ReadSignedExponentialGolomb_spec in E by auto.
  destruct (ue_dec (bb_rem b)) as [[w n]|] eqn:D; [|discriminate].
  assert (se_dec w = v) by congruence. assert (b' = bb_adv b n) by congruence. subst.
  apply ue_dec_sound in D. destruct D as (D1 & D2 & D3 & D4). split.
  - unfold se_dec. destruct (N.even w) eqn:V; [lia|].
    assert (w <> 2 ^ 32 - 2) by (intros ->; discriminate V). lia.
  - exists (skipn n (bb_rem b)). unfold se_bits. rewrite se_code_dec.
    rewrite <- D3, firstn_skipn, D3, <- D2. repeat split.
    + unfold bb_adv. cbn [bb_bit]. lia.
    + apply bb_adv_pos.
    + now apply bb_adv_rem.
Qed.
Theorem C06_se_complete : forall b v rest, reachable b ->
  (- (2 ^ 31 - 1) <= v <= 2 ^ 31 - 1)%Z ->
  bb_rem b = se_bits v ++ rest ->
  exists b', ReadSignedExponentialGolomb b = (Ok v, b') /\ moved b (length (se_bits v)) b'.
Proof.
  intros b v rest R H E. apply reachable_wf in R.
  rewrite ReadSignedExponentialGolomb_spec by auto.
  rewrite E. unfold se_bits. rewrite ue_dec_complete.
  - rewrite se_dec_code. eexists. split; eauto using moved_adv.
  - unfold se_code. destruct (0 <? v)%Z; lia.
Qed.
Theorem C06_se_no_overflow : forall b k, reachable b ->
  fst (ReadSignedExponentialGolomb b) <> UB k.
Proof.
  intros b k R. apply reachable_wf in R. rewrite ReadSignedExponentialGolomb_spec by auto.
  destruct (ue_dec (bb_rem b)) as [[w n]|]; discriminate.
Qed.
Example C06_ex :
  fst (ReadSignedExponentialGolomb (mkbb [0; 0; 0; 1; 255; 255; 255; 254] 0 0 false))
    = Ok (- (2 ^ 31 - 1))%Z /\
  fst (ReadSignedExponentialGolomb ex_buf) = Ok 1%Z.
Proof. vm_compute. auto. Qed.

(** C07: ReadNonSymmetric decodes exactly the ns(n) code for 2 <= n < 2^31. *)
Theorem C07_ns_sound : forall n b v b', reachable b -> 2 <= n < 2 ^ 31 ->
  ReadNonSymmetric n b = (Ok v, b') ->
  v < n /\ exists rest, bb_rem b = ns_bits n v ++ rest /\ moved b (length (ns_bits n v)) b'.
Proof.
  intros n b v b' R [H1 H2] E. apply reachable_wf in R.
  apply ns_sound in E; auto. destruct E as (L & rest & E & ->).
  split; auto. exists rest. auto using moved_adv.
Qed.
Theorem C07_ns_complete : forall n b v rest, reachable b -> 2 <= n < 2 ^ 31 -> v < n ->
  bb_rem b = ns_bits n v ++ rest ->
  exists b', ReadNonSymmetric n b = (Ok v, b') /\ moved b (length (ns_bits n v)) b'.
Proof.
  intros n b v rest R [H1 H2] L E. apply reachable_wf in R.
  eexists. split; [eapply ns_complete; eauto|apply moved_adv].
Qed.
(** ns(1) is the empty code, but the read always fails. *)
Theorem C07_ns_one_refuted : exists b, reachable b /\ bb_rem b = ns_bits 1 0 ++ bb_rem b /\
  ReadNonSymmetric 1 b = (Null, b).
Proof.
  exists (mkbb [128] 0 0 true). split.
  - apply (reach_new true [128]); [repeat constructor|reflexivity|reflexivity].
  - vm_compute. auto.
Qed.
Theorem C07_ns_one : forall b, reachable b -> ReadNonSymmetric 1 b = (Null, b).
Proof. intros b R. apply reachable_wf in R. now apply ReadNonSymmetric_1. Qed.
(** num_values = 2^31, which the function's own assert admits, shifts a 32-bit value by
    32: undefined on every buffer and in both builds. *)
Theorem C07_ns_2_31_undefined : forall b, reachable b ->
  fst (ReadNonSymmetric (2 ^ 31) b) = UB BadShift.
Proof.
  intros b R. apply reachable_wf in R. rewrite ReadNonSymmetric_big by (auto; lia).
  rewrite N.ltb_irrefl, andb_false_r. reflexivity.
Qed.
(** A read that fails on its last bit has already moved. *)
Theorem C07_ns_failure_restores_refuted : exists b n, reachable b /\ 2 <= n < 2 ^ 31 /\
  fst (ReadNonSymmetric n b) = Null /\ bb_pos (snd (ReadNonSymmetric n b)) <> bb_pos b.
Proof.
  exists (snd (run_op (OConsumeBits 6) (mkbb [255] 0 0 true))), 6. split.
  - eapply reach_op with (o := OConsumeBits 6);
      [|reflexivity|apply surjective_pairing].
    apply (reach_new true [255]); [repeat constructor|reflexivity|reflexivity].
  - vm_compute. repeat split; discriminate.
Qed.
Example C07_ex : ns_bits 5 3 = [true; true; false] /\ ns_bits 5 2 = [true; false] /\
  fst (ReadNonSymmetric 5 (mkbb [192] 0 0 true)) = Ok 3.
Proof. vm_compute. auto. Qed.

Print Assumptions C01_read_bits_exact.
Print Assumptions C01_read_bits64_exact.
Print Assumptions C02_impossible_reads_fail.
Print Assumptions C02_impossible_reads64_fail.
Print Assumptions C02_no_out_of_bounds.
Print Assumptions C02_defined.
Print Assumptions C03_position_valid.
Print Assumptions C03_seek_restores.
Print Assumptions C03_seek_exact.
Print Assumptions C03_consume.
Print Assumptions C04_ue_sound.
Print Assumptions C04_ue_complete.
Print Assumptions C04_ue_else_fails.
Print Assumptions C05_failed_golomb_restores.
Print Assumptions C05_failed_golomb_restores_ndebug_refuted.
Print Assumptions C05_failed_golomb_ndebug.
Print Assumptions C06_se_sound.
Print Assumptions C06_se_complete.
Print Assumptions C06_se_no_overflow.
Print Assumptions C07_ns_sound.
Print Assumptions C07_ns_complete.
Print Assumptions C07_ns_one_refuted.
Print Assumptions C07_ns_one.
Print Assumptions C07_ns_2_31_undefined.
Print Assumptions C07_ns_failure_restores_refuted.
