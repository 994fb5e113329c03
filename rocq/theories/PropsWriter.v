(** Properties C08-C10: the bit writer. *)
From Coq Require Import NArith ZArith List Bool Lia ZifyBool ZifyNat ZifyN.
From Verif Require Import SpecBits Base BitBuffer SpecReader BitsLemmas BitBufferProofs
  ReaderProofs Writer SpecWriter WriterProofs WriterProofs2 WriterProofs3.
Import ListNotations.
Open Scope N_scope.
Ltac Zify.zify_post_hook ::= Z.div_mod_to_equations.

(** C08: WriteBits changes exactly the n addressed bits, or returns false and changes
    nothing when there is no room. *)
Theorem C08_write_bits_exact : forall b v n, wreachable b -> v < 2 ^ 64 -> 1 <= n <= 64 ->
  n <= N.of_nat (length (bb_rem b)) ->
  exists b', WriteBits v n b = (Ok tt, b') /\ wrote b (u_bits n v) b'.
Proof. intros. apply WriteBits_wrote; auto using wreachable_wf; lia. Qed.
Theorem C08_write_bits_no_room : forall b v n, wreachable b ->
  N.of_nat (length (bb_rem b)) < n -> WriteBits v n b = (Null, b).
Proof. intros. apply WriteBits_full; auto using wreachable_wf. Qed.
(** Bit by bit: every other bit of the buffer keeps its value. *)
Theorem C08_write_bits_frame : forall b v n b' i, wreachable b -> v < 2 ^ 64 -> 1 <= n <= 64 ->
  WriteBits v n b = (Ok tt, b') ->
  (i < bb_pos b \/ bb_pos b + N.to_nat n <= i)%nat ->
  nth_error (bits_of (bb_bytes b')) i = nth_error (bits_of (bb_bytes b)) i.
Proof.
  intros b v n b' i R Hv Hn E Hi. apply wreachable_wf in R.
  destruct (N.leb_spec n (N.of_nat (length (bb_rem b)))) as [L|L].
  2:{ rewrite WriteBits_full in E by auto. discriminate. }
  destruct (WriteBits_wrote v n b) as (b2 & E2 & W); auto; try lia.
  assert (b2 = b') by congruence. subst b2. destruct W as (W & _). rewrite W. unfold patch.
  assert (LU : length (u_bits n v) = N.to_nat n) by apply nbits_length. rewrite LU.
  pose proof (bb_rem_length b R) as RL. destruct R as (H1 & H2 & H3 & H4).
  assert (PL : (bb_pos b + N.to_nat n <= length (bits_of (bb_bytes b)))%nat).
  { rewrite bits_of_length. unfold bb_count, bb_pos in *. lia. }
  assert (LF : length (firstn (bb_pos b) (bits_of (bb_bytes b))) = bb_pos b)
    by (apply firstn_length_le'; lia).
  destruct Hi as [Hi|Hi].
  - rewrite nth_error_app1 by lia.
    rewrite <- (firstn_skipn (bb_pos b) (bits_of (bb_bytes b))) at 2.
    rewrite nth_error_app1 by lia. reflexivity.
  - rewrite nth_error_app2 by lia. rewrite nth_error_app2 by lia.
    symmetry.
    rewrite <- (firstn_skipn (bb_pos b + N.to_nat n) (bits_of (bb_bytes b))) at 1.
    rewrite nth_error_app2 by (rewrite firstn_length; lia).
    f_equal. rewrite !firstn_length. lia.
Qed.
(** No typed write, whatever came before, touches a byte outside the buffer. *)
Theorem C08_no_out_of_bounds : forall b o, wreachable b -> wop_typed o ->
  fst (run_wop o b) <> UB OutOfBounds /\
  length (bb_bytes (snd (run_wop o b))) = length (bb_bytes b).
Proof.
  intros b o R T. apply wreachable_wf in R. destruct (wop_kept o b R T) as [K N].
  split; auto. apply K.
Qed.
(** WriteBits of 0 bits, or of more than 64 bits with room for them, is an undefined
    shift. *)
Theorem C08_write_bits_bad_width_undefined : forall b v n, wreachable b ->
  n = 0 \/ 64 < n -> n <= N.of_nat (length (bb_rem b)) ->
  fst (WriteBits v n b) = UB BadShift.
Proof.
  intros b v n R H L. apply wreachable_wf in R. unfold WriteBits.
  rewrite RemainingBitCount_spec by auto. replace (_ <? n) with false by lia.
  pose proof (bb_rem_length b R) as RL. destruct R as (H1 & H2 & H3 & H4).
  destruct H as [->|H]; [reflexivity|].
  replace (sub64 64 n) with (2 ^ 64 + 64 - n).
  - replace (64 <=? 2 ^ 64 + 64 - n) with true by lia. reflexivity.
  - unfold sub64. rewrite (N.mod_small n) by lia. rewrite N.mod_small; lia.
Qed.
Definition ex_w : bb := snd (run_op (OConsumeBits 5) (mkbb [255; 255; 255] 0 0 true)).
Example ex_w_reachable : wreachable ex_w.
Proof.
  eapply wreach_op with (o := OConsumeBits 5) (b := mkbb [255; 255; 255] 0 0 true).
  - apply (wreach_new true [255; 255; 255]); [repeat constructor|reflexivity|reflexivity].
  - reflexivity.
  - apply surjective_pairing.
Qed.
Example C08_ex : WriteBits 4 12 ex_w = (Ok tt, mkbb [248; 2; 127] 2 1 true) /\
  WriteBits 4 20 ex_w = (Null, ex_w).
Proof. vm_compute. auto. Qed.

(** C09: what is written is what is read. *)
Theorem C09_write_then_read : forall ops b b', wreachable b -> Forall wop_ok ops ->
  run_wops ops b = Some b' ->
  exists b0, (let (byte, bit) := GetCurrentOffset b in Seek byte bit b' = (Ok tt, b0)) /\
    run_reads (map wop_read ops) b0 = Some (map wop_value ops, b').
Proof. intros ops b b' R F E. apply write_read; auto using wreachable_wf. Qed.
(** And the writes succeed exactly when the code words fit. *)
Theorem C09_writes_succeed : forall ops b, wreachable b -> Forall wop_ok ops ->
  (length (flat_map wop_code ops) <= length (bb_rem b))%nat <->
  exists b', run_wops ops b = Some b'.
Proof.
  intros ops b R F. apply wreachable_wf in R. split.
  - revert b R F. induction ops as [|o l IH]; intros b R F L; cbn [run_wops flat_map] in *; eauto.
    rewrite app_length in L. inversion F as [|? ? K F']; subst.
    pose proof (wop_spec o b R K) as S.
    replace (length (wop_code o) <=? length (bb_rem b))%nat with true in S by lia.
    destruct S as (b1 & E1 & W1). rewrite E1. apply IH; auto.
    + apply (wrote_wf b (wop_code o)); auto; lia.
    + rewrite (wrote_rem_length b (wop_code o)) by auto. lia.
  - intros [b' E]. now apply run_wops_wrote in E.
Qed.
Definition ex_ops : list writer_op := [WUe 3; WSe (-2); WBits 5 3; WNs 2 5; WUInt8 200].
Example C09_ex : Forall wop_ok ex_ops /\
  exists b', run_wops ex_ops (mkbb [0; 0; 0; 0] 0 0 true) = Some b' /\
             bb_bytes b' = [33; 109; 144; 0].
Proof.
  split.
  - repeat constructor; cbn; lia.
  - eexists. split; [vm_compute; reflexivity|reflexivity].
Qed.

(** C10: the Exp-Golomb writers emit the standard codeword. *)
Theorem C10_write_ue : forall b v, wreachable b -> v <= 2 ^ 32 - 2 ->
  if (length (ue_bits v) <=? length (bb_rem b))%nat
  then exists b', WriteExponentialGolomb v b = (Ok tt, b') /\ wrote b (ue_bits v) b'
  else WriteExponentialGolomb v b = (Null, b).
Proof.
  intros b v R H. apply wreachable_wf in R.
  apply (wop_spec (WUe v) b R). split; cbn; lia.
Qed.
Theorem C10_write_ue_max_refused : forall b, WriteExponentialGolomb (2 ^ 32 - 1) b = (Null, b).
Proof. reflexivity. Qed.
Theorem C10_write_se : forall b v, wreachable b -> (- (2 ^ 31 - 1) <= v <= 2 ^ 31 - 1)%Z ->
  if (length (se_bits v) <=? length (bb_rem b))%nat
  then exists b', WriteSignedExponentialGolomb v b = (Ok tt, b') /\ wrote b (se_bits v) b'
  else WriteSignedExponentialGolomb v b = (Null, b).
Proof.
  intros b v R H. apply wreachable_wf in R.
  apply (wop_spec (WSe v) b R). split; cbn; lia.
Qed.
Theorem C10_write_se_min_refused : forall b,
  WriteSignedExponentialGolomb (- 2 ^ 31) b = (Null, b).
Proof. reflexivity. Qed.
(** The non-symmetric writer and its size function. *)
Theorem C10_write_ns : forall b v n, wreachable b -> 2 <= n < 2 ^ 31 -> v < n ->
  (if (length (ns_bits n v) <=? length (bb_rem b))%nat
   then exists b', WriteNonSymmetric v n b = (Ok tt, b') /\ wrote b (ns_bits n v) b'
   else WriteNonSymmetric v n b = (Null, b)) /\
  SizeNonSymmetricBits (bb_asserts b) v n = Ok (N.of_nat (length (ns_bits n v))).
Proof.
  intros b v n R [H1 H2] Hv. apply wreachable_wf in R. split.
  - apply (wop_spec (WNs v n) b R). split; cbn; lia.
  - pose proof (ns_width_range n H1 H2) as [R1 R2].
    unfold SizeNonSymmetricBits, dcheck.
    replace (v <? n) with true by lia. replace (n <=? 2 ^ 31) with true by lia.
    cbn [negb]. rewrite !andb_false_r. rewrite CountBits_spec by lia.
    replace (n =? 0) with false by lia. fold (ns_width n). cbn [rbind].
    assert (SHd : ns_short n = 2 ^ ns_width n - n) by reflexivity.
    unfold ns_bits. set (w := ns_width n) in *.
    replace (32 <=? w) with false by lia.
    assert (P : 2 ^ w <= 2 ^ 31) by (apply N.pow_le_mono_r; lia).
    rewrite N.shiftl_1_l, u32_small by lia. rewrite sub32_small by lia. rewrite <- SHd.
    destruct (v <? ns_short n); unfold u_bits; rewrite nbits_length, N2Nat.id; auto.
    rewrite sub64_small by lia. reflexivity.
Qed.
Theorem C10_write_ns_one_refuted : exists b, wreachable b /\
  fst (WriteNonSymmetric 0 1 b) = UB BadShift.
Proof. exists ex_w. split; [exact ex_w_reachable|reflexivity]. Qed.
Example C10_ex : WriteExponentialGolomb 4 ex_w = (Ok tt, mkbb [249; 127; 255] 1 2 true) /\
  ue_bits 4 = [false; false; true; false; true] /\
  WriteSignedExponentialGolomb (-1) ex_w = (Ok tt, mkbb [251; 255; 255] 1 0 true).
Proof. vm_compute. auto. Qed.

Print Assumptions C08_write_bits_exact.
Print Assumptions C08_write_bits_no_room.
Print Assumptions C08_write_bits_frame.
Print Assumptions C08_no_out_of_bounds.
Print Assumptions C08_write_bits_bad_width_undefined.
Print Assumptions C09_write_then_read.
Print Assumptions C09_writes_succeed.
Print Assumptions C10_write_ue.
Print Assumptions C10_write_ue_max_refused.
Print Assumptions C10_write_se.
Print Assumptions C10_write_se_min_refused.
Print Assumptions C10_write_ns.
Print Assumptions C10_write_ns_one_refuted.
