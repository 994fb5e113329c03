(** Code writers and write/read sequences. *)
From Coq Require Import NArith ZArith List Bool Lia ZifyBool ZifyNat ZifyN.
From Verif Require Import SpecBits Base BitBuffer SpecReader BitsLemmas BitBufferProofs
  ReaderProofs Writer SpecWriter WriterProofs WriterProofs2.
Import ListNotations.
Open Scope N_scope.
Ltac Zify.zify_post_hook ::= Z.div_mod_to_equations.

Lemma wrote_wf : forall b l b', bb_wf b -> (length l <= length (bb_rem b))%nat ->
  wrote b l b' -> bb_wf b'.
Proof.
  intros b l b' Wf H (E & L & P & Hb & A & O). pose proof (bb_rem_length b Wf) as RL.
  destruct Wf as (H1 & H2 & H3 & H4). unfold bb_wf, bb_count in *. rewrite L.
  unfold bb_pos in P. repeat split; auto. lia.
Qed.

Lemma wrote_rem_length : forall b l b', wrote b l b' ->
  length (bb_rem b') = (length (bb_rem b) - length l)%nat.
Proof.
  intros b l b' (E & L & P & Hb & A & O). unfold bb_rem.
  rewrite !skipn_length, !bits_of_length, L, P. lia.
Qed.

Lemma WriteBits_wrote : forall v n b, bb_wf b -> 1 <= n -> n <= 64 -> v < 2 ^ 64 ->
  n <= N.of_nat (length (bb_rem b)) ->
  exists b', WriteBits v n b = (Ok tt, b') /\ wrote b (u_bits n v) b'.
Proof.
  intros v n b Wf H1 H2 Hv H.
  destruct (WriteBits_spec v n b Wf H1 H2 Hv H) as (B' & E & O & L & P).
  rewrite E. eexists. split; [reflexivity|]. unfold wrote, u_bits.
  unfold bb_adv. cbn [bb_bytes bb_byte bb_bit bb_asserts].
  rewrite nbits_length. repeat split; auto; try lia.
  unfold bb_pos. cbn [bb_byte bb_bit]. lia.
Qed.

Lemma nbits_S_zero : forall n v, v < 2 ^ N.of_nat n -> nbits (S n) v = false :: nbits n v.
Proof. intros n v H. cbn [nbits]. f_equal. eapply testbit_small; eauto. lia. Qed.

Lemma nbits_pad : forall k n v, v < 2 ^ N.of_nat n ->
  nbits (k + n) v = repeat false k ++ nbits n v.
Proof.
  induction k as [|k IH]; intros n v H; auto.
  change (S k + n)%nat with (S (k + n)). rewrite nbits_S_zero.
  - cbn [repeat app]. f_equal. auto.
  - eapply N.lt_le_trans; [exact H|]. apply N.pow_le_mono_r; lia.
Qed.

Lemma ue_bits_nbits : forall v,
  ue_bits v = nbits (2 * N.to_nat (N.log2 (v + 1)) + 1) (v + 1).
Proof.
  intros v. unfold ue_bits. set (k := N.to_nat (N.log2 (v + 1))).
  replace (2 * k + 1)%nat with (k + S k)%nat by lia.
  symmetry. apply nbits_pad. apply log2_pow_bound. lia.
Qed.

Lemma log2_le_31 : forall v, v <= 2 ^ 32 - 2 -> N.log2 (v + 1) <= 31.
Proof. intros v H. assert (N.log2 (v + 1) < 32) by (apply N.log2_lt_pow2; lia). lia. Qed.

(** WriteExponentialGolomb is WriteBits of the whole codeword. *)
Lemma WriteUe_eq : forall v b, v <= 2 ^ 32 - 2 ->
  WriteExponentialGolomb v b = WriteBits (v + 1) (2 * N.log2 (v + 1) + 1) b.
Proof.
  intros v b H. unfold WriteExponentialGolomb, sbind, sres.
  replace (v =? 2 ^ 32 - 1) with false by lia.
  rewrite (u64_small (v + 1)) by lia. rewrite CountBits_spec by lia.
  replace (v + 1 =? 0) with false by lia. pose proof (log2_le_31 v H).
  rewrite u64_small by lia. rewrite sub64_small by lia. f_equal. lia.
Qed.

Lemma WriteUe_wrote : forall v b, bb_wf b -> v <= 2 ^ 32 - 2 ->
  (length (ue_bits v) <= length (bb_rem b))%nat ->
  exists b', WriteExponentialGolomb v b = (Ok tt, b') /\ wrote b (ue_bits v) b'.
Proof.
  intros v b Wf H L. rewrite WriteUe_eq by auto. rewrite ue_bits_length in L.
  pose proof (log2_le_31 v H).
  destruct (WriteBits_wrote (v + 1) (2 * N.log2 (v + 1) + 1) b) as (b' & E & R); auto; try lia.
  exists b'. split; auto. unfold u_bits in R. rewrite ue_bits_nbits.
  replace (2 * N.to_nat (N.log2 (v + 1)) + 1)%nat with (N.to_nat (2 * N.log2 (v + 1) + 1)) by lia.
  exact R.
Qed.

Lemma WriteUe_full : forall v b, bb_wf b -> v <= 2 ^ 32 - 2 ->
  (length (bb_rem b) < length (ue_bits v))%nat -> WriteExponentialGolomb v b = (Null, b).
Proof.
  intros v b Wf H L. rewrite WriteUe_eq by auto. rewrite ue_bits_length in L.
  apply WriteBits_full; auto. lia.
Qed.

Lemma of_i32_pos : forall z, (0 <= z < 2 ^ 31)%Z -> of_i32 z = Z.to_N z.
Proof. intros. unfold of_i32. rewrite Z.mod_small; lia. Qed.

(** WriteSignedExponentialGolomb is the unsigned writer on the mapped code number. *)
Lemma WriteSe_eq : forall z b, (- (2 ^ 31 - 1) <= z < 2 ^ 31)%Z ->
  WriteSignedExponentialGolomb z b = WriteExponentialGolomb (se_code z) b.
Proof.
  intros z b H. unfold WriteSignedExponentialGolomb, se_code.
  destruct (z =? 0)%Z eqn:E0.
  { assert (z = 0%Z) by lia. subst. reflexivity. }
  destruct (0 <? z)%Z eqn:E1.
  - rewrite of_i32_pos by lia. rewrite u32_small by lia. rewrite sub32_small by lia.
    f_equal. lia.
  - replace (z =? - 2 ^ 31)%Z with false by lia.
    unfold sbind, sres, chk_i32.
    replace ((- 2 ^ 31 <=? - z)%Z && (- z <? 2 ^ 31)%Z)%bool with true by lia.
    rewrite of_i32_pos by lia. rewrite u32_small by lia. f_equal. lia.
Qed.

Lemma se_code_range : forall z, (- (2 ^ 31 - 1) <= z < 2 ^ 31)%Z -> se_code z <= 2 ^ 32 - 2.
Proof. intros z H. unfold se_code. destruct (0 <? z)%Z; lia. Qed.

Lemma WriteNs_eq : forall v n b, 2 <= n < 2 ^ 31 -> v < n ->
  WriteNonSymmetric v n b =
  if v <? ns_short n then WriteBits v (ns_width n - 1) b
  else WriteBits (v + ns_short n) (ns_width n) b.
Proof.
  intros v n b [H1 H2] Hv. pose proof (ns_width_range n H1 H2) as [R1 R2].
  unfold WriteNonSymmetric, sbind, sres, dcheck.
  replace (v <? n) with true by lia. replace (n <=? 2 ^ 31) with true by lia.
  cbn [negb]. rewrite !andb_false_r.
  rewrite CountBits_spec by lia. replace (n =? 0) with false by lia. fold (ns_width n).
  assert (SHd : ns_short n = 2 ^ ns_width n - n) by reflexivity.
  set (w := ns_width n) in *.
  replace (32 <=? w) with false by lia.
  assert (P : 2 ^ w <= 2 ^ 31) by (apply N.pow_le_mono_r; lia).
  rewrite N.shiftl_1_l, u32_small by lia. rewrite sub32_small by lia.
  rewrite <- SHd. rewrite sub64_small by lia.
  destruct (v <? ns_short n); auto. rewrite u32_small by lia. reflexivity.
Qed.

Lemma WriteNs_wrote : forall v n b, bb_wf b -> 2 <= n < 2 ^ 31 -> v < n ->
  (length (ns_bits n v) <= length (bb_rem b))%nat ->
  exists b', WriteNonSymmetric v n b = (Ok tt, b') /\ wrote b (ns_bits n v) b'.
Proof.
  intros v n b Wf H Hv L. rewrite WriteNs_eq by auto.
  pose proof (ns_width_range n ltac:(lia) ltac:(lia)) as [R1 R2].
  assert (SHd : ns_short n = 2 ^ ns_width n - n) by reflexivity.
  assert (P : 2 ^ ns_width n <= 2 ^ 31) by (apply N.pow_le_mono_r; lia).
  unfold ns_bits in *. destruct (v <? ns_short n); unfold u_bits in L; rewrite nbits_length in L;
  apply WriteBits_wrote; auto; lia.
Qed.

Lemma WriteNs_full : forall v n b, bb_wf b -> 2 <= n < 2 ^ 31 -> v < n ->
  (length (bb_rem b) < length (ns_bits n v))%nat -> WriteNonSymmetric v n b = (Null, b).
Proof.
  intros v n b Wf H Hv L. rewrite WriteNs_eq by auto.
  unfold ns_bits in *. destruct (v <? ns_short n); unfold u_bits in L; rewrite nbits_length in L;
  apply WriteBits_full; auto; lia.
Qed.

(** All meaningful operations: succeed iff there is room. *)
Lemma wop_spec : forall o b, bb_wf b -> wop_ok o ->
  if (length (wop_code o) <=? length (bb_rem b))%nat
  then exists b', run_wop o b = (Ok tt, b') /\ wrote b (wop_code o) b'
  else run_wop o b = (Null, b).
Proof.
  intros o b Wf [T K]. destruct (_ <=? _)%nat eqn:E.
  - destruct o; cbn [run_wop wop_code wop_typed] in *.
    + apply WriteBits_wrote; auto; try lia. unfold u_bits in E. rewrite nbits_length in E. lia.
    + apply WriteBits_wrote; auto; try lia. unfold u_bits in E. rewrite nbits_length in E. lia.
    + apply WriteBits_wrote; auto; try lia. unfold u_bits in E. rewrite nbits_length in E. lia.
    + apply WriteBits_wrote; auto; try lia. unfold u_bits in E. rewrite nbits_length in E. lia.
    + apply WriteUe_wrote; auto. lia.
    + rewrite WriteSe_eq by lia. apply WriteUe_wrote; auto.
      * apply se_code_range. lia.
      * unfold se_bits in E. lia.
    + apply WriteNs_wrote; auto; try tauto. lia.
  - destruct o; cbn [run_wop wop_code wop_typed] in *.
    + apply WriteBits_full; auto. unfold u_bits in E. rewrite nbits_length in E. lia.
    + apply WriteBits_full; auto. unfold u_bits in E. rewrite nbits_length in E. lia.
    + apply WriteBits_full; auto. unfold u_bits in E. rewrite nbits_length in E. lia.
    + apply WriteBits_full; auto. unfold u_bits in E. rewrite nbits_length in E. lia.
    + apply WriteUe_full; auto. lia.
    + rewrite WriteSe_eq by lia. apply WriteUe_full; auto.
      * apply se_code_range. lia.
      * unfold se_bits in E. lia.
    + apply WriteNs_full; auto; try tauto. lia.
Qed.

(** Any typed write keeps the invariant, and never goes out of bounds unless it is
    WriteBits with 0 or more than 64 bits, whose first shift is already undefined. *)
Definition wkept (b b' : bb) : Prop :=
  bb_wf b' /\ length (bb_bytes b') = length (bb_bytes b) /\ bb_asserts b' = bb_asserts b.

Lemma WriteBits_any : forall v n b, bb_wf b -> v < 2 ^ 64 -> n < 2 ^ 64 ->
  wkept b (snd (WriteBits v n b)) /\ fst (WriteBits v n b) <> UB OutOfBounds.
Proof.
  intros v n b Wf Hv Hn.
  destruct (N.ltb_spec (N.of_nat (length (bb_rem b))) n) as [F|F].
  { rewrite WriteBits_full by auto. cbn. split; [unfold wkept; auto|discriminate]. }
  destruct (N.eq_dec n 0) as [->|N0].
  { unfold WriteBits. rewrite RemainingBitCount_spec by auto.
    replace (_ <? 0) with false by lia. rewrite sub64_small by lia.
    replace (64 <=? 64 - 0) with true by lia. cbn. split; [unfold wkept; auto|discriminate]. }
  destruct (N.leb_spec n 64) as [L|L].
  - destruct (WriteBits_wrote v n b) as (b' & E & R); auto; try lia.
    rewrite E. cbn. split; [|discriminate].
    assert (Wf' : bb_wf b').
    { apply (wrote_wf b (u_bits n v) b'); auto. unfold u_bits. rewrite nbits_length. lia. }
    destruct R as (R1 & R2 & R3 & R4 & R5 & R6). unfold wkept. auto.
  - pose proof (bb_rem_length b Wf) as RL. destruct Wf as (X1 & X2 & X3 & X4).
    unfold WriteBits. rewrite RemainingBitCount_spec by (repeat split; auto).
    replace (_ <? n) with false by lia.
    assert (S : sub64 64 n = 2 ^ 64 + 64 - n).
    { unfold sub64. rewrite (N.mod_small n) by lia. rewrite N.mod_small; lia. }
    rewrite S. replace (64 <=? 2 ^ 64 + 64 - n) with true by lia.
    cbn. split; [unfold wkept; repeat split; auto|discriminate].
Qed.

Lemma WriteUe_any : forall v b, bb_wf b -> v < 2 ^ 32 ->
  wkept b (snd (WriteExponentialGolomb v b)) /\ fst (WriteExponentialGolomb v b) <> UB OutOfBounds.
Proof.
  intros v b Wf H. destruct (N.eq_dec v (2 ^ 32 - 1)) as [->|NE].
  - unfold WriteExponentialGolomb. rewrite N.eqb_refl. cbn. split; [unfold wkept; auto|discriminate].
  - rewrite WriteUe_eq by lia. pose proof (log2_le_31 v ltac:(lia)).
    apply WriteBits_any; auto; lia.
Qed.

Lemma wop_kept : forall o b, bb_wf b -> wop_typed o ->
  wkept b (snd (run_wop o b)) /\ fst (run_wop o b) <> UB OutOfBounds.
Proof.
  intros o b Wf T. assert (KR : wkept b b) by (unfold wkept; auto).
  destruct o; cbn [run_wop wop_typed] in *.
  - apply WriteBits_any; tauto.
  - apply WriteBits_any; auto; lia.
  - apply WriteBits_any; auto; lia.
  - apply WriteBits_any; auto; lia.
  - apply WriteUe_any; auto.
  - destruct (Z.eq_dec v (- 2 ^ 31)) as [->|NE].
    + unfold WriteSignedExponentialGolomb. cbn. split; [auto|discriminate].
    + rewrite WriteSe_eq by lia. apply WriteUe_any; auto.
      pose proof (se_code_range v ltac:(lia)). lia.
  - unfold WriteNonSymmetric, sbind, sres, dcheck.
    destruct (bb_asserts b && negb (v <? n)); [cbn; split; auto; discriminate|].
    destruct (bb_asserts b && negb (n <=? 2 ^ 31)); [cbn; split; auto; discriminate|].
    rewrite CountBits_spec by lia.
    set (c := if n =? 0 then 0 else N.log2 n + 1).
    assert (Hc : c <= 64).
    { unfold c. destruct (n =? 0) eqn:E0; [lia|].
      assert (N.log2 n < 32) by (apply N.log2_lt_pow2; lia). lia. }
    destruct (32 <=? c); [cbn; split; auto; discriminate|].
    set (m := sub32 _ n).
    destruct (v <? m).
    + apply WriteBits_any; auto; [lia|]. apply N.mod_lt. lia.
    + apply WriteBits_any; auto; [|lia]. unfold u32. 
      assert ((v + m) mod 2 ^ 32 < 2 ^ 32) by (apply N.mod_lt; lia). lia.
Qed.

Lemma wreachable_wf : forall b, wreachable b -> bb_wf b.
Proof.
  induction 1 as [a bytes b H1 H2 E|b o r b' R IH O E|b o r b' R IH O E].
  - now apply bb_new_wf in E.
  - pose proof (run_op_kept o b IH O) as [K _]. rewrite E in K. apply K.
  - pose proof (wop_kept o b IH O) as [K _]. rewrite E in K. apply K.
Qed.

(** Sequences. *)
Lemma wrote_trans : forall b l1 b1 l2 b2, bb_wf b ->
  (length l1 <= length (bb_rem b))%nat -> (length l2 <= length (bb_rem b1))%nat ->
  wrote b l1 b1 -> wrote b1 l2 b2 -> wrote b (l1 ++ l2) b2.
Proof.
  intros b l1 b1 l2 b2 Wf H1 H2 W1 W2. pose proof (wrote_rem_length _ _ _ W1) as RL.
  destruct W1 as (E1 & L1 & P1 & B1 & A1 & O1). destruct W2 as (E2 & L2 & P2 & B2 & A2 & O2).
  unfold wrote. rewrite app_length. repeat split; auto; try congruence; try lia.
  rewrite E2, E1, P1. apply patch_patch.
  destruct Wf as (X1 & X2 & X3 & X4). unfold bb_count in X3.
  unfold bb_rem in *. rewrite !skipn_length, !bits_of_length in *. unfold bb_pos in *. lia.
Qed.

Lemma run_wops_wrote : forall l b b2, bb_wf b -> Forall wop_ok l -> run_wops l b = Some b2 ->
  (length (flat_map wop_code l) <= length (bb_rem b))%nat /\
  wrote b (flat_map wop_code l) b2.
Proof.
  induction l as [|o l IH]; intros b b2 Wf F E; cbn [run_wops flat_map] in *.
  - injection E as <-. split; [cbn; lia|]. unfold wrote. rewrite patch_nil.
    destruct Wf as (H1 & H2 & H3 & H4). repeat split; auto.
  - inversion F as [|? ? K F']; subst. pose proof (wop_spec o b Wf K) as S.
    destruct (length (wop_code o) <=? length (bb_rem b))%nat eqn:L.
    + destruct S as (b1 & E1 & W1). rewrite E1 in E.
      assert (Wf1 : bb_wf b1) by (apply (wrote_wf b (wop_code o)); auto; lia).
      apply IH in E; auto. destruct E as [L2 W2].
      pose proof (wrote_rem_length _ _ _ W1) as RL. split.
      * rewrite app_length. lia.
      * apply (wrote_trans b _ b1); auto; lia.
    + rewrite S in E. discriminate.
Qed.

Lemma wop_read_spec : forall o b rest, bb_wf b -> wop_ok o ->
  bb_rem b = wop_code o ++ rest ->
  run_op (wop_read o) b = (Ok (wop_value o), bb_adv b (length (wop_code o))).
Proof.
  intros o b rest Wf [T K] E.
  assert (U : forall n v, u_bits n v ++ rest = bb_rem b -> 1 <= n -> v < 2 ^ 64 ->
    N.of_nat (length (bb_rem b)) <? n = false /\
    bval (firstn (N.to_nat n) (bb_rem b)) = v mod 2 ^ n).
  { intros n v E2 Hn Hv. rewrite <- E2. unfold u_bits.
    rewrite app_length, nbits_length. split; [lia|].
    rewrite firstn_app_exact' by (now rewrite nbits_length).
    rewrite bval_nbits. now rewrite N2Nat.id. }
  destruct o; cbn [wop_read wop_code wop_value wop_typed] in *.
  - destruct (U n v) as [U1 U2]; auto; try lia. unfold u_bits. rewrite nbits_length.
    destruct (n <=? 32) eqn:E32; cbn [run_op]; unfold ReadBits, ReadBits64;
      rewrite ReadBitsW_spec by (auto; lia); rewrite U1, U2.
    + replace ((n =? 0) || (32 <? n) || false) with false by lia. reflexivity.
    + replace ((n =? 0) || (64 <? n) || false) with false by lia. reflexivity.
  - destruct (U 8 v) as [U1 U2]; auto; try lia.
    cbn [run_op]. unfold ReadUInt8, sbind. unfold ReadBits. rewrite ReadBitsW_spec by (auto; lia).
    rewrite U1, U2. cbn [orb N.eqb]. change (32 <? 8) with false. cbn [orb].
    rewrite N.mod_small by lia. unfold dcheck. replace (v <=? 255) with true by lia.
    cbn [negb]. rewrite andb_false_r. rewrite u8_small by lia. reflexivity.
  - destruct (U 16 v) as [U1 U2]; auto; try lia.
    cbn [run_op]. unfold ReadUInt16, sbind. unfold ReadBits. rewrite ReadBitsW_spec by (auto; lia).
    rewrite U1, U2. cbn [orb N.eqb]. change (32 <? 16) with false. cbn [orb].
    rewrite N.mod_small by lia. unfold dcheck. replace (v <=? 65535) with true by lia.
    cbn [negb]. rewrite andb_false_r. unfold u16. rewrite N.mod_small by lia. reflexivity.
  - destruct (U 32 v) as [U1 U2]; auto; try lia.
    cbn [run_op]. unfold ReadUInt32, ReadBits. rewrite ReadBitsW_spec by (auto; lia).
    rewrite U1, U2. change (32 <? 32) with false. cbn [orb N.eqb].
    rewrite N.mod_small by lia. reflexivity.
  - cbn [run_op]. rewrite ReadExponentialGolomb_spec by auto.
    rewrite E, ue_dec_complete by lia. reflexivity.
  - cbn [run_op]. rewrite ReadSignedExponentialGolomb_spec by auto.
    pose proof (se_code_range v ltac:(lia)).
    rewrite E. unfold se_bits. rewrite ue_dec_complete by lia. cbn [as_z].
    now rewrite se_dec_code.
  - cbn [run_op]. rewrite (ns_complete n b v rest) by (auto; lia). reflexivity.
Qed.

Lemma run_reads_spec : forall l b rest, bb_wf b -> Forall wop_ok l ->
  bb_rem b = flat_map wop_code l ++ rest ->
  run_reads (map wop_read l) b =
  Some (map wop_value l, bb_adv b (length (flat_map wop_code l))).
Proof.
  induction l as [|o l IH]; intros b rest Wf F E; cbn [run_reads map flat_map] in *.
  - cbn. rewrite bb_adv_0 by apply Wf. reflexivity.
  - inversion F as [|? ? K F']; subst. rewrite <- app_assoc in E.
    erewrite wop_read_spec by eauto.
    assert (L : (length (wop_code o) <= length (bb_rem b))%nat) by (rewrite E, app_length; lia).
    erewrite IH; eauto using bb_adv_wf.
    + rewrite bb_adv_adv, app_length. reflexivity.
    + rewrite bb_adv_rem by auto. rewrite E. apply skipn_app_exact.
Qed.

Lemma write_read : forall l b b2, bb_wf b -> Forall wop_ok l -> run_wops l b = Some b2 ->
  exists b0, Seek (bb_byte b) (bb_bit b) b2 = (Ok tt, b0) /\
    run_reads (map wop_read l) b0 = Some (map wop_value l, b2).
Proof.
  intros l b b2 Wf F E. destruct (run_wops_wrote l b b2 Wf F E) as [L W].
  assert (Wf2 : bb_wf b2) by (eapply wrote_wf; eauto).
  exists (mkbb (bb_bytes b2) (bb_byte b) (bb_bit b) (bb_asserts b2)).
  destruct W as (W1 & W2 & W3 & W4 & W5 & W6).
  pose proof Wf as (H1 & H2 & H3 & H4). split.
  - rewrite Seek_spec by auto. unfold bb_count in *. rewrite W2.
    replace (_ && _) with true by lia. reflexivity.
  - assert (Wf0 : bb_wf (mkbb (bb_bytes b2) (bb_byte b) (bb_bit b) (bb_asserts b2))).
    { unfold bb_wf, bb_count in *. cbn [bb_bytes bb_byte bb_bit]. rewrite W2. auto. }
    erewrite run_reads_spec; eauto.
    + f_equal. f_equal. unfold bb_adv. cbn [bb_bytes bb_byte bb_bit bb_asserts].
      destruct b2 as [B2 y2 t2 a2]; cbn [bb_bytes bb_byte bb_bit bb_asserts] in *.
      unfold bb_pos in W3. cbn [bb_byte bb_bit] in W3. f_equal; lia.
    + unfold bb_rem. cbn [bb_bytes]. rewrite W1.
      replace (bb_pos (mkbb (bb_bytes b2) (bb_byte b) (bb_bit b) (bb_asserts b2))) with (bb_pos b)
        by reflexivity.
      unfold patch. rewrite skipn_app. rewrite skipn_all2 by (rewrite firstn_length; lia).
      assert (LL : length (firstn (bb_pos b) (bits_of (bb_bytes b))) = bb_pos b).
      { apply firstn_length_le'. rewrite bits_of_length. unfold bb_pos, bb_count in *. lia. }
      rewrite LL, Nat.sub_diag. cbn [app skipn]. reflexivity.
Qed.
