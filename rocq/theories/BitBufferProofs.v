(** The BitBuffer model refines reading from a bit string. *)
From Coq Require Import NArith ZArith List Bool Lia.
From Coq Require Import ZifyBool ZifyNat ZifyN.
From Verif Require Import SpecBits BitsLemmas Base BitBuffer SpecReader.
Import ListNotations.
Open Scope N_scope.

Ltac Zify.zify_post_hook ::= Z.div_mod_to_equations.

(** Invariant, advance. *)
Definition bb_wf (b : bb) : Prop :=
  bytes_ok (bb_bytes b) /\ bb_bit b < 8 /\
  8 * bb_byte b + bb_bit b <= 8 * bb_count b /\ bb_count b < 2 ^ 61.
Definition bb_adv (b : bb) (n : nat) : bb :=
  let p := 8 * bb_byte b + bb_bit b + N.of_nat n in
  mkbb (bb_bytes b) (p / 8) (p mod 8) (bb_asserts b).

Lemma bb_rem_length : forall b, bb_wf b ->
  N.of_nat (length (bb_rem b)) = 8 * bb_count b - (8 * bb_byte b + bb_bit b).
Proof.
  intros b (H1 & H2 & H3 & H4). unfold bb_rem. rewrite skipn_length, bits_of_length.
  unfold bb_pos, bb_count in *. lia.
Qed.

Lemma sub64_small : forall a b, b <= a -> a < 2 ^ 64 -> sub64 a b = a - b.
Proof.
  intros a b H1 H2. unfold sub64. rewrite (N.mod_small b) by lia.
  replace (a + (2 ^ 64 - b)) with (a - b + 1 * 2 ^ 64) by lia.
  rewrite N.mod_add by lia. apply N.mod_small. lia.
Qed.

Lemma sub32_small : forall a b, b <= a -> a < 2 ^ 32 -> sub32 a b = a - b.
Proof.
  intros a b H1 H2. unfold sub32. rewrite (N.mod_small b) by lia.
  replace (a + (2 ^ 32 - b)) with (a - b + 1 * 2 ^ 32) by lia.
  rewrite N.mod_add by lia. apply N.mod_small. lia.
Qed.

Lemma u64_small : forall a, a < 2 ^ 64 -> u64 a = a.
Proof. intros. apply N.mod_small. auto. Qed.
Lemma u32_small : forall a, a < 2 ^ 32 -> u32 a = a.
Proof. intros. apply N.mod_small. auto. Qed.
Lemma u8_small : forall a, a < 2 ^ 8 -> u8 a = a.
Proof. intros. apply N.mod_small. auto. Qed.

Lemma RemainingBitCount_spec : forall b, bb_wf b ->
  RemainingBitCount b = N.of_nat (length (bb_rem b)).
Proof.
  intros b H. rewrite bb_rem_length by auto.
  destruct H as (H1 & H2 & H3 & H4). unfold RemainingBitCount.
  rewrite (sub64_small (bb_count b)) by lia.
  rewrite u64_small by lia. rewrite sub64_small by lia. lia.
Qed.

Lemma bb_adv_rem : forall b n, (n <= length (bb_rem b))%nat ->
  bb_rem (bb_adv b n) = skipn n (bb_rem b).
Proof.
  intros b n H. unfold bb_rem, bb_adv, bb_pos. cbn [bb_byte bb_bit bb_bytes].
  rewrite skipn_skipn'. f_equal. lia.
Qed.

Lemma bb_adv_wf : forall b n, bb_wf b -> (n <= length (bb_rem b))%nat ->
  bb_wf (bb_adv b n).
Proof.
  intros b n W H. pose proof (bb_rem_length b W) as L.
  destruct W as (H1 & H2 & H3 & H4).
  unfold bb_wf, bb_adv, bb_count in *. cbn [bb_byte bb_bit bb_bytes].
  repeat split; auto; lia.
Qed.

Lemma bb_adv_pos : forall b n, bb_pos (bb_adv b n) = (bb_pos b + n)%nat.
Proof. intros. unfold bb_pos, bb_adv. cbn [bb_byte bb_bit]. lia. Qed.

Lemma bb_adv_adv : forall b m n, bb_adv (bb_adv b m) n = bb_adv b (m + n).
Proof.
  intros. unfold bb_adv. cbn [bb_byte bb_bit bb_bytes bb_asserts].
  f_equal; lia.
Qed.

Lemma bb_adv_0 : forall b, bb_bit b < 8 -> bb_adv b 0 = b.
Proof.
  intros [bs y t a] H. unfold bb_adv. cbn [bb_byte bb_bit bb_bytes bb_asserts] in *.
  f_equal; lia.
Qed.

Lemma bb_adv_bytes : forall b n, bb_bytes (bb_adv b n) = bb_bytes b.
Proof. reflexivity. Qed.
Lemma bb_adv_asserts : forall b n, bb_asserts (bb_adv b n) = bb_asserts b.
Proof. reflexivity. Qed.

(** Byte-level helpers. *)
Lemma LowestBits_spec : forall a v k, k <= 8 -> LowestBits a v k = Ok (v mod 2 ^ k).
Proof.
  intros a v k H. unfold LowestBits, dcheck.
  replace (k <=? 8) with true by lia. rewrite andb_false_r.
  replace (31 <=? k) with false by lia.
  f_equal. rewrite <- N.pred_sub. fold (N.ones k). rewrite N.land_ones.
  assert (v mod 2 ^ k < 2 ^ k) by (apply N.mod_lt, N.pow_nonzero; lia).
  assert (2 ^ k <= 2 ^ 8) by (apply N.pow_le_mono_r; lia).
  apply u8_small. lia.
Qed.

Definition all_bytes : list N := map N.of_nat (seq 0 256).
Lemma all_bytes_in : forall v, v < 256 -> In v all_bytes.
Proof.
  intros v H. unfold all_bytes. apply in_map_iff. exists (N.to_nat v).
  split; [lia|]. apply in_seq. lia.
Qed.
Lemma byte_forall : forall P : N -> bool, forallb P all_bytes = true ->
  forall v, v < 256 -> P v = true.
Proof. intros P H v L. rewrite forallb_forall in H. apply H, all_bytes_in, L. Qed.

Definition HB (v k : N) : N :=
  let shift := u8 (u8 (8 + (2 ^ 8 - u8 k))) in
  u8 (N.shiftr (N.land v (u8 (N.shiftl 255 shift))) shift).

Lemma HB_spec : forall v k, v < 256 -> k <= 8 -> HB v k = v / 2 ^ (8 - k).
Proof.
  intros v k Hv Hk.
  assert (E : (k = 0 \/ k = 1 \/ k = 2 \/ k = 3 \/ k = 4 \/ k = 5 \/ k = 6 \/ k = 7 \/ k = 8))
    by lia.
  apply N.eqb_eq. revert v Hv.
  decompose [or] E; subst k; apply byte_forall; vm_compute; reflexivity.
Qed.

Lemma HighestBits_spec : forall a v k, v < 256 -> k <= 8 ->
  HighestBits a v k = Ok (v / 2 ^ (8 - k)).
Proof.
  intros a v k Hv Hk. unfold HighestBits, dcheck.
  replace (k <=? 8) with true by lia. rewrite andb_false_r.
  rewrite <- HB_spec by auto. fold (HB v k).
  unfold HB. cbv zeta.
  destruct (24 <=? u8 (u8 (8 + (2 ^ 8 - u8 k)))) eqn:E; [exfalso|reflexivity].
  unfold u8 in E. lia.
Qed.

Lemma lor_shiftl_add : forall a v k, v < 2 ^ k -> N.lor (N.shiftl a k) v = a * 2 ^ k + v.
Proof.
  intros a v k H. rewrite N.shiftl_mul_pow2.
  assert (L : N.land (a * 2 ^ k) v = 0).
  { apply N.bits_inj. intros i. rewrite N.land_spec, N.bits_0.
    destruct (N.ltb_spec i k).
    - rewrite N.mul_pow2_bits_low by auto. reflexivity.
    - destruct (N.eq_dec v 0) as [->|NZ]; [now rewrite N.bits_0, andb_false_r|].
      rewrite (N.bits_above_log2 v i); [now rewrite andb_false_r|].
      assert (N.log2 v < k) by (apply N.log2_lt_pow2; lia). lia. }
  rewrite <- N.lxor_lor by exact L. symmetry. apply N.add_nocarry_lxor. exact L.
Qed.

(** Fetching the byte under the position. *)
Lemma bb_pos_split : forall b, bb_bit b < 8 ->
  bb_rem b = skipn (N.to_nat (bb_bit b)) (bits_of (skipn (N.to_nat (bb_byte b)) (bb_bytes b))).
Proof.
  intros b H. unfold bb_rem, bb_pos. rewrite <- skipn_bits_of, skipn_skipn'.
  f_equal. lia.
Qed.

Lemma fetch_spec : forall bs i, i < N.of_nat (length bs) -> bytes_ok bs ->
  exists v, fetch bs i = Ok v /\ v < 256 /\
            skipn (N.to_nat i) bs = v :: skipn (S (N.to_nat i)) bs.
Proof.
  intros bs i H O. unfold fetch.
  destruct (nth_error bs (N.to_nat i)) as [v|] eqn:E.
  - exists v. split; [auto|split].
    + unfold bytes_ok in O. rewrite Forall_forall in O. apply O.
      eapply nth_error_In; eauto.
    + apply nth_error_skipn_cons; auto.
  - apply nth_error_None in E. lia.
Qed.

Lemma fetch_rem : forall b, bb_wf b -> bb_rem b <> [] ->
  exists v, fetch (bb_bytes b) (bb_byte b) = Ok v /\ v < 256 /\
            bb_rem b = skipn (N.to_nat (bb_bit b)) (byte_bits v) ++
                       bits_of (skipn (S (N.to_nat (bb_byte b))) (bb_bytes b)).
Proof.
  intros b W NE. pose proof (bb_rem_length b W) as L.
  assert (length (bb_rem b) <> 0)%nat by (destruct (bb_rem b); cbn; congruence).
  destruct W as (H1 & H2 & H3 & H4). unfold bb_count in *.
  destruct (fetch_spec (bb_bytes b) (bb_byte b)) as (v & F & V & S); [lia|auto|].
  exists v. split; [auto|split;[auto|]].
  rewrite bb_pos_split by auto. rewrite S, bits_of_cons, skipn_app, byte_bits_length.
  replace (N.to_nat (bb_bit b) - 8)%nat with 0%nat by lia. reflexivity.
Qed.

Lemma firstn_byte_bits : forall v k, v < 256 -> (k <= 8)%nat ->
  bval (firstn k (byte_bits v)) = v / 2 ^ (8 - N.of_nat k).
Proof.
  intros v k Hv Hk. rewrite bval_firstn by (rewrite byte_bits_length; auto).
  rewrite bval_byte by auto. rewrite byte_bits_length. f_equal. f_equal. lia.
Qed.

Lemma skipn_byte_bits : forall v k, v < 256 -> (k <= 8)%nat ->
  bval (skipn k (byte_bits v)) = v mod 2 ^ (8 - N.of_nat k).
Proof.
  intros v k Hv Hk. rewrite bval_skipn by (rewrite byte_bits_length; auto).
  rewrite bval_byte by auto. rewrite byte_bits_length. f_equal. f_equal. lia.
Qed.

Lemma firstn_length_le' : forall A (l : list A) n, (n <= length l)%nat ->
  length (firstn n l) = n.
Proof. intros. rewrite firstn_length. lia. Qed.

Lemma Peek_loop_spec : forall fuel w a bs idx n bits m,
  bytes_ok bs -> n <= 8 * N.of_nat (length bs) - 8 * idx -> idx <= N.of_nat (length bs) ->
  n < 8 * N.of_nat fuel + 8 -> bits < 2 ^ m -> m + n <= w ->
  Peek_loop fuel w a bs idx n bits =
  Ok (bits * 2 ^ n + bval (firstn (N.to_nat n) (bits_of (skipn (N.to_nat idx) bs)))).
Proof.
  induction fuel as [|f IH]; intros w a bs idx n bits m O Hn Hi Hf Hb Hw;
    cbn [Peek_loop]; destruct (8 <=? n) eqn:E8.
  - lia.
  - destruct (0 <? n) eqn:E0.
    + destruct (fetch_spec bs idx) as (v & F & V & S); [lia|auto|].
      rewrite F. cbn [rbind]. rewrite HighestBits_spec by lia. cbn [rbind].
      assert (P : 2 ^ n * 2 ^ m <= 2 ^ w).
      { rewrite <- N.pow_add_r. apply N.pow_le_mono_r; lia. }
      rewrite N.shiftl_mul_pow2.
      assert (bits * 2 ^ n < 2 ^ w).
      { eapply N.lt_le_trans; [|exact P]. rewrite N.mul_comm.
        apply N.mul_lt_mono_pos_l; auto. apply N.neq_0_lt_0, N.pow_nonzero; lia. }
      rewrite N.mod_small by auto. rewrite <- N.shiftl_mul_pow2.
      rewrite S, bits_of_cons, firstn_app, byte_bits_length.
      replace (N.to_nat n - 8)%nat with 0%nat by lia. cbn [firstn].
      rewrite app_nil_r, firstn_byte_bits by lia. rewrite N2Nat.id.
      rewrite lor_shiftl_add; [now rewrite N.shiftl_mul_pow2|].
      apply N.div_lt_upper_bound; [apply N.pow_nonzero; lia|].
      rewrite <- N.pow_add_r. replace (8 - n + n) with 8 by lia. exact V.
    + replace n with 0 by lia. cbn [N.to_nat firstn bval]. cbn. f_equal. lia.
  - destruct (fetch_spec bs idx) as (v & F & V & S); [lia|auto|].
    rewrite F. cbn [rbind].
    assert (P : 2 ^ 8 * 2 ^ m <= 2 ^ w).
    { rewrite <- N.pow_add_r. apply N.pow_le_mono_r; lia. }
    rewrite lor_shiftl_add by exact V.
    assert (B : bits * 2 ^ 8 + v < 2 ^ (m + 8)).
    { rewrite N.pow_add_r. change (2 ^ 8) with 256 in *. lia. }
    rewrite N.mod_small.
    2:{ eapply N.lt_le_trans; [exact B|]. apply N.pow_le_mono_r; lia. }
    rewrite (IH w a bs (idx + 1) (n - 8) _ (m + 8)) by (auto; lia).
    f_equal.
    rewrite S, bits_of_cons, firstn_app, byte_bits_length.
    rewrite (firstn_all2 (byte_bits v)) by (rewrite byte_bits_length; lia).
    rewrite bval_app, bval_byte by auto.
    replace (N.to_nat (idx + 1)) with (Datatypes.S (N.to_nat idx)) by lia.
    replace (N.to_nat n - 8)%nat with (N.to_nat (n - 8)) by lia.
    rewrite firstn_length_le'.
    2:{ rewrite bits_of_length, skipn_length. lia. }
    rewrite N2Nat.id.
    replace (2 ^ n) with (2 ^ 8 * 2 ^ (n - 8)) by (rewrite <- N.pow_add_r; f_equal; lia).
    lia.
  - destruct (0 <? n) eqn:E0.
    + destruct (fetch_spec bs idx) as (v & F & V & S); [lia|auto|].
      rewrite F. cbn [rbind]. rewrite HighestBits_spec by lia. cbn [rbind].
      assert (P : 2 ^ n * 2 ^ m <= 2 ^ w).
      { rewrite <- N.pow_add_r. apply N.pow_le_mono_r; lia. }
      rewrite N.shiftl_mul_pow2.
      assert (bits * 2 ^ n < 2 ^ w).
      { eapply N.lt_le_trans; [|exact P]. rewrite N.mul_comm.
        apply N.mul_lt_mono_pos_l; auto. apply N.neq_0_lt_0, N.pow_nonzero; lia. }
      rewrite N.mod_small by auto. rewrite <- N.shiftl_mul_pow2.
      rewrite S, bits_of_cons, firstn_app, byte_bits_length.
      replace (N.to_nat n - 8)%nat with 0%nat by lia. cbn [firstn].
      rewrite app_nil_r, firstn_byte_bits by lia. rewrite N2Nat.id.
      rewrite lor_shiftl_add; [now rewrite N.shiftl_mul_pow2|].
      apply N.div_lt_upper_bound; [apply N.pow_nonzero; lia|].
      rewrite <- N.pow_add_r. replace (8 - n + n) with 8 by lia. exact V.
    + replace n with 0 by lia. cbn [N.to_nat firstn bval]. cbn. f_equal. lia.
Qed.

(** PeekBits = value of the next bits. *)
Lemma PeekBitsW_spec : forall w n b, bb_wf b -> w <= 64 ->  8 <= w ->
  PeekBitsW w n b =
  if (n =? 0) || (w <? n) || (N.of_nat (length (bb_rem b)) <? n) then Null
  else Ok (bval (firstn (N.to_nat n) (bb_rem b))).
Proof.
  intros w n b W Hw Hw8. unfold PeekBitsW. rewrite RemainingBitCount_spec by auto.
  destruct ((n =? 0) || (w <? n)) eqn:E1; cbn [orb]; auto.
  destruct (N.of_nat (length (bb_rem b)) <? n) eqn:E2; auto.
  apply orb_false_iff in E1. destruct E1 as [E1 E1'].
  assert (NE : bb_rem b <> []) by (destruct (bb_rem b); cbn in *; [lia|congruence]).
  destruct (fetch_rem b W NE) as (v & F & V & R).
  pose proof (bb_rem_length b W) as L.
  destruct W as (H1 & H2 & H3 & H4). unfold bb_count in *.
  rewrite F. cbn [rbind].
  rewrite (sub64_small 8) by lia.
  rewrite LowestBits_spec by lia. cbn [rbind].
  set (t := bb_bit b) in *. set (k := 8 - t) in *.
  assert (M : v mod 2 ^ k < 2 ^ k) by (apply N.mod_lt, N.pow_nonzero; lia).
  assert (K8 : 2 ^ k <= 2 ^ 8) by (apply N.pow_le_mono_r; lia).
  assert (LS : length (skipn (N.to_nat t) (byte_bits v)) = N.to_nat k).
  { rewrite skipn_length, byte_bits_length. lia. }
  rewrite R.
  assert (VS : bval (skipn (N.to_nat t) (byte_bits v)) = v mod 2 ^ k).
  { rewrite skipn_byte_bits by lia. rewrite N2Nat.id. reflexivity. }
  destruct (n <? k) eqn:E3.
  - rewrite u8_small by lia. rewrite u64_small by lia.
    rewrite HighestBits_spec by lia. f_equal.
    rewrite firstn_app, LS. replace (N.to_nat n - N.to_nat k)%nat with 0%nat by lia.
    cbn [firstn]. rewrite app_nil_r.
    rewrite bval_firstn by lia. rewrite VS, LS. f_equal. f_equal. lia.
  - rewrite (Peek_loop_spec 8 w _ _ _ _ _ k) by (auto; lia).
    f_equal. rewrite firstn_app, LS.
    rewrite (firstn_all2 (skipn _ _)) by lia.
    rewrite bval_app, VS.
    replace (N.to_nat (bb_byte b + 1)) with (S (N.to_nat (bb_byte b))) by lia.
    replace (N.to_nat n - N.to_nat k)%nat with (N.to_nat (n - k)) by lia.
    rewrite firstn_length_le'; [rewrite N2Nat.id; reflexivity|].
    rewrite R, app_length, LS in E2. lia.
Qed.

Lemma ConsumeBits_spec : forall n b, bb_wf b ->
  ConsumeBits n b =
  if N.of_nat (length (bb_rem b)) <? n then (Null, b)
  else (Ok tt, bb_adv b (N.to_nat n)).
Proof.
  intros n b W. unfold ConsumeBits. rewrite RemainingBitCount_spec by auto.
  destruct (N.of_nat (length (bb_rem b)) <? n) eqn:E; auto.
  pose proof (bb_rem_length b W) as L.
  destruct W as (H1 & H2 & H3 & H4). unfold bb_count in *.
  rewrite !u64_small; try lia.
  2:{ rewrite u64_small by lia. lia. }
  do 2 f_equal. unfold bb_adv. f_equal; lia.
Qed.

Lemma ReadBitsW_spec : forall w n b, bb_wf b -> w <= 64 -> 8 <= w ->
  ReadBitsW w n b =
  if (n =? 0) || (w <? n) || (N.of_nat (length (bb_rem b)) <? n) then (Null, b)
  else (Ok (bval (firstn (N.to_nat n) (bb_rem b))), bb_adv b (N.to_nat n)).
Proof.
  intros. unfold ReadBitsW. rewrite PeekBitsW_spec by auto.
  destruct ((n =? 0) || (w <? n) || (N.of_nat (length (bb_rem b)) <? n)) eqn:E; auto.
  rewrite ConsumeBits_spec by auto.
  apply orb_false_iff in E. destruct E as [_ ->]. reflexivity.
Qed.

Definition rd_ok (n : N) (b : bb) : bool :=
  negb ((n =? 0) || (32 <? n) || (N.of_nat (length (bb_rem b)) <? n)).

Lemma ReadBits_spec : forall n b, bb_wf b ->
  ReadBits n b =
  if rd_ok n b
  then (Ok (bval (firstn (N.to_nat n) (bb_rem b))), bb_adv b (N.to_nat n))
  else (Null, b).
Proof.
  intros. unfold ReadBits, rd_ok. rewrite ReadBitsW_spec by (auto; lia).
  destruct ((n =? 0) || (32 <? n) || (N.of_nat (length (bb_rem b)) <? n)); reflexivity.
Qed.

Lemma Seek_spec : forall y t b, bb_wf b ->
  Seek y t b = if (8 * y + t <=? 8 * bb_count b) && (t <? 8)
               then (Ok tt, mkbb (bb_bytes b) y t (bb_asserts b)) else (Null, b).
Proof.
  intros y t b W. unfold Seek.
  destruct ((bb_count b <? y) || (7 <? t) || (y =? bb_count b) && (0 <? t)) eqn:E;
  destruct ((8 * y + t <=? 8 * bb_count b) && (t <? 8)) eqn:F; auto; exfalso; lia.
Qed.

(** Exp-Golomb. *)
Lemma PeekBits1_spec : forall b, bb_wf b ->
  PeekBits 1 b = match bb_rem b with
                 | [] => Null
                 | x :: _ => Ok (if x : bool then 1 else 0)
                 end.
Proof.
  intros b W. unfold PeekBits. rewrite PeekBitsW_spec by (auto; lia).
  destruct (bb_rem b) as [|x t].
  - reflexivity.
  - replace ((1 =? 0) || (32 <? 1) || (N.of_nat (length (x :: t)) <? 1)) with false
      by (cbn [length]; lia).
    change (N.to_nat 1) with 1%nat. cbn [firstn]. now rewrite bval_single.
Qed.

Lemma ueg_zeros_spec : forall fuel z b, bb_wf b -> (length (bb_rem b) <= fuel)%nat ->
  ueg_zeros fuel z b =
  (Ok (z + N.of_nat (lead0 (bb_rem b))), bb_adv b (lead0 (bb_rem b))).
Proof.
  induction fuel as [|f IH]; intros z b W H.
  - cbn [ueg_zeros]. rewrite PeekBits1_spec by auto.
    destruct (bb_rem b) as [|x t] eqn:E; [|cbn in H; lia].
    cbn [lead0]. rewrite bb_adv_0 by apply W. f_equal. f_equal. lia.
  - cbn [ueg_zeros]. rewrite PeekBits1_spec by auto.
    destruct (bb_rem b) as [|[] t] eqn:E.
    + cbn [lead0]. rewrite bb_adv_0 by apply W. f_equal. f_equal. lia.
    + cbn [lead0]. rewrite bb_adv_0 by apply W. cbn. f_equal. f_equal. lia.
    + cbn [N.eqb]. rewrite ConsumeBits_spec by auto. rewrite E.
      replace (N.of_nat (length (false :: t)) <? 1) with false by (cbn [length]; lia).
      change (N.to_nat 1) with 1%nat. cbn [snd].
      assert (L : (1 <= length (bb_rem b))%nat) by (rewrite E; cbn; lia).
      assert (R : bb_rem (bb_adv b 1) = t) by (rewrite bb_adv_rem, E; auto).
      rewrite IH by (try apply bb_adv_wf; auto; rewrite R; cbn in H; lia).
      rewrite R, bb_adv_adv. cbn [lead0]. f_equal. f_equal. lia.
Qed.

Lemma bb_rem_le_bytes : forall b, (length (bb_rem b) <= 8 * length (bb_bytes b))%nat.
Proof. intros. unfold bb_rem. rewrite skipn_length, bits_of_length. lia. Qed.

Lemma check_seek_back : forall b n, bb_wf b -> (n <= length (bb_rem b))%nat ->
  check_seek (bb_byte b) (bb_bit b) (bb_adv b n) =
  (Ok tt, if bb_asserts b then b else bb_adv b n).
Proof.
  intros b n W H. unfold check_seek. rewrite bb_adv_asserts.
  destruct (bb_asserts b) eqn:A; auto.
  rewrite Seek_spec by (apply bb_adv_wf; auto).
  destruct W as (H1 & H2 & H3 & H4).
  unfold bb_count in *. rewrite bb_adv_bytes.
  replace (_ && _) with true by lia. f_equal.
  destruct b; cbn in *. congruence.
Qed.

Lemma ReadExponentialGolomb_spec : forall b, bb_wf b ->
  ReadExponentialGolomb b =
  match ue_dec (bb_rem b) with
  | Some (v, n) => (Ok v, bb_adv b n)
  | None => (Null, if bb_asserts b then b else bb_adv b (lead0 (bb_rem b)))
  end.
Proof.
  intros b W. unfold ReadExponentialGolomb, sbind.
  rewrite ueg_zeros_spec by (auto; apply bb_rem_le_bytes).
  set (k := lead0 (bb_rem b)).
  assert (K : (k <= length (bb_rem b))%nat) by apply lead0_le.
  pose proof (bb_adv_wf b k W K) as W'.
  pose proof (bb_adv_rem b k K) as R'.
  set (chk := if bb_asserts (bb_adv b k) then _ else _).
  assert (CH : chk = Ok tt).
  { unfold chk. destruct (bb_asserts (bb_adv b k)); auto.
    rewrite PeekBits1_spec by auto. rewrite R'.
    destruct (skipn k (bb_rem b)) as [|x t] eqn:E; auto.
    assert (KL : (k < length (bb_rem b))%nat).
    { assert (length (skipn k (bb_rem b)) = S (length t)) by (rewrite E; auto).
      rewrite skipn_length in H. lia. }
    pose proof (lead0_next (bb_rem b) KL) as NX. fold k in NX.
    apply nth_error_skipn_cons in NX. rewrite NX in E. injection E as <- _. reflexivity. }
  rewrite CH.
  rewrite ReadBits_spec by auto. unfold rd_ok. rewrite R', skipn_length.
  unfold ue_dec. fold k.
  destruct (32 <? 0 + N.of_nat k + 1) eqn:E32.
  - replace ((k <=? 31)%nat && (2 * k + 1 <=? length (bb_rem b))%nat) with false by lia.
    rewrite check_seek_back by auto. reflexivity.
  - match goal with |- context [negb ?c] => destruct c eqn:E end; cbn [negb].
    + replace ((k <=? 31)%nat && (2 * k + 1 <=? length (bb_rem b))%nat) with false by lia.
      rewrite check_seek_back by auto. reflexivity.
    + replace ((k <=? 31)%nat && (2 * k + 1 <=? length (bb_rem b))%nat) with true by lia.
      replace (N.to_nat (0 + N.of_nat k + 1)) with (S k) by lia.
      rewrite bb_adv_adv. replace (k + S k)%nat with (2 * k + 1)%nat by lia.
      f_equal. f_equal.
      assert (KL : (k < length (bb_rem b))%nat) by lia.
      pose proof (lead0_next (bb_rem b) KL) as NX. fold k in NX.
      apply nth_error_skipn_cons in NX.
      pose proof (bval_bound (firstn (S k) (skipn k (bb_rem b)))) as B.
      rewrite firstn_length_le' in B by (rewrite skipn_length; lia).
      assert (2 ^ N.of_nat (S k) <= 2 ^ 32) by (apply N.pow_le_mono_r; lia).
      rewrite sub32_small; try lia.
      rewrite NX. cbn [firstn bval].
      assert (0 < 2 ^ N.of_nat (length (firstn k (skipn (S k) (bb_rem b)))))
        by (apply N.neq_0_lt_0, N.pow_nonzero; lia).
      lia.
Qed.

Lemma se_of_code_spec : forall u, u < 2 ^ 32 - 1 -> se_of_code u = Ok (se_dec u).
Proof.
  intros u H. unfold se_of_code, se_dec.
  rewrite <- N.bit0_mod || idtac.
  assert (E : (N.land u 1 =? 0) = N.even u).
  { change 1 with (N.ones 1). rewrite N.land_ones. change (2 ^ 1) with 2.
    rewrite <- N.negb_odd. rewrite <- N.bit0_odd.
    pose proof (N.bit0_mod u) as B. destruct (N.testbit u 0); cbn in B; lia. }
  rewrite E. destruct (N.even u) eqn:V.
  - unfold to_i32. replace (u / 2 <? 2 ^ 31) with true by lia.
    unfold chk_i32. replace ((_ <=? _)%Z && _)%bool with true by lia. reflexivity.
  - rewrite u32_small by lia. unfold to_i32.
    assert (u <> 2 ^ 32 - 2) by (intros ->; discriminate V).
    replace ((u + 1) / 2 <? 2 ^ 31) with true by lia. reflexivity.
Qed.

Lemma ue_dec_range : forall l v n, ue_dec l = Some (v, n) -> v < 2 ^ 32 - 1.
Proof. intros l v n H. apply ue_dec_sound in H. lia. Qed.

Lemma ReadSignedExponentialGolomb_spec : forall b, bb_wf b ->
  ReadSignedExponentialGolomb b =
  match ue_dec (bb_rem b) with
  | Some (v, n) => (Ok (se_dec v), bb_adv b n)
  | None => (Null, if bb_asserts b then b else bb_adv b (lead0 (bb_rem b)))
  end.
Proof.
  intros b W. unfold ReadSignedExponentialGolomb, sbind.
  rewrite ReadExponentialGolomb_spec by auto.
  destruct (ue_dec (bb_rem b)) as [[v n]|] eqn:E; auto.
  unfold sres. rewrite se_of_code_spec; auto. eapply ue_dec_range; eauto.
Qed.
