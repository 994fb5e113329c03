(** Facts about the bit-string specification. *)
From Coq Require Import NArith ZArith List Bool Lia.
From Coq Require Import ZifyBool ZifyNat ZifyN.
From Verif Require Import SpecBits.
Import ListNotations.
Open Scope N_scope.

Ltac Zify.zify_post_hook ::= Z.div_mod_to_equations.

Lemma bval_bound : forall l, bval l < 2 ^ N.of_nat (length l).
Proof.
  induction l as [|b t IH]; cbn [bval length].
  - reflexivity.
  - replace (N.of_nat (S (length t))) with (N.succ (N.of_nat (length t))) by lia.
    rewrite N.pow_succ_r'. destruct b; lia.
Qed.

Lemma bval_app : forall a b, bval (a ++ b) = bval a * 2 ^ N.of_nat (length b) + bval b.
Proof.
  induction a as [|x t IH]; intros b; cbn [bval app].
  - lia.
  - rewrite IH, app_length, Nat2N.inj_add, N.pow_add_r.
    destruct x; lia.
Qed.

Lemma bval_nil : bval [] = 0. Proof. reflexivity. Qed.
Lemma bval_single : forall b : bool, bval [b] = if b then 1 else 0.
Proof. intros []; reflexivity. Qed.

Lemma nbits_length : forall n v, length (nbits n v) = n.
Proof. induction n; intros; cbn; auto. Qed.

Lemma pow_of_S : forall n, 2 ^ N.of_nat (S n) = 2 * 2 ^ N.of_nat n.
Proof. intros. rewrite Nat2N.inj_succ, N.pow_succ_r'. reflexivity. Qed.

Lemma bval_nbits : forall n v, bval (nbits n v) = v mod 2 ^ N.of_nat n.
Proof.
  induction n as [|n IH]; intros v.
  - cbn. rewrite N.mod_1_r. reflexivity.
  - cbn [nbits bval]. rewrite nbits_length, IH, pow_of_S.
    rewrite (N.mul_comm 2), N.mod_mul_r by (try apply N.pow_nonzero; lia).
    rewrite N.testbit_spec' || idtac.
    pose proof (N.testbit_spec' v (N.of_nat n)) as H.
    destruct (N.testbit v (N.of_nat n)); cbn [N.b2n] in H; rewrite <- H; lia.
Qed.

Lemma bval_nbits_small : forall n v, v < 2 ^ N.of_nat n -> bval (nbits n v) = v.
Proof. intros. rewrite bval_nbits, N.mod_small; auto. Qed.

Lemma bval_inj : forall a b, length a = length b -> bval a = bval b -> a = b.
Proof.
  induction a as [|x t IH]; intros [|y u] L V; cbn in L; try discriminate; auto.
  cbn [bval] in V. injection L as L.
  pose proof (bval_bound t) as B1. pose proof (bval_bound u) as B2. rewrite L in *.
  destruct x, y; try lia; f_equal; try apply IH; auto; lia.
Qed.

Lemma nbits_bval : forall l, nbits (length l) (bval l) = l.
Proof.
  intros. apply bval_inj.
  - apply nbits_length.
  - apply bval_nbits_small, bval_bound.
Qed.

Lemma byte_bits_nbits : forall b, byte_bits b = nbits 8 b.
Proof. reflexivity. Qed.

Lemma byte_bits_length : forall b, length (byte_bits b) = 8%nat.
Proof. reflexivity. Qed.

Lemma bval_byte : forall b, b < 256 -> bval (byte_bits b) = b.
Proof. intros. rewrite byte_bits_nbits. apply bval_nbits_small. exact H. Qed.

Lemma bits_of_length : forall bs, length (bits_of bs) = (8 * length bs)%nat.
Proof.
  induction bs as [|b t IH]; cbn [bits_of flat_map]; auto.
  rewrite app_length, byte_bits_length. fold (bits_of t). rewrite IH. cbn [length]. lia.
Qed.

Lemma bits_of_app : forall a b, bits_of (a ++ b) = bits_of a ++ bits_of b.
Proof. intros. apply flat_map_app. Qed.

Lemma bits_of_cons : forall a b, bits_of (a :: b) = byte_bits a ++ bits_of b.
Proof. reflexivity. Qed.

Lemma skipn_bits_of : forall k bs,
  skipn (8 * k) (bits_of bs) = bits_of (skipn k bs).
Proof.
  induction k as [|k IH]; intros bs.
  - reflexivity.
  - destruct bs as [|b t].
    + cbn [skipn]. rewrite skipn_nil. reflexivity.
    + rewrite bits_of_cons.
      replace (8 * S k)%nat with (8 + 8 * k)%nat by lia.
      rewrite skipn_app, byte_bits_length.
      rewrite skipn_all2 by (rewrite byte_bits_length; lia).
      replace (8 + 8 * k - 8)%nat with (8 * k)%nat by lia.
      cbn [app skipn]. apply IH.
Qed.

Lemma nth_error_skipn_cons : forall A (l : list A) i x,
  nth_error l i = Some x -> skipn i l = x :: skipn (S i) l.
Proof.
  induction l as [|a t IH]; intros [|i] x H; cbn in *; try discriminate.
  - injection H as ->. reflexivity.
  - apply IH in H. rewrite H. reflexivity.
Qed.

Lemma skipn_skipn' : forall A (l : list A) a b, skipn a (skipn b l) = skipn (a + b) l.
Proof.
  intros A l a b. revert l a. induction b as [|b IH]; intros l a.
  - now rewrite Nat.add_0_r.
  - destruct l as [|x t]; [now rewrite !skipn_nil|].
    replace (a + S b)%nat with (S (a + b)) by lia. cbn [skipn]. apply IH.
Qed.

(** Highest / lowest bits of a list and arithmetic. *)
Lemma bval_firstn_skipn : forall l k, (k <= length l)%nat ->
  bval l = bval (firstn k l) * 2 ^ N.of_nat (length l - k) + bval (skipn k l).
Proof.
  intros l k H. rewrite <- (firstn_skipn k l) at 1.
  rewrite bval_app, skipn_length. reflexivity.
Qed.

Lemma bval_firstn : forall l k, (k <= length l)%nat ->
  bval (firstn k l) = bval l / 2 ^ N.of_nat (length l - k).
Proof.
  intros l k H.
  pose proof (bval_firstn_skipn l k H) as E.
  pose proof (bval_bound (skipn k l)) as B. rewrite skipn_length in B.
  eapply N.div_unique; [exact B|]. rewrite E. lia.
Qed.

Lemma bval_skipn : forall l k, (k <= length l)%nat ->
  bval (skipn k l) = bval l mod 2 ^ N.of_nat (length l - k).
Proof.
  intros l k H.
  pose proof (bval_firstn_skipn l k H) as E.
  pose proof (bval_bound (skipn k l)) as B. rewrite skipn_length in B.
  apply N.mod_unique with (q := bval (firstn k l)); [exact B|]. rewrite E at 1. lia.
Qed.

Lemma bval_repeat_false : forall k, bval (repeat false k) = 0.
Proof. induction k; cbn; auto. Qed.

Lemma ue_bits_length : forall v,
  length (ue_bits v) = (2 * N.to_nat (N.log2 (v + 1)) + 1)%nat.
Proof.
  intros. unfold ue_bits. rewrite app_length, repeat_length, nbits_length. lia.
Qed.

(** Leading zeros of a bit string. *)
Fixpoint lead0 (l : list bool) : nat :=
  match l with
  | false :: t => S (lead0 t)
  | _ => O
  end.

Lemma lead0_le : forall l, (lead0 l <= length l)%nat.
Proof. induction l as [|[] t IH]; cbn; lia. Qed.

Lemma lead0_firstn : forall l, firstn (lead0 l) l = repeat false (lead0 l).
Proof. induction l as [|[] t IH]; cbn; auto. now rewrite IH. Qed.

Lemma lead0_next : forall l, (lead0 l < length l)%nat ->
  nth_error l (lead0 l) = Some true.
Proof. induction l as [|[] t IH]; cbn; intros; try lia; auto. apply IH; lia. Qed.

Lemma lead0_app : forall k l, lead0 (repeat false k ++ true :: l) = k.
Proof. induction k; cbn; auto. Qed.

Lemma lead0_repeat : forall k, lead0 (repeat false k) = k.
Proof. induction k; cbn; auto. Qed.

(** nbits (S k) (v+1) starts with a one when k = log2 (v+1). *)
Lemma nbits_top : forall v, 0 < v ->
  exists l, nbits (S (N.to_nat (N.log2 v))) v = true :: l /\
            length l = N.to_nat (N.log2 v).
Proof.
  intros v H. cbn [nbits]. rewrite N2Nat.id.
  rewrite N.bit_log2 by lia. eexists; split; eauto. apply nbits_length.
Qed.

Lemma log2_pow_bound : forall v, 0 < v -> v < 2 ^ N.of_nat (S (N.to_nat (N.log2 v))).
Proof.
  intros. rewrite Nat2N.inj_succ, N2Nat.id. apply N.log2_spec. auto.
Qed.

(** Decoding ue on an abstract bit string: value and length of the codeword. *)
Definition ue_dec (l : list bool) : option (N * nat) :=
  let k := lead0 l in
  if (k <=? 31)%nat && (2 * k + 1 <=? length l)%nat
  then Some (bval (firstn (S k) (skipn k l)) - 1, (2 * k + 1)%nat)
  else None.

Lemma ue_dec_sound : forall l v n, ue_dec l = Some (v, n) ->
  v + 1 < 2 ^ 32 /\ n = length (ue_bits v) /\ firstn n l = ue_bits v /\ (n <= length l)%nat.
Proof.
  intros l v n. unfold ue_dec. set (k := lead0 l).
  destruct ((k <=? 31)%nat && (2 * k + 1 <=? length l)%nat) eqn:E; [|discriminate].
  set (w := firstn (S k) (skipn k l)).
  intros H. assert (Hv : v = bval w - 1) by congruence.
  assert (Hn : n = (2 * k + 1)%nat) by congruence. clear H. subst v n.
  apply andb_true_iff in E. destruct E as [E1 E2].
  assert (K : (k < length l)%nat) by lia.
  pose proof (lead0_next l ltac:(lia)) as NX. fold k in NX.
  apply nth_error_skipn_cons in NX.
  assert (Lw : length w = S k).
  { unfold w. rewrite firstn_length, skipn_length. lia. }
  assert (Hw : exists t, w = true :: t /\ length t = k).
  { unfold w in *. rewrite NX in *. cbn [firstn] in *. eexists; split; [reflexivity|].
    cbn [length] in Lw. lia. }
  destruct Hw as [t [Hw Lt]].
  assert (LOW : 2 ^ N.of_nat k <= bval w).
  { rewrite Hw. cbn [bval]. rewrite Lt. lia. }
  assert (HI : bval w < 2 ^ N.of_nat (S k)).
  { pose proof (bval_bound w) as B. rewrite Lw in B. exact B. }
  assert (P : 0 < 2 ^ N.of_nat k) by (apply N.neq_0_lt_0, N.pow_nonzero; lia).
  assert (V : bval w - 1 + 1 = bval w) by lia.
  assert (LG : N.log2 (bval w) = N.of_nat k).
  { apply N.log2_unique; [lia|]. rewrite pow_of_S in HI.
    rewrite N.pow_succ_r'. lia. }
  assert (U : ue_bits (bval w - 1) = repeat false k ++ w).
  { unfold ue_bits. rewrite V, LG, Nat2N.id. f_equal.
    rewrite <- Lw. apply nbits_bval. }
  split; [|split; [|split]].
  - rewrite V. eapply N.lt_le_trans; [exact HI|].
    apply N.pow_le_mono_r; lia.
  - rewrite U, app_length, repeat_length, Lw. lia.
  - rewrite U. replace (2 * k + 1)%nat with (k + S k)%nat by lia.
    rewrite <- (firstn_skipn k l) at 1.
    rewrite firstn_app, firstn_firstn, firstn_length.
    replace (Nat.min (k + S k) k) with k by lia.
    replace (k + S k - Nat.min k (length l))%nat with (S k) by lia.
    unfold k at 1. rewrite lead0_firstn. reflexivity.
  - lia.
Qed.

Lemma ue_dec_complete : forall v rest, v + 1 < 2 ^ 32 ->
  ue_dec (ue_bits v ++ rest) = Some (v, length (ue_bits v)).
Proof.
  intros v rest H. unfold ue_dec.
  destruct (nbits_top (v + 1) ltac:(lia)) as [t [Ht Lt]].
  assert (E : lead0 (ue_bits v ++ rest) = N.to_nat (N.log2 (v + 1))).
  { unfold ue_bits. rewrite Ht, <- app_assoc. cbn [app]. apply lead0_app. }
  rewrite E. set (k := N.to_nat (N.log2 (v + 1))) in *.
  assert (K : (k <= 31)%nat).
  { assert (N.log2 (v + 1) < 32) by (apply N.log2_lt_pow2; lia). lia. }
  rewrite ue_bits_length. fold k. rewrite app_length, ue_bits_length. fold k.
  replace ((k <=? 31)%nat && _) with true by (symmetry; apply andb_true_iff; split; lia).
  do 2 f_equal.
  assert (S : skipn k (ue_bits v ++ rest) = nbits (S k) (v + 1) ++ rest).
  { unfold ue_bits. fold k. rewrite <- app_assoc, skipn_app, repeat_length, Nat.sub_diag.
    rewrite skipn_all2 by (rewrite repeat_length; lia). reflexivity. }
  rewrite S, firstn_app, nbits_length, Nat.sub_diag.
  rewrite firstn_all2 by (rewrite nbits_length; lia). cbn [firstn]. rewrite app_nil_r.
  rewrite bval_nbits_small; [lia|]. apply log2_pow_bound. lia.
Qed.

(** ue codewords are prefix free. *)
Lemma ue_bits_prefix_free : forall v w r s,
  v + 1 < 2 ^ 32 -> w + 1 < 2 ^ 32 ->
  ue_bits v ++ r = ue_bits w ++ s -> v = w /\ r = s.
Proof.
  intros v w r s Hv Hw E.
  pose proof (ue_dec_complete v r Hv) as A. pose proof (ue_dec_complete w s Hw) as B.
  rewrite E, B in A. injection A as <- _. split; auto.
  apply app_inv_head in E. exact E.
Qed.

(** The se map. *)
Definition se_dec (u : N) : Z :=
  if N.even u then (- Z.of_N (u / 2))%Z else Z.of_N ((u + 1) / 2).

Lemma se_dec_code : forall v, se_dec (se_code v) = v.
Proof.
  intros v. unfold se_dec, se_code.
  destruct (0 <? v)%Z eqn:E.
  - replace (N.even (Z.to_N (2 * v - 1))) with false; [lia|].
    symmetry. rewrite <- N.negb_odd.
    replace (Z.to_N (2 * v - 1)) with (1 + 2 * (Z.to_N v - 1)) by lia.
    rewrite N.odd_add_mul_2. reflexivity.
  - replace (Z.to_N (-2 * v)) with (2 * Z.to_N (- v)) by lia.
    rewrite N.even_mul. cbn [N.even orb].
    rewrite N.mul_comm, N.div_mul by lia. lia.
Qed.

Lemma se_code_dec : forall u, se_code (se_dec u) = u.
Proof.
  intros u. unfold se_dec, se_code.
  destruct (N.even u) eqn:E.
  - apply N.even_spec in E. destruct E as [k ->].
    rewrite N.mul_comm, N.div_mul by lia.
    destruct (0 <? - Z.of_N k)%Z eqn:F; lia.
  - assert (O : N.odd u = true) by (rewrite <- N.negb_even, E; reflexivity).
    apply N.odd_spec in O. destruct O as [k ->].
    destruct (0 <? Z.of_N ((2 * k + 1 + 1) / 2))%Z eqn:F; lia.
Qed.
